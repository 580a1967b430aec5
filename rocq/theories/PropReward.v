(** * Property theorems (generated from ProofsReward.v by tools/genprops.py; statements only,
    each closed by [exact]). *)
From Verif Require Import Base BaseFacts InputFacts Params Geom TT2d Bicycle NTrailer Acc SpecGeom SpecBodies SpecDyn SpecReward
  Rollout Planner Instances ProofsGeom ProofsBodies ProofsKin ProofsRobots ProofsSafety ProofsStep.
From Verif Require Import ProofsReward.
Open Scope R_scope.

(** C16: the terminal reward of the tractor-trailer is the distance score of the tracked
    reference point. *)
Theorem C16_tt_terminal_formula :
  forall s q, 
  (tracks_tractor (p_motion (ts_p s)) ->
   tt_terminal s q = score (dist (front_axle (ts_p s) (t_px q) (t_py q) (t_th1 q)) (t_px (ts_xg s), t_py (ts_xg s))) (p_term_thr (ts_p s))) /\
  (~ tracks_tractor (p_motion (ts_p s)) ->
   tt_terminal s q = score (dist (trailer_axle (ts_p s) q) (trailer_axle (ts_p s) (ts_xg s))) (p_term_thr (ts_p s))).
Proof. exact l_C16_tt_terminal_formula. Qed.
Print Assumptions C16_tt_terminal_formula.

(** C16: when the trailer is tracked the terminal reward lies in [0,1], is 1 exactly with the
    trailer axle at the goal's trailer axle, 0 exactly from the threshold distance on, and
    strictly larger for the nearer of two states when that one is within the threshold. *)
Theorem C16_tt_terminal_trailer_tracking :
  forall s q q', ~ tracks_tractor (p_motion (ts_p s)) -> 0 < p_term_thr (ts_p s) ->
  let d x := dist (trailer_axle (ts_p s) x) (trailer_axle (ts_p s) (ts_xg s)) in
  0 <= tt_terminal s q <= 1 /\
  (tt_terminal s q = 1 <-> trailer_axle (ts_p s) q = trailer_axle (ts_p s) (ts_xg s)) /\
  (tt_terminal s q = 0 <-> p_term_thr (ts_p s) <= d q) /\
  (d q' < d q -> d q' < p_term_thr (ts_p s) -> tt_terminal s q < tt_terminal s q') /\
  tt_terminal s (ts_xg s) = 1.
Proof. exact l_C16_tt_terminal_trailer_tracking. Qed.
Print Assumptions C16_tt_terminal_trailer_tracking.

(** C16: when the tractor is tracked the same holds of the tractor's front axle and the goal
    position. *)
Theorem C16_tt_terminal_tractor_tracking :
  forall s q q', tracks_tractor (p_motion (ts_p s)) -> 0 < p_term_thr (ts_p s) ->
  let d x := dist (front_axle (ts_p s) (t_px x) (t_py x) (t_th1 x)) (t_px (ts_xg s), t_py (ts_xg s)) in
  0 <= tt_terminal s q <= 1 /\
  (tt_terminal s q = 1 <-> front_axle (ts_p s) (t_px q) (t_py q) (t_th1 q) = (t_px (ts_xg s), t_py (ts_xg s))) /\
  (tt_terminal s q = 0 <-> p_term_thr (ts_p s) <= d q) /\
  (d q' < d q -> d q' < p_term_thr (ts_p s) -> tt_terminal s q < tt_terminal s q').
Proof. exact l_C16_tt_terminal_tractor_tracking. Qed.
Print Assumptions C16_tt_terminal_tractor_tracking.

(** C16, what does not hold: with the tractor tracked the goal state itself is not optimal. Its
    front axle is a wheelbase away from the goal position, so its terminal reward is the score
    at distance l1, less than 1, while the state shifted back by the wheelbase has reward 1. *)
Theorem C16_tt_goal_state_not_optimal_refuted :
  forall s, tracks_tractor (p_motion (ts_p s)) -> 0 < p_term_thr (ts_p s) -> 0 < p_l1 (ts_p s) ->
  let xg := ts_xg s in
  let shifted := mkTT (t_px xg - p_l1 (ts_p s) * cos (t_th1 xg)) (t_py xg - p_l1 (ts_p s) * sin (t_th1 xg)) (t_th1 xg) (t_th2 xg) in
  tt_terminal s xg = score (p_l1 (ts_p s)) (p_term_thr (ts_p s)) /\ tt_terminal s xg < 1 /\ tt_terminal s shifted = 1.
Proof. exact l_C16_tt_goal_state_not_optimal_refuted. Qed.
Print Assumptions C16_tt_goal_state_not_optimal_refuted.

Example C16_tt_example : ~ tracks_tractor (p_motion (ts_p ex_tt)) /\ 0 < p_term_thr (ts_p ex_tt).
Proof. exact x_C16_tt_example. Qed.

(** C16: bicycle: the front axle is compared with the goal position. *)
Theorem C16_bk_terminal :
  forall s q q', 0 < p_term_thr (bs_p s) ->
  let d x := dist (front_axle (bs_p s) (b_px x) (b_py x) (b_th x)) (b_px (bs_xg s), b_py (bs_xg s)) in
  bk_terminal s q = score (d q) (p_term_thr (bs_p s)) /\ 0 <= bk_terminal s q <= 1 /\
  (bk_terminal s q = 1 <-> front_axle (bs_p s) (b_px q) (b_py q) (b_th q) = (b_px (bs_xg s), b_py (bs_xg s))) /\
  (bk_terminal s q = 0 <-> p_term_thr (bs_p s) <= d q) /\
  (d q' < d q -> d q' < p_term_thr (bs_p s) -> bk_terminal s q < bk_terminal s q').
Proof. exact l_C16_bk_terminal. Qed.
Print Assumptions C16_bk_terminal.

(** C16, what does not hold for the bicycle: its goal state is a wheelbase away from optimal
    under every preference. *)
Theorem C16_bk_goal_state_not_optimal_refuted :
  forall s, 0 < p_term_thr (bs_p s) -> 0 < p_l1 (bs_p s) ->
  bk_terminal s (bs_xg s) = score (p_l1 (bs_p s)) (p_term_thr (bs_p s)) /\ bk_terminal s (bs_xg s) < 1.
Proof. exact l_C16_bk_goal_state_not_optimal_refuted. Qed.
Print Assumptions C16_bk_goal_state_not_optimal_refuted.

(** C16: n-trailer: both rewards are distance scores in [0,1]; the goal state has reward 1 for
    every preference but the two forward ones. *)
Theorem C16_nt_rewards :
  forall s q, 0 < p_term_thr (ns_p s) -> 0 < p_rew_thr (ns_p s) ->
  0 <= nt_terminal s q <= 1 /\ 0 <= nt_reward s q <= 1 /\
  (~ tracks_tractor (p_motion (ns_p s)) -> nt_terminal s (ns_xg s) = 1 /\ nt_reward s (ns_xg s) = 1) /\
  (tracks_tractor (p_motion (ns_p s)) ->
   nt_terminal s q = score (dist (front_axle (ns_p s) (n_px q) (n_py q) (n_th0 q)) (n_px (ns_xg s), n_py (ns_xg s))) (p_term_thr (ns_p s))).
Proof. exact l_C16_nt_rewards. Qed.
Print Assumptions C16_nt_rewards.

(** C16: the per-step state reward never exceeds 1 and is bounded below. *)
Theorem C16_tt_reward_range :
  forall s q, weights_ok (ts_p s) ->
  - (6 * p_head_w (ts_p s) * p_max_w (ts_p s) * (1 - p_hitch_w (ts_p s))) - 77/4 * p_hitch_w (ts_p s)
    <= tt_reward s q <= 1.
Proof. exact l_C16_tt_reward_range. Qed.
Print Assumptions C16_tt_reward_range.

Example C16_default_weights_example : weights_ok (ts_p ex_tt).
Proof. exact x_C16_default_weights_example. Qed.

(** C16: with the trailer tracked, aligned goal headings and heading weight 1/2 the goal state
    attains the maximum 1, so no state scores higher. *)
Theorem C16_tt_goal_state_optimal :
  forall s q, weights_ok (ts_p s) -> ~ tracks_tractor (p_motion (ts_p s)) -> p_head_w (ts_p s) = 1 / 2 ->
  t_th1 (ts_xg s) = t_th2 (ts_xg s) ->
  tt_reward s (ts_xg s) = 1 /\ tt_reward s q <= tt_reward s (ts_xg s).
Proof. exact l_C16_tt_goal_state_optimal. Qed.
Print Assumptions C16_tt_goal_state_optimal.

Example C16_goal_example : weights_ok (ts_p ex_tt) /\ ~ tracks_tractor (p_motion (ts_p ex_tt)) /\
  p_head_w (ts_p ex_tt) = 1 / 2 /\ t_th1 (ts_xg ex_tt) = t_th2 (ts_xg ex_tt).
Proof. exact x_C16_goal_example. Qed.

(** C16: bicycle per-step reward. *)
Theorem C16_bk_reward_range :
  forall s q, 0 < p_rew_thr (bs_p s) -> 0 <= p_max_w (bs_p s) <= 1 -> p_theta_max (bs_p s) = PI / 2 ->
  - (3 * p_max_w (bs_p s)) <= bk_reward s q <= 1.
Proof. exact l_C16_bk_reward_range. Qed.
Print Assumptions C16_bk_reward_range.

(** C16: the reported final reward never exceeds 1 + terminal_reward_weight (tractor-trailer). *)
Theorem C16_tt_final_reward_bound :
  forall s x0 proj guide logpd rx g rg out, p_proj (ts_p s) = false -> p_guid (ts_p s) = false ->
  weights_ok (ts_p s) -> 0 <= p_coll_pen (ts_p s) -> 0 <= p_hitch_pen (ts_p s) -> 0 <= p_pref_w (ts_p s) ->
  0 < p_term_thr (ts_p s) -> 0 <= p_term_w (ts_p s) -> (1 <= g_Hsample g)%nat ->
  run_diffusion (tt_penv s x0 proj guide logpd rx) (Some g) rg = Ok out ->
  o_rew out <= 1 + p_term_w (ts_p s).
Proof. exact l_C16_tt_final_reward_bound. Qed.
Print Assumptions C16_tt_final_reward_bound.

Theorem C16_bk_final_reward_bound :
  forall s x0 proj guide logpd rx g rg out, p_proj (bs_p s) = false -> p_guid (bs_p s) = false ->
  0 < p_rew_thr (bs_p s) -> 0 <= p_max_w (bs_p s) <= 1 -> p_theta_max (bs_p s) = PI / 2 ->
  0 <= p_coll_pen (bs_p s) -> 0 <= p_hitch_pen (bs_p s) -> 0 <= p_pref_w (bs_p s) ->
  0 < p_term_thr (bs_p s) -> 0 <= p_term_w (bs_p s) -> (1 <= g_Hsample g)%nat ->
  run_diffusion (bk_penv s x0 proj guide logpd rx) (Some g) rg = Ok out ->
  o_rew out <= 1 + p_term_w (bs_p s).
Proof. exact l_C16_bk_final_reward_bound. Qed.
Print Assumptions C16_bk_final_reward_bound.

Theorem C16_nt_final_reward_bound :
  forall s x0 guide logpd rx g rg out, p_guid (ns_p s) = false -> length (ns_len s) = p_num_trailers (ns_p s) ->
  0 < p_rew_thr (ns_p s) ->
  0 <= p_coll_pen (ns_p s) -> 0 <= p_hitch_pen (ns_p s) -> 0 <= p_pref_w (ns_p s) ->
  0 < p_term_thr (ns_p s) -> 0 <= p_term_w (ns_p s) -> (1 <= g_Hsample g)%nat ->
  nt_run s x0 guide logpd rx g rg = Ok out ->
  o_rew out <= 1 + p_term_w (ns_p s).
Proof. exact l_C16_nt_final_reward_bound. Qed.
Print Assumptions C16_nt_final_reward_bound.

(** C17: with no motion preference the reward does not change when the goal heading is turned
    by pi and the goal position of the trailer axle is kept. *)
Theorem C17_tt_goal_turned_by_pi :
  forall s s' q, ts_p s' = ts_p s -> p_motion (ts_p s) = 0%Z ->
  trailer_axle (ts_p s) (ts_xg s') = trailer_axle (ts_p s) (ts_xg s) ->
  t_th1 (ts_xg s') = t_th1 (ts_xg s) + PI ->
  tt_reward s' q = tt_reward s q /\ tt_terminal s' q = tt_terminal s q.
Proof. exact l_C17_tt_goal_turned_by_pi. Qed.
Print Assumptions C17_tt_goal_turned_by_pi.

Theorem C17_bk_goal_turned_by_pi :
  forall s s' q, bs_p s' = bs_p s -> p_motion (bs_p s) = 0%Z ->
  b_px (bs_xg s') = b_px (bs_xg s) -> b_py (bs_xg s') = b_py (bs_xg s) -> b_th (bs_xg s') = b_th (bs_xg s) + PI ->
  bk_reward s' q = bk_reward s q /\ bk_terminal s' q = bk_terminal s q.
Proof. exact l_C17_bk_goal_turned_by_pi. Qed.
Print Assumptions C17_bk_goal_turned_by_pi.

(** An aligned goal pose turned around its trailer axle is such a pair of goals. *)
Example C17_turned_goal_example :
  let p := default_params in
  let xg := mkTT 0 0 0 0 in
  let xg' := mkTT (- (2 * (p_lh p + p_l2 p))) 0 PI PI in
  trailer_axle p xg' = trailer_axle p xg /\ t_th1 xg' = t_th1 xg + PI.
Proof. exact x_C17_turned_goal_example. Qed.
