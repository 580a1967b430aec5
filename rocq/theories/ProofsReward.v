(** * ProofsReward: shape, range and optimality of the rewards (C16), heading symmetry (C17). *)
From Verif Require Import Base BaseFacts InputFacts Params Geom TT2d Bicycle NTrailer Acc SpecGeom SpecBodies SpecDyn SpecReward
  Rollout Planner Instances ProofsGeom ProofsBodies ProofsKin ProofsRobots ProofsSafety ProofsStep.

Lemma pos_reward_score d thr : 0 <= d -> pos_reward d thr = score d thr.
Proof.
  intros Hd. unfold pos_reward, score, clip. rewrite Rmax_left by lra. ring.
Qed.
Lemma ratio_range d thr : 0 <= d -> 0 < thr -> 0 <= Rmin d thr / thr <= 1.
Proof.
  intros Hd Ht. assert (0 <= Rmin d thr <= thr) by (unfold Rmin; destruct Rle_dec; lra). split.
  - apply Rmult_le_pos; [lra|]. left. apply Rinv_0_lt_compat; auto.
  - apply Rmult_le_reg_r with thr; auto. unfold Rdiv. rewrite Rmult_assoc, Rinv_l; lra.
Qed.
Lemma ratio_lt d d' thr : 0 < thr -> d < d' -> d < thr -> Rmin d thr / thr < Rmin d' thr / thr.
Proof.
  intros Ht Hd Hdt. unfold Rdiv. apply Rmult_lt_compat_r; [apply Rinv_0_lt_compat; auto|].
  unfold Rmin. repeat destruct Rle_dec; lra.
Qed.
Lemma score_props d thr : 0 <= d -> 0 < thr ->
  0 <= score d thr <= 1 /\ (score d thr = 1 <-> d = 0) /\ (score d thr = 0 <-> thr <= d) /\
  (forall d', 0 <= d' -> d' < d -> d' < thr -> score d thr < score d' thr).
Proof.
  intros Hd Ht. pose proof (ratio_range d thr Hd Ht) as Hr. unfold score.
  assert (Hs : 0 <= (Rmin d thr / thr) ^ 2 <= 1) by (split; [apply pow2_ge_0|simpl; nra]).
  split; [lra|]. split; [|split].
  - split; intros H.
    + assert (E : (Rmin d thr / thr) ^ 2 = 0) by lra.
      assert (E0 : Rmin d thr / thr = 0) by (apply Rsqr_0_uniq; unfold Rsqr; lra).
      assert (E1 : Rmin d thr = 0).
      { replace (Rmin d thr) with (Rmin d thr / thr * thr) by (field; lra). rewrite E0. ring. }
      unfold Rmin in E1. destruct Rle_dec in E1; lra.
    + subst d. rewrite Rmin_left by lra. unfold Rdiv. rewrite Rmult_0_l. ring.
  - split; intros H.
    + destruct (Rle_or_lt thr d); auto. rewrite Rmin_left in * by lra.
      assert (d / thr < 1) by (apply Rmult_lt_reg_r with thr; auto; unfold Rdiv; rewrite Rmult_assoc, Rinv_l; lra).
      simpl in H. nra.
    + rewrite Rmin_right by lra. field. lra.
  - intros d' Hd' Hlt Hdt. pose proof (ratio_range d' thr Hd' Ht) as Hr'.
    pose proof (ratio_lt d' d thr Ht Hlt Hdt). simpl. nra.
Qed.
Lemma pnorm_dist a b : pnorm (psub a b) = dist a b.
Proof. reflexivity. Qed.
Lemma dist_nonneg a b : 0 <= dist a b.
Proof. apply sqrt_pos. Qed.
Lemma dist_zero_iff a b : dist a b = 0 <-> a = b.
Proof.
  unfold dist, dist2. split; intros H.
  - apply sqrt_eq_0 in H; [|apply Rplus_le_le_0_compat; apply Rle_0_sqr]. destruct a as [a1 a2], b as [b1 b2]; cbn [fst snd] in *.
    pose proof (Rle_0_sqr (a1 - b1)). pose proof (Rle_0_sqr (a2 - b2)). unfold Rsqr in *.
    assert ((a1 - b1) * (a1 - b1) = 0) by lra. assert ((a2 - b2) * (a2 - b2) = 0) by lra.
    apply Rmult_integral in H2. apply Rmult_integral in H3. f_equal; lra.
  - subst b. replace (_ + _) with 0 by ring. apply sqrt_0.
Qed.
Lemma use_tractor_iff m : use_tractor m = true <-> tracks_tractor m.
Proof. unfold use_tractor, tracks_tractor. rewrite orb_true_iff, !Z.eqb_eq. reflexivity. Qed.
Lemma tt_trailer_axle p q : tt_trailer_pos p q = trailer_axle p q.
Proof. unfold tt_trailer_pos, trailer_axle, ahead. cbn [fst snd]. f_equal; ring. Qed.
Lemma tt_dpos_tractor p xg q : tracks_tractor (p_motion p) ->
  tt_dpos p xg q = dist (front_axle p (t_px q) (t_py q) (t_th1 q)) (t_px xg, t_py xg).
Proof. intros H. apply use_tractor_iff in H. unfold tt_dpos. rewrite H. reflexivity. Qed.
Lemma tt_dpos_trailer p xg q : ~ tracks_tractor (p_motion p) ->
  tt_dpos p xg q = dist (trailer_axle p q) (trailer_axle p xg).
Proof.
  intros H. unfold tt_dpos. destruct (use_tractor (p_motion p)) eqn:E; [apply use_tractor_iff in E; tauto|].
  cbn [where_]. rewrite !tt_trailer_axle. reflexivity.
Qed.
Lemma tt_dpos_nonneg p xg q : 0 <= tt_dpos p xg q.
Proof. unfold tt_dpos, where_. destruct (use_tractor _); apply pnorm_nonneg. Qed.
Lemma bk_dpos_nonneg p xg q : 0 <= bk_dpos p xg q.
Proof. apply pnorm_nonneg. Qed.
Lemma nt_dpos_nonneg s q : 0 <= nt_dpos s q.
Proof.
  unfold nt_dpos. destruct (_ || _); [apply pnorm_nonneg|]. destruct (_ || _); [apply pnorm_nonneg|].
  apply Rmin_glb; apply pnorm_nonneg.
Qed.

(** ** C16: terminal reward *)
(** C16: the terminal reward of the tractor-trailer is the distance score of the tracked
    reference point. *)
Lemma l_C16_tt_terminal_formula :
  forall s q, 
  (tracks_tractor (p_motion (ts_p s)) ->
   tt_terminal s q = score (dist (front_axle (ts_p s) (t_px q) (t_py q) (t_th1 q)) (t_px (ts_xg s), t_py (ts_xg s))) (p_term_thr (ts_p s))) /\
  (~ tracks_tractor (p_motion (ts_p s)) ->
   tt_terminal s q = score (dist (trailer_axle (ts_p s) q) (trailer_axle (ts_p s) (ts_xg s))) (p_term_thr (ts_p s))).
Proof.
  intros s q. unfold tt_terminal. rewrite pos_reward_score by apply tt_dpos_nonneg. split; intros H.
  - rewrite tt_dpos_tractor by auto. reflexivity.
  - rewrite tt_dpos_trailer by auto. reflexivity.
Qed.
(** C16: when the trailer is tracked the terminal reward lies in [0,1], is 1 exactly with the
    trailer axle at the goal's trailer axle, 0 exactly from the threshold distance on, and
    strictly larger for the nearer of two states when that one is within the threshold. *)
Lemma l_C16_tt_terminal_trailer_tracking :
  forall s q q', ~ tracks_tractor (p_motion (ts_p s)) -> 0 < p_term_thr (ts_p s) ->
  let d x := dist (trailer_axle (ts_p s) x) (trailer_axle (ts_p s) (ts_xg s)) in
  0 <= tt_terminal s q <= 1 /\
  (tt_terminal s q = 1 <-> trailer_axle (ts_p s) q = trailer_axle (ts_p s) (ts_xg s)) /\
  (tt_terminal s q = 0 <-> p_term_thr (ts_p s) <= d q) /\
  (d q' < d q -> d q' < p_term_thr (ts_p s) -> tt_terminal s q < tt_terminal s q') /\
  tt_terminal s (ts_xg s) = 1.
Proof.
  intros s q q' Hm Ht d. rewrite !(proj2 (l_C16_tt_terminal_formula s _) Hm).
  destruct (score_props (d q) _ (dist_nonneg _ _) Ht) as (P1 & P2 & P3 & P4). fold (d q) (d q') (d (ts_xg s)).
  split; [auto|]. split; [rewrite P2; apply dist_zero_iff|]. split; [auto|]. split; [intros; apply P4; auto; apply dist_nonneg|].
  destruct (score_props (d (ts_xg s)) _ (dist_nonneg _ _) Ht) as (_ & P2' & _). apply P2'. apply dist_zero_iff. reflexivity.
Qed.
(** C16: when the tractor is tracked the same holds of the tractor's front axle and the goal
    position. *)
Lemma l_C16_tt_terminal_tractor_tracking :
  forall s q q', tracks_tractor (p_motion (ts_p s)) -> 0 < p_term_thr (ts_p s) ->
  let d x := dist (front_axle (ts_p s) (t_px x) (t_py x) (t_th1 x)) (t_px (ts_xg s), t_py (ts_xg s)) in
  0 <= tt_terminal s q <= 1 /\
  (tt_terminal s q = 1 <-> front_axle (ts_p s) (t_px q) (t_py q) (t_th1 q) = (t_px (ts_xg s), t_py (ts_xg s))) /\
  (tt_terminal s q = 0 <-> p_term_thr (ts_p s) <= d q) /\
  (d q' < d q -> d q' < p_term_thr (ts_p s) -> tt_terminal s q < tt_terminal s q').
Proof.
  intros s q q' Hm Ht d. rewrite !(proj1 (l_C16_tt_terminal_formula s _) Hm).
  destruct (score_props (d q) _ (dist_nonneg _ _) Ht) as (P1 & P2 & P3 & P4). fold (d q) (d q').
  split; [auto|]. split; [rewrite P2; apply dist_zero_iff|]. split; [auto|]. intros; apply P4; auto; apply dist_nonneg.
Qed.
Lemma front_axle_dist p x y th : 0 <= p_l1 p -> dist (front_axle p x y th) (x, y) = p_l1 p.
Proof.
  intros Hl. unfold dist, dist2, front_axle, ahead. cbn [fst snd].
  replace ((x + p_l1 p * cos th - x) * (x + p_l1 p * cos th - x) + (y + p_l1 p * sin th - y) * (y + p_l1 p * sin th - y))
    with (p_l1 p * p_l1 p * (sin th * sin th + cos th * cos th)) by ring.
  rewrite sin2_cos2', Rmult_1_r. apply sqrt_square; auto.
Qed.
(** C16, what does not hold: with the tractor tracked the goal state itself is not optimal. Its
    front axle is a wheelbase away from the goal position, so its terminal reward is the score
    at distance l1, less than 1, while the state shifted back by the wheelbase has reward 1. *)
Lemma l_C16_tt_goal_state_not_optimal_refuted :
  forall s, tracks_tractor (p_motion (ts_p s)) -> 0 < p_term_thr (ts_p s) -> 0 < p_l1 (ts_p s) ->
  let xg := ts_xg s in
  let shifted := mkTT (t_px xg - p_l1 (ts_p s) * cos (t_th1 xg)) (t_py xg - p_l1 (ts_p s) * sin (t_th1 xg)) (t_th1 xg) (t_th2 xg) in
  tt_terminal s xg = score (p_l1 (ts_p s)) (p_term_thr (ts_p s)) /\ tt_terminal s xg < 1 /\ tt_terminal s shifted = 1.
Proof.
  intros s Hm Ht Hl xg shifted.
  assert (E : tt_terminal s xg = score (p_l1 (ts_p s)) (p_term_thr (ts_p s))).
  { rewrite (proj1 (l_C16_tt_terminal_formula s _) Hm). fold xg. rewrite front_axle_dist by lra. reflexivity. }
  destruct (score_props (p_l1 (ts_p s)) (p_term_thr (ts_p s))) as (P1 & P2 & _ & _); [lra|lra|].
  split; [exact E|]. split.
  - rewrite E. destruct P1 as [_ [P|P]]; auto. apply P2 in P. lra.
  - apply (l_C16_tt_terminal_tractor_tracking s shifted shifted Hm Ht). unfold front_axle, shifted, ahead. cbn [t_px t_py t_th1 fst snd].
    fold xg. f_equal; ring.
Qed.
Lemma x_C16_tt_example : ~ tracks_tractor (p_motion (ts_p ex_tt)) /\ 0 < p_term_thr (ts_p ex_tt).
Proof. split; [intros [H|H]; discriminate|cbn; lra]. Qed.
(** C16: bicycle: the front axle is compared with the goal position. *)
Lemma l_C16_bk_terminal :
  forall s q q', 0 < p_term_thr (bs_p s) ->
  let d x := dist (front_axle (bs_p s) (b_px x) (b_py x) (b_th x)) (b_px (bs_xg s), b_py (bs_xg s)) in
  bk_terminal s q = score (d q) (p_term_thr (bs_p s)) /\ 0 <= bk_terminal s q <= 1 /\
  (bk_terminal s q = 1 <-> front_axle (bs_p s) (b_px q) (b_py q) (b_th q) = (b_px (bs_xg s), b_py (bs_xg s))) /\
  (bk_terminal s q = 0 <-> p_term_thr (bs_p s) <= d q) /\
  (d q' < d q -> d q' < p_term_thr (bs_p s) -> bk_terminal s q < bk_terminal s q').
Proof.
  intros s q q' Ht d.
  assert (E : forall x, bk_terminal s x = score (d x) (p_term_thr (bs_p s))).
  { intros x. unfold bk_terminal. rewrite pos_reward_score by apply bk_dpos_nonneg. reflexivity. }
  rewrite !E. destruct (score_props (d q) _ (dist_nonneg _ _) Ht) as (P1 & P2 & P3 & P4).
  split; [reflexivity|]. split; [auto|]. split; [rewrite P2; apply dist_zero_iff|]. split; [auto|]. intros; apply P4; auto; apply dist_nonneg.
Qed.
(** C16, what does not hold for the bicycle: its goal state is a wheelbase away from optimal
    under every preference. *)
Lemma l_C16_bk_goal_state_not_optimal_refuted :
  forall s, 0 < p_term_thr (bs_p s) -> 0 < p_l1 (bs_p s) ->
  bk_terminal s (bs_xg s) = score (p_l1 (bs_p s)) (p_term_thr (bs_p s)) /\ bk_terminal s (bs_xg s) < 1.
Proof.
  intros s Ht Hl.
  assert (E : bk_terminal s (bs_xg s) = score (p_l1 (bs_p s)) (p_term_thr (bs_p s))).
  { rewrite (proj1 (l_C16_bk_terminal s (bs_xg s) (bs_xg s) Ht)). rewrite front_axle_dist by lra. reflexivity. }
  destruct (score_props (p_l1 (bs_p s)) (p_term_thr (bs_p s))) as (P1 & P2 & _ & _); [lra|lra|].
  split; [exact E|]. rewrite E. destruct P1 as [_ [P|P]]; auto. apply P2 in P. lra.
Qed.
(** C16: n-trailer: both rewards are distance scores in [0,1]; the goal state has reward 1 for
    every preference but the two forward ones. *)
Lemma l_C16_nt_rewards :
  forall s q, 0 < p_term_thr (ns_p s) -> 0 < p_rew_thr (ns_p s) ->
  0 <= nt_terminal s q <= 1 /\ 0 <= nt_reward s q <= 1 /\
  (~ tracks_tractor (p_motion (ns_p s)) -> nt_terminal s (ns_xg s) = 1 /\ nt_reward s (ns_xg s) = 1) /\
  (tracks_tractor (p_motion (ns_p s)) ->
   nt_terminal s q = score (dist (front_axle (ns_p s) (n_px q) (n_py q) (n_th0 q)) (n_px (ns_xg s), n_py (ns_xg s))) (p_term_thr (ns_p s))).
Proof.
  intros s q Ht Hr. unfold nt_terminal, nt_reward. rewrite !pos_reward_score by apply nt_dpos_nonneg.
  split; [apply score_props; auto; apply nt_dpos_nonneg|]. split; [apply score_props; auto; apply nt_dpos_nonneg|]. split.
  - intros Hm. assert (E : nt_dpos s (ns_xg s) = 0).
    { unfold nt_dpos. destruct (Z.eqb (p_motion (ns_p s)) 1 || Z.eqb (p_motion (ns_p s)) 2) eqn:E1.
      - exfalso. apply Hm. apply use_tractor_iff. exact E1.
      - rewrite (pnorm_dist (nt_last_pos s (ns_xg s))). rewrite (proj2 (dist_zero_iff (nt_last_pos s (ns_xg s)) _) eq_refl).
        destruct (Z.eqb (p_motion (ns_p s)) (-1) || Z.eqb (p_motion (ns_p s)) (-2)); [reflexivity|]. apply Rmin_right. apply pnorm_nonneg. }
    rewrite E. split; apply score_props; auto; lra.
  - intros Hm. apply use_tractor_iff in Hm. unfold nt_dpos. unfold use_tractor in Hm. rewrite Hm. reflexivity.
Qed.

(** ** C16: per-step reward *)
Lemma sigmoid_pos z : 0 < sigmoid z < 1.
Proof.
  unfold sigmoid. pose proof (exp_pos (- z)). split.
  - apply Rdiv_lt_0_compat; lra.
  - apply Rmult_lt_reg_r with (1 + exp (- z)); [lra|]. unfold Rdiv. rewrite Rmult_assoc, Rinv_l; lra.
Qed.
Lemma abs_wrap_range a : 0 <= Rabs (wrap_pi a) <= PI.
Proof. split; [apply Rabs_pos|]. pose proof (wrap_pi_range a). apply Rabs_le. lra. Qed.
Lemma sq_ratio x m k : 0 <= x <= PI -> 0 < m -> PI = k * m -> 0 <= (x / m) * (x / m) <= k * k.
Proof.
  intros Hx Hm Hk. assert (Hr : 0 <= x / m <= k).
  { split.
    - apply Rmult_le_pos; [lra|]. left. apply Rinv_0_lt_compat; auto.
    - apply Rmult_le_reg_r with m; auto. unfold Rdiv. rewrite Rmult_assoc, Rinv_l; lra. }
  split; nra.
Qed.
Lemma convex_le w a b m : 0 <= w <= 1 -> a <= m -> b <= m -> (1 - w) * a + w * b <= m.
Proof. intros. nra. Qed.

Definition tt_reward_shape (p : params) (w rp a1 a2 ar : R) : R :=
  (1 - p_hitch_w p) * ((1 - w) * rp + w * (p_head_w p * (1 - a1 + 1 - a2))) + p_hitch_w p * (1 - ar).
Lemma tt_reward_decomp s q : weights_ok (ts_p s) -> exists w rp a1 a2 ar,
  0 <= w <= p_max_w (ts_p s) /\ 0 <= rp <= 1 /\ 0 <= a1 <= 4 /\ 0 <= a2 <= 4 /\ 0 <= ar <= 81/4 /\
  tt_reward s q = tt_reward_shape (ts_p s) w rp a1 a2 ar.
Proof.
  intros (Hr & Hh & Hm & Hhw & Hth & Hphi). pose proof PI_RGT_0.
  unfold tt_reward. cbv zeta.
  match goal with |- context [clip (sigmoid ?z) 0 ?m] => set (w := clip (sigmoid z) 0 m); exists w end.
  match goal with |- context [pos_reward ?d ?t] => exists (pos_reward d t) end.
  match goal with |- context [p_head_w _ * (1 - (Rabs ?e1 / ?t) * _ + 1 - (Rabs ?e2 / _) * _)] =>
    exists ((Rabs e1 / t) * (Rabs e1 / t)), ((Rabs e2 / t) * (Rabs e2 / t));
    assert (H1 : 0 <= Rabs e1 <= PI) by (unfold where_; repeat match goal with |- context [if ?b then _ else _] => destruct b end; apply abs_wrap_range);
    assert (H2 : 0 <= Rabs e2 <= PI) by (unfold where_; repeat match goal with |- context [if ?b then _ else _] => destruct b end; apply abs_wrap_range)
  end.
  match goal with |- context [1 - (Rabs (wrap_pi (t_th1 q - t_th2 q)) / ?t) * ?r] =>
    exists ((Rabs (wrap_pi (t_th1 q - t_th2 q)) / t) * (Rabs (wrap_pi (t_th1 q - t_th2 q)) / t)) end.
  split; [apply clip_range; lra|]. split.
  { rewrite pos_reward_score by apply tt_dpos_nonneg. apply score_props; auto. apply tt_dpos_nonneg. }
  split; [replace 4 with (2 * 2) by ring; apply sq_ratio; auto; rewrite Hth; lra|].
  split; [replace 4 with (2 * 2) by ring; apply sq_ratio; auto; rewrite Hth; lra|].
  split; [replace (81/4) with (9/2 * (9/2)) by lra; apply sq_ratio; [apply abs_wrap_range| |]; rewrite Hphi; lra|].
  reflexivity.
Qed.
(** C16: the per-step state reward never exceeds 1 and is bounded below. *)
Lemma l_C16_tt_reward_range :
  forall s q, weights_ok (ts_p s) ->
  - (6 * p_head_w (ts_p s) * p_max_w (ts_p s) * (1 - p_hitch_w (ts_p s))) - 77/4 * p_hitch_w (ts_p s)
    <= tt_reward s q <= 1.
Proof.
  intros s q Hw. destruct (tt_reward_decomp s q Hw) as (w & rp & a1 & a2 & ar & W & RP & A1 & A2 & AR & ->).
  destruct Hw as (Hr & Hh & Hm & Hhw & _). unfold tt_reward_shape.
  set (hw := p_head_w (ts_p s)) in *. set (mw := p_max_w (ts_p s)) in *. set (tw := p_hitch_w (ts_p s)) in *.
  assert (Hhd : - (6 * hw) <= hw * (1 - a1 + 1 - a2) <= 1).
  { split; nra. }
  set (hd := hw * (1 - a1 + 1 - a2)) in *.
  assert (Hin : - (6 * hw * mw) <= (1 - w) * rp + w * hd <= 1).
  { split.
    - assert (0 <= (1 - w) * rp) by (apply Rmult_le_pos; lra).
      assert (- (6 * hw * mw) <= w * hd); [|lra].
      assert (w * (- (6 * hw)) <= w * hd) by (apply Rmult_le_compat_l; lra).
      assert (w * (6 * hw) <= mw * (6 * hw)) by (apply Rmult_le_compat_r; lra). lra.
    - apply convex_le; lra. }
  set (inn := (1 - w) * rp + w * hd) in *.
  assert (H1 : (1 - tw) * (- (6 * hw * mw)) <= (1 - tw) * inn) by (apply Rmult_le_compat_l; lra).
  assert (H2 : tw * (- (77/4)) <= tw * (1 - ar)) by (apply Rmult_le_compat_l; lra).
  split; [lra|]. apply convex_le; lra.
Qed.
Lemma x_C16_default_weights_example : weights_ok (ts_p ex_tt).
Proof. unfold weights_ok, ex_tt, default_params, theta_max_const, phi_max_const. cbn. lra. Qed.
(** C16: with the trailer tracked, aligned goal headings and heading weight 1/2 the goal state
    attains the maximum 1, so no state scores higher. *)
Lemma l_C16_tt_goal_state_optimal :
  forall s q, weights_ok (ts_p s) -> ~ tracks_tractor (p_motion (ts_p s)) -> p_head_w (ts_p s) = 1 / 2 ->
  t_th1 (ts_xg s) = t_th2 (ts_xg s) ->
  tt_reward s (ts_xg s) = 1 /\ tt_reward s q <= tt_reward s (ts_xg s).
Proof.
  intros s q Hw Hm Hh Hth. assert (E : tt_reward s (ts_xg s) = 1).
  { pose proof Hw as (Hr & _ & _ & _ & Htm & Hpm). pose proof PI_RGT_0.
    unfold tt_reward. cbv zeta. rewrite tt_dpos_trailer by auto.
    rewrite (proj2 (dist_zero_iff (trailer_axle (ts_p s) (ts_xg s)) _) eq_refl).
    rewrite pos_reward_score by lra. destruct (score_props 0 (p_rew_thr (ts_p s))) as (_ & P & _); [lra|lra|].
    rewrite (proj2 P eq_refl). rewrite <- Hth.
    rewrite Rminus_eq_0. rewrite wrap_pi_0.
    replace (0 - PI) with (- PI) by ring. rewrite (wrap_pi_id (- PI)) by lra. rewrite Rabs_R0, Rabs_Ropp, (Rabs_right PI) by lra.
    assert (Ht : Rltb (0 + 0) (PI + PI) = true) by (apply Rltb_true; lra). rewrite Ht. cbn [where_].
    assert (Ew : where_ (Z.eqb (p_motion (ts_p s)) 0) 0 0 = 0) by (destruct (Z.eqb _ _); reflexivity).
    rewrite Ew, Rabs_R0, Hh. unfold Rdiv. rewrite !Rmult_0_l. 
    match goal with |- context [clip ?z 0 ?m] => set (w := clip z 0 m) end. lra. }
  split; [exact E|]. rewrite E. apply l_C16_tt_reward_range; auto.
Qed.
Lemma x_C16_goal_example : weights_ok (ts_p ex_tt) /\ ~ tracks_tractor (p_motion (ts_p ex_tt)) /\
  p_head_w (ts_p ex_tt) = 1 / 2 /\ t_th1 (ts_xg ex_tt) = t_th2 (ts_xg ex_tt).
Proof.
  split; [apply x_C16_default_weights_example|]. split; [intros [H|H]; discriminate|]. split; [cbn; lra|reflexivity].
Qed.
(** C16: bicycle per-step reward. *)
Lemma l_C16_bk_reward_range :
  forall s q, 0 < p_rew_thr (bs_p s) -> 0 <= p_max_w (bs_p s) <= 1 -> p_theta_max (bs_p s) = PI / 2 ->
  - (3 * p_max_w (bs_p s)) <= bk_reward s q <= 1.
Proof.
  intros s q Hr Hm Hth. unfold bk_reward. cbv zeta. pose proof PI_RGT_0.
  rewrite pos_reward_score by apply bk_dpos_nonneg.
  match goal with |- context [score ?d ?t] => destruct (score_props d t) as (RP & _); [apply bk_dpos_nonneg|auto|]; set (rp := score d t) in * end.
  match goal with |- context [clip (sigmoid ?z) 0 ?m] => set (w := clip (sigmoid z) 0 m);
    assert (W : 0 <= w <= m) by (apply clip_range; lra) end.
  match goal with |- context [1 - (Rabs ?e1 / ?t) * _] => set (a := (Rabs e1 / t) * (Rabs e1 / t));
    assert (A : 0 <= a <= 4) end.
  { replace 4 with (2 * 2) by ring. apply sq_ratio; [|rewrite Hth; lra|rewrite Hth; lra].
    unfold where_; repeat match goal with |- context [if ?b then _ else _] => destruct b end; apply abs_wrap_range. }
  split; [|apply convex_le; lra].
  assert (0 <= (1 - w) * rp) by (apply Rmult_le_pos; lra).
  assert (w * (-3) <= w * (1 - a)) by (apply Rmult_le_compat_l; lra). lra.
Qed.

Lemma step_reward_le p base oc hv pen : 0 <= p_coll_pen p -> 0 <= p_hitch_pen p -> 0 <= pen ->
  base - p_coll_pen p - p_hitch_pen p - pen <= step_reward p base oc hv pen <= base.
Proof. intros. unfold step_reward, where_. destruct oc, hv, (negb _); lra. Qed.
Lemma pref_nonneg p v : 0 <= p_pref_w p -> 0 <= preference_penalty p v.
Proof. intros. apply l_C18_preference_penalty; auto. Qed.
Lemma tt_step_rew_le s proj guide viz st a : weights_ok (ts_p s) -> 0 <= p_coll_pen (ts_p s) -> 0 <= p_hitch_pen (ts_p s) ->
  0 <= p_pref_w (ts_p s) -> st_rew (tt_step_internal s proj guide viz st a) <= 1.
Proof.
  intros Hw Hc Hh Hp. unfold tt_step_internal, tt_step_with. cbv zeta.
  destruct (p_proj (ts_p s)); [|destruct (p_guid (ts_p s)); [|rewrite shield_dispatch]]; cbn [st_rew];
  (eapply Rle_trans; [apply step_reward_le; auto; apply pref_nonneg; auto|]);
  apply l_C16_tt_reward_range; auto.
Qed.
Lemma bk_step_rew_le s proj guide viz st a : 0 < p_rew_thr (bs_p s) -> 0 <= p_max_w (bs_p s) <= 1 -> p_theta_max (bs_p s) = PI / 2 ->
  0 <= p_coll_pen (bs_p s) -> 0 <= p_hitch_pen (bs_p s) ->
  0 <= p_pref_w (bs_p s) -> st_rew (bk_step_internal s proj guide viz st a) <= 1.
Proof.
  intros H1 H2 H3 Hc Hh Hp. unfold bk_step_internal, bk_step_with. cbv zeta.
  destruct (p_proj (bs_p s)); [|destruct (p_guid (bs_p s)); [|rewrite shield_dispatch]]; cbn [st_rew];
  (eapply Rle_trans; [apply step_reward_le; auto; apply pref_nonneg; auto|]);
  apply l_C16_bk_reward_range; auto.
Qed.
Lemma nt_step_rew_le s guide viz st a : 0 < p_rew_thr (ns_p s) ->
  0 <= p_coll_pen (ns_p s) -> 0 <= p_hitch_pen (ns_p s) ->
  0 <= p_pref_w (ns_p s) -> st_rew (nt_step_core s guide viz st a) <= 1.
Proof.
  intros H1 Hc Hh Hp. unfold nt_step_core, nt_step_with. cbv zeta.
  destruct (p_guid (ns_p s)); [|rewrite shield_dispatch]; cbn [st_rew];
  (eapply Rle_trans; [apply step_reward_le; auto; apply pref_nonneg; auto|]);
  unfold nt_reward; rewrite pos_reward_score by apply nt_dpos_nonneg; exact (proj2 (proj1 (score_props _ _ (nt_dpos_nonneg _ _) H1))).
Qed.
Lemma Rmean_le1 l : l <> [] -> (forall x, In x l -> x <= 1) -> Rmean l <= 1.
Proof.
  intros Hne H. assert (Hn : 0 < INR (length l)) by (apply lt_0_INR; destruct l; simpl; [congruence|lia]).
  unfold Rmean. apply Rmult_le_reg_r with (INR (length l)); auto. unfold Rdiv. rewrite Rmult_assoc, Rinv_l by lra.
  rewrite Rmult_1_r, Rmult_1_l. clear Hn Hne. induction l as [|x l IH]; [cbn; lra|].
  cbn [Rsum]. assert (E : INR (length (x :: l)) = INR (length l) + 1) by (cbn [length]; apply S_INR). rewrite E.
  assert (x <= 1) by (apply H; left; auto). assert (Rsum l <= INR (length l)) by (apply IH; intros; apply H; right; auto). lra.
Qed.
Lemma final_reward_le (m tw term r : R) : r = m + tw * term -> m <= 1 -> 0 <= tw -> term <= 1 -> r <= 1 + tw.
Proof. intros. subst. nra. Qed.
(** C16: the reported final reward never exceeds 1 + terminal_reward_weight (tractor-trailer). *)
Lemma l_C16_tt_final_reward_bound :
  forall s x0 proj guide logpd rx g rg out, p_proj (ts_p s) = false -> p_guid (ts_p s) = false ->
  weights_ok (ts_p s) -> 0 <= p_coll_pen (ts_p s) -> 0 <= p_hitch_pen (ts_p s) -> 0 <= p_pref_w (ts_p s) ->
  0 < p_term_thr (ts_p s) -> 0 <= p_term_w (ts_p s) -> (1 <= g_Hsample g)%nat ->
  run_diffusion (tt_penv s x0 proj guide logpd rx) (Some g) rg = Ok out ->
  o_rew out <= 1 + p_term_w (ts_p s).
Proof.
  intros s x0 proj guide logpd rx g rg out Hp Hg Hw Hc Hh Hpw Ht Htw HH E.
  pose proof (l_C15_tt_final_reward s x0 proj guide logpd rx g rg out Hp Hg E) as HR. rewrite mean_Rmean, (map2_combine (fun q a => st_rew (tt_step s proj guide (reset_state q) a))) in HR.
  destruct (l_C07_tt_plan_is_feasible s x0 proj guide logpd rx g rg out Hp Hg E) as (HL & HL2 & _).
  eapply final_reward_le; [exact HR| |auto|].
  - apply Rmean_le1.
    + intros Ez. apply (f_equal (@length R)) in Ez. rewrite map2_length in Ez. cbn [length] in Ez. lia.
    + intros x Hx. apply In_map2 in Hx. destruct Hx as (q & a & _ & _ & -> & _). apply tt_step_rew_le; auto.
  - unfold tt_terminal. rewrite pos_reward_score by apply tt_dpos_nonneg. exact (proj2 (proj1 (score_props _ _ (tt_dpos_nonneg _ _ _) Ht))).
Qed.
Lemma l_C16_bk_final_reward_bound :
  forall s x0 proj guide logpd rx g rg out, p_proj (bs_p s) = false -> p_guid (bs_p s) = false ->
  0 < p_rew_thr (bs_p s) -> 0 <= p_max_w (bs_p s) <= 1 -> p_theta_max (bs_p s) = PI / 2 ->
  0 <= p_coll_pen (bs_p s) -> 0 <= p_hitch_pen (bs_p s) -> 0 <= p_pref_w (bs_p s) ->
  0 < p_term_thr (bs_p s) -> 0 <= p_term_w (bs_p s) -> (1 <= g_Hsample g)%nat ->
  run_diffusion (bk_penv s x0 proj guide logpd rx) (Some g) rg = Ok out ->
  o_rew out <= 1 + p_term_w (bs_p s).
Proof.
  intros s x0 proj guide logpd rx g rg out Hp Hg Hw1 Hw2 Hw3 Hc Hh Hpw Ht Htw HH E.
  pose proof (l_C15_bk_final_reward s x0 proj guide logpd rx g rg out Hp Hg E) as HR. rewrite mean_Rmean, (map2_combine (fun q a => st_rew (bk_step s proj guide (reset_state q) a))) in HR.
  destruct (l_C07_bk_plan_is_feasible s x0 proj guide logpd rx g rg out Hp Hg E) as (HL & HL2 & _).
  eapply final_reward_le; [exact HR| |auto|].
  - apply Rmean_le1.
    + intros Ez. apply (f_equal (@length R)) in Ez. rewrite map2_length in Ez. cbn [length] in Ez. lia.
    + intros x Hx. apply In_map2 in Hx. destruct Hx as (q & a & _ & _ & -> & _). apply bk_step_rew_le; auto.
  - unfold bk_terminal. rewrite pos_reward_score by apply bk_dpos_nonneg. exact (proj2 (proj1 (score_props _ _ (bk_dpos_nonneg _ _ _) Ht))).
Qed.
Lemma l_C16_nt_final_reward_bound :
  forall s x0 guide logpd rx g rg out, p_guid (ns_p s) = false -> length (ns_len s) = p_num_trailers (ns_p s) ->
  0 < p_rew_thr (ns_p s) ->
  0 <= p_coll_pen (ns_p s) -> 0 <= p_hitch_pen (ns_p s) -> 0 <= p_pref_w (ns_p s) ->
  0 < p_term_thr (ns_p s) -> 0 <= p_term_w (ns_p s) -> (1 <= g_Hsample g)%nat ->
  nt_run s x0 guide logpd rx g rg = Ok out ->
  o_rew out <= 1 + p_term_w (ns_p s).
Proof.
  intros s x0 guide logpd rx g rg out Hg HLs Hw1 Hc Hh Hpw Ht Htw HH E.
  pose proof (l_C15_nt_final_reward s x0 guide logpd rx g rg out Hg HLs E) as HR. rewrite mean_Rmean, (map2_combine (fun q a => st_rew (nt_step_core s guide false (reset_state q) a))) in HR.
  destruct (l_C07_nt_plan_is_feasible s x0 guide logpd rx g rg out Hg HLs E) as (HL & HL2 & _).
  eapply final_reward_le; [exact HR| |auto|].
  - apply Rmean_le1.
    + intros Ez. apply (f_equal (@length R)) in Ez. rewrite map2_length in Ez. cbn [length] in Ez. lia.
    + intros x Hx. apply In_map2 in Hx. destruct Hx as (q & a & _ & _ & -> & _). apply nt_step_rew_le; auto.
  - unfold nt_terminal. rewrite pos_reward_score by apply nt_dpos_nonneg. exact (proj2 (proj1 (score_props _ _ (nt_dpos_nonneg _ _) Ht))).
Qed.

(** ** C17: turning the goal heading by pi *)
Lemma wrap_pi_turn e : Rabs (wrap_pi (e - PI)) = PI - Rabs (wrap_pi e).
Proof.
  pose proof (wrap_pi_range e) as Hr. pose proof PI_RGT_0. destruct (wrap_pi_rep e) as [k Hk].
  destruct (Rle_or_lt 0 (wrap_pi e)) as [Hw|Hw].
  - assert (E : wrap_pi (e - PI) = wrap_pi e - PI).
    { rewrite <- (wrap_pi_shift (e - PI) k). replace (e - PI + IZR k * (2 * PI)) with (wrap_pi e - PI) by lra.
      apply wrap_pi_id. lra. }
    rewrite E, (Rabs_right (wrap_pi e)) by lra. rewrite Rabs_left by lra. ring.
  - assert (E : wrap_pi (e - PI) = wrap_pi e + PI).
    { rewrite <- (wrap_pi_shift (e - PI) (k + 1)). rewrite plus_IZR.
      replace (e - PI + (IZR k + 1) * (2 * PI)) with (wrap_pi e + PI) by lra.
      apply wrap_pi_id. lra. }
    rewrite E, (Rabs_left (wrap_pi e)) by lra. rewrite Rabs_right by lra. ring.
Qed.
(** C17: with no motion preference the reward does not change when the goal heading is turned
    by pi and the goal position of the trailer axle is kept. *)
Lemma l_C17_tt_goal_turned_by_pi :
  forall s s' q, ts_p s' = ts_p s -> p_motion (ts_p s) = 0%Z ->
  trailer_axle (ts_p s) (ts_xg s') = trailer_axle (ts_p s) (ts_xg s) ->
  t_th1 (ts_xg s') = t_th1 (ts_xg s) + PI ->
  tt_reward s' q = tt_reward s q /\ tt_terminal s' q = tt_terminal s q.
Proof.
  intros s s' q Ep Hm Hax Hth.
  assert (Ed : tt_dpos (ts_p s) (ts_xg s') q = tt_dpos (ts_p s) (ts_xg s) q).
  { rewrite !tt_dpos_trailer by (rewrite Hm; intros [H|H]; discriminate). rewrite Hax. reflexivity. }
  split; [|unfold tt_terminal; rewrite Ep, Ed; reflexivity].
  unfold tt_reward. cbv zeta. rewrite Ep, Ed, Hm. cbn [Z.eqb where_]. rewrite Hth.
  set (g := t_th1 (ts_xg s)).
  replace (t_th1 q - (g + PI)) with (t_th1 q - g - PI) by ring.
  replace (t_th2 q - (g + PI)) with (t_th2 q - g - PI) by ring.
  f_equal. f_equal. f_equal. f_equal. f_equal.
  set (d1 := t_th1 q - g). set (d2 := t_th2 q - g).
  set (a1 := wrap_pi d1). set (a2 := wrap_pi d2).
  set (b1 := wrap_pi (d1 - PI)). set (b2 := wrap_pi (d2 - PI)).
  set (c1 := wrap_pi (d1 - PI - PI)). set (c2 := wrap_pi (d2 - PI - PI)).
  assert (B1 : Rabs b1 = PI - Rabs a1) by apply wrap_pi_turn.
  assert (B2 : Rabs b2 = PI - Rabs a2) by apply wrap_pi_turn.
  assert (C1 : Rabs c1 = Rabs a1) by (unfold c1; rewrite wrap_pi_turn; fold b1; lra).
  assert (C2 : Rabs c2 = Rabs a2) by (unfold c2; rewrite wrap_pi_turn; fold b2; lra).
  rewrite C1, C2. 
  assert (W : forall b (x y : R), Rabs (where_ b x y) = where_ b (Rabs x) (Rabs y)) by (intros [] ? ?; reflexivity).
  rewrite !W, C1, C2, B1, B2.
  destruct (Rltb (PI - Rabs a1 + (PI - Rabs a2)) (Rabs a1 + Rabs a2)) eqn:E1;
  destruct (Rltb (Rabs a1 + Rabs a2) (PI - Rabs a1 + (PI - Rabs a2))) eqn:E2; cbn [where_];
  try apply Rltb_true in E1; try apply Rltb_true in E2; try apply Rltb_false in E1; try apply Rltb_false in E2; try lra.
  (* tie *)
  assert (Ht : PI - Rabs a1 = Rabs a2) by lra. assert (Ht2 : PI - Rabs a2 = Rabs a1) by lra. rewrite Ht, Ht2. ring.
Qed.
Lemma l_C17_bk_goal_turned_by_pi :
  forall s s' q, bs_p s' = bs_p s -> p_motion (bs_p s) = 0%Z ->
  b_px (bs_xg s') = b_px (bs_xg s) -> b_py (bs_xg s') = b_py (bs_xg s) -> b_th (bs_xg s') = b_th (bs_xg s) + PI ->
  bk_reward s' q = bk_reward s q /\ bk_terminal s' q = bk_terminal s q.
Proof.
  intros s s' q Ep Hm Hx Hy Hth.
  assert (Ed : bk_dpos (bs_p s) (bs_xg s') q = bk_dpos (bs_p s) (bs_xg s) q) by (unfold bk_dpos; rewrite Hx, Hy; reflexivity).
  split; [|unfold bk_terminal; rewrite Ep, Ed; reflexivity].
  unfold bk_reward. cbv zeta. rewrite Ep, Ed, Hm. cbn [Z.eqb where_]. rewrite Hth.
  set (g := b_th (bs_xg s)). replace (b_th q - (g + PI)) with (b_th q - g - PI) by ring.
  f_equal. f_equal. f_equal. set (d1 := b_th q - g). set (a1 := wrap_pi d1). set (b1 := wrap_pi (d1 - PI)). set (c1 := wrap_pi (d1 - PI - PI)).
  assert (B1 : Rabs b1 = PI - Rabs a1) by apply wrap_pi_turn.
  assert (C1 : Rabs c1 = Rabs a1) by (unfold c1; rewrite wrap_pi_turn; fold b1; lra).
  assert (W : forall b (x y : R), Rabs (where_ b x y) = where_ b (Rabs x) (Rabs y)) by (intros [] ? ?; reflexivity).
  rewrite C1, !W, C1, B1.
  destruct (Rltb (PI - Rabs a1) (Rabs a1)) eqn:E1; destruct (Rltb (Rabs a1) (PI - Rabs a1)) eqn:E2; cbn [where_];
  try apply Rltb_true in E1; try apply Rltb_true in E2; try apply Rltb_false in E1; try apply Rltb_false in E2; try lra.
  assert (Ht : PI - Rabs a1 = Rabs a1) by lra. rewrite Ht. reflexivity.
Qed.
(** An aligned goal pose turned around its trailer axle is such a pair of goals. *)
Lemma x_C17_turned_goal_example :
  let p := default_params in
  let xg := mkTT 0 0 0 0 in
  let xg' := mkTT (- (2 * (p_lh p + p_l2 p))) 0 PI PI in
  trailer_axle p xg' = trailer_axle p xg /\ t_th1 xg' = t_th1 xg + PI.
Proof.
  cbn [t_th1]. split; [|ring]. unfold trailer_axle, ahead. cbn [t_px t_py t_th1 t_th2 fst snd].
  rewrite cos_PI, sin_PI, cos_0, sin_0. f_equal; ring.
Qed.
