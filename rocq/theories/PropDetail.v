(** * Property theorems (generated from ProofsDetail.v by tools/genprops.py; statements only,
    each closed by [exact]). *)
From Coq Require Import String Reals Lra Lia.
From Verif Require Import Base BaseFacts SpecInput SpecPlan InputFacts Params Geom TT2d Bicycle NTrailer Acc Rollout SpecGeom SpecBodies SpecDyn SpecReward
  ProofsReward Projection SpecProj ProofsProj Demo EnvModel Setup Config Planner Cache CacheInst Tune SpecTune ProofsSafety SpecDetail.
From Coq Require Import List.
From Verif Require Import ProofsDetail.
Local Open Scope list_scope.
Open Scope R_scope.

(** C16: the reward of a state of the tractor-trailer, term by term: e1, e2 are the headings of tractor and trailer
    relative to the goal, o1, o2 relative to the goal turned round, f the hitch angle, all measured the short way. *)
Theorem C16_tt_reward_formula :
  forall s q e1 e2 o1 o2 f,
  let g := t_th1 (ts_xg s) in
  short_way (t_th1 q - g) e1 -> short_way (t_th2 q - g) e2 ->
  short_way (t_th1 q - g - PI) o1 -> short_way (t_th2 q - g - PI) o2 -> short_way (t_th1 q - t_th2 q) f ->
  tt_reward s q = tt_reward_of (ts_p s) (tracked_distance (ts_p s) (ts_xg s) q)
                    (fst (counted (p_motion (ts_p s)) e1 e2 o1 o2)) (snd (counted (p_motion (ts_p s)) e1 e2 o1 o2)) f.
Proof. exact l_C16_tt_reward_formula. Qed.
Print Assumptions C16_tt_reward_formula.

(** C16: likewise for the car. *)
Theorem C16_bk_reward_formula :
  forall s q e o,
  let g := b_th (bs_xg s) in
  short_way (b_th q - g) e -> short_way (b_th q - g - PI) o ->
  bk_reward s q = bk_reward_of (bs_p s) (dist (front_axle (bs_p s) (b_px q) (b_py q) (b_th q)) (b_px (bs_xg s), b_py (bs_xg s)))
                    (fst (counted (p_motion (bs_p s)) e 0 o 0)).
Proof. exact l_C16_bk_reward_formula. Qed.
Print Assumptions C16_bk_reward_formula.

(** C16: the errors the formulas speak of exist for every state, and at the switching distance position and heading
    weigh the same. *)
Example C16_weight_example :
  (forall a, exists e, short_way a e) /\
  (forall thr k cap, 1 / 2 <= cap -> approach_weight thr k cap thr = 1 / 2).
Proof. exact x_C16_weight_example. Qed.

(** C27: set_plot_limits stores the two ranges as given and touches nothing else. *)
Theorem C27_plot_limits_kept :
  forall e x0 x1 y0 y1, let e' := env_set_plot_limits e (x0, x1) (y0, y1) in
  e_xr e' = (x0, x1) /\ e_yr e' = (y0, y1) /\
  e_case e' = e_case e /\ e_parking e' = e_parking e /\ e_circles e' = e_circles e /\ e_rects e' = e_rects e.
Proof. exact l_C27_plot_limits_kept. Qed.
Print Assumptions C27_plot_limits_kept.

(** C37: the reward of the demonstration is the score of the trajectory that visits exactly its poses, for every class
    (the acceleration class at any speeds and steering angles). *)
Theorem C37_reference_reward_is_score :
  (forall p g dm xref qs d, xref <> [] -> Forall2 tt_at_row qs xref ->
     m_score (tt_methods p g) dm xref (m_reward (tt_methods p g) dm) (m_terminal (tt_methods p g) dm) =
     trajectory_score (tt_reward (fst dm)) (tt_terminal (fst dm)) (p_term_w (ts_p (fst dm))) qs d) /\
  (forall p g dm xref qs d, xref <> [] -> Forall2 bk_at_row qs xref ->
     m_score (bk_methods p g) dm xref (m_reward (bk_methods p g) dm) (m_terminal (bk_methods p g) dm) =
     trajectory_score (bk_reward (fst dm)) (bk_terminal (fst dm)) (p_term_w (bs_p (fst dm))) qs d) /\
  (forall g dm xref qs d, xref <> [] -> Forall2 nt_at_row qs xref ->
     m_score (nt_methods g) dm xref (m_reward (nt_methods g) dm) (m_terminal (nt_methods g) dm) =
     trajectory_score (nt_reward (fst dm)) (nt_terminal (fst dm)) (p_term_w (ns_p (fst dm))) qs d) /\
  (forall p g dm xref qs d, xref <> [] -> Forall2 acc_at_row qs xref ->
     m_score (acc_methods p g) dm xref (m_reward (acc_methods p g) dm) (m_terminal (acc_methods p g) dm) =
     trajectory_score (acc_reward (fst dm)) (acc_terminal (fst dm)) (p_term_w (as_p (fst dm))) qs d).
Proof. exact l_C37_reference_reward_is_score. Qed.
Print Assumptions C37_reference_reward_is_score.

(** C37: every reference has such a trajectory. *)
Example C37_states_at_rows :
  forall xref, Forall2 tt_at_row (map (fun r => mkTT (f_px r) (f_py r) (f_th1 r) (f_th2 r)) xref) xref.
Proof. exact x_C37_states_at_rows. Qed.

(** C40: the constraints of the tractor-trailer are evaluated at the Runge-Kutta prediction under the scaled command. *)
Theorem C40_tt_constraint_pose :
  forall s q u, tt_constraint s q u = tt_constraints_at s (tt_predicted (ts_p s) q u).
Proof. exact l_C40_tt_constraint_pose. Qed.
Print Assumptions C40_tt_constraint_pose.

(** C40: whenever an optimiser that only succeeds on strictly admissible commands succeeds, its command is applied and at
    the predicted pose the shortened bodies are free of all obstacles and the hitch angle is below the limit. *)
Theorem C40_tt_predicted_pose_safe :
  forall s m guide st a x,
  p_proj (ts_p s) = true -> 0 < p_l1 (ts_p s) -> 0 < p_l2 (ts_p s) -> 0 < p_trac_w (ts_p s) -> 0 < p_trail_w (ts_p s) ->
  proper_obstacles (ts_circ s) (ts_rect s) -> strictly_feasible m ->
  m (fun u => (fst u - fst (saturated a)) * (fst u - fst (saturated a)) + (snd u - snd (saturated a)) * (snd u - snd (saturated a)))
    (saturated a) (mkBounds (-1, 1) (-1, 1)) (tt_constraint s (st_q st)) = OptDone true x ->
  let n := tt_predicted (ts_p s) (st_q st) x in
  st_app (tt_step_p s m guide st a) = x /\
  free_bodies (tt_short_bodies (ts_p s) n) (ts_circ s) (ts_rect s) /\
  exists k : Z, Rabs (t_th1 n - t_th2 n + IZR k * (2 * PI)) < p_phi_max (ts_p s).
Proof. exact l_C40_tt_predicted_pose_safe. Qed.
Print Assumptions C40_tt_predicted_pose_safe.

(** C53: each trial runs the planner with the values of the configuration under their own names. *)
Theorem C53_planner_settings :
  forall (c : dict) seed n h d temp b0 bT demo pref guid,
  c "seed"%string = Some (VInt seed) -> c "Nsample"%string = Some (VInt (Z.of_nat n)) -> c "Hsample"%string = Some (VInt (Z.of_nat h)) ->
  c "Ndiffuse"%string = Some (VInt (Z.of_nat d)) -> c "temp_sample"%string = Some (VFloat temp) ->
  c "beta0"%string = Some (VFloat b0) -> c "betaT"%string = Some (VFloat bT) -> c "enable_demo"%string = Some (VBool demo) ->
  c "motion_preference"%string = Some (VInt pref) -> c "enable_guidance"%string = Some (VBool guid) ->
  let g := planner_cfg c in
  g_seed g = seed /\ g_Nsample g = n /\ g_Hsample g = h /\ g_Ndiffuse g = d /\ g_temp g = temp /\ g_beta0 g = b0 /\ g_betaT g = bT /\
  g_demo g = demo /\ Planner.g_motion g = pref /\ Planner.g_guid g = guid.
Proof. exact l_C53_planner_settings. Qed.
Print Assumptions C53_planner_settings.

(** C53: the dataclass defaults have such values. *)
Example C53_defaults_have_settings :
  forall f, In f ["seed"; "Nsample"; "Hsample"; "Ndiffuse"; "temp_sample"; "beta0"; "betaT"; "enable_demo"; "motion_preference"; "enable_guidance"]%string ->
  exists ty dv, In (f, ty, dv) dataclass_fields.
Proof. exact x_C53_defaults_have_settings. Qed.

(** C28: the rectangular obstacles of a lot, whatever its layout and size, are two 30 m fences one metre thick: their
    points are those with |x| <= 15 and y from 14.5 to 15.5 or from -14.5 to -13.5. *)
Theorem C28_fences :
  forall w h c e P, env_init w h "parking"%string c = Ok e ->
  length (e_rects e) = 2%nat /\
  ((exists o, In o (e_rects e) /\ solid (obstacle_body o) P) <->
   -15 <= fst P <= 15 /\ (29/2 <= snd P <= 31/2 \/ -29/2 <= snd P <= -27/2)).
Proof. exact l_C28_fences. Qed.
Print Assumptions C28_fences.
