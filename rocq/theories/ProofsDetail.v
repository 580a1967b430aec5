(** * ProofsDetail: formulas a user reads off the documentation (C16, C27, C28, C37, C40, C53). *)
From Coq Require Import String Reals Lra Lia.
From Verif Require Import Base BaseFacts SpecInput SpecPlan InputFacts Params Geom TT2d Bicycle NTrailer Acc Rollout SpecGeom SpecBodies SpecDyn SpecReward
  ProofsReward Projection SpecProj ProofsProj Demo EnvModel Setup Config Planner Cache CacheInst Tune SpecTune ProofsSafety SpecDetail.
From Coq Require Import List.
Import ListNotations.
Local Open Scope list_scope.
Open Scope R_scope.

(** ** Rewards *)
Lemma short_way_wrap a e : short_way a e -> wrap_pi a = e.
Proof. intros [H [k ->]]. rewrite <- (wrap_pi_shift a k). apply wrap_pi_id. exact H. Qed.
Lemma short_way_ex a : short_way a (wrap_pi a).
Proof. split; [apply wrap_pi_range|apply wrap_pi_rep]. Qed.
Lemma weight_is thr k cap d : clip (sigmoid ((thr - d) / k)) 0 cap = approach_weight thr k cap d.
Proof.
  unfold clip. pose proof (sigmoid_pos ((thr - d) / k)). rewrite Rmax_left by lra.
  unfold approach_weight, sigmoid. f_equal. unfold Rdiv. rewrite Rmult_1_l.
  replace (- ((thr - d) * / k)) with ((d - thr) * / k) by ring. reflexivity.
Qed.
Lemma tt_dpos_is p xg q : tt_dpos p xg q = tracked_distance p xg q.
Proof.
  unfold tracked_distance. change (Z.eqb (p_motion p) 1 || Z.eqb (p_motion p) 2)%bool with (use_tractor (p_motion p)).
  destruct (use_tractor (p_motion p)) eqn:E.
  - apply tt_dpos_tractor. apply use_tractor_iff. exact E.
  - apply tt_dpos_trailer. intro T. apply use_tractor_iff in T. congruence.
Qed.
(** C16: the reward of a state of the tractor-trailer, term by term: e1, e2 are the headings of tractor and trailer
    relative to the goal, o1, o2 relative to the goal turned round, f the hitch angle, all measured the short way. *)
Lemma l_C16_tt_reward_formula :
  forall s q e1 e2 o1 o2 f,
  let g := t_th1 (ts_xg s) in
  short_way (t_th1 q - g) e1 -> short_way (t_th2 q - g) e2 ->
  short_way (t_th1 q - g - PI) o1 -> short_way (t_th2 q - g - PI) o2 -> short_way (t_th1 q - t_th2 q) f ->
  tt_reward s q = tt_reward_of (ts_p s) (tracked_distance (ts_p s) (ts_xg s) q)
                    (fst (counted (p_motion (ts_p s)) e1 e2 o1 o2)) (snd (counted (p_motion (ts_p s)) e1 e2 o1 o2)) f.
Proof.
  intros s q e1 e2 o1 o2 f g E1 E2 O1 O2 F. unfold tt_reward. cbv zeta.
  rewrite pos_reward_score by apply tt_dpos_nonneg. rewrite weight_is, tt_dpos_is.
  fold g. rewrite (short_way_wrap _ _ E1), (short_way_wrap _ _ E2), (short_way_wrap _ _ O1), (short_way_wrap _ _ O2), (short_way_wrap _ _ F).
  unfold tt_reward_of, counted, Rltb, where_. destruct (Z.eqb (p_motion (ts_p s)) 0).
  - destruct (Rlt_dec (Rabs e1 + Rabs e2) (Rabs o1 + Rabs o2)), (Rle_dec (Rabs o1 + Rabs o2) (Rabs e1 + Rabs e2)); try (exfalso; lra);
      cbn [fst snd]; ring.
  - destruct (Rlt_dec (Rabs e1 + Rabs e2) (Rabs o1 + Rabs o2)); cbn [fst snd]; ring.
Qed.
(** C16: likewise for the car. *)
Lemma l_C16_bk_reward_formula :
  forall s q e o,
  let g := b_th (bs_xg s) in
  short_way (b_th q - g) e -> short_way (b_th q - g - PI) o ->
  bk_reward s q = bk_reward_of (bs_p s) (dist (front_axle (bs_p s) (b_px q) (b_py q) (b_th q)) (b_px (bs_xg s), b_py (bs_xg s)))
                    (fst (counted (p_motion (bs_p s)) e 0 o 0)).
Proof.
  intros s q e o g E O. unfold bk_reward. cbv zeta.
  rewrite pos_reward_score by apply bk_dpos_nonneg. rewrite weight_is.
  fold g. rewrite (short_way_wrap _ _ E), (short_way_wrap _ _ O).
  change (bk_dpos (bs_p s) (bs_xg s) q) with (dist (front_axle (bs_p s) (b_px q) (b_py q) (b_th q)) (b_px (bs_xg s), b_py (bs_xg s))).
  set (D := dist _ _). clearbody D.
  unfold bk_reward_of, counted, Rltb, where_. rewrite !Rabs_R0, !Rplus_0_r. destruct (Z.eqb (p_motion (bs_p s)) 0).
  - destruct (Rlt_dec (Rabs e) (Rabs o)), (Rle_dec (Rabs o) (Rabs e)); try (exfalso; lra); cbn [fst snd]; ring.
  - destruct (Rlt_dec (Rabs e) (Rabs o)); cbn [fst snd]; ring.
Qed.
(** C16: the errors the formulas speak of exist for every state, and at the switching distance position and heading
    weigh the same. *)
Lemma x_C16_weight_example :
  (forall a, exists e, short_way a e) /\
  (forall thr k cap, 1 / 2 <= cap -> approach_weight thr k cap thr = 1 / 2).
Proof.
  split; [intro a; exists (wrap_pi a); apply short_way_ex|].
  intros thr k cap H. unfold approach_weight. rewrite Rminus_eq_0. unfold Rdiv at 1. rewrite Rmult_0_l, exp_0.
  rewrite Rmin_left; lra.
Qed.

(** ** Drawing area *)
(** C27: set_plot_limits stores the two ranges as given and touches nothing else. *)
Lemma l_C27_plot_limits_kept :
  forall e x0 x1 y0 y1, let e' := env_set_plot_limits e (x0, x1) (y0, y1) in
  e_xr e' = (x0, x1) /\ e_yr e' = (y0, y1) /\
  e_case e' = e_case e /\ e_parking e' = e_parking e /\ e_circles e' = e_circles e /\ e_rects e' = e_rects e.
Proof. intros. repeat split. Qed.

(** ** The score of the demonstration *)
Lemma score_at_rows {Q : Type} (row : refrow -> Q) (at_row : Q -> refrow -> Prop) (rew tm : Q -> R) w qs xref d :
  (forall q r, at_row q r -> rew q = rew (row r) /\ tm q = tm (row r)) -> xref <> [] -> Forall2 at_row qs xref ->
  score_with row w xref rew tm = trajectory_score rew tm w qs d.
Proof.
  intros H Ne F. unfold score_with, trajectory_score, Rmean. rewrite map_length.
  assert (L : length xref = length qs) by (clear - F; induction F; cbn; congruence). rewrite L.
  assert (S : Rsum (map (fun r => rew (row r)) xref) = fold_right Rplus 0 (map rew qs)).
  { clear L Ne. induction F as [|q r qs xs A F IH]; [reflexivity|]. unfold Rsum in *. cbn [map fold_right]. rewrite IH, (proj1 (H q r A)). reflexivity. }
  rewrite S. f_equal. f_equal. unfold last_row.
  clear S L. induction F as [|q r qs xs A F IH]; [contradiction|]. inversion F; subst.
  - cbn [last]. symmetry. exact (proj2 (H q r A)).
  - cbn [last] in *. apply IH. discriminate.
Qed.
(** C37: the reward of the demonstration is the score of the trajectory that visits exactly its poses, for every class
    (the acceleration class at any speeds and steering angles). *)
Lemma l_C37_reference_reward_is_score :
  (forall p g dm xref qs d, xref <> [] -> Forall2 tt_at_row qs xref ->
     m_score (tt_methods p g) dm xref (m_reward (tt_methods p g) dm) (m_terminal (tt_methods p g) dm) =
     trajectory_score (tt_reward (fst dm)) (tt_terminal (fst dm)) (p_term_w (ts_p (fst dm))) qs d) /\
  (forall p g dm xref qs d, xref <> [] -> Forall2 bk_at_row qs xref ->
     m_score (bk_methods p g) dm xref (m_reward (bk_methods p g) dm) (m_terminal (bk_methods p g) dm) =
     trajectory_score (bk_reward (fst dm)) (bk_terminal (fst dm)) (p_term_w (bs_p (fst dm))) qs d) /\
  (forall g dm xref qs d, xref <> [] -> Forall2 nt_at_row qs xref ->
     m_score (nt_methods g) dm xref (m_reward (nt_methods g) dm) (m_terminal (nt_methods g) dm) =
     trajectory_score (nt_reward (fst dm)) (nt_terminal (fst dm)) (p_term_w (ns_p (fst dm))) qs d) /\
  (forall p g dm xref qs d, xref <> [] -> Forall2 acc_at_row qs xref ->
     m_score (acc_methods p g) dm xref (m_reward (acc_methods p g) dm) (m_terminal (acc_methods p g) dm) =
     trajectory_score (acc_reward (fst dm)) (acc_terminal (fst dm)) (p_term_w (as_p (fst dm))) qs d).
Proof.
  repeat split; intros; cbn [m_score m_reward m_terminal tt_methods bk_methods nt_methods acc_methods]; eapply score_at_rows; eauto.
  - intros [x y a b] [rx ry ra rb m] (E1 & E2 & E3 & E4). cbn in E1, E2, E3, E4. subst. split; reflexivity.
  - intros [x y a] [rx ry ra rb m] (E1 & E2 & E3). cbn in E1, E2, E3. subst. split; reflexivity.
  - intros [x y a b] [rx ry ra rb m] (E1 & E2 & E3 & E4). cbn in E1, E2, E3, E4. subst. split; reflexivity.
  - intros [[x y a b] v dl] [rx ry ra rb m] (E1 & E2 & E3 & E4). cbn in E1, E2, E3, E4. subst. split; reflexivity.
Qed.
(** C37: every reference has such a trajectory. *)
Lemma x_C37_states_at_rows :
  forall xref, Forall2 tt_at_row (map (fun r => mkTT (f_px r) (f_py r) (f_th1 r) (f_th2 r)) xref) xref.
Proof. induction xref as [|r l IH]; constructor; auto. repeat split. Qed.

(** ** The pose the projection looks at *)
Lemma rk4_stages {Q U : Type} (axpy : Q -> R -> Q -> Q) (dyn : Q -> U -> Q) x u dt k1 k2 k3 k4 :
  dyn x u = k1 -> dyn (axpy x (dt / 2) k1) u = k2 -> dyn (axpy x (dt / 2) k2) u = k3 -> dyn (axpy x dt k3) u = k4 ->
  rk4 axpy dyn x u dt = axpy x (dt / 6) (axpy (axpy (axpy k1 2 k2) 2 k3) 1 k4).
Proof. intros <- <- <- <-. reflexivity. Qed.
Definition rate_at (p : params) (v d th ps : R) : ttq := mkTT (v * cos th) (v * sin th) (v / p_l1 p * tan d) (trailer_rate p v d th ps).
Lemma dyn_stage p v d px py th ps c a b e k : tt_dyn p (tt_axpy (mkTT px py th ps) c (mkTT a b e k)) (v, d) = rate_at p v d (th + c * e) (ps + c * k).
Proof. reflexivity. Qed.
(** C40: the constraints of the tractor-trailer are evaluated at the Runge-Kutta prediction under the scaled command. *)
Lemma l_C40_tt_constraint_pose :
  forall s q u, tt_constraint s q u = tt_constraints_at s (tt_predicted (ts_p s) q u).
Proof.
  intros s [px py th ps] u. unfold tt_constraint. f_equal. unfold tt_predicted, input_scaler. cbn [t_px t_py t_th1 t_th2].
  set (v := fst u * p_vmax (ts_p s)). set (d := snd u * p_dmax (ts_p s)). set (p := ts_p s). set (dt := p_dt p). cbv zeta.
  set (w := v / p_l1 p * tan d). replace (dt * w / 2) with (dt / 2 * w) by field. clearbody dt.
  set (k1 := trailer_rate p v d th ps). set (k2 := trailer_rate p v d (th + dt / 2 * w) (ps + dt / 2 * k1)).
  set (k3 := trailer_rate p v d (th + dt / 2 * w) (ps + dt / 2 * k2)). set (k4 := trailer_rate p v d (th + dt * w) (ps + dt * k3)).
  rewrite (rk4_stages tt_axpy (tt_dyn p) (mkTT px py th ps) (v, d) dt
    (mkTT (v * cos th) (v * sin th) w k1) (mkTT (v * cos (th + dt / 2 * w)) (v * sin (th + dt / 2 * w)) w k2)
    (mkTT (v * cos (th + dt / 2 * w)) (v * sin (th + dt / 2 * w)) w k3) (mkTT (v * cos (th + dt * w)) (v * sin (th + dt * w)) w k4)
    eq_refl (dyn_stage _ _ _ _ _ _ _ _ _ _ _ _) (dyn_stage _ _ _ _ _ _ _ _ _ _ _ _) (dyn_stage _ _ _ _ _ _ _ _ _ _ _ _)).
  unfold tt_axpy. cbn [t_px t_py t_th1 t_th2]. clearbody k1 k2 k3 k4 w. f_equal; field.
Qed.
(** C40: whenever an optimiser that only succeeds on strictly admissible commands succeeds, its command is applied and at
    the predicted pose the shortened bodies are free of all obstacles and the hitch angle is below the limit. *)
Lemma l_C40_tt_predicted_pose_safe :
  forall s m guide st a x,
  p_proj (ts_p s) = true -> 0 < p_l1 (ts_p s) -> 0 < p_l2 (ts_p s) -> 0 < p_trac_w (ts_p s) -> 0 < p_trail_w (ts_p s) ->
  proper_obstacles (ts_circ s) (ts_rect s) -> strictly_feasible m ->
  m (fun u => (fst u - fst (saturated a)) * (fst u - fst (saturated a)) + (snd u - snd (saturated a)) * (snd u - snd (saturated a)))
    (saturated a) (mkBounds (-1, 1) (-1, 1)) (tt_constraint s (st_q st)) = OptDone true x ->
  let n := tt_predicted (ts_p s) (st_q st) x in
  st_app (tt_step_p s m guide st a) = x /\
  free_bodies (tt_short_bodies (ts_p s) n) (ts_circ s) (ts_rect s) /\
  exists k : Z, Rabs (t_th1 n - t_th2 n + IZR k * (2 * PI)) < p_phi_max (ts_p s).
Proof.
  intros s m guide st a x Hp L1 L2 W1 W2 O Hm E n. split.
  - apply (proj1 (l_C40_tt_step s m guide st a Hp)). exact E.
  - apply (l_C40_tt_constraints_exact s n L1 L2 W1 W2 O). unfold n. rewrite <- l_C40_tt_constraint_pose. exact (Hm _ _ _ _ _ E).
Qed.

(** ** The tuner's planner settings *)
(** C53: each trial runs the planner with the values of the configuration under their own names. *)
Lemma l_C53_planner_settings :
  forall (c : dict) seed n h d temp b0 bT demo pref guid,
  c "seed"%string = Some (VInt seed) -> c "Nsample"%string = Some (VInt (Z.of_nat n)) -> c "Hsample"%string = Some (VInt (Z.of_nat h)) ->
  c "Ndiffuse"%string = Some (VInt (Z.of_nat d)) -> c "temp_sample"%string = Some (VFloat temp) ->
  c "beta0"%string = Some (VFloat b0) -> c "betaT"%string = Some (VFloat bT) -> c "enable_demo"%string = Some (VBool demo) ->
  c "motion_preference"%string = Some (VInt pref) -> c "enable_guidance"%string = Some (VBool guid) ->
  let g := planner_cfg c in
  g_seed g = seed /\ g_Nsample g = n /\ g_Hsample g = h /\ g_Ndiffuse g = d /\ g_temp g = temp /\ g_beta0 g = b0 /\ g_betaT g = bT /\
  g_demo g = demo /\ Planner.g_motion g = pref /\ Planner.g_guid g = guid.
Proof.
  intros c seed n h d temp b0 bT demo pref guid E1 E2 E3 E4 E5 E6 E7 E8 E9 E10 g.
  unfold g, planner_cfg, int, num, flag. rewrite E1, E2, E3, E4, E5, E6, E7, E8, E9, E10. rewrite !Nat2Z.id.
  cbn [g_seed g_Nsample g_Hsample g_Ndiffuse g_temp g_beta0 g_betaT g_demo Planner.g_motion Planner.g_guid]. repeat split.
Qed.
(** C53: the dataclass defaults have such values. *)
Lemma x_C53_defaults_have_settings :
  forall f, In f ["seed"; "Nsample"; "Hsample"; "Ndiffuse"; "temp_sample"; "beta0"; "betaT"; "enable_demo"; "motion_preference"; "enable_guidance"]%string ->
  exists ty dv, In (f, ty, dv) dataclass_fields.
Proof.
  intros f H. cbn [In] in H.
  repeat match type of H with False => contradiction | _ \/ _ => destruct H as [<-|H]; [do 2 eexists; unfold dataclass_fields; cbn [In]; tauto|] end.
Qed.

(** ** The fences of the lot *)
(** C28: the rectangular obstacles of a lot, whatever its layout and size, are two 30 m fences one metre thick: their
    points are those with |x| <= 15 and y from 14.5 to 15.5 or from -14.5 to -13.5. *)
Lemma l_C28_fences :
  forall w h c e P, env_init w h "parking"%string c = Ok e ->
  length (e_rects e) = 2%nat /\
  ((exists o, In o (e_rects e) /\ solid (obstacle_body o) P) <->
   -15 <= fst P <= 15 /\ (29/2 <= snd P <= 31/2 \/ -29/2 <= snd P <= -27/2)).
Proof.
  intros w h c e [x y] H.
  assert (R : e_rects e = parking_rects).
  { unfold env_init in H. cbn [String.eqb Ascii.eqb Bool.eqb] in H. cbv zeta in H. destruct (parking_circles _ _ _); [|discriminate]. injection H as <-. reflexivity. }
  rewrite R. split; [reflexivity|]. cbn [fst snd]. split.
  - intros (o & [<-|[<-|[]]] & a & b & Ha & Hb & E); cbn [obstacle_body rg_back rg_front rg_half rg_org rg_ang r_x r_y r_w r_h r_ang] in *;
      unfold at_frame in E; rewrite cos_0, sin_0 in E; cbn [fst snd] in E; injection E as -> ->; lra.
  - intros [X [Y|Y]]; [exists (mkRect 0 15 30 1 0)|exists (mkRect 0 (-14) 30 1 0)]; (split; [cbn; tauto|]);
      [exists x, (y - 15)|exists x, (y + 14)]; cbn [obstacle_body rg_back rg_front rg_half rg_org rg_ang r_x r_y r_w r_h r_ang];
      (split; [lra|]); (split; [lra|]); unfold at_frame; rewrite cos_0, sin_0; cbn [fst snd]; f_equal; lra.
Qed.
