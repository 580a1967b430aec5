(** * ProofsSweepAcc: between the rows of an acceleration-controlled plan (C59). *)
From Coq Require Import String.
From Verif Require Import Base BaseFacts SpecInput SpecPlan InputFacts Params Geom TT2d Bicycle NTrailer Acc SpecGeom SpecBodies SpecDyn SpecAcc SpecDisc SpecSweep
  EnvModel Setup Rollout Planner Instances ProofsGeom ProofsBodies ProofsKin ProofsRobots ProofsSafety ProofsStep ProofsPlanner ProofsEnv ProofsDefaults ProofsDisc
  ProofsSweep ProofsAcc.
Local Open Scope string_scope.
Local Open Scope list_scope.
Open Scope R_scope.

Lemma acc_pose s proj guide viz st a : p_proj (as_p s) = false -> p_guid (as_p s) = false ->
  0 <= p_vmax (as_p s) -> 0 <= p_dmax (as_p s) ->
  a_q (st_q (acc_step_internal s proj guide viz st a)) = a_q (acc_drive (as_p s) (p_dt (as_p s)) (st_q st) 0 0).
Proof.
  intros Hp Hg Hv Hd. rewrite acc_step_form by auto. cbn [st_q].
  match goal with |- context [if ?b then acc_backup_state _ _ _ else _] => destruct b end;
    unfold acc_backup_state, acc_proposed; rewrite acc_euler_drive by auto; reflexivity.
Qed.
Lemma sat_ratio m x : 0 <= m -> exists r, -1 <= r <= 1 /\ r * m = sat m x.
Proof.
  intros Hm. pose proof (sat_bound m x Hm) as B. assert (- m <= sat m x <= m) by (unfold Rabs in B; destruct Rcase_abs; lra). clear B.
  destruct (Req_dec m 0) as [->|N].
  - exists 0. split; [lra|]. lra.
  - exists (sat m x / m). split; [|field; lra]. split.
    + apply Rmult_le_reg_r with m; [lra|]. unfold Rdiv. rewrite Rmult_assoc, Rinv_l by lra. lra.
    + apply Rmult_le_reg_r with m; [lra|]. unfold Rdiv. rewrite Rmult_assoc, Rinv_l by lra. lra.
Qed.
Lemma drive_plain p q : proper_vehicle p -> exists u, ProofsStep.in_box u /\ a_q (acc_drive p (p_dt p) q 0 0) = tt_plain p (a_q q) u.
Proof.
  intros ((Hdt & Hv & Hl & Hd & _) & _ & Hl2).
  destruct (sat_ratio (p_vmax p) (a_v q) Hv) as (v & Bv & Ev). destruct (sat_ratio (p_dmax p) (a_d q) Hd) as (w & Bw & Ew).
  exists (v, w). split; [split; cbn [fst snd]; assumption|].
  unfold acc_drive, tt_plain. cbn [a_q fst snd]. rewrite Ev, Ew. f_equal. unfold Rdiv. ring.
Qed.
Lemma close_pair p q u lam pad : proper_vehicle p -> tt_pad_ok p pad -> 0 <= pad -> ProofsStep.in_box u -> 0 <= lam <= 1 ->
  Forall2 (near pad) (tt_bodies p q) (tt_bodies p (tt_mix lam q (tt_plain p q u))) \/
  Forall2 (near pad) (tt_bodies p (tt_plain p q u)) (tt_bodies p (tt_mix lam q (tt_plain p q u))).
Proof.
  intros HV (H1 & H2) Hpad Hb Hl. destruct (Rle_dec lam (1 / 2)) as [H|H].
  - left. pose proof (tt_lip p q u 0 lam (2 * pad) HV Hb H1 H2) as L. rewrite tt_mix_0 in L.
    eapply Forall2_impl'; [|exact L]. intros x y N. eapply near_le; [exact N|]. rewrite Rminus_0_r, Rabs_pos_eq by lra.
    replace (lam * (2 * pad)) with ((2 * lam) * pad) by ring. rewrite <- (Rmult_1_l pad) at 2. apply Rmult_le_compat_r; lra.
  - right. pose proof (tt_lip p q u 1 lam (2 * pad) HV Hb H1 H2) as L. rewrite tt_mix_1 in L.
    eapply Forall2_impl'; [|exact L]. intros x y N. eapply near_le; [exact N|]. rewrite Rabs_left1 by lra.
    replace (- (lam - 1) * (2 * pad)) with ((2 * (1 - lam)) * pad) by ring. rewrite <- (Rmult_1_l pad) at 2. apply Rmult_le_compat_r; lra.
Qed.
Lemma replay_pairs {Q} (step : State Q -> act -> State Q) us : forall st q q', consecutive (st_q st :: replay step st us) q q' ->
  exists st0 u, st_q st0 = q /\ q' = st_q (step st0 u).
Proof.
  induction us as [|u us IH]; intros st q q' (k & E1 & E2).
  - destruct k; cbn in E2; [discriminate|destruct k; discriminate].
  - cbn [replay] in *. destruct k as [|k].
    + cbn in E1, E2. injection E1 as <-. injection E2 as <-. exists st, u. auto.
    + apply (IH (step st u)). exists k. cbn [nth_error] in E1, E2. split; assumption.
Qed.
Lemma consecutive_ind {Q} (P : Q -> Prop) l q0 : P q0 -> (forall q q', consecutive (q0 :: l) q q' -> P q -> P q') -> Forall P (q0 :: l).
Proof.
  revert q0. induction l as [|q1 l IH]; intros q0 H0 H; [constructor; auto|].
  constructor; [exact H0|]. apply IH.
  - apply (H q0 q1); [exists O; split; reflexivity|exact H0].
  - intros q q' (k & E1 & E2). apply H. exists (S k). split; assumption.
Qed.
Lemma acc_step_off_discs p q u (cs : list circle) pad : proper_vehicle p -> tt_sized p -> tt_pad_ok p pad -> 0 <= pad -> ProofsStep.in_box u ->
  (forall c, In c cs -> pad <= c_r c) ->
  (forall c, In c cs -> tt_off_disc p c q) ->
  (forall g c, In g (tt_bodies p (tt_plain p q u)) -> In c cs -> clear_of_circle g c) ->
  forall c, In c cs -> tt_off_disc p c (tt_plain p q u).
Proof.
  intros HV Hs (H1 & H2) Hpad Hb Hr Hoff Hcl c Hc h Hh.
  pose proof (tt_lip p q u 0 1 (2 * pad) HV Hb H1 H2) as L. rewrite tt_mix_0, tt_mix_1 in L.
  rewrite Rminus_0_r, Rabs_R1, Rmult_1_l in L.
  assert (X : exists g, In g (tt_bodies p q) /\ near (2 * pad) g h).
  { clear - L Hh. induction L as [|g h' gs hs N HF IH]; [destruct Hh|].
    destruct Hh as [<-|Hh]; [exists g; split; [left; reflexivity|exact N]|].
    destruct (IH Hh) as (g0 & I & N0). exists g0. split; [right; exact I|exact N0]. }
  destruct X as (g & Ig & N). specialize (Hr c Hc).
  apply (never_swallowed_near g h c); [| lra | eapply near_le; [exact N|lra] | apply (Hoff c Hc); exact Ig | apply Hcl; assumption].
  destruct Hs as ((Z1 & Z2) & Z3 & Z4). destruct Ig as [<-|[<-|[]]]; unfold well_formed, tractor_body, trailer_body; cbn; lra.
Qed.

(** C59, acceleration class: its shield does not guarantee that the rows of a plan are clear (C23), but if the rows of
    the returned trajectory are found clear of the padded obstacles, then with the padding of C59 nothing listed is
    touched between the rows either - whatever the planner's settings, and with or without shields. *)
Lemma l_C59_acc_clear_rows_suffice :
  forall r r1 r2 rects mode circs pad (s : acc_self) (x0 : accq) proj guide logpd rew_xref (g : cfg) (rg : prng) out,
  set_rectangle_obs r rects mode pad = (r1, Ok tt) -> set_circle_obs r1 circs pad = (r2, Ok tt) ->
  (forall x y rad, In [x; y; rad] circs -> 0 <= rad) ->
  ts_rect (as_t s) = rb_rect r2 -> ts_circ (as_t s) = rb_circ r2 ->
  p_proj (as_p s) = false -> p_guid (as_p s) = false ->
  proper_vehicle (as_p s) -> tt_sized (as_p s) -> tt_pad_ok (as_p s) pad ->
  (forall c, In c (ts_circ (as_t s)) -> tt_off_disc (as_p s) c (a_q x0)) ->
  run_diffusion (acc_penv s x0 proj guide logpd rew_xref) (Some g) rg = Ok out ->
  Forall (fun q => tt_clear (as_p s) (ts_circ (as_t s)) (ts_rect (as_t s)) (a_q q)) (o_traj out) ->
  forall q q' lam body P, consecutive (o_traj out) q q' -> 0 <= lam <= 1 ->
  In body (tt_bodies (as_p s) (tt_mix lam (a_q q) (a_q q'))) -> solid body P ->
  (forall e, In e rects -> ~ given_rect mode e P) /\ (forall e, In e circs -> ~ given_circle e P).
Proof.
  intros r r1 r2 rects mode circs pad s x0 proj guide logpd rx g rg out S1 S2 Hrad Er Ec Hp Hg HV Hs HB Ho E HC q q' lam body P Hcons Hl Hbody HP.
  assert (Hpad : 0 <= pad) by (destruct HB as [B1 _]; pose proof (sweep_pos (as_p s) (proj1 HV)); lra).
  destruct (circ_keeps_rect _ _ _ _ S2) as [Ek _].
  assert (HT : exists step us, o_traj out = x0 :: replay step (reset_state x0) us /\
    forall st a, a_q (st_q (step st a)) = a_q (acc_drive (as_p s) (p_dt (as_p s)) (st_q st) 0 0)).
  { cbn [run_diffusion] in E. injection E as <-. unfold run_diffusion_core. destruct (reverse_loop _ _ _ _ _ _) as [Ys Yf].
    cbn [o_traj pe_reset pe_step pe_step_viz acc_penv]. unfold trajectory_states.
    eexists _, _. split; [reflexivity|]. intros st a. destruct HV as ((_ & Hv & _ & Hd & _) & _).
    destruct (g_guid g); [apply acc_pose; auto|]. unfold acc_step. apply acc_pose; auto. }
  destruct HT as (step & us & ET & HS). rewrite ET in *.
  assert (HN : forall q q', consecutive (x0 :: replay step (reset_state x0) us) q q' ->
    exists u, ProofsStep.in_box u /\ a_q q' = tt_plain (as_p s) (a_q q) u).
  { intros y y' Hy. destruct (replay_pairs step us (reset_state x0) y y' Hy) as (st0 & u & <- & ->). rewrite HS. apply drive_plain; exact HV. }
  assert (HI : forall y y', consecutive (x0 :: replay step (reset_state x0) us) y y' ->
    In y (x0 :: replay step (reset_state x0) us) /\ In y' (x0 :: replay step (reset_state x0) us)).
  { intros y y' (k & E1 & E2). split; eapply nth_error_In; eassumption. }
  assert (HO : Forall (fun y => forall c, In c (ts_circ (as_t s)) -> tt_off_disc (as_p s) c (a_q y)) (x0 :: replay step (reset_state x0) us)).
  { apply consecutive_ind; [exact Ho|]. intros y y' Hy Hoy. destruct (HN y y' Hy) as (u & Hb & Eu). rewrite Eu.
    apply (acc_step_off_discs _ _ _ _ pad); auto.
    - rewrite Ec. apply (circ_radii _ _ _ _ S2 Hrad).
    - rewrite <- Eu. rewrite Forall_forall in HC. apply (HC y'). apply HI with y. exact Hy. }
  destruct (HN q q' Hcons) as (u & Hb & Eu). destruct (HI q q' Hcons) as [I1 I2]. rewrite Forall_forall in HC, HO.
  pose proof (HC q I1) as C1. pose proof (HC q' I2) as C2. pose proof (HO q I1) as D1. pose proof (HO q' I2) as D2.
  cbv beta in *. rewrite Eu in Hbody, C2, D2.
  destruct (close_pair (as_p s) (a_q q) u lam pad HV HB Hpad Hb Hl) as [N|N].
  - split.
    + intros e He. apply (near_misses_rects r rects mode pad r1 _ _ S1 N) with body; auto. intros b o Hbo Hoo. destruct C1 as [_ C]. apply C; auto. rewrite Er, Ek. exact Hoo.
    + intros e He. apply (near_misses_circles r1 circs pad r2 _ _ S2 N) with body; auto. intros b c Hbo Hoo. apply (D1 c); auto. rewrite Ec. exact Hoo.
  - split.
    + intros e He. apply (near_misses_rects r rects mode pad r1 _ _ S1 N) with body; auto. intros b o Hbo Hoo. destruct C2 as [_ C]. apply C; auto. rewrite Er, Ek. exact Hoo.
    + intros e He. apply (near_misses_circles r1 circs pad r2 _ _ S2 N) with body; auto. intros b c Hbo Hoo. apply (D2 c); auto. rewrite Ec. exact Hoo.
Qed.
(** Non-vacuity: the default tractor-trailer at 1 m/s between a 2 m x 2 m box 10 m to its left and a disc of radius 1 m
    10 m to its right, both padded by 1.56 m, planned with one control: the row it drives to is clear, and all the
    hypotheses of C59_acc_clear_rows_suffice hold. *)
Lemma x_C59_acc_example :
  forall r proj guide logpd rew_xref (g : cfg) (rg : prng), g_Hsample g = 1%nat ->
  exists r1 r2 (s : acc_self) x0 out,
  set_rectangle_obs r [[0; 10; 2; 2]] "center" (156/100) = (r1, Ok tt) /\ set_circle_obs r1 [[0; -10; 1]] (156/100) = (r2, Ok tt) /\
  ts_rect (as_t s) = rb_rect r2 /\ ts_circ (as_t s) = rb_circ r2 /\ p_proj (as_p s) = false /\ p_guid (as_p s) = false /\
  proper_vehicle (as_p s) /\ tt_sized (as_p s) /\ tt_pad_ok (as_p s) (156/100) /\
  (forall c, In c (ts_circ (as_t s)) -> tt_off_disc (as_p s) c (a_q x0)) /\
  run_diffusion (acc_penv s x0 proj guide logpd rew_xref) (Some g) rg = Ok out /\
  Forall (fun q => tt_clear (as_p s) (ts_circ (as_t s)) (ts_rect (as_t s)) (a_q q)) (o_traj out) /\
  map (fun q => t_px (a_q q)) (o_traj out) = [0; 2/10].
Proof.
  intros r proj guide logpd rx g rg HH. eexists. eexists.
  set (c := mkCircle 0 (-10) (1 + 156/100)). set (o := mkRect 0 10 (2 + 156/100 * 2) (2 + 156/100 * 2) 0).
  set (s := mkAccSelf (mkTTSelf default_params [c] [o] (mkTT 5 0 0 0)) 2 1). set (x0 := mkAcc (mkTT 0 0 0 0) 1 0).
  assert (DV : default_vehicle default_params) by (unfold default_vehicle, default_params, delta_max_of_deg; cbn; repeat split; lra).
  assert (Dt : 0 <= p_dt default_params <= 1 / 4) by (cbn; lra).
  destruct (l_C58_default_vehicle_and_discs default_params (mkCircle 0 0 1) DV Dt) as (V1 & V2 & _); [cbn; lra|].
  assert (Box : forall x g P, In g (tt_bodies default_params (mkTT x 0 0 0)) -> solid g P -> - (13/10) <= snd P <= 13/10).
  { intros x g0 P [<-|[<-|[]]] (a & b & Ha & Hb & ->); unfold tractor_body, trailer_body, at_frame, ahead, default_params in *;
      cbn [rg_org rg_ang rg_back rg_front rg_half fst snd t_px t_py t_th1 t_th2 p_lr p_l1 p_lf1 p_trac_w p_lh p_l2 p_lf2 p_lr2 p_trail_w] in *;
      rewrite cos_0, sin_0; lra. }
  assert (Off : forall x c', In c' [c] -> tt_off_disc default_params c' (mkTT x 0 0 0)).
  { intros x c' [<-|[]] g0 Hg P HP. pose proof (Box x g0 P Hg HP) as B. unfold c; cbn [c_r c_x c_y]. apply Rnot_le_lt. intros Hd. apply disc_box in Hd. cbn [fst snd] in Hd. lra. }
  assert (Clr : forall x, tt_clear default_params [c] [o] (mkTT x 0 0 0)).
  { intros x. split.
    - intros g0 c' Hg Hc P (a & b & Ha & Hb & _ & E). apply (Off x c' Hc g0 Hg). exists a, b. auto.
    - intros g0 o' Hg [<-|[]] P [HP (a & b & Ha & Hb & E)]. pose proof (Box x g0 P Hg HP) as B. rewrite E in B.
      unfold obstacle_body, at_frame, o in *. cbn [rg_org rg_ang rg_back rg_front rg_half fst snd r_x r_y r_ang r_w r_h] in *. rewrite cos_0, sin_0 in B. lra. }
  assert (Next : forall viz a, a_q (st_q (acc_step_internal s proj guide viz (reset_state x0) a)) = mkTT (2/10) 0 0 0).
  { intros viz a. rewrite acc_pose by (try reflexivity; apply V1). unfold acc_drive, sat, x0, s, as_p.
    cbn [st_q reset_state a_q a_v a_d t_px t_py t_th1 t_th2 as_t ts_p]. change (p_vmax default_params) with 3. change (p_dt default_params) with (2/10).
    assert (Hd : 0 <= p_dmax default_params) by apply V1.
    repeat (destruct Rlt_dec; try lra). rewrite cos_0, sin_0, tan_0, Rminus_0_r, sin_0. f_equal; unfold Rdiv; ring. }
  exists s, x0. eexists.
  repeat (split; [reflexivity|]). split; [exact V1|]. split; [exact V2|].
  split; [apply l_C59_default_vehicle_padding; assumption|]. split; [exact (Off 0)|]. split; [reflexivity|].
  pose proof (run_Y0_length (acc_penv s x0 proj guide logpd rx) g rg) as HL. rewrite HH in HL.
  unfold run_diffusion_core in *. destruct (reverse_loop _ _ _ _ _ _) as [Ys Yf]. cbn [o_Y0 o_traj] in *.
  destruct (snd (rollout_term (acc_penv s x0 proj guide logpd rx) Yf)) as [|u [|u2 us]]; [cbn in HL; lia| |cbn in HL; lia].
  unfold trajectory_states. cbn [replay map pe_reset acc_penv st_q reset_state pe_step pe_step_viz].
  assert (E : exists y, (if g_guid g then acc_step_internal s proj guide true else acc_step s proj guide) (reset_state x0) u = y /\
    a_q (st_q y) = mkTT (2/10) 0 0 0).
  { eexists. split; [reflexivity|]. destruct (g_guid g); [apply Next|]. unfold acc_step. apply Next. }
  destruct E as (y & Ey & E1).
  match goal with |- context [st_q (?f ?a u)] => replace (f a u) with y by (symmetry; exact Ey) end.
  rewrite E1. split; [|reflexivity].
  constructor; [exact (Clr 0)|]. constructor; [|constructor].
  rewrite E1. apply Clr.
Qed.
