(** * ProofsHarnessJudge: the verdict of an integration test, and the safety of the predefined scenarios. *)
From Coq Require Import String.
From Verif Require Import Base BaseFacts Params Geom TT2d Acc Rollout Instances EnvModel Setup Stats Config Tune Planner
  Harness SpecHarness SpecGeom SpecBodies SpecAcc SpecEnv SpecStats SpecDefaults
  SpecDyn ProofsGeom ProofsBodies ProofsKin ProofsRobots ProofsSafety ProofsAcc ProofsEnv ProofsSetup ProofsDefaults ProofsStats ProofsPlanner ProofsPicture ProofsHarness ProofsHarnessRun.
Local Open Scope string_scope.
Local Open Scope list_scope.
Open Scope R_scope.

(** ** The verdict *)
Lemma trajectory_violations_exists : forall {Q} (coll hitch : Q -> bool) traj hv oc,
  trajectory_violations coll hitch hv oc traj = (hv || existsb hitch traj, oc || existsb coll traj).
Proof.
  intros Q coll hitch traj. induction traj as [|q rest IH]; intros hv oc; cbn [trajectory_violations existsb].
  - rewrite !orb_false_r. reflexivity.
  - rewrite IH. destruct (hitch q), (coll q), hv, oc; reflexivity.
Qed.

Lemma judge_spec : forall {Q} (coll hitch : Q -> bool) pos back goal c us states d,
  (0 <= int (tc_mbd c) "Hsample")%Z ->
  length us = Z.to_nat (int (tc_mbd c) "Hsample") -> length states = S (Z.to_nat (int (tc_mbd c) "Hsample")) ->
  let near := SpecGeom.dist (pos (last states d)) goal in let rear := SpecGeom.dist (back (last states d)) goal in
  (acceptable c near rear -> judge coll hitch pos back goal c us states =
     Passed (Rmin near rear) (mkSum (existsb hitch states) (existsb coll states) true near rear (length states) (length us))) /\
  (~ acceptable c near rear -> judge coll hitch pos back goal c us states = Failed).
Proof.
  intros Q coll hitch pos back goal c us states d H0 HU HS. cbv zeta. unfold judge.
  destruct states as [|q0 rest]; [discriminate|]. cbv zeta.
  rewrite (last_indep (q0 :: rest) q0 d) by discriminate. rewrite !pnorm_dist.
  remember (q0 :: rest) as states. clear Heqstates. rewrite trajectory_violations_exists. cbn [orb].
  set (near := SpecGeom.dist (pos (last states d)) goal). set (rear := SpecGeom.dist (back (last states d)) goal).
  assert (L1 : Z.eqb (Z.of_nat (length us)) (int (tc_mbd c) "Hsample") = true) by (apply Z.eqb_eq; lia).
  assert (L2 : Z.eqb (Z.of_nat (length states)) (int (tc_mbd c) "Hsample" + 1) = true) by (apply Z.eqb_eq; lia).
  rewrite L1, L2. cbn [negb]. unfold acceptable, Rleb.
  destruct (Rle_dec (tc_min c) (Rmin near rear)), (Rle_dec (Rmin near rear) (tc_max c)), (Rle_dec near (tc_limit c)), (Rle_dec rear (tc_limit c));
    cbn [negb orb]; split; intros A; try reflexivity; exfalso; tauto.
Qed.

Lemma run_lengths : forall {Q} (env : penv Q) c rg, exists out, run_diffusion env (Some (planner_cfg c)) rg = Ok out /\
  length (o_Y0 out) = Z.to_nat (int c "Hsample") /\ length (o_traj out) = S (Z.to_nat (int c "Hsample")).
Proof.
  intros Q env c rg. eexists. split; [reflexivity|]. split.
  - apply run_Y0_length.
  - destruct (run_traj_length env (planner_cfg c) rg _ eq_refl) as [L _]. exact L.
Qed.

(** A test of the kinematic vehicle passes exactly if planning took no longer than allowed, the smaller of the two
    distances of the final state to the goal (rear axle, middle of the trailer's rear face) lies in the expected
    range, and one of them is within the success distance; otherwise it fails. It never ends in another way. The
    saved summary reports the two distances, the array sizes, and exactly the collisions and hitch violations of the
    returned trajectory. *)
Lemma l_C63_kinematic_verdict :
  forall c r px py th1 th2 gx gy g1 g2 pt gt lt pa ga la rx rg t0 t1 d,
  create_test_environment c = Ok r -> rb_kind r = KTT ->
  rb_x0 r = Some [px; py; th1; th2] -> rb_xg r = Some [gx; gy; g1; g2] -> (0 <= int (tc_mbd c) "Hsample")%Z ->
  let s := mkTTSelf (rb_p r) (rb_circ r) (rb_rect r) (mkTT gx gy g1 g2) in
  exists out, run_diffusion (tt_penv s (mkTT px py th1 th2) pt gt lt rx) (Some (planner_cfg (tc_mbd c))) rg = Ok out /\
    let near := axle_distance (last (o_traj out) d) (gx, gy) in
    let rear := rear_face_distance (rb_p r) (last (o_traj out) d) (gx, gy) in
    (t1 - t0 <= tc_timeout c /\ acceptable c near rear ->
       exists sm, run_mbd_test c pt gt lt pa ga la rx rg t0 t1 = Passed (Rmin near rear) sm /\
         sm_success sm = true /\ sm_tractor sm = near /\ sm_trailer sm = rear /\
         Z.of_nat (sm_actions sm) = int (tc_mbd c) "Hsample" /\ Z.of_nat (sm_states sm) = (int (tc_mbd c) "Hsample" + 1)%Z /\
         (tt_sized (rb_p r) -> proper_obstacles (rb_circ r) (rb_rect r) ->
            (sm_coll sm = false <-> Forall (tt_clear (rb_p r) (rb_circ r) (rb_rect r)) (o_traj out))) /\
         (sm_hitch sm = false <-> Forall (tt_hitch_ok (rb_p r)) (o_traj out))) /\
    (~ (t1 - t0 <= tc_timeout c /\ acceptable c near rear) -> run_mbd_test c pt gt lt pa ga la rx rg t0 t1 = Failed).
Proof.
  intros c r px py th1 th2 gx gy g1 g2 pt gt lt pa ga la rx rg t0 t1 d H K X0 XG HH s.
  destruct (run_lengths (tt_penv s (mkTT px py th1 th2) pt gt lt rx) (tc_mbd c) rg) as (out & E & LY & LT).
  exists out. split; [exact E|]. cbv zeta.
  assert (T : tt_of_robot r = Some (s, mkTT px py th1 th2)) by (unfold tt_of_robot; rewrite K, X0, XG; reflexivity).
  assert (RM : run_mbd_test c pt gt lt pa ga la rx rg t0 t1 =
    if Rltb (tc_timeout c) (t1 - t0) then Failed
    else judge (ts_coll s) (ts_hitch s) (fun q => (t_px q, t_py q)) (tt_trailer_back (ts_p s)) (gx, gy) c (o_Y0 out) (o_traj out)).
  { unfold run_mbd_test. rewrite H, T, E. reflexivity. }
  rewrite RM. clear RM T E.
  pose proof (judge_spec (ts_coll s) (ts_hitch s) (fun q => (t_px q, t_py q)) (tt_trailer_back (ts_p s)) (gx, gy) c (o_Y0 out) (o_traj out) d HH LY LT) as J.
  cbv beta zeta in J. rewrite tt_back_face in J. change (ts_p s) with (rb_p r) in J.
  fold (axle_distance (last (o_traj out) d) (gx, gy)) in J. fold (rear_face_distance (rb_p r) (last (o_traj out) d) (gx, gy)) in J.
  destruct J as [J1 J2]. change (ts_p s) with (rb_p r). unfold Rltb. split.
  - intros [A B]. destruct (Rlt_dec (tc_timeout c) (t1 - t0)) as [C|C]; [lra|]. rewrite (J1 B). eexists. split; [reflexivity|].
    cbn [sm_success sm_tractor sm_trailer sm_actions sm_states sm_coll sm_hitch]. do 3 (split; [reflexivity|]). rewrite LY, LT.
    split; [lia|]. split; [lia|]. split.
    + intros S1 S2. apply existsb_false_Forall. intros q _. exact (tt_coll_clear_iff s q S1 S2).
    + apply existsb_false_Forall. intros q _. exact (tt_hitch_iff (rb_p r) q).
  - intros N. destruct (Rlt_dec (tc_timeout c) (t1 - t0)) as [C|C]; [reflexivity|]. apply J2. intros B. apply N. split; [lra|exact B].
Qed.

(** The same for the acceleration-controlled vehicle. *)
Lemma l_C63_acceleration_verdict :
  forall c r px py th1 th2 v dl gx gy g1 g2 gv gd pt gt lt pa ga la rx rg t0 t1 d,
  create_test_environment c = Ok r -> rb_kind r = KACC ->
  rb_x0 r = Some [px; py; th1; th2; v; dl] -> rb_xg r = Some [gx; gy; g1; g2; gv; gd] -> (0 <= int (tc_mbd c) "Hsample")%Z ->
  let s := mkAccSelf (mkTTSelf (rb_p r) (rb_circ r) (rb_rect r) (mkTT gx gy g1 g2)) (rb_amax r) (rb_omax r) in
  exists out, run_diffusion (acc_penv s (mkAcc (mkTT px py th1 th2) v dl) pa ga la rx) (Some (planner_cfg (tc_mbd c))) rg = Ok out /\
    let near := axle_distance (a_q (last (o_traj out) d)) (gx, gy) in
    let rear := rear_face_distance (rb_p r) (a_q (last (o_traj out) d)) (gx, gy) in
    (t1 - t0 <= tc_timeout c /\ acceptable c near rear ->
       exists sm, run_mbd_test c pt gt lt pa ga la rx rg t0 t1 = Passed (Rmin near rear) sm /\
         sm_success sm = true /\ sm_tractor sm = near /\ sm_trailer sm = rear /\
         Z.of_nat (sm_actions sm) = int (tc_mbd c) "Hsample" /\ Z.of_nat (sm_states sm) = (int (tc_mbd c) "Hsample" + 1)%Z /\
         (tt_sized (rb_p r) -> proper_obstacles (rb_circ r) (rb_rect r) ->
            (sm_coll sm = false <-> Forall (tt_clear (rb_p r) (rb_circ r) (rb_rect r)) (map a_q (o_traj out)))) /\
         (sm_hitch sm = false <-> Forall (tt_hitch_ok (rb_p r)) (map a_q (o_traj out)))) /\
    (~ (t1 - t0 <= tc_timeout c /\ acceptable c near rear) -> run_mbd_test c pt gt lt pa ga la rx rg t0 t1 = Failed).
Proof.
  intros c r px py th1 th2 v dl gx gy g1 g2 gv gd pt gt lt pa ga la rx rg t0 t1 d H K X0 XG HH s.
  destruct (run_lengths (acc_penv s (mkAcc (mkTT px py th1 th2) v dl) pa ga la rx) (tc_mbd c) rg) as (out & E & LY & LT).
  exists out. split; [exact E|]. cbv zeta.
  assert (T : tt_of_robot r = None) by (unfold tt_of_robot; rewrite K; reflexivity).
  assert (T' : acc_of_robot r = Some (s, mkAcc (mkTT px py th1 th2) v dl)) by (unfold acc_of_robot; rewrite K, X0, XG; reflexivity).
  set (cl := fun q : accq => ts_coll (as_t s) (a_q q)). set (hi := fun q : accq => ts_hitch (as_t s) (a_q q)).
  assert (RM : run_mbd_test c pt gt lt pa ga la rx rg t0 t1 =
    if Rltb (tc_timeout c) (t1 - t0) then Failed
    else judge cl hi (fun q => (t_px (a_q q), t_py (a_q q))) (fun q => tt_trailer_back (ts_p (as_t s)) (a_q q)) (gx, gy) c (o_Y0 out) (o_traj out)).
  { unfold run_mbd_test. rewrite H, T, T', E. reflexivity. }
  rewrite RM. clear RM T T' E.
  pose proof (judge_spec cl hi (fun q => (t_px (a_q q), t_py (a_q q))) (fun q => tt_trailer_back (ts_p (as_t s)) (a_q q)) (gx, gy) c (o_Y0 out) (o_traj out) d HH LY LT) as J.
  cbv beta zeta in J. rewrite tt_back_face in J. change (ts_p (as_t s)) with (rb_p r) in J.
  fold (axle_distance (a_q (last (o_traj out) d)) (gx, gy)) in J. fold (rear_face_distance (rb_p r) (a_q (last (o_traj out) d)) (gx, gy)) in J.
  destruct J as [J1 J2]. change (ts_p (as_t s)) with (rb_p r). unfold Rltb. split.
  - intros [A B]. destruct (Rlt_dec (tc_timeout c) (t1 - t0)) as [C|C]; [lra|]. rewrite (J1 B). eexists. split; [reflexivity|].
    cbn [sm_success sm_tractor sm_trailer sm_actions sm_states sm_coll sm_hitch]. do 3 (split; [reflexivity|]). rewrite LY, LT.
    split; [lia|]. split; [lia|]. split.
    + intros S1 S2. rewrite Forall_map. apply existsb_false_Forall. intros q _. exact (tt_coll_clear_iff (as_t s) (a_q q) S1 S2).
    + rewrite Forall_map. apply existsb_false_Forall. intros q _. exact (tt_hitch_iff (rb_p r) (a_q q)).
  - intros N. destruct (Rlt_dec (tc_timeout c) (t1 - t0)) as [C|C]; [reflexivity|]. apply J2. intros B. apply N. split; [lra|exact B].
Qed.

(** ** A passing test need not be safe *)
Lemma default_circles : forall e k, env_init 32 32 "parking" None = Ok e -> In k (e_circles e) -> c_y k <= 1/2 /\ c_r k = 1.
Proof.
  intros e k E H. injection E as <-. cbn -[IZR Rdiv Rmult Rplus Rminus Rinv Ropp] in H.
  repeat match type of H with False => contradiction | _ => destruct H as [<-|H]; [cbn; lra|] end.
Qed.
Lemma kqs_stuck : forall {Q} (next : Q -> act -> Q) bad q us, (forall a, bad (next q (clip_act a)) = true) ->
  kqs next bad q us = repeat q (length us).
Proof.
  intros Q next bad q us H. induction us as [|u us IH]; [reflexivity|]. cbn [kqs length repeat]. unfold kq. rewrite H. f_equal. exact IH.
Qed.
Lemma Rabs_le_both : forall x b, Rabs x <= b -> - b <= x <= b.
Proof. intros x b H. unfold Rabs in H. destruct (Rcase_abs x); lra. Qed.
Lemma clip_unit : forall a, -1 <= fst (clip_act a) <= 1.
Proof. intros [a b]. unfold clip_act. cbn [fst]. apply clip_range. lra. Qed.
Lemma prod_bound : forall a b x, 0 <= b -> Rabs a <= b -> -1 <= x <= 1 -> - b <= a * x <= b.
Proof.
  intros a b x Hb Ha Hx. apply Rabs_le_both. rewrite Rabs_mult. assert (Rabs x <= 1) by (apply Rabs_le; lra).
  replace b with (b * 1) by ring. apply Rmult_le_compat; auto using Rabs_pos.
Qed.

(** C63 (finding): a test passes although every state of its trajectory collides: whatever the random numbers, a
    vehicle put on the goal inside an obstacle stays there, and only its distance to the goal counts. *)
Lemma l_C63_passed_means_safe_refuted :
  exists c r, create_custom_test_config "parking_basic_forward"
      [OCircles [mkCircle 0 0 1000]; OStart 0 (-21/2) (- PI / 2) (- PI / 2)] = Ok c /\
    create_test_environment c = Ok r /\
    forall pt gt lt pa ga la rx rg t0 t1, t1 - t0 <= 300 ->
    exists dd sm, run_mbd_test c pt gt lt pa ga la rx rg t0 t1 = Passed dd sm /\ sm_coll sm = true /\ sm_success sm = true.
Proof.
  match goal with |- exists c r, ?t = Ok _ /\ _ => destruct t as [c|] eqn:E; [|discriminate] end.
  injection E as <-.
  match goal with |- exists c r, Ok ?d = _ /\ _ => set (cc := d); exists cc end.
  destruct (l_C62_succeeds cc eq_refl (or_introl eq_refl)) as [r Er].
  { intros lot H. discriminate. }
  exists r. split; [reflexivity|]. split; [exact Er|]. intros pt gt lt pa ga la rx rg t0 t1 HT.
  destruct (l_C62_vehicle cc r Er) as (PJ & PG & P & K & _). specialize (K eq_refl). specialize (P eq_refl eq_refl eq_refl).
  assert (PB : p_trac_w (rb_p r) = 2 /\ p_trail_w (rb_p r) = 5/2 /\ p_l1 (rb_p r) = 323/100 /\ p_lf1 (rb_p r) = 9/10 /\ p_lr (rb_p r) = 231/125 /\
     p_lf2 (rb_p r) = 71/50 /\ p_lr2 (rb_p r) = 129/40 /\
     p_vmax (rb_p r) = 3 /\ p_dt (rb_p r) = 1/4 /\ p_sh_coll (rb_p r) = true /\ p_sh_hitch (rb_p r) = true).
  { unfold as_requested in P. repeat split; apply P. }
  destruct PB as (P1 & P1' & P2 & P3 & P4 & P5 & P6 & P7 & P8 & P9 & P10).
  pose proof (goal_pose cc r _ _ Er eq_refl eq_refl eq_refl) as G. unfold pose_vector in G. rewrite K in G.
  pose proof (default_lot_start cc r 0 (-21/2) (- PI / 2) (- PI / 2) Er eq_refl eq_refl eq_refl eq_refl eq_refl) as X0.
  unfold pose_vector in X0. rewrite K in X0.
  set (x := -21/4 + 0 - p_l1 (rb_p r) * cos (- PI / 2)) in *. set (y := 2 + -21/2) in *.
  assert (EX : x = -21/4).
  { unfold x. replace (- PI / 2) with (- (PI / 2)) by lra. rewrite cos_neg, cos_PI2. ring. }
  assert (EY : y = -17/2) by (unfold y; lra). clearbody x y. subst x y.
  set (q := mkTT (-21/4) (-17/2) (- PI / 2) (- PI / 2)).
  assert (HH : (0 <= int (tc_mbd cc) "Hsample")%Z) by discriminate.
  destruct (l_C63_kinematic_verdict cc r _ _ _ _ _ _ _ _ pt gt lt pa ga la rx rg t0 t1 q Er K X0 G HH) as (out & E & V & _).
  set (s := mkTTSelf (rb_p r) (rb_circ r) (rb_rect r) (mkTT (-21/4) (-17/2) (- PI / 2) (- PI / 2))) in *.
  destruct (l_C62_obstacles cc r Er) as (lot0 & L1 & _ & L3 & L4 & _).
  assert (IN : In (mkCircle 0 0 1000) (ts_circ s)).
  { apply L3. left. exists [mkCircle 0 0 1000]. split; [reflexivity|left; reflexivity]. }
  assert (SZ : tt_sized (ts_p s)).
  { unfold tt_sized, tractor_sized. cbn [s ts_p]. rewrite P1, P1', P2, P3, P4, P5, P6. lra. }
  assert (CB : forall q' : ttq, Rabs (t_px q') <= 100 -> Rabs (t_py q') <= 100 -> ts_coll s q' = true).
  { intros q' A B. destruct (ts_coll s q') eqn:Ec; [reflexivity|]. exfalso.
    destruct (tt_coll_false_clear s q' SZ Ec) as [H _].
    specialize (H _ _ (or_introl eq_refl) IN (at_frame (t_px q', t_py q') (t_th1 q') 0 1)).
    assert (O : outline (tractor_body (ts_p s) (t_px q') (t_py q') (t_th1 q')) (at_frame (t_px q', t_py q') (t_th1 q') 0 1)).
    { exists 0, 1. unfold tractor_body. cbn [rg_back rg_front rg_half rg_org rg_ang s ts_p]. rewrite P1, P2, P3, P4.
      split; [lra|]. split; [lra|]. split; [right; right; right; lra|reflexivity]. }
    specialize (H O). unfold at_frame, SpecGeom.dist, dist2 in H. cbn [fst snd c_x c_y c_r] in H.
    pose proof (COS_bound (t_th1 q')) as CB. pose proof (SIN_bound (t_th1 q')) as SB.
    apply Rabs_le_both in A. apply Rabs_le_both in B.
    set (u := t_px q' + 0 * cos (t_th1 q') - 1 * sin (t_th1 q') - 0) in *. set (w := t_py q' + 0 * sin (t_th1 q') + 1 * cos (t_th1 q') - 0) in *.
    assert (U : -101 <= u <= 101) by (unfold u; lra). assert (W : -101 <= w <= 101) by (unfold w; lra). clearbody u w.
    assert (S : sqrt (u * u + w * w) <= sqrt (1000 * 1000)) by (apply sqrt_le_1_alt; nra).
    rewrite sqrt_square in S by lra. lra. }
  assert (TR : o_traj out = repeat q (length (o_traj out))).
  { change (run_diffusion (tt_penv s q pt gt lt rx) (Some (planner_cfg (tc_mbd cc))) rg = Ok out) in E.
    unfold run_diffusion in E. apply (f_equal (fun z => match z with Ok o => o | Err _ => out end)) in E. cbv beta iota in E. rewrite <- E.
    destruct (run_char _ _ _ _ (tt_kinematic s pt gt false PJ PG) (tt_penv s q pt gt lt rx) q eq_refl eq_refl
      ltac:(intros st a; apply tt_viz_same; assumption) I (planner_cfg (tc_mbd cc)) rg) as (us & _ & -> & _).
    rewrite kqs_stuck; [cbn [length repeat]; rewrite repeat_length; reflexivity|].
    intros a. unfold tt_bad, enabled_bad. cbn [s ts_p]. rewrite P9.
    rewrite CB; [reflexivity| |];
      unfold tt_plain; cbn [t_px t_py q]; rewrite P7, P8; pose proof (clip_unit a) as CA; set (f := fst (clip_act a)) in *; clearbody f;
      [pose proof (prod_bound (f * 3) 3 (cos (- PI / 2)) ltac:(lra) ltac:(apply Rabs_le; lra) (COS_bound _))
      |pose proof (prod_bound (f * 3) 3 (sin (- PI / 2)) ltac:(lra) ltac:(apply Rabs_le; lra) (SIN_bound _))]; apply Rabs_le; cbn [t_th1 q]; lra. }
  cbv zeta in V.
  assert (LQ : last (o_traj out) q = q).
  { rewrite TR. generalize (length (o_traj out)). clear. intros n. induction n as [|[|n] IH]; [reflexivity|reflexivity|exact IH]. }
  rewrite LQ in V. set (rear := rear_face_distance (rb_p r) q (-21/4, -17/2)) in *.
  assert (N0 : axle_distance q (-21/4, -17/2) = 0).
  { unfold axle_distance, SpecGeom.dist, dist2. cbn [fst snd q t_px t_py]. match goal with |- sqrt ?z = 0 => replace z with 0 by ring end. apply sqrt_0. }
  rewrite N0 in V. assert (R0 : 0 <= rear) by (unfold rear, rear_face_distance, SpecGeom.dist; apply sqrt_pos).
  assert (RM : Rmin 0 rear = 0) by (apply Rmin_left; exact R0).
  destruct V as (sm & V1 & V2 & _ & _ & _ & _ & V7 & _).
  { split; [exact HT|]. unfold acceptable. rewrite RM. cbn [cc tc_min tc_max tc_limit]. lra. }
  exists (Rmin 0 rear), sm. split; [exact V1|]. split; [|exact V2].
  destruct (sm_coll sm) eqn:Ec; [reflexivity|]. exfalso.
  assert (PO : proper_obstacles (rb_circ r) (rb_rect r)).
  { split.
    - intros k Hk. apply L3 in Hk. destruct Hk as [(l & El & Hl)|[Hl _]].
      + injection El as <-. destruct Hl as [<-|[]]. cbn [c_r]. lra.
      + destruct (default_circles _ _ L1 Hl). lra.
    - intros o Ho. apply L4 in Ho. destruct Ho as [Ho|(l & El & _)]; [|discriminate].
      injection L1 as <-. cbn [e_rects parking_rects] in Ho. destruct Ho as [<-|[<-|[]]]; cbn [r_w r_h]; lra. }
  specialize (V7 SZ PO). assert (F : Forall (tt_clear (rb_p r) (rb_circ r) (rb_rect r)) (o_traj out)) by (apply V7; reflexivity).
  destruct (run_lengths (tt_penv s q pt gt lt rx) (tc_mbd cc) rg) as (out' & E' & _ & LT).
  change (run_diffusion (tt_penv s q pt gt lt rx) (Some (planner_cfg (tc_mbd cc))) rg = Ok out) in E. rewrite E in E'. injection E' as <-. rewrite TR, LT in F. cbn [repeat] in F. inversion F as [|? ? F1 _]; subst.
  assert (C1 : ts_coll s q = true) by (apply CB; cbn [q t_px t_py]; apply Rabs_le; lra).
  assert (C2 : ts_coll s q = false) by (apply tt_clear_coll_false; assumption). congruence.
Qed.

(** ** The predefined scenarios *)
Lemma scenario_facts : forall n c, get_test_config n = Ok c ->
  tc_parking c = None /\ tc_circ c = None /\ tc_rect c = None /\
  tc_min c = 0 /\ tc_max c = 4 /\ tc_limit c = 4 /\ tc_timeout c = 300 /\
  (exists dx dy th g, tc_dx c = Some dx /\ tc_dy c = Some dy /\ tc_th1 c = Some th /\ tc_th2 c = Some th /\
     tc_g1 c = Some g /\ tc_g2 c = Some g /\ 1 <= dy <= 5 /\ (th = 0 \/ th = PI)) /\
  (text (tc_mbd c) "env_name" = "tt2d" \/ text (tc_mbd c) "env_name" = "acc_tt2d").
Proof.
  intros n c H. apply get_in in H. each_scenario H.
  all: repeat (split; [reflexivity|]).
  all: split; [do 4 eexists; repeat (split; [reflexivity|]); split; [lra|first [left; reflexivity|right; reflexivity]]|].
  all: first [left; reflexivity|right; reflexivity].
Qed.
Lemma setting : forall n c key, get_test_config n = Ok c -> ~ In key scenario_settings ->
  tc_mbd c key = lookup (map (fun f => (fst (fst f), snd f)) dataclass_fields) key.
Proof. intros n c key H K. destruct (l_C60_configuration n c H) as (_ & _ & _ & _ & _ & _ & _ & _ & _ & D). apply D. exact K. Qed.
Ltac not_setting := let H := fresh in intros H; cbn in H; repeat (destruct H as [H|H]; [discriminate|]); exact H.
Lemma scenario_env : forall n c, get_test_config n = Ok c -> exists r, create_test_environment c = Ok r.
Proof.
  intros n c H. destruct (scenario_facts n c H) as (E1 & _ & _ & _ & _ & _ & _ & _ & E). apply l_C62_succeeds.
  - unfold text. rewrite (setting n c "case" H) by not_setting. reflexivity.
  - destruct E as [E|E]; [left; exact E|right; right]. split; [exact E|]. unfold num. rewrite (setting n c "a_max" H) by not_setting. cbn. lra.
  - intros lot L. congruence.
Qed.
Lemma scenario_vehicle : forall n c r, get_test_config n = Ok c -> create_test_environment c = Ok r ->
  as_requested (trial_args (tc_mbd c)) (rb_p r).
Proof.
  intros n c r H Er. destruct (l_C62_vehicle c r Er) as (_ & _ & P & _). apply P.
  - unfold flag. rewrite (setting n c "enable_projection" H) by not_setting. reflexivity.
  - unfold flag. rewrite (setting n c "enable_guidance" H) by not_setting. reflexivity.
  - unfold int. rewrite (setting n c "num_trailers" H) by not_setting. reflexivity.
Qed.
Lemma scenario_dimensions : forall n c r, get_test_config n = Ok c -> create_test_environment c = Ok r ->
  (p_trac_w (rb_p r) = 2 /\ p_trail_w (rb_p r) = 5/2 /\ p_l1 (rb_p r) = 323/100 /\ p_lf1 (rb_p r) = 9/10 /\ p_lr (rb_p r) = 231/125 /\
   p_lf2 (rb_p r) = 71/50 /\ p_lr2 (rb_p r) = 129/40) /\ 0 <= p_phi_max (rb_p r) /\
  p_sh_coll (rb_p r) = true /\ p_sh_hitch (rb_p r) = true.
Proof.
  intros n c r H Er. pose proof (scenario_vehicle n c r H Er) as P. unfold as_requested in P.
  destruct P as (_ & _ & _ & _ & A1 & _ & A2 & _ & _ & _ & _ & _ & _ & _ & _ & _ & B1 & _ & _ & B4 & B5 & B6 & B7 & B8 & B9 & _ & _ & _ & B10 & _).
  rewrite A1, A2, B1, B4, B5, B6, B7, B8, B9, B10.
  cbn [trial_args g_sh_coll g_sh_hitch g_l1 g_lf1 g_lr g_lf2 g_lr2 g_trac_w g_trail_w]. unfold num, flag.
  rewrite (setting n c "enable_shielded_rollout_collision" H), (setting n c "enable_shielded_rollout_hitch" H), (setting n c "l1" H), (setting n c "lf1" H),
    (setting n c "lr" H), (setting n c "lf2" H), (setting n c "lr2" H), (setting n c "tractor_width" H), (setting n c "trailer_width" H) by not_setting.
  pose proof PI_RGT_0. cbn [lookup map dataclass_fields String.eqb Ascii.eqb Bool.eqb fst snd].
  repeat split; lra || reflexivity.
Qed.

(** A level vehicle above the default lot and below the upper wall is safe. *)
Lemma level_body : forall P th b f h Q y, sin th = 0 -> snd P = y -> h <= 5/4 -> solid (mkRegion P th b f h) Q -> y - 5/4 <= snd Q <= y + 5/4.
Proof.
  intros P th b f h Q y S Hy Hh (a & d & _ & Hd & ->). cbn [rg_half rg_org rg_ang at_frame snd] in *. unfold at_frame. cbn [snd]. rewrite S, Hy.
  pose proof (COS_bound th). assert (C : Rabs (d * cos th) <= 5/4).
  { rewrite Rabs_mult. replace (5/4) with (5/4 * 1) by ring. apply Rmult_le_compat; try apply Rabs_pos; apply Rabs_le; lra. }
  apply Rabs_le_both in C. lra.
Qed.
Lemma level_safe : forall p circ rect x y th, (th = 0 \/ th = PI) -> p_trac_w p <= 5/2 -> p_trail_w p <= 5/2 -> 0 <= p_phi_max p ->
  (forall k, In k circ -> c_y k <= 1/2 /\ c_r k = 1) -> (forall o, In o rect -> In o parking_rects) ->
  11/4 < y -> y < 53/4 -> tt_safe p circ rect (mkTT x y th th).
Proof.
  intros p circ rect x y th Hth W1 W2 Hphi HC HR Y1 Y2.
  assert (S0 : sin th = 0) by (destruct Hth as [->| ->]; [apply sin_0|apply sin_PI]).
  assert (B : forall g Q, In g (tt_bodies p (mkTT x y th th)) -> solid g Q -> 3/2 < snd Q < 29/2).
  { intros g Q Hg HQ. unfold tt_bodies in Hg. cbn [t_px t_py t_th1 t_th2] in Hg. destruct Hg as [<-|[<-|[]]].
    - unfold tractor_body in HQ. apply (level_body _ _ _ _ _ _ y S0) in HQ; [lra|reflexivity|lra].
    - unfold trailer_body in HQ. apply (level_body _ _ _ _ _ _ y S0) in HQ; [lra| |lra].
      unfold ahead. cbn [fst snd]. rewrite S0. ring. }
  split; [split|].
  - intros g k Hg Hk P HP. apply outline_solid' in HP. apply (B g P Hg) in HP. destruct (HC k Hk) as [K1 K2].
    destruct (Rlt_le_dec (c_r k) (SpecGeom.dist P (c_x k, c_y k))) as [H|H]; [exact H|exfalso].
    apply disc_box in H. cbn [fst snd] in H. lra.
  - intros g o Hg Ho P [H1 H2]. apply (B g P Hg) in H1. apply HR in Ho. destruct Ho as [<-|[<-|[]]]; destruct H2 as (a & b & Ha & Hb & ->);
      cbn [obstacle_body rg_back rg_front rg_half rg_org rg_ang r_x r_y r_w r_h r_ang] in *; unfold at_frame in H1; cbn [fst snd] in H1;
      rewrite sin_0, cos_0 in H1; lra.
  - apply hitch_ok_zero. exact Hphi.
Qed.

(** Every predefined scenario gets an environment in which its start pose is safe; the vehicle starts at rest. *)
Lemma l_C64_start_safe :
  forall n c, get_test_config n = Ok c ->
  exists r x y th, create_test_environment c = Ok r /\ rb_x0 r = Some (pose_vector r x y th th) /\
    (rb_kind r = KTT \/ rb_kind r = KACC) /\
    tt_safe (rb_p r) (rb_circ r) (rb_rect r) (mkTT x y th th).
Proof.
  intros n c H. destruct (scenario_env n c H) as [r Er].
  destruct (scenario_facts n c H) as (E1 & E2 & E3 & _ & _ & _ & _ & (dx & dy & th & g & D1 & D2 & D3 & D4 & _ & _ & Hy & Hth) & EN).
  destruct (scenario_dimensions n c r H Er) as ((W1 & W2 & L1 & _) & Ph & _).
  pose proof (default_lot_start c r dx dy th th Er E1 D1 D2 D3 D4) as X0.
  eexists r, _, _, th. split; [exact Er|]. split; [exact X0|]. split.
  - destruct (l_C62_vehicle c r Er) as (_ & _ & _ & K1 & K2). destruct EN as [EN|EN]; [left; apply K1; exact EN|right; apply K2; exact EN].
  - destruct (l_C62_obstacles c r Er) as (lot & O1 & _ & O3 & O4 & _). rewrite E1 in O1.
    apply level_safe; try lra; try assumption.
    + intros k Hk. apply O3 in Hk. destruct Hk as [(l & El & _)|[Hk _]]; [congruence|]. exact (default_circles _ _ O1 Hk).
    + intros o Ho. apply O4 in Ho. destruct Ho as [Ho|(l & El & _)]; [|congruence]. injection O1 as <-. exact Ho.
Qed.

Lemma scenario_H : forall n c, get_test_config n = Ok c -> int (tc_mbd c) "Hsample" = 50%Z.
Proof. intros n c H. unfold int. rewrite (setting n c "Hsample" H) by not_setting. reflexivity. Qed.
Lemma scenario_proper : forall n c r, get_test_config n = Ok c -> create_test_environment c = Ok r -> proper_obstacles (rb_circ r) (rb_rect r).
Proof.
  intros n c r H Er. destruct (scenario_facts n c H) as (E1 & E2 & E3 & _).
  destruct (l_C62_obstacles c r Er) as (lot & O1 & _ & O3 & O4 & _). rewrite E1 in O1. split.
  - intros k Hk. apply O3 in Hk. destruct Hk as [(l & El & _)|[Hk _]]; [congruence|]. destruct (default_circles _ _ O1 Hk). lra.
  - intros o Ho. apply O4 in Ho. destruct Ho as [Ho|(l & El & _)]; [|congruence]. injection O1 as <-.
    destruct Ho as [<-|[<-|[]]]; cbn [r_w r_h]; lra.
Qed.
Lemma scenario_sized : forall n c r, get_test_config n = Ok c -> create_test_environment c = Ok r -> tt_sized (rb_p r).
Proof.
  intros n c r H Er. destruct (scenario_dimensions n c r H Er) as ((W1 & W2 & L1 & L2 & L3 & L4 & L5) & _).
  unfold tt_sized, tractor_sized. rewrite W1, W2, L1, L2, L3, L4, L5. lra.
Qed.
Lemma scenario_accept : forall n c near rear, get_test_config n = Ok c -> 0 <= near -> 0 <= rear ->
  (acceptable c near rear <-> near <= 4 \/ rear <= 4).
Proof.
  intros n c near rear H A B. destruct (scenario_facts n c H) as (_ & _ & _ & E1 & E2 & E3 & _).
  unfold acceptable. rewrite E1, E2, E3. unfold Rmin. destruct (Rle_dec near rear); lra.
Qed.

(** Every predefined test of the kinematic vehicle: whatever the random numbers and the clock, planning returns a
    trajectory all of whose states are safe, and the test passes (reporting no collision and no hitch violation)
    exactly if planning took at most 300 s and the final state is within 4 m of the goal (rear axle, or middle of the
    trailer's rear face); otherwise it fails. It never ends with another exception. *)
Lemma l_C64_kinematic_scenarios_safe :
  forall n c, get_test_config n = Ok c -> tc_mbd c "env_name" = Some (VStr "tt2d") ->
  exists r x y th gx gy g, create_test_environment c = Ok r /\ rb_kind r = KTT /\
    rb_x0 r = Some [x; y; th; th] /\ rb_xg r = Some [gx; gy; g; g] /\
  forall pt gt lt pa ga la rx rg t0 t1 d,
  exists out, run_diffusion (tt_penv (mkTTSelf (rb_p r) (rb_circ r) (rb_rect r) (mkTT gx gy g g)) (mkTT x y th th) pt gt lt rx)
                (Some (planner_cfg (tc_mbd c))) rg = Ok out /\
    Forall (tt_safe (rb_p r) (rb_circ r) (rb_rect r)) (o_traj out) /\
    let near := axle_distance (last (o_traj out) d) (gx, gy) in
    let rear := rear_face_distance (rb_p r) (last (o_traj out) d) (gx, gy) in
    (t1 - t0 <= 300 /\ (near <= 4 \/ rear <= 4) ->
       exists sm, run_mbd_test c pt gt lt pa ga la rx rg t0 t1 = Passed (Rmin near rear) sm /\
         sm_coll sm = false /\ sm_hitch sm = false /\ sm_success sm = true) /\
    (~ (t1 - t0 <= 300 /\ (near <= 4 \/ rear <= 4)) -> run_mbd_test c pt gt lt pa ga la rx rg t0 t1 = Failed).
Proof.
  intros n c H EN. destruct (l_C64_start_safe n c H) as (r & x & y & th & Er & X0 & _ & Safe).
  destruct (scenario_facts n c H) as (_ & _ & _ & _ & _ & _ & TO & (dx & dy & th' & g & _ & _ & _ & _ & G1 & G2 & _) & _).
  destruct (l_C62_vehicle c r Er) as (PJ & PG & _ & K & _). assert (KT : rb_kind r = KTT) by (apply K; unfold text; rewrite EN; reflexivity).
  assert (CS : text (tc_mbd c) "case" = "parking") by (unfold text; rewrite (setting n c "case" H) by not_setting; reflexivity).
  pose proof (goal_pose c r g g Er CS G1 G2) as XG. unfold pose_vector in X0, XG. rewrite KT in X0, XG.
  exists r, x, y, th, (-21/4), (-17/2), g. do 3 (split; [assumption|]). split; [exact XG|].
  intros pt gt lt pa ga la rx rg t0 t1 d.
  assert (HH : (0 <= int (tc_mbd c) "Hsample")%Z) by (rewrite (scenario_H n c H); discriminate).
  destruct (l_C63_kinematic_verdict c r _ _ _ _ _ _ _ _ pt gt lt pa ga la rx rg t0 t1 d Er KT X0 XG HH) as (out & E & V1 & V2).
  exists out. split; [exact E|].
  destruct (scenario_dimensions n c r H Er) as (_ & _ & SC & SH).
  assert (ST : Forall (tt_safe (rb_p r) (rb_circ r) (rb_rect r)) (o_traj out)).
  { refine (l_C01_tt_returned_trajectory_safe (mkTTSelf (rb_p r) (rb_circ r) (rb_rect r) _) _ _ _ _ _ _ _ _ _ _ _ _ _ _ E);
      [exact PJ|exact PG|exact SC|exact SH|exact (scenario_sized n c r H Er)|exact Safe]. }
  split; [exact ST|]. cbv zeta in *. rewrite TO in V1, V2.
  rewrite (scenario_accept n c _ _ H) in V1, V2 by (apply sqrt_pos).
  split; [|exact V2]. intros A. destruct (V1 A) as (sm & W1 & W2 & _ & _ & _ & _ & W7 & W8).
  exists sm. split; [exact W1|]. split; [apply W7|split; [apply W8|exact W2]].
  - exact (scenario_sized n c r H Er).
  - exact (scenario_proper n c r H Er).
  - revert ST. apply Forall_impl. intros q [Q _]. exact Q.
  - revert ST. apply Forall_impl. intros q [_ Q]. exact Q.
Qed.

(** Every predefined test of the acceleration-controlled vehicle starts safe and at rest, and passes exactly under the
    same condition; here the reported flags say exactly whether the returned trajectory is free of collisions and
    hitch violations. *)
Lemma l_C64_acceleration_scenarios :
  forall n c, get_test_config n = Ok c -> tc_mbd c "env_name" = Some (VStr "acc_tt2d") ->
  exists r x y th gx gy g, create_test_environment c = Ok r /\ rb_kind r = KACC /\
    rb_x0 r = Some [x; y; th; th; 0; 0] /\ rb_xg r = Some [gx; gy; g; g; 0; 0] /\
    tt_safe (rb_p r) (rb_circ r) (rb_rect r) (mkTT x y th th) /\
  forall pt gt lt pa ga la rx rg t0 t1 d,
  exists out, run_diffusion (acc_penv (mkAccSelf (mkTTSelf (rb_p r) (rb_circ r) (rb_rect r) (mkTT gx gy g g)) (rb_amax r) (rb_omax r))
                  (mkAcc (mkTT x y th th) 0 0) pa ga la rx) (Some (planner_cfg (tc_mbd c))) rg = Ok out /\
    let near := axle_distance (a_q (last (o_traj out) d)) (gx, gy) in
    let rear := rear_face_distance (rb_p r) (a_q (last (o_traj out) d)) (gx, gy) in
    (t1 - t0 <= 300 /\ (near <= 4 \/ rear <= 4) ->
       exists sm, run_mbd_test c pt gt lt pa ga la rx rg t0 t1 = Passed (Rmin near rear) sm /\ sm_success sm = true /\
         (sm_coll sm = false <-> Forall (tt_clear (rb_p r) (rb_circ r) (rb_rect r)) (map a_q (o_traj out))) /\
         (sm_hitch sm = false <-> Forall (tt_hitch_ok (rb_p r)) (map a_q (o_traj out)))) /\
    (~ (t1 - t0 <= 300 /\ (near <= 4 \/ rear <= 4)) -> run_mbd_test c pt gt lt pa ga la rx rg t0 t1 = Failed).
Proof.
  intros n c H EN. destruct (l_C64_start_safe n c H) as (r & x & y & th & Er & X0 & _ & Safe).
  destruct (scenario_facts n c H) as (_ & _ & _ & _ & _ & _ & TO & (dx & dy & th' & g & _ & _ & _ & _ & G1 & G2 & _) & _).
  destruct (l_C62_vehicle c r Er) as (PJ & PG & _ & _ & K). assert (KT : rb_kind r = KACC) by (apply K; unfold text; rewrite EN; reflexivity).
  assert (CS : text (tc_mbd c) "case" = "parking") by (unfold text; rewrite (setting n c "case" H) by not_setting; reflexivity).
  pose proof (goal_pose c r g g Er CS G1 G2) as XG. unfold pose_vector in X0, XG. rewrite KT in X0, XG.
  exists r, x, y, th, (-21/4), (-17/2), g. do 3 (split; [assumption|]). split; [exact XG|]. split; [exact Safe|].
  intros pt gt lt pa ga la rx rg t0 t1 d.
  assert (HH : (0 <= int (tc_mbd c) "Hsample")%Z) by (rewrite (scenario_H n c H); discriminate).
  destruct (l_C63_acceleration_verdict c r _ _ _ _ _ _ _ _ _ _ _ _ pt gt lt pa ga la rx rg t0 t1 d Er KT X0 XG HH) as (out & E & V1 & V2).
  exists out. split; [exact E|]. cbv zeta in *. rewrite TO in V1, V2.
  rewrite (scenario_accept n c _ _ H) in V1, V2 by (apply sqrt_pos).
  split; [|exact V2]. intros A. destruct (V1 A) as (sm & W1 & W2 & _ & _ & _ & _ & W7 & W8).
  exists sm. split; [exact W1|]. split; [exact W2|]. split; [|exact W8].
  apply W7; [exact (scenario_sized n c r H Er)|exact (scenario_proper n c r H Er)].
Qed.

(** C63, C64: a scenario that meets the hypotheses; it fails if planning took 301 s. *)
Lemma x_C63_timeout_fails :
  exists c, get_test_config "parking_basic_forward" = Ok c /\ tc_mbd c "env_name" = Some (VStr "tt2d") /\
  forall pt gt lt pa ga la rx rg, run_mbd_test c pt gt lt pa ga la rx rg 0 301 = Failed.
Proof.
  destruct (get_test_config "parking_basic_forward") as [c|] eqn:E; [|discriminate].
  assert (EN : tc_mbd c "env_name" = Some (VStr "tt2d")) by (injection E as <-; reflexivity).
  exists c. split; [reflexivity|]. split; [exact EN|]. intros pt gt lt pa ga la rx rg.
  destruct (l_C64_kinematic_scenarios_safe _ c E EN) as (r & x & y & th & gx & gy & g & _ & _ & _ & _ & V).
  destruct (V pt gt lt pa ga la rx rg 0 301 (mkTT 0 0 0 0)) as (out & _ & _ & _ & V2). apply V2. lra.
Qed.
Lemma x_C64_two_scenarios :
  exists c a, get_test_config "parking_enforce_backward_demo" = Ok c /\ tc_mbd c "env_name" = Some (VStr "tt2d") /\
    get_test_config "acc_parking_no_preference" = Ok a /\ tc_mbd a "env_name" = Some (VStr "acc_tt2d").
Proof. eexists _, _. repeat split. Qed.

(** C64 (finding): the start of parking_enforce_backward sticks out of the 32 m x 32 m area. *)
Lemma l_C64_start_inside_area_refuted :
  exists c r x y th P, get_test_config "parking_enforce_backward" = Ok c /\ create_test_environment c = Ok r /\
    rb_x0 r = Some [x; y; th; th] /\ solid (tractor_body (rb_p r) x y th) P /\ is_in_bounds (rb_env r) (fst P) (snd P) = false.
Proof.
  destruct (get_test_config "parking_enforce_backward") as [c|] eqn:E; [|discriminate].
  assert (D : tc_parking c = None /\ tc_dx c = Some (-12) /\ tc_dy c = Some 1 /\ tc_th1 c = Some PI /\ tc_th2 c = Some PI /\ text (tc_mbd c) "env_name" = "tt2d")
    by (injection E as <-; repeat split).
  destruct D as (D0 & D1 & D2 & D3 & D4 & D5).
  destruct (scenario_env _ c E) as [r Er]. pose proof (default_lot_start c r _ _ _ _ Er D0 D1 D2 D3 D4) as X0.
  destruct (l_C62_vehicle c r Er) as (_ & _ & _ & K & _). specialize (K D5). unfold pose_vector in X0. rewrite K in X0.
  destruct (scenario_dimensions _ c r E Er) as ((W1 & _ & L1 & L2 & L3 & _) & _). rewrite L1, cos_PI in X0.
  eexists c, r, _, _, PI, (at_frame (-21/4 + -12 - 323/100 * -1, 2 + 1) PI (413/100) 0).
  split; [reflexivity|]. split; [exact Er|]. split; [exact X0|]. split.
  - exists (413/100), 0. unfold tractor_body. cbn [rg_back rg_front rg_half rg_org rg_ang]. rewrite W1, L1, L2, L3. repeat split; lra.
  - destruct (create_inv c r Er) as (e & _ & Es & _ & _ & _ & He & _). destruct (setup_inv c e Es) as (e0 & E0 & _ & Ex & Ey & _).
    destruct (is_in_bounds (rb_env r) _ _) eqn:B; [exfalso|reflexivity].
    assert (B' : is_in_bounds e0 (fst (at_frame (-21/4 + -12 - 323/100 * -1, 2 + 1) PI (413/100) 0)) (snd (at_frame (-21/4 + -12 - 323/100 * -1, 2 + 1) PI (413/100) 0)) = true).
    { rewrite <- B. unfold is_in_bounds. rewrite He, Ex, Ey. reflexivity. }
    apply (l_C57_bounds_test 32 32 _ _ _ _ _ E0) in B'. destruct B' as [B' _]. unfold at_frame in B'. cbn [fst] in B'.
    rewrite cos_PI, sin_PI in B'. apply Rabs_le_both in B'. lra.
Qed.
