(** * Property theorems (generated from ProofsHarnessJudge.v by tools/genprops.py; statements only,
    each closed by [exact]). *)
From Coq Require Import String.
From Verif Require Import Base BaseFacts Params Geom TT2d Acc Rollout Instances EnvModel Setup Stats Config Tune Planner
  Harness SpecHarness SpecGeom SpecBodies SpecAcc SpecEnv SpecStats SpecDefaults
  SpecDyn ProofsGeom ProofsBodies ProofsKin ProofsRobots ProofsSafety ProofsAcc ProofsEnv ProofsSetup ProofsDefaults ProofsStats ProofsPlanner ProofsPicture ProofsHarness ProofsHarnessRun.
From Verif Require Import ProofsHarnessJudge.
Local Open Scope string_scope.
Local Open Scope list_scope.
Open Scope R_scope.

(** A test of the kinematic vehicle passes exactly if planning took no longer than allowed, the smaller of the two
    distances of the final state to the goal (rear axle, middle of the trailer's rear face) lies in the expected
    range, and one of them is within the success distance; otherwise it fails. It never ends in another way. The
    saved summary reports the two distances, the array sizes, and exactly the collisions and hitch violations of the
    returned trajectory. *)
Theorem C63_kinematic_verdict :
  forall c r px py th1 th2 gx gy g1 g2 pt gt lt pa ga la rx rg t0 t1 d,
  create_test_environment c = Ok r -> rb_kind r = KTT ->
  rb_x0 r = Some [px; py; th1; th2] -> rb_xg r = Some [gx; gy; g1; g2] -> (0 <= int (tc_mbd c) "Hsample")%Z ->
  let s := mkTTSelf (rb_p r) (rb_circ r) (rb_rect r) (mkTT gx gy g1 g2) in
  exists out, run_diffusion (tt_penv s (mkTT px py th1 th2) pt gt lt rx) (Some (planner_cfg (tc_mbd c))) rg = Ok out /\
    let near := axle_distance (last (o_traj out) d) (gx, gy) in
    let rear := rear_face_distance (rb_p r) (last (o_traj out) d) (gx, gy) in
    (t1 - t0 <= tc_timeout c /\ acceptable c near rear ->
       exists sm, run_mbd_test c pt gt lt pa ga la rx rg t0 t1 = Passed (Rmin near rear) sm /\
         sm_success sm = true /\ sm_tractor sm = near /\ sm_trailer sm = rear /\
         Z.of_nat (sm_actions sm) = int (tc_mbd c) "Hsample" /\ Z.of_nat (sm_states sm) = (int (tc_mbd c) "Hsample" + 1)%Z /\
         (tt_sized (rb_p r) -> proper_obstacles (rb_circ r) (rb_rect r) ->
            (sm_coll sm = false <-> Forall (tt_clear (rb_p r) (rb_circ r) (rb_rect r)) (o_traj out))) /\
         (sm_hitch sm = false <-> Forall (tt_hitch_ok (rb_p r)) (o_traj out))) /\
    (~ (t1 - t0 <= tc_timeout c /\ acceptable c near rear) -> run_mbd_test c pt gt lt pa ga la rx rg t0 t1 = Failed).
Proof. exact l_C63_kinematic_verdict. Qed.
Print Assumptions C63_kinematic_verdict.

(** The same for the acceleration-controlled vehicle. *)
Theorem C63_acceleration_verdict :
  forall c r px py th1 th2 v dl gx gy g1 g2 gv gd pt gt lt pa ga la rx rg t0 t1 d,
  create_test_environment c = Ok r -> rb_kind r = KACC ->
  rb_x0 r = Some [px; py; th1; th2; v; dl] -> rb_xg r = Some [gx; gy; g1; g2; gv; gd] -> (0 <= int (tc_mbd c) "Hsample")%Z ->
  let s := mkAccSelf (mkTTSelf (rb_p r) (rb_circ r) (rb_rect r) (mkTT gx gy g1 g2)) (rb_amax r) (rb_omax r) in
  exists out, run_diffusion (acc_penv s (mkAcc (mkTT px py th1 th2) v dl) pa ga la rx) (Some (planner_cfg (tc_mbd c))) rg = Ok out /\
    let near := axle_distance (a_q (last (o_traj out) d)) (gx, gy) in
    let rear := rear_face_distance (rb_p r) (a_q (last (o_traj out) d)) (gx, gy) in
    (t1 - t0 <= tc_timeout c /\ acceptable c near rear ->
       exists sm, run_mbd_test c pt gt lt pa ga la rx rg t0 t1 = Passed (Rmin near rear) sm /\
         sm_success sm = true /\ sm_tractor sm = near /\ sm_trailer sm = rear /\
         Z.of_nat (sm_actions sm) = int (tc_mbd c) "Hsample" /\ Z.of_nat (sm_states sm) = (int (tc_mbd c) "Hsample" + 1)%Z /\
         (tt_sized (rb_p r) -> proper_obstacles (rb_circ r) (rb_rect r) ->
            (sm_coll sm = false <-> Forall (tt_clear (rb_p r) (rb_circ r) (rb_rect r)) (map a_q (o_traj out)))) /\
         (sm_hitch sm = false <-> Forall (tt_hitch_ok (rb_p r)) (map a_q (o_traj out)))) /\
    (~ (t1 - t0 <= tc_timeout c /\ acceptable c near rear) -> run_mbd_test c pt gt lt pa ga la rx rg t0 t1 = Failed).
Proof. exact l_C63_acceleration_verdict. Qed.
Print Assumptions C63_acceleration_verdict.

(** C63 (finding): a test passes although every state of its trajectory collides: whatever the random numbers, a
    vehicle put on the goal inside an obstacle stays there, and only its distance to the goal counts. *)
Theorem C63_passed_means_safe_refuted :
  exists c r, create_custom_test_config "parking_basic_forward"
      [OCircles [mkCircle 0 0 1000]; OStart 0 (-21/2) (- PI / 2) (- PI / 2)] = Ok c /\
    create_test_environment c = Ok r /\
    forall pt gt lt pa ga la rx rg t0 t1, t1 - t0 <= 300 ->
    exists dd sm, run_mbd_test c pt gt lt pa ga la rx rg t0 t1 = Passed dd sm /\ sm_coll sm = true /\ sm_success sm = true.
Proof. exact l_C63_passed_means_safe_refuted. Qed.
Print Assumptions C63_passed_means_safe_refuted.

(** Every predefined scenario gets an environment in which its start pose is safe; the vehicle starts at rest. *)
Theorem C64_start_safe :
  forall n c, get_test_config n = Ok c ->
  exists r x y th, create_test_environment c = Ok r /\ rb_x0 r = Some (pose_vector r x y th th) /\
    (rb_kind r = KTT \/ rb_kind r = KACC) /\
    tt_safe (rb_p r) (rb_circ r) (rb_rect r) (mkTT x y th th).
Proof. exact l_C64_start_safe. Qed.
Print Assumptions C64_start_safe.

(** Every predefined test of the kinematic vehicle: whatever the random numbers and the clock, planning returns a
    trajectory all of whose states are safe, and the test passes (reporting no collision and no hitch violation)
    exactly if planning took at most 300 s and the final state is within 4 m of the goal (rear axle, or middle of the
    trailer's rear face); otherwise it fails. It never ends with another exception. *)
Theorem C64_kinematic_scenarios_safe :
  forall n c, get_test_config n = Ok c -> tc_mbd c "env_name" = Some (VStr "tt2d") ->
  exists r x y th gx gy g, create_test_environment c = Ok r /\ rb_kind r = KTT /\
    rb_x0 r = Some [x; y; th; th] /\ rb_xg r = Some [gx; gy; g; g] /\
  forall pt gt lt pa ga la rx rg t0 t1 d,
  exists out, run_diffusion (tt_penv (mkTTSelf (rb_p r) (rb_circ r) (rb_rect r) (mkTT gx gy g g)) (mkTT x y th th) pt gt lt rx)
                (Some (planner_cfg (tc_mbd c))) rg = Ok out /\
    Forall (tt_safe (rb_p r) (rb_circ r) (rb_rect r)) (o_traj out) /\
    let near := axle_distance (last (o_traj out) d) (gx, gy) in
    let rear := rear_face_distance (rb_p r) (last (o_traj out) d) (gx, gy) in
    (t1 - t0 <= 300 /\ (near <= 4 \/ rear <= 4) ->
       exists sm, run_mbd_test c pt gt lt pa ga la rx rg t0 t1 = Passed (Rmin near rear) sm /\
         sm_coll sm = false /\ sm_hitch sm = false /\ sm_success sm = true) /\
    (~ (t1 - t0 <= 300 /\ (near <= 4 \/ rear <= 4)) -> run_mbd_test c pt gt lt pa ga la rx rg t0 t1 = Failed).
Proof. exact l_C64_kinematic_scenarios_safe. Qed.
Print Assumptions C64_kinematic_scenarios_safe.

(** Every predefined test of the acceleration-controlled vehicle starts safe and at rest, and passes exactly under the
    same condition; here the reported flags say exactly whether the returned trajectory is free of collisions and
    hitch violations. *)
Theorem C64_acceleration_scenarios :
  forall n c, get_test_config n = Ok c -> tc_mbd c "env_name" = Some (VStr "acc_tt2d") ->
  exists r x y th gx gy g, create_test_environment c = Ok r /\ rb_kind r = KACC /\
    rb_x0 r = Some [x; y; th; th; 0; 0] /\ rb_xg r = Some [gx; gy; g; g; 0; 0] /\
    tt_safe (rb_p r) (rb_circ r) (rb_rect r) (mkTT x y th th) /\
  forall pt gt lt pa ga la rx rg t0 t1 d,
  exists out, run_diffusion (acc_penv (mkAccSelf (mkTTSelf (rb_p r) (rb_circ r) (rb_rect r) (mkTT gx gy g g)) (rb_amax r) (rb_omax r))
                  (mkAcc (mkTT x y th th) 0 0) pa ga la rx) (Some (planner_cfg (tc_mbd c))) rg = Ok out /\
    let near := axle_distance (a_q (last (o_traj out) d)) (gx, gy) in
    let rear := rear_face_distance (rb_p r) (a_q (last (o_traj out) d)) (gx, gy) in
    (t1 - t0 <= 300 /\ (near <= 4 \/ rear <= 4) ->
       exists sm, run_mbd_test c pt gt lt pa ga la rx rg t0 t1 = Passed (Rmin near rear) sm /\ sm_success sm = true /\
         (sm_coll sm = false <-> Forall (tt_clear (rb_p r) (rb_circ r) (rb_rect r)) (map a_q (o_traj out))) /\
         (sm_hitch sm = false <-> Forall (tt_hitch_ok (rb_p r)) (map a_q (o_traj out)))) /\
    (~ (t1 - t0 <= 300 /\ (near <= 4 \/ rear <= 4)) -> run_mbd_test c pt gt lt pa ga la rx rg t0 t1 = Failed).
Proof. exact l_C64_acceleration_scenarios. Qed.
Print Assumptions C64_acceleration_scenarios.

(** C63, C64: a scenario that meets the hypotheses; it fails if planning took 301 s. *)
Example C63_timeout_fails :
  exists c, get_test_config "parking_basic_forward" = Ok c /\ tc_mbd c "env_name" = Some (VStr "tt2d") /\
  forall pt gt lt pa ga la rx rg, run_mbd_test c pt gt lt pa ga la rx rg 0 301 = Failed.
Proof. exact x_C63_timeout_fails. Qed.

Example C64_two_scenarios :
  exists c a, get_test_config "parking_enforce_backward_demo" = Ok c /\ tc_mbd c "env_name" = Some (VStr "tt2d") /\
    get_test_config "acc_parking_no_preference" = Ok a /\ tc_mbd a "env_name" = Some (VStr "acc_tt2d").
Proof. exact x_C64_two_scenarios. Qed.

(** C64 (finding): the start of parking_enforce_backward sticks out of the 32 m x 32 m area. *)
Theorem C64_start_inside_area_refuted :
  exists c r x y th P, get_test_config "parking_enforce_backward" = Ok c /\ create_test_environment c = Ok r /\
    rb_x0 r = Some [x; y; th; th] /\ solid (tractor_body (rb_p r) x y th) P /\ is_in_bounds (rb_env r) (fst P) (snd P) = false.
Proof. exact l_C64_start_inside_area_refuted. Qed.
Print Assumptions C64_start_inside_area_refuted.
