(** * Property theorems (generated from ProofsHarnessSave.v by tools/genprops.py; statements only,
    each closed by [exact]). *)
From Coq Require Import String.
From Verif Require Import Base BaseFacts Params Geom TT2d Acc Rollout Instances EnvModel Setup Stats Config Tune Bench Planner
  Harness SpecHarness HarnessSave SpecHarnessSave SpecGeom SpecBodies SpecAcc SpecEnv SpecStats SpecDefaults
  SpecDyn ProofsGeom ProofsBodies ProofsKin ProofsRobots ProofsSafety ProofsAcc ProofsEnv ProofsSetup ProofsDefaults ProofsStats ProofsPlanner ProofsPicture ProofsHarness ProofsHarnessRun ProofsHarnessJudge.
From Verif Require Import ProofsHarnessSave.
Local Open Scope string_scope.
Local Open Scope list_scope.
Open Scope R_scope.

(** A passing test of the kinematic vehicle (C63 says when it passes) leaves two files, named after the test: the result,
    which tells the configuration, the final state, the timing report and exactly the distances, collisions and hitch
    violations of the returned trajectory, and the arrays, which are the returned plan and trajectory. No other file is
    touched. *)
Theorem C73_kinematic_files :
  forall c r px py th1 th2 gx gy g1 g2 i fs d,
  create_test_environment c = Ok r -> rb_kind r = KTT ->
  rb_x0 r = Some [px; py; th1; th2] -> rb_xg r = Some [gx; gy; g1; g2] -> (0 <= int (tc_mbd c) "Hsample")%Z ->
  disk_works (in_machine i) ->
  let s := mkTTSelf (rb_p r) (rb_circ r) (rb_rect r) (mkTT gx gy g1 g2) in
  exists out, run_diffusion (tt_penv s (mkTT px py th1 th2) (in_pt i) (in_gt i) (in_lt i) (in_rx i)) (Some (planner_cfg (tc_mbd c))) (in_rg i) = Ok out /\
    let final := last (o_traj out) d in
    let near := axle_distance final (gx, gy) in
    let rear := rear_face_distance (rb_p r) final (gx, gy) in
    (in_t1 i - in_t0 i <= tc_timeout c /\ acceptable c near rear ->
       exists fs' sm f, run_and_save c i fs = (fs', Passed (Rmin near rear) sm) /\
         fs' (tc_name c ++ "_result.json")%string = Some (Result f) /\
         fs' (tc_name c ++ "_arrays.npz")%string =
           Some (Arrays (o_Y0 out) (map (fun q => [t_px q; t_py q; t_th1 q; t_th2 q]) (o_traj out))) /\
         only_changes (files_of (tc_name c)) fs fs' /\
         tells f c (in_machine i) [t_px final; t_py final; t_th1 final; t_th2 final] near rear (length (o_traj out)) (length (o_Y0 out)) /\
         rf_timing f = timing_of (flag (tc_mbd c) "enable_demo") (in_clock i) /\ rf_success f = true /\
         (tt_sized (rb_p r) -> proper_obstacles (rb_circ r) (rb_rect r) ->
            (rf_coll f = false <-> Forall (tt_clear (rb_p r) (rb_circ r) (rb_rect r)) (o_traj out))) /\
         (rf_hitch f = false <-> Forall (tt_hitch_ok (rb_p r)) (o_traj out))) /\
    (~ (in_t1 i - in_t0 i <= tc_timeout c /\ acceptable c near rear) -> run_and_save c i fs = (fs, Failed)).
Proof. exact l_C73_kinematic_files. Qed.
Print Assumptions C73_kinematic_files.

(** The same for the acceleration-controlled vehicle, whose states have six components. *)
Theorem C73_acceleration_files :
  forall c r px py th1 th2 v dl gx gy g1 g2 gv gd i fs d,
  create_test_environment c = Ok r -> rb_kind r = KACC ->
  rb_x0 r = Some [px; py; th1; th2; v; dl] -> rb_xg r = Some [gx; gy; g1; g2; gv; gd] -> (0 <= int (tc_mbd c) "Hsample")%Z ->
  disk_works (in_machine i) ->
  let s := mkAccSelf (mkTTSelf (rb_p r) (rb_circ r) (rb_rect r) (mkTT gx gy g1 g2)) (rb_amax r) (rb_omax r) in
  exists out, run_diffusion (acc_penv s (mkAcc (mkTT px py th1 th2) v dl) (in_pa i) (in_ga i) (in_la i) (in_rx i)) (Some (planner_cfg (tc_mbd c))) (in_rg i) = Ok out /\
    let final := last (o_traj out) d in
    let near := axle_distance (a_q final) (gx, gy) in
    let rear := rear_face_distance (rb_p r) (a_q final) (gx, gy) in
    let row q := [t_px (a_q q); t_py (a_q q); t_th1 (a_q q); t_th2 (a_q q); a_v q; a_d q] in
    (in_t1 i - in_t0 i <= tc_timeout c /\ acceptable c near rear ->
       exists fs' sm f, run_and_save c i fs = (fs', Passed (Rmin near rear) sm) /\
         fs' (tc_name c ++ "_result.json")%string = Some (Result f) /\
         fs' (tc_name c ++ "_arrays.npz")%string = Some (Arrays (o_Y0 out) (map row (o_traj out))) /\
         only_changes (files_of (tc_name c)) fs fs' /\
         tells f c (in_machine i) (row final) near rear (length (o_traj out)) (length (o_Y0 out)) /\
         rf_timing f = timing_of (flag (tc_mbd c) "enable_demo") (in_clock i) /\ rf_success f = true /\
         (tt_sized (rb_p r) -> proper_obstacles (rb_circ r) (rb_rect r) ->
            (rf_coll f = false <-> Forall (tt_clear (rb_p r) (rb_circ r) (rb_rect r)) (map a_q (o_traj out)))) /\
         (rf_hitch f = false <-> Forall (tt_hitch_ok (rb_p r)) (map a_q (o_traj out)))) /\
    (~ (in_t1 i - in_t0 i <= tc_timeout c /\ acceptable c near rear) -> run_and_save c i fs = (fs, Failed)).
Proof. exact l_C73_acceleration_files. Qed.
Print Assumptions C73_acceleration_files.

(** Saving does not change the verdict: with a working disk the test ends as described by C63. *)
Theorem C73_verdict_unchanged :
  forall c i fs, disk_works (in_machine i) ->
  snd (run_and_save c i fs) =
  run_mbd_test c (in_pt i) (in_gt i) (in_lt i) (in_pa i) (in_ga i) (in_la i) (in_rx i) (in_rg i) (in_t0 i) (in_t1 i).
Proof. exact l_C73_verdict_unchanged. Qed.
Print Assumptions C73_verdict_unchanged.

(** A run, however it ends, touches no file but the two of its own test. If it does not pass although the disk works,
    the directory stays as it was. If it passes, the two files are there, complete, and name its configuration. *)
Theorem C73_own_files :
  forall c i fs fs' o, run_and_save c i fs = (fs', o) ->
  only_changes (files_of (tc_name c)) fs fs' /\
  (disk_works (in_machine i) -> (forall d sm, o <> Passed d sm) -> fs' = fs) /\
  (forall d sm, o = Passed d sm -> exists f us xs, fs' (tc_name c ++ "_result.json")%string = Some (Result f) /\
     fs' (tc_name c ++ "_arrays.npz")%string = Some (Arrays us xs) /\ rf_config f = c /\ rf_success f = true /\ rf_distance f = d /\ rf_coll f = sm_coll sm /\ rf_hitch f = sm_hitch sm).
Proof. exact l_C73_own_files. Qed.
Print Assumptions C73_own_files.

(** When a write fails the test does not pass, and it ends with the error of that write if it would have passed. A result
    file cut short is never beside a new arrays file; the new result is complete before the arrays file is opened. *)
Theorem C73_write_failure :
  forall c i fs fs' o k e, run_and_save c i fs = (fs', o) -> mc_fail (in_machine i) = Some (k, e) -> (k < 4)%nat ->
  (forall d sm, o <> Passed d sm) /\
  only_changes (files_of (tc_name c)) fs fs' /\
  ((exists d sm, run_mbd_test c (in_pt i) (in_gt i) (in_lt i) (in_pa i) (in_ga i) (in_la i) (in_rx i) (in_rg i) (in_t0 i) (in_t1 i) = Passed d sm) -> o = Errored e) /\
  (fs' (tc_name c ++ "_arrays.npz")%string <> fs (tc_name c ++ "_arrays.npz")%string ->
     exists f, fs' (tc_name c ++ "_result.json")%string = Some (Result f) /\ rf_config f = c).
Proof. exact l_C73_write_failure. Qed.
Print Assumptions C73_write_failure.

(** Tests with different names use different files, and a result file is never an arrays file. *)
Theorem C73_names :
  forall a b, (forall m, In m (files_of a) -> In m (files_of b) -> a = b) /\
  (a ++ "_result.json" <> b ++ "_arrays.npz")%string.
Proof. exact l_C73_names. Qed.
Print Assumptions C73_names.

(** Over any session the files of a test are those of its last run that passed, and as before the session if none did:
    runs that fail, and runs of other tests, leave them alone. *)
Theorem C73_session :
  forall (W : Type) (supply : W -> test_config -> W * inputs) w fs cs fs' oks,
  (forall w' c, disk_works (in_machine (snd (supply w' c)))) -> session supply w fs cs = (fs', oks) ->
  forall n,
  ((forall k c, nth_error cs k = Some c -> tc_name c = n -> nth_error oks k = Some false) ->
     forall m, In m (files_of n) -> fs' m = fs m) /\
  (forall k c, nth_error cs k = Some c -> tc_name c = n -> nth_error oks k = Some true ->
     (forall j c', (k < j)%nat -> nth_error cs j = Some c' -> tc_name c' = n -> nth_error oks j = Some false) ->
     exists i, holds_run c i fs').
Proof. exact l_C73_session. Qed.
Print Assumptions C73_session.

(** When a suite of test methods is successful (run_tests.py then exits with 0), the directory holds for every test it
    ran both files, complete and from a passing run of exactly that configuration in this suite. *)
Theorem C73_after_success :
  forall (W : Type) (supply : W -> test_config -> W * inputs) w fs suite w' fs',
  run_suite (saving_run supply) (w, fs) suite = ((w', fs'), true) ->
  forall b c, In b suite -> In c (runs_of b) -> exists i, holds_run c i fs'.
Proof. exact l_C73_after_success. Qed.
Print Assumptions C73_after_success.

(** Whatever the outcome of a suite and of the writes: every complete result file is either as it was before the suite,
    or carries the name of its own configuration, which the suite ran - and says that the goal was reached. *)
Theorem C73_results_after_any_suite :
  forall (W : Type) (supply : W -> test_config -> W * inputs) w fs suite w' fs' ok,
  run_suite (saving_run supply) (w, fs) suite = ((w', fs'), ok) ->
  forall m f, fs' m = Some (Result f) ->
  fs m = Some (Result f) \/
  (m = (tc_name (rf_config f) ++ "_result.json")%string /\ rf_success f = true /\ exists b, In b suite /\ In (rf_config f) (runs_of b)).
Proof. exact l_C73_results_after_any_suite. Qed.
Print Assumptions C73_results_after_any_suite.

(** C73 (finding): the result file of a test need not be of its latest run, and cannot show a failure: a test that passed
    once and then takes too long still has the file of the first run, which says that the goal was reached. The test here
    is the one of C63 that passes for all random numbers. *)
Theorem C73_file_of_latest_run_refuted :
  exists c, create_custom_test_config "parking_basic_forward"
      [OCircles [mkCircle 0 0 1000]; OStart 0 (-21/2) (- PI / 2) (- PI / 2)] = Ok c /\
  forall i1 i2 fs, disk_works (in_machine i1) -> disk_works (in_machine i2) -> in_t1 i1 - in_t0 i1 <= 300 -> in_t1 i2 - in_t0 i2 > 300 ->
  exists fs1 d sm f, run_and_save c i1 fs = (fs1, Passed d sm) /\ run_and_save c i2 fs1 = (fs1, Failed) /\
    fs1 "parking_basic_forward_result.json" = Some (Result f) /\ rf_success f = true /\ rf_config f = c /\ rf_coll f = true.
Proof. exact l_C73_file_of_latest_run_refuted. Qed.
Print Assumptions C73_file_of_latest_run_refuted.

(** A session of two runs of that test, the second of which takes too long; and one whose last write fails. *)
Example C73_two_runs :
  exists c, create_custom_test_config "parking_basic_forward"
      [OCircles [mkCircle 0 0 1000]; OStart 0 (-21/2) (- PI / 2) (- PI / 2)] = Ok c /\
  let supply (n : nat) (_ : test_config) := (S n, example_inputs (if Nat.eqb n 0 then 10 else 301) None) in
  (forall w' c', disk_works (in_machine (snd (supply w' c')))) /\
  (exists fs', session supply 0%nat (fun _ => None) [c; c] = (fs', [true; false]) /\ exists i, holds_run c i fs') /\
  (exists fs' f, run_and_save c (example_inputs 10 (Some (3%nat, RuntimeError))) (fun _ => None) = (fs', Errored RuntimeError) /\
     fs' "parking_basic_forward_result.json" = Some (Result f) /\ rf_success f = true /\ fs' "parking_basic_forward_arrays.npz" = Some Broken).
Proof. exact x_C73_two_runs. Qed.
