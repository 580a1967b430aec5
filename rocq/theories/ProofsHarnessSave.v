(** * ProofsHarnessSave: the result files of the integration tests. *)
From Coq Require Import String.
From Verif Require Import Base BaseFacts Params Geom TT2d Acc Rollout Instances EnvModel Setup Stats Config Tune Bench Planner
  Harness SpecHarness HarnessSave SpecHarnessSave SpecGeom SpecBodies SpecAcc SpecEnv SpecStats SpecDefaults
  SpecDyn ProofsGeom ProofsBodies ProofsKin ProofsRobots ProofsSafety ProofsAcc ProofsEnv ProofsSetup ProofsDefaults ProofsStats ProofsPlanner ProofsPicture ProofsHarness ProofsHarnessRun ProofsHarnessJudge.
Local Open Scope string_scope.
Local Open Scope list_scope.
Open Scope R_scope.

(** ** Names *)
Lemma chars_app : forall a b, list_ascii_of_string (a ++ b)%string = list_ascii_of_string a ++ list_ascii_of_string b.
Proof. induction a as [|x a IH]; intros b; [reflexivity|]. cbn [String.append list_ascii_of_string app]. rewrite IH. reflexivity. Qed.
Lemma chars_inj : forall a b, list_ascii_of_string a = list_ascii_of_string b -> a = b.
Proof. intros a b H. rewrite <- (string_of_list_ascii_of_string a), <- (string_of_list_ascii_of_string b), H. reflexivity. Qed.
Lemma result_name_inj : forall a b, result_name a = result_name b -> a = b.
Proof.
  intros a b H. apply chars_inj. apply (f_equal list_ascii_of_string) in H. unfold result_name in H. rewrite !chars_app in H.
  exact (app_inv_tail _ _ _ H).
Qed.
Lemma arrays_name_inj : forall a b, arrays_name a = arrays_name b -> a = b.
Proof.
  intros a b H. apply chars_inj. apply (f_equal list_ascii_of_string) in H. unfold arrays_name in H. rewrite !chars_app in H.
  exact (app_inv_tail _ _ _ H).
Qed.
Lemma names_differ : forall a b, result_name a <> arrays_name b.
Proof.
  intros a b H. apply (f_equal list_ascii_of_string) in H. unfold result_name, arrays_name in H. rewrite !chars_app in H.
  apply (f_equal (fun l => last l Ascii.zero)) in H. 
  assert (L : forall (l m : list Ascii.ascii) d x, last (l ++ m ++ [x]) d = x).
  { intros l m d x. rewrite app_assoc. apply last_last. }
  change (list_ascii_of_string "_result.json") with ((list_ascii_of_string "_result.jso") ++ list_ascii_of_string "n") in H.
  change (list_ascii_of_string "_arrays.npz") with ((list_ascii_of_string "_arrays.np") ++ list_ascii_of_string "z") in H.
  cbn [list_ascii_of_string] in H. cbv beta in H. rewrite !app_assoc in H. rewrite !last_last in H. discriminate.
Qed.
Lemma eqb_names : forall a b, String.eqb (result_name a) (arrays_name b) = false /\ String.eqb (arrays_name a) (result_name b) = false.
Proof.
  intros a b. split; apply String.eqb_neq; [apply names_differ|]. intros H. exact (names_differ b a (eq_sym H)).
Qed.

(** ** One run *)
Lemma final_distance_dist : forall a g, final_distance_of a g = SpecGeom.dist a g.
Proof. intros [x y] [u v]. unfold final_distance_of, SpecGeom.dist, dist2. cbn [fst snd]. f_equal. ring. Qed.

(** Writing the two files. *)
Definition put_files (c : test_config) (m : machine) (data : result_file) us xs (fs : dir) : dir * Res unit :=
  let fs1 := write fs (result_name (tc_name c)) (Result data) in
  match mc_fail m with
  | Some (0%nat, e) => (fs, Err e)
  | Some (1%nat, e) => (write fs (result_name (tc_name c)) Broken, Err e)
  | Some (2%nat, e) => (fs1, Err e)
  | Some (3%nat, e) => (write fs1 (arrays_name (tc_name c)) Broken, Err e)
  | _ => (write fs1 (arrays_name (tc_name c)) (Arrays us xs), Ok tt)
  end.
Definition after_saving (c : test_config) (m : machine) data us xs d sm (fs : dir) : dir * outcome :=
  let '(fs', r) := put_files c m data us xs fs in (fs', match r with Ok _ => Passed d sm | Err e => Errored e end).
Definition is_passed (o : outcome) : Prop := exists d s, o = Passed d s.


Definition data_of {Q} (row : Q -> list R) (coll hitch : Q -> bool) (pos back : Q -> pt) (goal : pt) (c : test_config) (us : list act)
  (states : list Q) (tm : timing) (m : machine) (d : Q) : result_file :=
  let near := SpecGeom.dist (pos (last states d)) goal in let rear := SpecGeom.dist (back (last states d)) goal in
  mkResult c (Rmin near rear) (row (last states d)) tm (mc_stamp m) (get_git_commit (mc_git m))
    (existsb hitch states) (existsb coll states) (Rleb near (tc_limit c) || Rleb rear (tc_limit c)) near rear near rear (tc_limit c)
    (length states) (length us).
Lemma save_nonempty : forall {Q} (row : Q -> list R) coll hitch pos back goal c us states tm m fs d, states <> [] ->
  save_test_results row coll hitch pos back goal c us states tm m fs =
  put_files c m (data_of row coll hitch pos back goal c us states tm m d) us (map row states) fs.
Proof.
  intros Q row coll hitch pos back goal c us states tm m fs d H. unfold save_test_results, put_files, data_of.
  destruct states as [|q0 rest]; [contradiction|]. cbv zeta. rewrite trajectory_violations_exists. cbn [orb].
  rewrite (last_indep (q0 :: rest) q0 d) by discriminate. rewrite !pnorm_dist, !final_distance_dist. reflexivity.
Qed.

Lemma finish_cases : forall {Q} (row : Q -> list R) coll hitch pos back goal c us states tm t0 t1 m,
  let v := if Rltb (tc_timeout c) (t1 - t0) then Failed else judge coll hitch pos back goal c us states in
  (exists o, ~ is_passed o /\ v = o /\ forall fs, finish_test row coll hitch pos back goal c us states tm t0 t1 m fs = (fs, o)) \/
  (exists data d sm, v = Passed d sm /\ rf_config data = c /\ rf_success data = true /\ rf_distance data = d /\ rf_coll data = sm_coll sm /\ rf_hitch data = sm_hitch sm /\
     forall fs, finish_test row coll hitch pos back goal c us states tm t0 t1 m fs = after_saving c m data us (map row states) d sm fs).
Proof.
  intros. subst v. unfold finish_test. destruct (Rltb (tc_timeout c) (t1 - t0)).
  { left. exists Failed. split; [intros (d & s & H); discriminate|split; reflexivity]. }
  destruct (judge coll hitch pos back goal c us states) as [d sm| |e] eqn:J.
  - right. unfold judge in J. cbv zeta in J. destruct states as [|q0 rest]; [discriminate|].
    set (xs := q0 :: rest) in *.
    destruct (negb (Rleb (tc_min c) _)); [discriminate|]. destruct (negb (Rleb _ (tc_max c))); [discriminate|].
    rewrite trajectory_violations_exists in J. rewrite !pnorm_dist in J.
    destruct (Rleb (SpecGeom.dist (pos (last xs q0)) goal) (tc_limit c) || Rleb (SpecGeom.dist (back (last xs q0)) goal) (tc_limit c)) eqn:S;
      [|discriminate].
    cbn [negb] in J. destruct (negb _); [discriminate|]. destruct (negb _); [discriminate|].
    injection J as JD JS. subst sm.
    eexists (data_of row coll hitch pos back goal c us xs tm m q0), d, _.
    split; [reflexivity|]. split; [reflexivity|]. split; [exact S|]. split; [exact JD|]. split; [reflexivity|]. split; [reflexivity|]. intros fs.
    rewrite (save_nonempty row coll hitch pos back goal c us xs tm m fs q0) by discriminate. reflexivity.
  - left. exists Failed. split; [intros (d & s & H); discriminate|split; reflexivity].
  - left. exists (Errored e). split; [intros (d & s & H); discriminate|split; reflexivity].
Qed.

Definition verdict (c : test_config) (i : inputs) : outcome :=
  run_mbd_test c (in_pt i) (in_gt i) (in_lt i) (in_pa i) (in_ga i) (in_la i) (in_rx i) (in_rg i) (in_t0 i) (in_t1 i).
Lemma run_cases : forall c i,
  (exists o, ~ is_passed o /\ verdict c i = o /\ forall fs, run_and_save c i fs = (fs, o)) \/
  (exists data us xs d sm, verdict c i = Passed d sm /\ rf_config data = c /\ rf_success data = true /\ rf_distance data = d /\ rf_coll data = sm_coll sm /\ rf_hitch data = sm_hitch sm /\
     forall fs, run_and_save c i fs = after_saving c (in_machine i) data us xs d sm fs).
Proof.
  intros c i. unfold verdict, run_and_save, run_mbd_test. cbv zeta.
  assert (N : forall x, ~ is_passed (Errored x)) by (intros x (d & s & H); discriminate).
  destruct (create_test_environment c) as [r|x]; [|left; exists (Errored x); split; [apply N|split; reflexivity]].
  destruct (tt_of_robot r) as [[s x0]|].
  - destruct (run_diffusion _ _ _) as [out|x]; [|left; exists (Errored x); split; [apply N|split; reflexivity]].
    match goal with |- context [finish_test ?a ?b ?c0 ?d ?e ?f ?g ?h ?k ?l ?t0 ?t1 ?m _] =>
      destruct (finish_cases a b c0 d e f g h k l t0 t1 m) as [H|(data & dd & sm & H)] end; [left; exact H|right].
    exists data, (o_Y0 out), (map tt_row (o_traj out)), dd, sm. exact H.
  - destruct (acc_of_robot r) as [[s x0]|]; [|left; exists (Errored TypeError); split; [apply N|split; reflexivity]].
    destruct (run_diffusion _ _ _) as [out|x]; [|left; exists (Errored x); split; [apply N|split; reflexivity]].
    match goal with |- context [finish_test ?a ?b ?c0 ?d ?e ?f ?g ?h ?k ?l ?t0 ?t1 ?m _] =>
      destruct (finish_cases a b c0 d e f g h k l t0 t1 m) as [H|(data & dd & sm & H)] end; [left; exact H|right].
    exists data, (o_Y0 out), (map acc_row (o_traj out)), dd, sm. exact H.
Qed.

Lemma files_names : forall n, files_of n = [result_name n; arrays_name n].
Proof. reflexivity. Qed.
Lemma write_other : forall fs n x m, m <> n -> write fs n x m = fs m.
Proof. intros fs n x m H. unfold write. apply String.eqb_neq in H. rewrite H. reflexivity. Qed.
Lemma write_same : forall fs n x, write fs n x n = Some x.
Proof. intros. unfold write. rewrite String.eqb_refl. reflexivity. Qed.

Lemma put_only : forall c m data us xs fs, only_changes (files_of (tc_name c)) fs (fst (put_files c m data us xs fs)).
Proof.
  intros c m data us xs fs n H. rewrite files_names in H. cbn [In] in H.
  assert (A : n <> result_name (tc_name c)) by (intros E; apply H; left; congruence).
  assert (B : n <> arrays_name (tc_name c)) by (intros E; apply H; right; left; congruence).
  unfold put_files. cbv zeta. destruct (mc_fail m) as [[[|[|[|[|k]]]] e]|]; cbn [fst]; rewrite ?write_other by assumption; reflexivity.
Qed.

(** ** Theorems *)
(** A passing test of the kinematic vehicle (C63 says when it passes) leaves two files, named after the test: the result,
    which tells the configuration, the final state, the timing report and exactly the distances, collisions and hitch
    violations of the returned trajectory, and the arrays, which are the returned plan and trajectory. No other file is
    touched. *)
Lemma l_C73_kinematic_files :
  forall c r px py th1 th2 gx gy g1 g2 i fs d,
  create_test_environment c = Ok r -> rb_kind r = KTT ->
  rb_x0 r = Some [px; py; th1; th2] -> rb_xg r = Some [gx; gy; g1; g2] -> (0 <= int (tc_mbd c) "Hsample")%Z ->
  disk_works (in_machine i) ->
  let s := mkTTSelf (rb_p r) (rb_circ r) (rb_rect r) (mkTT gx gy g1 g2) in
  exists out, run_diffusion (tt_penv s (mkTT px py th1 th2) (in_pt i) (in_gt i) (in_lt i) (in_rx i)) (Some (planner_cfg (tc_mbd c))) (in_rg i) = Ok out /\
    let final := last (o_traj out) d in
    let near := axle_distance final (gx, gy) in
    let rear := rear_face_distance (rb_p r) final (gx, gy) in
    (in_t1 i - in_t0 i <= tc_timeout c /\ acceptable c near rear ->
       exists fs' sm f, run_and_save c i fs = (fs', Passed (Rmin near rear) sm) /\
         fs' (tc_name c ++ "_result.json")%string = Some (Result f) /\
         fs' (tc_name c ++ "_arrays.npz")%string =
           Some (Arrays (o_Y0 out) (map (fun q => [t_px q; t_py q; t_th1 q; t_th2 q]) (o_traj out))) /\
         only_changes (files_of (tc_name c)) fs fs' /\
         tells f c (in_machine i) [t_px final; t_py final; t_th1 final; t_th2 final] near rear (length (o_traj out)) (length (o_Y0 out)) /\
         rf_timing f = timing_of (flag (tc_mbd c) "enable_demo") (in_clock i) /\ rf_success f = true /\
         (tt_sized (rb_p r) -> proper_obstacles (rb_circ r) (rb_rect r) ->
            (rf_coll f = false <-> Forall (tt_clear (rb_p r) (rb_circ r) (rb_rect r)) (o_traj out))) /\
         (rf_hitch f = false <-> Forall (tt_hitch_ok (rb_p r)) (o_traj out))) /\
    (~ (in_t1 i - in_t0 i <= tc_timeout c /\ acceptable c near rear) -> run_and_save c i fs = (fs, Failed)).
Proof.
  intros c r px py th1 th2 gx gy g1 g2 i fs d H K X0 XG HH DW s.
  destruct (run_lengths (tt_penv s (mkTT px py th1 th2) (in_pt i) (in_gt i) (in_lt i) (in_rx i)) (tc_mbd c) (in_rg i)) as (out & E & LY & LT).
  exists out. split; [exact E|]. cbv zeta.
  assert (T : tt_of_robot r = Some (s, mkTT px py th1 th2)) by (unfold tt_of_robot; rewrite K, X0, XG; reflexivity).
  set (tm := timing_of (flag (tc_mbd c) "enable_demo") (in_clock i)).
  assert (RM : run_and_save c i fs =
    finish_test tt_row (ts_coll s) (ts_hitch s) (fun q => (t_px q, t_py q)) (tt_trailer_back (ts_p s)) (gx, gy) c (o_Y0 out) (o_traj out)
      tm (in_t0 i) (in_t1 i) (in_machine i) fs).
  { unfold run_and_save. rewrite H, T, E. reflexivity. }
  rewrite RM. clear RM T E.
  assert (NE : o_traj out <> []) by (intros Z; rewrite Z in LT; discriminate).
  pose proof (judge_spec (ts_coll s) (ts_hitch s) (fun q => (t_px q, t_py q)) (tt_trailer_back (ts_p s)) (gx, gy) c (o_Y0 out) (o_traj out) d HH LY LT) as J.
  cbv beta zeta in J. rewrite tt_back_face in J. change (ts_p s) with (rb_p r) in J.
  fold (axle_distance (last (o_traj out) d) (gx, gy)) in J. fold (rear_face_distance (rb_p r) (last (o_traj out) d) (gx, gy)) in J.
  destruct J as [J1 J2]. unfold finish_test, Rltb. split.
  - intros [A B]. destruct (Rlt_dec (tc_timeout c) (in_t1 i - in_t0 i)) as [C|C]; [lra|]. change (ts_p s) with (rb_p r). rewrite (J1 B).
    rewrite (save_nonempty _ _ _ _ _ _ _ _ _ _ _ _ d NE). unfold put_files. rewrite DW. cbv zeta beta iota.
    eexists _, _, _. split; [reflexivity|]. fold (result_name (tc_name c)). fold (arrays_name (tc_name c)).
    split; [rewrite write_other by apply names_differ; apply write_same|]. split; [apply write_same|].
    split. { pose proof (put_only c (in_machine i) (data_of tt_row (ts_coll s) (ts_hitch s) (fun q => (t_px q, t_py q)) (tt_trailer_back (rb_p r)) (gx, gy) c (o_Y0 out) (o_traj out) tm (in_machine i) d) (o_Y0 out) (map tt_row (o_traj out)) fs) as P.
      unfold put_files in P. rewrite DW in P. exact P. }
    unfold data_of. rewrite tt_back_face.
    fold (axle_distance (last (o_traj out) d) (gx, gy)). fold (rear_face_distance (rb_p r) (last (o_traj out) d) (gx, gy)).
    split. { unfold tells. cbn [rf_config rf_final rf_distance rf_tractor rf_tractor_check rf_trailer rf_trailer_check rf_limit rf_states rf_actions rf_stamp rf_commit].
      repeat (split; [reflexivity|]). unfold get_git_commit. split.
      - intros o G. rewrite G. reflexivity.
      - intros G. destruct (mc_git (in_machine i)) as [[k o]|]; [|reflexivity]. destruct (Z.eqb k 0) eqn:Ek; [|reflexivity].
        apply Z.eqb_eq in Ek. subst k. exfalso. exact (G o eq_refl). }
    cbn [rf_timing rf_success rf_coll rf_hitch]. split; [reflexivity|]. split.
    { destruct B as (_ & _ & [B|B]); apply orb_true_iff; [left|right]; unfold Rleb;
        match goal with |- context [Rle_dec ?a ?b] => destruct (Rle_dec a b); [reflexivity|contradiction] end. }
    split.
    + intros S1 S2. apply existsb_false_Forall. intros q _. exact (tt_coll_clear_iff s q S1 S2).
    + apply existsb_false_Forall. intros q _. exact (tt_hitch_iff (rb_p r) q).
  - intros N. destruct (Rlt_dec (tc_timeout c) (in_t1 i - in_t0 i)) as [C|C]; [reflexivity|]. change (ts_p s) with (rb_p r). rewrite J2; [reflexivity|].
    intros B. apply N. split; [lra|exact B].
Qed.

(** The same for the acceleration-controlled vehicle, whose states have six components. *)
Lemma l_C73_acceleration_files :
  forall c r px py th1 th2 v dl gx gy g1 g2 gv gd i fs d,
  create_test_environment c = Ok r -> rb_kind r = KACC ->
  rb_x0 r = Some [px; py; th1; th2; v; dl] -> rb_xg r = Some [gx; gy; g1; g2; gv; gd] -> (0 <= int (tc_mbd c) "Hsample")%Z ->
  disk_works (in_machine i) ->
  let s := mkAccSelf (mkTTSelf (rb_p r) (rb_circ r) (rb_rect r) (mkTT gx gy g1 g2)) (rb_amax r) (rb_omax r) in
  exists out, run_diffusion (acc_penv s (mkAcc (mkTT px py th1 th2) v dl) (in_pa i) (in_ga i) (in_la i) (in_rx i)) (Some (planner_cfg (tc_mbd c))) (in_rg i) = Ok out /\
    let final := last (o_traj out) d in
    let near := axle_distance (a_q final) (gx, gy) in
    let rear := rear_face_distance (rb_p r) (a_q final) (gx, gy) in
    let row q := [t_px (a_q q); t_py (a_q q); t_th1 (a_q q); t_th2 (a_q q); a_v q; a_d q] in
    (in_t1 i - in_t0 i <= tc_timeout c /\ acceptable c near rear ->
       exists fs' sm f, run_and_save c i fs = (fs', Passed (Rmin near rear) sm) /\
         fs' (tc_name c ++ "_result.json")%string = Some (Result f) /\
         fs' (tc_name c ++ "_arrays.npz")%string = Some (Arrays (o_Y0 out) (map row (o_traj out))) /\
         only_changes (files_of (tc_name c)) fs fs' /\
         tells f c (in_machine i) (row final) near rear (length (o_traj out)) (length (o_Y0 out)) /\
         rf_timing f = timing_of (flag (tc_mbd c) "enable_demo") (in_clock i) /\ rf_success f = true /\
         (tt_sized (rb_p r) -> proper_obstacles (rb_circ r) (rb_rect r) ->
            (rf_coll f = false <-> Forall (tt_clear (rb_p r) (rb_circ r) (rb_rect r)) (map a_q (o_traj out)))) /\
         (rf_hitch f = false <-> Forall (tt_hitch_ok (rb_p r)) (map a_q (o_traj out)))) /\
    (~ (in_t1 i - in_t0 i <= tc_timeout c /\ acceptable c near rear) -> run_and_save c i fs = (fs, Failed)).
Proof.
  intros c r px py th1 th2 v dl gx gy g1 g2 gv gd i fs d H K X0 XG HH DW s.
  destruct (run_lengths (acc_penv s (mkAcc (mkTT px py th1 th2) v dl) (in_pa i) (in_ga i) (in_la i) (in_rx i)) (tc_mbd c) (in_rg i)) as (out & E & LY & LT).
  exists out. split; [exact E|]. cbv zeta.
  assert (T : tt_of_robot r = None) by (unfold tt_of_robot; rewrite K; reflexivity).
  assert (T' : acc_of_robot r = Some (s, mkAcc (mkTT px py th1 th2) v dl)) by (unfold acc_of_robot; rewrite K, X0, XG; reflexivity).
  set (tm := timing_of (flag (tc_mbd c) "enable_demo") (in_clock i)).
  set (cl := fun q : accq => ts_coll (as_t s) (a_q q)). set (hi := fun q : accq => ts_hitch (as_t s) (a_q q)).
  set (ps := fun q : accq => (t_px (a_q q), t_py (a_q q))). set (bk := fun q : accq => tt_trailer_back (rb_p r) (a_q q)).
  assert (RM : run_and_save c i fs =
    finish_test acc_row cl hi ps bk (gx, gy) c (o_Y0 out) (o_traj out) tm (in_t0 i) (in_t1 i) (in_machine i) fs).
  { unfold run_and_save. rewrite H, T, T', E. reflexivity. }
  rewrite RM. clear RM T T' E.
  assert (NE : o_traj out <> []) by (intros Z; rewrite Z in LT; discriminate).
  pose proof (judge_spec cl hi ps bk (gx, gy) c (o_Y0 out) (o_traj out) d HH LY LT) as J.
  assert (BK : forall q, SpecGeom.dist (bk q) (gx, gy) = rear_face_distance (rb_p r) (a_q q) (gx, gy)).
  { intros q. unfold bk. rewrite tt_back_face. reflexivity. }
  cbv beta zeta in J. rewrite !BK in J. change (SpecGeom.dist (ps (last (o_traj out) d)) (gx, gy)) with (axle_distance (a_q (last (o_traj out) d)) (gx, gy)) in J.
  destruct J as [J1 J2]. unfold finish_test, Rltb. split.
  - intros [A B]. destruct (Rlt_dec (tc_timeout c) (in_t1 i - in_t0 i)) as [C|C]; [lra|]. rewrite (J1 B).
    rewrite (save_nonempty _ _ _ _ _ _ _ _ _ _ _ _ d NE). unfold put_files. rewrite DW. cbv zeta beta iota.
    eexists _, _, _. split; [reflexivity|]. fold (result_name (tc_name c)). fold (arrays_name (tc_name c)).
    split; [rewrite write_other by apply names_differ; apply write_same|]. split; [apply write_same|].
    split. { pose proof (put_only c (in_machine i) (data_of acc_row cl hi ps bk (gx, gy) c (o_Y0 out) (o_traj out) tm (in_machine i) d) (o_Y0 out) (map acc_row (o_traj out)) fs) as P.
      unfold put_files in P. rewrite DW in P. exact P. }
    unfold data_of. rewrite !BK.
    change (SpecGeom.dist (ps (last (o_traj out) d)) (gx, gy)) with (axle_distance (a_q (last (o_traj out) d)) (gx, gy)).
    split. { unfold tells. cbn [rf_config rf_final rf_distance rf_tractor rf_tractor_check rf_trailer rf_trailer_check rf_limit rf_states rf_actions rf_stamp rf_commit].
      repeat (split; [reflexivity|]). unfold get_git_commit. split.
      - intros o G. rewrite G. reflexivity.
      - intros G. destruct (mc_git (in_machine i)) as [[k o]|]; [|reflexivity]. destruct (Z.eqb k 0) eqn:Ek; [|reflexivity].
        apply Z.eqb_eq in Ek. subst k. exfalso. exact (G o eq_refl). }
    cbn [rf_timing rf_success rf_coll rf_hitch]. split; [reflexivity|]. split.
    { destruct B as (_ & _ & [B|B]); apply orb_true_iff; [left|right]; unfold Rleb;
        match goal with |- context [Rle_dec ?a ?b] => destruct (Rle_dec a b); [reflexivity|contradiction] end. }
    split.
    + intros S1 S2. rewrite Forall_map. apply existsb_false_Forall. intros q _. exact (tt_coll_clear_iff (as_t s) (a_q q) S1 S2).
    + rewrite Forall_map. apply existsb_false_Forall. intros q _. exact (tt_hitch_iff (rb_p r) (a_q q)).
  - intros N. destruct (Rlt_dec (tc_timeout c) (in_t1 i - in_t0 i)) as [C|C]; [reflexivity|]. rewrite J2; [reflexivity|].
    intros B. apply N. split; [lra|exact B].
Qed.

(** Saving does not change the verdict: with a working disk the test ends as described by C63. *)
Lemma l_C73_verdict_unchanged :
  forall c i fs, disk_works (in_machine i) ->
  snd (run_and_save c i fs) =
  run_mbd_test c (in_pt i) (in_gt i) (in_lt i) (in_pa i) (in_ga i) (in_la i) (in_rx i) (in_rg i) (in_t0 i) (in_t1 i).
Proof.
  intros c i fs DW. change (snd (run_and_save c i fs) = verdict c i).
  destruct (run_cases c i) as [(o & _ & V & E)|(data & us & xs & d & sm & V & _ & _ & _ & _ & _ & E)]; rewrite E, V; [reflexivity|].
  unfold after_saving, put_files. rewrite DW. reflexivity.
Qed.

(** A run, however it ends, touches no file but the two of its own test. If it does not pass although the disk works,
    the directory stays as it was. If it passes, the two files are there, complete, and name its configuration. *)
Lemma l_C73_own_files :
  forall c i fs fs' o, run_and_save c i fs = (fs', o) ->
  only_changes (files_of (tc_name c)) fs fs' /\
  (disk_works (in_machine i) -> (forall d sm, o <> Passed d sm) -> fs' = fs) /\
  (forall d sm, o = Passed d sm -> exists f us xs, fs' (tc_name c ++ "_result.json")%string = Some (Result f) /\
     fs' (tc_name c ++ "_arrays.npz")%string = Some (Arrays us xs) /\ rf_config f = c /\ rf_success f = true /\ rf_distance f = d /\ rf_coll f = sm_coll sm /\ rf_hitch f = sm_hitch sm).
Proof.
  intros c i fs fs' o H. destruct (run_cases c i) as [(o' & N & V & E)|(data & us & xs & d & sm & V & E1 & E2 & E3 & E4 & E5 & E)].
  - rewrite E in H. injection H as <- <-. split; [intros m _; reflexivity|]. split; [reflexivity|].
    intros d sm Ed. exfalso. apply N. exists d, sm. exact Ed.
  - rewrite E in H. unfold after_saving in H. destruct (put_files c (in_machine i) data us xs fs) as [fs1 r] eqn:P. injection H as <- <-.
    split; [pose proof (put_only c (in_machine i) data us xs fs) as Q; rewrite P in Q; exact Q|]. split.
    + intros DW NP. unfold put_files in P. rewrite DW in P. injection P as <- <-. exfalso. exact (NP d sm eq_refl).
    + intros d' sm' Ed. destruct r as [u|e]; [|discriminate]. injection Ed as <- <-. exists data, us, xs.
      unfold put_files in P. fold (result_name (tc_name c)). fold (arrays_name (tc_name c)).
      assert (F : fs1 = write (write fs (result_name (tc_name c)) (Result data)) (arrays_name (tc_name c)) (Arrays us xs)).
      { destruct (mc_fail (in_machine i)) as [[[|[|[|[|k]]]] e]|]; try discriminate; injection P as <- _; reflexivity. }
      rewrite F. split; [rewrite write_other by apply names_differ; apply write_same|]. split; [apply write_same|]. repeat split; assumption.
Qed.

(** When a write fails the test does not pass, and it ends with the error of that write if it would have passed. A result
    file cut short is never beside a new arrays file; the new result is complete before the arrays file is opened. *)
Lemma l_C73_write_failure :
  forall c i fs fs' o k e, run_and_save c i fs = (fs', o) -> mc_fail (in_machine i) = Some (k, e) -> (k < 4)%nat ->
  (forall d sm, o <> Passed d sm) /\
  only_changes (files_of (tc_name c)) fs fs' /\
  ((exists d sm, run_mbd_test c (in_pt i) (in_gt i) (in_lt i) (in_pa i) (in_ga i) (in_la i) (in_rx i) (in_rg i) (in_t0 i) (in_t1 i) = Passed d sm) -> o = Errored e) /\
  (fs' (tc_name c ++ "_arrays.npz")%string <> fs (tc_name c ++ "_arrays.npz")%string ->
     exists f, fs' (tc_name c ++ "_result.json")%string = Some (Result f) /\ rf_config f = c).
Proof.
  intros c i fs fs' o k e H MF HK.
  destruct (l_C73_own_files c i fs fs' o H) as (OC & _ & _).
  change (run_mbd_test c _ _ _ _ _ _ _ _ _ _) with (verdict c i).
  destruct (run_cases c i) as [(o' & N & V & E)|(data & us & xs & d & sm & V & E1 & E2 & E3 & E4 & E5 & E)].
  - rewrite E in H. injection H as <- <-. split; [intros d sm Ed; apply N; exists d, sm; exact Ed|]. split; [exact OC|]. split.
    + intros (d & sm & P). exfalso. apply N. exists d, sm. rewrite <- V. exact P.
    + intros D. exfalso. apply D. reflexivity.
  - rewrite E in H. unfold after_saving, put_files in H. rewrite MF in H. fold (result_name (tc_name c)). fold (arrays_name (tc_name c)).
    destruct (eqb_names (tc_name c) (tc_name c)) as [N1 N2].
    destruct k as [|[|[|[|k]]]]; [| | | |lia]; injection H as <- <-;
      (split; [intros d' sm' Z; discriminate|]); (split; [exact OC|]); (split; [intros _; reflexivity|]); intros D.
    + exfalso. apply D. reflexivity.
    + exfalso. apply D. unfold write. rewrite N2. reflexivity.
    + exfalso. apply D. unfold write. rewrite N2. reflexivity.
    + exists data. split; [|exact E1]. rewrite write_other by apply names_differ. apply write_same.
Qed.

(** Tests with different names use different files, and a result file is never an arrays file. *)
Lemma l_C73_names :
  forall a b, (forall m, In m (files_of a) -> In m (files_of b) -> a = b) /\
  (a ++ "_result.json" <> b ++ "_arrays.npz")%string.
Proof.
  intros a b. split.
  - intros m HA HB. rewrite files_names in HA, HB. cbn [In] in HA, HB. destruct HA as [<-|[<-|[]]], HB as [E|[E|[]]].
    + symmetry. exact (result_name_inj _ _ E).
    + exfalso. exact (names_differ a b (eq_sym E)).
    + exfalso. exact (names_differ b a E).
    + symmetry. exact (arrays_name_inj _ _ E).
  - exact (names_differ a b).
Qed.

(** ** Suites *)
Lemma passed_holds : forall c i fs fs' d sm, run_and_save c i fs = (fs', Passed d sm) -> holds_run c i fs'.
Proof.
  intros c i fs fs' d sm H. destruct (l_C73_own_files c i fs fs' _ H) as (_ & _ & P).
  destruct (P d sm eq_refl) as (f & us & xs & F1 & F2 & F3 & F4 & F5 & _). exists fs, fs', d, sm, f, us, xs. tauto.
Qed.
Lemma saving_step : forall {W} (supply : W -> test_config -> W * inputs) w fs c w' fs' ok,
  saving_run supply (w, fs) c = ((w', fs'), ok) -> exists i o, i = snd (supply w c) /\ run_and_save c i fs = (fs', o) /\
  (ok = true <-> is_passed o).
Proof.
  intros W supply w fs c w' fs' ok H. unfold saving_run in H. cbn [fst snd] in H. destruct (supply w c) as [w1 i].
  destruct (run_and_save c i fs) as [fs1 o] eqn:E. injection H as _ <- <-. exists i, o. split; [reflexivity|]. split; [exact E|].
  destruct o as [d sm| |e]; split; intros Z; try discriminate; try reflexivity; try (destruct Z as (d' & s' & Z); discriminate).
  exists d, sm. reflexivity.
Qed.
Lemma known_name : forall n c, get_test_config n = Ok c -> tc_name c = n.
Proof.
  intros n c H. unfold get_test_config in H.
  assert (A : forall l, (forall kv, In kv l -> tc_name (snd kv) = fst kv) -> forall c', dget l n = Some c' -> tc_name c' = n).
  { induction l as [|[k v] l IH]; intros HL c' D; [discriminate|]. cbn [dget] in D. destruct (String.eqb k n) eqn:Ek.
    - apply String.eqb_eq in Ek. injection D as <-. exact (eq_trans (HL (k, v) (or_introl eq_refl)) Ek).
    - exact (IH (fun kv I => HL kv (or_intror I)) c' D). }
  destruct (dget all_scenarios n) as [c'|] eqn:D; [|discriminate]. injection H as <-. revert D. apply A.
  intros kv I. repeat (destruct I as [<-|I]; [reflexivity|]). destruct I.
Qed.

(** Over any session the files of a test are those of its last run that passed, and as before the session if none did:
    runs that fail, and runs of other tests, leave them alone. *)
Lemma l_C73_session :
  forall (W : Type) (supply : W -> test_config -> W * inputs) w fs cs fs' oks,
  (forall w' c, disk_works (in_machine (snd (supply w' c)))) -> session supply w fs cs = (fs', oks) ->
  forall n,
  ((forall k c, nth_error cs k = Some c -> tc_name c = n -> nth_error oks k = Some false) ->
     forall m, In m (files_of n) -> fs' m = fs m) /\
  (forall k c, nth_error cs k = Some c -> tc_name c = n -> nth_error oks k = Some true ->
     (forall j c', (k < j)%nat -> nth_error cs j = Some c' -> tc_name c' = n -> nth_error oks j = Some false) ->
     exists i, holds_run c i fs').
Proof.
  intros W supply w fs cs fs' oks DW. revert w fs fs' oks. induction cs as [|c cs IH]; intros w fs fs' oks H n.
  { cbn [session] in H. injection H as <- <-. split; [reflexivity|]. intros k c E. destruct k; discriminate. }
  cbn [session] in H. destruct (saving_run supply (w, fs) c) as [[w1 fs1] ok] eqn:E.
  destruct (session supply w1 fs1 cs) as [fs2 oks1] eqn:SS. injection H as <- <-.
  destruct (IH _ _ _ _ SS n) as [IH1 IH2]. destruct (saving_step supply w fs c w1 fs1 ok E) as (i & o & Ei & R & P).
  destruct (l_C73_own_files c i fs fs1 o R) as (OC & KE & _). split.
  - intros A m I.
    assert (A' : forall k c0, nth_error cs k = Some c0 -> tc_name c0 = n -> nth_error oks1 k = Some false).
    { intros k c0 H1 H2. exact (A (S k) c0 H1 H2). }
    rewrite (IH1 A' m I). destruct (string_dec (tc_name c) n) as [EN|NN].
    + rewrite KE; [reflexivity|rewrite Ei; apply DW|]. intros d sm Eo. specialize (A 0%nat c eq_refl EN). cbn [nth_error] in A.
      injection A as A. rewrite A in P. destruct P as [_ P]. specialize (P (ex_intro _ d (ex_intro _ sm Eo))). discriminate.
    + apply OC. intros I'. apply NN. exact (proj1 (l_C73_names (tc_name c) n) m I' I).
  - intros k c0 H1 H2 H3 H4. destruct k as [|k].
    + cbn [nth_error] in H1, H3. injection H1 as <-. injection H3 as ->. destruct (proj1 P eq_refl) as (d & sm & Eo). subst o.
      pose proof (passed_holds c i fs fs1 d sm R) as (b & a & d' & sm' & f & us & xs & F0 & F1 & F2 & F3 & F4 & F5).
      assert (A' : forall k c0, nth_error cs k = Some c0 -> tc_name c0 = n -> nth_error oks1 k = Some false).
      { intros k c0 G1 G2. exact (H4 (S k) c0 ltac:(lia) G1 G2). }
      exists i, b, a, d', sm', f, us, xs. rewrite !(IH1 A') by (rewrite H2; cbn; tauto). tauto.
    + apply (IH2 k c0 H1 H2 H3). intros j c' L G1 G2. exact (H4 (S j) c' ltac:(lia) G1 G2).
Qed.

Lemma runs_known : forall b c, In c (runs_of b) -> get_test_config (tc_name c) = Ok c.
Proof.
  intros b c H. destruct b as [n| |]; cbn [runs_of] in H.
  - destruct (get_test_config n) as [c'|] eqn:E; [|destruct H]. destruct H as [<-|[]]. rewrite (known_name n c' E). exact E.
  - cbn [In app] in H. repeat (destruct H as [<-|H]; [reflexivity|]). destruct H.
  - destruct H.
Qed.
Lemma holds_kept : forall c i fs c' i' fs' d sm, holds_run c i fs -> run_and_save c' i' fs = (fs', Passed d sm) ->
  (tc_name c' = tc_name c -> c' = c) -> exists i1, holds_run c i1 fs'.
Proof.
  intros c i fs c' i' fs' d sm H R SN. destruct (string_dec (tc_name c') (tc_name c)) as [E|N].
  - rewrite <- (SN E). exists i'. exact (passed_holds _ _ _ _ _ _ R).
  - exists i. destruct H as (b & a & d' & sm' & f & us & xs & F0 & F1 & F2 & F3 & F4 & F5).
    destruct (l_C73_own_files c' i' fs fs' _ R) as (OC & _ & _).
    exists b, a, d', sm', f, us, xs.
    assert (K : forall m, In m (files_of (tc_name c)) -> fs' m = fs m).
    { intros m I. apply OC. intros I'. apply N. exact (proj1 (l_C73_names _ _) m I' I). }
    rewrite !K by (cbn; tauto). tauto.
Qed.
Lemma same_name_same : forall b b' c c', In c (runs_of b) -> In c' (runs_of b') -> tc_name c' = tc_name c -> c' = c.
Proof.
  intros b b' c c' H H' E. pose proof (runs_known _ _ H) as K. pose proof (runs_known _ _ H') as K'. rewrite E in K'. congruence.
Qed.

(** One test method, all of whose runs pass: its files are there, and those of other tests' runs are kept. *)
Lemma body_success : forall {W} (supply : W -> test_config -> W * inputs) w fs b w' fs',
  run_body (saving_run supply) (w, fs) b = ((w', fs'), true) ->
  (forall c, In c (runs_of b) -> exists i, holds_run c i fs') /\
  (forall b0 c i, In c (runs_of b0) -> holds_run c i fs -> exists i1, holds_run c i1 fs').
Proof.
  intros W supply w fs b w' fs' H.
  assert (ONE : forall c w fs w' fs', saving_run supply (w, fs) c = ((w', fs'), true) ->
     (exists i, holds_run c i fs') /\
     (forall b0 b1 c0 i, In c (runs_of b1) -> In c0 (runs_of b0) -> holds_run c0 i fs -> exists i1, holds_run c0 i1 fs')).
  { intros c w0 fs0 w0' fs0' E. destruct (saving_step supply w0 fs0 c w0' fs0' true E) as (i & o & _ & R & P).
    destruct (proj1 P eq_refl) as (d & sm & ->). split; [exists i; exact (passed_holds _ _ _ _ _ _ R)|].
    intros b0 b1 c0 i0 I1 I0 HR. exact (holds_kept _ _ _ _ _ _ _ _ HR R (same_name_same b0 b1 c0 c I0 I1)). }
  destruct b as [n| |].
  - cbn [run_body] in H. unfold run_scenario_test in H. cbn [runs_of].
    destruct (get_test_config n) as [c|] eqn:G; [|discriminate]. destruct (ONE c w fs w' fs' H) as [A B]. split.
    + intros c0 [<-|[]]. exact A.
    + intros b0 c0 i I0 HR. refine (B b0 (Scenario n) c0 i _ I0 HR). cbn [runs_of]. rewrite G. left. reflexivity.
  - cbn [run_body] in H. unfold run_scenario_test in H.
    change (remove_demo "parking_basic_forward") with "parking_basic_forward" in H.
    destruct (create_demo_variant "parking_basic_forward" true) as [c1|] eqn:C1; [|discriminate].
    destruct (create_demo_variant "parking_basic_forward" false) as [c2|] eqn:C2; [|discriminate].
    destruct (saving_run supply (w, fs) c1) as [[w1 fs1] ok1] eqn:E1. destruct ok1; [|discriminate].
    destruct (ONE c1 w fs w1 fs1 E1) as [A1 B1]. destruct (ONE c2 w1 fs1 w' fs' H) as [A2 B2].
    assert (RO : runs_of DemoOverride = [c1; c2]) by (unfold runs_of; rewrite C1, C2; reflexivity).
    assert (I1 : In c1 (runs_of DemoOverride)) by (rewrite RO; left; reflexivity).
    assert (I2 : In c2 (runs_of DemoOverride)) by (rewrite RO; right; left; reflexivity).
    split.
    + intros c I. rewrite RO in I. destruct I as [<-|[<-|[]]]; [|exact A2]. destruct A1 as [i A1]. exact (B2 DemoOverride DemoOverride c1 i I2 I1 A1).
    + intros b0 c i I0 HR. destruct (B1 b0 DemoOverride c i I1 I0 HR) as [i1 HR1]. exact (B2 b0 DemoOverride c i1 I2 I0 HR1).
  - cbn [run_body] in H. injection H as _ <- _. split; [intros c []|]. intros b0 c i _ HR. exists i. exact HR.
Qed.

(** When a suite of test methods is successful (run_tests.py then exits with 0), the directory holds for every test it
    ran both files, complete and from a passing run of exactly that configuration in this suite. *)
Lemma l_C73_after_success :
  forall (W : Type) (supply : W -> test_config -> W * inputs) w fs suite w' fs',
  run_suite (saving_run supply) (w, fs) suite = ((w', fs'), true) ->
  forall b c, In b suite -> In c (runs_of b) -> exists i, holds_run c i fs'.
Proof.
  intros W supply w fs suite. revert w fs.
  assert (G : forall w fs w' fs', run_suite (saving_run supply) (w, fs) suite = ((w', fs'), true) ->
    (forall b c, In b suite -> In c (runs_of b) -> exists i, holds_run c i fs') /\
    (forall b0 c i, In c (runs_of b0) -> holds_run c i fs -> exists i1, holds_run c i1 fs')).
  { induction suite as [|b rest IH]; intros w fs w' fs' H.
    - cbn [run_suite] in H. injection H as _ <-. split; [intros b c []|]. intros b0 c i _ HR. exists i. exact HR.
    - cbn [run_suite] in H. destruct (run_body (saving_run supply) (w, fs) b) as [[w1 fs1] ok] eqn:E.
      destruct (run_suite (saving_run supply) (w1, fs1) rest) as [[w2 fs2] oks] eqn:S. injection H as _ <- HK.
      apply andb_true_iff in HK. destruct HK as [-> ->]. destruct (body_success supply w fs b w1 fs1 E) as [A B].
      destruct (IH w1 fs1 w2 fs2 S) as [A1 B1]. split.
      + intros b0 c [<-|I] IC; [|exact (A1 b0 c I IC)]. destruct (A c IC) as [i HR]. exact (B1 b c i IC HR).
      + intros b0 c i IC HR. destruct (B b0 c i IC HR) as [i1 HR1]. exact (B1 b0 c i1 IC HR1). }
  intros w fs w' fs' H. exact (proj1 (G w fs w' fs' H)).
Qed.

(** Whatever the outcome of a suite and of the writes: every complete result file is either as it was before the suite,
    or carries the name of its own configuration, which the suite ran - and says that the goal was reached. *)
Lemma l_C73_results_after_any_suite :
  forall (W : Type) (supply : W -> test_config -> W * inputs) w fs suite w' fs' ok,
  run_suite (saving_run supply) (w, fs) suite = ((w', fs'), ok) ->
  forall m f, fs' m = Some (Result f) ->
  fs m = Some (Result f) \/
  (m = (tc_name (rf_config f) ++ "_result.json")%string /\ rf_success f = true /\ exists b, In b suite /\ In (rf_config f) (runs_of b)).
Proof.
  intros W supply.
  assert (ONE : forall w fs c w' fs' ok, saving_run supply (w, fs) c = ((w', fs'), ok) -> forall m f, fs' m = Some (Result f) ->
     fs m = Some (Result f) \/ (m = (tc_name (rf_config f) ++ "_result.json")%string /\ rf_success f = true /\ rf_config f = c)).
  { intros w fs c w' fs' ok H m f F. destruct (saving_step supply w fs c w' fs' ok H) as (i & o & _ & R & _).
    destruct (run_cases c i) as [(o' & _ & _ & E)|(data & us & xs & d & sm & _ & E1 & E2 & _ & _ & _ & E)].
    - rewrite E in R. injection R as <- _. left. exact F.
    - rewrite E in R. unfold after_saving in R. destruct (put_files c (in_machine i) data us xs fs) as [fs1 r] eqn:P. injection R as <- _.
      assert (Q : fs1 m = fs m \/ fs1 m = Some Broken \/ (exists us' xs', fs1 m = Some (Arrays us' xs')) \/
                  (m = result_name (tc_name c) /\ fs1 m = Some (Result data))).
      { unfold put_files in P.
        destruct (mc_fail (in_machine i)) as [[[|[|[|[|k]]]] e]|]; injection P as <- _; unfold write;
          repeat match goal with |- context [String.eqb m ?n] => destruct (String.eqb m n) eqn:?HE end;
          rewrite ?String.eqb_eq in *; eauto 10. }
      destruct Q as [Q|[Q|[(us' & xs' & Q)|[Q1 Q]]]]; rewrite Q in F; [left; exact F|discriminate|discriminate|].
      injection F as <-. right. rewrite E1. split; [exact Q1|]. split; [exact E2|reflexivity]. }
  assert (BODY : forall w fs b w' fs' ok, run_body (saving_run supply) (w, fs) b = ((w', fs'), ok) -> forall m f, fs' m = Some (Result f) ->
     fs m = Some (Result f) \/ (m = (tc_name (rf_config f) ++ "_result.json")%string /\ rf_success f = true /\ In (rf_config f) (runs_of b))).
  { intros w fs b w' fs' ok H m f F. destruct b as [n| |].
    - cbn [run_body] in H. unfold run_scenario_test in H. cbn [runs_of]. destruct (get_test_config n) as [c|].
      + destruct (ONE _ _ _ _ _ _ H m f F) as [A|(A & B & C)]; [left; exact A|right]. split; [exact A|]. split; [exact B|]. left. symmetry. exact C.
      + injection H as _ <- _. left. exact F.
    - cbn [run_body] in H. unfold run_scenario_test in H.
      change (remove_demo "parking_basic_forward") with "parking_basic_forward" in H.
      destruct (create_demo_variant "parking_basic_forward" true) as [c1|] eqn:C1; [|discriminate].
      destruct (create_demo_variant "parking_basic_forward" false) as [c2|] eqn:C2; [|discriminate].
      assert (RO : runs_of DemoOverride = [c1; c2]) by (unfold runs_of; rewrite C1, C2; reflexivity). rewrite RO.
      destruct (saving_run supply (w, fs) c1) as [[w1 fs1] ok1] eqn:E1.
      assert (A1 : fs1 m = Some (Result f) -> fs m = Some (Result f) \/ m = (tc_name (rf_config f) ++ "_result.json")%string /\ rf_success f = true /\ In (rf_config f) [c1; c2]).
      { intros F1. destruct (ONE _ _ _ _ _ _ E1 m f F1) as [A|(A & B & C)]; [left; exact A|right]. split; [exact A|]. split; [exact B|]. left. symmetry. exact C. }
      destruct ok1.
      + destruct (ONE _ _ _ _ _ _ H m f F) as [A|(A & B & C)]; [exact (A1 A)|right]. split; [exact A|]. split; [exact B|]. right. left. symmetry. exact C.
      + injection H as _ <- _. exact (A1 F).
    - cbn [run_body] in H. injection H as _ <- _. left. exact F. }
  intros w fs suite. revert w fs. induction suite as [|b rest IH]; intros w fs w' fs' ok H m f F.
  - cbn [run_suite] in H. injection H as _ <- _. left. exact F.
  - cbn [run_suite] in H. destruct (run_body (saving_run supply) (w, fs) b) as [[w1 fs1] ok1] eqn:E.
    destruct (run_suite (saving_run supply) (w1, fs1) rest) as [[w2 fs2] oks] eqn:S. injection H as _ <- _.
    destruct (IH w1 fs1 w2 fs2 oks S m f F) as [A|(A & B & b' & I & C)].
    + destruct (BODY _ _ _ _ _ _ E m f A) as [A1|(A1 & B & C)]; [left; exact A1|right]. split; [exact A1|]. split; [exact B|].
      exists b. split; [left; reflexivity|exact C].
    + right. split; [exact A|]. split; [exact B|]. exists b'. split; [right; exact I|exact C].
Qed.

(** C73 (finding): the result file of a test need not be of its latest run, and cannot show a failure: a test that passed
    once and then takes too long still has the file of the first run, which says that the goal was reached. The test here
    is the one of C63 that passes for all random numbers. *)
Lemma l_C73_file_of_latest_run_refuted :
  exists c, create_custom_test_config "parking_basic_forward"
      [OCircles [mkCircle 0 0 1000]; OStart 0 (-21/2) (- PI / 2) (- PI / 2)] = Ok c /\
  forall i1 i2 fs, disk_works (in_machine i1) -> disk_works (in_machine i2) -> in_t1 i1 - in_t0 i1 <= 300 -> in_t1 i2 - in_t0 i2 > 300 ->
  exists fs1 d sm f, run_and_save c i1 fs = (fs1, Passed d sm) /\ run_and_save c i2 fs1 = (fs1, Failed) /\
    fs1 "parking_basic_forward_result.json" = Some (Result f) /\ rf_success f = true /\ rf_config f = c /\ rf_coll f = true.
Proof.
  destruct l_C63_passed_means_safe_refuted as (c & r & EC & ER & P). exists c. split; [exact EC|].
  intros i1 i2 fs D1 D2 T1 T2.
  assert (NM : tc_name c = "parking_basic_forward").
  { pose proof EC as E. match type of E with ?t = _ => let v := eval hnf in t in change (v = Ok c) in E end. injection E as <-. reflexivity. }
  assert (TM : tc_timeout c = 300).
  { pose proof EC as E. match type of E with ?t = _ => let v := eval hnf in t in change (v = Ok c) in E end. injection E as <-. reflexivity. }
  destruct (P (in_pt i1) (in_gt i1) (in_lt i1) (in_pa i1) (in_ga i1) (in_la i1) (in_rx i1) (in_rg i1) (in_t0 i1) (in_t1 i1) T1) as (d & sm & V & CO & SU).
  fold (verdict c i1) in V. pose proof (l_C73_verdict_unchanged c i1 fs D1) as RV. fold (verdict c i1) in RV. rewrite V in RV.
  destruct (run_and_save c i1 fs) as [fs1 o] eqn:R1. cbn [snd] in RV. subst o.
  destruct (l_C73_own_files c i1 fs fs1 _ R1) as (_ & _ & A). destruct (A d sm eq_refl) as (f & us & xs & F1 & F2 & F3 & F4 & F5 & F6 & _).
  exists fs1, d, sm, f. split; [reflexivity|]. rewrite NM in F1.
  assert (V2 : snd (run_and_save c i2 fs1) = Failed).
  { rewrite (l_C73_verdict_unchanged c i2 fs1 D2).
    destruct (P (in_pt i2) (in_gt i2) (in_lt i2) (in_pa i2) (in_ga i2) (in_la i2) (in_rx i2) (in_rg i2) 0 0 ltac:(lra)) as (d' & sm' & V' & _).
    unfold run_mbd_test in V' |- *. rewrite ER in V' |- *. rewrite TM in V' |- *.
    assert (LT : Rltb 300 (in_t1 i2 - in_t0 i2) = true) by (unfold Rltb; destruct (Rlt_dec 300 (in_t1 i2 - in_t0 i2)); [reflexivity|lra]).
    rewrite LT. destruct (tt_of_robot r) as [[s x0]|].
    - destruct (run_diffusion _ _ _); [reflexivity|discriminate].
    - destruct (acc_of_robot r) as [[s x0]|]; [|discriminate]. destruct (run_diffusion _ _ _); [reflexivity|discriminate]. }
  destruct (run_and_save c i2 fs1) as [fs2 o2] eqn:R2. cbn [snd] in V2. subst o2.
  destruct (l_C73_own_files c i2 fs1 fs2 _ R2) as (_ & B & _). rewrite (B D2) by (intros; discriminate).
  split; [reflexivity|]. split; [exact F1|]. split; [exact F4|]. split; [exact F3|]. rewrite F6. exact CO.
Qed.

(** A session of two runs of that test, the second of which takes too long; and one whose last write fails. *)
Lemma x_C73_two_runs :
  exists c, create_custom_test_config "parking_basic_forward"
      [OCircles [mkCircle 0 0 1000]; OStart 0 (-21/2) (- PI / 2) (- PI / 2)] = Ok c /\
  let supply (n : nat) (_ : test_config) := (S n, example_inputs (if Nat.eqb n 0 then 10 else 301) None) in
  (forall w' c', disk_works (in_machine (snd (supply w' c')))) /\
  (exists fs', session supply 0%nat (fun _ => None) [c; c] = (fs', [true; false]) /\ exists i, holds_run c i fs') /\
  (exists fs' f, run_and_save c (example_inputs 10 (Some (3%nat, RuntimeError))) (fun _ => None) = (fs', Errored RuntimeError) /\
     fs' "parking_basic_forward_result.json" = Some (Result f) /\ rf_success f = true /\ fs' "parking_basic_forward_arrays.npz" = Some Broken).
Proof.
  destruct l_C73_file_of_latest_run_refuted as (c & EC & P). exists c. split; [exact EC|]. cbv zeta.
  assert (NM : tc_name c = "parking_basic_forward").
  { pose proof EC as E. match type of E with ?t = _ => let v := eval hnf in t in change (v = Ok c) in E end. injection E as <-. reflexivity. }
  split; [intros; reflexivity|].
  destruct (P (example_inputs 10 None) (example_inputs 301 None) (fun _ => None) eq_refl eq_refl ltac:(cbn [example_inputs in_t1 in_t0]; lra) ltac:(cbn [example_inputs in_t1 in_t0]; lra))
    as (fs1 & d & sm & f & R1 & R2 & F1 & F2 & F3 & F4). split.
  - exists fs1. split; [|exists (example_inputs 10 None); exact (passed_holds _ _ _ _ _ _ R1)].
    cbn [session]. unfold saving_run. cbn [fst snd Nat.eqb]. rewrite R1. cbn [fst snd Nat.eqb]. rewrite R2. reflexivity.
  - set (i3 := example_inputs 10 (Some (3%nat, RuntimeError))).
    destruct (run_cases c i3) as [(o' & N & V & E)|(data & us & xs & d' & sm' & V & E1 & E2 & E3 & E4 & E5 & E)].
    + exfalso. apply N. exists d, sm. rewrite <- V. change (verdict c i3) with (verdict c (example_inputs 10 None)). unfold verdict.
      rewrite <- (l_C73_verdict_unchanged c (example_inputs 10 None) (fun _ => None) eq_refl), R1. reflexivity.
    + rewrite E. unfold after_saving, put_files. cbn [i3 example_inputs in_machine mc_fail]. eexists _, data. split; [reflexivity|].
      rewrite NM. split; [reflexivity|]. split; [exact E2|reflexivity].
Qed.
