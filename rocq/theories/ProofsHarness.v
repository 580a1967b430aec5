(** * ProofsHarness: scenario registry and test runner. *)
From Coq Require Import String.
From Verif Require Import Base Params Config EnvModel Setup Tune Harness SpecHarness.
Local Open Scope string_scope.
Local Open Scope list_scope.
Open Scope R_scope.

Lemma substring_all : forall s, substring 0 (String.length s) s = s.
Proof. induction s as [|c s IH]; [reflexivity|]. cbn. f_equal. exact IH. Qed.
Lemma substring_app : forall b s, substring (String.length b) (String.length s) (b ++ s) = s.
Proof. induction b as [|c b IH]; intros s; cbn; [apply substring_all|apply IH]. Qed.
Lemma string_length_app : forall a b, String.length (a ++ b) = (String.length a + String.length b)%nat.
Proof. induction a as [|c a IH]; intros b; cbn; [reflexivity|f_equal; apply IH]. Qed.
Lemma substring_split : forall n s, (n <= String.length s)%nat ->
  (substring 0 n s ++ substring n (String.length s - n) s)%string = s.
Proof.
  induction n as [|n IH]; intros s H.
  - rewrite Nat.sub_0_r. destruct s; [reflexivity|]. cbn. f_equal. apply substring_all.
  - destruct s as [|c s]; [cbn in H; lia|]. cbn in *. f_equal. apply IH. lia.
Qed.
Lemma endswith_spec : forall s suf, endswith s suf = true <-> exists b, s = (b ++ suf)%string.
Proof.
  intros s suf. unfold endswith. rewrite andb_true_iff, Nat.leb_le. split.
  - intros [L E]. apply String.eqb_eq in E. exists (substring 0 (String.length s - String.length suf) s).
    rewrite <- E at 2. symmetry. etransitivity; [|apply (substring_split (String.length s - String.length suf)); lia].
    do 2 f_equal. lia.
  - intros [b ->]. rewrite string_length_app. split; [lia|].
    replace (String.length b + String.length suf - String.length suf)%nat with (String.length b) by lia.
    rewrite substring_app. apply String.eqb_refl.
Qed.
Lemma dget_in : forall {A} (d : list (string * A)) k v, dget d k = Some v -> In (k, v) d.
Proof.
  induction d as [|[k' v'] d IH]; intros k v H; cbn in H; [discriminate|].
  destruct (String.eqb_spec k' k) as [->|N]; [injection H as ->; left; reflexivity|right; apply IH; exact H].
Qed.
Lemma dget_none : forall {A} (d : list (string * A)) k, dget d k = None <-> ~ In k (keys d).
Proof.
  induction d as [|[k' v'] d IH]; intros k; cbn; [tauto|].
  destruct (String.eqb_spec k' k) as [->|N]; [split; [discriminate|tauto]|]. rewrite IH. tauto.
Qed.

Lemma all_eq : all_scenarios =
  kinematic_scenarios ++ map (fun kv => (with_demo (fst kv), demo_copy (fst kv) (snd kv))) kinematic_scenarios ++
  acc_scenarios ++ map (fun kv => (with_demo (fst kv), demo_copy (fst kv) (snd kv))) acc_scenarios.
Proof. reflexivity. Qed.
Lemma all_keys : keys all_scenarios =
  kinematic_names ++ map with_demo kinematic_names ++ acceleration_names ++ map with_demo acceleration_names.
Proof. reflexivity. Qed.
Lemma known_keys : forall n, known n <-> In n (keys all_scenarios).
Proof.
  intros n. rewrite all_keys. unfold known. rewrite !in_app_iff, !in_map_iff. split.
  - intros (b & H & [->| ->]); rewrite in_app_iff in H; [tauto|].
    destruct H; [right; left|right; right; right]; exists b; tauto.
  - intros [H|[(b & <- & H)|[H|(b & <- & H)]]]; [exists n|exists b|exists n|exists b]; rewrite in_app_iff; tauto.
Qed.
Lemma get_in : forall n c, get_test_config n = Ok c -> In (n, c) all_scenarios.
Proof. intros n c H. unfold get_test_config in H. destruct (dget all_scenarios n) eqn:E; [|discriminate]. injection H as <-. apply dget_in. exact E. Qed.

(** Exactly the base scenarios and their demonstration variants are known; any other name raises KeyError. *)
Lemma l_C60_lookup :
  forall n, (known n <-> exists c, get_test_config n = Ok c) /\ (~ known n <-> get_test_config n = Err KeyError).
Proof.
  intros n. rewrite known_keys. pose proof (dget_none all_scenarios n) as H. unfold get_test_config.
  destruct (dget all_scenarios n) as [c|] eqn:E.
  - split; split; intros; try discriminate; eauto.
    + apply dget_in in E. exact (in_map fst _ _ E).
    + exfalso. apply H0. exact (in_map fst _ _ (dget_in _ _ _ E)).
  - split; split; intros; try reflexivity; destruct H as [H _]; specialize (H eq_refl); try tauto. destruct H0; discriminate.
Qed.

Ltac each_scenario H :=
  rewrite all_eq in H; cbn [app map kinematic_scenarios acc_scenarios] in H;
  repeat match type of H with
  | In _ (_ :: _) => let H' := fresh in destruct H as [H'|H]; [injection H' as <- <-; clear H|]
  | In _ [] => destruct H
  end.

Lemma demo_named_dec : forall n, demo_named n <-> endswith n "_demo" = true.
Proof. intros n. rewrite endswith_spec. reflexivity. Qed.

Ltac motion_case b m :=
  first [ exists b, m, false; split; [cbn; tauto|]; repeat split; reflexivity
        | exists b, m, true; split; [cbn; tauto|]; repeat split; reflexivity ].
Lemma settings_default : forall e d m key, ~ In key scenario_settings ->
  with_defaults ([("env_name", VStr e); ("enable_demo", VBool d); ("motion_preference", VInt m)] ++ test_overrides) key
  = lookup (map (fun f => (fst (fst f), snd f)) dataclass_fields) key.
Proof.
  intros e d m key K. unfold with_defaults. cbn [app lookup test_overrides].
  assert (N : forall k, In k scenario_settings -> String.eqb k key = false).
  { intros k Hk. apply String.eqb_neq. intros ->. apply K. exact Hk. }
  rewrite (N "seed"), (N "env_name"), (N "enable_demo"), (N "motion_preference"), (N "render"), (N "show_animation")
    by (cbn; tauto).
  destruct (String.eqb_spec "save_animation" key) as [<-|_]; [reflexivity|].
  destruct (String.eqb_spec "save_denoising_animation" key) as [<-|_]; [reflexivity|].
  destruct (String.eqb_spec "verbose" key) as [<-|_]; reflexivity.
Qed.
(** The configuration of a scenario: it carries its own name, passes within 4 m of the goal, allows 300 s, uses
    seed 0, has demonstrations on exactly if its name says so, prefers the direction its name says, and aims
    nose-in (-90 degrees) unless it prefers reversing (+90 degrees); the vehicle is the kinematic one unless the
    name starts with acc_; every other setting is the default of MBDConfig. *)
Lemma l_C60_configuration :
  forall n c, get_test_config n = Ok c ->
  tc_name c = n /\ tc_min c = 0 /\ tc_max c = 4 /\ tc_limit c = 4 /\ tc_timeout c = 300 /\
  tc_mbd c "seed" = Some (VInt 0) /\
  (exists d, tc_mbd c "enable_demo" = Some (VBool d) /\ (d = true <-> demo_named n)) /\
  (exists b m (acc : bool), In (b, m) named_motion /\
     n = ((if acc then "acc_" else "") ++ (if endswith n "_demo" then with_demo b else b))%string /\
     tc_mbd c "env_name" = Some (VStr (if acc then "acc_tt2d" else "tt2d")) /\
     tc_mbd c "motion_preference" = Some (VInt m) /\
     (tc_g1 c = Some (if Z.ltb m 0 then PI / 2 else - PI / 2) /\ tc_g2 c = tc_g1 c)) /\
  (exists th, tc_th1 c = Some th /\ tc_th2 c = Some th) /\
  (forall key, ~ In key scenario_settings -> tc_mbd c key = lookup (map (fun f => (fst (fst f), snd f)) dataclass_fields) key).
Proof.
  intros n c H. apply get_in in H. each_scenario H.
  all: cbn [tc_name tc_min tc_max tc_limit tc_timeout demo_copy fst snd scenario tc_g1 tc_g2 tc_th1 tc_th2].
  all: repeat (split; [first [reflexivity | eexists; split; [reflexivity|]; rewrite demo_named_dec; vm_compute; (split; [intros; (reflexivity || discriminate)|intros; (reflexivity || discriminate)])]|]).
  all: split; [first [motion_case "parking_basic_forward" 1%Z | motion_case "parking_basic_backward" (-1)%Z
    | motion_case "parking_no_preference" 0%Z | motion_case "parking_enforce_forward" 2%Z
    | motion_case "parking_enforce_backward" (-2)%Z]|].
  all: split; [eexists; split; reflexivity|].
  all: intros key K; cbn [tc_mbd demo_copy]; unfold put.
  all: try (destruct (String.eqb_spec key "enable_demo") as [->|_]; [exfalso; apply K; cbn; tauto|]).
  all: apply settings_default; exact K.
Qed.

Lemma known_cases : forall n, known n -> (exists b, In b kinematic_names /\ (n = b \/ n = with_demo b)) \/
  (exists b, In b acceleration_names /\ (n = b \/ n = with_demo b)).
Proof. intros n (b & H & E). rewrite in_app_iff in H. destruct H; [left|right]; exists b; tauto. Qed.

(** The listings: without and with demonstration, and the two vehicle models, each split the known scenarios;
    nothing is listed twice. *)
Lemma l_C60_listings :
  (forall n, In n list_available_scenarios <-> known n) /\
  (forall n, In n list_default_scenarios <-> known n /\ ~ demo_named n) /\
  (forall n, In n list_demo_scenarios <-> known n /\ demo_named n) /\
  (forall n, In n list_kinematic_scenarios <->
     exists c, get_test_config n = Ok c /\ tc_mbd c "env_name" = Some (VStr "tt2d")) /\
  (forall n, In n list_acceleration_scenarios <->
     exists c, get_test_config n = Ok c /\ tc_mbd c "env_name" = Some (VStr "acc_tt2d")) /\
  NoDup list_available_scenarios /\ NoDup list_default_scenarios /\ NoDup list_demo_scenarios /\
  NoDup list_kinematic_scenarios /\ NoDup list_acceleration_scenarios.
Proof.
  assert (ND : NoDup (keys all_scenarios)).
  { rewrite all_keys. vm_compute. repeat (apply NoDup_cons; [cbn; intuition discriminate|]). apply NoDup_nil. }
  split; [intros n; symmetry; apply known_keys|].
  split; [intros n; unfold list_default_scenarios; rewrite filter_In, <- known_keys, negb_true_iff, demo_named_dec;
          destruct (endswith n "_demo"); intuition congruence|].
  split; [intros n; unfold list_demo_scenarios; rewrite filter_In, <- known_keys, demo_named_dec; tauto|].
  assert (P : forall n c, get_test_config n = Ok c ->
    (startswith n "parking_" = true <-> tc_mbd c "env_name" = Some (VStr "tt2d")) /\
    (startswith n "acc_parking_" = true <-> tc_mbd c "env_name" = Some (VStr "acc_tt2d"))).
  { intros n c H. apply get_in in H. each_scenario H;
    (split; split; intros X; try reflexivity; exfalso; discriminate X). }
  assert (K : forall n, In n (keys all_scenarios) <-> exists c, get_test_config n = Ok c).
  { intros n. rewrite <- known_keys. apply (l_C60_lookup n). }
  split; [|split].
  - intros n. unfold list_kinematic_scenarios. rewrite filter_In, K. split.
    + intros [[c H] S]. exists c. split; [exact H|]. apply (P n c H). exact S.
    + intros (c & H & E). split; [exists c; exact H|]. apply (P n c H). exact E.
  - intros n. unfold list_acceleration_scenarios. rewrite filter_In, K. split.
    + intros [[c H] S]. exists c. split; [exact H|]. apply (P n c H). exact S.
    + intros (c & H & E). split; [exists c; exact H|]. apply (P n c H). exact E.
  - repeat split; try apply NoDup_filter; exact ND.
Qed.

(** The pairs for comparison: every scenario without demonstration with its demonstration variant, whose
    configuration is the same but for the demonstration flag and the texts. *)
Lemma l_C60_pairs :
  (forall a b, In (a, b) get_scenario_pairs <-> known a /\ ~ demo_named a /\ b = with_demo a) /\
  (forall a b, In (a, b) get_scenario_pairs -> exists c d, get_test_config a = Ok c /\ get_test_config b = Ok d /\
     demo_variant_of c d).
Proof.
  assert (A : forall a b, In (a, b) get_scenario_pairs <-> In a (kinematic_names ++ acceleration_names) /\ b = with_demo a).
  { intros a b. unfold get_scenario_pairs. rewrite <- map_app. rewrite in_map_iff.
    change (keys kinematic_scenarios ++ keys acc_scenarios) with (kinematic_names ++ acceleration_names). split.
    - intros (n & E & H). injection E as <- <-. split; [exact H|reflexivity].
    - intros (H & ->). exists a. split; [reflexivity|exact H]. }
  assert (N : forall a, In a (kinematic_names ++ acceleration_names) -> ~ demo_named a).
  { intros a H. rewrite demo_named_dec. cbn in H. repeat destruct H as [<-|H]; try discriminate. destruct H. }
  split.
  - intros a b. rewrite A. split.
    + intros [H ->]. split; [exists a; tauto|]. split; [apply N; exact H|reflexivity].
    + intros ((c & H & [->| ->]) & D & ->); [tauto|]. exfalso. apply D. exists c. reflexivity.
  - intros a b H. apply A in H. destruct H as [H ->]. cbn in H.
    repeat destruct H as [<-|H]; try (destruct H); eexists _, _;
      (split; [reflexivity|]; split; [reflexivity|]; unfold demo_variant_of; repeat split; reflexivity).
Qed.

(** A kinematic scenario, named with or without the suffix, can be had with or without demonstration: the
    result is the predefined configuration. *)
Lemma l_C60_demo_override :
  forall n, In n kinematic_names ->
  create_demo_variant n false = get_test_config n /\ create_demo_variant n true = get_test_config (with_demo n) /\
  create_demo_variant (with_demo n) false = get_test_config n /\
  create_demo_variant (with_demo n) true = get_test_config (with_demo n).
Proof.
  intros n H. cbn in H. repeat destruct H as [<-|H]; try (destruct H); repeat split; reflexivity.
Qed.
(** C60 (finding): no acceleration scenario can be had this way; every one of them raises KeyError. *)
Lemma l_C60_acceleration_override_refuted :
  forall n, In n acceleration_names -> forall b,
  (exists c, get_test_config n = Ok c) /\ create_demo_variant n b = Err KeyError /\
  create_demo_variant (with_demo n) b = Err KeyError.
Proof.
  intros n H b. cbn in H. repeat destruct H as [<-|H]; try (destruct H);
    (split; [eexists; reflexivity|split; reflexivity]).
Qed.
(** Whatever string is given, the override function yields a predefined kinematic scenario or KeyError. *)
Lemma l_C60_override_result :
  forall s b, create_demo_variant s b = Err KeyError \/
  exists n, In n kinematic_names /\ create_demo_variant s b = get_test_config (if b then with_demo n else n).
Proof.
  intros s b. unfold create_demo_variant. destruct (dget kinematic_scenarios (remove_demo s)) as [c|] eqn:E; [|left; reflexivity].
  right. exists (remove_demo s). pose proof (in_map fst _ _ (dget_in _ _ _ E)) as I. cbn [fst] in I.
  change (map fst kinematic_scenarios) with kinematic_names in I. split; [exact I|].
  remember (remove_demo s) as n. clear Heqn. cbn in I.
  repeat destruct I as [<-|I]; try (destruct I); destruct b; cbn in E; injection E as <-; reflexivity.
Qed.

(** ** C61: the runner *)
Lemma run_suite_memoryless : forall {W} ok (w : W) l,
  snd (run_suite (memoryless ok) w l) = forallb (fun b => snd (run_body (memoryless ok) w b)) l /\
  fst (run_suite (memoryless ok) w l) = w.
Proof.
  assert (B : forall W ok (w : W) b, fst (run_body (memoryless ok) w b) = w).
  { intros W ok w [n| |]; cbn; try reflexivity.
    - unfold run_scenario_test. destruct (get_test_config n); reflexivity.
    - unfold run_scenario_test. destruct (ok _); reflexivity. }
  intros W ok w. induction l as [|b l IH]; [split; reflexivity|]. cbn [run_suite forallb].
  pose proof (B W ok w b) as Bw. destruct (run_body (memoryless ok) w b) as [w1 o]. cbn [fst] in Bw. subst w1.
  destruct (run_suite (memoryless ok) w l) as [w2 oks]. cbn [fst snd] in *. destruct IH as [-> ->]. split; reflexivity.
Qed.
Lemma scenario_body_passes : forall {W} ok (w : W) n, snd (run_body (memoryless ok) w (Scenario n)) = true <-> passes ok n.
Proof.
  intros W ok w n. unfold run_body, run_scenario_test, passes. destruct (get_test_config n) as [c|e]; cbn.
  - split; [intros H; exists c; split; [reflexivity|exact H]|intros (c' & E & H); injection E as <-; exact H].
  - split; [discriminate|intros (c & E & _); discriminate].
Qed.
Lemma suite_passes : forall {W} ok (w : W) names,
  (forall n, In n names -> dget methods ("test_" ++ n) = Some (Scenario n)) ->
  (snd (run_suite (memoryless ok) w (suite_of (map (fun n => "test_" ++ n)%string names))) = true <->
   forall n, In n names -> passes ok n).
Proof.
  intros W ok w names H. rewrite (proj1 (run_suite_memoryless ok w _)).
  assert (E : suite_of (map (fun n => "test_" ++ n)%string names) = map Scenario names).
  { clear ok w. induction names as [|n l IH]; [reflexivity|]. cbn [map suite_of].
    rewrite (H n) by (left; reflexivity). f_equal. apply IH. intros m Hm. apply H. right. exact Hm. }
  rewrite E, forallb_forall. split.
  - intros F n Hn. apply (scenario_body_passes ok w). apply F. apply in_map. exact Hn.
  - intros F b Hb. apply in_map_iff in Hb. destruct Hb as (n & <- & Hn). apply scenario_body_passes. apply F. exact Hn.
Qed.
Ltac listed := let n := fresh in let H := fresh in intros n H; vm_compute in H; repeat destruct H as [<-|H]; try (destruct H); reflexivity.
Lemma code_zero : forall b : bool, (if b then 0%Z else 1%Z) = 0%Z <-> b = true.
Proof. intros [|]; split; congruence. Qed.

(** The exit code of run_tests.py is 0 exactly when all scenarios of the chosen group pass: without arguments and
    with --kinematic the kinematic ones without demonstration, with --acc the acceleration ones without
    demonstration, with --demo all demonstration variants, with --compare the scenario and its variant. *)
Lemma l_C61_exit_code :
  forall (W : Type) (w : W) (ok : test_config -> bool),
  (main (memoryless ok) w Kinematic = 0%Z <-> forall n, In n kinematic_names -> passes ok n) /\
  (main (memoryless ok) w NoAction = 0%Z <-> forall n, In n kinematic_names -> passes ok n) /\
  (main (memoryless ok) w AccOnly = 0%Z <-> forall n, In n acceleration_names -> passes ok n) /\
  (main (memoryless ok) w Demo = 0%Z <->
     forall n, In n (kinematic_names ++ acceleration_names) -> passes ok (with_demo n)) /\
  (forall n, In n (kinematic_names ++ acceleration_names) ->
     (main (memoryless ok) w (Compare n) = 0%Z <-> passes ok n /\ passes ok (with_demo n)) /\
     (main (memoryless ok) w (Single ("test_" ++ n)) = 0%Z <-> passes ok n)).
Proof.
  intros W w ok. unfold main.
  assert (K : (if snd (run_suite (memoryless ok) w (suite_of (map (fun n => "test_" ++ n)%string (no_demo list_kinematic_scenarios))))
     then 0%Z else 1%Z) = 0%Z <-> forall n, In n kinematic_names -> passes ok n).
  { rewrite code_zero, suite_passes by listed. change (no_demo list_kinematic_scenarios) with kinematic_names. reflexivity. }
  split; [exact K|]. split; [exact K|]. clear K. split; [|split].
  - rewrite code_zero, suite_passes by listed. change (no_demo list_acceleration_scenarios) with acceleration_names. reflexivity.
  - rewrite code_zero, suite_passes by listed.
    change list_demo_scenarios with (map with_demo (kinematic_names ++ acceleration_names)). split.
    + intros F n Hn. apply F. apply in_map. exact Hn.
    + intros F n Hn. apply in_map_iff in Hn. destruct Hn as (m & <- & Hm). apply F. exact Hm.
  - intros n Hn. rewrite !code_zero. split.
    + change [("test_" ++ n)%string; ("test_" ++ n ++ "_demo")%string]
        with (map (fun n => "test_" ++ n)%string [n; with_demo n]).
      rewrite suite_passes.
      * cbn [In]. split; [intros F; split; apply F; tauto|intros [A B] m [<-|[<-|[]]]; assumption].
      * intros m Hm. cbn in Hn. repeat destruct Hn as [<-|Hn]; try (destruct Hn); destruct Hm as [<-|[<-|[]]]; reflexivity.
    + assert (E : dget methods ("test_" ++ n) = Some (Scenario n))
        by (cbn in Hn; repeat destruct Hn as [<-|Hn]; try (destruct Hn); reflexivity).
      rewrite E, code_zero, (proj1 (run_suite_memoryless ok w _)). cbn [forallb]. rewrite andb_true_r.
      apply scenario_body_passes.
Qed.

Lemma run_suite_all : forall {W} (run : W -> test_config -> W * bool) l w, snd (run_suite run w l) = true ->
  forall b, In b l -> exists w', snd (run_body run w' b) = true.
Proof.
  intros W run. induction l as [|a l IH]; intros w H b Hb; [destruct Hb|]. cbn [run_suite] in H.
  destruct (run_body run w a) as [w1 o] eqn:E. destruct (run_suite run w1 l) as [w2 oks] eqn:E2. cbn [snd] in H.
  apply andb_true_iff in H. destruct H as [-> ->]. destruct Hb as [<-|Hb].
  - exists w. rewrite E. reflexivity.
  - apply (IH w1); [rewrite E2; reflexivity|exact Hb].
Qed.
Lemma suite_of_in : forall names n b, In n names -> dget methods n = Some b -> In b (suite_of names).
Proof.
  induction names as [|m l IH]; intros n b Hn E; [destruct Hn|]. cbn [suite_of]. destruct Hn as [->|Hn].
  - rewrite E. left. reflexivity.
  - destruct (dget methods m); [right|]; eapply IH; eauto.
Qed.
(** Whatever the runs do to the process and in whatever way their outcomes depend on it: exit code 0 means that
    the test of every scenario of the group was run and returned. *)
Lemma l_C61_success_is_earned :
  forall (W : Type) (run : W -> test_config -> W * bool) (w : W),
  let ran n := exists c w', get_test_config n = Ok c /\ snd (run w' c) = true in
  (main run w Kinematic = 0%Z -> forall n, In n kinematic_names -> ran n) /\
  (main run w NoAction = 0%Z -> forall n, In n kinematic_names -> ran n) /\
  (main run w AccOnly = 0%Z -> forall n, In n acceleration_names -> ran n) /\
  (main run w Demo = 0%Z -> forall n, In n (kinematic_names ++ acceleration_names) -> ran (with_demo n)).
Proof.
  intros W run w ran.
  assert (R : forall l n, snd (run_suite run w (suite_of (map (fun n => "test_" ++ n)%string l))) = true -> In n l ->
    dget methods ("test_" ++ n) = Some (Scenario n) -> ran n).
  { intros l n H Hn E. destruct (run_suite_all run _ w H (Scenario n)) as [w' Hb].
    - eapply suite_of_in; [|exact E]. apply (in_map (fun n => "test_" ++ n)%string). exact Hn.
    - unfold run_body, run_scenario_test in Hb. unfold ran. destruct (get_test_config n) as [c|]; [|discriminate].
      exists c, w'. split; [reflexivity|exact Hb]. }
  unfold main. repeat split; rewrite code_zero; intros H n Hn.
  - apply (R _ n H); [exact Hn|]. cbn in Hn. repeat destruct Hn as [<-|Hn]; try (destruct Hn); reflexivity.
  - apply (R _ n H); [exact Hn|]. cbn in Hn. repeat destruct Hn as [<-|Hn]; try (destruct Hn); reflexivity.
  - apply (R _ n H); [exact Hn|]. cbn in Hn. repeat destruct Hn as [<-|Hn]; try (destruct Hn); reflexivity.
  - apply (R _ (with_demo n) H).
    + change list_demo_scenarios with (map with_demo (kinematic_names ++ acceleration_names)). apply in_map. exact Hn.
    + cbn in Hn. repeat destruct Hn as [<-|Hn]; try (destruct Hn); reflexivity.
Qed.

(** C61 (finding): run_tests.py --all exits with 1 however well the planner does: test_scenario_list_functions
    expects 10 scenarios of each sort and four test methods name scenarios that are commented out. *)
Lemma l_C61_all_can_pass_refuted :
  (forall (W : Type) (run : W -> test_config -> W * bool) (w : W), main run w All = 1%Z) /\
  length list_default_scenarios = 8%nat /\ length list_demo_scenarios = 8%nat /\
  length list_kinematic_scenarios = 10%nat /\ length list_acceleration_scenarios = 6%nat /\
  (forall (W : Type) (run : W -> test_config -> W * bool) (w : W) n,
     In n ["acc_parking_enforce_forward"; "acc_parking_enforce_backward"] ->
     ~ known n /\ ~ known (with_demo n) /\
     main run w (Single ("test_" ++ n)) = 1%Z /\ main run w (Single ("test_" ++ with_demo n)) = 1%Z).
Proof.
  split; [|repeat split; try reflexivity].
  - intros W run w. unfold main. destruct (snd (run_suite run w (suite_of sorted_methods))) eqn:E; [|reflexivity]. exfalso.
    destruct (run_suite_all run _ w E ListFunctions) as [w' H].
    + apply (suite_of_in _ "test_scenario_list_functions"); [|reflexivity]. vm_compute. tauto.
    + discriminate H.
  - intros K. apply known_keys in K. cbn in H. destruct H as [<-|[<-|[]]]; vm_compute in K; intuition discriminate.
  - intros K. apply known_keys in K. cbn in H. destruct H as [<-|[<-|[]]]; vm_compute in K; intuition discriminate.
  - cbn in H. destruct H as [<-|[<-|[]]]; reflexivity.
  - cbn in H. destruct H as [<-|[<-|[]]]; reflexivity.
Qed.
(** C61 (finding): --compare with a name that has no test methods runs nothing and exits with 0. *)
Lemma l_C61_unknown_comparison_refuted :
  forall (W : Type) (run : W -> test_config -> W * bool) (w : W) n,
  ~ In ("test_" ++ n)%string (map fst methods) -> ~ In ("test_" ++ with_demo n)%string (map fst methods) ->
  main run w (Compare n) = 0%Z.
Proof.
  intros W run w n H1 H2. unfold main. cbn [suite_of].
  rewrite (proj2 (dget_none methods _) H1). unfold with_demo in H2. rewrite (proj2 (dget_none methods _) H2). reflexivity.
Qed.
(** An unknown method given to --single is an error. *)
Lemma l_C61_unknown_single :
  forall (W : Type) (run : W -> test_config -> W * bool) (w : W) n,
  ~ In n (map fst methods) -> main run w (Single n) = 1%Z.
Proof. intros W run w n H. unfold main. rewrite (proj2 (dget_none methods _) H). reflexivity. Qed.

(** The two tests of the runner that are not scenarios: the override test passes exactly when the basic forward scenario passes
    with the demonstration switched on and switched off, and the test of the scenario lists never passes (finding above). *)
Lemma l_C61_other_tests :
  forall (W : Type) (run : W -> test_config -> W * bool) (w : W) (ok : test_config -> bool),
  (main (memoryless ok) w (Single "test_demo_flag_override") = 0%Z <->
     passes ok "parking_basic_forward_demo" /\ passes ok "parking_basic_forward") /\
  main run w (Single "test_scenario_list_functions") = 1%Z.
Proof.
  intros W run w ok. split; [|reflexivity].
  assert (E1 : create_demo_variant "parking_basic_forward" true = get_test_config "parking_basic_forward_demo") by reflexivity.
  assert (E2 : create_demo_variant "parking_basic_forward" false = get_test_config "parking_basic_forward") by reflexivity.
  unfold passes. rewrite <- E1, <- E2.
  destruct (create_demo_variant "parking_basic_forward" true) as [c1|x1] eqn:F1; [|discriminate].
  destruct (create_demo_variant "parking_basic_forward" false) as [c2|x2] eqn:F2; [|discriminate].
  assert (M : main (memoryless ok) w (Single "test_demo_flag_override") = if ok c1 && ok c2 then 0%Z else 1%Z).
  { unfold main. change (dget methods "test_demo_flag_override") with (Some DemoOverride). cbn [run_suite run_body].
    unfold run_scenario_test. change (remove_demo "parking_basic_forward") with "parking_basic_forward". rewrite F1, F2.
    unfold memoryless. destruct (ok c1), (ok c2); reflexivity. }
  rewrite M. split.
  - intros H. destruct (ok c1) eqn:A, (ok c2) eqn:B; try discriminate H. split; [exists c1|exists c2]; auto.
  - intros [(d1 & D1 & A) (d2 & D2 & B)]. injection D1 as <-. injection D2 as <-. rewrite A, B. reflexivity.
Qed.
(** run_tests.py --all runs every scenario that exists in the alphabetical order of the test methods, one after the other, whatever
    the earlier ones returned; the override test stands where its name puts it and stops after a failure of its first half. *)
Lemma l_C61_all_order : forall ok : string -> bool,
  fst (run_suite (recording ok) [] (suite_of sorted_methods)) =
    ["acc_parking_basic_backward"; "acc_parking_basic_backward_demo"; "acc_parking_basic_forward"; "acc_parking_basic_forward_demo";
     "acc_parking_no_preference"; "acc_parking_no_preference_demo"] ++
    (if ok "parking_basic_forward_demo" then ["parking_basic_forward_demo"; "parking_basic_forward"] else ["parking_basic_forward_demo"]) ++
    ["parking_basic_backward"; "parking_basic_backward_demo"; "parking_basic_forward"; "parking_basic_forward_demo";
     "parking_enforce_backward"; "parking_enforce_backward_demo"; "parking_enforce_forward"; "parking_enforce_forward_demo";
     "parking_no_preference"; "parking_no_preference_demo"].
Proof.
  intros ok. set (R := fun l => run_suite (recording ok) l).
  assert (ST : forall n, (exists c, get_test_config n = Ok c /\ tc_name c = n) -> forall l rest,
    fst (R l (Scenario n :: rest)) = fst (R (l ++ [n])%list rest)).
  { intros n (c & E & N) l rest. unfold R. cbn [run_suite run_body]. unfold run_scenario_test. rewrite E.
    unfold recording at 1. rewrite N. destruct (run_suite (recording ok) (l ++ [n])%list rest). reflexivity. }
  assert (NO : forall n x, get_test_config n = Err x -> forall l rest, fst (R l (Scenario n :: rest)) = fst (R l rest)).
  { intros n x E l rest. unfold R. cbn [run_suite run_body]. unfold run_scenario_test. rewrite E.
    destruct (run_suite (recording ok) l rest). reflexivity. }
  assert (LF : forall l rest, fst (R l (ListFunctions :: rest)) = fst (R l rest)).
  { intros l rest. unfold R. cbn [run_suite run_body]. destruct (run_suite (recording ok) l rest). reflexivity. }
  assert (DO : forall l rest, fst (R l (DemoOverride :: rest)) = fst (R (l ++ (if ok "parking_basic_forward_demo"
      then ["parking_basic_forward_demo"; "parking_basic_forward"] else ["parking_basic_forward_demo"]))%list rest)).
  { intros l rest. unfold R. cbn [run_suite run_body].
    change (run_scenario_test (recording ok) l "parking_basic_forward" (Some true))
      with ((l ++ ["parking_basic_forward_demo"])%list, ok "parking_basic_forward_demo").
    cbv iota beta. destruct (ok "parking_basic_forward_demo").
    - change (run_scenario_test (recording ok) (l ++ ["parking_basic_forward_demo"])%list "parking_basic_forward" (Some false))
        with (((l ++ ["parking_basic_forward_demo"]) ++ ["parking_basic_forward"])%list, ok "parking_basic_forward").
      rewrite <- app_assoc. cbn [app]. destruct (run_suite (recording ok) _ rest). reflexivity.
    - destruct (run_suite (recording ok) _ rest). reflexivity. }
  assert (S : suite_of sorted_methods =
    map Scenario ["acc_parking_basic_backward"; "acc_parking_basic_backward_demo"; "acc_parking_basic_forward";
      "acc_parking_basic_forward_demo"; "acc_parking_enforce_backward"; "acc_parking_enforce_backward_demo";
      "acc_parking_enforce_forward"; "acc_parking_enforce_forward_demo"; "acc_parking_no_preference"; "acc_parking_no_preference_demo"] ++
    DemoOverride ::
    map Scenario ["parking_basic_backward"; "parking_basic_backward_demo"; "parking_basic_forward"; "parking_basic_forward_demo";
      "parking_enforce_backward"; "parking_enforce_backward_demo"; "parking_enforce_forward"; "parking_enforce_forward_demo";
      "parking_no_preference"; "parking_no_preference_demo"] ++ [ListFunctions]) by (vm_compute; reflexivity).
  rewrite S. change (run_suite (recording ok) ?l ?m) with (R l m). cbn [map app].
  repeat (first [ rewrite DO | rewrite LF
    | rewrite ST by (eexists; split; reflexivity)
    | erewrite NO by reflexivity ]).
  unfold R. cbn [run_suite fst]. cbn [app]. rewrite <- !app_assoc. reflexivity.
Qed.

(** Both outcomes occur: with tests that accept everything the kinematic group passes; if the strict forward
    scenario fails, it does not, while the acceleration group still does. *)
Lemma x_C61_both_outcomes :
  main (memoryless (fun _ => true)) tt Kinematic = 0%Z /\
  main (memoryless (fun c => negb (String.eqb (tc_name c) "parking_enforce_forward"))) tt Kinematic = 1%Z /\
  main (memoryless (fun c => negb (String.eqb (tc_name c) "parking_enforce_forward"))) tt AccOnly = 0%Z /\
  main (memoryless (fun _ => false)) tt (Compare "parking_forward") = 0%Z.
Proof. repeat split; reflexivity. Qed.
(** Two look-ups. *)
Lemma x_C60_lookups :
  known "acc_parking_no_preference_demo" /\ ~ known "parking_forward" /\
  (exists c, get_test_config "parking_enforce_backward_demo" = Ok c /\ flag (tc_mbd c) "enable_demo" = true /\
     int (tc_mbd c) "motion_preference" = (-2)%Z /\ tc_dx c = Some (-12)) /\
  create_demo_variant "parking_demo_no_preference_demo" true = get_test_config "parking_no_preference_demo".
Proof.
  split; [exists "acc_parking_no_preference"; cbn; tauto|]. split.
  - intros K. apply known_keys in K. vm_compute in K. intuition discriminate.
  - split; [eexists; repeat split; reflexivity|reflexivity].
Qed.

(** ** Custom configurations *)
Lemma attribute_dec : forall key, existsb (String.eqb key) (map (fun f => fst (fst f)) dataclass_fields) = true <-> attribute key.
Proof.
  intros key. rewrite existsb_exists. unfold attribute. split.
  - intros (k & H & E). apply String.eqb_eq in E. subst k. apply in_map_iff in H. destruct H as ([[k t] v] & E & H). cbn in E. subst k. eauto.
  - intros (t & v & H). exists key. split; [apply in_map_iff; exists (key, t, v); auto|apply String.eqb_refl].
Qed.
Lemma or_old_assoc : forall {A} (a b : option A) c, or_old (match a with Some v => Some v | None => b end) c = or_old a (or_old b c).
Proof. intros A [a|] b c; reflexivity. Qed.
Lemma apply_spec : forall l c, 
  (Forall valid_override l -> exists c', apply_overrides c l = Ok c' /\
    (forall key, tc_mbd c' key = or_old (option_map Some (last_given (gives key) l)) (tc_mbd c key)) /\
    tc_circ c' = or_old (option_map Some (last_given gives_circles l)) (tc_circ c) /\
    tc_rect c' = or_old (option_map Some (last_given gives_rects l)) (tc_rect c) /\
    tc_parking c' = or_old (option_map Some (last_given gives_lot l)) (tc_parking c) /\
    tc_timeout c' = or_old (last_given gives_timeout l) (tc_timeout c) /\
    tc_name c' = tc_name c /\ tc_min c' = tc_min c /\ tc_max c' = tc_max c /\ tc_limit c' = tc_limit c /\
    (tc_dx c', tc_dy c', tc_th1 c', tc_th2 c') = or_old (last_given gives_start l) (tc_dx c, tc_dy c, tc_th1 c, tc_th2 c) /\
    tc_g1 c' = tc_g1 c /\ tc_g2 c' = tc_g2 c) /\
  (~ Forall valid_override l -> apply_overrides c l = Err ValueError).
Proof.
  induction l as [|o l IH]; intros c.
  - split; [intros _|intros H; exfalso; apply H; constructor]. exists c. cbn. repeat split.
  - assert (S : (valid_override o -> exists c1, apply_override c o = Ok c1 /\
      (forall key, tc_mbd c1 key = or_old (option_map Some (gives key o)) (tc_mbd c key)) /\
      tc_circ c1 = or_old (option_map Some (gives_circles o)) (tc_circ c) /\
      tc_rect c1 = or_old (option_map Some (gives_rects o)) (tc_rect c) /\
      tc_parking c1 = or_old (option_map Some (gives_lot o)) (tc_parking c) /\
      tc_timeout c1 = or_old (gives_timeout o) (tc_timeout c) /\
      tc_name c1 = tc_name c /\ tc_min c1 = tc_min c /\ tc_max c1 = tc_max c /\ tc_limit c1 = tc_limit c /\
      (tc_dx c1, tc_dy c1, tc_th1 c1, tc_th2 c1) = or_old (gives_start o) (tc_dx c, tc_dy c, tc_th1 c, tc_th2 c) /\
      tc_g1 c1 = tc_g1 c /\ tc_g2 c1 = tc_g2 c) /\ (~ valid_override o -> apply_override c o = Err ValueError)).
    { destruct o as [key v|b|t|cs|rs|lot|dx dy th1 th2]; cbn [valid_override apply_override]; try (split; [intros _; eexists; split; [reflexivity|]; repeat split|tauto]).
      rewrite <- attribute_dec. destruct (existsb _ _); split; try (intros; congruence). intros _. eexists. split; [reflexivity|].
      split; [|repeat split]. intros k. cbn [tc_mbd gives]. unfold put. rewrite (String.eqb_sym k key). destruct (String.eqb key k); reflexivity. }
    destruct S as [S1 S2]. split.
    + intros H. inversion H as [|? ? H1 H2]; subst. destruct (S1 H1) as (c1 & E & A1 & A2 & A3 & A4 & A5 & A6 & A7 & A8 & A9 & A10 & A11 & A12).
      destruct (proj1 (IH c1) H2) as (c' & E' & B1 & B2 & B3 & B4 & B5 & B6 & B7 & B8 & B9 & B10 & B11 & B12).
      exists c'. cbn [apply_overrides last_given]. rewrite E. split; [exact E'|].
      split; [intros key; rewrite B1, A1; destruct (last_given (gives key) l); reflexivity|].
      split; [rewrite B2, A2; destruct (last_given gives_circles l); reflexivity|].
      split; [rewrite B3, A3; destruct (last_given gives_rects l); reflexivity|].
      split; [rewrite B4, A4; destruct (last_given gives_lot l); reflexivity|].
      split; [rewrite B5, A5; destruct (last_given gives_timeout l); reflexivity|].
      do 4 (split; [congruence|]). split; [rewrite B10, A10; destruct (last_given gives_start l); reflexivity|]. split; congruence.
    + intros H. cbn [apply_overrides]. destruct (apply_override c o) as [c1|e] eqn:E.
      * assert (V : valid_override o).
        { destruct o as [key v|b|t|cs|rs|lot|dx dy th1 th2]; try exact I. cbn [valid_override]. apply attribute_dec. cbn [apply_override] in E.
          destruct (existsb _ _); [reflexivity|discriminate]. }
        apply (proj2 (IH c1)). intros K. apply H. constructor; assumption.
      * destruct o as [key v|b|t|cs|rs|lot|dx dy th1 th2]; try discriminate. cbn [apply_override] in E. destruct (existsb _ _); [discriminate|]. congruence.
Qed.

(** A custom configuration takes each overridden setting from the last override that gives it and everything else
    from the base scenario; an unknown base scenario raises KeyError, and an unknown setting ValueError. *)
Lemma l_C60_custom :
  forall base l,
  (~ known base -> create_custom_test_config base l = Err KeyError) /\
  (known base -> ~ Forall valid_override l -> create_custom_test_config base l = Err ValueError) /\
  (forall c, get_test_config base = Ok c -> Forall valid_override l -> exists c', create_custom_test_config base l = Ok c' /\
    (forall key, tc_mbd c' key = or_old (option_map Some (last_given (gives key) l)) (tc_mbd c key)) /\
    tc_circ c' = or_old (option_map Some (last_given gives_circles l)) (tc_circ c) /\
    tc_rect c' = or_old (option_map Some (last_given gives_rects l)) (tc_rect c) /\
    tc_parking c' = or_old (option_map Some (last_given gives_lot l)) (tc_parking c) /\
    tc_timeout c' = or_old (last_given gives_timeout l) (tc_timeout c) /\
    tc_name c' = tc_name c /\ tc_min c' = tc_min c /\ tc_max c' = tc_max c /\ tc_limit c' = tc_limit c /\
    (tc_dx c', tc_dy c', tc_th1 c', tc_th2 c') = or_old (last_given gives_start l) (tc_dx c, tc_dy c, tc_th1 c, tc_th2 c) /\
    tc_g1 c' = tc_g1 c /\ tc_g2 c' = tc_g2 c).
Proof.
  intros base l. unfold create_custom_test_config. destruct (l_C60_lookup base) as [H1 H2]. split; [|split].
  - intros K. apply H2 in K. rewrite K. reflexivity.
  - intros K N. apply H1 in K. destruct K as [c E]. rewrite E. apply (proj2 (apply_spec l c)). exact N.
  - intros c E V. rewrite E. apply (proj1 (apply_spec l c)). exact V.
Qed.

(** C60 (finding): the README's way of watching a custom test, visualize=True, changes nothing: rendering stays off. *)
Lemma l_C60_custom_visualize_refuted :
  exists c, create_custom_test_config "parking_basic_forward" [OVisualize true] = Ok c /\ tc_visualize c = true /\
    tc_mbd c "render" = Some (VBool false) /\ tc_mbd c "show_animation" = Some (VBool false).
Proof. eexists. repeat split. Qed.
(** C60: a concrete custom configuration. *)
Lemma x_C60_custom_example :
  exists c, create_custom_test_config "parking_basic_forward" [OAttr "Hsample" (VInt 40); OLot tight_parking; OAttr "Hsample" (VInt 30)] = Ok c /\
    tc_mbd c "Hsample" = Some (VInt 30) /\ tc_mbd c "Nsample" = Some (VInt 20000) /\ tc_parking c = Some tight_parking.
Proof.
  destruct (l_C60_lookup "parking_basic_forward") as [[K _] _]. destruct K as [c0 E0].
  { exists "parking_basic_forward". split; [left; reflexivity|left; reflexivity]. }
  set (l := [OAttr "Hsample" (VInt 40); OLot tight_parking; OAttr "Hsample" (VInt 30)]).
  assert (A : attribute "Hsample") by (exists TInt, (VInt 50); cbn; tauto).
  destruct (proj2 (proj2 (l_C60_custom "parking_basic_forward" l)) c0 E0) as (c & E & M & _ & _ & P & _).
  { repeat constructor; exact A. }
  exists c. split; [exact E|]. rewrite !M, P. split; [reflexivity|]. split; [|reflexivity].
  change (last_given (gives "Nsample") l) with (@None val). cbn [option_map or_old].
  destruct (l_C60_configuration "parking_basic_forward" c0 E0) as (_ & _ & _ & _ & _ & _ & _ & _ & _ & D). rewrite D; [reflexivity|].
  intros H. cbn in H. repeat (destruct H as [H|H]; [discriminate|]). exact H.
Qed.
