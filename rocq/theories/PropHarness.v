(** * Property theorems (generated from ProofsHarness.v by tools/genprops.py; statements only,
    each closed by [exact]). *)
From Coq Require Import String.
From Verif Require Import Base Params Config EnvModel Setup Tune Harness SpecHarness.
From Verif Require Import ProofsHarness.
Local Open Scope string_scope.
Local Open Scope list_scope.
Open Scope R_scope.

(** Exactly the base scenarios and their demonstration variants are known; any other name raises KeyError. *)
Theorem C60_lookup :
  forall n, (known n <-> exists c, get_test_config n = Ok c) /\ (~ known n <-> get_test_config n = Err KeyError).
Proof. exact l_C60_lookup. Qed.
Print Assumptions C60_lookup.

(** The configuration of a scenario: it carries its own name, passes within 4 m of the goal, allows 300 s, uses
    seed 0, has demonstrations on exactly if its name says so, prefers the direction its name says, and aims
    nose-in (-90 degrees) unless it prefers reversing (+90 degrees); the vehicle is the kinematic one unless the
    name starts with acc_; every other setting is the default of MBDConfig. *)
Theorem C60_configuration :
  forall n c, get_test_config n = Ok c ->
  tc_name c = n /\ tc_min c = 0 /\ tc_max c = 4 /\ tc_limit c = 4 /\ tc_timeout c = 300 /\
  tc_mbd c "seed" = Some (VInt 0) /\
  (exists d, tc_mbd c "enable_demo" = Some (VBool d) /\ (d = true <-> demo_named n)) /\
  (exists b m (acc : bool), In (b, m) named_motion /\
     n = ((if acc then "acc_" else "") ++ (if endswith n "_demo" then with_demo b else b))%string /\
     tc_mbd c "env_name" = Some (VStr (if acc then "acc_tt2d" else "tt2d")) /\
     tc_mbd c "motion_preference" = Some (VInt m) /\
     (tc_g1 c = Some (if Z.ltb m 0 then PI / 2 else - PI / 2) /\ tc_g2 c = tc_g1 c)) /\
  (exists th, tc_th1 c = Some th /\ tc_th2 c = Some th) /\
  (forall key, ~ In key scenario_settings -> tc_mbd c key = lookup (map (fun f => (fst (fst f), snd f)) dataclass_fields) key).
Proof. exact l_C60_configuration. Qed.
Print Assumptions C60_configuration.

(** The listings: without and with demonstration, and the two vehicle models, each split the known scenarios;
    nothing is listed twice. *)
Theorem C60_listings :
  (forall n, In n list_available_scenarios <-> known n) /\
  (forall n, In n list_default_scenarios <-> known n /\ ~ demo_named n) /\
  (forall n, In n list_demo_scenarios <-> known n /\ demo_named n) /\
  (forall n, In n list_kinematic_scenarios <->
     exists c, get_test_config n = Ok c /\ tc_mbd c "env_name" = Some (VStr "tt2d")) /\
  (forall n, In n list_acceleration_scenarios <->
     exists c, get_test_config n = Ok c /\ tc_mbd c "env_name" = Some (VStr "acc_tt2d")) /\
  NoDup list_available_scenarios /\ NoDup list_default_scenarios /\ NoDup list_demo_scenarios /\
  NoDup list_kinematic_scenarios /\ NoDup list_acceleration_scenarios.
Proof. exact l_C60_listings. Qed.
Print Assumptions C60_listings.

(** The pairs for comparison: every scenario without demonstration with its demonstration variant, whose
    configuration is the same but for the demonstration flag and the texts. *)
Theorem C60_pairs :
  (forall a b, In (a, b) get_scenario_pairs <-> known a /\ ~ demo_named a /\ b = with_demo a) /\
  (forall a b, In (a, b) get_scenario_pairs -> exists c d, get_test_config a = Ok c /\ get_test_config b = Ok d /\
     demo_variant_of c d).
Proof. exact l_C60_pairs. Qed.
Print Assumptions C60_pairs.

(** A kinematic scenario, named with or without the suffix, can be had with or without demonstration: the
    result is the predefined configuration. *)
Theorem C60_demo_override :
  forall n, In n kinematic_names ->
  create_demo_variant n false = get_test_config n /\ create_demo_variant n true = get_test_config (with_demo n) /\
  create_demo_variant (with_demo n) false = get_test_config n /\
  create_demo_variant (with_demo n) true = get_test_config (with_demo n).
Proof. exact l_C60_demo_override. Qed.
Print Assumptions C60_demo_override.

(** C60 (finding): no acceleration scenario can be had this way; every one of them raises KeyError. *)
Theorem C60_acceleration_override_refuted :
  forall n, In n acceleration_names -> forall b,
  (exists c, get_test_config n = Ok c) /\ create_demo_variant n b = Err KeyError /\
  create_demo_variant (with_demo n) b = Err KeyError.
Proof. exact l_C60_acceleration_override_refuted. Qed.
Print Assumptions C60_acceleration_override_refuted.

(** Whatever string is given, the override function yields a predefined kinematic scenario or KeyError. *)
Theorem C60_override_result :
  forall s b, create_demo_variant s b = Err KeyError \/
  exists n, In n kinematic_names /\ create_demo_variant s b = get_test_config (if b then with_demo n else n).
Proof. exact l_C60_override_result. Qed.
Print Assumptions C60_override_result.

(** The exit code of run_tests.py is 0 exactly when all scenarios of the chosen group pass: without arguments and
    with --kinematic the kinematic ones without demonstration, with --acc the acceleration ones without
    demonstration, with --demo all demonstration variants, with --compare the scenario and its variant. *)
Theorem C61_exit_code :
  forall (W : Type) (w : W) (ok : test_config -> bool),
  (main (memoryless ok) w Kinematic = 0%Z <-> forall n, In n kinematic_names -> passes ok n) /\
  (main (memoryless ok) w NoAction = 0%Z <-> forall n, In n kinematic_names -> passes ok n) /\
  (main (memoryless ok) w AccOnly = 0%Z <-> forall n, In n acceleration_names -> passes ok n) /\
  (main (memoryless ok) w Demo = 0%Z <->
     forall n, In n (kinematic_names ++ acceleration_names) -> passes ok (with_demo n)) /\
  (forall n, In n (kinematic_names ++ acceleration_names) ->
     (main (memoryless ok) w (Compare n) = 0%Z <-> passes ok n /\ passes ok (with_demo n)) /\
     (main (memoryless ok) w (Single ("test_" ++ n)) = 0%Z <-> passes ok n)).
Proof. exact l_C61_exit_code. Qed.
Print Assumptions C61_exit_code.

(** Whatever the runs do to the process and in whatever way their outcomes depend on it: exit code 0 means that
    the test of every scenario of the group was run and returned. *)
Theorem C61_success_is_earned :
  forall (W : Type) (run : W -> test_config -> W * bool) (w : W),
  let ran n := exists c w', get_test_config n = Ok c /\ snd (run w' c) = true in
  (main run w Kinematic = 0%Z -> forall n, In n kinematic_names -> ran n) /\
  (main run w NoAction = 0%Z -> forall n, In n kinematic_names -> ran n) /\
  (main run w AccOnly = 0%Z -> forall n, In n acceleration_names -> ran n) /\
  (main run w Demo = 0%Z -> forall n, In n (kinematic_names ++ acceleration_names) -> ran (with_demo n)).
Proof. exact l_C61_success_is_earned. Qed.
Print Assumptions C61_success_is_earned.

(** C61 (finding): run_tests.py --all exits with 1 however well the planner does: test_scenario_list_functions
    expects 10 scenarios of each sort and four test methods name scenarios that are commented out. *)
Theorem C61_all_can_pass_refuted :
  (forall (W : Type) (run : W -> test_config -> W * bool) (w : W), main run w All = 1%Z) /\
  length list_default_scenarios = 8%nat /\ length list_demo_scenarios = 8%nat /\
  length list_kinematic_scenarios = 10%nat /\ length list_acceleration_scenarios = 6%nat /\
  (forall (W : Type) (run : W -> test_config -> W * bool) (w : W) n,
     In n ["acc_parking_enforce_forward"; "acc_parking_enforce_backward"] ->
     ~ known n /\ ~ known (with_demo n) /\
     main run w (Single ("test_" ++ n)) = 1%Z /\ main run w (Single ("test_" ++ with_demo n)) = 1%Z).
Proof. exact l_C61_all_can_pass_refuted. Qed.
Print Assumptions C61_all_can_pass_refuted.

(** C61 (finding): --compare with a name that has no test methods runs nothing and exits with 0. *)
Theorem C61_unknown_comparison_refuted :
  forall (W : Type) (run : W -> test_config -> W * bool) (w : W) n,
  ~ In ("test_" ++ n)%string (map fst methods) -> ~ In ("test_" ++ with_demo n)%string (map fst methods) ->
  main run w (Compare n) = 0%Z.
Proof. exact l_C61_unknown_comparison_refuted. Qed.
Print Assumptions C61_unknown_comparison_refuted.

(** An unknown method given to --single is an error. *)
Theorem C61_unknown_single :
  forall (W : Type) (run : W -> test_config -> W * bool) (w : W) n,
  ~ In n (map fst methods) -> main run w (Single n) = 1%Z.
Proof. exact l_C61_unknown_single. Qed.
Print Assumptions C61_unknown_single.

(** The two tests of the runner that are not scenarios: the override test passes exactly when the basic forward scenario passes
    with the demonstration switched on and switched off, and the test of the scenario lists never passes (finding above). *)
Theorem C61_other_tests :
  forall (W : Type) (run : W -> test_config -> W * bool) (w : W) (ok : test_config -> bool),
  (main (memoryless ok) w (Single "test_demo_flag_override") = 0%Z <->
     passes ok "parking_basic_forward_demo" /\ passes ok "parking_basic_forward") /\
  main run w (Single "test_scenario_list_functions") = 1%Z.
Proof. exact l_C61_other_tests. Qed.
Print Assumptions C61_other_tests.

(** run_tests.py --all runs every scenario that exists in the alphabetical order of the test methods, one after the other, whatever
    the earlier ones returned; the override test stands where its name puts it and stops after a failure of its first half. *)
Theorem C61_all_order : forall ok : string -> bool,
  fst (run_suite (recording ok) [] (suite_of sorted_methods)) =
    ["acc_parking_basic_backward"; "acc_parking_basic_backward_demo"; "acc_parking_basic_forward"; "acc_parking_basic_forward_demo";
     "acc_parking_no_preference"; "acc_parking_no_preference_demo"] ++
    (if ok "parking_basic_forward_demo" then ["parking_basic_forward_demo"; "parking_basic_forward"] else ["parking_basic_forward_demo"]) ++
    ["parking_basic_backward"; "parking_basic_backward_demo"; "parking_basic_forward"; "parking_basic_forward_demo";
     "parking_enforce_backward"; "parking_enforce_backward_demo"; "parking_enforce_forward"; "parking_enforce_forward_demo";
     "parking_no_preference"; "parking_no_preference_demo"].
Proof. exact l_C61_all_order. Qed.
Print Assumptions C61_all_order.

(** Both outcomes occur: with tests that accept everything the kinematic group passes; if the strict forward
    scenario fails, it does not, while the acceleration group still does. *)
Example C61_both_outcomes :
  main (memoryless (fun _ => true)) tt Kinematic = 0%Z /\
  main (memoryless (fun c => negb (String.eqb (tc_name c) "parking_enforce_forward"))) tt Kinematic = 1%Z /\
  main (memoryless (fun c => negb (String.eqb (tc_name c) "parking_enforce_forward"))) tt AccOnly = 0%Z /\
  main (memoryless (fun _ => false)) tt (Compare "parking_forward") = 0%Z.
Proof. exact x_C61_both_outcomes. Qed.

(** Two look-ups. *)
Example C60_lookups :
  known "acc_parking_no_preference_demo" /\ ~ known "parking_forward" /\
  (exists c, get_test_config "parking_enforce_backward_demo" = Ok c /\ flag (tc_mbd c) "enable_demo" = true /\
     int (tc_mbd c) "motion_preference" = (-2)%Z /\ tc_dx c = Some (-12)) /\
  create_demo_variant "parking_demo_no_preference_demo" true = get_test_config "parking_no_preference_demo".
Proof. exact x_C60_lookups. Qed.

(** A custom configuration takes each overridden setting from the last override that gives it and everything else
    from the base scenario; an unknown base scenario raises KeyError, and an unknown setting ValueError. *)
Theorem C60_custom :
  forall base l,
  (~ known base -> create_custom_test_config base l = Err KeyError) /\
  (known base -> ~ Forall valid_override l -> create_custom_test_config base l = Err ValueError) /\
  (forall c, get_test_config base = Ok c -> Forall valid_override l -> exists c', create_custom_test_config base l = Ok c' /\
    (forall key, tc_mbd c' key = or_old (option_map Some (last_given (gives key) l)) (tc_mbd c key)) /\
    tc_circ c' = or_old (option_map Some (last_given gives_circles l)) (tc_circ c) /\
    tc_rect c' = or_old (option_map Some (last_given gives_rects l)) (tc_rect c) /\
    tc_parking c' = or_old (option_map Some (last_given gives_lot l)) (tc_parking c) /\
    tc_timeout c' = or_old (last_given gives_timeout l) (tc_timeout c) /\
    tc_name c' = tc_name c /\ tc_min c' = tc_min c /\ tc_max c' = tc_max c /\ tc_limit c' = tc_limit c /\
    (tc_dx c', tc_dy c', tc_th1 c', tc_th2 c') = or_old (last_given gives_start l) (tc_dx c, tc_dy c, tc_th1 c, tc_th2 c) /\
    tc_g1 c' = tc_g1 c /\ tc_g2 c' = tc_g2 c).
Proof. exact l_C60_custom. Qed.
Print Assumptions C60_custom.

(** C60 (finding): the README's way of watching a custom test, visualize=True, changes nothing: rendering stays off. *)
Theorem C60_custom_visualize_refuted :
  exists c, create_custom_test_config "parking_basic_forward" [OVisualize true] = Ok c /\ tc_visualize c = true /\
    tc_mbd c "render" = Some (VBool false) /\ tc_mbd c "show_animation" = Some (VBool false).
Proof. exact l_C60_custom_visualize_refuted. Qed.
Print Assumptions C60_custom_visualize_refuted.

(** C60: a concrete custom configuration. *)
Example C60_custom_example :
  exists c, create_custom_test_config "parking_basic_forward" [OAttr "Hsample" (VInt 40); OLot tight_parking; OAttr "Hsample" (VInt 30)] = Ok c /\
    tc_mbd c "Hsample" = Some (VInt 30) /\ tc_mbd c "Nsample" = Some (VInt 20000) /\ tc_parking c = Some tight_parking.
Proof. exact x_C60_custom_example. Qed.
