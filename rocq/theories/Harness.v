(** * Harness: the integration-test harness (tests/test_planners/).

    Modelled: the scenario table and its accessors (fixtures/test_configs.py), the test environment
    (fixtures/test_environments.py), the run of one test with its checks (test_base.py), the test methods
    (test_mbd_planner.py) and the command line (run_tests.py). Not modelled: logging, rendering flags beyond
    __post_init__, writing the result files (test_base.py:258-316), get_git_commit, get_system_info,
    --list and --visualize (printing and drawing only),
    get_default_parking_config (a copy of the Env default, EnvModel.v). *)
From Coq Require Import String.
From Verif Require Import Base Params Geom TT2d Acc Rollout Instances EnvModel Setup Stats Config Tune Planner.
Local Open Scope string_scope.
Local Open Scope list_scope.
Open Scope R_scope.

(** ** Strings *)
(** str.startswith, str.endswith. *)
Definition startswith (s pre : string) : bool := String.prefix pre s.
Definition endswith (s suf : string) : bool :=
  (String.length suf <=? String.length s)%nat &&
  String.eqb (String.substring (String.length s - String.length suf) (String.length suf) s) suf.
(** str.replace(pat, "") for a non-empty [pat]: scan left to right, dropping each occurrence; [skip] counts the
    characters of the current occurrence still to be dropped. *)
Fixpoint drop_all (pat s : string) (skip : nat) : string :=
  match s with
  | EmptyString => EmptyString
  | String c rest =>
      match skip with
      | S k => drop_all pat rest k
      | O => if String.prefix pat s then drop_all pat rest (String.length pat - 1)
             else String c (drop_all pat rest 0)
      end
  end.
Definition remove_demo (s : string) : string := drop_all "_demo" s 0.

(** ** Dictionaries: association lists in insertion order *)
Section Dict.
Context {A : Type}.
Fixpoint dget (d : list (string * A)) (k : string) : option A :=
  match d with [] => None | (k', v) :: r => if String.eqb k' k then Some v else dget r k end.
(** d[k] = v: replaces in place or appends. *)
Fixpoint dset (d : list (string * A)) (k : string) (v : A) : list (string * A) :=
  match d with
  | [] => [(k, v)]
  | (k', v') :: r => if String.eqb k' k then (k', v) :: r else (k', v') :: dset r k v
  end.
(** {**d, **e} *)
Definition dmerge (d e : list (string * A)) : list (string * A) :=
  fold_left (fun acc kv => dset acc (fst kv) (snd kv)) e d.
End Dict.

(** ** test_configs.py *)
(** TestConfig (test_configs.py:24-70): the attributes inherited from MBDConfig as a dictionary, then the fields
    it adds. Entries of custom_circular_obstacles are [x, y, r] triples and those of
    custom_rectangular_obstacles [x, y, w, h, angle]; other shapes are not represented. *)
Record test_config : Type := mkTest {
  tc_mbd : dict;
  tc_name : string; tc_descr : string;
  tc_min : R; tc_max : R; tc_timeout : R; tc_visualize : bool;
  tc_circ : option (list circle); tc_rect : option (list rectobs); tc_parking : option parking;
  tc_dx : option R; tc_dy : option R; tc_th1 : option R; tc_th2 : option R;
  tc_g1 : option R; tc_g2 : option R;
  tc_limit : R }.

(** The defaults TestConfig overrides (test_configs.py:28-34). *)
Definition test_overrides : list (string * val) := [
  ("seed", VInt 0); ("render", VBool false); ("save_animation", VBool false); ("show_animation", VBool false);
  ("save_denoising_animation", VBool false); ("verbose", VBool false) ].

(** One TestConfig(...) call of the scenario tables; all of them pass the same keywords
    (test_configs.py:75-155, 158-204). __post_init__ changes nothing as visualize is False. *)
Definition scenario (name descr env : string) (motion : Z) (dx dy th1 th2 g1 g2 : R) : string * test_config :=
  (name,
   {| tc_mbd := with_defaults ([("env_name", VStr env); ("enable_demo", VBool false);
                                ("motion_preference", VInt motion)] ++ test_overrides);
      tc_name := name; tc_descr := descr; tc_min := 0; tc_max := 4; tc_timeout := 300; tc_visualize := false;
      tc_circ := None; tc_rect := None; tc_parking := None;
      tc_dx := Some dx; tc_dy := Some dy; tc_th1 := Some th1; tc_th2 := Some th2;
      tc_g1 := Some g1; tc_g2 := Some g2; tc_limit := 4 |}).

(** TEST_SCENARIOS (test_configs.py:75-155). *)
Definition kinematic_scenarios : list (string * test_config) := [
  scenario "parking_basic_forward" "Basic forward parking scenario" "tt2d" 1
    (-4) 3 0 0 (- PI / 2) (- PI / 2);
  scenario "parking_basic_backward" "Basic backward parking scenario" "tt2d" (-1)
    12 5 0 0 (PI / 2) (PI / 2);
  scenario "parking_no_preference" "Parking with no motion preference" "tt2d" 0
    2 3 0 0 (- PI / 2) (- PI / 2);
  scenario "parking_enforce_forward" "Parking with strict forward enforcement" "tt2d" 2
    (-5) 5 0 0 (- PI / 2) (- PI / 2);
  scenario "parking_enforce_backward" "Parking with strict backward enforcement" "tt2d" (-2)
    (-12) 1 PI PI (PI / 2) (PI / 2) ].

(** ACC_TEST_SCENARIOS (test_configs.py:158-204; the last two entries are commented out, 206-238). *)
Definition acc_scenarios : list (string * test_config) := [
  scenario "acc_parking_basic_forward" "Basic forward parking scenario (acceleration dynamics)" "acc_tt2d" 1
    (-3) 2 0 0 (- PI / 2) (- PI / 2);
  scenario "acc_parking_basic_backward" "Basic backward parking scenario (acceleration dynamics)" "acc_tt2d" (-1)
    13 5 0 0 (PI / 2) (PI / 2);
  scenario "acc_parking_no_preference" "Parking with no motion preference (acceleration dynamics)" "acc_tt2d" 0
    2 1 0 0 (- PI / 2) (- PI / 2) ].

(** d[key] = value on the attributes of a configuration object. *)
Definition put (d : dict) (k : string) (v : val) : dict := fun key => if String.eqb key k then Some v else d key.

(** The demo copy made of one scenario (test_configs.py:248-256, 260-268); also the body of
    create_demo_variant for enable_demo=True (test_configs.py:317-323). *)
Definition demo_copy (name : string) (c : test_config) : test_config := {|
  tc_mbd := put (tc_mbd c) "enable_demo" (VBool true);
  tc_name := (name ++ "_demo")%string; tc_descr := (tc_descr c ++ " (with demo)")%string;
  tc_min := 0; tc_max := tc_max c; tc_timeout := tc_timeout c; tc_visualize := tc_visualize c;
  tc_circ := tc_circ c; tc_rect := tc_rect c; tc_parking := tc_parking c;
  tc_dx := tc_dx c; tc_dy := tc_dy c; tc_th1 := tc_th1 c; tc_th2 := tc_th2 c;
  tc_g1 := tc_g1 c; tc_g2 := tc_g2 c; tc_limit := tc_limit c |}.

(** _create_demo_scenarios (test_configs.py:244-268). *)
Definition demo_of (l : list (string * test_config)) : list (string * test_config) :=
  fold_left (fun acc kv => dset acc (fst kv ++ "_demo")%string (demo_copy (fst kv) (snd kv))) l [].

(** ALL_TEST_SCENARIOS (test_configs.py:274). *)
Definition all_scenarios : list (string * test_config) :=
  dmerge (dmerge (dmerge kinematic_scenarios (demo_of kinematic_scenarios)) acc_scenarios) (demo_of acc_scenarios).

(** get_test_config (test_configs.py:277-294). *)
Definition get_test_config (name : string) : Res test_config :=
  match dget all_scenarios name with None => Err KeyError | Some c => Ok c end.

(** create_demo_variant (test_configs.py:297-325). *)
Definition create_demo_variant (name : string) (enable_demo : bool) : Res test_config :=
  let base := remove_demo name in
  match dget kinematic_scenarios base with
  | None => Err KeyError
  | Some c => Ok (if enable_demo then demo_copy base c else c)
  end.

(** One keyword override of create_custom_test_config. OAttr is for the attributes inherited from MBDConfig and
    for names that are no attribute at all; OStart stands for the four keywords init_dx, init_dy,
    init_theta1, init_theta2 together; the fields TestConfig adds and that are not listed here are set in the same
    way and not represented. *)
Inductive override : Type :=
| OAttr (key : string) (v : val) | OVisualize (b : bool) | OTimeout (t : R)
| OCircles (l : list circle) | ORects (l : list rectobs) | OLot (lot : parking)
| OStart (dx dy th1 th2 : R).

(** The body of the loop of create_custom_test_config (test_configs.py:342-347): setattr, so __post_init__ does
    not run again. *)
Definition apply_override (c : test_config) (o : override) : Res test_config :=
  let build mbd timeout vis circ rect lot :=
    mkTest mbd (tc_name c) (tc_descr c) (tc_min c) (tc_max c) timeout vis circ rect lot
      (tc_dx c) (tc_dy c) (tc_th1 c) (tc_th2 c) (tc_g1 c) (tc_g2 c) (tc_limit c) in
  match o with
  | OAttr key v =>
      if existsb (String.eqb key) (map (fun f => fst (fst f)) dataclass_fields)
      then Ok (build (put (tc_mbd c) key v) (tc_timeout c) (tc_visualize c) (tc_circ c) (tc_rect c) (tc_parking c))
      else Err ValueError
  | OVisualize b => Ok (build (tc_mbd c) (tc_timeout c) b (tc_circ c) (tc_rect c) (tc_parking c))
  | OTimeout t => Ok (build (tc_mbd c) t (tc_visualize c) (tc_circ c) (tc_rect c) (tc_parking c))
  | OCircles l => Ok (build (tc_mbd c) (tc_timeout c) (tc_visualize c) (Some l) (tc_rect c) (tc_parking c))
  | ORects l => Ok (build (tc_mbd c) (tc_timeout c) (tc_visualize c) (tc_circ c) (Some l) (tc_parking c))
  | OLot lot => Ok (build (tc_mbd c) (tc_timeout c) (tc_visualize c) (tc_circ c) (tc_rect c) (Some lot))
  | OStart dx dy th1 th2 =>
      Ok (mkTest (tc_mbd c) (tc_name c) (tc_descr c) (tc_min c) (tc_max c) (tc_timeout c) (tc_visualize c) (tc_circ c)
            (tc_rect c) (tc_parking c) (Some dx) (Some dy) (Some th1) (Some th2) (tc_g1 c) (tc_g2 c) (tc_limit c))
  end.
Fixpoint apply_overrides (c : test_config) (l : list override) : Res test_config :=
  match l with
  | [] => Ok c
  | o :: rest => match apply_override c o with Err e => Err e | Ok c' => apply_overrides c' rest end
  end.
(** create_custom_test_config (test_configs.py:328-349). *)
Definition create_custom_test_config (base : string) (l : list override) : Res test_config :=
  match get_test_config base with Err e => Err e | Ok c => apply_overrides c l end.

(** The listing functions (test_configs.py:351-373). *)
Definition keys {A : Type} (d : list (string * A)) : list string := map fst d.
Definition list_available_scenarios : list string := keys all_scenarios.
Definition list_default_scenarios : list string := filter (fun n => negb (endswith n "_demo")) (keys all_scenarios).
Definition list_demo_scenarios : list string := filter (fun n => endswith n "_demo") (keys all_scenarios).
Definition list_kinematic_scenarios : list string := filter (fun n => startswith n "parking_") (keys all_scenarios).
Definition list_acceleration_scenarios : list string :=
  filter (fun n => startswith n "acc_parking_") (keys all_scenarios).
(** get_scenario_pairs (test_configs.py:376-396). *)
Definition get_scenario_pairs : list (string * string) :=
  map (fun n => (n, (n ++ "_demo")%string)) (keys kinematic_scenarios) ++ map (fun n => (n, (n ++ "_demo")%string)) (keys acc_scenarios).

(** ** test_environments.py *)
(** setup_parking_environment (test_environments.py:27-55). An empty custom list is falsy. *)
Definition setup_parking_environment (c : test_config) : Res env_obj :=
  match env_init 32 32 "parking" (tc_parking c) with
  | Err x => Err x
  | Ok e =>
      let circles := match tc_circ c with
                     | Some (o :: l) => filter (fun k => Rltb 0 (c_r k)) (e_circles e) ++ o :: l
                     | _ => e_circles e
                     end in
      let rects := match tc_rect c with
                   | Some (o :: l) => e_rects e ++ o :: l
                   | _ => e_rects e
                   end in
      Ok (mkEnv (e_case e) (e_xr e) (e_yr e) (e_parking e) circles rects)
  end.

(** create_tight_parking_config (test_environments.py:175-191). *)
Definition tight_parking : parking := {|
  pk_rows := 3; pk_cols := 6; pk_w := 3; pk_len := 65/10; pk_yoff := 3;
  pk_occ := [1; 2; 4; 5; 7; 8; 10; 11; 13; 14; 16; 17]%Z; pk_tgt := [6; 12]%Z; pk_rad := 1 |}.
(** The get_env arguments of create_test_tt2d_environment (test_environments.py:74-116): those of stat_mbd.py
    without enable_projection, enable_guidance and num_trailers, which keep get_env's defaults
    (__init__.py:17-18, 46). *)
Definition test_args (c : dict) : env_args := {|
  g_name := text c "env_name"; g_case := text c "case"; g_env := None; g_dt := num c "dt";
  g_H := Z.to_nat (int c "Hsample"); Setup.g_motion := int c "motion_preference";
  g_coll_pen := num c "collision_penalty"; g_hitch_pen := num c "hitch_penalty";
  g_sh_coll := flag c "enable_shielded_rollout_collision"; g_sh_hitch := flag c "enable_shielded_rollout_hitch";
  g_proj := false; Setup.g_guid := false;
  g_rew_thr := num c "reward_threshold"; g_ref_thr := num c "ref_reward_threshold"; g_max_w := num c "max_w_theta";
  g_hitch_w := num c "hitch_angle_weight"; g_l1 := num c "l1"; g_l2 := num c "l2"; g_lh := num c "lh";
  g_lf1 := num c "lf1"; g_lr := num c "lr"; g_lf2 := num c "lf2"; g_lr2 := num c "lr2";
  g_trac_w := num c "tractor_width"; g_trail_w := num c "trailer_width"; g_vmax := num c "v_max";
  g_ddeg := num c "delta_max_deg"; g_d_fac := num c "d_thr_factor"; g_kswitch := num c "k_switch";
  g_steer_w := num c "steering_weight"; g_pref_w := num c "preference_penalty_weight";
  g_head_w := num c "heading_reward_weight"; g_term_thr := num c "terminal_reward_threshold";
  g_term_w := num c "terminal_reward_weight"; g_rpos_w := num c "ref_pos_weight";
  g_rth1_w := num c "ref_theta1_weight"; g_rth2_w := num c "ref_theta2_weight"; g_amax := num c "a_max";
  g_omax := num c "omega_max"; g_trailers := 1 |}.

(** env.env = env_config; env.obs_circles, env.obs_rectangles = its obstacles (test_environments.py:120-126). *)
Definition put_env (r : robot) (e : env_obj) : robot :=
  mkRobot (rb_kind r) (rb_p r) e (rb_x0 r) (rb_xg r) (e_circles e) (e_rects e)
    (rb_amax r) (rb_omax r) (rb_len r) (rb_front r) (rb_rear r).

(** create_test_tt2d_environment (test_environments.py:58-153). The demonstration attributes reset in lines
    144-147 and the cleared function cache belong to Demo.v and Cache.v. *)
Definition create_test_environment (c : test_config) : Res robot :=
  match setup_parking_environment c with
  | Err x => Err x
  | Ok e =>
      match get_env (test_args (tc_mbd c)) with
      | Err x => Err x
      | Ok r0 =>
          let r1 := put_env r0 e in
          let '(r2, res) :=
            match tc_dx c, tc_dy c, tc_th1 c, tc_th2 c with
            | Some dx, Some dy, Some th1, Some th2 =>
                set_init_pos r1 (mkInit None None (Some dx) (Some dy) th1 th2 0 0)
            | _, _, _, _ => (r1, Ok tt)
            end in
          match res with
          | Err x => Err x
          | Ok _ =>
              match tc_g1 c, tc_g2 c with
              | Some g1, Some g2 => Ok (fst (set_goal_pos r2 (mkGoal None None (Some g1) (Some g2) 0 0)))
              | _, _ => Ok r2
              end
          end
      end
  end.

(** ** test_base.py *)
(** The test_summary of the saved result (test_base.py:287-303). *)
Record test_summary : Type := mkSum {
  sm_hitch : bool; sm_coll : bool; sm_success : bool; sm_tractor : R; sm_trailer : R;
  sm_states : nat; sm_actions : nat }.
(** What a test method ends with: it returns, an assertion of the test fails, or another exception escapes. *)
Inductive outcome : Type := Passed (d : R) (s : test_summary) | Failed | Errored (e : exn).

(** check_trajectory_violations (test_base.py:166-198): no early exit. *)
Fixpoint trajectory_violations {Q : Type} (coll hitch : Q -> bool) (hv oc : bool) (traj : list Q) : bool * bool :=
  match traj with
  | [] => (hv, oc)
  | q :: rest => trajectory_violations coll hitch (if hitch q then true else hv) (if coll q then true else oc) rest
  end.

(** compute_final_min_distance, validate_test_results, save_test_results (test_base.py:97-123, 125-164, 237-256)
    on the arrays returned by run_diffusion. [pos] are the first two components, [back] is
    env.get_trailer_back_position of the first four, [goal] is env.xg[:2]. *)
Definition judge {Q : Type} (coll hitch : Q -> bool) (pos back : Q -> pt) (goal : pt)
  (c : test_config) (actions : list act) (states : list Q) : outcome :=
  match states with
  | [] => Errored IndexError
  | q0 :: _ =>
      let final := last states q0 in
      let tractor := pnorm (psub (pos final) goal) in
      let trailer := pnorm (psub (back final) goal) in
      let final_distance := Rmin tractor trailer in
      if negb (Rleb (tc_min c) final_distance) then Failed
      else if negb (Rleb final_distance (tc_max c)) then Failed
      else
        let '(hv, oc) := trajectory_violations coll hitch false false states in
        let success := Rleb tractor (tc_limit c) || Rleb trailer (tc_limit c) in
        if negb success then Failed
        else if negb (Z.eqb (Z.of_nat (length actions)) (int (tc_mbd c) "Hsample")) then Failed
        else if negb (Z.eqb (Z.of_nat (length states)) (int (tc_mbd c) "Hsample" + 1)) then Failed
        else Passed final_distance (mkSum hv oc success tractor trailer (length states) (length actions))
  end.

(** The acceleration-class object and start state of a robot. *)
Definition acc_of_robot (r : robot) : option (acc_self * accq) :=
  match rb_kind r, rb_x0 r, rb_xg r with
  | KACC, Some [px; py; th1; th2; v; d], Some [gx; gy; g1; g2; _; _] =>
      Some (mkAccSelf (mkTTSelf (rb_p r) (rb_circ r) (rb_rect r) (mkTT gx gy g1 g2)) (rb_amax r) (rb_omax r),
            mkAcc (mkTT px py th1 th2) v d)
  | _, _, _ => None
  end.

(** run_mbd_test (test_base.py:65-123) with TimeoutContext (336-351): [t0], [t1] are the clock readings on
    entering and leaving the with-block; the elapsed time is looked at after run_diffusion has returned. Only the
    two classes of the scenario tables are represented (TypeError stands for another class). The JIT cache is
    empty (cleared by create_test_tt2d_environment), so run_diffusion is the function of Planner.v. *)
Definition run_mbd_test (c : test_config) pt gt lt pa ga la (rx : R) (rg : prng) (t0 t1 : R) : outcome :=
  match create_test_environment c with
  | Err x => Errored x
  | Ok r =>
      match tt_of_robot r, acc_of_robot r with
      | Some (s, x0), _ =>
          match run_diffusion (tt_penv s x0 pt gt lt rx) (Some (planner_cfg (tc_mbd c))) rg with
          | Err x => Errored x
          | Ok out =>
              if Rltb (tc_timeout c) (t1 - t0) then Failed
              else judge (ts_coll s) (ts_hitch s) (fun q => (t_px q, t_py q)) (tt_trailer_back (ts_p s))
                     (t_px (ts_xg s), t_py (ts_xg s)) c (o_Y0 out) (o_traj out)
          end
      | None, Some (s, x0) =>
          match run_diffusion (acc_penv s x0 pa ga la rx) (Some (planner_cfg (tc_mbd c))) rg with
          | Err x => Errored x
          | Ok out =>
              if Rltb (tc_timeout c) (t1 - t0) then Failed
              else judge (fun q => ts_coll (as_t s) (a_q q)) (fun q => ts_hitch (as_t s) (a_q q))
                     (fun q => (t_px (a_q q), t_py (a_q q)))
                     (fun q => tt_trailer_back (ts_p (as_t s)) (a_q q))
                     (t_px (ts_xg (as_t s)), t_py (ts_xg (as_t s))) c (o_Y0 out) (o_traj out)
          end
      | None, None => Errored TypeError
      end
  end.

(** ** test_mbd_planner.py and run_tests.py *)
(** A test method: run one scenario, test_demo_flag_override, or test_scenario_list_functions. *)
Inductive test_body : Type := Scenario (name : string) | DemoOverride | ListFunctions.

(** The test methods of TestMBDPlanner (test_mbd_planner.py:77-217). *)
Definition scenario_methods : list string := [
  "parking_basic_forward"; "parking_basic_backward"; "parking_no_preference"; "parking_enforce_forward";
  "parking_enforce_backward"; "parking_basic_forward_demo"; "parking_basic_backward_demo";
  "parking_no_preference_demo"; "parking_enforce_forward_demo"; "parking_enforce_backward_demo";
  "acc_parking_basic_forward"; "acc_parking_basic_backward"; "acc_parking_no_preference";
  "acc_parking_enforce_forward"; "acc_parking_enforce_backward"; "acc_parking_basic_forward_demo";
  "acc_parking_basic_backward_demo"; "acc_parking_no_preference_demo"; "acc_parking_enforce_forward_demo";
  "acc_parking_enforce_backward_demo" ].
Definition methods : list (string * test_body) :=
  map (fun n => (("test_" ++ n)%string, Scenario n)) scenario_methods ++
  [("test_demo_flag_override", DemoOverride); ("test_scenario_list_functions", ListFunctions)].

(** The assertions of test_scenario_list_functions (test_mbd_planner.py:194-217). *)
Definition list_assertions : bool :=
  Nat.eqb (length list_default_scenarios) 10 && Nat.eqb (length list_demo_scenarios) 10 &&
  Nat.eqb (length list_kinematic_scenarios) 10 && Nat.eqb (length list_acceleration_scenarios) 10 &&
  Nat.eqb (length get_scenario_pairs) 10 &&
  forallb (fun n => negb (endswith n "_demo")) list_default_scenarios &&
  forallb (fun n => endswith n "_demo") list_demo_scenarios &&
  forallb (fun n => startswith n "parking_") list_kinematic_scenarios &&
  forallb (fun n => startswith n "acc_parking_") list_acceleration_scenarios &&
  forallb (fun p => String.eqb (snd p) (fst p ++ "_demo")%string) get_scenario_pairs.

Section Runner.
(** [run] is run_mbd_test as seen by the runner: whether it returns (true) or raises, with an arbitrary state
    of the process and the machine threaded through the calls. *)
Context {W : Type} (run : W -> test_config -> W * bool).

(** run_scenario_test (test_mbd_planner.py:41-75). *)
Definition run_scenario_test (w : W) (name : string) (enable_demo : option bool) : W * bool :=
  let config := match enable_demo with
                | Some b => create_demo_variant (remove_demo name) b
                | None => get_test_config name
                end in
  match config with Err _ => (w, false) | Ok c => run w c end.

(** One test method; the two assertions at the end of test_demo_flag_override hold for any distance. *)
Definition run_body (w : W) (b : test_body) : W * bool :=
  match b with
  | Scenario n => run_scenario_test w n None
  | DemoOverride =>
      let '(w1, ok1) := run_scenario_test w "parking_basic_forward" (Some true) in
      if ok1 then run_scenario_test w1 "parking_basic_forward" (Some false) else (w1, false)
  | ListFunctions => (w, list_assertions)
  end.

(** TextTestRunner.run(suite).wasSuccessful(): every test runs; success when none failed or raised. *)
Fixpoint run_suite (w : W) (suite : list test_body) : W * bool :=
  match suite with
  | [] => (w, true)
  | b :: rest => let '(w1, ok) := run_body w b in let '(w2, oks) := run_suite w1 rest in (w2, ok && oks)
  end.

(** The suite of the named methods that exist (run_tests.py:87-90 and the like). *)
Fixpoint suite_of (names : list string) : list test_body :=
  match names with
  | [] => []
  | n :: rest => match dget methods n with Some b => b :: suite_of rest | None => suite_of rest end
  end.
Definition no_demo (l : list string) : list string := filter (fun n => negb (endswith n "_demo")) l.

(** Insertion sort of method names: unittest's loader runs them in alphabetical order. *)
Fixpoint insert_name (n : string) (l : list string) : list string :=
  match l with [] => [n] | m :: r => if String.leb n m then n :: l else m :: insert_name n r end.
Definition sorted_methods : list string := fold_right insert_name [] (keys methods).

Inductive action : Type :=
| Single (name : string) | Demo | AccOnly | Kinematic | Compare (base : string) | All | NoAction.

(** The exit code of run_tests.py (run_tests.py:255-309). TestMBDPlanner(name) raises for an unknown method,
    which main turns into exit code 1; --timeout is parsed and not used. *)
Definition main (w : W) (a : action) : Z :=
  let code (suite : list test_body) := if snd (run_suite w suite) then 0%Z else 1%Z in
  match a with
  | Single n => match dget methods n with Some b => code [b] | None => 1%Z end
  | Demo => code (suite_of (map (fun n => "test_" ++ n)%string list_demo_scenarios))
  | AccOnly => code (suite_of (map (fun n => "test_" ++ n)%string (no_demo list_acceleration_scenarios)))
  | Kinematic | NoAction => code (suite_of (map (fun n => "test_" ++ n)%string (no_demo list_kinematic_scenarios)))
  | Compare b => code (suite_of [("test_" ++ b)%string; ("test_" ++ b ++ "_demo")%string])
  | All => code (suite_of sorted_methods)
  end.
End Runner.
