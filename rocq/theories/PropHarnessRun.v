(** * Property theorems (generated from ProofsHarnessRun.v by tools/genprops.py; statements only,
    each closed by [exact]). *)
From Coq Require Import String.
From Verif Require Import Base BaseFacts Params Geom TT2d Acc Rollout Instances EnvModel Setup Stats Config Tune Planner
  Harness SpecHarness SpecGeom SpecBodies SpecAcc SpecEnv SpecStats SpecDefaults
  ProofsGeom ProofsBodies ProofsSafety ProofsAcc ProofsEnv ProofsSetup ProofsDefaults ProofsStats ProofsPlanner ProofsPicture ProofsHarness.
From Verif Require Import ProofsHarnessRun.
Local Open Scope string_scope.
Local Open Scope list_scope.
Open Scope R_scope.

(** The obstacles of a test robot: the custom obstacles, the walls, and the circles of the test's own lot; if
    custom circles are given, circles without area (the placeholder of an empty lot) are dropped. Robot and
    environment agree. *)
Theorem C62_obstacles :
  forall c r, create_test_environment c = Ok r ->
  exists lot, env_init 32 32 "parking" (tc_parking c) = Ok lot /\ e_parking (rb_env r) = e_parking lot /\
    (forall k, In k (rb_circ r) <->
       (exists l, tc_circ c = Some l /\ In k l) \/
       (In k (e_circles lot) /\ (tc_circ c = None \/ tc_circ c = Some [] \/ 0 < c_r k))) /\
    (forall o, In o (rb_rect r) <-> In o (e_rects lot) \/ exists l, tc_rect c = Some l /\ In o l) /\
    rb_circ r = e_circles (rb_env r) /\ rb_rect r = e_rects (rb_env r).
Proof. exact l_C62_obstacles. Qed.
Print Assumptions C62_obstacles.

(** The vehicle of a test robot: class and every parameter as configured, if projection and guidance are off
    and one trailer is configured; both are always off. *)
Theorem C62_vehicle :
  forall c r, create_test_environment c = Ok r ->
  p_proj (rb_p r) = false /\ p_guid (rb_p r) = false /\
  (flag (tc_mbd c) "enable_projection" = false -> flag (tc_mbd c) "enable_guidance" = false ->
     int (tc_mbd c) "num_trailers" = 1%Z -> as_requested (trial_args (tc_mbd c)) (rb_p r)) /\
  (text (tc_mbd c) "env_name" = "tt2d" -> rb_kind r = KTT) /\
  (text (tc_mbd c) "env_name" = "acc_tt2d" -> rb_kind r = KACC /\
     rb_amax r = num (tc_mbd c) "a_max" /\ rb_omax r = num (tc_mbd c) "omega_max").
Proof. exact l_C62_vehicle. Qed.
Print Assumptions C62_vehicle.

(** The start of a test: headings as configured, at rest, the front axle dx beside the target of the test's own
    lot that has the smallest y (the first listed of those) and the rear axle dy above the entrance of the
    target with the largest y. *)
Theorem C62_start :
  forall c r dx dy th1 th2, create_test_environment c = Ok r ->
  tc_dx c = Some dx -> tc_dy c = Some dy -> tc_th1 c = Some th1 -> tc_th2 c = Some th2 ->
  exists lot x y lo hi xlo ylo xhi yhi before after,
    rb_x0 r = Some (pose_vector r x y th1 th2) /\
    e_parking (rb_env r) = Some lot /\ lot = match tc_parking c with Some p => p | None => default_parking end /\
    pk_tgt lot = before ++ lo :: after /\ In hi (pk_tgt lot) /\
    get_parking_space_center (rb_env r) lo = Ok (xlo, ylo) /\ get_parking_space_center (rb_env r) hi = Ok (xhi, yhi) /\
    (forall n u v, In n (pk_tgt lot) -> get_parking_space_center (rb_env r) n = Ok (u, v) -> ylo <= v <= yhi) /\
    (forall n u v, In n before -> get_parking_space_center (rb_env r) n = Ok (u, v) -> ylo < v) /\
    x + p_l1 (rb_p r) * cos th1 = xlo + dx /\ y = yhi + pk_len lot / 2 + dy.
Proof. exact l_C62_start. Qed.
Print Assumptions C62_start.

(** The goal of a parking test, proved part: headings as configured, at rest; if the test brings no lot of its
    own, at the centre of the first target space of its lot. Missing (and false, see below): the same for a test
    with its own lot. *)
Theorem C62_goal_partial :
  forall c r g1 g2, create_test_environment c = Ok r -> text (tc_mbd c) "case" = "parking" ->
  tc_g1 c = Some g1 -> tc_g2 c = Some g2 ->
  exists x y, rb_xg r = Some (pose_vector r x y g1 g2) /\
    (tc_parking c = None -> exists lot n rest, e_parking (rb_env r) = Some lot /\ pk_tgt lot = n :: rest /\
       get_parking_space_center (rb_env r) n = Ok (x, y)).
Proof. exact l_C62_goal_partial. Qed.
Print Assumptions C62_goal_partial.

(** A parking test whose lot has columns and targets always gets its environment. *)
Theorem C62_succeeds :
  forall c, text (tc_mbd c) "case" = "parking" ->
  text (tc_mbd c) "env_name" = "tt2d" \/ text (tc_mbd c) "env_name" = "kinematic_bicycle2d" \/
  (text (tc_mbd c) "env_name" = "acc_tt2d" /\ num (tc_mbd c) "a_max" <> 0) ->
  (forall lot, tc_parking c = Some lot -> (pk_cols lot <> 0)%Z /\ pk_tgt lot <> []) ->
  exists r, create_test_environment c = Ok r.
Proof. exact l_C62_succeeds. Qed.
Print Assumptions C62_succeeds.

(** C62 (finding): with its own lot (here the tight lot of the fixtures) a test still aims at the first target
    space of the default lot, which is no target of its lot; parked there, the vehicle would overlap an
    obstacle. *)
Theorem C62_goal_in_own_lot_refuted :
  exists c r x y, create_custom_test_config "parking_basic_forward" [OLot tight_parking] = Ok c /\
    create_test_environment c = Ok r /\
    rb_xg r = Some [x; y; - PI / 2; - PI / 2] /\
    (forall n, In n (pk_tgt tight_parking) -> get_parking_space_center (rb_env r) n <> Ok (x, y)) /\
    ~ tt_clear (rb_p r) (rb_circ r) (rb_rect r) (mkTT x y (- PI / 2) (- PI / 2)).
Proof. exact l_C62_goal_in_own_lot_refuted. Qed.
Print Assumptions C62_goal_in_own_lot_refuted.

(** C62 (finding): enable_guidance, enable_projection and num_trailers of a test configuration do not reach the
    robot. *)
Theorem C62_all_settings_forwarded_refuted :
  exists c r, create_custom_test_config "parking_basic_forward"
      [OAttr "enable_guidance" (VBool true); OAttr "enable_projection" (VBool true); OAttr "num_trailers" (VInt 3)] = Ok c /\
    create_test_environment c = Ok r /\
    tc_mbd c "enable_guidance" = Some (VBool true) /\ p_guid (rb_p r) = false /\
    tc_mbd c "enable_projection" = Some (VBool true) /\ p_proj (rb_p r) = false /\
    tc_mbd c "num_trailers" = Some (VInt 3) /\ rb_kind r = KTT.
Proof. exact l_C62_all_settings_forwarded_refuted. Qed.
Print Assumptions C62_all_settings_forwarded_refuted.

(** C62: the first scenario's start and goal, and an added obstacle. *)
Example C62_forward_with_obstacle :
  exists c r, create_custom_test_config "parking_basic_forward" [OCircles [mkCircle 0 5 1]] = Ok c /\
    create_test_environment c = Ok r /\ In (mkCircle 0 5 1) (rb_circ r) /\ In (mkRect 0 15 30 1 0) (rb_rect r) /\
    rb_x0 r = Some [-21/4 + -4 - 323/100; 5; 0; 0] /\ rb_xg r = Some [-21/4; -17/2; - PI / 2; - PI / 2].
Proof. exact x_C62_forward_with_obstacle. Qed.
