(** * Property theorems (generated from ProofsRecipes.v by tools/genprops.py; statements only,
    each closed by [exact]). *)
From Coq Require Import String.
From Verif Require Import Base BaseFacts Params Geom TT2d Bicycle NTrailer Acc Rollout Instances EnvModel Setup Stats Config Tune Planner
  Harness Recipes SpecRecipes SpecHarness SpecGeom SpecBodies SpecAcc SpecEnv SpecStats SpecDefaults SpecDyn SpecTune
  ProofsGeom ProofsBodies ProofsRobots ProofsKin ProofsSafety ProofsAcc ProofsEnv ProofsSetup ProofsDefaults ProofsStats ProofsPlanner ProofsPicture
  ProofsHarness ProofsHarnessRun ProofsHarnessJudge.
From Verif Require Import ProofsRecipes.
Local Open Scope string_scope.
Local Open Scope list_scope.
Open Scope R_scope.

(** Whatever the configuration: if the script gets to planning, the robot has every parameter the configuration
    names, the class selected by env_name and num_trailers, and the obstacles of a new environment of the configured
    scenario. *)
Theorem C69_settings :
  forall c r, script_setup c = Ok r ->
  (forall name f, In (name, f) named_parameters -> f (rb_p r) = num c name) /\
  p_dmax (rb_p r) = num c "delta_max_deg" * PI / 180 /\
  p_d_thr (rb_p r) = num c "d_thr_factor" * (num c "l1" + num c "lh" + num c "l2") /\
  p_H (rb_p r) = Z.to_nat (int c "Hsample") /\ p_motion (rb_p r) = int c "motion_preference" /\
  p_sh_coll (rb_p r) = flag c "enable_shielded_rollout_collision" /\
  p_sh_hitch (rb_p r) = flag c "enable_shielded_rollout_hitch" /\
  p_proj (rb_p r) = flag c "enable_projection" /\ p_guid (rb_p r) = flag c "enable_guidance" /\
  (rb_kind r = KACC <-> text c "env_name" = "acc_tt2d") /\
  (rb_kind r = KBK <-> (text c "env_name" = "tt2d" /\ int c "num_trailers" = 0%Z) \/ text c "env_name" = "kinematic_bicycle2d") /\
  (rb_kind r = KNT <-> (text c "env_name" = "tt2d" \/ text c "env_name" = "n_trailer2d") /\ (2 <= int c "num_trailers")%Z) /\
  (rb_kind r = KTT <-> text c "env_name" = "tt2d" /\ int c "num_trailers" <> 0%Z /\ (int c "num_trailers" < 2)%Z) /\
  (rb_kind r = KACC -> rb_amax r = num c "a_max" /\ rb_omax r = num c "omega_max") /\
  (rb_kind r = KNT -> Z.of_nat (p_num_trailers (rb_p r)) = int c "num_trailers") /\
  fresh_obstacles (text c "case") r.
Proof. exact l_C69_settings. Qed.
Print Assumptions C69_settings.

(** The script gets to planning for every known robot in either scenario. *)
Theorem C69_succeeds :
  forall c, text c "case" = "parking" \/ text c "case" = "navigation" ->
  text c "env_name" = "tt2d" \/ (text c "env_name" = "n_trailer2d" /\ (2 <= int c "num_trailers")%Z) \/
  (text c "env_name" = "acc_tt2d" /\ num c "a_max" <> 0) \/ text c "env_name" = "kinematic_bicycle2d" ->
  exists r, script_setup c = Ok r.
Proof. exact l_C69_succeeds. Qed.
Print Assumptions C69_succeeds.

(** Where it starts and what it is asked to reach, in the parking scenario. *)
Theorem C69_start_and_goal :
  forall c r, text c "case" = "parking" -> script_setup c = Ok r ->
  let l1 := num c "l1" in
  rb_x0 r = Some (
    if Z.eqb (int c "motion_preference") (-2) then pose_vector r (-69/4 + l1) 3 PI PI
    else if Z.ltb 1 (int c "num_trailers") then pose_vector r (79/4 - l1 * cos (PI / 8)) 17 (- PI / 8) 0
    else pose_vector r (-9/4 - l1) 7 0 0) /\
  rb_xg r = Some (
    if Z.eqb (int c "motion_preference") (-1) || Z.eqb (int c "motion_preference") (-2) then pose_vector r (-21/4) (-17/2) (PI / 2) (PI / 2)
    else pose_vector r (-21/4) (-17/2) (- PI / 2) (- PI / 2)).
Proof. exact l_C69_start_and_goal. Qed.
Print Assumptions C69_start_and_goal.

(** In the navigation scenario there is no lot: the script's distances are ignored and the robot starts at (-3, 0). *)
Theorem C69_navigation_start :
  forall c r, text c "case" = "navigation" -> script_setup c = Ok r ->
  rb_x0 r = Some (
    if Z.eqb (int c "motion_preference") (-2) then pose_vector r (-3) 0 PI PI
    else if Z.ltb 1 (int c "num_trailers") then pose_vector r (-3) 0 (- PI / 8) 0
    else pose_vector r (-3) 0 0 0).
Proof. exact l_C69_navigation_start. Qed.
Print Assumptions C69_navigation_start.

(** For every robot, any number of trailers and any preferred direction of motion: with the default lot and the
    default vehicle dimensions, the script's start is a safe pose, at rest. *)
Theorem C69_start_safe :
  forall c r, keeps lot_and_vehicle c -> script_setup c = Ok r -> starts_safe r.
Proof. exact l_C69_start_safe. Qed.
Print Assumptions C69_start_safe.

(** With the default lot and dimensions, both shields on and neither projection nor guidance, every state of the
    trajectory the script gets back is safe: tractor-trailer, car and rigs of any number of trailers, whatever the
    other settings, the preferred direction and the random numbers. *)
Theorem C69_plans_safe :
  forall c r, keeps lot_and_vehicle c ->
  keeps ["enable_shielded_rollout_collision"; "enable_shielded_rollout_hitch"; "enable_projection"; "enable_guidance"] c ->
  script_setup c = Ok r -> plans_safely c r.
Proof. exact l_C69_plans_safe. Qed.
Print Assumptions C69_plans_safe.

(** The acceleration-controlled vehicle (the default of MBDConfig): the run returns H+1 states and H controls; it
    starts at rest in the safe start pose, and is still in it after the first step. (That the later states are safe
    does not hold in general: C23.) *)
Theorem C69_acceleration_run :
  forall c r, keeps lot_and_vehicle c -> keeps ["enable_projection"; "enable_guidance"] c ->
  script_setup c = Ok r -> rb_kind r = KACC -> 0 <= num c "v_max" -> 0 <= num c "delta_max_deg" ->
  exists x0 xg, rb_x0 r = Some [t_px x0; t_py x0; t_th1 x0; t_th2 x0; 0; 0] /\ rb_xg r = Some [t_px xg; t_py xg; t_th1 xg; t_th2 xg; 0; 0] /\
    tt_safe (rb_p r) (rb_circ r) (rb_rect r) x0 /\
    let s := mkAccSelf (mkTTSelf (rb_p r) (rb_circ r) (rb_rect r) xg) (rb_amax r) (rb_omax r) in
    forall proj guide logpd rx rg, exists out,
    run_diffusion (acc_penv s (mkAcc x0 0 0) proj guide logpd rx) (Some (planner_cfg c)) rg = Ok out /\
    length (o_Y0 out) = Z.to_nat (int c "Hsample") /\ length (o_traj out) = S (Z.to_nat (int c "Hsample")) /\
    nth_error (o_traj out) 0 = Some (mkAcc x0 0 0) /\
    (forall q, nth_error (o_traj out) 1 = Some q -> a_q q = x0).
Proof. exact l_C69_acceleration_run. Qed.
Print Assumptions C69_acceleration_run.

(** C69 (finding): asked to park backwards (motion_preference -1 or -2), the script sets a goal at which the trailer
    stands in the wall behind the lot: no safe pose has its trailer there. *)
Theorem C69_backward_goal_safe_refuted :
  forall c r, keeps lot_and_vehicle c -> script_setup c = Ok r -> (rb_kind r = KTT \/ rb_kind r = KACC) ->
  (int c "motion_preference" = -1 \/ int c "motion_preference" = -2)%Z ->
  exists goal, rb_xg r = Some (pose_vector r (t_px goal) (t_py goal) (t_th1 goal) (t_th2 goal)) /\
    let trailer q := trailer_body (ahead (t_px q, t_py q) (t_th1 q) (- p_lh (rb_p r))) (t_th2 q)
                       (p_l2 (rb_p r)) (p_lf2 (rb_p r)) (p_lr2 (rb_p r)) (p_trail_w (rb_p r)) in
    forall q, trailer q = trailer goal -> ~ tt_safe (rb_p r) (rb_circ r) (rb_rect r) q.
Proof. exact l_C69_backward_goal_safe_refuted. Qed.
Print Assumptions C69_backward_goal_safe_refuted.

Example C69_default_run :
  exists c r, unedited c /\ script_setup c = Ok r /\ rb_kind r = KACC /\ rb_x0 r = Some [-137/25; 7; 0; 0; 0; 0] /\
    int c "Hsample" = 50%Z /\ starts_safe r.
Proof. exact x_C69_default_run. Qed.

(** A rig of three trailers, and the one-trailer vehicle asked to park backwards. *)
Example C69_three_trailers :
  exists c r, c = with_defaults [("env_name", VStr "n_trailer2d"); ("num_trailers", VInt 3); ("motion_preference", VInt (-1))] /\
    keeps lot_and_vehicle c /\ script_setup c = Ok r /\ rb_kind r = KNT /\ p_num_trailers (rb_p r) = 3%nat /\ starts_safe r.
Proof. exact x_C69_three_trailers. Qed.
