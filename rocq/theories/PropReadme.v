(** * Property theorems (generated from ProofsReadme.v by tools/genprops.py; statements only,
    each closed by [exact]). *)
From Coq Require Import String.
From Verif Require Import Base BaseFacts Params Geom TT2d Bicycle NTrailer Acc Rollout Instances EnvModel Setup Stats Config Tune Planner
  Harness Recipes SpecRecipes SpecHarness SpecGeom SpecBodies SpecAcc SpecEnv SpecStats SpecDefaults SpecDyn SpecTune
  ProofsGeom ProofsBodies ProofsRobots ProofsKin ProofsSafety ProofsAcc ProofsEnv ProofsSetup ProofsDefaults ProofsStats ProofsPlanner ProofsPicture
  ProofsHarness ProofsHarnessRun ProofsHarnessJudge ProofsRecipes.
From Verif Require ProofsDisc ProofsFloatTrack.
From Verif Require Import ProofsReadme.
Local Open Scope string_scope.
Local Open Scope list_scope.
Open Scope R_scope.

(** The recipe takes class, scenario, number of trailers, time step and horizon from the configuration. Every other
    parameter has its default; except for eleven reward weights and thresholds that default is the one of MBDConfig. *)
Theorem C70_recipe_settings :
  forall c r, readme_setup c = Ok r ->
  p_dt (rb_p r) = num c "dt" /\ p_H (rb_p r) = Z.to_nat (int c "Hsample") /\
  (rb_kind r = KACC <-> text c "env_name" = "acc_tt2d") /\
  (rb_kind r = KBK <-> (text c "env_name" = "tt2d" /\ int c "num_trailers" = 0%Z) \/ text c "env_name" = "kinematic_bicycle2d") /\
  (rb_kind r = KNT <-> (text c "env_name" = "tt2d" \/ text c "env_name" = "n_trailer2d") /\ (2 <= int c "num_trailers")%Z) /\
  (rb_kind r = KTT <-> text c "env_name" = "tt2d" /\ int c "num_trailers" <> 0%Z /\ (int c "num_trailers" < 2)%Z) /\
  (rb_kind r = KNT -> Z.of_nat (p_num_trailers (rb_p r)) = int c "num_trailers") /\
  fresh_obstacles (text c "case") r /\
  (forall name f v, In (name, f) named_parameters -> name <> "dt" -> ~ In name differing_defaults ->
     In (name, TFloat, VFloat v) dataclass_fields -> f (rb_p r) = v) /\
  p_dmax (rb_p r) = 55 * PI / 180 /\ p_motion (rb_p r) = 0%Z /\
  p_sh_coll (rb_p r) = true /\ p_sh_hitch (rb_p r) = true /\ p_proj (rb_p r) = false /\ p_guid (rb_p r) = false.
Proof. exact l_C70_recipe_settings. Qed.
Print Assumptions C70_recipe_settings.

(** The recipe works for every robot it lists. *)
Theorem C70_recipe_succeeds :
  forall c, text c "case" = "parking" \/ text c "case" = "navigation" ->
  text c "env_name" = "tt2d" \/ (text c "env_name" = "n_trailer2d" /\ (2 <= int c "num_trailers")%Z) \/
  text c "env_name" = "acc_tt2d" \/ text c "env_name" = "kinematic_bicycle2d" ->
  (exists r, readme_setup c = Ok r) /\ (text c "case" = "parking" -> exists r, readme_start_goal c = Ok r).
Proof. exact l_C70_recipe_succeeds. Qed.
Print Assumptions C70_recipe_succeeds.

(** Start and goal of "Setting start/goal". *)
Theorem C70_start_and_goal :
  forall c r, text c "case" = "parking" -> readme_start_goal c = Ok r ->
  rb_x0 r = Some (pose_vector r (-162/25) 3 0 0) /\ rb_xg r = Some (pose_vector r (-21/4) (-17/2) (- PI / 2) (- PI / 2)) /\
  exists r0, readme_setup c = Ok r0 /\ rb_kind r = rb_kind r0 /\ rb_p r = rb_p r0 /\ rb_circ r = rb_circ r0 /\ rb_rect r = rb_rect r0 /\
    rb_amax r = rb_amax r0 /\ rb_omax r = rb_omax r0.
Proof. exact l_C70_start_and_goal. Qed.
Print Assumptions C70_start_and_goal.

(** For every robot and any number of trailers, that start is a safe pose at rest, and planning (without acceleration
    control) returns safe states only. *)
Theorem C70_start_safe :
  forall c r, text c "case" = "parking" -> readme_start_goal c = Ok r -> starts_safe r /\ plans_safely c r.
Proof. exact l_C70_start_safe. Qed.
Print Assumptions C70_start_safe.

(** C70 (finding): settings a user changes in MBDConfig do not reach the robot: a switched-off shield stays on, and
    with the unedited configuration each of the eleven reward parameters differs from the configured one. *)
Theorem C70_configuration_reaches_robot_refuted :
  (exists c r, c = with_defaults [("env_name", VStr "tt2d"); ("enable_shielded_rollout_collision", VBool false); ("v_max", VFloat 1)] /\
     readme_setup c = Ok r /\ p_sh_coll (rb_p r) = true /\ p_vmax (rb_p r) = 3) /\
  (forall c r name f, unedited c -> readme_setup c = Ok r -> In (name, f) named_parameters -> In name differing_defaults ->
     f (rb_p r) <> num c name).
Proof. exact l_C70_configuration_reaches_robot_refuted. Qed.
Print Assumptions C70_configuration_reaches_robot_refuted.

(** C70 (finding): the quick-start recipe sets no start pose, and the default one stands in the upper wall. With a
    time step of at most 0.25 s (the default), every first step still overlaps the wall and is undone by the shield:
    the returned trajectory is the start pose repeated, for tractor-trailer, car and rigs of any length. *)
Theorem C70_quick_start_moves_refuted :
  forall c r, text c "case" = "parking" -> 0 <= num c "dt" <= 1/4 -> readme_setup c = Ok r ->
  ~ starts_safe r /\
  (rb_kind r = KTT -> exists x0 xg, rb_x0 r = Some [t_px x0; t_py x0; t_th1 x0; t_th2 x0] /\ rb_xg r = Some [t_px xg; t_py xg; t_th1 xg; t_th2 xg] /\
     forall proj guide logpd rx rg, exists out,
     run_diffusion (tt_penv (mkTTSelf (rb_p r) (rb_circ r) (rb_rect r) xg) x0 proj guide logpd rx) (Some (planner_cfg c)) rg = Ok out /\
     o_traj out = repeat x0 (S (Z.to_nat (int c "Hsample")))) /\
  (rb_kind r = KBK -> exists x0 xg, rb_x0 r = Some [b_px x0; b_py x0; b_th x0] /\ rb_xg r = Some [b_px xg; b_py xg; b_th xg] /\
     forall proj guide logpd rx rg, exists out,
     run_diffusion (bk_penv (mkBKSelf (rb_p r) (rb_circ r) (rb_rect r) xg) x0 proj guide logpd rx) (Some (planner_cfg c)) rg = Ok out /\
     o_traj out = repeat x0 (S (Z.to_nat (int c "Hsample")))) /\
  (rb_kind r = KNT -> exists x0 xg, rb_x0 r = Some (n_px x0 :: n_py x0 :: n_th0 x0 :: n_ths x0) /\ rb_xg r = Some (n_px xg :: n_py xg :: n_th0 xg :: n_ths xg) /\
     let s := mkNTSelf (rb_p r) (rb_len r) (rb_front r) (rb_rear r) (rb_circ r) (rb_rect r) xg in
     forall guide logpd rx rg, exists out, nt_run s x0 guide logpd rx (planner_cfg c) rg = Ok out /\
     o_traj out = repeat x0 (S (Z.to_nat (int c "Hsample")))).
Proof. exact l_C70_quick_start_moves_refuted. Qed.
Print Assumptions C70_quick_start_moves_refuted.

(** The robot's goal becomes the centre of the first of the new target spaces; the obstacles stay those of the
    default lot. *)
Theorem C70_target_spaces :
  forall c t rest r, readme_targets c (t :: rest) = Ok r ->
  fresh_obstacles "parking" r /\
  exists e gx gy, env_init 32 32 "parking" None = Ok e /\ get_parking_space_center e t = Ok (gx, gy) /\
    rb_xg r = Some (pose_vector r gx gy (- PI / 2) (- PI / 2)).
Proof. exact l_C70_target_spaces. Qed.
Print Assumptions C70_target_spaces.

(** C70 (finding): the obstacles of an Env object are placed when it is built and do not follow the edit: the new
    target, if it was occupied (all of 1 2 4 5 6 7 9 10 12 13 14 15, so also the README's pair [4, 12]), still has its
    parked obstacles, and the goal pose stands on them. *)
Theorem C70_chosen_target_free_refuted :
  (forall c t rest r, readme_targets c (t :: rest) = Ok r -> In t [1; 2; 4; 5; 6; 7; 9; 10; 12; 13; 14; 15]%Z ->
   exists gx gy k, rb_xg r = Some (pose_vector r gx gy (- PI / 2) (- PI / 2)) /\ In k (rb_circ r) /\ (c_x k, c_y k) = (gx, gy) /\ c_r k = 1 /\
     solid (tractor_body (rb_p r) gx gy (- PI / 2)) (c_x k, c_y k) /\
     ~ tt_safe (rb_p r) (rb_circ r) (rb_rect r) (mkTT gx gy (- PI / 2) (- PI / 2))) /\
  (exists r, readme_targets (with_defaults [("env_name", VStr "tt2d")]) [4; 12]%Z = Ok r).
Proof. exact l_C70_chosen_target_free_refuted. Qed.
Print Assumptions C70_chosen_target_free_refuted.

(** The recipes for the default lot: the tractor-trailer, its start and its goal; and, without a start, in the wall. *)
Example C70_tractor_trailer :
  exists c r r', c = with_defaults [("env_name", VStr "tt2d")] /\ readme_start_goal c = Ok r /\ rb_kind r = KTT /\
    rb_x0 r = Some [-162/25; 3; 0; 0] /\ starts_safe r /\ 0 <= num c "dt" <= 1/4 /\ readme_setup c = Ok r' /\ ~ starts_safe r'.
Proof. exact x_C70_tractor_trailer. Qed.
