(** * Property theorems (generated from ProofsExample.v by tools/genprops.py; statements only,
    each closed by [exact]). *)
From Coq Require Import String.
From Verif Require Import Base BaseFacts Params Geom TT2d Bicycle NTrailer Acc Rollout Instances EnvModel Setup Stats Config Tune Planner
  Harness Recipes SpecRecipes SpecHarness SpecGeom SpecBodies SpecAcc SpecEnv SpecStats SpecDefaults SpecDyn SpecTune
  ProofsGeom ProofsBodies ProofsRobots ProofsKin ProofsSafety ProofsAcc ProofsEnv ProofsSetup ProofsDefaults ProofsStats ProofsPlanner ProofsPicture
  ProofsHarness ProofsHarnessRun ProofsHarnessJudge ProofsRecipes ProofsReadme.
From Verif Require Import ProofsExample.
Local Open Scope string_scope.
Local Open Scope list_scope.
Open Scope R_scope.

(** What the example plans for: the acceleration-controlled vehicle, a horizon of 50 steps of 0.25 s, five rectangles
    and four circles and nothing else, a start at (-10, 5) at rest, and a goal at (5, -5) at rest. *)
Theorem C71_setup :
  (exists r, example_setup = Ok r) /\
  forall r, example_setup = Ok r ->
  rb_kind r = KACC /\ p_dt (rb_p r) = 1/4 /\ p_H (rb_p r) = 50%nat /\ rb_amax r = 2 /\ rb_omax r = 1 /\
  p_vmax (rb_p r) = 3 /\ p_dmax (rb_p r) = 55 * PI / 180 /\ p_phi_max (rb_p r) = 40 * PI / 180 /\
  p_sh_coll (rb_p r) = true /\ p_sh_hitch (rb_p r) = true /\ p_proj (rb_p r) = false /\ p_guid (rb_p r) = false /\
  rb_circ r = [mkCircle (15/2) (-2) 1; mkCircle (15/2) (-8) 2; mkCircle (17/2) (-5) (3/2); mkCircle (17/2) 7 (7/2)] /\
  rb_rect r = [mkRect (3/2) (-5) 1 10 0; mkRect 5 (-11) 9 1 0; mkRect (-7/2) (-5) 1 10 (- PI / 4); mkRect (-7/2) 13 (6/5) 10 (PI / 4);
    mkRect (-19/2) 13 (4/5) 5 (- PI / 6)] /\
  rb_x0 r = Some [-10; 5; 0; 0; 0; 0] /\ rb_xg r = Some [5; -5; - PI / 2; - PI / 2; 0; 0].
Proof. exact l_C71_setup. Qed.
Print Assumptions C71_setup.

(** The example starts in a safe pose and at rest. *)
Theorem C71_start_safe :
  forall r, example_setup = Ok r -> starts_safe r.
Proof. exact l_C71_start_safe. Qed.
Print Assumptions C71_start_safe.

(** Planning returns 51 states and 50 controls for all random numbers; the first two states are the start. (That the
    later ones are safe does not hold in general: C23.) *)
Theorem C71_run :
  forall r, example_setup = Ok r ->
  exists x0 xg, rb_x0 r = Some [t_px x0; t_py x0; t_th1 x0; t_th2 x0; 0; 0] /\ rb_xg r = Some [t_px xg; t_py xg; t_th1 xg; t_th2 xg; 0; 0] /\
    tt_safe (rb_p r) (rb_circ r) (rb_rect r) x0 /\
    let s := mkAccSelf (mkTTSelf (rb_p r) (rb_circ r) (rb_rect r) xg) (rb_amax r) (rb_omax r) in
    forall proj guide logpd rx rg, exists out,
    run_diffusion (acc_penv s (mkAcc x0 0 0) proj guide logpd rx) (Some (planner_cfg example_config)) rg = Ok out /\
    length (o_Y0 out) = 50%nat /\ length (o_traj out) = 51%nat /\
    nth_error (o_traj out) 0 = Some (mkAcc x0 0 0) /\
    (forall q, nth_error (o_traj out) 1 = Some q -> a_q q = x0).
Proof. exact l_C71_run. Qed.
Print Assumptions C71_run.

(** C71 (finding): the goal stands on an obstacle: no safe pose has its tractor there. *)
Theorem C71_goal_safe_refuted :
  forall r, example_setup = Ok r ->
  exists goal, rb_xg r = Some [t_px goal; t_py goal; t_th1 goal; t_th2 goal; 0; 0] /\
    forall q, t_px q = t_px goal -> t_py q = t_py goal -> t_th1 q = t_th1 goal -> ~ tt_safe (rb_p r) (rb_circ r) (rb_rect r) q.
Proof. exact l_C71_goal_safe_refuted. Qed.
Print Assumptions C71_goal_safe_refuted.

(** C71 (finding): the start sticks out of the 32 m by 32 m area the example asks for. *)
Theorem C71_start_in_area_refuted :
  forall r, example_setup = Ok r ->
  exists q P, rb_x0 r = Some [t_px q; t_py q; t_th1 q; t_th2 q; 0; 0] /\
    (exists g, In g (tt_bodies (rb_p r) q) /\ solid g P) /\ is_in_bounds (rb_env r) (fst P) (snd P) = false.
Proof. exact l_C71_start_in_area_refuted. Qed.
Print Assumptions C71_start_in_area_refuted.
