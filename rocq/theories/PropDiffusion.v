(** * Property theorems (generated from ProofsDiffusion.v by tools/genprops.py; statements only,
    each closed by [exact]). *)
From Verif Require Import Base BaseFacts Params TT2d Rollout Planner Instances SpecPlan SpecDiffusion.
From Verif Require Import ProofsSafety ProofsPlanner.
From Verif Require Import ProofsDiffusion.
Open Scope R_scope.

(** C56: everything run_diffusion returns is what the documented algorithm computes: Ndiffuse - 1
    denoising steps starting from the all-zero control sequence, each drawing the candidates around
    the current mean, executing them with the environment's step, scoring them by mean reward,
    terminal reward and smoothness (and demonstration, if enabled) and averaging the executed
    controls with softmax weights; then executing the last mean, replaying the executed controls
    without guidance and evaluating them. *)
Theorem C56_planner_is_model_based_diffusion :
  forall (Q : Type) (env : penv Q) g rg out, shaped rg -> 0 < pe_dmax env ->
  0 < g_beta0 g < 1 -> 0 < g_betaT g < 1 ->
  run_diffusion env (Some g) rg = Ok out -> planned env g rg out.
Proof. exact l_C56_planner_is_model_based_diffusion. Qed.
Print Assumptions C56_planner_is_model_based_diffusion.

(** C56: conversely the description leaves nothing open: any result that fits it is the one
    run_diffusion returns, so configuration, environment and random generator determine it. *)
Theorem C56_description_determines_result :
  forall (Q : Type) (env : penv Q) g rg out, shaped rg -> 0 < pe_dmax env ->
  0 < g_beta0 g < 1 -> 0 < g_betaT g < 1 ->
  planned env g rg out -> run_diffusion env (Some g) rg = Ok out.
Proof. exact l_C56_description_determines_result. Qed.
Print Assumptions C56_description_determines_result.

(** C56: every candidate command is admissible: speed and steering fractions between -1 and 1, the
    speed on the requested side of zero. *)
Theorem C56_candidates_admissible :
  forall g c Y e us, candidate g c Y e us ->
  Forall in_control_box us /\
  (g_motion g = 2%Z -> Forall (fun u => 0 <= fst u) us) /\ (g_motion g = (-2)%Z -> Forall (fun u => fst u <= 0) us).
Proof. exact l_C56_candidates_admissible. Qed.
Print Assumptions C56_candidates_admissible.

(** C56: with one diffusion step or none nothing is sampled: the zero sequence is executed. *)
Theorem C56_single_step_plan :
  forall (Q : Type) (env : penv Q) g rg out, (g_Ndiffuse g <= 1)%nat -> planned env g rg out ->
  o_Ybars out = [] /\ exists run, executes (pe_step env) (origin env) (repeat (0, 0) (g_Hsample g)) run /\ o_Y0 out = map st_app run.
Proof. exact l_C56_single_step_plan. Qed.
Print Assumptions C56_single_step_plan.

(** C56: one intermediate mean per diffusion step but the first, each with one command per time
    step; as many returned commands, one more returned state. *)
Theorem C56_result_shape :
  forall (Q : Type) (env : penv Q) g rg out, planned env g rg out ->
  length (o_Ybars out) = (g_Ndiffuse g - 1)%nat /\ Forall (fun Y => length Y = g_Hsample g) (o_Ybars out) /\
  length (o_Y0 out) = g_Hsample g /\ length (o_traj out) = S (g_Hsample g).
Proof. exact l_C56_result_shape. Qed.
Print Assumptions C56_result_shape.

Example C56_default_scenario :
  shaped ex_shaped /\ 0 < pe_dmax (tt_penv ex_tt (mkTT 0 0 PI PI) (fun _ u => u) (fun q => q) (fun _ _ => 0) 0) /\
  0 < g_beta0 ex_cfg < 1 /\ 0 < g_betaT ex_cfg < 1 /\
  exists out, run_diffusion (tt_penv ex_tt (mkTT 0 0 PI PI) (fun _ u => u) (fun q => q) (fun _ _ => 0) 0) (Some ex_cfg) ex_shaped = Ok out /\
    length (o_Ybars out) = 99%nat /\ length (o_Y0 out) = 50%nat /\ length (o_traj out) = 51%nat.
Proof. exact x_C56_default_scenario. Qed.
