(** * Property theorems (generated from ProofsSweepAcc.v by tools/genprops.py; statements only,
    each closed by [exact]). *)
From Coq Require Import String.
From Verif Require Import Base BaseFacts SpecInput SpecPlan InputFacts Params Geom TT2d Bicycle NTrailer Acc SpecGeom SpecBodies SpecDyn SpecAcc SpecDisc SpecSweep
  EnvModel Setup Rollout Planner Instances ProofsGeom ProofsBodies ProofsKin ProofsRobots ProofsSafety ProofsStep ProofsPlanner ProofsEnv ProofsDefaults ProofsDisc
  ProofsSweep ProofsAcc.
From Verif Require Import ProofsSweepAcc.
Local Open Scope string_scope.
Local Open Scope list_scope.
Open Scope R_scope.

(** C59, acceleration class: its shield does not guarantee that the rows of a plan are clear (C23), but if the rows of
    the returned trajectory are found clear of the padded obstacles, then with the padding of C59 nothing listed is
    touched between the rows either - whatever the planner's settings, and with or without shields. *)
Theorem C59_acc_clear_rows_suffice :
  forall r r1 r2 rects mode circs pad (s : acc_self) (x0 : accq) proj guide logpd rew_xref (g : cfg) (rg : prng) out,
  set_rectangle_obs r rects mode pad = (r1, Ok tt) -> set_circle_obs r1 circs pad = (r2, Ok tt) ->
  (forall x y rad, In [x; y; rad] circs -> 0 <= rad) ->
  ts_rect (as_t s) = rb_rect r2 -> ts_circ (as_t s) = rb_circ r2 ->
  p_proj (as_p s) = false -> p_guid (as_p s) = false ->
  proper_vehicle (as_p s) -> tt_sized (as_p s) -> tt_pad_ok (as_p s) pad ->
  (forall c, In c (ts_circ (as_t s)) -> tt_off_disc (as_p s) c (a_q x0)) ->
  run_diffusion (acc_penv s x0 proj guide logpd rew_xref) (Some g) rg = Ok out ->
  Forall (fun q => tt_clear (as_p s) (ts_circ (as_t s)) (ts_rect (as_t s)) (a_q q)) (o_traj out) ->
  forall q q' lam body P, consecutive (o_traj out) q q' -> 0 <= lam <= 1 ->
  In body (tt_bodies (as_p s) (tt_mix lam (a_q q) (a_q q'))) -> solid body P ->
  (forall e, In e rects -> ~ given_rect mode e P) /\ (forall e, In e circs -> ~ given_circle e P).
Proof. exact l_C59_acc_clear_rows_suffice. Qed.
Print Assumptions C59_acc_clear_rows_suffice.

(** Non-vacuity: the default tractor-trailer at 1 m/s between a 2 m x 2 m box 10 m to its left and a disc of radius 1 m
    10 m to its right, both padded by 1.56 m, planned with one control: the row it drives to is clear, and all the
    hypotheses of C59_acc_clear_rows_suffice hold. *)
Example C59_acc_example :
  forall r proj guide logpd rew_xref (g : cfg) (rg : prng), g_Hsample g = 1%nat ->
  exists r1 r2 (s : acc_self) x0 out,
  set_rectangle_obs r [[0; 10; 2; 2]] "center" (156/100) = (r1, Ok tt) /\ set_circle_obs r1 [[0; -10; 1]] (156/100) = (r2, Ok tt) /\
  ts_rect (as_t s) = rb_rect r2 /\ ts_circ (as_t s) = rb_circ r2 /\ p_proj (as_p s) = false /\ p_guid (as_p s) = false /\
  proper_vehicle (as_p s) /\ tt_sized (as_p s) /\ tt_pad_ok (as_p s) (156/100) /\
  (forall c, In c (ts_circ (as_t s)) -> tt_off_disc (as_p s) c (a_q x0)) /\
  run_diffusion (acc_penv s x0 proj guide logpd rew_xref) (Some g) rg = Ok out /\
  Forall (fun q => tt_clear (as_p s) (ts_circ (as_t s)) (ts_rect (as_t s)) (a_q q)) (o_traj out) /\
  map (fun q => t_px (a_q q)) (o_traj out) = [0; 2/10].
Proof. exact x_C59_acc_example. Qed.
