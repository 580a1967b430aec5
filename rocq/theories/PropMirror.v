(** * Property theorems (generated from ProofsMirror.v by tools/genprops.py; statements only,
    each closed by [exact]). *)
From Verif Require Import Base BaseFacts Params Geom TT2d Bicycle NTrailer Acc SpecGeom SpecBodies SpecDyn SpecSym SpecMirror
  Rollout Planner Instances ProofsGeom ProofsBodies ProofsKin ProofsRobots ProofsSafety ProofsSim ProofsSym ProofsFrame.
From Verif Require Import ProofsMirror.
Open Scope R_scope.

(** C76, tractor-trailer: reflect world, start, goal and the noise's steering draws, and the plan is reflected:
    same longitudinal commands, opposite steering commands, same reward, reflected trajectory; whatever the
    mode, provided projection, guidance and demonstration score are themselves left-right symmetric. *)
Theorem C76_tt_plan_mirrors :
  forall (s : tt_self) (x0 : ttq) proj proj' guide guide' logpd logpd' rx (g : cfg) (rg : prng) out out',
  tt_sized (ts_p s) ->
  (forall q a, proj' (tt_mirror q) (mirror_act a) = mirror_act (proj q a)) ->
  (forall q, guide' (tt_mirror q) = tt_mirror (guide q)) ->
  (forall qs k, logpd' (map tt_mirror qs) k = logpd qs k) ->
  run_diffusion (tt_penv s x0 proj guide logpd rx) (Some g) rg = Ok out ->
  run_diffusion (tt_penv (tt_world_mirror s) (tt_mirror x0) proj' guide' logpd' rx) (Some g) (mirror_noise rg) = Ok out' ->
  o_Y0 out' = map mirror_act (o_Y0 out) /\ o_rew out' = o_rew out /\ o_traj out' = map tt_mirror (o_traj out).
Proof. exact l_C76_tt_plan_mirrors. Qed.
Print Assumptions C76_tt_plan_mirrors.

(** C76, bicycle. *)
Theorem C76_bk_plan_mirrors :
  forall (s : bk_self) (x0 : bkq) proj proj' guide guide' logpd logpd' rx (g : cfg) (rg : prng) out out',
  tractor_sized (bs_p s) ->
  (forall q a, proj' (bk_mirror q) (mirror_act a) = mirror_act (proj q a)) ->
  (forall q, guide' (bk_mirror q) = bk_mirror (guide q)) ->
  (forall qs k, logpd' (map bk_mirror qs) k = logpd qs k) ->
  run_diffusion (bk_penv s x0 proj guide logpd rx) (Some g) rg = Ok out ->
  run_diffusion (bk_penv (bk_world_mirror s) (bk_mirror x0) proj' guide' logpd' rx) (Some g) (mirror_noise rg) = Ok out' ->
  o_Y0 out' = map mirror_act (o_Y0 out) /\ o_rew out' = o_rew out /\ o_traj out' = map bk_mirror (o_traj out).
Proof. exact l_C76_bk_plan_mirrors. Qed.
Print Assumptions C76_bk_plan_mirrors.

(** C76, n-trailer, any number of trailers. *)
Theorem C76_nt_plan_mirrors :
  forall (s : nt_self) (x0 : ntq) guide guide' logpd logpd' rx (g : cfg) (rg : prng) out out',
  nt_sized s ->
  (forall q, guide' (nt_mirror q) = nt_mirror (guide q)) ->
  (forall qs k, logpd' (map nt_mirror qs) k = logpd qs k) ->
  nt_run s x0 guide logpd rx g rg = Ok out ->
  nt_run (nt_world_mirror s) (nt_mirror x0) guide' logpd' rx g (mirror_noise rg) = Ok out' ->
  o_Y0 out' = map mirror_act (o_Y0 out) /\ o_rew out' = o_rew out /\ o_traj out' = map nt_mirror (o_traj out).
Proof. exact l_C76_nt_plan_mirrors. Qed.
Print Assumptions C76_nt_plan_mirrors.

(** C76, acceleration class: the steering angle in the state is reflected too, the speed is not; the braking
    prediction of the shield is symmetric. *)
Theorem C76_acc_plan_mirrors :
  forall (s : acc_self) (x0 : accq) proj proj' guide guide' logpd logpd' rx (g : cfg) (rg : prng) out out',
  tt_sized (as_p s) -> 0 <= p_dmax (as_p s) ->
  (forall q a, proj' (acc_mirror q) (mirror_act a) = mirror_act (proj q a)) ->
  (forall q, guide' (acc_mirror q) = acc_mirror (guide q)) ->
  (forall qs k, logpd' (map acc_mirror qs) k = logpd qs k) ->
  run_diffusion (acc_penv s x0 proj guide logpd rx) (Some g) rg = Ok out ->
  run_diffusion (acc_penv (acc_world_mirror s) (acc_mirror x0) proj' guide' logpd' rx) (Some g) (mirror_noise rg) = Ok out' ->
  o_Y0 out' = map mirror_act (o_Y0 out) /\ o_rew out' = o_rew out /\ o_traj out' = map acc_mirror (o_traj out).
Proof. exact l_C76_acc_plan_mirrors. Qed.
Print Assumptions C76_acc_plan_mirrors.

(** C76, one step of the tractor-trailer, any shields: the mirrored vehicle takes the mirrored step, is stopped
    exactly when the other one is, and collects the same reward. *)
Theorem C76_tt_step_mirrors :
  forall (s : tt_self) (q : ttq) (a : act), tt_sized (ts_p s) -> p_proj (ts_p s) = false -> p_guid (ts_p s) = false ->
  let id1 := fun (_ : ttq) (u : act) => u in
  let id2 := fun q : ttq => q in
  let r := tt_step s id1 id2 (reset_state q) a in
  let r' := tt_step (tt_world_mirror s) id1 id2 (reset_state (tt_mirror q)) (mirror_act a) in
  st_q r' = tt_mirror (st_q r) /\ st_app r' = mirror_act (st_app r) /\ st_rew r' = st_rew r.
Proof. exact l_C76_tt_step_mirrors. Qed.
Print Assumptions C76_tt_step_mirrors.

(** C76, collision verdicts: the mirrored pose hits the mirrored obstacles exactly when the pose hits the
    obstacles, and the hitch limit is the same to the left and to the right. *)
Theorem C76_verdicts_mirror :
  forall (s : tt_self) (q : ttq), tt_sized (ts_p s) ->
  ts_coll (tt_world_mirror s) (tt_mirror q) = ts_coll s q /\
  ts_hitch (tt_world_mirror s) (tt_mirror q) = ts_hitch s q.
Proof. exact l_C76_verdicts_mirror. Qed.
Print Assumptions C76_verdicts_mirror.

(** Non-vacuity: a parking task with an obstacle to the left becomes one with an obstacle to the right, vehicles of
    the default size qualify, and both plans exist for every noise. *)
Example C76_example :
  let s := mkTTSelf default_params [mkCircle 5 3 1] [mkRect 8 (-4) 4 2 (1/2)] (mkTT 10 1 0 0) in
  tt_sized (ts_p s) /\ ts_circ (tt_world_mirror s) = [mkCircle 5 (-3) 1] /\
  ts_rect (tt_world_mirror s) = [mkRect 8 4 4 2 (- (1/2))] /\ tt_world_mirror s <> s /\
  tt_mirror (mkTT 3 4 1 2) = mkTT 3 (-4) (-1) (-2) /\
  forall g rg, exists out out',
    run_diffusion (tt_penv s (mkTT 3 4 1 2) (fun _ u => u) (fun q => q) (fun _ _ => 0) 0) (Some g) rg = Ok out /\
    run_diffusion (tt_penv (tt_world_mirror s) (mkTT 3 (-4) (-1) (-2)) (fun _ u => u) (fun q => q) (fun _ _ => 0) 0)
      (Some g) (mirror_noise rg) = Ok out'.
Proof. exact x_C76_example. Qed.
