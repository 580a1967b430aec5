(** * Property theorems (generated from ProofsSymAcc.v by tools/genprops.py; statements only,
    each closed by [exact]). *)
From Verif Require Import Base BaseFacts Params Geom TT2d Bicycle NTrailer Acc SpecGeom SpecBodies SpecDyn SpecSym
  Rollout Planner Instances ProofsGeom ProofsBodies ProofsKin ProofsRobots ProofsSafety ProofsSim ProofsSym ProofsFrame.
From Verif Require Import ProofsSymAcc.
Open Scope R_scope.

(** C17, acceleration class: verdicts, predicted braking manoeuvre and rewards do not see whole turns. *)
Theorem C17_acc_winding :
  forall (s : acc_self) (xg' : ttq) (q q' : accq), acc_same_pose q q' -> tt_same_pose (ts_xg (as_t s)) xg' ->
  let s' := mkAccSelf (mkTTSelf (as_p s) (ts_circ (as_t s)) (ts_rect (as_t s)) xg') (as_amax s) (as_omax s) in
  as_coll s' q' = as_coll s q /\ as_hitch s' q' = as_hitch s q /\
  check_with_rollout s' q' = check_with_rollout s q /\
  acc_reward s' q' = acc_reward s q /\ acc_terminal s' q' = acc_terminal s q.
Proof. exact l_C17_acc_winding. Qed.
Print Assumptions C17_acc_winding.

(** C17, acceleration class: planning from a start that differs by whole turns gives the same plan, the
    same reward and the same trajectory up to whole turns, in every mode. *)
Theorem C17_acc_plan_winding :
  forall (s : acc_self) (x0 x0' : accq) (xg' : ttq) proj guide logpd rx (g : cfg) (rg : prng) out out',
  acc_same_pose x0 x0' -> tt_same_pose (ts_xg (as_t s)) xg' ->
  (forall q q' a, acc_same_pose q q' -> proj q a = proj q' a) ->
  (forall q q', acc_same_pose q q' -> acc_same_pose (guide q) (guide q')) ->
  (forall qs qs' m, Forall2 acc_same_pose qs qs' -> logpd qs m = logpd qs' m) ->
  run_diffusion (acc_penv s x0 proj guide logpd rx) (Some g) rg = Ok out ->
  run_diffusion (acc_penv (mkAccSelf (mkTTSelf (as_p s) (ts_circ (as_t s)) (ts_rect (as_t s)) xg') (as_amax s) (as_omax s))
    x0' proj guide logpd rx) (Some g) rg = Ok out' ->
  o_Y0 out' = o_Y0 out /\ o_rew out' = o_rew out /\ Forall2 acc_same_pose (o_traj out) (o_traj out').
Proof. exact l_C17_acc_plan_winding. Qed.
Print Assumptions C17_acc_plan_winding.

(** C45, acceleration class: move world, start and goal by one rigid motion and the plan, its reward and the
    trajectory move along, in every mode. *)
Theorem C45_acc_plan_moves_along :
  forall (m : motion) (s : acc_self) (x0 : accq) proj proj' guide guide' logpd logpd' rx (g : cfg) (rg : prng) out out',
  (forall q a, proj' (acc_move m q) a = proj q a) ->
  (forall q, guide' (acc_move m q) = acc_move m (guide q)) ->
  (forall qs k, logpd' (map (acc_move m) qs) k = logpd qs k) ->
  run_diffusion (acc_penv s x0 proj guide logpd rx) (Some g) rg = Ok out ->
  run_diffusion (acc_penv (acc_world_move m s) (acc_move m x0) proj' guide' logpd' rx) (Some g) rg = Ok out' ->
  o_Y0 out' = o_Y0 out /\ o_rew out' = o_rew out /\ o_traj out' = map (acc_move m) (o_traj out).
Proof. exact l_C45_acc_plan_moves_along. Qed.
Print Assumptions C45_acc_plan_moves_along.

(** C45, acceleration class, one step without projection and guidance: same decision, same applied action,
    same reward, moved state. *)
Theorem C45_acc_step_moves_along :
  forall (m : motion) (s : acc_self) (st st' : State accq) (a : act),
  p_proj (as_p s) = false -> p_guid (as_p s) = false ->
  st_q st' = acc_move m (st_q st) -> st_bak st' = st_bak st ->
  let id1 := fun (_ : accq) (u : act) => u in
  let id2 := fun q : accq => q in
  let r := acc_step s id1 id2 st a in
  let r' := acc_step (acc_world_move m s) id1 id2 st' a in
  st_q r' = acc_move m (st_q r) /\ st_app r' = st_app r /\ st_rew r' = st_rew r /\ st_bak r' = st_bak r.
Proof. exact l_C45_acc_step_moves_along. Qed.
Print Assumptions C45_acc_step_moves_along.

(** Non-vacuity: speed and steering angle stay, the pose turns. *)
Example C45_acc_example :
  acc_move (mkMotion (PI / 2) (1, 2)) (mkAcc (mkTT 3 4 0 0) 1 2) = mkAcc (mkTT (-3) 5 (PI / 2) (PI / 2)) 1 2 /\
  acc_same_pose (mkAcc (mkTT 3 4 0 0) 1 2) (mkAcc (mkTT 3 4 (2 * PI) (-2 * PI)) 1 2).
Proof. exact x_C45_acc_example. Qed.
