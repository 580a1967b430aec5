(** * Property theorems (generated from ProofsFrame.v by tools/genprops.py; statements only,
    each closed by [exact]). *)
From Verif Require Import Base BaseFacts Params Geom TT2d Bicycle NTrailer SpecGeom SpecBodies SpecDyn SpecSym
  Rollout Planner Instances ProofsGeom ProofsBodies ProofsKin ProofsRobots ProofsSafety ProofsSim ProofsSym.
From Verif Require Import ProofsFrame.
Open Scope R_scope.

(** C45, tractor-trailer: planning in the moved world (start, goal, obstacles moved by the same
    rigid motion) returns the same controls and the same final reward, and the moved
    trajectory - in every mode, provided the demonstration score, projection and guidance
    are moved along too. *)
Theorem C45_tt_plan_moves_along :
  forall (m : motion) (s : tt_self) (x0 : ttq) proj proj' guide guide' logpd logpd' rx (g : cfg) (rg : prng) out out',
  (forall q a, proj' (tt_move m q) a = proj q a) ->
  (forall q, guide' (tt_move m q) = tt_move m (guide q)) ->
  (forall qs k, logpd' (map (tt_move m) qs) k = logpd qs k) ->
  run_diffusion (tt_penv s x0 proj guide logpd rx) (Some g) rg = Ok out ->
  run_diffusion (tt_penv (tt_world_move m s) (tt_move m x0) proj' guide' logpd' rx) (Some g) rg = Ok out' ->
  o_Y0 out' = o_Y0 out /\ o_rew out' = o_rew out /\ o_traj out' = map (tt_move m) (o_traj out).
Proof. exact l_C45_tt_plan_moves_along. Qed.
Print Assumptions C45_tt_plan_moves_along.

Theorem C45_bk_plan_moves_along :
  forall (m : motion) (s : bk_self) (x0 : bkq) proj proj' guide guide' logpd logpd' rx (g : cfg) (rg : prng) out out',
  (forall q a, proj' (bk_move m q) a = proj q a) ->
  (forall q, guide' (bk_move m q) = bk_move m (guide q)) ->
  (forall qs k, logpd' (map (bk_move m) qs) k = logpd qs k) ->
  run_diffusion (bk_penv s x0 proj guide logpd rx) (Some g) rg = Ok out ->
  run_diffusion (bk_penv (bk_world_move m s) (bk_move m x0) proj' guide' logpd' rx) (Some g) rg = Ok out' ->
  o_Y0 out' = o_Y0 out /\ o_rew out' = o_rew out /\ o_traj out' = map (bk_move m) (o_traj out).
Proof. exact l_C45_bk_plan_moves_along. Qed.
Print Assumptions C45_bk_plan_moves_along.

(** C45, N trailers, N >= 1. *)
Theorem C45_nt_plan_moves_along :
  forall (m : motion) (s : nt_self) (x0 : ntq) guide guide' logpd logpd' rx (g : cfg) (rg : prng) out out',
  (1 <= p_num_trailers (ns_p s))%nat -> length (n_ths (ns_xg s)) = p_num_trailers (ns_p s) ->
  length (ns_len s) = p_num_trailers (ns_p s) ->
  (forall q, length (n_ths q) = p_num_trailers (ns_p s) ->
     guide' (nt_move m q) = nt_move m (guide q) /\ length (n_ths (guide q)) = p_num_trailers (ns_p s)) ->
  (forall qs k, logpd' (map (nt_move m) qs) k = logpd qs k) ->
  nt_run s x0 guide logpd rx g rg = Ok out ->
  nt_run (nt_world_move m s) (nt_move m x0) guide' logpd' rx g rg = Ok out' ->
  o_Y0 out' = o_Y0 out /\ o_rew out' = o_rew out /\ o_traj out' = map (nt_move m) (o_traj out).
Proof. exact l_C45_nt_plan_moves_along. Qed.
Print Assumptions C45_nt_plan_moves_along.

(** C45: single step, tractor-trailer: same decision, same applied action, same reward, moved
    state, for every state and command. *)
Theorem C45_tt_step_moves_along :
  forall (m : motion) (s : tt_self) (st st' : State ttq) (a : act),
  p_proj (ts_p s) = false -> p_guid (ts_p s) = false ->
  st_q st' = tt_move m (st_q st) -> st_bak st' = st_bak st ->
  let id1 := fun (_ : ttq) (u : act) => u in
  let id2 := fun q : ttq => q in
  let r := tt_step s id1 id2 st a in
  let r' := tt_step (tt_world_move m s) id1 id2 st' a in
  st_q r' = tt_move m (st_q r) /\ st_app r' = st_app r /\ st_rew r' = st_rew r /\ st_bak r' = st_bak r.
Proof. exact l_C45_tt_step_moves_along. Qed.
Print Assumptions C45_tt_step_moves_along.

(** Non-vacuity: a quarter turn with a shift really moves the example world. *)
Example C45_example :
  tt_move (mkMotion (PI / 2) (1, 2)) (mkTT 3 4 0 0) = mkTT (-3) 5 (PI / 2) (PI / 2).
Proof. exact x_C45_example. Qed.
