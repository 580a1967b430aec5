(** * Property theorems (generated from ProofsFewer.v by tools/genprops.py; statements only,
    each closed by [exact]). *)
From Verif Require Import Base BaseFacts Params Geom TT2d Bicycle NTrailer SpecGeom SpecBodies SpecDyn
  Rollout Planner Instances ProofsGeom ProofsBodies ProofsKin ProofsRobots ProofsSafety ProofsSim ProofsStrict ProofsStats ProofsReach.
From Verif Require Import ProofsFewer.
Open Scope R_scope.

(** C80: with the collision shield off, taking obstacles away leaves the trajectory and the applied controls as they were
    and never lowers the reward of a rollout. *)
Theorem C80_tt_fewer_obstacles_never_worse :
  forall (s : tt_self) circ' rect' (x0 : ttq) proj guide proj' guide' us,
  p_proj (ts_p s) = false -> p_guid (ts_p s) = false -> p_sh_coll (ts_p s) = false -> 0 <= p_coll_pen (ts_p s) ->
  incl circ' (ts_circ s) -> incl rect' (ts_rect s) ->
  let before := rollout_us_with_terminal (tt_step s proj guide) (tt_terminal s) (p_term_w (ts_p s)) (reset_state x0) us in
  let fewer := mkTTSelf (ts_p s) circ' rect' (ts_xg s) in
  let after := rollout_us_with_terminal (tt_step fewer proj' guide') (tt_terminal fewer) (p_term_w (ts_p fewer)) (reset_state x0) us in
  fst (fst before) <= fst (fst after) /\ snd (fst after) = snd (fst before) /\ snd after = snd before.
Proof. exact l_C80_tt_fewer_obstacles_never_worse. Qed.
Print Assumptions C80_tt_fewer_obstacles_never_worse.

(** C80: with either shield on or off, an obstacle matters only if it is touched: if the run among fewer obstacles stays
    clear of the others, adding them changes neither the trajectory nor the applied controls. *)
Theorem C80_tt_untouched_obstacles :
  forall (s : tt_self) circ' rect' (x0 : ttq) proj guide proj' guide' us,
  p_proj (ts_p s) = false -> p_guid (ts_p s) = false ->
  tt_sized (ts_p s) -> proper_obstacles (ts_circ s) (ts_rect s) ->
  incl circ' (ts_circ s) -> incl rect' (ts_rect s) ->
  let fewer := mkTTSelf (ts_p s) circ' rect' (ts_xg s) in
  let run := rollout_us (tt_step fewer proj' guide') (reset_state x0) us in
  (forall q, q = x0 \/ In q (snd (fst run)) -> tt_clear (ts_p s) (ts_circ s) (ts_rect s) q) ->
  snd (fst (rollout_us (tt_step s proj guide) (reset_state x0) us)) = snd (fst run) /\
  snd (rollout_us (tt_step s proj guide) (reset_state x0) us) = snd run.
Proof. exact l_C80_tt_untouched_obstacles. Qed.
Print Assumptions C80_tt_untouched_obstacles.

(** C80 for the bicycle: fewer obstacles are never worse. *)
Theorem C80_bk_fewer_obstacles_never_worse :
  forall (s : bk_self) circ' rect' (x0 : bkq) proj guide proj' guide' us,
  p_proj (bs_p s) = false -> p_guid (bs_p s) = false -> p_sh_coll (bs_p s) = false -> 0 <= p_coll_pen (bs_p s) ->
  incl circ' (bs_circ s) -> incl rect' (bs_rect s) ->
  let before := rollout_us_with_terminal (bk_step s proj guide) (bk_terminal s) (p_term_w (bs_p s)) (reset_state x0) us in
  let fewer := mkBKSelf (bs_p s) circ' rect' (bs_xg s) in
  let after := rollout_us_with_terminal (bk_step fewer proj' guide') (bk_terminal fewer) (p_term_w (bs_p fewer)) (reset_state x0) us in
  fst (fst before) <= fst (fst after) /\ snd (fst after) = snd (fst before) /\ snd after = snd before.
Proof. exact l_C80_bk_fewer_obstacles_never_worse. Qed.
Print Assumptions C80_bk_fewer_obstacles_never_worse.

(** C80 for the bicycle: untouched obstacles do not matter. *)
Theorem C80_bk_untouched_obstacles :
  forall (s : bk_self) circ' rect' (x0 : bkq) proj guide proj' guide' us,
  p_proj (bs_p s) = false -> p_guid (bs_p s) = false ->
  tractor_sized (bs_p s) -> proper_obstacles (bs_circ s) (bs_rect s) ->
  incl circ' (bs_circ s) -> incl rect' (bs_rect s) ->
  let fewer := mkBKSelf (bs_p s) circ' rect' (bs_xg s) in
  let run := rollout_us (bk_step fewer proj' guide') (reset_state x0) us in
  (forall q, q = x0 \/ In q (snd (fst run)) -> bk_safe (bs_p s) (bs_circ s) (bs_rect s) q) ->
  snd (fst (rollout_us (bk_step s proj guide) (reset_state x0) us)) = snd (fst run) /\
  snd (rollout_us (bk_step s proj guide) (reset_state x0) us) = snd run.
Proof. exact l_C80_bk_untouched_obstacles. Qed.
Print Assumptions C80_bk_untouched_obstacles.

(** C80 for N trailers: fewer obstacles are never worse. *)
Theorem C80_nt_fewer_obstacles_never_worse :
  forall (s : nt_self) circ' rect' (x0 : ntq) guide guide' us,
  p_guid (ns_p s) = false -> length (ns_len s) = p_num_trailers (ns_p s) -> length (n_ths x0) = p_num_trailers (ns_p s) ->
  p_sh_coll (ns_p s) = false -> 0 <= p_coll_pen (ns_p s) ->
  incl circ' (ns_circ s) -> incl rect' (ns_rect s) ->
  let before := rollout_us_with_terminal (nt_step_core s guide false) (nt_terminal s) (p_term_w (ns_p s)) (reset_state x0) us in
  let fewer := mkNTSelf (ns_p s) (ns_len s) (ns_front s) (ns_rear s) circ' rect' (ns_xg s) in
  let after := rollout_us_with_terminal (nt_step_core fewer guide' false) (nt_terminal fewer) (p_term_w (ns_p fewer)) (reset_state x0) us in
  fst (fst before) <= fst (fst after) /\ snd (fst after) = snd (fst before) /\ snd after = snd before.
Proof. exact l_C80_nt_fewer_obstacles_never_worse. Qed.
Print Assumptions C80_nt_fewer_obstacles_never_worse.

(** C80 for N trailers: untouched obstacles do not matter. *)
Theorem C80_nt_untouched_obstacles :
  forall (s : nt_self) circ' rect' (x0 : ntq) guide guide' us,
  p_guid (ns_p s) = false ->
  nt_sized s -> length (n_ths x0) = p_num_trailers (ns_p s) -> proper_obstacles (ns_circ s) (ns_rect s) ->
  incl circ' (ns_circ s) -> incl rect' (ns_rect s) ->
  let fewer := mkNTSelf (ns_p s) (ns_len s) (ns_front s) (ns_rear s) circ' rect' (ns_xg s) in
  let run := rollout_us (nt_step_core fewer guide' false) (reset_state x0) us in
  (forall q, q = x0 \/ In q (snd (fst run)) -> nt_clear s q) ->
  snd (fst (rollout_us (nt_step_core s guide false) (reset_state x0) us)) = snd (fst run) /\
  snd (rollout_us (nt_step_core s guide false) (reset_state x0) us) = snd run.
Proof. exact l_C80_nt_untouched_obstacles. Qed.
Print Assumptions C80_nt_untouched_obstacles.

Example C80_one_step_ahead : forall proj guide,
  snd (fst (rollout_us (tt_step ex_tt proj guide) (reset_state (mkTT 0 0 0 0)) [(1, 0)]))
  = snd (fst (rollout_us (tt_step (mkTTSelf default_params [] [] (mkTT 0 0 PI PI)) proj guide) (reset_state (mkTT 0 0 0 0)) [(1, 0)])).
Proof. exact x_C80_one_step_ahead. Qed.
