(** * Property theorems (generated from ProofsGuid.v by tools/genprops.py; statements only,
    each closed by [exact]). *)
From Verif Require Import Base SpecInput SpecPlan InputFacts Params Geom TT2d Bicycle NTrailer Acc Rollout Planner Instances Projection Guidance SpecGeom SpecBodies SpecDyn SpecAcc SpecProj SpecGuid
  BaseFacts ProofsGeom ProofsBodies ProofsRobots ProofsAcc ProofsProj.
From Verif Require Import ProofsGuid.
Open Scope R_scope.

(** C41: whatever the gradient, the step size and the (positive) number of steps, the output is
    within +-100 m and +-2 pi. *)
Theorem C41_tt_bounded :
  forall s grad step n q, p_guid (ts_p s) = true -> (0 < n)%nat -> tt_window (tt_apply_guidance_n s grad step n q).
Proof. exact l_C41_tt_bounded. Qed.
Print Assumptions C41_tt_bounded.

(** C41: the same for guidance as the four vehicle classes call it. *)
Theorem C41_all_bounded :
  (forall s grad q, p_guid (ts_p s) = true -> tt_window (tt_guide s grad q)) /\
  (forall s grad q, p_guid (bs_p s) = true -> bk_window (bk_guide s grad q)) /\
  (forall s grad q, p_guid (ns_p s) = true -> nt_window (nt_guide s grad q)) /\
  (forall s grad q, p_guid (as_p s) = true -> tt_window (a_q (acc_guide s grad q)) /\
      a_v (acc_guide s grad q) = a_v q /\ a_d (acc_guide s grad q) = a_d q).
Proof. exact l_C41_all_bounded. Qed.
Print Assumptions C41_all_bounded.

(** C41: with guidance off it is the identity. *)
Theorem C41_disabled_is_identity :
  (forall s grad q, p_guid (ts_p s) = false -> tt_guide s grad q = q) /\
  (forall s grad q, p_guid (bs_p s) = false -> bk_guide s grad q = q) /\
  (forall s grad q, p_guid (ns_p s) = false -> nt_guide s grad q = q) /\
  (forall s grad q, p_guid (as_p s) = false -> acc_guide s grad q = q).
Proof. exact l_C41_disabled_is_identity. Qed.
Print Assumptions C41_disabled_is_identity.

(** C41: while denoising (visualisation mode off) the next state is the plain motion under the
    clipped command and the applied action is that command, whatever guidance does; the reward is
    computed at the guided state, with its collision and hitch flags. *)
Theorem C41_tt_denoising_step :
  forall s proj guide st a, p_proj (ts_p s) = false -> p_guid (ts_p s) = true -> st_bak st = false ->
  let st' := tt_step s proj guide st a in
  let next := tt_plain (ts_p s) (st_q st) (saturated a) in
  st_q st' = next /\ st_app st' = saturated a /\ st_bak st' = false /\
  st_rew st' = tt_reward s (guide next) - (if ts_coll s (guide next) then p_coll_pen (ts_p s) else 0) - (if ts_hitch s (guide next) then p_hitch_pen (ts_p s) else 0)
    - direction_charge (ts_p s) (fst (saturated a) * p_vmax (ts_p s)).
Proof. exact l_C41_tt_denoising_step. Qed.
Print Assumptions C41_tt_denoising_step.

Theorem C41_bk_denoising_step :
  forall s proj guide st a, p_proj (bs_p s) = false -> p_guid (bs_p s) = true -> st_bak st = false ->
  let st' := bk_step s proj guide st a in
  let next := bk_plain (bs_p s) (st_q st) (saturated a) in
  st_q st' = next /\ st_app st' = saturated a /\ st_bak st' = false /\
  st_rew st' = bk_reward s (guide next) - (if bs_coll s (guide next) then p_coll_pen (bs_p s) else 0)
    - direction_charge (bs_p s) (fst (saturated a) * p_vmax (bs_p s)).
Proof. exact l_C41_bk_denoising_step. Qed.
Print Assumptions C41_bk_denoising_step.

Theorem C41_nt_denoising_step :
  forall s guide st a, p_guid (ns_p s) = true -> st_bak st = false ->
  length (n_ths (st_q st)) = p_num_trailers (ns_p s) -> length (ns_len s) = p_num_trailers (ns_p s) ->
  let st' := nt_step_core s guide false st a in
  let next := nt_plain s (st_q st) (saturated a) in
  st_q st' = next /\ st_app st' = saturated a /\ st_bak st' = false /\
  st_rew st' = nt_reward s (guide next) - (if ns_coll s (guide next) then p_coll_pen (ns_p s) else 0) - (if nt_hitch s (guide next) then p_hitch_pen (ns_p s) else 0)
    - direction_charge (ns_p s) (fst (saturated a) * p_vmax (ns_p s)).
Proof. exact l_C41_nt_denoising_step. Qed.
Print Assumptions C41_nt_denoising_step.

Theorem C41_acc_denoising_step :
  forall s proj guide st a, p_proj (as_p s) = false -> p_guid (as_p s) = true -> st_bak st = false ->
  0 <= p_vmax (as_p s) -> 0 <= p_dmax (as_p s) ->
  let st' := acc_step s proj guide st a in
  let next := acc_drive (as_p s) (p_dt (as_p s)) (st_q st) (fst (saturated a) * as_amax s) (snd (saturated a) * as_omax s) in
  st_q st' = next /\ st_app st' = saturated a /\ st_bak st' = false /\
  st_rew st' = acc_reward s (guide next) - (if as_coll s (guide next) then p_coll_pen (as_p s) else 0) - (if as_hitch s (guide next) then p_hitch_pen (as_p s) else 0)
    - direction_charge (as_p s) (a_v next).
Proof. exact l_C41_acc_denoising_step. Qed.
Print Assumptions C41_acc_denoising_step.

(** C41: a whole denoising rollout with guidance on is, in its states and applied actions, the
    plain unshielded motion under the limited commands, for every guidance behaviour. *)
Theorem C41_tt_denoising_rollout :
  forall s proj guide x0 us, p_proj (ts_p s) = false -> p_guid (ts_p s) = true ->
  let '(_, qs, app) := rollout_us (tt_step s proj guide) (reset_state x0) us in
  qs = drive (tt_plain (ts_p s)) x0 (map limited us) /\ app = map limited us.
Proof. exact l_C41_tt_denoising_rollout. Qed.
Print Assumptions C41_tt_denoising_rollout.

Theorem C41_bk_denoising_rollout :
  forall s proj guide x0 us, p_proj (bs_p s) = false -> p_guid (bs_p s) = true ->
  let '(_, qs, app) := rollout_us (bk_step s proj guide) (reset_state x0) us in
  qs = drive (bk_plain (bs_p s)) x0 (map limited us) /\ app = map limited us.
Proof. exact l_C41_bk_denoising_rollout. Qed.
Print Assumptions C41_bk_denoising_rollout.

Theorem C41_nt_denoising_rollout :
  forall s guide x0 us, p_guid (ns_p s) = true ->
  length (n_ths x0) = p_num_trailers (ns_p s) -> length (ns_len s) = p_num_trailers (ns_p s) ->
  let '(_, qs, app) := rollout_us (nt_step_core s guide false) (reset_state x0) us in
  qs = drive (nt_plain s) x0 (map limited us) /\ app = map limited us.
Proof. exact l_C41_nt_denoising_rollout. Qed.
Print Assumptions C41_nt_denoising_rollout.

(** C41: with the acceleration vehicle, one rollout = plain motion too (the warm-up step moves
    it: zero acceleration is not standing still, see C25). *)
Theorem C41_acc_denoising_scan :
  forall s proj guide st us, p_proj (as_p s) = false -> p_guid (as_p s) = true -> st_bak st = false ->
  0 <= p_vmax (as_p s) -> 0 <= p_dmax (as_p s) ->
  let outs := snd (scan_us (acc_step s proj guide) st us) in
  map (fun o => snd (fst o)) outs =
    drive (fun q u => acc_drive (as_p s) (p_dt (as_p s)) q (fst u * as_amax s) (snd u * as_omax s)) (st_q st) (map limited us) /\
  map snd outs = map limited us.
Proof. exact l_C41_acc_denoising_scan. Qed.
Print Assumptions C41_acc_denoising_scan.

(** C41: consequently guidance cannot influence the states or applied actions of denoising
    rollouts: any two guidance functions give the same ones. *)
Theorem C41_guidance_off_dynamics :
  forall s proj guide guide' x0 us, p_proj (ts_p s) = false -> p_guid (ts_p s) = true ->
  let '(_, qs, app) := rollout_us (tt_step s proj guide) (reset_state x0) us in
  let '(_, qs', app') := rollout_us (tt_step s proj guide') (reset_state x0) us in
  qs = qs' /\ app = app'.
Proof. exact l_C41_guidance_off_dynamics. Qed.
Print Assumptions C41_guidance_off_dynamics.

(** C41: in visualisation mode (the final trajectory) the state jumps to the guided one. *)
Theorem C41_tt_visualised_step :
  forall s proj guide st a, p_proj (ts_p s) = false -> p_guid (ts_p s) = true -> st_bak st = false ->
  st_q (tt_step_internal s proj guide true st a) = guide (tt_plain (ts_p s) (st_q st) (saturated a)).
Proof. exact l_C41_tt_visualised_step. Qed.
Print Assumptions C41_tt_visualised_step.

(** C41: the cost guidance descends is never negative, and zero exactly when both axle points are
    at least 2 m from every post and the hitch angle, read modulo at most one turn, is within its
    limit. Rectangular obstacles and the outlines of the bodies play no role. *)
Theorem C41_tt_cost_zero_iff :
  forall s x, 0 <= tt_guidance_cost s x /\
  (tt_guidance_cost s x = 0 <->
   (forall c, In c (ts_circ s) -> c_r c + 2 <= dist (tractor_axle x) (c_x c, c_y c) /\
                                  c_r c + 2 <= dist (trailer_axle (ts_p s) x) (c_x c, c_y c)) /\
   (Rabs (t_th1 x - t_th2 x) <= p_phi_max (ts_p s) \/ Rabs (t_th1 x - t_th2 x + 2 * PI) <= p_phi_max (ts_p s) \/
    Rabs (t_th1 x - t_th2 x - 2 * PI) <= p_phi_max (ts_p s))).
Proof. exact l_C41_tt_cost_zero_iff. Qed.
Print Assumptions C41_tt_cost_zero_iff.

(** C41: with the true gradient, guidance leaves every state alone that is inside the window, has
    both axles more than 2 m from every post and the hitch strictly within its limit. *)
Theorem C41_tt_roomy_unchanged :
  forall s grad q, is_gradient (tt_guidance_cost s) grad -> tt_window q -> roomy (ts_p s) (ts_circ s) q -> tt_guide s grad q = q.
Proof. exact l_C41_tt_roomy_unchanged. Qed.
Print Assumptions C41_tt_roomy_unchanged.

(** C41: with up to 20 obstacles the cost does not depend on the rectangular obstacles at all. *)
Theorem C41_rectangles_ignored :
  forall p circ rect rect' xg x, (length circ + length rect <= 20)%nat -> (length circ + length rect' <= 20)%nat ->
  tt_guidance_cost (mkTTSelf p circ rect xg) x = tt_guidance_cost (mkTTSelf p circ rect' xg) x.
Proof. exact l_C41_rectangles_ignored. Qed.
Print Assumptions C41_rectangles_ignored.

(** C41 (refuted): the claim "guidance keeps a state that is safe". A vehicle in free space that has
    turned by more than a full turn gets its heading changed: the window is imposed on the raw
    angle. *)
Theorem C41_safe_state_kept_refuted :
  exists s q, p_guid (ts_p s) = true /\ tt_safe (ts_p s) (ts_circ s) (ts_rect s) q /\ pos_ok (t_px q) /\ pos_ok (t_py q) /\
  forall grad, is_gradient (tt_guidance_cost s) grad ->
    exists k : R, 0 < k < PI /\ t_th1 (tt_guide s grad q) = t_th1 q - k.
Proof. exact l_C41_safe_state_kept_refuted. Qed.
Print Assumptions C41_safe_state_kept_refuted.

(** C41 (refuted): the claim "guidance moves a vehicle that touches an obstacle". A trailer standing
    in the middle of a rectangular obstacle is left exactly where it is. *)
Theorem C41_rectangle_avoidance_refuted :
  exists s q, p_guid (ts_p s) = true /\ ts_coll s q = true /\
  forall grad, is_gradient (tt_guidance_cost s) grad -> tt_guide s grad q = q.
Proof. exact l_C41_rectangle_avoidance_refuted. Qed.
Print Assumptions C41_rectangle_avoidance_refuted.

(** C41 (refuted): the claim "the trajectory returned with guidance on is a motion of the vehicle".
    Whatever the commands, a vehicle 150 m from the origin is put back to 100 m in one step. *)
Theorem C41_returned_trajectory_is_motion_refuted :
  exists s st, p_guid (ts_p s) = true /\ p_proj (ts_p s) = false /\
  forall proj grad a, t_px (st_q (tt_step_internal s proj (tt_guide s grad) true st a)) <= t_px (st_q st) - 50 /\
    p_dt (ts_p s) * p_vmax (ts_p s) < 1.
Proof. exact l_C41_returned_trajectory_is_motion_refuted. Qed.
Print Assumptions C41_returned_trajectory_is_motion_refuted.

(** A gradient exists: for a vehicle without circular obstacles at any aligned pose the premises
    of the theorems above hold. *)
Example C41_example :
  let s := mkTTSelf (with_modes default_params false true) [mkCircle 20 0 1] [] (mkTT 0 0 0 0) in
  p_guid (ts_p s) = true /\ p_proj (ts_p s) = false /\ tt_window (mkTT 1 2 0 0) /\ roomy (ts_p s) (ts_circ s) (mkTT 1 0 0 0) /\
  tt_guidance_cost s (mkTT 1 0 0 0) = 0.
Proof. exact x_C41_example. Qed.
