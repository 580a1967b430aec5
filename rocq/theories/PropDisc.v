(** * Property theorems (generated from ProofsDisc.v by tools/genprops.py; statements only,
    each closed by [exact]). *)
From Coq Require Import String.
From Verif Require Import Base BaseFacts Params Geom TT2d Bicycle NTrailer SpecGeom SpecBodies SpecDyn SpecDisc
  EnvModel Setup Rollout Planner Instances ProofsGeom ProofsBodies ProofsKin ProofsRobots ProofsStep ProofsSafety ProofsEnv ProofsDefaults.
From Verif Require Import ProofsDisc.
Local Open Scope string_scope.
Local Open Scope list_scope.
Open Scope R_scope.

(** C58, motion limits: in one executed step of the tractor-trailer (no projection or guidance), shielded
    or not, the tractor's rear axle moves at most [tractor_slide] and turns at most [tractor_turn], the
    trailer's axle moves at most [trailer_slide] and turns at most [trailer_turn]. *)
Theorem C58_tt_body_motion_limits :
  forall s proj guide st u,
  p_proj (ts_p s) = false -> p_guid (ts_p s) = false -> st_bak st = false -> proper_vehicle (ts_p s) ->
  let p := ts_p s in
  let q := st_q st in
  let q' := st_q (tt_step s proj guide st u) in
  let axle x := ahead (ahead (t_px x, t_py x) (t_th1 x) (- p_lh p)) (t_th2 x) (- p_l2 p) in
  dist (t_px q', t_py q') (t_px q, t_py q) <= tractor_slide p /\
  Rabs (t_th1 q' - t_th1 q) <= tractor_turn p /\
  dist (axle q') (axle q) <= trailer_slide p /\
  Rabs (t_th2 q' - t_th2 q) <= trailer_turn p.
Proof. exact l_C58_tt_body_motion_limits. Qed.
Print Assumptions C58_tt_body_motion_limits.

(** C58, tractor-trailer: if the vehicle starts off a disc that is large enough, every row of the
    returned trajectory is off that disc (with its whole area, not only its outline). *)
Theorem C58_tt_returned_trajectory_off_disc :
  forall (s : tt_self) (x0 : ttq) proj guide logpd rew_xref (g : cfg) (rg : prng) out c,
  p_proj (ts_p s) = false -> p_guid (ts_p s) = false -> p_sh_coll (ts_p s) = true ->
  proper_vehicle (ts_p s) -> tt_sized (ts_p s) ->
  In c (ts_circ s) -> tt_too_large (ts_p s) c ->
  tt_off_disc (ts_p s) c x0 ->
  run_diffusion (tt_penv s x0 proj guide logpd rew_xref) (Some g) rg = Ok out ->
  Forall (tt_off_disc (ts_p s) c) (o_traj out).
Proof. exact l_C58_tt_returned_trajectory_off_disc. Qed.
Print Assumptions C58_tt_returned_trajectory_off_disc.

(** C58: the same for every state visited while scoring any candidate plan. *)
Theorem C58_tt_sampled_rollouts_off_disc :
  forall (s : tt_self) (x0 : ttq) proj guide logpd rew_xref (us : list act) c,
  p_proj (ts_p s) = false -> p_guid (ts_p s) = false -> p_sh_coll (ts_p s) = true ->
  proper_vehicle (ts_p s) -> tt_sized (ts_p s) ->
  In c (ts_circ s) -> tt_too_large (ts_p s) c ->
  tt_off_disc (ts_p s) c x0 ->
  Forall (tt_off_disc (ts_p s) c) (snd (fst (rollout_term (tt_penv s x0 proj guide logpd rew_xref) us))).
Proof. exact l_C58_tt_sampled_rollouts_off_disc. Qed.
Print Assumptions C58_tt_sampled_rollouts_off_disc.

(** C58, bicycle. *)
Theorem C58_bk_returned_trajectory_off_disc :
  forall (s : bk_self) (x0 : bkq) proj guide logpd rew_xref (g : cfg) (rg : prng) out c,
  p_proj (bs_p s) = false -> p_guid (bs_p s) = false -> p_sh_coll (bs_p s) = true ->
  proper_tractor (bs_p s) -> tractor_sized (bs_p s) ->
  In c (bs_circ s) -> bk_too_large (bs_p s) c ->
  bk_off_disc (bs_p s) c x0 ->
  run_diffusion (bk_penv s x0 proj guide logpd rew_xref) (Some g) rg = Ok out ->
  Forall (bk_off_disc (bs_p s) c) (o_traj out).
Proof. exact l_C58_bk_returned_trajectory_off_disc. Qed.
Print Assumptions C58_bk_returned_trajectory_off_disc.

(** C58, bicycle: every state visited while scoring any candidate plan. *)
Theorem C58_bk_sampled_rollouts_off_disc :
  forall (s : bk_self) (x0 : bkq) proj guide logpd rew_xref (us : list act) c,
  p_proj (bs_p s) = false -> p_guid (bs_p s) = false -> p_sh_coll (bs_p s) = true ->
  proper_tractor (bs_p s) -> tractor_sized (bs_p s) ->
  In c (bs_circ s) -> bk_too_large (bs_p s) c ->
  bk_off_disc (bs_p s) c x0 ->
  Forall (bk_off_disc (bs_p s) c) (snd (fst (rollout_term (bk_penv s x0 proj guide logpd rew_xref) us))).
Proof. exact l_C58_bk_sampled_rollouts_off_disc. Qed.
Print Assumptions C58_bk_sampled_rollouts_off_disc.

(** C58, N trailers. *)
Theorem C58_nt_returned_trajectory_off_disc :
  forall (s : nt_self) (x0 : ntq) guide logpd rew_xref (g : cfg) (rg : prng) out c,
  p_guid (ns_p s) = false -> p_sh_coll (ns_p s) = true ->
  proper_rig s -> nt_sized s ->
  In c (ns_circ s) -> nt_too_large s c ->
  nt_off_disc s c x0 ->
  nt_run s x0 guide logpd rew_xref g rg = Ok out ->
  Forall (nt_off_disc s c) (o_traj out).
Proof. exact l_C58_nt_returned_trajectory_off_disc. Qed.
Print Assumptions C58_nt_returned_trajectory_off_disc.

(** C58, N trailers: every state visited while scoring any candidate plan. *)
Theorem C58_nt_sampled_rollouts_off_disc :
  forall (s : nt_self) (x0 : ntq) guide logpd rew_xref (us : list act) c,
  p_guid (ns_p s) = false -> p_sh_coll (ns_p s) = true ->
  proper_rig s -> nt_sized s -> length (n_ths x0) = p_num_trailers (ns_p s) ->
  In c (ns_circ s) -> nt_too_large s c ->
  nt_off_disc s c x0 ->
  Forall (nt_off_disc s c) (snd (fst (rollout_term (nt_penv s x0 guide logpd rew_xref) us))).
Proof. exact l_C58_nt_sampled_rollouts_off_disc. Qed.
Print Assumptions C58_nt_sampled_rollouts_off_disc.

(** C58: for the shipped vehicle and a time step of at most a quarter of a second (the planner's
    default), every disc with a radius of at least 1 m (that of the parked-car discs) is large enough. *)
Theorem C58_default_vehicle_and_discs :
  forall p c, default_vehicle p -> 0 <= p_dt p <= 1 / 4 -> 1 <= c_r c ->
  proper_vehicle p /\ tt_sized p /\ tt_too_large p c /\ bk_too_large p c.
Proof. exact l_C58_default_vehicle_and_discs. Qed.
Print Assumptions C58_default_vehicle_and_discs.

(** C58: every circle of the default parking lot is large enough for the default tractor-trailer. *)
Theorem C58_default_parking_lot :
  forall r, get_env (default_env_args "tt2d" "parking" 1) = Ok r ->
  rb_circ r <> [] /\ proper_vehicle (rb_p r) /\ tt_sized (rb_p r) /\
  forall c, In c (rb_circ r) -> tt_too_large (rb_p r) c.
Proof. exact l_C58_default_parking_lot. Qed.
Print Assumptions C58_default_parking_lot.

(** C58 fails without the size condition: with both shields on, the default tractor-trailer facing a
    post of 5 cm radius drives over it in one accepted full-speed step; it then stands on the post and
    every later check still reports it clear. *)
Theorem C58_small_disc_refuted :
  exists (s : tt_self) (q : ttq) (u : act) (c : circle),
  p_proj (ts_p s) = false /\ p_guid (ts_p s) = false /\ p_sh_coll (ts_p s) = true /\ p_sh_hitch (ts_p s) = true /\
  default_vehicle (ts_p s) /\ ts_circ s = [c] /\ c_r c = (5/100) /\
  tt_off_disc (ts_p s) c q /\ tt_safe (ts_p s) (ts_circ s) (ts_rect s) q /\
  forall proj guide, let q' := st_q (tt_step s proj guide (reset_state q) u) in
    solid (tractor_body (ts_p s) (t_px q') (t_py q') (t_th1 q')) (c_x c, c_y c) /\
    tt_safe (ts_p s) (ts_circ s) (ts_rect s) q'.
Proof. exact l_C58_small_disc_refuted. Qed.
Print Assumptions C58_small_disc_refuted.

(** The hypotheses of the trajectory theorems are met by the default goal pose of the default lot
    (a real start for leaving the space): it is off every disc of the lot. *)
Example C58_default_goal_off_discs :
  exists r q, get_env (default_env_args "tt2d" "parking" 1) = Ok r /\ p_proj (rb_p r) = false /\ p_guid (rb_p r) = false /\
    p_sh_coll (rb_p r) = true /\ (forall c, In c (rb_circ r) -> tt_off_disc (rb_p r) c q).
Proof. exact x_C58_default_goal_off_discs. Qed.

Example C58_nt_hypotheses_example :
  p_guid (ns_p ex_rig) = false /\ p_sh_coll (ns_p ex_rig) = true /\ proper_rig ex_rig /\ nt_sized ex_rig /\
  nt_too_large ex_rig (mkCircle 0 10 (13/10)) /\ nt_off_disc ex_rig (mkCircle 0 10 (13/10)) (mkNT 0 0 0 [0; 0]).
Proof. exact x_C58_nt_hypotheses_example. Qed.
