(** * Property theorems (generated from ProofsSweep.v by tools/genprops.py; statements only,
    each closed by [exact]). *)
From Coq Require Import String.
From Verif Require Import Base BaseFacts Params Geom TT2d Bicycle NTrailer SpecGeom SpecBodies SpecDyn SpecDisc SpecSweep
  EnvModel Setup Rollout Planner Instances ProofsGeom ProofsBodies ProofsKin ProofsRobots ProofsStep ProofsSafety ProofsEnv ProofsDefaults ProofsDisc.
From Verif Require Import ProofsSweep.
Local Open Scope string_scope.
Local Open Scope list_scope.
Open Scope R_scope.

(** C59, padding: when an obstacle list is set with padding [pad], every point within [pad] of a listed
    rectangle belongs to one of the rectangles the planner keeps the vehicle away from. *)
Theorem C59_rectangle_padding :
  forall r l mode pad r' e P P', set_rectangle_obs r l mode pad = (r', Ok tt) -> In e l ->
  given_rect mode e P -> dist P P' <= pad ->
  exists o, In o (rb_rect r') /\ solid (obstacle_body o) P'.
Proof. exact l_C59_rectangle_padding. Qed.
Print Assumptions C59_rectangle_padding.

(** C59, padding of circles. *)
Theorem C59_circle_padding :
  forall r l pad r' e P P', set_circle_obs r l pad = (r', Ok tt) -> In e l ->
  given_circle e P -> dist P P' <= pad ->
  exists c, In c (rb_circ r') /\ dist P' (c_x c, c_y c) <= c_r c.
Proof. exact l_C59_circle_padding. Qed.
Print Assumptions C59_circle_padding.

(** C59, one body, any motion: a body that is clear of the padded rectangles at the beginning and at the
    end of a time span of length T, and none of whose points is ever faster than V, touches none of the
    listed rectangles at any time in between, if the padding is at least V T / 2. *)
Theorem C59_any_motion_misses_rectangles :
  forall r l mode pad r' g h m V T,
  set_rectangle_obs r l mode pad = (r', Ok tt) -> 0 <= pad -> V * T <= 2 * pad ->
  (forall o, In o (rb_rect r') -> clear_of_rect g o /\ clear_of_rect h o) ->
  rg_back h = rg_back g -> rg_front h = rg_front g -> rg_half h = rg_half g ->
  moves_between V T g h m ->
  forall t a b e, 0 <= t <= T -> rg_back g <= a <= rg_front g -> - rg_half g <= b <= rg_half g -> In e l ->
  ~ given_rect mode e (m t a b).
Proof. exact l_C59_any_motion_misses_rectangles. Qed.
Print Assumptions C59_any_motion_misses_rectangles.

(** C59, one body, any motion, circles. *)
Theorem C59_any_motion_misses_circles :
  forall r l pad r' g h m V T,
  set_circle_obs r l pad = (r', Ok tt) -> 0 <= pad -> V * T <= 2 * pad ->
  (forall c, In c (rb_circ r') -> off_disc g c /\ off_disc h c) ->
  rg_back h = rg_back g -> rg_front h = rg_front g -> rg_half h = rg_half g ->
  moves_between V T g h m ->
  forall t a b e, 0 <= t <= T -> rg_back g <= a <= rg_front g -> - rg_half g <= b <= rg_half g -> In e l ->
  ~ given_circle e (m t a b).
Proof. exact l_C59_any_motion_misses_circles. Qed.
Print Assumptions C59_any_motion_misses_circles.

(** C59, tractor-trailer: rectangles and circles are set with padding [pad], at least half of what any
    point of the vehicle can travel in one step. If the start is clear (and off the padded discs), then
    at every moment between two consecutive rows of the returned trajectory every point of the vehicle
    is outside every rectangle and every circle as the user listed them. *)
Theorem C59_tt_nothing_touched_between_rows :
  forall r r1 r2 rects mode circs pad (s : tt_self) (x0 : ttq) proj guide logpd rew_xref (g : cfg) (rg : prng) out,
  set_rectangle_obs r rects mode pad = (r1, Ok tt) -> set_circle_obs r1 circs pad = (r2, Ok tt) ->
  (forall x y rad, In [x; y; rad] circs -> 0 <= rad) ->
  ts_rect s = rb_rect r2 -> ts_circ s = rb_circ r2 ->
  p_proj (ts_p s) = false -> p_guid (ts_p s) = false -> p_sh_coll (ts_p s) = true ->
  proper_vehicle (ts_p s) -> tt_sized (ts_p s) -> tt_pad_ok (ts_p s) pad ->
  tt_clear (ts_p s) (ts_circ s) (ts_rect s) x0 -> (forall c, In c (ts_circ s) -> tt_off_disc (ts_p s) c x0) ->
  run_diffusion (tt_penv s x0 proj guide logpd rew_xref) (Some g) rg = Ok out ->
  forall q q' lam body P, consecutive (o_traj out) q q' -> 0 <= lam <= 1 ->
  In body (tt_bodies (ts_p s) (tt_mix lam q q')) -> solid body P ->
  (forall e, In e rects -> ~ given_rect mode e P) /\ (forall e, In e circs -> ~ given_circle e P).
Proof. exact l_C59_tt_nothing_touched_between_rows. Qed.
Print Assumptions C59_tt_nothing_touched_between_rows.

(** C59, bicycle. *)
Theorem C59_bk_nothing_touched_between_rows :
  forall r r1 r2 rects mode circs pad (s : bk_self) (x0 : bkq) proj guide logpd rew_xref (g : cfg) (rg : prng) out,
  set_rectangle_obs r rects mode pad = (r1, Ok tt) -> set_circle_obs r1 circs pad = (r2, Ok tt) ->
  (forall x y rad, In [x; y; rad] circs -> 0 <= rad) ->
  bs_rect s = rb_rect r2 -> bs_circ s = rb_circ r2 ->
  p_proj (bs_p s) = false -> p_guid (bs_p s) = false -> p_sh_coll (bs_p s) = true ->
  proper_tractor (bs_p s) -> tractor_sized (bs_p s) -> bk_pad_ok (bs_p s) pad ->
  bk_safe (bs_p s) (bs_circ s) (bs_rect s) x0 -> (forall c, In c (bs_circ s) -> bk_off_disc (bs_p s) c x0) ->
  run_diffusion (bk_penv s x0 proj guide logpd rew_xref) (Some g) rg = Ok out ->
  forall q q' lam body P, consecutive (o_traj out) q q' -> 0 <= lam <= 1 ->
  In body (bk_bodies (bs_p s) (bk_mix lam q q')) -> solid body P ->
  (forall e, In e rects -> ~ given_rect mode e P) /\ (forall e, In e circs -> ~ given_circle e P).
Proof. exact l_C59_bk_nothing_touched_between_rows. Qed.
Print Assumptions C59_bk_nothing_touched_between_rows.

(** C59, N trailers. *)
Theorem C59_nt_nothing_touched_between_rows :
  forall r r1 r2 rects mode circs pad (s : nt_self) (x0 : ntq) guide logpd rew_xref (g : cfg) (rg : prng) out,
  set_rectangle_obs r rects mode pad = (r1, Ok tt) -> set_circle_obs r1 circs pad = (r2, Ok tt) ->
  (forall x y rad, In [x; y; rad] circs -> 0 <= rad) ->
  ns_rect s = rb_rect r2 -> ns_circ s = rb_circ r2 ->
  p_guid (ns_p s) = false -> p_sh_coll (ns_p s) = true ->
  proper_rig s -> nt_sized s -> nt_pad_ok s pad ->
  nt_clear s x0 -> (forall c, In c (ns_circ s) -> nt_off_disc s c x0) ->
  nt_run s x0 guide logpd rew_xref g rg = Ok out ->
  forall q q' lam body P, consecutive (o_traj out) q q' -> 0 <= lam <= 1 ->
  In body (nt_bodies s (nt_mix lam q q')) -> solid body P ->
  (forall e, In e rects -> ~ given_rect mode e P) /\ (forall e, In e circs -> ~ given_circle e P).
Proof. exact l_C59_nt_nothing_touched_between_rows. Qed.
Print Assumptions C59_nt_nothing_touched_between_rows.

(** C59: the in-between positions are those of the code's own motion law: with both shields off, one
    step of the same vehicle with the time step lam*dt ends exactly at the in-between position. *)
Theorem C59_between_is_a_shorter_step :
  (forall s proj guide st u lam, p_proj (ts_p s) = false -> p_guid (ts_p s) = false ->
     p_sh_coll (ts_p s) = false -> p_sh_hitch (ts_p s) = false ->
     st_q (tt_step (tt_with_dt s (lam * p_dt (ts_p s))) proj guide st u) =
     tt_mix lam (st_q st) (st_q (tt_step s proj guide st u))) /\
  (forall s proj guide st u lam, p_proj (bs_p s) = false -> p_guid (bs_p s) = false -> p_sh_coll (bs_p s) = false ->
     st_q (bk_step (bk_with_dt s (lam * p_dt (bs_p s))) proj guide st u) =
     bk_mix lam (st_q st) (st_q (bk_step s proj guide st u))).
Proof. exact l_C59_between_is_a_shorter_step. Qed.
Print Assumptions C59_between_is_a_shorter_step.

(** C59: for the shipped vehicle and a time step of at most a quarter of a second (the planner's
    default) a padding of 1.56 m is enough for the tractor-trailer, 1.23 m for the tractor alone. *)
Theorem C59_default_vehicle_padding :
  forall p, default_vehicle p -> 0 <= p_dt p <= 1 / 4 ->
  tt_pad_ok p (156 / 100) /\ bk_pad_ok p (123 / 100).
Proof. exact l_C59_default_vehicle_padding. Qed.
Print Assumptions C59_default_vehicle_padding.

(** C59 fails without padding: with the collision shield on, a car 0.3 m long at 3 m/s and a time step of
    a quarter of a second is accepted on both sides of a wall 0.1 m thick and goes through it. *)
Theorem C59_no_padding_refuted :
  forall r, exists r1 (s : bk_self) q u body P,
  set_rectangle_obs r [[1/2; 0; 1/10; 4]] "center" 0 = (r1, Ok tt) /\ bs_rect s = rb_rect r1 /\ bs_circ s = [] /\
  p_proj (bs_p s) = false /\ p_guid (bs_p s) = false /\ p_sh_coll (bs_p s) = true /\
  proper_tractor (bs_p s) /\ tractor_sized (bs_p s) /\ bk_safe (bs_p s) (bs_circ s) (bs_rect s) q /\
  forall proj guide, let q' := st_q (bk_step s proj guide (reset_state q) u) in
    bk_safe (bs_p s) (bs_circ s) (bs_rect s) q' /\ 1/2 < b_px q' /\
    In body (bk_bodies (bs_p s) (bk_mix (1/2) q q')) /\ solid body P /\ given_rect "center" [1/2; 0; 1/10; 4] P.
Proof. exact l_C59_no_padding_refuted. Qed.
Print Assumptions C59_no_padding_refuted.

(** The hypotheses are met: the default vehicle at the origin, a 2 m x 2 m box 10 m to its left and a disc
    of radius 1 m 10 m to its right, padded by 1.56 m. *)
Example C59_tt_hypotheses_example :
  forall r, exists r1 r2 (s : tt_self),
  set_rectangle_obs r [[0; 10; 2; 2]] "center" (156/100) = (r1, Ok tt) /\ set_circle_obs r1 [[0; -10; 1]] (156/100) = (r2, Ok tt) /\
  ts_rect s = rb_rect r2 /\ ts_circ s = rb_circ r2 /\ p_proj (ts_p s) = false /\ p_guid (ts_p s) = false /\ p_sh_coll (ts_p s) = true /\
  proper_vehicle (ts_p s) /\ tt_sized (ts_p s) /\ tt_pad_ok (ts_p s) (156/100) /\
  tt_clear (ts_p s) (ts_circ s) (ts_rect s) (mkTT 0 0 0 0) /\ (forall c, In c (ts_circ s) -> tt_off_disc (ts_p s) c (mkTT 0 0 0 0)).
Proof. exact x_C59_tt_hypotheses_example. Qed.

(** A padding that is enough exists for every rig (here: the default rig of two trailers). *)
Example C59_nt_padding_example : exists pad, nt_pad_ok ex_rig pad /\ proper_rig ex_rig /\ nt_sized ex_rig.
Proof. exact x_C59_nt_padding_example. Qed.

(** A motion between two positions exists: driving straight ahead by one metre in one second at 1 m/s. *)
Example C59_motion_example :
  moves_between 1 1 (tractor_body default_params 0 0 0) (tractor_body default_params 1 0 0) (fun t a b => at_frame (t, 0) 0 a b).
Proof. exact x_C59_motion_example. Qed.
