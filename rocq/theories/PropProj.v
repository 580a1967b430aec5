(** * Property theorems (generated from ProofsProj.v by tools/genprops.py; statements only,
    each closed by [exact]). *)
From Verif Require Import Base SpecInput SpecPlan InputFacts Params Geom TT2d Bicycle NTrailer Acc Rollout Projection SpecGeom SpecBodies SpecDyn SpecAcc SpecProj
  BaseFacts ProofsGeom ProofsBodies ProofsRobots ProofsAcc.
From Verif Require Import ProofsProj.
Open Scope R_scope.

(** C40: the signed distance of a point to a box is negative exactly strictly inside, zero
    exactly on the outline, positive exactly outside. *)
Theorem C40_signed_distance_sign :
  forall P c h ang, 0 <= fst h -> 0 <= snd h ->
  (sdf_box P c h ang < 0 <-> interior (box c h ang) P) /\
  (sdf_box P c h ang = 0 <-> outline (box c h ang) P) /\
  (0 < sdf_box P c h ang <-> ~ solid (box c h ang) P).
Proof. exact l_C40_signed_distance_sign. Qed.
Print Assumptions C40_signed_distance_sign.

(** C40: outside the box the value is the distance to the nearest point of the box. *)
Theorem C40_signed_distance_outside :
  forall P c h ang, 0 <= fst h -> 0 <= snd h -> ~ solid (box c h ang) P ->
  (forall Q, solid (box c h ang) Q -> sdf_box P c h ang <= dist P Q) /\
  (exists Q, solid (box c h ang) Q /\ sdf_box P c h ang = dist P Q).
Proof. exact l_C40_signed_distance_outside. Qed.
Print Assumptions C40_signed_distance_outside.

(** C40: inside the box the value is minus the distance to the nearest point of the outline. *)
Theorem C40_signed_distance_inside :
  forall P c h ang, solid (box c h ang) P ->
  (forall Q, outline (box c h ang) Q -> - sdf_box P c h ang <= dist P Q) /\
  (exists Q, outline (box c h ang) Q /\ - sdf_box P c h ang = dist P Q).
Proof. exact l_C40_signed_distance_inside. Qed.
Print Assumptions C40_signed_distance_inside.

(** C40: the circle constraint of a box is positive exactly when no point of the closed disc is in
    the box. *)
Theorem C40_circle_constraint_exact :
  forall C r c h ang, 0 <= fst h -> 0 <= snd h -> 0 <= r ->
  (0 < sdf_box C c h ang - r <-> forall P, solid (box c h ang) P -> r < dist P C).
Proof. exact l_C40_circle_constraint_exact. Qed.
Print Assumptions C40_circle_constraint_exact.

(** C40: a non-negative circle constraint (all the optimiser promises) still keeps the open disc
    out of the box. *)
Theorem C40_circle_constraint_nonneg :
  forall C r c h ang, 0 <= fst h -> 0 <= snd h -> 0 <= r -> 0 <= sdf_box C c h ang - r ->
  forall P, solid (box c h ang) P -> r <= dist P C.
Proof. exact l_C40_circle_constraint_nonneg. Qed.
Print Assumptions C40_circle_constraint_nonneg.

(** C40: a positive two-box gap implies disjoint boxes (for any sizes). *)
Theorem C40_gap_positive_disjoint :
  forall c1 h1 a1 c2 h2 a2, 0 < sdf_two_boxes c1 h1 a1 c2 h2 a2 -> disjoint (box c1 h1 a1) (box c2 h2 a2).
Proof. exact l_C40_gap_positive_disjoint. Qed.
Print Assumptions C40_gap_positive_disjoint.

(** C40: for proper rectangles the gap is positive exactly when they are disjoint: four axes
    suffice. *)
Theorem C40_gap_exact :
  forall c1 h1 a1 c2 h2 a2, 0 < fst h1 -> 0 < snd h1 -> 0 < fst h2 -> 0 < snd h2 ->
  (0 < sdf_two_boxes c1 h1 a1 c2 h2 a2 <-> disjoint (box c1 h1 a1) (box c2 h2 a2)).
Proof. exact l_C40_gap_exact. Qed.
Print Assumptions C40_gap_exact.

(** C40: a non-negative gap (all the optimiser promises) still means that no point of either box
    lies strictly inside the other. *)
Theorem C40_gap_nonneg :
  forall c1 h1 a1 c2 h2 a2, 0 <= sdf_two_boxes c1 h1 a1 c2 h2 a2 ->
  forall P, ~ (interior (box c1 h1 a1) P /\ solid (box c2 h2 a2) P) /\
            ~ (solid (box c1 h1 a1) P /\ interior (box c2 h2 a2) P).
Proof. exact l_C40_gap_nonneg. Qed.
Print Assumptions C40_gap_nonneg.

(** C40: the gap never overstates: it is at most the distance between any two points of the boxes. *)
Theorem C40_gap_at_most_distance :
  forall c1 h1 a1 c2 h2 a2 P Q, solid (box c1 h1 a1) P -> solid (box c2 h2 a2) Q ->
  sdf_two_boxes c1 h1 a1 c2 h2 a2 <= dist P Q.
Proof. exact l_C40_gap_at_most_distance. Qed.
Print Assumptions C40_gap_at_most_distance.

(** C40 (refuted variant): the gap is not the distance: two unit squares diagonally apart are
    sqrt 2 apart but the gap says 1. *)
Theorem C40_gap_is_distance_refuted :
  sdf_two_boxes (0, 0) (1, 1) 0 (3, 3) (1, 1) 0 = 1 /\
  (forall P Q, solid (box (0, 0) (1, 1) 0) P -> solid (box (3, 3) (1, 1) 0) Q -> sqrt 2 <= dist P Q).
Proof. exact l_C40_gap_is_distance_refuted. Qed.
Print Assumptions C40_gap_is_distance_refuted.

(** C40: for the car the constraints handed to the optimiser are all positive at a pose exactly
    when the solid body meets no (closed) obstacle there. *)
Theorem C40_bk_constraints_exact :
  forall s x, tractor_sized (bs_p s) -> proper_obstacles (bs_circ s) (bs_rect s) ->
  (Forall (fun c => 0 < c) (bk_constraints_at s x) <-> free_bodies (bk_bodies (bs_p s) x) (bs_circ s) (bs_rect s)).
Proof. exact l_C40_bk_constraints_exact. Qed.
Print Assumptions C40_bk_constraints_exact.

(** C40: hence positive constraints imply the collision check accepts the pose. *)
Theorem C40_bk_constraints_imply_safe :
  forall s x, tractor_sized (bs_p s) -> proper_obstacles (bs_circ s) (bs_rect s) ->
  Forall (fun c => 0 < c) (bk_constraints_at s x) ->
  bk_safe (bs_p s) (bs_circ s) (bs_rect s) x /\ bs_coll s x = false.
Proof. exact l_C40_bk_constraints_imply_safe. Qed.
Print Assumptions C40_bk_constraints_imply_safe.

(** C40: the pose the constraints look at is the Simpson prediction of the car. *)
Theorem C40_bk_constraint_pose :
  forall s q u, bk_constraint s q u = bk_constraints_at s (bk_predicted (bs_p s) q u).
Proof. exact l_C40_bk_constraint_pose. Qed.
Print Assumptions C40_bk_constraint_pose.

(** C40: one step of the tractor-trailer with projection on. [r] is what the optimiser did when
    asked for the command closest to the (clipped) original one under the constraints at the
    current state. On success its answer is applied, otherwise the original command; the next
    state is the plain motion under the applied command. *)
Theorem C40_tt_step :
  forall s m guide st a, p_proj (ts_p s) = true ->
  let u := saturated a in
  let r := m (fun x => (fst x - fst u) * (fst x - fst u) + (snd x - snd u) * (snd x - snd u)) u
             (mkBounds (-1, 1) (-1, 1)) (tt_constraint s (st_q st)) in
  let st' := tt_step_p s m guide st a in
  (forall x, r = OptDone true x -> st_app st' = x) /\
  ((forall x, r <> OptDone true x) -> st_app st' = u) /\
  st_q st' = tt_plain (ts_p s) (st_q st) (st_app st').
Proof. exact l_C40_tt_step. Qed.
Print Assumptions C40_tt_step.

Theorem C40_bk_step :
  forall s m guide st a, p_proj (bs_p s) = true ->
  let u := saturated a in
  let r := m (fun x => (fst x - fst u) * (fst x - fst u) + (snd x - snd u) * (snd x - snd u)) u
             (mkBounds (-1, 1) (-1, 1)) (bk_constraint s (st_q st)) in
  let st' := bk_step_p s m guide st a in
  (forall x, r = OptDone true x -> st_app st' = x) /\
  ((forall x, r <> OptDone true x) -> st_app st' = u) /\
  st_q st' = bk_plain (bs_p s) (st_q st) (st_app st').
Proof. exact l_C40_bk_step. Qed.
Print Assumptions C40_bk_step.

(** C40: the acceleration vehicle asks the same question as the kinematic one, at its pose only. *)
Theorem C40_acc_step :
  forall s m guide st a, p_proj (as_p s) = true -> 0 <= p_vmax (as_p s) -> 0 <= p_dmax (as_p s) ->
  let u := saturated a in
  let r := m (fun x => (fst x - fst u) * (fst x - fst u) + (snd x - snd u) * (snd x - snd u)) u
             (mkBounds (-1, 1) (-1, 1)) (tt_constraint (as_t s) (a_q (st_q st))) in
  let st' := acc_step_p s m guide st a in
  (forall x, r = OptDone true x -> st_app st' = x) /\
  ((forall x, r <> OptDone true x) -> st_app st' = u) /\
  st_q st' = acc_drive (as_p s) (p_dt (as_p s)) (st_q st) (fst (st_app st') * as_amax s) (snd (st_app st') * as_omax s).
Proof. exact l_C40_acc_step. Qed.
Print Assumptions C40_acc_step.

(** C40: along every rollout, whatever the requested commands, every applied command is in the
    box, provided the optimiser respects the bounds it was given; when it fails or raises nothing
    is required of it. *)
Theorem C40_applied_in_box :
  forall m, respects_bounds m ->
  (forall s guide st us, p_proj (ts_p s) = true -> Forall in_box (snd (Rollout.rollout_us (tt_step_p s m guide) st us))) /\
  (forall s guide st us, p_proj (bs_p s) = true -> Forall in_box (snd (Rollout.rollout_us (bk_step_p s m guide) st us))) /\
  (forall s guide st us, p_proj (as_p s) = true -> Forall in_box (snd (Rollout.rollout_us (acc_step_p s m guide) st us))).
Proof. exact l_C40_applied_in_box. Qed.
Print Assumptions C40_applied_in_box.

(** C40 (necessity): without that assumption the step applies any command the optimiser names, it
    does not clip again. *)
Theorem C40_bounds_need_optimiser :
  forall s guide st a x, p_proj (ts_p s) = true ->
  st_app (tt_step_p s (fun _ _ _ _ => OptDone true x) guide st a) = x.
Proof. exact l_C40_bounds_need_optimiser. Qed.
Print Assumptions C40_bounds_need_optimiser.

(** C40: with projection off the command is passed through and the optimiser is never asked. *)
Theorem C40_disabled_is_identity :
  forall s sb sa m q qb qa u,
  (p_proj (ts_p s) = false -> tt_project s m q u = u) /\
  (p_proj (bs_p sb) = false -> bk_project sb m qb u = u) /\
  (p_proj (as_p sa) = false -> acc_project sa m qa u = u).
Proof. exact l_C40_disabled_is_identity. Qed.
Print Assumptions C40_disabled_is_identity.

(** C40: a car whose optimiser only succeeds on strictly admissible commands is clear of all
    obstacles at the predicted pose, for every applied successful answer. *)
Theorem C40_bk_predicted_pose_safe :
  forall s m guide st a x,
  p_proj (bs_p s) = true -> tractor_sized (bs_p s) -> proper_obstacles (bs_circ s) (bs_rect s) -> strictly_feasible m ->
  m (fun u => (fst u - fst (saturated a)) * (fst u - fst (saturated a)) + (snd u - snd (saturated a)) * (snd u - snd (saturated a)))
    (saturated a) (mkBounds (-1, 1) (-1, 1)) (bk_constraint s (st_q st)) = OptDone true x ->
  st_app (bk_step_p s m guide st a) = x /\
  bk_safe (bs_p s) (bs_circ s) (bs_rect s) (bk_predicted (bs_p s) (st_q st) x).
Proof. exact l_C40_bk_predicted_pose_safe. Qed.
Print Assumptions C40_bk_predicted_pose_safe.

(** C40: for the tractor-trailer the constraints are all positive exactly when the *shortened*
    bodies (wheelbases instead of overall lengths) are free of every obstacle and the hitch angle
    is strictly within its limit. *)
Theorem C40_tt_constraints_exact :
  forall s x, 0 < p_l1 (ts_p s) -> 0 < p_l2 (ts_p s) -> 0 < p_trac_w (ts_p s) -> 0 < p_trail_w (ts_p s) ->
  proper_obstacles (ts_circ s) (ts_rect s) ->
  (Forall (fun c => 0 < c) (tt_constraints_at s x) <->
   free_bodies (tt_short_bodies (ts_p s) x) (ts_circ s) (ts_rect s) /\
   exists k : Z, Rabs (t_th1 x - t_th2 x + IZR k * (2 * PI)) < p_phi_max (ts_p s)).
Proof. exact l_C40_tt_constraints_exact. Qed.
Print Assumptions C40_tt_constraints_exact.

(** C40 (refuted): the claim "with projection on and a perfect optimiser the tractor-trailer never
    enters an obstacle". The default vehicle starts clear of a post ahead, asks to drive straight
    on, the perfect optimiser finds the command admissible, and the front of the tractor is inside
    the post after the step; the step's reward is not even reduced (the collision flags are
    constants in this mode). *)
Theorem C40_tt_projection_safe_refuted :
  exists s st a, p_proj (ts_p s) = true /\
  tt_safe (ts_p s) (ts_circ s) (ts_rect s) (st_q st) /\
  forall m guide, perfect m ->
    let st' := tt_step_p s m guide st a in
    st_app st' = a /\ ts_coll s (st_q st') = true /\ st_rew st' = tt_reward s (st_q st').
Proof. exact l_C40_tt_projection_safe_refuted. Qed.
Print Assumptions C40_tt_projection_safe_refuted.

(** C40 (refuted): the claim "a command whose constraints hold leads to a safe next state". The
    constraints look at the Runge-Kutta prediction, the vehicle is moved by the Euler step: for
    every car, pose and turning command there is a post for which all constraints hold strictly and
    the car hits it in that very step. *)
Theorem C40_feasible_command_safe_refuted :
  forall p q u, tractor_sized p ->
  let v := fst u * p_vmax p in
  let w := p_dt p * (v / p_l1 p * tan (snd u * p_dmax p)) in
  0 < p_dt p -> 0 < v -> 0 < w < PI / 2 ->
  exists c, 0 < c_r c /\
    Forall (fun x => 0 < x) (bk_constraint (mkBKSelf p [c] [] q) q u) /\
    bk_coll p [c] [] (bk_plain p q u) = true.
Proof. exact l_C40_feasible_command_safe_refuted. Qed.
Print Assumptions C40_feasible_command_safe_refuted.

(** C40: the acceleration vehicle's projected command does not depend on its speed and steering
    angle: two vehicles at the same pose get the same answer however fast they are. *)
Theorem C40_acc_projection_ignores_speed :
  forall s m q v d v' d' u, acc_project s m (mkAcc q v d) u = acc_project s m (mkAcc q v' d') u.
Proof. exact l_C40_acc_projection_ignores_speed. Qed.
Print Assumptions C40_acc_projection_ignores_speed.

(** C40 (refuted): the claim of safety for the acceleration vehicle. Same post, speed 3 m/s, no
    acceleration requested: the projection evaluates the vehicle as if standing still. *)
Theorem C40_acc_projection_safe_refuted :
  exists s st, p_proj (as_p s) = true /\ acc_safe s (st_q st) /\
  forall m guide, perfect m ->
    let st' := acc_step_p s m guide st (0, 0) in
    st_app st' = (0, 0) /\ as_coll s (st_q st') = true /\ st_rew st' = acc_reward s (st_q st').
Proof. exact l_C40_acc_projection_safe_refuted. Qed.
Print Assumptions C40_acc_projection_safe_refuted.

(** The hypotheses of C40 are met: a concrete box, an inside and an outside point; the trivial
    optimiser respects bounds. *)
Example C40_example :
  sdf_box (5, 0) (0, 0) (2, 1) 0 = 3 /\ sdf_box (1, 0) (0, 0) (2, 1) 0 = -1 /\
  respects_bounds (fun _ _ bd _ => OptDone false (7, 7)) /\
  respects_bounds (fun _ _ _ _ => OptRaised) /\
  tractor_sized default_params.
Proof. exact x_C40_example. Qed.
