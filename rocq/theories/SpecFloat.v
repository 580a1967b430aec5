(** * SpecFloat: accuracy of floating-point operations, ranges of values, grown and shrunk obstacles. *)
From Coq Require Import Reals List.
From Verif Require Import SpecGeom Params TT2d Bicycle SpecBodies SpecDyn Base Float.
Import ListNotations.
Open Scope R_scope.

(** [y] is [x] up to a relative error of [k] units of 1e-7 and an absolute error of [k] units of 1e-10. (Half a unit
    in the last place of single precision is 2^-24 < 0.6e-7.) *)
Definition near (k x size : R) : R -> Prop :=
  fun y => Rabs (y - x) <= k * (size / 10000000 + / 10000000000).

(** Conversion, +, -, *, /, sqrt and the remainder are rounded results; a multiply-add and a two-term scalar product
    may be rounded at every intermediate step or not; cos and sin of angles up to 2001 rad and tan of angles
    up to 1 rad are right to 1e-6. *)
Definition accurate (A : arith) : Prop :=
  (forall x, near 1 x (Rabs x) (a_cvt A x)) /\
  (forall x y, near 1 (x + y) (Rabs (x + y)) (a_add A x y)) /\
  (forall x y, near 1 (x - y) (Rabs (x - y)) (a_sub A x y)) /\
  (forall x y, near 1 (x * y) (Rabs (x * y)) (a_mul A x y)) /\
  (forall x y, y <> 0 -> near 1 (x / y) (Rabs (x / y)) (a_div A x y)) /\
  (forall x y z, near 3 (x * y + z) (Rabs (x * y) + Rabs z) (a_mac A x y z)) /\
  (forall x1 y1 x2 y2, near 3 (x1 * y1 + x2 * y2) (Rabs (x1 * y1) + Rabs (x2 * y2)) (a_dot2 A x1 y1 x2 y2)) /\
  (forall x, 0 <= x -> near 1 (sqrt x) (sqrt x) (a_sqrt A x)) /\
  (forall x, Rabs x <= 2001 -> Rabs (a_cos A x - cos x) <= / 1000000) /\
  (forall x, Rabs x <= 2001 -> Rabs (a_sin A x - sin x) <= / 1000000) /\
  (forall x, Rabs x <= 1 -> Rabs (a_tan A x - tan x) <= / 1000000) /\
  (forall x y, 0 < y -> near 1 (fmod x y) (fmod x y) (a_mod A x y)).
Definition all_accurate (A : stage -> arith) : Prop := forall g, accurate (A g).

(** Values up to which the claims are made (metres, radians). *)
Definition dimension (x : R) : Prop := 0 <= x <= 10.
Definition vehicle_in_range (p : params) : Prop :=
  dimension (p_l1 p) /\ dimension (p_lf1 p) /\ dimension (p_lr p) /\ dimension (p_lh p) /\ dimension (p_l2 p) /\
  dimension (p_lf2 p) /\ dimension (p_lr2 p) /\ dimension (p_trac_w p) /\ dimension (p_trail_w p) /\
  / 10 <= p_l1 p + p_lf1 p + p_lr p /\ / 10 <= p_trac_w p /\ / 10 <= p_lf2 p + p_lr2 p /\ / 10 <= p_trail_w p.
Definition place_in_range (x y : R) : Prop := Rabs x <= 100 /\ Rabs y <= 100.
Definition tt_in_range (q : ttq) : Prop :=
  place_in_range (t_px q) (t_py q) /\ Rabs (t_th1 q) <= 1000 /\ Rabs (t_th2 q) <= 1000.
Definition bk_in_range (q : bkq) : Prop := place_in_range (b_px q) (b_py q) /\ Rabs (b_th q) <= 1000.
Definition obstacles_in_range (circ : list circle) (rect : list rectobs) : Prop :=
  (forall c, In c circ -> place_in_range (c_x c) (c_y c) /\ 0 <= c_r c <= 100) /\
  (forall o, In o rect -> place_in_range (r_x o) (r_y o) /\ Rabs (r_ang o) <= 1000 /\
     / 10 <= r_w o <= 100 /\ / 10 <= r_h o <= 100).

(** An obstacle with [d] taken away on every side. *)
Definition shrunk_rect (d : R) (o : rectobs) : rectobs := mkRect (r_x o) (r_y o) (r_w o - 2 * d) (r_h o - 2 * d) (r_ang o).
Definition shrunk_circle (d : R) (c : circle) : circle := mkCircle (c_x c) (c_y c) (c_r c - d).
(** An obstacle with [d] added on every side. *)
Definition grown_rect (d : R) (o : rectobs) : rectobs := mkRect (r_x o) (r_y o) (r_w o + 2 * d) (r_h o + 2 * d) (r_ang o).
Definition grown_circle (d : R) (c : circle) : circle := mkCircle (c_x c) (c_y c) (c_r c + d).

(** Speeds and steering angles up to which the claims are made. *)
Definition drive_in_range (p : params) : Prop :=
  0 <= p_dt p <= 1 /\ 0 <= p_vmax p <= 20 /\ 0 <= p_dmax p <= 99 / 100 /\ 1 <= p_l1 p <= 10 /\ 1 <= p_l2 p <= 10 /\
  0 <= p_lh p <= 2 * p_l1 p.
(** Starts from which [n] steps cannot leave the range: a step moves the vehicle by at most dt*vmax and turns it by
    at most 6*dt*vmax radians (1/l1, 1/l2 <= 1, lh/l1 <= 2), rounding aside. *)
Definition tt_trip_in_range (p : params) (n : nat) (q : ttq) : Prop :=
  Rabs (t_px q) + INR n * (p_dt p * p_vmax p + 2 / 1000) <= 100 /\
  Rabs (t_py q) + INR n * (p_dt p * p_vmax p + 2 / 1000) <= 100 /\
  Rabs (t_th1 q) + INR n * (6 * (p_dt p * p_vmax p) + / 10) <= 1000 /\
  Rabs (t_th2 q) + INR n * (6 * (p_dt p * p_vmax p) + / 10) <= 1000.
Definition bk_trip_in_range (p : params) (n : nat) (q : bkq) : Prop :=
  Rabs (b_px q) + INR n * (p_dt p * p_vmax p + 2 / 1000) <= 100 /\
  Rabs (b_py q) + INR n * (p_dt p * p_vmax p + 2 / 1000) <= 100 /\
  Rabs (b_th q) + INR n * (6 * (p_dt p * p_vmax p) + / 10) <= 1000.

(** Every point of the body is within [D] of every point of the obstacle. *)
Definition within (D : R) (g : region) (o : rectobs) : Prop :=
  forall P Q, solid g P -> solid (obstacle_body o) Q -> SpecGeom.dist P Q <= D.
(** Both sides of a body are at least [l]. *)
Definition sides_at_least (l : R) (g : region) : Prop := l <= rg_front g - rg_back g /\ l <= 2 * rg_half g.
(** How far from touching a computed rectangle test may still report a collision: 2 mm, and 0.12 % of the
    extent [D] of the scene divided by the length [l] in metres of the shortest side. *)
Definition slack (D l : R) : R := 2 / 1000 + 12 / 10000 * (D / l).

(** Headings up to 30 rad, positions up to 100 m. *)
Definition tt_near_home (q : ttq) : Prop := place_in_range (t_px q) (t_py q) /\ Rabs (t_th1 q) <= 30 /\ Rabs (t_th2 q) <= 30.
Definition bk_near_home (q : bkq) : Prop := place_in_range (b_px q) (b_py q) /\ Rabs (b_th q) <= 30.
(** Errors of one computed step at top speed [V]: position (0.05 mm at 3 m/s), heading of the tractor (0.00008 rad) and of
    the trailer (0.00032 rad). *)
Definition step_pos_error (V : R) : R := 4 / 100000 + 3 / 1000000 * V.
Definition step_heading_error (V : R) : R := 2 / 100000 + 2 / 100000 * V.
Definition step_trailer_error (V : R) : R := 2 / 100000 + / 10000 * V.
Definition tt_within (e h k : R) (q q' : ttq) : Prop :=
  Rabs (t_px q - t_px q') <= e /\ Rabs (t_py q - t_py q') <= e /\ Rabs (t_th1 q - t_th1 q') <= h /\ Rabs (t_th2 q - t_th2 q') <= k.
Definition bk_within (e h : R) (q q' : bkq) : Prop :=
  Rabs (b_px q - b_px q') <= e /\ Rabs (b_py q - b_py q') <= e /\ Rabs (b_th q - b_th q') <= h.
(** The action without what exceeds [-1,1]. *)
Definition within_box (a : R * R) : R * R := (Rmin (Rmax (fst a) (-1)) 1, Rmin (Rmax (snd a) (-1)) 1).
(** States after one, two, ... steps of the exact motion law. *)
Fixpoint tt_drive (p : params) (q : ttq) (us : list (R * R)) : list ttq :=
  match us with [] => [] | a :: r => tt_plain p q a :: tt_drive p (tt_plain p q a) r end.
Fixpoint bk_drive (p : params) (q : bkq) (us : list (R * R)) : list bkq :=
  match us with [] => [] | a :: r => bk_plain p q a :: bk_drive p (bk_plain p q a) r end.
(** [us'] is [us] with every action cut to the box, some of them replaced by standing still. *)
Definition executed (us us' : list (R * R)) : Prop := Forall2 (fun a a' => a' = within_box a \/ a' = (0, 0)) us us'.
(** Accumulated errors after [n] steps at time step [dt] and top speed [V]. *)
Definition drift_heading (V : R) (n : nat) : R := INR n * step_heading_error V.
Definition drift_pos (dt V : R) (n : nat) : R := INR n * step_pos_error V + dt * V * (INR n * INR n) * step_heading_error V.
(** How far a point of the vehicle can be moved by the errors of one computed step. *)
Definition vehicle_extent (p : params) : R :=
  p_l1 p + p_lf1 p + p_lr p + p_lh p + p_l2 p + p_lf2 p + p_lr2 p + p_trac_w p + p_trail_w p.
Definition step_shift (p : params) : R := 2 * (step_pos_error (p_vmax p) + vehicle_extent p * step_trailer_error (p_vmax p)).
