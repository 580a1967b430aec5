(** * Projection: _numpy_projection_function and project_control_to_safe_set
    (mbd/robots/tt2d.py:1448-1716, kinematic_bicycle2d.py:596-757, acc_tt2d.py:344-359). *)
From Verif Require Import Base Params Geom TT2d Bicycle Acc.

(** What scipy.optimize.minimize does with (objective, u0, bounds, constraints)
    (tt2d.py:1657-1669): it returns a result whose [success] is true or false, carrying [x], or
    raises. SciPy itself is not modelled: [optimiser] is an arbitrary function of the arguments
    it is given (method and options are constants of the call). *)
Inductive opt_result : Type :=
| OptDone (success : bool) (x : act)
| OptRaised.
Record bounds2 : Type := mkBounds { bd0 : R * R; bd1 : R * R }.
Definition optimiser : Type := (act -> R) -> act -> bounds2 -> (act -> list R) -> opt_result.

(** _sdf_oriented_box_np (tt2d.py:1519-1540, kinematic_bicycle2d.py:649-671). *)
Definition sdf_box (point center half : pt) (angle : R) : R :=
  let u := (cos angle, sin angle) in
  let v := (- sin angle, cos angle) in
  let d := (pdot (psub point center) u, pdot (psub point center) v) in
  let q := (Rabs (fst d) - fst half, Rabs (snd d) - snd half) in
  let outside := pnorm (Rmax (fst q) 0, Rmax (snd q) 0) in
  let inside := Rmin (Rmax (fst q) (snd q)) 0 in
  outside + inside.

(** gap_on_axis (tt2d.py:1553-1561). *)
Definition gap_on_axis (c1 h1 u1 v1 c2 h2 u2 v2 axis : pt) : R :=
  let p1 := pdot c1 axis in
  let p2 := pdot c2 axis in
  let r1 := fst h1 * Rabs (pdot u1 axis) + snd h1 * Rabs (pdot v1 axis) in
  let r2 := fst h2 * Rabs (pdot u2 axis) + snd h2 * Rabs (pdot v2 axis) in
  Rmax ((p2 - r2) - (p1 + r1)) ((p1 - r1) - (p2 + r2)).

(** _sdf_two_boxes_np (tt2d.py:1542-1565, kinematic_bicycle2d.py:673-696). *)
Definition sdf_two_boxes (c1 h1 : pt) (a1 : R) (c2 h2 : pt) (a2 : R) : R :=
  let u1 := (cos a1, sin a1) in
  let v1 := (- sin a1, cos a1) in
  let u2 := (cos a2, sin a2) in
  let v2 := (- sin a2, cos a2) in
  Rmax_of (map (gap_on_axis c1 h1 u1 v1 c2 h2 u2 v2) [u1; v1; u2; v2]).

(** get_tractor_trailer_rectangles_np (tt2d.py:1498-1517): the two centres. *)
Definition np_tractor_center (p : params) (px py th : R) : pt :=
  (px + 5/10 * (p_l1 p + p_lf1 p - p_lr p) * cos th, py + 5/10 * (p_l1 p + p_lf1 p - p_lr p) * sin th).
Definition np_trailer_center (p : params) (x : ttq) : pt :=
  let hx := t_px x - p_lh p * cos (t_th1 x) in
  let hy := t_py x - p_lh p * sin (t_th1 x) in
  (hx + (5/10 * (p_lf2 p - p_lr2 p) - p_l2 p) * cos (t_th2 x),
   hy + (5/10 * (p_lf2 p - p_lr2 p) - p_l2 p) * sin (t_th2 x)).
(** Half sizes used by the tractor-trailer projection (tt2d.py:1575, 1579, 1597, 1603). *)
Definition np_tractor_half (p : params) : pt := (p_l1 p / 2, p_trac_w p / 2).
Definition np_trailer_half (p : params) : pt := (p_l2 p / 2, p_trail_w p / 2).

(** _signed_dist_rect_circle_np (tt2d.py:1567-1583). *)
Definition tt_dist_circle (p : params) (x : ttq) (c : circle) : R :=
  let d1 := sdf_box (c_x c, c_y c) (np_tractor_center p (t_px x) (t_py x) (t_th1 x)) (np_tractor_half p) (t_th1 x) in
  let d2 := sdf_box (c_x c, c_y c) (np_trailer_center p x) (np_trailer_half p) (t_th2 x) in
  Rmin d1 d2 - c_r c.
(** _signed_dist_rect_rect_np (tt2d.py:1585-1607). *)
Definition tt_dist_rect (p : params) (x : ttq) (o : rectobs) : R :=
  let c_obs := (r_x o, r_y o) in
  let h_obs := (r_w o / 2, r_h o / 2) in
  let d1 := sdf_two_boxes (np_tractor_center p (t_px x) (t_py x) (t_th1 x)) (np_tractor_half p) (t_th1 x) c_obs h_obs (r_ang o) in
  let d2 := sdf_two_boxes (np_trailer_center p x) (np_trailer_half p) (t_th2 x) c_obs h_obs (r_ang o) in
  Rmin d1 d2.
(** constraint_function_np (tt2d.py:1609-1635). *)
Definition tt_constraints_at (s : tt_self) (x : ttq) : list R :=
  let p := ts_p s in
  map (tt_dist_circle p x) (ts_circ s) ++ map (tt_dist_rect p x) (ts_rect s)
  ++ [p_phi_max p - Rabs (wrap_pi (t_th1 x - t_th2 x))].

(** objective (tt2d.py:1637-1639, kinematic_bicycle2d.py:727-729). *)
Definition proj_objective (u_orig u : act) : R :=
  (fst u - fst u_orig) * (fst u - fst u_orig) + (snd u - snd u_orig) * (snd u - snd u_orig).
(** bounds (tt2d.py:1656, kinematic_bicycle2d.py:740). *)
Definition proj_bounds : bounds2 := mkBounds (-1, 1) (-1, 1).

(** constraint_function (tt2d.py:1641-1652); the function called euler_np (1484-1490) is the
    Runge-Kutta formula. *)
Definition tt_constraint (s : tt_self) (q : ttq) (u : act) : list R :=
  tt_constraints_at s (rk4 tt_axpy (tt_dyn (ts_p s)) q (input_scaler (ts_p s) u) (p_dt (ts_p s))).

(** try/except and success test (tt2d.py:1664-1686, kinematic_bicycle2d.py:746-768). *)
Definition proj_answer (u_orig : act) (r : opt_result) : act :=
  match r with
  | OptDone true x => x
  | OptDone false _ => u_orig
  | OptRaised => u_orig
  end.

(** _numpy_projection_function (tt2d.py:1448-1686). *)
Definition tt_np_projection (s : tt_self) (minimize : optimiser) (q : ttq) (u_orig : act) : act :=
  proj_answer u_orig (minimize (proj_objective u_orig) u_orig proj_bounds (tt_constraint s q)).
(** project_control_to_safe_set (tt2d.py:1688-1716). *)
Definition tt_project (s : tt_self) (minimize : optimiser) (q : ttq) (u : act) : act :=
  if negb (p_proj (ts_p s)) then u else tt_np_projection s minimize q u.

(** KinematicBicycle2d._numpy_projection_function (kinematic_bicycle2d.py:596-768):
    get_tractor_rectangle_np 637-647, constraints 698-725. *)
Definition bk_np_half (p : params) : pt := ((p_l1 p + p_lf1 p + p_lr p) / 2, p_trac_w p / 2).
Definition bk_dist_circle (p : params) (x : bkq) (c : circle) : R :=
  sdf_box (c_x c, c_y c) (np_tractor_center p (b_px x) (b_py x) (b_th x)) (bk_np_half p) (b_th x) - c_r c.
Definition bk_dist_rect (p : params) (x : bkq) (o : rectobs) : R :=
  sdf_two_boxes (np_tractor_center p (b_px x) (b_py x) (b_th x)) (bk_np_half p) (b_th x)
    (r_x o, r_y o) (r_w o / 2, r_h o / 2) (r_ang o).
Definition bk_constraints_at (s : bk_self) (x : bkq) : list R :=
  match map (bk_dist_circle (bs_p s) x) (bs_circ s) ++ map (bk_dist_rect (bs_p s) x) (bs_rect s) with
  | [] => [1]
  | cs => cs
  end.
Definition bk_constraint (s : bk_self) (q : bkq) (u : act) : list R :=
  bk_constraints_at s (rk4 bk_axpy (bk_dyn (bs_p s)) q (input_scaler (bs_p s) u) (p_dt (bs_p s))).
Definition bk_np_projection (s : bk_self) (minimize : optimiser) (q : bkq) (u_orig : act) : act :=
  proj_answer u_orig (minimize (proj_objective u_orig) u_orig proj_bounds (bk_constraint s q)).
(** inherited project_control_to_safe_set, dispatching on the override. *)
Definition bk_project (s : bk_self) (minimize : optimiser) (q : bkq) (u : act) : act :=
  if negb (p_proj (bs_p s)) then u else bk_np_projection s minimize q u.

(** AccTractorTrailer2d.project_control_to_safe_set (acc_tt2d.py:344-359): the parent's method
    on q[:4]. *)
Definition acc_project (s : acc_self) (minimize : optimiser) (q : accq) (u : act) : act :=
  if negb (p_proj (as_p s)) then u else tt_project (as_t s) minimize (a_q q) u.

(** The steps with the projection filled in. *)
Definition tt_step_p (s : tt_self) (minimize : optimiser) guide := tt_step s (tt_project s minimize) guide.
Definition bk_step_p (s : bk_self) (minimize : optimiser) guide := bk_step s (bk_project s minimize) guide.
Definition acc_step_p (s : acc_self) (minimize : optimiser) guide := acc_step s (acc_project s minimize) guide.
