(** * Float: the safety checks and the kinematic step as computed, operation by operation, in floating point.

    The other model files use exact real arithmetic. Here every operation of the collision and hitch checks
    (mbd/robots/tt2d.py:885-1080, kinematic_bicycle2d.py:103-194) and of the unguided step (tt2d.py:269-334) is
    an arbitrary function from the record [arith]; SpecFloat.v says how accurate it has to be.
    Simplifications: values are reals (NaN, infinities and overflow are not represented; the values occurring
    stay far below the overflow threshold under the bounds of SpecFloat.v); literals (1e-8, 0.5) are exact;
    minus, abs, min, max, clip, comparisons and where are exact, as they are in floating point. *)
From Verif Require Import Base Params Geom TT2d Bicycle.

(** Operations. [a_cvt] is the conversion of a number computed in Python (double precision) to the array type;
    [a_mac x y z] computes x*y+z and [a_dot2 x1 y1 x2 y2] computes x1*y1+x2*y2, fused or not, in any order (the
    compiler may contract a product and a sum). *)
Record arith : Type := mkArith {
  a_cvt : R -> R;
  a_add : R -> R -> R; a_sub : R -> R -> R; a_mul : R -> R -> R; a_div : R -> R -> R;
  a_mac : R -> R -> R -> R; a_dot2 : R -> R -> R -> R -> R;
  a_sqrt : R -> R; a_cos : R -> R; a_sin : R -> R; a_tan : R -> R; a_mod : R -> R -> R }.

(** The places in the program where operations may be compiled differently. *)
Inductive stage : Type := SPose | SCorner | SObstacle | SCircle | SAxes | SProject | SHitch | SStep.

(** Corners of a box (tt2d.py:896-906, 919-929, 1050-1062): local corners times the rotation, plus the centre. *)
Definition fl_box_corner (A : arith) (c s cx cy lx ly : R) : pt :=
  (a_add A (a_dot2 A lx c ly (- s)) cx, a_add A (a_dot2 A lx s ly c) cy).
Definition fl_box_corners (A : arith) (cx cy ang hl hw : R) : list pt :=
  let c := a_cos A ang in
  let s := a_sin A ang in
  [ fl_box_corner A c s cx cy (- hl) (- hw);
    fl_box_corner A c s cx cy (- hl) hw;
    fl_box_corner A c s cx cy hl hw;
    fl_box_corner A c s cx cy hl (- hw) ].

(** The tractor's corners (tt2d.py:890-906, kinematic_bicycle2d.py:108-126); [P] computes the centre, [C] the
    corners. The dimensions are Python numbers. *)
Definition fl_tractor_corners (P C : arith) (p : params) (px py th : R) : list pt :=
  let k := a_cvt P (5/10 * (p_l1 p + p_lf1 p - p_lr p)) in
  let cx := a_mac P k (a_cos P th) px in
  let cy := a_mac P k (a_sin P th) py in
  fl_box_corners C cx cy th (a_cvt C ((p_l1 p + p_lf1 p + p_lr p) / 2)) (a_cvt C (p_trac_w p / 2)).

(** The trailer's corners (tt2d.py:908-929). *)
Definition fl_trailer_corners (P C : arith) (p : params) (x : ttq) : list pt :=
  let lh := a_cvt P (p_lh p) in
  let hx := a_mac P (- lh) (a_cos P (t_th1 x)) (t_px x) in
  let hy := a_mac P (- lh) (a_sin P (t_th1 x)) (t_py x) in
  let k := a_cvt P (5/10 * (p_lf2 p - p_lr2 p) - p_l2 p) in
  let cx := a_mac P k (a_cos P (t_th2 x)) hx in
  let cy := a_mac P k (a_sin P (t_th2 x)) hy in
  fl_box_corners C cx cy (t_th2 x) (a_cvt C ((p_lf2 p + p_lr2 p) / 2)) (a_cvt C (p_trail_w p / 2)).

(** Obstacle corners (tt2d.py:1047-1062); the obstacle table is an array. *)
Definition fl_obs_corners (O : arith) (o : rectobs) : list pt :=
  fl_box_corners O (r_x o) (r_y o) (r_ang o) (a_div O (r_w o) 2) (a_div O (r_h o) 2).

(** edges = roll(corners, -1) - corners (tt2d.py:944, 971). *)
Definition fl_psub (A : arith) (a b : pt) : pt := (a_sub A (fst a) (fst b), a_sub A (snd a) (snd b)).
Definition fl_edges_of (A : arith) (corners : list pt) : list pt := map2 (fl_psub A) (roll1 corners) corners.

(** One edge of check_rectangle_circle_collision (tt2d.py:947-960). *)
Definition fl_edge_dist_sq (A : arith) (start edge center : pt) : R :=
  let to_center := fl_psub A center start in
  let len_sq0 := a_dot2 A (fst edge) (fst edge) (snd edge) (snd edge) in
  let len_sq := where_ (Rltb len_sq0 (/ 100000000)) (/ 100000000) len_sq0 in
  let proj := a_div A (a_dot2 A (fst to_center) (fst edge) (snd to_center) (snd edge)) len_sq in
  let t := clip proj 0 1 in
  let closest := (a_mac A t (fst edge) (fst start), a_mac A t (snd edge) (snd start)) in
  let d := fl_psub A center closest in
  a_dot2 A (fst d) (fst d) (snd d) (snd d).

(** check_rectangle_circle_collision (tt2d.py:939-963). *)
Definition fl_rect_circle_collision (A : arith) (corners : list pt) (center : pt) (radius : R) : bool :=
  let dist_sqs := map2 (fun s e => fl_edge_dist_sq A s e center) corners (fl_edges_of A corners) in
  Rleb (Rmin_of dist_sqs) (a_mul A radius radius).

(** get_axes (tt2d.py:969-979). *)
Definition fl_axis_of_edge (A : arith) (e : pt) : pt :=
  let n := (- snd e, fst e) in
  let nn0 := a_sqrt A (a_dot2 A (fst n) (fst n) (snd n) (snd n)) in
  let nn := where_ (Rltb nn0 (/ 100000000)) 1 nn0 in
  (a_div A (fst n) nn, a_div A (snd n) nn).
Definition fl_get_axes (A : arith) (corners : list pt) : list pt :=
  match fl_edges_of A corners with
  | e0 :: e1 :: _ => [fl_axis_of_edge A e0; fl_axis_of_edge A e1]
  | _ => []
  end.

(** project_rectangle and check_axis_separation (tt2d.py:981-996). *)
Definition fl_pdot (A : arith) (a b : pt) : R := a_dot2 A (fst a) (fst b) (snd a) (snd b).
Definition fl_project_min (A : arith) (corners : list pt) (axis : pt) : R :=
  Rmin_of (map (fun c => fl_pdot A c axis) corners).
Definition fl_project_max (A : arith) (corners : list pt) (axis : pt) : R :=
  Rmax_of (map (fun c => fl_pdot A c axis) corners).
Definition fl_axis_separates (A : arith) (c1 c2 : list pt) (axis : pt) : bool :=
  Rltb (fl_project_max A c1 axis) (fl_project_min A c2 axis) || Rltb (fl_project_max A c2 axis) (fl_project_min A c1 axis).

(** check_rectangle_rectangle_collision (tt2d.py:966-1002); [X] computes the axes, [J] the projections. *)
Definition fl_rect_rect_collision (X J : arith) (c1 c2 : list pt) : bool :=
  negb (existsb (fl_axis_separates J c1 c2) (fl_get_axes X c1 ++ fl_get_axes X c2)).

(** check_obstacle_collision (tt2d.py:1013-1080). *)
Definition fl_hits_circle (A : stage -> arith) (corners : list pt) (c : circle) : bool :=
  fl_rect_circle_collision (A SCircle) corners (c_x c, c_y c) (c_r c).
Definition fl_hits_rect (A : stage -> arith) (corners : list pt) (o : rectobs) : bool :=
  fl_rect_rect_collision (A SAxes) (A SProject) corners (fl_obs_corners (A SObstacle) o).
Definition fl_tt_coll (A : stage -> arith) (p : params) (circ : list circle) (rect : list rectobs) (x : ttq) : bool :=
  let tc := fl_tractor_corners (A SPose) (A SCorner) p (t_px x) (t_py x) (t_th1 x) in
  let rc := fl_trailer_corners (A SPose) (A SCorner) p x in
  existsb (fun c => fl_hits_circle A tc c || fl_hits_circle A rc c) circ
  || existsb (fun o => fl_hits_rect A tc o || fl_hits_rect A rc o) rect.

(** check_obstacle_collision of the bicycle (kinematic_bicycle2d.py:136-189). *)
Definition fl_bk_coll (A : stage -> arith) (p : params) (circ : list circle) (rect : list rectobs) (x : bkq) : bool :=
  let tc := fl_tractor_corners (A SPose) (A SCorner) p (b_px x) (b_py x) (b_th x) in
  existsb (fl_hits_circle A tc) circ || existsb (fl_hits_rect A tc) rect.

(** check_hitch_violation (tt2d.py:1005-1010). *)
Definition fl_wrap_pi (A : arith) (a : R) : R :=
  a_sub A (a_mod A (a_add A a (a_cvt A PI)) (a_cvt A (2 * PI))) (a_cvt A PI).
Definition fl_tt_hitch (A : stage -> arith) (p : params) (x : ttq) : bool :=
  Rltb (a_cvt (A SHitch) (p_phi_max p)) (Rabs (fl_wrap_pi (A SHitch) (a_sub (A SHitch) (t_th1 x) (t_th2 x)))).

(** input_scaler, tractor_trailer_dynamics, euler (tt2d.py:29-31, 269-294, 334). *)
Definition fl_input_scaler (A : arith) (p : params) (u : act) : act :=
  (a_mul A (fst u) (a_cvt A (p_vmax p)), a_mul A (snd u) (a_cvt A (p_dmax p))).
Definition fl_tt_dyn (A : arith) (p : params) (x : ttq) (u : act) : ttq :=
  let '(v, delta) := u in
  let d := a_sub A (t_th1 x) (t_th2 x) in
  mkTT (a_mul A v (a_cos A (t_th1 x)))
       (a_mul A v (a_sin A (t_th1 x)))
       (a_mul A (a_div A v (a_cvt A (p_l1 p))) (a_tan A delta))
       (a_mul A (a_div A v (a_cvt A (p_l2 p)))
          (a_mac A (- a_mul A (a_cvt A (p_lh p / p_l1 p)) (a_cos A d)) (a_tan A delta) (a_sin A d))).
Definition fl_tt_euler (A : arith) (p : params) (q : ttq) (u : act) : ttq :=
  let k := fl_tt_dyn A p q u in
  let dt := a_cvt A (p_dt p) in
  mkTT (a_mac A dt (t_px k) (t_px q)) (a_mac A dt (t_py k) (t_py q))
       (a_mac A dt (t_th1 k) (t_th1 q)) (a_mac A dt (t_th2 k) (t_th2 q)).

(** The state component of _step_internal without projection and guidance, outside backup mode (tt2d.py:302-415;
    reset starts outside backup mode and a step hands on the mode it was given). The action is clipped to the box
    before it is scaled. *)
Definition fl_tt_step (A : stage -> arith) (s : tt_self) (q : ttq) (a : act) : ttq :=
  let p := ts_p s in
  let q_prop := fl_tt_euler (A SStep) p q (fl_input_scaler (A SStep) p (clip_act a)) in
  let '(qf, _, _) :=
    if p_sh_coll p || p_sh_hitch p
    then shielded_rollout p (fl_tt_coll A p (ts_circ s) (ts_rect s)) (fl_tt_hitch A p) q q_prop
    else step_without_shield (fl_tt_coll A p (ts_circ s) (ts_rect s)) (fl_tt_hitch A p) q_prop in
  qf.
(** The states visited by a plan (utils.py:26-34, mbd_planner.py:555-564). *)
Fixpoint fl_tt_run (A : stage -> arith) (s : tt_self) (q : ttq) (us : list act) : list ttq :=
  match us with
  | [] => []
  | a :: rest => let q' := fl_tt_step A s q a in q' :: fl_tt_run A s q' rest
  end.

(** The bicycle's step (kinematic_bicycle2d.py:83-100, 204-259), under the same restrictions. *)
Definition fl_bk_dyn (A : arith) (p : params) (x : bkq) (u : act) : bkq :=
  let '(v, delta) := u in
  mkBK (a_mul A v (a_cos A (b_th x))) (a_mul A v (a_sin A (b_th x)))
       (a_mul A (a_div A v (a_cvt A (p_l1 p))) (a_tan A delta)).
Definition fl_bk_euler (A : arith) (p : params) (q : bkq) (u : act) : bkq :=
  let k := fl_bk_dyn A p q u in
  let dt := a_cvt A (p_dt p) in
  mkBK (a_mac A dt (b_px k) (b_px q)) (a_mac A dt (b_py k) (b_py q)) (a_mac A dt (b_th k) (b_th q)).
Definition fl_bk_step (A : stage -> arith) (s : bk_self) (q : bkq) (a : act) : bkq :=
  let p := bs_p s in
  let q_prop := fl_bk_euler (A SStep) p q (fl_input_scaler (A SStep) p (clip_act a)) in
  let '(qf, _, _) :=
    if p_sh_coll p || p_sh_hitch p
    then shielded_rollout p (fl_bk_coll A p (bs_circ s) (bs_rect s)) bk_hitch q q_prop
    else step_without_shield (fl_bk_coll A p (bs_circ s) (bs_rect s)) bk_hitch q_prop in
  qf.
Fixpoint fl_bk_run (A : stage -> arith) (s : bk_self) (q : bkq) (us : list act) : list bkq :=
  match us with
  | [] => []
  | a :: rest => let q' := fl_bk_step A s q a in q' :: fl_bk_run A s q' rest
  end.

(** Exact real arithmetic as an instance (with it the definitions above are those of TT2d.v and Bicycle.v; see
    theorem C65_exact in PropFloat.v). *)
Definition exact_arith : arith := {|
  a_cvt := fun x => x;
  a_add := Rplus; a_sub := Rminus; a_mul := Rmult; a_div := Rdiv;
  a_mac := fun x y z => x * y + z; a_dot2 := fun x1 y1 x2 y2 => x1 * y1 + x2 * y2;
  a_sqrt := sqrt; a_cos := cos; a_sin := sin; a_tan := tan; a_mod := fmod |}.
