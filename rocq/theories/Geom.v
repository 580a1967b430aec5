(** * Geom: body rectangles and collision primitives (mbd/robots/tt2d.py:939-1080). *)
From Verif Require Import Base Params.

(** Corner list of an oriented box: local corners rotated by [R.T] and translated.
    Code order: rear-left, rear-right, front-right, front-left
    (tt2d.py:895-906, 918-929, 1048-1058; n_trailer2d.py:296-303, 315-319, 347-351;
    kinematic_bicycle2d.py:114-126). *)
Definition box_corner (ang cx cy lx ly : R) : pt :=
  (lx * cos ang + ly * (- sin ang) + cx, lx * sin ang + ly * cos ang + cy).
Definition box_corners (cx cy ang hl hw : R) : list pt :=
  [ box_corner ang cx cy (- hl) (- hw);
    box_corner ang cx cy (- hl) hw;
    box_corner ang cx cy hl hw;
    box_corner ang cx cy hl (- hw) ].

(** edges = roll(corners, -1) - corners (tt2d.py:944, 971). *)
Definition edges_of (corners : list pt) : list pt := map2 psub (roll1 corners) corners.

(** One edge of check_rectangle_circle_collision (tt2d.py:947-960): squared distance from
    the circle centre to the closest point of the edge. *)
Definition edge_dist_sq (start edge center : pt) : R :=
  let to_center := psub center start in
  let len_sq0 := fst edge * fst edge + snd edge * snd edge in
  let len_sq := where_ (Rltb len_sq0 (/ 100000000)) (/ 100000000) len_sq0 in
  let proj := pdot to_center edge / len_sq in
  let t := clip proj 0 1 in
  let closest := padd start (pscale t edge) in
  let d := psub center closest in
  fst d * fst d + snd d * snd d.

(** check_rectangle_circle_collision (tt2d.py:939-963). *)
Definition rect_circle_collision (corners : list pt) (center : pt) (radius : R) : bool :=
  let dist_sqs := map2 (fun s e => edge_dist_sq s e center) corners (edges_of corners) in
  Rleb (Rmin_of dist_sqs) (radius * radius).

(** get_axes (tt2d.py:969-979): unit normals of the first two edges. *)
Definition axis_of_edge (e : pt) : pt :=
  let n := (- snd e, fst e) in
  let nn0 := pnorm n in
  let nn := where_ (Rltb nn0 (/ 100000000)) 1 nn0 in
  (fst n / nn, snd n / nn).
Definition get_axes (corners : list pt) : list pt :=
  match edges_of corners with
  | e0 :: e1 :: _ => [axis_of_edge e0; axis_of_edge e1]
  | _ => []                       (* never: all callers pass 4 corners *)
  end.

(** project_rectangle (tt2d.py:981-984) and check_axis_separation (992-996). *)
Definition project_min (corners : list pt) (axis : pt) : R := Rmin_of (map (fun c => pdot c axis) corners).
Definition project_max (corners : list pt) (axis : pt) : R := Rmax_of (map (fun c => pdot c axis) corners).
Definition axis_separates (c1 c2 : list pt) (axis : pt) : bool :=
  Rltb (project_max c1 axis) (project_min c2 axis) || Rltb (project_max c2 axis) (project_min c1 axis).

(** check_rectangle_rectangle_collision (tt2d.py:966-1002). *)
Definition rect_rect_collision (c1 c2 : list pt) : bool :=
  let all_axes := get_axes c1 ++ get_axes c2 in
  negb (existsb (axis_separates c1 c2) all_axes).

(** Obstacle corners (tt2d.py:1043-1058, kinematic_bicycle2d.py:165-180, n_trailer2d.py:346-351). *)
Definition obs_corners (o : rectobs) : list pt :=
  box_corners (r_x o) (r_y o) (r_ang o) (r_w o / 2) (r_h o / 2).

(** Collision of a list of body corner-lists with all obstacles. The three classes do
    [any over obstacles of (or over bodies)] (tt2d.py:1022-1078, kinematic_bicycle2d.py:145-189)
    or [any over bodies of any over obstacles] (n_trailer2d.py:334-361); the empty-array
    guards ([shape[0] > 0]) give False for an empty list, as [existsb] does. *)
Definition hits_circle (corners : list pt) (c : circle) : bool :=
  rect_circle_collision corners (c_x c, c_y c) (c_r c).
Definition hits_rect (corners : list pt) (o : rectobs) : bool :=
  rect_rect_collision corners (obs_corners o).
