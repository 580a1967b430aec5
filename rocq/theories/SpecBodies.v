(** * SpecBodies: what "safe" means for each vehicle, in terms of point sets.
    Only data types of the model are used, none of its functions. *)
From Coq Require Import Reals List ZArith.
From Verif Require Import SpecGeom Params TT2d Bicycle NTrailer.
Import ListNotations.
Open Scope R_scope.

(** The point [d] metres ahead of P along heading [ang]. *)
Definition ahead (P : point) (ang d : R) : point := (fst P + d * cos ang, snd P + d * sin ang).

(** Tractor body: rear axle at (px,py), overhang lr behind it, wheelbase l1 plus front
    overhang lf1 before it. *)
Definition tractor_body (p : params) (px py th : R) : region :=
  mkRegion (px, py) th (- p_lr p) (p_l1 p + p_lf1 p) (p_trac_w p / 2).

(** A trailer body: axle [L] behind the hitch point, overhangs lf (front) and lr (rear). *)
Definition trailer_body (hitch : point) (th L lf lr width : R) : region :=
  mkRegion (ahead hitch th (- L)) th (- lr) lf (width / 2).

Definition obstacle_body (o : rectobs) : region :=
  mkRegion (r_x o, r_y o) (r_ang o) (- (r_w o / 2)) (r_w o / 2) (r_h o / 2).

Definition clear_of_rect (g : region) (o : rectobs) : Prop := disjoint g (obstacle_body o).
(** Every point of the body's outline is farther than r from the circle's centre. *)
Definition clear_of_circle (g : region) (c : circle) : Prop :=
  forall P, outline g P -> c_r c < dist P (c_x c, c_y c).

Definition clear_bodies (gs : list region) (circ : list circle) (rect : list rectobs) : Prop :=
  (forall g c, In g gs -> In c circ -> clear_of_circle g c) /\
  (forall g o, In g gs -> In o rect -> clear_of_rect g o).

(** The angle between two headings, measured the short way round, is at most phi. *)
Definition hitch_ok (phi a b : R) : Prop := exists k : Z, Rabs (a - b + IZR k * (2 * PI)) <= phi.
Fixpoint chain_ok (phi : R) (ths : list R) : Prop :=
  match ths with
  | a :: ((b :: _) as rest) => hitch_ok phi a b /\ chain_ok phi rest
  | _ => True
  end.

(** Tractor with one trailer. *)
Definition tt_bodies (p : params) (q : ttq) : list region :=
  [ tractor_body p (t_px q) (t_py q) (t_th1 q);
    trailer_body (ahead (t_px q, t_py q) (t_th1 q) (- p_lh p)) (t_th2 q)
      (p_l2 p) (p_lf2 p) (p_lr2 p) (p_trail_w p) ].
Definition tt_clear (p : params) circ rect (q : ttq) : Prop := clear_bodies (tt_bodies p q) circ rect.
Definition tt_hitch_ok (p : params) (q : ttq) : Prop := hitch_ok (p_phi_max p) (t_th1 q) (t_th2 q).
Definition tt_safe (p : params) circ rect (q : ttq) : Prop := tt_clear p circ rect q /\ tt_hitch_ok p q.

(** Bicycle / car. *)
Definition bk_bodies (p : params) (q : bkq) : list region := [ tractor_body p (b_px q) (b_py q) (b_th q) ].
Definition bk_safe (p : params) circ rect (q : bkq) : Prop := clear_bodies (bk_bodies p q) circ rect.

(** N trailers, as drawn and collision-checked by the code: the hitch of trailer i+1 is lh
    behind the rear face of trailer i. *)
Fixpoint trailer_chain (lh width : R) (hitch : point) (ths Ls lfs lrs : list R) : list region :=
  match ths, Ls, lfs, lrs with
  | th :: ths', L :: Ls', lf :: lfs', lr :: lrs' =>
      trailer_body hitch th L lf lr width
      :: trailer_chain lh width (ahead hitch th (- (L + lr + lh))) ths' Ls' lfs' lrs'
  | _, _, _, _ => []
  end.
Definition nt_bodies (s : nt_self) (q : ntq) : list region :=
  let p := ns_p s in
  tractor_body p (n_px q) (n_py q) (n_th0 q)
  :: trailer_chain (p_lh p) (p_trail_w p) (ahead (n_px q, n_py q) (n_th0 q) (- p_lh p))
       (n_ths q) (ns_len s) (ns_front s) (ns_rear s).
Definition nt_clear (s : nt_self) (q : ntq) : Prop := clear_bodies (nt_bodies s q) (ns_circ s) (ns_rect s).
Definition nt_hitch_ok (s : nt_self) (q : ntq) : Prop := chain_ok (p_phi_max (ns_p s)) (n_th0 q :: n_ths q).
Definition nt_safe (s : nt_self) (q : ntq) : Prop := nt_clear s q /\ nt_hitch_ok s q.

(** Realistic vehicles: every body is at least 0.1 mm long and wide. *)
Definition sized (g : region) : Prop := / 10000 <= rg_front g - rg_back g /\ / 10000 <= 2 * rg_half g.
Definition tractor_sized (p : params) : Prop :=
  / 10000 <= p_l1 p + p_lf1 p + p_lr p /\ / 10000 <= p_trac_w p.
Definition tt_sized (p : params) : Prop :=
  tractor_sized p /\ / 10000 <= p_lf2 p + p_lr2 p /\ / 10000 <= p_trail_w p.
(** N-trailer objects with one entry per trailer in each array and realistic sizes. *)
Definition nt_sized (s : nt_self) : Prop :=
  tractor_sized (ns_p s) /\ / 10000 <= p_trail_w (ns_p s) /\
  length (ns_len s) = p_num_trailers (ns_p s) /\ length (ns_front s) = p_num_trailers (ns_p s) /\
  length (ns_rear s) = p_num_trailers (ns_p s) /\
  (forall i, (i < p_num_trailers (ns_p s))%nat -> / 10000 <= nth i (ns_front s) 0 + nth i (ns_rear s) 0).

(** Obstacles with non-negative radii and positive side lengths. *)
Definition proper_obstacles (circ : list circle) (rect : list rectobs) : Prop :=
  (forall c, In c circ -> 0 <= c_r c) /\ (forall o, In o rect -> 0 < r_w o /\ 0 < r_h o).
