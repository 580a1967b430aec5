(** * SpecReach: which obstacles can matter for a plan - those with a point within a given distance
    of the start - and how far a vehicle reaches around its reference point. *)
From Coq Require Import Reals List.
From Verif Require Import Base SpecGeom SpecBodies Params Geom TT2d Bicycle NTrailer Acc.
Import ListNotations.
Open Scope R_scope.

(** Some point of the obstacle lies within distance rho of P. *)
Definition circle_near (P : point) (rho : R) (c : circle) : Prop :=
  exists X, disc (c_x c, c_y c) (c_r c) X /\ dist X P <= rho.
Definition rect_near (P : point) (rho : R) (o : rectobs) : Prop :=
  exists X, solid (obstacle_body o) X /\ dist X P <= rho.
(** Two obstacle lists name the same obstacles near P: order, repetition and everything farther
    away may differ. *)
Definition same_near (P : point) (rho : R) (circ circ' : list circle) (rect rect' : list rectobs) : Prop :=
  (forall c, circle_near P rho c -> (In c circ <-> In c circ')) /\
  (forall o, rect_near P rho o -> (In o rect <-> In o rect')).

(** No point of the bodies is farther than D from the reference point P. *)
Definition reach (D : R) (P : point) (gs : list region) : Prop :=
  forall g X, In g gs -> solid g X -> dist X P <= D.

(** Sums of the vehicle's dimensions. *)
Definition tractor_span (p : params) : R :=
  Rabs (p_lr p) + Rabs (p_l1 p + p_lf1 p) + Rabs (p_trac_w p).
Definition tt_span (p : params) : R :=
  tractor_span p + Rabs (p_lh p) + Rabs (p_l2 p) + Rabs (p_lf2 p) + Rabs (p_lr2 p) + Rabs (p_trail_w p).
Fixpoint sum_abs (l : list R) : R := match l with [] => 0 | x :: l' => Rabs x + sum_abs l' end.
Definition nt_span (s : nt_self) : R :=
  let p := ns_p s in
  tractor_span p + Rabs (p_trail_w p) + INR (S (length (ns_len s))) * Rabs (p_lh p)
  + sum_abs (ns_len s) + sum_abs (ns_front s) + sum_abs (ns_rear s).

(** The farthest the vehicle can get in n control steps. *)
Definition travel (p : params) (n : nat) : R := INR n * (p_vmax p * p_dt p).
