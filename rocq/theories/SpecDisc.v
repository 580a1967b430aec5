(** * SpecDisc: what it means for a vehicle body to keep off a circular obstacle as a solid disc
    (not only with its outline), and how far a body can move in one time step.
    Only data types of the model and the vocabulary of SpecGeom/SpecBodies are used. *)
From Coq Require Import Reals List.
From Verif Require Import SpecGeom Params TT2d Bicycle NTrailer SpecBodies.
Import ListNotations.
Open Scope R_scope.

(** Every point of the solid body is farther than the radius from the circle's centre: body and
    disc have no point in common. *)
Definition off_disc (g : region) (c : circle) : Prop :=
  forall P, solid g P -> c_r c < dist P (c_x c, c_y c).

(** How far from its reference point (the axle) a body can hold a disc of radius r completely
    inside itself (city-block distance of the disc's centre). *)
Definition inner_reach (g : region) (r : R) : R :=
  (Rmax (- rg_back g) (rg_front g) - r) + (rg_half g - r).

(** A disc of radius r is too large to slip under the body unnoticed between two time steps:
    either it is at least as wide as the body, or its diameter is at least the distance by which
    a point of the body that can be in the middle of the disc moves in one step, when the axle
    moves at most [slide] and the heading changes by at most [turn]. *)
Definition too_large (g : region) (slide turn r : R) : Prop :=
  rg_half g <= r \/ slide + turn * inner_reach g r <= 2 * r.

(** Motion limits of the tractor's rear axle in one time step. *)
Definition tractor_slide (p : params) : R := p_dt p * p_vmax p.
Definition tractor_turn (p : params) : R := p_dt p * p_vmax p * tan (p_dmax p) / p_l1 p.

(** Motion limits of the axle of a single trailer in one time step. *)
Definition hitch_gain (p : params) : R :=
  sqrt (1 + (p_lh p * tan (p_dmax p) / p_l1 p) * (p_lh p * tan (p_dmax p) / p_l1 p)).
Definition trailer_turn (p : params) : R := p_dt p * p_vmax p * hitch_gain p / p_l2 p.
Definition trailer_slide (p : params) : R :=
  p_dt p * p_vmax p * hitch_gain p
  + p_lh p * (tractor_turn p * tractor_turn p) / 2
  + p_l2 p * (trailer_turn p * trailer_turn p) / 2.

(** Sensible vehicle constants. *)
Definition proper_tractor (p : params) : Prop :=
  0 <= p_dt p /\ 0 <= p_vmax p /\ 0 < p_l1 p /\ 0 <= p_dmax p < PI / 2.
Definition proper_vehicle (p : params) : Prop := proper_tractor p /\ 0 <= p_lh p /\ 0 < p_l2 p.

(** The circle is too large to slip under the vehicle. *)
Definition tt_too_large (p : params) (c : circle) : Prop :=
  0 <= c_r c /\
  too_large (tractor_body p 0 0 0) (tractor_slide p) (tractor_turn p) (c_r c) /\
  too_large (trailer_body (0, 0) 0 (p_l2 p) (p_lf2 p) (p_lr2 p) (p_trail_w p))
            (trailer_slide p) (trailer_turn p) (c_r c).
Definition bk_too_large (p : params) (c : circle) : Prop :=
  0 <= c_r c /\ too_large (tractor_body p 0 0 0) (tractor_slide p) (tractor_turn p) (c_r c).

(** The whole vehicle keeps off the disc. *)
Definition tt_off_disc (p : params) (c : circle) (q : ttq) : Prop :=
  forall g, In g (tt_bodies p q) -> off_disc g c.
Definition bk_off_disc (p : params) (c : circle) (q : bkq) : Prop :=
  forall g, In g (bk_bodies p q) -> off_disc g c.

(** Chain of trailers. [hitch] bounds how far the point at which the next trailer hangs moves in one
    step, [gain] the distance travelled by the previous axle, [turn] its heading change; the next
    trailer is pulled with at most sqrt(gain^2 + (lh turn)^2). *)
Fixpoint rig_too_large (lh width r hitch gain turn : R) (Ls lfs lrs : list R) : Prop :=
  match Ls, lfs, lrs with
  | L :: Ls', lf :: lfs', lr :: lrs' =>
      let gain' := sqrt (gain * gain + (lh * turn) * (lh * turn)) in
      let turn' := gain' / L in
      too_large (trailer_body (0, 0) 0 L lf lr width) (hitch + L * turn') turn' r /\
      rig_too_large lh width r (hitch + (L + lr + lh) * turn') gain' turn' Ls' lfs' lrs'
  | _, _, _ => True
  end.
Definition nt_too_large (s : nt_self) (c : circle) : Prop :=
  let p := ns_p s in
  0 <= c_r c /\
  too_large (tractor_body p 0 0 0) (tractor_slide p) (tractor_turn p) (c_r c) /\
  rig_too_large (p_lh p) (p_trail_w p) (c_r c)
    (tractor_slide p + p_lh p * tractor_turn p) (tractor_slide p) (tractor_turn p)
    (ns_len s) (ns_front s) (ns_rear s).
Definition proper_rig (s : nt_self) : Prop :=
  proper_tractor (ns_p s) /\ 0 <= p_lh (ns_p s) /\
  (forall L, In L (ns_len s) -> 0 < L) /\ (forall lr, In lr (ns_rear s) -> 0 <= lr).
Definition nt_off_disc (s : nt_self) (c : circle) (q : ntq) : Prop :=
  forall g, In g (nt_bodies s q) -> off_disc g c.

(** The default vehicle: geometry and limits of the shipped configuration (any time step, map,
    weights and flags). *)
Definition default_vehicle (p : params) : Prop :=
  p_l1 p = (323/100) /\ p_l2 p = (29/10) /\ p_lh p = (115/100) /\ p_lf1 p = (9/10) /\ p_lr p = (1848/1000) /\
  p_lf2 p = (142/100) /\ p_lr2 p = (3225/1000) /\ p_trac_w p = 2 /\ p_trail_w p = (25/10) /\
  p_vmax p = 3 /\ p_dmax p = 55 * PI / 180.
