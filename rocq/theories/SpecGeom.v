(** * SpecGeom: independent geometric vocabulary (no reference to the model's helpers).

    A region is the solid rectangle of all points reached from an origin by going
    [a] metres along the heading, [back <= a <= front], and [b] metres to the left,
    [|b| <= half]. *)
From Coq Require Import Reals List.
Import ListNotations.
Open Scope R_scope.

Definition point : Type := (R * R)%type.

Record region : Type := mkRegion {
  rg_org : point; rg_ang : R; rg_back : R; rg_front : R; rg_half : R }.

Definition at_frame (o : point) (ang a b : R) : point :=
  (fst o + a * cos ang - b * sin ang, snd o + a * sin ang + b * cos ang).

(** P is a point of the solid rectangle. *)
Definition solid (g : region) (P : point) : Prop :=
  exists a b, rg_back g <= a <= rg_front g /\ - rg_half g <= b <= rg_half g
              /\ P = at_frame (rg_org g) (rg_ang g) a b.

(** P is a point of its outline. *)
Definition outline (g : region) (P : point) : Prop :=
  exists a b, rg_back g <= a <= rg_front g /\ - rg_half g <= b <= rg_half g
              /\ (a = rg_back g \/ a = rg_front g \/ b = - rg_half g \/ b = rg_half g)
              /\ P = at_frame (rg_org g) (rg_ang g) a b.

Definition disjoint (g h : region) : Prop := forall P, ~ (solid g P /\ solid h P).

Definition dist2 (P Q : point) : R :=
  (fst P - fst Q) * (fst P - fst Q) + (snd P - snd Q) * (snd P - snd Q).
Definition dist (P Q : point) : R := sqrt (dist2 P Q).

(** P is a point of the closed disc with centre C and radius r. *)
Definition disc (C : point) (r : R) (P : point) : Prop := dist P C <= r.

Definition well_formed (g : region) : Prop := rg_back g < rg_front g /\ 0 < rg_half g.
