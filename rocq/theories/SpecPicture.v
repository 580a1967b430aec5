(** * SpecPicture: vocabulary for static pictures, printed layouts and heat maps. *)
From Coq Require Import String Reals List ZArith Ascii.
From Verif Require Import Base Params SpecGeom EnvModel SpecEnv Setup TT2d Stats SpecStats Picture.
Import ListNotations.
Local Open Scope string_scope.
Local Open Scope list_scope.
Open Scope R_scope.

(** P lies on the segment AB. *)
Definition on_segment (s : point * point) (P : point) : Prop :=
  exists t, 0 <= t <= 1 /\ fst P = fst (fst s) + t * (fst (snd s) - fst (fst s)) /\
    snd P = snd (fst s) + t * (snd (snd s) - snd (fst s)).
(** P lies on a line of the picture. *)
Definition on_a_line (pic : picture) (P : point) : Prop := exists s, In s (pc_lines pic) /\ on_segment s P.
(** P lies on the edge of some space of the lot whose bottom is at height b. *)
Definition on_space_edge (c : parking) (b : R) (P : point) : Prop :=
  exists n i j, numbered c n i j /\ space_area c b i j P /\ ~ space_interior c b i j P.

(** Where the rear axle stands at the start of a trial, for a tractor of wheelbase l1. *)
Definition trial_start (l1 : R) (t : trial) : point :=
  (t_px (start_state l1 (pose_of t)), t_py (start_state l1 (pose_of t))).
(** Trials with the given verdict, in order. *)
Definition ended (ok : bool) (results : list (trial * bool)) : list trial :=
  map fst (filter (fun x => Bool.eqb (snd x) ok) results).
(** The same for markers. *)
Definition marked (ok : bool) (trials : list (point * bool)) : list point :=
  map fst (filter (fun x => Bool.eqb (snd x) ok) trials).
