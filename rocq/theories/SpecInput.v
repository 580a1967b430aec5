(** * SpecInput: what becomes of a commanded action, and what a step is charged. Only data types of
    the model are used. *)
From Coq Require Import Reals ZArith.
From Verif Require Import Params.
Open Scope R_scope.

(** A command outside [-1,1] is replaced by the nearest admissible one, component by component. *)
Definition nearest_admissible (v : R) : R := if Rlt_dec v (-1) then -1 else if Rlt_dec 1 v then 1 else v.
Definition saturated (a : R * R) : R * R := (nearest_admissible (fst a), nearest_admissible (snd a)).

(** What driving with speed [v] costs: with forward (backward) preference, reversing (going forward)
    costs the weight times the speed; with the other preferences nothing is charged. *)
Definition direction_charge (p : params) (v : R) : R :=
  if Z.eqb (p_motion p) 1 then (if Rlt_dec v 0 then p_pref_w p * Rabs v else 0)
  else if Z.eqb (p_motion p) (-1) then (if Rlt_dec 0 v then p_pref_w p * Rabs v else 0)
  else 0.

(** [x] is [amount] if [P] holds and nothing otherwise. *)
Definition charged (P : Prop) (amount x : R) : Prop := (P -> x = amount) /\ (~ P -> x = 0).
