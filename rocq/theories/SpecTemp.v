(** * SpecTemp: vocabulary for the sampling temperature. *)
From Coq Require Import Reals List.
From Verif Require Import SpecPlan.
Import ListNotations.
Open Scope R_scope.

(** Population standard deviation. *)
Definition deviation (l : list R) : R := sqrt (mean (map (fun x => (x - mean l) ^ 2) l)).
(** Sample b leads: every other reward is at least d smaller. *)
Definition leads (rews : list R) (b : nat) (d : R) : Prop :=
  (b < length rews)%nat /\ forall k, (k < length rews)%nat -> k <> b -> nth k rews 0 + d <= nth b rews 0.
(** All values lie between lo and hi. *)
Definition between (lo hi : R) (l : list R) : Prop := Forall (fun x => lo <= x <= hi) l.
(** Two commands differ by at most e in both components. *)
Definition within (e : R) (a b : R * R) : Prop := Rabs (fst a - fst b) <= e /\ Rabs (snd a - snd b) <= e.
