(** * SpecTuneSave: vocabulary for the result file of the hyperparameter search. *)
From Coq Require Import String Reals List ZArith.
From Verif Require Import Base Config Setup Tune TuneSave.
Import ListNotations.
Local Open Scope string_scope.
Local Open Scope list_scope.
Open Scope R_scope.

(** The file names its best trial truthfully among the results l: it is the trial with that number, nothing in l scored
    higher and nothing before it scored as high. *)
Definition names_best (f : saved) (l : list tuned) : Prop :=
  exists best, nth_error l (sv_best_number f) = Some best /\ sv_best_score f = tu_score best /\ sv_best_params f = tu_params best /\
    (forall r, In r l -> tu_score r <= sv_best_score f) /\
    (forall i r, (i < sv_best_number f)%nat -> nth_error l i = Some r -> tu_score r < sv_best_score f).

(** The file holds the values of these fields of the base configuration, and no others. *)
Definition holds_fields (f : saved) (base : dict) (fields : list string) : Prop :=
  forall k v, In (k, v) (sv_base f) <-> In k fields /\ base k = Some v.
(** What the file records of the base configuration. *)
Definition recorded : list string := [
  "env_name"; "case"; "Nsample"; "Hsample"; "Ndiffuse"; "motion_preference"; "enable_demo"; "v_max"; "delta_max_deg";
  "l1"; "l2"; "lh"; "lf1"; "lr"; "lf2"; "lr2"; "tractor_width"; "trailer_width" ].
