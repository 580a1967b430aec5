(** * SpecHarness: vocabulary for the integration-test harness. Uses data types of the model only. *)
From Coq Require Import String.
From Verif Require Import Base Params Config EnvModel Setup Tune Harness.
Local Open Scope string_scope.
Local Open Scope list_scope.
Open Scope R_scope.

(** The base scenarios of the two vehicle models. *)
Definition kinematic_names : list string := [
  "parking_basic_forward"; "parking_basic_backward"; "parking_no_preference"; "parking_enforce_forward";
  "parking_enforce_backward" ].
Definition acceleration_names : list string := [
  "acc_parking_basic_forward"; "acc_parking_basic_backward"; "acc_parking_no_preference" ].

Definition with_demo (n : string) : string := (n ++ "_demo")%string.
(** A name that ends in _demo. *)
Definition demo_named (n : string) : Prop := exists b, n = with_demo b.
(** The predefined scenarios: each base scenario and its demonstration variant. *)
Definition known (n : string) : Prop :=
  exists b, In b (kinematic_names ++ acceleration_names) /\ (n = b \/ n = with_demo b).

(** d is c with demonstrations switched on; only the name and the description differ otherwise. *)
Definition demo_variant_of (c d : test_config) : Prop :=
  (forall key, tc_mbd d key = if String.eqb key "enable_demo" then Some (VBool true) else tc_mbd c key) /\
  tc_name d = with_demo (tc_name c) /\
  tc_min d = tc_min c /\ tc_max d = tc_max c /\ tc_timeout d = tc_timeout c /\ tc_limit d = tc_limit c /\
  tc_circ d = tc_circ c /\ tc_rect d = tc_rect c /\ tc_parking d = tc_parking c /\
  tc_dx d = tc_dx c /\ tc_dy d = tc_dy c /\ tc_th1 d = tc_th1 c /\ tc_th2 d = tc_th2 c /\
  tc_g1 d = tc_g1 c /\ tc_g2 d = tc_g2 c.

(** What a scenario's name says about the preferred direction of motion: 1 and -1 are preferences, 2 and -2
    strict, 0 none. *)
Definition named_motion : list (string * Z) := [
  ("parking_basic_forward", 1); ("parking_basic_backward", -1); ("parking_no_preference", 0);
  ("parking_enforce_forward", 2); ("parking_enforce_backward", -2)]%Z.

(** The settings a scenario chooses; all others are the defaults of MBDConfig. *)
Definition scenario_settings : list string :=
  ["seed"; "env_name"; "enable_demo"; "motion_preference"; "render"; "show_animation"].

(** A runner whose tests have the outcomes [ok] and no memory. *)
Definition memoryless {W : Type} (ok : test_config -> bool) (w : W) (c : test_config) : W * bool := (w, ok c).
(** A runner that keeps a list of the scenarios it is given, with outcomes [ok]. *)
Definition recording (ok : string -> bool) (log : list string) (c : test_config) : list string * bool :=
  ((log ++ [tc_name c])%list, ok (tc_name c)).
(** The scenario called n exists and its test passes. *)
Definition passes (ok : test_config -> bool) (n : string) : Prop := exists c, get_test_config n = Ok c /\ ok c = true.

(** The overrides a call may give: attributes that exist. *)
Definition attribute (key : string) : Prop := exists t v, In (key, t, v) dataclass_fields.
Definition valid_override (o : override) : Prop := match o with OAttr key _ => attribute key | _ => True end.
(** What the last of the overrides in l gives to an attribute or field, if any does. *)
Fixpoint last_given {A : Type} (f : override -> option A) (l : list override) : option A :=
  match l with
  | [] => None
  | o :: rest => match last_given f rest with Some v => Some v | None => f o end
  end.
Definition gives (key : string) (o : override) : option val :=
  match o with OAttr k v => if String.eqb k key then Some v else None | _ => None end.
Definition gives_circles o := match o with OCircles l => Some l | _ => None end.
Definition gives_rects o := match o with ORects l => Some l | _ => None end.
Definition gives_lot o := match o with OLot l => Some l | _ => None end.
Definition gives_timeout o := match o with OTimeout t => Some t | _ => None end.
Definition gives_start o := match o with OStart dx dy th1 th2 => Some (Some dx, Some dy, Some th1, Some th2) | _ => None end.
(** v if given, else the old value. *)
Definition or_old {A : Type} (v : option A) (old : A) : A := match v with Some x => x | None => old end.

(** The distances of the final state meet the test's criteria: the smaller one lies in the expected range, and
    one of them is within the success distance. *)
Definition acceptable (c : test_config) (near rear : R) : Prop :=
  tc_min c <= Rmin near rear /\ Rmin near rear <= tc_max c /\ (near <= tc_limit c \/ rear <= tc_limit c).
