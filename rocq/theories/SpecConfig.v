(** * SpecConfig: vocabulary for configuration dictionaries. *)
From Coq Require Import Reals List String.
From Verif Require Import Base Config.
Import ListNotations.
Local Open Scope string_scope.
Local Open Scope list_scope.

(** The value has the annotated type. *)
Definition has_type (t : ty) (v : val) : Prop :=
  match t, v with
  | TInt, VInt _ | TFloat, VFloat _ | TBool, VBool _ | TStr, VStr _ => True
  | _, _ => False
  end.

(** [f] is a configuration field of type [t] (mbd_planner.py:50-117). *)
Definition is_field (f : string) (t : ty) : Prop := exists dv, In (f, t, dv) dataclass_fields.

(** Keys the caller must provide. *)
Definition mandatory (f : string) : Prop :=
  In f ["seed"; "render"; "env_name"; "case"; "Nsample"; "Hsample"; "Ndiffuse"; "temp_sample"; "beta0";
        "betaT"; "enable_demo"; "save_animation"; "show_animation"; "save_denoising_animation"; "dt"].

(** Fields the conversion does not look at. *)
Definition dropped (f : string) : Prop := In f ["verbose"; "frame_skip"; "num_trailers"].

(** Every entry for a numeric field is a number (or a Boolean). *)
Definition numeric_where_needed (d : dict) : Prop :=
  forall f t s, is_field f t -> d f = Some (VStr s) -> t = TBool \/ t = TStr.
