(** * Config: the configuration dataclass and dict_to_config_obj (mbd/planners/mbd_planner.py).

    A Python dictionary with string keys is a partial function. Simplifications: int() and float()
    of a string always raise ValueError (numeric strings are not parsed); str() of a non-string is
    left to the caller as [repr]. *)
From Coq Require Import String.
From Verif Require Import Base.
Local Open Scope string_scope.
Local Open Scope list_scope.

Inductive val : Type := VInt (z : Z) | VFloat (x : R) | VBool (b : bool) | VStr (s : string).
Inductive ty : Type := TInt | TFloat | TBool | TStr.

(** Fields of MBDConfig with their annotated type and default (mbd_planner.py:50-117). *)
Definition dataclass_fields : list (string * ty * val) := [
  ("seed", TInt, VInt 42);
  ("env_name", TStr, VStr "acc_tt2d");
  ("case", TStr, VStr "parking");
  ("verbose", TBool, VBool false);
  ("Nsample", TInt, VInt 20000);
  ("Hsample", TInt, VInt 50);
  ("Ndiffuse", TInt, VInt 100);
  ("temp_sample", TFloat, VFloat (1/100000));
  ("beta0", TFloat, VFloat (1/100000));
  ("betaT", TFloat, VFloat (1/100));
  ("enable_demo", TBool, VBool false);
  ("motion_preference", TInt, VInt 0);
  ("collision_penalty", TFloat, VFloat (3/20));
  ("hitch_penalty", TFloat, VFloat (1/10));
  ("enable_shielded_rollout_collision", TBool, VBool true);
  ("enable_shielded_rollout_hitch", TBool, VBool true);
  ("enable_projection", TBool, VBool false);
  ("enable_guidance", TBool, VBool false);
  ("l1", TFloat, VFloat (323/100));
  ("l2", TFloat, VFloat (29/10));
  ("lh", TFloat, VFloat (23/20));
  ("lf1", TFloat, VFloat (9/10));
  ("lr", TFloat, VFloat (231/125));
  ("lf2", TFloat, VFloat (71/50));
  ("lr2", TFloat, VFloat (129/40));
  ("tractor_width", TFloat, VFloat (2));
  ("trailer_width", TFloat, VFloat (5/2));
  ("v_max", TFloat, VFloat (3));
  ("delta_max_deg", TFloat, VFloat (55));
  ("a_max", TFloat, VFloat (2));
  ("omega_max", TFloat, VFloat (1));
  ("reward_threshold", TFloat, VFloat (50));
  ("ref_reward_threshold", TFloat, VFloat (10));
  ("max_w_theta", TFloat, VFloat (1/2));
  ("hitch_angle_weight", TFloat, VFloat (1/100));
  ("terminal_reward_threshold", TFloat, VFloat (20));
  ("terminal_reward_weight", TFloat, VFloat (5));
  ("d_thr_factor", TFloat, VFloat (1));
  ("k_switch", TFloat, VFloat (5/2));
  ("steering_weight", TFloat, VFloat (1/100));
  ("preference_penalty_weight", TFloat, VFloat (1/2));
  ("heading_reward_weight", TFloat, VFloat (1/2));
  ("ref_pos_weight", TFloat, VFloat (4/5));
  ("ref_theta1_weight", TFloat, VFloat (1/10));
  ("ref_theta2_weight", TFloat, VFloat (1/10));
  ("render", TBool, VBool true);
  ("save_animation", TBool, VBool false);
  ("show_animation", TBool, VBool true);
  ("save_denoising_animation", TBool, VBool false);
  ("frame_skip", TInt, VInt 1);
  ("dt", TFloat, VFloat (1/4));
  ("num_trailers", TInt, VInt 1)
].

(** Arguments of the MBDConfig call (mbd_planner.py:133-186), in evaluation order: field, conversion,
    and [None] for config_dict["key"] or [Some d] for config_dict.get("key", d). *)
Definition conversions : list (string * ty * option val) := [
  ("seed", TInt, None);
  ("render", TBool, None);
  ("env_name", TStr, None);
  ("case", TStr, None);
  ("Nsample", TInt, None);
  ("Hsample", TInt, None);
  ("Ndiffuse", TInt, None);
  ("temp_sample", TFloat, None);
  ("beta0", TFloat, None);
  ("betaT", TFloat, None);
  ("enable_demo", TBool, None);
  ("motion_preference", TInt, Some (VInt 0));
  ("collision_penalty", TFloat, Some (VFloat (3/20)));
  ("enable_shielded_rollout_collision", TBool, Some (VBool true));
  ("hitch_penalty", TFloat, Some (VFloat (1/10)));
  ("enable_shielded_rollout_hitch", TBool, Some (VBool true));
  ("enable_projection", TBool, Some (VBool false));
  ("enable_guidance", TBool, Some (VBool false));
  ("reward_threshold", TFloat, Some (VFloat (25)));
  ("ref_reward_threshold", TFloat, Some (VFloat (5)));
  ("max_w_theta", TFloat, Some (VFloat (3/4)));
  ("hitch_angle_weight", TFloat, Some (VFloat (1/5)));
  ("l1", TFloat, Some (VFloat (323/100)));
  ("l2", TFloat, Some (VFloat (29/10)));
  ("lh", TFloat, Some (VFloat (23/20)));
  ("lf1", TFloat, Some (VFloat (9/10)));
  ("lr", TFloat, Some (VFloat (231/125)));
  ("lf2", TFloat, Some (VFloat (71/50)));
  ("lr2", TFloat, Some (VFloat (129/40)));
  ("tractor_width", TFloat, Some (VFloat (2)));
  ("trailer_width", TFloat, Some (VFloat (5/2)));
  ("v_max", TFloat, Some (VFloat (3)));
  ("delta_max_deg", TFloat, Some (VFloat (55)));
  ("a_max", TFloat, Some (VFloat (2)));
  ("omega_max", TFloat, Some (VFloat (1)));
  ("d_thr_factor", TFloat, Some (VFloat (1)));
  ("k_switch", TFloat, Some (VFloat (5/2)));
  ("steering_weight", TFloat, Some (VFloat (1/20)));
  ("preference_penalty_weight", TFloat, Some (VFloat (1/20)));
  ("heading_reward_weight", TFloat, Some (VFloat (1/2)));
  ("terminal_reward_threshold", TFloat, Some (VFloat (10)));
  ("terminal_reward_weight", TFloat, Some (VFloat (1)));
  ("ref_pos_weight", TFloat, Some (VFloat (3/10)));
  ("ref_theta1_weight", TFloat, Some (VFloat (1/2)));
  ("ref_theta2_weight", TFloat, Some (VFloat (1/5)));
  ("save_animation", TBool, None);
  ("show_animation", TBool, None);
  ("save_denoising_animation", TBool, None);
  ("dt", TFloat, None)
].

(** int(), float(), bool(), str(). int() truncates towards zero. *)
Definition trunc (x : R) : Z := if Rltb x 0 then (- Int_part (- x))%Z else Int_part x.
Definition to_type (repr : val -> string) (t : ty) (v : val) : Res val :=
  match t, v with
  | TInt, VInt z => Ok (VInt z)
  | TInt, VFloat x => Ok (VInt (trunc x))
  | TInt, VBool b => Ok (VInt (if b then 1 else 0))
  | TInt, VStr _ => Err ValueError
  | TFloat, VInt z => Ok (VFloat (IZR z))
  | TFloat, VFloat x => Ok (VFloat x)
  | TFloat, VBool b => Ok (VFloat (if b then 1 else 0))
  | TFloat, VStr _ => Err ValueError
  | TBool, VInt z => Ok (VBool (negb (Z.eqb z 0)))
  | TBool, VFloat x => Ok (VBool (negb (Reqb x 0)))
  | TBool, VBool b => Ok (VBool b)
  | TBool, VStr s => Ok (VBool (negb (String.eqb s "")))
  | TStr, VStr s => Ok (VStr s)
  | TStr, _ => Ok (VStr (repr v))
  end.

Definition dict : Type := string -> option val.

(** Evaluation of the keyword arguments, left to right (mbd_planner.py:133-186). *)
Fixpoint eval_kwargs (repr : val -> string) (d : dict) (cs : list (string * ty * option val))
  : Res (list (string * val)) :=
  match cs with
  | [] => Ok []
  | (key, t, dflt) :: rest =>
      let raw := match d key, dflt with
                 | Some v, _ => Ok v
                 | None, Some v => Ok v
                 | None, None => Err KeyError
                 end in
      match raw with
      | Err e => Err e
      | Ok v =>
          match to_type repr t v with
          | Err e => Err e
          | Ok v' => match eval_kwargs repr d rest with Err e => Err e | Ok m => Ok ((key, v') :: m) end
          end
      end
  end.

(** Association lookup. *)
Fixpoint lookup (m : list (string * val)) (key : string) : option val :=
  match m with
  | [] => None
  | (k, v) :: rest => if String.eqb k key then Some v else lookup rest key
  end.

(** dict_to_config_obj (mbd_planner.py:120-186): attributes not passed keep the dataclass default;
    [None] means there is no such attribute. *)
Definition dict_to_config_obj (repr : val -> string) (d : dict) : Res dict :=
  match eval_kwargs repr d conversions with
  | Err e => Err e
  | Ok m => Ok (fun key =>
      match lookup m key with
      | Some v => Some v
      | None => lookup (map (fun f => (fst (fst f), snd f)) dataclass_fields) key
      end)
  end.
