(** * Property theorems (generated from ProofsConfig.v by tools/genprops.py; statements only,
    each closed by [exact]). *)
From Coq Require Import String.
From Verif Require Import Base Config SpecConfig EnvModel Setup.
From Verif Require Import ProofsConfig.
Local Open Scope string_scope.
Local Open Scope list_scope.
Open Scope R_scope.

(** Every field except verbose, frame_skip and num_trailers takes the dictionary's value, if it
    has the annotated type. *)
Theorem C34_values_copied :
  forall repr d c f t v, dict_to_config_obj repr d = Ok c -> is_field f t -> ~ dropped f ->
  d f = Some v -> has_type t v -> c f = Some v.
Proof. exact l_C34_values_copied. Qed.
Print Assumptions C34_values_copied.

(** Every attribute of the result has its annotated type, whatever the dictionary contained. *)
Theorem C34_result_typed :
  forall repr d c f t, dict_to_config_obj repr d = Ok c -> is_field f t -> exists v, c f = Some v /\ has_type t v.
Proof. exact l_C34_result_typed. Qed.
Print Assumptions C34_result_typed.

(** If numeric fields hold numbers: KeyError exactly when a mandatory key is missing. *)
Theorem C34_key_error :
  forall repr d, numeric_where_needed d ->
  ((exists f, mandatory f /\ d f = None) -> dict_to_config_obj repr d = Err KeyError) /\
  ((forall f, mandatory f -> d f <> None) -> exists c, dict_to_config_obj repr d = Ok c).
Proof. exact l_C34_key_error. Qed.
Print Assumptions C34_key_error.

(** Without that hypothesis a missing mandatory key still never yields a configuration. *)
Theorem C34_missing_key_never_succeeds :
  forall repr d f, mandatory f -> d f = None -> forall c, dict_to_config_obj repr d <> Ok c.
Proof. exact l_C34_missing_key_never_succeeds. Qed.
Print Assumptions C34_missing_key_never_succeeds.

(** Only the entries for supported fields matter. *)
Theorem C34_other_keys_ignored :
  forall repr d d', (forall f t, is_field f t -> ~ dropped f -> d f = d' f) ->
  dict_to_config_obj repr d = dict_to_config_obj repr d'.
Proof. exact l_C34_other_keys_ignored. Qed.
Print Assumptions C34_other_keys_ignored.

(** An omitted optional key gets the default that get_env uses for the parameter of that name. *)
Theorem C34_defaults_are_those_of_get_env :
  forall repr d c name case trailers, dict_to_config_obj repr d = Ok c ->
  let g := default_env_args name case trailers in
  (d "motion_preference" = None -> c "motion_preference" = Some (VInt (g_motion g))) /\
  (d "enable_shielded_rollout_collision" = None -> c "enable_shielded_rollout_collision" = Some (VBool (g_sh_coll g))) /\
  (d "enable_shielded_rollout_hitch" = None -> c "enable_shielded_rollout_hitch" = Some (VBool (g_sh_hitch g))) /\
  (d "enable_projection" = None -> c "enable_projection" = Some (VBool (g_proj g))) /\
  (d "enable_guidance" = None -> c "enable_guidance" = Some (VBool (g_guid g))) /\
  forall f x, In (f, x) [
    ("collision_penalty", g_coll_pen g);
    ("hitch_penalty", g_hitch_pen g);
    ("reward_threshold", g_rew_thr g);
    ("ref_reward_threshold", g_ref_thr g);
    ("max_w_theta", g_max_w g);
    ("hitch_angle_weight", g_hitch_w g);
    ("l1", g_l1 g);
    ("l2", g_l2 g);
    ("lh", g_lh g);
    ("lf1", g_lf1 g);
    ("lr", g_lr g);
    ("lf2", g_lf2 g);
    ("lr2", g_lr2 g);
    ("tractor_width", g_trac_w g);
    ("trailer_width", g_trail_w g);
    ("v_max", g_vmax g);
    ("delta_max_deg", g_ddeg g);
    ("a_max", g_amax g);
    ("omega_max", g_omax g);
    ("d_thr_factor", g_d_fac g);
    ("k_switch", g_kswitch g);
    ("steering_weight", g_steer_w g);
    ("preference_penalty_weight", g_pref_w g);
    ("heading_reward_weight", g_head_w g);
    ("terminal_reward_threshold", g_term_thr g);
    ("terminal_reward_weight", g_term_w g);
    ("ref_pos_weight", g_rpos_w g);
    ("ref_theta1_weight", g_rth1_w g);
    ("ref_theta2_weight", g_rth2_w g)] ->
    d f = None -> exists x', c f = Some (VFloat x') /\ x' = x.
Proof. exact l_C34_defaults_are_those_of_get_env. Qed.
Print Assumptions C34_defaults_are_those_of_get_env.

(** The dataclass itself has different defaults: for these eleven fields an omitted key does not
    give the value that MBDConfig() has. *)
Theorem C34_defaults_are_those_of_the_dataclass_refuted :
  forall repr d c, dict_to_config_obj repr d = Ok c -> forall f,
  In f ["reward_threshold"; "ref_reward_threshold"; "max_w_theta"; "hitch_angle_weight"; "steering_weight";
        "preference_penalty_weight"; "terminal_reward_threshold"; "terminal_reward_weight"; "ref_pos_weight";
        "ref_theta1_weight"; "ref_theta2_weight"] ->
  d f = None -> exists v, c f = Some v /\ forall t dv, In (f, t, dv) dataclass_fields -> dv <> v.
Proof. exact l_C34_defaults_are_those_of_the_dataclass_refuted. Qed.
Print Assumptions C34_defaults_are_those_of_the_dataclass_refuted.

(** num_trailers, verbose and frame_skip in the dictionary are silently ignored. *)
Theorem C34_every_field_copied_refuted :
  forall repr d c, dict_to_config_obj repr d = Ok c ->
  c "num_trailers" = Some (VInt 1) /\ c "verbose" = Some (VBool false) /\ c "frame_skip" = Some (VInt 1).
Proof. exact l_C34_every_field_copied_refuted. Qed.
Print Assumptions C34_every_field_copied_refuted.

(** A flag given as the text "False" is switched on. *)
Theorem C34_text_false_is_false_refuted :
  forall repr d c, dict_to_config_obj repr d = Ok c -> d "enable_guidance" = Some (VStr "False") ->
  c "enable_guidance" = Some (VBool true).
Proof. exact l_C34_text_false_is_false_refuted. Qed.
Print Assumptions C34_text_false_is_false_refuted.

Example C34_mandatory_only :
  exists c, dict_to_config_obj (fun _ => "") ex_dict = Ok c /\ c "dt" = Some (VFloat (1/4)) /\
    c "reward_threshold" = Some (VFloat 25) /\ numeric_where_needed ex_dict.
Proof. exact x_C34_mandatory_only. Qed.
