(** * SpecTune: vocabulary for the hyperparameter search. *)
From Coq Require Import String Reals List ZArith.
From Verif Require Import Base Params Config SpecConfig Setup Stats TT2d Planner Tune.
Import ListNotations.
Local Open Scope string_scope.
Local Open Scope list_scope.
Open Scope R_scope.

(** The object has every field of the configuration. *)
Definition complete (c : dict) : Prop := forall f t, is_field f t -> c f <> None.
(** The values the search may try: 0.5, 1.0, ..., 5.0. *)
Definition on_grid (x : R) : Prop := exists n : nat, (1 <= n <= 10)%nat /\ x = INR n / 2.
(** Fields about drawing, which a search switches off. *)
Definition drawing (f : string) : Prop := In f ["render"; "save_animation"; "show_animation"; "save_denoising_animation"].

(** Parameters of an object under the names they have in the configuration. *)
Definition named_parameters : list (string * (params -> R)) := [
  ("dt", p_dt); ("collision_penalty", p_coll_pen); ("hitch_penalty", p_hitch_pen); ("reward_threshold", p_rew_thr);
  ("ref_reward_threshold", p_ref_thr); ("max_w_theta", p_max_w); ("hitch_angle_weight", p_hitch_w); ("l1", p_l1); ("l2", p_l2);
  ("lh", p_lh); ("lf1", p_lf1); ("lr", p_lr); ("lf2", p_lf2); ("lr2", p_lr2); ("tractor_width", p_trac_w);
  ("trailer_width", p_trail_w); ("v_max", p_vmax); ("k_switch", p_k_switch); ("steering_weight", p_steer_w);
  ("preference_penalty_weight", p_pref_w); ("heading_reward_weight", p_head_w);
  ("terminal_reward_threshold", p_term_thr); ("terminal_reward_weight", p_term_w); ("ref_pos_weight", p_ref_pos_w);
  ("ref_theta1_weight", p_ref_th1_w); ("ref_theta2_weight", p_ref_th2_w) ].

(** r reports the statistics st of num trials, as trial number n of the search with the given two values. *)
Definition reports (r : tuned) (n num : nat) (d k : R) (st : statistics) : Prop :=
  tu_number r = n /\ tu_num r = num /\
  tu_params r "d_thr_factor" = Some (VFloat d) /\ tu_params r "k_switch" = Some (VFloat k) /\
  tu_score r = sr_success_rate st /\ tu_success r = sr_success_rate st /\ tu_successful r = sr_successful st /\
  tu_error r = sr_position_error st /\ tu_coll r = sr_collision_rate st /\ tu_jack r = sr_jackknife_rate st.

(** c is the base configuration with the two values d and k, nothing drawn, and one trailer. *)
Definition tuned_from (base c : dict) (d k : val) : Prop :=
  c "d_thr_factor" = Some d /\ c "k_switch" = Some k /\ (forall f, drawing f -> c f = Some (VBool false)) /\
  c "num_trailers" = Some (VInt 1) /\
  (forall f t, is_field f t -> ~ drawing f -> f <> "d_thr_factor" -> f <> "k_switch" -> f <> "num_trailers" -> c f = base f).

(** st are the statistics of num trials planned without any cache for that configuration, from the start conditions
    drawn with seed 42. *)
Definition evaluated (proj : tt_self -> ttq -> act -> act) (guide : tt_self -> ttq -> ttq) (base : dict) (rg : prng)
  (ng : np_rng) (num : nat) (d k : R) (st : statistics) : Prop :=
  exists c s results, tuned_from base c (VFloat d) (VFloat k) /\
    (forall t r s' x0, create_trial_environment (trial_args c) t = Ok r -> tt_of_robot r = Some (s', x0) -> s' = s) /\
    tt_statistics (trial_args c) (fun _ => proj s) (fun _ => guide s) (fun _ _ _ => 0) (fun _ => 0) (planner_cfg c) rg ng num 42
      = Ok (results, st).

(** One-trailer base configuration without demonstration. *)
Definition one_trailer (c : dict) : Prop :=
  c "env_name" = Some (VStr "tt2d") /\ c "enable_demo" = Some (VBool false).
