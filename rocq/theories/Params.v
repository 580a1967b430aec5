(** * Params: attributes set by the robot constructors. *)
From Verif Require Import Base.

(** Obstacle rows: circle [x, y, r] and rectangle [x, y, width, height, angle]
    (mbd/envs/env.py:71-119, 229-292). *)
Record circle : Type := mkCircle { c_x : R; c_y : R; c_r : R }.
Record rectobs : Type := mkRect { r_x : R; r_y : R; r_w : R; r_h : R; r_ang : R }.

(** Attributes assigned in TractorTrailer2d.__init__ (mbd/robots/tt2d.py:49-120).
    Not included: animation attributes, [env], [x0], [xg], [xref] (modelled where used). *)
Record params : Type := mkParams {
  p_dt : R;
  p_H : nat;
  p_num_trailers : nat;
  p_motion : Z;                 (* motion_preference *)
  p_coll_pen : R;               (* collision_penalty *)
  p_sh_coll : bool;             (* enable_shielded_rollout_collision *)
  p_hitch_pen : R;              (* hitch_penalty *)
  p_sh_hitch : bool;            (* enable_shielded_rollout_hitch *)
  p_proj : bool;                (* enable_projection *)
  p_guid : bool;                (* enable_guidance *)
  p_rew_thr : R;                (* reward_threshold *)
  p_ref_thr : R;                (* ref_reward_threshold *)
  p_max_w : R;                  (* max_w_theta *)
  p_hitch_w : R;                (* hitch_angle_weight *)
  p_ref_pos_w : R;
  p_ref_th1_w : R;
  p_ref_th2_w : R;
  p_l1 : R; p_l2 : R; p_lh : R; p_lf1 : R; p_lr : R; p_lf2 : R; p_lr2 : R;
  p_trac_w : R;                 (* tractor_width *)
  p_trail_w : R;                (* trailer_width *)
  p_vmax : R;
  p_dmax : R;                   (* delta_max, radians *)
  p_theta_max : R;
  p_phi_max : R;
  p_d_thr : R;
  p_k_switch : R;
  p_steer_w : R;
  p_pref_w : R;
  p_head_w : R;
  p_term_thr : R;
  p_term_w : R
}.

(** tt2d.py:101, 104-106: derived angles. *)
Definition delta_max_of_deg (deg : R) : R := deg * PI / 180.
Definition theta_max_const : R := PI / 2.
Definition phi_max_const : R := 40 * PI / 180.
Definition d_thr_of (factor l1 lh l2 : R) : R := factor * (l1 + lh + l2).

(** Default keyword arguments of TractorTrailer2d.__init__ (tt2d.py:49-57). *)
Definition default_params : params := {|
  p_dt := 2/10; p_H := 50; p_num_trailers := 1; p_motion := 0%Z;
  p_coll_pen := 15/100; p_sh_coll := true; p_hitch_pen := 10/100; p_sh_hitch := true;
  p_proj := false; p_guid := false;
  p_rew_thr := 25; p_ref_thr := 5; p_max_w := 75/100; p_hitch_w := 2/10;
  p_ref_pos_w := 3/10; p_ref_th1_w := 5/10; p_ref_th2_w := 2/10;
  p_l1 := 323/100; p_l2 := 29/10; p_lh := 115/100; p_lf1 := 9/10; p_lr := 1848/1000;
  p_lf2 := 142/100; p_lr2 := 3225/1000;
  p_trac_w := 2; p_trail_w := 25/10;
  p_vmax := 3; p_dmax := delta_max_of_deg 55;
  p_theta_max := theta_max_const; p_phi_max := phi_max_const;
  p_d_thr := d_thr_of 1 (323/100) (115/100) (29/10);
  p_k_switch := 25/10; p_steer_w := 5/100; p_pref_w := 5/100; p_head_w := 5/10;
  p_term_thr := 10; p_term_w := 1 |}.

(** State dataclass (tt2d.py:33-40). *)
Record State (Q : Type) : Type := mkState {
  st_q : Q;            (* pipeline_state *)
  st_obs : Q;
  st_rew : R;
  st_done : R;
  st_app : act;        (* applied_action *)
  st_bak : bool        (* in_backup_mode *)
}.
Arguments mkState {Q}.
Arguments st_q {Q}. Arguments st_obs {Q}. Arguments st_rew {Q}.
Arguments st_done {Q}. Arguments st_app {Q}. Arguments st_bak {Q}.

(** reset (tt2d.py:264-266, acc_tt2d.py:78-80, n_trailer2d.py:102-103,
    kinematic_bicycle2d.py:77-80): all classes build the same record from x0. *)
Definition reset_state {Q : Type} (x0 : Q) : State Q :=
  mkState x0 x0 0 0 (0, 0) false.

(** input_scaler (tt2d.py:269-273); used by bicycle and n-trailer too (n_trailer2d.py:59-60). *)
Definition input_scaler (p : params) (u : act) : act :=
  (fst u * p_vmax p, snd u * p_dmax p).

(** Core of get_preference_penalty (tt2d.py:441-464, n_trailer2d.py:197-208)
    on the velocity selected at tt2d.py:430-439. *)
Definition preference_penalty (p : params) (v : R) : R :=
  let w := p_pref_w p in
  let forward := where_ (Rltb v 0) (w * Rabs v) 0 in
  let backward := where_ (Rltb 0 v) (w * Rabs v) 0 in
  let no_penalty := 0 in
  where_ (Z.eqb (p_motion p) 1) forward
    (where_ (Z.eqb (p_motion p) (-1)) backward
       (where_ (Z.eqb (p_motion p) 2 || Z.eqb (p_motion p) (-2)) no_penalty no_penalty)).

(** shielded_rollout (tt2d.py:402-415; identical body n_trailer2d.py:182-187; inherited by
    the bicycle). [coll]/[hitch] stand for self.check_obstacle_collision(., obstacles) and
    self.check_hitch_violation. *)
Definition shielded_rollout {Q : Type} (p : params) (coll hitch : Q -> bool) (q q_proposed : Q)
  : Q * bool * bool :=
  let obstacle_collision := coll q_proposed in
  let hitch_violation := hitch q_proposed in
  let q_shielded := where_ (p_sh_coll p && obstacle_collision) q q_proposed in
  let q_final := where_ (p_sh_hitch p && hitch_violation) q q_shielded in
  (q_final, obstacle_collision, hitch_violation).

(** _step_without_shielded_rollout (tt2d.py:392-399, n_trailer2d.py:176-179). *)
Definition step_without_shield {Q : Type} (coll hitch : Q -> bool) (q_proposed : Q)
  : Q * bool * bool :=
  (q_proposed, coll q_proposed, hitch q_proposed).
