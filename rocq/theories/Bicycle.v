(** * Bicycle: KinematicBicycle2d (mbd/robots/kinematic_bicycle2d.py). *)
From Verif Require Import Base Params Geom TT2d.

(** State vector [px, py, theta1]. *)
Record bkq : Type := mkBK { b_px : R; b_py : R; b_th : R }.
Record bk_self : Type := mkBKSelf {
  bs_p : params; bs_circ : list circle; bs_rect : list rectobs; bs_xg : bkq }.

Definition bk_axpy (x : bkq) (c : R) (k : bkq) : bkq :=
  mkBK (b_px x + c * b_px k) (b_py x + c * b_py k) (b_th x + c * b_th k).

(** bicycle_dynamics / tractor_trailer_dynamics override (kinematic_bicycle2d.py:83-107). *)
Definition bk_dyn (p : params) (x : bkq) (u : act) : bkq :=
  let '(v, delta) := u in
  mkBK (v * cos (b_th x)) (v * sin (b_th x)) ((v / p_l1 p) * tan delta).
Definition bk_euler (p : params) (q : bkq) (u : act) : bkq := euler bk_axpy (bk_dyn p) q u (p_dt p).

(** get_tractor_rectangle (105-132). *)
Definition bk_corners (p : params) (x : bkq) : list pt := tractor_corners p (b_px x) (b_py x) (b_th x).

(** check_obstacle_collision (135-191), check_hitch_violation (194-196). *)
Definition bk_coll (p : params) circ rect (x : bkq) : bool :=
  existsb (hits_circle (bk_corners p x)) circ || existsb (hits_rect (bk_corners p x)) rect.
Definition bk_hitch (x : bkq) : bool := false.
Definition bs_coll (s : bk_self) : bkq -> bool := bk_coll (bs_p s) (bs_circ s) (bs_rect s).

(** get_trailer_back_position (262-270). *)
Definition bk_back (p : params) (x : bkq) : pt :=
  (b_px x - p_lh p * cos (b_th x), b_py x - p_lh p * sin (b_th x)).

(** get_reward (273-316). *)
Definition bk_dpos (p : params) (xg q : bkq) : R :=
  pnorm (psub (b_px q + p_l1 p * cos (b_th q), b_py q + p_l1 p * sin (b_th q)) (b_px xg, b_py xg)).
Definition bk_reward (s : bk_self) (q : bkq) : R :=
  let p := bs_p s in
  let thetag := b_th (bs_xg s) in
  let d_pos := bk_dpos p (bs_xg s) q in
  let r_pos := pos_reward d_pos (p_rew_thr p) in
  let e1d := wrap_pi (b_th q - thetag) in
  let e1o := wrap_pi (b_th q - thetag - PI) in
  let e1w := where_ (Rltb (Rabs e1d) (Rabs e1o)) e1d e1o in
  let e1 := where_ (Z.eqb (p_motion p) 0) e1w e1d in
  let r_hdg := 1 - (Rabs e1 / p_theta_max p) * (Rabs e1 / p_theta_max p) in
  let w := clip (sigmoid ((p_d_thr p - d_pos) / p_k_switch p)) 0 (p_max_w p) in
  (1 - w) * r_pos + w * r_hdg.
(** get_terminal_reward (319-329). *)
Definition bk_terminal (s : bk_self) (q : bkq) : R :=
  pos_reward (bk_dpos (bs_p s) (bs_xg s) q) (p_term_thr (bs_p s)).

(** _step_internal (204-259). Unlike tt2d, the projection branch checks collisions. *)
Definition bk_step_with (s : bk_self) (rew : bkq -> R) (proj : bkq -> act -> act) (guide : bkq -> bkq)
  (viz : bool) (st : State bkq) (action0 : act) : State bkq :=
  let p := bs_p s in
  let action := clip_act action0 in
  let backup_prev := st_bak st in
  let u_backup : act := (0, 0) in
  let action_eff := where_ backup_prev u_backup action in
  let u_scaled := input_scaler p action_eff in
  let q := st_q st in
  let '(q_final, q_reward, oc, hv, applied) :=
    if p_proj p then
      let u_safe := proj q action in
      let qf := bk_euler p q (input_scaler p u_safe) in
      (qf, qf, bs_coll s qf, bk_hitch qf, u_safe)
    else if p_guid p then
      let q_prop := bk_euler p q u_scaled in
      let qr := guide q_prop in
      let qf := if viz then qr else q_prop in
      (qf, qr, bs_coll s qr, bk_hitch qr, action_eff)
    else
      let q_prop := bk_euler p q u_scaled in
      let '(qf, oc, hv) :=
        if p_sh_coll p || p_sh_hitch p
        then shielded_rollout p (bs_coll s) bk_hitch q q_prop
        else step_without_shield (bs_coll s) bk_hitch q_prop in
      let fallback := (p_sh_coll p && oc) || (p_sh_hitch p && hv) in
      let backup_next := backup_prev || fallback in
      (qf, qf, oc, hv, where_ backup_next u_backup action)
  in
  let pen := preference_penalty p (fst (input_scaler p applied)) in
  let reward := step_reward p (rew q_reward) oc hv pen in
  mkState q_final q_final reward 0 applied backup_prev.
(** _step_internal (kinematic_bicycle2d.py:204-259) with the object's own get_reward; the definition above takes get_reward
    as the argument [rew] because JAX may use an earlier trace of it (Cache.v). *)
Definition bk_step_internal (s : bk_self) (proj : bkq -> act -> act) (guide : bkq -> bkq)
  (viz : bool) (st : State bkq) (action0 : act) : State bkq :=
  bk_step_with s (bk_reward s) proj guide viz st action0.
Definition bk_step (s : bk_self) proj guide st a := bk_step_internal s proj guide false st a.
