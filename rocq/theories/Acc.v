(** * Acc: AccTractorTrailer2d (mbd/robots/acc_tt2d.py). *)
From Verif Require Import Base Params Geom TT2d.

(** State vector [px, py, theta1, theta2, v, delta]; [a_q] is x[:4]. *)
Record accq : Type := mkAcc { a_q : ttq; a_v : R; a_d : R }.
Record acc_self : Type := mkAccSelf {
  as_t : tt_self;                (* parent attributes; xg[:4] *)
  as_amax : R; as_omax : R       (* a_max, omega_max (acc_tt2d.py:28-29) *)
}.
Definition as_p (s : acc_self) : params := ts_p (as_t s).

(** acc_tt2d.py:36-38: _rollout_dt, _v_threshold, _max_rollout_steps = int(2*v_max/(a_max*1.0))
    (int() truncates; for non-negative arguments it is the floor). *)
Definition rollout_dt : R := 1.
Definition v_threshold : R := 1 / 100.
Definition max_rollout_steps (s : acc_self) : nat :=
  Z.to_nat (Int_part (2 * (p_vmax (as_p s) - 0) / (as_amax s * rollout_dt))).

Definition acc_axpy (x : accq) (c : R) (k : accq) : accq :=
  mkAcc (tt_axpy (a_q x) c (a_q k)) (a_v x + c * a_v k) (a_d x + c * a_d k).

(** input_scaler (acc_tt2d.py:83-87). *)
Definition acc_scaler (s : acc_self) (u : act) : act := (fst u * as_amax s, snd u * as_omax s).

(** tractor_trailer_dynamics (acc_tt2d.py:90-116). *)
Definition acc_dyn (s : acc_self) (x : accq) (u : act) : accq :=
  let '(a, omega) := u in
  let p := as_p s in
  let v := clip (a_v x) (- p_vmax p) (p_vmax p) in
  let delta := clip (a_d x) (- p_dmax p) (p_dmax p) in
  mkAcc (tt_dyn p (a_q x) (v, delta)) a omega.
Definition acc_euler (s : acc_self) (q : accq) (u : act) (dt : R) : accq :=
  euler acc_axpy (acc_dyn s) q u dt.

Definition as_coll (s : acc_self) (x : accq) : bool := ts_coll (as_t s) (a_q x).
Definition as_hitch (s : acc_self) (x : accq) : bool := ts_hitch (as_t s) (a_q x).

(** jnp.where(v > thr, -1, jnp.where(w < -thr, 1, 0)) (acc_tt2d.py:132, 257, 309). *)
Definition decel_sign (v w : R) : R :=
  where_ (Rltb v_threshold v) (-1) (where_ (Rltb w (- v_threshold)) 1 0).
(** jnp.clip(jnp.abs(v/self.dt), 0, self.a_max) (acc_tt2d.py:133, 258, 310). *)
Definition a_backup (s : acc_self) (v : R) : R :=
  clip (Rabs (v / p_dt (as_p s))) 0 (as_amax s).

(** _check_safety_single_step (acc_tt2d.py:269-274). *)
Definition check_single (s : acc_self) (q_new : accq) : bool * bool := (as_coll s q_new, as_hitch s q_new).

(** _rollout_step (acc_tt2d.py:277-297); the [stopped] flag is carried but never read. *)
Definition acc_rollout_step (s : acc_self) (u_stop : act) (carry : accq * bool * bool)
  : accq * bool * bool :=
  let '(q_curr, oc, hv) := carry in
  let should_continue := Rltb v_threshold (Rabs (a_v q_curr)) in
  let q_next := where_ should_continue (acc_euler s q_curr u_stop rollout_dt) q_curr in
  (q_next, oc || as_coll s q_next, hv || as_hitch s q_next).

(** _check_safety_with_rollout (acc_tt2d.py:300-319). *)
Definition check_with_rollout (s : acc_self) (q_new : accq) : bool * bool :=
  let v_new := a_v q_new in
  let u_stop := (decel_sign v_new v_new * a_backup s v_new, 0) in
  let '(_, oc, hv) :=
    Nat.iter (max_rollout_steps s) (acc_rollout_step s u_stop) (q_new, as_coll s q_new, as_hitch s q_new) in
  (oc, hv).

(** shielded_rollout (acc_tt2d.py:228-266). *)
Definition acc_shielded_rollout (s : acc_self) (q q_proposed : accq) : accq * bool * bool :=
  let p := as_p s in
  let v_new := a_v q_proposed in
  let v_cur := a_v q in
  let '(oc, hv) :=
    if Rleb (Rabs v_new) v_threshold then check_single s q_proposed
    else check_with_rollout s q_proposed in
  let u_backup_scaled := (decel_sign v_cur v_new * a_backup s v_cur, 0) in
  let q_backup := acc_euler s q u_backup_scaled (p_dt p) in
  let use_backup := (p_sh_coll p && oc) || (p_sh_hitch p && hv) in
  (where_ use_backup q_backup q_proposed, oc, hv).

(** u_backup_norm of _step_internal (acc_tt2d.py:131-134). *)
Definition acc_backup_norm (s : acc_self) (v_curr : R) : act :=
  (decel_sign v_curr v_curr * a_backup s v_curr / as_amax s, 0).

(** get_reward / get_terminal_reward (acc_tt2d.py:387-393): parent on q[:4]. *)
Definition acc_reward (s : acc_self) (q : accq) : R := tt_reward (as_t s) (a_q q).
Definition acc_terminal (s : acc_self) (q : accq) : R := tt_terminal (as_t s) (a_q q).

(** _step_internal (acc_tt2d.py:124-210). The preference penalty reads the velocity stored
    in q_final (get_preference_penalty(q_final, u), 6-d state: tt2d.py:436-437). *)
Definition acc_step_with (s : acc_self) (rew : accq -> R) (proj : accq -> act -> act) (guide : accq -> accq)
  (viz : bool) (st : State accq) (action0 : act) : State accq :=
  let p := as_p s in
  let action := clip_act action0 in
  let backup_prev := st_bak st in
  let u_backup := acc_backup_norm s (a_v (st_q st)) in
  let action_eff := where_ backup_prev u_backup action in
  let u_scaled := acc_scaler s action_eff in
  let q := st_q st in
  let '(q_final, q_reward, oc, hv, applied) :=
    if p_proj p then
      let u_safe := proj q action in
      let qf := acc_euler s q (acc_scaler s u_safe) (p_dt p) in
      (qf, qf, false, false, u_safe)
    else if p_guid p then
      let q_prop := acc_euler s q u_scaled (p_dt p) in
      let qr := guide q_prop in
      let qf := if viz then qr else q_prop in
      (qf, qr, as_coll s qr, as_hitch s qr, action_eff)
    else
      let q_prop := acc_euler s q u_scaled (p_dt p) in
      let '(qf, oc, hv) :=
        if p_sh_coll p || p_sh_hitch p
        then acc_shielded_rollout s q q_prop
        else step_without_shield (as_coll s) (as_hitch s) q_prop in
      let fallback := (p_sh_coll p && oc) || (p_sh_hitch p && hv) in
      let backup_next := backup_prev || fallback in
      (qf, qf, oc, hv, where_ backup_next u_backup action)
  in
  let pen := preference_penalty p (a_v q_final) in
  let reward := step_reward p (rew q_reward) oc hv pen in
  mkState q_final q_final reward 0 applied backup_prev.
(** _step_internal (acc_tt2d.py:124-210) with the object's own get_reward; the definition above takes get_reward
    as the argument [rew] because JAX may use an earlier trace of it (Cache.v). *)
Definition acc_step_internal (s : acc_self) (proj : accq -> act -> act) (guide : accq -> accq)
  (viz : bool) (st : State accq) (action0 : act) : State accq :=
  acc_step_with s (acc_reward s) proj guide viz st action0.
Definition acc_step (s : acc_self) proj guide st a := acc_step_internal s proj guide false st a.
