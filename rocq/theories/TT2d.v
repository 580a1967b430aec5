(** * TT2d: TractorTrailer2d (mbd/robots/tt2d.py). *)
From Verif Require Import Base Params Geom.

(** State vector [px, py, theta1, theta2]. *)
Record ttq : Type := mkTT { t_px : R; t_py : R; t_th1 : R; t_th2 : R }.

(** Robot object: attributes read by the methods below. *)
Record tt_self : Type := mkTTSelf {
  ts_p : params;
  ts_circ : list circle;      (* self.obs_circles *)
  ts_rect : list rectobs;     (* self.obs_rectangles *)
  ts_xg : ttq
}.

(** x + c*k on 4-vectors. *)
Definition tt_axpy (x : ttq) (c : R) (k : ttq) : ttq :=
  mkTT (t_px x + c * t_px k) (t_py x + c * t_py k)
       (t_th1 x + c * t_th1 k) (t_th2 x + c * t_th2 k).

(** tractor_trailer_dynamics (tt2d.py:276-294). *)
Definition tt_dyn (p : params) (x : ttq) (u : act) : ttq :=
  let '(v, delta) := u in
  mkTT (v * cos (t_th1 x))
       (v * sin (t_th1 x))
       ((v / p_l1 p) * tan delta)
       ((v / p_l2 p) * (sin (t_th1 x - t_th2 x)
                        - (p_lh p / p_l1 p) * cos (t_th1 x - t_th2 x) * tan delta)).

(** euler(self.tractor_trailer_dynamics, q, u, self.dt) (tt2d.py:29-31, 334). *)
Definition tt_euler (p : params) (q : ttq) (u : act) : ttq := euler tt_axpy (tt_dyn p) q u (p_dt p).

(** get_trailer_position (tt2d.py:855-867). *)
Definition tt_trailer_pos (p : params) (x : ttq) : pt :=
  let hx := t_px x - p_lh p * cos (t_th1 x) in
  let hy := t_py x - p_lh p * sin (t_th1 x) in
  (hx - p_l2 p * cos (t_th2 x), hy - p_l2 p * sin (t_th2 x)).

(** get_trailer_back_position (tt2d.py:870-882). *)
Definition tt_trailer_back (p : params) (x : ttq) : pt :=
  let hx := t_px x - p_lh p * cos (t_th1 x) in
  let hy := t_py x - p_lh p * sin (t_th1 x) in
  (hx - (p_l2 p + p_lr2 p) * cos (t_th2 x), hy - (p_l2 p + p_lr2 p) * sin (t_th2 x)).

(** get_tractor_trailer_rectangles (tt2d.py:885-936): tractor and trailer corners. *)
Definition tractor_corners (p : params) (px py th : R) : list pt :=
  let cx := px + 5/10 * (p_l1 p + p_lf1 p - p_lr p) * cos th in
  let cy := py + 5/10 * (p_l1 p + p_lf1 p - p_lr p) * sin th in
  box_corners cx cy th ((p_l1 p + p_lf1 p + p_lr p) / 2) (p_trac_w p / 2).
Definition tt_tractor_corners (p : params) (x : ttq) : list pt :=
  tractor_corners p (t_px x) (t_py x) (t_th1 x).
Definition tt_trailer_corners (p : params) (x : ttq) : list pt :=
  let hx := t_px x - p_lh p * cos (t_th1 x) in
  let hy := t_py x - p_lh p * sin (t_th1 x) in
  let cx := hx + (5/10 * (p_lf2 p - p_lr2 p) - p_l2 p) * cos (t_th2 x) in
  let cy := hy + (5/10 * (p_lf2 p - p_lr2 p) - p_l2 p) * sin (t_th2 x) in
  box_corners cx cy (t_th2 x) ((p_lf2 p + p_lr2 p) / 2) (p_trail_w p / 2).

(** check_hitch_violation (tt2d.py:1005-1010). *)
Definition tt_hitch (p : params) (x : ttq) : bool :=
  let hitch_angle := wrap_pi (t_th1 x - t_th2 x) in
  Rltb (p_phi_max p) (Rabs hitch_angle).

(** check_obstacle_collision (tt2d.py:1013-1080). *)
Definition tt_coll (p : params) (circ : list circle) (rect : list rectobs) (x : ttq) : bool :=
  let tc := tt_tractor_corners p x in
  let rc := tt_trailer_corners p x in
  existsb (fun c => hits_circle tc c || hits_circle rc c) circ
  || existsb (fun o => hits_rect tc o || hits_rect rc o) rect.

(** check_collision (tt2d.py:1083-1087). *)
Definition tt_check_collision (p : params) circ rect (x : ttq) : bool :=
  tt_coll p circ rect x || tt_hitch p x.

Definition ts_coll (s : tt_self) : ttq -> bool := tt_coll (ts_p s) (ts_circ s) (ts_rect s).
Definition ts_hitch (s : tt_self) : ttq -> bool := tt_hitch (ts_p s).

(** sigmoid (tt2d.py:785). *)
Definition sigmoid (z : R) : R := 1 / (1 + exp (- z)).

(** 1 - (clip(d, 0, thr)/thr)^2 (tt2d.py:742-743, 826; also n-trailer and bicycle). *)
Definition pos_reward (d thr : R) : R :=
  1 - (clip d 0 thr / thr) * (clip d 0 thr / thr).

(** use_tractor_tracking (tt2d.py:734, 818). *)
Definition use_tractor (m : Z) : bool := Z.eqb m 1 || Z.eqb m 2.

(** d_pos of get_reward and get_terminal_reward (tt2d.py:716-741, 804-825). *)
Definition tt_dpos (p : params) (xg q : ttq) : R :=
  let tractor_pos := (t_px q + p_l1 p * cos (t_th1 q), t_py q + p_l1 p * sin (t_th1 q)) in
  let tractor_goal := (t_px xg, t_py xg) in
  let d_tractor := pnorm (psub tractor_pos tractor_goal) in
  let d_trailer := pnorm (psub (tt_trailer_pos p q) (tt_trailer_pos p xg)) in
  where_ (use_tractor (p_motion p)) d_tractor d_trailer.

(** get_reward (tt2d.py:706-793). *)
Definition tt_reward (s : tt_self) (q : ttq) : R :=
  let p := ts_p s in
  let thetag := t_th1 (ts_xg s) in
  let d_pos := tt_dpos p (ts_xg s) q in
  let r_pos := pos_reward d_pos (p_rew_thr p) in
  let e1d := wrap_pi (t_th1 q - thetag) in
  let e2d := wrap_pi (t_th2 q - thetag) in
  let e1o := wrap_pi (t_th1 q - thetag - PI) in
  let e2o := wrap_pi (t_th2 q - thetag - PI) in
  let use_direct := Rltb (Rabs e1d + Rabs e2d) (Rabs e1o + Rabs e2o) in
  let e1w := where_ use_direct e1d e1o in
  let e2w := where_ use_direct e2d e2o in
  let no_pref := Z.eqb (p_motion p) 0 in
  let e1 := where_ no_pref e1w e1d in
  let e2 := where_ no_pref e2w e2d in
  let r_hdg := p_head_w p * (1 - (Rabs e1 / p_theta_max p) * (Rabs e1 / p_theta_max p)
                             + 1 - (Rabs e2 / p_theta_max p) * (Rabs e2 / p_theta_max p)) in
  let e_phi := wrap_pi (t_th1 q - t_th2 q) in
  let r_art := 1 - (Rabs e_phi / p_phi_max p) * (Rabs e_phi / p_phi_max p) in
  let w := clip (sigmoid ((p_d_thr p - d_pos) / p_k_switch p)) 0 (p_max_w p) in
  (1 - p_hitch_w p) * ((1 - w) * r_pos + w * r_hdg) + p_hitch_w p * r_art.

(** get_terminal_reward (tt2d.py:796-851). *)
Definition tt_terminal (s : tt_self) (q : ttq) : R :=
  pos_reward (tt_dpos (ts_p s) (ts_xg s) q) (p_term_thr (ts_p s)).

(** Reward bookkeeping at the end of _step_internal (tt2d.py:368-379, 204-214 and 157-163 in
    the other classes): penalties subtracted from the state reward. [pen] is the
    preference penalty computed by the class. *)
Definition step_reward (p : params) (base : R) (oc hv : bool) (pen : R) : R :=
  let r1 := where_ oc (base - p_coll_pen p) base in
  let r2 := where_ hv (r1 - p_hitch_pen p) r1 in
  where_ (negb (Z.eqb (p_motion p) 0)) (r2 - pen) r2.

(** _step_internal (tt2d.py:302-384). [proj q a] stands for
    self.project_control_to_safe_set(q, a), [guide q] for self.apply_guidance(q). *)
Definition tt_step_with (s : tt_self) (rew : ttq -> R) (proj : ttq -> act -> act) (guide : ttq -> ttq)
  (viz : bool) (st : State ttq) (action0 : act) : State ttq :=
  let p := ts_p s in
  let action := clip_act action0 in
  let backup_prev := st_bak st in
  let u_backup : act := (0, 0) in
  let action_eff := where_ backup_prev u_backup action in
  let u_scaled := input_scaler p action_eff in
  let q := st_q st in
  let '(q_final, q_reward, oc, hv, applied) :=
    if p_proj p then
      let u_safe := proj q action in
      let qf := tt_euler p q (input_scaler p u_safe) in
      (qf, qf, false, false, u_safe)
    else if p_guid p then
      let q_prop := tt_euler p q u_scaled in
      let qr := guide q_prop in
      let qf := if viz then qr else q_prop in
      (qf, qr, ts_coll s qr, ts_hitch s qr, action_eff)
    else
      let q_prop := tt_euler p q u_scaled in
      let '(qf, oc, hv) :=
        if p_sh_coll p || p_sh_hitch p
        then shielded_rollout p (ts_coll s) (ts_hitch s) q q_prop
        else step_without_shield (ts_coll s) (ts_hitch s) q_prop in
      let fallback := (p_sh_coll p && oc) || (p_sh_hitch p && hv) in
      let backup_next := backup_prev || fallback in
      (qf, qf, oc, hv, where_ backup_next u_backup action)
  in
  let u_applied := input_scaler p applied in
  let pen := preference_penalty p (fst u_applied) in
  let reward := step_reward p (rew q_reward) oc hv pen in
  mkState q_final q_final reward 0 applied backup_prev.
(** _step_internal (tt2d.py:302-384) with the object's own get_reward; the definition above takes get_reward
    as the argument [rew] because JAX may use an earlier trace of it (Cache.v). *)
Definition tt_step_internal (s : tt_self) (proj : ttq -> act -> act) (guide : ttq -> ttq)
  (viz : bool) (st : State ttq) (action0 : act) : State ttq :=
  tt_step_with s (tt_reward s) proj guide viz st action0.

(** step (tt2d.py:297-299): visualization_mode attribute is False (tt2d.py:79). *)
Definition tt_step (s : tt_self) proj guide (st : State ttq) (a : act) : State ttq :=
  tt_step_internal s proj guide false st a.
