(** * NTrailer: NTrailer2d (mbd/robots/n_trailer2d.py). *)
From Verif Require Import Base Params Geom TT2d.

(** State vector [px, py, theta0, theta1 .. thetaN]. *)
Record ntq : Type := mkNT { n_px : R; n_py : R; n_th0 : R; n_ths : list R }.
Record nt_self : Type := mkNTSelf {
  ns_p : params;                 (* p_num_trailers = N *)
  ns_len : list R;               (* trailer_lengths *)
  ns_front : list R;             (* trailer_front_offsets *)
  ns_rear : list R;              (* trailer_rear_offsets *)
  ns_circ : list circle; ns_rect : list rectobs; ns_xg : ntq }.
Definition ns_N (s : nt_self) : nat := p_num_trailers (ns_p s).

(** Default per-trailer arrays (n_trailer2d.py:26-39). *)
Definition nt_default_lengths (p : params) : list R := repeat (p_l2 p) (p_num_trailers p).
Definition nt_default_front (p : params) : list R := repeat (p_lf2 p) (p_num_trailers p).
Definition nt_default_rear (p : params) : list R :=
  repeat (p_lr p) (p_num_trailers p - 1) ++ [p_lr2 p].

Definition nt_axpy (x : ntq) (c : R) (k : ntq) : ntq :=
  mkNT (n_px x + c * n_px k) (n_py x + c * n_py k) (n_th0 x + c * n_th0 k)
       (map2 (fun a b => a + c * b) (n_ths x) (n_ths k)).

(** Loop carry of n_trailer_dynamics: (prev_theta, prev_dot, prev_axle_speed, dots). *)
Record nt_carry : Type := mkNTC { k_theta : R; k_dot : R; k_speed : R; k_dots : list R }.

(** loop body (n_trailer2d.py:76-94). [dots.at[i].set] at the increasing index i is modelled
    by appending at the end. *)
Definition nt_dyn_body (s : nt_self) (v delta theta0_dot : R) (thetas : list R)
  (acc : nt_carry) (i : nat) : nt_carry :=
  let p := ns_p s in
  let theta_i := jget thetas i in
  let L := jget (ns_len s) i in
  let dtheta := k_theta acc - theta_i in
  let theta_i_dot :=
    where_ (Nat.eqb i 0)
      ((v / L) * (sin dtheta - (p_lh p / p_l1 p) * cos dtheta * tan delta))
      ((k_speed acc / L) * sin dtheta - (p_lh p / L) * k_dot acc * cos dtheta) in
  let axle_speed :=
    where_ (Nat.eqb i 0)
      (v * cos dtheta + p_lh p * theta0_dot * sin dtheta)
      (k_speed acc * cos dtheta + p_lh p * k_dot acc * sin dtheta) in
  mkNTC theta_i theta_i_dot axle_speed (k_dots acc ++ [theta_i_dot]).

(** n_trailer_dynamics (n_trailer2d.py:63-100). *)
Definition nt_dyn (s : nt_self) (x : ntq) (u : act) : ntq :=
  let '(v, delta) := u in
  let p := ns_p s in
  let theta0_dot := (v / p_l1 p) * tan delta in
  let init := mkNTC (n_th0 x) theta0_dot v [] in
  let fin := fold_left (nt_dyn_body s v delta theta0_dot (n_ths x)) (seq 0 (ns_N s)) init in
  mkNT (v * cos (n_th0 x)) (v * sin (n_th0 x)) theta0_dot (k_dots fin).
Definition nt_euler (s : nt_self) (q : ntq) (u : act) : ntq :=
  euler nt_axpy (nt_dyn s) q u (p_dt (ns_p s)).

(** get_last_trailer_position (n_trailer2d.py:228-250):
    carry (prev_hitch, last_center). *)
Definition nt_last_body (s : nt_self) (thetas : list R) (carry : pt * pt) (i : nat) : pt * pt :=
  let '((hx, hy), _) := carry in
  let th := jget thetas i in
  let L := jget (ns_len s) i in
  let lf := jget (ns_front s) i in
  let cx := hx - L * cos th in
  let cy := hy - L * sin th in
  ((cx + lf * cos th, cy + lf * sin th), (cx, cy)).
Definition nt_last_pos (s : nt_self) (x : ntq) : pt :=
  let lh := p_lh (ns_p s) in
  let hitch := (n_px x - lh * cos (n_th0 x), n_py x - lh * sin (n_th0 x)) in
  snd (fold_left (nt_last_body s (n_ths x)) (seq 0 (ns_N s)) (hitch, hitch)).

(** d of get_reward / get_terminal_reward (n_trailer2d.py:253-268, 365-377). *)
Definition nt_dpos (s : nt_self) (q : ntq) : R :=
  let p := ns_p s in
  let xg := ns_xg s in
  let d_tr := pnorm (psub (n_px q + p_l1 p * cos (n_th0 q), n_py q + p_l1 p * sin (n_th0 q))
                          (n_px xg, n_py xg)) in
  let d_la := pnorm (psub (nt_last_pos s q) (nt_last_pos s xg)) in
  if Z.eqb (p_motion p) 1 || Z.eqb (p_motion p) 2 then d_tr
  else if Z.eqb (p_motion p) (-1) || Z.eqb (p_motion p) (-2) then d_la
  else Rmin d_tr d_la.
Definition nt_reward (s : nt_self) (q : ntq) : R := pos_reward (nt_dpos s q) (p_rew_thr (ns_p s)).
Definition nt_terminal (s : nt_self) (q : ntq) : R := pos_reward (nt_dpos s q) (p_term_thr (ns_p s)).

(** check_hitch_violation (n_trailer2d.py:271-284): thetas = x[3:3+N]; a scan over thetas[1:]. *)
Fixpoint nt_hitch_scan (phi_max prev : R) (viol : bool) (ths : list R) : bool :=
  match ths with
  | [] => viol
  | th :: rest => nt_hitch_scan phi_max th (viol || Rltb phi_max (Rabs (wrap_pi (prev - th)))) rest
  end.
Definition nt_hitch (s : nt_self) (x : ntq) : bool :=
  let thetas := firstn (ns_N s) (n_ths x) in
  let phi := p_phi_max (ns_p s) in
  let h0 := Rltb phi (Rabs (wrap_pi (n_th0 x - jget thetas 0))) in
  nt_hitch_scan phi (jget thetas 0) h0 (tl thetas).

(** get_tractor_trailer_rectangles_all (n_trailer2d.py:287-328): carry (hitch, corner lists). *)
Definition nt_rect_body (s : nt_self) (thetas : list R) (acc : pt * list (list pt)) (i : nat)
  : pt * list (list pt) :=
  let '((hx, hy), out) := acc in
  let p := ns_p s in
  let th := jget thetas i in
  let L := jget (ns_len s) i in
  let lf := jget (ns_front s) i in
  let lr := jget (ns_rear s) i in
  let sc := 5/10 * (lf - lr) - L in
  let cx := hx + sc * cos th in
  let cy := hy + sc * sin th in
  let half_len := 5/10 * (lf + lr) in
  let corners := box_corners cx cy th half_len (p_trail_w p / 2) in
  let rx := cx - half_len * cos th in
  let ry := cy - half_len * sin th in
  ((rx - p_lh p * cos th, ry - p_lh p * sin th), out ++ [corners]).
Definition nt_tractor_corners (s : nt_self) (x : ntq) : list pt :=
  tractor_corners (ns_p s) (n_px x) (n_py x) (n_th0 x).
Definition nt_trailer_corners (s : nt_self) (x : ntq) : list (list pt) :=
  let lh := p_lh (ns_p s) in
  let hitch := (n_px x - lh * cos (n_th0 x), n_py x - lh * sin (n_th0 x)) in
  snd (fold_left (nt_rect_body s (n_ths x)) (seq 0 (ns_N s)) (hitch, [])).

(** check_obstacle_collision (n_trailer2d.py:331-362). *)
Definition nt_coll (s : nt_self) (circ : list circle) (rect : list rectobs) (x : ntq) : bool :=
  let tc := nt_tractor_corners s x in
  let rcs := nt_trailer_corners s x in
  (existsb (hits_circle tc) circ || existsb (fun rc => existsb (hits_circle rc) circ) rcs)
  || (existsb (hits_rect tc) rect || existsb (fun rc => existsb (hits_rect rc) rect) rcs).
Definition ns_coll (s : nt_self) : ntq -> bool := nt_coll s (ns_circ s) (ns_rect s).

(** _step_internal (n_trailer2d.py:130-168) after its two assertions. Differs from tt2d: no
    projection; the preference penalty uses u_scaled (the command before shielding). *)
Definition nt_step_with (s : nt_self) (rew : ntq -> R) (guide : ntq -> ntq)
  (viz : bool) (st : State ntq) (action0 : act) : State ntq :=
  let p := ns_p s in
  let action := clip_act action0 in
  let backup_prev := st_bak st in
  let u_backup : act := (0, 0) in
  let action_eff := where_ backup_prev u_backup action in
  let u_scaled := input_scaler p action_eff in
  let q := st_q st in
  let '(q_final, q_reward, oc, hv, applied) :=
    if p_guid p then
      let q_prop := nt_euler s q u_scaled in
      let qr := guide q_prop in
      let qf := if viz then qr else q_prop in
      (qf, qr, ns_coll s qr, nt_hitch s qr, action_eff)
    else
      let q_prop := nt_euler s q u_scaled in
      let '(qf, oc, hv) :=
        if p_sh_coll p || p_sh_hitch p
        then shielded_rollout p (ns_coll s) (nt_hitch s) q q_prop
        else step_without_shield (ns_coll s) (nt_hitch s) q_prop in
      let fallback := (p_sh_coll p && oc) || (p_sh_hitch p && hv) in
      let backup_next := backup_prev || fallback in
      (qf, qf, oc, hv, where_ backup_next u_backup action)
  in
  let pen := preference_penalty p (fst u_scaled) in
  let reward := step_reward p (rew q_reward) oc hv pen in
  mkState q_final q_final reward 0 applied backup_prev.
(** _step_internal (n_trailer2d.py:130-168) with the object's own get_reward; the definition above takes get_reward
    as the argument [rew] because JAX may use an earlier trace of it (Cache.v). *)
Definition nt_step_core (s : nt_self) (guide : ntq -> ntq)
  (viz : bool) (st : State ntq) (action0 : act) : State ntq :=
  nt_step_with s (nt_reward s) guide viz st action0.

(** Full _step_internal with the shape assertion (n_trailer2d.py:133) and the projection
    assertion (134-135); both raise AssertionError. *)
Definition nt_step_internal (s : nt_self) guide viz (st : State ntq) (a : act) : Res (State ntq) :=
  if negb (Nat.eqb (length (n_ths (st_q st))) (ns_N s)) then Err AssertionError
  else if p_proj (ns_p s) then Err AssertionError
  else Ok (nt_step_core s guide viz st a).
