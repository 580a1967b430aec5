(** * SpecDyn: the plain (unshielded) vehicle motion over one time step, written out as
    formulas. Only data types of the model are used. An action is a pair of numbers in
    [-1,1]: fraction of the maximal speed, fraction of the maximal steering angle. *)
From Coq Require Import Reals List.
From Verif Require Import Params TT2d Bicycle NTrailer Acc.
Import ListNotations.
Open Scope R_scope.

(** Tractor with one trailer hitched lh behind the rear axle. *)
Definition tt_plain (p : params) (q : ttq) (a : R * R) : ttq :=
  let v := fst a * p_vmax p in
  let delta := snd a * p_dmax p in
  let d := t_th1 q - t_th2 q in
  mkTT (t_px q + p_dt p * (v * cos (t_th1 q)))
       (t_py q + p_dt p * (v * sin (t_th1 q)))
       (t_th1 q + p_dt p * (v / p_l1 p * tan delta))
       (t_th2 q + p_dt p * ((v * sin d - p_lh p * (v / p_l1 p * tan delta) * cos d) / p_l2 p)).

Definition bk_plain (p : params) (q : bkq) (a : R * R) : bkq :=
  let v := fst a * p_vmax p in
  let delta := snd a * p_dmax p in
  mkBK (b_px q + p_dt p * (v * cos (b_th q)))
       (b_py q + p_dt p * (v * sin (b_th q)))
       (b_th q + p_dt p * (v / p_l1 p * tan delta)).

(** Chain of trailers: each one is pulled at a point lh behind the previous axle, which moves
    with longitudinal speed [speed] and turns at [rate]; new headings after time dt. *)
Fixpoint trail (dt lh speed rate th : R) (ths Ls : list R) : list R :=
  match ths, Ls with
  | t :: ths', L :: Ls' =>
      let d := th - t in
      let rate' := (speed * sin d - lh * rate * cos d) / L in
      let speed' := speed * cos d + lh * rate * sin d in
      (t + dt * rate') :: trail dt lh speed' rate' t ths' Ls'
  | _, _ => []
  end.
Definition nt_plain (s : nt_self) (q : ntq) (a : R * R) : ntq :=
  let p := ns_p s in
  let v := fst a * p_vmax p in
  let delta := snd a * p_dmax p in
  let rate := v / p_l1 p * tan delta in
  mkNT (n_px q + p_dt p * (v * cos (n_th0 q)))
       (n_py q + p_dt p * (v * sin (n_th0 q)))
       (n_th0 q + p_dt p * rate)
       (trail (p_dt p) (p_lh p) v rate (n_th0 q) (n_ths q) (ns_len s)).

(** Flags off turn the class into the plain vehicle. *)
Definition flags_off (p : params) : params := {|
  p_dt := p_dt p; p_H := p_H p; p_num_trailers := p_num_trailers p; p_motion := p_motion p;
  p_coll_pen := p_coll_pen p; p_sh_coll := false; p_hitch_pen := p_hitch_pen p; p_sh_hitch := false;
  p_proj := p_proj p; p_guid := p_guid p; p_rew_thr := p_rew_thr p; p_ref_thr := p_ref_thr p;
  p_max_w := p_max_w p; p_hitch_w := p_hitch_w p; p_ref_pos_w := p_ref_pos_w p;
  p_ref_th1_w := p_ref_th1_w p; p_ref_th2_w := p_ref_th2_w p;
  p_l1 := p_l1 p; p_l2 := p_l2 p; p_lh := p_lh p; p_lf1 := p_lf1 p; p_lr := p_lr p; p_lf2 := p_lf2 p; p_lr2 := p_lr2 p;
  p_trac_w := p_trac_w p; p_trail_w := p_trail_w p; p_vmax := p_vmax p; p_dmax := p_dmax p;
  p_theta_max := p_theta_max p; p_phi_max := p_phi_max p; p_d_thr := p_d_thr p; p_k_switch := p_k_switch p;
  p_steer_w := p_steer_w p; p_pref_w := p_pref_w p; p_head_w := p_head_w p; p_term_thr := p_term_thr p; p_term_w := p_term_w p |}.
Definition tt_unshielded (s : tt_self) : tt_self := mkTTSelf (flags_off (ts_p s)) (ts_circ s) (ts_rect s) (ts_xg s).
Definition bk_unshielded (s : bk_self) : bk_self := mkBKSelf (flags_off (bs_p s)) (bs_circ s) (bs_rect s) (bs_xg s).
Definition nt_unshielded (s : nt_self) : nt_self :=
  mkNTSelf (flags_off (ns_p s)) (ns_len s) (ns_front s) (ns_rear s) (ns_circ s) (ns_rect s) (ns_xg s).

