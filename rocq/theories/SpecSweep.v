(** * SpecSweep: what it means that a vehicle touches nothing while it moves from one row of a
    trajectory to the next, and how far its bodies can sweep in one time step.
    Only data types of the model and the vocabulary of SpecGeom/SpecBodies/SpecDisc are used. *)
From Coq Require Import String.
From Coq Require Import Reals List.
From Verif Require Import SpecGeom Params TT2d Bicycle NTrailer SpecBodies SpecDisc.
Import ListNotations.
Local Open Scope string_scope.
Local Open Scope list_scope.
Open Scope R_scope.

(** The area of a rectangle as the user lists it, without any padding: [x, y, w, h] or
    [x, y, w, h, angle]; (x, y) is the centre ("center") or the left-top corner of the unrotated
    rectangle ("left-top"); the rotation is about the centre. *)
Definition given_rect (mode : string) (entry : list R) (P : point) : Prop :=
  exists x y w h ang cx cy,
    (entry = [x; y; w; h; ang] \/ (ang = 0 /\ entry = [x; y; w; h])) /\
    ((mode = "center" /\ cx = x /\ cy = y) \/ (mode = "left-top" /\ cx = x + w / 2 /\ cy = y - h / 2)) /\
    exists a b, Rabs a <= w / 2 /\ Rabs b <= h / 2 /\ P = at_frame (cx, cy) ang a b.

(** The area of a circle [x, y, r] as the user lists it. *)
Definition given_circle (entry : list R) (P : point) : Prop :=
  exists x y r, entry = [x; y; r] /\ dist P (x, y) <= r.

(** A motion of a rigid body during a time span of length T: [m t a b] is where the point with
    coordinates (a, b) of the body is at time t. It starts in position g, ends in position h, and
    no point of the body is ever faster than V. *)
Definition moves_between (V T : R) (g h : region) (m : R -> R -> R -> point) : Prop :=
  forall a b, rg_back g <= a <= rg_front g -> - rg_half g <= b <= rg_half g ->
    m 0 a b = at_frame (rg_org g) (rg_ang g) a b /\
    m T a b = at_frame (rg_org h) (rg_ang h) a b /\
    (forall s t, 0 <= s <= T -> 0 <= t <= T -> dist (m s a b) (m t a b) <= V * Rabs (t - s)).

(** The position in between: every component of the state goes from its value in one row to its
    value in the next at constant rate; lam runs from 0 to 1. This is where the model's own motion
    law (constant rates during a step) has the vehicle after the fraction lam of the step. *)
Definition mix (lam x y : R) : R := (1 - lam) * x + lam * y.
Definition tt_mix (lam : R) (q q' : ttq) : ttq :=
  mkTT (mix lam (t_px q) (t_px q')) (mix lam (t_py q) (t_py q')) (mix lam (t_th1 q) (t_th1 q')) (mix lam (t_th2 q) (t_th2 q')).
Definition bk_mix (lam : R) (q q' : bkq) : bkq :=
  mkBK (mix lam (b_px q) (b_px q')) (mix lam (b_py q) (b_py q')) (mix lam (b_th q) (b_th q')).
Definition nt_mix (lam : R) (q q' : ntq) : ntq :=
  mkNT (mix lam (n_px q) (n_px q')) (mix lam (n_py q) (n_py q')) (mix lam (n_th0 q) (n_th0 q'))
       (map (fun z => mix lam (fst z) (snd z)) (combine (n_ths q) (n_ths q'))).

(** Distance from the turning point to the farthest corner of a box reaching from [back] to [front]
    along the heading and [half] to each side. *)
Definition reach (back front half : R) : R :=
  sqrt (Rmax (Rabs back) (Rabs front) * Rmax (Rabs back) (Rabs front) + half * half).

(** How far any point of a body can travel in one time step. *)
Definition tractor_sweep (p : params) : R :=
  tractor_slide p + tractor_turn p * reach (- p_lr p) (p_l1 p + p_lf1 p) (p_trac_w p / 2).
Definition trailer_sweep (p : params) : R :=
  tractor_slide p + p_lh p * tractor_turn p
  + trailer_turn p * reach (- (p_l2 p + p_lr2 p)) (p_lf2 p - p_l2 p) (p_trail_w p / 2).
(** Chain of trailers: [hitch], [gain] and [turn] as in [rig_too_large]; every trailer's sweep is at
    most B. *)
Fixpoint rig_sweep_within (B lh width hitch gain turn : R) (Ls lfs lrs : list R) : Prop :=
  match Ls, lfs, lrs with
  | L :: Ls', lf :: lfs', lr :: lrs' =>
      let gain' := sqrt (gain * gain + (lh * turn) * (lh * turn)) in
      let turn' := gain' / L in
      hitch + turn' * reach (- (L + lr)) (lf - L) (width / 2) <= B /\
      rig_sweep_within B lh width (hitch + (L + lr + lh) * turn') gain' turn' Ls' lfs' lrs'
  | _, _, _ => True
  end.

(** The padding is at least half of what any point of the vehicle travels in one step. *)
Definition tt_pad_ok (p : params) (pad : R) : Prop := tractor_sweep p <= 2 * pad /\ trailer_sweep p <= 2 * pad.
Definition bk_pad_ok (p : params) (pad : R) : Prop := tractor_sweep p <= 2 * pad.
Definition nt_pad_ok (s : nt_self) (pad : R) : Prop :=
  let p := ns_p s in
  tractor_sweep p <= 2 * pad /\
  rig_sweep_within (2 * pad) (p_lh p) (p_trail_w p)
    (tractor_slide p + p_lh p * tractor_turn p) (tractor_slide p) (tractor_turn p)
    (ns_len s) (ns_front s) (ns_rear s).

(** Rows k and k+1 of a trajectory. *)
Definition consecutive {Q : Type} (rows : list Q) (q q' : Q) : Prop :=
  exists k, nth_error rows k = Some q /\ nth_error rows (S k) = Some q'.

(** The same vehicle simulated with another time step. *)
Definition with_dt (p : params) (d : R) : params := {|
  p_dt := d; p_H := p_H p; p_num_trailers := p_num_trailers p; p_motion := p_motion p;
  p_coll_pen := p_coll_pen p; p_sh_coll := p_sh_coll p; p_hitch_pen := p_hitch_pen p; p_sh_hitch := p_sh_hitch p;
  p_proj := p_proj p; p_guid := p_guid p; p_rew_thr := p_rew_thr p; p_ref_thr := p_ref_thr p;
  p_max_w := p_max_w p; p_hitch_w := p_hitch_w p; p_ref_pos_w := p_ref_pos_w p;
  p_ref_th1_w := p_ref_th1_w p; p_ref_th2_w := p_ref_th2_w p;
  p_l1 := p_l1 p; p_l2 := p_l2 p; p_lh := p_lh p; p_lf1 := p_lf1 p; p_lr := p_lr p; p_lf2 := p_lf2 p; p_lr2 := p_lr2 p;
  p_trac_w := p_trac_w p; p_trail_w := p_trail_w p; p_vmax := p_vmax p; p_dmax := p_dmax p;
  p_theta_max := p_theta_max p; p_phi_max := p_phi_max p; p_d_thr := p_d_thr p; p_k_switch := p_k_switch p;
  p_steer_w := p_steer_w p; p_pref_w := p_pref_w p; p_head_w := p_head_w p; p_term_thr := p_term_thr p; p_term_w := p_term_w p |}.
Definition tt_with_dt (s : tt_self) (d : R) : tt_self := mkTTSelf (with_dt (ts_p s) d) (ts_circ s) (ts_rect s) (ts_xg s).
Definition bk_with_dt (s : bk_self) (d : R) : bk_self := mkBKSelf (with_dt (bs_p s) d) (bs_circ s) (bs_rect s) (bs_xg s).
