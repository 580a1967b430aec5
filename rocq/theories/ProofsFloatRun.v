(** * ProofsFloatRun: how far one step, computed in floating point, can move. *)
From Verif Require Import Base BaseFacts Params Geom TT2d Bicycle SpecGeom SpecBodies Float SpecFloat ProofsGeom ProofsFloatGeom.
From Coq Require Import Psatz.

Lemma tan_bound x : Rabs x <= 1 -> Rabs (tan x) <= 2.
Proof.
  assert (Q : forall y, 0 <= y <= 1 -> 0 <= tan y <= 2).
  { intros y Hy. assert (P3 : 3 < PI) by (pose proof PI2_3_2; lra).
    split.
    - destruct (Req_dec y 0) as [->|N]; [rewrite tan_0; lra|]. apply Rlt_le, tan_gt_0; lra.
    - assert (tan y < tan (PI / 3)) by (apply tan_increasing; lra).
      rewrite tan_PI3 in H. assert (sqrt 3 <= 2); [|lra].
      rewrite <- (sqrt_square 2) by lra. apply sqrt_le_1; lra. }
  intro H. pose proof (Rabs_bounds _ _ H). destruct (Rle_lt_dec 0 x) as [P|N].
  - apply bounds_Rabs. destruct (Q x ltac:(lra)). lra.
  - replace x with (- - x) by ring. rewrite tan_neg. apply bounds_Rabs. destruct (Q (- x) ltac:(lra)). lra.
Qed.

Section Step.
Context (A : arith) (HA : accurate A) (p : params) (HD : drive_in_range p).

Lemma speed_size (a : R) : -1 <= a <= 1 -> Rabs (a_mul A a (a_cvt A (p_vmax p))) <= p_vmax p + / 100000.
Proof.
  intro Ha. destruct HD as (_ & V & _).
  pose proof (Rabs_bounds _ _ (cvt_err A HA (p_vmax p) 20 ltac:(apply bounds_Rabs; lra))) as B.
  set (w := a_cvt A (p_vmax p)) in *. clearbody w.
  assert (S : Rabs (a * w) <= 1 * (p_vmax p + 3 / 1000000)) by (apply mul_bound; apply bounds_Rabs; lra).
  pose proof (mul_rnd A HA a w 21 ltac:(lra)) as E. pose proof (Rabs_bounds _ _ E). pose proof (Rabs_bounds _ _ S).
  apply bounds_Rabs. lra.
Qed.
Lemma steer_size (a : R) : -1 <= a <= 1 -> Rabs (a_mul A a (a_cvt A (p_dmax p))) <= 1.
Proof.
  intro Ha. destruct HD as (_ & _ & V & _).
  pose proof (Rabs_bounds _ _ (cvt_err A HA (p_dmax p) 1 ltac:(apply bounds_Rabs; lra))) as B.
  set (w := a_cvt A (p_dmax p)) in *. clearbody w.
  assert (S : Rabs (a * w) <= 1 * (991 / 1000)) by (apply mul_bound; apply bounds_Rabs; lra).
  pose proof (mul_rnd A HA a w 1 ltac:(lra)) as E. pose proof (Rabs_bounds _ _ E). pose proof (Rabs_bounds _ _ S).
  apply bounds_Rabs. lra.
Qed.
Lemma tan_size (d : R) : Rabs d <= 1 -> Rabs (a_tan A d) <= 2 + / 1000000.
Proof. intro H. eapply size_err; [apply tan_rnd; auto|apply tan_bound; auto]. Qed.

(** One explicit Euler update of a coordinate: [x + dt*k]. *)
Lemma update_size (x k X K : R) : Rabs x <= X -> Rabs k <= K -> X <= 1000 -> K <= 200 ->
  Rabs (a_mac A (a_cvt A (p_dt p)) k x) <= Rabs x + p_dt p * K + / 1000.
Proof.
  intros Hx Hk BX BK. destruct HD as (D & _).
  assert (K0 : 0 <= K) by (pose proof (Rabs_pos k); lra).
  pose proof (cvt_err A HA (p_dt p) 1 ltac:(apply bounds_Rabs; lra)) as E. pose proof (Rabs_bounds _ _ E) as B.
  set (dt := a_cvt A (p_dt p)) in *. clearbody dt.
  assert (S : Rabs (dt * k) <= (p_dt p + 2 / 10000000) * K) by (apply mul_bound; auto; apply bounds_Rabs; lra).
  assert (S' : (p_dt p + 2 / 10000000) * K <= p_dt p * K + 4 / 100000).
  { rewrite Rmult_plus_distr_r. apply Rplus_le_compat_l.
    apply Rle_trans with (2 / 10000000 * 200); [apply Rmult_le_compat_l; lra|lra]. }
  assert (S2 : p_dt p * K <= 200) by (apply Rle_trans with (1 * 200); [apply Rmult_le_compat; lra|lra]).
  pose proof (mac_rnd A HA dt k x 201 X ltac:(lra) Hx) as M.
  pose proof (Rabs_bounds _ _ M) as BM. pose proof (Rabs_bounds _ _ S) as BS.
  assert (Bx : - Rabs x <= x <= Rabs x) by (apply Rabs_bounds; lra).
  apply bounds_Rabs. lra.
Qed.

Lemma rate_size (v l : R) : Rabs v <= p_vmax p + / 100000 -> 1 <= l <= 10 ->
  Rabs (a_div A v (a_cvt A l)) <= p_vmax p * (101 / 100) + / 1000.
Proof.
  intros Hv Hl. destruct HD as (_ & V & _).
  pose proof (Rabs_bounds _ _ (cvt_err A HA l 10 ltac:(apply bounds_Rabs; lra))) as B.
  set (l' := a_cvt A l) in *. clearbody l'.
  assert (I : 0 < / l' <= 1 + / 100000).
  { split; [apply Rinv_0_lt_compat; lra|].
    apply Rle_trans with (/ (999998 / 1000000)); [apply Rinv_le_contravar; lra|lra]. }
  assert (S : Rabs (v / l') <= (p_vmax p + / 100000) * (1 + / 100000)).
  { apply mul_bound; auto. apply bounds_Rabs. lra. }
  pose proof (div_rnd A HA v l' 21 ltac:(lra) ltac:(lra)) as E.
  pose proof (Rabs_bounds _ _ E). pose proof (Rabs_bounds _ _ S). apply bounds_Rabs. lra.
Qed.

Lemma pos_rate (v c : R) : Rabs v <= p_vmax p + / 100000 -> Rabs c <= 1 + / 1000000 -> Rabs (a_mul A v c) <= p_vmax p + / 10000.
Proof.
  intros Hv Hc. destruct HD as (_ & V & _). pose proof (mul_bound _ _ _ _ Hv Hc) as S.
  pose proof (mul_rnd A HA v c 21 ltac:(lra)) as E. pose proof (Rabs_bounds _ _ E). pose proof (Rabs_bounds _ _ S).
  apply bounds_Rabs. lra.
Qed.
Lemma head_rate (v d l : R) : Rabs v <= p_vmax p + / 100000 -> Rabs d <= 1 -> 1 <= l <= 10 ->
  Rabs (a_mul A (a_div A v (a_cvt A l)) (a_tan A d)) <= 3 * p_vmax p + / 100.
Proof.
  intros Hv Hd Hl. pose proof (rate_size v l Hv Hl) as H1. pose proof (tan_size d Hd) as H2. destruct HD as (_ & V & _).
  pose proof (mul_bound _ _ _ _ H1 H2) as S. set (x := a_div A v (a_cvt A l)) in *. set (y := a_tan A d) in *. clearbody x y.
  pose proof (mul_rnd A HA x y 50 ltac:(lra)) as E. pose proof (Rabs_bounds _ _ E). pose proof (Rabs_bounds _ _ S).
  apply bounds_Rabs. lra.
Qed.
Lemma hitch_rate (v d t1 t2 : R) : Rabs v <= p_vmax p + / 100000 -> Rabs d <= 1 -> Rabs t1 <= 1000 -> Rabs t2 <= 1000 ->
  Rabs (a_mul A (a_div A v (a_cvt A (p_l2 p)))
          (a_mac A (- a_mul A (a_cvt A (p_lh p / p_l1 p)) (a_cos A (a_sub A t1 t2))) (a_tan A d) (a_sin A (a_sub A t1 t2))))
    <= 6 * p_vmax p + / 100.
Proof.
  intros Hv Hd H1 H2. destruct HD as (_ & V & _ & L1 & L2 & LH).
  pose proof (rate_size v (p_l2 p) Hv L2) as R1.
  set (x := a_div A v (a_cvt A (p_l2 p))) in *. clearbody x.
  assert (Rt : 0 <= p_lh p / p_l1 p <= 2).
  { split; [apply Rmult_le_pos; [lra|apply Rlt_le, Rinv_0_lt_compat; lra]|].
    apply Rmult_le_reg_r with (p_l1 p); [lra|]. unfold Rdiv. rewrite Rmult_assoc, Rinv_l by lra. lra. }
  pose proof (Rabs_bounds _ _ (cvt_err A HA (p_lh p / p_l1 p) 2 ltac:(apply bounds_Rabs; lra))) as B.
  set (r := a_cvt A (p_lh p / p_l1 p)) in *. clearbody r.
  pose proof (Rabs_bounds _ _ H1) as B1. pose proof (Rabs_bounds _ _ H2) as B2.
  pose proof (Rabs_bounds _ _ (sub_rnd A HA t1 t2 2000 ltac:(apply bounds_Rabs; lra))) as B3.
  set (e := a_sub A t1 t2) in *. clearbody e.
  assert (He : Rabs e <= 2001) by (apply bounds_Rabs; lra).
  assert (C : Rabs (a_cos A e) <= 1 + / 1000000) by (eapply size_err; [apply cos_rnd2; auto|apply Rabs_cos]).
  assert (S : Rabs (a_sin A e) <= 1 + / 1000000) by (eapply size_err; [apply sin_rnd2; auto|apply Rabs_sin]).
  set (c := a_cos A e) in *. set (s := a_sin A e) in *. clearbody c s.
  assert (M1 : Rabs (r * c) <= (2 + / 1000000) * (1 + / 1000000)) by (apply mul_bound; auto; apply bounds_Rabs; lra).
  pose proof (Rabs_bounds _ _ (mul_rnd A HA r c 3 ltac:(lra))) as B4. pose proof (Rabs_bounds _ _ M1) as B5.
  set (m := a_mul A r c) in *. clearbody m.
  assert (Hm : Rabs (- m) <= 2 + / 10000) by (apply bounds_Rabs; lra).
  pose proof (tan_size d Hd) as T. set (t := a_tan A d) in *. clearbody t.
  pose proof (mul_bound _ _ _ _ Hm T) as M2.
  pose proof (Rabs_bounds _ _ (mac_rnd A HA (- m) t s 5 2 ltac:(lra) ltac:(lra))) as B6.
  pose proof (Rabs_bounds _ _ M2) as B7. pose proof (Rabs_bounds _ _ S) as B8.
  set (w := a_mac A (- m) t s) in *. clearbody w.
  assert (W : Rabs w <= 501 / 100) by (apply bounds_Rabs; lra).
  pose proof (mul_bound _ _ _ _ R1 W) as M3.
  pose proof (Rabs_bounds _ _ (mul_rnd A HA x w 110 ltac:(lra))) as B9. pose proof (Rabs_bounds _ _ M3) as B10.
  apply bounds_Rabs. lra.
Qed.
End Step.

Lemma clip1 x : -1 <= clip x (-1) 1 <= 1.
Proof. apply clip_range; lra. Qed.

(** A proposed step, computed in floating point, moves at most dt*vmax + 2 mm, and turns at most 6*dt*vmax + 0.1. *)
Lemma tt_moves A p q a : accurate A -> drive_in_range p -> tt_in_range q ->
  let q' := fl_tt_euler A p q (fl_input_scaler A p (clip_act a)) in
  Rabs (t_px q') <= Rabs (t_px q) + (p_dt p * p_vmax p + 2 / 1000) /\
  Rabs (t_py q') <= Rabs (t_py q) + (p_dt p * p_vmax p + 2 / 1000) /\
  Rabs (t_th1 q') <= Rabs (t_th1 q) + (6 * (p_dt p * p_vmax p) + / 10) /\
  Rabs (t_th2 q') <= Rabs (t_th2 q) + (6 * (p_dt p * p_vmax p) + / 10).
Proof.
  intros HA HD ([Hx Hy] & H1 & H2). cbv zeta.
  unfold fl_tt_euler, fl_tt_dyn, fl_input_scaler, clip_act. cbn [fst snd t_px t_py t_th1 t_th2].
  pose proof (speed_size A HA p HD _ (clip1 (fst a))) as SV. pose proof (steer_size A HA p HD _ (clip1 (snd a))) as SD.
  set (v := a_mul A (clip (fst a) (-1) 1) (a_cvt A (p_vmax p))) in *. clearbody v.
  set (d := a_mul A (clip (snd a) (-1) 1) (a_cvt A (p_dmax p))) in *. clearbody d.
  pose proof HD as (D & V & _ & L1 & L2 & _).
  assert (DV : 0 <= p_dt p * p_vmax p) by (apply Rmult_le_pos; lra).
  assert (DD : p_dt p * / 100 <= 1 / 100) by lra.
  repeat split.
  - pose proof (update_size A HA p HD _ _ 100 _ Hx (pos_rate A HA p HD v _ SV (cos_size A HA _ H1)) ltac:(lra) ltac:(lra)). lra.
  - pose proof (update_size A HA p HD _ _ 100 _ Hy (pos_rate A HA p HD v _ SV (sin_size A HA _ H1)) ltac:(lra) ltac:(lra)). lra.
  - pose proof (update_size A HA p HD _ _ 1000 _ H1 (head_rate A HA p HD v d _ SV SD L1) ltac:(lra) ltac:(lra)). lra.
  - pose proof (update_size A HA p HD _ _ 1000 _ H2 (hitch_rate A HA p HD v d _ _ SV SD H1 H2) ltac:(lra) ltac:(lra)). lra.
Qed.
Lemma bk_moves A p q a : accurate A -> drive_in_range p -> bk_in_range q ->
  let q' := fl_bk_euler A p q (fl_input_scaler A p (clip_act a)) in
  Rabs (b_px q') <= Rabs (b_px q) + (p_dt p * p_vmax p + 2 / 1000) /\
  Rabs (b_py q') <= Rabs (b_py q) + (p_dt p * p_vmax p + 2 / 1000) /\
  Rabs (b_th q') <= Rabs (b_th q) + (6 * (p_dt p * p_vmax p) + / 10).
Proof.
  intros HA HD ([Hx Hy] & H1). cbv zeta.
  unfold fl_bk_euler, fl_bk_dyn, fl_input_scaler, clip_act. cbn [fst snd b_px b_py b_th].
  pose proof (speed_size A HA p HD _ (clip1 (fst a))) as SV. pose proof (steer_size A HA p HD _ (clip1 (snd a))) as SD.
  set (v := a_mul A (clip (fst a) (-1) 1) (a_cvt A (p_vmax p))) in *. clearbody v.
  set (d := a_mul A (clip (snd a) (-1) 1) (a_cvt A (p_dmax p))) in *. clearbody d.
  pose proof HD as (D & V & _ & L1 & L2 & _).
  assert (DV : 0 <= p_dt p * p_vmax p) by (apply Rmult_le_pos; lra).
  assert (DD : p_dt p * / 100 <= 1 / 100) by lra.
  repeat split.
  - pose proof (update_size A HA p HD _ _ 100 _ Hx (pos_rate A HA p HD v _ SV (cos_size A HA _ H1)) ltac:(lra) ltac:(lra)). lra.
  - pose proof (update_size A HA p HD _ _ 100 _ Hy (pos_rate A HA p HD v _ SV (sin_size A HA _ H1)) ltac:(lra) ltac:(lra)). lra.
  - pose proof (update_size A HA p HD _ _ 1000 _ H1 (head_rate A HA p HD v d _ SV SD L1) ltac:(lra) ltac:(lra)). lra.
Qed.
