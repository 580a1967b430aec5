(** * ProofsFloatTrack: the computed trajectory and the exact motion law. *)
From Verif Require Import Base BaseFacts Params Geom TT2d Bicycle NTrailer SpecGeom SpecBodies SpecDyn Float SpecFloat ProofsGeom ProofsBodies ProofsStep ProofsSafety ProofsFloatGeom ProofsFloatSat ProofsFloatCircle ProofsFloatRun ProofsFloatAlarm FloatSingle ProofsFloatSingle ProofsFloat.
From Coq Require Import Psatz.

Lemma sin_le_abs x : Rabs (sin x) <= Rabs x.
Proof.
  assert (P : forall y, 0 <= y -> Rabs (sin y) <= y).
  { intros y Hy. destruct (Req_dec y 0) as [->|N]; [rewrite sin_0, Rabs_R0; lra|].
    destruct (Rle_lt_dec y 1) as [L|L].
    - assert (0 < sin y) by (apply sin_gt_0; pose proof PI2_3_2; lra).
      rewrite Rabs_pos_eq by lra. apply Rlt_le, sin_lt_x. lra.
    - pose proof (Rabs_sin y). lra. }
  destruct (Rle_lt_dec 0 x) as [H|H].
  - rewrite (Rabs_pos_eq x) by lra. auto.
  - rewrite (Rabs_left x) by lra. replace x with (- - x) at 1 by ring. rewrite sin_neg, Rabs_Ropp. apply P. lra.
Qed.
Lemma half_prod a b : Rabs (2 * sin a * b) <= 2 * Rabs a * Rabs b.
Proof.
  rewrite !Rabs_mult. rewrite (Rabs_pos_eq 2) by lra.
  apply Rmult_le_compat_r; [apply Rabs_pos|]. apply Rmult_le_compat_l; [lra|apply sin_le_abs].
Qed.
Lemma cos_lip a b : Rabs (cos a - cos b) <= Rabs (a - b).
Proof.
  rewrite form2. replace (-2 * sin ((a - b) / 2) * sin ((a + b) / 2)) with (- (2 * sin ((a - b) / 2) * sin ((a + b) / 2))) by ring.
  rewrite Rabs_Ropp. eapply Rle_trans; [apply half_prod|].
  replace (Rabs (a - b)) with (2 * Rabs ((a - b) / 2) * 1).
  - apply Rmult_le_compat_l; [pose proof (Rabs_pos ((a - b) / 2)); lra|apply Rabs_sin].
  - unfold Rdiv. rewrite Rabs_mult, (Rabs_pos_eq (/ 2)) by lra. lra.
Qed.
Lemma sin_lip a b : Rabs (sin a - sin b) <= Rabs (a - b).
Proof.
  rewrite form4. replace (2 * cos ((a + b) / 2) * sin ((a - b) / 2)) with (2 * sin ((a - b) / 2) * cos ((a + b) / 2)) by ring.
  eapply Rle_trans; [apply half_prod|].
  replace (Rabs (a - b)) with (2 * Rabs ((a - b) / 2) * 1).
  - apply Rmult_le_compat_l; [pose proof (Rabs_pos ((a - b) / 2)); lra|apply Rabs_cos].
  - unfold Rdiv. rewrite Rabs_mult, (Rabs_pos_eq (/ 2)) by lra. lra.
Qed.
Lemma cos_half x : Rabs x <= 1 -> / 2 <= cos x.
Proof.
  intro H. pose proof (Rabs_bounds _ _ H).
  assert (P3 : 3 < PI) by (pose proof PI2_3_2; lra).
  assert (Q : forall y, 0 <= y <= 1 -> / 2 <= cos y).
  { intros y Hy. assert (cos (PI / 3) <= cos y) by (apply cos_decr_1; lra). rewrite cos_PI3 in H1. lra. }
  destruct (Rle_lt_dec 0 x); [apply Q; lra|]. rewrite <- cos_neg. apply Q. lra.
Qed.
Lemma tan_lip a b : Rabs a <= 1 -> Rabs b <= 1 -> Rabs (tan a - tan b) <= 4 * Rabs (a - b).
Proof.
  intros Ha Hb. pose proof (cos_half _ Ha) as Ca. pose proof (cos_half _ Hb) as Cb.
  replace (tan a - tan b) with (sin (a - b) * (/ cos a * / cos b))
    by (unfold tan; rewrite sin_minus; field; lra).
  assert (I : forall c, / 2 <= c -> 0 < / c <= 2).
  { intros c Hc. split; [apply Rinv_0_lt_compat; lra|].
    apply Rle_trans with (/ (/ 2)); [apply Rinv_le_contravar; lra|lra]. }
  pose proof (I _ Ca) as Ia. pose proof (I _ Cb) as Ib.
  replace (4 * Rabs (a - b)) with (Rabs (a - b) * (2 * 2)) by ring.
  apply Rle_trans with (Rabs (a - b) * (2 * 2)); [|lra].
  apply mul_bound; [apply sin_le_abs|]. apply mul_bound; apply bounds_Rabs; lra.
Qed.

Section Track.
Context (A : arith) (HA : accurate A) (p : params) (HD : drive_in_range p).
Local Notation V := (p_vmax p).

Lemma V_range : 0 <= V <= 20. Proof. apply HD. Qed.
Lemma speed_err a : -1 <= a <= 1 ->
  Rabs (a_mul A a (a_cvt A V) - a * V) <= 3 / 10000000 * V + 3 / 10000000000.
Proof.
  intro Ha. pose proof V_range as HV.
  pose proof (cvt_err A HA V V ltac:(rewrite Rabs_pos_eq; lra)) as E. set (w := a_cvt A V) in *. clearbody w.
  pose proof (mul_bound a (w - V) 1 _ ltac:(apply bounds_Rabs; lra) E) as M.
  replace (a * (w - V)) with (a * w - a * V) in M by ring.
  assert (S0 : Rabs (a * V) <= 1 * V) by (apply mul_bound; apply bounds_Rabs; lra).
  pose proof (size_err _ _ _ _ M S0) as S.
  pose proof (mul_rnd A HA a w _ S) as N. pose proof (chain_err _ _ _ _ _ N M) as C. lra.
Qed.
Lemma steer_err a : -1 <= a <= 1 ->
  Rabs (a_mul A a (a_cvt A (p_dmax p)) - a * p_dmax p) <= 3 / 10000000.
Proof.
  intro Ha. destruct HD as (_ & _ & HV & _).
  pose proof (cvt_err A HA (p_dmax p) 1 ltac:(rewrite Rabs_pos_eq; lra)) as E. set (w := a_cvt A (p_dmax p)) in *. clearbody w.
  pose proof (mul_bound a (w - p_dmax p) 1 _ ltac:(apply bounds_Rabs; lra) E) as M.
  replace (a * (w - p_dmax p)) with (a * w - a * p_dmax p) in M by ring.
  assert (S0 : Rabs (a * p_dmax p) <= 1 * 1) by (apply mul_bound; apply bounds_Rabs; lra).
  pose proof (size_err _ _ _ _ M S0) as S.
  pose proof (mul_rnd A HA a w _ S) as N. pose proof (chain_err _ _ _ _ _ N M) as C. lra.
Qed.
Lemma tan_err d d' : Rabs d <= 1 -> Rabs d' <= 1 -> Rabs (d' - d) <= 3 / 10000000 ->
  Rabs (a_tan A d' - tan d) <= 3 / 1000000.
Proof.
  intros H H' E. pose proof (tan_rnd A HA d' H') as T. pose proof (tan_lip d' d H' H) as L.
  pose proof (chain_err _ _ _ _ _ T L). lra.
Qed.
Lemma pos_rate_err v v' c c' : Rabs (v' - v) <= 3 / 10000000 * V + 3 / 10000000000 -> Rabs v <= V ->
  Rabs (c' - c) <= / 1000000 -> Rabs c' <= 1 + / 1000000 ->
  Rabs (a_mul A v' c' - v * c) <= 15 / 10000000 * V + / 1000000000.
Proof.
  intros E Hv Ec Hc. pose proof V_range as HV.
  pose proof (mul_err _ _ _ _ _ _ _ _ E Ec Hv Hc) as M.
  pose proof (mul_bound _ _ _ _ (size_err _ _ _ _ E Hv) Hc) as S.
  pose proof (mul_rnd A HA v' c' _ S) as N. pose proof (chain_err _ _ _ _ _ N M) as C. lra.
Qed.
Lemma update_err k k' x ek K X : Rabs (k' - k) <= ek -> Rabs k <= K -> Rabs x <= X -> 0 <= ek -> 0 <= K -> 0 <= X ->
  Rabs (a_mac A (a_cvt A (p_dt p)) k' x - (x + p_dt p * k)) <= 100001 / 100000 * ek + 6 / 10000000 * K + 3 / 10000000 * X + / 1000000000.
Proof.
  intros E Hk Hx P1 P2 P3. destruct HD as (D & _).
  pose proof (cvt_err A HA (p_dt p) 1 ltac:(apply bounds_Rabs; lra)) as Ed. set (dt := a_cvt A (p_dt p)) in *. clearbody dt.
  pose proof (size_err _ _ _ _ E Hk) as Hk'.
  pose proof (mul_err (p_dt p) k dt k' _ _ 1 _ Ed E ltac:(apply bounds_Rabs; lra) Hk') as M.
  assert (Hd : Rabs dt <= 1 + (1 / 10000000 + / 10000000000)) by (eapply size_err; [exact Ed|apply bounds_Rabs; lra]).
  pose proof (mac_rnd A HA dt k' x _ _ (mul_bound _ _ _ _ Hd Hk') Hx) as N.
  assert (M' : Rabs (dt * k' + x - (x + p_dt p * k)) <= (1 / 10000000 + / 10000000000) * (K + ek) + 1 * ek).
  { replace (dt * k' + x - (x + p_dt p * k)) with (dt * k' - p_dt p * k) by ring. exact M. }
  pose proof (chain_err _ _ _ _ _ N M') as C. lra.
Qed.
Lemma rate_err v v' l : Rabs (v' - v) <= 3 / 10000000 * V + 3 / 10000000000 -> Rabs v <= V -> 1 <= l <= 10 ->
  Rabs (a_div A v' (a_cvt A l) - v / l) <= 3 / 1000000 * V + / 1000000000.
Proof.
  intros E Hv Hl. pose proof V_range as HV.
  pose proof (cvt_err A HA l 10 ltac:(apply bounds_Rabs; lra)) as El. pose proof (Rabs_bounds _ _ El) as B.
  set (l' := a_cvt A l) in *. clearbody l'.
  assert (I' : 0 < / l' <= 1 + / 100000).
  { split; [apply Rinv_0_lt_compat; lra|].
    apply Rle_trans with (/ (999998 / 1000000)); [apply Rinv_le_contravar; lra|lra]. }
  assert (I : 0 < / l <= 1).
  { split; [apply Rinv_0_lt_compat; lra|]. rewrite <- Rinv_1. apply Rinv_le_contravar; lra. }
  assert (EI : Rabs (/ l' - / l) <= (10 / 10000000 + / 10000000000) * ((1 + / 100000) * 1)).
  { replace (/ l' - / l) with ((- (l' - l)) * (/ l' * / l)) by (field; lra).
    apply mul_bound; [rewrite Rabs_Ropp; exact El|]. apply mul_bound; apply bounds_Rabs; lra. }
  pose proof (mul_err v (/ l) v' (/ l') _ _ _ _ E EI Hv ltac:(apply bounds_Rabs; instantiate (1 := 1 + / 100000); lra)) as M.
  assert (HI' : Rabs (/ l') <= 1 + / 100000) by (apply bounds_Rabs; lra).
  pose proof (mul_bound _ _ _ _ (size_err _ _ _ _ E Hv) HI') as S.
  pose proof (div_rnd A HA v' l' _ ltac:(lra) S) as N. unfold Rdiv in N at 1 2.
  pose proof (chain_err _ _ _ _ _ N M) as C. unfold Rdiv at 1. lra.
Qed.
Lemma head_rate_err v v' l d d' : Rabs (v' - v) <= 3 / 10000000 * V + 3 / 10000000000 -> Rabs v <= V -> 1 <= l <= 10 ->
  Rabs d <= 1 -> Rabs d' <= 1 -> Rabs (d' - d) <= 3 / 10000000 ->
  Rabs (a_mul A (a_div A v' (a_cvt A l)) (a_tan A d') - v / l * tan d) <= / 100000 * V + / 100000000 /\
  Rabs (v / l) <= V.
Proof.
  intros E Hv Hl H H' Ed. pose proof V_range as HV.
  pose proof (rate_err _ _ _ E Hv Hl) as R1. pose proof (tan_err _ _ H H' Ed) as T1.
  assert (R0 : Rabs (v / l) <= V * 1).
  { apply mul_bound; auto. apply bounds_Rabs. assert (0 < / l <= 1); [|lra].
    split; [apply Rinv_0_lt_compat; lra|]. rewrite <- Rinv_1. apply Rinv_le_contravar; lra. }
  pose proof (tan_bound _ H) as T0. pose proof (size_err _ _ _ _ T1 T0) as T2.
  pose proof (mul_err _ _ _ _ _ _ _ _ R1 T1 R0 T2) as M.
  pose proof (mul_bound _ _ _ _ (size_err _ _ _ _ R1 R0) T2) as S.
  pose proof (mul_rnd A HA _ _ _ S) as N. pose proof (chain_err _ _ _ _ _ N M) as C. split; lra.
Qed.
Lemma hitch_rate_err v v' d d' t1 t2 : Rabs (v' - v) <= 3 / 10000000 * V + 3 / 10000000000 -> Rabs v <= V ->
  Rabs d <= 1 -> Rabs d' <= 1 -> Rabs (d' - d) <= 3 / 10000000 -> Rabs t1 <= 30 -> Rabs t2 <= 30 ->
  Rabs (a_mul A (a_div A v' (a_cvt A (p_l2 p)))
          (a_mac A (- a_mul A (a_cvt A (p_lh p / p_l1 p)) (a_cos A (a_sub A t1 t2))) (a_tan A d') (a_sin A (a_sub A t1 t2)))
        - v / p_l2 p * (sin (t1 - t2) - p_lh p / p_l1 p * cos (t1 - t2) * tan d)) <= 8 / 100000 * V + / 10000000 /\
  Rabs (v / p_l2 p * (sin (t1 - t2) - p_lh p / p_l1 p * cos (t1 - t2) * tan d)) <= 5 * V.
Proof.
  intros E Hv H H' Ed H1 H2. pose proof V_range as HV. destruct HD as (_ & _ & _ & L1 & L2 & LH).
  pose proof (rate_err _ _ _ E Hv L2) as R1.
  assert (R0 : Rabs (v / p_l2 p) <= V * 1).
  { apply mul_bound; auto. apply bounds_Rabs. assert (0 < / p_l2 p <= 1); [|lra].
    split; [apply Rinv_0_lt_compat; lra|]. rewrite <- Rinv_1. apply Rinv_le_contravar; lra. }
  set (x' := a_div A v' (a_cvt A (p_l2 p))) in *. set (x := v / p_l2 p) in *. clearbody x x'.
  assert (Rt : 0 <= p_lh p / p_l1 p <= 2).
  { split; [apply Rmult_le_pos; [lra|apply Rlt_le, Rinv_0_lt_compat; lra]|].
    apply Rmult_le_reg_r with (p_l1 p); [lra|]. unfold Rdiv. rewrite Rmult_assoc, Rinv_l by lra. lra. }
  assert (Rt' : Rabs (p_lh p / p_l1 p) <= 2) by (apply bounds_Rabs; lra).
  pose proof (cvt_err A HA (p_lh p / p_l1 p) 2 Rt') as Er.
  set (r' := a_cvt A (p_lh p / p_l1 p)) in *. set (r := p_lh p / p_l1 p) in *. clearbody r r'.
  pose proof (Rabs_bounds _ _ H1) as B1. pose proof (Rabs_bounds _ _ H2) as B2.
  pose proof (sub_rnd A HA t1 t2 60 ltac:(apply bounds_Rabs; lra)) as Es. pose proof (Rabs_bounds _ _ Es) as B3.
  set (e := a_sub A t1 t2) in *. clearbody e.
  assert (He : Rabs e <= 2001) by (apply bounds_Rabs; lra).
  pose proof (chain_err _ _ _ _ _ (cos_rnd2 A HA e He) (Rle_trans _ _ _ (cos_lip e (t1 - t2)) Es)) as C1.
  pose proof (chain_err _ _ _ _ _ (sin_rnd2 A HA e He) (Rle_trans _ _ _ (sin_lip e (t1 - t2)) Es)) as S1.
  pose proof (Rabs_cos (t1 - t2)) as C0. pose proof (Rabs_sin (t1 - t2)) as S0.
  set (c' := a_cos A e) in *. set (s' := a_sin A e) in *. set (c := cos (t1 - t2)) in *. set (s := sin (t1 - t2)) in *.
  clearbody c' s' c s.
  pose proof (size_err _ _ _ _ C1 C0) as C2. pose proof (size_err _ _ _ _ S1 S0) as S2.
  pose proof (mul_err _ _ _ _ _ _ _ _ Er C1 Rt' C2) as M1.
  pose proof (mul_bound _ _ _ _ (size_err _ _ _ _ Er Rt') C2) as M2.
  pose proof (chain_err _ _ _ _ _ (mul_rnd A HA r' c' _ M2) M1) as M3.
  set (m' := a_mul A r' c') in *. clearbody m'.
  assert (M4 : Rabs (m' - r * c) <= 18 / 1000000) by lra.
  assert (M5 : Rabs (r * c) <= 2 * 1) by (apply mul_bound; auto).
  assert (M4' : Rabs (- m' - - (r * c)) <= 18 / 1000000) by (replace (- m' - - (r * c)) with (- (m' - r * c)) by ring; rewrite Rabs_Ropp; auto).
  assert (M5' : Rabs (- (r * c)) <= 2) by (rewrite Rabs_Ropp; lra).
  pose proof (tan_err _ _ H H' Ed) as T1. pose proof (tan_bound _ H) as T0. pose proof (size_err _ _ _ _ T1 T0) as T2.
  set (t' := a_tan A d') in *. set (t := tan d) in *. clearbody t t'.
  pose proof (mul_err _ _ _ _ _ _ _ _ M4' T1 M5' T2) as W1.
  pose proof (add_err _ _ _ _ _ _ W1 S1) as W2.
  pose proof (mul_bound _ _ _ _ (size_err _ _ _ _ M4' M5') T2) as W3.
  pose proof (chain_err _ _ _ _ _ (mac_rnd A HA (- m') t' s' _ _ W3 S2) W2) as W4.
  set (w' := a_mac A (- m') t' s') in *. clearbody w'.
  replace (s - r * c * t) with (- (r * c) * t + s) by ring.
  assert (W5 : Rabs (- (r * c) * t + s) <= 2 * 2 + 1).
  { eapply Rle_trans; [apply Rabs_triang|]. pose proof (mul_bound _ _ _ _ M5' T0). lra. }
  set (w := - (r * c) * t + s) in *. clearbody w.
  assert (W6 : Rabs (w' - w) <= 6 / 100000) by lra.
  pose proof (size_err _ _ _ _ W6 W5) as W7.
  pose proof (mul_err _ _ _ _ _ _ _ _ R1 W6 R0 W7) as X1.
  pose proof (mul_bound _ _ _ _ (size_err _ _ _ _ R1 R0) W7) as X2.
  pose proof (chain_err _ _ _ _ _ (mul_rnd A HA x' w' _ X2) X1) as X3.
  split; [lra|]. pose proof (mul_bound _ _ _ _ R0 W5). lra.
Qed.
End Track.

(** One computed step against the exact motion law. *)
Lemma tt_euler_track A p q a : accurate A -> drive_in_range p -> tt_near_home q ->
  tt_within (step_pos_error (p_vmax p)) (step_heading_error (p_vmax p)) (step_trailer_error (p_vmax p))
    (fl_tt_euler A p q (fl_input_scaler A p (clip_act a))) (tt_plain p q (within_box a)).
Proof.
  intros HA HD ([Hx Hy] & H1 & H2).
  change (within_box a) with (clip (fst a) (-1) 1, clip (snd a) (-1) 1).
  unfold fl_tt_euler, fl_tt_dyn, fl_input_scaler, clip_act, tt_plain, tt_within. cbn [fst snd t_px t_py t_th1 t_th2].
  pose proof (clip1 (fst a)) as C1. pose proof (clip1 (snd a)) as C2. set (u := clip (fst a) (-1) 1) in *. set (w := clip (snd a) (-1) 1) in *. clearbody u w.
  pose proof (speed_err A HA p HD u C1) as EV. pose proof (steer_err A HA p HD w C2) as ED.
  pose proof (steer_size A HA p HD w C2) as SD. pose proof (V_range p HD) as HV.
  assert (SV0 : Rabs (u * p_vmax p) <= p_vmax p).
  { replace (p_vmax p) with (1 * p_vmax p) at 2 by ring. apply mul_bound; apply bounds_Rabs; lra. }
  assert (SD0 : Rabs (w * p_dmax p) <= 1).
  { destruct HD as (_ & _ & HM & _). replace 1 with (1 * 1) by ring. apply mul_bound; apply bounds_Rabs; lra. }
  set (v' := a_mul A u (a_cvt A (p_vmax p))) in *. set (d' := a_mul A w (a_cvt A (p_dmax p))) in *.
  set (v := u * p_vmax p) in *. set (d := w * p_dmax p) in *. clearbody v v' d d'.
  pose proof HD as (D & _ & _ & L1 & L2 & _).
  assert (T1 : Rabs (t_th1 q) <= 1000) by lra.
  unfold step_pos_error, step_heading_error, step_trailer_error.
  split; [|split; [|split]].
  - assert (K : Rabs (v * cos (t_th1 q)) <= p_vmax p * 1) by (apply mul_bound; auto using Rabs_cos).
    pose proof (update_err A HA p HD _ _ _ _ _ _ (pos_rate_err A HA p HD _ _ _ _ EV SV0 (cos_rnd A HA _ T1) (cos_size A HA _ T1)) K Hx
      ltac:(lra) ltac:(lra) ltac:(lra)). lra.
  - assert (K : Rabs (v * sin (t_th1 q)) <= p_vmax p * 1) by (apply mul_bound; auto using Rabs_sin).
    pose proof (update_err A HA p HD _ _ _ _ _ _ (pos_rate_err A HA p HD _ _ _ _ EV SV0 (sin_rnd A HA _ T1) (sin_size A HA _ T1)) K Hy
      ltac:(lra) ltac:(lra) ltac:(lra)). lra.
  - destruct (head_rate_err A HA p HD _ _ _ _ _ EV SV0 L1 SD0 SD ED) as [E R0].
    assert (K : Rabs (v / p_l1 p * tan d) <= p_vmax p * 2) by (apply mul_bound; auto using tan_bound).
    pose proof (update_err A HA p HD _ _ _ _ _ _ E K H1 ltac:(lra) ltac:(lra) ltac:(lra)). lra.
  - destruct (hitch_rate_err A HA p HD _ _ _ _ _ _ EV SV0 SD0 SD ED H1 H2) as [E K].
    pose proof (update_err A HA p HD _ _ _ _ _ _ E K H2 ltac:(lra) ltac:(lra) ltac:(lra)) as U.
    replace ((v * sin (t_th1 q - t_th2 q) - p_lh p * (v / p_l1 p * tan d) * cos (t_th1 q - t_th2 q)) / p_l2 p)
      with (v / p_l2 p * (sin (t_th1 q - t_th2 q) - p_lh p / p_l1 p * cos (t_th1 q - t_th2 q) * tan d)) by (field; lra).
    lra.
Qed.
Lemma bk_euler_track A p q a : accurate A -> drive_in_range p -> bk_near_home q ->
  bk_within (step_pos_error (p_vmax p)) (step_heading_error (p_vmax p))
    (fl_bk_euler A p q (fl_input_scaler A p (clip_act a))) (bk_plain p q (within_box a)).
Proof.
  intros HA HD ([Hx Hy] & H1).
  change (within_box a) with (clip (fst a) (-1) 1, clip (snd a) (-1) 1).
  unfold fl_bk_euler, fl_bk_dyn, fl_input_scaler, clip_act, bk_plain, bk_within. cbn [fst snd b_px b_py b_th].
  pose proof (clip1 (fst a)) as C1. pose proof (clip1 (snd a)) as C2. set (u := clip (fst a) (-1) 1) in *. set (w := clip (snd a) (-1) 1) in *. clearbody u w.
  pose proof (speed_err A HA p HD u C1) as EV. pose proof (steer_err A HA p HD w C2) as ED.
  pose proof (steer_size A HA p HD w C2) as SD. pose proof (V_range p HD) as HV.
  assert (SV0 : Rabs (u * p_vmax p) <= p_vmax p).
  { replace (p_vmax p) with (1 * p_vmax p) at 2 by ring. apply mul_bound; apply bounds_Rabs; lra. }
  assert (SD0 : Rabs (w * p_dmax p) <= 1).
  { destruct HD as (_ & _ & HM & _). replace 1 with (1 * 1) by ring. apply mul_bound; apply bounds_Rabs; lra. }
  set (v' := a_mul A u (a_cvt A (p_vmax p))) in *. set (d' := a_mul A w (a_cvt A (p_dmax p))) in *.
  set (v := u * p_vmax p) in *. set (d := w * p_dmax p) in *. clearbody v v' d d'.
  pose proof HD as (D & _ & _ & L1 & L2 & _).
  assert (T1 : Rabs (b_th q) <= 1000) by lra.
  unfold step_pos_error, step_heading_error.
  split; [|split].
  - assert (K : Rabs (v * cos (b_th q)) <= p_vmax p * 1) by (apply mul_bound; auto using Rabs_cos).
    pose proof (update_err A HA p HD _ _ _ _ _ _ (pos_rate_err A HA p HD _ _ _ _ EV SV0 (cos_rnd A HA _ T1) (cos_size A HA _ T1)) K Hx
      ltac:(lra) ltac:(lra) ltac:(lra)). lra.
  - assert (K : Rabs (v * sin (b_th q)) <= p_vmax p * 1) by (apply mul_bound; auto using Rabs_sin).
    pose proof (update_err A HA p HD _ _ _ _ _ _ (pos_rate_err A HA p HD _ _ _ _ EV SV0 (sin_rnd A HA _ T1) (sin_size A HA _ T1)) K Hy
      ltac:(lra) ltac:(lra) ltac:(lra)). lra.
  - destruct (head_rate_err A HA p HD _ _ _ _ _ EV SV0 L1 SD0 SD ED) as [E R0].
    assert (K : Rabs (v / p_l1 p * tan d) <= p_vmax p * 2) by (apply mul_bound; auto using tan_bound).
    pose proof (update_err A HA p HD _ _ _ _ _ _ E K H1 ltac:(lra) ltac:(lra) ltac:(lra)). lra.
Qed.

(** ** Refusals *)
Lemma fl_tt_step_taken A s q a : let q' := fl_tt_euler (A SStep) (ts_p s) q (fl_input_scaler (A SStep) (ts_p s) (clip_act a)) in
  (p_sh_coll (ts_p s) = true -> fl_tt_coll A (ts_p s) (ts_circ s) (ts_rect s) q' = false) ->
  (p_sh_hitch (ts_p s) = true -> fl_tt_hitch A (ts_p s) q' = false) -> fl_tt_step A s q a = q'.
Proof.
  intros q' H1 H2. unfold fl_tt_step. fold q'. clearbody q'. unfold shielded_rollout, step_without_shield, where_.
  destruct (p_sh_coll (ts_p s)), (p_sh_hitch (ts_p s)); cbn [orb andb];
    rewrite ?(H1 eq_refl), ?(H2 eq_refl); reflexivity.
Qed.
Lemma fl_bk_step_taken A s q a : let q' := fl_bk_euler (A SStep) (bs_p s) q (fl_input_scaler (A SStep) (bs_p s) (clip_act a)) in
  (p_sh_coll (bs_p s) = true -> fl_bk_coll A (bs_p s) (bs_circ s) (bs_rect s) q' = false) -> fl_bk_step A s q a = q'.
Proof.
  intros q' H1. unfold fl_bk_step. fold q'. clearbody q'. unfold shielded_rollout, step_without_shield, where_, bk_hitch.
  destruct (p_sh_coll (bs_p s)), (p_sh_hitch (bs_p s)); cbn [orb andb]; rewrite ?(H1 eq_refl); reflexivity.
Qed.

(** C68: a step of the tractor-trailer, computed in floating point, either stays where it was (only with a shield switched
    on) or agrees with the exact motion law for the action cut to the box up to the step errors. *)
Lemma l_C68_step :
  forall A s q a, all_accurate A -> drive_in_range (ts_p s) -> tt_near_home q ->
  (fl_tt_step A s q a = q /\ (p_sh_coll (ts_p s) = true \/ p_sh_hitch (ts_p s) = true)) \/
  tt_within (step_pos_error (p_vmax (ts_p s))) (step_heading_error (p_vmax (ts_p s))) (step_trailer_error (p_vmax (ts_p s)))
    (fl_tt_step A s q a) (tt_plain (ts_p s) q (within_box a)).
Proof.
  intros A s q a HA HD HQ. pose proof (tt_euler_track (A SStep) (ts_p s) q a (HA _) HD HQ) as T.
  destruct (p_sh_coll (ts_p s) || p_sh_hitch (ts_p s)) eqn:F.
  - apply orb_true_iff in F. destruct (fl_tt_step_cases A s q a) as [E|E]; rewrite E; [left; auto|right; exact T].
  - apply orb_false_iff in F. destruct F as [F1 F2]. right. rewrite fl_tt_step_taken; [exact T| |]; congruence.
Qed.
(** C68: the same for the bicycle. *)
Lemma l_C68_bicycle_step :
  forall A s q a, all_accurate A -> drive_in_range (bs_p s) -> bk_near_home q ->
  (fl_bk_step A s q a = q /\ p_sh_coll (bs_p s) = true) \/
  bk_within (step_pos_error (p_vmax (bs_p s))) (step_heading_error (p_vmax (bs_p s)))
    (fl_bk_step A s q a) (bk_plain (bs_p s) q (within_box a)).
Proof.
  intros A s q a HA HD HQ. pose proof (bk_euler_track (A SStep) (bs_p s) q a (HA _) HD HQ) as T.
  destruct (p_sh_coll (bs_p s)) eqn:F.
  - destruct (fl_bk_step_cases A s q a) as [E|E]; rewrite E; [left; auto|right; exact T].
  - right. rewrite fl_bk_step_taken; [exact T|]. congruence.
Qed.

(** C68: along a computed run every state is, up to the step errors, the exact successor of the one before, or equals it
    (only with a shield switched on). *)
Lemma l_C68_run :
  forall A s q us k, all_accurate A -> drive_in_range (ts_p s) ->
  (forall x, In x (q :: fl_tt_run A s q us) -> tt_near_home x) -> (k < length us)%nat ->
  let before := nth k (q :: fl_tt_run A s q us) q in let after := nth k (fl_tt_run A s q us) q in
  (after = before /\ (p_sh_coll (ts_p s) = true \/ p_sh_hitch (ts_p s) = true)) \/
  tt_within (step_pos_error (p_vmax (ts_p s))) (step_heading_error (p_vmax (ts_p s))) (step_trailer_error (p_vmax (ts_p s)))
    after (tt_plain (ts_p s) before (within_box (nth k us (0, 0)))).
Proof.
  intros A s q us k HA HD HR Hk. cbv zeta.
  assert (E : nth k (fl_tt_run A s q us) q = fl_tt_step A s (nth k (q :: fl_tt_run A s q us) q) (nth k us (0, 0))).
  { clear HR HA HD. generalize q at 2 5 as d. revert q k Hk. induction us as [|a us IH]; intros q k Hk d; [inversion Hk|].
    cbn [fl_tt_run]. cbv zeta. destruct k as [|k]; [reflexivity|]. cbn [length] in Hk. apply Nat.succ_lt_mono in Hk. exact (IH (fl_tt_step A s q a) k Hk d). }
  rewrite E. apply l_C68_step; auto. apply HR. apply nth_In. cbn [length].
  assert (L : length (fl_tt_run A s q us) = length us).
  { clear. revert q. induction us as [|a us IH]; intro q; [reflexivity|]. cbn [fl_tt_run length]. cbv zeta. cbn [length]. rewrite IH. reflexivity. }
  rewrite L. lia.
Qed.

(** ** Drift *)
Lemma standing_still_tt p q : tt_plain p q (0, 0) = q.
Proof.
  destruct q as [x y t1 t2]. unfold tt_plain. cbn [fst snd t_px t_py t_th1 t_th2]. unfold Rdiv.
  f_equal; ring.
Qed.
Lemma standing_still_bk p q : bk_plain p q (0, 0) = q.
Proof. destruct q as [x y t1]. unfold bk_plain. cbn [fst snd b_px b_py b_th]. unfold Rdiv. f_equal; ring. Qed.
Lemma box_speed a : -1 <= fst (within_box a) <= 1.
Proof. apply clip1. Qed.

(** Two exact steps from nearby states with the same action: position and heading of the tractor. *)
Lemma pos_spread dt V u x x' th th' e h (f : R -> R) : (forall a b, Rabs (f a - f b) <= Rabs (a - b)) ->
  0 <= dt -> 0 <= V -> -1 <= u <= 1 -> Rabs (x - x') <= e -> Rabs (th - th') <= h ->
  Rabs (x + dt * (u * V * f th) - (x' + dt * (u * V * f th'))) <= e + dt * V * h.
Proof.
  intros L D HV HU E H. replace (x + dt * (u * V * f th) - (x' + dt * (u * V * f th'))) with ((x - x') + dt * V * (u * (f th - f th'))) by ring.
  assert (DV : 0 <= dt * V) by (apply Rmult_le_pos; auto).
  eapply Rle_trans; [apply Rabs_triang|]. apply Rplus_le_compat; auto. apply mul_bound; [rewrite Rabs_pos_eq; lra|].
  replace h with (1 * h) by ring. apply mul_bound; [apply bounds_Rabs; lra|]. eapply Rle_trans; [apply L|exact H].
Qed.
(** Accumulation: from a state off by (e, h), k further steps. *)
Definition acc_pos (dt V e h : R) (k : nat) : R :=
  e + INR k * (step_pos_error V + dt * V * h) + dt * V * (INR k * INR k) * step_heading_error V.
Lemma acc_next dt V e h k e1 h1 : 0 <= dt -> 0 <= V -> e1 <= e + dt * V * h + step_pos_error V -> h1 <= h + step_heading_error V ->
  acc_pos dt V e1 h1 k <= acc_pos dt V e h (S k).
Proof.
  intros D HV H1 H2. unfold acc_pos. rewrite S_INR. pose proof (pos_INR k) as K.
  assert (DV : 0 <= dt * V) by (apply Rmult_le_pos; auto).
  assert (E0 : 0 <= step_heading_error V) by (unfold step_heading_error; lra).
  assert (X1 : dt * V * h1 <= dt * V * (h + step_heading_error V)) by (apply Rmult_le_compat_l; auto).
  assert (X2 : INR k * (step_pos_error V + dt * V * h1) <= INR k * (step_pos_error V + dt * V * (h + step_heading_error V)))
    by (apply Rmult_le_compat_l; lra).
  assert (X3 : 0 <= dt * V * (INR k + 1) * step_heading_error V).
  { apply Rmult_le_pos; auto. apply Rmult_le_pos; lra. }
  replace (dt * V * ((INR k + 1) * (INR k + 1)) * step_heading_error V) with
    (dt * V * (INR k * INR k) * step_heading_error V + dt * V * INR k * step_heading_error V + dt * V * (INR k + 1) * step_heading_error V) by ring.
  replace (INR k * (step_pos_error V + dt * V * (h + step_heading_error V))) with
    (INR k * (step_pos_error V + dt * V * h) + dt * V * INR k * step_heading_error V) in X2 by ring.
  lra.
Qed.

Lemma F2_length {X Y} (R : X -> Y -> Prop) l m : Forall2 R l m -> length l = length m.
Proof. induction 1; cbn; auto. Qed.
Lemma tt_drift A s : all_accurate A -> drive_in_range (ts_p s) -> forall us q y e h, 0 <= e -> 0 <= h ->
  Rabs (t_px q - t_px y) <= e -> Rabs (t_py q - t_py y) <= e -> Rabs (t_th1 q - t_th1 y) <= h ->
  (forall x, In x (q :: fl_tt_run A s q us) -> tt_near_home x) ->
  exists us', executed us us' /\ forall k, (k < length us)%nat ->
    let x := nth k (fl_tt_run A s q us) q in let z := nth k (tt_drive (ts_p s) y us') y in
    Rabs (t_px x - t_px z) <= acc_pos (p_dt (ts_p s)) (p_vmax (ts_p s)) e h (S k) /\
    Rabs (t_py x - t_py z) <= acc_pos (p_dt (ts_p s)) (p_vmax (ts_p s)) e h (S k) /\
    Rabs (t_th1 x - t_th1 z) <= h + INR (S k) * step_heading_error (p_vmax (ts_p s)).
Proof.
  intros HA HD us. pose proof HD as (D & V & _ & L1 & _). set (p := ts_p s) in *.
  assert (DV : 0 <= p_dt p * p_vmax p) by (apply Rmult_le_pos; lra).
  assert (P0 : 0 <= step_pos_error (p_vmax p)) by (unfold step_pos_error; lra).
  assert (H0 : 0 <= step_heading_error (p_vmax p)) by (unfold step_heading_error; lra).
  induction us as [|a us IH]; intros q y e h Pe Ph Ex Ey Eh HR.
  - exists []. split; [constructor|]. intros k Hk. cbn in Hk. lia.
  - cbn [fl_tt_run] in HR. cbv zeta in HR.
    set (q1 := fl_tt_step A s q a) in *.
    assert (S : exists a', (a' = within_box a \/ a' = (0, 0)) /\
      Rabs (t_px q1 - t_px (tt_plain p y a')) <= e + p_dt p * p_vmax p * h + step_pos_error (p_vmax p) /\
      Rabs (t_py q1 - t_py (tt_plain p y a')) <= e + p_dt p * p_vmax p * h + step_pos_error (p_vmax p) /\
      Rabs (t_th1 q1 - t_th1 (tt_plain p y a')) <= h + step_heading_error (p_vmax p)).
    { assert (DVh : 0 <= p_dt p * p_vmax p * h) by (apply Rmult_le_pos; auto).
      destruct (l_C68_step A s q a HA HD (HR q (or_introl eq_refl))) as [[E _]|(T1 & T2 & T3 & _)].
      - exists (0, 0). split; [auto|]. rewrite standing_still_tt. fold q1 in E. rewrite E. repeat split; lra.
      - exists (within_box a). split; [auto|]. fold q1 p in T1, T2, T3. pose proof (box_speed a) as BS.
        unfold tt_plain in *. cbn [t_px t_py t_th1] in *.
        set (u := fst (within_box a)) in *. set (w := snd (within_box a)) in *. clearbody u w.
        pose proof (pos_spread (p_dt p) (p_vmax p) u _ _ _ _ e h cos cos_lip ltac:(lra) ltac:(lra) BS Ex Eh) as Q1.
        pose proof (pos_spread (p_dt p) (p_vmax p) u _ _ _ _ e h sin sin_lip ltac:(lra) ltac:(lra) BS Ey Eh) as Q2.
        pose proof (chain_err _ _ _ _ _ T1 Q1). pose proof (chain_err _ _ _ _ _ T2 Q2).
        split; [lra|]. split; [lra|].
        assert (Q3 : Rabs (t_th1 q + p_dt p * (u * p_vmax p / p_l1 p * tan (w * p_dmax p)) - (t_th1 y + p_dt p * (u * p_vmax p / p_l1 p * tan (w * p_dmax p)))) <= h).
        { match goal with |- Rabs (?a + ?b - (?c + ?b)) <= _ => replace (a + b - (c + b)) with (a - c) by ring end. exact Eh. }
        pose proof (chain_err _ _ _ _ _ T3 Q3). lra. }
    destruct S as (a' & Ha' & S1 & S2 & S3).
    assert (DVh : 0 <= p_dt p * p_vmax p * h) by (apply Rmult_le_pos; auto).
    destruct (IH q1 (tt_plain p y a') (e + p_dt p * p_vmax p * h + step_pos_error (p_vmax p)) (h + step_heading_error (p_vmax p)) ltac:(lra) ltac:(lra) S1 S2 S3 (fun x Hx => HR x (or_intror Hx))) as (us' & EX & B).
    exists (a' :: us'). split; [constructor; auto|].
    intros k Hk. cbn [fl_tt_run tt_drive]. cbv zeta. fold q1. destruct k as [|k].
    + cbn [nth]. replace (INR 1) with 1 by reflexivity.
      assert (AP : e + p_dt p * p_vmax p * h + step_pos_error (p_vmax p) <= acc_pos (p_dt p) (p_vmax p) e h 1).
      { pose proof (acc_next (p_dt p) (p_vmax p) e h 0 _ _ ltac:(lra) ltac:(lra) (Rle_refl _) (Rle_refl _)) as Y.
        unfold acc_pos in Y at 1. cbn [INR] in Y. lra. }
      repeat split; lra.
    + cbn [length] in Hk. destruct (B k ltac:(lia)) as (B1 & B2 & B3).
      cbn [nth]. rewrite (nth_indep _ q q1), (nth_indep (tt_drive _ _ _) y (tt_plain p y a')).
      * pose proof (acc_next (p_dt p) (p_vmax p) e h (S k) _ _ ltac:(lra) ltac:(lra) (Rle_refl _) (Rle_refl _)) as Y.
        split; [lra|]. split; [lra|]. rewrite S_INR. lra.
      * assert (LD : forall l z, length (tt_drive p z l) = length l) by (induction l; intro; cbn; auto).
        rewrite LD. exact (proj2 (Nat.succ_lt_mono _ _) (eq_ind _ (fun n => (S k < S n)%nat) Hk _ (F2_length _ _ _ EX))).
      * assert (LD : forall l z, length (fl_tt_run A s z l) = length l) by (induction l; intro; cbn; auto).
        rewrite LD. lia.
Qed.
Lemma bk_drift A s : all_accurate A -> drive_in_range (bs_p s) -> forall us q y e h, 0 <= e -> 0 <= h ->
  Rabs (b_px q - b_px y) <= e -> Rabs (b_py q - b_py y) <= e -> Rabs (b_th q - b_th y) <= h ->
  (forall x, In x (q :: fl_bk_run A s q us) -> bk_near_home x) ->
  exists us', executed us us' /\ forall k, (k < length us)%nat ->
    let x := nth k (fl_bk_run A s q us) q in let z := nth k (bk_drive (bs_p s) y us') y in
    Rabs (b_px x - b_px z) <= acc_pos (p_dt (bs_p s)) (p_vmax (bs_p s)) e h (S k) /\
    Rabs (b_py x - b_py z) <= acc_pos (p_dt (bs_p s)) (p_vmax (bs_p s)) e h (S k) /\
    Rabs (b_th x - b_th z) <= h + INR (S k) * step_heading_error (p_vmax (bs_p s)).
Proof.
  intros HA HD us. pose proof HD as (D & V & _ & L1 & _). set (p := bs_p s) in *.
  assert (DV : 0 <= p_dt p * p_vmax p) by (apply Rmult_le_pos; lra).
  assert (P0 : 0 <= step_pos_error (p_vmax p)) by (unfold step_pos_error; lra).
  assert (H0 : 0 <= step_heading_error (p_vmax p)) by (unfold step_heading_error; lra).
  induction us as [|a us IH]; intros q y e h Pe Ph Ex Ey Eh HR.
  - exists []. split; [constructor|]. intros k Hk. cbn in Hk. lia.
  - cbn [fl_bk_run] in HR. cbv zeta in HR.
    set (q1 := fl_bk_step A s q a) in *.
    assert (S : exists a', (a' = within_box a \/ a' = (0, 0)) /\
      Rabs (b_px q1 - b_px (bk_plain p y a')) <= e + p_dt p * p_vmax p * h + step_pos_error (p_vmax p) /\
      Rabs (b_py q1 - b_py (bk_plain p y a')) <= e + p_dt p * p_vmax p * h + step_pos_error (p_vmax p) /\
      Rabs (b_th q1 - b_th (bk_plain p y a')) <= h + step_heading_error (p_vmax p)).
    { assert (DVh : 0 <= p_dt p * p_vmax p * h) by (apply Rmult_le_pos; auto).
      destruct (l_C68_bicycle_step A s q a HA HD (HR q (or_introl eq_refl))) as [[E _]|(T1 & T2 & T3)].
      - exists (0, 0). split; [auto|]. rewrite standing_still_bk. fold q1 in E. rewrite E. repeat split; lra.
      - exists (within_box a). split; [auto|]. fold q1 p in T1, T2, T3. pose proof (box_speed a) as BS.
        unfold bk_plain in *. cbn [b_px b_py b_th] in *.
        set (u := fst (within_box a)) in *. set (w := snd (within_box a)) in *. clearbody u w.
        pose proof (pos_spread (p_dt p) (p_vmax p) u _ _ _ _ e h cos cos_lip ltac:(lra) ltac:(lra) BS Ex Eh) as Q1.
        pose proof (pos_spread (p_dt p) (p_vmax p) u _ _ _ _ e h sin sin_lip ltac:(lra) ltac:(lra) BS Ey Eh) as Q2.
        pose proof (chain_err _ _ _ _ _ T1 Q1). pose proof (chain_err _ _ _ _ _ T2 Q2).
        split; [lra|]. split; [lra|].
        assert (Q3 : Rabs (b_th q + p_dt p * (u * p_vmax p / p_l1 p * tan (w * p_dmax p)) - (b_th y + p_dt p * (u * p_vmax p / p_l1 p * tan (w * p_dmax p)))) <= h).
        { match goal with |- Rabs (?a + ?b - (?c + ?b)) <= _ => replace (a + b - (c + b)) with (a - c) by ring end. exact Eh. }
        pose proof (chain_err _ _ _ _ _ T3 Q3). lra. }
    destruct S as (a' & Ha' & S1 & S2 & S3).
    assert (DVh : 0 <= p_dt p * p_vmax p * h) by (apply Rmult_le_pos; auto).
    destruct (IH q1 (bk_plain p y a') (e + p_dt p * p_vmax p * h + step_pos_error (p_vmax p)) (h + step_heading_error (p_vmax p)) ltac:(lra) ltac:(lra) S1 S2 S3 (fun x Hx => HR x (or_intror Hx))) as (us' & EX & B).
    exists (a' :: us'). split; [constructor; auto|].
    intros k Hk. cbn [fl_bk_run bk_drive]. cbv zeta. fold q1. destruct k as [|k].
    + cbn [nth]. replace (INR 1) with 1 by reflexivity.
      assert (AP : e + p_dt p * p_vmax p * h + step_pos_error (p_vmax p) <= acc_pos (p_dt p) (p_vmax p) e h 1).
      { pose proof (acc_next (p_dt p) (p_vmax p) e h 0 _ _ ltac:(lra) ltac:(lra) (Rle_refl _) (Rle_refl _)) as Y.
        unfold acc_pos in Y at 1. cbn [INR] in Y. lra. }
      repeat split; lra.
    + cbn [length] in Hk. destruct (B k ltac:(lia)) as (B1 & B2 & B3).
      cbn [nth]. rewrite (nth_indep _ q q1), (nth_indep (bk_drive _ _ _) y (bk_plain p y a')).
      * pose proof (acc_next (p_dt p) (p_vmax p) e h (S k) _ _ ltac:(lra) ltac:(lra) (Rle_refl _) (Rle_refl _)) as Y.
        split; [lra|]. split; [lra|]. rewrite S_INR. lra.
      * assert (LD : forall l z, length (bk_drive p z l) = length l) by (induction l; intro; cbn; auto).
        rewrite LD. exact (proj2 (Nat.succ_lt_mono _ _) (eq_ind _ (fun n => (S k < S n)%nat) Hk _ (F2_length _ _ _ EX))).
      * assert (LD : forall l z, length (fl_bk_run A s z l) = length l) by (induction l; intro; cbn; auto).
        rewrite LD. lia.
Qed.
Lemma acc_zero dt V k : acc_pos dt V 0 0 k = drift_pos dt V k.
Proof. unfold acc_pos, drift_pos. ring. Qed.

(** C68: executing a plan in floating point, shielded or not: there is a plan of the same actions cut to the box, some of
    them replaced by standing still, whose exact execution keeps position and heading of the tractor within the drift
    bounds after every step. *)
Lemma l_C68_tractor_drift :
  forall A s q us, all_accurate A -> drive_in_range (ts_p s) ->
  (forall x, In x (q :: fl_tt_run A s q us) -> tt_near_home x) ->
  exists us', executed us us' /\ forall k, (k < length us)%nat ->
    let x := nth k (fl_tt_run A s q us) q in let y := nth k (tt_drive (ts_p s) q us') q in
    Rabs (t_px x - t_px y) <= drift_pos (p_dt (ts_p s)) (p_vmax (ts_p s)) (S k) /\
    Rabs (t_py x - t_py y) <= drift_pos (p_dt (ts_p s)) (p_vmax (ts_p s)) (S k) /\
    Rabs (t_th1 x - t_th1 y) <= drift_heading (p_vmax (ts_p s)) (S k).
Proof.
  intros A s q us HA HD HR. pose proof (zero_err (t_px q)). pose proof (zero_err (t_py q)). pose proof (zero_err (t_th1 q)).
  destruct (tt_drift A s HA HD us q q 0 0) as (us' & E & B); try lra; auto.
  exists us'. split; auto. intros k Hk. destruct (B k Hk) as (B1 & B2 & B3). rewrite acc_zero in B1, B2.
  unfold drift_heading. cbv zeta. repeat split; lra.
Qed.
(** C68: for the bicycle this is the whole state. *)
Lemma l_C68_bicycle_drift :
  forall A s q us, all_accurate A -> drive_in_range (bs_p s) ->
  (forall x, In x (q :: fl_bk_run A s q us) -> bk_near_home x) ->
  exists us', executed us us' /\ forall k, (k < length us)%nat ->
    bk_within (drift_pos (p_dt (bs_p s)) (p_vmax (bs_p s)) (S k)) (drift_heading (p_vmax (bs_p s)) (S k))
      (nth k (fl_bk_run A s q us) q) (nth k (bk_drive (bs_p s) q us') q).
Proof.
  intros A s q us HA HD HR. pose proof (zero_err (b_px q)). pose proof (zero_err (b_py q)). pose proof (zero_err (b_th q)).
  destruct (bk_drift A s HA HD us q q 0 0) as (us' & E & B); try lra; auto.
  exists us'. split; auto. intros k Hk. destruct (B k Hk) as (B1 & B2 & B3). rewrite acc_zero in B1, B2.
  unfold drift_heading, bk_within. repeat split; lra.
Qed.

(** ** Commands with room to spare are executed *)
Definition moved (d : R) (g h : region) : Prop :=
  rg_back h = rg_back g /\ rg_front h = rg_front g /\ rg_half h = rg_half g /\
  forall a b, rg_back g <= a <= rg_front g -> - rg_half g <= b <= rg_half g ->
  SpecGeom.dist (at_frame (rg_org g) (rg_ang g) a b) (at_frame (rg_org h) (rg_ang h) a b) <= d.
Lemma frame_shift (o o' : point) th th' a b e h K : Rabs (fst o - fst o') <= e -> Rabs (snd o - snd o') <= e -> Rabs (th - th') <= h ->
  Rabs a + Rabs b <= K -> 0 <= h ->
  SpecGeom.dist (at_frame o th a b) (at_frame o' th' a b) <= 2 * (e + K * h).
Proof.
  intros E1 E2 H HK H0. pose proof (cos_lip th th') as C. pose proof (sin_lip th th') as S.
  assert (Ca : Rabs (a * (cos th - cos th')) <= Rabs a * h) by (apply mul_bound; lra).
  assert (Cb : Rabs (b * (cos th - cos th')) <= Rabs b * h) by (apply mul_bound; lra).
  assert (Sa : Rabs (a * (sin th - sin th')) <= Rabs a * h) by (apply mul_bound; lra).
  assert (Sb : Rabs (b * (sin th - sin th')) <= Rabs b * h) by (apply mul_bound; lra).
  assert (KK : Rabs a * h + Rabs b * h <= K * h) by (rewrite <- Rmult_plus_distr_r; apply Rmult_le_compat_r; auto).
  pose proof (Rabs_bounds _ _ Ca). pose proof (Rabs_bounds _ _ Cb). pose proof (Rabs_bounds _ _ Sa). pose proof (Rabs_bounds _ _ Sb).
  pose proof (Rabs_bounds _ _ E1). pose proof (Rabs_bounds _ _ E2).
  replace (2 * (e + K * h)) with ((e + K * h) + (e + K * h)) by ring.
  apply dist_coords; unfold at_frame; cbn [fst snd]; apply bounds_Rabs; lra.
Qed.
Lemma in_grown d o P Q e : 0 <= e -> solid (obstacle_body (grown_rect d o)) P -> SpecGeom.dist P Q <= e ->
  solid (obstacle_body (grown_rect (d + e) o)) Q.
Proof.
  intros He (a & b & Ha & Hb & ->) HD. unfold obstacle_body, grown_rect in *. cbn [rg_org rg_ang rg_back rg_front rg_half r_x r_y r_w r_h r_ang fst snd] in *.
  set (t := r_ang o) in *. set (P := at_frame (r_x o, r_y o) t a b) in *.
  assert (HD2 : dist2 P Q <= e * e) by (apply dist_le_iff in HD; auto).
  set (dx := fst Q - fst P). set (dy := snd Q - snd P).
  assert (HS : dx * dx + dy * dy <= e * e) by (unfold dx, dy, dist2 in *; lra).
  pose proof (sin2_cos2' t) as T.
  set (u := dx * cos t + dy * sin t). set (w := dy * cos t - dx * sin t).
  assert (UW : u * u + w * w = dx * dx + dy * dy).
  { unfold u, w. transitivity ((dx * dx + dy * dy) * (sin t * sin t + cos t * cos t)); [ring|rewrite T; ring]. }
  assert (B : forall x y, x * x + y * y <= e * e -> - e <= x <= e).
  { intros x y H. pose proof (sq_nonneg y). split; apply Rnot_lt_le; intro L.
    - assert (e * e < - x * - x) by (apply Rmult_le_0_lt_compat; lra). lra.
    - assert (e * e < x * x) by (apply Rmult_le_0_lt_compat; lra). lra. }
  pose proof (B u w ltac:(lra)) as Bu. pose proof (B w u ltac:(lra)) as Bw.
  exists (a + u), (b + w). cbn [rg_back rg_front rg_half rg_org rg_ang]. split; [lra|]. split; [lra|].
  unfold at_frame. cbn [fst snd]. destruct Q as [qx qy]. apply pair_equal_spec.
  unfold u, w, dx, dy, P, at_frame. cbn [fst snd].
  split.
  - transitivity (r_x o + a * cos t - b * sin t + (qx - (r_x o + a * cos t - b * sin t)) * (sin t * sin t + cos t * cos t)); [rewrite T; ring|ring].
  - transitivity (r_y o + a * sin t + b * cos t + (qy - (r_y o + a * sin t + b * cos t)) * (sin t * sin t + cos t * cos t)); [rewrite T; ring|ring].
Qed.
Lemma moved_rect e d g h o : 0 <= e -> moved e g h -> clear_of_rect h (grown_rect (d + e) o) -> clear_of_rect g (grown_rect d o).
Proof.
  intros He (M1 & M2 & M3 & M) C P [(a & b & Ha & Hb & EP) SP].
  apply (C (at_frame (rg_org h) (rg_ang h) a b)). split.
  - exists a, b. rewrite M1, M2, M3. auto.
  - eapply in_grown; eauto. rewrite EP. auto.
Qed.
Lemma moved_circle e d g h c : moved e g h -> clear_of_circle h (grown_circle (d + e) c) -> clear_of_circle g (grown_circle d c).
Proof.
  intros (M1 & M2 & M3 & M) C P (a & b & Ha & Hb & O & EP).
  specialize (C (at_frame (rg_org h) (rg_ang h) a b)). unfold grown_circle in *. cbn [c_x c_y c_r] in *.
  assert (OH : outline h (at_frame (rg_org h) (rg_ang h) a b)) by (exists a, b; rewrite M1, M2, M3; auto).
  specialize (C OH). pose proof (M a b Ha Hb) as D. rewrite EP.
  pose proof (ProofsStep.dist_triangle (at_frame (rg_org h) (rg_ang h) a b) (at_frame (rg_org g) (rg_ang g) a b) (c_x c, c_y c)) as T.
  rewrite (dist_sym' (at_frame (rg_org h) (rg_ang h) a b) (at_frame (rg_org g) (rg_ang g) a b)) in T. lra.
Qed.
Lemma moved_within e g h o D : moved e g h -> within D h o -> within (D + e) g o.
Proof.
  intros (M1 & M2 & M3 & M) W P Q (a & b & Ha & Hb & ->) HQ.
  assert (SH : solid h (at_frame (rg_org h) (rg_ang h) a b)) by (exists a, b; rewrite M1, M2, M3; auto).
  pose proof (W _ _ SH HQ) as D1. pose proof (M a b Ha Hb) as D2.
  pose proof (ProofsStep.dist_triangle (at_frame (rg_org g) (rg_ang g) a b) (at_frame (rg_org h) (rg_ang h) a b) Q). lra.
Qed.
Lemma tt_moved p q q' : vehicle_in_range p -> 0 <= p_vmax p ->
  tt_within (step_pos_error (p_vmax p)) (step_heading_error (p_vmax p)) (step_trailer_error (p_vmax p)) q q' ->
  Forall2 (moved (step_shift p)) (tt_bodies p q) (tt_bodies p q').
Proof.
  intros (D1 & D2 & D3 & D4 & D5 & D6 & D7 & D8 & D9 & _) V (T1 & T2 & T3 & T4).
  unfold dimension in *. set (e := step_pos_error (p_vmax p)) in *.
  assert (HK : step_heading_error (p_vmax p) <= step_trailer_error (p_vmax p)) by (unfold step_heading_error, step_trailer_error; lra).
  assert (K0 : 0 <= step_trailer_error (p_vmax p)) by (unfold step_trailer_error; lra).
  unfold step_shift, vehicle_extent. fold e. set (k := step_trailer_error (p_vmax p)) in *. set (h := step_heading_error (p_vmax p)) in *. clearbody e k h.
  assert (AB : forall x lo hi, lo <= x <= hi -> 0 <= - lo -> 0 <= hi -> Rabs x <= hi - lo).
  { intros x lo hi H1 H2 H3. apply bounds_Rabs. lra. }
  apply Forall2_cons; [|apply Forall2_cons; [|apply Forall2_nil]].
  - unfold moved, tractor_body. cbn [rg_org rg_ang rg_back rg_front rg_half]. repeat split; auto. intros a b Ha Hb.
    eapply Rle_trans; [apply (frame_shift _ _ _ _ a b e k (p_l1 p + p_lf1 p + p_lr p + p_trac_w p))|]; cbn [fst snd]; auto; try lra.
    + pose proof (AB a _ _ Ha ltac:(lra) ltac:(lra)). pose proof (AB b _ _ Hb ltac:(lra) ltac:(lra)). lra.
    + apply Rmult_le_compat_l; [lra|]. apply Rplus_le_compat_l. apply Rmult_le_compat_r; lra.
  - unfold moved, trailer_body. cbn [rg_org rg_ang rg_back rg_front rg_half]. repeat split; auto. intros a b Ha Hb.
    assert (OS : Rabs (fst (ahead (ahead (t_px q, t_py q) (t_th1 q) (- p_lh p)) (t_th2 q) (- p_l2 p)) -
                       fst (ahead (ahead (t_px q', t_py q') (t_th1 q') (- p_lh p)) (t_th2 q') (- p_l2 p))) <= e + (p_lh p + p_l2 p) * k /\
                 Rabs (snd (ahead (ahead (t_px q, t_py q) (t_th1 q) (- p_lh p)) (t_th2 q) (- p_l2 p)) -
                       snd (ahead (ahead (t_px q', t_py q') (t_th1 q') (- p_lh p)) (t_th2 q') (- p_l2 p))) <= e + (p_lh p + p_l2 p) * k).
    { unfold ahead. cbn [fst snd].
      assert (X : forall L f t t', 0 <= L -> (forall u w, Rabs (f u - f w) <= Rabs (u - w)) -> Rabs (t - t') <= k -> - (L * k) <= L * (f t - f t') <= L * k).
      { intros L f t t' HL LF HT. apply Rabs_bounds. apply mul_bound; [rewrite Rabs_pos_eq; lra|]. eapply Rle_trans; [apply LF|exact HT]. }
      pose proof (X (p_lh p) cos (t_th1 q) (t_th1 q') ltac:(lra) cos_lip ltac:(lra)).
      pose proof (X (p_lh p) sin (t_th1 q) (t_th1 q') ltac:(lra) sin_lip ltac:(lra)).
      pose proof (X (p_l2 p) cos (t_th2 q) (t_th2 q') ltac:(lra) cos_lip ltac:(lra)).
      pose proof (X (p_l2 p) sin (t_th2 q) (t_th2 q') ltac:(lra) sin_lip ltac:(lra)).
      pose proof (Rabs_bounds _ _ T1). pose proof (Rabs_bounds _ _ T2).
      split; apply bounds_Rabs; lra. }
    destruct OS as [O1 O2].
    eapply Rle_trans; [apply (frame_shift _ _ _ _ a b _ k (p_lf2 p + p_lr2 p + p_trail_w p) O1 O2)|]; auto.
    + pose proof (AB a _ _ Ha ltac:(lra) ltac:(lra)). pose proof (AB b _ _ Hb ltac:(lra) ltac:(lra)). lra.
    + apply Rmult_le_compat_l; [lra|].
      assert (0 <= (p_l1 p + p_lf1 p + p_lr p + p_trac_w p) * k) by (apply Rmult_le_pos; lra). lra.
Qed.

(** C68: a command whose exact successor is clear of the obstacles with room to spare (the slack of C67 and the shift of
    one computed step) and whose hitch angle is 0.006 rad below the limit is executed, not refused. *)
Lemma l_C68_room_to_spare :
  forall A s q a l D, all_accurate A -> vehicle_in_range (ts_p s) -> drive_in_range (ts_p s) -> 0 <= p_phi_max (ts_p s) <= 10 ->
  obstacles_in_range (ts_circ s) (ts_rect s) -> tt_near_home q ->
  let n := tt_plain (ts_p s) q (within_box a) in
  (Rabs (t_px n) <= 99 /\ Rabs (t_py n) <= 99 /\ Rabs (t_th1 n) <= 999 /\ Rabs (t_th2 n) <= 999) ->
  / 10 <= l -> (forall g, In g (tt_bodies (ts_p s) n) -> sides_at_least l g) ->
  (forall o, In o (ts_rect s) -> l <= r_w o /\ l <= r_h o) ->
  (forall g o, In g (tt_bodies (ts_p s) n) -> In o (ts_rect s) -> within (D o) g o) ->
  tt_clear (ts_p s) (map (grown_circle (2 / 1000 + step_shift (ts_p s))) (ts_circ s))
    (map (fun o => grown_rect (slack (D o + step_shift (ts_p s)) l + step_shift (ts_p s)) o) (ts_rect s)) n ->
  hitch_ok (p_phi_max (ts_p s) - 6 / 1000) (t_th1 n) (t_th2 n) ->
  tt_within (step_pos_error (p_vmax (ts_p s))) (step_heading_error (p_vmax (ts_p s))) (step_trailer_error (p_vmax (ts_p s)))
    (fl_tt_step A s q a) n.
Proof.
  intros A s q a l D HA HV HD HP HO HQ n HN Hl HS LO HW [C1 C2] HK.
  set (p := ts_p s) in *.
  pose proof (tt_euler_track (A SStep) p q a (HA _) HD HQ) as T. fold n in T.
  set (q' := fl_tt_euler (A SStep) p q (fl_input_scaler (A SStep) p (clip_act a))) in T.
  assert (V0 : 0 <= p_vmax p <= 20) by apply HD.
  pose proof (tt_moved p q' n HV ltac:(lra) T) as M.
  assert (SP : 0 <= step_shift p).
  { unfold step_shift, vehicle_extent, step_pos_error, step_trailer_error. destruct HV as (D1 & D2 & D3 & D4 & D5 & D6 & D7 & D8 & D9 & _). unfold dimension in *.
    apply Rmult_le_pos; [lra|]. apply Rplus_le_le_0_compat; [lra|]. apply Rmult_le_pos; lra. }
  assert (RQ : tt_in_range q').
  { destruct T as (T1 & T2 & T3 & T4). destruct HN as (N1 & N2 & N3 & N4).
    unfold step_pos_error, step_heading_error, step_trailer_error in *.
    pose proof (size_err _ _ _ _ T1 N1). pose proof (size_err _ _ _ _ T2 N2). pose proof (size_err _ _ _ _ T3 N3). pose proof (size_err _ _ _ _ T4 N4).
    repeat split; lra. }
  assert (IN : forall g, In g (tt_bodies p q') -> exists h, In h (tt_bodies p n) /\ moved (step_shift p) g h).
  { intros g Hg. inversion M as [|x1 y1 l1 l2 M1 M2 E1 E2]; subst. inversion M2 as [|x2 y2 l3 l4 M3 M4 E1 E2]; subst.
    destruct Hg as [<-|[<-|[]]]; eexists; (split; [|eassumption]); [left|right; left]; reflexivity. }
  assert (FS : fl_tt_step A s q a = q').
  { apply fl_tt_step_taken; intros _; fold p q'.
    - apply (l_C67_no_false_alarm A p (ts_circ s) (ts_rect s) q' l (fun o => D o + step_shift p)); auto.
      + intros g Hg. destruct (IN g Hg) as (h & Hh & M1 & M2 & M3 & _). specialize (HS h Hh). unfold sides_at_least in *.
        rewrite M1, M2, M3 in HS. exact HS.
      + intros g o Hg Ho. destruct (IN g Hg) as (h & Hh & MV). eapply moved_within; eauto.
      + split; intros g o Hg Ho; destruct (IN g Hg) as (h & Hh & MV); apply in_map_iff in Ho; destruct Ho as (o0 & <- & Ho).
        * apply (moved_circle (step_shift p) (2 / 1000) g h o0 MV). apply C1; auto. apply in_map. exact Ho.
        * apply (moved_rect (step_shift p) _ g h o0 SP MV). apply C2; auto. apply in_map_iff. exists o0. auto.
    - destruct (fl_tt_hitch A p q') eqn:E; auto. exfalso.
      apply (l_C67_hitch_alarm A p q' HA HP RQ E). destruct HK as [k HK]. exists k.
      destruct T as (_ & _ & T3 & T4). unfold step_heading_error, step_trailer_error in *.
      pose proof (Rabs_bounds _ _ T3). pose proof (Rabs_bounds _ _ T4). pose proof (Rabs_bounds _ _ HK). apply bounds_Rabs. lra. }
  rewrite FS. exact T.
Qed.

(** C68: the bicycle likewise. *)
Lemma l_C68_bicycle_room_to_spare :
  forall A s q a l D, all_accurate A -> vehicle_in_range (bs_p s) -> drive_in_range (bs_p s) ->
  obstacles_in_range (bs_circ s) (bs_rect s) -> bk_near_home q ->
  let n := bk_plain (bs_p s) q (within_box a) in
  (Rabs (b_px n) <= 99 /\ Rabs (b_py n) <= 99 /\ Rabs (b_th n) <= 999) ->
  / 10 <= l -> (forall g, In g (bk_bodies (bs_p s) n) -> sides_at_least l g) ->
  (forall o, In o (bs_rect s) -> l <= r_w o /\ l <= r_h o) ->
  (forall g o, In g (bk_bodies (bs_p s) n) -> In o (bs_rect s) -> within (D o) g o) ->
  bk_safe (bs_p s) (map (grown_circle (2 / 1000 + step_shift (bs_p s))) (bs_circ s))
    (map (fun o => grown_rect (slack (D o + step_shift (bs_p s)) l + step_shift (bs_p s)) o) (bs_rect s)) n ->
  bk_within (step_pos_error (p_vmax (bs_p s))) (step_heading_error (p_vmax (bs_p s))) (fl_bk_step A s q a) n.
Proof.
  intros A s q a l D HA HV HD HO HQ n HN Hl HS LO HW [C1 C2].
  set (p := bs_p s) in *.
  pose proof (bk_euler_track (A SStep) p q a (HA _) HD HQ) as T. fold n in T.
  set (q' := fl_bk_euler (A SStep) p q (fl_input_scaler (A SStep) p (clip_act a))) in T.
  assert (V0 : 0 <= p_vmax p <= 20) by apply HD.
  assert (SP : 0 <= step_shift p).
  { unfold step_shift, vehicle_extent, step_pos_error, step_trailer_error. destruct HV as (D1 & D2 & D3 & D4 & D5 & D6 & D7 & D8 & D9 & _). unfold dimension in *.
    apply Rmult_le_pos; [lra|]. apply Rplus_le_le_0_compat; [lra|]. apply Rmult_le_pos; lra. }
  assert (TT : tt_within (step_pos_error (p_vmax p)) (step_heading_error (p_vmax p)) (step_trailer_error (p_vmax p))
      (mkTT (b_px q') (b_py q') (b_th q') 0) (mkTT (b_px n) (b_py n) (b_th n) 0)).
  { destruct T as (T1 & T2 & T3). unfold tt_within. cbn [t_px t_py t_th1 t_th2]. repeat split; auto.
    unfold Rminus. rewrite Rplus_opp_r, Rabs_R0. unfold step_trailer_error. lra. }
  pose proof (tt_moved p _ _ HV ltac:(lra) TT) as M. unfold tt_bodies in M. cbn [t_px t_py t_th1 t_th2] in M.
  inversion M as [|x1 y1 l1 l2 M1 M2 E1 E2]; subst. clear M M2 TT.
  assert (RQ : bk_in_range q').
  { destruct T as (T1 & T2 & T3). destruct HN as (N1 & N2 & N3).
    unfold step_pos_error, step_heading_error in *.
    pose proof (size_err _ _ _ _ T1 N1). pose proof (size_err _ _ _ _ T2 N2). pose proof (size_err _ _ _ _ T3 N3).
    repeat split; lra. }
  assert (IN : forall g, In g (bk_bodies p q') -> exists h, In h (bk_bodies p n) /\ moved (step_shift p) g h).
  { intros g [<-|[]]. eexists; (split; [|eassumption]); left; reflexivity. }
  assert (FS : fl_bk_step A s q a = q').
  { apply fl_bk_step_taken; intros _; fold p q'.
    apply (l_C67_no_false_alarm_bicycle A p (bs_circ s) (bs_rect s) q' l (fun o => D o + step_shift p)); auto.
    + intros g Hg. destruct (IN g Hg) as (h & Hh & M1' & M2 & M3 & _). specialize (HS h Hh). unfold sides_at_least in *.
      rewrite M1', M2, M3 in HS. exact HS.
    + intros g o Hg Ho. destruct (IN g Hg) as (h & Hh & MV). eapply moved_within; eauto.
    + split; intros g o Hg Ho; destruct (IN g Hg) as (h & Hh & MV); apply in_map_iff in Ho; destruct Ho as (o0 & <- & Ho).
      * apply (moved_circle (step_shift p) (2 / 1000) g h o0 MV). apply C1; auto. apply in_map. exact Ho.
      * apply (moved_rect (step_shift p) _ g h o0 SP MV). apply C2; auto. apply in_map_iff. exists o0. auto. }
  rewrite FS. exact T.
Qed.

(** ** Starts from which the headings stay small *)
Definition tt_trip_home (p : params) (n : nat) (q : ttq) : Prop :=
  Rabs (t_px q) + INR n * (p_dt p * p_vmax p + 2 / 1000) <= 100 /\
  Rabs (t_py q) + INR n * (p_dt p * p_vmax p + 2 / 1000) <= 100 /\
  Rabs (t_th1 q) + INR n * (6 * (p_dt p * p_vmax p) + / 10) <= 30 /\
  Rabs (t_th2 q) + INR n * (6 * (p_dt p * p_vmax p) + / 10) <= 30.
Lemma tt_trip_home_now p n q : drive_in_range p -> tt_trip_home p n q -> tt_near_home q.
Proof.
  intros (D & V & _) (T1 & T2 & T3 & T4). pose proof (pos_INR n).
  assert (DV : 0 <= p_dt p * p_vmax p) by (apply Rmult_le_pos; lra).
  assert (0 <= INR n * (p_dt p * p_vmax p + 2 / 1000)) by (apply Rmult_le_pos; lra).
  assert (0 <= INR n * (6 * (p_dt p * p_vmax p) + / 10)) by (apply Rmult_le_pos; lra).
  repeat split; lra.
Qed.
Lemma tt_trip_home_step A s n q a : all_accurate A -> drive_in_range (ts_p s) -> tt_trip_home (ts_p s) (S n) q ->
  tt_trip_home (ts_p s) n (fl_tt_step A s q a).
Proof.
  intros HA HD HT. pose proof (tt_trip_home_now _ _ _ HD HT) as HN. pose proof HD as (D & V & _).
  assert (HQ : tt_in_range q) by (destruct HN as (N1 & N2 & N3); repeat split; try apply N1; lra).
  assert (DV : 0 <= p_dt (ts_p s) * p_vmax (ts_p s)) by (apply Rmult_le_pos; lra).
  destruct HT as (T1 & T2 & T3 & T4). rewrite S_INR in *.
  destruct (fl_tt_step_cases A s q a) as [-> | ->].
  - repeat split; lra.
  - destruct (tt_moves (A SStep) (ts_p s) q a (HA _) HD HQ) as (M1 & M2 & M3 & M4). repeat split; lra.
Qed.
Lemma tt_run_home A s us : forall q, all_accurate A -> drive_in_range (ts_p s) -> tt_trip_home (ts_p s) (length us) q ->
  forall q', In q' (q :: fl_tt_run A s q us) -> tt_near_home q'.
Proof.
  induction us as [|a us IH]; intros q HA HD HT q' [<-|H].
  1, 3: exact (tt_trip_home_now _ _ _ HD HT).
  - destruct H.
  - cbn [fl_tt_run] in H. cbv zeta in H. cbn [length] in HT. pose proof (tt_trip_home_step A s _ q a HA HD HT) as HT'.
    exact (IH _ HA HD HT' q' H).
Qed.
(** C68: the hypotheses are met by the default vehicle from the origin, for any eight actions, and the bound is then 4 mm:
    after the shields have refused what they refuse, the tractor's computed position is within 4 mm of where exact motion
    with the executed actions takes it. *)
Lemma x_C68_default_vehicle :
  forall contract (us : list act), length us = 8%nat ->
  (forall x, In x (ex_q :: fl_tt_run (single contract) ex_tt ex_q us) -> tt_near_home x) /\
  exists us', executed us us' /\
    Rabs (t_px (nth 7 (fl_tt_run (single contract) ex_tt ex_q us) ex_q) - t_px (nth 7 (tt_drive (ts_p ex_tt) ex_q us') ex_q)) <= 4 / 1000.
Proof.
  intros contract us Hus. pose proof (all_accurate_single contract) as HA.
  assert (H : forall x, In x (ex_q :: fl_tt_run (single contract) ex_tt ex_q us) -> tt_near_home x).
  { apply tt_run_home; [exact HA|exact ex_drive|]. rewrite Hus. unfold tt_trip_home, ex_q, ex_tt, default_params; cbn [t_px t_py t_th1 t_th2 ts_p p_dt p_vmax]. rewrite !Rabs_R0.
    replace (INR 8) with 8 by (simpl; ring). repeat split; lra. }
  split; [exact H|].
  destruct (l_C68_tractor_drift (single contract) ex_tt ex_q us HA ex_drive H) as (us' & E & B).
  exists us'. split; [exact E|]. specialize (B 7%nat ltac:(rewrite Hus; lia)). cbv zeta in B. destruct B as (B & _).
  eapply Rle_trans; [exact B|]. unfold drift_pos, step_pos_error, step_heading_error, ex_tt, default_params; cbn [ts_p p_dt p_vmax].
  replace (INR 8) with 8 by (simpl; ring). lra.
Qed.
