(** * ProofsFloatCircle: rounding in the circle test. *)
From Verif Require Import Base BaseFacts Params Geom TT2d Bicycle NTrailer SpecGeom SpecBodies Float SpecFloat ProofsGeom ProofsBodies ProofsStep ProofsFloatGeom ProofsFloatSat.
From Coq Require Import Psatz.

Lemma dist_sym' P Q : SpecGeom.dist P Q = SpecGeom.dist Q P.
Proof. unfold SpecGeom.dist, dist2. f_equal. ring. Qed.
Lemma dist_coords P Q a b : Rabs (fst P - fst Q) <= a -> Rabs (snd P - snd Q) <= b -> SpecGeom.dist P Q <= a + b.
Proof.
  intros H1 H2. pose proof (Rabs_pos (fst P - fst Q)). pose proof (Rabs_pos (snd P - snd Q)).
  apply dist_le_iff; [lra|]. unfold dist2. rewrite <- (Rabs_sq (fst P - fst Q)), <- (Rabs_sq (snd P - snd Q)).
  set (x := Rabs (fst P - fst Q)) in *. set (y := Rabs (snd P - snd Q)) in *.
  assert (x * x <= a * a) by (apply Rmult_le_compat; lra). assert (y * y <= b * b) by (apply Rmult_le_compat; lra).
  assert (0 <= a * b) by (apply Rmult_le_pos; lra). lra.
Qed.
Lemma clip_lip x y : Rabs (clip x 0 1 - clip y 0 1) <= Rabs (x - y).
Proof.
  unfold clip, Rmin, Rmax. repeat destruct Rle_dec; unfold Rabs; repeat destruct Rcase_abs; lra.
Qed.

(** The computed foot of the perpendicular, in metres along the edge. *)
Lemma foot_near A s e c : accurate A -> / 400 <= fst e * fst e + snd e * snd e -> Rabs (fst e) <= 40 -> Rabs (snd e) <= 40 ->
  Rabs (fst c - fst s) <= 301 -> Rabs (snd c - snd s) <= 301 ->
  let tc := fl_psub A c s in
  let len := a_dot2 A (fst e) (fst e) (snd e) (snd e) in
  / 1000 <= len /\
  (Rabs (fst e) + Rabs (snd e)) *
    Rabs (a_div A (a_dot2 A (fst tc) (fst e) (snd tc) (snd e)) len
          - pdot (psub c s) e / (fst e * fst e + snd e * snd e)) <= 7 / 10000.
Proof.
  intros HA HD B1 B2 W1 W2 tc len.
  set (D := fst e * fst e + snd e * snd e) in *.
  set (M := Rabs (fst e) + Rabs (snd e)).
  pose proof (Rabs_pos (fst e)) as P1. pose proof (Rabs_pos (snd e)) as P2.
  assert (MD : D <= M * M <= 2 * D).
  { unfold D, M. rewrite <- (Rabs_sq (fst e)), <- (Rabs_sq (snd e)).
    pose proof (sq_nonneg (Rabs (fst e) - Rabs (snd e))). assert (0 <= Rabs (fst e) * Rabs (snd e)) by (apply Rmult_le_pos; auto). lra. }
  assert (M1 : / 20 <= M).
  { apply Rnot_lt_le. intro L. assert (M * M < / 20 * / 20) by (apply Rmult_le_0_lt_compat; unfold M in *; lra). lra. }
  assert (M2 : M <= 80) by (unfold M; lra).
  (* squared length *)
  pose proof (dot2_rnd A HA (fst e) (fst e) (snd e) (snd e) (fst e * fst e) (snd e * snd e)) as EL.
  rewrite !Rabs_sq' in EL. specialize (EL (Rle_refl _) (Rle_refl _)). fold len in EL. fold D in EL.
  apply Rabs_bounds in EL.
  assert (L1 : Rabs (D - len) <= D / 2000000) by (apply bounds_Rabs; lra).
  assert (L2 : 999 / 1000 * D <= len) by lra.
  split; [lra|].
  (* the vector to the centre *)
  assert (T1 : Rabs (fst tc - (fst c - fst s)) <= 31 / 1000000).
  { eapply Rle_trans; [apply (sub_rnd A HA _ _ 301); auto|lra]. }
  assert (T2 : Rabs (snd tc - (snd c - snd s)) <= 31 / 1000000).
  { eapply Rle_trans; [apply (sub_rnd A HA _ _ 301); auto|lra]. }
  pose proof (size_err _ _ _ _ T1 W1) as T3. pose proof (size_err _ _ _ _ T2 W2) as T4.
  set (m := pdot (psub c s) e). set (m' := a_dot2 A (fst tc) (fst e) (snd tc) (snd e)).
  assert (Em : Rabs (m' - m) <= 122 / 1000000 * M + / 1000000000).
  { pose proof (dot2_rnd A HA _ _ _ _ _ _ (mul_bound _ _ _ _ T3 (Rle_refl (Rabs (fst e)))) (mul_bound _ _ _ _ T4 (Rle_refl (Rabs (snd e))))) as E.
    pose proof (mul_err _ _ _ _ _ _ _ _ T1 (zero_err (fst e)) W1 (Rle_refl (Rabs (fst e)))) as E1.
    pose proof (mul_err _ _ _ _ _ _ _ _ T2 (zero_err (snd e)) W2 (Rle_refl (Rabs (snd e)))) as E2.
    pose proof (chain_err _ _ _ _ _ E (add_err _ _ _ _ _ _ E1 E2)) as F.
    unfold m', m, pdot, psub. cbn [fst snd]. eapply Rle_trans; [exact F|]. unfold M. lra. }
  assert (Bm : Rabs m <= 301 * M).
  { unfold m, pdot, psub. cbn [fst snd]. eapply Rle_trans; [apply Rabs_triang|].
    pose proof (mul_bound _ _ _ _ W1 (Rle_refl (Rabs (fst e)))). pose proof (mul_bound _ _ _ _ W2 (Rle_refl (Rabs (snd e)))). unfold M. lra. }
  assert (Bm' : Rabs m' <= 302 * M).
  { pose proof (size_err _ _ _ _ Em Bm). lra. }
  clearbody m m' len. clear T1 T2 T3 T4 W1 W2 EL tc.
  assert (len0 : 0 < len) by lra. assert (D0 : 0 < D) by lra.
  (* exact quotient of the computed numerator and denominator *)
  assert (Q1 : M * Rabs (m' / len - m / D) <= 6 / 10000).
  { replace (m' / len - m / D) with (((m' - m) * D + m * (D - len)) / (len * D)) by (field; lra).
    assert (AD : forall u v, 0 < v -> Rabs (u / v) = Rabs u / v).
    { intros u v Hv. unfold Rdiv. rewrite Rabs_mult, (Rabs_right (/ v)); auto. apply Rle_ge, Rlt_le, Rinv_0_lt_compat; auto. }
    rewrite AD by (apply Rmult_lt_0_compat; auto).
    assert (N : Rabs ((m' - m) * D + m * (D - len)) <= (122 / 1000000 * M + / 1000000000) * D + 301 * M * (D / 2000000)).
    { eapply Rle_trans; [apply Rabs_triang|]. apply Rplus_le_compat; apply mul_bound; auto. rewrite Rabs_right; lra. }
    set (x := Rabs ((m' - m) * D + m * (D - len))) in *. clearbody x.
    apply Rmult_le_reg_r with (len * D); [apply Rmult_lt_0_compat; auto|].
    replace (M * (x / (len * D)) * (len * D)) with (M * x) by (field; lra).
    eapply Rle_trans; [apply Rmult_le_compat_l; [lra|exact N]|].
    replace (M * ((122 / 1000000 * M + / 1000000000) * D + 301 * M * (D / 2000000)))
      with ((122 / 1000000 * (M * M) + / 1000000000 * M + 301 * (M * M) / 2000000) * D) by field.
    replace (6 / 10000 * (len * D)) with (6 / 10000 * len * D) by ring. apply Rmult_le_compat_r; [lra|].
    assert (M <= 20 * (M * M)). { replace (20 * (M * M)) with (20 * M * M) by ring. rewrite <- (Rmult_1_l M) at 1. apply Rmult_le_compat_r; lra. }
    lra. }
  assert (Bq : Rabs (m' / len) <= 302 * M / len).
  { unfold Rdiv. rewrite Rabs_mult, (Rabs_right (/ len)) by (apply Rle_ge, Rlt_le, Rinv_0_lt_compat; auto).
    apply Rmult_le_compat_r; [apply Rlt_le, Rinv_0_lt_compat; auto|lra]. }
  pose proof (div_rnd A HA m' len _ ltac:(lra) Bq) as Ed.
  assert (Q2 : M * (302 * M / len) <= 606).
  { apply Rmult_le_reg_r with len; auto. replace (M * (302 * M / len) * len) with (302 * (M * M)) by (field; lra). lra. }
  pose proof (Rabs_pos (a_div A m' len - m' / len)) as Z.
  assert (Q3 : M * Rabs (a_div A m' len - m' / len) <= 7 / 100000).
  { eapply Rle_trans; [apply Rmult_le_compat_l; [lra|exact Ed]|].
    replace (M * (302 * M / len / 10000000 + / 10000000000)) with (M * (302 * M / len) / 10000000 + M / 10000000000) by (field; lra).
    lra. }
  replace (a_div A m' len - m / D) with ((a_div A m' len - m' / len) + (m' / len - m / D)) by ring.
  eapply Rle_trans; [apply Rmult_le_compat_l; [lra|apply Rabs_triang]|]. lra.
Qed.

(** If the computed squared distance to an edge exceeds the computed squared radius, every point of the true edge
    is farther from the centre than the radius less 2 mm. *)
Lemma edge_sound A s0 s1 s0' s1' c r t : accurate A -> pnear (2 / 10000) s0' s0 -> pnear (2 / 10000) s1' s1 ->
  in_box s0 -> in_box s1 -> / 100 <= dist2 s1 s0 -> Rabs (fst s1 - fst s0) <= 30 -> Rabs (snd s1 - snd s0) <= 30 ->
  place_in_range (fst c) (snd c) -> 2 / 1000 <= r <= 100 -> 0 <= t <= 1 ->
  a_mul A r r < fl_edge_dist_sq A s0' (fl_psub A s1' s0') c ->
  r - 2 / 1000 < SpecGeom.dist (padd s0 (pscale t (psub s1 s0))) c.
Proof.
  intros HA N0 N1 B0 B1 HL X1 X2 [C1 C2] Hr Ht Hd.
  set (e' := fl_psub A s1' s0') in *.
  pose proof (edge_near A s0 s1 s0' s1' HA N0 N1 B0 B1) as Ne. fold e' in Ne.
  assert (HL' : / 400 <= fst e' * fst e' + snd e' * snd e').
  { eapply (edge_length (psub s1 s0)); [exact Ne| | |]; unfold psub; cbn [fst snd]; try lra. unfold dist2 in HL. exact HL. }
  assert (Le : Rabs (fst e') <= 31 /\ Rabs (snd e') <= 31).
  { destruct Ne as [E1 E2]. unfold psub in E1, E2. cbn [fst snd] in E1, E2.
    pose proof (size_err _ _ _ _ E1 X1). pose proof (size_err _ _ _ _ E2 X2). lra. }
  assert (S0 : Rabs (fst s0') <= 201 /\ Rabs (snd s0') <= 201).
  { destruct N0 as [E1 E2], B0 as [F1 F2]. pose proof (size_err _ _ _ _ E1 F1). pose proof (size_err _ _ _ _ E2 F2). lra. }
  assert (W : Rabs (fst c - fst s0') <= 301 /\ Rabs (snd c - snd s0') <= 301).
  { split; apply bounds_Rabs; destruct S0 as [E1 E2]; apply Rabs_bounds in E1, E2, C1, C2; lra. }
  destruct (foot_near A s0' e' c HA HL' ltac:(lra) ltac:(lra) (proj1 W) (proj2 W)) as [LL FT].
  unfold fl_edge_dist_sq in Hd.
  set (len := a_dot2 A (fst e') (fst e') (snd e') (snd e')) in *.
  replace (where_ (Rltb len (/ 100000000)) (/ 100000000) len) with len in Hd
    by (unfold where_; replace (Rltb len (/ 100000000)) with false by (symmetry; apply Rltb_false; lra); reflexivity).
  set (pr := a_div A _ len) in Hd, FT. set (D := fst e' * fst e' + snd e' * snd e') in *.
  set (p0 := pdot (psub c s0') e' / D) in *.
  set (t' := clip pr 0 1) in *. set (t0 := clip p0 0 1).
  assert (T' : 0 <= t' <= 1) by (apply clip_range; lra).
  assert (DT : (Rabs (fst e') + Rabs (snd e')) * Rabs (t' - t0) <= 7 / 10000).
  { eapply Rle_trans; [apply Rmult_le_compat_l; [|apply clip_lip]|exact FT].
    pose proof (Rabs_pos (fst e')). pose proof (Rabs_pos (snd e')). lra. }
  (* the closest point as computed *)
  set (cl := (a_mac A t' (fst e') (fst s0'), a_mac A t' (snd e') (snd s0'))) in *.
  assert (T1 : Rabs t' <= 1) by (apply bounds_Rabs; lra).
  assert (CL : Rabs (fst cl - (fst s0' + t' * fst e')) <= 7 / 100000 /\ Rabs (snd cl - (snd s0' + t' * snd e')) <= 7 / 100000).
  { unfold cl; cbn [fst snd]. split; rewrite (Rplus_comm _ (t' * _)).
    - eapply Rle_trans; [apply (mac_rnd A HA t' (fst e') (fst s0') (1 * 31) 201); [apply mul_bound|]; tauto|lra].
    - eapply Rle_trans; [apply (mac_rnd A HA t' (snd e') (snd s0') (1 * 31) 201); [apply mul_bound|]; tauto|lra]. }
  assert (CS : Rabs (fst cl) <= 240 /\ Rabs (snd cl) <= 240).
  { destruct CL as [E1 E2], S0 as [F1 F2], Le as [G1 G2].
    pose proof (mul_bound _ _ _ _ T1 G1) as H1. pose proof (mul_bound _ _ _ _ T1 G2) as H2.
    apply Rabs_bounds in E1, E2, F1, F2, H1, H2. split; apply bounds_Rabs; lra. }
  set (d := fl_psub A c cl) in *.
  assert (DD : Rabs (fst d - (fst c - fst cl)) <= 4 / 100000 /\ Rabs (snd d - (snd c - snd cl)) <= 4 / 100000).
  { destruct CS as [E1 E2]. apply Rabs_bounds in E1, E2, C1, C2.
    unfold d, fl_psub; cbn [fst snd]. split.
    - eapply Rle_trans; [apply (sub_rnd A HA _ _ 350); apply bounds_Rabs; lra|lra].
    - eapply Rle_trans; [apply (sub_rnd A HA _ _ 350); apply bounds_Rabs; lra|lra]. }
  (* compare the squares *)
  pose proof (dot2_rnd A HA (fst d) (fst d) (snd d) (snd d) (fst d * fst d) (snd d * snd d)) as E.
  rewrite !Rabs_sq' in E. specialize (E (Rle_refl _) (Rle_refl _)). apply Rabs_bounds in E.
  pose proof (mul_rnd A HA r r (r * r)) as Er. rewrite Rabs_sq' in Er. specialize (Er (Rle_refl _)). apply Rabs_bounds in Er.
  assert (NR : r - / 10000 < sqrt (fst d * fst d + snd d * snd d)).
  { set (S := fst d * fst d + snd d * snd d) in *.
    assert (0 <= S) by (unfold S; pose proof (sq_nonneg (fst d)); pose proof (sq_nonneg (snd d)); lra).
    apply Rnot_le_lt. intro L.
    assert (S <= (r - / 10000) * (r - / 10000)).
    { rewrite <- (sqrt_sqrt S) by auto. pose proof (sqrt_pos S). apply Rmult_le_compat; auto. }
    assert (r * r <= 100 * r) by (apply Rmult_le_compat_r; lra).
    replace ((r - / 10000) * (r - / 10000)) with (r * r - 2 / 10000 * r + / 100000000) in H0 by field.
    lra. }
  (* distances *)
  set (P := padd s0 (pscale t (psub s1 s0))).
  set (P1 := padd s0' (pscale t e')). set (P2 := padd s0' (pscale t0 e')). set (P3 := padd s0' (pscale t' e')).
  assert (D1 : SpecGeom.dist P1 P <= 3 / 10000 + 3 / 10000).
  { assert (Q : forall a0 a1 a0' a1' u, Rabs (a0' - a0) <= 2 / 10000 -> Rabs (a1' - a1) <= 2 / 10000 -> Rabs (u - (a1' - a0')) <= 5 / 100000 ->
      Rabs (a0' + t * u - (a0 + t * (a1 - a0))) <= 3 / 10000).
    { intros a0 a1 a0' a1' u E1 E2 E3.
      replace (a0' + t * u - (a0 + t * (a1 - a0))) with ((1 - t) * (a0' - a0) + (t * (a1' - a1) + t * (u - (a1' - a0')))) by ring.
      assert (Rabs ((1 - t) * (a0' - a0)) <= (1 - t) * (2 / 10000)) by (apply mul_bound; auto; apply bounds_Rabs; lra).
      assert (Rabs (t * (a1' - a1)) <= t * (2 / 10000)) by (apply mul_bound; auto; apply bounds_Rabs; lra).
      assert (Rabs (t * (u - (a1' - a0'))) <= 1 * (5 / 100000)) by (apply mul_bound; auto; apply bounds_Rabs; lra).
      eapply Rle_trans; [apply Rabs_triang|]. eapply Rle_trans; [apply Rplus_le_compat_l, Rabs_triang|]. lra. }
    destruct N0 as [E1 E2], N1 as [F1 F2], B0 as [G1 G2], B1 as [I1 I2].
    apply dist_coords; unfold P1, P, padd, pscale, psub; cbn [fst snd].
    - apply (Q (fst s0) (fst s1) (fst s0') (fst s1')); auto.
      unfold e', fl_psub; cbn [fst]. eapply Rle_trans; [apply (sub_rnd A HA _ _ 450); apply Rabs_bounds in E1, F1, G1, I1; apply bounds_Rabs; lra|lra].
    - apply (Q (snd s0) (snd s1) (snd s0') (snd s1')); auto.
      unfold e', fl_psub; cbn [snd]. eapply Rle_trans; [apply (sub_rnd A HA _ _ 450); apply Rabs_bounds in E2, F2, G2, I2; apply bounds_Rabs; lra|lra]. }
  assert (D2 : SpecGeom.dist c P2 <= SpecGeom.dist c P1).
  { apply sqrt_le_1_alt.
    pose proof (edge_dist_min s0' e' c t ltac:(fold D; lra) Ht) as EM.
    unfold edge_dist_sq in EM. fold D in EM.
    replace (where_ (Rltb D (/ 100000000)) (/ 100000000) D) with D in EM
      by (unfold where_; replace (Rltb D (/ 100000000)) with false by (symmetry; apply Rltb_false; lra); reflexivity).
    fold p0 in EM. fold t0 in EM. exact EM. }
  assert (D3 : SpecGeom.dist P2 P3 <= 7 / 10000).
  { eapply Rle_trans; [apply (dist_coords _ _ (Rabs (fst e') * Rabs (t' - t0)) (Rabs (snd e') * Rabs (t' - t0)))|].
    - unfold P2, P3, padd, pscale; cbn [fst snd].
      replace (fst s0' + t0 * fst e' - (fst s0' + t' * fst e')) with (- (fst e' * (t' - t0))) by ring.
      rewrite Rabs_Ropp, Rabs_mult. lra.
    - unfold P2, P3, padd, pscale; cbn [fst snd].
      replace (snd s0' + t0 * snd e' - (snd s0' + t' * snd e')) with (- (snd e' * (t' - t0))) by ring.
      rewrite Rabs_Ropp, Rabs_mult. lra.
    - lra. }
  set (Z := (fst c - fst d, snd c - snd d)).
  assert (D4 : SpecGeom.dist P3 Z <= 11 / 100000 + 11 / 100000).
  { destruct CL as [E1 E2], DD as [F1 F2]. apply Rabs_bounds in E1, E2, F1, F2.
    apply dist_coords; unfold P3, Z, padd, pscale; cbn [fst snd]; apply bounds_Rabs; lra. }
  assert (D5 : SpecGeom.dist c Z = sqrt (fst d * fst d + snd d * snd d)).
  { unfold SpecGeom.dist, dist2, Z; cbn [fst snd]. f_equal. ring. }
  pose proof (dist_triangle c P P1) as R1. rewrite (dist_sym' P P1) in R1.
  pose proof (dist_triangle c P2 P3) as R2. pose proof (dist_triangle c P3 Z) as R3.
  rewrite (dist_sym' P c). lra.
Qed.
