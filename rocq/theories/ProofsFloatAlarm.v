(** * ProofsFloatAlarm: a computed alarm is never far from a real one. *)
From Verif Require Import Base BaseFacts Params Geom TT2d Bicycle NTrailer SpecGeom SpecBodies Float SpecFloat ProofsGeom ProofsBodies ProofsStep ProofsFloatGeom ProofsFloatSat ProofsFloatCircle.
From Coq Require Import Psatz.

(** ** Circles *)
Lemma edge_alarm A s0 s1 s0' s1' c r : accurate A -> pnear (2 / 10000) s0' s0 -> pnear (2 / 10000) s1' s1 ->
  in_box s0 -> in_box s1 -> Rabs (fst s1 - fst s0) <= 30 -> Rabs (snd s1 - snd s0) <= 30 ->
  place_in_range (fst c) (snd c) -> 0 <= r <= 100 ->
  fl_edge_dist_sq A s0' (fl_psub A s1' s0') c <= a_mul A r r ->
  exists t, 0 <= t <= 1 /\ SpecGeom.dist (padd s0 (pscale t (psub s1 s0))) c <= r + 2 / 1000.
Proof.
  intros HA N0 N1 B0 B1 X1 X2 [C1 C2] Hr Hd.
  set (e' := fl_psub A s1' s0') in *.
  pose proof (edge_near A s0 s1 s0' s1' HA N0 N1 B0 B1) as Ne. fold e' in Ne.
  assert (Le : Rabs (fst e') <= 31 /\ Rabs (snd e') <= 31).
  { destruct Ne as [E1 E2]. unfold psub in E1, E2. cbn [fst snd] in E1, E2.
    pose proof (size_err _ _ _ _ E1 X1). pose proof (size_err _ _ _ _ E2 X2). lra. }
  assert (S0 : Rabs (fst s0') <= 201 /\ Rabs (snd s0') <= 201).
  { destruct N0 as [E1 E2], B0 as [F1 F2]. pose proof (size_err _ _ _ _ E1 F1). pose proof (size_err _ _ _ _ E2 F2). lra. }
  unfold fl_edge_dist_sq in Hd. cbv zeta in Hd.
  set (t' := clip _ 0 1) in Hd.
  assert (T' : 0 <= t' <= 1) by (apply clip_range; lra). clearbody t'.
  set (cl := (a_mac A t' (fst e') (fst s0'), a_mac A t' (snd e') (snd s0'))) in *.
  assert (T1 : Rabs t' <= 1) by (apply bounds_Rabs; lra).
  assert (CL : Rabs (fst cl - (fst s0' + t' * fst e')) <= 7 / 100000 /\ Rabs (snd cl - (snd s0' + t' * snd e')) <= 7 / 100000).
  { unfold cl; cbn [fst snd]. split; rewrite (Rplus_comm _ (t' * _)).
    - eapply Rle_trans; [apply (mac_rnd A HA t' (fst e') (fst s0') (1 * 31) 201); [apply mul_bound|]; tauto|lra].
    - eapply Rle_trans; [apply (mac_rnd A HA t' (snd e') (snd s0') (1 * 31) 201); [apply mul_bound|]; tauto|lra]. }
  assert (CS : Rabs (fst cl) <= 240 /\ Rabs (snd cl) <= 240).
  { destruct CL as [E1 E2], S0 as [F1 F2], Le as [G1 G2].
    pose proof (mul_bound _ _ _ _ T1 G1) as H1. pose proof (mul_bound _ _ _ _ T1 G2) as H2.
    apply Rabs_bounds in E1, E2, F1, F2, H1, H2. split; apply bounds_Rabs; lra. }
  set (d := fl_psub A c cl) in *.
  assert (DD : Rabs (fst d - (fst c - fst cl)) <= 4 / 100000 /\ Rabs (snd d - (snd c - snd cl)) <= 4 / 100000).
  { destruct CS as [E1 E2]. apply Rabs_bounds in E1, E2, C1, C2.
    unfold d, fl_psub; cbn [fst snd]. split.
    - eapply Rle_trans; [apply (sub_rnd A HA _ _ 350); apply bounds_Rabs; lra|lra].
    - eapply Rle_trans; [apply (sub_rnd A HA _ _ 350); apply bounds_Rabs; lra|lra]. }
  pose proof (dot2_rnd A HA (fst d) (fst d) (snd d) (snd d) (fst d * fst d) (snd d * snd d)) as E.
  rewrite !Rabs_sq' in E. specialize (E (Rle_refl _) (Rle_refl _)). apply Rabs_bounds in E.
  pose proof (mul_rnd A HA r r (r * r)) as Er. rewrite Rabs_sq' in Er. specialize (Er (Rle_refl _)). apply Rabs_bounds in Er.
  assert (NR : sqrt (fst d * fst d + snd d * snd d) <= r + 2 / 10000).
  { set (S := fst d * fst d + snd d * snd d) in *.
    assert (0 <= S) by (unfold S; pose proof (sq_nonneg (fst d)); pose proof (sq_nonneg (snd d)); lra).
    apply Rnot_lt_le. intro L.
    assert ((r + 2 / 10000) * (r + 2 / 10000) <= S).
    { rewrite <- (sqrt_sqrt S) by auto. apply Rmult_le_compat; lra. }
    assert (r * r <= 100 * r) by (apply Rmult_le_compat_r; lra).
    replace ((r + 2 / 10000) * (r + 2 / 10000)) with (r * r + 4 / 10000 * r + 4 / 100000000) in H0 by field.
    assert (0 <= r * r) by apply sq_nonneg.
    lra. }
  exists t'. split; [auto|].
  set (P := padd s0 (pscale t' (psub s1 s0))).
  set (P3 := padd s0' (pscale t' e')).
  assert (D1 : SpecGeom.dist P3 P <= 3 / 10000 + 3 / 10000).
  { assert (Q : forall a0 a1 a0' a1' u, Rabs (a0' - a0) <= 2 / 10000 -> Rabs (a1' - a1) <= 2 / 10000 -> Rabs (u - (a1' - a0')) <= 5 / 100000 ->
      Rabs (a0' + t' * u - (a0 + t' * (a1 - a0))) <= 3 / 10000).
    { intros a0 a1 a0' a1' u E1 E2 E3.
      replace (a0' + t' * u - (a0 + t' * (a1 - a0))) with ((1 - t') * (a0' - a0) + (t' * (a1' - a1) + t' * (u - (a1' - a0')))) by ring.
      assert (Rabs ((1 - t') * (a0' - a0)) <= (1 - t') * (2 / 10000)) by (apply mul_bound; auto; apply bounds_Rabs; lra).
      assert (Rabs (t' * (a1' - a1)) <= t' * (2 / 10000)) by (apply mul_bound; auto; apply bounds_Rabs; lra).
      assert (Rabs (t' * (u - (a1' - a0'))) <= 1 * (5 / 100000)) by (apply mul_bound; auto; apply bounds_Rabs; lra).
      eapply Rle_trans; [apply Rabs_triang|]. eapply Rle_trans; [apply Rplus_le_compat_l, Rabs_triang|]. lra. }
    destruct N0 as [E1 E2], N1 as [F1 F2], B0 as [G1 G2], B1 as [I1 I2].
    apply dist_coords; unfold P3, P, padd, pscale, psub; cbn [fst snd].
    - apply (Q (fst s0) (fst s1) (fst s0') (fst s1')); auto.
      unfold e', fl_psub; cbn [fst]. eapply Rle_trans; [apply (sub_rnd A HA _ _ 450); apply Rabs_bounds in E1, F1, G1, I1; apply bounds_Rabs; lra|lra].
    - apply (Q (snd s0) (snd s1) (snd s0') (snd s1')); auto.
      unfold e', fl_psub; cbn [snd]. eapply Rle_trans; [apply (sub_rnd A HA _ _ 450); apply Rabs_bounds in E2, F2, G2, I2; apply bounds_Rabs; lra|lra]. }
  set (Z := (fst c - fst d, snd c - snd d)).
  assert (D4 : SpecGeom.dist P3 Z <= 11 / 100000 + 11 / 100000).
  { destruct CL as [E1 E2], DD as [F1 F2]. apply Rabs_bounds in E1, E2, F1, F2.
    apply dist_coords; unfold P3, Z, padd, pscale; cbn [fst snd]; apply bounds_Rabs; lra. }
  assert (D5 : SpecGeom.dist c Z = sqrt (fst d * fst d + snd d * snd d)).
  { unfold SpecGeom.dist, dist2, Z; cbn [fst snd]. f_equal. ring. }
  pose proof (dist_triangle P P3 c) as R1. rewrite (dist_sym' P P3) in R1.
  pose proof (dist_triangle P3 Z c) as R2. rewrite (dist_sym' Z c) in R2. lra.
Qed.

Lemma circle_alarm A g c' (ctr : pt) r : accurate A -> Forall2 (pnear (2 / 10000)) c' (region_corners g) ->
  (forall k, In k (region_corners g) -> in_box k) -> long g -> rg_front g - rg_back g <= 30 -> 2 * rg_half g <= 30 ->
  place_in_range (fst ctr) (snd ctr) -> 0 <= r <= 100 ->
  fl_rect_circle_collision A c' ctr r = true ->
  exists P, outline g P /\ SpecGeom.dist P ctr <= r + 2 / 1000.
Proof.
  intros HA HN HB [L1 L2] U1 U2 Hc Hr H.
  assert (WF : well_formed g) by (split; lra).
  unfold fl_rect_circle_collision in H. apply Rleb_true in H.
  pose proof (region_edges g) as RE.
  pose proof (Rabs_cos (rg_ang g)) as BC. pose proof (Rabs_sin (rg_ang g)) as BS.
  assert (EP := fun s e t => edge_point_outline g s e t ltac:(lra) ltac:(lra)).
  unfold region_corners in HN, HB, RE, EP.
  set (k0 := at_frame (rg_org g) (rg_ang g) (rg_back g) (- rg_half g)) in *.
  set (k1 := at_frame (rg_org g) (rg_ang g) (rg_back g) (rg_half g)) in *.
  set (k2 := at_frame (rg_org g) (rg_ang g) (rg_front g) (rg_half g)) in *.
  set (k3 := at_frame (rg_org g) (rg_ang g) (rg_front g) (- rg_half g)) in *.
  inversion HN as [|c0 ? r0 ? N0 HN1]; subst. inversion HN1 as [|c1 ? r1 ? N1 HN2]; subst.
  inversion HN2 as [|c2 ? r2 ? N2 HN3]; subst. inversion HN3 as [|c3 ? r3 ? N3 HN4]; subst. inversion HN4; subst. clear HN HN1 HN2 HN3 HN4.
  assert (B0 : in_box k0) by (apply HB; left; reflexivity).
  assert (B1 : in_box k1) by (apply HB; right; left; reflexivity).
  assert (B2 : in_box k2) by (apply HB; right; right; left; reflexivity).
  assert (B3 : in_box k3) by (apply HB; right; right; right; left; reflexivity).
  unfold edges_of in RE, EP. cbn [roll1 app map2 combine] in RE, EP.
  unfold fl_edges_of in H. cbn [roll1 app map2] in H.
  assert (E0 : psub k1 k0 = (- (2 * rg_half g) * sin (rg_ang g), 2 * rg_half g * cos (rg_ang g))) by congruence.
  assert (E1 : psub k2 k1 = ((rg_front g - rg_back g) * cos (rg_ang g), (rg_front g - rg_back g) * sin (rg_ang g))) by congruence.
  assert (E2 : psub k3 k2 = (2 * rg_half g * sin (rg_ang g), - (2 * rg_half g) * cos (rg_ang g))) by congruence.
  assert (E3 : psub k0 k3 = ((rg_back g - rg_front g) * cos (rg_ang g), (rg_back g - rg_front g) * sin (rg_ang g))) by congruence.
  clear RE. clearbody k0 k1 k2 k3.
  assert (Q : forall a b a' b' x y m m', pnear (2 / 10000) a' a -> pnear (2 / 10000) b' b -> in_box a -> in_box b ->
    psub b a = (m * x, m' * y) -> Rabs m <= 30 -> Rabs m' <= 30 -> Rabs x <= 1 -> Rabs y <= 1 ->
    In (a, psub b a) [(k0, psub k1 k0); (k1, psub k2 k1); (k2, psub k3 k2); (k3, psub k0 k3)] ->
    fl_edge_dist_sq A a' (fl_psub A b' a') ctr <= a_mul A r r ->
    exists P, outline g P /\ SpecGeom.dist P ctr <= r + 2 / 1000).
  { intros a b a' b' x y m m' H1 H2 H3 H4 EQ Hm Hm' Hx Hy Hin Hd.
    assert (F1 : fst b - fst a = m * x) by exact (f_equal fst EQ).
    assert (F2 : snd b - snd a = m' * y) by exact (f_equal snd EQ).
    destruct (edge_alarm A a b a' b' ctr r HA H1 H2 H3 H4) as (t & Ht & Dt); auto.
    - rewrite F1. eapply Rle_trans; [apply (mul_bound _ _ _ _ Hm Hx)|lra].
    - rewrite F2. eapply Rle_trans; [apply (mul_bound _ _ _ _ Hm' Hy)|lra].
    - exists (padd a (pscale t (psub b a))). split; [apply EP; auto|auto]. }
  match type of H with Rmin_of ?l <= _ => assert (IN : In (Rmin_of l) l) by (apply Rmin_of_in; discriminate); set (mn := Rmin_of l) in * end.
  clearbody mn.
  assert (BN : Rabs (- (2 * rg_half g)) <= 30) by (apply bounds_Rabs; lra).
  assert (BP : Rabs (2 * rg_half g) <= 30) by (apply bounds_Rabs; lra).
  assert (BF : Rabs (rg_front g - rg_back g) <= 30) by (apply bounds_Rabs; lra).
  assert (BB : Rabs (rg_back g - rg_front g) <= 30) by (apply bounds_Rabs; lra).
  destruct IN as [<-|[<-|[<-|[<-|[]]]]].
  - apply (Q k0 k1 c0 c1 _ _ _ _ N0 N1 B0 B1 E0); auto. left; reflexivity.
  - apply (Q k1 k2 c1 c2 _ _ _ _ N1 N2 B1 B2 E1); auto. right; left; reflexivity.
  - apply (Q k2 k3 c2 c3 _ _ _ _ N2 N3 B2 B3 E2); auto. right; right; left; reflexivity.
  - apply (Q k3 k0 c3 c0 _ _ _ _ N3 N0 B3 B0 E3); auto. right; right; right; left; reflexivity.
Qed.

(** ** Rectangles *)
(** A computed axis points along the normal of the true edge. *)
Lemma axis_dir A (e e' : pt) L : accurate A -> pnear (5 / 10000) e' e -> fst e * fst e + snd e * snd e = L * L -> / 10 <= L <= 200 ->
  exists k, 98 / 100 <= k <= 102 / 100 /\
    Rabs (fst (fl_axis_of_edge A e') - k * (- snd e / L)) <= 54 / 100000 / L /\
    Rabs (snd (fl_axis_of_edge A e') - k * (fst e / L)) <= 54 / 100000 / L.
Proof.
  intros HA [N1 N2] HL BL. destruct e as [ex ey], e' as [fx fy]. cbn [fst snd] in *. unfold fl_axis_of_edge. cbn [fst snd].
  pose proof (sq_nonneg ex) as Qx. pose proof (sq_nonneg ey) as Qy.
  assert (SB : forall x, x * x <= L * L -> Rabs x <= L).
  { intros x Hx. apply bounds_Rabs. split; apply Rnot_lt_le; intro Lt.
    - assert (L * L < - x * - x) by (apply Rmult_le_0_lt_compat; lra). lra.
    - assert (L * L < x * x) by (apply Rmult_le_0_lt_compat; lra). lra. }
  pose proof (SB ex ltac:(lra)) as Bx. pose proof (SB ey ltac:(lra)) as By. clear SB.
  set (D := fx * fx + fy * fy).
  assert (LL : L <= 10 * (L * L)).
  { replace (10 * (L * L)) with (10 * L * L) by ring. rewrite <- (Rmult_1_l L) at 1. apply Rmult_le_compat_r; lra. }
  assert (HD : 979 / 1000 * (L * L) <= D <= 1021 / 1000 * (L * L)).
  { assert (P1 : Rabs (ex * (fx - ex)) <= L * (5 / 10000)) by (apply mul_bound; auto).
    assert (P2 : Rabs (ey * (fy - ey)) <= L * (5 / 10000)) by (apply mul_bound; auto).
    assert (P3 : Rabs ((fx - ex) * (fx - ex)) <= 5 / 10000 * (5 / 10000)) by (apply mul_bound; auto).
    assert (P4 : Rabs ((fy - ey) * (fy - ey)) <= 5 / 10000 * (5 / 10000)) by (apply mul_bound; auto).
    apply Rabs_bounds in P1, P2, P3, P4.
    assert (ED : D = L * L + 2 * (ex * (fx - ex)) + 2 * (ey * (fy - ey)) + (fx - ex) * (fx - ex) + (fy - ey) * (fy - ey))
      by (unfold D; rewrite <- HL; ring).
    pose proof (sq_nonneg (fx - ex)). pose proof (sq_nonneg (fy - ey)). rewrite ED. lra. }
  assert (L2 : / 100 <= L * L). { replace (/ 100) with (/ 10 * / 10) by field. apply Rmult_le_compat; lra. }
  set (d := a_dot2 A (- fy) (- fy) fx fx).
  assert (E1 : Rabs (d - D) <= 3 * (D / 10000000 + / 10000000000)).
  { pose proof (dot2_rnd A HA (- fy) (- fy) fx fx (fy * fy) (fx * fx)) as H.
    replace (- fy * - fy) with (fy * fy) in H by ring. rewrite !Rabs_sq' in H.
    specialize (H (Rle_refl _) (Rle_refl _)). unfold D. rewrite (Rplus_comm (fx * fx)). exact H. }
  apply Rabs_bounds in E1. clearbody d D.
  assert (Hd0 : 0 <= d) by lra.
  set (r := sqrt d). assert (Hr : r * r = d) by (apply sqrt_sqrt; auto).
  assert (Hr0 : 0 <= r) by apply sqrt_pos.
  assert (RL : 9893 / 10000 * L <= r <= 10106 / 10000 * L).
  { split; apply Rnot_lt_le; intro Lt.
    - assert (r * r <= 9893 / 10000 * L * (9893 / 10000 * L)) by (apply Rmult_le_compat; lra). lra.
    - assert (10106 / 10000 * L * (10106 / 10000 * L) <= r * r) by (apply Rmult_le_compat; lra). lra. }
  pose proof (sqrt_rnd A HA d r Hd0 (Rle_refl _)) as E2. fold r in E2. apply Rabs_bounds in E2.
  set (w := a_sqrt A d) in *. clearbody w.
  assert (Hw : 989 / 1000 * L <= w <= 1011 / 1000 * L) by lra.
  unfold where_. replace (Rltb w (/ 100000000)) with false by (symmetry; apply Rltb_false; lra).
  assert (W0 : 0 < w) by lra.
  assert (WI : 0 < / w) by (apply Rinv_0_lt_compat; auto). assert (LI : 0 < / L) by (apply Rinv_0_lt_compat; lra).
  assert (WL : / w <= 1012 / 1000 * / L).
  { apply Rmult_le_reg_l with w; auto. rewrite Rinv_r by lra.
    apply Rmult_le_reg_r with L; [lra|]. replace (w * (1012 / 1000 * / L) * L) with (w * (1012 / 1000)) by (field; lra). lra. }
  assert (L200 : / 200 <= / L) by (apply Rinv_le_contravar; lra).
  exists (L / w). split.
  { split; apply Rmult_le_reg_r with w; auto; replace (L / w * w) with L by (field; lra); lra. }
  assert (Q : forall x x', Rabs (x' - x) <= 5 / 10000 -> Rabs x <= L ->
    Rabs (a_div A x' w - L / w * (x / L)) <= 54 / 100000 / L).
  { intros x x' H1 H2.
    assert (B : Rabs (x' / w) <= 3 / 2).
    { unfold Rdiv. eapply Rle_trans; [apply (mul_bound _ _ (L + 5 / 10000) (/ w))|].
      - exact (size_err _ _ _ _ H1 H2).
      - rewrite Rabs_right; lra.
      - apply Rmult_le_reg_r with w; auto. rewrite Rmult_assoc, Rinv_l by lra. lra. }
    pose proof (div_rnd A HA x' w (3 / 2) ltac:(lra) B) as R1.
    replace (a_div A x' w - L / w * (x / L)) with ((a_div A x' w - x' / w) + (x' - x) * / w) by (field; lra).
    eapply Rle_trans; [apply Rabs_triang|].
    assert (R2 : Rabs ((x' - x) * / w) <= 5 / 10000 * (1012 / 1000 * / L)) by (apply mul_bound; auto; rewrite Rabs_right; lra).
    unfold Rdiv in *. lra. }
  split; [|apply Q; auto].
  apply Q; [|rewrite Rabs_Ropp; auto]. replace (- fy - - ey) with (- (fy - ey)) by ring. rewrite Rabs_Ropp. auto.
Qed.

(** Growing a rectangle by [d] on every side adds at least [d] to its extent along a unit direction. *)
Lemma grown_radius o n d : 0 <= d -> fst n * fst n + snd n * snd n = 1 ->
  reg_radius (obstacle_body o) n + d <= reg_radius (obstacle_body (grown_rect d o)) n.
Proof.
  intros Hd H. unfold reg_radius, reg_hl, obstacle_body, grown_rect. cbn [rg_front rg_back rg_half rg_ang r_w r_h r_ang].
  set (U := Rabs (pdot (dir_u (r_ang o)) n)). set (V := Rabs (pdot (dir_v (r_ang o)) n)).
  assert (U0 : 0 <= U) by apply Rabs_pos. assert (V0 : 0 <= V) by apply Rabs_pos.
  assert (S : U * U + V * V = 1).
  { unfold U, V. rewrite !Rabs_sq. unfold pdot, dir_u, dir_v. cbn [fst snd]. pose proof (sin2_cos2' (r_ang o)) as T.
    transitivity ((fst n * fst n + snd n * snd n) * (sin (r_ang o) * sin (r_ang o) + cos (r_ang o) * cos (r_ang o))); [ring|rewrite T, H; ring]. }
  assert (1 <= U + V).
  { apply Rnot_lt_le. intro Lt. assert (0 <= U * V) by (apply Rmult_le_pos; auto).
    assert ((U + V) * (U + V) <= 1 * 1) by (apply Rmult_le_compat; lra).
    assert (U + V = 1 \/ U * V = 0) by (right; lra). 
    assert ((U + V) * (U + V) < 1 * 1) by (apply Rmult_le_0_lt_compat; lra). lra. }
  assert (d <= d * (U + V)). { rewrite <- (Rmult_1_r d) at 1. apply Rmult_le_compat_l; lra. }
  lra.
Qed.

(** The true projections overlap, up to the slack, on the normal of an edge whose computed axis did not separate. *)
Lemma near_overlap J g h c1 c2 (n nu : pt) k l D : accurate J ->
  Forall2 (pnear (2 / 10000)) c1 (region_corners g) -> Forall2 (pnear (2 / 10000)) c2 (region_corners h) ->
  (forall c, In c (region_corners g) -> in_box c) -> (forall c, In c (region_corners h) -> in_box c) ->
  (forall a b, In a (region_corners g) -> In b (region_corners h) -> Rabs (fst b - fst a) <= D /\ Rabs (snd b - snd a) <= D) ->
  fst n * fst n + snd n * snd n <= 101 / 100 -> 98 / 100 <= k <= 102 / 100 -> 0 < l -> 0 <= D ->
  Rabs (fst n - k * fst nu) <= 54 / 100000 / l -> Rabs (snd n - k * snd nu) <= 54 / 100000 / l ->
  fl_project_min J c2 n <= fl_project_max J c1 n ->
  project_min (region_corners h) nu <= project_max (region_corners g) nu + slack D l.
Proof.
  intros HJ N1 N2 B1 B2 HD Hn Hk Hl HD0 E1 E2 L.
  assert (I1 : In (fl_project_max J c1 n) (map (fun c => fl_pdot J c n) c1)).
  { apply Rmax_of_in. inversion N1; discriminate. }
  assert (I2 : In (fl_project_min J c2 n) (map (fun c => fl_pdot J c n) c2)).
  { apply Rmin_of_in. inversion N2; discriminate. }
  apply in_map_iff in I1 as (a' & Ea & Ia'). apply in_map_iff in I2 as (b' & Eb & Ib').
  assert (FL : forall (X Y : Type) (R : X -> Y -> Prop) l m x, Forall2 R l m -> In x l -> exists y, In y m /\ R x y).
  { intros X Y R l0 m x HF. induction HF; simpl; [tauto|]. intros [<-|H1]; [eauto|]. destruct (IHHF H1) as (y' & ? & ?); eauto. }
  destruct (FL _ _ _ _ _ _ N1 Ia') as (a & Ia & Na). destruct (FL _ _ _ _ _ _ N2 Ib') as (b & Ib & Nb).
  pose proof (projection_near J a a' n HJ Na (B1 _ Ia) Hn) as Pa. pose proof (projection_near J b b' n HJ Nb (B2 _ Ib) Hn) as Pb.
  apply Rabs_bounds in Pa, Pb. rewrite Ea in Pa. rewrite Eb in Pb.
  destruct (HD a b Ia Ib) as [D1 D2].
  assert (M1 : Rabs ((fst b - fst a) * (fst n - k * fst nu)) <= D * (54 / 100000 / l)) by (apply mul_bound; auto).
  assert (M2 : Rabs ((snd b - snd a) * (snd n - k * snd nu)) <= D * (54 / 100000 / l)) by (apply mul_bound; auto).
  apply Rabs_bounds in M1, M2.
  assert (T : k * (pdot b nu - pdot a nu) <= 12 / 10000 + 2 * (D * (54 / 100000 / l))).
  { unfold pdot in *. replace (k * (fst b * fst nu + snd b * snd nu - (fst a * fst nu + snd a * snd nu))) with
      ((fst b * fst n + snd b * snd n) - (fst a * fst n + snd a * snd n) - (fst b - fst a) * (fst n - k * fst nu)
        - (snd b - snd a) * (snd n - k * snd nu)) by ring. lra. }
  assert (QB : project_min (region_corners h) nu <= pdot b nu) by (apply Rmin_of_le, (in_map (fun c => pdot c nu)); auto).
  assert (QA : pdot a nu <= project_max (region_corners g) nu) by (apply Rmax_of_ge, (in_map (fun c => pdot c nu)); auto).
  unfold slack. set (x := pdot b nu - pdot a nu) in *.
  replace (D * (54 / 100000 / l)) with (54 / 100000 * (D / l)) in T by (field; lra).
  assert (DL : 0 <= D / l) by (apply Rmult_le_pos; [lra|apply Rlt_le, Rinv_0_lt_compat; auto]).
  assert (X : x <= 2 / 1000 + 12 / 10000 * (D / l)).
  { destruct (Rle_lt_dec x 0) as [Hx|Hx]; [lra|].
    assert (98 / 100 * x <= k * x) by (apply Rmult_le_compat_r; lra). lra. }
  unfold x in X. lra.
Qed.

Lemma body_axes X g c l : accurate X -> Forall2 (pnear (2 / 10000)) c (region_corners g) ->
  (forall k, In k (region_corners g) -> in_box k) -> / 10 <= l -> l <= rg_front g - rg_back g <= 200 -> l <= 2 * rg_half g <= 200 ->
  exists n0 n1 k0 k1, fl_get_axes X c = [n0; n1] /\ 98 / 100 <= k0 <= 102 / 100 /\ 98 / 100 <= k1 <= 102 / 100 /\
    Rabs (fst n0 - k0 * fst (pscale (-1) (dir_u (rg_ang g)))) <= 54 / 100000 / l /\
    Rabs (snd n0 - k0 * snd (pscale (-1) (dir_u (rg_ang g)))) <= 54 / 100000 / l /\
    Rabs (fst n1 - k1 * fst (dir_v (rg_ang g))) <= 54 / 100000 / l /\ Rabs (snd n1 - k1 * snd (dir_v (rg_ang g))) <= 54 / 100000 / l.
Proof.
  intros HX HN HB Hl L1 L2. pose proof (region_edges g) as RE. unfold region_corners in *.
  set (k0 := at_frame (rg_org g) (rg_ang g) (rg_back g) (- rg_half g)) in *.
  set (k1 := at_frame (rg_org g) (rg_ang g) (rg_back g) (rg_half g)) in *.
  set (k2 := at_frame (rg_org g) (rg_ang g) (rg_front g) (rg_half g)) in *.
  set (k3 := at_frame (rg_org g) (rg_ang g) (rg_front g) (- rg_half g)) in *.
  inversion HN as [|c0 ? r0 ? N0 HN1]; subst. inversion HN1 as [|c1 ? r1 ? N1 HN2]; subst.
  inversion HN2 as [|c2 ? r2 ? N2 HN3]; subst. inversion HN3 as [|c3 ? r3 ? N3 HN4]; subst. inversion HN4; subst. clear HN HN1 HN2 HN3 HN4.
  unfold fl_get_axes, fl_edges_of. cbn [roll1 app map2].
  assert (B0 : in_box k0) by (apply HB; left; reflexivity).
  assert (B1 : in_box k1) by (apply HB; right; left; reflexivity).
  assert (B2 : in_box k2) by (apply HB; right; right; left; reflexivity).
  unfold edges_of in RE. cbn [roll1 app map2] in RE.
  assert (E0 : psub k1 k0 = (- (2 * rg_half g) * sin (rg_ang g), 2 * rg_half g * cos (rg_ang g))) by congruence.
  assert (E1 : psub k2 k1 = ((rg_front g - rg_back g) * cos (rg_ang g), (rg_front g - rg_back g) * sin (rg_ang g))) by congruence.
  clear RE. clearbody k0 k1 k2 k3.
  pose proof (sin2_cos2' (rg_ang g)) as T.
  set (W := 2 * rg_half g) in *. set (M := rg_front g - rg_back g) in *.
  assert (SM : forall L, l <= L -> 54 / 100000 / L <= 54 / 100000 / l).
  { intros L HL. apply Rmult_le_compat_l; [lra|]. apply Rinv_le_contravar; lra. }
  pose proof (edge_near X k0 k1 c0 c1 HX N0 N1 B0 B1) as P0. rewrite E0 in P0.
  pose proof (edge_near X k1 k2 c1 c2 HX N1 N2 B1 B2) as P1. rewrite E1 in P1.
  destruct (axis_dir X _ _ W HX P0) as (q0 & K0 & A1 & A2).
  { cbn [fst snd]. transitivity (W * W * (sin (rg_ang g) * sin (rg_ang g) + cos (rg_ang g) * cos (rg_ang g))); [ring|rewrite T; ring]. }
  { lra. }
  destruct (axis_dir X _ _ M HX P1) as (q1 & K1 & A3 & A4).
  { cbn [fst snd]. transitivity (M * M * (sin (rg_ang g) * sin (rg_ang g) + cos (rg_ang g) * cos (rg_ang g))); [ring|rewrite T; ring]. }
  { lra. }
  cbn [fst snd] in A1, A2, A3, A4.
  replace (- (W * cos (rg_ang g)) / W) with (-1 * cos (rg_ang g)) in A1 by (field; lra).
  replace (- W * sin (rg_ang g) / W) with (-1 * sin (rg_ang g)) in A2 by (field; lra).
  replace (- (M * sin (rg_ang g)) / M) with (- sin (rg_ang g)) in A3 by (field; lra).
  replace (M * cos (rg_ang g) / M) with (cos (rg_ang g)) in A4 by (field; lra).
  pose proof (SM W ltac:(lra)). pose proof (SM M ltac:(lra)).
  exists (fl_axis_of_edge X (fl_psub X c1 c0)), (fl_axis_of_edge X (fl_psub X c2 c1)), q0, q1.
  split; [reflexivity|]. unfold pscale, dir_u, dir_v. cbn [fst snd]. repeat split; lra.
Qed.

Lemma sat_alarm X J g o c c' l D : accurate X -> accurate J ->
  Forall2 (pnear (2 / 10000)) c (region_corners g) -> Forall2 (pnear (2 / 10000)) c' (obs_corners o) ->
  (forall k, In k (region_corners g) -> in_box k) -> (forall k, In k (obs_corners o) -> in_box k) ->
  (forall a b, In a (region_corners g) -> In b (obs_corners o) -> Rabs (fst b - fst a) <= D /\ Rabs (snd b - snd a) <= D) ->
  / 10 <= l -> 0 <= D ->
  l <= rg_front g - rg_back g <= 200 -> l <= 2 * rg_half g <= 200 -> l <= r_w o <= 200 -> l <= r_h o <= 200 ->
  fl_rect_rect_collision X J c c' = true -> ~ clear_of_rect g (grown_rect (slack D l) o).
Proof.
  intros HX HJ N1 N2 B1 B2 HD Hl HD0 G1 G2 O1 O2 H Clear. rewrite obs_corners_region in *.
  set (h := obstacle_body o) in *.
  assert (Hh1 : l <= rg_front h - rg_back h <= 200) by (unfold h, obstacle_body; cbn [rg_front rg_back rg_half]; lra).
  assert (Hh2 : l <= 2 * rg_half h <= 200) by (unfold h, obstacle_body; cbn [rg_front rg_back rg_half]; lra).
  assert (LG : long g) by (split; lra). assert (LH : long h) by (split; lra).
  unfold fl_rect_rect_collision in H. rewrite negb_true_iff in H.
  assert (NS : forall n, In n (fl_get_axes X c ++ fl_get_axes X c') ->
    fl_project_min J c' n <= fl_project_max J c n /\ fl_project_min J c n <= fl_project_max J c' n).
  { intros n Hn. assert (F : fl_axis_separates J c c' n = false).
    { destruct (fl_axis_separates J c c' n) eqn:E; auto. exfalso.
      assert (existsb (fl_axis_separates J c c') (fl_get_axes X c ++ fl_get_axes X c') = true) by (apply existsb_exists; eauto). congruence. }
    unfold fl_axis_separates in F. apply orb_false_iff in F as [F1 F2]. apply Rltb_false in F1, F2. auto. }
  assert (SL : 0 <= slack D l).
  { unfold slack. assert (0 <= D / l) by (apply Rmult_le_pos; [lra|apply Rlt_le, Rinv_0_lt_compat; lra]). lra. }
  set (h' := obstacle_body (grown_rect (slack D l) o)).
  assert (C' : reg_center h' = reg_center h).
  { unfold reg_center, h', h, obstacle_body, grown_rect. cbn [rg_org rg_ang rg_back rg_front r_x r_y r_w r_h r_ang]. f_equal. field. }
  assert (Ov : forall n nu k, In n (fl_get_axes X c ++ fl_get_axes X c') -> 98 / 100 <= k <= 102 / 100 ->
    fst nu * fst nu + snd nu * snd nu = 1 ->
    Rabs (fst n - k * fst nu) <= 54 / 100000 / l -> Rabs (snd n - k * snd nu) <= 54 / 100000 / l -> overlap_on g h' nu).
  { intros n nu k In_n Hk U E1 E2. destruct (NS n In_n) as [S1 S2].
    assert (Hn : 99 / 100 <= fst n * fst n + snd n * snd n <= 101 / 100).
    { apply in_app_or in In_n as [I|I]; [eapply (computed_axes X g)|eapply (computed_axes X h)]; eauto. }
    pose proof (near_overlap J g h c c' n nu k l D HJ N1 N2 B1 B2 HD (proj2 Hn) Hk ltac:(lra) HD0 E1 E2 S1) as V1.
    assert (HD' : forall a b, In a (region_corners h) -> In b (region_corners g) -> Rabs (fst b - fst a) <= D /\ Rabs (snd b - snd a) <= D).
    { intros a b Ha Hb. rewrite (Rabs_minus_sym (fst b)), (Rabs_minus_sym (snd b)). apply HD; auto. }
    pose proof (near_overlap J h g c' c n nu k l D HJ N2 N1 B2 B1 HD' (proj2 Hn) Hk ltac:(lra) HD0 E1 E2 S2) as V2.
    rewrite project_max_region, project_min_region in V1, V2 by lra.
    pose proof (grown_radius o nu (slack D l) SL U) as GR. fold h h' in GR.
    unfold overlap_on. rewrite C'. apply Rabs_le.
    replace (pdot (psub (reg_center h) (reg_center g)) nu) with (pdot (reg_center h) nu - pdot (reg_center g) nu)
      by (unfold pdot, psub; cbn [fst snd]; ring). lra. }
  destruct (body_axes X g c l HX N1 B1 Hl G1 G2) as (n0 & n1 & k0 & k1 & EA & K0 & K1 & A1 & A2 & A3 & A4).
  destruct (body_axes X h c' l HX N2 B2 Hl Hh1 Hh2) as (m0 & m1 & j0 & j1 & EB & J0 & J1 & A5 & A6 & A7 & A8).
  rewrite EA, EB in Ov. cbn [app] in Ov.
  pose proof (sin2_cos2' (rg_ang g)) as Tg. pose proof (sin2_cos2' (rg_ang h)) as Th.
  assert (WF : well_formed g /\ well_formed h').
  { split; split; unfold h', obstacle_body, grown_rect; cbn [rg_front rg_back rg_half r_w r_h]; lra. }
  assert (U1 : forall t, sin t * sin t + cos t * cos t = 1 -> fst (pscale (-1) (dir_u t)) * fst (pscale (-1) (dir_u t)) + snd (pscale (-1) (dir_u t)) * snd (pscale (-1) (dir_u t)) = 1).
  { intros t Ht. unfold pscale, dir_u; cbn [fst snd]. rewrite <- Ht. ring. }
  assert (U2 : forall t, sin t * sin t + cos t * cos t = 1 -> fst (dir_v t) * fst (dir_v t) + snd (dir_v t) * snd (dir_v t) = 1).
  { intros t Ht. unfold dir_v; cbn [fst snd]. rewrite <- Ht. ring. }
  assert (HH : rect_rect_collision (region_corners g) (region_corners h') = true).
  { apply rect_rect_iff_overlaps; try tauto. split; [|split; [|split]].
    - apply overlap_on_opp. apply (Ov n0 _ k0); auto. left; reflexivity.
    - apply (Ov n1 _ k1); auto. right; left; reflexivity.
    - change (rg_ang h') with (rg_ang h). apply overlap_on_opp. apply (Ov m0 _ j0); auto. right; right; left; reflexivity.
    - change (rg_ang h') with (rg_ang h). apply (Ov m1 _ j1); auto. right; right; right; left; reflexivity. }
  apply rect_rect_exact in HH as (P & S1 & S2); try tauto. exact (Clear P (conj S1 S2)).
Qed.
