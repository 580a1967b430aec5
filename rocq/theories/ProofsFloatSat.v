(** * ProofsFloatSat: rounding in the separating-axis test. *)
From Verif Require Import Base BaseFacts Params Geom TT2d Bicycle NTrailer SpecGeom SpecBodies Float SpecFloat ProofsGeom ProofsBodies ProofsFloatGeom.
From Coq Require Import Psatz.

Lemma Rabs_sq' x : Rabs (x * x) = x * x.
Proof. apply Rabs_right, Rle_ge, sq_nonneg. Qed.

(** A computed axis is almost a unit vector. *)
Lemma axis_norm A e : accurate A -> / 400 <= fst e * fst e + snd e * snd e <= 1000000 ->
  99 / 100 <= fst (fl_axis_of_edge A e) * fst (fl_axis_of_edge A e)
    + snd (fl_axis_of_edge A e) * snd (fl_axis_of_edge A e) <= 101 / 100.
Proof.
  intros HA HD. unfold fl_axis_of_edge. cbn [fst snd].
  set (d := a_dot2 A (- snd e) (- snd e) (fst e) (fst e)).
  set (D := fst e * fst e + snd e * snd e) in *.
  assert (E1 : Rabs (d - D) <= 3 * (D / 10000000 + / 10000000000)).
  { pose proof (dot2_rnd A HA (- snd e) (- snd e) (fst e) (fst e) (snd e * snd e) (fst e * fst e)) as H.
    replace (- snd e * - snd e) with (snd e * snd e) in H by ring. rewrite !Rabs_sq' in H.
    specialize (H (Rle_refl _) (Rle_refl _)). unfold D. rewrite (Rplus_comm (fst e * fst e)). exact H. }
  apply Rabs_bounds in E1.
  assert (Hd : D * (1 - / 1000000) <= d <= D * (1 + / 1000000)) by lra.
  assert (Hd0 : 0 <= d) by lra.
  set (r := sqrt d). assert (Hr : r * r = d) by (apply sqrt_sqrt; auto).
  assert (Hr0 : 0 <= r) by apply sqrt_pos.
  assert (Hr1 : 4 / 100 <= r).
  { apply Rnot_lt_le. intro L. assert (r * r <= 4 / 100 * (4 / 100)) by (apply Rmult_le_compat; lra). lra. }
  pose proof (sqrt_rnd A HA d r Hd0 (Rle_refl _)) as E2. fold r in E2. apply Rabs_bounds in E2.
  set (w := a_sqrt A d) in *.
  assert (Hw : r * (1 - / 1000000) <= w <= r * (1 + / 1000000)) by lra.
  assert (Hw0 : 3 / 100 < w) by lra.
  unfold where_. replace (Rltb w (/ 100000000)) with false by (symmetry; apply Rltb_false; lra).
  assert (W2 : D * (1 - / 100000) <= w * w <= D * (1 + / 100000)).
  { assert (r * (1 - / 1000000) * (r * (1 - / 1000000)) <= w * w) by (apply Rmult_le_compat; lra).
    assert (w * w <= r * (1 + / 1000000) * (r * (1 + / 1000000))) by (apply Rmult_le_compat; lra).
    replace (r * (1 - / 1000000) * (r * (1 - / 1000000))) with (d * ((1 - / 1000000) * (1 - / 1000000))) in H by (rewrite <- Hr; ring).
    replace (r * (1 + / 1000000) * (r * (1 + / 1000000))) with (d * ((1 + / 1000000) * (1 + / 1000000))) in H0 by (rewrite <- Hr; ring).
    split; lra. }
  set (a := - snd e / w). set (b := fst e / w).
  assert (EA : a * w = - snd e) by (unfold a; field; lra). assert (EB : b * w = fst e) by (unfold b; field; lra).
  assert (S : (a * a + b * b) * (w * w) = D) by (unfold D; rewrite <- EB; replace (snd e) with (- (a * w)) by lra; ring).
  assert (SB : 999 / 1000 <= a * a + b * b <= 1001 / 1000).
  { split; apply Rnot_lt_le; intro L.
    - assert ((a * a + b * b) * (w * w) < 999 / 1000 * (w * w)) by (apply Rmult_lt_compat_r; lra). lra.
    - assert (1001 / 1000 * (w * w) < (a * a + b * b) * (w * w)) by (apply Rmult_lt_compat_r; lra). lra. }
  assert (AB : forall x, x * x <= 1001 / 1000 -> Rabs x <= 11 / 10).
  { intros x Hx. apply bounds_Rabs. split; apply Rnot_lt_le; intro L; nra. }
  pose proof (sq_nonneg a) as Qa. pose proof (sq_nonneg b) as Qb.
  pose proof (AB a ltac:(lra)) as Ba. pose proof (AB b ltac:(lra)) as Bb. clear AB.
  pose proof (div_rnd A HA (- snd e) w _ ltac:(lra) Ba) as Ea.
  pose proof (div_rnd A HA (fst e) w _ ltac:(lra) Bb) as Eb. fold a in Ea. fold b in Eb.
  set (x := a_div A (- snd e) w) in *. set (y := a_div A (fst e) w) in *. clearbody x y a b.
  apply Rabs_bounds in Ea, Eb, Ba, Bb.
  assert (F : forall u v, - (11 / 10) <= u <= 11 / 10 -> - / 1000000 <= v - u <= / 1000000 -> - / 1000 <= v * v - u * u <= / 1000).
  { intros u v Hu Hv. replace (v * v - u * u) with ((v - u) * (v + u)) by ring.
    apply Rabs_bounds. eapply Rle_trans; [apply (mul_bound _ _ (/ 1000000) 3); apply bounds_Rabs; lra|lra]. }
  pose proof (F a x Ba ltac:(lra)). pose proof (F b y Bb ltac:(lra)). lra.
Qed.

Definition in_box (c : pt) : Prop := Rabs (fst c) <= 200 /\ Rabs (snd c) <= 200.
Lemma comp_bound x y : x * x + y * y <= 101 / 100 -> Rabs x <= 1005 / 1000 /\ Rabs y <= 1005 / 1000.
Proof.
  intro H. pose proof (sq_nonneg x). pose proof (sq_nonneg y).
  assert (forall z, z * z <= 101 / 100 -> Rabs z <= 1005 / 1000).
  { intros z Hz. apply bounds_Rabs. split; apply Rnot_lt_le; intro L; nra. }
  split; auto with real; apply H2; lra.
Qed.

(** Projection of one corner. *)
Lemma projection_near J c c' n : accurate J -> pnear (2 / 10000) c' c -> in_box c ->
  fst n * fst n + snd n * snd n <= 101 / 100 ->
  Rabs (fl_pdot J c' n - pdot c n) <= 6 / 10000.
Proof.
  intros HJ [N1 N2] [B1 B2] Hn. apply comp_bound in Hn as [M1 M2]. unfold fl_pdot, pdot.
  pose proof (size_err _ _ _ _ N1 B1) as S1. pose proof (size_err _ _ _ _ N2 B2) as S2.
  pose proof (dot2_rnd J HJ (fst c') (fst n) (snd c') (snd n) _ _ (mul_bound _ _ _ _ S1 M1) (mul_bound _ _ _ _ S2 M2)) as E.
  pose proof (mul_err _ _ _ _ _ _ _ _ N1 (zero_err (fst n)) B1 M1) as E1.
  pose proof (mul_err _ _ _ _ _ _ _ _ N2 (zero_err (snd n)) B2 M2) as E2.
  pose proof (chain_err _ _ _ _ _ E (add_err _ _ _ _ _ _ E1 E2)) as F.
  eapply Rle_trans; [exact F|lra].
Qed.

Lemma Forall2_in_r {X Y} (R : X -> Y -> Prop) l m y : Forall2 R l m -> In y m -> exists x, In x l /\ R x y.
Proof. induction 1; simpl; [tauto|]. intros [<-|H1]; [eauto|]. destruct (IHForall2 H1) as (x' & ? & ?); eauto. Qed.

(** Separation found by the computed test is real up to 1.2 mm. *)
Lemma separation_near J g h c1 c2 n : accurate J ->
  Forall2 (pnear (2 / 10000)) c1 (region_corners g) -> Forall2 (pnear (2 / 10000)) c2 (region_corners h) ->
  (forall c, In c (region_corners g) -> in_box c) -> (forall c, In c (region_corners h) -> in_box c) ->
  fst n * fst n + snd n * snd n <= 101 / 100 ->
  fl_project_max J c1 n < fl_project_min J c2 n ->
  project_max (region_corners g) n <= project_min (region_corners h) n + 12 / 10000.
Proof.
  intros HJ N1 N2 B1 B2 Hn L.
  assert (I1 : In (project_max (region_corners g) n) (map (fun c => pdot c n) (region_corners g)))
    by (apply Rmax_of_in; discriminate).
  assert (I2 : In (project_min (region_corners h) n) (map (fun c => pdot c n) (region_corners h)))
    by (apply Rmin_of_in; discriminate).
  apply in_map_iff in I1 as (a & Ea & Ia). apply in_map_iff in I2 as (b & Eb & Ib).
  destruct (Forall2_in_r _ _ _ _ N1 Ia) as (a' & Ia' & Na). destruct (Forall2_in_r _ _ _ _ N2 Ib) as (b' & Ib' & Nb).
  pose proof (projection_near J a a' n HJ Na (B1 _ Ia) Hn) as Pa. pose proof (projection_near J b b' n HJ Nb (B2 _ Ib) Hn) as Pb.
  apply Rabs_bounds in Pa, Pb. rewrite Ea in Pa. rewrite Eb in Pb.
  assert (fl_pdot J a' n <= fl_project_max J c1 n) by (apply Rmax_of_ge, (in_map (fun c => fl_pdot J c n)); auto).
  assert (fl_project_min J c2 n <= fl_pdot J b' n) by (apply Rmin_of_le, (in_map (fun c => fl_pdot J c n)); auto).
  lra.
Qed.

(** Length of the computed first two edges. *)
Lemma edge_near A a b a' b' : accurate A -> pnear (2 / 10000) a' a -> pnear (2 / 10000) b' b ->
  in_box a -> in_box b -> pnear (5 / 10000) (fl_psub A b' a') (psub b a).
Proof.
  intros HA [N1 N2] [M1 M2] [B1 B2] [C1 C2].
  assert (X : forall x y x' y', Rabs (x' - x) <= 2 / 10000 -> Rabs (y' - y) <= 2 / 10000 -> Rabs x <= 200 -> Rabs y <= 200 ->
    Rabs (a_sub A y' x' - (y - x)) <= 5 / 10000).
  { intros x y x' y' H1 H2 H3 H4. apply Rabs_bounds in H1, H2, H3, H4.
    pose proof (sub_rnd A HA y' x' 401 ltac:(apply bounds_Rabs; lra)) as H5. apply Rabs_bounds in H5. apply bounds_Rabs. lra. }
  split; unfold fl_psub, psub; cbn [fst snd]; apply X; auto.
Qed.
Lemma edge_length e e' : pnear (5 / 10000) e' e -> / 100 <= fst e * fst e + snd e * snd e -> Rabs (fst e) <= 400 -> Rabs (snd e) <= 400 ->
  / 400 <= fst e' * fst e' + snd e' * snd e' <= 1000000.
Proof.
  intros [N1 N2] H B1 B2. apply Rabs_bounds in N1, N2, B1, B2.
  assert (X : forall x x', - (5 / 10000) <= x' - x <= 5 / 10000 -> x * x - 5 / 10000 * 2 * (5 * (x * x) + / 20) <= x' * x').
  { intros x x' Hx. replace (x' * x') with (x * x + 2 * (x * (x' - x)) + (x' - x) * (x' - x)) by ring.
    pose proof (sq_nonneg (x' - x)).
    assert (Rabs (x * (x' - x)) <= (5 * (x * x) + / 20) * (5 / 10000)).
    { apply mul_bound; [|apply bounds_Rabs; lra].
      apply bounds_Rabs. pose proof (sq_nonneg (10 * x - 1)). pose proof (sq_nonneg (10 * x + 1)). lra. }
    apply Rabs_bounds in H1. lra. }
  assert (Y : forall x', - 401 <= x' <= 401 -> x' * x' <= 401 * 401).
  { intros x' Hx. pose proof (mul_bound x' x' 401 401 ltac:(apply bounds_Rabs; lra) ltac:(apply bounds_Rabs; lra)) as M.
    rewrite Rabs_sq' in M. lra. }
  pose proof (X _ _ N1). pose proof (X _ _ N2). pose proof (Y (fst e') ltac:(lra)). pose proof (Y (snd e') ltac:(lra)).
  lra.
Qed.

Definition long (g : region) : Prop := / 10 <= rg_front g - rg_back g /\ / 10 <= 2 * rg_half g.

Lemma computed_axes X g c n : accurate X -> Forall2 (pnear (2 / 10000)) c (region_corners g) ->
  (forall k, In k (region_corners g) -> in_box k) -> long g -> In n (fl_get_axes X c) ->
  99 / 100 <= fst n * fst n + snd n * snd n <= 101 / 100.
Proof.
  intros HX HN HB [L1 L2] Hin.
  pose proof (region_edges g) as RE.
  unfold region_corners in *.
  set (k0 := at_frame (rg_org g) (rg_ang g) (rg_back g) (- rg_half g)) in *.
  set (k1 := at_frame (rg_org g) (rg_ang g) (rg_back g) (rg_half g)) in *.
  set (k2 := at_frame (rg_org g) (rg_ang g) (rg_front g) (rg_half g)) in *.
  set (k3 := at_frame (rg_org g) (rg_ang g) (rg_front g) (- rg_half g)) in *.
  inversion HN as [|c0 ? r0 ? N0 HN1]; subst. inversion HN1 as [|c1 ? r1 ? N1 HN2]; subst.
  inversion HN2 as [|c2 ? r2 ? N2 HN3]; subst. inversion HN3 as [|c3 ? r3 ? N3 HN4]; subst. inversion HN4; subst. clear HN HN1 HN2 HN3 HN4.
  unfold fl_get_axes, fl_edges_of in Hin. cbn [roll1 app map2] in Hin.
  assert (B0 : in_box k0) by (apply HB; left; reflexivity).
  assert (B1 : in_box k1) by (apply HB; right; left; reflexivity).
  assert (B2 : in_box k2) by (apply HB; right; right; left; reflexivity).
  unfold edges_of in RE. cbn [roll1 app map2] in RE.
  assert (E0 : psub k1 k0 = (- (2 * rg_half g) * sin (rg_ang g), 2 * rg_half g * cos (rg_ang g))) by congruence.
  assert (E1 : psub k2 k1 = ((rg_front g - rg_back g) * cos (rg_ang g), (rg_front g - rg_back g) * sin (rg_ang g))) by congruence.
  clear RE. clearbody k0 k1 k2 k3.
  pose proof (sin2_cos2' (rg_ang g)) as T.
  assert (SQ : forall x, / 10 <= x -> / 100 <= x * x).
  { intros x Hx. replace (/ 100) with (/ 10 * / 10) by field. apply Rmult_le_compat; lra. }
  assert (Q : forall a b a' b', pnear (2 / 10000) a' a -> pnear (2 / 10000) b' b -> in_box a -> in_box b ->
    / 100 <= fst (psub b a) * fst (psub b a) + snd (psub b a) * snd (psub b a) ->
    99 / 100 <= fst (fl_axis_of_edge X (fl_psub X b' a')) * fst (fl_axis_of_edge X (fl_psub X b' a'))
      + snd (fl_axis_of_edge X (fl_psub X b' a')) * snd (fl_axis_of_edge X (fl_psub X b' a')) <= 101 / 100).
  { intros a b a' b' H1 H2 H3 H4 H5. apply axis_norm; auto. eapply edge_length; [apply edge_near; eauto|auto| |].
    - destruct H3 as [H3 _], H4 as [H4 _]. apply Rabs_bounds in H3, H4. apply bounds_Rabs. unfold psub; cbn [fst]. lra.
    - destruct H3 as [_ H3], H4 as [_ H4]. apply Rabs_bounds in H3, H4. apply bounds_Rabs. unfold psub; cbn [snd]. lra. }
  destruct Hin as [<-|[<-|[]]].
  - apply (Q k0 k1); auto. rewrite E0. cbn [fst snd].
    replace (- (2 * rg_half g) * sin (rg_ang g) * (- (2 * rg_half g) * sin (rg_ang g)) + 2 * rg_half g * cos (rg_ang g) * (2 * rg_half g * cos (rg_ang g)))
      with (2 * rg_half g * (2 * rg_half g) * (sin (rg_ang g) * sin (rg_ang g) + cos (rg_ang g) * cos (rg_ang g))) by ring.
    rewrite T, Rmult_1_r. auto.
  - apply (Q k1 k2); auto. rewrite E1. cbn [fst snd]. set (m := rg_front g - rg_back g) in *.
    replace (m * cos (rg_ang g) * (m * cos (rg_ang g)) + m * sin (rg_ang g) * (m * sin (rg_ang g)))
      with (m * m * (sin (rg_ang g) * sin (rg_ang g) + cos (rg_ang g) * cos (rg_ang g))) by ring.
    rewrite T, Rmult_1_r. auto.
Qed.

(** Two solid rectangles with a common point overlap on every axis. *)
Lemma common_point_overlap g h P n : solid g P -> solid h P ->
  Rabs (pdot (psub (reg_center h) (reg_center g)) n) <= reg_radius g n + reg_radius h n.
Proof.
  intros S1 S2. apply solid_iff in S1 as [A1 A2]. apply solid_iff in S2 as [B1 B2].
  assert (Dec : forall r : region, forall D n : pt, pdot D n = pdot D (dir_u (rg_ang r)) * pdot (dir_u (rg_ang r)) n
      + pdot D (dir_v (rg_ang r)) * pdot (dir_v (rg_ang r)) n).
  { intros r D m. unfold pdot, dir_u, dir_v; cbn [fst snd]. destruct D as [dx dy], m as [nx ny]; cbn [fst snd].
    pose proof (sin2_cos2' (rg_ang r)) as T.
    transitivity ((dx * nx + dy * ny) * (sin (rg_ang r) * sin (rg_ang r) + cos (rg_ang r) * cos (rg_ang r))); [rewrite T|]; ring. }
  replace (pdot (psub (reg_center h) (reg_center g)) n)
    with (pdot (psub P (reg_center g)) n - pdot (psub P (reg_center h)) n)
    by (unfold pdot, psub; cbn [fst snd]; ring).
  rewrite (Dec g (psub P (reg_center g))), (Dec h (psub P (reg_center h))). unfold reg_radius.
  assert (Babs : forall u v k, Rabs v <= k -> - (k * Rabs u) <= v * u <= k * Rabs u).
  { intros u v k Hv. apply Rabs_def2'. rewrite Rabs_mult. apply Rmult_le_compat_r; [apply Rabs_pos|auto]. }
  pose proof (Babs (pdot (dir_u (rg_ang g)) n) _ _ A1).
  pose proof (Babs (pdot (dir_v (rg_ang g)) n) _ _ A2).
  pose proof (Babs (pdot (dir_u (rg_ang h)) n) _ _ B1).
  pose proof (Babs (pdot (dir_v (rg_ang h)) n) _ _ B2).
  apply Rabs_le. lra.
Qed.

(** A rectangle shrunk by 2 mm loses at least 1.9 mm of its extent along an almost-unit axis. *)
Lemma shrunk_radius o n : 99 / 100 <= fst n * fst n + snd n * snd n ->
  reg_radius (obstacle_body (shrunk_rect (2 / 1000) o)) n <= reg_radius (obstacle_body o) n - 19 / 10000.
Proof.
  intro H. unfold reg_radius, reg_hl, obstacle_body, shrunk_rect. cbn [rg_front rg_back rg_half rg_ang r_w r_h r_ang].
  set (U := Rabs (pdot (dir_u (r_ang o)) n)). set (V := Rabs (pdot (dir_v (r_ang o)) n)).
  assert (U0 : 0 <= U) by apply Rabs_pos. assert (V0 : 0 <= V) by apply Rabs_pos.
  assert (S : U * U + V * V = fst n * fst n + snd n * snd n).
  { unfold U, V. rewrite !Rabs_sq. unfold pdot, dir_u, dir_v. cbn [fst snd]. pose proof (sin2_cos2' (r_ang o)) as T.
    transitivity ((fst n * fst n + snd n * snd n) * (sin (r_ang o) * sin (r_ang o) + cos (r_ang o) * cos (r_ang o))); [ring|rewrite T; ring]. }
  assert (99 / 100 <= U + V).
  { apply Rnot_lt_le. intro L. assert (0 <= U * V) by (apply Rmult_le_pos; auto).
    assert ((U + V) * (U + V) <= 99 / 100 * (99 / 100)) by (apply Rmult_le_compat; lra). lra. }
  lra.
Qed.

Lemma sat_sound X J g o c c' : accurate X -> accurate J ->
  Forall2 (pnear (2 / 10000)) c (region_corners g) -> Forall2 (pnear (2 / 10000)) c' (obs_corners o) ->
  (forall k, In k (region_corners g) -> in_box k) -> (forall k, In k (obs_corners o) -> in_box k) ->
  long g -> / 10 <= r_w o -> / 10 <= r_h o ->
  fl_rect_rect_collision X J c c' = false -> clear_of_rect g (shrunk_rect (2 / 1000) o).
Proof.
  intros HX HJ N1 N2 B1 B2 Lg Lw Lh H P [S1 S2]. rewrite obs_corners_region in *.
  unfold fl_rect_rect_collision in H. rewrite negb_false_iff in H. apply existsb_exists in H as (n & In_n & Sep).
  assert (Lo : long (obstacle_body o)) by (unfold long, obstacle_body; cbn [rg_front rg_back rg_half]; lra).
  assert (Hn : 99 / 100 <= fst n * fst n + snd n * snd n <= 101 / 100).
  { apply in_app_or in In_n as [I|I]; [eapply (computed_axes X g)|eapply (computed_axes X (obstacle_body o))]; eauto. }
  pose proof (common_point_overlap _ _ P n S1 S2) as Ov.
  pose proof (shrunk_radius o n (proj1 Hn)) as Sh.
  change (reg_center (obstacle_body (shrunk_rect (2 / 1000) o))) with (at_frame (r_x o, r_y o) (r_ang o)
    ((- ((r_w o - 2 * (2 / 1000)) / 2) + (r_w o - 2 * (2 / 1000)) / 2) / 2) 0) in Ov.
  replace ((- ((r_w o - 2 * (2 / 1000)) / 2) + (r_w o - 2 * (2 / 1000)) / 2) / 2) with ((- (r_w o / 2) + r_w o / 2) / 2) in Ov by field.
  change (at_frame (r_x o, r_y o) (r_ang o) ((- (r_w o / 2) + r_w o / 2) / 2) 0) with (reg_center (obstacle_body o)) in Ov.
  apply Rabs_def2' in Ov.
  replace (pdot (psub (reg_center (obstacle_body o)) (reg_center g)) n) with
    (pdot (reg_center (obstacle_body o)) n - pdot (reg_center g) n) in Ov by (unfold pdot, psub; cbn [fst snd]; ring).
  assert (Dg : rg_back g <= rg_front g /\ 0 <= rg_half g) by (destruct Lg; lra).
  assert (Do : rg_back (obstacle_body o) <= rg_front (obstacle_body o) /\ 0 <= rg_half (obstacle_body o)) by (destruct Lo; lra).
  unfold fl_axis_separates in Sep. apply orb_true_iff in Sep as [Sep|Sep]; apply Rltb_true in Sep.
  - pose proof (separation_near J g (obstacle_body o) c c' n HJ N1 N2 B1 B2 (proj2 Hn) Sep) as G.
    rewrite project_max_region, project_min_region in G by tauto. lra.
  - pose proof (separation_near J (obstacle_body o) g c' c n HJ N2 N1 B2 B1 (proj2 Hn) Sep) as G.
    rewrite project_max_region, project_min_region in G by tauto. lra.
Qed.
