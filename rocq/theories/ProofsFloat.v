(** * ProofsFloat: the checks as computed in floating point (C65, C66). *)
From Verif Require Import Base BaseFacts Params Geom TT2d Bicycle NTrailer SpecGeom SpecBodies Float SpecFloat ProofsGeom ProofsBodies ProofsStep ProofsSafety ProofsFloatGeom ProofsFloatSat ProofsFloatCircle ProofsFloatRun ProofsFloatAlarm FloatSingle ProofsFloatSingle.
From Coq Require Import Psatz.

Lemma circle_sound A g c' (ctr : pt) r : accurate A -> Forall2 (pnear (2 / 10000)) c' (region_corners g) ->
  (forall k, In k (region_corners g) -> in_box k) -> long g -> rg_front g - rg_back g <= 30 -> 2 * rg_half g <= 30 ->
  place_in_range (fst ctr) (snd ctr) -> r <= 100 ->
  fl_rect_circle_collision A c' ctr r = false ->
  forall P, outline g P -> r - 2 / 1000 < SpecGeom.dist P ctr.
Proof.
  intros HA HN HB [L1 L2] U1 U2 Hc Hr H P HP.
  destruct (Rlt_le_dec r (2 / 1000)) as [Hs|Hs].
  { assert (0 <= SpecGeom.dist P ctr) by apply sqrt_pos. lra. }
  assert (WF : well_formed g) by (split; lra).
  destruct (outline_edge_point g P WF HP) as (s & e & t & Hin & Ht & ->).
  unfold fl_rect_circle_collision in H. apply Rleb_false in H.
  pose proof (region_edges g) as RE. pose proof (sin2_cos2' (rg_ang g)) as T.
  pose proof (Rabs_cos (rg_ang g)) as BC. pose proof (Rabs_sin (rg_ang g)) as BS.
  unfold region_corners in *.
  set (k0 := at_frame (rg_org g) (rg_ang g) (rg_back g) (- rg_half g)) in *.
  set (k1 := at_frame (rg_org g) (rg_ang g) (rg_back g) (rg_half g)) in *.
  set (k2 := at_frame (rg_org g) (rg_ang g) (rg_front g) (rg_half g)) in *.
  set (k3 := at_frame (rg_org g) (rg_ang g) (rg_front g) (- rg_half g)) in *.
  inversion HN as [|c0 ? r0 ? N0 HN1]; subst. inversion HN1 as [|c1 ? r1 ? N1 HN2]; subst.
  inversion HN2 as [|c2 ? r2 ? N2 HN3]; subst. inversion HN3 as [|c3 ? r3 ? N3 HN4]; subst. inversion HN4; subst. clear HN HN1 HN2 HN3 HN4.
  assert (B0 : in_box k0) by (apply HB; left; reflexivity).
  assert (B1 : in_box k1) by (apply HB; right; left; reflexivity).
  assert (B2 : in_box k2) by (apply HB; right; right; left; reflexivity).
  assert (B3 : in_box k3) by (apply HB; right; right; right; left; reflexivity).
  unfold edges_of in RE, Hin. cbn [roll1 app map2 combine] in RE, Hin.
  unfold fl_edges_of in H. cbn [roll1 app map2] in H.
  assert (E0 : psub k1 k0 = (- (2 * rg_half g) * sin (rg_ang g), 2 * rg_half g * cos (rg_ang g))) by congruence.
  assert (E1 : psub k2 k1 = ((rg_front g - rg_back g) * cos (rg_ang g), (rg_front g - rg_back g) * sin (rg_ang g))) by congruence.
  assert (E2 : psub k3 k2 = (2 * rg_half g * sin (rg_ang g), - (2 * rg_half g) * cos (rg_ang g))) by congruence.
  assert (E3 : psub k0 k3 = ((rg_back g - rg_front g) * cos (rg_ang g), (rg_back g - rg_front g) * sin (rg_ang g))) by congruence.
  clear RE. clearbody k0 k1 k2 k3.
  assert (Q : forall a b a' b' m x y, pnear (2 / 10000) a' a -> pnear (2 / 10000) b' b -> in_box a -> in_box b ->
    psub b a = (m * x, m * y) -> / 10 <= Rabs m <= 30 -> Rabs x <= 1 -> Rabs y <= 1 -> x * x + y * y = 1 ->
    a_mul A r r < fl_edge_dist_sq A a' (fl_psub A b' a') ctr ->
    r - 2 / 1000 < SpecGeom.dist (padd a (pscale t (psub b a))) ctr).
  { intros a b a' b' m x y H1 H2 H3 H4 EQ Hm Hx Hy Hxy Hd.
    assert (F1 : fst b - fst a = m * x) by exact (f_equal fst EQ).
    assert (F2 : snd b - snd a = m * y) by exact (f_equal snd EQ).
    apply (edge_sound A a b a' b' ctr r t); auto; try lra.
    - unfold dist2. rewrite F1, F2. replace (m * x * (m * x) + m * y * (m * y)) with (m * m * (x * x + y * y)) by ring.
      rewrite Hxy, Rmult_1_r, <- Rabs_sq. replace (/ 100) with (/ 10 * / 10) by field. apply Rmult_le_compat; lra.
    - rewrite F1, Rabs_mult. eapply Rle_trans; [apply Rmult_le_compat; [apply Rabs_pos|apply Rabs_pos|apply Hm|apply Hx]|lra].
    - rewrite F2, Rabs_mult. eapply Rle_trans; [apply Rmult_le_compat; [apply Rabs_pos|apply Rabs_pos|apply Hm|apply Hy]|lra]. }
  assert (MN : forall x, In x [fl_edge_dist_sq A c0 (fl_psub A c1 c0) ctr; fl_edge_dist_sq A c1 (fl_psub A c2 c1) ctr;
      fl_edge_dist_sq A c2 (fl_psub A c3 c2) ctr; fl_edge_dist_sq A c3 (fl_psub A c0 c3) ctr] -> a_mul A r r < x).
  { intros x Hx. eapply Rlt_le_trans; [exact H|]. apply Rmin_of_le. exact Hx. }
  destruct Hin as [Hin|[Hin|[Hin|[Hin|[]]]]]; apply pair_equal_spec in Hin as [<- <-].
  - apply (Q k0 k1 c0 c1 (2 * rg_half g) (- sin (rg_ang g)) (cos (rg_ang g))); auto.
    + rewrite E0. f_equal; ring.
    + rewrite Rabs_right; lra.
    + rewrite Rabs_Ropp; auto.
    + rewrite <- T. ring.
    + apply MN. left; reflexivity.
  - apply (Q k1 k2 c1 c2 (rg_front g - rg_back g) (cos (rg_ang g)) (sin (rg_ang g))); auto.
    + rewrite Rabs_right; lra.
    + rewrite <- T. ring.
    + apply MN. right; left; reflexivity.
  - apply (Q k2 k3 c2 c3 (2 * rg_half g) (sin (rg_ang g)) (- cos (rg_ang g))); auto.
    + rewrite E2. f_equal; ring.
    + rewrite Rabs_right; lra.
    + rewrite Rabs_Ropp; auto.
    + rewrite <- T. ring.
    + apply MN. right; right; left; reflexivity.
  - apply (Q k3 k0 c3 c0 (rg_front g - rg_back g) (- cos (rg_ang g)) (- sin (rg_ang g))); auto.
    + rewrite E3. f_equal; ring.
    + rewrite Rabs_right; lra.
    + rewrite Rabs_Ropp; auto.
    + rewrite Rabs_Ropp; auto.
    + rewrite <- T. ring.
    + apply MN. right; right; right; left; reflexivity.
Qed.

(** ** Bodies *)
Lemma box_corners_in_box cx cy ang hl hw Z a b : Rabs cx <= Z -> Rabs cy <= Z -> Rabs hl <= a -> Rabs hw <= b -> Z + a + b <= 200 ->
  forall k, In k (box_corners cx cy ang hl hw) -> in_box k.
Proof.
  intros H1 H2 H3 H4 H5 k Hk.
  assert (Q : forall lx ly, Rabs lx <= a -> Rabs ly <= b -> in_box (box_corner ang cx cy lx ly)).
  { intros lx ly Ha Hb. pose proof (Rabs_cos ang) as BC. pose proof (Rabs_sin ang) as BS.
    assert (BN : Rabs (- sin ang) <= 1) by (rewrite Rabs_Ropp; auto).
    split; unfold box_corner; cbn [fst snd]; (eapply Rle_trans; [apply Rabs_triang|]);
      (eapply Rle_trans; [apply Rplus_le_compat_r, Rabs_triang|]).
    - pose proof (mul_bound _ _ _ _ Ha BC). pose proof (mul_bound _ _ _ _ Hb BN). lra.
    - pose proof (mul_bound _ _ _ _ Ha BS). pose proof (mul_bound _ _ _ _ Hb BC). lra. }
  assert (N3 : Rabs (- hl) <= a) by (rewrite Rabs_Ropp; auto).
  assert (N4 : Rabs (- hw) <= b) by (rewrite Rabs_Ropp; auto).
  destruct Hk as [<-|[<-|[<-|[<-|[]]]]]; apply Q; auto.
Qed.

(** What is needed of a body: computed corners close to its own, in the box, neither small nor large. *)
Definition good_body (A : stage -> arith) (g : region) (c : list pt) : Prop :=
  Forall2 (pnear (2 / 10000)) c (region_corners g) /\ (forall k, In k (region_corners g) -> in_box k) /\ long g /\
  rg_front g - rg_back g <= 30 /\ 2 * rg_half g <= 30.

Lemma tractor_good A p px py th : all_accurate A -> vehicle_in_range p -> place_in_range px py -> Rabs th <= 1000 ->
  good_body A (tractor_body p px py th) (fl_tractor_corners (A SPose) (A SCorner) p px py th).
Proof.
  intros HA HV [Hx Hy] Hth. unfold good_body. rewrite <- tractor_corners_region.
  split; [apply tractor_corners_near; auto; split; auto|].
  destruct HV as (V1 & V2 & V3 & _ & _ & _ & _ & V8 & _ & V10 & V11 & _). unfold dimension in *.
  split.
  - unfold tractor_corners.
    assert (K : Rabs (5 / 10 * (p_l1 p + p_lf1 p - p_lr p)) <= 10) by (apply bounds_Rabs; lra).
    destruct (offset_size _ th px 10 100 K Hx) as [CX _]. destruct (offset_size _ th py 10 100 K Hy) as [_ CY].
    eapply (box_corners_in_box _ _ th _ _ 110 15 5); try lra; apply bounds_Rabs; lra.
  - unfold long, tractor_body; cbn [rg_front rg_back rg_half]. lra.
Qed.
Lemma trailer_good A p q : all_accurate A -> vehicle_in_range p -> tt_in_range q ->
  good_body A (trailer_body (ahead (t_px q, t_py q) (t_th1 q) (- p_lh p)) (t_th2 q) (p_l2 p) (p_lf2 p) (p_lr2 p) (p_trail_w p))
    (fl_trailer_corners (A SPose) (A SCorner) p q).
Proof.
  intros HA HV HQ. unfold good_body. rewrite <- tt_trailer_corners_region.
  split; [apply trailer_corners_near; auto|].
  destruct HV as (_ & _ & _ & V4 & V5 & V6 & V7 & _ & V9 & _ & _ & V12 & V13). unfold dimension in *.
  destruct HQ as ([Hx Hy] & H1 & H2). split.
  - unfold tt_trailer_corners.
    assert (L : Rabs (- p_lh p) <= 10) by (apply bounds_Rabs; lra).
    destruct (offset_size _ (t_th1 q) _ 10 100 L Hx) as [S1 _]. destruct (offset_size _ (t_th1 q) _ 10 100 L Hy) as [_ S2].
    replace (t_px q + - p_lh p * cos (t_th1 q)) with (t_px q - p_lh p * cos (t_th1 q)) in S1 by ring.
    replace (t_py q + - p_lh p * sin (t_th1 q)) with (t_py q - p_lh p * sin (t_th1 q)) in S2 by ring.
    assert (K : Rabs (5 / 10 * (p_lf2 p - p_lr2 p) - p_l2 p) <= 15) by (apply bounds_Rabs; lra).
    destruct (offset_size _ (t_th2 q) _ 15 _ K S1) as [CX _]. destruct (offset_size _ (t_th2 q) _ 15 _ K S2) as [_ CY].
    eapply (box_corners_in_box _ _ (t_th2 q) _ _ 125 10 5); try lra; apply bounds_Rabs; lra.
  - unfold long, trailer_body; cbn [rg_front rg_back rg_half]. lra.
Qed.

Lemma obs_in_box o : place_in_range (r_x o) (r_y o) -> 0 <= r_w o <= 100 -> 0 <= r_h o <= 100 ->
  forall k, In k (obs_corners o) -> in_box k.
Proof. intros [Hx Hy] Hw Hh. apply (box_corners_in_box _ _ _ _ _ 100 50 50); try lra; apply bounds_Rabs; lra. Qed.

Lemma existsb_none {B} (f : B -> bool) l : existsb f l = false -> forall x, In x l -> f x = false.
Proof.
  intros H x Hx. destruct (f x) eqn:E; auto. exfalso. assert (existsb f l = true) by (apply existsb_exists; eauto). congruence.
Qed.
Lemma body_clear A g c circ rect : all_accurate A -> good_body A g c -> obstacles_in_range circ rect ->
  (forall o, In o circ -> fl_hits_circle A c o = false) -> (forall o, In o rect -> fl_hits_rect A c o = false) ->
  (forall o, In o (map (shrunk_circle (2 / 1000)) circ) -> clear_of_circle g o) /\
  (forall o, In o (map (shrunk_rect (2 / 1000)) rect) -> clear_of_rect g o).
Proof.
  intros HA (N & B & L & U1 & U2) [RC RR] HC HR. split; intros o Ho; apply in_map_iff in Ho as (k & <- & Hk).
  - destruct (RC k Hk) as [Pk Rk]. intros P HP. unfold shrunk_circle; cbn [c_r c_x c_y].
    refine (circle_sound (A SCircle) g c (c_x k, c_y k) (c_r k) (HA _) N B L U1 U2 Pk _ (HC k Hk) P HP). lra.
  - destruct (RR k Hk) as (Pk & Ak & Wk & Hhk).
    refine (sat_sound (A SAxes) (A SProject) g k c _ (HA _) (HA _) N _ B _ L _ _ (HR k Hk)); try lra.
    + apply obs_corners_near; auto; try apply HA; lra.
    + apply obs_in_box; auto; lra.
Qed.

(** C65: if the check of the tractor-trailer, computed in floating point, reports no collision, then in exact
    geometry both bodies are clear of every obstacle with 2 mm taken off its sides. *)
Lemma l_C65_tractor_trailer :
  forall A p circ rect q, all_accurate A -> vehicle_in_range p -> tt_in_range q -> obstacles_in_range circ rect ->
  fl_tt_coll A p circ rect q = false ->
  tt_clear p (map (shrunk_circle (2 / 1000)) circ) (map (shrunk_rect (2 / 1000)) rect) q.
Proof.
  intros A p circ rect q HA HV HQ HO H. unfold fl_tt_coll in H. apply orb_false_iff in H as [H1 H2].
  pose proof (fun o Ho => existsb_none _ _ H1 o Ho) as H1x. pose proof (fun o Ho => existsb_none _ _ H2 o Ho) as H2x. clear H1 H2; rename H1x into H1, H2x into H2.
  pose proof HQ as (Hp & Ht1 & _).
  destruct (body_clear A _ _ circ rect HA (tractor_good A p _ _ _ HA HV Hp Ht1) HO
    (fun o Ho => proj1 (proj1 (orb_false_iff _ _) (H1 o Ho))) (fun o Ho => proj1 (proj1 (orb_false_iff _ _) (H2 o Ho)))) as [X1 X2].
  destruct (body_clear A _ _ circ rect HA (trailer_good A p q HA HV HQ) HO
    (fun o Ho => proj2 (proj1 (orb_false_iff _ _) (H1 o Ho))) (fun o Ho => proj2 (proj1 (orb_false_iff _ _) (H2 o Ho)))) as [Y1 Y2].
  split; intros g o Hg Ho; (destruct Hg as [<-|[<-|[]]]); auto.
Qed.

(** C65: the same for the bicycle. *)
Lemma l_C65_bicycle :
  forall A p circ rect q, all_accurate A -> vehicle_in_range p -> bk_in_range q -> obstacles_in_range circ rect ->
  fl_bk_coll A p circ rect q = false ->
  bk_safe p (map (shrunk_circle (2 / 1000)) circ) (map (shrunk_rect (2 / 1000)) rect) q.
Proof.
  intros A p circ rect q HA HV [Hp Ht] HO H. unfold fl_bk_coll in H. apply orb_false_iff in H as [H1 H2].
  pose proof (fun o Ho => existsb_none _ _ H1 o Ho) as H1x. pose proof (fun o Ho => existsb_none _ _ H2 o Ho) as H2x. clear H1 H2; rename H1x into H1, H2x into H2.
  destruct (body_clear A _ _ circ rect HA (tractor_good A p _ _ _ HA HV Hp Ht) HO H1 H2) as [X1 X2].
  split; intros g o Hg Ho; (destruct Hg as [<-|[]]); auto.
Qed.

(** ** The hitch check *)
Lemma wrap_near A d : accurate A -> Rabs d <= 2001 ->
  exists k : Z, Rabs (fl_wrap_pi A d - (d + IZR k * (2 * PI))) <= 6 / 10000 /\ Rabs (fl_wrap_pi A d) <= PI + / 10000.
Proof.
  intros HA Hd. unfold fl_wrap_pi.
  assert (P3 : 3 < PI) by (pose proof PI2_3_2; lra). assert (P4 : PI <= 4) by apply PI_4.
  pose proof (cvt_err A HA PI 4 ltac:(apply bounds_Rabs; lra)) as E1.
  pose proof (cvt_err A HA (2 * PI) 8 ltac:(apply bounds_Rabs; lra)) as E2.
  set (c1 := a_cvt A PI) in *. set (c2 := a_cvt A (2 * PI)) in *. clearbody c1 c2.
  pose proof (Rabs_bounds _ _ E1) as B1. pose proof (Rabs_bounds _ _ E2) as B2. pose proof (Rabs_bounds _ _ Hd) as Bd.
  pose proof (add_rnd A HA d c1 2006 ltac:(apply bounds_Rabs; lra)) as E3.
  set (a := a_add A d c1) in *. clearbody a. pose proof (Rabs_bounds _ _ E3) as B3.
  assert (Hc2 : 0 < c2) by lra.
  assert (Hf : 0 <= fmod a c2 < c2) by (apply fmod_range; auto).
  pose proof (mod_rnd A HA a c2 9 Hc2 ltac:(lra)) as E4. set (m := a_mod A a c2) in *. clearbody m.
  pose proof (Rabs_bounds _ _ E4) as B4.
  pose proof (sub_rnd A HA m c1 9 ltac:(apply bounds_Rabs; lra)) as E5.
  set (w := a_sub A m c1) in *. clearbody w. pose proof (Rabs_bounds _ _ E5) as B5.
  unfold fmod in *. set (K := IZR (Int_part (a / c2))) in *.
  exists (- Int_part (a / c2))%Z. rewrite opp_IZR. fold K. clearbody K.
  assert (HK : Rabs K <= 340).
  { apply bounds_Rabs. split; [apply Rnot_lt_le; intro Q|apply Rnot_lt_le; intro Q].
    - assert (c2 * K < c2 * - (340)) by (apply Rmult_lt_compat_l; lra). lra.
    - assert (c2 * 340 < c2 * K) by (apply Rmult_lt_compat_l; lra). lra. }
  assert (HKc : Rabs ((c2 - 2 * PI) * K) <= (8 / 10000000 + / 10000000000) * 340) by (apply mul_bound; auto).
  pose proof (Rabs_bounds _ _ HKc) as B6.
  replace ((c2 - 2 * PI) * K) with (c2 * K - K * (2 * PI)) in B6 by ring.
  split; apply bounds_Rabs; lra.
Qed.

Lemma hitch_diff A q : accurate A -> tt_in_range q ->
  Rabs (a_sub A (t_th1 q) (t_th2 q) - (t_th1 q - t_th2 q)) <= 21 / 100000 /\ Rabs (a_sub A (t_th1 q) (t_th2 q)) <= 2001.
Proof.
  intros HA (_ & H1 & H2). pose proof (Rabs_bounds _ _ H1). pose proof (Rabs_bounds _ _ H2).
  pose proof (sub_rnd A HA (t_th1 q) (t_th2 q) 2000 ltac:(apply bounds_Rabs; lra)) as E.
  pose proof (Rabs_bounds _ _ E). split; apply bounds_Rabs; lra.
Qed.

(** C65: if the hitch check, computed in floating point, reports no violation, the hitch angle is within a
    thousandth of a radian of the allowed range. *)
Lemma l_C65_hitch :
  forall A p q, all_accurate A -> 0 <= p_phi_max p <= 10 -> tt_in_range q ->
  fl_tt_hitch A p q = false -> hitch_ok (p_phi_max p + / 1000) (t_th1 q) (t_th2 q).
Proof.
  intros A p q HA Hp HQ H. unfold fl_tt_hitch in H. apply Rltb_false in H.
  destruct (hitch_diff _ q (HA SHitch) HQ) as [D1 D2].
  destruct (wrap_near _ _ (HA SHitch) D2) as (k & W & _). exists k.
  pose proof (cvt_err _ (HA SHitch) (p_phi_max p) 10 ltac:(apply bounds_Rabs; lra)) as C.
  pose proof (Rabs_bounds _ _ C). pose proof (Rabs_bounds _ _ W). pose proof (Rabs_bounds _ _ D1). pose proof (Rabs_bounds _ _ H).
  apply bounds_Rabs; lra.
Qed.

(** C67: if the computed hitch check reports a violation, the hitch angle leaves the allowed range or is within 3 thousandths of a radian of its end. *)
Lemma l_C67_hitch_alarm :
  forall A p q, all_accurate A -> 0 <= p_phi_max p <= 10 -> tt_in_range q ->
  fl_tt_hitch A p q = true -> ~ hitch_ok (p_phi_max p - 3 / 1000) (t_th1 q) (t_th2 q).
Proof.
  intros A p q HA Hp HQ H [j Hj]. unfold fl_tt_hitch in H. apply Rltb_true in H.
  destruct (hitch_diff _ q (HA SHitch) HQ) as [D1 D2].
  destruct (wrap_near _ _ (HA SHitch) D2) as (k & W & S).
  pose proof (cvt_err _ (HA SHitch) (p_phi_max p) 10 ltac:(apply bounds_Rabs; lra)) as C.
  set (w := fl_wrap_pi (A SHitch) (a_sub (A SHitch) (t_th1 q) (t_th2 q))) in *. clearbody w.
  set (d' := a_sub (A SHitch) (t_th1 q) (t_th2 q)) in *. clearbody d'.
  set (f := a_cvt (A SHitch) (p_phi_max p)) in *. clearbody f. set (d := t_th1 q - t_th2 q) in *. clearbody d.
  assert (P3 : 3 < PI) by (pose proof PI2_3_2; lra).
  pose proof (Rabs_bounds _ _ C). pose proof (Rabs_bounds _ _ W). pose proof (Rabs_bounds _ _ D1). pose proof (Rabs_bounds _ _ Hj).
  pose proof (Rabs_bounds _ _ S).
  destruct (Z.lt_total j k) as [L|[->|L]].
  - assert (IZR j + 1 <= IZR k) by (rewrite <- plus_IZR; apply IZR_le; lia).
    assert (IZR j * (2 * PI) + 2 * PI <= IZR k * (2 * PI)) by nra.
    assert (f < PI + / 10000) by lra. lra.
  - assert (Rabs w <= p_phi_max p - 2 / 1000) by (apply bounds_Rabs; lra). lra.
  - assert (IZR k + 1 <= IZR j) by (rewrite <- plus_IZR; apply IZR_le; lia).
    assert (IZR k * (2 * PI) + 2 * PI <= IZR j * (2 * PI)) by nra.
    assert (f < PI + / 10000) by lra. lra.
Qed.

(** ** No false alarms *)
Lemma corner_solid g k : well_formed g -> In k (region_corners g) -> solid g k.
Proof.
  intros [W1 W2] H. destruct H as [<-|[<-|[<-|[<-|[]]]]]; (eexists; eexists; split; [|split; [|reflexivity]]); lra.
Qed.
Lemma dist_coord P Q D : SpecGeom.dist P Q <= D -> Rabs (fst Q - fst P) <= D /\ Rabs (snd Q - snd P) <= D.
Proof.
  intro H. assert (D0 : 0 <= D) by (pose proof (sqrt_pos (dist2 P Q)); unfold SpecGeom.dist in H; lra).
  apply dist_le_iff in H; auto. unfold dist2 in H.
  pose proof (sq_nonneg (fst P - fst Q)). pose proof (sq_nonneg (snd P - snd Q)).
  assert (S : forall x, x * x <= D * D -> - D <= - x <= D).
  { intros x Hx. split; apply Rnot_lt_le; intro Lt.
    - assert (D * D < x * x) by (apply Rmult_le_0_lt_compat; lra). lra.
    - assert (D * D < - x * - x) by (apply Rmult_le_0_lt_compat; lra). lra. }
  pose proof (S (fst P - fst Q) ltac:(lra)). pose proof (S (snd P - snd Q) ltac:(lra)).
  split; apply bounds_Rabs; lra.
Qed.

Lemma body_alarm A g c circ rect l D : all_accurate A -> good_body A g c -> obstacles_in_range circ rect ->
  / 10 <= l -> sides_at_least l g -> (forall o, In o rect -> l <= r_w o /\ l <= r_h o) ->
  (forall o, In o rect -> within (D o) g o) ->
  (forall o, In o (map (grown_circle (2 / 1000)) circ) -> clear_of_circle g o) ->
  (forall o, In o (map (fun o => grown_rect (slack (D o) l) o) rect) -> clear_of_rect g o) ->
  (forall o, In o circ -> fl_hits_circle A c o = false) /\ (forall o, In o rect -> fl_hits_rect A c o = false).
Proof.
  intros HA (N & B & L & U1 & U2) [RC RR] Hl [L1 L2] LO HW HC HR. split; intros k Hk.
  - destruct (RC k Hk) as [Pk Rk]. destruct (fl_hits_circle A c k) eqn:E; auto. exfalso.
    destruct (circle_alarm (A SCircle) g c (c_x k, c_y k) (c_r k) (HA _) N B L U1 U2 Pk Rk E) as (P & OP & DP).
    specialize (HC (grown_circle (2 / 1000) k) (in_map _ _ _ Hk) P OP). unfold grown_circle in HC. cbn [c_x c_y c_r] in HC. lra.
  - destruct (RR k Hk) as (Pk & Ak & Wk & Hhk). destruct (LO k Hk) as [LW LH].
    destruct (fl_hits_rect A c k) eqn:E; auto. exfalso.
    assert (WG : well_formed g) by (split; destruct L; lra).
    assert (WO : well_formed (obstacle_body k)) by (split; unfold obstacle_body; cbn [rg_front rg_back rg_half]; lra).
    assert (CD : forall a b, In a (region_corners g) -> In b (obs_corners k) -> SpecGeom.dist a b <= D k).
    { intros a b Ha Hb. rewrite obs_corners_region in Hb. apply (HW k Hk); apply corner_solid; auto. }
    refine (sat_alarm (A SAxes) (A SProject) g k c _ l (D k) (HA _) (HA _) N _ B _ _ Hl _ _ _ _ _ E _); try lra.
    + apply obs_corners_near; auto; try apply HA; lra.
    + apply obs_in_box; auto; lra.
    + intros a b Ha Hb. apply dist_coord. auto.
    + assert (H0 : In (at_frame (rg_org g) (rg_ang g) (rg_back g) (- rg_half g)) (region_corners g)) by (left; reflexivity).
      assert (H1 : In (at_frame (rg_org (obstacle_body k)) (rg_ang (obstacle_body k)) (rg_back (obstacle_body k)) (- rg_half (obstacle_body k)))
        (obs_corners k)) by (rewrite obs_corners_region; left; reflexivity).
      pose proof (CD _ _ H0 H1) as H2. eapply Rle_trans; [|exact H2]. apply sqrt_pos.
    + apply HR. apply in_map_iff. exists k. auto.
Qed.

(** C67: a vehicle that is clear of every circle grown by 2 mm and of every rectangle grown by the slack is not reported
    as colliding. *)
Lemma l_C67_no_false_alarm :
  forall A p circ rect q l D, all_accurate A -> vehicle_in_range p -> tt_in_range q -> obstacles_in_range circ rect ->
  / 10 <= l -> (forall g, In g (tt_bodies p q) -> sides_at_least l g) ->
  (forall o, In o rect -> l <= r_w o /\ l <= r_h o) ->
  (forall g o, In g (tt_bodies p q) -> In o rect -> within (D o) g o) ->
  tt_clear p (map (grown_circle (2 / 1000)) circ) (map (fun o => grown_rect (slack (D o) l) o) rect) q ->
  fl_tt_coll A p circ rect q = false.
Proof.
  intros A p circ rect q l D HA HV HQ HO Hl HS LO HW [C1 C2]. pose proof HQ as (Hp & Ht1 & _).
  destruct (body_alarm A _ _ circ rect l D HA (tractor_good A p _ _ _ HA HV Hp Ht1) HO Hl (HS _ (or_introl eq_refl)) LO
    (fun o => HW _ o (or_introl eq_refl)) (fun o => C1 _ o (or_introl eq_refl)) (fun o => C2 _ o (or_introl eq_refl))) as [X1 X2].
  destruct (body_alarm A _ _ circ rect l D HA (trailer_good A p q HA HV HQ) HO Hl (HS _ (or_intror (or_introl eq_refl))) LO
    (fun o => HW _ o (or_intror (or_introl eq_refl))) (fun o => C1 _ o (or_intror (or_introl eq_refl))) (fun o => C2 _ o (or_intror (or_introl eq_refl)))) as [Y1 Y2].
  unfold fl_tt_coll. apply orb_false_iff. split; apply existsb_false_iff; intros o Ho; rewrite ?X1, ?X2, ?Y1, ?Y2; auto.
Qed.
(** C67: the same for the bicycle. *)
Lemma l_C67_no_false_alarm_bicycle :
  forall A p circ rect q l D, all_accurate A -> vehicle_in_range p -> bk_in_range q -> obstacles_in_range circ rect ->
  / 10 <= l -> (forall g, In g (bk_bodies p q) -> sides_at_least l g) ->
  (forall o, In o rect -> l <= r_w o /\ l <= r_h o) ->
  (forall g o, In g (bk_bodies p q) -> In o rect -> within (D o) g o) ->
  bk_safe p (map (grown_circle (2 / 1000)) circ) (map (fun o => grown_rect (slack (D o) l) o) rect) q ->
  fl_bk_coll A p circ rect q = false.
Proof.
  intros A p circ rect q l D HA HV [Hp Ht] HO Hl HS LO HW [C1 C2].
  destruct (body_alarm A _ _ circ rect l D HA (tractor_good A p _ _ _ HA HV Hp Ht) HO Hl (HS _ (or_introl eq_refl)) LO
    (fun o => HW _ o (or_introl eq_refl)) (fun o => C1 _ o (or_introl eq_refl)) (fun o => C2 _ o (or_introl eq_refl))) as [X1 X2].
  unfold fl_bk_coll. apply orb_false_iff. split; apply existsb_false_iff; auto.
Qed.

(** ** Padded obstacles *)
Lemma shrunk_grown_circles circ : map (shrunk_circle (2 / 1000)) (map (grown_circle (2 / 1000)) circ) = circ.
Proof.
  induction circ as [|[x y r] l IH]; [reflexivity|]. cbn [map]. rewrite IH. f_equal. unfold shrunk_circle, grown_circle.
  cbn [c_x c_y c_r]. f_equal. ring.
Qed.
Lemma shrunk_grown_rects rect : map (shrunk_rect (2 / 1000)) (map (grown_rect (2 / 1000)) rect) = rect.
Proof.
  induction rect as [|[x y w h a] l IH]; [reflexivity|]. cbn [map]. rewrite IH. f_equal. unfold shrunk_rect, grown_rect.
  cbn [r_x r_y r_w r_h r_ang]. f_equal; ring.
Qed.

(** C65: obstacles entered 2 mm larger than they are on every side: if the computed check reports no collision, no body
    meets the real obstacles. *)
Lemma l_C65_padded :
  forall A p circ rect q, all_accurate A -> vehicle_in_range p -> tt_in_range q ->
  obstacles_in_range (map (grown_circle (2 / 1000)) circ) (map (grown_rect (2 / 1000)) rect) ->
  fl_tt_coll A p (map (grown_circle (2 / 1000)) circ) (map (grown_rect (2 / 1000)) rect) q = false ->
  tt_clear p circ rect q.
Proof.
  intros A p circ rect q HA HV HQ HO H. pose proof (l_C65_tractor_trailer A p _ _ q HA HV HQ HO H) as X.
  rewrite shrunk_grown_circles, shrunk_grown_rects in X. exact X.
Qed.
(** C65: the same for the bicycle. *)
Lemma l_C65_padded_bicycle :
  forall A p circ rect q, all_accurate A -> vehicle_in_range p -> bk_in_range q ->
  obstacles_in_range (map (grown_circle (2 / 1000)) circ) (map (grown_rect (2 / 1000)) rect) ->
  fl_bk_coll A p (map (grown_circle (2 / 1000)) circ) (map (grown_rect (2 / 1000)) rect) q = false ->
  bk_safe p circ rect q.
Proof.
  intros A p circ rect q HA HV HQ HO H. pose proof (l_C65_bicycle A p _ _ q HA HV HQ HO H) as X.
  rewrite shrunk_grown_circles, shrunk_grown_rects in X. exact X.
Qed.

(** ** Runs *)
Lemma fl_tt_step_coll A s q a : p_sh_coll (ts_p s) = true -> fl_tt_coll A (ts_p s) (ts_circ s) (ts_rect s) q = false ->
  fl_tt_coll A (ts_p s) (ts_circ s) (ts_rect s) (fl_tt_step A s q a) = false.
Proof.
  intros Hs H. unfold fl_tt_step. rewrite Hs. cbn [orb]. unfold shielded_rollout. rewrite Hs. cbn [andb].
  set (q' := fl_tt_euler _ _ _ _). clearbody q'.
  destruct (fl_tt_coll A (ts_p s) (ts_circ s) (ts_rect s) q') eqn:E; destruct (p_sh_hitch (ts_p s) && fl_tt_hitch A (ts_p s) q');
    unfold where_; auto.
Qed.
Lemma fl_tt_step_hitch A s q a : p_sh_hitch (ts_p s) = true -> fl_tt_hitch A (ts_p s) q = false ->
  fl_tt_hitch A (ts_p s) (fl_tt_step A s q a) = false.
Proof.
  intros Hs H. unfold fl_tt_step. rewrite Hs. rewrite orb_true_r. unfold shielded_rollout. rewrite Hs. cbn [andb].
  set (q' := fl_tt_euler _ _ _ _). clearbody q'.
  destruct (fl_tt_hitch A (ts_p s) q') eqn:E; destruct (p_sh_coll (ts_p s) && fl_tt_coll A (ts_p s) (ts_circ s) (ts_rect s) q');
    unfold where_; auto.
Qed.
Lemma fl_tt_step_cases A s q a : fl_tt_step A s q a = q \/
  fl_tt_step A s q a = fl_tt_euler (A SStep) (ts_p s) q (fl_input_scaler (A SStep) (ts_p s) (clip_act a)).
Proof.
  unfold fl_tt_step. set (q' := fl_tt_euler _ _ _ _). clearbody q'.
  destruct (p_sh_coll (ts_p s) || p_sh_hitch (ts_p s)); unfold shielded_rollout, step_without_shield; auto.
  destruct (p_sh_hitch (ts_p s) && fl_tt_hitch A (ts_p s) q'); destruct (p_sh_coll (ts_p s) && fl_tt_coll A (ts_p s) (ts_circ s) (ts_rect s) q');
    unfold where_; auto.
Qed.
Lemma tt_trip_now p n q : drive_in_range p -> tt_trip_in_range p n q -> tt_in_range q.
Proof.
  intros (D & V & _) (T1 & T2 & T3 & T4). pose proof (pos_INR n).
  assert (DV : 0 <= p_dt p * p_vmax p) by (apply Rmult_le_pos; lra).
  assert (0 <= INR n * (p_dt p * p_vmax p + 2 / 1000)) by (apply Rmult_le_pos; lra).
  assert (0 <= INR n * (6 * (p_dt p * p_vmax p) + / 10)) by (apply Rmult_le_pos; lra).
  repeat split; lra.
Qed.
Lemma tt_trip_step A s n q a : all_accurate A -> drive_in_range (ts_p s) -> tt_trip_in_range (ts_p s) (S n) q ->
  tt_trip_in_range (ts_p s) n (fl_tt_step A s q a).
Proof.
  intros HA HD HT. pose proof (tt_trip_now _ _ _ HD HT) as HQ. pose proof HD as (D & V & _).
  assert (DV : 0 <= p_dt (ts_p s) * p_vmax (ts_p s)) by (apply Rmult_le_pos; lra).
  destruct HT as (T1 & T2 & T3 & T4). rewrite S_INR in *.
  destruct (fl_tt_step_cases A s q a) as [-> | ->].
  - repeat split; lra.
  - destruct (tt_moves (A SStep) (ts_p s) q a (HA _) HD HQ) as (M1 & M2 & M3 & M4). repeat split; lra.
Qed.
Lemma tt_run_in_range A s us : forall q, all_accurate A -> drive_in_range (ts_p s) -> tt_trip_in_range (ts_p s) (length us) q ->
  forall q', In q' (fl_tt_run A s q us) -> tt_in_range q'.
Proof.
  induction us as [|a us IH]; intros q HA HD HT q' H; [destruct H|].
  cbn [fl_tt_run] in H. cbv zeta in H. cbn [length] in HT. pose proof (tt_trip_step A s _ q a HA HD HT) as HT'.
  destruct H as [<- | H].
  - eapply tt_trip_now; eauto.
  - eapply IH; eauto.
Qed.

(** C66: whatever the arithmetic, with the collision shield every state visited passes the collision check computed
    with it, if the start does. *)
Lemma l_C66_check_collision :
  forall A s q us, p_sh_coll (ts_p s) = true -> fl_tt_coll A (ts_p s) (ts_circ s) (ts_rect s) q = false ->
  forall q', In q' (fl_tt_run A s q us) -> fl_tt_coll A (ts_p s) (ts_circ s) (ts_rect s) q' = false.
Proof.
  intros A s q us Hs. revert q. induction us as [|a us IH]; intros q H q' Hin; [destruct Hin|].
  pose proof (fl_tt_step_coll A s q a Hs H) as H'. destruct Hin as [<- | Hin]; eauto.
Qed.
(** C66: the same for the hitch check with the hitch shield. *)
Lemma l_C66_check_hitch :
  forall A s q us, p_sh_hitch (ts_p s) = true -> fl_tt_hitch A (ts_p s) q = false ->
  forall q', In q' (fl_tt_run A s q us) -> fl_tt_hitch A (ts_p s) q' = false.
Proof.
  intros A s q us Hs. revert q. induction us as [|a us IH]; intros q H q' Hin; [destruct Hin|].
  pose proof (fl_tt_step_hitch A s q a Hs H) as H'. destruct Hin as [<- | Hin]; eauto.
Qed.

(** C66: a plan of any actions executed in floating point under both shields, from a start that passes the computed
    checks: at every state visited the bodies are clear, in exact geometry, of every obstacle with 2 mm taken off its
    sides, and the hitch angle is within phi_max + 0.001 rad. *)
Lemma l_C66_shielded_run :
  forall A s q us, all_accurate A -> p_sh_coll (ts_p s) = true -> p_sh_hitch (ts_p s) = true ->
  vehicle_in_range (ts_p s) -> drive_in_range (ts_p s) -> 0 <= p_phi_max (ts_p s) <= 10 ->
  obstacles_in_range (ts_circ s) (ts_rect s) -> tt_trip_in_range (ts_p s) (length us) q ->
  fl_tt_coll A (ts_p s) (ts_circ s) (ts_rect s) q = false -> fl_tt_hitch A (ts_p s) q = false ->
  forall q', In q' (fl_tt_run A s q us) ->
  tt_clear (ts_p s) (map (shrunk_circle (2 / 1000)) (ts_circ s)) (map (shrunk_rect (2 / 1000)) (ts_rect s)) q' /\
  hitch_ok (p_phi_max (ts_p s) + / 1000) (t_th1 q') (t_th2 q').
Proof.
  intros A s q us HA Hc Hh HV HD Hp HO HT C0 H0 q' Hin. pose proof (tt_run_in_range A s us q HA HD HT q' Hin) as HQ. split.
  - apply (l_C65_tractor_trailer A); auto. eapply l_C66_check_collision; eauto.
  - apply (l_C65_hitch A); auto. eapply l_C66_check_hitch; eauto.
Qed.

(** C66: with the obstacles entered 2 mm larger than they are on every side and the hitch limit set 0.001 rad tighter
    than allowed, floating-point execution under the shields is safe with respect to the real obstacles and limit. *)
Lemma l_C66_padded_run :
  forall A s circ rect phi q us, all_accurate A -> p_sh_coll (ts_p s) = true -> p_sh_hitch (ts_p s) = true ->
  vehicle_in_range (ts_p s) -> drive_in_range (ts_p s) ->
  ts_circ s = map (grown_circle (2 / 1000)) circ -> ts_rect s = map (grown_rect (2 / 1000)) rect ->
  p_phi_max (ts_p s) = phi - / 1000 -> / 1000 <= phi <= 10 ->
  obstacles_in_range (ts_circ s) (ts_rect s) -> tt_trip_in_range (ts_p s) (length us) q ->
  fl_tt_coll A (ts_p s) (ts_circ s) (ts_rect s) q = false -> fl_tt_hitch A (ts_p s) q = false ->
  forall q', In q' (fl_tt_run A s q us) ->
  tt_clear (ts_p s) circ rect q' /\ hitch_ok phi (t_th1 q') (t_th2 q').
Proof.
  intros A s circ rect phi q us HA Hc Hh HV HD Ec Er Ep Hp HO HT C0 H0 q' Hin.
  destruct (l_C66_shielded_run A s q us HA Hc Hh HV HD ltac:(lra) HO HT C0 H0 q' Hin) as [X Y].
  rewrite Ec, Er, shrunk_grown_circles, shrunk_grown_rects in X. rewrite Ep in Y.
  replace (phi - / 1000 + / 1000) with phi in Y by ring. auto.
Qed.

Lemma fl_bk_step_coll A s q a : p_sh_coll (bs_p s) = true -> fl_bk_coll A (bs_p s) (bs_circ s) (bs_rect s) q = false ->
  fl_bk_coll A (bs_p s) (bs_circ s) (bs_rect s) (fl_bk_step A s q a) = false.
Proof.
  intros Hs H. unfold fl_bk_step. rewrite Hs. cbn [orb]. unfold shielded_rollout, bk_hitch. rewrite Hs. rewrite andb_false_r. cbn [andb].
  set (q' := fl_bk_euler _ _ _ _). clearbody q'.
  destruct (fl_bk_coll A (bs_p s) (bs_circ s) (bs_rect s) q') eqn:E; unfold where_; auto.
Qed.
Lemma fl_bk_step_cases A s q a : fl_bk_step A s q a = q \/
  fl_bk_step A s q a = fl_bk_euler (A SStep) (bs_p s) q (fl_input_scaler (A SStep) (bs_p s) (clip_act a)).
Proof.
  unfold fl_bk_step. set (q' := fl_bk_euler _ _ _ _). clearbody q'.
  destruct (p_sh_coll (bs_p s) || p_sh_hitch (bs_p s)); unfold shielded_rollout, step_without_shield, bk_hitch; auto.
  rewrite andb_false_r. destruct (p_sh_coll (bs_p s) && fl_bk_coll A (bs_p s) (bs_circ s) (bs_rect s) q'); unfold where_; auto.
Qed.
Lemma bk_trip_now p n q : drive_in_range p -> bk_trip_in_range p n q -> bk_in_range q.
Proof.
  intros (D & V & _) (T1 & T2 & T3). pose proof (pos_INR n).
  assert (DV : 0 <= p_dt p * p_vmax p) by (apply Rmult_le_pos; lra).
  assert (0 <= INR n * (p_dt p * p_vmax p + 2 / 1000)) by (apply Rmult_le_pos; lra).
  assert (0 <= INR n * (6 * (p_dt p * p_vmax p) + / 10)) by (apply Rmult_le_pos; lra).
  repeat split; lra.
Qed.
Lemma bk_trip_step A s n q a : all_accurate A -> drive_in_range (bs_p s) -> bk_trip_in_range (bs_p s) (S n) q ->
  bk_trip_in_range (bs_p s) n (fl_bk_step A s q a).
Proof.
  intros HA HD HT. pose proof (bk_trip_now _ _ _ HD HT) as HQ. pose proof HD as (D & V & _).
  assert (DV : 0 <= p_dt (bs_p s) * p_vmax (bs_p s)) by (apply Rmult_le_pos; lra).
  destruct HT as (T1 & T2 & T3). rewrite S_INR in *.
  destruct (fl_bk_step_cases A s q a) as [-> | ->].
  - repeat split; lra.
  - destruct (bk_moves (A SStep) (bs_p s) q a (HA _) HD HQ) as (M1 & M2 & M3). repeat split; lra.
Qed.
Lemma bk_run_in_range A s us : forall q, all_accurate A -> drive_in_range (bs_p s) -> bk_trip_in_range (bs_p s) (length us) q ->
  forall q', In q' (fl_bk_run A s q us) -> bk_in_range q'.
Proof.
  induction us as [|a us IH]; intros q HA HD HT q' H; [destruct H|].
  cbn [fl_bk_run] in H. cbv zeta in H. cbn [length] in HT. pose proof (bk_trip_step A s _ q a HA HD HT) as HT'.
  destruct H as [<- | H].
  - eapply bk_trip_now; eauto.
  - eapply IH; eauto.
Qed.
(** C66: the bicycle under its collision shield, from a start that passes the computed check. *)
Lemma l_C66_bicycle_run :
  forall A s q us, all_accurate A -> p_sh_coll (bs_p s) = true ->
  vehicle_in_range (bs_p s) -> drive_in_range (bs_p s) ->
  obstacles_in_range (bs_circ s) (bs_rect s) -> bk_trip_in_range (bs_p s) (length us) q ->
  fl_bk_coll A (bs_p s) (bs_circ s) (bs_rect s) q = false ->
  forall q', In q' (fl_bk_run A s q us) ->
  bk_safe (bs_p s) (map (shrunk_circle (2 / 1000)) (bs_circ s)) (map (shrunk_rect (2 / 1000)) (bs_rect s)) q'.
Proof.
  intros A s q us HA Hc HV HD HO HT C0 q' Hin. apply (l_C65_bicycle A); auto; [eapply bk_run_in_range; eauto|].
  clear HT. revert q C0 q' Hin. induction us as [|a us IH]; intros q H q' Hin; [destruct Hin|].
  pose proof (fl_bk_step_coll A s q a Hc H) as H'. destruct Hin as [<- | Hin]; eauto.
Qed.

(** ** Instances *)
Lemma accurate_exact : accurate exact_arith.
Proof.
  assert (Q : forall k x s, 0 <= k -> 0 <= s -> near k x s x).
  { intros k x s H1 H2. unfold near. replace (x - x) with 0 by ring. rewrite Rabs_R0. apply Rmult_le_pos; lra. }
  assert (Z : forall x, Rabs (x - x) <= / 1000000) by (intro x; replace (x - x) with 0 by ring; rewrite Rabs_R0; lra).
  assert (S : forall x y, 0 <= Rabs x + Rabs y) by (intros x y; pose proof (Rabs_pos x); pose proof (Rabs_pos y); lra).
  unfold accurate, exact_arith; cbn [a_cvt a_add a_sub a_mul a_div a_mac a_dot2 a_sqrt a_cos a_sin a_tan a_mod].
  repeat split; intros; try apply Z; apply Q; try lra; auto using Rabs_pos, sqrt_pos.
  apply (fmod_range x y H).
Qed.

Lemma map2_ext {X Y Z} (f g : X -> Y -> Z) l1 : forall l2, (forall x y, f x y = g x y) -> map2 f l1 l2 = map2 g l1 l2.
Proof. induction l1 as [|a l1 IH]; intros [|b l2] H; try reflexivity. cbn [map2]. rewrite H, IH; auto. Qed.
Lemma existsb_ext {X} (f g : X -> bool) l : (forall x, f x = g x) -> existsb f l = existsb g l.
Proof. intro H. induction l as [|a l IH]; [reflexivity|]. cbn [existsb]. rewrite H, IH. reflexivity. Qed.

Notation E := exact_arith.
Lemma exact_box cx cy ang hl hw : fl_box_corners E cx cy ang hl hw = box_corners cx cy ang hl hw.
Proof. reflexivity. Qed.
Lemma exact_tractor p px py th : fl_tractor_corners E E p px py th = tractor_corners p px py th.
Proof.
  unfold fl_tractor_corners, tractor_corners. rewrite exact_box. cbn [a_cvt a_mac a_cos a_sin exact_arith].
  rewrite !(Rplus_comm (5 / 10 * _ * _)). reflexivity.
Qed.
Lemma exact_trailer p q : fl_trailer_corners E E p q = tt_trailer_corners p q.
Proof.
  unfold fl_trailer_corners, tt_trailer_corners. rewrite exact_box. cbn [a_cvt a_mac a_cos a_sin exact_arith]. cbv zeta.
  f_equal; ring.
Qed.
Lemma exact_edges c : fl_edges_of E c = edges_of c.
Proof. reflexivity. Qed.
Lemma exact_edge_dist s e c : fl_edge_dist_sq E s e c = edge_dist_sq s e c.
Proof.
  unfold fl_edge_dist_sq, edge_dist_sq. cbv zeta. unfold fl_psub, psub, padd, pscale, pdot.
  cbn [a_add a_sub a_mul a_div a_mac a_dot2 exact_arith fst snd].
  set (t := clip _ 0 1). clearbody t. ring.
Qed.
Lemma exact_circle c ctr r : fl_rect_circle_collision E c ctr r = rect_circle_collision c ctr r.
Proof.
  unfold fl_rect_circle_collision, rect_circle_collision. cbv zeta. rewrite exact_edges.
  rewrite (map2_ext (fun s e => fl_edge_dist_sq E s e ctr) (fun s e => edge_dist_sq s e ctr)); [reflexivity|].
  intros; apply exact_edge_dist.
Qed.
Lemma exact_rects c1 c2 : fl_rect_rect_collision E E c1 c2 = rect_rect_collision c1 c2.
Proof. reflexivity. Qed.
Lemma exact_hits_rect c o : fl_hits_rect (fun _ => E) c o = hits_rect c o.
Proof. reflexivity. Qed.
Lemma exact_hits_circle c o : fl_hits_circle (fun _ => E) c o = hits_circle c o.
Proof. apply exact_circle. Qed.
Lemma exact_tt_coll p circ rect q : fl_tt_coll (fun _ => E) p circ rect q = tt_coll p circ rect q.
Proof.
  unfold fl_tt_coll, tt_coll. cbv zeta beta. rewrite exact_tractor, exact_trailer.
  change (tt_tractor_corners p q) with (tractor_corners p (t_px q) (t_py q) (t_th1 q)).
  generalize (tractor_corners p (t_px q) (t_py q) (t_th1 q)) (tt_trailer_corners p q). intros c1 c2. apply f_equal2.
  - apply existsb_ext; intro o. rewrite !exact_hits_circle. reflexivity.
  - apply existsb_ext; intro o. rewrite !exact_hits_rect. reflexivity.
Qed.
Lemma exact_bk_coll p circ rect q : fl_bk_coll (fun _ => E) p circ rect q = bk_coll p circ rect q.
Proof.
  unfold fl_bk_coll, bk_coll. cbv zeta beta. rewrite exact_tractor.
  change (bk_corners p q) with (tractor_corners p (b_px q) (b_py q) (b_th q)).
  generalize (tractor_corners p (b_px q) (b_py q) (b_th q)). intros c1. apply f_equal2.
  - apply existsb_ext; intro o. rewrite !exact_hits_circle. reflexivity.
  - apply existsb_ext; intro o. rewrite !exact_hits_rect. reflexivity.
Qed.
Lemma exact_tt_euler p q u : fl_tt_euler E p q u = tt_euler p q u.
Proof.
  unfold fl_tt_euler, tt_euler, euler, tt_axpy, fl_tt_dyn, tt_dyn. destruct u as [v d]. cbv zeta.
  cbn [a_cvt a_add a_sub a_mul a_div a_mac a_dot2 a_cos a_sin a_tan exact_arith t_px t_py t_th1 t_th2]. f_equal; ring.
Qed.
Lemma exact_bk_euler p q u : fl_bk_euler E p q u = bk_euler p q u.
Proof.
  unfold fl_bk_euler, bk_euler, euler, bk_axpy, fl_bk_dyn, bk_dyn. destruct u as [v d]. cbv zeta.
  cbn [a_cvt a_add a_sub a_mul a_div a_mac a_dot2 a_cos a_sin a_tan exact_arith b_px b_py b_th]. f_equal; ring.
Qed.
Lemma exact_hitch p q : fl_tt_hitch (fun _ => E) p q = tt_hitch p q.
Proof. reflexivity. Qed.

(** C65: with exact arithmetic the computed checks and steps are those of the rest of the model. *)
Lemma l_C65_exact :
  (forall p circ rect q, fl_tt_coll (fun _ => exact_arith) p circ rect q = tt_coll p circ rect q) /\
  (forall p circ rect q, fl_bk_coll (fun _ => exact_arith) p circ rect q = bk_coll p circ rect q) /\
  (forall p q, fl_tt_hitch (fun _ => exact_arith) p q = tt_hitch p q) /\
  (forall s q a r v d o proj guide, p_proj (ts_p s) = false -> p_guid (ts_p s) = false ->
     fl_tt_step (fun _ => exact_arith) s q a = st_q (tt_step s proj guide (mkState q v r d o false) a)) /\
  (forall s q a r v d o proj guide, p_proj (bs_p s) = false -> p_guid (bs_p s) = false ->
     fl_bk_step (fun _ => exact_arith) s q a = st_q (bk_step s proj guide (mkState q v r d o false) a)).
Proof.
  split; [apply exact_tt_coll|]. split; [apply exact_bk_coll|]. split; [apply exact_hitch|]. split.
  - intros s q a r v d o proj guide H1 H2. unfold fl_tt_step, tt_step, tt_step_internal, tt_step_with. cbv zeta.
    rewrite H1, H2. cbn [st_bak st_q]. rewrite exact_tt_euler.
    change (fl_input_scaler E (ts_p s) (clip_act a)) with (input_scaler (ts_p s) (where_ false (0, 0) (clip_act a))).
    set (q' := tt_euler _ _ _). clearbody q'. unfold shielded_rollout, step_without_shield.
    rewrite exact_tt_coll, exact_hitch. fold (ts_coll s q').
    destruct (p_sh_coll (ts_p s) || p_sh_hitch (ts_p s)); reflexivity.
  - intros s q a r v d o proj guide H1 H2. unfold fl_bk_step, bk_step, bk_step_internal, bk_step_with. cbv zeta.
    rewrite H1, H2. cbn [st_bak st_q]. rewrite exact_bk_euler.
    change (fl_input_scaler E (bs_p s) (clip_act a)) with (input_scaler (bs_p s) (where_ false (0, 0) (clip_act a))).
    set (q' := bk_euler _ _ _). clearbody q'. unfold shielded_rollout, step_without_shield.
    rewrite exact_bk_coll. fold (bs_coll s q').
    destruct (p_sh_coll (bs_p s) || p_sh_hitch (bs_p s)); reflexivity.
Qed.

(** C65: IEEE single precision, whatever products the compiler contracts with the sum that follows, is accurate in the
    sense of the other theorems; so is exact arithmetic. *)
Lemma l_C65_single_precision :
  (forall contract, all_accurate (single contract)) /\ all_accurate (fun _ => exact_arith).
Proof. split; [exact all_accurate_single|]. intro g. exact accurate_exact. Qed.

(** ** A case meeting the hypotheses: the default vehicle at the origin, a circle and a rectangle, single precision *)
Lemma PI_upper : PI < 32 / 10.
Proof.
  apply Rnot_le_lt. intro H.
  assert (C : 0 <= cos (16 / 10)) by (apply cos_ge_0; lra).
  destruct (pre_cos_bound (16 / 10) 0 ltac:(lra) ltac:(lra)) as [_ U]. unfold cos_approx, cos_term in U. simpl in U. lra.
Qed.
Definition ex_q : ttq := mkTT 0 0 0 0.
Lemma ex_vehicle : vehicle_in_range default_params.
Proof. unfold vehicle_in_range, dimension, default_params; cbn. repeat split; lra. Qed.
Lemma ex_drive : drive_in_range default_params.
Proof.
  pose proof PI_upper. pose proof PI_RGT_0. unfold drive_in_range, default_params, delta_max_of_deg; cbn [p_dt p_vmax p_dmax p_l1 p_l2 p_lh].
  repeat split; lra.
Qed.
Lemma ex_obstacles : obstacles_in_range ex_circ ex_rect.
Proof.
  split; intros o [<-|[]]; unfold place_in_range; cbn [c_x c_y c_r r_x r_y r_w r_h r_ang];
    rewrite ?Rabs_R0, ?(Rabs_right 20), ?(Rabs_right 10) by lra; repeat split; lra.
Qed.
Lemma ex_trip : tt_trip_in_range default_params 50 ex_q.
Proof.
  unfold tt_trip_in_range, ex_q, default_params; cbn [t_px t_py t_th1 t_th2 p_dt p_vmax]. rewrite !Rabs_R0.
  replace (INR 50) with 50 by (simpl; ring). repeat split; lra.
Qed.
Lemma ex_start A : all_accurate A ->
  fl_tt_coll A default_params ex_circ ex_rect ex_q = false /\ fl_tt_hitch A default_params ex_q = false.
Proof.
  intro HA. pose proof (tt_trip_now _ _ _ ex_drive ex_trip) as HQ. split.
  - apply (l_C67_no_false_alarm A default_params ex_circ ex_rect ex_q 2 (fun _ => 40) HA ex_vehicle HQ ex_obstacles); try lra.
    + intros g [<-|[<-|[]]]; unfold sides_at_least, tractor_body, trailer_body, default_params;
        cbn [rg_front rg_back rg_half p_l1 p_lf1 p_lr p_trac_w p_lf2 p_lr2 p_l2 p_trail_w]; lra.
    + intros o [<-|[]]; cbn [r_w r_h]; lra.
    + intros g o Hg [<-|[]] P Q (a & b & Ha & Hb & ->) (a' & b' & Ha' & Hb' & ->).
      replace 40 with (34 + 6) by ring. apply dist_coords; destruct Hg as [<-|[<-|[]]];
        unfold at_frame, tractor_body, trailer_body, obstacle_body, ahead, default_params, ex_q in *;
        cbn [rg_org rg_ang rg_front rg_back rg_half p_l1 p_lf1 p_lr p_trac_w p_lf2 p_lr2 p_l2 p_lh p_trail_w t_px t_py t_th1 t_th2 r_x r_y r_w r_h r_ang fst snd] in *;
        rewrite ?cos_0, ?sin_0; apply bounds_Rabs; lra.
    + assert (Q : forall g, rg_ang g = 0 -> snd (rg_org g) = 0 -> fst (rg_org g) + rg_front g < 17 -> rg_half g < 8 ->
        (forall c, In c (map (grown_circle (2 / 1000)) ex_circ) -> clear_of_circle g c) /\
        (forall o, In o (map (fun o => grown_rect (slack 40 2) o) ex_rect) -> clear_of_rect g o)).
      { intros g Ea Eo Hf Hh. split.
        - intros c [<-|[]] P (a & b & Ha & Hb & _ & ->). unfold grown_circle. cbn [c_r c_x c_y].
          rewrite Ea. unfold at_frame. rewrite cos_0, sin_0, Eo.
          apply Rnot_le_lt. intro L. apply dist_coord in L as [_ L]. cbn [fst snd] in L. apply Rabs_bounds in L. lra.
        - intros o [<-|[]] P [(a & b & Ha & Hb & E1) (a' & b' & Ha' & Hb' & E2)].
          rewrite E1 in E2. unfold at_frame, obstacle_body, grown_rect, slack in *.
          cbn [rg_org rg_ang rg_back rg_front rg_half fst snd r_x r_y r_w r_h r_ang] in *.
          rewrite Ea, cos_0, sin_0 in E2. apply pair_equal_spec in E2 as [E3 E4]. lra. }
      assert (G : forall g, In g (tt_bodies default_params ex_q) ->
        rg_ang g = 0 /\ snd (rg_org g) = 0 /\ fst (rg_org g) + rg_front g < 17 /\ rg_half g < 8).
      { intros g [<-|[<-|[]]]; unfold tractor_body, trailer_body, ahead, default_params, ex_q;
          cbn [rg_org rg_ang rg_front rg_back rg_half p_l1 p_lf1 p_lr p_trac_w p_lf2 p_lr2 p_l2 p_lh p_trail_w t_px t_py t_th1 t_th2 fst snd];
          rewrite ?cos_0, ?sin_0; repeat split; lra. }
      split; intros g o Hg Ho; destruct (G g Hg) as (G1 & G2 & G3 & G4); apply (Q g); auto.
  - destruct (fl_tt_hitch A default_params ex_q) eqn:E; auto. exfalso.
    pose proof PI_upper. assert (3 < PI) by (pose proof PI2_3_2; lra).
    assert (PH : p_phi_max default_params = 40 * PI / 180) by reflexivity.
    apply (l_C67_hitch_alarm A default_params ex_q HA ltac:(lra) HQ E). apply hitch_ok_same. lra.
Qed.

Lemma x_C65_example :
  forall contract, all_accurate (single contract) /\ vehicle_in_range (ts_p ex_tt) /\ tt_in_range ex_q /\
  obstacles_in_range (ts_circ ex_tt) (ts_rect ex_tt) /\
  fl_tt_coll (single contract) (ts_p ex_tt) (ts_circ ex_tt) (ts_rect ex_tt) ex_q = false.
Proof.
  intro contract. pose proof (all_accurate_single contract) as HA. split; [exact HA|]. split; [exact ex_vehicle|].
  split; [exact (tt_trip_now _ _ _ ex_drive ex_trip)|]. split; [exact ex_obstacles|]. exact (proj1 (ex_start _ HA)).
Qed.
Lemma x_C66_example :
  forall contract (us : list act), length us = 50%nat ->
  p_sh_coll (ts_p ex_tt) = true /\ p_sh_hitch (ts_p ex_tt) = true /\ drive_in_range (ts_p ex_tt) /\
  0 <= p_phi_max (ts_p ex_tt) <= 10 /\ tt_trip_in_range (ts_p ex_tt) (length us) ex_q /\
  fl_tt_coll (single contract) (ts_p ex_tt) (ts_circ ex_tt) (ts_rect ex_tt) ex_q = false /\
  fl_tt_hitch (single contract) (ts_p ex_tt) ex_q = false.
Proof.
  intros contract us Hus. rewrite Hus. pose proof (all_accurate_single contract) as HA.
  split; [reflexivity|]. split; [reflexivity|]. split; [exact ex_drive|]. split.
  { pose proof PI_upper. pose proof PI_RGT_0. change (0 <= 40 * PI / 180 <= 10). lra. }
  split; [exact ex_trip|]. exact (ex_start _ HA).
Qed.
(** C67: hence, whatever the contractions, the 50 states the default vehicle visits under its shields are safe up to the
    tolerances of C65. *)
Lemma x_C67_default_vehicle :
  forall contract us q', length (A := act) us = 50%nat -> In q' (fl_tt_run (single contract) ex_tt ex_q us) ->
  tt_clear (ts_p ex_tt) (map (shrunk_circle (2 / 1000)) (ts_circ ex_tt)) (map (shrunk_rect (2 / 1000)) (ts_rect ex_tt)) q' /\
  hitch_ok (p_phi_max (ts_p ex_tt) + / 1000) (t_th1 q') (t_th2 q').
Proof.
  intros contract us q' Hus Hin. pose proof (all_accurate_single contract) as HA.
  destruct (x_C66_example contract us Hus) as (H1 & H2 & H3 & H4 & H5 & H6 & H7).
  exact (l_C66_shielded_run _ ex_tt ex_q us HA H1 H2 ex_vehicle H3 H4 ex_obstacles H5 H6 H7 q' Hin).
Qed.
