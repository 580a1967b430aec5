(** * ProofsFloatGeom: rounding errors of the corners and of the two collision tests. *)
From Verif Require Import Base BaseFacts Params Geom TT2d Bicycle SpecGeom SpecBodies Float SpecFloat ProofsGeom ProofsBodies.
From Coq Require Import Psatz.

(** ** Elementary error bounds *)
Lemma Rabs_bounds x e : Rabs x <= e -> - e <= x <= e.
Proof. intro H. unfold Rabs in H. destruct (Rcase_abs x); lra. Qed.
Lemma bounds_Rabs x e : - e <= x <= e -> Rabs x <= e.
Proof. intro H. apply Rabs_le. lra. Qed.
Lemma mul_bound x y X Y : Rabs x <= X -> Rabs y <= Y -> Rabs (x * y) <= X * Y.
Proof. intros. rewrite Rabs_mult. apply Rmult_le_compat; auto using Rabs_pos. Qed.
Lemma mul_err x y x' y' ex ey X Y : Rabs (x' - x) <= ex -> Rabs (y' - y) <= ey -> Rabs x <= X -> Rabs y' <= Y ->
  Rabs (x' * y' - x * y) <= ex * Y + X * ey.
Proof.
  intros H1 H2 H3 H4. replace (x' * y' - x * y) with ((x' - x) * y' + x * (y' - y)) by ring.
  eapply Rle_trans; [apply Rabs_triang|]. apply Rplus_le_compat; apply mul_bound; auto.
Qed.
Lemma add_err x y x' y' ex ey : Rabs (x' - x) <= ex -> Rabs (y' - y) <= ey -> Rabs (x' + y' - (x + y)) <= ex + ey.
Proof. intros. replace (x' + y' - (x + y)) with ((x' - x) + (y' - y)) by ring. eapply Rle_trans; [apply Rabs_triang|lra]. Qed.
Lemma chain_err x y z a b : Rabs (x - y) <= a -> Rabs (y - z) <= b -> Rabs (x - z) <= a + b.
Proof. intros. replace (x - z) with ((x - y) + (y - z)) by ring. eapply Rle_trans; [apply Rabs_triang|lra]. Qed.
Lemma size_err x y e X : Rabs (x - y) <= e -> Rabs y <= X -> Rabs x <= X + e.
Proof. intros. replace x with ((x - y) + y) by ring. eapply Rle_trans; [apply Rabs_triang|lra]. Qed.
Lemma weak_err x y a b : Rabs (x - y) <= a -> a <= b -> Rabs (x - y) <= b.
Proof. intros; lra. Qed.

Section Acc.
Context (A : arith) (HA : accurate A).

Lemma cvt_err x X : Rabs x <= X -> Rabs (a_cvt A x - x) <= X / 10000000 + / 10000000000.
Proof. intro H. destruct HA as (H1 & _). specialize (H1 x). unfold near in H1. lra. Qed.
Lemma add_rnd x y X : Rabs (x + y) <= X -> Rabs (a_add A x y - (x + y)) <= X / 10000000 + / 10000000000.
Proof. intro H. destruct HA as (_ & H1 & _). specialize (H1 x y). unfold near in H1. lra. Qed.
Lemma sub_rnd x y X : Rabs (x - y) <= X -> Rabs (a_sub A x y - (x - y)) <= X / 10000000 + / 10000000000.
Proof. intro H. destruct HA as (_ & _ & H1 & _). specialize (H1 x y). unfold near in H1. lra. Qed.
Lemma mul_rnd x y X : Rabs (x * y) <= X -> Rabs (a_mul A x y - x * y) <= X / 10000000 + / 10000000000.
Proof. intro H. destruct HA as (_ & _ & _ & H1 & _). specialize (H1 x y). unfold near in H1. lra. Qed.
Lemma div_rnd x y X : y <> 0 -> Rabs (x / y) <= X -> Rabs (a_div A x y - x / y) <= X / 10000000 + / 10000000000.
Proof. intros Hy H. destruct HA as (_ & _ & _ & _ & H1 & _). specialize (H1 x y Hy). unfold near in H1. lra. Qed.
Lemma mac_rnd x y z X Z : Rabs (x * y) <= X -> Rabs z <= Z ->
  Rabs (a_mac A x y z - (x * y + z)) <= 3 * ((X + Z) / 10000000 + / 10000000000).
Proof. intros H H'. destruct HA as (_ & _ & _ & _ & _ & H1 & _). specialize (H1 x y z). unfold near in H1. lra. Qed.
Lemma dot2_rnd x1 y1 x2 y2 X Z : Rabs (x1 * y1) <= X -> Rabs (x2 * y2) <= Z ->
  Rabs (a_dot2 A x1 y1 x2 y2 - (x1 * y1 + x2 * y2)) <= 3 * ((X + Z) / 10000000 + / 10000000000).
Proof. intros H H'. destruct HA as (_ & _ & _ & _ & _ & _ & H1 & _). specialize (H1 x1 y1 x2 y2). unfold near in H1. lra. Qed.
Lemma sqrt_rnd x X : 0 <= x -> sqrt x <= X -> Rabs (a_sqrt A x - sqrt x) <= X / 10000000 + / 10000000000.
Proof. intros Hy H. destruct HA as (_ & _ & _ & _ & _ & _ & _ & H1 & _). specialize (H1 x Hy). unfold near in H1. lra. Qed.
Lemma cos_rnd2 x : Rabs x <= 2001 -> Rabs (a_cos A x - cos x) <= / 1000000.
Proof. apply HA. Qed.
Lemma sin_rnd2 x : Rabs x <= 2001 -> Rabs (a_sin A x - sin x) <= / 1000000.
Proof. apply HA. Qed.
Lemma tan_rnd x : Rabs x <= 1 -> Rabs (a_tan A x - tan x) <= / 1000000.
Proof. apply HA. Qed.
Lemma cos_rnd x : Rabs x <= 1000 -> Rabs (a_cos A x - cos x) <= / 1000000.
Proof. intro. apply cos_rnd2. lra. Qed.
Lemma sin_rnd x : Rabs x <= 1000 -> Rabs (a_sin A x - sin x) <= / 1000000.
Proof. intro. apply sin_rnd2. lra. Qed.
Lemma mod_rnd x y X : 0 < y -> fmod x y <= X -> Rabs (a_mod A x y - fmod x y) <= X / 10000000 + / 10000000000.
Proof. intros Hy H. destruct HA as (_ & _ & _ & _ & _ & _ & _ & _ & _ & _ & _ & H1). specialize (H1 x y Hy). unfold near in H1. lra. Qed.
Lemma Rabs_cos x : Rabs (cos x) <= 1.
Proof. apply bounds_Rabs. pose proof (COS_bound x); lra. Qed.
Lemma Rabs_sin x : Rabs (sin x) <= 1.
Proof. apply bounds_Rabs. pose proof (SIN_bound x); lra. Qed.
Lemma cos_size x : Rabs x <= 1000 -> Rabs (a_cos A x) <= 1 + / 1000000.
Proof. intro H. eapply size_err; [apply cos_rnd; auto|apply Rabs_cos]. Qed.
Lemma sin_size x : Rabs x <= 1000 -> Rabs (a_sin A x) <= 1 + / 1000000.
Proof. intro H. eapply size_err; [apply sin_rnd; auto|apply Rabs_sin]. Qed.

(** k*cos(th) + p with an approximate factor and an approximate offset. *)
Lemma offset_err k k' c c' z z' ek K ez Z :
  Rabs (k' - k) <= ek -> Rabs k <= K -> Rabs (c' - c) <= / 1000000 -> Rabs c' <= 1 + / 1000000 ->
  Rabs (z' - z) <= ez -> Rabs z <= Z -> 0 <= ek -> 0 <= K -> 0 <= ez ->
  Rabs (a_mac A k' c' z' - (k * c + z)) <=
    ek * (1 + / 1000000) + K / 1000000 + ez + 3 * (((K + ek) * (1 + / 1000000) + Z + ez) / 10000000 + / 10000000000).
Proof.
  intros H1 H2 H3 H4 H5 H6 P1 P2 P3.
  pose proof (mul_err _ _ _ _ _ _ _ _ H1 H3 H2 H4) as M.
  pose proof (add_err _ _ _ _ _ _ M H5) as S.
  pose proof (size_err _ _ _ _ H1 H2) as K1. pose proof (size_err _ _ _ _ H5 H6) as K2.
  pose proof (mac_rnd k' c' z' _ _ (mul_bound _ _ _ _ K1 H4) K2) as N.
  pose proof (chain_err _ _ _ _ _ N S) as C. eapply Rle_trans; [exact C|]. lra.
Qed.

(** One coordinate of a corner. *)
Lemma corner_coord lx ly lx' ly' c s c' s' z z' ea eb a b ez Z :
  Rabs (lx' - lx) <= ea -> Rabs lx <= a -> Rabs (ly' - ly) <= eb -> Rabs ly <= b ->
  Rabs (c' - c) <= / 1000000 -> Rabs c' <= 1 + / 1000000 -> Rabs c <= 1 ->
  Rabs (s' - s) <= / 1000000 -> Rabs s' <= 1 + / 1000000 -> Rabs s <= 1 ->
  Rabs (z' - z) <= ez -> Rabs z <= Z -> 0 <= ea -> 0 <= eb -> 0 <= a -> 0 <= b -> 0 <= ez -> 0 <= Z ->
  Rabs (a_add A (a_dot2 A lx' c' ly' s') z' - (lx * c + ly * s + z)) <=
    ((ea + eb) * (1 + / 1000000) + (a + b) / 1000000) + ez
    + (5 * (a + b + ea + eb) + 2 * Z + 2 * ez) / 10000000 + 5 / 10000000000.
Proof.
  intros H1 H2 H3 H4 C1 C2 C3 S1 S2 S3 H5 H6 P1 P2 P3 P4 P5 P6.
  pose proof (mul_err _ _ _ _ _ _ _ _ H1 C1 H2 C2) as M1.
  pose proof (mul_err _ _ _ _ _ _ _ _ H3 S1 H4 S2) as M2.
  pose proof (add_err _ _ _ _ _ _ M1 M2) as M.
  pose proof (size_err _ _ _ _ H1 H2) as K1. pose proof (size_err _ _ _ _ H3 H4) as K2.
  pose proof (mul_bound _ _ _ _ K1 C2) as B1. pose proof (mul_bound _ _ _ _ K2 S2) as B2.
  pose proof (dot2_rnd lx' c' ly' s' _ _ B1 B2) as N.
  pose proof (chain_err _ _ _ _ _ N M) as D.
  pose proof (add_err _ _ _ _ _ _ D H5) as E.
  assert (Z1 : Rabs (lx * c + ly * s + z) <= a * 1 + b * 1 + Z).
  { eapply Rle_trans; [apply Rabs_triang|]. eapply Rle_trans; [apply Rplus_le_compat_r, Rabs_triang|].
    pose proof (mul_bound _ _ _ _ H2 C3). pose proof (mul_bound _ _ _ _ H4 S3). lra. }
  pose proof (size_err _ _ _ _ E Z1) as Z2.
  pose proof (add_rnd (a_dot2 A lx' c' ly' s') z' _ Z2) as W.
  pose proof (chain_err _ _ _ _ _ W E) as F. eapply Rle_trans; [exact F|]. lra.
Qed.
End Acc.

Definition pnear (e : R) (a b : pt) : Prop := Rabs (fst a - fst b) <= e /\ Rabs (snd a - snd b) <= e.
Lemma pnear_weak e f a b : pnear e a b -> e <= f -> pnear f a b.
Proof. intros [H1 H2] H. split; lra. Qed.

(** The corner lists as computed are close, corner by corner. *)
Lemma box_corners_near A cx cy cx' cy' ang hl hw hl' hw' ea eb a b ez Z e : accurate A -> Rabs ang <= 1000 ->
  Rabs (hl' - hl) <= ea -> Rabs hl <= a -> Rabs (hw' - hw) <= eb -> Rabs hw <= b ->
  Rabs (cx' - cx) <= ez -> Rabs cx <= Z -> Rabs (cy' - cy) <= ez -> Rabs cy <= Z ->
  0 <= ea -> 0 <= eb -> 0 <= a -> 0 <= b -> 0 <= ez -> 0 <= Z ->
  ((ea + eb) * (1 + / 1000000) + (a + b) / 1000000) + ez
    + (5 * (a + b + ea + eb) + 2 * Z + 2 * ez) / 10000000 + 5 / 10000000000 <= e ->
  Forall2 (pnear e) (fl_box_corners A cx' cy' ang hl' hw') (box_corners cx cy ang hl hw).
Proof.
  intros HA Hang H1 H2 H3 H4 H5 H6 H7 H8 P1 P2 P3 P4 P5 P6 HE.
  pose proof (cos_rnd A HA ang Hang) as C1. pose proof (cos_size A HA ang Hang) as C2. pose proof (Rabs_cos ang) as C3.
  pose proof (sin_rnd A HA ang Hang) as S1. pose proof (sin_size A HA ang Hang) as S2. pose proof (Rabs_sin ang) as S3.
  assert (N1 : Rabs (- hl' - - hl) <= ea) by (replace (- hl' - - hl) with (- (hl' - hl)) by ring; rewrite Rabs_Ropp; auto).
  assert (N2 : Rabs (- hw' - - hw) <= eb) by (replace (- hw' - - hw) with (- (hw' - hw)) by ring; rewrite Rabs_Ropp; auto).
  assert (N3 : Rabs (- hl) <= a) by (rewrite Rabs_Ropp; auto).
  assert (N4 : Rabs (- hw) <= b) by (rewrite Rabs_Ropp; auto).
  assert (N5 : Rabs (- a_sin A ang - - sin ang) <= / 1000000)
    by (replace (- a_sin A ang - - sin ang) with (- (a_sin A ang - sin ang)) by ring; rewrite Rabs_Ropp; auto).
  assert (N6 : Rabs (- a_sin A ang) <= 1 + / 1000000) by (rewrite Rabs_Ropp; auto).
  assert (N7 : Rabs (- sin ang) <= 1) by (rewrite Rabs_Ropp; auto).
  assert (X : forall lx lx' ly ly', Rabs (lx' - lx) <= ea -> Rabs lx <= a -> Rabs (ly' - ly) <= eb -> Rabs ly <= b ->
    pnear e (fl_box_corner A (a_cos A ang) (a_sin A ang) cx' cy' lx' ly') (box_corner ang cx cy lx ly)).
  { intros lx lx' ly ly' L1 L2 L3 L4. split; unfold fl_box_corner, box_corner; cbn [fst snd];
      (eapply Rle_trans; [|exact HE]);
      eapply corner_coord; eassumption. }
  unfold fl_box_corners, box_corners.
  repeat (apply Forall2_cons; [apply X; assumption|]). apply Forall2_nil.
Qed.

(** ** Vehicle and obstacle corners *)
Lemma offset_err' A k k' th z z' K ez Z e : accurate A -> Rabs th <= 1000 ->
  k' = a_cvt A k -> Rabs k <= K -> Rabs (z' - z) <= ez -> Rabs z <= Z -> 0 <= K -> 0 <= ez ->
  (K / 10000000 + / 10000000000) * (1 + / 1000000) + K / 1000000 + ez +
    3 * (((K + (K / 10000000 + / 10000000000)) * (1 + / 1000000) + Z + ez) / 10000000 + / 10000000000) <= e ->
  Rabs (a_mac A k' (a_cos A th) z' - (z + k * cos th)) <= e /\
  Rabs (a_mac A k' (a_sin A th) z' - (z + k * sin th)) <= e.
Proof.
  intros HA Hth -> HK Hz HZ PK Pe HE. rewrite !(Rplus_comm z).
  pose proof (cvt_err A HA k K HK) as EK.
  split; (eapply Rle_trans; [|exact HE]); eapply offset_err; try eassumption; try lra.
  - apply cos_rnd; auto.
  - apply cos_size; auto.
  - apply sin_rnd; auto.
  - apply sin_size; auto.
Qed.
Lemma offset_size k th z K Z : Rabs k <= K -> Rabs z <= Z -> Rabs (z + k * cos th) <= Z + K /\ Rabs (z + k * sin th) <= Z + K.
Proof.
  intros H1 H2. split; (eapply Rle_trans; [apply Rabs_triang|]).
  - pose proof (mul_bound k (cos th) K 1 H1 (Rabs_cos th)). lra.
  - pose proof (mul_bound k (sin th) K 1 H1 (Rabs_sin th)). lra.
Qed.
Lemma zero_err x : Rabs (x - x) <= 0.
Proof. rewrite Rminus_diag_eq, Rabs_R0; lra. Qed.

Lemma tractor_corners_near P C p px py th : accurate P -> accurate C -> vehicle_in_range p ->
  place_in_range px py -> Rabs th <= 1000 ->
  Forall2 (pnear (2 / 10000)) (fl_tractor_corners P C p px py th) (tractor_corners p px py th).
Proof.
  intros HP HC (V1 & V2 & V3 & _ & _ & _ & _ & V8 & _) [Hx Hy] Hth. unfold dimension in *.
  unfold fl_tractor_corners, tractor_corners.
  set (k := 5 / 10 * (p_l1 p + p_lf1 p - p_lr p)).
  assert (K : Rabs k <= 10) by (unfold k; apply bounds_Rabs; lra).
  destruct (offset_err' P k _ th px px 10 0 100 (5 / 100000) HP Hth eq_refl K (zero_err px) Hx ltac:(lra) ltac:(lra) ltac:(lra)) as [EX _].
  destruct (offset_err' P k _ th py py 10 0 100 (5 / 100000) HP Hth eq_refl K (zero_err py) Hy ltac:(lra) ltac:(lra) ltac:(lra)) as [_ EY].
  destruct (offset_size k th px 10 100 K Hx) as [CX _]. destruct (offset_size k th py 10 100 K Hy) as [_ CY].
  assert (B1 : Rabs ((p_l1 p + p_lf1 p + p_lr p) / 2) <= 15) by (apply bounds_Rabs; lra).
  assert (B2 : Rabs (p_trac_w p / 2) <= 5) by (apply bounds_Rabs; lra).
  pose proof (cvt_err C HC _ _ B1) as E1. pose proof (cvt_err C HC _ _ B2) as E2.
  eapply (box_corners_near C _ _ _ _ th _ _ _ _ (15 / 10000000 + / 10000000000) (5 / 10000000 + / 10000000000)
            15 5 (5 / 100000) (100 + 10)); try assumption; lra.
Qed.

Lemma trailer_corners_near P C p q : accurate P -> accurate C -> vehicle_in_range p -> tt_in_range q ->
  Forall2 (pnear (2 / 10000)) (fl_trailer_corners P C p q) (tt_trailer_corners p q).
Proof.
  intros HP HC (_ & _ & _ & V4 & V5 & V6 & V7 & _ & V9 & _) ([Hx Hy] & Hth1 & Hth2). unfold dimension in *.
  unfold fl_trailer_corners, tt_trailer_corners.
  set (k := 5 / 10 * (p_lf2 p - p_lr2 p) - p_l2 p).
  assert (K : Rabs k <= 15) by (unfold k; apply bounds_Rabs; lra).
  assert (L : Rabs (- p_lh p) <= 10) by (apply bounds_Rabs; lra).
  assert (HX : forall z, Rabs z <= 100 ->
    Rabs (a_mac P (- a_cvt P (p_lh p)) (a_cos P (t_th1 q)) z - (z - p_lh p * cos (t_th1 q))) <= 5 / 100000 /\
    Rabs (a_mac P (- a_cvt P (p_lh p)) (a_sin P (t_th1 q)) z - (z - p_lh p * sin (t_th1 q))) <= 5 / 100000 /\
    Rabs (z - p_lh p * cos (t_th1 q)) <= 110 /\ Rabs (z - p_lh p * sin (t_th1 q)) <= 110).
  { intros z Hz.
    assert (E : Rabs (- a_cvt P (p_lh p) - - p_lh p) <= 10 / 10000000 + / 10000000000).
    { replace (- a_cvt P (p_lh p) - - p_lh p) with (- (a_cvt P (p_lh p) - p_lh p)) by ring. rewrite Rabs_Ropp.
      apply cvt_err; auto. rewrite <- Rabs_Ropp; auto. }
    destruct (offset_size (- p_lh p) (t_th1 q) z 10 100 L Hz) as [S1 S2].
    replace (z - p_lh p * cos (t_th1 q)) with (- p_lh p * cos (t_th1 q) + z) by ring.
    replace (z - p_lh p * sin (t_th1 q)) with (- p_lh p * sin (t_th1 q) + z) by ring.
    repeat split.
    - eapply Rle_trans; [eapply (offset_err P HP (- p_lh p) _ _ _ z z _ 10 0 100 E L (cos_rnd P HP _ Hth1)
        (cos_size P HP _ Hth1) (zero_err z) Hz); lra|lra].
    - eapply Rle_trans; [eapply (offset_err P HP (- p_lh p) _ _ _ z z _ 10 0 100 E L (sin_rnd P HP _ Hth1)
        (sin_size P HP _ Hth1) (zero_err z) Hz); lra|lra].
    - rewrite Rplus_comm. lra.
    - rewrite Rplus_comm. lra. }
  destruct (HX _ Hx) as (X1 & _ & X2 & _). destruct (HX _ Hy) as (_ & Y1 & _ & Y2). clear HX.
  destruct (offset_err' P k _ (t_th2 q) _ _ 15 (5 / 100000) 110 (12 / 100000) HP Hth2 eq_refl K X1 X2 ltac:(lra) ltac:(lra) ltac:(lra)) as [EX _].
  destruct (offset_err' P k _ (t_th2 q) _ _ 15 (5 / 100000) 110 (12 / 100000) HP Hth2 eq_refl K Y1 Y2 ltac:(lra) ltac:(lra) ltac:(lra)) as [_ EY].
  destruct (offset_size k (t_th2 q) _ 15 110 K X2) as [CX _]. destruct (offset_size k (t_th2 q) _ 15 110 K Y2) as [_ CY].
  assert (B1 : Rabs ((p_lf2 p + p_lr2 p) / 2) <= 10) by (apply bounds_Rabs; lra).
  assert (B2 : Rabs (p_trail_w p / 2) <= 5) by (apply bounds_Rabs; lra).
  pose proof (cvt_err C HC _ _ B1) as E1. pose proof (cvt_err C HC _ _ B2) as E2.
  eapply (box_corners_near C _ _ _ _ (t_th2 q) _ _ _ _ (10 / 10000000 + / 10000000000) (5 / 10000000 + / 10000000000)
            10 5 (12 / 100000) (110 + 15)); try assumption; lra.
Qed.

Lemma obs_corners_near O o : accurate O -> place_in_range (r_x o) (r_y o) -> Rabs (r_ang o) <= 1000 ->
  0 <= r_w o <= 100 -> 0 <= r_h o <= 100 ->
  Forall2 (pnear (2 / 10000)) (fl_obs_corners O o) (obs_corners o).
Proof.
  intros HO [Hx Hy] Ha Hw Hh. unfold fl_obs_corners, obs_corners.
  assert (B1 : Rabs (r_w o / 2) <= 50) by (apply bounds_Rabs; lra).
  assert (B2 : Rabs (r_h o / 2) <= 50) by (apply bounds_Rabs; lra).
  pose proof (div_rnd O HO (r_w o) 2 50 ltac:(lra) B1) as E1. pose proof (div_rnd O HO (r_h o) 2 50 ltac:(lra) B2) as E2.
  pose proof (zero_err (r_x o)). pose proof (zero_err (r_y o)).
  eapply (box_corners_near O _ _ _ _ (r_ang o) _ _ _ _ (50 / 10000000 + / 10000000000) (50 / 10000000 + / 10000000000)
            50 50 0 100); try assumption; try lra.
Qed.
