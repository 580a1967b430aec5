(** * BaseFacts: elementary lemmas about Base. *)
From Verif Require Import Base.

Lemma Rltb_true x y : Rltb x y = true <-> x < y.
Proof. unfold Rltb; destruct (Rlt_dec x y); split; intros; try discriminate; auto; lra. Qed.
Lemma Rltb_false x y : Rltb x y = false <-> y <= x.
Proof. unfold Rltb; destruct (Rlt_dec x y); split; intros; try discriminate; auto; lra. Qed.
Lemma Rleb_true x y : Rleb x y = true <-> x <= y.
Proof. unfold Rleb; destruct (Rle_dec x y); split; intros; try discriminate; auto; lra. Qed.
Lemma Rleb_false x y : Rleb x y = false <-> y < x.
Proof. unfold Rleb; destruct (Rle_dec x y); split; intros; try discriminate; auto; lra. Qed.

Lemma clip_range x lo hi : lo <= hi -> lo <= clip x lo hi <= hi.
Proof. intros. unfold clip, Rmin, Rmax. repeat destruct Rle_dec; lra. Qed.
Lemma clip_le_hi x lo hi : clip x lo hi <= hi.
Proof. unfold clip. apply Rmin_r. Qed.
Lemma clip_id x lo hi : lo <= x <= hi -> clip x lo hi = x.
Proof. intros. unfold clip, Rmin, Rmax. repeat destruct Rle_dec; lra. Qed.
Lemma clip_idem x lo hi : lo <= hi -> clip (clip x lo hi) lo hi = clip x lo hi.
Proof. intros. apply clip_id. apply clip_range; auto. Qed.
Lemma clip_low x lo hi : lo <= hi -> x <= lo -> clip x lo hi = lo.
Proof. intros. unfold clip, Rmin, Rmax. repeat destruct Rle_dec; lra. Qed.
Lemma clip_high x lo hi : hi <= x -> clip x lo hi = hi.
Proof. intros. unfold clip, Rmin, Rmax. repeat destruct Rle_dec; lra. Qed.
Lemma clip_mono x y lo hi : x <= y -> clip x lo hi <= clip y lo hi.
Proof. intros. unfold clip, Rmin, Rmax. repeat destruct Rle_dec; lra. Qed.
Lemma clip_opp x m : clip (- x) (- m) m = - clip x (- m) m \/ m < 0.
Proof. destruct (Rlt_dec m 0); [right; lra|left]. unfold clip, Rmin, Rmax. repeat destruct Rle_dec; lra. Qed.

Lemma clip_act_range a :
  (-1 <= fst (clip_act a) <= 1) /\ (-1 <= snd (clip_act a) <= 1).
Proof. unfold clip_act; simpl; split; apply clip_range; lra. Qed.
Lemma clip_act_idem a : clip_act (clip_act a) = clip_act a.
Proof. unfold clip_act; simpl. rewrite !clip_idem by lra. reflexivity. Qed.
Lemma clip_act_zero : clip_act (0, 0) = (0, 0).
Proof. unfold clip_act; simpl. rewrite clip_id by lra. reflexivity. Qed.
Lemma clip_act_id a : -1 <= fst a <= 1 -> -1 <= snd a <= 1 -> clip_act a = a.
Proof. intros. unfold clip_act. rewrite !clip_id by lra. destruct a; reflexivity. Qed.

(** Floor characterisation. *)
Lemma Int_part_spec r : IZR (Int_part r) <= r < IZR (Int_part r) + 1.
Proof. destruct (base_Int_part r). split; lra. Qed.
Lemma Int_part_unique r z : IZR z <= r < IZR z + 1 -> Int_part r = z.
Proof.
  intros [H1 H2]. destruct (Int_part_spec r) as [H3 H4].
  assert (Hd : (Int_part r - 1 < z)%Z) by (apply lt_IZR; rewrite minus_IZR; lra).
  assert (He : (z - 1 < Int_part r)%Z) by (apply lt_IZR; rewrite minus_IZR; lra).
  lia.
Qed.

Lemma two_PI_pos : 0 < 2 * PI.
Proof. generalize PI_RGT_0; lra. Qed.

Lemma fmod_range x y : 0 < y -> 0 <= fmod x y < y.
Proof.
  intros Hy. unfold fmod. destruct (Int_part_spec (x / y)) as [H1 H2].
  set (k := IZR (Int_part (x / y))) in *.
  assert (Hx : x = (x / y) * y) by (field; lra).
  split.
  - assert (k * y <= (x / y) * y) by (apply Rmult_le_compat_r; lra). lra.
  - assert ((x / y) * y < (k + 1) * y) by (apply Rmult_lt_compat_r; lra). lra.
Qed.

Lemma fmod_shift x y (k : Z) : 0 < y -> fmod (x + IZR k * y) y = fmod x y.
Proof.
  intros Hy. unfold fmod.
  assert (Hi : Int_part ((x + IZR k * y) / y) = (Int_part (x / y) + k)%Z).
  { apply Int_part_unique. rewrite plus_IZR. destruct (Int_part_spec (x / y)).
    replace ((x + IZR k * y) / y) with (x / y + IZR k) by (field; lra). lra. }
  rewrite Hi, plus_IZR. ring.
Qed.

(** wrap_pi a is the representative of a modulo 2*pi in [-pi, pi). *)
Lemma wrap_pi_range a : - PI <= wrap_pi a < PI.
Proof. unfold wrap_pi. pose proof (fmod_range (a + PI) (2 * PI) two_PI_pos). lra. Qed.
Lemma wrap_pi_shift a (k : Z) : wrap_pi (a + IZR k * (2 * PI)) = wrap_pi a.
Proof.
  unfold wrap_pi. replace (a + IZR k * (2 * PI) + PI) with (a + PI + IZR k * (2 * PI)) by ring.
  rewrite fmod_shift by apply two_PI_pos. reflexivity.
Qed.
Lemma wrap_pi_rep a : exists k : Z, wrap_pi a = a + IZR k * (2 * PI).
Proof.
  unfold wrap_pi, fmod. exists (- Int_part ((a + PI) / (2 * PI)))%Z.
  rewrite opp_IZR. ring.
Qed.
Lemma wrap_pi_id a : - PI <= a < PI -> wrap_pi a = a.
Proof.
  intros H. unfold wrap_pi, fmod.
  assert (Int_part ((a + PI) / (2 * PI)) = 0%Z) as ->.
  { apply Int_part_unique. simpl. pose proof two_PI_pos.
    split.
    - apply Rmult_le_reg_r with (2 * PI); [lra|]. unfold Rdiv. rewrite Rmult_assoc, Rinv_l by lra. lra.
    - apply Rmult_lt_reg_r with (2 * PI); [lra|]. unfold Rdiv. rewrite Rmult_assoc, Rinv_l by lra. lra. }
  simpl. ring.
Qed.
Lemma wrap_pi_0 : wrap_pi 0 = 0.
Proof. apply wrap_pi_id. generalize PI_RGT_0; lra. Qed.
(** Among all representatives the wrapped one has the least magnitude. *)
Lemma wrap_pi_min a (k : Z) : Rabs (wrap_pi a) <= Rabs (a + IZR k * (2 * PI)).
Proof.
  rewrite <- (wrap_pi_shift a k). set (b := a + IZR k * (2 * PI)).
  destruct (wrap_pi_rep b) as [j Hj]. pose proof (wrap_pi_range b). pose proof PI_RGT_0.
  destruct (Z.eq_dec j 0) as [->|Hn].
  - rewrite Hj. simpl. rewrite Rmult_0_l, Rplus_0_r. lra.
  - assert (Rabs (wrap_pi b) <= PI) by (apply Rabs_le; lra).
    assert (b = wrap_pi b - IZR j * (2 * PI)) by (rewrite Hj; ring).
    assert (IZR j <= -1 \/ 1 <= IZR j) as [Hc|Hc].
    { destruct (Z_lt_ge_dec j 0); [left|right]; apply IZR_le; lia. }
    + apply Rle_trans with PI; auto. rewrite Rabs_right; nra.
    + apply Rle_trans with PI; auto. rewrite Rabs_left1; nra.
Qed.

Lemma sin2_cos2' x : sin x * sin x + cos x * cos x = 1.
Proof. pose proof (sin2_cos2 x). unfold Rsqr in *. lra. Qed.

Lemma cos_shift x (k : Z) : cos (x + IZR k * (2 * PI)) = cos x.
Proof.
  destruct (Z_le_gt_dec 0 k).
  - rewrite <- (Z2Nat.id k) by lia. rewrite <- INR_IZR_INZ.
    replace (INR (Z.to_nat k) * (2 * PI)) with (2 * INR (Z.to_nat k) * PI) by ring. apply cos_period.
  - pose proof (cos_period (x + IZR k * (2 * PI)) (Z.to_nat (- k))) as H.
    rewrite INR_IZR_INZ, Z2Nat.id in H by lia. rewrite opp_IZR in H.
    rewrite <- H. f_equal. ring.
Qed.
Lemma sin_shift x (k : Z) : sin (x + IZR k * (2 * PI)) = sin x.
Proof.
  destruct (Z_le_gt_dec 0 k).
  - rewrite <- (Z2Nat.id k) by lia. rewrite <- INR_IZR_INZ.
    replace (INR (Z.to_nat k) * (2 * PI)) with (2 * INR (Z.to_nat k) * PI) by ring. apply sin_period.
  - pose proof (sin_period (x + IZR k * (2 * PI)) (Z.to_nat (- k))) as H.
    rewrite INR_IZR_INZ, Z2Nat.id in H by lia. rewrite opp_IZR in H.
    rewrite <- H. f_equal. ring.
Qed.

Lemma Rsqr_le_abs_iff x r : x * x <= r * r <-> Rabs x <= Rabs r.
Proof.
  split; intros.
  - apply Rsqr_le_abs_0. exact H.
  - pose proof (Rabs_pos x). assert (Rabs x * Rabs x <= Rabs r * Rabs r) by nra.
    assert (forall z, Rabs z * Rabs z = z * z) as E.
    { intros z. unfold Rabs; destruct Rcase_abs; ring. }
    rewrite !E in H1. exact H1.
Qed.

Lemma Rabs_sq z : Rabs z * Rabs z = z * z.
Proof. unfold Rabs; destruct Rcase_abs; ring. Qed.

Lemma pnorm_nonneg a : 0 <= pnorm a.
Proof. apply sqrt_pos. Qed.
Lemma pnorm_sq a : pnorm a * pnorm a = fst a * fst a + snd a * snd a.
Proof. unfold pnorm. apply sqrt_sqrt. nra. Qed.
Lemma pnorm_le_iff a r : 0 <= r -> (pnorm a <= r <-> fst a * fst a + snd a * snd a <= r * r).
Proof.
  intros Hr. rewrite <- pnorm_sq. pose proof (pnorm_nonneg a). split; intros; nra.
Qed.

(** Lists. *)
Lemma map2_length {A B C} (f : A -> B -> C) l m :
  length (map2 f l m) = Nat.min (length l) (length m).
Proof. revert m; induction l; destruct m; simpl; auto. Qed.
Lemma map2_nth {A B C} (f : A -> B -> C) l m i da db dc :
  (i < length l)%nat -> (i < length m)%nat -> nth i (map2 f l m) dc = f (nth i l da) (nth i m db).
Proof.
  revert m i; induction l; destruct m; simpl; intros; try lia.
  destruct i; auto. apply IHl; lia.
Qed.
Lemma map2_map_same {A B C D} (f : B -> C -> D) (g : A -> B) (h : A -> C) l :
  map2 f (map g l) (map h l) = map (fun x => f (g x) (h x)) l.
Proof. induction l; simpl; congruence. Qed.
Lemma In_map2 {A B C} (f : A -> B -> C) l m z :
  In z (map2 f l m) -> exists a b, In a l /\ In b m /\ z = f a b /\ In (a, b) (combine l m).
Proof.
  revert m; induction l as [|x xs IH]; destruct m as [|y ys]; simpl; intros H; try tauto.
  destruct H as [<-|H].
  - exists x, y; auto.
  - destruct (IH _ H) as (a & b & ? & ? & ? & ?). exists a, b; repeat split; auto.
Qed.

Lemma Rsum_app l m : Rsum (l ++ m) = Rsum l + Rsum m.
Proof. induction l; simpl; lra. Qed.
Lemma Rsum_scal c l : Rsum (map (fun x => c * x) l) = c * Rsum l.
Proof. induction l; simpl; lra. Qed.
Lemma Rsum_const {A} c (l : list A) : Rsum (map (fun _ => c) l) = INR (length l) * c.
Proof. induction l; [simpl; lra|]. simpl length. rewrite S_INR. simpl map. simpl Rsum. lra. Qed.
Lemma Rsum_le {A} (f g : A -> R) l : (forall x, In x l -> f x <= g x) -> Rsum (map f l) <= Rsum (map g l).
Proof.
  induction l; simpl; intros H; [lra|]. pose proof (H a (or_introl eq_refl)).
  assert (Rsum (map f l) <= Rsum (map g l)) by (apply IHl; auto). lra.
Qed.
Lemma Rsum_nonneg l : (forall x, In x l -> 0 <= x) -> 0 <= Rsum l.
Proof. induction l; simpl; intros; [lra|]. pose proof (H a (or_introl eq_refl)).
  assert (0 <= Rsum l) by (apply IHl; auto). lra. Qed.
Lemma Rsum_bounds lo hi l : (forall x, In x l -> lo <= x <= hi) ->
  INR (length l) * lo <= Rsum l <= INR (length l) * hi.
Proof.
  induction l; intros H.
  - simpl; lra.
  - simpl length. rewrite S_INR. simpl Rsum. pose proof (H a (or_introl eq_refl)).
    assert (INR (length l) * lo <= Rsum l <= INR (length l) * hi) by (apply IHl; intros; apply H; right; auto). lra.
Qed.
Lemma Rmean_bounds lo hi l : l <> [] -> (forall x, In x l -> lo <= x <= hi) -> lo <= Rmean l <= hi.
Proof.
  intros Hne H. apply Rsum_bounds in H. unfold Rmean.
  assert (0 < INR (length l)) by (apply lt_0_INR; destruct l; simpl; [congruence|lia]).
  split; apply Rmult_le_reg_r with (INR (length l)); auto;
    unfold Rdiv; rewrite Rmult_assoc, Rinv_l by lra; lra.
Qed.

Lemma Rmin_list_le x l : Rmin_list x l <= x /\ (forall y, In y l -> Rmin_list x l <= y).
Proof.
  revert x; induction l as [|z zs IH]; simpl; intros x; split; intros; try lra; try tauto.
  - destruct (IH (Rmin x z)). pose proof (Rmin_l x z). lra.
  - destruct (IH (Rmin x z)) as [H1 H2]. destruct H as [<-|H]; [pose proof (Rmin_r x z); lra|auto].
Qed.
Lemma Rmin_list_in x l : Rmin_list x l = x \/ In (Rmin_list x l) l.
Proof.
  revert x; induction l as [|z zs IH]; simpl; intros x; auto.
  destruct (IH (Rmin x z)) as [H|H]; [|auto].
  rewrite H. unfold Rmin; destruct Rle_dec; auto.
Qed.
Lemma Rmax_list_ge x l : x <= Rmax_list x l /\ (forall y, In y l -> y <= Rmax_list x l).
Proof.
  revert x; induction l as [|z zs IH]; simpl; intros x; split; intros; try lra; try tauto.
  - destruct (IH (Rmax x z)). pose proof (Rmax_l x z). lra.
  - destruct (IH (Rmax x z)) as [H1 H2]. destruct H as [<-|H]; [pose proof (Rmax_r x z); lra|auto].
Qed.
Lemma Rmax_list_in x l : Rmax_list x l = x \/ In (Rmax_list x l) l.
Proof.
  revert x; induction l as [|z zs IH]; simpl; intros x; auto.
  destruct (IH (Rmax x z)) as [H|H]; [|auto].
  rewrite H. unfold Rmax; destruct Rle_dec; auto.
Qed.
Lemma Rmin_of_le l y : In y l -> Rmin_of l <= y.
Proof. destruct l; simpl; [tauto|]. intros [<-|H]; [apply (proj1 (Rmin_list_le _ _))|apply (proj2 (Rmin_list_le _ _)); exact H]. Qed.
Lemma Rmin_of_in l : l <> [] -> In (Rmin_of l) l.
Proof. destruct l; [congruence|]. intros _. simpl. destruct (Rmin_list_in r l); auto. Qed.
Lemma Rmax_of_ge l y : In y l -> y <= Rmax_of l.
Proof. destruct l; simpl; [tauto|]. intros [<-|H]; [apply (proj1 (Rmax_list_ge _ _))|apply (proj2 (Rmax_list_ge _ _)); exact H]. Qed.
Lemma Rmax_of_in l : l <> [] -> In (Rmax_of l) l.
Proof. destruct l; [congruence|]. intros _. simpl. destruct (Rmax_list_in r l); auto. Qed.
