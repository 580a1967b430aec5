(** * ProofsDemo: demonstration trajectory (C35, C36) and its score (C37). *)
From Coq Require Import String.
From Verif Require Import Base BaseFacts Params Geom TT2d Bicycle NTrailer Acc SpecGeom SpecBodies SpecSym
  ProofsGeom ProofsBodies SpecReward Demo SpecDemo.
Local Open Scope list_scope.
Open Scope R_scope.

(** ** Numbers *)
Lemma round_even_near x : x - 1 / 2 <= IZR (round_even x) <= x + 1 / 2.
Proof.
  unfold round_even. pose proof (Int_part_spec x) as H.
  destruct (Rlt_dec _ _); [lra|]. destruct (Rlt_dec _ _); [rewrite plus_IZR; lra|].
  destruct (Z.even _); [lra|rewrite plus_IZR; lra].
Qed.
Lemma round_even_nat n : round_even (INR n) = Z.of_nat n.
Proof.
  unfold round_even. rewrite INR_IZR_INZ.
  rewrite (Int_part_unique (IZR (Z.of_nat n)) (Z.of_nat n)) by lra.
  destruct (Rlt_dec _ _); [reflexivity|lra].
Qed.

(** atan2 points along (x, y). *)
Lemma atan2_dir y x : (x <> 0 \/ y <> 0) ->
  exists d, 0 < d /\ x = d * cos (atan2 y x) /\ y = d * sin (atan2 y x).
Proof.
  intros Hxy. unfold atan2.
  assert (A : forall z, x <> 0 -> z = y / x -> 0 < sqrt (1 + z ^ 2) /\ cos (atan z) = 1 / sqrt (1 + z ^ 2)
     /\ sin (atan z) = z / sqrt (1 + z ^ 2) /\ y = z * x).
  { intros z Hx Hz. split; [apply sqrt_lt_R0; nra|]. split; [rewrite cos_atan; unfold Rsqr; f_equal; f_equal; ring|].
    split; [rewrite sin_atan; unfold Rsqr; f_equal; f_equal; ring|]. subst. field. exact Hx. }
  destruct (Rlt_dec 0 x) as [P|P].
  - destruct (A (y / x)) as (S & C & D & E); [lra|reflexivity|]. rewrite C, D.
    set (z := y / x) in *. set (r := sqrt (1 + z ^ 2)) in *. exists (x * r).
    split; [apply Rmult_lt_0_compat; lra|]. split; [field; lra|]. rewrite E. field. lra.
  - destruct (Rlt_dec x 0) as [N|N].
    + destruct (A (y / x)) as (S & C & D & E); [lra|reflexivity|].
      set (z := y / x) in *. set (r := sqrt (1 + z ^ 2)) in *. exists (- x * r).
      assert (0 < - x * r) by (apply Rmult_lt_0_compat; lra).
      destruct (Rle_dec 0 y).
      * rewrite neg_cos, neg_sin, C, D. split; [lra|]. split; [field; lra|]. rewrite E at 1. field. lra.
      * replace (atan z - PI) with (atan z + PI + IZR (-1) * (2 * PI)) by ring.
        rewrite cos_shift, sin_shift, neg_cos, neg_sin, C, D. split; [lra|]. split; [field; lra|]. rewrite E at 1. field. lra.
    + assert (x = 0) by lra. destruct (Rlt_dec 0 y).
      * exists y. rewrite cos_PI2, sin_PI2. lra.
      * destruct (Rlt_dec y 0); [|exfalso; destruct Hxy; lra].
        exists (- y). rewrite cos_neg, sin_neg, cos_PI2, sin_PI2. lra.
Qed.

(** ** Line check *)
Lemma in_lin_closed50 t : In t (lin_closed 50) <-> exists k, (k < 50)%nat /\ t = INR k / 49.
Proof.
  unfold lin_closed. rewrite in_map_iff.
  assert (E : INR (50 - 1) = 49) by (cbn [Nat.sub]; rewrite INR_IZR_INZ; reflexivity). rewrite E. split.
  - intros (k & <- & H). apply in_seq in H. exists k. split; [lia|reflexivity].
  - intros (k & H & ->). exists k. split; [reflexivity|]. apply in_seq. lia.
Qed.
Lemma point_in_circle_spec P c : point_in_circle P c = true <-> disc (c_x c, c_y c) (c_r c) P.
Proof. unfold point_in_circle. rewrite Rleb_true. unfold disc, dist, dist2, pnorm, psub. reflexivity. Qed.
Lemma point_in_rect_spec P o : point_in_rect P o = true <-> solid (obstacle_body o) P.
Proof.
  unfold point_in_rect. rewrite andb_true_iff, !Rleb_true. rewrite solid_iff.
  unfold obstacle_body, reg_hl, reg_center, at_frame, dir_u, dir_v, pdot, psub. cbn [rg_org rg_ang rg_back rg_front rg_half fst snd].
  rewrite cos_neg, sin_neg.
  replace ((r_w o / 2 - - (r_w o / 2)) / 2) with (r_w o / 2) by field.
  match goal with |- Rabs ?A <= _ /\ Rabs ?B <= _ <-> Rabs ?C <= _ /\ Rabs ?D <= _ =>
    assert (E1 : A = C) by field; assert (E2 : B = D) by field; rewrite E1, E2; reflexivity end.
Qed.
Lemma check_line_spec circ rect A B : check_line circ rect A B = false <-> line_clear circ rect A B.
Proof.
  unfold line_clear. split.
  - intros H k Hk Hb. assert (check_line circ rect A B = true); [|congruence].
    unfold check_line. apply existsb_exists. exists (INR k / 49). split; [apply in_lin_closed50; eauto|].
    apply orb_true_iff. destruct Hb as [(c & Hc & Hd)|(o & Ho & Hs)].
    + left. apply existsb_exists. exists c. split; [exact Hc|]. apply point_in_circle_spec. exact Hd.
    + right. apply existsb_exists. exists o. split; [exact Ho|]. apply point_in_rect_spec. exact Hs.
  - intros H. destruct (check_line circ rect A B) eqn:E; [|reflexivity]. exfalso.
    unfold check_line in E. apply existsb_exists in E as (t & Ht & E). apply in_lin_closed50 in Ht as (k & Hk & ->).
    apply (H k Hk). apply orb_true_iff in E as [E|E]; apply existsb_exists in E as (z & Hz & E).
    + left. exists z. split; [exact Hz|]. apply point_in_circle_spec. exact E.
    + right. exists z. split; [exact Hz|]. apply point_in_rect_spec. exact E.
Qed.
Lemma check_line_true circ rect A B : check_line circ rect A B = true <-> ~ line_clear circ rect A B.
Proof. rewrite <- check_line_spec. destruct (check_line circ rect A B); split; congruence. Qed.

(** ** Point counts *)
Lemma counts_one H l : 0 < l -> counts H [l] = [Z.of_nat H].
Proof.
  intros Hl. unfold counts, raw_counts, Zsum, argmax. cbn [map Rsum fold_left argmax_from add_at].
  replace (INR H * l / (l + 0)) with (INR H) by (field; lra). rewrite round_even_nat.
  destruct (Z.eqb_spec (0 + Z.max 2 (Z.of_nat H)) (Z.of_nat H)) as [E|E]; [f_equal; lia|].
  f_equal. lia.
Qed.
Lemma counts_two H l1 l2 : 0 < l1 -> 0 < l2 -> (4 <= H)%nat ->
  exists n1 n2 : nat, counts H [l1; l2] = [Z.of_nat n1; Z.of_nat n2] /\ (2 <= n1)%nat /\ (2 <= n2)%nat /\ (n1 + n2 = H)%nat.
Proof.
  intros H1 H2 HH. unfold counts, raw_counts, Zsum, argmax. cbn [map Rsum fold_left argmax_from].
  replace (l1 + (l2 + 0)) with (l1 + l2) by ring.
  set (x := INR H * l1 / (l1 + l2)). set (y := INR H * l2 / (l1 + l2)).
  assert (Exy : x + y = INR H) by (unfold x, y; field; lra).
  pose proof (round_even_near x) as Rx. pose proof (round_even_near y) as Ry.
  set (a := round_even x) in *. set (b := round_even y) in *.
  rewrite INR_IZR_INZ in Exy.
  assert (B1 : (a + b <= Z.of_nat H + 1)%Z). { apply le_IZR. rewrite !plus_IZR. lra. }
  assert (B2 : (Z.of_nat H - 1 <= a + b)%Z). { apply le_IZR. rewrite minus_IZR, plus_IZR. lra. }
  clearbody a b. clear Rx Ry Exy x y.
  assert (HZ : (4 <= Z.of_nat H)%Z) by lia. 
  assert (G : forall c1 c2 : Z, (2 <= c1)%Z -> (2 <= c2)%Z -> (c1 + c2 = Z.of_nat H)%Z ->
    exists n1 n2 : nat, [c1; c2] = [Z.of_nat n1; Z.of_nat n2] /\ (2 <= n1)%nat /\ (2 <= n2)%nat /\ (n1 + n2 = H)%nat).
  { intros c1 c2 ? ? ?. exists (Z.to_nat c1), (Z.to_nat c2). rewrite !Z2Nat.id by lia. repeat split; lia. }
  destruct (Z.eqb_spec (0 + Z.max 2 a + Z.max 2 b) (Z.of_nat H)) as [E|E].
  - apply G; lia.
  - destruct (Z.ltb_spec (Z.max 2 a) (Z.max 2 b)); cbn [add_at]; apply G; lia.
Qed.

(** ** Sequences *)
Lemma increasing_map_seq (f : nat -> R) n : (forall k, f k < f (S k)) -> forall i, increasing (map f (seq i n)).
Proof.
  intros Hf. induction n as [|n IH]; intros i; [exact I|].
  destruct n as [|n]; [exact I|]. specialize (IH (S i)). cbn [seq map] in *. split; [apply Hf|exact IH].
Qed.
Lemma increasing_app l m : increasing l -> increasing m -> (forall a b, last l a < nth 0 m b \/ l = [] \/ m = []) ->
  increasing (l ++ m).
Proof.
  intros Hl Hm Hlm. induction l as [|x l IH]; [exact Hm|].
  destruct l as [|y l].
  - destruct m as [|z m]; [exact I|]. cbn [app]. split; [|exact Hm].
    destruct (Hlm 0 0) as [H|[H|H]]; [exact H|discriminate|discriminate].
  - cbn [app]. cbn in Hl. destruct Hl as [Hxy Hl]. split; [exact Hxy|]. apply IH; [exact Hl|].
    intros a b. destruct (Hlm a b) as [H|[H|H]]; [left; exact H|discriminate|right; right; exact H].
Qed.
Lemma last_map_seq {A} (f : nat -> A) i n d : last (map f (seq i (S n))) d = f (i + n)%nat.
Proof. rewrite seq_S, map_app. cbn [map]. apply last_last. Qed.
Lemma last_app_r {A} (l m : list A) d : m <> [] -> last (l ++ m) d = last m d.
Proof.
  intros Hm. induction l as [|x l IH]; [reflexivity|]. cbn [app]. rewrite <- IH.
  destruct (l ++ m) eqn:E; [|reflexivity]. exfalso. apply app_eq_nil in E as [_ ->]. auto.
Qed.

Definition leg1 (a b : pt) (k n : nat) : list (pt * nat) := map (fun t => (lerp a b t, k)) (lin_closed n).

Lemma runs_two_corners a b n : (2 <= n)%nat ->
  runs_along [a; b] (map (fun t => lerp a b t) (lin_closed n)) (lin_closed n).
Proof.
  intros Hn. destruct n as [|[|n]]; [lia|lia|].
  assert (P : 0 < INR (S (S n) - 1)) by (apply lt_0_INR; lia).
  unfold lin_closed. set (f := fun k => INR k / INR (S (S n) - 1)).
  split; [apply increasing_map_seq; intros k; unfold f; rewrite S_INR; unfold Rdiv; apply Rmult_lt_compat_r; [apply Rinv_0_lt_compat; exact P|lra]|].
  assert (R01 : forall s, In s (map f (seq 0 (S (S n)))) -> 0 <= s <= 1).
  { intros s Hs. apply in_map_iff in Hs as (k & <- & Hk). apply in_seq in Hk. unfold f.
    assert (INR k <= INR (S (S n) - 1)) by (apply le_INR; lia). pose proof (pos_INR k).
    split; [apply Rmult_le_pos; [lra|left; apply Rinv_0_lt_compat; exact P]|].
    apply Rmult_le_reg_r with (INR (S (S n) - 1)); [exact P|]. unfold Rdiv. rewrite Rmult_assoc, Rinv_l by lra. lra. }
  split; [exact R01|]. split; [|split; [|split]].
  - intros j Hj. cbn in Hj. apply in_map_iff.
    assert (j = 0 \/ j = 1)%nat as [->| ->] by lia.
    + exists O. split; [unfold f; cbn [INR]; field; lra|apply in_seq; lia].
    + exists (S n). split; [|apply in_seq; lia]. unfold f. replace (S (S n) - 1)%nat with (S n) by lia.
      change (INR 1) with 1. apply Rinv_r. apply not_0_INR. lia.
  - unfold f. cbn [seq map nth INR]. field. lra.
  - rewrite last_map_seq. unfold f. rewrite Nat.add_0_l. replace (S (S n) - 1)%nat with (S n) in * by lia.
    change (INR (length [a; b] - 1)) with 1. apply Rinv_r. apply not_0_INR. lia.
  - apply map_ext_in. intros s Hs. cbn [polyline]. destruct (Rle_dec s 1); [reflexivity|]. apply R01 in Hs. lra.
Qed.

Lemma runs_three_corners a b c n1 n2 : (1 <= n1)%nat -> (2 <= n2)%nat ->
  runs_along [a; b; c]
    (map (fun t => lerp a b t) (lin_open n1) ++ map (fun t => lerp b c t) (lin_closed n2))
    (lin_open n1 ++ map (fun t => 1 + t) (lin_closed n2)).
Proof.
  intros H1 H2. destruct n1 as [|n1]; [lia|].
  destruct (runs_two_corners b c n2 H2) as (I2 & R2 & V2 & F2 & L2 & _).
  assert (P : 0 < INR (S n1)) by (apply lt_0_INR; lia).
  assert (R1 : forall s, In s (lin_open (S n1)) -> 0 <= s < 1).
  { intros s Hs. apply in_map_iff in Hs as (k & <- & Hk). apply in_seq in Hk.
    assert (INR k < INR (S n1)) by (apply lt_INR; lia). pose proof (pos_INR k).
    split; [apply Rmult_le_pos; [lra|left; apply Rinv_0_lt_compat; exact P]|].
    apply Rmult_lt_reg_r with (INR (S n1)); [exact P|]. unfold Rdiv. rewrite Rmult_assoc, Rinv_l by lra. lra. }
  change (INR (length [b; c] - 1)) with 1 in *.
  assert (NE : lin_closed n2 <> []) by (destruct n2; [lia|]; discriminate).
  split; [|split; [|split; [|split; [|split]]]].
  - apply increasing_app.
    + unfold lin_open. apply increasing_map_seq. intros k. rewrite (S_INR k). unfold Rdiv.
      apply Rmult_lt_compat_r; [apply Rinv_0_lt_compat; exact P|lra].
    + clear - I2. induction (lin_closed n2) as [|x l IH]; [exact I|]. destruct l as [|y l]; [exact I|].
      cbn [map] in *. destruct I2 as [A B]. split; [lra|]. apply IH. exact B.
    + intros d e. left. unfold lin_open. rewrite last_map_seq.
      assert (In (INR (0 + n1) / INR (S n1)) (lin_open (S n1))) as Hin.
      { unfold lin_open. apply in_map_iff. exists n1. split; [reflexivity|]. apply in_seq. lia. }
      apply R1 in Hin. destruct (lin_closed n2) as [|x l]; [congruence|]. cbn in F2 |- *. cbn in Hin. lra.
  - intros s Hs. change (INR (length [a; b; c] - 1)) with 2. apply in_app_iff in Hs as [Hs|Hs].
    + apply R1 in Hs. lra.
    + apply in_map_iff in Hs as (t & <- & Ht). apply R2 in Ht. lra.
  - intros j Hj. cbn in Hj. apply in_app_iff. destruct j as [|j].
    + left. unfold lin_open. apply in_map_iff. exists O. split; [cbn [INR]; unfold Rdiv; apply Rmult_0_l|apply in_seq; lia].
    + right. apply in_map_iff. exists (INR j). split; [rewrite S_INR; ring|]. apply V2. cbn. lia.
  - cbn [lin_open seq map app nth]. unfold lin_open. cbn [seq map app nth INR]. unfold Rdiv. apply Rmult_0_l.
  - rewrite last_app_r by (destruct (lin_closed n2); [congruence|discriminate]).
    change (INR (length [a; b; c] - 1)) with (1 + 1). rewrite <- L2 at 2.
    clear - NE. induction (lin_closed n2) as [|x l IH]; [congruence|]. destruct l as [|y l]; [reflexivity|].
    cbn [map last] in *. apply IH. discriminate.
  - rewrite map_app, map_map. f_equal.
    + apply map_ext_in. intros s Hs. apply R1 in Hs. cbn [polyline]. destruct (Rle_dec s 1); [reflexivity|lra].
    + apply map_ext_in. intros t Ht. apply R2 in Ht. cbn [polyline].
      destruct (Rle_dec (1 + t) 1) as [E|E].
      * assert (t = 0) by lra. subst t. unfold between, lerp. f_equal; ring.
      * replace (1 + t - 1) with t by ring. destruct (Rle_dec t 1); [reflexivity|lra].
Qed.

(** ** The discretised path *)
Lemma pnorm_sub_pos (a b : pt) : a <> b -> 0 < pnorm (psub b a).
Proof.
  intros H. destruct (Rle_lt_or_eq_dec 0 (pnorm (psub b a)) (pnorm_nonneg _)) as [E|E]; [exact E|]. exfalso. apply H.
  pose proof (pnorm_sq (psub b a)) as S. rewrite <- E in S. unfold psub in S. cbn [fst snd] in S.
  destruct a as [a1 a2], b as [b1 b2]. cbn [fst snd] in *.
  pose proof (Rle_0_sqr (b1 - a1)) as Q1. pose proof (Rle_0_sqr (b2 - a2)) as Q2. unfold Rsqr in *.
  assert (b1 - a1 = 0) by (apply Rsqr_0_uniq; unfold Rsqr; lra).
  assert (b2 - a2 = 0) by (apply Rsqr_0_uniq; unfold Rsqr; lra).
  f_equal; lra.
Qed.
Lemma path_two H a b : a <> b -> path_points H [a; b] = Ok (map (fun t => (lerp a b t, O)) (lin_closed H)).
Proof.
  intros Hab. pose proof (pnorm_sub_pos a b Hab) as P. unfold path_points. cbn [seg_lengths Rsum].
  destruct (Rltb 0 (pnorm (psub b a) + 0)) eqn:E; [|apply Rltb_false in E; lra].
  rewrite counts_one by exact P. cbn [sample_segments].
  destruct (Z.ltb_spec (Z.of_nat H) 0); [lia|]. rewrite Nat2Z.id, app_nil_r. reflexivity.
Qed.
Lemma path_three H a b c : a <> b -> b <> c -> (4 <= H)%nat ->
  exists n1 n2, (2 <= n1)%nat /\ (2 <= n2)%nat /\ (n1 + n2 = H)%nat /\
  path_points H [a; b; c] = Ok (map (fun t => (lerp a b t, O)) (lin_open n1) ++ map (fun t => (lerp b c t, 1%nat)) (lin_closed n2)).
Proof.
  intros Hab Hbc HH. pose proof (pnorm_sub_pos a b Hab) as P. pose proof (pnorm_sub_pos b c Hbc) as Q.
  unfold path_points. cbn [seg_lengths].
  destruct (Rltb 0 _) eqn:E; [|apply Rltb_false in E; cbn [Rsum] in E; lra].
  destruct (counts_two H _ _ P Q HH) as (n1 & n2 & -> & A & B & C).
  exists n1, n2. split; [exact A|]. split; [exact B|]. split; [exact C|]. cbn [sample_segments].
  destruct (Z.ltb_spec (Z.of_nat n1) 0); [lia|]. destruct (Z.ltb_spec (Z.of_nat n2) 0); [lia|].
  rewrite !Nat2Z.id, app_nil_r. reflexivity.
Qed.
Lemma lin_closed_length n : length (lin_closed n) = n.
Proof. unfold lin_closed. rewrite map_length, seq_length. reflexivity. Qed.
Lemma lin_open_length n : length (lin_open n) = n.
Proof. unfold lin_open. rewrite map_length, seq_length. reflexivity. Qed.
Lemma fix_length_id H W xg ps : length ps = H -> fix_length H W xg ps = ps.
Proof. intros <-. unfold fix_length. rewrite Nat.ltb_irrefl. reflexivity. Qed.

(** ** Rows *)
Notation row0 := no_row.
Lemma heading_rows_cons pref g1 g2 fin prev a k b k' ps :
  heading_rows pref g1 g2 fin prev ((a, k) :: (b, k') :: ps) =
  let theta := if moves a b
               then (if Z.eqb pref (-1) || Z.eqb pref (-2) then atan2 (snd b - snd a) (fst b - fst a) + PI
                     else atan2 (snd b - snd a) (fst b - fst a))
               else prev in
  let th := if Nat.eqb k fin then theta else 0 in
  mkRef (fst a) (snd a) th th (Nat.eqb k fin) :: heading_rows pref g1 g2 fin th ((b, k') :: ps).
Proof. reflexivity. Qed.
Lemma heading_rows_pos pref g1 g2 fin ps : forall prev, map f_pos (heading_rows pref g1 g2 fin prev ps) = map fst ps.
Proof.
  induction ps as [|[a k] ps IH]; intros prev; [reflexivity|]. destruct ps as [|[b k'] ps].
  - cbn. unfold f_pos. cbn. destruct a; reflexivity.
  - rewrite heading_rows_cons. cbv zeta. cbn [map]. rewrite IH. unfold f_pos. cbn. destruct a; reflexivity.
Qed.
Lemma heading_rows_mask pref g1 g2 fin ps : forall prev, map f_mask (heading_rows pref g1 g2 fin prev ps) = map (fun q => Nat.eqb (snd q) fin) ps.
Proof.
  induction ps as [|[a k] ps IH]; intros prev; [reflexivity|]. destruct ps as [|[b k'] ps].
  - reflexivity.
  - rewrite heading_rows_cons. cbv zeta. cbn [map]. rewrite IH. reflexivity.
Qed.
Lemma heading_rows_last pref g1 g2 fin ps : forall prev, ps <> [] ->
  f_th1 (last (heading_rows pref g1 g2 fin prev ps) row0) = g1 /\ f_th2 (last (heading_rows pref g1 g2 fin prev ps) row0) = g2.
Proof.
  induction ps as [|[a k] ps IH]; intros prev Hne; [congruence|]. destruct ps as [|[b k'] ps]; [split; reflexivity|].
  rewrite heading_rows_cons. cbv zeta. set (th := if Nat.eqb k fin then _ else _). clearbody th.
  specialize (IH th). destruct (heading_rows pref g1 g2 fin th ((b, k') :: ps)) eqn:E.
  - apply (f_equal (map f_pos)) in E. rewrite heading_rows_pos in E. discriminate.
  - cbn [last] in *. apply IH. discriminate.
Qed.
Definition backward (pref : Z) : bool := Z.eqb pref (-1) || Z.eqb pref (-2).
Lemma heading_rows_nth pref g1 g2 fin ps : forall prev i, (S i < length ps)%nat ->
  let r := nth i (heading_rows pref g1 g2 fin prev ps) row0 in
  let a := fst (nth i ps ((0, 0), O)) in
  let b := fst (nth (S i) ps ((0, 0), O)) in
  f_th1 r = f_th2 r /\ (f_mask r = false -> f_th1 r = 0) /\
  (f_mask r = true -> moves a b = true ->
     f_th1 r = if backward pref then atan2 (snd b - snd a) (fst b - fst a) + PI else atan2 (snd b - snd a) (fst b - fst a)).
Proof.
  induction ps as [|[a k] ps IH]; intros prev i Hi; [cbn in Hi; lia|]. destruct ps as [|[b k'] ps]; [cbn in Hi; lia|].
  destruct i as [|i].
  - rewrite heading_rows_cons. cbv zeta. cbn [nth fst f_th1 f_th2 f_mask]. split; [reflexivity|]. split.
    + intros ->. reflexivity.
    + intros -> ->. reflexivity.
  - rewrite heading_rows_cons. cbv zeta. set (th := if Nat.eqb k fin then _ else _). clearbody th.
    cbn [length] in Hi. specialize (IH th i). cbn [nth] in *. apply IH. cbn [length]. lia.
Qed.

Lemma moves_dir a b : moves a b = true -> fst b - fst a <> 0 \/ snd b - snd a <> 0.
Proof.
  unfold moves. intros H. apply orb_true_iff in H as [H|H]; apply Rltb_true in H; [left|right]; intros E; rewrite E, Rabs_R0 in H; lra.
Qed.
(** The heading written for a row points along (or, driving backward, against) the step. *)
Lemma step_heads a b : moves a b = true -> heads a b (atan2 (snd b - snd a) (fst b - fst a)).
Proof.
  intros H. destruct (atan2_dir _ _ (moves_dir a b H)) as (d & Hd & E1 & E2). exists d. split; [exact Hd|].
  destruct a as [a1 a2], b as [b1 b2]. cbn [fst snd] in *. f_equal; [rewrite <- E1|rewrite <- E2]; ring.
Qed.

(** ** Path choice *)
Lemma waypoints_chosen circ rect dir A B :
  chosen_path circ rect A (if horizontal dir then x_first A B else y_first A B)
    (if horizontal dir then y_first A B else x_first A B) B (waypoints circ rect dir A B).
Proof.
  unfold chosen_path, detour_clear, waypoints.
  replace (if horizontal dir then (fst B, snd A) else (fst A, snd B)) with (if horizontal dir then x_first A B else y_first A B) by (destruct (horizontal dir); reflexivity).
  replace (if horizontal dir then (fst A, snd B) else (fst B, snd A)) with (if horizontal dir then y_first A B else x_first A B) by (destruct (horizontal dir); reflexivity).
  set (M1 := if horizontal dir then x_first A B else y_first A B). set (M2 := if horizontal dir then y_first A B else x_first A B).
  rewrite <- !check_line_spec.
  destruct (check_line circ rect A B); cbn [negb]; [|left; auto]. right.
  destruct (check_line circ rect A M1), (check_line circ rect M1 B); cbn [negb andb];
    try (left; repeat split; congruence); right;
    destruct (check_line circ rect A M2), (check_line circ rect M2 B); cbn [negb andb];
    try (left; repeat split; try congruence; intros [? ?]; congruence);
    right; repeat split; try congruence; intros [? ?]; congruence.
Qed.
Lemma between_const_clear circ rect A B M : ~ line_clear circ rect A B -> detour_clear circ rect A M B -> A <> M /\ M <> B.
Proof. intros Hn [H1 H2]. split; intros E; subst M; auto. Qed.
Lemma chosen_shape circ rect A M1 M2 B W : chosen_path circ rect A M1 M2 B W -> A <> B ->
  W = (@cons pt A [B]) \/ exists M : pt, W = (@cons pt A (@cons pt M (@cons pt B nil))) /\ A <> M /\ M <> B.
Proof.
  intros [(_ & ->)|[(Hn & Hd & ->)|[(Hn & _ & Hd & ->)|(_ & _ & _ & ->)]]] Hab; auto;
    right; eexists; (split; [reflexivity|]); eapply between_const_clear; eauto.
Qed.
Lemma limit_id W m : (length W <= m)%nat -> limit_waypoints W m = W.
Proof. intros H. unfold limit_waypoints. destruct (Nat.ltb_spec m (length W)); [lia|reflexivity]. Qed.
Lemma chosen_length circ rect A M1 M2 B W : chosen_path circ rect A M1 M2 B W -> (length W <= 3)%nat.
Proof. intros [(_ & ->)|[(_ & _ & ->)|[(_ & _ & _ & ->)|(_ & _ & _ & ->)]]]; cbn; lia. Qed.

(** ** Shape of the path in general: a (possibly empty) first leg and a closed final leg *)
Lemma heads_scale A B P Q l th : 0 < l -> fst Q - fst P = l * (fst B - fst A) -> snd Q - snd P = l * (snd B - snd A) ->
  heads P Q th -> heads A B th.
Proof.
  intros Hl E1 E2 (d & Hd & EQ). exists (d / l). split; [apply Rdiv_lt_0_compat; assumption|].
  destruct A as [a1 a2], B as [b1 b2], P as [p1 p2], Q as [q1 q2]. cbn [fst snd] in *. injection EQ as EQ1 EQ2.
  f_equal; apply Rmult_eq_reg_l with l; try lra.
  - replace (l * (a1 + d / l * cos th)) with (l * a1 + d * cos th) by (field; lra). lra.
  - replace (l * (a2 + d / l * sin th)) with (l * a2 + d * sin th) by (field; lra). lra.
Qed.
Lemma heads_flip A B th : heads A B th -> heads B A (th + PI).
Proof.
  intros (d & Hd & E). exists d. split; [exact Hd|]. rewrite neg_cos, neg_sin.
  destruct A as [a1 a2], B as [b1 b2]. cbn [fst snd] in *. injection E as E1 E2. f_equal; lra.
Qed.

Section Rows.
Variables (pref : Z) (g1 g2 : R) (fin : nat) (b c : pt) (pre : list (pt * nat)) (n : nat).
Hypothesis Hn : (2 <= n)%nat.
Hypothesis Hpre : forall q, In q pre -> snd q <> fin.
Let ps := pre ++ map (fun t => (lerp b c t, fin)) (lin_closed n).
Let rows := heading_rows pref g1 g2 fin g1 ps.

Lemma rows_length : length rows = (length pre + n)%nat.
Proof.
  unfold rows. rewrite <- (map_length f_pos), heading_rows_pos, map_length. unfold ps.
  rewrite app_length, map_length, lin_closed_length. reflexivity.
Qed.
Lemma rows_mask i : (i < length rows)%nat -> (f_mask (nth i rows row0) = true <-> (length pre <= i)%nat).
Proof.
  intros Hi. change (f_mask (nth i rows row0)) with (f_mask (nth i rows row0)).
  change false with (f_mask row0). rewrite <- map_nth. unfold rows. rewrite heading_rows_mask. unfold ps. rewrite map_app.
  rewrite rows_length in Hi.
  destruct (Nat.lt_ge_cases i (length pre)) as [L|L].
  - rewrite app_nth1 by (rewrite map_length; exact L). split; [|lia]. intros E. exfalso.
    rewrite nth_indep with (d' := Nat.eqb (snd ((0, 0), fin)) fin) in E by (rewrite map_length; exact L).
    rewrite (map_nth (fun q : pt * nat => Nat.eqb (snd q) fin)) in E. apply Nat.eqb_eq in E.
    apply (Hpre (nth i pre ((0, 0), fin))); [apply nth_In; exact L|exact E].
  - split; [intros _; exact L|intros _]. rewrite app_nth2 by (rewrite map_length; exact L). rewrite map_length, map_map.
    cbn [snd]. rewrite Nat.eqb_refl.
    assert (Hk : (i - length pre < length (lin_closed n))%nat) by (rewrite lin_closed_length; lia).
    destruct (nth_in_or_default (i - length pre) (map (fun _ : R => true) (lin_closed n)) (f_mask row0)) as [H|H].
    + apply in_map_iff in H as (? & <- & _). reflexivity.
    + exfalso. rewrite nth_indep with (d' := true) in H by (rewrite map_length; exact Hk).
      rewrite (map_nth (fun _ : R => true) (lin_closed n) 0) in H. discriminate.
Qed.
Lemma leg_nth i : (length pre <= i < length pre + n)%nat ->
  fst (nth i ps ((0, 0), O)) = lerp b c (INR (i - length pre) / INR (n - 1)).
Proof.
  intros Hi. unfold ps. rewrite app_nth2 by lia.
  rewrite nth_indep with (d' := (fun t => (lerp b c t, fin)) (INR 0 / INR (n - 1))) by (rewrite map_length, lin_closed_length; lia).
  rewrite (map_nth (fun t => (lerp b c t, fin))). cbn [fst]. f_equal. unfold lin_closed.
  rewrite (map_nth (fun k => INR k / INR (n - 1))). rewrite seq_nth by lia. reflexivity.
Qed.
Lemma rows_headings i : (S i < length rows)%nat ->
  let r := nth i rows row0 in
  f_th1 r = f_th2 r /\ (f_mask r = false -> f_th1 r = 0) /\
  (f_mask r = true -> 2 / 1000000 * INR (length rows) <= dist c b ->
     if backward pref then heads c b (f_th1 r) else heads b c (f_th1 r)).
Proof.
  intros Hi r. 
  destruct (heading_rows_nth pref g1 g2 fin ps g1 i) as (A & B & C).
  { unfold rows in Hi. rewrite <- (map_length f_pos), heading_rows_pos, map_length in Hi. exact Hi. }
  split; [exact A|]. split; [exact B|]. intros Hm Hd.
  assert (Hle : (length pre <= i)%nat) by (apply rows_mask in Hm; [exact Hm|lia]).
  specialize (C Hm). rewrite rows_length in *.
  rewrite !leg_nth in C by lia.
  set (P := lerp b c (INR (i - length pre) / INR (n - 1))) in *.
  set (Q := lerp b c (INR (S i - length pre) / INR (n - 1))) in *.
  assert (Pn : 0 < INR (n - 1)) by (apply lt_0_INR; lia).
  assert (E1 : fst Q - fst P = / INR (n - 1) * (fst c - fst b)).
  { unfold P, Q, lerp. cbn [fst]. replace (S i - length pre)%nat with (S (i - length pre)) by lia. rewrite S_INR. field. lra. }
  assert (E2 : snd Q - snd P = / INR (n - 1) * (snd c - snd b)).
  { unfold P, Q, lerp. cbn [snd]. replace (S i - length pre)%nat with (S (i - length pre)) by lia. rewrite S_INR. field. lra. }
  assert (M : moves P Q = true).
  { destruct (moves P Q) eqn:E; [reflexivity|]. exfalso. unfold moves in E. apply orb_false_iff in E as [U V].
    apply Rltb_false in U. apply Rltb_false in V.
    rewrite E1, Rabs_mult, Rabs_inv, (Rabs_pos_eq (INR (n - 1))) in U by lra.
    rewrite E2, Rabs_mult, Rabs_inv, (Rabs_pos_eq (INR (n - 1))) in V by lra.
    assert (G : forall z, / INR (n - 1) * Rabs z <= 1 / 1000000 -> Rabs z <= 1 / 1000000 * INR (n - 1)).
    { intros z Hz. apply (Rmult_le_compat_l (INR (n - 1))) in Hz; [|lra]. rewrite <- Rmult_assoc, Rinv_r, Rmult_1_l in Hz; lra. }
    apply G in U. apply G in V.
    assert (Hlt : INR (n - 1) < INR (length pre + n)) by (apply lt_INR; lia).
    assert (D2 : dist c b <= Rabs (fst c - fst b) + Rabs (snd c - snd b)).
    { unfold dist, dist2. apply Rsqr_incr_0_var; [|pose proof (Rabs_pos (fst c - fst b)); pose proof (Rabs_pos (snd c - snd b)); lra].
      rewrite Rsqr_sqrt; [|pose proof (Rle_0_sqr (fst c - fst b)); pose proof (Rle_0_sqr (snd c - snd b)); unfold Rsqr in *; lra].
      unfold Rsqr. rewrite <- (Rabs_sq (fst c - fst b)), <- (Rabs_sq (snd c - snd b)).
      pose proof (Rmult_le_pos _ _ (Rabs_pos (fst c - fst b)) (Rabs_pos (snd c - snd b))). lra. }
    lra. }
  specialize (C M). fold r in C. pose proof (step_heads P Q M) as SH.
  apply (heads_scale b c) with (l := / INR (n - 1)) in SH; [|apply Rinv_0_lt_compat; exact Pn|exact E1|exact E2].
  unfold r in *. destruct (backward pref); cbv zeta in C; fold rows in C; rewrite C; [apply heads_flip|]; exact SH.
Qed.
Lemma rows_last : f_th1 (last rows row0) = g1 /\ f_th2 (last rows row0) = g2.
Proof.
  unfold rows. apply heading_rows_last. unfold ps. intros E. apply app_eq_nil in E as [_ E].
  apply (f_equal (@length _)) in E. rewrite map_length, lin_closed_length in E. cbn in E. lia.
Qed.
Lemma rows_pos : ref_positions rows = map fst ps.
Proof. unfold rows. rewrite <- (heading_rows_pos pref g1 g2 fin ps g1). reflexivity. Qed.
End Rows.

(** ** Main theorem *)
Lemma nth_lin_closed n i d : (i < n)%nat -> nth i (lin_closed n) d = INR i / INR (n - 1).
Proof.
  intros H. rewrite nth_indep with (d' := INR 0 / INR (n - 1)) by (rewrite lin_closed_length; exact H).
  unfold lin_closed. rewrite (map_nth (fun k => INR k / INR (n - 1))), seq_nth by exact H. reflexivity.
Qed.
Definition demo_facts (H : nat) (W : list point) (xg : ttq) (pref : Z) (rows : list refrow) (ss : list R) : Prop :=
  length rows = H /\
  runs_along W (ref_positions rows) ss /\
  (forall i, (i < H)%nat -> (f_mask (nth i rows row0) = true <-> INR (length W - 2) <= nth i ss 0)) /\
  (f_th1 (last rows row0) = t_th1 xg /\ f_th2 (last rows row0) = t_th2 xg) /\
  (forall i, (S i < H)%nat -> let r := nth i rows row0 in
     f_th1 r = f_th2 r /\ (f_mask r = false -> f_th1 r = 0) /\
     (f_mask r = true ->
      let B := nth (length W - 2) W (0, 0) in let C := nth (length W - 1) W (0, 0) in
      2 / 1000000 * INR H <= dist C B -> if backward pref then heads C B (f_th1 r) else heads B C (f_th1 r))).

Lemma demo_main H circ rect x0 xg dir wmax pref W :
  (3 <= wmax)%nat -> x0 <> (t_px xg, t_py xg) ->
  W = waypoints circ rect dir x0 (t_px xg, t_py xg) ->
  (4 <= H)%nat \/ ((2 <= H)%nat /\ length W = 2%nat) ->
  exists rows ss, demo H circ rect x0 xg dir wmax pref = Ok rows /\ demo_facts H W xg pref rows ss.
Proof.
  intros Hw Hne HW HH. set (gp := (t_px xg, t_py xg)) in *.
  pose proof (waypoints_chosen circ rect dir x0 gp) as Ch. rewrite <- HW in Ch.
  pose proof (chosen_length _ _ _ _ _ _ _ Ch) as HL.
  unfold demo. fold gp. rewrite <- HW. rewrite (limit_id W wmax) by (eapply Nat.le_trans; [exact HL|exact Hw]).
  destruct (chosen_shape _ _ _ _ _ _ _ Ch Hne) as [E|(M & E & N1 & N2)]; rewrite E.
  - assert (H2 : (2 <= H)%nat) by (destruct HH; lia). 
    rewrite path_two by exact Hne. rewrite fix_length_id by (rewrite map_length, lin_closed_length; reflexivity).
    destruct (map (fun t => (lerp x0 gp t, O)) (lin_closed H)) as [|q qs] eqn:Eq.
    { apply (f_equal (@length _)) in Eq. rewrite map_length, lin_closed_length in Eq. cbn in Eq. lia. }
    rewrite <- Eq. clear q qs Eq. change (final_segment [x0; gp]) with O.
    assert (Hp : forall q : pt * nat, In q [] -> snd q <> O) by (intros q []).
    eexists. exists (lin_closed H). split; [reflexivity|].
    pose proof (rows_length pref (t_th1 xg) (t_th2 xg) O x0 gp [] H) as RL.
    pose proof (fun i => rows_mask pref (t_th1 xg) (t_th2 xg) O x0 gp [] H H2 Hp i) as RM.
    pose proof (fun i => rows_headings pref (t_th1 xg) (t_th2 xg) O x0 gp [] H H2 Hp i) as RH.
    pose proof (rows_last pref (t_th1 xg) (t_th2 xg) O x0 gp [] H H2) as RT.
    pose proof (rows_pos pref (t_th1 xg) (t_th2 xg) O x0 gp [] H) as RP.
    cbn [app length Nat.add] in RL, RM, RH, RT, RP. 
    set (rows := heading_rows _ _ _ _ _ _) in *. clearbody rows.
    split; [exact RL|]. split; [|split; [|split]].
    + rewrite RP, map_map. apply runs_two_corners. exact H2.
    + intros i Hi. rewrite RL in RM. rewrite (RM i Hi). change (INR (length [x0; gp] - 2)) with 0.
      rewrite nth_lin_closed by exact Hi. split; [intros _|lia].
      assert (0 < INR (H - 1)) by (apply lt_0_INR; lia).
      apply Rmult_le_pos; [apply pos_INR|left; apply Rinv_0_lt_compat; assumption].
    + exact RT.
    + intros i Hi. rewrite RL in RH. exact (RH i Hi).
  - assert (H4 : (4 <= H)%nat) by (destruct HH as [?|[_ HW2]]; [assumption|]; rewrite E in HW2; discriminate).
    destruct (path_three H x0 M gp N1 N2 H4) as (n1 & n2 & A1 & A2 & A3 & ->).
    rewrite fix_length_id by (rewrite app_length, !map_length, lin_closed_length, lin_open_length; exact A3).
    destruct (map (fun t => (lerp x0 M t, O)) (lin_open n1) ++ map (fun t => (lerp M gp t, 1%nat)) (lin_closed n2)) as [|q qs] eqn:Eq.
    { apply (f_equal (@length _)) in Eq. rewrite app_length, !map_length, lin_open_length, lin_closed_length in Eq. cbn in Eq. lia. }
    rewrite <- Eq. clear q qs Eq. change (final_segment [x0; M; gp]) with 1%nat.
    set (pre := map (fun t => (lerp x0 M t, O)) (lin_open n1)).
    assert (Lp : length pre = n1) by (unfold pre; rewrite map_length, lin_open_length; reflexivity).
    assert (Hp : forall q : pt * nat, In q pre -> snd q <> 1%nat).
    { intros q Hq. apply in_map_iff in Hq as (t & <- & _). discriminate. }
    eexists. exists (lin_open n1 ++ map (fun t => 1 + t) (lin_closed n2)). split; [reflexivity|].
    pose proof (rows_length pref (t_th1 xg) (t_th2 xg) 1 M gp pre n2) as RL.
    pose proof (fun i => rows_mask pref (t_th1 xg) (t_th2 xg) 1 M gp pre n2 A2 Hp i) as RM.
    pose proof (fun i => rows_headings pref (t_th1 xg) (t_th2 xg) 1 M gp pre n2 A2 Hp i) as RH.
    pose proof (rows_last pref (t_th1 xg) (t_th2 xg) 1 M gp pre n2 A2) as RT.
    pose proof (rows_pos pref (t_th1 xg) (t_th2 xg) 1 M gp pre n2) as RP.
    rewrite Lp in RL, RM. rewrite A3 in RL.
    set (rows := heading_rows _ _ _ _ _ _) in *. clearbody rows.
    split; [exact RL|]. split; [|split; [|split]].
    + rewrite RP. unfold pre. rewrite map_app, !map_map. apply runs_three_corners; lia.
    + intros i Hi. rewrite RL in RM. rewrite (RM i Hi). change (INR (length [x0; M; gp] - 2)) with 1.
      destruct (Nat.lt_ge_cases i n1) as [L|L].
      * rewrite app_nth1 by (rewrite lin_open_length; exact L). split; [lia|]. intros Hc. exfalso.
        rewrite nth_indep with (d' := INR 0 / INR n1) in Hc by (rewrite lin_open_length; exact L).
        unfold lin_open in Hc. rewrite (map_nth (fun k => INR k / INR n1)), seq_nth in Hc by exact L.
        rewrite Nat.add_0_l in Hc. assert (P : 0 < INR n1) by (apply lt_0_INR; lia). apply lt_INR in L.
        apply (Rmult_le_compat_r (INR n1)) in Hc; [|lra]. unfold Rdiv in Hc. rewrite Rmult_assoc, Rinv_l in Hc; lra.
      * split; [intros _|intros _; exact L]. rewrite app_nth2 by (rewrite lin_open_length; exact L). rewrite lin_open_length.
        rewrite nth_indep with (d' := 1 + 0) by (rewrite map_length, lin_closed_length; lia).
        rewrite (map_nth (fun t => 1 + t)), nth_lin_closed by lia.
        assert (0 < INR (n2 - 1)) by (apply lt_0_INR; lia).
        assert (0 <= INR (i - n1) / INR (n2 - 1)); [|lra].
        apply Rmult_le_pos; [apply pos_INR|left; apply Rinv_0_lt_compat; assumption].
    + exact RT.
    + intros i Hi. rewrite RL in RH. exact (RH i Hi).
Qed.

(** Goal position equal to the start position: every row stands there. *)
Lemma demo_still H circ rect x0 xg dir wmax pref : (3 <= wmax)%nat -> (1 <= H)%nat -> x0 = (t_px xg, t_py xg) ->
  exists rows, demo H circ rect x0 xg dir wmax pref = Ok rows /\ length rows = H /\
    (forall P, In P (ref_positions rows) -> P = x0) /\
    f_th1 (last rows row0) = t_th1 xg /\ f_th2 (last rows row0) = t_th2 xg.
Proof.
  intros Hw HH E. unfold demo. rewrite <- E.
  assert (HW : waypoints circ rect dir x0 x0 = [x0; x0] ). 
  { unfold waypoints. destruct (check_line circ rect x0 x0) eqn:Ec; [|reflexivity]. cbn [negb].
    destruct x0 as [u v]. cbn [fst snd]. destruct (horizontal dir); rewrite Ec; reflexivity. }
  rewrite HW, limit_id by (cbn; lia).
  unfold path_points. cbn [seg_lengths Rsum].
  assert (Z0 : pnorm (psub x0 x0) = 0).
  { unfold pnorm, psub. cbn [fst snd]. rewrite !Rminus_diag_eq by reflexivity. rewrite Rmult_0_l, Rplus_0_l. apply sqrt_0. }
  rewrite Z0. destruct (Rltb 0 (0 + 0)) eqn:E0; [apply Rltb_true in E0; lra|].
  rewrite fix_length_id by apply repeat_length.
  match goal with |- context [repeat ?z H] => remember (repeat z H) as ps eqn:Eq end.
  assert (Lps : length ps = H) by (rewrite Eq; apply repeat_length).
  assert (Hin : forall q, In q ps -> fst q = x0) by (intros q Hq; rewrite Eq in Hq; apply repeat_spec in Hq; subst q; reflexivity).
  clear Eq. destruct ps as [|q qs]; [cbn in Lps; lia|].
  eexists. split; [reflexivity|]. split; [|split].
  - rewrite <- (map_length f_pos), heading_rows_pos, map_length. exact Lps.
  - intros P HP. assert (HP' : In P (map fst (q :: qs))).
    { rewrite <- (heading_rows_pos pref (t_th1 xg) (t_th2 xg) (final_segment [x0; x0]) (q :: qs) (t_th1 xg)). exact HP. }
    apply in_map_iff in HP' as (z & <- & Hz). apply Hin. exact Hz.
  - apply heading_rows_last. discriminate.
Qed.

Lemma facts_shape H W xg pref rows ss : demo_facts H W xg pref rows ss -> demo_shape H W (t_th1 xg) (t_th2 xg) pref rows.
Proof.
  intros (A & B & C & D & E). exists ss. split; [exact A|]. split; [exact B|]. split; [exact C|]. split; [exact D|].
  intros i Hi r. destruct (E i Hi) as (E1 & E2 & E3). split; [exact E1|]. split; [exact E2|].
  intros Hm B0 C0 Hd. specialize (E3 Hm Hd). unfold backward in E3. split.
  - intros [->| ->]; exact E3.
  - intros [P1 P2]. destruct (Z.eqb_spec pref (-1)); [contradiction|]. destruct (Z.eqb_spec pref (-2)); [contradiction|]. exact E3.
Qed.
Definition mid (dir : string) (A B : point) : point := if String.eqb dir "horizontal" then x_first A B else y_first A B.
Definition mid' (dir : string) (A B : point) : point := if String.eqb dir "horizontal" then y_first A B else x_first A B.

Lemma demo_shape_ok H circ rect x0 xg dir wmax pref : (3 <= wmax)%nat -> (4 <= H)%nat -> x0 <> (t_px xg, t_py xg) ->
  exists W rows, demo H circ rect x0 xg dir wmax pref = Ok rows /\
    chosen_path circ rect x0 (mid dir x0 (t_px xg, t_py xg)) (mid' dir x0 (t_px xg, t_py xg)) (t_px xg, t_py xg) W /\
    demo_shape H W (t_th1 xg) (t_th2 xg) pref rows.
Proof.
  intros Hw HH Hne.
  destruct (demo_main H circ rect x0 xg dir wmax pref _ Hw Hne eq_refl (or_introl HH)) as (rows & ss & E & F).
  eexists. exists rows. split; [exact E|]. split; [apply waypoints_chosen|]. apply (facts_shape _ _ _ _ _ _ F).
Qed.
Lemma chosen_ends circ rect A M1 M2 B W : chosen_path circ rect A M1 M2 B W -> nth 0 W (0, 0) = A /\ last W (0, 0) = B.
Proof. intros [(_ & ->)|[(_ & _ & ->)|[(_ & _ & _ & ->)|(_ & _ & _ & ->)]]]; split; reflexivity. Qed.
Lemma polyline_start W : W <> [] -> polyline W 0 = nth 0 W (0, 0).
Proof.
  destruct W as [|A [|B W]]; [congruence|reflexivity|]. intros _. cbn [polyline nth].
  destruct (Rle_dec 0 1); [|lra]. unfold between. destruct A as [a1 a2]; cbn [fst snd]. f_equal; ring.
Qed.
Lemma polyline_end W : W <> [] -> polyline W (INR (length W - 1)) = last W (0, 0).
Proof.
  induction W as [|A W IH]; [congruence|]. intros _. destruct W as [|B W]; [reflexivity|].
  destruct W as [|C W].
  - change (INR (length [A; B] - 1)) with 1. cbn [polyline last]. destruct (Rle_dec 1 1); [|lra].
    unfold between. destruct A, B; cbn [fst snd]. f_equal; ring.
  - replace (length (A :: B :: C :: W) - 1)%nat with (S (length (B :: C :: W) - 1)) by (cbn; lia).
    change (polyline (A :: B :: C :: W)) with (fun s => if Rle_dec s 1 then between A B s else polyline (B :: C :: W) (s - 1)).
    cbv beta. rewrite S_INR. destruct (Rle_dec _ 1) as [L|L].
    + exfalso. replace (length (B :: C :: W) - 1)%nat with (S (length W)) in L by (cbn; lia). rewrite S_INR in L. pose proof (pos_INR (length W)). lra.
    + replace (INR (length (B :: C :: W) - 1) + 1 - 1) with (INR (length (B :: C :: W) - 1)) by ring.
      rewrite IH by discriminate. reflexivity.
Qed.
Lemma map_last_ne {A B} (f : A -> B) l d e : l <> [] -> last (map f l) e = f (last l d).
Proof.
  induction l as [|x l IH]; [congruence|]. intros _. destruct l as [|y l]; [reflexivity|].
  cbn [map last] in *. apply IH. discriminate.
Qed.
Lemma shape_ends H W g1 g2 pref rows : W <> [] -> (1 <= H)%nat -> demo_shape H W g1 g2 pref rows ->
  nth 0 (ref_positions rows) (0, 0) = nth 0 W (0, 0) /\ last (ref_positions rows) (0, 0) = last W (0, 0).
Proof.
  intros HW HH (ss & L & (_ & _ & _ & F & T & E) & _). rewrite E.
  assert (NE : ss <> []). { intros ->. apply (f_equal (@length _)) in E. unfold ref_positions in E. rewrite map_length in E. cbn in E. lia. }
  rewrite (map_last_ne _ ss (-1)) by exact NE. rewrite T. rewrite polyline_end by exact HW. split; [|reflexivity].
  destruct ss as [|s ss]; [congruence|]. cbn in F |- *. subst s. apply polyline_start. exact HW.
Qed.

Lemma demo_full H circ rect x0 xg dir wmax pref : (3 <= wmax)%nat -> (4 <= H)%nat -> x0 <> (t_px xg, t_py xg) ->
  exists W rows, demo H circ rect x0 xg dir wmax pref = Ok rows /\
    chosen_path circ rect x0 (mid dir x0 (t_px xg, t_py xg)) (mid' dir x0 (t_px xg, t_py xg)) (t_px xg, t_py xg) W /\
    demo_shape H W (t_th1 xg) (t_th2 xg) pref rows /\
    nth 0 (ref_positions rows) (0, 0) = x0 /\ last (ref_positions rows) (0, 0) = (t_px xg, t_py xg) /\
    nth 0 W (0, 0) = x0 /\ last W (0, 0) = (t_px xg, t_py xg).
Proof.
  intros Hw HH Hne.
  destruct (demo_shape_ok H circ rect x0 xg dir wmax pref Hw HH Hne) as (W & rows & E & C & S).
  exists W, rows. split; [exact E|]. split; [exact C|]. split; [exact S|].
  destruct (chosen_ends _ _ _ _ _ _ _ C) as [W0 W1].
  assert (NE : W <> []) by (intros ->; destruct C as [(_ & ?)|[(_ & _ & ?)|[(_ & _ & _ & ?)|(_ & _ & _ & ?)]]]; discriminate).
  assert (H1 : (1 <= H)%nat) by lia.
  destruct (shape_ends H W _ _ _ rows NE H1 S) as [S0 S1].
  rewrite S0, S1, W0, W1. auto.
Qed.

(** C35, tractor-trailer: for every world, start, goal at a different position, direction,
    preference, H >= 4 and waypoint limit >= 3 (the callers use 4) the demonstration exists, is
    shaped as described along some path from the start to the goal, starts at the start position
    and ends at the goal position with the goal's headings. *)
Lemma l_C35_tt_demonstration_shape :
  forall s x0 dir wmax pref, (3 <= wmax)%nat -> (4 <= p_H (ts_p s))%nat ->
  (t_px x0, t_py x0) <> (t_px (ts_xg s), t_py (ts_xg s)) ->
  exists W rows, tt_demo s x0 dir wmax pref = Ok rows /\
    demo_shape (p_H (ts_p s)) W (t_th1 (ts_xg s)) (t_th2 (ts_xg s)) pref rows /\
    nth 0 (ref_positions rows) (0, 0) = (t_px x0, t_py x0) /\
    last (ref_positions rows) (0, 0) = (t_px (ts_xg s), t_py (ts_xg s)) /\
    nth 0 W (0, 0) = (t_px x0, t_py x0) /\ last W (0, 0) = (t_px (ts_xg s), t_py (ts_xg s)).
Proof.
  intros s x0 dir wmax pref Hw HH Hne.
  destruct (demo_full (p_H (ts_p s)) (ts_circ s) (ts_rect s) _ (ts_xg s) dir wmax pref Hw HH Hne) as (W & rows & E & _ & R).
  exists W, rows. auto.
Qed.

(** C35, acceleration model: the same for the first four entries of its state. *)
Lemma l_C35_acc_demonstration_shape :
  forall s x0 dir wmax pref, (3 <= wmax)%nat -> (4 <= p_H (as_p s))%nat ->
  let xg := ts_xg (as_t s) in
  (t_px (a_q x0), t_py (a_q x0)) <> (t_px xg, t_py xg) ->
  exists W rows, acc_demo s x0 dir wmax pref = Ok rows /\
    demo_shape (p_H (as_p s)) W (t_th1 xg) (t_th2 xg) pref rows /\
    nth 0 (ref_positions rows) (0, 0) = (t_px (a_q x0), t_py (a_q x0)) /\
    last (ref_positions rows) (0, 0) = (t_px xg, t_py xg) /\
    nth 0 W (0, 0) = (t_px (a_q x0), t_py (a_q x0)) /\ last W (0, 0) = (t_px xg, t_py xg).
Proof. intros s x0 dir wmax pref Hw HH. exact (l_C35_tt_demonstration_shape (as_t s) (a_q x0) dir wmax pref Hw HH). Qed.

(** C35, bicycle: the same with a single heading (the second column is dropped). *)
Lemma l_C35_bk_demonstration_shape :
  forall s x0 dir wmax pref, (3 <= wmax)%nat -> (4 <= p_H (bs_p s))%nat ->
  let xg := bs_xg s in
  (b_px x0, b_py x0) <> (b_px xg, b_py xg) ->
  exists W rows, bk_demo s x0 dir wmax pref = Ok rows /\
    demo_shape (p_H (bs_p s)) W (b_th xg) (b_th xg) pref rows /\
    nth 0 (ref_positions rows) (0, 0) = (b_px x0, b_py x0) /\
    last (ref_positions rows) (0, 0) = (b_px xg, b_py xg) /\
    nth 0 W (0, 0) = (b_px x0, b_py x0) /\ last W (0, 0) = (b_px xg, b_py xg).
Proof.
  intros s x0 dir wmax pref Hw HH xg Hne.
  destruct (demo_full (p_H (bs_p s)) (bs_circ s) (bs_rect s) (b_px x0, b_py x0) (mkTT (b_px xg) (b_py xg) (b_th xg) (b_th xg)) dir wmax pref Hw HH Hne) as (W & rows & E & _ & R).
  exists W, rows. auto.
Qed.

(** C35, n-trailer with at least one trailer: the second heading is the first trailer's. *)
Lemma l_C35_nt_demonstration_shape :
  forall s x0 dir wmax pref th rest, (3 <= wmax)%nat -> (4 <= p_H (ns_p s))%nat ->
  let xg := ns_xg s in
  n_ths xg = th :: rest ->
  (n_px x0, n_py x0) <> (n_px xg, n_py xg) ->
  exists W rows, nt_demo s x0 dir wmax pref = Ok rows /\
    demo_shape (p_H (ns_p s)) W (n_th0 xg) th pref rows /\
    nth 0 (ref_positions rows) (0, 0) = (n_px x0, n_py x0) /\
    last (ref_positions rows) (0, 0) = (n_px xg, n_py xg) /\
    nth 0 W (0, 0) = (n_px x0, n_py x0) /\ last W (0, 0) = (n_px xg, n_py xg).
Proof.
  intros s x0 dir wmax pref th rest Hw HH xg Hth Hne. unfold nt_demo. fold xg. unfold nt_th1. rewrite Hth.
  destruct (demo_full (p_H (ns_p s)) (ns_circ s) (ns_rect s) (n_px x0, n_py x0) (mkTT (n_px xg) (n_py xg) (n_th0 xg) th) dir wmax pref Hw HH Hne) as (W & rows & E & _ & R).
  exists W, rows. auto.
Qed.

(** C35: when start and goal position coincide all rows stand there and the last row has the
    goal's headings. *)
Lemma l_C35_tt_start_is_goal :
  forall s x0 dir wmax pref, (3 <= wmax)%nat -> (1 <= p_H (ts_p s))%nat ->
  (t_px x0, t_py x0) = (t_px (ts_xg s), t_py (ts_xg s)) ->
  exists rows, tt_demo s x0 dir wmax pref = Ok rows /\ length rows = p_H (ts_p s) /\
    (forall P, In P (ref_positions rows) -> P = (t_px x0, t_py x0)) /\
    f_th1 (last rows no_row) = t_th1 (ts_xg s) /\ f_th2 (last rows no_row) = t_th2 (ts_xg s).
Proof. intros s x0 dir wmax pref Hw HH E. exact (demo_still _ _ _ _ _ _ _ _ Hw HH E). Qed.

(** C35, acceleration model, start position = goal position. *)
Lemma l_C35_acc_start_is_goal :
  forall s x0 dir wmax pref, (3 <= wmax)%nat -> (1 <= p_H (as_p s))%nat ->
  let xg := ts_xg (as_t s) in
  (t_px (a_q x0), t_py (a_q x0)) = (t_px xg, t_py xg) ->
  exists rows, acc_demo s x0 dir wmax pref = Ok rows /\ length rows = p_H (as_p s) /\
    (forall P, In P (ref_positions rows) -> P = (t_px (a_q x0), t_py (a_q x0))) /\
    f_th1 (last rows no_row) = t_th1 xg /\ f_th2 (last rows no_row) = t_th2 xg.
Proof. intros s x0 dir wmax pref Hw HH xg E. exact (demo_still _ _ _ _ _ _ _ _ Hw HH E). Qed.

(** C35, bicycle, start position = goal position. *)
Lemma l_C35_bk_start_is_goal :
  forall s x0 dir wmax pref, (3 <= wmax)%nat -> (1 <= p_H (bs_p s))%nat ->
  let xg := bs_xg s in
  (b_px x0, b_py x0) = (b_px xg, b_py xg) ->
  exists rows, bk_demo s x0 dir wmax pref = Ok rows /\ length rows = p_H (bs_p s) /\
    (forall P, In P (ref_positions rows) -> P = (b_px x0, b_py x0)) /\
    f_th1 (last rows no_row) = b_th xg.
Proof.
  intros s x0 dir wmax pref Hw HH xg E.
  destruct (demo_still (p_H (bs_p s)) (bs_circ s) (bs_rect s) (b_px x0, b_py x0) (mkTT (b_px xg) (b_py xg) (b_th xg) (b_th xg)) dir wmax pref Hw HH E)
    as (rows & A & B & C & F & _). exists rows. auto.
Qed.

(** C35, n-trailer with at least one trailer, start position = goal position. *)
Lemma l_C35_nt_start_is_goal :
  forall s x0 dir wmax pref th rest, (3 <= wmax)%nat -> (1 <= p_H (ns_p s))%nat ->
  let xg := ns_xg s in
  n_ths xg = th :: rest ->
  (n_px x0, n_py x0) = (n_px xg, n_py xg) ->
  exists rows, nt_demo s x0 dir wmax pref = Ok rows /\ length rows = p_H (ns_p s) /\
    (forall P, In P (ref_positions rows) -> P = (n_px x0, n_py x0)) /\
    f_th1 (last rows no_row) = n_th0 xg /\ f_th2 (last rows no_row) = th.
Proof.
  intros s x0 dir wmax pref th rest Hw HH xg Hth E. unfold nt_demo. fold xg. unfold nt_th1. rewrite Hth.
  exact (demo_still (p_H (ns_p s)) (ns_circ s) (ns_rect s) (n_px x0, n_py x0) (mkTT (n_px xg) (n_py xg) (n_th0 xg) th) dir wmax pref Hw HH E).
Qed.

(** C36, tractor-trailer: which path the demonstration runs along. *)
Lemma l_C36_tt_path_choice :
  forall s x0 dir wmax pref, (3 <= wmax)%nat -> (4 <= p_H (ts_p s))%nat ->
  let A := (t_px x0, t_py x0) in
  let B := (t_px (ts_xg s), t_py (ts_xg s)) in
  A <> B ->
  exists W rows ss, tt_demo s x0 dir wmax pref = Ok rows /\ runs_along W (ref_positions rows) ss /\
    (dir = "horizontal"%string -> chosen_path (ts_circ s) (ts_rect s) A (x_first A B) (y_first A B) B W) /\
    (dir <> "horizontal"%string -> chosen_path (ts_circ s) (ts_rect s) A (y_first A B) (x_first A B) B W).
Proof.
  intros s x0 dir wmax pref Hw HH A B Hne.
  destruct (demo_full (p_H (ts_p s)) (ts_circ s) (ts_rect s) A (ts_xg s) dir wmax pref Hw HH Hne) as (W & rows & E & C & (ss & _ & R & _) & _).
  exists W, rows, ss. split; [exact E|]. split; [exact R|]. unfold mid, mid' in C. split; intros Hd.
  - subst dir. exact C.
  - destruct (String.eqb_spec dir "horizontal"); [contradiction|exact C].
Qed.
(** C36, bicycle. *)
Lemma l_C36_bk_path_choice :
  forall s x0 dir wmax pref, (3 <= wmax)%nat -> (4 <= p_H (bs_p s))%nat ->
  let A := (b_px x0, b_py x0) in
  let B := (b_px (bs_xg s), b_py (bs_xg s)) in
  A <> B ->
  exists W rows ss, bk_demo s x0 dir wmax pref = Ok rows /\ runs_along W (ref_positions rows) ss /\
    (dir = "horizontal"%string -> chosen_path (bs_circ s) (bs_rect s) A (x_first A B) (y_first A B) B W) /\
    (dir <> "horizontal"%string -> chosen_path (bs_circ s) (bs_rect s) A (y_first A B) (x_first A B) B W).
Proof.
  intros s x0 dir wmax pref Hw HH A B Hne.
  destruct (demo_full (p_H (bs_p s)) (bs_circ s) (bs_rect s) A (mkTT (fst B) (snd B) (b_th (bs_xg s)) (b_th (bs_xg s))) dir wmax pref Hw HH Hne) as (W & rows & E & C & (ss & _ & R & _) & _).
  exists W, rows, ss. split; [exact E|]. split; [exact R|]. unfold mid, mid' in C. split; intros Hd.
  - subst dir. exact C.
  - destruct (String.eqb_spec dir "horizontal"); [contradiction|exact C].
Qed.
(** C36, n-trailer. *)
Lemma l_C36_nt_path_choice :
  forall s x0 dir wmax pref, (3 <= wmax)%nat -> (4 <= p_H (ns_p s))%nat ->
  let A := (n_px x0, n_py x0) in
  let B := (n_px (ns_xg s), n_py (ns_xg s)) in
  A <> B ->
  exists W rows ss, nt_demo s x0 dir wmax pref = Ok rows /\ runs_along W (ref_positions rows) ss /\
    (dir = "horizontal"%string -> chosen_path (ns_circ s) (ns_rect s) A (x_first A B) (y_first A B) B W) /\
    (dir <> "horizontal"%string -> chosen_path (ns_circ s) (ns_rect s) A (y_first A B) (x_first A B) B W).
Proof.
  intros s x0 dir wmax pref Hw HH A B Hne.
  destruct (demo_full (p_H (ns_p s)) (ns_circ s) (ns_rect s) A (mkTT (fst B) (snd B) (n_th0 (ns_xg s)) (nt_th1 (ns_xg s))) dir wmax pref Hw HH Hne) as (W & rows & E & C & (ss & _ & R & _) & _).
  exists W, rows, ss. split; [exact E|]. split; [exact R|]. unfold mid, mid' in C. split; intros Hd.
  - subst dir. exact C.
  - destruct (String.eqb_spec dir "horizontal"); [contradiction|exact C].
Qed.

(** ** Too few rows, waypoint limits *)
Lemma detour_waypoints circ rect dir A B : ~ line_clear circ rect A B -> detour_clear circ rect A (mid dir A B) B ->
  waypoints circ rect dir A B = [A; mid dir A B; B] /\ A <> mid dir A B /\ mid dir A B <> B.
Proof.
  intros Hn Hd. split; [|eapply between_const_clear; eauto].
  pose proof (waypoints_chosen circ rect dir A B) as C. unfold mid, horizontal in *.
  destruct C as [(H & _)|[(_ & _ & E)|[(_ & H & _)|(_ & H & _)]]]; try contradiction. exact E.
Qed.
Lemma round_small x : 0 <= x <= 2 -> (Z.max 2 (round_even x) = 2)%Z.
Proof.
  intros H. pose proof (round_even_near x) as R. assert (round_even x < 3)%Z; [|lia]. apply lt_IZR. lra.
Qed.
Lemma counts_tiny H l1 l2 : 0 < l1 -> 0 < l2 -> (H <= 2)%nat -> counts H [l1; l2] = [Z.of_nat H - 2; 2]%Z.
Proof.
  intros H1 H2 HH. unfold counts, raw_counts, Zsum, argmax. cbn [map Rsum fold_left argmax_from].
  replace (l1 + (l2 + 0)) with (l1 + l2) by ring.
  assert (B : forall l, 0 < l -> l <= l1 + l2 -> 0 <= INR H * l / (l1 + l2) <= 2).
  { intros l Hl Hl2. pose proof (pos_INR H). apply le_INR in HH. change (INR 2) with 2 in HH.
    assert (0 <= l / (l1 + l2) <= 1).
    { split; [apply Rmult_le_pos; [lra|left; apply Rinv_0_lt_compat; lra]|].
      apply Rmult_le_reg_r with (l1 + l2); [lra|]. unfold Rdiv. rewrite Rmult_assoc, Rinv_l; lra. }
    unfold Rdiv in *. rewrite Rmult_assoc. split; [apply Rmult_le_pos; lra|].
    apply Rle_trans with (INR H * 1); [apply Rmult_le_compat_l; lra|lra]. }
  rewrite !round_small by (apply B; lra). 
  destruct (Z.eqb_spec (0 + 2 + 2) (Z.of_nat H)); [lia|]. cbn [Z.ltb Z.compare Pos.compare Pos.compare_cont add_at].
  f_equal. lia.
Qed.

(** C35: with two rows and a two-leg path the start is missed: the first row is the corner. *)
Lemma l_C35_two_rows_miss_the_start_refuted :
  forall s x0 dir wmax pref, (3 <= wmax)%nat -> p_H (ts_p s) = 2%nat ->
  let A := (t_px x0, t_py x0) in
  let B := (t_px (ts_xg s), t_py (ts_xg s)) in
  let M := if String.eqb dir "horizontal" then x_first A B else y_first A B in
  ~ line_clear (ts_circ s) (ts_rect s) A B -> detour_clear (ts_circ s) (ts_rect s) A M B ->
  exists rows, tt_demo s x0 dir wmax pref = Ok rows /\ ref_positions rows = [M; B] /\ M <> A.
Proof.
  intros s x0 dir wmax pref Hw HH A B M Hn Hd.
  destruct (detour_waypoints (ts_circ s) (ts_rect s) dir A B Hn Hd) as (EW & N1 & N2). change (mid dir A B) with M in EW, N1, N2.
  unfold tt_demo, demo. fold A B. rewrite EW, limit_id by (cbn; lia). rewrite HH.
  unfold path_points. cbn [seg_lengths].
  pose proof (pnorm_sub_pos A M N1) as P. pose proof (pnorm_sub_pos M B N2) as Q.
  destruct (Rltb 0 _) eqn:E; [|apply Rltb_false in E; cbn [Rsum] in E; lra].
  rewrite counts_tiny by (assumption || lia). cbn [sample_segments Z.of_nat Pos.of_succ_nat Pos.succ Z.sub Z.add Z.opp Z.pos_sub Z.ltb Z.compare Z.to_nat].
  cbn [Pos.to_nat]. unfold lin_open, lin_closed. cbn -[INR]. unfold fix_length. cbn -[INR].
  eexists. split; [reflexivity|]. split; [|congruence].
  unfold ref_positions. cbn -[INR]. unfold lerp. cbn [fst snd]. cbn [INR].
  change (Pos.to_nat 2 - 1)%nat with 1%nat. cbn [INR]. unfold B. destruct M as [m1 m2]. cbn [fst snd].
  apply (f_equal2 cons); [f_equal; field|]. apply (f_equal2 cons); [f_equal; field|reflexivity].
Qed.
(** C35: with one row and a two-leg path the call raises ValueError. *)
Lemma l_C35_one_row_detour_fails_refuted :
  forall s x0 dir wmax pref, (3 <= wmax)%nat -> p_H (ts_p s) = 1%nat ->
  let A := (t_px x0, t_py x0) in
  let B := (t_px (ts_xg s), t_py (ts_xg s)) in
  let M := if String.eqb dir "horizontal" then x_first A B else y_first A B in
  ~ line_clear (ts_circ s) (ts_rect s) A B -> detour_clear (ts_circ s) (ts_rect s) A M B ->
  tt_demo s x0 dir wmax pref = Err ValueError.
Proof.
  intros s x0 dir wmax pref Hw HH A B M Hn Hd.
  destruct (detour_waypoints (ts_circ s) (ts_rect s) dir A B Hn Hd) as (EW & N1 & N2). change (mid dir A B) with M in EW, N1, N2.
  unfold tt_demo, demo. fold A B. rewrite EW, limit_id by (cbn; lia). rewrite HH.
  unfold path_points. cbn [seg_lengths].
  pose proof (pnorm_sub_pos A M N1) as P. pose proof (pnorm_sub_pos M B N2) as Q.
  destruct (Rltb 0 _) eqn:E; [|apply Rltb_false in E; cbn [Rsum] in E; lra].
  rewrite counts_tiny by (assumption || lia). reflexivity.
Qed.
(** C36: a waypoint limit of 2 discards the detour: the path is always the straight line, even
    through an obstacle. *)
Lemma l_C36_waypoint_limit_two_is_straight :
  forall s x0 dir pref, (2 <= p_H (ts_p s))%nat ->
  let A := (t_px x0, t_py x0) in
  let B := (t_px (ts_xg s), t_py (ts_xg s)) in
  A <> B -> exists rows ss, tt_demo s x0 dir 2 pref = Ok rows /\ runs_along [A; B] (ref_positions rows) ss.
Proof.
  intros s x0 dir pref HH A B Hne. unfold tt_demo, demo. fold A B.
  pose proof (waypoints_chosen (ts_circ s) (ts_rect s) dir A B) as Ch.
  assert (EL : limit_waypoints (waypoints (ts_circ s) (ts_rect s) dir A B) 2 = [A; B]).
  { destruct (chosen_shape _ _ _ _ _ _ _ Ch Hne) as [->|(M & -> & _)]; reflexivity. }
  rewrite EL, path_two by exact Hne. rewrite fix_length_id by (rewrite map_length, lin_closed_length; reflexivity).
  set (H := p_H (ts_p s)) in *.
  destruct (map (fun t => (lerp A B t, O)) (lin_closed H)) as [|q qs] eqn:Eq.
  { apply (f_equal (@length _)) in Eq. rewrite map_length, lin_closed_length in Eq. cbn in Eq. lia. }
  rewrite <- Eq. eexists. exists (lin_closed H). split; [reflexivity|].
  replace (ref_positions _) with (map (fun t => lerp A B t) (lin_closed H)); [apply runs_two_corners; exact HH|].
  unfold ref_positions. symmetry. etransitivity; [apply heading_rows_pos|]. rewrite map_map. reflexivity.
Qed.

(** ** Concrete worlds *)
Definition with_H (p : params) (H : nat) : params := {|
  p_dt := p_dt p; p_H := H; p_num_trailers := p_num_trailers p; p_motion := p_motion p;
  p_coll_pen := p_coll_pen p; p_sh_coll := p_sh_coll p; p_hitch_pen := p_hitch_pen p; p_sh_hitch := p_sh_hitch p;
  p_proj := p_proj p; p_guid := p_guid p;
  p_rew_thr := p_rew_thr p; p_ref_thr := p_ref_thr p; p_max_w := p_max_w p; p_hitch_w := p_hitch_w p;
  p_ref_pos_w := p_ref_pos_w p; p_ref_th1_w := p_ref_th1_w p; p_ref_th2_w := p_ref_th2_w p;
  p_l1 := p_l1 p; p_l2 := p_l2 p; p_lh := p_lh p; p_lf1 := p_lf1 p; p_lr := p_lr p;
  p_lf2 := p_lf2 p; p_lr2 := p_lr2 p; p_trac_w := p_trac_w p; p_trail_w := p_trail_w p;
  p_vmax := p_vmax p; p_dmax := p_dmax p; p_theta_max := p_theta_max p; p_phi_max := p_phi_max p;
  p_d_thr := p_d_thr p; p_k_switch := p_k_switch p; p_steer_w := p_steer_w p; p_pref_w := p_pref_w p;
  p_head_w := p_head_w p; p_term_thr := p_term_thr p; p_term_w := p_term_w p |}.
Definition post_world (H : nat) : tt_self :=
  mkTTSelf (with_H default_params H) [mkCircle (1/2) 5 (1/5)] [] (mkTT 1 10 0 0).
Definition origin : ttq := mkTT 0 0 0 0.

Lemma disc_far c P : 0 <= c_r c -> c_r c * c_r c < dist2 P (c_x c, c_y c) -> ~ disc (c_x c, c_y c) (c_r c) P.
Proof.
  intros Hr H D. unfold disc, dist in D. 
  assert (H0 : 0 <= dist2 P (c_x c, c_y c)) by nra.
  pose proof (sqrt_sqrt _ H0) as S. pose proof (sqrt_pos (dist2 P (c_x c, c_y c))).
  assert (sqrt (dist2 P (c_x c, c_y c)) * sqrt (dist2 P (c_x c, c_y c)) <= c_r c * c_r c) by (apply Rmult_le_compat; lra). lra.
Qed.
Lemma frac_range k : (k < 50)%nat -> 0 <= INR k / 49 <= 1.
Proof.
  intros Hk. assert (INR k <= 49) by (replace 49 with (INR 49) by (rewrite INR_IZR_INZ; reflexivity); apply le_INR; lia).
  pose proof (pos_INR k). lra.
Qed.
Lemma post_direct_blocked H : ~ line_clear (ts_circ (post_world H)) [] (0, 0) (1, 10).
Proof.
  intros Hc. apply (Hc 24%nat); [lia|]. left. exists (mkCircle (1/2) 5 (1/5)). split; [left; reflexivity|].
  unfold disc, dist, dist2, between. cbn [fst snd c_x c_y c_r]. rewrite INR_IZR_INZ. cbn [Z.of_nat Pos.of_succ_nat Pos.succ].
  rewrite <- (sqrt_square (1/5)) by lra. apply sqrt_le_1_alt. lra.
Qed.
Lemma post_detour_clear H : detour_clear (ts_circ (post_world H)) [] (0, 0) (1, 0) (1, 10).
Proof.
  split; intros k Hk [(c & [<-|[]] & D)|(o & [] & _)]; apply frac_range in Hk; revert D; apply disc_far; cbn [c_r]; try lra;
    unfold dist2, between; cbn [fst snd c_x c_y]; set (t := INR k / 49) in *.
  - pose proof (Rle_0_sqr (0 + t * (1 - 0) - 1 / 2)) as Q. unfold Rsqr in Q. lra.
  - pose proof (Rle_0_sqr (0 + t * (10 - 0) - 5)) as Q. unfold Rsqr in Q. lra.
Qed.
(** The hypotheses of C35/C36 are met with 50 rows, and the requested detour is taken. *)
Lemma x_C35_detour_example :
  (4 <= p_H (ts_p (post_world 50)))%nat /\ (t_px origin, t_py origin) <> (t_px (ts_xg (post_world 50)), t_py (ts_xg (post_world 50))) /\
  ~ line_clear (ts_circ (post_world 50)) (ts_rect (post_world 50)) (0, 0) (1, 10) /\
  detour_clear (ts_circ (post_world 50)) (ts_rect (post_world 50)) (0, 0) (x_first (0, 0) (1, 10)) (1, 10).
Proof.
  split; [cbn; lia|]. split; [cbn; intros E; injection E; lra|]. split; [apply post_direct_blocked|apply post_detour_clear].
Qed.

(** C35: with three rows the demonstration may stop at the corner and never reach the goal. *)
Lemma l_C35_three_rows_miss_the_goal_refuted :
  exists s x0, p_H (ts_p s) = 3%nat /\ exists rows, tt_demo s x0 "horizontal" 4 0 = Ok rows /\
    last (ref_positions rows) (0, 0) = (1, 0) /\ (t_px (ts_xg s), t_py (ts_xg s)) = (1, 10).
Proof.
  exists (post_world 3), origin. split; [reflexivity|].
  destruct (detour_waypoints (ts_circ (post_world 3)) [] "horizontal" (0, 0) (1, 10) (post_direct_blocked 3) (post_detour_clear 3)) as (EW & N1 & N2).
  change (mid "horizontal" (0, 0) (1, 10)) with (1, 0) in *.
  unfold tt_demo, demo. change (ts_rect (post_world 3)) with (@nil rectobs).
  change (t_px (ts_xg (post_world 3)), t_py (ts_xg (post_world 3))) with (1, 10). change (t_px origin, t_py origin) with (0, 0).
  rewrite EW, limit_id by (cbn; lia). change (p_H (ts_p (post_world 3))) with 3%nat.
  unfold path_points. cbn [seg_lengths].
  assert (L1 : pnorm (psub (1, 0) (0, 0)) = 1).
  { unfold pnorm, psub. cbn [fst snd]. replace ((1 - 0) * (1 - 0) + (0 - 0) * (0 - 0)) with (1 * 1) by ring. apply sqrt_square. lra. }
  assert (L2 : pnorm (psub (1, 10) (1, 0)) = 10).
  { unfold pnorm, psub. cbn [fst snd]. replace ((1 - 1) * (1 - 1) + (10 - 0) * (10 - 0)) with (10 * 10) by ring. apply sqrt_square. lra. }
  rewrite L1, L2. destruct (Rltb 0 _) eqn:E; [|apply Rltb_false in E; cbn [Rsum] in E; lra].
  assert (C : counts 3 [1; 10] = [2; 1]%Z).
  { unfold counts, raw_counts, Zsum, argmax. cbn [map Rsum fold_left argmax_from].
    rewrite (round_small (INR 3 * 1 / (1 + (10 + 0)))) by (cbn [INR]; lra).
    pose proof (round_even_near (INR 3 * 10 / (1 + (10 + 0)))) as N. cbn [INR] in N.
    assert (E3 : round_even (INR 3 * 10 / (1 + (10 + 0))) = 3%Z).
    { cbn [INR]. assert (2 < round_even ((1 + 1 + 1) * 10 / (1 + (10 + 0))) < 4)%Z; [|lia]. split; apply lt_IZR; lra. }
    rewrite E3. reflexivity. }
  rewrite C. cbn [sample_segments Z.ltb Z.compare]. change (Z.to_nat 2) with 2%nat. change (Z.to_nat 1) with 1%nat.
  unfold lin_open, lin_closed. cbn -[INR]. unfold fix_length. cbn -[INR].
  eexists. split; [reflexivity|]. split; [|reflexivity].
  unfold ref_positions. cbn -[INR]. unfold lerp. cbn [fst snd INR Nat.sub]. f_equal; unfold Rdiv; ring.
Qed.

(** C36: an obstacle thinner than the sample spacing is not noticed: the straight demonstration
    has a row inside it. *)
Definition thin_world : tt_self :=
  mkTTSelf (with_H default_params 99) [] [mkRect (1/2) 0 (1/2) 1 0] (mkTT 49 0 0 0).
(** C36 (finding): the clearance samples step over a thin obstacle, and the demonstration built from the 'clear' line has a row inside it. *)
Lemma l_C36_thin_obstacle_missed_refuted :
  exists s x0 rows P, tt_demo s x0 "horizontal" 4 0 = Ok rows /\ In P (ref_positions rows) /\
    blocked (ts_circ s) (ts_rect s) P.
Proof.
  exists thin_world, origin.
  assert (Hc : line_clear (ts_circ thin_world) (ts_rect thin_world) (0, 0) (49, 0)).
  { intros k Hk [(c & [] & _)|(o & [<-|[]] & (a & b & Ha & Hb & E))]. revert E. unfold between, at_frame, obstacle_body in *.
    cbn [fst snd rg_org rg_ang rg_back rg_front rg_half r_x r_y r_w r_h r_ang] in *. rewrite cos_0, sin_0. intros E. injection E as E1 E2.
    replace (0 + INR k / 49 * (49 - 0)) with (INR k) in E1 by field.
    destruct k as [|k]; [cbn in E1; lra|]. rewrite S_INR in E1. pose proof (pos_INR k). lra. }
  assert (Hne : (0, 0) <> (49, 0)) by (intros E; injection E; lra).
  assert (H4 : (4 <= 99)%nat) by lia. assert (H3 : (3 <= 4)%nat) by lia.
  destruct (demo_main 99 (ts_circ thin_world) (ts_rect thin_world) (0, 0) (ts_xg thin_world) "horizontal" 4 0 _ H3 Hne eq_refl (or_introl H4)) as (rows & ss & E & F).
  unfold tt_demo. change (p_H (ts_p thin_world)) with 99%nat. change (t_px origin, t_py origin) with (0, 0).
  change (t_px (ts_xg thin_world), t_py (ts_xg thin_world)) with (49, 0) in F.
  pose proof (waypoints_chosen (ts_circ thin_world) (ts_rect thin_world) "horizontal" (0, 0) (49, 0)) as Ch.
  destruct Ch as [(_ & EW)|[(N & _)|[(N & _)|(N & _)]]]; try contradiction.
  exists rows, (1/2, 0). split; [exact E|]. split.
  - unfold demo in E. change (t_px (ts_xg thin_world), t_py (ts_xg thin_world)) with (49, 0) in E.
    rewrite EW, limit_id in E by (cbn; lia). rewrite path_two in E by exact Hne.
    rewrite fix_length_id in E by (rewrite map_length, lin_closed_length; reflexivity).
    remember (map (fun t => (lerp (0, 0) (49, 0) t, O)) (lin_closed 99)) as ps eqn:Eps.
    destruct ps as [|q qs]; [discriminate|]. injection E as <-.
    assert (In ((1/2, 0), O) (q :: qs)) as Hin.
    { rewrite Eps. apply in_map_iff. exists (INR 1 / INR 98). split.
      - unfold lerp. cbn [fst snd]. replace (INR 98) with 98 by (rewrite INR_IZR_INZ; reflexivity). cbn [INR].
        apply (f_equal2 pair); [apply (f_equal2 pair); field|reflexivity].
      - unfold lin_closed. apply in_map_iff. exists 1%nat. split; [reflexivity|]. apply in_seq. lia. }
    apply (in_map fst) in Hin.
    assert (Hx : In (1/2, 0) (map f_pos (heading_rows 0 (t_th1 (ts_xg thin_world)) (t_th2 (ts_xg thin_world)) (final_segment [(0, 0); (49, 0)]) (t_th1 (ts_xg thin_world)) (q :: qs)))) by (rewrite heading_rows_pos; exact Hin).
    exact Hx.
  - right. exists (mkRect (1/2) 0 (1/2) 1 0). split; [left; reflexivity|]. exists 0, 0.
    cbn [rg_back rg_front rg_half obstacle_body r_w r_h]. unfold at_frame. cbn. rewrite cos_0, sin_0. repeat split; try lra. f_equal; ring.
Qed.
