(** * ProofsDemoScore: eval_xref_logpd and compute_demonstration_reward (C37). *)
From Coq Require Import String.
From Verif Require Import Base BaseFacts Params Geom TT2d Bicycle NTrailer Acc SpecGeom SpecBodies SpecSym
  SpecReward Demo SpecDemo ProofsBodies ProofsReward ProofsDemo.
Local Open Scope list_scope.
Open Scope R_scope.

Lemma clip_score_range e thr : 0 < thr -> -1 <= clip_score e thr <= 0.
Proof.
  intros H. unfold clip_score. assert (0 <= clip e 0 thr <= thr) as C by (apply clip_range; lra).
  assert (0 <= clip e 0 thr / thr <= 1) as D.
  { split; [apply Rmult_le_pos; [lra|left; apply Rinv_0_lt_compat; exact H]|].
    apply Rmult_le_reg_r with thr; [exact H|]. unfold Rdiv. rewrite Rmult_assoc, Rinv_l; lra. }
  nra.
Qed.
Lemma clip_score_zero e thr : 0 < thr -> 0 <= e -> (clip_score e thr = 0 <-> e = 0).
Proof.
  intros H He. unfold clip_score. split.
  - intros E. destruct (Rle_lt_or_eq_dec 0 e He) as [P|P]; [|auto]. exfalso.
    assert (0 < clip e 0 thr) by (unfold clip, Rmin, Rmax; destruct (Rle_dec e 0); destruct (Rle_dec _ thr); lra).
    assert (0 < clip e 0 thr / thr) by (apply Rdiv_lt_0_compat; assumption). nra.
  - intros ->. rewrite clip_low by lra. unfold Rdiv. ring.
Qed.
Lemma pnorm_zero a b : pnorm (psub a b) = 0 <-> a = b.
Proof.
  split.
  - intros E. destruct (Req_EM_T (fst a) (fst b)) as [E1|E1]; [destruct (Req_EM_T (snd a) (snd b)) as [E2|E2]|];
      [destruct a, b; cbn in *; congruence| |];
      exfalso; assert (N : b <> a) by (intros ->; auto); apply pnorm_sub_pos in N; lra.
  - intros ->. unfold pnorm, psub. cbn [fst snd]. rewrite !Rminus_diag_eq by reflexivity. rewrite Rmult_0_l, Rplus_0_l. apply sqrt_0.
Qed.
Lemma wrap_zero a b : wrap_pi (a - b) = 0 <-> turns b a.
Proof.
  unfold turns. split.
  - intros E. destruct (wrap_pi_rep (a - b)) as (k & Hk). exists (- k)%Z. rewrite opp_IZR. lra.
  - intros (k & ->). replace (b + IZR k * (2 * PI) - b) with (0 + IZR k * (2 * PI)) by ring. rewrite wrap_pi_shift. apply wrap_pi_0.
Qed.
Lemma wrap_half z : wrap_pi z = 0 -> Rabs (wrap_pi (z - PI)) = PI.
Proof.
  intros E. destruct (wrap_pi_rep z) as (k & Hk). rewrite E in Hk.
  replace (z - PI) with (- PI + IZR (- k) * (2 * PI)) by (rewrite opp_IZR; lra). rewrite wrap_pi_shift.
  pose proof PI_RGT_0. rewrite wrap_pi_id by lra. rewrite Rabs_left; lra.
Qed.
Lemma wrap_half' z : wrap_pi (z - PI) = 0 -> Rabs (wrap_pi z) = PI.
Proof.
  intros E. apply wrap_half in E. destruct (wrap_pi_rep (z - PI - PI)) as (k & Hk).
  replace (z - PI - PI) with (z + IZR (-1) * (2 * PI)) in E by ring. rewrite wrap_pi_shift in E. exact E.
Qed.

(** Angle errors as selected by the code. *)
Definition errs (pref : Z) (th1 th2 : R) (r : refrow) : R * R :=
  let d1 := wrap_pi (th1 - f_th1 r) in
  let d2 := wrap_pi (th2 - f_th2 r) in
  let o1 := wrap_pi (th1 - f_th1 r - PI) in
  let o2 := wrap_pi (th2 - f_th2 r - PI) in
  let ud := Rltb (Rabs d1 + Rabs d2) (Rabs o1 + Rabs o2) in
  (where_ (f_mask r) (where_ (Z.eqb pref 0) (where_ ud d1 o1) d1) 0,
   where_ (f_mask r) (where_ (Z.eqb pref 0) (where_ ud d2 o2) d2) 0).
Lemma logpd_row_errs p pref pos th1 th2 r :
  logpd_row p pref pos th1 th2 r =
  p_ref_pos_w p * clip_score (pnorm (psub pos (f_pos r))) (p_ref_thr p)
  + p_ref_th1_w p * clip_score (Rabs (fst (errs pref th1 th2 r))) (p_phi_max p)
  + p_ref_th2_w p * clip_score (Rabs (snd (errs pref th1 th2 r))) (p_phi_max p).
Proof. reflexivity. Qed.
Lemma turns_half a b : wrap_pi (a - b - PI) = 0 <-> turns (b + PI) a.
Proof. rewrite <- wrap_zero. replace (a - (b + PI)) with (a - b - PI) by ring. reflexivity. Qed.
Lemma errs_zero pref th1 th2 r : f_mask r = true ->
  (fst (errs pref th1 th2 r) = 0 /\ snd (errs pref th1 th2 r) = 0 <-> aligned pref th1 th2 r).
Proof.
  intros Hm. unfold errs, aligned. rewrite Hm. cbn [fst snd where_].
  rewrite <- !wrap_zero.
  set (d1 := wrap_pi (th1 - f_th1 r)). set (d2 := wrap_pi (th2 - f_th2 r)).
  replace (th1 - (f_th1 r + PI)) with (th1 - f_th1 r - PI) by ring. replace (th2 - (f_th2 r + PI)) with (th2 - f_th2 r - PI) by ring.
  set (o1 := wrap_pi (th1 - f_th1 r - PI)). set (o2 := wrap_pi (th2 - f_th2 r - PI)).
  pose proof PI_RGT_0 as Pi.
  destruct (Z.eqb_spec pref 0) as [->|Hp]; cbn [where_].
  - destruct (Rltb (Rabs d1 + Rabs d2) (Rabs o1 + Rabs o2)) eqn:E; cbn [where_].
    + apply Rltb_true in E. split; [auto|]. intros [H|(_ & H1 & H2)]; [exact H|]. exfalso.
      pose proof (wrap_half' _ H1) as A1. pose proof (wrap_half' _ H2) as A2. fold d1 in A1. fold d2 in A2.
      rewrite A1, A2, H1, H2, Rabs_R0 in E. lra.
    + apply Rltb_false in E. split; [auto|]. intros [(H1 & H2)|(_ & H)]; [|exact H]. exfalso.
      pose proof (wrap_half _ H1) as A1. pose proof (wrap_half _ H2) as A2. fold o1 in A1. fold o2 in A2.
      rewrite A1, A2, H1, H2, Rabs_R0 in E. lra.
  - split; [auto|]. intros [H|(H & _)]; [exact H|contradiction].
Qed.
Definition score_ok (p : params) : Prop :=
  0 < p_ref_thr p /\ 0 < p_phi_max p /\ 0 <= p_ref_pos_w p /\ 0 <= p_ref_th1_w p /\ 0 <= p_ref_th2_w p.
Lemma wmul_range w x : 0 <= w -> -1 <= x <= 0 -> - w <= w * x <= 0.
Proof. intros. nra. Qed.
Lemma logpd_row_range p pref pos th1 th2 r : score_ok p ->
  - (p_ref_pos_w p + p_ref_th1_w p + p_ref_th2_w p) <= logpd_row p pref pos th1 th2 r <= 0.
Proof.
  intros (A & B & W1 & W2 & W3). rewrite logpd_row_errs.
  pose proof (wmul_range _ _ W1 (clip_score_range (pnorm (psub pos (f_pos r))) _ A)).
  pose proof (wmul_range _ _ W2 (clip_score_range (Rabs (fst (errs pref th1 th2 r))) _ B)).
  pose proof (wmul_range _ _ W3 (clip_score_range (Rabs (snd (errs pref th1 th2 r))) _ B)). lra.
Qed.
Lemma wmul_zero w x : 0 < w -> -1 <= x <= 0 -> (w * x = 0 <-> x = 0).
Proof. intros H _. split; [|intros ->; ring]. intros E. apply Rmult_integral in E as [E|E]; lra. Qed.
Lemma abs_zero x : Rabs x = 0 <-> x = 0.
Proof. split; [|intros ->; apply Rabs_R0]. intros E. destruct (Req_dec x 0) as [|N]; [assumption|]. apply Rabs_no_R0 in N. contradiction. Qed.
Lemma logpd_row_zero p pref pos th1 th2 r : score_ok p ->
  0 < p_ref_pos_w p -> 0 < p_ref_th1_w p -> 0 < p_ref_th2_w p ->
  (logpd_row p pref pos th1 th2 r = 0 <-> pos = f_pos r /\ (f_mask r = true -> aligned pref th1 th2 r)).
Proof.
  intros (A & B & W1 & W2 & W3) P1 P2 P3. rewrite logpd_row_errs.
  pose proof (clip_score_range (pnorm (psub pos (f_pos r))) _ A) as R1.
  pose proof (clip_score_range (Rabs (fst (errs pref th1 th2 r))) _ B) as R2.
  pose proof (clip_score_range (Rabs (snd (errs pref th1 th2 r))) _ B) as R3.
  pose proof (wmul_range _ _ W1 R1). pose proof (wmul_range _ _ W2 R2). pose proof (wmul_range _ _ W3 R3).
  assert (E : forall x y z : R, x <= 0 -> y <= 0 -> z <= 0 -> (x + y + z = 0 <-> x = 0 /\ y = 0 /\ z = 0)) by (intros; lra).
  rewrite E by lra. rewrite (wmul_zero _ _ P1 R1), (wmul_zero _ _ P2 R2), (wmul_zero _ _ P3 R3).
  rewrite !clip_score_zero by (assumption || apply pnorm_nonneg || apply Rabs_pos). rewrite pnorm_zero, !abs_zero.
  split.
  - intros (Hp & K1 & K2). split; [exact Hp|]. intros Hm. apply errs_zero; auto.
  - intros (Hp & Hm). split; [exact Hp|]. destruct (f_mask r) eqn:Em.
    + apply errs_zero; auto.
    + unfold errs. rewrite Em. cbn. auto.
Qed.
Lemma Rmean_zero_iff l : l <> [] -> (forall x, In x l -> x <= 0) -> (Rmean l = 0 <-> forall x, In x l -> x = 0).
Proof.
  intros Hne Hle. assert (P : 0 < INR (length l)) by (apply lt_0_INR; destruct l; [congruence|cbn; lia]).
  assert (S : Rmean l = 0 <-> Rsum l = 0).
  { unfold Rmean. split; [|intros ->; unfold Rdiv; ring]. intros E. apply Rmult_integral in E as [E|E]; [exact E|]. pose proof (Rinv_0_lt_compat _ P). lra. }
  rewrite S. clear S P Hne. induction l as [|x l IH]; [split; [intros _ ? []|reflexivity]|].
  assert (Hs : Rsum l <= 0). { clear IH. assert (Hl : forall y, In y l -> y <= 0) by (intros; apply Hle; right; assumption). clear Hle.
    induction l as [|y l IH]; cbn; [lra|]. pose proof (Hl y (or_introl eq_refl)). assert (Rsum l <= 0) by (apply IH; intros; apply Hl; right; assumption). lra. }
  pose proof (Hle x (or_introl eq_refl)) as Hx. cbn [Rsum].
  assert (IH' := IH (fun y Hy => Hle y (or_intror Hy))). split.
  - intros E y [<-|Hy]; [lra|]. apply IH'; [lra|exact Hy].
  - intros H. rewrite (H x (or_introl eq_refl)). assert (Rsum l = 0) by (apply IH'; intros; apply H; right; assumption). lra.
Qed.

(** Row-wise scores. *)
Lemma in_map2_pair {A B C} (f : A -> B -> C) l m z : In z (map2 f l m) -> exists a b, In (a, b) (combine l m) /\ z = f a b.
Proof.
  revert m. induction l as [|x l IH]; intros [|y m] H; cbn in H; try contradiction.
  destruct H as [<-|H]; [exists x, y; split; [left; reflexivity|reflexivity]|].
  destruct (IH m H) as (a & b & Hin & ->). exists a, b. split; [right; exact Hin|reflexivity].
Qed.
Lemma pair_in_map2 {A B C} (f : A -> B -> C) l m a b : In (a, b) (combine l m) -> In (f a b) (map2 f l m).
Proof.
  revert m. induction l as [|x l IH]; intros [|y m] H; cbn in H; try contradiction.
  destruct H as [H|H]; [injection H as -> ->; left; reflexivity|right; apply IH; exact H].
Qed.
Lemma map2_ne {A B C} (f : A -> B -> C) l m : length l = length m -> m <> [] -> map2 f l m <> [].
Proof. destruct l, m; cbn; intros; try congruence; discriminate. Qed.
Lemma mean_map2_range {A B} (f : A -> B -> R) l m lo hi : length l = length m -> m <> [] ->
  (forall a b, lo <= f a b <= hi) -> lo <= Rmean (map2 f l m) <= hi.
Proof.
  intros Hl Hm Hf. apply Rmean_bounds; [apply map2_ne; assumption|]. intros x Hx.
  apply in_map2_pair in Hx as (a & b & _ & ->). apply Hf.
Qed.
Lemma mean_map2_zero {A B} (f : A -> B -> R) (P : A -> B -> Prop) l m : length l = length m -> m <> [] ->
  (forall a b, f a b <= 0) -> (forall a b, f a b = 0 <-> P a b) ->
  (Rmean (map2 f l m) = 0 <-> forall a b, In (a, b) (combine l m) -> P a b).
Proof.
  intros Hl Hm Hle Hz. rewrite Rmean_zero_iff; [|apply map2_ne; assumption|].
  - split.
    + intros H a b Hin. apply Hz. apply H. apply pair_in_map2. exact Hin.
    + intros H x Hx. apply in_map2_pair in Hx as (a & b & Hin & ->). apply Hz. apply H. exact Hin.
  - intros x Hx. apply in_map2_pair in Hx as (a & b & _ & ->). apply Hle.
Qed.

Lemma use_tractor_spec pref : use_tractor pref = true <-> tracks_tractor pref.
Proof. unfold use_tractor, tracks_tractor. rewrite orb_true_iff, !Z.eqb_eq. reflexivity. Qed.
(** The position compared with the reference. *)
Definition tt_compared (p : params) (pref : Z) (x : ttq) (P : point) : Prop :=
  (tracks_tractor pref -> P = (t_px x, t_py x)) /\ (~ tracks_tractor pref -> P = trailer_axle p x).
Lemma tt_pos_compared p pref x : tt_compared p pref x (where_ (use_tractor pref) (t_px x, t_py x) (tt_trailer_pos p x)).
Proof.
  split; intros H.
  - apply use_tractor_spec in H. rewrite H. reflexivity.
  - destruct (use_tractor pref) eqn:E; [apply use_tractor_spec in E; contradiction|]. cbn [where_].
    unfold tt_trailer_pos, trailer_axle, ahead. cbn [fst snd]. f_equal; ring.
Qed.

(** C37: the demonstration score of a trajectory with as many rows as the reference lies between
    minus the sum of the weights and 0, for every motion preference. *)
Lemma l_C37_tt_score_range :
  forall s xref xs pref, length xs = length xref -> xref <> [] ->
  0 < p_ref_thr (ts_p s) -> 0 < p_phi_max (ts_p s) ->
  0 <= p_ref_pos_w (ts_p s) -> 0 <= p_ref_th1_w (ts_p s) -> 0 <= p_ref_th2_w (ts_p s) ->
  - (p_ref_pos_w (ts_p s) + p_ref_th1_w (ts_p s) + p_ref_th2_w (ts_p s)) <= tt_logpd s xref xs pref <= 0.
Proof.
  intros s xref xs pref Hl Hne A B W1 W2 W3. apply mean_map2_range; auto. intros x r. apply logpd_row_range. repeat split; assumption.
Qed.
Lemma l_C37_acc_score_range :
  forall s xref xs pref, length xs = length xref -> xref <> [] ->
  0 < p_ref_thr (as_p s) -> 0 < p_phi_max (as_p s) ->
  0 <= p_ref_pos_w (as_p s) -> 0 <= p_ref_th1_w (as_p s) -> 0 <= p_ref_th2_w (as_p s) ->
  - (p_ref_pos_w (as_p s) + p_ref_th1_w (as_p s) + p_ref_th2_w (as_p s)) <= acc_logpd s xref xs pref <= 0.
Proof.
  intros s xref xs pref Hl. apply (l_C37_tt_score_range (as_t s) xref (map a_q xs) pref). rewrite map_length. exact Hl.
Qed.
Lemma l_C37_nt_score_range :
  forall s xref xs pref, length xs = length xref -> xref <> [] ->
  0 < p_ref_thr (ns_p s) -> 0 < p_phi_max (ns_p s) ->
  0 <= p_ref_pos_w (ns_p s) -> 0 <= p_ref_th1_w (ns_p s) -> 0 <= p_ref_th2_w (ns_p s) ->
  - (p_ref_pos_w (ns_p s) + p_ref_th1_w (ns_p s) + p_ref_th2_w (ns_p s)) <= nt_logpd s xref xs pref <= 0.
Proof.
  intros s xref xs pref Hl Hne A B W1 W2 W3. apply mean_map2_range; auto. intros x r. apply logpd_row_range. repeat split; assumption.
Qed.
(** C37, bicycle: one heading weight only. *)
Lemma l_C37_bk_score_range :
  forall s xref xs pref, length xs = length xref -> xref <> [] ->
  0 < p_ref_thr (bs_p s) -> 0 < p_phi_max (bs_p s) ->
  0 <= p_ref_pos_w (bs_p s) -> 0 <= p_ref_th1_w (bs_p s) ->
  - (p_ref_pos_w (bs_p s) + p_ref_th1_w (bs_p s)) <= bk_logpd s xref xs pref <= 0.
Proof.
  intros s xref xs pref Hl Hne A B W1 W2. apply mean_map2_range; auto. intros x r. unfold bk_logpd_row. cbv zeta.
  match goal with |- context [clip_score (Rabs ?e) _] =>
    pose proof (wmul_range _ _ W2 (clip_score_range (Rabs e) _ B)) end.
  pose proof (wmul_range _ _ W1 (clip_score_range (pnorm (psub (b_px x, b_py x) (f_pos r))) _ A)). lra.
Qed.

(** C37: with positive weights the score is 0 exactly when, row by row, the compared position
    (tractor for forward preferences, trailer axle otherwise) is the reference position and, on
    flagged rows, both headings agree with the reference. *)
Lemma l_C37_tt_zero_iff_followed :
  forall s xref xs pref, length xs = length xref -> xref <> [] ->
  0 < p_ref_thr (ts_p s) -> 0 < p_phi_max (ts_p s) ->
  0 < p_ref_pos_w (ts_p s) -> 0 < p_ref_th1_w (ts_p s) -> 0 < p_ref_th2_w (ts_p s) ->
  (tt_logpd s xref xs pref = 0 <->
   forall x r, In (x, r) (combine xs xref) ->
     (tracks_tractor pref -> (t_px x, t_py x) = (f_px r, f_py r)) /\
     (~ tracks_tractor pref -> trailer_axle (ts_p s) x = (f_px r, f_py r)) /\
     (f_mask r = true -> aligned pref (t_th1 x) (t_th2 x) r)).
Proof.
  intros s xref xs pref Hl Hne A B W1 W2 W3. unfold tt_logpd.
  assert (OK : score_ok (ts_p s)) by (repeat split; lra).
  apply mean_map2_zero; auto.
  - intros x r. apply logpd_row_range. exact OK.
  - intros x r. rewrite logpd_row_zero by (auto; lra).
    destruct (tt_pos_compared (ts_p s) pref x) as [C1 C2].
    set (P := where_ _ _ _) in *. unfold f_pos. split.
    + intros (EP & Ha). split; [|split; [|exact Ha]]; intros Ht; [rewrite <- (C1 Ht)|rewrite <- (C2 Ht)]; exact EP.
    + intros (H1 & H2 & Ha). split; [|exact Ha]. destruct (use_tractor pref) eqn:E.
      * apply use_tractor_spec in E. rewrite (C1 E). auto.
      * assert (~ tracks_tractor pref) as N by (intros T; apply use_tractor_spec in T; congruence). rewrite (C2 N). auto.
Qed.
(** C37: rows outside the last leg contribute no heading error: the score does not depend on the
    headings stored in unflagged reference rows. *)
Lemma l_C37_unflagged_headings_irrelevant :
  forall s xref xref' xs pref,
  Forall2 (fun r r' => f_px r = f_px r' /\ f_py r = f_py r' /\ f_mask r = f_mask r' /\
                       (f_mask r = true -> f_th1 r = f_th1 r' /\ f_th2 r = f_th2 r')) xref xref' ->
  tt_logpd s xref xs pref = tt_logpd s xref' xs pref.
Proof.
  intros s xref xref' xs pref H. unfold tt_logpd. f_equal. revert xs. induction H as [|r r' l l' (A & B & C & D) _ IH]; intros [|x xs]; try reflexivity.
  cbn [map2]. rewrite IH. f_equal. rewrite !logpd_row_errs. unfold f_pos. rewrite A, B. unfold errs. rewrite <- C.
  destruct (f_mask r); [|reflexivity]. destruct (D eq_refl) as [-> ->]. reflexivity.
Qed.

(** C37, acceleration-controlled robot: the same, whatever its speed and steering angle. *)
Lemma l_C37_acc_zero_iff_followed :
  forall s xref xs pref, length xs = length xref -> xref <> [] ->
  0 < p_ref_thr (as_p s) -> 0 < p_phi_max (as_p s) ->
  0 < p_ref_pos_w (as_p s) -> 0 < p_ref_th1_w (as_p s) -> 0 < p_ref_th2_w (as_p s) ->
  (acc_logpd s xref xs pref = 0 <->
   forall x r, In (x, r) (combine xs xref) ->
     (tracks_tractor pref -> (t_px (a_q x), t_py (a_q x)) = (f_px r, f_py r)) /\
     (~ tracks_tractor pref -> trailer_axle (as_p s) (a_q x) = (f_px r, f_py r)) /\
     (f_mask r = true -> aligned pref (t_th1 (a_q x)) (t_th2 (a_q x)) r)).
Proof.
  intros s xref xs pref Hl Hne A B W1 W2 W3. unfold acc_logpd.
  rewrite (l_C37_tt_zero_iff_followed (as_t s)); auto; [|rewrite map_length; exact Hl].
  split.
  - intros H x r Hin. apply (H (a_q x) r). clear - Hin. revert xref Hin.
    induction xs as [|y xs IH]; intros [|z xref] Hin; cbn in *; try contradiction.
    destruct Hin as [E|Hin]; [injection E as -> ->; left; reflexivity|right; auto].
  - intros H q r Hin. assert (exists x, q = a_q x /\ In (x, r) (combine xs xref)) as (x & -> & Hx).
    { clear - Hin. revert xref Hin. induction xs as [|y xs IH]; intros [|z xref] Hin; cbn in *; try contradiction.
      destruct Hin as [E|Hin]; [injection E as <- <-; exists y; auto|].
      destruct (IH _ Hin) as (x & E & Hx). exists x. auto. }
    apply (H x r Hx).
Qed.
Lemma strung_cons h a b ths L Ls f fs : strung h (a :: b :: ths) (L :: Ls) (f :: fs) = strung (ahead (ahead h a (- L)) a f) (b :: ths) Ls fs.
Proof. reflexivity. Qed.
Lemma nt_last_fold s ths n : forall i h c,
  (i + n = length ths)%nat -> length (ns_len s) = length ths -> length (ns_front s) = length ths ->
  snd (fold_left (nt_last_body s ths) (seq i n) (h, c)) =
  match n with O => c | S _ => strung h (skipn i ths) (skipn i (ns_len s)) (skipn i (ns_front s)) end.
Proof.
  induction n as [|n IH]; intros i [hx hy] c Hi HL HF; [reflexivity|].
  cbn [seq fold_left]. unfold nt_last_body at 2. rewrite IH by lia.
  rewrite (skipn_nth_cons ths i), (skipn_nth_cons (ns_len s) i), (skipn_nth_cons (ns_front s) i) by lia.
  rewrite !jget_nth by lia.
  destruct n as [|n].
  - rewrite (skipn_all2 ths (n:=S i)) by lia. cbn [strung]. unfold ahead. cbn [fst snd]. f_equal; ring.
  - cbv zeta. rewrite (skipn_nth_cons ths (S i)) by lia. rewrite strung_cons. f_equal. unfold ahead. cbn [fst snd]. f_equal; ring.
Qed.
Lemma nt_last_strung s x : length (n_ths x) = ns_N s -> length (ns_len s) = ns_N s -> length (ns_front s) = ns_N s ->
  nt_last_pos s x = nt_last_point s x.
Proof.
  intros H1 H2 H3. unfold nt_last_pos, nt_last_point.
  replace (ahead (n_px x, n_py x) (n_th0 x) (- p_lh (ns_p s))) with
    (n_px x - p_lh (ns_p s) * cos (n_th0 x), n_py x - p_lh (ns_p s) * sin (n_th0 x)) by (unfold ahead; cbn [fst snd]; f_equal; ring).
  rewrite nt_last_fold by lia. cbn [skipn]. destruct (ns_N s); [|reflexivity].
  destruct (n_ths x); [reflexivity|discriminate].
Qed.
(** C37, n trailers: the tractor's rear axle or the point the class calls the last trailer's
    position is held against the reference position, and on flagged rows the headings of the
    tractor and of the first trailer against the reference headings. *)
Lemma l_C37_nt_zero_iff_followed :
  forall s xref xs pref, length xs = length xref -> xref <> [] ->
  0 < p_ref_thr (ns_p s) -> 0 < p_phi_max (ns_p s) ->
  0 < p_ref_pos_w (ns_p s) -> 0 < p_ref_th1_w (ns_p s) -> 0 < p_ref_th2_w (ns_p s) ->
  length (ns_len s) = p_num_trailers (ns_p s) -> length (ns_front s) = p_num_trailers (ns_p s) ->
  (forall x, In x xs -> length (n_ths x) = p_num_trailers (ns_p s)) ->
  (nt_logpd s xref xs pref = 0 <->
   forall x r, In (x, r) (combine xs xref) ->
     (tracks_tractor pref -> (n_px x, n_py x) = (f_px r, f_py r)) /\
     (~ tracks_tractor pref -> nt_last_point s x = (f_px r, f_py r)) /\
     (f_mask r = true -> aligned pref (n_th0 x) (first_trailer_heading x) r)).
Proof.
  intros s xref xs pref Hl Hne A B W1 W2 W3 HL HF Hxs. unfold nt_logpd.
  assert (OK : score_ok (ns_p s)) by (repeat split; lra).
  rewrite (mean_map2_zero _ (fun x r => where_ (use_tractor pref) (n_px x, n_py x) (nt_last_pos s x) = f_pos r /\
     (f_mask r = true -> aligned pref (n_th0 x) (nt_th1 x) r)) _ _ Hl Hne).
  - assert (HT : forall x r, In (x, r) (combine xs xref) -> nt_last_pos s x = nt_last_point s x).
    { intros x r Hin. apply in_combine_l in Hin. apply nt_last_strung; unfold ns_N; auto. }
    assert (Hh : forall x, nt_th1 x = first_trailer_heading x) by (intros x; unfold nt_th1, first_trailer_heading; destruct (n_ths x); reflexivity).
    split; intros H x r Hin; specialize (H x r Hin); rewrite (HT x r Hin), Hh in *; unfold f_pos in *.
    + destruct H as (HP & HA). split; [|split; [|exact HA]]; intros Ht.
      * apply use_tractor_spec in Ht. rewrite Ht in HP. exact HP.
      * destruct (use_tractor pref) eqn:E; [apply use_tractor_spec in E; contradiction|exact HP].
    + destruct H as (H1 & H2 & HA). split; [|exact HA]. destruct (use_tractor pref) eqn:E; cbn [where_].
      * apply H1, use_tractor_spec, E.
      * apply H2. intros T. apply use_tractor_spec in T. congruence.
  - intros x r. apply logpd_row_range. exact OK.
  - intros x r. apply logpd_row_zero; auto; lra.
Qed.
(** C37, bicycle: the rear axle is held against the reference position and, on flagged rows, the
    heading against the first reference heading (up to half a turn without a preference). *)
Lemma l_C37_bk_zero_iff_followed :
  forall s xref xs pref, length xs = length xref -> xref <> [] ->
  0 < p_ref_thr (bs_p s) -> 0 < p_phi_max (bs_p s) ->
  0 < p_ref_pos_w (bs_p s) -> 0 < p_ref_th1_w (bs_p s) ->
  (bk_logpd s xref xs pref = 0 <->
   forall x r, In (x, r) (combine xs xref) ->
     (b_px x, b_py x) = (f_px r, f_py r) /\
     (f_mask r = true -> turns (f_th1 r) (b_th x) \/ (pref = 0%Z /\ turns (f_th1 r + PI) (b_th x)))).
Proof.
  intros s xref xs pref Hl Hne A B W1 W2. unfold bk_logpd.
  assert (Z2 : forall a b : R, a <= 0 -> b <= 0 -> (a + b = 0 <-> a = 0 /\ b = 0)) by (intros; lra).
  apply mean_map2_zero; auto.
  - intros x r. unfold bk_logpd_row. cbv zeta.
    match goal with |- context [clip_score (Rabs ?e) _] =>
      pose proof (wmul_range (p_ref_th1_w (bs_p s)) _ (Rlt_le _ _ W2) (clip_score_range (Rabs e) _ B)) end.
    pose proof (wmul_range _ _ (Rlt_le _ _ W1) (clip_score_range (pnorm (psub (b_px x, b_py x) (f_pos r))) _ A)). lra.
  - intros x r. unfold bk_logpd_row. cbv zeta. set (e := where_ (f_mask r) _ 0).
    pose proof (clip_score_range (pnorm (psub (b_px x, b_py x) (f_pos r))) _ A) as R1.
    pose proof (clip_score_range (Rabs e) _ B) as R2.
    pose proof (wmul_range _ _ (Rlt_le _ _ W1) R1). pose proof (wmul_range _ _ (Rlt_le _ _ W2) R2).
    rewrite Z2 by lra. rewrite (wmul_zero _ _ W1 R1), (wmul_zero _ _ W2 R2).
    rewrite !clip_score_zero by (assumption || apply pnorm_nonneg || apply Rabs_pos). rewrite pnorm_zero, abs_zero. unfold f_pos at 1.
    assert (HE : e = 0 <-> (f_mask r = true -> turns (f_th1 r) (b_th x) \/ (pref = 0%Z /\ turns (f_th1 r + PI) (b_th x)))); [|rewrite HE; reflexivity].
    clear. unfold e. destruct (f_mask r); cbn [where_]; [|split; [discriminate|reflexivity]].
    rewrite <- wrap_zero, <- turns_half. set (d := wrap_pi (b_th x - f_th1 r)). set (o := wrap_pi (b_th x - f_th1 r - PI)).
    pose proof PI_RGT_0. destruct (Z.eqb_spec pref 0) as [->|N]; cbn [where_].
    + destruct (Rltb (Rabs d) (Rabs o)) eqn:E; cbn [where_]; [apply Rltb_true in E|apply Rltb_false in E]; split; auto; intros K;
        destruct (K eq_refl) as [D|(_ & O)]; auto; exfalso.
      * pose proof (wrap_half' _ O) as W. fold d in W. fold o in O. rewrite W, O, Rabs_R0 in E. lra.
      * pose proof (wrap_half _ D) as W. fold o in W. fold d in D. rewrite W, D, Rabs_R0 in E. lra.
    + split; [auto|]. intros K. destruct (K eq_refl) as [D|(O & _)]; [exact D|contradiction].
Qed.
Lemma logpd_row_unflagged p pref pos th1 th2 r r' : same_but_unflagged r r' ->
  logpd_row p pref pos th1 th2 r = logpd_row p pref pos th1 th2 r'.
Proof.
  intros (A & B & C & D). rewrite !logpd_row_errs. unfold f_pos. rewrite A, B. unfold errs. rewrite <- C.
  destruct (f_mask r); [|reflexivity]. destruct (D eq_refl) as [-> ->]. reflexivity.
Qed.
(** C37: unflagged headings do not matter for the other classes either. *)
Lemma l_C37_acc_unflagged_headings_irrelevant :
  forall s xref xref' xs pref, Forall2 same_but_unflagged xref xref' ->
  acc_logpd s xref xs pref = acc_logpd s xref' xs pref.
Proof. intros s xref xref' xs pref H. apply l_C37_unflagged_headings_irrelevant. exact H. Qed.
Lemma l_C37_nt_unflagged_headings_irrelevant :
  forall s xref xref' xs pref, Forall2 same_but_unflagged xref xref' ->
  nt_logpd s xref xs pref = nt_logpd s xref' xs pref.
Proof.
  intros s xref xref' xs pref H. unfold nt_logpd. f_equal. revert xs. induction H as [|r r' l l' H _ IH]; intros [|x xs]; try reflexivity.
  cbn [map2]. rewrite IH. f_equal. apply logpd_row_unflagged. exact H.
Qed.
Lemma l_C37_bk_unflagged_headings_irrelevant :
  forall s xref xref' xs pref, Forall2 same_but_unflagged xref xref' ->
  bk_logpd s xref xs pref = bk_logpd s xref' xs pref.
Proof.
  intros s xref xref' xs pref H. unfold bk_logpd. f_equal. revert xs. induction H as [|r r' l l' (A & B & C & D) _ IH]; intros [|x xs]; try reflexivity.
  cbn [map2]. rewrite IH. f_equal. unfold bk_logpd_row, f_pos. rewrite <- A, <- B, <- C.
  destruct (f_mask r); [|reflexivity]. destruct (D eq_refl) as [-> _]. reflexivity.
Qed.
(** C37: any trajectory whose compared points are the reference points and whose headings are the
    reference headings scores 0, whatever the preference: with a backward or no preference, drive
    the trailer axle along the reference. *)
Lemma l_C37_followed_scores_zero :
  forall s xref pref, xref <> [] ->
  0 < p_ref_thr (ts_p s) -> 0 < p_phi_max (ts_p s) ->
  0 < p_ref_pos_w (ts_p s) -> 0 < p_ref_th1_w (ts_p s) -> 0 < p_ref_th2_w (ts_p s) ->
  exists xs, length xs = length xref /\ tt_logpd s xref xs pref = 0 /\
    forall x r, In (x, r) (combine xs xref) -> t_th1 x = f_th1 r /\ t_th2 x = f_th2 r.
Proof.
  intros s xref pref Hne A B W1 W2 W3.
  destruct (use_tractor pref) eqn:E.
  - set (g := fun r => mkTT (f_px r) (f_py r) (f_th1 r) (f_th2 r)).
    assert (Hg : forall x r, In (x, r) (combine (map g xref) xref) -> x = g r).
    { clear. induction xref as [|y l IH]; intros x r H; [contradiction|]. cbn in H. destruct H as [H|H]; [injection H as <- <-; reflexivity|auto]. }
    exists (map g xref). split; [apply map_length|]. split; [|intros x r Hin; rewrite (Hg _ _ Hin); auto].
    apply l_C37_tt_zero_iff_followed; auto; [apply map_length|]. intros x r Hin. rewrite (Hg _ _ Hin).
    apply use_tractor_spec in E. split; [reflexivity|]. split; [contradiction|]. intros _. left. split; exists 0%Z; cbn; ring.
  - set (g := fun r => mkTT (f_px r + p_lh (ts_p s) * cos (f_th1 r) + p_l2 (ts_p s) * cos (f_th2 r))
                            (f_py r + p_lh (ts_p s) * sin (f_th1 r) + p_l2 (ts_p s) * sin (f_th2 r)) (f_th1 r) (f_th2 r)).
    assert (Hg : forall x r, In (x, r) (combine (map g xref) xref) -> x = g r).
    { clear. induction xref as [|y l IH]; intros x r H; [contradiction|]. cbn in H. destruct H as [H|H]; [injection H as <- <-; reflexivity|auto]. }
    exists (map g xref). split; [apply map_length|]. split; [|intros x r Hin; rewrite (Hg _ _ Hin); auto].
    apply l_C37_tt_zero_iff_followed; auto; [apply map_length|]. intros x r Hin. rewrite (Hg _ _ Hin).
    split; [intros T; apply use_tractor_spec in T; congruence|]. split; [|intros _; left; split; exists 0%Z; cbn; ring].
    intros _. unfold trailer_axle, ahead. cbn [fst snd g t_px t_py t_th1 t_th2]. f_equal; ring.
Qed.
(** C37: driving the tractor exactly on the reference scores 0 with a forward preference ... *)
Lemma l_C37_reference_itself_forward :
  forall s xref pref, xref <> [] -> tracks_tractor pref ->
  0 < p_ref_thr (ts_p s) -> 0 < p_phi_max (ts_p s) ->
  0 < p_ref_pos_w (ts_p s) -> 0 < p_ref_th1_w (ts_p s) -> 0 < p_ref_th2_w (ts_p s) ->
  tt_logpd s xref (map (fun r => mkTT (f_px r) (f_py r) (f_th1 r) (f_th2 r)) xref) pref = 0.
Proof.
  intros s xref pref Hne Ht A B W1 W2 W3. apply l_C37_tt_zero_iff_followed; auto; [rewrite map_length; reflexivity|].
  intros x r Hin. assert (x = mkTT (f_px r) (f_py r) (f_th1 r) (f_th2 r)) as ->.
  { clear - Hin. induction xref as [|y l IH]; [contradiction|]. cbn in Hin. destruct Hin as [E|Hin]; [injection E as <- <-; reflexivity|auto]. }
  split; [reflexivity|]. split; [contradiction|]. intros _. left. split; exists 0%Z; cbn; ring.
Qed.
(** ... but not with any other preference: there the trailer axle, not the tractor, is held
    against the reference positions, so the reference does not score 0 against itself. *)
Lemma l_C37_reference_itself_scores_negative_refuted :
  forall s xref pref r, In r xref -> f_th1 r = f_th2 r -> ~ tracks_tractor pref -> 0 < p_lh (ts_p s) + p_l2 (ts_p s) ->
  0 < p_ref_thr (ts_p s) -> 0 < p_phi_max (ts_p s) ->
  0 < p_ref_pos_w (ts_p s) -> 0 < p_ref_th1_w (ts_p s) -> 0 < p_ref_th2_w (ts_p s) ->
  tt_logpd s xref (map (fun r => mkTT (f_px r) (f_py r) (f_th1 r) (f_th2 r)) xref) pref < 0.
Proof.
  intros s xref pref r Hin Hth Ht Hlen A B W1 W2 W3.
  assert (Hne : xref <> []) by (intros ->; contradiction).
  set (xs := map _ xref). assert (Hl : length xs = length xref) by (apply map_length).
  destruct (l_C37_tt_score_range s xref xs pref Hl Hne) as [_ [U|E]]; try lra; try assumption. exfalso.
  pose proof (proj1 (l_C37_tt_zero_iff_followed s xref xs pref Hl Hne A B W1 W2 W3) E) as E0.
  assert (Hc : In (mkTT (f_px r) (f_py r) (f_th1 r) (f_th2 r), r) (combine xs xref)).
  { unfold xs. clear - Hin. induction xref as [|y l IH]; [contradiction|]. destruct Hin as [->|Hin]; [left; reflexivity|right; auto]. }
  destruct (E0 _ _ Hc) as (_ & E2 & _). specialize (E2 Ht). unfold trailer_axle, ahead in E2. cbn [fst snd t_px t_py t_th1 t_th2] in E2.
  rewrite <- Hth in E2. injection E2 as E2 E3. pose proof (sin2_cos2' (f_th1 r)) as T.
  assert (cos (f_th1 r) = 0) by (apply Rmult_eq_reg_l with (p_lh (ts_p s) + p_l2 (ts_p s)); lra).
  assert (sin (f_th1 r) = 0) by (apply Rmult_eq_reg_l with (p_lh (ts_p s) + p_l2 (ts_p s)); lra).
  rewrite H, H0 in T. lra.
Qed.
(** The defaults meet the hypotheses. *)
Lemma x_C37_defaults_example :
  let p := ts_p (post_world 50) in
  0 < p_ref_thr p /\ 0 < p_phi_max p /\ 0 < p_ref_pos_w p /\ 0 < p_ref_th1_w p /\ 0 < p_ref_th2_w p /\ 0 < p_lh p + p_l2 p.
Proof. pose proof PI_RGT_0. cbn. unfold phi_max_const. repeat split; lra. Qed.

(** C37: the demonstration's own reward is at most 1 plus the terminal weight. *)
Lemma l_C37_reference_reward_bounded :
  forall s xref, xref <> [] -> weights_ok (ts_p s) -> 0 < p_term_thr (ts_p s) -> 0 <= p_term_w (ts_p s) ->
  tt_rew_xref s xref <= 1 + p_term_w (ts_p s).
Proof.
  intros s xref Hne Hw Ht Hp. unfold tt_rew_xref.
  assert (Rmean (map (fun r => tt_reward s (row_tt r)) xref) <= 1).
  { set (lo := - (6 * p_head_w (ts_p s) * p_max_w (ts_p s) * (1 - p_hitch_w (ts_p s))) - 77/4 * p_hitch_w (ts_p s)).
    apply (Rmean_bounds lo 1); [destruct xref; [congruence|discriminate]|]. intros x Hx. apply in_map_iff in Hx as (r & <- & _).
    apply l_C16_tt_reward_range. exact Hw. }
  assert (tt_terminal s (row_tt (last_row xref)) <= 1).
  { unfold tt_terminal. rewrite pos_reward_score by apply tt_dpos_nonneg. refine (proj2 (proj1 (score_props _ _ _ _))); [apply tt_dpos_nonneg|exact Ht]. }
  assert (p_term_w (ts_p s) * tt_terminal s (row_tt (last_row xref)) <= p_term_w (ts_p s) * 1) by (apply Rmult_le_compat_l; assumption). lra.
Qed.
