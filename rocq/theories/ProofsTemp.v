(** * ProofsTemp: what the sampling temperature does. *)
From Verif Require Import Base BaseFacts Params Geom TT2d Bicycle NTrailer Acc Rollout Instances Planner SpecPlan SpecTemp SpecInput ProofsRobots ProofsStep ProofsPlanner.
Open Scope R_scope.

(** ** Weighted averages *)
Lemma wavg_nil_r ws : wavg ws [] = 0.
Proof. destruct ws; reflexivity. Qed.
Lemma wavg_cons w ws x xs : wavg (w :: ws) (x :: xs) = w * x + wavg ws xs.
Proof. reflexivity. Qed.
Lemma wavg_minus c : forall ws xs, length ws = length xs -> wavg ws (map (fun x => x - c) xs) = wavg ws xs - c * total ws.
Proof.
  induction ws as [|w ws IH]; intros [|x xs] HL; try discriminate; [cbn; ring|]. cbn [map]. rewrite !wavg_cons, IH by (cbn in HL; lia).
  change (total (w :: ws)) with (w + total ws). ring.
Qed.
Lemma wavg_small E B : 0 <= B -> forall ws ys, length ws = length ys -> (forall w, In w ws -> 0 <= w <= E) -> (forall y, In y ys -> Rabs y <= B) ->
  Rabs (wavg ws ys) <= INR (length ws) * (B * E).
Proof.
  intros HB. induction ws as [|w ws IH]; intros [|y ys] HL Hw Hy; try discriminate.
  - cbn. rewrite Rabs_R0. lra.
  - rewrite wavg_cons. cbn [length]. rewrite S_INR.
    pose proof (IH ys ltac:(cbn in HL; lia) (fun a I => Hw a (or_intror I)) (fun a I => Hy a (or_intror I))) as H.
    pose proof (Hw w (or_introl eq_refl)) as W. pose proof (Hy y (or_introl eq_refl)) as Y.
    eapply Rle_trans; [apply Rabs_triang|]. rewrite Rabs_mult, (Rabs_pos_eq w) by lra.
    pose proof (Rmult_le_compat w E (Rabs y) B ltac:(lra) (Rabs_pos y) ltac:(lra) Y). lra.
Qed.
Lemma wavg_at E B : 0 <= B -> forall ws ys b, length ws = length ys -> (b < length ws)%nat -> (forall w, In w ws -> 0 <= w) ->
  (forall k, (k < length ws)%nat -> k <> b -> nth k ws 0 <= E) -> (forall y, In y ys -> Rabs y <= B) -> nth b ys 0 = 0 ->
  Rabs (wavg ws ys) <= INR (length ws - 1) * (B * E).
Proof.
  intros HB. induction ws as [|w ws IH]; intros [|y ys] b HL Hb Hw HE Hy H0; try discriminate; [cbn in Hb; lia|].
  rewrite wavg_cons. cbn [length]. replace (S (length ws) - 1)%nat with (length ws) by lia. destruct b as [|b].
  - cbn [nth] in H0. subst y. rewrite Rmult_0_r, Rplus_0_l. apply wavg_small; [exact HB|cbn in HL; lia| |intros; apply Hy; right; assumption].
    intros a I. split; [apply Hw; right; exact I|]. destruct (In_nth ws a 0 I) as (k & Hk & <-). exact (HE (S k) ltac:(cbn; lia) ltac:(lia)).
  - cbn [nth] in H0. cbn [length] in Hb, HL.
    assert (H : Rabs (wavg ws ys) <= INR (length ws - 1) * (B * E)).
    { apply (IH ys b); [lia|lia|intros; apply Hw; right; assumption| |intros; apply Hy; right; assumption|exact H0].
      intros k Hk N. exact (HE (S k) ltac:(cbn; lia) ltac:(lia)). }
    replace (length ws) with (S (length ws - 1)) by lia. rewrite S_INR.
    eapply Rle_trans; [apply Rabs_triang|]. rewrite Rabs_mult. pose proof (Hw w (or_introl eq_refl)) as W. rewrite (Rabs_pos_eq w) by lra.
    pose proof (HE 0%nat ltac:(cbn; lia) ltac:(lia)) as WE. cbn [nth] in WE. pose proof (Hy y (or_introl eq_refl)) as Y.
    pose proof (Rmult_le_compat w E (Rabs y) B ltac:(lra) (Rabs_pos y) WE Y). lra.
Qed.
Lemma total_others E : forall ws b, (b < length ws)%nat -> (forall k, (k < length ws)%nat -> k <> b -> nth k ws 0 <= E) ->
  total ws <= nth b ws 0 + INR (length ws - 1) * E.
Proof.
  assert (A : forall ws, (forall w, In w ws -> w <= E) -> total ws <= INR (length ws) * E).
  { induction ws as [|w ws IH]; intros H; [cbn; lra|]. change (total (w :: ws)) with (w + total ws). cbn [length]. rewrite S_INR.
    pose proof (H w (or_introl eq_refl)). pose proof (IH (fun a I => H a (or_intror I))). lra. }
  induction ws as [|w ws IH]; intros b Hb HE; [cbn in Hb; lia|]. change (total (w :: ws)) with (w + total ws). cbn [length].
  replace (S (length ws) - 1)%nat with (length ws) by lia. destruct b as [|b].
  - cbn [nth]. assert (total ws <= INR (length ws) * E); [|lra]. apply A. intros a I. destruct (In_nth ws a 0 I) as (k & Hk & <-).
    exact (HE (S k) ltac:(cbn; lia) ltac:(lia)).
  - cbn [nth length] in *. pose proof (IH b ltac:(lia) (fun k Hk N => HE (S k) ltac:(lia) ltac:(lia))) as H.
    pose proof (HE 0%nat ltac:(lia) ltac:(lia)) as W. cbn [nth] in W. 
    pose proof (S_INR (length ws - 1)) as SI. replace (S (length ws - 1)) with (length ws) in SI by lia. rewrite SI. lra.
Qed.
Lemma wavg_mean c e : 0 <= e -> forall ws xs, length ws = length xs -> (forall w, In w ws -> Rabs (w - c) <= e) -> (forall x, In x xs -> Rabs x <= 1) ->
  Rabs (wavg ws xs - c * total xs) <= INR (length ws) * e.
Proof.
  intros He. induction ws as [|w ws IH]; intros [|x xs] HL Hw Hx; try discriminate.
  - cbn. rewrite Rmult_0_r, Rminus_0_r, Rabs_R0. lra.
  - rewrite wavg_cons. change (total (x :: xs)) with (x + total xs). cbn [length]. rewrite S_INR.
    pose proof (IH xs ltac:(cbn in HL; lia) (fun a I => Hw a (or_intror I)) (fun a I => Hx a (or_intror I))) as H.
    replace (w * x + wavg ws xs - c * (x + total xs)) with ((w - c) * x + (wavg ws xs - c * total xs)) by ring.
    eapply Rle_trans; [apply Rabs_triang|]. rewrite Rabs_mult.
    pose proof (Rmult_le_compat _ _ _ _ (Rabs_pos (w - c)) (Rabs_pos x) (Hw w (or_introl eq_refl)) (Hx x (or_introl eq_refl))). lra.
Qed.

(** ** Exponential weights *)
Lemma exp_sum_ge l b : (b < length l)%nat -> exp (nth b l 0) <= Rsum (map exp l).
Proof.
  revert b. induction l as [|x l IH]; intros b Hb; [cbn in Hb; lia|]. cbn [map]. change (Rsum (exp x :: map exp l)) with (exp x + Rsum (map exp l)).
  assert (P : 0 <= Rsum (map exp l)). { clear. induction l as [|y l IH]; [cbn; lra|]. cbn [map]. change (Rsum (exp y :: map exp l)) with (exp y + Rsum (map exp l)). pose proof (exp_pos y). lra. }
  destruct b as [|b]; cbn [nth]; [lra|]. cbn [length] in Hb. pose proof (IH b ltac:(lia)). pose proof (exp_pos x). lra.
Qed.
Lemma softmax_le_best l j b : (j < length l)%nat -> (b < length l)%nat -> nth j (softmax l) 0 <= exp (nth j l 0 - nth b l 0).
Proof.
  intros Hj Hb. rewrite softmax_nth by exact Hj. pose proof (exp_sum_ge l b Hb) as S. pose proof (exp_pos (nth b l 0)) as P. pose proof (exp_pos (nth j l 0)) as PJ.
  unfold Rminus. rewrite exp_plus, exp_Ropp. unfold Rdiv. apply Rmult_le_compat_l; [lra|]. apply Rinv_le_contravar; lra.
Qed.
Lemma exp_sum_between l lo hi : (forall x, In x l -> lo <= x <= hi) -> INR (length l) * exp lo <= Rsum (map exp l) <= INR (length l) * exp hi.
Proof.
  induction l as [|x l IH]; intros H; [cbn; lra|]. cbn [map length]. change (Rsum (exp x :: map exp l)) with (exp x + Rsum (map exp l)). rewrite S_INR.
  pose proof (IH (fun y I => H y (or_intror I))). pose proof (H x (or_introl eq_refl)) as [A B].
  assert (EL : exp lo <= exp x) by (destruct (Rle_lt_or_eq_dec _ _ A) as [C|C]; [left; apply exp_increasing; exact C|rewrite C; lra]).
  assert (EH : exp x <= exp hi) by (destruct (Rle_lt_or_eq_dec _ _ B) as [C|C]; [left; apply exp_increasing; exact C|rewrite C; lra]).
  lra.
Qed.

(** ** Theorems *)
Lemma weights_off {Q} (env : penv Q) g samples : g_demo g = false ->
  snd (evaluate_samples env g samples) =
  softmax (map (fun r => (r - mean (map (sample_reward env) samples)) / spread (map (sample_reward env) samples) / g_temp g) (map (sample_reward env) samples)).
Proof. intros H. rewrite evaluate_char. cbn [snd]. rewrite log_scores_off by exact H. reflexivity. Qed.
Lemma rews_char {Q} (env : penv Q) g samples : snd (fst (evaluate_samples env g samples)) = map (sample_reward env) samples.
Proof. rewrite evaluate_char. reflexivity. Qed.
Lemma score_nth rs m s T k : (k < length rs)%nat -> nth k (map (fun r => (r - m) / s / T) rs) 0 = (nth k rs 0 - m) / s / T.
Proof. intros H. exact (nth_map' _ rs k 0 0 H). Qed.

(** The weights of two samples differ by the factor exp (difference of their rewards / (spread of the rewards x
    temperature)); so a sample's weight is at most exp (- its deficit to any other sample / (spread x temperature)). *)
Lemma l_C74_weight_ratio :
  forall (Q : Type) (env : penv Q) g samples i j, 0 < g_temp g -> g_demo g = false ->
  (i < length samples)%nat -> (j < length samples)%nat ->
  let rews := snd (fst (evaluate_samples env g samples)) in
  let ws := snd (evaluate_samples env g samples) in
  nth i ws 0 = nth j ws 0 * exp ((nth i rews 0 - nth j rews 0) / (spread rews * g_temp g)) /\
  nth i ws 0 <= exp (- ((nth j rews 0 - nth i rews 0) / (spread rews * g_temp g))).
Proof.
  intros Q env g samples i j HT HD Hi Hj. cbv zeta. rewrite rews_char, weights_off by exact HD.
  set (rs := map (sample_reward env) samples). assert (HL : length rs = length samples) by apply map_length.
  set (l := map _ rs). assert (LL : length l = length samples) by (unfold l; rewrite map_length; exact HL).
  pose proof (spread_pos rs) as SP.
  assert (DL : forall a b, (a < length samples)%nat -> (b < length samples)%nat ->
     nth a l 0 - nth b l 0 = (nth a rs 0 - nth b rs 0) / (spread rs * g_temp g)).
  { intros a b Ha Hb. unfold l. rewrite !score_nth by (rewrite HL; assumption). field. lra. }
  split.
  - rewrite <- DL by assumption. rewrite !softmax_nth by (rewrite LL; assumption). unfold Rminus. rewrite exp_plus, exp_Ropp.
    pose proof (exp_pos (nth j l 0)). pose proof (exp_sum_ge l j ltac:(lia)). field. lra.
  - replace (- ((nth j rs 0 - nth i rs 0) / (spread rs * g_temp g))) with (nth i l 0 - nth j l 0).
    + apply softmax_le_best; lia.
    + rewrite DL by assumption. field. lra.
Qed.

Lemma leads_weights : forall (Q : Type) (env : penv Q) g samples b d, 0 < g_temp g -> g_demo g = false ->
  let rews := snd (fst (evaluate_samples env g samples)) in
  let ws := snd (evaluate_samples env g samples) in
  leads rews b d -> forall k, (k < length ws)%nat -> k <> b -> nth k ws 0 <= exp (- (d / (spread rews * g_temp g))).
Proof.
  intros Q env g samples b d HT HD rews ws [Hb HL] k Hk N.
  assert (LW : length ws = length samples) by (unfold ws; rewrite weights_off, softmax_length, !map_length by exact HD; reflexivity).
  assert (LR : length rews = length samples) by (unfold rews; rewrite rews_char; apply map_length).
  destruct (l_C74_weight_ratio Q env g samples k b HT HD ltac:(lia) ltac:(lia)) as [_ H]. fold rews ws in H.
  eapply Rle_trans; [exact H|]. specialize (HL k ltac:(lia) N).
  assert (P : 0 < spread rews * g_temp g) by (apply Rmult_lt_0_compat; [apply spread_pos|exact HT]).
  assert (D : d / (spread rews * g_temp g) <= (nth b rews 0 - nth k rews 0) / (spread rews * g_temp g)).
  { unfold Rdiv. apply Rmult_le_compat_r; [left; apply Rinv_0_lt_compat; exact P|lra]. }
  destruct (Rle_lt_or_eq_dec _ _ D) as [C|C]; [left; apply exp_increasing; lra|rewrite C; lra].
Qed.

(** Cold: if one sample leads all others by d, the denoised plan is its executed plan up to
    2 (n - 1) exp (- d / (spread x temperature)) in every command, and its weight is 1 up to half of that. *)
Lemma l_C74_cold_follows_the_best :
  forall (Q : Type) (env : penv Q) g i eps Ybar b d,
  0 < g_beta0 g < 1 -> 0 < g_betaT g < 1 -> (1 <= i < g_Ndiffuse g)%nat -> length Ybar = g_Hsample g ->
  0 < g_temp g -> g_demo g = false ->
  let samples := map (make_sample (g_motion g) (nth i (sigmas g) 0 / sqrt (nth (i - 1) (alphas_bar g) 0)) Ybar) eps in
  let executed := map (fun us => snd (rollout_term env us)) samples in
  let rews := snd (fst (evaluate_samples env g samples)) in
  let err := INR (length eps - 1) * exp (- (d / (spread rews * g_temp g))) in
  Forall (Forall in_control_box) executed -> leads rews b d ->
  1 - nth b (snd (evaluate_samples env g samples)) 0 <= err /\
  forall t, (t < g_Hsample g)%nat ->
    within (2 * err) (nth t (fst (reverse_once env g i eps Ybar)) (0, 0)) (nth t (nth b executed []) (0, 0)).
Proof.
  intros Q env g i eps Ybar b d H0 HT Hi HY HTp HD samples executed rews err HB HLd.
  assert (Hne : eps <> []).
  { destruct HLd as [Hb _]. unfold rews in Hb. rewrite rews_char in Hb. unfold samples in Hb. rewrite !map_length in Hb. destruct eps; [cbn in Hb; lia|discriminate]. }
  destruct (l_C09_denoising_step_is_weighted_average Q env g i eps Ybar H0 HT Hi HY Hne) as ([WP WT] & WL & _ & WA).
  fold samples in WP, WT, WL, WA. fold executed in WA. set (ws := snd (evaluate_samples env g samples)) in *.
  assert (LE : length samples = length eps) by apply map_length.
  pose proof (leads_weights Q env g samples b d HTp HD HLd) as LW. fold rews ws in LW.
  assert (Hb : (b < length ws)%nat). { destruct HLd as [Hb _]. unfold rews in Hb. rewrite rews_char, map_length in Hb. lia. }
  rewrite Forall_forall in WP. split.
  { pose proof (total_others _ ws b Hb LW) as T. rewrite WT, WL, LE in T. unfold err. lra. }
  assert (BX : forall t u, In u executed -> in_control_box (nth t u (0, 0))).
  { intros t u I. rewrite Forall_forall in HB. specialize (HB u I). rewrite Forall_forall in HB.
    destruct (Nat.lt_ge_cases t (length u)); [apply HB, nth_In; assumption|]. rewrite nth_overflow by assumption. split; cbn [fst snd]; lra. }
  assert (LX : length ws = length executed) by (unfold executed; rewrite map_length; exact WL).
  assert (IB : In (nth b executed []) executed) by (apply nth_In; lia).
  assert (G : forall (f : act -> R), (forall a, in_control_box a -> -1 <= f a <= 1) -> forall t,
     Rabs (wavg ws (map (fun u => f (nth t u (0, 0))) executed) - f (nth t (nth b executed []) (0, 0))) <= 2 * err).
  { intros f Hf t. set (c := f (nth t (nth b executed []) (0, 0))).
    replace (wavg ws (map (fun u => f (nth t u (0, 0))) executed) - c) with (wavg ws (map (fun x => x - c) (map (fun u => f (nth t u (0, 0))) executed)))
      by (rewrite wavg_minus by (rewrite map_length; exact LX); rewrite WT; ring).
    replace (2 * err) with (INR (length ws - 1) * (2 * exp (- (d / (spread rews * g_temp g))))) by (unfold err; rewrite WL, LE; ring).
    apply (wavg_at _ 2 ltac:(lra) ws _ b); [rewrite !map_length; exact LX|exact Hb|intros w I; left; exact (WP w I)|exact LW| |].
    - intros y I. rewrite map_map in I. apply in_map_iff in I. destruct I as (u & <- & I). 
      assert (B : -1 <= c <= 1) by exact (Hf _ (BX t _ IB)). cbv beta.
      match goal with |- Rabs (?x - c) <= 2 => assert (A : -1 <= x <= 1) by exact (Hf _ (BX t u I)) end. apply Rabs_le. lra.
    - rewrite map_map. rewrite (nth_map' (fun u => f (nth t u (0, 0)) - c) executed b [] 0) by exact (eq_ind _ (fun n => (b < n)%nat) Hb _ LX). apply Rminus_diag_eq; reflexivity. }
  intros t Ht. destruct (WA t Ht) as [E1 E2]. split; [rewrite E1|rewrite E2]; apply G; intros a [A1 A2]; lra.
Qed.

(** Hot: if all rewards lie between lo and hi, every weight is within the factor exp ((hi - lo) / (spread x temperature))
    of 1/n, and the denoised plan is the plain average of the executed plans up to that factor minus one. *)
Lemma l_C74_hot_averages :
  forall (Q : Type) (env : penv Q) g i eps Ybar lo hi,
  0 < g_beta0 g < 1 -> 0 < g_betaT g < 1 -> (1 <= i < g_Ndiffuse g)%nat -> length Ybar = g_Hsample g -> eps <> [] ->
  0 < g_temp g -> g_demo g = false ->
  let samples := map (make_sample (g_motion g) (nth i (sigmas g) 0 / sqrt (nth (i - 1) (alphas_bar g) 0)) Ybar) eps in
  let executed := map (fun us => snd (rollout_term env us)) samples in
  let rews := snd (fst (evaluate_samples env g samples)) in
  let factor := exp ((hi - lo) / (spread rews * g_temp g)) in
  Forall (Forall in_control_box) executed -> between lo hi rews ->
  Forall (fun w => / factor / INR (length eps) <= w <= factor / INR (length eps)) (snd (evaluate_samples env g samples)) /\
  forall t, (t < g_Hsample g)%nat ->
    within (factor - 1) (nth t (fst (reverse_once env g i eps Ybar)) (0, 0))
      (mean (map (fun u => fst (nth t u (0, 0))) executed), mean (map (fun u => snd (nth t u (0, 0))) executed)).
Proof.
  intros Q env g i eps Ybar lo hi H0 HT Hi HY Hne HTp HD samples executed rews factor HB HR.
  destruct (l_C09_denoising_step_is_weighted_average Q env g i eps Ybar H0 HT Hi HY Hne) as ([WP WT] & WL & _ & WA).
  fold samples in WP, WT, WL, WA. fold executed in WA. set (ws := snd (evaluate_samples env g samples)) in *.
  assert (LE : length samples = length eps) by apply map_length.
  assert (NP : 0 < INR (length eps)) by (apply lt_0_INR; destruct eps; [congruence|cbn; lia]).
  pose proof (spread_pos rews) as SP. set (D := (hi - lo) / (spread rews * g_temp g)) in *.
  assert (LR : length rews = length samples) by (unfold rews; rewrite rews_char; apply map_length).
  assert (WB : forall w, In w ws -> / factor / INR (length eps) <= w <= factor / INR (length eps)).
  { intros w I. destruct (In_nth ws w 0 I) as (k & Hk & <-).
    assert (EW : ws = softmax (map (fun r => (r - mean rews) / spread rews / g_temp g) rews)) by (unfold ws, rews; rewrite rews_char; apply weights_off; exact HD).
    set (l := map (fun r => (r - mean rews) / spread rews / g_temp g) rews) in *.
    assert (LLn : length l = length eps) by (unfold l; rewrite map_length; lia).
    assert (KR : (k < length rews)%nat) by lia.
    rewrite EW, softmax_nth by lia.
    assert (RK : lo <= nth k rews 0 <= hi) by (unfold between in HR; rewrite Forall_forall in HR; apply HR, nth_In, KR).
    assert (SB : forall x, In x l -> nth k l 0 - D <= x <= nth k l 0 + D).
    { intros x Ix. unfold l in Ix. apply in_map_iff in Ix. destruct Ix as (r & <- & Ir). unfold l. rewrite score_nth by exact KR.
      unfold between in HR. rewrite Forall_forall in HR. specialize (HR r Ir).
      assert (IP : 0 < / (spread rews * g_temp g)) by (apply Rinv_0_lt_compat, Rmult_lt_0_compat; assumption).
      assert (E1 : (r - mean rews) / spread rews / g_temp g = (nth k rews 0 - mean rews) / spread rews / g_temp g + (r - nth k rews 0) * / (spread rews * g_temp g)) by (field; lra).
      rewrite E1. unfold D, Rdiv. set (z := / (spread rews * g_temp g)) in *.
      pose proof (Rmult_le_compat_r z (r - nth k rews 0) (hi - lo) ltac:(lra) ltac:(lra)).
      pose proof (Rmult_le_compat_r z (- (r - nth k rews 0)) (hi - lo) ltac:(lra) ltac:(lra)). lra. }
    destruct (exp_sum_between l _ _ SB) as [S1 S2]. rewrite LLn in S1, S2. fold D in factor.
    pose proof (exp_pos (nth k l 0)) as EP. pose proof (exp_pos D) as ED.
    unfold Rminus in S1. rewrite exp_plus, exp_Ropp in S1. rewrite exp_plus in S2. fold factor in S1, S2, ED.
    set (e := exp (nth k l 0)) in *. set (S := Rsum (map exp l)) in *. set (n := INR (length eps)) in *. clearbody e S n factor.
    assert (IF : 0 < / factor) by (apply Rinv_0_lt_compat; exact ED).
    assert (P1 : 0 < n * (e * / factor)) by (apply Rmult_lt_0_compat; [exact NP|apply Rmult_lt_0_compat; assumption]).
    split.
    - apply Rle_trans with (e * / (n * (e * factor))).
      + right. field. lra.
      + unfold Rdiv. apply Rmult_le_compat_l; [lra|]. apply Rinv_le_contravar; lra.
    - apply Rle_trans with (e * / (n * (e * / factor))).
      + unfold Rdiv. apply Rmult_le_compat_l; [lra|]. apply Rinv_le_contravar; lra.
      + right. field. lra. }
  split; [apply Forall_forall; exact WB|].
  assert (BX : forall t u, In u executed -> in_control_box (nth t u (0, 0))).
  { intros t u I. rewrite Forall_forall in HB. specialize (HB u I). rewrite Forall_forall in HB.
    destruct (Nat.lt_ge_cases t (length u)); [apply HB, nth_In; assumption|]. rewrite nth_overflow by assumption. split; cbn [fst snd]; lra. }
  assert (LX : length ws = length executed) by (unfold executed; rewrite map_length; exact WL).
  assert (F1 : 1 <= factor).
  { assert (I0 : In (nth 0 rews 0) rews) by (apply nth_In; rewrite LR, LE; destruct eps; [congruence|apply Nat.lt_0_succ]).
    unfold between in HR. rewrite Forall_forall in HR. pose proof (HR _ I0) as A. cbv beta in A.
    assert (0 <= D) by (unfold D; apply Rmult_le_pos; [lra|left; apply Rinv_0_lt_compat, Rmult_lt_0_compat; assumption]).
    unfold factor. fold D. pose proof (exp_ineq1_le D). lra. }
  assert (FI : 1 - / factor <= factor - 1).
  { assert (E : factor * / factor = 1) by (apply Rinv_r; lra). assert (0 < / factor) by (apply Rinv_0_lt_compat; lra).
    pose proof (Rle_0_sqr (factor - 1)) as Q1. unfold Rsqr in Q1. 
    pose proof (Rmult_le_compat_r (/ factor) 0 ((factor - 1) * (factor - 1)) ltac:(lra) Q1) as Q2.
    replace ((factor - 1) * (factor - 1) * / factor) with (factor * (factor * / factor) - 2 * (factor * / factor) + / factor) in Q2 by ring. rewrite E in Q2. lra. }
  assert (WD : forall w, In w ws -> Rabs (w - / INR (length eps)) <= (factor - 1) * / INR (length eps)).
  { intros w I. destruct (WB w I) as [A B]. unfold Rdiv in A, B. assert (IN : 0 < / INR (length eps)) by (apply Rinv_0_lt_compat; exact NP).
    set (z := / INR (length eps)) in *. pose proof (Rmult_le_compat_r z (1 - / factor) (factor - 1) ltac:(lra) FI). apply Rabs_le. lra. }
  assert (G : forall (f : act -> R), (forall a, in_control_box a -> -1 <= f a <= 1) -> forall t,
     Rabs (wavg ws (map (fun u => f (nth t u (0, 0))) executed) - mean (map (fun u => f (nth t u (0, 0))) executed)) <= factor - 1).
  { intros f Hf t. unfold mean.
    match goal with |- Rabs (_ - _ / INR ?n) <= _ => replace n with (length eps) by (rewrite map_length; exact (eq_trans (eq_sym LE) (eq_trans (eq_sym WL) LX))) end.
    unfold Rdiv. rewrite (Rmult_comm (total _)).
    replace (factor - 1) with (INR (length ws) * ((factor - 1) * / INR (length eps))) by (rewrite WL, LE; field; lra).
    apply wavg_mean; [apply Rmult_le_pos; [lra|left; apply Rinv_0_lt_compat; exact NP]|rewrite map_length; exact LX|exact WD|].
    intros x I. apply in_map_iff in I. destruct I as (u & <- & I). apply Rabs_le. exact (Hf _ (BX t u I)). }
  intros t Ht. destruct (WA t Ht) as [E1 E2]. split; cbn [fst snd]; [rewrite E1|rewrite E2]; apply G; intros a [A1 A2]; lra.
Qed.

(** In the limit of low temperature the leading sample takes all the weight, whatever the rewards' scale. *)
Lemma l_C74_temperature_to_zero :
  forall (Q : Type) (env : penv Q) g samples b d, 0 < d -> leads (snd (fst (evaluate_samples env g samples))) b d ->
  forall e, 0 < e -> exists T0, 0 < T0 /\
    forall g', 0 < g_temp g' < T0 -> g_demo g' = false -> 1 - e < nth b (snd (evaluate_samples env g' samples)) 0 <= 1.
Proof.
  intros Q env g samples b d Hd HL e He. rewrite rews_char in HL. set (rs := map (sample_reward env) samples) in *.
  pose proof (spread_pos rs) as SP. set (m := INR (length rs - 1)). assert (Hm : 0 <= m) by apply pos_INR.
  exists (e * d / (spread rs * (m + 1))). assert (P : 0 < spread rs * (m + 1)) by (apply Rmult_lt_0_compat; lra).
  split; [apply Rdiv_lt_0_compat; [apply Rmult_lt_0_compat; assumption|exact P]|].
  intros g' [HT1 HT2] HD. pose proof (leads_weights Q env g' samples b d HT1 HD) as LW. cbv zeta in LW. rewrite rews_char in LW. fold rs in LW.
  specialize (LW HL). set (ws := snd (evaluate_samples env g' samples)) in *.
  assert (EW : ws = softmax (map (fun r => (r - mean rs) / spread rs / g_temp g') rs)) by (unfold ws; apply weights_off; exact HD).
  assert (LWs : length ws = length rs) by (rewrite EW, softmax_length, map_length; reflexivity).
  destruct HL as [Hb HL]. assert (DW : distribution ws).
  { refine (proj2 (l_C13_weights_are_a_distribution Q env g' samples _)). intros E0. unfold rs in Hb. rewrite E0 in Hb. cbn in Hb. lia. }
  destruct DW as [WP WT]. 
  assert (HB : nth b ws 0 <= 1).
  { rewrite <- WT. clear -WP Hb LWs. rewrite <- LWs in Hb. clear LWs. revert b Hb. induction WP as [|w l W F IH]; intros b Hb; [cbn in Hb; lia|].
    assert (T0 : 0 <= total l) by (clear -F; induction F as [|x l X F IH]; [cbn; lra|change (total (x :: l)) with (x + total l); lra]).
    change (total (w :: l)) with (w + total l). destruct b; cbn [nth]; [lra|]. specialize (IH b ltac:(cbn in Hb; lia)). lra. }
  split; [|exact HB].
  pose proof (total_others _ ws b ltac:(lia) LW) as T. rewrite WT, LWs in T. fold m in T.
  set (y := d / (spread rs * g_temp g')) in *. assert (PT : 0 < spread rs * g_temp g') by (apply Rmult_lt_0_compat; assumption).
  assert (HY : 0 < y) by (apply Rdiv_lt_0_compat; assumption).
  assert (X : exp (- y) < / y).
  { rewrite exp_Ropp. apply Rinv_lt_contravar; [apply Rmult_lt_0_compat; [exact HY|apply exp_pos]|]. pose proof (exp_ineq1_le y). lra. }
  assert (Y : / y * (m + 1) < e).
  { unfold y. apply Rmult_lt_reg_r with d; [exact Hd|]. replace (/ (d / (spread rs * g_temp g')) * (m + 1) * d) with (g_temp g' * (spread rs * (m + 1))) by (field; lra).
    apply Rmult_lt_compat_r with (r := spread rs * (m + 1)) in HT2; [|exact P].
    replace (e * d / (spread rs * (m + 1)) * (spread rs * (m + 1))) with (e * d) in HT2 by (field; lra). exact HT2. }
  assert (Z : m * exp (- y) <= / y * (m + 1)).
  { pose proof (exp_pos (- y)). pose proof (Rmult_le_compat_l m _ _ Hm (Rlt_le _ _ X)). lra. }
  lra.
Qed.

Lemma mean_affine a c l : l <> [] -> mean (map (fun r => a * r + c) l) = a * mean l + c.
Proof.
  intros H. unfold mean. rewrite map_length. assert (N : INR (length l) <> 0) by (apply not_0_INR; destruct l; [congruence|cbn; lia]).
  assert (T : forall l, total (map (fun r => a * r + c) l) = a * total l + INR (length l) * c).
  { clear. induction l as [|x l IH]; [cbn; ring|]. cbn [map length]. change (total (?z :: ?t)) with (z + total t). rewrite S_INR. 
    unfold total in *. cbn [fold_right]. rewrite IH. ring. }
  rewrite T. field. exact N.
Qed.
Lemma deviation_affine a c l : 0 < a -> l <> [] -> deviation (map (fun r => a * r + c) l) = a * deviation l.
Proof.
  intros Ha H. unfold deviation. rewrite mean_affine by exact H. rewrite map_map.
  rewrite (map_ext _ (fun x => a ^ 2 * ((x - mean l) ^ 2) + 0)) by (intros; ring).
  rewrite <- (map_map (fun x => (x - mean l) ^ 2) (fun y => a ^ 2 * y + 0)). rewrite mean_affine by (intros E; apply map_eq_nil in E; contradiction).
  rewrite Rplus_0_r, sqrt_mult; [rewrite sqrt_pow2; lra|apply pow2_ge_0|].
  apply Rmult_le_pos; [|left; apply Rinv_0_lt_compat, lt_0_INR; destruct l; [congruence|cbn; lia]].
  clear. generalize (mean l). intros m. induction l as [|x l IH]; [cbn; lra|]. unfold total in *. cbn [map fold_right]. pose proof (pow2_ge_0 (x - m)). lra.
Qed.
Lemma spread_deviation l : 1 / 10000 <= deviation l -> spread l = deviation l.
Proof. intros H. unfold spread. fold (deviation l). destruct (Rlt_dec _ _); [lra|reflexivity]. Qed.

(** The weights do not depend on the unit or the offset of the rewards: multiplying all rewards by a > 0 and adding c
    leaves every weight unchanged, as long as both spreads are at least 1/10000. *)
Lemma l_C74_scale_free :
  forall (Q Q' : Type) (env : penv Q) (env' : penv Q') g samples samples' a c, g_demo g = false -> 0 < a ->
  let rews := snd (fst (evaluate_samples env g samples)) in
  let rews' := snd (fst (evaluate_samples env' g samples')) in
  rews' = map (fun r => a * r + c) rews -> 1 / 10000 <= deviation rews -> 1 / 10000 <= a * deviation rews ->
  snd (evaluate_samples env' g samples') = snd (evaluate_samples env g samples).
Proof.
  intros Q Q' env env' g samples samples' a c HD Ha. cbv zeta. rewrite !rews_char. rewrite !weights_off by exact HD.
  set (rs := map (sample_reward env) samples). set (rs' := map (sample_reward env') samples'). intros E D1 D2.
  destruct rs as [|r0 rs0] eqn:ER; [rewrite E; reflexivity|rewrite <- ER in *]. assert (NE : rs <> []) by (rewrite ER; discriminate).
  assert (DV : deviation rs' = a * deviation rs) by (rewrite E; apply deviation_affine; assumption).
  rewrite (spread_deviation rs), (spread_deviation rs') by lra. f_equal. rewrite DV, E, mean_affine by exact NE. rewrite map_map.
  apply map_ext. intros r. unfold Rdiv. rewrite Rinv_mult.
  replace (a * r + c - (a * mean rs + c)) with (a * (r - mean rs)) by ring.
  replace (a * (r - mean rs) * (/ a * / deviation rs)) with (a * / a * ((r - mean rs) * / deviation rs)) by ring.
  rewrite Rinv_r by lra. ring.
Qed.

Lemma deviation_range lo hi l : l <> [] -> between lo hi l -> deviation l <= hi - lo.
Proof.
  intros NE HB. unfold between in HB. rewrite Forall_forall in HB. pose proof (mean_bounds lo hi l NE HB) as M.
  assert (H0 : 0 <= hi - lo) by lra. unfold deviation. rewrite <- (sqrt_pow2 (hi - lo)) by exact H0. apply sqrt_le_1_alt.
  refine (proj2 (mean_bounds 0 ((hi - lo) ^ 2) _ _ _)); [intros E; apply map_eq_nil in E; contradiction|].
  intros x I. apply in_map_iff in I. destruct I as (r & <- & I). specialize (HB r I). split; [apply pow2_ge_0|].
  rewrite <- (pow2_abs (r - mean l)). apply pow_incr. split; [apply Rabs_pos|apply Rabs_le; lra].
Qed.
(** The lead counts in units of the range of the rewards: a sample leading by the fraction f of the range leaves all the
    others together at most (n - 1) exp (- f / temperature) of the weight. *)
Lemma l_C74_lead_in_units_of_the_range :
  forall (Q : Type) (env : penv Q) g samples b lo hi f, 0 < g_temp g -> g_demo g = false -> 0 < f ->
  let rews := snd (fst (evaluate_samples env g samples)) in
  between lo hi rews -> 1 / 10000 <= deviation rews -> leads rews b (f * (hi - lo)) ->
  1 - nth b (snd (evaluate_samples env g samples)) 0 <= INR (length samples - 1) * exp (- (f / g_temp g)).
Proof.
  intros Q env g samples b lo hi f HT HD Hf rews HB HS HL.
  pose proof (leads_weights Q env g samples b _ HT HD HL) as LW. fold rews in LW. cbv zeta in LW. set (ws := snd (evaluate_samples env g samples)) in *.
  assert (Hb : (b < length samples)%nat) by (destruct HL as [Hb _]; unfold rews in Hb; rewrite rews_char, map_length in Hb; exact Hb).
  assert (NS : samples <> []) by (intros E; rewrite E in Hb; cbn in Hb; lia).
  destruct (l_C13_weights_are_a_distribution Q env g samples NS) as [WL [_ WT]]. fold ws in WL, WT.
  assert (NE : rews <> []) by (unfold rews; rewrite rews_char; intros E; apply map_eq_nil in E; contradiction).
  assert (SD : spread rews <= hi - lo) by (rewrite spread_deviation by exact HS; apply deviation_range; assumption).
  pose proof (spread_pos rews) as SP.
  assert (B : exp (- (f * (hi - lo) / (spread rews * g_temp g))) <= exp (- (f / g_temp g))).
  { assert (C : f / g_temp g <= f * (hi - lo) / (spread rews * g_temp g)).
    { apply Rmult_le_reg_r with (spread rews * g_temp g); [apply Rmult_lt_0_compat; assumption|].
      replace (f / g_temp g * (spread rews * g_temp g)) with (f * spread rews) by (field; lra).
      replace (f * (hi - lo) / (spread rews * g_temp g) * (spread rews * g_temp g)) with (f * (hi - lo)) by (field; lra).
      apply Rmult_le_compat_l; lra. }
    destruct (Rle_lt_or_eq_dec _ _ C) as [D|D]; [left; apply exp_increasing; lra|rewrite D; lra]. }
  pose proof (total_others (exp (- (f / g_temp g))) ws b ltac:(lia) (fun k Hk N => Rle_trans _ _ _ (LW k Hk N) B)) as T.
  rewrite WT, WL in T. lra.
Qed.

(** The commands a rollout executes lie in the control box: the hypothesis of the two theorems above holds for the four classes. *)
Lemma l_C74_tt_executed_in_box :
  forall s x0 proj guide logpd rx samples, p_proj (ts_p s) = false ->
  Forall (Forall in_control_box) (map (fun us => snd (rollout_term (tt_penv s x0 proj guide logpd rx) us)) samples).
Proof.
  intros s x0 proj guide logpd rx samples Hp. apply Forall_map, Forall_forall. intros us _. apply rollout_app_forall.
  intros st a. cbn [pe_step tt_penv]. unfold tt_step, tt_step_internal, tt_step_with. rewrite Hp. destruct (p_guid (ts_p s)); cbn [st_app].
  - apply in_box_where; [apply in_box_zero|apply in_box_clip].
  - rewrite shield_dispatch. cbn [st_app]. apply in_box_where; [apply in_box_zero|apply in_box_clip].
Qed.
Lemma l_C74_bk_executed_in_box :
  forall s x0 proj guide logpd rx samples, p_proj (bs_p s) = false ->
  Forall (Forall in_control_box) (map (fun us => snd (rollout_term (bk_penv s x0 proj guide logpd rx) us)) samples).
Proof.
  intros s x0 proj guide logpd rx samples Hp. apply Forall_map, Forall_forall. intros us _. apply rollout_app_forall.
  intros st a. cbn [pe_step bk_penv]. unfold bk_step, bk_step_internal, bk_step_with. rewrite Hp. destruct (p_guid (bs_p s)); cbn [st_app].
  - apply in_box_where; [apply in_box_zero|apply in_box_clip].
  - rewrite shield_dispatch. cbn [st_app]. apply in_box_where; [apply in_box_zero|apply in_box_clip].
Qed.
Lemma l_C74_nt_executed_in_box :
  forall s x0 guide logpd rx samples,
  Forall (Forall in_control_box) (map (fun us => snd (rollout_term (nt_penv s x0 guide logpd rx) us)) samples).
Proof.
  intros s x0 guide logpd rx samples. apply Forall_map, Forall_forall. intros us _. apply rollout_app_forall.
  intros st a. cbn [pe_step nt_penv]. unfold nt_step_core, nt_step_with. destruct (p_guid (ns_p s)); cbn [st_app].
  - apply in_box_where; [apply in_box_zero|apply in_box_clip].
  - rewrite shield_dispatch. cbn [st_app]. apply in_box_where; [apply in_box_zero|apply in_box_clip].
Qed.
Lemma l_C74_acc_executed_in_box :
  forall s x0 proj guide logpd rx samples, p_proj (as_p s) = false -> 0 < as_amax s ->
  Forall (Forall in_control_box) (map (fun us => snd (rollout_term (acc_penv s x0 proj guide logpd rx) us)) samples).
Proof.
  intros s x0 proj guide logpd rx samples Hp Ha. apply Forall_map, Forall_forall. intros us _. apply rollout_app_forall.
  intros st a. cbn [pe_step acc_penv]. unfold acc_step, acc_step_internal, acc_step_with. rewrite Hp. destruct (p_guid (as_p s)); cbn [st_app].
  - apply in_box_where; [apply in_box_backup; auto|apply in_box_clip].
  - destruct (if p_sh_coll (as_p s) || p_sh_hitch (as_p s) then _ else _) as [[qf oc] hv]. cbn [st_app].
    apply in_box_where; [apply in_box_backup; auto|apply in_box_clip].
Qed.

(** A toy class whose step reward is the (clipped) first command. *)
Definition toy_penv : penv R :=
  mkPenv (mkState 0 0 0 0 (0, 0) false) (fun st a => mkState (fst (clip_act a)) (fst (clip_act a)) (fst (clip_act a)) 0 (clip_act a) false)
         (fun st a => st) (fun _ => 0) 0 0 1 (fun _ _ => 0) 0.
Lemma x_C74_example :
  let samples := [[(1/2, 0)]; [(0, 0)]] in
  let rews := snd (fst (evaluate_samples toy_penv ex_cfg samples)) in
  0 < g_temp ex_cfg /\ g_demo ex_cfg = false /\ rews = [1/2; 0] /\ leads rews 0 (1/2) /\ between 0 (1/2) rews /\ deviation rews = 1/4 /\
  Forall (Forall in_control_box) (map (fun us => snd (rollout_term toy_penv us)) samples).
Proof.
  cbv zeta. rewrite rews_char.
  assert (R1 : forall v, -1 <= v <= 1 -> sample_reward toy_penv [(v, 0)] = v).
  { intros v Hv. unfold sample_reward, rollout_term, rollout_us_with_terminal, toy_penv. cbn [pe_step pe_reset pe_terminal pe_term_w pe_steer_w pe_dmax scan_us st_rew st_q st_app fst snd map].
    unfold clip_act, Rmean, Rsum. cbn [fst snd map fold_right length INR]. rewrite (clip_id v) by lra. field. }
  assert (E : map (sample_reward toy_penv) [[(1/2, 0)]; [(0, 0)]] = [1/2; 0]) by (cbn [map]; rewrite !R1 by lra; reflexivity).
  rewrite E. split; [cbn; lra|]. split; [reflexivity|]. split; [reflexivity|]. split.
  { split; [cbn; lia|]. intros k Hk N. destruct k as [|[|k]]; [congruence|cbn; lra|cbn in Hk; lia]. }
  split; [repeat constructor; lra|]. split.
  { unfold deviation. assert (M : mean [1/2; 0] = 1/4) by (unfold mean, total; cbn [fold_right length INR]; field).
    rewrite M. cbn [map]. replace (mean _) with ((1/4) ^ 2) by (unfold mean, total; cbn [fold_right length INR]; field). apply sqrt_pow2. lra. }
  apply Forall_map, Forall_forall. intros us _. apply rollout_app_forall. intros st a. cbn [pe_step toy_penv st_app]. apply in_box_clip.
Qed.
