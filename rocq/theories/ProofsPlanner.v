(** * ProofsPlanner: diffusion schedule, denoising step, weights (C09-C14, C39). *)
From Coq Require Import Permutation.
From Verif Require Import Base BaseFacts Params Geom TT2d Bicycle NTrailer Acc SpecGeom SpecBodies SpecDyn SpecPlan
  Rollout Planner Instances ProofsGeom ProofsBodies ProofsKin ProofsRobots ProofsSafety ProofsStep.

Lemma nth_map' {A B} (f : A -> B) l i d d' : (i < length l)%nat -> nth i (map f l) d' = f (nth i l d).
Proof. intros H. rewrite nth_indep with (d' := f d) by (rewrite map_length; auto). apply map_nth. Qed.

(** ** C12 *)
Lemma Rsum_total l : Rsum l = total l.
Proof. induction l; simpl; congruence. Qed.
Lemma betas_length g : length (betas g) = g_Ndiffuse g.
Proof. unfold betas, linspace. rewrite map_length, seq_length. reflexivity. Qed.
Lemma alphas_length g : length (alphas g) = g_Ndiffuse g.
Proof. unfold alphas. rewrite map_length. apply betas_length. Qed.
Lemma cumprod_from_length l : forall a, length (cumprod_from a l) = length l.
Proof. induction l; intros; simpl; auto. Qed.
Lemma alphas_bar_length g : length (alphas_bar g) = g_Ndiffuse g.
Proof. unfold alphas_bar, cumprod. rewrite cumprod_from_length. apply alphas_length. Qed.
Lemma sigmas_length g : length (sigmas g) = g_Ndiffuse g.
Proof. unfold sigmas. rewrite map_length. apply alphas_bar_length. Qed.
Lemma nth_betas g i : (i < g_Ndiffuse g)%nat -> nth i (betas g) 0 = beta_at (g_beta0 g) (g_betaT g) (g_Ndiffuse g) i.
Proof.
  intros Hi. unfold betas, linspace.
  rewrite (nth_map' _ _ _ 0%nat) by (rewrite seq_length; auto).
  rewrite seq_nth by auto. reflexivity.
Qed.
Lemma nth_alphas g i : (i < g_Ndiffuse g)%nat -> nth i (alphas g) 0 = 1 - beta_at (g_beta0 g) (g_betaT g) (g_Ndiffuse g) i.
Proof.
  intros Hi. unfold alphas.
  rewrite (nth_map' _ _ _ 0) by (rewrite betas_length; auto).
  rewrite nth_betas by auto. reflexivity.
Qed.
Lemma nth_cumprod_from l : forall a i, (S i < length l)%nat ->
  nth (S i) (cumprod_from a l) 0 = nth i (cumprod_from a l) 0 * nth (S i) l 0.
Proof.
  induction l as [|x xs IH]; intros a i Hi; [simpl in Hi; lia|].
  destruct xs as [|y ys]; [simpl in Hi; lia|]. cbn [cumprod_from]. destruct i as [|i].
  - reflexivity.
  - change (nth (S i) (cumprod_from (a * x) (y :: ys)) 0 = nth i (cumprod_from (a * x) (y :: ys)) 0 * nth (S i) (y :: ys) 0).
    apply IH. simpl in *. lia.
Qed.
Lemma nth_alphas_bar_S g i : (S i < g_Ndiffuse g)%nat ->
  nth (S i) (alphas_bar g) 0 = nth i (alphas_bar g) 0 * nth (S i) (alphas g) 0.
Proof. intros. apply nth_cumprod_from. rewrite alphas_length. auto. Qed.
Lemma nth_alphas_bar g i : (i < g_Ndiffuse g)%nat ->
  nth i (alphas_bar g) 0 = alpha_bar_at (g_beta0 g) (g_betaT g) (g_Ndiffuse g) i.
Proof.
  intros Hi. unfold alpha_bar_at. induction i as [|i IH].
  - cbn [prod_f_R0]. rewrite <- nth_alphas by auto. unfold alphas_bar, cumprod.
    pose proof (alphas_length g). destruct (alphas g); [simpl in *; lia|]. cbn. ring.
  - rewrite nth_alphas_bar_S by auto. rewrite IH by lia. cbn [prod_f_R0]. rewrite <- nth_alphas by auto. reflexivity.
Qed.
Lemma nth_sigmas g i : (i < g_Ndiffuse g)%nat -> nth i (sigmas g) 0 = sqrt (1 - nth i (alphas_bar g) 0).
Proof.
  intros Hi. unfold sigmas.
  apply (nth_map' (fun a => sqrt (1 - a))). rewrite alphas_bar_length; auto.
Qed.

Definition sched_ok (g : cfg) : Prop := 0 < g_beta0 g < 1 /\ 0 < g_betaT g < 1.

Lemma beta_at_between g i : sched_ok g -> (i < g_Ndiffuse g)%nat ->
  Rmin (g_beta0 g) (g_betaT g) <= beta_at (g_beta0 g) (g_betaT g) (g_Ndiffuse g) i <= Rmax (g_beta0 g) (g_betaT g).
Proof.
  intros [H0 HT] Hi. unfold beta_at. destruct (Nat.eq_dec (g_Ndiffuse g) 1) as [E|E].
  - assert (i = 0)%nat by lia. subst i. cbn [INR]. rewrite Rmult_0_l, Rplus_0_r. split; [apply Rmin_l|apply Rmax_l].
  - assert (Hn : 0 < INR (g_Ndiffuse g - 1)) by (apply lt_0_INR; lia).
    assert (Ht : 0 <= INR i / INR (g_Ndiffuse g - 1) <= 1).
    { split.
      - apply Rmult_le_pos; [apply pos_INR|]. left. apply Rinv_0_lt_compat; auto.
      - apply Rmult_le_reg_r with (INR (g_Ndiffuse g - 1)); auto. unfold Rdiv. rewrite Rmult_assoc, Rinv_l by lra.
        rewrite Rmult_1_r, Rmult_1_l. apply le_INR. lia. }
    set (t := INR i / INR (g_Ndiffuse g - 1)) in *.
    replace (g_beta0 g + INR i * ((g_betaT g - g_beta0 g) / INR (g_Ndiffuse g - 1)))
      with (g_beta0 g + t * (g_betaT g - g_beta0 g)) by (unfold t; field; lra).
    unfold Rmin, Rmax. destruct Rle_dec; split; nra.
Qed.
Lemma beta_at_range g i : sched_ok g -> (i < g_Ndiffuse g)%nat ->
  0 < beta_at (g_beta0 g) (g_betaT g) (g_Ndiffuse g) i < 1.
Proof.
  intros H Hi. pose proof (beta_at_between g i H Hi) as Hb. destruct H as [H0 HT].
  unfold Rmin, Rmax in Hb. destruct Rle_dec; lra.
Qed.
Lemma alpha_range g i : sched_ok g -> (i < g_Ndiffuse g)%nat -> 0 < nth i (alphas g) 0 < 1.
Proof. intros. rewrite nth_alphas by auto. pose proof (beta_at_range g i H H0). lra. Qed.
Lemma alpha_bar_range g i : sched_ok g -> (i < g_Ndiffuse g)%nat -> 0 < nth i (alphas_bar g) 0 < 1.
Proof.
  intros H. induction i as [|i IH]; intros Hi.
  - pose proof (alpha_range g 0 H Hi). unfold alphas_bar, cumprod. pose proof (alphas_length g).
    destruct (alphas g); [simpl in *; lia|]. cbn in *. lra.
  - rewrite nth_alphas_bar_S by auto. pose proof (alpha_range g (S i) H Hi). assert (Hi' : (i < g_Ndiffuse g)%nat) by lia.
    specialize (IH Hi'). nra.
Qed.
Lemma alpha_bar_decreasing g i j : sched_ok g -> (i < j)%nat -> (j < g_Ndiffuse g)%nat ->
  nth j (alphas_bar g) 0 < nth i (alphas_bar g) 0.
Proof.
  intros H Hij. induction Hij as [|j Hij IH]; intros Hj.
  - rewrite nth_alphas_bar_S by auto. pose proof (alpha_range g (S i) H Hj).
    pose proof (alpha_bar_range g i H). assert (0 < nth i (alphas_bar g) 0 < 1) by (apply H1; lia). nra.
  - rewrite nth_alphas_bar_S by auto. pose proof (alpha_range g (S j) H Hj).
    assert (0 < nth j (alphas_bar g) 0 < 1) by (apply alpha_bar_range; auto; lia).
    assert (nth j (alphas_bar g) 0 < nth i (alphas_bar g) 0) by (apply IH; lia). nra.
Qed.

(** C12: the four arrays of the schedule have one entry per diffusion step; betas run linearly
    from beta0 to betaT; alphas_bar are the running products of 1 - beta. *)
Lemma l_C12_schedule_formulas :
  forall g, length (betas g) = g_Ndiffuse g /\ length (alphas g) = g_Ndiffuse g /\
  length (alphas_bar g) = g_Ndiffuse g /\ length (sigmas g) = g_Ndiffuse g /\
  forall i, (i < g_Ndiffuse g)%nat ->
  nth i (betas g) 0 = beta_at (g_beta0 g) (g_betaT g) (g_Ndiffuse g) i /\
  nth i (alphas g) 0 = 1 - beta_at (g_beta0 g) (g_betaT g) (g_Ndiffuse g) i /\
  nth i (alphas_bar g) 0 = alpha_bar_at (g_beta0 g) (g_betaT g) (g_Ndiffuse g) i /\
  nth i (sigmas g) 0 = sqrt (1 - alpha_bar_at (g_beta0 g) (g_betaT g) (g_Ndiffuse g) i).
Proof.
  intros g. split; [apply betas_length|]. split; [apply alphas_length|]. split; [apply alphas_bar_length|].
  split; [apply sigmas_length|]. intros i Hi.
  split; [apply nth_betas; auto|]. split; [apply nth_alphas; auto|]. split; [apply nth_alphas_bar; auto|].
  rewrite nth_sigmas, nth_alphas_bar by auto. reflexivity.
Qed.
(** C12: for beta0, betaT strictly between 0 and 1 the schedule is strictly monotone and
    inside (0,1), first and last betas are the configured ones. *)
Lemma l_C12_schedule_well_formed :
  forall g, 0 < g_beta0 g < 1 -> 0 < g_betaT g < 1 -> (1 <= g_Ndiffuse g)%nat ->
  nth 0 (betas g) 0 = g_beta0 g /\
  ((2 <= g_Ndiffuse g)%nat -> nth (g_Ndiffuse g - 1) (betas g) 0 = g_betaT g) /\
  (forall i, (i < g_Ndiffuse g)%nat ->
     0 < nth i (alphas g) 0 < 1 /\ 0 < nth i (alphas_bar g) 0 < 1 /\ 0 < nth i (sigmas g) 0 < 1 /\
     0 < sqrt (nth i (alphas_bar g) 0) /\ 0 < sqrt (nth i (alphas g) 0) /\ 0 < 1 - nth i (alphas_bar g) 0) /\
  (forall i j, (i < j)%nat -> (j < g_Ndiffuse g)%nat ->
     nth j (alphas_bar g) 0 < nth i (alphas_bar g) 0 /\ nth i (sigmas g) 0 < nth j (sigmas g) 0).
Proof.
  intros g H0 HT HN. assert (H : sched_ok g) by (split; auto).
  split; [|split; [|split]].
  - rewrite nth_betas by lia. unfold beta_at. cbn [INR]. ring.
  - intros H2. rewrite nth_betas by lia. unfold beta_at. field.
    apply not_0_INR. lia.
  - intros i Hi. pose proof (alpha_range g i H Hi). pose proof (alpha_bar_range g i H Hi).
    split; [auto|]. split; [auto|]. split.
    + rewrite nth_sigmas by auto. split; [apply sqrt_lt_R0; lra|].
      apply Rlt_le_trans with (sqrt 1); [apply sqrt_lt_1; lra|rewrite sqrt_1; lra].
    + split; [apply sqrt_lt_R0; lra|]. split; [apply sqrt_lt_R0; lra|lra].
  - intros i j Hij Hj. pose proof (alpha_bar_decreasing g i j H Hij Hj). split; [auto|].
    rewrite !nth_sigmas by lia. pose proof (alpha_bar_range g i H). pose proof (alpha_bar_range g j H Hj).
    assert (0 < nth i (alphas_bar g) 0 < 1) by (apply H2; lia).
    apply sqrt_lt_1; lra.
Qed.
Definition ex_cfg : cfg := mkCfg 0 1000 50 100 (1/100) (1/10000) (1/100) false 0 false.
(** The default schedule of MBDConfig satisfies the hypotheses. *)
Lemma x_C12_default_config_example :
  0 < g_beta0 ex_cfg < 1 /\ 0 < g_betaT ex_cfg < 1 /\ (1 <= g_Ndiffuse ex_cfg)%nat.
Proof. cbn. repeat split; try lra; lia. Qed.

(** ** Weights *)
Definition sum_exp_pos (l : list R) : l <> [] -> 0 < Rsum (map exp l).
Proof.
  destruct l as [|x xs]; [congruence|]. intros _. cbn [map Rsum]. pose proof (exp_pos x).
  assert (0 <= Rsum (map exp xs)); [|lra].
  apply Rsum_nonneg. intros y Hy. apply in_map_iff in Hy. destruct Hy as (z & <- & _). left. apply exp_pos.
Qed.
Lemma softmax_length l : length (softmax l) = length l.
Proof. unfold softmax. apply map_length. Qed.
Lemma softmax_pos l w : In w (softmax l) -> 0 < w.
Proof.
  unfold softmax. intros H. apply in_map_iff in H. destruct H as (x & <- & Hx).
  apply Rdiv_lt_0_compat; [apply exp_pos|]. apply sum_exp_pos. intros ->. destruct Hx.
Qed.
Lemma Rsum_scal_r {A} (f : A -> R) c l : Rsum (map (fun x => f x * c) l) = Rsum (map f l) * c.
Proof. induction l; cbn; lra. Qed.
Lemma softmax_sum l : l <> [] -> Rsum (softmax l) = 1.
Proof.
  intros H. pose proof (sum_exp_pos l H). unfold softmax, Rdiv. rewrite (Rsum_scal_r exp). field. lra.
Qed.
Lemma softmax_nth l i : (i < length l)%nat -> nth i (softmax l) 0 = exp (nth i l 0) / Rsum (map exp l).
Proof.
  intros Hi. unfold softmax. apply (nth_map' (fun x => exp x / Rsum (map exp l))). auto.
Qed.
Lemma softmax_lt l i j : (i < length l)%nat -> (j < length l)%nat ->
  (nth i (softmax l) 0 < nth j (softmax l) 0 <-> nth i l 0 < nth j l 0).
Proof.
  intros Hi Hj. rewrite !softmax_nth by auto. assert (Hs : 0 < Rsum (map exp l)).
  { apply sum_exp_pos. intros ->. simpl in Hi. lia. }
  unfold Rdiv. split; intros H.
  - apply exp_lt_inv. apply Rmult_lt_reg_r with (/ Rsum (map exp l)); auto. apply Rinv_0_lt_compat; auto.
  - apply Rmult_lt_compat_r; [apply Rinv_0_lt_compat; auto|]. apply exp_increasing; auto.
Qed.

(** Scores as a function of the stacked rollouts. *)
Lemma Rmean_mean l : Rmean l = mean l.
Proof. unfold Rmean, mean. rewrite Rsum_total. reflexivity. Qed.
Lemma spread_pos l : 0 < spread l.
Proof. unfold spread. destruct Rlt_dec; lra. Qed.
Lemma std_spread l : where_ (Rltb (Rstd l) (1 / 10000)) 1 (Rstd l) = spread l.
Proof.
  unfold spread, Rstd, where_, Rltb. rewrite Rmean_mean.
  assert (E : mean (map (fun x => (x - Rmean l) * (x - Rmean l)) l) = mean (map (fun x => (x - mean l) ^ 2) l)).
  { f_equal. apply map_ext. intros x. rewrite Rmean_mean. ring. }
  rewrite E. destruct Rlt_dec; reflexivity.
Qed.

Lemma map2_map_l {A B C D} (f : B -> C -> D) (h : A -> B) l m : map2 f (map h l) m = map2 (fun a => f (h a)) l m.
Proof. revert m; induction l; destruct m; simpl; congruence. Qed.
Lemma map2_map_r {A B C D} (f : A -> C -> D) (h : B -> C) l m : map2 f l (map h m) = map2 (fun a b => f a (h b)) l m.
Proof. revert m; induction l; destruct m; simpl; congruence. Qed.
Lemma Rmax_where l d : where_ (Rltb l d) d l = Rmax l d.
Proof. unfold where_, Rltb, Rmax. destruct Rlt_dec, Rle_dec; auto; lra. Qed.

Lemma Rmax_of_is_max l : l <> [] -> is_max (Rmax_of l) l.
Proof. intros. split; [apply Rmax_of_in; auto|]. intros. apply Rmax_of_ge; auto. Qed.
Lemma is_max_unique m m' l : is_max m l -> is_max m' l -> m = m'.
Proof. intros [H1 H2] [H3 H4]. apply Rle_antisym; auto. Qed.

Section Scores.
Context {Q : Type}.
Variable env : penv Q.
Variable g : cfg.

Lemma log_scores_off rews qss : g_demo g = false ->
  log_scores env g rews qss = map (fun r => (r - mean rews) / spread rews / g_temp g) rews.
Proof.
  intros H. unfold log_scores. rewrite H, std_spread. apply map_ext. intros. rewrite Rmean_mean. reflexivity.
Qed.
Lemma log_scores_on rews qss : g_demo g = true -> 
  log_scores env g rews qss =
  map2 (fun r qs => Rmax ((r - mean rews) / spread rews / g_temp g)
     ((pe_logpd env qs (g_motion g) - Rmax_of (map (fun qs => pe_logpd env qs (g_motion g)) qss) + pe_rew_xref env - mean rews)
         / spread rews / g_temp g)) rews qss.
Proof.
  intros H. unfold log_scores. rewrite H, std_spread, !Rmean_mean.
  rewrite map_map, map2_map_l, map2_map_r.
  generalize (Rmax_of (map (fun qs : list Q => pe_logpd env qs (g_motion g)) qss)). intros mx.
  generalize (mean rews) (spread rews). intros mu sd.
  revert qss. induction rews as [|r rs IH]; intros [|qs qss]; cbn [map2]; auto. f_equal; [|apply IH].
  apply Rmax_where.
Qed.
Lemma log_scores_length rews qss : length qss = length rews -> length (log_scores env g rews qss) = length rews.
Proof.
  intros HL. destruct (g_demo g) eqn:E.
  - rewrite log_scores_on by auto. rewrite map2_length. lia.
  - rewrite log_scores_off by auto. apply map_length.
Qed.

Definition roll (us : list act) : R * list Q * list act := rollout_term env us.
(** Reward of one sample: rollout reward (with terminal part) plus the steering reward of the
    executed controls. *)
Definition sample_reward (us : list act) : R :=
  fst (fst (rollout_term env us)) + pe_steer_w env * steering_reward (pe_dmax env) (snd (rollout_term env us)).
Lemma evaluate_char Y0s :
  evaluate_samples env g Y0s =
  (map (fun us => snd (rollout_term env us)) Y0s, map sample_reward Y0s,
   softmax (log_scores env g (map sample_reward Y0s) (map (fun us => snd (fst (rollout_term env us))) Y0s))).
Proof.
  unfold evaluate_samples. rewrite !map_map, map2_map_same. reflexivity.
Qed.
End Scores.

(** ** C13 *)
(** C13: the weights of a non-empty sample set are positive and sum to one, one per sample. *)
Lemma l_C13_weights_are_a_distribution :
  forall (Q : Type) (env : penv Q) g samples, samples <> [] ->
  let ws := snd (evaluate_samples env g samples) in
  length ws = length samples /\ distribution ws.
Proof.
  intros Q env g samples Hne ws. unfold ws. rewrite evaluate_char. cbn [snd].
  assert (HL : length (log_scores env g (map (sample_reward env) samples)
     (map (fun us => snd (fst (rollout_term env us))) samples)) = length samples).
  { rewrite log_scores_length; rewrite ?map_length; auto. }
  split; [rewrite softmax_length; auto|]. split.
  - apply Forall_forall. intros w Hw. eapply softmax_pos; eauto.
  - rewrite <- Rsum_total. apply softmax_sum. intros E. rewrite E in HL. destruct samples; simpl in *; [congruence|lia].
Qed.
(** C13: without a demonstration the weights order the samples exactly by their reward. *)
Lemma l_C13_weights_follow_reward :
  forall (Q : Type) (env : penv Q) g samples i j, 0 < g_temp g -> g_demo g = false ->
  (i < length samples)%nat -> (j < length samples)%nat ->
  let rews := snd (fst (evaluate_samples env g samples)) in
  let ws := snd (evaluate_samples env g samples) in
  (nth i ws 0 < nth j ws 0 <-> nth i rews 0 < nth j rews 0).
Proof.
  intros Q env g samples i j HT Hd Hi Hj rews ws. unfold rews, ws. rewrite evaluate_char. cbn [fst snd].
  set (rs := map (sample_reward env) samples). assert (HL : length rs = length samples) by apply map_length.
  rewrite log_scores_off by auto. rewrite softmax_lt by (rewrite map_length; lia).
  rewrite !(nth_map' _ _ _ 0) by lia. pose proof (spread_pos rs).
  unfold Rdiv. split; intros H1.
  - apply Rmult_lt_reg_r in H1; [|apply Rinv_0_lt_compat; auto]. apply Rmult_lt_reg_r in H1; [|apply Rinv_0_lt_compat; auto]. lra.
  - apply Rmult_lt_compat_r; [apply Rinv_0_lt_compat; auto|]. apply Rmult_lt_compat_r; [apply Rinv_0_lt_compat; auto|]. lra.
Qed.
(** C13: in every mode the weights order the samples exactly by their (possibly
    demonstration-raised) score and are the normalised exponentials of these scores. *)
Lemma l_C13_weights_follow_score :
  forall (Q : Type) (env : penv Q) g rews qss i j, length qss = length rews ->
  (i < length rews)%nat -> (j < length rews)%nat ->
  softmax (log_scores env g rews qss) = exp_weights (log_scores env g rews qss) /\
  (nth i (softmax (log_scores env g rews qss)) 0 < nth j (softmax (log_scores env g rews qss)) 0 <->
   nth i (log_scores env g rews qss) 0 < nth j (log_scores env g rews qss) 0).
Proof.
  intros Q env g rews qss i j HL Hi Hj. split.
  - unfold softmax, exp_weights. rewrite Rsum_total. reflexivity.
  - apply softmax_lt; rewrite log_scores_length; auto.
Qed.
Lemma mean_shift l c : l <> [] -> mean (map (fun r => r + c) l) = mean l + c.
Proof.
  intros H. unfold mean. rewrite map_length, <- (Rsum_total l), <- (Rsum_total (map _ _)).
  assert (E : Rsum (map (fun r => r + c) l) = Rsum l + INR (length l) * c).
  { clear H. induction l; [cbn; ring|]. cbn [map Rsum]. rewrite IHl. cbn [length]. rewrite S_INR. ring. }
  rewrite E. assert (INR (length l) <> 0) by (apply not_0_INR; destruct l; simpl; congruence). field. auto.
Qed.
Lemma spread_shift l c : l <> [] -> spread (map (fun r => r + c) l) = spread l.
Proof.
  intros H. unfold spread. rewrite mean_shift by auto. rewrite map_map.
  replace (map (fun x => (x + c - (mean l + c)) ^ 2) l) with (map (fun x => (x - mean l) ^ 2) l); [reflexivity|].
  apply map_ext. intros. f_equal. ring.
Qed.
(** C13: adding a constant to all rewards (and to the demonstration's reward, if one is used)
    changes no weight. *)
Lemma l_C13_shift_invariant :
  forall (Q : Type) (env env' : penv Q) g rews qss c, rews <> [] ->
  (g_demo g = true -> pe_logpd env' = pe_logpd env /\ pe_rew_xref env' = pe_rew_xref env + c) ->
  softmax (log_scores env' g (map (fun r => r + c) rews) qss) = softmax (log_scores env g rews qss).
Proof.
  intros Q env env' g rews qss c Hne Hd. f_equal. destruct (g_demo g) eqn:E.
  - destruct (Hd eq_refl) as [E1 E2]. rewrite !log_scores_on by auto. rewrite E1, E2.
    rewrite mean_shift, spread_shift by auto. rewrite map2_map_l.
    generalize (Rmax_of (map (fun qs : list Q => pe_logpd env qs (g_motion g)) qss)). intros mx.
    generalize (mean rews) (spread rews). intros mu sd. clear.
    revert qss. induction rews as [|r rs IH]; intros [|qs qss]; cbn [map2]; auto. f_equal; [|apply IH].
    f_equal; (f_equal; f_equal; ring).
  - rewrite !log_scores_off by auto. rewrite mean_shift, spread_shift by auto. rewrite map_map.
    apply map_ext. intros. f_equal. f_equal. ring.
Qed.

Lemma Rsum_perm l l' : Permutation l l' -> Rsum l = Rsum l'.
Proof. induction 1; simpl; lra. Qed.
Lemma total_perm l l' : Permutation l l' -> total l = total l'.
Proof. intros. rewrite <- (Rsum_total l), <- (Rsum_total l'). apply Rsum_perm; auto. Qed.
Lemma mean_perm l l' : Permutation l l' -> mean l = mean l'.
Proof. intros H. unfold mean. rewrite (total_perm _ _ H), (Permutation_length H). reflexivity. Qed.
Lemma spread_perm l l' : Permutation l l' -> spread l = spread l'.
Proof.
  intros H. unfold spread. rewrite (mean_perm _ _ H).
  rewrite (mean_perm (map (fun x => (x - mean l') ^ 2) l) (map (fun x => (x - mean l') ^ 2) l')) by (apply Permutation_map; auto).
  reflexivity.
Qed.
Lemma Rmax_of_perm l l' : Permutation l l' -> Rmax_of l = Rmax_of l'.
Proof.
  intros H. destruct l as [|x xs].
  - apply Permutation_nil in H. subst. reflexivity.
  - apply is_max_unique with (x :: xs); [apply Rmax_of_is_max; congruence|].
    assert (Hne : l' <> []). { intros ->. apply Permutation_sym, Permutation_nil in H. congruence. }
    destruct (Rmax_of_is_max l' Hne) as [H1 H2]. split.
    + eapply Permutation_in; [apply Permutation_sym; eauto|auto].
    + intros y Hy. apply H2. eapply Permutation_in; eauto.
Qed.

Section Perm.
Context {Q : Type}.
Variable env : penv Q.
Variable g : cfg.
(** Score of one sample given the statistics of the whole set. *)
Definition score_in (all : list (list act)) (us : list act) : R :=
  let rews := map (sample_reward env) all in
  let own := (sample_reward env us - mean rews) / spread rews / g_temp g in
  let lp u := pe_logpd env (snd (fst (rollout_term env u))) (g_motion g) in
  if g_demo g then Rmax own ((lp us - Rmax_of (map lp all) + pe_rew_xref env - mean rews) / spread rews / g_temp g) else own.
Definition weight_in (all : list (list act)) (us : list act) : R :=
  exp (score_in all us) / Rsum (map (fun u => exp (score_in all u)) all).
Lemma weights_char all : snd (evaluate_samples env g all) = map (weight_in all) all.
Proof.
  rewrite evaluate_char. cbn [snd].
  assert (E : log_scores env g (map (sample_reward env) all) (map (fun us => snd (fst (rollout_term env us))) all)
     = map (score_in all) all).
  { unfold score_in. destruct (g_demo g) eqn:E.
    - rewrite log_scores_on by auto. rewrite map2_map_same. rewrite map_map. reflexivity.
    - rewrite log_scores_off by auto. rewrite map_map. reflexivity. }
  rewrite E. unfold softmax. rewrite !map_map. reflexivity.
Qed.
Lemma score_perm all all' us : Permutation all all' -> score_in all us = score_in all' us.
Proof.
  intros H. unfold score_in.
  rewrite (mean_perm (map (sample_reward env) all) (map (sample_reward env) all')) by (apply Permutation_map; auto).
  rewrite (spread_perm (map (sample_reward env) all) (map (sample_reward env) all')) by (apply Permutation_map; auto).
  rewrite (Rmax_of_perm (map (fun u => pe_logpd env (snd (fst (rollout_term env u))) (g_motion g)) all)
     (map (fun u => pe_logpd env (snd (fst (rollout_term env u))) (g_motion g)) all')) by (apply Permutation_map; auto).
  reflexivity.
Qed.
Lemma weight_perm all all' us : Permutation all all' -> weight_in all us = weight_in all' us.
Proof.
  intros H. unfold weight_in. rewrite (score_perm _ _ us H).
  rewrite (Rsum_perm (map (fun u => exp (score_in all u)) all) (map (fun u => exp (score_in all u)) all')) by (apply Permutation_map; auto).
  f_equal. f_equal. apply map_ext. intros. rewrite (score_perm _ _ a H). reflexivity.
Qed.
Lemma einsum_perm H all all' : Permutation all all' ->
  einsum_avg H (snd (evaluate_samples env g all)) (fst (fst (evaluate_samples env g all))) =
  einsum_avg H (snd (evaluate_samples env g all')) (fst (fst (evaluate_samples env g all'))).
Proof.
  intros HP. rewrite !weights_char, !evaluate_char. cbn [fst]. unfold einsum_avg, weighted. apply map_ext. intros t.
  rewrite !map2_map_same.
  f_equal; (rewrite (Rsum_perm _ _ (Permutation_map _ HP)); f_equal; apply map_ext; intros; rewrite (weight_perm _ _ a HP); reflexivity).
Qed.
End Perm.

(** C13: permuting the samples permutes the weights with them. *)
Lemma l_C13_permutation_of_weights :
  forall (Q : Type) (env : penv Q) g samples samples', Permutation samples samples' ->
  Permutation (combine samples (snd (evaluate_samples env g samples)))
              (combine samples' (snd (evaluate_samples env g samples'))).
Proof.
  intros Q env g a b H. rewrite !weights_char.
  assert (C : forall (f : list act -> R) l, combine l (map f l) = map (fun x => (x, f x)) l).
  { intros f l. induction l; cbn; congruence. }
  rewrite !C. rewrite (map_ext (fun x => (x, weight_in env g a x)) (fun x => (x, weight_in env g b x))).
  - apply Permutation_map; auto.
  - intros x. rewrite (weight_perm env g _ _ x H). reflexivity.
Qed.
(** C13: the denoising step's result does not depend on the order of the noise samples. *)
Lemma l_C13_permutation_of_samples :
  forall (Q : Type) (env : penv Q) g i eps eps' Y, Permutation eps eps' ->
  reverse_once env g i eps Y = reverse_once env g i eps' Y.
Proof.
  intros Q env g i eps eps' Y H.
  set (mk := make_sample (g_motion g) (nth i (sigmas g) 0 / sqrt (nth (i - 1) (alphas_bar g) 0)) Y).
  pose proof (einsum_perm env g (g_Hsample g) (map mk eps) (map mk eps') (Permutation_map _ H)) as E.
  assert (ER : Rmean (snd (fst (evaluate_samples env g (map mk eps)))) = Rmean (snd (fst (evaluate_samples env g (map mk eps'))))).
  { rewrite !evaluate_char. cbn [fst snd]. rewrite !Rmean_mean. apply mean_perm. apply Permutation_map. apply Permutation_map. auto. }
  unfold reverse_once, reverse_once_with. fold mk. 
  destruct (evaluate_samples env g (map mk eps)) as [[ef rw] ws].
  destruct (evaluate_samples env g (map mk eps')) as [[ef' rw'] ws']. cbn [fst snd] in *.
  rewrite E, ER. reflexivity.
Qed.

(** ** C14 *)
(** C14: with the demonstration enabled a sample's score is the larger of its own standardised
    reward and its demonstration score. *)
Lemma l_C14_score_is_larger_of_both :
  forall (Q : Type) (env : penv Q) g rews qss n m, g_demo g = true -> length qss = length rews ->
  (n < length rews)%nat ->
  is_max m (map (fun qs => pe_logpd env qs (g_motion g)) qss) ->
  let own := (nth n rews 0 - mean rews) / spread rews / g_temp g in
  let demo := (pe_logpd env (nth n qss []) (g_motion g) - m + pe_rew_xref env - mean rews) / spread rews / g_temp g in
  nth n (log_scores env g rews qss) 0 = Rmax own demo.
Proof.
  intros Q env g rews qss n m Hd HL Hn Hm own demo. rewrite log_scores_on by auto.
  rewrite (map2_nth _ _ _ _ 0 []) by lia. unfold own, demo.
  rewrite (is_max_unique m (Rmax_of (map (fun qs => pe_logpd env qs (g_motion g)) qss)) _ Hm); [reflexivity|].
  apply Rmax_of_is_max. destruct qss; simpl in *; [lia|congruence].
Qed.
(** C14: hence no score is lowered, and the sample matching the demonstration best scores at
    least what the demonstration itself would score. *)
Lemma l_C14_demonstration_only_raises :
  forall (Q : Type) (env : penv Q) g g' rews qss n, g_demo g = true -> g_demo g' = false -> g_temp g' = g_temp g ->
  length qss = length rews -> (n < length rews)%nat ->
  nth n (log_scores env g' rews qss) 0 <= nth n (log_scores env g rews qss) 0 /\
  (is_max (pe_logpd env (nth n qss []) (g_motion g)) (map (fun qs => pe_logpd env qs (g_motion g)) qss) ->
   nth n (log_scores env g rews qss) 0 =
     Rmax ((nth n rews 0 - mean rews) / spread rews / g_temp g) ((pe_rew_xref env - mean rews) / spread rews / g_temp g)).
Proof.
  intros Q env g g' rews qss n Hd Hd' HT HL Hn. split.
  - assert (Hne : map (fun qs => pe_logpd env qs (g_motion g)) qss <> []) by (destruct qss; simpl in *; [lia|congruence]).
    rewrite (l_C14_score_is_larger_of_both Q env g rews qss n _ Hd HL Hn (Rmax_of_is_max _ Hne)).
    rewrite log_scores_off by auto. rewrite (nth_map' _ _ _ 0) by auto. rewrite HT. apply Rmax_l.
  - intros Hm. rewrite (l_C14_score_is_larger_of_both Q env g rews qss n _ Hd HL Hn Hm). f_equal. f_equal. f_equal. ring.
Qed.
(** C14: with the demonstration disabled the scores are the standardised rewards: neither the
    visited states nor the demonstration matter. *)
Lemma l_C14_disabled_means_rewards_only :
  forall (Q : Type) (env env' : penv Q) g rews qss qss', g_demo g = false ->
  log_scores env g rews qss = log_scores env' g rews qss' /\
  log_scores env g rews qss = map (fun r => (r - mean rews) / spread rews / g_temp g) rews.
Proof.
  intros. rewrite !log_scores_off by auto. auto.
Qed.

(** ** C09 *)
Lemma einsum_nth H ws Ys t : (t < H)%nat ->
  nth t (einsum_avg H ws Ys) (0, 0) = (weighted fst ws Ys t, weighted snd ws Ys t).
Proof.
  intros Ht. unfold einsum_avg. rewrite (nth_map' _ _ _ 0%nat) by (rewrite seq_length; auto).
  rewrite seq_nth by auto. reflexivity.
Qed.
Lemma weighted_wavg f ws Ys t : weighted f ws Ys t = wavg ws (map (fun Y => f (nth t Y (0, 0))) Ys).
Proof.
  unfold weighted, wavg. rewrite Rsum_total. f_equal. revert Ys.
  induction ws as [|w ws IH]; intros [|Y Ys]; cbn; auto. f_equal. apply IH.
Qed.
Lemma reverse_once_avg {Q} (env : penv Q) g i eps Y : sched_ok g -> (1 <= i)%nat -> (i < g_Ndiffuse g)%nat ->
  length Y = g_Hsample g ->
  let samples := map (make_sample (g_motion g) (nth i (sigmas g) 0 / sqrt (nth (i - 1) (alphas_bar g) 0)) Y) eps in
  fst (reverse_once env g i eps Y) =
  einsum_avg (g_Hsample g) (snd (evaluate_samples env g samples)) (fst (fst (evaluate_samples env g samples))).
Proof.
  intros Hs H1 Hi HY samples. unfold reverse_once, reverse_once_with. fold samples.
  destruct (evaluate_samples env g samples) as [[ef rw] ws]. cbn [fst snd].
  destruct i as [|i]; [lia|]. replace (S i - 1)%nat with i by lia.
  assert (Hab : nth (S i) (alphas_bar g) 0 = nth i (alphas_bar g) 0 * nth (S i) (alphas g) 0) by (apply nth_alphas_bar_S; auto).
  assert (R1 : 0 < nth i (alphas_bar g) 0 < 1) by (apply alpha_bar_range; auto; lia).
  assert (R2 : 0 < nth (S i) (alphas g) 0 < 1) by (apply alpha_range; auto).
  assert (R3 : 0 < nth (S i) (alphas_bar g) 0 < 1) by (apply alpha_bar_range; auto).
  set (ab := nth (S i) (alphas_bar g) 0) in *. set (ab1 := nth i (alphas_bar g) 0) in *. set (al := nth (S i) (alphas g) 0) in *.
  assert (S1 : 0 < sqrt ab1) by (apply sqrt_lt_R0; lra). assert (S2 : 0 < sqrt al) by (apply sqrt_lt_R0; lra).
  assert (Sab : sqrt ab = sqrt ab1 * sqrt al) by (rewrite Hab; apply sqrt_mult; lra).
  set (avg := einsum_avg (g_Hsample g) ws ef).
  assert (HL : length Y = length avg) by (unfold avg; rewrite einsum_length; auto).
  clearbody avg. clear - HL S1 S2 Sab R3.
  revert avg HL. induction Y as [|y Y IH]; intros [|b avg] HL; try discriminate; [reflexivity|].
  cbn [map map2]. f_equal; [|apply IH; simpl in HL; lia].
  destruct y as [y1 y2], b as [b1 b2]. unfold act_scale, act_add. cbn [fst snd]. rewrite Sab.
  f_equal; field; repeat split; lra.
Qed.
(** C09: one reverse step at index i returns, for every time t and both components, the
    average of the controls actually executed by the samples; the weights are the probability
    distribution the samples were given. Nothing else of the previous mean is left. *)
Lemma l_C09_denoising_step_is_weighted_average :
  forall (Q : Type) (env : penv Q) g i eps Ybar,
  0 < g_beta0 g < 1 -> 0 < g_betaT g < 1 -> (1 <= i < g_Ndiffuse g)%nat -> length Ybar = g_Hsample g -> eps <> [] ->
  let samples := map (make_sample (g_motion g) (nth i (sigmas g) 0 / sqrt (nth (i - 1) (alphas_bar g) 0)) Ybar) eps in
  let executed := map (fun us => snd (rollout_term env us)) samples in
  let ws := snd (evaluate_samples env g samples) in
  let Y' := fst (reverse_once env g i eps Ybar) in
  distribution ws /\ length ws = length samples /\ length Y' = g_Hsample g /\
  forall t, (t < g_Hsample g)%nat ->
    fst (nth t Y' (0, 0)) = wavg ws (map (fun u => fst (nth t u (0, 0))) executed) /\
    snd (nth t Y' (0, 0)) = wavg ws (map (fun u => snd (nth t u (0, 0))) executed).
Proof.
  intros Q env g i eps Ybar H0 HT Hi HY Hne samples executed ws Y'.
  assert (Hne' : samples <> []) by (unfold samples; destruct eps; simpl; congruence).
  destruct (l_C13_weights_are_a_distribution Q env g samples Hne') as [HL HD]. fold ws in HL, HD.
  split; [exact HD|]. split; [exact HL|].
  assert (E : Y' = einsum_avg (g_Hsample g) ws executed).
  { unfold Y'. rewrite reverse_once_avg; auto; try lia; [|split; auto]. cbv zeta. fold samples.
    f_equal. rewrite evaluate_char. reflexivity. }
  rewrite E. split; [apply einsum_length|]. intros t Ht. rewrite einsum_nth by auto. cbn [fst snd].
  rewrite !weighted_wavg. auto.
Qed.
(** C09: the previous mean enters only through the samples. *)
Lemma l_C09_previous_mean_only_through_samples :
  forall (Q : Type) (env : penv Q) g i eps eps' Y Y',
  0 < g_beta0 g < 1 -> 0 < g_betaT g < 1 -> (1 <= i < g_Ndiffuse g)%nat ->
  length Y = g_Hsample g -> length Y' = g_Hsample g ->
  let scale := nth i (sigmas g) 0 / sqrt (nth (i - 1) (alphas_bar g) 0) in
  map (make_sample (g_motion g) scale Y) eps = map (make_sample (g_motion g) scale Y') eps' ->
  reverse_once env g i eps Y = reverse_once env g i eps' Y'.
Proof.
  intros Q env g i eps eps' Y Y' H0 HT Hi HY HY' scale E.
  assert (Hs : sched_ok g) by (split; auto).
  rewrite (surjective_pairing (reverse_once env g i eps Y)), (surjective_pairing (reverse_once env g i eps' Y')).
  f_equal.
  - rewrite !reverse_once_avg by (auto; lia). cbv zeta. fold scale. rewrite E. reflexivity.
  - unfold reverse_once, reverse_once_with. fold scale. rewrite E.
    destruct (evaluate_samples env g (map (make_sample (g_motion g) scale Y') eps')) as [[ef rw] ws]. reflexivity.
Qed.
Lemma x_C09_example :
  0 < g_beta0 ex_cfg < 1 /\ 0 < g_betaT ex_cfg < 1 /\ (1 <= 99 < g_Ndiffuse ex_cfg)%nat /\
  length (YN ex_cfg) = g_Hsample ex_cfg /\ [[(1, 2)]] <> ([] : list (list act)).
Proof. cbn. repeat split; try lra; try lia; try congruence. Qed.

(** ** C10, C11: invariant rectangles of commands *)
Definition in_range (lo hi : R) (a : act) : Prop := (lo <= fst a <= hi) /\ (-1 <= snd a <= 1).
Lemma wavg_range lo hi ws xs : (forall w, In w ws -> 0 <= w) -> total ws = 1 -> length ws = length xs ->
  (forall x, In x xs -> lo <= x <= hi) -> lo <= wavg ws xs <= hi.
Proof.
  intros Hw Ht HL Hx.
  assert (G : total ws * lo <= wavg ws xs <= total ws * hi).
  { clear Ht. unfold wavg. revert xs HL Hx. induction ws as [|w ws IH]; intros [|x xs] HL Hx; try discriminate; [cbn; lra|].
    cbn [combine map total fold_right fst snd]. 
    assert (0 <= w) by (apply Hw; left; auto). assert (lo <= x <= hi) by (apply Hx; left; auto).
    assert (IH' := IH (fun w H => Hw w (or_intror H)) xs ltac:(simpl in HL; lia) (fun x H => Hx x (or_intror H))).
    unfold total in IH'. nra. }
  rewrite Ht in G. lra.
Qed.
Section Range.
Context {Q : Type}.
Variable env : penv Q.
Variable g : cfg.
Variables lo hi : R.
Hypothesis Hz : lo <= 0 <= hi.
Hypothesis Hsched : sched_ok g.
(** Samples produced from any noise around any mean are executed inside the rectangle, and so
    are sequences already inside it. *)
Hypothesis Hexec : forall scale Y eps, Forall (in_range lo hi) (snd (rollout_term env (make_sample (g_motion g) scale Y eps))).
Hypothesis Hexec2 : forall Y, Forall (in_range lo hi) Y -> Forall (in_range lo hi) (snd (rollout_term env Y)).

Lemma in_range_nth l t : Forall (in_range lo hi) l -> in_range lo hi (nth t l (0, 0)).
Proof.
  intros H. destruct (Nat.lt_ge_cases t (length l)).
  - rewrite Forall_forall in H. apply H. apply nth_In; auto.
  - rewrite nth_overflow by auto. split; cbn; lra.
Qed.
Lemma reverse_once_range i eps Y : (1 <= i < g_Ndiffuse g)%nat -> length Y = g_Hsample g ->
  Forall (in_range lo hi) (fst (reverse_once env g i eps Y)).
Proof.
  intros Hi HY. rewrite reverse_once_avg by (auto; lia). cbv zeta.
  set (samples := map _ eps).
  apply Forall_forall. intros a Ha. unfold einsum_avg in Ha. apply in_map_iff in Ha. destruct Ha as (t & <- & Ht).
  rewrite evaluate_char. cbn [fst]. rewrite <- (evaluate_char env g samples).
  assert (Hex : forall u, In u (map (fun us => snd (rollout_term env us)) samples) -> in_range lo hi (nth t u (0, 0))).
  { intros u Hu. apply in_map_iff in Hu. destruct Hu as (us & <- & Hus). unfold samples in Hus. apply in_map_iff in Hus.
    destruct Hus as (e & <- & _). apply in_range_nth. apply Hexec. }
  set (executed := map _ samples) in *.
  destruct eps as [|e eps'] eqn:Ee.
  - unfold executed, samples. cbn [map]. rewrite weights_char. cbn [map]. unfold weighted. cbn. unfold in_range; cbn; lra.
  - assert (Hne : samples <> []) by (unfold samples; simpl; congruence).
    destruct (l_C13_weights_are_a_distribution Q env g samples Hne) as [HL [Hp Hsum]].
    set (ws := snd (evaluate_samples env g samples)) in *.
    assert (HL' : length ws = length executed) by (unfold executed; rewrite map_length; auto).
    rewrite Forall_forall in Hp.
    rewrite !weighted_wavg. split; cbn [fst snd]; apply wavg_range; rewrite ?map_length; auto;
      try (intros w Hw; left; apply Hp; auto);
      intros x Hx; apply in_map_iff in Hx; destruct Hx as (u & <- & Hu); apply Hex; auto.
Qed.
Lemma reverse_loop_range rg idx : forall k Y, (forall i, In i idx -> (1 <= i < g_Ndiffuse g)%nat) -> length Y = g_Hsample g ->
  Forall (in_range lo hi) Y ->
  Forall (in_range lo hi) (snd (reverse_loop env g rg idx k Y)) /\
  Forall (Forall (in_range lo hi)) (fst (reverse_loop env g rg idx k Y)).
Proof.
  induction idx as [|i idx IH]; intros k Y Hi HY HR; cbn [reverse_loop]; [split; [exact HR|constructor]|].
  destruct (prng_split rg k) as [k' ks]. set (eps := prng_normal rg ks (g_Nsample g) (g_Hsample g)).
  pose proof (reverse_once_range i eps Y (Hi i (or_introl eq_refl)) HY) as H1.
  pose proof (reverse_once_length env g i eps Y HY) as H2.
  destruct (reverse_once env g i eps Y) as [Y' m]. cbn [fst] in *.
  destruct (IH k' Y' (fun j Hj => Hi j (or_intror Hj)) H2 H1) as [H3 H4].
  destruct (reverse_loop env g rg idx k' Y') as [Ys Yf]. cbn [fst snd] in *. split; auto.
Qed.
Lemma run_range rg out : run_diffusion env (Some g) rg = Ok out ->
  Forall (in_range lo hi) (o_Y0 out) /\ Forall (Forall (in_range lo hi)) (o_Ybars out).
Proof.
  intros E. injection E as <-. unfold run_diffusion_core.
  set (kk := fst (prng_split rg (fst (prng_split rg (prng_key rg (g_seed g)))))).
  destruct (reverse_loop_range rg (diffusion_indices g) kk (YN g)) as [H1 H2].
  - unfold diffusion_indices. intros i Hi. apply in_rev in Hi. apply in_seq in Hi. lia.
  - apply repeat_length.
  - apply Forall_forall. intros a Ha. apply repeat_spec in Ha. rewrite Ha. split; cbn; lra.
  - destruct (reverse_loop env g rg (diffusion_indices g) kk (YN g)) as [Ys Yf]. cbn [fst snd o_Y0 o_Ybars] in *.
    split; auto.
Qed.
End Range.

(** Applied actions of a scan. *)
Lemma scan_app_forall {Q} (step : State Q -> act -> State Q) (P : act -> Prop) us : forall st,
  (forall st a, P (st_app (step st a))) -> Forall P (map snd (snd (scan_us step st us))).
Proof.
  induction us as [|u us IH]; intros st H; cbn [scan_us]; [constructor|].
  specialize (IH (step st u) H). destruct (scan_us step (step st u) us) as [f o]. cbn [snd map]. constructor; auto.
Qed.
Lemma scan_app_forall2 {Q} (step : State Q -> act -> State Q) (P : act -> Prop) us : forall st,
  (forall st a, P a -> P (st_app (step st a))) -> Forall P us -> Forall P (map snd (snd (scan_us step st us))).
Proof.
  induction us as [|u us IH]; intros st H HF; cbn [scan_us]; [constructor|]. inversion HF; subst.
  specialize (IH (step st u) H H3). destruct (scan_us step (step st u) us) as [f o]. cbn [snd map]. constructor; auto.
Qed.
Lemma rollout_app_forall {Q} (env : penv Q) (P : act -> Prop) us :
  (forall st a, P (st_app (pe_step env st a))) -> Forall P (snd (rollout_term env us)).
Proof.
  intros H. unfold rollout_term, rollout_us_with_terminal.
  pose proof (scan_app_forall (pe_step env) P us (pe_step env (pe_reset env) (0, 0)) H) as HF.
  destruct (scan_us _ _ _) as [f o]. exact HF.
Qed.
Lemma rollout_app_forall2 {Q} (env : penv Q) (P : act -> Prop) us :
  (forall st a, P a -> P (st_app (pe_step env st a))) -> Forall P us -> Forall P (snd (rollout_term env us)).
Proof.
  intros H HF. unfold rollout_term, rollout_us_with_terminal.
  pose proof (scan_app_forall2 (pe_step env) P us (pe_step env (pe_reset env) (0, 0)) H HF) as HF'.
  destruct (scan_us _ _ _) as [f o]. exact HF'.
Qed.

Lemma gen_C10 {Q} (env : penv Q) g : (forall st a, in_box (st_app (pe_step env st a))) ->
  0 < g_beta0 g < 1 -> 0 < g_betaT g < 1 -> forall rg out, run_diffusion env (Some g) rg = Ok out ->
  Forall in_control_box (o_Y0 out) /\ Forall (Forall in_control_box) (o_Ybars out).
Proof.
  intros H H0 HT rg out E.
  apply (run_range env g (-1) 1) with rg; auto; try lra; [split; auto| |];
    intros; apply rollout_app_forall; exact H.
Qed.
(** C10: every intermediate mean and the returned plan are in the control box. *)
Lemma l_C10_tt_means_in_box :
  forall s x0 proj guide logpd rx g rg out, p_proj (ts_p s) = false -> 0 < g_beta0 g < 1 -> 0 < g_betaT g < 1 ->
  run_diffusion (tt_penv s x0 proj guide logpd rx) (Some g) rg = Ok out ->
  Forall in_control_box (o_Y0 out) /\ Forall (Forall in_control_box) (o_Ybars out).
Proof.
  intros s x0 proj guide logpd rx g rg out Hp H0 HT E. eapply gen_C10; eauto.
  intros st a. cbn [pe_step tt_penv]. unfold tt_step, tt_step_internal, tt_step_with. rewrite Hp. destruct (p_guid (ts_p s)); cbn [st_app].
  - apply in_box_where; [apply in_box_zero|apply in_box_clip].
  - rewrite shield_dispatch. cbn [st_app]. apply in_box_where; [apply in_box_zero|apply in_box_clip].
Qed.
Lemma l_C10_bk_means_in_box :
  forall s x0 proj guide logpd rx g rg out, p_proj (bs_p s) = false -> 0 < g_beta0 g < 1 -> 0 < g_betaT g < 1 ->
  run_diffusion (bk_penv s x0 proj guide logpd rx) (Some g) rg = Ok out ->
  Forall in_control_box (o_Y0 out) /\ Forall (Forall in_control_box) (o_Ybars out).
Proof.
  intros s x0 proj guide logpd rx g rg out Hp H0 HT E. eapply gen_C10; eauto.
  intros st a. cbn [pe_step bk_penv]. unfold bk_step, bk_step_internal, bk_step_with. rewrite Hp. destruct (p_guid (bs_p s)); cbn [st_app].
  - apply in_box_where; [apply in_box_zero|apply in_box_clip].
  - rewrite shield_dispatch. cbn [st_app]. apply in_box_where; [apply in_box_zero|apply in_box_clip].
Qed.
Lemma l_C10_nt_means_in_box :
  forall s x0 guide logpd rx g rg out, 0 < g_beta0 g < 1 -> 0 < g_betaT g < 1 ->
  nt_run s x0 guide logpd rx g rg = Ok out ->
  Forall in_control_box (o_Y0 out) /\ Forall (Forall in_control_box) (o_Ybars out).
Proof.
  intros s x0 guide logpd rx g rg out H0 HT E. unfold nt_run in E.
  destruct (negb _); [discriminate|]. destruct (p_proj _); [discriminate|]. eapply gen_C10; eauto.
  intros st a. cbn [pe_step nt_penv]. unfold nt_step_core, nt_step_with. destruct (p_guid (ns_p s)); cbn [st_app].
  - apply in_box_where; [apply in_box_zero|apply in_box_clip].
  - rewrite shield_dispatch. cbn [st_app]. apply in_box_where; [apply in_box_zero|apply in_box_clip].
Qed.
Lemma l_C10_acc_means_in_box :
  forall s x0 proj guide logpd rx g rg out, p_proj (as_p s) = false -> 0 < as_amax s -> 0 < g_beta0 g < 1 -> 0 < g_betaT g < 1 ->
  run_diffusion (acc_penv s x0 proj guide logpd rx) (Some g) rg = Ok out ->
  Forall in_control_box (o_Y0 out) /\ Forall (Forall in_control_box) (o_Ybars out).
Proof.
  intros s x0 proj guide logpd rx g rg out Hp Ha H0 HT E. eapply gen_C10; eauto.
  intros st a. cbn [pe_step acc_penv]. unfold acc_step, acc_step_internal, acc_step_with. rewrite Hp. destruct (p_guid (as_p s)); cbn [st_app].
  - apply in_box_where; [apply in_box_backup; auto|apply in_box_clip].
  - destruct (if p_sh_coll (as_p s) || p_sh_hitch (as_p s) then _ else _) as [[qf oc] hv]. cbn [st_app].
    apply in_box_where; [apply in_box_backup; auto|apply in_box_clip].
Qed.

(** ** C11 *)
Lemma scan_app_forall3 {Q} (step : State Q -> act -> State Q) (P P' : act -> Prop) us : forall st,
  (forall st a, P a -> P' (st_app (step st a))) -> Forall P us -> Forall P' (map snd (snd (scan_us step st us))).
Proof.
  induction us as [|u us IH]; intros st H HF; cbn [scan_us]; [constructor|]. inversion HF; subst.
  specialize (IH (step st u) H H3). destruct (scan_us step (step st u) us) as [f o]. cbn [snd map]. constructor; auto.
Qed.
Lemma rollout_app_forall3 {Q} (env : penv Q) (P P' : act -> Prop) us :
  (forall st a, P a -> P' (st_app (pe_step env st a))) -> Forall P us -> Forall P' (snd (rollout_term env us)).
Proof.
  intros H HF. unfold rollout_term, rollout_us_with_terminal.
  pose proof (scan_app_forall3 (pe_step env) P P' us (pe_step env (pe_reset env) (0, 0)) H HF) as HF'.
  destruct (scan_us _ _ _) as [f o]. exact HF'.
Qed.
Lemma make_sample_forall m scale Y eps (P : act -> Prop) : (forall a, P (enforce_motion m a)) ->
  Forall P (make_sample m scale Y eps).
Proof.
  intros H. unfold make_sample. revert Y. induction eps as [|e eps IH]; intros [|y Y]; cbn [map2]; constructor; auto.
Qed.
Definition zero_or_clipped {Q} (env : penv Q) : Prop :=
  forall st a, st_app (pe_step env st a) = (0, 0) \/ st_app (pe_step env st a) = clip_act a.
Lemma gen_C11_fwd {Q} (env : penv Q) g : zero_or_clipped env -> g_motion g = 2%Z ->
  0 < g_beta0 g < 1 -> 0 < g_betaT g < 1 -> forall rg out, run_diffusion env (Some g) rg = Ok out ->
  Forall (fun a => 0 <= fst a <= 1) (o_Y0 out).
Proof.
  intros H Hm H0 HT rg out E.
  assert (HP : forall st a, 0 <= fst a -> in_range 0 1 (st_app (pe_step env st a))).
  { intros st a Ha. destruct (H st a) as [-> | ->]; [split; cbn; lra|].
    destruct (clip_act_range a) as [H1 H2]. split; [|exact H2]. unfold clip_act in *. cbn [fst] in *.
    split; [|lra]. rewrite <- (clip_id 0 (-1) 1) by lra. apply clip_mono. auto. }
  destruct (run_range env g 0 1) with rg out as [H1 _]; auto; try lra.
  - split; auto.
  - intros. eapply rollout_app_forall3; [exact HP|]. apply make_sample_forall. intros a. unfold enforce_motion.
    rewrite Hm. cbn. unfold where_. cbn. apply clip_range. lra.
  - intros Y HY. eapply rollout_app_forall3; [exact HP|]. eapply Forall_impl; [|exact HY]. intros a [Ha _]. lra.
  - eapply Forall_impl; [|exact H1]. intros a [Ha _]. exact Ha.
Qed.
Lemma gen_C11_bwd {Q} (env : penv Q) g : zero_or_clipped env -> g_motion g = (-2)%Z ->
  0 < g_beta0 g < 1 -> 0 < g_betaT g < 1 -> forall rg out, run_diffusion env (Some g) rg = Ok out ->
  Forall (fun a => -1 <= fst a <= 0) (o_Y0 out).
Proof.
  intros H Hm H0 HT rg out E.
  assert (HP : forall st a, fst a <= 0 -> in_range (-1) 0 (st_app (pe_step env st a))).
  { intros st a Ha. destruct (H st a) as [-> | ->]; [split; cbn; lra|].
    destruct (clip_act_range a) as [H1 H2]. split; [|exact H2]. unfold clip_act in *. cbn [fst] in *.
    split; [lra|]. rewrite <- (clip_id 0 (-1) 1) by lra. apply clip_mono. auto. }
  destruct (run_range env g (-1) 0) with rg out as [H1 _]; auto; try lra.
  - split; auto.
  - intros. eapply rollout_app_forall3; [exact HP|]. apply make_sample_forall. intros a. unfold enforce_motion.
    rewrite Hm. cbn. unfold where_. cbn. apply clip_range. lra.
  - intros Y HY. eapply rollout_app_forall3; [exact HP|]. eapply Forall_impl; [|exact HY]. intros a [Ha _]. lra.
  - eapply Forall_impl; [|exact H1]. intros a [Ha _]. exact Ha.
Qed.
Lemma tt_zero_or_clipped s x0 proj guide logpd rx : p_proj (ts_p s) = false -> zero_or_clipped (tt_penv s x0 proj guide logpd rx).
Proof.
  intros Hp st a. cbn [pe_step tt_penv]. unfold tt_step, tt_step_internal, tt_step_with. rewrite Hp. unfold where_.
  destruct (p_guid (ts_p s)); cbn [st_app].
  - destruct (st_bak st); auto.
  - rewrite shield_dispatch. cbn [st_app]. match goal with |- context [if ?b then (0,0) else _] => destruct b end; auto.
Qed.
Lemma bk_zero_or_clipped s x0 proj guide logpd rx : p_proj (bs_p s) = false -> zero_or_clipped (bk_penv s x0 proj guide logpd rx).
Proof.
  intros Hp st a. cbn [pe_step bk_penv]. unfold bk_step, bk_step_internal, bk_step_with. rewrite Hp. unfold where_.
  destruct (p_guid (bs_p s)); cbn [st_app].
  - destruct (st_bak st); auto.
  - rewrite shield_dispatch. cbn [st_app]. match goal with |- context [if ?b then (0,0) else _] => destruct b end; auto.
Qed.
Lemma nt_zero_or_clipped s x0 guide logpd rx : zero_or_clipped (nt_penv s x0 guide logpd rx).
Proof.
  intros st a. cbn [pe_step nt_penv]. unfold nt_step_core, nt_step_with. unfold where_.
  destruct (p_guid (ns_p s)); cbn [st_app].
  - destruct (st_bak st); auto.
  - rewrite shield_dispatch. cbn [st_app]. match goal with |- context [if ?b then (0,0) else _] => destruct b end; auto.
Qed.
(** C11: direction 2 (forward only) / -2 (backward only): all speed commands of the returned
    plan have that sign, in every mode without projection. *)
Lemma l_C11_tt_commands_have_direction :
  forall s x0 proj guide logpd rx g rg out, p_proj (ts_p s) = false -> 0 < g_beta0 g < 1 -> 0 < g_betaT g < 1 ->
  run_diffusion (tt_penv s x0 proj guide logpd rx) (Some g) rg = Ok out ->
  (g_motion g = 2%Z -> Forall (fun a => 0 <= fst a <= 1) (o_Y0 out)) /\
  (g_motion g = (-2)%Z -> Forall (fun a => -1 <= fst a <= 0) (o_Y0 out)).
Proof.
  intros s x0 proj guide logpd rx g rg out Hp H0 HT E. pose proof (tt_zero_or_clipped s x0 proj guide logpd rx Hp) as HZ.
  split; intros Hm; [eapply gen_C11_fwd|eapply gen_C11_bwd]; eauto.
Qed.
Lemma l_C11_bk_commands_have_direction :
  forall s x0 proj guide logpd rx g rg out, p_proj (bs_p s) = false -> 0 < g_beta0 g < 1 -> 0 < g_betaT g < 1 ->
  run_diffusion (bk_penv s x0 proj guide logpd rx) (Some g) rg = Ok out ->
  (g_motion g = 2%Z -> Forall (fun a => 0 <= fst a <= 1) (o_Y0 out)) /\
  (g_motion g = (-2)%Z -> Forall (fun a => -1 <= fst a <= 0) (o_Y0 out)).
Proof.
  intros s x0 proj guide logpd rx g rg out Hp H0 HT E. pose proof (bk_zero_or_clipped s x0 proj guide logpd rx Hp) as HZ.
  split; intros Hm; [eapply gen_C11_fwd|eapply gen_C11_bwd]; eauto.
Qed.
Lemma l_C11_nt_commands_have_direction :
  forall s x0 guide logpd rx g rg out, 0 < g_beta0 g < 1 -> 0 < g_betaT g < 1 ->
  nt_run s x0 guide logpd rx g rg = Ok out ->
  (g_motion g = 2%Z -> Forall (fun a => 0 <= fst a <= 1) (o_Y0 out)) /\
  (g_motion g = (-2)%Z -> Forall (fun a => -1 <= fst a <= 0) (o_Y0 out)).
Proof.
  intros s x0 guide logpd rx g rg out H0 HT E. pose proof (nt_zero_or_clipped s x0 guide logpd rx) as HZ. unfold nt_run in E.
  destruct (negb _); [discriminate|]. destruct (p_proj _); [discriminate|].
  split; intros Hm; [eapply gen_C11_fwd|eapply gen_C11_bwd]; eauto.
Qed.
Lemma dir_algebra dt v c s : c * c + s * s = 1 -> dt * (v * c) * c + dt * (v * s) * s = dt * v.
Proof. intros H. replace (dt * (v * c) * c + dt * (v * s) * s) with (dt * v * (c * c + s * s)) by ring. rewrite H. ring. Qed.
(** C11: hence the vehicle never moves against the enforced direction: the displacement of
    every step of the returned trajectory, projected on the vehicle's heading, has that sign. *)
Lemma l_C11_tt_never_moves_against :
  forall s x0 proj guide logpd rx g rg out, p_proj (ts_p s) = false -> p_guid (ts_p s) = false ->
  0 <= p_dt (ts_p s) -> 0 <= p_vmax (ts_p s) -> 0 < g_beta0 g < 1 -> 0 < g_betaT g < 1 ->
  run_diffusion (tt_penv s x0 proj guide logpd rx) (Some g) rg = Ok out ->
  forall t, (t < g_Hsample g)%nat ->
  let q := nth t (o_traj out) x0 in let q' := nth (S t) (o_traj out) x0 in
  let along := (t_px q' - t_px q) * cos (t_th1 q) + (t_py q' - t_py q) * sin (t_th1 q) in
  (g_motion g = 2%Z -> 0 <= along) /\ (g_motion g = (-2)%Z -> along <= 0).
Proof.
  intros s x0 proj guide logpd rx g rg out Hp Hg Hdt Hv H0 HT E t Ht q q' along.
  destruct (l_C07_tt_plan_is_feasible s x0 proj guide logpd rx g rg out Hp Hg E) as (HL & _ & _ & Hpl).
  destruct (l_C11_tt_commands_have_direction s x0 proj guide logpd rx g rg out Hp H0 HT E) as [Hf Hb].
  assert (Ea : along = p_dt (ts_p s) * (fst (nth t (o_Y0 out) (0, 0)) * p_vmax (ts_p s))).
  { unfold along, q'. rewrite Hpl by auto. fold q. unfold tt_plain. cbn [t_px t_py].
    rewrite <- (dir_algebra (p_dt (ts_p s)) (fst (nth t (o_Y0 out) (0, 0)) * p_vmax (ts_p s)) (cos (t_th1 q)) (sin (t_th1 q))); [ring|]. pose proof (sin2_cos2' (t_th1 q)). lra. }
  rewrite Ea. assert (Hin : In (nth t (o_Y0 out) (0, 0)) (o_Y0 out)) by (apply nth_In; lia).
  split; intros Hm.
  - specialize (Hf Hm). rewrite Forall_forall in Hf. specialize (Hf _ Hin). 
    apply Rmult_le_pos; auto. apply Rmult_le_pos; auto. apply Hf.
  - specialize (Hb Hm). rewrite Forall_forall in Hb. specialize (Hb _ Hin). cbv beta in Hb.
    assert (0 <= - fst (nth t (o_Y0 out) (0, 0)) * p_vmax (ts_p s)) by (apply Rmult_le_pos; lra). nra.
Qed.
Lemma l_C11_bk_never_moves_against :
  forall s x0 proj guide logpd rx g rg out, p_proj (bs_p s) = false -> p_guid (bs_p s) = false ->
  0 <= p_dt (bs_p s) -> 0 <= p_vmax (bs_p s) -> 0 < g_beta0 g < 1 -> 0 < g_betaT g < 1 ->
  run_diffusion (bk_penv s x0 proj guide logpd rx) (Some g) rg = Ok out ->
  forall t, (t < g_Hsample g)%nat ->
  let q := nth t (o_traj out) x0 in let q' := nth (S t) (o_traj out) x0 in
  let along := (b_px q' - b_px q) * cos (b_th q) + (b_py q' - b_py q) * sin (b_th q) in
  (g_motion g = 2%Z -> 0 <= along) /\ (g_motion g = (-2)%Z -> along <= 0).
Proof.
  intros s x0 proj guide logpd rx g rg out Hp Hg Hdt Hv H0 HT E t Ht q q' along.
  destruct (l_C07_bk_plan_is_feasible s x0 proj guide logpd rx g rg out Hp Hg E) as (HL & _ & _ & Hpl).
  destruct (l_C11_bk_commands_have_direction s x0 proj guide logpd rx g rg out Hp H0 HT E) as [Hf Hb].
  assert (Ea : along = p_dt (bs_p s) * (fst (nth t (o_Y0 out) (0, 0)) * p_vmax (bs_p s))).
  { unfold along, q'. rewrite Hpl by auto. fold q. unfold bk_plain. cbn [b_px b_py].
    rewrite <- (dir_algebra (p_dt (bs_p s)) (fst (nth t (o_Y0 out) (0, 0)) * p_vmax (bs_p s)) (cos (b_th q)) (sin (b_th q))); [ring|]. pose proof (sin2_cos2' (b_th q)). lra. }
  rewrite Ea. assert (Hin : In (nth t (o_Y0 out) (0, 0)) (o_Y0 out)) by (apply nth_In; lia).
  split; intros Hm.
  - specialize (Hf Hm). rewrite Forall_forall in Hf. specialize (Hf _ Hin). 
    apply Rmult_le_pos; auto. apply Rmult_le_pos; auto. apply Hf.
  - specialize (Hb Hm). rewrite Forall_forall in Hb. specialize (Hb _ Hin). cbv beta in Hb.
    assert (0 <= - fst (nth t (o_Y0 out) (0, 0)) * p_vmax (bs_p s)) by (apply Rmult_le_pos; lra). nra.
Qed.
Lemma l_C11_nt_never_moves_against :
  forall s x0 guide logpd rx g rg out, p_guid (ns_p s) = false -> length (ns_len s) = p_num_trailers (ns_p s) ->
  0 <= p_dt (ns_p s) -> 0 <= p_vmax (ns_p s) -> 0 < g_beta0 g < 1 -> 0 < g_betaT g < 1 ->
  nt_run s x0 guide logpd rx g rg = Ok out ->
  forall t, (t < g_Hsample g)%nat ->
  let q := nth t (o_traj out) x0 in let q' := nth (S t) (o_traj out) x0 in
  let along := (n_px q' - n_px q) * cos (n_th0 q) + (n_py q' - n_py q) * sin (n_th0 q) in
  (g_motion g = 2%Z -> 0 <= along) /\ (g_motion g = (-2)%Z -> along <= 0).
Proof.
  intros s x0 guide logpd rx g rg out Hg HLs Hdt Hv H0 HT E t Ht q q' along.
  destruct (l_C07_nt_plan_is_feasible s x0 guide logpd rx g rg out Hg HLs E) as (HL & _ & _ & Hpl).
  destruct (l_C11_nt_commands_have_direction s x0 guide logpd rx g rg out H0 HT E) as [Hf Hb].
  assert (Ea : along = p_dt (ns_p s) * (fst (nth t (o_Y0 out) (0, 0)) * p_vmax (ns_p s))).
  { unfold along, q'. rewrite Hpl by auto. fold q. unfold nt_plain. cbn [n_px n_py].
    rewrite <- (dir_algebra (p_dt (ns_p s)) (fst (nth t (o_Y0 out) (0, 0)) * p_vmax (ns_p s)) (cos (n_th0 q)) (sin (n_th0 q))); [ring|]. pose proof (sin2_cos2' (n_th0 q)). lra. }
  rewrite Ea. assert (Hin : In (nth t (o_Y0 out) (0, 0)) (o_Y0 out)) by (apply nth_In; lia).
  split; intros Hm.
  - specialize (Hf Hm). rewrite Forall_forall in Hf. specialize (Hf _ Hin). 
    apply Rmult_le_pos; auto. apply Rmult_le_pos; auto. apply Hf.
  - specialize (Hb Hm). rewrite Forall_forall in Hb. specialize (Hb _ Hin). cbv beta in Hb.
    assert (0 <= - fst (nth t (o_Y0 out) (0, 0)) * p_vmax (ns_p s)) by (apply Rmult_le_pos; lra). nra.
Qed.
Lemma scan_us_length {Q} (step : State Q -> act -> State Q) us : forall st, length (snd (scan_us step st us)) = length us.
Proof.
  induction us as [|u us IH]; intros st; cbn [scan_us]; [reflexivity|]. specialize (IH (step st u)).
  destruct (scan_us step (step st u) us). cbn [snd length] in *. lia.
Qed.
Lemma rollout_term_app_length {Q} (env : penv Q) us : length (snd (rollout_term env us)) = length us.
Proof.
  unfold rollout_term, rollout_us_with_terminal.
  pose proof (scan_us_length (pe_step env) us (pe_step env (pe_reset env) (0, 0))).
  destruct (scan_us _ _ _) as [f o]. cbn [snd] in *. rewrite map_length. auto.
Qed.
Lemma run_Y0_length {Q} (env : penv Q) g rg : length (o_Y0 (run_diffusion_core env g rg)) = g_Hsample g.
Proof.
  unfold run_diffusion_core.
  set (kk := fst (prng_split rg (fst (prng_split rg (prng_key rg (g_seed g)))))).
  destruct (reverse_loop_length env g rg (diffusion_indices g) kk (YN g)) as [H1 _]; [apply repeat_length|].
  destruct (reverse_loop env g rg _ _ _) as [Ys Yf]. cbn [snd o_Y0] in *. rewrite rollout_term_app_length. auto.
Qed.
Lemma acc_first_step_position s proj guide st a : p_proj (as_p s) = false -> p_guid (as_p s) = false ->
  p_sh_coll (as_p s) = false -> p_sh_hitch (as_p s) = false ->
  t_px (a_q (st_q (acc_step s proj guide st a))) =
  t_px (a_q (st_q st)) + p_dt (as_p s) * (clip (a_v (st_q st)) (- p_vmax (as_p s)) (p_vmax (as_p s)) * cos (t_th1 (a_q (st_q st)))).
Proof.
  intros H1 H2 H3 H4. unfold acc_step, acc_step_internal, acc_step_with. rewrite H1, H2, H3, H4. cbn.
  unfold acc_euler, euler, acc_axpy, acc_dyn, acc_scaler. cbn. reflexivity.
Qed.
(** C11 does not extend to the acceleration-controlled robot: there the first command is an
    acceleration, so under "backward only" (-2) a vehicle starting with forward speed moves
    forward, for every noise draw. *)
Definition ex_acc_free : acc_self := mkAccSelf (mkTTSelf (flags_off default_params) [] [] (mkTT 0 0 PI PI)) 2 1.
Definition ex_cfg_back : cfg := mkCfg 0 1000 50 100 (1/100) (1/10000) (1/100) false (-2) false.
(** C11 (finding): the acceleration class ignores strict preferences for the direction of motion: started at 1 m/s forward with preference -2, its first step goes 0.2 m forward, for every noise draw. *)
Lemma l_C11_acc_refuted :
  forall proj guide logpd rx rg out,
  run_diffusion (acc_penv ex_acc_free (mkAcc (mkTT 0 0 0 0) 1 0) proj guide logpd rx) (Some ex_cfg_back) rg = Ok out ->
  g_motion ex_cfg_back = (-2)%Z /\
  t_px (a_q (nth 0 (o_traj out) (mkAcc (mkTT 0 0 0 0) 1 0))) = 0 /\
  t_px (a_q (nth 1 (o_traj out) (mkAcc (mkTT 0 0 0 0) 1 0))) = 2/10.
Proof.
  intros proj guide logpd rx rg out E. injection E as <-. split; [reflexivity|].
  pose proof (run_Y0_length (acc_penv ex_acc_free (mkAcc (mkTT 0 0 0 0) 1 0) proj guide logpd rx) ex_cfg_back rg) as HL.
  unfold run_diffusion_core in *. destruct (reverse_loop _ _ _ _ _ _) as [Ys Yf]. cbn [o_Y0 o_traj] in *.
  set (Y0 := snd (rollout_term (acc_penv ex_acc_free (mkAcc (mkTT 0 0 0 0) 1 0) proj guide logpd rx) Yf)) in *.
  destruct Y0 as [|u us]; [discriminate|]. unfold trajectory_states. cbn [replay nth]. split; [reflexivity|].
  cbn [g_guid ex_cfg_back pe_step pe_reset acc_penv].
  rewrite acc_first_step_position by reflexivity. cbn. rewrite clip_id by lra. rewrite cos_0. lra.
Qed.
Lemma x_C11_example :
  p_proj (ts_p ex_tt) = false /\ p_guid (ts_p ex_tt) = false /\ 0 <= p_dt (ts_p ex_tt) /\ 0 <= p_vmax (ts_p ex_tt) /\
  exists out, run_diffusion (tt_penv ex_tt (mkTT 0 0 0 0) (fun _ a => a) (fun q => q) (fun _ _ => 0) 0) (Some ex_cfg_back)
     (mkPrng unit (fun _ => tt) (fun _ => (tt, tt)) (fun _ n h => repeat (repeat (1, -1) h) n)) = Ok out.
Proof.
  split; [reflexivity|]. split; [reflexivity|]. split; [cbn; lra|]. split; [cbn; lra|].
  unfold run_diffusion. eexists. reflexivity.
Qed.

(** ** C39 *)
Lemma diffs_length l : length (diffs l) = (length l - 1)%nat.
Proof.
  induction l as [|x [|y l] IH]; [reflexivity|reflexivity|]. cbn [diffs length] in *. lia.
Qed.
Lemma diffs_nth l : forall t, (S t < length l)%nat -> nth t (diffs l) 0 = nth (S t) l 0 - nth t l 0.
Proof.
  induction l as [|x [|y l] IH]; intros t Ht; [simpl in Ht; lia|simpl in Ht; lia|].
  cbn [diffs]. destruct t as [|t]; [reflexivity|].
  assert (IH' := IH t). simpl in Ht. simpl in IH' |- *. apply IH'. lia.
Qed.
Lemma map_seq_nth {A} (l : list A) d : map (fun t => nth t l d) (seq 0 (length l)) = l.
Proof.
  induction l as [|x l IH]; [reflexivity|]. cbn [length seq map nth]. f_equal.
  rewrite <- seq_shift, map_map. exact IH.
Qed.
Lemma steering_reward_score dmax us : 0 < dmax -> steering_reward dmax us = steering_score (map snd us).
Proof.
  intros Hd. unfold steering_reward, steering_score. rewrite Rmean_mean. f_equal.
  set (ds := map snd us).
  set (f := fun t => ((1 - (nth t ds 0) ^ 2) + match t with O => 1 | S k => 1 - Rmin 1 ((10 * (nth t ds 0 - nth k ds 0)) ^ 2) end) / 2).
  set (M := map2 _ _ _).
  assert (HL : length M = length ds).
  { unfold M. rewrite map2_length. cbn [length]. rewrite !map_length, diffs_length, map_length. lia. }
  rewrite <- (map_seq_nth M 0), HL. apply map_ext_in. intros t Ht. apply in_seq in Ht.
  unfold M. rewrite (map2_nth _ _ _ _ 0 0); [| rewrite map_length; lia | cbn [length]; rewrite !map_length, diffs_length, map_length; lia].
  rewrite (nth_map' _ _ _ 0) by lia. rewrite Rabs_sq. destruct t as [|t].
  { unfold f. cbn [nth]. field. }
  unfold f.
  match goal with |- context [nth (S t) (1 :: ?l) 0] => change (nth (S t) (1 :: l) 0) with (nth t l 0) end.
  rewrite (nth_map' _ _ _ 0) by (rewrite diffs_length, map_length; lia).
  rewrite diffs_nth by (rewrite map_length; lia). rewrite !(nth_map' _ _ _ 0) by lia.
  set (e := nth (S t) ds 0 - nth t ds 0).
  assert (Ee : Rabs (nth (S t) ds 0 * dmax - nth t ds 0 * dmax) / (1 / 10 * dmax) = 10 * Rabs e).
  { replace (nth (S t) ds 0 * dmax - nth t ds 0 * dmax) with (e * dmax) by (unfold e; ring).
    rewrite Rabs_mult, (Rabs_right dmax) by lra. field. lra. }
  rewrite Ee. replace (10 * Rabs e * (10 * Rabs e)) with (100 * (Rabs e * Rabs e)) by ring. rewrite Rabs_sq.
  replace ((10 * e) ^ 2) with (100 * (e * e)) by ring.
  assert (Hc : clip (100 * (e * e)) 0 1 = Rmin 1 (100 * (e * e))).
  { assert (0 <= e * e) by nra. unfold clip. rewrite Rmax_left by lra. apply Rmin_comm. }
  rewrite Hc. field.
Qed.
(** C39: the steering reward is the smoothness score; it depends on the steering commands only,
    not on the speeds and not on the maximal steering angle. *)
Lemma l_C39_steering_reward_formula :
  forall dmax us, 0 < dmax -> steering_reward dmax us = steering_score (map snd us).
Proof. exact steering_reward_score. Qed.
Lemma mean_one_iff l : l <> [] -> (forall x, In x l -> x <= 1) -> (mean l = 1 <-> forall x, In x l -> x = 1).
Proof.
  intros Hne Hle. assert (Hn : 0 < INR (length l)) by (apply lt_0_INR; destruct l; simpl; [congruence|lia]).
  unfold mean. rewrite <- (Rsum_total l).
  assert (G : Rsum l <= INR (length l) /\ (Rsum l = INR (length l) -> forall x, In x l -> x = 1) /\
     ((forall x, In x l -> x = 1) -> Rsum l = INR (length l))).
  { clear Hne Hn. induction l as [|y l IH]; [cbn; repeat split; intros; [lra|tauto]|].
    assert (Hy : y <= 1) by (apply Hle; left; auto).
    destruct IH as (I1 & I2 & I3); [intros; apply Hle; right; auto|].
    assert (EL : INR (length (y :: l)) = INR (length l) + 1) by (cbn [length]; apply S_INR).
    rewrite EL. cbn [Rsum]. split; [lra|]. split.
    - intros E x [<-|Hx]; [lra|]. apply I2; auto. lra.
    - intros Ha. assert (y = 1) by (apply Ha; left; auto). rewrite I3; [lra|]. intros; apply Ha; right; auto. }
  destruct G as (G1 & G2 & G3). split.
  - intros E. apply G2. apply (f_equal (fun z => z * INR (length l))) in E. unfold Rdiv in E.
    rewrite Rmult_assoc, Rinv_l in E; lra.
  - intros Ha. rewrite G3 by auto. field. lra.
Qed.
Lemma mean_bounds lo hi l : l <> [] -> (forall x, In x l -> lo <= x <= hi) -> lo <= mean l <= hi.
Proof. intros. rewrite <- Rmean_mean. apply Rmean_bounds; auto. Qed.
(** C39: in the control box it lies in [0,1] and is 1 exactly for zero steering throughout. *)
Lemma l_C39_steering_reward_range :
  forall dmax us, 0 < dmax -> us <> [] -> (forall a, In a us -> -1 <= snd a <= 1) ->
  0 <= steering_reward dmax us <= 1 /\
  (steering_reward dmax us = 1 <-> forall a, In a us -> snd a = 0).
Proof.
  intros dmax us Hd Hne Hb. rewrite steering_reward_score by auto. set (ds := map snd us).
  assert (Hds : ds <> []) by (unfold ds; destruct us; simpl; congruence).
  assert (Hnth : forall t, -1 <= nth t ds 0 <= 1).
  { intros t. destruct (Nat.lt_ge_cases t (length ds)).
    - assert (Hin : In (nth t ds 0) ds) by (apply nth_In; auto). unfold ds in Hin at 2. apply in_map_iff in Hin.
      destruct Hin as (a & <- & Ha). auto.
    - rewrite nth_overflow by auto. lra. }
  assert (Hm : forall x, 0 <= x -> 0 <= Rmin 1 x <= 1).
  { intros x Hx. unfold Rmin. destruct Rle_dec; lra. }
  set (F := fun t : nat => (1 - nth t ds 0 ^ 2 + match t with 0%nat => 1 | S k => 1 - Rmin 1 ((10 * (nth t ds 0 - nth k ds 0)) ^ 2) end) / 2).
  assert (HF : forall t, 0 <= F t <= 1 - (nth t ds 0) ^ 2 / 2).
  { intros t. unfold F. pose proof (Hnth t) as Ht.
    assert (0 <= nth t ds 0 ^ 2 <= 1) by (simpl; nra).
    destruct t as [|k]; [lra|]. pose proof (Hm ((10 * (nth (S k) ds 0 - nth k ds 0)) ^ 2) (pow2_ge_0 _)). lra. }
  assert (Hne' : map F (seq 0 (length ds)) <> []) by (destruct ds; simpl; congruence).
  unfold steering_score. fold F. split.
  - apply mean_bounds; auto. intros x Hx. apply in_map_iff in Hx. destruct Hx as (t & <- & _). pose proof (HF t).
    pose proof (pow2_ge_0 (nth t ds 0)). lra.
  - rewrite mean_one_iff; auto.
    + split.
      * intros H a Ha. apply In_nth with (d := (0, 0)) in Ha. destruct Ha as (t & Ht & <-).
        assert (Ef : F t = 1). { apply H. apply in_map. apply in_seq. unfold ds. rewrite map_length. lia. }
        pose proof (HF t) as Hf. rewrite Ef in Hf. unfold ds in Hf. rewrite (nth_map' _ _ _ (0, 0)) in Hf by auto.
        assert (snd (nth t us (0, 0)) ^ 2 = 0). { pose proof (pow2_ge_0 (snd (nth t us (0, 0)))). lra. }
        apply Rsqr_0_uniq. unfold Rsqr. lra.
      * intros H x Hx. apply in_map_iff in Hx. destruct Hx as (t & <- & _).
        assert (Hz : forall k, nth k ds 0 = 0).
        { intros k. destruct (Nat.lt_ge_cases k (length ds)).
          - assert (Hin : In (nth k ds 0) ds) by (apply nth_In; auto). unfold ds in Hin at 2. apply in_map_iff in Hin.
            destruct Hin as (a & <- & Ha). auto.
          - apply nth_overflow; auto. }
        unfold F. destruct t as [|k]; rewrite !Hz; [lra|].
        replace ((10 * (0 - 0)) ^ 2) with 0 by ring. rewrite Rmin_right by lra. lra.
    + intros x Hx. apply in_map_iff in Hx. destruct Hx as (t & <- & _). pose proof (HF t). pose proof (pow2_ge_0 (nth t ds 0)). lra.
Qed.
Lemma x_C39_example : 0 < p_dmax default_params /\ (forall a, In a [(1, -1); (0, 1/2)] -> -1 <= snd a <= 1) /\
  steering_reward (p_dmax default_params) [(1, 0); (-1, 0)] = 1.
Proof.
  assert (Hd : 0 < p_dmax default_params) by (cbn; unfold delta_max_of_deg; pose proof PI_RGT_0; lra).
  split; [exact Hd|]. split.
  - intros a [<-|[<-|[]]]; cbn; lra.
  - apply l_C39_steering_reward_range; auto; try congruence; intros a [<-|[<-|[]]]; cbn; lra.
Qed.
