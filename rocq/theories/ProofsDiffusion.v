(** * ProofsDiffusion: run_diffusion computes exactly what SpecDiffusion describes. *)
From Verif Require Import Base BaseFacts Params TT2d Rollout Planner Instances SpecPlan SpecDiffusion.
From Verif Require Import ProofsSafety ProofsPlanner.
Open Scope R_scope.

(** ** Nearest admissible number *)
Lemma nearest_clip lo hi x : lo <= hi -> nearest lo hi x (clip x lo hi).
Proof.
  intros H. split; [apply clip_range; auto|]. intros w Hw. unfold clip, Rmin, Rmax, Rabs.
  repeat destruct Rle_dec; repeat destruct Rcase_abs; lra.
Qed.
Lemma nearest_unique lo hi x v v' : nearest lo hi x v -> nearest lo hi x v' -> v = v'.
Proof.
  intros [H1 H2] [H3 H4]. pose proof (H2 v' H3) as A. pose proof (H4 v H1) as B.
  destruct (Req_dec v v') as [|N]; auto. exfalso.
  pose proof (H2 ((v + v') / 2) ltac:(lra)) as C. pose proof (H4 ((v + v') / 2) ltac:(lra)) as D.
  revert A B C D. unfold Rabs. repeat destruct Rcase_abs; lra.
Qed.
Lemma enforce_clip m x : clip x (slowest m) (fastest m) =
  where_ (Z.eqb m 2) (clip (clip x (-1) 1) 0 1) (where_ (Z.eqb m (-2)) (clip (clip x (-1) 1) (-1) 0) (clip x (-1) 1)).
Proof.
  unfold slowest, fastest, where_. destruct (Z.eq_dec m 2) as [->|N].
  - cbn. destruct (Z.eq_dec 2 (-2)); [lia|]. unfold clip, Rmin, Rmax. repeat destruct Rle_dec; lra.
  - rewrite (proj2 (Z.eqb_neq m 2) N). destruct (Z.eq_dec m (-2)) as [->|N'].
    + cbn. unfold clip, Rmin, Rmax. repeat destruct Rle_dec; lra.
    + rewrite (proj2 (Z.eqb_neq m (-2)) N'). reflexivity.
Qed.
Lemma slow_fast m : slowest m <= fastest m.
Proof. unfold slowest, fastest. repeat destruct Z.eq_dec; lra. Qed.

(** ** Execution *)
Fixpoint run_of {Q} (step : State Q -> act -> State Q) (s : State Q) (us : list act) : list (State Q) :=
  match us with [] => [] | u :: r => step s u :: run_of step (step s u) r end.
Lemma run_of_executes {Q} step us : forall s : State Q, executes step s us (run_of step s us).
Proof. induction us; intros s; cbn [run_of]; constructor. apply IHus. Qed.
Lemma executes_run_of {Q} step us : forall (s : State Q) ss, executes step s us ss -> ss = run_of step s us.
Proof.
  induction us as [|u us IH]; intros s ss H; inversion H; subst; cbn [run_of]; [reflexivity|]. f_equal. apply IH. assumption.
Qed.
Lemma run_of_length {Q} step us : forall s : State Q, length (run_of step s us) = length us.
Proof. induction us; intros; cbn; auto. Qed.
Lemma last_def {A} (l : list A) x d d' : last (x :: l) d = last (x :: l) d'.
Proof. revert x. induction l as [|y l IH]; intros x; [reflexivity|]. change (last (y :: l) d = last (y :: l) d'). apply IH. Qed.
Lemma last_cons {A} (l : list A) x d : last (x :: l) d = last l x.
Proof. revert x. induction l as [|y l IH]; intros x; [reflexivity|]. change (last (y :: l) d = last (y :: l) x). apply last_def. Qed.
Lemma scan_run_of {Q} step us : forall s : State Q,
  scan_us step s us = (last (run_of step s us) s, map (fun x => (st_rew x, st_q x, st_app x)) (run_of step s us)).
Proof.
  induction us as [|u us IH]; intros s; [reflexivity|]. cbn [scan_us run_of map]. rewrite IH, last_cons. reflexivity.
Qed.
Lemma replay_run_of {Q} step us : forall s : State Q, replay step s us = map st_q (run_of step s us).
Proof. induction us as [|u us IH]; intros s; [reflexivity|]. cbn [replay run_of map]. rewrite IH. reflexivity. Qed.
Lemma rollout_run_of {Q} (env : penv Q) us :
  let run := run_of (pe_step env) (origin env) us in
  rollout_term env us = (run_value env run, map st_q run, map st_app run).
Proof.
  intros run. unfold rollout_term, rollout_us_with_terminal. fold (origin env). rewrite scan_run_of.
  fold run. rewrite !map_map, Rmean_mean. unfold run_value. reflexivity.
Qed.

(** ** Candidates *)
Lemma make_sample_candidate g c Y e : length Y = g_Hsample g -> length e = g_Hsample g ->
  candidate g c Y e (make_sample (g_motion g) c Y e).
Proof.
  intros HY He. unfold make_sample. split; [rewrite map2_length, HY, He; apply Nat.min_id|].
  intros t Ht. rewrite (map2_nth _ e Y t (0, 0) (0, 0)) by (unfold act in *; lia).
  unfold enforce_motion, clip_act, act_add, act_scale. cbn [fst snd]. rewrite <- enforce_clip.
  rewrite (Rplus_comm (fst (nth t Y (0, 0)))), (Rplus_comm (snd (nth t Y (0, 0)))).
  split; apply nearest_clip; [apply slow_fast|lra].
Qed.
Lemma candidate_unique g c Y e us us' : candidate g c Y e us -> candidate g c Y e us' -> us = us'.
Proof.
  intros [L H] [L' H']. apply (nth_ext _ _ (0, 0) (0, 0)); [exact (eq_trans L (eq_sym L'))|]. intros t Ht0. assert (Ht : (t < g_Hsample g)%nat) by (rewrite <- L; exact Ht0).
  destruct (H t Ht) as [A B]. destruct (H' t Ht) as [A' B'].
  apply injective_projections; [exact (nearest_unique _ _ _ _ _ A A')|exact (nearest_unique _ _ _ _ _ B B')].
Qed.

(** ** One denoising step *)
Section Step.
Context {Q : Type}.
Variable env : penv Q.
Variable g : cfg.
Hypothesis Hd : 0 < pe_dmax env.
Hypothesis Hs : sched_ok g.

Lemma sample_reward_value us : sample_reward env us = sample_value env (run_of (pe_step env) (origin env) us).
Proof.
  unfold sample_reward, sample_value. rewrite rollout_run_of. cbv zeta. cbn [fst snd].
  rewrite (steering_reward_score _ _ Hd), map_map. reflexivity.
Qed.
Lemma noise_level_sched i : (1 <= i < g_Ndiffuse g)%nat ->
  nth i (sigmas g) 0 / sqrt (nth (i - 1) (alphas_bar g) 0) = noise_level g i.
Proof.
  intros Hi. unfold noise_level. destruct (l_C12_schedule_formulas g) as (_ & _ & _ & _ & F).
  destruct (F i ltac:(lia)) as (_ & _ & _ & ->). destruct (F (i - 1)%nat ltac:(lia)) as (_ & _ & -> & _). reflexivity.
Qed.
Lemma score_fun runs run v v' : score_of env g runs run v -> score_of env g runs run v' -> v = v'.
Proof.
  unfold score_of. destruct (g_demo g); [|congruence].
  intros (m & Hm & ->) (m' & Hm' & ->). rewrite (is_max_unique m m' _ Hm Hm'). reflexivity.
Qed.
Lemma Forall2_map_self {A B} (P : A -> B -> Prop) (f : A -> B) l : (forall a, In a l -> P a (f a)) -> Forall2 P l (map f l).
Proof. induction l; intros H; cbn; constructor; [apply H; left; auto|]. apply IHl. intros. apply H. right. auto. Qed.
Lemma Forall2_fun {A B} (P : A -> B -> Prop) l : (forall a b b', In a l -> P a b -> P a b' -> b = b') ->
  forall m m', Forall2 P l m -> Forall2 P l m' -> m = m'.
Proof.
  induction l as [|a l IH]; intros H m m' H1 H2; inversion H1; subst; inversion H2; subst; [reflexivity|].
  f_equal; [eapply H; eauto; left; auto|]. apply IH; auto. intros. eapply H; eauto. right; auto.
Qed.

Lemma reverse_once_denoises i eps Y : (1 <= i < g_Ndiffuse g)%nat -> length Y = g_Hsample g ->
  Forall (fun row => length row = g_Hsample g) eps ->
  denoises env g i eps Y (fst (reverse_once env g i eps Y)).
Proof.
  intros Hi HY He.
  set (mk := make_sample (g_motion g) (noise_level g i) Y).
  set (ro := run_of (pe_step env) (origin env)).
  set (samples := map mk eps).
  set (runs := map (fun e => ro (mk e)) eps).
  set (scores := map (score_in env g samples) samples).
  exists runs, scores.
  assert (EV : map (sample_reward env) samples = map (sample_value env) runs).
  { unfold samples, runs. rewrite !map_map. apply map_ext. intros. apply sample_reward_value. }
  assert (EF : map (fun us => pe_logpd env (snd (fst (rollout_term env us))) (g_motion g)) samples =
               map (fun r => pe_logpd env (map st_q r) (g_motion g)) runs).
  { unfold samples, runs. rewrite !map_map. apply map_ext. intros. rewrite rollout_run_of. reflexivity. }
  assert (ES : forall e, In e eps -> score_of env g runs (ro (mk e)) (score_in env g samples (mk e))).
  { intros e Hin. unfold score_of, score_in. rewrite EV, EF. destruct (g_demo g).
    - exists (Rmax_of (map (fun r => pe_logpd env (map st_q r) (g_motion g)) runs)). split.
      + apply Rmax_of_is_max. unfold runs. destruct eps; [destruct Hin|]. cbn. congruence.
      + rewrite sample_reward_value, rollout_run_of. reflexivity.
    - rewrite sample_reward_value. reflexivity. }
  split; [|split; [|split]].
  - unfold runs. apply Forall2_map_self. intros e Hin. exists (mk e). split; [|apply run_of_executes].
    apply make_sample_candidate; auto. rewrite Forall_forall in He. auto.
  - unfold scores, samples, runs at 2. rewrite map_map. 
    assert (G : forall l, (forall e, In e l -> In e eps) -> Forall2 (score_of env g runs) (map (fun e => ro (mk e)) l) (map (fun e => score_in env g samples (mk e)) l)).
    { induction l as [|e l IH]; intros H; cbn [map]; constructor; [apply ES, H; left; auto|]. apply IH. intros. apply H. right. auto. }
    apply G. auto.
  - rewrite (reverse_once_length env g i eps Y HY). reflexivity.
  - intros t Ht. rewrite reverse_once_avg by (auto; lia). cbv zeta. rewrite noise_level_sched by auto. fold mk. fold samples.
    rewrite einsum_nth by auto. cbn [fst snd]. rewrite !weighted_wavg, weights_char.
    assert (EW : map (weight_in env g samples) samples = exp_weights scores).
    { unfold scores, exp_weights, weight_in. rewrite !map_map. apply map_ext. intros a. rewrite Rsum_total. reflexivity. }
    rewrite EW, evaluate_char. cbn [fst]. unfold samples, runs. rewrite !map_map.
    assert (EA : forall e, In e eps -> nth t (snd (rollout_term env (mk e))) (0, 0) = st_app (nth t (ro (mk e)) (origin env))).
    { intros e Hin. rewrite rollout_run_of. cbv zeta. cbn [snd]. fold ro. apply nth_map'. unfold ro. rewrite run_of_length.
      unfold mk, make_sample. rewrite map2_length. rewrite Forall_forall in He. rewrite (He e Hin). lia. }
    split; f_equal; apply map_ext_in; intros e Hin; [exact (f_equal fst (EA e Hin))|exact (f_equal snd (EA e Hin))].
Qed.
Lemma denoises_fun i eps Y Y' Y'' : denoises env g i eps Y Y' -> denoises env g i eps Y Y'' -> Y' = Y''.
Proof.
  intros (runs & scores & R1 & S1 & L1 & A1) (runs' & scores' & R2 & S2 & L2 & A2).
  assert (E : runs = runs').
  { eapply Forall2_fun; [|exact R1|exact R2]. cbn. intros e r r' _ (us & C & X) (us' & C' & X').
    pose proof (candidate_unique _ _ _ _ _ _ C C'). subst us'.
    apply executes_run_of in X. apply executes_run_of in X'. congruence. }
  subst runs'.
  assert (E : scores = scores').
  { eapply Forall2_fun; [|exact S1|exact S2]. intros. eapply score_fun; eauto. }
  subst scores'. apply (nth_ext _ _ (0, 0) (0, 0)); [exact (eq_trans L1 (eq_sym L2))|]. intros t Ht0. assert (Ht : (t < g_Hsample g)%nat) by (rewrite <- L1; exact Ht0).
  destruct (A1 t Ht) as [B1 B2]. destruct (A2 t Ht) as [B3 B4].
  apply injective_projections; [exact (eq_trans B1 (eq_sym B3))|exact (eq_trans B2 (eq_sym B4))].
Qed.
Lemma denoises_length i eps Y Y' : denoises env g i eps Y Y' -> length Y' = g_Hsample g.
Proof. intros (? & ? & _ & _ & H & _). exact H. Qed.

(** ** The loop *)
Lemma indices_S n : rev (seq 1 (S n)) = S n :: rev (seq 1 n).
Proof. rewrite seq_S, rev_app_distr. reflexivity. Qed.
Lemma loop_denoising rg n : shaped rg -> (n < g_Ndiffuse g)%nat \/ n = O -> forall k Y, length Y = g_Hsample g ->
  denoising env g rg n k Y (fst (reverse_loop env g rg (rev (seq 1 n)) k Y)) /\
  snd (reverse_loop env g rg (rev (seq 1 n)) k Y) = last (fst (reverse_loop env g rg (rev (seq 1 n)) k Y)) Y.
Proof.
  intros Hsh. induction n as [|n IH]; intros Hn k Y HY; [split; exact I || reflexivity|].
  rewrite indices_S. cbn [reverse_loop]. destruct (prng_split rg k) as [k' ks] eqn:EK.
  set (eps := prng_normal rg ks (g_Nsample g) (g_Hsample g)).
  assert (D : denoises env g (S n) eps Y (fst (reverse_once env g (S n) eps Y))).
  { apply reverse_once_denoises; auto; [lia|]. apply Hsh. }
  pose proof (denoises_length _ _ _ _ D) as L.
  destruct (reverse_once env g (S n) eps Y) as [Y' m]. cbn [fst] in *.
  destruct (IH ltac:(lia) k' Y' L) as [H1 H2].
  destruct (reverse_loop env g rg (rev (seq 1 n)) k' Y') as [Ys Yf]. cbn [fst snd] in *. split.
  - cbn [denoising]. rewrite EK. cbn [fst snd]. split; auto.
  - rewrite last_cons. exact H2.
Qed.
Lemma denoising_fun rg n : forall k Y Ys Ys', denoising env g rg n k Y Ys -> denoising env g rg n k Y Ys' -> Ys = Ys'.
Proof.
  induction n as [|n IH]; intros k Y [|Y1 r] [|Y2 r'] H H'; cbn [denoising] in *; try contradiction; [reflexivity|].
  destruct H as [D1 H1]. destruct H' as [D2 H2]. pose proof (denoises_fun _ _ _ _ _ D1 D2). subst Y2.
  f_equal. eapply IH; eauto.
Qed.
End Step.

(** C56: everything run_diffusion returns is what the documented algorithm computes: Ndiffuse - 1
    denoising steps starting from the all-zero control sequence, each drawing the candidates around
    the current mean, executing them with the environment's step, scoring them by mean reward,
    terminal reward and smoothness (and demonstration, if enabled) and averaging the executed
    controls with softmax weights; then executing the last mean, replaying the executed controls
    without guidance and evaluating them. *)
Lemma l_C56_planner_is_model_based_diffusion :
  forall (Q : Type) (env : penv Q) g rg out, shaped rg -> 0 < pe_dmax env ->
  0 < g_beta0 g < 1 -> 0 < g_betaT g < 1 ->
  run_diffusion env (Some g) rg = Ok out -> planned env g rg out.
Proof.
  intros Q env g rg out Hsh Hd H0 HT E. injection E as <-. unfold run_diffusion_core, planned.
  set (k := fst (prng_split rg (fst (prng_split rg (prng_key rg (g_seed g)))))).
  assert (Hs : sched_ok g) by (split; auto).
  destruct (loop_denoising env g Hd Hs rg (g_Ndiffuse g - 1) Hsh ltac:(lia) k (YN g) (repeat_length _ _)) as [H1 H2].
  unfold diffusion_indices.
  destruct (reverse_loop env g rg (rev (seq 1 (g_Ndiffuse g - 1))) k (YN g)) as [Ys Yf]. cbn [fst snd] in H1, H2.
  cbn [o_Ybars o_Y0 o_traj o_rew]. cbv zeta. split; [exact H1|]. rewrite !rollout_run_of. cbv zeta. cbn [fst snd].
  split; [|split].
  - exists (run_of (pe_step env) (origin env) Yf). split; [|reflexivity]. rewrite H2. apply run_of_executes.
  - eexists. split; [apply run_of_executes|]. unfold trajectory_states. rewrite replay_run_of. reflexivity.
  - eexists. split; [apply run_of_executes|]. reflexivity.
Qed.
(** C56: conversely the description leaves nothing open: any result that fits it is the one
    run_diffusion returns, so configuration, environment and random generator determine it. *)
Lemma l_C56_description_determines_result :
  forall (Q : Type) (env : penv Q) g rg out, shaped rg -> 0 < pe_dmax env ->
  0 < g_beta0 g < 1 -> 0 < g_betaT g < 1 ->
  planned env g rg out -> run_diffusion env (Some g) rg = Ok out.
Proof.
  intros Q env g rg out Hsh Hd H0 HT P. cbn [run_diffusion]. apply (f_equal Ok).
  pose proof (l_C56_planner_is_model_based_diffusion Q env g rg _ Hsh Hd H0 HT eq_refl) as P'.
  set (out' := run_diffusion_core env g rg) in *. clearbody out'.
  destruct out as [rw Y tr Ys]. destruct out' as [rw' Y' tr' Ys'].
  destruct P as (D & (r1 & X1 & A1) & (r2 & X2 & A2) & (r3 & X3 & A3)).
  destruct P' as (D' & (s1 & Z1 & B1) & (s2 & Z2 & B2) & (s3 & Z3 & B3)).
  cbn [o_Ybars o_Y0 o_traj o_rew] in *.
  pose proof (denoising_fun env g rg _ _ _ _ _ D D'). subst Ys'.
  apply executes_run_of in X1. apply executes_run_of in Z1. subst r1 s1. subst Y Y'.
  apply executes_run_of in X2. apply executes_run_of in Z2. subst r2 s2. subst tr tr'.
  apply executes_run_of in X3. apply executes_run_of in Z3. subst r3 s3. subst rw rw'. reflexivity.
Qed.
(** C56: every candidate command is admissible: speed and steering fractions between -1 and 1, the
    speed on the requested side of zero. *)
Lemma l_C56_candidates_admissible :
  forall g c Y e us, candidate g c Y e us ->
  Forall in_control_box us /\
  (g_motion g = 2%Z -> Forall (fun u => 0 <= fst u) us) /\ (g_motion g = (-2)%Z -> Forall (fun u => fst u <= 0) us).
Proof.
  intros g c Y e us [L H].
  assert (G : forall P : act -> Prop, (forall t, (t < g_Hsample g)%nat -> P (nth t us (0, 0))) -> Forall P us).
  { intros P HP. apply Forall_forall. intros u Hu. destruct (In_nth _ _ (0, 0) Hu) as (t & Ht & <-). apply HP. rewrite <- L. exact Ht. }
  repeat split; intros; apply G; intros t Ht; destruct (H t Ht) as [[A _] [B _]]; revert A B; unfold slowest, fastest, in_control_box;
    repeat destruct Z.eq_dec; intros; lra || lia || (split; lra).
Qed.
(** C56: with one diffusion step or none nothing is sampled: the zero sequence is executed. *)
Lemma l_C56_single_step_plan :
  forall (Q : Type) (env : penv Q) g rg out, (g_Ndiffuse g <= 1)%nat -> planned env g rg out ->
  o_Ybars out = [] /\ exists run, executes (pe_step env) (origin env) (repeat (0, 0) (g_Hsample g)) run /\ o_Y0 out = map st_app run.
Proof.
  intros Q env g rg out Hn (D & X & _). replace (g_Ndiffuse g - 1)%nat with O in D by lia.
  destruct (o_Ybars out) as [|Y Ys]; [|destruct D]. split; [reflexivity|exact X].
Qed.
(** C56: one intermediate mean per diffusion step but the first, each with one command per time
    step; as many returned commands, one more returned state. *)
Lemma l_C56_result_shape :
  forall (Q : Type) (env : penv Q) g rg out, planned env g rg out ->
  length (o_Ybars out) = (g_Ndiffuse g - 1)%nat /\ Forall (fun Y => length Y = g_Hsample g) (o_Ybars out) /\
  length (o_Y0 out) = g_Hsample g /\ length (o_traj out) = S (g_Hsample g).
Proof.
  intros Q env g rg out (D & (r1 & X1 & A1) & (r2 & X2 & A2) & _).
  set (zero := repeat (0, 0) (g_Hsample g)) in *.
  assert (Hz : length zero = g_Hsample g) by apply repeat_length.
  assert (G : forall n k Y Ys, length Y = g_Hsample g -> denoising env g rg n k Y Ys ->
    length Ys = n /\ Forall (fun Y => length Y = g_Hsample g) Ys /\ length (last Ys Y) = g_Hsample g).
  { induction n as [|n IH]; intros k Y [|Y' Ys] HY H; cbn [denoising] in H; try contradiction; [repeat split; auto|].
    destruct H as [H1 H2]. pose proof (denoises_length _ _ _ _ _ _ H1) as L.
    destruct (IH _ _ _ L H2) as (I1 & I2 & I3). split; [cbn [length]; rewrite I1; reflexivity|]. split; [constructor; auto|]. rewrite last_cons. exact I3. }
  destruct (G _ _ _ _ Hz D) as (G1 & G2 & G3). split; [exact G1|]. split; [exact G2|].
  apply executes_run_of in X1. apply executes_run_of in X2.
  assert (L1 : length (o_Y0 out) = g_Hsample g) by (rewrite A1, X1, map_length, run_of_length; exact G3).
  split; [exact L1|]. rewrite A2, X2. cbn [length]. rewrite map_length, run_of_length, L1. reflexivity.
Qed.
(** A generator of the right shape and the default tractor-trailer scenario satisfy the hypotheses;
    the run then has 99 intermediate means, 50 commands and 51 states. *)
Definition ex_shaped : prng := mkPrng unit (fun _ => tt) (fun _ => (tt, tt)) (fun _ n h => repeat (repeat (1, -1) h) n).
Lemma x_C56_default_scenario :
  shaped ex_shaped /\ 0 < pe_dmax (tt_penv ex_tt (mkTT 0 0 PI PI) (fun _ u => u) (fun q => q) (fun _ _ => 0) 0) /\
  0 < g_beta0 ex_cfg < 1 /\ 0 < g_betaT ex_cfg < 1 /\
  exists out, run_diffusion (tt_penv ex_tt (mkTT 0 0 PI PI) (fun _ u => u) (fun q => q) (fun _ _ => 0) 0) (Some ex_cfg) ex_shaped = Ok out /\
    length (o_Ybars out) = 99%nat /\ length (o_Y0 out) = 50%nat /\ length (o_traj out) = 51%nat.
Proof.
  assert (S : shaped ex_shaped).
  { intros k n h. cbn [prng_normal ex_shaped]. split; [apply repeat_length|]. apply Forall_forall. intros r Hr.
    apply repeat_spec in Hr. subst. apply repeat_length. }
  set (env := tt_penv _ _ _ _ _ _).
  assert (D : 0 < pe_dmax env).
  { unfold env. cbn [pe_dmax tt_penv ts_p ex_tt p_dmax default_params]. unfold delta_max_of_deg. pose proof PI_RGT_0. lra. }
  assert (B0 : 0 < g_beta0 ex_cfg < 1) by (cbn; lra). assert (BT : 0 < g_betaT ex_cfg < 1) by (cbn; lra).
  split; [exact S|]. split; [exact D|]. split; [exact B0|]. split; [exact BT|].
  clearbody env.
  exists (run_diffusion_core env ex_cfg ex_shaped). split; [reflexivity|].
  pose proof (l_C56_planner_is_model_based_diffusion _ env ex_cfg ex_shaped _ S D B0 BT eq_refl) as P.
  destruct (l_C56_result_shape _ env ex_cfg ex_shaped _ P) as (H1 & _ & H2 & H3). auto.
Qed.
