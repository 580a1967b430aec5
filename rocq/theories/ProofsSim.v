(** * ProofsSim: simulation principle for rollouts and run_diffusion. If two environments are
    related step by step, planning with either gives the same controls and rewards and
    related trajectories. *)
From Verif Require Import Base BaseFacts Params Rollout Planner.

Section Sim.
Context {Q Q' : Type}.
Variable Rel : Q -> Q' -> Prop.

Definition sim_state (st : State Q) (st' : State Q') : Prop :=
  Rel (st_q st) (st_q st') /\ st_rew st = st_rew st' /\ st_app st = st_app st' /\ st_bak st = st_bak st'.
Definition sim_step (f : State Q -> act -> State Q) (f' : State Q' -> act -> State Q') : Prop :=
  forall st st' a, sim_state st st' -> sim_state (f st a) (f' st' a).

Definition sim_out (o : R * Q * act) (o' : R * Q' * act) : Prop :=
  fst (fst o) = fst (fst o') /\ Rel (snd (fst o)) (snd (fst o')) /\ snd o = snd o'.

Lemma scan_sim f f' : sim_step f f' -> forall us st st', sim_state st st' ->
  sim_state (fst (scan_us f st us)) (fst (scan_us f' st' us)) /\
  Forall2 sim_out (snd (scan_us f st us)) (snd (scan_us f' st' us)).
Proof.
  intros Hf us; induction us as [|u us IH]; intros st st' H; cbn [scan_us].
  - split; auto. constructor.
  - pose proof (Hf st st' u H) as H1. destruct (IH _ _ H1) as [H2 H3].
    destruct (scan_us f (f st u) us) as [fin outs]. destruct (scan_us f' (f' st' u) us) as [fin' outs'].
    cbn [fst snd] in *. split; auto. constructor; auto.
    destruct H1 as (A & B & C & D). repeat split; cbn; auto.
Qed.
Lemma Forall2_map_eq {A B C} (f : A -> C) (g : B -> C) (P : A -> B -> Prop) l m :
  (forall a b, P a b -> f a = g b) -> Forall2 P l m -> map f l = map g m.
Proof. intros H F. induction F; simpl; auto. f_equal; auto. Qed.
Lemma Forall2_map_rel {A B C D} (f : A -> C) (g : B -> D) (P : A -> B -> Prop) (S : C -> D -> Prop) l m :
  (forall a b, P a b -> S (f a) (g b)) -> Forall2 P l m -> Forall2 S (map f l) (map g m).
Proof. intros H F. induction F; simpl; constructor; auto. Qed.

Lemma replay_sim f f' : sim_step f f' -> forall us st st', sim_state st st' ->
  Forall2 Rel (replay f st us) (replay f' st' us).
Proof.
  intros Hf us; induction us as [|u us IH]; intros st st' H; cbn [replay]; constructor.
  - apply (Hf _ _ u H).
  - apply IH. apply Hf; auto.
Qed.

Record sim_env (e : penv Q) (e' : penv Q') : Prop := mkSimEnv {
  se_reset : sim_state (pe_reset e) (pe_reset e');
  se_step : sim_step (pe_step e) (pe_step e');
  se_viz : sim_step (pe_step_viz e) (pe_step_viz e');
  se_term : forall q q', Rel q q' -> pe_terminal e q = pe_terminal e' q';
  se_tw : pe_term_w e = pe_term_w e';
  se_sw : pe_steer_w e = pe_steer_w e';
  se_dm : pe_dmax e = pe_dmax e';
  se_logpd : forall qs qs' m, Forall2 Rel qs qs' -> pe_logpd e qs m = pe_logpd e' qs' m;
  se_xref : pe_rew_xref e = pe_rew_xref e'
}.

Definition sim_roll (o : R * list Q * list act) (o' : R * list Q' * list act) : Prop :=
  fst (fst o) = fst (fst o') /\ Forall2 Rel (snd (fst o)) (snd (fst o')) /\ snd o = snd o'.

Lemma rollout_term_sim e e' us : sim_env e e' -> sim_roll (rollout_term e us) (rollout_term e' us).
Proof.
  intros E. unfold rollout_term, rollout_us_with_terminal.
  pose proof (se_step _ _ E) as Hs. pose proof (Hs _ _ (0, 0) (se_reset _ _ E)) as H0.
  destruct (scan_sim _ _ Hs us _ _ H0) as [H1 H2].
  destruct (scan_us (pe_step e) _ us) as [fin outs]. destruct (scan_us (pe_step e') _ us) as [fin' outs'].
  cbn [fst snd] in *. unfold sim_roll; cbn [fst snd].
  rewrite (Forall2_map_eq (fun o => fst (fst o)) (fun o => fst (fst o)) sim_out outs outs') by (auto; intros a b (A & _); auto).
  rewrite (Forall2_map_eq snd snd sim_out outs outs') by (auto; intros a b (_ & _ & A); auto).
  rewrite (se_tw _ _ E), (se_term _ _ E _ (st_q fin')) by apply H1.
  repeat split. eapply Forall2_map_rel; [|exact H2]. intros a b (_ & A & _); auto.
Qed.

Lemma Forall2_same {A} (P : A -> A -> Prop) l : (forall x, P x x) -> Forall2 P l l.
Proof. intros. induction l; constructor; auto. Qed.

Lemma evaluate_sim e e' g Y0s : sim_env e e' -> evaluate_samples e g Y0s = evaluate_samples e' g Y0s.
Proof.
  intros E. unfold evaluate_samples.
  assert (F : Forall2 sim_roll (map (rollout_term e) Y0s) (map (rollout_term e') Y0s)).
  { induction Y0s; simpl; constructor; auto. apply rollout_term_sim; auto. }
  set (o1 := map (rollout_term e) Y0s) in *. set (o2 := map (rollout_term e') Y0s) in *. clearbody o1 o2.
  assert (E1 : map snd o1 = map snd o2).
  { eapply Forall2_map_eq; [|exact F]. intros a b (_ & _ & H); auto. }
  assert (E2 : map2 (fun o us => fst (fst o) + pe_steer_w e * steering_reward (pe_dmax e) us) o1 (map snd o1)
             = map2 (fun o us => fst (fst o) + pe_steer_w e' * steering_reward (pe_dmax e') us) o2 (map snd o2)).
  { rewrite (se_sw _ _ E), (se_dm _ _ E). clear E1. induction F; simpl; auto. destruct H as (H1 & _ & H2).
    rewrite H1, H2. f_equal. auto. }
  rewrite E1 in *. rewrite E2. f_equal. f_equal.
  assert (E3 : map (fun qs => pe_logpd e qs (g_motion g)) (map (fun o => snd (fst o)) o1)
             = map (fun qs => pe_logpd e' qs (g_motion g)) (map (fun o => snd (fst o)) o2)).
  { rewrite !map_map. eapply Forall2_map_eq; [|exact F]. intros a b (_ & H & _). apply (se_logpd _ _ E); auto. }
  unfold log_scores. rewrite E3, (se_xref _ _ E). reflexivity.
Qed.

Lemma reverse_once_sim e e' g i eps Y : sim_env e e' -> reverse_once e g i eps Y = reverse_once e' g i eps Y.
Proof. intros E. unfold reverse_once, reverse_once_with. rewrite (evaluate_sim e e'); auto. Qed.
Lemma reverse_loop_sim e e' g rg is : sim_env e e' -> forall k Y,
  reverse_loop e g rg is k Y = reverse_loop e' g rg is k Y.
Proof.
  intros E. induction is as [|i is IH]; intros k Y; cbn [reverse_loop]; auto.
  destruct (prng_split rg k) as [k' ks]. rewrite (reverse_once_sim e e') by auto.
  destruct (reverse_once e' g i _ Y) as [Y' r]. rewrite IH. reflexivity.
Qed.

(** Planning with related environments: same controls, same rewards, related trajectories. *)
Lemma run_sim e e' g rg : sim_env e e' ->
  o_rew (run_diffusion_core e g rg) = o_rew (run_diffusion_core e' g rg) /\
  o_Y0 (run_diffusion_core e g rg) = o_Y0 (run_diffusion_core e' g rg) /\
  o_Ybars (run_diffusion_core e g rg) = o_Ybars (run_diffusion_core e' g rg) /\
  Forall2 Rel (o_traj (run_diffusion_core e g rg)) (o_traj (run_diffusion_core e' g rg)).
Proof.
  intros E. unfold run_diffusion_core. rewrite (reverse_loop_sim e e') by auto.
  destruct (reverse_loop e' g rg _ _ _) as [Ybars Yfin]. cbn [o_rew o_Y0 o_Ybars o_traj].
  destruct (rollout_term_sim e e' Yfin E) as (_ & _ & EY). rewrite EY.
  destruct (rollout_term_sim e e' (snd (rollout_term e' Yfin)) E) as (ER & _ & _).
  repeat split; auto.
  unfold trajectory_states. constructor; [apply (se_reset _ _ E)|].
  destruct (g_guid g); (eapply replay_sim; [|apply (se_reset _ _ E)]); [apply (se_viz _ _ E)|apply (se_step _ _ E)].
Qed.

End Sim.
