(** * ProofsKin: generic facts about shielded kinematic stepping, rollouts and planning. *)
From Verif Require Import Base BaseFacts Params Rollout Planner.

Lemma scan_us_app {Q} (step : State Q -> act -> State Q) us vs : forall st,
  scan_us step st (us ++ vs) =
  (let '(f, o) := scan_us step st us in let '(f', o') := scan_us step f vs in (f', o ++ o')).
Proof.
  induction us as [|u us IH]; intros st; simpl.
  - destruct (scan_us step st vs); reflexivity.
  - rewrite IH. destruct (scan_us step (step st u) us) as [f o]. destruct (scan_us step f vs). reflexivity.
Qed.

Section Kin.
Context {Q : Type}.
Variable step : State Q -> act -> State Q.
Variable next : Q -> act -> Q.
Variable bad : Q -> bool.
Variable valid : Q -> Prop.

Record kinematic : Prop := mkKin {
  kin_q : forall st a, st_bak st = false -> valid (st_q st) ->
    st_q (step st a) = (if bad (next (st_q st) (clip_act a)) then st_q st else next (st_q st) (clip_act a));
  kin_app : forall st a, st_bak st = false -> valid (st_q st) ->
    st_app (step st a) = (if bad (next (st_q st) (clip_act a)) then (0, 0) else clip_act a);
  kin_bak : forall st a, st_bak (step st a) = st_bak st;
  kin_rew : forall st st' a, st_bak st = st_bak st' -> st_q st = st_q st' -> st_rew (step st a) = st_rew (step st' a);
  kin_zero : forall q, valid q -> next q (0, 0) = q;
  kin_valid : forall q a, valid q -> valid (next q a)
}.
Hypothesis K : kinematic.

(** State and applied action of one step as functions of the vehicle state alone. *)
Definition kq (q : Q) (a : act) : Q := if bad (next q (clip_act a)) then q else next q (clip_act a).
Definition ka (q : Q) (a : act) : act := if bad (next q (clip_act a)) then (0, 0) else clip_act a.
Definition kr (q : Q) (a : act) : R := st_rew (step (reset_state q) a).
Fixpoint kqs (q : Q) (us : list act) : list Q :=
  match us with [] => [] | u :: r => kq q u :: kqs (kq q u) r end.
Fixpoint kas (q : Q) (us : list act) : list act :=
  match us with [] => [] | u :: r => ka q u :: kas (kq q u) r end.
Fixpoint krs (q : Q) (us : list act) : list R :=
  match us with [] => [] | u :: r => kr q u :: krs (kq q u) r end.
Definition klast (q : Q) (us : list act) : Q := last (kqs q us) q.

Lemma kq_valid q a : valid q -> valid (kq q a).
Proof. intros. unfold kq. destruct (bad _); auto. apply kin_valid; auto. Qed.

Lemma last_cons_default {A} (l : list A) : forall x d, last (x :: l) d = last l x.
Proof. induction l as [|y l IH]; intros x d; [reflexivity|]. change (last (x :: y :: l) d) with (last (y :: l) d). rewrite IH. symmetry. apply IH. Qed.

Lemma klast_cons q u us : klast q (u :: us) = klast (kq q u) us.
Proof. unfold klast. cbn [kqs]. apply last_cons_default. Qed.

Lemma scan_char us : forall st, st_bak st = false -> valid (st_q st) ->
  snd (scan_us step st us) = map2 pair (map2 pair (krs (st_q st) us) (kqs (st_q st) us)) (kas (st_q st) us)
  /\ st_q (fst (scan_us step st us)) = klast (st_q st) us
  /\ st_bak (fst (scan_us step st us)) = false.
Proof.
  induction us as [|u us IH]; intros st Hb Hv; [cbn; auto|].
  cbn [scan_us]. specialize (IH (step st u)). rewrite (kin_bak K) in IH.
  rewrite (kin_q K) in IH by auto. change (if bad (next (st_q st) (clip_act u)) then st_q st else next (st_q st) (clip_act u)) with (kq (st_q st) u) in IH.
  destruct (IH Hb (kq_valid _ _ Hv)) as (H1 & H2 & H3).
  destruct (scan_us step (step st u) us) as [f o] eqn:E. cbn [fst snd] in *.
  rewrite klast_cons. split; [|split; auto].
  cbn [kqs kas krs map2]. rewrite H1. repeat f_equal.
  - apply (kin_rew K); auto.
  - apply (kin_q K); auto.
  - apply (kin_app K); auto.
Qed.

Lemma kqs_length q us : length (kqs q us) = length us.
Proof. revert q; induction us; intros; simpl; auto. Qed.
Lemma kas_length q us : length (kas q us) = length us.
Proof. revert q; induction us; intros; simpl; auto. Qed.
Lemma krs_length q us : length (krs q us) = length us.
Proof. revert q; induction us; intros; simpl; auto. Qed.

Lemma kq_zero q : valid q -> kq q (0, 0) = q.
Proof. intros Hv. unfold kq. rewrite clip_act_zero, (kin_zero K) by auto. destruct (bad q); auto. Qed.
Lemma ka_zero q : valid q -> ka q (0, 0) = (0, 0).
Proof. intros Hv. unfold ka. rewrite clip_act_zero, (kin_zero K) by auto. destruct (bad q); auto. Qed.

(** Executing the applied action again changes nothing. *)
Lemma kq_ka q u : valid q -> kq q (ka q u) = kq q u /\ ka q (ka q u) = ka q u.
Proof.
  intros Hv. destruct (bad (next q (clip_act u))) eqn:E.
  - assert (Ea : ka q u = (0, 0)) by (unfold ka; rewrite E; auto).
    assert (Eq : kq q u = q) by (unfold kq; rewrite E; auto).
    rewrite Ea, Eq. split; [apply kq_zero|apply ka_zero]; auto.
  - assert (Ea : ka q u = clip_act u) by (unfold ka; rewrite E; auto).
    rewrite Ea. unfold kq, ka. rewrite clip_act_idem, E. auto.
Qed.
Lemma replay_applied us : forall q, valid q -> kqs q (kas q us) = kqs q us /\ kas q (kas q us) = kas q us.
Proof.
  induction us as [|u us IH]; intros q Hv; [auto|]. cbn [kas kqs].
  destruct (kq_ka q u Hv) as [E1 E2]. rewrite E1, E2.
  destruct (IH (kq q u) (kq_valid _ _ Hv)) as [H1 H2]. rewrite H1, H2. auto.
Qed.

(** The applied action drives the plain dynamics to the new state. *)
Lemma kq_plain q u : valid q -> kq q u = next q (ka q u).
Proof. intros Hv. unfold kq, ka. destruct (bad _); auto. rewrite (kin_zero K); auto. Qed.

Lemma ka_box q u : (-1 <= fst (ka q u) <= 1) /\ (-1 <= snd (ka q u) <= 1).
Proof. unfold ka. destruct (bad _); [simpl; lra|apply clip_act_range]. Qed.

(** Invariants. *)
Lemma kqs_inv (P : Q -> Prop) : (forall q, valid q -> bad q = false -> P q) ->
  forall us q, valid q -> P q -> forall x, In x (kqs q us) -> P x.
Proof.
  intros HP. induction us as [|u us IH]; intros q Hv Hq x; simpl; [tauto|].
  assert (Pq' : P (kq q u)).
  { unfold kq. destruct (bad (next q (clip_act u))) eqn:E; auto. apply HP; auto. apply (kin_valid K); auto. }
  intros [<-|H]; auto. apply (IH (kq q u)); auto. apply kq_valid; auto.
Qed.

Lemma replay_char us : forall st, st_bak st = false -> valid (st_q st) ->
  replay step st us = kqs (st_q st) us.
Proof.
  induction us as [|u us IH]; intros st Hb Hv; [reflexivity|]. cbn [replay kqs].
  assert (E : st_q (step st u) = kq (st_q st) u) by (apply (kin_q K); auto).
  rewrite IH; [rewrite E; reflexivity|rewrite (kin_bak K); auto|rewrite E; apply kq_valid; auto].
Qed.

Lemma warmup_q st : st_bak st = false -> valid (st_q st) ->
  st_q (step st (0, 0)) = st_q st /\ st_bak (step st (0, 0)) = false.
Proof.
  intros Hb Hv. split; [|rewrite (kin_bak K); auto].
  rewrite (kin_q K) by auto. apply kq_zero; auto.
Qed.

Lemma map_fst_map2_pair {A B} (l : list A) (m : list B) : length l = length m -> map fst (map2 pair l m) = l.
Proof. revert m; induction l; destruct m; simpl; intros; try discriminate; auto. f_equal; auto. Qed.
Lemma map_snd_map2_pair {A B} (l : list A) (m : list B) : length l = length m -> map snd (map2 pair l m) = m.
Proof. revert m; induction l; destruct m; simpl; intros; try discriminate; auto. f_equal; auto. Qed.

Lemma rollout_char terminal w st us : st_bak st = false -> valid (st_q st) ->
  rollout_us_with_terminal step terminal w st us =
  (Rmean (krs (st_q st) us) + w * terminal (klast (st_q st) us), kqs (st_q st) us, kas (st_q st) us).
Proof.
  intros Hb Hv. unfold rollout_us_with_terminal. destruct (warmup_q st Hb Hv) as [Eq Eb].
  destruct (scan_char us (step st (0, 0))) as (H1 & H2 & H3); auto; [rewrite Eq; auto|].
  rewrite Eq in H1, H2. destruct (scan_us step (step st (0, 0)) us) as [f o]. cbn [fst snd] in *.
  subst o. rewrite H2.
  assert (L : length (map2 pair (krs (st_q st) us) (kqs (st_q st) us)) = length (kas (st_q st) us)).
  { rewrite map2_length, krs_length, kqs_length, kas_length. lia. }
  rewrite <- (map_map fst fst), <- (map_map fst snd).
  rewrite !map_fst_map2_pair, !map_snd_map2_pair by (rewrite ?map2_length, ?krs_length, ?kqs_length, ?kas_length; lia).
  reflexivity.
Qed.

Lemma rollout_us_char st us : st_bak st = false -> valid (st_q st) ->
  rollout_us step st us = (krs (st_q st) us, kqs (st_q st) us, kas (st_q st) us).
Proof.
  intros Hb Hv. pose proof (rollout_char (fun _ => 0) 0 st us Hb Hv) as H.
  unfold rollout_us_with_terminal in H. unfold rollout_us.
  destruct (warmup_q st Hb Hv) as [Eq Eb].
  destruct (scan_char us (step st (0, 0))) as (H1 & _ & _); auto; [rewrite Eq; auto|].
  destruct (scan_us step (step st (0, 0)) us) as [f o]. cbn [fst snd] in *. injection H as _ H3 H4.
  rewrite H3, H4. f_equal. f_equal. subst o. rewrite Eq.
  rewrite <- (map_map fst fst).
  rewrite map_fst_map2_pair by (rewrite map2_length, krs_length, kqs_length, kas_length; lia).
  apply map_fst_map2_pair. rewrite krs_length, kqs_length; auto.
Qed.

Lemma traj_char q us : valid q -> trajectory_states step (reset_state q) us = q :: kqs q us.
Proof. intros Hv. unfold trajectory_states. rewrite replay_char; auto. Qed.

(** ** The whole planning run *)
Section Run.
Variable env : penv Q.
Variable q0 : Q.
Hypothesis Hreset : pe_reset env = reset_state q0.
Hypothesis Hstep : pe_step env = step.
Hypothesis Hviz : forall st a, pe_step_viz env st a = step st a.
Hypothesis Hv0 : valid q0.

Lemma replay_ext (f h : State Q -> act -> State Q) : (forall st a, f st a = h st a) ->
  forall us st, replay f st us = replay h st us.
Proof. intros E. induction us; intros; simpl; auto. rewrite E. f_equal; auto. Qed.

Lemma rollout_term_char us :
  rollout_term env us = (Rmean (krs q0 us) + pe_term_w env * pe_terminal env (klast q0 us), kqs q0 us, kas q0 us).
Proof. unfold rollout_term. rewrite Hreset, Hstep. rewrite rollout_char; auto. Qed.

Lemma run_char g rg : exists us,
  o_Y0 (run_diffusion_core env g rg) = kas q0 us /\
  o_traj (run_diffusion_core env g rg) = q0 :: kqs q0 us /\
  o_rew (run_diffusion_core env g rg) =
    Rmean (krs q0 (kas q0 us)) + pe_term_w env * pe_terminal env (klast q0 us).
Proof.
  unfold run_diffusion_core. destruct (reverse_loop env g rg _ _ _) as [Ys Yf]. exists Yf.
  cbn [o_Y0 o_traj o_rew]. rewrite !rollout_term_char. cbn [fst snd].
  destruct (replay_applied Yf q0 Hv0) as [E1 E2].
  split; [reflexivity|]. split.
  - rewrite Hreset. destruct (g_guid g).
    + unfold trajectory_states. rewrite (replay_ext _ step) by (intros; apply Hviz).
      rewrite replay_char by auto. cbn [st_q reset_state]. rewrite E1. reflexivity.
    + rewrite Hstep. rewrite traj_char by auto. rewrite E1. reflexivity.
  - unfold klast. rewrite E1. reflexivity.
Qed.
End Run.
End Kin.
