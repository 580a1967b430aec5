(** * ProofsSymAcc: winding (C17) and world-frame invariance (C45) of the acceleration class. *)
From Verif Require Import Base BaseFacts Params Geom TT2d Bicycle NTrailer Acc SpecGeom SpecBodies SpecDyn SpecSym
  Rollout Planner Instances ProofsGeom ProofsBodies ProofsKin ProofsRobots ProofsSafety ProofsSim ProofsSym ProofsFrame.
Open Scope R_scope.

Section AccSim.
Variable Rel : ttq -> ttq -> Prop.
Definition arel (q q' : accq) : Prop := Rel (a_q q) (a_q q') /\ a_v q' = a_v q /\ a_d q' = a_d q.
Variables s s' : acc_self.
Hypothesis Ep : as_p s' = as_p s.
Hypothesis Ea : as_amax s' = as_amax s.
Hypothesis Eo : as_omax s' = as_omax s.
Hypothesis He : forall q q' u dt, Rel q q' ->
  Rel (euler tt_axpy (tt_dyn (as_p s)) q u dt) (euler tt_axpy (tt_dyn (as_p s)) q' u dt).
Hypothesis Hc : forall q q', Rel q q' -> ts_coll (as_t s) q = ts_coll (as_t s') q'.
Hypothesis Hh : forall q q', Rel q q' -> ts_hitch (as_t s) q = ts_hitch (as_t s') q'.
Hypothesis Hr : forall q q', Rel q q' -> tt_reward (as_t s) q = tt_reward (as_t s') q'.

Lemma acc_euler_sim q q' u dt : arel q q' -> arel (acc_euler s q u dt) (acc_euler s' q' u dt).
Proof.
  intros (Hq & Hv & Hd). destruct u as [a w]. unfold acc_euler, euler, acc_axpy, acc_dyn. rewrite Ep, Hv, Hd. cbv zeta.
  cbn [a_q a_v a_d]. split; [|split; reflexivity]. cbn [a_q]. apply (He _ _ _ dt Hq).
Qed.
Lemma acc_a_backup_sim v : a_backup s' v = a_backup s v.
Proof. unfold a_backup. rewrite Ep, Ea. reflexivity. Qed.
Lemma acc_rollout_sim u c c' : arel (fst (fst c)) (fst (fst c')) -> snd (fst c) = snd (fst c') -> snd c = snd c' ->
  arel (fst (fst (acc_rollout_step s u c))) (fst (fst (acc_rollout_step s' u c'))) /\
  snd (fst (acc_rollout_step s u c)) = snd (fst (acc_rollout_step s' u c')) /\
  snd (acc_rollout_step s u c) = snd (acc_rollout_step s' u c').
Proof.
  destruct c as [[q oc] hv], c' as [[q' oc'] hv']; cbn [fst snd]. intros Hq <- <-. unfold acc_rollout_step. cbn [fst snd].
  assert (Hn : arel (where_ (Rltb v_threshold (Rabs (a_v q))) (acc_euler s q u rollout_dt) q)
    (where_ (Rltb v_threshold (Rabs (a_v q'))) (acc_euler s' q' u rollout_dt) q')).
  { destruct Hq as (A & B & C). rewrite B. unfold where_. destruct Rltb; [apply acc_euler_sim|]; repeat split; auto. }
  split; [exact Hn|]. unfold as_coll, as_hitch. destruct Hn as (A & _ & _). rewrite (Hc _ _ A), (Hh _ _ A). auto.
Qed.
Lemma acc_check_sim q q' : arel q q' -> check_with_rollout s q = check_with_rollout s' q'.
Proof.
  intros Hq. unfold check_with_rollout. destruct Hq as (A & B & C). rewrite B, acc_a_backup_sim.
  replace (max_rollout_steps s') with (max_rollout_steps s) by (unfold max_rollout_steps; rewrite Ep, Ea; reflexivity).
  set (u := (_, 0)).
  assert (I : forall n,
    arel (fst (fst (Nat.iter n (acc_rollout_step s u) (q, as_coll s q, as_hitch s q))))
      (fst (fst (Nat.iter n (acc_rollout_step s' u) (q', as_coll s' q', as_hitch s' q')))) /\
    snd (fst (Nat.iter n (acc_rollout_step s u) (q, as_coll s q, as_hitch s q))) =
      snd (fst (Nat.iter n (acc_rollout_step s' u) (q', as_coll s' q', as_hitch s' q'))) /\
    snd (Nat.iter n (acc_rollout_step s u) (q, as_coll s q, as_hitch s q)) =
      snd (Nat.iter n (acc_rollout_step s' u) (q', as_coll s' q', as_hitch s' q'))).
  { induction n as [|n (I1 & I2 & I3)]; cbn [Nat.iter].
    - cbn [fst snd]. split; [repeat split; auto|]. unfold as_coll, as_hitch. rewrite (Hc _ _ A), (Hh _ _ A). auto.
    - apply acc_rollout_sim; auto. }
  destruct (I (max_rollout_steps s)) as (_ & I2 & I3).
  destruct (Nat.iter _ (acc_rollout_step s u) _) as [[a b] c], (Nat.iter _ (acc_rollout_step s' u) _) as [[a' b'] c'].
  cbn [fst snd] in *. congruence.
Qed.
Lemma acc_shield_sim q q' qp qp' : arel q q' -> arel qp qp' ->
  arel (fst (fst (acc_shielded_rollout s q qp))) (fst (fst (acc_shielded_rollout s' q' qp'))) /\
  snd (fst (acc_shielded_rollout s q qp)) = snd (fst (acc_shielded_rollout s' q' qp')) /\
  snd (acc_shielded_rollout s q qp) = snd (acc_shielded_rollout s' q' qp').
Proof.
  intros Hq Hp. unfold acc_shielded_rollout. rewrite Ep.
  assert (E : (if Rleb (Rabs (a_v qp)) v_threshold then check_single s qp else check_with_rollout s qp) =
              (if Rleb (Rabs (a_v qp')) v_threshold then check_single s' qp' else check_with_rollout s' qp')).
  { rewrite (acc_check_sim _ _ Hp). destruct Hp as (A & B & C). rewrite B. destruct Rleb; auto.
    unfold check_single, as_coll, as_hitch. rewrite (Hc _ _ A), (Hh _ _ A). reflexivity. }
  cbv zeta. rewrite <- E. destruct (if Rleb _ _ then _ else _) as [oc hv]. cbn [fst snd]. split; [|auto].
  destruct (Hq) as (A & B & C). destruct (Hp) as (A' & B' & C'). rewrite B, B', acc_a_backup_sim.
  unfold where_. destruct (_ || _); auto. apply acc_euler_sim; auto.
Qed.
Lemma acc_step_sim proj proj' guide guide' viz :
  (forall q q' a, arel q q' -> proj q a = proj' q' a) ->
  (forall q q', arel q q' -> arel (guide q) (guide' q')) ->
  sim_step arel (acc_step_internal s proj guide viz) (acc_step_internal s' proj' guide' viz).
Proof.
  intros Hp Hg st st' a (Hq & _ & _ & Hb).
  unfold acc_step_internal, acc_step_with. rewrite Ep, <- Hb. cbv zeta.
  rewrite <- (Hp _ _ (clip_act a) Hq).
  assert (Es : forall u, acc_scaler s' u = acc_scaler s u) by (intros; unfold acc_scaler; rewrite Ea, Eo; reflexivity).
  assert (Eb : acc_backup_norm s' (a_v (st_q st')) = acc_backup_norm s (a_v (st_q st))).
  { unfold acc_backup_norm. destruct Hq as (_ & -> & _). rewrite acc_a_backup_sim, Ea. reflexivity. }
  rewrite Eb, !Es.
  assert (Hrw : forall q q', arel q q' -> acc_reward s q = acc_reward s' q') by (intros q q' (A & _); apply Hr; auto).
  assert (Hpv : forall q q', arel q q' -> a_v q' = a_v q) by (intros q q' (A & B & _); auto).
  destruct (p_proj (as_p s)); [|destruct (p_guid (as_p s))].
  - assert (R1 := acc_euler_sim _ _ (acc_scaler s (proj (st_q st) (clip_act a))) (p_dt (as_p s)) Hq).
    unfold sim_state; cbn [st_q st_rew st_app st_bak]. rewrite <- (Hrw _ _ R1), (Hpv _ _ R1). auto.
  - set (u := where_ (st_bak st) _ _).
    assert (R1 := acc_euler_sim _ _ (acc_scaler s u) (p_dt (as_p s)) Hq). assert (R2 := Hg _ _ R1).
    unfold as_coll, as_hitch. destruct (R2) as (A & _). rewrite <- (Hc _ _ A), <- (Hh _ _ A), <- (Hrw _ _ R2).
    unfold sim_state; cbn [st_q st_rew st_app st_bak].
    destruct viz; [rewrite (Hpv _ _ R2)|rewrite (Hpv _ _ R1)]; auto.
  - set (u := where_ (st_bak st) _ _).
    assert (R1 := acc_euler_sim _ _ (acc_scaler s u) (p_dt (as_p s)) Hq).
    set (qp := acc_euler s (st_q st) _ _) in *. set (qp' := acc_euler s' (st_q st') _ _) in *.
    destruct (acc_shield_sim _ _ _ _ Hq R1) as (S1 & S2 & S3).
    assert (S4 : arel qp qp') by exact R1. destruct (S4) as (A & _).
    unfold step_without_shield, as_coll, as_hitch. rewrite <- (Hc _ _ A), <- (Hh _ _ A).
    destruct (p_sh_coll (as_p s) || p_sh_hitch (as_p s)).
    + destruct (acc_shielded_rollout s (st_q st) qp) as [[qf oc] hv], (acc_shielded_rollout s' (st_q st') qp') as [[qf' oc'] hv'].
      cbn [fst snd] in S1, S2, S3. subst oc' hv'. unfold sim_state; cbn [st_q st_rew st_app st_bak].
      rewrite <- (Hrw _ _ S1), (Hpv _ _ S1). auto.
    + unfold sim_state; cbn [st_q st_rew st_app st_bak]. rewrite <- (Hrw _ _ S4), (Hpv _ _ S4). auto.
Qed.
End AccSim.

(** ** C17 *)
(** C17, acceleration class: verdicts, predicted braking manoeuvre and rewards do not see whole turns. *)
Lemma l_C17_acc_winding :
  forall (s : acc_self) (xg' : ttq) (q q' : accq), acc_same_pose q q' -> tt_same_pose (ts_xg (as_t s)) xg' ->
  let s' := mkAccSelf (mkTTSelf (as_p s) (ts_circ (as_t s)) (ts_rect (as_t s)) xg') (as_amax s) (as_omax s) in
  as_coll s' q' = as_coll s q /\ as_hitch s' q' = as_hitch s q /\
  check_with_rollout s' q' = check_with_rollout s q /\
  acc_reward s' q' = acc_reward s q /\ acc_terminal s' q' = acc_terminal s q.
Proof.
  intros s xg' q q' (Hq & Hv & Hd) Hg. cbv zeta. set (s' := mkAccSelf _ _ _).
  assert (W : forall q q', tt_same_pose q q' -> _) by (intros x x' Hx; exact (l_C17_tt_winding (as_t s) xg' x x' Hx Hg)).
  cbv zeta in W.
  destruct (W _ _ Hq) as (A & B & C & D).
  split; [exact A|]. split; [exact B|]. split; [|split; [exact C|exact D]].
  symmetry. apply (acc_check_sim tt_same_pose s s'); auto.
  - intros x x' u dt Hx. destruct u as [v d]. destruct Hx as (Ex & Ey & H1 & H2).
    assert (H12 := turns_minus _ _ _ _ H1 H2).
    unfold euler, tt_axpy, tt_dyn, tt_same_pose; cbn [t_px t_py t_th1 t_th2].
    rewrite Ex, Ey, (turns_cos _ _ H1), (turns_sin _ _ H1), (turns_cos _ _ H12), (turns_sin _ _ H12).
    repeat split; apply turns_add; auto.
  - intros x x' Hx. destruct (W x x' Hx) as (A' & _). symmetry; exact A'.
  - intros x x' Hx. destruct (W x x' Hx) as (_ & A' & _). symmetry; exact A'.
  - split; [exact Hq|]. split; assumption.
Qed.
Lemma tt_dt_euler_turns p q q' u dt : tt_same_pose q q' ->
  tt_same_pose (euler tt_axpy (tt_dyn p) q u dt) (euler tt_axpy (tt_dyn p) q' u dt).
Proof.
  intros (Ex & Ey & H1 & H2). destruct u as [v d]. assert (H12 := turns_minus _ _ _ _ H1 H2).
  unfold euler, tt_axpy, tt_dyn, tt_same_pose; cbn [t_px t_py t_th1 t_th2].
  rewrite Ex, Ey, (turns_cos _ _ H1), (turns_sin _ _ H1), (turns_cos _ _ H12), (turns_sin _ _ H12).
  repeat split; apply turns_add; auto.
Qed.
(** C17, acceleration class: planning from a start that differs by whole turns gives the same plan, the
    same reward and the same trajectory up to whole turns, in every mode. *)
Lemma l_C17_acc_plan_winding :
  forall (s : acc_self) (x0 x0' : accq) (xg' : ttq) proj guide logpd rx (g : cfg) (rg : prng) out out',
  acc_same_pose x0 x0' -> tt_same_pose (ts_xg (as_t s)) xg' ->
  (forall q q' a, acc_same_pose q q' -> proj q a = proj q' a) ->
  (forall q q', acc_same_pose q q' -> acc_same_pose (guide q) (guide q')) ->
  (forall qs qs' m, Forall2 acc_same_pose qs qs' -> logpd qs m = logpd qs' m) ->
  run_diffusion (acc_penv s x0 proj guide logpd rx) (Some g) rg = Ok out ->
  run_diffusion (acc_penv (mkAccSelf (mkTTSelf (as_p s) (ts_circ (as_t s)) (ts_rect (as_t s)) xg') (as_amax s) (as_omax s))
    x0' proj guide logpd rx) (Some g) rg = Ok out' ->
  o_Y0 out' = o_Y0 out /\ o_rew out' = o_rew out /\ Forall2 acc_same_pose (o_traj out) (o_traj out').
Proof.
  intros s x0 x0' xg' proj guide logpd rx g rg out out' H0 Hg Hp Hgd Hl E E'.
  injection E as <-. injection E' as <-. set (s' := mkAccSelf _ _ _).
  assert (W : forall q q', tt_same_pose q q' -> _) by (intros x x' Hx; exact (l_C17_tt_winding (as_t s) xg' x x' Hx Hg)).
  cbv zeta in W.
  assert (S : forall viz, sim_step acc_same_pose (acc_step_internal s proj guide viz) (acc_step_internal s' proj guide viz)).
  { intros viz. apply (acc_step_sim tt_same_pose s s'); auto.
    - intros. apply tt_dt_euler_turns; auto.
    - intros q q' Hq. destruct (W q q' Hq) as (A & B & C & D). symmetry; exact A.
    - intros q q' Hq. destruct (W q q' Hq) as (A & B & C & D). symmetry; exact B.
    - intros q q' Hq. destruct (W q q' Hq) as (A & B & C & D). symmetry; exact C. }
  assert (E : sim_env acc_same_pose (acc_penv s x0 proj guide logpd rx) (acc_penv s' x0' proj guide logpd rx)).
  { constructor; try reflexivity; try apply S; auto.
    - repeat split; apply H0.
    - intros q q' (Hq & _). destruct (W (a_q q) (a_q q') Hq) as (A & B & C & D). symmetry; exact D. }
  destruct (run_sim _ _ _ g rg E) as (A & B & _ & D). repeat split; auto.
Qed.

(** ** C45 *)
Lemma tt_dt_euler_move m p q u dt : euler tt_axpy (tt_dyn p) (tt_move m q) u dt = tt_move m (euler tt_axpy (tt_dyn p) q u dt).
Proof.
  destruct u as [v d]. unfold euler, tt_axpy, tt_dyn, tt_move, move; cbn [t_px t_py t_th1 t_th2 fst snd].
  replace (t_th1 q + m_ang m - (t_th2 q + m_ang m)) with (t_th1 q - t_th2 q) by ring.
  rewrite cos_plus, sin_plus. f_equal; ring.
Qed.
Lemma acc_moved_rel m q q' : arel (fun a b => b = tt_move m a) q q' <-> q' = acc_move m q.
Proof.
  unfold arel, acc_move. split.
  - intros (A & B & C). destruct q'; cbn in *. congruence.
  - intros ->. auto.
Qed.
Lemma acc_moved_step m s proj proj' guide guide' viz :
  (forall q a, proj' (acc_move m q) a = proj q a) ->
  (forall q, guide' (acc_move m q) = acc_move m (guide q)) ->
  sim_step (fun q q' => q' = acc_move m q) (acc_step_internal s proj guide viz)
    (acc_step_internal (acc_world_move m s) proj' guide' viz).
Proof.
  intros Hp Hg.
  assert (S : sim_step (arel (fun a b => b = tt_move m a)) (acc_step_internal s proj guide viz)
    (acc_step_internal (acc_world_move m s) proj' guide' viz)).
  { apply acc_step_sim; try reflexivity.
    - intros q q' u dt ->. apply tt_dt_euler_move.
    - intros q q' ->. symmetry. apply tt_coll_move.
    - intros q q' ->. symmetry. apply tt_hitch_move.
    - intros q q' ->. symmetry. apply tt_reward_move.
    - intros q q' a H. apply acc_moved_rel in H. subst. symmetry. apply Hp.
    - intros q q' H. apply acc_moved_rel in H. subst. apply acc_moved_rel. apply Hg. }
  intros st st' a (A & B & C & D). destruct (S st st' a) as (A' & B' & C' & D').
  - split; [apply acc_moved_rel; exact A|]. repeat split; auto.
  - split; [apply acc_moved_rel; exact A'|]. repeat split; auto.
Qed.
(** C45, acceleration class: move world, start and goal by one rigid motion and the plan, its reward and the
    trajectory move along, in every mode. *)
Lemma l_C45_acc_plan_moves_along :
  forall (m : motion) (s : acc_self) (x0 : accq) proj proj' guide guide' logpd logpd' rx (g : cfg) (rg : prng) out out',
  (forall q a, proj' (acc_move m q) a = proj q a) ->
  (forall q, guide' (acc_move m q) = acc_move m (guide q)) ->
  (forall qs k, logpd' (map (acc_move m) qs) k = logpd qs k) ->
  run_diffusion (acc_penv s x0 proj guide logpd rx) (Some g) rg = Ok out ->
  run_diffusion (acc_penv (acc_world_move m s) (acc_move m x0) proj' guide' logpd' rx) (Some g) rg = Ok out' ->
  o_Y0 out' = o_Y0 out /\ o_rew out' = o_rew out /\ o_traj out' = map (acc_move m) (o_traj out).
Proof.
  intros m s x0 proj proj' guide guide' logpd logpd' rx g rg out out' Hp Hg Hl E E'.
  injection E as <-. injection E' as <-.
  set (Rel := fun q q' => q' = acc_move m q).
  assert (HF : forall qs qs', Forall2 Rel qs qs' -> qs' = map (acc_move m) qs).
  { induction 1 as [|a b l l' H F IH]; simpl; auto. f_equal; auto. }
  assert (E : sim_env Rel (acc_penv s x0 proj guide logpd rx)
    (acc_penv (acc_world_move m s) (acc_move m x0) proj' guide' logpd' rx)).
  { constructor; try reflexivity; try (apply acc_moved_step; auto).
    - repeat split.
    - intros q q' ->. symmetry. apply tt_terminal_move.
    - intros qs qs' k F. apply HF in F. subst. symmetry. apply Hl. }
  destruct (run_sim _ _ _ g rg E) as (A & B & _ & D). repeat split; auto.
Qed.
(** C45, acceleration class, one step without projection and guidance: same decision, same applied action,
    same reward, moved state. *)
Lemma l_C45_acc_step_moves_along :
  forall (m : motion) (s : acc_self) (st st' : State accq) (a : act),
  p_proj (as_p s) = false -> p_guid (as_p s) = false ->
  st_q st' = acc_move m (st_q st) -> st_bak st' = st_bak st ->
  let id1 := fun (_ : accq) (u : act) => u in
  let id2 := fun q : accq => q in
  let r := acc_step s id1 id2 st a in
  let r' := acc_step (acc_world_move m s) id1 id2 st' a in
  st_q r' = acc_move m (st_q r) /\ st_app r' = st_app r /\ st_rew r' = st_rew r /\ st_bak r' = st_bak r.
Proof.
  intros m s st st' a Hp Hg Hq Hb. cbv zeta. unfold acc_step.
  set (e := mkState (st_q st) (st_obs st) 0 (st_done st) (0,0) (st_bak st)).
  set (e' := mkState (st_q st') (st_obs st') 0 (st_done st') (0,0) (st_bak st')).
  assert (H : sim_state (fun q q' => q' = acc_move m q) e e') by (unfold e, e'; repeat split; cbn; auto).
  destruct (acc_moved_step m s (fun _ u => u) (fun _ u => u) (fun q => q) (fun q => q) false
    (fun _ _ => eq_refl) (fun _ => eq_refl) e e' a H) as (A & B & C & D).
  replace (acc_step_internal s (fun _ u => u) (fun q => q) false st a) with (acc_step_internal s (fun _ u => u) (fun q => q) false e a) by reflexivity.
  replace (acc_step_internal (acc_world_move m s) (fun _ u => u) (fun q => q) false st' a) with (acc_step_internal (acc_world_move m s) (fun _ u => u) (fun q => q) false e' a) by reflexivity.
  repeat split; auto.
Qed.
(** Non-vacuity: speed and steering angle stay, the pose turns. *)
Lemma x_C45_acc_example :
  acc_move (mkMotion (PI / 2) (1, 2)) (mkAcc (mkTT 3 4 0 0) 1 2) = mkAcc (mkTT (-3) 5 (PI / 2) (PI / 2)) 1 2 /\
  acc_same_pose (mkAcc (mkTT 3 4 0 0) 1 2) (mkAcc (mkTT 3 4 (2 * PI) (-2 * PI)) 1 2).
Proof.
  split.
  - unfold acc_move, tt_move, move; cbn. rewrite cos_PI2, sin_PI2. f_equal. f_equal; lra.
  - unfold acc_same_pose, tt_same_pose; cbn. repeat split; auto; [exists 1%Z|exists (-1)%Z]; lra.
Qed.
