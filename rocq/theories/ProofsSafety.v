(** * ProofsSafety: end-to-end statements for the kinematic robots (C01-C03, C07, C15, C26, C44). *)
From Verif Require Import Base BaseFacts SpecInput SpecPlan InputFacts Params Geom TT2d Bicycle NTrailer SpecGeom SpecBodies SpecDyn
  Rollout Planner Instances ProofsGeom ProofsBodies ProofsKin ProofsRobots.

(** ** Generic consequences of the kinematic structure *)
Section G.
Context {Q : Type} (step : State Q -> act -> State Q) (next : Q -> act -> Q) (bad : Q -> bool) (valid : Q -> Prop).
Hypothesis K : kinematic step next bad valid.
Variable env : penv Q.
Variable q0 : Q.
Hypothesis Hreset : pe_reset env = reset_state q0.
Hypothesis Hstep : pe_step env = step.
Hypothesis Hviz : forall st a, pe_step_viz env st a = step st a.
Hypothesis Hv0 : valid q0.

Lemma gen_run_inv (P : Q -> Prop) : (forall q, valid q -> bad q = false -> P q) -> P q0 ->
  forall g rg out, run_diffusion env (Some g) rg = Ok out -> Forall P (o_traj out).
Proof.
  intros HP H0 g rg out E. injection E as <-.
  destruct (run_char _ _ _ _ K env q0 Hreset Hstep Hviz Hv0 g rg) as (us & _ & -> & _).
  constructor; auto. apply Forall_forall. intros x Hx. eapply (kqs_inv _ _ _ _ K P HP); eauto.
Qed.
Lemma gen_rollout_inv (P : Q -> Prop) : (forall q, valid q -> bad q = false -> P q) -> P q0 ->
  forall us, Forall P (snd (fst (rollout_term env us))).
Proof.
  intros HP H0 us. rewrite (rollout_term_char _ _ _ _ K env q0 Hreset Hstep Hv0 us). cbn [fst snd].
  apply Forall_forall. intros x Hx. eapply (kqs_inv _ _ _ _ K P HP); eauto.
Qed.

Lemma kqs_nth_plain us : forall q t, valid q -> (t < length us)%nat ->
  nth (S t) (q :: kqs next bad q us) q0 = next (nth t (q :: kqs next bad q us) q0) (nth t (kas next bad q us) (0, 0))
  /\ valid (nth t (q :: kqs next bad q us) q0).
Proof.
  induction us as [|u us IH]; intros q t Hv Ht; [simpl in Ht; lia|].
  cbn [kqs kas]. destruct t as [|t].
  - cbn [nth]. split; auto. apply (kq_plain _ _ _ _ K); auto.
  - cbn [nth]. apply (IH (kq next bad q u) t); [apply (kq_valid _ _ _ _ K); auto|simpl in Ht; lia].
Qed.

Lemma krs_map2 us : forall q, krs step next bad q us = map2 (fun q a => st_rew (step (reset_state q) a)) (q :: kqs next bad q us) us.
Proof.
  induction us as [|u us IH]; intros q; [reflexivity|]. cbn [krs kqs map2]. f_equal. rewrite IH. reflexivity.
Qed.

Lemma einsum_length H ws Ys : length (einsum_avg H ws Ys) = H.
Proof. unfold einsum_avg. rewrite map_length, seq_length. reflexivity. Qed.
Lemma reverse_once_length g i eps Y : length Y = g_Hsample g -> length (fst (reverse_once env g i eps Y)) = g_Hsample g.
Proof.
  intros HY. unfold reverse_once, reverse_once_with. destruct (evaluate_samples env g _) as [[ef rw] ws]. cbn [fst].
  rewrite map_length, map2_length, map2_length, map_length, einsum_length, HY. lia.
Qed.
Lemma reverse_loop_length g rg idx : forall k Y, length Y = g_Hsample g ->
  length (snd (reverse_loop env g rg idx k Y)) = g_Hsample g /\
  Forall (fun Z => length Z = g_Hsample g) (fst (reverse_loop env g rg idx k Y)).
Proof.
  induction idx as [|i idx IH]; intros k Y HY; cbn [reverse_loop]; [split; [exact HY|constructor]|].
  destruct (prng_split rg k) as [k' ks].
  pose proof (reverse_once_length g i (prng_normal rg ks (g_Nsample g) (g_Hsample g)) Y HY) as HL.
  destruct (reverse_once env g i _ Y) as [Y' m]. cbn [fst] in HL.
  destruct (IH k' Y' HL) as [H1 H2]. destruct (reverse_loop env g rg idx k' Y') as [Ys Yf].
  cbn [fst snd] in *. auto.
Qed.

Lemma gen_run_plain g rg out : run_diffusion env (Some g) rg = Ok out ->
  length (o_Y0 out) = g_Hsample g /\ length (o_traj out) = S (g_Hsample g) /\ nth 0 (o_traj out) q0 = q0 /\
  (forall t, (t < g_Hsample g)%nat ->
     nth (S t) (o_traj out) q0 = next (nth t (o_traj out) q0) (nth t (o_Y0 out) (0, 0))).
Proof.
  intros E. injection E as <-.
  assert (HL : length (o_Y0 (run_diffusion_core env g rg)) = g_Hsample g).
  { unfold run_diffusion_core. set (kk := fst _).
    destruct (reverse_loop_length g rg (diffusion_indices g) kk (YN g)) as [H1 _].
    { unfold YN. apply repeat_length. }
    destruct (reverse_loop env g rg _ _ _) as [Ys Yf]. cbn [snd] in H1. cbn [o_Y0].
    rewrite (rollout_term_char _ _ _ _ K env q0 Hreset Hstep Hv0 Yf). cbn [snd]. rewrite kas_length. auto. }
  destruct (run_char _ _ _ _ K env q0 Hreset Hstep Hviz Hv0 g rg) as (us & E1 & E2 & _).
  rewrite E1 in HL |- *. rewrite E2. rewrite kas_length in HL.
  split; [rewrite kas_length; auto|]. split; [cbn [length]; rewrite kqs_length; auto|]. split; [reflexivity|].
  intros t Ht. apply kqs_nth_plain; auto. lia.
Qed.

Lemma gen_run_reexec g rg out : run_diffusion env (Some g) rg = Ok out ->
  trajectory_states step (reset_state q0) (o_Y0 out) = o_traj out /\
  snd (fst (rollout_us step (reset_state q0) (o_Y0 out))) = tl (o_traj out) /\
  snd (rollout_us step (reset_state q0) (o_Y0 out)) = o_Y0 out.
Proof.
  intros E. injection E as <-.
  destruct (run_char _ _ _ _ K env q0 Hreset Hstep Hviz Hv0 g rg) as (us & E1 & E2 & _).
  rewrite E1, E2. destruct (replay_applied _ _ _ _ K us q0 Hv0) as [R1 R2].
  rewrite (traj_char _ _ _ _ K) by auto. rewrite (rollout_us_char _ _ _ _ K) by auto.
  cbn [st_q reset_state fst snd tl]. rewrite R1, R2. auto.
Qed.

(** The plain dynamics alone, executed with the returned actions, gives the trajectory. *)
Lemma gen_run_plain_exec g rg out : run_diffusion env (Some g) rg = Ok out ->
  forall step', kinematic step' next (fun _ => false) valid ->
  trajectory_states step' (reset_state q0) (o_Y0 out) = o_traj out.
Proof.
  intros E step' K'. injection E as <-.
  destruct (run_char _ _ _ _ K env q0 Hreset Hstep Hviz Hv0 g rg) as (us & E1 & E2 & _).
  rewrite E1, E2. rewrite (traj_char _ _ _ _ K') by auto. f_equal.
  clear E1 E2. assert (Hv := Hv0). revert Hv. generalize q0. induction us as [|u us IH]; intros q Hv; [reflexivity|].
  cbn [kas kqs]. 
  assert (Eq : kq next (fun _ => false) q (ka next bad q u) = kq next bad q u).
  { rewrite (kq_plain _ _ _ _ K q u Hv). unfold kq at 1. destruct (ka_box next bad q u).
    rewrite clip_act_id by auto. reflexivity. }
  rewrite Eq. f_equal. apply IH. apply (kq_valid _ _ _ _ K); auto.
Qed.

Lemma gen_run_reward g rg out : run_diffusion env (Some g) rg = Ok out ->
  o_rew out = Rmean (map2 (fun q a => st_rew (step (reset_state q) a)) (o_traj out) (o_Y0 out))
              + pe_term_w env * pe_terminal env (last (o_traj out) q0).
Proof.
  intros E. injection E as <-.
  destruct (run_char _ _ _ _ K env q0 Hreset Hstep Hviz Hv0 g rg) as (us & E1 & E2 & E3).
  rewrite E1, E2, E3. destruct (replay_applied _ _ _ _ K us q0 Hv0) as [R1 R2].
  f_equal.
  - rewrite krs_map2. rewrite R1. reflexivity.
  - f_equal. f_equal. unfold klast. symmetry. apply last_cons_default.
Qed.

Lemma gen_rollout_start terminal w st us : st_bak st = false -> valid (st_q st) ->
  snd (fst (rollout_us step st us)) = replay step st us /\
  snd (fst (rollout_us_with_terminal step terminal w st us)) = replay step st us /\
  fst (fst (rollout_us step st us)) = eval_us step st us.
Proof.
  intros Hb Hv. rewrite (rollout_us_char _ _ _ _ K), (rollout_char _ _ _ _ K), (replay_char _ _ _ _ K) by auto.
  split; [reflexivity|]. split; [reflexivity|]. cbn [fst snd]. unfold eval_us.
  destruct (scan_char _ _ _ _ K us st Hb Hv) as (-> & _ & _).
  rewrite <- (map_map fst fst). rewrite !map_fst_map2_pair; auto;
    rewrite ?map2_length, ?krs_length, ?kqs_length, ?kas_length; lia.
Qed.

Lemma fold_bak us : forall st, st_bak (fold_left step us st) = st_bak st.
Proof. induction us; intros; cbn [fold_left]; auto. rewrite IHus. apply (kin_bak _ _ _ _ K). Qed.
Lemma fold_valid us : forall st, st_bak st = false -> valid (st_q st) -> valid (st_q (fold_left step us st)).
Proof.
  induction us; intros st Hb Hv; cbn [fold_left]; auto. apply IHus.
  - rewrite (kin_bak _ _ _ _ K); auto.
  - rewrite (kin_q _ _ _ _ K) by auto. apply (kq_valid _ _ _ _ K); auto.
Qed.
End G.

Lemma kinematic_ext {Q} (step : State Q -> act -> State Q) next next' (bad bad' : Q -> bool) valid :
  (forall q a, next q a = next' q a) -> (forall q, bad q = bad' q) ->
  kinematic step next bad valid -> kinematic step next' bad' valid.
Proof.
  intros En Eb [H1 H2 H3 H4 H5 H6]. constructor; intros.
  - rewrite H1 by auto. rewrite Eb, !En. reflexivity.
  - rewrite H2 by auto. rewrite Eb, !En. reflexivity.
  - apply H3.
  - apply H4; auto.
  - rewrite <- En. apply H5; auto.
  - rewrite <- En. apply H6; auto.
Qed.

Lemma tt_unshielded_kin s proj guide viz : p_proj (ts_p s) = false -> p_guid (ts_p s) = false ->
  kinematic (tt_step_internal (tt_unshielded s) proj guide viz) (tt_plain (ts_p s)) (fun _ => false) (fun _ => True).
Proof.
  intros Hp Hg. eapply kinematic_ext; [| |apply (tt_kinematic (tt_unshielded s)); auto].
  - reflexivity.
  - reflexivity.
Qed.
Lemma bk_unshielded_kin s proj guide viz : p_proj (bs_p s) = false -> p_guid (bs_p s) = false ->
  kinematic (bk_step_internal (bk_unshielded s) proj guide viz) (bk_plain (bs_p s)) (fun _ => false) (fun _ => True).
Proof.
  intros Hp Hg. eapply kinematic_ext; [| |apply (bk_kinematic (bk_unshielded s)); auto].
  - reflexivity.
  - reflexivity.
Qed.
Lemma nt_unshielded_kin s guide viz : p_guid (ns_p s) = false -> length (ns_len s) = ns_N s ->
  kinematic (nt_step_core (nt_unshielded s) guide viz) (nt_plain s) (fun _ => false) (nt_valid s).
Proof.
  intros Hg HL. eapply kinematic_ext; [| |apply (nt_kinematic (nt_unshielded s)); auto].
  - reflexivity.
  - reflexivity.
Qed.

(** ** C01 *)
(** C01, tractor-trailer: every row of the returned trajectory is safe. *)
Lemma l_C01_tt_returned_trajectory_safe :
  forall (s : tt_self) (x0 : ttq) proj guide logpd rew_xref (g : cfg) (rg : prng) out,
  p_proj (ts_p s) = false -> p_guid (ts_p s) = false ->
  p_sh_coll (ts_p s) = true -> p_sh_hitch (ts_p s) = true ->
  tt_sized (ts_p s) ->
  tt_safe (ts_p s) (ts_circ s) (ts_rect s) x0 ->
  run_diffusion (tt_penv s x0 proj guide logpd rew_xref) (Some g) rg = Ok out ->
  Forall (tt_safe (ts_p s) (ts_circ s) (ts_rect s)) (o_traj out).
Proof.
  intros s x0 proj guide logpd rx g rg out Hp Hg Hc Hh Hs H0 E.
  eapply (gen_run_inv _ _ _ _ (tt_kinematic s proj guide false Hp Hg) (tt_penv s x0 proj guide logpd rx) x0); eauto; try reflexivity.
  - intros st a. apply tt_viz_same; auto.
  - intros q _ Hb. apply tt_not_bad_safe; auto.
Qed.

(** C01, tractor-trailer: every state visited while scoring any candidate plan is safe. *)
Lemma l_C01_tt_sampled_rollouts_safe :
  forall (s : tt_self) (x0 : ttq) proj guide logpd rew_xref (us : list act),
  p_proj (ts_p s) = false -> p_guid (ts_p s) = false ->
  p_sh_coll (ts_p s) = true -> p_sh_hitch (ts_p s) = true ->
  tt_sized (ts_p s) ->
  tt_safe (ts_p s) (ts_circ s) (ts_rect s) x0 ->
  Forall (tt_safe (ts_p s) (ts_circ s) (ts_rect s))
         (snd (fst (rollout_term (tt_penv s x0 proj guide logpd rew_xref) us))).
Proof.
  intros s x0 proj guide logpd rx us Hp Hg Hc Hh Hs H0.
  eapply (gen_rollout_inv _ _ _ _ (tt_kinematic s proj guide false Hp Hg) (tt_penv s x0 proj guide logpd rx) x0); eauto; try reflexivity.
  intros q _ Hb. apply tt_not_bad_safe; auto.
Qed.

(** C01, bicycle. *)
Lemma l_C01_bk_returned_trajectory_safe :
  forall (s : bk_self) (x0 : bkq) proj guide logpd rew_xref (g : cfg) (rg : prng) out,
  p_proj (bs_p s) = false -> p_guid (bs_p s) = false ->
  p_sh_coll (bs_p s) = true ->
  tractor_sized (bs_p s) ->
  bk_safe (bs_p s) (bs_circ s) (bs_rect s) x0 ->
  run_diffusion (bk_penv s x0 proj guide logpd rew_xref) (Some g) rg = Ok out ->
  Forall (bk_safe (bs_p s) (bs_circ s) (bs_rect s)) (o_traj out).
Proof.
  intros s x0 proj guide logpd rx g rg out Hp Hg Hc Hs H0 E.
  eapply (gen_run_inv _ _ _ _ (bk_kinematic s proj guide false Hp Hg) (bk_penv s x0 proj guide logpd rx) x0); eauto; try reflexivity.
  - intros st a. cbn. unfold bk_step. rewrite !bk_step_shield by auto. reflexivity.
  - intros q _ Hb. apply bk_not_bad_safe; auto.
Qed.
Lemma l_C01_bk_sampled_rollouts_safe :
  forall (s : bk_self) (x0 : bkq) proj guide logpd rew_xref (us : list act),
  p_proj (bs_p s) = false -> p_guid (bs_p s) = false ->
  p_sh_coll (bs_p s) = true ->
  tractor_sized (bs_p s) ->
  bk_safe (bs_p s) (bs_circ s) (bs_rect s) x0 ->
  Forall (bk_safe (bs_p s) (bs_circ s) (bs_rect s))
         (snd (fst (rollout_term (bk_penv s x0 proj guide logpd rew_xref) us))).
Proof.
  intros s x0 proj guide logpd rx us Hp Hg Hc Hs H0.
  eapply (gen_rollout_inv _ _ _ _ (bk_kinematic s proj guide false Hp Hg) (bk_penv s x0 proj guide logpd rx) x0); eauto; try reflexivity.
  intros q _ Hb. apply bk_not_bad_safe; auto.
Qed.

Lemma nt_viz_same s guide viz st a : p_guid (ns_p s) = false ->
  nt_step_core s guide viz st a = nt_step_core s guide false st a.
Proof. intros Hg. unfold nt_step_core, nt_step_with. rewrite Hg. reflexivity. Qed.

Lemma nt_run_ok s x0 guide logpd rx g rg out : nt_run s x0 guide logpd rx g rg = Ok out ->
  nt_valid s x0 /\ p_proj (ns_p s) = false /\ run_diffusion (nt_penv s x0 guide logpd rx) (Some g) rg = Ok out.
Proof.
  unfold nt_run. destruct (Nat.eqb_spec (length (n_ths x0)) (ns_N s)); cbn [negb]; [|discriminate].
  destruct (p_proj (ns_p s)); [discriminate|]. auto.
Qed.

(** C01, N trailers (any N >= 1). *)
Lemma l_C01_nt_returned_trajectory_safe :
  forall (s : nt_self) (x0 : ntq) guide logpd rew_xref (g : cfg) (rg : prng) out,
  p_guid (ns_p s) = false ->
  p_sh_coll (ns_p s) = true -> p_sh_hitch (ns_p s) = true ->
  nt_sized s -> (1 <= p_num_trailers (ns_p s))%nat ->
  nt_safe s x0 ->
  nt_run s x0 guide logpd rew_xref g rg = Ok out ->
  Forall (fun q => nt_safe s q /\ length (n_ths q) = p_num_trailers (ns_p s)) (o_traj out).
Proof.
  intros s x0 guide logpd rx g rg out Hg Hc Hh Hs HN H0 E.
  apply nt_run_ok in E as (Hv & Hp & E).
  assert (HL : length (ns_len s) = ns_N s) by apply Hs.
  eapply (gen_run_inv _ _ _ _ (nt_kinematic s guide false Hg HL) (nt_penv s x0 guide logpd rx) x0); eauto; try reflexivity.
  - intros st a. apply nt_viz_same; auto.
  - intros q Hq Hb. split; [apply nt_not_bad_safe; auto|exact Hq].
Qed.
Lemma l_C01_nt_sampled_rollouts_safe :
  forall (s : nt_self) (x0 : ntq) guide logpd rew_xref (us : list act),
  p_guid (ns_p s) = false ->
  p_sh_coll (ns_p s) = true -> p_sh_hitch (ns_p s) = true ->
  nt_sized s -> (1 <= p_num_trailers (ns_p s))%nat ->
  length (n_ths x0) = p_num_trailers (ns_p s) -> nt_safe s x0 ->
  Forall (fun q => nt_safe s q /\ length (n_ths q) = p_num_trailers (ns_p s))
         (snd (fst (rollout_term (nt_penv s x0 guide logpd rew_xref) us))).
Proof.
  intros s x0 guide logpd rx us Hg Hc Hh Hs HN Hv H0.
  assert (HL : length (ns_len s) = ns_N s) by apply Hs.
  eapply (gen_rollout_inv _ _ _ _ (nt_kinematic s guide false Hg HL) (nt_penv s x0 guide logpd rx) x0); eauto; try reflexivity.
  intros q Hq Hb. split; [apply nt_not_bad_safe; auto|exact Hq].
Qed.

(** ** C02 *)
(** C02: the collision flag alone keeps a clear vehicle clear. *)
Lemma l_C02_tt_collision_flag :
  forall s proj guide st a, p_proj (ts_p s) = false -> p_guid (ts_p s) = false -> tt_sized (ts_p s) ->
  p_sh_coll (ts_p s) = true ->
  tt_clear (ts_p s) (ts_circ s) (ts_rect s) (st_q st) ->
  tt_clear (ts_p s) (ts_circ s) (ts_rect s) (st_q (tt_step s proj guide st a)).
Proof.
  intros s proj guide st a Hp Hg Hs Hc H0. unfold tt_step. rewrite tt_step_shield by auto. cbn [st_q].
  destruct (tt_bad s _) eqn:E; auto. unfold tt_bad, enabled_bad in E. rewrite Hc in E. cbn [andb] in E.
  apply orb_false_iff in E as [E _]. apply tt_coll_false_clear; auto.
Qed.
(** C02: the hitch flag alone keeps the hitch angle within its limit. *)
Lemma l_C02_tt_hitch_flag :
  forall s proj guide st a, p_proj (ts_p s) = false -> p_guid (ts_p s) = false ->
  p_sh_hitch (ts_p s) = true ->
  tt_hitch_ok (ts_p s) (st_q st) -> tt_hitch_ok (ts_p s) (st_q (tt_step s proj guide st a)).
Proof.
  intros s proj guide st a Hp Hg Hc H0. unfold tt_step. rewrite tt_step_shield by auto. cbn [st_q].
  destruct (tt_bad s _) eqn:E; auto. unfold tt_bad, enabled_bad in E. rewrite Hc in E. cbn [andb] in E.
  apply orb_false_iff in E as [_ E]. apply tt_hitch_iff; auto.
Qed.
Lemma l_C02_nt_collision_flag :
  forall s guide st a, p_guid (ns_p s) = false -> nt_sized s ->
  length (n_ths (st_q st)) = p_num_trailers (ns_p s) ->
  p_sh_coll (ns_p s) = true ->
  nt_clear s (st_q st) -> nt_clear s (st_q (nt_step_core s guide false st a)).
Proof.
  intros s guide st a Hg Hs Hv Hc H0. assert (HL : length (ns_len s) = ns_N s) by apply Hs.
  rewrite nt_step_shield by auto. cbn [st_q].
  destruct (nt_bad s _) eqn:E; auto. unfold nt_bad, enabled_bad in E. rewrite Hc in E. cbn [andb] in E.
  apply orb_false_iff in E as [E _]. apply nt_coll_false_clear; auto. apply nt_plain_valid; auto.
Qed.
Lemma l_C02_nt_hitch_flag :
  forall s guide st a, p_guid (ns_p s) = false -> nt_sized s -> (1 <= p_num_trailers (ns_p s))%nat ->
  length (n_ths (st_q st)) = p_num_trailers (ns_p s) ->
  p_sh_hitch (ns_p s) = true ->
  nt_hitch_ok s (st_q st) -> nt_hitch_ok s (st_q (nt_step_core s guide false st a)).
Proof.
  intros s guide st a Hg Hs HN Hv Hc H0. assert (HL : length (ns_len s) = ns_N s) by apply Hs.
  rewrite nt_step_shield by auto. cbn [st_q].
  destruct (nt_bad s _) eqn:E; auto. unfold nt_bad, enabled_bad in E. rewrite Hc in E. cbn [andb] in E.
  apply orb_false_iff in E as [_ E]. apply nt_hitch_iff; auto. apply nt_plain_valid; auto.
Qed.
Lemma l_C02_bk_collision_flag :
  forall s proj guide st a, p_proj (bs_p s) = false -> p_guid (bs_p s) = false -> tractor_sized (bs_p s) ->
  p_sh_coll (bs_p s) = true ->
  bk_safe (bs_p s) (bs_circ s) (bs_rect s) (st_q st) ->
  bk_safe (bs_p s) (bs_circ s) (bs_rect s) (st_q (bk_step s proj guide st a)).
Proof.
  intros s proj guide st a Hp Hg Hs Hc H0. unfold bk_step. rewrite bk_step_shield by auto. cbn [st_q].
  destruct (bk_bad s _) eqn:E; auto. apply bk_not_bad_safe; auto.
Qed.
(** C02: with both flags off every command is executed as given (clipped), whatever it hits. *)
Lemma l_C02_tt_no_flag_no_protection :
  forall s proj guide st a, p_proj (ts_p s) = false -> p_guid (ts_p s) = false ->
  p_sh_coll (ts_p s) = false -> p_sh_hitch (ts_p s) = false -> st_bak st = false ->
  st_q (tt_step s proj guide st a) = tt_plain (ts_p s) (st_q st) (saturated a) /\
  st_app (tt_step s proj guide st a) = saturated a.
Proof. rewrite ?saturated_clip.
  intros s proj guide st a Hp Hg H1 H2 Hb. unfold tt_step. rewrite tt_step_shield by auto. rewrite Hb. cbn [st_q st_app].
  unfold tt_bad, enabled_bad. rewrite H1, H2. auto.
Qed.

(** ** C03 *)
(** C03: from any start, after any action sequence, the vehicle is exactly at the start pose or
    in a state satisfying both constraints; once safe it stays safe. *)
Lemma l_C03_tt_stays_or_safe :
  forall s x0 proj guide (us : list act),
  p_proj (ts_p s) = false -> p_guid (ts_p s) = false -> tt_sized (ts_p s) ->
  p_sh_coll (ts_p s) = true -> p_sh_hitch (ts_p s) = true ->
  Forall (fun q => q = x0 \/ tt_safe (ts_p s) (ts_circ s) (ts_rect s) q)
         (trajectory_states (tt_step s proj guide) (reset_state x0) us).
Proof.
  intros s x0 proj guide us Hp Hg Hs Hc Hh.
  pose proof (tt_kinematic s proj guide false Hp Hg) as K. unfold tt_step.
  rewrite (traj_char _ _ _ _ K) by auto. constructor; auto. apply Forall_forall.
  apply (kqs_inv _ _ _ _ K (fun q => q = x0 \/ _)); auto.
  intros q _ Hb. right. apply tt_not_bad_safe; auto.
Qed.
Lemma l_C03_tt_once_safe_always_safe :
  forall s proj guide st (us : list act),
  p_proj (ts_p s) = false -> p_guid (ts_p s) = false -> tt_sized (ts_p s) ->
  p_sh_coll (ts_p s) = true -> p_sh_hitch (ts_p s) = true ->
  tt_safe (ts_p s) (ts_circ s) (ts_rect s) (st_q st) ->
  tt_safe (ts_p s) (ts_circ s) (ts_rect s) (st_q (fold_left (tt_step s proj guide) us st)).
Proof.
  intros s proj guide st us Hp Hg Hs Hc Hh. revert st. induction us as [|u us IH]; intros st H; cbn [fold_left]; auto.
  apply IH. unfold tt_step. rewrite tt_step_shield by auto. cbn [st_q].
  destruct (tt_bad s _) eqn:E; auto. apply tt_not_bad_safe; auto.
Qed.
Lemma l_C03_nt_stays_or_safe :
  forall s x0 guide (us : list act),
  p_guid (ns_p s) = false -> nt_sized s -> (1 <= p_num_trailers (ns_p s))%nat ->
  length (n_ths x0) = p_num_trailers (ns_p s) ->
  p_sh_coll (ns_p s) = true -> p_sh_hitch (ns_p s) = true ->
  Forall (fun q => q = x0 \/ nt_safe s q)
         (trajectory_states (nt_step_core s guide false) (reset_state x0) us).
Proof.
  intros s x0 guide us Hg Hs HN Hv Hc Hh. assert (HL : length (ns_len s) = ns_N s) by apply Hs.
  pose proof (nt_kinematic s guide false Hg HL) as K.
  rewrite (traj_char _ _ _ _ K) by auto. constructor; auto. apply Forall_forall.
  apply (kqs_inv _ _ _ _ K (fun q => q = x0 \/ _)); auto.
  intros q Hq Hb. right. apply nt_not_bad_safe; auto.
Qed.
Lemma l_C03_bk_stays_or_safe :
  forall s x0 proj guide (us : list act),
  p_proj (bs_p s) = false -> p_guid (bs_p s) = false -> tractor_sized (bs_p s) ->
  p_sh_coll (bs_p s) = true ->
  Forall (fun q => q = x0 \/ bk_safe (bs_p s) (bs_circ s) (bs_rect s) q)
         (trajectory_states (bk_step s proj guide) (reset_state x0) us).
Proof.
  intros s x0 proj guide us Hp Hg Hs Hc.
  pose proof (bk_kinematic s proj guide false Hp Hg) as K. unfold bk_step.
  rewrite (traj_char _ _ _ _ K) by auto. constructor; auto. apply Forall_forall.
  apply (kqs_inv _ _ _ _ K (fun q => q = x0 \/ _)); auto.
  intros q _ Hb. right. apply bk_not_bad_safe; auto.
Qed.

(** ** C07 *)
(** C07: the returned rows follow from each other by the plain dynamics under the returned
    actions (any flag setting). *)
Lemma l_C07_tt_plan_is_feasible :
  forall (s : tt_self) (x0 : ttq) proj guide logpd rew_xref (g : cfg) (rg : prng) out,
  p_proj (ts_p s) = false -> p_guid (ts_p s) = false ->
  run_diffusion (tt_penv s x0 proj guide logpd rew_xref) (Some g) rg = Ok out ->
  length (o_Y0 out) = g_Hsample g /\ length (o_traj out) = S (g_Hsample g) /\ nth 0 (o_traj out) x0 = x0 /\
  (forall t, (t < g_Hsample g)%nat ->
     nth (S t) (o_traj out) x0 = tt_plain (ts_p s) (nth t (o_traj out) x0) (nth t (o_Y0 out) (0, 0))).
Proof.
  intros s x0 proj guide logpd rx g rg out Hp Hg E.
  eapply (gen_run_plain _ _ _ _ (tt_kinematic s proj guide false Hp Hg) (tt_penv s x0 proj guide logpd rx) x0); eauto; try reflexivity.
  intros st a. apply tt_viz_same; auto.
Qed.
(** C07: executing the returned actions again, with the same shield or with none, reproduces the
    returned states, and the shield applies exactly the returned actions. *)
Lemma l_C07_tt_reexecution :
  forall (s : tt_self) (x0 : ttq) proj guide logpd rew_xref (g : cfg) (rg : prng) out,
  p_proj (ts_p s) = false -> p_guid (ts_p s) = false ->
  run_diffusion (tt_penv s x0 proj guide logpd rew_xref) (Some g) rg = Ok out ->
  trajectory_states (tt_step s proj guide) (reset_state x0) (o_Y0 out) = o_traj out /\
  snd (rollout_us (tt_step s proj guide) (reset_state x0) (o_Y0 out)) = o_Y0 out /\
  trajectory_states (tt_step (tt_unshielded s) proj guide) (reset_state x0) (o_Y0 out) = o_traj out.
Proof.
  intros s x0 proj guide logpd rx g rg out Hp Hg E.
  pose proof (tt_kinematic s proj guide false Hp Hg) as K.
  assert (Hv : forall st a, pe_step_viz (tt_penv s x0 proj guide logpd rx) st a = tt_step_internal s proj guide false st a)
    by (intros st a; apply tt_viz_same; auto).
  destruct (gen_run_reexec _ _ _ _ K (tt_penv s x0 proj guide logpd rx) x0 eq_refl eq_refl Hv I g rg out E) as (H1 & _ & H3).
  split; [exact H1|]. split; [exact H3|].
  eapply (gen_run_plain_exec _ _ _ _ K (tt_penv s x0 proj guide logpd rx) x0 eq_refl eq_refl Hv I g rg out E).
  apply (tt_unshielded_kin s proj guide false Hp Hg).
Qed.
Lemma l_C07_bk_plan_is_feasible :
  forall (s : bk_self) (x0 : bkq) proj guide logpd rew_xref (g : cfg) (rg : prng) out,
  p_proj (bs_p s) = false -> p_guid (bs_p s) = false ->
  run_diffusion (bk_penv s x0 proj guide logpd rew_xref) (Some g) rg = Ok out ->
  length (o_Y0 out) = g_Hsample g /\ length (o_traj out) = S (g_Hsample g) /\ nth 0 (o_traj out) x0 = x0 /\
  (forall t, (t < g_Hsample g)%nat ->
     nth (S t) (o_traj out) x0 = bk_plain (bs_p s) (nth t (o_traj out) x0) (nth t (o_Y0 out) (0, 0))).
Proof.
  intros s x0 proj guide logpd rx g rg out Hp Hg E.
  eapply (gen_run_plain _ _ _ _ (bk_kinematic s proj guide false Hp Hg) (bk_penv s x0 proj guide logpd rx) x0); eauto; try reflexivity.
  intros st a. cbn. unfold bk_step. rewrite !bk_step_shield by auto. reflexivity.
Qed.
Lemma l_C07_bk_reexecution :
  forall (s : bk_self) (x0 : bkq) proj guide logpd rew_xref (g : cfg) (rg : prng) out,
  p_proj (bs_p s) = false -> p_guid (bs_p s) = false ->
  run_diffusion (bk_penv s x0 proj guide logpd rew_xref) (Some g) rg = Ok out ->
  trajectory_states (bk_step s proj guide) (reset_state x0) (o_Y0 out) = o_traj out /\
  snd (rollout_us (bk_step s proj guide) (reset_state x0) (o_Y0 out)) = o_Y0 out /\
  trajectory_states (bk_step (bk_unshielded s) proj guide) (reset_state x0) (o_Y0 out) = o_traj out.
Proof.
  intros s x0 proj guide logpd rx g rg out Hp Hg E.
  pose proof (bk_kinematic s proj guide false Hp Hg) as K.
  assert (Hv : forall st a, pe_step_viz (bk_penv s x0 proj guide logpd rx) st a = bk_step_internal s proj guide false st a).
  { intros st a. cbn. rewrite !bk_step_shield by auto. reflexivity. }
  destruct (gen_run_reexec _ _ _ _ K (bk_penv s x0 proj guide logpd rx) x0 eq_refl eq_refl Hv I g rg out E) as (H1 & _ & H3).
  split; [exact H1|]. split; [exact H3|].
  eapply (gen_run_plain_exec _ _ _ _ K (bk_penv s x0 proj guide logpd rx) x0 eq_refl eq_refl Hv I g rg out E).
  apply (bk_unshielded_kin s proj guide false Hp Hg).
Qed.
Lemma l_C07_nt_plan_is_feasible :
  forall (s : nt_self) (x0 : ntq) guide logpd rew_xref (g : cfg) (rg : prng) out,
  p_guid (ns_p s) = false -> length (ns_len s) = p_num_trailers (ns_p s) ->
  nt_run s x0 guide logpd rew_xref g rg = Ok out ->
  length (o_Y0 out) = g_Hsample g /\ length (o_traj out) = S (g_Hsample g) /\ nth 0 (o_traj out) x0 = x0 /\
  (forall t, (t < g_Hsample g)%nat ->
     nth (S t) (o_traj out) x0 = nt_plain s (nth t (o_traj out) x0) (nth t (o_Y0 out) (0, 0))).
Proof.
  intros s x0 guide logpd rx g rg out Hg HL E. apply nt_run_ok in E as (Hv & Hp & E).
  eapply (gen_run_plain _ _ _ _ (nt_kinematic s guide false Hg HL) (nt_penv s x0 guide logpd rx) x0); eauto; try reflexivity.
  intros st a. apply nt_viz_same; auto.
Qed.
Lemma l_C07_nt_reexecution :
  forall (s : nt_self) (x0 : ntq) guide logpd rew_xref (g : cfg) (rg : prng) out,
  p_guid (ns_p s) = false -> length (ns_len s) = p_num_trailers (ns_p s) ->
  nt_run s x0 guide logpd rew_xref g rg = Ok out ->
  trajectory_states (nt_step_core s guide false) (reset_state x0) (o_Y0 out) = o_traj out /\
  snd (rollout_us (nt_step_core s guide false) (reset_state x0) (o_Y0 out)) = o_Y0 out /\
  trajectory_states (nt_step_core (nt_unshielded s) guide false) (reset_state x0) (o_Y0 out) = o_traj out.
Proof.
  intros s x0 guide logpd rx g rg out Hg HL E. apply nt_run_ok in E as (Hv0 & Hp & E).
  pose proof (nt_kinematic s guide false Hg HL) as K.
  assert (Hv : forall st a, pe_step_viz (nt_penv s x0 guide logpd rx) st a = nt_step_core s guide false st a)
    by (intros st a; apply nt_viz_same; auto).
  destruct (gen_run_reexec _ _ _ _ K (nt_penv s x0 guide logpd rx) x0 eq_refl eq_refl Hv Hv0 g rg out E) as (H1 & _ & H3).
  split; [exact H1|]. split; [exact H3|].
  eapply (gen_run_plain_exec _ _ _ _ K (nt_penv s x0 guide logpd rx) x0 eq_refl eq_refl Hv Hv0 g rg out E).
  apply (nt_unshielded_kin s guide false Hg HL).
Qed.

(** ** C15 *)
(** C15: rew_final is the mean per-step reward along the returned trajectory plus the weighted
    terminal reward of its last state. *)
Lemma l_C15_tt_final_reward :
  forall (s : tt_self) (x0 : ttq) proj guide logpd rew_xref (g : cfg) (rg : prng) out,
  p_proj (ts_p s) = false -> p_guid (ts_p s) = false ->
  run_diffusion (tt_penv s x0 proj guide logpd rew_xref) (Some g) rg = Ok out ->
  o_rew out =
    mean (map (fun x => st_rew (tt_step s proj guide (reset_state (fst x)) (snd x))) (combine (o_traj out) (o_Y0 out)))
    + p_term_w (ts_p s) * tt_terminal s (last (o_traj out) x0).
Proof. rewrite ?mean_Rmean.
  intros s x0 proj guide logpd rx g rg out Hp Hg E. rewrite (map2_combine (fun q a => st_rew (tt_step s proj guide (reset_state q) a))).
  eapply (gen_run_reward _ _ _ _ (tt_kinematic s proj guide false Hp Hg) (tt_penv s x0 proj guide logpd rx) x0); eauto; try reflexivity.
  intros st a. apply tt_viz_same; auto.
Qed.
Lemma l_C15_bk_final_reward :
  forall (s : bk_self) (x0 : bkq) proj guide logpd rew_xref (g : cfg) (rg : prng) out,
  p_proj (bs_p s) = false -> p_guid (bs_p s) = false ->
  run_diffusion (bk_penv s x0 proj guide logpd rew_xref) (Some g) rg = Ok out ->
  o_rew out =
    mean (map (fun x => st_rew (bk_step s proj guide (reset_state (fst x)) (snd x))) (combine (o_traj out) (o_Y0 out)))
    + p_term_w (bs_p s) * bk_terminal s (last (o_traj out) x0).
Proof. rewrite ?mean_Rmean.
  intros s x0 proj guide logpd rx g rg out Hp Hg E. rewrite (map2_combine (fun q a => st_rew (bk_step s proj guide (reset_state q) a))).
  eapply (gen_run_reward _ _ _ _ (bk_kinematic s proj guide false Hp Hg) (bk_penv s x0 proj guide logpd rx) x0); eauto; try reflexivity.
  intros st a. cbn. rewrite !bk_step_shield by auto. reflexivity.
Qed.
Lemma l_C15_nt_final_reward :
  forall (s : nt_self) (x0 : ntq) guide logpd rew_xref (g : cfg) (rg : prng) out,
  p_guid (ns_p s) = false -> length (ns_len s) = p_num_trailers (ns_p s) ->
  nt_run s x0 guide logpd rew_xref g rg = Ok out ->
  o_rew out =
    mean (map (fun x => st_rew (nt_step_core s guide false (reset_state (fst x)) (snd x))) (combine (o_traj out) (o_Y0 out)))
    + p_term_w (ns_p s) * nt_terminal s (last (o_traj out) x0).
Proof. rewrite ?mean_Rmean.
  intros s x0 guide logpd rx g rg out Hg HL E. rewrite (map2_combine (fun q a => st_rew (nt_step_core s guide false (reset_state q) a))). apply nt_run_ok in E as (Hv & Hp & E).
  eapply (gen_run_reward _ _ _ _ (nt_kinematic s guide false Hg HL) (nt_penv s x0 guide logpd rx) x0); eauto; try reflexivity.
  intros st a. apply nt_viz_same; auto.
Qed.

(** ** C44 *)
(** C44: after any history the backup flag is still off and a command leading to a safe state is
    executed unchanged (up to clipping). *)
Lemma l_C44_tt_no_latch :
  forall s x0 proj guide (us : list act) (a : act),
  p_proj (ts_p s) = false -> p_guid (ts_p s) = false -> tt_sized (ts_p s) ->
  proper_obstacles (ts_circ s) (ts_rect s) ->
  let st := fold_left (tt_step s proj guide) us (reset_state x0) in
  st_bak st = false /\
  (tt_safe (ts_p s) (ts_circ s) (ts_rect s) (tt_plain (ts_p s) (st_q st) (saturated a)) ->
   st_q (tt_step s proj guide st a) = tt_plain (ts_p s) (st_q st) (saturated a) /\
   st_app (tt_step s proj guide st a) = saturated a).
Proof. rewrite ?saturated_clip.
  intros s x0 proj guide us a Hp Hg Hs Ho st.
  assert (Hb : st_bak st = false).
  { unfold st. rewrite (fold_bak _ _ _ _ (tt_kinematic s proj guide false Hp Hg)). reflexivity. }
  split; auto. intros [Hc Hh]. unfold tt_step. rewrite tt_step_shield by auto. rewrite Hb. cbn [where_ orb st_q st_app].
  assert (E : tt_bad s (tt_plain (ts_p s) (st_q st) (clip_act a)) = false).
  { unfold tt_bad, enabled_bad. rewrite tt_clear_coll_false by auto.
    unfold ts_hitch. rewrite (proj2 (tt_hitch_iff _ _)) by auto. rewrite !andb_false_r. reflexivity. }
  unfold where_. rewrite E. auto.
Qed.
Lemma l_C44_bk_no_latch :
  forall s x0 proj guide (us : list act) (a : act),
  p_proj (bs_p s) = false -> p_guid (bs_p s) = false -> tractor_sized (bs_p s) ->
  proper_obstacles (bs_circ s) (bs_rect s) ->
  let st := fold_left (bk_step s proj guide) us (reset_state x0) in
  st_bak st = false /\
  (bk_safe (bs_p s) (bs_circ s) (bs_rect s) (bk_plain (bs_p s) (st_q st) (saturated a)) ->
   st_q (bk_step s proj guide st a) = bk_plain (bs_p s) (st_q st) (saturated a) /\
   st_app (bk_step s proj guide st a) = saturated a).
Proof. rewrite ?saturated_clip.
  intros s x0 proj guide us a Hp Hg Hs Ho st.
  assert (Hb : st_bak st = false).
  { unfold st. rewrite (fold_bak _ _ _ _ (bk_kinematic s proj guide false Hp Hg)). reflexivity. }
  split; auto. intros Hc. unfold bk_step. rewrite bk_step_shield by auto. rewrite Hb. cbn [where_ orb st_q st_app].
  assert (E : bk_bad s (bk_plain (bs_p s) (st_q st) (clip_act a)) = false).
  { unfold bk_bad, enabled_bad. unfold bs_coll. rewrite bk_coll_bodies.
    rewrite clear_bodies_hit_false; auto. - rewrite andb_false_r. cbn. apply andb_false_r. - apply bk_bodies_sized; auto. }
  unfold where_. rewrite E. auto.
Qed.
Lemma l_C44_nt_no_latch :
  forall s x0 guide (us : list act) (a : act),
  p_guid (ns_p s) = false -> nt_sized s -> (1 <= p_num_trailers (ns_p s))%nat ->
  length (n_ths x0) = p_num_trailers (ns_p s) ->
  proper_obstacles (ns_circ s) (ns_rect s) ->
  let st := fold_left (nt_step_core s guide false) us (reset_state x0) in
  st_bak st = false /\
  (nt_safe s (nt_plain s (st_q st) (saturated a)) ->
   st_q (nt_step_core s guide false st a) = nt_plain s (st_q st) (saturated a) /\
   st_app (nt_step_core s guide false st a) = saturated a).
Proof. rewrite ?saturated_clip.
  intros s x0 guide us a Hg Hs HN Hv Ho st.
  assert (HL : length (ns_len s) = ns_N s) by apply Hs.
  pose proof (nt_kinematic s guide false Hg HL) as K.
  assert (Hb : st_bak st = false).
  { unfold st. rewrite (fold_bak _ _ _ _ K). reflexivity. }
  assert (Hvs : nt_valid s (st_q st)) by (apply (fold_valid _ _ _ _ K); auto).
  split; auto. intros [Hc Hh]. rewrite nt_step_shield by auto. rewrite Hb. cbn [where_ orb st_q st_app].
  pose proof (nt_plain_valid s (st_q st) (clip_act a) HL Hvs) as Hvn.
  assert (E : nt_bad s (nt_plain s (st_q st) (clip_act a)) = false).
  { unfold nt_bad, enabled_bad. rewrite nt_coll_bodies by auto.
    rewrite clear_bodies_hit_false; auto; [|apply nt_bodies_sized; auto].
    rewrite (proj2 (nt_hitch_iff _ _ Hvn HN)) by auto. rewrite !andb_false_r. reflexivity. }
  unfold where_. rewrite E. auto.
Qed.

(** ** C26 (kinematic robots) *)
(** C26: scoring starts from the given state; row t is the state after t+1 actions, row t of
    the rewards the reward of that step. *)
Lemma l_C26_tt_rollout_starts_at_state :
  forall s proj guide st (us : list act), p_proj (ts_p s) = false -> p_guid (ts_p s) = false ->
  st_bak st = false ->
  snd (fst (rollout_us (tt_step s proj guide) st us)) = replay (tt_step s proj guide) st us /\
  snd (fst (rollout_us_with_terminal (tt_step s proj guide) (tt_terminal s) (p_term_w (ts_p s)) st us))
    = replay (tt_step s proj guide) st us /\
  fst (fst (rollout_us (tt_step s proj guide) st us)) = eval_us (tt_step s proj guide) st us.
Proof.
  intros s proj guide st us Hp Hg Hb.
  exact (gen_rollout_start _ _ _ _ (tt_kinematic s proj guide false Hp Hg) _ _ st us Hb I).
Qed.
Lemma l_C26_bk_rollout_starts_at_state :
  forall s proj guide st (us : list act), p_proj (bs_p s) = false -> p_guid (bs_p s) = false ->
  st_bak st = false ->
  snd (fst (rollout_us (bk_step s proj guide) st us)) = replay (bk_step s proj guide) st us /\
  snd (fst (rollout_us_with_terminal (bk_step s proj guide) (bk_terminal s) (p_term_w (bs_p s)) st us))
    = replay (bk_step s proj guide) st us /\
  fst (fst (rollout_us (bk_step s proj guide) st us)) = eval_us (bk_step s proj guide) st us.
Proof.
  intros s proj guide st us Hp Hg Hb.
  exact (gen_rollout_start _ _ _ _ (bk_kinematic s proj guide false Hp Hg) _ _ st us Hb I).
Qed.
Lemma l_C26_nt_rollout_starts_at_state :
  forall s guide st (us : list act), p_guid (ns_p s) = false ->
  length (ns_len s) = p_num_trailers (ns_p s) -> length (n_ths (st_q st)) = p_num_trailers (ns_p s) ->
  st_bak st = false ->
  snd (fst (rollout_us (nt_step_core s guide false) st us)) = replay (nt_step_core s guide false) st us /\
  snd (fst (rollout_us_with_terminal (nt_step_core s guide false) (nt_terminal s) (p_term_w (ns_p s)) st us))
    = replay (nt_step_core s guide false) st us /\
  fst (fst (rollout_us (nt_step_core s guide false) st us)) = eval_us (nt_step_core s guide false) st us.
Proof.
  intros s guide st us Hg HL Hv Hb.
  exact (gen_rollout_start _ _ _ _ (nt_kinematic s guide false Hg HL) _ _ st us Hb Hv).
Qed.

(** ** Non-vacuity: concrete vehicles and maps meeting the hypotheses above *)
Definition ex_circ : list circle := [mkCircle 0 10 1].
Definition ex_rect : list rectobs := [mkRect 20 0 4 4 0].
Definition ex_tt : tt_self := mkTTSelf default_params ex_circ ex_rect (mkTT 0 0 PI PI).
Definition ex_bk : bk_self := mkBKSelf default_params ex_circ ex_rect (mkBK 0 0 PI).
Definition two_trailers (p : params) : params := {|
  p_dt := p_dt p; p_H := p_H p; p_num_trailers := 2; p_motion := p_motion p;
  p_coll_pen := p_coll_pen p; p_sh_coll := p_sh_coll p; p_hitch_pen := p_hitch_pen p; p_sh_hitch := p_sh_hitch p;
  p_proj := p_proj p; p_guid := p_guid p; p_rew_thr := p_rew_thr p; p_ref_thr := p_ref_thr p;
  p_max_w := p_max_w p; p_hitch_w := p_hitch_w p; p_ref_pos_w := p_ref_pos_w p;
  p_ref_th1_w := p_ref_th1_w p; p_ref_th2_w := p_ref_th2_w p;
  p_l1 := p_l1 p; p_l2 := p_l2 p; p_lh := p_lh p; p_lf1 := p_lf1 p; p_lr := p_lr p; p_lf2 := p_lf2 p; p_lr2 := p_lr2 p;
  p_trac_w := p_trac_w p; p_trail_w := p_trail_w p; p_vmax := p_vmax p; p_dmax := p_dmax p;
  p_theta_max := p_theta_max p; p_phi_max := p_phi_max p; p_d_thr := p_d_thr p; p_k_switch := p_k_switch p;
  p_steer_w := p_steer_w p; p_pref_w := p_pref_w p; p_head_w := p_head_w p; p_term_thr := p_term_thr p; p_term_w := p_term_w p |}.
Definition ex_ntp : params := two_trailers default_params.
Definition ex_nt : nt_self := mkNTSelf ex_ntp (nt_default_lengths ex_ntp) (nt_default_front ex_ntp) (nt_default_rear ex_ntp)
   ex_circ ex_rect (mkNT 0 0 PI [PI; PI]).

Lemma ex_clear_h0 g : rg_ang g = 0 -> snd (rg_org g) = 0 -> fst (rg_org g) + rg_front g < 18 -> rg_half g < 9 ->
  (forall c, In c ex_circ -> clear_of_circle g c) /\ (forall o, In o ex_rect -> clear_of_rect g o).
Proof.
  intros Ea Eo Hf Hh. split.
  - intros c [<-|[]] P (a & b & Ha & Hb & _ & ->). cbn [c_r c_x c_y].
    rewrite Ea. unfold dist, dist2, at_frame. rewrite cos_0, sin_0, Eo. cbn [fst snd].
    apply Rlt_le_trans with (sqrt ((0 + a * 0 + b * 1 - 10) * (0 + a * 0 + b * 1 - 10))).
    + replace 1 with (sqrt (1 * 1)) at 1 by (rewrite Rmult_1_l; apply sqrt_1). apply sqrt_lt_1; nra.
    + apply sqrt_le_1_alt. pose proof (sq_nonneg (fst (rg_org g) + a * 1 - b * 0 - 0)). lra.
  - intros o [<-|[]] P [(a & b & Ha & Hb & E1) (a' & b' & Ha' & Hb' & E2)].
    rewrite E1 in E2. unfold at_frame, obstacle_body in *. cbn [rg_org rg_ang rg_back rg_front rg_half fst snd r_x r_y r_w r_h r_ang] in *.
    rewrite Ea, cos_0, sin_0 in E2. injection E2 as E3 E4. lra.
Qed.
Lemma hitch_ok_same phi a : 0 <= phi -> hitch_ok phi a a.
Proof. intros H. exists 0%Z. replace (a - a + 0 * (2 * PI)) with 0 by ring. rewrite Rabs_R0. auto. Qed.
Lemma default_phi_pos : 0 <= p_phi_max default_params.
Proof. cbn. unfold phi_max_const. pose proof PI_RGT_0. lra. Qed.

Lemma x_C01_tt_hypotheses_example :
  p_proj (ts_p ex_tt) = false /\ p_guid (ts_p ex_tt) = false /\ p_sh_coll (ts_p ex_tt) = true /\
  p_sh_hitch (ts_p ex_tt) = true /\ tt_sized (ts_p ex_tt) /\ proper_obstacles (ts_circ ex_tt) (ts_rect ex_tt) /\
  tt_safe (ts_p ex_tt) (ts_circ ex_tt) (ts_rect ex_tt) (mkTT 0 0 0 0).
Proof.
  repeat (split; [reflexivity|]). split; [|split; [|split]].
  - unfold tt_sized, tractor_sized, ex_tt, default_params; cbn. lra.
  - split; [intros c [<-|[]]; cbn; lra|intros o [<-|[]]; cbn; lra].
  - split.
    + intros g c [<-|[<-|[]]] Hc; apply ex_clear_h0; auto; unfold ex_tt, default_params; cbn; rewrite ?sin_0, ?cos_0; lra.
    + intros g c [<-|[<-|[]]] Hc; apply ex_clear_h0; auto; unfold ex_tt, default_params; cbn; rewrite ?sin_0, ?cos_0; lra.
  - apply hitch_ok_same. apply default_phi_pos.
Qed.
Lemma x_C01_bk_hypotheses_example :
  p_proj (bs_p ex_bk) = false /\ p_guid (bs_p ex_bk) = false /\ p_sh_coll (bs_p ex_bk) = true /\
  tractor_sized (bs_p ex_bk) /\ bk_safe (bs_p ex_bk) (bs_circ ex_bk) (bs_rect ex_bk) (mkBK 0 0 0).
Proof.
  repeat (split; [reflexivity|]). split.
  - unfold tractor_sized, ex_bk, default_params; cbn. lra.
  - split.
    + intros g c [<-|[]] Hc; apply ex_clear_h0; auto; unfold ex_bk, default_params; cbn; rewrite ?sin_0, ?cos_0; lra.
    + intros g c [<-|[]] Hc; apply ex_clear_h0; auto; unfold ex_bk, default_params; cbn; rewrite ?sin_0, ?cos_0; lra.
Qed.
Lemma x_C01_nt_hypotheses_example :
  p_guid (ns_p ex_nt) = false /\ p_sh_coll (ns_p ex_nt) = true /\ p_sh_hitch (ns_p ex_nt) = true /\
  nt_sized ex_nt /\ p_num_trailers (ns_p ex_nt) = 2%nat /\ nt_safe ex_nt (mkNT 0 0 0 [0; 0]) /\
  length (n_ths (mkNT 0 0 0 [0; 0])) = p_num_trailers (ns_p ex_nt).
Proof.
  repeat (split; [reflexivity|]). split; [|split; [reflexivity|split; [|reflexivity]]].
  - unfold nt_sized, tractor_sized, ex_nt, ex_ntp, default_params; cbn. repeat split; try lra.
    intros [|[|i]] Hi; try lia; cbn; lra.
  - split.
    + assert (H : forall g, In g (nt_bodies ex_nt (mkNT 0 0 0 [0; 0])) ->
        (forall c, In c ex_circ -> clear_of_circle g c) /\ (forall o, In o ex_rect -> clear_of_rect g o)).
      { intros g [<-|[<-|[<-|[]]]]; apply ex_clear_h0; unfold ex_nt, ex_ntp, default_params; cbn; rewrite ?sin_0, ?cos_0; lra. }
      split; intros; apply H; auto.
    + cbn. repeat split; auto; apply hitch_ok_same; apply default_phi_pos.
Qed.
