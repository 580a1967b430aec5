(** * ProofsCacheInst: the JIT cache for each robot class (C38). *)
From Coq Require Import String Lia Reals Lra Classical.
From Verif Require Import Base BaseFacts Params Geom TT2d Bicycle NTrailer Acc Rollout Instances Demo EnvModel Setup Stats ProofsDemo ProofsStats Planner Cache CacheInst SpecCache ProofsCache.
Local Open Scope string_scope.
Local Open Scope list_scope.
Open Scope R_scope.

(** run_diffusion on a given object with its own demonstration. *)
Lemma tt_planned proj guide s x0 g rg :
  planned (tt_methods proj guide) (s, x0) g rg =
  (if g_demo g then
     match tt_demo s x0 "horizontal" 4 (g_motion g) with
     | Err e => Err e
     | Ok x => run_diffusion (tt_penv s x0 (proj s) (guide s) (tt_logpd s x) (tt_rew_xref s x)) (Some g) rg
     end
   else run_diffusion (tt_penv s x0 (proj s) (guide s) (fun _ _ => 0) 0) (Some g) rg).
Proof. unfold planned. destruct (g_demo g); [|reflexivity]. cbn [tt_methods m_gen fst snd]. destruct (tt_demo s x0 "horizontal" 4 (g_motion g)); reflexivity. Qed.
Lemma bk_planned proj guide s x0 g rg :
  planned (bk_methods proj guide) (s, x0) g rg =
  (if g_demo g then
     match bk_demo s x0 "horizontal" 4 (g_motion g) with
     | Err e => Err e
     | Ok x => run_diffusion (bk_penv s x0 (proj s) (guide s) (bk_logpd s x) (bk_rew_xref s x)) (Some g) rg
     end
   else run_diffusion (bk_penv s x0 (proj s) (guide s) (fun _ _ => 0) 0) (Some g) rg).
Proof. unfold planned. destruct (g_demo g); [|reflexivity]. cbn [bk_methods m_gen fst snd]. destruct (bk_demo s x0 "horizontal" 4 (g_motion g)); reflexivity. Qed.
Lemma nt_planned guide s x0 g rg :
  planned (nt_methods guide) (s, x0) g rg =
  (if g_demo g then
     match nt_demo s x0 "horizontal" 4 (g_motion g) with
     | Err e => Err e
     | Ok x => run_diffusion (nt_penv s x0 (guide s) (nt_logpd s x) (nt_rew_xref s x)) (Some g) rg
     end
   else run_diffusion (nt_penv s x0 (guide s) (fun _ _ => 0) 0) (Some g) rg).
Proof. unfold planned. destruct (g_demo g); [|reflexivity]. cbn [nt_methods m_gen fst snd]. destruct (nt_demo s x0 "horizontal" 4 (g_motion g)); reflexivity. Qed.
Lemma acc_planned proj guide s x0 g rg :
  planned (acc_methods proj guide) (s, x0) g rg =
  (if g_demo g then
     match acc_demo s x0 "horizontal" 4 (g_motion g) with
     | Err e => Err e
     | Ok x => run_diffusion (acc_penv s x0 (proj s) (guide s) (acc_logpd s x) (tt_rew_xref (as_t s) x)) (Some g) rg
     end
   else run_diffusion (acc_penv s x0 (proj s) (guide s) (fun _ _ => 0) 0) (Some g) rg).
Proof. unfold planned. destruct (g_demo g); [|reflexivity]. cbn [acc_methods m_gen fst snd]. destruct (acc_demo s x0 "horizontal" 4 (g_motion g)); reflexivity. Qed.

(** C38 for TractorTrailer2d: a fresh object after a clear is planned with its own attributes, start
    pose and demonstration, whatever happened before. *)
Lemma l_C38_tt_fresh_env_after_clear : forall proj guide (b : obj (tt_self * ttq) (list refrow)) (h1 h2 : list op)
  (c : string) (s s' : tt_self) (x0 x0' : ttq) (g : cfg) (rg : prng),
  let cls := fun _ : string => tt_methods proj guide in
  let o := w_objs (execs cls (start b) h1) in
  cleared (h1 ++ New c (s, x0) :: h2) = true -> Forall (leaves_alone o) h2 -> changed o h2 (s, x0) = (s', x0') ->
  returned (snd (run cls (execs cls (start b) (h1 ++ New c (s, x0) :: h2)) o g rg)) =
  (if g_demo g then
     match tt_demo s' x0' "horizontal" 4 (g_motion g) with
     | Err e => Err e
     | Ok x => run_diffusion (tt_penv s' x0' (proj s') (guide s') (tt_logpd s' x) (tt_rew_xref s' x)) (Some g) rg
     end
   else run_diffusion (tt_penv s' x0' (proj s') (guide s') (fun _ _ => 0) 0) (Some g) rg).
Proof.
  intros proj guide b h1 h2 c s s' x0 x0' g rg cls o Hc Hl Hd. rewrite <- tt_planned, <- Hd.
  exact (l_C38_fresh_env_after_clear _ _ _ cls b h1 h2 c (s, x0) g rg Hc Hl).
Qed.
(** C38 for KinematicBicycle2d. *)
Lemma l_C38_bk_fresh_env_after_clear : forall proj guide (b : obj (bk_self * bkq) (list refrow)) (h1 h2 : list op)
  (c : string) (s s' : bk_self) (x0 x0' : bkq) (g : cfg) (rg : prng),
  let cls := fun _ : string => bk_methods proj guide in
  let o := w_objs (execs cls (start b) h1) in
  cleared (h1 ++ New c (s, x0) :: h2) = true -> Forall (leaves_alone o) h2 -> changed o h2 (s, x0) = (s', x0') ->
  returned (snd (run cls (execs cls (start b) (h1 ++ New c (s, x0) :: h2)) o g rg)) =
  (if g_demo g then
     match bk_demo s' x0' "horizontal" 4 (g_motion g) with
     | Err e => Err e
     | Ok x => run_diffusion (bk_penv s' x0' (proj s') (guide s') (bk_logpd s' x) (bk_rew_xref s' x)) (Some g) rg
     end
   else run_diffusion (bk_penv s' x0' (proj s') (guide s') (fun _ _ => 0) 0) (Some g) rg).
Proof.
  intros proj guide b h1 h2 c s s' x0 x0' g rg cls o Hc Hl Hd. rewrite <- bk_planned, <- Hd.
  exact (l_C38_fresh_env_after_clear _ _ _ cls b h1 h2 c (s, x0) g rg Hc Hl).
Qed.
(** C38 for NTrailer2d. *)
Lemma l_C38_nt_fresh_env_after_clear : forall guide (b : obj (nt_self * ntq) (list refrow)) (h1 h2 : list op)
  (c : string) (s s' : nt_self) (x0 x0' : ntq) (g : cfg) (rg : prng),
  let cls := fun _ : string => nt_methods guide in
  let o := w_objs (execs cls (start b) h1) in
  cleared (h1 ++ New c (s, x0) :: h2) = true -> Forall (leaves_alone o) h2 -> changed o h2 (s, x0) = (s', x0') ->
  returned (snd (run cls (execs cls (start b) (h1 ++ New c (s, x0) :: h2)) o g rg)) =
  (if g_demo g then
     match nt_demo s' x0' "horizontal" 4 (g_motion g) with
     | Err e => Err e
     | Ok x => run_diffusion (nt_penv s' x0' (guide s') (nt_logpd s' x) (nt_rew_xref s' x)) (Some g) rg
     end
   else run_diffusion (nt_penv s' x0' (guide s') (fun _ _ => 0) 0) (Some g) rg).
Proof.
  intros guide b h1 h2 c s s' x0 x0' g rg cls o Hc Hl Hd. rewrite <- nt_planned, <- Hd.
  exact (l_C38_fresh_env_after_clear _ _ _ cls b h1 h2 c (s, x0) g rg Hc Hl).
Qed.
(** C38 for AccTractorTrailer2d. *)
Lemma l_C38_acc_fresh_env_after_clear : forall proj guide (b : obj (acc_self * accq) (list refrow)) (h1 h2 : list op)
  (c : string) (s s' : acc_self) (x0 x0' : accq) (g : cfg) (rg : prng),
  let cls := fun _ : string => acc_methods proj guide in
  let o := w_objs (execs cls (start b) h1) in
  cleared (h1 ++ New c (s, x0) :: h2) = true -> Forall (leaves_alone o) h2 -> changed o h2 (s, x0) = (s', x0') ->
  returned (snd (run cls (execs cls (start b) (h1 ++ New c (s, x0) :: h2)) o g rg)) =
  (if g_demo g then
     match acc_demo s' x0' "horizontal" 4 (g_motion g) with
     | Err e => Err e
     | Ok x => run_diffusion (acc_penv s' x0' (proj s') (guide s') (acc_logpd s' x) (tt_rew_xref (as_t s') x)) (Some g) rg
     end
   else run_diffusion (acc_penv s' x0' (proj s') (guide s') (fun _ _ => 0) 0) (Some g) rg).
Proof.
  intros proj guide b h1 h2 c s s' x0 x0' g rg cls o Hc Hl Hd. rewrite <- acc_planned, <- Hd.
  exact (l_C38_fresh_env_after_clear _ _ _ cls b h1 h2 c (s, x0) g rg Hc Hl).
Qed.

(** C38: consecutive TractorTrailer2d trials that share all attributes but the start pose need no
    cache clear. *)
Lemma l_C38_tt_trials_without_clearing : forall proj guide (b : obj (tt_self * ttq) (list refrow)) (h : list op)
  (c : string) (s : tt_self) (ts : list (ptrial (tt_self * ttq))),
  let cls := fun _ : string => tt_methods proj guide in
  cleared h = true ->
  (forall t, In t ts -> fst (final_data t) = s /\ g_demo (tl_cfg t) = false) ->
  (forall t1 t2, In t1 ts -> In t2 ts -> same_schedule (tl_cfg t1) (tl_cfg t2)) ->
  run_trials cls c (execs cls (start b) h) ts =
  map (fun t => run_diffusion (tt_penv s (snd (final_data t)) (proj s) (guide s) (fun _ _ => 0) 0) (Some (tl_cfg t)) (tl_rng t)) ts.
Proof.
  intros proj guide b h c s ts cls Hc Ht Hs. unfold cls.
  rewrite (l_C38_trials_without_clearing _ _ _ (fun _ => tt_methods proj guide) b h c ts Hc).
  - apply map_ext_in. intros t Hi. destruct (Ht t Hi) as [E Hd]. destruct (final_data t) as [s' x0]. cbn [fst snd] in *. subst s'.
    rewrite tt_planned, Hd. reflexivity.
  - intros t1 t2 H1 H2. split; [|apply Hs; assumption]. destruct (Ht t1 H1) as [E1 _], (Ht t2 H2) as [E2 _].
    unfold same_but_start. cbn [tt_methods m_reward m_terminal m_step m_term_w m_steer_w m_dmax]. rewrite E1, E2. repeat split.
  - intros t Hi. apply Ht, Hi.
Qed.
(** C38: the same for consecutive KinematicBicycle2d trials. *)
Lemma l_C38_bk_trials_without_clearing : forall proj guide (b : obj (bk_self * bkq) (list refrow)) (h : list op)
  (c : string) (s : bk_self) (ts : list (ptrial (bk_self * bkq))),
  let cls := fun _ : string => bk_methods proj guide in
  cleared h = true ->
  (forall t, In t ts -> fst (final_data t) = s /\ g_demo (tl_cfg t) = false) ->
  (forall t1 t2, In t1 ts -> In t2 ts -> same_schedule (tl_cfg t1) (tl_cfg t2)) ->
  run_trials cls c (execs cls (start b) h) ts =
  map (fun t => run_diffusion (bk_penv s (snd (final_data t)) (proj s) (guide s) (fun _ _ => 0) 0) (Some (tl_cfg t)) (tl_rng t)) ts.
Proof.
  intros proj guide b h c s ts cls Hc Ht Hs. unfold cls.
  rewrite (l_C38_trials_without_clearing _ _ _ (fun _ => bk_methods proj guide) b h c ts Hc).
  - apply map_ext_in. intros t Hi. destruct (Ht t Hi) as [E Hd]. destruct (final_data t) as [s' x0]. cbn [fst snd] in *. subst s'.
    rewrite bk_planned, Hd. reflexivity.
  - intros t1 t2 H1 H2. split; [|apply Hs; assumption]. destruct (Ht t1 H1) as [E1 _], (Ht t2 H2) as [E2 _].
    unfold same_but_start. cbn [bk_methods m_reward m_terminal m_step m_term_w m_steer_w m_dmax]. rewrite E1, E2. repeat split.
  - intros t Hi. apply Ht, Hi.
Qed.
(** C38: the same for consecutive NTrailer2d trials. *)
Lemma l_C38_nt_trials_without_clearing : forall guide (b : obj (nt_self * ntq) (list refrow)) (h : list op)
  (c : string) (s : nt_self) (ts : list (ptrial (nt_self * ntq))),
  let cls := fun _ : string => nt_methods guide in
  cleared h = true ->
  (forall t, In t ts -> fst (final_data t) = s /\ g_demo (tl_cfg t) = false) ->
  (forall t1 t2, In t1 ts -> In t2 ts -> same_schedule (tl_cfg t1) (tl_cfg t2)) ->
  run_trials cls c (execs cls (start b) h) ts =
  map (fun t => run_diffusion (nt_penv s (snd (final_data t)) (guide s) (fun _ _ => 0) 0) (Some (tl_cfg t)) (tl_rng t)) ts.
Proof.
  intros guide b h c s ts cls Hc Ht Hs. unfold cls.
  rewrite (l_C38_trials_without_clearing _ _ _ (fun _ => nt_methods guide) b h c ts Hc).
  - apply map_ext_in. intros t Hi. destruct (Ht t Hi) as [E Hd]. destruct (final_data t) as [s' x0]. cbn [fst snd] in *. subst s'.
    rewrite nt_planned, Hd. reflexivity.
  - intros t1 t2 H1 H2. split; [|apply Hs; assumption]. destruct (Ht t1 H1) as [E1 _], (Ht t2 H2) as [E2 _].
    unfold same_but_start. cbn [nt_methods m_reward m_terminal m_step m_term_w m_steer_w m_dmax]. rewrite E1, E2. repeat split.
  - intros t Hi. apply Ht, Hi.
Qed.
(** C38: the same for consecutive AccTractorTrailer2d trials. *)
Lemma l_C38_acc_trials_without_clearing : forall proj guide (b : obj (acc_self * accq) (list refrow)) (h : list op)
  (c : string) (s : acc_self) (ts : list (ptrial (acc_self * accq))),
  let cls := fun _ : string => acc_methods proj guide in
  cleared h = true ->
  (forall t, In t ts -> fst (final_data t) = s /\ g_demo (tl_cfg t) = false) ->
  (forall t1 t2, In t1 ts -> In t2 ts -> same_schedule (tl_cfg t1) (tl_cfg t2)) ->
  run_trials cls c (execs cls (start b) h) ts =
  map (fun t => run_diffusion (acc_penv s (snd (final_data t)) (proj s) (guide s) (fun _ _ => 0) 0) (Some (tl_cfg t)) (tl_rng t)) ts.
Proof.
  intros proj guide b h c s ts cls Hc Ht Hs. unfold cls.
  rewrite (l_C38_trials_without_clearing _ _ _ (fun _ => acc_methods proj guide) b h c ts Hc).
  - apply map_ext_in. intros t Hi. destruct (Ht t Hi) as [E Hd]. destruct (final_data t) as [s' x0]. cbn [fst snd] in *. subst s'.
    rewrite acc_planned, Hd. reflexivity.
  - intros t1 t2 H1 H2. split; [|apply Hs; assumption]. destruct (Ht t1 H1) as [E1 _], (Ht t2 H2) as [E2 _].
    unfold same_but_start. cbn [acc_methods m_reward m_terminal m_step m_term_w m_steer_w m_dmax]. rewrite E1, E2. repeat split.
  - intros t Hi. apply Ht, Hi.
Qed.

(** C38, refutation of the same claim for a reused object: a TractorTrailer2d that was planned once is
    planned again after its start was set to x0', its goal to xg', its obstacles to circ', rect' and after a
    clear_jit_cache(): the result is the old one, for the old start, goal and obstacles. *)
Lemma l_C38_tt_reused_object_refuted : forall proj guide (b : obj (tt_self * ttq) (list refrow))
  (p : params) (circ circ' : list circle) (rect rect' : list rectobs) (xg xg' x0 x0' : ttq) (g : cfg) (rg : prng),
  let cls := fun _ : string => tt_methods proj guide in
  let s := mkTTSelf p circ rect xg in let s' := mkTTSelf p circ' rect' xg' in
  let h := [New "TractorTrailer2d" (s, x0); Run 0 g rg; Change 0 (fun _ => (s', x0')); Clear] in
  g_demo g = false -> g_guid g = false ->
  returned (snd (run cls (execs cls (start b) h) 0 g rg)) = run_diffusion (tt_penv s x0 (proj s) (guide s) (fun _ _ => 0) 0) (Some g) rg /\
  ob_data (w_obj (execs cls (start b) h) 0%nat) = (s', x0').
Proof.
  intros proj guide b p circ circ' rect rect' xg xg' x0 x0' g rg cls s s' h Hd Hg.
  set (h1 := [New (D := tt_self * ttq) "TractorTrailer2d" (s, x0)]). set (h2 := [Change (D := tt_self * ttq) 0 (fun _ => (s', x0')); Clear]).
  assert (Ed : ob_data (w_obj (execs cls (start b) h) 0%nat) = (s', x0')).
  { set (w1 := execs cls (start b) h1).
    assert (L1 : (0 < w_objs w1)%nat) by (cbn; lia).
    assert (W1 : wf w1) by apply wf_execs, wf_start.
    destruct (wf_run cls w1 0%nat g rg L1 W1) as [_ O]. change (execs cls (start b) h) with (execs cls (exec cls w1 (Run 0 g rg)) h2).
    clearbody w1. cbn [exec]. rewrite (proj2 (Nat.ltb_lt _ _) L1). cbn [h2 execs fold_left exec]. rewrite O, (proj2 (Nat.ltb_lt _ _) L1).
    cbn [clear_cache put_obj w_obj]. rewrite upd_same. reflexivity. }
  split; [|exact Ed].
  assert (E1 : ob_data (w_obj (execs cls (start b) h1) 0%nat) = (s, x0)) by reflexivity.
  pose proof (l_C38_used_object_ignores_changes _ _ _ cls b h1 h2 0%nat g rg) as U. cbv zeta in U.
  change (h1 ++ Run 0 g rg :: h2) with h in U. rewrite Ed, E1 in U.
  rewrite U by (auto; cbn; lia).
  pose proof (l_C38_tt_fresh_env_after_clear proj guide b [] [] "TractorTrailer2d" s s x0 x0 g rg eq_refl (Forall_nil _) eq_refl) as F.
  cbv zeta in F. rewrite Hd in F. exact F.
Qed.


(** Trial environments made from the same configuration differ in the start pose only. *)
Lemma trial_env_fixed ea t1 t2 r1 r2 s1 s2 x1 x2 :
  create_trial_environment ea t1 = Ok r1 -> create_trial_environment ea t2 = Ok r2 ->
  tt_of_robot r1 = Some (s1, x1) -> tt_of_robot r2 = Some (s2, x2) -> s1 = s2.
Proof.
  unfold create_trial_environment. intros H1 H2.
  destruct (env_init 32 32 "parking" (Some stat_parking)) as [e|]; [|discriminate].
  destruct (get_env (with_env ea e)) as [r|]; [|discriminate].
  unfold set_init_pos in H1, H2.
  set (r0 := put_env_rects (put_rects r stat_rects) stat_rects) in *. clearbody r0.
  destruct (base_init_pos (rb_p r0) (rb_env r0) (trial_init t1)) as [v1|]; [|discriminate].
  destruct (base_init_pos (rb_p r0) (rb_env r0) (trial_init t2)) as [v2|]; [|discriminate].
  injection H1 as <-. injection H2 as <-. unfold tt_of_robot, set_goal_pos. cbn [fst set_xg set_x0 rb_kind rb_x0 rb_xg rb_p rb_circ rb_rect].
  intros T1 T2. destruct (rb_kind r0); try discriminate.
  destruct (vec4 v1) as [q1|]; [|discriminate]. destruct (vec4 v2) as [q2|]; [|discriminate].
  match type of T1 with match vec4 ?v with _ => _ end = _ => destruct (vec4 v) end; [congruence | discriminate].
Qed.

Lemma cached_trials_sound proj guide ea c rg s0 x00 (ts : list trial) : g_demo c = false ->
  let cls := fun _ : string => tt_methods proj guide in
  (forall t r s x, create_trial_environment ea t = Ok r -> tt_of_robot r = Some (s, x) -> s = s0) ->
  forall w, wf w -> cache_ok cls "TractorTrailer2d" (s0, x00) c w ->
  tt_cached_trials cls w ea c rg ts = each (tt_trial ea (fun _ => proj s0) (fun _ => guide s0) (fun _ _ _ => 0) (fun _ => 0) c rg) ts.
Proof.
  intros Hd cls Hs. induction ts as [|t ts IH]; intros w Hw J; [reflexivity|]. cbn [tt_cached_trials each]. unfold tt_trial at 1.
  destruct (create_trial_environment ea t) as [r|] eqn:Er; [|reflexivity].
  destruct (tt_of_robot r) as [[s x0]|] eqn:Et; [|reflexivity]. pose proof (Hs _ _ _ _ Er Et) as ->.
  set (pt := mkPTrial (s0, x0) [] c rg).
  destruct (trial_setup cls "TractorTrailer2d" (s0, x00) c w pt Hw J) as (W1 & L1 & U1 & C1 & E1 & J1 & _).
  change (execs cls w (trial_ops "TractorTrailer2d" (w_objs w) pt)) with (exec cls w (New "TractorTrailer2d" (s0, x0))) in *.
  set (w1 := exec cls w (New "TractorTrailer2d" (s0, x0))) in *. change (final_data pt) with (s0, x0) in E1.
  destruct (run_sound cls "TractorTrailer2d" (s0, x00) c w1 (w_objs w) c rg W1 L1 C1 U1) as [A B]; auto.
  { rewrite E1. repeat split. } { repeat split. } { congruence. }
  pose proof (wf_run cls w1 (w_objs w) c rg L1 W1) as [W2 _].
  rewrite E1 in A. unfold cls in A at 2. rewrite tt_planned, Hd in A. rewrite <- A.
  destruct (run cls w1 (w_objs w) c rg) as [w2 [out|er]]; cbn [snd fst returned] in *; [|reflexivity].
  destruct (tt_evaluate s0 4 (o_traj (out_res out))) as [v|]; [|reflexivity].
  rewrite (IH w2 W2 B). reflexivity.
Qed.

(** C38 for the statistics: without demonstrations, the trial loop of tests/stat_mbd.py, which never
    clears the cache, gives exactly the verdicts (or the exception) of the loop in which every trial is
    planned without any cache, for every list of trials, provided nothing was planned in the process
    since the last clear. s is the attribute record all trial environments share. *)
Lemma l_C38_tt_statistics_without_clearing : forall proj guide (b : obj (tt_self * ttq) (list refrow)) (h : list op)
  (ea : env_args) (c : cfg) (rg : prng),
  let cls := fun _ : string => tt_methods proj guide in
  cleared h = true -> g_demo c = false ->
  exists s : tt_self,
    (forall t r s' x0, create_trial_environment ea t = Ok r -> tt_of_robot r = Some (s', x0) -> s' = s) /\
    forall ts : list trial,
    tt_cached_trials cls (execs cls (start b) h) ea c rg ts =
    each (tt_trial ea (fun _ => proj s) (fun _ => guide s) (fun _ _ _ => 0) (fun _ => 0) c rg) ts.
Proof.
  intros proj guide b h ea c rg cls Hc Hd.
  assert (E : exists s0 : tt_self, forall t r s x, create_trial_environment ea t = Ok r -> tt_of_robot r = Some (s, x) -> s = s0).
  { destruct (classic (exists t r s x, create_trial_environment ea t = Ok r /\ tt_of_robot r = Some (s, x))) as [(t & r & s & x & H1 & H2)|N].
    - exists s. intros t' r' s' x' H1' H2'. exact (trial_env_fixed _ _ _ _ _ _ _ _ _ H1' H1 H2' H2).
    - exists (mkTTSelf default_params [] [] (mkTT 0 0 0 0)). intros t r s x H1 H2. exfalso. apply N. exists t, r, s, x. auto. }
  destruct E as [s Hs]. exists s. split; [exact Hs|]. intros ts.
  apply (cached_trials_sound proj guide ea c rg s (mkTT 0 0 0 0) ts Hd Hs).
  - apply wf_execs, wf_start.
  - apply cache_ok_empty, empty_cleared, Hc.
Qed.

(** The hypotheses of the C38 theorems are met: a history in which object 0 was planned with another
    scene and configuration, the cache was cleared, a second object was made, and its start changed while
    the old object was used again. *)
Definition ex_s (p : params) (x : R) : tt_self := mkTTSelf p [] [] (mkTT x 0 0 0).
Definition ex_old (g : cfg) (rg : prng) : list (op (D := tt_self * ttq)) :=
  [New "TractorTrailer2d" (ex_s default_params 7, mkTT 1 1 0 0); Reset 0; Run 0 g rg; Clear].
Definition ex_later : list (op (D := tt_self * ttq)) :=
  [Change 1 (fun d => (fst d, mkTT 2 3 0 0)); Reset 0; Step 0 false].
Lemma x_C38_history_with_other_runs : forall proj guide b g rg,
  let cls := fun _ : string => tt_methods proj guide in
  let o := w_objs (execs cls (start b) (ex_old g rg)) in
  o = 1%nat /\
  cleared (ex_old g rg ++ New "TractorTrailer2d" (ex_s default_params 9, mkTT 0 0 0 0) :: ex_later) = true /\
  Forall (leaves_alone o) ex_later /\
  changed o ex_later (ex_s default_params 9, mkTT 0 0 0 0) = (ex_s default_params 9, mkTT 2 3 0 0).
Proof.
  intros proj guide b g rg cls o.
  assert (E : o = 1%nat).
  { unfold o, ex_old. set (w1 := execs cls (start b) [New "TractorTrailer2d" (ex_s default_params 7, mkTT 1 1 0 0); Reset 0]).
    assert (L : (0 < w_objs w1)%nat) by (cbn; lia). assert (W : wf w1) by apply wf_execs, wf_start.
    assert (O1 : w_objs w1 = 1%nat) by reflexivity.
    destruct (wf_run cls w1 0%nat g rg L W) as [_ H].
    change (execs cls (start b) _) with (clear_cache (exec cls w1 (Run 0 g rg))). clearbody w1. cbn [exec clear_cache w_objs].
    rewrite (proj2 (Nat.ltb_lt _ _) L), H. exact O1. }
  rewrite E. split; [reflexivity|]. split; [reflexivity|]. split; [|reflexivity].
  unfold ex_later. repeat constructor; cbn; lia.
Qed.
(** Trials with different starts, and a demonstration that exists. *)
Lemma x_C38_trials_with_different_starts : forall proj guide rg,
  let g := mkCfg 0 1000 50 100 (1/100) (1/10000) (1/100) false 0 true in
  let t1 := mkPTrial (ex_s default_params 9, mkTT 0 0 0 0) [] g rg in
  let t2 := mkPTrial (ex_s default_params 9, mkTT 1 0 0 0) [fun d => (fst d, mkTT 4 2 0 0)] g rg in
  (forall t, In t [t1; t2] -> fst (final_data t) = ex_s default_params 9 /\ g_demo (tl_cfg t) = false) /\
  (forall a c, In a [t1; t2] -> In c [t1; t2] -> same_schedule (tl_cfg a) (tl_cfg c)) /\
  same_but_start (tt_methods proj guide) (final_data t1) (final_data t2) /\
  snd (final_data t1) <> snd (final_data t2).
Proof.
  intros proj guide rg g t1 t2. split; [|split; [|split]].
  - intros t [<-|[<-|[]]]; split; reflexivity.
  - intros a c [<-|[<-|[]]] [<-|[<-|[]]]; repeat split.
  - repeat split.
  - intro H. injection H as H1 H2. lra.
Qed.
Lemma x_C38_demonstration_exists : exists s x0 x, forall proj guide, m_gen (tt_methods proj guide) (s, x0) 0 = Ok x.
Proof.
  destruct l_C35_three_rows_miss_the_goal_refuted as (s & x0 & _ & rows & H & _). exists s, x0, rows. intros proj guide. exact H.
Qed.
Lemma x_C38_trial_environment_exists : exists ea t r s x0, create_trial_environment ea t = Ok r /\ tt_of_robot r = Some (s, x0).
Proof.
  exists (default_env_args "tt2d" "parking" 1), (mkTrial 0 3 0 0 0).
  destruct (create_trial_ok (default_env_args "tt2d" "parking" 1) (mkTrial 0 3 0 0 0)) as (r & gx & gy & E & K1 & K2 & K3 & K4 & K5 & K6 & _);
    [reflexivity|discriminate|reflexivity|].
  exists r, (mkTTSelf (rb_p r) (rb_circ r) (rb_rect r) (mkTT gx gy (- PI / 2) (- PI / 2))).
  exists (match vec4 (start_vec (g_l1 (default_env_args "tt2d" "parking" 1)) (mkTrial 0 3 0 0 0)) with Some q => q | None => mkTT 0 0 0 0 end).
  split; [exact E|]. unfold tt_of_robot. rewrite K1, K5, K6. reflexivity.
Qed.

(** C38: which start pose a planner run uses. An N-trailer object is always planned from the start pose it has then; an object
    of the other three classes is planned from there only the first time, afterwards from the start pose of its first run,
    whatever was set on it and however often the cache was cleared. *)
Lemma l_C38_nt_planned_from_current_start : forall guide (b : obj (nt_self * ntq) (list refrow)) h o g rg out,
  let w := execs (fun _ : string => nt_methods guide) (start b) h in
  snd (run (fun _ : string => nt_methods guide) w o g rg) = Ok out ->
  hd_error (o_traj (out_res out)) = Some (snd (ob_data (w_obj w o))).
Proof.
  intros guide b h o g rg out w H.
  exact (l_C38_untraced_reset_follows_start _ _ _ (fun _ : string => nt_methods guide) b h o g rg out eq_refl H).
Qed.
Lemma l_C38_tt_planned_from_first_start : forall proj guide (b : obj (tt_self * ttq) (list refrow)) h1 h2 o g1 g2 rg1 rg2 out1 out2,
  let cls := fun _ : string => tt_methods proj guide in
  (o < w_objs (execs cls (start b) h1))%nat ->
  snd (run cls (execs cls (start b) h1) o g1 rg1) = Ok out1 ->
  snd (run cls (execs cls (start b) (h1 ++ Run o g1 rg1 :: h2)) o g2 rg2) = Ok out2 ->
  hd_error (o_traj (out_res out2)) = hd_error (o_traj (out_res out1)).
Proof. intros proj guide b h1 h2 o g1 g2 rg1 rg2 out1 out2 cls L. apply (l_C38_start_fixed_by_first_run _ _ _ cls b h1 h2 o g1 g2 rg1 rg2 out1 out2 L eq_refl). Qed.
Lemma l_C38_bk_planned_from_first_start : forall proj guide (b : obj (bk_self * bkq) (list refrow)) h1 h2 o g1 g2 rg1 rg2 out1 out2,
  let cls := fun _ : string => bk_methods proj guide in
  (o < w_objs (execs cls (start b) h1))%nat ->
  snd (run cls (execs cls (start b) h1) o g1 rg1) = Ok out1 ->
  snd (run cls (execs cls (start b) (h1 ++ Run o g1 rg1 :: h2)) o g2 rg2) = Ok out2 ->
  hd_error (o_traj (out_res out2)) = hd_error (o_traj (out_res out1)).
Proof. intros proj guide b h1 h2 o g1 g2 rg1 rg2 out1 out2 cls L. apply (l_C38_start_fixed_by_first_run _ _ _ cls b h1 h2 o g1 g2 rg1 rg2 out1 out2 L eq_refl). Qed.
Lemma l_C38_acc_planned_from_first_start : forall proj guide (b : obj (acc_self * accq) (list refrow)) h1 h2 o g1 g2 rg1 rg2 out1 out2,
  let cls := fun _ : string => acc_methods proj guide in
  (o < w_objs (execs cls (start b) h1))%nat ->
  snd (run cls (execs cls (start b) h1) o g1 rg1) = Ok out1 ->
  snd (run cls (execs cls (start b) (h1 ++ Run o g1 rg1 :: h2)) o g2 rg2) = Ok out2 ->
  hd_error (o_traj (out_res out2)) = hd_error (o_traj (out_res out1)).
Proof. intros proj guide b h1 h2 o g1 g2 rg1 rg2 out1 out2 cls L. apply (l_C38_start_fixed_by_first_run _ _ _ cls b h1 h2 o g1 g2 rg1 rg2 out1 out2 L eq_refl). Qed.
