(** * ProofsReach: obstacles out of reach, their order and their repetition do not matter (C78). *)
From Verif Require Import Base BaseFacts Params Geom TT2d Bicycle NTrailer Acc SpecGeom SpecBodies SpecDyn SpecReach
  Rollout Planner Instances ProofsGeom ProofsBodies ProofsKin ProofsRobots ProofsSafety ProofsSim ProofsStep ProofsStrict ProofsFrame ProofsPlanner ProofsAcc ProofsStats.
Open Scope R_scope.

(** ** Planning with two environments that agree on the states a run can reach *)
Section Agree.
Context {Q : Type}.
Variables (e e' : penv Q) (N : nat) (Rk : nat -> State Q -> Prop).
Record agree : Prop := mkAgree {
  ag_reset : pe_reset e' = pe_reset e;
  ag_0 : Rk 0 (pe_reset e);
  ag_step : forall k st a, (k <= N)%nat -> Rk k st -> pe_step e' st a = pe_step e st a /\ Rk (S k) (pe_step e st a);
  ag_viz : forall k st a, (k <= N)%nat -> Rk k st -> pe_step_viz e' st a = pe_step_viz e st a /\ Rk (S k) (pe_step_viz e st a);
  ag_term : forall q, pe_terminal e' q = pe_terminal e q;
  ag_tw : pe_term_w e' = pe_term_w e;
  ag_sw : pe_steer_w e' = pe_steer_w e;
  ag_dm : pe_dmax e' = pe_dmax e;
  ag_logpd : forall qs m, pe_logpd e' qs m = pe_logpd e qs m;
  ag_xref : pe_rew_xref e' = pe_rew_xref e
}.
Hypothesis A : agree.
Definition step_agree (f f' : State Q -> act -> State Q) : Prop :=
  forall k st a, (k <= N)%nat -> Rk k st -> f' st a = f st a /\ Rk (S k) (f st a).
Lemma scan_agree f f' : step_agree f f' -> forall us k st, Rk k st -> (k + length us <= S N)%nat ->
  scan_us f' st us = scan_us f st us.
Proof.
  intros Hf us. induction us as [|u us IH]; intros k st Hk HL; cbn [scan_us]; [reflexivity|]. cbn [length] in HL.
  destruct (Hf k st u ltac:(lia) Hk) as [E1 E2]. rewrite E1. rewrite (IH (S k)); [reflexivity|exact E2|lia].
Qed.
Lemma replay_agree f f' : step_agree f f' -> forall us k st, Rk k st -> (k + length us <= S N)%nat ->
  replay f' st us = replay f st us.
Proof.
  intros Hf us. induction us as [|u us IH]; intros k st Hk HL; cbn [replay]; [reflexivity|]. cbn [length] in HL.
  destruct (Hf k st u ltac:(lia) Hk) as [E1 E2]. rewrite E1. rewrite (IH (S k)); [reflexivity|exact E2|lia].
Qed.
Lemma rollout_term_agree us : (length us <= N)%nat -> rollout_term e' us = rollout_term e us.
Proof.
  intros HL. unfold rollout_term, rollout_us_with_terminal. rewrite (ag_reset A).
  destruct (ag_step A 0 (pe_reset e) (0, 0) ltac:(lia) (ag_0 A)) as [E1 E2]. rewrite E1.
  rewrite (scan_agree _ _ (ag_step A) us 1 _ E2 ltac:(lia)).
  destruct (scan_us (pe_step e) _ us) as [fin outs]. rewrite (ag_tw A), (ag_term A). reflexivity.
Qed.
Lemma rollout_acts_length us : length (snd (rollout_term e us)) = length us.
Proof.
  unfold rollout_term, rollout_us_with_terminal. generalize (pe_step e (pe_reset e) (0, 0)) as st.
  assert (H : forall st, length (snd (scan_us (pe_step e) st us)) = length us).
  { induction us as [|u us IH]; intros st; cbn [scan_us length]; [reflexivity|].
    specialize (IH (pe_step e st u)). destruct (scan_us (pe_step e) (pe_step e st u) us) as [fin outs]. cbn [snd length] in *. lia. }
  intros st. specialize (H st). destruct (scan_us (pe_step e) st us) as [fin outs]. cbn [snd] in *.
  rewrite map_length. exact H.
Qed.
Lemma evaluate_agree g Y0s : (forall Y, In Y Y0s -> (length Y <= N)%nat) ->
  evaluate_samples e' g Y0s = evaluate_samples e g Y0s.
Proof.
  intros HL. unfold evaluate_samples.
  replace (map (rollout_term e') Y0s) with (map (rollout_term e) Y0s)
    by (apply map_ext_in; intros Y HY; symmetry; apply rollout_term_agree; auto).
  rewrite (ag_sw A), (ag_dm A). set (o := map (rollout_term e) Y0s). clearbody o.
  unfold log_scores. rewrite (ag_xref A).
  replace (map (fun qs => pe_logpd e' qs (g_motion g)) (map (fun o => snd (fst o)) o))
    with (map (fun qs => pe_logpd e qs (g_motion g)) (map (fun o => snd (fst o)) o))
    by (apply map_ext; intros; symmetry; apply (ag_logpd A)).
  reflexivity.
Qed.
Lemma map2_len {B C D : Type} (f : B -> C -> D) l l' : (length (map2 f l l') <= length l)%nat.
Proof. revert l'. induction l as [|x l IH]; intros [|y l']; cbn [map2 length]; try lia. specialize (IH l'). lia. Qed.
Lemma sample_len m c Y eps : (length (make_sample m c Y eps) <= length eps)%nat /\ (length (make_sample m c Y eps) <= length Y)%nat.
Proof.
  unfold make_sample. revert eps. induction Y as [|y Y IH]; intros [|z eps]; cbn [map2 length]; try lia.
  specialize (IH eps). lia.
Qed.
Lemma reverse_agree g i eps Y : (length Y <= N)%nat ->
  reverse_once e' g i eps Y = reverse_once e g i eps Y /\ (length (fst (reverse_once e g i eps Y)) <= length Y)%nat.
Proof.
  intros HL. unfold reverse_once, reverse_once_with. cbv zeta.
  set (Y0s := map (make_sample _ _ _) eps).
  assert (HS : forall Z, In Z Y0s -> (length Z <= N)%nat).
  { intros Z HZ. apply in_map_iff in HZ. destruct HZ as (z & <- & _).
    pose proof (sample_len (g_motion g) (nth i (sigmas g) 0 / sqrt (nth (i - 1) (alphas_bar g) 0)) Y z). lia. }
  rewrite (evaluate_agree g Y0s HS). destruct (evaluate_samples e g Y0s) as [[eff rews] ws]. split; [reflexivity|].
  cbn [fst]. rewrite map_length. eapply Nat.le_trans; [apply map2_len|]. rewrite map_length. lia.
Qed.
Lemma loop_agree g rg is : forall k Y, (length Y <= N)%nat ->
  reverse_loop e' g rg is k Y = reverse_loop e g rg is k Y /\ (length (snd (reverse_loop e g rg is k Y)) <= length Y)%nat.
Proof.
  induction is as [|i is IH]; intros k Y HL; cbn [reverse_loop snd]; [split; [reflexivity|lia]|].
  destruct (prng_split rg k) as [k' ks].
  destruct (reverse_agree g i (prng_normal rg ks (g_Nsample g) (g_Hsample g)) Y HL) as [E1 E2].
  rewrite E1. destruct (reverse_once e g i _ Y) as [Y' r]. cbn [fst] in E2.
  destruct (IH k' Y' ltac:(lia)) as [E3 E4]. rewrite E3. destruct (reverse_loop e g rg is k' Y') as [Ys Yf].
  cbn [snd] in *. split; [reflexivity|lia].
Qed.
Lemma run_agree g rg : (g_Hsample g <= N)%nat -> run_diffusion_core e' g rg = run_diffusion_core e g rg.
Proof.
  intros HN. unfold run_diffusion_core.
  assert (HY : (length (YN g) <= N)%nat) by (unfold YN; rewrite repeat_length; exact HN).
  destruct (loop_agree g rg (diffusion_indices g) (fst (prng_split rg (fst (prng_split rg (prng_key rg (g_seed g)))))) (YN g) HY) as [E1 E2].
  rewrite E1. destruct (reverse_loop e g rg _ _ _) as [Ybars Yfin]. cbn [snd] in E2.
  rewrite (rollout_term_agree Yfin) by lia.
  assert (HY0 : length (snd (rollout_term e Yfin)) = length Yfin) by apply rollout_acts_length.
  set (Y0 := snd (rollout_term e Yfin)) in *. rewrite (rollout_term_agree Y0) by lia.
  f_equal. unfold trajectory_states. rewrite (ag_reset A). f_equal.
  destruct (g_guid g).
  - apply (replay_agree _ _ (ag_viz A)) with (k := 0%nat); [apply (ag_0 A)|lia].
  - apply (replay_agree _ _ (ag_step A)) with (k := 0%nat); [apply (ag_0 A)|lia].
Qed.
End Agree.

(** ** Bodies and obstacles *)
Lemma reach_clear D P S rho gs circ circ' rect rect' :
  reach D P gs -> dist P S + D <= rho -> same_near S rho circ circ' rect rect' ->
  clear_bodies gs circ rect -> clear_bodies gs circ' rect'.
Proof.
  intros HD HP [HC HR] [KC KR]. split.
  - intros g c Hg Hc X HX. destruct (Rlt_le_dec (c_r c) (dist X (c_x c, c_y c))) as [|Hle]; [assumption|exfalso].
    assert (HXs : solid g X) by (destruct HX as (a & b & ? & ? & _ & ?); exists a, b; auto).
    assert (Hin : In c circ).
    { apply (HC c); [|exact Hc]. exists X. split; [exact Hle|].
      pose proof (dist_triangle X P S). pose proof (HD g X Hg HXs). lra. }
    pose proof (KC g c Hg Hin X HX). lra.
  - intros g o Hg Ho X [HX HXo].
    assert (Hin : In o rect).
    { apply (HR o); [|exact Ho]. exists X. split; [exact HXo|].
      pose proof (dist_triangle X P S). pose proof (HD g X Hg HX). lra. }
    exact (KR g o Hg Hin X (conj HX HXo)).
Qed.
Lemma same_near_sym P rho c c' r r' : same_near P rho c c' r r' -> same_near P rho c' c r' r.
Proof. intros [H1 H2]. split; intros; symmetry; auto. Qed.
Lemma bool_iff (b b' : bool) : (b = false <-> b' = false) -> b = b'.
Proof. intros [H1 H2]. destruct b, b'; try reflexivity; auto using eq_sym. Qed.

Lemma coll_bools gs circ circ' rect rect' D P S rho :
  (forall g, In g gs -> sized g) -> proper_obstacles circ rect -> proper_obstacles circ' rect' ->
  reach D P gs -> dist P S + D <= rho -> same_near S rho circ circ' rect rect' ->
  bodies_hit gs circ' rect' = bodies_hit gs circ rect.
Proof.
  intros Hs O O' HD HP HN. apply bool_iff. rewrite !bodies_hit_iff by assumption. split; intros H.
  - apply (reach_clear D P S rho gs circ' circ rect' rect); auto. apply same_near_sym; exact HN.
  - apply (reach_clear D P S rho gs circ circ' rect rect'); auto.
Qed.

(** ** One step moves the reference point by at most vmax*dt *)
Lemma forward_step X Y th c v dt : 0 <= v -> 0 <= dt -> -1 <= c <= 1 ->
  dist (X + dt * (c * v * cos th), Y + dt * (c * v * sin th)) (X, Y) <= v * dt.
Proof.
  intros Hv Hd Hc. pose proof (dist_heading X Y th (dt * (c * v))) as E.
  replace (X + dt * (c * v * cos th)) with (X + dt * (c * v) * cos th) by ring.
  replace (Y + dt * (c * v * sin th)) with (Y + dt * (c * v) * sin th) by ring.
  rewrite E. rewrite Rabs_mult, Rabs_mult, (Rabs_pos_eq dt Hd), (Rabs_pos_eq v Hv).
  assert (Rabs c <= 1) by (apply Rabs_le; lra). pose proof (Rabs_pos c).
  rewrite (Rmult_comm v dt). apply Rmult_le_compat_l; [exact Hd|].
  rewrite <- (Rmult_1_l v) at 2. apply Rmult_le_compat_r; assumption.
Qed.
Lemma act_box b a : ProofsStep.in_box (where_ b (0, 0) (clip_act a)).
Proof. apply in_box_where; [apply in_box_zero|apply in_box_clip]. Qed.
Lemma travel_S p n : travel p (S n) = travel p n + p_vmax p * p_dt p.
Proof. unfold travel. rewrite S_INR. ring. Qed.
Lemma travel_mono p k n : 0 <= p_vmax p -> 0 <= p_dt p -> (k <= n)%nat -> travel p k <= travel p n.
Proof.
  intros. unfold travel. apply Rmult_le_compat_r; [apply Rmult_le_pos; assumption|]. apply le_INR; assumption.
Qed.
Lemma travel_0 p : travel p 0 = 0.
Proof. unfold travel. cbn [INR]. ring. Qed.

(** ** Tractor-trailer *)
Definition tt_xy (q : ttq) : point := (t_px q, t_py q).
Definition bk_xy (q : bkq) : point := (b_px q, b_py q).
Definition nt_xy (q : ntq) : point := (n_px q, n_py q).
Lemma tt_plain_near p q a : 0 <= p_vmax p -> 0 <= p_dt p -> ProofsStep.in_box a ->
  dist (tt_xy (tt_plain p q a)) (tt_xy q) <= p_vmax p * p_dt p.
Proof. intros Hv Hd [Ha _]. unfold tt_xy, tt_plain; cbn [t_px t_py]. apply forward_step; assumption. Qed.
Lemma bk_plain_near p q a : 0 <= p_vmax p -> 0 <= p_dt p -> ProofsStep.in_box a ->
  dist (bk_xy (bk_plain p q a)) (bk_xy q) <= p_vmax p * p_dt p.
Proof. intros Hv Hd [Ha _]. unfold bk_xy, bk_plain; cbn [b_px b_py]. apply forward_step; assumption. Qed.
Lemma nt_plain_near s q a : 0 <= p_vmax (ns_p s) -> 0 <= p_dt (ns_p s) -> ProofsStep.in_box a ->
  dist (nt_xy (nt_plain s q a)) (nt_xy q) <= p_vmax (ns_p s) * p_dt (ns_p s).
Proof. intros Hv Hd [Ha _]. unfold nt_xy, nt_plain; cbn [n_px n_py]. apply forward_step; assumption. Qed.

(** C78: a tractor-trailer plan depends only on the obstacles the vehicle can reach. Two scenes with
    the same vehicle, start and goal whose obstacle lists agree on the obstacles near the start give
    the same result - controls, reward, trajectory and all diffusion iterates - whatever lies
    farther away, in whatever order the obstacles are listed and however often one is repeated. *)
Lemma l_C78_tt_only_reachable_obstacles :
  forall (s : tt_self) circ' rect' (x0 : ttq) proj guide logpd rx (g : cfg) (rg : prng) D,
  p_proj (ts_p s) = false -> p_guid (ts_p s) = false -> 0 <= p_vmax (ts_p s) -> 0 <= p_dt (ts_p s) ->
  tt_sized (ts_p s) -> proper_obstacles (ts_circ s) (ts_rect s) -> proper_obstacles circ' rect' ->
  (forall q, reach D (t_px q, t_py q) (tt_bodies (ts_p s) q)) ->
  same_near (t_px x0, t_py x0) (travel (ts_p s) (S (g_Hsample g)) + D) (ts_circ s) circ' (ts_rect s) rect' ->
  run_diffusion (tt_penv (mkTTSelf (ts_p s) circ' rect' (ts_xg s)) x0 proj guide logpd rx) (Some g) rg
  = run_diffusion (tt_penv s x0 proj guide logpd rx) (Some g) rg.
Proof.
  intros s circ' rect' x0 proj guide logpd rx g rg D Hp Hg Hv Hd Hs O O' HD HN.
  unfold run_diffusion. f_equal. set (s' := mkTTSelf _ _ _ _).
  assert (ST : forall viz k st a, (k <= g_Hsample g)%nat ->
    (st_bak st = false /\ dist (tt_xy (st_q st)) (tt_xy x0) <= travel (ts_p s) k) ->
    tt_step_internal s' proj guide viz st a = tt_step_internal s proj guide viz st a /\
    (st_bak (tt_step_internal s proj guide viz st a) = false /\
     dist (tt_xy (st_q (tt_step_internal s proj guide viz st a))) (tt_xy x0) <= travel (ts_p s) (S k))).
  { intros viz k st a Hk [Hb Hq].
    rewrite (tt_step_shield s' proj guide viz st a Hp Hg), (tt_step_shield s proj guide viz st a Hp Hg).
    cbv zeta. rewrite Hb. cbn [orb]. change (ts_p s') with (ts_p s).
    pose proof (act_box false a) as Ba.
    set (qp := tt_plain (ts_p s) (st_q st) _) in *.
    assert (Dq : dist (tt_xy qp) (tt_xy (st_q st)) <= p_vmax (ts_p s) * p_dt (ts_p s)) by (apply tt_plain_near; assumption).
    assert (Dp : dist (tt_xy qp) (tt_xy x0) <= travel (ts_p s) (S k)).
    { rewrite travel_S. pose proof (dist_triangle (tt_xy qp) (tt_xy (st_q st)) (tt_xy x0)). lra. }
    assert (EC : ts_coll s' qp = ts_coll s qp).
    { unfold ts_coll. rewrite !tt_coll_bodies.
      apply (coll_bools _ _ _ _ _ D (tt_xy qp) (tt_xy x0) (travel (ts_p s) (S (g_Hsample g)) + D)); try assumption.
      - apply tt_bodies_sized; exact Hs.
      - apply HD.
      - pose proof (travel_mono (ts_p s) (S k) (S (g_Hsample g)) Hv Hd ltac:(lia)). lra. }
    assert (EB : tt_bad s' qp = tt_bad s qp) by (unfold tt_bad, enabled_bad; rewrite EC; reflexivity).
    rewrite EB, EC. split; [reflexivity|]. cbn [st_bak st_q]. split; [reflexivity|].
    destruct (tt_bad s qp); [|exact Dp].
    pose proof (travel_mono (ts_p s) k (S k) Hv Hd ltac:(lia)). lra. }
  apply (run_agree _ _ (g_Hsample g) (fun k st => st_bak st = false /\ dist (tt_xy (st_q st)) (tt_xy x0) <= travel (ts_p s) k)); [|lia].
  constructor; try reflexivity.
  - split; [reflexivity|]. cbn [tt_penv pe_reset reset_state st_q]. rewrite dist_refl, travel_0. lra.
  - intros k st a Hk Hr. apply (ST false k st a Hk Hr).
  - intros k st a Hk Hr. apply (ST true k st a Hk Hr).
Qed.

(** C78 for the bicycle. *)
Lemma l_C78_bk_only_reachable_obstacles :
  forall (s : bk_self) circ' rect' (x0 : bkq) proj guide logpd rx (g : cfg) (rg : prng) D,
  p_proj (bs_p s) = false -> p_guid (bs_p s) = false -> 0 <= p_vmax (bs_p s) -> 0 <= p_dt (bs_p s) ->
  tractor_sized (bs_p s) -> proper_obstacles (bs_circ s) (bs_rect s) -> proper_obstacles circ' rect' ->
  (forall q, reach D (b_px q, b_py q) (bk_bodies (bs_p s) q)) ->
  same_near (b_px x0, b_py x0) (travel (bs_p s) (S (g_Hsample g)) + D) (bs_circ s) circ' (bs_rect s) rect' ->
  run_diffusion (bk_penv (mkBKSelf (bs_p s) circ' rect' (bs_xg s)) x0 proj guide logpd rx) (Some g) rg
  = run_diffusion (bk_penv s x0 proj guide logpd rx) (Some g) rg.
Proof.
  intros s circ' rect' x0 proj guide logpd rx g rg D Hp Hg Hv Hd Hs O O' HD HN.
  unfold run_diffusion. f_equal. set (s' := mkBKSelf _ _ _ _).
  assert (ST : forall viz k st a, (k <= g_Hsample g)%nat ->
    (st_bak st = false /\ dist (bk_xy (st_q st)) (bk_xy x0) <= travel (bs_p s) k) ->
    bk_step_internal s' proj guide viz st a = bk_step_internal s proj guide viz st a /\
    (st_bak (bk_step_internal s proj guide viz st a) = false /\
     dist (bk_xy (st_q (bk_step_internal s proj guide viz st a))) (bk_xy x0) <= travel (bs_p s) (S k))).
  { intros viz k st a Hk [Hb Hq].
    rewrite (bk_step_shield s' proj guide viz st a Hp Hg), (bk_step_shield s proj guide viz st a Hp Hg).
    cbv zeta. rewrite Hb. cbn [orb]. change (bs_p s') with (bs_p s).
    pose proof (act_box false a) as Ba.
    set (qp := bk_plain (bs_p s) (st_q st) _) in *.
    assert (Dq : dist (bk_xy qp) (bk_xy (st_q st)) <= p_vmax (bs_p s) * p_dt (bs_p s)) by (apply bk_plain_near; assumption).
    assert (Dp : dist (bk_xy qp) (bk_xy x0) <= travel (bs_p s) (S k)).
    { rewrite travel_S. pose proof (dist_triangle (bk_xy qp) (bk_xy (st_q st)) (bk_xy x0)). lra. }
    assert (EC : bs_coll s' qp = bs_coll s qp).
    { unfold bs_coll. rewrite !bk_coll_bodies.
      apply (coll_bools _ _ _ _ _ D (bk_xy qp) (bk_xy x0) (travel (bs_p s) (S (g_Hsample g)) + D)); try assumption.
      - intros b [<-|[]]. apply sized_tractor; exact Hs.
      - apply HD.
      - pose proof (travel_mono (bs_p s) (S k) (S (g_Hsample g)) Hv Hd ltac:(lia)). lra. }
    assert (EB : bk_bad s' qp = bk_bad s qp).
    { unfold bk_bad, enabled_bad. rewrite EC. reflexivity. }
    rewrite EB, EC. split; [reflexivity|]. cbn [st_bak st_q]. split; [reflexivity|].
    destruct (bk_bad s qp); [|exact Dp].
    pose proof (travel_mono (bs_p s) k (S k) Hv Hd ltac:(lia)). lra. }
  apply (run_agree _ _ (g_Hsample g) (fun k st => st_bak st = false /\ dist (bk_xy (st_q st)) (bk_xy x0) <= travel (bs_p s) k)); [|lia].
  constructor; try reflexivity.
  - split; [reflexivity|]. cbn [bk_penv pe_reset reset_state st_q]. rewrite dist_refl, travel_0. lra.
  - intros k st a Hk Hr. apply (ST false k st a Hk Hr).
  - intros k st a Hk Hr. apply (ST true k st a Hk Hr).
Qed.

(** C78 for the N-trailer class. *)
Lemma l_C78_nt_only_reachable_obstacles :
  forall (s : nt_self) circ' rect' (x0 : ntq) guide logpd rx (g : cfg) (rg : prng) D,
  p_guid (ns_p s) = false -> 0 <= p_vmax (ns_p s) -> 0 <= p_dt (ns_p s) ->
  nt_sized s -> proper_obstacles (ns_circ s) (ns_rect s) -> proper_obstacles circ' rect' ->
  (forall q, reach D (n_px q, n_py q) (nt_bodies s q)) ->
  same_near (n_px x0, n_py x0) (travel (ns_p s) (S (g_Hsample g)) + D) (ns_circ s) circ' (ns_rect s) rect' ->
  nt_run (mkNTSelf (ns_p s) (ns_len s) (ns_front s) (ns_rear s) circ' rect' (ns_xg s)) x0 guide logpd rx g rg
  = nt_run s x0 guide logpd rx g rg.
Proof.
  intros s circ' rect' x0 guide logpd rx g rg D Hg Hv Hd Hs O O' HD HN.
  set (s' := mkNTSelf _ _ _ _ _ _ _).
  assert (HL : length (ns_len s) = ns_N s) by (destruct Hs as (_ & _ & H & _); exact H).
  unfold nt_run. change (ns_N s') with (ns_N s). change (ns_p s') with (ns_p s). change (ns_len s') with (ns_len s).
  destruct (Nat.eqb (length (n_ths x0)) (ns_N s)) eqn:EV; cbn [negb]; [|reflexivity].
  apply Nat.eqb_eq in EV.
  repeat match goal with |- (if ?b then _ else _) = _ => destruct b; [reflexivity|] end.
  unfold run_diffusion. f_equal.
  assert (ST : forall viz k st a, (k <= g_Hsample g)%nat ->
    (st_bak st = false /\ nt_valid s (st_q st) /\ dist (nt_xy (st_q st)) (nt_xy x0) <= travel (ns_p s) k) ->
    nt_step_core s' guide viz st a = nt_step_core s guide viz st a /\
    (st_bak (nt_step_core s guide viz st a) = false /\ nt_valid s (st_q (nt_step_core s guide viz st a)) /\
     dist (nt_xy (st_q (nt_step_core s guide viz st a))) (nt_xy x0) <= travel (ns_p s) (S k))).
  { intros viz k st a Hk (Hb & Hv' & Hq).
    rewrite (nt_step_shield s' guide viz st a Hg HL Hv'), (nt_step_shield s guide viz st a Hg HL Hv').
    cbv zeta. rewrite Hb. cbn [orb]. change (ns_p s') with (ns_p s).
    pose proof (act_box false a) as Ba.
    change (nt_plain s' (st_q st) (where_ false (0, 0) (clip_act a))) with (nt_plain s (st_q st) (where_ false (0, 0) (clip_act a))).
    set (qp := nt_plain s (st_q st) _) in *.
    assert (Vq : nt_valid s qp) by (apply nt_plain_valid; assumption).
    assert (Dq : dist (nt_xy qp) (nt_xy (st_q st)) <= p_vmax (ns_p s) * p_dt (ns_p s)) by (apply nt_plain_near; assumption).
    assert (Dp : dist (nt_xy qp) (nt_xy x0) <= travel (ns_p s) (S k)).
    { rewrite travel_S. pose proof (dist_triangle (nt_xy qp) (nt_xy (st_q st)) (nt_xy x0)). lra. }
    assert (EC : ns_coll s' qp = ns_coll s qp).
    { rewrite (nt_coll_bodies s' qp Vq Hs), (nt_coll_bodies s qp Vq Hs).
      change (nt_bodies s' qp) with (nt_bodies s qp).
      apply (coll_bools _ _ _ _ _ D (nt_xy qp) (nt_xy x0) (travel (ns_p s) (S (g_Hsample g)) + D)); try assumption.
      - apply nt_bodies_sized; exact Hs.
      - apply HD.
      - pose proof (travel_mono (ns_p s) (S k) (S (g_Hsample g)) Hv Hd ltac:(lia)). lra. }
    assert (EB : nt_bad s' qp = nt_bad s qp).
    { unfold nt_bad, enabled_bad. rewrite EC. reflexivity. }
    rewrite EB, EC. split; [reflexivity|]. cbn [st_bak st_q]. split; [reflexivity|].
    destruct (nt_bad s qp); [|split; [exact Vq|exact Dp]].
    pose proof (travel_mono (ns_p s) k (S k) Hv Hd ltac:(lia)). split; [exact Hv'|lra]. }
  apply (run_agree _ _ (g_Hsample g) (fun k st => st_bak st = false /\ nt_valid s (st_q st) /\ dist (nt_xy (st_q st)) (nt_xy x0) <= travel (ns_p s) k)); [|lia].
  constructor; try reflexivity.
  - split; [reflexivity|]. cbn [nt_penv pe_reset reset_state st_q]. split; [exact EV|]. rewrite dist_refl, travel_0. lra.
  - intros k st a Hk Hr. apply (ST false k st a Hk Hr).
  - intros k st a Hk Hr. apply (ST true k st a Hk Hr).
Qed.

(** ** Acceleration class *)
Lemma acc_euler_near s q u dt : 0 <= p_vmax (as_p s) -> 0 <= dt ->
  dist (tt_xy (a_q (acc_euler s q u dt))) (tt_xy (a_q q)) <= p_vmax (as_p s) * dt.
Proof.
  intros Hv Hd. destruct u as [a om]. unfold acc_euler, euler, acc_axpy, acc_dyn, tt_axpy, tt_dyn, tt_xy.
  cbn [a_q t_px t_py].
  set (v := clip (a_v q) (- p_vmax (as_p s)) (p_vmax (as_p s))).
  assert (Hc : - p_vmax (as_p s) <= v <= p_vmax (as_p s)) by (apply clip_range; lra).
  pose proof (dist_heading (t_px (a_q q)) (t_py (a_q q)) (t_th1 (a_q q)) (dt * v)) as E.
  replace (t_px (a_q q) + dt * (v * cos (t_th1 (a_q q)))) with (t_px (a_q q) + dt * v * cos (t_th1 (a_q q))) by ring.
  replace (t_py (a_q q) + dt * (v * sin (t_th1 (a_q q)))) with (t_py (a_q q) + dt * v * sin (t_th1 (a_q q))) by ring.
  rewrite E. rewrite Rabs_mult, (Rabs_pos_eq dt Hd), (Rmult_comm _ dt).
  apply Rmult_le_compat_l; [exact Hd|]. apply Rabs_le; lra.
Qed.
Section AccAgree.
Variables (s s' : acc_self) (S0 : point) (rho D : R).
Hypothesis Same : as_amax s' = as_amax s /\ as_omax s' = as_omax s /\ as_p s' = as_p s.
Hypothesis Hv : 0 <= p_vmax (as_p s).
Hypothesis Hcoll : forall q, dist (tt_xy (a_q q)) S0 <= rho -> as_coll s' q = as_coll s q.
Hypothesis Hhitch : forall q, as_hitch s' q = as_hitch s q.
Lemma acc_euler_same q u dt : acc_euler s' q u dt = acc_euler s q u dt.
Proof. destruct Same as (_ & _ & E). unfold acc_euler, acc_dyn. rewrite E. reflexivity. Qed.
Lemma acc_brake_same u q n : dist (tt_xy (a_q q)) S0 + INR n * p_vmax (as_p s) <= rho ->
  let r := Nat.iter n (acc_rollout_step s u) (q, as_coll s q, as_hitch s q) in
  Nat.iter n (acc_rollout_step s' u) (q, as_coll s q, as_hitch s q) = r /\
  dist (tt_xy (a_q (fst (fst r)))) (tt_xy (a_q q)) <= INR n * p_vmax (as_p s).
Proof.
  cbv zeta. induction n as [|n IH]; intros HB.
  - cbn [INR] in *. change (Nat.iter 0 ?f ?x) with x. split; [reflexivity|]. cbn [fst]. rewrite dist_refl. lra.
  - rewrite S_INR in *. change (Nat.iter (S n) ?f ?x) with (f (Nat.iter n f x)).
    destruct IH as [E1 E2]; [lra|]. rewrite E1.
    destruct (Nat.iter n (acc_rollout_step s u) (q, as_coll s q, as_hitch s q)) as [[qc oc] hv].
    cbn [fst] in E2. unfold acc_rollout_step. rewrite acc_euler_same.
    assert (HS : dist (tt_xy (a_q (where_ (Rltb v_threshold (Rabs (a_v qc))) (acc_euler s qc u rollout_dt) qc))) (tt_xy (a_q qc)) <= p_vmax (as_p s)).
    { unfold where_. destruct (Rltb _ _); [|rewrite dist_refl; exact Hv].
      pose proof (acc_euler_near s qc u rollout_dt Hv) as H. unfold rollout_dt in *. specialize (H ltac:(lra)). lra. }
    set (qn := where_ _ _ _) in *.
    assert (HT : dist (tt_xy (a_q qn)) (tt_xy (a_q q)) <= (INR n + 1) * p_vmax (as_p s)).
    { pose proof (dist_triangle (tt_xy (a_q qn)) (tt_xy (a_q qc)) (tt_xy (a_q q))). lra. }
    rewrite Hcoll, Hhitch; [split; [reflexivity|exact HT]|].
    pose proof (dist_triangle (tt_xy (a_q qn)) (tt_xy (a_q q)) S0). lra.
Qed.
Lemma acc_check_same q : dist (tt_xy (a_q q)) S0 + INR (max_rollout_steps s) * p_vmax (as_p s) <= rho ->
  acc_check s' q = acc_check s q.
Proof.
  intros HB. destruct Same as (EA & EO & EP).
  assert (H0 : dist (tt_xy (a_q q)) S0 <= rho).
  { assert (0 <= INR (max_rollout_steps s) * p_vmax (as_p s)) by (apply Rmult_le_pos; [apply pos_INR|exact Hv]). lra. }
  assert (ES : check_single s' q = check_single s q) by (unfold check_single; rewrite Hcoll, Hhitch by exact H0; reflexivity).
  unfold acc_check. rewrite EP, ES. destruct (_ || _); [|reflexivity]. destruct (Rleb _ _); [reflexivity|].
  unfold check_with_rollout. rewrite Hcoll, Hhitch by exact H0.
  replace (a_backup s' (a_v q)) with (a_backup s (a_v q)) by (unfold a_backup; rewrite EP, EA; reflexivity).
  replace (max_rollout_steps s') with (max_rollout_steps s) by (unfold max_rollout_steps; rewrite EP, EA; reflexivity).
  cbv zeta. destruct (acc_brake_same (decel_sign (a_v q) (a_v q) * a_backup s (a_v q), 0) q (max_rollout_steps s) HB) as [E _].
  rewrite E. reflexivity.
Qed.
End AccAgree.

(** C78 for the acceleration class: here the braking lookahead also reaches ahead, one second at
    full speed for each of its steps. *)
Lemma l_C78_acc_only_reachable_obstacles :
  forall (s : acc_self) circ' rect' (x0 : accq) proj guide logpd rx (g : cfg) (rg : prng) D,
  p_proj (as_p s) = false -> p_guid (as_p s) = false -> 0 <= p_vmax (as_p s) -> 0 <= p_dt (as_p s) ->
  tt_sized (as_p s) -> proper_obstacles (ts_circ (as_t s)) (ts_rect (as_t s)) -> proper_obstacles circ' rect' ->
  (forall q, reach D (t_px q, t_py q) (tt_bodies (as_p s) q)) ->
  same_near (t_px (a_q x0), t_py (a_q x0))
    (travel (as_p s) (S (g_Hsample g)) + INR (max_rollout_steps s) * p_vmax (as_p s) + D)
    (ts_circ (as_t s)) circ' (ts_rect (as_t s)) rect' ->
  run_diffusion (acc_penv (mkAccSelf (mkTTSelf (as_p s) circ' rect' (ts_xg (as_t s))) (as_amax s) (as_omax s))
                   x0 proj guide logpd rx) (Some g) rg
  = run_diffusion (acc_penv s x0 proj guide logpd rx) (Some g) rg.
Proof.
  intros s circ' rect' x0 proj guide logpd rx g rg D Hp Hg Hv Hd Hs O O' HD HN.
  unfold run_diffusion. f_equal. set (s' := mkAccSelf _ _ _).
  set (B := INR (max_rollout_steps s) * p_vmax (as_p s)) in *.
  assert (HB0 : 0 <= B) by (apply Rmult_le_pos; [apply pos_INR|exact Hv]).
  assert (ST : forall viz k st a, (k <= g_Hsample g)%nat ->
    dist (tt_xy (a_q (st_q st))) (tt_xy (a_q x0)) <= travel (as_p s) k ->
    acc_step_internal s' proj guide viz st a = acc_step_internal s proj guide viz st a /\
    dist (tt_xy (a_q (st_q (acc_step_internal s proj guide viz st a)))) (tt_xy (a_q x0)) <= travel (as_p s) (S k)).
  { intros viz k st a Hk Hq.
    rewrite (acc_step_form s' proj guide viz st a Hp Hg), (acc_step_form s proj guide viz st a Hp Hg). cbv zeta.
    change (as_p s') with (as_p s).
    change (acc_backup_norm s' (a_v (st_q st))) with (acc_backup_norm s (a_v (st_q st))).
    set (eff := if st_bak st then _ else _).
    change (acc_proposed s' (st_q st) eff) with (acc_proposed s (st_q st) eff).
    set (q1 := acc_proposed s (st_q st) eff).
    change (acc_backup_state s' (st_q st) (a_v q1)) with (acc_backup_state s (st_q st) (a_v q1)).
    assert (D1 : dist (tt_xy (a_q q1)) (tt_xy (a_q x0)) <= travel (as_p s) (S k)).
    { rewrite travel_S. pose proof (acc_euler_near s (st_q st) (acc_scaler s eff) (p_dt (as_p s)) Hv Hd) as E.
      fold (acc_proposed s (st_q st) eff) in E. fold q1 in E.
      pose proof (dist_triangle (tt_xy (a_q q1)) (tt_xy (a_q (st_q st))) (tt_xy (a_q x0))). lra. }
    assert (DB : dist (tt_xy (a_q (acc_backup_state s (st_q st) (a_v q1)))) (tt_xy (a_q x0)) <= travel (as_p s) (S k)).
    { rewrite travel_S. unfold acc_backup_state. set (u := (_, 0)).
      pose proof (acc_euler_near s (st_q st) u (p_dt (as_p s)) Hv Hd) as E.
      pose proof (dist_triangle (tt_xy (a_q (acc_euler s (st_q st) u (p_dt (as_p s))))) (tt_xy (a_q (st_q st))) (tt_xy (a_q x0))). lra. }
    assert (EC : acc_check s' q1 = acc_check s q1).
    { apply (acc_check_same s s' (tt_xy (a_q x0)) (travel (as_p s) (S (g_Hsample g)) + B)).
      - repeat split; reflexivity.
      - exact Hv.
      - intros q Hq'. unfold as_coll, ts_coll. rewrite !tt_coll_bodies.
        apply (coll_bools _ _ _ _ _ D (tt_xy (a_q q)) (tt_xy (a_q x0)) (travel (as_p s) (S (g_Hsample g)) + B + D)); try assumption.
        + apply tt_bodies_sized; exact Hs.
        + apply HD.
        + lra.
      - intros q. reflexivity.
      - fold B. pose proof (travel_mono (as_p s) (S k) (S (g_Hsample g)) Hv Hd ltac:(lia)). lra. }
    assert (EF : acc_fb s' q1 = acc_fb s q1) by (unfold acc_fb; rewrite EC; reflexivity).
    rewrite EF, EC. split; [reflexivity|]. cbn [st_q]. destruct (acc_fb s q1); [exact DB|exact D1]. }
  apply (run_agree _ _ (g_Hsample g) (fun k st => dist (tt_xy (a_q (st_q st))) (tt_xy (a_q x0)) <= travel (as_p s) k)); [|lia].
  constructor; try reflexivity.
  - cbn [acc_penv pe_reset reset_state st_q]. rewrite dist_refl, travel_0. lra.
  - intros k st a Hk Hr. apply (ST false k st a Hk Hr).
  - intros k st a Hk Hr. apply (ST true k st a Hk Hr).
Qed.

(** ** How far the vehicles extend *)
Lemma frame_near P th a b : dist (at_frame P th a b) P <= Rabs a + Rabs b.
Proof.
  unfold dist, dist2, at_frame; cbn [fst snd]. pose proof (sin2_cos2' th) as T.
  pose proof (Rabs_pos a) as Pa. pose proof (Rabs_pos b) as Pb.
  apply sq_le_sqrt; [lra|].
  replace (_ + _) with ((a * a + b * b) * (sin th * sin th + cos th * cos th)) by ring. rewrite T.
  assert (a * a = Rabs a * Rabs a) by (rewrite <- Rabs_mult; symmetry; apply Rabs_pos_eq; pose proof (Rle_0_sqr a); unfold Rsqr in *; lra).
  assert (b * b = Rabs b * Rabs b) by (rewrite <- Rabs_mult; symmetry; apply Rabs_pos_eq; pose proof (Rle_0_sqr b); unfold Rsqr in *; lra).
  pose proof (Rmult_le_pos _ _ Pa Pb). nra.
Qed.
Lemma ahead_near P th d : dist (ahead P th d) P <= Rabs d.
Proof.
  unfold ahead. destruct P as [X Y]. cbn [fst snd]. rewrite dist_heading. lra.
Qed.
Lemma between_abs a lo hi : lo <= a <= hi -> Rabs a <= Rabs lo + Rabs hi.
Proof. intros. unfold Rabs. repeat destruct Rcase_abs; lra. Qed.
Lemma half_abs b w : - (w / 2) <= b <= w / 2 -> Rabs b <= Rabs w.
Proof. intros. unfold Rabs. repeat destruct Rcase_abs; lra. Qed.
Lemma tractor_near p X Y th Z : solid (tractor_body p X Y th) Z -> dist Z (X, Y) <= tractor_span p.
Proof.
  intros (a & b & Ha & Hb & ->). unfold tractor_body in *. cbn [rg_org rg_ang rg_back rg_front rg_half] in *.
  pose proof (frame_near (X, Y) th a b). apply between_abs in Ha. apply half_abs in Hb. rewrite Rabs_Ropp in Ha.
  unfold tractor_span. lra.
Qed.
Lemma trailer_near h th L lf lr w Z : solid (trailer_body h th L lf lr w) Z ->
  dist Z h <= Rabs L + Rabs lf + Rabs lr + Rabs w.
Proof.
  intros (a & b & Ha & Hb & ->). unfold trailer_body in *. cbn [rg_org rg_ang rg_back rg_front rg_half] in *.
  pose proof (frame_near (ahead h th (- L)) th a b) as H1. pose proof (ahead_near h th (- L)) as H2.
  pose proof (dist_triangle (at_frame (ahead h th (- L)) th a b) (ahead h th (- L)) h).
  apply between_abs in Ha. apply half_abs in Hb. rewrite Rabs_Ropp in Ha, H2. lra.
Qed.
Lemma chain_near lh w ths : forall h Ls lfs lrs g Z,
  In g (trailer_chain lh w h ths Ls lfs lrs) -> solid g Z ->
  dist Z h <= Rabs w + INR (length Ls) * Rabs lh + sum_abs Ls + sum_abs lfs + sum_abs lrs.
Proof.
  assert (SP : forall l, 0 <= sum_abs l).
  { induction l as [|x l IH]; cbn [sum_abs]; [lra|]. pose proof (Rabs_pos x). lra. }
  induction ths as [|th ths IH]; intros h [|L Ls] [|lf lfs] [|lr lrs] g Z Hg HZ; try destruct Hg as [].
  - subst g. cbn [length sum_abs]. rewrite S_INR. pose proof (trailer_near _ _ _ _ _ _ _ HZ).
    pose proof (SP Ls). pose proof (SP lfs). pose proof (SP lrs). pose proof (Rabs_pos lh). pose proof (pos_INR (length Ls)).
    assert (0 <= INR (length Ls) * Rabs lh) by (apply Rmult_le_pos; assumption). lra.
  - specialize (IH _ _ _ _ g Z H HZ). cbn [length sum_abs]. rewrite S_INR.
    pose proof (ahead_near h th (- (L + lr + lh))) as E. rewrite Rabs_Ropp in E.
    pose proof (dist_triangle Z (ahead h th (- (L + lr + lh))) h).
    pose proof (Rabs_triang (L + lr) lh). pose proof (Rabs_triang L lr). pose proof (Rabs_pos lf). lra.
Qed.
(** The sum of its dimensions bounds how far the tractor and trailer extend from the reference
    point, in every pose. *)
Lemma l_C78_tt_extends_at_most_span : forall p q, reach (tt_span p) (t_px q, t_py q) (tt_bodies p q).
Proof.
  intros p q g X [<-|[<-|[]]] HX.
  - pose proof (tractor_near _ _ _ _ _ HX). unfold tt_span.
    pose proof (Rabs_pos (p_lh p)). pose proof (Rabs_pos (p_l2 p)). pose proof (Rabs_pos (p_lf2 p)).
    pose proof (Rabs_pos (p_lr2 p)). pose proof (Rabs_pos (p_trail_w p)). lra.
  - pose proof (trailer_near _ _ _ _ _ _ _ HX) as H1.
    pose proof (ahead_near (t_px q, t_py q) (t_th1 q) (- p_lh p)) as H2. rewrite Rabs_Ropp in H2.
    pose proof (dist_triangle X (ahead (t_px q, t_py q) (t_th1 q) (- p_lh p)) (t_px q, t_py q)).
    unfold tt_span, tractor_span. pose proof (Rabs_pos (p_lr p)). pose proof (Rabs_pos (p_l1 p + p_lf1 p)).
    pose proof (Rabs_pos (p_trac_w p)). lra.
Qed.
(** The same for the bicycle. *)
Lemma l_C78_bk_extends_at_most_span : forall p q, reach (tractor_span p) (b_px q, b_py q) (bk_bodies p q).
Proof. intros p q g X [<-|[]] HX. apply (tractor_near _ _ _ _ _ HX). Qed.
(** The same for any number of trailers. *)
Lemma l_C78_nt_extends_at_most_span : forall s q, reach (nt_span s) (n_px q, n_py q) (nt_bodies s q).
Proof.
  intros s q g X [<-|Hg] HX; unfold nt_span.
  - pose proof (tractor_near _ _ _ _ _ HX). pose proof (Rabs_pos (p_trail_w (ns_p s))).
    assert (0 <= INR (S (length (ns_len s))) * Rabs (p_lh (ns_p s))) by (apply Rmult_le_pos; [apply pos_INR|apply Rabs_pos]).
    assert (SP : forall l, 0 <= sum_abs l).
    { induction l as [|x l IH]; cbn [sum_abs]; [lra|]. pose proof (Rabs_pos x). lra. }
    pose proof (SP (ns_len s)). pose proof (SP (ns_front s)). pose proof (SP (ns_rear s)). lra.
  - pose proof (chain_near _ _ _ _ _ _ _ _ _ Hg HX) as H1.
    pose proof (ahead_near (n_px q, n_py q) (n_th0 q) (- p_lh (ns_p s))) as H2. rewrite Rabs_Ropp in H2.
    pose proof (dist_triangle X (ahead (n_px q, n_py q) (n_th0 q) (- p_lh (ns_p s))) (n_px q, n_py q)).
    rewrite S_INR. unfold tractor_span. pose proof (Rabs_pos (p_lr (ns_p s))).
    pose proof (Rabs_pos (p_l1 (ns_p s) + p_lf1 (ns_p s))). pose proof (Rabs_pos (p_trac_w (ns_p s))). lra.
Qed.

(** ** Adding an obstacle far away; changing the order *)
Lemma dist_comm P Q : dist P Q = dist Q P.
Proof. unfold dist, dist2. f_equal. ring. Qed.
Lemma far_circle P rho c : c_r c + rho < dist (c_x c, c_y c) P -> ~ circle_near P rho c.
Proof.
  intros Hf (X & HX & HP). unfold disc in HX. pose proof (dist_triangle (c_x c, c_y c) X P) as T.
  rewrite (dist_comm (c_x c, c_y c) X) in T. lra.
Qed.
Lemma far_rect P rho o : 0 <= r_w o -> 0 <= r_h o ->
  (r_w o + r_h o) / 2 + rho < dist (r_x o, r_y o) P -> ~ rect_near P rho o.
Proof.
  intros Hw Hh Hf (X & (a & b & Ha & Hb & ->) & HP). unfold obstacle_body in *. cbn [rg_org rg_ang rg_back rg_front rg_half] in *.
  pose proof (frame_near (r_x o, r_y o) (r_ang o) a b) as F.
  assert (Rabs a <= r_w o / 2) by (apply Rabs_le; lra). assert (Rabs b <= r_h o / 2) by (apply Rabs_le; lra).
  pose proof (dist_triangle (r_x o, r_y o) (at_frame (r_x o, r_y o) (r_ang o) a b) P) as T.
  rewrite (dist_comm (r_x o, r_y o) (at_frame _ _ _ _)) in T. lra.
Qed.
(** Example of the hypothesis: adding one far circle and one far rectangle, reversing the lists and
    doubling them changes nothing near the start. *)
Lemma same_near_add P rho c o circ rect :
  c_r c + rho < dist (c_x c, c_y c) P -> 0 <= r_w o -> 0 <= r_h o -> (r_w o + r_h o) / 2 + rho < dist (r_x o, r_y o) P ->
  same_near P rho circ (c :: rev circ ++ circ) rect (o :: rev rect ++ rect).
Proof.
  intros Hc Hw Hh Ho. split.
  - intros c' Hn. cbn [In]. rewrite in_app_iff, <- in_rev. split; [auto|]. intros [->|H]; [|tauto].
    exfalso. exact (far_circle _ _ _ Hc Hn).
  - intros o' Hn. cbn [In]. rewrite in_app_iff, <- in_rev. split; [auto|]. intros [->|H]; [|tauto].
    exfalso. exact (far_rect _ _ _ Hw Hh Ho Hn).
Qed.

Lemma existsb_members {A : Type} (f : A -> bool) l l' : (forall x, In x l <-> In x l') -> existsb f l' = existsb f l.
Proof.
  intros H. apply bool_iff. rewrite !existsb_false_iff. split; intros K x Hx; apply K; apply H; exact Hx.
Qed.
Definition same_members {A : Type} (l l' : list A) : Prop := forall x, In x l <-> In x l'.

(** C78: obstacles are a set, in every mode and for every vehicle: two scenes with the same
    obstacles, listed in any order and with any repetition, give the same result. *)
Lemma l_C78_tt_obstacle_order :
  forall (s : tt_self) circ' rect' (x0 : ttq) proj guide logpd rx (g : cfg) (rg : prng),
  (forall c, In c (ts_circ s) <-> In c circ') -> (forall o, In o (ts_rect s) <-> In o rect') ->
  run_diffusion (tt_penv (mkTTSelf (ts_p s) circ' rect' (ts_xg s)) x0 proj guide logpd rx) (Some g) rg
  = run_diffusion (tt_penv s x0 proj guide logpd rx) (Some g) rg.
Proof.
  intros s circ' rect' x0 proj guide logpd rx g rg HC HR. unfold run_diffusion. f_equal. set (s' := mkTTSelf _ _ _ _).
  assert (EC : forall q, ts_coll s' q = ts_coll s q).
  { intros q. unfold ts_coll, tt_coll. cbn [s' ts_p ts_circ ts_rect].
    rewrite (existsb_members _ (ts_circ s) circ' HC), (existsb_members _ (ts_rect s) rect' HR). reflexivity. }
  assert (ST : forall viz st a, tt_step_internal s' proj guide viz st a = tt_step_internal s proj guide viz st a).
  { intros. unfold tt_step_internal, tt_step_with, shielded_rollout, step_without_shield. rewrite !EC. reflexivity. }
  apply (run_agree _ _ (g_Hsample g) (fun _ _ => True)); [|lia]. constructor; auto.
  - intros. split; [apply (ST false)|exact I].
  - intros. split; [apply (ST true)|exact I].
Qed.
(** Order and repetition for the bicycle. *)
Lemma l_C78_bk_obstacle_order :
  forall (s : bk_self) circ' rect' (x0 : bkq) proj guide logpd rx (g : cfg) (rg : prng),
  (forall c, In c (bs_circ s) <-> In c circ') -> (forall o, In o (bs_rect s) <-> In o rect') ->
  run_diffusion (bk_penv (mkBKSelf (bs_p s) circ' rect' (bs_xg s)) x0 proj guide logpd rx) (Some g) rg
  = run_diffusion (bk_penv s x0 proj guide logpd rx) (Some g) rg.
Proof.
  intros s circ' rect' x0 proj guide logpd rx g rg HC HR. unfold run_diffusion. f_equal. set (s' := mkBKSelf _ _ _ _).
  assert (EC : forall q, bs_coll s' q = bs_coll s q).
  { intros q. unfold bs_coll, bk_coll. cbn [s' bs_p bs_circ bs_rect].
    rewrite (existsb_members _ (bs_circ s) circ' HC), (existsb_members _ (bs_rect s) rect' HR). reflexivity. }
  assert (ST : forall viz st a, bk_step_internal s' proj guide viz st a = bk_step_internal s proj guide viz st a).
  { intros. unfold bk_step_internal, bk_step_with, shielded_rollout, step_without_shield. rewrite !EC. reflexivity. }
  apply (run_agree _ _ (g_Hsample g) (fun _ _ => True)); [|lia]. constructor; auto.
  - intros. split; [apply (ST false)|exact I].
  - intros. split; [apply (ST true)|exact I].
Qed.
(** Order and repetition for the N-trailer class. *)
Lemma l_C78_nt_obstacle_order :
  forall (s : nt_self) circ' rect' (x0 : ntq) guide logpd rx (g : cfg) (rg : prng),
  (forall c, In c (ns_circ s) <-> In c circ') -> (forall o, In o (ns_rect s) <-> In o rect') ->
  nt_run (mkNTSelf (ns_p s) (ns_len s) (ns_front s) (ns_rear s) circ' rect' (ns_xg s)) x0 guide logpd rx g rg
  = nt_run s x0 guide logpd rx g rg.
Proof.
  intros s circ' rect' x0 guide logpd rx g rg HC HR. set (s' := mkNTSelf _ _ _ _ _ _ _).
  unfold nt_run. change (ns_N s') with (ns_N s). change (ns_p s') with (ns_p s).
  repeat match goal with |- (if ?b then _ else _) = _ => destruct b; [reflexivity|] end.
  unfold run_diffusion. f_equal.
  assert (EC : forall q, ns_coll s' q = ns_coll s q).
  { intros q. unfold ns_coll, nt_coll. cbn [s' ns_circ ns_rect].
    change (nt_tractor_corners s' q) with (nt_tractor_corners s q). change (nt_trailer_corners s' q) with (nt_trailer_corners s q).
    assert (F1 : forall f : circle -> bool, existsb f circ' = existsb f (ns_circ s)) by (intros; apply existsb_members; exact HC).
    assert (F2 : forall f : rectobs -> bool, existsb f rect' = existsb f (ns_rect s)) by (intros; apply existsb_members; exact HR).
    rewrite F1, F2. f_equal; f_equal.
    - induction (nt_trailer_corners s q) as [|x l IH]; cbn [existsb]; [reflexivity|]. rewrite F1, IH. reflexivity.
    - induction (nt_trailer_corners s q) as [|x l IH]; cbn [existsb]; [reflexivity|]. rewrite F2, IH. reflexivity. }
  assert (ST : forall viz st a, nt_step_core s' guide viz st a = nt_step_core s guide viz st a).
  { intros. unfold nt_step_core, nt_step_with, shielded_rollout, step_without_shield. rewrite !EC. reflexivity. }
  apply (run_agree _ _ (g_Hsample g) (fun _ _ => True)); [|lia]. constructor; auto.
  - intros. split; [apply (ST false)|exact I].
  - intros. split; [apply (ST true)|exact I].
Qed.
(** Order and repetition for the acceleration class. *)
Lemma l_C78_acc_obstacle_order :
  forall (s : acc_self) circ' rect' (x0 : accq) proj guide logpd rx (g : cfg) (rg : prng),
  (forall c, In c (ts_circ (as_t s)) <-> In c circ') -> (forall o, In o (ts_rect (as_t s)) <-> In o rect') ->
  run_diffusion (acc_penv (mkAccSelf (mkTTSelf (as_p s) circ' rect' (ts_xg (as_t s))) (as_amax s) (as_omax s))
                   x0 proj guide logpd rx) (Some g) rg
  = run_diffusion (acc_penv s x0 proj guide logpd rx) (Some g) rg.
Proof.
  intros s circ' rect' x0 proj guide logpd rx g rg HC HR. unfold run_diffusion. f_equal. set (s' := mkAccSelf _ _ _).
  assert (EC : forall q, as_coll s' q = as_coll s q).
  { intros q. unfold as_coll, ts_coll, tt_coll. cbn [s' as_t ts_p ts_circ ts_rect].
    rewrite (existsb_members _ (ts_circ (as_t s)) circ' HC), (existsb_members _ (ts_rect (as_t s)) rect' HR). reflexivity. }
  assert (EW : forall q, check_with_rollout s' q = check_with_rollout s q).
  { intros q. unfold check_with_rollout. rewrite !EC.
    change (as_hitch s' q) with (as_hitch s q). change (max_rollout_steps s') with (max_rollout_steps s).
    change (a_backup s' (a_v q)) with (a_backup s (a_v q)). cbv zeta.
    set (u := (_ * _, 0)). set (c0 := (q, as_coll s q, as_hitch s q)).
    assert (EI : forall n, Nat.iter n (acc_rollout_step s' u) c0 = Nat.iter n (acc_rollout_step s u) c0).
    { induction n as [|n IH]; [reflexivity|]. change (Nat.iter (S n) ?f ?x) with (f (Nat.iter n f x)). rewrite IH.
      destruct (Nat.iter n (acc_rollout_step s u) c0) as [[qc oc] hv]. unfold acc_rollout_step. rewrite EC. reflexivity. }
    rewrite EI. reflexivity. }
  assert (ST : forall viz st a, acc_step_internal s' proj guide viz st a = acc_step_internal s proj guide viz st a).
  { intros. unfold acc_step_internal, acc_step_with, acc_shielded_rollout, step_without_shield, check_single. rewrite !EC, !EW. reflexivity. }
  apply (run_agree _ _ (g_Hsample g) (fun _ _ => True)); [|lia]. constructor; auto.
  - intros. split; [apply (ST false)|exact I].
  - intros. split; [apply (ST true)|exact I].
Qed.

(** The default vehicle (51 steps of at most 0.6 m, span 19.17 m) in a scene with one circle: adding
    a circle and a rectangle a kilometre away and listing the obstacles twice, backwards, changes
    no plan with a horizon of at most 50. *)
Lemma x_C78_kilometre_away : forall x0 proj guide logpd rx (g : cfg) (rg : prng),
  t_px x0 = 0 -> t_py x0 = 0 -> (g_Hsample g <= 50)%nat ->
  run_diffusion (tt_penv (mkTTSelf default_params (mkCircle 1000 0 5 :: rev ex_circ ++ ex_circ)
      (mkRect 0 1000 10 20 1 :: rev ex_rect ++ ex_rect) (mkTT 0 0 PI PI)) x0 proj guide logpd rx) (Some g) rg
  = run_diffusion (tt_penv ex_tt x0 proj guide logpd rx) (Some g) rg.
Proof.
  intros x0 proj guide logpd rx g rg HX HY HH.
  assert (OE : proper_obstacles ex_circ ex_rect).
  { split; [intros c [<-|[]]; cbn; lra|]. intros o Ho. unfold ex_rect in Ho.
    repeat (destruct Ho as [<-|Ho]; [cbn; lra|]). destruct Ho. }
  apply (l_C78_tt_only_reachable_obstacles ex_tt _ _ x0 proj guide logpd rx g rg (tt_span default_params)); try reflexivity; try assumption.
  - change (0 <= 3). lra.
  - change (0 <= 2 / 10). lra.
  - exact default_sized.
  - destruct OE as [O1 O2]. split.
    + intros c Hc. cbn [In] in Hc. rewrite in_app_iff, <- in_rev in Hc. destruct Hc as [<-|[Hc|Hc]]; [cbn; lra| |]; apply O1; exact Hc.
    + intros o Ho. cbn [In] in Ho. rewrite in_app_iff, <- in_rev in Ho. destruct Ho as [<-|[Ho|Ho]]; [cbn; lra| |]; apply O2; exact Ho.
  - intros q. apply l_C78_tt_extends_at_most_span.
  - rewrite HX, HY.
    assert (HT : travel default_params (S (g_Hsample g)) + tt_span default_params <= 60).
    { assert (T : travel default_params (S (g_Hsample g)) <= 51 * (3 * (2 / 10))).
      { unfold travel. change (p_vmax default_params) with 3. change (p_dt default_params) with (2 / 10).
        apply Rmult_le_compat_r; [lra|]. replace 51 with (INR 51) by (cbn; lra). apply le_INR. lia. }
      unfold tt_span, tractor_span.
      change (p_lr default_params) with (1848 / 1000). change (p_l1 default_params) with (323 / 100). change (p_lf1 default_params) with (9 / 10).
      change (p_trac_w default_params) with 2. change (p_lh default_params) with (115 / 100). change (p_l2 default_params) with (29 / 10).
      change (p_lf2 default_params) with (142 / 100). change (p_lr2 default_params) with (3225 / 1000). change (p_trail_w default_params) with (25 / 10).
      rewrite !Rabs_pos_eq by lra. lra. }
    change (ts_p ex_tt) with default_params. change (ts_circ ex_tt) with ex_circ. change (ts_rect ex_tt) with ex_rect.
    apply same_near_add; cbn [c_x c_y c_r r_x r_y r_w r_h]; try lra.
    + apply Rlt_le_trans with 1000; [lra|]. unfold dist, dist2; cbn [fst snd].
      replace (_ + _) with (1000 * 1000) by ring. rewrite sqrt_square; lra.
    + apply Rlt_le_trans with 1000; [lra|]. unfold dist, dist2; cbn [fst snd].
      replace (_ + _) with (1000 * 1000) by ring. rewrite sqrt_square; lra.
Qed.
