(** * ProofsFewer: taking obstacles away never makes a plan worse (C80). *)
From Verif Require Import Base BaseFacts Params Geom TT2d Bicycle NTrailer SpecGeom SpecBodies SpecDyn
  Rollout Planner Instances ProofsGeom ProofsBodies ProofsKin ProofsRobots ProofsSafety ProofsSim ProofsStrict ProofsStats ProofsReach.
Open Scope R_scope.

Section Generic.
Context {Q : Type}.
Variable Inv : Q -> Prop.
Definition same_motion (st st' : State Q) : Prop :=
  st_q st = st_q st' /\ st_app st = st_app st' /\ st_bak st = st_bak st' /\ Inv (st_q st).
Definition no_worse (f f' : State Q -> act -> State Q) : Prop :=
  forall st st' a, same_motion st st' -> same_motion (f st a) (f' st' a) /\ st_rew (f st a) <= st_rew (f' st' a).
Lemma scan_no_worse f f' : no_worse f f' -> forall us st st', same_motion st st' ->
  same_motion (fst (scan_us f st us)) (fst (scan_us f' st' us)) /\
  map (fun o => snd (fst o)) (snd (scan_us f st us)) = map (fun o => snd (fst o)) (snd (scan_us f' st' us)) /\
  map snd (snd (scan_us f st us)) = map snd (snd (scan_us f' st' us)) /\
  Forall2 Rle (map (fun o => fst (fst o)) (snd (scan_us f st us))) (map (fun o => fst (fst o)) (snd (scan_us f' st' us))).
Proof.
  intros Hf us. induction us as [|u us IH]; intros st st' H; cbn [scan_us].
  - cbn [fst snd map]. repeat split; try apply H. constructor.
  - destruct (Hf st st' u H) as [(A & B & C) D]. destruct (IH _ _ (conj A (conj B C))) as (E1 & E2 & E3 & E4).
    destruct (scan_us f (f st u) us) as [fin outs]. destruct (scan_us f' (f' st' u) us) as [fin' outs'].
    cbn [fst snd map] in *. rewrite A, B, E2, E3. repeat split; try apply E1. constructor; assumption.
Qed.
Lemma Rmean_mono a b : Forall2 Rle a b -> Rmean a <= Rmean b.
Proof.
  intros F. assert (L : length a = length b) by (induction F; cbn; congruence).
  assert (S : Rsum a <= Rsum b). { induction F; [apply Rle_refl|]. cbn [Rsum fold_right] in *. apply Rplus_le_compat; [assumption|]. apply IHF. cbn in L. lia. }
  unfold Rmean. rewrite L. unfold Rdiv. apply Rmult_le_compat_r; [|exact S].
  destruct (length b) as [|n]; [cbn [INR]; rewrite Rinv_0; apply Rle_refl|].
  apply Rlt_le, Rinv_0_lt_compat, lt_0_INR. lia.
Qed.
Lemma roll_no_worse f f' terminal w st us : no_worse f f' -> Inv (st_q st) ->
  fst (fst (rollout_us_with_terminal f terminal w st us)) <= fst (fst (rollout_us_with_terminal f' terminal w st us)) /\
  snd (fst (rollout_us_with_terminal f' terminal w st us)) = snd (fst (rollout_us_with_terminal f terminal w st us)) /\
  snd (rollout_us_with_terminal f' terminal w st us) = snd (rollout_us_with_terminal f terminal w st us).
Proof.
  intros Hf HI. destruct (Hf st st (0, 0)) as [H0 _]; [repeat split; exact HI|].
  destruct (scan_no_worse f f' Hf us _ _ H0) as (E1 & E2 & E3 & E4). unfold rollout_us_with_terminal.
  destruct (scan_us f (f st (0, 0)) us) as [fin outs]. destruct (scan_us f' (f' st (0, 0)) us) as [fin' outs'].
  cbn [fst snd] in *. destruct E1 as (A & _ & _). rewrite A, E2, E3. repeat split.
  apply Rplus_le_compat_r. apply Rmean_mono. exact E4.
Qed.
Definition same_while (P : Q -> Prop) (f f' : State Q -> act -> State Q) : Prop :=
  forall st st' a, same_motion st st' -> P (st_q (f' st' a)) -> same_motion (f st a) (f' st' a).
Lemma scan_same_while P f f' : same_while P f f' -> forall us st st', same_motion st st' ->
  (forall q, In q (map (fun o => snd (fst o)) (snd (scan_us f' st' us))) -> P q) ->
  map (fun o => snd (fst o)) (snd (scan_us f st us)) = map (fun o => snd (fst o)) (snd (scan_us f' st' us)) /\
  map snd (snd (scan_us f st us)) = map snd (snd (scan_us f' st' us)).
Proof.
  intros Hf us. induction us as [|u us IH]; intros st st' H HP; cbn [scan_us] in *; [split; reflexivity|].
  specialize (Hf st st' u H).
  destruct (scan_us f (f st u) us) as [fin outs] eqn:E1. destruct (scan_us f' (f' st' u) us) as [fin' outs'] eqn:E2.
  cbn [fst snd map In] in *. specialize (Hf (HP _ (or_introl eq_refl))).
  specialize (IH _ _ Hf). rewrite E1, E2 in IH. cbn [snd] in IH. destruct IH as (A & B); [intros q Hq; apply HP; right; exact Hq|].
  destruct Hf as (C & D & _). rewrite A, B, C, D. split; reflexivity.
Qed.
Lemma roll_same_while P f f' st us : same_while P f f' -> Inv (st_q st) -> P (st_q (f' st (0, 0))) ->
  (forall q, In q (snd (fst (rollout_us f' st us))) -> P q) ->
  snd (fst (rollout_us f st us)) = snd (fst (rollout_us f' st us)) /\ snd (rollout_us f st us) = snd (rollout_us f' st us).
Proof.
  intros Hf HI H0 HP. assert (H1 : same_motion (f st (0, 0)) (f' st (0, 0))) by (apply Hf; [repeat split; exact HI|exact H0]).
  pose proof (scan_same_while P f f' Hf us _ _ H1) as G. unfold rollout_us in *.
  destruct (scan_us f (f st (0, 0)) us) as [fin outs]. destruct (scan_us f' (f' st (0, 0)) us) as [fin' outs'].
  cbn [fst snd] in *. exact (G HP).
Qed.
End Generic.

Lemma reward_fewer p base oc oc' hv pen : 0 <= p_coll_pen p -> (oc' = true -> oc = true) ->
  step_reward p base oc hv pen <= step_reward p base oc' hv pen.
Proof.
  intros H I. unfold step_reward, where_. cbv zeta.
  destruct oc, oc', hv, (negb (Z.eqb (p_motion p) 0)); try lra; discriminate (I eq_refl).
Qed.
Lemma existsb_incl {A} (f : A -> bool) l l' : incl l' l -> existsb f l' = true -> existsb f l = true.
Proof. intros I H. apply existsb_exists in H. destruct H as (x & Hx & Hf). apply existsb_exists. exists x. auto. Qed.

Lemma bad_while {X : Type} p (cl cl' hi : X -> bool) q : (cl' q = true -> cl q = true) ->
  (enabled_bad p cl' hi q = false -> cl q = false) -> enabled_bad p cl hi q = enabled_bad p cl' hi q.
Proof.
  intros I H. destruct (enabled_bad p cl' hi q) eqn:E.
  - unfold enabled_bad in *. apply orb_true_iff in E. apply orb_true_iff. destruct E as [E|E]; [left|right; exact E].
    apply andb_true_iff in E. destruct E as [E1 E2]. rewrite E1, (I E2). reflexivity.
  - specialize (H eq_refl). unfold enabled_bad in *. rewrite H, andb_false_r. apply orb_false_iff in E. destruct E as [_ E]. rewrite E. reflexivity.
Qed.

(** ** Tractor-trailer *)
Section TT.
Variables (s : tt_self) (circ' : list circle) (rect' : list rectobs).
Hypotheses (HC : incl circ' (ts_circ s)) (HR : incl rect' (ts_rect s)).
Hypotheses (Hp : p_proj (ts_p s) = false) (Hg : p_guid (ts_p s) = false).
Let s' := mkTTSelf (ts_p s) circ' rect' (ts_xg s).
Lemma tt_coll_fewer q : ts_coll s' q = true -> ts_coll s q = true.
Proof.
  unfold ts_coll, tt_coll. cbn [s' ts_p ts_circ ts_rect]. cbv zeta. intros H. apply orb_true_iff in H. apply orb_true_iff.
  destruct H as [H|H]; [left; exact (existsb_incl _ _ _ HC H)|right; exact (existsb_incl _ _ _ HR H)].
Qed.
Lemma tt_same_motion proj guide proj' guide' st st' a : same_motion (fun _ => True) st st' ->
  (let qp := tt_plain (ts_p s) (st_q st') (where_ (st_bak st') (0, 0) (clip_act a)) in tt_bad s qp = tt_bad s' qp) ->
  same_motion (fun _ => True) (tt_step s proj guide st a) (tt_step s' proj' guide' st' a) /\
  (0 <= p_coll_pen (ts_p s) -> st_rew (tt_step s proj guide st a) <= st_rew (tt_step s' proj' guide' st' a)).
Proof.
  intros (A & _ & C & _). cbv zeta. unfold tt_step. rewrite (tt_step_shield s proj guide false st a Hp Hg).
  rewrite (tt_step_shield s' proj' guide' false st' a Hp Hg). cbv zeta. rewrite A, C.
  change (ts_p s') with (ts_p s). set (qp := tt_plain _ _ _). intros E. rewrite E.
  change (ts_hitch s' qp) with (ts_hitch s qp).
  pose proof (tt_coll_fewer qp) as I. destruct (tt_bad s' qp); unfold same_motion; cbn [st_q st_app st_bak st_rew]; (split; [auto|]); intros HP;
    apply reward_fewer; assumption.
Qed.
End TT.

(** C80: with the collision shield off, taking obstacles away leaves the trajectory and the applied controls as they were
    and never lowers the reward of a rollout. *)
Lemma l_C80_tt_fewer_obstacles_never_worse :
  forall (s : tt_self) circ' rect' (x0 : ttq) proj guide proj' guide' us,
  p_proj (ts_p s) = false -> p_guid (ts_p s) = false -> p_sh_coll (ts_p s) = false -> 0 <= p_coll_pen (ts_p s) ->
  incl circ' (ts_circ s) -> incl rect' (ts_rect s) ->
  let before := rollout_us_with_terminal (tt_step s proj guide) (tt_terminal s) (p_term_w (ts_p s)) (reset_state x0) us in
  let fewer := mkTTSelf (ts_p s) circ' rect' (ts_xg s) in
  let after := rollout_us_with_terminal (tt_step fewer proj' guide') (tt_terminal fewer) (p_term_w (ts_p fewer)) (reset_state x0) us in
  fst (fst before) <= fst (fst after) /\ snd (fst after) = snd (fst before) /\ snd after = snd before.
Proof.
  intros s circ' rect' x0 proj guide proj' guide' us Hp Hg Hs HP HC HR before fewer after.
  apply (roll_no_worse (fun _ => True)); [|exact I]. intros st st' a H.
  destruct (tt_same_motion s circ' rect' HC HR Hp Hg proj guide proj' guide' st st' a H) as [A B].
  - cbv zeta. set (qp := tt_plain _ _ _). unfold tt_bad, enabled_bad. cbn [ts_p]. rewrite Hs. reflexivity.
  - split; [exact A|exact (B HP)].
Qed.
(** C80: with either shield on or off, an obstacle matters only if it is touched: if the run among fewer obstacles stays
    clear of the others, adding them changes neither the trajectory nor the applied controls. *)
Lemma l_C80_tt_untouched_obstacles :
  forall (s : tt_self) circ' rect' (x0 : ttq) proj guide proj' guide' us,
  p_proj (ts_p s) = false -> p_guid (ts_p s) = false ->
  tt_sized (ts_p s) -> proper_obstacles (ts_circ s) (ts_rect s) ->
  incl circ' (ts_circ s) -> incl rect' (ts_rect s) ->
  let fewer := mkTTSelf (ts_p s) circ' rect' (ts_xg s) in
  let run := rollout_us (tt_step fewer proj' guide') (reset_state x0) us in
  (forall q, q = x0 \/ In q (snd (fst run)) -> tt_clear (ts_p s) (ts_circ s) (ts_rect s) q) ->
  snd (fst (rollout_us (tt_step s proj guide) (reset_state x0) us)) = snd (fst run) /\
  snd (rollout_us (tt_step s proj guide) (reset_state x0) us) = snd run.
Proof.
  intros s circ' rect' x0 proj guide proj' guide' us Hp Hg S O HC HR fewer run H.
  apply (roll_same_while (fun _ => True) (fun q => ts_coll s q = false)); [|exact I| |].
  - intros st st' a HS HQ. apply (tt_same_motion s circ' rect' HC HR Hp Hg proj guide proj' guide' st st' a HS).
    cbv zeta. unfold tt_step in HQ. rewrite (tt_step_shield fewer proj' guide' false st' a Hp Hg) in HQ. cbv zeta in HQ.
    cbn [st_q] in HQ. change (ts_p fewer) with (ts_p s) in HQ. set (qp := tt_plain _ _ _) in *.
    unfold tt_bad. cbn [ts_p]. apply bad_while; [apply tt_coll_fewer; assumption|].
    intros E. unfold tt_bad in HQ. change (ts_p fewer) with (ts_p s) in HQ. change (ts_hitch fewer) with (ts_hitch s) in HQ.
    change (enabled_bad (ts_p s) (ts_coll fewer) (ts_hitch s) qp = false) in E. rewrite E in HQ. exact HQ.
  - unfold tt_step. rewrite (tt_step_shield fewer proj' guide' false _ _ Hp Hg). cbv zeta. cbn [st_q reset_state st_bak where_].
    rewrite clip_act_zero, tt_plain_zero.
    match goal with |- ts_coll s (if ?b then _ else _) = _ => replace (if b then x0 else x0) with x0 by (destruct b; reflexivity) end.
    apply (tt_coll_iff (ts_p s) (ts_circ s) (ts_rect s) x0 S O). apply H. left. reflexivity.
  - intros q Hq. apply (tt_coll_iff (ts_p s) (ts_circ s) (ts_rect s) q S O). apply H. right. exact Hq.
Qed.

(** ** Bicycle *)
Section BK.
Variables (s : bk_self) (circ' : list circle) (rect' : list rectobs).
Hypotheses (HC : incl circ' (bs_circ s)) (HR : incl rect' (bs_rect s)).
Hypotheses (Hp : p_proj (bs_p s) = false) (Hg : p_guid (bs_p s) = false).
Let s' := mkBKSelf (bs_p s) circ' rect' (bs_xg s).
Lemma bk_coll_fewer q : bs_coll s' q = true -> bs_coll s q = true.
Proof.
  unfold bs_coll, bk_coll. cbn [s' bs_p bs_circ bs_rect]. cbv zeta. intros H. apply orb_true_iff in H. apply orb_true_iff.
  destruct H as [H|H]; [left; exact (existsb_incl _ _ _ HC H)|right; exact (existsb_incl _ _ _ HR H)].
Qed.
Lemma bk_same_motion proj guide proj' guide' st st' a : same_motion (fun _ => True) st st' ->
  (let qp := bk_plain (bs_p s) (st_q st') (where_ (st_bak st') (0, 0) (clip_act a)) in bk_bad s qp = bk_bad s' qp) ->
  same_motion (fun _ => True) (bk_step s proj guide st a) (bk_step s' proj' guide' st' a) /\
  (0 <= p_coll_pen (bs_p s) -> st_rew (bk_step s proj guide st a) <= st_rew (bk_step s' proj' guide' st' a)).
Proof.
  intros (A & _ & C & _). cbv zeta. unfold bk_step. rewrite (bk_step_shield s proj guide false st a Hp Hg).
  rewrite (bk_step_shield s' proj' guide' false st' a Hp Hg). cbv zeta. rewrite A, C.
  change (bs_p s') with (bs_p s). set (qp := bk_plain _ _ _). intros E. rewrite E.
  pose proof (bk_coll_fewer qp) as I. destruct (bk_bad s' qp); unfold same_motion; cbn [st_q st_app st_bak st_rew]; (split; [auto|]); intros HP;
    apply reward_fewer; assumption.
Qed.
End BK.

(** C80 for the bicycle: fewer obstacles are never worse. *)
Lemma l_C80_bk_fewer_obstacles_never_worse :
  forall (s : bk_self) circ' rect' (x0 : bkq) proj guide proj' guide' us,
  p_proj (bs_p s) = false -> p_guid (bs_p s) = false -> p_sh_coll (bs_p s) = false -> 0 <= p_coll_pen (bs_p s) ->
  incl circ' (bs_circ s) -> incl rect' (bs_rect s) ->
  let before := rollout_us_with_terminal (bk_step s proj guide) (bk_terminal s) (p_term_w (bs_p s)) (reset_state x0) us in
  let fewer := mkBKSelf (bs_p s) circ' rect' (bs_xg s) in
  let after := rollout_us_with_terminal (bk_step fewer proj' guide') (bk_terminal fewer) (p_term_w (bs_p fewer)) (reset_state x0) us in
  fst (fst before) <= fst (fst after) /\ snd (fst after) = snd (fst before) /\ snd after = snd before.
Proof.
  intros s circ' rect' x0 proj guide proj' guide' us Hp Hg Hs HP HC HR before fewer after.
  apply (roll_no_worse (fun _ => True)); [|exact I]. intros st st' a H.
  destruct (bk_same_motion s circ' rect' HC HR Hp Hg proj guide proj' guide' st st' a H) as [A B].
  - cbv zeta. set (qp := bk_plain _ _ _). unfold bk_bad, enabled_bad. cbn [bs_p]. rewrite Hs. reflexivity.
  - split; [exact A|exact (B HP)].
Qed.
(** C80 for the bicycle: untouched obstacles do not matter. *)
Lemma l_C80_bk_untouched_obstacles :
  forall (s : bk_self) circ' rect' (x0 : bkq) proj guide proj' guide' us,
  p_proj (bs_p s) = false -> p_guid (bs_p s) = false ->
  tractor_sized (bs_p s) -> proper_obstacles (bs_circ s) (bs_rect s) ->
  incl circ' (bs_circ s) -> incl rect' (bs_rect s) ->
  let fewer := mkBKSelf (bs_p s) circ' rect' (bs_xg s) in
  let run := rollout_us (bk_step fewer proj' guide') (reset_state x0) us in
  (forall q, q = x0 \/ In q (snd (fst run)) -> bk_safe (bs_p s) (bs_circ s) (bs_rect s) q) ->
  snd (fst (rollout_us (bk_step s proj guide) (reset_state x0) us)) = snd (fst run) /\
  snd (rollout_us (bk_step s proj guide) (reset_state x0) us) = snd run.
Proof.
  intros s circ' rect' x0 proj guide proj' guide' us Hp Hg S O HC HR fewer run H.
  apply (roll_same_while (fun _ => True) (fun q => bs_coll s q = false)); [|exact I| |].
  - intros st st' a HS HQ. apply (bk_same_motion s circ' rect' HC HR Hp Hg proj guide proj' guide' st st' a HS).
    cbv zeta. unfold bk_step in HQ. rewrite (bk_step_shield fewer proj' guide' false st' a Hp Hg) in HQ. cbv zeta in HQ.
    cbn [st_q] in HQ. change (bs_p fewer) with (bs_p s) in HQ. set (qp := bk_plain _ _ _) in *.
    unfold bk_bad. cbn [bs_p]. apply bad_while; [apply bk_coll_fewer; assumption|].
    intros E. unfold bk_bad in HQ. change (bs_p fewer) with (bs_p s) in HQ.
    change (enabled_bad (bs_p s) (bs_coll fewer) bk_hitch qp = false) in E. rewrite E in HQ. exact HQ.
  - unfold bk_step. rewrite (bk_step_shield fewer proj' guide' false _ _ Hp Hg). cbv zeta. cbn [st_q reset_state st_bak where_].
    rewrite clip_act_zero, bk_plain_zero.
    match goal with |- bs_coll s (if ?b then _ else _) = _ => replace (if b then x0 else x0) with x0 by (destruct b; reflexivity) end.
    apply (bk_coll_iff (bs_p s) (bs_circ s) (bs_rect s) x0 S O). apply H. left. reflexivity.
  - intros q Hq. apply (bk_coll_iff (bs_p s) (bs_circ s) (bs_rect s) q S O). apply H. right. exact Hq.
Qed.

(** ** N trailers *)
Section NT.
Variables (s : nt_self) (circ' : list circle) (rect' : list rectobs).
Hypotheses (HC : incl circ' (ns_circ s)) (HR : incl rect' (ns_rect s)).
Hypotheses (Hg : p_guid (ns_p s) = false) (HL : length (ns_len s) = ns_N s).
Let s' := mkNTSelf (ns_p s) (ns_len s) (ns_front s) (ns_rear s) circ' rect' (ns_xg s).
Lemma nt_coll_fewer q : ns_coll s' q = true -> ns_coll s q = true.
Proof.
  unfold ns_coll, nt_coll. cbn [s' ns_p ns_circ ns_rect]. cbv zeta. intros H.
  change (nt_tractor_corners s') with (nt_tractor_corners s) in H. change (nt_trailer_corners s') with (nt_trailer_corners s) in H.
  rewrite !orb_true_iff in *. destruct H as [[H|H]|[H|H]].
  - left. left. exact (existsb_incl _ _ _ HC H).
  - left. right. apply existsb_exists in H. destruct H as (r & Hr & H). apply existsb_exists. exists r. split; [exact Hr|exact (existsb_incl _ _ _ HC H)].
  - right. left. exact (existsb_incl _ _ _ HR H).
  - right. right. apply existsb_exists in H. destruct H as (r & Hr & H). apply existsb_exists. exists r. split; [exact Hr|exact (existsb_incl _ _ _ HR H)].
Qed.
Lemma nt_same_motion guide guide' st st' a : same_motion (nt_valid s) st st' ->
  (let qp := nt_plain s (st_q st') (where_ (st_bak st') (0, 0) (clip_act a)) in nt_bad s qp = nt_bad s' qp) ->
  same_motion (nt_valid s) (nt_step_core s guide false st a) (nt_step_core s' guide' false st' a) /\
  (0 <= p_coll_pen (ns_p s) -> st_rew (nt_step_core s guide false st a) <= st_rew (nt_step_core s' guide' false st' a)).
Proof.
  intros (A & _ & C & V). assert (V' : nt_valid s' (st_q st')) by (rewrite <- A; exact V). cbv zeta.
  rewrite (nt_step_shield s guide false st a Hg HL V).
  rewrite (nt_step_shield s' guide' false st' a Hg HL V'). cbv zeta. rewrite A, C. change (nt_plain s') with (nt_plain s).
  change (ns_p s') with (ns_p s).
  assert (W : nt_valid s (nt_plain s (st_q st') (where_ (st_bak st') (0, 0) (clip_act a)))) by (apply nt_plain_valid; assumption).
  rewrite A in V. set (qp := nt_plain _ _ _) in *. intros E. rewrite E.
  change (nt_hitch s' qp) with (nt_hitch s qp).
  pose proof (nt_coll_fewer qp) as I. destruct (nt_bad s' qp); unfold same_motion; cbn [st_q st_app st_bak st_rew]; (split; [auto|]); intros HP;
    apply reward_fewer; assumption.
Qed.
End NT.

(** C80 for N trailers: fewer obstacles are never worse. *)
Lemma l_C80_nt_fewer_obstacles_never_worse :
  forall (s : nt_self) circ' rect' (x0 : ntq) guide guide' us,
  p_guid (ns_p s) = false -> length (ns_len s) = p_num_trailers (ns_p s) -> length (n_ths x0) = p_num_trailers (ns_p s) ->
  p_sh_coll (ns_p s) = false -> 0 <= p_coll_pen (ns_p s) ->
  incl circ' (ns_circ s) -> incl rect' (ns_rect s) ->
  let before := rollout_us_with_terminal (nt_step_core s guide false) (nt_terminal s) (p_term_w (ns_p s)) (reset_state x0) us in
  let fewer := mkNTSelf (ns_p s) (ns_len s) (ns_front s) (ns_rear s) circ' rect' (ns_xg s) in
  let after := rollout_us_with_terminal (nt_step_core fewer guide' false) (nt_terminal fewer) (p_term_w (ns_p fewer)) (reset_state x0) us in
  fst (fst before) <= fst (fst after) /\ snd (fst after) = snd (fst before) /\ snd after = snd before.
Proof.
  intros s circ' rect' x0 guide guide' us Hg HL HV Hs HP HC HR before fewer after.
  apply (roll_no_worse (nt_valid s)); [|exact HV]. intros st st' a H.
  destruct (nt_same_motion s circ' rect' HC HR Hg HL guide guide' st st' a H) as [A B].
  - cbv zeta. set (qp := nt_plain _ _ _). unfold nt_bad, enabled_bad. cbn [ns_p]. rewrite Hs. reflexivity.
  - split; [exact A|exact (B HP)].
Qed.
(** C80 for N trailers: untouched obstacles do not matter. *)
Lemma l_C80_nt_untouched_obstacles :
  forall (s : nt_self) circ' rect' (x0 : ntq) guide guide' us,
  p_guid (ns_p s) = false ->
  nt_sized s -> length (n_ths x0) = p_num_trailers (ns_p s) -> proper_obstacles (ns_circ s) (ns_rect s) ->
  incl circ' (ns_circ s) -> incl rect' (ns_rect s) ->
  let fewer := mkNTSelf (ns_p s) (ns_len s) (ns_front s) (ns_rear s) circ' rect' (ns_xg s) in
  let run := rollout_us (nt_step_core fewer guide' false) (reset_state x0) us in
  (forall q, q = x0 \/ In q (snd (fst run)) -> nt_clear s q) ->
  snd (fst (rollout_us (nt_step_core s guide false) (reset_state x0) us)) = snd (fst run) /\
  snd (rollout_us (nt_step_core s guide false) (reset_state x0) us) = snd run.
Proof.
  intros s circ' rect' x0 guide guide' us Hg S HV O HC HR fewer run H.
  assert (HL : length (ns_len s) = ns_N s) by (destruct S as (_ & _ & E & _); exact E).
  apply (roll_same_while (nt_valid s) (nt_clear s)); [|exact HV| |].
  - intros st st' a HS HQ. apply (nt_same_motion s circ' rect' HC HR Hg HL guide guide' st st' a HS).
    cbv zeta. assert (V' : nt_valid s (st_q st')) by (destruct HS as (A & _ & _ & V); rewrite <- A; exact V).
    rewrite (nt_step_shield fewer guide' false st' a Hg HL V') in HQ. cbv zeta in HQ.
    cbn [st_q] in HQ. change (nt_plain fewer) with (nt_plain s) in HQ.
    assert (W : nt_valid s (nt_plain s (st_q st') (where_ (st_bak st') (0, 0) (clip_act a)))) by (apply nt_plain_valid; assumption).
    set (qp := nt_plain _ _ _) in *.
    unfold nt_bad. cbn [ns_p]. apply bad_while; [apply nt_coll_fewer; assumption|].
    intros E. unfold nt_bad in HQ. change (ns_p fewer) with (ns_p s) in HQ. change (nt_hitch fewer) with (nt_hitch s) in HQ.
    change (enabled_bad (ns_p s) (ns_coll fewer) (nt_hitch s) qp = false) in E. rewrite E in HQ. apply (nt_coll_iff s qp S O W). exact HQ.
  - rewrite (nt_step_shield fewer guide' false (reset_state x0) (0, 0) Hg HL HV). cbv zeta. change (nt_plain fewer) with (nt_plain s). cbn [st_q reset_state st_bak where_].
    rewrite clip_act_zero, nt_plain_zero by assumption.
    match goal with |- nt_clear s (if ?b then _ else _) => replace (if b then x0 else x0) with x0 by (destruct b; reflexivity) end.
    apply H. left. reflexivity.
  - intros q Hq. apply H. right. exact Hq.
Qed.

(** The default vehicle drives one step of 0.6 m straight ahead in an empty world; it stays clear of the circle and the wall of
    the example scene, so the same command moves it in the same way there, shields on. *)
Lemma ex_ahead_clear x : 0 <= x <= 10 -> tt_clear default_params ex_circ ex_rect (mkTT x 0 0 0).
Proof.
  intros Hx. split; intros g c [<-|[<-|[]]] Hc; apply ex_clear_h0; auto; unfold default_params; cbn; rewrite ?sin_0, ?cos_0; lra.
Qed.
Lemma ex_one_step : tt_plain default_params (mkTT 0 0 0 0) (1, 0) = mkTT (6 / 10) 0 0 0.
Proof.
  unfold tt_plain. cbn [fst snd t_px t_py t_th1 t_th2]. change (p_vmax default_params) with 3. change (p_dt default_params) with (2 / 10).
  rewrite Rmult_0_l, tan_0, Rminus_0_r, sin_0, cos_0, !Rmult_0_r. f_equal; [lra|lra|lra|].
  unfold Rdiv, Rminus. ring.
Qed.
Lemma x_C80_one_step_ahead : forall proj guide,
  snd (fst (rollout_us (tt_step ex_tt proj guide) (reset_state (mkTT 0 0 0 0)) [(1, 0)]))
  = snd (fst (rollout_us (tt_step (mkTTSelf default_params [] [] (mkTT 0 0 PI PI)) proj guide) (reset_state (mkTT 0 0 0 0)) [(1, 0)])).
Proof.
  intros proj guide.
  refine (proj1 (l_C80_tt_untouched_obstacles ex_tt [] [] (mkTT 0 0 0 0) proj guide proj guide [(1, 0)] eq_refl eq_refl default_sized _ _ _ _)).
  - split; [intros c [<-|[]]; cbn; lra|intros o [<-|[]]; cbn; lra].
  - intros c [].
  - intros o [].
  - intros q Hq. change (ts_p ex_tt) with default_params. change (ts_circ ex_tt) with ex_circ. change (ts_rect ex_tt) with ex_rect.
    assert (E : q = mkTT 0 0 0 0 \/ q = mkTT (6 / 10) 0 0 0); [|destruct E as [->| ->]; apply ex_ahead_clear; lra].
    destruct Hq as [Hq|Hq]; [left; exact Hq|]. revert Hq. unfold rollout_us. cbn [scan_us]. cbn [fst snd map In]. intros [Hq|[]].
    revert Hq. unfold tt_step. set (w := mkTTSelf _ _ _ _).
    rewrite (tt_step_shield w proj guide false _ (0, 0) eq_refl eq_refl). cbv zeta. cbn [st_q reset_state st_bak where_].
    rewrite clip_act_zero, tt_plain_zero.
    replace (if tt_bad w (mkTT 0 0 0 0) then mkTT 0 0 0 0 else mkTT 0 0 0 0) with (mkTT 0 0 0 0) by (destruct (tt_bad w (mkTT 0 0 0 0)); reflexivity).
    rewrite (tt_step_shield w proj guide false _ (1, 0) eq_refl eq_refl). cbv zeta. cbn [st_q st_bak where_].
    replace (clip_act (1, 0)) with (1, 0) by (unfold clip_act; cbn [fst snd]; rewrite !clip_id by lra; reflexivity).
    change (ts_p w) with default_params. rewrite ex_one_step. destruct (tt_bad w _); intros <-; [left|right]; reflexivity.
Qed.
