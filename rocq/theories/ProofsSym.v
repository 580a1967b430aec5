(** * ProofsSym: winding invariance (C17) and world-frame invariance (C45). *)
From Verif Require Import Base BaseFacts Params Geom TT2d Bicycle NTrailer SpecGeom SpecBodies SpecDyn SpecSym
  Rollout Planner Instances ProofsGeom ProofsBodies ProofsKin ProofsRobots ProofsSafety ProofsSim.

(** ** Step simulation from its ingredients *)
Lemma tt_step_sim (Rel : ttq -> ttq -> Prop) s s' proj proj' guide guide' viz :
  ts_p s' = ts_p s ->
  (forall q q' u, Rel q q' -> Rel (tt_euler (ts_p s) q u) (tt_euler (ts_p s) q' u)) ->
  (forall q q', Rel q q' -> ts_coll s q = ts_coll s' q') ->
  (forall q q', Rel q q' -> ts_hitch s q = ts_hitch s' q') ->
  (forall q q', Rel q q' -> tt_reward s q = tt_reward s' q') ->
  (forall q q' a, Rel q q' -> proj q a = proj' q' a) ->
  (forall q q', Rel q q' -> Rel (guide q) (guide' q')) ->
  sim_step Rel (tt_step_internal s proj guide viz) (tt_step_internal s' proj' guide' viz).
Proof.
  intros Ep He Hc Hh Hr Hp Hg st st' a (Hq & _ & _ & Hb).
  unfold tt_step_internal, tt_step_with. rewrite Ep, <- Hb. cbv zeta.
  rewrite <- (Hp _ _ (clip_act a) Hq).
  destruct (p_proj (ts_p s)); [|destruct (p_guid (ts_p s))].
  - unfold sim_state; cbn [st_q st_rew st_app st_bak]. assert (R1 := He _ _ (input_scaler (ts_p s) (proj (st_q st) (clip_act a))) Hq).
    rewrite <- (Hr _ _ R1). auto.
  - assert (R1 := He _ _ (input_scaler (ts_p s) (@where_ act (st_bak st) (0, 0) (clip_act a))) Hq).
    assert (R2 := Hg _ _ R1). rewrite <- (Hc _ _ R2), <- (Hh _ _ R2), <- (Hr _ _ R2).
    unfold sim_state; cbn [st_q st_rew st_app st_bak]. destruct viz; auto.
  - assert (R1 := He _ _ (input_scaler (ts_p s) (@where_ act (st_bak st) (0, 0) (clip_act a))) Hq).
    rewrite !shield_dispatch. unfold enabled_bad. rewrite <- (Hc _ _ R1), <- (Hh _ _ R1).
    unfold sim_state; cbn [st_q st_rew st_app st_bak].
    match goal with |- context [if ?b then st_q st else _] => destruct b end; [rewrite <- (Hr _ _ Hq)|rewrite <- (Hr _ _ R1)]; auto.
Qed.
Lemma bk_step_sim (Rel : bkq -> bkq -> Prop) s s' proj proj' guide guide' viz :
  bs_p s' = bs_p s ->
  (forall q q' u, Rel q q' -> Rel (bk_euler (bs_p s) q u) (bk_euler (bs_p s) q' u)) ->
  (forall q q', Rel q q' -> bs_coll s q = bs_coll s' q') ->
  (forall q q', Rel q q' -> bk_reward s q = bk_reward s' q') ->
  (forall q q' a, Rel q q' -> proj q a = proj' q' a) ->
  (forall q q', Rel q q' -> Rel (guide q) (guide' q')) ->
  sim_step Rel (bk_step_internal s proj guide viz) (bk_step_internal s' proj' guide' viz).
Proof.
  intros Ep He Hc Hr Hp Hg st st' a (Hq & _ & _ & Hb).
  unfold bk_step_internal, bk_step_with. rewrite Ep, <- Hb. cbv zeta.
  rewrite <- (Hp _ _ (clip_act a) Hq).
  destruct (p_proj (bs_p s)); [|destruct (p_guid (bs_p s))].
  - unfold sim_state; cbn [st_q st_rew st_app st_bak]. assert (R1 := He _ _ (input_scaler (bs_p s) (proj (st_q st) (clip_act a))) Hq).
    rewrite <- (Hr _ _ R1), <- (Hc _ _ R1). auto.
  - assert (R1 := He _ _ (input_scaler (bs_p s) (@where_ act (st_bak st) (0, 0) (clip_act a))) Hq).
    assert (R2 := Hg _ _ R1). rewrite <- (Hc _ _ R2), <- (Hr _ _ R2).
    unfold sim_state; cbn [st_q st_rew st_app st_bak]. destruct viz; auto.
  - assert (R1 := He _ _ (input_scaler (bs_p s) (@where_ act (st_bak st) (0, 0) (clip_act a))) Hq).
    rewrite !shield_dispatch. unfold enabled_bad. rewrite <- (Hc _ _ R1). change (bk_hitch (bk_euler (bs_p s) (st_q st') (input_scaler (bs_p s) (@where_ act (st_bak st) (0, 0) (clip_act a))))) with false.
    change (bk_hitch (bk_euler (bs_p s) (st_q st) (input_scaler (bs_p s) (@where_ act (st_bak st) (0, 0) (clip_act a))))) with false.
    unfold sim_state; cbn [st_q st_rew st_app st_bak].
    match goal with |- context [if ?b then st_q st else _] => destruct b end; [rewrite <- (Hr _ _ Hq)|rewrite <- (Hr _ _ R1)]; auto.
Qed.
Lemma nt_step_sim (Rel : ntq -> ntq -> Prop) s s' guide guide' viz :
  ns_p s' = ns_p s ->
  (forall q q' u, Rel q q' -> Rel (nt_euler s q u) (nt_euler s' q' u)) ->
  (forall q q', Rel q q' -> ns_coll s q = ns_coll s' q') ->
  (forall q q', Rel q q' -> nt_hitch s q = nt_hitch s' q') ->
  (forall q q', Rel q q' -> nt_reward s q = nt_reward s' q') ->
  (forall q q', Rel q q' -> Rel (guide q) (guide' q')) ->
  sim_step Rel (nt_step_core s guide viz) (nt_step_core s' guide' viz).
Proof.
  intros Ep He Hc Hh Hr Hg st st' a (Hq & _ & _ & Hb).
  unfold nt_step_core, nt_step_with. rewrite Ep, <- Hb. cbv zeta.
  destruct (p_guid (ns_p s)).
  - assert (R1 := He _ _ (input_scaler (ns_p s) (@where_ act (st_bak st) (0, 0) (clip_act a))) Hq).
    assert (R2 := Hg _ _ R1). rewrite <- (Hc _ _ R2), <- (Hh _ _ R2), <- (Hr _ _ R2).
    unfold sim_state; cbn [st_q st_rew st_app st_bak]. destruct viz; auto.
  - assert (R1 := He _ _ (input_scaler (ns_p s) (@where_ act (st_bak st) (0, 0) (clip_act a))) Hq).
    rewrite !shield_dispatch. unfold enabled_bad. rewrite <- (Hc _ _ R1), <- (Hh _ _ R1).
    unfold sim_state; cbn [st_q st_rew st_app st_bak].
    match goal with |- context [if ?b then st_q st else _] => destruct b end; [rewrite <- (Hr _ _ Hq)|rewrite <- (Hr _ _ R1)]; auto.
Qed.

(** ** C17: headings only matter modulo whole turns *)
Lemma turns_refl a : turns a a.
Proof. exists 0%Z. ring. Qed.
Lemma turns_cos a b : turns a b -> cos b = cos a.
Proof. intros [k ->]. apply cos_shift. Qed.
Lemma turns_sin a b : turns a b -> sin b = sin a.
Proof. intros [k ->]. apply sin_shift. Qed.
Lemma turns_minus a b c d : turns a b -> turns c d -> turns (a - c) (b - d).
Proof. intros [k ->] [j ->]. exists (k - j)%Z. rewrite minus_IZR. ring. Qed.
Lemma turns_add a b c : turns a b -> turns (a + c) (b + c).
Proof. intros [k ->]. exists k. ring. Qed.
Lemma turns_wrap a b : turns a b -> wrap_pi b = wrap_pi a.
Proof. intros [k ->]. apply wrap_pi_shift. Qed.
Lemma box_corners_turns cx cy a b hl hw : turns a b -> box_corners cx cy b hl hw = box_corners cx cy a hl hw.
Proof. intros H. unfold box_corners, box_corner. rewrite (turns_cos _ _ H), (turns_sin _ _ H). reflexivity. Qed.
Lemma tractor_corners_turns p x y a b : turns a b -> tractor_corners p x y b = tractor_corners p x y a.
Proof. intros H. unfold tractor_corners. rewrite (turns_cos _ _ H), (turns_sin _ _ H). apply box_corners_turns; auto. Qed.

(** C17, tractor-trailer: two poses that differ only by whole turns of the headings get the
    same collision and hitch verdicts and the same rewards (goal headings likewise). *)
Lemma l_C17_tt_winding :
  forall (s : tt_self) (xg' q q' : ttq), tt_same_pose q q' -> tt_same_pose (ts_xg s) xg' ->
  let s' := mkTTSelf (ts_p s) (ts_circ s) (ts_rect s) xg' in
  tt_coll (ts_p s) (ts_circ s) (ts_rect s) q' = tt_coll (ts_p s) (ts_circ s) (ts_rect s) q /\
  tt_hitch (ts_p s) q' = tt_hitch (ts_p s) q /\
  tt_reward s' q' = tt_reward s q /\ tt_terminal s' q' = tt_terminal s q.
Proof.
  intros s xg' q q' (Ex & Ey & H1 & H2) (Gx & Gy & G1 & G2). cbv zeta.
  assert (Ed : tt_dpos (ts_p s) xg' q' = tt_dpos (ts_p s) (ts_xg s) q).
  { unfold tt_dpos, tt_trailer_pos. rewrite Ex, Ey, Gx, Gy, (turns_cos _ _ H1), (turns_sin _ _ H1), (turns_cos _ _ H2),
      (turns_sin _ _ H2), (turns_cos _ _ G1), (turns_sin _ _ G1), (turns_cos _ _ G2), (turns_sin _ _ G2). reflexivity. }
  split; [|split; [|split]].
  - unfold tt_coll, tt_tractor_corners, tt_trailer_corners. rewrite Ex, Ey, (turns_cos _ _ H1), (turns_sin _ _ H1),
      (turns_cos _ _ H2), (turns_sin _ _ H2), (tractor_corners_turns _ _ _ _ _ H1).
    rewrite !(box_corners_turns _ _ _ _ _ _ H2). reflexivity.
  - unfold tt_hitch. rewrite (turns_wrap (t_th1 q - t_th2 q) (t_th1 q' - t_th2 q')); auto. apply turns_minus; auto.
  - unfold tt_reward. cbn [ts_p ts_xg]. rewrite Ed.
    rewrite (turns_wrap (t_th1 q - t_th1 (ts_xg s)) (t_th1 q' - t_th1 xg')) by (apply turns_minus; auto).
    rewrite (turns_wrap (t_th2 q - t_th1 (ts_xg s)) (t_th2 q' - t_th1 xg')) by (apply turns_minus; auto).
    rewrite (turns_wrap (t_th1 q - t_th1 (ts_xg s) - PI) (t_th1 q' - t_th1 xg' - PI)) by (apply turns_add; apply turns_minus; auto).
    rewrite (turns_wrap (t_th2 q - t_th1 (ts_xg s) - PI) (t_th2 q' - t_th1 xg' - PI)) by (apply turns_add; apply turns_minus; auto).
    rewrite (turns_wrap (t_th1 q - t_th2 q) (t_th1 q' - t_th2 q')) by (apply turns_minus; auto). reflexivity.
  - unfold tt_terminal. cbn [ts_p ts_xg]. rewrite Ed. reflexivity.
Qed.
Lemma l_C17_bk_winding :
  forall (s : bk_self) (xg' q q' : bkq), bk_same_pose q q' -> bk_same_pose (bs_xg s) xg' ->
  let s' := mkBKSelf (bs_p s) (bs_circ s) (bs_rect s) xg' in
  bk_coll (bs_p s) (bs_circ s) (bs_rect s) q' = bk_coll (bs_p s) (bs_circ s) (bs_rect s) q /\
  bk_reward s' q' = bk_reward s q /\ bk_terminal s' q' = bk_terminal s q.
Proof.
  intros s xg' q q' (Ex & Ey & H1) (Gx & Gy & G1). cbv zeta.
  assert (Ed : bk_dpos (bs_p s) xg' q' = bk_dpos (bs_p s) (bs_xg s) q).
  { unfold bk_dpos. rewrite Ex, Ey, Gx, Gy, (turns_cos _ _ H1), (turns_sin _ _ H1). reflexivity. }
  split; [|split].
  - unfold bk_coll, bk_corners. rewrite Ex, Ey, (tractor_corners_turns _ _ _ _ _ H1). reflexivity.
  - unfold bk_reward. cbn [bs_p bs_xg]. rewrite Ed.
    rewrite (turns_wrap (b_th q - b_th (bs_xg s)) (b_th q' - b_th xg')) by (apply turns_minus; auto).
    rewrite (turns_wrap (b_th q - b_th (bs_xg s) - PI) (b_th q' - b_th xg' - PI)) by (apply turns_add; apply turns_minus; auto). reflexivity.
  - unfold bk_terminal. cbn [bs_p bs_xg]. rewrite Ed. reflexivity.
Qed.

Lemma Forall2_nth' {A B} (P : A -> B -> Prop) l m i da db : Forall2 P l m -> P da db -> P (nth i l da) (nth i m db).
Proof. intros F H. revert i; induction F; intros [|i]; simpl; auto. Qed.
Lemma Forall2_len {A B} (P : A -> B -> Prop) l m : Forall2 P l m -> length l = length m.
Proof. induction 1; simpl; auto. Qed.
Lemma jget_turns l l' i : Forall2 turns l l' -> turns (jget l i) (jget l' i).
Proof.
  intros F. unfold jget. rewrite <- (Forall2_len _ _ _ F). apply Forall2_nth'; auto. apply turns_refl.
Qed.
Lemma fold_left_rel {A A' B} (P : A -> A' -> Prop) (f : A -> B -> A) (f' : A' -> B -> A') l :
  (forall a a' b, In b l -> P a a' -> P (f a b) (f' a' b)) ->
  forall a a', P a a' -> P (fold_left f l a) (fold_left f' l a').
Proof.
  induction l as [|x l IH]; intros H a a' H0; simpl; auto. apply IH.
  - intros; apply H; simpl; auto.
  - apply H; simpl; auto.
Qed.
Lemma fold_left_eq {A B} (f f' : A -> B -> A) l : (forall a b, In b l -> f a b = f' a b) ->
  forall a, fold_left f l a = fold_left f' l a.
Proof.
  intros H a. apply (fold_left_rel (fun x y => x = y) f f' l); auto. intros a1 a2 b Hb <-. auto.
Qed.
Lemma nt_last_turns s s' x x' : ns_p s' = ns_p s -> ns_len s' = ns_len s -> ns_front s' = ns_front s ->
  nt_same_pose x x' -> nt_last_pos s' x' = nt_last_pos s x.
Proof.
  intros Ep El Ef (Ex & Ey & H0 & HF). unfold nt_last_pos, ns_N. rewrite Ep, Ex, Ey, (turns_cos _ _ H0), (turns_sin _ _ H0).
  f_equal. apply fold_left_eq. intros [[hx hy] c] i _. unfold nt_last_body. rewrite El, Ef.
  pose proof (jget_turns _ _ i HF) as Hj. rewrite (turns_cos _ _ Hj), (turns_sin _ _ Hj). reflexivity.
Qed.
Lemma nt_hitch_scan_turns phi l l' : Forall2 turns l l' -> forall a a' v, turns a a' ->
  nt_hitch_scan phi a' v l' = nt_hitch_scan phi a v l.
Proof.
  induction 1 as [|x y l l' Hxy F IH]; intros a a' v Ha; simpl; auto.
  rewrite (turns_wrap (a - x) (a' - y)) by (apply turns_minus; auto). apply IH; auto.
Qed.
Lemma Forall2_firstn {A B} (P : A -> B -> Prop) l m n : Forall2 P l m -> Forall2 P (firstn n l) (firstn n m).
Proof. intros F. revert n; induction F; intros [|n]; simpl; constructor; auto. Qed.
Lemma Forall2_tl {A B} (P : A -> B -> Prop) l m : Forall2 P l m -> Forall2 P (tl l) (tl m).
Proof. intros F. destruct F; simpl; auto. Qed.
(** C17, N trailers (any N). *)
Lemma l_C17_nt_winding :
  forall (s : nt_self) (xg' q q' : ntq), nt_same_pose q q' -> nt_same_pose (ns_xg s) xg' ->
  let s' := mkNTSelf (ns_p s) (ns_len s) (ns_front s) (ns_rear s) (ns_circ s) (ns_rect s) xg' in
  nt_coll s (ns_circ s) (ns_rect s) q' = nt_coll s (ns_circ s) (ns_rect s) q /\
  nt_hitch s q' = nt_hitch s q /\
  nt_reward s' q' = nt_reward s q /\ nt_terminal s' q' = nt_terminal s q.
Proof.
  intros s xg' q q' Hq Hg. cbv zeta. set (s' := mkNTSelf _ _ _ _ _ _ _).
  assert (Ed : nt_dpos s' q' = nt_dpos s q).
  { unfold nt_dpos. cbn [ns_p ns_xg s'].
    rewrite (nt_last_turns s s' q q'), (nt_last_turns s s' (ns_xg s) xg') by auto.
    destruct Hq as (Ex & Ey & H0 & _). destruct Hg as (Gx & Gy & _ & _).
    rewrite Ex, Ey, Gx, Gy, (turns_cos _ _ H0), (turns_sin _ _ H0). reflexivity. }
  destruct Hq as (Ex & Ey & H0 & HF).
  split; [|split; [|split]].
  - assert (Et : nt_tractor_corners s q' = nt_tractor_corners s q).
    { unfold nt_tractor_corners. rewrite Ex, Ey. apply tractor_corners_turns; auto. }
    assert (Er : nt_trailer_corners s q' = nt_trailer_corners s q).
    { unfold nt_trailer_corners. rewrite Ex, Ey, (turns_cos _ _ H0), (turns_sin _ _ H0). f_equal.
      apply fold_left_eq. intros [[hx hy] out] i _. unfold nt_rect_body.
      pose proof (jget_turns _ _ i HF) as Hj. rewrite (turns_cos _ _ Hj), (turns_sin _ _ Hj).
      rewrite (box_corners_turns _ _ _ _ _ _ Hj). reflexivity. }
    unfold nt_coll. rewrite Et, Er. reflexivity.
  - unfold nt_hitch.
    assert (F : Forall2 turns (firstn (ns_N s) (n_ths q)) (firstn (ns_N s) (n_ths q'))) by (apply Forall2_firstn; auto).
    assert (Hj := jget_turns _ _ 0 F).
    rewrite (turns_wrap (n_th0 q - jget (firstn (ns_N s) (n_ths q)) 0) (n_th0 q' - jget (firstn (ns_N s) (n_ths q')) 0)) by (apply turns_minus; auto).
    apply nt_hitch_scan_turns; auto. apply Forall2_tl; auto.
  - unfold nt_reward. rewrite Ed. reflexivity.
  - unfold nt_terminal. rewrite Ed. reflexivity.
Qed.

(** Motion commutes with whole turns. *)
Lemma tt_euler_turns p q q' u : tt_same_pose q q' -> tt_same_pose (tt_euler p q u) (tt_euler p q' u).
Proof.
  intros (Ex & Ey & H1 & H2). destruct u as [v d].
  assert (H12 := turns_minus _ _ _ _ H1 H2).
  unfold tt_euler, euler, tt_axpy, tt_dyn, tt_same_pose; cbn [t_px t_py t_th1 t_th2].
  rewrite Ex, Ey, (turns_cos _ _ H1), (turns_sin _ _ H1), (turns_cos _ _ H12), (turns_sin _ _ H12).
  repeat split; apply turns_add; auto.
Qed.
Lemma bk_euler_turns p q q' u : bk_same_pose q q' -> bk_same_pose (bk_euler p q u) (bk_euler p q' u).
Proof.
  intros (Ex & Ey & H1). destruct u as [v d].
  unfold bk_euler, euler, bk_axpy, bk_dyn, bk_same_pose; cbn [b_px b_py b_th].
  rewrite Ex, Ey, (turns_cos _ _ H1), (turns_sin _ _ H1). repeat split; apply turns_add; auto.
Qed.
Lemma Forall2_map2_add l l' k c : Forall2 turns l l' ->
  Forall2 turns (map2 (fun a b => a + c * b) l k) (map2 (fun a b => a + c * b) l' k).
Proof. intros F. revert k; induction F; intros [|z k]; simpl; constructor; auto. apply turns_add; auto. Qed.
Lemma nt_dyn_turns s s' q q' u : ns_p s' = ns_p s -> ns_len s' = ns_len s -> nt_same_pose q q' -> nt_dyn s' q' u = nt_dyn s q u.
Proof.
  intros Ep El (Ex & Ey & H0 & HF). destruct u as [v d]. unfold nt_dyn, ns_N. rewrite Ep.
  rewrite (turns_cos _ _ H0), (turns_sin _ _ H0). f_equal.
  set (P := fun c c' : nt_carry => turns (k_theta c) (k_theta c') /\ k_dot c' = k_dot c /\ k_speed c' = k_speed c /\ k_dots c' = k_dots c).
  set (i1 := mkNTC _ _ _ _). set (i2 := mkNTC _ _ _ _).
  match goal with |- k_dots (fold_left ?f ?l i1) = k_dots (fold_left ?f' ?l i2) =>
    assert (H : P (fold_left f' l i2) (fold_left f l i1)) end.
  { apply fold_left_rel; [|repeat split; auto].
    intros c c' i _ (A & B & C & D). unfold nt_dyn_body. rewrite Ep, El.
    pose proof (jget_turns _ _ i HF) as Hj. assert (Hd := turns_minus _ _ _ _ A Hj).
    rewrite B, C, D, (turns_cos _ _ Hd), (turns_sin _ _ Hd). repeat split; auto. }
  apply H.
Qed.
Lemma nt_euler_turns s s' q q' u : ns_p s' = ns_p s -> ns_len s' = ns_len s -> nt_same_pose q q' ->
  nt_same_pose (nt_euler s q u) (nt_euler s' q' u).
Proof.
  intros Ep El H. unfold nt_euler, euler. rewrite (nt_dyn_turns s s' q q') by auto. rewrite Ep.
  destruct H as (Ex & Ey & H0 & HF). unfold nt_axpy, nt_same_pose; cbn [n_px n_py n_th0 n_ths].
  rewrite Ex, Ey. repeat split; [apply turns_add; auto|apply Forall2_map2_add; auto].
Qed.

(** C17: planning from a start that differs by whole turns gives the same plan, the same
    final reward and the same trajectory up to whole turns — in every mode, provided the
    demonstration score, projection and guidance respect whole turns as well. *)
Lemma l_C17_tt_plan_winding :
  forall (s : tt_self) (x0 x0' xg' : ttq) proj guide logpd rx (g : cfg) (rg : prng) out out',
  tt_same_pose x0 x0' -> tt_same_pose (ts_xg s) xg' ->
  (forall q q' a, tt_same_pose q q' -> proj q a = proj q' a) ->
  (forall q q', tt_same_pose q q' -> tt_same_pose (guide q) (guide q')) ->
  (forall qs qs' m, Forall2 tt_same_pose qs qs' -> logpd qs m = logpd qs' m) ->
  run_diffusion (tt_penv s x0 proj guide logpd rx) (Some g) rg = Ok out ->
  run_diffusion (tt_penv (mkTTSelf (ts_p s) (ts_circ s) (ts_rect s) xg') x0' proj guide logpd rx) (Some g) rg = Ok out' ->
  o_Y0 out' = o_Y0 out /\ o_rew out' = o_rew out /\ Forall2 tt_same_pose (o_traj out) (o_traj out').
Proof.
  intros s x0 x0' xg' proj guide logpd rx g rg out out' H0 Hg Hp Hgd Hl E E'.
  injection E as <-. injection E' as <-. set (s' := mkTTSelf _ _ _ _).
  assert (W : forall q q', tt_same_pose q q' -> _) by (intros q q' Hq; exact (l_C17_tt_winding s xg' q q' Hq Hg)).
  cbv zeta in W. fold s' in W.
  assert (S : forall viz, sim_step tt_same_pose (tt_step_internal s proj guide viz) (tt_step_internal s' proj guide viz)).
  { intros viz. apply tt_step_sim; auto.
    - intros q q' u Hq. apply tt_euler_turns; auto.
    - intros q q' Hq. destruct (W q q' Hq) as (A & B & C & D). symmetry; exact A.
    - intros q q' Hq. destruct (W q q' Hq) as (A & B & C & D). symmetry; exact B.
    - intros q q' Hq. destruct (W q q' Hq) as (A & B & C & D). symmetry; exact C. }
  assert (E : sim_env tt_same_pose (tt_penv s x0 proj guide logpd rx) (tt_penv s' x0' proj guide logpd rx)).
  { constructor; try reflexivity; try apply S; auto.
    - repeat split; apply H0.
    - intros q q' Hq. destruct (W q q' Hq) as (A & B & C & D). symmetry; exact D. }
  destruct (run_sim _ _ _ g rg E) as (A & B & _ & D). repeat split; auto.
Qed.
Lemma l_C17_bk_plan_winding :
  forall (s : bk_self) (x0 x0' xg' : bkq) proj guide logpd rx (g : cfg) (rg : prng) out out',
  bk_same_pose x0 x0' -> bk_same_pose (bs_xg s) xg' ->
  (forall q q' a, bk_same_pose q q' -> proj q a = proj q' a) ->
  (forall q q', bk_same_pose q q' -> bk_same_pose (guide q) (guide q')) ->
  (forall qs qs' m, Forall2 bk_same_pose qs qs' -> logpd qs m = logpd qs' m) ->
  run_diffusion (bk_penv s x0 proj guide logpd rx) (Some g) rg = Ok out ->
  run_diffusion (bk_penv (mkBKSelf (bs_p s) (bs_circ s) (bs_rect s) xg') x0' proj guide logpd rx) (Some g) rg = Ok out' ->
  o_Y0 out' = o_Y0 out /\ o_rew out' = o_rew out /\ Forall2 bk_same_pose (o_traj out) (o_traj out').
Proof.
  intros s x0 x0' xg' proj guide logpd rx g rg out out' H0 Hg Hp Hgd Hl E E'.
  injection E as <-. injection E' as <-. set (s' := mkBKSelf _ _ _ _).
  assert (W : forall q q', bk_same_pose q q' -> _) by (intros q q' Hq; exact (l_C17_bk_winding s xg' q q' Hq Hg)).
  cbv zeta in W. fold s' in W.
  assert (S : forall viz, sim_step bk_same_pose (bk_step_internal s proj guide viz) (bk_step_internal s' proj guide viz)).
  { intros viz. apply bk_step_sim; auto.
    - intros q q' u Hq. apply bk_euler_turns; auto.
    - intros q q' Hq. destruct (W q q' Hq) as (A & C & D). symmetry; exact A.
    - intros q q' Hq. destruct (W q q' Hq) as (A & C & D). symmetry; exact C. }
  assert (E : sim_env bk_same_pose (bk_penv s x0 proj guide logpd rx) (bk_penv s' x0' proj guide logpd rx)).
  { constructor; try reflexivity; try apply S; auto.
    - repeat split; apply H0.
    - intros q q' Hq. destruct (W q q' Hq) as (A & C & D). symmetry; exact D. }
  destruct (run_sim _ _ _ g rg E) as (A & B & _ & D). repeat split; auto.
Qed.
Lemma l_C17_nt_plan_winding :
  forall (s : nt_self) (x0 x0' xg' : ntq) guide logpd rx (g : cfg) (rg : prng) out out',
  nt_same_pose x0 x0' -> nt_same_pose (ns_xg s) xg' ->
  (forall q q', nt_same_pose q q' -> nt_same_pose (guide q) (guide q')) ->
  (forall qs qs' m, Forall2 nt_same_pose qs qs' -> logpd qs m = logpd qs' m) ->
  nt_run s x0 guide logpd rx g rg = Ok out ->
  nt_run (mkNTSelf (ns_p s) (ns_len s) (ns_front s) (ns_rear s) (ns_circ s) (ns_rect s) xg') x0' guide logpd rx g rg = Ok out' ->
  o_Y0 out' = o_Y0 out /\ o_rew out' = o_rew out /\ Forall2 nt_same_pose (o_traj out) (o_traj out').
Proof.
  intros s x0 x0' xg' guide logpd rx g rg out out' H0 Hg Hgd Hl E E'. unfold nt_run in *.
  destruct (negb _) in E; [discriminate|]. destruct (p_proj _) in E; [discriminate|].
  destruct (negb _) in E'; [discriminate|]. destruct (p_proj _) in E'; [discriminate|].
  injection E as <-. injection E' as <-. set (s' := mkNTSelf _ _ _ _ _ _ _).
  assert (W : forall q q', nt_same_pose q q' -> _) by (intros q q' Hq; exact (l_C17_nt_winding s xg' q q' Hq Hg)).
  cbv zeta in W. fold s' in W.
  assert (S : forall viz, sim_step nt_same_pose (nt_step_core s guide viz) (nt_step_core s' guide viz)).
  { intros viz. apply nt_step_sim; auto.
    - intros q q' u Hq. apply nt_euler_turns; auto.
    - intros q q' Hq. destruct (W q q' Hq) as (A & B & C & D). symmetry; exact A.
    - intros q q' Hq. destruct (W q q' Hq) as (A & B & C & D). symmetry; exact B.
    - intros q q' Hq. destruct (W q q' Hq) as (A & B & C & D). symmetry; exact C. }
  assert (E : sim_env nt_same_pose (nt_penv s x0 guide logpd rx) (nt_penv s' x0' guide logpd rx)).
  { constructor; try reflexivity; try apply S; auto.
    - split; [exact H0|]. repeat split.
    - intros q q' Hq. destruct (W q q' Hq) as (A & B & C & D). symmetry; exact D. }
  destruct (run_sim _ _ _ g rg E) as (A & B & _ & D). repeat split; auto.
Qed.
