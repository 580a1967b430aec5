From Verif Require Import Base SpecInput SpecPlan InputFacts Params Geom TT2d Bicycle NTrailer Acc Rollout Planner Instances Projection Guidance SpecGeom SpecBodies SpecDyn SpecAcc SpecProj SpecGuid
  BaseFacts ProofsGeom ProofsBodies ProofsRobots ProofsAcc ProofsProj.
Open Scope R_scope.

Lemma clip_pos_ok x : pos_ok (clip_pos x).
Proof. apply clip_range. lra. Qed.
Lemma clip_ang_ok x : ang_ok (clip_ang x).
Proof. unfold ang_ok, clip_ang. pose proof PI_RGT_0. pose proof (clip_range x (-2 * PI) (2 * PI)). lra. Qed.
Lemma step_reward_sum p base (oc hv : bool) v :
  step_reward p base oc hv (preference_penalty p v) = base - (if oc then p_coll_pen p else 0) - (if hv then p_hitch_pen p else 0) - preference_penalty p v.
Proof.
  unfold step_reward, where_. destruct (Z.eqb (p_motion p) 0) eqn:E; cbn [negb].
  - rewrite <- charge_penalty, charge_zero by assumption. destruct oc, hv; lra.
  - destruct oc, hv; lra.
Qed.
(** C41: whatever the gradient, the step size and the (positive) number of steps, the output is
    within +-100 m and +-2 pi. *)
Lemma l_C41_tt_bounded :
  forall s grad step n q, p_guid (ts_p s) = true -> (0 < n)%nat -> tt_window (tt_apply_guidance_n s grad step n q).
Proof.
  intros s grad step n q G Hn. unfold tt_apply_guidance_n. rewrite G. cbn [negb].
  destruct n; [lia|]. cbn [Nat.iter]. unfold tt_window, tt_guidance_step; cbn.
  pose proof clip_pos_ok. pose proof clip_ang_ok. repeat split; apply H || apply H0.
Qed.
(** C41: the same for guidance as the four vehicle classes call it. *)
Lemma l_C41_all_bounded :
  (forall s grad q, p_guid (ts_p s) = true -> tt_window (tt_guide s grad q)) /\
  (forall s grad q, p_guid (bs_p s) = true -> bk_window (bk_guide s grad q)) /\
  (forall s grad q, p_guid (ns_p s) = true -> nt_window (nt_guide s grad q)) /\
  (forall s grad q, p_guid (as_p s) = true -> tt_window (a_q (acc_guide s grad q)) /\
      a_v (acc_guide s grad q) = a_v q /\ a_d (acc_guide s grad q) = a_d q).
Proof.
  pose proof clip_pos_ok as A. pose proof clip_ang_ok as B.
  split; [|split; [|split]].
  - intros. apply l_C41_tt_bounded; auto.
  - intros s grad q G. unfold bk_guide. rewrite G. cbn. unfold bk_window, bk_guidance_step at 1 3 5; cbn.
    repeat split; apply A || apply B.
  - intros s grad q G. unfold nt_guide. rewrite G. change (negb true) with false. cbv iota.
    change (Nat.iter 3 (nt_guidance_step grad (5 / 100)) q) with
      (nt_guidance_step grad (5 / 100) (Nat.iter 2 (nt_guidance_step grad (5 / 100)) q)).
    set (y := Nat.iter 2 _ q). unfold nt_window, nt_guidance_step; cbn [n_px n_py n_th0 n_ths].
    split; [apply A|]. split; [apply A|]. split; [apply B|].
    generalize (n_ths (grad y)). generalize (n_ths y). induction l; intros [|b m]; cbn; constructor; auto.
  - intros s grad q G. unfold acc_guide. rewrite G. cbn [negb a_q a_v a_d]. split; [|auto].
    apply l_C41_tt_bounded; auto.
Qed.
(** C41: with guidance off it is the identity. *)
Lemma l_C41_disabled_is_identity :
  (forall s grad q, p_guid (ts_p s) = false -> tt_guide s grad q = q) /\
  (forall s grad q, p_guid (bs_p s) = false -> bk_guide s grad q = q) /\
  (forall s grad q, p_guid (ns_p s) = false -> nt_guide s grad q = q) /\
  (forall s grad q, p_guid (as_p s) = false -> acc_guide s grad q = q).
Proof.
  split; [|split; [|split]]; intros s grad q G;
    [unfold tt_guide, tt_apply_guidance_n|unfold bk_guide|unfold nt_guide|unfold acc_guide]; rewrite G; reflexivity.
Qed.
(** C41: while denoising (visualisation mode off) the next state is the plain motion under the
    clipped command and the applied action is that command, whatever guidance does; the reward is
    computed at the guided state, with its collision and hitch flags. *)
Lemma l_C41_tt_denoising_step :
  forall s proj guide st a, p_proj (ts_p s) = false -> p_guid (ts_p s) = true -> st_bak st = false ->
  let st' := tt_step s proj guide st a in
  let next := tt_plain (ts_p s) (st_q st) (saturated a) in
  st_q st' = next /\ st_app st' = saturated a /\ st_bak st' = false /\
  st_rew st' = tt_reward s (guide next) - (if ts_coll s (guide next) then p_coll_pen (ts_p s) else 0) - (if ts_hitch s (guide next) then p_hitch_pen (ts_p s) else 0)
    - direction_charge (ts_p s) (fst (saturated a) * p_vmax (ts_p s)).
Proof. rewrite ?saturated_clip, ?charge_penalty.
  intros s proj guide st a P G B st' next. unfold st', next, tt_step, tt_step_internal, tt_step_with.
  rewrite P, G, B. cbn [where_]. rewrite tt_euler_plain. cbn [st_q st_app st_bak st_rew]. rewrite step_reward_sum. repeat split.
Qed.
Lemma l_C41_bk_denoising_step :
  forall s proj guide st a, p_proj (bs_p s) = false -> p_guid (bs_p s) = true -> st_bak st = false ->
  let st' := bk_step s proj guide st a in
  let next := bk_plain (bs_p s) (st_q st) (saturated a) in
  st_q st' = next /\ st_app st' = saturated a /\ st_bak st' = false /\
  st_rew st' = bk_reward s (guide next) - (if bs_coll s (guide next) then p_coll_pen (bs_p s) else 0)
    - direction_charge (bs_p s) (fst (saturated a) * p_vmax (bs_p s)).
Proof. rewrite ?saturated_clip, ?charge_penalty.
  intros s proj guide st a P G B st' next. unfold st', next, bk_step, bk_step_internal, bk_step_with.
  rewrite P, G, B. cbn [where_]. rewrite bk_euler_plain. cbn [st_q st_app st_bak st_rew]. rewrite step_reward_sum. repeat split.
  match goal with |- ?x - ?y - _ - ?z = _ => change (x - y - 0 - z = x - y - z) end. ring.
Qed.
Lemma l_C41_nt_denoising_step :
  forall s guide st a, p_guid (ns_p s) = true -> st_bak st = false ->
  length (n_ths (st_q st)) = p_num_trailers (ns_p s) -> length (ns_len s) = p_num_trailers (ns_p s) ->
  let st' := nt_step_core s guide false st a in
  let next := nt_plain s (st_q st) (saturated a) in
  st_q st' = next /\ st_app st' = saturated a /\ st_bak st' = false /\
  st_rew st' = nt_reward s (guide next) - (if ns_coll s (guide next) then p_coll_pen (ns_p s) else 0) - (if nt_hitch s (guide next) then p_hitch_pen (ns_p s) else 0)
    - direction_charge (ns_p s) (fst (saturated a) * p_vmax (ns_p s)).
Proof. rewrite ?saturated_clip, ?charge_penalty.
  intros s guide st a G B L1 L2 st' next. unfold st', next, nt_step_core, nt_step_with.
  rewrite G, B. cbn [where_]. rewrite nt_euler_plain by assumption. cbn [st_q st_app st_bak st_rew]. rewrite step_reward_sum. repeat split.
Qed.
Lemma l_C41_acc_denoising_step :
  forall s proj guide st a, p_proj (as_p s) = false -> p_guid (as_p s) = true -> st_bak st = false ->
  0 <= p_vmax (as_p s) -> 0 <= p_dmax (as_p s) ->
  let st' := acc_step s proj guide st a in
  let next := acc_drive (as_p s) (p_dt (as_p s)) (st_q st) (fst (saturated a) * as_amax s) (snd (saturated a) * as_omax s) in
  st_q st' = next /\ st_app st' = saturated a /\ st_bak st' = false /\
  st_rew st' = acc_reward s (guide next) - (if as_coll s (guide next) then p_coll_pen (as_p s) else 0) - (if as_hitch s (guide next) then p_hitch_pen (as_p s) else 0)
    - direction_charge (as_p s) (a_v next).
Proof. rewrite ?saturated_clip, ?charge_penalty.
  intros s proj guide st a P G B Hv Hd st' next. unfold st', next, acc_step, acc_step_internal, acc_step_with.
  rewrite P, G, B. cbn [where_]. rewrite acc_euler_drive by assumption. cbn [st_q st_app st_bak st_rew]. rewrite step_reward_sum. repeat split.
Qed.
Lemma scan_drive {Q : Type} (step : State Q -> act -> State Q) (f : Q -> act -> Q) (V : Q -> Prop) :
  (forall q u, V q -> V (f q u)) ->
  (forall st a, st_bak st = false -> V (st_q st) ->
     st_q (step st a) = f (st_q st) (limited a) /\ st_app (step st a) = limited a /\ st_bak (step st a) = false) ->
  forall us st, st_bak st = false -> V (st_q st) ->
  map (fun o => snd (fst o)) (snd (scan_us step st us)) = drive f (st_q st) (map limited us) /\
  map snd (snd (scan_us step st us)) = map limited us.
Proof.
  intros HV Hs us. induction us as [|u us IH]; intros st B Hq; cbn; [auto|].
  destruct (Hs st u B Hq) as (E1 & E2 & E3).
  assert (Hq' : V (st_q (step st u))) by (rewrite E1; apply HV, Hq).
  destruct (IH (step st u) E3 Hq') as [I1 I2].
  destruct (scan_us step (step st u) us) as [fin outs]. cbn in *.
  rewrite I1, I2, E1, E2. auto.
Qed.
Lemma rollout_drive {Q : Type} (step : State Q -> act -> State Q) (f : Q -> act -> Q) (V : Q -> Prop) :
  (forall q u, V q -> V (f q u)) -> (forall q, V q -> f q (0, 0) = q) ->
  (forall st a, st_bak st = false -> V (st_q st) ->
     st_q (step st a) = f (st_q st) (limited a) /\ st_app (step st a) = limited a /\ st_bak (step st a) = false) ->
  forall x0 us, V x0 ->
  let '(_, qs, app) := rollout_us step (reset_state x0) us in
  qs = drive f x0 (map limited us) /\ app = map limited us.
Proof.
  intros HV H0 Hs x0 us Hx. unfold rollout_us.
  destruct (Hs (reset_state x0) (0, 0) eq_refl Hx) as (E1 & E2 & E3).
  change (limited (0, 0)) with (clip_act (0, 0)) in E1. rewrite clip_act_zero in E1. rewrite H0 in E1 by exact Hx. cbn in E1.
  assert (Hq : V (st_q (step (reset_state x0) (0, 0)))) by (rewrite E1; exact Hx).
  pose proof (scan_drive step f V HV Hs us _ E3 Hq) as [I1 I2].
  destruct (scan_us step (step (reset_state x0) (0, 0)) us). cbn in *. rewrite I1, I2, E1. auto.
Qed.
(** C41: a whole denoising rollout with guidance on is, in its states and applied actions, the
    plain unshielded motion under the limited commands, for every guidance behaviour. *)
Lemma l_C41_tt_denoising_rollout :
  forall s proj guide x0 us, p_proj (ts_p s) = false -> p_guid (ts_p s) = true ->
  let '(_, qs, app) := rollout_us (tt_step s proj guide) (reset_state x0) us in
  qs = drive (tt_plain (ts_p s)) x0 (map limited us) /\ app = map limited us.
Proof.
  intros s proj guide x0 us P G. apply (rollout_drive _ (tt_plain (ts_p s)) (fun _ => True)); auto.
  - intros q _. apply tt_plain_zero.
  - intros st a B _. destruct (l_C41_tt_denoising_step s proj guide st a P G B) as (A1 & A2 & A3 & _). rewrite saturated_clip in A1, A2. auto.
Qed.
Lemma l_C41_bk_denoising_rollout :
  forall s proj guide x0 us, p_proj (bs_p s) = false -> p_guid (bs_p s) = true ->
  let '(_, qs, app) := rollout_us (bk_step s proj guide) (reset_state x0) us in
  qs = drive (bk_plain (bs_p s)) x0 (map limited us) /\ app = map limited us.
Proof.
  intros s proj guide x0 us P G. apply (rollout_drive _ (bk_plain (bs_p s)) (fun _ => True)); auto.
  - intros q _. apply bk_plain_zero.
  - intros st a B _. destruct (l_C41_bk_denoising_step s proj guide st a P G B) as (A1 & A2 & A3 & _). rewrite saturated_clip in A1, A2. auto.
Qed.
Lemma l_C41_nt_denoising_rollout :
  forall s guide x0 us, p_guid (ns_p s) = true ->
  length (n_ths x0) = p_num_trailers (ns_p s) -> length (ns_len s) = p_num_trailers (ns_p s) ->
  let '(_, qs, app) := rollout_us (nt_step_core s guide false) (reset_state x0) us in
  qs = drive (nt_plain s) x0 (map limited us) /\ app = map limited us.
Proof.
  intros s guide x0 us G L1 L2.
  apply (rollout_drive _ (nt_plain s) (fun q => length (n_ths q) = p_num_trailers (ns_p s))); auto.
  - intros q u Hq. apply (nt_plain_valid s q u L2 Hq).
  - intros q Hq. apply nt_plain_zero; auto.
  - intros st a B Hq. destruct (l_C41_nt_denoising_step s guide st a G B Hq L2) as (A1 & A2 & A3 & _). rewrite saturated_clip in A1, A2. auto.
Qed.
(** C41: with the acceleration vehicle, one rollout = plain motion too (the warm-up step moves
    it: zero acceleration is not standing still, see C25). *)
Lemma l_C41_acc_denoising_scan :
  forall s proj guide st us, p_proj (as_p s) = false -> p_guid (as_p s) = true -> st_bak st = false ->
  0 <= p_vmax (as_p s) -> 0 <= p_dmax (as_p s) ->
  let outs := snd (scan_us (acc_step s proj guide) st us) in
  map (fun o => snd (fst o)) outs =
    drive (fun q u => acc_drive (as_p s) (p_dt (as_p s)) q (fst u * as_amax s) (snd u * as_omax s)) (st_q st) (map limited us) /\
  map snd outs = map limited us.
Proof.
  intros s proj guide st us P G B Hv Hd. apply (scan_drive _ _ (fun _ => True)); auto.
  intros st' a B' _. destruct (l_C41_acc_denoising_step s proj guide st' a P G B' Hv Hd) as (A1 & A2 & A3 & _). rewrite saturated_clip in A1, A2. auto.
Qed.
(** C41: consequently guidance cannot influence the states or applied actions of denoising
    rollouts: any two guidance functions give the same ones. *)
Lemma l_C41_guidance_off_dynamics :
  forall s proj guide guide' x0 us, p_proj (ts_p s) = false -> p_guid (ts_p s) = true ->
  let '(_, qs, app) := rollout_us (tt_step s proj guide) (reset_state x0) us in
  let '(_, qs', app') := rollout_us (tt_step s proj guide') (reset_state x0) us in
  qs = qs' /\ app = app'.
Proof.
  intros s proj guide guide' x0 us P G.
  pose proof (l_C41_tt_denoising_rollout s proj guide x0 us P G) as A.
  pose proof (l_C41_tt_denoising_rollout s proj guide' x0 us P G) as A'.
  destruct (rollout_us (tt_step s proj guide) (reset_state x0) us) as [[r q] a].
  destruct (rollout_us (tt_step s proj guide') (reset_state x0) us) as [[r' q'] a'].
  destruct A, A'. split; congruence.
Qed.
(** C41: in visualisation mode (the final trajectory) the state jumps to the guided one. *)
Lemma l_C41_tt_visualised_step :
  forall s proj guide st a, p_proj (ts_p s) = false -> p_guid (ts_p s) = true -> st_bak st = false ->
  st_q (tt_step_internal s proj guide true st a) = guide (tt_plain (ts_p s) (st_q st) (saturated a)).
Proof. rewrite ?saturated_clip.
  intros s proj guide st a P G B. unfold tt_step_internal, tt_step_with. rewrite P, G, B. cbn [where_]. rewrite tt_euler_plain. reflexivity.
Qed.

(** ** When guidance does nothing *)
Lemma clip_pos_id x : pos_ok x -> clip_pos x = x.
Proof. intros. apply clip_id. exact H. Qed.
Lemma clip_ang_id x : ang_ok x -> clip_ang x = x.
Proof. intros [A B]. apply clip_id. lra. Qed.
Lemma tt_guidance_step_id grad step q : tt_window q -> grad q = mkTT 0 0 0 0 -> tt_guidance_step grad step q = q.
Proof.
  intros (A & B & C & D) E. unfold tt_guidance_step. rewrite E. cbn. rewrite Rmult_0_r, !Rminus_0_r.
  rewrite !clip_pos_id, !clip_ang_id by assumption. destruct q; reflexivity.
Qed.
Lemma iter_fix {A} (f : A -> A) x n : f x = x -> Nat.iter n f x = x.
Proof. intros E. induction n; [reflexivity|]. change (f (Nat.iter n f x) = x). rewrite IHn. exact E. Qed.
Lemma hinge_zero z : z <= 0 -> hinge_sq z = 0.
Proof. intros. unfold hinge_sq. rewrite Rmax_left by lra. ring. Qed.
Lemma hinge_nonneg z : 0 <= hinge_sq z.
Proof. apply sq_nonneg. Qed.
Lemma hinge_zero_iff z : hinge_sq z = 0 <-> z <= 0.
Proof.
  split; [|apply hinge_zero]. intros H. unfold hinge_sq in H. pose proof (Rmax_r 0 z). apply Rmult_integral in H. lra.
Qed.
Lemma Rsum_nonneg_zero_iff {A} (f : A -> R) l : (forall x, In x l -> 0 <= f x) ->
  (Rsum (map f l) = 0 <-> forall x, In x l -> f x = 0).
Proof.
  induction l as [|a l IH]; intros Hn; cbn; [split; [intros _ x []|reflexivity]|].
  assert (0 <= f a) by (apply Hn; left; reflexivity).
  assert (Hl : forall x, In x l -> 0 <= f x) by (intros; apply Hn; right; assumption).
  assert (0 <= Rsum (map f l)).
  { apply Rsum_nonneg. intros x Hx. apply in_map_iff in Hx. destruct Hx as (y & <- & Hy). auto. }
  split.
  - intros E x [<-|Hx]; [lra|]. assert (E0 : Rsum (map f l) = 0) by lra. exact (proj1 (IH Hl) E0 x Hx).
  - intros E. rewrite (E a) by (left; reflexivity). assert (Rsum (map f l) = 0) by (apply (IH Hl); auto). lra.
Qed.
Lemma tt_circles_nonneg s x :
  0 <= Rsum (map (fun c => circle_penalty (t_px x, t_py x) c +
    circle_penalty (t_px x - p_lh (ts_p s) * cos (t_th1 x) - p_l2 (ts_p s) * cos (t_th2 x),
                    t_py x - p_lh (ts_p s) * sin (t_th1 x) - p_l2 (ts_p s) * sin (t_th2 x)) c) (ts_circ s)).
Proof.
  apply Rsum_nonneg. intros y Hy. apply in_map_iff in Hy. destruct Hy as (c & <- & _).
  unfold circle_penalty. apply Rplus_le_le_0_compat; apply hinge_nonneg.
Qed.
Lemma trailer_axle_eq p x : trailer_axle p x =
  (t_px x - p_lh p * cos (t_th1 x) - p_l2 p * cos (t_th2 x), t_py x - p_lh p * sin (t_th1 x) - p_l2 p * sin (t_th2 x)).
Proof. unfold trailer_axle, ahead; cbn [fst snd]. f_equal; ring. Qed.
(** C41: the cost guidance descends is never negative, and zero exactly when both axle points are
    at least 2 m from every post and the hitch angle, read modulo at most one turn, is within its
    limit. Rectangular obstacles and the outlines of the bodies play no role. *)
Lemma l_C41_tt_cost_zero_iff :
  forall s x, 0 <= tt_guidance_cost s x /\
  (tt_guidance_cost s x = 0 <->
   (forall c, In c (ts_circ s) -> c_r c + 2 <= dist (tractor_axle x) (c_x c, c_y c) /\
                                  c_r c + 2 <= dist (trailer_axle (ts_p s) x) (c_x c, c_y c)) /\
   (Rabs (t_th1 x - t_th2 x) <= p_phi_max (ts_p s) \/ Rabs (t_th1 x - t_th2 x + 2 * PI) <= p_phi_max (ts_p s) \/
    Rabs (t_th1 x - t_th2 x - 2 * PI) <= p_phi_max (ts_p s))).
Proof.
  intros s x. rewrite trailer_axle_eq. unfold tt_guidance_cost, tractor_axle. cbv zeta.
  set (A := Rsum _). set (w := Rmax 1 _).
  set (h := fun off => hinge_sq (Rabs (t_th1 x - t_th2 x + off) - p_phi_max (ts_p s))).
  fold (h 0) (h (2 * PI)) (h (- (2 * PI))).
  assert (Hw : 1 <= w) by apply Rmax_l.
  assert (HA : 0 <= A) by apply tt_circles_nonneg.
  set (m := Rmin_of [h 0; h (2 * PI); h (- (2 * PI))]).
  assert (Hin : In m [h 0; h (2 * PI); h (- (2 * PI))]) by (apply Rmin_of_in; discriminate).
  assert (Hm : 0 <= m).
  { destruct Hin as [E|[E|[E|[]]]]; rewrite <- E; apply hinge_nonneg. }
  assert (Hwm : 0 <= w * m) by (apply Rmult_le_pos; lra).
  split; [lra|].
  assert (EA : A = 0 <-> forall c, In c (ts_circ s) -> c_r c + 2 <= dist (t_px x, t_py x) (c_x c, c_y c) /\
     c_r c + 2 <= dist (t_px x - p_lh (ts_p s) * cos (t_th1 x) - p_l2 (ts_p s) * cos (t_th2 x), t_py x - p_lh (ts_p s) * sin (t_th1 x) - p_l2 (ts_p s) * sin (t_th2 x)) (c_x c, c_y c)).
  { unfold A. rewrite Rsum_nonneg_zero_iff.
    2:{ intros c _. apply Rplus_le_le_0_compat; apply hinge_nonneg. }
    split; intros H c Hc; specialize (H c Hc).
    - unfold circle_penalty in H. 
      pose proof (hinge_nonneg (c_r c + 2 - pnorm (psub (t_px x, t_py x) (c_x c, c_y c)))).
      match type of H with ?a + ?b = 0 => pose proof (hinge_nonneg (c_r c + 2 - pnorm (psub (t_px x - p_lh (ts_p s) * cos (t_th1 x) - p_l2 (ts_p s) * cos (t_th2 x), t_py x - p_lh (ts_p s) * sin (t_th1 x) - p_l2 (ts_p s) * sin (t_th2 x)) (c_x c, c_y c))));
        assert (E1 : a = 0) by lra; assert (E2 : b = 0) by lra end.
      apply hinge_zero_iff in E1. apply hinge_zero_iff in E2. 
      change (pnorm (psub ?a ?b)) with (dist a b) in E1. change (pnorm (psub ?a ?b)) with (dist a b) in E2. lra.
    - destruct H as [H1 H2]. unfold circle_penalty. change (pnorm (psub ?a ?b)) with (dist a b).
      rewrite !hinge_zero by lra. ring. }
  assert (EM : m = 0 <-> Rabs (t_th1 x - t_th2 x) <= p_phi_max (ts_p s) \/ Rabs (t_th1 x - t_th2 x + 2 * PI) <= p_phi_max (ts_p s) \/
    Rabs (t_th1 x - t_th2 x - 2 * PI) <= p_phi_max (ts_p s)).
  { assert (Z : forall off, h off = 0 <-> Rabs (t_th1 x - t_th2 x + off) <= p_phi_max (ts_p s)).
    { intros off. unfold h. rewrite hinge_zero_iff. lra. }
    split.
    - intros E. destruct Hin as [F|[F|[F|[]]]]; rewrite E in F; apply Z in F; [left|right;left|right;right]; auto.
      rewrite Rplus_0_r in F. exact F.
    - intros D. apply Rle_antisym; [|exact Hm].
      destruct D as [D|[D|D]].
      + assert (E : h 0 = 0) by (apply Z; rewrite Rplus_0_r; exact D). rewrite <- E. apply Rmin_of_le. cbn; auto.
      + assert (E : h (2 * PI) = 0) by (apply Z; exact D). rewrite <- E. apply Rmin_of_le. cbn; auto.
      + assert (E : h (- (2 * PI)) = 0) by (apply Z; exact D). rewrite <- E. apply Rmin_of_le. cbn; auto. }
  rewrite <- EA, <- EM. split.
  - intros E. assert (A0 : A = 0) by lra. assert (w * m = 0) by lra. split; [exact A0|].
    apply Rmult_integral in H. destruct H; lra.
  - intros [-> ->]. ring.
Qed.

(** ** Gradient at comfortably clear states *)
Definition near (P : R -> Prop) : Prop := exists d, 0 < d /\ forall h, Rabs h < d -> P h.
Lemma near_and P Q : near P -> near Q -> near (fun h => P h /\ Q h).
Proof.
  intros (d & Hd & A) (e & He & B). exists (Rmin d e). split; [apply Rmin_glb_lt; auto|].
  intros h Hh. pose proof (Rmin_l d e). pose proof (Rmin_r d e). split; [apply A|apply B]; lra.
Qed.
Lemma near_impl (P Q : R -> Prop) : (forall h, P h -> Q h) -> near P -> near Q.
Proof. intros H (d & Hd & A). exists d. auto. Qed.
Lemma near_all {A} (l : list A) (P : A -> R -> Prop) : (forall c, In c l -> near (P c)) -> near (fun h => forall c, In c l -> P c h).
Proof.
  induction l as [|a l IH]; intros H.
  - exists 1. split; [lra|]. intros h _ c [].
  - apply (near_impl (fun h => P a h /\ forall c, In c l -> P c h)).
    + intros h [A1 A2] c [<-|Hc]; auto.
    + apply near_and; [apply H; left; reflexivity|apply IH; intros; apply H; right; assumption].
Qed.
Lemma near_lt F K : continuity_pt F 0 -> K < F 0 -> near (fun h => K < F h).
Proof.
  intros C H. unfold continuity_pt, continue_in, limit1_in, limit_in in C. cbn in C. unfold R_dist in C.
  destruct (C (F 0 - K)) as (d & Hd & A); [lra|]. exists d. split; [exact Hd|].
  intros h Hh. destruct (Req_dec h 0) as [->|N]; [exact H|].
  assert (B : Rabs (F h - F 0) < F 0 - K).
  { apply A. split; [split; [exact I|auto]|]. rewrite Rminus_0_r. exact Hh. }
  apply Rabs_def2 in B. lra.
Qed.
Lemma near_gt F K : continuity_pt F 0 -> F 0 < K -> near (fun h => F h < K).
Proof.
  intros C H. assert (C' : continuity_pt (fun h => - F h) 0) by (apply (continuity_pt_opp F); exact C).
  apply (near_impl (fun h => - K < - F h)); [intros; lra|]. apply near_lt; [exact C'|lra].
Qed.
Lemma deriv_near_zero f : near (fun h => f h = 0) -> derivable_pt_lim f 0 0.
Proof.
  intros (d & Hd & A) eps He. exists (mkposreal d Hd). intros h Hh Hlt. cbn in Hlt.
  rewrite Rplus_0_l. rewrite (A h Hlt). rewrite (A 0) by (rewrite Rabs_R0; lra).
  replace ((0 - 0) / h - 0) with 0 by (field; exact Hh). rewrite Rabs_R0. exact He.
Qed.
Definition line (x d : ttq) (h : R) : ttq :=
  mkTT (t_px x + t_px d * h) (t_py x + t_py d * h) (t_th1 x + t_th1 d * h) (t_th2 x + t_th2 d * h).
Lemma line_0 x d : line x d 0 = x.
Proof. unfold line. destruct x; cbn. f_equal; ring. Qed.
Lemma cont_lin a b : continuity_pt (fun h => a + b * h) 0.
Proof. apply derivable_continuous_pt. exists b. pose proof (derivable_pt_lim_plus (fun _ => a) (fun h => b * h) 0 0 b (derivable_pt_lim_const a 0)) as H.
  replace (0 + b) with b in H by ring. apply H.
  pose proof (derivable_pt_lim_scal id b 0 1 (derivable_pt_lim_id 0)) as H'. rewrite Rmult_1_r in H'. exact H'.
Qed.
Lemma cont_sqrt_sq F G : continuity_pt F 0 -> continuity_pt G 0 -> continuity_pt (fun h => sqrt (F h * F h + G h * G h)) 0.
Proof.
  intros HF HG. apply (continuity_pt_comp (fun h => F h * F h + G h * G h) sqrt).
  - apply (continuity_pt_plus (fun h => F h * F h) (fun h => G h * G h)); [apply (continuity_pt_mult F F)|apply (continuity_pt_mult G G)]; assumption.
  - apply continuity_pt_sqrt. pose proof (sq_nonneg (F 0)). pose proof (sq_nonneg (G 0)). lra.
Qed.
Lemma cont_cos F : continuity_pt F 0 -> continuity_pt (fun h => cos (F h)) 0.
Proof. intros. apply (continuity_pt_comp F cos); [assumption|apply continuity_cos]. Qed.
Lemma cont_sin F : continuity_pt F 0 -> continuity_pt (fun h => sin (F h)) 0.
Proof. intros. apply (continuity_pt_comp F sin); [assumption|apply continuity_sin]. Qed.
Lemma cont_abs F : continuity_pt F 0 -> continuity_pt (fun h => Rabs (F h)) 0.
Proof. intros. apply (continuity_pt_comp F Rabs); [assumption|apply Rcontinuity_abs]. Qed.
Lemma cont_plus F G : continuity_pt F 0 -> continuity_pt G 0 -> continuity_pt (fun h => F h + G h) 0.
Proof. apply continuity_pt_plus. Qed.
Lemma cont_minus F G : continuity_pt F 0 -> continuity_pt G 0 -> continuity_pt (fun h => F h - G h) 0.
Proof. apply continuity_pt_minus. Qed.
Lemma cont_scal k F : continuity_pt F 0 -> continuity_pt (fun h => k * F h) 0.
Proof. intros. apply (continuity_pt_scal F). assumption. Qed.
Lemma cont_const k : continuity_pt (fun _ => k) 0.
Proof. apply continuity_pt_const. intros a b. reflexivity. Qed.
Lemma roomy_near p circ x d : roomy p circ x -> near (fun h => roomy p circ (line x d h)).
Proof.
  intros [A B]. unfold roomy. apply near_and.
  - apply near_all. intros c Hc. specialize (A c Hc). apply near_and.
    + apply (near_lt (fun h => dist (tractor_axle (line x d h)) (c_x c, c_y c))).
      * unfold dist, dist2, tractor_axle, line; cbn [fst snd t_px t_py]. apply cont_sqrt_sq; apply cont_minus; apply cont_lin || apply cont_const.
      * rewrite line_0. apply A.
    + apply (near_lt (fun h => dist (trailer_axle p (line x d h)) (c_x c, c_y c))).
      * unfold dist, dist2, trailer_axle, ahead, line; cbn [fst snd t_px t_py t_th1 t_th2].
        apply cont_sqrt_sq; repeat first [apply cont_const | apply cont_lin | apply cont_minus | apply cont_plus | apply cont_scal | apply cont_cos | apply cont_sin].
      * rewrite line_0. apply A.
  - destruct B as [B|[B|B]].
    + apply (near_impl (fun h => Rabs (t_th1 (line x d h) - t_th2 (line x d h)) < p_phi_max p)); [auto|].
      apply near_gt; [|rewrite line_0; exact B].
      unfold line; cbn [t_th1 t_th2]. apply cont_abs, cont_minus; apply cont_lin.
    + apply (near_impl (fun h => Rabs (t_th1 (line x d h) - t_th2 (line x d h) + 2 * PI) < p_phi_max p)); [auto|].
      apply near_gt; [|rewrite line_0; exact B].
      unfold line; cbn [t_th1 t_th2]. apply cont_abs, cont_plus; [apply cont_minus; apply cont_lin|apply cont_const].
    + apply (near_impl (fun h => Rabs (t_th1 (line x d h) - t_th2 (line x d h) - 2 * PI) < p_phi_max p)); [auto|].
      apply near_gt; [|rewrite line_0; exact B].
      unfold line; cbn [t_th1 t_th2]. apply cont_abs, cont_minus; [apply cont_minus; apply cont_lin|apply cont_const].
Qed.
Lemma roomy_cost_zero s x : roomy (ts_p s) (ts_circ s) x -> tt_guidance_cost s x = 0.
Proof.
  intros [A B]. apply l_C41_tt_cost_zero_iff. split.
  - intros c Hc. destruct (A c Hc). lra.
  - destruct B as [B|[B|B]]; lra.
Qed.
Lemma roomy_grad_zero s grad x : is_gradient (tt_guidance_cost s) grad -> roomy (ts_p s) (ts_circ s) x -> grad x = mkTT 0 0 0 0.
Proof.
  intros G H.
  assert (K : forall d, near (fun h => tt_guidance_cost s (line x d h) = 0)).
  { intros d. apply (near_impl (fun h => roomy (ts_p s) (ts_circ s) (line x d h))); [intros h; apply roomy_cost_zero|apply roomy_near; exact H]. }
  destruct (G x 0) as (G1 & G2 & G3 & G4).
  assert (E : forall a b c e a' b' c' e', a = a' -> b = b' -> c = c' -> e = e' -> mkTT a b c e = mkTT a' b' c' e') by (intros; subst; reflexivity).
  assert (E1 : t_px (grad x) = 0).
  { apply G1, deriv_near_zero. eapply near_impl; [|exact (K (mkTT 1 0 0 0))]. cbv beta.
    intros h Z. rewrite <- Z. unfold line; cbn [t_px t_py t_th1 t_th2]. f_equal. apply E; ring. }
  assert (E2 : t_py (grad x) = 0).
  { apply G2, deriv_near_zero. eapply near_impl; [|exact (K (mkTT 0 1 0 0))]. cbv beta.
    intros h Z. rewrite <- Z. unfold line; cbn [t_px t_py t_th1 t_th2]. f_equal. apply E; ring. }
  assert (E3 : t_th1 (grad x) = 0).
  { apply G3, deriv_near_zero. eapply near_impl; [|exact (K (mkTT 0 0 1 0))]. cbv beta.
    intros h Z. rewrite <- Z. unfold line; cbn [t_px t_py t_th1 t_th2]. f_equal. apply E; ring. }
  assert (E4 : t_th2 (grad x) = 0).
  { apply G4, deriv_near_zero. eapply near_impl; [|exact (K (mkTT 0 0 0 1))]. cbv beta.
    intros h Z. rewrite <- Z. unfold line; cbn [t_px t_py t_th1 t_th2]. f_equal. apply E; ring. }
  destruct (grad x); cbn in *; subst; reflexivity.
Qed.
(** C41: with the true gradient, guidance leaves every state alone that is inside the window, has
    both axles more than 2 m from every post and the hitch strictly within its limit. *)
Lemma l_C41_tt_roomy_unchanged :
  forall s grad q, is_gradient (tt_guidance_cost s) grad -> tt_window q -> roomy (ts_p s) (ts_circ s) q -> tt_guide s grad q = q.
Proof.
  intros s grad q G W H. unfold tt_guide, tt_apply_guidance_n. destruct (p_guid (ts_p s)); [|reflexivity]. cbn [negb].
  apply iter_fix, tt_guidance_step_id; [exact W|]. apply (roomy_grad_zero s); assumption.
Qed.
(** C41: with up to 20 obstacles the cost does not depend on the rectangular obstacles at all. *)
Lemma l_C41_rectangles_ignored :
  forall p circ rect rect' xg x, (length circ + length rect <= 20)%nat -> (length circ + length rect' <= 20)%nat ->
  tt_guidance_cost (mkTTSelf p circ rect xg) x = tt_guidance_cost (mkTTSelf p circ rect' xg) x.
Proof.
  intros p circ rect rect' xg x H H'. unfold tt_guidance_cost; cbn [ts_p ts_circ ts_rect]. cbv zeta.
  assert (W : forall n, (n <= 20)%nat -> Rmax 1 (INR n * (5 / 100)) = 1).
  { intros n Hn. apply Rmax_left. apply le_INR in Hn. replace (INR 20) with 20 in Hn by (rewrite INR_IZR_INZ; reflexivity). lra. }
  rewrite !W by assumption. reflexivity.
Qed.
(** C41 (refuted): the claim "guidance keeps a state that is safe". A vehicle in free space that has
    turned by more than a full turn gets its heading changed: the window is imposed on the raw
    angle. *)
Lemma l_C41_safe_state_kept_refuted :
  exists s q, p_guid (ts_p s) = true /\ tt_safe (ts_p s) (ts_circ s) (ts_rect s) q /\ pos_ok (t_px q) /\ pos_ok (t_py q) /\
  forall grad, is_gradient (tt_guidance_cost s) grad ->
    exists k : R, 0 < k < PI /\ t_th1 (tt_guide s grad q) = t_th1 q - k.
Proof.
  pose proof PI_RGT_0 as Pi.
  exists (mkTTSelf (with_modes default_params false true) [] [] (mkTT 0 0 0 0)), (mkTT 0 0 (2 * PI + PI / 2) (2 * PI + PI / 2)).
  split; [reflexivity|]. split; [split; [split; intros ? ? _ []|]|].
  { apply hitch_ok_zero. cbn. unfold phi_max_const. lra. }
  split; [unfold pos_ok; cbn; lra|]. split; [unfold pos_ok; cbn; lra|].
  intros grad G. exists (PI / 2). split; [lra|].
  set (s := mkTTSelf _ _ _ _) in *.
  assert (Rm : forall th, roomy (ts_p s) (ts_circ s) (mkTT 0 0 th th)).
  { intros th. split; [intros c []|]. left. cbn [t_th1 t_th2]. replace (th - th) with 0 by ring. rewrite Rabs_R0.
    cbn. unfold phi_max_const. lra. }
  assert (S1 : tt_guidance_step grad (5 / 100) (mkTT 0 0 (2 * PI + PI / 2) (2 * PI + PI / 2)) = mkTT 0 0 (2 * PI) (2 * PI)).
  { unfold tt_guidance_step. rewrite (roomy_grad_zero s grad _ G (Rm _)). cbn [t_px t_py t_th1 t_th2].
    rewrite Rmult_0_r, !Rminus_0_r. rewrite clip_pos_id by (unfold pos_ok; lra).
    unfold clip_ang. rewrite clip_high by lra. reflexivity. }
  assert (S2 : tt_guidance_step grad (5 / 100) (mkTT 0 0 (2 * PI) (2 * PI)) = mkTT 0 0 (2 * PI) (2 * PI)).
  { apply tt_guidance_step_id; [|apply (roomy_grad_zero s); auto].
    unfold tt_window, pos_ok, ang_ok; cbn; lra. }
  unfold tt_guide, tt_apply_guidance_n. change (p_guid (ts_p s)) with true. cbn [negb].
  change (Nat.iter 3 (tt_guidance_step grad (5 / 100)) (mkTT 0 0 (2 * PI + PI / 2) (2 * PI + PI / 2))) with
    (tt_guidance_step grad (5 / 100) (tt_guidance_step grad (5 / 100) (tt_guidance_step grad (5 / 100) (mkTT 0 0 (2 * PI + PI / 2) (2 * PI + PI / 2))))).
  rewrite S1, S2, S2. cbn. lra.
Qed.
(** C41 (refuted): the claim "guidance moves a vehicle that touches an obstacle". A trailer standing
    in the middle of a rectangular obstacle is left exactly where it is. *)
Lemma l_C41_rectangle_avoidance_refuted :
  exists s q, p_guid (ts_p s) = true /\ ts_coll s q = true /\
  forall grad, is_gradient (tt_guidance_cost s) grad -> tt_guide s grad q = q.
Proof.
  pose proof PI_RGT_0 as Pi.
  exists (mkTTSelf (with_modes default_params false true) [] [mkRect 0 0 2 2 0] (mkTT 0 0 0 0)), (mkTT 0 0 0 0).
  split; [reflexivity|]. split.
  - unfold ts_coll, tt_coll. cbn [ts_p ts_circ ts_rect existsb]. rewrite orb_false_l, orb_false_r. apply orb_true_intro. left.
    unfold tt_tractor_corners. rewrite tractor_corners_region. apply (hits_rect_intro _ _ (0, 0)).
    + exists 0, 0. unfold tractor_body, at_frame; cbn. rewrite cos_0, sin_0. split; [lra|]. split; [lra|]. f_equal; ring.
    + exists 0, 0. unfold obstacle_body, at_frame; cbn. rewrite cos_0, sin_0. split; [lra|]. split; [lra|]. f_equal; ring.
  - intros grad G. apply l_C41_tt_roomy_unchanged; [exact G|unfold tt_window, pos_ok, ang_ok; cbn; lra|].
    split; [intros c []|]. left. cbn [t_th1 t_th2]. replace (0 - 0) with 0 by ring. rewrite Rabs_R0. cbn. unfold phi_max_const. lra.
Qed.
(** C41 (refuted): the claim "the trajectory returned with guidance on is a motion of the vehicle".
    Whatever the commands, a vehicle 150 m from the origin is put back to 100 m in one step. *)
Lemma l_C41_returned_trajectory_is_motion_refuted :
  exists s st, p_guid (ts_p s) = true /\ p_proj (ts_p s) = false /\
  forall proj grad a, t_px (st_q (tt_step_internal s proj (tt_guide s grad) true st a)) <= t_px (st_q st) - 50 /\
    p_dt (ts_p s) * p_vmax (ts_p s) < 1.
Proof.
  exists (mkTTSelf (with_modes default_params false true) [] [] (mkTT 0 0 0 0)), (reset_state (mkTT 150 0 0 0)).
  split; [reflexivity|]. split; [reflexivity|]. intros proj grad a. split; [|cbn; lra].
  rewrite l_C41_tt_visualised_step, saturated_clip by reflexivity.
  set (s := mkTTSelf _ _ _ _). destruct (proj1 l_C41_all_bounded s grad (tt_plain (ts_p s) (st_q (reset_state (mkTT 150 0 0 0))) (clip_act a)) eq_refl) as (A & _).
  unfold pos_ok in A. cbn [st_q reset_state t_px] in *. lra.
Qed.
(** A gradient exists: for a vehicle without circular obstacles at any aligned pose the premises
    of the theorems above hold. *)
Lemma x_C41_example :
  let s := mkTTSelf (with_modes default_params false true) [mkCircle 20 0 1] [] (mkTT 0 0 0 0) in
  p_guid (ts_p s) = true /\ p_proj (ts_p s) = false /\ tt_window (mkTT 1 2 0 0) /\ roomy (ts_p s) (ts_circ s) (mkTT 1 0 0 0) /\
  tt_guidance_cost s (mkTT 1 0 0 0) = 0.
Proof.
  intros s. pose proof PI_RGT_0 as Pi. split; [reflexivity|]. split; [reflexivity|].
  split; [unfold tt_window, pos_ok, ang_ok; cbn; lra|].
  assert (Rm : roomy (ts_p s) (ts_circ s) (mkTT 1 0 0 0)).
  { split.
    - intros c [<-|[]]. cbn [c_r c_x c_y]. split; (eapply Rlt_le_trans; [|apply dist_x]).
      + cbn. rewrite Rabs_left; lra.
      + rewrite trailer_axle_eq. cbn [fst snd t_px t_th1 t_th2]. rewrite cos_0. unfold s; cbn. rewrite Rabs_left; lra.
    - left. cbn [t_th1 t_th2]. replace (0 - 0) with 0 by ring. rewrite Rabs_R0. cbn. unfold phi_max_const. lra. }
  split; [exact Rm|]. apply roomy_cost_zero. exact Rm.
Qed.
