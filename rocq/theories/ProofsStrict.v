(** * ProofsStrict: penalties stated by what the vehicle touches (C19, C41). *)
From Verif Require Import Base BaseFacts SpecInput SpecPlan InputFacts Params Geom TT2d Bicycle NTrailer Acc SpecGeom SpecBodies SpecDyn SpecAcc
  Rollout Planner Instances ProofsGeom ProofsBodies ProofsKin ProofsRobots ProofsSafety ProofsStep ProofsPlanner ProofsAcc ProofsProj ProofsGuid.
From Coq Require Import List Bool.
Import ListNotations.
Open Scope R_scope.

Lemma charged_if (b : bool) P amount x : (b = false <-> P) -> charged (~ P) amount x -> x = if b then amount else 0.
Proof.
  intros [H1 H2] [C1 C2]. destruct b.
  - apply C1. intros p. discriminate (H2 p).
  - apply C2. intros n. apply n, H1. reflexivity.
Qed.
Lemma bodies_hit_iff gs circ rect : (forall g, In g gs -> sized g) -> proper_obstacles circ rect ->
  (bodies_hit gs circ rect = false <-> clear_bodies gs circ rect).
Proof. intros S O. split; [apply bodies_hit_false_clear; exact S|apply clear_bodies_hit_false; assumption]. Qed.
Lemma no_preference (p : params) (v : R) : (if Z.eqb (p_motion p) 0 then 0 else direction_charge p v) = direction_charge p v.
Proof. destruct (Z.eqb _ 0) eqn:E; [symmetry; apply charge_zero; exact E|reflexivity]. Qed.
Lemma tt_coll_iff p circ rect q : tt_sized p -> proper_obstacles circ rect -> (tt_coll p circ rect q = false <-> tt_clear p circ rect q).
Proof.
  intros S O. rewrite tt_coll_bodies. apply bodies_hit_iff; [apply tt_bodies_sized; exact S|exact O].
Qed.
Lemma bk_coll_iff p circ rect q : tractor_sized p -> proper_obstacles circ rect -> (bk_coll p circ rect q = false <-> bk_safe p circ rect q).
Proof.
  intros S O. rewrite bk_coll_bodies. apply bodies_hit_iff; [|exact O]. intros g [<-|[]]. apply sized_tractor. exact S.
Qed.
Lemma nt_coll_iff s q : nt_sized s -> proper_obstacles (ns_circ s) (ns_rect s) -> length (n_ths q) = p_num_trailers (ns_p s) ->
  (ns_coll s q = false <-> nt_clear s q).
Proof.
  intros S O L. rewrite nt_coll_bodies by assumption. apply bodies_hit_iff; [apply nt_bodies_sized; exact S|exact O].
Qed.

(** C19: what a step is worth. The commanded motion (the command limited to the admissible box) is charged the
    collision penalty exactly if a body of the vehicle would touch an obstacle there, and the hitch penalty exactly if
    the hitch angle would exceed its limit; the state actually reached is rewarded, and the executed speed is charged
    for driving against the preferred direction. *)
Lemma l_C19_tt_charges :
  forall s proj guide st a c h, p_proj (ts_p s) = false -> p_guid (ts_p s) = false -> st_bak st = false ->
  tt_sized (ts_p s) -> proper_obstacles (ts_circ s) (ts_rect s) ->
  let st' := tt_step s proj guide st a in
  let proposed := tt_plain (ts_p s) (st_q st) (saturated a) in
  charged (~ tt_clear (ts_p s) (ts_circ s) (ts_rect s) proposed) (p_coll_pen (ts_p s)) c ->
  charged (~ tt_hitch_ok (ts_p s) proposed) (p_hitch_pen (ts_p s)) h ->
  st_rew st' = tt_reward s (st_q st') - c - h - direction_charge (ts_p s) (fst (st_app st') * p_vmax (ts_p s)).
Proof.
  intros s proj guide st a c h P G B S O st' proposed Hc Hh.
  rewrite (charged_if _ _ _ _ (tt_coll_iff _ _ _ proposed S O) Hc), (charged_if _ _ _ _ (tt_hitch_iff _ proposed) Hh).
  pose proof (l_C19_tt_step_reward s proj guide st a P G B) as E. cbv zeta in E. rewrite no_preference in E. exact E.
Qed.
Lemma l_C19_bk_charges :
  forall s proj guide st a c, p_proj (bs_p s) = false -> p_guid (bs_p s) = false -> st_bak st = false ->
  tractor_sized (bs_p s) -> proper_obstacles (bs_circ s) (bs_rect s) ->
  let st' := bk_step s proj guide st a in
  let proposed := bk_plain (bs_p s) (st_q st) (saturated a) in
  charged (~ bk_safe (bs_p s) (bs_circ s) (bs_rect s) proposed) (p_coll_pen (bs_p s)) c ->
  st_rew st' = bk_reward s (st_q st') - c - direction_charge (bs_p s) (fst (st_app st') * p_vmax (bs_p s)).
Proof.
  intros s proj guide st a c P G B S O st' proposed Hc.
  rewrite (charged_if _ _ _ _ (bk_coll_iff _ _ _ proposed S O) Hc).
  pose proof (l_C19_bk_step_reward s proj guide st a P G B) as E. cbv zeta in E. rewrite no_preference in E. exact E.
Qed.
(** C19, N trailers: as above, but the direction is charged for the commanded, not the executed, speed. *)
Lemma l_C19_nt_charges :
  forall s guide st a c h, p_guid (ns_p s) = false -> nt_sized s -> (1 <= p_num_trailers (ns_p s))%nat ->
  length (n_ths (st_q st)) = p_num_trailers (ns_p s) -> st_bak st = false -> proper_obstacles (ns_circ s) (ns_rect s) ->
  let st' := nt_step_core s guide false st a in
  let proposed := nt_plain s (st_q st) (saturated a) in
  charged (~ nt_clear s proposed) (p_coll_pen (ns_p s)) c ->
  charged (~ nt_hitch_ok s proposed) (p_hitch_pen (ns_p s)) h ->
  st_rew st' = nt_reward s (st_q st') - c - h - direction_charge (ns_p s) (fst (saturated a) * p_vmax (ns_p s)).
Proof.
  intros s guide st a c h G S N L B O st' proposed Hc Hh.
  assert (LL : length (ns_len s) = p_num_trailers (ns_p s)) by (destruct S as (_ & _ & L0 & _); exact L0).
  assert (Lp : length (n_ths proposed) = p_num_trailers (ns_p s)) by (apply nt_plain_valid; assumption).
  rewrite (charged_if _ _ _ _ (nt_coll_iff s proposed S O Lp) Hc), (charged_if _ _ _ _ (nt_hitch_iff s proposed Lp N) Hh).
  pose proof (l_C19_nt_step_reward s guide st a G LL L B) as E. cbv zeta in E. rewrite no_preference in E. exact E.
Qed.
(** C19, acceleration control: with a shield on, the whole predicted braking manoeuvre is looked at instead. *)
Lemma l_C19_acc_charges :
  forall s proj guide st a n c h, p_proj (as_p s) = false -> p_guid (as_p s) = false -> st_bak st = false ->
  0 <= p_vmax (as_p s) -> 0 <= p_dmax (as_p s) -> 0 < p_dt (as_p s) -> 0 < as_amax s ->
  INR n <= 2 * p_vmax (as_p s) / as_amax s < INR n + 1 ->
  tt_sized (as_p s) -> proper_obstacles (ts_circ (as_t s)) (ts_rect (as_t s)) ->
  let p := as_p s in
  let st' := acc_step s proj guide st a in
  let q := acc_drive p (p_dt p) (st_q st) (fst (saturated a) * as_amax s) (snd (saturated a) * as_omax s) in
  let horizon := if p_sh_coll p || p_sh_hitch p then (if Rle_dec (Rabs (a_v q)) (1 / 100) then 0%nat else n) else 0%nat in
  let pose k := a_q (predicted p (full_brake (p_dt p) (as_amax s) (a_v q)) q k) in
  charged (exists k, (k <= horizon)%nat /\ ~ tt_clear p (ts_circ (as_t s)) (ts_rect (as_t s)) (pose k)) (p_coll_pen p) c ->
  charged (exists k, (k <= horizon)%nat /\ ~ tt_hitch_ok p (pose k)) (p_hitch_pen p) h ->
  st_rew st' = acc_reward s (st_q st') - c - h - direction_charge p (a_v (st_q st')).
Proof.
  intros s proj guide st a n c h P G B Hv Hd Hdt Ha Hn S O p st' q horizon pose Hc Hh.
  destruct (l_C19_acc_step_reward s proj guide st a n P G B Hv Hd Hdt Ha Hn) as (b1 & b2 & E1 & E2 & E).
  fold p st' q horizon in E1, E2, E. rewrite no_preference in E. rewrite E.
  assert (X1 : c = if b1 then p_coll_pen p else 0).
  { destruct Hc as [C1 C2]. destruct b1.
    - apply C1. destruct (proj1 E1 eq_refl) as (k & Hk & K). exists k. split; [exact Hk|]. intros N.
      apply (tt_coll_iff _ _ _ _ S O) in N. unfold pose in N. fold p in N. rewrite N in K. discriminate.
    - apply C2. intros (k & Hk & K). apply K. apply (tt_coll_iff _ _ _ _ S O).
      destruct (tt_coll _ _ _ _) eqn:F; [|reflexivity].
      discriminate (proj2 E1 (ex_intro _ k (conj Hk F))). }
  assert (X2 : h = if b2 then p_hitch_pen p else 0).
  { destruct Hh as [C1 C2]. destruct b2.
    - apply C1. destruct (proj1 E2 eq_refl) as (k & Hk & K). exists k. split; [exact Hk|]. intros N.
      apply tt_hitch_iff in N. unfold pose in N. rewrite N in K. discriminate.
    - apply C2. intros (k & Hk & K). apply K. apply tt_hitch_iff.
      destruct (tt_hitch _ _) eqn:F; [|reflexivity].
      discriminate (proj2 E2 (ex_intro _ k (conj Hk F))). }
  rewrite X1, X2. reflexivity.
Qed.
(** C41: with guidance on, the pose corrected by the guidance is charged and rewarded instead. *)
Lemma l_C41_tt_charges :
  forall s proj guide st a c h, p_proj (ts_p s) = false -> p_guid (ts_p s) = true -> st_bak st = false ->
  tt_sized (ts_p s) -> proper_obstacles (ts_circ s) (ts_rect s) ->
  let corrected := guide (tt_plain (ts_p s) (st_q st) (saturated a)) in
  charged (~ tt_clear (ts_p s) (ts_circ s) (ts_rect s) corrected) (p_coll_pen (ts_p s)) c ->
  charged (~ tt_hitch_ok (ts_p s) corrected) (p_hitch_pen (ts_p s)) h ->
  st_rew (tt_step s proj guide st a) = tt_reward s corrected - c - h - direction_charge (ts_p s) (fst (saturated a) * p_vmax (ts_p s)).
Proof.
  intros s proj guide st a c h P G B S O corrected Hc Hh.
  rewrite (charged_if _ _ _ _ (tt_coll_iff _ _ _ corrected S O) Hc), (charged_if _ _ _ _ (tt_hitch_iff _ corrected) Hh).
  exact (proj2 (proj2 (proj2 (l_C41_tt_denoising_step s proj guide st a P G B)))).
Qed.
Lemma l_C41_bk_charges :
  forall s proj guide st a c, p_proj (bs_p s) = false -> p_guid (bs_p s) = true -> st_bak st = false ->
  tractor_sized (bs_p s) -> proper_obstacles (bs_circ s) (bs_rect s) ->
  let corrected := guide (bk_plain (bs_p s) (st_q st) (saturated a)) in
  charged (~ bk_safe (bs_p s) (bs_circ s) (bs_rect s) corrected) (p_coll_pen (bs_p s)) c ->
  st_rew (bk_step s proj guide st a) = bk_reward s corrected - c - direction_charge (bs_p s) (fst (saturated a) * p_vmax (bs_p s)).
Proof.
  intros s proj guide st a c P G B S O corrected Hc.
  rewrite (charged_if _ _ _ _ (bk_coll_iff _ _ _ corrected S O) Hc).
  exact (proj2 (proj2 (proj2 (l_C41_bk_denoising_step s proj guide st a P G B)))).
Qed.
(** A command beyond the box is cut to it: full speed ahead, no steering. *)
Lemma x_C19_saturated : saturated (5, 0) = (1, 0) /\ saturated (-3, 1 / 2) = (-1, 1 / 2).
Proof. unfold saturated, nearest_admissible. split; f_equal; cbn [fst snd]; repeat destruct Rlt_dec; lra. Qed.
(** A vehicle in the open is charged nothing, whatever the command. *)
Lemma x_C19_open_field :
  forall a,
  let s := mkTTSelf (ts_p ex_tt) [] [] (ts_xg ex_tt) in
  p_proj (ts_p s) = false /\ p_guid (ts_p s) = false /\ tt_sized (ts_p s) /\ proper_obstacles (ts_circ s) (ts_rect s) /\
  charged (~ tt_clear (ts_p s) (ts_circ s) (ts_rect s) (tt_plain (ts_p s) (st_q (reset_state (mkTT 0 0 0 0))) (saturated a))) (p_coll_pen (ts_p s)) 0.
Proof.
  intros a s. split; [reflexivity|]. split; [reflexivity|]. split; [|split].
  - unfold s, tt_sized, tractor_sized. cbn. lra.
  - split; intros ? [].
  - split; [|reflexivity]. intros H. exfalso. apply H. split; intros ? ? _ [].
Qed.
