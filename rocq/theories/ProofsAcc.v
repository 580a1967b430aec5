(** * ProofsAcc: the acceleration-controlled robot (C07, C19, C21-C26, C44). *)
From Verif Require Import Base BaseFacts SpecInput SpecPlan InputFacts Params Geom TT2d Bicycle NTrailer Acc SpecGeom SpecBodies SpecDyn SpecAcc
  Rollout Planner Instances ProofsGeom ProofsBodies ProofsKin ProofsRobots ProofsSafety ProofsStep ProofsPlanner.

(** ** Bridges *)
Lemma clip_sat m x : 0 <= m -> clip x (- m) m = sat m x.
Proof.
  intros. unfold clip, sat, Rmin, Rmax. repeat destruct Rle_dec; repeat destruct Rlt_dec; lra.
Qed.
Lemma sat_bound m x : 0 <= m -> Rabs (sat m x) <= m.
Proof. intros. unfold sat. repeat destruct Rlt_dec; apply Rabs_le; lra. Qed.
Lemma acc_euler_drive s q u h : 0 <= p_vmax (as_p s) -> 0 <= p_dmax (as_p s) ->
  acc_euler s q u h = acc_drive (as_p s) h q (fst u) (snd u).
Proof.
  intros Hv Hd. unfold acc_euler, euler, acc_axpy, acc_dyn, acc_drive. destruct u as [a w]. cbn.
  rewrite !clip_sat by auto. reflexivity.
Qed.
Lemma decel_brake s v : 0 < p_dt (as_p s) -> 0 < as_amax s ->
  decel_sign v v * a_backup s v = full_brake (p_dt (as_p s)) (as_amax s) v.
Proof.
  intros Hd Ha. unfold decel_sign, a_backup, full_brake, v_threshold, where_, Rltb.
  destruct (Rlt_dec (1 / 100) v) as [H|H].
  - rewrite Rabs_pos_eq by (apply Rlt_le, Rdiv_lt_0_compat; lra).
    assert (0 < v / p_dt (as_p s)) by (apply Rdiv_lt_0_compat; lra).
    unfold clip, Rmin, Rmax. repeat destruct Rle_dec; lra.
  - destruct (Rlt_dec v (- (1 / 100))) as [H'|H'].
    + assert (0 < - v / p_dt (as_p s)) by (apply Rdiv_lt_0_compat; lra).
      replace (v / p_dt (as_p s)) with (- (- v / p_dt (as_p s))) by (field; lra).
      rewrite Rabs_Ropp, Rabs_pos_eq by lra. unfold clip, Rmin, Rmax. repeat destruct Rle_dec; lra.
    + lra.
Qed.
Lemma acc_scaled_backup s v : 0 < as_amax s ->
  acc_scaler s (acc_backup_norm s v) = (decel_sign v v * a_backup s v, 0).
Proof. intros. unfold acc_scaler, acc_backup_norm. cbn [fst snd]. f_equal; [field; lra|ring]. Qed.

(** The safety check the class makes on a proposed state (as booleans of the model). *)
Definition acc_check (s : acc_self) (q : accq) : bool * bool :=
  if p_sh_coll (as_p s) || p_sh_hitch (as_p s) then
    if Rleb (Rabs (a_v q)) v_threshold then check_single s q else check_with_rollout s q
  else check_single s q.
Definition acc_proposed (s : acc_self) (q : accq) (a : act) : accq :=
  acc_euler s q (acc_scaler s a) (p_dt (as_p s)).
Definition acc_fb (s : acc_self) (q : accq) : bool :=
  (p_sh_coll (as_p s) && fst (acc_check s q)) || (p_sh_hitch (as_p s) && snd (acc_check s q)).
Definition acc_backup_state (s : acc_self) (q : accq) (vnew : R) : accq :=
  acc_euler s q (decel_sign (a_v q) vnew * a_backup s (a_v q), 0) (p_dt (as_p s)).

Lemma acc_step_form s proj guide viz st a : p_proj (as_p s) = false -> p_guid (as_p s) = false ->
  let eff := if st_bak st then acc_backup_norm s (a_v (st_q st)) else clip_act a in
  let q1 := acc_proposed s (st_q st) eff in
  let q' := if acc_fb s q1 then acc_backup_state s (st_q st) (a_v q1) else q1 in
  acc_step_internal s proj guide viz st a =
  mkState q' q'
    (step_reward (as_p s) (acc_reward s q') (fst (acc_check s q1)) (snd (acc_check s q1)) (preference_penalty (as_p s) (a_v q')))
    0 (if st_bak st || acc_fb s q1 then acc_backup_norm s (a_v (st_q st)) else clip_act a) (st_bak st).
Proof.
  intros Hp Hg. cbv zeta. unfold acc_step_internal, acc_step_with, acc_proposed, acc_fb, acc_check, acc_backup_state. rewrite Hp, Hg.
  unfold where_. set (q1 := acc_euler s (st_q st) _ _).
  destruct (p_sh_coll (as_p s)) eqn:E1, (p_sh_hitch (as_p s)) eqn:E2; cbn [orb];
  unfold acc_shielded_rollout, step_without_shield, check_single, where_; rewrite ?E1, ?E2; cbn [andb orb fst snd];
  try (destruct (Rleb (Rabs (a_v q1)) v_threshold); cbn [fst snd];
       [|destruct (check_with_rollout s q1) as [oc hv]; cbn [fst snd]]);
  reflexivity.
Qed.

(** ** C22 *)
Definition brake_step (p : params) (amax : R) (q : accq) : accq := acc_drive p (p_dt p) q (full_brake (p_dt p) amax (a_v q)) 0.
Lemma brake_speed dt amax v : 0 < dt -> 0 < amax ->
  let v' := v + dt * full_brake dt amax v in
  (1 / 100 < v /\ ((v / dt <= amax /\ v' = 0) \/ (amax < v / dt /\ v' = v - amax * dt /\ 0 < v'))) \/
  (v < - (1 / 100) /\ ((- v / dt <= amax /\ v' = 0) \/ (amax < - v / dt /\ v' = v + amax * dt /\ v' < 0))) \/
  (- (1 / 100) <= v <= 1 / 100 /\ v' = v).
Proof.
  intros Hd Ha v'. unfold v', full_brake.
  assert (Hf : v / dt * dt = v) by (field; lra). assert (Hf' : - v / dt * dt = - v) by (field; lra).
  destruct (Rlt_dec (1 / 100) v) as [H|H]; [left; split; [lra|]|].
  - unfold Rmin. destruct Rle_dec as [Hl|Hl]; [left; split; [lra|nra]|].
    right. apply Rnot_le_lt in Hl. split; [lra|]. split; [ring|]. nra.
  - destruct (Rlt_dec v (- (1 / 100))) as [H'|H'].
    + right; left. split; [lra|]. unfold Rmin. destruct Rle_dec as [Hl|Hl]; [left; split; [lra|nra]|].
      right. apply Rnot_le_lt in Hl. split; [lra|]. split; [ring|]. nra.
    + right; right. split; lra.
Qed.
Lemma brake_iter_speed p amax q : 0 < p_dt p -> 0 < amax -> forall n,
  let vn := a_v (Nat.iter n (brake_step p amax) q) in
  Rabs vn <= Rabs (a_v q) /\ 0 <= vn * a_v q /\
  (Rabs vn <= 1 / 100 \/ Rabs vn = Rabs (a_v q) - INR n * (amax * p_dt p)).
Proof.
  intros Hd Ha. induction n as [|n IH].
  - cbn. split; [lra|]. split; [apply Rle_0_sqr|]. right. lra.
  - cbv zeta in *. change (a_v (Nat.iter (S n) (brake_step p amax) q)) with
      (a_v (brake_step p amax (Nat.iter n (brake_step p amax) q))).
    set (qn := Nat.iter n (brake_step p amax) q) in *. set (v := a_v qn) in *.
    change (a_v (brake_step p amax qn)) with (v + p_dt p * full_brake (p_dt p) amax v).
    destruct IH as (H1 & H2 & H3). rewrite S_INR.
    assert (Ham : 0 < amax * p_dt p) by (apply Rmult_lt_0_compat; auto).
    pose proof (brake_speed (p_dt p) amax v Hd Ha) as HB. cbv zeta in HB.
    destruct HB as [[Hv [[Hc ->] | (Hc & E & Hp)]] | [[Hv [[Hc ->] | (Hc & E & Hp)]] | [Hv ->]]].
    + rewrite Rabs_R0. split; [apply Rabs_pos|]. split; [lra|]. left; lra.
    + rewrite E. rewrite E in Hp. assert (0 <= a_v q) by (destruct (Rle_or_lt 0 (a_v q)); auto; nra).
      rewrite (Rabs_pos_eq (v - _)) by lra. rewrite (Rabs_pos_eq v) in * by lra.
      split; [lra|]. split; [apply Rmult_le_pos; lra|]. destruct H3; [lra|]. right. lra.
    + rewrite Rabs_R0. split; [apply Rabs_pos|]. split; [lra|]. left; lra.
    + rewrite E. rewrite E in Hp. assert (a_v q <= 0) by (destruct (Rle_or_lt (a_v q) 0); auto; nra).
      rewrite (Rabs_left1 (v + _)) by lra. rewrite (Rabs_left1 v) in * by lra.
      split; [lra|]. split; [nra|]. destruct H3; [lra|]. right. lra.
    + split; [exact H1|]. split; [exact H2|]. left. apply Rabs_le. lra.
Qed.
(** C22: repeated full braking never raises the speed, never reverses it, leaves the steering
    angle alone, and after n steps the vehicle is stopped (at most 1 cm/s) whenever
    |v| <= n*a_max*dt. *)
Lemma l_C22_braking_stops :
  forall p amax q n, 0 < p_dt p -> 0 < amax ->
  let brake := fun q => acc_drive p (p_dt p) q (full_brake (p_dt p) amax (a_v q)) 0 in
  let qn := Nat.iter n brake q in
  Rabs (a_v qn) <= Rabs (a_v q) /\ 0 <= a_v qn * a_v q /\ a_d qn = a_d q /\
  (Rabs (a_v q) <= INR n * (amax * p_dt p) -> Rabs (a_v qn) <= 1 / 100).
Proof.
  intros p amax q n Hd Ha brake qn. destruct (brake_iter_speed p amax q Hd Ha n) as (H1 & H2 & H3).
  split; [exact H1|]. split; [exact H2|]. split.
  - unfold qn. clear. induction n as [|n IH]; [reflexivity|].
    change (a_d (brake (Nat.iter n brake q)) = a_d q). unfold brake at 1. cbn [a_d acc_drive]. rewrite IH. ring.
  - intros Hn. destruct H3 as [H3|H3]; [exact H3|]. change (Rabs (a_v qn) = Rabs (a_v q) - INR n * (amax * p_dt p)) in H3. lra.
Qed.
(** C22: the step taken in backup mode (no shield) is exactly one full-braking step, and the
    applied action reported is that braking command. *)
Lemma l_C22_backup_mode_brakes :
  forall s proj guide st a, p_proj (as_p s) = false -> p_guid (as_p s) = false ->
  p_sh_coll (as_p s) = false -> p_sh_hitch (as_p s) = false ->
  0 < p_dt (as_p s) -> 0 < as_amax s -> 0 <= p_vmax (as_p s) -> 0 <= p_dmax (as_p s) -> st_bak st = true ->
  let st' := acc_step s proj guide st a in
  let b := full_brake (p_dt (as_p s)) (as_amax s) (a_v (st_q st)) in
  st_q st' = acc_drive (as_p s) (p_dt (as_p s)) (st_q st) b 0 /\
  st_app st' = (b / as_amax s, 0) /\ st_bak st' = true.
Proof.
  intros s proj guide st a Hp Hg H1 H2 Hd Ha Hv Hm Hb st' b. unfold st', acc_step.
  rewrite acc_step_form by auto. unfold acc_fb. rewrite H1, H2, Hb. cbn [andb orb st_q st_app st_bak].
  split; [|split; [|reflexivity]].
  - unfold acc_proposed. rewrite acc_scaled_backup by auto. rewrite acc_euler_drive by auto. cbn [fst snd].
    rewrite decel_brake by auto. reflexivity.
  - unfold acc_backup_norm. rewrite decel_brake by auto. reflexivity.
Qed.
Lemma iter_shift {A} (f : A -> A) n x : Nat.iter n f (f x) = Nat.iter (S n) f x.
Proof. induction n as [|n IH]; [reflexivity|]. change (f (Nat.iter n f (f x)) = f (Nat.iter (S n) f x)). rewrite IH. reflexivity. Qed.
(** C22: in backup mode without shield, n steps of any commands stop a vehicle of speed at most
    n*a_max*dt. *)
Lemma l_C22_backup_mode_stops :
  forall s proj guide q0 us, p_proj (as_p s) = false -> p_guid (as_p s) = false ->
  p_sh_coll (as_p s) = false -> p_sh_hitch (as_p s) = false ->
  0 < p_dt (as_p s) -> 0 < as_amax s -> 0 <= p_vmax (as_p s) -> 0 <= p_dmax (as_p s) ->
  Rabs (a_v q0) <= INR (length us) * (as_amax s * p_dt (as_p s)) ->
  let st0 := mkState q0 q0 0 0 (0, 0) true in
  let q := st_q (fold_left (acc_step s proj guide) us st0) in
  Rabs (a_v q) <= 1 / 100 /\ 0 <= a_v q * a_v q0 /\ a_d q = a_d q0.
Proof.
  intros s proj guide q0 us Hp Hg H1 H2 Hd Ha Hv Hm Hn st0 q.
  assert (G : forall us st, st_bak st = true ->
     st_q (fold_left (acc_step s proj guide) us st) = Nat.iter (length us) (brake_step (as_p s) (as_amax s)) (st_q st)).
  { clear q Hn us. induction us as [|u us IH]; intros st Hb; [reflexivity|].
    destruct (l_C22_backup_mode_brakes s proj guide st u Hp Hg H1 H2 Hd Ha Hv Hm Hb) as (E1 & _ & E3).
    cbn [fold_left length]. rewrite IH by exact E3. rewrite E1.
    change (Nat.iter (length us) (brake_step (as_p s) (as_amax s)) (brake_step (as_p s) (as_amax s) (st_q st))
            = Nat.iter (S (length us)) (brake_step (as_p s) (as_amax s)) (st_q st)).
    apply iter_shift. }
  unfold q. rewrite G by reflexivity.
  destruct (l_C22_braking_stops (as_p s) (as_amax s) q0 (length us) Hd Ha) as (A & B & C & D).
  split; [apply D; exact Hn|]. split; [exact B|exact C].
Qed.
(** ** PART2 *)
(** ** C24 *)
(** C24: in every mode in which the class moves the vehicle itself, whatever the history, the
    pose changes as for a vehicle driven for dt at some speed within v_max and steering angle
    within delta_max. *)
Lemma l_C24_limits :
  forall s proj guide st a, p_proj (as_p s) = false -> p_guid (as_p s) = false ->
  0 <= p_vmax (as_p s) -> 0 <= p_dmax (as_p s) ->
  let p := as_p s in let q := a_q (st_q st) in let q' := a_q (st_q (acc_step s proj guide st a)) in
  exists v delta, Rabs v <= p_vmax p /\ Rabs delta <= p_dmax p /\
    t_px q' = t_px q + p_dt p * (v * cos (t_th1 q)) /\
    t_py q' = t_py q + p_dt p * (v * sin (t_th1 q)) /\
    t_th1 q' = t_th1 q + p_dt p * (v / p_l1 p * tan delta) /\
    t_th2 q' = t_th2 q + p_dt p * (v / p_l2 p * (sin (t_th1 q - t_th2 q) - p_lh p / p_l1 p * cos (t_th1 q - t_th2 q) * tan delta)) /\
    (Rabs (a_v (st_q st)) <= p_vmax p -> v = a_v (st_q st)) /\
    (Rabs (a_d (st_q st)) <= p_dmax p -> delta = a_d (st_q st)).
Proof.
  intros s proj guide st a Hp Hg Hv Hd p q q'. unfold q', acc_step. rewrite acc_step_form by auto. cbn [st_q].
  exists (sat (p_vmax p) (a_v (st_q st))), (sat (p_dmax p) (a_d (st_q st))).
  assert (Hs : forall m x, Rabs x <= m -> sat m x = x).
  { intros m x Hx. unfold sat. unfold Rabs in Hx. destruct (Rcase_abs x); repeat destruct Rlt_dec; lra. }
  split; [apply sat_bound; auto|]. split; [apply sat_bound; auto|].
  match goal with |- context [if ?b then acc_backup_state _ _ _ else _] => destruct b end;
  unfold acc_backup_state, acc_proposed; rewrite acc_euler_drive by auto; cbn [acc_drive a_q t_px t_py t_th1 t_th2];
  repeat (split; [reflexivity|]); split; intros; apply Hs; auto.
Qed.
(** C24, projection and guidance while denoising: same limits. *)
Lemma l_C24_limits_all_modes :
  forall s proj guide st a, 0 <= p_vmax (as_p s) -> 0 <= p_dmax (as_p s) ->
  let p := as_p s in let q := a_q (st_q st) in let q' := a_q (st_q (acc_step s proj guide st a)) in
  exists v delta, Rabs v <= p_vmax p /\ Rabs delta <= p_dmax p /\
    t_px q' = t_px q + p_dt p * (v * cos (t_th1 q)) /\
    t_py q' = t_py q + p_dt p * (v * sin (t_th1 q)) /\
    t_th1 q' = t_th1 q + p_dt p * (v / p_l1 p * tan delta).
Proof.
  intros s proj guide st a Hv Hd. destruct (p_proj (as_p s)) eqn:Hp; [|destruct (p_guid (as_p s)) eqn:Hg].
  - cbv zeta. exists (sat (p_vmax (as_p s)) (a_v (st_q st))), (sat (p_dmax (as_p s)) (a_d (st_q st))).
    split; [apply sat_bound; auto|]. split; [apply sat_bound; auto|].
    unfold acc_step, acc_step_internal, acc_step_with. rewrite Hp. cbn [st_q]. rewrite acc_euler_drive by auto.
    repeat split; reflexivity.
  - cbv zeta. exists (sat (p_vmax (as_p s)) (a_v (st_q st))), (sat (p_dmax (as_p s)) (a_d (st_q st))).
    split; [apply sat_bound; auto|]. split; [apply sat_bound; auto|].
    unfold acc_step, acc_step_internal, acc_step_with. rewrite Hp, Hg. cbn [st_q]. rewrite acc_euler_drive by auto.
    repeat split; reflexivity.
  - destruct (l_C24_limits s proj guide st a Hp Hg Hv Hd) as (v & d & H1 & H2 & H3 & H4 & H5 & _).
    exists v, d. auto.
Qed.
Lemma INR_above r : exists n, r < INR n.
Proof.
  destruct (archimed r) as [H _]. destruct (Rle_or_lt r 0); [exists 1%nat; simpl; lra|].
  exists (Z.to_nat (up r)). rewrite INR_IZR_INZ, Z2Nat.id; [lra|]. apply le_IZR. lra.
Qed.
(** C24 (finding): the speed stored in the state is not limited: n steps of full acceleration
    give n*a_max*dt, beyond any bound. The vehicle then needs longer to brake than its actual
    speed suggests. *)
Lemma l_C24_stored_speed_refuted :
  forall B, exists us, let q := st_q (fold_left (acc_step ex_acc_free (fun _ a => a) (fun q => q)) us
                                        (reset_state (mkAcc (mkTT 0 0 0 0) 0 0))) in
  B < a_v q /\ Forall (fun a => -1 <= fst a <= 1 /\ -1 <= snd a <= 1) us.
Proof.
  intros B. destruct (INR_above (B / (4/10))) as [n Hn]. exists (repeat (1, 0) n).
  assert (G : forall n st, st_bak st = false ->
     a_v (st_q (fold_left (acc_step ex_acc_free (fun _ a => a) (fun q => q)) (repeat (1, 0) n) st)) = a_v (st_q st) + INR n * (4/10)).
  { clear. induction n as [|n IH]; intros st Hb; [cbn; lra|]. cbn [repeat fold_left]. rewrite S_INR.
    assert (E : a_v (st_q (acc_step ex_acc_free (fun _ a => a) (fun q => q) st (1, 0))) = a_v (st_q st) + 4/10
                /\ st_bak (acc_step ex_acc_free (fun _ a => a) (fun q => q) st (1, 0)) = false).
    { unfold acc_step. rewrite acc_step_form by reflexivity. cbn [st_q st_bak]. split; [|exact Hb]. rewrite Hb.
      unfold acc_fb. cbn [p_sh_coll p_sh_hitch as_p ex_acc_free as_t ts_p flags_off andb orb].
      unfold acc_proposed, acc_euler, euler, acc_axpy, acc_dyn, acc_scaler, clip_act. cbn [a_v fst snd].
      rewrite (clip_id 1) by lra. cbn. lra. }
    destruct E as [E1 E2]. rewrite IH by exact E2. rewrite E1. lra. }
  cbv zeta. split.
  - rewrite G by reflexivity. cbn [reset_state st_q a_v].
    assert (B / (4/10) * (4/10) < INR n * (4/10)) by (apply Rmult_lt_compat_r; lra).
    assert (B / (4/10) * (4/10) = B) by (field). lra.
  - apply Forall_forall. intros x Hx. apply repeat_spec in Hx. subst. cbn. lra.
Qed.

(** ** C25 *)
Lemma check_iter s u q n : 0 <= p_vmax (as_p s) -> 0 <= p_dmax (as_p s) ->
  let r := Nat.iter n (acc_rollout_step s (u, 0)) (q, as_coll s q, as_hitch s q) in
  fst (fst r) = predicted (as_p s) u q n /\
  (snd (fst r) = false <-> forall k, (k <= n)%nat -> as_coll s (predicted (as_p s) u q k) = false) /\
  (snd r = false <-> forall k, (k <= n)%nat -> as_hitch s (predicted (as_p s) u q k) = false).
Proof.
  intros Hv Hd. induction n as [|n IH].
  - cbn [Nat.iter nat_rect fst snd predicted]. split; [reflexivity|]. split; (split; [intros H k Hk; replace k with 0%nat by lia; exact H|intros H; apply (H 0%nat); lia]).
  - cbv zeta in *. change (Nat.iter (S n) (acc_rollout_step s (u, 0)) (q, as_coll s q, as_hitch s q))
      with (acc_rollout_step s (u, 0) (Nat.iter n (acc_rollout_step s (u, 0)) (q, as_coll s q, as_hitch s q))).
    destruct (Nat.iter n (acc_rollout_step s (u, 0)) (q, as_coll s q, as_hitch s q)) as [[qc oc] hv].
    cbn [fst snd] in IH. destruct IH as (E & H1 & H2). unfold acc_rollout_step.
    assert (Eq : where_ (Rltb v_threshold (Rabs (a_v qc))) (acc_euler s qc (u, 0) rollout_dt) qc = predicted (as_p s) u q (S n)).
    { cbn [predicted]. rewrite <- E. unfold where_, Rltb, v_threshold. destruct Rlt_dec; auto.
      rewrite acc_euler_drive by auto. reflexivity. }
    rewrite Eq. cbn [fst snd]. split; [reflexivity|]. rewrite !orb_false_iff, H1, H2. split; split.
    + intros [A B] k Hk. destruct (Nat.eq_dec k (S n)) as [->|]; auto. apply A. lia.
    + intros A. split; [intros k Hk; apply A; lia|apply A; lia].
    + intros [A B] k Hk. destruct (Nat.eq_dec k (S n)) as [->|]; auto. apply A. lia.
    + intros A. split; [intros k Hk; apply A; lia|apply A; lia].
Qed.
Lemma acc_checks_safe s q : tt_sized (as_p s) -> as_coll s q = false -> as_hitch s q = false -> acc_safe s q.
Proof. intros Hs H1 H2. split; [apply tt_coll_false_clear; auto|apply tt_hitch_iff; auto]. Qed.
Lemma acc_safe_checks s q : tt_sized (as_p s) -> proper_obstacles (ts_circ (as_t s)) (ts_rect (as_t s)) -> acc_safe s q ->
  as_coll s q = false /\ as_hitch s q = false.
Proof. intros Hs Ho [H1 H2]. split; [apply tt_clear_coll_false; auto|apply tt_hitch_iff; auto]. Qed.
Lemma steps_eq s n : 0 < as_amax s -> 0 <= p_vmax (as_p s) ->
  (INR n <= 2 * p_vmax (as_p s) / as_amax s < INR n + 1) -> max_rollout_steps s = n.
Proof.
  intros Ha Hv H. unfold max_rollout_steps, rollout_dt. rewrite Rmult_1_r, Rminus_0_r.
  rewrite (Int_part_unique _ (Z.of_nat n)); [apply Nat2Z.id|]. rewrite <- INR_IZR_INZ. exact H.
Qed.
Lemma check_rollout_char s q : 0 <= p_vmax (as_p s) -> 0 <= p_dmax (as_p s) -> 0 < p_dt (as_p s) -> 0 < as_amax s ->
  let b := full_brake (p_dt (as_p s)) (as_amax s) (a_v q) in
  (fst (check_with_rollout s q) = false <-> forall k, (k <= max_rollout_steps s)%nat -> as_coll s (predicted (as_p s) b q k) = false) /\
  (snd (check_with_rollout s q) = false <-> forall k, (k <= max_rollout_steps s)%nat -> as_hitch s (predicted (as_p s) b q k) = false).
Proof.
  intros Hv Hd Hdt Ha b. unfold check_with_rollout. rewrite decel_brake by auto. fold b.
  destruct (check_iter s b q (max_rollout_steps s) Hv Hd) as (_ & H1 & H2). cbv zeta in H1, H2.
  destruct (Nat.iter _ _ _) as [[qc oc] hv]. cbn [fst snd] in *. auto.
Qed.
(** C25: the predictive check of a state passes exactly when that state and each of the
    floor(2 v_max / a_max) predicted states of the braking manoeuvre are safe. *)
Lemma l_C25_predictive_check_exact :
  forall s q n, 0 <= p_vmax (as_p s) -> 0 <= p_dmax (as_p s) -> 0 < p_dt (as_p s) -> 0 < as_amax s ->
  tt_sized (as_p s) -> proper_obstacles (ts_circ (as_t s)) (ts_rect (as_t s)) ->
  INR n <= 2 * p_vmax (as_p s) / as_amax s < INR n + 1 ->
  (check_with_rollout s q = (false, false) <->
   forall k, (k <= n)%nat ->
     acc_safe s (predicted (as_p s) (full_brake (p_dt (as_p s)) (as_amax s) (a_v q)) q k)).
Proof.
  intros s q n Hv Hd Hdt Ha Hs Ho Hn. destruct (check_rollout_char s q Hv Hd Hdt Ha) as [H1 H2]. cbv zeta in H1, H2.
  rewrite (steps_eq s n Ha Hv Hn) in *. split.
  - intros E. rewrite E in H1, H2. cbn [fst snd] in *. intros k Hk. apply acc_checks_safe; auto; [apply H1|apply H2]; auto.
  - intros H. destruct (check_with_rollout s q) as [oc hv]. cbn [fst snd] in *. f_equal; [apply H1|apply H2];
    intros k Hk; apply acc_safe_checks; auto.
Qed.
(** C25 (finding): the predicted manoeuvre is not a stopping manoeuvre. It keeps the first
    braking acceleration for one-second steps, so from 0.5 m/s (default limits) the predicted
    vehicle shoots through zero and then accelerates backwards: -1.5, -3.5, -5.5 m/s. *)
Lemma l_C25_prediction_does_not_stop_refuted :
  let q := mkAcc (mkTT 0 0 0 0) (1 / 2) 0 in
  let b := full_brake (2 / 10) 2 (1 / 2) in
  2 * p_vmax default_params / 2 = 3 /\
  a_v (predicted default_params b q 1) = - (3 / 2) /\
  a_v (predicted default_params b q 2) = - (7 / 2) /\
  a_v (predicted default_params b q 3) = - (11 / 2).
Proof.
  cbv zeta. set (b := full_brake (2/10) 2 (1/2)).
  assert (Hb : b = -2). { unfold b, full_brake, Rmin. repeat destruct Rlt_dec; repeat destruct Rle_dec; lra. }
  assert (S1 : forall q j, 1/100 < Rabs (a_v (predicted default_params b q j)) ->
     a_v (predicted default_params b q (S j)) = a_v (predicted default_params b q j) + b).
  { intros q j H. cbn [predicted]. destruct Rlt_dec; [|contradiction]. cbn [acc_drive a_v]. ring. }
  split; [cbn; lra|]. rewrite Hb in *.
  assert (E1 : a_v (predicted default_params (-2) (mkAcc (mkTT 0 0 0 0) (1/2) 0) 1) = - (3/2)).
  { rewrite S1; cbn [predicted a_v]; [lra|]. rewrite Rabs_pos_eq; lra. }
  assert (E2 : a_v (predicted default_params (-2) (mkAcc (mkTT 0 0 0 0) (1/2) 0) 2) = - (7/2)).
  { rewrite S1; rewrite E1; [lra|]. rewrite Rabs_left; lra. }
  split; [exact E1|]. split; [exact E2|]. rewrite S1; rewrite E2; [lra|]. rewrite Rabs_left; lra.
Qed.

(** ** C23 *)
(** C23, partial: the pose after one step does not depend on the command or on the shield at
    all: braking acts on the stored speed only, so the pose reached in the step that detects
    a danger is the dangerous pose itself. *)
Lemma l_C23_pose_ignores_command_and_shield_partial :
  forall s proj guide st a proj2 guide2 st2 a2, p_proj (as_p s) = false -> p_guid (as_p s) = false ->
  0 <= p_vmax (as_p s) -> 0 <= p_dmax (as_p s) -> st_q st2 = st_q st ->
  a_q (st_q (acc_step s proj guide st a)) = a_q (st_q (acc_step (acc_unshielded s) proj2 guide2 st2 a2)).
Proof.
  intros s proj guide st a proj2 guide2 st2 a2 Hp Hg Hv Hd E.
  assert (G : forall s proj guide st a, p_proj (as_p s) = false -> p_guid (as_p s) = false ->
     0 <= p_vmax (as_p s) -> 0 <= p_dmax (as_p s) ->
     a_q (st_q (acc_step s proj guide st a)) = a_q (acc_drive (as_p s) (p_dt (as_p s)) (st_q st) 0 0)).
  { clear. intros s proj guide st a Hp Hg Hv Hd. unfold acc_step. rewrite acc_step_form by auto. cbn [st_q].
    match goal with |- context [if ?b then acc_backup_state _ _ _ else _] => destruct b end;
    unfold acc_backup_state, acc_proposed; rewrite acc_euler_drive by auto; reflexivity. }
  rewrite (G s) by auto. rewrite (G (acc_unshielded s)) by auto. rewrite E. reflexivity.
Qed.
(** C23, partial: every step (both flags on) either is accepted, and then the command is
    executed as given and the new state is safe, or is refused, and then the reported action is
    full braking and the reward is reduced by at least the smaller of the two penalties. *)
Lemma l_C23_accepted_or_penalised_partial :
  forall s proj guide st a, p_proj (as_p s) = false -> p_guid (as_p s) = false ->
  p_sh_coll (as_p s) = true -> p_sh_hitch (as_p s) = true -> tt_sized (as_p s) ->
  0 <= p_vmax (as_p s) -> 0 <= p_dmax (as_p s) -> 0 < p_dt (as_p s) -> 0 < as_amax s ->
  0 <= p_coll_pen (as_p s) -> 0 <= p_hitch_pen (as_p s) -> 0 <= p_pref_w (as_p s) ->
  st_bak st = false ->
  let st' := acc_step s proj guide st a in
  let cmd := acc_drive (as_p s) (p_dt (as_p s)) (st_q st) (fst (saturated a) * as_amax s) (snd (saturated a) * as_omax s) in
  (acc_safe s (st_q st') /\ st_q st' = cmd /\ st_app st' = saturated a) \/
  (st_app st' = (full_brake (p_dt (as_p s)) (as_amax s) (a_v (st_q st)) / as_amax s, 0) /\
   st_rew st' <= acc_reward s (st_q st') - Rmin (p_coll_pen (as_p s)) (p_hitch_pen (as_p s))).
Proof. rewrite ?saturated_clip.
  intros s proj guide st a Hp Hg Hc Hh Hs Hv Hd Hdt Ha Hcp Hhp Hpw Hb st' cmd. unfold st', acc_step. rewrite acc_step_form by auto. rewrite Hb.
  cbn [orb st_q st_app st_rew].
  assert (Eq : acc_proposed s (st_q st) (clip_act a) = cmd) by (unfold acc_proposed; rewrite acc_euler_drive by auto; reflexivity).
  rewrite Eq. destruct (acc_fb s cmd) eqn:Ef.
  - right. split; [unfold acc_backup_norm; rewrite decel_brake by auto; reflexivity|].
    unfold acc_fb in Ef. rewrite Hc, Hh in Ef. cbn [andb] in Ef.
    unfold step_reward, where_. set (R0 := acc_reward s _). 
    match goal with |- context [preference_penalty ?p ?v] => assert (HP : 0 <= preference_penalty p v) by (apply (l_C18_preference_penalty p v); auto); set (P := preference_penalty p v) in * end.
    assert (Hm := Rmin_l (p_coll_pen (as_p s)) (p_hitch_pen (as_p s))). assert (Hm2 := Rmin_r (p_coll_pen (as_p s)) (p_hitch_pen (as_p s))).
    destruct (fst (acc_check s cmd)), (snd (acc_check s cmd)); try discriminate Ef; destruct (negb _); lra.
  - left. unfold acc_fb in Ef. rewrite Hc, Hh in Ef. cbn [andb] in Ef. apply orb_false_iff in Ef. destruct Ef as [E1 E2].
    split; [|split; reflexivity]. unfold acc_check in E1, E2. rewrite Hc, Hh in E1, E2. cbn [orb] in *.
    destruct (Rleb _ _).
    + apply acc_checks_safe; auto.
    + destruct (check_rollout_char s cmd Hv Hd Hdt Ha) as [H1 H2]. cbv zeta in *.
      apply acc_checks_safe; auto; [apply (proj1 H1 E1 0%nat)|apply (proj1 H2 E2 0%nat)]; lia.
Qed.
(** C23, partial: a vehicle at rest stays where it is for one step whatever is commanded. *)
Lemma l_C23_at_rest_stays_safe_partial :
  forall s proj guide st a, p_proj (as_p s) = false -> p_guid (as_p s) = false ->
  0 <= p_vmax (as_p s) -> 0 <= p_dmax (as_p s) -> a_v (st_q st) = 0 ->
  a_q (st_q (acc_step s proj guide st a)) = a_q (st_q st) /\
  (acc_safe s (st_q st) -> acc_safe s (st_q (acc_step s proj guide st a))).
Proof.
  intros s proj guide st a Hp Hg Hv Hd E0.
  assert (E : a_q (st_q (acc_step s proj guide st a)) = a_q (st_q st)).
  { destruct (l_C24_limits s proj guide st a Hp Hg Hv Hd) as (v & d & _ & _ & H1 & H2 & H3 & H4 & H5 & _).
    rewrite E0, Rabs_R0 in H5. rewrite (H5 Hv) in *. destruct (a_q (st_q (acc_step s proj guide st a))), (a_q (st_q st)).
    cbn in *. f_equal; [rewrite H1|rewrite H2|rewrite H3|rewrite H4]; unfold Rdiv; ring. }
  split; auto. unfold acc_safe. rewrite E. auto.
Qed.
(** C23 (finding): the claim is false. Default vehicle at 3 m/s, safe, a square obstacle 30 cm
    ahead, both flags on: after one step, whatever the command, tractor and obstacle overlap. *)
Definition ex_wall : acc_self := mkAccSelf (mkTTSelf default_params [] [mkRect (493/100) 0 1 1 0] (mkTT 0 0 PI PI)) 2 1.
Definition ex_fast : accq := mkAcc (mkTT 0 0 0 0) 3 0.
Lemma default_sized : tt_sized default_params.
Proof. unfold tt_sized, tractor_sized; cbn; lra. Qed.
Lemma hitch_ok_zero phi a : 0 <= phi -> hitch_ok phi a a.
Proof. intros. exists 0%Z. replace (a - a + 0 * (2 * PI)) with 0 by ring. rewrite Rabs_R0. auto. Qed.
Lemma ex_fast_safe : acc_safe ex_wall ex_fast.
Proof.
  split.
  - split; [intros g c _ []|]. intros g o Hg [<-|[]] P [H1 H2].
    destruct H2 as (a2 & b2 & A2 & B2 & E2). unfold at_frame in E2. cbn in A2, B2, E2. rewrite cos_0, sin_0 in E2.
    destruct Hg as [<-|[<-|[]]]; destruct H1 as (a1 & b1 & A1 & B1 & E1); unfold at_frame in E1; cbn in A1, B1, E1; rewrite ?cos_0, ?sin_0 in E1;
    subst P; apply (f_equal fst) in E2; cbn in E2; lra.
  - apply hitch_ok_zero. cbn. unfold phi_max_const. pose proof PI_RGT_0. lra.
Qed.
Lemma ex_fast_next proj guide a : let q := a_q (st_q (acc_step ex_wall proj guide (reset_state ex_fast) a)) in
  q = mkTT (6/10) 0 0 0.
Proof.
  cbv zeta. assert (Hv : 0 <= p_vmax (as_p ex_wall)) by (cbn; lra).
  assert (Hd : 0 <= p_dmax (as_p ex_wall)) by (cbn; unfold delta_max_of_deg; pose proof PI_RGT_0; lra).
  destruct (l_C24_limits ex_wall proj guide (reset_state ex_fast) a eq_refl eq_refl Hv Hd) as (v & d & _ & _ & H1 & H2 & H3 & H4 & H5 & H6).
  cbn [reset_state st_q ex_fast a_q a_v a_d t_px t_py t_th1 t_th2] in *.
  rewrite H5 in * by (rewrite Rabs_pos_eq; cbn; lra). rewrite H6 in * by (rewrite Rabs_R0; exact Hd).
  destruct (a_q _) as [x y t1 t2]. cbn [t_px t_py t_th1 t_th2] in *.
  rewrite cos_0, sin_0, tan_0 in *. replace (0 - 0) with 0 in H4 by ring. rewrite sin_0 in H4. cbn in H1, H2, H3, H4.
  f_equal; [rewrite H1|rewrite H2|rewrite H3|rewrite H4]; field.
Qed.
(** C23 (finding): from a safe start at speed the next state overlaps an obstacle whatever is commanded, so no plan returned by run_diffusion is safe. *)
Lemma l_C23_shield_too_late_refuted :
  exists s x0, p_sh_coll (as_p s) = true /\ p_sh_hitch (as_p s) = true /\ tt_sized (as_p s) /\ acc_safe s x0 /\
  (forall proj guide a,
    exists g o P, In g (tt_bodies (as_p s) (a_q (st_q (acc_step s proj guide (reset_state x0) a)))) /\
      In o (ts_rect (as_t s)) /\ solid g P /\ solid (obstacle_body o) P) /\
  (forall proj guide logpd rx g rg out, g_guid g = false -> (1 <= g_Hsample g)%nat ->
     run_diffusion (acc_penv s x0 proj guide logpd rx) (Some g) rg = Ok out -> ~ Forall (acc_safe s) (o_traj out)).
Proof.
  exists ex_wall, ex_fast. split; [reflexivity|]. split; [reflexivity|]. split; [apply default_sized|]. split; [apply ex_fast_safe|].
  assert (K : forall proj guide a,
    exists g o P, In g (tt_bodies (as_p ex_wall) (a_q (st_q (acc_step ex_wall proj guide (reset_state ex_fast) a)))) /\
      In o (ts_rect (as_t ex_wall)) /\ solid g P /\ solid (obstacle_body o) P).
  { intros proj guide a. rewrite ex_fast_next. do 2 eexists. exists (45/10, 0). split; [left; reflexivity|]. split; [left; reflexivity|].
    split.
    - exists (39/10), 0. unfold at_frame. cbn. rewrite cos_0, sin_0. split; [lra|]. split; [lra|]. f_equal; lra.
    - exists (-43/100), 0. unfold at_frame. cbn. rewrite cos_0, sin_0. split; [lra|]. split; [lra|]. f_equal; lra. }
  split; [exact K|]. intros proj guide logpd rx g rg out Hg HH E HF. injection E as <-.
  pose proof (run_Y0_length (acc_penv ex_wall ex_fast proj guide logpd rx) g rg) as HL.
  unfold run_diffusion_core in *. destruct (reverse_loop _ _ _ _ _ _) as [Ys Yf]. cbn [o_Y0 o_traj] in *. rewrite Hg in HF.
  set (Y0 := snd (rollout_term (acc_penv ex_wall ex_fast proj guide logpd rx) Yf)) in *.
  destruct Y0 as [|u us]; [cbn in HL; lia|]. unfold trajectory_states in HF. cbn [replay] in HF.
  apply Forall_inv_tail in HF. apply Forall_inv in HF. cbn [pe_step pe_reset acc_penv] in HF.
  destruct (K proj guide u) as (gg & o & P & G1 & G2 & G3 & G4). destruct HF as [[_ HF] _].
  apply (HF gg o G1 G2 P). auto.
Qed.
(** C23 (finding): reversing, the shield does not even brake in time. The default vehicle
    reverses straight at 0.3 m/s towards a wall 2.5 cm behind it; the command given at every step
    (acceleration +1.5 m/s^2) would stop it within one step. Both flags on, for every n: after n
    steps it is still reversing at 0.3 m/s, 6n cm further back, inside the wall; the reported
    actions are the stopping command. *)
Definition wall_behind (n : nat) : rectobs := mkRect (- (73/10) - (INR n + 1) / 2) 0 (INR n + 1) 2 0.
Definition ex_reverse (n : nat) : acc_self := mkAccSelf (mkTTSelf default_params [] [wall_behind n] (mkTT 0 0 PI PI)) 2 1.
Definition rev_state (k : nat) : accq := mkAcc (mkTT (- (6/100) * INR k) 0 0 0) (- (3/10)) 0.
Lemma rev_dangerous n k : (1 <= k <= S n)%nat -> as_coll (ex_reverse n) (rev_state k) = true.
Proof.
  intros Hk. destruct (as_coll (ex_reverse n) (rev_state k)) eqn:E; auto. exfalso.
  unfold as_coll in E. apply tt_coll_false_clear in E; [|apply default_sized]. destruct E as [_ E].
  assert (H1 : 1 <= INR k) by (replace 1 with (INR 1) by reflexivity; apply le_INR; lia).
  assert (H2 : INR k <= INR n + 1) by (rewrite <- S_INR; apply le_INR; lia).
  refine (E _ (wall_behind n) (or_intror (or_introl eq_refl)) (or_introl eq_refl) (- (6/100) * INR k - 7275/1000, 0) (conj _ _)).
  - exists (-3225/1000), 0. unfold at_frame. cbn. rewrite cos_0, sin_0. split; [lra|]. split; [lra|]. f_equal; lra.
  - exists (- (6/100) * INR k - 7275/1000 + 73/10 + (INR n + 1) / 2), 0. unfold at_frame. cbn. rewrite cos_0, sin_0.
    split; [lra|]. split; [lra|]. f_equal; lra.
Qed.
Lemma rev_pose n k h a w : a_q (acc_drive (as_p (ex_reverse n)) (2/10) (mkAcc (mkTT (- (6/100) * INR k) 0 0 0) (- (3/10)) h) a w) = 
  mkTT (- (6/100) * INR (S k)) 0 (0 + 2/10 * (- (3/10) / (323/100) * tan (sat (p_dmax default_params) h)))
    (0 + 2/10 * (- (3/10) / (29/10) * (sin (0 - 0) - 115/100 / (323/100) * cos (0-0) * tan (sat (p_dmax default_params) h)))).
Proof.
  unfold acc_drive. cbn [a_q a_v a_d t_px t_py t_th1 t_th2]. rewrite S_INR.
  replace (sat (p_vmax (as_p (ex_reverse n))) (- (3 / 10))) with (- (3/10)).
  2:{ unfold sat. cbn. repeat destruct Rlt_dec; lra. }
  rewrite cos_0, sin_0. f_equal; try reflexivity; lra.
Qed.
Lemma rev_step n k proj guide st : st_bak st = false -> st_q st = rev_state k -> (k <= n)%nat ->
  let st' := acc_step (ex_reverse n) proj guide st (3/4, 0) in
  st_bak st' = false /\ st_q st' = rev_state (S k) /\ st_app st' = (3/4, 0).
Proof.
  intros Hb Hq Hk. cbv zeta. unfold acc_step. rewrite acc_step_form by reflexivity. rewrite Hb, Hq. cbn [orb st_bak st_q st_app].
  assert (Hv : 0 <= p_vmax (as_p (ex_reverse n))) by (cbn; lra).
  assert (Hd : 0 <= p_dmax (as_p (ex_reverse n))) by (cbn; unfold delta_max_of_deg; pose proof PI_RGT_0; lra).
  assert (Hs0 : sat (p_dmax default_params) 0 = 0).
  { cbn in Hd. unfold sat. cbn. repeat destruct Rlt_dec; lra. }
  assert (Ec : clip_act (3/4, 0) = (3/4, 0)) by (unfold clip_act; cbn [fst snd]; rewrite !clip_id by lra; reflexivity).
  rewrite Ec.
  assert (Epose : forall a w, a_q (acc_drive (as_p (ex_reverse n)) (2/10) (rev_state k) a w) = mkTT (- (6/100) * INR (S k)) 0 0 0).
  { intros a w. unfold rev_state. rewrite rev_pose. rewrite Hs0, tan_0. replace (0 - 0) with 0 by ring. rewrite sin_0. f_equal; field. }
  assert (Eprop : acc_proposed (ex_reverse n) (rev_state k) (3/4, 0) = mkAcc (mkTT (- (6/100) * INR (S k)) 0 0 0) 0 0).
  { unfold acc_proposed. rewrite acc_euler_drive by auto. change (p_dt (as_p (ex_reverse n))) with (2/10).
    set (u := acc_scaler _ _). specialize (Epose (fst u) (snd u)).
    destruct (acc_drive (as_p (ex_reverse n)) (2/10) (rev_state k) (fst u) (snd u)) as [q v d] eqn:E. cbn [a_q] in Epose. subst q.
    apply (f_equal (fun x => (a_v x, a_d x))) in E. cbn in E. injection E as E1 E2. rewrite <- E1, <- E2. f_equal; lra. }
  rewrite Eprop.
  assert (Efb : acc_fb (ex_reverse n) (mkAcc (mkTT (- (6/100) * INR (S k)) 0 0 0) 0 0) = true).
  { unfold acc_fb, acc_check. cbn [as_p ex_reverse as_t ts_p p_sh_coll p_sh_hitch default_params orb andb a_v].
    rewrite Rabs_R0. replace (Rleb 0 v_threshold) with true by (symmetry; apply Rleb_true; unfold v_threshold; lra).
    unfold check_single. cbn [fst snd].
    pose proof (rev_dangerous n (S k) ltac:(lia)) as Hdg. unfold as_coll, rev_state in *. cbn [a_q] in *.
    match goal with |- (?x || _)%bool = true => change x with (ts_coll (as_t (ex_reverse n)) (mkTT (- (6/100) * INR (S k)) 0 0 0)) end.
    rewrite Hdg. reflexivity. }
  rewrite Efb. split; [reflexivity|]. split.
  - unfold acc_backup_state. rewrite acc_euler_drive by auto. cbn [a_v].
    assert (Ed : decel_sign (a_v (rev_state k)) 0 = 0).
    { unfold decel_sign, where_, Rltb, v_threshold. cbn [a_v rev_state]. repeat destruct Rlt_dec; lra. }
    rewrite Ed. change (p_dt (as_p (ex_reverse n))) with (2/10). cbn [fst snd].
    set (A := 0 * _). specialize (Epose A 0).
    destruct (acc_drive (as_p (ex_reverse n)) (2/10) (rev_state k) A 0) as [q v d] eqn:E. cbn [a_q] in Epose. subst q.
    apply (f_equal (fun x => (a_v x, a_d x))) in E. cbn in E. injection E as E1 E2. unfold rev_state. rewrite <- E1, <- E2.
    unfold A. f_equal; ring.
  - unfold acc_backup_norm. rewrite decel_brake by (cbn; lra). cbn [a_v rev_state]. f_equal.
    unfold full_brake. cbn. unfold Rmin. repeat destruct Rlt_dec; repeat destruct Rle_dec; lra.
Qed.
(** C23 (finding): reversing slowly and commanding a stop, the vehicle is kept at its speed by the shield step after step, into and through an obstacle, for any number of steps. *)
Lemma l_C23_reverse_never_brakes_refuted :
  forall n, exists s x0 a, p_sh_coll (as_p s) = true /\ p_sh_hitch (as_p s) = true /\ tt_sized (as_p s) /\ acc_safe s x0 /\
  a_v x0 = - (3/10) /\ a_v (acc_drive (as_p s) (p_dt (as_p s)) x0 (fst a * as_amax s) (snd a * as_omax s)) = 0 /\
  forall proj guide k, (1 <= k <= S n)%nat ->
    let st := fold_left (acc_step s proj guide) (repeat a k) (reset_state x0) in
    a_v (st_q st) = - (3/10) /\ t_px (a_q (st_q st)) = - (6/100) * INR k /\ ~ acc_safe s (st_q st) /\ st_app st = a.
Proof.
  intros n. exists (ex_reverse n), (rev_state 0), (3/4, 0). split; [reflexivity|]. split; [reflexivity|]. split; [apply default_sized|].
  split.
  { split.
    - split; [intros g c _ []|]. intros g o Hg [<-|[]] P [H1 H2]. pose proof (pos_INR n).
      destruct H2 as (a2 & b2 & A2 & B2 & E2). unfold at_frame in E2. cbn in A2, B2, E2. rewrite cos_0, sin_0 in E2.
      destruct Hg as [<-|[<-|[]]]; destruct H1 as (a1 & b1 & A1 & B1 & E1); unfold at_frame in E1; cbn in A1, B1, E1; rewrite ?cos_0, ?sin_0 in E1;
      subst P; apply (f_equal fst) in E2; cbn in E2; lra.
    - apply hitch_ok_zero. cbn. unfold phi_max_const. pose proof PI_RGT_0. lra. }
  split; [reflexivity|]. split; [cbn; lra|].
  intros proj guide k Hk. cbv zeta.
  assert (G : forall m j st, st_bak st = false -> st_q st = rev_state j -> (j + m <= S n)%nat -> (1 <= m)%nat ->
     let st' := fold_left (acc_step (ex_reverse n) proj guide) (repeat (3/4, 0) m) st in
     st_q st' = rev_state (j + m) /\ st_app st' = (3/4, 0)).
  { induction m as [|m IH]; intros j st Hb Hq Hj Hm; [lia|]. cbn [repeat fold_left].
    destruct (rev_step n j proj guide st Hb Hq ltac:(lia)) as (E1 & E2 & E3). cbv zeta in *.
    destruct (Nat.eq_dec m 0) as [->|Hm0].
    - cbn [repeat fold_left]. rewrite E2, E3. rewrite Nat.add_1_r. auto.
    - destruct (IH (S j) _ E1 E2 ltac:(lia) ltac:(lia)) as [I1 I2]. rewrite I1, I2. split; auto. f_equal. lia. }
  destruct (G k 0%nat (reset_state (rev_state 0)) eq_refl eq_refl ltac:(lia) ltac:(lia)) as [E1 E2]. cbv zeta in *.
  rewrite E1, E2. cbn [Nat.add]. split; [reflexivity|]. split; [reflexivity|]. split; [|reflexivity].
  intros [Hc _]. pose proof (rev_dangerous n k Hk) as Hd. unfold as_coll in Hd.
  rewrite tt_clear_coll_false in Hd; [discriminate|apply default_sized| |exact Hc].
  split; [intros c []|]. intros o [<-|[]]. cbn. pose proof (pos_INR n). lra.
Qed.

(** ** C07 *)
(** C07, partial: outside two corner cases of reverse motion and creeping, the reported action
    reproduces the step on the plain vehicle. (v = current speed, w = speed after the command) *)
Lemma l_C07_acc_step_feasible_partial :
  forall s proj guide st a, p_proj (as_p s) = false -> p_guid (as_p s) = false ->
  0 < p_dt (as_p s) -> 0 < as_amax s -> 0 <= p_vmax (as_p s) -> 0 <= p_dmax (as_p s) -> st_bak st = false ->
  let v := a_v (st_q st) in let w := v + p_dt (as_p s) * (fst (saturated a) * as_amax s) in
  (1 / 100 < v \/ v = 0 \/ (v < - (1 / 100) /\ w < - (1 / 100)) \/ (Rabs v <= 1 / 100 /\ - (1 / 100) <= w)) ->
  let st' := acc_step s proj guide st a in
  st_q st' = acc_drive (as_p s) (p_dt (as_p s)) (st_q st) (fst (st_app st') * as_amax s) (snd (st_app st') * as_omax s).
Proof. rewrite ?saturated_clip.
  intros s proj guide st a Hp Hg Hdt Ha Hv Hd Hb v w H st'. unfold st', acc_step. rewrite acc_step_form by auto. rewrite Hb.
  cbn [orb st_q st_app].
  assert (Ew : a_v (acc_proposed s (st_q st) (clip_act a)) = w).
  { unfold acc_proposed. rewrite acc_euler_drive by auto. reflexivity. }
  destruct (acc_fb s _).
  - unfold acc_backup_state. rewrite Ew. rewrite acc_euler_drive by auto. unfold acc_backup_norm. cbn [fst snd].
    replace (0 * as_omax s) with 0 by ring. f_equal. fold v.
    replace (decel_sign v v * a_backup s v / as_amax s * as_amax s) with (decel_sign v v * a_backup s v) by (field; lra).
    unfold decel_sign, where_, Rltb, v_threshold. unfold Rabs in H.
    destruct (Rlt_dec (1/100) v); [reflexivity|].
    destruct H as [H|[H|[[H1 H2]|[H1 H2]]]].
    + lra.
    + rewrite H. assert (E0 : a_backup s 0 = 0).
      { unfold a_backup. unfold Rdiv. rewrite Rmult_0_l, Rabs_R0. apply clip_id. lra. }
      rewrite E0. ring.
    + repeat destruct Rlt_dec; lra.
    + destruct (Rcase_abs v); repeat destruct Rlt_dec; lra.
  - unfold acc_proposed. rewrite acc_euler_drive by auto. reflexivity.
Qed.
(** C07, partial: for the free vehicle (both flags off) the reported plan always reproduces the
    returned trajectory, step by step, over any number of steps. *)
Lemma l_C07_acc_unshielded_feasible_partial :
  forall s proj guide st a, p_proj (as_p s) = false -> p_guid (as_p s) = false ->
  p_sh_coll (as_p s) = false -> p_sh_hitch (as_p s) = false ->
  0 <= p_vmax (as_p s) -> 0 <= p_dmax (as_p s) -> st_bak st = false ->
  let st' := acc_step s proj guide st a in
  st_app st' = saturated a /\
  st_q st' = acc_drive (as_p s) (p_dt (as_p s)) (st_q st) (fst (st_app st') * as_amax s) (snd (st_app st') * as_omax s).
Proof. rewrite ?saturated_clip.
  intros s proj guide st a Hp Hg H1 H2 Hv Hd Hb st'. unfold st', acc_step. rewrite acc_step_form by auto.
  unfold acc_fb. rewrite Hb, H1, H2. cbn [andb orb st_q st_app]. split; [reflexivity|].
  unfold acc_proposed. rewrite acc_euler_drive by auto. reflexivity.
Qed.
(** C07 (finding): reversing towards an obstacle, the step reports the stopping command although
    the vehicle was not braked; re-executing the reported action gives a different state. *)
Lemma l_C07_acc_refuted :
  exists s x0 a, p_sh_coll (as_p s) = true /\ p_sh_hitch (as_p s) = true /\ tt_sized (as_p s) /\ acc_safe s x0 /\
  forall proj guide,
    let st' := acc_step s proj guide (reset_state x0) a in
    a_v (st_q st') = - (3/10) /\
    a_v (acc_drive (as_p s) (p_dt (as_p s)) x0 (fst (st_app st') * as_amax s) (snd (st_app st') * as_omax s)) = 0.
Proof.
  destruct (l_C23_reverse_never_brakes_refuted 1) as (s & x0 & a & H1 & H2 & H3 & H4 & _ & H6 & H7).
  exists s, x0, a. repeat (split; [assumption|]). intros proj guide.
  destruct (H7 proj guide 1%nat ltac:(lia)) as (E1 & _ & _ & E4). cbv zeta in *. cbn [repeat fold_left] in *.
  rewrite E4. auto.
Qed.

(** ** C26 *)
(** C26, acceleration-controlled robot: with zero initial speed scoring starts at the given
    state (the inserted zero command moves nothing). *)
Lemma acc_step_q_only s proj guide st st2 a : p_proj (as_p s) = false -> p_guid (as_p s) = false ->
  st_q st2 = st_q st -> st_bak st2 = st_bak st -> acc_step s proj guide st2 a = acc_step s proj guide st a.
Proof. intros Hp Hg E1 E2. unfold acc_step. rewrite !acc_step_form by auto. rewrite E1, E2. reflexivity. Qed.
Lemma scan_q_only s proj guide : p_proj (as_p s) = false -> p_guid (as_p s) = false -> forall us st st2,
  st_q st2 = st_q st -> st_bak st2 = st_bak st ->
  snd (scan_us (acc_step s proj guide) st2 us) = snd (scan_us (acc_step s proj guide) st us).
Proof.
  intros Hp Hg us st st2 E1 E2. destruct us as [|u us]; [reflexivity|]. cbn [scan_us].
  rewrite (acc_step_q_only s proj guide st st2 u) by auto. reflexivity.
Qed.
Lemma scan_replay {Q} (step : State Q -> act -> State Q) us : forall st, map (fun o => snd (fst o)) (snd (scan_us step st us)) = replay step st us.
Proof.
  induction us as [|u us IH]; intros st; [reflexivity|]. cbn [scan_us replay]. specialize (IH (step st u)).
  destruct (scan_us step (step st u) us) as [f o]. cbn [snd fst map] in *. rewrite IH. reflexivity.
Qed.
Lemma rollout_us_scan {Q} (step : State Q -> act -> State Q) st us : rollout_us step st us =
  (map (fun o => fst (fst o)) (snd (scan_us step (step st (0, 0)) us)),
   map (fun o => snd (fst o)) (snd (scan_us step (step st (0, 0)) us)), map snd (snd (scan_us step (step st (0, 0)) us))).
Proof. unfold rollout_us. destruct (scan_us _ _ _); reflexivity. Qed.
Lemma l_C26_acc_rollout_from_rest :
  forall s proj guide st (us : list act), p_proj (as_p s) = false -> p_guid (as_p s) = false ->
  0 <= p_vmax (as_p s) -> 0 <= p_dmax (as_p s) -> 0 < as_amax s -> st_bak st = false -> a_v (st_q st) = 0 ->
  snd (fst (rollout_us (acc_step s proj guide) st us)) = replay (acc_step s proj guide) st us /\
  fst (fst (rollout_us (acc_step s proj guide) st us)) = eval_us (acc_step s proj guide) st us.
Proof.
  intros s proj guide st us Hp Hg Hv Hd Ha Hb H0.
  assert (E : st_q (acc_step s proj guide st (0, 0)) = st_q st /\ st_bak (acc_step s proj guide st (0, 0)) = st_bak st).
  { destruct (l_C23_at_rest_stays_safe_partial s proj guide st (0, 0) Hp Hg Hv Hd H0) as [EQ _].
    unfold acc_step in *. rewrite acc_step_form in * by auto. cbn [st_q st_bak] in *. split; [|reflexivity].
    rewrite Hb in *. rewrite clip_act_zero in *. destruct (acc_fb s _).
    - unfold acc_backup_state in *. rewrite acc_euler_drive in * by auto. destruct (st_q st) as [q v d]. cbn [a_v] in H0. subst v.
      unfold acc_drive in *. cbn [a_q a_v a_d fst snd] in *. rewrite EQ. f_equal; [|ring].
      unfold a_backup. unfold Rdiv. rewrite Rmult_0_l, Rabs_R0, clip_id by lra. ring.
    - unfold acc_proposed in *. rewrite acc_euler_drive in * by auto. destruct (st_q st) as [q v d]. cbn [a_v] in H0. subst v.
      unfold acc_drive, acc_scaler in *. cbn [a_q a_v a_d fst snd] in *. rewrite EQ. f_equal; ring. }
  destruct E as [E1 E2]. rewrite rollout_us_scan. cbn [fst snd]. unfold eval_us.
  rewrite (scan_q_only s proj guide Hp Hg us st) by auto. split; [apply scan_replay|reflexivity].
Qed.
(** C26 (finding): with initial speed 1 m/s the first row of every scored plan is the state
    after two time steps (0.4 m), while executing the plan reaches 0.2 m. *)
Lemma l_C26_acc_moving_start_refuted :
  forall proj guide u us, let x0 := mkAcc (mkTT 0 0 0 0) 1 0 in
  t_px (a_q (nth 0 (snd (fst (rollout_us (acc_step ex_acc_free proj guide) (reset_state x0) (u :: us)))) x0)) = 4/10 /\
  t_px (a_q (nth 0 (replay (acc_step ex_acc_free proj guide) (reset_state x0) (u :: us)) x0)) = 2/10.
Proof.
  intros proj guide u us x0. rewrite rollout_us_scan. cbn [fst snd]. rewrite scan_replay. cbn [replay nth].
  assert (E1 : forall a, t_px (a_q (st_q (acc_step ex_acc_free proj guide (reset_state x0) a))) = 2/10).
  { intros a. rewrite acc_first_step_position by reflexivity. cbn. rewrite clip_id by lra. rewrite cos_0. lra. }
  split; [|apply E1]. rewrite acc_first_step_position by reflexivity. rewrite E1.
  assert (E2 : st_q (acc_step ex_acc_free proj guide (reset_state x0) (0, 0)) = mkAcc (mkTT (2/10) 0 0 0) 1 0).
  { unfold acc_step. rewrite acc_step_form by reflexivity. unfold acc_fb.
    cbn [p_sh_coll p_sh_hitch as_p ex_acc_free as_t ts_p flags_off andb orb st_q reset_state st_bak]. rewrite clip_act_zero.
    unfold acc_proposed, acc_euler, euler, acc_axpy, acc_dyn, acc_scaler, tt_axpy, tt_dyn. cbn.
    assert (Hd : 0 <= delta_max_of_deg 55) by (unfold delta_max_of_deg; pose proof PI_RGT_0; lra).
    rewrite (clip_id 1) by lra. rewrite (clip_id 0) by lra. rewrite cos_0, sin_0, tan_0. replace (0 - 0) with 0 by ring. rewrite sin_0.
    f_equal; [f_equal; field|ring|ring]. }
  rewrite E2. cbn. rewrite clip_id by lra. rewrite cos_0. lra.
Qed.

(** ** C21, C44, C19 *)
Lemma l_C21_acc_step_displacement :
  forall s proj guide st a, 0 <= p_vmax (as_p s) -> 0 <= p_dmax (as_p s) -> 0 <= p_dt (as_p s) ->
  let q := a_q (st_q st) in let q' := a_q (st_q (acc_step s proj guide st a)) in
  dist (t_px q', t_py q') (t_px q, t_py q) <= p_vmax (as_p s) * p_dt (as_p s).
Proof.
  intros s proj guide st a Hv Hd Hdt q q'.
  destruct (l_C24_limits_all_modes s proj guide st a Hv Hd) as (v & d & H1 & _ & E1 & E2 & _). fold q q' in E1, E2.
  rewrite E1, E2. unfold dist, dist2. cbn [fst snd].
  match goal with |- sqrt ?x <= _ => replace x with ((Rabs v * p_dt (as_p s)) * (Rabs v * p_dt (as_p s))) end.
  - rewrite sqrt_square by (apply Rmult_le_pos; auto using Rabs_pos). apply Rmult_le_compat_r; auto.
  - pose proof (sin2_cos2' (t_th1 q)) as T. pose proof (Rabs_sq v) as A.
    replace (Rabs v * p_dt (as_p s) * (Rabs v * p_dt (as_p s))) with (Rabs v * Rabs v * (p_dt (as_p s) * p_dt (as_p s)) * 1) by ring.
    rewrite A, <- T. ring.
Qed.
Lemma l_C21_acc_n_step_displacement :
  forall s proj guide st (us : list act), 0 <= p_vmax (as_p s) -> 0 <= p_dmax (as_p s) -> 0 <= p_dt (as_p s) ->
  let q := a_q (st_q st) in let q' := a_q (st_q (fold_left (acc_step s proj guide) us st)) in
  dist (t_px q', t_py q') (t_px q, t_py q) <= INR (length us) * (p_vmax (as_p s) * p_dt (as_p s)).
Proof.
  intros s proj guide st us Hv Hd Hdt. cbv zeta. revert st. induction us as [|u us IH]; intros st.
  - cbn [fold_left length]. rewrite dist_refl. simpl. lra.
  - cbn [fold_left length]. rewrite S_INR.
    eapply Rle_trans; [apply dist_triangle with (Q := (t_px (a_q (st_q (acc_step s proj guide st u))), t_py (a_q (st_q (acc_step s proj guide st u)))))|].
    pose proof (l_C21_acc_step_displacement s proj guide st u Hv Hd Hdt) as H. cbv zeta in H. specialize (IH (acc_step s proj guide st u)). lra.
Qed.
(** C44, acceleration-controlled robot: backup mode never latches; a command whose predicted
    braking manoeuvre is safe is executed as given after any history. *)
Lemma l_C44_acc_no_latch :
  forall s x0 proj guide (us : list act) (a : act) n,
  p_proj (as_p s) = false -> p_guid (as_p s) = false -> tt_sized (as_p s) ->
  proper_obstacles (ts_circ (as_t s)) (ts_rect (as_t s)) ->
  0 <= p_vmax (as_p s) -> 0 <= p_dmax (as_p s) -> 0 < p_dt (as_p s) -> 0 < as_amax s ->
  INR n <= 2 * p_vmax (as_p s) / as_amax s < INR n + 1 ->
  let st := fold_left (acc_step s proj guide) us (reset_state x0) in
  let q := acc_drive (as_p s) (p_dt (as_p s)) (st_q st) (fst (saturated a) * as_amax s) (snd (saturated a) * as_omax s) in
  st_bak st = false /\
  ((forall k, (k <= n)%nat -> acc_safe s (predicted (as_p s) (full_brake (p_dt (as_p s)) (as_amax s) (a_v q)) q k)) ->
   st_q (acc_step s proj guide st a) = q /\ st_app (acc_step s proj guide st a) = saturated a).
Proof. rewrite ?saturated_clip.
  intros s x0 proj guide us a n Hp Hg Hs Ho Hv Hd Hdt Ha Hn st q.
  assert (Hb : st_bak st = false).
  { unfold st. assert (G : forall us st, st_bak (fold_left (acc_step s proj guide) us st) = st_bak st).
    { clear - Hp Hg. induction us as [|u us IH]; intros st; [reflexivity|]. cbn [fold_left]. rewrite IH.
      unfold acc_step. rewrite acc_step_form by auto. reflexivity. }
    rewrite G. reflexivity. }
  split; [exact Hb|]. intros H. unfold acc_step. rewrite acc_step_form by auto. rewrite Hb. cbn [orb st_q st_app].
  assert (Eq : acc_proposed s (st_q st) (clip_act a) = q) by (unfold acc_proposed; rewrite acc_euler_drive by auto; reflexivity).
  rewrite Eq.
  assert (Ef : acc_fb s q = false).
  { destruct (acc_safe_checks s q Hs Ho (H 0%nat ltac:(lia))) as [C1 C2].
    pose proof (proj2 (l_C25_predictive_check_exact s q n Hv Hd Hdt Ha Hs Ho Hn) H) as Hr.
    unfold acc_fb, acc_check, check_single. rewrite Hr, C1, C2. destruct (p_sh_coll (as_p s) || p_sh_hitch (as_p s)); [destruct (Rleb (Rabs (a_v q)) v_threshold)|]; cbn [fst snd]; rewrite !andb_false_r; reflexivity. }
  rewrite Ef. auto.
Qed.
(** C19, acceleration-controlled robot: the step reward is the state reward minus a collision
    penalty exactly when the proposed state or (shield on, fast) one of its predicted states
    collides, minus a hitch penalty likewise, minus the preference penalty of the new speed. *)
Lemma l_C19_acc_step_reward :
  forall s proj guide st a n, p_proj (as_p s) = false -> p_guid (as_p s) = false -> st_bak st = false ->
  0 <= p_vmax (as_p s) -> 0 <= p_dmax (as_p s) -> 0 < p_dt (as_p s) -> 0 < as_amax s ->
  INR n <= 2 * p_vmax (as_p s) / as_amax s < INR n + 1 ->
  let p := as_p s in
  let st' := acc_step s proj guide st a in
  let q := acc_drive p (p_dt p) (st_q st) (fst (saturated a) * as_amax s) (snd (saturated a) * as_omax s) in
  let horizon := if p_sh_coll p || p_sh_hitch p then (if Rle_dec (Rabs (a_v q)) (1 / 100) then 0%nat else n) else 0%nat in
  let pred := predicted p (full_brake (p_dt p) (as_amax s) (a_v q)) q in
  exists c h : bool,
    (c = true <-> exists k, (k <= horizon)%nat /\ tt_coll p (ts_circ (as_t s)) (ts_rect (as_t s)) (a_q (pred k)) = true) /\
    (h = true <-> exists k, (k <= horizon)%nat /\ tt_hitch p (a_q (pred k)) = true) /\
    st_rew st' = acc_reward s (st_q st') - (if c then p_coll_pen p else 0) - (if h then p_hitch_pen p else 0)
      - (if Z.eqb (p_motion p) 0 then 0 else direction_charge p (a_v (st_q st'))).
Proof. rewrite ?saturated_clip, ?charge_penalty.
  intros s proj guide st a n Hp Hg Hb Hv Hd Hdt Ha Hn p st' q horizon pred.
  exists (fst (acc_check s q)), (snd (acc_check s q)).
  assert (X : forall f : nat -> bool, forall N b, (b = false <-> forall k, (k <= N)%nat -> f k = false) -> (b = true <-> exists k, (k <= N)%nat /\ f k = true)).
  { clear. intros f N b Hf. split.
    - intros ->. assert (D : forall M, (exists k, (k <= M)%nat /\ f k = true) \/ (forall k, (k <= M)%nat -> f k = false)).
      { induction M as [|M [(k & K1 & K2)|IH]].
        - destruct (f 0%nat) eqn:E; [left; exists 0%nat; auto|right]. intros k Hk. replace k with 0%nat by lia. auto.
        - left. exists k. split; [lia|auto].
        - destruct (f (S M)) eqn:E; [left; exists (S M); auto|right]. intros k Hk. destruct (Nat.eq_dec k (S M)) as [->|]; auto. apply IH. lia. }
      destruct (D N) as [?|Hn]; auto. apply Hf in Hn. discriminate.
    - intros (k & K1 & K2). destruct b; auto. rewrite (proj1 Hf eq_refl k K1) in K2. discriminate. }
  destruct (check_rollout_char s q Hv Hd Hdt Ha) as [H1 H2]. cbv zeta in H1, H2. rewrite (steps_eq s n Ha Hv Hn) in *.
  split; [|split].
  - apply (X (fun k => tt_coll p (ts_circ (as_t s)) (ts_rect (as_t s)) (a_q (pred k)))). unfold horizon, acc_check, Rleb, v_threshold. fold p.
    destruct (p_sh_coll p || p_sh_hitch p); [destruct (Rle_dec _ _)|]; try exact H1;
    (unfold check_single; cbn [fst]; split; [intros E k Hk; replace k with 0%nat by lia; exact E|intros E; apply (E 0%nat); lia]).
  - apply (X (fun k => tt_hitch p (a_q (pred k)))). unfold horizon, acc_check, Rleb, v_threshold. fold p.
    destruct (p_sh_coll p || p_sh_hitch p); [destruct (Rle_dec _ _)|]; try exact H2;
    (unfold check_single; cbn [snd]; split; [intros E k Hk; replace k with 0%nat by lia; exact E|intros E; apply (E 0%nat); lia]).
  - unfold st', acc_step. rewrite acc_step_form by auto. rewrite Hb. cbn [st_rew st_q].
    assert (Eq : acc_proposed s (st_q st) (clip_act a) = q) by (unfold acc_proposed; rewrite acc_euler_drive by auto; reflexivity).
    rewrite Eq. unfold step_reward, where_. fold p. destruct (fst (acc_check s q)), (snd (acc_check s q)), (p_motion p =? 0)%Z; cbn [negb]; lra.
Qed.

(** ** Examples *)
Lemma ex_wall_ok : 0 <= p_vmax (as_p ex_wall) /\ 0 <= p_dmax (as_p ex_wall) /\ 0 < p_dt (as_p ex_wall) /\ 0 < as_amax ex_wall /\
  tt_sized (as_p ex_wall) /\ proper_obstacles (ts_circ (as_t ex_wall)) (ts_rect (as_t ex_wall)).
Proof.
  split; [cbn; lra|]. split; [cbn; unfold delta_max_of_deg; pose proof PI_RGT_0; lra|]. split; [cbn; lra|]. split; [cbn; lra|].
  split; [apply default_sized|]. split; [intros c []|]. intros o [<-|[]]. cbn. lra.
Qed.
Lemma x_C22_example :
  (* 3 m/s, a_max 2, dt 0.2: eight steps of 0.4 m/s suffice *)
  Rabs (a_v ex_fast) <= INR 8 * (as_amax ex_wall * p_dt (as_p ex_wall)) /\ 0 < p_dt (as_p ex_wall) /\ 0 < as_amax ex_wall.
Proof. cbn. rewrite Rabs_pos_eq by lra. lra. Qed.
Lemma x_C25_example :
  INR 3 <= 2 * p_vmax (as_p ex_wall) / as_amax ex_wall < INR 3 + 1 /\ 0 <= p_vmax (as_p ex_wall) /\ 0 <= p_dmax (as_p ex_wall) /\
  0 < p_dt (as_p ex_wall) /\ 0 < as_amax ex_wall /\
  tt_sized (as_p ex_wall) /\ proper_obstacles (ts_circ (as_t ex_wall)) (ts_rect (as_t ex_wall)) /\
  (* the fast vehicle in front of the wall is itself safe, but its prediction is not *)
  acc_safe ex_wall ex_fast /\
  ~ acc_safe ex_wall (predicted (as_p ex_wall) (full_brake (p_dt (as_p ex_wall)) (as_amax ex_wall) (a_v ex_fast)) ex_fast 1).
Proof.
  destruct ex_wall_ok as (H1 & H2 & H3 & H4 & H5 & H6). split; [cbn; lra|]. repeat (split; [assumption|]).
  split; [apply ex_fast_safe|]. intros [[_ Hc] _].
  cbn [predicted ex_fast a_v] in Hc. destruct (Rlt_dec (1/100) (Rabs 3)) as [r|r]; [|rewrite Rabs_pos_eq in r; lra].
  refine (Hc _ (mkRect (493/100) 0 1 1 0) (or_introl eq_refl) (or_introl eq_refl) (5, 0) (conj _ _)).
  - exists 2, 0. unfold at_frame, tractor_body, acc_drive, ex_fast. cbn [rg_org rg_ang rg_back rg_front rg_half a_q a_v a_d t_px t_py t_th1 t_th2 fst snd].
    replace (sat (p_vmax (as_p ex_wall)) 3) with 3 by (unfold sat; cbn; repeat destruct Rlt_dec; lra).
    replace (sat (p_dmax (as_p ex_wall)) 0) with 0 by (unfold sat; repeat destruct Rlt_dec; lra).
    rewrite tan_0, cos_0, sin_0. replace (0 + 1 * (3 / p_l1 (as_p ex_wall) * 0)) with 0 by ring. rewrite cos_0, sin_0.
    cbn. split; [lra|]. split; [lra|]. f_equal; lra.
  - exists (7/100), 0. unfold at_frame. cbn. rewrite cos_0, sin_0. split; [lra|]. split; [lra|]. f_equal; lra.
Qed.
Lemma x_C07_acc_example :
  (* forward at 3 m/s towards the wall: the step is refused and the reported braking is what
     was executed *)
  let st' := acc_step ex_wall (fun _ a => a) (fun q => q) (reset_state ex_fast) (0, 0) in
  1 / 100 < a_v ex_fast /\ st_q st' = acc_drive (as_p ex_wall) (p_dt (as_p ex_wall)) ex_fast (fst (st_app st') * 2) (snd (st_app st') * 1).
Proof.
  destruct ex_wall_ok as (H1 & H2 & H3 & H4 & H5 & H6). cbv zeta. split; [cbn; lra|].
  apply (l_C07_acc_step_feasible_partial ex_wall (fun _ a => a) (fun q => q) (reset_state ex_fast) (0, 0)); auto. left. cbn. lra.
Qed.
