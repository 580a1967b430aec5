(** * ProofsStep: actuator limits, penalties, displacement (C08, C18, C19, C21). *)
From Verif Require Import Base BaseFacts SpecInput SpecPlan InputFacts Params Geom TT2d Bicycle NTrailer Acc SpecGeom SpecBodies SpecDyn
  Rollout Planner Instances ProofsGeom ProofsBodies ProofsKin ProofsRobots ProofsSafety.

Definition in_box (a : act) : Prop := (-1 <= fst a <= 1) /\ (-1 <= snd a <= 1).
Lemma in_box_where b a1 a2 : in_box a1 -> in_box a2 -> in_box (where_ b a1 a2).
Proof. destruct b; auto. Qed.
Lemma in_box_zero : in_box (0, 0).
Proof. split; cbn; lra. Qed.
Lemma in_box_clip a : in_box (clip_act a).
Proof. apply clip_act_range. Qed.
Lemma scaled_bound x m : -1 <= x <= 1 -> 0 <= m -> Rabs (x * m) <= m.
Proof. intros Hx Hm. apply Rabs_le. nra. Qed.

(** ** C08 *)
(** C08: without projection the applied action is in the box, in every mode (shielded,
    unshielded, guidance), for every commanded action, state and guidance function; speed and
    steering stay within their maxima. *)
Lemma l_C08_tt_actuator_limits :
  forall s proj guide viz st a, p_proj (ts_p s) = false -> 0 <= p_vmax (ts_p s) -> 0 <= p_dmax (ts_p s) ->
  let app := st_app (tt_step_internal s proj guide viz st a) in
  (-1 <= fst app <= 1) /\ (-1 <= snd app <= 1) /\
  Rabs (fst (input_scaler (ts_p s) app)) <= p_vmax (ts_p s) /\
  Rabs (snd (input_scaler (ts_p s) app)) <= p_dmax (ts_p s).
Proof.
  intros s proj guide viz st a Hp Hv Hd app.
  assert (H : in_box app).
  { unfold app, tt_step_internal, tt_step_with. rewrite Hp. destruct (p_guid (ts_p s)); cbn [st_app].
    - apply in_box_where; [apply in_box_zero|apply in_box_clip].
    - rewrite shield_dispatch. cbn [st_app]. apply in_box_where; [apply in_box_zero|apply in_box_clip]. }
  destruct H as [H1 H2]. split; [exact H1|]. split; [exact H2|]. split; apply scaled_bound; auto.
Qed.
Lemma l_C08_bk_actuator_limits :
  forall s proj guide viz st a, p_proj (bs_p s) = false -> 0 <= p_vmax (bs_p s) -> 0 <= p_dmax (bs_p s) ->
  let app := st_app (bk_step_internal s proj guide viz st a) in
  (-1 <= fst app <= 1) /\ (-1 <= snd app <= 1) /\
  Rabs (fst (input_scaler (bs_p s) app)) <= p_vmax (bs_p s) /\
  Rabs (snd (input_scaler (bs_p s) app)) <= p_dmax (bs_p s).
Proof.
  intros s proj guide viz st a Hp Hv Hd app.
  assert (H : in_box app).
  { unfold app, bk_step_internal, bk_step_with. rewrite Hp. destruct (p_guid (bs_p s)); cbn [st_app].
    - apply in_box_where; [apply in_box_zero|apply in_box_clip].
    - rewrite shield_dispatch. cbn [st_app]. apply in_box_where; [apply in_box_zero|apply in_box_clip]. }
  destruct H as [H1 H2]. split; [exact H1|]. split; [exact H2|]. split; apply scaled_bound; auto.
Qed.
Lemma l_C08_nt_actuator_limits :
  forall s guide viz st a, 0 <= p_vmax (ns_p s) -> 0 <= p_dmax (ns_p s) ->
  let app := st_app (nt_step_core s guide viz st a) in
  (-1 <= fst app <= 1) /\ (-1 <= snd app <= 1) /\
  Rabs (fst (input_scaler (ns_p s) app)) <= p_vmax (ns_p s) /\
  Rabs (snd (input_scaler (ns_p s) app)) <= p_dmax (ns_p s).
Proof.
  intros s guide viz st a Hv Hd app.
  assert (H : in_box app).
  { unfold app, nt_step_core, nt_step_with. destruct (p_guid (ns_p s)); cbn [st_app].
    - apply in_box_where; [apply in_box_zero|apply in_box_clip].
    - rewrite shield_dispatch. cbn [st_app]. apply in_box_where; [apply in_box_zero|apply in_box_clip]. }
  destruct H as [H1 H2]. split; [exact H1|]. split; [exact H2|]. split; apply scaled_bound; auto.
Qed.
Lemma decel_sign_cases v w : decel_sign v w = -1 \/ decel_sign v w = 1 \/ decel_sign v w = 0.
Proof. unfold decel_sign, where_. destruct (Rltb _ _); auto. destruct (Rltb _ _); auto. Qed.
Lemma a_backup_range s v : 0 < as_amax s -> 0 <= a_backup s v <= as_amax s.
Proof. intros. unfold a_backup. apply clip_range. lra. Qed.
Lemma in_box_backup s v : 0 < as_amax s -> in_box (acc_backup_norm s v).
Proof.
  intros Ha. unfold acc_backup_norm. split; cbn [fst snd]; [|lra].
  pose proof (a_backup_range s v Ha).
  assert (Hd : 0 <= a_backup s v / as_amax s <= 1).
  { split.
    - apply Rmult_le_pos; [lra|]. left. apply Rinv_0_lt_compat; auto.
    - apply Rmult_le_reg_r with (as_amax s); auto. unfold Rdiv. rewrite Rmult_assoc, Rinv_l; lra. }
  unfold Rdiv in *. destruct (decel_sign_cases v v) as [-> | [-> | ->]]; nra.
Qed.
Lemma l_C08_acc_actuator_limits :
  forall s proj guide viz st a, p_proj (as_p s) = false -> 0 < as_amax s -> 0 <= as_omax s ->
  let app := st_app (acc_step_internal s proj guide viz st a) in
  (-1 <= fst app <= 1) /\ (-1 <= snd app <= 1) /\
  Rabs (fst (acc_scaler s app)) <= as_amax s /\ Rabs (snd (acc_scaler s app)) <= as_omax s.
Proof.
  intros s proj guide viz st a Hp Ha Ho app.
  assert (H : in_box app).
  { unfold app, acc_step_internal, acc_step_with. rewrite Hp. destruct (p_guid (as_p s)); cbn [st_app].
    - apply in_box_where; [apply in_box_backup; auto|apply in_box_clip].
    - destruct (if p_sh_coll (as_p s) || p_sh_hitch (as_p s) then _ else _) as [[qf oc] hv]. cbn [st_app].
      apply in_box_where; [apply in_box_backup; auto|apply in_box_clip]. }
  destruct H as [H1 H2]. split; [exact H1|]. split; [exact H2|]. split; apply scaled_bound; auto; lra.
Qed.
Lemma x_C08_extreme_command_example :
  let app := st_app (tt_step ex_tt (fun _ a => a) (fun q => q) (reset_state (mkTT 0 0 0 0)) (1000000, -7)) in
  (-1 <= fst app <= 1) /\ (-1 <= snd app <= 1) /\ 0 <= p_vmax default_params.
Proof.
  assert (Hv : 0 <= p_vmax (ts_p ex_tt)) by (cbn; lra).
  assert (Hd : 0 <= p_dmax (ts_p ex_tt)) by (cbn; unfold delta_max_of_deg; pose proof PI_RGT_0; lra).
  destruct (l_C08_tt_actuator_limits ex_tt (fun _ a => a) (fun q => q) false (reset_state (mkTT 0 0 0 0)) (1000000, -7) eq_refl Hv Hd) as (H1 & H2 & _).
  cbv zeta. split; [exact H1|]. split; [exact H2|]. exact Hv.
Qed.

(** ** C18 *)
(** C18: the preference penalty of a speed v. *)
Lemma l_C18_preference_penalty :
  forall p v,
  (p_motion p <> 1%Z -> p_motion p <> (-1)%Z -> preference_penalty p v = 0) /\
  (p_motion p = 1%Z -> 0 <= v -> preference_penalty p v = 0) /\
  (p_motion p = 1%Z -> v < 0 -> preference_penalty p v = p_pref_w p * Rabs v) /\
  (p_motion p = (-1)%Z -> v <= 0 -> preference_penalty p v = 0) /\
  (p_motion p = (-1)%Z -> 0 < v -> preference_penalty p v = p_pref_w p * Rabs v) /\
  (0 <= p_pref_w p -> 0 <= preference_penalty p v).
Proof.
  intros p v. unfold preference_penalty, where_.
  assert (Hnn : 0 <= p_pref_w p -> 0 <= p_pref_w p * Rabs v).
  { intros. apply Rmult_le_pos; auto using Rabs_pos. }
  split; [|split; [|split; [|split; [|split]]]].
  - intros H1 H2. apply Z.eqb_neq in H1, H2. rewrite H1, H2. destruct (_ || _); reflexivity.
  - intros -> Hv. cbn. apply Rltb_false in Hv. rewrite Hv. reflexivity.
  - intros -> Hv. cbn. apply Rltb_true in Hv. rewrite Hv. reflexivity.
  - intros -> Hv. cbn. apply Rltb_false in Hv. rewrite Hv. reflexivity.
  - intros -> Hv. cbn. apply Rltb_true in Hv. rewrite Hv. reflexivity.
  - intros Hw. specialize (Hnn Hw). destruct (Z.eqb _ 1); [destruct (Rltb v 0); lra|].
    destruct (Z.eqb _ (-1)); [destruct (Rltb 0 v); lra|]. destruct (_ || _); lra.
Qed.
Lemma x_C18_example : p_motion default_params = 0%Z /\ preference_penalty default_params (-3) = 0.
Proof.
  split; [reflexivity|].
  destruct (l_C18_preference_penalty default_params (-3)) as (H & _). apply H; cbn; discriminate.
Qed.

(** ** C19 *)
(** C19: exact per-step reward of the tractor-trailer; the checks are those of the proposed
    state, whether or not the shield then refuses it. *)
Lemma l_C19_tt_step_reward :
  forall s proj guide st a, p_proj (ts_p s) = false -> p_guid (ts_p s) = false -> st_bak st = false ->
  let st' := tt_step s proj guide st a in
  let proposed := tt_plain (ts_p s) (st_q st) (saturated a) in
  st_rew st' = tt_reward s (st_q st')
    - (if tt_coll (ts_p s) (ts_circ s) (ts_rect s) proposed then p_coll_pen (ts_p s) else 0)
    - (if tt_hitch (ts_p s) proposed then p_hitch_pen (ts_p s) else 0)
    - (if Z.eqb (p_motion (ts_p s)) 0 then 0
       else direction_charge (ts_p s) (fst (st_app st') * p_vmax (ts_p s))).
Proof. rewrite ?saturated_clip, ?charge_penalty.
  intros s proj guide st a Hp Hg Hb. cbv zeta. unfold tt_step. rewrite tt_step_shield by auto. rewrite Hb.
  cbn [where_ orb st_q st_app st_rew]. unfold step_reward, ts_coll, ts_hitch, where_.
  destruct (tt_coll _ _ _ _), (tt_hitch _ _), (Z.eqb _ 0); cbn [negb]; lra.
Qed.
Lemma l_C19_bk_step_reward :
  forall s proj guide st a, p_proj (bs_p s) = false -> p_guid (bs_p s) = false -> st_bak st = false ->
  let st' := bk_step s proj guide st a in
  let proposed := bk_plain (bs_p s) (st_q st) (saturated a) in
  st_rew st' = bk_reward s (st_q st')
    - (if bk_coll (bs_p s) (bs_circ s) (bs_rect s) proposed then p_coll_pen (bs_p s) else 0)
    - (if Z.eqb (p_motion (bs_p s)) 0 then 0
       else direction_charge (bs_p s) (fst (st_app st') * p_vmax (bs_p s))).
Proof. rewrite ?saturated_clip, ?charge_penalty.
  intros s proj guide st a Hp Hg Hb. cbv zeta. unfold bk_step. rewrite bk_step_shield by auto. rewrite Hb.
  cbn [where_ orb st_q st_app st_rew]. unfold step_reward, bs_coll, where_.
  destruct (bk_coll _ _ _ _), (Z.eqb _ 0); cbn [negb]; lra.
Qed.
(** C19, N trailers: here the preference penalty is that of the commanded (not the applied)
    action. *)
Lemma l_C19_nt_step_reward :
  forall s guide st a, p_guid (ns_p s) = false -> length (ns_len s) = p_num_trailers (ns_p s) ->
  length (n_ths (st_q st)) = p_num_trailers (ns_p s) -> st_bak st = false ->
  let st' := nt_step_core s guide false st a in
  let proposed := nt_plain s (st_q st) (saturated a) in
  st_rew st' = nt_reward s (st_q st')
    - (if nt_coll s (ns_circ s) (ns_rect s) proposed then p_coll_pen (ns_p s) else 0)
    - (if nt_hitch s proposed then p_hitch_pen (ns_p s) else 0)
    - (if Z.eqb (p_motion (ns_p s)) 0 then 0
       else direction_charge (ns_p s) (fst (saturated a) * p_vmax (ns_p s))).
Proof. rewrite ?saturated_clip, ?charge_penalty.
  intros s guide st a Hg HL Hv Hb. cbv zeta. rewrite nt_step_shield by auto. rewrite Hb.
  cbn [where_ orb st_q st_app st_rew]. unfold step_reward, ns_coll, where_.
  destruct (nt_coll _ _ _ _), (nt_hitch _ _), (Z.eqb _ 0); cbn [negb]; lra.
Qed.

(** C19 (finding): for N trailers a command that the shield refuses is still charged the
    direction penalty although the vehicle is not moved and the applied action is zero. *)
Definition pref_forward (p : params) : params := {|
  p_dt := p_dt p; p_H := p_H p; p_num_trailers := p_num_trailers p; p_motion := 1%Z;
  p_coll_pen := p_coll_pen p; p_sh_coll := p_sh_coll p; p_hitch_pen := p_hitch_pen p; p_sh_hitch := p_sh_hitch p;
  p_proj := p_proj p; p_guid := p_guid p; p_rew_thr := p_rew_thr p; p_ref_thr := p_ref_thr p;
  p_max_w := p_max_w p; p_hitch_w := p_hitch_w p; p_ref_pos_w := p_ref_pos_w p;
  p_ref_th1_w := p_ref_th1_w p; p_ref_th2_w := p_ref_th2_w p;
  p_l1 := p_l1 p; p_l2 := p_l2 p; p_lh := p_lh p; p_lf1 := p_lf1 p; p_lr := p_lr p; p_lf2 := p_lf2 p; p_lr2 := p_lr2 p;
  p_trac_w := p_trac_w p; p_trail_w := p_trail_w p; p_vmax := p_vmax p; p_dmax := p_dmax p;
  p_theta_max := p_theta_max p; p_phi_max := p_phi_max p; p_d_thr := p_d_thr p; p_k_switch := p_k_switch p;
  p_steer_w := p_steer_w p; p_pref_w := p_pref_w p; p_head_w := p_head_w p; p_term_thr := p_term_thr p; p_term_w := p_term_w p |}.
(* a wall 0.3 m behind the second trailer *)
Definition ex_nt_fwd : nt_self :=
  mkNTSelf (pref_forward ex_ntp) (ns_len ex_nt) (ns_front ex_nt) (ns_rear ex_nt) []
    [mkRect (- (115/100 + 29/10 + 1848/1000 + 115/100 + 29/10 + 3225/1000) - 13/10) 0 2 10 0] (ns_xg ex_nt).
(** C19 (finding): an N-trailer whose reversing command is refused stays where it is, reports the zero action, and is still charged the preference penalty of the refused command. *)
Lemma l_C19_nt_refused_command_charged_refuted :
  exists (s : nt_self) (x0 : ntq) (a : act),
    nt_sized s /\ nt_safe s x0 /\ length (n_ths x0) = p_num_trailers (ns_p s) /\
    let st' := nt_step_core s (fun q => q) false (reset_state x0) a in
    st_q st' = x0 /\ st_app st' = (0, 0) /\
    direction_charge (ns_p s) (fst (st_app st') * p_vmax (ns_p s)) = 0 /\
    st_rew st' < nt_reward s x0 - p_coll_pen (ns_p s).
Proof. rewrite ?charge_penalty.
  exists ex_nt_fwd, (mkNT 0 0 0 [0; 0]), (-1, 0).
  assert (Hs : nt_sized ex_nt_fwd).
  { unfold nt_sized, tractor_sized, ex_nt_fwd, ex_ntp, default_params; cbn. repeat split; try lra.
    intros [|[|i]] Hi; try lia; cbn; lra. }
  split; [exact Hs|].
  split; [|split; [reflexivity|]].
  { split.
    - split; [intros g c _ []|].
      intros g o Hg [<-|[]] P [(a & b & Ha & Hb & E1) (a' & b' & Ha' & Hb' & E2)].
      rewrite E1 in E2. clear E1.
      destruct Hg as [<-|[<-|[<-|[]]]];
      unfold at_frame, obstacle_body, tractor_body, trailer_body, ahead, ex_nt_fwd, ex_nt, ex_ntp, default_params in *; cbn in *;
      unfold nt_default_rear in *; cbn in *;
      rewrite ?cos_0, ?sin_0 in E2; injection E2 as E3 E4; lra.
    - cbn. repeat split; auto; apply hitch_ok_same; apply default_phi_pos. }
  cbv zeta.
  assert (Hcl : clip_act (-1, 0) = (-1, 0)) by (apply clip_act_id; cbn; lra).
  assert (Hcoll : ns_coll ex_nt_fwd (nt_plain ex_nt_fwd (mkNT 0 0 0 [0; 0]) (-1, 0)) = true).
  { rewrite nt_coll_bodies; [|reflexivity|exact Hs].
    unfold bodies_hit. apply orb_true_iff. right. apply existsb_exists.
    set (q' := nt_plain _ _ _).
    assert (Eq : q' = mkNT (-6/10) 0 0 [0; 0]).
    { unfold q', nt_plain, ex_nt_fwd, ex_nt, ex_ntp, default_params. cbn.
      rewrite Rminus_0_r, !cos_0, !sin_0, Rmult_0_l, tan_0. f_equal; try lra.
      f_equal; [|f_equal]; unfold Rdiv; ring. }
    rewrite Eq. cbn [nt_bodies n_px n_py n_th0 n_ths].
    eexists. split; [right; right; left; reflexivity|].
    apply existsb_exists. eexists. split; [left; reflexivity|].
    set (P := (- (115/100 + 29/10 + 1848/1000 + 115/100 + 29/10 + 3225/1000) - 5/10, 0)).
    eapply hits_rect_intro with (P := P); unfold P.
    - exists (- 3125/1000), 0. unfold ex_nt_fwd, ex_nt, ex_ntp, default_params; cbn. unfold nt_default_rear; cbn.
      repeat split; try lra. unfold at_frame, ahead; cbn. rewrite cos_0, sin_0. f_equal; lra.
    - exists (8/10), 0. unfold obstacle_body; cbn. repeat split; try lra.
      unfold at_frame; cbn. rewrite cos_0, sin_0. f_equal; lra. }
  rewrite nt_step_shield; [|reflexivity|reflexivity|reflexivity].
  cbn [st_bak reset_state where_ orb st_q st_app st_rew]. rewrite Hcl.
  assert (Hbad : nt_bad ex_nt_fwd (nt_plain ex_nt_fwd (mkNT 0 0 0 [0; 0]) (-1, 0)) = true).
  { unfold nt_bad, enabled_bad. rewrite Hcoll. reflexivity. }
  rewrite Hbad. split; [reflexivity|]. split; [reflexivity|]. split.
  - destruct (l_C18_preference_penalty (ns_p ex_nt_fwd) (fst ((0, 0) : act) * p_vmax (ns_p ex_nt_fwd))) as (_ & H & _).
    apply H; [reflexivity|]. cbn. lra.
  - rewrite Hcoll. unfold step_reward, where_.
    destruct (l_C18_preference_penalty (ns_p ex_nt_fwd) (fst (-1, 0) * p_vmax (ns_p ex_nt_fwd))) as (_ & _ & E & _).
    rewrite E; [|reflexivity|cbn; lra]. cbn [ns_p ex_nt_fwd pref_forward p_motion negb Z.eqb].
    assert (Hab : Rabs (fst (-1, 0) * p_vmax (pref_forward ex_ntp)) = 3).
    { cbn. rewrite Rabs_left; lra. }
    cbn [ns_p ex_nt_fwd] in Hab |- *. rewrite Hab. unfold ex_ntp, default_params; cbn [p_pref_w p_hitch_pen p_coll_pen pref_forward two_trailers].
    destruct (nt_hitch _ _); lra.
Qed.

(** ** C21 *)
Lemma sq_le_sqrt x y : 0 <= y -> x <= y * y -> sqrt x <= y.
Proof. intros Hy Hx. rewrite <- (sqrt_square y Hy). apply sqrt_le_1_alt. exact Hx. Qed.
Lemma dist_heading X Y th d : dist (X + d * cos th, Y + d * sin th) (X, Y) = Rabs d.
Proof.
  unfold dist, dist2; cbn [fst snd]. pose proof (sin2_cos2' th) as T.
  replace (_ + _) with (Rsqr d * (sin th * sin th + cos th * cos th)) by (unfold Rsqr; ring).
  rewrite T, Rmult_1_r. apply sqrt_Rsqr_abs.
Qed.
Lemma dist_refl P : dist P P = 0.
Proof. unfold dist, dist2. replace (_ + _) with 0 by ring. apply sqrt_0. Qed.

(** C21: one step moves the tractor's reference point by exactly |applied speed|*dt, at most
    v_max*dt. *)
Lemma l_C21_tt_step_displacement :
  forall s proj guide st a, p_proj (ts_p s) = false -> p_guid (ts_p s) = false -> st_bak st = false ->
  0 <= p_vmax (ts_p s) -> 0 <= p_dt (ts_p s) ->
  let st' := tt_step s proj guide st a in
  let d := dist (t_px (st_q st'), t_py (st_q st')) (t_px (st_q st), t_py (st_q st)) in
  d = Rabs (fst (st_app st') * p_vmax (ts_p s)) * p_dt (ts_p s) /\ d <= p_vmax (ts_p s) * p_dt (ts_p s).
Proof.
  intros s proj guide st a Hp Hg Hb Hv Hd. cbv zeta.
  pose proof (tt_kinematic s proj guide false Hp Hg) as K.
  assert (E : st_q (tt_step s proj guide st a) = tt_plain (ts_p s) (st_q st) (st_app (tt_step s proj guide st a))).
  { unfold tt_step. rewrite (kin_q _ _ _ _ K), (kin_app _ _ _ _ K) by auto. apply (kq_plain _ _ _ _ K); auto. }
  assert (Hbox : in_box (st_app (tt_step s proj guide st a))).
  { unfold tt_step. rewrite (kin_app _ _ _ _ K) by auto. apply ka_box. }
  rewrite E. set (app := st_app _) in *. unfold tt_plain; cbn [t_px t_py].
  replace (p_dt (ts_p s) * (fst app * p_vmax (ts_p s) * cos (t_th1 (st_q st))))
    with (fst app * p_vmax (ts_p s) * p_dt (ts_p s) * cos (t_th1 (st_q st))) by ring.
  replace (p_dt (ts_p s) * (fst app * p_vmax (ts_p s) * sin (t_th1 (st_q st))))
    with (fst app * p_vmax (ts_p s) * p_dt (ts_p s) * sin (t_th1 (st_q st))) by ring.
  rewrite dist_heading. rewrite Rabs_mult, (Rabs_right (p_dt (ts_p s))) by lra. split; auto.
  apply Rmult_le_compat_r; auto. apply scaled_bound; auto. apply Hbox.
Qed.
Lemma l_C21_bk_step_displacement :
  forall s proj guide st a, p_proj (bs_p s) = false -> p_guid (bs_p s) = false -> st_bak st = false ->
  0 <= p_vmax (bs_p s) -> 0 <= p_dt (bs_p s) ->
  let st' := bk_step s proj guide st a in
  let d := dist (b_px (st_q st'), b_py (st_q st')) (b_px (st_q st), b_py (st_q st)) in
  d = Rabs (fst (st_app st') * p_vmax (bs_p s)) * p_dt (bs_p s) /\ d <= p_vmax (bs_p s) * p_dt (bs_p s).
Proof.
  intros s proj guide st a Hp Hg Hb Hv Hd. cbv zeta.
  pose proof (bk_kinematic s proj guide false Hp Hg) as K.
  assert (E : st_q (bk_step s proj guide st a) = bk_plain (bs_p s) (st_q st) (st_app (bk_step s proj guide st a))).
  { unfold bk_step. rewrite (kin_q _ _ _ _ K), (kin_app _ _ _ _ K) by auto. apply (kq_plain _ _ _ _ K); auto. }
  assert (Hbox : in_box (st_app (bk_step s proj guide st a))).
  { unfold bk_step. rewrite (kin_app _ _ _ _ K) by auto. apply ka_box. }
  rewrite E. set (app := st_app _) in *. unfold bk_plain; cbn [b_px b_py].
  replace (p_dt (bs_p s) * (fst app * p_vmax (bs_p s) * cos (b_th (st_q st))))
    with (fst app * p_vmax (bs_p s) * p_dt (bs_p s) * cos (b_th (st_q st))) by ring.
  replace (p_dt (bs_p s) * (fst app * p_vmax (bs_p s) * sin (b_th (st_q st))))
    with (fst app * p_vmax (bs_p s) * p_dt (bs_p s) * sin (b_th (st_q st))) by ring.
  rewrite dist_heading. rewrite Rabs_mult, (Rabs_right (p_dt (bs_p s))) by lra. split; auto.
  apply Rmult_le_compat_r; auto. apply scaled_bound; auto. apply Hbox.
Qed.
Lemma l_C21_nt_step_displacement :
  forall s guide st a, p_guid (ns_p s) = false -> length (ns_len s) = p_num_trailers (ns_p s) ->
  length (n_ths (st_q st)) = p_num_trailers (ns_p s) -> st_bak st = false ->
  0 <= p_vmax (ns_p s) -> 0 <= p_dt (ns_p s) ->
  let st' := nt_step_core s guide false st a in
  let d := dist (n_px (st_q st'), n_py (st_q st')) (n_px (st_q st), n_py (st_q st)) in
  d = Rabs (fst (st_app st') * p_vmax (ns_p s)) * p_dt (ns_p s) /\ d <= p_vmax (ns_p s) * p_dt (ns_p s).
Proof.
  intros s guide st a Hg HL Hva Hb Hv Hd. cbv zeta.
  pose proof (nt_kinematic s guide false Hg HL) as K.
  assert (E : st_q (nt_step_core s guide false st a) = nt_plain s (st_q st) (st_app (nt_step_core s guide false st a))).
  { rewrite (kin_q _ _ _ _ K), (kin_app _ _ _ _ K) by auto. apply (kq_plain _ _ _ _ K); auto. }
  assert (Hbox : in_box (st_app (nt_step_core s guide false st a))).
  { rewrite (kin_app _ _ _ _ K) by auto. apply ka_box. }
  rewrite E. set (app := st_app _) in *. unfold nt_plain; cbn [n_px n_py].
  replace (p_dt (ns_p s) * (fst app * p_vmax (ns_p s) * cos (n_th0 (st_q st))))
    with (fst app * p_vmax (ns_p s) * p_dt (ns_p s) * cos (n_th0 (st_q st))) by ring.
  replace (p_dt (ns_p s) * (fst app * p_vmax (ns_p s) * sin (n_th0 (st_q st))))
    with (fst app * p_vmax (ns_p s) * p_dt (ns_p s) * sin (n_th0 (st_q st))) by ring.
  rewrite dist_heading. rewrite Rabs_mult, (Rabs_right (p_dt (ns_p s))) by lra. split; auto.
  apply Rmult_le_compat_r; auto. apply scaled_bound; auto. apply Hbox.
Qed.

Lemma dist_triangle P Q S : dist P S <= dist P Q + dist Q S.
Proof.
  unfold dist. assert (HP : 0 <= dist2 P Q) by apply dist2_nonneg. assert (HQ : 0 <= dist2 Q S) by apply dist2_nonneg.
  pose proof (sqrt_pos (dist2 P Q)) as A. pose proof (sqrt_pos (dist2 Q S)) as B.
  pose proof (sqrt_sqrt _ HP) as SA. pose proof (sqrt_sqrt _ HQ) as SB.
  apply sq_le_sqrt; [lra|].
  set (u := sqrt (dist2 P Q)) in *. set (w := sqrt (dist2 Q S)) in *.
  unfold dist2 in *. destruct P as [p1 p2], Q as [q1 q2], S as [s1 s2]; cbn [fst snd] in *.
  set (a := p1 - q1) in *. set (b := p2 - q2) in *. set (c := q1 - s1) in *. set (d := q2 - s2) in *.
  replace (p1 - s1) with (a + c) by (unfold a, c; ring). replace (p2 - s2) with (b + d) by (unfold b, d; ring).
  assert (Hcs : (a * c + b * d) * (a * c + b * d) <= (u * w) * (u * w)).
  { replace (u * w * (u * w)) with ((u * u) * (w * w)) by ring. rewrite SA, SB.
    pose proof (sq_nonneg (a * d - b * c)). lra. }
  assert (Hle : a * c + b * d <= u * w).
  { assert (0 <= u * w) by (apply Rmult_le_pos; auto).
    destruct (Rle_dec (a * c + b * d) 0); [lra|]. apply Rnot_gt_le. intros Hgt. nra. }
  lra.
Qed.

(** C21: over any number of steps the displacement is at most n*v_max*dt. *)
Lemma l_C21_tt_n_step_displacement :
  forall s proj guide x0 (us : list act), p_proj (ts_p s) = false -> p_guid (ts_p s) = false ->
  0 <= p_vmax (ts_p s) -> 0 <= p_dt (ts_p s) ->
  let q := st_q (fold_left (tt_step s proj guide) us (reset_state x0)) in
  dist (t_px q, t_py q) (t_px x0, t_py x0) <= INR (length us) * (p_vmax (ts_p s) * p_dt (ts_p s)).
Proof.
  intros s proj guide x0 us Hp Hg Hv Hd. cbv zeta.
  assert (H : forall st, st_bak st = false ->
     dist (t_px (st_q (fold_left (tt_step s proj guide) us st)), t_py (st_q (fold_left (tt_step s proj guide) us st)))
          (t_px (st_q st), t_py (st_q st)) <= INR (length us) * (p_vmax (ts_p s) * p_dt (ts_p s))).
  { induction us as [|u us IH]; intros st Hb.
    - cbn [fold_left length]. rewrite dist_refl. simpl. lra.
    - cbn [fold_left length]. rewrite S_INR.
      eapply Rle_trans; [apply dist_triangle with (Q := (t_px (st_q (tt_step s proj guide st u)), t_py (st_q (tt_step s proj guide st u))))|].
      destruct (l_C21_tt_step_displacement s proj guide st u Hp Hg Hb Hv Hd) as [_ H2]. cbv zeta in H2.
      assert (Hb' : st_bak (tt_step s proj guide st u) = false).
      { unfold tt_step. rewrite (kin_bak _ _ _ _ (tt_kinematic s proj guide false Hp Hg)). auto. }
      specialize (IH _ Hb'). lra. }
  apply (H (reset_state x0)). reflexivity.
Qed.
