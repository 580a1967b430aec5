(** * ProofsReadme: the recipes of README.md and the example script. *)
From Coq Require Import String.
From Verif Require Import Base BaseFacts Params Geom TT2d Bicycle NTrailer Acc Rollout Instances EnvModel Setup Stats Config Tune Planner
  Harness Recipes SpecRecipes SpecHarness SpecGeom SpecBodies SpecAcc SpecEnv SpecStats SpecDefaults SpecDyn SpecTune
  ProofsGeom ProofsBodies ProofsRobots ProofsKin ProofsSafety ProofsAcc ProofsEnv ProofsSetup ProofsDefaults ProofsStats ProofsPlanner ProofsPicture
  ProofsHarness ProofsHarnessRun ProofsHarnessJudge ProofsRecipes.
Local Open Scope string_scope.
Local Open Scope list_scope.
Open Scope R_scope.

Lemma unedited_default : unedited (with_defaults []).
Proof.
  intros f t v I. unfold dataclass_fields in I. cbn [In] in I.
  repeat match type of I with
  | False => contradiction
  | _ \/ _ => destruct I as [I|I]; [apply pair_equal_spec in I as [I <-]; apply pair_equal_spec in I as [<- _]; reflexivity|]
  end.
Qed.

(** ** C70: the recipe "Select via MBDConfig" *)
(** The recipe takes class, scenario, number of trailers, time step and horizon from the configuration. Every other
    parameter has its default; except for eleven reward weights and thresholds that default is the one of MBDConfig. *)
Lemma l_C70_recipe_settings :
  forall c r, readme_setup c = Ok r ->
  p_dt (rb_p r) = num c "dt" /\ p_H (rb_p r) = Z.to_nat (int c "Hsample") /\
  (rb_kind r = KACC <-> text c "env_name" = "acc_tt2d") /\
  (rb_kind r = KBK <-> (text c "env_name" = "tt2d" /\ int c "num_trailers" = 0%Z) \/ text c "env_name" = "kinematic_bicycle2d") /\
  (rb_kind r = KNT <-> (text c "env_name" = "tt2d" \/ text c "env_name" = "n_trailer2d") /\ (2 <= int c "num_trailers")%Z) /\
  (rb_kind r = KTT <-> text c "env_name" = "tt2d" /\ int c "num_trailers" <> 0%Z /\ (int c "num_trailers" < 2)%Z) /\
  (rb_kind r = KNT -> Z.of_nat (p_num_trailers (rb_p r)) = int c "num_trailers") /\
  fresh_obstacles (text c "case") r /\
  (forall name f v, In (name, f) named_parameters -> name <> "dt" -> ~ In name differing_defaults ->
     In (name, TFloat, VFloat v) dataclass_fields -> f (rb_p r) = v) /\
  p_dmax (rb_p r) = 55 * PI / 180 /\ p_motion (rb_p r) = 0%Z /\
  p_sh_coll (rb_p r) = true /\ p_sh_hitch (rb_p r) = true /\ p_proj (rb_p r) = false /\ p_guid (rb_p r) = false.
Proof.
  intros c r E. unfold readme_setup in E.
  destruct (l_C33_class_and_parameters _ _ E) as (A & KB & KN & KT & KA & ND & _ & AM & _).
  pose proof (fresh_env _ _ E eq_refl) as FO. unfold as_requested in A.
  destruct A as (A1 & A2 & A3 & A4 & A5 & A6 & A7 & A8 & A9 & A10 & A11 & A12 & A13 & A14 & A15 & A16 & A17 & A18 & A19 & A20 & A21 & A22 & A23 & A24 & A25 &
    A26 & A27 & _ & _ & A30 & A31 & A32 & A33 & A34 & A35 & A36).
  split; [exact A1|]. split; [exact A2|]. split; [exact KA|]. split; [exact KB|]. split; [exact KN|]. split; [exact KT|].
  split; [intros K; apply (ND K)|]. split; [exact FO|]. split.
  { clear - A4 A6 A17 A18 A19 A20 A21 A22 A23 A24 A25 A26 A31 A34.
    cbn [readme_args timed default_env_args g_coll_pen g_hitch_pen g_l1 g_l2 g_lh g_lf1 g_lr g_lf2 g_lr2 g_trac_w g_trail_w g_vmax g_kswitch g_head_w] in *.
    intros name f v Hi N1 N2 I. unfold named_parameters in Hi. cbn [In] in Hi. unfold differing_defaults in N2. cbn [In] in N2.
    apply unedited_default in I.
    repeat match type of Hi with
    | False => contradiction
    | _ \/ _ => destruct Hi as [Hi|Hi]; [apply pair_equal_spec in Hi as [<- <-];
        first [exfalso; tauto | injection I as <-; lra]|]
    end. }
  split; [exact A27|]. split; [exact A3|]. split; [exact A5|]. split; [exact A7|]. split; [exact A8|exact A9].
Qed.

(** The recipe works for every robot it lists. *)
Lemma l_C70_recipe_succeeds :
  forall c, text c "case" = "parking" \/ text c "case" = "navigation" ->
  text c "env_name" = "tt2d" \/ (text c "env_name" = "n_trailer2d" /\ (2 <= int c "num_trailers")%Z) \/
  text c "env_name" = "acc_tt2d" \/ text c "env_name" = "kinematic_bicycle2d" ->
  (exists r, readme_setup c = Ok r) /\ (text c "case" = "parking" -> exists r, readme_start_goal c = Ok r).
Proof.
  intros c HC HN.
  assert (E : exists r, readme_setup c = Ok r).
  { apply l_C33_succeeds; [reflexivity|exact HC|]. change (g_amax (readme_args c)) with 2.
    destruct HN as [HN|[HN|[HN|HN]]]; [left; exact HN|right; left; exact HN|right; right; left; split; [exact HN|lra]|right; right; right; exact HN]. }
  split; [exact E|]. intros C. destruct E as [r0 E]. unfold readme_start_goal. rewrite E. unfold readme_setup in E.
  destruct (own_env_lot _ _ E eq_refl C) as (DL & _).
  rewrite geo_start; [|exact DL|intros K; pose proof (get_env_nt _ _ E K); lia]. cbn [andthen]. eexists. reflexivity.
Qed.

(** Start and goal of "Setting start/goal". *)
Lemma l_C70_start_and_goal :
  forall c r, text c "case" = "parking" -> readme_start_goal c = Ok r ->
  rb_x0 r = Some (pose_vector r (-162/25) 3 0 0) /\ rb_xg r = Some (pose_vector r (-21/4) (-17/2) (- PI / 2) (- PI / 2)) /\
  exists r0, readme_setup c = Ok r0 /\ rb_kind r = rb_kind r0 /\ rb_p r = rb_p r0 /\ rb_circ r = rb_circ r0 /\ rb_rect r = rb_rect r0 /\
    rb_amax r = rb_amax r0 /\ rb_omax r = rb_omax r0.
Proof.
  intros c r C H. unfold readme_start_goal in H. destruct (readme_setup c) as [r0|] eqn:E; [|discriminate].
  destruct (l_C70_recipe_settings c r0 E) as (_ & _ & _ & _ & _ & _ & _ & _ & NP & _).
  assert (L1 : p_l1 (rb_p r0) = 323/100) by (apply (NP "l1"); [in_list|discriminate|intros A; cbn in A; intuition discriminate|in_list]).
  unfold readme_setup in E. destruct (own_env_lot _ _ E eq_refl C) as (DL & _). pose proof (env_goal _ _ E eq_refl C) as G0.
  assert (N0 : rb_kind r0 = KNT -> (1 <= p_num_trailers (rb_p r0))%nat) by (intros K; pose proof (get_env_nt _ _ E K); lia).
  rewrite geo_start in H by assumption. cbn [andthen] in H.
  rewrite (goal_turn (set_x0 r0 _) (-21/4) (-17/2) (- PI / 2) (- PI / 2) (- PI / 2) (- PI / 2) N0 G0) in H. cbn [andthen] in H. injection H as <-.
  split; [|split; [reflexivity|exists r0; repeat split; reflexivity]].
  cbn [set_xg set_x0 rb_x0]. unfold pose_vector. cbn [set_xg set_x0 rb_kind rb_p]. rewrite L1, cos_0.
  replace (-21 / 4 + 2 - 323 / 100 * 1) with (-162/25) by lra. replace (2 + 1) with 3 by lra. reflexivity.
Qed.
Lemma readme_same : forall c r, text c "case" = "parking" -> readme_start_goal c = Ok r -> exists r0, readme_setup c = Ok r0 /\ same_robot r0 r.
Proof.
  intros c r C H. unfold readme_start_goal in H. destruct (readme_setup c) as [r0|] eqn:E; [|discriminate]. exists r0. split; [reflexivity|].
  apply andthen_inv in H as (r1 & u1 & A1 & H). apply andthen_inv in H as (r2 & u2 & A2 & H). injection H as <-.
  apply same_init in A1 as [S1 _]. apply same_goal in A2 as [S2 _]. eauto using same_trans.
Qed.
Lemma readme_dims : forall c r0, readme_setup c = Ok r0 -> usual_dims (rb_p r0).
Proof.
  intros c r0 E. destruct (l_C70_recipe_settings c r0 E) as (_ & _ & _ & _ & _ & _ & _ & _ & NP & _).
  destruct (l_C33_class_and_parameters _ _ E) as (A & _). unfold as_requested in A.
  destruct A as (_ & _ & _ & _ & _ & _ & _ & _ & _ & _ & _ & _ & _ & _ & _ & _ & _ & _ & _ & _ & _ & _ & _ & _ & _ & _ & _ & _ & PH & _).
  unfold usual_dims. rewrite PH.
  rewrite (NP "l1" p_l1 (323/100)), (NP "l2" p_l2 (29/10)), (NP "lh" p_lh (23/20)), (NP "lf1" p_lf1 (9/10)), (NP "lr" p_lr (231/125)), (NP "lf2" p_lf2 (71/50)),
      (NP "lr2" p_lr2 (129/40)), (NP "tractor_width" p_trac_w 2), (NP "trailer_width" p_trail_w (5/2))
    by first [discriminate|solve [in_list]|intros A; cbn in A; intuition discriminate].
  repeat split.
Qed.

(** For every robot and any number of trailers, that start is a safe pose at rest, and planning (without acceleration
    control) returns safe states only. *)
Lemma l_C70_start_safe :
  forall c r, text c "case" = "parking" -> readme_start_goal c = Ok r -> starts_safe r /\ plans_safely c r.
Proof.
  intros c r C H. destruct (l_C70_start_and_goal c r C H) as (X & G & _). destruct (readme_same c r C H) as (r0 & E & S).
  destruct (own_env_lot _ _ E eq_refl C) as (_ & LO & _).
  assert (LO' : lot_obstacles (rb_circ r) (rb_rect r)) by (destruct S as (_ & _ & _ & -> & -> & _); exact LO).
  assert (D : usual_dims (rb_p r)) by (destruct S as (_ & -> & _); exact (readme_dims c r0 E)).
  pose proof D as (L1 & L2 & LH & LF & LR & LF2 & LR2 & TW & TW2 & PH). pose proof PI_RGT_0 as P0.
  assert (SS : starts_safe r).
  { apply (pose_safe r _ _ _ _ X LO'); rewrite ?TW, ?TW2, ?PH, ?LH; try lra.
    + intros P. apply level_tractor_zone; [apply sin_0|lra|]. unfold in_level. lra.
    + apply sin_0.
    + rewrite sin_0. unfold in_level. lra.
    + apply hitch_ok_zero. lra. }
  split; [exact SS|]. destruct (l_C70_recipe_settings c r0 E) as (_ & _ & _ & _ & _ & _ & _ & _ & _ & _ & _ & F).
  apply (plans c (readme_args c) r0 r); try assumption; try (destruct S as (_ & -> & _); apply F). eauto.
Qed.

(** C70 (finding): settings a user changes in MBDConfig do not reach the robot: a switched-off shield stays on, and
    with the unedited configuration each of the eleven reward parameters differs from the configured one. *)
Lemma l_C70_configuration_reaches_robot_refuted :
  (exists c r, c = with_defaults [("env_name", VStr "tt2d"); ("enable_shielded_rollout_collision", VBool false); ("v_max", VFloat 1)] /\
     readme_setup c = Ok r /\ p_sh_coll (rb_p r) = true /\ p_vmax (rb_p r) = 3) /\
  (forall c r name f, unedited c -> readme_setup c = Ok r -> In (name, f) named_parameters -> In name differing_defaults ->
     f (rb_p r) <> num c name).
Proof.
  split.
  - eexists.
    destruct (l_C70_recipe_succeeds (with_defaults [("env_name", VStr "tt2d"); ("enable_shielded_rollout_collision", VBool false); ("v_max", VFloat 1)])) as [[r E] _];
      [left; reflexivity|left; reflexivity|].
    exists r. split; [reflexivity|]. split; [exact E|]. destruct (l_C70_recipe_settings _ r E) as (_ & _ & _ & _ & _ & _ & _ & _ & NP & _ & _ & F & _).
    split; [exact F|]. apply (NP "v_max"); [in_list|discriminate|intros A; cbn in A; intuition discriminate|in_list].
  - intros c r name f U E Hi ND. unfold readme_setup in E. destruct (l_C33_class_and_parameters _ _ E) as (A & _). unfold as_requested in A.
    assert (V : forall n x, In (n, TFloat, VFloat x) dataclass_fields -> num c n = x) by (intros n x I; unfold num; rewrite (U n TFloat (VFloat x) I); reflexivity).
    destruct A as (A1 & A2 & A3 & A4 & A5 & A6 & A7 & A8 & A9 & A10 & A11 & A12 & A13 & A14 & A15 & A16 & A17 & A18 & A19 & A20 & A21 & A22 & A23 & A24 & A25 &
      A26 & A27 & _ & _ & A30 & A31 & A32 & A33 & A34 & A35 & A36).
    clear - Hi ND V A10 A11 A12 A13 A14 A15 A16 A32 A33 A35 A36.
    cbn [readme_args timed default_env_args g_rew_thr g_ref_thr g_max_w g_hitch_w g_rpos_w g_rth1_w g_rth2_w g_steer_w g_pref_w g_term_thr g_term_w] in *.
    unfold named_parameters in Hi. cbn [In] in Hi. unfold differing_defaults in ND.
    repeat match type of Hi with
    | False => contradiction
    | _ \/ _ => destruct Hi as [Hi|Hi]; [apply pair_equal_spec in Hi as [<- <-];
        first [exfalso; cbn in ND; intuition discriminate | erewrite V by in_list; lra]|]
    end.
Qed.

(** ** The recipe without a start pose *)
From Verif Require ProofsDisc ProofsFloatTrack.
Definition upper_wall : rectobs := mkRect 0 15 30 1 0.
Lemma cos_low : forall x, 1 - x * x / 2 <= cos x.
Proof.
  intros x. replace (cos x) with (cos (2 * (x / 2))) by (f_equal; lra). rewrite cos_2a_sin.
  assert (H : sin (x / 2) * sin (x / 2) <= x / 2 * (x / 2)).
  { rewrite <- (Rabs_pos_eq (sin _ * _)), <- (Rabs_pos_eq (x / 2 * _)) by (apply Rle_0_sqr). rewrite !Rabs_mult.
    assert (A : Rabs (sin (x / 2)) <= Rabs (x / 2)).
    { pose proof (ProofsFloatTrack.sin_lip (x / 2) 0) as L. rewrite sin_0, !Rminus_0_r in L. exact L. }
    apply Rmult_le_compat; try apply Rabs_pos; exact A. }
  lra.
Qed.
Lemma wall_hit : forall p x y th, usual_dims p -> Rabs (x + 14) <= 3/4 -> Rabs (y - 14) <= 3/40 -> Rabs (th - 1/10) <= 405/1000 ->
  exists P, solid (tractor_body p x y th) P /\ solid (obstacle_body upper_wall) P.
Proof.
  intros p x y th (L1 & _ & _ & LF & LR & _ & _ & TW & _) X Y T.
  apply Rabs_le_both in X. apply Rabs_le_both in Y. apply Rabs_le_both in T.
  pose proof (cos_low th) as C.
  assert (S : 0 <= th /\ 0 <= sin th <= th \/ th <= 0 /\ th <= sin th <= 0).
  { pose proof PI2_3_2 as P2. destruct (Rtotal_order th 0) as [H|[->|H]].
    - right. split; [lra|]. pose proof (sin_lt_x (- th) ltac:(lra)) as A. pose proof (sin_ge_0 (- th) ltac:(lra) ltac:(lra)) as B. rewrite sin_neg in A, B. lra.
    - left. rewrite sin_0. lra.
    - left. split; [lra|]. pose proof (sin_lt_x th ltac:(lra)) as A. pose proof (sin_ge_0 th ltac:(lra) ltac:(lra)) as B. lra. }
  pose proof (COS_bound th) as [_ C1]. set (c := cos th) in *. set (s := sin th) in *. set (b := (291/20 - y - s) / c).
  assert (CP : 85/100 <= c /\ (th <= 0 -> 95/100 <= c)).
  { split; [|intros H].
    - assert (th * th <= 505/1000 * (505/1000)); [|lra]. rewrite <- (Rabs_pos_eq (th * th)) by (apply Rle_0_sqr). rewrite Rabs_mult.
      assert (Rabs th <= 505/1000) by (apply Rabs_le; lra). apply Rmult_le_compat; try apply Rabs_pos; assumption.
    - assert (th * th <= 305/1000 * (305/1000)); [|lra]. rewrite <- (Rabs_pos_eq (th * th)) by (apply Rle_0_sqr). rewrite Rabs_mult.
      assert (Rabs th <= 305/1000) by (apply Rabs_le; lra). apply Rmult_le_compat; try apply Rabs_pos; assumption. }
  assert (Ec : cos th = c) by reflexivity. assert (Es : sin th = s) by reflexivity. clearbody c s. destruct CP as [CP1 CP2].
  assert (BC : b * c = 291/20 - y - s) by (unfold b; field; lra). clearbody b.
  assert (B1 : b <= 1).
  { destruct (Rle_lt_dec b 1) as [H|H]; [exact H|exfalso]. assert (c < b * c) by (replace c with (1 * c) at 1 by ring; apply Rmult_lt_compat_r; lra).
    destruct S as [[S1 S2]|[S1 S2]]; [lra|]. specialize (CP2 S1). lra. }
  assert (B0 : -1/10 <= b).
  { destruct (Rle_lt_dec (-1/10) b) as [H|H]; [exact H|exfalso]. assert (b * c < (-1/10) * c) by (apply Rmult_lt_compat_r; lra).
    destruct S as [[S1 S2]|[S1 S2]]; lra. }
  assert (BS : - (51/100) <= b * s <= 51/100).
  { apply Rabs_le_both. rewrite Rabs_mult. replace (51/100) with (1 * (51/100)) by ring.
    apply Rmult_le_compat; try apply Rabs_pos; apply Rabs_le; destruct S as [[S1 S2]|[S1 S2]]; lra. }
  exists (at_frame (x, y) th 1 b). split.
  - exists 1, b. unfold tractor_body. cbn [rg_back rg_front rg_half rg_org rg_ang]. rewrite L1, LF, LR, TW. split; [lra|]. split; [lra|reflexivity].
  - exists (x + c - b * s), (-9/20). unfold upper_wall, obstacle_body, at_frame. cbn [rg_back rg_front rg_half rg_org rg_ang r_x r_y r_w r_h r_ang fst snd].
    rewrite cos_0, sin_0. split; [lra|]. split; [lra|]. rewrite Ec, Es. f_equal; lra.
Qed.
Lemma abs_mult_le : forall a b x y, Rabs a <= x -> Rabs b <= y -> Rabs (a * b) <= x * y.
Proof. intros a b x y A B. rewrite Rabs_mult. apply Rmult_le_compat; try apply Rabs_pos; assumption. Qed.
Lemma one_step_near : forall p (a : act), usual_dims p -> 0 <= p_dt p <= 1/4 -> p_vmax p = 3 -> p_dmax p = 55 * PI / 180 ->
  let v := fst (clip_act a) * p_vmax p in
  Rabs (-14 + p_dt p * (v * cos (1/10)) + 14) <= 3/4 /\ Rabs (14 + p_dt p * (v * sin (1/10)) - 14) <= 3/40 /\
  Rabs (1/10 + p_dt p * (v / p_l1 p * tan (snd (clip_act a) * p_dmax p)) - 1/10) <= 405/1000.
Proof.
  intros p a (L1 & _) DT VM DM. cbv zeta. rewrite VM, DM, L1.
  assert (F : Rabs (fst (clip_act a)) <= 1) by (apply Rabs_le; pose proof (clip_unit a); lra).
  assert (G : -1 <= snd (clip_act a) <= 1) by (destruct a as [u w]; unfold clip_act; cbn [snd]; apply clip_range; lra).
  assert (T : Rabs (tan (snd (clip_act a) * (55 * PI / 180))) <= 174/100).
  { pose proof PI_RGT_0. eapply Rle_trans; [apply ProofsDisc.tan_bound; [exact G|lra]|]. destruct ProofsDisc.tan55 as [T0 T1].
    destruct (Rle_lt_dec (tan (55 * PI / 180)) (174/100)) as [H1|H2]; [exact H1|exfalso].
    assert (174/100 * (174/100) < tan (55 * PI / 180) * tan (55 * PI / 180)) by (apply Rmult_le_0_lt_compat; lra). lra. }
  assert (D : Rabs (p_dt p) <= 1/4) by (apply Rabs_le; lra).
  assert (V : Rabs (fst (clip_act a) * 3) <= 3) by (replace 3 with (1 * 3) at 2 by ring; apply abs_mult_le; [exact F|rewrite Rabs_pos_eq; lra]).
  assert (V2 : Rabs (fst (clip_act a) * 3 / (323/100)) <= 300/323).
  { unfold Rdiv at 1. replace (300/323) with (3 * (100/323)) by lra. apply abs_mult_le; [exact V|]. rewrite Rabs_pos_eq; lra. }
  assert (S : Rabs (sin (1/10)) <= 1/10).
  { pose proof (sin_lt_x (1/10) ltac:(lra)). pose proof PI2_3_2. pose proof (sin_ge_0 (1/10) ltac:(lra) ltac:(lra)). apply Rabs_le. lra. }
  assert (C : Rabs (cos (1/10)) <= 1) by (apply Rabs_le; apply COS_bound).
  split; [|split].
  - match goal with |- Rabs ?e <= _ => replace e with (p_dt p * (fst (clip_act a) * 3 * cos (1/10))) by ring end.
    replace (3/4) with (1/4 * (3 * 1)) by lra. apply abs_mult_le; [exact D|]. apply abs_mult_le; [exact V|exact C].
  - match goal with |- Rabs ?e <= _ => replace e with (p_dt p * (fst (clip_act a) * 3 * sin (1/10))) by ring end.
    replace (3/40) with (1/4 * (3 * (1/10))) by lra. apply abs_mult_le; [exact D|]. apply abs_mult_le; [exact V|exact S].
  - match goal with |- Rabs ?e <= _ => replace e with (p_dt p * (fst (clip_act a) * 3 / (323/100) * tan (snd (clip_act a) * (55 * PI / 180)))) by ring end.
    apply Rle_trans with (1/4 * (300/323 * (174/100))); [|lra]. apply abs_mult_le; [exact D|]. apply abs_mult_le; [exact V2|exact T].
Qed.

(** C70 (finding): the quick-start recipe sets no start pose, and the default one stands in the upper wall. With a
    time step of at most 0.25 s (the default), every first step still overlaps the wall and is undone by the shield:
    the returned trajectory is the start pose repeated, for tractor-trailer, car and rigs of any length. *)
Lemma l_C70_quick_start_moves_refuted :
  forall c r, text c "case" = "parking" -> 0 <= num c "dt" <= 1/4 -> readme_setup c = Ok r ->
  ~ starts_safe r /\
  (rb_kind r = KTT -> exists x0 xg, rb_x0 r = Some [t_px x0; t_py x0; t_th1 x0; t_th2 x0] /\ rb_xg r = Some [t_px xg; t_py xg; t_th1 xg; t_th2 xg] /\
     forall proj guide logpd rx rg, exists out,
     run_diffusion (tt_penv (mkTTSelf (rb_p r) (rb_circ r) (rb_rect r) xg) x0 proj guide logpd rx) (Some (planner_cfg c)) rg = Ok out /\
     o_traj out = repeat x0 (S (Z.to_nat (int c "Hsample")))) /\
  (rb_kind r = KBK -> exists x0 xg, rb_x0 r = Some [b_px x0; b_py x0; b_th x0] /\ rb_xg r = Some [b_px xg; b_py xg; b_th xg] /\
     forall proj guide logpd rx rg, exists out,
     run_diffusion (bk_penv (mkBKSelf (rb_p r) (rb_circ r) (rb_rect r) xg) x0 proj guide logpd rx) (Some (planner_cfg c)) rg = Ok out /\
     o_traj out = repeat x0 (S (Z.to_nat (int c "Hsample")))) /\
  (rb_kind r = KNT -> exists x0 xg, rb_x0 r = Some (n_px x0 :: n_py x0 :: n_th0 x0 :: n_ths x0) /\ rb_xg r = Some (n_px xg :: n_py xg :: n_th0 xg :: n_ths xg) /\
     let s := mkNTSelf (rb_p r) (rb_len r) (rb_front r) (rb_rear r) (rb_circ r) (rb_rect r) xg in
     forall guide logpd rx rg, exists out, nt_run s x0 guide logpd rx (planner_cfg c) rg = Ok out /\
     o_traj out = repeat x0 (S (Z.to_nat (int c "Hsample")))).
Proof.
  intros c r C DT E. destruct (l_C70_recipe_settings c r E) as (SDT & _ & _ & _ & _ & _ & _ & FO & NP & DM & _ & SC & SH & PJ & GD).
  pose proof (readme_dims c r E) as D. pose proof (dims_sized _ D) as SZ. rewrite <- SDT in DT.
  assert (VM : p_vmax (rb_p r) = 3) by (apply (NP "v_max"); [in_list|discriminate|intros A; cbn in A; intuition discriminate|in_list]).
  clear NP SDT. assert (E' : get_env (readme_args c) = Ok r) by exact E.
  destruct (l_C57_parking_defaults _ _ E' C) as (pc & n & rest & gx & gy & _ & _ & _ & X0 & XG).
  assert (EV : fst (e_xr (rb_env r)) + 2 = -14 /\ snd (e_yr (rb_env r)) - 2 = 14).
  { pose proof (own_env _ _ E' eq_refl) as O. change (g_case (readme_args c)) with (text c "case") in O. rewrite C in O. injection O as <-. cbn. lra. }
  destruct EV as [-> ->] in X0.
  assert (W : In upper_wall (rb_rect r)).
  { destruct FO as (e & O & _ & ->). rewrite C in O. injection O as <-. left. reflexivity. }
  pose proof (fun a => one_step_near (rb_p r) a D DT VM DM) as NEAR. cbv zeta in NEAR.
  assert (HIT : forall x y th, Rabs (x + 14) <= 3/4 -> Rabs (y - 14) <= 3/40 -> Rabs (th - 1/10) <= 405/1000 -> forall gs circ,
            ~ clear_bodies (tractor_body (rb_p r) x y th :: gs) circ (rb_rect r)).
  { intros x y th A1 A2 A3 gs circ [_ CL]. destruct (wall_hit (rb_p r) x y th D A1 A2 A3) as (P & P1 & P2). exact (CL _ _ (or_introl eq_refl) W P (conj P1 P2)). }
  assert (A0 : Rabs (-14 + 14) <= 3/4 /\ Rabs (14 - 14) <= 3/40 /\ Rabs (1/10 - 1/10) <= 405/1000).
  { replace (-14 + 14) with 0 by ring. replace (14 - 14) with 0 by ring. replace (1/10 - 1/10) with 0 by lra. rewrite Rabs_R0. lra. }
  destruct A0 as (A1 & A2 & A3). unfold pose_vector in X0, XG. split.
  { unfold starts_safe. destruct (rb_kind r); rewrite X0.
    - intros (q & Q & [S _]). injection Q as Q1 Q2 Q3 Q4. unfold tt_clear, tt_bodies in S. rewrite <- Q1, <- Q2, <- Q3 in S.
      exact (HIT _ _ _ A1 A2 A3 _ _ S).
    - intros (q & Q & S). injection Q as Q1 Q2 Q3. unfold bk_safe, bk_bodies in S. rewrite <- Q1, <- Q2, <- Q3 in S.
      exact (HIT _ _ _ A1 A2 A3 _ _ S).
    - intros (q & Q & _ & S). cbn [app] in Q. injection Q as Q1 Q2 Q3 _. specialize (S q). destruct S as [S _]. unfold nt_clear, nt_bodies in S.
      rewrite <- Q1, <- Q2, <- Q3 in S. exact (HIT _ _ _ A1 A2 A3 _ _ S).
    - intros (q & Q & [S _]). injection Q as Q1 Q2 Q3 Q4. unfold tt_clear, tt_bodies in S. rewrite <- Q1, <- Q2, <- Q3 in S.
      exact (HIT _ _ _ A1 A2 A3 _ _ S). }
  split; [|split]; intros KD; rewrite KD in X0, XG.
  - set (x0 := mkTT (-14) 14 (1/10) (1/10)). exists x0, (mkTT gx gy (- PI / 2) (- PI / 2)). split; [exact X0|]. split; [exact XG|]. intros proj guide logpd rx rg.
    set (s := mkTTSelf _ _ _ _). destruct (run_lengths (tt_penv s x0 proj guide logpd rx) c rg) as (out & R & _ & LT). exists out. split; [exact R|].
    injection R as <-. destruct (run_char _ _ _ _ (tt_kinematic s proj guide false PJ GD) (tt_penv s x0 proj guide logpd rx) x0 eq_refl eq_refl
      ltac:(intros st a; apply tt_viz_same; assumption) I (planner_cfg c) rg) as (us & _ & T & _).
    rewrite T in LT |- *.
    assert (ST : forall a, tt_bad s (tt_plain (ts_p s) x0 (clip_act a)) = true).
    { intros a. destruct (tt_bad s (tt_plain (ts_p s) x0 (clip_act a))) eqn:B; [reflexivity|exfalso].
      apply (tt_not_bad_safe s _ SZ SC SH) in B. destruct B as [B _]. unfold tt_clear, tt_bodies in B.
      destruct (NEAR a) as (N1 & N2 & N3). exact (HIT _ _ _ N1 N2 N3 _ _ B). }
    rewrite (kqs_stuck _ _ _ _ ST) in LT |- *. cbn [length] in LT. rewrite repeat_length in LT. injection LT as ->. reflexivity.
  - set (x0 := mkBK (-14) 14 (1/10)). exists x0, (mkBK gx gy (- PI / 2)). split; [exact X0|]. split; [exact XG|]. intros proj guide logpd rx rg.
    set (s := mkBKSelf _ _ _ _). destruct (run_lengths (bk_penv s x0 proj guide logpd rx) c rg) as (out & R & _ & LT). exists out. split; [exact R|].
    injection R as <-. destruct (run_char _ _ _ _ (bk_kinematic s proj guide false PJ GD) (bk_penv s x0 proj guide logpd rx) x0 eq_refl eq_refl
      ltac:(intros st a; cbn; unfold bk_step; rewrite !bk_step_shield by assumption; reflexivity) I (planner_cfg c) rg) as (us & _ & T & _).
    rewrite T in LT |- *.
    assert (ST : forall a, bk_bad s (bk_plain (bs_p s) x0 (clip_act a)) = true).
    { intros a. destruct (bk_bad s (bk_plain (bs_p s) x0 (clip_act a))) eqn:B; [reflexivity|exfalso].
      apply (bk_not_bad_safe s _ (proj1 SZ) SC) in B. unfold bk_safe, bk_bodies in B.
      destruct (NEAR a) as (N1 & N2 & N3). exact (HIT _ _ _ N1 N2 N3 _ _ B). }
    rewrite (kqs_stuck _ _ _ _ ST) in LT |- *. cbn [length] in LT. rewrite repeat_length in LT. injection LT as ->. reflexivity.
  - destruct (env_lengths _ _ r E' (same_refl r) KD) as (M1 & M2 & M3 & M4). set (N := p_num_trailers (rb_p r)) in *.
    set (x0 := mkNT (-14) 14 (1/10) (repeat (1/10) N)). set (xg := mkNT gx gy (- PI / 2) (repeat (- PI / 2) N)).
    exists x0, xg. split; [exact X0|]. split; [exact XG|]. cbv zeta. intros guide logpd rx rg. set (s := mkNTSelf _ _ _ _ _ _ _).
    assert (V0 : nt_valid s x0) by (unfold nt_valid; cbn [x0 n_ths]; apply repeat_length).
    assert (RN : nt_run s x0 guide logpd rx (planner_cfg c) rg = run_diffusion (nt_penv s x0 guide logpd rx) (Some (planner_cfg c)) rg).
    { unfold nt_run. unfold nt_valid in V0. rewrite V0, Nat.eqb_refl. change (p_proj (ns_p s)) with (p_proj (rb_p r)). rewrite PJ. reflexivity. }
    rewrite RN. destruct (run_lengths (nt_penv s x0 guide logpd rx) c rg) as (out & R & _ & LT). exists out. split; [exact R|].
    injection R as <-. destruct (run_char _ _ _ _ (nt_kinematic s guide false GD M2) (nt_penv s x0 guide logpd rx) x0 eq_refl eq_refl
      ltac:(intros st a; apply nt_viz_same; exact GD) V0 (planner_cfg c) rg) as (us & _ & T & _).
    rewrite T in LT |- *.
    assert (NS : nt_sized s).
    { split; [apply SZ|]. split; [apply SZ|]. do 3 (split; [assumption|]). intros i Hi. destruct (env_arrays _ _ r i E' (same_refl r) KD Hi) as [F1 F2].
      cbn [s ns_front ns_rear]. rewrite F1. destruct D as (L1 & L2 & LH & LF & LR & LF2 & LR2 & _). destruct F2 as [->| ->]; lra. }
    assert (ST : forall a, nt_bad s (nt_plain s x0 (clip_act a)) = true).
    { intros a. destruct (nt_bad s (nt_plain s x0 (clip_act a))) eqn:B; [reflexivity|exfalso].
      apply (nt_not_bad_safe s _ NS ltac:(exact (Nat.le_trans 1 2 _ ltac:(lia) M1)) (nt_plain_valid s x0 _ M2 V0) SC SH) in B. destruct B as [B _]. unfold nt_clear, nt_bodies in B.
      destruct (NEAR a) as (N1 & N2 & N3). exact (HIT _ _ _ N1 N2 N3 _ _ B). }
    rewrite (kqs_stuck _ _ _ _ ST) in LT |- *. cbn [length] in LT. rewrite repeat_length in LT. injection LT as ->. reflexivity.
Qed.

(** ** "To choose a different space pair" *)
Lemma targets_env : forall c l r, readme_targets c l = Ok r -> exists e, env_init 32 32 "parking" None = Ok e /\
  rb_env r = put_targets e l /\ rb_circ r = e_circles e /\ rb_rect r = e_rects e.
Proof.
  intros c l r H. unfold readme_targets in H. destruct (env_init 32 32 "parking" None) as [e|] eqn:O; [|discriminate]. exists e. split; [reflexivity|].
  destruct (l_C33_class_and_parameters _ _ H) as (_ & _ & _ & _ & _ & _ & _ & _ & EE). specialize (EE (put_targets e l) eq_refl). split; [exact EE|].
  destruct (l_C31_robot_and_environment_agree _ r [] H) as [A B]. cbn in A, B. rewrite EE in A, B. auto.
Qed.
(** The robot's goal becomes the centre of the first of the new target spaces; the obstacles stay those of the
    default lot. *)
Lemma l_C70_target_spaces :
  forall c t rest r, readme_targets c (t :: rest) = Ok r ->
  fresh_obstacles "parking" r /\
  exists e gx gy, env_init 32 32 "parking" None = Ok e /\ get_parking_space_center e t = Ok (gx, gy) /\
    rb_xg r = Some (pose_vector r gx gy (- PI / 2) (- PI / 2)).
Proof.
  intros c t rest r H. destruct (targets_env c _ r H) as (e & O & EE & A & B). split; [exists e; auto|]. exists e.
  unfold readme_targets in H. rewrite O in H. destruct (l_C57_parking_defaults _ _ H eq_refl) as (pc & n & rst & gx & gy & P1 & P2 & P3 & _ & P4).
  exists gx, gy. split; [exact O|]. split; [|exact P4]. rewrite EE in P1, P3. injection O as <-. cbn in P1. injection P1 as <-. cbn in P2. injection P2 as -> ->. exact P3.
Qed.
(** C70 (finding): the obstacles of an Env object are placed when it is built and do not follow the edit: the new
    target, if it was occupied (all of 1 2 4 5 6 7 9 10 12 13 14 15, so also the README's pair [4, 12]), still has its
    parked obstacles, and the goal pose stands on them. *)
Lemma l_C70_chosen_target_free_refuted :
  (forall c t rest r, readme_targets c (t :: rest) = Ok r -> In t [1; 2; 4; 5; 6; 7; 9; 10; 12; 13; 14; 15]%Z ->
   exists gx gy k, rb_xg r = Some (pose_vector r gx gy (- PI / 2) (- PI / 2)) /\ In k (rb_circ r) /\ (c_x k, c_y k) = (gx, gy) /\ c_r k = 1 /\
     solid (tractor_body (rb_p r) gx gy (- PI / 2)) (c_x k, c_y k) /\
     ~ tt_safe (rb_p r) (rb_circ r) (rb_rect r) (mkTT gx gy (- PI / 2) (- PI / 2))) /\
  (exists r, readme_targets (with_defaults [("env_name", VStr "tt2d")]) [4; 12]%Z = Ok r).
Proof.
  split; [|eexists; reflexivity].
  intros c t rest r H OC. destruct (l_C70_target_spaces c t rest r H) as (_ & e & gx & gy & O & CT & XG). exists gx, gy.
  destruct (targets_env c _ r H) as (e' & O' & _ & RC & _). rewrite O in O'. injection O' as <-.
  unfold readme_targets in H. rewrite O in H. destruct (l_C33_class_and_parameters _ _ H) as (A & _).
  assert (L : p_l1 (rb_p r) = 323/100 /\ p_lf1 (rb_p r) = 9/10 /\ p_lr (rb_p r) = 1848/1000 /\ p_trac_w (rb_p r) = 2).
  { unfold as_requested in A. repeat split; apply A. }
  destruct L as (L1 & LF & LR & TW). clear A H.
  change (env_init 32 32 "parking" None) with (env_init 32 32 "parking" (Some default_parking)) in O.
  destruct (l_C28_three_per_occupied_space 32 32 default_parking e O ltac:(discriminate)) as [_ T].
  apply In_nth with (d := 0%Z) in OC. destruct OC as (k & K1 & K2). specialize (T k K1). change (pk_occ default_parking) with [1; 2; 4; 5; 6; 7; 9; 10; 12; 13; 14; 15]%Z in T.
  rewrite K2 in T. destruct T as (x & y & T1 & T2 & _). rewrite CT in T1. injection T1 as <- <-. apply nth_error_In in T2. change (pk_rad default_parking) with 1 in T2.
  exists (mkCircle gx gy 1). split; [exact XG|]. rewrite RC. split; [exact T2|]. split; [reflexivity|]. split; [reflexivity|]. cbn [c_x c_y]. split.
  - exists 0, 0. unfold tractor_body. cbn [rg_back rg_front rg_half rg_org rg_ang]. rewrite at_down, L1, LF, LR, TW. cbn [fst snd].
    split; [lra|]. split; [lra|]. f_equal; lra.
  - intros [[S _] _]. specialize (S (tractor_body (rb_p r) gx gy (- PI / 2)) _ (or_introl eq_refl) T2 (gx + 1, gy)).
    assert (OU : outline (tractor_body (rb_p r) gx gy (- PI / 2)) (gx + 1, gy)).
    { exists 0, 1. unfold tractor_body. cbn [rg_back rg_front rg_half rg_org rg_ang]. rewrite at_down, L1, LF, LR, TW. cbn [fst snd].
      split; [lra|]. split; [lra|]. split; [right; right; right; lra|f_equal; lra]. }
    specialize (S OU). unfold SpecGeom.dist, dist2 in S. cbn [fst snd c_x c_y c_r] in S.
    replace ((gx + 1 - gx) * (gx + 1 - gx) + (gy - gy) * (gy - gy)) with (1 * 1) in S by ring. rewrite sqrt_square in S; lra.
Qed.
(** The recipes for the default lot: the tractor-trailer, its start and its goal; and, without a start, in the wall. *)
Lemma x_C70_tractor_trailer :
  exists c r r', c = with_defaults [("env_name", VStr "tt2d")] /\ readme_start_goal c = Ok r /\ rb_kind r = KTT /\
    rb_x0 r = Some [-162/25; 3; 0; 0] /\ starts_safe r /\ 0 <= num c "dt" <= 1/4 /\ readme_setup c = Ok r' /\ ~ starts_safe r'.
Proof.
  eexists. set (c := with_defaults [("env_name", VStr "tt2d")]).
  destruct (l_C70_recipe_succeeds c) as [[r' E'] E]; [left; reflexivity|left; reflexivity|]. destruct (E eq_refl) as [r E1].
  exists r, r'. split; [reflexivity|]. split; [exact E1|]. destruct (l_C70_start_and_goal c r eq_refl E1) as (X & _ & r0 & S0 & K & _).
  destruct (l_C70_recipe_settings c r0 S0) as (_ & _ & _ & _ & _ & KT & _).
  assert (KD : rb_kind r = KTT) by (rewrite K; apply KT; unfold int; cbn; repeat split; lia).
  split; [exact KD|]. split; [rewrite X; unfold pose_vector; rewrite KD; reflexivity|]. split; [apply (l_C70_start_safe c r eq_refl E1)|].
  assert (DT : 0 <= num c "dt" <= 1/4) by (unfold num; cbn; lra). split; [exact DT|]. split; [exact E'|].
  apply (l_C70_quick_start_moves_refuted c r' eq_refl DT E').
Qed.

