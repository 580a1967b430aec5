(** * ProofsRecipes: the main block of mbd_planner.py, the README recipes and the example script. *)
From Coq Require Import String.
From Verif Require Import Base BaseFacts Params Geom TT2d Bicycle NTrailer Acc Rollout Instances EnvModel Setup Stats Config Tune Planner
  Harness Recipes SpecRecipes SpecHarness SpecGeom SpecBodies SpecAcc SpecEnv SpecStats SpecDefaults SpecDyn SpecTune
  ProofsGeom ProofsBodies ProofsRobots ProofsKin ProofsSafety ProofsAcc ProofsEnv ProofsSetup ProofsDefaults ProofsStats ProofsPlanner ProofsPicture
  ProofsHarness ProofsHarnessRun ProofsHarnessJudge.
Local Open Scope string_scope.
Local Open Scope list_scope.
Open Scope R_scope.

(** ** Where the default lot leaves room *)
(** Above the parked obstacles, and below, above or to the right of the upper wall. *)
Definition zone (P : point) : Prop := 3/2 < snd P /\ (snd P < 29/2 \/ 31/2 < snd P \/ 15 < fst P).
Definition lot_obstacles (circ : list circle) (rect : list rectobs) : Prop :=
  (forall k, In k circ -> c_y k <= 1/2 /\ c_r k = 1) /\ (forall o, In o rect -> In o parking_rects).
Lemma zone_clear : forall gs circ rect, lot_obstacles circ rect -> (forall g P, In g gs -> solid g P -> zone P) -> clear_bodies gs circ rect.
Proof.
  intros gs circ rect [HC HR] B. split.
  - intros g k Hg Hk P HP. apply outline_solid' in HP. apply (B g P Hg) in HP. destruct (HC k Hk) as [K1 K2]. destruct HP as [HP _].
    destruct (Rlt_le_dec (c_r k) (SpecGeom.dist P (c_x k, c_y k))) as [H|H]; [exact H|exfalso].
    apply disc_box in H. cbn [fst snd] in H. lra.
  - intros g o Hg Ho P [H1 H2]. apply (B g P Hg) in H1. unfold zone in H1.
    apply HR in Ho. destruct Ho as [<-|[<-|[]]]; destruct H2 as (a & b & Ha & Hb & ->);
      cbn [obstacle_body rg_back rg_front rg_half rg_org rg_ang r_x r_y r_w r_h r_ang] in *; unfold at_frame in H1; cbn [fst snd] in H1;
      rewrite sin_0, cos_0 in H1; lra.
Qed.
Definition in_level (y : R) : Prop := 11/4 < y /\ (y < 53/4 \/ 67/4 < y).
Lemma level_zone : forall g y Q, sin (rg_ang g) = 0 -> snd (rg_org g) = y -> rg_half g <= 5/4 -> in_level y -> solid g Q -> zone Q.
Proof.
  intros [P th b f h] y Q S Hy Hh [L1 L2] HQ. cbn [rg_ang rg_org rg_half] in *. apply (level_body _ _ _ _ _ _ y S Hy Hh) in HQ. unfold zone. lra.
Qed.
Lemma ahead_level : forall P b d, sin b = 0 -> snd (ahead P b d) = snd P.
Proof. intros P b d S. unfold ahead. cbn [snd]. rewrite S. ring. Qed.
Lemma chain_zone : forall lh w y b, sin b = 0 -> w <= 5/2 -> in_level y -> forall n hitch Ls lfs lrs, snd hitch = y ->
  forall g Q, In g (trailer_chain lh w hitch (repeat b n) Ls lfs lrs) -> solid g Q -> zone Q.
Proof.
  intros lh w y b S W L. induction n as [|n IH]; intros hitch Ls lfs lrs H g Q I HQ; [destruct I|].
  destruct Ls as [|l0 Ls], lfs as [|f0 lfs], lrs as [|r0 lrs]; cbn [repeat trailer_chain] in I; try contradiction.
  destruct I as [<-|I].
  - refine (level_zone _ y Q _ _ _ L HQ); unfold trailer_body; cbn [rg_ang rg_org rg_half]; [exact S|rewrite ahead_level; assumption|lra].
  - refine (IH _ _ _ _ _ g Q I HQ). rewrite ahead_level; assumption.
Qed.
Lemma chain_ok_repeat : forall phi b n, 0 <= phi -> chain_ok phi (repeat b n).
Proof.
  intros phi b n H. induction n as [|[|n] IH]; [exact I|exact I|]. cbn [repeat chain_ok] in *. split; [apply hitch_ok_zero; exact H|exact IH].
Qed.
Lemma chain_ok_cons : forall phi a b n, 0 <= phi -> hitch_ok phi a b -> chain_ok phi (a :: repeat b n).
Proof.
  intros phi a b n H0 H. destruct n as [|n]; [exact I|]. pose proof (chain_ok_repeat phi b (S n) H0) as K. cbn [repeat] in *. split; assumption.
Qed.

(** A pose whose tractor is in the free zone and whose trailers are level in it. *)
Lemma pose_safe : forall r x y a b, rb_x0 r = Some (pose_vector r x y a b) -> lot_obstacles (rb_circ r) (rb_rect r) ->
  p_trac_w (rb_p r) <= 5/2 -> p_trail_w (rb_p r) <= 5/2 -> 0 <= p_phi_max (rb_p r) ->
  (forall P, solid (tractor_body (rb_p r) x y a) P -> zone P) -> sin b = 0 -> in_level (y - p_lh (rb_p r) * sin a) ->
  hitch_ok (p_phi_max (rb_p r)) a b -> starts_safe r.
Proof.
  intros r x y a b X0 LO W1 W2 H0 TZ S L HK. unfold starts_safe. unfold pose_vector in X0.
  assert (HY : snd (ahead (x, y) a (- p_lh (rb_p r))) = y - p_lh (rb_p r) * sin a) by (unfold ahead; cbn [fst snd]; ring).
  assert (TT : tt_safe (rb_p r) (rb_circ r) (rb_rect r) (mkTT x y a b)).
  { split; [|exact HK]. apply zone_clear; [exact LO|]. intros g P Hg HP. unfold tt_bodies in Hg. cbn [t_px t_py t_th1 t_th2] in Hg.
    destruct Hg as [<-|[<-|[]]]; [exact (TZ P HP)|].
    refine (level_zone _ _ P _ _ _ L HP); unfold trailer_body; cbn [rg_ang rg_org rg_half];
      [exact S|rewrite ahead_level by exact S; exact HY|lra]. }
  destruct (rb_kind r).
  - exists (mkTT x y a b). split; [exact X0|exact TT].
  - exists (mkBK x y a). split; [exact X0|]. unfold bk_safe. apply zone_clear; [exact LO|]. intros g P Hg HP. unfold bk_bodies in Hg. cbn [b_px b_py b_th] in Hg.
    destruct Hg as [<-|[]]. exact (TZ P HP).
  - exists (mkNT x y a (repeat b (p_num_trailers (rb_p r)))). split; [exact X0|]. split; [apply repeat_length|]. intros xg.
    unfold nt_safe, nt_clear, nt_hitch_ok, nt_bodies. cbn [n_px n_py n_th0 n_ths ns_p ns_len ns_front ns_rear ns_circ ns_rect]. split.
    + apply zone_clear; [exact LO|]. intros g P [<-|Hg] HP; [exact (TZ P HP)|].
      exact (chain_zone _ _ _ b S W2 L _ _ _ _ _ HY g P Hg HP).
    + apply chain_ok_cons; [exact H0|exact HK].
  - exists (mkTT x y a b). split; [exact X0|exact TT].
Qed.

(** ** The geometric start in the default lot *)
Definition in_default_lot (e : env_obj) : Prop := e_case e = "parking" /\ e_parking e = Some default_parking /\ fst (e_yr e) = -16.
Lemma geo_start : forall r dx dy th1 th2, in_default_lot (rb_env r) -> (rb_kind r = KNT -> (1 <= p_num_trailers (rb_p r))%nat) ->
  set_init_pos r (start_at dx dy th1 th2) = (set_x0 r (Some (pose_vector r (-21/4 + dx - p_l1 (rb_p r) * cos th1) (2 + dy) th1 th2)), Ok tt).
Proof.
  intros r dx dy th1 th2 (E1 & E2 & E3) HN.
  assert (B : base_init_pos (rb_p r) (rb_env r) (start_at dx dy th1 th2) = Ok [-21/4 + dx - p_l1 (rb_p r) * cos th1; 2 + dy; th1; th2]).
  { unfold base_init_pos. rewrite E1, E2, String.eqb_refl. cbn [start_at i_dx i_dy i_th1 i_th2 default_parking pk_tgt convert_all].
    assert (C : forall n, get_parking_space_center (rb_env r) n = space_center (-16) default_parking n).
    { intros n. unfold get_parking_space_center. rewrite E1, E2, E3. reflexivity. }
    rewrite !C.
    assert (C3 : exists u v, space_center (-16) default_parking 3 = Ok (u, v) /\ u = -21/4 /\ v = -17/2).
    { do 2 eexists. split; [reflexivity|]. split; cbn -[IZR Rdiv Rmult Rplus Rminus Rinv Ropp]; lra. }
    assert (C11 : exists u v, space_center (-16) default_parking 11 = Ok (u, v) /\ u = -21/4 /\ v = -3/2).
    { do 2 eexists. split; [reflexivity|]. split; cbn -[IZR Rdiv Rmult Rplus Rminus Rinv Ropp]; lra. }
    destruct C3 as (u3 & v3 & -> & -> & ->), C11 as (u11 & v11 & -> & -> & ->). cbv beta iota zeta.
    cbn [sort_y fold_left insert_y snd]. destruct (Rleb_spec (-17/2) (-3/2)) as [H|H]; [|lra].
    cbn [last fst snd]. change (pk_len default_parking) with 7. replace (-3 / 2 + 7 / 2 + dy) with (2 + dy) by lra. reflexivity. }
  unfold set_init_pos. rewrite B. unfold pose_vector. cbn [start_at i_v i_delta].
  destruct (rb_kind r); try reflexivity. rewrite augment_pose by (apply HN; reflexivity). reflexivity.
Qed.

(** ** What the scripts leave unchanged *)
Lemma set_init_keeps : forall r a r' u, set_init_pos r a = (r', u) -> exists v, r' = set_x0 r v.
Proof.
  intros r a r' u H. unfold set_init_pos in H. destruct (base_init_pos _ _ _); injection H as <- _; eexists; [reflexivity|].
  instantiate (1 := rb_x0 r). destruct r; reflexivity.
Qed.
Lemma set_goal_keeps : forall r a r' u, set_goal_pos r a = (r', u) -> exists v, r' = set_xg r v.
Proof. intros r a r' u H. unfold set_goal_pos in H. injection H as <- _. eexists; reflexivity. Qed.
Lemma andthen_inv : forall x k r, andthen x k = Ok r -> exists r' u, x = (r', Ok u) /\ k r' = Ok r.
Proof. intros [r' [u|e]] k r H; [exists r', u; split; [reflexivity|exact H]|discriminate]. Qed.

(** Everything but start and goal. *)
Definition same_robot (r r' : robot) : Prop :=
  rb_kind r' = rb_kind r /\ rb_p r' = rb_p r /\ rb_env r' = rb_env r /\ rb_circ r' = rb_circ r /\ rb_rect r' = rb_rect r /\
  rb_amax r' = rb_amax r /\ rb_omax r' = rb_omax r /\ rb_len r' = rb_len r /\ rb_front r' = rb_front r /\ rb_rear r' = rb_rear r.
Lemma same_refl : forall r, same_robot r r. Proof. intros r. repeat split. Qed.
Lemma same_trans : forall a b c, same_robot a b -> same_robot b c -> same_robot a c.
Proof. unfold same_robot. intros a b c H1 H2. intuition congruence. Qed.
Lemma same_x0 : forall r v, same_robot r (set_x0 r v). Proof. intros. repeat split. Qed.
Lemma same_xg : forall r v, same_robot r (set_xg r v). Proof. intros. repeat split. Qed.
Lemma same_init : forall r a r' u, set_init_pos r a = (r', u) -> same_robot r r' /\ rb_xg r' = rb_xg r.
Proof. intros r a r' u H. destruct (set_init_keeps _ _ _ _ H) as [v ->]. split; [apply same_x0|reflexivity]. Qed.
Lemma same_goal : forall r a r' u, set_goal_pos r a = (r', u) -> same_robot r r' /\ rb_x0 r' = rb_x0 r.
Proof. intros r a r' u H. destruct (set_goal_keeps _ _ _ _ H) as [v ->]. split; [apply same_xg|reflexivity]. Qed.

Lemma own_env_lot : forall g r, get_env g = Ok r -> g_env g = None -> g_case g = "parking" ->
  in_default_lot (rb_env r) /\ lot_obstacles (rb_circ r) (rb_rect r) /\ fresh_obstacles "parking" r.
Proof.
  intros g r H E C. pose proof (own_env g r H E) as O. rewrite C in O.
  destruct (l_C31_robot_and_environment_agree g r [] H) as [A B]. cbn in A, B.
  split; [injection O as <-; split; [reflexivity|split; [reflexivity|cbn -[IZR Rdiv Rmult Rplus Rminus Rinv Ropp]; lra]]|]. split.
  - split.
    + intros k Hk. rewrite A in Hk. exact (default_circles _ _ O Hk).
    + intros o Ho. rewrite B in Ho. injection O as E0. rewrite <- E0 in Ho. exact Ho.
  - exists (rb_env r). auto.
Qed.

Lemma get_env_nt : forall g r, get_env g = Ok r -> rb_kind r = KNT -> (2 <= p_num_trailers (rb_p r))%nat.
Proof.
  intros g r H K. destruct (l_C33_class_and_parameters g r H) as (_ & _ & B & _ & _ & D & _). destruct (D K) as [D1 _].
  destruct (proj1 B K) as [_ B2]. lia.
Qed.
Lemma pose_same : forall r r' x y a b, same_robot r r' -> pose_vector r' x y a b = pose_vector r x y a b.
Proof. intros r r' x y a b (K & P & _). unfold pose_vector. rewrite K, P. reflexivity. Qed.
Lemma env_goal : forall g r, get_env g = Ok r -> g_env g = None -> g_case g = "parking" ->
  rb_xg r = Some (pose_vector r (-21/4) (-17/2) (- PI / 2) (- PI / 2)).
Proof.
  intros g r H E C. destruct (l_C57_parking_defaults g r H C) as (c & n & rest & gx & gy & A & B & D & _ & F).
  destruct (own_env_lot g r H E C) as ((L1 & L2 & L3) & _). rewrite L2 in A. injection A as <-. cbn [pk_tgt default_parking] in B. injection B as <- <-.
  assert (C3 : exists u v, space_center (-16) default_parking 3 = Ok (u, v) /\ u = -21/4 /\ v = -17/2).
  { do 2 eexists. split; [reflexivity|]. split; cbn -[IZR Rdiv Rmult Rplus Rminus Rinv Ropp]; lra. }
  assert (D' : get_parking_space_center (rb_env r) 3 = space_center (-16) default_parking 3).
  { unfold get_parking_space_center. rewrite L1, L2, L3. reflexivity. }
  destruct C3 as (u & v & U & -> & ->). rewrite D', U in D. injection D as -> ->. exact F.
Qed.
Lemma goal_turn : forall r x y a b g1 g2, (rb_kind r = KNT -> (1 <= p_num_trailers (rb_p r))%nat) -> rb_xg r = Some (pose_vector r x y a b) ->
  set_goal_pos r (mkGoal None None (Some g1) (Some g2) 0 0) = (set_xg r (Some (pose_vector r x y g1 g2)), Ok tt).
Proof.
  intros r x y a b g1 g2 N H. unfold set_goal_pos. rewrite H. unfold pose_vector in *. cbn [o_x o_y o_th1 o_th2 o_v o_delta default].
  destruct (rb_kind r); try reflexivity.
  change (jget ([x; y; a] ++ repeat b (p_num_trailers (rb_p r))) 0) with x. change (jget ([x; y; a] ++ repeat b (p_num_trailers (rb_p r))) 1) with y.
  rewrite augment_pose by (apply N; reflexivity). reflexivity.
Qed.

(** The robot the script plans for: start and goal. *)
Lemma script_char : forall c r, text c "case" = "parking" -> script_setup c = Ok r ->
  exists r0, get_env (main_args c) = Ok r0 /\ same_robot r0 r /\
    rb_x0 r = Some (if Z.eqb (int c "motion_preference") (-2) then pose_vector r (-21/4 + -12 - p_l1 (rb_p r) * cos PI) (2 + 1) PI PI
                    else if Z.ltb 1 (int c "num_trailers") then pose_vector r (-21/4 + 25 - p_l1 (rb_p r) * cos (- PI / 8)) (2 + 15) (- PI / 8) 0
                    else pose_vector r (-21/4 + 3 - p_l1 (rb_p r) * cos 0) (2 + 5) 0 0) /\
    let g := if Z.eqb (int c "motion_preference") (-1) || Z.eqb (int c "motion_preference") (-2) then PI / 2 else - PI / 2 in
    rb_xg r = Some (pose_vector r (-21/4) (-17/2) g g).
Proof.
  intros c r C H. unfold script_setup in H. destruct (get_env (main_args c)) as [r0|] eqn:E0; [|discriminate]. exists r0. split; [reflexivity|].
  destruct (own_env_lot _ _ E0 eq_refl C) as (DL & _). pose proof (env_goal _ _ E0 eq_refl C) as G0.
  assert (N0 : rb_kind r0 = KNT -> (1 <= p_num_trailers (rb_p r0))%nat) by (intros K; pose proof (get_env_nt _ _ E0 K); lia).
  clear E0 C. assert (I : forall r1, same_robot r0 r1 -> in_default_lot (rb_env r1) /\ (rb_kind r1 = KNT -> (1 <= p_num_trailers (rb_p r1))%nat)).
  { intros r1 (K & P & E & _). rewrite K, P, E. split; assumption. }
  assert (ST : forall r1 dx dy a b, same_robot r0 r1 -> exists r2, set_init_pos r1 (start_at dx dy a b) = (r2, Ok tt) /\ same_robot r0 r2 /\ rb_xg r2 = rb_xg r1 /\
     rb_x0 r2 = Some (pose_vector r2 (-21/4 + dx - p_l1 (rb_p r2) * cos a) (2 + dy) a b)).
  { intros r1 dx dy a b S. destruct (I r1 S) as [I1 I2]. eexists. split; [apply geo_start; assumption|]. split; [eapply same_trans; [exact S|apply same_x0]|]. split; reflexivity. }
  destruct (ST r0 3 5 0 0 (same_refl r0)) as (r1 & E1 & S1 & Q1 & X1). rewrite E1 in H. cbn [andthen] in H.
  assert (H2 : exists r2, (if Z.ltb 1 (int c "num_trailers") then set_init_pos r1 (start_at 25 15 (- PI / 8) 0) else (r1, Ok tt)) = (r2, Ok tt) /\
     same_robot r0 r2 /\ rb_xg r2 = rb_xg r0 /\
     rb_x0 r2 = Some (if Z.ltb 1 (int c "num_trailers") then pose_vector r2 (-21/4 + 25 - p_l1 (rb_p r2) * cos (- PI / 8)) (2 + 15) (- PI / 8) 0
                    else pose_vector r2 (-21/4 + 3 - p_l1 (rb_p r2) * cos 0) (2 + 5) 0 0)).
  { destruct (Z.ltb 1 (int c "num_trailers")).
    - destruct (ST r1 25 15 (- PI / 8) 0 S1) as (r2 & A & B & D & F). exists r2. rewrite A, D, Q1. auto.
    - exists r1. auto. }
  destruct H2 as (r2 & E2 & S2 & Q2 & X2). rewrite E2 in H. cbn [andthen] in H.
  assert (H3 : exists r3, (if Z.eqb (int c "motion_preference") (-2) then set_init_pos r2 (start_at (-12) 1 PI PI) else (r2, Ok tt)) = (r3, Ok tt) /\
     same_robot r0 r3 /\ rb_xg r3 = rb_xg r0 /\
     rb_x0 r3 = Some (if Z.eqb (int c "motion_preference") (-2) then pose_vector r3 (-21/4 + -12 - p_l1 (rb_p r3) * cos PI) (2 + 1) PI PI
                    else if Z.ltb 1 (int c "num_trailers") then pose_vector r3 (-21/4 + 25 - p_l1 (rb_p r3) * cos (- PI / 8)) (2 + 15) (- PI / 8) 0
                    else pose_vector r3 (-21/4 + 3 - p_l1 (rb_p r3) * cos 0) (2 + 5) 0 0)).
  { destruct (Z.eqb (int c "motion_preference") (-2)).
    - destruct (ST r2 (-12) 1 PI PI S2) as (r3 & A & B & D & F). exists r3. rewrite A, D, Q2. auto.
    - exists r2. auto. }
  clear X1 X2. destruct H3 as (r3 & E3 & S3 & Q3 & X3). rewrite E3 in H. cbn [andthen] in H.
  rewrite <- (pose_same _ _ _ _ _ _ S3), <- Q3 in G0. destruct (I r3 S3) as [_ N3].
  destruct (Z.eqb (int c "motion_preference") (-1) || Z.eqb (int c "motion_preference") (-2)).
  - rewrite (goal_turn r3 _ _ _ _ (PI / 2) (PI / 2) N3 G0) in H. cbn [andthen] in H. injection H as <-. split; [eapply same_trans; [exact S3|apply same_xg]|].
    split; [exact X3|]. reflexivity.
  - cbn [andthen] in H. injection H as <-. split; [exact S3|]. split; [exact X3|exact G0].
Qed.

(** ** C69: what the script plans with *)
Lemma script_same : forall c r, script_setup c = Ok r -> exists r0, get_env (main_args c) = Ok r0 /\ same_robot r0 r.
Proof.
  intros c r H. unfold script_setup in H. destruct (get_env (main_args c)) as [r0|]; [|discriminate]. exists r0. split; [reflexivity|].
  apply andthen_inv in H as (r1 & u1 & A1 & H). apply andthen_inv in H as (r2 & u2 & A2 & H).
  apply andthen_inv in H as (r3 & u3 & A3 & H). apply andthen_inv in H as (r4 & u4 & A4 & H). injection H as <-.
  apply same_init in A1 as [S1 _].
  assert (S2 : same_robot r1 r2).
  { destruct (Z.ltb 1 (int c "num_trailers")); [apply same_init in A2; tauto|injection A2 as <- _; apply same_refl]. }
  assert (S3 : same_robot r2 r3).
  { destruct (Z.eqb (int c "motion_preference") (-2)); [apply same_init in A3; tauto|injection A3 as <- _; apply same_refl]. }
  assert (S4 : same_robot r3 r4).
  { destruct (_ || _); [apply same_goal in A4; tauto|injection A4 as <- _; apply same_refl]. }
  eauto using same_trans.
Qed.
Lemma fresh_env : forall g r, get_env g = Ok r -> g_env g = None -> fresh_obstacles (g_case g) r.
Proof.
  intros g r H E. exists (rb_env r). destruct (l_C31_robot_and_environment_agree g r [] H) as [A B]. cbn in A, B.
  split; [exact (own_env g r H E)|]. auto.
Qed.

(** Whatever the configuration: if the script gets to planning, the robot has every parameter the configuration
    names, the class selected by env_name and num_trailers, and the obstacles of a new environment of the configured
    scenario. *)
Lemma l_C69_settings :
  forall c r, script_setup c = Ok r ->
  (forall name f, In (name, f) named_parameters -> f (rb_p r) = num c name) /\
  p_dmax (rb_p r) = num c "delta_max_deg" * PI / 180 /\
  p_d_thr (rb_p r) = num c "d_thr_factor" * (num c "l1" + num c "lh" + num c "l2") /\
  p_H (rb_p r) = Z.to_nat (int c "Hsample") /\ p_motion (rb_p r) = int c "motion_preference" /\
  p_sh_coll (rb_p r) = flag c "enable_shielded_rollout_collision" /\
  p_sh_hitch (rb_p r) = flag c "enable_shielded_rollout_hitch" /\
  p_proj (rb_p r) = flag c "enable_projection" /\ p_guid (rb_p r) = flag c "enable_guidance" /\
  (rb_kind r = KACC <-> text c "env_name" = "acc_tt2d") /\
  (rb_kind r = KBK <-> (text c "env_name" = "tt2d" /\ int c "num_trailers" = 0%Z) \/ text c "env_name" = "kinematic_bicycle2d") /\
  (rb_kind r = KNT <-> (text c "env_name" = "tt2d" \/ text c "env_name" = "n_trailer2d") /\ (2 <= int c "num_trailers")%Z) /\
  (rb_kind r = KTT <-> text c "env_name" = "tt2d" /\ int c "num_trailers" <> 0%Z /\ (int c "num_trailers" < 2)%Z) /\
  (rb_kind r = KACC -> rb_amax r = num c "a_max" /\ rb_omax r = num c "omega_max") /\
  (rb_kind r = KNT -> Z.of_nat (p_num_trailers (rb_p r)) = int c "num_trailers") /\
  fresh_obstacles (text c "case") r.
Proof.
  intros c r H. destruct (script_same c r H) as (r0 & E & (SK & SP & SE & SC & SR & SA & SO & SL & SF & SB)).
  destruct (l_C33_class_and_parameters _ _ E) as (A & KB & KN & KT & KA & ND & _ & AM & _).
  pose proof (fresh_env _ _ E eq_refl) as FO. rewrite SK, SP, SA, SO.
  unfold as_requested in A.
  destruct A as (A1 & A2 & A3 & A4 & A5 & A6 & A7 & A8 & A9 & A10 & A11 & A12 & A13 & A14 & A15 & A16 & A17 & A18 & A19 & A20 & A21 & A22 & A23 & A24 & A25 &
    A26 & A27 & _ & _ & A30 & A31 & A32 & A33 & A34 & A35 & A36).
  split.
  { intros name f Hi. unfold named_parameters in Hi. cbn [In] in Hi.
    repeat match type of Hi with
    | False => contradiction
    | _ \/ _ => destruct Hi as [Hi|Hi]; [apply pair_equal_spec in Hi as [<- <-]; assumption|]
    end. }
  split; [exact A27|]. split; [exact A30|]. split; [exact A2|]. split; [exact A3|]. split; [exact A5|]. split; [exact A7|]. split; [exact A8|]. split; [exact A9|].
  split; [exact KA|]. split; [exact KB|]. split; [exact KN|]. split; [exact KT|]. split; [exact AM|]. split; [intros K; apply (ND K)|].
  destruct FO as (e & F1 & F2 & F3). exists e. rewrite SC, SR. auto.
Qed.

(** The script gets to planning for every known robot in either scenario. *)
Lemma l_C69_succeeds :
  forall c, text c "case" = "parking" \/ text c "case" = "navigation" ->
  text c "env_name" = "tt2d" \/ (text c "env_name" = "n_trailer2d" /\ (2 <= int c "num_trailers")%Z) \/
  (text c "env_name" = "acc_tt2d" /\ num c "a_max" <> 0) \/ text c "env_name" = "kinematic_bicycle2d" ->
  exists r, script_setup c = Ok r.
Proof.
  intros c HC HN. destruct (l_C33_succeeds (main_args c) eq_refl HC HN) as [r0 E]. unfold script_setup. rewrite E.
  assert (I : forall r1 dx dy a b, same_robot r0 r1 -> exists r2, set_init_pos r1 (start_at dx dy a b) = (r2, Ok tt) /\ same_robot r0 r2).
  { intros r1 dx dy a b S. pose proof S as (SK & SP & SE & _). destruct HC as [HC|HC].
    - destruct (own_env_lot _ _ E eq_refl HC) as (DL & _). eexists. split; [|eapply same_trans; [exact S|apply (same_x0 r1)]].
      apply geo_start; [rewrite SE; exact DL|]. rewrite SK, SP. intros K. pose proof (get_env_nt _ _ E K). lia.
    - pose proof (own_env _ _ E eq_refl) as O. change (g_case (main_args c)) with (text c "case") in O. rewrite HC in O. injection O as O.
      unfold set_init_pos, base_init_pos. rewrite SE, <- O. cbn [e_case String.eqb Ascii.eqb Bool.eqb]. eexists. split; [reflexivity|].
      eapply same_trans; [exact S|apply same_x0]. }
  destruct (I r0 3 5 0 0 (same_refl r0)) as (r1 & -> & S1). cbn [andthen].
  assert (H2 : exists r2, (if Z.ltb 1 (int c "num_trailers") then set_init_pos r1 (start_at 25 15 (- PI / 8) 0) else (r1, Ok tt)) = (r2, Ok tt) /\ same_robot r0 r2)
    by (destruct (Z.ltb 1 (int c "num_trailers")); [apply I; exact S1|eauto]).
  destruct H2 as (r2 & -> & S2). cbn [andthen].
  assert (H3 : exists r3, (if Z.eqb (int c "motion_preference") (-2) then set_init_pos r2 (start_at (-12) 1 PI PI) else (r2, Ok tt)) = (r3, Ok tt) /\ same_robot r0 r3)
    by (destruct (Z.eqb (int c "motion_preference") (-2)); [apply I; exact S2|eauto]).
  destruct H3 as (r3 & -> & S3). cbn [andthen]. destruct (_ || _); eexists; reflexivity.
Qed.

(** Where it starts and what it is asked to reach, in the parking scenario. *)
Lemma l_C69_start_and_goal :
  forall c r, text c "case" = "parking" -> script_setup c = Ok r ->
  let l1 := num c "l1" in
  rb_x0 r = Some (
    if Z.eqb (int c "motion_preference") (-2) then pose_vector r (-69/4 + l1) 3 PI PI
    else if Z.ltb 1 (int c "num_trailers") then pose_vector r (79/4 - l1 * cos (PI / 8)) 17 (- PI / 8) 0
    else pose_vector r (-9/4 - l1) 7 0 0) /\
  rb_xg r = Some (
    if Z.eqb (int c "motion_preference") (-1) || Z.eqb (int c "motion_preference") (-2) then pose_vector r (-21/4) (-17/2) (PI / 2) (PI / 2)
    else pose_vector r (-21/4) (-17/2) (- PI / 2) (- PI / 2)).
Proof.
  intros c r C H. cbv zeta. destruct (script_char c r C H) as (r0 & _ & _ & X & G). cbv zeta in G.
  destruct (l_C69_settings c r H) as (NP & _). rewrite (NP "l1" p_l1) in X by (unfold named_parameters; cbn [In]; tauto).
  rewrite X, G. split; [|destruct (_ || _); reflexivity]. f_equal.
  rewrite cos_PI, cos_0. replace (- PI / 8) with (- (PI / 8)) by lra. rewrite cos_neg.
  destruct (Z.eqb _ (-2)); [|destruct (Z.ltb 1 _)].
  - f_equal; lra.
  - f_equal; lra.
  - f_equal; lra.
Qed.

(** In the navigation scenario there is no lot: the script's distances are ignored and the robot starts at (-3, 0). *)
Lemma l_C69_navigation_start :
  forall c r, text c "case" = "navigation" -> script_setup c = Ok r ->
  rb_x0 r = Some (
    if Z.eqb (int c "motion_preference") (-2) then pose_vector r (-3) 0 PI PI
    else if Z.ltb 1 (int c "num_trailers") then pose_vector r (-3) 0 (- PI / 8) 0
    else pose_vector r (-3) 0 0 0).
Proof.
  intros c r C H. unfold script_setup in H. destruct (get_env (main_args c)) as [r0|] eqn:E; [|discriminate].
  pose proof (own_env _ _ E eq_refl) as O. change (g_case (main_args c)) with (text c "case") in O. rewrite C in O. injection O as O.
  assert (N0 : rb_kind r0 = KNT -> (1 <= p_num_trailers (rb_p r0))%nat) by (intros K; pose proof (get_env_nt _ _ E K); lia). clear E.
  assert (I : forall r1 dx dy a b, same_robot r0 r1 -> exists r2, set_init_pos r1 (start_at dx dy a b) = (r2, Ok tt) /\ same_robot r0 r2 /\
    rb_x0 r2 = Some (pose_vector r2 (-3) 0 a b)).
  { intros r1 dx dy a b S. pose proof S as (SK & SP & SE & _).
    assert (B : base_init_pos (rb_p r1) (rb_env r1) (start_at dx dy a b) = Ok [-3; 0; a; b]).
    { unfold base_init_pos. rewrite SE, <- O. reflexivity. }
    unfold set_init_pos. rewrite B. eexists. split; [reflexivity|]. split; [eapply same_trans; [exact S|apply same_x0]|].
    unfold pose_vector. cbn [set_x0 rb_x0 rb_kind rb_p start_at i_v i_delta]. rewrite SK, SP.
    destruct (rb_kind r0); try reflexivity. rewrite augment_pose by (apply N0; reflexivity). reflexivity. }
  destruct (I r0 3 5 0 0 (same_refl r0)) as (r1 & E1 & S1 & X1). rewrite E1 in H. cbn [andthen] in H.
  assert (H2 : exists r2, (if Z.ltb 1 (int c "num_trailers") then set_init_pos r1 (start_at 25 15 (- PI / 8) 0) else (r1, Ok tt)) = (r2, Ok tt) /\ same_robot r0 r2 /\
    rb_x0 r2 = Some (if Z.ltb 1 (int c "num_trailers") then pose_vector r2 (-3) 0 (- PI / 8) 0 else pose_vector r2 (-3) 0 0 0))
    by (destruct (Z.ltb 1 (int c "num_trailers")); [apply I; exact S1|eauto]).
  destruct H2 as (r2 & E2 & S2 & X2). rewrite E2 in H. cbn [andthen] in H.
  assert (H3 : exists r3, (if Z.eqb (int c "motion_preference") (-2) then set_init_pos r2 (start_at (-12) 1 PI PI) else (r2, Ok tt)) = (r3, Ok tt) /\
    rb_x0 r3 = Some (if Z.eqb (int c "motion_preference") (-2) then pose_vector r3 (-3) 0 PI PI
                     else if Z.ltb 1 (int c "num_trailers") then pose_vector r3 (-3) 0 (- PI / 8) 0 else pose_vector r3 (-3) 0 0 0)).
  { destruct (Z.eqb (int c "motion_preference") (-2)); [|eauto]. destruct (I r2 (-12) 1 PI PI S2) as (r3 & A & _ & B). eauto. }
  destruct H3 as (r3 & E3 & X3). rewrite E3 in H. cbn [andthen] in H.
  destruct (_ || _) in H.
  - destruct (set_goal_pos r3 _) as [r4 u] eqn:E4 in H. destruct (set_goal_keeps _ _ _ _ E4) as [v ->]. destruct u; [|discriminate]. injection H as <-. exact X3.
  - injection H as <-. exact X3.
Qed.

(** ** The start is safe *)
Ltac in_list := repeat first [left; reflexivity | right].
Lemma kept : forall l c f t v, keeps l c -> In f l -> In (f, t, v) dataclass_fields -> c f = Some v.
Proof. intros l c f t v K A B. exact (K f t v A B). Qed.
Lemma named : forall c r name f, script_setup c = Ok r -> In (name, f) named_parameters -> f (rb_p r) = num c name.
Proof. intros c r name f H I. destruct (l_C69_settings c r H) as (NP & _). exact (NP name f I). Qed.
Lemma script_phi : forall c r, script_setup c = Ok r -> p_phi_max (rb_p r) = 40 * PI / 180.
Proof.
  intros c r H. destruct (script_same c r H) as (r0 & E & (_ & -> & _)). destruct (l_C33_class_and_parameters _ _ E) as (A & _).
  unfold as_requested in A. tauto.
Qed.
Definition usual_dims (p : params) : Prop :=
  p_l1 p = 323/100 /\ p_l2 p = 29/10 /\ p_lh p = 23/20 /\ p_lf1 p = 9/10 /\ p_lr p = 231/125 /\ p_lf2 p = 71/50 /\ p_lr2 p = 129/40 /\
  p_trac_w p = 2 /\ p_trail_w p = 5/2 /\ p_phi_max p = 40 * PI / 180.
Lemma script_dims : forall c r, keeps lot_and_vehicle c -> script_setup c = Ok r -> usual_dims (rb_p r) /\ text c "case" = "parking".
Proof.
  intros c r K H. split.
  - assert (V : forall name f x, In name lot_and_vehicle -> In (name, f) named_parameters -> In (name, TFloat, VFloat x) dataclass_fields -> f (rb_p r) = x).
    { intros name f x A B D. rewrite (named c r name f H B). unfold num. rewrite (K name TFloat (VFloat x) A D). reflexivity. }
    unfold usual_dims.
    rewrite (V "l1" p_l1 (323/100)), (V "l2" p_l2 (29/10)), (V "lh" p_lh (23/20)), (V "lf1" p_lf1 (9/10)), (V "lr" p_lr (231/125)), (V "lf2" p_lf2 (71/50)),
      (V "lr2" p_lr2 (129/40)), (V "tractor_width" p_trac_w 2), (V "trailer_width" p_trail_w (5/2)) by in_list.
    rewrite (script_phi c r H). repeat split.
  - unfold text. rewrite (K "case" TStr (VStr "parking")) by in_list. reflexivity.
Qed.
Lemma level_tractor_zone : forall p x y th P, sin th = 0 -> p_trac_w p <= 5/2 -> in_level y -> solid (tractor_body p x y th) P -> zone P.
Proof. intros p x y th P S W L HP. refine (level_zone _ y P _ _ _ L HP); unfold tractor_body; cbn [rg_ang rg_org rg_half snd]; [exact S|reflexivity|lra]. Qed.
Lemma eighth : 0 <= cos (PI / 8) <= 1 /\ 0 <= sin (PI / 8) <= 1/2.
Proof.
  pose proof PI_RGT_0. pose proof PI_4. split.
  - split; [apply cos_ge_0; lra|apply COS_bound].
  - split; [apply sin_ge_0; lra|]. pose proof (sin_lt_x (PI / 8) ltac:(lra)). lra.
Qed.
Lemma slanted_zone : forall p P, usual_dims p -> solid (tractor_body p (79/4 - p_l1 p * cos (PI / 8)) 17 (- PI / 8)) P -> zone P.
Proof.
  intros p P (L1 & _ & _ & LF & LR & _ & _ & TW & _) (a & b & A & B & ->).
  unfold tractor_body in *. cbn [rg_back rg_front rg_half rg_org rg_ang] in *. unfold at_frame, zone. cbn [fst snd].
  replace (- PI / 8) with (- (PI / 8)) by lra. rewrite cos_neg, sin_neg. rewrite L1, LF, LR, TW in *.
  destruct eighth as [C S]. set (u := cos (PI / 8)) in *. set (v := sin (PI / 8)) in *. clearbody u v.
  assert (M1 : - (1/2) <= b * v <= 1/2).
  { apply Rabs_le_both. rewrite Rabs_mult. replace (1/2) with (1 * (1/2)) by lra. apply Rmult_le_compat; try apply Rabs_pos; apply Rabs_le; lra. }
  assert (M2 : - 1 <= b * u <= 1).
  { apply Rabs_le_both. rewrite Rabs_mult. replace 1 with (1 * 1) by lra. apply Rmult_le_compat; try apply Rabs_pos; apply Rabs_le; lra. }
  assert (M3 : - (413/200) <= a * v <= 413/200).
  { apply Rabs_le_both. rewrite Rabs_mult. replace (413/200) with (413/100 * (1/2)) by lra. apply Rmult_le_compat; try apply Rabs_pos; apply Rabs_le; lra. }
  replace (b * - v) with (- (b * v)) by ring. replace (a * - v) with (- (a * v)) by ring.
  split; [lra|]. destruct (Rlt_le_dec 15 (79 / 4 - 323 / 100 * u + a * u - - (b * v))) as [X|X]; [right; right; exact X|right; left].
  assert (A0 : a < 0).
  { destruct (Rlt_le_dec a 0) as [A0|A0]; [exact A0|exfalso]. assert (0 <= a * u) by (apply Rmult_le_pos; lra). lra. }
  assert (a * v <= 0) by (assert (0 <= (- a) * v) by (apply Rmult_le_pos; lra); lra). lra.
Qed.
(** For every robot, any number of trailers and any preferred direction of motion: with the default lot and the
    default vehicle dimensions, the script's start is a safe pose, at rest. *)
Lemma l_C69_start_safe :
  forall c r, keeps lot_and_vehicle c -> script_setup c = Ok r -> starts_safe r.
Proof.
  intros c r K H. destruct (script_dims c r K H) as [D C]. destruct (l_C69_start_and_goal c r C H) as [X _]. cbv zeta in X.
  destruct (script_same c r H) as (r0 & E & S). destruct (own_env_lot _ _ E eq_refl C) as (_ & LO & _).
  assert (LO' : lot_obstacles (rb_circ r) (rb_rect r)) by (destruct S as (_ & _ & _ & -> & -> & _); exact LO).
  pose proof D as (L1 & L2 & LH & LF & LR & LF2 & LR2 & TW & TW2 & PH). pose proof PI_RGT_0 as P0.
  rewrite <- (named c r "l1" p_l1 H) in X by in_list.
  destruct (Z.eqb _ (-2)); [|destruct (Z.ltb 1 _)].
  - apply (pose_safe r _ _ _ _ X LO'); rewrite ?TW, ?TW2, ?PH, ?LH; try lra.
    + intros P. apply level_tractor_zone; [apply sin_PI|lra|]. unfold in_level. lra.
    + apply sin_PI.
    + rewrite sin_PI. unfold in_level. lra.
    + apply hitch_ok_zero. lra.
  - destruct eighth as [_ SS]. apply (pose_safe r _ _ _ _ X LO'); rewrite ?TW, ?TW2, ?PH, ?LH; try lra.
    + intros P. apply slanted_zone. exact D.
    + apply sin_0.
    + replace (- PI / 8) with (- (PI / 8)) by lra. rewrite sin_neg. unfold in_level. lra.
    + exists 0%Z. replace (- PI / 8 - 0 + 0 * (2 * PI)) with (- (PI / 8)) by lra. rewrite Rabs_Ropp, Rabs_pos_eq; lra.
  - apply (pose_safe r _ _ _ _ X LO'); rewrite ?TW, ?TW2, ?PH, ?LH; try lra.
    + intros P. apply level_tractor_zone; [apply sin_0|lra|]. unfold in_level. lra.
    + apply sin_0.
    + rewrite sin_0. unfold in_level. lra.
    + apply hitch_ok_zero. lra.
Qed.

(** ** What it returns *)
Lemma dims_sized : forall p, usual_dims p -> tt_sized p.
Proof. intros p (L1 & L2 & LH & LF & LR & LF2 & LR2 & TW & TW2 & PH). unfold tt_sized, tractor_sized. rewrite L1, LF, LR, LF2, LR2, TW, TW2. lra. Qed.
Lemma env_arrays : forall g r0 r i, get_env g = Ok r0 -> same_robot r0 r -> rb_kind r = KNT -> (i < p_num_trailers (rb_p r))%nat ->
  nth i (rb_front r) 0 = p_lf2 (rb_p r) /\ (nth i (rb_rear r) 0 = p_lr2 (rb_p r) \/ nth i (rb_rear r) 0 = p_lr (rb_p r)).
Proof.
  intros g r0 r i E (SK & SP & SE & SC & SR & SA & SO & SL & SF & SB) K Hi.
  rewrite SF, SB, SP. rewrite SK in K. rewrite SP in Hi. destruct (l_C33_class_and_parameters _ _ E) as (A & _ & _ & _ & _ & ND & _). destruct (ND K) as [N1 _].
  destruct (l_C33_trailer_arrays _ _ i E K ltac:(lia)) as (_ & F & B). unfold as_requested in A.
  destruct A as (_ & _ & _ & _ & _ & _ & _ & _ & _ & _ & _ & _ & _ & _ & _ & _ & _ & _ & _ & _ & A21 & A22 & A23 & _). rewrite A21, A22, A23.
  rewrite (nth_error_nth _ _ 0 F), (nth_error_nth _ _ 0 B). split; [reflexivity|]. destruct (Z.eqb _ _); auto.
Qed.
Lemma env_lengths : forall g r0 r, get_env g = Ok r0 -> same_robot r0 r -> rb_kind r = KNT -> (2 <= p_num_trailers (rb_p r))%nat /\
  length (rb_len r) = p_num_trailers (rb_p r) /\ length (rb_front r) = p_num_trailers (rb_p r) /\ length (rb_rear r) = p_num_trailers (rb_p r).
Proof.
  intros g r0 r E (SK & SP & SE & SC & SR & SA & SO & SL & SF & SB) K. rewrite SL, SF, SB, SP. rewrite SK in K.
  split; [exact (get_env_nt _ _ E K)|]. destruct (l_C33_class_and_parameters _ _ E) as (_ & _ & _ & _ & _ & ND & _). apply (ND K).
Qed.
Lemma plans : forall c g r0 r, get_env g = Ok r0 -> same_robot r0 r -> usual_dims (rb_p r) -> starts_safe r ->
  p_sh_coll (rb_p r) = true -> p_sh_hitch (rb_p r) = true -> p_proj (rb_p r) = false -> p_guid (rb_p r) = false ->
  (exists gx gy h, rb_xg r = Some (pose_vector r gx gy h h)) -> plans_safely c r.
Proof.
  intros c ea r0 r E S D SS SC SH PJ GD (gx & gy & g & G). pose proof (dims_sized _ D) as SZ.
  unfold starts_safe in SS. unfold pose_vector in G.
  split; [|split]; intros KD; rewrite KD in SS, G.
  - destruct SS as (x0 & X0 & S0). exists x0, (mkTT gx gy g g). split; [exact X0|]. split; [exact G|]. intros proj guide logpd rx rg.
    eexists. split; [reflexivity|]. refine (l_C01_tt_returned_trajectory_safe (mkTTSelf (rb_p r) (rb_circ r) (rb_rect r) _) _ _ _ _ _ _ _ _ _ _ _ _ _ _ eq_refl);
      assumption.
  - destruct SS as (x0 & X0 & S0). exists x0, (mkBK gx gy g). split; [exact X0|]. split; [exact G|]. intros proj guide logpd rx rg.
    eexists. split; [reflexivity|]. refine (l_C01_bk_returned_trajectory_safe (mkBKSelf (rb_p r) (rb_circ r) (rb_rect r) _) _ _ _ _ _ _ _ _ _ _ _ _ _ eq_refl);
      try assumption. apply SZ.
  - destruct SS as (x0 & X0 & L0 & S0). exists x0, (mkNT gx gy g (repeat g (p_num_trailers (rb_p r)))). split; [exact X0|]. split; [exact G|]. cbv zeta.
    intros guide logpd rx rg. destruct (env_lengths ea r0 r E S KD) as (N1 & N2 & N3 & N4).
    set (s := mkNTSelf _ _ _ _ _ _ _).
    assert (R : exists out, nt_run s x0 guide logpd rx (planner_cfg c) rg = Ok out).
    { unfold nt_run. change (ns_N s) with (p_num_trailers (rb_p r)). change (p_proj (ns_p s)) with (p_proj (rb_p r)). rewrite L0, Nat.eqb_refl, PJ. eexists; reflexivity. }
    destruct R as [out R]. exists out. split; [exact R|].
    assert (NS : nt_sized s).
    { unfold nt_sized. change (ns_p s) with (rb_p r). change (ns_len s) with (rb_len r). change (ns_front s) with (rb_front r). change (ns_rear s) with (rb_rear r).
      split; [apply SZ|]. split; [apply SZ|]. do 3 (split; [assumption|]). intros i Hi. destruct (env_arrays ea r0 r i E S KD Hi) as [-> B].
      destruct D as (L1 & L2 & LH & LF & LR & LF2 & LR2 & _). destruct B as [->| ->]; lra. }
    assert (Q : Forall (fun q => nt_safe s q /\ length (n_ths q) = p_num_trailers (ns_p s)) (o_traj out)).
    { refine (l_C01_nt_returned_trajectory_safe s x0 guide logpd rx (planner_cfg c) rg out GD SC SH NS _ (S0 _) R). exact (Nat.le_trans 1 2 _ ltac:(lia) N1). }
    revert Q. apply Forall_impl. tauto.
Qed.

(** With the default lot and dimensions, both shields on and neither projection nor guidance, every state of the
    trajectory the script gets back is safe: tractor-trailer, car and rigs of any number of trailers, whatever the
    other settings, the preferred direction and the random numbers. *)
Lemma l_C69_plans_safe :
  forall c r, keeps lot_and_vehicle c ->
  keeps ["enable_shielded_rollout_collision"; "enable_shielded_rollout_hitch"; "enable_projection"; "enable_guidance"] c ->
  script_setup c = Ok r -> plans_safely c r.
Proof.
  intros c r K F H. pose proof (l_C69_start_safe c r K H) as SS. destruct (script_dims c r K H) as [D C].
  destruct (l_C69_settings c r H) as (_ & _ & _ & _ & _ & SC & SH & PJ & GD & _).
  unfold flag in SC, SH, PJ, GD.
  rewrite (F "enable_shielded_rollout_collision" TBool (VBool true)) in SC by in_list.
  rewrite (F "enable_shielded_rollout_hitch" TBool (VBool true)) in SH by in_list.
  rewrite (F "enable_projection" TBool (VBool false)) in PJ by in_list.
  rewrite (F "enable_guidance" TBool (VBool false)) in GD by in_list.
  destruct (l_C69_start_and_goal c r C H) as [_ XG]. destruct (script_same c r H) as (r0 & E & S).
  apply (plans c (main_args c) r0 r); try assumption. destruct (_ || _) in XG; eauto.
Qed.

(** The acceleration-controlled vehicle (the default of MBDConfig): the run returns H+1 states and H controls; it
    starts at rest in the safe start pose, and is still in it after the first step. (That the later states are safe
    does not hold in general: C23.) *)
Lemma l_C69_acceleration_run :
  forall c r, keeps lot_and_vehicle c -> keeps ["enable_projection"; "enable_guidance"] c ->
  script_setup c = Ok r -> rb_kind r = KACC -> 0 <= num c "v_max" -> 0 <= num c "delta_max_deg" ->
  exists x0 xg, rb_x0 r = Some [t_px x0; t_py x0; t_th1 x0; t_th2 x0; 0; 0] /\ rb_xg r = Some [t_px xg; t_py xg; t_th1 xg; t_th2 xg; 0; 0] /\
    tt_safe (rb_p r) (rb_circ r) (rb_rect r) x0 /\
    let s := mkAccSelf (mkTTSelf (rb_p r) (rb_circ r) (rb_rect r) xg) (rb_amax r) (rb_omax r) in
    forall proj guide logpd rx rg, exists out,
    run_diffusion (acc_penv s (mkAcc x0 0 0) proj guide logpd rx) (Some (planner_cfg c)) rg = Ok out /\
    length (o_Y0 out) = Z.to_nat (int c "Hsample") /\ length (o_traj out) = S (Z.to_nat (int c "Hsample")) /\
    nth_error (o_traj out) 0 = Some (mkAcc x0 0 0) /\
    (forall q, nth_error (o_traj out) 1 = Some q -> a_q q = x0).
Proof.
  intros c r K F H KD VM DM. pose proof (l_C69_start_safe c r K H) as SS. destruct (script_dims c r K H) as [D C].
  destruct (l_C69_settings c r H) as (NP & DX & _ & _ & _ & _ & _ & PJ & GD & _).
  unfold flag in PJ, GD. pose proof (F "enable_guidance" TBool (VBool false) ltac:(in_list) ltac:(in_list)) as FG.
  rewrite (F "enable_projection" TBool (VBool false)) in PJ by in_list. rewrite FG in GD.
  destruct (l_C69_start_and_goal c r C H) as [_ XG].
  assert (G : exists gx gy g, rb_xg r = Some (pose_vector r gx gy g g)) by (destruct (_ || _) in XG; eauto).
  destruct G as (gx & gy & g & G). unfold starts_safe in SS. unfold pose_vector in G. clear XG. rewrite KD in SS, G.
  destruct SS as (x0 & X0 & S0). exists x0, (mkTT gx gy g g). do 3 (split; [assumption|]). cbv zeta. intros proj guide logpd rx rg.
  set (s := mkAccSelf _ _ _).
  destruct (run_lengths (acc_penv s (mkAcc x0 0 0) proj guide logpd rx) c rg) as (out & E & LY & LT). exists out. do 3 (split; [assumption|]).
  assert (V1 : 0 <= p_vmax (as_p s)) by (change (p_vmax (as_p s)) with (p_vmax (rb_p r)); rewrite (NP "v_max" p_vmax) by in_list; exact VM).
  assert (V2 : 0 <= p_dmax (as_p s)).
  { change (p_dmax (as_p s)) with (p_dmax (rb_p r)). rewrite DX. unfold Rdiv. pose proof PI_RGT_0.
    apply Rmult_le_pos; [apply Rmult_le_pos; lra|lra]. }
  injection E as <-. unfold run_diffusion_core in *. destruct (reverse_loop _ _ _ _ _ _) as [Ys Yf]. cbn [o_Y0 o_traj] in *.
  assert (GG : Planner.g_guid (planner_cfg c) = false) by (unfold planner_cfg; cbn [Planner.g_guid]; unfold flag; rewrite FG; reflexivity).
  rewrite GG. set (Y0 := snd (rollout_term _ Yf)) in *. clearbody Y0. unfold trajectory_states. split; [reflexivity|].
  intros q Hq. destruct Y0 as [|u us]; [discriminate|]. cbn [replay nth_error] in Hq. injection Hq as <-.
  change (pe_step (acc_penv s (mkAcc x0 0 0) proj guide logpd rx)) with (acc_step s proj guide).
  change (pe_reset (acc_penv s (mkAcc x0 0 0) proj guide logpd rx)) with (reset_state (mkAcc x0 0 0)).
  destruct (l_C23_at_rest_stays_safe_partial s proj guide (reset_state (mkAcc x0 0 0)) u PJ GD V1 V2 eq_refl) as [R _]. exact R.
Qed.

(** C69 (finding): asked to park backwards (motion_preference -1 or -2), the script sets a goal at which the trailer
    stands in the wall behind the lot: no safe pose has its trailer there. *)
Lemma l_C69_backward_goal_safe_refuted :
  forall c r, keeps lot_and_vehicle c -> script_setup c = Ok r -> (rb_kind r = KTT \/ rb_kind r = KACC) ->
  (int c "motion_preference" = -1 \/ int c "motion_preference" = -2)%Z ->
  exists goal, rb_xg r = Some (pose_vector r (t_px goal) (t_py goal) (t_th1 goal) (t_th2 goal)) /\
    let trailer q := trailer_body (ahead (t_px q, t_py q) (t_th1 q) (- p_lh (rb_p r))) (t_th2 q)
                       (p_l2 (rb_p r)) (p_lf2 (rb_p r)) (p_lr2 (rb_p r)) (p_trail_w (rb_p r)) in
    forall q, trailer q = trailer goal -> ~ tt_safe (rb_p r) (rb_circ r) (rb_rect r) q.
Proof.
  intros c r K H KD M. destruct (script_dims c r K H) as [D C]. destruct (l_C69_start_and_goal c r C H) as [_ XG].
  assert (B : (Z.eqb (int c "motion_preference") (-1) || Z.eqb (int c "motion_preference") (-2) = true)%bool) by (destruct M as [->| ->]; reflexivity).
  rewrite B in XG. exists (mkTT (-21/4) (-17/2) (PI/2) (PI/2)). split; [exact XG|]. cbv zeta. intros q G [[_ S] _].
  destruct (script_same c r H) as (r0 & E & SR). destruct (own_env_lot _ _ E eq_refl C) as (_ & _ & (e & O & _ & R0)).
  assert (W : In (mkRect 0 (-14) 30 1 0) (rb_rect r)).
  { destruct SR as (_ & _ & _ & _ & -> & _). rewrite R0. injection O as <-. right. left. reflexivity. }
  refine (S _ _ (or_intror (or_introl eq_refl)) W (-21/4, -14) _). rewrite G. cbn [t_px t_py t_th1 t_th2].
  destruct D as (L1 & L2 & LH & LF & LR & LF2 & LR2 & TW & TW2 & PH). split.
  - exists (-14 - (-17/2 - 23/20 - 29/10)), 0. unfold trailer_body, at_frame, ahead. cbn [rg_back rg_front rg_half rg_org rg_ang fst snd].
    rewrite cos_PI2, sin_PI2, L2, LH, LF2, LR2, TW2. split; [lra|]. split; [lra|]. f_equal; lra.
  - exists (-21/4), 0. unfold obstacle_body, at_frame. cbn [rg_back rg_front rg_half rg_org rg_ang r_x r_y r_w r_h r_ang fst snd].
    rewrite cos_0, sin_0. split; [lra|]. split; [lra|]. f_equal; lra.
Qed.

(** The unedited configuration: the acceleration-controlled vehicle, 50 steps, starting 5.48 m left of the lot's
    centre and 5 m above its entrance. *)
Lemma unedited_keeps : forall c l, unedited c -> keeps l c.
Proof. intros c l U f t v _ I. exact (U f t v I). Qed.
Lemma x_C69_default_run :
  exists c r, unedited c /\ script_setup c = Ok r /\ rb_kind r = KACC /\ rb_x0 r = Some [-137/25; 7; 0; 0; 0; 0] /\
    int c "Hsample" = 50%Z /\ starts_safe r.
Proof.
  exists (with_defaults []). 
  assert (U : unedited (with_defaults [])).
  { intros f t v I. unfold dataclass_fields in I. cbn [In] in I.
    repeat match type of I with
    | False => contradiction
    | _ \/ _ => destruct I as [I|I]; [apply pair_equal_spec in I as [I <-]; apply pair_equal_spec in I as [<- _]; reflexivity|]
    end. }
  destruct (l_C69_succeeds (with_defaults [])) as [r E].
  { left. reflexivity. }
  { right. right. left. split; [reflexivity|]. unfold num. cbn. lra. }
  exists r. split; [exact U|]. split; [exact E|].
  destruct (l_C69_settings _ _ E) as (_ & _ & _ & _ & _ & _ & _ & _ & _ & KA & _).
  assert (KD : rb_kind r = KACC) by (apply KA; reflexivity). split; [exact KD|]. split; [|split].
  - destruct (l_C69_start_and_goal (with_defaults []) r eq_refl E) as [X _]. cbv zeta in X. rewrite X. unfold pose_vector. rewrite KD.
    change (Z.eqb (int (with_defaults []) "motion_preference") (-2)) with false. change (Z.ltb 1 (int (with_defaults []) "num_trailers")) with false.
    cbv iota. change (num (with_defaults []) "l1") with (323/100). replace (-9/4 - 323/100) with (-137/25) by lra. reflexivity.
  - reflexivity.
  - exact (l_C69_start_safe _ r (unedited_keeps _ _ U) E).
Qed.
(** A rig of three trailers, and the one-trailer vehicle asked to park backwards. *)
Lemma x_C69_three_trailers :
  exists c r, c = with_defaults [("env_name", VStr "n_trailer2d"); ("num_trailers", VInt 3); ("motion_preference", VInt (-1))] /\
    keeps lot_and_vehicle c /\ script_setup c = Ok r /\ rb_kind r = KNT /\ p_num_trailers (rb_p r) = 3%nat /\ starts_safe r.
Proof.
  eexists. destruct (l_C69_succeeds (with_defaults [("env_name", VStr "n_trailer2d"); ("num_trailers", VInt 3); ("motion_preference", VInt (-1))])) as [r E].
  { left. reflexivity. }
  { right. left. split; [reflexivity|]. unfold int. cbn. lia. }
  exists r. split; [reflexivity|].
  assert (K : keeps lot_and_vehicle (with_defaults [("env_name", VStr "n_trailer2d"); ("num_trailers", VInt 3); ("motion_preference", VInt (-1))])).
  { intros f t v F I. unfold dataclass_fields in I. cbn [In] in I. unfold lot_and_vehicle in F. cbn [In] in F.
    repeat match type of I with
    | False => contradiction
    | _ \/ _ => destruct I as [I|I]; [apply pair_equal_spec in I as [I <-]; apply pair_equal_spec in I as [<- _]; first [reflexivity|exfalso; intuition discriminate]|]
    end. }
  split; [exact K|]. split; [exact E|].
  destruct (l_C69_settings _ _ E) as (_ & _ & _ & _ & _ & _ & _ & _ & _ & _ & _ & KN & _ & _ & N & _).
  assert (KD : rb_kind r = KNT) by (apply KN; split; [right; reflexivity|unfold int; cbn; lia]). split; [exact KD|]. split.
  - specialize (N KD). unfold int in N. cbn in N. lia.
  - exact (l_C69_start_safe _ r K E).
Qed.
