(** * ProofsHarnessRun: the environment, the verdict and the safety of the integration tests. *)
From Coq Require Import String.
From Verif Require Import Base BaseFacts Params Geom TT2d Acc Rollout Instances EnvModel Setup Stats Config Tune Planner
  Harness SpecHarness SpecGeom SpecBodies SpecAcc SpecEnv SpecStats SpecDefaults
  ProofsGeom ProofsBodies ProofsSafety ProofsAcc ProofsEnv ProofsSetup ProofsDefaults ProofsStats ProofsPlanner ProofsPicture ProofsHarness.
Local Open Scope string_scope.
Local Open Scope list_scope.
Open Scope R_scope.

(** ** The test environment *)
Lemma create_inv : forall c r, create_test_environment c = Ok r ->
  exists e r0, setup_parking_environment c = Ok e /\ get_env (test_args (tc_mbd c)) = Ok r0 /\
    rb_kind r = rb_kind r0 /\ rb_p r = rb_p r0 /\ rb_env r = e /\ rb_circ r = e_circles e /\ rb_rect r = e_rects e /\
    rb_amax r = rb_amax r0 /\ rb_omax r = rb_omax r0 /\
    (forall dx dy th1 th2, tc_dx c = Some dx -> tc_dy c = Some dy -> tc_th1 c = Some th1 -> tc_th2 c = Some th2 ->
       snd (set_init_pos (put_env r0 e) (mkInit None None (Some dx) (Some dy) th1 th2 0 0)) = Ok tt /\
       rb_x0 r = rb_x0 (fst (set_init_pos (put_env r0 e) (mkInit None None (Some dx) (Some dy) th1 th2 0 0)))) /\
    (forall g1 g2, tc_g1 c = Some g1 -> tc_g2 c = Some g2 ->
       rb_xg r = rb_xg (fst (set_goal_pos r0 (mkGoal None None (Some g1) (Some g2) 0 0)))).
Proof.
  intros c r H. unfold create_test_environment in H.
  destruct (setup_parking_environment c) as [e|] eqn:Ee; [|discriminate].
  destruct (get_env (test_args (tc_mbd c))) as [r0|] eqn:Er; [|discriminate]. exists e, r0. do 2 (split; [reflexivity|]).
  set (start := match tc_dx c with Some dx => _ | None => _ end) in H.
  assert (S : exists v res, start = (set_x0 (put_env r0 e) v, res) /\
    (forall dx dy th1 th2, tc_dx c = Some dx -> tc_dy c = Some dy -> tc_th1 c = Some th1 -> tc_th2 c = Some th2 ->
       start = set_init_pos (put_env r0 e) (mkInit None None (Some dx) (Some dy) th1 th2 0 0))).
  { assert (I : forall a, exists v res, set_init_pos (put_env r0 e) a = (set_x0 (put_env r0 e) v, res)).
    { intros a. unfold set_init_pos. destruct (base_init_pos _ _ a); eexists _, _; reflexivity. }
    unfold start. destruct (tc_dx c) as [dx|], (tc_dy c) as [dy|], (tc_th1 c) as [t1|], (tc_th2 c) as [t2|];
      try (exists (rb_x0 (put_env r0 e)), (Ok tt); split; [reflexivity|discriminate || (intros; discriminate)]).
    destruct (I (mkInit None None (Some dx) (Some dy) t1 t2 0 0)) as (v & res & E). exists v, res. split; [exact E|].
    intros ? ? ? ? A B C D. injection A as <-. injection B as <-. injection C as <-. injection D as <-. reflexivity. }
  destruct S as (v & res & Es & Hs). clearbody start. rewrite Es in H.
  destruct res as [[]|x]; [|discriminate].
  assert (HS : forall dx dy th1 th2, tc_dx c = Some dx -> tc_dy c = Some dy -> tc_th1 c = Some th1 -> tc_th2 c = Some th2 ->
       snd (set_init_pos (put_env r0 e) (mkInit None None (Some dx) (Some dy) th1 th2 0 0)) = Ok tt /\
       v = rb_x0 (fst (set_init_pos (put_env r0 e) (mkInit None None (Some dx) (Some dy) th1 th2 0 0)))).
  { intros dx dy th1 th2 A B C D. rewrite <- (Hs dx dy th1 th2 A B C D), Es. split; reflexivity. }
  destruct (tc_g1 c) as [g1|]; [destruct (tc_g2 c) as [g2|]|]; injection H as <-;
    repeat (split; [reflexivity|]); (split; [exact HS|]); intros a b Ha Hb; try discriminate.
  injection Ha as <-. injection Hb as <-. reflexivity.
Qed.
Lemma setup_inv : forall c e, setup_parking_environment c = Ok e ->
  exists e0, env_init 32 32 "parking" (tc_parking c) = Ok e0 /\ e_case e = e_case e0 /\ e_xr e = e_xr e0 /\ e_yr e = e_yr e0 /\
    e_parking e = e_parking e0 /\
    (forall k, In k (e_circles e) <->
       (exists l, tc_circ c = Some l /\ In k l) \/
       (In k (e_circles e0) /\ (tc_circ c = None \/ tc_circ c = Some [] \/ 0 < c_r k))) /\
    e_rects e = e_rects e0 ++ default (tc_rect c) [].
Proof.
  intros c e H. unfold setup_parking_environment in H. destruct (env_init 32 32 "parking" (tc_parking c)) as [e0|]; [|discriminate].
  injection H as <-. exists e0. do 5 (split; [reflexivity|]). cbn [e_circles e_rects]. split.
  - intros k. destruct (tc_circ c) as [[|o l]|].
    + split; [intros K; right; split; [exact K|tauto]|]. intros [(l & E & K)|[K _]]; [|exact K]. injection E as <-. destruct K.
    + rewrite in_app_iff, filter_In. unfold Rltb. split.
      * intros [[K P]|K]; [right; split; [exact K|]; destruct (Rlt_dec 0 (c_r k)); [tauto|discriminate]|left; exists (o :: l); split; [reflexivity|exact K]].
      * intros [(l' & E & K)|[K [E|[E|P]]]]; try discriminate; [injection E as <-; right; exact K|left].
        split; [exact K|]. destruct (Rlt_dec 0 (c_r k)); [reflexivity|contradiction].
    + split; [intros K; right; split; [exact K|tauto]|]. intros [(l & E & _)|[K _]]; [discriminate|exact K].
  - destruct (tc_rect c) as [[|o l]|]; cbn [default]; rewrite ?app_nil_r; reflexivity.
Qed.

(** The obstacles of a test robot: the custom obstacles, the walls, and the circles of the test's own lot; if
    custom circles are given, circles without area (the placeholder of an empty lot) are dropped. Robot and
    environment agree. *)
Lemma l_C62_obstacles :
  forall c r, create_test_environment c = Ok r ->
  exists lot, env_init 32 32 "parking" (tc_parking c) = Ok lot /\ e_parking (rb_env r) = e_parking lot /\
    (forall k, In k (rb_circ r) <->
       (exists l, tc_circ c = Some l /\ In k l) \/
       (In k (e_circles lot) /\ (tc_circ c = None \/ tc_circ c = Some [] \/ 0 < c_r k))) /\
    (forall o, In o (rb_rect r) <-> In o (e_rects lot) \/ exists l, tc_rect c = Some l /\ In o l) /\
    rb_circ r = e_circles (rb_env r) /\ rb_rect r = e_rects (rb_env r).
Proof.
  intros c r H. destruct (create_inv c r H) as (e & r0 & Es & _ & _ & _ & He & Hc & Hr & _).
  destruct (setup_inv c e Es) as (e0 & E0 & _ & _ & _ & Hp & K & Rr). exists e0. split; [exact E0|]. rewrite He.
  split; [exact Hp|]. split; [intros k; rewrite Hc; apply K|]. split; [|split; assumption].
  intros o. rewrite Hr, Rr, in_app_iff. destruct (tc_rect c) as [l|]; cbn [default In].
  - split; [intros [A|A]; [left; exact A|right; exists l; auto]|intros [A|(l' & E & A)]; [left; exact A|injection E as <-; right; exact A]].
  - split; [intros [A|[]]; left; exact A|intros [A|(l' & E & A)]; [left; exact A|discriminate]].
Qed.

(** The vehicle of a test robot: class and every parameter as configured, if projection and guidance are off
    and one trailer is configured; both are always off. *)
Lemma l_C62_vehicle :
  forall c r, create_test_environment c = Ok r ->
  p_proj (rb_p r) = false /\ p_guid (rb_p r) = false /\
  (flag (tc_mbd c) "enable_projection" = false -> flag (tc_mbd c) "enable_guidance" = false ->
     int (tc_mbd c) "num_trailers" = 1%Z -> as_requested (trial_args (tc_mbd c)) (rb_p r)) /\
  (text (tc_mbd c) "env_name" = "tt2d" -> rb_kind r = KTT) /\
  (text (tc_mbd c) "env_name" = "acc_tt2d" -> rb_kind r = KACC /\
     rb_amax r = num (tc_mbd c) "a_max" /\ rb_omax r = num (tc_mbd c) "omega_max").
Proof.
  intros c r H. destruct (create_inv c r H) as (e & r0 & _ & Eg & Hk & Hp & _ & _ & _ & Ha & Ho & _).
  destruct (l_C33_class_and_parameters _ _ Eg) as (A & _ & _ & K1 & K2 & _ & _ & K3 & _). rewrite Hk, Hp, Ha, Ho.
  pose proof A as A'. unfold as_requested in A'.
  destruct A' as (_ & _ & _ & _ & _ & _ & _ & P1 & P2 & _). cbn [test_args g_proj Setup.g_guid] in P1, P2.
  split; [exact P1|]. split; [exact P2|]. split.
  - intros F1 F2 _. unfold as_requested in *. cbn [trial_args test_args g_dt g_H Setup.g_motion g_coll_pen g_hitch_pen g_sh_coll
      g_sh_hitch g_proj Setup.g_guid g_rew_thr g_ref_thr g_max_w g_hitch_w g_l1 g_l2 g_lh g_lf1 g_lr g_lf2 g_lr2 g_trac_w g_trail_w
      g_vmax g_ddeg g_d_fac g_kswitch g_steer_w g_pref_w g_head_w g_term_thr g_term_w g_rpos_w g_rth1_w g_rth2_w] in *.
    rewrite F1, F2. exact A.
  - split.
    + intros E. apply K1. cbn [test_args g_name g_trailers]. split; [exact E|lia].
    + intros E. assert (Q : rb_kind r0 = KACC) by (apply K2; exact E). split; [exact Q|]. apply K3 in Q. exact Q.
Qed.

Lemma test_class : forall c r0, get_env (test_args (tc_mbd c)) = Ok r0 -> rb_kind r0 = KTT \/ rb_kind r0 = KBK \/ rb_kind r0 = KACC.
Proof.
  intros c r0 H. unfold get_env in H. cbn [test_args g_trailers g_name Z.eqb Z.leb Z.compare Pos.compare Pos.compare_cont] in H.
  destruct (String.eqb _ "tt2d").
  - left. destruct (tt_init_fields _ _ _ _ H eq_refl eq_refl) as (K & _). exact K.
  - destruct (String.eqb _ "n_trailer2d"); [unfold nt_init in H; cbn in H; discriminate|].
    destruct (String.eqb _ "acc_tt2d").
    + right; right. unfold acc_init in H. destruct (tt_init KACC _ _); [|discriminate]. destruct (Reqb _ 0); [discriminate|]. injection H as <-. reflexivity.
    + destruct (String.eqb _ "kinematic_bicycle2d"); [|discriminate]. right; left. unfold bk_init in H.
      destruct (tt_init KBK _ _) as [r1|] eqn:E; [|discriminate]. injection H as <-.
      destruct (tt_init_fields _ _ _ _ E eq_refl eq_refl) as (K & _). exact K.
Qed.

(** The start of a test: headings as configured, at rest, the front axle dx beside the target of the test's own
    lot that has the smallest y (the first listed of those) and the rear axle dy above the entrance of the
    target with the largest y. *)
Lemma l_C62_start :
  forall c r dx dy th1 th2, create_test_environment c = Ok r ->
  tc_dx c = Some dx -> tc_dy c = Some dy -> tc_th1 c = Some th1 -> tc_th2 c = Some th2 ->
  exists lot x y lo hi xlo ylo xhi yhi before after,
    rb_x0 r = Some (pose_vector r x y th1 th2) /\
    e_parking (rb_env r) = Some lot /\ lot = match tc_parking c with Some p => p | None => default_parking end /\
    pk_tgt lot = before ++ lo :: after /\ In hi (pk_tgt lot) /\
    get_parking_space_center (rb_env r) lo = Ok (xlo, ylo) /\ get_parking_space_center (rb_env r) hi = Ok (xhi, yhi) /\
    (forall n u v, In n (pk_tgt lot) -> get_parking_space_center (rb_env r) n = Ok (u, v) -> ylo <= v <= yhi) /\
    (forall n u v, In n before -> get_parking_space_center (rb_env r) n = Ok (u, v) -> ylo < v) /\
    x + p_l1 (rb_p r) * cos th1 = xlo + dx /\ y = yhi + pk_len lot / 2 + dy.
Proof.
  intros c r dx dy th1 th2 H A B C D. destruct (create_inv c r H) as (e & r0 & Es & Eg & Hk & Hp & He & _ & _ & _ & _ & HS & _).
  destruct (HS dx dy th1 th2 A B C D) as [Hok Hx0]. clear HS.
  destruct (setup_inv c e Es) as (e0 & E0 & Ec & _ & _ & Ep & _).
  assert (L : e_case e = "parking" /\ e_parking e = Some (match tc_parking c with Some p => p | None => default_parking end)).
  { rewrite Ec, Ep. clear - E0. unfold env_init in E0. cbv zeta in E0. rewrite String.eqb_refl in E0.
    destruct (parking_circles _ _ _); [|discriminate]. injection E0 as <-. auto. }
  destruct L as [Lc Lp]. set (lot := match tc_parking c with Some p => p | None => default_parking end) in *.
  set (a := mkInit None None (Some dx) (Some dy) th1 th2 0 0) in *.
  assert (NE : pk_tgt lot <> [] /\ (pk_cols lot <> 0)%Z).
  { unfold set_init_pos, base_init_pos in Hok. cbn [put_env rb_env rb_p] in Hok. rewrite Lc, Lp, String.eqb_refl in Hok. cbn [a i_dx i_dy] in Hok.
    assert (N : pk_tgt lot <> []). { intros N. rewrite N in Hok. cbn in Hok. discriminate. }
    split; [exact N|]. intros Z. destruct (pk_tgt lot) as [|n rest]; [congruence|].
    cbn [convert_all] in Hok. unfold get_parking_space_center in Hok at 1. rewrite Lc, Lp in Hok. cbn [negb String.eqb Ascii.eqb Bool.eqb] in Hok.
    unfold space_center in Hok. rewrite Z in Hok. cbn in Hok. discriminate. }
  destruct NE as [N1 N2].
  destruct (l_C29_geometric_start (put_env r0 e) a lot dx dy Lc Lp N2 N1 eq_refl eq_refl)
    as (v & lo & hi & xlo & ylo & xhi & yhi & bef & aft & Q1 & Q2 & Q3 & Q4 & Q5 & Q6 & Q7 & Q8 & Q9 & Q10 & Q11 & _ & Q12).
  cbn [put_env rb_env rb_p rb_kind] in *.
  exists lot, (nth 0 v 0), (nth 1 v 0), lo, hi, xlo, ylo, xhi, yhi, bef, aft. rewrite He, Hp.
  split; [|repeat (split; [assumption || reflexivity|]); assumption].
  rewrite Hx0, Q1. cbn [fst set_x0 rb_x0]. f_equal.
  assert (SH : exists x y z w, v = match rb_kind r0 with KTT => [x; y; z; w] | KBK => [x; y; z] | KNT => augment (p_num_trailers (rb_p r0)) [x;y;z;w]
                                            | KACC => [x; y; z; w; 0; 0] end).
  { clear - Q1. unfold set_init_pos in Q1. destruct (base_init_pos _ _ a) as [u|] eqn:E; [|discriminate].
    assert (U : exists x y z w, u = [x; y; z; w]).
    { unfold base_init_pos in E. cbv zeta in E. destruct (String.eqb _ _), (i_dx a), (i_dy a), (e_parking (rb_env (put_env r0 e))); try discriminate;
        try (injection E as <-; destruct (i_x a), (i_y a); do 4 eexists; reflexivity).
      destruct (convert_all _ _) as [cs|]; [|discriminate]. destruct (sort_y cs); [discriminate|]. injection E as <-. do 4 eexists; reflexivity. }
    destruct U as (x & y & z & w & ->). cbn [put_env rb_kind rb_p] in Q1. injection Q1 as Q1. exists x, y, z, w. rewrite <- Q1.
    destruct (rb_kind r0); reflexivity. }
  destruct SH as (x & y & z & w & ->). unfold pose_vector. rewrite Hk, Hp.
  destruct (test_class c r0 Eg) as [K|[K|K]]; rewrite K in *; cbn [nth] in *; cbn [a i_th1 i_th2] in *.
  - rewrite Q10, Q11 by discriminate. reflexivity.
  - rewrite Q10. reflexivity.
  - rewrite Q10, Q11 by discriminate. reflexivity.
Qed.

Lemma own_env : forall g r, get_env g = Ok r -> g_env g = None -> env_init 32 32 (g_case g) None = Ok (rb_env r).
Proof.
  intros g r H N.
  assert (M : forall kd n r1, tt_init kd (kwargs g) n = Ok r1 -> env_init 32 32 (g_case g) None = Ok (rb_env r1)).
  { intros kd n r1 H1. unfold tt_init in H1. cbn [k_env kwargs k_case] in H1. rewrite N in H1.
    destruct (env_init 32 32 (g_case g) None) as [e|]; [|discriminate].
    destruct (initial_x0 _ _); [|discriminate]. destruct (initial_xg _ _); [|discriminate]. injection H1 as <-. reflexivity. }
  apply get_env_inv in H. destruct H as [[H _]|[[H _]|[[H _]|[H _]]]].
  - unfold bk_init in H. destruct (tt_init KBK _ _) as [r0|] eqn:E; [|discriminate]. injection H as <-. exact (M _ _ _ E).
  - unfold nt_init in H. destruct (Z.leb 2 (g_trailers g)); [|discriminate]. destruct (tt_init KNT _ _) as [r0|] eqn:E; [|discriminate].
    destruct (rb_x0 r0); [|discriminate]. destruct (rb_xg r0); [|discriminate]. injection H as <-. exact (M _ _ _ E).
  - exact (M _ _ _ H).
  - unfold acc_init in H. destruct (tt_init KACC _ _) as [r0|] eqn:E; [|discriminate]. destruct (Reqb _ 0); [discriminate|].
    injection H as <-. exact (M _ _ _ E).
Qed.
Lemma goal_pose : forall c r g1 g2, create_test_environment c = Ok r -> text (tc_mbd c) "case" = "parking" ->
  tc_g1 c = Some g1 -> tc_g2 c = Some g2 -> rb_xg r = Some (pose_vector r (-21/4) (-17/2) g1 g2).
Proof.
  intros c r g1 g2 H Hc A B. destruct (create_inv c r H) as (e & r0 & Es & Eg & Hk & Hp & He & _ & _ & _ & _ & _ & HG).
  specialize (HG g1 g2 A B).
  destruct (l_C57_parking_defaults _ _ Eg Hc) as (lot & n & rest & gx & gy & Q1 & Q2 & Q3 & _ & Q5).
  pose proof (own_env _ _ Eg eq_refl) as E1. cbn [test_args g_case] in E1. rewrite Hc in E1.
  assert (G : gx = -21/4 /\ gy = -17/2).
  { unfold get_parking_space_center in Q3. cbn -[IZR Rdiv Rmult Rplus Rminus Rinv Ropp] in E1. injection E1 as E1. rewrite <- E1 in Q1, Q3. cbn [e_case e_parking e_yr] in Q1, Q3.
    injection Q1 as <-. cbn [pk_tgt default_parking] in Q2. injection Q2 as <- _. cbn -[IZR Rdiv Rmult Rplus Rminus Rinv Ropp] in Q3.
    injection Q3 as <- <-. split; lra. }
  destruct G as [-> ->]. rewrite HG. unfold set_goal_pos. rewrite Q5. unfold pose_vector. rewrite Hk, Hp.
  destruct (test_class c r0 Eg) as [K|[K|K]]; rewrite K; reflexivity.
Qed.

(** The goal of a parking test, proved part: headings as configured, at rest; if the test brings no lot of its
    own, at the centre of the first target space of its lot. Missing (and false, see below): the same for a test
    with its own lot. *)
Lemma l_C62_goal_partial :
  forall c r g1 g2, create_test_environment c = Ok r -> text (tc_mbd c) "case" = "parking" ->
  tc_g1 c = Some g1 -> tc_g2 c = Some g2 ->
  exists x y, rb_xg r = Some (pose_vector r x y g1 g2) /\
    (tc_parking c = None -> exists lot n rest, e_parking (rb_env r) = Some lot /\ pk_tgt lot = n :: rest /\
       get_parking_space_center (rb_env r) n = Ok (x, y)).
Proof.
  intros c r g1 g2 H Hc A B. exists (-21/4), (-17/2). split; [apply (goal_pose c); assumption|]. intros N.
  destruct (create_inv c r H) as (e & r0 & Es & _ & _ & _ & He & _).
  destruct (setup_inv c e Es) as (e0 & E0 & E1 & _ & E2 & E3 & _). rewrite N in E0.
  exists default_parking, 3%Z, [11%Z]. rewrite He. unfold get_parking_space_center. rewrite E1, E2, E3.
  cbn -[IZR Rdiv Rmult Rplus Rminus Rinv Ropp] in E0. injection E0 as <-. cbn [e_case e_parking e_yr].
  do 2 (split; [reflexivity|]). cbn -[IZR Rdiv Rmult Rplus Rminus Rinv Ropp]. apply (f_equal Ok). f_equal; lra.
Qed.

(** A parking test whose lot has columns and targets always gets its environment. *)
Lemma l_C62_succeeds :
  forall c, text (tc_mbd c) "case" = "parking" ->
  text (tc_mbd c) "env_name" = "tt2d" \/ text (tc_mbd c) "env_name" = "kinematic_bicycle2d" \/
  (text (tc_mbd c) "env_name" = "acc_tt2d" /\ num (tc_mbd c) "a_max" <> 0) ->
  (forall lot, tc_parking c = Some lot -> (pk_cols lot <> 0)%Z /\ pk_tgt lot <> []) ->
  exists r, create_test_environment c = Ok r.
Proof.
  intros c Hc Hn Hl. destruct (l_C33_succeeds (test_args (tc_mbd c)) eq_refl (or_introl Hc)) as [r0 Eg].
  { cbn [test_args g_name g_amax]. destruct Hn as [H|[H|H]]; [left|right; right; right|right; right; left]; exact H. }
  unfold create_test_environment.
  assert (PC : forall ylo lot occ, (pk_cols lot <> 0)%Z -> exists cs, parking_circles ylo lot occ = Ok cs).
  { intros ylo lot occ N. induction occ as [|n occ [cs IH]]; [eexists; reflexivity|]. cbn [parking_circles]. unfold space_center at 1.
    destruct (Z.eqb_spec (pk_cols lot) 0); [contradiction|]. rewrite IH. eexists; reflexivity. }
  set (lot := match tc_parking c with Some p => p | None => default_parking end).
  assert (N : (pk_cols lot <> 0)%Z /\ pk_tgt lot <> []).
  { unfold lot. destruct (tc_parking c); [apply Hl; reflexivity|split; discriminate]. }
  assert (E : exists e, setup_parking_environment c = Ok e /\ e_case e = "parking" /\ e_parking e = Some lot).
  { unfold setup_parking_environment, env_init. cbn [String.eqb Ascii.eqb Bool.eqb]. fold lot. cbv zeta.
    destruct (PC (fst (- (32) / 2, 32 / 2)) lot (pk_occ lot) (proj1 N)) as [cs ->]. eexists. split; [reflexivity|]. split; reflexivity. }
  destruct E as (e & -> & E1 & E2). rewrite Eg.
  set (start := match tc_dx c with Some dx => _ | None => _ end).
  assert (S : exists r2, start = (r2, Ok tt)).
  { unfold start. destruct (tc_dx c) as [dx|], (tc_dy c) as [dy|], (tc_th1 c) as [t1|], (tc_th2 c) as [t2|]; try (eexists; reflexivity).
    destruct (l_C29_geometric_start (put_env r0 e) (mkInit None None (Some dx) (Some dy) t1 t2 0 0) lot dx dy E1 E2 (proj1 N) (proj2 N) eq_refl eq_refl)
      as (v & _ & _ & _ & _ & _ & _ & _ & _ & Q & _). rewrite Q. eexists; reflexivity. }
  destruct S as [r2 ->]. destruct (tc_g1 c), (tc_g2 c); eexists; reflexivity.
Qed.

(** C62 (finding): with its own lot (here the tight lot of the fixtures) a test still aims at the first target
    space of the default lot, which is no target of its lot; parked there, the vehicle would overlap an
    obstacle. *)
Lemma l_C62_goal_in_own_lot_refuted :
  exists c r x y, create_custom_test_config "parking_basic_forward" [OLot tight_parking] = Ok c /\
    create_test_environment c = Ok r /\
    rb_xg r = Some [x; y; - PI / 2; - PI / 2] /\
    (forall n, In n (pk_tgt tight_parking) -> get_parking_space_center (rb_env r) n <> Ok (x, y)) /\
    ~ tt_clear (rb_p r) (rb_circ r) (rb_rect r) (mkTT x y (- PI / 2) (- PI / 2)).
Proof.
  destruct (create_custom_test_config "parking_basic_forward" [OLot tight_parking]) as [c|] eqn:E; [|discriminate].
  injection E as <-.
  match goal with |- exists c r x y, Ok ?d = _ /\ _ => set (cc := d); exists cc end.
  destruct (l_C62_succeeds cc eq_refl (or_introl eq_refl)) as [r Er].
  { intros lot H. injection H as <-. split; discriminate. }
  exists r, (-21/4), (-17/2). split; [reflexivity|]. split; [exact Er|].
  pose proof (goal_pose cc r _ _ Er eq_refl eq_refl eq_refl) as G.
  destruct (l_C62_vehicle cc r Er) as (_ & _ & P & K & _). specialize (K eq_refl). specialize (P eq_refl eq_refl eq_refl).
  unfold pose_vector in G. rewrite K in G. split; [exact G|].
  destruct (l_C62_obstacles cc r Er) as (lot & L1 & L2 & L3 & _).
  destruct (create_inv cc r Er) as (e & _ & Es & _ & _ & _ & He & _).
  destruct (setup_inv cc e Es) as (e0 & E0 & Ec & _ & Ey & _ & _).
  rewrite E0 in L1. injection L1 as <-. cbn -[IZR Rdiv Rmult Rplus Rminus Rinv Ropp] in E0. injection E0 as <-.
  cbn [e_circles e_case e_yr e_parking] in *. split.
  - intros n Hn. unfold get_parking_space_center. rewrite He, Ec, Ey, <- He, L2. cbn [negb String.eqb Ascii.eqb Bool.eqb].
    cbn in Hn. destruct Hn as [<-|[<-|[]]]; cbn -[IZR Rdiv Rmult Rplus Rminus Rinv Ropp]; intros X; injection X as X1 X2; lra.
  - intros [H _].
    assert (Hk : exists k, In k (rb_circ r) /\ c_x k = -9/2 /\ c_y k = -39/4 /\ c_r k = 1).
    { eexists. split; [apply L3; right; split; [right; right; right; left; reflexivity|left; reflexivity]|]. cbn [c_x c_y c_r]. lra. }
    destruct Hk as (k & Hk & X1 & X2 & X3).
    assert (PB : p_trac_w (rb_p r) = 2 /\ p_l1 (rb_p r) = 323/100 /\ p_lf1 (rb_p r) = 9/10 /\ p_lr (rb_p r) = 231/125).
    { unfold as_requested in P. repeat split; apply P. }
    destruct PB as (P1 & P2 & P3 & P4).
    specialize (H (tractor_body (rb_p r) (-21/4) (-17/2) (- PI / 2)) k (or_introl eq_refl) Hk (-17/4, -39/4)).
    assert (O : outline (tractor_body (rb_p r) (-21/4) (-17/2) (- PI / 2)) (-17/4, -39/4)).
    { exists (5/4), 1. unfold tractor_body. cbn [rg_back rg_front rg_half rg_org rg_ang]. rewrite P1, P2, P3, P4, at_down. cbn [fst snd].
      split; [lra|]. split; [lra|]. split; [right; right; right; lra|]. f_equal; lra. }
    specialize (H O). rewrite X1, X2, X3 in H. unfold SpecGeom.dist, dist2 in H. cbn [fst snd] in H.
    assert (S : sqrt ((-17/4 - -9/2) * (-17/4 - -9/2) + (-39/4 - -39/4) * (-39/4 - -39/4)) <= sqrt 1) by (apply sqrt_le_1_alt; lra).
    rewrite sqrt_1 in S. lra.
Qed.

(** C62 (finding): enable_guidance, enable_projection and num_trailers of a test configuration do not reach the
    robot. *)
Lemma l_C62_all_settings_forwarded_refuted :
  exists c r, create_custom_test_config "parking_basic_forward"
      [OAttr "enable_guidance" (VBool true); OAttr "enable_projection" (VBool true); OAttr "num_trailers" (VInt 3)] = Ok c /\
    create_test_environment c = Ok r /\
    tc_mbd c "enable_guidance" = Some (VBool true) /\ p_guid (rb_p r) = false /\
    tc_mbd c "enable_projection" = Some (VBool true) /\ p_proj (rb_p r) = false /\
    tc_mbd c "num_trailers" = Some (VInt 3) /\ rb_kind r = KTT.
Proof.
  match goal with |- exists c r, ?t = Ok _ /\ _ => destruct t as [c|] eqn:E; [|discriminate] end.
  injection E as <-.
  match goal with |- exists c r, Ok ?d = _ /\ _ => set (cc := d); exists cc end.
  destruct (l_C62_succeeds cc eq_refl (or_introl eq_refl)) as [r Er].
  { intros lot H. discriminate. }
  exists r. destruct (l_C62_vehicle cc r Er) as (P1 & P2 & _ & K & _). specialize (K eq_refl).
  repeat (split; [first [reflexivity | assumption]|]). exact K.
Qed.

(** The start in the default lot. *)
Lemma default_lot_start : forall c r dx dy th1 th2, create_test_environment c = Ok r -> tc_parking c = None ->
  tc_dx c = Some dx -> tc_dy c = Some dy -> tc_th1 c = Some th1 -> tc_th2 c = Some th2 ->
  rb_x0 r = Some (pose_vector r (-21/4 + dx - p_l1 (rb_p r) * cos th1) (2 + dy) th1 th2).
Proof.
  intros c r dx dy th1 th2 Er N A B C0 D.
  destruct (create_inv c r Er) as (e & r0 & Es & _ & _ & _ & He & _).
  destruct (l_C62_start c r dx dy th1 th2 Er A B C0 D)
    as (lot & x & y & lo & hi & xlo & ylo & xhi & yhi & bef & aft & Q1 & Q2 & Q3 & Q4 & Q5 & Q6 & Q7 & Q8 & Q9 & Q10 & Q11).
  rewrite Q1. rewrite N in Q3. subst lot. cbn [pk_tgt default_parking pk_len] in *.
  destruct (setup_inv c e Es) as (e0 & E0 & Ec & _ & Ey & Ep & _). rewrite N in E0. cbn -[IZR Rdiv Rmult Rplus Rminus Rinv Ropp] in E0. injection E0 as <-.
  cbn [e_case e_yr e_parking] in Ec, Ey, Ep.
  assert (C : forall n, get_parking_space_center (rb_env r) n = space_center (-32/2) default_parking n).
  { intros n. unfold get_parking_space_center. rewrite He, Ec, Ey, Ep. cbn [negb String.eqb Ascii.eqb Bool.eqb fst]. f_equal; lra. }
  rewrite !C in *.
  assert (C3 : exists u v, space_center (-32/2) default_parking 3 = Ok (u, v) /\ u = -21/4 /\ v = -17/2).
  { do 2 eexists. split; [reflexivity|]. split; cbn -[IZR Rdiv Rmult Rplus Rminus Rinv Ropp]; lra. }
  assert (C11 : exists u v, space_center (-32/2) default_parking 11 = Ok (u, v) /\ u = -21/4 /\ v = -3/2).
  { do 2 eexists. split; [reflexivity|]. split; cbn -[IZR Rdiv Rmult Rplus Rminus Rinv Ropp]; lra. }
  destruct C3 as (u3 & v3 & C3 & U3 & V3), C11 as (u11 & v11 & C11 & U11 & V11).
  assert (X : xlo = -21/4).
  { destruct bef as [|b [|b' bef]]; cbn in Q4; injection Q4; intros; subst.
    - rewrite C3 in Q6. injection Q6 as <- <-. reflexivity.
    - rewrite C11 in Q6. injection Q6 as <- <-. reflexivity.
    - destruct bef; discriminate. }
  assert (Y : yhi = -3/2).
  { destruct Q5 as [<-|[<-|[]]].
    - rewrite C3 in Q7. injection Q7 as <- <-. specialize (Q8 11%Z u11 v11 (or_intror (or_introl eq_refl))). rewrite C in Q8. specialize (Q8 C11). lra.
    - rewrite C11 in Q7. injection Q7 as <- <-. exact V11. }
  do 2 f_equal; lra.
Qed.

(** C62: the first scenario's start and goal, and an added obstacle. *)
Lemma x_C62_forward_with_obstacle :
  exists c r, create_custom_test_config "parking_basic_forward" [OCircles [mkCircle 0 5 1]] = Ok c /\
    create_test_environment c = Ok r /\ In (mkCircle 0 5 1) (rb_circ r) /\ In (mkRect 0 15 30 1 0) (rb_rect r) /\
    rb_x0 r = Some [-21/4 + -4 - 323/100; 5; 0; 0] /\ rb_xg r = Some [-21/4; -17/2; - PI / 2; - PI / 2].
Proof.
  match goal with |- exists c r, ?t = Ok _ /\ _ => destruct t as [c|] eqn:E; [|discriminate] end.
  injection E as <-.
  match goal with |- exists c r, Ok ?d = _ /\ _ => set (cc := d); exists cc end.
  destruct (l_C62_succeeds cc eq_refl (or_introl eq_refl)) as [r Er].
  { intros lot H. discriminate. }
  exists r. split; [reflexivity|]. split; [exact Er|].
  destruct (l_C62_vehicle cc r Er) as (_ & _ & P & K & _). specialize (K eq_refl). specialize (P eq_refl eq_refl eq_refl).
  assert (PL : p_l1 (rb_p r) = 323/100). { unfold as_requested in P. apply P. }
  pose proof (goal_pose cc r _ _ Er eq_refl eq_refl eq_refl) as G. unfold pose_vector in G. rewrite K in G.
  destruct (l_C62_obstacles cc r Er) as (lot0 & L1 & _ & L3 & L4 & _).
  split; [apply L3; left; exists [mkCircle 0 5 1]; split; [reflexivity|left; reflexivity]|].
  split; [apply L4; left; injection L1 as <-; left; reflexivity|]. split; [|exact G].
  rewrite (default_lot_start cc r (-4) 3 0 0 Er eq_refl eq_refl eq_refl eq_refl eq_refl). unfold pose_vector. rewrite K, PL, cos_0.
  f_equal. f_equal; [lra|]. f_equal. lra.
Qed.
