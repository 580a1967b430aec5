(** * ProofsStats: trial verdicts (C42) and initial-condition sampling (C43). *)
From Coq Require Import String.
From Verif Require Import Base BaseFacts Params Geom TT2d Bicycle NTrailer Acc Rollout Planner Instances
  SpecGeom SpecBodies SpecDyn SpecPlan SpecAcc ProofsGeom ProofsBodies ProofsKin ProofsRobots ProofsSafety
  ProofsAcc EnvModel Setup Stats SpecEnv SpecStats ProofsEnv ProofsSetup.
Local Open Scope string_scope.
Local Open Scope list_scope.
Open Scope R_scope.

(** ** The scene *)

Lemma circle_eq : forall a b c a' b' c', a = a' -> b = b' -> c = c' -> mkCircle a b c = mkCircle a' b' c'.
Proof. intros; subst; reflexivity. Qed.

Definition stat_env : env_obj :=
  mkEnv "parking" (- (32) / 2, 32 / 2) (- (32) / 2, 32 / 2) (Some stat_parking) scene_circles parking_rects.

Lemma env_eq_circles : forall a b c d l l' r, l = l' -> Ok (mkEnv a b c d l r) = Ok (mkEnv a b c d l' r).
Proof. intros; subst; reflexivity. Qed.

Lemma stat_env_ok : env_init 32 32 "parking" (Some stat_parking) = Ok stat_env.
Proof.
  unfold env_init, stat_env. cbn -[IZR Rdiv Rmult Rplus Rminus].
  unfold scene_circles. cbn [flat_map app]. apply env_eq_circles.
  repeat (apply f_equal2 with (f := @cons circle); [apply circle_eq; field|]).
  reflexivity.
Qed.

Definition start_vec (l1 : R) (t : trial) : list R :=
  [-7/4 + tr_dx t - l1 * cos (tr_th1 t); 2 + tr_dy t; tr_th1 t; tr_th2 t].

Lemma stat_start_vec : forall p e t, e_case e = "parking" -> e_parking e = Some stat_parking ->
  e_yr e = (- (32) / 2, 32 / 2) -> base_init_pos p e (trial_init t) = Ok (start_vec (p_l1 p) t).
Proof.
  intros p [ec xr yr pk ci re] t. cbn [e_case e_parking e_yr]. intros -> -> ->.
  unfold base_init_pos, start_vec. cbn -[IZR Rdiv Rmult Rplus Rminus cos].
  assert (HR : Rleb (- (32) / 2 + 4 + (0 + 1 / 2) * 7) (- (32) / 2 + 4 + (1 + 1 / 2) * 7) = true).
  { unfold Rleb. destruct (Rle_dec _ _) as [H|H]; [reflexivity|exfalso; lra]. }
  rewrite !HR. cbn [fst snd last]. f_equal.
  apply (f_equal2 cons); [field|]. apply (f_equal2 cons); [field|]. reflexivity.
Qed.

(** ** Verdicts *)

Lemma violations_exists : forall {Q} (coll hitch : Q -> bool) traj oc hv,
  (forall a b, violations coll hitch oc hv traj = (a, b) ->
     a = (oc || existsb coll traj) /\ b = (hv || existsb hitch traj)).
Proof.
  intros Q coll hitch traj. induction traj as [|q rest IH]; intros oc hv a b H.
  - cbn in H. inversion H; subst. cbn. rewrite !orb_false_r. auto.
  - cbn [violations existsb] in *.
    assert (E1 : (if coll q then true else oc) = oc || coll q) by (destruct (coll q), oc; reflexivity).
    assert (E2 : (if hitch q then true else hv) = hv || hitch q) by (destruct (hitch q), hv; reflexivity).
    rewrite E1, E2 in H. destruct ((oc || coll q) && (hv || hitch q)) eqn:E.
    + inversion H; subst. apply andb_true_iff in E as [Ea Eb]. rewrite !orb_assoc, Ea, Eb. auto.
    + apply IH in H as [-> ->]. rewrite !orb_assoc. auto.
Qed.

Lemma pnorm_dist : forall a b : pt, pnorm (psub a b) = dist a b.
Proof. reflexivity. Qed.

Lemma Rmin_le_iff : forall a b c, Rmin a b <= c <-> a <= c \/ b <= c.
Proof. intros a b c. unfold Rmin. destruct (Rle_dec a b); lra. Qed.

Lemma last_indep : forall {A} (l : list A) d d', l <> [] -> last l d = last l d'.
Proof.
  intros A l d d'. induction l as [|x [|y ys] IH]; intros H; [contradiction|reflexivity|].
  cbn [last] in *. apply IH. discriminate.
Qed.
Lemma last_map' : forall {A B} (f : A -> B) l d, last (map f l) (f d) = f (last l d).
Proof.
  intros A B f l d. induction l as [|x [|y ys] IH]; [reflexivity|reflexivity|]. exact IH.
Qed.

Lemma evaluate_spec : forall {Q} cut coll hitch (pos back : Q -> pt) goal thr traj v d,
  evaluate cut coll hitch pos back goal thr traj = Ok v ->
  let final := cut (last traj d) in
  v_tractor v = dist (pos final) goal /\ v_trailer v = dist (back final) goal /\
  v_error v = Rmin (dist (pos final) goal) (dist (back final) goal) /\
  v_coll v = existsb (fun q => coll (cut q)) traj /\
  v_jack v = existsb (fun q => hitch (cut q)) traj /\
  v_success v = Rleb (v_error v) thr && negb (v_coll v) && negb (v_jack v).
Proof.
  intros Q cut coll hitch pos back goal thr traj v d H. unfold evaluate in H.
  destruct traj as [|q0 rest]; [discriminate|].
  destruct (violations _ _ false false (q0 :: rest)) as [oc hv] eqn:E.
  apply violations_exists in E as [-> ->]. cbn [orb] in H.
  rewrite (last_indep (q0 :: rest) q0 d) in H by discriminate.
  remember (last (q0 :: rest) d) as fin. injection H as <-. cbv zeta.
  cbn [v_tractor v_trailer v_error v_coll v_jack v_success]. rewrite !pnorm_dist. auto 10.
Qed.

Lemma existsb_false_Forall : forall {A} (f : A -> bool) (P : A -> Prop) l,
  (forall x, In x l -> (f x = false <-> P x)) -> (existsb f l = false <-> Forall P l).
Proof.
  intros A f P l H. rewrite existsb_false_iff, Forall_forall.
  split; intros K x Hx; apply (H x Hx); auto.
Qed.

Lemma tt_coll_clear_iff : forall s q, tt_sized (ts_p s) -> proper_obstacles (ts_circ s) (ts_rect s) ->
  (ts_coll s q = false <-> tt_clear (ts_p s) (ts_circ s) (ts_rect s) q).
Proof. intros. split; [apply tt_coll_false_clear|apply tt_clear_coll_false]; auto. Qed.

Lemma verdict_iff : forall v thr (C J : Prop) a b,
  v_success v = Rleb (v_error v) thr && negb (v_coll v) && negb (v_jack v) -> v_error v = Rmin a b ->
  (v_coll v = false <-> C) -> (v_jack v = false <-> J) ->
  (v_success v = true <-> (a <= thr \/ b <= thr) /\ C /\ J).
Proof.
  intros v thr C J a b Hs He HC HJ. rewrite Hs, !andb_true_iff, !negb_true_iff, Rleb_true, He, Rmin_le_iff. tauto.
Qed.

Lemma tt_back_face : forall p q, tt_trailer_back p q =
  ahead (ahead (t_px q, t_py q) (t_th1 q) (- p_lh p)) (t_th2 q) (- (p_l2 p + p_lr2 p)).
Proof. intros. unfold tt_trailer_back, ahead. cbn [fst snd]. apply f_equal2; ring. Qed.

Lemma Forall_and_iff : forall {A} (P Q : A -> Prop) l, Forall (fun x => P x /\ Q x) l <-> Forall P l /\ Forall Q l.
Proof. intros. rewrite !Forall_forall. firstorder. Qed.

(** C42, tractor-trailer: success is reported exactly when the rear axle or the trailer's rear face
    ends within the threshold of the goal and every state of the trajectory is safe; the two
    violation flags report exactly collisions and hitch violations; the reported errors are the two
    distances and the smaller of them. *)
Lemma l_C42_tt_verdict :
  forall s thr traj v d, tt_sized (ts_p s) -> proper_obstacles (ts_circ s) (ts_rect s) ->
  tt_evaluate s thr traj = Ok v ->
  let goal := (t_px (ts_xg s), t_py (ts_xg s)) in
  let near := axle_distance (last traj d) goal in
  let rear := rear_face_distance (ts_p s) (last traj d) goal in
  (v_success v = true <-> (near <= thr \/ rear <= thr) /\
                          Forall (tt_safe (ts_p s) (ts_circ s) (ts_rect s)) traj) /\
  (v_coll v = false <-> Forall (tt_clear (ts_p s) (ts_circ s) (ts_rect s)) traj) /\
  (v_jack v = false <-> Forall (tt_hitch_ok (ts_p s)) traj) /\
  v_tractor v = near /\ v_trailer v = rear /\ v_error v = Rmin near rear.
Proof.
  intros s thr traj v d Hs Ho H. cbv zeta. apply evaluate_spec with (d := d) in H. cbv zeta in H.
  destruct H as (H1 & H2 & H3 & H4 & H5 & H6). rewrite tt_back_face in H2, H3.
  fold (axle_distance (last traj d) (t_px (ts_xg s), t_py (ts_xg s))) in H1, H3.
  fold (rear_face_distance (ts_p s) (last traj d) (t_px (ts_xg s), t_py (ts_xg s))) in H2, H3.
  assert (HC : v_coll v = false <-> Forall (tt_clear (ts_p s) (ts_circ s) (ts_rect s)) traj).
  { rewrite H4. apply existsb_false_Forall. intros x _. apply tt_coll_clear_iff; auto. }
  assert (HJ : v_jack v = false <-> Forall (tt_hitch_ok (ts_p s)) traj).
  { rewrite H5. apply existsb_false_Forall. intros x _. apply tt_hitch_iff. }
  split; [|split; [exact HC|split; [exact HJ|auto]]].
  rewrite (verdict_iff v thr _ _ _ _ H6 H3 HC HJ). unfold tt_safe. rewrite Forall_and_iff. tauto.
Qed.

(** The bicycle: its "trailer" point is lh behind the rear axle; there is no hitch. *)
Lemma l_C42_bk_verdict :
  forall s thr traj v d, tractor_sized (bs_p s) -> proper_obstacles (bs_circ s) (bs_rect s) ->
  bk_evaluate s thr traj = Ok v ->
  let goal := (b_px (bs_xg s), b_py (bs_xg s)) in
  let fin := last traj d in
  let near := dist (b_px fin, b_py fin) goal in
  let rear := dist (ahead (b_px fin, b_py fin) (b_th fin) (- p_lh (bs_p s))) goal in
  (v_success v = true <-> (near <= thr \/ rear <= thr) /\
                          Forall (bk_safe (bs_p s) (bs_circ s) (bs_rect s)) traj) /\
  v_jack v = false.
Proof.
  intros s thr traj v d Hs Ho H. cbv zeta. apply evaluate_spec with (d := d) in H. cbv zeta in H.
  destruct H as (H1 & H2 & H3 & H4 & H5 & H6).
  assert (EB : bk_back (bs_p s) (last traj d) = ahead (b_px (last traj d), b_py (last traj d)) (b_th (last traj d)) (- p_lh (bs_p s))).
  { unfold bk_back, ahead. cbn [fst snd]. apply f_equal2; ring. }
  rewrite EB in H3.
  assert (HC : v_coll v = false <-> Forall (bk_safe (bs_p s) (bs_circ s) (bs_rect s)) traj).
  { rewrite H4. apply existsb_false_Forall. intros x _. split; [apply bk_coll_false_clear; auto|].
    intros K. unfold bs_coll. rewrite bk_coll_bodies. apply clear_bodies_hit_false; auto. apply bk_bodies_sized; auto. }
  assert (HJ : v_jack v = false).
  { rewrite H5. apply existsb_false_iff. intros; reflexivity. }
  split; [|exact HJ].
  rewrite (verdict_iff v thr _ True _ _ H6 H3 HC); [tauto|]. rewrite HJ. tauto.
Qed.

(** The acceleration-controlled vehicle: the same as the tractor-trailer, on its poses. *)
Lemma l_C42_acc_verdict :
  forall s thr traj v d, tt_sized (ts_p (as_t s)) -> proper_obstacles (ts_circ (as_t s)) (ts_rect (as_t s)) ->
  acc_evaluate s thr traj = Ok v ->
  let goal := (t_px (ts_xg (as_t s)), t_py (ts_xg (as_t s))) in
  let near := axle_distance (a_q (last traj d)) goal in
  let rear := rear_face_distance (ts_p (as_t s)) (a_q (last traj d)) goal in
  (v_success v = true <-> (near <= thr \/ rear <= thr) /\ Forall (acc_safe s) traj) /\
  v_error v = Rmin near rear.
Proof.
  intros s thr traj v d Hs Ho H. cbv zeta.
  destruct (l_C42_tt_verdict (as_t s) thr (map a_q traj) v (a_q d) Hs Ho H) as (H1 & _ & _ & _ & _ & H2).
  rewrite last_map' in H1, H2. split; [|exact H2]. rewrite H1, Forall_map. reflexivity.
Qed.

(** The verdict exists for every non-empty trajectory. *)
Lemma l_C42_always_defined :
  forall s thr q traj, exists v, tt_evaluate s thr (q :: traj) = Ok v.
Proof.
  intros. unfold tt_evaluate, evaluate. destruct (violations _ _ _ _ _) as [a b]. eexists; reflexivity.
Qed.

(** N trailers: the verdict looks at the first trailer heading only. It is the verdict for the rig
    in which all trailers are aligned with the first one. *)
Lemma jget_single : forall x i, jget [x] i = x.
Proof. intros. unfold jget. cbn [length Nat.sub]. rewrite Nat.min_0_r. reflexivity. Qed.
Lemma jget_repeat : forall x n i, jget (repeat x (S n)) i = x.
Proof.
  intros. unfold jget. rewrite repeat_length.
  apply (repeat_spec (S n) x). apply nth_In. rewrite repeat_length. lia.
Qed.
Lemma fold_left_ext : forall {A B} (f g : A -> B -> A) l a, (forall a b, f a b = g a b) -> fold_left f l a = fold_left g l a.
Proof. intros A B f g l. induction l as [|x xs IH]; intros a H; [reflexivity|]. cbn. rewrite H. apply IH, H. Qed.

Definition straightened (s : nt_self) (q : ntq) : ntq :=
  mkNT (n_px q) (n_py q) (n_th0 q) (repeat (nth 0 (n_ths q) 0) (p_num_trailers (ns_p s))).

Lemma nt_cut_coll : forall s q, n_ths q <> [] -> (1 <= ns_N s)%nat ->
  ns_coll s (nt_cut q) = ns_coll s (straightened s q).
Proof.
  intros s q Hq HN. unfold ns_coll, nt_coll.
  assert (E : nt_trailer_corners s (nt_cut q) = nt_trailer_corners s (straightened s q)).
  { unfold nt_trailer_corners, nt_cut, straightened. cbn [n_px n_py n_th0 n_ths].
    f_equal. apply fold_left_ext. intros [[hx hy] out] i. unfold nt_rect_body.
    destruct (n_ths q) as [|th rest]; [contradiction|]. cbn [firstn nth].
    unfold ns_N in HN. destruct (p_num_trailers (ns_p s)) as [|n]; [lia|].
    rewrite jget_single, jget_repeat. reflexivity. }
  rewrite E. reflexivity.
Qed.
Lemma nt_cut_hitch : forall s q, n_ths q <> [] -> (1 <= ns_N s)%nat ->
  (nt_hitch s (nt_cut q) = false <-> hitch_ok (p_phi_max (ns_p s)) (n_th0 q) (nth 0 (n_ths q) 0)).
Proof.
  intros s q Hq HN. destruct (n_ths q) as [|th rest] eqn:E; [contradiction|].
  unfold nt_hitch, nt_cut. cbn [n_ths n_th0]. rewrite E. cbn [firstn nth].
  destruct (ns_N s) as [|n]; [lia|]. cbn [firstn]. rewrite firstn_nil. cbn [tl nt_hitch_scan].
  rewrite jget_single. apply hitch_check_iff.
Qed.

(** C42, N trailers, what is proved: the verdict is right about the first hitch and about the rig
    with all trailers aligned with the first one. Missing (and false, see the refutations): inner
    hitches and the true positions of trailers 2..N. *)
Lemma l_C42_nt_verdict_partial :
  forall s thr traj v d, nt_sized s -> (1 <= p_num_trailers (ns_p s))%nat -> proper_obstacles (ns_circ s) (ns_rect s) ->
  (forall q, In q traj -> length (n_ths q) = p_num_trailers (ns_p s)) ->
  nt_evaluate s thr traj = Ok v ->
  let goal := (n_px (ns_xg s), n_py (ns_xg s)) in
  let fin := last traj d in
  let near := dist (n_px fin, n_py fin) goal in
  let straight q := mkNT (n_px q) (n_py q) (n_th0 q) (repeat (nth 0 (n_ths q) 0) (p_num_trailers (ns_p s))) in
  (v_success v = true <->
     v_error v <= thr /\ Forall (fun q => nt_clear s (straight q)) traj /\
     Forall (fun q => hitch_ok (p_phi_max (ns_p s)) (n_th0 q) (nth 0 (n_ths q) 0)) traj) /\
  v_tractor v = near /\ v_error v <= near.
Proof.
  intros s thr traj v d Hs HN Ho HL H. cbv zeta. apply evaluate_spec with (d := d) in H. cbv zeta in H.
  destruct H as (H1 & H2 & H3 & H4 & H5 & H6).
  assert (Hne : forall q, In q traj -> n_ths q <> []).
  { intros q Hq E. specialize (HL q Hq). rewrite E in HL. cbn in HL. lia. }
  assert (HC : v_coll v = false <-> Forall (fun q => nt_clear s (straightened s q)) traj).
  { rewrite H4. apply existsb_false_Forall. intros x Hx. cbv beta. rewrite nt_cut_coll by (auto; apply HN).
    assert (HV : length (n_ths (straightened s x)) = ns_N s) by (cbn; apply repeat_length).
    split; [apply nt_coll_false_clear; auto|].
    intros K. rewrite nt_coll_bodies by auto. apply clear_bodies_hit_false; auto. apply nt_bodies_sized; auto. }
  assert (HJ : v_jack v = false <-> Forall (fun q => hitch_ok (p_phi_max (ns_p s)) (n_th0 q) (nth 0 (n_ths q) 0)) traj).
  { rewrite H5. apply existsb_false_Forall. intros x Hx. apply nt_cut_hitch; auto. }
  split; [|split; [exact H1|rewrite H3; apply Rmin_l]].
  rewrite H6, !andb_true_iff, !negb_true_iff, Rleb_true, HC, HJ. unfold straightened. tauto.
Qed.

(** An inner jackknife is not reported: a two-trailer rig standing on the goal with its second
    trailer folded by two radians is a success. *)
Definition folded : nt_self := mkNTSelf (two_trailers default_params) [29/10; 29/10] [142/100; 142/100] [1848/1000; 3225/1000]
  [] [] (mkNT 0 0 0 [0; 0]).
(** C42 (finding): a trial that ends with the second trailer folded by two radians counts as a success. *)
Lemma l_C42_inner_jackknife_reported_refuted :
  exists v, nt_evaluate folded 4 [mkNT 0 0 0 [0; 2]] = Ok v /\ v_success v = true /\
    ~ nt_hitch_ok folded (mkNT 0 0 0 [0; 2]) /\ nt_hitch folded (mkNT 0 0 0 [0; 2]) = true.
Proof.
  assert (HP : 3 < PI) by (pose proof PI2_3_2; lra).
  assert (HP4 : PI <= 4) by apply PI_4.
  assert (W : wrap_pi (0 - 2) = 0 - 2) by (apply wrap_pi_id; lra).
  assert (W0 : wrap_pi (0 - 0) = 0 - 0) by (apply wrap_pi_id; lra).
  assert (HV : nt_hitch folded (mkNT 0 0 0 [0; 2]) = true).
  { unfold nt_hitch, folded. cbn [ns_N ns_p p_num_trailers two_trailers default_params n_ths n_th0 firstn tl nt_hitch_scan].
    change (jget [0; 2] 0) with 0. rewrite W. apply orb_true_iff. right. apply Rltb_true.
    rewrite Rabs_left by lra. cbn [p_phi_max two_trailers default_params]. unfold phi_max_const. lra. }
  destruct (nt_evaluate folded 4 [mkNT 0 0 0 [0; 2]]) as [v|e] eqn:E.
  2: { unfold nt_evaluate, evaluate in E. destruct (violations _ _ _ _ _). discriminate. }
  exists v. split; [reflexivity|].
  split.
  - pose proof (evaluate_spec _ _ _ _ _ _ _ _ _ (mkNT 0 0 0 []) E) as H. cbv zeta in H.
    destruct H as (H1 & _ & H3 & H4 & H5 & H6). rewrite H6.
    assert (HC : v_coll v = false).
    { rewrite H4. cbn [existsb]. unfold ns_coll, nt_coll. cbn [ns_circ ns_rect folded existsb].
      assert (EB : forall rcs : list (list pt), existsb (fun _ => false) rcs = false) by (induction rcs; auto).
      rewrite !EB. reflexivity. }
    assert (HJ : v_jack v = false).
    { rewrite H5. cbn [existsb]. rewrite orb_false_r.
      apply (nt_cut_hitch folded (mkNT 0 0 0 [0; 2])); [discriminate|unfold ns_N; cbn; lia|].
      cbn [n_th0 n_ths nth]. apply hitch_ok_zero. cbn. unfold phi_max_const. lra. }
    rewrite HC, HJ. cbn [negb]. rewrite !andb_true_r. apply Rleb_true. rewrite H3, <- H1.
    apply Rle_trans with (1 := Rmin_l _ _). rewrite H1. cbn [last nt_cut n_px n_py ns_xg folded].
    unfold dist, dist2. cbn [fst snd]. replace ((0 - 0) * (0 - 0) + (0 - 0) * (0 - 0)) with 0 by ring. rewrite sqrt_0. lra.
  - split; [|exact HV].
    intros K. apply (nt_hitch_iff folded (mkNT 0 0 0 [0; 2])) in K; [rewrite HV in K; discriminate|reflexivity|unfold ns_N; cbn; lia].
Qed.

(** ** Sampling *)

Lemma draw_drawn : forall g s id t s', draw_trial g s id = (t, s') -> drawn g s s' (pose_of t) /\ tr_id t = id.
Proof.
  intros g s id t s' H. unfold draw_trial in H.
  destruct (np_uniform g s (-12) 12) as [dx s1] eqn:E1.
  destruct (np_uniform g s1 2 7) as [dy s2] eqn:E2.
  destruct (np_random g s2) as [coin s3] eqn:E3.
  destruct (Rltb coin (1/2)) eqn:Ec.
  - destruct (np_uniform g s3 (- PI / 10) (PI / 10)) as [th1 s4] eqn:E4.
    destruct (np_uniform g s4 (- PI / 10) (PI / 10)) as [off s5] eqn:E5.
    injection H as <- <-. cbn. split; [|reflexivity]. exists s1, s2, s3, s4, coin, off.
    apply Rltb_true in Ec. auto 10.
  - destruct (np_uniform g s3 (PI - PI / 10) (PI + PI / 10)) as [th1 s4] eqn:E4.
    destruct (np_uniform g s4 (- PI / 10) (PI / 10)) as [off s5] eqn:E5.
    injection H as <- <-. cbn. split; [|reflexivity]. exists s1, s2, s3, s4, coin, off.
    apply Rltb_false in Ec. auto 10.
Qed.

Lemma drawn_fun : forall g s s1 s2 p1 p2, drawn g s s1 p1 -> drawn g s s2 p2 -> s1 = s2 /\ p1 = p2.
Proof.
  intros g s s1 s2 [[[dx dy] th1] th2] [[[dx' dy'] th1'] th2'].
  intros (a1 & a2 & a3 & a4 & c & o & A1 & A2 & A3 & A4 & A5 & A6)
         (b1 & b2 & b3 & b4 & c' & o' & B1 & B2 & B3 & B4 & B5 & B6).
  rewrite A1 in B1. injection B1 as <- <-. rewrite A2 in B2. injection B2 as <- <-.
  rewrite A3 in B3. injection B3 as <- <-.
  destruct A4 as [[Ac A4]|[Ac A4]], B4 as [[Bc B4]|[Bc B4]]; try lra;
    rewrite A4 in B4; injection B4 as <- <-; rewrite A5 in B5; injection B5 as <- <-; subst; auto.
Qed.
Lemma drawn_list_fun : forall g l1 l2 s, drawn_list g s l1 -> drawn_list g s l2 -> length l1 = length l2 -> l1 = l2.
Proof.
  intros g l1. induction l1 as [|p l1 IH]; intros [|p' l2] s H1 H2 HL; try discriminate; [reflexivity|].
  destruct H1 as (s1 & D1 & R1), H2 as (s2 & D2 & R2).
  destruct (drawn_fun _ _ _ _ _ _ D1 D2) as [<- <-]. f_equal. eapply IH; eauto.
Qed.
Lemma drawn_list_firstn : forall g n l s, drawn_list g s l -> drawn_list g s (firstn n l).
Proof.
  intros g n. induction n as [|n IH]; intros [|p l] s H; cbn; auto.
  destruct H as (s1 & D & R). exists s1. split; auto.
Qed.

(** is_valid does not look at the id. *)
Definition pose_valid (p : pose) : bool := let '(dx, dy, th1, th2) := p in is_valid (mkTrial dx dy th1 th2 0).
Lemma is_valid_pose : forall t, is_valid t = pose_valid (pose_of t).
Proof.
  intros [dx dy th1 th2 id]. unfold pose_valid, pose_of. cbn [tr_dx tr_dy tr_th1 tr_th2].
  unfold is_valid, validation_robot.
  change (trial_init (mkTrial dx dy th1 th2 id)) with (trial_init (mkTrial dx dy th1 th2 0)). reflexivity.
Qed.

Lemma sample_loop_spec : forall g num left attempts s configs res n,
  (length configs <= num)%nat ->
  map tr_id configs = seq 0 (length configs) ->
  sample_loop g num left attempts s configs = (res, n) ->
  exists cands, drawn_list g s cands /\ n = (attempts + length cands)%nat /\ (length cands <= left)%nat /\
    map pose_of res = map pose_of configs ++ filter pose_valid cands /\
    map tr_id res = seq 0 (length res) /\ (length res <= num)%nat /\
    (length res = num \/ length cands = left) /\
    (forall k, (k < length cands)%nat -> (length configs + length (filter pose_valid (firstn k cands)) < num)%nat).
Proof.
  intros g num left. induction left as [|left IH]; intros attempts s configs res n HL HI H.
  - cbn in H. injection H as <- <-. exists []. cbn. rewrite app_nil_r, Nat.add_0_r.
    split; [exact I|]. split; [reflexivity|]. split; [lia|]. split; [reflexivity|]. split; [exact HI|].
    split; [exact HL|]. split; [right; reflexivity|]. intros k Hk. lia.
  - cbn [sample_loop] in H. destruct (Nat.ltb (length configs) num) eqn:Elt.
    + apply Nat.ltb_lt in Elt. destruct (draw_trial g s (length configs)) as [t s'] eqn:Ed.
      destruct (draw_drawn _ _ _ _ _ Ed) as [Dd Hid].
      destruct (is_valid t) eqn:Ev.
      * apply IH in H.
        2: { rewrite app_length. cbn. lia. }
        2: { rewrite map_app, app_length, HI. cbn. rewrite Hid, Nat.add_1_r, seq_S. reflexivity. }
        destruct H as (cs & C1 & C2 & C3 & C4 & C5 & C6 & C7 & C8).
        exists (pose_of t :: cs). rewrite is_valid_pose in Ev. cbn [filter length]. rewrite Ev.
        split; [exists s'; auto|]. split; [lia|]. split; [lia|].
        split; [rewrite C4, map_app, <- app_assoc; reflexivity|]. split; [exact C5|]. split; [exact C6|].
        split; [destruct C7; [auto|right; lia]|].
        intros [|k] Hk; [cbn; lia|]. cbn [firstn filter]. rewrite Ev. specialize (C8 k).
        rewrite app_length in C8. cbn [length] in C8 |- *. lia.
      * apply IH in H; [|lia|exact HI].
        destruct H as (cs & C1 & C2 & C3 & C4 & C5 & C6 & C7 & C8).
        exists (pose_of t :: cs). rewrite is_valid_pose in Ev. cbn [filter length]. rewrite Ev.
        split; [exists s'; auto|]. split; [lia|]. split; [lia|]. split; [exact C4|]. split; [exact C5|].
        split; [exact C6|]. split; [destruct C7; [auto|right; lia]|].
        intros [|k] Hk; [cbn; lia|]. cbn [firstn filter]. rewrite Ev. apply C8. lia.
    + apply Nat.ltb_ge in Elt. injection H as <- <-. exists []. cbn. rewrite app_nil_r, Nat.add_0_r.
      split; [exact I|]. split; [reflexivity|]. split; [lia|]. split; [reflexivity|]. split; [exact HI|].
      split; [exact HL|]. split; [left; lia|]. intros k Hk. lia.
Qed.

(** ** Trial environments *)

Lemma stat_goal : default_goal_pos stat_env "parking" =
  Ok [- (IZR 8 * (35/10)) / 2 + (IZR 3 + 1/2) * (35/10); - (32) / 2 + 4 + (IZR 0 + 1/2) * 7; - PI / 2; - PI / 2].
Proof.
  unfold default_goal_pos, stat_env. cbn [String.eqb Ascii.eqb Bool.eqb e_parking pk_tgt stat_parking].
  unfold get_parking_space_center. cbn [e_case String.eqb Ascii.eqb Bool.eqb negb e_parking e_yr fst].
  unfold space_center. cbn [pk_cols pk_w pk_yoff pk_len stat_parking Z.eqb].
  change (Z.div (4 - 1) 8) with 0%Z. change (Z.modulo (4 - 1) 8) with 3%Z. reflexivity.
Qed.

Lemma tt_env_ok : forall g, g_name g = "tt2d" -> g_trailers g <> 0%Z -> (g_trailers g < 2)%Z ->
  exists r, get_env (with_env g stat_env) = Ok r /\ rb_kind r = KTT /\ rb_p r = params_of (kwargs g) 1 /\
    rb_env r = stat_env /\ rb_circ r = scene_circles /\
    (g_case g = "parking" -> rb_xg r = Some [- (IZR 8 * (35/10)) / 2 + (IZR 3 + 1/2) * (35/10);
        - (32) / 2 + 4 + (IZR 0 + 1/2) * 7; - PI / 2; - PI / 2]) /\
    (forall v, rb_xg r = Some v -> exists a b c d, v = [a; b; c; d]).
Proof.
  intros g Hn H0 H2. unfold get_env. cbn [g_name with_env]. rewrite Hn. cbn [String.eqb Ascii.eqb Bool.eqb].
  cbn [g_trailers with_env]. apply Z.eqb_neq in H0. rewrite H0. assert (H3 : Z.leb 2 (g_trailers g) = false) by (apply Z.leb_gt; lia).
  rewrite H3. unfold tt_init. cbn [kwargs with_env k_env g_env k_case g_case].
  unfold initial_x0, initial_xg. cbn [kwargs with_env k_x0 k_xg k_case g_case].
  destruct (String.eqb (g_case g) "parking") eqn:Ec.
  - apply String.eqb_eq in Ec. rewrite Ec.
    unfold default_init_pos. cbn [String.eqb Ascii.eqb Bool.eqb]. rewrite stat_goal.
    eexists. split; [reflexivity|]. cbn [rb_kind rb_p rb_env rb_circ rb_xg].
    split; [reflexivity|]. split; [reflexivity|]. split; [reflexivity|]. split; [reflexivity|].
    split; [reflexivity|]. intros v Hv. injection Hv as <-. do 4 eexists; reflexivity.
  - destruct (String.eqb (g_case g) "navigation") eqn:En.
    + eexists. split; [reflexivity|]. cbn [rb_kind rb_p rb_env rb_circ rb_xg].
      split; [reflexivity|]. split; [reflexivity|]. split; [reflexivity|]. split; [reflexivity|].
      split. { intros E. rewrite E in Ec. discriminate. }
      intros v Hv. injection Hv as <-. do 4 eexists; reflexivity.
    + eexists. split; [reflexivity|]. cbn [rb_kind rb_p rb_env rb_circ rb_xg].
      split; [reflexivity|]. split; [reflexivity|]. split; [reflexivity|]. split; [reflexivity|].
      split. { intros E. rewrite E in Ec. discriminate. }
      intros v Hv. discriminate.
Qed.

Lemma base_start : forall p (r : robot) t, rb_env r = stat_env -> forall l, 
  base_init_pos p (rb_env (put_env_rects (put_rects r l) l)) (trial_init t) = Ok (start_vec (p_l1 p) t) /\
  base_init_pos p (rb_env (put_rects r l)) (trial_init t) = Ok (start_vec (p_l1 p) t).
Proof.
  intros p r t E l. split; apply stat_start_vec; cbn [put_env_rects put_rects rb_env e_case e_parking e_yr]; rewrite E; reflexivity.
Qed.

Lemma create_trial_ok : forall g t, g_name g = "tt2d" -> g_trailers g <> 0%Z -> (g_trailers g < 2)%Z ->
  exists r gx gy, create_trial_environment g t = Ok r /\ rb_kind r = KTT /\ rb_p r = params_of (kwargs g) 1 /\
    rb_circ r = scene_circles /\ rb_rect r = scene_walls /\ rb_x0 r = Some (start_vec (g_l1 g) t) /\
    rb_xg r = Some [gx; gy; - PI / 2; - PI / 2] /\
    (g_case g = "parking" -> gx = -7/4 /\ gy = -17/2) /\
    rb_rect r = e_rects (rb_env r) /\ rb_circ r = e_circles (rb_env r).
Proof.
  intros g t Hn H0 H2. destruct (tt_env_ok g Hn H0 H2) as (r & E & K1 & K2 & K3 & K4 & K5 & K6).
  unfold create_trial_environment. rewrite stat_env_ok, E. unfold set_init_pos.
  destruct (base_start (rb_p r) r t K3 stat_rects) as [B _].
  change (rb_p (put_env_rects (put_rects r stat_rects) stat_rects)) with (rb_p r). rewrite B.
  change (rb_kind (put_env_rects (put_rects r stat_rects) stat_rects)) with (rb_kind r). rewrite K1.
  unfold set_goal_pos. cbn [fst set_x0 put_env_rects put_rects rb_xg rb_kind rb_p rb_env rb_circ rb_rect]. rewrite K1.
  cbn [default o_x o_y o_th1 o_th2].
  destruct (rb_xg r) as [xg|] eqn:Exg.
  - exists (set_xg (set_x0 (put_env_rects (put_rects r stat_rects) stat_rects) (Some (start_vec (p_l1 (rb_p r)) t)))
              (Some [jget xg 0; jget xg 1; - PI / 2; - PI / 2])), (jget xg 0), (jget xg 1).
    cbn [set_xg set_x0 put_env_rects put_rects rb_x0 rb_xg rb_kind rb_p rb_env rb_circ rb_rect e_rects e_circles].
    split; [reflexivity|]. split; [exact K1|]. split; [exact K2|]. split; [exact K4|]. split; [reflexivity|].
    split; [rewrite K2; reflexivity|]. split; [reflexivity|].
    split. { intros Ep. specialize (K5 Ep). injection K5 as ->. unfold jget; cbn. split; field. }
    split; [reflexivity|]. rewrite K3, K4. reflexivity.
  - exists (set_xg (set_x0 (put_env_rects (put_rects r stat_rects) stat_rects) (Some (start_vec (p_l1 (rb_p r)) t)))
              (Some [3; 0; - PI / 2; - PI / 2])), 3, 0.
    cbn [set_xg set_x0 put_env_rects put_rects rb_x0 rb_xg rb_kind rb_p rb_env rb_circ rb_rect e_rects e_circles].
    split; [reflexivity|]. split; [exact K1|]. split; [exact K2|]. split; [exact K4|]. split; [reflexivity|].
    split; [rewrite K2; reflexivity|]. split; [reflexivity|].
    split. { intros Ep. specialize (K5 Ep). discriminate. }
    split; [reflexivity|]. rewrite K3, K4. reflexivity.
Qed.

Lemma scene_proper : proper_obstacles scene_circles scene_walls.
Proof.
  split.
  - intros c Hc. unfold scene_circles in Hc. cbn [flat_map app] in Hc.
    repeat match type of Hc with
      | In _ [] => contradiction
      | _ => destruct Hc as [<-|Hc]; [cbn; lra|]
      end.
  - intros o [<-|[]]. cbn. lra.
Qed.
Lemma default_sized : tt_sized default_params.
Proof. unfold tt_sized, tractor_sized, default_params. cbn. lra. Qed.

Lemma tt_check_safe_iff : forall p circ rect q, tt_sized p -> proper_obstacles circ rect ->
  (negb (tt_coll p circ rect q || tt_hitch p q) = true <-> tt_safe p circ rect q).
Proof.
  intros p circ rect q Hs Ho. rewrite negb_true_iff, orb_false_iff.
  pose proof (tt_coll_clear_iff (mkTTSelf p circ rect q) q Hs Ho) as H. unfold ts_coll in H. cbn [ts_p ts_circ ts_rect] in H.
  rewrite H, tt_hitch_iff. reflexivity.
Qed.

(** A candidate is accepted exactly when a vehicle of default dimensions placed there is safe in
    the evaluation scene. *)
Lemma l_C43_accepted_iff_safe :
  forall t, is_valid t = true <->
    tt_safe default_params scene_circles scene_walls (start_state (p_l1 default_params) (pose_of t)).
Proof.
  intros t. unfold is_valid, validation_robot.
  destruct (tt_env_ok (default_env_args "tt2d" "parking" 1)) as (r & E & K1 & K2 & K3 & K4 & K5 & K6); [reflexivity|discriminate|reflexivity|].
  rewrite stat_env_ok, E. unfold set_init_pos.
  destruct (base_start (rb_p r) r t K3 stat_rects) as [_ B].
  change (rb_p (put_rects r stat_rects)) with (rb_p r). rewrite B.
  change (rb_kind (put_rects r stat_rects)) with (rb_kind r). rewrite K1.
  cbn [set_x0 put_rects rb_x0 rb_p rb_circ rb_rect]. unfold start_vec. cbn [vec4].
  rewrite K2, K4. change (params_of (kwargs (default_env_args "tt2d" "parking" 1)) 1) with default_params.
  rewrite tt_check_safe_iff by (exact default_sized || exact scene_proper).
  destruct t as [dx dy th1 th2 id]. reflexivity.
Qed.

(** The result consists of the accepted candidates among the first n draws, in order, numbered
    0,1,2,...; n is at most 10*num_trials; there are at most num_trials of them; fewer only after
    all 10*num_trials attempts; and no draw is made once num_trials are found. *)
Lemma l_C43_sampling :
  forall g num seed configs n, sample_initial_conditions g num seed = (configs, n) ->
  exists cands (accept : pose -> bool),
    (forall p, accept p = true <->
       tt_safe default_params scene_circles scene_walls (start_state (p_l1 default_params) p)) /\
    drawn_list g (np_seed g seed) cands /\ length cands = n /\ (n <= 10 * num)%nat /\
    map pose_of configs = filter accept cands /\
    map tr_id configs = seq 0 (length configs) /\
    (length configs <= num)%nat /\ ((length configs < num)%nat -> n = (10 * num)%nat) /\
    (forall k, (k < n)%nat -> (length (filter accept (firstn k cands)) < num)%nat).
Proof.
  intros g num seed configs n H. unfold sample_initial_conditions in H.
  apply sample_loop_spec in H; [|cbn; lia|reflexivity].
  destruct H as (cs & C1 & C2 & C3 & C4 & C5 & C6 & C7 & C8). cbn [plus map length app] in *.
  exists cs, pose_valid. split.
  { intros p. destruct p as [[[dx dy] th1] th2]. unfold pose_valid. apply (l_C43_accepted_iff_safe (mkTrial dx dy th1 th2 0)). }
  split; [exact C1|]. split; [lia|]. split; [lia|]. split; [exact C4|]. split; [exact C5|]. split; [exact C6|].
  split; [lia|]. intros k Hk. apply C8. lia.
Qed.

(** If at least num_trials of the first 10*num_trials draws are acceptable, exactly num_trials
    configurations are returned. *)
Lemma filter_firstn_le : forall {A} (f : A -> bool) n l, (length (filter f (firstn n l)) <= length (filter f l))%nat.
Proof.
  intros A f n. induction n as [|n IH]; intros [|x l]; cbn; try lia. destruct (f x); cbn; specialize (IH l); lia.
Qed.
Lemma l_C43_enough_draws_suffice :
  forall g num seed cands (accept : pose -> bool),
  (forall p, accept p = true <->
       tt_safe default_params scene_circles scene_walls (start_state (p_l1 default_params) p)) ->
  drawn_list g (np_seed g seed) cands -> length cands = (10 * num)%nat ->
  (num <= length (filter accept cands))%nat ->
  length (fst (sample_initial_conditions g num seed)) = num.
Proof.
  intros g num seed cands accept Ha Hd HL Hn.
  destruct (sample_initial_conditions g num seed) as [configs n] eqn:E. cbn [fst].
  destruct (l_C43_sampling g num seed configs n E) as (cs & acc & Hacc & D & L & Hb & M & I & Hle & Hlt & Hstop).
  destruct (Nat.eq_dec (length configs) num) as [|Hne]; [assumption|exfalso].
  assert (Hn' : n = (10 * num)%nat) by (apply Hlt; lia).
  assert (cs = cands) by (eapply drawn_list_fun; eauto; lia). subst cs.
  assert (HF : filter acc cands = filter accept cands).
  { apply filter_ext. intros p. apply eq_true_iff_eq. rewrite Hacc, Ha. reflexivity. }
  assert (length configs = length (filter accept cands)) by (rewrite <- HF, <- M, map_length; reflexivity). lia.
Qed.

(** Every returned start is in the advertised ranges, is safe, and its hitch is within 18 degrees. *)
Lemma drawn_in : forall g cands s p, drawn_list g s cands -> In p cands -> exists s1 s2, drawn g s1 s2 p.
Proof.
  intros g cands. induction cands as [|c cs IH]; intros s p H Hp; [contradiction|].
  destruct H as (s' & D & Rr). destruct Hp as [->|Hp]; eauto.
Qed.
Lemma l_C43_returned_starts :
  forall g num seed t, uniform_in_range g -> In t (fst (sample_initial_conditions g num seed)) ->
  -12 <= tr_dx t <= 12 /\ 2 <= tr_dy t <= 7 /\
  (- PI / 10 <= tr_th1 t <= PI / 10 \/ PI - PI / 10 <= tr_th1 t <= PI + PI / 10) /\
  Rabs (tr_th1 t - tr_th2 t) <= PI / 10 /\
  tt_safe default_params scene_circles scene_walls (start_state (p_l1 default_params) (pose_of t)).
Proof.
  intros g num seed t Hu Ht. destruct (sample_initial_conditions g num seed) as [configs n] eqn:E. cbn [fst] in Ht.
  destruct (l_C43_sampling g num seed configs n E) as (cs & acc & Hacc & D & L & Hb & M & I & Hle & Hlt & Hstop).
  assert (Hp : In (pose_of t) (filter acc cs)) by (rewrite <- M; apply in_map; exact Ht).
  apply filter_In in Hp as [Hin Ha]. apply Hacc in Ha.
  destruct (drawn_in _ _ _ _ D Hin) as (s1 & s2 & Dr). clear - Hu Ha Dr.
  destruct t as [dx dy th1 th2 id]. cbn [pose_of tr_dx tr_dy tr_th1 tr_th2] in *.
  destruct Dr as (a1 & a2 & a3 & a4 & c & o & A1 & A2 & A3 & A4 & A5 & A6).
  pose proof PI_RGT_0 as HPI.
  pose proof (Hu s1 (-12) 12 ltac:(lra)) as U1. rewrite A1 in U1.
  pose proof (Hu a1 2 7 ltac:(lra)) as U2. rewrite A2 in U2.
  pose proof (Hu a4 (- PI / 10) (PI / 10) ltac:(lra)) as U5. rewrite A5 in U5. cbn [fst] in *.
  split; [exact U1|]. split; [exact U2|]. split.
  { destruct A4 as [[_ A4]|[_ A4]].
    - left. pose proof (Hu a3 (- PI / 10) (PI / 10) ltac:(lra)) as U4. rewrite A4 in U4. exact U4.
    - right. pose proof (Hu a3 (PI - PI / 10) (PI + PI / 10) ltac:(lra)) as U4. rewrite A4 in U4. exact U4. }
  split; [|exact Ha]. cbn in A6. apply Rabs_le. lra.
Qed.

(** The environment of a trial (one-trailer class): the evaluation scene, the requested parameters,
    the drawn start, and the goal heading -90 degrees; in the parking case the goal is the centre of
    the lower target space. *)
Lemma l_C43_trial_environment :
  forall g t, g_name g = "tt2d" -> g_trailers g <> 0%Z -> (g_trailers g < 2)%Z ->
  exists r gx gy, create_trial_environment g t = Ok r /\ rb_kind r = KTT /\ as_requested g (rb_p r) /\
    rb_circ r = scene_circles /\ rb_rect r = scene_walls /\
    (exists q, q = start_state (g_l1 g) (pose_of t) /\ rb_x0 r = Some [t_px q; t_py q; t_th1 q; t_th2 q]) /\
    rb_xg r = Some [gx; gy; - PI / 2; - PI / 2] /\
    (g_case g = "parking" -> gx = -7/4 /\ gy = -17/2).
Proof.
  intros g t Hn H0 H2. destruct (create_trial_ok g t Hn H0 H2) as (r & gx & gy & E & K1 & K2 & K3 & K4 & K5 & K6 & K7 & _).
  exists r, gx, gy. split; [exact E|]. split; [exact K1|].
  split. { rewrite K2. unfold as_requested. repeat split. }
  split; [exact K3|]. split; [exact K4|]. split. { exists (start_state (g_l1 g) (pose_of t)). destruct t. split; [reflexivity|exact K5]. }
  split; [exact K6|exact K7].
Qed.

(** ** Shielded trials *)

Lemma vec4_start : forall l1 t, vec4 (start_vec l1 t) = Some (start_state l1 (pose_of t)).
Proof. intros l1 [dx dy th1 th2 id]. reflexivity. Qed.

Lemma same_dims_safe : forall g circ rect q, default_dimensions g ->
  tt_safe default_params circ rect q -> tt_safe (params_of (kwargs g) 1) circ rect q.
Proof.
  intros g circ rect q (D1 & D2 & D3 & D4 & D5 & D6 & D7 & D8 & D9) H.
  assert (EB : tt_bodies (params_of (kwargs g) 1) q = tt_bodies default_params q).
  { unfold tt_bodies, tractor_body, trailer_body, params_of, kwargs, default_params.
    cbn [p_lr p_l1 p_lf1 p_trac_w p_lh p_l2 p_lf2 p_lr2 p_trail_w k_lr k_l1 k_lf1 k_trac_w k_lh k_l2 k_lf2 k_lr2 k_trail_w].
    rewrite D1, D2, D3, D4, D5, D6, D7, D8, D9. reflexivity. }
  destruct H as [Hc Hh]. split.
  - unfold tt_clear in *. rewrite EB. exact Hc.
  - exact Hh.
Qed.
Lemma same_dims_sized : forall g, default_dimensions g -> tt_sized (params_of (kwargs g) 1).
Proof.
  intros g (D1 & D2 & D3 & D4 & D5 & D6 & D7 & D8 & D9).
  unfold tt_sized, tractor_sized, params_of, kwargs. cbn. lra.
Qed.

Lemma each_In : forall {A B} (f : A -> Res B) l ys y, each f l = Ok ys -> In y ys -> exists x, In x l /\ f x = Ok y.
Proof.
  intros A B f l. induction l as [|x xs IH]; intros ys y H Hy; cbn in H.
  - injection H as <-. contradiction.
  - destruct (f x) as [b|] eqn:E; [|discriminate]. destruct (each f xs) as [bs|] eqn:E2; [|discriminate].
    injection H as <-. destruct Hy as [<-|Hy]; [exists x; split; [left; reflexivity|exact E]|].
    destruct (IH bs y eq_refl Hy) as (x' & Hx & Ex). exists x'. split; [right|]; assumption.
Qed.
Lemma each_length : forall {A B} (f : A -> Res B) l ys, each f l = Ok ys -> length ys = length l.
Proof.
  intros A B f l. induction l as [|x xs IH]; intros ys H; cbn in H.
  - injection H as <-. reflexivity.
  - destruct (f x) as [b|] eqn:E; [|discriminate]. destruct (each f xs) as [bs|] eqn:E2; [|discriminate].
    injection H as <-. cbn. f_equal. apply IH. reflexivity.
Qed.

(** One shielded trial of the one-trailer class from a safe start, any dimensions: the verdict
    reports neither collision nor jackknife, and success means exactly "within 4 m". *)
Lemma l_C42_shielded_trial :
  forall g proj guide logpd rx c rg t v,
  g_name g = "tt2d" -> g_trailers g <> 0%Z -> (g_trailers g < 2)%Z ->
  g_proj g = false -> g_guid g = false -> g_sh_coll g = true -> g_sh_hitch g = true ->
  tt_sized (params_of (kwargs g) 1) ->
  tt_safe (params_of (kwargs g) 1) scene_circles scene_walls (start_state (g_l1 g) (pose_of t)) ->
  tt_trial g proj guide logpd rx c rg t = Ok v ->
  v_coll v = false /\ v_jack v = false /\ (v_success v = true <-> v_error v <= 4).
Proof.
  intros g proj guide logpd rx c rg t v Hn H0 H2 Hp Hg Hc Hh Hs Hsafe H. unfold tt_trial in H.
  destruct (create_trial_ok g t Hn H0 H2) as (r & gx & gy & E & K1 & K2 & K3 & K4 & K5 & K6 & K7 & _).
  rewrite E in H. unfold tt_of_robot in H. rewrite K1, K5, K6, vec4_start in H. cbn [vec4] in H.
  rewrite K2, K3, K4 in H.
  set (s := mkTTSelf (params_of (kwargs g) 1) scene_circles scene_walls (mkTT gx gy (- PI / 2) (- PI / 2))) in *.
  destruct (run_diffusion _ _ _) as [out|] eqn:Er; [|discriminate].
  pose proof (l_C01_tt_returned_trajectory_safe s (start_state (g_l1 g) (pose_of t)) _ _ _ _ c rg out Hp Hg Hc Hh Hs Hsafe Er) as HF.
  destruct (l_C42_tt_verdict s 4 (o_traj out) v (mkTT 0 0 0 0) Hs scene_proper H) as (V1 & V2 & V3 & V4 & V5 & V6).
  assert (A : v_coll v = false).
  { apply V2. eapply Forall_impl; [|exact HF]. intros q [Hq _]. exact Hq. }
  assert (B : v_jack v = false).
  { apply V3. eapply Forall_impl; [|exact HF]. intros q [_ Hq]. exact Hq. }
  split; [exact A|]. split; [exact B|]. rewrite V1, V6, Rmin_le_iff. tauto.
Qed.

Lemma np_mean_zero : forall {A} (f : A -> bool) l, l <> [] -> (forall x, In x l -> f x = false) ->
  np_mean (map (fun x => b2r (f x)) l) = Some 0.
Proof.
  intros A f l Hl H. destruct l as [|x xs]; [contradiction|]. unfold np_mean.
  cbn [map]. f_equal. unfold Rmean.
  assert (E : Rsum (b2r (f x) :: map (fun x0 => b2r (f x0)) xs) = 0).
  { change (b2r (f x) :: map (fun x0 => b2r (f x0)) xs) with (map (fun x0 => b2r (f x0)) (x :: xs)).
    clear Hl. revert H. generalize (x :: xs). intros l. induction l as [|y ys IH]; intros H; [reflexivity|].
    cbn [map Rsum]. rewrite (H y) by (left; reflexivity). rewrite IH by (intros; apply H; right; assumption). cbn. lra. }
  rewrite E. unfold Rdiv. ring.
Qed.

(** The whole shielded evaluation of the one-trailer class with default dimensions: no trial ever
    reports a collision or a jackknife, both rates are 0 (if any trial ran), and the successful
    trials are those ending within 4 m of the goal. *)
Lemma l_C42_shielded_statistics :
  forall g proj guide logpd rx c rg ng num seed results st,
  g_name g = "tt2d" -> g_trailers g <> 0%Z -> (g_trailers g < 2)%Z ->
  g_proj g = false -> g_guid g = false -> g_sh_coll g = true -> g_sh_hitch g = true -> default_dimensions g ->
  tt_statistics g proj guide logpd rx c rg ng num seed = Ok (results, st) ->
  (forall v, In v results -> v_coll v = false /\ v_jack v = false /\ (v_success v = true <-> v_error v <= 4)) /\
  (results <> [] -> sr_collision_rate st = Some 0 /\ sr_jackknife_rate st = Some 0) /\
  length results = length (fst (sample_initial_conditions ng num seed)).
Proof.
  intros g proj guide logpd rx c rg ng num seed results st Hn H0 H2 Hp Hg Hc Hh Hd H. unfold tt_statistics in H.
  destruct (each _ _) as [rs|] eqn:Ee; [|discriminate].
  destruct (summarize num rs) as [st'|] eqn:Es; [|discriminate]. injection H as <- <-.
  assert (HV : forall v, In v rs -> v_coll v = false /\ v_jack v = false /\ (v_success v = true <-> v_error v <= 4)).
  { intros v Hv. destruct (each_In _ _ _ _ Ee Hv) as (t & Ht & Et).
    destruct (sample_initial_conditions ng num seed) as [configs n] eqn:E. cbn [fst] in Ht.
    destruct (l_C43_sampling ng num seed configs n E) as (cs & acc & Hacc & D & L & Hb & M & I & _).
    assert (Hpo : In (pose_of t) (filter acc cs)) by (rewrite <- M; apply in_map; exact Ht).
    apply filter_In in Hpo as [_ Ha]. apply Hacc in Ha.
    eapply l_C42_shielded_trial; try eassumption; [apply same_dims_sized; exact Hd|].
    apply same_dims_safe; [exact Hd|]. replace (g_l1 g) with (p_l1 default_params); [exact Ha|].
    destruct Hd as (-> & _). reflexivity. }
  split; [exact HV|]. split.
  - intros Hne. unfold summarize in Es. destruct (Nat.eqb num 0); [discriminate|]. injection Es as <-.
    cbn [sr_collision_rate sr_jackknife_rate]. split; apply np_mean_zero; auto; intros x Hx; apply (HV x Hx).
  - eapply each_length. exact Ee.
Qed.

(** ** Aggregates *)

Lemma Rsum_b2r : forall {A} (f : A -> bool) l, Rsum (map (fun x => b2r (f x)) l) = INR (length (filter f l)).
Proof.
  intros A f l. induction l as [|x xs IH]; [reflexivity|]. cbn [map Rsum filter]. rewrite IH.
  destruct (f x); cbn [b2r length]; rewrite ?S_INR; lra.
Qed.

(** The rates are fractions of the trials run; the success rate divides by the number requested,
    and is the fraction of the trials run when all requested trials were run. The average position
    error is over the successful trials; the statistics exist for every positive request. *)
Lemma l_C42_aggregates :
  forall num results, (0 < num)%nat -> results <> [] ->
  exists st, summarize num results = Ok st /\
    sr_collision_rate st = Some (fraction v_coll results) /\
    sr_jackknife_rate st = Some (fraction v_jack results) /\
    sr_success_rate st = INR (length (filter v_success results)) / INR num /\
    (length results = num -> sr_success_rate st = fraction v_success results) /\
    (forall good, good = filter v_success results -> good <> [] ->
       sr_position_error st = Some (mean (map v_error good))) /\
    (filter v_success results = [] -> sr_position_error st = None).
Proof.
  intros num results Hn Hr. unfold summarize. destruct (Nat.eqb num 0) eqn:E; [apply Nat.eqb_eq in E; lia|].
  eexists. split; [reflexivity|]. cbn [sr_collision_rate sr_jackknife_rate sr_success_rate sr_position_error].
  assert (HM : forall f : verdict -> bool, np_mean (map (fun r => b2r (f r)) results) = Some (fraction f results)).
  { intros f. destruct results as [|x xs] eqn:Ex; [contradiction|]. rewrite <- Ex. unfold np_mean.
    destruct (map (fun r => b2r (f r)) results) eqn:Em; [rewrite Ex in Em; discriminate|]. rewrite <- Em.
    unfold Rmean, fraction. rewrite Rsum_b2r, map_length. reflexivity. }
  split; [apply (HM v_coll)|]. split; [apply (HM v_jack)|]. split; [reflexivity|].
  split. { intros <-. reflexivity. }
  split.
  - intros good -> Hg. destruct (filter v_success results) as [|x xs] eqn:Ef; [contradiction|]. cbn [map np_mean].
    reflexivity.
  - intros ->. reflexivity.
Qed.

(** With fewer valid starts than requested trials the success rate is not the fraction of the
    trials run: one successful trial out of one, ten requested, gives 0.1. *)
Lemma l_C42_success_rate_is_fraction_of_trials_run_refuted :
  exists st, summarize 10 [mkVerdict true 1 1 1 false false] = Ok st /\
    fraction v_success [mkVerdict true 1 1 1 false false] = 1 /\ sr_success_rate st = 1 / 10.
Proof.
  eexists. split; [reflexivity|]. split.
  - unfold fraction. cbn. lra.
  - cbn [sr_success_rate]. change (length (filter v_success [mkVerdict true 1 1 1 false false])) with 1%nat.
    rewrite !INR_IZR_INZ. reflexivity.
Qed.
(** Requesting no trials raises. *)
Lemma l_C42_zero_trials_raise : forall results, summarize 0 results = Err ZeroDivisionError.
Proof. reflexivity. Qed.

(** ** Existence, examples, refutation *)

Lemma scene_low : forall c, In c scene_circles -> c_y c <= 1/2 /\ c_r c = 1.
Proof.
  intros c Hc. unfold scene_circles in Hc. cbn [flat_map app] in Hc.
  repeat match type of Hc with
    | In _ [] => contradiction
    | _ => destruct Hc as [<-|Hc]; [cbn; lra|]
    end.
Qed.

(** Every start with both headings 0 and dy >= 2 is accepted. *)
Lemma level_start_valid : forall dx dy id, 2 <= dy -> is_valid (mkTrial dx dy 0 0 id) = true.
Proof.
  intros dx dy id Hdy. apply l_C43_accepted_iff_safe. cbn [pose_of tr_dx tr_dy tr_th1 tr_th2 start_state].
  assert (Hlow : forall G P, In G (tt_bodies default_params (mkTT (-7/4 + dx - p_l1 default_params * cos 0) (2 + dy) 0 0)) ->
            solid G P -> 5/2 < snd P).
  { intros G P HG HP. cbn [tt_bodies In] in HG. destruct HG as [<-|[<-|[]]].
    - unfold tractor_body in HP. cbn [t_px t_py t_th1 t_th2] in HP.
      eapply solid_level; [exact HP|]. cbn. lra.
    - unfold trailer_body in HP. cbn [t_px t_py t_th1 t_th2] in HP.
      eapply solid_level; [exact HP|]. unfold ahead; cbn. rewrite sin_0. lra. }
  split; [split|].
  - intros G c HG Hc P HP. apply outline_solid' in HP. specialize (Hlow G P HG HP). destruct (scene_low c Hc) as [Hy Hr].
    destruct (Rlt_le_dec (c_r c) (dist P (c_x c, c_y c))) as [H|H]; [exact H|exfalso].
    apply disc_box in H. cbn [fst snd] in H. lra.
  - intros G o HG Ho P [H1 H2]. specialize (Hlow G P HG H1). cbn in Ho. destruct Ho as [<-|[]].
    destruct H2 as (a & b & Ha & Hb & ->). cbn in Ha, Hb, Hlow. rewrite ?sin_0, ?cos_0 in Hlow. lra.
  - apply hitch_ok_zero. cbn. unfold phi_max_const. pose proof PI_RGT_0. lra.
Qed.

(** The evaluation of a one-trailer configuration never raises for a positive number of trials. *)
Lemma l_C42_evaluation_total :
  forall g proj guide logpd rx c rg ng num seed,
  g_name g = "tt2d" -> g_trailers g <> 0%Z -> (g_trailers g < 2)%Z -> (0 < num)%nat ->
  exists results st, tt_statistics g proj guide logpd rx c rg ng num seed = Ok (results, st).
Proof.
  intros g proj guide logpd rx c rg ng num seed Hn H0 H2 Hnum. unfold tt_statistics.
  assert (HT : forall t, exists v, tt_trial g proj guide logpd rx c rg t = Ok v).
  { intros t. unfold tt_trial.
    destruct (create_trial_ok g t Hn H0 H2) as (r & gx & gy & E & K1 & K2 & K3 & K4 & K5 & K6 & K7 & _).
    rewrite E. unfold tt_of_robot. rewrite K1, K5, K6, vec4_start. cbn [vec4].
    destruct (run_diffusion _ _ _) as [out|] eqn:Er; [|discriminate].
    unfold run_diffusion in Er. injection Er as <-.
    unfold run_diffusion_core. destruct (reverse_loop _ _ _ _ _ _). cbn [o_traj]. apply l_C42_always_defined. }
  assert (HE : forall l, exists rs, each (tt_trial g proj guide logpd rx c rg) l = Ok rs).
  { induction l as [|t ts [rs IH]]; [eexists; reflexivity|]. cbn. destruct (HT t) as [v ->]. rewrite IH. eexists; reflexivity. }
  destruct (HE (fst (sample_initial_conditions ng num seed))) as [rs ->].
  unfold summarize. destruct (Nat.eqb num 0) eqn:E; [apply Nat.eqb_eq in E; lia|]. do 2 eexists; reflexivity.
Qed.

(** A generator that always returns the middle of the interval: the hypotheses of the sampling
    theorems are met and five trials are found. *)
Definition mid_rng : np_rng := mkNpRng unit (fun _ => tt) (fun _ lo hi => ((lo + hi) / 2, tt)) (fun _ => (0, tt)).
Lemma mid_draw : forall s id, draw_trial mid_rng s id = (mkTrial 0 (9/2) 0 0 id, tt).
Proof.
  intros s id. unfold draw_trial, mid_rng. cbn [np_uniform np_random np_state].
  assert (E : Rltb 0 (1/2) = true) by (apply Rltb_true; lra). rewrite E.
  f_equal. f_equal; field.
Qed.
Lemma mid_step : forall num left att s cfgs, sample_loop mid_rng num (S left) att s cfgs =
  if Nat.ltb (length cfgs) num then sample_loop mid_rng num left (S att) tt (cfgs ++ [mkTrial 0 (9/2) 0 0 (length cfgs)])
  else (cfgs, att).
Proof.
  intros. cbn [sample_loop]. rewrite mid_draw.
  rewrite level_start_valid by lra. reflexivity.
Qed.
Lemma x_C43_five_trials :
  uniform_in_range mid_rng /\
  exists configs, sample_initial_conditions mid_rng 5 42 = (configs, 5%nat) /\ length configs = 5%nat /\
    map pose_of configs = repeat (0, 9/2, 0, 0) 5.
Proof.
  split. { intros s lo hi H. cbn. lra. }
  exists (map (fun i => mkTrial 0 (9/2) 0 0 i) (seq 0 5)).
  split; [|split; reflexivity].
  unfold sample_initial_conditions. change (5 * 10)%nat with (S (S (S (S (S (S 44)))))). cbn [np_seed mid_rng].
  do 5 (rewrite mid_step; cbn [length app Nat.ltb Nat.leb]).
  rewrite mid_step. reflexivity.
Qed.

(** The start check ignores the configured vehicle: with a configured trailer width of 17 m an
    accepted start puts the trailer's side on an obstacle centre. *)
Definition wide_args : env_args := {|
  g_name := "tt2d"; g_case := "parking"; g_env := None; g_dt := 2/10; g_H := 50; g_motion := 0;
  g_coll_pen := 15/100; g_hitch_pen := 10/100; g_sh_coll := true; g_sh_hitch := true;
  g_proj := false; g_guid := false; g_rew_thr := 25; g_ref_thr := 5; g_max_w := 75/100;
  g_hitch_w := 2/10; g_l1 := 323/100; g_l2 := 29/10; g_lh := 115/100; g_lf1 := 9/10;
  g_lr := 1848/1000; g_lf2 := 142/100; g_lr2 := 3225/1000; g_trac_w := 2; g_trail_w := 17;
  g_vmax := 3; g_ddeg := 55; g_d_fac := 1; g_kswitch := 25/10; g_steer_w := 5/100; g_pref_w := 5/100;
  g_head_w := 5/10; g_term_thr := 10; g_term_w := 1; g_rpos_w := 3/10; g_rth1_w := 5/10;
  g_rth2_w := 2/10; g_amax := 2; g_omax := 1; g_trailers := 1 |}.
(** C43 (finding): a sampled start can be valid for the default vehicle used by the sampler and collide for the configured one. *)
Lemma l_C43_configured_vehicle_checked_refuted :
  exists t r q, is_valid t = true /\ create_trial_environment wide_args t = Ok r /\
    rb_x0 r = Some [t_px q; t_py q; t_th1 q; t_th2 q] /\ ~ tt_safe (rb_p r) (rb_circ r) (rb_rect r) q.
Proof.
  set (t := mkTrial (28/100) 7 0 0 0).
  destruct (create_trial_ok wide_args t) as (r & gx & gy & E & K1 & K2 & K3 & K4 & K5 & K6 & K7 & _); [reflexivity|discriminate|reflexivity|].
  exists t, r, (start_state (323/100) (pose_of t)).
  split; [apply level_start_valid; lra|]. split; [exact E|]. split; [exact K5|].
  rewrite K2, K3, K4. intros [[Hc _] _].
  specialize (Hc (trailer_body (ahead (-7/4 + 28/100 - 323/100 * cos 0, 2 + 7) 0 (- (115/100))) 0 (29/10) (142/100) (3225/1000) 17)
                (mkCircle (-35/4) (-3/2 + 2) 1)).
  assert (H : c_r (mkCircle (-35/4) (-3/2 + 2) 1) < dist (-35/4, -3/2 + 2) (c_x (mkCircle (-35/4) (-3/2 + 2) 1), c_y (mkCircle (-35/4) (-3/2 + 2) 1))).
  { apply Hc.
    - right; left. reflexivity.
    - unfold scene_circles. cbn [flat_map app]. do 22 right. left. reflexivity.
    - exists 0, (- (17 / 2)). cbn [rg_back rg_front rg_half rg_org rg_ang trailer_body].
      split; [lra|]. split; [lra|]. split; [right; right; left; reflexivity|].
      unfold at_frame, ahead. cbn [fst snd]. rewrite cos_0, sin_0. apply f_equal2; field. }
  cbn [c_r c_x c_y] in H. unfold dist, dist2 in H. cbn [fst snd] in H.
  replace ((-35/4 - -35/4) * (-35/4 - -35/4) + (-3/2 + 2 - (-3/2 + 2)) * (-3/2 + 2 - (-3/2 + 2))) with 0 in H by ring.
  rewrite sqrt_0 in H. lra.
Qed.

(** The hypotheses of the shielded evaluation are met by get_env's default arguments. *)
Lemma x_C42_default_configuration :
  let g := default_env_args "tt2d" "parking" 1 in
  default_dimensions g /\ g_proj g = false /\ g_guid g = false /\ g_sh_coll g = true /\ g_sh_hitch g = true /\
  g_name g = "tt2d" /\ g_trailers g <> 0%Z /\ (g_trailers g < 2)%Z.
Proof. cbv zeta. unfold default_dimensions. cbn. repeat split; try reflexivity; discriminate. Qed.

(** ** Timing *)

(** Average and spread are taken over the positive measurements only; with none they are 0. *)
Lemma l_C42_times :
  forall times,
  ((forall t, In t times -> t <= 0) -> time_statistics times = (0, 0)) /\
  ((forall t, In t times -> 0 < t) -> times <> [] -> fst (time_statistics times) = mean times).
Proof.
  intros times. unfold time_statistics. split.
  - intros H. assert (E : filter (fun t => Rltb 0 t) times = []).
    { induction times as [|t ts IH]; [reflexivity|]. cbn.
      assert (Et : Rltb 0 t = false) by (apply Rltb_false; apply H; left; reflexivity). rewrite Et.
      apply IH. intros; apply H; right; assumption. }
    rewrite E. reflexivity.
  - intros H Hne. assert (E : filter (fun t => Rltb 0 t) times = times).
    { clear Hne. induction times as [|t ts IH]; [reflexivity|]. cbn.
      assert (Et : Rltb 0 t = true) by (apply Rltb_true; apply H; left; reflexivity). rewrite Et.
      f_equal. apply IH. intros; apply H; right; assumption. }
    rewrite E. destruct times; [contradiction|]. reflexivity.
Qed.
