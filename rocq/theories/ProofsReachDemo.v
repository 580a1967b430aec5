(** * ProofsReachDemo: obstacles out of reach and the code's own demonstration (C78). *)
From Coq Require Import String Permutation.
From Verif Require Import Base BaseFacts Params Geom TT2d Bicycle NTrailer Acc SpecGeom SpecBodies SpecDyn SpecReach
  Demo Guidance Rollout Setup Planner Instances ProofsGeom ProofsBodies ProofsKin ProofsRobots ProofsStep ProofsDemo ProofsReach.
Open Scope R_scope.

(** ** Every point the demonstration tests lies in the box between start and goal *)
Definition spanned (S G P : point) : Prop :=
  Rabs (fst P - fst S) <= Rabs (fst G - fst S) /\ Rabs (snd P - snd S) <= Rabs (snd G - snd S).
Lemma spanned_near S G P : spanned S G P -> dist P S <= dist G S.
Proof.
  intros [H1 H2]. unfold dist, dist2. apply sqrt_le_1_alt. apply Rplus_le_compat; apply Rsqr_le_abs_1; assumption.
Qed.
Lemma convex_abs a b x d t : 0 <= t <= 1 -> Rabs (a - x) <= d -> Rabs (b - x) <= d -> Rabs (a + t * (b - a) - x) <= d.
Proof.
  intros Ht Ha Hb. apply Rabs_le.
  assert (A : - d <= a - x <= d) by (split; unfold Rabs in Ha; destruct (Rcase_abs (a - x)); lra).
  assert (B : - d <= b - x <= d) by (split; unfold Rabs in Hb; destruct (Rcase_abs (b - x)); lra).
  split; nra.
Qed.
Lemma spanned_lerp S G a b t : 0 <= t <= 1 -> spanned S G a -> spanned S G b -> spanned S G (lerp a b t).
Proof. intros Ht [A1 A2] [B1 B2]. unfold lerp. split; cbn [fst snd]; apply convex_abs; assumption. Qed.
Lemma line_same S G circ circ' rect rect' a b : same_near S (dist G S) circ circ' rect rect' ->
  spanned S G a -> spanned S G b -> check_line circ' rect' a b = check_line circ rect a b.
Proof.
  intros [HC HR] Ha Hb. unfold check_line.
  assert (E : forall l, (forall t, In t l -> 0 <= t <= 1) ->
    existsb (fun t => existsb (point_in_circle (lerp a b t)) circ' || existsb (point_in_rect (lerp a b t)) rect') l =
    existsb (fun t => existsb (point_in_circle (lerp a b t)) circ || existsb (point_in_rect (lerp a b t)) rect) l).
  { induction l as [|t l IH]; intros Hl; cbn [existsb]; [reflexivity|].
    rewrite IH by (intros u Hu; apply Hl; right; exact Hu). f_equal.
    assert (HP : dist (lerp a b t) S <= dist G S) by (apply spanned_near, spanned_lerp; [apply Hl; left; reflexivity| |]; assumption).
    f_equal; apply bool_iff; rewrite !existsb_false_iff.
    - assert (M : forall c, point_in_circle (lerp a b t) c = true -> (In c circ <-> In c circ')).
      { intros c Hc. apply HC. exists (lerp a b t). split; [apply point_in_circle_spec; exact Hc|exact HP]. }
      split; intros K c Hc; destruct (point_in_circle (lerp a b t) c) eqn:EP; try reflexivity; rewrite <- EP; apply K; apply (M c EP); exact Hc.
    - assert (M : forall o, point_in_rect (lerp a b t) o = true -> (In o rect <-> In o rect')).
      { intros o Ho. apply HR. exists (lerp a b t). split; [apply point_in_rect_spec; exact Ho|exact HP]. }
      split; intros K o Ho; destruct (point_in_rect (lerp a b t) o) eqn:EP; try reflexivity; rewrite <- EP; apply K; apply (M o EP); exact Ho. }
  apply E. intros t Ht. apply in_lin_closed50 in Ht. destruct Ht as (k & Hk & ->).
  assert (INR k <= 49) by (replace 49 with (INR 49) by (cbn; lra); apply le_INR; lia). pose proof (pos_INR k). lra.
Qed.
Lemma waypoints_same S G circ circ' rect rect' dir : same_near S (dist G S) circ circ' rect rect' ->
  waypoints circ' rect' dir S G = waypoints circ rect dir S G.
Proof.
  intros HN. assert (L := fun a b => line_same S G circ circ' rect rect' a b HN).
  pose proof (Rabs_pos (fst G - fst S)) as P1. pose proof (Rabs_pos (snd G - snd S)) as P2.
  assert (HS : spanned S G S) by (split; rewrite Rminus_diag_eq, Rabs_R0 by reflexivity; lra).
  assert (HG : spanned S G G) by (split; lra).
  assert (H1 : spanned S G (fst G, snd S)) by (split; cbn [fst snd]; [lra|rewrite Rminus_diag_eq, Rabs_R0 by reflexivity; lra]).
  assert (H2 : spanned S G (fst S, snd G)) by (split; cbn [fst snd]; [rewrite Rminus_diag_eq, Rabs_R0 by reflexivity; lra|lra]).
  unfold waypoints. destruct (horizontal dir); rewrite !L by assumption; reflexivity.
Qed.
(** C78: the demonstration depends only on the obstacles within the start-goal distance of the start. *)
Lemma l_C78_demonstration_only_near_obstacles :
  forall H circ rect circ' rect' (start : point) (goal : ttq) dir wmax pref,
  same_near start (dist (t_px goal, t_py goal) start) circ circ' rect rect' ->
  demo H circ' rect' start goal dir wmax pref = demo H circ rect start goal dir wmax pref.
Proof.
  intros H circ rect circ' rect' start goal dir wmax pref HN. unfold demo.
  rewrite (waypoints_same start (t_px goal, t_py goal) circ circ' rect rect' dir HN). reflexivity.
Qed.
Lemma same_near_le P r r' c c' o o' : r' <= r -> same_near P r c c' o o' -> same_near P r' c c' o o'.
Proof.
  intros Hr [H1 H2]. split.
  - intros x (X & A & B). apply H1. exists X. split; [exact A|lra].
  - intros x (X & A & B). apply H2. exists X. split; [exact A|lra].
Qed.

(** C78, tractor-trailer with the code's own demonstration: obstacles beyond both the vehicle's reach
    and the start-goal distance change neither the demonstration nor the plan guided by it. *)
Lemma l_C78_tt_with_demonstration :
  forall (s : tt_self) circ' rect' (x0 : ttq) proj guide dir wmax pref (g : cfg) (rg : prng) D,
  p_proj (ts_p s) = false -> p_guid (ts_p s) = false -> 0 <= p_vmax (ts_p s) -> 0 <= p_dt (ts_p s) ->
  tt_sized (ts_p s) -> proper_obstacles (ts_circ s) (ts_rect s) -> proper_obstacles circ' rect' ->
  (forall q, reach D (t_px q, t_py q) (tt_bodies (ts_p s) q)) ->
  let s' := mkTTSelf (ts_p s) circ' rect' (ts_xg s) in
  let start := (t_px x0, t_py x0) in
  same_near start (Rmax (travel (ts_p s) (S (g_Hsample g)) + D) (dist (t_px (ts_xg s), t_py (ts_xg s)) start))
    (ts_circ s) circ' (ts_rect s) rect' ->
  tt_demo s' x0 dir wmax pref = tt_demo s x0 dir wmax pref /\
  forall rows, run_diffusion (tt_penv s' x0 proj guide (tt_logpd s' rows) (tt_rew_xref s' rows)) (Some g) rg
             = run_diffusion (tt_penv s x0 proj guide (tt_logpd s rows) (tt_rew_xref s rows)) (Some g) rg.
Proof.
  intros s circ' rect' x0 proj guide dir wmax pref g rg D Hp Hg Hv Hd Hs O O' HD s' start HN. split.
  - apply l_C78_demonstration_only_near_obstacles. apply (same_near_le _ _ _ _ _ _ _ (Rmax_r _ _) HN).
  - intros rows. apply (l_C78_tt_only_reachable_obstacles s circ' rect' x0 proj guide (tt_logpd s rows) (tt_rew_xref s rows) g rg D); try assumption.
    apply (same_near_le _ _ _ _ _ _ _ (Rmax_l _ _) HN).
Qed.
(** C78, bicycle with demonstration. *)
Lemma l_C78_bk_with_demonstration :
  forall (s : bk_self) circ' rect' (x0 : bkq) proj guide dir wmax pref (g : cfg) (rg : prng) D,
  p_proj (bs_p s) = false -> p_guid (bs_p s) = false -> 0 <= p_vmax (bs_p s) -> 0 <= p_dt (bs_p s) ->
  tractor_sized (bs_p s) -> proper_obstacles (bs_circ s) (bs_rect s) -> proper_obstacles circ' rect' ->
  (forall q, reach D (b_px q, b_py q) (bk_bodies (bs_p s) q)) ->
  let s' := mkBKSelf (bs_p s) circ' rect' (bs_xg s) in
  let start := (b_px x0, b_py x0) in
  same_near start (Rmax (travel (bs_p s) (S (g_Hsample g)) + D) (dist (b_px (bs_xg s), b_py (bs_xg s)) start))
    (bs_circ s) circ' (bs_rect s) rect' ->
  bk_demo s' x0 dir wmax pref = bk_demo s x0 dir wmax pref /\
  forall rows, run_diffusion (bk_penv s' x0 proj guide (bk_logpd s' rows) (bk_rew_xref s' rows)) (Some g) rg
             = run_diffusion (bk_penv s x0 proj guide (bk_logpd s rows) (bk_rew_xref s rows)) (Some g) rg.
Proof.
  intros s circ' rect' x0 proj guide dir wmax pref g rg D Hp Hg Hv Hd Hs O O' HD s' start HN. split.
  - apply l_C78_demonstration_only_near_obstacles. apply (same_near_le _ _ _ _ _ _ _ (Rmax_r _ _) HN).
  - intros rows. apply (l_C78_bk_only_reachable_obstacles s circ' rect' x0 proj guide (bk_logpd s rows) (bk_rew_xref s rows) g rg D); try assumption.
    apply (same_near_le _ _ _ _ _ _ _ (Rmax_l _ _) HN).
Qed.
(** C78, N-trailer with demonstration. *)
Lemma l_C78_nt_with_demonstration :
  forall (s : nt_self) circ' rect' (x0 : ntq) guide dir wmax pref (g : cfg) (rg : prng) D,
  p_guid (ns_p s) = false -> 0 <= p_vmax (ns_p s) -> 0 <= p_dt (ns_p s) ->
  nt_sized s -> proper_obstacles (ns_circ s) (ns_rect s) -> proper_obstacles circ' rect' ->
  (forall q, reach D (n_px q, n_py q) (nt_bodies s q)) ->
  let s' := mkNTSelf (ns_p s) (ns_len s) (ns_front s) (ns_rear s) circ' rect' (ns_xg s) in
  let start := (n_px x0, n_py x0) in
  same_near start (Rmax (travel (ns_p s) (S (g_Hsample g)) + D) (dist (n_px (ns_xg s), n_py (ns_xg s)) start))
    (ns_circ s) circ' (ns_rect s) rect' ->
  nt_demo s' x0 dir wmax pref = nt_demo s x0 dir wmax pref /\
  forall rows, nt_run s' x0 guide (nt_logpd s' rows) (nt_rew_xref s' rows) g rg
             = nt_run s x0 guide (nt_logpd s rows) (nt_rew_xref s rows) g rg.
Proof.
  intros s circ' rect' x0 guide dir wmax pref g rg D Hg Hv Hd Hs O O' HD s' start HN. split.
  - apply l_C78_demonstration_only_near_obstacles. apply (same_near_le _ _ _ _ _ _ _ (Rmax_r _ _) HN).
  - intros rows. apply (l_C78_nt_only_reachable_obstacles s circ' rect' x0 guide (nt_logpd s rows) (nt_rew_xref s rows) g rg D); try assumption.
    apply (same_near_le _ _ _ _ _ _ _ (Rmax_l _ _) HN).
Qed.
(** C78, acceleration class with demonstration. *)
Lemma l_C78_acc_with_demonstration :
  forall (s : acc_self) circ' rect' (x0 : accq) proj guide dir wmax pref (g : cfg) (rg : prng) D,
  p_proj (as_p s) = false -> p_guid (as_p s) = false -> 0 <= p_vmax (as_p s) -> 0 <= p_dt (as_p s) ->
  tt_sized (as_p s) -> proper_obstacles (ts_circ (as_t s)) (ts_rect (as_t s)) -> proper_obstacles circ' rect' ->
  (forall q, reach D (t_px q, t_py q) (tt_bodies (as_p s) q)) ->
  let s' := mkAccSelf (mkTTSelf (as_p s) circ' rect' (ts_xg (as_t s))) (as_amax s) (as_omax s) in
  let start := (t_px (a_q x0), t_py (a_q x0)) in
  same_near start (Rmax (travel (as_p s) (S (g_Hsample g)) + INR (max_rollout_steps s) * p_vmax (as_p s) + D)
                        (dist (t_px (ts_xg (as_t s)), t_py (ts_xg (as_t s))) start))
    (ts_circ (as_t s)) circ' (ts_rect (as_t s)) rect' ->
  acc_demo s' x0 dir wmax pref = acc_demo s x0 dir wmax pref /\
  forall rows, run_diffusion (acc_penv s' x0 proj guide (acc_logpd s' rows) (tt_rew_xref (as_t s') rows)) (Some g) rg
             = run_diffusion (acc_penv s x0 proj guide (acc_logpd s rows) (tt_rew_xref (as_t s) rows)) (Some g) rg.
Proof.
  intros s circ' rect' x0 proj guide dir wmax pref g rg D Hp Hg Hv Hd Hs O O' HD s' start HN. split.
  - apply l_C78_demonstration_only_near_obstacles. apply (same_near_le _ _ _ _ _ _ _ (Rmax_r _ _) HN).
  - intros rows. apply (l_C78_acc_only_reachable_obstacles s circ' rect' x0 proj guide (acc_logpd s rows) (tt_rew_xref (as_t s) rows) g rg D); try assumption.
    apply (same_near_le _ _ _ _ _ _ _ (Rmax_l _ _) HN).
Qed.

(** ** Guidance: order is irrelevant, repetition and far obstacles are not *)
Lemma Rsum_perm l l' : Permutation l l' -> Rsum l = Rsum l'.
Proof. induction 1; cbn [Rsum]; lra. Qed.
(** C78: the cost guidance descends does not depend on the order of the obstacles. *)
Lemma l_C78_guidance_cost_order :
  forall p xg circ circ' rect rect' x, Permutation circ circ' -> Permutation rect rect' ->
  tt_guidance_cost (mkTTSelf p circ' rect' xg) x = tt_guidance_cost (mkTTSelf p circ rect xg) x.
Proof.
  intros p xg circ circ' rect rect' x HC HR. unfold tt_guidance_cost; cbn [ts_p ts_circ ts_rect]. cbv zeta.
  rewrite <- (Permutation_length HC), <- (Permutation_length HR). f_equal.
  apply Rsum_perm, Permutation_map, Permutation_sym, HC.
Qed.
Lemma far_penalty P c : c_r c + 2 <= dist P (c_x c, c_y c) -> circle_penalty P c = 0.
Proof.
  intros H. unfold circle_penalty, hinge_sq. change (pnorm (psub ?a ?b)) with (dist a b). rewrite Rmax_left by lra. ring.
Qed.
Lemma weight_one n : (n <= 20)%nat -> Rmax 1 (INR n * (5 / 100)) = 1.
Proof. intros Hn. apply Rmax_left. apply le_INR in Hn. replace (INR 20) with 20 in Hn by (rewrite INR_IZR_INZ; reflexivity). lra. Qed.
(** C78: with at most 20 obstacles a circle farther than 2 m from both guided points adds nothing to
    the cost guidance descends. *)
Lemma l_C78_guidance_far_circle_ignored :
  forall p xg circ rect c x, (length circ + length rect < 20)%nat ->
  c_r c + 2 <= dist (t_px x, t_py x) (c_x c, c_y c) ->
  c_r c + 2 <= dist (ahead (ahead (t_px x, t_py x) (t_th1 x) (- p_lh p)) (t_th2 x) (- p_l2 p)) (c_x c, c_y c) ->
  tt_guidance_cost (mkTTSelf p (c :: circ) rect xg) x = tt_guidance_cost (mkTTSelf p circ rect xg) x.
Proof.
  intros p xg circ rect c x HL H1 H2. unfold tt_guidance_cost; cbn [ts_p ts_circ ts_rect map Rsum length]. cbv zeta.
  rewrite !weight_one by lia. rewrite (far_penalty (t_px x, t_py x) c H1).
  rewrite (far_penalty (t_px x - p_lh p * cos (t_th1 x) - p_l2 p * cos (t_th2 x), _) c); [lra|].
  replace (t_px x - p_lh p * cos (t_th1 x) - p_l2 p * cos (t_th2 x), t_py x - p_lh p * sin (t_th1 x) - p_l2 p * sin (t_th2 x))
    with (ahead (ahead (t_px x, t_py x) (t_th1 x) (- p_lh p)) (t_th2 x) (- p_l2 p)); [exact H2|].
  unfold ahead; cbn [fst snd]. apply injective_projections; cbn [fst snd]; ring.
Qed.
(** C78 (refuted under guidance): repeating a circle changes the cost guidance descends, because every
    listed circle is charged. *)
Lemma l_C78_guidance_repetition_refuted :
  exists p c xg x, tt_guidance_cost (mkTTSelf p [c; c] [] xg) x <> tt_guidance_cost (mkTTSelf p [c] [] xg) x.
Proof.
  exists default_params, (mkCircle 0 0 1), (mkTT 0 0 0 0), (mkTT 0 0 0 0).
  unfold tt_guidance_cost; cbn [ts_p ts_circ ts_rect map Rsum length]. cbv zeta.
  rewrite !weight_one by lia. set (h := Rmin_of _). clearbody h.
  cbn [t_px t_py].
  assert (E : circle_penalty (0, 0) (mkCircle 0 0 1) = 9).
  { unfold circle_penalty, hinge_sq. change (pnorm (psub ?a ?b)) with (dist a b). cbn [c_x c_y c_r]. rewrite dist_refl.
    rewrite Rmax_right by lra. ring. }
  set (T := circle_penalty (0 - _ - _, _) _).
  assert (T0 : 0 <= T) by (unfold T, circle_penalty, hinge_sq; apply Rle_0_sqr).
  rewrite E. lra.
Qed.
(** C78 (refuted under guidance): a 21st obstacle changes the cost of a jackknifed pose however far away
    it is, because the hitch is weighted by the number of obstacles. *)
Lemma l_C78_guidance_far_obstacle_refuted :
  forall rho, exists p c circ xg x, length circ = 20%nat /\
  (forall d, In d (c :: circ) -> rho < dist (c_x d, c_y d) (t_px x, t_py x)) /\
  tt_guidance_cost (mkTTSelf p (c :: circ) [] xg) x <> tt_guidance_cost (mkTTSelf p circ [] xg) x.
Proof.
  intros rho. set (B := Rmax rho 0 + 10). set (c := mkCircle B 0 1).
  assert (HB : rho < B /\ 10 <= B) by (unfold B; pose proof (Rmax_l rho 0); pose proof (Rmax_r rho 0); lra).
  exists default_params, c, (repeat c 20), (mkTT 0 0 0 0), (mkTT 0 0 0 PI).
  assert (DB : forall X, X < B -> dist (X, 0) (B, 0) = B - X).
  { intros X HX. unfold dist, dist2; cbn [fst snd]. replace (_ + _) with ((B - X) * (B - X)) by ring. apply sqrt_square. lra. }
  split; [reflexivity|]. split.
  { intros d Hd. assert (d = c) as -> by (destruct Hd as [Hd|Hd]; [auto|apply repeat_spec in Hd; exact Hd]).
    cbn [t_px t_py c c_x c_y]. rewrite dist_comm, DB; lra. }
  unfold tt_guidance_cost; cbn [ts_p ts_circ ts_rect map Rsum length t_px t_py t_th1 t_th2]. cbv zeta.
  rewrite repeat_length. change (20 + 0)%nat with 20%nat. change (S 20 + 0)%nat with 21%nat. rewrite (weight_one 20) by lia.
  replace (Rmax 1 (INR 21 * (5 / 100))) with (105 / 100)
    by (rewrite INR_IZR_INZ; change (IZR (Z.of_nat 21)) with 21; rewrite Rmax_right; lra).
  assert (Z1 : circle_penalty (0, 0) c = 0) by (apply far_penalty; cbn [c c_x c_y c_r]; rewrite DB; lra).
  set (Q := (0 - p_lh default_params * cos 0 - p_l2 default_params * cos PI, 0 - p_lh default_params * sin 0 - p_l2 default_params * sin PI)).
  assert (Z2 : circle_penalty Q c = 0).
  { apply far_penalty. unfold Q. change (p_lh default_params) with (115 / 100). change (p_l2 default_params) with (29 / 10).
    rewrite cos_0, sin_0, cos_PI, sin_PI. cbn [c c_x c_y c_r].
    replace (0 - 115 / 100 * 1 - 29 / 10 * -1, 0 - 115 / 100 * 0 - 29 / 10 * 0) with (175 / 100, 0) by (f_equal; lra).
    rewrite DB; lra. }
  rewrite Z1, Z2.
  assert (ZS : forall n, Rsum (map (fun d => circle_penalty (0, 0) d + circle_penalty Q d) (repeat c n)) = 0).
  { induction n as [|n IH]; cbn [repeat map Rsum]; [reflexivity|]. rewrite Z1, Z2, IH. ring. }
  rewrite ZS.
  assert (HP : 0 < Rmin_of [hinge_sq (Rabs (0 - PI + 0) - p_phi_max default_params);
                            hinge_sq (Rabs (0 - PI + 2 * PI) - p_phi_max default_params);
                            hinge_sq (Rabs (0 - PI + - (2 * PI)) - p_phi_max default_params)]).
  { pose proof PI_RGT_0 as HPI. change (p_phi_max default_params) with (40 * PI / 180).
    replace (0 - PI + 0) with (- PI) by ring. replace (0 - PI + 2 * PI) with PI by ring. replace (0 - PI + - (2 * PI)) with (- (3 * PI)) by ring.
    rewrite !Rabs_Ropp, !Rabs_pos_eq by lra.
    assert (G : forall z, 40 * PI / 180 < z -> 0 < hinge_sq (z - 40 * PI / 180)).
    { intros z Hz. unfold hinge_sq. rewrite Rmax_right by lra. apply Rmult_lt_0_compat; lra. }
    unfold Rmin_of. cbn [Rmin_list]. unfold Rmin. repeat destruct Rle_dec; apply G; lra. }
  lra.
Qed.
