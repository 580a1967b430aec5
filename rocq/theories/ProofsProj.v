From Verif Require Import Base SpecInput SpecPlan InputFacts Params Geom TT2d Bicycle NTrailer Acc Rollout Projection SpecGeom SpecBodies SpecDyn SpecAcc SpecProj
  BaseFacts ProofsGeom ProofsBodies ProofsRobots ProofsAcc.
Open Scope R_scope.

(** ** Signed distance to one box *)
Definition local_sdf (a b hx hy : R) : R :=
  sqrt (Rmax (Rabs a - hx) 0 * Rmax (Rabs a - hx) 0 + Rmax (Rabs b - hy) 0 * Rmax (Rabs b - hy) 0)
  + Rmin (Rmax (Rabs a - hx) (Rabs b - hy)) 0.
Lemma sdf_local c ang a b h : sdf_box (at_frame c ang a b) c h ang = local_sdf a b (fst h) (snd h).
Proof.
  unfold sdf_box, local_sdf, pnorm. cbn [fst snd].
  assert (E : sin ang * sin ang + cos ang * cos ang = 1) by apply sin2_cos2'.
  replace (pdot (psub (at_frame c ang a b) c) (cos ang, sin ang)) with a.
  2:{ unfold pdot, psub, at_frame; cbn [fst snd]. replace a with (a * 1) at 1 by ring. rewrite <- E. ring. }
  replace (pdot (psub (at_frame c ang a b) c) (- sin ang, cos ang)) with b.
  2:{ unfold pdot, psub, at_frame; cbn [fst snd]. replace b with (b * 1) at 1 by ring. rewrite <- E. ring. }
  reflexivity.
Qed.
Lemma frame_inj c ang a b a' b' : at_frame c ang a b = at_frame c ang a' b' -> a = a' /\ b = b'.
Proof.
  intros E. pose proof (frame_dist2 c ang a b a' b') as D. rewrite E in D.
  pose proof (frame_dist2 c ang a' b' a' b') as D0. rewrite D in D0.
  pose proof (sq_nonneg (a - a')). pose proof (sq_nonneg (b - b')).
  assert (A : (a - a') * (a - a') = 0) by (ring_simplify in D0; ring_simplify; nra).
  assert (B : (b - b') * (b - b') = 0) by nra.
  apply Rmult_integral in A. apply Rmult_integral in B. lra.
Qed.
Lemma solid_box_local c h ang a b : solid (box c h ang) (at_frame c ang a b) <-> Rabs a <= fst h /\ Rabs b <= snd h.
Proof.
  unfold solid, box; cbn [rg_org rg_ang rg_back rg_front rg_half]. split.
  - intros (a' & b' & Ha & Hb & E). apply frame_inj in E. destruct E; subst. split; apply Rabs_le; lra.
  - intros [Ha Hb]. apply Rabs_def2' in Ha. apply Rabs_def2' in Hb. exists a, b. auto.
Qed.
Lemma interior_box_local c h ang a b : interior (box c h ang) (at_frame c ang a b) <-> Rabs a < fst h /\ Rabs b < snd h.
Proof.
  unfold interior, box; cbn [rg_org rg_ang rg_back rg_front rg_half]. split.
  - intros (a' & b' & Ha & Hb & E). apply frame_inj in E. destruct E; subst. split; apply Rabs_def1; lra.
  - intros [Ha Hb]. apply Rabs_def2 in Ha. apply Rabs_def2 in Hb. exists a, b. repeat split; lra.
Qed.
Lemma outline_box_local c h ang a b : outline (box c h ang) (at_frame c ang a b) <->
  Rabs a <= fst h /\ Rabs b <= snd h /\ (Rabs a = fst h \/ Rabs b = snd h).
Proof.
  unfold outline, box; cbn [rg_org rg_ang rg_back rg_front rg_half]. split.
  - intros (a' & b' & Ha & Hb & Hc & E). apply frame_inj in E. destruct E; subst a' b'.
    split; [apply Rabs_le; lra|]. split; [apply Rabs_le; lra|].
    destruct Hc as [H|[H|[H|H]]].
    + left. rewrite H, Rabs_Ropp. apply Rabs_right. lra.
    + left. rewrite H. apply Rabs_right. lra.
    + right. rewrite H, Rabs_Ropp. apply Rabs_right. lra.
    + right. rewrite H. apply Rabs_right. lra.
  - intros (Ha & Hb & Hc). exists a, b. apply Rabs_def2' in Ha. apply Rabs_def2' in Hb.
    split; [lra|]. split; [lra|]. split; [|reflexivity].
    destruct Hc as [H|H]; unfold Rabs in H; destruct (Rcase_abs _) in H; lra.
Qed.
Lemma sqrt_le_of_sq x y : 0 <= y -> x <= y * y -> sqrt x <= y.
Proof. intros Hy H. rewrite <- (sqrt_square y Hy). apply sqrt_le_1_alt. exact H. Qed.
Lemma sq_le_sqrt x y : 0 <= x -> x * x <= y -> x <= sqrt y.
Proof. intros Hx H. rewrite <- (sqrt_square x Hx). apply sqrt_le_1_alt. exact H. Qed.

Lemma local_sdf_inside a b hx hy : Rabs a <= hx -> Rabs b <= hy ->
  local_sdf a b hx hy = Rmax (Rabs a - hx) (Rabs b - hy).
Proof.
  intros Ha Hb. unfold local_sdf. rewrite (Rmax_right (Rabs a - hx) 0) by lra. rewrite (Rmax_right (Rabs b - hy) 0) by lra.
  rewrite (Rmin_left _ 0). 2:{ apply Rmax_lub; lra. }
  replace (0 * 0 + 0 * 0) with 0 by ring. rewrite sqrt_0. ring.
Qed.
Lemma local_sdf_outside a b hx hy : (hx < Rabs a \/ hy < Rabs b) ->
  local_sdf a b hx hy = sqrt (Rmax (Rabs a - hx) 0 * Rmax (Rabs a - hx) 0 + Rmax (Rabs b - hy) 0 * Rmax (Rabs b - hy) 0)
  /\ 0 < local_sdf a b hx hy.
Proof.
  intros H. unfold local_sdf.
  rewrite (Rmin_right _ 0). 2:{ destruct H; [apply Rle_trans with (Rabs a - hx)|apply Rle_trans with (Rabs b - hy)]; try lra; [apply Rmax_l|apply Rmax_r]. }
  rewrite Rplus_0_r. split; [reflexivity|]. apply sqrt_lt_R0.
  destruct H as [H|H].
  - rewrite (Rmax_left (Rabs a - hx) 0) by lra.
    pose proof (Rmult_lt_0_compat (Rabs a - hx) (Rabs a - hx) ltac:(lra) ltac:(lra)).
    pose proof (sq_nonneg (Rmax (Rabs b - hy) 0)). lra.
  - rewrite (Rmax_left (Rabs b - hy) 0) by lra.
    pose proof (Rmult_lt_0_compat (Rabs b - hy) (Rabs b - hy) ltac:(lra) ltac:(lra)).
    pose proof (sq_nonneg (Rmax (Rabs a - hx) 0)). lra.
Qed.

(** C40: the signed distance of a point to a box is negative exactly strictly inside, zero
    exactly on the outline, positive exactly outside. *)
Lemma l_C40_signed_distance_sign :
  forall P c h ang, 0 <= fst h -> 0 <= snd h ->
  (sdf_box P c h ang < 0 <-> interior (box c h ang) P) /\
  (sdf_box P c h ang = 0 <-> outline (box c h ang) P) /\
  (0 < sdf_box P c h ang <-> ~ solid (box c h ang) P).
Proof.
  intros P c h ang Hx Hy. destruct (frame_coords c ang P) as (a & b & ->).
  rewrite sdf_local, interior_box_local, outline_box_local, solid_box_local.
  destruct (Rle_dec (Rabs a) (fst h)) as [Ha|Ha]; [destruct (Rle_dec (Rabs b) (snd h)) as [Hb|Hb]|].
  - rewrite local_sdf_inside by assumption.
    split; [|split].
    + split; [intros H|intros [H1 H2]; apply Rmax_lub_lt; lra].
      pose proof (Rmax_l (Rabs a - fst h) (Rabs b - snd h)). pose proof (Rmax_r (Rabs a - fst h) (Rabs b - snd h)). lra.
    + split; [intros H|intros (_ & _ & H)].
      * split; [auto|split;[auto|]]. unfold Rmax in H. destruct (Rle_dec _ _) in H; lra.
      * unfold Rmax. destruct (Rle_dec _ _); lra.
    + split; [intros H|intros H; exfalso; apply H; auto].
      unfold Rmax in H. destruct (Rle_dec _ _) in H; lra.
  - destruct (local_sdf_outside a b (fst h) (snd h) ltac:(right; lra)) as [_ H]. repeat split; intros; lra.
  - destruct (local_sdf_outside a b (fst h) (snd h) ltac:(left; lra)) as [_ H]. repeat split; intros; lra.
Qed.

Lemma clip_excess a h : 0 <= h -> Rabs (a - clip a (- h) h) = Rmax (Rabs a - h) 0.
Proof.
  intros Hh. unfold clip.
  destruct (Rle_dec a (- h)) as [H1|H1].
  - rewrite Rmax_right by lra. rewrite Rmin_left by lra. rewrite !Rabs_left1 by lra. rewrite Rmax_left by lra. ring.
  - rewrite (Rmax_left a (- h)) by lra. destruct (Rle_dec a h) as [H2|H2].
    + rewrite Rmin_left by lra. rewrite Rminus_diag_eq by reflexivity. rewrite Rabs_R0.
      rewrite Rmax_right; [reflexivity|]. unfold Rabs; destruct (Rcase_abs a); lra.
    + rewrite Rmin_right by lra. rewrite !Rabs_right by lra. rewrite Rmax_left by lra. reflexivity.
Qed.
Lemma excess_le a a' h : Rabs a' <= h -> Rmax (Rabs a - h) 0 <= Rabs (a - a').
Proof.
  intros H. apply Rmax_lub; [|apply Rabs_pos].
  pose proof (Rabs_triang (a - a') a'). replace (a - a' + a') with a in H0 by ring. lra.
Qed.
(** C40: outside the box the value is the distance to the nearest point of the box. *)
Lemma l_C40_signed_distance_outside :
  forall P c h ang, 0 <= fst h -> 0 <= snd h -> ~ solid (box c h ang) P ->
  (forall Q, solid (box c h ang) Q -> sdf_box P c h ang <= dist P Q) /\
  (exists Q, solid (box c h ang) Q /\ sdf_box P c h ang = dist P Q).
Proof.
  intros P c h ang Hx Hy. destruct (frame_coords c ang P) as (a & b & ->).
  rewrite sdf_local, solid_box_local. intros N.
  assert (O : fst h < Rabs a \/ snd h < Rabs b).
  { destruct (Rlt_dec (fst h) (Rabs a)); [auto|]. destruct (Rlt_dec (snd h) (Rabs b)); [auto|]. exfalso; apply N; lra. }
  destruct (local_sdf_outside a b (fst h) (snd h) O) as [-> _]. split.
  - intros Q. destruct (frame_coords c ang Q) as (a' & b' & ->). rewrite solid_box_local. intros [Ha' Hb'].
    unfold dist. apply sqrt_le_1_alt. rewrite frame_dist2.
    pose proof (excess_le a a' (fst h) Ha'). pose proof (excess_le b b' (snd h) Hb').
    pose proof (Rmax_r (Rabs a - fst h) 0). pose proof (Rmax_r (Rabs b - snd h) 0).
    rewrite <- (Rabs_sq (a - a')), <- (Rabs_sq (b - b')).
    apply Rplus_le_compat; apply Rmult_le_compat; auto.
  - exists (at_frame c ang (clip a (- fst h) (fst h)) (clip b (- snd h) (snd h))). split.
    + apply solid_box_local. split; apply Rabs_le; apply clip_range; lra.
    + unfold dist. rewrite frame_dist2. rewrite <- (Rabs_sq (a - _)), <- (Rabs_sq (b - _)).
      rewrite !clip_excess by assumption. reflexivity.
Qed.
Lemma hyp_ge_l x y d : 0 <= d -> d <= Rabs x -> d <= sqrt (x * x + y * y).
Proof.
  intros Hd H. apply sq_le_sqrt; [assumption|]. rewrite <- (Rabs_sq x). pose proof (sq_nonneg y).
  pose proof (Rmult_le_compat d (Rabs x) d (Rabs x) Hd Hd H H). lra.
Qed.
Lemma hyp_ge_r x y d : 0 <= d -> d <= Rabs y -> d <= sqrt (x * x + y * y).
Proof. intros. rewrite Rplus_comm. apply hyp_ge_l; assumption. Qed.
(** C40: inside the box the value is minus the distance to the nearest point of the outline. *)
Lemma l_C40_signed_distance_inside :
  forall P c h ang, solid (box c h ang) P ->
  (forall Q, outline (box c h ang) Q -> - sdf_box P c h ang <= dist P Q) /\
  (exists Q, outline (box c h ang) Q /\ - sdf_box P c h ang = dist P Q).
Proof.
  intros P c h ang. destruct (frame_coords c ang P) as (a & b & ->).
  rewrite sdf_local, solid_box_local. intros [Ha Hb].
  rewrite local_sdf_inside by assumption. split.
  - intros Q. destruct (frame_coords c ang Q) as (a' & b' & ->). rewrite outline_box_local. intros (Ha' & Hb' & E).
    unfold dist. rewrite frame_dist2.
    pose proof (Rmax_l (Rabs a - fst h) (Rabs b - snd h)). pose proof (Rmax_r (Rabs a - fst h) (Rabs b - snd h)).
    assert (0 <= - Rmax (Rabs a - fst h) (Rabs b - snd h)).
    { assert (Rmax (Rabs a - fst h) (Rabs b - snd h) <= 0) by (apply Rmax_lub; lra). lra. }
    destruct E as [E|E].
    + apply hyp_ge_l; [assumption|]. pose proof (Rabs_triang (a' - a) a). replace (a' - a + a) with a' in H2 by ring.
      rewrite (Rabs_minus_sym a a'). lra.
    + apply hyp_ge_r; [assumption|]. pose proof (Rabs_triang (b' - b) b). replace (b' - b + b) with b' in H2 by ring.
      rewrite (Rabs_minus_sym b b'). lra.
  - pose proof (Rabs_pos a) as Pa. pose proof (Rabs_pos b) as Pb.
    assert (S : forall x h0, 0 <= h0 -> Rabs x <= h0 -> exists x', Rabs x' = h0 /\ Rabs (x - x') = h0 - Rabs x).
    { intros x h0 H0 Hx. unfold Rabs at 1 in Hx. destruct (Rcase_abs x) as [L|L].
      - exists (- h0). rewrite Rabs_Ropp. rewrite (Rabs_right h0), (Rabs_left x) by lra. rewrite Rabs_right; lra.
      - exists h0. rewrite (Rabs_right h0), (Rabs_right x) by lra. rewrite Rabs_left1; lra. }
    unfold Rmax. destruct (Rle_dec _ _) as [L|L].
    + destruct (S b (snd h)) as (b' & E1 & E2); [lra|lra|].
      exists (at_frame c ang a b'). split; [apply outline_box_local; lra|].
      unfold dist. rewrite frame_dist2. replace (a - a) with 0 by ring.
      replace (0 * 0 + (b - b') * (b - b')) with (Rabs (b - b') * Rabs (b - b')) by (rewrite Rabs_sq; ring).
      rewrite sqrt_square by apply Rabs_pos. lra.
    + destruct (S a (fst h)) as (a' & E1 & E2); [lra|lra|].
      exists (at_frame c ang a' b). split; [apply outline_box_local; lra|].
      unfold dist. rewrite frame_dist2. replace (b - b) with 0 by ring.
      replace ((a - a') * (a - a') + 0 * 0) with (Rabs (a - a') * Rabs (a - a')) by (rewrite Rabs_sq; ring).
      rewrite sqrt_square by apply Rabs_pos. lra.
Qed.
Lemma dist_sym P Q : dist P Q = dist Q P.
Proof. unfold dist, dist2. f_equal. ring. Qed.
Lemma dist_nonneg P Q : 0 <= dist P Q.
Proof. apply sqrt_pos. Qed.
(** C40: the circle constraint of a box is positive exactly when no point of the closed disc is in
    the box. *)
Lemma l_C40_circle_constraint_exact :
  forall C r c h ang, 0 <= fst h -> 0 <= snd h -> 0 <= r ->
  (0 < sdf_box C c h ang - r <-> forall P, solid (box c h ang) P -> r < dist P C).
Proof.
  intros C r c h ang Hx Hy Hr. split.
  - intros H P HP. assert (N : ~ solid (box c h ang) C).
    { apply l_C40_signed_distance_sign; auto. lra. }
    destruct (l_C40_signed_distance_outside C c h ang Hx Hy N) as [L _]. specialize (L P HP).
    rewrite dist_sym. lra.
  - intros H. assert (N : ~ solid (box c h ang) C).
    { intros HC. specialize (H C HC). unfold dist, dist2 in H.
      replace ((fst C - fst C) * (fst C - fst C) + (snd C - snd C) * (snd C - snd C)) with 0 in H by ring.
      rewrite sqrt_0 in H. lra. }
    destruct (l_C40_signed_distance_outside C c h ang Hx Hy N) as [_ (Q & HQ & E)].
    specialize (H Q HQ). rewrite dist_sym in H. lra.
Qed.
(** C40: a non-negative circle constraint (all the optimiser promises) still keeps the open disc
    out of the box. *)
Lemma l_C40_circle_constraint_nonneg :
  forall C r c h ang, 0 <= fst h -> 0 <= snd h -> 0 <= r -> 0 <= sdf_box C c h ang - r ->
  forall P, solid (box c h ang) P -> r <= dist P C.
Proof.
  intros C r c h ang Hx Hy Hr H P HP.
  destruct (Rle_lt_or_eq_dec 0 r Hr) as [Hr'|<-]; [|apply dist_nonneg].
  assert (N : ~ solid (box c h ang) C) by (apply l_C40_signed_distance_sign; auto; lra).
  destruct (l_C40_signed_distance_outside C c h ang Hx Hy N) as [L _]. specialize (L P HP).
  rewrite dist_sym. lra.
Qed.

(** ** Two boxes *)
Lemma box_center c h ang : reg_center (box c h ang) = c.
Proof.
  unfold reg_center, box, at_frame; cbn [rg_org rg_ang rg_back rg_front]. destruct c as [cx cy]; cbn [fst snd].
  f_equal; field.
Qed.
Lemma box_hl c h ang : reg_hl (box c h ang) = fst h.
Proof. unfold reg_hl, box; cbn. field. Qed.
Lemma gap_axis_region c1 h1 a1 c2 h2 a2 n :
  gap_on_axis c1 h1 (dir_u a1) (dir_v a1) c2 h2 (dir_u a2) (dir_v a2) n =
  Rabs (pdot (psub c2 c1) n) - (reg_radius (box c1 h1 a1) n + reg_radius (box c2 h2 a2) n).
Proof.
  unfold gap_on_axis, reg_radius. rewrite !box_hl. cbn [box rg_ang rg_half].
  replace (pdot (psub c2 c1) n) with (pdot c2 n - pdot c1 n) by (unfold pdot, psub; cbn; ring).
  set (r1 := fst h1 * _ + _). set (r2 := fst h2 * _ + _). unfold Rabs at 1. destruct (Rcase_abs _); unfold Rmax; destruct (Rle_dec _ _); lra.
Qed.
Lemma sdf_two_axes c1 h1 a1 c2 h2 a2 : sdf_two_boxes c1 h1 a1 c2 h2 a2 =
  Rmax_of (map (gap_on_axis c1 h1 (dir_u a1) (dir_v a1) c2 h2 (dir_u a2) (dir_v a2)) [dir_u a1; dir_v a1; dir_u a2; dir_v a2]).
Proof. reflexivity. Qed.
Lemma gap_pos_iff c1 h1 a1 c2 h2 a2 :
  0 < sdf_two_boxes c1 h1 a1 c2 h2 a2 <->
  exists n, In n [dir_u a1; dir_v a1; dir_u a2; dir_v a2] /\ ~ overlap_on (box c1 h1 a1) (box c2 h2 a2) n.
Proof.
  rewrite sdf_two_axes.
  set (axes := [dir_u a1; dir_v a1; dir_u a2; dir_v a2]). split.
  - intros H. assert (I : In (Rmax_of (map (gap_on_axis c1 h1 (dir_u a1) (dir_v a1) c2 h2 (dir_u a2) (dir_v a2)) axes))
       (map (gap_on_axis c1 h1 (dir_u a1) (dir_v a1) c2 h2 (dir_u a2) (dir_v a2)) axes)).
    { apply Rmax_of_in. discriminate. }
    apply in_map_iff in I. destruct I as (n & E & Hn). exists n. split; [exact Hn|].
    unfold overlap_on. rewrite !box_center. rewrite <- E in H. rewrite gap_axis_region in H. lra.
  - intros (n & Hn & No). unfold overlap_on in No. rewrite !box_center in No.
    apply Rlt_le_trans with (gap_on_axis c1 h1 (dir_u a1) (dir_v a1) c2 h2 (dir_u a2) (dir_v a2) n).
    + rewrite gap_axis_region. lra.
    + apply Rmax_of_ge. apply in_map. exact Hn.
Qed.

Lemma solid_proj_bound c h ang P n : solid (box c h ang) P -> Rabs (pdot (psub P c) n) <= reg_radius (box c h ang) n.
Proof.
  destruct (frame_coords c ang P) as (a & b & ->). rewrite solid_box_local. intros [Ha Hb].
  replace (pdot (psub (at_frame c ang a b) c) n) with (a * pdot (dir_u ang) n + b * pdot (dir_v ang) n).
  2:{ unfold pdot, psub, at_frame, dir_u, dir_v; cbn; ring. }
  eapply Rle_trans; [apply Rabs_triang|]. rewrite !Rabs_mult.
  unfold reg_radius. rewrite box_hl. cbn [box rg_ang rg_half].
  apply Rplus_le_compat; apply Rmult_le_compat_r; auto; apply Rabs_pos.
Qed.
Lemma interior_proj_bound c h ang P n : n <> (0, 0) -> interior (box c h ang) P ->
  Rabs (pdot (psub P c) n) < reg_radius (box c h ang) n.
Proof.
  intros Hn. destruct (frame_coords c ang P) as (a & b & ->). rewrite interior_box_local. intros [Ha Hb].
  replace (pdot (psub (at_frame c ang a b) c) n) with (a * pdot (dir_u ang) n + b * pdot (dir_v ang) n).
  2:{ unfold pdot, psub, at_frame, dir_u, dir_v; cbn; ring. }
  eapply Rle_lt_trans; [apply Rabs_triang|]. rewrite !Rabs_mult.
  unfold reg_radius. rewrite box_hl. cbn [box rg_ang rg_half].
  pose proof (Rabs_pos (pdot (dir_u ang) n)) as U. pose proof (Rabs_pos (pdot (dir_v ang) n)) as V.
  destruct (Rle_lt_or_eq_dec _ _ U) as [U'|U'].
  - apply Rplus_lt_le_compat; [apply Rmult_lt_compat_r; auto|apply Rmult_le_compat_r; lra].
  - destruct (Rle_lt_or_eq_dec _ _ V) as [V'|V'].
    + apply Rplus_le_lt_compat; [apply Rmult_le_compat_r; lra|apply Rmult_lt_compat_r; auto].
    + exfalso. apply Hn.
      assert (A : pdot (dir_u ang) n = 0) by (destruct (Req_dec (pdot (dir_u ang) n) 0) as [|N]; [auto|apply Rabs_no_R0 in N; lra]).
      assert (B : pdot (dir_v ang) n = 0) by (destruct (Req_dec (pdot (dir_v ang) n) 0) as [|N]; [auto|apply Rabs_no_R0 in N; lra]).
      unfold pdot, dir_u, dir_v in A, B; cbn [fst snd] in A, B. pose proof (sin2_cos2' ang) as E.
      destruct n as [x y]; cbn [fst snd] in A, B. f_equal.
      * replace x with (x * 1) by ring. rewrite <- E.
        transitivity (cos ang * (cos ang * x + sin ang * y) - sin ang * (- sin ang * x + cos ang * y)); [ring|rewrite A, B; ring].
      * replace y with (y * 1) by ring. rewrite <- E.
        transitivity (sin ang * (cos ang * x + sin ang * y) + cos ang * (- sin ang * x + cos ang * y)); [ring|rewrite A, B; ring].
Qed.
Lemma pdot_sub_split (P c1 c2 n : pt) : pdot (psub c2 c1) n = pdot (psub P c1) n - pdot (psub P c2) n.
Proof. unfold pdot, psub; cbn; ring. Qed.
Lemma dir_u_neq ang : dir_u ang <> (0, 0).
Proof. intros E. unfold dir_u in E. injection E as A B. pose proof (sin2_cos2' ang) as S. rewrite A, B in S. lra. Qed.
Lemma dir_v_neq ang : dir_v ang <> (0, 0).
Proof. intros E. unfold dir_v in E. injection E as A B. pose proof (sin2_cos2' ang) as S. rewrite B in S.
  assert (sin ang = 0) by lra. rewrite H in S. lra. Qed.
(** C40: a positive two-box gap implies disjoint boxes (for any sizes). *)
Lemma l_C40_gap_positive_disjoint :
  forall c1 h1 a1 c2 h2 a2, 0 < sdf_two_boxes c1 h1 a1 c2 h2 a2 -> disjoint (box c1 h1 a1) (box c2 h2 a2).
Proof.
  intros c1 h1 a1 c2 h2 a2 H P [H1 H2]. apply gap_pos_iff in H. destruct H as (n & _ & No). apply No.
  unfold overlap_on. rewrite !box_center. rewrite (pdot_sub_split P).
  apply (solid_proj_bound _ _ _ _ n) in H1. apply (solid_proj_bound _ _ _ _ n) in H2.
  eapply Rle_trans; [apply Rabs_triang|]. rewrite Rabs_Ropp. lra.
Qed.
(** C40: for proper rectangles the gap is positive exactly when they are disjoint: four axes
    suffice. *)
Lemma l_C40_gap_exact :
  forall c1 h1 a1 c2 h2 a2, 0 < fst h1 -> 0 < snd h1 -> 0 < fst h2 -> 0 < snd h2 ->
  (0 < sdf_two_boxes c1 h1 a1 c2 h2 a2 <-> disjoint (box c1 h1 a1) (box c2 h2 a2)).
Proof.
  intros c1 h1 a1 c2 h2 a2 A B C D. split; [apply l_C40_gap_positive_disjoint|].
  intros Dj. destruct (Rlt_dec 0 (sdf_two_boxes c1 h1 a1 c2 h2 a2)) as [L|N]; [exact L|exfalso].
  assert (W1 : well_formed (box c1 h1 a1)) by (unfold well_formed, box; cbn; lra).
  assert (W2 : well_formed (box c2 h2 a2)) by (unfold well_formed, box; cbn; lra).
  assert (O : forall n, In n [dir_u a1; dir_v a1; dir_u a2; dir_v a2] -> overlap_on (box c1 h1 a1) (box c2 h2 a2) n).
  { intros n Hn. unfold overlap_on. apply Rnot_lt_le. intros Q. apply N, gap_pos_iff. exists n. split; [exact Hn|].
    unfold overlap_on. lra. }
  destruct (proj1 (rect_rect_exact _ _ W1 W2)) as (P & HP).
  - apply rect_rect_iff_overlaps; auto. cbn [box rg_ang]. repeat split; apply O; cbn; auto.
  - exact (Dj P HP).
Qed.
(** C40: a non-negative gap (all the optimiser promises) still means that no point of either box
    lies strictly inside the other. *)
Lemma l_C40_gap_nonneg :
  forall c1 h1 a1 c2 h2 a2, 0 <= sdf_two_boxes c1 h1 a1 c2 h2 a2 ->
  forall P, ~ (interior (box c1 h1 a1) P /\ solid (box c2 h2 a2) P) /\
            ~ (solid (box c1 h1 a1) P /\ interior (box c2 h2 a2) P).
Proof.
  intros c1 h1 a1 c2 h2 a2 H P. rewrite sdf_two_axes in H.
  set (axes := [dir_u a1; dir_v a1; dir_u a2; dir_v a2]) in H.
  assert (I := Rmax_of_in (map (gap_on_axis c1 h1 (dir_u a1) (dir_v a1) c2 h2 (dir_u a2) (dir_v a2)) axes) ltac:(discriminate)).
  apply in_map_iff in I. destruct I as (n & E & Hn). rewrite <- E, gap_axis_region in H.
  assert (Nz : n <> (0, 0)) by (cbn in Hn; destruct Hn as [<-|[<-|[<-|[<-|[]]]]]; [apply dir_u_neq|apply dir_v_neq|apply dir_u_neq|apply dir_v_neq]).
  split; intros [H1 H2].
  - apply (interior_proj_bound _ _ _ _ n Nz) in H1. apply (solid_proj_bound _ _ _ _ n) in H2.
    rewrite (pdot_sub_split P) in H. pose proof (Rabs_triang (pdot (psub P c1) n) (- pdot (psub P c2) n)) as T.
    rewrite Rabs_Ropp in T. unfold Rminus in H. lra.
  - apply (interior_proj_bound _ _ _ _ n Nz) in H2. apply (solid_proj_bound _ _ _ _ n) in H1.
    rewrite (pdot_sub_split P) in H. pose proof (Rabs_triang (pdot (psub P c1) n) (- pdot (psub P c2) n)) as T.
    rewrite Rabs_Ropp in T. unfold Rminus in H. lra.
Qed.
Lemma pdot_unit_le (D n : pt) : fst n * fst n + snd n * snd n = 1 -> Rabs (pdot D n) <= pnorm D.
Proof.
  intros E. unfold pnorm. apply sq_le_sqrt; [apply Rabs_pos|]. rewrite Rabs_sq. unfold pdot.
  pose proof (sq_nonneg (fst D * snd n - snd D * fst n)) as Q.
  replace (fst D * fst D + snd D * snd D) with ((fst D * fst D + snd D * snd D) * (fst n * fst n + snd n * snd n)) by (rewrite E; ring).
  lra.
Qed.
(** C40: the gap never overstates: it is at most the distance between any two points of the boxes. *)
Lemma l_C40_gap_at_most_distance :
  forall c1 h1 a1 c2 h2 a2 P Q, solid (box c1 h1 a1) P -> solid (box c2 h2 a2) Q ->
  sdf_two_boxes c1 h1 a1 c2 h2 a2 <= dist P Q.
Proof.
  intros c1 h1 a1 c2 h2 a2 P Q HP HQ. rewrite sdf_two_axes.
  set (axes := [dir_u a1; dir_v a1; dir_u a2; dir_v a2]).
  assert (I := Rmax_of_in (map (gap_on_axis c1 h1 (dir_u a1) (dir_v a1) c2 h2 (dir_u a2) (dir_v a2)) axes) ltac:(discriminate)).
  apply in_map_iff in I. destruct I as (n & E & Hn). rewrite <- E, gap_axis_region.
  assert (U : fst n * fst n + snd n * snd n = 1).
  { pose proof (sin2_cos2' a1). pose proof (sin2_cos2' a2). 
    cbn in Hn; destruct Hn as [<-|[<-|[<-|[<-|[]]]]]; unfold dir_u, dir_v; cbn [fst snd]; lra. }
  apply (solid_proj_bound _ _ _ _ n) in HP. apply (solid_proj_bound _ _ _ _ n) in HQ.
  assert (D : Rabs (pdot (psub P Q) n) <= dist P Q) by exact (pdot_unit_le (psub P Q) n U).
  replace (pdot (psub c2 c1) n) with (pdot (psub P c1) n - pdot (psub P Q) n - pdot (psub Q c2) n)
    by (unfold pdot, psub; cbn; ring).
  pose proof (Rabs_triang (pdot (psub P c1) n - pdot (psub P Q) n) (- pdot (psub Q c2) n)).
  pose proof (Rabs_triang (pdot (psub P c1) n) (- pdot (psub P Q) n)).
  rewrite Rabs_Ropp in H, H0. unfold Rminus in *. lra.
Qed.
(** C40 (refuted variant): the gap is not the distance: two unit squares diagonally apart are
    sqrt 2 apart but the gap says 1. *)
Lemma l_C40_gap_is_distance_refuted :
  sdf_two_boxes (0, 0) (1, 1) 0 (3, 3) (1, 1) 0 = 1 /\
  (forall P Q, solid (box (0, 0) (1, 1) 0) P -> solid (box (3, 3) (1, 1) 0) Q -> sqrt 2 <= dist P Q).
Proof.
  split.
  - unfold sdf_two_boxes, Rmax_of, gap_on_axis, pdot; cbn [map Rmax_list fst snd]. rewrite cos_0, sin_0.
    replace (1 * 1 + 0 * 0) with 1 by ring. replace (- 0 * 1 + 1 * 0) with 0 by ring.
    replace (1 * - 0 + 0 * 1) with 0 by ring. replace (- 0 * - 0 + 1 * 1) with 1 by ring.
    rewrite Rabs_R0, Rabs_R1. unfold Rmax; repeat destruct (Rle_dec _ _); lra.
  - intros P Q HP HQ. destruct HP as (a & b & Ha & Hb & ->), HQ as (a' & b' & Ha' & Hb' & ->).
    cbn [box rg_org rg_ang rg_back rg_front rg_half fst snd] in *. unfold dist, dist2, at_frame; cbn [fst snd].
    rewrite cos_0, sin_0. apply sqrt_le_1_alt.
    assert (1 <= (3 + a' * 1 - b' * 0) - (0 + a * 1 - b * 0)) by lra.
    assert (1 <= (3 + a' * 0 + b' * 1) - (0 + a * 0 + b * 1)) by lra. nra.
Qed.

(** ** Vehicles *)
Lemma box_region_eq (o : point) ang back front half c h :
  c = at_frame o ang ((back + front) / 2) 0 -> fst h = (front - back) / 2 -> snd h = half ->
  forall P, solid (box c h ang) P <-> solid (mkRegion o ang back front half) P.
Proof.
  intros -> Eh <- P.
  assert (K : forall a b, at_frame (at_frame o ang ((back + front) / 2) 0) ang a b = at_frame o ang (a + (back + front) / 2) b).
  { intros a b. unfold at_frame; cbn [fst snd]. f_equal; ring. }
  unfold solid, box; cbn [rg_org rg_ang rg_back rg_front rg_half]. split.
  - intros (a & b & Ha & Hb & ->). exists (a + (back + front) / 2), b. rewrite K. repeat split; lra.
  - intros (a & b & Ha & Hb & ->). exists (a - (back + front) / 2), b. rewrite K. repeat split; try lra. f_equal; ring.
Qed.
Lemma tractor_box p px py th P :
  solid (box (np_tractor_center p px py th) (bk_np_half p) th) P <-> solid (tractor_body p px py th) P.
Proof.
  apply box_region_eq; cbn [fst snd bk_np_half]; try (field; fail); try reflexivity.
  unfold np_tractor_center, at_frame; cbn [fst snd]. f_equal; field.
Qed.
Lemma obstacle_box o P : solid (box (r_x o, r_y o) (r_w o / 2, r_h o / 2) (r_ang o)) P <-> solid (obstacle_body o) P.
Proof.
  apply box_region_eq; cbn [fst snd]; try field; try reflexivity.
  unfold at_frame; cbn [fst snd]. f_equal; field.
Qed.
Lemma disjoint_ext g g' h h' : (forall P, solid g P <-> solid g' P) -> (forall P, solid h P <-> solid h' P) ->
  (disjoint g h <-> disjoint g' h').
Proof. intros G Hh. unfold disjoint. split; intros D P [A B]; apply (D P); rewrite ?G, ?Hh in *; auto. Qed.
Definition feasible (cs : list R) : Prop := Forall (fun c => 0 <= c) cs.
Definition strict (cs : list R) : Prop := Forall (fun c => 0 < c) cs.
Lemma bk_constraints_forall (Pr : R -> Prop) s x : Pr 1 ->
  (Forall Pr (bk_constraints_at s x) <->
   (forall c, In c (bs_circ s) -> Pr (bk_dist_circle (bs_p s) x c)) /\
   (forall o, In o (bs_rect s) -> Pr (bk_dist_rect (bs_p s) x o))).
Proof.
  intros P1. unfold bk_constraints_at.
  set (l := map (bk_dist_circle (bs_p s) x) (bs_circ s) ++ map (bk_dist_rect (bs_p s) x) (bs_rect s)).
  assert (E : Forall Pr (match l with [] => [1] | r :: l0 => r :: l0 end) <-> Forall Pr l).
  { destruct l; [split; intros; constructor; auto|reflexivity]. }
  rewrite E. unfold l. rewrite Forall_app, !Forall_map, !Forall_forall. reflexivity.
Qed.
(** C40: for the car the constraints handed to the optimiser are all positive at a pose exactly
    when the solid body meets no (closed) obstacle there. *)
Lemma l_C40_bk_constraints_exact :
  forall s x, tractor_sized (bs_p s) -> proper_obstacles (bs_circ s) (bs_rect s) ->
  (Forall (fun c => 0 < c) (bk_constraints_at s x) <-> free_bodies (bk_bodies (bs_p s) x) (bs_circ s) (bs_rect s)).
Proof.
  intros s x [Z1 Z2] [O1 O2]. rewrite bk_constraints_forall by lra.
  assert (T1 : 0 < fst (bk_np_half (bs_p s))) by (cbn; lra). assert (T2 : 0 < snd (bk_np_half (bs_p s))) by (cbn; lra).
  unfold free_bodies. split; intros [A B]; split.
  - intros g c [<-|[]] Hc P HP. specialize (A c Hc). unfold bk_dist_circle in A.
    apply (proj1 (l_C40_circle_constraint_exact _ _ _ _ _ (Rlt_le _ _ T1) (Rlt_le _ _ T2) (O1 c Hc)) A).
    apply tractor_box. exact HP.
  - intros g o [<-|[]] Ho. specialize (B o Ho). destruct (O2 o Ho) as [W1 W2]. unfold bk_dist_rect in B.
    apply l_C40_gap_positive_disjoint in B. revert B.
    refine (proj1 (disjoint_ext _ _ _ _ _ _)); intros P; [apply tractor_box|apply obstacle_box].
  - intros c Hc. unfold bk_dist_circle. apply l_C40_circle_constraint_exact; [lra|lra|auto|].
    intros P HP. apply tractor_box in HP. exact (A _ c (or_introl eq_refl) Hc P HP).
  - intros o Ho. destruct (O2 o Ho) as [W1 W2]. unfold bk_dist_rect. apply l_C40_gap_exact; cbn [fst snd]; try lra.
    specialize (B _ o (or_introl eq_refl) Ho). revert B.
      refine (proj1 (disjoint_ext _ _ _ _ _ _)); intros P; symmetry; [apply tractor_box|apply obstacle_box].
Qed.
Lemma free_clear gs circ rect : free_bodies gs circ rect -> clear_bodies gs circ rect.
Proof.
  intros [A B]. split; [|exact B]. intros g c Hg Hc P HP. apply (A g c Hg Hc). apply outline_solid. exact HP.
Qed.
(** C40: hence positive constraints imply the collision check accepts the pose. *)
Lemma l_C40_bk_constraints_imply_safe :
  forall s x, tractor_sized (bs_p s) -> proper_obstacles (bs_circ s) (bs_rect s) ->
  Forall (fun c => 0 < c) (bk_constraints_at s x) ->
  bk_safe (bs_p s) (bs_circ s) (bs_rect s) x /\ bs_coll s x = false.
Proof.
  intros s x Z O H. apply (proj1 (l_C40_bk_constraints_exact s x Z O)) in H. apply free_clear in H.
  split; [exact H|]. unfold bs_coll. rewrite bk_coll_bodies. apply clear_bodies_hit_false; auto.
  intros g [<-|[]]. apply sized_tractor. exact Z.
Qed.
(** C40: the pose the constraints look at is the Simpson prediction of the car. *)
Lemma l_C40_bk_constraint_pose :
  forall s q u, bk_constraint s q u = bk_constraints_at s (bk_predicted (bs_p s) q u).
Proof.
  intros s q u. unfold bk_constraint. f_equal. unfold rk4, bk_dyn, bk_axpy, bk_predicted, input_scaler.
  cbn [b_px b_py b_th fst snd]. f_equal.
  - replace (b_th q + p_dt (bs_p s) / 2 * (fst u * p_vmax (bs_p s) / p_l1 (bs_p s) * tan (snd u * p_dmax (bs_p s))))
      with (b_th q + p_dt (bs_p s) * (fst u * p_vmax (bs_p s) / p_l1 (bs_p s) * tan (snd u * p_dmax (bs_p s))) / 2) by (unfold Rdiv; ring).
    unfold Rdiv; ring.
  - replace (b_th q + p_dt (bs_p s) / 2 * (fst u * p_vmax (bs_p s) / p_l1 (bs_p s) * tan (snd u * p_dmax (bs_p s))))
      with (b_th q + p_dt (bs_p s) * (fst u * p_vmax (bs_p s) / p_l1 (bs_p s) * tan (snd u * p_dmax (bs_p s))) / 2) by (unfold Rdiv; ring).
    unfold Rdiv; ring.
  - set (w := _ / _ * tan _). field.
Qed.

(** ** The step *)
Lemma proj_answer_spec u r :
  (forall x, r = OptDone true x -> proj_answer u r = x) /\
  ((forall x, r <> OptDone true x) -> proj_answer u r = u).
Proof.
  destruct r as [[|] x|]; cbn; split; intros.
  - congruence.
  - exfalso. apply (H x). reflexivity.
  - congruence.
  - reflexivity.
  - congruence.
  - reflexivity.
Qed.
(** C40: one step of the tractor-trailer with projection on. [r] is what the optimiser did when
    asked for the command closest to the (clipped) original one under the constraints at the
    current state. On success its answer is applied, otherwise the original command; the next
    state is the plain motion under the applied command. *)
Lemma l_C40_tt_step :
  forall s m guide st a, p_proj (ts_p s) = true ->
  let u := saturated a in
  let r := m (fun x => (fst x - fst u) * (fst x - fst u) + (snd x - snd u) * (snd x - snd u)) u
             (mkBounds (-1, 1) (-1, 1)) (tt_constraint s (st_q st)) in
  let st' := tt_step_p s m guide st a in
  (forall x, r = OptDone true x -> st_app st' = x) /\
  ((forall x, r <> OptDone true x) -> st_app st' = u) /\
  st_q st' = tt_plain (ts_p s) (st_q st) (st_app st').
Proof. rewrite ?saturated_clip.
  intros s m guide st a Hp u r st'.
  assert (A : st_app st' = proj_answer u r).
  { unfold st', tt_step_p, tt_step, tt_step_internal, tt_step_with. rewrite Hp. cbn [st_app]. unfold tt_project. rewrite Hp. reflexivity. }
  assert (Q : st_q st' = tt_plain (ts_p s) (st_q st) (st_app st')).
  { rewrite A. rewrite <- tt_euler_plain. unfold st', tt_step_p, tt_step, tt_step_internal, tt_step_with. rewrite Hp. cbn [st_q].
    unfold tt_project. rewrite Hp. reflexivity. }
  destruct (proj_answer_spec u r) as [S1 S2]. split; [|split]; [| |exact Q].
  - intros x E. rewrite A. auto.
  - intros E. rewrite A. auto.
Qed.
Lemma l_C40_bk_step :
  forall s m guide st a, p_proj (bs_p s) = true ->
  let u := saturated a in
  let r := m (fun x => (fst x - fst u) * (fst x - fst u) + (snd x - snd u) * (snd x - snd u)) u
             (mkBounds (-1, 1) (-1, 1)) (bk_constraint s (st_q st)) in
  let st' := bk_step_p s m guide st a in
  (forall x, r = OptDone true x -> st_app st' = x) /\
  ((forall x, r <> OptDone true x) -> st_app st' = u) /\
  st_q st' = bk_plain (bs_p s) (st_q st) (st_app st').
Proof. rewrite ?saturated_clip.
  intros s m guide st a Hp u r st'.
  assert (A : st_app st' = proj_answer u r).
  { unfold st', bk_step_p, bk_step, bk_step_internal, bk_step_with. rewrite Hp. cbn [st_app]. unfold bk_project. rewrite Hp. reflexivity. }
  assert (Q : st_q st' = bk_plain (bs_p s) (st_q st) (st_app st')).
  { rewrite A. rewrite <- bk_euler_plain. unfold st', bk_step_p, bk_step, bk_step_internal, bk_step_with. rewrite Hp. cbn [st_q].
    unfold bk_project. rewrite Hp. reflexivity. }
  destruct (proj_answer_spec u r) as [S1 S2]. split; [|split]; [| |exact Q].
  - intros x E. rewrite A. auto.
  - intros E. rewrite A. auto.
Qed.
(** C40: the acceleration vehicle asks the same question as the kinematic one, at its pose only. *)
Lemma l_C40_acc_step :
  forall s m guide st a, p_proj (as_p s) = true -> 0 <= p_vmax (as_p s) -> 0 <= p_dmax (as_p s) ->
  let u := saturated a in
  let r := m (fun x => (fst x - fst u) * (fst x - fst u) + (snd x - snd u) * (snd x - snd u)) u
             (mkBounds (-1, 1) (-1, 1)) (tt_constraint (as_t s) (a_q (st_q st))) in
  let st' := acc_step_p s m guide st a in
  (forall x, r = OptDone true x -> st_app st' = x) /\
  ((forall x, r <> OptDone true x) -> st_app st' = u) /\
  st_q st' = acc_drive (as_p s) (p_dt (as_p s)) (st_q st) (fst (st_app st') * as_amax s) (snd (st_app st') * as_omax s).
Proof. rewrite ?saturated_clip.
  intros s m guide st a Hp Hv Hd u r st'.
  assert (Hp' : p_proj (ts_p (as_t s)) = true) by exact Hp.
  assert (A : st_app st' = proj_answer u r).
  { unfold st', acc_step_p, acc_step, acc_step_internal, acc_step_with. rewrite Hp. cbn [st_app]. unfold acc_project, tt_project.
    rewrite Hp, Hp'. reflexivity. }
  assert (Q : st_q st' = acc_euler s (st_q st) (fst (st_app st') * as_amax s, snd (st_app st') * as_omax s) (p_dt (as_p s))).
  { rewrite A. unfold st', acc_step_p, acc_step, acc_step_internal, acc_step_with. rewrite Hp. cbn [st_q].
    unfold acc_project, tt_project. rewrite Hp, Hp'. reflexivity. }
  destruct (proj_answer_spec u r) as [S1 S2]. split; [|split]; [| |rewrite Q, acc_euler_drive by assumption; reflexivity].
  - intros x E. rewrite A. auto.
  - intros E. rewrite A. auto.
Qed.
Lemma answer_in_box m obj u con : respects_bounds m -> in_box u ->
  in_box (proj_answer u (m obj u (mkBounds (-1, 1) (-1, 1)) con)).
Proof.
  intros Hm Hu. destruct (m obj u (mkBounds (-1, 1) (-1, 1)) con) as [[|] x|] eqn:E; cbn; auto.
  apply (Hm _ _ _ _ _ E).
Qed.
Lemma tt_applied_in_box s m guide st a : p_proj (ts_p s) = true -> respects_bounds m -> in_box (st_app (tt_step_p s m guide st a)).
Proof.
  intros Hp Hm. unfold tt_step_p, tt_step, tt_step_internal, tt_step_with. rewrite Hp. cbn [st_app]. unfold tt_project. rewrite Hp.
  apply answer_in_box; auto. apply clip_act_range.
Qed.
Lemma bk_applied_in_box s m guide st a : p_proj (bs_p s) = true -> respects_bounds m -> in_box (st_app (bk_step_p s m guide st a)).
Proof.
  intros Hp Hm. unfold bk_step_p, bk_step, bk_step_internal, bk_step_with. rewrite Hp. cbn [st_app]. unfold bk_project. rewrite Hp.
  apply answer_in_box; auto. apply clip_act_range.
Qed.
Lemma acc_applied_in_box s m guide st a : p_proj (as_p s) = true -> respects_bounds m -> in_box (st_app (acc_step_p s m guide st a)).
Proof.
  intros Hp Hm. unfold acc_step_p, acc_step, acc_step_internal, acc_step_with. rewrite Hp. cbn [st_app]. unfold acc_project, tt_project.
  rewrite Hp. unfold as_p in Hp. rewrite Hp. apply answer_in_box; auto. apply clip_act_range.
Qed.
Lemma scan_applied_forall {Q : Type} (step : State Q -> act -> State Q) (Pr : act -> Prop) :
  (forall st a, Pr (st_app (step st a))) -> forall us st, Forall Pr (map snd (snd (Rollout.scan_us step st us))).
Proof.
  intros H us. induction us as [|u us IH]; intros st; cbn; [constructor|].
  destruct (Rollout.scan_us step (step st u) us) as [fin outs] eqn:E. cbn. constructor; [apply H|].
  specialize (IH (step st u)). rewrite E in IH. exact IH.
Qed.
Lemma rollout_applied_forall {Q : Type} (step : State Q -> act -> State Q) (Pr : act -> Prop) :
  (forall st a, Pr (st_app (step st a))) -> forall us st, Forall Pr (snd (Rollout.rollout_us step st us)).
Proof.
  intros H us st. unfold Rollout.rollout_us. pose proof (scan_applied_forall step Pr H us (step st (0, 0))) as F.
  destruct (Rollout.scan_us step (step st (0, 0)) us). exact F.
Qed.
(** C40: along every rollout, whatever the requested commands, every applied command is in the
    box, provided the optimiser respects the bounds it was given; when it fails or raises nothing
    is required of it. *)
Lemma l_C40_applied_in_box :
  forall m, respects_bounds m ->
  (forall s guide st us, p_proj (ts_p s) = true -> Forall in_box (snd (Rollout.rollout_us (tt_step_p s m guide) st us))) /\
  (forall s guide st us, p_proj (bs_p s) = true -> Forall in_box (snd (Rollout.rollout_us (bk_step_p s m guide) st us))) /\
  (forall s guide st us, p_proj (as_p s) = true -> Forall in_box (snd (Rollout.rollout_us (acc_step_p s m guide) st us))).
Proof.
  intros m Hm. split; [|split]; intros; apply rollout_applied_forall; intros.
  - apply tt_applied_in_box; auto.
  - apply bk_applied_in_box; auto.
  - apply acc_applied_in_box; auto.
Qed.
(** C40 (necessity): without that assumption the step applies any command the optimiser names, it
    does not clip again. *)
Lemma l_C40_bounds_need_optimiser :
  forall s guide st a x, p_proj (ts_p s) = true ->
  st_app (tt_step_p s (fun _ _ _ _ => OptDone true x) guide st a) = x.
Proof.
  intros s guide st a x Hp. unfold tt_step_p, tt_step, tt_step_internal, tt_step_with. rewrite Hp. cbn [st_app].
  unfold tt_project. rewrite Hp. reflexivity.
Qed.
(** C40: with projection off the command is passed through and the optimiser is never asked. *)
Lemma l_C40_disabled_is_identity :
  forall s sb sa m q qb qa u,
  (p_proj (ts_p s) = false -> tt_project s m q u = u) /\
  (p_proj (bs_p sb) = false -> bk_project sb m qb u = u) /\
  (p_proj (as_p sa) = false -> acc_project sa m qa u = u).
Proof.
  intros. split; [|split]; intros H; [unfold tt_project|unfold bk_project|unfold acc_project]; rewrite H; reflexivity.
Qed.
(** C40: a car whose optimiser only succeeds on strictly admissible commands is clear of all
    obstacles at the predicted pose, for every applied successful answer. *)
Lemma l_C40_bk_predicted_pose_safe :
  forall s m guide st a x,
  p_proj (bs_p s) = true -> tractor_sized (bs_p s) -> proper_obstacles (bs_circ s) (bs_rect s) -> strictly_feasible m ->
  m (fun u => (fst u - fst (saturated a)) * (fst u - fst (saturated a)) + (snd u - snd (saturated a)) * (snd u - snd (saturated a)))
    (saturated a) (mkBounds (-1, 1) (-1, 1)) (bk_constraint s (st_q st)) = OptDone true x ->
  st_app (bk_step_p s m guide st a) = x /\
  bk_safe (bs_p s) (bs_circ s) (bs_rect s) (bk_predicted (bs_p s) (st_q st) x).
Proof.
  intros s m guide st a x Hp Z O Hm E. split.
  - apply (proj1 (l_C40_bk_step s m guide st a Hp)). exact E.
  - apply (l_C40_bk_constraints_imply_safe s _ Z O). rewrite <- l_C40_bk_constraint_pose. exact (Hm _ _ _ _ _ E).
Qed.

(** ** What the tractor-trailer projection really checks *)
Lemma short_tractor_box p q P :
  solid (box (np_tractor_center p (t_px q) (t_py q) (t_th1 q)) (np_tractor_half p) (t_th1 q)) P <->
  solid (nth 0 (tt_short_bodies p q) (tractor_body p 0 0 0)) P.
Proof.
  cbn [nth tt_short_bodies]. apply box_region_eq; cbn [fst snd np_tractor_half]; try field; try reflexivity.
  unfold np_tractor_center, at_frame; cbn [fst snd]. f_equal; field.
Qed.
Lemma short_trailer_box p q P :
  solid (box (np_trailer_center p q) (np_trailer_half p) (t_th2 q)) P <->
  solid (nth 1 (tt_short_bodies p q) (tractor_body p 0 0 0)) P.
Proof.
  cbn [nth tt_short_bodies]. apply box_region_eq; cbn [fst snd np_trailer_half]; try field; try reflexivity.
  unfold np_trailer_center, at_frame, ahead; cbn [fst snd]. f_equal; field.
Qed.
Lemma Rmin_pos_iff x y : 0 < Rmin x y <-> 0 < x /\ 0 < y.
Proof. split; [intros H; pose proof (Rmin_l x y); pose proof (Rmin_r x y); lra|intros []; apply Rmin_glb_lt; auto]. Qed.
(** C40: for the tractor-trailer the constraints are all positive exactly when the *shortened*
    bodies (wheelbases instead of overall lengths) are free of every obstacle and the hitch angle
    is strictly within its limit. *)
Lemma l_C40_tt_constraints_exact :
  forall s x, 0 < p_l1 (ts_p s) -> 0 < p_l2 (ts_p s) -> 0 < p_trac_w (ts_p s) -> 0 < p_trail_w (ts_p s) ->
  proper_obstacles (ts_circ s) (ts_rect s) ->
  (Forall (fun c => 0 < c) (tt_constraints_at s x) <->
   free_bodies (tt_short_bodies (ts_p s) x) (ts_circ s) (ts_rect s) /\
   exists k : Z, Rabs (t_th1 x - t_th2 x + IZR k * (2 * PI)) < p_phi_max (ts_p s)).
Proof.
  intros s x L1 L2 W1 W2 [O1 O2]. unfold tt_constraints_at. cbv zeta.
  rewrite !Forall_app, !Forall_map, !Forall_forall.
  assert (HH : (forall y, In y [p_phi_max (ts_p s) - Rabs (wrap_pi (t_th1 x - t_th2 x))] -> 0 < y) <->
               exists k : Z, Rabs (t_th1 x - t_th2 x + IZR k * (2 * PI)) < p_phi_max (ts_p s)).
  { split.
    - intros H. specialize (H _ (or_introl eq_refl)). destruct (wrap_pi_rep (t_th1 x - t_th2 x)) as [k E].
      exists k. rewrite <- E. lra.
    - intros [k Hk] y [<-|[]]. pose proof (wrap_pi_min (t_th1 x - t_th2 x) k). lra. }
  rewrite HH. clear HH.
  set (T := np_tractor_center (ts_p s) (t_px x) (t_py x) (t_th1 x)).
  set (g1 := nth 0 (tt_short_bodies (ts_p s) x) (tractor_body (ts_p s) 0 0 0)).
  set (g2 := nth 1 (tt_short_bodies (ts_p s) x) (tractor_body (ts_p s) 0 0 0)).
  assert (C : forall c, In c (ts_circ s) -> (0 < tt_dist_circle (ts_p s) x c <-> free_of_circle g1 c /\ free_of_circle g2 c)).
  { intros c Hc. unfold tt_dist_circle.
    set (d1 := sdf_box _ _ _ _). set (d2 := sdf_box _ _ _ _).
    assert (E : 0 < Rmin d1 d2 - c_r c <-> 0 < d1 - c_r c /\ 0 < d2 - c_r c).
    { unfold Rmin; destruct (Rle_dec d1 d2); lra. }
    rewrite E. unfold d1, d2.
    rewrite !l_C40_circle_constraint_exact by (cbn; try lra; auto). unfold free_of_circle.
    split; intros [A B]; split; intros P HP;
      [apply A; apply short_tractor_box|apply B; apply short_trailer_box|apply A; apply short_tractor_box in HP|apply B; apply short_trailer_box in HP]; exact HP. }
  assert (Rr : forall o, In o (ts_rect s) -> (0 < tt_dist_rect (ts_p s) x o <-> disjoint g1 (obstacle_body o) /\ disjoint g2 (obstacle_body o))).
  { intros o Ho. destruct (O2 o Ho). unfold tt_dist_rect. cbv zeta. rewrite Rmin_pos_iff.
    rewrite !l_C40_gap_exact by (cbn; lra).
    rewrite (disjoint_ext _ g1 _ (obstacle_body o) (short_tractor_box (ts_p s) x) (obstacle_box o)).
    rewrite (disjoint_ext _ g2 _ (obstacle_body o) (short_trailer_box (ts_p s) x) (obstacle_box o)). reflexivity. }
  unfold free_bodies. change (tt_short_bodies (ts_p s) x) with [g1; g2]. split.
  - intros (A & B & K). split; [split|exact K].
    + intros g c Hg Hc. destruct (proj1 (C c Hc) (A c Hc)). destruct Hg as [<-|[<-|[]]]; assumption.
    + intros g o Hg Ho. destruct (proj1 (Rr o Ho) (B o Ho)). destruct Hg as [<-|[<-|[]]]; assumption.
  - intros ((A & B) & K). split; [|split; [|exact K]].
    + intros c Hc. apply C; auto. split; apply A; cbn; auto.
    + intros o Ho. apply Rr; auto. split; apply B; cbn; auto.
Qed.

(** ** Refutations *)
Definition ex_proj_self : tt_self := mkTTSelf (with_modes default_params true false) [mkCircle (52/10) 0 (5/10)] [] (mkTT 0 0 0 0).
Definition ex_q0 : ttq := mkTT 0 0 0 0.
Definition ex_q1 : ttq := mkTT (6/10) 0 0 0.
Lemma ex_rk4 v q : t_th1 q = 0 -> t_th2 q = 0 ->
  rk4 tt_axpy (tt_dyn (ts_p ex_proj_self)) q (v, 0) (p_dt (ts_p ex_proj_self)) = mkTT (t_px q + 2/10 * v) (t_py q) 0 0.
Proof.
  intros E1 E2.
  assert (D : forall x, t_th1 x = 0 -> t_th2 x = 0 -> tt_dyn (ts_p ex_proj_self) x (v, 0) = mkTT v 0 0 0).
  { intros x H1 H2. unfold tt_dyn. rewrite H1, H2. replace (0 - 0) with 0 by ring. rewrite cos_0, sin_0, tan_0. f_equal; ring. }
  unfold rk4. rewrite !(D q) by assumption.
  rewrite !(D (tt_axpy q _ (mkTT v 0 0 0))) by (unfold tt_axpy; cbn; rewrite ?E1, ?E2; ring).
  unfold tt_axpy; cbn. rewrite E1, E2. f_equal; field.
Qed.
Lemma dist_x P Q : Rabs (fst P - fst Q) <= dist P Q.
Proof.
  unfold dist, dist2. apply sq_le_sqrt; [apply Rabs_pos|]. rewrite Rabs_sq. pose proof (sq_nonneg (snd P - snd Q)). lra.
Qed.
Lemma ex_free px gs : gs = tt_bodies default_params (mkTT px 0 0 0) \/ gs = tt_short_bodies default_params (mkTT px 0 0 0) ->
  forall X, (gs = tt_bodies default_params (mkTT px 0 0 0) -> px + 413/100 + 5/10 < X) -> px + 2757/1000 + 5/10 < X ->
  free_bodies gs [mkCircle X 0 (5/10)] [].
Proof.
  intros G X H1 H2. split; [|intros g o _ []].
  intros g c Hg [<-|[]] P (a & b & Ha & Hb & ->). cbn [c_r c_x c_y].
  eapply Rlt_le_trans; [|apply dist_x]. cbn [fst snd]. rewrite Rabs_minus_sym.
  eapply Rlt_le_trans; [|apply Rle_abs].
  destruct G as [-> | ->].
  - specialize (H1 eq_refl). destruct Hg as [<-|[<-|[]]]; unfold tractor_body, trailer_body, ahead, at_frame in *;
      cbn [rg_org rg_ang rg_back rg_front rg_half fst snd t_px t_py t_th1 t_th2] in *; rewrite cos_0, sin_0;
      unfold default_params in *; cbn [p_l1 p_lf1 p_lr p_lh p_l2 p_lf2 p_lr2] in *; lra.
  - clear H1. destruct Hg as [<-|[<-|[]]]; unfold ahead, at_frame in *;
      cbn [rg_org rg_ang rg_back rg_front rg_half fst snd t_px t_py t_th1 t_th2] in *; rewrite cos_0, sin_0;
      unfold default_params in *; cbn [p_l1 p_lf1 p_lr p_lh p_l2 p_lf2 p_lr2] in *; lra.
Qed.
Lemma ex_start_safe : tt_safe (ts_p ex_proj_self) (ts_circ ex_proj_self) (ts_rect ex_proj_self) ex_q0.
Proof.
  split.
  - apply free_clear. apply (ex_free 0 (tt_bodies default_params (mkTT 0 0 0 0))); [left; reflexivity|intros _; lra|lra].
  - apply hitch_ok_zero. cbn. unfold phi_max_const. pose proof PI_RGT_0. lra.
Qed.
Lemma ex_default_sized : tt_sized default_params.
Proof. unfold tt_sized, tractor_sized, default_params; cbn; lra. Qed.
Lemma ex_next_hits : ts_coll ex_proj_self ex_q1 = true.
Proof.
  destruct (ts_coll ex_proj_self ex_q1) eqn:E; [reflexivity|exfalso].
  apply tt_coll_false_clear in E; [|exact ex_default_sized].
  destruct E as [E _]. specialize (E _ _ (or_introl eq_refl) (or_introl eq_refl) (473/100, 0)).
  cbn [c_r c_x c_y] in E. assert (O : outline (tractor_body (ts_p ex_proj_self) (t_px ex_q1) (t_py ex_q1) (t_th1 ex_q1)) (473/100, 0)).
  { exists (413/100), 0. unfold tractor_body, at_frame; cbn [rg_org rg_ang rg_back rg_front rg_half fst snd ex_q1 t_px t_py t_th1].
    rewrite cos_0, sin_0. unfold ex_proj_self, with_modes, default_params; cbn [ts_p p_l1 p_lf1 p_lr p_trac_w].
    split; [lra|]. split; [lra|]. split; [right; left; lra|]. f_equal; lra. }
  specialize (E O). unfold dist, dist2 in E; cbn [fst snd] in E.
  replace ((473/100 - 52/10) * (473/100 - 52/10) + (0 - 0) * (0 - 0)) with ((47/100) * (47/100)) in E by field.
  rewrite sqrt_square in E by lra. lra.
Qed.
Lemma ex_short_free px : px <= 6/10 -> Forall (fun c => 0 < c) (tt_constraints_at ex_proj_self (mkTT px 0 0 0)).
Proof.
  intros Hx. apply l_C40_tt_constraints_exact; try (cbn; lra).
  - split; [intros c [<-|[]]; cbn; lra|intros o []].
  - split.
    + apply (ex_free px (tt_short_bodies default_params (mkTT px 0 0 0))); [right; reflexivity| |lra].
      intros E. exfalso. apply (f_equal (fun l => rg_front (nth 0 l (mkRegion (0,0) 0 0 0 0)))) in E. cbn in E. lra.
    + exists 0%Z. cbn [t_th1 t_th2]. replace (0 - 0 + 0 * (2 * PI)) with 0 by ring. rewrite Rabs_R0.
      cbn. unfold phi_max_const. pose proof PI_RGT_0. lra.
Qed.
Lemma sq_sum_zero x y : x * x + y * y <= 0 -> x = 0 /\ y = 0.
Proof.
  intros H. pose proof (sq_nonneg x). pose proof (sq_nonneg y).
  assert (A : x * x = 0) by lra. assert (B : y * y = 0) by lra.
  apply Rmult_integral in A. apply Rmult_integral in B. lra.
Qed.
Lemma perfect_returns m u con : perfect m -> admissible proj_bounds con u ->
  m (proj_objective u) u proj_bounds con = OptDone true u.
Proof.
  intros Hm Hu. assert (Z : proj_objective u u = 0) by (unfold proj_objective; ring).
  destruct (Hm (proj_objective u) u proj_bounds con) as (x & E & _ & L).
  - exists u. split; [exact Hu|]. intros u' _. rewrite Z. unfold proj_objective.
    pose proof (sq_nonneg (fst u' - fst u)). pose proof (sq_nonneg (snd u' - snd u)). lra.
  - specialize (L u Hu). rewrite Z in L. unfold proj_objective in L. apply sq_sum_zero in L.
    rewrite E. f_equal. destruct x, u; cbn in L. f_equal; lra.
Qed.
(** C40 (refuted): the claim "with projection on and a perfect optimiser the tractor-trailer never
    enters an obstacle". The default vehicle starts clear of a post ahead, asks to drive straight
    on, the perfect optimiser finds the command admissible, and the front of the tractor is inside
    the post after the step; the step's reward is not even reduced (the collision flags are
    constants in this mode). *)
Lemma l_C40_tt_projection_safe_refuted :
  exists s st a, p_proj (ts_p s) = true /\
  tt_safe (ts_p s) (ts_circ s) (ts_rect s) (st_q st) /\
  forall m guide, perfect m ->
    let st' := tt_step_p s m guide st a in
    st_app st' = a /\ ts_coll s (st_q st') = true /\ st_rew st' = tt_reward s (st_q st').
Proof.
  exists ex_proj_self, (reset_state ex_q0), (1, 0). split; [reflexivity|]. split; [exact ex_start_safe|].
  intros m guide Hm st'.
  assert (C : clip_act (1, 0) = (1, 0)) by (apply clip_act_id; cbn; lra).
  assert (A : m (proj_objective (1, 0)) (1, 0) proj_bounds (tt_constraint ex_proj_self ex_q0) = OptDone true (1, 0)).
  { apply perfect_returns; [exact Hm|]. split; [cbn; lra|split; [cbn; lra|]].
    unfold tt_constraint. replace (input_scaler (ts_p ex_proj_self) (1, 0)) with (3, 0) by (unfold input_scaler; cbn; f_equal; ring).
    rewrite ex_rk4 by reflexivity.
    eapply Forall_impl; [|apply ex_short_free; cbn; lra]. intros; cbn in *; lra. }
  destruct (l_C40_tt_step ex_proj_self m guide (reset_state ex_q0) (1, 0) eq_refl) as (S1 & _ & S3).
  cbv zeta in S1, S3. fold st' in S1, S3. rewrite saturated_clip, C in S1.
  assert (App : st_app st' = (1, 0)) by (apply S1; exact A).
  split; [exact App|]. rewrite App in S3. split.
  - rewrite S3. replace (tt_plain (ts_p ex_proj_self) (st_q (reset_state ex_q0)) (1, 0)) with ex_q1; [exact ex_next_hits|].
    unfold tt_plain, ex_q1, ex_q0, reset_state; cbn [st_q t_px t_py t_th1 t_th2 fst snd]. rewrite Rmult_0_l, tan_0.
    replace (0 - 0) with 0 by ring. rewrite cos_0, sin_0.
    unfold ex_proj_self, with_modes, default_params; cbn [ts_p p_dt p_vmax p_l1 p_l2 p_lh]. f_equal; field.
  - unfold st', tt_step_p, tt_step, tt_step_internal, tt_step_with. cbn [p_proj ts_p ex_proj_self with_modes].
    reflexivity.
Qed.

Lemma at_frame_shift (o o' : point) ang a b :
  at_frame o ang a b = at_frame o' ang (a - ((fst o' - fst o) * cos ang + (snd o' - snd o) * sin ang))
                                       (b - ((snd o' - snd o) * cos ang - (fst o' - fst o) * sin ang)).
Proof.
  pose proof (sin2_cos2' ang) as E. unfold at_frame; cbn [fst snd]. f_equal.
  - transitivity (fst o' + a * cos ang - b * sin ang - (fst o' - fst o) * (sin ang * sin ang + cos ang * cos ang)); [rewrite E; ring|ring].
  - transitivity (snd o' + a * sin ang + b * cos ang - (snd o' - snd o) * (sin ang * sin ang + cos ang * cos ang)); [rewrite E; ring|ring].
Qed.
Lemma lateral_gain th w : 0 < w < PI / 2 ->
  let Cx := (cos th + 4 * cos (th + w / 2) + cos (th + w)) - 6 * cos th in
  let Cy := (sin th + 4 * sin (th + w / 2) + sin (th + w)) - 6 * sin th in
  0 < Cy * cos (th + w) - Cx * sin (th + w).
Proof.
  intros Hw Cx Cy.
  assert (E : Cy * cos (th + w) - Cx * sin (th + w) = 5 * sin w - 4 * sin (w / 2)).
  { unfold Cx, Cy.
    assert (A : sin w = sin (th + w) * cos th - cos (th + w) * sin th) by (rewrite <- sin_minus; f_equal; ring).
    assert (B : sin (w / 2) = sin (th + w) * cos (th + w / 2) - cos (th + w) * sin (th + w / 2)) by (rewrite <- sin_minus; f_equal; field).
    rewrite A, B. ring. }
  rewrite E. pose proof PI_RGT_0.
  assert (0 < sin (w / 2)) by (apply sin_gt_0; lra).
  assert (sin (w / 2) < sin w) by (apply sin_increasing_1; lra). lra.
Qed.
(** C40 (refuted): the claim "a command whose constraints hold leads to a safe next state". The
    constraints look at the Runge-Kutta prediction, the vehicle is moved by the Euler step: for
    every car, pose and turning command there is a post for which all constraints hold strictly and
    the car hits it in that very step. *)
Lemma l_C40_feasible_command_safe_refuted :
  forall p q u, tractor_sized p ->
  let v := fst u * p_vmax p in
  let w := p_dt p * (v / p_l1 p * tan (snd u * p_dmax p)) in
  0 < p_dt p -> 0 < v -> 0 < w < PI / 2 ->
  exists c, 0 < c_r c /\
    Forall (fun x => 0 < x) (bk_constraint (mkBKSelf p [c] [] q) q u) /\
    bk_coll p [c] [] (bk_plain p q u) = true.
Proof.
  intros p q u Z v w Hdt Hv Hw.
  set (o := (b_px (bk_plain p q u), b_py (bk_plain p q u))).
  set (o' := (b_px (bk_predicted p q u), b_py (bk_predicted p q u))).
  set (th' := b_th q + w).
  assert (T1 : b_th (bk_plain p q u) = th') by reflexivity.
  assert (T2 : b_th (bk_predicted p q u) = th') by reflexivity.
  set (lat := (snd o' - snd o) * cos th' - (fst o' - fst o) * sin th').
  assert (L : 0 < lat).
  { pose proof (lateral_gain (b_th q) w Hw) as G. cbv zeta in G.
    assert (E : lat = p_dt p * v / 6 *
      (((sin (b_th q) + 4 * sin (b_th q + w / 2) + sin (b_th q + w)) - 6 * sin (b_th q)) * cos (b_th q + w)
       - ((cos (b_th q) + 4 * cos (b_th q + w / 2) + cos (b_th q + w)) - 6 * cos (b_th q)) * sin (b_th q + w))).
    { unfold lat, o, o', th', bk_predicted, bk_plain; cbn [fst snd b_px b_py b_th]. fold v. fold w. field. }
    rewrite E. apply Rmult_lt_0_compat; [|exact G].
    pose proof (Rmult_lt_0_compat _ _ Hdt Hv). lra. }
  pose proof Z as Z'. destruct Z' as [Z1 Z2].
  set (F := p_l1 p + p_lf1 p). set (W := p_trac_w p / 2).
  set (C := at_frame o th' F (- W)).
  exists (mkCircle (fst C) (snd C) (lat / 2)). cbn [c_r]. split; [lra|]. split.
  - rewrite l_C40_bk_constraint_pose. apply l_C40_bk_constraints_exact; [exact Z| |].
    + split; [intros c [<-|[]]; cbn; lra|intros x []].
    + split; [|intros g x _ []]. intros g c [<-|[]] [<-|[]] P (a & b & Ha & Hb & ->).
      cbn [c_r c_x c_y]. replace (fst C, snd C) with C by (destruct C; reflexivity).
      cbn [bs_p tractor_body rg_org rg_ang rg_back rg_front rg_half] in *. rewrite T2. fold o'.
      unfold C. rewrite (at_frame_shift o o'). fold lat. unfold dist. rewrite frame_dist2.
      apply Rlt_le_trans with lat; [lra|]. apply hyp_ge_r; [lra|].
      fold W in Hb. eapply Rle_trans; [|apply Rle_abs]. lra.
  - destruct (bk_coll p _ _ _) eqn:E; [reflexivity|exfalso].
    apply (bk_coll_false_clear (mkBKSelf p [mkCircle (fst C) (snd C) (lat / 2)] [] q)) in E; [|exact Z].
    destruct E as [E _]. specialize (E _ _ (or_introl eq_refl) (or_introl eq_refl) C).
    cbn [c_r c_x c_y] in E. replace (fst C, snd C) with C in E by (destruct C; reflexivity).
    assert (O : outline (tractor_body (bs_p (mkBKSelf p [mkCircle (fst C) (snd C) (lat / 2)] [] q)) (b_px (bk_plain p q u)) (b_py (bk_plain p q u)) (b_th (bk_plain p q u))) C).
    { exists F, (- W). cbn [bs_p tractor_body rg_org rg_ang rg_back rg_front rg_half]. fold F W.
      unfold F, W. split; [lra|]. split; [lra|]. split; [right; left; reflexivity|]. rewrite T1. reflexivity. }
    specialize (E O). unfold dist, dist2 in E.
    replace ((fst C - fst C) * (fst C - fst C) + (snd C - snd C) * (snd C - snd C)) with 0 in E by ring.
    rewrite sqrt_0 in E. lra.
Qed.
(** C40: the acceleration vehicle's projected command does not depend on its speed and steering
    angle: two vehicles at the same pose get the same answer however fast they are. *)
Lemma l_C40_acc_projection_ignores_speed :
  forall s m q v d v' d' u, acc_project s m (mkAcc q v d) u = acc_project s m (mkAcc q v' d') u.
Proof. intros. reflexivity. Qed.
(** C40 (refuted): the claim of safety for the acceleration vehicle. Same post, speed 3 m/s, no
    acceleration requested: the projection evaluates the vehicle as if standing still. *)
Lemma l_C40_acc_projection_safe_refuted :
  exists s st, p_proj (as_p s) = true /\ acc_safe s (st_q st) /\
  forall m guide, perfect m ->
    let st' := acc_step_p s m guide st (0, 0) in
    st_app st' = (0, 0) /\ as_coll s (st_q st') = true /\ st_rew st' = acc_reward s (st_q st').
Proof.
  exists (mkAccSelf ex_proj_self 2 1), (reset_state (mkAcc ex_q0 3 0)). split; [reflexivity|]. split; [exact ex_start_safe|].
  intros m guide Hm st'.
  assert (C : clip_act (0, 0) = (0, 0)) by (apply clip_act_id; cbn; lra).
  assert (A : m (proj_objective (0, 0)) (0, 0) proj_bounds (tt_constraint ex_proj_self ex_q0) = OptDone true (0, 0)).
  { apply perfect_returns; [exact Hm|]. split; [cbn; lra|split; [cbn; lra|]].
    unfold tt_constraint. replace (input_scaler (ts_p ex_proj_self) (0, 0)) with (0, 0) by (unfold input_scaler; cbn; f_equal; ring).
    rewrite ex_rk4 by reflexivity.
    eapply Forall_impl; [|apply ex_short_free; cbn; lra]. intros; cbn in *; lra. }
  destruct (l_C40_acc_step (mkAccSelf ex_proj_self 2 1) m guide (reset_state (mkAcc ex_q0 3 0)) (0, 0) eq_refl) as (S1 & _ & S3).
  { cbn. lra. } { cbn. unfold delta_max_of_deg. pose proof PI_RGT_0. lra. }
  cbv zeta in S1, S3. fold st' in S1, S3. rewrite saturated_clip, C in S1.
  assert (App : st_app st' = (0, 0)) by (apply S1; exact A).
  split; [exact App|]. rewrite App in S3. split.
  - unfold as_coll. rewrite S3. replace (a_q (acc_drive _ _ _ _ _)) with ex_q1; [exact ex_next_hits|].
    unfold acc_drive, ex_q1, ex_q0, reset_state; cbn [a_q a_v a_d st_q t_px t_py t_th1 t_th2 fst snd].
    assert (S0 : sat (p_dmax (as_p (mkAccSelf ex_proj_self 2 1))) 0 = 0).
    { unfold sat. cbn. unfold delta_max_of_deg. pose proof PI_RGT_0. repeat destruct Rlt_dec; lra. }
    rewrite S0, tan_0. replace (0 - 0) with 0 by ring. rewrite cos_0, sin_0.
    assert (S3' : sat (p_vmax (as_p (mkAccSelf ex_proj_self 2 1))) 3 = 3).
    { unfold sat. cbn. repeat destruct Rlt_dec; lra. }
    rewrite S3'. unfold as_p, ex_proj_self, with_modes, default_params; cbn [as_t ts_p p_dt p_vmax p_l1 p_l2 p_lh]. f_equal; field.
  - unfold st', acc_step_p, acc_step, acc_step_internal, acc_step_with. cbn [p_proj as_p as_t ts_p ex_proj_self with_modes].
    reflexivity.
Qed.
(** The hypotheses of C40 are met: a concrete box, an inside and an outside point; the trivial
    optimiser respects bounds. *)
Lemma x_C40_example :
  sdf_box (5, 0) (0, 0) (2, 1) 0 = 3 /\ sdf_box (1, 0) (0, 0) (2, 1) 0 = -1 /\
  respects_bounds (fun _ _ bd _ => OptDone false (7, 7)) /\
  respects_bounds (fun _ _ _ _ => OptRaised) /\
  tractor_sized default_params.
Proof.
  split; [|split; [|split; [|split]]].
  - replace (5, 0) with (at_frame (0, 0) 0 5 0) by (unfold at_frame; cbn; rewrite cos_0, sin_0; f_equal; ring).
    rewrite sdf_local. cbn [fst snd]. destruct (local_sdf_outside 5 0 2 1) as [-> _].
    { left. rewrite Rabs_right; lra. }
    rewrite Rabs_R0, (Rabs_right 5) by lra. rewrite (Rmax_left (5 - 2) 0), (Rmax_right (0 - 1) 0) by lra.
    replace ((5 - 2) * (5 - 2) + 0 * 0) with (3 * 3) by ring. apply sqrt_square. lra.
  - replace (1, 0) with (at_frame (0, 0) 0 1 0) by (unfold at_frame; cbn; rewrite cos_0, sin_0; f_equal; ring).
    rewrite sdf_local. cbn [fst snd]. rewrite local_sdf_inside; rewrite ?Rabs_R0, ?Rabs_R1; try lra.
    rewrite Rmax_left; lra.
  - intros obj u0 bd con x E. discriminate.
  - intros obj u0 bd con x E. discriminate.
  - unfold tractor_sized, default_params; cbn; lra.
Qed.
