(** * ProofsGeom: the collision primitives decide the point-set predicates of SpecGeom. *)
From Verif Require Import Base BaseFacts Params Geom SpecGeom.
From Coq Require Import Psatz.

Definition region_corners (g : region) : list pt :=
  [ at_frame (rg_org g) (rg_ang g) (rg_back g) (- rg_half g);
    at_frame (rg_org g) (rg_ang g) (rg_back g) (rg_half g);
    at_frame (rg_org g) (rg_ang g) (rg_front g) (rg_half g);
    at_frame (rg_org g) (rg_ang g) (rg_front g) (- rg_half g) ].

(** The code's centre/half-length corners are those of a region. *)
Lemma box_corners_region (o : pt) ang back front half cx cy hl hw :
  cx = fst o + (back + front) / 2 * cos ang ->
  cy = snd o + (back + front) / 2 * sin ang ->
  hl = (front - back) / 2 -> hw = half ->
  box_corners cx cy ang hl hw = region_corners (mkRegion o ang back front half).
Proof.
  intros -> -> -> ->. unfold box_corners, region_corners, box_corner, at_frame; cbn [rg_org rg_ang rg_back rg_front rg_half fst snd].
  repeat (f_equal; try field).
Qed.

(** ** Circles *)
Lemma edge_dist_attained s e c :
  exists t, 0 <= t <= 1 /\ edge_dist_sq s e c = dist2 c (padd s (pscale t e)).
Proof.
  unfold edge_dist_sq. eexists. split; [|reflexivity]. apply clip_range; lra.
Qed.

Lemma edge_dist_min s e c t :
  / 100000000 <= fst e * fst e + snd e * snd e -> 0 <= t <= 1 ->
  edge_dist_sq s e c <= dist2 c (padd s (pscale t e)).
Proof.
  intros HL Ht. unfold edge_dist_sq, where_.
  destruct (Rltb _ _) eqn:HB; [apply Rltb_true in HB; lra|clear HB].
  set (L := fst e * fst e + snd e * snd e) in *.
  assert (HLp : 0 < L) by lra.
  set (m := pdot (psub c s) e).
  set (t0 := clip (m / L) 0 1).
  unfold dist2, psub, padd, pscale; cbn [fst snd].
  assert (Hm : m / L * L = m) by (field; lra).
  set (r := m / L) in *.
  assert (Hkey : 0 <= (t - t0) * (t + t0 - 2 * r)).
  { clearbody r. unfold t0. clear - Ht. destruct Ht as [Ht0 Ht1]. destruct (Rle_dec r 0) as [H1|H1].
    - rewrite clip_low by lra. nra.
    - destruct (Rle_dec 1 r) as [H2|H2].
      + rewrite clip_high by lra. nra.
      + rewrite clip_id by lra. pose proof (Rle_0_sqr (t - r)) as Hs; unfold Rsqr in Hs; lra. }
  unfold m, pdot, psub in Hm; cbn [fst snd] in Hm. unfold L in *.
  assert (0 <= (fst e * fst e + snd e * snd e) * ((t - t0) * (t + t0 - 2 * r))) by (apply Rmult_le_pos; lra).
  assert (E : (fst e * fst e + snd e * snd e) * ((t - t0) * (t + t0 - 2 * r)) =
     (fst e * fst e + snd e * snd e) * ((t - t0) * (t + t0)) - 2 * (t - t0) * (r * (fst e * fst e + snd e * snd e))) by ring.
  rewrite E, Hm in H. nra.
Qed.

Lemma region_edges g :
  edges_of (region_corners g) =
  [ (- (2 * rg_half g) * sin (rg_ang g), 2 * rg_half g * cos (rg_ang g));
    ((rg_front g - rg_back g) * cos (rg_ang g), (rg_front g - rg_back g) * sin (rg_ang g));
    (2 * rg_half g * sin (rg_ang g), - (2 * rg_half g) * cos (rg_ang g));
    ((rg_back g - rg_front g) * cos (rg_ang g), (rg_back g - rg_front g) * sin (rg_ang g)) ].
Proof.
  unfold edges_of, region_corners, at_frame, psub. cbn [roll1 app map2 fst snd].
  repeat (f_equal; try ring).
Qed.

Lemma in_combine_map2 {A B C} (f : A -> B -> C) l m a b :
  In (a, b) (combine l m) -> In (f a b) (map2 f l m).
Proof.
  revert m; induction l as [|x xs IH]; destruct m as [|y ys]; simpl; try tauto.
  intros [H|H]; [left; congruence|right; auto].
Qed.

Lemma circle_collision_iff_dists g c r :
  rect_circle_collision (region_corners g) c r = true <->
  exists s e, In (s, e) (combine (region_corners g) (edges_of (region_corners g)))
              /\ edge_dist_sq s e c <= r * r.
Proof.
  unfold rect_circle_collision. rewrite Rleb_true.
  set (cs := region_corners g). set (es := edges_of cs).
  set (l := map2 (fun s e => edge_dist_sq s e c) cs es).
  assert (Hne : l <> []) by (unfold l, es, cs, edges_of, region_corners; simpl; congruence).
  split.
  - intros H. pose proof (Rmin_of_in l Hne) as Hin. unfold l in Hin.
    apply In_map2 in Hin as (s & e & _ & _ & E & Hc). exists s, e. split; auto. fold l in E. lra.
  - intros (s & e & Hin & H). apply Rle_trans with (edge_dist_sq s e c); auto.
    apply Rmin_of_le. unfold l. apply (in_combine_map2 (fun s e => edge_dist_sq s e c)). exact Hin.
Qed.

Lemma in_corner_edges g s e :
  In (s, e) (combine (region_corners g) (edges_of (region_corners g))) <->
  (s, e) = (at_frame (rg_org g) (rg_ang g) (rg_back g) (- rg_half g),
            (- (2 * rg_half g) * sin (rg_ang g), 2 * rg_half g * cos (rg_ang g))) \/
  (s, e) = (at_frame (rg_org g) (rg_ang g) (rg_back g) (rg_half g),
            ((rg_front g - rg_back g) * cos (rg_ang g), (rg_front g - rg_back g) * sin (rg_ang g))) \/
  (s, e) = (at_frame (rg_org g) (rg_ang g) (rg_front g) (rg_half g),
            (2 * rg_half g * sin (rg_ang g), - (2 * rg_half g) * cos (rg_ang g))) \/
  (s, e) = (at_frame (rg_org g) (rg_ang g) (rg_front g) (- rg_half g),
            ((rg_back g - rg_front g) * cos (rg_ang g), (rg_back g - rg_front g) * sin (rg_ang g))).
Proof.
  rewrite region_edges. unfold region_corners. cbn [combine In].
  split; intros H; intuition (subst; auto).
Qed.

(** A point of an edge is an outline point and conversely. *)
Lemma edge_point_outline g s e t :
  rg_back g <= rg_front g -> 0 <= rg_half g -> 0 <= t <= 1 ->
  In (s, e) (combine (region_corners g) (edges_of (region_corners g))) ->
  outline g (padd s (pscale t e)).
Proof.
  intros Hb Hh Ht Hin. apply in_corner_edges in Hin.
  destruct Hin as [H|[H|[H|H]]]; inversion H; subst; clear H.
  - exists (rg_back g), (- rg_half g + t * (2 * rg_half g)).
    split; [lra|]. split; [nra|]. split; [auto|].
    unfold at_frame, padd, pscale; cbn [fst snd]; f_equal; ring.
  - exists (rg_back g + t * (rg_front g - rg_back g)), (rg_half g).
    split; [nra|]. split; [lra|]. split; [auto|].
    unfold at_frame, padd, pscale; cbn [fst snd]; f_equal; ring.
  - exists (rg_front g), (rg_half g - t * (2 * rg_half g)).
    split; [lra|]. split; [nra|]. split; [auto|].
    unfold at_frame, padd, pscale; cbn [fst snd]; f_equal; ring.
  - exists (rg_front g + t * (rg_back g - rg_front g)), (- rg_half g).
    split; [nra|]. split; [lra|]. split; [auto|].
    unfold at_frame, padd, pscale; cbn [fst snd]; f_equal; ring.
Qed.

Lemma frac_between x lo hi : lo < hi -> lo <= x <= hi -> exists t, 0 <= t <= 1 /\ x = lo + t * (hi - lo).
Proof.
  intros H1 H2. exists ((x - lo) / (hi - lo)). split; [|field; lra].
  split; apply Rmult_le_reg_r with (hi - lo); try lra;
    unfold Rdiv; rewrite ?Rmult_assoc, ?Rinv_l by lra; lra.
Qed.

Lemma outline_edge_point g P : well_formed g -> outline g P ->
  exists s e t, In (s, e) (combine (region_corners g) (edges_of (region_corners g)))
    /\ 0 <= t <= 1 /\ P = padd s (pscale t e).
Proof.
  intros [Hw Hh] (a & b & Ha & Hb & Hor & ->).
  destruct Hor as [-> | [-> | [-> | ->]]].
  - destruct (frac_between b (- rg_half g) (rg_half g)) as (t & Ht & ->); [lra|lra|].
    eexists _, _, t. split; [apply in_corner_edges; left; reflexivity|]. split; auto.
    unfold at_frame, padd, pscale; cbn [fst snd]; f_equal; ring.
  - destruct (frac_between (- b) (- rg_half g) (rg_half g)) as (t & Ht & Eb); [lra|lra|].
    eexists _, _, t. split; [apply in_corner_edges; right; right; left; reflexivity|]. split; auto.
    replace b with (rg_half g - t * (2 * rg_half g)) by lra.
    unfold at_frame, padd, pscale; cbn [fst snd]; f_equal; ring.
  - destruct (frac_between (- a) (- rg_front g) (- rg_back g)) as (t & Ht & Ea); [lra|lra|].
    eexists _, _, t. split; [apply in_corner_edges; right; right; right; reflexivity|]. split; auto.
    replace a with (rg_front g + t * (rg_back g - rg_front g)) by lra.
    unfold at_frame, padd, pscale; cbn [fst snd]; f_equal; ring.
  - destruct (frac_between a (rg_back g) (rg_front g)) as (t & Ht & ->); [lra|lra|].
    eexists _, _, t. split; [apply in_corner_edges; right; left; reflexivity|]. split; auto.
    unfold at_frame, padd, pscale; cbn [fst snd]; f_equal; ring.
Qed.

(** Soundness of a positive answer (any non-negative dimensions). *)
Lemma circle_collision_sound g c r :
  rg_back g <= rg_front g -> 0 <= rg_half g ->
  rect_circle_collision (region_corners g) c r = true ->
  exists P, outline g P /\ dist2 P c <= r * r.
Proof.
  intros Hb Hh H. apply circle_collision_iff_dists in H as (s & e & Hin & Hd).
  destruct (edge_dist_attained s e c) as (t & Ht & E).
  exists (padd s (pscale t e)). split; [apply edge_point_outline; auto|].
  rewrite E in Hd. unfold dist2 in *. nra.
Qed.

(** The size condition under which the 1e-8 guard of the code is inactive. *)
Definition not_tiny (g : region) : Prop :=
  / 10000 <= rg_front g - rg_back g /\ / 10000 <= 2 * rg_half g.

Lemma not_tiny_wf g : not_tiny g -> well_formed g.
Proof. intros [H1 H2]; split; lra. Qed.

Lemma tiny_sq x : / 10000 <= x -> / 100000000 <= x * x.
Proof.
  intros H. replace (/ 100000000) with (/ 10000 * / 10000) by lra.
  apply Rmult_le_compat; lra.
Qed.

Lemma circle_collision_complete g c r P :
  not_tiny g -> outline g P -> dist2 P c <= r * r ->
  rect_circle_collision (region_corners g) c r = true.
Proof.
  intros Hn Ho Hd. destruct (outline_edge_point g P (not_tiny_wf _ Hn) Ho) as (s & e & t & Hin & Ht & ->).
  apply circle_collision_iff_dists. exists s, e. split; auto.
  apply Rle_trans with (dist2 c (padd s (pscale t e))).
  - apply edge_dist_min; auto. destruct Hn as [H1 H2].
    pose proof (sin2_cos2' (rg_ang g)) as T.
    apply in_corner_edges in Hin.
    destruct Hin as [H|[H|[H|H]]]; inversion H; subst; cbn [fst snd]; clear H.
    + replace (- (2 * rg_half g) * sin (rg_ang g) * (- (2 * rg_half g) * sin (rg_ang g)) +
        2 * rg_half g * cos (rg_ang g) * (2 * rg_half g * cos (rg_ang g)))
        with ((2 * rg_half g) * (2 * rg_half g) * (sin (rg_ang g) * sin (rg_ang g) + cos (rg_ang g) * cos (rg_ang g))) by ring.
      rewrite T, Rmult_1_r. apply tiny_sq; lra.
    + replace ((rg_front g - rg_back g) * cos (rg_ang g) * ((rg_front g - rg_back g) * cos (rg_ang g)) +
        (rg_front g - rg_back g) * sin (rg_ang g) * ((rg_front g - rg_back g) * sin (rg_ang g)))
        with ((rg_front g - rg_back g) * (rg_front g - rg_back g) * (sin (rg_ang g) * sin (rg_ang g) + cos (rg_ang g) * cos (rg_ang g))) by ring.
      rewrite T, Rmult_1_r. apply tiny_sq; lra.
    + replace (2 * rg_half g * sin (rg_ang g) * (2 * rg_half g * sin (rg_ang g)) +
        - (2 * rg_half g) * cos (rg_ang g) * (- (2 * rg_half g) * cos (rg_ang g)))
        with ((2 * rg_half g) * (2 * rg_half g) * (sin (rg_ang g) * sin (rg_ang g) + cos (rg_ang g) * cos (rg_ang g))) by ring.
      rewrite T, Rmult_1_r. apply tiny_sq; lra.
    + replace ((rg_back g - rg_front g) * cos (rg_ang g) * ((rg_back g - rg_front g) * cos (rg_ang g)) +
        (rg_back g - rg_front g) * sin (rg_ang g) * ((rg_back g - rg_front g) * sin (rg_ang g)))
        with ((rg_front g - rg_back g) * (rg_front g - rg_back g) * (sin (rg_ang g) * sin (rg_ang g) + cos (rg_ang g) * cos (rg_ang g))) by ring.
      rewrite T, Rmult_1_r. apply tiny_sq; lra.
  - unfold dist2 in *. nra.
Qed.

Lemma sq_nonneg x : 0 <= x * x.
Proof. exact (Rle_0_sqr x). Qed.
Lemma dist2_nonneg P C : 0 <= dist2 P C.
Proof. unfold dist2. apply Rplus_le_le_0_compat; apply sq_nonneg. Qed.

Lemma dist_le_iff P C r : 0 <= r -> (dist P C <= r <-> dist2 P C <= r * r).
Proof.
  intros Hr. unfold dist.
  assert (H0 : 0 <= dist2 P C) by apply dist2_nonneg.
  pose proof (sqrt_pos (dist2 P C)) as Hp. pose proof (sqrt_sqrt _ H0) as Hs.
  split; intros; nra.
Qed.

Theorem circle_collision_exact g c r : not_tiny g -> 0 <= r ->
  (rect_circle_collision (region_corners g) c r = true <-> exists P, outline g P /\ disc c r P).
Proof.
  intros Hn Hr. unfold disc. split.
  - intros H. apply circle_collision_sound in H as (P & Ho & Hd).
    + exists P. split; auto. apply dist_le_iff; auto.
    + destruct (not_tiny_wf _ Hn); lra.
    + destruct (not_tiny_wf _ Hn); lra.
  - intros (P & Ho & Hd). eapply circle_collision_complete; eauto. apply dist_le_iff; auto.
Qed.

(** Frame coordinates of an arbitrary point. *)
Lemma frame_coords (o : point) ang (C : point) : exists a b, C = at_frame o ang a b.
Proof.
  exists ((fst C - fst o) * cos ang + (snd C - snd o) * sin ang),
         (- (fst C - fst o) * sin ang + (snd C - snd o) * cos ang).
  pose proof (sin2_cos2' ang) as T. unfold at_frame. destruct C as [x y], o as [ox oy]; cbn [fst snd].
  f_equal.
  - transitivity (ox + (x - ox) * (sin ang * sin ang + cos ang * cos ang)); [rewrite T|]; ring.
  - transitivity (oy + (y - oy) * (sin ang * sin ang + cos ang * cos ang)); [rewrite T|]; ring.
Qed.
Lemma frame_dist2 o ang a b a' b' :
  dist2 (at_frame o ang a b) (at_frame o ang a' b') = (a - a') * (a - a') + (b - b') * (b - b').
Proof.
  pose proof (sin2_cos2' ang) as T. unfold dist2, at_frame; cbn [fst snd].
  transitivity (((a - a') * (a - a') + (b - b') * (b - b')) * (sin ang * sin ang + cos ang * cos ang)); [ring|].
  rewrite T. ring.
Qed.

(** If the disc meets the solid body and is not smaller than half the body's smaller
    dimension, then it meets the outline. *)
Lemma solid_disc_outline g c r P :
  well_formed g -> 0 <= r ->
  (rg_half g <= r \/ (rg_front g - rg_back g) / 2 <= r) ->
  solid g P -> disc c r P -> exists P', outline g P' /\ disc c r P'.
Proof.
  intros [Hw Hh] Hr Hbig (a & b & Ha & Hb & ->) Hd.
  destruct (frame_coords (rg_org g) (rg_ang g) c) as (ca & cb & ->).
  unfold disc in *. rewrite dist_le_iff in Hd by auto. rewrite frame_dist2 in Hd.
  assert (Hgo : forall a' b', rg_back g <= a' <= rg_front g -> - rg_half g <= b' <= rg_half g ->
     (a' = rg_back g \/ a' = rg_front g \/ b' = - rg_half g \/ b' = rg_half g) ->
     (a' - ca) * (a' - ca) + (b' - cb) * (b' - cb) <= r * r ->
     exists P', outline g P' /\ dist P' (at_frame (rg_org g) (rg_ang g) ca cb) <= r).
  { intros a' b' H1 H2 H3 H4. exists (at_frame (rg_org g) (rg_ang g) a' b'). split.
    - exists a', b'; auto.
    - apply dist_le_iff; auto. rewrite frame_dist2. exact H4. }
  destruct (Rlt_dec ca (rg_back g)) as [Hc1|Hc1].
  { apply (Hgo (rg_back g) b); auto; try lra. nra. }
  destruct (Rlt_dec (rg_front g) ca) as [Hc2|Hc2].
  { apply (Hgo (rg_front g) b); auto; try lra. nra. }
  destruct (Rlt_dec cb (- rg_half g)) as [Hc3|Hc3].
  { apply (Hgo a (- rg_half g)); auto; try lra. nra. }
  destruct (Rlt_dec (rg_half g) cb) as [Hc4|Hc4].
  { apply (Hgo a (rg_half g)); auto; try lra. nra. }
  (* centre inside the body *)
  destruct Hbig as [Hbig|Hbig].
  - destruct (Rle_dec 0 cb).
    + apply (Hgo ca (rg_half g)); auto; try lra. nra.
    + apply (Hgo ca (- rg_half g)); auto; try lra. nra.
  - destruct (Rle_dec ((rg_back g + rg_front g) / 2) ca).
    + apply (Hgo (rg_front g) cb); auto; try lra. nra.
    + apply (Hgo (rg_back g) cb); auto; try lra. nra.
Qed.

Lemma outline_solid g P : outline g P -> solid g P.
Proof. intros (a & b & H1 & H2 & _ & H3). exists a, b; auto. Qed.

(** ** Rectangles: separating axis test *)
Definition reg_center (g : region) : pt :=
  at_frame (rg_org g) (rg_ang g) ((rg_back g + rg_front g) / 2) 0.
Definition reg_hl (g : region) : R := (rg_front g - rg_back g) / 2.
Definition dir_u (ang : R) : pt := (cos ang, sin ang).
Definition dir_v (ang : R) : pt := (- sin ang, cos ang).
Definition reg_radius (g : region) (n : pt) : R :=
  reg_hl g * Rabs (pdot (dir_u (rg_ang g)) n) + rg_half g * Rabs (pdot (dir_v (rg_ang g)) n).

Lemma pdot_frame g a b n :
  pdot (at_frame (rg_org g) (rg_ang g) a b) n =
  pdot (reg_center g) n + (a - (rg_back g + rg_front g) / 2) * pdot (dir_u (rg_ang g)) n
  + b * pdot (dir_v (rg_ang g)) n.
Proof. unfold pdot, reg_center, at_frame, dir_u, dir_v; cbn [fst snd]. field. Qed.

Lemma project_max_region g n : rg_back g <= rg_front g -> 0 <= rg_half g ->
  project_max (region_corners g) n = pdot (reg_center g) n + reg_radius g n.
Proof.
  intros Hb Hh. unfold project_max, region_corners. cbn [map Rmax_of Rmax_list].
  rewrite !pdot_frame. unfold reg_radius, reg_hl.
  set (U := pdot (dir_u (rg_ang g)) n). set (V := pdot (dir_v (rg_ang g)) n). set (C := pdot (reg_center g) n).
  unfold Rabs. destruct (Rcase_abs U), (Rcase_abs V); unfold Rmax; repeat destruct Rle_dec; nra.
Qed.
Lemma project_min_region g n : rg_back g <= rg_front g -> 0 <= rg_half g ->
  project_min (region_corners g) n = pdot (reg_center g) n - reg_radius g n.
Proof.
  intros Hb Hh. unfold project_min, region_corners. cbn [map Rmin_of Rmin_list].
  rewrite !pdot_frame. unfold reg_radius, reg_hl.
  set (U := pdot (dir_u (rg_ang g)) n). set (V := pdot (dir_v (rg_ang g)) n). set (C := pdot (reg_center g) n).
  unfold Rabs. destruct (Rcase_abs U), (Rcase_abs V); unfold Rmin; repeat destruct Rle_dec; nra.
Qed.

Lemma axis_separates_iff g h n :
  rg_back g <= rg_front g -> 0 <= rg_half g -> rg_back h <= rg_front h -> 0 <= rg_half h ->
  (axis_separates (region_corners g) (region_corners h) n = false <->
   Rabs (pdot (psub (reg_center h) (reg_center g)) n) <= reg_radius g n + reg_radius h n).
Proof.
  intros. unfold axis_separates. rewrite orb_false_iff, !Rltb_false.
  rewrite !project_max_region, !project_min_region by auto.
  replace (pdot (psub (reg_center h) (reg_center g)) n) with (pdot (reg_center h) n - pdot (reg_center g) n)
    by (unfold pdot, psub; cbn [fst snd]; ring).
  split.
  - intros [H3 H4]. apply Rabs_le. lra.
  - intros H3. apply Rabs_le_inv in H3 || idtac.
    unfold Rabs in H3. destruct (Rcase_abs _) in H3; lra.
Qed.

Lemma Rabs_def2' x r : Rabs x <= r -> - r <= x <= r.
Proof. intros H. unfold Rabs in H. destruct Rcase_abs; lra. Qed.

(** *** The planar core of the separating axis theorem for two boxes *)
Lemma sat_half x y c s h1 k1 h2 k2 :
  0 <= c -> 0 <= s -> c * c + s * s = 1 -> 0 <= h1 -> 0 <= k1 -> 0 <= h2 -> 0 <= k2 ->
  - (h1 + h2 * c + k2 * s) <= x <= h1 + h2 * c + k2 * s ->
  y <= k1 + h2 * s + k2 * c ->
  c * x + s * y <= h2 + h1 * c + k1 * s ->
  - s * x + c * y <= k2 + h1 * s + k1 * c ->
  exists a b, - h2 <= a <= h2 /\ - k2 <= b <= k2 /\
    - h1 <= x + c * a - s * b <= h1 /\ y + s * a + c * b <= k1.
Proof.
  intros Hc Hs T P1 P2 P3 P4 [H1 H1'] H2 H3 H4.
  destruct (Rlt_dec h1 (x - c * h2 + s * k2)) as [Hhi|Hhi].
  - assert (Hsp : 0 < s).
    { destruct (Rle_lt_or_eq_dec _ _ Hs); auto. exfalso. subst s. lra. }
    exists (- h2), ((x - c * h2 - h1) / s).
    assert (Eb : s * ((x - c * h2 - h1) / s) = x - c * h2 - h1) by (field; lra).
    set (b := (x - c * h2 - h1) / s) in *.
    split; [lra|]. split; [|split; [lra|]].
    + split; apply Rmult_le_reg_l with s; auto; lra.
    + apply Rmult_le_reg_l with s; auto.
      replace (s * (y + s * - h2 + c * b)) with (s * y - (s * s) * h2 + c * (s * b)) by ring.
      rewrite Eb. replace (s * s) with (1 - c * c) by lra. lra.
  - destruct (Rlt_dec (x - c * h2 + s * k2) (- h1)) as [Hlo|Hlo].
    + assert (Hcp : 0 < c).
      { destruct (Rle_lt_or_eq_dec _ _ Hc); auto. exfalso. subst c. lra. }
      exists ((- h1 - x - s * k2) / c), (- k2).
      assert (Ea : c * ((- h1 - x - s * k2) / c) = - h1 - x - s * k2) by (field; lra).
      set (a := (- h1 - x - s * k2) / c) in *.
      split; [|split; [lra|split; [lra|]]].
      * split; apply Rmult_le_reg_l with c; auto; lra.
      * apply Rmult_le_reg_l with c; auto.
        replace (c * (y + s * a + c * - k2)) with (c * y + s * (c * a) - (c * c) * k2) by ring.
        rewrite Ea. replace (c * c) with (1 - s * s) by lra. lra.
    + exists (- h2), (- k2). repeat split; lra.
Qed.

Lemma sat_pos x y c s h1 k1 h2 k2 :
  0 <= c -> 0 <= s -> c * c + s * s = 1 -> 0 <= h1 -> 0 <= k1 -> 0 <= h2 -> 0 <= k2 ->
  Rabs x <= h1 + h2 * c + k2 * s ->
  Rabs y <= k1 + h2 * s + k2 * c ->
  Rabs (c * x + s * y) <= h2 + h1 * c + k1 * s ->
  Rabs (- s * x + c * y) <= k2 + h1 * s + k1 * c ->
  exists a b, Rabs a <= h2 /\ Rabs b <= k2 /\
    Rabs (x + c * a - s * b) <= h1 /\ Rabs (y + s * a + c * b) <= k1.
Proof.
  intros Hc Hs T P1 P2 P3 P4 H1 H2 H3 H4.
  apply Rabs_def2' in H1, H2, H3, H4.
  destruct (sat_half x y c s h1 k1 h2 k2) as (a1 & b1 & A1 & B1 & F1 & G1); try lra.
  destruct (sat_half (- x) (- y) c s h1 k1 h2 k2) as (a2' & b2' & A2 & B2 & F2 & G2); try lra.
  set (a2 := - a2'). set (b2 := - b2').
  assert (A2' : - h2 <= a2 <= h2) by (unfold a2; lra).
  assert (B2' : - k2 <= b2 <= k2) by (unfold b2; lra).
  assert (F2' : - h1 <= x + c * a2 - s * b2 <= h1) by (unfold a2, b2; lra).
  assert (G2' : - k1 <= y + s * a2 + c * b2) by (unfold a2, b2; lra).
  clearbody a2 b2. clear A2 B2 F2 G2.
  destruct (Rle_dec (- k1) (y + s * a1 + c * b1)).
  { exists a1, b1. repeat split; apply Rabs_le; lra. }
  destruct (Rle_dec (y + s * a2 + c * b2) k1).
  { exists a2, b2. repeat split; apply Rabs_le; lra. }
  set (g1 := y + s * a1 + c * b1) in *. set (g2 := y + s * a2 + c * b2) in *.
  set (t := (0 - g1) / (g2 - g1)).
  assert (Et : t * (g2 - g1) = - g1) by (unfold t; field; lra).
  assert (Ht : 0 <= t <= 1).
  { split; apply Rmult_le_reg_r with (g2 - g1); lra. }
  assert (Hmix : forall lo hi u v, lo <= u <= hi -> lo <= v <= hi -> lo <= u + t * (v - u) <= hi).
  { intros lo hi u v Hu Hv. destruct Ht as [Ht0 Ht1].
    assert (0 <= t * (v - lo)) by (apply Rmult_le_pos; lra).
    assert (0 <= (1 - t) * (u - lo)) by (apply Rmult_le_pos; lra).
    assert (0 <= t * (hi - v)) by (apply Rmult_le_pos; lra).
    assert (0 <= (1 - t) * (hi - u)) by (apply Rmult_le_pos; lra). lra. }
  exists (a1 + t * (a2 - a1)), (b1 + t * (b2 - b1)).
  split; [apply Rabs_le; auto|]. split; [apply Rabs_le; auto|]. split.
  - apply Rabs_le.
    replace (x + c * (a1 + t * (a2 - a1)) - s * (b1 + t * (b2 - b1)))
      with ((x + c * a1 - s * b1) + t * ((x + c * a2 - s * b2) - (x + c * a1 - s * b1))) by ring. auto.
  - replace (y + s * (a1 + t * (a2 - a1)) + c * (b1 + t * (b2 - b1)))
      with (g1 + t * (g2 - g1)) by (unfold g1, g2; ring).
    rewrite Et. replace (g1 + - g1) with 0 by ring. rewrite Rabs_R0. lra.
Qed.

Lemma sat_core x y c s h1 k1 h2 k2 :
  c * c + s * s = 1 -> 0 <= h1 -> 0 <= k1 -> 0 <= h2 -> 0 <= k2 ->
  Rabs x <= h1 + h2 * Rabs c + k2 * Rabs s ->
  Rabs y <= k1 + h2 * Rabs s + k2 * Rabs c ->
  Rabs (c * x + s * y) <= h2 + h1 * Rabs c + k1 * Rabs s ->
  Rabs (- s * x + c * y) <= k2 + h1 * Rabs s + k1 * Rabs c ->
  exists a b, Rabs a <= h2 /\ Rabs b <= k2 /\
    Rabs (x + c * a - s * b) <= h1 /\ Rabs (y + s * a + c * b) <= k1.
Proof.
  intros T P1 P2 P3 P4 H1 H2 H3 H4.
  assert (Rgen : forall z w, z = w \/ z = - w -> Rabs z = Rabs w).
  { intros z w [->| ->]; auto using Rabs_Ropp. }
  assert (exists a b ea eb ef eg, (ea = 1 \/ ea = -1) /\ (eb = 1 \/ eb = -1) /\ (ef = 1 \/ ef = -1) /\ (eg = 1 \/ eg = -1) /\
     Rabs a <= h2 /\ Rabs b <= k2 /\
     x + c * (ea * a) - s * (eb * b) = ef * (x + Rabs c * a - Rabs s * b) /\
     Rabs (x + c * (ea * a) - s * (eb * b)) <= h1 /\ Rabs (y + s * (ea * a) + c * (eb * b)) <= k1)
    as (a & b & ea & eb & ef & eg & Ea & Eb & _ & _ & Ha & Hb & _ & Hf & Hg).
  { unfold Rabs at 2 3 in H1. unfold Rabs at 2 3 in H2. unfold Rabs at 2 3 in H3. unfold Rabs at 2 3 in H4.
    destruct (Rcase_abs c) as [Hc|Hc], (Rcase_abs s) as [Hs|Hs].
    - (* both negative: (c,s) -> (-c,-s), a -> -a, b -> -b *)
      destruct (sat_pos x y (- c) (- s) h1 k1 h2 k2) as (a & b & Ha & Hb & Hf & Hg); try lra; auto.
      + rewrite (Rgen _ (c * x + s * y)) by (right; ring). lra.
      + rewrite (Rgen _ (- s * x + c * y)) by (right; ring). lra.
      + exists a, b, (-1), (-1), 1, 1. rewrite (Rabs_left c), (Rabs_left s) by auto.
        repeat split; auto; try lra.
        * rewrite (Rgen _ (x + - c * a - - s * b)) by (left; ring). auto.
        * rewrite (Rgen _ (y + - s * a + - c * b)) by (left; ring). auto.
    - (* c < 0 <= s: as above gives (-c > 0, -s <= 0), then reflect y *)
      destruct (sat_pos x (- y) (- c) s h1 k1 h2 k2) as (a & b & Ha & Hb & Hf & Hg); try lra; auto.
      + rewrite Rabs_Ropp. lra.
      + rewrite (Rgen _ (c * x + s * y)) by (right; ring). lra.
      + rewrite (Rgen _ (- s * x + c * y)) by (left; ring). lra.
      + exists a, b, (-1), 1, 1, 1. rewrite (Rabs_left c), (Rabs_right s) by lra.
        repeat split; auto; try lra.
        * rewrite (Rgen _ (x + - c * a - s * b)) by (left; ring). auto.
        * rewrite (Rgen _ (- y + s * a + - c * b)) by (right; ring). auto.
    - (* s < 0 <= c: reflect y *)
      destruct (sat_pos x (- y) c (- s) h1 k1 h2 k2) as (a & b & Ha & Hb & Hf & Hg); try lra; auto.
      + rewrite Rabs_Ropp. lra.
      + rewrite (Rgen _ (c * x + s * y)) by (left; ring). lra.
      + rewrite (Rgen _ (- s * x + c * y)) by (right; ring). lra.
      + exists a, b, 1, (-1), 1, 1. rewrite (Rabs_right c), (Rabs_left s) by lra.
        repeat split; auto; try lra.
        * rewrite (Rgen _ (x + c * a - - s * b)) by (left; ring). auto.
        * rewrite (Rgen _ (- y + - s * a + c * b)) by (right; ring). auto.
    - destruct (sat_pos x y c s h1 k1 h2 k2) as (a & b & Ha & Hb & Hf & Hg); try lra; auto.
      exists a, b, 1, 1, 1, 1. rewrite (Rabs_right c), (Rabs_right s) by lra.
      rewrite !Rmult_1_l. repeat split; auto; lra. }
  exists (ea * a), (eb * b). repeat split; auto.
  - rewrite (Rgen _ a); auto. destruct Ea as [-> | ->]; [left|right]; ring.
  - rewrite (Rgen _ b); auto. destruct Eb as [-> | ->]; [left|right]; ring.
Qed.

Lemma solid_iff g P : 
  (solid g P <-> Rabs (pdot (psub P (reg_center g)) (dir_u (rg_ang g))) <= reg_hl g
                 /\ Rabs (pdot (psub P (reg_center g)) (dir_v (rg_ang g))) <= rg_half g).
Proof.
  pose proof (sin2_cos2' (rg_ang g)) as T.
  assert (E : forall a b, 
     pdot (psub (at_frame (rg_org g) (rg_ang g) a b) (reg_center g)) (dir_u (rg_ang g)) = a - (rg_back g + rg_front g) / 2
     /\ pdot (psub (at_frame (rg_org g) (rg_ang g) a b) (reg_center g)) (dir_v (rg_ang g)) = b).
  { intros a b. unfold pdot, psub, reg_center, at_frame, dir_u, dir_v; cbn [fst snd]. split.
    - transitivity ((a - (rg_back g + rg_front g) / 2) * (sin (rg_ang g) * sin (rg_ang g) + cos (rg_ang g) * cos (rg_ang g))); [field|].
      rewrite T. ring.
    - transitivity (b * (sin (rg_ang g) * sin (rg_ang g) + cos (rg_ang g) * cos (rg_ang g))); [field|].
      rewrite T. ring. }
  unfold reg_hl. split.
  - intros (a & b & Ha & Hb & ->). destruct (E a b) as [-> ->]. split; apply Rabs_le; lra.
  - intros [H1 H2]. destruct (frame_coords (rg_org g) (rg_ang g) P) as (a & b & ->).
    destruct (E a b) as [E1 E2]. rewrite E1 in H1. rewrite E2 in H2.
    apply Rabs_def2' in H1, H2. exists a, b. repeat split; lra.
Qed.

Lemma pdot_scale k D n : pdot D (pscale k n) = k * pdot D n.
Proof. unfold pdot, pscale; cbn [fst snd]; ring. Qed.
Lemma reg_radius_scale g k n : 0 <= k -> reg_radius g (pscale k n) = k * reg_radius g n.
Proof.
  intros Hk. unfold reg_radius. rewrite !pdot_scale, !Rabs_mult, (Rabs_right k) by lra. ring.
Qed.
Lemma reg_radius_opp g n : reg_radius g (pscale (-1) n) = reg_radius g n.
Proof.
  unfold reg_radius. rewrite !pdot_scale, !Rabs_mult.
  replace (Rabs (-1)) with 1 by (rewrite Rabs_left; lra). ring.
Qed.

(** The code's axes are non-zero multiples of the body directions. *)
Lemma axis_of_edge_scale e : exists k, 0 < k /\ axis_of_edge e = pscale k (- snd e, fst e).
Proof.
  unfold axis_of_edge. cbn [fst snd].
  set (nn0 := pnorm (- snd e, fst e)). pose proof (pnorm_nonneg (- snd e, fst e)) as Hp. fold nn0 in Hp.
  set (nn := where_ _ _ _).
  assert (Hn : 0 < nn).
  { unfold nn, where_. destruct (Rltb nn0 (/ 100000000)) eqn:Hb; [lra|]. apply Rltb_false in Hb. lra. }
  exists (/ nn). split; [apply Rinv_0_lt_compat; auto|].
  unfold pscale; cbn [fst snd]. f_equal; unfold Rdiv; ring.
Qed.

Lemma region_axes g : well_formed g -> exists k1 k2, 0 < k1 /\ 0 < k2 /\
  get_axes (region_corners g) = [pscale (-1) (pscale k1 (dir_u (rg_ang g))); pscale k2 (dir_v (rg_ang g))].
Proof.
  intros [Hw Hh]. unfold get_axes. rewrite region_edges.
  destruct (axis_of_edge_scale (- (2 * rg_half g) * sin (rg_ang g), 2 * rg_half g * cos (rg_ang g))) as (k1 & K1 & ->).
  destruct (axis_of_edge_scale ((rg_front g - rg_back g) * cos (rg_ang g), (rg_front g - rg_back g) * sin (rg_ang g))) as (k2 & K2 & ->).
  exists (k1 * (2 * rg_half g)), (k2 * (rg_front g - rg_back g)).
  split; [apply Rmult_lt_0_compat; lra|]. split; [apply Rmult_lt_0_compat; lra|].
  unfold pscale, dir_u, dir_v; cbn [fst snd]. repeat (f_equal; try ring).
Qed.

Definition overlap_on (g h : region) (n : pt) : Prop :=
  Rabs (pdot (psub (reg_center h) (reg_center g)) n) <= reg_radius g n + reg_radius h n.

Lemma overlap_on_scale g h k n : 0 < k -> (overlap_on g h (pscale k n) <-> overlap_on g h n).
Proof.
  intros Hk. unfold overlap_on. rewrite !reg_radius_scale, pdot_scale, Rabs_mult, (Rabs_right k) by lra.
  rewrite <- Rmult_plus_distr_l. split; intros H.
  - apply Rmult_le_reg_l with k; auto.
  - apply Rmult_le_compat_l; lra.
Qed.
Lemma overlap_on_opp g h n : (overlap_on g h (pscale (-1) n) <-> overlap_on g h n).
Proof.
  unfold overlap_on. rewrite !reg_radius_opp, pdot_scale, Rabs_mult.
  replace (Rabs (-1)) with 1 by (rewrite Rabs_left; lra). rewrite Rmult_1_l. tauto.
Qed.

Lemma rect_rect_iff_overlaps g h : well_formed g -> well_formed h ->
  (rect_rect_collision (region_corners g) (region_corners h) = true <->
   overlap_on g h (dir_u (rg_ang g)) /\ overlap_on g h (dir_v (rg_ang g)) /\
   overlap_on g h (dir_u (rg_ang h)) /\ overlap_on g h (dir_v (rg_ang h))).
Proof.
  intros Hg Hh. pose proof Hg as [Hg1 Hg2]. pose proof Hh as [Hh1 Hh2].
  unfold rect_rect_collision. rewrite negb_true_iff.
  destruct (region_axes g Hg) as (k1 & k2 & K1 & K2 & ->).
  destruct (region_axes h Hh) as (k3 & k4 & K3 & K4 & ->).
  cbn [app existsb]. rewrite !orb_false_iff.
  rewrite !axis_separates_iff by lra.
  change (Rabs (pdot (psub (reg_center h) (reg_center g)) ?n) <= reg_radius g ?n + reg_radius h ?n) with (overlap_on g h n).
  fold (overlap_on g h (pscale (-1) (pscale k1 (dir_u (rg_ang g))))).
  fold (overlap_on g h (pscale k2 (dir_v (rg_ang g)))).
  fold (overlap_on g h (pscale (-1) (pscale k3 (dir_u (rg_ang h))))).
  fold (overlap_on g h (pscale k4 (dir_v (rg_ang h)))).
  rewrite !overlap_on_opp, !overlap_on_scale by auto. tauto.
Qed.

(** The separating axis check decides intersection of the solid rectangles. *)
Theorem rect_rect_exact g h : well_formed g -> well_formed h ->
  (rect_rect_collision (region_corners g) (region_corners h) = true <-> exists P, solid g P /\ solid h P).
Proof.
  intros Hg Hh. rewrite rect_rect_iff_overlaps by auto. destruct Hg as [Hg1 Hg2], Hh as [Hh1 Hh2].
  pose proof (sin2_cos2' (rg_ang g)) as Tg. pose proof (sin2_cos2' (rg_ang h)) as Th.
  set (D := psub (reg_center h) (reg_center g)).
  set (ug := dir_u (rg_ang g)). set (vg := dir_v (rg_ang g)). set (uh := dir_u (rg_ang h)). set (vh := dir_v (rg_ang h)).
  set (c := pdot uh ug). set (s := pdot uh vg).
  assert (Ec : pdot vh vg = c) by (unfold c, vh, vg, uh, ug, pdot, dir_u, dir_v; cbn [fst snd]; ring).
  assert (Es : pdot vh ug = - s) by (unfold s, vh, vg, uh, ug, pdot, dir_u, dir_v; cbn [fst snd]; ring).
  assert (Esym : forall a b, pdot a b = pdot b a) by (intros; unfold pdot; ring).
  assert (Eu : forall t, pdot (dir_u t) (dir_u t) = 1).
  { intros t. unfold pdot, dir_u; cbn [fst snd]. pose proof (sin2_cos2' t). lra. }
  assert (Ev : forall t, pdot (dir_v t) (dir_v t) = 1).
  { intros t. unfold pdot, dir_v; cbn [fst snd]. pose proof (sin2_cos2' t). lra. }
  assert (Euv : forall t, pdot (dir_u t) (dir_v t) = 0).
  { intros t. unfold pdot, dir_u, dir_v; cbn [fst snd]. ring. }
  assert (T : c * c + s * s = 1).
  { unfold c, s, uh, ug, vg, pdot, dir_u, dir_v; cbn [fst snd].
    transitivity ((sin (rg_ang g) * sin (rg_ang g) + cos (rg_ang g) * cos (rg_ang g)) *
                  (sin (rg_ang h) * sin (rg_ang h) + cos (rg_ang h) * cos (rg_ang h))); [ring|].
    rewrite Tg, Th. ring. }
  assert (Dec : forall n, pdot D n = pdot D ug * pdot ug n + pdot D vg * pdot vg n).
  { intros n. unfold ug, vg, pdot, dir_u, dir_v; cbn [fst snd]. destruct D as [dx dy], n as [nx ny]; cbn [fst snd].
    transitivity ((dx * nx + dy * ny) * (sin (rg_ang g) * sin (rg_ang g) + cos (rg_ang g) * cos (rg_ang g))); [rewrite Tg|]; ring. }
  set (x := pdot D ug). set (y := pdot D vg).
  assert (Du : pdot D uh = c * x + s * y).
  { rewrite Dec. fold x y. rewrite (Esym ug uh), (Esym vg uh). unfold c, s. ring. }
  assert (Dv : pdot D vh = - s * x + c * y).
  { rewrite Dec. fold x y. rewrite (Esym ug vh), (Esym vg vh), Ec, Es. ring. }
  unfold overlap_on, reg_radius. fold D ug vg uh vh.
  rewrite Du, Dv. fold x y.
  rewrite (Esym ug uh), (Esym vg uh), (Esym ug vh), (Esym vg vh), Ec, Es, (Esym vg ug), (Esym vh uh).
  fold c s. unfold ug, vg, uh, vh. rewrite !Eu, !Ev, !Euv. rewrite Rabs_R0, Rabs_R1, Rabs_Ropp.
  set (h1 := reg_hl g). set (h2 := reg_hl h). set (k1 := rg_half g) in *. set (k2 := rg_half h) in *.
  assert (P1 : 0 <= h1) by (unfold h1, reg_hl; lra). assert (P2 : 0 <= h2) by (unfold h2, reg_hl; lra).
  assert (Hpoint : forall a b n, pdot (psub (padd (padd (reg_center h) (pscale a uh)) (pscale b vh)) (reg_center g)) n
       = pdot D n + a * pdot uh n + b * pdot vh n).
  { intros a b n. unfold D, psub, padd, pscale, pdot; cbn [fst snd]. ring. }
  assert (Hpoint2 : forall a b n, pdot (psub (padd (padd (reg_center h) (pscale a uh)) (pscale b vh)) (reg_center h)) n
       = a * pdot uh n + b * pdot vh n).
  { intros a b n. unfold psub, padd, pscale, pdot; cbn [fst snd]. ring. }
  split.
  - intros (H1 & H2 & H3 & H4).
    destruct (sat_core x y c s h1 k1 h2 k2) as (a & b & Ha & Hb & Hf & Hgg); try lra.
    exists (padd (padd (reg_center h) (pscale a uh)) (pscale b vh)). split.
    + apply solid_iff. fold ug vg h1 k1. rewrite !Hpoint. fold x y. fold c s. rewrite Ec, Es. split.
      * replace (x + a * c + b * - s) with (x + c * a - s * b) by ring. auto.
      * replace (y + a * s + b * c) with (y + s * a + c * b) by ring. auto.
    + apply solid_iff. fold uh vh h2 k2. rewrite !Hpoint2. unfold uh, vh.
      rewrite (Esym (dir_v (rg_ang h)) (dir_u (rg_ang h))), Eu, Ev, Euv. split.
      * replace (a * 1 + b * 0) with a by ring. auto.
      * replace (a * 0 + b * 1) with b by ring. auto.
  - intros (P & S1 & S2). apply solid_iff in S1 as [S1 S1']. apply solid_iff in S2 as [S2 S2'].
    fold ug vg h1 k1 in S1, S1'. fold uh vh h2 k2 in S2, S2'.
    set (a := pdot (psub P (reg_center h)) uh) in *. set (b := pdot (psub P (reg_center h)) vh) in *.
    assert (EP : P = padd (padd (reg_center h) (pscale a uh)) (pscale b vh)).
    { unfold a, b, uh, vh, padd, pscale, psub, pdot, dir_u, dir_v; cbn [fst snd].
      destruct P as [px py], (reg_center h) as [cx cy]; cbn [fst snd]. f_equal.
      - transitivity (cx + (px - cx) * (sin (rg_ang h) * sin (rg_ang h) + cos (rg_ang h) * cos (rg_ang h))); [rewrite Th|]; ring.
      - transitivity (cy + (py - cy) * (sin (rg_ang h) * sin (rg_ang h) + cos (rg_ang h) * cos (rg_ang h))); [rewrite Th|]; ring. }
    clearbody a b. rewrite EP, Hpoint in S1. rewrite EP, Hpoint in S1'. fold x y c s in S1, S1'. rewrite Es in S1. rewrite Ec in S1'.
    clear EP P.
    assert (Babs : forall u v k, Rabs v <= k -> Rabs (v * u) <= k * Rabs u /\ - (k * Rabs u) <= v * u <= k * Rabs u).
    { intros u v k Hv. assert (Rabs (v * u) <= k * Rabs u).
      { rewrite Rabs_mult. apply Rmult_le_compat_r; [apply Rabs_pos|auto]. }
      split; auto. apply Rabs_def2'; auto. }
    destruct (Babs c a h2 S2) as [_ B1]. destruct (Babs s b k2 S2') as [_ B2].
    destruct (Babs s a h2 S2) as [_ B3]. destruct (Babs c b k2 S2') as [_ B4].
    destruct (Babs c _ h1 S1) as [_ B5]. destruct (Babs s _ k1 S1') as [_ B6].
    destruct (Babs s _ h1 S1) as [_ B7]. destruct (Babs c _ k1 S1') as [_ B8].
    apply Rabs_def2' in S1, S1', S2, S2'.
    assert (X1 : c * x + s * y = (x + a * c + b * - s) * c + (y + a * s + b * c) * s - a * (c * c + s * s)) by ring.
    assert (X2 : - s * x + c * y = - ((x + a * c + b * - s) * s) + (y + a * s + b * c) * c - b * (c * c + s * s)) by ring.
    rewrite T in X1, X2.
    repeat split; apply Rabs_le; lra.
Qed.
