(** * ProofsChecks: what the collision and hitch checks decide (C04, C05, C06). *)
From Verif Require Import Base BaseFacts Params Geom TT2d Bicycle NTrailer SpecGeom SpecBodies
  ProofsGeom ProofsBodies ProofsRobots.

(** C04: for any two boxes of positive size, in any position and orientation, the check is
    positive exactly when the solid boxes share a point. *)
Lemma l_C04_boxes_exact :
  forall cx1 cy1 ang1 hl1 hw1 cx2 cy2 ang2 hl2 hw2,
  0 < hl1 -> 0 < hw1 -> 0 < hl2 -> 0 < hw2 ->
  (rect_rect_collision (box_corners cx1 cy1 ang1 hl1 hw1) (box_corners cx2 cy2 ang2 hl2 hw2) = true <->
   exists P, solid (mkRegion (cx1, cy1) ang1 (- hl1) hl1 hw1) P /\ solid (mkRegion (cx2, cy2) ang2 (- hl2) hl2 hw2) P).
Proof.
  intros cx1 cy1 ang1 hl1 hw1 cx2 cy2 ang2 hl2 hw2 H1 H2 H3 H4.
  rewrite (box_corners_region (cx1, cy1) ang1 (- hl1) hl1 hw1) by (cbn [fst snd]; field || reflexivity).
  rewrite (box_corners_region (cx2, cy2) ang2 (- hl2) hl2 hw2) by (cbn [fst snd]; field || reflexivity).
  apply rect_rect_exact; split; cbn; lra.
Qed.

(** C04: the tractor and trailer rectangles of the tractor-trailer against a rectangular obstacle. *)
Lemma l_C04_tt_bodies_vs_obstacle :
  forall p q o, tt_sized p -> 0 < r_w o -> 0 < r_h o ->
  (hits_rect (tt_tractor_corners p q) o = true <->
     exists P, solid (tractor_body p (t_px q) (t_py q) (t_th1 q)) P /\ solid (obstacle_body o) P) /\
  (hits_rect (tt_trailer_corners p q) o = true <->
     exists P, solid (trailer_body (ahead (t_px q, t_py q) (t_th1 q) (- p_lh p)) (t_th2 q)
                        (p_l2 p) (p_lf2 p) (p_lr2 p) (p_trail_w p)) P /\ solid (obstacle_body o) P).
Proof.
  intros p q o (Ht & H2 & H3) Hw Hh. unfold hits_rect, tt_tractor_corners.
  rewrite tractor_corners_region, tt_trailer_corners_region, obs_corners_region.
  assert (Ho : well_formed (obstacle_body o)) by (split; unfold obstacle_body; cbn; lra).
  split; apply rect_rect_exact; auto; apply not_tiny_wf.
  - apply sized_tractor; auto.
  - apply sized_trailer; auto.
Qed.

(** C04: with rectangular obstacles only, the whole vehicle check is exact. *)
Lemma l_C04_tt_vehicle_check_exact :
  forall p rect q, tt_sized p -> (forall o, In o rect -> 0 < r_w o /\ 0 < r_h o) ->
  (tt_coll p [] rect q = false <-> forall g o, In g (tt_bodies p q) -> In o rect -> disjoint g (obstacle_body o)).
Proof.
  intros p rect q Hs Hr. rewrite tt_coll_bodies. split.
  - intros H. apply bodies_hit_false_clear in H; [|apply tt_bodies_sized; auto]. apply H.
  - intros H. apply clear_bodies_hit_false; [apply tt_bodies_sized; auto| |].
    + split; [intros c []|auto].
    + split; [intros g c _ []|exact H].
Qed.
Lemma l_C04_nt_vehicle_check_exact :
  forall s q, nt_sized s -> length (n_ths q) = p_num_trailers (ns_p s) ->
  (forall o, In o (ns_rect s) -> 0 < r_w o /\ 0 < r_h o) ->
  (nt_coll s [] (ns_rect s) q = false <-> forall g o, In g (nt_bodies s q) -> In o (ns_rect s) -> disjoint g (obstacle_body o)).
Proof.
  intros s q Hs Hv Hr.
  pose proof (nt_coll_bodies (mkNTSelf (ns_p s) (ns_len s) (ns_front s) (ns_rear s) [] (ns_rect s) (ns_xg s)) q Hv Hs) as E.
  change (nt_coll s [] (ns_rect s) q = bodies_hit (nt_bodies s q) [] (ns_rect s)) in E. rewrite E.
  split.
  - intros H. apply bodies_hit_false_clear in H; [|apply nt_bodies_sized; auto]. apply H.
  - intros H. apply clear_bodies_hit_false; [apply nt_bodies_sized; auto| |].
    + split; [intros c []|auto].
    + split; [intros g c _ []|exact H].
Qed.
Lemma l_C04_bk_vehicle_check_exact :
  forall p rect q, tractor_sized p -> (forall o, In o rect -> 0 < r_w o /\ 0 < r_h o) ->
  (bk_coll p [] rect q = false <-> forall o, In o rect -> disjoint (tractor_body p (b_px q) (b_py q) (b_th q)) (obstacle_body o)).
Proof.
  intros p rect q Hs Hr. rewrite bk_coll_bodies. split.
  - intros H. apply bodies_hit_false_clear in H; [|apply bk_bodies_sized; auto]. intros o Ho. apply H; auto. left; reflexivity.
  - intros H. apply clear_bodies_hit_false; [apply bk_bodies_sized; auto| |].
    + split; [intros c []|auto].
    + split; [intros g c _ []|]. intros g o [<-|[]] Ho. apply H; auto.
Qed.
(** C04: the check never misses an overlap, even for obstacles of zero width or height. *)
Lemma l_C04_never_misses :
  forall g o P, solid g P -> solid (obstacle_body o) P -> hits_rect (region_corners g) o = true.
Proof.
  intros g o P S1 S2. destruct (hits_rect (region_corners g) o) eqn:E; auto. exfalso.
  exact (hits_rect_false_clear g o E P (conj S1 S2)).
Qed.
(** C04: touching counts; two unit squares side by side collide, a gap of any size does not. *)
Lemma x_C04_touching_and_gap_example :
  rect_rect_collision (box_corners 0 0 0 1 1) (box_corners 2 0 0 1 1) = true /\
  (forall gap, 0 < gap -> rect_rect_collision (box_corners 0 0 0 1 1) (box_corners (2 + gap) 0 0 1 1) = false).
Proof.
  split.
  - apply l_C04_boxes_exact; try lra. exists (1, 0). split.
    + exists 1, 0. cbn. unfold at_frame; cbn. rewrite cos_0, sin_0. repeat split; try lra. f_equal; ring.
    + exists (-1), 0. cbn. unfold at_frame; cbn. rewrite cos_0, sin_0. repeat split; try lra. f_equal; ring.
  - intros gap Hg. destruct (rect_rect_collision _ _) eqn:E; auto. exfalso.
    apply l_C04_boxes_exact in E as (P & (a & b & Ha & Hb & E1) & (a' & b' & Ha' & Hb' & E2)); try lra.
    rewrite E1 in E2. cbn in *. unfold at_frame in E2; cbn in E2. rewrite cos_0, sin_0 in E2. injection E2 as E3 _. lra.
Qed.

(** ** C05 *)
(** C05: the circle check is positive exactly when some outline point of the body is within r of
    the centre. *)
Lemma l_C05_outline_exact :
  forall cx cy ang hl hw c r, / 10000 <= 2 * hl -> / 10000 <= 2 * hw -> 0 <= r ->
  (rect_circle_collision (box_corners cx cy ang hl hw) c r = true <->
   exists P, outline (mkRegion (cx, cy) ang (- hl) hl hw) P /\ dist P c <= r).
Proof.
  intros cx cy ang hl hw c r H1 H2 Hr.
  rewrite (box_corners_region (cx, cy) ang (- hl) hl hw) by (cbn [fst snd]; field || reflexivity).
  apply circle_collision_exact; auto. split; cbn; lra.
Qed.
(** C05: no false alarm: a reported circle does reach the solid body. *)
Lemma l_C05_no_false_alarm :
  forall cx cy ang hl hw c r, 0 <= hl -> 0 <= hw -> 0 <= r ->
  rect_circle_collision (box_corners cx cy ang hl hw) c r = true ->
  exists P, solid (mkRegion (cx, cy) ang (- hl) hl hw) P /\ dist P c <= r.
Proof.
  intros cx cy ang hl hw c r H1 H2 Hr.
  rewrite (box_corners_region (cx, cy) ang (- hl) hl hw) by (cbn [fst snd]; field || reflexivity).
  intros H. apply circle_collision_sound in H as (P & Ho & Hd); cbn; try lra.
  exists P. split; [apply outline_solid; auto|]. apply dist_le_iff; auto.
Qed.
(** C05: no overlap is missed when r is at least half the body's smaller dimension. *)
Lemma l_C05_big_circles_never_missed :
  forall cx cy ang hl hw c r P, / 10000 <= 2 * hl -> / 10000 <= 2 * hw -> (hw <= r \/ hl <= r) ->
  solid (mkRegion (cx, cy) ang (- hl) hl hw) P -> dist P c <= r ->
  rect_circle_collision (box_corners cx cy ang hl hw) c r = true.
Proof.
  intros cx cy ang hl hw c r P H1 H2 Hb HS Hd.
  assert (Hr : 0 <= r) by lra.
  apply l_C05_outline_exact; auto.
  destruct (solid_disc_outline (mkRegion (cx, cy) ang (- hl) hl hw) c r P) as (P' & Ho & Hd'); auto.
  - split; cbn; lra.
  - cbn. destruct Hb; [left; lra|right; lra].
  - exists P'; auto.
Qed.
(** C05: an overlap is also never missed when the circle's centre is outside the body. *)
Lemma l_C05_outside_centres_never_missed :
  forall cx cy ang hl hw c r P, / 10000 <= 2 * hl -> / 10000 <= 2 * hw -> 0 <= r ->
  ~ solid (mkRegion (cx, cy) ang (- hl) hl hw) c ->
  solid (mkRegion (cx, cy) ang (- hl) hl hw) P -> dist P c <= r ->
  rect_circle_collision (box_corners cx cy ang hl hw) c r = true.
Proof.
  intros cx cy ang hl hw c r P H1 H2 Hr Hout (a & b & Ha & Hb & ->) Hd.
  apply l_C05_outline_exact; auto. cbn [rg_back rg_front rg_half rg_org rg_ang] in *.
  destruct (frame_coords (cx, cy) ang c) as (ca & cb & ->).
  apply dist_le_iff in Hd; auto. rewrite frame_dist2 in Hd.
  assert (Hgo : forall a' b', - hl <= a' <= hl -> - hw <= b' <= hw ->
     (a' = - hl \/ a' = hl \/ b' = - hw \/ b' = hw) ->
     (a' - ca) * (a' - ca) + (b' - cb) * (b' - cb) <= r * r ->
     exists P', outline (mkRegion (cx, cy) ang (- hl) hl hw) P' /\ dist P' (at_frame (cx, cy) ang ca cb) <= r).
  { intros a' b' K1 K2 K3 K4. exists (at_frame (cx, cy) ang a' b'). split.
    - exists a', b'; auto.
    - apply dist_le_iff; auto. rewrite frame_dist2. exact K4. }
  destruct (Rlt_dec ca (- hl)) as [Hc1|Hc1].
  { apply (Hgo (- hl) b); auto; try lra. nra. }
  destruct (Rlt_dec hl ca) as [Hc2|Hc2].
  { apply (Hgo hl b); auto; try lra. nra. }
  destruct (Rlt_dec cb (- hw)) as [Hc3|Hc3].
  { apply (Hgo a (- hw)); auto; try lra. nra. }
  destruct (Rlt_dec hw cb) as [Hc4|Hc4].
  { apply (Hgo a hw); auto; try lra. nra. }
  exfalso. apply Hout. exists ca, cb. cbn. repeat split; lra.
Qed.
(** C05: the sign of the radius is irrelevant (a negative radius acts as its absolute value). *)
Lemma l_C05_radius_sign_irrelevant :
  forall corners c r, rect_circle_collision corners c (- r) = rect_circle_collision corners c r.
Proof. intros. unfold rect_circle_collision. replace (- r * - r) with (r * r) by ring. reflexivity. Qed.

(** C05 (finding): a circular obstacle lying strictly inside the body is not reported: the
    default trailer (2.5 m wide, 4.645 m long) standing over a circle of radius 1 m passes the
    check although its centre is inside the trailer. *)
Lemma l_C05_swallowed_circle_refuted :
  exists (q : ttq) (c : circle),
    c_r c = 1 /\
    (exists P, solid (trailer_body (ahead (t_px q, t_py q) (t_th1 q) (- p_lh default_params)) (t_th2 q)
                       (p_l2 default_params) (p_lf2 default_params) (p_lr2 default_params) (p_trail_w default_params)) P
               /\ dist P (c_x c, c_y c) = 0) /\
    tt_check_collision default_params [c] [] q = false.
Proof.
  exists (mkTT 0 0 0 0), (mkCircle (- 495 / 100) 0 1).
  split; [reflexivity|].
  assert (E0 : forall x, x * 0 = 0) by (intros; ring).
  assert (Ed : forall a b : R, a = -495/100 -> b = 0 -> dist (a, b) (-495/100, 0) = 0).
  { intros a b -> ->. unfold dist, dist2. cbn. replace (_ + _) with 0 by ring. apply sqrt_0. }
  split.
  - exists (-495/100, 0). split.
    + exists (- 9 / 10), 0. cbn [rg_back rg_front rg_half rg_org rg_ang trailer_body]. 
      unfold default_params; cbn [p_lh p_l2 p_lf2 p_lr2 p_trail_w t_px t_py t_th1 t_th2].
      repeat split; try lra. unfold at_frame, ahead; cbn [fst snd]. rewrite cos_0, sin_0. f_equal; lra.
    + apply Ed; reflexivity.
  - unfold tt_check_collision. rewrite tt_coll_bodies. apply orb_false_iff. split.
    + apply clear_bodies_hit_false.
      * apply tt_bodies_sized. unfold tt_sized, tractor_sized, default_params; cbn. lra.
      * split; [intros c [<-|[]]; cbn; lra|intros o []].
      * split; [|intros g o _ []].
        intros g c Hg [<-|[]] P (a & b & Ha & Hb & Hor & ->). cbn [c_r c_x c_y].
        assert (Hsq : forall x y, 1 < x * x + y * y -> 1 < sqrt (x * x + y * y)).
        { intros x y H. replace 1 with (sqrt 1) by apply sqrt_1. apply sqrt_lt_1; try lra. }
        unfold dist, dist2. apply Hsq.
        destruct Hg as [<-|[<-|[]]]; unfold tractor_body, trailer_body, ahead, at_frame, default_params in *;
          cbn [rg_back rg_front rg_half rg_org rg_ang fst snd p_lh p_l2 p_lf2 p_lr2 p_trail_w p_lr p_l1 p_lf1 p_trac_w t_px t_py t_th1 t_th2] in *;
          rewrite ?cos_0, ?sin_0; rewrite ?Rmult_0_r, ?Rmult_1_r, ?Rplus_0_l, ?Rplus_0_r, ?Rminus_0_r.
        -- pose proof (sq_nonneg b). nra.
        -- destruct Hor as [-> | [-> | [-> | ->]]].
           ++ pose proof (sq_nonneg b). lra.
           ++ pose proof (sq_nonneg b). lra.
           ++ match goal with |- 1 < ?x * ?x + _ => pose proof (sq_nonneg x) end. lra.
           ++ match goal with |- 1 < ?x * ?x + _ => pose proof (sq_nonneg x) end. lra.
    + apply tt_hitch_iff. unfold tt_hitch_ok. cbn [t_th1 t_th2]. exists 0%Z.
      replace (0 - 0 + 0 * (2 * PI)) with 0 by ring. rewrite Rabs_R0. cbn. unfold phi_max_const. pose proof PI_RGT_0. lra.
Qed.

(** ** C06 *)
(** C06: the hitch check passes exactly when the heading difference, measured the short way
    round, is at most phi_max. *)
Lemma l_C06_tt_hitch_meaning :
  forall p q, tt_hitch p q = false <-> exists k : Z, Rabs (t_th1 q - t_th2 q + IZR k * (2 * PI)) <= p_phi_max p.
Proof. intros p q. apply tt_hitch_iff. Qed.
Lemma l_C06_nt_hitch_meaning :
  forall s q, length (n_ths q) = p_num_trailers (ns_p s) -> (1 <= p_num_trailers (ns_p s))%nat ->
  (nt_hitch s q = false <->
   forall i, (i < p_num_trailers (ns_p s))%nat ->
     exists k : Z, Rabs (nth i (n_th0 q :: n_ths q) 0 - nth (S i) (n_th0 q :: n_ths q) 0 + IZR k * (2 * PI)) <= p_phi_max (ns_p s)).
Proof.
  intros s q Hl HN. rewrite nt_hitch_iff by auto. unfold nt_hitch_ok. rewrite <- Hl. clear Hl HN.
  generalize (n_th0 q). generalize (p_phi_max (ns_p s)). induction (n_ths q) as [|t ts IH]; intros phi a.
  - simpl. split; auto. intros _ i Hi. lia.
  - change (chain_ok phi (a :: t :: ts)) with (hitch_ok phi a t /\ chain_ok phi (t :: ts)). rewrite IH. cbn [length]. split.
    + intros [H1 H2] [|i] Hi; [exact H1|]. apply (H2 i). lia.
    + intros H. split; [apply (H 0%nat); lia|]. intros i Hi. apply (H (S i)). lia.
Qed.
Lemma l_C06_bk_never_violates : forall q, bk_hitch q = false.
Proof. reflexivity. Qed.
(** C06: whole turns of any heading are irrelevant. *)
Lemma l_C06_tt_winding :
  forall p q (k1 k2 : Z),
  tt_hitch p (mkTT (t_px q) (t_py q) (t_th1 q + IZR k1 * (2 * PI)) (t_th2 q + IZR k2 * (2 * PI))) = tt_hitch p q.
Proof.
  intros p q k1 k2. unfold tt_hitch; cbn [t_th1 t_th2].
  replace (t_th1 q + IZR k1 * (2 * PI) - (t_th2 q + IZR k2 * (2 * PI)))
    with (t_th1 q - t_th2 q + IZR (k1 - k2) * (2 * PI)) by (rewrite minus_IZR; ring).
  rewrite wrap_pi_shift. reflexivity.
Qed.
(** C06: a limit of pi or more can never be violated. *)
Lemma l_C06_large_limit_never_violated : forall p q, PI <= p_phi_max p -> tt_hitch p q = false.
Proof.
  intros p q H. unfold tt_hitch. apply Rltb_false. pose proof (wrap_pi_range (t_th1 q - t_th2 q)).
  apply Rle_trans with PI; auto. apply Rabs_le. lra.
Qed.
Lemma x_C06_boundary_example :
  (* exactly 40 degrees is allowed, anything above (up to 180) is not *)
  tt_hitch default_params (mkTT 0 0 (40 * PI / 180) 0) = false /\
  (forall d, 0 < d -> 40 * PI / 180 + d < PI -> tt_hitch default_params (mkTT 0 0 (40 * PI / 180 + d) 0) = true).
Proof.
  pose proof PI_RGT_0. split.
  - unfold tt_hitch; cbn. rewrite wrap_pi_id by lra. apply Rltb_false. unfold phi_max_const. rewrite Rabs_right; lra.
  - intros d Hd Hp. unfold tt_hitch; cbn. rewrite wrap_pi_id by lra. apply Rltb_true. unfold phi_max_const. rewrite Rabs_right; lra.
Qed.
