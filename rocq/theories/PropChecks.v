(** * Property theorems (generated from ProofsChecks.v by tools/genprops.py; statements only,
    each closed by [exact]). *)
From Verif Require Import Base BaseFacts Params Geom TT2d Bicycle NTrailer SpecGeom SpecBodies
  ProofsGeom ProofsBodies ProofsRobots.
From Verif Require Import ProofsChecks.
Open Scope R_scope.

(** C04: for any two boxes of positive size, in any position and orientation, the check is
    positive exactly when the solid boxes share a point. *)
Theorem C04_boxes_exact :
  forall cx1 cy1 ang1 hl1 hw1 cx2 cy2 ang2 hl2 hw2,
  0 < hl1 -> 0 < hw1 -> 0 < hl2 -> 0 < hw2 ->
  (rect_rect_collision (box_corners cx1 cy1 ang1 hl1 hw1) (box_corners cx2 cy2 ang2 hl2 hw2) = true <->
   exists P, solid (mkRegion (cx1, cy1) ang1 (- hl1) hl1 hw1) P /\ solid (mkRegion (cx2, cy2) ang2 (- hl2) hl2 hw2) P).
Proof. exact l_C04_boxes_exact. Qed.
Print Assumptions C04_boxes_exact.

(** C04: the tractor and trailer rectangles of the tractor-trailer against a rectangular obstacle. *)
Theorem C04_tt_bodies_vs_obstacle :
  forall p q o, tt_sized p -> 0 < r_w o -> 0 < r_h o ->
  (hits_rect (tt_tractor_corners p q) o = true <->
     exists P, solid (tractor_body p (t_px q) (t_py q) (t_th1 q)) P /\ solid (obstacle_body o) P) /\
  (hits_rect (tt_trailer_corners p q) o = true <->
     exists P, solid (trailer_body (ahead (t_px q, t_py q) (t_th1 q) (- p_lh p)) (t_th2 q)
                        (p_l2 p) (p_lf2 p) (p_lr2 p) (p_trail_w p)) P /\ solid (obstacle_body o) P).
Proof. exact l_C04_tt_bodies_vs_obstacle. Qed.
Print Assumptions C04_tt_bodies_vs_obstacle.

(** C04: with rectangular obstacles only, the whole vehicle check is exact. *)
Theorem C04_tt_vehicle_check_exact :
  forall p rect q, tt_sized p -> (forall o, In o rect -> 0 < r_w o /\ 0 < r_h o) ->
  (tt_coll p [] rect q = false <-> forall g o, In g (tt_bodies p q) -> In o rect -> disjoint g (obstacle_body o)).
Proof. exact l_C04_tt_vehicle_check_exact. Qed.
Print Assumptions C04_tt_vehicle_check_exact.

Theorem C04_nt_vehicle_check_exact :
  forall s q, nt_sized s -> length (n_ths q) = p_num_trailers (ns_p s) ->
  (forall o, In o (ns_rect s) -> 0 < r_w o /\ 0 < r_h o) ->
  (nt_coll s [] (ns_rect s) q = false <-> forall g o, In g (nt_bodies s q) -> In o (ns_rect s) -> disjoint g (obstacle_body o)).
Proof. exact l_C04_nt_vehicle_check_exact. Qed.
Print Assumptions C04_nt_vehicle_check_exact.

Theorem C04_bk_vehicle_check_exact :
  forall p rect q, tractor_sized p -> (forall o, In o rect -> 0 < r_w o /\ 0 < r_h o) ->
  (bk_coll p [] rect q = false <-> forall o, In o rect -> disjoint (tractor_body p (b_px q) (b_py q) (b_th q)) (obstacle_body o)).
Proof. exact l_C04_bk_vehicle_check_exact. Qed.
Print Assumptions C04_bk_vehicle_check_exact.

(** C04: the check never misses an overlap, even for obstacles of zero width or height. *)
Theorem C04_never_misses :
  forall g o P, solid g P -> solid (obstacle_body o) P -> hits_rect (region_corners g) o = true.
Proof. exact l_C04_never_misses. Qed.
Print Assumptions C04_never_misses.

(** C04: touching counts; two unit squares side by side collide, a gap of any size does not. *)
Example C04_touching_and_gap_example :
  rect_rect_collision (box_corners 0 0 0 1 1) (box_corners 2 0 0 1 1) = true /\
  (forall gap, 0 < gap -> rect_rect_collision (box_corners 0 0 0 1 1) (box_corners (2 + gap) 0 0 1 1) = false).
Proof. exact x_C04_touching_and_gap_example. Qed.

(** C05: the circle check is positive exactly when some outline point of the body is within r of
    the centre. *)
Theorem C05_outline_exact :
  forall cx cy ang hl hw c r, / 10000 <= 2 * hl -> / 10000 <= 2 * hw -> 0 <= r ->
  (rect_circle_collision (box_corners cx cy ang hl hw) c r = true <->
   exists P, outline (mkRegion (cx, cy) ang (- hl) hl hw) P /\ dist P c <= r).
Proof. exact l_C05_outline_exact. Qed.
Print Assumptions C05_outline_exact.

(** C05: no false alarm: a reported circle does reach the solid body. *)
Theorem C05_no_false_alarm :
  forall cx cy ang hl hw c r, 0 <= hl -> 0 <= hw -> 0 <= r ->
  rect_circle_collision (box_corners cx cy ang hl hw) c r = true ->
  exists P, solid (mkRegion (cx, cy) ang (- hl) hl hw) P /\ dist P c <= r.
Proof. exact l_C05_no_false_alarm. Qed.
Print Assumptions C05_no_false_alarm.

(** C05: no overlap is missed when r is at least half the body's smaller dimension. *)
Theorem C05_big_circles_never_missed :
  forall cx cy ang hl hw c r P, / 10000 <= 2 * hl -> / 10000 <= 2 * hw -> (hw <= r \/ hl <= r) ->
  solid (mkRegion (cx, cy) ang (- hl) hl hw) P -> dist P c <= r ->
  rect_circle_collision (box_corners cx cy ang hl hw) c r = true.
Proof. exact l_C05_big_circles_never_missed. Qed.
Print Assumptions C05_big_circles_never_missed.

(** C05: an overlap is also never missed when the circle's centre is outside the body. *)
Theorem C05_outside_centres_never_missed :
  forall cx cy ang hl hw c r P, / 10000 <= 2 * hl -> / 10000 <= 2 * hw -> 0 <= r ->
  ~ solid (mkRegion (cx, cy) ang (- hl) hl hw) c ->
  solid (mkRegion (cx, cy) ang (- hl) hl hw) P -> dist P c <= r ->
  rect_circle_collision (box_corners cx cy ang hl hw) c r = true.
Proof. exact l_C05_outside_centres_never_missed. Qed.
Print Assumptions C05_outside_centres_never_missed.

(** C05: the sign of the radius is irrelevant (a negative radius acts as its absolute value). *)
Theorem C05_radius_sign_irrelevant :
  forall corners c r, rect_circle_collision corners c (- r) = rect_circle_collision corners c r.
Proof. exact l_C05_radius_sign_irrelevant. Qed.
Print Assumptions C05_radius_sign_irrelevant.

(** C05 (finding): a circular obstacle lying strictly inside the body is not reported: the
    default trailer (2.5 m wide, 4.645 m long) standing over a circle of radius 1 m passes the
    check although its centre is inside the trailer. *)
Theorem C05_swallowed_circle_refuted :
  exists (q : ttq) (c : circle),
    c_r c = 1 /\
    (exists P, solid (trailer_body (ahead (t_px q, t_py q) (t_th1 q) (- p_lh default_params)) (t_th2 q)
                       (p_l2 default_params) (p_lf2 default_params) (p_lr2 default_params) (p_trail_w default_params)) P
               /\ dist P (c_x c, c_y c) = 0) /\
    tt_check_collision default_params [c] [] q = false.
Proof. exact l_C05_swallowed_circle_refuted. Qed.
Print Assumptions C05_swallowed_circle_refuted.

(** C06: the hitch check passes exactly when the heading difference, measured the short way
    round, is at most phi_max. *)
Theorem C06_tt_hitch_meaning :
  forall p q, tt_hitch p q = false <-> exists k : Z, Rabs (t_th1 q - t_th2 q + IZR k * (2 * PI)) <= p_phi_max p.
Proof. exact l_C06_tt_hitch_meaning. Qed.
Print Assumptions C06_tt_hitch_meaning.

Theorem C06_nt_hitch_meaning :
  forall s q, length (n_ths q) = p_num_trailers (ns_p s) -> (1 <= p_num_trailers (ns_p s))%nat ->
  (nt_hitch s q = false <->
   forall i, (i < p_num_trailers (ns_p s))%nat ->
     exists k : Z, Rabs (nth i (n_th0 q :: n_ths q) 0 - nth (S i) (n_th0 q :: n_ths q) 0 + IZR k * (2 * PI)) <= p_phi_max (ns_p s)).
Proof. exact l_C06_nt_hitch_meaning. Qed.
Print Assumptions C06_nt_hitch_meaning.

Theorem C06_bk_never_violates : forall q, bk_hitch q = false.
Proof. exact l_C06_bk_never_violates. Qed.
Print Assumptions C06_bk_never_violates.

(** C06: whole turns of any heading are irrelevant. *)
Theorem C06_tt_winding :
  forall p q (k1 k2 : Z),
  tt_hitch p (mkTT (t_px q) (t_py q) (t_th1 q + IZR k1 * (2 * PI)) (t_th2 q + IZR k2 * (2 * PI))) = tt_hitch p q.
Proof. exact l_C06_tt_winding. Qed.
Print Assumptions C06_tt_winding.

(** C06: a limit of pi or more can never be violated. *)
Theorem C06_large_limit_never_violated : forall p q, PI <= p_phi_max p -> tt_hitch p q = false.
Proof. exact l_C06_large_limit_never_violated. Qed.
Print Assumptions C06_large_limit_never_violated.

Example C06_boundary_example :
  (* exactly 40 degrees is allowed, anything above (up to 180) is not *)
  tt_hitch default_params (mkTT 0 0 (40 * PI / 180) 0) = false /\
  (forall d, 0 < d -> 40 * PI / 180 + d < PI -> tt_hitch default_params (mkTT 0 0 (40 * PI / 180 + d) 0) = true).
Proof. exact x_C06_boundary_example. Qed.
