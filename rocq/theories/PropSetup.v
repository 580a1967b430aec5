(** * Property theorems (generated from ProofsSetup.v by tools/genprops.py; statements only,
    each closed by [exact]). *)
From Coq Require Import String Sorted Permutation.
From Verif Require Import Base BaseFacts Params EnvModel Setup SpecGeom SpecBodies SpecEnv TT2d
  NTrailer Instances ProofsGeom ProofsBodies ProofsRobots ProofsSafety ProofsAcc ProofsEnv.
From Verif Require Import ProofsSetup.
Local Open Scope string_scope.
Local Open Scope list_scope.
Open Scope R_scope.

(** In a parking environment, set_init_pos(dx, dy, ...) puts the point [l1] ahead of the start
    pose at horizontal distance dx from the centre of the lowest target space (the first listed
    if several are equally low), and the start pose dy above the upper edge of the highest
    target space, with the given headings; nothing else changes. Holds for every robot class. *)
Theorem C29_geometric_start :
  forall r a c dx dy, e_case (rb_env r) = "parking" -> e_parking (rb_env r) = Some c ->
  (pk_cols c <> 0)%Z -> pk_tgt c <> [] -> i_dx a = Some dx -> i_dy a = Some dy ->
  exists v lo hi xlo ylo xhi yhi before after,
    set_init_pos r a = (set_x0 r (Some v), Ok tt) /\
    pk_tgt c = before ++ lo :: after /\ In hi (pk_tgt c) /\
    get_parking_space_center (rb_env r) lo = Ok (xlo, ylo) /\
    get_parking_space_center (rb_env r) hi = Ok (xhi, yhi) /\
    (forall n x y, In n (pk_tgt c) -> get_parking_space_center (rb_env r) n = Ok (x, y) -> ylo <= y <= yhi) /\
    (forall n x y, In n before -> get_parking_space_center (rb_env r) n = Ok (x, y) -> ylo < y) /\
    nth 0 v 0 + p_l1 (rb_p r) * cos (i_th1 a) = xlo + dx /\
    nth 1 v 0 = yhi + pk_len c / 2 + dy /\
    nth 2 v 0 = i_th1 a /\
    (rb_kind r <> KBK -> nth 3 v 0 = i_th2 a) /\
    (rb_kind r = KNT -> forall k, (3 <= k < length v)%nat -> nth k v 0 = i_th2 a) /\
    (rb_kind r = KACC -> nth 4 v 0 = i_v a /\ nth 5 v 0 = i_delta a).
Proof. exact l_C29_geometric_start. Qed.
Print Assumptions C29_geometric_start.

(** Otherwise (navigation, or dx or dy missing) the given coordinates are used verbatim, a missing
    x becomes -3 and a missing y becomes 0. *)
Theorem C29_direct_start :
  forall r a, e_case (rb_env r) <> "parking" \/ i_dx a = None \/ i_dy a = None ->
  exists v, set_init_pos r a = (set_x0 r (Some v), Ok tt) /\
    nth 0 v 0 = match i_x a with Some x => x | None => -3 end /\
    nth 1 v 0 = match i_y a with Some y => y | None => 0 end /\
    nth 2 v 0 = i_th1 a /\
    (rb_kind r <> KBK -> nth 3 v 0 = i_th2 a) /\
    (rb_kind r = KNT -> forall k, (3 <= k < length v)%nat -> nth k v 0 = i_th2 a) /\
    (rb_kind r = KACC -> nth 4 v 0 = i_v a /\ nth 5 v 0 = i_delta a).
Proof. exact l_C29_direct_start. Qed.
Print Assumptions C29_direct_start.

(** set_goal_pos changes exactly the components it is given (goal vectors of at least three, for
    the trailer classes four, components; every trailer of an N-trailer rig gets theta2). *)
Theorem C29_goal_update :
  forall r a xg, rb_xg r = Some xg -> length xg = observation_size r ->
  exists v, set_goal_pos r a = (set_xg r (Some v), Ok tt) /\
    nth 0 v 0 = match o_x a with Some x => x | None => nth 0 xg 0 end /\
    nth 1 v 0 = match o_y a with Some y => y | None => nth 1 xg 0 end /\
    nth 2 v 0 = match o_th1 a with Some t => t | None => nth 2 xg 0 end /\
    (rb_kind r = KTT \/ rb_kind r = KACC \/ (rb_kind r = KNT /\ (1 <= p_num_trailers (rb_p r))%nat) ->
       nth 3 v 0 = match o_th2 a with Some t => t | None => nth 3 xg 0 end) /\
    (rb_kind r = KNT -> forall k, (3 <= k < length v)%nat -> nth k v 0 = nth 3 v 0) /\
    (rb_kind r = KACC -> nth 4 v 0 = o_v a /\ nth 5 v 0 = o_delta a).
Proof. exact l_C29_goal_update. Qed.
Print Assumptions C29_goal_update.

(** The keyword dx is documented as the distance to the tractor's front face, but the front
    overhang is not included: with lf1 <> 0 the front face is off by lf1*cos(theta1). *)
Theorem C29_dx_is_front_face_distance_refuted :
  forall r a c dx dy, e_case (rb_env r) = "parking" -> e_parking (rb_env r) = Some c ->
  (pk_cols c <> 0)%Z -> (exists n, pk_tgt c = [n]) -> i_dx a = Some dx -> i_dy a = Some dy ->
  p_lf1 (rb_p r) * cos (i_th1 a) <> 0 ->
  exists v n x y, set_init_pos r a = (set_x0 r (Some v), Ok tt) /\ pk_tgt c = [n] /\
    get_parking_space_center (rb_env r) n = Ok (x, y) /\
    let body := tractor_body (rb_p r) (nth 0 v 0) (nth 1 v 0) (nth 2 v 0) in
    fst (at_frame (rg_org body) (rg_ang body) (rg_front body) 0) <> x + dx.
Proof. exact l_C29_dx_is_front_face_distance_refuted. Qed.
Print Assumptions C29_dx_is_front_face_distance_refuted.

(** C29 (finding): the start is measured from the lowest target number, not from the first listed one (documented as the tractor's target). *)
Theorem C29_first_target_is_reference_refuted :
  exists e r v v', env_init 32 32 "parking" (Some two_targets) = Ok e /\
    rb_env r = e /\ get_parking_space_center e 11 = Ok v' /\
    set_init_pos r (mkInit None None (Some 0) (Some 0) 0 0 0 0) = (set_x0 r (Some v), Ok tt) /\
    nth 0 v 0 + p_l1 (rb_p r) * cos 0 <> fst v' + 0.
Proof. exact l_C29_first_target_is_reference_refuted. Qed.
Print Assumptions C29_first_target_is_reference_refuted.

(** The default start of the shipped parking scenario overlaps the upper wall: the robot built by
    get_env with default arguments starts in collision. *)
Theorem C29_default_start_safe_refuted :
  exists r q, get_env (default_env_args "tt2d" "parking" 1) = Ok r /\
    rb_x0 r = Some [t_px q; t_py q; t_th1 q; t_th2 q] /\
    ~ tt_safe (rb_p r) (rb_circ r) (rb_rect r) q /\ tt_coll (rb_p r) (rb_circ r) (rb_rect r) q = true.
Proof. exact l_C29_default_start_safe_refuted. Qed.
Print Assumptions C29_default_start_safe_refuted.

(** The start used by the shipped main script (dx = 3, dy = 5, both headings 0) is safe. *)
Theorem C29_script_start_safe :
  exists r r' q, get_env (default_env_args "tt2d" "parking" 1) = Ok r /\
    set_init_pos r (mkInit None None (Some 3) (Some 5) 0 0 0 0) = (r', Ok tt) /\
    rb_x0 r' = Some [t_px q; t_py q; t_th1 q; t_th2 q] /\
    tt_safe (rb_p r') (rb_circ r') (rb_rect r') q.
Proof. exact l_C29_script_start_safe. Qed.
Print Assumptions C29_script_start_safe.

(** A call of set_goal_pos on an acceleration-controlled robot that gives only a heading resets a
    previously requested goal speed. *)
Theorem C29_goal_speed_kept_refuted :
  exists r v, get_env (default_env_args "acc_tt2d" "navigation" 1) = Ok r /\
    let r1 := fst (set_goal_pos r (mkGoal (Some 5) (Some 0) None None 1 0)) in
    let r2 := fst (set_goal_pos r1 (mkGoal None None (Some 0) None 0 0)) in
    (exists w, rb_xg r1 = Some w /\ nth 4 w 0 = 1) /\ rb_xg r2 = Some v /\ nth 4 v 0 = 0.
Proof. exact l_C29_goal_speed_kept_refuted. Qed.
Print Assumptions C29_goal_speed_kept_refuted.

(** For every robot obtained from get_env in one of the two scenarios, and after any sequence of
    setter calls (including calls that raise), start and goal exist and have observation_size
    components; class, trailer count and all parameters are unchanged. *)
Theorem C30_dimensions :
  forall g r ops, get_env g = Ok r -> g_case g = "parking" \/ g_case g = "navigation" ->
  exists v w, rb_x0 (calls r ops) = Some v /\ rb_xg (calls r ops) = Some w /\
    length v = observation_size r /\ length w = observation_size r /\
    rb_kind (calls r ops) = rb_kind r /\ rb_p (calls r ops) = rb_p r.
Proof. exact l_C30_dimensions. Qed.
Print Assumptions C30_dimensions.

(** One step of the N-trailer robot: a state that does not have exactly N trailer headings is refused with
    AssertionError, so is a robot built with the projection on; every other state is stepped, and the next
    state again has N trailer headings. *)
Theorem C30_n_trailer_step :
  forall (s : nt_self) guide viz st a,
  length (ns_len s) = p_num_trailers (ns_p s) ->
  (forall q, length (n_ths (guide q)) = length (n_ths q)) ->
  (nt_step_internal s guide viz st a = Err AssertionError <->
     length (n_ths (st_q st)) <> p_num_trailers (ns_p s) \/ p_proj (ns_p s) = true) /\
  (length (n_ths (st_q st)) = p_num_trailers (ns_p s) -> p_proj (ns_p s) = false ->
   exists st', nt_step_internal s guide viz st a = Ok st' /\ length (n_ths (st_q st')) = p_num_trailers (ns_p s)).
Proof. exact l_C30_n_trailer_step. Qed.
Print Assumptions C30_n_trailer_step.

(** The same for a planning run of the N-trailer robot: it raises AssertionError before planning anything. *)
Theorem C30_n_trailer_run :
  forall (s : nt_self) x0 guide logpd rew_xref g rg,
  length (n_ths x0) <> p_num_trailers (ns_p s) \/ p_proj (ns_p s) = true ->
  nt_run s x0 guide logpd rew_xref g rg = Err AssertionError.
Proof. exact l_C30_n_trailer_run. Qed.
Print Assumptions C30_n_trailer_run.

(** A case name that is neither scenario is accepted when an Env object is passed; the robot then
    has no start and no goal. *)
Theorem C30_unknown_case_rejected_refuted :
  exists g r, g_case g = "parking_lot" /\ get_env g = Ok r /\ rb_x0 r = None /\ rb_xg r = None.
Proof. exact l_C30_unknown_case_rejected_refuted. Qed.
Print Assumptions C30_unknown_case_rejected_refuted.

(** A six-component start passed to the acceleration-controlled constructor becomes an
    eight-component one. *)
Theorem C30_constructor_start_kept_refuted :
  exists k r v, k_x0 k = Some [0; 0; 0; 0; 1; 0] /\ acc_init k 2 1 = Ok r /\ rb_x0 r = Some v /\
    observation_size r = 6%nat /\ length v = 8%nat.
Proof. exact l_C30_constructor_start_kept_refuted. Qed.
Print Assumptions C30_constructor_start_kept_refuted.

Example C30_n_trailer :
  exists r, get_env (default_env_args "n_trailer2d" "parking" 4) = Ok r /\ observation_size r = 7%nat.
Proof. exact x_C30_n_trailer. Qed.

(** A left-top rectangle [x, y, w, h], padded by [pad], covers exactly the points with
    x - pad <= X <= x + w + pad and y - h - pad <= Y <= y + pad. *)
Theorem C31_left_top_area :
  forall r l pad r' k x y w h, set_rectangle_obs r l "left-top" pad = (r', Ok tt) ->
  nth_error l k = Some [x; y; w; h] \/ nth_error l k = Some [x; y; w; h; 0] ->
  exists o, nth_error (rb_rect r') k = Some o /\
    forall X Y, solid (obstacle_body o) (X, Y) <-> x - pad <= X <= x + w + pad /\ y - h - pad <= Y <= y + pad.
Proof. exact l_C31_left_top_area. Qed.
Print Assumptions C31_left_top_area.

(** A rectangle given by its centre, with any rotation, covers exactly the points reached from the
    centre by going at most w/2 + pad along its axis and at most h/2 + pad across. *)
Theorem C31_center_area :
  forall r l pad r' k x y w h ang, set_rectangle_obs r l "center" pad = (r', Ok tt) ->
  nth_error l k = Some [x; y; w; h; ang] \/ (ang = 0 /\ nth_error l k = Some [x; y; w; h]) ->
  exists o, nth_error (rb_rect r') k = Some o /\
    forall P, solid (obstacle_body o) P <->
      exists a b, Rabs a <= w / 2 + pad /\ Rabs b <= h / 2 + pad /\ P = at_frame (x, y) ang a b.
Proof. exact l_C31_center_area. Qed.
Print Assumptions C31_center_area.

(** A circle [x, y, r] padded by [pad] covers exactly the points within r + pad of (x, y). *)
Theorem C31_circle_area :
  forall r l pad r' k x y rad, set_circle_obs r l pad = (r', Ok tt) ->
  nth_error l k = Some [x; y; rad] ->
  exists c, nth_error (rb_circ r') k = Some c /\
    forall P, disc (c_x c, c_y c) (c_r c) P <-> dist P (x, y) <= rad + pad.
Proof. exact l_C31_circle_area. Qed.
Print Assumptions C31_circle_area.

(** The new list replaces the old one: same number of obstacles, in the given order (by the area
    theorems), and the other kind of obstacle, start, goal and parameters are untouched. *)
Theorem C31_replaces :
  forall r l mode pad r', set_rectangle_obs r l mode pad = (r', Ok tt) ->
  length (rb_rect r') = length l /\ rb_circ r' = rb_circ r /\ rb_x0 r' = rb_x0 r /\ rb_xg r' = rb_xg r /\ rb_p r' = rb_p r.
Proof. exact l_C31_replaces. Qed.
Print Assumptions C31_replaces.

Theorem C31_circles_replaces :
  forall r l pad r', set_circle_obs r l pad = (r', Ok tt) ->
  length (rb_circ r') = length l /\ rb_rect r' = rb_rect r /\ rb_x0 r' = rb_x0 r /\ rb_xg r' = rb_xg r /\ rb_p r' = rb_p r.
Proof. exact l_C31_circles_replaces. Qed.
Print Assumptions C31_circles_replaces.

(** The robot's obstacles and its environment's obstacles are the same list, from construction on
    and after any sequence of setter calls. *)
Theorem C31_robot_and_environment_agree :
  forall g r ops, get_env g = Ok r ->
  rb_circ (calls r ops) = e_circles (rb_env (calls r ops)) /\ rb_rect (calls r ops) = e_rects (rb_env (calls r ops)).
Proof. exact l_C31_robot_and_environment_agree. Qed.
Print Assumptions C31_robot_and_environment_agree.

(** With a rotation, the given (x, y) of a left-top rectangle is not one of its points in general:
    the conversion ignores the rotation. *)
Theorem C31_left_top_rotated_corner_refuted :
  forall r, exists r' o, set_rectangle_obs r [[0; 0; 4; 2; PI / 2]] "left-top" 0 = (r', Ok tt) /\
    rb_rect r' = [o] /\ ~ solid (obstacle_body o) (0, 0).
Proof. exact l_C31_left_top_rotated_corner_refuted. Qed.
Print Assumptions C31_left_top_rotated_corner_refuted.

(** Setting obstacles directly on the environment object does not reach the robot. *)
Theorem C31_environment_update_reaches_robot_refuted :
  forall r, exists e' l, env_set_rects (rb_env r) [[0; 0; 1; 1]; [5; 5; 1; 1]] "center" 0 = (e', Ok l) /\
    let r' := mkRobot (rb_kind r) (rb_p r) e' (rb_x0 r) (rb_xg r) (rb_circ r) (rb_rect r)
                (rb_amax r) (rb_omax r) (rb_len r) (rb_front r) (rb_rear r) in
    (length (rb_rect r) <> 2)%nat -> rb_rect r' <> e_rects (rb_env r').
Proof. exact l_C31_environment_update_reaches_robot_refuted. Qed.
Print Assumptions C31_environment_update_reaches_robot_refuted.

(** set_rectangle_obs raises ValueError exactly when some entry does not have four or five numbers
    or (with a non-empty list) the mode is unknown; the robot and its environment are then
    unchanged. In all other cases it succeeds. *)
Theorem C32_rectangles :
  forall r l mode pad,
  ((exists obs, In obs l /\ length obs <> 4%nat /\ length obs <> 5%nat) \/
   (l <> [] /\ mode <> "left-top" /\ mode <> "center") ->
     set_rectangle_obs r l mode pad = (r, Err ValueError)) /\
  (~ ((exists obs, In obs l /\ length obs <> 4%nat /\ length obs <> 5%nat) \/
      (l <> [] /\ mode <> "left-top" /\ mode <> "center")) ->
     exists r', set_rectangle_obs r l mode pad = (r', Ok tt)).
Proof. exact l_C32_rectangles. Qed.
Print Assumptions C32_rectangles.

(** The same for circles, which need three numbers. *)
Theorem C32_circles :
  forall r l pad,
  ((exists obs, In obs l /\ length obs <> 3%nat) -> set_circle_obs r l pad = (r, Err ValueError)) /\
  ((forall obs, In obs l -> length obs = 3%nat) -> exists r', set_circle_obs r l pad = (r', Ok tt)).
Proof. exact l_C32_circles. Qed.
Print Assumptions C32_circles.

(** The second entry is malformed: the first one is not installed either. *)
Example C32_second_bad :
  forall r, set_rectangle_obs r [[1; 2; 3; 4]; [1; 2; 3]] "center" 0 = (r, Err ValueError).
Proof. exact x_C32_second_bad. Qed.

(** The object returned by get_env has the class selected by (name, num_trailers), the requested
    number of trailers, and every attribute equal to the requested parameter. *)
Theorem C33_class_and_parameters :
  forall g r, get_env g = Ok r ->
  as_requested g (rb_p r) /\
  (rb_kind r = KBK <-> (g_name g = "tt2d" /\ g_trailers g = 0%Z) \/ g_name g = "kinematic_bicycle2d") /\
  (rb_kind r = KNT <-> (g_name g = "tt2d" \/ g_name g = "n_trailer2d") /\ (2 <= g_trailers g)%Z) /\
  (rb_kind r = KTT <-> g_name g = "tt2d" /\ g_trailers g <> 0%Z /\ (g_trailers g < 2)%Z) /\
  (rb_kind r = KACC <-> g_name g = "acc_tt2d") /\
  (rb_kind r = KNT -> Z.of_nat (p_num_trailers (rb_p r)) = g_trailers g /\
     length (rb_len r) = p_num_trailers (rb_p r) /\ length (rb_front r) = p_num_trailers (rb_p r) /\
     length (rb_rear r) = p_num_trailers (rb_p r)) /\
  (rb_kind r <> KNT -> p_num_trailers (rb_p r) = 1%nat) /\
  (rb_kind r = KACC -> rb_amax r = g_amax g /\ rb_omax r = g_omax g) /\
  (forall e, g_env g = Some e -> rb_env r = e).
Proof. exact l_C33_class_and_parameters. Qed.
Print Assumptions C33_class_and_parameters.

(** The trailers of an N-trailer robot: every trailer has the requested length and front overhang; the last one
    has the requested trailer rear overhang, and every trailer before it the tractor's rear overhang. *)
Theorem C33_trailer_arrays :
  forall g r i, get_env g = Ok r -> rb_kind r = KNT -> (Z.of_nat i < g_trailers g)%Z ->
  nth_error (rb_len r) i = Some (g_l2 g) /\ nth_error (rb_front r) i = Some (g_lf2 g) /\
  nth_error (rb_rear r) i = Some (if Z.eqb (Z.of_nat i + 1) (g_trailers g) then g_lr2 g else g_lr g).
Proof. exact l_C33_trailer_arrays. Qed.
Print Assumptions C33_trailer_arrays.

(** A hitch chain of three trailers: tractor overhang, tractor overhang, trailer overhang. *)
Example C33_three_trailers :
  exists r, get_env (default_env_args "n_trailer2d" "navigation" 3) = Ok r /\ rb_kind r = KNT /\
  rb_rear r = [g_lr (default_env_args "n_trailer2d" "navigation" 3); g_lr (default_env_args "n_trailer2d" "navigation" 3);
               g_lr2 (default_env_args "n_trailer2d" "navigation" 3)].
Proof. exact x_C33_three_trailers. Qed.

(** Unknown names raise ValueError; n_trailer2d with fewer than two trailers raises AssertionError. *)
Theorem C33_errors :
  forall g,
  (g_name g <> "tt2d" -> g_name g <> "n_trailer2d" -> g_name g <> "acc_tt2d" -> g_name g <> "kinematic_bicycle2d" ->
     get_env g = Err ValueError) /\
  (g_name g = "n_trailer2d" -> (g_trailers g < 2)%Z -> get_env g = Err AssertionError).
Proof. exact l_C33_errors. Qed.
Print Assumptions C33_errors.

(** Without a custom Env object, in either scenario and with a_max <> 0, every known name gives a
    robot. *)
Theorem C33_succeeds :
  forall g, g_env g = None -> g_case g = "parking" \/ g_case g = "navigation" ->
  g_name g = "tt2d" \/ (g_name g = "n_trailer2d" /\ (2 <= g_trailers g)%Z) \/
  (g_name g = "acc_tt2d" /\ g_amax g <> 0) \/ g_name g = "kinematic_bicycle2d" ->
  exists r, get_env g = Ok r.
Proof. exact l_C33_succeeds. Qed.
Print Assumptions C33_succeeds.

(** A negative trailer count is not rejected for tt2d: it gives the one-trailer class. *)
Theorem C33_negative_trailers_rejected_refuted :
  exists r, get_env (default_env_args "tt2d" "parking" (-3)) = Ok r /\ rb_kind r = KTT /\ p_num_trailers (rb_p r) = 1%nat.
Proof. exact l_C33_negative_trailers_rejected_refuted. Qed.
Print Assumptions C33_negative_trailers_rejected_refuted.
