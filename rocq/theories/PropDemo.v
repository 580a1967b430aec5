(** * Property theorems (generated from ProofsDemo.v by tools/genprops.py; statements only,
    each closed by [exact]). *)
From Coq Require Import String.
From Verif Require Import Base BaseFacts Params Geom TT2d Bicycle NTrailer Acc SpecGeom SpecBodies SpecSym
  ProofsGeom ProofsBodies SpecReward Demo SpecDemo.
From Verif Require Import ProofsDemo.
Local Open Scope list_scope.
Open Scope R_scope.

(** C35, tractor-trailer: for every world, start, goal at a different position, direction,
    preference, H >= 4 and waypoint limit >= 3 (the callers use 4) the demonstration exists, is
    shaped as described along some path from the start to the goal, starts at the start position
    and ends at the goal position with the goal's headings. *)
Theorem C35_tt_demonstration_shape :
  forall s x0 dir wmax pref, (3 <= wmax)%nat -> (4 <= p_H (ts_p s))%nat ->
  (t_px x0, t_py x0) <> (t_px (ts_xg s), t_py (ts_xg s)) ->
  exists W rows, tt_demo s x0 dir wmax pref = Ok rows /\
    demo_shape (p_H (ts_p s)) W (t_th1 (ts_xg s)) (t_th2 (ts_xg s)) pref rows /\
    nth 0 (ref_positions rows) (0, 0) = (t_px x0, t_py x0) /\
    last (ref_positions rows) (0, 0) = (t_px (ts_xg s), t_py (ts_xg s)) /\
    nth 0 W (0, 0) = (t_px x0, t_py x0) /\ last W (0, 0) = (t_px (ts_xg s), t_py (ts_xg s)).
Proof. exact l_C35_tt_demonstration_shape. Qed.
Print Assumptions C35_tt_demonstration_shape.

(** C35, acceleration model: the same for the first four entries of its state. *)
Theorem C35_acc_demonstration_shape :
  forall s x0 dir wmax pref, (3 <= wmax)%nat -> (4 <= p_H (as_p s))%nat ->
  let xg := ts_xg (as_t s) in
  (t_px (a_q x0), t_py (a_q x0)) <> (t_px xg, t_py xg) ->
  exists W rows, acc_demo s x0 dir wmax pref = Ok rows /\
    demo_shape (p_H (as_p s)) W (t_th1 xg) (t_th2 xg) pref rows /\
    nth 0 (ref_positions rows) (0, 0) = (t_px (a_q x0), t_py (a_q x0)) /\
    last (ref_positions rows) (0, 0) = (t_px xg, t_py xg) /\
    nth 0 W (0, 0) = (t_px (a_q x0), t_py (a_q x0)) /\ last W (0, 0) = (t_px xg, t_py xg).
Proof. exact l_C35_acc_demonstration_shape. Qed.
Print Assumptions C35_acc_demonstration_shape.

(** C35, bicycle: the same with a single heading (the second column is dropped). *)
Theorem C35_bk_demonstration_shape :
  forall s x0 dir wmax pref, (3 <= wmax)%nat -> (4 <= p_H (bs_p s))%nat ->
  let xg := bs_xg s in
  (b_px x0, b_py x0) <> (b_px xg, b_py xg) ->
  exists W rows, bk_demo s x0 dir wmax pref = Ok rows /\
    demo_shape (p_H (bs_p s)) W (b_th xg) (b_th xg) pref rows /\
    nth 0 (ref_positions rows) (0, 0) = (b_px x0, b_py x0) /\
    last (ref_positions rows) (0, 0) = (b_px xg, b_py xg) /\
    nth 0 W (0, 0) = (b_px x0, b_py x0) /\ last W (0, 0) = (b_px xg, b_py xg).
Proof. exact l_C35_bk_demonstration_shape. Qed.
Print Assumptions C35_bk_demonstration_shape.

(** C35, n-trailer with at least one trailer: the second heading is the first trailer's. *)
Theorem C35_nt_demonstration_shape :
  forall s x0 dir wmax pref th rest, (3 <= wmax)%nat -> (4 <= p_H (ns_p s))%nat ->
  let xg := ns_xg s in
  n_ths xg = th :: rest ->
  (n_px x0, n_py x0) <> (n_px xg, n_py xg) ->
  exists W rows, nt_demo s x0 dir wmax pref = Ok rows /\
    demo_shape (p_H (ns_p s)) W (n_th0 xg) th pref rows /\
    nth 0 (ref_positions rows) (0, 0) = (n_px x0, n_py x0) /\
    last (ref_positions rows) (0, 0) = (n_px xg, n_py xg) /\
    nth 0 W (0, 0) = (n_px x0, n_py x0) /\ last W (0, 0) = (n_px xg, n_py xg).
Proof. exact l_C35_nt_demonstration_shape. Qed.
Print Assumptions C35_nt_demonstration_shape.

(** C35: when start and goal position coincide all rows stand there and the last row has the
    goal's headings. *)
Theorem C35_tt_start_is_goal :
  forall s x0 dir wmax pref, (3 <= wmax)%nat -> (1 <= p_H (ts_p s))%nat ->
  (t_px x0, t_py x0) = (t_px (ts_xg s), t_py (ts_xg s)) ->
  exists rows, tt_demo s x0 dir wmax pref = Ok rows /\ length rows = p_H (ts_p s) /\
    (forall P, In P (ref_positions rows) -> P = (t_px x0, t_py x0)) /\
    f_th1 (last rows no_row) = t_th1 (ts_xg s) /\ f_th2 (last rows no_row) = t_th2 (ts_xg s).
Proof. exact l_C35_tt_start_is_goal. Qed.
Print Assumptions C35_tt_start_is_goal.

(** C35, acceleration model, start position = goal position. *)
Theorem C35_acc_start_is_goal :
  forall s x0 dir wmax pref, (3 <= wmax)%nat -> (1 <= p_H (as_p s))%nat ->
  let xg := ts_xg (as_t s) in
  (t_px (a_q x0), t_py (a_q x0)) = (t_px xg, t_py xg) ->
  exists rows, acc_demo s x0 dir wmax pref = Ok rows /\ length rows = p_H (as_p s) /\
    (forall P, In P (ref_positions rows) -> P = (t_px (a_q x0), t_py (a_q x0))) /\
    f_th1 (last rows no_row) = t_th1 xg /\ f_th2 (last rows no_row) = t_th2 xg.
Proof. exact l_C35_acc_start_is_goal. Qed.
Print Assumptions C35_acc_start_is_goal.

(** C35, bicycle, start position = goal position. *)
Theorem C35_bk_start_is_goal :
  forall s x0 dir wmax pref, (3 <= wmax)%nat -> (1 <= p_H (bs_p s))%nat ->
  let xg := bs_xg s in
  (b_px x0, b_py x0) = (b_px xg, b_py xg) ->
  exists rows, bk_demo s x0 dir wmax pref = Ok rows /\ length rows = p_H (bs_p s) /\
    (forall P, In P (ref_positions rows) -> P = (b_px x0, b_py x0)) /\
    f_th1 (last rows no_row) = b_th xg.
Proof. exact l_C35_bk_start_is_goal. Qed.
Print Assumptions C35_bk_start_is_goal.

(** C35, n-trailer with at least one trailer, start position = goal position. *)
Theorem C35_nt_start_is_goal :
  forall s x0 dir wmax pref th rest, (3 <= wmax)%nat -> (1 <= p_H (ns_p s))%nat ->
  let xg := ns_xg s in
  n_ths xg = th :: rest ->
  (n_px x0, n_py x0) = (n_px xg, n_py xg) ->
  exists rows, nt_demo s x0 dir wmax pref = Ok rows /\ length rows = p_H (ns_p s) /\
    (forall P, In P (ref_positions rows) -> P = (n_px x0, n_py x0)) /\
    f_th1 (last rows no_row) = n_th0 xg /\ f_th2 (last rows no_row) = th.
Proof. exact l_C35_nt_start_is_goal. Qed.
Print Assumptions C35_nt_start_is_goal.

(** C36, tractor-trailer: which path the demonstration runs along. *)
Theorem C36_tt_path_choice :
  forall s x0 dir wmax pref, (3 <= wmax)%nat -> (4 <= p_H (ts_p s))%nat ->
  let A := (t_px x0, t_py x0) in
  let B := (t_px (ts_xg s), t_py (ts_xg s)) in
  A <> B ->
  exists W rows ss, tt_demo s x0 dir wmax pref = Ok rows /\ runs_along W (ref_positions rows) ss /\
    (dir = "horizontal"%string -> chosen_path (ts_circ s) (ts_rect s) A (x_first A B) (y_first A B) B W) /\
    (dir <> "horizontal"%string -> chosen_path (ts_circ s) (ts_rect s) A (y_first A B) (x_first A B) B W).
Proof. exact l_C36_tt_path_choice. Qed.
Print Assumptions C36_tt_path_choice.

(** C36, bicycle. *)
Theorem C36_bk_path_choice :
  forall s x0 dir wmax pref, (3 <= wmax)%nat -> (4 <= p_H (bs_p s))%nat ->
  let A := (b_px x0, b_py x0) in
  let B := (b_px (bs_xg s), b_py (bs_xg s)) in
  A <> B ->
  exists W rows ss, bk_demo s x0 dir wmax pref = Ok rows /\ runs_along W (ref_positions rows) ss /\
    (dir = "horizontal"%string -> chosen_path (bs_circ s) (bs_rect s) A (x_first A B) (y_first A B) B W) /\
    (dir <> "horizontal"%string -> chosen_path (bs_circ s) (bs_rect s) A (y_first A B) (x_first A B) B W).
Proof. exact l_C36_bk_path_choice. Qed.
Print Assumptions C36_bk_path_choice.

(** C36, n-trailer. *)
Theorem C36_nt_path_choice :
  forall s x0 dir wmax pref, (3 <= wmax)%nat -> (4 <= p_H (ns_p s))%nat ->
  let A := (n_px x0, n_py x0) in
  let B := (n_px (ns_xg s), n_py (ns_xg s)) in
  A <> B ->
  exists W rows ss, nt_demo s x0 dir wmax pref = Ok rows /\ runs_along W (ref_positions rows) ss /\
    (dir = "horizontal"%string -> chosen_path (ns_circ s) (ns_rect s) A (x_first A B) (y_first A B) B W) /\
    (dir <> "horizontal"%string -> chosen_path (ns_circ s) (ns_rect s) A (y_first A B) (x_first A B) B W).
Proof. exact l_C36_nt_path_choice. Qed.
Print Assumptions C36_nt_path_choice.

(** C35: with two rows and a two-leg path the start is missed: the first row is the corner. *)
Theorem C35_two_rows_miss_the_start_refuted :
  forall s x0 dir wmax pref, (3 <= wmax)%nat -> p_H (ts_p s) = 2%nat ->
  let A := (t_px x0, t_py x0) in
  let B := (t_px (ts_xg s), t_py (ts_xg s)) in
  let M := if String.eqb dir "horizontal" then x_first A B else y_first A B in
  ~ line_clear (ts_circ s) (ts_rect s) A B -> detour_clear (ts_circ s) (ts_rect s) A M B ->
  exists rows, tt_demo s x0 dir wmax pref = Ok rows /\ ref_positions rows = [M; B] /\ M <> A.
Proof. exact l_C35_two_rows_miss_the_start_refuted. Qed.
Print Assumptions C35_two_rows_miss_the_start_refuted.

(** C35: with one row and a two-leg path the call raises ValueError. *)
Theorem C35_one_row_detour_fails_refuted :
  forall s x0 dir wmax pref, (3 <= wmax)%nat -> p_H (ts_p s) = 1%nat ->
  let A := (t_px x0, t_py x0) in
  let B := (t_px (ts_xg s), t_py (ts_xg s)) in
  let M := if String.eqb dir "horizontal" then x_first A B else y_first A B in
  ~ line_clear (ts_circ s) (ts_rect s) A B -> detour_clear (ts_circ s) (ts_rect s) A M B ->
  tt_demo s x0 dir wmax pref = Err ValueError.
Proof. exact l_C35_one_row_detour_fails_refuted. Qed.
Print Assumptions C35_one_row_detour_fails_refuted.

(** C36: a waypoint limit of 2 discards the detour: the path is always the straight line, even
    through an obstacle. *)
Theorem C36_waypoint_limit_two_is_straight :
  forall s x0 dir pref, (2 <= p_H (ts_p s))%nat ->
  let A := (t_px x0, t_py x0) in
  let B := (t_px (ts_xg s), t_py (ts_xg s)) in
  A <> B -> exists rows ss, tt_demo s x0 dir 2 pref = Ok rows /\ runs_along [A; B] (ref_positions rows) ss.
Proof. exact l_C36_waypoint_limit_two_is_straight. Qed.
Print Assumptions C36_waypoint_limit_two_is_straight.

(** The hypotheses of C35/C36 are met with 50 rows, and the requested detour is taken. *)
Example C35_detour_example :
  (4 <= p_H (ts_p (post_world 50)))%nat /\ (t_px origin, t_py origin) <> (t_px (ts_xg (post_world 50)), t_py (ts_xg (post_world 50))) /\
  ~ line_clear (ts_circ (post_world 50)) (ts_rect (post_world 50)) (0, 0) (1, 10) /\
  detour_clear (ts_circ (post_world 50)) (ts_rect (post_world 50)) (0, 0) (x_first (0, 0) (1, 10)) (1, 10).
Proof. exact x_C35_detour_example. Qed.

(** C35: with three rows the demonstration may stop at the corner and never reach the goal. *)
Theorem C35_three_rows_miss_the_goal_refuted :
  exists s x0, p_H (ts_p s) = 3%nat /\ exists rows, tt_demo s x0 "horizontal" 4 0 = Ok rows /\
    last (ref_positions rows) (0, 0) = (1, 0) /\ (t_px (ts_xg s), t_py (ts_xg s)) = (1, 10).
Proof. exact l_C35_three_rows_miss_the_goal_refuted. Qed.
Print Assumptions C35_three_rows_miss_the_goal_refuted.

(** C36 (finding): the clearance samples step over a thin obstacle, and the demonstration built from the 'clear' line has a row inside it. *)
Theorem C36_thin_obstacle_missed_refuted :
  exists s x0 rows P, tt_demo s x0 "horizontal" 4 0 = Ok rows /\ In P (ref_positions rows) /\
    blocked (ts_circ s) (ts_rect s) P.
Proof. exact l_C36_thin_obstacle_missed_refuted. Qed.
Print Assumptions C36_thin_obstacle_missed_refuted.
