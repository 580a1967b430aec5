(** * Property theorems (generated from ProofsDefaults.v by tools/genprops.py; statements only,
    each closed by [exact]). *)
From Coq Require Import String.
From Verif Require Import Base BaseFacts Params EnvModel Setup SpecGeom SpecBodies SpecAcc SpecEnv TT2d Bicycle
  NTrailer Acc Instances ProofsGeom ProofsBodies ProofsRobots ProofsSafety ProofsAcc ProofsEnv ProofsSetup SpecDefaults.
From Verif Require Import ProofsDefaults.
Local Open Scope string_scope.
Local Open Scope list_scope.
Open Scope R_scope.

(** A robot built by get_env for the parking scenario starts 2 m inside the upper left corner of
    the area with all headings 0.1, and its goal is the centre of the first target space, every
    body pointing straight down; the speed and steering components are zero. *)
Theorem C57_parking_defaults :
  forall g r, get_env g = Ok r -> g_case g = "parking" ->
  exists c n rest gx gy, e_parking (rb_env r) = Some c /\ pk_tgt c = n :: rest /\
    get_parking_space_center (rb_env r) n = Ok (gx, gy) /\
    rb_x0 r = Some (pose_vector r (fst (e_xr (rb_env r)) + 2) (snd (e_yr (rb_env r)) - 2) (1/10) (1/10)) /\
    rb_xg r = Some (pose_vector r gx gy (- PI / 2) (- PI / 2)).
Proof. exact l_C57_parking_defaults. Qed.
Print Assumptions C57_parking_defaults.

(** In the navigation scenario start and goal are both at the origin, the goal turned round. *)
Theorem C57_navigation_defaults :
  forall g r, get_env g = Ok r -> g_case g = "navigation" ->
  rb_x0 r = Some (pose_vector r 0 0 0 0) /\ rb_xg r = Some (pose_vector r 0 0 PI PI).
Proof. exact l_C57_navigation_defaults. Qed.
Print Assumptions C57_navigation_defaults.

(** The bounds test accepts exactly the points of the closed area of the environment. *)
Theorem C57_bounds_test :
  forall w h case cfg e x y, env_init w h case cfg = Ok e ->
  (is_in_bounds e x y = true <-> Rabs x <= w / 2 /\ Rabs y <= h / 2).
Proof. exact l_C57_bounds_test. Qed.
Print Assumptions C57_bounds_test.

(** The default start of the parking scenario lies in the area iff the area is at least 2 m wide
    and 2 m high. *)
Theorem C57_default_start_in_area :
  forall w h cfg e, env_init w h "parking" cfg = Ok e -> 0 <= w -> 0 <= h ->
  exists x y th1 th2, default_init_pos e "parking" = Ok [x; y; th1; th2] /\
    (is_in_bounds e x y = true <-> 2 <= w /\ 2 <= h).
Proof. exact l_C57_default_start_in_area. Qed.
Print Assumptions C57_default_start_in_area.

(** The default goal of the default parking scenario is a safe pose for the tractor-trailer, the car
    and rigs of two and three trailers. *)
Theorem C57_default_goal_safe :
  (exists r q, get_env (default_env_args "tt2d" "parking" 1) = Ok r /\
     rb_xg r = Some [t_px q; t_py q; t_th1 q; t_th2 q] /\ tt_safe (rb_p r) (rb_circ r) (rb_rect r) q) /\
  (exists r q, get_env (default_env_args "kinematic_bicycle2d" "parking" 1) = Ok r /\
     rb_xg r = Some [b_px q; b_py q; b_th q] /\ bk_safe (rb_p r) (rb_circ r) (rb_rect r) q) /\
  (forall n, n = 2%Z \/ n = 3%Z -> exists r q, get_env (default_env_args "n_trailer2d" "parking" n) = Ok r /\
     rb_xg r = Some (n_px q :: n_py q :: n_th0 q :: n_ths q) /\ length (n_ths q) = Z.to_nat n /\
     forall xg, nt_safe (mkNTSelf (rb_p r) (rb_len r) (rb_front r) (rb_rear r) (rb_circ r) (rb_rect r) xg) q).
Proof. exact l_C57_default_goal_safe. Qed.
Print Assumptions C57_default_goal_safe.

(** With four trailers the default goal puts the last trailer into the upper wall: no plan can
    reach it safely. *)
Theorem C57_default_goal_safe_refuted :
  exists r q, get_env (default_env_args "n_trailer2d" "parking" 4) = Ok r /\
     rb_xg r = Some (n_px q :: n_py q :: n_th0 q :: n_ths q) /\
     forall xg, ~ nt_safe (mkNTSelf (rb_p r) (rb_len r) (rb_front r) (rb_rear r) (rb_circ r) (rb_rect r) xg) q.
Proof. exact l_C57_default_goal_safe_refuted. Qed.
Print Assumptions C57_default_goal_safe_refuted.

(** The hypotheses are met by each of the classes. *)
Example C57_default_robots :
  (exists r, get_env (default_env_args "acc_tt2d" "parking" 1) = Ok r /\ rb_kind r = KACC) /\
  (exists r, get_env (default_env_args "n_trailer2d" "navigation" 2) = Ok r /\ rb_kind r = KNT /\
     rb_x0 r = Some [0; 0; 0; 0; 0] /\ rb_xg r = Some [0; 0; PI; PI; PI]).
Proof. exact x_C57_default_robots. Qed.
