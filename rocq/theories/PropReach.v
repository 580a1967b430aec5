(** * Property theorems (generated from ProofsReach.v by tools/genprops.py; statements only,
    each closed by [exact]). *)
From Verif Require Import Base BaseFacts Params Geom TT2d Bicycle NTrailer Acc SpecGeom SpecBodies SpecDyn SpecReach
  Rollout Planner Instances ProofsGeom ProofsBodies ProofsKin ProofsRobots ProofsSafety ProofsSim ProofsStep ProofsStrict ProofsFrame ProofsPlanner ProofsAcc ProofsStats.
From Verif Require Import ProofsReach.
Open Scope R_scope.

(** C78: a tractor-trailer plan depends only on the obstacles the vehicle can reach. Two scenes with
    the same vehicle, start and goal whose obstacle lists agree on the obstacles near the start give
    the same result - controls, reward, trajectory and all diffusion iterates - whatever lies
    farther away, in whatever order the obstacles are listed and however often one is repeated. *)
Theorem C78_tt_only_reachable_obstacles :
  forall (s : tt_self) circ' rect' (x0 : ttq) proj guide logpd rx (g : cfg) (rg : prng) D,
  p_proj (ts_p s) = false -> p_guid (ts_p s) = false -> 0 <= p_vmax (ts_p s) -> 0 <= p_dt (ts_p s) ->
  tt_sized (ts_p s) -> proper_obstacles (ts_circ s) (ts_rect s) -> proper_obstacles circ' rect' ->
  (forall q, reach D (t_px q, t_py q) (tt_bodies (ts_p s) q)) ->
  same_near (t_px x0, t_py x0) (travel (ts_p s) (S (g_Hsample g)) + D) (ts_circ s) circ' (ts_rect s) rect' ->
  run_diffusion (tt_penv (mkTTSelf (ts_p s) circ' rect' (ts_xg s)) x0 proj guide logpd rx) (Some g) rg
  = run_diffusion (tt_penv s x0 proj guide logpd rx) (Some g) rg.
Proof. exact l_C78_tt_only_reachable_obstacles. Qed.
Print Assumptions C78_tt_only_reachable_obstacles.

(** C78 for the bicycle. *)
Theorem C78_bk_only_reachable_obstacles :
  forall (s : bk_self) circ' rect' (x0 : bkq) proj guide logpd rx (g : cfg) (rg : prng) D,
  p_proj (bs_p s) = false -> p_guid (bs_p s) = false -> 0 <= p_vmax (bs_p s) -> 0 <= p_dt (bs_p s) ->
  tractor_sized (bs_p s) -> proper_obstacles (bs_circ s) (bs_rect s) -> proper_obstacles circ' rect' ->
  (forall q, reach D (b_px q, b_py q) (bk_bodies (bs_p s) q)) ->
  same_near (b_px x0, b_py x0) (travel (bs_p s) (S (g_Hsample g)) + D) (bs_circ s) circ' (bs_rect s) rect' ->
  run_diffusion (bk_penv (mkBKSelf (bs_p s) circ' rect' (bs_xg s)) x0 proj guide logpd rx) (Some g) rg
  = run_diffusion (bk_penv s x0 proj guide logpd rx) (Some g) rg.
Proof. exact l_C78_bk_only_reachable_obstacles. Qed.
Print Assumptions C78_bk_only_reachable_obstacles.

(** C78 for the N-trailer class. *)
Theorem C78_nt_only_reachable_obstacles :
  forall (s : nt_self) circ' rect' (x0 : ntq) guide logpd rx (g : cfg) (rg : prng) D,
  p_guid (ns_p s) = false -> 0 <= p_vmax (ns_p s) -> 0 <= p_dt (ns_p s) ->
  nt_sized s -> proper_obstacles (ns_circ s) (ns_rect s) -> proper_obstacles circ' rect' ->
  (forall q, reach D (n_px q, n_py q) (nt_bodies s q)) ->
  same_near (n_px x0, n_py x0) (travel (ns_p s) (S (g_Hsample g)) + D) (ns_circ s) circ' (ns_rect s) rect' ->
  nt_run (mkNTSelf (ns_p s) (ns_len s) (ns_front s) (ns_rear s) circ' rect' (ns_xg s)) x0 guide logpd rx g rg
  = nt_run s x0 guide logpd rx g rg.
Proof. exact l_C78_nt_only_reachable_obstacles. Qed.
Print Assumptions C78_nt_only_reachable_obstacles.

(** C78 for the acceleration class: here the braking lookahead also reaches ahead, one second at
    full speed for each of its steps. *)
Theorem C78_acc_only_reachable_obstacles :
  forall (s : acc_self) circ' rect' (x0 : accq) proj guide logpd rx (g : cfg) (rg : prng) D,
  p_proj (as_p s) = false -> p_guid (as_p s) = false -> 0 <= p_vmax (as_p s) -> 0 <= p_dt (as_p s) ->
  tt_sized (as_p s) -> proper_obstacles (ts_circ (as_t s)) (ts_rect (as_t s)) -> proper_obstacles circ' rect' ->
  (forall q, reach D (t_px q, t_py q) (tt_bodies (as_p s) q)) ->
  same_near (t_px (a_q x0), t_py (a_q x0))
    (travel (as_p s) (S (g_Hsample g)) + INR (max_rollout_steps s) * p_vmax (as_p s) + D)
    (ts_circ (as_t s)) circ' (ts_rect (as_t s)) rect' ->
  run_diffusion (acc_penv (mkAccSelf (mkTTSelf (as_p s) circ' rect' (ts_xg (as_t s))) (as_amax s) (as_omax s))
                   x0 proj guide logpd rx) (Some g) rg
  = run_diffusion (acc_penv s x0 proj guide logpd rx) (Some g) rg.
Proof. exact l_C78_acc_only_reachable_obstacles. Qed.
Print Assumptions C78_acc_only_reachable_obstacles.

(** The sum of its dimensions bounds how far the tractor and trailer extend from the reference
    point, in every pose. *)
Theorem C78_tt_extends_at_most_span : forall p q, reach (tt_span p) (t_px q, t_py q) (tt_bodies p q).
Proof. exact l_C78_tt_extends_at_most_span. Qed.
Print Assumptions C78_tt_extends_at_most_span.

(** The same for the bicycle. *)
Theorem C78_bk_extends_at_most_span : forall p q, reach (tractor_span p) (b_px q, b_py q) (bk_bodies p q).
Proof. exact l_C78_bk_extends_at_most_span. Qed.
Print Assumptions C78_bk_extends_at_most_span.

(** The same for any number of trailers. *)
Theorem C78_nt_extends_at_most_span : forall s q, reach (nt_span s) (n_px q, n_py q) (nt_bodies s q).
Proof. exact l_C78_nt_extends_at_most_span. Qed.
Print Assumptions C78_nt_extends_at_most_span.

(** C78: obstacles are a set, in every mode and for every vehicle: two scenes with the same
    obstacles, listed in any order and with any repetition, give the same result. *)
Theorem C78_tt_obstacle_order :
  forall (s : tt_self) circ' rect' (x0 : ttq) proj guide logpd rx (g : cfg) (rg : prng),
  (forall c, In c (ts_circ s) <-> In c circ') -> (forall o, In o (ts_rect s) <-> In o rect') ->
  run_diffusion (tt_penv (mkTTSelf (ts_p s) circ' rect' (ts_xg s)) x0 proj guide logpd rx) (Some g) rg
  = run_diffusion (tt_penv s x0 proj guide logpd rx) (Some g) rg.
Proof. exact l_C78_tt_obstacle_order. Qed.
Print Assumptions C78_tt_obstacle_order.

(** Order and repetition for the bicycle. *)
Theorem C78_bk_obstacle_order :
  forall (s : bk_self) circ' rect' (x0 : bkq) proj guide logpd rx (g : cfg) (rg : prng),
  (forall c, In c (bs_circ s) <-> In c circ') -> (forall o, In o (bs_rect s) <-> In o rect') ->
  run_diffusion (bk_penv (mkBKSelf (bs_p s) circ' rect' (bs_xg s)) x0 proj guide logpd rx) (Some g) rg
  = run_diffusion (bk_penv s x0 proj guide logpd rx) (Some g) rg.
Proof. exact l_C78_bk_obstacle_order. Qed.
Print Assumptions C78_bk_obstacle_order.

(** Order and repetition for the N-trailer class. *)
Theorem C78_nt_obstacle_order :
  forall (s : nt_self) circ' rect' (x0 : ntq) guide logpd rx (g : cfg) (rg : prng),
  (forall c, In c (ns_circ s) <-> In c circ') -> (forall o, In o (ns_rect s) <-> In o rect') ->
  nt_run (mkNTSelf (ns_p s) (ns_len s) (ns_front s) (ns_rear s) circ' rect' (ns_xg s)) x0 guide logpd rx g rg
  = nt_run s x0 guide logpd rx g rg.
Proof. exact l_C78_nt_obstacle_order. Qed.
Print Assumptions C78_nt_obstacle_order.

(** Order and repetition for the acceleration class. *)
Theorem C78_acc_obstacle_order :
  forall (s : acc_self) circ' rect' (x0 : accq) proj guide logpd rx (g : cfg) (rg : prng),
  (forall c, In c (ts_circ (as_t s)) <-> In c circ') -> (forall o, In o (ts_rect (as_t s)) <-> In o rect') ->
  run_diffusion (acc_penv (mkAccSelf (mkTTSelf (as_p s) circ' rect' (ts_xg (as_t s))) (as_amax s) (as_omax s))
                   x0 proj guide logpd rx) (Some g) rg
  = run_diffusion (acc_penv s x0 proj guide logpd rx) (Some g) rg.
Proof. exact l_C78_acc_obstacle_order. Qed.
Print Assumptions C78_acc_obstacle_order.

(** The default vehicle (51 steps of at most 0.6 m, span 19.17 m) in a scene with one circle: adding
    a circle and a rectangle a kilometre away and listing the obstacles twice, backwards, changes
    no plan with a horizon of at most 50. *)
Example C78_kilometre_away : forall x0 proj guide logpd rx (g : cfg) (rg : prng),
  t_px x0 = 0 -> t_py x0 = 0 -> (g_Hsample g <= 50)%nat ->
  run_diffusion (tt_penv (mkTTSelf default_params (mkCircle 1000 0 5 :: rev ex_circ ++ ex_circ)
      (mkRect 0 1000 10 20 1 :: rev ex_rect ++ ex_rect) (mkTT 0 0 PI PI)) x0 proj guide logpd rx) (Some g) rg
  = run_diffusion (tt_penv ex_tt x0 proj guide logpd rx) (Some g) rg.
Proof. exact x_C78_kilometre_away. Qed.
