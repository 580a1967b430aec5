(** * Property theorems (generated from ProofsReachDemo.v by tools/genprops.py; statements only,
    each closed by [exact]). *)
From Coq Require Import String Permutation.
From Verif Require Import Base BaseFacts Params Geom TT2d Bicycle NTrailer Acc SpecGeom SpecBodies SpecDyn SpecReach
  Demo Guidance Rollout Setup Planner Instances ProofsGeom ProofsBodies ProofsKin ProofsRobots ProofsStep ProofsDemo ProofsReach.
From Verif Require Import ProofsReachDemo.
Open Scope R_scope.

(** C78: the demonstration depends only on the obstacles within the start-goal distance of the start. *)
Theorem C78_demonstration_only_near_obstacles :
  forall H circ rect circ' rect' (start : point) (goal : ttq) dir wmax pref,
  same_near start (dist (t_px goal, t_py goal) start) circ circ' rect rect' ->
  demo H circ' rect' start goal dir wmax pref = demo H circ rect start goal dir wmax pref.
Proof. exact l_C78_demonstration_only_near_obstacles. Qed.
Print Assumptions C78_demonstration_only_near_obstacles.

(** C78, tractor-trailer with the code's own demonstration: obstacles beyond both the vehicle's reach
    and the start-goal distance change neither the demonstration nor the plan guided by it. *)
Theorem C78_tt_with_demonstration :
  forall (s : tt_self) circ' rect' (x0 : ttq) proj guide dir wmax pref (g : cfg) (rg : prng) D,
  p_proj (ts_p s) = false -> p_guid (ts_p s) = false -> 0 <= p_vmax (ts_p s) -> 0 <= p_dt (ts_p s) ->
  tt_sized (ts_p s) -> proper_obstacles (ts_circ s) (ts_rect s) -> proper_obstacles circ' rect' ->
  (forall q, reach D (t_px q, t_py q) (tt_bodies (ts_p s) q)) ->
  let s' := mkTTSelf (ts_p s) circ' rect' (ts_xg s) in
  let start := (t_px x0, t_py x0) in
  same_near start (Rmax (travel (ts_p s) (S (g_Hsample g)) + D) (dist (t_px (ts_xg s), t_py (ts_xg s)) start))
    (ts_circ s) circ' (ts_rect s) rect' ->
  tt_demo s' x0 dir wmax pref = tt_demo s x0 dir wmax pref /\
  forall rows, run_diffusion (tt_penv s' x0 proj guide (tt_logpd s' rows) (tt_rew_xref s' rows)) (Some g) rg
             = run_diffusion (tt_penv s x0 proj guide (tt_logpd s rows) (tt_rew_xref s rows)) (Some g) rg.
Proof. exact l_C78_tt_with_demonstration. Qed.
Print Assumptions C78_tt_with_demonstration.

(** C78, bicycle with demonstration. *)
Theorem C78_bk_with_demonstration :
  forall (s : bk_self) circ' rect' (x0 : bkq) proj guide dir wmax pref (g : cfg) (rg : prng) D,
  p_proj (bs_p s) = false -> p_guid (bs_p s) = false -> 0 <= p_vmax (bs_p s) -> 0 <= p_dt (bs_p s) ->
  tractor_sized (bs_p s) -> proper_obstacles (bs_circ s) (bs_rect s) -> proper_obstacles circ' rect' ->
  (forall q, reach D (b_px q, b_py q) (bk_bodies (bs_p s) q)) ->
  let s' := mkBKSelf (bs_p s) circ' rect' (bs_xg s) in
  let start := (b_px x0, b_py x0) in
  same_near start (Rmax (travel (bs_p s) (S (g_Hsample g)) + D) (dist (b_px (bs_xg s), b_py (bs_xg s)) start))
    (bs_circ s) circ' (bs_rect s) rect' ->
  bk_demo s' x0 dir wmax pref = bk_demo s x0 dir wmax pref /\
  forall rows, run_diffusion (bk_penv s' x0 proj guide (bk_logpd s' rows) (bk_rew_xref s' rows)) (Some g) rg
             = run_diffusion (bk_penv s x0 proj guide (bk_logpd s rows) (bk_rew_xref s rows)) (Some g) rg.
Proof. exact l_C78_bk_with_demonstration. Qed.
Print Assumptions C78_bk_with_demonstration.

(** C78, N-trailer with demonstration. *)
Theorem C78_nt_with_demonstration :
  forall (s : nt_self) circ' rect' (x0 : ntq) guide dir wmax pref (g : cfg) (rg : prng) D,
  p_guid (ns_p s) = false -> 0 <= p_vmax (ns_p s) -> 0 <= p_dt (ns_p s) ->
  nt_sized s -> proper_obstacles (ns_circ s) (ns_rect s) -> proper_obstacles circ' rect' ->
  (forall q, reach D (n_px q, n_py q) (nt_bodies s q)) ->
  let s' := mkNTSelf (ns_p s) (ns_len s) (ns_front s) (ns_rear s) circ' rect' (ns_xg s) in
  let start := (n_px x0, n_py x0) in
  same_near start (Rmax (travel (ns_p s) (S (g_Hsample g)) + D) (dist (n_px (ns_xg s), n_py (ns_xg s)) start))
    (ns_circ s) circ' (ns_rect s) rect' ->
  nt_demo s' x0 dir wmax pref = nt_demo s x0 dir wmax pref /\
  forall rows, nt_run s' x0 guide (nt_logpd s' rows) (nt_rew_xref s' rows) g rg
             = nt_run s x0 guide (nt_logpd s rows) (nt_rew_xref s rows) g rg.
Proof. exact l_C78_nt_with_demonstration. Qed.
Print Assumptions C78_nt_with_demonstration.

(** C78, acceleration class with demonstration. *)
Theorem C78_acc_with_demonstration :
  forall (s : acc_self) circ' rect' (x0 : accq) proj guide dir wmax pref (g : cfg) (rg : prng) D,
  p_proj (as_p s) = false -> p_guid (as_p s) = false -> 0 <= p_vmax (as_p s) -> 0 <= p_dt (as_p s) ->
  tt_sized (as_p s) -> proper_obstacles (ts_circ (as_t s)) (ts_rect (as_t s)) -> proper_obstacles circ' rect' ->
  (forall q, reach D (t_px q, t_py q) (tt_bodies (as_p s) q)) ->
  let s' := mkAccSelf (mkTTSelf (as_p s) circ' rect' (ts_xg (as_t s))) (as_amax s) (as_omax s) in
  let start := (t_px (a_q x0), t_py (a_q x0)) in
  same_near start (Rmax (travel (as_p s) (S (g_Hsample g)) + INR (max_rollout_steps s) * p_vmax (as_p s) + D)
                        (dist (t_px (ts_xg (as_t s)), t_py (ts_xg (as_t s))) start))
    (ts_circ (as_t s)) circ' (ts_rect (as_t s)) rect' ->
  acc_demo s' x0 dir wmax pref = acc_demo s x0 dir wmax pref /\
  forall rows, run_diffusion (acc_penv s' x0 proj guide (acc_logpd s' rows) (tt_rew_xref (as_t s') rows)) (Some g) rg
             = run_diffusion (acc_penv s x0 proj guide (acc_logpd s rows) (tt_rew_xref (as_t s) rows)) (Some g) rg.
Proof. exact l_C78_acc_with_demonstration. Qed.
Print Assumptions C78_acc_with_demonstration.

(** C78: the cost guidance descends does not depend on the order of the obstacles. *)
Theorem C78_guidance_cost_order :
  forall p xg circ circ' rect rect' x, Permutation circ circ' -> Permutation rect rect' ->
  tt_guidance_cost (mkTTSelf p circ' rect' xg) x = tt_guidance_cost (mkTTSelf p circ rect xg) x.
Proof. exact l_C78_guidance_cost_order. Qed.
Print Assumptions C78_guidance_cost_order.

(** C78: with at most 20 obstacles a circle farther than 2 m from both guided points adds nothing to
    the cost guidance descends. *)
Theorem C78_guidance_far_circle_ignored :
  forall p xg circ rect c x, (length circ + length rect < 20)%nat ->
  c_r c + 2 <= dist (t_px x, t_py x) (c_x c, c_y c) ->
  c_r c + 2 <= dist (ahead (ahead (t_px x, t_py x) (t_th1 x) (- p_lh p)) (t_th2 x) (- p_l2 p)) (c_x c, c_y c) ->
  tt_guidance_cost (mkTTSelf p (c :: circ) rect xg) x = tt_guidance_cost (mkTTSelf p circ rect xg) x.
Proof. exact l_C78_guidance_far_circle_ignored. Qed.
Print Assumptions C78_guidance_far_circle_ignored.

(** C78 (refuted under guidance): repeating a circle changes the cost guidance descends, because every
    listed circle is charged. *)
Theorem C78_guidance_repetition_refuted :
  exists p c xg x, tt_guidance_cost (mkTTSelf p [c; c] [] xg) x <> tt_guidance_cost (mkTTSelf p [c] [] xg) x.
Proof. exact l_C78_guidance_repetition_refuted. Qed.
Print Assumptions C78_guidance_repetition_refuted.

(** C78 (refuted under guidance): a 21st obstacle changes the cost of a jackknifed pose however far away
    it is, because the hitch is weighted by the number of obstacles. *)
Theorem C78_guidance_far_obstacle_refuted :
  forall rho, exists p c circ xg x, length circ = 20%nat /\
  (forall d, In d (c :: circ) -> rho < dist (c_x d, c_y d) (t_px x, t_py x)) /\
  tt_guidance_cost (mkTTSelf p (c :: circ) [] xg) x <> tt_guidance_cost (mkTTSelf p circ [] xg) x.
Proof. exact l_C78_guidance_far_obstacle_refuted. Qed.
Print Assumptions C78_guidance_far_obstacle_refuted.
