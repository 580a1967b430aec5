(** * Property theorems (generated from ProofsStats.v by tools/genprops.py; statements only,
    each closed by [exact]). *)
From Coq Require Import String.
From Verif Require Import Base BaseFacts Params Geom TT2d Bicycle NTrailer Acc Rollout Planner Instances
  SpecGeom SpecBodies SpecDyn SpecPlan SpecAcc ProofsGeom ProofsBodies ProofsKin ProofsRobots ProofsSafety
  ProofsAcc EnvModel Setup Stats SpecEnv SpecStats ProofsEnv ProofsSetup.
From Verif Require Import ProofsStats.
Local Open Scope string_scope.
Local Open Scope list_scope.
Open Scope R_scope.

(** C42, tractor-trailer: success is reported exactly when the rear axle or the trailer's rear face
    ends within the threshold of the goal and every state of the trajectory is safe; the two
    violation flags report exactly collisions and hitch violations; the reported errors are the two
    distances and the smaller of them. *)
Theorem C42_tt_verdict :
  forall s thr traj v d, tt_sized (ts_p s) -> proper_obstacles (ts_circ s) (ts_rect s) ->
  tt_evaluate s thr traj = Ok v ->
  let goal := (t_px (ts_xg s), t_py (ts_xg s)) in
  let near := axle_distance (last traj d) goal in
  let rear := rear_face_distance (ts_p s) (last traj d) goal in
  (v_success v = true <-> (near <= thr \/ rear <= thr) /\
                          Forall (tt_safe (ts_p s) (ts_circ s) (ts_rect s)) traj) /\
  (v_coll v = false <-> Forall (tt_clear (ts_p s) (ts_circ s) (ts_rect s)) traj) /\
  (v_jack v = false <-> Forall (tt_hitch_ok (ts_p s)) traj) /\
  v_tractor v = near /\ v_trailer v = rear /\ v_error v = Rmin near rear.
Proof. exact l_C42_tt_verdict. Qed.
Print Assumptions C42_tt_verdict.

(** The bicycle: its "trailer" point is lh behind the rear axle; there is no hitch. *)
Theorem C42_bk_verdict :
  forall s thr traj v d, tractor_sized (bs_p s) -> proper_obstacles (bs_circ s) (bs_rect s) ->
  bk_evaluate s thr traj = Ok v ->
  let goal := (b_px (bs_xg s), b_py (bs_xg s)) in
  let fin := last traj d in
  let near := dist (b_px fin, b_py fin) goal in
  let rear := dist (ahead (b_px fin, b_py fin) (b_th fin) (- p_lh (bs_p s))) goal in
  (v_success v = true <-> (near <= thr \/ rear <= thr) /\
                          Forall (bk_safe (bs_p s) (bs_circ s) (bs_rect s)) traj) /\
  v_jack v = false.
Proof. exact l_C42_bk_verdict. Qed.
Print Assumptions C42_bk_verdict.

(** The acceleration-controlled vehicle: the same as the tractor-trailer, on its poses. *)
Theorem C42_acc_verdict :
  forall s thr traj v d, tt_sized (ts_p (as_t s)) -> proper_obstacles (ts_circ (as_t s)) (ts_rect (as_t s)) ->
  acc_evaluate s thr traj = Ok v ->
  let goal := (t_px (ts_xg (as_t s)), t_py (ts_xg (as_t s))) in
  let near := axle_distance (a_q (last traj d)) goal in
  let rear := rear_face_distance (ts_p (as_t s)) (a_q (last traj d)) goal in
  (v_success v = true <-> (near <= thr \/ rear <= thr) /\ Forall (acc_safe s) traj) /\
  v_error v = Rmin near rear.
Proof. exact l_C42_acc_verdict. Qed.
Print Assumptions C42_acc_verdict.

(** The verdict exists for every non-empty trajectory. *)
Theorem C42_always_defined :
  forall s thr q traj, exists v, tt_evaluate s thr (q :: traj) = Ok v.
Proof. exact l_C42_always_defined. Qed.
Print Assumptions C42_always_defined.

(** C42, N trailers, what is proved: the verdict is right about the first hitch and about the rig
    with all trailers aligned with the first one. Missing (and false, see the refutations): inner
    hitches and the true positions of trailers 2..N. *)
Theorem C42_nt_verdict_partial :
  forall s thr traj v d, nt_sized s -> (1 <= p_num_trailers (ns_p s))%nat -> proper_obstacles (ns_circ s) (ns_rect s) ->
  (forall q, In q traj -> length (n_ths q) = p_num_trailers (ns_p s)) ->
  nt_evaluate s thr traj = Ok v ->
  let goal := (n_px (ns_xg s), n_py (ns_xg s)) in
  let fin := last traj d in
  let near := dist (n_px fin, n_py fin) goal in
  let straight q := mkNT (n_px q) (n_py q) (n_th0 q) (repeat (nth 0 (n_ths q) 0) (p_num_trailers (ns_p s))) in
  (v_success v = true <->
     v_error v <= thr /\ Forall (fun q => nt_clear s (straight q)) traj /\
     Forall (fun q => hitch_ok (p_phi_max (ns_p s)) (n_th0 q) (nth 0 (n_ths q) 0)) traj) /\
  v_tractor v = near /\ v_error v <= near.
Proof. exact l_C42_nt_verdict_partial. Qed.
Print Assumptions C42_nt_verdict_partial.

(** C42 (finding): a trial that ends with the second trailer folded by two radians counts as a success. *)
Theorem C42_inner_jackknife_reported_refuted :
  exists v, nt_evaluate folded 4 [mkNT 0 0 0 [0; 2]] = Ok v /\ v_success v = true /\
    ~ nt_hitch_ok folded (mkNT 0 0 0 [0; 2]) /\ nt_hitch folded (mkNT 0 0 0 [0; 2]) = true.
Proof. exact l_C42_inner_jackknife_reported_refuted. Qed.
Print Assumptions C42_inner_jackknife_reported_refuted.

(** A candidate is accepted exactly when a vehicle of default dimensions placed there is safe in
    the evaluation scene. *)
Theorem C43_accepted_iff_safe :
  forall t, is_valid t = true <->
    tt_safe default_params scene_circles scene_walls (start_state (p_l1 default_params) (pose_of t)).
Proof. exact l_C43_accepted_iff_safe. Qed.
Print Assumptions C43_accepted_iff_safe.

(** The result consists of the accepted candidates among the first n draws, in order, numbered
    0,1,2,...; n is at most 10*num_trials; there are at most num_trials of them; fewer only after
    all 10*num_trials attempts; and no draw is made once num_trials are found. *)
Theorem C43_sampling :
  forall g num seed configs n, sample_initial_conditions g num seed = (configs, n) ->
  exists cands (accept : pose -> bool),
    (forall p, accept p = true <->
       tt_safe default_params scene_circles scene_walls (start_state (p_l1 default_params) p)) /\
    drawn_list g (np_seed g seed) cands /\ length cands = n /\ (n <= 10 * num)%nat /\
    map pose_of configs = filter accept cands /\
    map tr_id configs = seq 0 (length configs) /\
    (length configs <= num)%nat /\ ((length configs < num)%nat -> n = (10 * num)%nat) /\
    (forall k, (k < n)%nat -> (length (filter accept (firstn k cands)) < num)%nat).
Proof. exact l_C43_sampling. Qed.
Print Assumptions C43_sampling.

Theorem C43_enough_draws_suffice :
  forall g num seed cands (accept : pose -> bool),
  (forall p, accept p = true <->
       tt_safe default_params scene_circles scene_walls (start_state (p_l1 default_params) p)) ->
  drawn_list g (np_seed g seed) cands -> length cands = (10 * num)%nat ->
  (num <= length (filter accept cands))%nat ->
  length (fst (sample_initial_conditions g num seed)) = num.
Proof. exact l_C43_enough_draws_suffice. Qed.
Print Assumptions C43_enough_draws_suffice.

Theorem C43_returned_starts :
  forall g num seed t, uniform_in_range g -> In t (fst (sample_initial_conditions g num seed)) ->
  -12 <= tr_dx t <= 12 /\ 2 <= tr_dy t <= 7 /\
  (- PI / 10 <= tr_th1 t <= PI / 10 \/ PI - PI / 10 <= tr_th1 t <= PI + PI / 10) /\
  Rabs (tr_th1 t - tr_th2 t) <= PI / 10 /\
  tt_safe default_params scene_circles scene_walls (start_state (p_l1 default_params) (pose_of t)).
Proof. exact l_C43_returned_starts. Qed.
Print Assumptions C43_returned_starts.

(** The environment of a trial (one-trailer class): the evaluation scene, the requested parameters,
    the drawn start, and the goal heading -90 degrees; in the parking case the goal is the centre of
    the lower target space. *)
Theorem C43_trial_environment :
  forall g t, g_name g = "tt2d" -> g_trailers g <> 0%Z -> (g_trailers g < 2)%Z ->
  exists r gx gy, create_trial_environment g t = Ok r /\ rb_kind r = KTT /\ as_requested g (rb_p r) /\
    rb_circ r = scene_circles /\ rb_rect r = scene_walls /\
    (exists q, q = start_state (g_l1 g) (pose_of t) /\ rb_x0 r = Some [t_px q; t_py q; t_th1 q; t_th2 q]) /\
    rb_xg r = Some [gx; gy; - PI / 2; - PI / 2] /\
    (g_case g = "parking" -> gx = -7/4 /\ gy = -17/2).
Proof. exact l_C43_trial_environment. Qed.
Print Assumptions C43_trial_environment.

(** One shielded trial of the one-trailer class from a safe start, any dimensions: the verdict
    reports neither collision nor jackknife, and success means exactly "within 4 m". *)
Theorem C42_shielded_trial :
  forall g proj guide logpd rx c rg t v,
  g_name g = "tt2d" -> g_trailers g <> 0%Z -> (g_trailers g < 2)%Z ->
  g_proj g = false -> g_guid g = false -> g_sh_coll g = true -> g_sh_hitch g = true ->
  tt_sized (params_of (kwargs g) 1) ->
  tt_safe (params_of (kwargs g) 1) scene_circles scene_walls (start_state (g_l1 g) (pose_of t)) ->
  tt_trial g proj guide logpd rx c rg t = Ok v ->
  v_coll v = false /\ v_jack v = false /\ (v_success v = true <-> v_error v <= 4).
Proof. exact l_C42_shielded_trial. Qed.
Print Assumptions C42_shielded_trial.

(** The whole shielded evaluation of the one-trailer class with default dimensions: no trial ever
    reports a collision or a jackknife, both rates are 0 (if any trial ran), and the successful
    trials are those ending within 4 m of the goal. *)
Theorem C42_shielded_statistics :
  forall g proj guide logpd rx c rg ng num seed results st,
  g_name g = "tt2d" -> g_trailers g <> 0%Z -> (g_trailers g < 2)%Z ->
  g_proj g = false -> g_guid g = false -> g_sh_coll g = true -> g_sh_hitch g = true -> default_dimensions g ->
  tt_statistics g proj guide logpd rx c rg ng num seed = Ok (results, st) ->
  (forall v, In v results -> v_coll v = false /\ v_jack v = false /\ (v_success v = true <-> v_error v <= 4)) /\
  (results <> [] -> sr_collision_rate st = Some 0 /\ sr_jackknife_rate st = Some 0) /\
  length results = length (fst (sample_initial_conditions ng num seed)).
Proof. exact l_C42_shielded_statistics. Qed.
Print Assumptions C42_shielded_statistics.

(** The rates are fractions of the trials run; the success rate divides by the number requested,
    and is the fraction of the trials run when all requested trials were run. The average position
    error is over the successful trials; the statistics exist for every positive request. *)
Theorem C42_aggregates :
  forall num results, (0 < num)%nat -> results <> [] ->
  exists st, summarize num results = Ok st /\
    sr_collision_rate st = Some (fraction v_coll results) /\
    sr_jackknife_rate st = Some (fraction v_jack results) /\
    sr_success_rate st = INR (length (filter v_success results)) / INR num /\
    (length results = num -> sr_success_rate st = fraction v_success results) /\
    (forall good, good = filter v_success results -> good <> [] ->
       sr_position_error st = Some (mean (map v_error good))) /\
    (filter v_success results = [] -> sr_position_error st = None).
Proof. exact l_C42_aggregates. Qed.
Print Assumptions C42_aggregates.

(** With fewer valid starts than requested trials the success rate is not the fraction of the
    trials run: one successful trial out of one, ten requested, gives 0.1. *)
Theorem C42_success_rate_is_fraction_of_trials_run_refuted :
  exists st, summarize 10 [mkVerdict true 1 1 1 false false] = Ok st /\
    fraction v_success [mkVerdict true 1 1 1 false false] = 1 /\ sr_success_rate st = 1 / 10.
Proof. exact l_C42_success_rate_is_fraction_of_trials_run_refuted. Qed.
Print Assumptions C42_success_rate_is_fraction_of_trials_run_refuted.

(** Requesting no trials raises. *)
Theorem C42_zero_trials_raise : forall results, summarize 0 results = Err ZeroDivisionError.
Proof. exact l_C42_zero_trials_raise. Qed.
Print Assumptions C42_zero_trials_raise.

(** The evaluation of a one-trailer configuration never raises for a positive number of trials. *)
Theorem C42_evaluation_total :
  forall g proj guide logpd rx c rg ng num seed,
  g_name g = "tt2d" -> g_trailers g <> 0%Z -> (g_trailers g < 2)%Z -> (0 < num)%nat ->
  exists results st, tt_statistics g proj guide logpd rx c rg ng num seed = Ok (results, st).
Proof. exact l_C42_evaluation_total. Qed.
Print Assumptions C42_evaluation_total.

Example C43_five_trials :
  uniform_in_range mid_rng /\
  exists configs, sample_initial_conditions mid_rng 5 42 = (configs, 5%nat) /\ length configs = 5%nat /\
    map pose_of configs = repeat (0, 9/2, 0, 0) 5.
Proof. exact x_C43_five_trials. Qed.

(** C43 (finding): a sampled start can be valid for the default vehicle used by the sampler and collide for the configured one. *)
Theorem C43_configured_vehicle_checked_refuted :
  exists t r q, is_valid t = true /\ create_trial_environment wide_args t = Ok r /\
    rb_x0 r = Some [t_px q; t_py q; t_th1 q; t_th2 q] /\ ~ tt_safe (rb_p r) (rb_circ r) (rb_rect r) q.
Proof. exact l_C43_configured_vehicle_checked_refuted. Qed.
Print Assumptions C43_configured_vehicle_checked_refuted.

(** The hypotheses of the shielded evaluation are met by get_env's default arguments. *)
Example C42_default_configuration :
  let g := default_env_args "tt2d" "parking" 1 in
  default_dimensions g /\ g_proj g = false /\ g_guid g = false /\ g_sh_coll g = true /\ g_sh_hitch g = true /\
  g_name g = "tt2d" /\ g_trailers g <> 0%Z /\ (g_trailers g < 2)%Z.
Proof. exact x_C42_default_configuration. Qed.

(** Average and spread are taken over the positive measurements only; with none they are 0. *)
Theorem C42_times :
  forall times,
  ((forall t, In t times -> t <= 0) -> time_statistics times = (0, 0)) /\
  ((forall t, In t times -> 0 < t) -> times <> [] -> fst (time_statistics times) = mean times).
Proof. exact l_C42_times. Qed.
Print Assumptions C42_times.
