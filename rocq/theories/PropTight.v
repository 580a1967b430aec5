(** * Property theorems (generated from ProofsTight.v by tools/genprops.py; statements only,
    each closed by [exact]). *)
From Coq Require Import String.
From Verif Require Import Base BaseFacts Params Geom TT2d Bicycle NTrailer Acc Rollout Instances EnvModel Demo Config Guidance Stats Harness Setup Cache CacheInst Anim Bench Planner
  SpecGeom SpecBodies SpecAcc SpecGuid SpecStats SpecConfig SpecEnv SpecTight ProofsGeom ProofsBodies ProofsRobots ProofsConfig ProofsGuid ProofsStats ProofsBench SpecAnim SpecBench SpecGeom.
From Verif Require ProofsStep SpecReward.
From Verif Require Import ProofsTight.
Local Open Scope string_scope.
Local Open Scope list_scope.
Open Scope R_scope.

(** C41: a car whose rear axle is closer than 2 m to exactly one post is moved straight away from it, by 0.271 of what
    is missing to 2 m; its heading stays. *)
Theorem C41_bk_pushed_away :
  forall s grad q c l1 l2, p_guid (bs_p s) = true -> is_gradient_bk (bk_guidance_cost s) grad -> bs_circ s = l1 ++ c :: l2 ->
  alone_with c (l1 ++ l2) (b_px q, b_py q) -> ang_ok (b_th q) ->
  let axle := (b_px q, b_py q) in
  let moved := pushed_to c (dist axle (c_x c, c_y c) + 271/1000 * shortfall c axle) axle in
  bk_guide s grad q = mkBK (fst moved) (snd moved) (b_th q) /\
  dist moved (c_x c, c_y c) = dist axle (c_x c, c_y c) + 271/1000 * shortfall c axle.
Proof. exact l_C41_bk_pushed_away. Qed.
Print Assumptions C41_bk_pushed_away.

(** C41: a tractor-trailer whose tractor axle is closer than 2 m to exactly one post, with the trailer's axle and the
    hitch well clear, is shifted as a whole straight away from the post, by 0.271 of what is missing to 2 m. *)
Theorem C41_tt_pushed_away :
  forall s grad q c l1 l2, p_guid (ts_p s) = true -> is_gradient (tt_guidance_cost s) grad -> ts_circ s = l1 ++ c :: l2 ->
  let axle := tractor_axle q in
  alone_with c (l1 ++ l2) axle -> (forall k, In k (ts_circ s) -> shortfall k (trailer_axle (ts_p s) q) + shortfall c axle < 0) ->
  Rabs (t_th1 q - t_th2 q) < p_phi_max (ts_p s) -> ang_ok (t_th1 q) -> ang_ok (t_th2 q) ->
  let moved := pushed_to c (dist axle (c_x c, c_y c) + 271/1000 * shortfall c axle) axle in
  tt_guide s grad q = mkTT (fst moved) (snd moved) (t_th1 q) (t_th2 q) /\
  dist moved (c_x c, c_y c) = dist axle (c_x c, c_y c) + 271/1000 * shortfall c axle.
Proof. exact l_C41_tt_pushed_away. Qed.
Print Assumptions C41_tt_pushed_away.

(** C41: guidance makes three steps of gradient descent with step size 0.05, cutting positions to +-100 m and angles to
    one turn after each. *)
Theorem C41_three_descents :
  (forall s grad q, p_guid (ts_p s) = true -> exists a b, tt_descends grad q a /\ tt_descends grad a b /\ tt_descends grad b (tt_guide s grad q)) /\
  (forall s grad q, p_guid (bs_p s) = true -> exists a b, bk_descends grad q a /\ bk_descends grad a b /\ bk_descends grad b (bk_guide s grad q)) /\
  (forall s grad q, p_guid (ns_p s) = true -> (forall x, length (n_ths (grad x)) = length (n_ths x)) ->
    exists a b, nt_descends grad q a /\ nt_descends grad a b /\ nt_descends grad b (nt_guide s grad q)) /\
  (forall s grad q, p_guid (as_p s) = true -> exists a b, tt_descends grad (a_q q) a /\ tt_descends grad a b /\
     tt_descends grad b (a_q (acc_guide s grad q)) /\ a_v (acc_guide s grad q) = a_v q /\ a_d (acc_guide s grad q) = a_d q).
Proof. exact l_C41_three_descents. Qed.
Print Assumptions C41_three_descents.

(** C38: the object whose guidance is switched off for the comparison ignores guidance and keeps everything else. *)
Theorem C38_guidance_switched_off :
  (forall proj g1 g2 d rew viz st u, m_step (tt_methods proj g1) (m_unguided (tt_methods proj g1) d) rew viz st u =
     m_step (tt_methods proj g2) (m_unguided (tt_methods proj g2) d) rew viz st u) /\
  (forall proj g1 g2 d rew viz st u, m_step (bk_methods proj g1) (m_unguided (bk_methods proj g1) d) rew viz st u =
     m_step (bk_methods proj g2) (m_unguided (bk_methods proj g2) d) rew viz st u) /\
  (forall g1 g2 d rew viz st u, m_step (nt_methods g1) (m_unguided (nt_methods g1) d) rew viz st u =
     m_step (nt_methods g2) (m_unguided (nt_methods g2) d) rew viz st u) /\
  (forall proj g d rew viz st u, p_guid (ts_p (fst d)) = false ->
     m_step (tt_methods proj g) (m_unguided (tt_methods proj g) d) rew viz st u = m_step (tt_methods proj g) d rew viz st u).
Proof. exact l_C38_guidance_switched_off. Qed.
Print Assumptions C38_guidance_switched_off.

(** C34: every value given for a supported field is kept up to the conversion to the field's type: whole numbers lose
    their fraction, numbers count as true unless zero. *)
Theorem C34_values_read :
  forall repr d c f t v, dict_to_config_obj repr d = Ok c -> is_field f t -> ~ dropped f -> d f = Some v ->
  exists w, c f = Some w /\ read_as t v w.
Proof. exact l_C34_values_read. Qed.
Print Assumptions C34_values_read.

(** C42: the report of an N-trailer trial: distances of the rear axle and of the rear face of the first trailer (with
    the tractor-trailer's trailer dimensions) from the goal, and the smaller of the two. *)
Theorem C42_nt_errors :
  forall s thr traj v d, nt_evaluate s thr traj = Ok v -> (forall q, In q traj -> n_ths q <> []) ->
  let goal := (n_px (ns_xg s), n_py (ns_xg s)) in
  let fin := last traj d in
  let near := dist (n_px fin, n_py fin) goal in
  let rear := dist (ahead (ahead (n_px fin, n_py fin) (n_th0 fin) (- p_lh (ns_p s))) (nth 0 (n_ths fin) 0) (- (p_l2 (ns_p s) + p_lr2 (ns_p s)))) goal in
  v_tractor v = near /\ v_trailer v = rear /\ v_error v = Rmin near rear.
Proof. exact l_C42_nt_errors. Qed.
Print Assumptions C42_nt_errors.

(** C42: the remaining entries of the reports for the car and the acceleration-controlled vehicle; a report exists for
    every non-empty trajectory of every class. *)
Theorem C42_bk_errors :
  forall s thr traj v d, tractor_sized (bs_p s) -> proper_obstacles (bs_circ s) (bs_rect s) ->
  bk_evaluate s thr traj = Ok v ->
  let goal := (b_px (bs_xg s), b_py (bs_xg s)) in
  let fin := last traj d in
  let near := dist (b_px fin, b_py fin) goal in
  let rear := dist (ahead (b_px fin, b_py fin) (b_th fin) (- p_lh (bs_p s))) goal in
  v_tractor v = near /\ v_trailer v = rear /\ v_error v = Rmin near rear /\
  (v_coll v = false <-> Forall (bk_safe (bs_p s) (bs_circ s) (bs_rect s)) traj).
Proof. exact l_C42_bk_errors. Qed.
Print Assumptions C42_bk_errors.

(** C42: both flags and both distances for the acceleration-controlled vehicle. *)
Theorem C42_acc_flags :
  forall s thr traj v d, tt_sized (ts_p (as_t s)) -> proper_obstacles (ts_circ (as_t s)) (ts_rect (as_t s)) ->
  acc_evaluate s thr traj = Ok v ->
  let goal := (t_px (ts_xg (as_t s)), t_py (ts_xg (as_t s))) in
  (v_coll v = false <-> Forall (fun q => tt_clear (ts_p (as_t s)) (ts_circ (as_t s)) (ts_rect (as_t s)) (a_q q)) traj) /\
  (v_jack v = false <-> Forall (fun q => tt_hitch_ok (ts_p (as_t s)) (a_q q)) traj) /\
  v_tractor v = axle_distance (a_q (last traj d)) goal /\ v_trailer v = rear_face_distance (ts_p (as_t s)) (a_q (last traj d)) goal.
Proof. exact l_C42_acc_flags. Qed.
Print Assumptions C42_acc_flags.

(** C42: only an empty trajectory has no report. *)
Theorem C42_report_exists :
  (forall s thr traj, traj <> [] <-> exists v, tt_evaluate s thr traj = Ok v) /\
  (forall s thr traj, traj <> [] <-> exists v, bk_evaluate s thr traj = Ok v) /\
  (forall s thr traj, traj <> [] <-> exists v, nt_evaluate s thr traj = Ok v) /\
  (forall s thr traj, traj <> [] <-> exists v, acc_evaluate s thr traj = Ok v).
Proof. exact l_C42_report_exists. Qed.
Print Assumptions C42_report_exists.

(** C47: the wheels of the car are drawn at its two axles. *)
Theorem C47_bk_wheels_partial :
  forall p q u, exists rear front, dr_wheels (bk_draw p q u) = [rear; front] /\
  wheel_at rear (b_px q, b_py q) (b_th q) /\
  wheel_at front (SpecReward.front_axle p (b_px q) (b_py q) (b_th q)) (b_th q + match u with Some a => snd a | None => 0 end).
Proof. exact l_C47_bk_wheels_partial. Qed.
Print Assumptions C47_bk_wheels_partial.

(** C62: both target spaces of the tight lot are spaces of the lot and unoccupied. *)
Theorem C62_tight_targets_free :
  forall n, In n (pk_tgt tight_parking) -> (1 <= n <= pk_rows tight_parking * pk_cols tight_parking)%Z /\ ~ In n (pk_occ tight_parking).
Proof. exact l_C62_tight_targets_free. Qed.
Print Assumptions C62_tight_targets_free.

(** C52: each configuration of the benchmark keeps the dataclass values of the seed, the temperature and the noise schedule
    and only turns the demonstration and the backward preference on; the sizes are those of its entry. *)
Theorem C52_planner_settings :
  forall N H T, let g := scenario_cfg N H T in
  In ("seed", TInt, VInt (g_seed g)) dataclass_fields /\ In ("temp_sample", TFloat, VFloat (g_temp g)) dataclass_fields /\
  In ("beta0", TFloat, VFloat (g_beta0 g)) dataclass_fields /\ In ("betaT", TFloat, VFloat (g_betaT g)) dataclass_fields /\
  In ("enable_guidance", TBool, VBool (Planner.g_guid g)) dataclass_fields /\
  g_demo g = true /\ Planner.g_motion g = (-1)%Z /\ g_Nsample g = N /\ g_Hsample g = H /\ g_Ndiffuse g = T.
Proof. exact l_C52_planner_settings. Qed.
Print Assumptions C52_planner_settings.

(** C52: the three configurations grow in all three sizes; the largest has the dataclass's number of samples and horizon. *)
Theorem C52_sizes_grow :
  (forall i a b, nth_error (map snd scenario_tests) i = Some a -> nth_error (map snd scenario_tests) (S i) = Some b ->
     (fst (fst a) < fst (fst b) /\ snd (fst a) < snd (fst b) /\ snd a < snd b)%nat) /\
  (exists name N H T, nth_error scenario_tests 2 = Some (name, (N, H, T)) /\
     In ("Nsample", TInt, VInt (Z.of_nat N)) dataclass_fields /\ In ("Hsample", TInt, VInt (Z.of_nat H)) dataclass_fields) /\
  Forall (fun t => (0 < fst (fst (snd t)) /\ 0 < snd (fst (snd t)) /\ 0 < snd (snd t))%nat) scenario_tests.
Proof. exact l_C52_sizes_grow. Qed.
Print Assumptions C52_sizes_grow.

(** C52 (finding): the configuration called "Original" (commented as the original default) runs 150 denoising levels, the dataclass 100. *)
Theorem C52_original_size_refuted :
  exists N H T, nth_error scenario_tests 2 = Some ("Large (Original)", (N, H, T)) /\
    forall v, In ("Ndiffuse", TInt, v) dataclass_fields -> v <> VInt (Z.of_nat T).
Proof. exact l_C52_original_size_refuted. Qed.
Print Assumptions C52_original_size_refuted.

(** C52: the distance and steering settings of the benchmark's vehicle are computed from the dataclass values as well. *)
Theorem C52_derived_settings :
  forall H r, scenario_robot H = Ok r -> exists fac deg,
  In ("d_thr_factor", TFloat, VFloat fac) dataclass_fields /\ In ("delta_max_deg", TFloat, VFloat deg) dataclass_fields /\
  p_d_thr (rb_p r) = fac * (p_l1 (rb_p r) + p_lh (rb_p r) + p_l2 (rb_p r)) /\ p_dmax (rb_p r) = deg * PI / 180.
Proof. exact l_C52_derived_settings. Qed.
Print Assumptions C52_derived_settings.

(** C41: a post of radius 1 two metres ahead, another 40 m away. *)
Example C41_alone_with_a_post :
  let c := mkCircle 2 0 1 in alone_with c ([] ++ [mkCircle 40 0 1]) (0, 0) /\ shortfall c (0, 0) = 1 /\ ang_ok 0.
Proof. exact x_C41_alone_with_a_post. Qed.

(** C34: a fraction given for a whole-number field. *)
Example C34_fraction_read : read_as TInt (VFloat (-5/2)) (VInt (-2)).
Proof. exact x_C34_fraction_read. Qed.
