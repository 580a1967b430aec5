(** * Property theorems (generated from ProofsStatMain.v by tools/genprops.py; statements only,
    each closed by [exact]). *)
From Coq Require Import String Lia Reals Lra.
From Verif Require Import Base BaseFacts Params Geom TT2d SpecGeom SpecBodies Rollout Instances Demo EnvModel Setup SpecEnv ProofsSetup Stats SpecStats ProofsStats
  Config SpecConfig ProofsConfig Planner Cache CacheInst SpecCache ProofsCache ProofsCacheInst Tune SpecTune ProofsTune Anim Picture SpecPicture ProofsPicture ProofsSafety StatMain.
From Verif Require Import ProofsStatMain.
Local Open Scope string_scope.
Local Open Scope list_scope.
Open Scope R_scope.

(** The planner runs with 20000 samples, 50 steps, 100 diffusion steps, temperature 1e-5, seed 42, no demonstration, no
    preferred direction; the vehicle is the one-trailer truck with both shields, neither projection nor guidance, the stated
    reward settings and the defaults elsewhere. *)
Theorem C75_settings :
  planner_cfg stat_config = mkCfg 42 (Z.to_nat 20000) 50 100 (1/100000) (1/100000) (1/100) false 0 false /\
  forall t, exists r, create_trial_environment (trial_args stat_config) t = Ok r /\ rb_kind r = KTT /\
    p_sh_coll (rb_p r) = true /\ p_sh_hitch (rb_p r) = true /\ p_proj (rb_p r) = false /\ p_guid (rb_p r) = false /\
    p_motion (rb_p r) = 0%Z /\ p_H (rb_p r) = 50%nat /\ p_dt (rb_p r) = 1/4 /\ p_vmax (rb_p r) = 3 /\ p_dmax (rb_p r) = 55 * PI / 180 /\
    p_term_w (rb_p r) = 5 /\ p_term_thr (rb_p r) = 20 /\ p_steer_w (rb_p r) = 1/100 /\ p_rew_thr (rb_p r) = 50 /\ p_k_switch (rb_p r) = 3 /\
    p_hitch_w (rb_p r) = 1/100 /\ p_d_thr (rb_p r) = 728/100 /\
    rb_circ r = scene_circles /\ rb_rect r = scene_walls /\
    rb_xg r = Some [-7/4; -17/2; - PI / 2; - PI / 2] /\
    (exists q, q = start_state (323/100) (pose_of t) /\ rb_x0 r = Some [t_px q; t_py q; t_th1 q; t_th2 q]).
Proof. exact l_C75_settings. Qed.
Print Assumptions C75_settings.

(** Running the script in a process in which nothing was planned since the last clearing: if one of the sampled starts was
    accepted, it ends normally, whatever the random numbers; the reported collision and jackknife rates are 0, a trial is
    counted as successful iff it ends within 4 m, the success rate is the number of successful trials divided by 100,
    and the heat map shows every start once, green iff successful. *)
Theorem C75_script :
  forall proj guide (b : obj (tt_self * ttq) (list refrow)) (h : list op) rg ng,
  let cls := fun _ : string => tt_methods proj guide in
  let starts := fst (sample_initial_conditions ng 100 42) in
  cleared h = true -> starts <> [] ->
  exists results st hm, stat_main cls rg ng (execs cls (start b) h) = Ok (results, st, hm) /\
    length results = length starts /\ (length starts <= 100)%nat /\
    (forall v, In v results -> v_coll v = false /\ v_jack v = false /\ (v_success v = true <-> v_error v <= 4)) /\
    sr_collision_rate st = Some 0 /\ sr_jackknife_rate st = Some 0 /\
    sr_successful st = length (filter v_success results) /\ sr_success_rate st = INR (length (filter v_success results)) / 100 /\
    hm_green hm = map (trial_start (323/100)) (ended true (combine starts (map v_success results))) /\
    hm_red hm = map (trial_start (323/100)) (ended false (combine starts (map v_success results))) /\
    (length (hm_green hm) + length (hm_red hm) = length starts)%nat.
Proof. exact l_C75_script. Qed.
Print Assumptions C75_script.

(** What a trial of the script is: the plan made without any cache from the sampled start; the returned trajectory begins
    there and is safe in the lot throughout, and the reported error is the distance of the rear axle or of the trailer's
    rear from the target position, whichever is smaller. *)
Theorem C75_trials :
  forall proj guide (b : obj (tt_self * ttq) (list refrow)) (h : list op) rg ng results st hm,
  let cls := fun _ : string => tt_methods proj guide in
  let starts := fst (sample_initial_conditions ng 100 42) in
  cleared h = true -> stat_main cls rg ng (execs cls (start b) h) = Ok (results, st, hm) ->
  exists s : tt_self,
    ts_circ s = scene_circles /\ ts_rect s = scene_walls /\ ts_xg s = mkTT (-7/4) (-17/2) (- PI / 2) (- PI / 2) /\
    forall i t, nth_error starts i = Some t ->
    exists out v, nth_error results i = Some v /\
      run_diffusion (tt_penv s (start_state (323/100) (pose_of t)) (proj s) (guide s) (fun _ _ => 0) 0) (Some (planner_cfg stat_config)) rg = Ok out /\
      hd_error (o_traj out) = Some (start_state (323/100) (pose_of t)) /\
      Forall (tt_safe (ts_p s) scene_circles scene_walls) (o_traj out) /\
      let final := last (o_traj out) (mkTT 0 0 0 0) in
      v_error v = Rmin (axle_distance final (-7/4, -17/2)) (rear_face_distance (ts_p s) final (-7/4, -17/2)).
Proof. exact l_C75_trials. Qed.
Print Assumptions C75_trials.

(** If no sampled start is accepted, the script ends with an exception when it comes to the heat map. *)
Theorem C75_no_start :
  forall cls rg ng w, fst (sample_initial_conditions ng 100 42) = [] -> stat_main cls rg ng w = Err UnboundLocalError.
Proof. exact l_C75_no_start. Qed.
Print Assumptions C75_no_start.

(** The report does not depend on what the process did before: after any two histories of constructions, changes, plans and
    clearings with nothing planned since the last clearing, the script gives the same report or exception. *)
Theorem C75_repeatable :
  forall proj guide (b b' : obj (tt_self * ttq) (list refrow)) (h h' : list op) rg ng,
  let cls := fun _ : string => tt_methods proj guide in
  cleared h = true -> cleared h' = true ->
  stat_main cls rg ng (execs cls (start b) h) = stat_main cls rg ng (execs cls (start b') h').
Proof. exact l_C75_repeatable. Qed.
Print Assumptions C75_repeatable.

Example C75_fresh_process : forall (b : obj (tt_self * ttq) (list refrow)) rg,
  let cls := fun _ : string => tt_methods (fun _ _ u => u) (fun _ x => x) in
  exists results st hm, stat_main cls rg mid_rng (execs cls (start b) []) = Ok (results, st, hm) /\
    stat_main cls rg mid_rng (execs cls (start b) [Clear]) = Ok (results, st, hm) /\ sr_collision_rate st = Some 0.
Proof. exact x_C75_fresh_process. Qed.
