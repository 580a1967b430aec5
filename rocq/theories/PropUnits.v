(** * Property theorems (generated from ProofsUnits.v by tools/genprops.py; statements only,
    each closed by [exact]). *)
From Verif Require Import Base BaseFacts Params Geom TT2d Bicycle NTrailer Acc SpecGeom SpecBodies SpecDyn SpecUnits
  Rollout Planner Instances Demo ProofsGeom ProofsBodies ProofsKin ProofsRobots ProofsSafety ProofsSim ProofsStrict ProofsStats ProofsReach.
From Verif Require Import ProofsUnits.
Open Scope R_scope.

(** C79: in other units of length and time - every length of the vehicle, scene and reward multiplied by l, the time step by
    tau, speeds accordingly - the same noise gives a tractor-trailer the same controls and reward, and the same trajectory in
    the new units. *)
Theorem C79_tt_units :
  forall (l tau : R) (s : tt_self) (x0 : ttq) proj proj' guide guide' logpd logpd' rx (g : cfg) (rg : prng) out out',
  0 < l -> 0 < tau -> p_proj (ts_p s) = false -> p_guid (ts_p s) = false ->
  tt_sized (ts_p s) -> tt_sized (units_params l tau (ts_p s)) -> proper_obstacles (ts_circ s) (ts_rect s) ->
  (forall qs k, logpd' (map (tt_units l) qs) k = logpd qs k) ->
  run_diffusion (tt_penv s x0 proj guide logpd rx) (Some g) rg = Ok out ->
  run_diffusion (tt_penv (tt_world_units l tau s) (tt_units l x0) proj' guide' logpd' rx) (Some g) rg = Ok out' ->
  o_Y0 out' = o_Y0 out /\ o_rew out' = o_rew out /\ o_traj out' = map (tt_units l) (o_traj out) /\ o_Ybars out' = o_Ybars out.
Proof. exact l_C79_tt_units. Qed.
Print Assumptions C79_tt_units.

(** C79 for the bicycle. *)
Theorem C79_bk_units :
  forall (l tau : R) (s : bk_self) (x0 : bkq) proj proj' guide guide' logpd logpd' rx (g : cfg) (rg : prng) out out',
  0 < l -> 0 < tau -> p_proj (bs_p s) = false -> p_guid (bs_p s) = false ->
  tractor_sized (bs_p s) -> tractor_sized (units_params l tau (bs_p s)) -> proper_obstacles (bs_circ s) (bs_rect s) ->
  (forall qs k, logpd' (map (bk_units l) qs) k = logpd qs k) ->
  run_diffusion (bk_penv s x0 proj guide logpd rx) (Some g) rg = Ok out ->
  run_diffusion (bk_penv (bk_world_units l tau s) (bk_units l x0) proj' guide' logpd' rx) (Some g) rg = Ok out' ->
  o_Y0 out' = o_Y0 out /\ o_rew out' = o_rew out /\ o_traj out' = map (bk_units l) (o_traj out) /\ o_Ybars out' = o_Ybars out.
Proof. exact l_C79_bk_units. Qed.
Print Assumptions C79_bk_units.

(** C79 for N trailers. *)
Theorem C79_nt_units :
  forall (l tau : R) (s : nt_self) (x0 : ntq) guide guide' logpd logpd' rx (g : cfg) (rg : prng) out out',
  0 < l -> 0 < tau -> p_guid (ns_p s) = false ->
  nt_sized s -> nt_sized (nt_world_units l tau s) -> proper_obstacles (ns_circ s) (ns_rect s) ->
  (forall qs k, logpd' (map (nt_units l) qs) k = logpd qs k) ->
  nt_run s x0 guide logpd rx g rg = Ok out ->
  nt_run (nt_world_units l tau s) (nt_units l x0) guide' logpd' rx g rg = Ok out' ->
  o_Y0 out' = o_Y0 out /\ o_rew out' = o_rew out /\ o_traj out' = map (nt_units l) (o_traj out) /\ o_Ybars out' = o_Ybars out.
Proof. exact l_C79_nt_units. Qed.
Print Assumptions C79_nt_units.

(** C79: the planner's own score of a demonstration - the code's evaluation of a trajectory against a stored reference - reads the
    same in both units when the reference is converted too, so it meets the requirement on score functions above. *)
Theorem C79_scores_same_in_both_units : forall (l tau : R) xref pref, 0 < l ->
  (forall (s : tt_self) xs, tt_logpd (tt_world_units l tau s) (map (row_units l) xref) (map (tt_units l) xs) pref = tt_logpd s xref xs pref) /\
  (forall (s : bk_self) xs, bk_logpd (bk_world_units l tau s) (map (row_units l) xref) (map (bk_units l) xs) pref = bk_logpd s xref xs pref) /\
  (forall (s : nt_self) xs, nt_logpd (nt_world_units l tau s) (map (row_units l) xref) (map (nt_units l) xs) pref = nt_logpd s xref xs pref).
Proof. exact l_C79_scores_same_in_both_units. Qed.
Print Assumptions C79_scores_same_in_both_units.

(** Following a demonstration: the tractor-trailer planner guided by a stored reference returns the same plan in other units when
    the reference positions are converted with the rest. *)
Theorem C79_tt_units_with_demonstration :
  forall (l tau : R) (s : tt_self) (x0 : ttq) proj proj' guide guide' xref rx (g : cfg) (rg : prng) out out',
  0 < l -> 0 < tau -> p_proj (ts_p s) = false -> p_guid (ts_p s) = false ->
  tt_sized (ts_p s) -> tt_sized (units_params l tau (ts_p s)) -> proper_obstacles (ts_circ s) (ts_rect s) ->
  run_diffusion (tt_penv s x0 proj guide (tt_logpd s xref) rx) (Some g) rg = Ok out ->
  run_diffusion (tt_penv (tt_world_units l tau s) (tt_units l x0) proj' guide'
    (tt_logpd (tt_world_units l tau s) (map (row_units l) xref)) rx) (Some g) rg = Ok out' ->
  o_Y0 out' = o_Y0 out /\ o_rew out' = o_rew out /\ o_traj out' = map (tt_units l) (o_traj out) /\ o_Ybars out' = o_Ybars out.
Proof. exact l_C79_tt_units_with_demonstration. Qed.
Print Assumptions C79_tt_units_with_demonstration.

(** The default vehicle in its example scene, in millimetres and milliseconds instead of metres and seconds: the plan from the
    default start is the same, for every noise, planner configuration and score function that reads the same in both units. *)
Example C79_millimetres : forall proj guide logpd logpd' rx (g : cfg) (rg : prng) out out',
  (forall qs k, logpd' (map (tt_units 1000) qs) k = logpd qs k) ->
  run_diffusion (tt_penv ex_tt (mkTT 3 0 0 0) proj guide logpd rx) (Some g) rg = Ok out ->
  run_diffusion (tt_penv (mkTTSelf (units_params 1000 1000 default_params)
      [mkCircle (1000 * 0) (1000 * 10) (1000 * 1)] [mkRect (1000 * 20) (1000 * 0) (1000 * 4) (1000 * 4) 0]
      (mkTT (1000 * 0) (1000 * 0) PI PI)) (mkTT (1000 * 3) (1000 * 0) 0 0) proj guide logpd' rx) (Some g) rg = Ok out' ->
  o_Y0 out' = o_Y0 out /\ o_rew out' = o_rew out.
Proof. exact x_C79_millimetres. Qed.

(** Its step and speed limit in those units: 200 ms and 3 mm per ms. *)
Example C79_millimetre_vehicle :
  p_dt (units_params 1000 1000 default_params) = 200 /\ p_vmax (units_params 1000 1000 default_params) = 3 /\
  p_rew_thr (units_params 1000 1000 default_params) = 1000 * p_rew_thr default_params.
Proof. exact x_C79_millimetre_vehicle. Qed.
