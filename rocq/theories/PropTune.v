(** * Property theorems (generated from ProofsTune.v by tools/genprops.py; statements only,
    each closed by [exact]). *)
From Coq Require Import String Lia Reals Lra Classical.
From Verif Require Import Base BaseFacts Params Geom TT2d Rollout Instances Demo EnvModel Setup SpecEnv ProofsSetup Stats SpecStats ProofsStats
  Config SpecConfig ProofsConfig Planner Cache CacheInst SpecCache ProofsCache ProofsCacheInst Tune SpecTune.
From Verif Require Import ProofsTune.
Local Open Scope string_scope.
Local Open Scope list_scope.
Open Scope R_scope.

(** What the search evaluates: the base configuration with the two values of the trial, drawing switched off and the
    default number of trailers; the result has no other attributes. *)
Theorem C53_configuration :
  forall base params d k, complete base -> params "d_thr_factor" = Some d -> params "k_switch" = Some k ->
  exists c, create_config_with_params base params = Ok c /\ tuned_from base c d k /\ complete c /\
    (forall f, (forall t, ~ is_field f t) -> c f = None).
Proof. exact l_C53_configuration. Qed.
Print Assumptions C53_configuration.

(** A trial without one of the two values raises KeyError. *)
Theorem C53_missing_value :
  forall base params, complete base -> params "d_thr_factor" = None \/ params "k_switch" = None ->
  create_config_with_params base params = Err KeyError.
Proof. exact l_C53_missing_value. Qed.
Print Assumptions C53_missing_value.

(** The number of trailers of the base configuration is lost: a search for a three-trailer vehicle evaluates the
    one-trailer vehicle. *)
Theorem C53_vehicle_kept_refuted :
  complete three_trailers_base /\
  (exists r, get_env (trial_args three_trailers_base) = Ok r /\ rb_kind r = KNT /\ p_num_trailers (rb_p r) = 3%nat) /\
  forall d k, exists c r, create_config_with_params three_trailers_base
      (fun f => if String.eqb f "d_thr_factor" then Some (VFloat d) else if String.eqb f "k_switch" then Some (VFloat k) else None) = Ok c /\
    get_env (trial_args c) = Ok r /\ rb_kind r = KTT /\ p_num_trailers (rb_p r) = 1%nat.
Proof. exact l_C53_vehicle_kept_refuted. Qed.
Print Assumptions C53_vehicle_kept_refuted.

(** The robot a trial is planned with has the two values of the trial; every other parameter is the one of the base
    configuration. *)
Theorem C53_evaluated_robot :
  forall base c d k t r, tuned_from base c (VFloat d) (VFloat k) -> create_trial_environment (trial_args c) t = Ok r ->
  p_k_switch (rb_p r) = k /\ p_d_thr (rb_p r) = d * (num base "l1" + num base "lh" + num base "l2") /\
  (forall name f, In (name, f) named_parameters -> name <> "k_switch" -> f (rb_p r) = num base name) /\
  p_dmax (rb_p r) = num base "delta_max_deg" * PI / 180 /\
  p_H (rb_p r) = Z.to_nat (int base "Hsample") /\ p_motion (rb_p r) = int base "motion_preference" /\
  p_sh_coll (rb_p r) = flag base "enable_shielded_rollout_collision" /\
  p_sh_hitch (rb_p r) = flag base "enable_shielded_rollout_hitch" /\
  p_proj (rb_p r) = flag base "enable_projection" /\ p_guid (rb_p r) = flag base "enable_guidance" /\
  planner_cfg c = planner_cfg base.
Proof. exact l_C53_evaluated_robot. Qed.
Print Assumptions C53_evaluated_robot.

(** An evaluation does not depend on what happened in the process before: after any two histories of calls (earlier
    evaluations, other robots, other configurations) it gives the same result or the same exception. *)
Theorem C53_history_does_not_matter :
  forall proj guide (b1 b2 : obj (tt_self * ttq) (list refrow)) (h1 h2 : list op) base rg ng n number done1 done2 worse1 worse2 params,
  let cls := fun _ : string => tt_methods proj guide in
  complete base -> base "enable_demo" = Some (VBool false) ->
  objective cls base rg ng n (execs cls (start b1) h1) number done1 worse1 params =
  objective cls base rg ng n (execs cls (start b2) h2) number done2 worse2 params.
Proof. exact l_C53_history_does_not_matter. Qed.
Print Assumptions C53_history_does_not_matter.

(** Median pruning is configured but never happens: whatever the other trials scored, a trial is never stopped at
    the only step it reports. *)
Theorem C53_early_stopping_refuted :
  (forall completed worse, should_prune completed 0 worse = false) /\
  forall cls base rg ng n w number completed worse params, objective cls base rg ng n w number completed worse params <> Ok None.
Proof. exact l_C53_early_stopping_refuted. Qed.
Print Assumptions C53_early_stopping_refuted.

(** For a one-trailer base configuration without demonstration an evaluation always completes, in any process, and
    reports the statistics of the configuration with the two values. *)
Theorem C53_evaluation :
  forall proj guide (b : obj (tt_self * ttq) (list refrow)) (h : list op) base rg ng n number completed worse params d k,
  let cls := fun _ : string => tt_methods proj guide in
  complete base -> one_trailer base -> (0 < n)%nat ->
  params "d_thr_factor" = Some (VFloat d) -> params "k_switch" = Some (VFloat k) ->
  exists r st, objective cls base rg ng n (execs cls (start b) h) number completed worse params = Ok (Some r) /\
    evaluated proj guide base rg ng n d k st /\ reports r number n d k st.
Proof. exact l_C53_evaluation. Qed.
Print Assumptions C53_evaluation.

(** Safety in the stored results. *)
Theorem C53_safety :
  forall cls base rg ng n w number completed worse params r, objective cls base rg ng n w number completed worse params = Ok (Some r) ->
  forall cr jr, tu_coll r = Some cr -> tu_jack r = Some jr -> tu_safety r = Some (1 - (cr + jr) / 2).
Proof. exact l_C53_safety. Qed.
Print Assumptions C53_safety.

(** The score is the number of successful trials divided by the number asked for; it lies between 0 and 1. *)
Theorem C53_score :
  forall proj guide base rg ng n d k st, (0 < n)%nat -> evaluated proj guide base rg ng n d k st ->
  sr_success_rate st = INR (sr_successful st) / INR n /\
  (sr_successful st <= length (fst (sample_initial_conditions ng n 42)) <= n)%nat /\ 0 <= sr_success_rate st <= 1.
Proof. exact l_C53_score. Qed.
Print Assumptions C53_score.

(** Every grid value can be suggested. *)
Theorem C53_grid : forall x, on_grid x <-> exists i, suggest i = x.
Proof. exact l_C53_grid. Qed.
Print Assumptions C53_grid.

(** A whole search with a one-trailer base configuration without demonstration, however the sampler chooses, whatever
    else runs in the process between the evaluations: every trial started is completed and stored, in order, with grid
    values and the statistics of the configuration with those values; the best trial is one of them and none has a
    higher score; equal values give equal statistics. *)
Theorem C53_search :
  forall proj guide (b : obj (tt_self * ttq) (list refrow)) (hs : nat -> list op) base rg ng n sampler worse n_trials ran,
  let cls := fun _ : string => tt_methods proj guide in
  complete base -> one_trailer base -> (0 < n)%nat -> (0 < n_trials)%nat -> (0 < ran)%nat ->
  exists l best, run_optimization cls base rg ng n (fun i => execs cls (start b) (hs i)) sampler worse n_trials ran = Ok (l, best) /\
    length l = Nat.min n_trials ran /\
    (forall i r, nth_error l i = Some r -> exists d k st, on_grid d /\ on_grid k /\ evaluated proj guide base rg ng n d k st /\
       reports r i n d k st /\ 0 <= tu_score r <= 1) /\
    In best l /\ (forall r, In r l -> tu_score r <= tu_score best) /\
    (forall r1 r2, In r1 l -> In r2 l ->
       tu_params r1 "d_thr_factor" = tu_params r2 "d_thr_factor" -> tu_params r1 "k_switch" = tu_params r2 "k_switch" ->
       tu_score r1 = tu_score r2 /\ tu_coll r1 = tu_coll r2 /\ tu_jack r1 = tu_jack r2 /\ tu_error r1 = tu_error r2 /\
       tu_successful r1 = tu_successful r2).
Proof. exact l_C53_search. Qed.
Print Assumptions C53_search.

(** Without trials per evaluation the search raises ZeroDivisionError at the first evaluation; without any trial it
    raises ValueError. *)
Theorem C53_nothing_to_run :
  forall proj guide (b : obj (tt_self * ttq) (list refrow)) (hs : nat -> list op) base rg ng n sampler worse n_trials ran,
  let cls := fun _ : string => tt_methods proj guide in
  complete base -> one_trailer base ->
  ((0 < n_trials)%nat -> (0 < ran)%nat ->
   run_optimization cls base rg ng 0 (fun i => execs cls (start b) (hs i)) sampler worse n_trials ran = Err ZeroDivisionError) /\
  (n_trials = 0%nat \/ ran = 0%nat ->
   run_optimization cls base rg ng n (fun i => execs cls (start b) (hs i)) sampler worse n_trials ran = Err ValueError).
Proof. exact l_C53_nothing_to_run. Qed.
Print Assumptions C53_nothing_to_run.

(** An exception in one evaluation ends the search: it is raised, whatever was found before. *)
Theorem C53_exception_ends_search :
  forall cls base rg ng n procs sampler worse n_trials ran i l e,
  (i < Nat.min n_trials ran)%nat ->
  optimize cls base rg ng n procs sampler worse i 0 [] = (l, Ok tt) ->
  objective cls base rg ng n (procs i) i (length l) (worse i) (hyperparameters (sampler l)) = Err e ->
  run_optimization cls base rg ng n procs sampler worse n_trials ran = Err e.
Proof. exact l_C53_exception_ends_search. Qed.
Print Assumptions C53_exception_ends_search.

(** The shipped search (shields on, default vehicle): no evaluation ever sees a collision or a jackknife, so the
    reported safety is 1 for every choice of the two values, and a trial succeeds iff it ends within 4 m of the goal. *)
Theorem C53_shipped_search_safe :
  forall proj guide (b : obj (tt_self * ttq) (list refrow)) (h : list op) rg ng n number completed worse params d k,
  let cls := fun _ : string => tt_methods proj guide in
  (0 < n)%nat -> fst (sample_initial_conditions ng n 42) <> [] ->
  params "d_thr_factor" = Some (VFloat d) -> params "k_switch" = Some (VFloat k) ->
  exists r, objective cls base_config rg ng n (execs cls (start b) h) number completed worse params = Ok (Some r) /\
    tu_coll r = Some 0 /\ tu_jack r = Some 0 /\ tu_safety r = Some 1.
Proof. exact l_C53_shipped_search_safe. Qed.
Print Assumptions C53_shipped_search_safe.

(** The hypotheses of the C53 theorems are met by the shipped base configuration. *)
Example C53_shipped_base : complete base_config /\ one_trailer base_config /\ base_config "num_trailers" = Some (VInt 1) /\
  on_grid (5/2) /\ fst (sample_initial_conditions mid_rng 5 42) <> [] /\
  exists c, create_config_with_params base_config (hyperparameters (4, 9)%nat) = Ok c /\
    c "d_thr_factor" = Some (VFloat (suggest 4)) /\ suggest 4 = 5/2 /\ suggest 9 = 5 /\ c "Nsample" = Some (VInt 20000).
Proof. exact x_C53_shipped_base. Qed.
