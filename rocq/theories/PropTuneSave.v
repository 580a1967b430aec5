(** * Property theorems (generated from ProofsTuneSave.v by tools/genprops.py; statements only,
    each closed by [exact]). *)
From Coq Require Import String Lia Reals Lra.
From Verif Require Import Base BaseFacts Params Geom TT2d Rollout Demo EnvModel Setup Stats SpecStats
  ProofsStats Config SpecConfig Planner Cache CacheInst SpecCache Tune SpecTune ProofsTune TuneSave SpecTuneSave.
From Coq Require Import List.
From Verif Require Import ProofsTuneSave.
Local Open Scope string_scope.
Local Open Scope list_scope.
Open Scope R_scope.

(** A new search object is run once and saved: the file lists exactly the trials of the search, in order, each with values
    of the grid and the statistics of the configuration with those values, names the first of those with the highest score,
    counts them, and records the listed fields of the base configuration. *)
Theorem C72_saved_file :
  forall proj guide (b : obj (tt_self * ttq) (list refrow)) (hs : nat -> list op) base n name rg ng sampler worse n_trials ran fs path,
  let cls := fun _ : string => tt_methods proj guide in
  complete base -> one_trailer base -> (0 < n)%nat -> (0 < n_trials)%nat -> (0 < ran)%nat ->
  exists t s fs' f,
    optimise cls rg ng (new_tuner base n name) (fun i => execs cls (start b) (hs i)) sampler worse n_trials ran = (t, Ok s) /\
    save_results fs t s path = (fs', Ok tt) /\ fs' path = Some f /\ (forall p, p <> path -> fs' p = fs p) /\
    sv_study f = name /\ sv_trials f = Nat.min n_trials ran /\ length (sv_all f) = sv_trials f /\
    (forall i r, nth_error (sv_all f) i = Some r -> exists d k st, on_grid d /\ on_grid k /\
       evaluated proj guide base rg ng n d k st /\ reports r i n d k st) /\
    names_best f (sv_all f) /\ holds_fields f base recorded.
Proof. exact l_C72_saved_file. Qed.
Print Assumptions C72_saved_file.

(** The script: for every number of trials started within its time limit (at least one), "mbd_optimization_results.json" holds
    all of them - at most 100, each evaluated on 100 start conditions - and no other file changes. *)
Theorem C72_script :
  forall proj guide (b : obj (tt_self * ttq) (list refrow)) (hs : nat -> list op) rg ng sampler worse ran fs,
  let cls := fun _ : string => tt_methods proj guide in
  (0 < ran)%nat ->
  exists fs' f, tune_main cls rg ng fs (fun i => execs cls (start b) (hs i)) sampler worse ran = (fs', Ok tt) /\
    fs' "mbd_optimization_results.json" = Some f /\ (forall p, p <> "mbd_optimization_results.json" -> fs' p = fs p) /\
    sv_trials f = Nat.min 100 ran /\ length (sv_all f) = sv_trials f /\
    (forall i r, nth_error (sv_all f) i = Some r -> exists d k st, on_grid d /\ on_grid k /\
       evaluated proj guide base_config rg ng 100 d k st /\ reports r i 100 d k st) /\
    names_best f (sv_all f) /\ holds_fields f base_config recorded.
Proof. exact l_C72_script. Qed.
Print Assumptions C72_script.

(** Whatever goes wrong - no trial, an exception in an evaluation, an incomplete configuration - the files stay as they are. *)
Theorem C72_failure_changes_no_file :
  (forall fs t s path fs' e, save_results fs t s path = (fs', Err e) -> fs' = fs) /\
  (forall fs t s path, sd_done s = [] -> save_results fs t s path = (fs, Err ValueError)) /\
  (forall fs t s path k, sd_done s <> [] -> In k recorded -> tn_base t k = None -> save_results fs t s path = (fs, Err AttributeError)) /\
  (forall cls rg ng fs procs sampler worse ran fs' e, tune_main cls rg ng fs procs sampler worse ran = (fs', Err e) -> fs' = fs).
Proof. exact l_C72_failure_changes_no_file. Qed.
Print Assumptions C72_failure_changes_no_file.

(** What is not true for a search object used twice: the file saved after the second search lists the trials of both, so two
    trials carry number 0, while the number of trials and the best trial are those of the second search alone. *)
Theorem C72_second_search_refuted :
  forall proj guide (b : obj (tt_self * ttq) (list refrow)) (hs hs' : nat -> list op) base n name rg ng sampler sampler' worse worse' m m' ran ran' fs path,
  let cls := fun _ : string => tt_methods proj guide in
  complete base -> one_trailer base -> (0 < n)%nat -> (0 < m)%nat -> (0 < ran)%nat -> (0 < m')%nat -> (0 < ran')%nat ->
  exists t1 s1 t2 s2 fs' f r0 r1,
    optimise cls rg ng (new_tuner base n name) (fun i => execs cls (start b) (hs i)) sampler worse m ran = (t1, Ok s1) /\
    optimise cls rg ng t1 (fun i => execs cls (start b) (hs' i)) sampler' worse' m' ran' = (t2, Ok s2) /\
    save_results fs t2 s2 path = (fs', Ok tt) /\ fs' path = Some f /\
    (sv_trials f < length (sv_all f))%nat /\ sv_all f = sd_done s1 ++ sd_done s2 /\ names_best f (sd_done s2) /\
    nth_error (sv_all f) 0 = Some r0 /\ nth_error (sv_all f) (length (sd_done s1)) = Some r1 /\ tu_number r0 = 0%nat /\ tu_number r1 = 0%nat.
Proof. exact l_C72_second_search_refuted. Qed.
Print Assumptions C72_second_search_refuted.

(** What is not true: the file does not tell which search was run. Two base configurations that differ in the collision
    shield give the same record, although their trials are run with the shield and without. *)
Theorem C72_settings_recorded_refuted :
  complete base_config /\ one_trailer base_config /\ complete unshielded_base /\ one_trailer unshielded_base /\
  config_to_dict unshielded_base kept_fields = config_to_dict base_config kept_fields /\
  forall d k t c c' r r', tuned_from base_config c (VFloat d) (VFloat k) -> tuned_from unshielded_base c' (VFloat d) (VFloat k) ->
    create_trial_environment (trial_args c) t = Ok r -> create_trial_environment (trial_args c') t = Ok r' ->
    p_sh_coll (rb_p r) = true /\ p_sh_coll (rb_p r') = false.
Proof. exact l_C72_settings_recorded_refuted. Qed.
Print Assumptions C72_settings_recorded_refuted.

(** Such configurations and trials exist: the shipped one with the values 2.5 and 5. *)
Example C72_environments_exist :
  exists c c' t r r', tuned_from base_config c (VFloat (5/2)) (VFloat 5) /\ tuned_from unshielded_base c' (VFloat (5/2)) (VFloat 5) /\
    create_trial_environment (trial_args c) t = Ok r /\ create_trial_environment (trial_args c') t = Ok r'.
Proof. exact x_C72_environments_exist. Qed.
