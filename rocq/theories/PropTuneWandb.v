(** * Property theorems (generated from ProofsTuneWandb.v by tools/genprops.py; statements only,
    each closed by [exact]). *)
From Coq Require Import String Lia Reals Lra DecimalString DecimalNat.
From Verif Require Import Base BaseFacts Params Geom TT2d Rollout Demo EnvModel Setup Stats SpecStats
  ProofsStats Config SpecConfig Planner Cache CacheInst SpecCache Anim Picture SpecPicture ProofsPicture ProofsFiles Tune SpecTune ProofsTune TuneSave SpecTuneSave
  ProofsTuneSave TuneWandb SpecTuneWandb.
From Coq Require Import List.
From Verif Require Import ProofsTuneWandb.
Local Open Scope string_scope.
Local Open Scope list_scope.
Open Scope R_scope.

(** Without W&B nothing is sent, whatever happens, and the search is the one of C53 and C72. *)
Theorem C77_disabled :
  forall cls rg ng im t procs sampler worse n_trials ran,
  optimise_logged cls rg ng im false t procs sampler worse n_trials ran =
    (fst (optimise cls rg ng t procs sampler worse n_trials ran), [], snd (optimise cls rg ng t procs sampler worse n_trials ran)) /\
  (forall base n name stamp, new_logged false base n name stamp = Ok (new_tuner base n name, [])).
Proof. exact l_C77_disabled. Qed.
Print Assumptions C77_disabled.

(** Recording a search does not change it: as soon as one start condition is found, the object, the study and any exception
    are the same with W&B as without, for every base configuration, sampler and process. *)
Theorem C77_same_search :
  forall cls rg ng im t procs sampler worse n_trials ran,
  fst (sample_initial_conditions ng (tn_evals t) 42) <> [] ->
  exists ev, optimise_logged cls rg ng im true t procs sampler worse n_trials ran =
    (fst (optimise cls rg ng t procs sampler worse n_trials ran), ev, snd (optimise cls rg ng t procs sampler worse n_trials ran)).
Proof. exact l_C77_same_search. Qed.
Print Assumptions C77_same_search.

(** A whole search with W&B, for a base configuration of the one-trailer vehicle without demonstration: the study and its results
    are those of C53; exactly one row is logged for each trial, in the order of the trials, with its number, its grid
    values, the statistics of its evaluation and the heat map of that evaluation; then one row sums up the search: how many
    trials, all completed, none pruned, and the number, values and score of the first trial with the highest score. *)
Theorem C77_search :
  forall proj guide (b : obj (tt_self * ttq) (list refrow)) (hs : nat -> list op) im t rg ng sampler worse n_trials ran,
  let cls := fun _ : string => tt_methods proj guide in
  complete (tn_base t) -> one_trailer (tn_base t) -> (0 < tn_evals t)%nat -> (0 < n_trials)%nat -> (0 < ran)%nat ->
  fst (sample_initial_conditions ng (tn_evals t) 42) <> [] ->
  exists l best rows summary,
    optimise_logged cls rg ng im true t (fun i => execs cls (start b) (hs i)) sampler worse n_trials ran =
      (mkTuner (tn_base t) (tn_evals t) (tn_study t) (tn_results t ++ l), map Logged rows ++ [Logged summary], Ok (mkStudy (length l) l)) /\
    optimise cls rg ng t (fun i => execs cls (start b) (hs i)) sampler worse n_trials ran =
      (mkTuner (tn_base t) (tn_evals t) (tn_study t) (tn_results t ++ l), Ok (mkStudy (length l) l)) /\
    length l = Nat.min n_trials ran /\ length rows = Nat.min n_trials ran /\
    (forall i r row, nth_error l i = Some r -> nth_error rows i = Some row ->
       exists d k st hm trials, on_grid d /\ on_grid k /\ evaluated_each proj guide (tn_base t) rg ng (tn_evals t) d k st trials /\
         reports r i (tn_evals t) d k st /\ row_reports row i d k st hm /\ pictures hm (num (tn_base t) "l1") trials) /\
    row_sums_up summary (Nat.min n_trials ran) best /\ nth_error l (tu_number best) = Some best /\
    (forall r, In r l -> tu_score r <= tu_score best) /\
    (forall i r, (i < tu_number best)%nat -> nth_error l i = Some r -> tu_score r < tu_score best).
Proof. exact l_C77_search. Qed.
Print Assumptions C77_search.

(** An exception in an evaluation ends the record: the rows of the trials before it stay, as a search of just those trials
    would have logged them; the failed trial and the end of the search are not recorded. *)
Theorem C77_exception :
  forall cls rg ng im t procs sampler worse n_trials ran e,
  fst (sample_initial_conditions ng (tn_evals t) 42) <> [] ->
  ((0 < Nat.min n_trials ran)%nat ->
   objective cls (tn_base t) rg ng (tn_evals t) (procs 0%nat) 0 0 (worse 0%nat) (hyperparameters (sampler [])) = Err e ->
   optimise_logged cls rg ng im true t procs sampler worse n_trials ran =
     (mkTuner (tn_base t) (tn_evals t) (tn_study t) (tn_results t ++ []), [], Err e)) /\
  (forall i t' l events summary, (0 < i < Nat.min n_trials ran)%nat ->
   optimise_logged cls rg ng im true t procs sampler worse i i = (t', events ++ [summary], Ok (mkStudy i l)) ->
   objective cls (tn_base t) rg ng (tn_evals t) (procs i) i (length l) (worse i) (hyperparameters (sampler l)) = Err e ->
   optimise_logged cls rg ng im true t procs sampler worse n_trials ran = (t', events, Err e)).
Proof. exact l_C77_exception. Qed.
Print Assumptions C77_exception.

(** Nothing to run: without a trial no row is logged and ValueError is raised; without trials per evaluation, ZeroDivisionError. *)
Theorem C77_nothing_to_run :
  forall cls rg ng im t procs sampler worse n_trials ran,
  (n_trials = 0%nat \/ ran = 0%nat ->
   snd (fst (optimise_logged cls rg ng im true t procs sampler worse n_trials ran)) = [] /\
   snd (optimise_logged cls rg ng im true t procs sampler worse n_trials ran) = Err ValueError) /\
  (complete (tn_base t) -> tn_evals t = 0%nat -> (0 < n_trials)%nat -> (0 < ran)%nat ->
   snd (fst (optimise_logged cls rg ng im true t procs sampler worse n_trials ran)) = [] /\
   snd (optimise_logged cls rg ng im true t procs sampler worse n_trials ran) = Err ZeroDivisionError).
Proof. exact l_C77_nothing_to_run. Qed.
Print Assumptions C77_nothing_to_run.

(** What is not true when no start condition is found: if a picture that was not drawn cannot be uploaded, a search that
    completes without W&B ends at its first trial with W&B; the trial is stored, but nothing is logged. *)
Theorem C77_same_search_refuted :
  forall proj guide (b : obj (tt_self * ttq) (list refrow)) (hs : nat -> list op) t rg ng sampler worse n_trials ran e,
  let cls := fun _ : string => tt_methods proj guide in
  complete (tn_base t) -> one_trailer (tn_base t) -> (0 < tn_evals t)%nat -> (0 < n_trials)%nat -> (0 < ran)%nat ->
  fst (sample_initial_conditions ng (tn_evals t) 42) = [] ->
  exists r t' s, optimise_logged cls rg ng (Err e) true t (fun i => execs cls (start b) (hs i)) sampler worse n_trials ran =
      (mkTuner (tn_base t) (tn_evals t) (tn_study t) (tn_results t ++ [r]), [], Err e) /\
    optimise_logged cls rg ng (Err e) false t (fun i => execs cls (start b) (hs i)) sampler worse n_trials ran = (t', [], Ok s) /\
    length (sd_done s) = Nat.min n_trials ran.
Proof. exact l_C77_same_search_refuted. Qed.
Print Assumptions C77_same_search_refuted.

(** Pictures of different trials never share a key. *)
Theorem C77_pictures_apart : forall i j, picture_key i = picture_key j -> i = j.
Proof. exact l_C77_pictures_apart. Qed.
Print Assumptions C77_pictures_apart.

(** The run is opened once, before anything else, under the study's name and the time, with the recorded settings of the base
    configuration; if one of those is missing, AttributeError is raised and no run is opened. *)
Theorem C77_run_opened :
  forall base n study stamp,
  (complete base -> exists m, new_logged true base n study stamp = Ok (new_tuner base n study, [RunStarted (study ++ "_" ++ stamp)%string m]) /\
     forall k v, In (k, v) m <-> In k recorded /\ base k = Some v) /\
  (forall k, In k recorded -> base k = None -> new_logged true base n study stamp = Err AttributeError).
Proof. exact l_C77_run_opened. Qed.
Print Assumptions C77_run_opened.

(** Early stopping never shows up in the record: for every base configuration, sampler and scores, the summary says that no
    trial was pruned and none failed, and that the pruning efficiency is 0. *)
Theorem C77_pruning_refuted :
  forall cls rg ng im t procs sampler worse n_trials ran r k i,
  In (Logged r) (snd (fst (optimise_logged cls rg ng im true t procs sampler worse n_trials ran))) -> In (k, i) r ->
  (k = "pruned_trials" -> i = INat 0) /\ (k = "failed_trials" -> i = INat 0) /\ (k = "pruning_efficiency" -> i = INum (Some 0)).
Proof. exact l_C77_pruning_refuted. Qed.
Print Assumptions C77_pruning_refuted.

(** A search object used twice keeps one run: the second search numbers its trials from 0 again, so the first trials of both
    are logged under the same number and the same picture key. *)
Theorem C77_second_search_refuted :
  forall proj guide (b : obj (tt_self * ttq) (list refrow)) (hs hs' : nat -> list op) im t rg ng sampler sampler' worse worse' m m' ran ran',
  let cls := fun _ : string => tt_methods proj guide in
  complete (tn_base t) -> one_trailer (tn_base t) -> (0 < tn_evals t)%nat -> (0 < m)%nat -> (0 < ran)%nat -> (0 < m')%nat -> (0 < ran')%nat ->
  fst (sample_initial_conditions ng (tn_evals t) 42) <> [] ->
  exists t1 s1 t2 s2 r1 ev1 r2 ev2,
    optimise_logged cls rg ng im true t (fun i => execs cls (start b) (hs i)) sampler worse m ran = (t1, Logged r1 :: ev1, Ok s1) /\
    optimise_logged cls rg ng im true t1 (fun i => execs cls (start b) (hs' i)) sampler' worse' m' ran' = (t2, Logged r2 :: ev2, Ok s2) /\
    has r1 "trial_number" (INat 0) /\ has r2 "trial_number" (INat 0) /\
    (exists i, In ("heat_map_trial_0", i) r1) /\ (exists i, In ("heat_map_trial_0", i) r2).
Proof. exact l_C77_second_search_refuted. Qed.
Print Assumptions C77_second_search_refuted.

(** The script: for every number of trials started within its time limit, one run is opened, one row logged for each of the at
    most 100 trials, then the summary, and the run is closed; the result file is the one of C72, it lists the trials of the rows in
    the same order and names the same best trial as the summary. *)
Theorem C77_script :
  forall proj guide (b : obj (tt_self * ttq) (list refrow)) (hs : nat -> list op) im rg ng sampler worse ran fs stamp,
  let cls := fun _ : string => tt_methods proj guide in
  (0 < ran)%nat -> fst (sample_initial_conditions ng 100 42) <> [] ->
  exists fs' f m rows summary best,
    main_logged cls rg ng im stamp fs (fun i => execs cls (start b) (hs i)) sampler worse ran =
      (fs', [RunStarted ("mbd_parking_optimization_" ++ stamp)%string m] ++ map Logged rows ++ [Logged summary; RunFinished], Ok tt) /\
    tune_main cls rg ng fs (fun i => execs cls (start b) (hs i)) sampler worse ran = (fs', Ok tt) /\
    fs' "mbd_optimization_results.json" = Some f /\ (forall p, p <> "mbd_optimization_results.json" -> fs' p = fs p) /\
    (forall k v, In (k, v) m <-> In k recorded /\ base_config k = Some v) /\
    length rows = Nat.min 100 ran /\ length (sv_all f) = Nat.min 100 ran /\
    (forall i r row, nth_error (sv_all f) i = Some r -> nth_error rows i = Some row ->
       exists d k st hm trials, on_grid d /\ on_grid k /\ evaluated_each proj guide base_config rg ng 100 d k st trials /\
         reports r i 100 d k st /\ row_reports row i d k st hm /\ pictures hm (323/100) trials) /\
    row_sums_up summary (Nat.min 100 ran) best /\ sv_best_number f = tu_number best /\ sv_best_score f = tu_score best /\ names_best f (sv_all f).
Proof. exact l_C77_script. Qed.
Print Assumptions C77_script.

(** If the script fails, the run is not closed and no file changes. *)
Theorem C77_failed_script :
  forall cls rg ng im stamp fs procs sampler worse ran fs' events e,
  main_logged cls rg ng im stamp fs procs sampler worse ran = (fs', events, Err e) ->
  fs' = fs /\ ~ In RunFinished events /\ (exists m, hd_error events = Some (RunStarted ("mbd_parking_optimization_" ++ stamp)%string m)).
Proof. exact l_C77_failed_script. Qed.
Print Assumptions C77_failed_script.

(** Such searches exist: a generator that finds start conditions, the shipped base configuration, 5 evaluations. *)
Example C77_recorded_search :
  let t := new_tuner base_config 5 "study" in
  complete (tn_base t) /\ one_trailer (tn_base t) /\ (0 < tn_evals t)%nat /\ fst (sample_initial_conditions mid_rng (tn_evals t) 42) <> [] /\
  fst (sample_initial_conditions unlucky_rng (tn_evals t) 42) = [] /\
  picture_key 12 = "heat_map_trial_12".
Proof. exact x_C77_recorded_search. Qed.
