(** * SpecTuneWandb: vocabulary for the record of a hyperparameter search kept by Weights & Biases. *)
From Coq Require Import String Reals List ZArith.
From Verif Require Import Base Params TT2d Config Setup Stats Planner Picture SpecPicture SpecStats Anim Tune SpecTune TuneSave TuneWandb.
Import ListNotations.
Local Open Scope string_scope.
Local Open Scope list_scope.
Open Scope R_scope.

(** The row has the value i under the key k, and the key occurs once. *)
Definition has (r : row) (k : string) (i : item) : Prop := forall j, In (k, j) r <-> j = i.
(** The keys of the row are these and no others. *)
Definition keys_are (r : row) (ks : list string) : Prop := forall k, (exists i, In (k, i) r) <-> In k ks.
(** The key under which the picture of a trial is stored. *)
Definition picture_key (number : nat) : string := ("heat_map_trial_" ++ digits number)%string.

(** The heat map shows the given starts: green where the trial succeeded, red where it did not, and how many there are. *)
Definition pictures (m : heat) (l1 : R) (trials : list (trial * bool)) : Prop :=
  hm_green m = map (trial_start l1) (ended true trials) /\ hm_red m = map (trial_start l1) (ended false trials) /\
  hm_total m = length trials /\ hm_rate m = fraction snd trials.

(** The row reports trial number n: the statistics st of its evaluation with the two values d and k, and the heat map m. *)
Definition row_reports (r : row) (n : nat) (d k : R) (st : statistics) (m : heat) : Prop :=
  keys_are r ["trial_number"; "objective_score"; "success_rate"; "avg_position_error"; "collision_rate"; "jackknife_rate"; "safety";
              picture_key n; "param_d_thr_factor"; "param_k_switch"] /\
  has r "trial_number" (INat n) /\ has r "objective_score" (INum (Some (sr_success_rate st))) /\
  has r "success_rate" (INum (Some (sr_success_rate st))) /\ has r "avg_position_error" (INum (sr_position_error st)) /\
  has r "collision_rate" (INum (sr_collision_rate st)) /\ has r "jackknife_rate" (INum (sr_jackknife_rate st)) /\
  has r "safety" (INum (match sr_collision_rate st, sr_jackknife_rate st with
                        | Some c, Some j => Some (1 - (c + j) / 2) | _, _ => None end)) /\
  (exists title, title = ("Trial " ++ digits n ++ " Performance Heat Map")%string /\ has r (picture_key n) (IImage m title title)) /\
  has r "param_d_thr_factor" (IVal (VFloat d)) /\ has r "param_k_switch" (IVal (VFloat k)).

(** The row sums up a search of so many trials, all completed, of which r is the best. *)
Definition row_sums_up (s : row) (total : nat) (best : tuned) : Prop :=
  keys_are s ["optimization_completed"; "total_trials"; "completed_trials"; "pruned_trials"; "failed_trials"; "pruning_efficiency";
              "best_objective_score"; "best_trial_number"; "best_d_thr_factor"; "best_k_switch"] /\
  has s "optimization_completed" (IBool true) /\ has s "total_trials" (INat total) /\ has s "completed_trials" (INat total) /\
  has s "pruned_trials" (INat 0) /\ has s "failed_trials" (INat 0) /\ has s "pruning_efficiency" (INum (Some 0)) /\
  has s "best_objective_score" (INum (Some (tu_score best))) /\ has s "best_trial_number" (INat (tu_number best)) /\
  (forall v, tu_params best "d_thr_factor" = Some v -> has s "best_d_thr_factor" (IVal v)) /\
  (forall v, tu_params best "k_switch" = Some v -> has s "best_k_switch" (IVal v)).

(** evaluated of SpecTune, with the outcome of each start: st are the statistics and [trials] the starts drawn with seed 42 with
    their verdicts, planned without any cache for the base configuration with the values d and k. *)
Definition evaluated_each (proj : tt_self -> ttq -> act -> act) (guide : tt_self -> ttq -> ttq) (base : dict) (rg : prng)
  (ng : np_rng) (num : nat) (d k : R) (st : statistics) (trials : list (trial * bool)) : Prop :=
  exists c s results, tuned_from base c (VFloat d) (VFloat k) /\
    (forall t r s' x0, create_trial_environment (trial_args c) t = Ok r -> tt_of_robot r = Some (s', x0) -> s' = s) /\
    tt_statistics (trial_args c) (fun _ => proj s) (fun _ => guide s) (fun _ _ _ => 0) (fun _ => 0) (planner_cfg c) rg ng num 42
      = Ok (results, st) /\
    trials = combine (fst (sample_initial_conditions ng num 42)) (map v_success results) /\
    length results = length (fst (sample_initial_conditions ng num 42)).
