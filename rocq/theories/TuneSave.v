(** * TuneSave: the result file of the hyperparameter search (tests/tune_mbd.py:38-91, 348-460, 504-530).

    The file system is a map from paths to saved records. Not modelled: the text of the JSON file (every value put into
    it is a string, a number, a Boolean or a list or dictionary of such values, so json.dump does not fail), the times
    stored with a trial, W&B (TuneWandb.v), opening the file failing. *)
From Coq Require Import String.
From Verif Require Import Base Params Geom TT2d Rollout Demo EnvModel Setup Stats Config Cache CacheInst Planner Tune.
Local Open Scope string_scope.
Local Open Scope list_scope.
Open Scope R_scope.

(** The fields kept by _config_to_dict (tune_mbd.py:74-91), in order. *)
Definition kept_fields : list string := [
  "env_name"; "case"; "Nsample"; "Hsample"; "Ndiffuse"; "motion_preference"; "enable_demo";
  "l1"; "l2"; "lh"; "lf1"; "lr"; "lf2"; "lr2"; "tractor_width"; "trailer_width"; "v_max"; "delta_max_deg" ].
(** _config_to_dict (tune_mbd.py:74-91): a missing attribute raises AttributeError. *)
Fixpoint config_to_dict (c : dict) (ks : list string) : Res (list (string * val)) :=
  match ks with
  | [] => Ok []
  | k :: rest =>
      match c k with
      | None => Err AttributeError
      | Some v => match config_to_dict c rest with Err e => Err e | Ok m => Ok ((k, v) :: m) end
      end
  end.

(** DiffusionOptimizer (tune_mbd.py:38-72): base_config, num_trials_per_eval, study_name, optimization_results. *)
Record tuner : Type := mkTuner { tn_base : dict; tn_evals : nat; tn_study : string; tn_results : list tuned }.
Definition new_tuner (base : dict) (evals : nat) (study : string) : tuner := mkTuner base evals study [].
(** An Optuna study: the number of its trials and the completed ones. *)
Record study : Type := mkStudy { sd_trials : nat; sd_done : list tuned }.

(** The dictionary of save_results (tune_mbd.py:445-453). *)
Record saved : Type := mkSaved {
  sv_study : string; sv_best_number : nat; sv_best_score : R; sv_best_params : dict; sv_trials : nat;
  sv_base : list (string * val); sv_all : list tuned }.
Definition files : Type := string -> option saved.

(** save_results (tune_mbd.py:443-458): the dictionary is complete before the file is opened. *)
Definition save_results (fs : files) (t : tuner) (s : study) (path : string) : files * Res unit :=
  match best_trial (sd_done s) with
  | Err e => (fs, Err e)
  | Ok b =>
      match config_to_dict (tn_base t) kept_fields with
      | Err e => (fs, Err e)
      | Ok base =>
          (fun p => if String.eqb p path
                    then Some (mkSaved (tn_study t) (tu_number b) (tu_score b) (tu_params b) (sd_trials s) base (tn_results t))
                    else fs p,
           Ok tt)
      end
  end.

Section Save.
Variable cls : string -> methods (tt_self * ttq) (list refrow) ttq.
Let W := world (tt_self * ttq) (list refrow) ttq.
Variables (rg : prng) (ng : np_rng).

(** run_optimization (tune_mbd.py:348-441) as a method: a new study each time (394-400), the results appended to the list
    of the object (324), also those before an exception. *)
Definition optimise (t : tuner) (procs : nat -> W) (sampler : list tuned -> nat * nat) (worse : nat -> bool)
  (n_trials ran : nat) : tuner * Res study :=
  let '(l, r) := optimize cls (tn_base t) rg ng (tn_evals t) procs sampler worse (Nat.min n_trials ran) 0 [] in
  (mkTuner (tn_base t) (tn_evals t) (tn_study t) (tn_results t ++ l),
   match r with
   | Err e => Err e
   | Ok _ => match best_trial l with Err e => Err e | Ok _ => Ok (mkStudy (Nat.min n_trials ran) l) end
   end).

(** main (tune_mbd.py:504-530), without W&B (with it: TuneWandb.v); [ran] trials are started before the timeout of 20 hours. *)
Definition tune_main (fs : files) (procs : nat -> W) (sampler : list tuned -> nat * nat) (worse : nat -> bool) (ran : nat)
  : files * Res unit :=
  let '(t, r) := optimise (new_tuner base_config 100 "mbd_parking_optimization") procs sampler worse 100 ran in
  match r with Err e => (fs, Err e) | Ok s => save_results fs t s "mbd_optimization_results.json" end.
End Save.
