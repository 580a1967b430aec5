(** * TuneWandb: what the hyperparameter search sends to Weights & Biases (tests/tune_mbd.py with use_wandb=True).

    The run is the list of the calls made, in order. Not modelled: the dashboard itself (a failing or unreachable
    service), the time in the name of the run (a parameter), the times avg_pure_diffusion_time and compute_time of a row,
    the pixels of the picture (its content is the heat map of Picture.v), closing the figure, printing, n_jobs > 1. *)
From Coq Require Import String.
From Verif Require Import Base Params Geom TT2d Rollout Demo EnvModel Setup Stats Config Cache CacheInst Planner Anim Picture Tune TuneSave.
Local Open Scope string_scope.
Local Open Scope list_scope.
Open Scope R_scope.

(** A value of a row; INum None is nan. *)
Inductive item : Type :=
  | INat (n : nat) | INum (x : option R) | IBool (b : bool) | IVal (v : val) | IImage (m : heat) (title caption : string).
Definition row : Type := list (string * item).
(** The calls wandb.init(name=..., config=...) (tune_mbd.py:64-68), wandb.log(row) (325-339, 429-439), wandb.finish() (530). *)
Inductive event : Type := RunStarted (name : string) (config : list (string * val)) | Logged (r : row) | RunFinished.

(** create_heat_map (tune_mbd.py:93-132): no picture without W&B or without results; otherwise drawn in the environment of the
    first result, under a title. create_heat_map_visualization with return_fig=True always returns a figure. *)
Definition create_heat_map (use_wandb : bool) (c : dict) (results : list (trial * bool)) (number : nat) : Res (option (heat * string)) :=
  if negb use_wandb then Ok None
  else match results with
       | [] => Ok None
       | (t, _) :: _ =>
           match create_trial_environment (trial_args c) t with
           | Err e => Err e
           | Ok r => match heat_map r results with
                     | Err e => Err e
                     | Ok (_, m) => Ok (Some (m, ("Trial " ++ digits number ++ " Performance Heat Map")%string))
                     end
           end
       end.

(** **{f'param_{k}': v for k, v in params.items()} (tune_mbd.py:337), likewise with best_ (438): the keys in the order in which
    define_hyperparameter_space sets them (163-164). *)
Definition prefixed (pre : string) (params : dict) : row :=
  flat_map (fun k => match params k with Some v => [((pre ++ k)%string, IVal v)] | None => [] end) ["d_thr_factor"; "k_switch"].
(** The row of a completed trial (tune_mbd.py:326-338). *)
Definition trial_row (r : tuned) (image : item) : row :=
  [("trial_number", INat (tu_number r)); ("objective_score", INum (Some (tu_score r)));
   ("success_rate", INum (Some (tu_success r))); ("avg_position_error", INum (tu_error r));
   ("collision_rate", INum (tu_coll r)); ("jackknife_rate", INum (tu_jack r)); ("safety", INum (tu_safety r));
   (("heat_map_trial_" ++ digits (tu_number r))%string, image)] ++ prefixed "param_" (tu_params r).

(** What a call of objective_function does: the result it stores, the rows it logs, and how it ends (true: a value is
    returned, false: pruned). *)
Record done_trial : Type := mkDone { dn_stored : list tuned; dn_rows : list row; dn_end : Res bool }.
(** The state of a trial of the study. *)
Inductive trial_state : Type := COMPLETE | PRUNED | FAIL.
Definition is_state (a b : trial_state) : bool :=
  match a, b with COMPLETE, COMPLETE | PRUNED, PRUNED | FAIL, FAIL => true | _, _ => false end.
Definition count_state (a : trial_state) (l : list trial_state) : nat := length (filter (is_state a) l).

(** The row logged at the end of run_optimization (tune_mbd.py:423-439); [b]: study.best_trial. *)
Definition summary_row (states : list trial_state) (b : tuned) : row :=
  [("optimization_completed", IBool true); ("total_trials", INat (length states));
   ("completed_trials", INat (count_state COMPLETE states)); ("pruned_trials", INat (count_state PRUNED states));
   ("failed_trials", INat (count_state FAIL states));
   ("pruning_efficiency", INum (Some (if Nat.ltb 0 (length states) then INR (count_state PRUNED states) / INR (length states) else 0)));
   ("best_objective_score", INum (Some (tu_score b))); ("best_trial_number", INat (tu_number b))]
  ++ prefixed "best_" (tu_params b).

Section Logging.
Variable cls : string -> methods (tt_self * ttq) (list refrow) ttq.
Let W := world (tt_self * ttq) (list refrow) ttq.
Variables (rg : prng) (ng : np_rng).
(** Whether wandb.Image(None) is accepted. *)
Variable image_of_none : Res heat.

(** objective_function (tune_mbd.py:260-346); the results are the pairs of trial_config and success of individual_results. *)
Definition objective_logged (use_wandb : bool) (base : dict) (num_eval : nat) (w : W) (number completed : nat) (worse : bool)
  (params : dict) : done_trial :=
  match create_config_with_params base params with
  | Err e => mkDone [] [] (Err e)
  | Ok c =>
      let w1 := clear_cache w in
      let ts := fst (sample_initial_conditions ng num_eval 42) in
      match tt_cached_trials cls w1 (trial_args c) (planner_cfg c) rg ts with
      | Err e => mkDone [] [] (Err e)
      | Ok results =>
          match summarize num_eval results with
          | Err e => mkDone [] [] (Err e)
          | Ok st =>
              if should_prune completed 0 worse then mkDone [] [] (Ok false)
              else match create_heat_map use_wandb c (combine ts (map v_success results)) number with
                   | Err e => mkDone [] [] (Err e)
                   | Ok fig =>
                       let r := mkTuned number params (sr_success_rate st) (sr_position_error st) (sr_collision_rate st)
                                  (sr_jackknife_rate st) (safety (sr_collision_rate st) (sr_jackknife_rate st))
                                  (sr_success_rate st) (sr_successful st) num_eval in
                       if negb use_wandb then mkDone [r] [] (Ok true)
                       else
                         let caption := ("Trial " ++ digits number ++ " Performance Heat Map")%string in
                         match match fig with
                               | Some (m, title) => Ok (IImage m title caption)
                               | None => match image_of_none with Err e => Err e | Ok m => Ok (IImage m "" caption) end
                               end with
                         | Err e => mkDone [r] [] (Err e)
                         | Ok im => mkDone [r] [trial_row r im] (Ok true)
                         end
                   end
          end
      end
  end.

(** What the trials of a search leave behind. *)
Record ran_trials : Type := mkRan { rt_stored : list tuned; rt_rows : list row; rt_states : list trial_state; rt_end : Res unit }.
(** study.optimize with one job (tune_mbd.py:402-408), as in Tune.v. [completed]: the completed trials of the study so far. *)
Fixpoint optimize_logged (use_wandb : bool) (base : dict) (num_eval : nat) (procs : nat -> W) (sampler : list tuned -> nat * nat)
  (worse : nat -> bool) (left number : nat) (completed : list tuned) : ran_trials :=
  match left with
  | O => mkRan [] [] [] (Ok tt)
  | S left' =>
      let d := objective_logged use_wandb base num_eval (procs number) number (length completed) (worse number)
                 (hyperparameters (sampler completed)) in
      match dn_end d with
      | Err e => mkRan (dn_stored d) (dn_rows d) [FAIL] (Err e)
      | Ok ok =>
          let rest := optimize_logged use_wandb base num_eval procs sampler worse left' (S number)
                        (if ok then completed ++ dn_stored d else completed) in
          mkRan (dn_stored d ++ rt_stored rest) (dn_rows d ++ rt_rows rest)
            ((if ok then COMPLETE else PRUNED) :: rt_states rest) (rt_end rest)
      end
  end.

(** run_optimization (tune_mbd.py:348-441): the object afterwards, the calls, and the study. The lines printed before the summary
    already ask for study.best_trial (416). *)
Definition optimise_logged (use_wandb : bool) (t : tuner) (procs : nat -> W) (sampler : list tuned -> nat * nat) (worse : nat -> bool)
  (n_trials ran : nat) : tuner * list event * Res study :=
  let o := optimize_logged use_wandb (tn_base t) (tn_evals t) procs sampler worse (Nat.min n_trials ran) 0 [] in
  let t' := mkTuner (tn_base t) (tn_evals t) (tn_study t) (tn_results t ++ rt_stored o) in
  let rows := map Logged (rt_rows o) in
  match rt_end o with
  | Err e => (t', rows, Err e)
  | Ok _ =>
      match best_trial (rt_stored o) with
      | Err e => (t', rows, Err e)
      | Ok b => (t', rows ++ (if use_wandb then [Logged (summary_row (rt_states o) b)] else []),
                 Ok (mkStudy (length (rt_states o)) (rt_stored o)))
      end
  end.

(** DiffusionOptimizer.__init__ (tune_mbd.py:42-72); the arguments of wandb.init are evaluated first. [stamp]: the time. *)
Definition new_logged (use_wandb : bool) (base : dict) (evals : nat) (study : string) (stamp : string) : Res (tuner * list event) :=
  if use_wandb then
    match config_to_dict base kept_fields with
    | Err e => Err e
    | Ok m => Ok (new_tuner base evals study, [RunStarted (study ++ "_" ++ stamp)%string m])
    end
  else Ok (new_tuner base evals study, []).

(** main (tune_mbd.py:503-530). *)
Definition main_logged (stamp : string) (fs : files) (procs : nat -> W) (sampler : list tuned -> nat * nat) (worse : nat -> bool) (ran : nat)
  : files * list event * Res unit :=
  match new_logged true base_config 100 "mbd_parking_optimization" stamp with
  | Err e => (fs, [], Err e)
  | Ok (t0, ev0) =>
      let '(t, ev, r) := optimise_logged true t0 procs sampler worse 100 ran in
      match r with
      | Err e => (fs, ev0 ++ ev, Err e)
      | Ok s =>
          let '(fs', r') := save_results fs t s "mbd_optimization_results.json" in
          match r' with
          | Err e => (fs', ev0 ++ ev, Err e)
          | Ok _ => (fs', ev0 ++ ev ++ [RunFinished], Ok tt)
          end
      end
  end.
End Logging.
