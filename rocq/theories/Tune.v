(** * Tune: tests/tune_mbd.py, the hyperparameter search.

    Optuna is represented by what the code uses of it: suggest_float returns a point of the grid (which
    one is the sampler's choice, an arbitrary function of the results so far), the median pruner's test,
    the loop of study.optimize with one job, and best_trial. Not modelled: W&B (use_wandb = False; with it: TuneWandb.v), printing,
    the timing fields of the stored results, n_jobs > 1. The evaluated robots are those of Stats.v (class
    TractorTrailer2d). *)
From Coq Require Import String.
From Verif Require Import Base Params Geom TT2d Rollout Demo EnvModel Setup Stats Config Cache CacheInst Planner.
Local Open Scope string_scope.
Local Open Scope list_scope.
Open Scope R_scope.

(** Where a keyword argument of a constructor call comes from. *)
Inductive source : Type := FromBase | FromParams | Fixed (v : val).

(** The keyword arguments of the MBDConfig call of create_config_with_params (tune_mbd.py:189-258), in order. *)
Definition tune_kwargs : list (string * source) := [
  ("seed", FromBase); ("env_name", FromBase); ("case", FromBase); ("verbose", FromBase);
  ("Nsample", FromBase); ("Hsample", FromBase); ("Ndiffuse", FromBase); ("temp_sample", FromBase);
  ("beta0", FromBase); ("betaT", FromBase); ("enable_demo", FromBase); ("motion_preference", FromBase);
  ("collision_penalty", FromBase); ("hitch_penalty", FromBase);
  ("enable_shielded_rollout_collision", FromBase); ("enable_shielded_rollout_hitch", FromBase);
  ("enable_projection", FromBase); ("enable_guidance", FromBase);
  ("reward_threshold", FromBase); ("ref_reward_threshold", FromBase); ("max_w_theta", FromBase);
  ("hitch_angle_weight", FromBase);
  ("l1", FromBase); ("l2", FromBase); ("lh", FromBase); ("lf1", FromBase); ("lr", FromBase); ("lf2", FromBase);
  ("lr2", FromBase); ("tractor_width", FromBase); ("trailer_width", FromBase);
  ("v_max", FromBase); ("delta_max_deg", FromBase); ("a_max", FromBase); ("omega_max", FromBase);
  ("terminal_reward_threshold", FromBase); ("terminal_reward_weight", FromBase);
  ("d_thr_factor", FromParams); ("k_switch", FromParams);
  ("steering_weight", FromBase); ("preference_penalty_weight", FromBase); ("heading_reward_weight", FromBase);
  ("ref_pos_weight", FromBase); ("ref_theta1_weight", FromBase); ("ref_theta2_weight", FromBase);
  ("render", Fixed (VBool false)); ("save_animation", Fixed (VBool false)); ("show_animation", Fixed (VBool false));
  ("save_denoising_animation", Fixed (VBool false)); ("frame_skip", FromBase); ("dt", FromBase) ].

(** Evaluation of the arguments, left to right: a missing attribute of the base configuration raises
    AttributeError, a missing key of params KeyError. *)
Fixpoint tune_eval (base params : dict) (ks : list (string * source)) : Res (list (string * val)) :=
  match ks with
  | [] => Ok []
  | (k, s) :: rest =>
      let v := match s with
               | FromBase => match base k with Some v => Ok v | None => Err AttributeError end
               | FromParams => match params k with Some v => Ok v | None => Err KeyError end
               | Fixed v => Ok v
               end in
      match v with
      | Err e => Err e
      | Ok v => match tune_eval base params rest with Err e => Err e | Ok m => Ok ((k, v) :: m) end
      end
  end.
(** The attributes of a configuration object made with keyword arguments [m]: the dataclass default for every
    field not passed (mbd_planner.py:50-117). *)
Definition with_defaults (m : list (string * val)) : dict := fun key =>
  match lookup m key with
  | Some v => Some v
  | None => lookup (map (fun f => (fst (fst f), snd f)) dataclass_fields) key
  end.
(** create_config_with_params (tune_mbd.py:172-258); the dictionary built in lines 183-186 is not used. *)
Definition create_config_with_params (base params : dict) : Res dict :=
  match tune_eval base params tune_kwargs with Err e => Err e | Ok m => Ok (with_defaults m) end.

(** Attributes as numbers, integers, booleans and strings; attributes of another kind are not represented
    (they read as 0, false or ""). *)
Definition num (c : dict) (k : string) : R :=
  match c k with Some (VFloat x) => x | Some (VInt z) => IZR z | Some (VBool b) => b2r b | _ => 0 end.
Definition int (c : dict) (k : string) : Z :=
  match c k with Some (VInt z) => z | Some (VBool b) => if b then 1%Z else 0%Z | _ => 0%Z end.
Definition flag (c : dict) (k : string) : bool :=
  match c k with Some (VBool b) => b | Some (VInt z) => negb (Z.eqb z 0) | _ => false end.
Definition text (c : dict) (k : string) : string := match c k with Some (VStr s) => s | _ => "" end.

(** The get_env arguments of create_trial_environment (stat_mbd.py:222-266); env_config is added in Stats.v. *)
Definition trial_args (c : dict) : env_args := {|
  g_name := text c "env_name"; g_case := text c "case"; g_env := None; g_dt := num c "dt";
  g_H := Z.to_nat (int c "Hsample"); Setup.g_motion := int c "motion_preference";
  g_coll_pen := num c "collision_penalty"; g_hitch_pen := num c "hitch_penalty";
  g_sh_coll := flag c "enable_shielded_rollout_collision"; g_sh_hitch := flag c "enable_shielded_rollout_hitch";
  g_proj := flag c "enable_projection"; Setup.g_guid := flag c "enable_guidance";
  g_rew_thr := num c "reward_threshold"; g_ref_thr := num c "ref_reward_threshold"; g_max_w := num c "max_w_theta";
  g_hitch_w := num c "hitch_angle_weight"; g_l1 := num c "l1"; g_l2 := num c "l2"; g_lh := num c "lh";
  g_lf1 := num c "lf1"; g_lr := num c "lr"; g_lf2 := num c "lf2"; g_lr2 := num c "lr2";
  g_trac_w := num c "tractor_width"; g_trail_w := num c "trailer_width"; g_vmax := num c "v_max";
  g_ddeg := num c "delta_max_deg"; g_d_fac := num c "d_thr_factor"; g_kswitch := num c "k_switch";
  g_steer_w := num c "steering_weight"; g_pref_w := num c "preference_penalty_weight";
  g_head_w := num c "heading_reward_weight"; g_term_thr := num c "terminal_reward_threshold";
  g_term_w := num c "terminal_reward_weight"; g_rpos_w := num c "ref_pos_weight";
  g_rth1_w := num c "ref_theta1_weight"; g_rth2_w := num c "ref_theta2_weight"; g_amax := num c "a_max";
  g_omax := num c "omega_max"; g_trailers := int c "num_trailers" |}.
(** The fields of the configuration that run_diffusion reads (mbd_planner.py:189-751). *)
Definition planner_cfg (c : dict) : cfg :=
  mkCfg (int c "seed") (Z.to_nat (int c "Nsample")) (Z.to_nat (int c "Hsample")) (Z.to_nat (int c "Ndiffuse"))
    (num c "temp_sample") (num c "beta0") (num c "betaT") (flag c "enable_demo") (int c "motion_preference")
    (flag c "enable_guidance").

(** define_hyperparameter_space (tune_mbd.py:135-170): suggest_float(name, 0.5, 5.0, step=0.5) for both
    parameters; [i] is the sampler's choice of the grid point. *)
Definition suggest (i : nat) : R := 5/10 + 5/10 * INR (Nat.min i 9).
Definition hyperparameters (ij : nat * nat) : dict := fun k =>
  if String.eqb k "d_thr_factor" then Some (VFloat (suggest (fst ij)))
  else if String.eqb k "k_switch" then Some (VFloat (suggest (snd ij)))
  else None.

(** should_prune with MedianPruner(n_startup_trials=15, n_warmup_steps=1, interval_steps=1) (tune_mbd.py:389-393)
    for a trial whose last reported step is [step]; [worse] is the comparison with the median. *)
Definition should_prune (completed step : nat) (worse : bool) : bool :=
  if Nat.ltb completed 15 then false else if Nat.ltb step 1 then false else worse.

(** The dictionary stored for a trial (tune_mbd.py:309-322), without the times. *)
Record tuned : Type := mkTuned {
  tu_number : nat; tu_params : dict; tu_success : R; tu_error : option R; tu_coll : option R; tu_jack : option R;
  tu_safety : option R; tu_score : R; tu_successful : nat; tu_num : nat }.
(** safety (tune_mbd.py:293); nan if a rate is nan. *)
Definition safety (coll jack : option R) : option R :=
  match coll, jack with Some c, Some j => Some (1 - (c + j) / 2) | _, _ => None end.

Section Tuner.
Variable cls : string -> methods (tt_self * ttq) (list refrow) ttq.
Let W := world (tt_self * ttq) (list refrow) ttq.
Variables (base : dict) (rg : prng) (ng : np_rng) (num_eval : nat).

(** objective_function (tune_mbd.py:260-346) in a process [w]; the returned value is tu_score. [None]: the
    trial was pruned. *)
Definition objective (w : W) (number completed : nat) (worse : bool) (params : dict) : Res (option tuned) :=
  match create_config_with_params base params with
  | Err e => Err e
  | Ok c =>
      let w1 := clear_cache w in
      match tt_cached_trials cls w1 (trial_args c) (planner_cfg c) rg (fst (sample_initial_conditions ng num_eval 42)) with
      | Err e => Err e
      | Ok results =>
          match summarize num_eval results with
          | Err e => Err e
          | Ok st =>
              if should_prune completed 0 worse then Ok None
              else Ok (Some (mkTuned number params (sr_success_rate st) (sr_position_error st) (sr_collision_rate st)
                               (sr_jackknife_rate st) (safety (sr_collision_rate st) (sr_jackknife_rate st))
                               (sr_success_rate st) (sr_successful st) num_eval))
          end
      end
  end.

(** study.optimize (tune_mbd.py:402-408), one job: [left] further trials, each in some process [procs number] (the
    process in which the earlier trials ran); the sampler chooses the parameters from the stored results. An
    exception other than TrialPruned ends the loop and is raised. The first component is optimization_results. *)
Fixpoint optimize (procs : nat -> W) (sampler : list tuned -> nat * nat) (worse : nat -> bool)
  (left number : nat) (done : list tuned) : list tuned * Res unit :=
  match left with
  | O => (done, Ok tt)
  | S left' =>
      match objective (procs number) number (length done) (worse number) (hyperparameters (sampler done)) with
      | Err e => (done, Err e)
      | Ok None => optimize procs sampler worse left' (S number) done
      | Ok (Some r) => optimize procs sampler worse left' (S number) (done ++ [r])
      end
  end.

(** study.best_trial for direction='maximize': the first of the completed trials with the largest value;
    ValueError if there is none. *)
Fixpoint best_from (b : tuned) (l : list tuned) : tuned :=
  match l with [] => b | r :: rest => best_from (if Rltb (tu_score b) (tu_score r) then r else b) rest end.
Definition best_trial (l : list tuned) : Res tuned :=
  match l with [] => Err ValueError | r :: rest => Ok (best_from r rest) end.

(** run_optimization (tune_mbd.py:348-441): all results and the best one. [ran] is the number of trials started
    before the timeout. *)
Definition run_optimization (procs : nat -> W) (sampler : list tuned -> nat * nat) (worse : nat -> bool)
  (n_trials ran : nat) : Res (list tuned * tuned) :=
  let '(l, r) := optimize procs sampler worse (Nat.min n_trials ran) 0 [] in
  match r with
  | Err e => Err e
  | Ok _ => match best_trial l with Err e => Err e | Ok b => Ok (l, b) end
  end.
End Tuner.

(** create_base_config (tune_mbd.py:461-500). *)
Definition base_config : dict := with_defaults [
  ("env_name", VStr "tt2d"); ("case", VStr "parking"); ("motion_preference", VInt 0); ("enable_demo", VBool false);
  ("Nsample", VInt 20000); ("Hsample", VInt 50); ("Ndiffuse", VInt 100); ("beta0", VFloat (1/100000));
  ("betaT", VFloat (1/100)); ("collision_penalty", VFloat (15/100)); ("hitch_penalty", VFloat (10/100));
  ("preference_penalty_weight", VFloat (5/10)); ("heading_reward_weight", VFloat (5/10));
  ("temp_sample", VFloat (1/100000)); ("reward_threshold", VFloat 50); ("terminal_reward_threshold", VFloat 20);
  ("terminal_reward_weight", VFloat 5); ("steering_weight", VFloat (1/100)); ("d_thr_factor", VFloat 1);
  ("k_switch", VFloat (25/10)); ("hitch_angle_weight", VFloat (1/100)); ("render", VBool false);
  ("save_animation", VBool false); ("show_animation", VBool false); ("save_denoising_animation", VBool false);
  ("verbose", VBool false) ].
