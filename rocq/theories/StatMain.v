(** * StatMain: the script part of tests/stat_mbd.py (608-659) and run_statistical_evaluation with the JIT cache.

    Not modelled: logging and printing, the picture files, plt.show, the computation times. *)
From Coq Require Import String.
From Verif Require Import Base Params Geom TT2d Rollout Demo EnvModel Setup Stats Config Cache CacheInst Planner Tune Anim Picture.
Local Open Scope string_scope.
Local Open Scope list_scope.
Open Scope R_scope.

(** The configuration of main (stat_mbd.py:615-645). *)
Definition stat_config : dict := with_defaults [
  ("env_name", VStr "tt2d"); ("case", VStr "parking"); ("motion_preference", VInt 0); ("enable_demo", VBool false);
  ("Nsample", VInt 20000); ("Hsample", VInt 50); ("Ndiffuse", VInt 100);
  ("render", VBool false); ("save_animation", VBool false); ("show_animation", VBool false);
  ("save_denoising_animation", VBool false); ("verbose", VBool false);
  ("enable_shielded_rollout_collision", VBool true); ("enable_shielded_rollout_hitch", VBool true);
  ("enable_projection", VBool false); ("enable_guidance", VBool false);
  ("terminal_reward_weight", VFloat 5); ("terminal_reward_threshold", VFloat 20); ("temp_sample", VFloat (1/100000));
  ("steering_weight", VFloat (1/100)); ("reward_threshold", VFloat 50); ("k_switch", VFloat 3);
  ("hitch_angle_weight", VFloat (1/100)); ("d_thr_factor", VFloat 1); ("num_trailers", VInt 1) ].

Section Script.
Variable cls : string -> methods (tt_self * ttq) (list refrow) ttq.
Variables (rg : prng) (ng : np_rng).

(** run_statistical_evaluation(config, num, seed, show_heat_map=True) (stat_mbd.py:351-507) in a process [w] for a
    configuration whose robot is a TractorTrailer2d: the individual results, the statistics and the heat map, which is
    drawn with the environment of the last trial. *)
Definition evaluation_in (w : world (tt_self * ttq) (list refrow) ttq) (c : dict) (n : nat) (seed : Z)
  : Res (list verdict * statistics * heat) :=
  let ts := fst (sample_initial_conditions ng n seed) in
  match tt_cached_trials cls w (trial_args c) (planner_cfg c) rg ts with
  | Err x => Err x
  | Ok results =>
      match summarize n results with
      | Err x => Err x
      | Ok st =>
          match rev ts with
          | [] => Err UnboundLocalError
          | t :: _ =>
              match create_trial_environment (trial_args c) t with
              | Err x => Err x
              | Ok r => match heat_map r (zip ts (map v_success results)) with
                        | Err x => Err x
                        | Ok (_, hm) => Ok (results, st, hm)
                        end
              end
          end
      end
  end.
(** main (stat_mbd.py:608-659). *)
Definition stat_main (w : world (tt_self * ttq) (list refrow) ttq) : Res (list verdict * statistics * heat) :=
  evaluation_in w stat_config 100 42.
End Script.
