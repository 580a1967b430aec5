(** * Recipes: the scripts and recipes a user starts from: the main block of mbd_planner.py, the snippets of
    README.md and the example tests/test_mbd.py. Only the part before run_diffusion is modelled here (the call itself
    is Planner.run_diffusion); printing, logging and rendering are not. *)
From Coq Require Import String Reals List ZArith.
From Verif Require Import Base Params Config EnvModel Setup Tune.
Import ListNotations.
Local Open Scope string_scope.
Local Open Scope list_scope.
Open Scope R_scope.

(** A script ends with the exception of the first setter that raises. *)
Definition andthen (x : robot * Res unit) (k : robot -> Res robot) : Res robot :=
  match x with (r, Ok _) => k r | (_, Err e) => Err e end.

(** The get_env call of the main block (mbd_planner.py:775-818). *)
Definition main_args (c : dict) : env_args := {|
  g_name := text c "env_name"; g_case := text c "case"; g_env := None; g_dt := num c "dt";
  g_H := Z.to_nat (int c "Hsample"); g_motion := int c "motion_preference";
  g_coll_pen := num c "collision_penalty"; g_sh_coll := flag c "enable_shielded_rollout_collision";
  g_hitch_pen := num c "hitch_penalty"; g_sh_hitch := flag c "enable_shielded_rollout_hitch";
  g_proj := flag c "enable_projection"; g_guid := flag c "enable_guidance";
  g_rew_thr := num c "reward_threshold"; g_ref_thr := num c "ref_reward_threshold"; g_max_w := num c "max_w_theta";
  g_hitch_w := num c "hitch_angle_weight"; g_l1 := num c "l1"; g_l2 := num c "l2"; g_lh := num c "lh";
  g_lf1 := num c "lf1"; g_lr := num c "lr"; g_lf2 := num c "lf2"; g_lr2 := num c "lr2";
  g_trac_w := num c "tractor_width"; g_trail_w := num c "trailer_width"; g_vmax := num c "v_max";
  g_ddeg := num c "delta_max_deg"; g_amax := num c "a_max"; g_omax := num c "omega_max";
  g_d_fac := num c "d_thr_factor"; g_kswitch := num c "k_switch"; g_steer_w := num c "steering_weight";
  g_pref_w := num c "preference_penalty_weight"; g_head_w := num c "heading_reward_weight";
  g_term_thr := num c "terminal_reward_threshold"; g_term_w := num c "terminal_reward_weight";
  g_rpos_w := num c "ref_pos_weight"; g_rth1_w := num c "ref_theta1_weight"; g_rth2_w := num c "ref_theta2_weight";
  g_trailers := int c "num_trailers" |}.

(** A setter call with the geometric keywords of set_init_pos. *)
Definition start_at (dx dy th1 th2 : R) : init_args := mkInit None None (Some dx) (Some dy) th1 th2 0 0.

(** The robot the main block plans for (mbd_planner.py:774-831); [c] is the configuration object, MBDConfig() with
    the edits a user makes. *)
Definition script_setup (c : dict) : Res robot :=
  match get_env (main_args c) with
  | Err x => Err x
  | Ok r0 =>
      andthen (set_init_pos r0 (start_at 3 5 0 0)) (fun r1 =>
      andthen (if Z.ltb 1 (int c "num_trailers") then set_init_pos r1 (start_at 25 15 (- PI / 8) 0) else (r1, Ok tt)) (fun r2 =>
      andthen (if Z.eqb (int c "motion_preference") (-2) then set_init_pos r2 (start_at (-12) 1 PI PI) else (r2, Ok tt)) (fun r3 =>
      andthen (if Z.eqb (int c "motion_preference") (-1) || Z.eqb (int c "motion_preference") (-2)
               then set_goal_pos r3 (mkGoal None None (Some (PI / 2)) (Some (PI / 2)) 0 0) else (r3, Ok tt)) (fun r4 => Ok r4))))
  end.

(** get_env with its default arguments except time step and horizon. *)
Definition timed (g : env_args) (dt : R) (H : nat) (e : option env_obj) : env_args := {|
  g_name := g_name g; g_case := g_case g; g_env := e; g_dt := dt; g_H := H; g_motion := g_motion g;
  g_coll_pen := g_coll_pen g; g_hitch_pen := g_hitch_pen g; g_sh_coll := g_sh_coll g; g_sh_hitch := g_sh_hitch g;
  g_proj := g_proj g; g_guid := g_guid g; g_rew_thr := g_rew_thr g; g_ref_thr := g_ref_thr g; g_max_w := g_max_w g;
  g_hitch_w := g_hitch_w g; g_l1 := g_l1 g; g_l2 := g_l2 g; g_lh := g_lh g; g_lf1 := g_lf1 g; g_lr := g_lr g;
  g_lf2 := g_lf2 g; g_lr2 := g_lr2 g; g_trac_w := g_trac_w g; g_trail_w := g_trail_w g; g_vmax := g_vmax g;
  g_ddeg := g_ddeg g; g_d_fac := g_d_fac g; g_kswitch := g_kswitch g; g_steer_w := g_steer_w g; g_pref_w := g_pref_w g;
  g_head_w := g_head_w g; g_term_thr := g_term_thr g; g_term_w := g_term_w g; g_rpos_w := g_rpos_w g;
  g_rth1_w := g_rth1_w g; g_rth2_w := g_rth2_w g; g_amax := g_amax g; g_omax := g_omax g; g_trailers := g_trailers g |}.

(** "Select via MBDConfig" (README.md:95-107). *)
Definition readme_args (c : dict) : env_args :=
  timed (default_env_args (text c "env_name") (text c "case") (int c "num_trailers")) (num c "dt") (Z.to_nat (int c "Hsample")) None.
Definition readme_setup (c : dict) : Res robot := get_env (readme_args c).

(** "Setting start/goal (parking scenario)" (README.md:120-128) after that. *)
Definition readme_start_goal (c : dict) : Res robot :=
  match readme_setup c with
  | Err x => Err x
  | Ok r0 =>
      andthen (set_init_pos r0 (start_at 2 1 0 0)) (fun r1 =>
      andthen (set_goal_pos r1 (mkGoal None None (Some (- PI / 2)) (Some (- PI / 2)) 0 0)) (fun r2 => Ok r2))
  end.

(** "To choose a different space pair" (README.md:134-142): the dictionary of an existing Env object is edited; [l]
    is the new value of 'target_spaces' ([4; 12] in the README). *)
Definition put_targets (e : env_obj) (l : list Z) : env_obj :=
  mkEnv (e_case e) (e_xr e) (e_yr e)
    (option_map (fun c => mkParking (pk_rows c) (pk_cols c) (pk_w c) (pk_len c) (pk_yoff c) (pk_occ c) l (pk_rad c)) (e_parking e))
    (e_circles e) (e_rects e).
Definition readme_targets (c : dict) (l : list Z) : Res robot :=
  match env_init 32 32 "parking" None with
  | Err x => Err x
  | Ok e => get_env (timed (default_env_args (text c "env_name") "parking" 1) (num c "dt") (Z.to_nat (int c "Hsample")) (Some (put_targets e l)))
  end.

(** The configuration of the example script (test_mbd.py:22-32). *)
Definition example_config : dict := with_defaults [
  ("env_name", VStr "acc_tt2d"); ("case", VStr "navigation"); ("Nsample", VInt 20000); ("Hsample", VInt 50);
  ("Ndiffuse", VInt 100); ("render", VBool true); ("save_animation", VBool false); ("show_animation", VBool true);
  ("save_denoising_animation", VBool false) ].

(** Its obstacles (test_mbd.py:54-81), with parking_x = 5, parking_y = -5, width 2.5 and length 5. *)
Definition example_rects : list (list R) := [
  [5 - 5/2 - 1; -5; 1; 5 * 2; 0];
  [5; -5 - 5 - 1; 5/2 * 2 + 4; 1; 0];
  [5 - 5/2 - 6; -5; 1; 5 * 2; - PI / 4];
  [5 - 5/2 - 6; -5 + 18; 12/10; 5 * 2; PI / 4];
  [5 - 5/2 - 12; -5 + 18; 8/10; 5; - PI / 6] ].
Definition example_circles : list (list R) := [
  [5 + 5/2 + 0; -5 + 3; 1];
  [5 + 5/2 + 0; -5 - 3; 2];
  [5 + 5/2 + 1; -5; 3/2];
  [5 + 5/2 + 1; -5 + 12; 7/2] ].

(** The robot the example plans for (test_mbd.py:38-102). *)
Definition example_setup : Res robot :=
  match env_init 32 32 "navigation" None with
  | Err x => Err x
  | Ok e =>
      match get_env (timed (default_env_args (text example_config "env_name") (text example_config "case") 1)
                       (num example_config "dt") (Z.to_nat (int example_config "Hsample")) (Some e)) with
      | Err x => Err x
      | Ok r0 =>
          andthen (set_rectangle_obs r0 example_rects "center" 0) (fun r1 =>
          andthen (set_circle_obs r1 example_circles 0) (fun r2 =>
          andthen (set_init_pos r2 (mkInit (Some (-10)) (Some 5) None None 0 0 0 0)) (fun r3 =>
          andthen (set_goal_pos r3 (mkGoal (Some 5) (Some (-5)) (Some (- PI / 2)) (Some (- PI / 2)) 0 0)) (fun r4 => Ok r4))))
      end
  end.
