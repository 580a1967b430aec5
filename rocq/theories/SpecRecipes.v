(** * SpecRecipes: vocabulary for the scripts and README recipes. Uses data types of the model only. *)
From Coq Require Import String Reals List ZArith.
From Verif Require Import Base Params Config EnvModel TT2d Bicycle NTrailer Setup Tune Instances SpecBodies Planner.
Import ListNotations.
Local Open Scope string_scope.
Local Open Scope list_scope.
Open Scope R_scope.

(** The named fields have the values MBDConfig() gives them. *)
Definition keeps (fields : list string) (c : dict) : Prop :=
  forall f t v, In f fields -> In (f, t, v) dataclass_fields -> c f = Some v.
(** The fields that describe the scenario and the shape of the vehicle. *)
Definition lot_and_vehicle : list string :=
  ["case"; "l1"; "l2"; "lh"; "lf1"; "lr"; "lf2"; "lr2"; "tractor_width"; "trailer_width"].
(** The configuration MBDConfig(). *)
Definition unedited (c : dict) : Prop := forall f t v, In (f, t, v) dataclass_fields -> c f = Some v.

(** The robot starts in a safe pose, and at rest with straight wheels if it has a speed and a steering angle. *)
Definition starts_safe (r : robot) : Prop :=
  match rb_kind r with
  | KTT => exists q, rb_x0 r = Some [t_px q; t_py q; t_th1 q; t_th2 q] /\ tt_safe (rb_p r) (rb_circ r) (rb_rect r) q
  | KBK => exists q, rb_x0 r = Some [b_px q; b_py q; b_th q] /\ bk_safe (rb_p r) (rb_circ r) (rb_rect r) q
  | KNT => exists q, rb_x0 r = Some (n_px q :: n_py q :: n_th0 q :: n_ths q) /\ length (n_ths q) = p_num_trailers (rb_p r) /\
             forall xg, nt_safe (mkNTSelf (rb_p r) (rb_len r) (rb_front r) (rb_rear r) (rb_circ r) (rb_rect r) xg) q
  | KACC => exists q, rb_x0 r = Some [t_px q; t_py q; t_th1 q; t_th2 q; 0; 0] /\ tt_safe (rb_p r) (rb_circ r) (rb_rect r) q
  end.

(** The obstacles are those of a new environment of the given scenario. *)
Definition fresh_obstacles (case : string) (r : robot) : Prop :=
  exists e, env_init 32 32 case None = Ok e /\ rb_circ r = e_circles e /\ rb_rect r = e_rects e.

(** Planning for the robot with configuration c returns a trajectory all of whose states are safe, whatever the random
    numbers: the three classes without acceleration control. (proj, guide, logpd and rx stand for the parts of the
    robot object that projection, guidance and demonstrations use.) *)
Definition plans_safely (c : dict) (r : robot) : Prop :=
  (rb_kind r = KTT -> exists x0 xg, rb_x0 r = Some [t_px x0; t_py x0; t_th1 x0; t_th2 x0] /\ rb_xg r = Some [t_px xg; t_py xg; t_th1 xg; t_th2 xg] /\
     forall proj guide logpd rx rg, exists out,
     run_diffusion (tt_penv (mkTTSelf (rb_p r) (rb_circ r) (rb_rect r) xg) x0 proj guide logpd rx) (Some (planner_cfg c)) rg = Ok out /\
     Forall (tt_safe (rb_p r) (rb_circ r) (rb_rect r)) (o_traj out)) /\
  (rb_kind r = KBK -> exists x0 xg, rb_x0 r = Some [b_px x0; b_py x0; b_th x0] /\ rb_xg r = Some [b_px xg; b_py xg; b_th xg] /\
     forall proj guide logpd rx rg, exists out,
     run_diffusion (bk_penv (mkBKSelf (rb_p r) (rb_circ r) (rb_rect r) xg) x0 proj guide logpd rx) (Some (planner_cfg c)) rg = Ok out /\
     Forall (bk_safe (rb_p r) (rb_circ r) (rb_rect r)) (o_traj out)) /\
  (rb_kind r = KNT -> exists x0 xg, rb_x0 r = Some (n_px x0 :: n_py x0 :: n_th0 x0 :: n_ths x0) /\ rb_xg r = Some (n_px xg :: n_py xg :: n_th0 xg :: n_ths xg) /\
     let s := mkNTSelf (rb_p r) (rb_len r) (rb_front r) (rb_rear r) (rb_circ r) (rb_rect r) xg in
     forall guide logpd rx rg, exists out, nt_run s x0 guide logpd rx (planner_cfg c) rg = Ok out /\ Forall (nt_safe s) (o_traj out)).

(** Parameters whose defaults in get_env differ from those of MBDConfig. *)
Definition differing_defaults : list string :=
  ["reward_threshold"; "ref_reward_threshold"; "max_w_theta"; "hitch_angle_weight"; "steering_weight"; "preference_penalty_weight";
   "terminal_reward_threshold"; "terminal_reward_weight"; "ref_pos_weight"; "ref_theta1_weight"; "ref_theta2_weight"].
