(** * SpecEnv: vocabulary for parking lots, obstacle input and API call sequences.
    Uses the model's data types and, for [call], its public setters only. *)
From Coq Require Import Reals List ZArith String.
From Verif Require Import Base Params SpecGeom EnvModel Setup.
Import ListNotations.
Open Scope R_scope.

(** Space [n] is in row [i], column [j] (both from 0) of the lot. *)
Definition numbered (c : parking) (n i j : Z) : Prop :=
  (0 <= i < pk_rows c)%Z /\ (0 <= j < pk_cols c)%Z /\ n = (i * pk_cols c + j + 1)%Z.

(** The numbers painted on the lot. *)
Definition lot_number (c : parking) (n : Z) : Prop := (1 <= n <= pk_rows c * pk_cols c)%Z.

(** The ground covered by the space in row [i], column [j], of a lot centred on x = 0 whose
    bottom edge is at height [b]: closed and open version. *)
Definition space_area (c : parking) (b : R) (i j : Z) (P : point) : Prop :=
  - (IZR (pk_cols c) * pk_w c) / 2 + IZR j * pk_w c <= fst P
    <= - (IZR (pk_cols c) * pk_w c) / 2 + (IZR j + 1) * pk_w c /\
  b + IZR i * pk_len c <= snd P <= b + (IZR i + 1) * pk_len c.
Definition space_interior (c : parking) (b : R) (i j : Z) (P : point) : Prop :=
  - (IZR (pk_cols c) * pk_w c) / 2 + IZR j * pk_w c < fst P
    < - (IZR (pk_cols c) * pk_w c) / 2 + (IZR j + 1) * pk_w c /\
  b + IZR i * pk_len c < snd P < b + (IZR i + 1) * pk_len c.
(** The whole lot, without its boundary. *)
Definition lot_interior (c : parking) (b : R) (P : point) : Prop :=
  - (IZR (pk_cols c) * pk_w c) / 2 < fst P < IZR (pk_cols c) * pk_w c / 2 /\
  b < snd P < b + IZR (pk_rows c) * pk_len c.

(** Spaces that exist and have a size. *)
Definition proper_lot (c : parking) : Prop := (0 < pk_rows c)%Z /\ (0 < pk_cols c)%Z /\ 0 < pk_w c /\ 0 < pk_len c.

(** A call to one of the robot's public setters; [call] is the object afterwards,
    whether or not the call raised. *)
Inductive op : Type :=
| OpInit (a : init_args) | OpGoal (a : goal_args)
| OpRects (l : list (list R)) (mode : string) (pad : R) | OpCircles (l : list (list R)) (pad : R).
Definition call (r : robot) (o : op) : robot :=
  match o with
  | OpInit a => fst (set_init_pos r a)
  | OpGoal a => fst (set_goal_pos r a)
  | OpRects l m pad => fst (set_rectangle_obs r l m pad)
  | OpCircles l pad => fst (set_circle_obs r l pad)
  end.
Definition calls (r : robot) (l : list op) : robot := fold_left call l r.

(** Every named attribute of [p] is the requested value (radians for the steering limit, one rig
    length times the factor for the position threshold, fixed angle caps). *)
Definition as_requested (g : env_args) (p : params) : Prop :=
  p_dt p = g_dt g /\ p_H p = g_H g /\ p_motion p = g_motion g /\ p_coll_pen p = g_coll_pen g /\
  p_sh_coll p = g_sh_coll g /\ p_hitch_pen p = g_hitch_pen g /\ p_sh_hitch p = g_sh_hitch g /\
  p_proj p = g_proj g /\ p_guid p = g_guid g /\ p_rew_thr p = g_rew_thr g /\
  p_ref_thr p = g_ref_thr g /\ p_max_w p = g_max_w g /\ p_hitch_w p = g_hitch_w g /\
  p_ref_pos_w p = g_rpos_w g /\ p_ref_th1_w p = g_rth1_w g /\ p_ref_th2_w p = g_rth2_w g /\
  p_l1 p = g_l1 g /\ p_l2 p = g_l2 g /\ p_lh p = g_lh g /\ p_lf1 p = g_lf1 g /\ p_lr p = g_lr g /\
  p_lf2 p = g_lf2 g /\ p_lr2 p = g_lr2 g /\ p_trac_w p = g_trac_w g /\ p_trail_w p = g_trail_w g /\
  p_vmax p = g_vmax g /\ p_dmax p = g_ddeg g * PI / 180 /\ p_theta_max p = PI / 2 /\
  p_phi_max p = 40 * PI / 180 /\ p_d_thr p = g_d_fac g * (g_l1 g + g_lh g + g_l2 g) /\
  p_k_switch p = g_kswitch g /\ p_steer_w p = g_steer_w g /\ p_pref_w p = g_pref_w g /\
  p_head_w p = g_head_w g /\ p_term_thr p = g_term_thr g /\ p_term_w p = g_term_w g.
