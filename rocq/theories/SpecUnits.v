(** * SpecUnits: a change of units - lengths multiplied by l, times by t. Angles, counts, flags and
    dimensionless weights stay; a length parameter is multiplied by l, a speed by l/t. *)
From Coq Require Import Reals List.
From Verif Require Import Base SpecGeom Params Geom TT2d Bicycle NTrailer Demo.
Import ListNotations.
Open Scope R_scope.

Definition units_point (l : R) (P : point) : point := (l * fst P, l * snd P).
(** Lengths: vehicle dimensions, the distances at which the reward, terminal reward and demonstration score end, the distance
    and width of the switch to heading tracking. A time: the step. A speed: the speed limit. The
    weight of the motion preference is charged per unit of speed. *)
Definition units_params (l t : R) (p : params) : params := {|
  p_dt := t * p_dt p; p_H := p_H p; p_num_trailers := p_num_trailers p; p_motion := p_motion p;
  p_coll_pen := p_coll_pen p; p_sh_coll := p_sh_coll p; p_hitch_pen := p_hitch_pen p; p_sh_hitch := p_sh_hitch p;
  p_proj := p_proj p; p_guid := p_guid p;
  p_rew_thr := l * p_rew_thr p; p_ref_thr := l * p_ref_thr p; p_max_w := p_max_w p; p_hitch_w := p_hitch_w p;
  p_ref_pos_w := p_ref_pos_w p; p_ref_th1_w := p_ref_th1_w p; p_ref_th2_w := p_ref_th2_w p;
  p_l1 := l * p_l1 p; p_l2 := l * p_l2 p; p_lh := l * p_lh p; p_lf1 := l * p_lf1 p; p_lr := l * p_lr p;
  p_lf2 := l * p_lf2 p; p_lr2 := l * p_lr2 p; p_trac_w := l * p_trac_w p; p_trail_w := l * p_trail_w p;
  p_vmax := l / t * p_vmax p; p_dmax := p_dmax p; p_theta_max := p_theta_max p; p_phi_max := p_phi_max p;
  p_d_thr := l * p_d_thr p; p_k_switch := l * p_k_switch p; p_steer_w := p_steer_w p;
  p_pref_w := t / l * p_pref_w p; p_head_w := p_head_w p; p_term_thr := l * p_term_thr p; p_term_w := p_term_w p |}.
Definition tt_units (l : R) (q : ttq) : ttq := mkTT (l * t_px q) (l * t_py q) (t_th1 q) (t_th2 q).
Definition bk_units (l : R) (q : bkq) : bkq := mkBK (l * b_px q) (l * b_py q) (b_th q).
Definition nt_units (l : R) (q : ntq) : ntq := mkNT (l * n_px q) (l * n_py q) (n_th0 q) (n_ths q).
Definition circle_units (l : R) (c : circle) : circle := mkCircle (l * c_x c) (l * c_y c) (l * c_r c).
Definition rect_units (l : R) (o : rectobs) : rectobs := mkRect (l * r_x o) (l * r_y o) (l * r_w o) (l * r_h o) (r_ang o).
(** The same vehicle, goal and obstacles in the new units. *)
Definition tt_world_units (l t : R) (s : tt_self) : tt_self :=
  mkTTSelf (units_params l t (ts_p s)) (map (circle_units l) (ts_circ s)) (map (rect_units l) (ts_rect s)) (tt_units l (ts_xg s)).
Definition bk_world_units (l t : R) (s : bk_self) : bk_self :=
  mkBKSelf (units_params l t (bs_p s)) (map (circle_units l) (bs_circ s)) (map (rect_units l) (bs_rect s)) (bk_units l (bs_xg s)).
Definition nt_world_units (l t : R) (s : nt_self) : nt_self :=
  mkNTSelf (units_params l t (ns_p s)) (map (Rmult l) (ns_len s)) (map (Rmult l) (ns_front s)) (map (Rmult l) (ns_rear s))
    (map (circle_units l) (ns_circ s)) (map (rect_units l) (ns_rect s)) (nt_units l (ns_xg s)).
(** A demonstration in the new units: positions are converted, headings and the validity mark stay. *)
Definition row_units (l : R) (r : refrow) : refrow := mkRef (l * f_px r) (l * f_py r) (f_th1 r) (f_th2 r) (f_mask r).
