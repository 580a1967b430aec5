(** * SpecProj: vocabulary for the projection theorems (no model functions except the
    argument types of the optimiser). *)
From Coq Require Import Reals List.
From Verif Require Import SpecGeom SpecBodies Params TT2d Bicycle Projection.
Import ListNotations.
Open Scope R_scope.

(** The solid rectangle with centre c, half lengths h along and across the heading. *)
Definition box (c h : point) (ang : R) : region := mkRegion c ang (- fst h) (fst h) (snd h).

(** Strictly inside. *)
Definition interior (g : region) (P : point) : Prop :=
  exists a b, rg_back g < a < rg_front g /\ - rg_half g < b < rg_half g
              /\ P = at_frame (rg_org g) (rg_ang g) a b.

(** Both commands in [-1,1]. *)
Definition in_box (u : R * R) : Prop := -1 <= fst u <= 1 /\ -1 <= snd u <= 1.

(** An optimiser that never reports success with an answer outside the bounds it was given. *)
Definition respects_bounds (m : optimiser) : Prop :=
  forall obj u0 bd con x, m obj u0 bd con = OptDone true x ->
    (fst (bd0 bd) <= fst x <= snd (bd0 bd)) /\ (fst (bd1 bd) <= snd x <= snd (bd1 bd)).
(** ... or whose successful answers meet every constraint with room to spare. *)
Definition strictly_feasible (m : optimiser) : Prop :=
  forall obj u0 bd con x, m obj u0 bd con = OptDone true x -> Forall (fun c => 0 < c) (con x).
(** A perfect optimiser: succeeds, meets the bounds and the constraints, and no other admissible
    point is better. *)
Definition admissible (bd : bounds2) (con : R * R -> list R) (u : R * R) : Prop :=
  (fst (bd0 bd) <= fst u <= snd (bd0 bd)) /\ (fst (bd1 bd) <= snd u <= snd (bd1 bd)) /\
  Forall (fun c => 0 <= c) (con u).
Definition perfect (m : optimiser) : Prop :=
  forall obj u0 bd con, (exists u, admissible bd con u /\ forall u', admissible bd con u' -> obj u <= obj u') ->
    exists x, m obj u0 bd con = OptDone true x /\ admissible bd con x /\
              forall u', admissible bd con u' -> obj x <= obj u'.

(** No obstacle point lies in a solid body. *)
Definition free_of_circle (g : region) (c : circle) : Prop := forall P, solid g P -> c_r c < dist P (c_x c, c_y c).
Definition free_bodies (gs : list region) (circ : list circle) (rect : list rectobs) : Prop :=
  (forall g c, In g gs -> In c circ -> free_of_circle g c) /\
  (forall g o, In g gs -> In o rect -> disjoint g (obstacle_body o)).

(** Simpson/Runge-Kutta prediction of the car over one step at constant command. *)
Definition bk_predicted (p : params) (q : bkq) (a : R * R) : bkq :=
  let v := fst a * p_vmax p in
  let w := p_dt p * (v / p_l1 p * tan (snd a * p_dmax p)) in
  mkBK (b_px q + p_dt p / 6 * v * (cos (b_th q) + 4 * cos (b_th q + w / 2) + cos (b_th q + w)))
       (b_py q + p_dt p / 6 * v * (sin (b_th q) + 4 * sin (b_th q + w / 2) + sin (b_th q + w)))
       (b_th q + w).

(** The shortened bodies the tractor-trailer projection works with: same centres as the real
    bodies, but l1 resp. l2 long. *)
Definition tt_short_bodies (p : params) (q : ttq) : list region :=
  [ mkRegion (t_px q, t_py q) (t_th1 q)
      ((p_l1 p + p_lf1 p - p_lr p) / 2 - p_l1 p / 2) ((p_l1 p + p_lf1 p - p_lr p) / 2 + p_l1 p / 2) (p_trac_w p / 2);
    mkRegion (ahead (ahead (t_px q, t_py q) (t_th1 q) (- p_lh p)) (t_th2 q) (- p_l2 p)) (t_th2 q)
      ((p_lf2 p - p_lr2 p) / 2 - p_l2 p / 2) ((p_lf2 p - p_lr2 p) / 2 + p_l2 p / 2) (p_trail_w p / 2) ].

(** The same vehicle with projection / guidance switched on. *)
Definition with_modes (p : params) (proj guid : bool) : params := {|
  p_dt := p_dt p; p_H := p_H p; p_num_trailers := p_num_trailers p; p_motion := p_motion p;
  p_coll_pen := p_coll_pen p; p_sh_coll := p_sh_coll p; p_hitch_pen := p_hitch_pen p; p_sh_hitch := p_sh_hitch p;
  p_proj := proj; p_guid := guid; p_rew_thr := p_rew_thr p; p_ref_thr := p_ref_thr p;
  p_max_w := p_max_w p; p_hitch_w := p_hitch_w p; p_ref_pos_w := p_ref_pos_w p;
  p_ref_th1_w := p_ref_th1_w p; p_ref_th2_w := p_ref_th2_w p;
  p_l1 := p_l1 p; p_l2 := p_l2 p; p_lh := p_lh p; p_lf1 := p_lf1 p; p_lr := p_lr p; p_lf2 := p_lf2 p; p_lr2 := p_lr2 p;
  p_trac_w := p_trac_w p; p_trail_w := p_trail_w p; p_vmax := p_vmax p; p_dmax := p_dmax p;
  p_theta_max := p_theta_max p; p_phi_max := p_phi_max p; p_d_thr := p_d_thr p; p_k_switch := p_k_switch p;
  p_steer_w := p_steer_w p; p_pref_w := p_pref_w p; p_head_w := p_head_w p; p_term_thr := p_term_thr p; p_term_w := p_term_w p |}.
