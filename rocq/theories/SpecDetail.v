(** * SpecDetail: vocabulary for the claims about formulas that a user reads off the documentation: the
    reward of a state, the predicted pose of the projection, the score of a demonstration. Only data types and the
    geometric vocabulary are used. *)
From Coq Require Import Reals List ZArith.
From Verif Require Import SpecGeom SpecBodies SpecReward Params TT2d Bicycle NTrailer Acc Demo.
Import ListNotations.
Open Scope R_scope.

(** [e] is the angle [a] measured the short way round. *)
Definition short_way (a e : R) : Prop := - PI <= e < PI /\ exists k : Z, e = a + IZR k * (2 * PI).
(** Weight of the heading at distance [d]: logistic, one half at distance [thr], growing as the vehicle approaches,
    at most [cap]. *)
Definition approach_weight (thr k cap d : R) : R := Rmin (/ (1 + exp ((d - thr) / k))) cap.
(** Distance of the tracked point of the tractor-trailer from where it should be. *)
Definition tracked_distance (p : params) (xg q : ttq) : R :=
  if (Z.eqb (p_motion p) 1 || Z.eqb (p_motion p) 2)%bool
  then dist (front_axle p (t_px q) (t_py q) (t_th1 q)) (t_px xg, t_py xg)
  else dist (trailer_axle p q) (trailer_axle p xg).
(** The two heading errors that count: with no preference (0) whichever of "as the goal" and "turned round" is smaller in
    sum, else "as the goal". *)
Definition counted (m : Z) (e1 e2 o1 o2 : R) : R * R :=
  if Z.eqb m 0 then (if Rle_dec (Rabs o1 + Rabs o2) (Rabs e1 + Rabs e2) then (o1, o2) else (e1, e2)) else (e1, e2).
(** Reward from the distance [d], the counted heading errors [a], [b] and the hitch angle [f]. *)
Definition tt_reward_of (p : params) (d a b f : R) : R :=
  let w := approach_weight (p_d_thr p) (p_k_switch p) (p_max_w p) d in
  (1 - p_hitch_w p) * ((1 - w) * score d (p_rew_thr p)
                       + w * (p_head_w p * (2 - (Rabs a / p_theta_max p) ^ 2 - (Rabs b / p_theta_max p) ^ 2)))
  + p_hitch_w p * (1 - (Rabs f / p_phi_max p) ^ 2).
Definition bk_reward_of (p : params) (d a : R) : R :=
  let w := approach_weight (p_d_thr p) (p_k_switch p) (p_max_w p) d in
  (1 - w) * score d (p_rew_thr p) + w * (1 - (Rabs a / p_theta_max p) ^ 2).

(** Runge-Kutta prediction of the tractor-trailer over one step at constant command: the tractor's rates are those of
    the car, so its formula is Simpson's; the trailer's heading uses four slopes. *)
Definition trailer_rate (p : params) (v d th ps : R) : R :=
  v / p_l2 p * (sin (th - ps) - p_lh p / p_l1 p * cos (th - ps) * tan d).
Definition tt_predicted (p : params) (q : ttq) (a : R * R) : ttq :=
  let v := fst a * p_vmax p in
  let d := snd a * p_dmax p in
  let w := p_dt p * (v / p_l1 p * tan d) in
  let th := t_th1 q in let ps := t_th2 q in
  let k1 := trailer_rate p v d th ps in
  let k2 := trailer_rate p v d (th + w / 2) (ps + p_dt p / 2 * k1) in
  let k3 := trailer_rate p v d (th + w / 2) (ps + p_dt p / 2 * k2) in
  let k4 := trailer_rate p v d (th + w) (ps + p_dt p * k3) in
  mkTT (t_px q + p_dt p / 6 * v * (cos th + 4 * cos (th + w / 2) + cos (th + w)))
       (t_py q + p_dt p / 6 * v * (sin th + 4 * sin (th + w / 2) + sin (th + w)))
       (th + w)
       (ps + p_dt p / 6 * (k1 + 2 * k2 + 2 * k3 + k4)).

(** The state has the pose of the reference row. *)
Definition tt_at_row (q : ttq) (r : refrow) : Prop :=
  t_px q = f_px r /\ t_py q = f_py r /\ t_th1 q = f_th1 r /\ t_th2 q = f_th2 r.
Definition bk_at_row (q : bkq) (r : refrow) : Prop := b_px q = f_px r /\ b_py q = f_py r /\ b_th q = f_th1 r.
Definition nt_at_row (q : ntq) (r : refrow) : Prop :=
  n_px q = f_px r /\ n_py q = f_py r /\ n_th0 q = f_th1 r /\ n_ths q = [f_th2 r].
Definition acc_at_row (q : accq) (r : refrow) : Prop := tt_at_row (a_q q) r.
(** Score of a trajectory: mean of the rewards plus the weighted terminal reward of its last state. *)
Definition trajectory_score {Q : Type} (rew tm : Q -> R) (w : R) (qs : list Q) (d : Q) : R :=
  fold_right Rplus 0 (map rew qs) / INR (length qs) + w * tm (last qs d).
