(** * SpecAcc: plain motion of the acceleration-controlled tractor-trailer, full braking, the
    predicted braking manoeuvre and safety. Only data types of the model are used. *)
From Coq Require Import Reals List.
From Verif Require Import SpecGeom SpecBodies Params TT2d Acc.
Open Scope R_scope.

(** x limited to [-m, m]. *)
Definition sat (m x : R) : R := if Rlt_dec m x then m else if Rlt_dec x (- m) then - m else x.

(** Motion for a time h with acceleration [a] and steering rate [w]: the pose moves with the
    current (limited) speed and steering angle; speed and steering change by h*a, h*w. *)
Definition acc_drive (p : params) (h : R) (q : accq) (a w : R) : accq :=
  let v := sat (p_vmax p) (a_v q) in
  let delta := sat (p_dmax p) (a_d q) in
  let d := t_th1 (a_q q) - t_th2 (a_q q) in
  mkAcc (mkTT (t_px (a_q q) + h * (v * cos (t_th1 (a_q q))))
              (t_py (a_q q) + h * (v * sin (t_th1 (a_q q))))
              (t_th1 (a_q q) + h * (v / p_l1 p * tan delta))
              (t_th2 (a_q q) + h * (v / p_l2 p * (sin d - p_lh p / p_l1 p * cos d * tan delta))))
        (a_v q + h * a) (a_d q + h * w).

(** Full braking: the acceleration against the motion that would stop the vehicle within one
    time step, limited to a_max; none below 1 cm/s. *)
Definition full_brake (dt amax v : R) : R :=
  if Rlt_dec (1 / 100) v then - Rmin (v / dt) amax
  else if Rlt_dec v (- (1 / 100)) then Rmin (- v / dt) amax
  else 0.

Definition acc_safe (s : acc_self) (q : accq) : Prop :=
  tt_safe (ts_p (as_t s)) (ts_circ (as_t s)) (ts_rect (as_t s)) (a_q q).

(** States predicted by the safety check: one-second steps with a constant acceleration,
    frozen once slower than 1 cm/s. *)
Fixpoint predicted (p : params) (a : R) (q : accq) (k : nat) : accq :=
  match k with
  | O => q
  | S j => let q' := predicted p a q j in
           if Rlt_dec (1 / 100) (Rabs (a_v q')) then acc_drive p 1 q' a 0 else q'
  end.

(** The same object with both shield flags off. *)
From Verif Require Import SpecDyn.
Definition acc_unshielded (s : acc_self) : acc_self :=
  mkAccSelf (tt_unshielded (as_t s)) (as_amax s) (as_omax s).
