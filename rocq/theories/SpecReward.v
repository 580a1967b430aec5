(** * SpecReward: reference points and the shape of the position score.
    Uses only data types and the geometric vocabulary of SpecGeom/SpecBodies. *)
From Coq Require Import Reals List.
From Verif Require Import SpecGeom SpecBodies Params TT2d Bicycle NTrailer.
Open Scope R_scope.

(** Score of being at distance d: 1 at distance 0, falling quadratically to 0 at distance thr
    and beyond. *)
Definition score (d thr : R) : R := 1 - (Rmin d thr / thr) ^ 2.

(** Front axle of the tractor / car; axle of the (single) trailer. *)
Definition front_axle (p : params) (px py th : R) : point := ahead (px, py) th (p_l1 p).
Definition trailer_axle (p : params) (q : ttq) : point :=
  ahead (ahead (t_px q, t_py q) (t_th1 q) (- p_lh p)) (t_th2 q) (- p_l2 p).

(** Preferences 1 and 2 (forward) track the tractor's front axle, all others the trailer. *)
Definition tracks_tractor (m : Z) : Prop := m = 1%Z \/ m = 2%Z.

(** Weights as documented: heading weight at most 1/2, the others fractions of 1; the two angle
    limits as the constructor sets them (pi/2 and 40 degrees). *)
Definition weights_ok (p : params) : Prop :=
  0 < p_rew_thr p /\ 0 <= p_head_w p <= 1 / 2 /\ 0 <= p_max_w p <= 1 /\ 0 <= p_hitch_w p <= 1 /\
  p_theta_max p = PI / 2 /\ p_phi_max p = 40 * PI / 180.
