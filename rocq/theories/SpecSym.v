(** * SpecSym: poses that are the same up to whole turns of the headings, and rigid motions of
    the plane acting on points, poses and obstacles. *)
From Coq Require Import Reals List ZArith.
From Verif Require Import SpecGeom Params TT2d Bicycle NTrailer Acc.
Import ListNotations.
Open Scope R_scope.

Definition turns (a b : R) : Prop := exists k : Z, b = a + IZR k * (2 * PI).
Definition tt_same_pose (q q' : ttq) : Prop :=
  t_px q' = t_px q /\ t_py q' = t_py q /\ turns (t_th1 q) (t_th1 q') /\ turns (t_th2 q) (t_th2 q').
Definition bk_same_pose (q q' : bkq) : Prop :=
  b_px q' = b_px q /\ b_py q' = b_py q /\ turns (b_th q) (b_th q').
Definition nt_same_pose (q q' : ntq) : Prop :=
  n_px q' = n_px q /\ n_py q' = n_py q /\ turns (n_th0 q) (n_th0 q') /\ Forall2 turns (n_ths q) (n_ths q').

(** Rotate by [m_ang] about the origin, then translate by [m_t]. *)
Record motion : Type := mkMotion { m_ang : R; m_t : point }.
Definition move (m : motion) (P : point) : point :=
  (fst (m_t m) + (fst P * cos (m_ang m) - snd P * sin (m_ang m)),
   snd (m_t m) + (fst P * sin (m_ang m) + snd P * cos (m_ang m))).
Definition tt_move (m : motion) (q : ttq) : ttq :=
  let P := move m (t_px q, t_py q) in
  mkTT (fst P) (snd P) (t_th1 q + m_ang m) (t_th2 q + m_ang m).
Definition bk_move (m : motion) (q : bkq) : bkq :=
  let P := move m (b_px q, b_py q) in mkBK (fst P) (snd P) (b_th q + m_ang m).
Definition nt_move (m : motion) (q : ntq) : ntq :=
  let P := move m (n_px q, n_py q) in
  mkNT (fst P) (snd P) (n_th0 q + m_ang m) (map (fun th => th + m_ang m) (n_ths q)).
Definition circle_move (m : motion) (c : circle) : circle :=
  let P := move m (c_x c, c_y c) in mkCircle (fst P) (snd P) (c_r c).
Definition rect_move (m : motion) (o : rectobs) : rectobs :=
  let P := move m (r_x o, r_y o) in mkRect (fst P) (snd P) (r_w o) (r_h o) (r_ang o + m_ang m).
(** The same vehicle in the moved world: goal and obstacles moved along. *)
Definition tt_world_move (m : motion) (s : tt_self) : tt_self :=
  mkTTSelf (ts_p s) (map (circle_move m) (ts_circ s)) (map (rect_move m) (ts_rect s)) (tt_move m (ts_xg s)).
Definition bk_world_move (m : motion) (s : bk_self) : bk_self :=
  mkBKSelf (bs_p s) (map (circle_move m) (bs_circ s)) (map (rect_move m) (bs_rect s)) (bk_move m (bs_xg s)).
Definition nt_world_move (m : motion) (s : nt_self) : nt_self :=
  mkNTSelf (ns_p s) (ns_len s) (ns_front s) (ns_rear s)
    (map (circle_move m) (ns_circ s)) (map (rect_move m) (ns_rect s)) (nt_move m (ns_xg s)).

(** Acceleration class: same pose up to whole turns, same speed and steering angle. *)
Definition acc_same_pose (q q' : accq) : Prop :=
  tt_same_pose (a_q q) (a_q q') /\ a_v q' = a_v q /\ a_d q' = a_d q.
Definition acc_move (m : motion) (q : accq) : accq := mkAcc (tt_move m (a_q q)) (a_v q) (a_d q).
Definition acc_world_move (m : motion) (s : acc_self) : acc_self :=
  mkAccSelf (tt_world_move m (as_t s)) (as_amax s) (as_omax s).
