(** * SpecGuid: vocabulary for the guidance theorems. *)
From Coq Require Import Reals List.
From Verif Require Import SpecGeom SpecBodies Params TT2d Bicycle NTrailer Acc.
Open Scope R_scope.

(** The window guidance confines states to. *)
Definition pos_ok (x : R) : Prop := -100 <= x <= 100.
Definition ang_ok (x : R) : Prop := - (2 * PI) <= x <= 2 * PI.
Definition tt_window (q : ttq) : Prop := pos_ok (t_px q) /\ pos_ok (t_py q) /\ ang_ok (t_th1 q) /\ ang_ok (t_th2 q).
Definition bk_window (q : bkq) : Prop := pos_ok (b_px q) /\ pos_ok (b_py q) /\ ang_ok (b_th q).
Definition nt_window (q : ntq) : Prop :=
  pos_ok (n_px q) /\ pos_ok (n_py q) /\ ang_ok (n_th0 q) /\ Forall ang_ok (n_ths q).

(** [g] is the gradient of [f]: wherever the partial derivative in a coordinate exists, the
    component of [g] is it (nothing is required elsewhere). *)
Definition is_gradient (f : ttq -> R) (g : ttq -> ttq) : Prop :=
  forall x d,
  (derivable_pt_lim (fun h => f (mkTT (t_px x + h) (t_py x) (t_th1 x) (t_th2 x))) 0 d -> t_px (g x) = d) /\
  (derivable_pt_lim (fun h => f (mkTT (t_px x) (t_py x + h) (t_th1 x) (t_th2 x))) 0 d -> t_py (g x) = d) /\
  (derivable_pt_lim (fun h => f (mkTT (t_px x) (t_py x) (t_th1 x + h) (t_th2 x))) 0 d -> t_th1 (g x) = d) /\
  (derivable_pt_lim (fun h => f (mkTT (t_px x) (t_py x) (t_th1 x) (t_th2 x + h))) 0 d -> t_th2 (g x) = d).

(** The two points guidance looks at: rear axle of the tractor and axle of the trailer. *)
Definition tractor_axle (q : ttq) : point := (t_px q, t_py q).
Definition trailer_axle (p : params) (q : ttq) : point :=
  ahead (ahead (t_px q, t_py q) (t_th1 q) (- p_lh p)) (t_th2 q) (- p_l2 p).
(** Both are more than 2 m from every post and the hitch angle is strictly within its limit. *)
Definition roomy (p : params) (circ : list circle) (q : ttq) : Prop :=
  (forall c, In c circ -> c_r c + 2 < dist (tractor_axle q) (c_x c, c_y c) /\
                          c_r c + 2 < dist (trailer_axle p q) (c_x c, c_y c)) /\
  (Rabs (t_th1 q - t_th2 q) < p_phi_max p \/ Rabs (t_th1 q - t_th2 q + 2 * PI) < p_phi_max p \/
   Rabs (t_th1 q - t_th2 q - 2 * PI) < p_phi_max p).

(** States visited when the motion [f] is followed from q under the commands us. *)
Fixpoint drive {Q : Type} (f : Q -> R * R -> Q) (q : Q) (us : list (R * R)) : list Q :=
  match us with
  | nil => nil
  | cons u us' => cons (f q u) (drive f (f q u) us')
  end.
(** x limited to [-1,1] in both components. *)
Definition limit1 (x : R) : R := Rmin (Rmax x (-1)) 1.
Definition limited (u : R * R) : R * R := (limit1 (fst u), limit1 (snd u)).
