(** * SpecTight: vocabulary for single obstacles near a guided vehicle, converted settings and evaluation reports. *)
From Coq Require Import String Reals List ZArith.
From Verif Require Import Base Params TT2d Bicycle NTrailer Acc Config SpecGeom SpecBodies SpecGuid.
Import ListNotations.
Open Scope R_scope.

(** [g] is the gradient of [f] (cars); see is_gradient. *)
Definition is_gradient_bk (f : bkq -> R) (g : bkq -> bkq) : Prop :=
  forall x d,
  (derivable_pt_lim (fun h => f (mkBK (b_px x + h) (b_py x) (b_th x))) 0 d -> b_px (g x) = d) /\
  (derivable_pt_lim (fun h => f (mkBK (b_px x) (b_py x + h) (b_th x))) 0 d -> b_py (g x) = d) /\
  (derivable_pt_lim (fun h => f (mkBK (b_px x) (b_py x) (b_th x + h))) 0 d -> b_th (g x) = d).

(** How much is missing to 2 m between the point and the post. *)
Definition shortfall (c : circle) (P : point) : R := c_r c + 2 - dist P (c_x c, c_y c).
(** P, distinct from the post's centre, is closer than 2 m to the post [c] and by more than that shortfall away from
    being so to every post of [others]; it is that far inside the +-100 m square. *)
Definition alone_with (c : circle) (others : list circle) (P : point) : Prop :=
  0 < dist P (c_x c, c_y c) /\ 0 < shortfall c P /\
  (forall k, In k others -> shortfall k P + shortfall c P < 0) /\
  Rabs (fst P) + shortfall c P <= 100 /\ Rabs (snd P) + shortfall c P <= 100.
(** P pushed away from the post's centre until its distance is [d]. *)
Definition pushed_to (c : circle) (d : R) (P : point) : point :=
  (c_x c + d / dist P (c_x c, c_y c) * (fst P - c_x c), c_y c + d / dist P (c_x c, c_y c) * (snd P - c_y c)).

(** [m] is [x] without its fraction. *)
Definition whole_part (x : R) (m : Z) : Prop := 0 <= x * IZR m /\ Rabs (IZR m) <= Rabs x < Rabs (IZR m) + 1.
(** How a value given for a field of type [t] is read. *)
Definition read_as (t : ty) (given got : val) : Prop :=
  match t, given, got with
  | TInt, VInt z, VInt n => n = z
  | TInt, VFloat x, VInt n => whole_part x n
  | TInt, VBool b, VInt n => n = (if b then 1 else 0)%Z
  | TFloat, VFloat x, VFloat y => y = x
  | TFloat, VInt z, VFloat y => y = IZR z
  | TFloat, VBool b, VFloat y => y = if b then 1 else 0
  | TBool, VBool b, VBool r => r = b
  | TBool, VInt z, VBool r => (r = true <-> z <> 0%Z)
  | TBool, VFloat x, VBool r => (r = true <-> x <> 0)
  | TBool, VStr t, VBool r => (r = true <-> t <> EmptyString)
  | TStr, VStr s, VStr r => r = s
  | TStr, VInt _, VStr _ | TStr, VFloat _, VStr _ | TStr, VBool _, VStr _ => True
  | _, _, _ => False
  end.

(** x moved against the slope g by a twentieth of it and cut to the window. *)
Definition descended (lo hi x g y : R) : Prop := y = Rmin (Rmax (x - g / 20) lo) hi.
(** One step of descent, per class. *)
Definition tt_descends (grad : ttq -> ttq) (x y : ttq) : Prop :=
  descended (-100) 100 (t_px x) (t_px (grad x)) (t_px y) /\ descended (-100) 100 (t_py x) (t_py (grad x)) (t_py y) /\
  descended (- (2 * PI)) (2 * PI) (t_th1 x) (t_th1 (grad x)) (t_th1 y) /\ descended (- (2 * PI)) (2 * PI) (t_th2 x) (t_th2 (grad x)) (t_th2 y).
Definition bk_descends (grad : bkq -> bkq) (x y : bkq) : Prop :=
  descended (-100) 100 (b_px x) (b_px (grad x)) (b_px y) /\ descended (-100) 100 (b_py x) (b_py (grad x)) (b_py y) /\
  descended (- (2 * PI)) (2 * PI) (b_th x) (b_th (grad x)) (b_th y).
Definition nt_descends (grad : ntq -> ntq) (x y : ntq) : Prop :=
  descended (-100) 100 (n_px x) (n_px (grad x)) (n_px y) /\ descended (-100) 100 (n_py x) (n_py (grad x)) (n_py y) /\
  descended (- (2 * PI)) (2 * PI) (n_th0 x) (n_th0 (grad x)) (n_th0 y) /\ length (n_ths y) = length (n_ths x) /\
  forall i, (i < length (n_ths x))%nat -> descended (- (2 * PI)) (2 * PI) (nth i (n_ths x) 0) (nth i (n_ths (grad x)) 0) (nth i (n_ths y) 0).
