(** * Base: numeric vocabulary shared by all model files.

    Simplification (global): float32 arithmetic of JAX/NumPy is modelled by the
    exact real numbers of Coq.Reals; NaN, infinities and rounding are not
    represented. *)
From Coq Require Export Reals ZArith List Lia Lra Bool.
Export ListNotations.
Open Scope R_scope.

(** Comparisons used as booleans by [jnp.where] / Python [if]. *)
Definition Rltb (x y : R) : bool := if Rlt_dec x y then true else false.
Definition Rleb (x y : R) : bool := if Rle_dec x y then true else false.
Definition Reqb (x y : R) : bool := if Req_EM_T x y then true else false.

(** [jnp.clip(x, lo, hi)] = minimum(maximum(x, lo), hi). *)
Definition clip (x lo hi : R) : R := Rmin (Rmax x lo) hi.

(** [jnp.where(b, x, y)]. *)
Definition where_ {A : Type} (b : bool) (x y : A) : A := if b then x else y.

(** Python / JAX [x % y] for y > 0: floor modulo ([Int_part] is the floor). *)
Definition fmod (x y : R) : R := x - y * IZR (Int_part (x / y)).

(** [wrap_pi = lambda a: (a + pi) % (2*pi) - pi]
    (mbd/robots/tt2d.py:749, 1008, 1117; n_trailer2d.py:275; kinematic_bicycle2d.py:287). *)
Definition wrap_pi (a : R) : R := fmod (a + PI) (2 * PI) - PI.

(** Points of the plane and control inputs ([jnp.array] of length 2). *)
Definition pt : Type := (R * R)%type.
Definition act : Type := (R * R)%type.

Definition padd (a b : pt) : pt := (fst a + fst b, snd a + snd b).
Definition psub (a b : pt) : pt := (fst a - fst b, snd a - snd b).
Definition pscale (c : R) (a : pt) : pt := (c * fst a, c * snd a).
Definition pdot (a b : pt) : R := fst a * fst b + snd a * snd b.

(** [jnp.linalg.norm] of a 2-vector. *)
Definition pnorm (a : pt) : R := sqrt (fst a * fst a + snd a * snd a).

(** [jnp.sum], [jnp.mean], [std] (population), [jnp.min], [jnp.max] of 1-d arrays.
    The mean of an empty array is NaN in JAX; theorems using it assume length > 0. *)
Fixpoint Rsum (l : list R) : R :=
  match l with [] => 0 | x :: xs => x + Rsum xs end.
Definition Rmean (l : list R) : R := Rsum l / INR (length l).
Definition Rstd (l : list R) : R :=
  sqrt (Rmean (map (fun x => (x - Rmean l) * (x - Rmean l)) l)).
Fixpoint Rmin_list (x : R) (l : list R) : R :=
  match l with [] => x | y :: ys => Rmin_list (Rmin x y) ys end.
Fixpoint Rmax_list (x : R) (l : list R) : R :=
  match l with [] => x | y :: ys => Rmax_list (Rmax x y) ys end.
(** min/max of a list known to be non-empty at every call site. *)
Definition Rmin_of (l : list R) : R := match l with [] => 0 | x :: xs => Rmin_list x xs end.
Definition Rmax_of (l : list R) : R := match l with [] => 0 | x :: xs => Rmax_list x xs end.

(** [jnp.roll(a, -1, axis=0)]. *)
Definition roll1 {A : Type} (l : list A) : list A :=
  match l with [] => [] | x :: xs => xs ++ [x] end.

(** Elementwise binary operation on equally long arrays. *)
Fixpoint map2 {A B C : Type} (f : A -> B -> C) (l : list A) (m : list B) : list C :=
  match l, m with
  | x :: xs, y :: ys => f x y :: map2 f xs ys
  | _, _ => []
  end.

(** [jnp.clip(action, -1.0, 1.0)] on a control vector. *)
Definition clip_act (a : act) : act := (clip (fst a) (-1) 1, clip (snd a) (-1) 1).

(** JAX array indexing [a[i]] with a traced index clamps out-of-range indices
    to the last element. *)
Definition jget (l : list R) (i : nat) : R := nth (Nat.min i (length l - 1)) l 0.

(** Python exceptions as values. *)
Inductive exn : Type :=
| ValueError | AssertionError | KeyError | IndexError | AttributeError | ZeroDivisionError | TypeError
| FileNotFoundError | RuntimeError | UnboundLocalError.
Inductive Res (A : Type) : Type :=
| Ok (a : A)
| Err (e : exn).
Arguments Ok {A} a.
Arguments Err {A} e.

(** Generic explicit integrators (mbd/robots/tt2d.py:22-31) over a vector type [Q]
    given by [axpy x c k = x + c*k]; [rk4] additionally needs [add] and [scal]. *)
Definition euler {Q U : Type} (axpy : Q -> R -> Q -> Q) (dyn : Q -> U -> Q)
  (x : Q) (u : U) (dt : R) : Q :=
  let k1 := dyn x u in axpy x dt k1.

Definition rk4 {Q U : Type} (axpy : Q -> R -> Q -> Q) (dyn : Q -> U -> Q)
  (x : Q) (u : U) (dt : R) : Q :=
  let k1 := dyn x u in
  let k2 := dyn (axpy x (dt / 2) k1) u in
  let k3 := dyn (axpy x (dt / 2) k2) u in
  let k4 := dyn (axpy x dt k3) u in
  (* x + dt/6 * (k1 + 2 k2 + 2 k3 + k4), the sum taken left to right *)
  axpy x (dt / 6) (axpy (axpy (axpy k1 2 k2) 2 k3) 1 k4).
