(** * SpecStats: vocabulary for the statistical evaluation. Uses data types of the model only. *)
From Coq Require Import Reals List ZArith.
From Verif Require Import SpecGeom SpecBodies Params TT2d Setup Stats.
Import ListNotations.
Open Scope R_scope.

(** A start condition: dx, dy, tractor heading, trailer heading. *)
Definition pose : Type := (R * R * R * R)%type.
Definition pose_of (t : trial) : pose := (tr_dx t, tr_dy t, tr_th1 t, tr_th2 t).

(** The generator in state s yields the start condition p and is then in state s'. *)
Definition drawn (g : np_rng) (s s' : np_state g) (p : pose) : Prop :=
  let '(dx, dy, th1, th2) := p in
  exists s1 s2 s3 s4 coin off,
    np_uniform g s (-12) 12 = (dx, s1) /\ np_uniform g s1 2 7 = (dy, s2) /\
    np_random g s2 = (coin, s3) /\
    ((coin < 1/2 /\ np_uniform g s3 (- PI / 10) (PI / 10) = (th1, s4)) \/
     (1/2 <= coin /\ np_uniform g s3 (PI - PI / 10) (PI + PI / 10) = (th1, s4))) /\
    np_uniform g s4 (- PI / 10) (PI / 10) = (off, s') /\ th2 = th1 + off.
(** ps are the first draws of the generator, in order. *)
Fixpoint drawn_list (g : np_rng) (s : np_state g) (ps : list pose) : Prop :=
  match ps with
  | [] => True
  | p :: rest => exists s', drawn g s s' p /\ drawn_list g s' rest
  end.

(** uniform(lo, hi) stays between lo and hi. *)
Definition uniform_in_range (g : np_rng) : Prop :=
  forall s lo hi, lo <= hi -> lo <= fst (np_uniform g s lo hi) <= hi.

(** The scene of the evaluation: unit circles in columns 0,1,2,4,5,6 of two rows of spaces (three
    per space) and the bottom wall. *)
Definition scene_circles : list circle :=
  flat_map (fun y => flat_map (fun x => [mkCircle x y 1; mkCircle x (y + 2) 1; mkCircle x (y - 2) 1])
                       [-49/4; -35/4; -21/4; 7/4; 21/4; 35/4]) [-17/2; -3/2].
Definition scene_walls : list rectobs := [mkRect 0 (-14) 30 1 0].

(** The state meant by a start condition for a tractor of wheelbase l1: front axle dx beside the
    target column x = -1.75, rear axle dy above the lot's entrance line y = 2. *)
Definition start_state (l1 : R) (p : pose) : ttq :=
  let '(dx, dy, th1, th2) := p in mkTT (-7/4 + dx - l1 * cos th1) (2 + dy) th1 th2.

(** Distances of a final state to a goal: rear axle, and middle of the trailer's rear face. *)
Definition axle_distance (q : ttq) (goal : point) : R := dist (t_px q, t_py q) goal.
Definition rear_face_distance (p : params) (q : ttq) (goal : point) : R :=
  dist (ahead (ahead (t_px q, t_py q) (t_th1 q) (- p_lh p)) (t_th2 q) (- (p_l2 p + p_lr2 p))) goal.

(** Fraction of the elements of l with property f. *)
Definition fraction {A : Type} (f : A -> bool) (l : list A) : R := INR (length (filter f l)) / INR (length l).

(** The vehicle has the dimensions the start check assumes. *)
Definition default_dimensions (g : env_args) : Prop :=
  g_l1 g = 323/100 /\ g_l2 g = 29/10 /\ g_lh g = 115/100 /\ g_lf1 g = 9/10 /\ g_lr g = 1848/1000 /\
  g_lf2 g = 142/100 /\ g_lr2 g = 3225/1000 /\ g_trac_w g = 2 /\ g_trail_w g = 25/10.

