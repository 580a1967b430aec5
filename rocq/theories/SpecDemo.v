(** * SpecDemo: vocabulary for the demonstration trajectory. Uses only data types of the model. *)
From Coq Require Import Reals List ZArith.
From Verif Require Import SpecGeom SpecBodies SpecSym Params NTrailer Bicycle Demo.
Import ListNotations.
Open Scope R_scope.

(** The point a fraction t of the way from A to B. *)
Definition between (A B : point) (t : R) : point :=
  (fst A + t * (fst B - fst A), snd A + t * (snd B - snd A)).

(** Polyline through W, parametrised so that the j-th corner is reached at parameter j and each
    leg is covered uniformly. *)
Fixpoint polyline (W : list point) (s : R) : point :=
  match W with
  | [] => (0, 0)
  | [A] => A
  | A :: ((B :: _) as rest) => if Rle_dec s 1 then between A B s else polyline rest (s - 1)
  end.

Fixpoint increasing (l : list R) : Prop :=
  match l with
  | a :: ((b :: _) as rest) => a < b /\ increasing rest
  | _ => True
  end.

(** The points Ps are the points of the polyline W at the parameters ss, which run from the first
    to the last corner, never backwards and never twice at the same place, visiting every
    corner. *)
Definition runs_along (W : list point) (Ps : list point) (ss : list R) : Prop :=
  increasing ss /\
  (forall s, In s ss -> 0 <= s <= INR (length W - 1)) /\
  (forall j, (j < length W)%nat -> In (INR j) ss) /\
  nth 0 ss (-1) = 0 /\ last ss (-1) = INR (length W - 1) /\
  Ps = map (polyline W) ss.

(** A point is blocked if it lies in a circular or rectangular obstacle; a line is clear if its
    50 equally spaced sample points (end points included) are not blocked. *)
Definition blocked (circ : list circle) (rect : list rectobs) (P : point) : Prop :=
  (exists c, In c circ /\ disc (c_x c, c_y c) (c_r c) P) \/
  (exists o, In o rect /\ solid (obstacle_body o) P).
Definition line_clear circ rect (A B : point) : Prop :=
  forall k, (k < 50)%nat -> ~ blocked circ rect (between A B (INR k / 49)).
(** Both legs of a detour over M are clear. *)
Definition detour_clear circ rect (A M B : point) : Prop :=
  line_clear circ rect A M /\ line_clear circ rect M B.

(** The corner of the detour that first moves along x, and of the one that first moves along y. *)
Definition x_first (A B : point) : point := (fst B, snd A).
Definition y_first (A B : point) : point := (fst A, snd B).

(** Positions and headings of reference rows. *)
Definition ref_positions (xref : list refrow) : list point := map (fun r => (f_px r, f_py r)) xref.

(** Some step from P to Q goes straight in direction [th]. *)
Definition heads (P Q : point) (th : R) : Prop :=
  exists d, 0 < d /\ Q = (fst P + d * cos th, snd P + d * sin th).

Definition no_row : refrow := mkRef 0 0 0 0 false.

(** Shape of a demonstration with H rows along the path W towards a goal with headings g1, g2:
    - its positions run along W (see runs_along);
    - a row is flagged exactly when it lies on the last leg;
    - unflagged rows carry heading 0; flagged rows before the last one carry, for both vehicle
      parts, the direction of the last leg, or its opposite when driving backward is preferred
      (if the leg is at least 2e-6 m per row long);
    - the last row has the goal's headings. *)
Definition demo_shape (H : nat) (W : list point) (g1 g2 : R) (pref : Z) (rows : list refrow) : Prop :=
  exists ss : list R,
    length rows = H /\
    runs_along W (ref_positions rows) ss /\
    (forall i, (i < H)%nat -> (f_mask (nth i rows no_row) = true <-> INR (length W - 2) <= nth i ss 0)) /\
    (f_th1 (last rows no_row) = g1 /\ f_th2 (last rows no_row) = g2) /\
    (forall i, (S i < H)%nat -> let r := nth i rows no_row in
       f_th1 r = f_th2 r /\ (f_mask r = false -> f_th1 r = 0) /\
       (f_mask r = true ->
        let B := nth (length W - 2) W (0, 0) in
        let C := nth (length W - 1) W (0, 0) in
        2 / 1000000 * INR H <= dist C B ->
        ((pref = -1)%Z \/ (pref = -2)%Z -> heads C B (f_th1 r)) /\
        ((pref <> -1)%Z /\ (pref <> -2)%Z -> heads B C (f_th1 r)))).

(** Headings of a state that agree with a reference row: equal up to full turns, or, when there
    is no motion preference, both turned by half a turn. *)
Definition aligned (pref : Z) (th1 th2 : R) (r : refrow) : Prop :=
  (turns (f_th1 r) th1 /\ turns (f_th2 r) th2) \/
  (pref = 0%Z /\ turns (f_th1 r + PI) th1 /\ turns (f_th2 r + PI) th2).

(** Which path is taken from A to B: the straight line if it is clear; otherwise the detour over
    M1 if clear; otherwise the detour over M2 if clear; otherwise the straight line. *)
Definition chosen_path circ rect (A M1 M2 B : point) (W : list point) : Prop :=
  (line_clear circ rect A B /\ W = [A; B]) \/
  (~ line_clear circ rect A B /\ detour_clear circ rect A M1 B /\ W = [A; M1; B]) \/
  (~ line_clear circ rect A B /\ ~ detour_clear circ rect A M1 B /\ detour_clear circ rect A M2 B /\ W = [A; M2; B]) \/
  (~ line_clear circ rect A B /\ ~ detour_clear circ rect A M1 B /\ ~ detour_clear circ rect A M2 B /\ W = [A; B]).

(** The point the n-trailer class calls its last trailer's position: the trailers are strung
    together one behind the other, every axle one drawbar length behind its hitch, but each further
    hitch is taken on the trailer in front at that trailer's *front* overhang ahead of its axle
    (for a single trailer this is just the trailer's axle). *)
Fixpoint strung (hitch : point) (ths Ls fronts : list R) : point :=
  match ths, Ls, fronts with
  | th :: ((_ :: _) as ths'), L :: Ls', f :: fronts' => strung (ahead (ahead hitch th (- L)) th f) ths' Ls' fronts'
  | th :: [], L :: _, _ => ahead hitch th (- L)
  | _, _, _ => hitch
  end.
Definition nt_last_point (s : nt_self) (x : ntq) : point :=
  strung (ahead (n_px x, n_py x) (n_th0 x) (- p_lh (ns_p s))) (n_ths x) (ns_len s) (ns_front s).
(** The heading of the first trailer (of the tractor if there is none). *)
Definition first_trailer_heading (x : ntq) : R := hd (n_th0 x) (n_ths x).

(** Two references that differ at most in the headings of unflagged rows. *)
Definition same_but_unflagged (r r' : refrow) : Prop :=
  f_px r = f_px r' /\ f_py r = f_py r' /\ f_mask r = f_mask r' /\
  (f_mask r = true -> f_th1 r = f_th1 r' /\ f_th2 r = f_th2 r').
