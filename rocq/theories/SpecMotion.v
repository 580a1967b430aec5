(** * SpecMotion: rolling without slipping, as a statement about moving points.

    A vehicle is a chain of axles; axle 0 is the tractor's rear axle, every further axle is
    hitched [lh] behind the previous axle by a drawbar of length L. Positions and headings
    are functions of time. *)
From Coq Require Import Reals List.
Import ListNotations.
Open Scope R_scope.

Record axle : Type := mkAxle { ax_x : R -> R; ax_y : R -> R; ax_th : R -> R }.

Fixpoint axles (lh : R) (a : axle) (ths : list (R -> R)) (Ls : list R) : list axle :=
  a :: match ths, Ls with
       | th :: ths', L :: Ls' =>
           axles lh (mkAxle (fun t => ax_x a t - lh * cos (ax_th a t) - L * cos (th t))
                            (fun t => ax_y a t - lh * sin (ax_th a t) - L * sin (th t)) th) ths' Ls'
       | _, _ => []
       end.

(** At time [t] the axle's velocity exists and has no component across its own heading. *)
Definition no_slip (t : R) (a : axle) : Prop :=
  exists vx vy, derivable_pt_lim (ax_x a) t vx /\ derivable_pt_lim (ax_y a) t vy /\
    - vx * sin (ax_th a t) + vy * cos (ax_th a t) = 0.
