(** * SpecPlan: vocabulary for statements about one denoising step and about sample weights.
    Independent of the model except for its data types. *)
From Coq Require Import Reals List.
Import ListNotations.
Open Scope R_scope.

(** Diffusion schedule as formulas. *)
Definition beta_at (b0 bT : R) (N k : nat) : R := b0 + INR k * ((bT - b0) / INR (N - 1)).
Definition alpha_bar_at (b0 bT : R) (N i : nat) : R := prod_f_R0 (fun k => 1 - beta_at b0 bT N k) i.

(** Finite sums and averages. *)
Definition total (l : list R) : R := fold_right Rplus 0 l.
Definition mean (l : list R) : R := total l / INR (length l).
(** Population standard deviation; values below 1e-4 count as 1. *)
Definition spread (l : list R) : R :=
  let d := sqrt (mean (map (fun x => (x - mean l) ^ 2) l)) in
  if Rlt_dec d (1 / 10000) then 1 else d.
(** Weights form a probability distribution. *)
Definition distribution (ws : list R) : Prop := Forall (fun w => 0 < w) ws /\ total ws = 1.
(** Weighted average of numbers. *)
Definition wavg (ws xs : list R) : R := total (map (fun p => fst p * snd p) (combine ws xs)).
(** Normalised exponential weights of scores. *)
Definition exp_weights (ls : list R) : list R := map (fun x => exp x / total (map exp ls)) ls.
(** A control sequence all of whose commands satisfy [P]. *)
Definition in_control_box (a : R * R) : Prop := (-1 <= fst a <= 1) /\ (-1 <= snd a <= 1).

(** Smoothness score of a sequence of steering commands d_0 .. d_(n-1) in [-1,1]: the mean over
    time of half (1 - d_t^2) plus half (1 - min(1, (10 (d_t - d_(t-1)))^2)), the second part
    being 1 at t = 0. *)
Definition steering_score (ds : list R) : R :=
  mean (map (fun t => ((1 - (nth t ds 0) ^ 2)
                       + match t with
                         | O => 1
                         | S k => 1 - Rmin 1 ((10 * (nth t ds 0 - nth k ds 0)) ^ 2)
                         end) / 2) (seq 0 (length ds))).

(** Largest element of a non-empty list. *)
Definition is_max (m : R) (l : list R) : Prop := In m l /\ forall x, In x l -> x <= m.
