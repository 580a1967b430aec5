(** * SpecBench: vocabulary for the claims about timing reports and benchmarks. *)
From Coq Require Import String Reals List Bool Permutation.
From Verif Require Import Params Bench.
Import ListNotations.
Local Open Scope string_scope.
Local Open Scope list_scope.
Open Scope R_scope.

(** The clock never goes back; it advances with every reading. *)
Definition never_back (clock : nat -> R) : Prop := forall n, clock n <= clock (S n).
Definition advancing (clock : nat -> R) : Prop := forall n, clock n < clock (S n).

(** The timing report [t] of a run whose n-th reading of the clock (from 0) is [clock n]. The first
    reading is made on entry. With a demonstration there are sixteen: entry; start of the demonstration
    phase; before and after compiling the reward; end of the demonstration phase; then start and end of
    each of JIT setup, warm-up, diffusion setup, pure diffusion and post-processing; the last one.
    Without a demonstration the two readings around the reward are missing. *)
Definition readings_of (demo : bool) : nat := if demo then 16%nat else 14%nat.
Definition span (clock : nat -> R) (a b : nat) : R := clock b - clock a.
Definition measured (demo : bool) (clock : nat -> R) (t : timing) : Prop :=
  (if demo then
     ti_total t = span clock 0 15 /\
     ti_demo t = span clock 1 4 - span clock 2 3 /\ ti_reward t = span clock 2 3 /\
     ti_jit t = span clock 5 6 /\ ti_warmup t = span clock 7 8 /\ ti_setup t = span clock 9 10 /\
     ti_pure t = span clock 11 12 /\ ti_post t = span clock 13 14
   else
     ti_total t = span clock 0 13 /\
     ti_demo t = span clock 1 2 /\ ti_reward t = 0 /\
     ti_jit t = span clock 3 4 /\ ti_warmup t = span clock 5 6 /\ ti_setup t = span clock 7 8 /\
     ti_pure t = span clock 9 10 /\ ti_post t = span clock 11 12) /\
  ti_compile t = ti_jit t + ti_warmup t + ti_reward t /\ ti_overhead t = ti_total t - ti_pure t.

(** At least half of the entries of l satisfy P. *)
Definition at_least_half (P : R -> Prop) (l : list R) : Prop :=
  exists yes no, Permutation l (yes ++ no) /\ Forall P yes /\ (length no <= length yes)%nat.
(** m is a median of l: half of the entries are at most m, half at least m. *)
Definition median_of (m : R) (l : list R) : Prop :=
  at_least_half (fun x => x <= m) l /\ at_least_half (fun x => m <= x) l.

Fixpoint total (l : list R) : R := match l with [] => 0 | x :: xs => x + total xs end.
(** m is the mean of l; s is its (population) standard deviation. *)
Definition mean_of (m : R) (l : list R) : Prop := m * INR (length l) = total l.
Definition deviation_of (s m : R) (l : list R) : Prop :=
  0 <= s /\ mean_of (s ^ 2) (map (fun x => (x - m) ^ 2) l).

(** The five figures describe l. *)
Definition summarises (mean dev low high med : R) (l : list R) : Prop :=
  mean_of mean l /\ deviation_of dev mean l /\
  In low l /\ In high l /\ (forall x, In x l -> low <= x <= high) /\ median_of med l.
Definition describes (s : summary) (l : list R) : Prop :=
  summarises (su_mean s) (su_std s) (su_min s) (su_max s) (su_median s) l.

(** The parameters an object is asked to take from the configuration, by their names there. *)
Definition passed_on : list (string * (params -> R)) := [
  ("dt", p_dt); ("collision_penalty", p_coll_pen); ("hitch_penalty", p_hitch_pen); ("reward_threshold", p_rew_thr);
  ("ref_reward_threshold", p_ref_thr); ("max_w_theta", p_max_w); ("hitch_angle_weight", p_hitch_w); ("l1", p_l1); ("l2", p_l2);
  ("lh", p_lh); ("lf1", p_lf1); ("lr", p_lr); ("lf2", p_lf2); ("lr2", p_lr2); ("tractor_width", p_trac_w);
  ("trailer_width", p_trail_w); ("v_max", p_vmax); ("k_switch", p_k_switch); ("steering_weight", p_steer_w);
  ("preference_penalty_weight", p_pref_w); ("heading_reward_weight", p_head_w); ("ref_pos_weight", p_ref_pos_w);
  ("ref_theta1_weight", p_ref_th1_w); ("ref_theta2_weight", p_ref_th2_w) ].
