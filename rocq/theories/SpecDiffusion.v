(** * SpecDiffusion: what the planner is documented to compute, as a relation between the
    configuration, the noise and the result. Uses the model's data types only (states, commands,
    configuration, environment interface, random generator), none of its planner functions. *)
From Verif Require Import Base Params Planner SpecPlan.
Open Scope R_scope.

(** [v] is the number between [lo] and [hi] that is closest to [x]. *)
Definition nearest (lo hi x v : R) : Prop :=
  lo <= v <= hi /\ forall w, lo <= w <= hi -> Rabs (v - x) <= Rabs (w - x).

(** Admissible speed commands: direction 2 means forward only, -2 backward only. *)
Definition slowest (dir : Z) : R := if Z.eq_dec dir 2 then 0 else -1.
Definition fastest (dir : Z) : R := if Z.eq_dec dir (-2) then 0 else 1.

(** Executing commands one after the other: the states reached. *)
Inductive executes {Q : Type} (step : State Q -> act -> State Q) : State Q -> list act -> list (State Q) -> Prop :=
| ex_stop : forall s, executes step s [] []
| ex_next : forall s u us ss, executes step (step s u) us ss -> executes step s (u :: us) (step s u :: ss).

(** [m] is the greatest of the listed numbers. *)
Definition greatest (m : R) (l : list R) : Prop := In m l /\ forall x, In x l -> x <= m.

(** The generator returns arrays of the requested shape. *)
Definition shaped (rg : prng) : Prop := forall k n h,
  length (prng_normal rg k n h) = n /\ Forall (fun row => length row = h) (prng_normal rg k n h).

Section Diffusion.
Context {Q : Type}.
Variable env : penv Q.
Variable g : cfg.

(** Noise level of step i: sigma_i / sqrt(alpha_bar_(i-1)) with sigma_i = sqrt(1 - alpha_bar_i). *)
Definition noise_level (i : nat) : R :=
  sqrt (1 - alpha_bar_at (g_beta0 g) (g_betaT g) (g_Ndiffuse g) i)
  / sqrt (alpha_bar_at (g_beta0 g) (g_betaT g) (g_Ndiffuse g) (i - 1)).

(** [us] is the candidate drawn around the mean [Y] with noise [e] scaled by [c]: mean plus scaled
    noise, moved to the nearest admissible command. *)
Definition candidate (c : R) (Y e us : list act) : Prop :=
  length us = g_Hsample g /\
  forall t, (t < g_Hsample g)%nat ->
    nearest (slowest (g_motion g)) (fastest (g_motion g))
      (fst (nth t Y (0, 0)) + c * fst (nth t e (0, 0))) (fst (nth t us (0, 0))) /\
    nearest (-1) 1 (snd (nth t Y (0, 0)) + c * snd (nth t e (0, 0))) (snd (nth t us (0, 0))).

(** Where an evaluation starts: the start state after one step of the zero command. *)
Definition origin : State Q := pe_step env (pe_reset env) (0, 0).

(** Value of an evaluation: mean reward plus weighted terminal reward of the last state. *)
Definition run_value (run : list (State Q)) : R :=
  mean (map st_rew run) + pe_term_w env * pe_terminal env (st_q (last run origin)).
(** ... plus the weighted smoothness of the executed steering commands. *)
Definition sample_value (run : list (State Q)) : R :=
  run_value run + pe_steer_w env * steering_score (map (fun s => snd (st_app s)) run).

(** [v] is the score of the run [run] among the runs [runs]: the standardised value divided by
    the temperature; with a demonstration, at least the standardised demonstration score. *)
Definition score_of (runs : list (list (State Q))) (run : list (State Q)) (v : R) : Prop :=
  let vals := map sample_value runs in
  let standard x := (x - mean vals) / spread vals / g_temp g in
  let fit r := pe_logpd env (map st_q r) (g_motion g) in
  if g_demo g
  then exists best, greatest best (map fit runs) /\
         v = Rmax (standard (sample_value run)) (standard (fit run - best + pe_rew_xref env))
  else v = standard (sample_value run).

(** One denoising step: from the mean [Y] to the mean [Y'], with noise [eps]. *)
Definition denoises (i : nat) (eps : list (list act)) (Y Y' : list act) : Prop :=
  exists runs scores,
    Forall2 (fun e run => exists us, candidate (noise_level i) Y e us /\ executes (pe_step env) origin us run) eps runs /\
    Forall2 (score_of runs) runs scores /\
    length Y' = g_Hsample g /\
    forall t, (t < g_Hsample g)%nat ->
      fst (nth t Y' (0, 0)) = wavg (exp_weights scores) (map (fun run => fst (st_app (nth t run origin))) runs) /\
      snd (nth t Y' (0, 0)) = wavg (exp_weights scores) (map (fun run => snd (st_app (nth t run origin))) runs).

Variable rg : prng.
(** The denoising steps i, i-1, ..., 1, each with fresh noise. *)
Fixpoint denoising (i : nat) (k : key rg) (Y : list act) (Ys : list (list act)) : Prop :=
  match i, Ys with
  | O, [] => True
  | S j, Y' :: rest =>
      denoises i (prng_normal rg (snd (prng_split rg k)) (g_Nsample g) (g_Hsample g)) Y Y' /\
      denoising j (fst (prng_split rg k)) Y' rest
  | _, _ => False
  end.

(** The whole plan: Ndiffuse - 1 denoising steps from the all-zero sequence; the returned controls
    are those executed for the last mean; the returned states are the start state and the states
    reached by executing the returned controls (without guidance); the returned reward is the value
    of evaluating the returned controls. *)
Definition planned (out : result (Q := Q)) : Prop :=
  let k := fst (prng_split rg (fst (prng_split rg (prng_key rg (g_seed g))))) in
  let zero := repeat (0, 0) (g_Hsample g) in
  denoising (g_Ndiffuse g - 1) k zero (o_Ybars out) /\
  (exists run, executes (pe_step env) origin (last (o_Ybars out) zero) run /\ o_Y0 out = map st_app run) /\
  (exists run, executes (if g_guid g then pe_step_viz env else pe_step env) (pe_reset env) (o_Y0 out) run /\
     o_traj out = st_q (pe_reset env) :: map st_q run) /\
  (exists run, executes (pe_step env) origin (o_Y0 out) run /\ o_rew out = run_value run).
End Diffusion.
