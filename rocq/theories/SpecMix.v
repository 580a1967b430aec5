(** * SpecMix: what a process plans when the worlds or the vehicle classes of its trials differ. *)
From Coq Require Import Reals List ZArith String.
From Verif Require Import Base Params Rollout Planner Cache SpecCache.
Import ListNotations.
Open Scope R_scope.

Section SpecMix.
Context {D X Q : Type}.

(** The planner's view of the world of an object with attributes [d] (obstacles, goal, vehicle, weights), entered at the
    start pose of an object with attributes [d'] of class [m'], no demonstration. *)
Definition entered_at (m : methods D X Q) (d : D) (m' : methods D X Q) (d' : D) : penv Q :=
  mkPenv (m_reset m' d') (m_step m d (m_reward m d) false) (m_step m d (m_reward m d) true)
    (m_terminal m d) (m_term_w m d) (m_steer_w m d) (m_dmax m d) (m_logpd m d None) 0.

(** Denoising simulates the vehicle of class [m] with attributes [d]; the plan found is then carried out, and rewarded,
    with the vehicle of class [m'] with attributes [d']. *)
Definition crossed (m : methods D X Q) (d : D) (m' : methods D X Q) (d' : D) (g : cfg) (rg : prng) : result (Q := Q) :=
  let found := run_diffusion_core (entered_at m d m' d') g rg in
  let commands := last (o_Ybars found) (repeat (0, 0) (g_Hsample g)) in
  let step := m_step m' d' (m_reward m' d') false in
  let carry us := rollout_us_with_terminal step (m_terminal m' d') (m_term_w m' d') (m_reset m' d') us in
  let plan := snd (carry commands) in
  mkResult (fst (fst (carry plan))) plan (trajectory_states step (m_reset m' d') plan) (o_Ybars found).
End SpecMix.
