(** * SpecCache: vocabulary for the claims about the JIT cache. *)
From Coq Require Import Reals List ZArith String.
From Verif Require Import Base Params Planner Cache.
Import ListNotations.
Open Scope R_scope.

Section SpecCache.
Context {D X Q : Type}.

(** The planner's view of an object of class m with attributes d, nothing cached: every method
    reads d. *)
Definition env_of (m : methods D X Q) (d : D) (x : option X) (rx : R) : penv Q :=
  mkPenv (m_reset m d) (m_step m d (m_reward m d) false) (m_step m d (m_reward m d) true)
    (m_terminal m d) (m_term_w m d) (m_steer_w m d) (m_dmax m d) (m_logpd m d x) rx.

(** The result of planning with attributes d in a process where nothing was ever cached. *)
Definition planned (m : methods D X Q) (d : D) (g : cfg) (rg : prng) : Res (result (Q := Q)) :=
  if g_demo g then
    match m_gen m d (g_motion g) with
    | Err e => Err e
    | Ok x => Ok (run_diffusion_core (env_of m d (Some x) (m_score m d x (m_reward m d) (m_terminal m d))) g rg)
    end
  else Ok (run_diffusion_core (env_of m d None 0) g rg).

(** The same, but samples are scored against the demonstration likelihood lp and the demonstration
    reward rx instead of those of the object's own demonstration. *)
Definition planned_scored (m : methods D X Q) (lp : list Q -> Z -> R) (rx : R) (d : D) (g : cfg) (rg : prng)
  : Res (result (Q := Q)) :=
  if g_demo g then
    match m_gen m d (g_motion g) with
    | Err e => Err e
    | Ok _ => Ok (run_diffusion_core
        (mkPenv (m_reset m d) (m_step m d (m_reward m d) false) (m_step m d (m_reward m d) true)
           (m_terminal m d) (m_term_w m d) (m_steer_w m d) (m_dmax m d) lp rx) g rg)
    end
  else Ok (run_diffusion_core (env_of m d None 0) g rg).

(** What run_diffusion returned. *)
Definition returned (r : Res (output (Q := Q))) : Res (result (Q := Q)) :=
  match r with Ok out => Ok (out_res out) | Err e => Err e end.

(** d1 and d2 give the same rewards, the same step and the same planner weights: they differ at
    most in the start pose (and in attributes no planner function reads). *)
Definition same_but_start (m : methods D X Q) (d1 d2 : D) : Prop :=
  m_reward m d1 = m_reward m d2 /\ m_terminal m d1 = m_terminal m d2 /\ m_step m d1 = m_step m d2 /\
  m_term_w m d1 = m_term_w m d2 /\ m_steer_w m d1 = m_steer_w m d2 /\ m_dmax m d1 = m_dmax m d2.

(** The operation neither runs the planner on object o nor calls one of its methods. *)
Definition leaves_alone (o : nat) (a : op (D := D)) : Prop :=
  match a with
  | Run o' _ _ | Reset o' | Reward o' | Terminal o' | Step o' _ => o' <> o
  | _ => True
  end.

(** No planner run happened since the last clear_jit_cache (or ever). *)
Definition cleared (h : list (op (D := D))) : bool :=
  fold_left (fun e a => match a with Clear => true | Run _ _ _ => false | _ => e end) h true.

(** The attributes of object o after the changes made to it in h. *)
Fixpoint changed (o : nat) (h : list (op (D := D))) (d : D) : D :=
  match h with
  | [] => d
  | Change o' f :: rest => changed o rest (if Nat.eqb o' o then f d else d)
  | _ :: rest => changed o rest d
  end.

(** A trial: a fresh object made with attributes tl_data, changed by tl_changes, then planned. *)
Record ptrial : Type := mkPTrial {
  tl_data : D; tl_changes : list (D -> D); tl_cfg : cfg; tl_rng : prng }.
Definition final_data (t : ptrial) : D := fold_left (fun d f => f d) (tl_changes t) (tl_data t).
(** The identity of an object made when n objects exist is n. *)
Definition trial_ops (c : string) (n : nat) (t : ptrial) : list (op (D := D)) :=
  New c (tl_data t) :: map (Change n) (tl_changes t).

(** The trials of class c carried out one after the other in the process w: the returned results. *)
Fixpoint run_trials (cls : string -> methods D X Q) (c : string) (w : world D X Q) (ts : list ptrial)
  : list (Res (result (Q := Q))) :=
  match ts with
  | [] => []
  | t :: rest =>
      let o := w_objs w in
      let w1 := execs cls w (trial_ops c o t) in
      returned (snd (run cls w1 o (tl_cfg t) (tl_rng t)))
      :: run_trials cls c (exec cls w1 (Run o (tl_cfg t) (tl_rng t))) rest
  end.

(** The same noise schedule. *)
Definition same_schedule (g1 g2 : cfg) : Prop :=
  g_Ndiffuse g1 = g_Ndiffuse g2 /\ g_beta0 g1 = g_beta0 g2 /\ g_betaT g1 = g_betaT g2.
(** The same settings for one step of the diffusion, apart from the schedule: motion preference,
    temperature, use of a demonstration, number and length of the samples. *)
Definition same_static (g1 g2 : cfg) : Prop :=
  g_motion g1 = g_motion g2 /\ g_temp g1 = g_temp g2 /\ g_demo g1 = g_demo g2 /\
  g_Nsample g1 = g_Nsample g2 /\ g_Hsample g1 = g_Hsample g2.
(** The operation makes objects of class c that agree with d except for the start pose, changes
    nothing but start poses, or runs the planner without demonstration and guidance, with the
    schedule of gs, on an object numbered n or later. *)
Definition start_only (m : methods D X Q) (c : string) (d : D) (gs : cfg) (n : nat) (a : op (D := D)) : Prop :=
  match a with
  | New c' d' => c' = c /\ same_but_start m d d'
  | Change _ f => forall x, same_but_start m d x -> same_but_start m d (f x)
  | Run o g _ => (n <= o)%nat /\ g_demo g = false /\ g_guid g = false /\ same_schedule g gs
  | _ => True
  end.
(** g with the noise schedule of g'. *)
Definition with_schedule (g g' : cfg) : cfg :=
  mkCfg (g_seed g) (g_Nsample g) (g_Hsample g) (g_Ndiffuse g') (g_temp g) (g_beta0 g') (g_betaT g')
    (g_demo g) (g_motion g) (g_guid g).
End SpecCache.
Arguments ptrial : clear implicits.
