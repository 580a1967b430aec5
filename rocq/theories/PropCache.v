(** * Property theorems (generated from ProofsCache.v by tools/genprops.py; statements only,
    each closed by [exact]). *)
From Coq Require Import String Lia Reals Lra.
From Verif Require Import Base BaseFacts Params Rollout Planner Cache SpecCache.
From Verif Require Import ProofsCache.
Local Open Scope string_scope.
Local Open Scope list_scope.
Open Scope R_scope.

(** C38. Whatever happened before - any constructions, attribute changes, method calls, planner runs
    and cache clears - planning with an environment object that was made in the history and not used
    yet, with no planner run since the last clear_jit_cache, returns exactly the plan of that object's
    own attributes. *)
Theorem C38_fresh_env_after_clear : forall (D X Q : Type) (cls : string -> methods D X Q) (b : obj D X)
  (h1 h2 : list op) (c : string) (d : D) (g : cfg) (rg : prng),
  let o := w_objs (execs cls (start b) h1) in
  cleared (h1 ++ New c d :: h2) = true -> Forall (leaves_alone o) h2 ->
  returned (snd (run cls (execs cls (start b) (h1 ++ New c d :: h2)) o g rg)) = planned (cls c) (changed o h2 d) g rg.
Proof. exact l_C38_fresh_env_after_clear. Qed.
Print Assumptions C38_fresh_env_after_clear.

(** C38. In the same situation the trajectory reported as "unguided" next to a guided plan is the
    rollout of the planned controls with the object's ordinary step - with guidance still enabled,
    because that step was traced before the flag was switched off. *)
Theorem C38_unguided_comparison_is_guided : forall (D X Q : Type) (cls : string -> methods D X Q) (b : obj D X)
  (h1 h2 : list op) (c : string) (d : D) (g : cfg) (rg : prng) (out : output),
  let o := w_objs (execs cls (start b) h1) in
  let d' := changed o h2 d in
  cleared (h1 ++ New c d :: h2) = true -> Forall (leaves_alone o) h2 -> g_guid g = true ->
  snd (run cls (execs cls (start b) (h1 ++ New c d :: h2)) o g rg) = Ok out ->
  out_unguided out = Some (trajectory_states (m_step (cls c) d' (m_reward (cls c) d') false) (m_reset (cls c) d') (o_Y0 (out_res out))).
Proof. exact l_C38_unguided_comparison_is_guided. Qed.
Print Assumptions C38_unguided_comparison_is_guided.

(** C38. Consecutive trials, each with a fresh object of the same class, that differ in the start pose
    only and share the noise schedule: without any cache clear in between, each trial returns the plan
    of its own attributes. Guidance may be on or off; the demonstration must be off (see
    C38_demo_of_first_trial). *)
Theorem C38_trials_without_clearing : forall (D X Q : Type) (cls : string -> methods D X Q) (b : obj D X)
  (h : list op) (c : string) (ts : list (ptrial D)),
  cleared h = true ->
  (forall t1 t2, In t1 ts -> In t2 ts ->
     same_but_start (cls c) (final_data t1) (final_data t2) /\ same_schedule (tl_cfg t1) (tl_cfg t2)) ->
  (forall t, In t ts -> g_demo (tl_cfg t) = false) ->
  run_trials cls c (execs cls (start b) h) ts = map (fun t => planned (cls c) (final_data t) (tl_cfg t) (tl_rng t)) ts.
Proof. exact l_C38_trials_without_clearing. Qed.
Print Assumptions C38_trials_without_clearing.

(** C38. More generally: in a history that only makes objects of one class, changes start poses, calls
    methods, clears the cache and plans without demonstration and guidance, in any order and on any of
    these objects, a fresh object always gets the plan of its own attributes. *)
Theorem C38_start_only_histories : forall (D X Q : Type) (cls : string -> methods D X Q) (b : obj D X)
  (h0 h1 h2 : list op) (c : string) (d0 d : D) (g : cfg) (rg : prng),
  let n := w_objs (execs cls (start b) h0) in
  let o := w_objs (execs cls (start b) (h0 ++ h1)) in
  cleared h0 = true -> Forall (start_only (cls c) c d0 g n) (h1 ++ New c d :: h2) -> Forall (leaves_alone o) h2 ->
  g_demo g = false ->
  returned (snd (run cls (execs cls (start b) ((h0 ++ h1) ++ New c d :: h2)) o g rg)) = planned (cls c) (changed o h2 d) g rg.
Proof. exact l_C38_start_only_histories. Qed.
Print Assumptions C38_start_only_histories.

(** C38, what is not true. With demonstrations, trials without a cache clear score all their samples
    against the demonstration and the demonstration reward of the first trial, not their own. *)
Theorem C38_demo_of_first_trial : forall (D X Q : Type) (cls : string -> methods D X Q) (b : obj D X)
  (h : list op) (c : string) (t : ptrial D) (ts : list (ptrial D)) (x : X),
  cleared h = true ->
  (forall t', In t' ts -> same_but_start (cls c) (final_data t) (final_data t') /\ same_schedule (tl_cfg t') (tl_cfg t) /\
     same_static (tl_cfg t') (tl_cfg t) /\ g_guid (tl_cfg t') = false) ->
  g_demo (tl_cfg t) = true -> g_guid (tl_cfg t) = false ->
  m_gen (cls c) (final_data t) (g_motion (tl_cfg t)) = Ok x ->
  let d := final_data t in
  run_trials cls c (execs cls (start b) h) (t :: ts) =
  map (fun t' => planned_scored (cls c) (m_logpd (cls c) d (Some x)) (m_score (cls c) d x (m_reward (cls c) d) (m_terminal (cls c) d))
                   (final_data t') (tl_cfg t') (tl_rng t')) (t :: ts).
Proof. exact l_C38_demo_of_first_trial. Qed.
Print Assumptions C38_demo_of_first_trial.

(** C38, the reverse of the medal. For the classes whose reset is traced (all but the N-trailer) the
    start pose of an object is fixed by its first planner run: every later run on the same object starts
    there, whatever was set on it and however often the cache was cleared in between. *)
Theorem C38_start_fixed_by_first_run : forall (D X Q : Type) (cls : string -> methods D X Q) (b : obj D X)
  (h1 h2 : list op) (o : nat) (g1 g2 : cfg) (rg1 rg2 : prng) (out1 out2 : output),
  let w1 := execs cls (start b) h1 in
  let w2 := execs cls (start b) (h1 ++ Run o g1 rg1 :: h2) in
  (o < w_objs w1)%nat -> m_jit_reset (cls (ob_class (w_obj w1 o))) = true ->
  snd (run cls w1 o g1 rg1) = Ok out1 -> snd (run cls w2 o g2 rg2) = Ok out2 ->
  hd_error (o_traj (out_res out2)) = hd_error (o_traj (out_res out1)).
Proof. exact l_C38_start_fixed_by_first_run. Qed.
Print Assumptions C38_start_fixed_by_first_run.

(** C38. The N-trailer's reset is not traced: each run starts at the start pose the object has then. *)
Theorem C38_untraced_reset_follows_start : forall (D X Q : Type) (cls : string -> methods D X Q) (b : obj D X)
  (h : list op) (o : nat) (g : cfg) (rg : prng) (out : output),
  let w := execs cls (start b) h in
  let m := cls (ob_class (w_obj w o)) in
  m_jit_reset m = false -> snd (run cls w o g rg) = Ok out ->
  hd_error (o_traj (out_res out)) = Some (st_q (m_reset m (ob_data (w_obj w o)))).
Proof. exact l_C38_untraced_reset_follows_start. Qed.
Print Assumptions C38_untraced_reset_follows_start.

(** C38. Planning twice with the same object, same configuration and same random numbers, each time
    right after a cache clear (no demonstration, no guidance): the two results are identical, whatever
    attributes - start, goal, obstacles, dimensions, rewards - were changed in between, as long as
    terminal_reward_weight, steering_weight and delta_max are the same. clear_jit_cache does not make an
    object usable again after changing it. *)
Theorem C38_used_object_ignores_changes : forall (D X Q : Type) (cls : string -> methods D X Q) (b : obj D X)
  (h1 h2 : list op) (o : nat) (g : cfg) (rg : prng),
  let w1 := execs cls (start b) h1 in
  let w2 := execs cls (start b) (h1 ++ Run o g rg :: h2) in
  let m := cls (ob_class (w_obj w1 o)) in
  let d1 := ob_data (w_obj w1 o) in let d2 := ob_data (w_obj w2 o) in
  (o < w_objs w1)%nat -> cleared h1 = true -> cleared (h1 ++ Run o g rg :: h2) = true ->
  g_demo g = false -> g_guid g = false -> m_jit_reset m = true ->
  m_term_w m d1 = m_term_w m d2 -> m_steer_w m d1 = m_steer_w m d2 -> m_dmax m d1 = m_dmax m d2 ->
  returned (snd (run cls w2 o g rg)) = returned (snd (run cls w1 o g rg)).
Proof. exact l_C38_used_object_ignores_changes. Qed.
Print Assumptions C38_used_object_ignores_changes.

(** C38, what is not true. A change of the noise schedule (beta0, betaT) between trials without a cache
    clear is ignored: the second trial uses the schedule of the first. *)
Theorem C38_schedule_of_first_trial : forall (D X Q : Type) (cls : string -> methods D X Q) (b : obj D X)
  (h : list op) (c : string) (t1 t2 : ptrial D),
  cleared h = true -> same_but_start (cls c) (final_data t1) (final_data t2) ->
  g_demo (tl_cfg t1) = false -> g_demo (tl_cfg t2) = false -> g_guid (tl_cfg t1) = false ->
  g_Ndiffuse (tl_cfg t1) = g_Ndiffuse (tl_cfg t2) ->
  run_trials cls c (execs cls (start b) h) [t1; t2] =
  [planned (cls c) (final_data t1) (tl_cfg t1) (tl_rng t1);
   planned (cls c) (final_data t2) (with_schedule (tl_cfg t2) (tl_cfg t1)) (tl_rng t2)].
Proof. exact l_C38_schedule_of_first_trial. Qed.
Print Assumptions C38_schedule_of_first_trial.
