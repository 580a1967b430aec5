(** * Property theorems (generated from ProofsMix.v by tools/genprops.py; statements only,
    each closed by [exact]). *)
From Coq Require Import String Lia Reals Lra.
From Verif Require Import Base BaseFacts Params Geom TT2d NTrailer Rollout Instances Demo EnvModel Setup Stats Planner Cache CacheInst SpecCache ProofsCache SpecMix.
From Coq Require Import List.
From Verif Require Import ProofsMix.
Local Open Scope string_scope.
Local Open Scope list_scope.
Open Scope R_scope.

(** C38, what is not true. Trials of one class after each other, each with a fresh object, no cache clear in between: every
    trial is planned - and its reward computed - in the world of the first trial, from its own start pose. Later goals,
    obstacles, dimensions, limits and reward settings are ignored. *)
Theorem C38_later_trials_use_first_world : forall (D X Q : Type) (cls : string -> methods D X Q) (b : obj D X)
  (h : list op) (c : string) (t : ptrial D) (ts : list (ptrial D)),
  cleared h = true ->
  (forall t', In t' (t :: ts) -> same_schedule (tl_cfg t') (tl_cfg t) /\ g_demo (tl_cfg t') = false /\ g_guid (tl_cfg t') = false) ->
  run_trials cls c (execs cls (start b) h) (t :: ts) =
  map (fun t' => Ok (run_diffusion_core (entered_at (cls c) (final_data t) (cls c) (final_data t')) (tl_cfg t') (tl_rng t'))) (t :: ts).
Proof. exact l_C38_later_trials_use_first_world. Qed.
Print Assumptions C38_later_trials_use_first_world.

(** C38, what is not true. A trial of another class after a trial of a first class, no cache clear in between: the
    commands are searched for with the vehicle and the world of the first trial; only the plan found is carried out and
    rewarded with the second one. *)
Theorem C38_other_class_searched_with_first : forall (D X Q : Type) (cls : string -> methods D X Q) (b : obj D X)
  (h : list op) (c1 c2 : string) (t1 t2 : ptrial D),
  cleared h = true -> c1 <> c2 -> same_schedule (tl_cfg t2) (tl_cfg t1) ->
  g_demo (tl_cfg t1) = false -> g_guid (tl_cfg t1) = false -> g_demo (tl_cfg t2) = false -> g_guid (tl_cfg t2) = false ->
  let w := execs cls (start b) h in
  let w' := execs cls w (trial_ops c1 (w_objs w) t1 ++ [Run (w_objs w) (tl_cfg t1) (tl_rng t1)]) in
  run_trials cls c2 w' [t2] = [Ok (crossed (cls c1) (final_data t1) (cls c2) (final_data t2) (tl_cfg t2) (tl_rng t2))].
Proof. exact l_C38_other_class_searched_with_first. Qed.
Print Assumptions C38_other_class_searched_with_first.

(** C38 for TractorTrailer2d, what is not true: several trials without a cache clear in between, each environment with its
    own obstacles, goal, dimensions and weights: all are planned with those of the first, s. *)
Theorem C38_tt_later_worlds_ignored : forall proj guide (b : obj (tt_self * ttq) (list refrow)) (h : list op)
  (c : string) (s : tt_self) (t : ptrial (tt_self * ttq)) (ts : list (ptrial (tt_self * ttq))),
  let cls := fun _ : string => tt_methods proj guide in
  cleared h = true -> fst (final_data t) = s ->
  (forall t', In t' (t :: ts) -> same_schedule (tl_cfg t') (tl_cfg t) /\ g_demo (tl_cfg t') = false /\ g_guid (tl_cfg t') = false) ->
  run_trials cls c (execs cls (start b) h) (t :: ts) =
  map (fun t' => run_diffusion (tt_penv s (snd (final_data t')) (proj s) (guide s) (fun _ _ => 0) 0) (Some (tl_cfg t')) (tl_rng t')) (t :: ts).
Proof. exact l_C38_tt_later_worlds_ignored. Qed.
Print Assumptions C38_tt_later_worlds_ignored.

(** Two trials in different worlds: no obstacle first, then an obstacle on the way and another goal. *)
Example C38_two_worlds : forall rg,
  let g := mkCfg 0 1000 50 100 (1/100) (1/10000) (1/100) false 0 false in
  let s1 := mkTTSelf default_params [] [] (mkTT 5 0 0 0) in
  let s2 := mkTTSelf default_params [mkCircle 2 0 1] [] (mkTT 5 4 0 0) in
  let t1 := mkPTrial (s1, mkTT 0 0 0 0) [] g rg in
  let t2 := mkPTrial (s1, mkTT 0 0 0 0) [fun d => (s2, snd d); fun d => (fst d, mkTT (-1) 0 0 0)] g rg in
  (forall t', In t' [t1; t2] -> same_schedule (tl_cfg t') (tl_cfg t1) /\ g_demo (tl_cfg t') = false /\ g_guid (tl_cfg t') = false) /\
  final_data t1 = (s1, mkTT 0 0 0 0) /\ final_data t2 = (s2, mkTT (-1) 0 0 0) /\ ts_circ s1 <> ts_circ s2 /\
  cleared [New "TractorTrailer2d" (s2, mkTT 9 9 0 0); Run 0 g rg; Clear] = true /\ "TractorTrailer2d" <> "NTrailer2d".
Proof. exact x_C38_two_worlds. Qed.
