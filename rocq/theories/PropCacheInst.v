(** * Property theorems (generated from ProofsCacheInst.v by tools/genprops.py; statements only,
    each closed by [exact]). *)
From Coq Require Import String Lia Reals Lra Classical.
From Verif Require Import Base BaseFacts Params Geom TT2d Bicycle NTrailer Acc Rollout Instances Demo EnvModel Setup Stats ProofsDemo ProofsStats Planner Cache CacheInst SpecCache ProofsCache.
From Verif Require Import ProofsCacheInst.
Local Open Scope string_scope.
Local Open Scope list_scope.
Open Scope R_scope.

(** C38 for TractorTrailer2d: a fresh object after a clear is planned with its own attributes, start
    pose and demonstration, whatever happened before. *)
Theorem C38_tt_fresh_env_after_clear : forall proj guide (b : obj (tt_self * ttq) (list refrow)) (h1 h2 : list op)
  (c : string) (s s' : tt_self) (x0 x0' : ttq) (g : cfg) (rg : prng),
  let cls := fun _ : string => tt_methods proj guide in
  let o := w_objs (execs cls (start b) h1) in
  cleared (h1 ++ New c (s, x0) :: h2) = true -> Forall (leaves_alone o) h2 -> changed o h2 (s, x0) = (s', x0') ->
  returned (snd (run cls (execs cls (start b) (h1 ++ New c (s, x0) :: h2)) o g rg)) =
  (if g_demo g then
     match tt_demo s' x0' "horizontal" 4 (g_motion g) with
     | Err e => Err e
     | Ok x => run_diffusion (tt_penv s' x0' (proj s') (guide s') (tt_logpd s' x) (tt_rew_xref s' x)) (Some g) rg
     end
   else run_diffusion (tt_penv s' x0' (proj s') (guide s') (fun _ _ => 0) 0) (Some g) rg).
Proof. exact l_C38_tt_fresh_env_after_clear. Qed.
Print Assumptions C38_tt_fresh_env_after_clear.

(** C38 for KinematicBicycle2d. *)
Theorem C38_bk_fresh_env_after_clear : forall proj guide (b : obj (bk_self * bkq) (list refrow)) (h1 h2 : list op)
  (c : string) (s s' : bk_self) (x0 x0' : bkq) (g : cfg) (rg : prng),
  let cls := fun _ : string => bk_methods proj guide in
  let o := w_objs (execs cls (start b) h1) in
  cleared (h1 ++ New c (s, x0) :: h2) = true -> Forall (leaves_alone o) h2 -> changed o h2 (s, x0) = (s', x0') ->
  returned (snd (run cls (execs cls (start b) (h1 ++ New c (s, x0) :: h2)) o g rg)) =
  (if g_demo g then
     match bk_demo s' x0' "horizontal" 4 (g_motion g) with
     | Err e => Err e
     | Ok x => run_diffusion (bk_penv s' x0' (proj s') (guide s') (bk_logpd s' x) (bk_rew_xref s' x)) (Some g) rg
     end
   else run_diffusion (bk_penv s' x0' (proj s') (guide s') (fun _ _ => 0) 0) (Some g) rg).
Proof. exact l_C38_bk_fresh_env_after_clear. Qed.
Print Assumptions C38_bk_fresh_env_after_clear.

(** C38 for NTrailer2d. *)
Theorem C38_nt_fresh_env_after_clear : forall guide (b : obj (nt_self * ntq) (list refrow)) (h1 h2 : list op)
  (c : string) (s s' : nt_self) (x0 x0' : ntq) (g : cfg) (rg : prng),
  let cls := fun _ : string => nt_methods guide in
  let o := w_objs (execs cls (start b) h1) in
  cleared (h1 ++ New c (s, x0) :: h2) = true -> Forall (leaves_alone o) h2 -> changed o h2 (s, x0) = (s', x0') ->
  returned (snd (run cls (execs cls (start b) (h1 ++ New c (s, x0) :: h2)) o g rg)) =
  (if g_demo g then
     match nt_demo s' x0' "horizontal" 4 (g_motion g) with
     | Err e => Err e
     | Ok x => run_diffusion (nt_penv s' x0' (guide s') (nt_logpd s' x) (nt_rew_xref s' x)) (Some g) rg
     end
   else run_diffusion (nt_penv s' x0' (guide s') (fun _ _ => 0) 0) (Some g) rg).
Proof. exact l_C38_nt_fresh_env_after_clear. Qed.
Print Assumptions C38_nt_fresh_env_after_clear.

(** C38 for AccTractorTrailer2d. *)
Theorem C38_acc_fresh_env_after_clear : forall proj guide (b : obj (acc_self * accq) (list refrow)) (h1 h2 : list op)
  (c : string) (s s' : acc_self) (x0 x0' : accq) (g : cfg) (rg : prng),
  let cls := fun _ : string => acc_methods proj guide in
  let o := w_objs (execs cls (start b) h1) in
  cleared (h1 ++ New c (s, x0) :: h2) = true -> Forall (leaves_alone o) h2 -> changed o h2 (s, x0) = (s', x0') ->
  returned (snd (run cls (execs cls (start b) (h1 ++ New c (s, x0) :: h2)) o g rg)) =
  (if g_demo g then
     match acc_demo s' x0' "horizontal" 4 (g_motion g) with
     | Err e => Err e
     | Ok x => run_diffusion (acc_penv s' x0' (proj s') (guide s') (acc_logpd s' x) (tt_rew_xref (as_t s') x)) (Some g) rg
     end
   else run_diffusion (acc_penv s' x0' (proj s') (guide s') (fun _ _ => 0) 0) (Some g) rg).
Proof. exact l_C38_acc_fresh_env_after_clear. Qed.
Print Assumptions C38_acc_fresh_env_after_clear.

(** C38: consecutive TractorTrailer2d trials that share all attributes but the start pose need no
    cache clear. *)
Theorem C38_tt_trials_without_clearing : forall proj guide (b : obj (tt_self * ttq) (list refrow)) (h : list op)
  (c : string) (s : tt_self) (ts : list (ptrial (tt_self * ttq))),
  let cls := fun _ : string => tt_methods proj guide in
  cleared h = true ->
  (forall t, In t ts -> fst (final_data t) = s /\ g_demo (tl_cfg t) = false) ->
  (forall t1 t2, In t1 ts -> In t2 ts -> same_schedule (tl_cfg t1) (tl_cfg t2)) ->
  run_trials cls c (execs cls (start b) h) ts =
  map (fun t => run_diffusion (tt_penv s (snd (final_data t)) (proj s) (guide s) (fun _ _ => 0) 0) (Some (tl_cfg t)) (tl_rng t)) ts.
Proof. exact l_C38_tt_trials_without_clearing. Qed.
Print Assumptions C38_tt_trials_without_clearing.

(** C38: the same for consecutive KinematicBicycle2d trials. *)
Theorem C38_bk_trials_without_clearing : forall proj guide (b : obj (bk_self * bkq) (list refrow)) (h : list op)
  (c : string) (s : bk_self) (ts : list (ptrial (bk_self * bkq))),
  let cls := fun _ : string => bk_methods proj guide in
  cleared h = true ->
  (forall t, In t ts -> fst (final_data t) = s /\ g_demo (tl_cfg t) = false) ->
  (forall t1 t2, In t1 ts -> In t2 ts -> same_schedule (tl_cfg t1) (tl_cfg t2)) ->
  run_trials cls c (execs cls (start b) h) ts =
  map (fun t => run_diffusion (bk_penv s (snd (final_data t)) (proj s) (guide s) (fun _ _ => 0) 0) (Some (tl_cfg t)) (tl_rng t)) ts.
Proof. exact l_C38_bk_trials_without_clearing. Qed.
Print Assumptions C38_bk_trials_without_clearing.

(** C38: the same for consecutive NTrailer2d trials. *)
Theorem C38_nt_trials_without_clearing : forall guide (b : obj (nt_self * ntq) (list refrow)) (h : list op)
  (c : string) (s : nt_self) (ts : list (ptrial (nt_self * ntq))),
  let cls := fun _ : string => nt_methods guide in
  cleared h = true ->
  (forall t, In t ts -> fst (final_data t) = s /\ g_demo (tl_cfg t) = false) ->
  (forall t1 t2, In t1 ts -> In t2 ts -> same_schedule (tl_cfg t1) (tl_cfg t2)) ->
  run_trials cls c (execs cls (start b) h) ts =
  map (fun t => run_diffusion (nt_penv s (snd (final_data t)) (guide s) (fun _ _ => 0) 0) (Some (tl_cfg t)) (tl_rng t)) ts.
Proof. exact l_C38_nt_trials_without_clearing. Qed.
Print Assumptions C38_nt_trials_without_clearing.

(** C38: the same for consecutive AccTractorTrailer2d trials. *)
Theorem C38_acc_trials_without_clearing : forall proj guide (b : obj (acc_self * accq) (list refrow)) (h : list op)
  (c : string) (s : acc_self) (ts : list (ptrial (acc_self * accq))),
  let cls := fun _ : string => acc_methods proj guide in
  cleared h = true ->
  (forall t, In t ts -> fst (final_data t) = s /\ g_demo (tl_cfg t) = false) ->
  (forall t1 t2, In t1 ts -> In t2 ts -> same_schedule (tl_cfg t1) (tl_cfg t2)) ->
  run_trials cls c (execs cls (start b) h) ts =
  map (fun t => run_diffusion (acc_penv s (snd (final_data t)) (proj s) (guide s) (fun _ _ => 0) 0) (Some (tl_cfg t)) (tl_rng t)) ts.
Proof. exact l_C38_acc_trials_without_clearing. Qed.
Print Assumptions C38_acc_trials_without_clearing.

(** C38, refutation of the same claim for a reused object: a TractorTrailer2d that was planned once is
    planned again after its start was set to x0', its goal to xg', its obstacles to circ', rect' and after a
    clear_jit_cache(): the result is the old one, for the old start, goal and obstacles. *)
Theorem C38_tt_reused_object_refuted : forall proj guide (b : obj (tt_self * ttq) (list refrow))
  (p : params) (circ circ' : list circle) (rect rect' : list rectobs) (xg xg' x0 x0' : ttq) (g : cfg) (rg : prng),
  let cls := fun _ : string => tt_methods proj guide in
  let s := mkTTSelf p circ rect xg in let s' := mkTTSelf p circ' rect' xg' in
  let h := [New "TractorTrailer2d" (s, x0); Run 0 g rg; Change 0 (fun _ => (s', x0')); Clear] in
  g_demo g = false -> g_guid g = false ->
  returned (snd (run cls (execs cls (start b) h) 0 g rg)) = run_diffusion (tt_penv s x0 (proj s) (guide s) (fun _ _ => 0) 0) (Some g) rg /\
  ob_data (w_obj (execs cls (start b) h) 0%nat) = (s', x0').
Proof. exact l_C38_tt_reused_object_refuted. Qed.
Print Assumptions C38_tt_reused_object_refuted.

(** C38 for the statistics: without demonstrations, the trial loop of tests/stat_mbd.py, which never
    clears the cache, gives exactly the verdicts (or the exception) of the loop in which every trial is
    planned without any cache, for every list of trials, provided nothing was planned in the process
    since the last clear. s is the attribute record all trial environments share. *)
Theorem C38_tt_statistics_without_clearing : forall proj guide (b : obj (tt_self * ttq) (list refrow)) (h : list op)
  (ea : env_args) (c : cfg) (rg : prng),
  let cls := fun _ : string => tt_methods proj guide in
  cleared h = true -> g_demo c = false ->
  exists s : tt_self,
    (forall t r s' x0, create_trial_environment ea t = Ok r -> tt_of_robot r = Some (s', x0) -> s' = s) /\
    forall ts : list trial,
    tt_cached_trials cls (execs cls (start b) h) ea c rg ts =
    each (tt_trial ea (fun _ => proj s) (fun _ => guide s) (fun _ _ _ => 0) (fun _ => 0) c rg) ts.
Proof. exact l_C38_tt_statistics_without_clearing. Qed.
Print Assumptions C38_tt_statistics_without_clearing.

Example C38_history_with_other_runs : forall proj guide b g rg,
  let cls := fun _ : string => tt_methods proj guide in
  let o := w_objs (execs cls (start b) (ex_old g rg)) in
  o = 1%nat /\
  cleared (ex_old g rg ++ New "TractorTrailer2d" (ex_s default_params 9, mkTT 0 0 0 0) :: ex_later) = true /\
  Forall (leaves_alone o) ex_later /\
  changed o ex_later (ex_s default_params 9, mkTT 0 0 0 0) = (ex_s default_params 9, mkTT 2 3 0 0).
Proof. exact x_C38_history_with_other_runs. Qed.

(** Trials with different starts, and a demonstration that exists. *)
Example C38_trials_with_different_starts : forall proj guide rg,
  let g := mkCfg 0 1000 50 100 (1/100) (1/10000) (1/100) false 0 true in
  let t1 := mkPTrial (ex_s default_params 9, mkTT 0 0 0 0) [] g rg in
  let t2 := mkPTrial (ex_s default_params 9, mkTT 1 0 0 0) [fun d => (fst d, mkTT 4 2 0 0)] g rg in
  (forall t, In t [t1; t2] -> fst (final_data t) = ex_s default_params 9 /\ g_demo (tl_cfg t) = false) /\
  (forall a c, In a [t1; t2] -> In c [t1; t2] -> same_schedule (tl_cfg a) (tl_cfg c)) /\
  same_but_start (tt_methods proj guide) (final_data t1) (final_data t2) /\
  snd (final_data t1) <> snd (final_data t2).
Proof. exact x_C38_trials_with_different_starts. Qed.

Example C38_demonstration_exists : exists s x0 x, forall proj guide, m_gen (tt_methods proj guide) (s, x0) 0 = Ok x.
Proof. exact x_C38_demonstration_exists. Qed.

Example C38_trial_environment_exists : exists ea t r s x0, create_trial_environment ea t = Ok r /\ tt_of_robot r = Some (s, x0).
Proof. exact x_C38_trial_environment_exists. Qed.

(** C38: which start pose a planner run uses. An N-trailer object is always planned from the start pose it has then; an object
    of the other three classes is planned from there only the first time, afterwards from the start pose of its first run,
    whatever was set on it and however often the cache was cleared. *)
Theorem C38_nt_planned_from_current_start : forall guide (b : obj (nt_self * ntq) (list refrow)) h o g rg out,
  let w := execs (fun _ : string => nt_methods guide) (start b) h in
  snd (run (fun _ : string => nt_methods guide) w o g rg) = Ok out ->
  hd_error (o_traj (out_res out)) = Some (snd (ob_data (w_obj w o))).
Proof. exact l_C38_nt_planned_from_current_start. Qed.
Print Assumptions C38_nt_planned_from_current_start.

Theorem C38_tt_planned_from_first_start : forall proj guide (b : obj (tt_self * ttq) (list refrow)) h1 h2 o g1 g2 rg1 rg2 out1 out2,
  let cls := fun _ : string => tt_methods proj guide in
  (o < w_objs (execs cls (start b) h1))%nat ->
  snd (run cls (execs cls (start b) h1) o g1 rg1) = Ok out1 ->
  snd (run cls (execs cls (start b) (h1 ++ Run o g1 rg1 :: h2)) o g2 rg2) = Ok out2 ->
  hd_error (o_traj (out_res out2)) = hd_error (o_traj (out_res out1)).
Proof. exact l_C38_tt_planned_from_first_start. Qed.
Print Assumptions C38_tt_planned_from_first_start.

Theorem C38_bk_planned_from_first_start : forall proj guide (b : obj (bk_self * bkq) (list refrow)) h1 h2 o g1 g2 rg1 rg2 out1 out2,
  let cls := fun _ : string => bk_methods proj guide in
  (o < w_objs (execs cls (start b) h1))%nat ->
  snd (run cls (execs cls (start b) h1) o g1 rg1) = Ok out1 ->
  snd (run cls (execs cls (start b) (h1 ++ Run o g1 rg1 :: h2)) o g2 rg2) = Ok out2 ->
  hd_error (o_traj (out_res out2)) = hd_error (o_traj (out_res out1)).
Proof. exact l_C38_bk_planned_from_first_start. Qed.
Print Assumptions C38_bk_planned_from_first_start.

Theorem C38_acc_planned_from_first_start : forall proj guide (b : obj (acc_self * accq) (list refrow)) h1 h2 o g1 g2 rg1 rg2 out1 out2,
  let cls := fun _ : string => acc_methods proj guide in
  (o < w_objs (execs cls (start b) h1))%nat ->
  snd (run cls (execs cls (start b) h1) o g1 rg1) = Ok out1 ->
  snd (run cls (execs cls (start b) (h1 ++ Run o g1 rg1 :: h2)) o g2 rg2) = Ok out2 ->
  hd_error (o_traj (out_res out2)) = hd_error (o_traj (out_res out1)).
Proof. exact l_C38_acc_planned_from_first_start. Qed.
Print Assumptions C38_acc_planned_from_first_start.
