(** * Property theorems (generated from ProofsBench.v by tools/genprops.py; statements only,
    each closed by [exact]). *)
From Coq Require Import String Lia Reals Lra FunctionalExtensionality Permutation Sorted.
From Verif Require Import Base BaseFacts Params Geom TT2d Rollout Demo EnvModel Config Setup Stats Planner Cache CacheInst SpecCache Bench SpecBench SpecGeom SpecBodies SpecEnv SpecDemo ProofsAcc ProofsEnv ProofsDemo ProofsSetup ProofsCache.
From Verif Require Import ProofsBench.
Local Open Scope string_scope.
Local Open Scope list_scope.
Open Scope R_scope.

(** Which reading every entry of the report comes from, for any clock. *)
Theorem C50_entries : forall (D X Q : Type) (cls : string -> methods D X Q) rows w o g rg clock w' r t,
  run_timed cls rows w o g rg clock = (w', Ok (r, t)) -> measured (g_demo g) clock t.
Proof. exact l_C50_entries. Qed.
Print Assumptions C50_entries.

(** The report of a run that returned, if the clock never goes back: every entry is a length of
    time, the compile time and the overhead are what their names say, and the separately measured
    phases do not overlap and fit into the total. *)
Theorem C50_timing_report : forall (D X Q : Type) (cls : string -> methods D X Q) rows w o g rg clock w' r t,
  never_back clock -> run_timed cls rows w o g rg clock = (w', Ok (r, t)) ->
  0 < ti_total t /\
  0 <= ti_demo t /\ 0 <= ti_jit t /\ 0 <= ti_warmup t /\ 0 <= ti_reward t /\ 0 <= ti_setup t /\ 0 <= ti_pure t /\ 0 <= ti_post t /\
  ti_compile t = ti_jit t + ti_warmup t + ti_reward t /\
  ti_overhead t = ti_total t - ti_pure t /\
  ti_demo t + ti_compile t + ti_setup t + ti_post t <= ti_overhead t /\
  ti_demo t + ti_compile t + ti_setup t + ti_pure t + ti_post t <= ti_total t <= clock (readings_of (g_demo g)) - clock 0%nat /\
  (g_demo g = false -> ti_reward t = 0).
Proof. exact l_C50_timing_report. Qed.
Print Assumptions C50_timing_report.

(** No time between first and last reading: the log line divides by zero. *)
Theorem C50_zero_time : forall (D X Q : Type) (cls : string -> methods D X Q) rows w o g rg clock w' out,
  run_py cls rows w o g rg = (w', Ok out) -> clock (readings_of (g_demo g) - 1)%nat = clock 0%nat ->
  run_timed cls rows w o g rg clock = (w', Err ZeroDivisionError).
Proof. exact l_C50_zero_time. Qed.
Print Assumptions C50_zero_time.

(** time.time() may be set back during a run: then a negative total is reported. *)
Theorem C50_clock_set_back_refuted : forall (D X Q : Type) (cls : string -> methods D X Q) rows w o g rg w' out,
  run_py cls rows w o g rg = (w', Ok out) ->
  exists clock r t, run_timed cls rows w o g rg clock = (w', Ok (r, t)) /\ ti_total t < 0.
Proof. exact l_C50_clock_set_back_refuted. Qed.
Print Assumptions C50_clock_set_back_refuted.

(** The figures computed for a non-empty series are its mean, its (population) standard deviation,
    its least and greatest entry and a median; mean and median lie between least and greatest. *)
Theorem C51_statistics : forall l, l <> [] ->
  exists s, np_summary l = Ok s /\ summarises (su_mean s) (su_std s) (su_min s) (su_max s) (su_median s) l /\
    su_min s <= su_mean s <= su_max s /\ su_min s <= su_median s <= su_max s.
Proof. exact l_C51_statistics. Qed.
Print Assumptions C51_statistics.

(** What is reported: as many trials as asked for, each with the readings of its own run, the
    warm-up runs left out; every summary describes the listed series. *)
Theorem C51_report : forall (D X Q : Type) (cls : string -> methods D X Q) rows w o g rg clock num warm w' rep,
  benchmark cls rows w o g rg clock num warm = (w', Ok rep) ->
  (1 <= num)%nat /\ br_num rep = num /\ length (br_timings rep) = num /\ length (br_rewards rep) = num /\
  (forall k d, (k < num)%nat ->
     measured (g_demo g) (fun n => clock ((warm + k) * readings_of (g_demo g) + n)%nat) (nth k (br_timings rep) d)) /\
  Forall (fun t => ti_total t <> 0) (br_timings rep) /\
  describes (br_pure rep) (map ti_pure (br_timings rep)) /\ describes (br_total rep) (map ti_total (br_timings rep)) /\
  describes (br_overhead rep) (map ti_overhead (br_timings rep)) /\ describes (br_compile rep) (map ti_compile (br_timings rep)) /\
  describes (br_reward rep) (br_rewards rep).
Proof. exact l_C51_report. Qed.
Print Assumptions C51_report.

(** Same object, same arguments, same seed: all trials report the same reward, so its spread is
    zero - unless guidance is on, nothing was warmed up and the dictionary was not clean. *)
Theorem C51_same_reward : forall (D X Q : Type) (cls : string -> methods D X Q) rows b h o g rg clock num warm w' rep,
  let w := execs cls (start b) h in
  (o < w_objs w)%nat ->
  (g_guid g = false \/ (1 <= warm)%nat \/ cleared h = true) ->
  benchmark cls rows w o g rg clock num warm = (w', Ok rep) ->
  exists r, br_rewards rep = repeat r num /\ br_reward rep = mkSummary r 0 r r r.
Proof. exact l_C51_same_reward. Qed.
Print Assumptions C51_same_reward.

(** No counted trials: the report fails on an empty list. *)
Theorem C51_no_trials : forall (D X Q : Type) (cls : string -> methods D X Q) rows w o g rg clock warm w1 l1,
  runs cls rows w o g rg clock warm = (w1, Ok l1) ->
  benchmark cls rows w o g rg clock 0 warm = (w1, Err ValueError).
Proof. exact l_C51_no_trials. Qed.
Print Assumptions C51_no_trials.

(** An exception of the first run ends the benchmark. *)
Theorem C51_exception : forall (D X Q : Type) (cls : string -> methods D X Q) rows w o g rg clock num warm w1 e,
  (1 <= warm + num)%nat -> run_py cls rows w o g rg = (w1, Err e) ->
  benchmark cls rows w o g rg clock num warm = (w1, Err e).
Proof. exact l_C51_exception. Qed.
Print Assumptions C51_exception.

(** If the first run returns and the clock advances, the report is returned (with guidance: if the
    dictionary was clean). *)
Theorem C51_completes : forall (D X Q : Type) (cls : string -> methods D X Q) rows b h o g rg clock num warm w1 out,
  let w := execs cls (start b) h in
  (o < w_objs w)%nat -> (g_guid g = false \/ cleared h = true) ->
  run_py cls rows w o g rg = (w1, Ok out) -> advancing clock -> (1 <= num)%nat ->
  exists w' rep, benchmark cls rows w o g rg clock num warm = (w', Ok rep).
Proof. exact l_C51_completes. Qed.
Print Assumptions C51_completes.

(** A process with a clean dictionary; the planner runs on a new object with demonstrations and
    without guidance, then on a further object, made afterwards, with another horizon: if the
    first demonstration does not have as many rows as the second horizon, the second run raises
    TypeError - whatever the second object is, and although in a clean process it may run. *)
Theorem C52_other_horizon_fails : forall (D X Q : Type) (cls : string -> methods D X Q) rows b h o g1 rg1 w1 out1 x1 c2 d2 g2 rg2 x2,
  let w := execs cls (start b) h in
  (o < w_objs w)%nat -> cleared h = true ->
  g_demo g1 = true -> g_guid g1 = false -> run_py cls rows w o g1 rg1 = (w1, Ok out1) ->
  m_gen (cls (ob_class (w_obj w o))) (ob_data (w_obj w o)) (g_motion g1) = Ok x1 ->
  g_demo g2 = true -> m_gen (cls c2) d2 (g_motion g2) = Ok x2 ->
  g_Hsample g2 <> g_Hsample g1 -> rows x1 <> g_Hsample g2 -> (2 <= rows x1)%nat -> (2 <= g_Hsample g2)%nat ->
  exists w', run_py cls rows (exec cls w1 (New c2 d2)) (w_objs w1) g2 rg2 = (w', Err TypeError).
Proof. exact l_C52_other_horizon_fails. Qed.
Print Assumptions C52_other_horizon_fails.

(** A list of configurations, horizons at least 4, in a process with a clean dictionary and an
    advancing clock: if all horizons agree every configuration gets its report, otherwise the
    scenario ends with TypeError. *)
Theorem C52_scenario_partial : forall cls proj guide rg b h clocks name N H T rest,
  cls "TractorTrailer2d" = tt_methods proj guide -> cleared h = true -> (forall k, advancing (clocks k)) ->
  (4 <= H)%nat -> Forall (fun t => (4 <= snd (fst (snd t)))%nat) rest ->
  let tests := (name, (N, H, T)) :: rest in
  let answer := scenario cls (execs cls (start b) h) rg clocks tests in
  (Forall (fun t => snd (fst (snd t)) = H) rest ->
     exists reps, answer = Ok reps /\ map fst reps = map fst tests /\ Forall (fun nr => br_num (snd nr) = 3%nat) reps) /\
  (~ Forall (fun t => snd (fst (snd t)) = H) rest -> answer = Err TypeError).
Proof. exact l_C52_scenario_partial. Qed.
Print Assumptions C52_scenario_partial.

(** The shipped list has the horizons 30, 40 and 50: the scenario never finishes. *)
Theorem C52_shipped_scenario_refuted : forall cls proj guide rg b h clocks,
  cls "TractorTrailer2d" = tt_methods proj guide -> cleared h = true -> (forall k, advancing (clocks k)) ->
  scenario cls (execs cls (start b) h) rg clocks scenario_tests = Err TypeError.
Proof. exact l_C52_shipped_scenario_refuted. Qed.
Print Assumptions C52_shipped_scenario_refuted.

(** The length of the demonstration (the environment's H) must be the planner's horizon: in a clean
    process a run with a demonstration of another length raises TypeError, one of the right length
    returns. *)
Theorem C52_demonstration_length : forall (D X Q : Type) (cls : string -> methods D X Q) rows b h o g rg x,
  let w := execs cls (start b) h in
  (o < w_objs w)%nat -> cleared h = true -> g_demo g = true ->
  m_gen (cls (ob_class (w_obj w o))) (ob_data (w_obj w o)) (g_motion g) = Ok x ->
  (2 <= rows x)%nat -> (2 <= g_Hsample g)%nat ->
  (rows x = g_Hsample g -> exists w' out, run_py cls rows w o g rg = (w', Ok out)) /\
  (rows x <> g_Hsample g -> exists w', run_py cls rows w o g rg = (w', Err TypeError)).
Proof. exact l_C52_demonstration_length. Qed.
Print Assumptions C52_demonstration_length.

(** The environment of a benchmark configuration carries the configuration's (default) values, the
    asked-for horizon and preference, a safe start left above the target space, and the goal
    heading "backward". *)
Theorem C52_environment : forall H, exists r s, scenario_robot H = Ok r /\ tt_of_robot r = Some (s, mkTT (-1148/100) 3 0 0) /\
  ts_xg s = mkTT (-21/4) (-17/2) (PI / 2) (PI / 2) /\
  p_H (ts_p s) = H /\ p_motion (ts_p s) = (-1)%Z /\ p_sh_coll (ts_p s) = true /\ p_sh_hitch (ts_p s) = true /\
  p_proj (ts_p s) = false /\ p_guid (ts_p s) = false /\
  Forall (fun nf => exists v, In (fst nf, TFloat, VFloat v) dataclass_fields /\ snd nf (ts_p s) = v) passed_on /\
  tt_safe (ts_p s) (ts_circ s) (ts_rect s) (mkTT (-1148/100) 3 0 0).
Proof. exact l_C52_environment. Qed.
Print Assumptions C52_environment.

(** Two of the configuration's values do not reach the environment: the terminal reward threshold
    and weight are not passed, so get_env's own defaults 10 and 1 apply instead of 20 and 5. *)
Theorem C52_terminal_reward_settings_refuted : forall H r, scenario_robot H = Ok r ->
  In ("terminal_reward_threshold", TFloat, VFloat 20) dataclass_fields /\ p_term_thr (rb_p r) = 10 /\
  In ("terminal_reward_weight", TFloat, VFloat 5) dataclass_fields /\ p_term_w (rb_p r) = 1.
Proof. exact l_C52_terminal_reward_settings_refuted. Qed.
Print Assumptions C52_terminal_reward_settings_refuted.

Example C50_timed_run : forall proj guide s x0 rg,
  let cls := fun _ : string => tt_methods proj guide in
  let w := execs cls (start (mkObj "" (s, x0) None 0)) [New "TractorTrailer2d" (s, x0)] in
  let g := mkCfg 42 100 20 10 (1/10) (1/100) (1/10) false 0 false in
  exists w' r t, never_back INR /\ run_timed cls (@length refrow) w 0 g rg INR = (w', Ok (r, t)) /\ ti_total t = 13 /\ ti_pure t = 1.
Proof. exact x_C50_timed_run. Qed.

Example C51_benchmark : forall proj guide s x0 rg,
  let cls := fun _ : string => tt_methods proj guide in
  let w := execs cls (start (mkObj "" (s, x0) None 0)) [New "TractorTrailer2d" (s, x0)] in
  let g := mkCfg 42 100 20 10 (1/10) (1/100) (1/10) false 0 false in
  exists w' rep r, benchmark cls (@length refrow) w 0 g rg INR 3 1 = (w', Ok rep) /\ br_rewards rep = [r; r; r].
Proof. exact x_C51_benchmark. Qed.

Example C51_median : np_median [3; 1; 2; 10] = 5 / 2 /\ np_median [3; 1; 2] = 2.
Proof. exact x_C51_median. Qed.

Example C52_scenario_hypotheses : forall proj guide,
  (fun _ : string => tt_methods proj guide) "TractorTrailer2d" = tt_methods proj guide /\
  cleared (D := tt_self * ttq) [] = true /\ (forall k : nat, advancing ((fun _ => INR) k)) /\
  Forall (fun t : string * (nat * nat * nat) => (4 <= snd (fst (snd t)))%nat) scenario_tests.
Proof. exact x_C52_scenario_hypotheses. Qed.
