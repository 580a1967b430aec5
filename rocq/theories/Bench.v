(** * Bench: the timing report of run_diffusion (mbd/planners/mbd_planner.py) and
    mbd/scripts/benchmark_diffusion.py.

    A run is taken from Cache.v; here it also reads the clock, fails when the demonstration has a
    different number of rows than the sampled trajectories, and divides by the total time in its
    log line. Not modelled: printing. *)
From Coq Require Import String.
From Verif Require Import Base Params Geom TT2d Rollout Planner Demo EnvModel Setup Stats Cache.
Local Open Scope string_scope.
Local Open Scope list_scope.
Open Scope R_scope.

(** timing_info (mbd_planner.py:625-636). *)
Record timing : Type := mkTiming {
  ti_total : R; ti_demo : R; ti_compile : R; ti_jit : R; ti_warmup : R; ti_reward : R;
  ti_setup : R; ti_pure : R; ti_post : R; ti_overhead : R }.

(** The readings of time.time() made by run_diffusion, in program order (mbd_planner.py:210, 217,
    223, 225, 227, 230, 251, 266 or 293, 454, 461, 470, 475, 516, 520, 616, 619); [clock n] is the
    n-th of them. Both branches of need_warmup read the clock once. *)
Definition readings (demo : bool) : nat := if demo then 16 else 14.
Definition timing_of (demo : bool) (clock : nat -> R) : timing :=
  let total_start := clock 0%nat in
  let demo_start := clock 1%nat in
  let reward_compile := if demo then clock 3%nat - clock 2%nat else 0 in
  let n := if demo then 4%nat else 2%nat in
  let demo_time := clock n - demo_start in
  let jit_setup := clock (n + 2)%nat - clock (n + 1)%nat in
  let warmup := clock (n + 4)%nat - clock (n + 3)%nat in
  let setup := clock (n + 6)%nat - clock (n + 5)%nat in
  let pure := clock (n + 8)%nat - clock (n + 7)%nat in
  let post := clock (n + 10)%nat - clock (n + 9)%nat in
  let total := clock (n + 11)%nat - total_start in
  {| ti_total := total;
     ti_demo := demo_time - reward_compile;
     ti_compile := jit_setup + warmup + reward_compile;
     ti_jit := jit_setup; ti_warmup := warmup; ti_reward := reward_compile;
     ti_setup := setup; ti_pure := pure; ti_post := post;
     ti_overhead := total - pure |}.

(** np.median: the middle entry of the sorted array, or the mean of the two middle ones. *)
Fixpoint insert (x : R) (l : list R) : list R :=
  match l with
  | [] => [x]
  | y :: ys => if Rleb x y then x :: y :: ys else y :: insert x ys
  end.
Definition np_sort (l : list R) : list R := fold_right insert [] l.
Definition np_median (l : list R) : R :=
  let s := np_sort l in
  let n := length l in
  if Nat.even n then (nth (n / 2 - 1) s 0 + nth (n / 2) s 0) / 2 else nth (n / 2) s 0.

(** The five figures of a series (mbd/scripts/benchmark_diffusion.py:63-98). np.mean and np.std of an empty
    list only warn, np.min raises ValueError. *)
Record summary : Type := mkSummary { su_mean : R; su_std : R; su_min : R; su_max : R; su_median : R }.
Definition np_summary (l : list R) : Res summary :=
  match l with
  | [] => Err ValueError
  | _ => Ok (mkSummary (Rmean l) (Rstd l) (Rmin_of l) (Rmax_of l) (np_median l))
  end.

(** benchmark_results (benchmark_diffusion.py:61-100). *)
Record report : Type := mkReport {
  br_num : nat; br_pure : summary; br_total : summary; br_overhead : summary; br_compile : summary;
  br_reward : summary; br_timings : list timing; br_rewards : list R }.

Section Bench.
Context {D X Q : Type}.
Variable cls : string -> methods D X Q.
Variable rows : X -> nat.           (* number of rows of xref *)
Local Notation W := (world D X Q).

(** eval_xref_logpd subtracts xref from the states of a sampled trajectory (tt2d.py:1116): arrays of
    different lengths cannot be combined unless one of them has length 1. *)
Definition rows_fit (a b : nat) : bool := Nat.eqb a b || Nat.eqb a 1 || Nat.eqb b 1.

(** run_diffusion, refusing a demonstration of the wrong length: JAX raises TypeError while it
    traces reverse_once (mbd_planner.py:451, 405), that is only when no trace exists yet for the
    static arguments. What was stored in the dictionary before that stays there. *)
Definition run_py (w : W) (o : nat) (g : cfg) (rg : prng) : W * Res (output (Q := Q)) :=
  let '(w1, demo) := prepare_demo cls w o g in
  match demo with
  | Err _ => run cls w o g rg
  | Ok _ =>
      let '(w2, fs) := get_funcs w1 o in
      let '(w3, _) := call_reset cls w2 o in
      let '(w4, rf) := get_rev w3 o g fs in
      let misfit := match ob_ref (w_obj w4 (rf_obj rf)) with
                    | Some x => negb (rows_fit (rows x) (g_Hsample g))
                    | None => false
                    end in
      match t_rev w4 (rf_id rf) (key_of g) with
      | None => if g_demo g && misfit then (fst (call_roll cls w4 (rf_funcs rf) (g_Hsample g)), Err TypeError)
                else run cls w o g rg
      | Some _ => run cls w o g rg
      end
  end.

(** A run with its reward and timing report; the log line divides by the total time
    (mbd_planner.py:739). *)
Definition run_timed (w : W) (o : nat) (g : cfg) (rg : prng) (clock : nat -> R) : W * Res (R * timing) :=
  let '(w1, out) := run_py w o g rg in
  match out with
  | Err e => (w1, Err e)
  | Ok out =>
      let t := timing_of (g_demo g) clock in
      if Reqb (ti_total t) 0 then (w1, Err ZeroDivisionError)
      else (w1, Ok (o_rew (out_res out), t))
  end.

(** [n] consecutive runs (benchmark_diffusion.py:41-44, 48-53); the clock goes on. *)
Definition later (g : cfg) (k : nat) (clock : nat -> R) : nat -> R :=
  fun n => clock (k * readings (g_demo g) + n)%nat.
Fixpoint runs (w : W) (o : nat) (g : cfg) (rg : prng) (clock : nat -> R) (n : nat)
  : W * Res (list (R * timing)) :=
  match n with
  | O => (w, Ok [])
  | S n' =>
      let '(w1, r) := run_timed w o g rg clock in
      match r with
      | Err e => (w1, Err e)
      | Ok rt =>
          let '(w2, rs) := runs w1 o g rg (later g 1 clock) n' in
          (w2, match rs with Err e => Err e | Ok l => Ok (rt :: l) end)
      end
  end.

(** benchmark_diffusion (benchmark_diffusion.py:21-132) for given args. *)
Definition benchmark (w : W) (o : nat) (g : cfg) (rg : prng) (clock : nat -> R) (num warm : nat)
  : W * Res report :=
  let '(w1, r1) := runs w o g rg clock warm in
  match r1 with
  | Err e => (w1, Err e)
  | Ok _ =>
      let '(w2, r2) := runs w1 o g rg (later g warm clock) num in
      match r2 with
      | Err e => (w2, Err e)
      | Ok l =>
          let ts := map snd l in
          (w2,
           match np_summary (map ti_pure ts), np_summary (map ti_total ts), np_summary (map ti_overhead ts),
                 np_summary (map ti_compile ts), np_summary (map fst l) with
           | Ok p, Ok t, Ok v, Ok c, Ok r => Ok (mkReport num p t v c r ts (map fst l))
           | _, _, _, _, _ => Err ValueError
           end)
      end
  end.
End Bench.

(** The get_env call of benchmark_parking_scenario (benchmark_diffusion.py:190-218): values of
    MBDConfig's defaults for the arguments that are passed, get_env's own defaults for lf1, lr, lf2,
    lr2, terminal_reward_threshold, terminal_reward_weight, enable_projection, enable_guidance,
    a_max, omega_max and num_trailers, which are not. *)
Definition scenario_args (H : nat) : env_args :=
  let d := default_env_args "tt2d" "parking" 1 in {|
  g_name := "tt2d"; g_case := "parking"; g_env := None; g_dt := 1/4; g_H := H; Setup.g_motion := -1;
  g_coll_pen := 3/20; g_hitch_pen := 1/10; g_sh_coll := true; g_sh_hitch := true;
  g_proj := g_proj d; Setup.g_guid := Setup.g_guid d; g_rew_thr := 50; g_ref_thr := 10; g_max_w := 1/2;
  g_hitch_w := 1/100; g_l1 := 323/100; g_l2 := 29/10; g_lh := 23/20; g_lf1 := g_lf1 d;
  g_lr := g_lr d; g_lf2 := g_lf2 d; g_lr2 := g_lr2 d; g_trac_w := 2; g_trail_w := 5/2;
  g_vmax := 3; g_ddeg := 55; g_d_fac := 1; g_kswitch := 5/2; g_steer_w := 1/100; g_pref_w := 1/2;
  g_head_w := 1/2; g_term_thr := g_term_thr d; g_term_w := g_term_w d; g_rpos_w := 4/5; g_rth1_w := 1/10;
  g_rth2_w := 1/10; g_amax := g_amax d; g_omax := g_omax d; g_trailers := g_trailers d |}.

(** The planner's configuration of a test (benchmark_diffusion.py:142-176, 184-187). *)
Definition scenario_cfg (Nsample Hsample Ndiffuse : nat) : cfg :=
  mkCfg 42 Nsample Hsample Ndiffuse (1/100000) (1/100000) (1/100) true (-1) false.
Definition scenario_tests : list (string * (nat * nat * nat)) :=
  [ ("Small (Fast)", (5000, 30, 100)); ("Medium", (10000, 40, 120)); ("Large (Original)", (20000, 50, 150)) ]%nat.

(** The environment of a test (benchmark_diffusion.py:190-223). *)
Definition scenario_robot (H : nat) : Res robot :=
  match get_env (scenario_args H) with
  | Err e => Err e
  | Ok r =>
      let '(r1, res) := set_init_pos r (mkInit None None (Some (-3)) (Some 1) 0 0 0 0) in
      match res with
      | Err e => Err e
      | Ok _ => Ok (fst (set_goal_pos r1 (mkGoal None None (Some (PI / 2)) (Some (PI / 2)) 0 0)))
      end
  end.

(** The loop of benchmark_parking_scenario (benchmark_diffusion.py:180-232): three trials and one
    warm-up per configuration, the dictionary is never cleared. [clocks k] are the clock readings
    during configuration [k]. *)
Fixpoint scenario (cls : string -> methods (tt_self * ttq) (list refrow) ttq)
  (w : world (tt_self * ttq) (list refrow) ttq) (rg : prng) (clocks : nat -> nat -> R)
  (tests : list (string * (nat * nat * nat))) : Res (list (string * report)) :=
  match tests with
  | [] => Ok []
  | (name, (N, H, T)) :: rest =>
      match scenario_robot H with
      | Err e => Err e
      | Ok r =>
          match tt_of_robot r with
          | None => Err TypeError
          | Some sx =>
              let o := w_objs w in
              let '(w1, rep) := benchmark cls (@length refrow) (exec cls w (New "TractorTrailer2d" sx)) o
                                  (scenario_cfg N H T) rg (clocks 0%nat) 3 1 in
              match rep with
              | Err e => Err e
              | Ok rep =>
                  match scenario cls w1 rg (fun k => clocks (S k)) rest with
                  | Err e => Err e
                  | Ok l => Ok ((name, rep) :: l)
                  end
              end
          end
      end
  end.
