(** * Stats: tests/stat_mbd.py (initial-condition sampling, trial environments, verdicts,
    aggregate statistics).

    Not modelled here: printing, timing measurement (Bench), the progress animation (Anim), the heat map (Picture). *)
From Coq Require Import String.
From Verif Require Import Base Params Geom TT2d Bicycle NTrailer Acc Rollout Planner Instances EnvModel Setup.
Local Open Scope string_scope.
Local Open Scope list_scope.
Open Scope R_scope.

(** TrialConfig (stat_mbd.py:53-60). *)
Record trial : Type := mkTrial { tr_dx : R; tr_dy : R; tr_th1 : R; tr_th2 : R; tr_id : nat }.

(** numpy.random.RandomState, abstract: uniform(lo, hi) and random(). *)
Record np_rng : Type := mkNpRng {
  np_state : Type;
  np_seed : Z -> np_state;
  np_uniform : np_state -> R -> R -> R * np_state;
  np_random : np_state -> R * np_state }.

(** One candidate (stat_mbd.py:85-99). Python evaluates the condition [rng.random() < 0.5] of the
    conditional expression before the chosen uniform draw. *)
Definition draw_trial (g : np_rng) (s : np_state g) (id : nat) : trial * np_state g :=
  let '(dx, s1) := np_uniform g s (-12) 12 in
  let '(dy, s2) := np_uniform g s1 2 7 in
  let '(coin, s3) := np_random g s2 in
  let '(th1, s4) := if Rltb coin (1/2) then np_uniform g s3 (- PI / 10) (PI / 10)
                    else np_uniform g s3 (PI - PI / 10) (PI + PI / 10) in
  let '(off, s5) := np_uniform g s4 (- PI / 10) (PI / 10) in
  (mkTrial dx dy th1 (th1 + off) id, s5).

(** get_default_parking_config of stat_mbd.py (111-126). *)
Definition stat_parking : parking := {|
  pk_rows := 2; pk_cols := 8; pk_w := 35/10; pk_len := 7; pk_yoff := 4;
  pk_occ := [1; 2; 3; 5; 6; 7; 9; 10; 11; 13; 14; 15]%Z; pk_tgt := [4; 12]%Z; pk_rad := 1 |}.

(** create_rectangular_obstacles (stat_mbd.py:128-141). *)
Definition stat_rects : list rectobs := [mkRect 0 (-14) 30 1 0].

(** [env.obs_rectangles = ...] on a robot (stat_mbd.py:176, 268). *)
Definition put_rects (r : robot) (l : list rectobs) : robot :=
  mkRobot (rb_kind r) (rb_p r) (rb_env r) (rb_x0 r) (rb_xg r) (rb_circ r) l
    (rb_amax r) (rb_omax r) (rb_len r) (rb_front r) (rb_rear r).
(** [env.env.obs_rectangles = ...] (stat_mbd.py:269). *)
Definition put_env_rects (r : robot) (l : list rectobs) : robot :=
  mkRobot (rb_kind r) (rb_p r)
    (mkEnv (e_case (rb_env r)) (e_xr (rb_env r)) (e_yr (rb_env r)) (e_parking (rb_env r)) (e_circles (rb_env r)) l)
    (rb_x0 r) (rb_xg r) (rb_circ r) (rb_rect r) (rb_amax r) (rb_omax r) (rb_len r) (rb_front r) (rb_rear r).

(** A get_env call with an Env object passed as env_config. *)
Definition with_env (g : env_args) (e : env_obj) : env_args := {|
  g_name := g_name g; g_case := g_case g; g_env := Some e; g_dt := g_dt g; g_H := g_H g;
  g_motion := g_motion g; g_coll_pen := g_coll_pen g; g_hitch_pen := g_hitch_pen g;
  g_sh_coll := g_sh_coll g; g_sh_hitch := g_sh_hitch g; g_proj := g_proj g; g_guid := g_guid g;
  g_rew_thr := g_rew_thr g; g_ref_thr := g_ref_thr g; g_max_w := g_max_w g; g_hitch_w := g_hitch_w g;
  g_l1 := g_l1 g; g_l2 := g_l2 g; g_lh := g_lh g; g_lf1 := g_lf1 g; g_lr := g_lr g; g_lf2 := g_lf2 g;
  g_lr2 := g_lr2 g; g_trac_w := g_trac_w g; g_trail_w := g_trail_w g; g_vmax := g_vmax g;
  g_ddeg := g_ddeg g; g_d_fac := g_d_fac g; g_kswitch := g_kswitch g; g_steer_w := g_steer_w g;
  g_pref_w := g_pref_w g; g_head_w := g_head_w g; g_term_thr := g_term_thr g; g_term_w := g_term_w g;
  g_rpos_w := g_rpos_w g; g_rth1_w := g_rth1_w g; g_rth2_w := g_rth2_w g; g_amax := g_amax g;
  g_omax := g_omax g; g_trailers := g_trailers g |}.

(** The keyword arguments of set_init_pos in both functions (stat_mbd.py:179-184, 272-277). *)
Definition trial_init (t : trial) : init_args :=
  mkInit None None (Some (tr_dx t)) (Some (tr_dy t)) (tr_th1 t) (tr_th2 t) 0 0.

(** A four-component vector as a state. *)
Definition vec4 (v : list R) : option ttq :=
  match v with [px; py; th1; th2] => Some (mkTT px py th1 th2) | _ => None end.

(** is_valid_initial_condition (stat_mbd.py:144-202): the environment is always
    get_env("tt2d", case="parking") with default parameters; any exception gives False. *)
Definition validation_robot (t : trial) : Res robot :=
  match env_init 32 32 "parking" (Some stat_parking) with
  | Err x => Err x
  | Ok e =>
      match get_env (with_env (default_env_args "tt2d" "parking" 1) e) with
      | Err x => Err x
      | Ok r =>
          let r1 := put_rects r stat_rects in
          let '(r2, res) := set_init_pos r1 (trial_init t) in
          match res with Err x => Err x | Ok _ => Ok r2 end
      end
  end.
Definition is_valid (t : trial) : bool :=
  match validation_robot t with
  | Err _ => false
  | Ok r =>
      match rb_x0 r with
      | None => false
      | Some v =>
          match vec4 v with
          | None => false
          | Some q => negb (tt_coll (rb_p r) (rb_circ r) (rb_rect r) q || tt_hitch (rb_p r) q)
          end
      end
  end.

(** The loop of sample_initial_conditions (stat_mbd.py:76-103): [left] attempts remain. Returns
    the configurations and the number of attempts made. *)
Fixpoint sample_loop (g : np_rng) (num left attempts : nat) (s : np_state g) (configs : list trial)
  : list trial * nat :=
  match left with
  | O => (configs, attempts)
  | S left' =>
      if Nat.ltb (length configs) num then
        let '(t, s') := draw_trial g s (length configs) in
        sample_loop g num left' (S attempts) s' (if is_valid t then configs ++ [t] else configs)
      else (configs, attempts)
  end.
(** sample_initial_conditions (stat_mbd.py:63-108) for num_trials >= 0. *)
Definition sample_initial_conditions (g : np_rng) (num : nat) (seed : Z) : list trial * nat :=
  sample_loop g num (num * 10) 0 (np_seed g seed) [].

(** create_trial_environment (stat_mbd.py:205-286); [g] are the get_env arguments taken from the
    base configuration. *)
Definition create_trial_environment (g : env_args) (t : trial) : Res robot :=
  match env_init 32 32 "parking" (Some stat_parking) with
  | Err x => Err x
  | Ok e =>
      match get_env (with_env g e) with
      | Err x => Err x
      | Ok r =>
          let r1 := put_env_rects (put_rects r stat_rects) stat_rects in
          let '(r2, res) := set_init_pos r1 (trial_init t) in
          match res with
          | Err x => Err x
          | Ok _ => Ok (fst (set_goal_pos r2 (mkGoal None None (Some (- PI / 2)) (Some (- PI / 2)) 0 0)))
          end
      end
  end.

(** Fields of the dictionary returned by evaluate_trial_result (stat_mbd.py:340-348). *)
Record verdict : Type := mkVerdict {
  v_success : bool; v_error : R; v_tractor : R; v_trailer : R; v_coll : bool; v_jack : bool }.

(** The loop over the trajectory with its early exit (stat_mbd.py:324-333). *)
Fixpoint violations {Q : Type} (coll hitch : Q -> bool) (oc hv : bool) (traj : list Q) : bool * bool :=
  match traj with
  | [] => (oc, hv)
  | q :: rest =>
      let oc' := if coll q then true else oc in
      let hv' := if hitch q then true else hv in
      if oc' && hv' then (oc', hv') else violations coll hitch oc' hv' rest
  end.

(** evaluate_trial_result (stat_mbd.py:289-348). [cut] is [x[:4]], [pos] the first two components,
    [back] env.get_trailer_back_position, [goal] (env.xg[0], env.xg[1]); an empty trajectory raises
    IndexError at trajectory_states[-1]. *)
Definition evaluate {Q : Type} (cut : Q -> Q) (coll hitch : Q -> bool) (pos back : Q -> pt)
  (goal : pt) (threshold : R) (traj : list Q) : Res verdict :=
  match traj with
  | [] => Err IndexError
  | q0 :: _ =>
      let final := cut (last traj q0) in
      let tractor := pnorm (psub (pos final) goal) in
      let trailer := pnorm (psub (back final) goal) in
      let err := Rmin tractor trailer in
      let '(oc, hv) := violations (fun q => coll (cut q)) (fun q => hitch (cut q)) false false traj in
      Ok (mkVerdict (Rleb err threshold && negb oc && negb hv) err tractor trailer oc hv)
  end.

(** The four classes. [x[:4]] is the whole state for tt2d and the bicycle, drops speed and steering
    for the acceleration class, and keeps only the first trailer heading of an N-trailer state.
    get_trailer_back_position: tt2d.py:870-882 (inherited by acc and n-trailer),
    kinematic_bicycle2d.py:262-270. *)
Definition tt_evaluate (s : tt_self) : R -> list ttq -> Res verdict :=
  evaluate (fun q => q) (ts_coll s) (ts_hitch s) (fun q => (t_px q, t_py q)) (tt_trailer_back (ts_p s))
    (t_px (ts_xg s), t_py (ts_xg s)).
Definition bk_evaluate (s : bk_self) : R -> list bkq -> Res verdict :=
  evaluate (fun q => q) (bs_coll s) bk_hitch (fun q => (b_px q, b_py q)) (bk_back (bs_p s))
    (b_px (bs_xg s), b_py (bs_xg s)).
Definition acc_evaluate (s : acc_self) (thr : R) (traj : list accq) : Res verdict :=
  tt_evaluate (as_t s) thr (map a_q traj).
Definition nt_cut (q : ntq) : ntq := mkNT (n_px q) (n_py q) (n_th0 q) (firstn 1 (n_ths q)).
Definition nt_back (s : nt_self) (q : ntq) : pt :=
  tt_trailer_back (ns_p s) (mkTT (n_px q) (n_py q) (n_th0 q) (jget (n_ths q) 0)).
Definition nt_evaluate (s : nt_self) : R -> list ntq -> Res verdict :=
  evaluate nt_cut (ns_coll s) (nt_hitch s) (fun q => (n_px q, n_py q)) (nt_back s)
    (n_px (ns_xg s), n_py (ns_xg s)).

(** Aggregates of run_statistical_evaluation (stat_mbd.py:441-478); [None] is nan for the rates
    (np.mean of an empty list) and inf for the position error. *)
Record statistics : Type := mkStats {
  sr_success_rate : R; sr_position_error : option R;
  sr_collision_rate : option R; sr_jackknife_rate : option R; sr_successful : nat }.
Definition b2r (b : bool) : R := if b then 1 else 0.
Definition np_mean (l : list R) : option R := match l with [] => None | _ => Some (Rmean l) end.
Definition summarize (num_trials : nat) (results : list verdict) : Res statistics :=
  let successful := length (filter v_success results) in
  if Nat.eqb num_trials 0 then Err ZeroDivisionError
  else Ok {|
    sr_success_rate := INR successful / INR num_trials;
    sr_position_error := np_mean (map v_error (filter v_success results));
    sr_collision_rate := np_mean (map (fun r => b2r (v_coll r)) results);
    sr_jackknife_rate := np_mean (map (fun r => b2r (v_jack r)) results);
    sr_successful := successful |}.

(** avg/std_pure_diffusion_time (stat_mbd.py:457-464): over the positive times only. *)
Definition time_statistics (times : list R) : R * R :=
  match filter (fun t => Rltb 0 t) times with
  | [] => (0, 0)
  | l => (Rmean l, Rstd l)
  end.

(** A loop whose body may raise. *)
Fixpoint each {A B : Type} (f : A -> Res B) (l : list A) : Res (list B) :=
  match l with
  | [] => Ok []
  | x :: xs => match f x with
               | Err e => Err e
               | Ok y => match each f xs with Err e => Err e | Ok ys => Ok (y :: ys) end
               end
  end.

(** The trials of run_statistical_evaluation (stat_mbd.py:384-411) for a configuration whose robot
    is a TractorTrailer2d. [proj], [guide], [logpd], [rx] may depend on the trial. A robot of
    another class is not represented here (TypeError stands for "not modelled"). *)
Definition tt_of_robot (r : robot) : option (tt_self * ttq) :=
  match rb_kind r, rb_x0 r, rb_xg r with
  | KTT, Some x0, Some xg =>
      match vec4 x0, vec4 xg with
      | Some q0, Some qg => Some (mkTTSelf (rb_p r) (rb_circ r) (rb_rect r) qg, q0)
      | _, _ => None
      end
  | _, _, _ => None
  end.
Definition tt_trial (g : env_args) proj guide (logpd : trial -> list ttq -> Z -> R) (rx : trial -> R)
  (c : cfg) (rg : prng) (t : trial) : Res verdict :=
  match create_trial_environment g t with
  | Err x => Err x
  | Ok r =>
      match tt_of_robot r with
      | None => Err TypeError
      | Some (s, x0) =>
          match run_diffusion (tt_penv s x0 (proj t) (guide t) (logpd t) (rx t)) (Some c) rg with
          | Err x => Err x
          | Ok out => tt_evaluate s 4 (o_traj out)
          end
      end
  end.
Definition tt_statistics (g : env_args) proj guide logpd rx (c : cfg) (rg : prng)
  (ng : np_rng) (num : nat) (seed : Z) : Res (list verdict * statistics) :=
  match each (tt_trial g proj guide logpd rx c rg) (fst (sample_initial_conditions ng num seed)) with
  | Err x => Err x
  | Ok results => match summarize num results with Err x => Err x | Ok st => Ok (results, st) end
  end.
