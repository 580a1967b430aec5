(** * CacheInst: the robot classes as the JIT cache sees them (Cache.v), and the trial loop of
    tests/stat_mbd.py with the cache.

    The attributes of an object are its modelled attributes and its start pose x0. [proj] and
    [guide] stand for the inner optimisers (Projection.v, Guidance.v), which read the attributes. *)
From Coq Require Import String.
From Verif Require Import Base Params Geom TT2d Bicycle NTrailer Acc Rollout Planner Instances Demo EnvModel Setup Stats Cache.
Local Open Scope string_scope.
Local Open Scope list_scope.
Open Scope R_scope.

(** env.enable_guidance = False (mbd_planner.py:578). *)
Definition no_guid (p : params) : params :=
  mkParams (p_dt p) (p_H p) (p_num_trailers p) (p_motion p) (p_coll_pen p) (p_sh_coll p) (p_hitch_pen p) (p_sh_hitch p)
    (p_proj p) false (p_rew_thr p) (p_ref_thr p) (p_max_w p) (p_hitch_w p) (p_ref_pos_w p) (p_ref_th1_w p) (p_ref_th2_w p)
    (p_l1 p) (p_l2 p) (p_lh p) (p_lf1 p) (p_lr p) (p_lf2 p) (p_lr2 p) (p_trac_w p) (p_trail_w p) (p_vmax p) (p_dmax p)
    (p_theta_max p) (p_phi_max p) (p_d_thr p) (p_k_switch p) (p_steer_w p) (p_pref_w p) (p_head_w p) (p_term_thr p) (p_term_w p).

(** compute_demonstration_reward (tt2d.py:685-703) with given get_reward, get_terminal_reward;
    [row] turns a row of xref into a state. *)
Definition score_with {Q : Type} (row : refrow -> Q) (tw : R) (x : list refrow) (rew tm : Q -> R) : R :=
  Rmean (map (fun r => rew (row r)) x) + tw * tm (row (last_row x)).
Definition logpd_with {Q : Type} (f : list refrow -> list Q -> Z -> R) (x : option (list refrow)) : list Q -> Z -> R :=
  match x with Some x => f x | None => fun _ _ => 0 end.

(** TractorTrailer2d; run_diffusion asks for "horizontal" and at most 4 waypoints
    (mbd_planner.py:221, tt2d.py:466). *)
Definition tt_methods (proj : tt_self -> ttq -> act -> act) (guide : tt_self -> ttq -> ttq)
  : methods (tt_self * ttq) (list refrow) ttq := {|
  m_jit_reset := true;
  m_reset := fun d => reset_state (snd d);
  m_reward := fun d => tt_reward (fst d);
  m_terminal := fun d => tt_terminal (fst d);
  m_step := fun d rew viz => tt_step_with (fst d) rew (proj (fst d)) (guide (fst d)) viz;
  m_term_w := fun d => p_term_w (ts_p (fst d));
  m_steer_w := fun d => p_steer_w (ts_p (fst d));
  m_dmax := fun d => p_dmax (ts_p (fst d));
  m_gen := fun d pref => tt_demo (fst d) (snd d) "horizontal" 4 pref;
  m_score := fun d => score_with row_tt (p_term_w (ts_p (fst d)));
  m_logpd := fun d => logpd_with (tt_logpd (fst d));
  m_unguided := fun d => (mkTTSelf (no_guid (ts_p (fst d))) (ts_circ (fst d)) (ts_rect (fst d)) (ts_xg (fst d)), snd d) |}.

(** KinematicBicycle2d. *)
Definition bk_methods (proj : bk_self -> bkq -> act -> act) (guide : bk_self -> bkq -> bkq)
  : methods (bk_self * bkq) (list refrow) bkq := {|
  m_jit_reset := true;
  m_reset := fun d => reset_state (snd d);
  m_reward := fun d => bk_reward (fst d);
  m_terminal := fun d => bk_terminal (fst d);
  m_step := fun d rew viz => bk_step_with (fst d) rew (proj (fst d)) (guide (fst d)) viz;
  m_term_w := fun d => p_term_w (bs_p (fst d));
  m_steer_w := fun d => p_steer_w (bs_p (fst d));
  m_dmax := fun d => p_dmax (bs_p (fst d));
  m_gen := fun d pref => bk_demo (fst d) (snd d) "horizontal" 4 pref;
  m_score := fun d => score_with row_bk (p_term_w (bs_p (fst d)));
  m_logpd := fun d => logpd_with (bk_logpd (fst d));
  m_unguided := fun d => (mkBKSelf (no_guid (bs_p (fst d))) (bs_circ (fst d)) (bs_rect (fst d)) (bs_xg (fst d)), snd d) |}.

(** NTrailer2d: reset is not decorated (n_trailer2d.py:102-103). The assertions of _step_internal
    are left out (nt_run in Instances.v checks them). *)
Definition nt_methods (guide : nt_self -> ntq -> ntq) : methods (nt_self * ntq) (list refrow) ntq := {|
  m_jit_reset := false;
  m_reset := fun d => reset_state (snd d);
  m_reward := fun d => nt_reward (fst d);
  m_terminal := fun d => nt_terminal (fst d);
  m_step := fun d rew viz => nt_step_with (fst d) rew (guide (fst d)) viz;
  m_term_w := fun d => p_term_w (ns_p (fst d));
  m_steer_w := fun d => p_steer_w (ns_p (fst d));
  m_dmax := fun d => p_dmax (ns_p (fst d));
  m_gen := fun d pref => nt_demo (fst d) (snd d) "horizontal" 4 pref;
  m_score := fun d => score_with row_nt (p_term_w (ns_p (fst d)));
  m_logpd := fun d => logpd_with (nt_logpd (fst d));
  m_unguided := fun d => (mkNTSelf (no_guid (ns_p (fst d))) (ns_len (fst d)) (ns_front (fst d)) (ns_rear (fst d))
                            (ns_circ (fst d)) (ns_rect (fst d)) (ns_xg (fst d)), snd d) |}.

(** AccTractorTrailer2d; rows of xref have four entries, get_reward reads only those
    (acc_tt2d.py:403-440). *)
Definition row_acc (r : refrow) : accq := mkAcc (row_tt r) 0 0.
Definition acc_methods (proj : acc_self -> accq -> act -> act) (guide : acc_self -> accq -> accq)
  : methods (acc_self * accq) (list refrow) accq := {|
  m_jit_reset := true;
  m_reset := fun d => reset_state (snd d);
  m_reward := fun d => acc_reward (fst d);
  m_terminal := fun d => acc_terminal (fst d);
  m_step := fun d rew viz => acc_step_with (fst d) rew (proj (fst d)) (guide (fst d)) viz;
  m_term_w := fun d => p_term_w (as_p (fst d));
  m_steer_w := fun d => p_steer_w (as_p (fst d));
  m_dmax := fun d => p_dmax (as_p (fst d));
  m_gen := fun d pref => acc_demo (fst d) (snd d) "horizontal" 4 pref;
  m_score := fun d => score_with row_acc (p_term_w (as_p (fst d)));
  m_logpd := fun d => logpd_with (acc_logpd (fst d));
  m_unguided := fun d => (mkAccSelf (mkTTSelf (no_guid (as_p (fst d))) (ts_circ (as_t (fst d))) (ts_rect (as_t (fst d))) (ts_xg (as_t (fst d))))
                            (as_amax (fst d)) (as_omax (fst d)), snd d) |}.

(** The trial loop of run_statistical_evaluation (tests/stat_mbd.py:384-411) in a process [w]: the
    call of clear_jit_cache is commented out (375), each trial makes an object (391), runs the
    planner on it (397) and evaluates the trajectory (400). *)
Fixpoint tt_cached_trials (cls : string -> methods (tt_self * ttq) (list refrow) ttq) (w : world (tt_self * ttq) (list refrow) ttq)
  (g : env_args) (c : cfg) (rg : prng) (ts : list trial) : Res (list verdict) :=
  match ts with
  | [] => Ok []
  | t :: rest =>
      match create_trial_environment g t with
      | Err x => Err x
      | Ok r =>
          match tt_of_robot r with
          | None => Err TypeError
          | Some (s, x0) =>
              let o := w_objs w in
              let '(w1, out) := run cls (exec cls w (New "TractorTrailer2d" (s, x0))) o c rg in
              match out with
              | Err x => Err x
              | Ok out =>
                  match tt_evaluate s 4 (o_traj (out_res out)) with
                  | Err x => Err x
                  | Ok v => match tt_cached_trials cls w1 g c rg rest with Err x => Err x | Ok vs => Ok (v :: vs) end
                  end
              end
          end
      end
  end.
