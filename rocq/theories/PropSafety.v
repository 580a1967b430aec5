(** * Property theorems (generated from ProofsSafety.v by tools/genprops.py; statements only,
    each closed by [exact]). *)
From Verif Require Import Base BaseFacts SpecInput SpecPlan InputFacts Params Geom TT2d Bicycle NTrailer SpecGeom SpecBodies SpecDyn
  Rollout Planner Instances ProofsGeom ProofsBodies ProofsKin ProofsRobots.
From Verif Require Import ProofsSafety.
Open Scope R_scope.

(** C01, tractor-trailer: every row of the returned trajectory is safe. *)
Theorem C01_tt_returned_trajectory_safe :
  forall (s : tt_self) (x0 : ttq) proj guide logpd rew_xref (g : cfg) (rg : prng) out,
  p_proj (ts_p s) = false -> p_guid (ts_p s) = false ->
  p_sh_coll (ts_p s) = true -> p_sh_hitch (ts_p s) = true ->
  tt_sized (ts_p s) ->
  tt_safe (ts_p s) (ts_circ s) (ts_rect s) x0 ->
  run_diffusion (tt_penv s x0 proj guide logpd rew_xref) (Some g) rg = Ok out ->
  Forall (tt_safe (ts_p s) (ts_circ s) (ts_rect s)) (o_traj out).
Proof. exact l_C01_tt_returned_trajectory_safe. Qed.
Print Assumptions C01_tt_returned_trajectory_safe.

(** C01, tractor-trailer: every state visited while scoring any candidate plan is safe. *)
Theorem C01_tt_sampled_rollouts_safe :
  forall (s : tt_self) (x0 : ttq) proj guide logpd rew_xref (us : list act),
  p_proj (ts_p s) = false -> p_guid (ts_p s) = false ->
  p_sh_coll (ts_p s) = true -> p_sh_hitch (ts_p s) = true ->
  tt_sized (ts_p s) ->
  tt_safe (ts_p s) (ts_circ s) (ts_rect s) x0 ->
  Forall (tt_safe (ts_p s) (ts_circ s) (ts_rect s))
         (snd (fst (rollout_term (tt_penv s x0 proj guide logpd rew_xref) us))).
Proof. exact l_C01_tt_sampled_rollouts_safe. Qed.
Print Assumptions C01_tt_sampled_rollouts_safe.

(** C01, bicycle. *)
Theorem C01_bk_returned_trajectory_safe :
  forall (s : bk_self) (x0 : bkq) proj guide logpd rew_xref (g : cfg) (rg : prng) out,
  p_proj (bs_p s) = false -> p_guid (bs_p s) = false ->
  p_sh_coll (bs_p s) = true ->
  tractor_sized (bs_p s) ->
  bk_safe (bs_p s) (bs_circ s) (bs_rect s) x0 ->
  run_diffusion (bk_penv s x0 proj guide logpd rew_xref) (Some g) rg = Ok out ->
  Forall (bk_safe (bs_p s) (bs_circ s) (bs_rect s)) (o_traj out).
Proof. exact l_C01_bk_returned_trajectory_safe. Qed.
Print Assumptions C01_bk_returned_trajectory_safe.

Theorem C01_bk_sampled_rollouts_safe :
  forall (s : bk_self) (x0 : bkq) proj guide logpd rew_xref (us : list act),
  p_proj (bs_p s) = false -> p_guid (bs_p s) = false ->
  p_sh_coll (bs_p s) = true ->
  tractor_sized (bs_p s) ->
  bk_safe (bs_p s) (bs_circ s) (bs_rect s) x0 ->
  Forall (bk_safe (bs_p s) (bs_circ s) (bs_rect s))
         (snd (fst (rollout_term (bk_penv s x0 proj guide logpd rew_xref) us))).
Proof. exact l_C01_bk_sampled_rollouts_safe. Qed.
Print Assumptions C01_bk_sampled_rollouts_safe.

(** C01, N trailers (any N >= 1). *)
Theorem C01_nt_returned_trajectory_safe :
  forall (s : nt_self) (x0 : ntq) guide logpd rew_xref (g : cfg) (rg : prng) out,
  p_guid (ns_p s) = false ->
  p_sh_coll (ns_p s) = true -> p_sh_hitch (ns_p s) = true ->
  nt_sized s -> (1 <= p_num_trailers (ns_p s))%nat ->
  nt_safe s x0 ->
  nt_run s x0 guide logpd rew_xref g rg = Ok out ->
  Forall (fun q => nt_safe s q /\ length (n_ths q) = p_num_trailers (ns_p s)) (o_traj out).
Proof. exact l_C01_nt_returned_trajectory_safe. Qed.
Print Assumptions C01_nt_returned_trajectory_safe.

Theorem C01_nt_sampled_rollouts_safe :
  forall (s : nt_self) (x0 : ntq) guide logpd rew_xref (us : list act),
  p_guid (ns_p s) = false ->
  p_sh_coll (ns_p s) = true -> p_sh_hitch (ns_p s) = true ->
  nt_sized s -> (1 <= p_num_trailers (ns_p s))%nat ->
  length (n_ths x0) = p_num_trailers (ns_p s) -> nt_safe s x0 ->
  Forall (fun q => nt_safe s q /\ length (n_ths q) = p_num_trailers (ns_p s))
         (snd (fst (rollout_term (nt_penv s x0 guide logpd rew_xref) us))).
Proof. exact l_C01_nt_sampled_rollouts_safe. Qed.
Print Assumptions C01_nt_sampled_rollouts_safe.

(** C02: the collision flag alone keeps a clear vehicle clear. *)
Theorem C02_tt_collision_flag :
  forall s proj guide st a, p_proj (ts_p s) = false -> p_guid (ts_p s) = false -> tt_sized (ts_p s) ->
  p_sh_coll (ts_p s) = true ->
  tt_clear (ts_p s) (ts_circ s) (ts_rect s) (st_q st) ->
  tt_clear (ts_p s) (ts_circ s) (ts_rect s) (st_q (tt_step s proj guide st a)).
Proof. exact l_C02_tt_collision_flag. Qed.
Print Assumptions C02_tt_collision_flag.

(** C02: the hitch flag alone keeps the hitch angle within its limit. *)
Theorem C02_tt_hitch_flag :
  forall s proj guide st a, p_proj (ts_p s) = false -> p_guid (ts_p s) = false ->
  p_sh_hitch (ts_p s) = true ->
  tt_hitch_ok (ts_p s) (st_q st) -> tt_hitch_ok (ts_p s) (st_q (tt_step s proj guide st a)).
Proof. exact l_C02_tt_hitch_flag. Qed.
Print Assumptions C02_tt_hitch_flag.

Theorem C02_nt_collision_flag :
  forall s guide st a, p_guid (ns_p s) = false -> nt_sized s ->
  length (n_ths (st_q st)) = p_num_trailers (ns_p s) ->
  p_sh_coll (ns_p s) = true ->
  nt_clear s (st_q st) -> nt_clear s (st_q (nt_step_core s guide false st a)).
Proof. exact l_C02_nt_collision_flag. Qed.
Print Assumptions C02_nt_collision_flag.

Theorem C02_nt_hitch_flag :
  forall s guide st a, p_guid (ns_p s) = false -> nt_sized s -> (1 <= p_num_trailers (ns_p s))%nat ->
  length (n_ths (st_q st)) = p_num_trailers (ns_p s) ->
  p_sh_hitch (ns_p s) = true ->
  nt_hitch_ok s (st_q st) -> nt_hitch_ok s (st_q (nt_step_core s guide false st a)).
Proof. exact l_C02_nt_hitch_flag. Qed.
Print Assumptions C02_nt_hitch_flag.

Theorem C02_bk_collision_flag :
  forall s proj guide st a, p_proj (bs_p s) = false -> p_guid (bs_p s) = false -> tractor_sized (bs_p s) ->
  p_sh_coll (bs_p s) = true ->
  bk_safe (bs_p s) (bs_circ s) (bs_rect s) (st_q st) ->
  bk_safe (bs_p s) (bs_circ s) (bs_rect s) (st_q (bk_step s proj guide st a)).
Proof. exact l_C02_bk_collision_flag. Qed.
Print Assumptions C02_bk_collision_flag.

(** C02: with both flags off every command is executed as given (clipped), whatever it hits. *)
Theorem C02_tt_no_flag_no_protection :
  forall s proj guide st a, p_proj (ts_p s) = false -> p_guid (ts_p s) = false ->
  p_sh_coll (ts_p s) = false -> p_sh_hitch (ts_p s) = false -> st_bak st = false ->
  st_q (tt_step s proj guide st a) = tt_plain (ts_p s) (st_q st) (saturated a) /\
  st_app (tt_step s proj guide st a) = saturated a.
Proof. exact l_C02_tt_no_flag_no_protection. Qed.
Print Assumptions C02_tt_no_flag_no_protection.

(** C03: from any start, after any action sequence, the vehicle is exactly at the start pose or
    in a state satisfying both constraints; once safe it stays safe. *)
Theorem C03_tt_stays_or_safe :
  forall s x0 proj guide (us : list act),
  p_proj (ts_p s) = false -> p_guid (ts_p s) = false -> tt_sized (ts_p s) ->
  p_sh_coll (ts_p s) = true -> p_sh_hitch (ts_p s) = true ->
  Forall (fun q => q = x0 \/ tt_safe (ts_p s) (ts_circ s) (ts_rect s) q)
         (trajectory_states (tt_step s proj guide) (reset_state x0) us).
Proof. exact l_C03_tt_stays_or_safe. Qed.
Print Assumptions C03_tt_stays_or_safe.

Theorem C03_tt_once_safe_always_safe :
  forall s proj guide st (us : list act),
  p_proj (ts_p s) = false -> p_guid (ts_p s) = false -> tt_sized (ts_p s) ->
  p_sh_coll (ts_p s) = true -> p_sh_hitch (ts_p s) = true ->
  tt_safe (ts_p s) (ts_circ s) (ts_rect s) (st_q st) ->
  tt_safe (ts_p s) (ts_circ s) (ts_rect s) (st_q (fold_left (tt_step s proj guide) us st)).
Proof. exact l_C03_tt_once_safe_always_safe. Qed.
Print Assumptions C03_tt_once_safe_always_safe.

Theorem C03_nt_stays_or_safe :
  forall s x0 guide (us : list act),
  p_guid (ns_p s) = false -> nt_sized s -> (1 <= p_num_trailers (ns_p s))%nat ->
  length (n_ths x0) = p_num_trailers (ns_p s) ->
  p_sh_coll (ns_p s) = true -> p_sh_hitch (ns_p s) = true ->
  Forall (fun q => q = x0 \/ nt_safe s q)
         (trajectory_states (nt_step_core s guide false) (reset_state x0) us).
Proof. exact l_C03_nt_stays_or_safe. Qed.
Print Assumptions C03_nt_stays_or_safe.

Theorem C03_bk_stays_or_safe :
  forall s x0 proj guide (us : list act),
  p_proj (bs_p s) = false -> p_guid (bs_p s) = false -> tractor_sized (bs_p s) ->
  p_sh_coll (bs_p s) = true ->
  Forall (fun q => q = x0 \/ bk_safe (bs_p s) (bs_circ s) (bs_rect s) q)
         (trajectory_states (bk_step s proj guide) (reset_state x0) us).
Proof. exact l_C03_bk_stays_or_safe. Qed.
Print Assumptions C03_bk_stays_or_safe.

(** C07: the returned rows follow from each other by the plain dynamics under the returned
    actions (any flag setting). *)
Theorem C07_tt_plan_is_feasible :
  forall (s : tt_self) (x0 : ttq) proj guide logpd rew_xref (g : cfg) (rg : prng) out,
  p_proj (ts_p s) = false -> p_guid (ts_p s) = false ->
  run_diffusion (tt_penv s x0 proj guide logpd rew_xref) (Some g) rg = Ok out ->
  length (o_Y0 out) = g_Hsample g /\ length (o_traj out) = S (g_Hsample g) /\ nth 0 (o_traj out) x0 = x0 /\
  (forall t, (t < g_Hsample g)%nat ->
     nth (S t) (o_traj out) x0 = tt_plain (ts_p s) (nth t (o_traj out) x0) (nth t (o_Y0 out) (0, 0))).
Proof. exact l_C07_tt_plan_is_feasible. Qed.
Print Assumptions C07_tt_plan_is_feasible.

(** C07: executing the returned actions again, with the same shield or with none, reproduces the
    returned states, and the shield applies exactly the returned actions. *)
Theorem C07_tt_reexecution :
  forall (s : tt_self) (x0 : ttq) proj guide logpd rew_xref (g : cfg) (rg : prng) out,
  p_proj (ts_p s) = false -> p_guid (ts_p s) = false ->
  run_diffusion (tt_penv s x0 proj guide logpd rew_xref) (Some g) rg = Ok out ->
  trajectory_states (tt_step s proj guide) (reset_state x0) (o_Y0 out) = o_traj out /\
  snd (rollout_us (tt_step s proj guide) (reset_state x0) (o_Y0 out)) = o_Y0 out /\
  trajectory_states (tt_step (tt_unshielded s) proj guide) (reset_state x0) (o_Y0 out) = o_traj out.
Proof. exact l_C07_tt_reexecution. Qed.
Print Assumptions C07_tt_reexecution.

Theorem C07_bk_plan_is_feasible :
  forall (s : bk_self) (x0 : bkq) proj guide logpd rew_xref (g : cfg) (rg : prng) out,
  p_proj (bs_p s) = false -> p_guid (bs_p s) = false ->
  run_diffusion (bk_penv s x0 proj guide logpd rew_xref) (Some g) rg = Ok out ->
  length (o_Y0 out) = g_Hsample g /\ length (o_traj out) = S (g_Hsample g) /\ nth 0 (o_traj out) x0 = x0 /\
  (forall t, (t < g_Hsample g)%nat ->
     nth (S t) (o_traj out) x0 = bk_plain (bs_p s) (nth t (o_traj out) x0) (nth t (o_Y0 out) (0, 0))).
Proof. exact l_C07_bk_plan_is_feasible. Qed.
Print Assumptions C07_bk_plan_is_feasible.

Theorem C07_bk_reexecution :
  forall (s : bk_self) (x0 : bkq) proj guide logpd rew_xref (g : cfg) (rg : prng) out,
  p_proj (bs_p s) = false -> p_guid (bs_p s) = false ->
  run_diffusion (bk_penv s x0 proj guide logpd rew_xref) (Some g) rg = Ok out ->
  trajectory_states (bk_step s proj guide) (reset_state x0) (o_Y0 out) = o_traj out /\
  snd (rollout_us (bk_step s proj guide) (reset_state x0) (o_Y0 out)) = o_Y0 out /\
  trajectory_states (bk_step (bk_unshielded s) proj guide) (reset_state x0) (o_Y0 out) = o_traj out.
Proof. exact l_C07_bk_reexecution. Qed.
Print Assumptions C07_bk_reexecution.

Theorem C07_nt_plan_is_feasible :
  forall (s : nt_self) (x0 : ntq) guide logpd rew_xref (g : cfg) (rg : prng) out,
  p_guid (ns_p s) = false -> length (ns_len s) = p_num_trailers (ns_p s) ->
  nt_run s x0 guide logpd rew_xref g rg = Ok out ->
  length (o_Y0 out) = g_Hsample g /\ length (o_traj out) = S (g_Hsample g) /\ nth 0 (o_traj out) x0 = x0 /\
  (forall t, (t < g_Hsample g)%nat ->
     nth (S t) (o_traj out) x0 = nt_plain s (nth t (o_traj out) x0) (nth t (o_Y0 out) (0, 0))).
Proof. exact l_C07_nt_plan_is_feasible. Qed.
Print Assumptions C07_nt_plan_is_feasible.

Theorem C07_nt_reexecution :
  forall (s : nt_self) (x0 : ntq) guide logpd rew_xref (g : cfg) (rg : prng) out,
  p_guid (ns_p s) = false -> length (ns_len s) = p_num_trailers (ns_p s) ->
  nt_run s x0 guide logpd rew_xref g rg = Ok out ->
  trajectory_states (nt_step_core s guide false) (reset_state x0) (o_Y0 out) = o_traj out /\
  snd (rollout_us (nt_step_core s guide false) (reset_state x0) (o_Y0 out)) = o_Y0 out /\
  trajectory_states (nt_step_core (nt_unshielded s) guide false) (reset_state x0) (o_Y0 out) = o_traj out.
Proof. exact l_C07_nt_reexecution. Qed.
Print Assumptions C07_nt_reexecution.

(** C15: rew_final is the mean per-step reward along the returned trajectory plus the weighted
    terminal reward of its last state. *)
Theorem C15_tt_final_reward :
  forall (s : tt_self) (x0 : ttq) proj guide logpd rew_xref (g : cfg) (rg : prng) out,
  p_proj (ts_p s) = false -> p_guid (ts_p s) = false ->
  run_diffusion (tt_penv s x0 proj guide logpd rew_xref) (Some g) rg = Ok out ->
  o_rew out =
    mean (map (fun x => st_rew (tt_step s proj guide (reset_state (fst x)) (snd x))) (combine (o_traj out) (o_Y0 out)))
    + p_term_w (ts_p s) * tt_terminal s (last (o_traj out) x0).
Proof. exact l_C15_tt_final_reward. Qed.
Print Assumptions C15_tt_final_reward.

Theorem C15_bk_final_reward :
  forall (s : bk_self) (x0 : bkq) proj guide logpd rew_xref (g : cfg) (rg : prng) out,
  p_proj (bs_p s) = false -> p_guid (bs_p s) = false ->
  run_diffusion (bk_penv s x0 proj guide logpd rew_xref) (Some g) rg = Ok out ->
  o_rew out =
    mean (map (fun x => st_rew (bk_step s proj guide (reset_state (fst x)) (snd x))) (combine (o_traj out) (o_Y0 out)))
    + p_term_w (bs_p s) * bk_terminal s (last (o_traj out) x0).
Proof. exact l_C15_bk_final_reward. Qed.
Print Assumptions C15_bk_final_reward.

Theorem C15_nt_final_reward :
  forall (s : nt_self) (x0 : ntq) guide logpd rew_xref (g : cfg) (rg : prng) out,
  p_guid (ns_p s) = false -> length (ns_len s) = p_num_trailers (ns_p s) ->
  nt_run s x0 guide logpd rew_xref g rg = Ok out ->
  o_rew out =
    mean (map (fun x => st_rew (nt_step_core s guide false (reset_state (fst x)) (snd x))) (combine (o_traj out) (o_Y0 out)))
    + p_term_w (ns_p s) * nt_terminal s (last (o_traj out) x0).
Proof. exact l_C15_nt_final_reward. Qed.
Print Assumptions C15_nt_final_reward.

(** C44: after any history the backup flag is still off and a command leading to a safe state is
    executed unchanged (up to clipping). *)
Theorem C44_tt_no_latch :
  forall s x0 proj guide (us : list act) (a : act),
  p_proj (ts_p s) = false -> p_guid (ts_p s) = false -> tt_sized (ts_p s) ->
  proper_obstacles (ts_circ s) (ts_rect s) ->
  let st := fold_left (tt_step s proj guide) us (reset_state x0) in
  st_bak st = false /\
  (tt_safe (ts_p s) (ts_circ s) (ts_rect s) (tt_plain (ts_p s) (st_q st) (saturated a)) ->
   st_q (tt_step s proj guide st a) = tt_plain (ts_p s) (st_q st) (saturated a) /\
   st_app (tt_step s proj guide st a) = saturated a).
Proof. exact l_C44_tt_no_latch. Qed.
Print Assumptions C44_tt_no_latch.

Theorem C44_bk_no_latch :
  forall s x0 proj guide (us : list act) (a : act),
  p_proj (bs_p s) = false -> p_guid (bs_p s) = false -> tractor_sized (bs_p s) ->
  proper_obstacles (bs_circ s) (bs_rect s) ->
  let st := fold_left (bk_step s proj guide) us (reset_state x0) in
  st_bak st = false /\
  (bk_safe (bs_p s) (bs_circ s) (bs_rect s) (bk_plain (bs_p s) (st_q st) (saturated a)) ->
   st_q (bk_step s proj guide st a) = bk_plain (bs_p s) (st_q st) (saturated a) /\
   st_app (bk_step s proj guide st a) = saturated a).
Proof. exact l_C44_bk_no_latch. Qed.
Print Assumptions C44_bk_no_latch.

Theorem C44_nt_no_latch :
  forall s x0 guide (us : list act) (a : act),
  p_guid (ns_p s) = false -> nt_sized s -> (1 <= p_num_trailers (ns_p s))%nat ->
  length (n_ths x0) = p_num_trailers (ns_p s) ->
  proper_obstacles (ns_circ s) (ns_rect s) ->
  let st := fold_left (nt_step_core s guide false) us (reset_state x0) in
  st_bak st = false /\
  (nt_safe s (nt_plain s (st_q st) (saturated a)) ->
   st_q (nt_step_core s guide false st a) = nt_plain s (st_q st) (saturated a) /\
   st_app (nt_step_core s guide false st a) = saturated a).
Proof. exact l_C44_nt_no_latch. Qed.
Print Assumptions C44_nt_no_latch.

(** C26: scoring starts from the given state; row t is the state after t+1 actions, row t of
    the rewards the reward of that step. *)
Theorem C26_tt_rollout_starts_at_state :
  forall s proj guide st (us : list act), p_proj (ts_p s) = false -> p_guid (ts_p s) = false ->
  st_bak st = false ->
  snd (fst (rollout_us (tt_step s proj guide) st us)) = replay (tt_step s proj guide) st us /\
  snd (fst (rollout_us_with_terminal (tt_step s proj guide) (tt_terminal s) (p_term_w (ts_p s)) st us))
    = replay (tt_step s proj guide) st us /\
  fst (fst (rollout_us (tt_step s proj guide) st us)) = eval_us (tt_step s proj guide) st us.
Proof. exact l_C26_tt_rollout_starts_at_state. Qed.
Print Assumptions C26_tt_rollout_starts_at_state.

Theorem C26_bk_rollout_starts_at_state :
  forall s proj guide st (us : list act), p_proj (bs_p s) = false -> p_guid (bs_p s) = false ->
  st_bak st = false ->
  snd (fst (rollout_us (bk_step s proj guide) st us)) = replay (bk_step s proj guide) st us /\
  snd (fst (rollout_us_with_terminal (bk_step s proj guide) (bk_terminal s) (p_term_w (bs_p s)) st us))
    = replay (bk_step s proj guide) st us /\
  fst (fst (rollout_us (bk_step s proj guide) st us)) = eval_us (bk_step s proj guide) st us.
Proof. exact l_C26_bk_rollout_starts_at_state. Qed.
Print Assumptions C26_bk_rollout_starts_at_state.

Theorem C26_nt_rollout_starts_at_state :
  forall s guide st (us : list act), p_guid (ns_p s) = false ->
  length (ns_len s) = p_num_trailers (ns_p s) -> length (n_ths (st_q st)) = p_num_trailers (ns_p s) ->
  st_bak st = false ->
  snd (fst (rollout_us (nt_step_core s guide false) st us)) = replay (nt_step_core s guide false) st us /\
  snd (fst (rollout_us_with_terminal (nt_step_core s guide false) (nt_terminal s) (p_term_w (ns_p s)) st us))
    = replay (nt_step_core s guide false) st us /\
  fst (fst (rollout_us (nt_step_core s guide false) st us)) = eval_us (nt_step_core s guide false) st us.
Proof. exact l_C26_nt_rollout_starts_at_state. Qed.
Print Assumptions C26_nt_rollout_starts_at_state.

Example C01_tt_hypotheses_example :
  p_proj (ts_p ex_tt) = false /\ p_guid (ts_p ex_tt) = false /\ p_sh_coll (ts_p ex_tt) = true /\
  p_sh_hitch (ts_p ex_tt) = true /\ tt_sized (ts_p ex_tt) /\ proper_obstacles (ts_circ ex_tt) (ts_rect ex_tt) /\
  tt_safe (ts_p ex_tt) (ts_circ ex_tt) (ts_rect ex_tt) (mkTT 0 0 0 0).
Proof. exact x_C01_tt_hypotheses_example. Qed.

Example C01_bk_hypotheses_example :
  p_proj (bs_p ex_bk) = false /\ p_guid (bs_p ex_bk) = false /\ p_sh_coll (bs_p ex_bk) = true /\
  tractor_sized (bs_p ex_bk) /\ bk_safe (bs_p ex_bk) (bs_circ ex_bk) (bs_rect ex_bk) (mkBK 0 0 0).
Proof. exact x_C01_bk_hypotheses_example. Qed.

Example C01_nt_hypotheses_example :
  p_guid (ns_p ex_nt) = false /\ p_sh_coll (ns_p ex_nt) = true /\ p_sh_hitch (ns_p ex_nt) = true /\
  nt_sized ex_nt /\ p_num_trailers (ns_p ex_nt) = 2%nat /\ nt_safe ex_nt (mkNT 0 0 0 [0; 0]) /\
  length (n_ths (mkNT 0 0 0 [0; 0])) = p_num_trailers (ns_p ex_nt).
Proof. exact x_C01_nt_hypotheses_example. Qed.
