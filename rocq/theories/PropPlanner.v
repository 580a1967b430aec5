(** * Property theorems (generated from ProofsPlanner.v by tools/genprops.py; statements only,
    each closed by [exact]). *)
From Coq Require Import Permutation.
From Verif Require Import Base BaseFacts Params Geom TT2d Bicycle NTrailer Acc SpecGeom SpecBodies SpecDyn SpecPlan
  Rollout Planner Instances ProofsGeom ProofsBodies ProofsKin ProofsRobots ProofsSafety ProofsStep.
From Verif Require Import ProofsPlanner.
Open Scope R_scope.

(** C12: the four arrays of the schedule have one entry per diffusion step; betas run linearly
    from beta0 to betaT; alphas_bar are the running products of 1 - beta. *)
Theorem C12_schedule_formulas :
  forall g, length (betas g) = g_Ndiffuse g /\ length (alphas g) = g_Ndiffuse g /\
  length (alphas_bar g) = g_Ndiffuse g /\ length (sigmas g) = g_Ndiffuse g /\
  forall i, (i < g_Ndiffuse g)%nat ->
  nth i (betas g) 0 = beta_at (g_beta0 g) (g_betaT g) (g_Ndiffuse g) i /\
  nth i (alphas g) 0 = 1 - beta_at (g_beta0 g) (g_betaT g) (g_Ndiffuse g) i /\
  nth i (alphas_bar g) 0 = alpha_bar_at (g_beta0 g) (g_betaT g) (g_Ndiffuse g) i /\
  nth i (sigmas g) 0 = sqrt (1 - alpha_bar_at (g_beta0 g) (g_betaT g) (g_Ndiffuse g) i).
Proof. exact l_C12_schedule_formulas. Qed.
Print Assumptions C12_schedule_formulas.

(** C12: for beta0, betaT strictly between 0 and 1 the schedule is strictly monotone and
    inside (0,1), first and last betas are the configured ones. *)
Theorem C12_schedule_well_formed :
  forall g, 0 < g_beta0 g < 1 -> 0 < g_betaT g < 1 -> (1 <= g_Ndiffuse g)%nat ->
  nth 0 (betas g) 0 = g_beta0 g /\
  ((2 <= g_Ndiffuse g)%nat -> nth (g_Ndiffuse g - 1) (betas g) 0 = g_betaT g) /\
  (forall i, (i < g_Ndiffuse g)%nat ->
     0 < nth i (alphas g) 0 < 1 /\ 0 < nth i (alphas_bar g) 0 < 1 /\ 0 < nth i (sigmas g) 0 < 1 /\
     0 < sqrt (nth i (alphas_bar g) 0) /\ 0 < sqrt (nth i (alphas g) 0) /\ 0 < 1 - nth i (alphas_bar g) 0) /\
  (forall i j, (i < j)%nat -> (j < g_Ndiffuse g)%nat ->
     nth j (alphas_bar g) 0 < nth i (alphas_bar g) 0 /\ nth i (sigmas g) 0 < nth j (sigmas g) 0).
Proof. exact l_C12_schedule_well_formed. Qed.
Print Assumptions C12_schedule_well_formed.

(** The default schedule of MBDConfig satisfies the hypotheses. *)
Example C12_default_config_example :
  0 < g_beta0 ex_cfg < 1 /\ 0 < g_betaT ex_cfg < 1 /\ (1 <= g_Ndiffuse ex_cfg)%nat.
Proof. exact x_C12_default_config_example. Qed.

(** C13: the weights of a non-empty sample set are positive and sum to one, one per sample. *)
Theorem C13_weights_are_a_distribution :
  forall (Q : Type) (env : penv Q) g samples, samples <> [] ->
  let ws := snd (evaluate_samples env g samples) in
  length ws = length samples /\ distribution ws.
Proof. exact l_C13_weights_are_a_distribution. Qed.
Print Assumptions C13_weights_are_a_distribution.

(** C13: without a demonstration the weights order the samples exactly by their reward. *)
Theorem C13_weights_follow_reward :
  forall (Q : Type) (env : penv Q) g samples i j, 0 < g_temp g -> g_demo g = false ->
  (i < length samples)%nat -> (j < length samples)%nat ->
  let rews := snd (fst (evaluate_samples env g samples)) in
  let ws := snd (evaluate_samples env g samples) in
  (nth i ws 0 < nth j ws 0 <-> nth i rews 0 < nth j rews 0).
Proof. exact l_C13_weights_follow_reward. Qed.
Print Assumptions C13_weights_follow_reward.

(** C13: in every mode the weights order the samples exactly by their (possibly
    demonstration-raised) score and are the normalised exponentials of these scores. *)
Theorem C13_weights_follow_score :
  forall (Q : Type) (env : penv Q) g rews qss i j, length qss = length rews ->
  (i < length rews)%nat -> (j < length rews)%nat ->
  softmax (log_scores env g rews qss) = exp_weights (log_scores env g rews qss) /\
  (nth i (softmax (log_scores env g rews qss)) 0 < nth j (softmax (log_scores env g rews qss)) 0 <->
   nth i (log_scores env g rews qss) 0 < nth j (log_scores env g rews qss) 0).
Proof. exact l_C13_weights_follow_score. Qed.
Print Assumptions C13_weights_follow_score.

(** C13: adding a constant to all rewards (and to the demonstration's reward, if one is used)
    changes no weight. *)
Theorem C13_shift_invariant :
  forall (Q : Type) (env env' : penv Q) g rews qss c, rews <> [] ->
  (g_demo g = true -> pe_logpd env' = pe_logpd env /\ pe_rew_xref env' = pe_rew_xref env + c) ->
  softmax (log_scores env' g (map (fun r => r + c) rews) qss) = softmax (log_scores env g rews qss).
Proof. exact l_C13_shift_invariant. Qed.
Print Assumptions C13_shift_invariant.

(** C13: permuting the samples permutes the weights with them. *)
Theorem C13_permutation_of_weights :
  forall (Q : Type) (env : penv Q) g samples samples', Permutation samples samples' ->
  Permutation (combine samples (snd (evaluate_samples env g samples)))
              (combine samples' (snd (evaluate_samples env g samples'))).
Proof. exact l_C13_permutation_of_weights. Qed.
Print Assumptions C13_permutation_of_weights.

(** C13: the denoising step's result does not depend on the order of the noise samples. *)
Theorem C13_permutation_of_samples :
  forall (Q : Type) (env : penv Q) g i eps eps' Y, Permutation eps eps' ->
  reverse_once env g i eps Y = reverse_once env g i eps' Y.
Proof. exact l_C13_permutation_of_samples. Qed.
Print Assumptions C13_permutation_of_samples.

(** C14: with the demonstration enabled a sample's score is the larger of its own standardised
    reward and its demonstration score. *)
Theorem C14_score_is_larger_of_both :
  forall (Q : Type) (env : penv Q) g rews qss n m, g_demo g = true -> length qss = length rews ->
  (n < length rews)%nat ->
  is_max m (map (fun qs => pe_logpd env qs (g_motion g)) qss) ->
  let own := (nth n rews 0 - mean rews) / spread rews / g_temp g in
  let demo := (pe_logpd env (nth n qss []) (g_motion g) - m + pe_rew_xref env - mean rews) / spread rews / g_temp g in
  nth n (log_scores env g rews qss) 0 = Rmax own demo.
Proof. exact l_C14_score_is_larger_of_both. Qed.
Print Assumptions C14_score_is_larger_of_both.

(** C14: hence no score is lowered, and the sample matching the demonstration best scores at
    least what the demonstration itself would score. *)
Theorem C14_demonstration_only_raises :
  forall (Q : Type) (env : penv Q) g g' rews qss n, g_demo g = true -> g_demo g' = false -> g_temp g' = g_temp g ->
  length qss = length rews -> (n < length rews)%nat ->
  nth n (log_scores env g' rews qss) 0 <= nth n (log_scores env g rews qss) 0 /\
  (is_max (pe_logpd env (nth n qss []) (g_motion g)) (map (fun qs => pe_logpd env qs (g_motion g)) qss) ->
   nth n (log_scores env g rews qss) 0 =
     Rmax ((nth n rews 0 - mean rews) / spread rews / g_temp g) ((pe_rew_xref env - mean rews) / spread rews / g_temp g)).
Proof. exact l_C14_demonstration_only_raises. Qed.
Print Assumptions C14_demonstration_only_raises.

(** C14: with the demonstration disabled the scores are the standardised rewards: neither the
    visited states nor the demonstration matter. *)
Theorem C14_disabled_means_rewards_only :
  forall (Q : Type) (env env' : penv Q) g rews qss qss', g_demo g = false ->
  log_scores env g rews qss = log_scores env' g rews qss' /\
  log_scores env g rews qss = map (fun r => (r - mean rews) / spread rews / g_temp g) rews.
Proof. exact l_C14_disabled_means_rewards_only. Qed.
Print Assumptions C14_disabled_means_rewards_only.

(** C09: one reverse step at index i returns, for every time t and both components, the
    average of the controls actually executed by the samples; the weights are the probability
    distribution the samples were given. Nothing else of the previous mean is left. *)
Theorem C09_denoising_step_is_weighted_average :
  forall (Q : Type) (env : penv Q) g i eps Ybar,
  0 < g_beta0 g < 1 -> 0 < g_betaT g < 1 -> (1 <= i < g_Ndiffuse g)%nat -> length Ybar = g_Hsample g -> eps <> [] ->
  let samples := map (make_sample (g_motion g) (nth i (sigmas g) 0 / sqrt (nth (i - 1) (alphas_bar g) 0)) Ybar) eps in
  let executed := map (fun us => snd (rollout_term env us)) samples in
  let ws := snd (evaluate_samples env g samples) in
  let Y' := fst (reverse_once env g i eps Ybar) in
  distribution ws /\ length ws = length samples /\ length Y' = g_Hsample g /\
  forall t, (t < g_Hsample g)%nat ->
    fst (nth t Y' (0, 0)) = wavg ws (map (fun u => fst (nth t u (0, 0))) executed) /\
    snd (nth t Y' (0, 0)) = wavg ws (map (fun u => snd (nth t u (0, 0))) executed).
Proof. exact l_C09_denoising_step_is_weighted_average. Qed.
Print Assumptions C09_denoising_step_is_weighted_average.

(** C09: the previous mean enters only through the samples. *)
Theorem C09_previous_mean_only_through_samples :
  forall (Q : Type) (env : penv Q) g i eps eps' Y Y',
  0 < g_beta0 g < 1 -> 0 < g_betaT g < 1 -> (1 <= i < g_Ndiffuse g)%nat ->
  length Y = g_Hsample g -> length Y' = g_Hsample g ->
  let scale := nth i (sigmas g) 0 / sqrt (nth (i - 1) (alphas_bar g) 0) in
  map (make_sample (g_motion g) scale Y) eps = map (make_sample (g_motion g) scale Y') eps' ->
  reverse_once env g i eps Y = reverse_once env g i eps' Y'.
Proof. exact l_C09_previous_mean_only_through_samples. Qed.
Print Assumptions C09_previous_mean_only_through_samples.

Example C09_example :
  0 < g_beta0 ex_cfg < 1 /\ 0 < g_betaT ex_cfg < 1 /\ (1 <= 99 < g_Ndiffuse ex_cfg)%nat /\
  length (YN ex_cfg) = g_Hsample ex_cfg /\ [[(1, 2)]] <> ([] : list (list act)).
Proof. exact x_C09_example. Qed.

(** C10: every intermediate mean and the returned plan are in the control box. *)
Theorem C10_tt_means_in_box :
  forall s x0 proj guide logpd rx g rg out, p_proj (ts_p s) = false -> 0 < g_beta0 g < 1 -> 0 < g_betaT g < 1 ->
  run_diffusion (tt_penv s x0 proj guide logpd rx) (Some g) rg = Ok out ->
  Forall in_control_box (o_Y0 out) /\ Forall (Forall in_control_box) (o_Ybars out).
Proof. exact l_C10_tt_means_in_box. Qed.
Print Assumptions C10_tt_means_in_box.

Theorem C10_bk_means_in_box :
  forall s x0 proj guide logpd rx g rg out, p_proj (bs_p s) = false -> 0 < g_beta0 g < 1 -> 0 < g_betaT g < 1 ->
  run_diffusion (bk_penv s x0 proj guide logpd rx) (Some g) rg = Ok out ->
  Forall in_control_box (o_Y0 out) /\ Forall (Forall in_control_box) (o_Ybars out).
Proof. exact l_C10_bk_means_in_box. Qed.
Print Assumptions C10_bk_means_in_box.

Theorem C10_nt_means_in_box :
  forall s x0 guide logpd rx g rg out, 0 < g_beta0 g < 1 -> 0 < g_betaT g < 1 ->
  nt_run s x0 guide logpd rx g rg = Ok out ->
  Forall in_control_box (o_Y0 out) /\ Forall (Forall in_control_box) (o_Ybars out).
Proof. exact l_C10_nt_means_in_box. Qed.
Print Assumptions C10_nt_means_in_box.

Theorem C10_acc_means_in_box :
  forall s x0 proj guide logpd rx g rg out, p_proj (as_p s) = false -> 0 < as_amax s -> 0 < g_beta0 g < 1 -> 0 < g_betaT g < 1 ->
  run_diffusion (acc_penv s x0 proj guide logpd rx) (Some g) rg = Ok out ->
  Forall in_control_box (o_Y0 out) /\ Forall (Forall in_control_box) (o_Ybars out).
Proof. exact l_C10_acc_means_in_box. Qed.
Print Assumptions C10_acc_means_in_box.

(** C11: direction 2 (forward only) / -2 (backward only): all speed commands of the returned
    plan have that sign, in every mode without projection. *)
Theorem C11_tt_commands_have_direction :
  forall s x0 proj guide logpd rx g rg out, p_proj (ts_p s) = false -> 0 < g_beta0 g < 1 -> 0 < g_betaT g < 1 ->
  run_diffusion (tt_penv s x0 proj guide logpd rx) (Some g) rg = Ok out ->
  (g_motion g = 2%Z -> Forall (fun a => 0 <= fst a <= 1) (o_Y0 out)) /\
  (g_motion g = (-2)%Z -> Forall (fun a => -1 <= fst a <= 0) (o_Y0 out)).
Proof. exact l_C11_tt_commands_have_direction. Qed.
Print Assumptions C11_tt_commands_have_direction.

Theorem C11_bk_commands_have_direction :
  forall s x0 proj guide logpd rx g rg out, p_proj (bs_p s) = false -> 0 < g_beta0 g < 1 -> 0 < g_betaT g < 1 ->
  run_diffusion (bk_penv s x0 proj guide logpd rx) (Some g) rg = Ok out ->
  (g_motion g = 2%Z -> Forall (fun a => 0 <= fst a <= 1) (o_Y0 out)) /\
  (g_motion g = (-2)%Z -> Forall (fun a => -1 <= fst a <= 0) (o_Y0 out)).
Proof. exact l_C11_bk_commands_have_direction. Qed.
Print Assumptions C11_bk_commands_have_direction.

Theorem C11_nt_commands_have_direction :
  forall s x0 guide logpd rx g rg out, 0 < g_beta0 g < 1 -> 0 < g_betaT g < 1 ->
  nt_run s x0 guide logpd rx g rg = Ok out ->
  (g_motion g = 2%Z -> Forall (fun a => 0 <= fst a <= 1) (o_Y0 out)) /\
  (g_motion g = (-2)%Z -> Forall (fun a => -1 <= fst a <= 0) (o_Y0 out)).
Proof. exact l_C11_nt_commands_have_direction. Qed.
Print Assumptions C11_nt_commands_have_direction.

(** C11: hence the vehicle never moves against the enforced direction: the displacement of
    every step of the returned trajectory, projected on the vehicle's heading, has that sign. *)
Theorem C11_tt_never_moves_against :
  forall s x0 proj guide logpd rx g rg out, p_proj (ts_p s) = false -> p_guid (ts_p s) = false ->
  0 <= p_dt (ts_p s) -> 0 <= p_vmax (ts_p s) -> 0 < g_beta0 g < 1 -> 0 < g_betaT g < 1 ->
  run_diffusion (tt_penv s x0 proj guide logpd rx) (Some g) rg = Ok out ->
  forall t, (t < g_Hsample g)%nat ->
  let q := nth t (o_traj out) x0 in let q' := nth (S t) (o_traj out) x0 in
  let along := (t_px q' - t_px q) * cos (t_th1 q) + (t_py q' - t_py q) * sin (t_th1 q) in
  (g_motion g = 2%Z -> 0 <= along) /\ (g_motion g = (-2)%Z -> along <= 0).
Proof. exact l_C11_tt_never_moves_against. Qed.
Print Assumptions C11_tt_never_moves_against.

Theorem C11_bk_never_moves_against :
  forall s x0 proj guide logpd rx g rg out, p_proj (bs_p s) = false -> p_guid (bs_p s) = false ->
  0 <= p_dt (bs_p s) -> 0 <= p_vmax (bs_p s) -> 0 < g_beta0 g < 1 -> 0 < g_betaT g < 1 ->
  run_diffusion (bk_penv s x0 proj guide logpd rx) (Some g) rg = Ok out ->
  forall t, (t < g_Hsample g)%nat ->
  let q := nth t (o_traj out) x0 in let q' := nth (S t) (o_traj out) x0 in
  let along := (b_px q' - b_px q) * cos (b_th q) + (b_py q' - b_py q) * sin (b_th q) in
  (g_motion g = 2%Z -> 0 <= along) /\ (g_motion g = (-2)%Z -> along <= 0).
Proof. exact l_C11_bk_never_moves_against. Qed.
Print Assumptions C11_bk_never_moves_against.

Theorem C11_nt_never_moves_against :
  forall s x0 guide logpd rx g rg out, p_guid (ns_p s) = false -> length (ns_len s) = p_num_trailers (ns_p s) ->
  0 <= p_dt (ns_p s) -> 0 <= p_vmax (ns_p s) -> 0 < g_beta0 g < 1 -> 0 < g_betaT g < 1 ->
  nt_run s x0 guide logpd rx g rg = Ok out ->
  forall t, (t < g_Hsample g)%nat ->
  let q := nth t (o_traj out) x0 in let q' := nth (S t) (o_traj out) x0 in
  let along := (n_px q' - n_px q) * cos (n_th0 q) + (n_py q' - n_py q) * sin (n_th0 q) in
  (g_motion g = 2%Z -> 0 <= along) /\ (g_motion g = (-2)%Z -> along <= 0).
Proof. exact l_C11_nt_never_moves_against. Qed.
Print Assumptions C11_nt_never_moves_against.

(** C11 (finding): the acceleration class ignores strict preferences for the direction of motion: started at 1 m/s forward with preference -2, its first step goes 0.2 m forward, for every noise draw. *)
Theorem C11_acc_refuted :
  forall proj guide logpd rx rg out,
  run_diffusion (acc_penv ex_acc_free (mkAcc (mkTT 0 0 0 0) 1 0) proj guide logpd rx) (Some ex_cfg_back) rg = Ok out ->
  g_motion ex_cfg_back = (-2)%Z /\
  t_px (a_q (nth 0 (o_traj out) (mkAcc (mkTT 0 0 0 0) 1 0))) = 0 /\
  t_px (a_q (nth 1 (o_traj out) (mkAcc (mkTT 0 0 0 0) 1 0))) = 2/10.
Proof. exact l_C11_acc_refuted. Qed.
Print Assumptions C11_acc_refuted.

Example C11_example :
  p_proj (ts_p ex_tt) = false /\ p_guid (ts_p ex_tt) = false /\ 0 <= p_dt (ts_p ex_tt) /\ 0 <= p_vmax (ts_p ex_tt) /\
  exists out, run_diffusion (tt_penv ex_tt (mkTT 0 0 0 0) (fun _ a => a) (fun q => q) (fun _ _ => 0) 0) (Some ex_cfg_back)
     (mkPrng unit (fun _ => tt) (fun _ => (tt, tt)) (fun _ n h => repeat (repeat (1, -1) h) n)) = Ok out.
Proof. exact x_C11_example. Qed.

(** C39: the steering reward is the smoothness score; it depends on the steering commands only,
    not on the speeds and not on the maximal steering angle. *)
Theorem C39_steering_reward_formula :
  forall dmax us, 0 < dmax -> steering_reward dmax us = steering_score (map snd us).
Proof. exact l_C39_steering_reward_formula. Qed.
Print Assumptions C39_steering_reward_formula.

(** C39: in the control box it lies in [0,1] and is 1 exactly for zero steering throughout. *)
Theorem C39_steering_reward_range :
  forall dmax us, 0 < dmax -> us <> [] -> (forall a, In a us -> -1 <= snd a <= 1) ->
  0 <= steering_reward dmax us <= 1 /\
  (steering_reward dmax us = 1 <-> forall a, In a us -> snd a = 0).
Proof. exact l_C39_steering_reward_range. Qed.
Print Assumptions C39_steering_reward_range.

Example C39_example : 0 < p_dmax default_params /\ (forall a, In a [(1, -1); (0, 1/2)] -> -1 <= snd a <= 1) /\
  steering_reward (p_dmax default_params) [(1, 0); (-1, 0)] = 1.
Proof. exact x_C39_example. Qed.
