(** * Property theorems (generated from ProofsTemp.v by tools/genprops.py; statements only,
    each closed by [exact]). *)
From Verif Require Import Base BaseFacts Params Geom TT2d Bicycle NTrailer Acc Rollout Instances Planner SpecPlan SpecTemp SpecInput ProofsRobots ProofsStep ProofsPlanner.
From Verif Require Import ProofsTemp.
Open Scope R_scope.

(** The weights of two samples differ by the factor exp (difference of their rewards / (spread of the rewards x
    temperature)); so a sample's weight is at most exp (- its deficit to any other sample / (spread x temperature)). *)
Theorem C74_weight_ratio :
  forall (Q : Type) (env : penv Q) g samples i j, 0 < g_temp g -> g_demo g = false ->
  (i < length samples)%nat -> (j < length samples)%nat ->
  let rews := snd (fst (evaluate_samples env g samples)) in
  let ws := snd (evaluate_samples env g samples) in
  nth i ws 0 = nth j ws 0 * exp ((nth i rews 0 - nth j rews 0) / (spread rews * g_temp g)) /\
  nth i ws 0 <= exp (- ((nth j rews 0 - nth i rews 0) / (spread rews * g_temp g))).
Proof. exact l_C74_weight_ratio. Qed.
Print Assumptions C74_weight_ratio.

(** Cold: if one sample leads all others by d, the denoised plan is its executed plan up to
    2 (n - 1) exp (- d / (spread x temperature)) in every command, and its weight is 1 up to half of that. *)
Theorem C74_cold_follows_the_best :
  forall (Q : Type) (env : penv Q) g i eps Ybar b d,
  0 < g_beta0 g < 1 -> 0 < g_betaT g < 1 -> (1 <= i < g_Ndiffuse g)%nat -> length Ybar = g_Hsample g ->
  0 < g_temp g -> g_demo g = false ->
  let samples := map (make_sample (g_motion g) (nth i (sigmas g) 0 / sqrt (nth (i - 1) (alphas_bar g) 0)) Ybar) eps in
  let executed := map (fun us => snd (rollout_term env us)) samples in
  let rews := snd (fst (evaluate_samples env g samples)) in
  let err := INR (length eps - 1) * exp (- (d / (spread rews * g_temp g))) in
  Forall (Forall in_control_box) executed -> leads rews b d ->
  1 - nth b (snd (evaluate_samples env g samples)) 0 <= err /\
  forall t, (t < g_Hsample g)%nat ->
    within (2 * err) (nth t (fst (reverse_once env g i eps Ybar)) (0, 0)) (nth t (nth b executed []) (0, 0)).
Proof. exact l_C74_cold_follows_the_best. Qed.
Print Assumptions C74_cold_follows_the_best.

(** Hot: if all rewards lie between lo and hi, every weight is within the factor exp ((hi - lo) / (spread x temperature))
    of 1/n, and the denoised plan is the plain average of the executed plans up to that factor minus one. *)
Theorem C74_hot_averages :
  forall (Q : Type) (env : penv Q) g i eps Ybar lo hi,
  0 < g_beta0 g < 1 -> 0 < g_betaT g < 1 -> (1 <= i < g_Ndiffuse g)%nat -> length Ybar = g_Hsample g -> eps <> [] ->
  0 < g_temp g -> g_demo g = false ->
  let samples := map (make_sample (g_motion g) (nth i (sigmas g) 0 / sqrt (nth (i - 1) (alphas_bar g) 0)) Ybar) eps in
  let executed := map (fun us => snd (rollout_term env us)) samples in
  let rews := snd (fst (evaluate_samples env g samples)) in
  let factor := exp ((hi - lo) / (spread rews * g_temp g)) in
  Forall (Forall in_control_box) executed -> between lo hi rews ->
  Forall (fun w => / factor / INR (length eps) <= w <= factor / INR (length eps)) (snd (evaluate_samples env g samples)) /\
  forall t, (t < g_Hsample g)%nat ->
    within (factor - 1) (nth t (fst (reverse_once env g i eps Ybar)) (0, 0))
      (mean (map (fun u => fst (nth t u (0, 0))) executed), mean (map (fun u => snd (nth t u (0, 0))) executed)).
Proof. exact l_C74_hot_averages. Qed.
Print Assumptions C74_hot_averages.

(** In the limit of low temperature the leading sample takes all the weight, whatever the rewards' scale. *)
Theorem C74_temperature_to_zero :
  forall (Q : Type) (env : penv Q) g samples b d, 0 < d -> leads (snd (fst (evaluate_samples env g samples))) b d ->
  forall e, 0 < e -> exists T0, 0 < T0 /\
    forall g', 0 < g_temp g' < T0 -> g_demo g' = false -> 1 - e < nth b (snd (evaluate_samples env g' samples)) 0 <= 1.
Proof. exact l_C74_temperature_to_zero. Qed.
Print Assumptions C74_temperature_to_zero.

(** The weights do not depend on the unit or the offset of the rewards: multiplying all rewards by a > 0 and adding c
    leaves every weight unchanged, as long as both spreads are at least 1/10000. *)
Theorem C74_scale_free :
  forall (Q Q' : Type) (env : penv Q) (env' : penv Q') g samples samples' a c, g_demo g = false -> 0 < a ->
  let rews := snd (fst (evaluate_samples env g samples)) in
  let rews' := snd (fst (evaluate_samples env' g samples')) in
  rews' = map (fun r => a * r + c) rews -> 1 / 10000 <= deviation rews -> 1 / 10000 <= a * deviation rews ->
  snd (evaluate_samples env' g samples') = snd (evaluate_samples env g samples).
Proof. exact l_C74_scale_free. Qed.
Print Assumptions C74_scale_free.

(** The lead counts in units of the range of the rewards: a sample leading by the fraction f of the range leaves all the
    others together at most (n - 1) exp (- f / temperature) of the weight. *)
Theorem C74_lead_in_units_of_the_range :
  forall (Q : Type) (env : penv Q) g samples b lo hi f, 0 < g_temp g -> g_demo g = false -> 0 < f ->
  let rews := snd (fst (evaluate_samples env g samples)) in
  between lo hi rews -> 1 / 10000 <= deviation rews -> leads rews b (f * (hi - lo)) ->
  1 - nth b (snd (evaluate_samples env g samples)) 0 <= INR (length samples - 1) * exp (- (f / g_temp g)).
Proof. exact l_C74_lead_in_units_of_the_range. Qed.
Print Assumptions C74_lead_in_units_of_the_range.

(** The commands a rollout executes lie in the control box: the hypothesis of the two theorems above holds for the four classes. *)
Theorem C74_tt_executed_in_box :
  forall s x0 proj guide logpd rx samples, p_proj (ts_p s) = false ->
  Forall (Forall in_control_box) (map (fun us => snd (rollout_term (tt_penv s x0 proj guide logpd rx) us)) samples).
Proof. exact l_C74_tt_executed_in_box. Qed.
Print Assumptions C74_tt_executed_in_box.

Theorem C74_bk_executed_in_box :
  forall s x0 proj guide logpd rx samples, p_proj (bs_p s) = false ->
  Forall (Forall in_control_box) (map (fun us => snd (rollout_term (bk_penv s x0 proj guide logpd rx) us)) samples).
Proof. exact l_C74_bk_executed_in_box. Qed.
Print Assumptions C74_bk_executed_in_box.

Theorem C74_nt_executed_in_box :
  forall s x0 guide logpd rx samples,
  Forall (Forall in_control_box) (map (fun us => snd (rollout_term (nt_penv s x0 guide logpd rx) us)) samples).
Proof. exact l_C74_nt_executed_in_box. Qed.
Print Assumptions C74_nt_executed_in_box.

Theorem C74_acc_executed_in_box :
  forall s x0 proj guide logpd rx samples, p_proj (as_p s) = false -> 0 < as_amax s ->
  Forall (Forall in_control_box) (map (fun us => snd (rollout_term (acc_penv s x0 proj guide logpd rx) us)) samples).
Proof. exact l_C74_acc_executed_in_box. Qed.
Print Assumptions C74_acc_executed_in_box.

Example C74_example :
  let samples := [[(1/2, 0)]; [(0, 0)]] in
  let rews := snd (fst (evaluate_samples toy_penv ex_cfg samples)) in
  0 < g_temp ex_cfg /\ g_demo ex_cfg = false /\ rews = [1/2; 0] /\ leads rews 0 (1/2) /\ between 0 (1/2) rews /\ deviation rews = 1/4 /\
  Forall (Forall in_control_box) (map (fun us => snd (rollout_term toy_penv us)) samples).
Proof. exact x_C74_example. Qed.
