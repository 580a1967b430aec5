(** * ProofsStatMain: the statistical evaluation script. *)
From Coq Require Import String Lia Reals Lra.
From Verif Require Import Base BaseFacts Params Geom TT2d SpecGeom SpecBodies Rollout Instances Demo EnvModel Setup SpecEnv ProofsSetup Stats SpecStats ProofsStats
  Config SpecConfig ProofsConfig Planner Cache CacheInst SpecCache ProofsCache ProofsCacheInst Tune SpecTune ProofsTune Anim Picture SpecPicture ProofsPicture ProofsSafety StatMain.
Import ListNotations.
Local Open Scope string_scope.
Local Open Scope list_scope.
Open Scope R_scope.

Ltac cfg_eval := cbn [stat_config with_defaults lookup map dataclass_fields fst snd String.eqb Ascii.eqb Bool.eqb].
Lemma stat_args : g_name (trial_args stat_config) = "tt2d" /\ g_case (trial_args stat_config) = "parking" /\ g_trailers (trial_args stat_config) = 1%Z /\
  g_proj (trial_args stat_config) = false /\ Setup.g_guid (trial_args stat_config) = false /\
  g_sh_coll (trial_args stat_config) = true /\ g_sh_hitch (trial_args stat_config) = true.
Proof. repeat split. Qed.
Lemma stat_dims : default_dimensions (trial_args stat_config).
Proof.
  unfold default_dimensions. cbn [trial_args g_l1 g_l2 g_lh g_lf1 g_lr g_lf2 g_lr2 g_trac_w g_trail_w]. unfold num. cfg_eval. repeat split; lra.
Qed.

(** The planner runs with 20000 samples, 50 steps, 100 diffusion steps, temperature 1e-5, seed 42, no demonstration, no
    preferred direction; the vehicle is the one-trailer truck with both shields, neither projection nor guidance, the stated
    reward settings and the defaults elsewhere. *)
Lemma l_C75_settings :
  planner_cfg stat_config = mkCfg 42 (Z.to_nat 20000) 50 100 (1/100000) (1/100000) (1/100) false 0 false /\
  forall t, exists r, create_trial_environment (trial_args stat_config) t = Ok r /\ rb_kind r = KTT /\
    p_sh_coll (rb_p r) = true /\ p_sh_hitch (rb_p r) = true /\ p_proj (rb_p r) = false /\ p_guid (rb_p r) = false /\
    p_motion (rb_p r) = 0%Z /\ p_H (rb_p r) = 50%nat /\ p_dt (rb_p r) = 1/4 /\ p_vmax (rb_p r) = 3 /\ p_dmax (rb_p r) = 55 * PI / 180 /\
    p_term_w (rb_p r) = 5 /\ p_term_thr (rb_p r) = 20 /\ p_steer_w (rb_p r) = 1/100 /\ p_rew_thr (rb_p r) = 50 /\ p_k_switch (rb_p r) = 3 /\
    p_hitch_w (rb_p r) = 1/100 /\ p_d_thr (rb_p r) = 728/100 /\
    rb_circ r = scene_circles /\ rb_rect r = scene_walls /\
    rb_xg r = Some [-7/4; -17/2; - PI / 2; - PI / 2] /\
    (exists q, q = start_state (323/100) (pose_of t) /\ rb_x0 r = Some [t_px q; t_py q; t_th1 q; t_th2 q]).
Proof.
  split.
  { unfold planner_cfg, num, int, flag. cfg_eval. reflexivity. }
  intros t. destruct stat_args as (A1 & A2 & A3 & _). destruct stat_dims as (D1 & D2 & D3 & _).
  destruct (create_trial_ok (trial_args stat_config) t A1 ltac:(rewrite A3; discriminate) ltac:(rewrite A3; reflexivity))
    as (r & gx & gy & E & K1 & K2 & K3 & K4 & K5 & K6 & K7 & _).
  exists r. split; [exact E|]. split; [exact K1|]. rewrite K2.
  destruct (K7 A2) as [-> ->].
  assert (X : start_vec (g_l1 (trial_args stat_config)) t = [t_px (start_state (323/100) (pose_of t)); t_py (start_state (323/100) (pose_of t)); t_th1 (start_state (323/100) (pose_of t)); t_th2 (start_state (323/100) (pose_of t))]).
  { rewrite D1. unfold start_vec, start_state, pose_of. cbn. reflexivity. }
  unfold params_of, kwargs. cbn [p_sh_coll p_sh_hitch p_proj p_guid p_motion p_H p_dt p_vmax p_dmax p_term_w p_term_thr p_steer_w p_rew_thr p_k_switch p_hitch_w p_d_thr
    k_sh_coll k_sh_hitch k_proj k_guid k_motion k_H k_dt k_vmax k_ddeg k_term_w k_term_thr k_steer_w k_rew_thr k_kswitch k_hitch_w k_d_fac k_l1 k_l2 k_lh].
  rewrite D1, D2, D3. unfold delta_max_of_deg, d_thr_of.
  cbn [trial_args g_sh_coll g_sh_hitch g_proj Setup.g_guid Setup.g_motion g_H g_dt g_vmax g_ddeg g_term_w g_term_thr g_steer_w g_rew_thr g_kswitch g_hitch_w g_d_fac].
  unfold num, int, flag. cfg_eval.
  split; [reflexivity|]. split; [reflexivity|]. split; [reflexivity|]. split; [reflexivity|]. split; [reflexivity|]. split; [reflexivity|].
  repeat (split; [first [exact K3 | exact K4 | exact K6 | lra]|]).
  exists (start_state (323/100) (pose_of t)). split; [reflexivity|rewrite K5, X; reflexivity].
Qed.

Lemma evaluation_uncached proj guide (b : obj (tt_self * ttq) (list refrow)) (h : list op) c rg ng n seed :
  let cls := fun _ : string => tt_methods proj guide in
  cleared h = true -> g_demo (planner_cfg c) = false -> g_name (trial_args c) = "tt2d" -> g_trailers (trial_args c) = 1%Z -> (0 < n)%nat ->
  let starts := fst (sample_initial_conditions ng n seed) in starts <> [] ->
  exists s results st r hm,
    (forall t r s' x0, create_trial_environment (trial_args c) t = Ok r -> tt_of_robot r = Some (s', x0) -> s' = s) /\
    each (tt_trial (trial_args c) (fun _ => proj s) (fun _ => guide s) (fun _ _ _ => 0) (fun _ => 0) (planner_cfg c) rg) starts = Ok results /\
    tt_statistics (trial_args c) (fun _ => proj s) (fun _ => guide s) (fun _ _ _ => 0) (fun _ => 0) (planner_cfg c) rg ng n seed = Ok (results, st) /\
    evaluation_in cls rg ng (execs cls (start b) h) c n seed = Ok (results, st, hm) /\
    tt_evaluation_with_heat_map (trial_args c) (fun _ => proj s) (fun _ => guide s) (fun _ _ _ => 0) (fun _ => 0) (planner_cfg c) rg ng n seed = Ok (st, r, hm).
Proof.
  intros cls Hc Hd Hn Ht Hnum starts Hne.
  destruct (l_C38_tt_statistics_without_clearing proj guide b h (trial_args c) (planner_cfg c) rg Hc Hd) as (s & Hs & EQ). cbv zeta in EQ. fold cls in EQ.
  destruct (l_C55_evaluation (trial_args c) (fun _ => proj s) (fun _ => guide s) (fun _ _ _ => 0) (fun _ => 0) (planner_cfg c) rg ng n seed
    Hn ltac:(rewrite Ht; discriminate) ltac:(rewrite Ht; reflexivity) Hnum Hne) as (results & st & r & hm & E1 & E2 & _).
  exists s, results, st, r, hm. split; [exact Hs|]. fold starts in E1, E2 |- *.
  assert (EE : each (tt_trial (trial_args c) (fun _ => proj s) (fun _ => guide s) (fun _ _ _ => 0) (fun _ => 0) (planner_cfg c) rg) starts = Ok results /\ summarize n results = Ok st).
  { unfold tt_statistics in E1. fold starts in E1. destruct (each _ _) as [rs|]; [|discriminate]. destruct (summarize n rs) as [st'|] eqn:ES; [|discriminate].
    injection E1 as <- <-. split; [reflexivity|exact ES]. }
  destruct EE as [EE ES]. split; [exact EE|]. split; [exact E1|]. split; [|exact E2].
  unfold evaluation_in. fold starts. rewrite EQ, EE, ES. unfold tt_evaluation_with_heat_map in E2. rewrite E1 in E2. fold starts in E2.
  destruct (rev starts) as [|t l]; [discriminate|]. destruct (create_trial_environment (trial_args c) t) as [r'|]; [|discriminate].
  destruct (heat_map r' (zip starts (map v_success results))) as [[r2 hm']|]; [|discriminate]. injection E2 as <- <-. reflexivity.
Qed.

(** Running the script in a process in which nothing was planned since the last clearing: if one of the sampled starts was
    accepted, it ends normally, whatever the random numbers; the reported collision and jackknife rates are 0, a trial is
    counted as successful iff it ends within 4 m, the success rate is the number of successful trials divided by 100,
    and the heat map shows every start once, green iff successful. *)
Lemma l_C75_script :
  forall proj guide (b : obj (tt_self * ttq) (list refrow)) (h : list op) rg ng,
  let cls := fun _ : string => tt_methods proj guide in
  let starts := fst (sample_initial_conditions ng 100 42) in
  cleared h = true -> starts <> [] ->
  exists results st hm, stat_main cls rg ng (execs cls (start b) h) = Ok (results, st, hm) /\
    length results = length starts /\ (length starts <= 100)%nat /\
    (forall v, In v results -> v_coll v = false /\ v_jack v = false /\ (v_success v = true <-> v_error v <= 4)) /\
    sr_collision_rate st = Some 0 /\ sr_jackknife_rate st = Some 0 /\
    sr_successful st = length (filter v_success results) /\ sr_success_rate st = INR (length (filter v_success results)) / 100 /\
    hm_green hm = map (trial_start (323/100)) (ended true (combine starts (map v_success results))) /\
    hm_red hm = map (trial_start (323/100)) (ended false (combine starts (map v_success results))) /\
    (length (hm_green hm) + length (hm_red hm) = length starts)%nat.
Proof.
  intros proj guide b h rg ng cls starts Hc Hne. destruct stat_args as (A1 & A2 & A3 & A4 & A5 & A6 & A7).
  destruct (evaluation_uncached proj guide b h stat_config rg ng 100 42 Hc eq_refl A1 A3 ltac:(lia) Hne) as (s & results & st & r & hm & Hs & EE & E1 & E3 & E2).
  fold cls in E3. fold starts in EE. exists results, st, hm. split; [exact E3|].
  destruct (l_C42_shielded_statistics (trial_args stat_config) (fun _ => proj s) (fun _ => guide s) (fun _ _ _ => 0) (fun _ => 0) (planner_cfg stat_config) rg ng 100 42 results st)
    as (P1 & P2 & P3); try assumption; [rewrite A3; discriminate|rewrite A3; reflexivity|apply stat_dims|].
  fold starts in P3. split; [exact P3|].
  assert (LS : (length starts <= 100)%nat).
  { unfold starts. destruct (sample_initial_conditions ng 100 42) as [cs n] eqn:E. destruct (l_C43_sampling ng 100%nat 42 cs n E) as (x1 & x2 & _ & _ & _ & _ & _ & _ & L & _). exact L. }
  split; [exact LS|]. split; [exact P1|].
  destruct P2 as [C1 C2]. { intros ->. destruct starts; [contradiction|discriminate]. }
  split; [exact C1|]. split; [exact C2|].
  assert (S1 : sr_successful st = length (filter v_success results) /\ sr_success_rate st = INR (length (filter v_success results)) / 100).
  { unfold tt_statistics in E1. destruct (each _ _) as [rs|]; [|discriminate]. destruct (summarize 100 rs) as [st'|] eqn:ES; [|discriminate]. injection E1 as <- <-.
    unfold summarize in ES. cbn [Nat.eqb] in ES. injection ES as <-. cbn [sr_successful sr_success_rate]. split; [reflexivity|].
    unfold Rdiv. f_equal. f_equal. cbn [INR]. lra. }
  destruct S1 as [S1 S2]. split; [exact S1|]. split; [exact S2|].
  destruct (l_C55_evaluation (trial_args stat_config) (fun _ => proj s) (fun _ => guide s) (fun _ _ _ => 0) (fun _ => 0) (planner_cfg stat_config) rg ng 100 42
    A1 ltac:(rewrite A3; discriminate) ltac:(rewrite A3; reflexivity) ltac:(lia) Hne) as (results' & st' & r' & hm' & F1 & F2 & F3 & F4 & F5 & _).
  rewrite E1 in F1. injection F1 as <- <-. rewrite E2 in F2. injection F2 as <- <-. fold starts in F3, F4, F5.
  destruct stat_dims as (D1 & _). rewrite D1 in F3, F4. auto.
Qed.

Lemma trials_of : forall c n seed proj guide (b : obj (tt_self * ttq) (list refrow)) (h : list op) rg ng results st hm,
  let cls := fun _ : string => tt_methods proj guide in
  let starts := fst (sample_initial_conditions ng n seed) in
  g_name (trial_args c) = "tt2d" -> g_case (trial_args c) = "parking" -> g_trailers (trial_args c) = 1%Z ->
  g_proj (trial_args c) = false -> Setup.g_guid (trial_args c) = false -> g_sh_coll (trial_args c) = true -> g_sh_hitch (trial_args c) = true ->
  default_dimensions (trial_args c) -> g_demo (planner_cfg c) = false -> (0 < n)%nat ->
  cleared h = true -> evaluation_in cls rg ng (execs cls (start b) h) c n seed = Ok (results, st, hm) ->
  exists s : tt_self,
    ts_circ s = scene_circles /\ ts_rect s = scene_walls /\ ts_xg s = mkTT (-7/4) (-17/2) (- PI / 2) (- PI / 2) /\
    forall i t, nth_error starts i = Some t ->
    exists out v, nth_error results i = Some v /\
      run_diffusion (tt_penv s (start_state (323/100) (pose_of t)) (proj s) (guide s) (fun _ _ => 0) 0) (Some (planner_cfg c)) rg = Ok out /\
      hd_error (o_traj out) = Some (start_state (323/100) (pose_of t)) /\
      Forall (tt_safe (ts_p s) scene_circles scene_walls) (o_traj out) /\
      let final := last (o_traj out) (mkTT 0 0 0 0) in
      v_error v = Rmin (axle_distance final (-7/4, -17/2)) (rear_face_distance (ts_p s) final (-7/4, -17/2)).
Proof.
  intros c n seed proj guide b h rg ng results st hm cls starts A1 A2 A3 A4 A5 A6 A7 HD Hdm Hn Hc E.
  assert (Hne : starts <> []).
  { intros Z. unfold evaluation_in in E. fold starts in E. rewrite Z in E. cbn [tt_cached_trials] in E. destruct (summarize n []); discriminate. }
  destruct (evaluation_uncached proj guide b h c rg ng n seed Hc Hdm A1 A3 Hn Hne) as (s & results' & st' & r & hm' & Hs & EE & E1 & E3 & E2).
  fold cls in E3. rewrite E in E3. injection E3 as <- <- <-. fold starts in EE.
  set (s0 := mkTTSelf (params_of (kwargs (trial_args c)) 1) scene_circles scene_walls (mkTT (-7/4) (-17/2) (- PI / 2) (- PI / 2))).
  assert (TT : forall t, exists r, create_trial_environment (trial_args c) t = Ok r /\ tt_of_robot r = Some (s0, start_state (323/100) (pose_of t))).
  { intros t. destruct (create_trial_ok (trial_args c) t A1 ltac:(rewrite A3; discriminate) ltac:(rewrite A3; reflexivity))
      as (r' & gx & gy & Er & K1 & K2 & K3 & K4 & K5 & K6 & K7 & _). exists r'. split; [exact Er|].
    unfold tt_of_robot. rewrite K1, K5, K6, vec4_start. cbn [vec4]. rewrite K2, K3, K4. destruct (K7 A2) as [-> ->]. destruct HD as (-> & _). reflexivity. }
  assert (ES : s = s0). { destruct starts as [|t0 l] eqn:EL; [contradiction|]. destruct (TT t0) as (r0 & R1 & R2). symmetry. exact (Hs _ _ _ _ R1 R2). }
  subst s. exists s0. split; [reflexivity|]. split; [reflexivity|]. split; [reflexivity|].
  intros i t Hi.
  assert (N : forall l rs j u, each (tt_trial (trial_args c) (fun _ => proj s0) (fun _ => guide s0) (fun _ _ _ => 0) (fun _ => 0) (planner_cfg c) rg) l = Ok rs ->
     nth_error l j = Some u -> exists v, nth_error rs j = Some v /\ tt_trial (trial_args c) (fun _ => proj s0) (fun _ => guide s0) (fun _ _ _ => 0) (fun _ => 0) (planner_cfg c) rg u = Ok v).
  { clear. induction l as [|x l IH]; intros rs j u H Hj; [destruct j; discriminate|]. cbn [each] in H.
    destruct (tt_trial _ _ _ _ _ _ _ x) as [y|] eqn:Ey; [|discriminate]. destruct (each _ l) as [ys|]; [|discriminate]. injection H as <-.
    destruct j as [|j]; cbn [nth_error] in *; [injection Hj as <-; eauto|]. exact (IH ys j u eq_refl Hj). }
  destruct (N _ _ _ _ EE Hi) as (v & Hv & Et). unfold tt_trial in Et. destruct (TT t) as (r0 & R1 & R2). rewrite R1, R2 in Et.
  destruct (run_diffusion _ _ _) as [out|] eqn:Er; [|discriminate]. exists out, v. split; [exact Hv|]. split; [reflexivity|].
  pose proof (same_dims_sized _ HD) as SZ.
  assert (SF : tt_safe (params_of (kwargs (trial_args c)) 1) scene_circles scene_walls (start_state (323/100) (pose_of t))).
  { apply (same_dims_safe _ _ _ _ HD).
    destruct (sample_initial_conditions ng n seed) as [configs n'] eqn:E0. 
    destruct (l_C43_sampling ng n seed configs n' E0) as (cs & acc & Hacc & D & L & Hb & M & I & _).
    assert (Hpo : In (pose_of t) (filter acc cs)) by (rewrite <- M; apply in_map; exact (nth_error_In _ _ Hi)).
    apply filter_In in Hpo as [_ Ha]. apply Hacc in Ha. exact Ha. }
  pose proof (l_C01_tt_returned_trajectory_safe s0 (start_state (323/100) (pose_of t)) _ _ _ _ (planner_cfg c) rg out A4 A5 A6 A7 SZ SF Er) as HF.
  destruct (l_C42_tt_verdict s0 4 (o_traj out) v (mkTT 0 0 0 0) SZ scene_proper Et) as (_ & _ & _ & _ & _ & V6).
  split; [exact (proj2 (run_traj_length _ _ _ _ Er))|split; [exact HF|exact V6]].
Qed.

(** What a trial of the script is: the plan made without any cache from the sampled start; the returned trajectory begins
    there and is safe in the lot throughout, and the reported error is the distance of the rear axle or of the trailer's
    rear from the target position, whichever is smaller. *)
Lemma l_C75_trials :
  forall proj guide (b : obj (tt_self * ttq) (list refrow)) (h : list op) rg ng results st hm,
  let cls := fun _ : string => tt_methods proj guide in
  let starts := fst (sample_initial_conditions ng 100 42) in
  cleared h = true -> stat_main cls rg ng (execs cls (start b) h) = Ok (results, st, hm) ->
  exists s : tt_self,
    ts_circ s = scene_circles /\ ts_rect s = scene_walls /\ ts_xg s = mkTT (-7/4) (-17/2) (- PI / 2) (- PI / 2) /\
    forall i t, nth_error starts i = Some t ->
    exists out v, nth_error results i = Some v /\
      run_diffusion (tt_penv s (start_state (323/100) (pose_of t)) (proj s) (guide s) (fun _ _ => 0) 0) (Some (planner_cfg stat_config)) rg = Ok out /\
      hd_error (o_traj out) = Some (start_state (323/100) (pose_of t)) /\
      Forall (tt_safe (ts_p s) scene_circles scene_walls) (o_traj out) /\
      let final := last (o_traj out) (mkTT 0 0 0 0) in
      v_error v = Rmin (axle_distance final (-7/4, -17/2)) (rear_face_distance (ts_p s) final (-7/4, -17/2)).
Proof.
  intros proj guide b h rg ng results st hm cls starts Hc E. destruct stat_args as (A1 & A2 & A3 & A4 & A5 & A6 & A7).
  exact (trials_of stat_config 100 42 proj guide b h rg ng results st hm A1 A2 A3 A4 A5 A6 A7 stat_dims eq_refl ltac:(lia) Hc E).
Qed.

(** If no sampled start is accepted, the script ends with an exception when it comes to the heat map. *)
Lemma l_C75_no_start :
  forall cls rg ng w, fst (sample_initial_conditions ng 100 42) = [] -> stat_main cls rg ng w = Err UnboundLocalError.
Proof.
  intros cls rg ng w H. unfold stat_main, evaluation_in. rewrite H. cbn [tt_cached_trials]. unfold summarize. cbn [Nat.eqb rev]. reflexivity.
Qed.

(** The report does not depend on what the process did before: after any two histories of constructions, changes, plans and
    clearings with nothing planned since the last clearing, the script gives the same report or exception. *)
Lemma l_C75_repeatable :
  forall proj guide (b b' : obj (tt_self * ttq) (list refrow)) (h h' : list op) rg ng,
  let cls := fun _ : string => tt_methods proj guide in
  cleared h = true -> cleared h' = true ->
  stat_main cls rg ng (execs cls (start b) h) = stat_main cls rg ng (execs cls (start b') h').
Proof.
  intros proj guide b b' h h' rg ng cls Hc Hc'. unfold stat_main, evaluation_in.
  destruct (l_C38_tt_statistics_without_clearing proj guide b h (trial_args stat_config) (planner_cfg stat_config) rg Hc eq_refl) as (s & Hs & EQ).
  destruct (l_C38_tt_statistics_without_clearing proj guide b' h' (trial_args stat_config) (planner_cfg stat_config) rg Hc' eq_refl) as (s' & Hs' & EQ').
  cbv zeta in EQ, EQ'. fold cls in EQ, EQ'. rewrite EQ, EQ'.
  assert (ES : s = s').
  { destruct (proj2 l_C75_settings (mkTrial 0 0 0 0 0)) as (r & Er & K1 & _ & _ & _ & _ & _ & _ & _ & _ & _ & _ & _ & _ & _ & _ & _ & _ & _ & _ & Kg & q & _ & Kq).
    assert (T : exists s0 x0, tt_of_robot r = Some (s0, x0)) by (unfold tt_of_robot; rewrite K1, Kg, Kq; cbn [vec4]; eauto).
    destruct T as (s0 & x0 & T). rewrite <- (Hs _ _ _ _ Er T). exact (Hs' _ _ _ _ Er T). }
  rewrite ES. reflexivity.
Qed.

(** A generator that always returns the middle of the interval, a projection and a guidance that return their input, a
    fresh process, a process that planned something and was then cleared: the hypotheses are met. *)
Lemma mid_starts : fst (sample_initial_conditions mid_rng 100 42) <> [].
Proof.
  assert (K : forall left num att s c, c <> [] -> fst (sample_loop mid_rng num left att s c) <> []).
  { induction left as [|k IH]; intros num att s c Hc; [exact Hc|]. rewrite mid_step. destruct (Nat.ltb (length c) num); [|exact Hc].
    apply IH. destruct c; [contradiction|discriminate]. }
  unfold sample_initial_conditions. cbn [np_seed mid_rng]. change (100 * 10)%nat with (S 999). rewrite mid_step.
  change (Nat.ltb (length (@nil trial)) 100) with true. cbv iota. apply K. discriminate.
Qed.
Lemma x_C75_fresh_process : forall (b : obj (tt_self * ttq) (list refrow)) rg,
  let cls := fun _ : string => tt_methods (fun _ _ u => u) (fun _ x => x) in
  exists results st hm, stat_main cls rg mid_rng (execs cls (start b) []) = Ok (results, st, hm) /\
    stat_main cls rg mid_rng (execs cls (start b) [Clear]) = Ok (results, st, hm) /\ sr_collision_rate st = Some 0.
Proof.
  intros b rg cls.
  destruct (l_C75_script (fun _ _ u => u) (fun _ x => x) b [] rg mid_rng eq_refl mid_starts) as (rs & st & hm & E & _ & _ & _ & C & _).
  exists rs, st, hm. fold cls in E. split; [exact E|]. split; [|exact C].
  rewrite <- E. exact (l_C75_repeatable (fun _ _ u => u) (fun _ x => x) b b [Clear] [] rg mid_rng eq_refl eq_refl).
Qed.
