(** * Property theorems (generated from ProofsStep.v by tools/genprops.py; statements only,
    each closed by [exact]). *)
From Verif Require Import Base BaseFacts SpecInput SpecPlan InputFacts Params Geom TT2d Bicycle NTrailer Acc SpecGeom SpecBodies SpecDyn
  Rollout Planner Instances ProofsGeom ProofsBodies ProofsKin ProofsRobots ProofsSafety.
From Verif Require Import ProofsStep.
Open Scope R_scope.

(** C08: without projection the applied action is in the box, in every mode (shielded,
    unshielded, guidance), for every commanded action, state and guidance function; speed and
    steering stay within their maxima. *)
Theorem C08_tt_actuator_limits :
  forall s proj guide viz st a, p_proj (ts_p s) = false -> 0 <= p_vmax (ts_p s) -> 0 <= p_dmax (ts_p s) ->
  let app := st_app (tt_step_internal s proj guide viz st a) in
  (-1 <= fst app <= 1) /\ (-1 <= snd app <= 1) /\
  Rabs (fst (input_scaler (ts_p s) app)) <= p_vmax (ts_p s) /\
  Rabs (snd (input_scaler (ts_p s) app)) <= p_dmax (ts_p s).
Proof. exact l_C08_tt_actuator_limits. Qed.
Print Assumptions C08_tt_actuator_limits.

Theorem C08_bk_actuator_limits :
  forall s proj guide viz st a, p_proj (bs_p s) = false -> 0 <= p_vmax (bs_p s) -> 0 <= p_dmax (bs_p s) ->
  let app := st_app (bk_step_internal s proj guide viz st a) in
  (-1 <= fst app <= 1) /\ (-1 <= snd app <= 1) /\
  Rabs (fst (input_scaler (bs_p s) app)) <= p_vmax (bs_p s) /\
  Rabs (snd (input_scaler (bs_p s) app)) <= p_dmax (bs_p s).
Proof. exact l_C08_bk_actuator_limits. Qed.
Print Assumptions C08_bk_actuator_limits.

Theorem C08_nt_actuator_limits :
  forall s guide viz st a, 0 <= p_vmax (ns_p s) -> 0 <= p_dmax (ns_p s) ->
  let app := st_app (nt_step_core s guide viz st a) in
  (-1 <= fst app <= 1) /\ (-1 <= snd app <= 1) /\
  Rabs (fst (input_scaler (ns_p s) app)) <= p_vmax (ns_p s) /\
  Rabs (snd (input_scaler (ns_p s) app)) <= p_dmax (ns_p s).
Proof. exact l_C08_nt_actuator_limits. Qed.
Print Assumptions C08_nt_actuator_limits.

Theorem C08_acc_actuator_limits :
  forall s proj guide viz st a, p_proj (as_p s) = false -> 0 < as_amax s -> 0 <= as_omax s ->
  let app := st_app (acc_step_internal s proj guide viz st a) in
  (-1 <= fst app <= 1) /\ (-1 <= snd app <= 1) /\
  Rabs (fst (acc_scaler s app)) <= as_amax s /\ Rabs (snd (acc_scaler s app)) <= as_omax s.
Proof. exact l_C08_acc_actuator_limits. Qed.
Print Assumptions C08_acc_actuator_limits.

Example C08_extreme_command_example :
  let app := st_app (tt_step ex_tt (fun _ a => a) (fun q => q) (reset_state (mkTT 0 0 0 0)) (1000000, -7)) in
  (-1 <= fst app <= 1) /\ (-1 <= snd app <= 1) /\ 0 <= p_vmax default_params.
Proof. exact x_C08_extreme_command_example. Qed.

(** C18: the preference penalty of a speed v. *)
Theorem C18_preference_penalty :
  forall p v,
  (p_motion p <> 1%Z -> p_motion p <> (-1)%Z -> preference_penalty p v = 0) /\
  (p_motion p = 1%Z -> 0 <= v -> preference_penalty p v = 0) /\
  (p_motion p = 1%Z -> v < 0 -> preference_penalty p v = p_pref_w p * Rabs v) /\
  (p_motion p = (-1)%Z -> v <= 0 -> preference_penalty p v = 0) /\
  (p_motion p = (-1)%Z -> 0 < v -> preference_penalty p v = p_pref_w p * Rabs v) /\
  (0 <= p_pref_w p -> 0 <= preference_penalty p v).
Proof. exact l_C18_preference_penalty. Qed.
Print Assumptions C18_preference_penalty.

Example C18_example : p_motion default_params = 0%Z /\ preference_penalty default_params (-3) = 0.
Proof. exact x_C18_example. Qed.

(** C19: exact per-step reward of the tractor-trailer; the checks are those of the proposed
    state, whether or not the shield then refuses it. *)
Theorem C19_tt_step_reward :
  forall s proj guide st a, p_proj (ts_p s) = false -> p_guid (ts_p s) = false -> st_bak st = false ->
  let st' := tt_step s proj guide st a in
  let proposed := tt_plain (ts_p s) (st_q st) (saturated a) in
  st_rew st' = tt_reward s (st_q st')
    - (if tt_coll (ts_p s) (ts_circ s) (ts_rect s) proposed then p_coll_pen (ts_p s) else 0)
    - (if tt_hitch (ts_p s) proposed then p_hitch_pen (ts_p s) else 0)
    - (if Z.eqb (p_motion (ts_p s)) 0 then 0
       else direction_charge (ts_p s) (fst (st_app st') * p_vmax (ts_p s))).
Proof. exact l_C19_tt_step_reward. Qed.
Print Assumptions C19_tt_step_reward.

Theorem C19_bk_step_reward :
  forall s proj guide st a, p_proj (bs_p s) = false -> p_guid (bs_p s) = false -> st_bak st = false ->
  let st' := bk_step s proj guide st a in
  let proposed := bk_plain (bs_p s) (st_q st) (saturated a) in
  st_rew st' = bk_reward s (st_q st')
    - (if bk_coll (bs_p s) (bs_circ s) (bs_rect s) proposed then p_coll_pen (bs_p s) else 0)
    - (if Z.eqb (p_motion (bs_p s)) 0 then 0
       else direction_charge (bs_p s) (fst (st_app st') * p_vmax (bs_p s))).
Proof. exact l_C19_bk_step_reward. Qed.
Print Assumptions C19_bk_step_reward.

(** C19, N trailers: here the preference penalty is that of the commanded (not the applied)
    action. *)
Theorem C19_nt_step_reward :
  forall s guide st a, p_guid (ns_p s) = false -> length (ns_len s) = p_num_trailers (ns_p s) ->
  length (n_ths (st_q st)) = p_num_trailers (ns_p s) -> st_bak st = false ->
  let st' := nt_step_core s guide false st a in
  let proposed := nt_plain s (st_q st) (saturated a) in
  st_rew st' = nt_reward s (st_q st')
    - (if nt_coll s (ns_circ s) (ns_rect s) proposed then p_coll_pen (ns_p s) else 0)
    - (if nt_hitch s proposed then p_hitch_pen (ns_p s) else 0)
    - (if Z.eqb (p_motion (ns_p s)) 0 then 0
       else direction_charge (ns_p s) (fst (saturated a) * p_vmax (ns_p s))).
Proof. exact l_C19_nt_step_reward. Qed.
Print Assumptions C19_nt_step_reward.

(** C19 (finding): an N-trailer whose reversing command is refused stays where it is, reports the zero action, and is still charged the preference penalty of the refused command. *)
Theorem C19_nt_refused_command_charged_refuted :
  exists (s : nt_self) (x0 : ntq) (a : act),
    nt_sized s /\ nt_safe s x0 /\ length (n_ths x0) = p_num_trailers (ns_p s) /\
    let st' := nt_step_core s (fun q => q) false (reset_state x0) a in
    st_q st' = x0 /\ st_app st' = (0, 0) /\
    direction_charge (ns_p s) (fst (st_app st') * p_vmax (ns_p s)) = 0 /\
    st_rew st' < nt_reward s x0 - p_coll_pen (ns_p s).
Proof. exact l_C19_nt_refused_command_charged_refuted. Qed.
Print Assumptions C19_nt_refused_command_charged_refuted.

(** C21: one step moves the tractor's reference point by exactly |applied speed|*dt, at most
    v_max*dt. *)
Theorem C21_tt_step_displacement :
  forall s proj guide st a, p_proj (ts_p s) = false -> p_guid (ts_p s) = false -> st_bak st = false ->
  0 <= p_vmax (ts_p s) -> 0 <= p_dt (ts_p s) ->
  let st' := tt_step s proj guide st a in
  let d := dist (t_px (st_q st'), t_py (st_q st')) (t_px (st_q st), t_py (st_q st)) in
  d = Rabs (fst (st_app st') * p_vmax (ts_p s)) * p_dt (ts_p s) /\ d <= p_vmax (ts_p s) * p_dt (ts_p s).
Proof. exact l_C21_tt_step_displacement. Qed.
Print Assumptions C21_tt_step_displacement.

Theorem C21_bk_step_displacement :
  forall s proj guide st a, p_proj (bs_p s) = false -> p_guid (bs_p s) = false -> st_bak st = false ->
  0 <= p_vmax (bs_p s) -> 0 <= p_dt (bs_p s) ->
  let st' := bk_step s proj guide st a in
  let d := dist (b_px (st_q st'), b_py (st_q st')) (b_px (st_q st), b_py (st_q st)) in
  d = Rabs (fst (st_app st') * p_vmax (bs_p s)) * p_dt (bs_p s) /\ d <= p_vmax (bs_p s) * p_dt (bs_p s).
Proof. exact l_C21_bk_step_displacement. Qed.
Print Assumptions C21_bk_step_displacement.

Theorem C21_nt_step_displacement :
  forall s guide st a, p_guid (ns_p s) = false -> length (ns_len s) = p_num_trailers (ns_p s) ->
  length (n_ths (st_q st)) = p_num_trailers (ns_p s) -> st_bak st = false ->
  0 <= p_vmax (ns_p s) -> 0 <= p_dt (ns_p s) ->
  let st' := nt_step_core s guide false st a in
  let d := dist (n_px (st_q st'), n_py (st_q st')) (n_px (st_q st), n_py (st_q st)) in
  d = Rabs (fst (st_app st') * p_vmax (ns_p s)) * p_dt (ns_p s) /\ d <= p_vmax (ns_p s) * p_dt (ns_p s).
Proof. exact l_C21_nt_step_displacement. Qed.
Print Assumptions C21_nt_step_displacement.

(** C21: over any number of steps the displacement is at most n*v_max*dt. *)
Theorem C21_tt_n_step_displacement :
  forall s proj guide x0 (us : list act), p_proj (ts_p s) = false -> p_guid (ts_p s) = false ->
  0 <= p_vmax (ts_p s) -> 0 <= p_dt (ts_p s) ->
  let q := st_q (fold_left (tt_step s proj guide) us (reset_state x0)) in
  dist (t_px q, t_py q) (t_px x0, t_py x0) <= INR (length us) * (p_vmax (ts_p s) * p_dt (ts_p s)).
Proof. exact l_C21_tt_n_step_displacement. Qed.
Print Assumptions C21_tt_n_step_displacement.
