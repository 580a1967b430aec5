(** * Property theorems (generated from ProofsAcc.v by tools/genprops.py; statements only,
    each closed by [exact]). *)
From Verif Require Import Base BaseFacts SpecInput SpecPlan InputFacts Params Geom TT2d Bicycle NTrailer Acc SpecGeom SpecBodies SpecDyn SpecAcc
  Rollout Planner Instances ProofsGeom ProofsBodies ProofsKin ProofsRobots ProofsSafety ProofsStep ProofsPlanner.
From Verif Require Import ProofsAcc.
Open Scope R_scope.

(** C22: repeated full braking never raises the speed, never reverses it, leaves the steering
    angle alone, and after n steps the vehicle is stopped (at most 1 cm/s) whenever
    |v| <= n*a_max*dt. *)
Theorem C22_braking_stops :
  forall p amax q n, 0 < p_dt p -> 0 < amax ->
  let brake := fun q => acc_drive p (p_dt p) q (full_brake (p_dt p) amax (a_v q)) 0 in
  let qn := Nat.iter n brake q in
  Rabs (a_v qn) <= Rabs (a_v q) /\ 0 <= a_v qn * a_v q /\ a_d qn = a_d q /\
  (Rabs (a_v q) <= INR n * (amax * p_dt p) -> Rabs (a_v qn) <= 1 / 100).
Proof. exact l_C22_braking_stops. Qed.
Print Assumptions C22_braking_stops.

(** C22: the step taken in backup mode (no shield) is exactly one full-braking step, and the
    applied action reported is that braking command. *)
Theorem C22_backup_mode_brakes :
  forall s proj guide st a, p_proj (as_p s) = false -> p_guid (as_p s) = false ->
  p_sh_coll (as_p s) = false -> p_sh_hitch (as_p s) = false ->
  0 < p_dt (as_p s) -> 0 < as_amax s -> 0 <= p_vmax (as_p s) -> 0 <= p_dmax (as_p s) -> st_bak st = true ->
  let st' := acc_step s proj guide st a in
  let b := full_brake (p_dt (as_p s)) (as_amax s) (a_v (st_q st)) in
  st_q st' = acc_drive (as_p s) (p_dt (as_p s)) (st_q st) b 0 /\
  st_app st' = (b / as_amax s, 0) /\ st_bak st' = true.
Proof. exact l_C22_backup_mode_brakes. Qed.
Print Assumptions C22_backup_mode_brakes.

(** C22: in backup mode without shield, n steps of any commands stop a vehicle of speed at most
    n*a_max*dt. *)
Theorem C22_backup_mode_stops :
  forall s proj guide q0 us, p_proj (as_p s) = false -> p_guid (as_p s) = false ->
  p_sh_coll (as_p s) = false -> p_sh_hitch (as_p s) = false ->
  0 < p_dt (as_p s) -> 0 < as_amax s -> 0 <= p_vmax (as_p s) -> 0 <= p_dmax (as_p s) ->
  Rabs (a_v q0) <= INR (length us) * (as_amax s * p_dt (as_p s)) ->
  let st0 := mkState q0 q0 0 0 (0, 0) true in
  let q := st_q (fold_left (acc_step s proj guide) us st0) in
  Rabs (a_v q) <= 1 / 100 /\ 0 <= a_v q * a_v q0 /\ a_d q = a_d q0.
Proof. exact l_C22_backup_mode_stops. Qed.
Print Assumptions C22_backup_mode_stops.

(** C24: in every mode in which the class moves the vehicle itself, whatever the history, the
    pose changes as for a vehicle driven for dt at some speed within v_max and steering angle
    within delta_max. *)
Theorem C24_limits :
  forall s proj guide st a, p_proj (as_p s) = false -> p_guid (as_p s) = false ->
  0 <= p_vmax (as_p s) -> 0 <= p_dmax (as_p s) ->
  let p := as_p s in let q := a_q (st_q st) in let q' := a_q (st_q (acc_step s proj guide st a)) in
  exists v delta, Rabs v <= p_vmax p /\ Rabs delta <= p_dmax p /\
    t_px q' = t_px q + p_dt p * (v * cos (t_th1 q)) /\
    t_py q' = t_py q + p_dt p * (v * sin (t_th1 q)) /\
    t_th1 q' = t_th1 q + p_dt p * (v / p_l1 p * tan delta) /\
    t_th2 q' = t_th2 q + p_dt p * (v / p_l2 p * (sin (t_th1 q - t_th2 q) - p_lh p / p_l1 p * cos (t_th1 q - t_th2 q) * tan delta)) /\
    (Rabs (a_v (st_q st)) <= p_vmax p -> v = a_v (st_q st)) /\
    (Rabs (a_d (st_q st)) <= p_dmax p -> delta = a_d (st_q st)).
Proof. exact l_C24_limits. Qed.
Print Assumptions C24_limits.

(** C24, projection and guidance while denoising: same limits. *)
Theorem C24_limits_all_modes :
  forall s proj guide st a, 0 <= p_vmax (as_p s) -> 0 <= p_dmax (as_p s) ->
  let p := as_p s in let q := a_q (st_q st) in let q' := a_q (st_q (acc_step s proj guide st a)) in
  exists v delta, Rabs v <= p_vmax p /\ Rabs delta <= p_dmax p /\
    t_px q' = t_px q + p_dt p * (v * cos (t_th1 q)) /\
    t_py q' = t_py q + p_dt p * (v * sin (t_th1 q)) /\
    t_th1 q' = t_th1 q + p_dt p * (v / p_l1 p * tan delta).
Proof. exact l_C24_limits_all_modes. Qed.
Print Assumptions C24_limits_all_modes.

(** C24 (finding): the speed stored in the state is not limited: n steps of full acceleration
    give n*a_max*dt, beyond any bound. The vehicle then needs longer to brake than its actual
    speed suggests. *)
Theorem C24_stored_speed_refuted :
  forall B, exists us, let q := st_q (fold_left (acc_step ex_acc_free (fun _ a => a) (fun q => q)) us
                                        (reset_state (mkAcc (mkTT 0 0 0 0) 0 0))) in
  B < a_v q /\ Forall (fun a => -1 <= fst a <= 1 /\ -1 <= snd a <= 1) us.
Proof. exact l_C24_stored_speed_refuted. Qed.
Print Assumptions C24_stored_speed_refuted.

(** C25: the predictive check of a state passes exactly when that state and each of the
    floor(2 v_max / a_max) predicted states of the braking manoeuvre are safe. *)
Theorem C25_predictive_check_exact :
  forall s q n, 0 <= p_vmax (as_p s) -> 0 <= p_dmax (as_p s) -> 0 < p_dt (as_p s) -> 0 < as_amax s ->
  tt_sized (as_p s) -> proper_obstacles (ts_circ (as_t s)) (ts_rect (as_t s)) ->
  INR n <= 2 * p_vmax (as_p s) / as_amax s < INR n + 1 ->
  (check_with_rollout s q = (false, false) <->
   forall k, (k <= n)%nat ->
     acc_safe s (predicted (as_p s) (full_brake (p_dt (as_p s)) (as_amax s) (a_v q)) q k)).
Proof. exact l_C25_predictive_check_exact. Qed.
Print Assumptions C25_predictive_check_exact.

(** C25 (finding): the predicted manoeuvre is not a stopping manoeuvre. It keeps the first
    braking acceleration for one-second steps, so from 0.5 m/s (default limits) the predicted
    vehicle shoots through zero and then accelerates backwards: -1.5, -3.5, -5.5 m/s. *)
Theorem C25_prediction_does_not_stop_refuted :
  let q := mkAcc (mkTT 0 0 0 0) (1 / 2) 0 in
  let b := full_brake (2 / 10) 2 (1 / 2) in
  2 * p_vmax default_params / 2 = 3 /\
  a_v (predicted default_params b q 1) = - (3 / 2) /\
  a_v (predicted default_params b q 2) = - (7 / 2) /\
  a_v (predicted default_params b q 3) = - (11 / 2).
Proof. exact l_C25_prediction_does_not_stop_refuted. Qed.
Print Assumptions C25_prediction_does_not_stop_refuted.

(** C23, partial: the pose after one step does not depend on the command or on the shield at
    all: braking acts on the stored speed only, so the pose reached in the step that detects
    a danger is the dangerous pose itself. *)
Theorem C23_pose_ignores_command_and_shield_partial :
  forall s proj guide st a proj2 guide2 st2 a2, p_proj (as_p s) = false -> p_guid (as_p s) = false ->
  0 <= p_vmax (as_p s) -> 0 <= p_dmax (as_p s) -> st_q st2 = st_q st ->
  a_q (st_q (acc_step s proj guide st a)) = a_q (st_q (acc_step (acc_unshielded s) proj2 guide2 st2 a2)).
Proof. exact l_C23_pose_ignores_command_and_shield_partial. Qed.
Print Assumptions C23_pose_ignores_command_and_shield_partial.

(** C23, partial: every step (both flags on) either is accepted, and then the command is
    executed as given and the new state is safe, or is refused, and then the reported action is
    full braking and the reward is reduced by at least the smaller of the two penalties. *)
Theorem C23_accepted_or_penalised_partial :
  forall s proj guide st a, p_proj (as_p s) = false -> p_guid (as_p s) = false ->
  p_sh_coll (as_p s) = true -> p_sh_hitch (as_p s) = true -> tt_sized (as_p s) ->
  0 <= p_vmax (as_p s) -> 0 <= p_dmax (as_p s) -> 0 < p_dt (as_p s) -> 0 < as_amax s ->
  0 <= p_coll_pen (as_p s) -> 0 <= p_hitch_pen (as_p s) -> 0 <= p_pref_w (as_p s) ->
  st_bak st = false ->
  let st' := acc_step s proj guide st a in
  let cmd := acc_drive (as_p s) (p_dt (as_p s)) (st_q st) (fst (saturated a) * as_amax s) (snd (saturated a) * as_omax s) in
  (acc_safe s (st_q st') /\ st_q st' = cmd /\ st_app st' = saturated a) \/
  (st_app st' = (full_brake (p_dt (as_p s)) (as_amax s) (a_v (st_q st)) / as_amax s, 0) /\
   st_rew st' <= acc_reward s (st_q st') - Rmin (p_coll_pen (as_p s)) (p_hitch_pen (as_p s))).
Proof. exact l_C23_accepted_or_penalised_partial. Qed.
Print Assumptions C23_accepted_or_penalised_partial.

(** C23, partial: a vehicle at rest stays where it is for one step whatever is commanded. *)
Theorem C23_at_rest_stays_safe_partial :
  forall s proj guide st a, p_proj (as_p s) = false -> p_guid (as_p s) = false ->
  0 <= p_vmax (as_p s) -> 0 <= p_dmax (as_p s) -> a_v (st_q st) = 0 ->
  a_q (st_q (acc_step s proj guide st a)) = a_q (st_q st) /\
  (acc_safe s (st_q st) -> acc_safe s (st_q (acc_step s proj guide st a))).
Proof. exact l_C23_at_rest_stays_safe_partial. Qed.
Print Assumptions C23_at_rest_stays_safe_partial.

(** C23 (finding): from a safe start at speed the next state overlaps an obstacle whatever is commanded, so no plan returned by run_diffusion is safe. *)
Theorem C23_shield_too_late_refuted :
  exists s x0, p_sh_coll (as_p s) = true /\ p_sh_hitch (as_p s) = true /\ tt_sized (as_p s) /\ acc_safe s x0 /\
  (forall proj guide a,
    exists g o P, In g (tt_bodies (as_p s) (a_q (st_q (acc_step s proj guide (reset_state x0) a)))) /\
      In o (ts_rect (as_t s)) /\ solid g P /\ solid (obstacle_body o) P) /\
  (forall proj guide logpd rx g rg out, g_guid g = false -> (1 <= g_Hsample g)%nat ->
     run_diffusion (acc_penv s x0 proj guide logpd rx) (Some g) rg = Ok out -> ~ Forall (acc_safe s) (o_traj out)).
Proof. exact l_C23_shield_too_late_refuted. Qed.
Print Assumptions C23_shield_too_late_refuted.

(** C23 (finding): reversing slowly and commanding a stop, the vehicle is kept at its speed by the shield step after step, into and through an obstacle, for any number of steps. *)
Theorem C23_reverse_never_brakes_refuted :
  forall n, exists s x0 a, p_sh_coll (as_p s) = true /\ p_sh_hitch (as_p s) = true /\ tt_sized (as_p s) /\ acc_safe s x0 /\
  a_v x0 = - (3/10) /\ a_v (acc_drive (as_p s) (p_dt (as_p s)) x0 (fst a * as_amax s) (snd a * as_omax s)) = 0 /\
  forall proj guide k, (1 <= k <= S n)%nat ->
    let st := fold_left (acc_step s proj guide) (repeat a k) (reset_state x0) in
    a_v (st_q st) = - (3/10) /\ t_px (a_q (st_q st)) = - (6/100) * INR k /\ ~ acc_safe s (st_q st) /\ st_app st = a.
Proof. exact l_C23_reverse_never_brakes_refuted. Qed.
Print Assumptions C23_reverse_never_brakes_refuted.

(** C07, partial: outside two corner cases of reverse motion and creeping, the reported action
    reproduces the step on the plain vehicle. (v = current speed, w = speed after the command) *)
Theorem C07_acc_step_feasible_partial :
  forall s proj guide st a, p_proj (as_p s) = false -> p_guid (as_p s) = false ->
  0 < p_dt (as_p s) -> 0 < as_amax s -> 0 <= p_vmax (as_p s) -> 0 <= p_dmax (as_p s) -> st_bak st = false ->
  let v := a_v (st_q st) in let w := v + p_dt (as_p s) * (fst (saturated a) * as_amax s) in
  (1 / 100 < v \/ v = 0 \/ (v < - (1 / 100) /\ w < - (1 / 100)) \/ (Rabs v <= 1 / 100 /\ - (1 / 100) <= w)) ->
  let st' := acc_step s proj guide st a in
  st_q st' = acc_drive (as_p s) (p_dt (as_p s)) (st_q st) (fst (st_app st') * as_amax s) (snd (st_app st') * as_omax s).
Proof. exact l_C07_acc_step_feasible_partial. Qed.
Print Assumptions C07_acc_step_feasible_partial.

(** C07, partial: for the free vehicle (both flags off) the reported plan always reproduces the
    returned trajectory, step by step, over any number of steps. *)
Theorem C07_acc_unshielded_feasible_partial :
  forall s proj guide st a, p_proj (as_p s) = false -> p_guid (as_p s) = false ->
  p_sh_coll (as_p s) = false -> p_sh_hitch (as_p s) = false ->
  0 <= p_vmax (as_p s) -> 0 <= p_dmax (as_p s) -> st_bak st = false ->
  let st' := acc_step s proj guide st a in
  st_app st' = saturated a /\
  st_q st' = acc_drive (as_p s) (p_dt (as_p s)) (st_q st) (fst (st_app st') * as_amax s) (snd (st_app st') * as_omax s).
Proof. exact l_C07_acc_unshielded_feasible_partial. Qed.
Print Assumptions C07_acc_unshielded_feasible_partial.

(** C07 (finding): reversing towards an obstacle, the step reports the stopping command although
    the vehicle was not braked; re-executing the reported action gives a different state. *)
Theorem C07_acc_refuted :
  exists s x0 a, p_sh_coll (as_p s) = true /\ p_sh_hitch (as_p s) = true /\ tt_sized (as_p s) /\ acc_safe s x0 /\
  forall proj guide,
    let st' := acc_step s proj guide (reset_state x0) a in
    a_v (st_q st') = - (3/10) /\
    a_v (acc_drive (as_p s) (p_dt (as_p s)) x0 (fst (st_app st') * as_amax s) (snd (st_app st') * as_omax s)) = 0.
Proof. exact l_C07_acc_refuted. Qed.
Print Assumptions C07_acc_refuted.

Theorem C26_acc_rollout_from_rest :
  forall s proj guide st (us : list act), p_proj (as_p s) = false -> p_guid (as_p s) = false ->
  0 <= p_vmax (as_p s) -> 0 <= p_dmax (as_p s) -> 0 < as_amax s -> st_bak st = false -> a_v (st_q st) = 0 ->
  snd (fst (rollout_us (acc_step s proj guide) st us)) = replay (acc_step s proj guide) st us /\
  fst (fst (rollout_us (acc_step s proj guide) st us)) = eval_us (acc_step s proj guide) st us.
Proof. exact l_C26_acc_rollout_from_rest. Qed.
Print Assumptions C26_acc_rollout_from_rest.

(** C26 (finding): with initial speed 1 m/s the first row of every scored plan is the state
    after two time steps (0.4 m), while executing the plan reaches 0.2 m. *)
Theorem C26_acc_moving_start_refuted :
  forall proj guide u us, let x0 := mkAcc (mkTT 0 0 0 0) 1 0 in
  t_px (a_q (nth 0 (snd (fst (rollout_us (acc_step ex_acc_free proj guide) (reset_state x0) (u :: us)))) x0)) = 4/10 /\
  t_px (a_q (nth 0 (replay (acc_step ex_acc_free proj guide) (reset_state x0) (u :: us)) x0)) = 2/10.
Proof. exact l_C26_acc_moving_start_refuted. Qed.
Print Assumptions C26_acc_moving_start_refuted.

(** ** C21, C44, C19 *)
Theorem C21_acc_step_displacement :
  forall s proj guide st a, 0 <= p_vmax (as_p s) -> 0 <= p_dmax (as_p s) -> 0 <= p_dt (as_p s) ->
  let q := a_q (st_q st) in let q' := a_q (st_q (acc_step s proj guide st a)) in
  dist (t_px q', t_py q') (t_px q, t_py q) <= p_vmax (as_p s) * p_dt (as_p s).
Proof. exact l_C21_acc_step_displacement. Qed.
Print Assumptions C21_acc_step_displacement.

Theorem C21_acc_n_step_displacement :
  forall s proj guide st (us : list act), 0 <= p_vmax (as_p s) -> 0 <= p_dmax (as_p s) -> 0 <= p_dt (as_p s) ->
  let q := a_q (st_q st) in let q' := a_q (st_q (fold_left (acc_step s proj guide) us st)) in
  dist (t_px q', t_py q') (t_px q, t_py q) <= INR (length us) * (p_vmax (as_p s) * p_dt (as_p s)).
Proof. exact l_C21_acc_n_step_displacement. Qed.
Print Assumptions C21_acc_n_step_displacement.

(** C44, acceleration-controlled robot: backup mode never latches; a command whose predicted
    braking manoeuvre is safe is executed as given after any history. *)
Theorem C44_acc_no_latch :
  forall s x0 proj guide (us : list act) (a : act) n,
  p_proj (as_p s) = false -> p_guid (as_p s) = false -> tt_sized (as_p s) ->
  proper_obstacles (ts_circ (as_t s)) (ts_rect (as_t s)) ->
  0 <= p_vmax (as_p s) -> 0 <= p_dmax (as_p s) -> 0 < p_dt (as_p s) -> 0 < as_amax s ->
  INR n <= 2 * p_vmax (as_p s) / as_amax s < INR n + 1 ->
  let st := fold_left (acc_step s proj guide) us (reset_state x0) in
  let q := acc_drive (as_p s) (p_dt (as_p s)) (st_q st) (fst (saturated a) * as_amax s) (snd (saturated a) * as_omax s) in
  st_bak st = false /\
  ((forall k, (k <= n)%nat -> acc_safe s (predicted (as_p s) (full_brake (p_dt (as_p s)) (as_amax s) (a_v q)) q k)) ->
   st_q (acc_step s proj guide st a) = q /\ st_app (acc_step s proj guide st a) = saturated a).
Proof. exact l_C44_acc_no_latch. Qed.
Print Assumptions C44_acc_no_latch.

(** C19, acceleration-controlled robot: the step reward is the state reward minus a collision
    penalty exactly when the proposed state or (shield on, fast) one of its predicted states
    collides, minus a hitch penalty likewise, minus the preference penalty of the new speed. *)
Theorem C19_acc_step_reward :
  forall s proj guide st a n, p_proj (as_p s) = false -> p_guid (as_p s) = false -> st_bak st = false ->
  0 <= p_vmax (as_p s) -> 0 <= p_dmax (as_p s) -> 0 < p_dt (as_p s) -> 0 < as_amax s ->
  INR n <= 2 * p_vmax (as_p s) / as_amax s < INR n + 1 ->
  let p := as_p s in
  let st' := acc_step s proj guide st a in
  let q := acc_drive p (p_dt p) (st_q st) (fst (saturated a) * as_amax s) (snd (saturated a) * as_omax s) in
  let horizon := if p_sh_coll p || p_sh_hitch p then (if Rle_dec (Rabs (a_v q)) (1 / 100) then 0%nat else n) else 0%nat in
  let pred := predicted p (full_brake (p_dt p) (as_amax s) (a_v q)) q in
  exists c h : bool,
    (c = true <-> exists k, (k <= horizon)%nat /\ tt_coll p (ts_circ (as_t s)) (ts_rect (as_t s)) (a_q (pred k)) = true) /\
    (h = true <-> exists k, (k <= horizon)%nat /\ tt_hitch p (a_q (pred k)) = true) /\
    st_rew st' = acc_reward s (st_q st') - (if c then p_coll_pen p else 0) - (if h then p_hitch_pen p else 0)
      - (if Z.eqb (p_motion p) 0 then 0 else direction_charge p (a_v (st_q st'))).
Proof. exact l_C19_acc_step_reward. Qed.
Print Assumptions C19_acc_step_reward.

Example C22_example :
  (* 3 m/s, a_max 2, dt 0.2: eight steps of 0.4 m/s suffice *)
  Rabs (a_v ex_fast) <= INR 8 * (as_amax ex_wall * p_dt (as_p ex_wall)) /\ 0 < p_dt (as_p ex_wall) /\ 0 < as_amax ex_wall.
Proof. exact x_C22_example. Qed.

Example C25_example :
  INR 3 <= 2 * p_vmax (as_p ex_wall) / as_amax ex_wall < INR 3 + 1 /\ 0 <= p_vmax (as_p ex_wall) /\ 0 <= p_dmax (as_p ex_wall) /\
  0 < p_dt (as_p ex_wall) /\ 0 < as_amax ex_wall /\
  tt_sized (as_p ex_wall) /\ proper_obstacles (ts_circ (as_t ex_wall)) (ts_rect (as_t ex_wall)) /\
  (* the fast vehicle in front of the wall is itself safe, but its prediction is not *)
  acc_safe ex_wall ex_fast /\
  ~ acc_safe ex_wall (predicted (as_p ex_wall) (full_brake (p_dt (as_p ex_wall)) (as_amax ex_wall) (a_v ex_fast)) ex_fast 1).
Proof. exact x_C25_example. Qed.

Example C07_acc_example :
  (* forward at 3 m/s towards the wall: the step is refused and the reported braking is what
     was executed *)
  let st' := acc_step ex_wall (fun _ a => a) (fun q => q) (reset_state ex_fast) (0, 0) in
  1 / 100 < a_v ex_fast /\ st_q st' = acc_drive (as_p ex_wall) (p_dt (as_p ex_wall)) ex_fast (fst (st_app st') * 2) (snd (st_app st') * 1).
Proof. exact x_C07_acc_example. Qed.
