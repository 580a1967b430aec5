(** * Property theorems (generated from ProofsStrict.v by tools/genprops.py; statements only,
    each closed by [exact]). *)
From Verif Require Import Base BaseFacts SpecInput SpecPlan InputFacts Params Geom TT2d Bicycle NTrailer Acc SpecGeom SpecBodies SpecDyn SpecAcc
  Rollout Planner Instances ProofsGeom ProofsBodies ProofsKin ProofsRobots ProofsSafety ProofsStep ProofsPlanner ProofsAcc ProofsProj ProofsGuid.
From Coq Require Import List Bool.
From Verif Require Import ProofsStrict.
Open Scope R_scope.

(** C19: what a step is worth. The commanded motion (the command limited to the admissible box) is charged the
    collision penalty exactly if a body of the vehicle would touch an obstacle there, and the hitch penalty exactly if
    the hitch angle would exceed its limit; the state actually reached is rewarded, and the executed speed is charged
    for driving against the preferred direction. *)
Theorem C19_tt_charges :
  forall s proj guide st a c h, p_proj (ts_p s) = false -> p_guid (ts_p s) = false -> st_bak st = false ->
  tt_sized (ts_p s) -> proper_obstacles (ts_circ s) (ts_rect s) ->
  let st' := tt_step s proj guide st a in
  let proposed := tt_plain (ts_p s) (st_q st) (saturated a) in
  charged (~ tt_clear (ts_p s) (ts_circ s) (ts_rect s) proposed) (p_coll_pen (ts_p s)) c ->
  charged (~ tt_hitch_ok (ts_p s) proposed) (p_hitch_pen (ts_p s)) h ->
  st_rew st' = tt_reward s (st_q st') - c - h - direction_charge (ts_p s) (fst (st_app st') * p_vmax (ts_p s)).
Proof. exact l_C19_tt_charges. Qed.
Print Assumptions C19_tt_charges.

Theorem C19_bk_charges :
  forall s proj guide st a c, p_proj (bs_p s) = false -> p_guid (bs_p s) = false -> st_bak st = false ->
  tractor_sized (bs_p s) -> proper_obstacles (bs_circ s) (bs_rect s) ->
  let st' := bk_step s proj guide st a in
  let proposed := bk_plain (bs_p s) (st_q st) (saturated a) in
  charged (~ bk_safe (bs_p s) (bs_circ s) (bs_rect s) proposed) (p_coll_pen (bs_p s)) c ->
  st_rew st' = bk_reward s (st_q st') - c - direction_charge (bs_p s) (fst (st_app st') * p_vmax (bs_p s)).
Proof. exact l_C19_bk_charges. Qed.
Print Assumptions C19_bk_charges.

(** C19, N trailers: as above, but the direction is charged for the commanded, not the executed, speed. *)
Theorem C19_nt_charges :
  forall s guide st a c h, p_guid (ns_p s) = false -> nt_sized s -> (1 <= p_num_trailers (ns_p s))%nat ->
  length (n_ths (st_q st)) = p_num_trailers (ns_p s) -> st_bak st = false -> proper_obstacles (ns_circ s) (ns_rect s) ->
  let st' := nt_step_core s guide false st a in
  let proposed := nt_plain s (st_q st) (saturated a) in
  charged (~ nt_clear s proposed) (p_coll_pen (ns_p s)) c ->
  charged (~ nt_hitch_ok s proposed) (p_hitch_pen (ns_p s)) h ->
  st_rew st' = nt_reward s (st_q st') - c - h - direction_charge (ns_p s) (fst (saturated a) * p_vmax (ns_p s)).
Proof. exact l_C19_nt_charges. Qed.
Print Assumptions C19_nt_charges.

(** C19, acceleration control: with a shield on, the whole predicted braking manoeuvre is looked at instead. *)
Theorem C19_acc_charges :
  forall s proj guide st a n c h, p_proj (as_p s) = false -> p_guid (as_p s) = false -> st_bak st = false ->
  0 <= p_vmax (as_p s) -> 0 <= p_dmax (as_p s) -> 0 < p_dt (as_p s) -> 0 < as_amax s ->
  INR n <= 2 * p_vmax (as_p s) / as_amax s < INR n + 1 ->
  tt_sized (as_p s) -> proper_obstacles (ts_circ (as_t s)) (ts_rect (as_t s)) ->
  let p := as_p s in
  let st' := acc_step s proj guide st a in
  let q := acc_drive p (p_dt p) (st_q st) (fst (saturated a) * as_amax s) (snd (saturated a) * as_omax s) in
  let horizon := if p_sh_coll p || p_sh_hitch p then (if Rle_dec (Rabs (a_v q)) (1 / 100) then 0%nat else n) else 0%nat in
  let pose k := a_q (predicted p (full_brake (p_dt p) (as_amax s) (a_v q)) q k) in
  charged (exists k, (k <= horizon)%nat /\ ~ tt_clear p (ts_circ (as_t s)) (ts_rect (as_t s)) (pose k)) (p_coll_pen p) c ->
  charged (exists k, (k <= horizon)%nat /\ ~ tt_hitch_ok p (pose k)) (p_hitch_pen p) h ->
  st_rew st' = acc_reward s (st_q st') - c - h - direction_charge p (a_v (st_q st')).
Proof. exact l_C19_acc_charges. Qed.
Print Assumptions C19_acc_charges.

(** C41: with guidance on, the pose corrected by the guidance is charged and rewarded instead. *)
Theorem C41_tt_charges :
  forall s proj guide st a c h, p_proj (ts_p s) = false -> p_guid (ts_p s) = true -> st_bak st = false ->
  tt_sized (ts_p s) -> proper_obstacles (ts_circ s) (ts_rect s) ->
  let corrected := guide (tt_plain (ts_p s) (st_q st) (saturated a)) in
  charged (~ tt_clear (ts_p s) (ts_circ s) (ts_rect s) corrected) (p_coll_pen (ts_p s)) c ->
  charged (~ tt_hitch_ok (ts_p s) corrected) (p_hitch_pen (ts_p s)) h ->
  st_rew (tt_step s proj guide st a) = tt_reward s corrected - c - h - direction_charge (ts_p s) (fst (saturated a) * p_vmax (ts_p s)).
Proof. exact l_C41_tt_charges. Qed.
Print Assumptions C41_tt_charges.

Theorem C41_bk_charges :
  forall s proj guide st a c, p_proj (bs_p s) = false -> p_guid (bs_p s) = true -> st_bak st = false ->
  tractor_sized (bs_p s) -> proper_obstacles (bs_circ s) (bs_rect s) ->
  let corrected := guide (bk_plain (bs_p s) (st_q st) (saturated a)) in
  charged (~ bk_safe (bs_p s) (bs_circ s) (bs_rect s) corrected) (p_coll_pen (bs_p s)) c ->
  st_rew (bk_step s proj guide st a) = bk_reward s corrected - c - direction_charge (bs_p s) (fst (saturated a) * p_vmax (bs_p s)).
Proof. exact l_C41_bk_charges. Qed.
Print Assumptions C41_bk_charges.

(** A command beyond the box is cut to it: full speed ahead, no steering. *)
Example C19_saturated : saturated (5, 0) = (1, 0) /\ saturated (-3, 1 / 2) = (-1, 1 / 2).
Proof. exact x_C19_saturated. Qed.

(** A vehicle in the open is charged nothing, whatever the command. *)
Example C19_open_field :
  forall a,
  let s := mkTTSelf (ts_p ex_tt) [] [] (ts_xg ex_tt) in
  p_proj (ts_p s) = false /\ p_guid (ts_p s) = false /\ tt_sized (ts_p s) /\ proper_obstacles (ts_circ s) (ts_rect s) /\
  charged (~ tt_clear (ts_p s) (ts_circ s) (ts_rect s) (tt_plain (ts_p s) (st_q (reset_state (mkTT 0 0 0 0))) (saturated a))) (p_coll_pen (ts_p s)) 0.
Proof. exact x_C19_open_field. Qed.
