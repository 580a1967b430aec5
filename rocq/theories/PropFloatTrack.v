(** * Property theorems (generated from ProofsFloatTrack.v by tools/genprops.py; statements only,
    each closed by [exact]). *)
From Verif Require Import Base BaseFacts Params Geom TT2d Bicycle NTrailer SpecGeom SpecBodies SpecDyn Float SpecFloat ProofsGeom ProofsBodies ProofsStep ProofsSafety ProofsFloatGeom ProofsFloatSat ProofsFloatCircle ProofsFloatRun ProofsFloatAlarm FloatSingle ProofsFloatSingle ProofsFloat.
From Coq Require Import Psatz.
From Verif Require Import ProofsFloatTrack.
Open Scope R_scope.

(** C68: a step of the tractor-trailer, computed in floating point, either stays where it was (only with a shield switched
    on) or agrees with the exact motion law for the action cut to the box up to the step errors. *)
Theorem C68_step :
  forall A s q a, all_accurate A -> drive_in_range (ts_p s) -> tt_near_home q ->
  (fl_tt_step A s q a = q /\ (p_sh_coll (ts_p s) = true \/ p_sh_hitch (ts_p s) = true)) \/
  tt_within (step_pos_error (p_vmax (ts_p s))) (step_heading_error (p_vmax (ts_p s))) (step_trailer_error (p_vmax (ts_p s)))
    (fl_tt_step A s q a) (tt_plain (ts_p s) q (within_box a)).
Proof. exact l_C68_step. Qed.
Print Assumptions C68_step.

(** C68: the same for the bicycle. *)
Theorem C68_bicycle_step :
  forall A s q a, all_accurate A -> drive_in_range (bs_p s) -> bk_near_home q ->
  (fl_bk_step A s q a = q /\ p_sh_coll (bs_p s) = true) \/
  bk_within (step_pos_error (p_vmax (bs_p s))) (step_heading_error (p_vmax (bs_p s)))
    (fl_bk_step A s q a) (bk_plain (bs_p s) q (within_box a)).
Proof. exact l_C68_bicycle_step. Qed.
Print Assumptions C68_bicycle_step.

(** C68: along a computed run every state is, up to the step errors, the exact successor of the one before, or equals it
    (only with a shield switched on). *)
Theorem C68_run :
  forall A s q us k, all_accurate A -> drive_in_range (ts_p s) ->
  (forall x, In x (q :: fl_tt_run A s q us) -> tt_near_home x) -> (k < length us)%nat ->
  let before := nth k (q :: fl_tt_run A s q us) q in let after := nth k (fl_tt_run A s q us) q in
  (after = before /\ (p_sh_coll (ts_p s) = true \/ p_sh_hitch (ts_p s) = true)) \/
  tt_within (step_pos_error (p_vmax (ts_p s))) (step_heading_error (p_vmax (ts_p s))) (step_trailer_error (p_vmax (ts_p s)))
    after (tt_plain (ts_p s) before (within_box (nth k us (0, 0)))).
Proof. exact l_C68_run. Qed.
Print Assumptions C68_run.

(** C68: executing a plan in floating point, shielded or not: there is a plan of the same actions cut to the box, some of
    them replaced by standing still, whose exact execution keeps position and heading of the tractor within the drift
    bounds after every step. *)
Theorem C68_tractor_drift :
  forall A s q us, all_accurate A -> drive_in_range (ts_p s) ->
  (forall x, In x (q :: fl_tt_run A s q us) -> tt_near_home x) ->
  exists us', executed us us' /\ forall k, (k < length us)%nat ->
    let x := nth k (fl_tt_run A s q us) q in let y := nth k (tt_drive (ts_p s) q us') q in
    Rabs (t_px x - t_px y) <= drift_pos (p_dt (ts_p s)) (p_vmax (ts_p s)) (S k) /\
    Rabs (t_py x - t_py y) <= drift_pos (p_dt (ts_p s)) (p_vmax (ts_p s)) (S k) /\
    Rabs (t_th1 x - t_th1 y) <= drift_heading (p_vmax (ts_p s)) (S k).
Proof. exact l_C68_tractor_drift. Qed.
Print Assumptions C68_tractor_drift.

(** C68: for the bicycle this is the whole state. *)
Theorem C68_bicycle_drift :
  forall A s q us, all_accurate A -> drive_in_range (bs_p s) ->
  (forall x, In x (q :: fl_bk_run A s q us) -> bk_near_home x) ->
  exists us', executed us us' /\ forall k, (k < length us)%nat ->
    bk_within (drift_pos (p_dt (bs_p s)) (p_vmax (bs_p s)) (S k)) (drift_heading (p_vmax (bs_p s)) (S k))
      (nth k (fl_bk_run A s q us) q) (nth k (bk_drive (bs_p s) q us') q).
Proof. exact l_C68_bicycle_drift. Qed.
Print Assumptions C68_bicycle_drift.

(** C68: a command whose exact successor is clear of the obstacles with room to spare (the slack of C67 and the shift of
    one computed step) and whose hitch angle is 0.006 rad below the limit is executed, not refused. *)
Theorem C68_room_to_spare :
  forall A s q a l D, all_accurate A -> vehicle_in_range (ts_p s) -> drive_in_range (ts_p s) -> 0 <= p_phi_max (ts_p s) <= 10 ->
  obstacles_in_range (ts_circ s) (ts_rect s) -> tt_near_home q ->
  let n := tt_plain (ts_p s) q (within_box a) in
  (Rabs (t_px n) <= 99 /\ Rabs (t_py n) <= 99 /\ Rabs (t_th1 n) <= 999 /\ Rabs (t_th2 n) <= 999) ->
  / 10 <= l -> (forall g, In g (tt_bodies (ts_p s) n) -> sides_at_least l g) ->
  (forall o, In o (ts_rect s) -> l <= r_w o /\ l <= r_h o) ->
  (forall g o, In g (tt_bodies (ts_p s) n) -> In o (ts_rect s) -> within (D o) g o) ->
  tt_clear (ts_p s) (map (grown_circle (2 / 1000 + step_shift (ts_p s))) (ts_circ s))
    (map (fun o => grown_rect (slack (D o + step_shift (ts_p s)) l + step_shift (ts_p s)) o) (ts_rect s)) n ->
  hitch_ok (p_phi_max (ts_p s) - 6 / 1000) (t_th1 n) (t_th2 n) ->
  tt_within (step_pos_error (p_vmax (ts_p s))) (step_heading_error (p_vmax (ts_p s))) (step_trailer_error (p_vmax (ts_p s)))
    (fl_tt_step A s q a) n.
Proof. exact l_C68_room_to_spare. Qed.
Print Assumptions C68_room_to_spare.

(** C68: the bicycle likewise. *)
Theorem C68_bicycle_room_to_spare :
  forall A s q a l D, all_accurate A -> vehicle_in_range (bs_p s) -> drive_in_range (bs_p s) ->
  obstacles_in_range (bs_circ s) (bs_rect s) -> bk_near_home q ->
  let n := bk_plain (bs_p s) q (within_box a) in
  (Rabs (b_px n) <= 99 /\ Rabs (b_py n) <= 99 /\ Rabs (b_th n) <= 999) ->
  / 10 <= l -> (forall g, In g (bk_bodies (bs_p s) n) -> sides_at_least l g) ->
  (forall o, In o (bs_rect s) -> l <= r_w o /\ l <= r_h o) ->
  (forall g o, In g (bk_bodies (bs_p s) n) -> In o (bs_rect s) -> within (D o) g o) ->
  bk_safe (bs_p s) (map (grown_circle (2 / 1000 + step_shift (bs_p s))) (bs_circ s))
    (map (fun o => grown_rect (slack (D o + step_shift (bs_p s)) l + step_shift (bs_p s)) o) (bs_rect s)) n ->
  bk_within (step_pos_error (p_vmax (bs_p s))) (step_heading_error (p_vmax (bs_p s))) (fl_bk_step A s q a) n.
Proof. exact l_C68_bicycle_room_to_spare. Qed.
Print Assumptions C68_bicycle_room_to_spare.

(** C68: the hypotheses are met by the default vehicle from the origin, for any eight actions, and the bound is then 4 mm:
    after the shields have refused what they refuse, the tractor's computed position is within 4 mm of where exact motion
    with the executed actions takes it. *)
Example C68_default_vehicle :
  forall contract (us : list act), length us = 8%nat ->
  (forall x, In x (ex_q :: fl_tt_run (single contract) ex_tt ex_q us) -> tt_near_home x) /\
  exists us', executed us us' /\
    Rabs (t_px (nth 7 (fl_tt_run (single contract) ex_tt ex_q us) ex_q) - t_px (nth 7 (tt_drive (ts_p ex_tt) ex_q us') ex_q)) <= 4 / 1000.
Proof. exact x_C68_default_vehicle. Qed.
