(** * Property theorems (generated from ProofsFloat.v by tools/genprops.py; statements only,
    each closed by [exact]). *)
From Verif Require Import Base BaseFacts Params Geom TT2d Bicycle NTrailer SpecGeom SpecBodies Float SpecFloat ProofsGeom ProofsBodies ProofsStep ProofsSafety ProofsFloatGeom ProofsFloatSat ProofsFloatCircle ProofsFloatRun ProofsFloatAlarm FloatSingle ProofsFloatSingle.
From Coq Require Import Psatz.
From Verif Require Import ProofsFloat.
Open Scope R_scope.

(** C65: if the check of the tractor-trailer, computed in floating point, reports no collision, then in exact
    geometry both bodies are clear of every obstacle with 2 mm taken off its sides. *)
Theorem C65_tractor_trailer :
  forall A p circ rect q, all_accurate A -> vehicle_in_range p -> tt_in_range q -> obstacles_in_range circ rect ->
  fl_tt_coll A p circ rect q = false ->
  tt_clear p (map (shrunk_circle (2 / 1000)) circ) (map (shrunk_rect (2 / 1000)) rect) q.
Proof. exact l_C65_tractor_trailer. Qed.
Print Assumptions C65_tractor_trailer.

(** C65: the same for the bicycle. *)
Theorem C65_bicycle :
  forall A p circ rect q, all_accurate A -> vehicle_in_range p -> bk_in_range q -> obstacles_in_range circ rect ->
  fl_bk_coll A p circ rect q = false ->
  bk_safe p (map (shrunk_circle (2 / 1000)) circ) (map (shrunk_rect (2 / 1000)) rect) q.
Proof. exact l_C65_bicycle. Qed.
Print Assumptions C65_bicycle.

(** C65: if the hitch check, computed in floating point, reports no violation, the hitch angle is within a
    thousandth of a radian of the allowed range. *)
Theorem C65_hitch :
  forall A p q, all_accurate A -> 0 <= p_phi_max p <= 10 -> tt_in_range q ->
  fl_tt_hitch A p q = false -> hitch_ok (p_phi_max p + / 1000) (t_th1 q) (t_th2 q).
Proof. exact l_C65_hitch. Qed.
Print Assumptions C65_hitch.

(** C67: if the computed hitch check reports a violation, the hitch angle leaves the allowed range or is within 3 thousandths of a radian of its end. *)
Theorem C67_hitch_alarm :
  forall A p q, all_accurate A -> 0 <= p_phi_max p <= 10 -> tt_in_range q ->
  fl_tt_hitch A p q = true -> ~ hitch_ok (p_phi_max p - 3 / 1000) (t_th1 q) (t_th2 q).
Proof. exact l_C67_hitch_alarm. Qed.
Print Assumptions C67_hitch_alarm.

(** C67: a vehicle that is clear of every circle grown by 2 mm and of every rectangle grown by the slack is not reported
    as colliding. *)
Theorem C67_no_false_alarm :
  forall A p circ rect q l D, all_accurate A -> vehicle_in_range p -> tt_in_range q -> obstacles_in_range circ rect ->
  / 10 <= l -> (forall g, In g (tt_bodies p q) -> sides_at_least l g) ->
  (forall o, In o rect -> l <= r_w o /\ l <= r_h o) ->
  (forall g o, In g (tt_bodies p q) -> In o rect -> within (D o) g o) ->
  tt_clear p (map (grown_circle (2 / 1000)) circ) (map (fun o => grown_rect (slack (D o) l) o) rect) q ->
  fl_tt_coll A p circ rect q = false.
Proof. exact l_C67_no_false_alarm. Qed.
Print Assumptions C67_no_false_alarm.

(** C67: the same for the bicycle. *)
Theorem C67_no_false_alarm_bicycle :
  forall A p circ rect q l D, all_accurate A -> vehicle_in_range p -> bk_in_range q -> obstacles_in_range circ rect ->
  / 10 <= l -> (forall g, In g (bk_bodies p q) -> sides_at_least l g) ->
  (forall o, In o rect -> l <= r_w o /\ l <= r_h o) ->
  (forall g o, In g (bk_bodies p q) -> In o rect -> within (D o) g o) ->
  bk_safe p (map (grown_circle (2 / 1000)) circ) (map (fun o => grown_rect (slack (D o) l) o) rect) q ->
  fl_bk_coll A p circ rect q = false.
Proof. exact l_C67_no_false_alarm_bicycle. Qed.
Print Assumptions C67_no_false_alarm_bicycle.

(** C65: obstacles entered 2 mm larger than they are on every side: if the computed check reports no collision, no body
    meets the real obstacles. *)
Theorem C65_padded :
  forall A p circ rect q, all_accurate A -> vehicle_in_range p -> tt_in_range q ->
  obstacles_in_range (map (grown_circle (2 / 1000)) circ) (map (grown_rect (2 / 1000)) rect) ->
  fl_tt_coll A p (map (grown_circle (2 / 1000)) circ) (map (grown_rect (2 / 1000)) rect) q = false ->
  tt_clear p circ rect q.
Proof. exact l_C65_padded. Qed.
Print Assumptions C65_padded.

(** C65: the same for the bicycle. *)
Theorem C65_padded_bicycle :
  forall A p circ rect q, all_accurate A -> vehicle_in_range p -> bk_in_range q ->
  obstacles_in_range (map (grown_circle (2 / 1000)) circ) (map (grown_rect (2 / 1000)) rect) ->
  fl_bk_coll A p (map (grown_circle (2 / 1000)) circ) (map (grown_rect (2 / 1000)) rect) q = false ->
  bk_safe p circ rect q.
Proof. exact l_C65_padded_bicycle. Qed.
Print Assumptions C65_padded_bicycle.

(** C66: whatever the arithmetic, with the collision shield every state visited passes the collision check computed
    with it, if the start does. *)
Theorem C66_check_collision :
  forall A s q us, p_sh_coll (ts_p s) = true -> fl_tt_coll A (ts_p s) (ts_circ s) (ts_rect s) q = false ->
  forall q', In q' (fl_tt_run A s q us) -> fl_tt_coll A (ts_p s) (ts_circ s) (ts_rect s) q' = false.
Proof. exact l_C66_check_collision. Qed.
Print Assumptions C66_check_collision.

(** C66: the same for the hitch check with the hitch shield. *)
Theorem C66_check_hitch :
  forall A s q us, p_sh_hitch (ts_p s) = true -> fl_tt_hitch A (ts_p s) q = false ->
  forall q', In q' (fl_tt_run A s q us) -> fl_tt_hitch A (ts_p s) q' = false.
Proof. exact l_C66_check_hitch. Qed.
Print Assumptions C66_check_hitch.

(** C66: a plan of any actions executed in floating point under both shields, from a start that passes the computed
    checks: at every state visited the bodies are clear, in exact geometry, of every obstacle with 2 mm taken off its
    sides, and the hitch angle is within phi_max + 0.001 rad. *)
Theorem C66_shielded_run :
  forall A s q us, all_accurate A -> p_sh_coll (ts_p s) = true -> p_sh_hitch (ts_p s) = true ->
  vehicle_in_range (ts_p s) -> drive_in_range (ts_p s) -> 0 <= p_phi_max (ts_p s) <= 10 ->
  obstacles_in_range (ts_circ s) (ts_rect s) -> tt_trip_in_range (ts_p s) (length us) q ->
  fl_tt_coll A (ts_p s) (ts_circ s) (ts_rect s) q = false -> fl_tt_hitch A (ts_p s) q = false ->
  forall q', In q' (fl_tt_run A s q us) ->
  tt_clear (ts_p s) (map (shrunk_circle (2 / 1000)) (ts_circ s)) (map (shrunk_rect (2 / 1000)) (ts_rect s)) q' /\
  hitch_ok (p_phi_max (ts_p s) + / 1000) (t_th1 q') (t_th2 q').
Proof. exact l_C66_shielded_run. Qed.
Print Assumptions C66_shielded_run.

(** C66: with the obstacles entered 2 mm larger than they are on every side and the hitch limit set 0.001 rad tighter
    than allowed, floating-point execution under the shields is safe with respect to the real obstacles and limit. *)
Theorem C66_padded_run :
  forall A s circ rect phi q us, all_accurate A -> p_sh_coll (ts_p s) = true -> p_sh_hitch (ts_p s) = true ->
  vehicle_in_range (ts_p s) -> drive_in_range (ts_p s) ->
  ts_circ s = map (grown_circle (2 / 1000)) circ -> ts_rect s = map (grown_rect (2 / 1000)) rect ->
  p_phi_max (ts_p s) = phi - / 1000 -> / 1000 <= phi <= 10 ->
  obstacles_in_range (ts_circ s) (ts_rect s) -> tt_trip_in_range (ts_p s) (length us) q ->
  fl_tt_coll A (ts_p s) (ts_circ s) (ts_rect s) q = false -> fl_tt_hitch A (ts_p s) q = false ->
  forall q', In q' (fl_tt_run A s q us) ->
  tt_clear (ts_p s) circ rect q' /\ hitch_ok phi (t_th1 q') (t_th2 q').
Proof. exact l_C66_padded_run. Qed.
Print Assumptions C66_padded_run.

(** C66: the bicycle under its collision shield, from a start that passes the computed check. *)
Theorem C66_bicycle_run :
  forall A s q us, all_accurate A -> p_sh_coll (bs_p s) = true ->
  vehicle_in_range (bs_p s) -> drive_in_range (bs_p s) ->
  obstacles_in_range (bs_circ s) (bs_rect s) -> bk_trip_in_range (bs_p s) (length us) q ->
  fl_bk_coll A (bs_p s) (bs_circ s) (bs_rect s) q = false ->
  forall q', In q' (fl_bk_run A s q us) ->
  bk_safe (bs_p s) (map (shrunk_circle (2 / 1000)) (bs_circ s)) (map (shrunk_rect (2 / 1000)) (bs_rect s)) q'.
Proof. exact l_C66_bicycle_run. Qed.
Print Assumptions C66_bicycle_run.

(** C65: with exact arithmetic the computed checks and steps are those of the rest of the model. *)
Theorem C65_exact :
  (forall p circ rect q, fl_tt_coll (fun _ => exact_arith) p circ rect q = tt_coll p circ rect q) /\
  (forall p circ rect q, fl_bk_coll (fun _ => exact_arith) p circ rect q = bk_coll p circ rect q) /\
  (forall p q, fl_tt_hitch (fun _ => exact_arith) p q = tt_hitch p q) /\
  (forall s q a r v d o proj guide, p_proj (ts_p s) = false -> p_guid (ts_p s) = false ->
     fl_tt_step (fun _ => exact_arith) s q a = st_q (tt_step s proj guide (mkState q v r d o false) a)) /\
  (forall s q a r v d o proj guide, p_proj (bs_p s) = false -> p_guid (bs_p s) = false ->
     fl_bk_step (fun _ => exact_arith) s q a = st_q (bk_step s proj guide (mkState q v r d o false) a)).
Proof. exact l_C65_exact. Qed.
Print Assumptions C65_exact.

(** C65: IEEE single precision, whatever products the compiler contracts with the sum that follows, is accurate in the
    sense of the other theorems; so is exact arithmetic. *)
Theorem C65_single_precision :
  (forall contract, all_accurate (single contract)) /\ all_accurate (fun _ => exact_arith).
Proof. exact l_C65_single_precision. Qed.
Print Assumptions C65_single_precision.

Example C65_example :
  forall contract, all_accurate (single contract) /\ vehicle_in_range (ts_p ex_tt) /\ tt_in_range ex_q /\
  obstacles_in_range (ts_circ ex_tt) (ts_rect ex_tt) /\
  fl_tt_coll (single contract) (ts_p ex_tt) (ts_circ ex_tt) (ts_rect ex_tt) ex_q = false.
Proof. exact x_C65_example. Qed.

Example C66_example :
  forall contract (us : list act), length us = 50%nat ->
  p_sh_coll (ts_p ex_tt) = true /\ p_sh_hitch (ts_p ex_tt) = true /\ drive_in_range (ts_p ex_tt) /\
  0 <= p_phi_max (ts_p ex_tt) <= 10 /\ tt_trip_in_range (ts_p ex_tt) (length us) ex_q /\
  fl_tt_coll (single contract) (ts_p ex_tt) (ts_circ ex_tt) (ts_rect ex_tt) ex_q = false /\
  fl_tt_hitch (single contract) (ts_p ex_tt) ex_q = false.
Proof. exact x_C66_example. Qed.

(** C67: hence, whatever the contractions, the 50 states the default vehicle visits under its shields are safe up to the
    tolerances of C65. *)
Example C67_default_vehicle :
  forall contract us q', length (A := act) us = 50%nat -> In q' (fl_tt_run (single contract) ex_tt ex_q us) ->
  tt_clear (ts_p ex_tt) (map (shrunk_circle (2 / 1000)) (ts_circ ex_tt)) (map (shrunk_rect (2 / 1000)) (ts_rect ex_tt)) q' /\
  hitch_ok (p_phi_max (ts_p ex_tt) + / 1000) (t_th1 q') (t_th2 q').
Proof. exact x_C67_default_vehicle. Qed.
