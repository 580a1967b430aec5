(** * Property theorems (generated from ProofsDemoScore.v by tools/genprops.py; statements only,
    each closed by [exact]). *)
From Coq Require Import String.
From Verif Require Import Base BaseFacts Params Geom TT2d Bicycle NTrailer Acc SpecGeom SpecBodies SpecSym
  SpecReward Demo SpecDemo ProofsBodies ProofsReward ProofsDemo.
From Verif Require Import ProofsDemoScore.
Local Open Scope list_scope.
Open Scope R_scope.

(** C37: the demonstration score of a trajectory with as many rows as the reference lies between
    minus the sum of the weights and 0, for every motion preference. *)
Theorem C37_tt_score_range :
  forall s xref xs pref, length xs = length xref -> xref <> [] ->
  0 < p_ref_thr (ts_p s) -> 0 < p_phi_max (ts_p s) ->
  0 <= p_ref_pos_w (ts_p s) -> 0 <= p_ref_th1_w (ts_p s) -> 0 <= p_ref_th2_w (ts_p s) ->
  - (p_ref_pos_w (ts_p s) + p_ref_th1_w (ts_p s) + p_ref_th2_w (ts_p s)) <= tt_logpd s xref xs pref <= 0.
Proof. exact l_C37_tt_score_range. Qed.
Print Assumptions C37_tt_score_range.

Theorem C37_acc_score_range :
  forall s xref xs pref, length xs = length xref -> xref <> [] ->
  0 < p_ref_thr (as_p s) -> 0 < p_phi_max (as_p s) ->
  0 <= p_ref_pos_w (as_p s) -> 0 <= p_ref_th1_w (as_p s) -> 0 <= p_ref_th2_w (as_p s) ->
  - (p_ref_pos_w (as_p s) + p_ref_th1_w (as_p s) + p_ref_th2_w (as_p s)) <= acc_logpd s xref xs pref <= 0.
Proof. exact l_C37_acc_score_range. Qed.
Print Assumptions C37_acc_score_range.

Theorem C37_nt_score_range :
  forall s xref xs pref, length xs = length xref -> xref <> [] ->
  0 < p_ref_thr (ns_p s) -> 0 < p_phi_max (ns_p s) ->
  0 <= p_ref_pos_w (ns_p s) -> 0 <= p_ref_th1_w (ns_p s) -> 0 <= p_ref_th2_w (ns_p s) ->
  - (p_ref_pos_w (ns_p s) + p_ref_th1_w (ns_p s) + p_ref_th2_w (ns_p s)) <= nt_logpd s xref xs pref <= 0.
Proof. exact l_C37_nt_score_range. Qed.
Print Assumptions C37_nt_score_range.

(** C37, bicycle: one heading weight only. *)
Theorem C37_bk_score_range :
  forall s xref xs pref, length xs = length xref -> xref <> [] ->
  0 < p_ref_thr (bs_p s) -> 0 < p_phi_max (bs_p s) ->
  0 <= p_ref_pos_w (bs_p s) -> 0 <= p_ref_th1_w (bs_p s) ->
  - (p_ref_pos_w (bs_p s) + p_ref_th1_w (bs_p s)) <= bk_logpd s xref xs pref <= 0.
Proof. exact l_C37_bk_score_range. Qed.
Print Assumptions C37_bk_score_range.

(** C37: with positive weights the score is 0 exactly when, row by row, the compared position
    (tractor for forward preferences, trailer axle otherwise) is the reference position and, on
    flagged rows, both headings agree with the reference. *)
Theorem C37_tt_zero_iff_followed :
  forall s xref xs pref, length xs = length xref -> xref <> [] ->
  0 < p_ref_thr (ts_p s) -> 0 < p_phi_max (ts_p s) ->
  0 < p_ref_pos_w (ts_p s) -> 0 < p_ref_th1_w (ts_p s) -> 0 < p_ref_th2_w (ts_p s) ->
  (tt_logpd s xref xs pref = 0 <->
   forall x r, In (x, r) (combine xs xref) ->
     (tracks_tractor pref -> (t_px x, t_py x) = (f_px r, f_py r)) /\
     (~ tracks_tractor pref -> trailer_axle (ts_p s) x = (f_px r, f_py r)) /\
     (f_mask r = true -> aligned pref (t_th1 x) (t_th2 x) r)).
Proof. exact l_C37_tt_zero_iff_followed. Qed.
Print Assumptions C37_tt_zero_iff_followed.

(** C37: rows outside the last leg contribute no heading error: the score does not depend on the
    headings stored in unflagged reference rows. *)
Theorem C37_unflagged_headings_irrelevant :
  forall s xref xref' xs pref,
  Forall2 (fun r r' => f_px r = f_px r' /\ f_py r = f_py r' /\ f_mask r = f_mask r' /\
                       (f_mask r = true -> f_th1 r = f_th1 r' /\ f_th2 r = f_th2 r')) xref xref' ->
  tt_logpd s xref xs pref = tt_logpd s xref' xs pref.
Proof. exact l_C37_unflagged_headings_irrelevant. Qed.
Print Assumptions C37_unflagged_headings_irrelevant.

(** C37, acceleration-controlled robot: the same, whatever its speed and steering angle. *)
Theorem C37_acc_zero_iff_followed :
  forall s xref xs pref, length xs = length xref -> xref <> [] ->
  0 < p_ref_thr (as_p s) -> 0 < p_phi_max (as_p s) ->
  0 < p_ref_pos_w (as_p s) -> 0 < p_ref_th1_w (as_p s) -> 0 < p_ref_th2_w (as_p s) ->
  (acc_logpd s xref xs pref = 0 <->
   forall x r, In (x, r) (combine xs xref) ->
     (tracks_tractor pref -> (t_px (a_q x), t_py (a_q x)) = (f_px r, f_py r)) /\
     (~ tracks_tractor pref -> trailer_axle (as_p s) (a_q x) = (f_px r, f_py r)) /\
     (f_mask r = true -> aligned pref (t_th1 (a_q x)) (t_th2 (a_q x)) r)).
Proof. exact l_C37_acc_zero_iff_followed. Qed.
Print Assumptions C37_acc_zero_iff_followed.

(** C37, n trailers: the tractor's rear axle or the point the class calls the last trailer's
    position is held against the reference position, and on flagged rows the headings of the
    tractor and of the first trailer against the reference headings. *)
Theorem C37_nt_zero_iff_followed :
  forall s xref xs pref, length xs = length xref -> xref <> [] ->
  0 < p_ref_thr (ns_p s) -> 0 < p_phi_max (ns_p s) ->
  0 < p_ref_pos_w (ns_p s) -> 0 < p_ref_th1_w (ns_p s) -> 0 < p_ref_th2_w (ns_p s) ->
  length (ns_len s) = p_num_trailers (ns_p s) -> length (ns_front s) = p_num_trailers (ns_p s) ->
  (forall x, In x xs -> length (n_ths x) = p_num_trailers (ns_p s)) ->
  (nt_logpd s xref xs pref = 0 <->
   forall x r, In (x, r) (combine xs xref) ->
     (tracks_tractor pref -> (n_px x, n_py x) = (f_px r, f_py r)) /\
     (~ tracks_tractor pref -> nt_last_point s x = (f_px r, f_py r)) /\
     (f_mask r = true -> aligned pref (n_th0 x) (first_trailer_heading x) r)).
Proof. exact l_C37_nt_zero_iff_followed. Qed.
Print Assumptions C37_nt_zero_iff_followed.

(** C37, bicycle: the rear axle is held against the reference position and, on flagged rows, the
    heading against the first reference heading (up to half a turn without a preference). *)
Theorem C37_bk_zero_iff_followed :
  forall s xref xs pref, length xs = length xref -> xref <> [] ->
  0 < p_ref_thr (bs_p s) -> 0 < p_phi_max (bs_p s) ->
  0 < p_ref_pos_w (bs_p s) -> 0 < p_ref_th1_w (bs_p s) ->
  (bk_logpd s xref xs pref = 0 <->
   forall x r, In (x, r) (combine xs xref) ->
     (b_px x, b_py x) = (f_px r, f_py r) /\
     (f_mask r = true -> turns (f_th1 r) (b_th x) \/ (pref = 0%Z /\ turns (f_th1 r + PI) (b_th x)))).
Proof. exact l_C37_bk_zero_iff_followed. Qed.
Print Assumptions C37_bk_zero_iff_followed.

(** C37: unflagged headings do not matter for the other classes either. *)
Theorem C37_acc_unflagged_headings_irrelevant :
  forall s xref xref' xs pref, Forall2 same_but_unflagged xref xref' ->
  acc_logpd s xref xs pref = acc_logpd s xref' xs pref.
Proof. exact l_C37_acc_unflagged_headings_irrelevant. Qed.
Print Assumptions C37_acc_unflagged_headings_irrelevant.

Theorem C37_nt_unflagged_headings_irrelevant :
  forall s xref xref' xs pref, Forall2 same_but_unflagged xref xref' ->
  nt_logpd s xref xs pref = nt_logpd s xref' xs pref.
Proof. exact l_C37_nt_unflagged_headings_irrelevant. Qed.
Print Assumptions C37_nt_unflagged_headings_irrelevant.

Theorem C37_bk_unflagged_headings_irrelevant :
  forall s xref xref' xs pref, Forall2 same_but_unflagged xref xref' ->
  bk_logpd s xref xs pref = bk_logpd s xref' xs pref.
Proof. exact l_C37_bk_unflagged_headings_irrelevant. Qed.
Print Assumptions C37_bk_unflagged_headings_irrelevant.

(** C37: any trajectory whose compared points are the reference points and whose headings are the
    reference headings scores 0, whatever the preference: with a backward or no preference, drive
    the trailer axle along the reference. *)
Theorem C37_followed_scores_zero :
  forall s xref pref, xref <> [] ->
  0 < p_ref_thr (ts_p s) -> 0 < p_phi_max (ts_p s) ->
  0 < p_ref_pos_w (ts_p s) -> 0 < p_ref_th1_w (ts_p s) -> 0 < p_ref_th2_w (ts_p s) ->
  exists xs, length xs = length xref /\ tt_logpd s xref xs pref = 0 /\
    forall x r, In (x, r) (combine xs xref) -> t_th1 x = f_th1 r /\ t_th2 x = f_th2 r.
Proof. exact l_C37_followed_scores_zero. Qed.
Print Assumptions C37_followed_scores_zero.

(** C37: driving the tractor exactly on the reference scores 0 with a forward preference ... *)
Theorem C37_reference_itself_forward :
  forall s xref pref, xref <> [] -> tracks_tractor pref ->
  0 < p_ref_thr (ts_p s) -> 0 < p_phi_max (ts_p s) ->
  0 < p_ref_pos_w (ts_p s) -> 0 < p_ref_th1_w (ts_p s) -> 0 < p_ref_th2_w (ts_p s) ->
  tt_logpd s xref (map (fun r => mkTT (f_px r) (f_py r) (f_th1 r) (f_th2 r)) xref) pref = 0.
Proof. exact l_C37_reference_itself_forward. Qed.
Print Assumptions C37_reference_itself_forward.

(** ... but not with any other preference: there the trailer axle, not the tractor, is held
    against the reference positions, so the reference does not score 0 against itself. *)
Theorem C37_reference_itself_scores_negative_refuted :
  forall s xref pref r, In r xref -> f_th1 r = f_th2 r -> ~ tracks_tractor pref -> 0 < p_lh (ts_p s) + p_l2 (ts_p s) ->
  0 < p_ref_thr (ts_p s) -> 0 < p_phi_max (ts_p s) ->
  0 < p_ref_pos_w (ts_p s) -> 0 < p_ref_th1_w (ts_p s) -> 0 < p_ref_th2_w (ts_p s) ->
  tt_logpd s xref (map (fun r => mkTT (f_px r) (f_py r) (f_th1 r) (f_th2 r)) xref) pref < 0.
Proof. exact l_C37_reference_itself_scores_negative_refuted. Qed.
Print Assumptions C37_reference_itself_scores_negative_refuted.

(** The defaults meet the hypotheses. *)
Example C37_defaults_example :
  let p := ts_p (post_world 50) in
  0 < p_ref_thr p /\ 0 < p_phi_max p /\ 0 < p_ref_pos_w p /\ 0 < p_ref_th1_w p /\ 0 < p_ref_th2_w p /\ 0 < p_lh p + p_l2 p.
Proof. exact x_C37_defaults_example. Qed.

(** C37: the demonstration's own reward is at most 1 plus the terminal weight. *)
Theorem C37_reference_reward_bounded :
  forall s xref, xref <> [] -> weights_ok (ts_p s) -> 0 < p_term_thr (ts_p s) -> 0 <= p_term_w (ts_p s) ->
  tt_rew_xref s xref <= 1 + p_term_w (ts_p s).
Proof. exact l_C37_reference_reward_bounded. Qed.
Print Assumptions C37_reference_reward_bounded.
