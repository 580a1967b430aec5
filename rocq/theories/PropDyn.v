(** * Property theorems (generated from ProofsDyn.v by tools/genprops.py; statements only,
    each closed by [exact]). *)
From Verif Require Import Base BaseFacts Params Geom TT2d Bicycle NTrailer SpecGeom SpecBodies SpecDyn SpecMotion
  ProofsGeom ProofsBodies ProofsRobots ProofsSafety.
From Verif Require Import ProofsDyn.
Open Scope R_scope.

(** C20, N trailers: along any motion that obeys the modelled dynamics under any (possibly
    time-varying) speed and steering, no axle slips sideways. *)
Theorem C20_nt_no_slip :
  forall (s : nt_self) (px py th0 : R -> R) (ths : list (R -> R)) (v delta t : R),
  length ths = p_num_trailers (ns_p s) -> length (ns_len s) = p_num_trailers (ns_p s) ->
  (forall L, In L (ns_len s) -> L <> 0) ->
  let rate := nt_dyn s (mkNT (px t) (py t) (th0 t) (map (fun f => f t) ths)) (v, delta) in
  derivable_pt_lim px t (n_px rate) -> derivable_pt_lim py t (n_py rate) ->
  derivable_pt_lim th0 t (n_th0 rate) ->
  Forall2 (fun f d => derivable_pt_lim f t d) ths (n_ths rate) ->
  Forall (no_slip t) (axles (p_lh (ns_p s)) (mkAxle px py th0) ths (ns_len s)).
Proof. exact l_C20_nt_no_slip. Qed.
Print Assumptions C20_nt_no_slip.

(** C20, tractor with one trailer. *)
Theorem C20_tt_no_slip :
  forall (p : params) (px py th1 th2 : R -> R) (v delta t : R), p_l2 p <> 0 ->
  let rate := tt_dyn p (mkTT (px t) (py t) (th1 t) (th2 t)) (v, delta) in
  derivable_pt_lim px t (t_px rate) -> derivable_pt_lim py t (t_py rate) ->
  derivable_pt_lim th1 t (t_th1 rate) -> derivable_pt_lim th2 t (t_th2 rate) ->
  Forall (no_slip t) (axles (p_lh p) (mkAxle px py th1) [th2] [p_l2 p]).
Proof. exact l_C20_tt_no_slip. Qed.
Print Assumptions C20_tt_no_slip.

(** C20: the position the tractor-trailer class reports for its trailer is that axle. *)
Theorem C20_tt_trailer_position_is_axle :
  forall (p : params) (px py th1 th2 : R -> R) (t : R),
  map (fun a => (ax_x a t, ax_y a t)) (axles (p_lh p) (mkAxle px py th1) [th2] [p_l2 p])
  = [(px t, py t); tt_trailer_pos p (mkTT (px t) (py t) (th1 t) (th2 t))].
Proof. exact l_C20_tt_trailer_position_is_axle. Qed.
Print Assumptions C20_tt_trailer_position_is_axle.

(** C20, bicycle. *)
Theorem C20_bk_no_slip :
  forall (p : params) (px py th : R -> R) (v delta t : R),
  let rate := bk_dyn p (mkBK (px t) (py t) (th t)) (v, delta) in
  derivable_pt_lim px t (b_px rate) -> derivable_pt_lim py t (b_py rate) -> derivable_pt_lim th t (b_th rate) ->
  Forall (no_slip t) (axles (p_lh p) (mkAxle px py th) [] []).
Proof. exact l_C20_bk_no_slip. Qed.
Print Assumptions C20_bk_no_slip.

(** C20: the front axle of the tractor (l1 ahead) moves along the steered wheel direction:
    the bicycle's steering geometry. *)
Theorem C20_front_wheel_no_slip :
  forall (p : params) (px py th : R -> R) (v delta t : R), p_l1 p <> 0 -> cos delta <> 0 ->
  let rate := bk_dyn p (mkBK (px t) (py t) (th t)) (v, delta) in
  derivable_pt_lim px t (b_px rate) -> derivable_pt_lim py t (b_py rate) -> derivable_pt_lim th t (b_th rate) ->
  exists vx vy,
    derivable_pt_lim (fun u => px u + p_l1 p * cos (th u)) t vx /\
    derivable_pt_lim (fun u => py u + p_l1 p * sin (th u)) t vy /\
    - vx * sin (th t + delta) + vy * cos (th t + delta) = 0.
Proof. exact l_C20_front_wheel_no_slip. Qed.
Print Assumptions C20_front_wheel_no_slip.

(** C20: one trailer of the N-trailer class moves like the tractor-trailer class, and both
    move their tractor like the bicycle class. *)
Theorem C20_models_nest :
  forall (s : nt_self) (q : ttq) (u : act), p_num_trailers (ns_p s) = 1%nat -> ns_len s = [p_l2 (ns_p s)] ->
  let p := ns_p s in
  nt_dyn s (mkNT (t_px q) (t_py q) (t_th1 q) [t_th2 q]) u
    = mkNT (t_px (tt_dyn p q u)) (t_py (tt_dyn p q u)) (t_th1 (tt_dyn p q u)) [t_th2 (tt_dyn p q u)] /\
  bk_dyn p (mkBK (t_px q) (t_py q) (t_th1 q)) u
    = mkBK (t_px (tt_dyn p q u)) (t_py (tt_dyn p q u)) (t_th1 (tt_dyn p q u)).
Proof. exact l_C20_models_nest. Qed.
Print Assumptions C20_models_nest.

(** C20: adding trailers never changes how the front part of the train moves. *)
Theorem C20_front_part_unaffected :
  forall (s s' : nt_self) (q : ntq) (extra : list R) (u : act),
  p_lh (ns_p s') = p_lh (ns_p s) -> p_l1 (ns_p s') = p_l1 (ns_p s) ->
  length (n_ths q) = p_num_trailers (ns_p s) -> length (ns_len s) = p_num_trailers (ns_p s) ->
  length (n_ths q ++ extra) = p_num_trailers (ns_p s') -> length (ns_len s') = p_num_trailers (ns_p s') ->
  firstn (p_num_trailers (ns_p s)) (ns_len s') = ns_len s ->
  let big := nt_dyn s' (mkNT (n_px q) (n_py q) (n_th0 q) (n_ths q ++ extra)) u in
  let small := nt_dyn s q u in
  n_px big = n_px small /\ n_py big = n_py small /\ n_th0 big = n_th0 small /\
  firstn (p_num_trailers (ns_p s)) (n_ths big) = n_ths small.
Proof. exact l_C20_front_part_unaffected. Qed.
Print Assumptions C20_front_part_unaffected.

(** Non-vacuity: straight driving at 3 m/s with two trailers is such a motion. *)
Example C20_straight_drive :
  let rate := nt_dyn ex_nt (mkNT (3 * 7) 0 0 [0; 0]) (3, 0) in
  derivable_pt_lim (fun t => 3 * t) 7 (n_px rate) /\ derivable_pt_lim (fun _ => 0) 7 (n_py rate) /\
  derivable_pt_lim (fun _ => 0) 7 (n_th0 rate) /\
  Forall2 (fun f d => derivable_pt_lim f 7 d) [(fun _ => 0); (fun _ => 0)] (n_ths rate).
Proof. exact x_C20_straight_drive. Qed.

(** C20 (finding): with two or more trailers the three places of the code that locate the last
    trailer's axle disagree: the dynamics roll about an axle hitched lh behind the previous
    axle, the collision check places the body lh behind the previous body's rear face, and
    the reward uses a hitch lf in front of the previous axle. Straight train, default sizes. *)
Theorem C20_nt_last_axle_positions_disagree_refuted :
  exists (s : nt_self) (q : ntq), nt_sized s /\ p_num_trailers (ns_p s) = 2%nat /\
    length (n_ths q) = 2%nat /\
    let in_dynamics := - (p_lh (ns_p s) + nth 0 (ns_len s) 0 + p_lh (ns_p s) + nth 1 (ns_len s) 0) in
    map (fun a => ax_x a 0) (axles (p_lh (ns_p s)) (mkAxle (fun _ => n_px q) (fun _ => n_py q) (fun _ => n_th0 q))
                         (map (fun th (_ : R) => th) (n_ths q)) (ns_len s))
      = [0; - (p_lh (ns_p s) + nth 0 (ns_len s) 0); in_dynamics] /\
    fst (rg_org (nth 2 (nt_bodies s q) (tractor_body (ns_p s) 0 0 0))) = in_dynamics - nth 0 (ns_rear s) 0 /\
    fst (nt_last_pos s q) = in_dynamics + p_lh (ns_p s) + nth 0 (ns_front s) 0 /\
    nth 0 (ns_rear s) 0 = 1848/1000 /\ p_lh (ns_p s) + nth 0 (ns_front s) 0 = 257/100.
Proof. exact l_C20_nt_last_axle_positions_disagree_refuted. Qed.
Print Assumptions C20_nt_last_axle_positions_disagree_refuted.

(** C20 (finding): the second trailer's axle as the collision check (and the drawing) places it slips sideways under the code's own dynamics. *)
Theorem C20_nt_drawn_trailer_slips_refuted :
  exists (s : nt_self) (px py th0 th1 th2 : R -> R) (v delta : R), nt_sized s /\
  Rabs v <= p_vmax (ns_p s) /\ Rabs delta <= p_dmax (ns_p s) /\
  let rate := nt_dyn s (mkNT (px 0) (py 0) (th0 0) [th1 0; th2 0]) (v, delta) in
  derivable_pt_lim px 0 (n_px rate) /\ derivable_pt_lim py 0 (n_py rate) /\
  derivable_pt_lim th0 0 (n_th0 rate) /\
  Forall2 (fun f d => derivable_pt_lim f 0 d) [th1; th2] (n_ths rate) /\
  exists vx vy, derivable_pt_lim (ax_x (drawn_axle2 s px py th0 th1 th2)) 0 vx /\
    derivable_pt_lim (ax_y (drawn_axle2 s px py th0 th1 th2)) 0 vy /\
    - vx * sin (th2 0) + vy * cos (th2 0) <> 0.
Proof. exact l_C20_nt_drawn_trailer_slips_refuted. Qed.
Print Assumptions C20_nt_drawn_trailer_slips_refuted.
