(** * Property theorems (generated from ProofsAnim.v by tools/genprops.py; statements only,
    each closed by [exact]). *)
From Coq Require Import Lia Lra Psatz String.
From Verif Require Import SpecGeom Base BaseFacts Params Geom TT2d Bicycle NTrailer Acc Rollout EnvModel Setup Anim SpecBodies SpecReward SpecEnv SpecAnim ProofsGeom ProofsBodies ProofsChecks ProofsSetup.
From Verif Require Import ProofsAnim.
Local Open Scope string_scope.
Local Open Scope list_scope.
Open Scope R_scope.

(** C47: for every parameter set and state the drawn tractor and trailer cover exactly the bodies the
    collision check uses (TractorTrailer2d). *)
Theorem C47_tt_bodies_drawn :
  forall p q u, tt_sized p -> Forall2 draws (dr_bodies (tt_draw p q u)) (tt_bodies p q).
Proof. exact l_C47_tt_bodies_drawn. Qed.
Print Assumptions C47_tt_bodies_drawn.

(** C47: the same for the acceleration class, *)
Theorem C47_acc_bodies_drawn :
  forall p q u, tt_sized p -> Forall2 draws (dr_bodies (acc_draw p q u)) (tt_bodies p (a_q q)).
Proof. exact l_C47_acc_bodies_drawn. Qed.
Print Assumptions C47_acc_bodies_drawn.

(** C47: for the bicycle, *)
Theorem C47_bk_bodies_drawn :
  forall p q u, tractor_sized p -> Forall2 draws (dr_bodies (bk_draw p q u)) (bk_bodies p q).
Proof. exact l_C47_bk_bodies_drawn. Qed.
Print Assumptions C47_bk_bodies_drawn.

(** C47: and for the N-trailer with any number of trailers. *)
Theorem C47_nt_bodies_drawn :
  forall s q u, nt_sized s -> length (n_ths q) = p_num_trailers (ns_p s) ->
  Forall2 draws (dr_bodies (nt_draw s q u)) (nt_bodies s q).
Proof. exact l_C47_nt_bodies_drawn. Qed.
Print Assumptions C47_nt_bodies_drawn.

(** C47: a drawn rectangular obstacle covers exactly the obstacle the check uses; a drawn circle has
    its centre and radius. *)
Theorem C47_obstacles_drawn :
  forall circ rect, (forall o, In o rect -> 0 < r_w o /\ 0 < r_h o) ->
  sc_circles (draw_scene circ rect) = map (fun c => ((c_x c, c_y c), c_r c)) circ /\
  Forall2 draws (sc_rects (draw_scene circ rect)) (map obstacle_body rect).
Proof. exact l_C47_obstacles_drawn. Qed.
Print Assumptions C47_obstacles_drawn.

(** C47: the frames of the trajectory animation. With one more state than actions (as run_diffusion and
    the statistics pass them) there is one frame per state; frame k shows the vehicle in state k with
    action k (none for the last), its two warning marks, the trace of states 0..k and of the overlay. *)
Theorem C47_trajectory_frames :
  forall (Q : Type) (a : animated Q) (over states : list Q) (us : list act), length states = S (length us) ->
  let fs := trajectory_frames a over states (with_final us) in
  length fs = length states /\
  forall k q, nth_error states k = Some q ->
  exists f, nth_error fs k = Some f /\ fr_scene f = an_scene a /\ fr_vehicle f = an_draw a q (nth_error us k) /\
    fr_coll f = an_coll a q /\ fr_hitch f = an_hitch a q /\
    fr_trace f = map (an_pos a) (firstn (S k) states) /\ fr_overlay f = map (an_pos a) (firstn (S k) over).
Proof. exact l_C47_trajectory_frames. Qed.
Print Assumptions C47_trajectory_frames.

(** C47: in every frame of the animation of a TractorTrailer2d whose robot and Env objects hold the same
    obstacles (C31: always, with the public setters), the red mark is there exactly when, in the picture, a
    drawn body meets a drawn rectangle or the border of a drawn body meets a drawn circle; the purple mark
    exactly when the headings differ by more than phi_max, the short way round. *)
Theorem C47_tt_marks :
  forall e s over states us k f, e_circles e = ts_circ s -> e_rects e = ts_rect s ->
  tt_sized (ts_p s) -> proper_obstacles (ts_circ s) (ts_rect s) -> length states = S (length us) ->
  nth_error (trajectory_frames (tt_animated e s) over states (with_final us)) k = Some f ->
  exists q, nth_error states k = Some q /\
  (fr_coll f = true <-> meets_rect f \/ edge_meets_circle f) /\
  (fr_hitch f = false <-> hitch_ok (p_phi_max (ts_p s)) (t_th1 q) (t_th2 q)).
Proof. exact l_C47_tt_marks. Qed.
Print Assumptions C47_tt_marks.

(** C47: the same for the acceleration class, *)
Theorem C47_acc_marks :
  forall e s over states us k f, e_circles e = ts_circ (as_t s) -> e_rects e = ts_rect (as_t s) ->
  tt_sized (as_p s) -> proper_obstacles (ts_circ (as_t s)) (ts_rect (as_t s)) -> length states = S (length us) ->
  nth_error (trajectory_frames (acc_animated e s) over states (with_final us)) k = Some f ->
  exists q, nth_error states k = Some q /\
  (fr_coll f = true <-> meets_rect f \/ edge_meets_circle f) /\
  (fr_hitch f = false <-> hitch_ok (p_phi_max (as_p s)) (t_th1 (a_q q)) (t_th2 (a_q q))).
Proof. exact l_C47_acc_marks. Qed.
Print Assumptions C47_acc_marks.

(** C47: for the bicycle (there is no hitch, and no purple mark), *)
Theorem C47_bk_marks :
  forall e s over states us k f, e_circles e = bs_circ s -> e_rects e = bs_rect s ->
  tractor_sized (bs_p s) -> proper_obstacles (bs_circ s) (bs_rect s) -> length states = S (length us) ->
  nth_error (trajectory_frames (bk_animated e s) over states (with_final us)) k = Some f ->
  (fr_coll f = true <-> meets_rect f \/ edge_meets_circle f) /\ fr_hitch f = false.
Proof. exact l_C47_bk_marks. Qed.
Print Assumptions C47_bk_marks.

(** C47: and for the N-trailer, whose purple mark looks at every hitch. *)
Theorem C47_nt_marks :
  forall e s over states us k f, e_circles e = ns_circ s -> e_rects e = ns_rect s ->
  nt_sized s -> (1 <= p_num_trailers (ns_p s))%nat -> proper_obstacles (ns_circ s) (ns_rect s) -> length states = S (length us) ->
  (forall q, In q states -> length (n_ths q) = p_num_trailers (ns_p s)) ->
  nth_error (trajectory_frames (nt_animated e s) over states (with_final us)) k = Some f ->
  exists q, nth_error states k = Some q /\
  (fr_coll f = true <-> meets_rect f \/ edge_meets_circle f) /\
  (fr_hitch f = false <-> chain_ok (p_phi_max (ns_p s)) (n_th0 q :: n_ths q)).
Proof. exact l_C47_nt_marks. Qed.
Print Assumptions C47_nt_marks.

(** C47: TractorTrailer2d draws its wheels at the rear axle, the front axle and the trailer axle, the
    outer two along their bodies and the front one turned by the second component of the action. *)
Theorem C47_tt_wheels_partial :
  forall p q u, exists rear front trail, dr_wheels (tt_draw p q u) = [rear; front; trail] /\
  wheel_at rear (t_px q, t_py q) (t_th1 q) /\
  wheel_at front (front_axle p (t_px q) (t_py q) (t_th1 q)) (t_th1 q + match u with Some a => snd a | None => 0 end) /\
  wheel_at trail (trailer_axle p q) (t_th2 q).
Proof. exact l_C47_tt_wheels_partial. Qed.
Print Assumptions C47_tt_wheels_partial.

(** C47: the acceleration class turns the drawn front wheel by the steering angle of the state. *)
Theorem C47_acc_wheels :
  forall p q u, exists rear front trail, dr_wheels (acc_draw p q u) = [rear; front; trail] /\
  wheel_at rear (t_px (a_q q), t_py (a_q q)) (t_th1 (a_q q)) /\
  wheel_at front (front_axle p (t_px (a_q q)) (t_py (a_q q)) (t_th1 (a_q q))) (t_th1 (a_q q) + a_d q) /\
  wheel_at trail (trailer_axle p (a_q q)) (t_th2 (a_q q)).
Proof. exact l_C47_acc_wheels. Qed.
Print Assumptions C47_acc_wheels.

(** C47 fails for the kinematic classes: run_diffusion passes normalised actions, and the drawn front
    wheel is turned by the normalised component instead of the steering angle that is executed; the two
    agree only when it is 0 or the steering limit is 1 rad. *)
Theorem C47_kinematic_steering_refuted :
  (forall p q a, exists rear front trail, dr_wheels (tt_draw p q (Some a)) = [rear; front; trail] /\
     (pa_rot front = t_th1 q + snd a * p_dmax p <-> snd a = 0 \/ p_dmax p = 1)) /\
  (forall p q a, exists rear front, dr_wheels (bk_draw p q (Some a)) = [rear; front] /\
     (pa_rot front = b_th q + snd a * p_dmax p <-> snd a = 0 \/ p_dmax p = 1)) /\
  (forall s q a, exists rear front rest, dr_wheels (nt_draw s q (Some a)) = rear :: front :: rest /\
     (pa_rot front = n_th0 q + snd a * p_dmax (ns_p s) <-> snd a = 0 \/ p_dmax (ns_p s) = 1)).
Proof. exact l_C47_kinematic_steering_refuted. Qed.
Print Assumptions C47_kinematic_steering_refuted.

(** C47: where the N-trailer class draws its wheels: the tractor's at the two axles, but each trailer's in
    the middle of the trailer, (lf - lr) / 2 ahead of its axle. *)
Theorem C47_nt_wheels_partial :
  forall s q u, nt_sized s -> length (n_ths q) = p_num_trailers (ns_p s) ->
  exists rear front trails, dr_wheels (nt_draw s q u) = rear :: front :: trails /\
  wheel_at rear (n_px q, n_py q) (n_th0 q) /\
  wheel_at front (front_axle (ns_p s) (n_px q) (n_py q) (n_th0 q)) (n_th0 q + match u with Some a => snd a | None => 0 end) /\
  Forall2 (fun w g => wheel_at w (ahead (rg_org g) (rg_ang g) ((rg_front g + rg_back g) / 2)) (rg_ang g)) trails (tl (nt_bodies s q)).
Proof. exact l_C47_nt_wheels_partial. Qed.
Print Assumptions C47_nt_wheels_partial.

(** C47 fails: with unequal overhangs no trailer wheel is at its axle. *)
Theorem C47_nt_wheels_refuted :
  forall s q u i w g, nt_sized s -> length (n_ths q) = p_num_trailers (ns_p s) ->
  nth_error (tl (tl (dr_wheels (nt_draw s q u)))) i = Some w -> nth_error (tl (nt_bodies s q)) i = Some g ->
  rg_front g <> - rg_back g -> (pa_tx w, pa_ty w) <> rg_org g.
Proof. exact l_C47_nt_wheels_refuted. Qed.
Print Assumptions C47_nt_wheels_refuted.

(** C47: hitch lines. The two lines of TractorTrailer2d meet at the hitch point, lh behind the rear axle;
    one starts at the rear axle, the other at the front edge of the trailer. *)
Theorem C47_tt_hitch_lines :
  forall p q u, let hitch := ahead (t_px q, t_py q) (t_th1 q) (- p_lh p) in
  dr_lines (tt_draw p q u) = [((t_px q, t_py q), hitch); (ahead (trailer_axle p q) (t_th2 q) (p_lf2 p), hitch)].
Proof. exact l_C47_tt_hitch_lines. Qed.
Print Assumptions C47_tt_hitch_lines.

(** C48: the classes that start new wheel lists (bicycle, N-trailer) can be animated any number of times. *)
Theorem C48_fresh_lists : forall n frames, animations Fresh n frames = Ok tt.
Proof. exact l_C48_fresh_lists. Qed.
Print Assumptions C48_fresh_lists.

(** C48: a new TractorTrailer2d or acceleration object can be animated once. *)
Theorem C48_first_animation_partial : forall m, animations Appended 0 [m] = Ok tt.
Proof. exact l_C48_first_animation_partial. Qed.
Print Assumptions C48_first_animation_partial.

(** C48 fails for these classes: a sequence of animations of one object works only if every animation
    after the first has no frame at all; otherwise IndexError is raised. *)
Theorem C48_second_animation_refuted :
  forall frames, (animations Appended 0 frames = Ok tt <-> forall m, In m (tl frames) -> m = O) /\
  (animations Appended 0 frames <> Ok tt -> animations Appended 0 frames = Err IndexError).
Proof. exact l_C48_second_animation_refuted. Qed.
Print Assumptions C48_second_animation_refuted.

(** Two animations with frames: the second one fails. *)
Example C48_two_animations : animations Appended 0 [51; 51]%nat = Err IndexError /\ animations Fresh 0 [51; 51]%nat = Ok tt.
Proof. exact x_C48_two_animations. Qed.

(** A non-trivial frame: the default vehicle at the origin over an obstacle at its front. *)
Example C47_marked_frame :
  let s := mkTTSelf default_params [] [mkRect 3 0 1 1 0] (mkTT 0 0 0 0) in
  tt_sized (ts_p s) /\ proper_obstacles (ts_circ s) (ts_rect s).
Proof. exact x_C47_marked_frame. Qed.
