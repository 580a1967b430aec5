(** * ProofsAnim: what the pictures show (C47), and repeated animations (C48). *)
From Coq Require Import Lia Lra Psatz String.
From Verif Require Import SpecGeom Base BaseFacts Params Geom TT2d Bicycle NTrailer Acc Rollout EnvModel Setup Anim SpecBodies SpecReward SpecEnv SpecAnim ProofsGeom ProofsBodies ProofsChecks ProofsSetup.
Import ListNotations.
Local Open Scope string_scope.
Local Open Scope list_scope.
Open Scope R_scope.

Lemma unit_scale : forall w x, 0 < w -> - (w / 2) <= x <= w / 2 ->
  exists u, 0 <= u <= 1 /\ x = - w / 2 + u * w /\ (x = - (w / 2) -> u = 0) /\ (x = w / 2 -> u = 1).
Proof.
  intros w x P Hx. exists ((x + w / 2) / w).
  assert (E : (x + w / 2) / w * w = x + w / 2) by (field; lra). split; [|split; [lra|]].
  - split; apply (Rmult_le_reg_r w); lra.
  - split; intros ->; field; lra.
Qed.

(** A centred rectangle covers the solid region between -w/2 .. w/2 and -h/2 .. h/2. *)
Lemma centred_draws : forall w h rot tx ty o back front half,
  0 < w -> 0 < h -> front - back = w -> 2 * half = h -> 
  (tx, ty) = at_frame o rot ((front + back) / 2) 0 ->
  draws (centred w h rot tx ty) (mkRegion o rot back front half).
Proof.
  intros w h rot tx ty o back front half Hw Hh E1 E2 E3.
  unfold draws, shown, border, solid, outline, centred. cbn [pa_x pa_y pa_w pa_h pa_rot pa_tx pa_ty rg_org rg_ang rg_back rg_front rg_half].
  unfold at_frame in *. cbn [fst snd] in *. injection E3 as Ex Ey.
  split; intros P; split.
  - intros (u & v & Hu & Hv & ->). exists ((front + back) / 2 + (- w / 2 + u * w)), (- h / 2 + v * h).
    assert (0 <= u * w <= w) by nra. assert (0 <= v * h <= h) by nra.
    split; [lra|]. split; [lra|]. rewrite Ex, Ey. f_equal; ring.
  - intros (a & b & Ha & Hb & ->).
    destruct (unit_scale w (a - (front + back) / 2) Hw) as (u & Hu & Eu & _); [lra|].
    destruct (unit_scale h b Hh) as (v & Hv & Ev & _); [lra|].
    exists u, v. split; [exact Hu|]. split; [exact Hv|]. rewrite <- Eu, <- Ev, Ex, Ey. f_equal; ring.
  - intros (u & v & Hu & Hv & Hc & ->). exists ((front + back) / 2 + (- w / 2 + u * w)), (- h / 2 + v * h).
    assert (0 <= u * w <= w) by nra. assert (0 <= v * h <= h) by nra.
    split; [lra|]. split; [lra|]. split; [|rewrite Ex, Ey; f_equal; ring].
    destruct Hc as [->|[->|[->| ->]]]; [left|right; left|right; right; left|right; right; right]; lra.
  - intros (a & b & Ha & Hb & Hc & ->).
    destruct (unit_scale w (a - (front + back) / 2) Hw) as (u & Hu & Eu & U0 & U1); [lra|].
    destruct (unit_scale h b Hh) as (v & Hv & Ev & V0 & V1); [lra|].
    exists u, v. split; [exact Hu|]. split; [exact Hv|]. split; [|rewrite <- Eu, <- Ev, Ex, Ey; f_equal; ring].
    destruct Hc as [E|[E|[E|E]]]; [left; apply U0; lra|right; left; apply U1; lra|right; right; left; apply V0; lra|right; right; right; apply V1; lra].
Qed.

Lemma tractor_draws : forall p px py th, 0 < p_l1 p + p_lf1 p + p_lr p -> 0 < p_trac_w p ->
  draws (centred (p_l1 p + p_lf1 p + p_lr p) (p_trac_w p) th
           (px + 1/2 * (p_l1 p + p_lf1 p - p_lr p) * cos th) (py + 1/2 * (p_l1 p + p_lf1 p - p_lr p) * sin th))
        (tractor_body p px py th).
Proof.
  intros p px py th H1 H2. apply centred_draws; auto; try lra. unfold at_frame. cbn [fst snd]. f_equal; field.
Qed.
Lemma trailer_draws : forall hx hy th L lf lr w, 0 < lf + lr -> 0 < w ->
  draws (centred (lf + lr) w th (hx + (1/2 * (lf - lr) - L) * cos th) (hy + (1/2 * (lf - lr) - L) * sin th))
        (trailer_body (hx, hy) th L lf lr w).
Proof.
  intros. apply centred_draws; auto; try lra. unfold at_frame, ahead. cbn [fst snd]. f_equal; field.
Qed.

(** C47: for every parameter set and state the drawn tractor and trailer cover exactly the bodies the
    collision check uses (TractorTrailer2d). *)
Lemma l_C47_tt_bodies_drawn :
  forall p q u, tt_sized p -> Forall2 draws (dr_bodies (tt_draw p q u)) (tt_bodies p q).
Proof.
  intros p [px py th1 th2] u ((S1 & S2) & S3 & S4). unfold tt_draw, tt_draw_with, tt_bodies. cbn [dr_bodies t_px t_py t_th1 t_th2].
  constructor; [apply tractor_draws; lra|]. constructor; [|constructor].
  replace (ahead (px, py) th1 (- p_lh p)) with (px - p_lh p * cos th1, py - p_lh p * sin th1) by (unfold ahead; cbn [fst snd]; f_equal; ring).
  apply trailer_draws; lra.
Qed.
(** C47: the same for the acceleration class, *)
Lemma l_C47_acc_bodies_drawn :
  forall p q u, tt_sized p -> Forall2 draws (dr_bodies (acc_draw p q u)) (tt_bodies p (a_q q)).
Proof. intros p q u H. exact (l_C47_tt_bodies_drawn p (a_q q) (Some (0, a_d q)) H). Qed.
(** C47: for the bicycle, *)
Lemma l_C47_bk_bodies_drawn :
  forall p q u, tractor_sized p -> Forall2 draws (dr_bodies (bk_draw p q u)) (bk_bodies p q).
Proof.
  intros p [px py th] u (S1 & S2). unfold bk_draw, bk_bodies. cbn [dr_bodies b_px b_py b_th].
  constructor; [apply tractor_draws; lra|constructor].
Qed.

Lemma nt_trailers_draws : forall s ths n i hitch,
  (i + n = length ths)%nat -> length (ns_len s) = length ths -> length (ns_front s) = length ths -> length (ns_rear s) = length ths ->
  (forall k, (k < length ths)%nat -> 0 < nth k (ns_front s) 0 + nth k (ns_rear s) 0) -> 0 < p_trail_w (ns_p s) ->
  Forall2 draws (let '(bs, _, _, _) := nt_draw_trailers s ths n i hitch in bs)
    (trailer_chain (p_lh (ns_p s)) (p_trail_w (ns_p s)) hitch (skipn i ths) (skipn i (ns_len s)) (skipn i (ns_front s)) (skipn i (ns_rear s))).
Proof.
  intros s ths n. induction n as [|n IH]; intros i [hx hy] Hi L1 L2 L3 Hs Hw.
  - cbn [nt_draw_trailers]. rewrite (skipn_all2 ths) by lia. constructor.
  - cbn [nt_draw_trailers]. rewrite !jget_nth by lia.
    rewrite (skipn_nth_cons ths i), (skipn_nth_cons (ns_len s) i), (skipn_nth_cons (ns_front s) i), (skipn_nth_cons (ns_rear s) i) by lia.
    set (L := nth i (ns_len s) 0). set (lf := nth i (ns_front s) 0). set (lr := nth i (ns_rear s) 0). set (th := nth i ths 0). cbn [fst snd].
    assert (En : ahead (hx, hy) th (- (L + lr + p_lh (ns_p s))) =
      (hx + (1 / 2 * (lf - lr) - L) * cos th - 1 / 2 * (lf + lr) * cos th - p_lh (ns_p s) * cos th,
       hy + (1 / 2 * (lf - lr) - L) * sin th - 1 / 2 * (lf + lr) * sin th - p_lh (ns_p s) * sin th)).
    { unfold ahead. cbn [fst snd]. f_equal; field. }
    cbn [trailer_chain]. rewrite En.
    match goal with |- context [nt_draw_trailers s ths n (S i) ?h] => specialize (IH (S i) h ltac:(lia) L1 L2 L3 Hs Hw);
      destruct (nt_draw_trailers s ths n (S i) h) as [[[bs ws] fs] ks] end.
    constructor; [|exact IH]. apply trailer_draws; [apply Hs; lia | exact Hw].
Qed.
(** C47: and for the N-trailer with any number of trailers. *)
Lemma l_C47_nt_bodies_drawn :
  forall s q u, nt_sized s -> length (n_ths q) = p_num_trailers (ns_p s) ->
  Forall2 draws (dr_bodies (nt_draw s q u)) (nt_bodies s q).
Proof.
  intros s [px py th0 ths] u ((S1 & S2) & S3 & L1 & L2 & L3 & S4) HL. unfold nt_draw, nt_bodies. cbn [n_px n_py n_th0 n_ths] in *.
  assert (E : nt_pad (ns_N s) th0 ths = ths).
  { unfold nt_pad, ns_N. rewrite HL, Nat.ltb_irrefl, <- HL. apply firstn_all. }
  rewrite E.
  pose proof (nt_trailers_draws s ths (ns_N s) 0 (px - p_lh (ns_p s) * cos th0, py - p_lh (ns_p s) * sin th0)) as K.
  destruct (nt_draw_trailers s ths (ns_N s) 0 _) as [[[bs ws] fs] ks]. cbn [dr_bodies].
  constructor; [apply tractor_draws; lra|].
  replace (ahead (px, py) th0 (- p_lh (ns_p s))) with (px - p_lh (ns_p s) * cos th0, py - p_lh (ns_p s) * sin th0) by (unfold ahead; cbn [fst snd]; f_equal; ring).
  apply K; unfold ns_N in *; try lia; try lra. intros k Hk. rewrite HL in Hk. specialize (S4 k Hk). lra.
Qed.

(** C47: a drawn rectangular obstacle covers exactly the obstacle the check uses; a drawn circle has
    its centre and radius. *)
Lemma l_C47_obstacles_drawn :
  forall circ rect, (forall o, In o rect -> 0 < r_w o /\ 0 < r_h o) ->
  sc_circles (draw_scene circ rect) = map (fun c => ((c_x c, c_y c), c_r c)) circ /\
  Forall2 draws (sc_rects (draw_scene circ rect)) (map obstacle_body rect).
Proof.
  intros circ rect H. split; [reflexivity|]. cbn [draw_scene sc_rects]. induction rect as [|o rect IH]; [constructor|].
  constructor; [|apply IH; intros o' Ho; apply H; right; exact Ho].
  destruct (H o (or_introl eq_refl)) as [A B]. apply centred_draws; try lra. unfold at_frame. cbn [fst snd]. f_equal; field.
Qed.

Lemma anim_frames_nth {Q : Type} (a : animated Q) over : forall pairs before k,
  nth_error (anim_frames a over before pairs) k =
  match nth_error pairs k with
  | None => None
  | Some (q, u) => Some (mkFrame (an_scene a) (an_draw a q u) (an_coll a q) (an_hitch a q)
      (map (an_pos a) (before ++ firstn (S k) (map fst pairs))) (map (an_pos a) (firstn (length before + S k) over)))
  end.
Proof.
  induction pairs as [|[q u] pairs IH]; intros before k; [destruct k; reflexivity|].
  destruct k as [|k]; cbn [anim_frames nth_error].
  - cbn [map fst firstn]. rewrite app_length. reflexivity.
  - rewrite IH. destruct (nth_error pairs k) as [[q' u']|]; [|reflexivity]. cbn [map fst]. rewrite <- app_assoc, app_length.
    cbn [length]. replace (length before + 1 + S k)%nat with (length before + S (S k))%nat by lia. reflexivity.
Qed.
Lemma anim_frames_length {Q : Type} (a : animated Q) over : forall pairs before, length (anim_frames a over before pairs) = length pairs.
Proof. induction pairs as [|[q u] pairs IH]; intros; [reflexivity|]. cbn [anim_frames length]. rewrite IH. reflexivity. Qed.
Lemma zip_nth {A B : Type} : forall (l : list A) (m : list B) k, length l = length m ->
  nth_error (zip l m) k = match nth_error l k, nth_error m k with Some x, Some y => Some (x, y) | _, _ => None end.
Proof.
  unfold zip. induction l as [|x l IH]; intros [|y m] k H; try discriminate; [destruct k; reflexivity|].
  destruct k as [|k]; [reflexivity|]. cbn [map2 nth_error]. apply IH. cbn in H. lia.
Qed.
Lemma zip_fst {A B : Type} : forall (l : list A) (m : list B), length l = length m -> map fst (zip l m) = l.
Proof. unfold zip. induction l as [|x l IH]; intros [|y m] H; try discriminate; [reflexivity|]. cbn [map2 map fst]. f_equal. apply IH. cbn in H. lia. Qed.
Lemma zip_length {A B : Type} : forall (l : list A) (m : list B), length l = length m -> length (zip l m) = length l.
Proof. intros l m H. rewrite <- (map_length fst), (zip_fst l m H). reflexivity. Qed.
Lemma with_final_nth {A : Type} : forall (l : list A) k, (k <= length l)%nat -> nth_error (with_final l) k = Some (nth_error l k).
Proof.
  unfold with_final. induction l as [|x l IH]; intros k H.
  - cbn in H. replace k with 0%nat by lia. reflexivity.
  - destruct k as [|k]; [reflexivity|]. cbn [map app nth_error]. apply IH. cbn in H. lia.
Qed.
Lemma with_final_length {A : Type} : forall l : list A, length (with_final l) = S (length l).
Proof. intros. unfold with_final. rewrite app_length, map_length. cbn. lia. Qed.

(** C47: the frames of the trajectory animation. With one more state than actions (as run_diffusion and
    the statistics pass them) there is one frame per state; frame k shows the vehicle in state k with
    action k (none for the last), its two warning marks, the trace of states 0..k and of the overlay. *)
Lemma l_C47_trajectory_frames :
  forall (Q : Type) (a : animated Q) (over states : list Q) (us : list act), length states = S (length us) ->
  let fs := trajectory_frames a over states (with_final us) in
  length fs = length states /\
  forall k q, nth_error states k = Some q ->
  exists f, nth_error fs k = Some f /\ fr_scene f = an_scene a /\ fr_vehicle f = an_draw a q (nth_error us k) /\
    fr_coll f = an_coll a q /\ fr_hitch f = an_hitch a q /\
    fr_trace f = map (an_pos a) (firstn (S k) states) /\ fr_overlay f = map (an_pos a) (firstn (S k) over).
Proof.
  intros Q a over states us H fs. assert (E : length states = length (with_final us)) by (rewrite with_final_length; exact H).
  split; [unfold fs, trajectory_frames; rewrite anim_frames_length; apply zip_length, E|].
  intros k q Hk. assert (Lk : (k <= length us)%nat). { assert (k < length states)%nat by (apply nth_error_Some; congruence). lia. }
  unfold fs, trajectory_frames. rewrite anim_frames_nth, (zip_nth _ _ _ E), Hk, (with_final_nth _ _ Lk), (zip_fst _ _ E).
  eexists. split; [reflexivity|]. cbn. repeat split; reflexivity.
Qed.

(** ** The collision mark. *)
Lemma forall2_in_l {A B : Type} (P : A -> B -> Prop) : forall l m x, Forall2 P l m -> In x l -> exists y, In y m /\ P x y.
Proof. intros l m x H. induction H as [|a b l m Hab H IH]; intros Hx; [destruct Hx|]; destruct Hx as [->|Hi]; [exists b; split; [left; reflexivity|exact Hab]|]. destruct (IH Hi) as (y & Hy & Py). exists y. split; [right; exact Hy|exact Py]. Qed.
Lemma forall2_in_r {A B : Type} (P : A -> B -> Prop) : forall l m y, Forall2 P l m -> In y m -> exists x, In x l /\ P x y.
Proof. intros l m x H. induction H as [|a b l m Hab H IH]; intros Hx; [destruct Hx|]; destruct Hx as [->|Hi]; [exists a; split; [left; reflexivity|exact Hab]|]. destruct (IH Hi) as (y & Hy & Py). exists y. split; [right; exact Hy|exact Py]. Qed.

Lemma mark_exact : forall (f : frame) gs circ rect, Forall2 draws (dr_bodies (fr_vehicle f)) gs -> fr_scene f = draw_scene circ rect ->
  (forall g, In g gs -> sized g) -> proper_obstacles circ rect ->
  (bodies_hit gs circ rect = true <-> meets_rect f \/ edge_meets_circle f).
Proof.
  intros f gs circ rect Hb Hs Hz Hp.
  assert (Ob : Forall2 draws (sc_rects (fr_scene f)) (map obstacle_body rect)).
  { rewrite Hs. apply (l_C47_obstacles_drawn circ rect). apply Hp. }
  assert (K : ~ clear_bodies gs circ rect <-> meets_rect f \/ edge_meets_circle f).
  { split.
    - intros N. destruct (Classical_Prop.classic (meets_rect f \/ edge_meets_circle f)) as [|M]; [assumption|]. exfalso. apply N. split.
      + intros g c Hg Hc P HP. destruct (forall2_in_r _ _ _ _ Hb Hg) as (b & Ib & _ & D2).
        apply Rnot_le_lt. intros Hle. apply M. right. exists b, (draw_circle c), P. split; [exact Ib|].
        split; [rewrite Hs; cbn [draw_scene sc_circles]; apply in_map, Hc|]. split; [apply D2, HP | exact Hle].
      + intros g o Hg Ho P [P1 P2]. destruct (forall2_in_r _ _ _ _ Hb Hg) as (b & Ib & D1 & _).
        destruct (forall2_in_r _ _ _ _ Ob (in_map obstacle_body _ _ Ho)) as (r & Ir & D3 & _).
        apply M. left. exists b, r, P. split; [exact Ib|]. split; [exact Ir|]. split; [apply D1, P1 | apply D3, P2].
    - intros M [C1 C2]. destruct M as [(b & o & P & Ib & Io & P1 & P2)|(b & c & P & Ib & Ic & P1 & P2)].
      + destruct (forall2_in_l _ _ _ _ Hb Ib) as (g & Ig & D1 & _). destruct (forall2_in_l _ _ _ _ Ob Io) as (r & Ir & D3 & _).
        apply in_map_iff in Ir. destruct Ir as (o' & <- & Io'). apply (C2 g o' Ig Io' P). split; [apply D1, P1 | apply D3, P2].
      + destruct (forall2_in_l _ _ _ _ Hb Ib) as (g & Ig & _ & D2). rewrite Hs in Ic. cbn [draw_scene sc_circles] in Ic.
        apply in_map_iff in Ic. destruct Ic as (c' & <- & Ic'). cbn [draw_circle fst snd] in P2.
        specialize (C1 g c' Ig Ic' P (proj1 (D2 P) P1)). lra. }
  rewrite <- K. destruct (bodies_hit gs circ rect) eqn:E.
  - split; [intros _ C | reflexivity]. rewrite (clear_bodies_hit_false gs circ rect Hz Hp C) in E. discriminate.
  - split; [discriminate|]. intros N. exfalso. apply N, (bodies_hit_false_clear gs circ rect Hz E).
Qed.

(** C47: in every frame of the animation of a TractorTrailer2d whose robot and Env objects hold the same
    obstacles (C31: always, with the public setters), the red mark is there exactly when, in the picture, a
    drawn body meets a drawn rectangle or the border of a drawn body meets a drawn circle; the purple mark
    exactly when the headings differ by more than phi_max, the short way round. *)
Lemma l_C47_tt_marks :
  forall e s over states us k f, e_circles e = ts_circ s -> e_rects e = ts_rect s ->
  tt_sized (ts_p s) -> proper_obstacles (ts_circ s) (ts_rect s) -> length states = S (length us) ->
  nth_error (trajectory_frames (tt_animated e s) over states (with_final us)) k = Some f ->
  exists q, nth_error states k = Some q /\
  (fr_coll f = true <-> meets_rect f \/ edge_meets_circle f) /\
  (fr_hitch f = false <-> hitch_ok (p_phi_max (ts_p s)) (t_th1 q) (t_th2 q)).
Proof.
  intros e s over states us k f E1 E2 Hz Hp HL Hf.
  destruct (l_C47_trajectory_frames _ (tt_animated e s) over states us HL) as [L N].
  assert (Hq : exists q, nth_error states k = Some q).
  { destruct (nth_error states k) as [q|] eqn:Eq; [exists q; reflexivity|]. apply nth_error_None in Eq. rewrite <- L in Eq. apply nth_error_None in Eq. congruence. }
  destruct Hq as [q Hq]. exists q. split; [exact Hq|]. destruct (N k q Hq) as (f' & Hf' & A1 & A2 & A3 & A4 & _).
  rewrite Hf in Hf'. injection Hf' as <-. cbn [tt_animated an_scene an_draw an_coll an_hitch] in *. split.
  - rewrite A3. unfold ts_coll. rewrite tt_coll_bodies. apply mark_exact; auto.
    + rewrite A2. apply l_C47_tt_bodies_drawn, Hz.
    + rewrite A1, E1, E2. reflexivity.
    + apply tt_bodies_sized, Hz.
  - rewrite A4. apply tt_hitch_iff.
Qed.
(** C47: the same for the acceleration class, *)
Lemma l_C47_acc_marks :
  forall e s over states us k f, e_circles e = ts_circ (as_t s) -> e_rects e = ts_rect (as_t s) ->
  tt_sized (as_p s) -> proper_obstacles (ts_circ (as_t s)) (ts_rect (as_t s)) -> length states = S (length us) ->
  nth_error (trajectory_frames (acc_animated e s) over states (with_final us)) k = Some f ->
  exists q, nth_error states k = Some q /\
  (fr_coll f = true <-> meets_rect f \/ edge_meets_circle f) /\
  (fr_hitch f = false <-> hitch_ok (p_phi_max (as_p s)) (t_th1 (a_q q)) (t_th2 (a_q q))).
Proof.
  intros e s over states us k f E1 E2 Hz Hp HL Hf.
  destruct (l_C47_trajectory_frames _ (acc_animated e s) over states us HL) as [L N].
  assert (Hq : exists q, nth_error states k = Some q).
  { destruct (nth_error states k) as [q|] eqn:Eq; [exists q; reflexivity|]. apply nth_error_None in Eq. rewrite <- L in Eq. apply nth_error_None in Eq. congruence. }
  destruct Hq as [q Hq]. exists q. split; [exact Hq|]. destruct (N k q Hq) as (f' & Hf' & A1 & A2 & A3 & A4 & _).
  rewrite Hf in Hf'. injection Hf' as <-. cbn [acc_animated an_scene an_draw an_coll an_hitch] in *. split.
  - rewrite A3. unfold ts_coll. rewrite tt_coll_bodies. apply mark_exact; auto.
    + rewrite A2. apply l_C47_acc_bodies_drawn, Hz.
    + rewrite A1, E1, E2. reflexivity.
    + apply tt_bodies_sized, Hz.
  - rewrite A4. apply tt_hitch_iff.
Qed.
(** C47: for the bicycle (there is no hitch, and no purple mark), *)
Lemma l_C47_bk_marks :
  forall e s over states us k f, e_circles e = bs_circ s -> e_rects e = bs_rect s ->
  tractor_sized (bs_p s) -> proper_obstacles (bs_circ s) (bs_rect s) -> length states = S (length us) ->
  nth_error (trajectory_frames (bk_animated e s) over states (with_final us)) k = Some f ->
  (fr_coll f = true <-> meets_rect f \/ edge_meets_circle f) /\ fr_hitch f = false.
Proof.
  intros e s over states us k f E1 E2 Hz Hp HL Hf.
  destruct (l_C47_trajectory_frames _ (bk_animated e s) over states us HL) as [L N].
  assert (Hq : exists q, nth_error states k = Some q).
  { destruct (nth_error states k) as [q|] eqn:Eq; [exists q; reflexivity|]. apply nth_error_None in Eq. rewrite <- L in Eq. apply nth_error_None in Eq. congruence. }
  destruct Hq as [q Hq]. destruct (N k q Hq) as (f' & Hf' & A1 & A2 & A3 & A4 & _).
  rewrite Hf in Hf'. injection Hf' as <-. cbn [bk_animated an_scene an_draw an_coll an_hitch] in *. split; [|exact A4].
  rewrite A3. unfold bs_coll. rewrite bk_coll_bodies. apply mark_exact; auto.
  + rewrite A2. apply l_C47_bk_bodies_drawn, Hz.
  + rewrite A1, E1, E2. reflexivity.
  + apply bk_bodies_sized, Hz.
Qed.
(** C47: and for the N-trailer, whose purple mark looks at every hitch. *)
Lemma l_C47_nt_marks :
  forall e s over states us k f, e_circles e = ns_circ s -> e_rects e = ns_rect s ->
  nt_sized s -> (1 <= p_num_trailers (ns_p s))%nat -> proper_obstacles (ns_circ s) (ns_rect s) -> length states = S (length us) ->
  (forall q, In q states -> length (n_ths q) = p_num_trailers (ns_p s)) ->
  nth_error (trajectory_frames (nt_animated e s) over states (with_final us)) k = Some f ->
  exists q, nth_error states k = Some q /\
  (fr_coll f = true <-> meets_rect f \/ edge_meets_circle f) /\
  (fr_hitch f = false <-> chain_ok (p_phi_max (ns_p s)) (n_th0 q :: n_ths q)).
Proof.
  intros e s over states us k f E1 E2 Hz H1 Hp HL Ha Hf.
  destruct (l_C47_trajectory_frames _ (nt_animated e s) over states us HL) as [L N].
  assert (Hq : exists q, nth_error states k = Some q).
  { destruct (nth_error states k) as [q|] eqn:Eq; [exists q; reflexivity|]. apply nth_error_None in Eq. rewrite <- L in Eq. apply nth_error_None in Eq. congruence. }
  destruct Hq as [q Hq]. exists q. split; [exact Hq|]. destruct (N k q Hq) as (f' & Hf' & A1 & A2 & A3 & A4 & _).
  assert (Lq : length (n_ths q) = p_num_trailers (ns_p s)) by (apply Ha, (nth_error_In _ _ Hq)).
  rewrite Hf in Hf'. injection Hf' as <-. cbn [nt_animated an_scene an_draw an_coll an_hitch] in *. split.
  - rewrite A3. rewrite nt_coll_bodies by auto. apply mark_exact; auto.
    + rewrite A2. apply l_C47_nt_bodies_drawn; auto.
    + rewrite A1, E1, E2. reflexivity.
    + apply nt_bodies_sized, Hz.
  - rewrite A4. apply nt_hitch_iff; auto.
Qed.

(** ** Wheels. *)
(** C47: TractorTrailer2d draws its wheels at the rear axle, the front axle and the trailer axle, the
    outer two along their bodies and the front one turned by the second component of the action. *)
Lemma l_C47_tt_wheels_partial :
  forall p q u, exists rear front trail, dr_wheels (tt_draw p q u) = [rear; front; trail] /\
  wheel_at rear (t_px q, t_py q) (t_th1 q) /\
  wheel_at front (front_axle p (t_px q) (t_py q) (t_th1 q)) (t_th1 q + match u with Some a => snd a | None => 0 end) /\
  wheel_at trail (trailer_axle p q) (t_th2 q).
Proof.
  intros p [px py th1 th2] u. do 3 eexists. split; [reflexivity|]. unfold wheel_at, wheel, centred, front_axle, trailer_axle, ahead.
  cbn [pa_tx pa_ty pa_rot fst snd t_px t_py t_th1 t_th2]. repeat split; ring.
Qed.
(** C47: the acceleration class turns the drawn front wheel by the steering angle of the state. *)
Lemma l_C47_acc_wheels :
  forall p q u, exists rear front trail, dr_wheels (acc_draw p q u) = [rear; front; trail] /\
  wheel_at rear (t_px (a_q q), t_py (a_q q)) (t_th1 (a_q q)) /\
  wheel_at front (front_axle p (t_px (a_q q)) (t_py (a_q q)) (t_th1 (a_q q))) (t_th1 (a_q q) + a_d q) /\
  wheel_at trail (trailer_axle p (a_q q)) (t_th2 (a_q q)).
Proof. intros p q u. exact (l_C47_tt_wheels_partial p (a_q q) (Some (0, a_d q))). Qed.
(** C47 fails for the kinematic classes: run_diffusion passes normalised actions, and the drawn front
    wheel is turned by the normalised component instead of the steering angle that is executed; the two
    agree only when it is 0 or the steering limit is 1 rad. *)
Lemma l_C47_kinematic_steering_refuted :
  (forall p q a, exists rear front trail, dr_wheels (tt_draw p q (Some a)) = [rear; front; trail] /\
     (pa_rot front = t_th1 q + snd a * p_dmax p <-> snd a = 0 \/ p_dmax p = 1)) /\
  (forall p q a, exists rear front, dr_wheels (bk_draw p q (Some a)) = [rear; front] /\
     (pa_rot front = b_th q + snd a * p_dmax p <-> snd a = 0 \/ p_dmax p = 1)) /\
  (forall s q a, exists rear front rest, dr_wheels (nt_draw s q (Some a)) = rear :: front :: rest /\
     (pa_rot front = n_th0 q + snd a * p_dmax (ns_p s) <-> snd a = 0 \/ p_dmax (ns_p s) = 1)).
Proof.
  assert (K : forall th x d, th + x = th + x * d <-> x = 0 \/ d = 1).
  { intros th x d. split.
    - intros H. assert (E : x * (d - 1) = 0) by lra. apply Rmult_integral in E. destruct E; [left|right]; lra.
    - intros [-> | ->]; lra. }
  split; [|split].
  - intros p [px py th1 th2] a. do 3 eexists. split; [reflexivity|]. cbn. apply K.
  - intros p [px py th] a. do 2 eexists. split; [reflexivity|]. cbn. apply K.
  - intros s [px py th0 ths] a. unfold nt_draw. destruct (nt_draw_trailers s _ _ _ _) as [[[bs ws] fs] ks]. do 3 eexists.
    split; [reflexivity|]. cbn. apply K.
Qed.

(** C47 fails for the trailers of an N-trailer: each wheel is drawn in the middle of its trailer, which is
    (lf - lr) / 2 ahead of the axle ([rg_org] of the body). *)
Lemma nt_trailers_wheels : forall s ths n i hitch,
  (i + n = length ths)%nat -> length (ns_len s) = length ths -> length (ns_front s) = length ths -> length (ns_rear s) = length ths ->
  Forall2 (fun w g => wheel_at w (ahead (rg_org g) (rg_ang g) ((rg_front g + rg_back g) / 2)) (rg_ang g))
    (let '(_, ws, _, _) := nt_draw_trailers s ths n i hitch in ws)
    (trailer_chain (p_lh (ns_p s)) (p_trail_w (ns_p s)) hitch (skipn i ths) (skipn i (ns_len s)) (skipn i (ns_front s)) (skipn i (ns_rear s))).
Proof.
  intros s ths n. induction n as [|n IH]; intros i [hx hy] Hi L1 L2 L3.
  - cbn [nt_draw_trailers]. rewrite (skipn_all2 ths) by lia. constructor.
  - cbn [nt_draw_trailers]. rewrite !jget_nth by lia.
    rewrite (skipn_nth_cons ths i), (skipn_nth_cons (ns_len s) i), (skipn_nth_cons (ns_front s) i), (skipn_nth_cons (ns_rear s) i) by lia.
    set (L := nth i (ns_len s) 0). set (lf := nth i (ns_front s) 0). set (lr := nth i (ns_rear s) 0). set (th := nth i ths 0). cbn [fst snd].
    assert (En : ahead (hx, hy) th (- (L + lr + p_lh (ns_p s))) =
      (hx + (1 / 2 * (lf - lr) - L) * cos th - 1 / 2 * (lf + lr) * cos th - p_lh (ns_p s) * cos th,
       hy + (1 / 2 * (lf - lr) - L) * sin th - 1 / 2 * (lf + lr) * sin th - p_lh (ns_p s) * sin th)).
    { unfold ahead. cbn [fst snd]. f_equal; field. }
    cbn [trailer_chain]. rewrite En.
    match goal with |- context [nt_draw_trailers s ths n (S i) ?h] => specialize (IH (S i) h ltac:(lia) L1 L2 L3);
      destruct (nt_draw_trailers s ths n (S i) h) as [[[bs ws] fs] ks] end.
    constructor; [|exact IH]. unfold wheel_at, wheel, centred, trailer_body, ahead. cbn. repeat split; field.
Qed.
(** C47: where the N-trailer class draws its wheels: the tractor's at the two axles, but each trailer's in
    the middle of the trailer, (lf - lr) / 2 ahead of its axle. *)
Lemma l_C47_nt_wheels_partial :
  forall s q u, nt_sized s -> length (n_ths q) = p_num_trailers (ns_p s) ->
  exists rear front trails, dr_wheels (nt_draw s q u) = rear :: front :: trails /\
  wheel_at rear (n_px q, n_py q) (n_th0 q) /\
  wheel_at front (front_axle (ns_p s) (n_px q) (n_py q) (n_th0 q)) (n_th0 q + match u with Some a => snd a | None => 0 end) /\
  Forall2 (fun w g => wheel_at w (ahead (rg_org g) (rg_ang g) ((rg_front g + rg_back g) / 2)) (rg_ang g)) trails (tl (nt_bodies s q)).
Proof.
  intros s [px py th0 ths] u (_ & _ & L1 & L2 & L3 & _) HL. unfold nt_draw, nt_bodies. cbn [n_px n_py n_th0 n_ths tl] in *.
  assert (E : nt_pad (ns_N s) th0 ths = ths).
  { unfold nt_pad, ns_N. rewrite HL, Nat.ltb_irrefl, <- HL. apply firstn_all. }
  rewrite E.
  pose proof (nt_trailers_wheels s ths (ns_N s) 0 (px - p_lh (ns_p s) * cos th0, py - p_lh (ns_p s) * sin th0)) as K.
  destruct (nt_draw_trailers s ths (ns_N s) 0 _) as [[[bs ws] fs] ks]. cbn [dr_wheels].
  do 3 eexists. split; [reflexivity|]. split; [|split].
  - unfold wheel_at. cbn. repeat split; reflexivity.
  - unfold wheel_at, front_axle, ahead. cbn. repeat split; reflexivity.
  - replace (ahead (px, py) th0 (- p_lh (ns_p s))) with (px - p_lh (ns_p s) * cos th0, py - p_lh (ns_p s) * sin th0) by (unfold ahead; cbn [fst snd]; f_equal; ring).
    apply K; unfold ns_N in *; lia.
Qed.
(** C47 fails: with unequal overhangs no trailer wheel is at its axle. *)
Lemma l_C47_nt_wheels_refuted :
  forall s q u i w g, nt_sized s -> length (n_ths q) = p_num_trailers (ns_p s) ->
  nth_error (tl (tl (dr_wheels (nt_draw s q u)))) i = Some w -> nth_error (tl (nt_bodies s q)) i = Some g ->
  rg_front g <> - rg_back g -> (pa_tx w, pa_ty w) <> rg_org g.
Proof.
  intros s q u i w g Hz HL Hw Hg Hne. destruct (l_C47_nt_wheels_partial s q u Hz HL) as (r & f & tr & E & _ & _ & K).
  rewrite E in Hw. cbn [tl] in Hw.
  assert (Kw : wheel_at w (ahead (rg_org g) (rg_ang g) ((rg_front g + rg_back g) / 2)) (rg_ang g)).
  { clear E. revert i Hw Hg. induction K as [|x y l m Hxy K IH]; intros [|i] Hw Hg; try discriminate.
    - cbn in Hw, Hg. injection Hw as <-. injection Hg as <-. exact Hxy.
    - exact (IH i Hw Hg). }
  destruct Kw as (A & B & _). intros Heq. rewrite <- Heq in A, B. unfold ahead in A, B. cbn [fst snd] in A, B.
  pose proof (sin2_cos2 (rg_ang g)) as T. unfold Rsqr in T. set (c := cos (rg_ang g)) in *. set (t := sin (rg_ang g)) in *.
  set (d := (rg_front g + rg_back g) / 2) in *. assert (Hc : d * c = 0) by lra. assert (Ht : d * t = 0) by lra.
  assert (d <> 0) by (unfold d; lra). apply Rmult_integral in Hc. apply Rmult_integral in Ht.
  destruct Hc as [Hc|Hc]; [contradiction|]. destruct Ht as [Ht|Ht]; [contradiction|]. rewrite Hc, Ht in T. lra.
Qed.

(** C47: hitch lines. The two lines of TractorTrailer2d meet at the hitch point, lh behind the rear axle;
    one starts at the rear axle, the other at the front edge of the trailer. *)
Lemma l_C47_tt_hitch_lines :
  forall p q u, let hitch := ahead (t_px q, t_py q) (t_th1 q) (- p_lh p) in
  dr_lines (tt_draw p q u) = [((t_px q, t_py q), hitch); (ahead (trailer_axle p q) (t_th2 q) (p_lf2 p), hitch)].
Proof.
  intros p [px py th1 th2] u. cbv zeta. unfold tt_draw, tt_draw_with, trailer_axle, ahead. cbn [dr_lines fst snd t_px t_py t_th1 t_th2].
  assert (P : forall a b c d e f g h a' b' c' d' e' f' g' h' : R, a = a' -> b = b' -> c = c' -> d = d' -> e = e' -> f = f' -> g = g' -> h = h' ->
    [((a, b), (c, d)); ((e, f), (g, h))] = [((a', b'), (c', d')); ((e', f'), (g', h'))]) by (intros; subst; reflexivity).
  apply P; ring.
Qed.

(** ** Repeated animations. *)
(** C48: the classes that start new wheel lists (bicycle, N-trailer) can be animated any number of times. *)
Lemma l_C48_fresh_lists : forall n frames, animations Fresh n frames = Ok tt.
Proof. intros n frames. revert n. induction frames as [|m frames IH]; intros n; [reflexivity|]. cbn. destruct m; apply IH. Qed.
(** C48: a new TractorTrailer2d or acceleration object can be animated once. *)
Lemma l_C48_first_animation_partial : forall m, animations Appended 0 [m] = Ok tt.
Proof. intros [|m]; reflexivity. Qed.
(** C48 fails for these classes: a sequence of animations of one object works only if every animation
    after the first has no frame at all; otherwise IndexError is raised. *)
Lemma l_C48_second_animation_refuted :
  forall frames, (animations Appended 0 frames = Ok tt <-> forall m, In m (tl frames) -> m = O) /\
  (animations Appended 0 frames <> Ok tt -> animations Appended 0 frames = Err IndexError).
Proof.
  assert (K : forall frames n, (0 < n)%nat ->
    (animations Appended n frames = Ok tt <-> forall m, In m frames -> m = O) /\
    (animations Appended n frames <> Ok tt -> animations Appended n frames = Err IndexError)).
  { induction frames as [|k frames IH]; intros n Hn.
    - split; [split; [intros _ m []|reflexivity] | intros N; contradiction N; reflexivity].
    - cbn [animations setup_wheels]. destruct k as [|k].
      + destruct (IH (n + 2)%nat ltac:(lia)) as [A B]. split; [|exact B]. rewrite A. split; intros H m Hm.
        * destruct Hm as [<-|Hm]; [reflexivity | apply H, Hm].
        * apply H. right. exact Hm.
      + unfold update_wheels. destruct (Nat.leb_spec (n + 2) 2); [lia|]. split; [|reflexivity]. split; [discriminate|].
        intros H'. discriminate (H' (S k) (or_introl eq_refl)). }
  intros [|k frames].
  - split; [split; [intros _ m [] | reflexivity] | intros N; contradiction N; reflexivity].
  - destruct (K frames 2%nat ltac:(lia)) as [A B]. destruct k; cbn [animations setup_wheels update_wheels Nat.leb Nat.add tl]; split; auto.
Qed.
(** Two animations with frames: the second one fails. *)
Lemma x_C48_two_animations : animations Appended 0 [51; 51]%nat = Err IndexError /\ animations Fresh 0 [51; 51]%nat = Ok tt.
Proof. split; reflexivity. Qed.
(** A non-trivial frame: the default vehicle at the origin over an obstacle at its front. *)
Lemma x_C47_marked_frame :
  let s := mkTTSelf default_params [] [mkRect 3 0 1 1 0] (mkTT 0 0 0 0) in
  tt_sized (ts_p s) /\ proper_obstacles (ts_circ s) (ts_rect s).
Proof.
  cbv zeta. unfold tt_sized, tractor_sized, proper_obstacles. cbn [ts_p ts_circ ts_rect default_params p_l1 p_lf1 p_lr p_trac_w p_lf2 p_lr2 p_trail_w In].
  split; [repeat split; lra|]. split; [intros c []|]. intros o [<-|[]]. cbn. lra.
Qed.
