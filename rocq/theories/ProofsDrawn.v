(** * ProofsDrawn: what the pictures of the vehicle show, further details (C47). *)
From Coq Require Import Lia.
From Verif Require Import Base BaseFacts Params Geom TT2d Bicycle NTrailer Acc Rollout EnvModel Anim SpecGeom SpecBodies SpecReward SpecAnim ProofsBodies ProofsAnim.
Import ListNotations.
Local Open Scope list_scope.
Open Scope R_scope.

(** Every drawn wheel is a rectangle 0.8 m long and 0.45 m wide around the centre it is turned about. *)
Lemma l_C47_wheel_size : forall w : patch,
  (exists p q u, In w (dr_wheels (tt_draw p q u))) \/ (exists p q u, In w (dr_wheels (acc_draw p q u))) \/
  (exists p q u, In w (dr_wheels (bk_draw p q u))) \/ (exists s q u, In w (dr_wheels (nt_draw s q u))) ->
  pa_w w = 8/10 /\ pa_h w = 45/100 /\ pa_x w = - (4/10) /\ pa_y w = - (225/1000).
Proof.
  assert (W : forall r c, let w := wheel r c in pa_w w = 8/10 /\ pa_h w = 45/100 /\ pa_x w = - (4/10) /\ pa_y w = - (225/1000)).
  { intros r c. cbn. unfold wheel_len, wheel_wid. repeat split; lra. }
  assert (T : forall p q st w, In w (dr_wheels (tt_draw_with p q st)) -> pa_w w = 8/10 /\ pa_h w = 45/100 /\ pa_x w = - (4/10) /\ pa_y w = - (225/1000)).
  { intros p [px py t1 t2] st w. unfold tt_draw_with. cbn [dr_wheels In]. intros [<-|[<-|[<-|[]]]]; apply W. }
  assert (N : forall s ths n i h bs ws fs ks, nt_draw_trailers s ths n i h = (bs, ws, fs, ks) ->
    forall w, In w ws -> pa_w w = 8/10 /\ pa_h w = 45/100 /\ pa_x w = - (4/10) /\ pa_y w = - (225/1000)).
  { intros s ths n. induction n as [|n IH]; intros i h bs ws fs ks E w Hw; [cbn [nt_draw_trailers] in E|].
    - apply pair_equal_spec in E as [E _]. apply pair_equal_spec in E as [E _]. apply pair_equal_spec in E as [_ <-]. destruct Hw.
    - cbn [nt_draw_trailers] in E. cbv zeta in E. destruct (nt_draw_trailers s ths n (S i) _) as [[[bs' ws'] fs'] ks'] eqn:E'.
      apply pair_equal_spec in E as [E _]. apply pair_equal_spec in E as [E _]. apply pair_equal_spec in E as [_ <-].
      destruct Hw as [<-|Hw]; [apply W|]. exact (IH _ _ _ _ _ _ E' w Hw). }
  intros w [(p & q & u & H)|[(p & q & u & H)|[(p & [px py th] & u & H)|(s & [px py th ths] & u & H)]]].
  - exact (T _ _ _ _ H).
  - exact (T _ _ _ _ H).
  - unfold bk_draw in H. cbn [dr_wheels In] in H. destruct H as [<-|[<-|[]]]; apply W.
  - unfold nt_draw in H. cbv zeta in H.
    destruct (nt_draw_trailers s (nt_pad (ns_N s) th ths) (ns_N s) 0 _) as [[[bs ws] fs] ks] eqn:E. cbn [dr_wheels] in H.
    destruct H as [<-|[<-|H]]; [apply W|apply W|exact (N _ _ _ _ _ _ _ _ _ E w H)].
Qed.

Lemma frame_lines_of {Q : Type} (a : animated Q) : frame_lines a (an_pos a).
Proof.
  intros over states us k f HL Hf. destruct (l_C47_trajectory_frames _ a over states us HL) as [L N].
  destruct (nth_error states k) as [q|] eqn:Eq.
  - destruct (N k q Eq) as (f' & Hf' & _ & _ & _ & _ & A & B). rewrite Hf in Hf'. injection Hf' as <-. auto.
  - apply nth_error_None in Eq. rewrite <- L in Eq. apply nth_error_None in Eq. congruence.
Qed.
(** In frame k of the animation of a trajectory the blue line runs through the positions of states 0 to k, in that order, and
    the overlay line through those of the first k+1 states of the overlay. *)
Lemma l_C47_lines :
  (forall e s, frame_lines (tt_animated e s) (fun q => (t_px q, t_py q))) /\
  (forall e s, frame_lines (acc_animated e s) (fun q => (t_px (a_q q), t_py (a_q q)))) /\
  (forall e s, frame_lines (bk_animated e s) (fun q => (b_px q, b_py q))) /\
  (forall e s, frame_lines (nt_animated e s) (fun q => (n_px q, n_py q))).
Proof. repeat split; apply (frame_lines_of _ _ _ _ _ _ H H0). Qed.

(** The lines of the N-trailer drawing: from the rear axle of the tractor to its hitch point, from each trailer's hitch point to
    the middle of its front edge, and from the middle of the rear edge of each trailer but the last to the next hitch point, lh
    behind that edge. *)
Lemma nt_lines : forall s ths n i hitch bs ws fs ks,
  (i + n = length ths)%nat -> length (ns_len s) = length ths -> length (ns_front s) = length ths -> length (ns_rear s) = length ths ->
  nt_draw_trailers s ths n i hitch = (bs, ws, fs, ks) ->
  let gs := trailer_chain (p_lh (ns_p s)) (p_trail_w (ns_p s)) hitch (skipn i ths) (skipn i (ns_len s)) (skipn i (ns_front s)) (skipn i (ns_rear s)) in
  let behind := fun g => ahead (rg_org g) (rg_ang g) (rg_back g - p_lh (ns_p s)) in
  fs = map2 (fun h g => (h, ahead (rg_org g) (rg_ang g) (rg_front g))) (hitch :: map behind gs) gs /\
  ks = map (fun g => (ahead (rg_org g) (rg_ang g) (rg_back g), behind g)) (removelast gs).
Proof.
  intros s ths n. induction n as [|n IH]; intros i [hx hy] bs ws fs ks Hi L1 L2 L3.
  - cbn [nt_draw_trailers]. rewrite (skipn_all2 ths) by lia. intros E.
    apply pair_equal_spec in E as [E <-]. apply pair_equal_spec in E as [_ <-]. split; reflexivity.
  - cbn [nt_draw_trailers]. rewrite !jget_nth by lia.
    rewrite (skipn_nth_cons ths i), (skipn_nth_cons (ns_len s) i), (skipn_nth_cons (ns_front s) i), (skipn_nth_cons (ns_rear s) i) by lia.
    set (L := nth i (ns_len s) 0). set (lf := nth i (ns_front s) 0). set (lr := nth i (ns_rear s) 0). set (th := nth i ths 0). cbn [fst snd].
    assert (En : ahead (hx, hy) th (- (L + lr + p_lh (ns_p s))) =
      (hx + (1 / 2 * (lf - lr) - L) * cos th - 1 / 2 * (lf + lr) * cos th - p_lh (ns_p s) * cos th,
       hy + (1 / 2 * (lf - lr) - L) * sin th - 1 / 2 * (lf + lr) * sin th - p_lh (ns_p s) * sin th)).
    { unfold ahead. cbn [fst snd]. f_equal; field. }
    cbv zeta. cbn [trailer_chain]. rewrite En.
    match goal with |- context [nt_draw_trailers s ths n (S i) ?h] =>
      destruct (nt_draw_trailers s ths n (S i) h) as [[[bs' ws'] fs'] ks'] eqn:E';
      destruct (IH (S i) h bs' ws' fs' ks' ltac:(lia) L1 L2 L3 E') as [F K] end.
    intros E. apply pair_equal_spec in E as [E <-]. apply pair_equal_spec in E as [_ <-].
    set (gs := trailer_chain _ _ _ _ _ _ _) in *.
    assert (B : forall g, g = trailer_body (hx, hy) th L lf lr (p_trail_w (ns_p s)) ->
      ahead (rg_org g) (rg_ang g) (rg_front g) = (hx + (1 / 2 * (lf - lr) - L) * cos th + 1 / 2 * (lf + lr) * cos th, hy + (1 / 2 * (lf - lr) - L) * sin th + 1 / 2 * (lf + lr) * sin th) /\
      ahead (rg_org g) (rg_ang g) (rg_back g) = (hx + (1 / 2 * (lf - lr) - L) * cos th - 1 / 2 * (lf + lr) * cos th, hy + (1 / 2 * (lf - lr) - L) * sin th - 1 / 2 * (lf + lr) * sin th) /\
      ahead (rg_org g) (rg_ang g) (rg_back g - p_lh (ns_p s)) = (hx + (1 / 2 * (lf - lr) - L) * cos th - 1 / 2 * (lf + lr) * cos th - p_lh (ns_p s) * cos th, hy + (1 / 2 * (lf - lr) - L) * sin th - 1 / 2 * (lf + lr) * sin th - p_lh (ns_p s) * sin th)).
    { intros g ->. unfold trailer_body, ahead. cbn. repeat split; f_equal; field. }
    destruct (B _ eq_refl) as (B1 & B2 & B3).
    split.
    + cbn [map map2]. rewrite B1, B3. f_equal. exact F.
    + destruct n as [|n'].
      * assert (Z : gs = []). { unfold gs. rewrite (skipn_all2 ths) by lia. reflexivity. } rewrite Z in *. cbn in K |- *. exact K.
      * assert (Z : exists g l, gs = g :: l).
        { unfold gs. rewrite (skipn_nth_cons ths (S i)), (skipn_nth_cons (ns_len s) (S i)), (skipn_nth_cons (ns_front s) (S i)), (skipn_nth_cons (ns_rear s) (S i)) by lia.
          cbn [trailer_chain]. eauto. }
        destruct Z as (g & l & Z). rewrite Z in K |- *. cbn [removelast map] in K |- *. rewrite B2, B3. exact (f_equal (cons _) K).
Qed.
Lemma l_C47_nt_hitch_lines :
  forall s q u, nt_sized s -> length (n_ths q) = p_num_trailers (ns_p s) ->
  let trailers := tl (nt_bodies s q) in
  let behind := fun g => ahead (rg_org g) (rg_ang g) (rg_back g - p_lh (ns_p s)) in
  let hitches := ahead (n_px q, n_py q) (n_th0 q) (- p_lh (ns_p s)) :: map behind trailers in
  dr_lines (nt_draw s q u) =
    ((n_px q, n_py q), ahead (n_px q, n_py q) (n_th0 q) (- p_lh (ns_p s))) ::
    map2 (fun h g => (h, ahead (rg_org g) (rg_ang g) (rg_front g))) hitches trailers ++
    map (fun g => (ahead (rg_org g) (rg_ang g) (rg_back g), behind g)) (removelast trailers).
Proof.
  intros s [px py th0 ths] u (_ & _ & L1 & L2 & L3 & _) HL. unfold nt_draw, nt_bodies. cbn [n_px n_py n_th0 n_ths tl] in *.
  assert (E : nt_pad (ns_N s) th0 ths = ths).
  { unfold nt_pad, ns_N. rewrite HL, Nat.ltb_irrefl, <- HL. apply firstn_all. }
  cbv zeta. rewrite E.
  replace (ahead (px, py) th0 (- p_lh (ns_p s))) with (px - p_lh (ns_p s) * cos th0, py - p_lh (ns_p s) * sin th0) by (unfold ahead; cbn [fst snd]; f_equal; ring).
  destruct (nt_draw_trailers s ths (ns_N s) 0 _) as [[[bs ws] fs] ks] eqn:D. cbn [dr_lines].
  destruct (nt_lines s ths (ns_N s) 0 _ bs ws fs ks ltac:(unfold ns_N in *; lia) ltac:(unfold ns_N in *; lia) ltac:(unfold ns_N in *; lia) ltac:(unfold ns_N in *; lia) D) as [F K].
  cbv zeta in F, K. cbn [skipn] in F, K. rewrite F, K. reflexivity.
Qed.
