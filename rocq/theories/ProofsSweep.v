(** * ProofsSweep: with enough padding nothing is touched between two rows either (C59). *)
From Coq Require Import String.
From Verif Require Import Base BaseFacts Params Geom TT2d Bicycle NTrailer SpecGeom SpecBodies SpecDyn SpecDisc SpecSweep
  EnvModel Setup Rollout Planner Instances ProofsGeom ProofsBodies ProofsKin ProofsRobots ProofsStep ProofsSafety ProofsEnv ProofsDefaults ProofsDisc.
Local Open Scope string_scope.
Local Open Scope list_scope.
Open Scope R_scope.

(** ** Padding *)
Lemma dist_nrm P P' : SpecGeom.dist P P' = nrm (fst P - fst P') (snd P - snd P').
Proof. reflexivity. Qed.
Lemma dist_symm P P' : SpecGeom.dist P P' = SpecGeom.dist P' P.
Proof. unfold SpecGeom.dist, dist2. f_equal. ring. Qed.
Lemma dist_tri P Q S : SpecGeom.dist P S <= SpecGeom.dist P Q + SpecGeom.dist Q S.
Proof.
  rewrite !dist_nrm. replace (fst P - fst S) with ((fst P - fst Q) + (fst Q - fst S)) by ring.
  replace (snd P - snd S) with ((snd P - snd Q) + (snd Q - snd S)) by ring. apply nrm_tri.
Qed.
Lemma nrm_fst x y : Rabs x <= nrm x y.
Proof. unfold nrm. rewrite <- sqrt_Rsqr_abs. apply sqrt_le_1_alt. unfold Rsqr. pose proof (sq_nonneg y). lra. Qed.
Lemma nrm_snd x y : Rabs y <= nrm x y.
Proof. unfold nrm. rewrite <- sqrt_Rsqr_abs. apply sqrt_le_1_alt. unfold Rsqr. pose proof (sq_nonneg x). lra. Qed.
Lemma frame_dist o ang a b a' b' : SpecGeom.dist (at_frame o ang a b) (at_frame o ang a' b') = nrm (a - a') (b - b').
Proof. unfold SpecGeom.dist, nrm. rewrite frame_dist2. reflexivity. Qed.

Lemma convert_all_in {A B} (f : A -> Res B) l : forall l', convert_all f l = Ok l' ->
  forall x, In x l -> exists y, f x = Ok y /\ In y l'.
Proof.
  induction l as [|z l IH]; intros l' E x Hx; [destruct Hx|]. cbn in E.
  destruct (f z) as [y|] eqn:Ez; [|discriminate]. destruct (convert_all f l) as [ys|] eqn:El; [|discriminate].
  injection E as <-. destruct Hx as [<-|Hx]; [exists y; split; [exact Ez|left; reflexivity]|].
  destruct (IH ys eq_refl x Hx) as (y' & E1 & E2). exists y'. split; [exact E1|right; exact E2].
Qed.
Lemma rect_set r l mode pad r' : set_rectangle_obs r l mode pad = (r', Ok tt) ->
  forall e, In e l -> exists o, convert_rect mode pad e = Ok o /\ In o (rb_rect r').
Proof.
  unfold set_rectangle_obs, env_set_rects. destruct (convert_all (convert_rect mode pad) l) as [l'|] eqn:E; intros H.
  - injection H as <-. cbn [rb_rect]. apply (convert_all_in _ _ _ E).
  - discriminate H.
Qed.
Lemma circ_set r l pad r' : set_circle_obs r l pad = (r', Ok tt) ->
  forall e, In e l -> exists c, convert_circle pad e = Ok c /\ In c (rb_circ r').
Proof.
  unfold set_circle_obs, env_set_circles. destruct (convert_all (convert_circle pad) l) as [l'|] eqn:E; intros H.
  - injection H as <-. cbn [rb_circ]. apply (convert_all_in _ _ _ E).
  - discriminate H.
Qed.

(** C59, padding: when an obstacle list is set with padding [pad], every point within [pad] of a listed
    rectangle belongs to one of the rectangles the planner keeps the vehicle away from. *)
Lemma l_C59_rectangle_padding :
  forall r l mode pad r' e P P', set_rectangle_obs r l mode pad = (r', Ok tt) -> In e l ->
  given_rect mode e P -> dist P P' <= pad ->
  exists o, In o (rb_rect r') /\ solid (obstacle_body o) P'.
Proof.
  intros r l mode pad r' e P P' Hs Hin (x & y & w & h & ang & cx & cy & He & Hm & a & b & Ha & Hb & ->) Hd.
  destruct (rect_set _ _ _ _ _ Hs e Hin) as (o & Eo & Io). exists o. split; [exact Io|].
  destruct (frame_coords (cx, cy) ang P') as (a' & b' & ->). rewrite frame_dist in Hd.
  pose proof (nrm_fst (a - a') (b - b')) as B1. pose proof (nrm_snd (a - a') (b - b')) as B2.
  assert (Ho : o = mkRect cx cy (w + pad * 2) (h + pad * 2) ang).
  { destruct He as [->|[-> ->]]; unfold convert_rect in Eo; destruct Hm as [(-> & -> & ->)|(-> & -> & ->)]; cbn in Eo; injection Eo as <-; reflexivity. }
  subst o. exists a', b'. unfold obstacle_body; cbn [rg_org rg_ang rg_back rg_front rg_half r_x r_y r_ang r_w r_h].
  assert (A1 : - (w / 2) <= a <= w / 2) by (apply Rabs_le_inv; exact Ha). assert (A2 : - (h / 2) <= b <= h / 2) by (apply Rabs_le_inv; exact Hb).
  assert (A3 : - pad <= a - a' <= pad) by (apply Rabs_le_inv; lra). assert (A4 : - pad <= b - b' <= pad) by (apply Rabs_le_inv; lra).
  repeat split; lra.
Qed.

(** C59, padding of circles. *)
Lemma l_C59_circle_padding :
  forall r l pad r' e P P', set_circle_obs r l pad = (r', Ok tt) -> In e l ->
  given_circle e P -> dist P P' <= pad ->
  exists c, In c (rb_circ r') /\ dist P' (c_x c, c_y c) <= c_r c.
Proof.
  intros r l pad r' e P P' Hs Hin (x & y & rad & -> & Hd) HP.
  destruct (circ_set _ _ _ _ Hs _ Hin) as (c & Ec & Ic). exists c. split; [exact Ic|].
  injection Ec as <-. cbn [c_x c_y c_r]. pose proof (dist_tri P' P (x, y)). rewrite (dist_symm P' P) in H. lra.
Qed.

(** ** Bodies that are close together *)
Definition near (D : R) (g h : region) : Prop :=
  rg_back h = rg_back g /\ rg_front h = rg_front g /\ rg_half h = rg_half g /\
  forall a b, rg_back g <= a <= rg_front g -> - rg_half g <= b <= rg_half g ->
    SpecGeom.dist (at_frame (rg_org h) (rg_ang h) a b) (at_frame (rg_org g) (rg_ang g) a b) <= D.
Lemma near_le D D' g h : near D g h -> D <= D' -> near D' g h.
Proof. intros (E1 & E2 & E3 & H) HD. repeat split; auto. intros a b Ha Hb. specialize (H a b Ha Hb). lra. Qed.
Lemma near_solid D g h P : near D g h -> solid h P -> exists P', solid g P' /\ SpecGeom.dist P P' <= D.
Proof.
  intros (E1 & E2 & E3 & H) (a & b & Ha & Hb & ->). rewrite E1, E2, E3 in *.
  exists (at_frame (rg_org g) (rg_ang g) a b). split; [exists a, b; auto|auto].
Qed.

Lemma pt_lip (o o' : point) th th' a b :
  nrm (fst (at_frame o' th' a b) - fst (at_frame o th a b)) (snd (at_frame o' th' a b) - snd (at_frame o th a b))
  <= nrm (fst o' - fst o) (snd o' - snd o) + Rabs (th' - th) * nrm a b.
Proof.
  unfold at_frame; cbn [fst snd].
  set (x := a * cos th - b * sin th). set (y := a * sin th + b * cos th).
  replace (fst o' + a * cos th' - b * sin th' - (fst o + a * cos th - b * sin th))
    with ((fst o' - fst o) + (cos (th' - th) * x - sin (th' - th) * y - x)).
  2:{ replace (cos (th' - th) * x - sin (th' - th) * y) with (a * cos th' - b * sin th'); [unfold x; ring|].
      replace th' with ((th' - th) + th) at 1 2 by ring. rewrite cos_plus, sin_plus. unfold x, y. ring. }
  replace (snd o' + a * sin th' + b * cos th' - (snd o + a * sin th + b * cos th))
    with ((snd o' - snd o) + (sin (th' - th) * x + cos (th' - th) * y - y)).
  2:{ replace (sin (th' - th) * x + cos (th' - th) * y) with (a * sin th' + b * cos th'); [unfold y; ring|].
      replace th' with ((th' - th) + th) at 1 2 by ring. rewrite cos_plus, sin_plus. unfold x, y. ring. }
  eapply Rle_trans; [apply nrm_tri|]. apply Rplus_le_compat_l.
  eapply Rle_trans; [apply chord|]. right. f_equal. unfold x, y.
  pose proof (nrm_rot (cos th) (sin th) a b (sc1 th)) as E. rewrite <- E. unfold nrm. f_equal. ring.
Qed.
Lemma reach_pos a0 a1 h : 0 <= reach a0 a1 h.
Proof. apply sqrt_pos. Qed.
Lemma nrm_reach a0 a1 h a b : a0 <= a <= a1 -> - h <= b <= h -> nrm a b <= reach a0 a1 h.
Proof.
  intros Ha Hb. unfold nrm, reach. apply sqrt_le_1_alt.
  assert (H1 : Rabs a <= Rmax (Rabs a0) (Rabs a1)).
  { destruct (Rle_dec 0 a).
    - eapply Rle_trans; [|apply Rmax_r]. rewrite (Rabs_pos_eq a), (Rabs_pos_eq a1) by lra. lra.
    - eapply Rle_trans; [|apply Rmax_l]. rewrite (Rabs_left a), (Rabs_left a0) by lra. lra. }
  pose proof (Rsqr_abs a) as E1. pose proof (Rsqr_abs b) as E2. unfold Rsqr in *. rewrite E1, E2.
  apply Rplus_le_compat.
  - apply Rmult_le_compat; auto using Rabs_pos.
  - assert (Rabs b <= h) by (apply Rabs_le; lra). apply Rmult_le_compat; auto using Rabs_pos.
Qed.
Lemma frame_ahead P th L a b : at_frame (ahead P th (- L)) th a b = at_frame P th (a - L) b.
Proof. unfold at_frame, ahead; cbn [fst snd]. f_equal; ring. Qed.

Lemma tractor_near p d px py th px' py' th' slide turn : 0 <= d ->
  nrm (px' - px) (py' - py) <= d * slide -> Rabs (th' - th) <= d * turn ->
  near (d * (slide + turn * reach (- p_lr p) (p_l1 p + p_lf1 p) (p_trac_w p / 2))) (tractor_body p px py th) (tractor_body p px' py' th').
Proof.
  intros Hd H1 H2. repeat split. intros a b Ha Hb. unfold tractor_body in *; cbn [rg_org rg_ang rg_back rg_front rg_half] in *.
  rewrite dist_nrm. eapply Rle_trans; [apply pt_lip|]. cbn [fst snd].
  pose proof (nrm_reach (- p_lr p) (p_l1 p + p_lf1 p) (p_trac_w p / 2) a b Ha ltac:(lra)) as H3.
  assert (Rabs (th' - th) * nrm a b <= d * turn * reach (- p_lr p) (p_l1 p + p_lf1 p) (p_trac_w p / 2))
    by (apply Rmult_le_compat; auto using Rabs_pos, nrm_pos).
  lra.
Qed.
Lemma trailer_near d P P' th th' L lf lr width hitch turn : 0 <= d ->
  nrm (fst P' - fst P) (snd P' - snd P) <= d * hitch -> Rabs (th' - th) <= d * turn ->
  near (d * (hitch + turn * reach (- (L + lr)) (lf - L) (width / 2))) (trailer_body P th L lf lr width) (trailer_body P' th' L lf lr width).
Proof.
  intros Hd H1 H2. repeat split. intros a b Ha Hb. unfold trailer_body in *; cbn [rg_org rg_ang rg_back rg_front rg_half] in *.
  rewrite !frame_ahead. rewrite dist_nrm. eapply Rle_trans; [apply pt_lip|].
  pose proof (nrm_reach (- (L + lr)) (lf - L) (width / 2) (a - L) b ltac:(lra) ltac:(lra)) as H3.
  assert (Rabs (th' - th) * nrm (a - L) b <= d * turn * reach (- (L + lr)) (lf - L) (width / 2))
    by (apply Rmult_le_compat; auto using Rabs_pos, nrm_pos).
  lra.
Qed.

Lemma mix_diff s t x y : mix t x y - mix s x y = (t - s) * (y - x).
Proof. unfold mix. ring. Qed.
Lemma mix_0 x y : mix 0 x y = x. Proof. unfold mix. ring. Qed.
Lemma mix_1 x y : mix 1 x y = y. Proof. unfold mix. ring. Qed.
Lemma mix_same l x : mix l x x = x. Proof. unfold mix. ring. Qed.

(** ** Never swallowed, in terms of how far the points of the body move *)
Lemma never_swallowed_near (g g' : region) (c : circle) : well_formed g -> 0 <= c_r c -> near (2 * c_r c) g g' ->
  off_disc g c -> clear_of_circle g' c -> off_disc g' c.
Proof.
  intros W Hr (Eb & Ef & Eh & N) Hoff Hout P HP.
  apply Rnot_le_lt. intros Hd.
  destruct (frame_coords (rg_org g') (rg_ang g') (c_x c, c_y c)) as (ca & cb & Ec').
  destruct (frame_coords (rg_org g) (rg_ang g) (c_x c, c_y c)) as (a & b & Ec).
  assert (W' : well_formed g') by (unfold well_formed in *; rewrite Eb, Ef, Eh; exact W).
  destruct (outline_margin g' (c_x c) (c_y c) (c_r c) ca cb W' Hr Hout Ec') as [Ma Mb].
  { exists P; auto. }
  rewrite Eb, Ef, Eh in *.
  assert (Hgap : 2 * c_r c < nrm (a - ca) (b - cb)).
  { apply (box_gap (rg_back g) (rg_front g) (rg_half g)); auto.
    intros x y Hx Hy. apply Rnot_le_lt. intros Hle.
    assert (Hsol : solid g (at_frame (rg_org g) (rg_ang g) x y)) by (exists x, y; auto).
    apply Hoff in Hsol. apply Rlt_not_le in Hsol. apply Hsol. apply dist_le_iff; auto.
    rewrite Ec, frame_dist2. exact Hle. }
  pose proof (N ca cb ltac:(lra) ltac:(lra)) as Hn. rewrite <- Ec', Ec, frame_dist in Hn. lra.
Qed.

(** ** One pair of positions *)

(** C59, one body, any motion: a body that is clear of the padded rectangles at the beginning and at the
    end of a time span of length T, and none of whose points is ever faster than V, touches none of the
    listed rectangles at any time in between, if the padding is at least V T / 2. *)
Lemma l_C59_any_motion_misses_rectangles :
  forall r l mode pad r' g h m V T,
  set_rectangle_obs r l mode pad = (r', Ok tt) -> 0 <= pad -> V * T <= 2 * pad ->
  (forall o, In o (rb_rect r') -> clear_of_rect g o /\ clear_of_rect h o) ->
  rg_back h = rg_back g -> rg_front h = rg_front g -> rg_half h = rg_half g ->
  moves_between V T g h m ->
  forall t a b e, 0 <= t <= T -> rg_back g <= a <= rg_front g -> - rg_half g <= b <= rg_half g -> In e l ->
  ~ given_rect mode e (m t a b).
Proof.
  intros r l mode pad r' g h m V T Hs Hpad HV Hcl Eb Ef Eh Hm t a b e Ht Ha Hb He Hin.
  destruct (Hm a b Ha Hb) as (M0 & M1 & ML).
  assert (Hor : V * t <= pad \/ V * (T - t) <= pad) by (destruct (Rle_dec (V * t) pad); [left; lra|right; lra]).
  destruct Hor as [Hor|Hor].
  - pose proof (ML t 0 Ht ltac:(lra)) as D. rewrite Rabs_left1 in D by lra.
    destruct (l_C59_rectangle_padding r l mode pad r' e (m t a b) (m 0 a b) Hs He Hin ltac:(lra)) as (o & Io & So).
    destruct (Hcl o Io) as [C _]. apply (C (m 0 a b)). split; [|exact So]. exists a, b. auto.
  - pose proof (ML t T Ht ltac:(lra)) as D. rewrite Rabs_pos_eq in D by lra.
    destruct (l_C59_rectangle_padding r l mode pad r' e (m t a b) (m T a b) Hs He Hin ltac:(lra)) as (o & Io & So).
    destruct (Hcl o Io) as [_ C]. apply (C (m T a b)). split; [|exact So]. exists a, b. rewrite Eb, Ef, Eh. auto.
Qed.

(** C59, one body, any motion, circles. *)
Lemma l_C59_any_motion_misses_circles :
  forall r l pad r' g h m V T,
  set_circle_obs r l pad = (r', Ok tt) -> 0 <= pad -> V * T <= 2 * pad ->
  (forall c, In c (rb_circ r') -> off_disc g c /\ off_disc h c) ->
  rg_back h = rg_back g -> rg_front h = rg_front g -> rg_half h = rg_half g ->
  moves_between V T g h m ->
  forall t a b e, 0 <= t <= T -> rg_back g <= a <= rg_front g -> - rg_half g <= b <= rg_half g -> In e l ->
  ~ given_circle e (m t a b).
Proof.
  intros r l pad r' g h m V T Hs Hpad HV Hcl Eb Ef Eh Hm t a b e Ht Ha Hb He Hin.
  destruct (Hm a b Ha Hb) as (M0 & M1 & ML).
  assert (Hor : V * t <= pad \/ V * (T - t) <= pad) by (destruct (Rle_dec (V * t) pad); [left; lra|right; lra]).
  destruct Hor as [Hor|Hor].
  - pose proof (ML t 0 Ht ltac:(lra)) as D. rewrite Rabs_left1 in D by lra.
    destruct (l_C59_circle_padding r l pad r' e (m t a b) (m 0 a b) Hs He Hin ltac:(lra)) as (o & Io & So).
    destruct (Hcl o Io) as [C _]. specialize (C (m 0 a b)).
    assert (S : solid g (m 0 a b)) by (exists a, b; auto). specialize (C S). lra.
  - pose proof (ML t T Ht ltac:(lra)) as D. rewrite Rabs_pos_eq in D by lra.
    destruct (l_C59_circle_padding r l pad r' e (m t a b) (m T a b) Hs He Hin ltac:(lra)) as (o & Io & So).
    destruct (Hcl o Io) as [_ C]. specialize (C (m T a b)).
    assert (S : solid h (m T a b)) by (exists a, b; rewrite Eb, Ef, Eh; auto). specialize (C S). lra.
Qed.

(** ** Lists of bodies *)
Lemma near_misses_rects r l mode pad r' gs hs : set_rectangle_obs r l mode pad = (r', Ok tt) ->
  Forall2 (near pad) gs hs -> (forall g o, In g gs -> In o (rb_rect r') -> clear_of_rect g o) ->
  forall h P e, In h hs -> solid h P -> In e l -> ~ given_rect mode e P.
Proof.
  intros Hs HF Hcl h P e Hh HP He Hg.
  assert (X : exists g, In g gs /\ near pad g h).
  { clear - HF Hh. induction HF as [|g h' gs hs N HF IH]; [destruct Hh|].
    destruct Hh as [<-|Hh]; [exists g; split; [left; reflexivity|exact N]|].
    destruct (IH Hh) as (g0 & I & N0). exists g0. split; [right; exact I|exact N0]. }
  destruct X as (g & Ig & N). destruct (near_solid _ _ _ _ N HP) as (P' & S' & D).
  destruct (l_C59_rectangle_padding r l mode pad r' e P P' Hs He Hg D) as (o & Io & So).
  apply (Hcl g o Ig Io P'). split; assumption.
Qed.
Lemma near_misses_circles r l pad r' gs hs : set_circle_obs r l pad = (r', Ok tt) ->
  Forall2 (near pad) gs hs -> (forall g c, In g gs -> In c (rb_circ r') -> off_disc g c) ->
  forall h P e, In h hs -> solid h P -> In e l -> ~ given_circle e P.
Proof.
  intros Hs HF Hcl h P e Hh HP He Hg.
  assert (X : exists g, In g gs /\ near pad g h).
  { clear - HF Hh. induction HF as [|g h' gs hs N HF IH]; [destruct Hh|].
    destruct Hh as [<-|Hh]; [exists g; split; [left; reflexivity|exact N]|].
    destruct (IH Hh) as (g0 & I & N0). exists g0. split; [right; exact I|exact N0]. }
  destruct X as (g & Ig & N). destruct (near_solid _ _ _ _ N HP) as (P' & S' & D).
  destruct (l_C59_circle_padding r l pad r' e P P' Hs He Hg D) as (c & Ic & Sc).
  pose proof (Hcl g c Ig Ic P' S'). lra.
Qed.
Lemma Forall2_impl' {A B} (R1 R2 : A -> B -> Prop) l l' : (forall x y, R1 x y -> R2 x y) -> Forall2 R1 l l' -> Forall2 R2 l l'.
Proof. intros H F. induction F; constructor; auto. Qed.
Lemma near_refl g : near 0 g g.
Proof. repeat split. intros a b _ _. rewrite frame_dist. right. unfold nrm. rewrite !Rminus_diag_eq, Rmult_0_l, Rplus_0_l by reflexivity. apply sqrt_0. Qed.
Lemma Forall2_near_refl D gs : 0 <= D -> Forall2 (near D) gs gs.
Proof. intros HD. induction gs; constructor; auto. apply (near_le 0); [apply near_refl|exact HD]. Qed.
Lemma near_sym D g h : near D g h -> near D h g.
Proof.
  intros (E1 & E2 & E3 & H). repeat split; auto. intros a b Ha Hb. rewrite dist_symm. rewrite E1, E2, E3 in *. auto.
Qed.
Lemma Forall2_near_sym D gs hs : Forall2 (near D) gs hs -> Forall2 (near D) hs gs.
Proof. induction 1; constructor; auto using near_sym. Qed.

Section Rows.
Context {Q : Type} (step : State Q -> act -> State Q) (next : Q -> act -> Q) (bad : Q -> bool) (valid : Q -> Prop).
Hypothesis K : kinematic step next bad valid.
Variables (bodies : Q -> list region) (mixq : R -> Q -> Q -> Q) (pad : R).
Hypothesis Hpad : 0 <= pad.
Hypothesis mix0 : forall q a, valid q -> mixq 0 q (next q a) = q.
Hypothesis mix1 : forall q a, valid q -> mixq 1 q (next q a) = next q a.
Hypothesis mixs : forall lam q, mixq lam q q = q.
Hypothesis lip : forall q a s t, valid q -> in_box a ->
  Forall2 (near (Rabs (t - s) * (2 * pad))) (bodies (mixq s q (next q a))) (bodies (mixq t q (next q a))).

Lemma kqs_consecutive us : forall q0, valid q0 -> forall q q', consecutive (q0 :: kqs next bad q0 us) q q' ->
  valid q /\ exists u, q' = kq next bad q u.
Proof.
  induction us as [|u us IH]; intros q0 Hv q q' (k & E1 & E2).
  - destruct k; cbn in E2; [discriminate|destruct k; discriminate].
  - destruct k as [|k].
    + cbn in E1, E2. injection E1 as <-. injection E2 as <-. split; [exact Hv|]. exists u. reflexivity.
    + apply (IH (kq next bad q0 u)); [apply (kq_valid _ _ _ _ K); exact Hv|]. exists k. cbn [nth_error] in E1, E2. split; assumption.
Qed.

Lemma close_rows q u lam : valid q -> 0 <= lam <= 1 ->
  let q' := kq next bad q u in
  Forall2 (near pad) (bodies q) (bodies (mixq lam q q')) \/ Forall2 (near pad) (bodies q') (bodies (mixq lam q q')).
Proof.
  intros Hv Hl q'. unfold q', kq. destruct (bad (next q (clip_act u))).
  - left. rewrite mixs. apply Forall2_near_refl. exact Hpad.
  - destruct (Rle_dec lam (1 / 2)) as [H|H].
    + left. pose proof (lip q (clip_act u) 0 lam Hv (clip_in_box u)) as L. rewrite mix0 in L by exact Hv.
      eapply Forall2_impl'; [|exact L]. intros x y N. eapply near_le; [exact N|]. rewrite Rminus_0_r, Rabs_pos_eq by lra.
      replace (lam * (2 * pad)) with ((2 * lam) * pad) by ring. rewrite <- (Rmult_1_l pad) at 2. apply Rmult_le_compat_r; lra.
    + right. pose proof (lip q (clip_act u) 1 lam Hv (clip_in_box u)) as L. rewrite mix1 in L by exact Hv.
      eapply Forall2_impl'; [|exact L]. intros x y N. eapply near_le; [exact N|]. rewrite Rabs_left1 by lra.
      replace (- (lam - 1) * (2 * pad)) with ((2 * (1 - lam)) * pad) by ring. rewrite <- (Rmult_1_l pad) at 2. apply Rmult_le_compat_r; lra.
Qed.

Lemma rows_miss_rects r l mode r' us q0 q q' lam : set_rectangle_obs r l mode pad = (r', Ok tt) -> valid q0 ->
  (forall x g o, In x (q0 :: kqs next bad q0 us) -> In g (bodies x) -> In o (rb_rect r') -> clear_of_rect g o) ->
  consecutive (q0 :: kqs next bad q0 us) q q' -> 0 <= lam <= 1 ->
  forall g P e, In g (bodies (mixq lam q q')) -> solid g P -> In e l -> ~ given_rect mode e P.
Proof.
  intros Hs Hv Hcl Hc Hl g P e Hg HP He.
  assert (I : In q (q0 :: kqs next bad q0 us) /\ In q' (q0 :: kqs next bad q0 us)).
  { destruct Hc as (k & E1 & E2). split; eapply nth_error_In; eassumption. }
  destruct (kqs_consecutive us q0 Hv q q' Hc) as (Hvq & u & ->).
  destruct (close_rows q u lam Hvq Hl) as [N|N].
  - eapply (near_misses_rects r l mode pad r' _ _ Hs N); eauto. intros g' o Hg' Ho. exact (Hcl q g' o (proj1 I) Hg' Ho).
  - eapply (near_misses_rects r l mode pad r' _ _ Hs N); eauto. intros g' o Hg' Ho. exact (Hcl _ g' o (proj2 I) Hg' Ho).
Qed.
Lemma rows_miss_circles r l r' us q0 q q' lam : set_circle_obs r l pad = (r', Ok tt) -> valid q0 ->
  (forall x g c, In x (q0 :: kqs next bad q0 us) -> In g (bodies x) -> In c (rb_circ r') -> off_disc g c) ->
  consecutive (q0 :: kqs next bad q0 us) q q' -> 0 <= lam <= 1 ->
  forall g P e, In g (bodies (mixq lam q q')) -> solid g P -> In e l -> ~ given_circle e P.
Proof.
  intros Hs Hv Hcl Hc Hl g P e Hg HP He.
  assert (I : In q (q0 :: kqs next bad q0 us) /\ In q' (q0 :: kqs next bad q0 us)).
  { destruct Hc as (k & E1 & E2). split; eapply nth_error_In; eassumption. }
  destruct (kqs_consecutive us q0 Hv q q' Hc) as (Hvq & u & ->).
  destruct (close_rows q u lam Hvq Hl) as [N|N].
  - eapply (near_misses_circles r l pad r' _ _ Hs N); eauto. intros g' o Hg' Ho. exact (Hcl q g' o (proj1 I) Hg' Ho).
  - eapply (near_misses_circles r l pad r' _ _ Hs N); eauto. intros g' o Hg' Ho. exact (Hcl _ g' o (proj2 I) Hg' Ho).
Qed.

(** Rows stay off padded discs. *)
Lemma step_off_discs (cs : list circle) q a : valid q -> in_box a ->
  (forall c, In c cs -> pad <= c_r c) ->
  (forall x g, In g (bodies x) -> valid x -> well_formed g) ->
  (forall g c, In g (bodies q) -> In c cs -> off_disc g c) ->
  (forall g c, In g (bodies (next q a)) -> In c cs -> clear_of_circle g c) ->
  forall g c, In g (bodies (next q a)) -> In c cs -> off_disc g c.
Proof.
  intros Hv Hb Hr Hw Hoff Hcl h c Hh Hc.
  pose proof (lip q a 0 1 Hv Hb) as L. rewrite mix0, mix1 in L by exact Hv.
  rewrite Rminus_0_r, Rabs_R1, Rmult_1_l in L.
  assert (X : exists g, In g (bodies q) /\ near (2 * pad) g h).
  { clear - L Hh. induction L as [|g h' gs hs N HF IH]; [destruct Hh|].
    destruct Hh as [<-|Hh]; [exists g; split; [left; reflexivity|exact N]|].
    destruct (IH Hh) as (g0 & I & N0). exists g0. split; [right; exact I|exact N0]. }
  destruct X as (g & Ig & N). specialize (Hr c Hc).
  apply (never_swallowed_near g h c); eauto; [lra|]. eapply near_le; [exact N|lra].
Qed.
End Rows.

(** ** The vehicles *)
Lemma tractor_lip p px py th a s t : proper_tractor p -> in_box a ->
  let v := fst a * p_vmax p in
  let px' := px + p_dt p * (v * cos th) in let py' := py + p_dt p * (v * sin th) in
  let th' := th + p_dt p * (v / p_l1 p * tan (snd a * p_dmax p)) in
  nrm (mix t px px' - mix s px px') (mix t py py' - mix s py py') <= Rabs (t - s) * tractor_slide p /\
  Rabs (mix t th th' - mix s th th') <= Rabs (t - s) * tractor_turn p.
Proof.
  intros HT Hb v px' py' th'. rewrite !mix_diff, nrm_scal, Rabs_mult. split; apply Rmult_le_compat_l; auto using Rabs_pos.
  - unfold px', py'.
    replace (px + p_dt p * (v * cos th) - px) with ((p_dt p * v) * cos th) by ring.
    replace (py + p_dt p * (v * sin th) - py) with ((p_dt p * v) * sin th) by ring.
    rewrite nrm_scal. assert (En : nrm (cos th) (sin th) = 1) by (unfold nrm; rewrite sc1; apply sqrt_1).
    rewrite En, Rmult_1_r. apply speed_step; auto.
  - unfold th'. match goal with |- Rabs (?x + ?y - ?x) <= _ => replace (x + y - x) with y by ring end. apply turn_step; auto.
Qed.
Lemma hitch_lip d (P P' : point) th th' lh slide turn : 0 <= lh -> 0 <= d ->
  nrm (fst P' - fst P) (snd P' - snd P) <= d * slide -> Rabs (th' - th) <= d * turn ->
  nrm (fst (ahead P' th' (- lh)) - fst (ahead P th (- lh))) (snd (ahead P' th' (- lh)) - snd (ahead P th (- lh))) <= d * (slide + lh * turn).
Proof.
  intros Hl Hd H1 H2. eapply Rle_trans; [apply (ahead_shift P P' th th' lh (d * slide) (d * turn)); auto|]. right. ring.
Qed.

Lemma bk_lip p q a s t : proper_tractor p -> in_box a ->
  Forall2 (near (Rabs (t - s) * tractor_sweep p)) (bk_bodies p (bk_mix s q (bk_plain p q a))) (bk_bodies p (bk_mix t q (bk_plain p q a))).
Proof.
  intros HT Hb. constructor; [|constructor]. unfold bk_plain, bk_mix; cbn [b_px b_py b_th].
  destruct (tractor_lip p (b_px q) (b_py q) (b_th q) a s t HT Hb) as [H1 H2].
  apply tractor_near; auto using Rabs_pos.
Qed.
Lemma tt_lip p q a s t B : proper_vehicle p -> in_box a -> tractor_sweep p <= B -> trailer_sweep p <= B ->
  Forall2 (near (Rabs (t - s) * B)) (tt_bodies p (tt_mix s q (tt_plain p q a))) (tt_bodies p (tt_mix t q (tt_plain p q a))).
Proof.
  intros (HT & Hlh & Hl2) Hb HB1 HB2. unfold tt_plain, tt_mix, tt_bodies; cbn [t_px t_py t_th1 t_th2].
  destruct (tractor_lip p (t_px q) (t_py q) (t_th1 q) a s t HT Hb) as [H1 H2].
  pose proof (Rabs_pos (t - s)) as Hd.
  constructor; [|constructor; [|constructor]].
  - eapply near_le; [apply tractor_near; [exact Hd|exact H1|exact H2]|]. apply Rmult_le_compat_l; [exact Hd|exact HB1].
  - eapply near_le; [eapply (trailer_near (Rabs (t - s)))|].
    + exact Hd.
    + apply hitch_lip; [exact Hlh|exact Hd| |exact H2]. exact H1.
    + rewrite mix_diff, Rabs_mult. apply Rmult_le_compat_l; [exact Hd|].
      match goal with |- Rabs (?x + ?y - ?x) <= _ => replace (x + y - x) with y by ring end.
      apply (trailer_turn_step p HT Hlh Hl2 a); exact Hb.
    + apply Rmult_le_compat_l; [exact Hd|exact HB2].
Qed.

Definition mixes (lam : R) (ths ths' : list R) : list R := map (fun z => mix lam (fst z) (snd z)) (combine ths ths').
Lemma chain_lip dt lh width B s t : 0 <= lh ->
  forall ths Ls lfs lrs hitchP hitchP' th speed rate hitch gain turn,
  length Ls = length ths -> length lfs = length ths -> length lrs = length ths ->
  (forall L, In L Ls -> 0 < L) -> (forall lr, In lr lrs -> 0 <= lr) ->
  nrm (fst hitchP' - fst hitchP) (snd hitchP' - snd hitchP) <= Rabs (t - s) * hitch ->
  Rabs (dt * speed) <= gain -> Rabs (dt * rate) <= turn ->
  rig_sweep_within B lh width hitch gain turn Ls lfs lrs ->
  Forall2 (near (Rabs (t - s) * B))
    (trailer_chain lh width hitchP (mixes s ths (trail dt lh speed rate th ths Ls)) Ls lfs lrs)
    (trailer_chain lh width hitchP' (mixes t ths (trail dt lh speed rate th ths Ls)) Ls lfs lrs).
Proof.
  intros Hlh. induction ths as [|x ths IH]; intros [|L Ls] [|lf lfs] [|lr lrs] P P' th speed rate hitch gain turn E1 E2 E3 HL Hlr HP Hsp Hrt HTL;
    try discriminate; [constructor|].
  unfold mixes. cbn [trail combine map fst snd]. cbv zeta. cbn [combine map fst snd trailer_chain]. cbn [rig_sweep_within] in HTL. cbv zeta in HTL.
  set (d := th - x) in *. set (rate' := (speed * sin d - lh * rate * cos d) / L) in *.
  set (speed' := speed * cos d + lh * rate * sin d) in *.
  set (gain' := sqrt (gain * gain + lh * turn * (lh * turn))) in *. destruct HTL as [HTL1 HTL2].
  assert (HLp : 0 < L) by (apply HL; left; reflexivity). assert (Hlrp : 0 <= lr) by (apply Hlr; left; reflexivity).
  assert (HG : nrm (dt * speed) (lh * (dt * rate)) <= gain').
  { unfold nrm, gain'. apply sqrt_le_1_alt.
    pose proof (Rsqr_abs (dt * speed)) as A1. pose proof (Rsqr_abs (dt * rate)) as A2. unfold Rsqr in A1, A2.
    replace (lh * (dt * rate) * (lh * (dt * rate))) with (lh * lh * (dt * rate * (dt * rate))) by ring.
    replace (lh * turn * (lh * turn)) with (lh * lh * (turn * turn)) by ring.
    rewrite A1, A2. apply Rplus_le_compat.
    - apply Rmult_le_compat; auto using Rabs_pos.
    - apply Rmult_le_compat_l; [apply sq_nonneg|]. apply Rmult_le_compat; auto using Rabs_pos. }
  assert (Hsp' : Rabs (dt * speed') <= gain').
  { eapply Rle_trans; [|exact HG]. replace (dt * speed') with (dt * speed * cos d + lh * (dt * rate) * sin d) by (unfold speed'; ring). apply proj_bound. }
  assert (Hrt' : Rabs (dt * rate') <= gain' / L).
  { unfold Rdiv. replace (dt * rate') with ((- (lh * (dt * rate)) * cos d + dt * speed * sin d) * / L) by (unfold rate', Rdiv; ring).
    rewrite Rabs_mult. pose proof (Rinv_0_lt_compat _ HLp). rewrite (Rabs_pos_eq (/ L)) by lra. apply Rmult_le_compat_r; [lra|].
    eapply Rle_trans; [apply proj_bound|]. eapply Rle_trans; [|exact HG]. right. unfold nrm. f_equal. ring. }
  assert (Hang : Rabs (mix t x (x + dt * rate') - mix s x (x + dt * rate')) <= Rabs (t - s) * (gain' / L)).
  { rewrite mix_diff, Rabs_mult. apply Rmult_le_compat_l; [apply Rabs_pos|]. replace (x + dt * rate' - x) with (dt * rate') by ring. exact Hrt'. }
  pose proof (Rabs_pos (t - s)) as Hd.
  constructor.
  - eapply near_le; [apply trailer_near; [exact Hd|exact HP|exact Hang]|]. apply Rmult_le_compat_l; [exact Hd|exact HTL1].
  - apply (IH Ls lfs lrs _ _ x speed' rate' (hitch + (L + lr + lh) * (gain' / L)) gain' (gain' / L)); auto.
    + intros L' HL'. apply HL. right; auto.
    + intros y Hy. apply Hlr. right; auto.
    + apply hitch_lip; [lra|exact Hd|exact HP|exact Hang].
Qed.
Lemma nt_lip s q a x y B : proper_rig s -> nt_sized s -> nt_valid s q -> in_box a -> tractor_sweep (ns_p s) <= B ->
  rig_sweep_within B (p_lh (ns_p s)) (p_trail_w (ns_p s))
    (tractor_slide (ns_p s) + p_lh (ns_p s) * tractor_turn (ns_p s)) (tractor_slide (ns_p s)) (tractor_turn (ns_p s))
    (ns_len s) (ns_front s) (ns_rear s) ->
  Forall2 (near (Rabs (y - x) * B)) (nt_bodies s (nt_mix x q (nt_plain s q a))) (nt_bodies s (nt_mix y q (nt_plain s q a))).
Proof.
  intros (HT & Hlh & HL & Hlr) (_ & Hw & N1 & N2 & N3 & _) Hv Hb HB1 HB2. unfold nt_valid, ns_N in Hv.
  unfold nt_plain, nt_mix, nt_bodies. cbv zeta. cbn [n_px n_py n_th0 n_ths].
  destruct (tractor_lip (ns_p s) (n_px q) (n_py q) (n_th0 q) a x y HT Hb) as [H1 H2].
  pose proof (Rabs_pos (y - x)) as Hd.
  constructor.
  - eapply near_le; [apply tractor_near; [exact Hd|exact H1|exact H2]|]. apply Rmult_le_compat_l; [exact Hd|exact HB1].
  - eapply chain_lip; try congruence; try eassumption.
    + apply hitch_lip; [exact Hlh|exact Hd| |exact H2]. exact H1.
    + apply speed_step; auto.
    + apply turn_step; auto.
Qed.

Lemma tt_mix_0 q q' : tt_mix 0 q q' = q. Proof. destruct q. unfold tt_mix; cbn. rewrite !mix_0. reflexivity. Qed.
Lemma tt_mix_1 q q' : tt_mix 1 q q' = q'. Proof. destruct q'. unfold tt_mix; cbn. rewrite !mix_1. reflexivity. Qed.
Lemma tt_mix_s l q : tt_mix l q q = q. Proof. destruct q. unfold tt_mix; cbn. rewrite !mix_same. reflexivity. Qed.
Lemma bk_mix_0 q q' : bk_mix 0 q q' = q. Proof. destruct q. unfold bk_mix; cbn. rewrite !mix_0. reflexivity. Qed.
Lemma bk_mix_1 q q' : bk_mix 1 q q' = q'. Proof. destruct q'. unfold bk_mix; cbn. rewrite !mix_1. reflexivity. Qed.
Lemma bk_mix_s l q : bk_mix l q q = q. Proof. destruct q. unfold bk_mix; cbn. rewrite !mix_same. reflexivity. Qed.
Lemma mixes_0 a : forall b, length b = length a -> mixes 0 a b = a.
Proof. unfold mixes. induction a as [|x a IH]; intros [|y b] E; try discriminate; cbn; auto. rewrite mix_0, IH by (injection E; auto). reflexivity. Qed.
Lemma mixes_1 a : forall b, length b = length a -> mixes 1 a b = b.
Proof. unfold mixes. induction a as [|x a IH]; intros [|y b] E; try discriminate; cbn; auto. rewrite mix_1, IH by (injection E; auto). reflexivity. Qed.
Lemma mixes_s l a : mixes l a a = a.
Proof. unfold mixes. induction a as [|x a IH]; cbn; auto. rewrite mix_same, IH. reflexivity. Qed.
Lemma nt_mix_0 q q' : length (n_ths q') = length (n_ths q) -> nt_mix 0 q q' = q.
Proof. intros E. unfold nt_mix. rewrite !mix_0. fold (mixes 0 (n_ths q) (n_ths q')). rewrite mixes_0 by exact E. destruct q; reflexivity. Qed.
Lemma nt_mix_1 q q' : length (n_ths q') = length (n_ths q) -> nt_mix 1 q q' = q'.
Proof. intros E. unfold nt_mix. rewrite !mix_1. fold (mixes 1 (n_ths q) (n_ths q')). rewrite mixes_1 by exact E. destruct q'; reflexivity. Qed.
Lemma nt_mix_s l q : nt_mix l q q = q.
Proof. unfold nt_mix. rewrite !mix_same. fold (mixes l (n_ths q) (n_ths q)). rewrite mixes_s. destruct q; reflexivity. Qed.

Lemma sweep_pos p : proper_tractor p -> 0 <= tractor_sweep p.
Proof.
  intros HT. unfold tractor_sweep.
  assert (B : in_box (0, 0)) by (unfold in_box; cbn; lra).
  pose proof (speed_step p HT (0, 0) B) as B1. pose proof (turn_step p HT (0, 0) B) as B2.
  apply Rplus_le_le_0_compat; [eapply Rle_trans; [|exact B1]; apply Rabs_pos|].
  apply Rmult_le_pos; [eapply Rle_trans; [|exact B2]; apply Rabs_pos|apply reach_pos].
Qed.
Lemma circ_radii r l pad r' : set_circle_obs r l pad = (r', Ok tt) -> (forall x y rad, In [x; y; rad] l -> 0 <= rad) ->
  forall c, In c (rb_circ r') -> pad <= c_r c.
Proof.
  unfold set_circle_obs, env_set_circles. destruct (convert_all (convert_circle pad) l) as [l'|] eqn:E; intros H; [|discriminate H].
  injection H as <-. cbn [rb_circ]. revert l' E. induction l as [|e l IH]; intros l' E Hr c Hc.
  - injection E as <-. destruct Hc.
  - cbn [convert_all] in E. destruct (convert_circle pad e) as [y|] eqn:Ee; [|discriminate].
    destruct (convert_all (convert_circle pad) l) as [ys|]; [|discriminate]. injection E as <-.
    destruct Hc as [<-|Hc]; [|eapply IH; eauto; intros; eapply Hr; right; eassumption].
    unfold convert_circle in Ee. destruct e as [|x [|z [|rad [|]]]]; try discriminate. injection Ee as <-. cbn [c_r].
    specialize (Hr x z rad (or_introl eq_refl)). lra.
Qed.
Lemma circ_keeps_rect r l pad r' : set_circle_obs r l pad = (r', Ok tt) -> rb_rect r' = rb_rect r /\ rb_p r' = rb_p r.
Proof.
  unfold set_circle_obs, env_set_circles. destruct (convert_all (convert_circle pad) l) as [l'|] eqn:E; intros H; [|discriminate H].
  injection H as <-. split; reflexivity.
Qed.

(** C59, tractor-trailer: rectangles and circles are set with padding [pad], at least half of what any
    point of the vehicle can travel in one step. If the start is clear (and off the padded discs), then
    at every moment between two consecutive rows of the returned trajectory every point of the vehicle
    is outside every rectangle and every circle as the user listed them. *)
Lemma l_C59_tt_nothing_touched_between_rows :
  forall r r1 r2 rects mode circs pad (s : tt_self) (x0 : ttq) proj guide logpd rew_xref (g : cfg) (rg : prng) out,
  set_rectangle_obs r rects mode pad = (r1, Ok tt) -> set_circle_obs r1 circs pad = (r2, Ok tt) ->
  (forall x y rad, In [x; y; rad] circs -> 0 <= rad) ->
  ts_rect s = rb_rect r2 -> ts_circ s = rb_circ r2 ->
  p_proj (ts_p s) = false -> p_guid (ts_p s) = false -> p_sh_coll (ts_p s) = true ->
  proper_vehicle (ts_p s) -> tt_sized (ts_p s) -> tt_pad_ok (ts_p s) pad ->
  tt_clear (ts_p s) (ts_circ s) (ts_rect s) x0 -> (forall c, In c (ts_circ s) -> tt_off_disc (ts_p s) c x0) ->
  run_diffusion (tt_penv s x0 proj guide logpd rew_xref) (Some g) rg = Ok out ->
  forall q q' lam body P, consecutive (o_traj out) q q' -> 0 <= lam <= 1 ->
  In body (tt_bodies (ts_p s) (tt_mix lam q q')) -> solid body P ->
  (forall e, In e rects -> ~ given_rect mode e P) /\ (forall e, In e circs -> ~ given_circle e P).
Proof.
  intros r r1 r2 rects mode circs pad s x0 proj guide logpd rx g rg out S1 S2 Hrad Er Ec Hp Hg Hc HV Hs (HB1 & HB2) H0 Ho E.
  assert (Hpad : 0 <= pad) by (pose proof (sweep_pos (ts_p s) (proj1 HV)); lra).
  pose proof (tt_kinematic s proj guide false Hp Hg) as K.
  assert (Hviz : forall st a, pe_step_viz (tt_penv s x0 proj guide logpd rx) st a = tt_step_internal s proj guide false st a) by (intros; apply tt_viz_same; auto).
  assert (L : forall q a x y, True -> in_box a -> Forall2 (near (Rabs (y - x) * (2 * pad)))
     (tt_bodies (ts_p s) (tt_mix x q (tt_plain (ts_p s) q a))) (tt_bodies (ts_p s) (tt_mix y q (tt_plain (ts_p s) q a)))).
  { intros q a x y _ Hb. apply tt_lip; auto. }
  destruct (circ_keeps_rect _ _ _ _ S2) as [Ek _].
  assert (R1 : Forall (tt_clear (ts_p s) (ts_circ s) (ts_rect s)) (o_traj out)).
  { eapply (gen_run_step_inv _ _ _ _ K (tt_clear (ts_p s) (ts_circ s) (ts_rect s))) with (env := tt_penv s x0 proj guide logpd rx) (q0 := x0); eauto; try reflexivity.
    intros q a _ Hb Hq Hbad. apply tt_bad_clear; auto. }
  assert (R2 : Forall (fun q => forall c, In c (ts_circ s) -> tt_off_disc (ts_p s) c q) (o_traj out)).
  { eapply (gen_run_step_inv _ _ _ _ K (fun q => forall c, In c (ts_circ s) -> tt_off_disc (ts_p s) c q)) with (env := tt_penv s x0 proj guide logpd rx) (q0 := x0); eauto; try reflexivity.
    intros q a _ Hb Hq Hbad c Hcc b Hbb.
    refine (step_off_discs (tt_plain (ts_p s)) (fun _ => True) (tt_bodies (ts_p s)) tt_mix pad Hpad _ _ L (ts_circ s) q a I Hb _ _ _ _ b c Hbb Hcc).
    - intros q1 a1 _. apply tt_mix_0.
    - intros q1 a1 _. apply tt_mix_1.
    - rewrite Ec. apply (circ_radii _ _ _ _ S2 Hrad).
    - destruct Hs as ((Z1 & Z2) & Z3 & Z4). intros x b0 [<-|[<-|[]]] _; unfold well_formed, tractor_body, trailer_body; cbn; lra.
    - intros b0 c0 Hb0 Hc0. exact (Hq c0 Hc0 b0 Hb0).
    - apply (tt_bad_clear s _ Hs Hc Hbad). }
  intros q q' lam body P Hcons Hl Hbody HP.
  injection E as <-. destruct (run_char _ _ _ _ K (tt_penv s x0 proj guide logpd rx) x0 eq_refl eq_refl Hviz I g rg) as (us & _ & ET & _).
  rewrite ET in *. rewrite Forall_forall in R1, R2.
  split.
  - intros e He. eapply (rows_miss_rects _ _ _ _ K (tt_bodies (ts_p s)) tt_mix pad Hpad
      (fun q a _ => tt_mix_0 q _) (fun q a _ => tt_mix_1 q _) tt_mix_s L r rects mode r1 us x0 q q' lam S1 I); eauto.
    intros x b o Hx Hbo Hoo. destruct (R1 x Hx) as [_ C]. apply C; auto. rewrite Er, Ek. exact Hoo.
  - intros e He. eapply (rows_miss_circles _ _ _ _ K (tt_bodies (ts_p s)) tt_mix pad Hpad
      (fun q a _ => tt_mix_0 q _) (fun q a _ => tt_mix_1 q _) tt_mix_s L r1 circs r2 us x0 q q' lam S2 I); eauto.
    intros x b c Hx Hbo Hoo. apply (R2 x Hx c); auto. rewrite Ec. exact Hoo.
Qed.

(** C59, bicycle. *)
Lemma l_C59_bk_nothing_touched_between_rows :
  forall r r1 r2 rects mode circs pad (s : bk_self) (x0 : bkq) proj guide logpd rew_xref (g : cfg) (rg : prng) out,
  set_rectangle_obs r rects mode pad = (r1, Ok tt) -> set_circle_obs r1 circs pad = (r2, Ok tt) ->
  (forall x y rad, In [x; y; rad] circs -> 0 <= rad) ->
  bs_rect s = rb_rect r2 -> bs_circ s = rb_circ r2 ->
  p_proj (bs_p s) = false -> p_guid (bs_p s) = false -> p_sh_coll (bs_p s) = true ->
  proper_tractor (bs_p s) -> tractor_sized (bs_p s) -> bk_pad_ok (bs_p s) pad ->
  bk_safe (bs_p s) (bs_circ s) (bs_rect s) x0 -> (forall c, In c (bs_circ s) -> bk_off_disc (bs_p s) c x0) ->
  run_diffusion (bk_penv s x0 proj guide logpd rew_xref) (Some g) rg = Ok out ->
  forall q q' lam body P, consecutive (o_traj out) q q' -> 0 <= lam <= 1 ->
  In body (bk_bodies (bs_p s) (bk_mix lam q q')) -> solid body P ->
  (forall e, In e rects -> ~ given_rect mode e P) /\ (forall e, In e circs -> ~ given_circle e P).
Proof.
  intros r r1 r2 rects mode circs pad s x0 proj guide logpd rx g rg out S1 S2 Hrad Er Ec Hp Hg Hc HV Hs HB1 H0 Ho E.
  unfold bk_pad_ok in HB1.
  assert (Hpad : 0 <= pad) by (pose proof (sweep_pos (bs_p s) HV); lra).
  pose proof (bk_kinematic s proj guide false Hp Hg) as K.
  assert (Hviz : forall st a, pe_step_viz (bk_penv s x0 proj guide logpd rx) st a = bk_step_internal s proj guide false st a)
    by (intros st a; cbn; unfold bk_step; rewrite !bk_step_shield by auto; reflexivity).
  assert (L : forall q a x y, True -> in_box a -> Forall2 (near (Rabs (y - x) * (2 * pad)))
     (bk_bodies (bs_p s) (bk_mix x q (bk_plain (bs_p s) q a))) (bk_bodies (bs_p s) (bk_mix y q (bk_plain (bs_p s) q a)))).
  { intros q a x y _ Hb. eapply Forall2_impl'; [|apply bk_lip; auto]. intros g1 g2 N. eapply near_le; [exact N|].
    apply Rmult_le_compat_l; [apply Rabs_pos|exact HB1]. }
  destruct (circ_keeps_rect _ _ _ _ S2) as [Ek _].
  assert (R1 : Forall (bk_safe (bs_p s) (bs_circ s) (bs_rect s)) (o_traj out)).
  { eapply (gen_run_step_inv _ _ _ _ K (bk_safe (bs_p s) (bs_circ s) (bs_rect s))) with (env := bk_penv s x0 proj guide logpd rx) (q0 := x0); eauto; try reflexivity.
    intros q a _ Hb Hq Hbad. apply bk_not_bad_safe; auto. }
  assert (R2 : Forall (fun q => forall c, In c (bs_circ s) -> bk_off_disc (bs_p s) c q) (o_traj out)).
  { eapply (gen_run_step_inv _ _ _ _ K (fun q => forall c, In c (bs_circ s) -> bk_off_disc (bs_p s) c q)) with (env := bk_penv s x0 proj guide logpd rx) (q0 := x0); eauto; try reflexivity.
    intros q a _ Hb Hq Hbad c Hcc b Hbb.
    refine (step_off_discs (bk_plain (bs_p s)) (fun _ => True) (bk_bodies (bs_p s)) bk_mix pad Hpad _ _ L (bs_circ s) q a I Hb _ _ _ _ b c Hbb Hcc).
    - intros q1 a1 _. apply bk_mix_0.
    - intros q1 a1 _. apply bk_mix_1.
    - rewrite Ec. apply (circ_radii _ _ _ _ S2 Hrad).
    - destruct Hs as (Z1 & Z2). intros x b0 [<-|[]] _; unfold well_formed, tractor_body; cbn; lra.
    - intros b0 c0 Hb0 Hc0. exact (Hq c0 Hc0 b0 Hb0).
    - apply (bk_not_bad_safe s _ Hs Hc Hbad). }
  intros q q' lam body P Hcons Hl Hbody HP.
  injection E as <-. destruct (run_char _ _ _ _ K (bk_penv s x0 proj guide logpd rx) x0 eq_refl eq_refl Hviz I g rg) as (us & _ & ET & _).
  rewrite ET in *. rewrite Forall_forall in R1, R2.
  split.
  - intros e He. eapply (rows_miss_rects _ _ _ _ K (bk_bodies (bs_p s)) bk_mix pad Hpad
      (fun q a _ => bk_mix_0 q _) (fun q a _ => bk_mix_1 q _) bk_mix_s L r rects mode r1 us x0 q q' lam S1 I); eauto.
    intros x b o Hx Hbo Hoo. destruct (R1 x Hx) as [_ C]. apply C; auto. rewrite Er, Ek. exact Hoo.
  - intros e He. eapply (rows_miss_circles _ _ _ _ K (bk_bodies (bs_p s)) bk_mix pad Hpad
      (fun q a _ => bk_mix_0 q _) (fun q a _ => bk_mix_1 q _) bk_mix_s L r1 circs r2 us x0 q q' lam S2 I); eauto.
    intros x b c Hx Hbo Hoo. apply (R2 x Hx c); auto. rewrite Ec. exact Hoo.
Qed.

(** C59, N trailers. *)
Lemma l_C59_nt_nothing_touched_between_rows :
  forall r r1 r2 rects mode circs pad (s : nt_self) (x0 : ntq) guide logpd rew_xref (g : cfg) (rg : prng) out,
  set_rectangle_obs r rects mode pad = (r1, Ok tt) -> set_circle_obs r1 circs pad = (r2, Ok tt) ->
  (forall x y rad, In [x; y; rad] circs -> 0 <= rad) ->
  ns_rect s = rb_rect r2 -> ns_circ s = rb_circ r2 ->
  p_guid (ns_p s) = false -> p_sh_coll (ns_p s) = true ->
  proper_rig s -> nt_sized s -> nt_pad_ok s pad ->
  nt_clear s x0 -> (forall c, In c (ns_circ s) -> nt_off_disc s c x0) ->
  nt_run s x0 guide logpd rew_xref g rg = Ok out ->
  forall q q' lam body P, consecutive (o_traj out) q q' -> 0 <= lam <= 1 ->
  In body (nt_bodies s (nt_mix lam q q')) -> solid body P ->
  (forall e, In e rects -> ~ given_rect mode e P) /\ (forall e, In e circs -> ~ given_circle e P).
Proof.
  intros r r1 r2 rects mode circs pad s x0 guide logpd rx g rg out S1 S2 Hrad Er Ec Hg Hc HV Hs (HB1 & HB2) H0 Ho E.
  apply nt_run_ok in E as (Hv0 & Hp & E).
  assert (HLn : length (ns_len s) = ns_N s) by apply Hs.
  assert (Hpad : 0 <= pad) by (pose proof (sweep_pos (ns_p s) (proj1 HV)); lra).
  pose proof (nt_kinematic s guide false Hg HLn) as K.
  assert (Hviz : forall st a, pe_step_viz (nt_penv s x0 guide logpd rx) st a = nt_step_core s guide false st a) by (intros; apply nt_viz_same; auto).
  assert (L : forall q a x y, nt_valid s q -> in_box a -> Forall2 (near (Rabs (y - x) * (2 * pad)))
     (nt_bodies s (nt_mix x q (nt_plain s q a))) (nt_bodies s (nt_mix y q (nt_plain s q a)))).
  { intros q a x y Hv Hb. apply nt_lip; auto. }
  assert (M0 : forall q a, nt_valid s q -> nt_mix 0 q (nt_plain s q a) = q).
  { intros q a Hv. apply nt_mix_0. pose proof (nt_plain_valid s q a HLn Hv) as Hv'. unfold nt_valid in *. congruence. }
  assert (M1 : forall q a, nt_valid s q -> nt_mix 1 q (nt_plain s q a) = nt_plain s q a).
  { intros q a Hv. apply nt_mix_1. pose proof (nt_plain_valid s q a HLn Hv) as Hv'. unfold nt_valid in *. congruence. }
  destruct (circ_keeps_rect _ _ _ _ S2) as [Ek _].
  assert (NB : forall q a, nt_valid s q -> nt_bad s (nt_plain s q a) = false -> nt_clear s (nt_plain s q a)).
  { intros q a Hv Hbad. apply nt_coll_false_clear; auto; [apply nt_plain_valid; auto|].
    unfold nt_bad, enabled_bad in Hbad. rewrite Hc in Hbad. cbn [andb] in Hbad. apply orb_false_iff in Hbad. tauto. }
  assert (R1 : Forall (nt_clear s) (o_traj out)).
  { eapply (gen_run_step_inv _ _ _ _ K (nt_clear s)) with (env := nt_penv s x0 guide logpd rx) (q0 := x0); eauto; try reflexivity. }
  assert (R2 : Forall (fun q => forall c, In c (ns_circ s) -> nt_off_disc s c q) (o_traj out)).
  { eapply (gen_run_step_inv _ _ _ _ K (fun q => forall c, In c (ns_circ s) -> nt_off_disc s c q)) with (env := nt_penv s x0 guide logpd rx) (q0 := x0); eauto; try reflexivity.
    intros q a Hv Hb Hq Hbad c Hcc b Hbb.
    refine (step_off_discs (nt_plain s) (nt_valid s) (nt_bodies s) nt_mix pad Hpad M0 M1 L (ns_circ s) q a Hv Hb _ _ _ _ b c Hbb Hcc).
    - rewrite Ec. apply (circ_radii _ _ _ _ S2 Hrad).
    - intros x b0 Hb0 _. pose proof (nt_bodies_sized s x Hs b0 Hb0) as [Z1 Z2]. unfold well_formed. lra.
    - intros b0 c0 Hb0 Hc0. exact (Hq c0 Hc0 b0 Hb0).
    - apply (NB q a Hv Hbad). }
  intros q q' lam body P Hcons Hl Hbody HP.
  injection E as <-. destruct (run_char _ _ _ _ K (nt_penv s x0 guide logpd rx) x0 eq_refl eq_refl Hviz Hv0 g rg) as (us & _ & ET & _).
  rewrite ET in *. rewrite Forall_forall in R1, R2.
  split.
  - intros e He. eapply (rows_miss_rects _ _ _ _ K (nt_bodies s) nt_mix pad Hpad
      M0 M1 nt_mix_s L r rects mode r1 us x0 q q' lam S1 Hv0); eauto.
    intros x b o Hx Hbo Hoo. destruct (R1 x Hx) as [_ C]. apply C; auto. rewrite Er, Ek. exact Hoo.
  - intros e He. eapply (rows_miss_circles _ _ _ _ K (nt_bodies s) nt_mix pad Hpad
      M0 M1 nt_mix_s L r1 circs r2 us x0 q q' lam S2 Hv0); eauto.
    intros x b c Hx Hbo Hoo. apply (R2 x Hx c); auto. rewrite Ec. exact Hoo.
Qed.

(** C59: the in-between positions are those of the code's own motion law: with both shields off, one
    step of the same vehicle with the time step lam*dt ends exactly at the in-between position. *)
Lemma l_C59_between_is_a_shorter_step :
  (forall s proj guide st u lam, p_proj (ts_p s) = false -> p_guid (ts_p s) = false ->
     p_sh_coll (ts_p s) = false -> p_sh_hitch (ts_p s) = false ->
     st_q (tt_step (tt_with_dt s (lam * p_dt (ts_p s))) proj guide st u) =
     tt_mix lam (st_q st) (st_q (tt_step s proj guide st u))) /\
  (forall s proj guide st u lam, p_proj (bs_p s) = false -> p_guid (bs_p s) = false -> p_sh_coll (bs_p s) = false ->
     st_q (bk_step (bk_with_dt s (lam * p_dt (bs_p s))) proj guide st u) =
     bk_mix lam (st_q st) (st_q (bk_step s proj guide st u))).
Proof.
  split.
  - intros s proj guide st u lam Hp Hg Hc Hh. unfold tt_step. rewrite !tt_step_shield by (cbn; auto). cbn [st_q].
    unfold tt_bad, enabled_bad. cbn [tt_with_dt ts_p with_dt p_sh_coll p_sh_hitch]. rewrite Hc, Hh. cbn [andb orb].
    unfold tt_plain, tt_mix, mix. cbn [ts_p with_dt p_dt p_vmax p_dmax p_l1 p_l2 p_lh t_px t_py t_th1 t_th2]. f_equal; ring.
  - intros s proj guide st u lam Hp Hg Hc. unfold bk_step. rewrite !bk_step_shield by (cbn; auto). cbn [st_q].
    unfold bk_bad, enabled_bad, bk_hitch. cbn [bk_with_dt bs_p with_dt p_sh_coll p_sh_hitch]. rewrite Hc. cbn [andb orb]. rewrite !andb_false_r.
    unfold bk_plain, bk_mix, mix. cbn [bs_p with_dt p_dt p_vmax p_dmax p_l1 b_px b_py b_th]. f_equal; ring.
Qed.

Lemma sq_le_le x y : 0 <= x -> 0 <= y -> x * x <= y * y -> x <= y.
Proof. intros Hx Hy H. apply Rnot_lt_le. intros L. assert (y * y < x * x) by (apply Rmult_le_0_lt_compat; lra). lra. Qed.
Lemma reach_le a0 a1 h m r : Rabs a0 <= m -> Rabs a1 <= m -> 0 <= r -> m * m + h * h <= r * r -> reach a0 a1 h <= r.
Proof.
  intros H0 H1 Hr H. unfold reach. apply sqrt_le_sq; auto. eapply Rle_trans; [|exact H]. apply Rplus_le_compat_r.
  assert (Rmax (Rabs a0) (Rabs a1) <= m) by (apply Rmax_lub; auto).
  assert (0 <= Rmax (Rabs a0) (Rabs a1)) by (eapply Rle_trans; [apply Rabs_pos|apply Rmax_l]).
  apply Rmult_le_compat; auto.
Qed.
(** C59: for the shipped vehicle and a time step of at most a quarter of a second (the planner's
    default) a padding of 1.56 m is enough for the tractor-trailer, 1.23 m for the tractor alone. *)
Lemma l_C59_default_vehicle_padding :
  forall p, default_vehicle p -> 0 <= p_dt p <= 1 / 4 ->
  tt_pad_ok p (156 / 100) /\ bk_pad_ok p (123 / 100).
Proof.
  intros p (E1 & E2 & E3 & E4 & E5 & E6 & E7 & E8 & E9 & E10 & E11) Hdt.
  pose proof PI_RGT_0 as HPI. destruct tan55 as [T0 T1]. set (T := tan (55 * PI / 180)) in *.
  assert (Vb : 0 <= p_dt p * p_vmax p <= (75/100)) by (rewrite E10; lra).
  set (V := p_dt p * p_vmax p) in *.
  assert (Hg : hitch_gain p <= (1175/1000)).
  { unfold hitch_gain. rewrite E1, E3, E11. fold T. apply sqrt_le_sq; [lra|].
    replace ((115/100) * T / (323/100) * ((115/100) * T / (323/100))) with (((115/100) / (323/100)) * ((115/100) / (323/100)) * (T * T)) by field. lra. }
  assert (Hg0 : 0 <= hitch_gain p) by apply sqrt_pos.
  set (G := hitch_gain p) in *.
  assert (VG : 0 <= V * G <= (88125/100000)).
  { split; [apply Rmult_le_pos; lra|]. replace (88125/100000) with ((75/100) * (1175/1000)) by lra. apply Rmult_le_compat; lra. }
  assert (Ht0 : 0 <= tractor_turn p).
  { unfold tractor_turn. rewrite E1, E11. fold V. fold T. unfold Rdiv. apply Rmult_le_pos; [apply Rmult_le_pos; lra|lra]. }
  assert (Ht1 : tractor_turn p <= (40225/100000)).
  { apply sq_le_le; [exact Ht0|lra|]. unfold tractor_turn. rewrite E1, E11. fold V. fold T.
    replace (V * T / (323/100) * (V * T / (323/100))) with ((V * V) * (T * T) * (/ (323/100) * / (323/100))) by field.
    assert (V * V <= (75/100) * (75/100)) by (apply Rmult_le_compat; lra).
    assert ((V * V) * (T * T) <= ((75/100) * (75/100)) * 3) by (apply Rmult_le_compat; auto; apply sq_nonneg). lra. }
  assert (Ht2 : 0 <= trailer_turn p <= (304/1000)).
  { unfold trailer_turn. rewrite E2. fold V. fold G. lra. }
  assert (R1 : reach (- p_lr p) (p_l1 p + p_lf1 p) (p_trac_w p / 2) <= 425/100).
  { apply (reach_le _ _ _ (413/100)); rewrite ?E1, ?E4, ?E5, ?E8; try (apply Rabs_le; lra); lra. }
  assert (R2 : reach (- (p_l2 p + p_lr2 p)) (p_lf2 p - p_l2 p) (p_trail_w p / 2) <= 6252/1000).
  { apply (reach_le _ _ _ (6125/1000)); rewrite ?E2, ?E6, ?E7, ?E9; try (apply Rabs_le; lra); lra. }
  assert (S1 : tractor_sweep p <= 246/100).
  { unfold tractor_sweep, tractor_slide. fold V.
    assert (tractor_turn p * reach (- p_lr p) (p_l1 p + p_lf1 p) (p_trac_w p / 2) <= (40225/100000) * (425/100)) by (apply Rmult_le_compat; auto using reach_pos).
    lra. }
  assert (S2 : trailer_sweep p <= 312/100).
  { unfold trailer_sweep, tractor_slide. fold V. rewrite E3.
    assert (trailer_turn p * reach (- (p_l2 p + p_lr2 p)) (p_lf2 p - p_l2 p) (p_trail_w p / 2) <= (304/1000) * (6252/1000)) by (apply Rmult_le_compat; try lra; auto using reach_pos).
    lra. }
  unfold tt_pad_ok, bk_pad_ok. lra.
Qed.

(** ** Without padding an obstacle can be jumped over *)
Definition jump_params : params := {|
  p_dt := 1/4; p_H := 50; p_num_trailers := 1; p_motion := 0%Z;
  p_coll_pen := 15/100; p_sh_coll := true; p_hitch_pen := 10/100; p_sh_hitch := true;
  p_proj := false; p_guid := false;
  p_rew_thr := 25; p_ref_thr := 5; p_max_w := 75/100; p_hitch_w := 2/10;
  p_ref_pos_w := 3/10; p_ref_th1_w := 5/10; p_ref_th2_w := 2/10;
  p_l1 := 2/10; p_l2 := 29/10; p_lh := 115/100; p_lf1 := 5/100; p_lr := 5/100;
  p_lf2 := 142/100; p_lr2 := 3225/1000;
  p_trac_w := 2/10; p_trail_w := 25/10;
  p_vmax := 3; p_dmax := delta_max_of_deg 55;
  p_theta_max := theta_max_const; p_phi_max := phi_max_const;
  p_d_thr := d_thr_of 1 (323/100) (115/100) (29/10);
  p_k_switch := 25/10; p_steer_w := 5/100; p_pref_w := 5/100; p_head_w := 5/10;
  p_term_thr := 10; p_term_w := 1 |}.
(** C59 fails without padding: with the collision shield on, a car 0.3 m long at 3 m/s and a time step of
    a quarter of a second is accepted on both sides of a wall 0.1 m thick and goes through it. *)
Lemma l_C59_no_padding_refuted :
  forall r, exists r1 (s : bk_self) q u body P,
  set_rectangle_obs r [[1/2; 0; 1/10; 4]] "center" 0 = (r1, Ok tt) /\ bs_rect s = rb_rect r1 /\ bs_circ s = [] /\
  p_proj (bs_p s) = false /\ p_guid (bs_p s) = false /\ p_sh_coll (bs_p s) = true /\
  proper_tractor (bs_p s) /\ tractor_sized (bs_p s) /\ bk_safe (bs_p s) (bs_circ s) (bs_rect s) q /\
  forall proj guide, let q' := st_q (bk_step s proj guide (reset_state q) u) in
    bk_safe (bs_p s) (bs_circ s) (bs_rect s) q' /\ 1/2 < b_px q' /\
    In body (bk_bodies (bs_p s) (bk_mix (1/2) q q')) /\ solid body P /\ given_rect "center" [1/2; 0; 1/10; 4] P.
Proof.
  intros r. eexists.
  set (o := mkRect (1/2) 0 (1/10 + 0 * 2) (4 + 0 * 2) 0).
  exists (mkBKSelf jump_params [] [o] (mkBK 5 0 0)), (mkBK 0 0 0), (1, 0), (tractor_body jump_params (3/8) 0 0), (1/2, 0).
  set (s := mkBKSelf jump_params [] [o] (mkBK 5 0 0)).
  assert (Sz : tractor_sized (bs_p s)) by (unfold tractor_sized, s, jump_params; cbn; lra).
  assert (Pl : bk_plain jump_params (mkBK 0 0 0) (1, 0) = mkBK (3/4) 0 0).
  { unfold bk_plain. cbn [fst snd b_px b_py b_th jump_params p_vmax p_dmax p_dt p_l1].
    rewrite Rmult_0_l, tan_0, cos_0, sin_0. f_equal; field. }
  assert (Safe : forall x, x = 0 \/ x = 3/4 -> bk_safe jump_params [] [o] (mkBK x 0 0)).
  { intros x Hx. split; [intros g c _ []|]. intros g o' [<-|[]] [<-|[]] P [(a & b & Ha & Hb & E) (a' & b' & Ha' & Hb' & E')].
    rewrite E in E'. unfold tractor_body, obstacle_body, at_frame, o, jump_params in *. cbn [rg_org rg_ang rg_back rg_front rg_half fst snd b_px b_py b_th r_x r_y r_ang r_w r_h p_lr p_l1 p_lf1 p_trac_w] in *.
    injection E' as E1 E2. rewrite cos_0, sin_0 in *. destruct Hx as [->| ->]; lra. }
  split; [reflexivity|]. split; [reflexivity|]. split; [reflexivity|]. split; [reflexivity|]. split; [reflexivity|]. split; [reflexivity|].
  split; [pose proof PI_RGT_0; unfold proper_tractor, s, jump_params, delta_max_of_deg; cbn; repeat split; lra|].
  split; [exact Sz|]. split; [apply Safe; auto|].
  intros proj guide q'.
  assert (Eq : q' = mkBK (3/4) 0 0).
  { unfold q', bk_step. rewrite bk_step_shield by reflexivity. cbn [st_q st_bak reset_state where_].
    assert (Ec : clip_act (1, 0) = (1, 0)) by (apply clip_act_id; cbn; lra). rewrite Ec. change (bs_p s) with jump_params. rewrite Pl.
    assert (B : bk_bad s (mkBK (3/4) 0 0) = false).
    { unfold bk_bad, enabled_bad, bk_hitch. rewrite andb_false_r, orb_false_r. apply andb_false_iff; right.
      unfold bs_coll. rewrite bk_coll_bodies. apply clear_bodies_hit_false.
      - apply bk_bodies_sized; exact Sz.
      - split; [intros c []|]. intros o' [<-|[]]. unfold o; cbn. lra.
      - apply Safe; auto. }
    rewrite B. reflexivity. }
  rewrite Eq. split; [apply Safe; auto|]. split; [cbn; lra|].
  split; [left; unfold bk_mix, mix; cbn [b_px b_py b_th]; change (bs_p s) with jump_params; f_equal; lra|].
  split.
  - exists (1/8), 0. unfold tractor_body, at_frame, jump_params; cbn. rewrite cos_0, sin_0. repeat split; try lra. f_equal; lra.
  - exists (1/2), 0, (1/10), 4, 0, (1/2), 0. split; [right; auto|]. split; [left; auto|].
    exists 0, 0. rewrite Rabs_R0. unfold at_frame; cbn. rewrite cos_0, sin_0. repeat split; try lra. f_equal; lra.
Qed.

(** The hypotheses are met: the default vehicle at the origin, a 2 m x 2 m box 10 m to its left and a disc
    of radius 1 m 10 m to its right, padded by 1.56 m. *)
Lemma x_C59_tt_hypotheses_example :
  forall r, exists r1 r2 (s : tt_self),
  set_rectangle_obs r [[0; 10; 2; 2]] "center" (156/100) = (r1, Ok tt) /\ set_circle_obs r1 [[0; -10; 1]] (156/100) = (r2, Ok tt) /\
  ts_rect s = rb_rect r2 /\ ts_circ s = rb_circ r2 /\ p_proj (ts_p s) = false /\ p_guid (ts_p s) = false /\ p_sh_coll (ts_p s) = true /\
  proper_vehicle (ts_p s) /\ tt_sized (ts_p s) /\ tt_pad_ok (ts_p s) (156/100) /\
  tt_clear (ts_p s) (ts_circ s) (ts_rect s) (mkTT 0 0 0 0) /\ (forall c, In c (ts_circ s) -> tt_off_disc (ts_p s) c (mkTT 0 0 0 0)).
Proof.
  intros r. eexists. eexists.
  set (c := mkCircle 0 (-10) (1 + 156/100)). set (o := mkRect 0 10 (2 + 156/100 * 2) (2 + 156/100 * 2) 0).
  exists (mkTTSelf default_params [c] [o] (mkTT 5 0 0 0)). cbn [ts_p ts_circ ts_rect].
  assert (DV : default_vehicle default_params) by (unfold default_vehicle, default_params, delta_max_of_deg; cbn; repeat split; lra).
  assert (Dt : 0 <= p_dt default_params <= 1 / 4) by (cbn; lra).
  destruct (l_C58_default_vehicle_and_discs default_params (mkCircle 0 0 1) DV Dt) as (V1 & V2 & _); [cbn; lra|].
  assert (Box : forall g P, In g (tt_bodies default_params (mkTT 0 0 0 0)) -> solid g P -> - (13/10) <= snd P <= 13/10).
  { intros g P [<-|[<-|[]]] (a & b & Ha & Hb & ->); unfold tractor_body, trailer_body, at_frame, ahead, default_params in *;
      cbn [rg_org rg_ang rg_back rg_front rg_half fst snd t_px t_py t_th1 t_th2 p_lr p_l1 p_lf1 p_trac_w p_lh p_l2 p_lf2 p_lr2 p_trail_w] in *;
      rewrite cos_0, sin_0; lra. }
  assert (Off : forall c', In c' [c] -> tt_off_disc default_params c' (mkTT 0 0 0 0)).
  { intros c' [<-|[]] g Hg P HP. pose proof (Box g P Hg HP) as B. unfold c; cbn [c_r c_x c_y]. apply Rnot_le_lt. intros Hd. apply disc_box in Hd. cbn [fst snd] in Hd. lra. }
  repeat (split; [reflexivity|]). split; [exact V1|]. split; [exact V2|].
  split; [apply l_C59_default_vehicle_padding; assumption|]. split; [|exact Off].
  split.
  - intros g c' Hg Hc P (a & b & Ha & Hb & _ & E). apply (Off c' Hc g Hg). exists a, b. auto.
  - intros g o' Hg [<-|[]] P [HP (a & b & Ha & Hb & E)]. pose proof (Box g P Hg HP) as B. rewrite E in B.
    unfold obstacle_body, at_frame, o in *. cbn [rg_org rg_ang rg_back rg_front rg_half fst snd r_x r_y r_ang r_w r_h] in *. rewrite cos_0, sin_0 in B. lra.
Qed.

Lemma sqrt_sum_sq_le x y : 0 <= x -> 0 <= y -> sqrt (x * x + y * y) <= x + y.
Proof. intros Hx Hy. apply sqrt_le_sq; [lra|]. pose proof (Rmult_le_pos x y Hx Hy). lra. Qed.
(** A padding that is enough exists for every rig (here: the default rig of two trailers). *)
Lemma x_C59_nt_padding_example : exists pad, nt_pad_ok ex_rig pad /\ proper_rig ex_rig /\ nt_sized ex_rig.
Proof.
  assert (X : forall lh w Ls lfs lrs hitch gain turn, exists B, forall B', B <= B' -> rig_sweep_within B' lh w hitch gain turn Ls lfs lrs).
  { intros lh w. induction Ls as [|L Ls IH]; intros lfs lrs hitch gain turn; [exists 0; intros; exact I|].
    destruct lfs as [|lf lfs]; [exists 0; intros; exact I|]. destruct lrs as [|lr lrs]; [exists 0; intros; exact I|].
    cbn [rig_sweep_within]. cbv zeta. set (gain' := sqrt (gain * gain + lh * turn * (lh * turn))).
    destruct (IH lfs lrs (hitch + (L + lr + lh) * (gain' / L)) gain' (gain' / L)) as (B & HB).
    set (B1 := hitch + gain' / L * reach (- (L + lr)) (lf - L) (w / 2)).
    exists (Rmax B1 B). intros B' H. pose proof (Rmax_l B1 B). pose proof (Rmax_r B1 B). split; [lra|apply HB; lra]. }
  destruct (X (p_lh (ns_p ex_rig)) (p_trail_w (ns_p ex_rig)) (ns_len ex_rig) (ns_front ex_rig) (ns_rear ex_rig)
     (tractor_slide (ns_p ex_rig) + p_lh (ns_p ex_rig) * tractor_turn (ns_p ex_rig)) (tractor_slide (ns_p ex_rig)) (tractor_turn (ns_p ex_rig))) as (B & HB).
  exists (Rmax B (tractor_sweep (ns_p ex_rig)) / 2).
  split; [|split; apply x_C58_nt_hypotheses_example].
  pose proof (Rmax_l B (tractor_sweep (ns_p ex_rig))). pose proof (Rmax_r B (tractor_sweep (ns_p ex_rig))).
  split; [lra|]. apply HB. lra.
Qed.

(** A motion between two positions exists: driving straight ahead by one metre in one second at 1 m/s. *)
Lemma x_C59_motion_example :
  moves_between 1 1 (tractor_body default_params 0 0 0) (tractor_body default_params 1 0 0) (fun t a b => at_frame (t, 0) 0 a b).
Proof.
  intros a b Ha Hb. split; [reflexivity|]. split; [reflexivity|]. intros s t _ _. rewrite dist_nrm.
  eapply Rle_trans; [apply pt_lip|]. cbn [fst snd]. rewrite !(Rminus_diag_eq 0 0) by reflexivity.
  rewrite Rabs_R0, Rmult_0_l, Rplus_0_r, Rmult_1_l. rewrite (Rabs_minus_sym t s).
  eapply Rle_trans; [apply nrm_abs|]. rewrite Rabs_R0. lra.
Qed.
