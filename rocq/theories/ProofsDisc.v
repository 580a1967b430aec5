(** * ProofsDisc: a shielded vehicle never ends up on top of a disc that is large enough (C58). *)
From Coq Require Import String.
From Verif Require Import Base BaseFacts Params Geom TT2d Bicycle NTrailer SpecGeom SpecBodies SpecDyn SpecDisc
  EnvModel Setup Rollout Planner Instances ProofsGeom ProofsBodies ProofsKin ProofsRobots ProofsStep ProofsSafety ProofsEnv ProofsDefaults.
Local Open Scope string_scope.
Local Open Scope list_scope.
Open Scope R_scope.

(** ** Plane geometry *)
Definition nrm (x y : R) : R := sqrt (x * x + y * y).
Lemma nrm_pos x y : 0 <= nrm x y.
Proof. apply sqrt_pos. Qed.
Lemma nrm_sq x y : nrm x y * nrm x y = x * x + y * y.
Proof. apply sqrt_sqrt. apply Rplus_le_le_0_compat; apply sq_nonneg. Qed.
Lemma nrm_le x y r : 0 <= r -> x * x + y * y <= r * r -> nrm x y <= r.
Proof.
  intros Hr H. rewrite <- nrm_sq in H. pose proof (nrm_pos x y) as Hp.
  destruct (Rle_dec (nrm x y) r) as [|Hn]; auto. exfalso. apply Rnot_le_lt in Hn.
  assert (r * r < nrm x y * nrm x y) by (apply Rmult_le_0_lt_compat; lra). lra.
Qed.
Lemma nrm_ge x y r : 0 <= r -> nrm x y <= r -> x * x + y * y <= r * r.
Proof. intros Hr H. rewrite <- nrm_sq. apply Rmult_le_compat; auto using nrm_pos. Qed.
Lemma nrm_tri x y u v : nrm (x + u) (y + v) <= nrm x y + nrm u v.
Proof.
  pose proof (dist_triangle (x + u, y + v) (u, v) (0, 0)) as H. unfold SpecGeom.dist, dist2 in H. cbn [fst snd] in H.
  unfold nrm. replace (x * x + y * y) with ((x + u - u) * (x + u - u) + (y + v - v) * (y + v - v)) by ring.
  replace (u * u + v * v) with ((u - 0) * (u - 0) + (v - 0) * (v - 0)) by ring.
  replace ((x + u) * (x + u) + (y + v) * (y + v)) with ((x + u - 0) * (x + u - 0) + (y + v - 0) * (y + v - 0)) by ring.
  exact H.
Qed.
Lemma nrm_abs x y : nrm x y <= Rabs x + Rabs y.
Proof.
  apply nrm_le; [pose proof (Rabs_pos x); pose proof (Rabs_pos y); lra|].
  pose proof (Rmult_le_pos _ _ (Rabs_pos x) (Rabs_pos y)).
  pose proof (Rsqr_abs x) as E1. pose proof (Rsqr_abs y) as E2. unfold Rsqr in *. lra.
Qed.
Lemma nrm_scal k x y : nrm (k * x) (k * y) = Rabs k * nrm x y.
Proof.
  unfold nrm. replace (k * x * (k * x) + k * y * (k * y)) with (k * k * (x * x + y * y)) by ring.
  rewrite sqrt_mult; [|apply sq_nonneg|apply Rplus_le_le_0_compat; apply sq_nonneg].
  f_equal. apply sqrt_Rsqr_abs.
Qed.
Lemma nrm_rot c s x y : c * c + s * s = 1 -> nrm (c * x - s * y) (s * x + c * y) = nrm x y.
Proof.
  intros T. unfold nrm. f_equal.
  transitivity ((c * c + s * s) * (x * x + y * y)); [ring|]. rewrite T. ring.
Qed.
Lemma sc1 t : cos t * cos t + sin t * sin t = 1.
Proof. pose proof (sin2_cos2 t). unfold Rsqr in *. lra. Qed.

(** Chord shorter than arc. *)
Lemma one_minus_cos t : 0 <= 1 - cos t <= t * t / 2.
Proof.
  split; [pose proof (COS_bound t); lra|].
  replace t with (2 * (t / 2)) at 1 by lra. rewrite cos_2a_sin.
  assert (H : sin (t / 2) * sin (t / 2) <= (t / 2) * (t / 2)).
  { assert (Hu : forall u, 0 <= u -> sin u * sin u <= u * u).
    { intros u Hu. destruct (Req_dec u 0) as [->|Hne]; [rewrite sin_0; lra|].
      destruct (Rle_dec u 1) as [H1|H1].
      - assert (Hs : sin u < u) by (apply sin_lt_x; lra).
        assert (0 <= sin u) by (apply sin_ge_0; pose proof PI_RGT_0; pose proof PI2_3_2; lra).
        apply Rmult_le_compat; lra.
      - pose proof (sc1 u). pose proof (sq_nonneg (cos u)).
        assert (1 * 1 <= u * u) by (apply Rmult_le_compat; lra). lra. }
    destruct (Rle_dec 0 (t / 2)); [auto|].
    specialize (Hu (- (t / 2))). rewrite sin_neg in Hu.
    replace (- sin (t / 2) * - sin (t / 2)) with (sin (t / 2) * sin (t / 2)) in Hu by ring.
    replace (- (t / 2) * - (t / 2)) with (t / 2 * (t / 2)) in Hu by ring. apply Hu. lra. }
  lra.
Qed.
Lemma chord t x y : nrm (cos t * x - sin t * y - x) (sin t * x + cos t * y - y) <= Rabs t * nrm x y.
Proof.
  apply nrm_le; [apply Rmult_le_pos; [apply Rabs_pos|apply nrm_pos]|].
  replace (Rabs t * nrm x y * (Rabs t * nrm x y)) with (Rabs t * Rabs t * (nrm x y * nrm x y)) by ring.
  rewrite nrm_sq. pose proof (Rsqr_abs t) as E. unfold Rsqr in E. rewrite <- E.
  replace ((cos t * x - sin t * y - x) * (cos t * x - sin t * y - x) + (sin t * x + cos t * y - y) * (sin t * x + cos t * y - y))
    with ((cos t * cos t + sin t * sin t + 1 - 2 * cos t) * (x * x + y * y)) by ring.
  rewrite sc1. apply Rmult_le_compat_r; [apply Rplus_le_le_0_compat; apply sq_nonneg|].
  pose proof (one_minus_cos t). lra.
Qed.

(** Second-order remainder of a rotating unit vector. *)
Lemma unit_remainder_poly u : 0 <= u -> (cos u - 1) * (cos u - 1) + (sin u - u) * (sin u - u) <= (u * u / 2) * (u * u / 2).
Proof.
  intros Hu.
  set (f := fun x => x ^ 4 / 4 - x ^ 2 - 2 + 2 * cos x + 2 * x * sin x).
  set (f' := fun x => x ^ 3 - 2 * x * (1 - cos x)).
  assert (D : forall x, derivable_pt_lim f x (f' x)).
  { intros x. unfold f, f'.
    replace (x ^ 3 - 2 * x * (1 - cos x)) with
      ((((INR 4 * x ^ 3) * / 4 - INR 2 * x ^ 1) - 0 + 2 * (- sin x)) + ((2 * 1) * sin x + 2 * x * cos x)) by (simpl; field).
    apply (derivable_pt_lim_plus (fun x => x ^ 4 / 4 - x ^ 2 - 2 + 2 * cos x) (fun x => 2 * x * sin x)).
    - apply (derivable_pt_lim_plus (fun x => x ^ 4 / 4 - x ^ 2 - 2) (fun x => 2 * cos x)).
      + apply (derivable_pt_lim_minus (fun x => x ^ 4 / 4 - x ^ 2) (fun _ => 2)); [|apply derivable_pt_lim_const].
        apply (derivable_pt_lim_minus (fun x => x ^ 4 / 4) (fun x => x ^ 2)).
        * replace (INR 4 * x ^ 3 * / 4) with (/ 4 * (INR 4 * x ^ 3)) by ring.
          assert (E : derivable_pt_lim (fun x => / 4 * x ^ 4) x (/ 4 * (INR 4 * x ^ 3)))
            by (apply (derivable_pt_lim_scal (fun x => x ^ 4)); apply (derivable_pt_lim_pow x 4)).
          intros eps He. destruct (E eps He) as [d Hd]. exists d. intros h H1 H2. specialize (Hd h H1 H2).
          replace (((x + h) ^ 4 / 4 - x ^ 4 / 4) / h) with ((/ 4 * (x + h) ^ 4 - / 4 * x ^ 4) / h) by (unfold Rdiv; ring). exact Hd.
        * apply (derivable_pt_lim_pow x 2).
      + apply (derivable_pt_lim_scal cos). apply derivable_pt_lim_cos.
    - apply (derivable_pt_lim_mult (fun x => 2 * x) sin); [|apply derivable_pt_lim_sin].
      apply (derivable_pt_lim_scal (fun x => x)). apply derivable_pt_lim_id. }
  assert (F : 0 <= f u).
  { destruct (Req_dec u 0) as [->|Hne]; [unfold f; rewrite cos_0, sin_0; simpl; lra|].
    assert (Hpos : 0 < u) by lra.
    destruct (MVT_cor2 f f' 0 u Hpos) as (c & Hc & Hc').
    { intros x _. apply D. }
    assert (f 0 = 0) by (unfold f; rewrite cos_0, sin_0; simpl; lra).
    assert (0 <= f' c).
    { unfold f'. pose proof (one_minus_cos c). replace (c ^ 3 - 2 * c * (1 - cos c)) with (2 * (c * (c * c / 2 - (1 - cos c)))) by (simpl; field).
      apply Rmult_le_pos; [lra|]. apply Rmult_le_pos; lra. }
    assert (0 <= f' c * (u - 0)) by (apply Rmult_le_pos; lra). lra. }
  unfold f in F. pose proof (sc1 u) as T. simpl in F.
  replace ((cos u - 1) * (cos u - 1) + (sin u - u) * (sin u - u))
    with ((cos u * cos u + sin u * sin u) + 1 + u * u - 2 * cos u - 2 * u * sin u) by ring.
  rewrite T. replace (u * u / 2 * (u * u / 2)) with (u * (u * (u * (u * 1))) / 4) by field. lra.
Qed.
Lemma unit_remainder u : (cos u - 1) * (cos u - 1) + (sin u - u) * (sin u - u) <= (u * u / 2) * (u * u / 2).
Proof.
  destruct (Rle_dec 0 u) as [H|H]; [apply unit_remainder_poly; auto|].
  pose proof (unit_remainder_poly (- u)) as E. rewrite cos_neg, sin_neg in E.
  replace ((- sin u - - u) * (- sin u - - u)) with ((sin u - u) * (sin u - u)) in E by ring.
  replace (- u * - u) with (u * u) in E by ring. apply E. lra.
Qed.
(** The unit vector at heading th + u is the one at th, plus u times the unit normal, up to u^2/2. *)
Lemma unit_step th u :
  nrm (cos (th + u) - cos th + u * sin th) (sin (th + u) - sin th - u * cos th) <= u * u / 2.
Proof.
  apply nrm_le; [pose proof (sq_nonneg u); lra|].
  eapply Rle_trans; [|apply unit_remainder]. right. rewrite cos_plus, sin_plus.
  transitivity (((cos u - 1) * (cos u - 1) + (sin u - u) * (sin u - u)) * (cos th * cos th + sin th * sin th)); [ring|].
  rewrite sc1. ring.
Qed.

(** ** A disc cannot slip under a body between two positions that are close together *)

(** Frame coordinates move by at most the axle displacement plus the turned lever arm. *)
Lemma frame_shift (o o' : point) th th' a b a' b' :
  at_frame o th a b = at_frame o' th' a' b' ->
  nrm (a - a') (b - b') <= nrm (fst o' - fst o) (snd o' - snd o) + Rabs (th' - th) * nrm a' b'.
Proof.
  intros E. unfold at_frame in E. injection E as E1 E2.
  set (dx := fst o' - fst o) in *. set (dy := snd o' - snd o) in *.
  pose proof (sc1 th) as T. pose proof (sc1 th') as T'.
  assert (Ca : cos (th' - th) = cos th' * cos th + sin th' * sin th) by apply cos_minus.
  assert (Sa : sin (th' - th) = sin th' * cos th - cos th' * sin th) by apply sin_minus.
  assert (Ea : a = (cos th * dx - - sin th * dy) + (cos (th' - th) * a' - sin (th' - th) * b')).
  { rewrite Ca, Sa. unfold dx, dy.
    transitivity (cos th * (a * cos th - b * sin th) + sin th * (a * sin th + b * cos th)).
    - transitivity (a * (cos th * cos th + sin th * sin th)); [rewrite T; ring|ring].
    - replace (a * cos th - b * sin th) with (fst o' - fst o + a' * cos th' - b' * sin th') by lra.
      replace (a * sin th + b * cos th) with (snd o' - snd o + a' * sin th' + b' * cos th') by lra. ring. }
  assert (Eb : b = (- sin th * dx + cos th * dy) + (sin (th' - th) * a' + cos (th' - th) * b')).
  { rewrite Ca, Sa. unfold dx, dy.
    transitivity (- sin th * (a * cos th - b * sin th) + cos th * (a * sin th + b * cos th)).
    - transitivity (b * (cos th * cos th + sin th * sin th)); [rewrite T; ring|ring].
    - replace (a * cos th - b * sin th) with (fst o' - fst o + a' * cos th' - b' * sin th') by lra.
      replace (a * sin th + b * cos th) with (snd o' - snd o + a' * sin th' + b' * cos th') by lra. ring. }
  replace (a - a') with ((cos th * dx - - sin th * dy) + (cos (th' - th) * a' - sin (th' - th) * b' - a')) by (rewrite Ea at 1; ring).
  replace (b - b') with ((- sin th * dx + cos th * dy) + (sin (th' - th) * a' + cos (th' - th) * b' - b')) by (rewrite Eb at 1; ring).
  eapply Rle_trans; [apply nrm_tri|]. apply Rplus_le_compat.
  - right. apply nrm_rot. lra.
  - apply chord.
Qed.

(** A point outside a box by more than r and a point inside it by more than r are more than 2r apart. *)
Lemma box_gap (back front half r a b a' b' : R) : 0 <= r ->
  back + r < a' < front - r -> - half + r < b' < half - r ->
  (forall x y, back <= x <= front -> - half <= y <= half -> r * r < (x - a) * (x - a) + (y - b) * (y - b)) ->
  2 * r < nrm (a - a') (b - b').
Proof.
  intros Hr Ha Hb H.
  destruct (Rlt_dec (2 * r) (nrm (a - a') (b - b'))) as [|Hn]; auto. exfalso.
  apply Rnot_lt_le in Hn. apply nrm_ge in Hn; [|lra].
  assert (Hx : exists x, back <= x <= front /\ ((x = a) \/ (Rabs (x - a) + r < Rabs (a - a')))).
  { destruct (Rlt_dec a back); [exists back; split; [lra|right; rewrite !Rabs_pos_eq, Rabs_left by lra; lra]|].
    destruct (Rlt_dec front a); [exists front; split; [lra|right; rewrite Rabs_left, Rabs_pos_eq by lra; lra]|].
    exists a; split; [lra|auto]. }
  assert (Hy : exists y, - half <= y <= half /\ ((y = b) \/ (Rabs (y - b) + r < Rabs (b - b')))).
  { destruct (Rlt_dec b (- half)); [exists (- half); split; [lra|right; rewrite !Rabs_pos_eq, Rabs_left by lra; lra]|].
    destruct (Rlt_dec half b); [exists half; split; [lra|right; rewrite Rabs_left, Rabs_pos_eq by lra; lra]|].
    exists b; split; [lra|auto]. }
  destruct Hx as (x & Hx & Hx'), Hy as (y & Hy & Hy'). specialize (H x y Hx Hy).
  pose proof (Rsqr_abs (x - a)) as E1. pose proof (Rsqr_abs (y - b)) as E2.
  pose proof (Rsqr_abs (a - a')) as E3. pose proof (Rsqr_abs (b - b')) as E4. unfold Rsqr in *.
  pose proof (Rabs_pos (x - a)) as P1. pose proof (Rabs_pos (y - b)) as P2.
  pose proof (Rabs_pos (a - a')) as P3. pose proof (Rabs_pos (b - b')) as P4.
  rewrite E1, E2 in H. rewrite E3, E4 in Hn.
  destruct Hx' as [Hx'|Hx'], Hy' as [Hy'|Hy'].
  - subst x y. rewrite !Rminus_diag_eq, Rabs_R0 in H by reflexivity. pose proof (sq_nonneg r). lra.
  - subst x. rewrite (Rminus_diag_eq a a), Rabs_R0 in H by reflexivity.
    set (u := Rabs (y - b)) in *. set (w := Rabs (b - b')) in *. clearbody u w.
    assert (r < u) by nra. assert ((2 * r) * (2 * r) < w * w) by (apply Rmult_le_0_lt_compat; lra).
    pose proof (sq_nonneg (Rabs (a - a'))). lra.
  - subst y. rewrite (Rminus_diag_eq b b), Rabs_R0 in H by reflexivity.
    set (u := Rabs (x - a)) in *. set (w := Rabs (a - a')) in *. clearbody u w.
    assert (r < u) by nra. assert ((2 * r) * (2 * r) < w * w) by (apply Rmult_le_0_lt_compat; lra).
    pose proof (sq_nonneg (Rabs (b - b'))). lra.
  - set (u := Rabs (x - a)) in *. set (w := Rabs (a - a')) in *.
    set (u2 := Rabs (y - b)) in *. set (w2 := Rabs (b - b')) in *. clearbody u w u2 w2.
    assert ((u + r) * (u + r) < w * w) by (apply Rmult_le_0_lt_compat; lra).
    assert ((u2 + r) * (u2 + r) < w2 * w2) by (apply Rmult_le_0_lt_compat; lra).
    assert (Hs : r * r <= (u + u2) * (u + u2)) by (pose proof (Rmult_le_pos _ _ P1 P2); nra).
    assert (r <= u + u2) by nra.
    assert (r * r <= r * (u + u2)) by (apply Rmult_le_compat_l; lra). nra.
Qed.

(** If the disc's centre were inside the body, it would be inside by more than the radius. *)
Lemma outline_margin g cx cy r ca cb : well_formed g -> 0 <= r ->
  (forall P, outline g P -> r < SpecGeom.dist P (cx, cy)) ->
  (cx, cy) = at_frame (rg_org g) (rg_ang g) ca cb ->
  (exists P, solid g P /\ SpecGeom.dist P (cx, cy) <= r) ->
  rg_back g + r < ca < rg_front g - r /\ - rg_half g + r < cb < rg_half g - r.
Proof.
  intros [Hw Hh] Hr Ho E (P & (a & b & Ha & Hb & ->) & Hd).
  rewrite E in *. apply dist_le_iff in Hd; auto. rewrite frame_dist2 in Hd.
  assert (Hgo : forall a' b', rg_back g <= a' <= rg_front g -> - rg_half g <= b' <= rg_half g ->
     (a' = rg_back g \/ a' = rg_front g \/ b' = - rg_half g \/ b' = rg_half g) ->
     r * r < (a' - ca) * (a' - ca) + (b' - cb) * (b' - cb)).
  { intros a' b' H1 H2 H3. apply Rnot_le_lt. intros H4.
    assert (H5 : outline g (at_frame (rg_org g) (rg_ang g) a' b')) by (exists a', b'; auto).
    specialize (Ho _ H5). apply Rlt_not_le in Ho. apply Ho. apply dist_le_iff; auto. rewrite frame_dist2. exact H4. }
  assert (I : rg_back g <= ca <= rg_front g /\ - rg_half g <= cb <= rg_half g).
  { destruct (Rlt_dec ca (rg_back g)) as [Hc1|Hc1].
    { exfalso. assert (X := Hgo (rg_back g) b). assert (Y : r * r < (rg_back g - ca) * (rg_back g - ca) + (b - cb) * (b - cb)) by (apply X; auto; lra).
      assert ((rg_back g - ca) * (rg_back g - ca) <= (a - ca) * (a - ca)) by (apply Rmult_le_compat; lra). lra. }
    destruct (Rlt_dec (rg_front g) ca) as [Hc2|Hc2].
    { exfalso. assert (X := Hgo (rg_front g) b). assert (Y : r * r < (rg_front g - ca) * (rg_front g - ca) + (b - cb) * (b - cb)) by (apply X; auto; lra).
      assert ((ca - rg_front g) * (ca - rg_front g) <= (ca - a) * (ca - a)) by (apply Rmult_le_compat; lra). lra. }
    destruct (Rlt_dec cb (- rg_half g)) as [Hc3|Hc3].
    { exfalso. assert (X := Hgo a (- rg_half g)). assert (Y : r * r < (a - ca) * (a - ca) + (- rg_half g - cb) * (- rg_half g - cb)) by (apply X; auto; lra).
      assert ((- rg_half g - cb) * (- rg_half g - cb) <= (b - cb) * (b - cb)) by (apply Rmult_le_compat; lra). lra. }
    destruct (Rlt_dec (rg_half g) cb) as [Hc4|Hc4].
    { exfalso. assert (X := Hgo a (rg_half g)). assert (Y : r * r < (a - ca) * (a - ca) + (rg_half g - cb) * (rg_half g - cb)) by (apply X; auto; lra).
      assert ((cb - rg_half g) * (cb - rg_half g) <= (cb - b) * (cb - b)) by (apply Rmult_le_compat; lra). lra. }
    lra. }
  assert (Sq : forall z, 0 <= z -> r * r < z * z -> r < z).
  { intros z Hz H. apply Rnot_le_lt. intros H2. assert (z * z <= r * r) by (apply Rmult_le_compat; lra). lra. }
  assert (X1 : r * r < (rg_back g - ca) * (rg_back g - ca) + (cb - cb) * (cb - cb)) by (apply Hgo; auto; lra).
  assert (X2 : r * r < (rg_front g - ca) * (rg_front g - ca) + (cb - cb) * (cb - cb)) by (apply Hgo; auto; lra).
  assert (X3 : r * r < (ca - ca) * (ca - ca) + (- rg_half g - cb) * (- rg_half g - cb)) by (apply Hgo; auto; lra).
  assert (X4 : r * r < (ca - ca) * (ca - ca) + (rg_half g - cb) * (rg_half g - cb)) by (apply Hgo; auto; lra).
  assert (r < ca - rg_back g) by (apply Sq; lra). assert (r < rg_front g - ca) by (apply Sq; lra).
  assert (r < cb + rg_half g) by (apply Sq; lra). assert (r < rg_half g - cb) by (apply Sq; lra). lra.
Qed.

Lemma never_swallowed (g g' : region) (c : circle) slide turn :
  rg_back g' = rg_back g -> rg_front g' = rg_front g -> rg_half g' = rg_half g -> well_formed g ->
  0 <= c_r c -> too_large g slide turn (c_r c) ->
  nrm (fst (rg_org g') - fst (rg_org g)) (snd (rg_org g') - snd (rg_org g)) <= slide ->
  Rabs (rg_ang g' - rg_ang g) <= turn ->
  off_disc g c -> clear_of_circle g' c -> off_disc g' c.
Proof.
  intros Eb Ef Eh W Hr HL Hs Ht Hoff Hout P HP.
  apply Rnot_le_lt. intros Hd.
  destruct (frame_coords (rg_org g') (rg_ang g') (c_x c, c_y c)) as (ca & cb & Ec').
  destruct (frame_coords (rg_org g) (rg_ang g) (c_x c, c_y c)) as (a & b & Ec).
  assert (W' : well_formed g') by (unfold well_formed in *; rewrite Eb, Ef, Eh; exact W).
  destruct (outline_margin g' (c_x c) (c_y c) (c_r c) ca cb W' Hr Hout Ec') as [Ma Mb].
  { exists P; auto. }
  rewrite Eb, Ef, Eh in *.
  assert (Hgap : 2 * c_r c < nrm (a - ca) (b - cb)).
  { apply (box_gap (rg_back g) (rg_front g) (rg_half g)); auto.
    intros x y Hx Hy. apply Rnot_le_lt. intros Hle.
    assert (Hsol : solid g (at_frame (rg_org g) (rg_ang g) x y)) by (exists x, y; auto).
    apply Hoff in Hsol. apply Rlt_not_le in Hsol. apply Hsol. apply dist_le_iff; auto.
    rewrite Ec, frame_dist2. exact Hle. }
  pose proof (frame_shift (rg_org g) (rg_org g') (rg_ang g) (rg_ang g') a b ca cb (eq_trans (eq_sym Ec) Ec')) as Hsh.
  assert (Hreach : nrm ca cb <= inner_reach g (c_r c)).
  { eapply Rle_trans; [apply nrm_abs|]. unfold inner_reach. apply Rplus_le_compat.
    - apply Rabs_le. pose proof (Rmax_l (- rg_back g) (rg_front g)). pose proof (Rmax_r (- rg_back g) (rg_front g)). lra.
    - apply Rabs_le. lra. }
  destruct HL as [HL|HL]; [lra|].
  assert (Rabs (rg_ang g' - rg_ang g) * nrm ca cb <= turn * inner_reach g (c_r c)).
  { apply Rmult_le_compat; auto using Rabs_pos, nrm_pos. }
  lra.
Qed.

(** ** How far the bodies move in one step *)
Definition in_box (a : R * R) : Prop := -1 <= fst a <= 1 /\ -1 <= snd a <= 1.

Lemma tan_bound t d : -1 <= t <= 1 -> 0 <= d < PI / 2 -> Rabs (tan (t * d)) <= tan d.
Proof.
  intros Ht Hd.
  assert (Hmono : forall x, - d <= x <= d -> tan x <= tan d).
  { intros x Hx. destruct (Req_dec x d) as [->|Hne]; [lra|].
    left. apply tan_increasing; lra. }
  assert (Hx : - d <= t * d <= d).
  { assert (0 <= (1 - t) * d) by (apply Rmult_le_pos; lra). assert (0 <= (1 + t) * d) by (apply Rmult_le_pos; lra). lra. }
  apply Rabs_le. split.
  - pose proof (Hmono (- (t * d))) as H. rewrite tan_neg in H. lra.
  - apply Hmono; auto.
Qed.
Lemma abs_scaled t m : -1 <= t <= 1 -> 0 <= m -> Rabs (t * m) <= m.
Proof.
  intros Ht Hm. assert (0 <= (1 - t) * m) by (apply Rmult_le_pos; lra). assert (0 <= (1 + t) * m) by (apply Rmult_le_pos; lra).
  apply Rabs_le. lra.
Qed.
Lemma proj_bound x y d : Rabs (x * cos d + y * sin d) <= nrm x y.
Proof.
  pose proof (nrm_pos x y) as Hp. pose proof (nrm_sq x y) as Hn. pose proof (sc1 d) as T.
  assert (H : (x * cos d + y * sin d) * (x * cos d + y * sin d) <= nrm x y * nrm x y).
  { rewrite Hn. pose proof (sq_nonneg (x * sin d - y * cos d)).
    assert ((x * cos d + y * sin d) * (x * cos d + y * sin d) + (x * sin d - y * cos d) * (x * sin d - y * cos d) = x * x + y * y).
    { transitivity ((x * x + y * y) * (cos d * cos d + sin d * sin d)); [ring|rewrite T; ring]. }
    lra. }
  pose proof (Rsqr_abs (x * cos d + y * sin d)) as E. unfold Rsqr in E. rewrite E in H.
  apply Rnot_lt_le. intros Hlt. assert (nrm x y * nrm x y < Rabs (x * cos d + y * sin d) * Rabs (x * cos d + y * sin d)) by (apply Rmult_le_0_lt_compat; lra). lra.
Qed.

Section Motion.
Variable p : params.
Hypothesis HT : proper_tractor p.

Lemma tan_dmax_pos : 0 <= tan (p_dmax p).
Proof. destruct HT as (_ & _ & _ & Hd). pose proof (tan_bound 0 _ ltac:(lra) Hd) as H. pose proof (Rabs_pos (tan (0 * p_dmax p))). lra. Qed.
Lemma speed_step a : in_box a -> Rabs (p_dt p * (fst a * p_vmax p)) <= tractor_slide p.
Proof.
  destruct HT as (Hdt & Hv & _ & _). intros [Ha _]. rewrite Rabs_mult, (Rabs_pos_eq (p_dt p)) by auto.
  unfold tractor_slide. apply Rmult_le_compat_l; auto. apply abs_scaled; auto.
Qed.
Lemma turn_step a : in_box a ->
  Rabs (p_dt p * (fst a * p_vmax p / p_l1 p * tan (snd a * p_dmax p))) <= tractor_turn p.
Proof.
  intros Hb. pose proof (speed_step a Hb) as Hs. destruct HT as (Hdt & Hv & Hl & Hd). destruct Hb as [Ha Hb].
  replace (p_dt p * (fst a * p_vmax p / p_l1 p * tan (snd a * p_dmax p)))
    with (p_dt p * (fst a * p_vmax p) * (tan (snd a * p_dmax p) * / p_l1 p)) by (unfold Rdiv; ring).
  unfold tractor_turn. replace (p_dt p * p_vmax p * tan (p_dmax p) / p_l1 p) with (tractor_slide p * (tan (p_dmax p) * / p_l1 p))
    by (unfold tractor_slide, Rdiv; ring).
  pose proof (Rinv_0_lt_compat _ Hl).
  rewrite Rabs_mult. apply Rmult_le_compat; try apply Rabs_pos; auto.
  rewrite Rabs_mult, (Rabs_pos_eq (/ p_l1 p)) by lra. apply Rmult_le_compat_r; [lra|]. apply tan_bound; auto.
Qed.

Hypothesis Hlh : 0 <= p_lh p.
Hypothesis Hl2 : 0 < p_l2 p.
Lemma gain_step a : in_box a ->
  nrm (p_dt p * (fst a * p_vmax p)) (p_lh p * (p_dt p * (fst a * p_vmax p / p_l1 p * tan (snd a * p_dmax p))))
  <= p_dt p * p_vmax p * hitch_gain p.
Proof.
  intros Hb. pose proof (speed_step a Hb) as Hs. pose proof tan_dmax_pos as Ht0. destruct HT as (Hdt & Hv & Hl & Hd). destruct Hb as [Ha Hb].
  pose proof (Rinv_0_lt_compat _ Hl) as Hi.
  set (V := p_dt p * (fst a * p_vmax p)) in *. set (k := p_lh p * tan (snd a * p_dmax p) / p_l1 p).
  replace (p_lh p * (p_dt p * (fst a * p_vmax p / p_l1 p * tan (snd a * p_dmax p)))) with (V * k) by (unfold V, k, Rdiv; ring).
  replace V with (V * 1) at 1 by ring. rewrite nrm_scal. apply Rmult_le_compat; auto using Rabs_pos, nrm_pos.
  unfold nrm, hitch_gain. apply sqrt_le_1_alt. rewrite Rmult_1_l. apply Rplus_le_compat_l.
  pose proof (Rsqr_abs k) as E. unfold Rsqr in E. rewrite E.
  assert (Rabs k <= p_lh p * tan (p_dmax p) / p_l1 p).
  { unfold k, Rdiv. rewrite !Rabs_mult. rewrite (Rabs_pos_eq (/ p_l1 p)), (Rabs_pos_eq (p_lh p)) by lra.
    apply Rmult_le_compat_r; [lra|]. apply Rmult_le_compat_l; auto. apply tan_bound; auto. }
  apply Rmult_le_compat; auto using Rabs_pos.
Qed.
Lemma trailer_turn_step a d : in_box a ->
  Rabs (p_dt p * ((fst a * p_vmax p * sin d - p_lh p * (fst a * p_vmax p / p_l1 p * tan (snd a * p_dmax p)) * cos d) / p_l2 p)) <= trailer_turn p.
Proof.
  intros Hb. pose proof (gain_step a Hb) as Hg.
  set (V := p_dt p * (fst a * p_vmax p)) in *. set (W := p_lh p * (p_dt p * (fst a * p_vmax p / p_l1 p * tan (snd a * p_dmax p)))) in *.
  replace (p_dt p * ((fst a * p_vmax p * sin d - p_lh p * (fst a * p_vmax p / p_l1 p * tan (snd a * p_dmax p)) * cos d) / p_l2 p))
    with ((- W * cos d + V * sin d) * / p_l2 p) by (unfold V, W, Rdiv; ring).
  unfold trailer_turn, Rdiv. rewrite Rabs_mult. pose proof (Rinv_0_lt_compat _ Hl2).
  rewrite (Rabs_pos_eq (/ p_l2 p)) by lra. apply Rmult_le_compat_r; [lra|].
  eapply Rle_trans; [apply proj_bound|]. eapply Rle_trans; [|exact Hg]. right. unfold nrm. f_equal. ring.
Qed.
(** The trailer's axle moves along its heading up to second order in the heading changes. *)
Lemma trailer_axle_step q a : in_box a ->
  let o x := ahead (ahead (t_px x, t_py x) (t_th1 x) (- p_lh p)) (t_th2 x) (- p_l2 p) in
  nrm (fst (o (tt_plain p q a)) - fst (o q)) (snd (o (tt_plain p q a)) - snd (o q)) <= trailer_slide p.
Proof.
  intros Hb o. unfold o, tt_plain, ahead. cbn [fst snd t_px t_py t_th1 t_th2].
  set (th1 := t_th1 q). set (th2 := t_th2 q). set (d := th1 - th2).
  pose proof (gain_step a Hb) as Hg. pose proof (turn_step a Hb) as H1. pose proof (trailer_turn_step a d Hb) as H2.
  set (v := fst a * p_vmax p) in *. set (w := v / p_l1 p * tan (snd a * p_dmax p)) in *.
  set (d1 := p_dt p * w) in *. set (d2 := p_dt p * ((v * sin d - p_lh p * w * cos d) / p_l2 p)) in *.
  assert (E2 : p_l2 p * d2 = p_dt p * v * sin d - p_lh p * d1 * cos d) by (unfold d2, d1; field; lra).
  set (K := p_dt p * v * cos d + p_lh p * d1 * sin d).
  assert (C1 : cos th1 = cos d * cos th2 - sin d * sin th2).
  { replace th1 with (d + th2) by (unfold d; ring). apply cos_plus. }
  assert (S1 : sin th1 = sin d * cos th2 + cos d * sin th2).
  { replace th1 with (d + th2) by (unfold d; ring). apply sin_plus. }
  set (r1x := cos (th1 + d1) - cos th1 + d1 * sin th1). set (r1y := sin (th1 + d1) - sin th1 - d1 * cos th1).
  set (r2x := cos (th2 + d2) - cos th2 + d2 * sin th2). set (r2y := sin (th2 + d2) - sin th2 - d2 * cos th2).
  assert (EX : t_px q + p_dt p * (v * cos th1) + - p_lh p * cos (th1 + d1) + - p_l2 p * cos (th2 + d2)
               - (t_px q + - p_lh p * cos th1 + - p_l2 p * cos th2)
               = (K * cos th2 + (- p_lh p) * r1x) + (- p_l2 p) * r2x).
  { transitivity (p_dt p * v * cos th1 + p_lh p * d1 * sin th1 + (p_l2 p * d2) * sin th2 + (- p_lh p) * r1x + (- p_l2 p) * r2x).
    - unfold r1x, r2x. ring.
    - rewrite E2. unfold K. rewrite C1, S1. ring. }
  assert (EY : t_py q + p_dt p * (v * sin th1) + - p_lh p * sin (th1 + d1) + - p_l2 p * sin (th2 + d2)
               - (t_py q + - p_lh p * sin th1 + - p_l2 p * sin th2)
               = (K * sin th2 + (- p_lh p) * r1y) + (- p_l2 p) * r2y).
  { transitivity (p_dt p * v * sin th1 - p_lh p * d1 * cos th1 - (p_l2 p * d2) * cos th2 + (- p_lh p) * r1y + (- p_l2 p) * r2y).
    - unfold r1y, r2y. ring.
    - rewrite E2. unfold K. rewrite C1, S1. ring. }
  rewrite EX, EY.
  eapply Rle_trans; [apply nrm_tri|]. unfold trailer_slide. apply Rplus_le_compat.
  - eapply Rle_trans; [apply nrm_tri|]. apply Rplus_le_compat.
    + rewrite nrm_scal. assert (En : nrm (cos th2) (sin th2) = 1) by (unfold nrm; rewrite sc1; apply sqrt_1).
      rewrite En, Rmult_1_r. eapply Rle_trans; [apply proj_bound|exact Hg].
    + rewrite nrm_scal, Rabs_Ropp, (Rabs_pos_eq (p_lh p)) by auto.
      unfold Rdiv. rewrite Rmult_assoc. apply Rmult_le_compat_l; auto.
      eapply Rle_trans; [apply unit_step|]. apply Rmult_le_compat_r; [lra|].
      pose proof (Rsqr_abs d1) as E. unfold Rsqr in E. rewrite E. apply Rmult_le_compat; auto using Rabs_pos.
  - rewrite nrm_scal, Rabs_Ropp, (Rabs_pos_eq (p_l2 p)) by lra.
    unfold Rdiv. rewrite Rmult_assoc. apply Rmult_le_compat_l; [lra|].
    eapply Rle_trans; [apply unit_step|]. apply Rmult_le_compat_r; [lra|].
    pose proof (Rsqr_abs d2) as E. unfold Rsqr in E. rewrite E. apply Rmult_le_compat; auto using Rabs_pos.
Qed.
End Motion.

(** ** Step invariants of shielded rollouts *)
Section G.
Context {Q : Type} (step : State Q -> act -> State Q) (next : Q -> act -> Q) (bad : Q -> bool) (valid : Q -> Prop).
Hypothesis K : kinematic step next bad valid.
Variable P : Q -> Prop.
Hypothesis HP : forall q a, valid q -> in_box a -> P q -> bad (next q a) = false -> P (next q a).
Lemma clip_in_box a : in_box (clip_act a).
Proof. apply clip_act_range. Qed.
Lemma kqs_step_inv us : forall q, valid q -> P q -> Forall P (kqs next bad q us).
Proof.
  induction us as [|u us IH]; intros q Hv Hq; cbn [kqs]; constructor.
  - unfold kq. destruct (bad (next q (clip_act u))) eqn:E; auto. apply HP; auto. apply clip_in_box.
  - apply IH; [apply (kq_valid _ _ _ _ K); auto|].
    unfold kq. destruct (bad (next q (clip_act u))) eqn:E; auto. apply HP; auto. apply clip_in_box.
Qed.
Lemma gen_run_step_inv (env : penv Q) q0 : pe_reset env = reset_state q0 -> pe_step env = step ->
  (forall st a, pe_step_viz env st a = step st a) -> valid q0 -> P q0 ->
  forall g rg out, run_diffusion env (Some g) rg = Ok out -> Forall P (o_traj out).
Proof.
  intros Hr Hs Hvz Hv H0 g rg out E. injection E as <-.
  destruct (run_char _ _ _ _ K env q0 Hr Hs Hvz Hv g rg) as (us & _ & -> & _).
  constructor; auto. apply kqs_step_inv; auto.
Qed.
Lemma gen_rollout_step_inv (env : penv Q) q0 : pe_reset env = reset_state q0 -> pe_step env = step ->
  valid q0 -> P q0 -> forall us, Forall P (snd (fst (rollout_term env us))).
Proof.
  intros Hr Hs Hv H0 us. rewrite (rollout_term_char _ _ _ _ K env q0 Hr Hs Hv us). cbn [fst snd].
  apply kqs_step_inv; auto.
Qed.
Lemma gen_traj_step_inv q us : valid q -> P q -> Forall P (trajectory_states step (reset_state q) us).
Proof. intros Hv Hq. rewrite (traj_char _ _ _ _ K) by auto. constructor; auto. apply kqs_step_inv; auto. Qed.
End G.

(** ** One accepted step keeps the vehicle off the disc *)
Lemma tractor_step_off p c px py th a : proper_tractor p -> / 10000 <= p_l1 p + p_lf1 p + p_lr p -> / 10000 <= p_trac_w p ->
  0 <= c_r c -> too_large (tractor_body p 0 0 0) (tractor_slide p) (tractor_turn p) (c_r c) ->
  in_box a -> off_disc (tractor_body p px py th) c ->
  let v := fst a * p_vmax p in
  let g' := tractor_body p (px + p_dt p * (v * cos th)) (py + p_dt p * (v * sin th)) (th + p_dt p * (v / p_l1 p * tan (snd a * p_dmax p))) in
  clear_of_circle g' c -> off_disc g' c.
Proof.
  intros HT Hs1 Hs2 Hr HL Hb Hoff v g' Hc.
  apply (never_swallowed (tractor_body p px py th) g' c (tractor_slide p) (tractor_turn p)); auto.
  - unfold well_formed, tractor_body; cbn. lra.
  - unfold g', tractor_body; cbn [rg_org fst snd].
    replace (px + p_dt p * (v * cos th) - px) with ((p_dt p * v) * cos th) by ring.
    replace (py + p_dt p * (v * sin th) - py) with ((p_dt p * v) * sin th) by ring.
    rewrite nrm_scal. assert (En : nrm (cos th) (sin th) = 1) by (unfold nrm; rewrite sc1; apply sqrt_1).
    rewrite En, Rmult_1_r. apply speed_step; auto.
  - unfold g', tractor_body; cbn [rg_ang].
    replace (th + p_dt p * (v / p_l1 p * tan (snd a * p_dmax p)) - th) with (p_dt p * (v / p_l1 p * tan (snd a * p_dmax p))) by ring.
    apply turn_step; auto.
Qed.

Lemma tt_step_off p circ rect c q a : proper_vehicle p -> tt_sized p -> In c circ -> tt_too_large p c ->
  in_box a -> tt_off_disc p c q -> tt_clear p circ rect (tt_plain p q a) -> tt_off_disc p c (tt_plain p q a).
Proof.
  intros (HT & Hlh & Hl2) ((Hs1 & Hs2) & Hs3 & Hs4) Hin (Hr & HL1 & HL2) Hb Hoff [Hc _].
  intros g [<-|[<-|[]]].
  - apply (tractor_step_off p c (t_px q) (t_py q) (t_th1 q) a); auto.
    + apply Hoff. left; reflexivity.
    + apply Hc; auto. left; reflexivity.
  - eapply (never_swallowed (trailer_body (ahead (t_px q, t_py q) (t_th1 q) (- p_lh p)) (t_th2 q)
              (p_l2 p) (p_lf2 p) (p_lr2 p) (p_trail_w p)) _ c (trailer_slide p) (trailer_turn p)); auto.
    + unfold well_formed, trailer_body; cbn. lra.
    + exact (trailer_axle_step p HT Hlh Hl2 q a Hb).
    + cbn [trailer_body rg_ang]. unfold tt_plain; cbn [t_th2].
      match goal with |- Rabs (?x + ?y - ?x) <= _ => replace (x + y - x) with y by ring end.
      apply trailer_turn_step; auto.
    + apply Hoff. right; left; reflexivity.
    + apply Hc; auto. right; left; reflexivity.
Qed.
Lemma bk_step_off p circ rect c q a : proper_tractor p -> tractor_sized p -> In c circ -> bk_too_large p c ->
  in_box a -> bk_off_disc p c q -> bk_safe p circ rect (bk_plain p q a) -> bk_off_disc p c (bk_plain p q a).
Proof.
  intros HT (Hs1 & Hs2) Hin (Hr & HL1) Hb Hoff [Hc _].
  intros g [<-|[]].
  apply (tractor_step_off p c (b_px q) (b_py q) (b_th q) a); auto.
  - apply Hoff. left; reflexivity.
  - apply Hc; auto. left; reflexivity.
Qed.

Lemma tt_bad_clear s q : tt_sized (ts_p s) -> p_sh_coll (ts_p s) = true -> tt_bad s q = false ->
  tt_clear (ts_p s) (ts_circ s) (ts_rect s) q.
Proof.
  intros Hs H1 H. apply tt_coll_false_clear; auto. unfold tt_bad, enabled_bad in H. rewrite H1 in H. cbn [andb] in H.
  apply orb_false_iff in H. tauto.
Qed.

(** C58, motion limits: in one executed step of the tractor-trailer (no projection or guidance), shielded
    or not, the tractor's rear axle moves at most [tractor_slide] and turns at most [tractor_turn], the
    trailer's axle moves at most [trailer_slide] and turns at most [trailer_turn]. *)
Lemma l_C58_tt_body_motion_limits :
  forall s proj guide st u,
  p_proj (ts_p s) = false -> p_guid (ts_p s) = false -> st_bak st = false -> proper_vehicle (ts_p s) ->
  let p := ts_p s in
  let q := st_q st in
  let q' := st_q (tt_step s proj guide st u) in
  let axle x := ahead (ahead (t_px x, t_py x) (t_th1 x) (- p_lh p)) (t_th2 x) (- p_l2 p) in
  dist (t_px q', t_py q') (t_px q, t_py q) <= tractor_slide p /\
  Rabs (t_th1 q' - t_th1 q) <= tractor_turn p /\
  dist (axle q') (axle q) <= trailer_slide p /\
  Rabs (t_th2 q' - t_th2 q) <= trailer_turn p.
Proof.
  intros s proj guide st u Hp Hg Hb (HT & Hlh & Hl2) p q q' axle.
  unfold tt_step in q'. unfold q'. rewrite tt_step_shield by auto. rewrite Hb. cbn [where_ st_q].
  change (st_q st) with q. fold p.
  pose proof (clip_in_box u) as Hbx. set (a := clip_act u) in *.
  assert (Pos : 0 <= tractor_slide p /\ 0 <= tractor_turn p /\ 0 <= trailer_slide p /\ 0 <= trailer_turn p).
  { pose proof (speed_step p HT a Hbx) as B1. pose proof (turn_step p HT a Hbx) as B2.
    pose proof (trailer_turn_step p HT Hlh Hl2 a 0 Hbx) as B3. pose proof (trailer_axle_step p HT Hlh Hl2 q a Hbx) as B4. cbv zeta in B4.
    repeat split; (eapply Rle_trans; [|eassumption]); try apply Rabs_pos; apply nrm_pos. }
  destruct (tt_bad s (tt_plain p q a)).
  - unfold dist, dist2. rewrite !Rminus_diag_eq by reflexivity. rewrite !Rmult_0_l, Rplus_0_l, sqrt_0, Rabs_R0. tauto.
  - split; [|split; [|split]].
    + unfold tt_plain, dist, dist2; cbn [t_px t_py fst snd].
      match goal with |- sqrt (?x * ?x + ?y * ?y) <= _ => change (nrm x y <= tractor_slide p) end.
      replace (t_px q + p_dt p * (fst a * p_vmax p * cos (t_th1 q)) - t_px q) with ((p_dt p * (fst a * p_vmax p)) * cos (t_th1 q)) by ring.
      replace (t_py q + p_dt p * (fst a * p_vmax p * sin (t_th1 q)) - t_py q) with ((p_dt p * (fst a * p_vmax p)) * sin (t_th1 q)) by ring.
      rewrite nrm_scal. assert (En : nrm (cos (t_th1 q)) (sin (t_th1 q)) = 1) by (unfold nrm; rewrite sc1; apply sqrt_1).
      rewrite En, Rmult_1_r. apply speed_step; auto.
    + unfold tt_plain; cbn [t_th1]. match goal with |- Rabs (?x + ?y - ?x) <= _ => replace (x + y - x) with y by ring end.
      apply turn_step; auto.
    + exact (trailer_axle_step p HT Hlh Hl2 q a Hbx).
    + unfold tt_plain; cbn [t_th2]. match goal with |- Rabs (?x + ?y - ?x) <= _ => replace (x + y - x) with y by ring end.
      apply trailer_turn_step; auto.
Qed.

(** C58, tractor-trailer: if the vehicle starts off a disc that is large enough, every row of the
    returned trajectory is off that disc (with its whole area, not only its outline). *)
Lemma l_C58_tt_returned_trajectory_off_disc :
  forall (s : tt_self) (x0 : ttq) proj guide logpd rew_xref (g : cfg) (rg : prng) out c,
  p_proj (ts_p s) = false -> p_guid (ts_p s) = false -> p_sh_coll (ts_p s) = true ->
  proper_vehicle (ts_p s) -> tt_sized (ts_p s) ->
  In c (ts_circ s) -> tt_too_large (ts_p s) c ->
  tt_off_disc (ts_p s) c x0 ->
  run_diffusion (tt_penv s x0 proj guide logpd rew_xref) (Some g) rg = Ok out ->
  Forall (tt_off_disc (ts_p s) c) (o_traj out).
Proof.
  intros s x0 proj guide logpd rx g rg out c Hp Hg Hc Hv Hs Hin HL H0 E.
  eapply (gen_run_step_inv _ _ _ _ (tt_kinematic s proj guide false Hp Hg) (tt_off_disc (ts_p s) c)) with (env := tt_penv s x0 proj guide logpd rx) (q0 := x0); eauto; try reflexivity.
  - intros q a _ Hb Hq Hbad. eapply tt_step_off; eauto. apply tt_bad_clear; eauto.
  - intros st a. apply tt_viz_same; auto.
Qed.

(** C58: the same for every state visited while scoring any candidate plan. *)
Lemma l_C58_tt_sampled_rollouts_off_disc :
  forall (s : tt_self) (x0 : ttq) proj guide logpd rew_xref (us : list act) c,
  p_proj (ts_p s) = false -> p_guid (ts_p s) = false -> p_sh_coll (ts_p s) = true ->
  proper_vehicle (ts_p s) -> tt_sized (ts_p s) ->
  In c (ts_circ s) -> tt_too_large (ts_p s) c ->
  tt_off_disc (ts_p s) c x0 ->
  Forall (tt_off_disc (ts_p s) c) (snd (fst (rollout_term (tt_penv s x0 proj guide logpd rew_xref) us))).
Proof.
  intros s x0 proj guide logpd rx us c Hp Hg Hc Hv Hs Hin HL H0.
  eapply (gen_rollout_step_inv _ _ _ _ (tt_kinematic s proj guide false Hp Hg) (tt_off_disc (ts_p s) c)) with (q0 := x0); eauto; try reflexivity.
  intros q a _ Hb Hq Hbad. eapply tt_step_off; eauto. apply tt_bad_clear; eauto.
Qed.

(** C58, bicycle. *)
Lemma l_C58_bk_returned_trajectory_off_disc :
  forall (s : bk_self) (x0 : bkq) proj guide logpd rew_xref (g : cfg) (rg : prng) out c,
  p_proj (bs_p s) = false -> p_guid (bs_p s) = false -> p_sh_coll (bs_p s) = true ->
  proper_tractor (bs_p s) -> tractor_sized (bs_p s) ->
  In c (bs_circ s) -> bk_too_large (bs_p s) c ->
  bk_off_disc (bs_p s) c x0 ->
  run_diffusion (bk_penv s x0 proj guide logpd rew_xref) (Some g) rg = Ok out ->
  Forall (bk_off_disc (bs_p s) c) (o_traj out).
Proof.
  intros s x0 proj guide logpd rx g rg out c Hp Hg Hc Hv Hs Hin HL H0 E.
  eapply (gen_run_step_inv _ _ _ _ (bk_kinematic s proj guide false Hp Hg) (bk_off_disc (bs_p s) c)) with (env := bk_penv s x0 proj guide logpd rx) (q0 := x0); eauto; try reflexivity.
  - intros q a _ Hb Hq Hbad. eapply bk_step_off; eauto. apply bk_not_bad_safe; eauto.
  - intros st a. cbn. unfold bk_step. rewrite !bk_step_shield by auto. reflexivity.
Qed.

(** C58, bicycle: every state visited while scoring any candidate plan. *)
Lemma l_C58_bk_sampled_rollouts_off_disc :
  forall (s : bk_self) (x0 : bkq) proj guide logpd rew_xref (us : list act) c,
  p_proj (bs_p s) = false -> p_guid (bs_p s) = false -> p_sh_coll (bs_p s) = true ->
  proper_tractor (bs_p s) -> tractor_sized (bs_p s) ->
  In c (bs_circ s) -> bk_too_large (bs_p s) c ->
  bk_off_disc (bs_p s) c x0 ->
  Forall (bk_off_disc (bs_p s) c) (snd (fst (rollout_term (bk_penv s x0 proj guide logpd rew_xref) us))).
Proof.
  intros s x0 proj guide logpd rx us c Hp Hg Hc Hv Hs Hin HL H0.
  eapply (gen_rollout_step_inv _ _ _ _ (bk_kinematic s proj guide false Hp Hg) (bk_off_disc (bs_p s) c)) with (q0 := x0); eauto; try reflexivity.
  intros q a _ Hb Hq Hbad. eapply bk_step_off; eauto. apply bk_not_bad_safe; eauto.
Qed.

(** ** Chains of trailers *)
Lemma ahead_shift (P P' : point) th th' d hitch turn :
  nrm (fst P' - fst P) (snd P' - snd P) <= hitch -> Rabs (th' - th) <= turn -> 0 <= d ->
  nrm (fst (ahead P' th' (- d)) - fst (ahead P th (- d))) (snd (ahead P' th' (- d)) - snd (ahead P th (- d))) <= hitch + d * turn.
Proof.
  intros H1 H2 Hd. unfold ahead; cbn [fst snd].
  replace (fst P' + - d * cos th' - (fst P + - d * cos th)) with ((fst P' - fst P) + (- d) * (cos th' - cos th)) by ring.
  replace (snd P' + - d * sin th' - (snd P + - d * sin th)) with ((snd P' - snd P) + (- d) * (sin th' - sin th)) by ring.
  eapply Rle_trans; [apply nrm_tri|]. apply Rplus_le_compat; auto.
  rewrite nrm_scal, Rabs_Ropp, (Rabs_pos_eq d) by auto. apply Rmult_le_compat_l; auto.
  eapply Rle_trans; [|exact H2].
  pose proof (chord (th' - th) (cos th) (sin th)) as C.
  assert (En : nrm (cos th) (sin th) = 1) by (unfold nrm; rewrite sc1; apply sqrt_1). rewrite En, Rmult_1_r in C.
  eapply Rle_trans; [|exact C]. right. unfold nrm. f_equal.
  assert (Ec : cos (th' - th) * cos th - sin (th' - th) * sin th = cos th').
  { rewrite <- cos_plus. f_equal. ring. }
  assert (Es : sin (th' - th) * cos th + cos (th' - th) * sin th = sin th').
  { rewrite <- sin_plus. f_equal. ring. }
  rewrite Ec, Es. reflexivity.
Qed.

Lemma trail_length dt lh ths : forall sp r th Ls, length ths = length Ls -> length (trail dt lh sp r th ths Ls) = length ths.
Proof. induction ths as [|t ths IH]; intros sp r th [|L Ls]; simpl; intros; try discriminate; auto. Qed.

Lemma chain_step_off dt lh width (c : circle) : 0 <= c_r c -> 0 <= lh -> 0 < width ->
  forall ths Ls lfs lrs hitchP hitchP' th speed rate hitch gain turn,
  length Ls = length ths -> length lfs = length ths -> length lrs = length ths ->
  (forall L, In L Ls -> 0 < L) -> (forall lr, In lr lrs -> 0 <= lr) ->
  (forall i, (i < length ths)%nat -> 0 < nth i lfs 0 + nth i lrs 0) ->
  nrm (fst hitchP' - fst hitchP) (snd hitchP' - snd hitchP) <= hitch ->
  Rabs (dt * speed) <= gain -> Rabs (dt * rate) <= turn ->
  rig_too_large lh width (c_r c) hitch gain turn Ls lfs lrs ->
  (forall g, In g (trailer_chain lh width hitchP ths Ls lfs lrs) -> off_disc g c) ->
  (forall g, In g (trailer_chain lh width hitchP' (trail dt lh speed rate th ths Ls) Ls lfs lrs) -> clear_of_circle g c) ->
  forall g, In g (trailer_chain lh width hitchP' (trail dt lh speed rate th ths Ls) Ls lfs lrs) -> off_disc g c.
Proof.
  intros Hr Hlh Hw. induction ths as [|t ths IH]; intros [|L Ls] [|lf lfs] [|lr lrs] P P' th speed rate hitch gain turn E1 E2 E3 HL Hlr Hsz HP Hsp Hrt HTL Hoff Hcl g Hg;
    try discriminate; [destruct Hg|].
  cbn [trail trailer_chain] in *. cbn [rig_too_large] in HTL.
  set (d := th - t) in *. set (rate' := (speed * sin d - lh * rate * cos d) / L) in *.
  set (speed' := speed * cos d + lh * rate * sin d) in *.
  set (gain' := sqrt (gain * gain + lh * turn * (lh * turn))) in *. destruct HTL as [HTL1 HTL2].
  assert (HLp : 0 < L) by (apply HL; left; reflexivity). assert (Hlrp : 0 <= lr) by (apply Hlr; left; reflexivity).
  assert (HG : nrm (dt * speed) (lh * (dt * rate)) <= gain').
  { unfold nrm, gain'. apply sqrt_le_1_alt.
    pose proof (Rsqr_abs (dt * speed)) as A1. pose proof (Rsqr_abs (dt * rate)) as A2. unfold Rsqr in A1, A2.
    replace (lh * (dt * rate) * (lh * (dt * rate))) with (lh * lh * (dt * rate * (dt * rate))) by ring.
    replace (lh * turn * (lh * turn)) with (lh * lh * (turn * turn)) by ring.
    rewrite A1, A2. apply Rplus_le_compat.
    - apply Rmult_le_compat; auto using Rabs_pos.
    - apply Rmult_le_compat_l; [apply sq_nonneg|]. apply Rmult_le_compat; auto using Rabs_pos. }
  assert (Hsp' : Rabs (dt * speed') <= gain').
  { eapply Rle_trans; [|exact HG]. replace (dt * speed') with (dt * speed * cos d + lh * (dt * rate) * sin d) by (unfold speed'; ring). apply proj_bound. }
  assert (Hrt' : Rabs (dt * rate') <= gain' / L).
  { unfold Rdiv. replace (dt * rate') with ((- (lh * (dt * rate)) * cos d + dt * speed * sin d) * / L) by (unfold rate', Rdiv; ring).
    rewrite Rabs_mult. pose proof (Rinv_0_lt_compat _ HLp). rewrite (Rabs_pos_eq (/ L)) by lra. apply Rmult_le_compat_r; [lra|].
    eapply Rle_trans; [apply proj_bound|]. eapply Rle_trans; [|exact HG]. right. unfold nrm. f_equal. ring. }
  assert (Hang : Rabs (t + dt * rate' - t) <= gain' / L) by (replace (t + dt * rate' - t) with (dt * rate') by ring; exact Hrt').
  destruct Hg as [<-|Hg].
  - apply (never_swallowed (trailer_body P t L lf lr width) _ c (hitch + L * (gain' / L)) (gain' / L)); auto.
    + pose proof (Hsz 0%nat) as H0. cbn in H0. unfold well_formed, trailer_body; cbn. specialize (H0 ltac:(lia)). lra.
    + cbn [trailer_body rg_org]. apply ahead_shift; auto. lra.
    + apply Hoff. left; reflexivity.
    + apply Hcl. left; reflexivity.
  - eapply (IH Ls lfs lrs (ahead P t (- (L + lr + lh))) (ahead P' (t + dt * rate') (- (L + lr + lh))) t speed' rate'
             (hitch + (L + lr + lh) * (gain' / L)) gain' (gain' / L)); eauto.
    + intros L' HL'. apply HL. right; auto.
    + intros x Hx. apply Hlr. right; auto.
    + intros i Hi. apply (Hsz (S i)). simpl. lia.
    + apply ahead_shift; auto. lra.
    + intros g' Hg'. apply Hoff. right; auto.
    + intros g' Hg'. apply Hcl. right; auto.
Qed.

Lemma nt_step_off s c q a : proper_rig s -> nt_sized s -> length (n_ths q) = p_num_trailers (ns_p s) -> In c (ns_circ s) -> nt_too_large s c ->
  in_box a -> nt_off_disc s c q -> nt_clear s (nt_plain s q a) -> nt_off_disc s c (nt_plain s q a).
Proof.
  intros (HT & Hlh & HL & Hlr) ((Hs1 & Hs2) & Hw & N1 & N2 & N3 & Hsz) Hlen Hin (Hr & HL1 & HL2) Hb Hoff [Hc _].
  intros g Hg. unfold nt_bodies in Hg. cbv zeta in Hg. destruct Hg as [<-|Hg].
  - apply (tractor_step_off (ns_p s) c (n_px q) (n_py q) (n_th0 q) a); auto.
    + apply Hoff. left; reflexivity.
    + apply Hc; auto. left; reflexivity.
  - unfold nt_plain in Hg. cbn [n_px n_py n_th0 n_ths] in Hg.
    eapply (chain_step_off (p_dt (ns_p s)) (p_lh (ns_p s)) (p_trail_w (ns_p s)) c Hr Hlh ltac:(lra) (n_ths q) (ns_len s) (ns_front s) (ns_rear s)
              (ahead (n_px q, n_py q) (n_th0 q) (- p_lh (ns_p s))));
      [congruence|congruence|congruence|exact HL|exact Hlr| | | | |exact HL2| | |exact Hg].
    + intros i Hi. rewrite Hlen in Hi. specialize (Hsz i Hi). lra.
    + apply ahead_shift; auto.
      * cbn [fst snd].
        set (v := fst a * p_vmax (ns_p s)).
        replace (n_px q + p_dt (ns_p s) * (v * cos (n_th0 q)) - n_px q) with ((p_dt (ns_p s) * v) * cos (n_th0 q)) by ring.
        replace (n_py q + p_dt (ns_p s) * (v * sin (n_th0 q)) - n_py q) with ((p_dt (ns_p s) * v) * sin (n_th0 q)) by ring.
        rewrite nrm_scal. assert (En : nrm (cos (n_th0 q)) (sin (n_th0 q)) = 1) by (unfold nrm; rewrite sc1; apply sqrt_1).
        rewrite En, Rmult_1_r. apply speed_step; auto.
      * match goal with |- Rabs (?x + ?y - ?x) <= _ => replace (x + y - x) with y by ring end. apply turn_step; auto.
    + apply speed_step; auto.
    + apply turn_step; auto.
    + intros g' Hg'. apply Hoff. right; exact Hg'.
    + intros g' Hg'. apply Hc; auto. right; exact Hg'.
Qed.

(** C58, N trailers. *)
Lemma l_C58_nt_returned_trajectory_off_disc :
  forall (s : nt_self) (x0 : ntq) guide logpd rew_xref (g : cfg) (rg : prng) out c,
  p_guid (ns_p s) = false -> p_sh_coll (ns_p s) = true ->
  proper_rig s -> nt_sized s ->
  In c (ns_circ s) -> nt_too_large s c ->
  nt_off_disc s c x0 ->
  nt_run s x0 guide logpd rew_xref g rg = Ok out ->
  Forall (nt_off_disc s c) (o_traj out).
Proof.
  intros s x0 guide logpd rx g rg out c Hg Hc Hv Hs Hin HL H0 E.
  apply nt_run_ok in E as (Hv0 & Hp & E).
  assert (HLn : length (ns_len s) = ns_N s) by apply Hs.
  pose proof (nt_kinematic s guide false Hg HLn) as K.
  eapply (gen_run_step_inv _ _ _ _ K (nt_off_disc s c)) with (env := nt_penv s x0 guide logpd rx) (q0 := x0); eauto; try reflexivity.
  - intros q a Hq Hb Hoff Hbad. apply nt_step_off; auto. apply nt_coll_false_clear; auto.
    + apply nt_plain_valid; auto.
    + unfold nt_bad, enabled_bad in Hbad. rewrite Hc in Hbad. cbn [andb] in Hbad. apply orb_false_iff in Hbad. tauto.
  - intros st a. apply nt_viz_same; auto.
Qed.

(** C58, N trailers: every state visited while scoring any candidate plan. *)
Lemma l_C58_nt_sampled_rollouts_off_disc :
  forall (s : nt_self) (x0 : ntq) guide logpd rew_xref (us : list act) c,
  p_guid (ns_p s) = false -> p_sh_coll (ns_p s) = true ->
  proper_rig s -> nt_sized s -> length (n_ths x0) = p_num_trailers (ns_p s) ->
  In c (ns_circ s) -> nt_too_large s c ->
  nt_off_disc s c x0 ->
  Forall (nt_off_disc s c) (snd (fst (rollout_term (nt_penv s x0 guide logpd rew_xref) us))).
Proof.
  intros s x0 guide logpd rx us c Hg Hc Hv Hs Hlen Hin HL H0.
  assert (HLn : length (ns_len s) = ns_N s) by apply Hs.
  pose proof (nt_kinematic s guide false Hg HLn) as K.
  eapply (gen_rollout_step_inv _ _ _ _ K (nt_off_disc s c)) with (q0 := x0); eauto; try reflexivity.
  intros q a Hq Hb Hoff Hbad. apply nt_step_off; auto. apply nt_coll_false_clear; auto.
  - apply nt_plain_valid; auto.
  - unfold nt_bad, enabled_bad in Hbad. rewrite Hc in Hbad. cbn [andb] in Hbad. apply orb_false_iff in Hbad. tauto.
Qed.

(** ** The default vehicle *)
Lemma sqrt_le_sq x y : 0 <= y -> x <= y * y -> sqrt x <= y.
Proof. intros Hy H. rewrite <- (sqrt_square y) by auto. apply sqrt_le_1_alt; auto. Qed.
Lemma tan55 : 0 <= tan (55 * PI / 180) /\ tan (55 * PI / 180) * tan (55 * PI / 180) <= 3.
Proof.
  pose proof PI_RGT_0.
  assert (H0 : 0 <= tan (55 * PI / 180)).
  { replace 0 with (tan 0) by apply tan_0. left. apply tan_increasing; lra. }
  assert (H1 : tan (55 * PI / 180) <= sqrt 3) by (rewrite <- tan_PI3; left; apply tan_increasing; lra).
  split; auto. replace 3 with (sqrt 3 * sqrt 3) by (apply sqrt_sqrt; lra). apply Rmult_le_compat; auto.
Qed.

(** C58: for the shipped vehicle and a time step of at most a quarter of a second (the planner's
    default), every disc with a radius of at least 1 m (that of the parked-car discs) is large enough. *)
Lemma l_C58_default_vehicle_and_discs :
  forall p c, default_vehicle p -> 0 <= p_dt p <= 1 / 4 -> 1 <= c_r c ->
  proper_vehicle p /\ tt_sized p /\ tt_too_large p c /\ bk_too_large p c.
Proof.
  intros p c (E1 & E2 & E3 & E4 & E5 & E6 & E7 & E8 & E9 & E10 & E11) Hdt Hr.
  pose proof PI_RGT_0 as HPI. destruct tan55 as [T0 T1].
  assert (HV : proper_vehicle p).
  { unfold proper_vehicle, proper_tractor. rewrite E1, E2, E3, E10, E11. lra. }
  assert (Htr : too_large (tractor_body p 0 0 0) (tractor_slide p) (tractor_turn p) (c_r c)).
  { left. unfold tractor_body; cbn [rg_half]. rewrite E8. lra. }
  split; [exact HV|]. split; [unfold tt_sized, tractor_sized; rewrite E1, E4, E5, E6, E7, E8, E9; lra|].
  split; [|split; [lra|exact Htr]].
  split; [lra|]. split; [exact Htr|].
  destruct (Rle_dec (125/100) (c_r c)) as [Hbig|Hsm]; [left; unfold trailer_body; cbn [rg_half]; rewrite E9; lra|].
  right. set (T := tan (55 * PI / 180)) in *.
  assert (Vb : 0 <= p_dt p * p_vmax p <= (75/100)) by (rewrite E10; lra).
  set (V := p_dt p * p_vmax p) in *.
  assert (Hg : hitch_gain p <= (1175/1000)).
  { unfold hitch_gain. rewrite E1, E3, E11. fold T. apply sqrt_le_sq; [lra|].
    replace ((115/100) * T / (323/100) * ((115/100) * T / (323/100))) with (((115/100) / (323/100)) * ((115/100) / (323/100)) * (T * T)) by field. lra. }
  assert (Hg0 : 0 <= hitch_gain p) by apply sqrt_pos.
  set (G := hitch_gain p) in *.
  assert (VG : 0 <= V * G <= (88125/100000)).
  { split; [apply Rmult_le_pos; lra|]. replace (88125/100000) with ((75/100) * (1175/1000)) by lra. apply Rmult_le_compat; lra. }
  assert (Ht1 : tractor_turn p * tractor_turn p <= (1618/10000)).
  { unfold tractor_turn. rewrite E1, E11. fold V. fold T.
    replace (V * T / (323/100) * (V * T / (323/100))) with ((V * V) * (T * T) * (/ (323/100) * / (323/100))) by field.
    assert (V * V <= (75/100) * (75/100)) by (apply Rmult_le_compat; lra).
    assert ((V * V) * (T * T) <= ((75/100) * (75/100)) * 3) by (apply Rmult_le_compat; auto; apply sq_nonneg). lra. }
  assert (Ht2 : 0 <= trailer_turn p <= (304/1000)).
  { unfold trailer_turn. rewrite E2. fold V. fold G. lra. }
  assert (Ht2' : trailer_turn p * trailer_turn p <= (925/10000)).
  { apply Rle_trans with ((304/1000) * (304/1000)); [apply Rmult_le_compat; lra|lra]. }
  assert (Hs : trailer_slide p <= (1109/1000)).
  { unfold trailer_slide. rewrite E2, E3. fold V. fold G. lra. }
  assert (Hreach : 0 <= inner_reach (trailer_body (0, 0) 0 (p_l2 p) (p_lf2 p) (p_lr2 p) (p_trail_w p)) (c_r c) <= (2475/1000)).
  { unfold inner_reach, trailer_body; cbn [rg_back rg_front rg_half]. rewrite E6, E7, E9.
    assert (Rmax (- - ((3225/1000))) (142/100) = (3225/1000)) as -> by (rewrite Rmax_left; lra). lra. }
  assert (trailer_turn p * inner_reach (trailer_body (0, 0) 0 (p_l2 p) (p_lf2 p) (p_lr2 p) (p_trail_w p)) (c_r c) <= (304/1000) * (2475/1000))
    by (apply Rmult_le_compat; lra).
  lra.
Qed.

(** C58: every circle of the default parking lot is large enough for the default tractor-trailer. *)
Lemma l_C58_default_parking_lot :
  forall r, get_env (default_env_args "tt2d" "parking" 1) = Ok r ->
  rb_circ r <> [] /\ proper_vehicle (rb_p r) /\ tt_sized (rb_p r) /\
  forall c, In c (rb_circ r) -> tt_too_large (rb_p r) c.
Proof.
  intros r E. injection E as <-. cbn [rb_circ rb_p].
  match goal with |- _ /\ proper_vehicle ?pp /\ _ => set (p := pp) end.
  assert (D : default_vehicle p).
  { unfold default_vehicle, p. cbn. unfold delta_max_of_deg. repeat split; lra. }
  assert (Dt : 0 <= p_dt p <= 1 / 4) by (unfold p; cbn; lra).
  split; [discriminate|].
  destruct (l_C58_default_vehicle_and_discs p (mkCircle 0 0 1) D Dt) as (A1 & A2 & _ & _); [cbn; lra|].
  split; [exact A1|]. split; [exact A2|].
  intros c Hc.
  assert (Hr : 1 <= c_r c).
  { cbn in Hc. repeat match type of Hc with
        | False => contradiction
        | _ => destruct Hc as [<-|Hc]; [cbn; lra|]
        end. }
  apply (l_C58_default_vehicle_and_discs p c D Dt Hr).
Qed.

(** ** A small disc is driven over *)
Definition ex_small : tt_self := mkTTSelf default_params [mkCircle (42/10) 0 (5/100)] [] (mkTT 0 0 0 0).
(** C58 fails without the size condition: with both shields on, the default tractor-trailer facing a
    post of 5 cm radius drives over it in one accepted full-speed step; it then stands on the post and
    every later check still reports it clear. *)
Lemma l_C58_small_disc_refuted :
  exists (s : tt_self) (q : ttq) (u : act) (c : circle),
  p_proj (ts_p s) = false /\ p_guid (ts_p s) = false /\ p_sh_coll (ts_p s) = true /\ p_sh_hitch (ts_p s) = true /\
  default_vehicle (ts_p s) /\ ts_circ s = [c] /\ c_r c = (5/100) /\
  tt_off_disc (ts_p s) c q /\ tt_safe (ts_p s) (ts_circ s) (ts_rect s) q /\
  forall proj guide, let q' := st_q (tt_step s proj guide (reset_state q) u) in
    solid (tractor_body (ts_p s) (t_px q') (t_py q') (t_th1 q')) (c_x c, c_y c) /\
    tt_safe (ts_p s) (ts_circ s) (ts_rect s) q'.
Proof.
  set (c := mkCircle (42/10) 0 (5/100)).
  exists ex_small, (mkTT 0 0 0 0), (1, 0), c.
  assert (Sz : tt_sized (ts_p ex_small)) by (unfold tt_sized, tractor_sized, ex_small, default_params; cbn; lra).
  assert (Pl : tt_plain default_params (mkTT 0 0 0 0) (1, 0) = mkTT (6/10) 0 0 0).
  { unfold tt_plain. cbn [fst snd t_px t_py t_th1 t_th2 default_params p_vmax p_dmax p_dt p_l1 p_l2 p_lh].
    rewrite !Rmult_0_l, tan_0, Rminus_0_r, sin_0, cos_0. f_equal; field. }
  assert (Far : forall P r, 0 <= r -> (fst P <= (42/10) - r - (1/100) \/ (42/10) + r + (1/100) <= fst P \/ snd P <= - r - (1/100) \/ r + (1/100) <= snd P) -> r < SpecGeom.dist P ((42/10), 0)).
  { intros [x y] r Hr H. apply Rnot_le_lt. intros Hd. apply dist_le_iff in Hd; auto. unfold dist2 in Hd; cbn [fst snd] in *.
    pose proof (sq_nonneg (x - (42/10))) as S1. pose proof (sq_nonneg (y - 0)) as S2.
    assert (Sq : forall z, r + (1/100) <= z -> r * r < z * z) by (intros z Hz; apply Rmult_le_0_lt_compat; lra).
    destruct H as [H|[H|[H|H]]].
    - pose proof (Sq ((42/10) - x) ltac:(lra)) as S3. replace (((42/10) - x) * ((42/10) - x)) with ((x - (42/10)) * (x - (42/10))) in S3 by ring. lra.
    - pose proof (Sq (x - (42/10)) ltac:(lra)). lra.
    - pose proof (Sq (0 - y) ltac:(lra)) as S3. replace ((0 - y) * (0 - y)) with ((y - 0) * (y - 0)) in S3 by ring. lra.
    - pose proof (Sq (y - 0) ltac:(lra)). lra. }
  assert (Off : tt_off_disc default_params c (mkTT 0 0 0 0)).
  { intros g [<-|[<-|[]]] P (a & b & Ha & Hb & ->); unfold c; cbn [c_r c_x c_y]; apply Far; try lra;
      unfold tractor_body, trailer_body, at_frame, ahead, default_params in *;
      cbn [rg_org rg_ang rg_back rg_front rg_half fst snd t_px t_py t_th1 t_th2 p_lr p_l1 p_lf1 p_trac_w p_lh p_l2 p_lf2 p_lr2 p_trail_w] in *;
      rewrite cos_0, sin_0; left; lra. }
  assert (Safe : forall x, (x = 0 \/ x = (6/10)) -> tt_safe default_params [c] [] (mkTT x 0 0 0)).
  { intros x Hx. split; [split; [|intros g o _ []]|].
    - intros g c' Hg [<-|[]] P (a & b & Ha & Hb & Hor & ->). unfold c; cbn [c_r c_x c_y]. apply Far; [lra|].
      destruct Hg as [<-|[<-|[]]]; unfold tractor_body, trailer_body, at_frame, ahead, default_params in *;
      cbn [rg_org rg_ang rg_back rg_front rg_half fst snd t_px t_py t_th1 t_th2 p_lr p_l1 p_lf1 p_trac_w p_lh p_l2 p_lf2 p_lr2 p_trail_w] in *;
      rewrite cos_0, sin_0.
      + destruct Hx as [->| ->]; [left; lra|]. destruct Hor as [->|[->|[->| ->]]]; lra.
      + left. lra.
    - apply hitch_ok_same. apply default_phi_pos. }
  repeat (split; [reflexivity|]).
  split; [unfold default_vehicle, ex_small, default_params, delta_max_of_deg; cbn; repeat split; lra|].
  split; [reflexivity|]. split; [reflexivity|]. split; [exact Off|]. split; [apply Safe; auto|].
  intros proj guide q'.
  assert (Eq : q' = mkTT (6/10) 0 0 0).
  { unfold q', tt_step. rewrite tt_step_shield by reflexivity. cbn [st_q st_bak reset_state where_].
    assert (Ec : clip_act (1, 0) = (1, 0)) by (apply clip_act_id; cbn; lra). rewrite Ec. change (ts_p ex_small) with default_params. rewrite Pl.
    assert (B : tt_bad ex_small (mkTT (6/10) 0 0 0) = false).
    { unfold tt_bad, enabled_bad. apply orb_false_iff. split; apply andb_false_iff; right.
      - apply tt_clear_coll_false; auto; [split; [intros c' [<-|[]]; cbn; lra|intros o []]|]. apply Safe; auto.
      - apply tt_hitch_iff. apply Safe; auto. }
    rewrite B. reflexivity. }
  rewrite Eq. split; [|apply Safe; auto].
  exists (36/10), 0. unfold tractor_body, at_frame, ex_small, default_params, c; cbn. rewrite cos_0, sin_0. repeat split; try lra. f_equal; lra.
Qed.

(** The hypotheses of the trajectory theorems are met by the default goal pose of the default lot
    (a real start for leaving the space): it is off every disc of the lot. *)
Lemma x_C58_default_goal_off_discs :
  exists r q, get_env (default_env_args "tt2d" "parking" 1) = Ok r /\ p_proj (rb_p r) = false /\ p_guid (rb_p r) = false /\
    p_sh_coll (rb_p r) = true /\ (forall c, In c (rb_circ r) -> tt_off_disc (rb_p r) c q).
Proof.
  set (gx := - (8 * (35/10)) / 2 + (2 + 1/2) * (35/10)). set (gy := - (32) / 2 + 4 + (0 + 1/2) * 7).
  assert (Gx : gx = -525/100) by (unfold gx; lra). assert (Gy : gy = -85/10) by (unfold gy; lra).
  eexists. exists (mkTT gx gy (- PI / 2) (- PI / 2)). split; [reflexivity|]. cbn [rb_circ rb_p]. repeat (split; [reflexivity|]).
  intros c Hc g Hg P HP.
  assert (L : Forall lane (tt_bodies (params_of (kwargs (default_env_args "tt2d" "parking" 1)) 1) (mkTT gx gy (- PI / 2) (- PI / 2)))).
  { unfold tt_bodies. cbn [t_px t_py t_th1 t_th2 rb_p]. rewrite Gx, Gy. all_tac; down_tac. }
  rewrite Forall_forall in L. destruct (L g Hg P HP) as [Hx Hy].
  assert (Hcx : (c_x c <= -85/10 \/ -2 <= c_x c) /\ c_r c = 1).
  { cbn in Hc. repeat match type of Hc with
      | False => contradiction
      | _ => destruct Hc as [<-|Hc]; [cbn; lra|]
      end. }
  destruct (Rlt_le_dec (c_r c) (SpecGeom.dist P (c_x c, c_y c))) as [G|G]; [exact G|exfalso].
  apply disc_box in G. cbn [fst snd] in G. lra.
Qed.

(** The hypotheses of the N-trailer theorems are met by the default rig of two trailers and a disc of
    1.3 m radius 10 m to its left. *)
Definition ex_rig : nt_self := mkNTSelf ex_ntp (nt_default_lengths ex_ntp) (nt_default_front ex_ntp) (nt_default_rear ex_ntp)
   [mkCircle 0 10 (13/10)] [] (mkNT 0 0 PI [PI; PI]).
Lemma x_C58_nt_hypotheses_example :
  p_guid (ns_p ex_rig) = false /\ p_sh_coll (ns_p ex_rig) = true /\ proper_rig ex_rig /\ nt_sized ex_rig /\
  nt_too_large ex_rig (mkCircle 0 10 (13/10)) /\ nt_off_disc ex_rig (mkCircle 0 10 (13/10)) (mkNT 0 0 0 [0; 0]).
Proof.
  split; [reflexivity|]. split; [reflexivity|]. split; [|split; [|split]].
  - unfold proper_rig, proper_tractor. pose proof PI_RGT_0.
    unfold ex_rig, ex_ntp, default_params, delta_max_of_deg; cbn. repeat split; try lra.
    + intros L HL. repeat (destruct HL as [<-|HL]; [lra|]). destruct HL.
    + intros L HL. repeat (destruct HL as [<-|HL]; [lra|]). destruct HL.
  - unfold nt_sized, tractor_sized, ex_rig, ex_ntp, default_params; cbn. repeat split; try lra.
    intros [|[|i]] Hi; try lia; cbn; lra.
  - unfold nt_too_large, ex_rig. cbn [ns_p ns_len ns_front ns_rear c_r]. split; [lra|]. split.
    + left. unfold ex_ntp, default_params; cbn. lra.
    + cbn -[sqrt Rmult Rplus Rdiv tan]. repeat split; left; cbn; lra.
  - intros g Hg P (a & b & Ha & Hb & ->). cbn [c_r c_x c_y]. apply Rnot_le_lt. intros Hd. apply disc_box in Hd. cbn [fst snd] in Hd.
    unfold nt_bodies, ex_rig, ex_ntp, default_params in Hg. cbn in Hg.
    destruct Hg as [<-|[<-|[<-|[]]]]; cbn in Ha, Hb, Hd; rewrite ?sin_0, ?cos_0 in Hd; lra.
Qed.
