(** * ProofsTight: properties found missing by seeded faults (C34, C41, C42, C62). *)
From Coq Require Import String.
From Verif Require Import Base BaseFacts Params Geom TT2d Bicycle NTrailer Acc Rollout Instances EnvModel Demo Config Guidance Stats Harness Setup Cache CacheInst Anim Bench Planner
  SpecGeom SpecBodies SpecAcc SpecGuid SpecStats SpecConfig SpecEnv SpecTight ProofsGeom ProofsBodies ProofsRobots ProofsConfig ProofsGuid ProofsStats ProofsBench SpecAnim SpecBench SpecGeom.
From Verif Require ProofsStep SpecReward.
Local Open Scope string_scope.
Local Open Scope list_scope.
Open Scope R_scope.

(** ** Guidance pushes the vehicle away *)
Lemma lin_deriv a b : derivable_pt_lim (fun h => a + b * h) 0 b.
Proof.
  pose proof (derivable_pt_lim_plus (fun _ => a) (fun h => b * h) 0 0 b (derivable_pt_lim_const a 0)) as H.
  replace (0 + b) with b in H by ring. apply H.
  pose proof (derivable_pt_lim_scal id b 0 1 (derivable_pt_lim_id 0)) as H'. rewrite Rmult_1_r in H'. exact H'.
Qed.
Lemma deriv_near_eq f g d : near (fun h => f h = g h) -> derivable_pt_lim g 0 d -> derivable_pt_lim f 0 d.
Proof.
  intros (e & He & A) D eps Hp. destruct (D eps Hp) as [del Hd]. assert (P : 0 < Rmin e del) by (apply Rmin_glb_lt; [exact He|apply cond_pos]).
  exists (mkposreal _ P). intros h H0 Hh. cbn in Hh. pose proof (Rmin_l e del). pose proof (Rmin_r e del).
  specialize (Hd h H0 ltac:(lra)). rewrite Rplus_0_l in *. rewrite (A h) by lra. rewrite (A 0) by (rewrite Rabs_R0; lra). exact Hd.
Qed.
Lemma pen_deriv : forall c x y a b, 0 < dist (x, y) (c_x c, c_y c) -> 0 < shortfall c (x, y) ->
  derivable_pt_lim (fun h => circle_penalty (x + a * h, y + b * h) c) 0
    (2 * shortfall c (x, y) * - ((a * (x - c_x c) + b * (y - c_y c)) / dist (x, y) (c_x c, c_y c))).
Proof.
  intros c x y a b HD HS. set (u := x - c_x c). set (v := y - c_y c). set (K := c_r c + 2).
  set (g := fun h => (u + a * h) * (u + a * h) + (v + b * h) * (v + b * h)).
  assert (G : forall h, dist (x + a * h, y + b * h) (c_x c, c_y c) = sqrt (g h)).
  { intros h. unfold dist, dist2, g, u, v. cbn [fst snd]. f_equal. ring. }
  assert (G0 : dist (x, y) (c_x c, c_y c) = sqrt (g 0)).
  { rewrite <- G. unfold dist, dist2. cbn [fst snd]. f_equal. ring. }
  assert (P0 : 0 < g 0).
  { rewrite G0 in HD. destruct (Rlt_le_dec 0 (g 0)) as [H|H]; [exact H|]. rewrite sqrt_neg_0 in HD by exact H. lra. }
  assert (DG : derivable_pt_lim g 0 (a * (u + a * 0) + (u + a * 0) * a + (b * (v + b * 0) + (v + b * 0) * b))).
  { apply (derivable_pt_lim_plus (fun h => (u + a * h) * (u + a * h)) (fun h => (v + b * h) * (v + b * h)));
      [apply (derivable_pt_lim_mult (fun h => u + a * h) (fun h => u + a * h))|apply (derivable_pt_lim_mult (fun h => v + b * h) (fun h => v + b * h))]; apply lin_deriv. }
  assert (DS : derivable_pt_lim (fun h => sqrt (g h)) 0 (/ (2 * sqrt (g 0)) * (a * (u + a * 0) + (u + a * 0) * a + (b * (v + b * 0) + (v + b * 0) * b)))).
  { apply (derivable_pt_lim_comp g sqrt); [exact DG|]. apply derivable_pt_lim_sqrt. exact P0. }
  assert (DK : derivable_pt_lim (fun h => K - sqrt (g h)) 0 (0 - / (2 * sqrt (g 0)) * (a * (u + a * 0) + (u + a * 0) * a + (b * (v + b * 0) + (v + b * 0) * b)))).
  { apply (derivable_pt_lim_minus (fun _ => K) (fun h => sqrt (g h))); [apply derivable_pt_lim_const|exact DS]. }
  pose proof (derivable_pt_lim_mult _ _ _ _ _ DK DK) as DM. unfold mult_fct in DM. cbv beta in DM.
  apply (deriv_near_eq _ (fun h => (K - sqrt (g h)) * (K - sqrt (g h)))).
  - apply (near_impl (fun h => 0 < K - sqrt (g h))).
    + intros h H. unfold circle_penalty. change (pnorm (psub ?p ?q)) with (dist p q). rewrite G. unfold hinge_sq. fold K. rewrite Rmax_right by lra. reflexivity.
    + apply (near_lt (fun h => K - sqrt (g h))); [|unfold shortfall in HS; rewrite G0 in HS; exact HS].
      apply derivable_continuous_pt. eexists. exact DK.
  - unfold shortfall. rewrite G0. fold K u v. assert (Q : 0 < sqrt (g 0)) by (apply sqrt_lt_R0; exact P0).
    match goal with |- derivable_pt_lim _ _ ?e => match type of DM with derivable_pt_lim _ _ ?f => replace e with f; [exact DM|] end end.
    set (q := sqrt (g 0)) in *. clearbody q. field. lra.
Qed.
Lemma pen_zero : forall k P, shortfall k P <= 0 -> circle_penalty P k = 0.
Proof. intros k P H. unfold circle_penalty. apply hinge_zero. exact H. Qed.

(** Geometry of one push: distance, shortfall and isolation afterwards. *)
Lemma pushed_dist : forall c d P, 0 < dist P (c_x c, c_y c) -> 0 <= d -> dist (pushed_to c d P) (c_x c, c_y c) = d.
Proof.
  intros c d P H Hd. set (r := dist P (c_x c, c_y c)) in *. unfold pushed_to. fold r. unfold dist, dist2. cbn [fst snd].
  assert (E : (fst P - c_x c) * (fst P - c_x c) + (snd P - c_y c) * (snd P - c_y c) = r * r).
  { unfold r, dist. rewrite sqrt_sqrt; [unfold dist2; cbn [fst snd]; ring|]. unfold dist2. pose proof (sq_nonneg (fst P - c_x c)). pose proof (sq_nonneg (snd P - c_y c)). cbn [fst snd]. lra. }
  match goal with |- sqrt ?e = _ => replace e with (d / r * (d / r) * ((fst P - c_x c) * (fst P - c_x c) + (snd P - c_y c) * (snd P - c_y c))) by ring end.
  rewrite E. replace (d / r * (d / r) * (r * r)) with (d * d) by (field; lra). apply sqrt_square. exact Hd.
Qed.
Lemma pushed_pushed : forall c d e P, 0 < dist P (c_x c, c_y c) -> 0 < d -> pushed_to c e (pushed_to c d P) = pushed_to c e P.
Proof.
  intros c d e P H Hd. unfold pushed_to at 1. rewrite pushed_dist by lra. unfold pushed_to. cbn [fst snd]. f_equal; field; lra.
Qed.
Lemma pushed_moves : forall c d P, 0 < dist P (c_x c, c_y c) -> dist P (c_x c, c_y c) <= d ->
  dist (pushed_to c d P) P = d - dist P (c_x c, c_y c).
Proof.
  intros c d P H Hd. set (r := dist P (c_x c, c_y c)) in *. unfold pushed_to. fold r. unfold dist, dist2. cbn [fst snd].
  assert (E : (fst P - c_x c) * (fst P - c_x c) + (snd P - c_y c) * (snd P - c_y c) = r * r).
  { unfold r, dist. rewrite sqrt_sqrt; [unfold dist2; cbn [fst snd]; ring|]. unfold dist2. pose proof (sq_nonneg (fst P - c_x c)). pose proof (sq_nonneg (snd P - c_y c)). cbn [fst snd]. lra. }
  match goal with |- sqrt ?e = _ => replace e with ((d / r - 1) * (d / r - 1) * ((fst P - c_x c) * (fst P - c_x c) + (snd P - c_y c) * (snd P - c_y c))) by ring end.
  rewrite E. replace ((d / r - 1) * (d / r - 1) * (r * r)) with ((d - r) * (d - r)) by (field; lra). apply sqrt_square. lra.
Qed.
Lemma dist_sym0 P Q : dist P Q = dist Q P.
Proof. unfold dist, dist2. f_equal. ring. Qed.
Lemma coord_dist : forall P Q, Rabs (fst P - fst Q) <= dist P Q /\ Rabs (snd P - snd Q) <= dist P Q.
Proof.
  intros P Q. unfold dist, dist2. split; rewrite <- (sqrt_Rsqr_abs); apply sqrt_le_1_alt; unfold Rsqr;
    [pose proof (sq_nonneg (snd P - snd Q))|pose proof (sq_nonneg (fst P - fst Q))]; lra.
Qed.
Lemma alone_kept : forall c others d P, alone_with c others P -> dist P (c_x c, c_y c) <= d < c_r c + 2 -> alone_with c others (pushed_to c d P).
Proof.
  intros c others d P (A1 & A2 & A3 & A4 & A5) [D1 D2]. unfold alone_with, shortfall in *. rewrite pushed_dist by lra.
  pose proof (pushed_moves c d P A1 D1) as M. pose proof (coord_dist (pushed_to c d P) P) as [X Y].
  split; [lra|]. split; [lra|]. split; [|split].
  - intros k Hk. specialize (A3 k Hk). pose proof (ProofsStep.dist_triangle P (pushed_to c d P) (c_x k, c_y k)) as T.
    rewrite (dist_sym0 P (pushed_to c d P)) in T. lra.
  - pose proof (Rabs_triang (fst P) (fst (pushed_to c d P) - fst P)) as T. replace (fst P + (fst (pushed_to c d P) - fst P)) with (fst (pushed_to c d P)) in T by ring. lra.
  - pose proof (Rabs_triang (snd P) (snd (pushed_to c d P) - snd P)) as T. replace (snd P + (snd (pushed_to c d P) - snd P)) with (snd (pushed_to c d P)) in T by ring. lra.
Qed.

(** *** One descent step *)
Lemma Rabs_def2_le : forall x a, Rabs x <= a -> - a <= x <= a.
Proof. intros x a H. unfold Rabs in H. destruct (Rcase_abs x); lra. Qed.
Lemma sum_one : forall (f : circle -> R) l1 c l2, (forall k, In k (l1 ++ l2) -> f k = 0) -> Rsum (map f (l1 ++ c :: l2)) = f c.
Proof.
  intros f l1 c l2 H. rewrite map_app, Rsum_app. cbn [map Rsum].
  assert (Z : forall l, (forall k, In k l -> f k = 0) -> Rsum (map f l) = 0).
  { induction l as [|k l IH]; intros A; [reflexivity|]. cbn [map Rsum]. rewrite (A k), IH; [ring|intros; apply A; right; assumption|left; reflexivity]. }
  rewrite (Z l1), (Z l2); [ring| |]; intros k Hk; apply H, in_or_app; auto.
Qed.
Lemma far_near : forall k P a b, shortfall k P < 0 -> near (fun h => shortfall k (fst P + a * h, snd P + b * h) < 0).
Proof.
  intros k P a b H. apply (near_gt (fun h => shortfall k (fst P + a * h, snd P + b * h))).
  - unfold shortfall, dist, dist2. cbn [fst snd]. apply cont_minus; [apply cont_const|]. apply cont_sqrt_sq; apply cont_minus; apply cont_lin || apply cont_const.
  - rewrite !Rmult_0_r, !Rplus_0_r. destruct P; exact H.
Qed.
Lemma alone_cost_near : forall c l1 l2 P a b, alone_with c (l1 ++ l2) P ->
  near (fun h => Rsum (map (circle_penalty (fst P + a * h, snd P + b * h)) (l1 ++ c :: l2)) = circle_penalty (fst P + a * h, snd P + b * h) c).
Proof.
  intros c l1 l2 P a b (A1 & A2 & A3 & _).
  apply (near_impl (fun h => forall k, In k (l1 ++ l2) -> shortfall k (fst P + a * h, snd P + b * h) < 0)).
  - intros h H. apply sum_one. intros k Hk. apply pen_zero. specialize (H k Hk). lra.
  - apply near_all. intros k Hk. apply far_near. specialize (A3 k Hk). lra.
Qed.
Definition push_step (c : circle) (P : point) : point := pushed_to c (dist P (c_x c, c_y c) + shortfall c P / 10) P.
Lemma step_is_push : forall c others x y, alone_with c others (x, y) ->
  let g a b := 2 * shortfall c (x, y) * - ((a * (x - c_x c) + b * (y - c_y c)) / dist (x, y) (c_x c, c_y c)) in
  (clip_pos (x - 5/100 * g 1 0), clip_pos (y - 5/100 * g 0 1)) = push_step c (x, y).
Proof.
  intros c others x y A. cbv zeta. pose proof A as (A1 & A2 & _).
  assert (E : (x - 5/100 * (2 * shortfall c (x, y) * - ((1 * (x - c_x c) + 0 * (y - c_y c)) / dist (x, y) (c_x c, c_y c))),
               y - 5/100 * (2 * shortfall c (x, y) * - ((0 * (x - c_x c) + 1 * (y - c_y c)) / dist (x, y) (c_x c, c_y c)))) = push_step c (x, y)).
  { unfold push_step, pushed_to. cbn [fst snd]. set (d := dist (x, y) (c_x c, c_y c)) in *. set (m := shortfall c (x, y)). clearbody d m. f_equal; field; lra. }
  assert (D : dist (x, y) (c_x c, c_y c) <= dist (x, y) (c_x c, c_y c) + shortfall c (x, y) / 10 < c_r c + 2) by (unfold shortfall in *; lra).
  pose proof (alone_kept c others _ (x, y) A D) as (B1 & B2 & _ & B4 & B5). fold (push_step c (x, y)) in *. rewrite <- E in B1, B2, B4, B5 |- *. cbn [fst snd] in *.
  rewrite !clip_pos_id; [reflexivity| |]; unfold pos_ok; apply Rabs_def2_le; lra.
Qed.
Lemma bk_push_step : forall s grad q c l1 l2, is_gradient_bk (bk_guidance_cost s) grad -> bs_circ s = l1 ++ c :: l2 ->
  alone_with c (l1 ++ l2) (b_px q, b_py q) -> ang_ok (b_th q) ->
  let P := push_step c (b_px q, b_py q) in bk_guidance_step grad (5/100) q = mkBK (fst P) (snd P) (b_th q).
Proof.
  intros s grad q c l1 l2 G HC A AN. cbv zeta. pose proof A as (A1 & A2 & _).
  assert (K : forall a b, derivable_pt_lim (fun h => bk_guidance_cost s (mkBK (b_px q + a * h) (b_py q + b * h) (b_th q))) 0
     (2 * shortfall c (b_px q, b_py q) * - ((a * (b_px q - c_x c) + b * (b_py q - c_y c)) / dist (b_px q, b_py q) (c_x c, c_y c)))).
  { intros a b. apply (deriv_near_eq _ (fun h => circle_penalty (b_px q + a * h, b_py q + b * h) c)); [|apply pen_deriv; assumption].
    unfold bk_guidance_cost. rewrite HC. cbn [b_px b_py]. exact (alone_cost_near c l1 l2 (b_px q, b_py q) a b A). }
  assert (E1 : b_px (grad q) = 2 * shortfall c (b_px q, b_py q) * - ((1 * (b_px q - c_x c) + 0 * (b_py q - c_y c)) / dist (b_px q, b_py q) (c_x c, c_y c))).
  { apply (G q). eapply deriv_near_eq; [|apply (K 1 0)]. exists 1. split; [lra|]. intros h _. cbv beta. rewrite Rmult_1_l, Rmult_0_l, Rplus_0_r. reflexivity. }
  assert (E2 : b_py (grad q) = 2 * shortfall c (b_px q, b_py q) * - ((0 * (b_px q - c_x c) + 1 * (b_py q - c_y c)) / dist (b_px q, b_py q) (c_x c, c_y c))).
  { apply (G q). eapply deriv_near_eq; [|apply (K 0 1)]. exists 1. split; [lra|]. intros h _. cbv beta. rewrite Rmult_1_l, Rmult_0_l, Rplus_0_r. reflexivity. }
  assert (E3 : b_th (grad q) = 0).
  { apply (G q). unfold bk_guidance_cost. cbn [b_px b_py]. apply derivable_pt_lim_const. }
  unfold bk_guidance_step. rewrite E1, E2, E3. rewrite Rmult_0_r, Rminus_0_r, clip_ang_id by exact AN.
  pose proof (step_is_push c (l1 ++ l2) (b_px q) (b_py q) A) as S. cbv zeta in S. rewrite <- S. reflexivity.
Qed.
Lemma push_step_alone : forall c others P, alone_with c others P -> alone_with c others (push_step c P) /\
  shortfall c (push_step c P) = 9/10 * shortfall c P /\ forall e, pushed_to c e (push_step c P) = pushed_to c e P.
Proof.
  intros c others P A. pose proof A as (A1 & A2 & _).
  assert (D : dist P (c_x c, c_y c) <= dist P (c_x c, c_y c) + shortfall c P / 10 < c_r c + 2) by (unfold shortfall in *; lra).
  split; [apply alone_kept; assumption|]. split.
  - unfold shortfall at 1. unfold push_step. rewrite pushed_dist by lra. unfold shortfall. lra.
  - intros e. apply pushed_pushed; lra.
Qed.
Lemma three_pushes : forall c others P, alone_with c others P ->
  push_step c (push_step c (push_step c P)) = pushed_to c (c_r c + 2 - 729/1000 * shortfall c P) P.
Proof.
  intros c others P A. destruct (push_step_alone c others P A) as (A1 & S1 & E1). destruct (push_step_alone c others _ A1) as (A2 & S2 & E2).
  unfold push_step at 1. rewrite E2, E1. f_equal. unfold shortfall at 1. unfold shortfall in S1, S2 |- *. lra.
Qed.
(** C41: a car whose rear axle is closer than 2 m to exactly one post is moved straight away from it, by 0.271 of what
    is missing to 2 m; its heading stays. *)
Lemma l_C41_bk_pushed_away :
  forall s grad q c l1 l2, p_guid (bs_p s) = true -> is_gradient_bk (bk_guidance_cost s) grad -> bs_circ s = l1 ++ c :: l2 ->
  alone_with c (l1 ++ l2) (b_px q, b_py q) -> ang_ok (b_th q) ->
  let axle := (b_px q, b_py q) in
  let moved := pushed_to c (dist axle (c_x c, c_y c) + 271/1000 * shortfall c axle) axle in
  bk_guide s grad q = mkBK (fst moved) (snd moved) (b_th q) /\
  dist moved (c_x c, c_y c) = dist axle (c_x c, c_y c) + 271/1000 * shortfall c axle.
Proof.
  intros s grad q c l1 l2 GD G HC A AN. cbv zeta. pose proof A as (A1 & A2 & _).
  split; [|apply pushed_dist; lra]. unfold bk_guide. rewrite GD. cbn [negb].
  change (Nat.iter 3 (bk_guidance_step grad (5/100)) q) with (bk_guidance_step grad (5/100) (bk_guidance_step grad (5/100) (bk_guidance_step grad (5/100) q))).
  destruct (push_step_alone c _ _ A) as (B1 & _). destruct (push_step_alone c _ _ B1) as (B2 & _).
  rewrite (bk_push_step s grad q c l1 l2 G HC A AN). set (q1 := mkBK _ _ _).
  assert (Q1 : (b_px q1, b_py q1) = push_step c (b_px q, b_py q)) by (unfold q1; cbn [b_px b_py]; symmetry; apply surjective_pairing).
  rewrite (bk_push_step s grad q1 c l1 l2 G HC) by (rewrite ?Q1; assumption). set (q2 := mkBK _ _ (b_th q1)).
  assert (Q2 : (b_px q2, b_py q2) = push_step c (push_step c (b_px q, b_py q))) by (unfold q2; cbn [b_px b_py]; rewrite <- surjective_pairing, Q1; reflexivity).
  rewrite (bk_push_step s grad q2 c l1 l2 G HC) by (rewrite ?Q2; assumption). rewrite Q2, (three_pushes c _ _ A). change (b_th q2) with (b_th q).
  replace (dist (b_px q, b_py q) (c_x c, c_y c) + 271 / 1000 * shortfall c (b_px q, b_py q)) with (c_r c + 2 - 729 / 1000 * shortfall c (b_px q, b_py q)) by (unfold shortfall; lra).
  reflexivity.
Qed.

(** The tractor-trailer: tractor axle close to one post only, trailer axle and hitch with room to spare. *)
Definition tt_alone (p : params) (circ others : list circle) (c : circle) (q : ttq) : Prop :=
  alone_with c others (tractor_axle q) /\ (forall k, In k circ -> shortfall k (trailer_axle p q) + shortfall c (tractor_axle q) < 0) /\
  (Rabs (t_th1 q - t_th2 q) < p_phi_max p \/ Rabs (t_th1 q - t_th2 q + 2 * PI) < p_phi_max p \/ Rabs (t_th1 q - t_th2 q - 2 * PI) < p_phi_max p) /\
  ang_ok (t_th1 q) /\ ang_ok (t_th2 q).
Lemma tt_one_cost : forall s c l1 l2 x, ts_circ s = l1 ++ c :: l2 ->
  (forall k, In k (l1 ++ l2) -> shortfall k (tractor_axle x) < 0) -> (forall k, In k (ts_circ s) -> shortfall k (trailer_axle (ts_p s) x) < 0) ->
  (Rabs (t_th1 x - t_th2 x) < p_phi_max (ts_p s) \/ Rabs (t_th1 x - t_th2 x + 2 * PI) < p_phi_max (ts_p s) \/ Rabs (t_th1 x - t_th2 x - 2 * PI) < p_phi_max (ts_p s)) ->
  tt_guidance_cost s x = circle_penalty (tractor_axle x) c.
Proof.
  intros s c l1 l2 x HC H1 H2 H3.
  (* the cost with no post is the hitch part, which is zero *)
  assert (Z : tt_guidance_cost (mkTTSelf (ts_p s) [] (repeat (mkRect 0 0 1 1 0) (length (ts_circ s) + length (ts_rect s))) (ts_xg s)) x = 0).
  { apply l_C41_tt_cost_zero_iff. split; [intros k []|]. cbn [ts_p]. destruct H3 as [H|[H|H]]; lra. }
  unfold tt_guidance_cost in Z |- *. cbn [ts_p ts_circ ts_rect map Rsum length] in Z. rewrite repeat_length in Z. cbn [Nat.add] in Z. cbv zeta in Z |- *.
  rewrite Rplus_0_l in Z. rewrite Z, Rplus_0_r. rewrite HC. rewrite (sum_one _ l1 c l2).
  - rewrite <- (trailer_axle_eq (ts_p s) x). rewrite (pen_zero c (trailer_axle _ _)); [unfold tractor_axle; ring|].
    specialize (H2 c ltac:(rewrite HC; apply in_elt)). lra.
  - intros k Hk. rewrite <- (trailer_axle_eq (ts_p s) x). rewrite !pen_zero; [ring| |].
    + specialize (H2 k). rewrite HC in H2. assert (I : In k (l1 ++ c :: l2)) by (apply in_app_or in Hk; apply in_or_app; cbn; tauto). specialize (H2 I). lra.
    + specialize (H1 k Hk). unfold tractor_axle in H1. lra.
Qed.
Lemma tt_alone_near : forall p circ others c q d, tt_alone p circ others c q -> near (fun h =>
  (forall k, In k others -> shortfall k (tractor_axle (line q d h)) < 0) /\ (forall k, In k circ -> shortfall k (trailer_axle p (line q d h)) < 0) /\
  (Rabs (t_th1 (line q d h) - t_th2 (line q d h)) < p_phi_max p \/ Rabs (t_th1 (line q d h) - t_th2 (line q d h) + 2 * PI) < p_phi_max p \/
   Rabs (t_th1 (line q d h) - t_th2 (line q d h) - 2 * PI) < p_phi_max p)).
Proof.
  intros p circ others c q d ((A1 & A2 & A3 & _) & T & B & _). apply near_and; [|apply near_and].
  - apply near_all. intros k Hk. specialize (A3 k Hk). apply (near_gt (fun h => shortfall k (tractor_axle (line q d h)))); [|rewrite line_0; lra].
    unfold shortfall, dist, dist2, tractor_axle, line; cbn [fst snd t_px t_py]. apply cont_minus; [apply cont_const|]. apply cont_sqrt_sq; apply cont_minus; apply cont_lin || apply cont_const.
  - apply near_all. intros k Hk. specialize (T k Hk). apply (near_gt (fun h => shortfall k (trailer_axle p (line q d h)))); [|rewrite line_0; lra].
    unfold shortfall, dist, dist2, trailer_axle, ahead, line; cbn [fst snd t_px t_py t_th1 t_th2]. apply cont_minus; [apply cont_const|].
    apply cont_sqrt_sq; repeat first [apply cont_const | apply cont_lin | apply cont_minus | apply cont_plus | apply cont_scal | apply cont_cos | apply cont_sin].
  - (* only the hitch part of roomy *)
    apply (near_impl (fun h => roomy p [] (line q d h))); [intros h [_ H]; exact H|]. apply roomy_near. split; [intros k []|exact B].
Qed.
Lemma tt_push_step : forall s grad q c l1 l2, is_gradient (tt_guidance_cost s) grad -> ts_circ s = l1 ++ c :: l2 ->
  tt_alone (ts_p s) (ts_circ s) (l1 ++ l2) c q ->
  let P := push_step c (tractor_axle q) in tt_guidance_step grad (5/100) q = mkTT (fst P) (snd P) (t_th1 q) (t_th2 q).
Proof.
  intros s grad q c l1 l2 G HC TA. cbv zeta. pose proof TA as (A & _ & _ & AN1 & AN2). pose proof A as (A1 & A2 & _).
  assert (K : forall d, near (fun h => tt_guidance_cost s (line q d h) = circle_penalty (t_px q + t_px d * h, t_py q + t_py d * h) c)).
  { intros d. eapply near_impl; [|exact (tt_alone_near _ _ _ _ _ d TA)]. cbv beta. intros h (H1 & H2 & H3). rewrite (tt_one_cost s c l1 l2) by assumption. reflexivity. }
  assert (E : forall a b c e a' b' c' e', a = a' -> b = b' -> c = c' -> e = e' -> mkTT a b c e = mkTT a' b' c' e') by (intros; subst; reflexivity).
  unfold tractor_axle in *.
  assert (E1 : t_px (grad q) = 2 * shortfall c (t_px q, t_py q) * - ((1 * (t_px q - c_x c) + 0 * (t_py q - c_y c)) / dist (t_px q, t_py q) (c_x c, c_y c))).
  { apply (G q). eapply deriv_near_eq; [|apply (pen_deriv c (t_px q) (t_py q) 1 0); assumption]. eapply near_impl; [|exact (K (mkTT 1 0 0 0))]. cbv beta. intros h H.
    cbn [t_px t_py] in H. rewrite <- H. unfold line. cbn [t_px t_py t_th1 t_th2]. f_equal. apply E; ring. }
  assert (E2 : t_py (grad q) = 2 * shortfall c (t_px q, t_py q) * - ((0 * (t_px q - c_x c) + 1 * (t_py q - c_y c)) / dist (t_px q, t_py q) (c_x c, c_y c))).
  { apply (G q). eapply deriv_near_eq; [|apply (pen_deriv c (t_px q) (t_py q) 0 1); assumption]. eapply near_impl; [|exact (K (mkTT 0 1 0 0))]. cbv beta. intros h H.
    cbn [t_px t_py] in H. rewrite <- H. unfold line. cbn [t_px t_py t_th1 t_th2]. f_equal. apply E; ring. }
  assert (E3 : t_th1 (grad q) = 0).
  { apply (G q). apply (deriv_near_eq _ (fun _ => circle_penalty (t_px q, t_py q) c)); [|apply derivable_pt_lim_const]. eapply near_impl; [|exact (K (mkTT 0 0 1 0))]. cbv beta. intros h H.
    cbn [t_px t_py] in H. rewrite !Rmult_0_l, !Rplus_0_r in H. rewrite <- H. unfold line. cbn [t_px t_py t_th1 t_th2]. f_equal. apply E; ring. }
  assert (E4 : t_th2 (grad q) = 0).
  { apply (G q). apply (deriv_near_eq _ (fun _ => circle_penalty (t_px q, t_py q) c)); [|apply derivable_pt_lim_const]. eapply near_impl; [|exact (K (mkTT 0 0 0 1))]. cbv beta. intros h H.
    cbn [t_px t_py] in H. rewrite !Rmult_0_l, !Rplus_0_r in H. rewrite <- H. unfold line. cbn [t_px t_py t_th1 t_th2]. f_equal. apply E; ring. }
  unfold tt_guidance_step. rewrite E1, E2, E3, E4. rewrite !Rmult_0_r, !Rminus_0_r, !clip_ang_id by assumption.
  pose proof (step_is_push c (l1 ++ l2) (t_px q) (t_py q) A) as S. cbv zeta in S. rewrite <- S. reflexivity.
Qed.
Lemma trailer_shift : forall p q P, trailer_axle p (mkTT (fst P) (snd P) (t_th1 q) (t_th2 q)) =
  (fst (trailer_axle p q) + (fst P - t_px q), snd (trailer_axle p q) + (snd P - t_py q)).
Proof. intros p q P. rewrite !trailer_axle_eq. cbn [t_px t_py t_th1 t_th2 fst snd]. f_equal; ring. Qed.
Lemma tt_alone_step : forall p circ others c q, tt_alone p circ others c q ->
  let P := push_step c (tractor_axle q) in tt_alone p circ others c (mkTT (fst P) (snd P) (t_th1 q) (t_th2 q)).
Proof.
  intros p circ others c q (A & T & B & N1 & N2). cbv zeta. destruct (push_step_alone c others _ A) as (A' & S & _).
  unfold tt_alone. change (tractor_axle (mkTT (fst ?P) (snd ?P) _ _)) with (fst P, snd P). rewrite <- surjective_pairing.
  split; [exact A'|]. split; [|auto]. intros k Hk. specialize (T k Hk). rewrite S. rewrite trailer_shift. set (P := push_step c (tractor_axle q)) in *.
  set (V := (fst (trailer_axle p q) + (fst P - t_px q), snd (trailer_axle p q) + (snd P - t_py q))).
  pose proof (ProofsStep.dist_triangle (trailer_axle p q) V (c_x k, c_y k)) as TR.
  assert (DV : dist (trailer_axle p q) V = dist P (tractor_axle q)).
  { unfold V, tractor_axle, dist, dist2. cbn [fst snd]. f_equal. ring. }
  rewrite DV in TR. pose proof A as (A1 & A2 & _). unfold P, push_step in TR. rewrite pushed_moves in TR by lra. unfold shortfall in *. lra.
Qed.
(** C41: a tractor-trailer whose tractor axle is closer than 2 m to exactly one post, with the trailer's axle and the
    hitch well clear, is shifted as a whole straight away from the post, by 0.271 of what is missing to 2 m. *)
Lemma l_C41_tt_pushed_away :
  forall s grad q c l1 l2, p_guid (ts_p s) = true -> is_gradient (tt_guidance_cost s) grad -> ts_circ s = l1 ++ c :: l2 ->
  let axle := tractor_axle q in
  alone_with c (l1 ++ l2) axle -> (forall k, In k (ts_circ s) -> shortfall k (trailer_axle (ts_p s) q) + shortfall c axle < 0) ->
  Rabs (t_th1 q - t_th2 q) < p_phi_max (ts_p s) -> ang_ok (t_th1 q) -> ang_ok (t_th2 q) ->
  let moved := pushed_to c (dist axle (c_x c, c_y c) + 271/1000 * shortfall c axle) axle in
  tt_guide s grad q = mkTT (fst moved) (snd moved) (t_th1 q) (t_th2 q) /\
  dist moved (c_x c, c_y c) = dist axle (c_x c, c_y c) + 271/1000 * shortfall c axle.
Proof.
  intros s grad q c l1 l2 GD G HC. cbv zeta. intros A T B N1 N2. pose proof A as (A1 & A2 & _).
  assert (TA : tt_alone (ts_p s) (ts_circ s) (l1 ++ l2) c q) by (unfold tt_alone; tauto).
  split; [|apply pushed_dist; lra]. unfold tt_guide, tt_apply_guidance_n. rewrite GD. cbn [negb].
  change (Nat.iter 3 (tt_guidance_step grad (5/100)) q) with (tt_guidance_step grad (5/100) (tt_guidance_step grad (5/100) (tt_guidance_step grad (5/100) q))).
  pose proof (tt_alone_step _ _ _ _ _ TA) as TA1. cbv zeta in TA1.
  rewrite (tt_push_step s grad q c l1 l2 G HC TA). cbv zeta. set (q1 := mkTT _ _ _ _) in *.
  assert (Q1 : tractor_axle q1 = push_step c (tractor_axle q)) by (unfold q1, tractor_axle at 1; cbn [t_px t_py]; symmetry; apply surjective_pairing).
  pose proof (tt_alone_step _ _ _ _ _ TA1) as TA2. cbv zeta in TA2.
  rewrite (tt_push_step s grad q1 c l1 l2 G HC TA1). cbv zeta. set (q2 := mkTT _ _ (t_th1 q1) _) in *.
  assert (Q2 : tractor_axle q2 = push_step c (push_step c (tractor_axle q))) by (unfold q2, tractor_axle at 1; cbn [t_px t_py]; rewrite <- surjective_pairing, Q1; reflexivity).
  rewrite (tt_push_step s grad q2 c l1 l2 G HC TA2). cbv zeta. rewrite Q2, (three_pushes c _ _ A). change (t_th1 q2) with (t_th1 q). change (t_th2 q2) with (t_th2 q).
  replace (dist (tractor_axle q) (c_x c, c_y c) + 271 / 1000 * shortfall c (tractor_axle q)) with (c_r c + 2 - 729 / 1000 * shortfall c (tractor_axle q)) by (unfold shortfall; lra).
  reflexivity.
Qed.

(** ** One step of guidance *)
Lemma clip_pos_desc : forall x g, descended (-100) 100 x g (clip_pos (x - 5/100 * g)).
Proof. intros. unfold descended, clip_pos, clip. do 2 f_equal. lra. Qed.
Lemma clip_ang_desc : forall x g, descended (- (2 * PI)) (2 * PI) x g (clip_ang (x - 5/100 * g)).
Proof. intros. unfold descended, clip_ang, clip. replace (-2 * PI) with (- (2 * PI)) by ring. do 2 f_equal. lra. Qed.
(** C41: guidance makes three steps of gradient descent with step size 0.05, cutting positions to +-100 m and angles to
    one turn after each. *)
Lemma l_C41_three_descents :
  (forall s grad q, p_guid (ts_p s) = true -> exists a b, tt_descends grad q a /\ tt_descends grad a b /\ tt_descends grad b (tt_guide s grad q)) /\
  (forall s grad q, p_guid (bs_p s) = true -> exists a b, bk_descends grad q a /\ bk_descends grad a b /\ bk_descends grad b (bk_guide s grad q)) /\
  (forall s grad q, p_guid (ns_p s) = true -> (forall x, length (n_ths (grad x)) = length (n_ths x)) ->
    exists a b, nt_descends grad q a /\ nt_descends grad a b /\ nt_descends grad b (nt_guide s grad q)) /\
  (forall s grad q, p_guid (as_p s) = true -> exists a b, tt_descends grad (a_q q) a /\ tt_descends grad a b /\
     tt_descends grad b (a_q (acc_guide s grad q)) /\ a_v (acc_guide s grad q) = a_v q /\ a_d (acc_guide s grad q) = a_d q).
Proof.
  assert (T : forall grad q, tt_descends grad q (tt_guidance_step grad (5/100) q)).
  { intros grad q. unfold tt_descends, tt_guidance_step. cbn [t_px t_py t_th1 t_th2]. auto using clip_pos_desc, clip_ang_desc. }
  assert (T3 : forall s grad q, p_guid (ts_p s) = true -> exists a b, tt_descends grad q a /\ tt_descends grad a b /\ tt_descends grad b (tt_guide s grad q)).
  { intros s grad q G. exists (tt_guidance_step grad (5/100) q), (tt_guidance_step grad (5/100) (tt_guidance_step grad (5/100) q)).
    split; [apply T|]. split; [apply T|]. unfold tt_guide, tt_apply_guidance_n. rewrite G. cbn [negb]. apply T. }
  split; [exact T3|]. split; [|split].
  - assert (B : forall grad q, bk_descends grad q (bk_guidance_step grad (5/100) q)).
    { intros grad q. unfold bk_descends, bk_guidance_step. cbn [b_px b_py b_th]. auto using clip_pos_desc, clip_ang_desc. }
    intros s grad q G. exists (bk_guidance_step grad (5/100) q), (bk_guidance_step grad (5/100) (bk_guidance_step grad (5/100) q)).
    split; [apply B|]. split; [apply B|]. unfold bk_guide. rewrite G. cbn [negb]. apply B.
  - intros s grad q G HL.
    assert (B : forall q, nt_descends grad q (nt_guidance_step grad (5/100) q)).
    { intros x. unfold nt_descends, nt_guidance_step. cbn [n_px n_py n_th0 n_ths].
      split; [apply clip_pos_desc|]. split; [apply clip_pos_desc|]. split; [apply clip_ang_desc|].
      split; [rewrite map2_length, HL; apply Nat.min_id|]. intros i Hi. rewrite (map2_nth _ _ _ i 0 0) by (rewrite ?HL; exact Hi). apply clip_ang_desc. }
    exists (nt_guidance_step grad (5/100) q), (nt_guidance_step grad (5/100) (nt_guidance_step grad (5/100) q)).
    split; [apply B|]. split; [apply B|]. unfold nt_guide. rewrite G. cbn [negb]. apply B.
  - intros s grad q G. destruct (T3 (as_t s) grad (a_q q) G) as (a & b & H1 & H2 & H3). exists a, b. unfold acc_guide. rewrite G. cbn [negb a_q a_v a_d]. auto.
Qed.
(** C38: the object whose guidance is switched off for the comparison ignores guidance and keeps everything else. *)
Lemma l_C38_guidance_switched_off :
  (forall proj g1 g2 d rew viz st u, m_step (tt_methods proj g1) (m_unguided (tt_methods proj g1) d) rew viz st u =
     m_step (tt_methods proj g2) (m_unguided (tt_methods proj g2) d) rew viz st u) /\
  (forall proj g1 g2 d rew viz st u, m_step (bk_methods proj g1) (m_unguided (bk_methods proj g1) d) rew viz st u =
     m_step (bk_methods proj g2) (m_unguided (bk_methods proj g2) d) rew viz st u) /\
  (forall g1 g2 d rew viz st u, m_step (nt_methods g1) (m_unguided (nt_methods g1) d) rew viz st u =
     m_step (nt_methods g2) (m_unguided (nt_methods g2) d) rew viz st u) /\
  (forall proj g d rew viz st u, p_guid (ts_p (fst d)) = false ->
     m_step (tt_methods proj g) (m_unguided (tt_methods proj g) d) rew viz st u = m_step (tt_methods proj g) d rew viz st u).
Proof.
  split; [reflexivity|]. split; [reflexivity|]. split; [reflexivity|].
  intros proj g [s x0] rew viz st u G. cbn [fst] in G.
  assert (E : mkTTSelf (no_guid (ts_p s)) (ts_circ s) (ts_rect s) (ts_xg s) = s).
  { destruct s as [p ci re xg]. destruct p. cbn in *. rewrite G. reflexivity. }
  cbn [tt_methods m_step m_unguided fst snd]. rewrite E. reflexivity.
Qed.

(** ** Converted settings *)
Lemma trunc_whole : forall x, whole_part x (trunc x).
Proof.
  intros x. unfold whole_part, trunc. destruct (Rltb x 0) eqn:E.
  - apply Rltb_true in E. destruct (base_Int_part (- x)) as [A B]. set (m := Int_part (- x)) in *. clearbody m. rewrite opp_IZR.
    assert (Hm : 0 <= IZR m). { apply IZR_le. assert (IZR (-1) < IZR m) by (change (IZR (-1)) with (-1); lra). apply lt_IZR in H. lia. }
    split; [replace (x * - IZR m) with ((- x) * IZR m) by ring; apply Rmult_le_pos; lra|]. rewrite Rabs_Ropp, (Rabs_pos_eq (IZR m)), (Rabs_left x) by lra. lra.
  - assert (P : 0 <= x) by (destruct (Rlt_le_dec x 0) as [H|H]; [apply Rltb_true in H; congruence|exact H]).
    destruct (base_Int_part x) as [A B]. set (m := Int_part x) in *. clearbody m.
    assert (Hm : 0 <= IZR m). { apply IZR_le. assert (IZR (-1) < IZR m) by (change (IZR (-1)) with (-1); lra). apply lt_IZR in H. lia. }
    split; [apply Rmult_le_pos; lra|]. rewrite !Rabs_pos_eq by lra. lra.
Qed.
Lemma to_type_read : forall repr t v w, to_type repr t v = Ok w -> read_as t v w.
Proof.
  intros repr t v w. destruct t, v as [z|x|b|t']; cbn [to_type]; intros E; try discriminate; injection E as <-; cbn [read_as]; auto using trunc_whole.
  - rewrite negb_true_iff, Z.eqb_neq. reflexivity.
  - rewrite negb_true_iff. unfold Reqb. destruct (Req_EM_T x 0); split; intros; congruence.
  - rewrite negb_true_iff, String.eqb_neq. reflexivity.
Qed.
(** C34: every value given for a supported field is kept up to the conversion to the field's type: whole numbers lose
    their fraction, numbers count as true unless zero. *)
Lemma l_C34_values_read :
  forall repr d c f t v, dict_to_config_obj repr d = Ok c -> is_field f t -> ~ dropped f -> d f = Some v ->
  exists w, c f = Some w /\ read_as t v w.
Proof.
  intros repr d c f t v H Hf Hnd Hd.
  assert (Hin : exists o, In (f, t, o) conversions).
  { destruct (field_cases f t Hf) as [[A _]|[(_ & _ & A)|(_ & _ & A)]]; [contradiction|eauto|]. destruct A; eauto. }
  destruct Hin as [o Hin]. destruct (config_value _ _ _ _ _ _ H Hin) as (raw & w & A & B & C).
  rewrite Hd in A. injection A as <-. exists w. split; [exact C|]. exact (to_type_read _ _ _ _ B).
Qed.

(** ** Reports of an evaluation *)
(** C42: the report of an N-trailer trial: distances of the rear axle and of the rear face of the first trailer (with
    the tractor-trailer's trailer dimensions) from the goal, and the smaller of the two. *)
Lemma l_C42_nt_errors :
  forall s thr traj v d, nt_evaluate s thr traj = Ok v -> (forall q, In q traj -> n_ths q <> []) ->
  let goal := (n_px (ns_xg s), n_py (ns_xg s)) in
  let fin := last traj d in
  let near := dist (n_px fin, n_py fin) goal in
  let rear := dist (ahead (ahead (n_px fin, n_py fin) (n_th0 fin) (- p_lh (ns_p s))) (nth 0 (n_ths fin) 0) (- (p_l2 (ns_p s) + p_lr2 (ns_p s)))) goal in
  v_tractor v = near /\ v_trailer v = rear /\ v_error v = Rmin near rear.
Proof.
  intros s thr traj v d H NE. cbv zeta.
  assert (IN : In (last traj d) traj).
  { destruct traj as [|q0 rest]; [discriminate H|]. destruct (exists_last (l := q0 :: rest)) as (l & a & E); [discriminate|]. rewrite E, last_last. apply in_elt. }
  apply evaluate_spec with (d := d) in H. cbv zeta in H.
  destruct H as (H1 & H2 & H3 & _). specialize (NE _ IN).
  assert (E : nt_back s (nt_cut (last traj d)) = ahead (ahead (n_px (last traj d), n_py (last traj d)) (n_th0 (last traj d)) (- p_lh (ns_p s)))
      (nth 0 (n_ths (last traj d)) 0) (- (p_l2 (ns_p s) + p_lr2 (ns_p s)))).
  { unfold nt_back. rewrite tt_back_face. cbn [t_px t_py t_th1 t_th2 nt_cut n_px n_py n_th0 n_ths].
    destruct (n_ths (last traj d)) as [|th rest]; [contradiction|]. cbn [firstn nth]. rewrite jget_single. reflexivity. }
  rewrite E in H2, H3. auto.
Qed.
(** C42: the remaining entries of the reports for the car and the acceleration-controlled vehicle; a report exists for
    every non-empty trajectory of every class. *)
Lemma l_C42_bk_errors :
  forall s thr traj v d, tractor_sized (bs_p s) -> proper_obstacles (bs_circ s) (bs_rect s) ->
  bk_evaluate s thr traj = Ok v ->
  let goal := (b_px (bs_xg s), b_py (bs_xg s)) in
  let fin := last traj d in
  let near := dist (b_px fin, b_py fin) goal in
  let rear := dist (ahead (b_px fin, b_py fin) (b_th fin) (- p_lh (bs_p s))) goal in
  v_tractor v = near /\ v_trailer v = rear /\ v_error v = Rmin near rear /\
  (v_coll v = false <-> Forall (bk_safe (bs_p s) (bs_circ s) (bs_rect s)) traj).
Proof.
  intros s thr traj v d Hs Ho H. cbv zeta. apply evaluate_spec with (d := d) in H. cbv zeta in H.
  destruct H as (H1 & H2 & H3 & H4 & _).
  assert (EB : bk_back (bs_p s) (last traj d) = ahead (b_px (last traj d), b_py (last traj d)) (b_th (last traj d)) (- p_lh (bs_p s))).
  { unfold bk_back, ahead. cbn [fst snd]. apply f_equal2; ring. }
  rewrite EB in H2, H3. split; [exact H1|]. split; [exact H2|]. split; [exact H3|].
  rewrite H4. apply existsb_false_Forall. intros x _. split; [apply bk_coll_false_clear; auto|].
  intros K. unfold bs_coll. rewrite bk_coll_bodies. apply clear_bodies_hit_false; auto. apply bk_bodies_sized; auto.
Qed.
(** C42: both flags and both distances for the acceleration-controlled vehicle. *)
Lemma l_C42_acc_flags :
  forall s thr traj v d, tt_sized (ts_p (as_t s)) -> proper_obstacles (ts_circ (as_t s)) (ts_rect (as_t s)) ->
  acc_evaluate s thr traj = Ok v ->
  let goal := (t_px (ts_xg (as_t s)), t_py (ts_xg (as_t s))) in
  (v_coll v = false <-> Forall (fun q => tt_clear (ts_p (as_t s)) (ts_circ (as_t s)) (ts_rect (as_t s)) (a_q q)) traj) /\
  (v_jack v = false <-> Forall (fun q => tt_hitch_ok (ts_p (as_t s)) (a_q q)) traj) /\
  v_tractor v = axle_distance (a_q (last traj d)) goal /\ v_trailer v = rear_face_distance (ts_p (as_t s)) (a_q (last traj d)) goal.
Proof.
  intros s thr traj v d Hs Ho H. cbv zeta.
  destruct (l_C42_tt_verdict (as_t s) thr (map a_q traj) v (a_q d) Hs Ho H) as (_ & H1 & H2 & H3 & H4 & _).
  rewrite last_map' in H3, H4. rewrite Forall_map in H1, H2. auto.
Qed.
(** C42: only an empty trajectory has no report. *)
Lemma l_C42_report_exists :
  (forall s thr traj, traj <> [] <-> exists v, tt_evaluate s thr traj = Ok v) /\
  (forall s thr traj, traj <> [] <-> exists v, bk_evaluate s thr traj = Ok v) /\
  (forall s thr traj, traj <> [] <-> exists v, nt_evaluate s thr traj = Ok v) /\
  (forall s thr traj, traj <> [] <-> exists v, acc_evaluate s thr traj = Ok v).
Proof.
  assert (K : forall Q cut coll hitch (pos back : Q -> pt) goal thr traj, traj <> [] <-> exists v, evaluate cut coll hitch pos back goal thr traj = Ok v).
  { intros. unfold evaluate. destruct traj as [|q0 l]; [split; [contradiction|intros (v & H); discriminate]|].
    destruct (violations _ _ _ _ _). split; [intros _; eexists; reflexivity|discriminate]. }
  unfold acc_evaluate, tt_evaluate, bk_evaluate, nt_evaluate. repeat split; intros; try (apply K in H; exact H); try (apply K; assumption).
  - apply K. destruct traj; [contradiction|discriminate].
  - apply K in H. intros ->. contradiction.
Qed.

(** ** Lots and drawings *)
(** C47: the wheels of the car are drawn at its two axles. *)
Lemma l_C47_bk_wheels_partial :
  forall p q u, exists rear front, dr_wheels (bk_draw p q u) = [rear; front] /\
  wheel_at rear (b_px q, b_py q) (b_th q) /\
  wheel_at front (SpecReward.front_axle p (b_px q) (b_py q) (b_th q)) (b_th q + match u with Some a => snd a | None => 0 end).
Proof.
  intros p [px py th] u. do 2 eexists. split; [reflexivity|]. unfold wheel_at, wheel, centred, SpecReward.front_axle, ahead.
  cbn [pa_tx pa_ty pa_rot fst snd b_px b_py b_th]. repeat split; ring.
Qed.
(** C62: both target spaces of the tight lot are spaces of the lot and unoccupied. *)
Lemma l_C62_tight_targets_free :
  forall n, In n (pk_tgt tight_parking) -> (1 <= n <= pk_rows tight_parking * pk_cols tight_parking)%Z /\ ~ In n (pk_occ tight_parking).
Proof.
  intros n Hn. cbn in Hn. destruct Hn as [<-|[<-|[]]]; (split; [cbn; lia|]); cbn; intros K; repeat (destruct K as [K|K]; [discriminate|]); contradiction.
Qed.

(** ** The benchmark *)
(** C52: each configuration of the benchmark keeps the dataclass values of the seed, the temperature and the noise schedule
    and only turns the demonstration and the backward preference on; the sizes are those of its entry. *)
Lemma l_C52_planner_settings :
  forall N H T, let g := scenario_cfg N H T in
  In ("seed", TInt, VInt (g_seed g)) dataclass_fields /\ In ("temp_sample", TFloat, VFloat (g_temp g)) dataclass_fields /\
  In ("beta0", TFloat, VFloat (g_beta0 g)) dataclass_fields /\ In ("betaT", TFloat, VFloat (g_betaT g)) dataclass_fields /\
  In ("enable_guidance", TBool, VBool (Planner.g_guid g)) dataclass_fields /\
  g_demo g = true /\ Planner.g_motion g = (-1)%Z /\ g_Nsample g = N /\ g_Hsample g = H /\ g_Ndiffuse g = T.
Proof.
  intros N H T. cbv zeta. cbn [scenario_cfg g_seed g_temp g_beta0 g_betaT Planner.g_guid g_demo Planner.g_motion g_Nsample g_Hsample g_Ndiffuse].
  repeat split; unfold dataclass_fields; repeat (first [left; reflexivity | right]).
Qed.
(** C52: the three configurations grow in all three sizes; the largest has the dataclass's number of samples and horizon. *)
Lemma l_C52_sizes_grow :
  (forall i a b, nth_error (map snd scenario_tests) i = Some a -> nth_error (map snd scenario_tests) (S i) = Some b ->
     (fst (fst a) < fst (fst b) /\ snd (fst a) < snd (fst b) /\ snd a < snd b)%nat) /\
  (exists name N H T, nth_error scenario_tests 2 = Some (name, (N, H, T)) /\
     In ("Nsample", TInt, VInt (Z.of_nat N)) dataclass_fields /\ In ("Hsample", TInt, VInt (Z.of_nat H)) dataclass_fields) /\
  Forall (fun t => (0 < fst (fst (snd t)) /\ 0 < snd (fst (snd t)) /\ 0 < snd (snd t))%nat) scenario_tests.
Proof.
  split; [|split].
  - intros i a b E1 E2. destruct i as [|[|i]].
    + injection E1 as <-. injection E2 as <-. cbn [fst snd]. split; [|split]; apply Nat.ltb_lt; vm_compute; reflexivity.
    + injection E1 as <-. injection E2 as <-. cbn [fst snd]. split; [|split]; apply Nat.ltb_lt; vm_compute; reflexivity.
    + destruct i; discriminate E2.
  - do 4 eexists. split; [reflexivity|]. split.
    + replace (Z.of_nat 20000) with 20000%Z by (vm_compute; reflexivity). unfold dataclass_fields; repeat (first [left; reflexivity | right]).
    + replace (Z.of_nat 50) with 50%Z by (vm_compute; reflexivity). unfold dataclass_fields; repeat (first [left; reflexivity | right]).
  - unfold scenario_tests. repeat match goal with |- Forall _ (_ :: _) => apply Forall_cons | |- Forall _ [] => apply Forall_nil end;
      cbn [fst snd]; (split; [|split]); apply Nat.ltb_lt; vm_compute; reflexivity.
Qed.
(** C52 (finding): the configuration called "Original" (commented as the original default) runs 150 denoising levels, the dataclass 100. *)
Lemma l_C52_original_size_refuted :
  exists N H T, nth_error scenario_tests 2 = Some ("Large (Original)", (N, H, T)) /\
    forall v, In ("Ndiffuse", TInt, v) dataclass_fields -> v <> VInt (Z.of_nat T).
Proof.
  do 3 eexists. split; [reflexivity|]. intros v Hv E. rewrite E in Hv. clear E v.
  assert (K : existsb (fun x => let '(k, _, v) := x in String.eqb k "Ndiffuse" && match v with VInt z => Z.eqb z 150 | _ => false end) dataclass_fields = false) by (vm_compute; reflexivity).
  rewrite existsb_false_iff in K. specialize (K _ Hv). cbn [fst snd] in K. replace (Z.of_nat 150) with 150%Z in K by (vm_compute; reflexivity). discriminate K.
Qed.
(** C52: the distance and steering settings of the benchmark's vehicle are computed from the dataclass values as well. *)
Lemma l_C52_derived_settings :
  forall H r, scenario_robot H = Ok r -> exists fac deg,
  In ("d_thr_factor", TFloat, VFloat fac) dataclass_fields /\ In ("delta_max_deg", TFloat, VFloat deg) dataclass_fields /\
  p_d_thr (rb_p r) = fac * (p_l1 (rb_p r) + p_lh (rb_p r) + p_l2 (rb_p r)) /\ p_dmax (rb_p r) = deg * PI / 180.
Proof.
  intros H r E. destruct (scenario_robot_is H) as (r' & E' & _ & K & _). rewrite E in E'. injection E' as <-. rewrite K.
  exists 1, 55. split; [unfold dataclass_fields; repeat (first [left; reflexivity | right])|]. split; [unfold dataclass_fields; repeat (first [left; reflexivity | right])|].
  split; [change (d_thr_of 1 (323/100) (23/20) (29/10) = 1 * (323/100 + 23/20 + 29/10)); unfold d_thr_of; lra|change (delta_max_of_deg 55 = 55 * PI / 180); unfold delta_max_of_deg; lra].
Qed.

(** ** Cases that meet the hypotheses *)
(** C41: a post of radius 1 two metres ahead, another 40 m away. *)
Lemma x_C41_alone_with_a_post :
  let c := mkCircle 2 0 1 in alone_with c ([] ++ [mkCircle 40 0 1]) (0, 0) /\ shortfall c (0, 0) = 1 /\ ang_ok 0.
Proof.
  cbv zeta. assert (D : forall x, 0 <= x -> dist (0, 0) (x, 0) = x).
  { intros x Hx. unfold dist, dist2. cbn [fst snd]. replace ((0 - x) * (0 - x) + (0 - 0) * (0 - 0)) with (x * x) by ring. apply sqrt_square. exact Hx. }
  assert (S : shortfall (mkCircle 2 0 1) (0, 0) = 1) by (unfold shortfall; cbn [c_x c_y c_r]; rewrite D by lra; lra).
  split; [|split; [exact S|unfold ang_ok; pose proof PI_RGT_0; lra]]. unfold alone_with. rewrite S. cbn [c_x c_y fst snd]. rewrite D by lra.
  split; [lra|]. split; [lra|]. split; [|rewrite Rabs_R0; lra].
  intros k [<-|[]]. unfold shortfall. cbn [c_x c_y c_r]. rewrite D by lra. lra.
Qed.
(** C34: a fraction given for a whole-number field. *)
Lemma x_C34_fraction_read : read_as TInt (VFloat (-5/2)) (VInt (-2)).
Proof. cbn. unfold whole_part. rewrite !Rabs_left by lra. lra. Qed.
