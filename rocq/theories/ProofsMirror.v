(** * ProofsMirror: left and right are treated alike (C76). *)
From Verif Require Import Base BaseFacts Params Geom TT2d Bicycle NTrailer Acc SpecGeom SpecBodies SpecDyn SpecSym SpecMirror
  Rollout Planner Instances ProofsGeom ProofsBodies ProofsKin ProofsRobots ProofsSafety ProofsSim ProofsSym ProofsFrame.
Open Scope R_scope.

(** ** Numbers *)
Lemma clip_opp x : clip (- x) (-1) 1 = - clip x (-1) 1.
Proof. unfold clip, Rmin, Rmax. repeat destruct Rle_dec; lra. Qed.
Lemma clip_opp_sym x D : 0 <= D -> clip (- x) (- D) D = - clip x (- D) D.
Proof. intros. unfold clip, Rmin, Rmax. repeat destruct Rle_dec; lra. Qed.
Lemma clip01_flip x : clip (1 - x) 0 1 = 1 - clip x 0 1.
Proof. unfold clip, Rmin, Rmax. repeat destruct Rle_dec; lra. Qed.
Lemma clip_act_mirror a : clip_act (mirror_act a) = mirror_act (clip_act a).
Proof. unfold clip_act, mirror_act; cbn [fst snd]. rewrite clip_opp. reflexivity. Qed.
Lemma tan_opp x : tan (- x) = - tan x.
Proof. apply tan_neg. Qed.
Lemma wrap_abs_le a : Rabs (wrap_pi a) <= Rabs (wrap_pi (- a)).
Proof.
  destruct (wrap_pi_rep (- a)) as [k Hk]. rewrite Hk.
  replace (- a + IZR k * (2 * PI)) with (- (a + IZR (- k) * (2 * PI))) by (rewrite opp_IZR; ring).
  rewrite Rabs_Ropp. apply wrap_pi_min.
Qed.
Lemma wrap_abs a : Rabs (wrap_pi (- a)) = Rabs (wrap_pi a).
Proof.
  apply Rle_antisym; [|apply wrap_abs_le]. pose proof (wrap_abs_le (- a)) as H. rewrite Ropp_involutive in H. exact H.
Qed.
Lemma wrap_abs_pi a : Rabs (wrap_pi (- a - PI)) = Rabs (wrap_pi (a - PI)).
Proof.
  replace (- a - PI) with (- (a - PI) + IZR (-1) * (2 * PI)) by lra. rewrite wrap_pi_shift. apply wrap_abs.
Qed.

(** ** Planning with mirrored environments *)
Section Run.
Context {Q : Type}.
Variable M : Q -> Q.
Definition mst (st : State Q) : State Q :=
  mkState (M (st_q st)) (M (st_obs st)) (st_rew st) (st_done st) (mirror_act (st_app st)) (st_bak st).
Definition mstep (f f' : State Q -> act -> State Q) : Prop := forall st a, f' (mst st) (mirror_act a) = mst (f st a).
Definition mout (o : R * Q * act) : R * Q * act := (fst (fst o), M (snd (fst o)), mirror_act (snd o)).

Lemma scan_mirror f f' : mstep f f' -> forall us st,
  scan_us f' (mst st) (map mirror_act us) = (mst (fst (scan_us f st us)), map mout (snd (scan_us f st us))).
Proof.
  intros Hf us. induction us as [|u us IH]; intros st; cbn [scan_us map]; [reflexivity|].
  rewrite Hf, IH. destruct (scan_us f (f st u) us) as [fin outs]. reflexivity.
Qed.
Lemma replay_mirror f f' : mstep f f' -> forall us st,
  replay f' (mst st) (map mirror_act us) = map M (replay f st us).
Proof.
  intros Hf us. induction us as [|u us IH]; intros st; cbn [replay map]; [reflexivity|].
  rewrite Hf, IH. reflexivity.
Qed.
Record menv (e e' : penv Q) : Prop := mkMenv {
  me_reset : pe_reset e' = mst (pe_reset e);
  me_step : mstep (pe_step e) (pe_step e');
  me_viz : mstep (pe_step_viz e) (pe_step_viz e');
  me_term : forall q, pe_terminal e' (M q) = pe_terminal e q;
  me_tw : pe_term_w e' = pe_term_w e;
  me_sw : pe_steer_w e' = pe_steer_w e;
  me_dm : pe_dmax e' = pe_dmax e;
  me_logpd : forall qs m, pe_logpd e' (map M qs) m = pe_logpd e qs m;
  me_xref : pe_rew_xref e' = pe_rew_xref e
}.
Definition mroll (o : R * list Q * list act) : R * list Q * list act :=
  (fst (fst o), map M (snd (fst o)), map mirror_act (snd o)).
Lemma rollout_term_mirror e e' us : menv e e' ->
  rollout_term e' (map mirror_act us) = mroll (rollout_term e us).
Proof.
  intros E. unfold rollout_term, rollout_us_with_terminal. rewrite (me_reset _ _ E).
  replace (pe_step e' (mst (pe_reset e)) (0, 0)) with (mst (pe_step e (pe_reset e) (0, 0))).
  2:{ rewrite <- (me_step _ _ E). unfold mirror_act; cbn [fst snd]. rewrite Ropp_0. reflexivity. }
  rewrite (scan_mirror _ _ (me_step _ _ E)). destruct (scan_us (pe_step e) _ us) as [fin outs].
  cbn [fst snd]. unfold mroll; cbn [fst snd]. rewrite !map_map, (me_tw _ _ E).
  unfold mst; cbn [st_q]. rewrite (me_term _ _ E).
  replace (map (fun x => fst (fst (mout x))) outs) with (map (fun o : R * Q * act => fst (fst o)) outs) by reflexivity.
  reflexivity.
Qed.
Lemma diffs_opp l : diffs (map Ropp l) = map Ropp (diffs l).
Proof.
  induction l as [|x l IH]; [reflexivity|]. destruct l as [|y l]; [reflexivity|].
  change (diffs (map Ropp (x :: y :: l))) with ((- y - - x) :: diffs (map Ropp (y :: l))). rewrite IH.
  change (diffs (x :: y :: l)) with ((y - x) :: diffs (y :: l)). cbn [map]. f_equal. ring.
Qed.
Lemma steering_mirror dmax us : steering_reward dmax (map mirror_act us) = steering_reward dmax us.
Proof.
  unfold steering_reward. cbv zeta. rewrite (map_map mirror_act snd).
  replace (map (fun x => snd (mirror_act x)) us) with (map Ropp (map snd us)) by (rewrite map_map; reflexivity).
  set (ds := map snd us). clearbody ds.
  replace (map (fun d => d * dmax) (map Ropp ds)) with (map Ropp (map (fun d => d * dmax) ds))
    by (rewrite !map_map; apply map_ext; intros; ring).
  rewrite diffs_opp.
  replace (map (fun d => 1 - Rabs d * Rabs d) (map Ropp ds)) with (map (fun d => 1 - Rabs d * Rabs d) ds)
    by (rewrite map_map; apply map_ext; intros; rewrite Rabs_Ropp; reflexivity).
  set (es := diffs _). clearbody es.
  replace (map (fun e => 1 - clip (Rabs e / (1 / 10 * dmax) * (Rabs e / (1 / 10 * dmax))) 0 1) (map Ropp es))
    with (map (fun e => 1 - clip (Rabs e / (1 / 10 * dmax) * (Rabs e / (1 / 10 * dmax))) 0 1) es)
    by (rewrite map_map; apply map_ext; intros; rewrite Rabs_Ropp; reflexivity).
  reflexivity.
Qed.
Lemma evaluate_mirror e e' g Y0s : menv e e' ->
  evaluate_samples e' g (map (map mirror_act) Y0s) =
  (map (map mirror_act) (fst (fst (evaluate_samples e g Y0s))), snd (fst (evaluate_samples e g Y0s)), snd (evaluate_samples e g Y0s)).
Proof.
  intros E. unfold evaluate_samples. cbn [fst snd].
  replace (map (rollout_term e') (map (map mirror_act) Y0s)) with (map mroll (map (rollout_term e) Y0s))
    by (rewrite !map_map; apply map_ext; intros; symmetry; apply rollout_term_mirror; auto).
  set (o := map (rollout_term e) Y0s). clearbody o.
  assert (E1 : map snd (map mroll o) = map (map mirror_act) (map snd o)) by (rewrite !map_map; reflexivity).
  assert (E2 : map2 (fun o us => fst (fst o) + pe_steer_w e' * steering_reward (pe_dmax e') us) (map mroll o) (map snd (map mroll o))
             = map2 (fun o us => fst (fst o) + pe_steer_w e * steering_reward (pe_dmax e) us) o (map snd o)).
  { rewrite E1. rewrite map2_map. rewrite (me_sw _ _ E), (me_dm _ _ E). apply map2_ext. intros a b. rewrite steering_mirror. reflexivity. }
  rewrite E2, E1. f_equal. f_equal.
  assert (E3 : map (fun qs => pe_logpd e' qs (g_motion g)) (map (fun o => snd (fst o)) (map mroll o))
             = map (fun qs => pe_logpd e qs (g_motion g)) (map (fun o => snd (fst o)) o)).
  { rewrite !map_map. apply map_ext. intros. apply (me_logpd _ _ E). }
  unfold log_scores. rewrite E3, (me_xref _ _ E). reflexivity.
Qed.
Lemma act_scale_mirror c a : act_scale c (mirror_act a) = mirror_act (act_scale c a).
Proof. unfold act_scale, mirror_act; cbn [fst snd]. f_equal; ring. Qed.
Lemma act_add_mirror a b : act_add (mirror_act a) (mirror_act b) = mirror_act (act_add a b).
Proof. unfold act_add, mirror_act; cbn [fst snd]. f_equal; ring. Qed.
Lemma make_sample_mirror m c Y eps :
  make_sample m c (map mirror_act Y) (map mirror_act eps) = map mirror_act (make_sample m c Y eps).
Proof.
  unfold make_sample. rewrite map2_map, map_map2. apply map2_ext. intros a b.
  rewrite act_scale_mirror, act_add_mirror, clip_act_mirror. reflexivity.
Qed.
Lemma weighted_mirror f c ws Ys t : (forall a, f (mirror_act a) = c * f a) ->
  weighted f ws (map (map mirror_act) Ys) t = c * weighted f ws Ys t.
Proof.
  intros Hf.
  assert (Hn : forall Y, nth t (map mirror_act Y) (0, 0) = mirror_act (nth t Y (0, 0))).
  { intros Y. replace ((0, 0) : act) with (mirror_act (0, 0)) at 1 by (unfold mirror_act; cbn; rewrite Ropp_0; reflexivity).
    apply map_nth. }
  unfold weighted. revert ws. induction Ys as [|Y Ys IH]; intros [|w ws]; cbn [map map2 Rsum]; try lra.
  rewrite IH, Hn, Hf. assert (A : forall x y, w * (c * x) + c * y = c * (w * x + y)) by (intros; ring). apply A.
Qed.
Lemma einsum_mirror H ws Ys : einsum_avg H ws (map (map mirror_act) Ys) = map mirror_act (einsum_avg H ws Ys).
Proof.
  unfold einsum_avg. rewrite map_map. apply map_ext. intros t.
  rewrite (weighted_mirror fst 1), (weighted_mirror snd (-1)) by (intros; unfold mirror_act; cbn [fst snd]; ring).
  unfold mirror_act; cbn [fst snd]. f_equal; ring.
Qed.
Lemma scale_all c Y : map (act_scale c) (map mirror_act Y) = map mirror_act (map (act_scale c) Y).
Proof. rewrite !map_map. apply map_ext. intros. apply act_scale_mirror. Qed.
Lemma map2_mirror (f : act -> act -> act) Y Z : (forall a b, f (mirror_act a) (mirror_act b) = mirror_act (f a b)) ->
  map2 f (map mirror_act Y) (map mirror_act Z) = map mirror_act (map2 f Y Z).
Proof. intros Hf. rewrite map2_map, map_map2. apply map2_ext. exact Hf. Qed.
Lemma reverse_once_mirror e e' g i eps Y : menv e e' ->
  reverse_once e' g i (map (map mirror_act) eps) (map mirror_act Y) =
  (map mirror_act (fst (reverse_once e g i eps Y)), snd (reverse_once e g i eps Y)).
Proof.
  intros E. unfold reverse_once, reverse_once_with. cbv zeta.
  replace (map (make_sample (g_motion g) (nth i (sigmas g) 0 / sqrt (nth (i - 1) (alphas_bar g) 0)) (map mirror_act Y)) (map (map mirror_act) eps))
    with (map (map mirror_act) (map (make_sample (g_motion g) (nth i (sigmas g) 0 / sqrt (nth (i - 1) (alphas_bar g) 0)) Y) eps))
    by (rewrite !map_map; apply map_ext; intros; symmetry; apply make_sample_mirror).
  set (Y0s := map (make_sample _ _ _) eps). clearbody Y0s.
  rewrite (evaluate_mirror e e') by auto. destruct (evaluate_samples e g Y0s) as [[eff rews] ws]. cbn [fst snd].
  rewrite einsum_mirror. f_equal.
  rewrite !scale_all, (map2_mirror _ (map _ Y)), (map2_mirror _ (map _ Y)), scale_all; [reflexivity| |];
    intros a b; repeat rewrite ?act_scale_mirror, ?act_add_mirror; reflexivity.
Qed.
Lemma reverse_loop_mirror e e' g rg is : menv e e' -> forall k Y,
  reverse_loop e' g (mirror_noise rg) is k (map mirror_act Y) =
  (map (map mirror_act) (fst (reverse_loop e g rg is k Y)), map mirror_act (snd (reverse_loop e g rg is k Y))).
Proof.
  intros E. induction is as [|i is IH]; intros k Y; cbn [reverse_loop fst snd map]; [reflexivity|].
  cbn [mirror_noise prng_split prng_normal]. destruct (prng_split rg k) as [k' ks].
  rewrite (reverse_once_mirror e e') by auto.
  destruct (reverse_once e g i (prng_normal rg ks (g_Nsample g) (g_Hsample g)) Y) as [Y' r]. cbn [fst snd].
  rewrite IH. destruct (reverse_loop e g rg is k' Y') as [Ys Yf]. reflexivity.
Qed.
Lemma run_mirror e e' g rg : menv e e' ->
  let r := run_diffusion_core e g rg in let r' := run_diffusion_core e' g (mirror_noise rg) in
  o_rew r' = o_rew r /\ o_Y0 r' = map mirror_act (o_Y0 r) /\ o_traj r' = map M (o_traj r) /\
  o_Ybars r' = map (map mirror_act) (o_Ybars r).
Proof.
  intros E. cbv zeta. unfold run_diffusion_core.
  assert (EY : map mirror_act (YN g) = YN g).
  { unfold YN. induction (g_Hsample g) as [|n IHn]; cbn [repeat map]; [reflexivity|]. rewrite IHn.
    unfold mirror_act at 1; cbn [fst snd]. rewrite Ropp_0. reflexivity. }
  cbn [mirror_noise prng_key prng_split].
  assert (EL := fun is k => reverse_loop_mirror e e' g rg is E k (YN g)).
  rewrite EY in EL. unfold mirror_noise in EL. unfold mirror_noise. cbn [prng_split key] in *. rewrite EL.
  destruct (reverse_loop e g rg _ _ _) as [Ybars Yfin]. cbn [fst snd o_rew o_Y0 o_Ybars o_traj].
  rewrite (rollout_term_mirror e e') by auto. cbn [mroll fst snd].
  rewrite (rollout_term_mirror e e') by auto. cbn [mroll fst snd].
  split; [reflexivity|]. split; [reflexivity|]. split; [|reflexivity].
  unfold trajectory_states. rewrite (me_reset _ _ E). cbn [mst st_q map]. f_equal.
  destruct (g_guid g); [rewrite (replay_mirror _ _ (me_viz _ _ E))|rewrite (replay_mirror _ _ (me_step _ _ E))]; reflexivity.
Qed.
End Run.

(** ** Geometry *)
Lemma psub_mirror a b : psub (mirror a) (mirror b) = mirror (psub a b).
Proof. unfold psub, mirror; cbn [fst snd]. f_equal; ring. Qed.
Lemma pdot_mirror a b : pdot (mirror a) (mirror b) = pdot a b.
Proof. unfold pdot, mirror; cbn [fst snd]. ring. Qed.
Lemma pnorm_mirror a : pnorm (mirror a) = pnorm a.
Proof. unfold pnorm, mirror; cbn [fst snd]. f_equal; ring. Qed.
Definition popp (a : pt) : pt := (- fst a, - snd a).
(** The reflected corners in the order the code produces them. *)
Definition reflect (l : list pt) : list pt :=
  match l with [a; b; c; d] => [mirror b; mirror a; mirror d; mirror c] | _ => map mirror l end.
Lemma box_mirror cx cy ang hl hw : box_corners cx (- cy) (- ang) hl hw = reflect (box_corners cx cy ang hl hw).
Proof.
  unfold box_corners, reflect, box_corner, mirror; cbn [fst snd]. rewrite cos_neg, sin_neg.
  repeat (apply (f_equal2 (@cons (R * R))); [f_equal; ring|]); reflexivity.
Qed.
Lemma edge_mirror s e c : edge_dist_sq (mirror s) (mirror e) (mirror c) = edge_dist_sq s e c.
Proof.
  unfold edge_dist_sq. cbv zeta. rewrite psub_mirror, pdot_mirror.
  unfold mirror, padd, pscale, psub; cbn [fst snd].
  replace (fst e * fst e + - snd e * - snd e) with (fst e * fst e + snd e * snd e) by ring. ring.
Qed.
Lemma edge_flip a b c : / 100000000 <= fst (psub b a) * fst (psub b a) + snd (psub b a) * snd (psub b a) ->
  edge_dist_sq b (psub a b) c = edge_dist_sq a (psub b a) c.
Proof.
  intros H. unfold edge_dist_sq. cbv zeta.
  set (L := fst (psub b a) * fst (psub b a) + snd (psub b a) * snd (psub b a)) in *.
  assert (EL : fst (psub a b) * fst (psub a b) + snd (psub a b) * snd (psub a b) = L) by (unfold L, psub; cbn [fst snd]; ring).
  rewrite EL.
  assert (Hw : where_ (Rltb L (/ 100000000)) (/ 100000000) L = L) by (unfold where_, Rltb; destruct Rlt_dec; [lra|reflexivity]).
  rewrite Hw. assert (L <> 0) by (pose proof (Rinv_0_lt_compat 100000000); lra).
  replace (pdot (psub c b) (psub a b) / L) with (1 - pdot (psub c a) (psub b a) / L).
  2:{ apply Rmult_eq_reg_r with L; auto. unfold Rdiv. rewrite Rmult_minus_distr_r, !Rmult_assoc, Rinv_l, !Rmult_1_r by auto.
      unfold L, pdot, psub; cbn [fst snd]. ring. }
  rewrite clip01_flip. set (t := clip _ 0 1). unfold psub, padd, pscale; cbn [fst snd]. ring.
Qed.
Definition long (e : pt) : Prop := / 100000000 <= fst e * fst e + snd e * snd e.
Lemma rect_circle_mirror a b c d o r : long (psub b a) -> long (psub c b) -> long (psub d c) -> long (psub a d) ->
  rect_circle_collision (reflect [a; b; c; d]) (mirror o) r = rect_circle_collision [a; b; c; d] o r.
Proof.
  intros H1 H2 H3 H4. unfold rect_circle_collision, reflect, edges_of, roll1. cbn [app map2].
  rewrite !psub_mirror, !edge_mirror, (edge_flip a b), (edge_flip d a), (edge_flip c d), (edge_flip b c) by assumption.
  f_equal. unfold Rmin_of, Rmin_list, Rmin. repeat destruct Rle_dec; lra.
Qed.
Lemma project_min_reflect a b c d x : project_min (reflect [a; b; c; d]) (mirror x) = project_min [a; b; c; d] x.
Proof.
  unfold project_min, reflect, map. rewrite !pdot_mirror. unfold Rmin_of, Rmin_list, Rmin. repeat destruct Rle_dec; lra.
Qed.
Lemma project_max_reflect a b c d x : project_max (reflect [a; b; c; d]) (mirror x) = project_max [a; b; c; d] x.
Proof.
  unfold project_max, reflect, map. rewrite !pdot_mirror. unfold Rmax_of, Rmax_list, Rmax. repeat destruct Rle_dec; lra.
Qed.
Lemma pdot_popp a x : pdot a (popp x) = - pdot a x.
Proof. unfold pdot, popp; cbn [fst snd]. ring. Qed.
Lemma Rmin_list_opp l : forall x, Rmin_list (- x) (map Ropp l) = - Rmax_list x l.
Proof.
  induction l as [|y l IH]; intros x; cbn [map Rmin_list Rmax_list]; [reflexivity|]. rewrite <- IH. f_equal.
  unfold Rmin, Rmax. repeat destruct Rle_dec; lra.
Qed.
Lemma Rmax_list_opp l : forall x, Rmax_list (- x) (map Ropp l) = - Rmin_list x l.
Proof.
  induction l as [|y l IH]; intros x; cbn [map Rmin_list Rmax_list]; [reflexivity|]. rewrite <- IH. f_equal.
  unfold Rmin, Rmax. repeat destruct Rle_dec; lra.
Qed.
Lemma project_min_popp l x : l <> [] -> project_min l (popp x) = - project_max l x.
Proof.
  destruct l as [|a l]; [congruence|]. intros _. unfold project_min, project_max. cbn [map Rmin_of Rmax_of].
  rewrite pdot_popp, <- Rmin_list_opp, map_map. f_equal. apply map_ext. intros. apply pdot_popp.
Qed.
Lemma project_max_popp l x : l <> [] -> project_max l (popp x) = - project_min l x.
Proof.
  destruct l as [|a l]; [congruence|]. intros _. unfold project_min, project_max. cbn [map Rmin_of Rmax_of].
  rewrite pdot_popp, <- Rmax_list_opp, map_map. f_equal. apply map_ext. intros. apply pdot_popp.
Qed.
Lemma Rltb_opp a b : Rltb (- a) (- b) = Rltb b a.
Proof. unfold Rltb. repeat destruct Rlt_dec; auto; lra. Qed.
Lemma axis_popp l k x : l <> [] -> k <> [] -> axis_separates l k (popp x) = axis_separates l k x.
Proof.
  intros Hl Hk. unfold axis_separates. rewrite !project_min_popp, !project_max_popp, !Rltb_opp by auto. apply orb_comm.
Qed.
Lemma axis_of_mirror e : axis_of_edge (mirror e) = popp (mirror (axis_of_edge e)).
Proof.
  unfold axis_of_edge. cbv zeta. cbn [fst snd].
  replace (pnorm (- snd (mirror e), fst (mirror e))) with (pnorm (- snd e, fst e)).
  2:{ unfold pnorm, mirror; cbn [fst snd]. f_equal. ring. }
  set (n := where_ _ _ _). unfold popp, mirror; cbn [fst snd]. unfold Rdiv. f_equal; ring.
Qed.
Lemma axis_of_popp e : axis_of_edge (popp e) = popp (axis_of_edge e).
Proof.
  unfold axis_of_edge. cbv zeta. cbn [fst snd].
  replace (pnorm (- snd (popp e), fst (popp e))) with (pnorm (- snd e, fst e)).
  2:{ unfold pnorm, popp; cbn [fst snd]. f_equal. ring. }
  set (n := where_ _ _ _). unfold popp; cbn [fst snd]. unfold Rdiv. f_equal; ring.
Qed.
Lemma popp_popp x : popp (popp x) = x.
Proof. destruct x. unfold popp; cbn [fst snd]. rewrite !Ropp_involutive. reflexivity. Qed.
Lemma rect_rect_mirror a b c d a' b' c' d' : psub c b = psub d a -> psub c' b' = psub d' a' ->
  rect_rect_collision (reflect [a; b; c; d]) (reflect [a'; b'; c'; d']) = rect_rect_collision [a; b; c; d] [a'; b'; c'; d'].
Proof.
  intros H H'. unfold rect_rect_collision. f_equal.
  assert (Ax : forall a b c d, psub c b = psub d a -> get_axes (reflect [a; b; c; d]) =
    map (fun p => p) (match get_axes [a; b; c; d] with [x; y] => [mirror x; popp (mirror y)] | _ => [] end)).
  { clear. intros a b c d H. unfold get_axes, edges_of, reflect, roll1. cbn [app map2 map].
    rewrite !psub_mirror.
    replace (psub a b) with (popp (psub b a)) by (unfold psub, popp; cbn [fst snd]; f_equal; ring).
    rewrite <- H, !axis_of_mirror, axis_of_popp.
    replace (mirror (popp (axis_of_edge (psub b a)))) with (popp (mirror (axis_of_edge (psub b a))))
      by reflexivity. rewrite popp_popp. reflexivity. }
  rewrite !Ax by assumption. clear Ax.
  assert (S : forall x, axis_separates (reflect [a; b; c; d]) (reflect [a'; b'; c'; d']) (mirror x) = axis_separates [a; b; c; d] [a'; b'; c'; d'] x).
  { intros x. unfold axis_separates. rewrite !project_min_reflect, !project_max_reflect. reflexivity. }
  unfold get_axes, edges_of, roll1. cbn [app map2 map existsb].
  rewrite !axis_popp, !S by (unfold reflect; discriminate). reflexivity.
Qed.
Lemma long_box cx cy ang hl hw : 1 / 20000 <= hl -> 1 / 20000 <= hw ->
  match box_corners cx cy ang hl hw with
  | [a; b; c; d] => (long (psub b a) /\ long (psub c b) /\ long (psub d c) /\ long (psub a d)) /\ psub c b = psub d a
  | _ => True end.
Proof.
  intros Hl Hw. unfold box_corners, long, psub, box_corner; cbn [fst snd].
  assert (T : forall x, 1/20000 <= x -> / 100000000 <= 4 * (x * x) * (cos ang * cos ang + sin ang * sin ang)).
  { intros x Hx. pose proof (sin2_cos2 ang) as E. unfold Rsqr in E.
    replace (cos ang * cos ang + sin ang * sin ang) with 1 by lra. nra. }
  split; [|f_equal; ring].
  repeat split; match goal with |- _ <= ?e =>
    (replace e with (4 * (hl * hl) * (cos ang * cos ang + sin ang * sin ang)) by ring; apply T; assumption) ||
    (replace e with (4 * (hw * hw) * (cos ang * cos ang + sin ang * sin ang)) by ring; apply T; assumption) end.
Qed.
Lemma hits_circle_mirror cx cy ang hl hw o : 1 / 20000 <= hl -> 1 / 20000 <= hw ->
  hits_circle (reflect (box_corners cx cy ang hl hw)) (circle_mirror o) = hits_circle (box_corners cx cy ang hl hw) o.
Proof.
  intros Hl Hw. pose proof (long_box cx cy ang hl hw Hl Hw) as H. unfold box_corners in *.
  destruct H as ((H1 & H2 & H3 & H4) & _). exact (rect_circle_mirror _ _ _ _ (c_x o, c_y o) (c_r o) H1 H2 H3 H4).
Qed.
Lemma box_par cx cy ang hl hw : 
  match box_corners cx cy ang hl hw with [a; b; c; d] => psub c b = psub d a | _ => True end.
Proof. unfold box_corners, psub, box_corner; cbn [fst snd]. f_equal; ring. Qed.
Lemma hits_rect_mirror cx cy ang hl hw o :
  hits_rect (reflect (box_corners cx cy ang hl hw)) (rect_mirror o) = hits_rect (box_corners cx cy ang hl hw) o.
Proof.
  unfold hits_rect. replace (obs_corners (rect_mirror o)) with (reflect (obs_corners o)).
  2:{ unfold obs_corners, rect_mirror; cbn [r_x r_y r_w r_h r_ang]. symmetry. apply box_mirror. }
  pose proof (box_par cx cy ang hl hw) as H. pose proof (box_par (r_x o) (r_y o) (r_ang o) (r_w o / 2) (r_h o / 2)) as H'.
  unfold obs_corners, box_corners in *. exact (rect_rect_mirror _ _ _ _ _ _ _ _ H H').
Qed.

Lemma tractor_corners_mirror p x y th : tractor_corners p x (- y) (- th) = reflect (tractor_corners p x y th).
Proof.
  unfold tractor_corners. cbv zeta. rewrite cos_neg, sin_neg, <- box_mirror. f_equal. ring.
Qed.
Lemma tt_trailer_corners_mirror p q : tt_trailer_corners p (tt_mirror q) = reflect (tt_trailer_corners p q).
Proof.
  unfold tt_trailer_corners, tt_mirror. cbv zeta. cbn [t_px t_py t_th1 t_th2]. rewrite !cos_neg, !sin_neg, <- box_mirror. f_equal. ring.
Qed.
Lemma tractor_circle_mirror p x y th o : tractor_sized p ->
  hits_circle (reflect (tractor_corners p x y th)) (circle_mirror o) = hits_circle (tractor_corners p x y th) o.
Proof. intros [H1 H2]. unfold tractor_corners. cbv zeta. apply hits_circle_mirror; lra. Qed.
Lemma tractor_rect_mirror p x y th o :
  hits_rect (reflect (tractor_corners p x y th)) (rect_mirror o) = hits_rect (tractor_corners p x y th) o.
Proof. unfold tractor_corners. cbv zeta. apply hits_rect_mirror. Qed.
Lemma tt_coll_mirror s q : tt_sized (ts_p s) -> ts_coll (tt_world_mirror s) (tt_mirror q) = ts_coll s q.
Proof.
  intros (Ht & H1 & H2). unfold ts_coll, tt_coll, tt_world_mirror. cbn [ts_p ts_circ ts_rect]. cbv zeta.
  rewrite tt_trailer_corners_mirror. unfold tt_tractor_corners, tt_mirror at 1. cbn [t_px t_py t_th1].
  unfold tt_mirror; cbn [t_px t_py t_th1]. rewrite !tractor_corners_mirror, !existsb_map'.
  f_equal; apply existsb_ext'; intros o.
  - rewrite tractor_circle_mirror by auto. f_equal. unfold tt_trailer_corners; cbv zeta. apply hits_circle_mirror; lra.
  - rewrite tractor_rect_mirror. f_equal. unfold tt_trailer_corners; cbv zeta. apply hits_rect_mirror.
Qed.
Lemma hitch_mirror a b : Rabs (wrap_pi (- a - - b)) = Rabs (wrap_pi (a - b)).
Proof. replace (- a - - b) with (- (a - b)) by ring. apply wrap_abs. Qed.
Lemma hitch_mirror_pi a b : Rabs (wrap_pi (- a - - b - PI)) = Rabs (wrap_pi (a - b - PI)).
Proof. replace (- a - - b) with (- (a - b)) by ring. apply wrap_abs_pi. Qed.
Lemma tt_hitch_mirror p q : tt_hitch p (tt_mirror q) = tt_hitch p q.
Proof. unfold tt_hitch, tt_mirror; cbn [t_th1 t_th2]. cbv zeta. rewrite hitch_mirror. reflexivity. Qed.
Lemma tt_trailer_pos_mirror p q : tt_trailer_pos p (tt_mirror q) = mirror (tt_trailer_pos p q).
Proof.
  unfold tt_trailer_pos, tt_mirror, mirror. cbv zeta. cbn [t_px t_py t_th1 t_th2 fst snd]. rewrite !cos_neg, !sin_neg. f_equal; ring.
Qed.
Lemma tt_dpos_mirror p xg q : tt_dpos p (tt_mirror xg) (tt_mirror q) = tt_dpos p xg q.
Proof.
  unfold tt_dpos. cbv zeta. rewrite !tt_trailer_pos_mirror, psub_mirror, pnorm_mirror. f_equal.
  unfold tt_mirror; cbn [t_px t_py t_th1]. rewrite cos_neg, sin_neg, <- pnorm_mirror. f_equal.
  unfold psub, mirror; cbn [fst snd]. f_equal; ring.
Qed.
Lemma tt_reward_mirror s q : tt_reward (tt_world_mirror s) (tt_mirror q) = tt_reward s q.
Proof.
  unfold tt_reward, tt_world_mirror. cbn [ts_p ts_xg]. cbv zeta. rewrite tt_dpos_mirror.
  unfold tt_mirror. cbn [t_th1 t_th2].
  rewrite !hitch_mirror, !hitch_mirror_pi.
  set (ud := Rltb _ _).
  destruct (Z.eqb (p_motion (ts_p s)) 0), ud; unfold where_; rewrite ?hitch_mirror, ?hitch_mirror_pi; reflexivity.
Qed.
Lemma tt_terminal_mirror s q : tt_terminal (tt_world_mirror s) (tt_mirror q) = tt_terminal s q.
Proof. unfold tt_terminal, tt_world_mirror; cbn [ts_p ts_xg]. rewrite tt_dpos_mirror. reflexivity. Qed.
Lemma tt_dt_euler_mirror p q u dt :
  euler tt_axpy (tt_dyn p) (tt_mirror q) (mirror_act u) dt = tt_mirror (euler tt_axpy (tt_dyn p) q u dt).
Proof.
  destruct u as [v d]. unfold euler, tt_axpy, tt_dyn, tt_mirror, mirror_act; cbn [t_px t_py t_th1 t_th2 fst snd].
  replace (- t_th1 q - - t_th2 q) with (- (t_th1 q - t_th2 q)) by ring.
  rewrite !cos_neg, !sin_neg, tan_opp. unfold tt_mirror; cbn [t_px t_py t_th1 t_th2]. f_equal; ring.
Qed.
Lemma tt_euler_mirror p q u : tt_euler p (tt_mirror q) (mirror_act u) = tt_mirror (tt_euler p q u).
Proof. apply tt_dt_euler_mirror. Qed.
Lemma scaler_mirror p u : input_scaler p (mirror_act u) = mirror_act (input_scaler p u).
Proof. unfold input_scaler, mirror_act; cbn [fst snd]. f_equal; ring. Qed.
Lemma zero_mirror : mirror_act (0, 0) = (0, 0).
Proof. unfold mirror_act; cbn. rewrite Ropp_0. reflexivity. Qed.

(** ** Steps *)
Lemma tt_step_mirror s proj proj' guide guide' viz :
  tt_sized (ts_p s) ->
  (forall q a, proj' (tt_mirror q) (mirror_act a) = mirror_act (proj q a)) ->
  (forall q, guide' (tt_mirror q) = tt_mirror (guide q)) ->
  mstep tt_mirror (tt_step_internal s proj guide viz) (tt_step_internal (tt_world_mirror s) proj' guide' viz).
Proof.
  intros Hs Hp Hg st a. unfold tt_step_internal, tt_step_with.
  change (ts_p (tt_world_mirror s)) with (ts_p s). cbv zeta.
  change (st_q (mst tt_mirror st)) with (tt_mirror (st_q st)). change (st_bak (mst tt_mirror st)) with (st_bak st).
  rewrite clip_act_mirror.
  assert (Ew : forall b x, @where_ act b (0, 0) (mirror_act x) = mirror_act (@where_ act b (0, 0) x))
    by (intros [|] x; unfold where_; [symmetry; apply zero_mirror|reflexivity]).
  rewrite !Ew, Hp.
  destruct (p_proj (ts_p s)); [|destruct (p_guid (ts_p s))].
  - rewrite !scaler_mirror, tt_euler_mirror, tt_reward_mirror. reflexivity.
  - rewrite !scaler_mirror, !tt_euler_mirror, !Hg, tt_reward_mirror, tt_coll_mirror by auto.
    unfold ts_hitch. cbn [tt_world_mirror ts_p]. rewrite tt_hitch_mirror.
    unfold mst; cbn [st_q st_obs st_rew st_done st_app st_bak]. destruct viz; reflexivity.
  - rewrite !scaler_mirror, !tt_euler_mirror, !shield_dispatch. unfold enabled_bad.
    change (ts_hitch (tt_world_mirror s)) with (tt_hitch (ts_p s)). change (ts_hitch s) with (tt_hitch (ts_p s)).
    rewrite !tt_hitch_mirror, !tt_coll_mirror by auto.
    match goal with |- context [if ?b then st_q st else _] => destruct b end;
      rewrite ?Ew, ?scaler_mirror, ?tt_reward_mirror; reflexivity.
Qed.
Lemma zero_where b x : @where_ act b (0, 0) (mirror_act x) = mirror_act (@where_ act b (0, 0) x).
Proof. destruct b; unfold where_; [symmetry; apply zero_mirror|reflexivity]. Qed.
Lemma bk_coll_mirror s q : tractor_sized (bs_p s) -> bs_coll (bk_world_mirror s) (bk_mirror q) = bs_coll s q.
Proof.
  intros Hs. unfold bs_coll, bk_coll, bk_world_mirror, bk_corners, bk_mirror. cbn [bs_p bs_circ bs_rect b_px b_py b_th].
  rewrite tractor_corners_mirror, !existsb_map'. f_equal; apply existsb_ext'; intros o.
  - apply tractor_circle_mirror; auto.
  - apply tractor_rect_mirror.
Qed.
Lemma bk_dpos_mirror p xg q : bk_dpos p (bk_mirror xg) (bk_mirror q) = bk_dpos p xg q.
Proof.
  unfold bk_dpos, bk_mirror; cbn [b_px b_py b_th]. rewrite cos_neg, sin_neg, <- pnorm_mirror. f_equal.
  unfold psub, mirror; cbn [fst snd]. f_equal; ring.
Qed.
Lemma bk_reward_mirror s q : bk_reward (bk_world_mirror s) (bk_mirror q) = bk_reward s q.
Proof.
  unfold bk_reward, bk_world_mirror. cbn [bs_p bs_xg]. cbv zeta. rewrite bk_dpos_mirror.
  unfold bk_mirror. cbn [b_th]. rewrite !hitch_mirror, !hitch_mirror_pi. set (ud := Rltb _ _).
  destruct (Z.eqb (p_motion (bs_p s)) 0), ud; unfold where_; rewrite ?hitch_mirror, ?hitch_mirror_pi; reflexivity.
Qed.
Lemma bk_euler_mirror p q u : bk_euler p (bk_mirror q) (mirror_act u) = bk_mirror (bk_euler p q u).
Proof.
  destruct u as [v d]. unfold bk_euler, euler, bk_axpy, bk_dyn, bk_mirror, mirror_act; cbn [b_px b_py b_th fst snd].
  rewrite !cos_neg, !sin_neg, tan_opp. f_equal; ring.
Qed.
Lemma bk_step_mirror s proj proj' guide guide' viz :
  tractor_sized (bs_p s) ->
  (forall q a, proj' (bk_mirror q) (mirror_act a) = mirror_act (proj q a)) ->
  (forall q, guide' (bk_mirror q) = bk_mirror (guide q)) ->
  mstep bk_mirror (bk_step_internal s proj guide viz) (bk_step_internal (bk_world_mirror s) proj' guide' viz).
Proof.
  intros Hs Hp Hg st a. unfold bk_step_internal, bk_step_with.
  change (bs_p (bk_world_mirror s)) with (bs_p s). cbv zeta.
  change (st_q (mst bk_mirror st)) with (bk_mirror (st_q st)). change (st_bak (mst bk_mirror st)) with (st_bak st).
  rewrite clip_act_mirror, !zero_where, Hp. unfold bk_hitch.
  destruct (p_proj (bs_p s)); [|destruct (p_guid (bs_p s))].
  - rewrite !scaler_mirror, bk_euler_mirror, bk_reward_mirror, bk_coll_mirror by auto. reflexivity.
  - rewrite !scaler_mirror, !bk_euler_mirror, !Hg, bk_reward_mirror, bk_coll_mirror by auto.
    unfold mst; cbn [st_q st_obs st_rew st_done st_app st_bak]. destruct viz; reflexivity.
  - rewrite !scaler_mirror, !bk_euler_mirror, !shield_dispatch. unfold enabled_bad.
    rewrite !bk_coll_mirror by auto.
    match goal with |- context [if ?b then st_q st else _] => destruct b end;
      rewrite ?zero_where, ?scaler_mirror, ?bk_reward_mirror; reflexivity.
Qed.

(** N-trailer. *)
Lemma jget_opp l i : jget (map Ropp l) i = - jget l i.
Proof.
  unfold jget. rewrite map_length. set (k := Nat.min _ _). clearbody k. revert k.
  induction l as [|x l IH]; intros [|k]; cbn [map nth]; auto; symmetry; apply Ropp_0.
Qed.
Definition mcar (c : nt_carry) : nt_carry := mkNTC (- k_theta c) (- k_dot c) (k_speed c) (map Ropp (k_dots c)).
Lemma nt_dyn_mirror s xg q u : nt_dyn (mkNTSelf (ns_p s) (ns_len s) (ns_front s) (ns_rear s) (map circle_mirror (ns_circ s)) (map rect_mirror (ns_rect s)) xg) (nt_mirror q) (mirror_act u) = nt_mirror (nt_dyn s q u).
Proof.
  destruct u as [v d]. unfold nt_dyn, mirror_act; cbn [fst snd]. cbv zeta.
  set (s' := mkNTSelf _ _ _ _ _ _ _). change (ns_p s') with (ns_p s). change (ns_N s') with (ns_N s).
  cbn [nt_mirror n_px n_py n_th0 n_ths].
  rewrite tan_opp, cos_neg, sin_neg.
  assert (B : forall c i, nt_dyn_body s' v (- d) (v / p_l1 (ns_p s) * - tan d) (map Ropp (n_ths q)) (mcar c) i =
    mcar (nt_dyn_body s v d (v / p_l1 (ns_p s) * tan d) (n_ths q) c i)).
  { intros c i. unfold nt_dyn_body, mcar; cbn [k_theta k_dot k_speed k_dots]. cbv zeta.
    change (ns_p s') with (ns_p s). change (ns_len s') with (ns_len s).
    rewrite jget_opp, map_app; cbn [map]. set (ti := jget (n_ths q) i).
    replace (- k_theta c - - ti) with (- (k_theta c - ti)) by ring. rewrite cos_neg, sin_neg, tan_opp.
    unfold where_, Rdiv. destruct (Nat.eqb i 0); f_equal; try ring; f_equal; f_equal; ring. }
  assert (F : forall is c, fold_left (nt_dyn_body s' v (- d) (v / p_l1 (ns_p s) * - tan d) (map Ropp (n_ths q))) is (mcar c) =
    mcar (fold_left (nt_dyn_body s v d (v / p_l1 (ns_p s) * tan d) (n_ths q)) is c)).
  { induction is as [|i is IH]; intros c; cbn [fold_left]; [reflexivity|]. rewrite B. apply IH. }
  replace (mkNTC (- n_th0 q) (v / p_l1 (ns_p s) * - tan d) v []) with (mcar (mkNTC (n_th0 q) (v / p_l1 (ns_p s) * tan d) v [])).
  2:{ unfold mcar; cbn [k_theta k_dot k_speed k_dots map]. f_equal. ring. }
  rewrite F. set (c := fold_left _ _ _). unfold nt_mirror, mcar; cbn [n_px n_py n_th0 n_ths k_dots]. f_equal; ring.
Qed.
Lemma nt_euler_mirror s q u : nt_euler (nt_world_mirror s) (nt_mirror q) (mirror_act u) = nt_mirror (nt_euler s q u).
Proof.
  unfold nt_euler, euler. cbv zeta. unfold nt_world_mirror at 2. rewrite nt_dyn_mirror. cbn [nt_world_mirror ns_p].
  set (k := nt_dyn s q u). unfold nt_axpy, nt_mirror; cbn [n_px n_py n_th0 n_ths]. rewrite map2_map, map_map2.
  f_equal; try ring. apply map2_ext. intros; ring.
Qed.
Lemma nt_hitch_scan_mirror phi l : forall a v, nt_hitch_scan phi (- a) v (map Ropp l) = nt_hitch_scan phi a v l.
Proof.
  induction l as [|th l IH]; intros a v; cbn [nt_hitch_scan map]; [reflexivity|]. rewrite IH, hitch_mirror. reflexivity.
Qed.
Lemma nt_hitch_mirror s q : nt_hitch (nt_world_mirror s) (nt_mirror q) = nt_hitch s q.
Proof.
  unfold nt_hitch. cbv zeta. change (ns_N (nt_world_mirror s)) with (ns_N s). change (ns_p (nt_world_mirror s)) with (ns_p s).
  cbn [nt_mirror n_th0 n_ths]. rewrite firstn_map, jget_opp, hitch_mirror.
  replace (tl (map Ropp (firstn (ns_N s) (n_ths q)))) with (map Ropp (tl (firstn (ns_N s) (n_ths q)))).
  - apply nt_hitch_scan_mirror.
  - destruct (firstn (ns_N s) (n_ths q)); reflexivity.
Qed.
Lemma nt_last_pos_mirror s q : nt_last_pos (nt_world_mirror s) (nt_mirror q) = mirror (nt_last_pos s q).
Proof.
  unfold nt_last_pos. cbv zeta. change (ns_N (nt_world_mirror s)) with (ns_N s). change (ns_p (nt_world_mirror s)) with (ns_p s).
  cbn [nt_mirror n_px n_py n_th0 n_ths]. rewrite cos_neg, sin_neg.
  set (lh := p_lh (ns_p s)).
  assert (B : forall c i, nt_last_body (nt_world_mirror s) (map Ropp (n_ths q)) (mirror (fst c), mirror (snd c)) i =
    (mirror (fst (nt_last_body s (n_ths q) c i)), mirror (snd (nt_last_body s (n_ths q) c i)))).
  { intros [[hx hy] l] i. cbn [fst snd]. change (mirror (hx, hy)) with (hx, - hy). unfold nt_last_body. cbv zeta. cbn [fst snd].
    change (ns_len (nt_world_mirror s)) with (ns_len s). change (ns_front (nt_world_mirror s)) with (ns_front s).
    rewrite jget_opp, cos_neg, sin_neg. unfold mirror; cbn [fst snd]. apply injective_projections; cbn [fst snd]; apply injective_projections; cbn [fst snd]; ring. }
  assert (F : forall is c, fold_left (nt_last_body (nt_world_mirror s) (map Ropp (n_ths q))) is (mirror (fst c), mirror (snd c)) =
    (mirror (fst (fold_left (nt_last_body s (n_ths q)) is c)), mirror (snd (fold_left (nt_last_body s (n_ths q)) is c)))).
  { induction is as [|i is IH]; intros c; cbn [fold_left]; [reflexivity|]. rewrite B. apply IH. }
  set (h := (n_px q - lh * cos (n_th0 q), n_py q - lh * sin (n_th0 q))).
  replace (n_px q - lh * cos (n_th0 q), - n_py q - lh * - sin (n_th0 q)) with (mirror h)
    by (unfold h, mirror; cbn [fst snd]; f_equal; ring).
  change (mirror h, mirror h) with (mirror (fst (h, h)), mirror (snd (h, h))). rewrite F. reflexivity.
Qed.
Lemma nt_dpos_mirror s q : nt_dpos (nt_world_mirror s) (nt_mirror q) = nt_dpos s q.
Proof.
  unfold nt_dpos. cbv zeta. change (ns_xg (nt_world_mirror s)) with (nt_mirror (ns_xg s)).
  change (ns_p (nt_world_mirror s)) with (ns_p s).
  rewrite !nt_last_pos_mirror, psub_mirror, pnorm_mirror.
  replace (pnorm (psub (n_px (nt_mirror q) + p_l1 (ns_p s) * cos (n_th0 (nt_mirror q)), n_py (nt_mirror q) + p_l1 (ns_p s) * sin (n_th0 (nt_mirror q)))
    (n_px (nt_mirror (ns_xg s)), n_py (nt_mirror (ns_xg s)))))
    with (pnorm (psub (n_px q + p_l1 (ns_p s) * cos (n_th0 q), n_py q + p_l1 (ns_p s) * sin (n_th0 q)) (n_px (ns_xg s), n_py (ns_xg s)))).
  - reflexivity.
  - cbn [nt_mirror n_px n_py n_th0]. rewrite cos_neg, sin_neg, <- pnorm_mirror. f_equal.
    unfold psub, mirror; cbn [fst snd]. f_equal; ring.
Qed.
Lemma nt_reward_mirror s q : nt_reward (nt_world_mirror s) (nt_mirror q) = nt_reward s q.
Proof. unfold nt_reward. rewrite nt_dpos_mirror. reflexivity. Qed.
Lemma nt_terminal_mirror s q : nt_terminal (nt_world_mirror s) (nt_mirror q) = nt_terminal s q.
Proof. unfold nt_terminal. rewrite nt_dpos_mirror. reflexivity. Qed.
(** The trailer bodies, each a proper box, and their mirror images. *)
Definition boxy (cs : list pt) : Prop :=
  exists cx cy ang hl hw, 1 / 20000 <= hl /\ 1 / 20000 <= hw /\ cs = box_corners cx cy ang hl hw.
Lemma nt_trailer_corners_mirror s q : nt_sized s ->
  nt_trailer_corners (nt_world_mirror s) (nt_mirror q) = map reflect (nt_trailer_corners s q) /\
  Forall boxy (nt_trailer_corners s q).
Proof.
  intros (_ & Hw & _ & Hf & Hr & Hs0).
  assert (Hs : forall i, (i < ns_N s)%nat -> / 10000 <= jget (ns_front s) i + jget (ns_rear s) i).
  { intros i Hi. unfold ns_N in Hi. pose proof (Hs0 i Hi). rewrite !jget_nth by lia. assumption. }
  unfold nt_trailer_corners. cbv zeta.
  change (ns_N (nt_world_mirror s)) with (ns_N s). change (ns_p (nt_world_mirror s)) with (ns_p s).
  cbn [nt_mirror n_px n_py n_th0 n_ths]. rewrite cos_neg, sin_neg. set (lh := p_lh (ns_p s)).
  assert (B : forall c i, nt_rect_body (nt_world_mirror s) (map Ropp (n_ths q)) (mirror (fst c), map reflect (snd c)) i =
    (mirror (fst (nt_rect_body s (n_ths q) c i)), map reflect (snd (nt_rect_body s (n_ths q) c i)))).
  { intros [[hx hy] l] i. cbn [fst snd]. change (mirror (hx, hy)) with (hx, - hy). unfold nt_rect_body. cbv zeta. cbn [fst snd].
    change (ns_p (nt_world_mirror s)) with (ns_p s). change (ns_len (nt_world_mirror s)) with (ns_len s).
    change (ns_front (nt_world_mirror s)) with (ns_front s). change (ns_rear (nt_world_mirror s)) with (ns_rear s).
    rewrite jget_opp, cos_neg, sin_neg, map_app. cbn [map]. rewrite <- box_mirror. unfold mirror; cbn [fst snd].
    apply injective_projections; cbn [fst snd].
    - apply injective_projections; cbn [fst snd]; ring.
    - f_equal. apply (f_equal2 (@cons (list pt))); [|reflexivity]. f_equal. ring. }
  assert (F : forall is c, fold_left (nt_rect_body (nt_world_mirror s) (map Ropp (n_ths q))) is (mirror (fst c), map reflect (snd c)) =
    (mirror (fst (fold_left (nt_rect_body s (n_ths q)) is c)), map reflect (snd (fold_left (nt_rect_body s (n_ths q)) is c)))).
  { induction is as [|i is IH]; intros c; cbn [fold_left]; [reflexivity|]. rewrite B. apply IH. }
  assert (G : forall is c, (forall i, In i is -> (i < ns_N s)%nat) -> Forall boxy (snd c) ->
    Forall boxy (snd (fold_left (nt_rect_body s (n_ths q)) is c))).
  { induction is as [|i is IH]; intros c Hi Hc; cbn [fold_left]; [exact Hc|]. apply IH; [intros; apply Hi; right; auto|].
    destruct c as [[hx hy] l]. unfold nt_rect_body. cbv zeta. cbn [fst snd] in *. apply Forall_app. split; [exact Hc|].
    constructor; [|constructor]. pose proof (Hs i (Hi i (or_introl eq_refl))).
    do 5 eexists. split; [|split; [|reflexivity]]; lra. }
  set (h := (n_px q - lh * cos (n_th0 q), n_py q - lh * sin (n_th0 q))).
  replace (n_px q - lh * cos (n_th0 q), - n_py q - lh * - sin (n_th0 q)) with (mirror h)
    by (unfold h, mirror; cbn [fst snd]; f_equal; ring).
  split.
  - change (mirror h, @nil (list pt)) with (mirror (fst (h, @nil (list pt))), map reflect (snd (h, @nil (list pt)))).
    rewrite F. reflexivity.
  - apply G; [|constructor]. intros i Hi. apply in_seq in Hi. lia.
Qed.
Lemma nt_coll_mirror s q : nt_sized s -> ns_coll (nt_world_mirror s) (nt_mirror q) = ns_coll s q.
Proof.
  intros Hs. destruct (nt_trailer_corners_mirror s q Hs) as [E F]. destruct Hs as (Ht & _).
  unfold ns_coll, nt_coll. cbv zeta. rewrite E. set (rcs := nt_trailer_corners s q) in *. clearbody rcs. clear E.
  replace (nt_tractor_corners (nt_world_mirror s) (nt_mirror q)) with (reflect (nt_tractor_corners s q))
    by (symmetry; apply tractor_corners_mirror).
  cbn [nt_world_mirror ns_circ ns_rect]. rewrite !existsb_map'.
  f_equal; f_equal.
  - apply existsb_ext'; intros o. apply tractor_circle_mirror; auto.
  - apply (existsb_ext_F _ _ boxy); auto. intros cs (cx & cy & ang & hl & hw & H1 & H2 & ->).
    rewrite existsb_map'. apply existsb_ext'; intros o. apply hits_circle_mirror; auto.
  - apply existsb_ext'; intros o. apply tractor_rect_mirror.
  - apply (existsb_ext_F _ _ boxy); auto. intros cs (cx & cy & ang & hl & hw & H1 & H2 & ->).
    rewrite existsb_map'. apply existsb_ext'; intros o. apply hits_rect_mirror.
Qed.
Lemma nt_step_mirror s guide guide' viz :
  nt_sized s -> (forall q, guide' (nt_mirror q) = nt_mirror (guide q)) ->
  mstep nt_mirror (nt_step_core s guide viz) (nt_step_core (nt_world_mirror s) guide' viz).
Proof.
  intros Hs Hg st a. unfold nt_step_core, nt_step_with.
  change (ns_p (nt_world_mirror s)) with (ns_p s). cbv zeta.
  change (st_q (mst nt_mirror st)) with (nt_mirror (st_q st)). change (st_bak (mst nt_mirror st)) with (st_bak st).
  rewrite clip_act_mirror, !zero_where.
  destruct (p_guid (ns_p s)).
  - rewrite !scaler_mirror, !nt_euler_mirror, !Hg, nt_reward_mirror, nt_coll_mirror, nt_hitch_mirror by auto.
    unfold mst; cbn [st_q st_obs st_rew st_done st_app st_bak]. destruct viz; reflexivity.
  - rewrite !scaler_mirror, !nt_euler_mirror, !shield_dispatch. unfold enabled_bad.
    rewrite !nt_coll_mirror, !nt_hitch_mirror by auto.
    match goal with |- context [if ?b then st_q st else _] => destruct b end;
      rewrite ?zero_where, ?nt_reward_mirror; reflexivity.
Qed.

(** Acceleration class. *)
Lemma acc_euler_mirror s q u dt : 0 <= p_dmax (as_p s) ->
  acc_euler (acc_world_mirror s) (acc_mirror q) (mirror_act u) dt = acc_mirror (acc_euler s q u dt).
Proof.
  intros Hd. destruct u as [a w]. unfold acc_euler, euler, acc_dyn, mirror_act. cbv zeta. cbn [fst snd].
  change (as_p (acc_world_mirror s)) with (as_p s). cbn [acc_mirror a_q a_v a_d].
  rewrite clip_opp_sym by auto. set (v := clip (a_v q) _ _). set (d := clip (a_d q) _ _).
  pose proof (tt_dt_euler_mirror (as_p s) (a_q q) (v, d) dt) as H.
  unfold euler, mirror_act in H. cbv zeta in H. cbn [fst snd] in H.
  unfold acc_axpy; cbn [a_q a_v a_d]. change (a_q (acc_mirror q)) with (tt_mirror (a_q q)). change (a_d (acc_mirror q)) with (- a_d q). change (a_v (acc_mirror q)) with (a_v q). rewrite H. unfold acc_mirror; cbn [a_q a_v a_d]. f_equal. ring.
Qed.
Lemma stop_mirror x : mirror_act (x, 0) = (x, 0).
Proof. unfold mirror_act; cbn. rewrite Ropp_0. reflexivity. Qed.
Section AccMirror.
Variable s : acc_self.
Hypothesis Hs : tt_sized (as_p s).
Hypothesis Hd : 0 <= p_dmax (as_p s).
Lemma acc_coll_mirror q : as_coll (acc_world_mirror s) (acc_mirror q) = as_coll s q.
Proof. unfold as_coll. cbn [acc_world_mirror as_t acc_mirror a_q]. apply tt_coll_mirror. exact Hs. Qed.
Lemma acc_hitch_mirror q : as_hitch (acc_world_mirror s) (acc_mirror q) = as_hitch s q.
Proof. unfold as_hitch, ts_hitch. cbn [acc_world_mirror as_t acc_mirror a_q tt_world_mirror ts_p]. apply tt_hitch_mirror. Qed.
Lemma acc_rollout_mirror x c :
  acc_rollout_step (acc_world_mirror s) (x, 0) (acc_mirror (fst (fst c)), snd (fst c), snd c) =
  (let r := acc_rollout_step s (x, 0) c in (acc_mirror (fst (fst r)), snd (fst r), snd r)).
Proof.
  destruct c as [[q oc] hv]. unfold acc_rollout_step; cbn [fst snd]. cbv zeta. cbn [fst snd].
  change (a_v (acc_mirror q)) with (a_v q).
  replace (acc_euler (acc_world_mirror s) (acc_mirror q) (x, 0) rollout_dt) with (acc_mirror (acc_euler s q (x, 0) rollout_dt))
    by (rewrite <- (acc_euler_mirror s) by auto; rewrite stop_mirror; reflexivity).
  replace (where_ (Rltb v_threshold (Rabs (a_v q))) (acc_mirror (acc_euler s q (x, 0) rollout_dt)) (acc_mirror q))
    with (acc_mirror (where_ (Rltb v_threshold (Rabs (a_v q))) (acc_euler s q (x, 0) rollout_dt) q)) by (destruct Rltb; reflexivity).
  rewrite acc_coll_mirror, acc_hitch_mirror. reflexivity.
Qed.
Lemma acc_check_mirror q : check_with_rollout (acc_world_mirror s) (acc_mirror q) = check_with_rollout s q.
Proof.
  unfold check_with_rollout. cbv zeta. change (a_v (acc_mirror q)) with (a_v q).
  change (a_backup (acc_world_mirror s) (a_v q)) with (a_backup s (a_v q)).
  change (max_rollout_steps (acc_world_mirror s)) with (max_rollout_steps s).
  rewrite acc_coll_mirror, acc_hitch_mirror. set (x := decel_sign _ _ * _).
  assert (I : forall n, Nat.iter n (acc_rollout_step (acc_world_mirror s) (x, 0)) (acc_mirror q, as_coll s q, as_hitch s q) =
    (let r := Nat.iter n (acc_rollout_step s (x, 0)) (q, as_coll s q, as_hitch s q) in (acc_mirror (fst (fst r)), snd (fst r), snd r))).
  { induction n as [|n IH]; [reflexivity|].
    change (Nat.iter (S n) (acc_rollout_step (acc_world_mirror s) (x, 0)) (acc_mirror q, as_coll s q, as_hitch s q)) with
      (acc_rollout_step (acc_world_mirror s) (x, 0) (Nat.iter n (acc_rollout_step (acc_world_mirror s) (x, 0)) (acc_mirror q, as_coll s q, as_hitch s q))).
    rewrite IH. cbv zeta. rewrite acc_rollout_mirror. reflexivity. }
  rewrite I. cbv zeta. destruct (Nat.iter (max_rollout_steps s) _ _) as [[a b] c]. reflexivity.
Qed.
Lemma acc_shield_mirror q qp :
  acc_shielded_rollout (acc_world_mirror s) (acc_mirror q) (acc_mirror qp) =
  (let r := acc_shielded_rollout s q qp in (acc_mirror (fst (fst r)), snd (fst r), snd r)).
Proof.
  unfold acc_shielded_rollout. cbv zeta. change (as_p (acc_world_mirror s)) with (as_p s).
  change (a_v (acc_mirror q)) with (a_v q). change (a_v (acc_mirror qp)) with (a_v qp).
  change (a_backup (acc_world_mirror s)) with (a_backup s).
  unfold check_single. rewrite acc_check_mirror, acc_coll_mirror, acc_hitch_mirror.
  destruct (if Rleb (Rabs (a_v qp)) v_threshold then _ else _) as [oc hv]. cbn [fst snd].
  set (x := decel_sign _ _ * _).
  replace (acc_euler (acc_world_mirror s) (acc_mirror q) (x, 0) (p_dt (as_p s))) with (acc_mirror (acc_euler s q (x, 0) (p_dt (as_p s))))
    by (rewrite <- (acc_euler_mirror s) by auto; rewrite stop_mirror; reflexivity).
  unfold where_. destruct (_ || _); reflexivity.
Qed.
Lemma acc_scaler_mirror u : acc_scaler (acc_world_mirror s) (mirror_act u) = mirror_act (acc_scaler s u).
Proof. unfold acc_scaler, mirror_act; cbn [fst snd acc_world_mirror as_amax as_omax]. f_equal; ring. Qed.
Lemma acc_reward_mirror q : acc_reward (acc_world_mirror s) (acc_mirror q) = acc_reward s q.
Proof. unfold acc_reward. cbn [acc_world_mirror as_t acc_mirror a_q]. apply tt_reward_mirror. Qed.
Lemma acc_step_mirror proj proj' guide guide' viz :
  (forall q a, proj' (acc_mirror q) (mirror_act a) = mirror_act (proj q a)) ->
  (forall q, guide' (acc_mirror q) = acc_mirror (guide q)) ->
  mstep acc_mirror (acc_step_internal s proj guide viz) (acc_step_internal (acc_world_mirror s) proj' guide' viz).
Proof.
  intros Hp Hg st a. unfold acc_step_internal, acc_step_with.
  change (as_p (acc_world_mirror s)) with (as_p s). cbv zeta.
  change (st_q (mst acc_mirror st)) with (acc_mirror (st_q st)). change (st_bak (mst acc_mirror st)) with (st_bak st).
  change (a_v (acc_mirror (st_q st))) with (a_v (st_q st)).
  change (acc_backup_norm (acc_world_mirror s)) with (acc_backup_norm s).
  rewrite clip_act_mirror, Hp.
  assert (Ew : forall b x, @where_ act b (acc_backup_norm s (a_v (st_q st))) (mirror_act x) = mirror_act (@where_ act b (acc_backup_norm s (a_v (st_q st))) x)).
  { intros [|] x; unfold where_; [|reflexivity]. unfold acc_backup_norm. symmetry. apply stop_mirror. }
  rewrite !Ew.
  destruct (p_proj (as_p s)); [|destruct (p_guid (as_p s))].
  - rewrite !acc_scaler_mirror, acc_euler_mirror, acc_reward_mirror by auto. reflexivity.
  - rewrite !acc_scaler_mirror, !acc_euler_mirror, !Hg, acc_reward_mirror, acc_coll_mirror, acc_hitch_mirror by auto.
    unfold mst; cbn [st_q st_obs st_rew st_done st_app st_bak]. destruct viz; reflexivity.
  - rewrite !acc_scaler_mirror, !acc_euler_mirror by auto.
    set (qp := acc_euler s _ _ _). unfold step_without_shield.
    rewrite acc_shield_mirror, acc_coll_mirror, acc_hitch_mirror. cbv zeta.
    destruct (p_sh_coll (as_p s) || p_sh_hitch (as_p s)).
    + destruct (acc_shielded_rollout s (st_q st) qp) as [[qf oc] hv]. cbn [fst snd].
      rewrite Ew, acc_reward_mirror. reflexivity.
    + rewrite Ew, acc_reward_mirror. reflexivity.
Qed.
End AccMirror.

(** ** C76 *)
(** C76, tractor-trailer: reflect world, start, goal and the noise's steering draws, and the plan is reflected:
    same longitudinal commands, opposite steering commands, same reward, reflected trajectory; whatever the
    mode, provided projection, guidance and demonstration score are themselves left-right symmetric. *)
Lemma l_C76_tt_plan_mirrors :
  forall (s : tt_self) (x0 : ttq) proj proj' guide guide' logpd logpd' rx (g : cfg) (rg : prng) out out',
  tt_sized (ts_p s) ->
  (forall q a, proj' (tt_mirror q) (mirror_act a) = mirror_act (proj q a)) ->
  (forall q, guide' (tt_mirror q) = tt_mirror (guide q)) ->
  (forall qs k, logpd' (map tt_mirror qs) k = logpd qs k) ->
  run_diffusion (tt_penv s x0 proj guide logpd rx) (Some g) rg = Ok out ->
  run_diffusion (tt_penv (tt_world_mirror s) (tt_mirror x0) proj' guide' logpd' rx) (Some g) (mirror_noise rg) = Ok out' ->
  o_Y0 out' = map mirror_act (o_Y0 out) /\ o_rew out' = o_rew out /\ o_traj out' = map tt_mirror (o_traj out).
Proof.
  intros s x0 proj proj' guide guide' logpd logpd' rx g rg out out' Hs Hp Hg Hl E E'.
  injection E as <-. injection E' as <-.
  assert (E : menv tt_mirror (tt_penv s x0 proj guide logpd rx) (tt_penv (tt_world_mirror s) (tt_mirror x0) proj' guide' logpd' rx)).
  { constructor; try reflexivity; try (apply tt_step_mirror; auto).
    - unfold tt_penv, mst, reset_state; cbn [pe_reset st_q st_obs st_rew st_done st_app st_bak]. rewrite zero_mirror. reflexivity.
    - intros q. apply tt_terminal_mirror.
    - exact Hl. }
  destruct (run_mirror tt_mirror _ _ g rg E) as (A & B & C & _). auto.
Qed.
(** C76, bicycle. *)
Lemma l_C76_bk_plan_mirrors :
  forall (s : bk_self) (x0 : bkq) proj proj' guide guide' logpd logpd' rx (g : cfg) (rg : prng) out out',
  tractor_sized (bs_p s) ->
  (forall q a, proj' (bk_mirror q) (mirror_act a) = mirror_act (proj q a)) ->
  (forall q, guide' (bk_mirror q) = bk_mirror (guide q)) ->
  (forall qs k, logpd' (map bk_mirror qs) k = logpd qs k) ->
  run_diffusion (bk_penv s x0 proj guide logpd rx) (Some g) rg = Ok out ->
  run_diffusion (bk_penv (bk_world_mirror s) (bk_mirror x0) proj' guide' logpd' rx) (Some g) (mirror_noise rg) = Ok out' ->
  o_Y0 out' = map mirror_act (o_Y0 out) /\ o_rew out' = o_rew out /\ o_traj out' = map bk_mirror (o_traj out).
Proof.
  intros s x0 proj proj' guide guide' logpd logpd' rx g rg out out' Hs Hp Hg Hl E E'.
  injection E as <-. injection E' as <-.
  assert (E : menv bk_mirror (bk_penv s x0 proj guide logpd rx) (bk_penv (bk_world_mirror s) (bk_mirror x0) proj' guide' logpd' rx)).
  { constructor; try reflexivity; try (apply bk_step_mirror; auto).
    - unfold bk_penv, mst, reset_state; cbn [pe_reset st_q st_obs st_rew st_done st_app st_bak]. rewrite zero_mirror. reflexivity.
    - intros q. unfold bk_penv, bk_terminal; cbn [pe_terminal bk_world_mirror bs_p bs_xg]. rewrite bk_dpos_mirror. reflexivity.
    - exact Hl. }
  destruct (run_mirror bk_mirror _ _ g rg E) as (A & B & C & _). auto.
Qed.
(** C76, n-trailer, any number of trailers. *)
Lemma l_C76_nt_plan_mirrors :
  forall (s : nt_self) (x0 : ntq) guide guide' logpd logpd' rx (g : cfg) (rg : prng) out out',
  nt_sized s ->
  (forall q, guide' (nt_mirror q) = nt_mirror (guide q)) ->
  (forall qs k, logpd' (map nt_mirror qs) k = logpd qs k) ->
  nt_run s x0 guide logpd rx g rg = Ok out ->
  nt_run (nt_world_mirror s) (nt_mirror x0) guide' logpd' rx g (mirror_noise rg) = Ok out' ->
  o_Y0 out' = map mirror_act (o_Y0 out) /\ o_rew out' = o_rew out /\ o_traj out' = map nt_mirror (o_traj out).
Proof.
  intros s x0 guide guide' logpd logpd' rx g rg out out' Hs Hg Hl E E'.
  unfold nt_run in E, E'.
  destruct (negb _); [discriminate|]. destruct (p_proj (ns_p s)) eqn:Ep; [discriminate|].
  destruct (negb _); [discriminate|]. change (ns_p (nt_world_mirror s)) with (ns_p s) in E'. rewrite Ep in E'.
  injection E as <-. injection E' as <-.
  assert (E : menv nt_mirror (nt_penv s x0 guide logpd rx) (nt_penv (nt_world_mirror s) (nt_mirror x0) guide' logpd' rx)).
  { constructor; try reflexivity; try (apply nt_step_mirror; auto).
    - unfold nt_penv, mst, reset_state; cbn [pe_reset st_q st_obs st_rew st_done st_app st_bak]. rewrite zero_mirror. reflexivity.
    - intros q. apply nt_terminal_mirror.
    - exact Hl. }
  destruct (run_mirror nt_mirror _ _ g rg E) as (A & B & C & _). auto.
Qed.
(** C76, acceleration class: the steering angle in the state is reflected too, the speed is not; the braking
    prediction of the shield is symmetric. *)
Lemma l_C76_acc_plan_mirrors :
  forall (s : acc_self) (x0 : accq) proj proj' guide guide' logpd logpd' rx (g : cfg) (rg : prng) out out',
  tt_sized (as_p s) -> 0 <= p_dmax (as_p s) ->
  (forall q a, proj' (acc_mirror q) (mirror_act a) = mirror_act (proj q a)) ->
  (forall q, guide' (acc_mirror q) = acc_mirror (guide q)) ->
  (forall qs k, logpd' (map acc_mirror qs) k = logpd qs k) ->
  run_diffusion (acc_penv s x0 proj guide logpd rx) (Some g) rg = Ok out ->
  run_diffusion (acc_penv (acc_world_mirror s) (acc_mirror x0) proj' guide' logpd' rx) (Some g) (mirror_noise rg) = Ok out' ->
  o_Y0 out' = map mirror_act (o_Y0 out) /\ o_rew out' = o_rew out /\ o_traj out' = map acc_mirror (o_traj out).
Proof.
  intros s x0 proj proj' guide guide' logpd logpd' rx g rg out out' Hs Hd Hp Hg Hl E E'.
  injection E as <-. injection E' as <-.
  assert (E : menv acc_mirror (acc_penv s x0 proj guide logpd rx) (acc_penv (acc_world_mirror s) (acc_mirror x0) proj' guide' logpd' rx)).
  { constructor; try reflexivity; try (apply acc_step_mirror; auto).
    - unfold acc_penv, mst, reset_state; cbn [pe_reset st_q st_obs st_rew st_done st_app st_bak]. rewrite zero_mirror. reflexivity.
    - intros q. unfold acc_penv, acc_terminal; cbn [pe_terminal acc_world_mirror as_t acc_mirror a_q]. apply tt_terminal_mirror.
    - exact Hl. }
  destruct (run_mirror acc_mirror _ _ g rg E) as (A & B & C & _). auto.
Qed.
(** C76, one step of the tractor-trailer, any shields: the mirrored vehicle takes the mirrored step, is stopped
    exactly when the other one is, and collects the same reward. *)
Lemma l_C76_tt_step_mirrors :
  forall (s : tt_self) (q : ttq) (a : act), tt_sized (ts_p s) -> p_proj (ts_p s) = false -> p_guid (ts_p s) = false ->
  let id1 := fun (_ : ttq) (u : act) => u in
  let id2 := fun q : ttq => q in
  let r := tt_step s id1 id2 (reset_state q) a in
  let r' := tt_step (tt_world_mirror s) id1 id2 (reset_state (tt_mirror q)) (mirror_act a) in
  st_q r' = tt_mirror (st_q r) /\ st_app r' = mirror_act (st_app r) /\ st_rew r' = st_rew r.
Proof.
  intros s q a Hs Hp Hg. cbv zeta. unfold tt_step.
  pose proof (tt_step_mirror s (fun _ u => u) (fun _ u => u) (fun q => q) (fun q => q) false Hs
    (fun _ _ => eq_refl) (fun _ => eq_refl) (reset_state q) a) as H.
  replace (mst tt_mirror (reset_state q)) with (reset_state (tt_mirror q)) in H
    by (unfold mst, reset_state; cbn [st_q st_obs st_rew st_done st_app st_bak]; rewrite zero_mirror; reflexivity).
  rewrite H. repeat split.
Qed.
(** C76, collision verdicts: the mirrored pose hits the mirrored obstacles exactly when the pose hits the
    obstacles, and the hitch limit is the same to the left and to the right. *)
Lemma l_C76_verdicts_mirror :
  forall (s : tt_self) (q : ttq), tt_sized (ts_p s) ->
  ts_coll (tt_world_mirror s) (tt_mirror q) = ts_coll s q /\
  ts_hitch (tt_world_mirror s) (tt_mirror q) = ts_hitch s q.
Proof. intros s q Hs. split; [apply tt_coll_mirror; auto|]. apply tt_hitch_mirror. Qed.
(** Non-vacuity: a parking task with an obstacle to the left becomes one with an obstacle to the right, vehicles of
    the default size qualify, and both plans exist for every noise. *)
Lemma x_C76_example :
  let s := mkTTSelf default_params [mkCircle 5 3 1] [mkRect 8 (-4) 4 2 (1/2)] (mkTT 10 1 0 0) in
  tt_sized (ts_p s) /\ ts_circ (tt_world_mirror s) = [mkCircle 5 (-3) 1] /\
  ts_rect (tt_world_mirror s) = [mkRect 8 4 4 2 (- (1/2))] /\ tt_world_mirror s <> s /\
  tt_mirror (mkTT 3 4 1 2) = mkTT 3 (-4) (-1) (-2) /\
  forall g rg, exists out out',
    run_diffusion (tt_penv s (mkTT 3 4 1 2) (fun _ u => u) (fun q => q) (fun _ _ => 0) 0) (Some g) rg = Ok out /\
    run_diffusion (tt_penv (tt_world_mirror s) (mkTT 3 (-4) (-1) (-2)) (fun _ u => u) (fun q => q) (fun _ _ => 0) 0)
      (Some g) (mirror_noise rg) = Ok out'.
Proof.
  cbv zeta. split; [|split; [|split; [|split; [|split]]]].
  - unfold tt_sized, tractor_sized, default_params. cbn. lra.
  - cbn [tt_world_mirror ts_circ map]. unfold circle_mirror; cbn [c_x c_y c_r]. f_equal.
  - cbn [tt_world_mirror ts_rect map]. unfold rect_mirror; cbn [r_x r_y r_w r_h r_ang].
    repeat f_equal; lra.
  - intros H. apply (f_equal ts_circ) in H. cbn [tt_world_mirror ts_circ map] in H. unfold circle_mirror in H; cbn [c_x c_y c_r] in H.
    injection H as H. lra.
  - reflexivity.
  - intros g rg. eexists; eexists. split; reflexivity.
Qed.
