(** * ProofsFrame: world-frame invariance (C45). *)
From Verif Require Import Base BaseFacts Params Geom TT2d Bicycle NTrailer SpecGeom SpecBodies SpecDyn SpecSym
  Rollout Planner Instances ProofsGeom ProofsBodies ProofsKin ProofsRobots ProofsSafety ProofsSim ProofsSym.

Section Rigid.
Variable m : motion.
Let C := cos (m_ang m).
Let S := sin (m_ang m).
Definition rot (v : pt) : pt := (fst v * cos (m_ang m) - snd v * sin (m_ang m), fst v * sin (m_ang m) + snd v * cos (m_ang m)).

Lemma rot_trig : sin (m_ang m) * sin (m_ang m) = 1 - cos (m_ang m) * cos (m_ang m).
Proof. pose proof (sin2_cos2' (m_ang m)). lra. Qed.
Lemma psub_move a b : psub (move m a) (move m b) = rot (psub a b).
Proof. unfold psub, move, rot; cbn [fst snd]. f_equal; ring. Qed.
Lemma pdot_rot a b : pdot (rot a) (rot b) = pdot a b.
Proof. unfold pdot, rot; cbn [fst snd]. ring_simplify. replace (sin (m_ang m) ^ 2) with (1 - cos (m_ang m) * cos (m_ang m)) by (rewrite <- rot_trig; ring). ring. Qed.
Lemma sq_rot a : fst (rot a) * fst (rot a) + snd (rot a) * snd (rot a) = fst a * fst a + snd a * snd a.
Proof. apply (pdot_rot a a). Qed.
Lemma pnorm_rot a : pnorm (rot a) = pnorm a.
Proof. unfold pnorm. rewrite sq_rot. reflexivity. Qed.
Lemma padd_move a v : padd (move m a) (rot v) = move m (padd a v).
Proof. unfold padd, move, rot; cbn [fst snd]. f_equal; ring. Qed.
Lemma pscale_rot c v : pscale c (rot v) = rot (pscale c v).
Proof. unfold pscale, rot; cbn [fst snd]. f_equal; ring. Qed.
Lemma pdot_move a v : pdot (move m a) (rot v) = pdot a v + pdot (m_t m) (rot v).
Proof.
  replace (move m a) with (padd (m_t m) (rot a)) by reflexivity.
  rewrite <- (pdot_rot a v). unfold pdot, padd; cbn [fst snd]. ring.
Qed.

Lemma edge_dist_move s e c : edge_dist_sq (move m s) (rot e) (move m c) = edge_dist_sq s e c.
Proof.
  unfold edge_dist_sq. cbv zeta. rewrite sq_rot, psub_move, pdot_rot, pscale_rot, padd_move, psub_move, sq_rot. reflexivity.
Qed.
Lemma map2_map {A B A' B' D} (f : A' -> B' -> D) (g : A -> A') (h : B -> B') l k :
  map2 f (map g l) (map h k) = map2 (fun a b => f (g a) (h b)) l k.
Proof. revert k; induction l; destruct k; simpl; congruence. Qed.
Lemma map2_ext {A B D} (f g : A -> B -> D) l k : (forall a b, f a b = g a b) -> map2 f l k = map2 g l k.
Proof. intros H. revert k; induction l; destruct k; simpl; auto. rewrite H, IHl. reflexivity. Qed.
Lemma roll1_map {A B} (f : A -> B) l : roll1 (map f l) = map f (roll1 l).
Proof. destruct l; simpl; auto. rewrite map_app. reflexivity. Qed.
Lemma map_map2 {A B D E} (f : D -> E) (g : A -> B -> D) l k : map f (map2 g l k) = map2 (fun a b => f (g a b)) l k.
Proof. revert k; induction l; destruct k; simpl; congruence. Qed.
Lemma edges_move cs : edges_of (map (move m) cs) = map rot (edges_of cs).
Proof.
  unfold edges_of. rewrite roll1_map, map2_map, map_map2. apply map2_ext. intros. apply psub_move.
Qed.
Lemma rect_circle_move cs c r : rect_circle_collision (map (move m) cs) (move m c) r = rect_circle_collision cs c r.
Proof.
  unfold rect_circle_collision. rewrite edges_move, map2_map.
  rewrite (map2_ext _ (fun s e => edge_dist_sq s e c)); auto. intros; apply edge_dist_move.
Qed.
Lemma axis_move e : axis_of_edge (rot e) = rot (axis_of_edge e).
Proof.
  unfold axis_of_edge. cbv zeta.
  replace (pnorm (- snd (rot e), fst (rot e))) with (pnorm (- snd e, fst e)).
  2:{ unfold pnorm. f_equal. cbn [fst snd]. pose proof (sq_rot e). lra. }
  set (n := where_ _ _ _). unfold rot; cbn [fst snd]. f_equal; unfold Rdiv; ring.
Qed.
Lemma get_axes_move cs : get_axes (map (move m) cs) = map rot (get_axes cs).
Proof.
  unfold get_axes. rewrite edges_move. destruct (edges_of cs) as [|e0 [|e1 es]]; auto.
  cbn [map]. rewrite !axis_move. reflexivity.
Qed.
Lemma Rmin_list_shift k l : forall x, Rmin_list (x + k) (map (fun y => y + k) l) = Rmin_list x l + k.
Proof.
  induction l as [|y l IH]; intros x; simpl; auto.
  replace (Rmin (x + k) (y + k)) with (Rmin x y + k); auto. unfold Rmin; repeat destruct Rle_dec; lra.
Qed.
Lemma Rmax_list_shift k l : forall x, Rmax_list (x + k) (map (fun y => y + k) l) = Rmax_list x l + k.
Proof.
  induction l as [|y l IH]; intros x; simpl; auto.
  replace (Rmax (x + k) (y + k)) with (Rmax x y + k); auto. unfold Rmax; repeat destruct Rle_dec; lra.
Qed.
Lemma project_min_move cs a : cs <> [] -> project_min (map (move m) cs) (rot a) = project_min cs a + pdot (m_t m) (rot a).
Proof.
  intros H. unfold project_min. rewrite map_map. destruct cs as [|c cs]; [congruence|]. cbn [map Rmin_of].
  rewrite pdot_move. rewrite <- Rmin_list_shift. f_equal. rewrite map_map. apply map_ext. intros. apply pdot_move.
Qed.
Lemma project_max_move cs a : cs <> [] -> project_max (map (move m) cs) (rot a) = project_max cs a + pdot (m_t m) (rot a).
Proof.
  intros H. unfold project_max. rewrite map_map. destruct cs as [|c cs]; [congruence|]. cbn [map Rmax_of].
  rewrite pdot_move. rewrite <- Rmax_list_shift. f_equal. rewrite map_map. apply map_ext. intros. apply pdot_move.
Qed.
Lemma Rltb_shift a b k : Rltb (a + k) (b + k) = Rltb a b.
Proof. unfold Rltb; repeat destruct Rlt_dec; auto; lra. Qed.
Lemma existsb_map' {A B} (f : B -> bool) (g : A -> B) l : existsb f (map g l) = existsb (fun x => f (g x)) l.
Proof. induction l; simpl; congruence. Qed.
Lemma existsb_ext' {A} (f g : A -> bool) l : (forall x, f x = g x) -> existsb f l = existsb g l.
Proof. intros H. induction l; simpl; auto. rewrite H, IHl. reflexivity. Qed.
Lemma rect_rect_move c1 c2 : c1 <> [] -> c2 <> [] ->
  rect_rect_collision (map (move m) c1) (map (move m) c2) = rect_rect_collision c1 c2.
Proof.
  intros H1 H2. unfold rect_rect_collision. rewrite !get_axes_move, <- map_app, existsb_map'. f_equal.
  apply existsb_ext'. intros a. unfold axis_separates.
  rewrite !project_min_move, !project_max_move by auto. rewrite !Rltb_shift. reflexivity.
Qed.

Lemma box_move cx cy ang hl hw :
  box_corners (fst (move m (cx, cy))) (snd (move m (cx, cy))) (ang + m_ang m) hl hw = map (move m) (box_corners cx cy ang hl hw).
Proof.
  unfold box_corners, box_corner, move; cbn [map fst snd]. rewrite cos_plus, sin_plus.
  repeat (f_equal; try ring).
Qed.
Lemma box_nonempty cx cy ang hl hw : box_corners cx cy ang hl hw <> [].
Proof. discriminate. Qed.
Lemma obs_corners_move o : obs_corners (rect_move m o) = map (move m) (obs_corners o).
Proof. unfold obs_corners, rect_move; cbn [r_x r_y r_w r_h r_ang]. apply box_move. Qed.
Lemma hits_circle_move cs c : hits_circle (map (move m) cs) (circle_move m c) = hits_circle cs c.
Proof.
  unfold hits_circle, circle_move; cbn [c_x c_y c_r]. rewrite <- surjective_pairing. apply rect_circle_move.
Qed.
Lemma hits_rect_move cs o : cs <> [] -> hits_rect (map (move m) cs) (rect_move m o) = hits_rect cs o.
Proof. intros H. unfold hits_rect. rewrite obs_corners_move. apply rect_rect_move; auto. discriminate. Qed.

(** A point given in the vehicle frame moves along. *)
Lemma move_ahead x y th d :
  move m (x + d * cos th, y + d * sin th) =
  (fst (move m (x, y)) + d * cos (th + m_ang m), snd (move m (x, y)) + d * sin (th + m_ang m)).
Proof. unfold move; cbn [fst snd]. rewrite cos_plus, sin_plus. f_equal; ring. Qed.

Lemma tractor_corners_move p x y th :
  tractor_corners p (fst (move m (x, y))) (snd (move m (x, y))) (th + m_ang m) = map (move m) (tractor_corners p x y th).
Proof.
  unfold tractor_corners. set (d := 5/10 * _). rewrite <- box_move. rewrite move_ahead. reflexivity.
Qed.

(** ** Tractor-trailer *)
Lemma tt_trailer_corners_move p q : tt_trailer_corners p (tt_move m q) = map (move m) (tt_trailer_corners p q).
Proof.
  unfold tt_trailer_corners. unfold tt_move; cbn [t_px t_py t_th1 t_th2]. rewrite <- box_move. f_equal.
  - unfold move; cbn [fst snd]. rewrite !cos_plus. ring.
  - unfold move; cbn [fst snd]. rewrite !sin_plus. ring.
Qed.
Lemma tt_coll_move s q : ts_coll (tt_world_move m s) (tt_move m q) = ts_coll s q.
Proof.
  unfold ts_coll, tt_coll, tt_world_move; cbn [ts_p ts_circ ts_rect].
  rewrite tt_trailer_corners_move. unfold tt_tractor_corners. cbn [tt_move t_px t_py t_th1 t_th2]. rewrite tractor_corners_move.
  rewrite !existsb_map'. f_equal; apply existsb_ext'; intros o.
  - rewrite !hits_circle_move. reflexivity.
  - rewrite !hits_rect_move by discriminate. reflexivity.
Qed.
Lemma tt_hitch_move p q : tt_hitch p (tt_move m q) = tt_hitch p q.
Proof. unfold tt_hitch. cbn [tt_move t_th1 t_th2]. replace (t_th1 q + m_ang m - (t_th2 q + m_ang m)) with (t_th1 q - t_th2 q) by ring. reflexivity. Qed.
Lemma tt_trailer_pos_move p q : tt_trailer_pos p (tt_move m q) = move m (tt_trailer_pos p q).
Proof.
  unfold tt_trailer_pos, move. cbn [tt_move t_px t_py t_th1 t_th2 fst snd move]. rewrite !cos_plus, !sin_plus. f_equal; ring.
Qed.
Lemma tt_dpos_move p xg q : tt_dpos p (tt_move m xg) (tt_move m q) = tt_dpos p xg q.
Proof.
  unfold tt_dpos. rewrite !tt_trailer_pos_move, psub_move, pnorm_rot.
  cbn [tt_move t_px t_py t_th1 t_th2]. rewrite <- move_ahead, <- surjective_pairing, psub_move, pnorm_rot. reflexivity.
Qed.
Lemma tt_reward_move s q : tt_reward (tt_world_move m s) (tt_move m q) = tt_reward s q.
Proof.
  unfold tt_reward. cbn [ts_p ts_xg tt_world_move]. rewrite tt_dpos_move. cbn [tt_move t_th1 t_th2].
  replace (t_th1 q + m_ang m - (t_th1 (ts_xg s) + m_ang m)) with (t_th1 q - t_th1 (ts_xg s)) by ring.
  replace (t_th2 q + m_ang m - (t_th1 (ts_xg s) + m_ang m)) with (t_th2 q - t_th1 (ts_xg s)) by ring.
  replace (t_th1 q + m_ang m - (t_th2 q + m_ang m)) with (t_th1 q - t_th2 q) by ring. reflexivity.
Qed.
Lemma tt_terminal_move s q : tt_terminal (tt_world_move m s) (tt_move m q) = tt_terminal s q.
Proof. unfold tt_terminal. cbn [ts_p ts_xg tt_world_move]. rewrite tt_dpos_move. reflexivity. Qed.
Lemma tt_euler_move p q u : tt_euler p (tt_move m q) u = tt_move m (tt_euler p q u).
Proof.
  destruct u as [v d]. unfold tt_euler, euler, tt_axpy, tt_dyn, tt_move, move; cbn [t_px t_py t_th1 t_th2 fst snd].
  replace (t_th1 q + m_ang m - (t_th2 q + m_ang m)) with (t_th1 q - t_th2 q) by ring.
  rewrite cos_plus, sin_plus. f_equal; ring.
Qed.

(** ** Bicycle *)
Lemma bk_coll_move s q : bs_coll (bk_world_move m s) (bk_move m q) = bs_coll s q.
Proof.
  unfold bs_coll, bk_coll, bk_world_move; cbn [bs_p bs_circ bs_rect].
  unfold bk_corners. cbn [bk_move b_px b_py b_th]. rewrite tractor_corners_move.
  rewrite !existsb_map'. f_equal; apply existsb_ext'; intros o.
  - apply hits_circle_move.
  - apply hits_rect_move. discriminate.
Qed.
Lemma bk_dpos_move p xg q : bk_dpos p (bk_move m xg) (bk_move m q) = bk_dpos p xg q.
Proof.
  unfold bk_dpos. cbn [bk_move b_px b_py b_th]. rewrite <- move_ahead, <- surjective_pairing, psub_move, pnorm_rot. reflexivity.
Qed.
Lemma bk_reward_move s q : bk_reward (bk_world_move m s) (bk_move m q) = bk_reward s q.
Proof.
  unfold bk_reward. cbn [bs_p bs_xg bk_world_move]. rewrite bk_dpos_move. cbn [bk_move b_th].
  replace (b_th q + m_ang m - (b_th (bs_xg s) + m_ang m)) with (b_th q - b_th (bs_xg s)) by ring. reflexivity.
Qed.
Lemma bk_terminal_move s q : bk_terminal (bk_world_move m s) (bk_move m q) = bk_terminal s q.
Proof. unfold bk_terminal. cbn [bs_p bs_xg bk_world_move]. rewrite bk_dpos_move. reflexivity. Qed.
Lemma bk_euler_move p q u : bk_euler p (bk_move m q) u = bk_move m (bk_euler p q u).
Proof.
  destruct u as [v d]. unfold bk_euler, euler, bk_axpy, bk_dyn, bk_move, move; cbn [b_px b_py b_th fst snd].
  rewrite cos_plus, sin_plus. f_equal; ring.
Qed.

(** ** N trailers *)
Lemma jget_move l i : l <> [] -> jget (map (fun th => th + m_ang m) l) i = jget l i + m_ang m.
Proof.
  intros H. unfold jget. rewrite map_length.
  rewrite (nth_indep _ 0 (0 + m_ang m)).
  - rewrite (map_nth (fun th => th + m_ang m)). reflexivity.
  - rewrite map_length. destruct l; [congruence|]. simpl length. lia.
Qed.
Lemma seq_ths q s i : length (n_ths q) = ns_N s -> In i (seq 0 (ns_N s)) -> n_ths q <> [].
Proof. intros H Hi. apply in_seq in Hi. destruct (n_ths q); [simpl in *; lia|discriminate]. Qed.
Lemma nt_last_pos_move s q : length (n_ths q) = ns_N s ->
  nt_last_pos (nt_world_move m s) (nt_move m q) = move m (nt_last_pos s q).
Proof.
  intros Hl. unfold nt_last_pos. change (ns_N (nt_world_move m s)) with (ns_N s). change (ns_p (nt_world_move m s)) with (ns_p s).
  set (P := fun (c c' : pt * pt) => fst c' = move m (fst c) /\ snd c' = move m (snd c)).
  set (h := (n_px q - p_lh (ns_p s) * cos (n_th0 q), n_py q - p_lh (ns_p s) * sin (n_th0 q))).
  set (h' := (n_px (nt_move m q) - _, _)).
  assert (Eh : h' = move m h).
  { unfold h, h'. cbn [nt_move n_px n_py n_th0]. unfold move; cbn [fst snd]. rewrite cos_plus, sin_plus. f_equal; ring. }
  rewrite Eh.
  assert (H : P (fold_left (nt_last_body s (n_ths q)) (seq 0 (ns_N s)) (h, h))
                (fold_left (nt_last_body (nt_world_move m s) (n_ths (nt_move m q))) (seq 0 (ns_N s)) (move m h, move m h))).
  { apply fold_left_rel; [|split; reflexivity].
    intros [[hx hy] c] [h2 c2] i Hi [A B]. cbn [fst snd] in A, B. subst.
    unfold nt_last_body. rewrite (surjective_pairing (move m (hx, hy))).
    change (n_ths (nt_move m q)) with (map (fun th => th + m_ang m) (n_ths q)).
    rewrite jget_move by (eapply seq_ths; eauto).
    change (ns_len (nt_world_move m s)) with (ns_len s). change (ns_front (nt_world_move m s)) with (ns_front s).
    cbv zeta. split; cbn [fst snd]; unfold move; cbn [fst snd]; rewrite cos_plus, sin_plus; f_equal; ring. }
  apply H.
Qed.
Lemma nt_trailer_corners_move s q : length (n_ths q) = ns_N s ->
  nt_trailer_corners (nt_world_move m s) (nt_move m q) = map (map (move m)) (nt_trailer_corners s q) /\
  Forall (fun cs => cs <> []) (nt_trailer_corners s q).
Proof.
  intros Hl. unfold nt_trailer_corners. change (ns_N (nt_world_move m s)) with (ns_N s). change (ns_p (nt_world_move m s)) with (ns_p s).
  set (P := fun (c c' : pt * list (list pt)) => fst c' = move m (fst c) /\ snd c' = map (map (move m)) (snd c) /\ Forall (fun cs => cs <> []) (snd c)).
  set (h := (n_px q - p_lh (ns_p s) * cos (n_th0 q), n_py q - p_lh (ns_p s) * sin (n_th0 q))).
  set (h' := (n_px (nt_move m q) - _, _)).
  assert (Eh : h' = move m h).
  { unfold h, h'. cbn [nt_move n_px n_py n_th0]. unfold move; cbn [fst snd]. rewrite cos_plus, sin_plus. f_equal; ring. }
  rewrite Eh.
  assert (H : P (fold_left (nt_rect_body s (n_ths q)) (seq 0 (ns_N s)) (h, []))
                (fold_left (nt_rect_body (nt_world_move m s) (n_ths (nt_move m q))) (seq 0 (ns_N s)) (move m h, []))).
  { apply fold_left_rel; [|repeat split; constructor].
    intros [[hx hy] c] [h2 c2] i Hi (A & B & D). cbn [fst snd] in A, B, D. subst.
    unfold nt_rect_body. rewrite (surjective_pairing (move m (hx, hy))).
    change (n_ths (nt_move m q)) with (map (fun th => th + m_ang m) (n_ths q)).
    rewrite jget_move by (eapply seq_ths; eauto).
    change (ns_len (nt_world_move m s)) with (ns_len s). change (ns_front (nt_world_move m s)) with (ns_front s).
    change (ns_rear (nt_world_move m s)) with (ns_rear s). change (ns_p (nt_world_move m s)) with (ns_p s).
    cbv zeta. repeat split; cbn [fst snd].
    - unfold move; cbn [fst snd]; rewrite cos_plus, sin_plus; f_equal; ring.
    - rewrite map_app. f_equal. cbn [map]. f_equal. rewrite <- box_move. rewrite move_ahead. reflexivity.
    - apply Forall_app. split; auto. constructor; [discriminate|constructor]. }
  destruct H as (_ & A & B). split; auto.
Qed.
Lemma existsb_ext_F {A} (f g : A -> bool) (P : A -> Prop) l : Forall P l -> (forall x, P x -> f x = g x) -> existsb f l = existsb g l.
Proof. intros F H. induction F; simpl; auto. rewrite H, IHF by auto. reflexivity. Qed.
Lemma nt_coll_move s q : length (n_ths q) = ns_N s -> ns_coll (nt_world_move m s) (nt_move m q) = ns_coll s q.
Proof.
  intros Hl. unfold ns_coll, nt_coll. destruct (nt_trailer_corners_move s q Hl) as [E F]. rewrite E.
  unfold nt_tractor_corners. cbn [nt_world_move ns_p ns_circ ns_rect nt_move n_px n_py n_th0]. rewrite tractor_corners_move.
  rewrite !existsb_map'. f_equal; f_equal.
  - apply existsb_ext'. intros c. apply hits_circle_move.
  - apply existsb_ext'. intros cs. rewrite existsb_map'. apply existsb_ext'. intros c. apply hits_circle_move.
  - apply existsb_ext'. intros c. apply hits_rect_move. discriminate.
  - eapply existsb_ext_F; [exact F|]. intros cs Hcs. rewrite existsb_map'. apply existsb_ext'. intros c. apply hits_rect_move; auto.
Qed.
Lemma nt_hitch_scan_move phi l : forall a v,
  nt_hitch_scan phi (a + m_ang m) v (map (fun th => th + m_ang m) l) = nt_hitch_scan phi a v l.
Proof.
  induction l as [|x l IH]; intros a v; simpl; auto.
  replace (a + m_ang m - (x + m_ang m)) with (a - x) by ring. apply IH.
Qed.
Lemma nt_hitch_move s q : length (n_ths q) = ns_N s -> (1 <= ns_N s)%nat ->
  nt_hitch (nt_world_move m s) (nt_move m q) = nt_hitch s q.
Proof.
  intros Hl HN. unfold nt_hitch. change (ns_N (nt_world_move m s)) with (ns_N s). change (ns_p (nt_world_move m s)) with (ns_p s).
  cbn [nt_move n_ths n_th0]. rewrite firstn_map. rewrite <- Hl, firstn_all.
  rewrite jget_move by (destruct (n_ths q); [simpl in *; lia|discriminate]).
  replace (n_th0 q + m_ang m - (jget (n_ths q) 0 + m_ang m)) with (n_th0 q - jget (n_ths q) 0) by ring.
  destruct (n_ths q) as [|t ts]; [simpl in *; lia|]. cbn [map tl]. apply nt_hitch_scan_move.
Qed.
Lemma nt_dpos_move s q : length (n_ths q) = ns_N s -> length (n_ths (ns_xg s)) = ns_N s ->
  nt_dpos (nt_world_move m s) (nt_move m q) = nt_dpos s q.
Proof.
  intros H1 H2. unfold nt_dpos. change (ns_xg (nt_world_move m s)) with (nt_move m (ns_xg s)).
  change (ns_p (nt_world_move m s)) with (ns_p s).
  rewrite !nt_last_pos_move, psub_move, pnorm_rot by auto.
  cbn [nt_move n_px n_py n_th0]. rewrite <- move_ahead, <- surjective_pairing, psub_move, pnorm_rot. reflexivity.
Qed.
Lemma nt_dyn_move s q v d : length (n_ths q) = ns_N s ->
  n_th0 (nt_dyn (nt_world_move m s) (nt_move m q) (v, d)) = n_th0 (nt_dyn s q (v, d)) /\
  n_ths (nt_dyn (nt_world_move m s) (nt_move m q) (v, d)) = n_ths (nt_dyn s q (v, d)).
Proof.
  intros Hl. split; [reflexivity|]. unfold nt_dyn; cbn [n_ths].
  change (ns_N (nt_world_move m s)) with (ns_N s). change (ns_p (nt_world_move m s)) with (ns_p s).
  set (P := fun c c' : nt_carry => k_theta c' = k_theta c + m_ang m /\ k_dot c' = k_dot c /\ k_speed c' = k_speed c /\ k_dots c' = k_dots c).
  match goal with |- k_dots (fold_left ?f ?l ?i1) = k_dots (fold_left ?f' ?l ?i2) =>
    assert (H : P (fold_left f' l i2) (fold_left f l i1)) end.
  { apply fold_left_rel; [|repeat split; auto].
    intros c c' i Hi (A & B & D & E). unfold nt_dyn_body.
    change (ns_len (nt_world_move m s)) with (ns_len s). change (ns_p (nt_world_move m s)) with (ns_p s).
    change (n_ths (nt_move m q)) with (map (fun th => th + m_ang m) (n_ths q)).
    rewrite jget_move by (eapply seq_ths; eauto). rewrite A, B, D, E.
    replace (k_theta c + m_ang m - (jget (n_ths q) i + m_ang m)) with (k_theta c - jget (n_ths q) i) by ring.
    repeat split. }
  apply H.
Qed.
Lemma map2_add_move l k c : map2 (fun a b => a + c * b) (map (fun th => th + m_ang m) l) k
  = map (fun th => th + m_ang m) (map2 (fun a b => a + c * b) l k).
Proof. revert k; induction l; intros [|z k]; simpl; auto. f_equal; [ring|apply IHl]. Qed.
Lemma nt_euler_move s q u : length (n_ths q) = ns_N s ->
  nt_euler (nt_world_move m s) (nt_move m q) u = nt_move m (nt_euler s q u).
Proof.
  intros Hl. destruct u as [v d]. destruct (nt_dyn_move s q v d Hl) as [E1 E2].
  unfold nt_euler, euler, nt_axpy. rewrite E1, E2. change (ns_p (nt_world_move m s)) with (ns_p s).
  cbn [nt_move n_ths n_th0 n_px n_py]. rewrite map2_add_move.
  unfold nt_dyn; cbn [n_px n_py n_th0]. cbn [nt_move n_th0]. unfold move, nt_move; cbn [n_px n_py n_th0 n_ths fst snd]. unfold move; cbn [fst snd].
  rewrite cos_plus, sin_plus. f_equal; ring.
Qed.
End Rigid.

(** C45, tractor-trailer: planning in the moved world (start, goal, obstacles moved by the same
    rigid motion) returns the same controls and the same final reward, and the moved
    trajectory - in every mode, provided the demonstration score, projection and guidance
    are moved along too. *)
Lemma l_C45_tt_plan_moves_along :
  forall (m : motion) (s : tt_self) (x0 : ttq) proj proj' guide guide' logpd logpd' rx (g : cfg) (rg : prng) out out',
  (forall q a, proj' (tt_move m q) a = proj q a) ->
  (forall q, guide' (tt_move m q) = tt_move m (guide q)) ->
  (forall qs k, logpd' (map (tt_move m) qs) k = logpd qs k) ->
  run_diffusion (tt_penv s x0 proj guide logpd rx) (Some g) rg = Ok out ->
  run_diffusion (tt_penv (tt_world_move m s) (tt_move m x0) proj' guide' logpd' rx) (Some g) rg = Ok out' ->
  o_Y0 out' = o_Y0 out /\ o_rew out' = o_rew out /\ o_traj out' = map (tt_move m) (o_traj out).
Proof.
  intros m s x0 proj proj' guide guide' logpd logpd' rx g rg out out' Hp Hg Hl E E'.
  injection E as <-. injection E' as <-.
  set (Rel := fun q q' => q' = tt_move m q).
  assert (HF : forall qs qs', Forall2 Rel qs qs' -> qs' = map (tt_move m) qs).
  { induction 1 as [|a b l l' H F IH]; simpl; auto. f_equal; auto. }
  assert (S : forall viz, sim_step Rel (tt_step_internal s proj guide viz) (tt_step_internal (tt_world_move m s) proj' guide' viz)).
  { intros viz. apply tt_step_sim; unfold Rel; try reflexivity; intros; subst.
    - apply tt_euler_move.
    - symmetry. apply tt_coll_move.
    - symmetry. apply tt_hitch_move.
    - symmetry. apply tt_reward_move.
    - symmetry. apply Hp.
    - apply Hg. }
  assert (E : sim_env Rel (tt_penv s x0 proj guide logpd rx) (tt_penv (tt_world_move m s) (tt_move m x0) proj' guide' logpd' rx)).
  { constructor; try reflexivity; try apply S; auto.
    - repeat split.
    - intros q q' ->. symmetry. apply tt_terminal_move.
    - intros qs qs' k F. apply HF in F. subst. symmetry. apply Hl. }
  destruct (run_sim _ _ _ g rg E) as (A & B & _ & D). repeat split; auto.
Qed.
Lemma l_C45_bk_plan_moves_along :
  forall (m : motion) (s : bk_self) (x0 : bkq) proj proj' guide guide' logpd logpd' rx (g : cfg) (rg : prng) out out',
  (forall q a, proj' (bk_move m q) a = proj q a) ->
  (forall q, guide' (bk_move m q) = bk_move m (guide q)) ->
  (forall qs k, logpd' (map (bk_move m) qs) k = logpd qs k) ->
  run_diffusion (bk_penv s x0 proj guide logpd rx) (Some g) rg = Ok out ->
  run_diffusion (bk_penv (bk_world_move m s) (bk_move m x0) proj' guide' logpd' rx) (Some g) rg = Ok out' ->
  o_Y0 out' = o_Y0 out /\ o_rew out' = o_rew out /\ o_traj out' = map (bk_move m) (o_traj out).
Proof.
  intros m s x0 proj proj' guide guide' logpd logpd' rx g rg out out' Hp Hg Hl E E'.
  injection E as <-. injection E' as <-.
  set (Rel := fun q q' => q' = bk_move m q).
  assert (HF : forall qs qs', Forall2 Rel qs qs' -> qs' = map (bk_move m) qs).
  { induction 1 as [|a b l l' H F IH]; simpl; auto. f_equal; auto. }
  assert (S : forall viz, sim_step Rel (bk_step_internal s proj guide viz) (bk_step_internal (bk_world_move m s) proj' guide' viz)).
  { intros viz. apply bk_step_sim; unfold Rel; try reflexivity; intros; subst.
    - apply bk_euler_move.
    - symmetry. apply bk_coll_move.
    - symmetry. apply bk_reward_move.
    - symmetry. apply Hp.
    - apply Hg. }
  assert (E : sim_env Rel (bk_penv s x0 proj guide logpd rx) (bk_penv (bk_world_move m s) (bk_move m x0) proj' guide' logpd' rx)).
  { constructor; try reflexivity; try apply S; auto.
    - repeat split.
    - intros q q' ->. symmetry. apply bk_terminal_move.
    - intros qs qs' k F. apply HF in F. subst. symmetry. apply Hl. }
  destruct (run_sim _ _ _ g rg E) as (A & B & _ & D). repeat split; auto.
Qed.
(** C45, N trailers, N >= 1. *)
Lemma l_C45_nt_plan_moves_along :
  forall (m : motion) (s : nt_self) (x0 : ntq) guide guide' logpd logpd' rx (g : cfg) (rg : prng) out out',
  (1 <= p_num_trailers (ns_p s))%nat -> length (n_ths (ns_xg s)) = p_num_trailers (ns_p s) ->
  length (ns_len s) = p_num_trailers (ns_p s) ->
  (forall q, length (n_ths q) = p_num_trailers (ns_p s) ->
     guide' (nt_move m q) = nt_move m (guide q) /\ length (n_ths (guide q)) = p_num_trailers (ns_p s)) ->
  (forall qs k, logpd' (map (nt_move m) qs) k = logpd qs k) ->
  nt_run s x0 guide logpd rx g rg = Ok out ->
  nt_run (nt_world_move m s) (nt_move m x0) guide' logpd' rx g rg = Ok out' ->
  o_Y0 out' = o_Y0 out /\ o_rew out' = o_rew out /\ o_traj out' = map (nt_move m) (o_traj out).
Proof.
  intros m s x0 guide guide' logpd logpd' rx g rg out out' HN Hxg Hlen Hg Hl E E'. unfold nt_run in *.
  destruct (negb _) eqn:Hlx in E; [discriminate|]. destruct (p_proj _) in E; [discriminate|].
  destruct (negb _) in E'; [discriminate|]. destruct (p_proj _) in E'; [discriminate|].
  apply negb_false_iff in Hlx. apply Nat.eqb_eq in Hlx.
  injection E as <-. injection E' as <-.
  set (Rel := fun q q' => q' = nt_move m q /\ length (n_ths q) = ns_N s).
  assert (HF : forall qs qs', Forall2 Rel qs qs' -> qs' = map (nt_move m) qs).
  { induction 1 as [|a b l l' H F IH]; simpl; auto. f_equal; auto. apply H. }
  assert (S : forall viz, sim_step Rel (nt_step_core s guide viz) (nt_step_core (nt_world_move m s) guide' viz)).
  { intros viz. apply nt_step_sim; unfold Rel; try reflexivity.
    - intros q q' u [-> Hq]. split; [apply nt_euler_move; auto|].
      unfold nt_euler, euler, nt_axpy; cbn [n_ths]. rewrite map2_length, Hq.
      destruct u as [v d]. destruct (nt_dyn_fold s v d (n_ths q) (ns_N s) 0 (mkNTC (n_th0 q) (v / p_l1 (ns_p s) * tan d) v [])) with (dt := 1) as [_ (tail & Et & Ht)]; try lia; auto.
      { rewrite Hq. exact Hlen. }
      unfold nt_dyn; cbn [n_ths]. rewrite Et. cbn [k_dots app]. rewrite Ht. apply Nat.min_id.
    - intros q q' [-> Hq]. symmetry. apply nt_coll_move; auto.
    - intros q q' [-> Hq]. symmetry. apply nt_hitch_move; auto.
    - intros q q' [-> Hq]. unfold nt_reward. rewrite nt_dpos_move; auto.
    - intros q q' [-> Hq]. apply Hg; auto. }
  assert (E : sim_env Rel (nt_penv s x0 guide logpd rx) (nt_penv (nt_world_move m s) (nt_move m x0) guide' logpd' rx)).
  { constructor; try reflexivity; try apply S; auto.
    - split; [split; auto|]. repeat split.
    - intros q q' [-> Hq]. cbn [pe_terminal nt_penv]. unfold nt_terminal. rewrite nt_dpos_move; auto.
    - intros qs qs' k F. apply HF in F. subst. symmetry. apply Hl. }
  destruct (run_sim _ _ _ g rg E) as (A & B & _ & D). repeat split; auto.
Qed.

(** C45: single step, tractor-trailer: same decision, same applied action, same reward, moved
    state, for every state and command. *)
Lemma l_C45_tt_step_moves_along :
  forall (m : motion) (s : tt_self) (st st' : State ttq) (a : act),
  p_proj (ts_p s) = false -> p_guid (ts_p s) = false ->
  st_q st' = tt_move m (st_q st) -> st_bak st' = st_bak st ->
  let id1 := fun (_ : ttq) (u : act) => u in
  let id2 := fun q : ttq => q in
  let r := tt_step s id1 id2 st a in
  let r' := tt_step (tt_world_move m s) id1 id2 st' a in
  st_q r' = tt_move m (st_q r) /\ st_app r' = st_app r /\ st_rew r' = st_rew r /\ st_bak r' = st_bak r.
Proof.
  intros m s st st' a Hp Hg Hq Hb. cbv zeta. unfold tt_step.
  assert (S : sim_step (fun q q' => q' = tt_move m q) (tt_step_internal s (fun _ u => u) (fun q => q) false)
     (tt_step_internal (tt_world_move m s) (fun _ u => u) (fun q => q) false)).
  { apply tt_step_sim; try reflexivity; intros; subst; auto.
    - apply tt_euler_move.
    - symmetry. apply tt_coll_move.
    - symmetry. apply tt_hitch_move.
    - symmetry. apply tt_reward_move. }
  set (e := mkState (st_q st) (st_obs st) 0 (st_done st) (0,0) (st_bak st)).
  set (e' := mkState (st_q st') (st_obs st') 0 (st_done st') (0,0) (st_bak st')).
  assert (H : sim_state (fun q q' => q' = tt_move m q) e e') by (unfold e, e'; repeat split; cbn; auto).
  destruct (S e e' a H) as (A & B & C & D).
  replace (tt_step_internal s (fun _ u => u) (fun q => q) false st a) with (tt_step_internal s (fun _ u => u) (fun q => q) false e a) by reflexivity.
  replace (tt_step_internal (tt_world_move m s) (fun _ u => u) (fun q => q) false st' a) with (tt_step_internal (tt_world_move m s) (fun _ u => u) (fun q => q) false e' a) by reflexivity.
  repeat split; auto.
Qed.
(** Non-vacuity: a quarter turn with a shift really moves the example world. *)
Lemma x_C45_example :
  tt_move (mkMotion (PI / 2) (1, 2)) (mkTT 3 4 0 0) = mkTT (-3) 5 (PI / 2) (PI / 2).
Proof.
  unfold tt_move, move; cbn. rewrite cos_PI2, sin_PI2. f_equal; lra.
Qed.
