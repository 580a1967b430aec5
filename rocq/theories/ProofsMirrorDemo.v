(** * ProofsMirrorDemo: demonstrations, guidance and whole plans with demonstrations are left-right symmetric (C76). *)
From Coq Require Import String.
From Verif Require Import Base BaseFacts Params Geom TT2d Bicycle NTrailer Acc Demo Guidance SpecGeom SpecBodies SpecDyn SpecSym SpecMirror
  Rollout Planner Instances ProofsGeom ProofsBodies ProofsKin ProofsRobots ProofsSafety ProofsSim ProofsSym ProofsFrame ProofsMirror ProofsDemo.
Open Scope R_scope.

Lemma turns_opp a b : turns a b -> turns (- a) (- b).
Proof. intros [k ->]. exists (- k)%Z. rewrite opp_IZR. ring. Qed.
Lemma atan2_mirror y x : turns (- atan2 y x) (atan2 (- y) x).
Proof.
  unfold atan2. replace (- y / x) with (- (y / x)) by (unfold Rdiv; ring). rewrite atan_opp.
  repeat (destruct Rlt_dec; [|]); repeat (destruct Rle_dec; [|]); try lra;
    try (exists 0%Z; lra); try (exists 1%Z; assert (y = 0) by lra; subst; unfold Rdiv; rewrite Rmult_0_l, atan_0; lra);
    exists 0%Z; assert (y = 0) by lra; subst; lra.
Qed.
Lemma lerp_mirror a b t : lerp (mirror a) (mirror b) t = mirror (lerp a b t).
Proof. unfold lerp, mirror; cbn [fst snd]. f_equal; ring. Qed.
Lemma in_circle_mirror P c : point_in_circle (mirror P) (circle_mirror c) = point_in_circle P c.
Proof.
  unfold point_in_circle. cbn [circle_mirror c_x c_y c_r].
  change (c_x c, - c_y c) with (mirror (c_x c, c_y c)). rewrite psub_mirror, pnorm_mirror. reflexivity.
Qed.
Lemma in_rect_mirror P o : point_in_rect (mirror P) (rect_mirror o) = point_in_rect P o.
Proof.
  unfold point_in_rect. cbn [rect_mirror r_x r_y r_w r_h r_ang mirror fst snd]. cbv zeta.
  rewrite !cos_neg, !sin_neg, !Ropp_involutive.
  set (dx := fst P - r_x o). set (ca := cos _). set (sa := sin _).
  replace (dx * ca - (- snd P - - r_y o) * sa) with (dx * ca - (snd P - r_y o) * - sa) by ring.
  replace (dx * sa + (- snd P - - r_y o) * ca) with (- (dx * - sa + (snd P - r_y o) * ca)) by ring.
  rewrite Rabs_Ropp. reflexivity.
Qed.
Lemma check_line_mirror circ rect p1 p2 :
  check_line (map circle_mirror circ) (map rect_mirror rect) (mirror p1) (mirror p2) = check_line circ rect p1 p2.
Proof.
  unfold check_line. apply existsb_ext'. intros t. rewrite lerp_mirror, !existsb_map'. f_equal; apply existsb_ext'; intros o.
  - apply in_circle_mirror.
  - apply in_rect_mirror.
Qed.
Lemma waypoints_mirror circ rect dir x0 xg :
  waypoints (map circle_mirror circ) (map rect_mirror rect) dir (mirror x0) (mirror xg) = map mirror (waypoints circ rect dir x0 xg).
Proof.
  unfold waypoints. cbv zeta.
  replace (if horizontal dir then (fst (mirror xg), snd (mirror x0)) else (fst (mirror x0), snd (mirror xg)))
    with (mirror (if horizontal dir then (fst xg, snd x0) else (fst x0, snd xg))) by (destruct (horizontal dir); reflexivity).
  replace (if horizontal dir then (fst (mirror x0), snd (mirror xg)) else (fst (mirror xg), snd (mirror x0)))
    with (mirror (if horizontal dir then (fst x0, snd xg) else (fst xg, snd x0))) by (destruct (horizontal dir); reflexivity).
  rewrite !check_line_mirror.
  destruct (negb _); [reflexivity|]. destruct (_ && _); [reflexivity|]. destruct (_ && _); reflexivity.
Qed.
Lemma mirror_00 : mirror (0, 0) = (0, 0).
Proof. unfold mirror; cbn [fst snd]. rewrite Ropp_0. reflexivity. Qed.
Lemma limit_mirror W m : limit_waypoints (map mirror W) m = map mirror (limit_waypoints W m).
Proof.
  unfold limit_waypoints. rewrite map_length. change (@Datatypes.length pt W) with (@Datatypes.length point W). destruct (Nat.ltb m (length W)); [|reflexivity]. rewrite map_map.
  apply map_ext. intros i. set (k := (i * (length W - 1) / (m - 1))%nat). clearbody k. revert k.
  induction W as [|w W IH]; intros [|k]; cbn [map nth]; try (symmetry; apply mirror_00); auto.
Qed.
Lemma seg_lengths_mirror W : seg_lengths (map mirror W) = seg_lengths W.
Proof.
  induction W as [|a W IH]; [reflexivity|]. destruct W as [|b W]; [reflexivity|].
  change (seg_lengths (map mirror (a :: b :: W))) with (pnorm (psub (mirror b) (mirror a)) :: seg_lengths (map mirror (b :: W))).
  rewrite IH, psub_mirror, pnorm_mirror. reflexivity.
Qed.
Definition mk (pk : pt * nat) : pt * nat := (mirror (fst pk), snd pk).
Definition res_map {A B} (f : A -> B) (r : Res A) : Res B := match r with Ok a => Ok (f a) | Err e => Err e end.
Lemma sample_mirror W : forall k cs, sample_segments k (map mirror W) cs = res_map (map mk) (sample_segments k W cs).
Proof.
  induction W as [|a W IH]; intros k cs; [reflexivity|]. destruct W as [|b W]; [reflexivity|].
  destruct cs as [|c cs]; [reflexivity|].
  change (sample_segments k (map mirror (a :: b :: W)) (c :: cs)) with
    (if Z.ltb c 0 then Err ValueError else
      match sample_segments (S k) (map mirror (b :: W)) cs with
      | Err e => Err e
      | Ok more => Ok (map (fun t => (lerp (mirror a) (mirror b) t, k)) (match map mirror W with [] => lin_closed (Z.to_nat c) | _ => lin_open (Z.to_nat c) end) ++ more)
      end).
  change (sample_segments k (a :: b :: W) (c :: cs)) with
    (if Z.ltb c 0 then Err ValueError else
      match sample_segments (S k) (b :: W) cs with
      | Err e => Err e
      | Ok more => Ok (map (fun t => (lerp a b t, k)) (match W with [] => lin_closed (Z.to_nat c) | _ => lin_open (Z.to_nat c) end) ++ more)
      end).
  destruct (Z.ltb c 0); [reflexivity|]. rewrite IH.
  destruct (sample_segments (S k) (b :: W) cs) as [more|e]; [|reflexivity]. cbn [res_map]. f_equal. rewrite map_app. f_equal.
  replace (match map mirror W with [] => lin_closed (Z.to_nat c) | _ => lin_open (Z.to_nat c) end)
    with (match W with [] => lin_closed (Z.to_nat c) | _ => lin_open (Z.to_nat c) end) by (destruct W; reflexivity).
  rewrite map_map. apply map_ext. intros t. unfold mk; cbn [fst snd]. rewrite lerp_mirror. reflexivity.
Qed.
Lemma path_mirror H W : path_points H (map mirror W) = res_map (map mk) (path_points H W).
Proof.
  unfold path_points. cbv zeta. rewrite seg_lengths_mirror. destruct (Rltb 0 _); [apply sample_mirror|].
  destruct W as [|w W], H as [|H]; try reflexivity. cbn [map res_map]. f_equal.
  change ((mirror w, O) :: repeat (mirror w, O) H = mk (w, O) :: map mk (repeat (w, O) H)). 
  f_equal. induction H as [|H IH]; cbn [repeat map]; [reflexivity|]. rewrite IH. reflexivity.
Qed.
Lemma fix_mirror H W xg ps : fix_length H (map mirror W) (mirror xg) (map mk ps) = map mk (fix_length H W xg ps).
Proof.
  unfold fix_length. unfold final_segment. rewrite !map_length.
  destruct (Nat.ltb H (length ps)); [|destruct (Nat.ltb (length ps) H)].
  - rewrite map_map. apply map_ext. intros i. set (k := (i * (length ps - 1) / (H - 1))%nat). clearbody k.
    change (mirror xg, O) with (mk (xg, O)). apply map_nth.
  - rewrite map_app. f_equal. induction (H - length ps)%nat as [|n IH]; cbn [repeat map]; [reflexivity|]. rewrite IH. reflexivity.
  - reflexivity.
Qed.
(** Rows of the reflected demonstration: reflected positions, reflected headings up to whole turns. *)
Definition row_mirrors (r r' : refrow) : Prop :=
  f_px r' = f_px r /\ f_py r' = - f_py r /\ turns (- f_th1 r) (f_th1 r') /\ turns (- f_th2 r) (f_th2 r') /\ f_mask r' = f_mask r.
Lemma moves_mirror a b : moves (mirror a) (mirror b) = moves a b.
Proof.
  unfold moves, mirror; cbn [fst snd]. replace (- snd b - - snd a) with (- (snd b - snd a)) by ring. rewrite Rabs_Ropp. reflexivity.
Qed.
Lemma heading_mirror pref g1 g2 fin ps : forall prev prev', turns (- prev) prev' ->
  Forall2 row_mirrors (heading_rows pref g1 g2 fin prev ps) (heading_rows pref (- g1) (- g2) fin prev' (map mk ps)).
Proof.
  induction ps as [|[a k] ps IH]; intros prev prev' Hp; [constructor|].
  destruct ps as [|[b kb] ps].
  - cbn [map mk fst snd heading_rows]. constructor; [|constructor]. unfold row_mirrors; cbn [f_px f_py f_th1 f_th2 f_mask].
    split; [reflexivity|]. split; [reflexivity|]. split; [apply turns_refl|]. split; [apply turns_refl|reflexivity].
  - change (map mk ((a, k) :: (b, kb) :: ps)) with ((mirror a, k) :: (mirror b, kb) :: map mk ps).
    set (rs := (b, kb) :: ps). change ((mirror b, kb) :: map mk ps) with (map mk rs).
    set (th := fun (P Q : pt) (pv : R) => if Nat.eqb k fin then (if moves P Q
      then (if Z.eqb pref (-1) || Z.eqb pref (-2) then atan2 (snd Q - snd P) (fst Q - fst P) + PI else atan2 (snd Q - snd P) (fst Q - fst P)) else pv) else 0).
    change (heading_rows pref g1 g2 fin prev ((a, k) :: rs)) with
      (mkRef (fst a) (snd a) (th a b prev) (th a b prev) (Nat.eqb k fin) :: heading_rows pref g1 g2 fin (th a b prev) rs).
    change (heading_rows pref (- g1) (- g2) fin prev' ((mirror a, k) :: map mk rs)) with
      (mkRef (fst (mirror a)) (snd (mirror a)) (th (mirror a) (mirror b) prev') (th (mirror a) (mirror b) prev') (Nat.eqb k fin) ::
       heading_rows pref (- g1) (- g2) fin (th (mirror a) (mirror b) prev') (map mk rs)).
    assert (T : turns (- th a b prev) (th (mirror a) (mirror b) prev')).
    { unfold th. rewrite moves_mirror. destruct (Nat.eqb k fin); [|exists 0%Z; lra]. destruct (moves a b); [|exact Hp].
      unfold mirror; cbn [fst snd]. replace (- snd b - - snd a) with (- (snd b - snd a)) by ring.
      destruct (atan2_mirror (snd b - snd a) (fst b - fst a)) as [j Hj]. rewrite Hj.
      destruct (_ || _); [exists (j + 1)%Z; rewrite plus_IZR; lra|exists j; lra]. }
    constructor; [|apply IH; exact T].
    unfold row_mirrors; cbn [f_px f_py f_th1 f_th2 f_mask]. split; [reflexivity|]. split; [reflexivity|]. auto.
Qed.
Definition opt_rows (r r' : Res (list refrow)) : Prop :=
  match r, r' with Ok l, Ok l' => Forall2 row_mirrors l l' | Err e, Err e' => e = e' | _, _ => False end.
Lemma demo_mirror H circ rect x0 xg dir wmax pref :
  opt_rows (demo H circ rect x0 xg dir wmax pref)
    (demo H (map circle_mirror circ) (map rect_mirror rect) (mirror x0) (tt_mirror xg) dir wmax pref).
Proof.
  unfold demo. cbv zeta. cbn [tt_mirror t_px t_py t_th1 t_th2].
  change (t_px xg, - t_py xg) with (mirror (t_px xg, t_py xg)).
  rewrite waypoints_mirror, limit_mirror, path_mirror. set (W := limit_waypoints _ _).
  destruct (path_points H W) as [ps|e]; cbn [res_map]; [|reflexivity].
  rewrite fix_mirror. set (qs := fix_length H W _ ps).
  assert (T := heading_mirror pref (t_th1 xg) (t_th2 xg) (final_segment W) qs _ _ (turns_refl (- t_th1 xg))).
  replace (final_segment (map mirror W)) with (final_segment W) by (unfold final_segment; rewrite map_length; reflexivity).
  destruct qs as [|q qs]; [reflexivity|]. exact T.
Qed.

(** ** Scores against the demonstration *)
Lemma turn_hitch a f f' : turns (- f) f' -> Rabs (wrap_pi (- a - f')) = Rabs (wrap_pi (a - f)).
Proof. intros [k ->]. replace (- a - (- f + IZR k * (2 * PI))) with (- a - - f + IZR (- k) * (2 * PI)) by (rewrite opp_IZR; ring). rewrite wrap_pi_shift. apply hitch_mirror. Qed.
Lemma turn_hitch_pi a f f' : turns (- f) f' -> Rabs (wrap_pi (- a - f' - PI)) = Rabs (wrap_pi (a - f - PI)).
Proof. intros [k ->]. replace (- a - (- f + IZR k * (2 * PI)) - PI) with (- a - - f - PI + IZR (- k) * (2 * PI)) by (rewrite opp_IZR; ring). rewrite wrap_pi_shift. apply hitch_mirror_pi. Qed.
Lemma logpd_row_mirror p pref pos a1 a2 r r' : row_mirrors r r' ->
  logpd_row p pref (mirror pos) (- a1) (- a2) r' = logpd_row p pref pos a1 a2 r.
Proof.
  intros (Ex & Ey & T1 & T2 & Em). unfold logpd_row. cbv zeta. rewrite Em.
  replace (f_pos r') with (mirror (f_pos r)) by (unfold f_pos, mirror; cbn [fst snd]; rewrite Ex, Ey; reflexivity).
  rewrite psub_mirror, pnorm_mirror.
  rewrite !(turn_hitch a1 _ _ T1), !(turn_hitch a2 _ _ T2), !(turn_hitch_pi a1 _ _ T1), !(turn_hitch_pi a2 _ _ T2).
  set (ud := Rltb _ _).
  destruct (f_mask r), (Z.eqb pref 0), ud; unfold where_;
    rewrite ?(turn_hitch a1 _ _ T1), ?(turn_hitch a2 _ _ T2), ?(turn_hitch_pi a1 _ _ T1), ?(turn_hitch_pi a2 _ _ T2); reflexivity.
Qed.
Lemma map2_rel {A A' B B'} (f : A -> B -> R) (f' : A' -> B' -> R) (g : A -> A') (P : B -> B' -> Prop) :
  (forall a b b', P b b' -> f' (g a) b' = f a b) -> forall bs bs', Forall2 P bs bs' -> forall l, map2 f' (map g l) bs' = map2 f l bs.
Proof. intros Hf bs bs' F. induction F; intros [|z zs]; cbn [map map2]; auto. rewrite (Hf z _ _ H), IHF. reflexivity. Qed.
Lemma tt_logpd_mirror s xref xref' xs pref : Forall2 row_mirrors xref xref' ->
  tt_logpd (tt_world_mirror s) xref' (map tt_mirror xs) pref = tt_logpd s xref xs pref.
Proof.
  intros F. unfold tt_logpd. cbv zeta. cbn [tt_world_mirror ts_p].
  rewrite (map2_rel (fun x r => logpd_row (ts_p s) pref (where_ (use_tractor pref) (t_px x, t_py x) (tt_trailer_pos (ts_p s) x)) (t_th1 x) (t_th2 x) r)
    _ tt_mirror row_mirrors) with (bs := xref); auto.
  intros x r r' Hr. rewrite <- (logpd_row_mirror (ts_p s) pref _ _ _ r r' Hr), tt_trailer_pos_mirror.
  destruct (use_tractor pref); reflexivity.
Qed.
Lemma bk_logpd_mirror s xref xref' xs pref : Forall2 row_mirrors xref xref' ->
  bk_logpd (bk_world_mirror s) xref' (map bk_mirror xs) pref = bk_logpd s xref xs pref.
Proof.
  intros F. unfold bk_logpd. cbn [bk_world_mirror bs_p].
  rewrite (map2_rel (bk_logpd_row (bs_p s) pref) _ bk_mirror row_mirrors) with (bs := xref); auto.
  intros x r r' (Ex & Ey & T1 & T2 & Em). unfold bk_logpd_row. cbv zeta. rewrite Em. cbn [bk_mirror b_px b_py b_th].
  replace (f_pos r') with (mirror (f_pos r)) by (unfold f_pos, mirror; cbn [fst snd]; rewrite Ex, Ey; reflexivity).
  change (b_px x, - b_py x) with (mirror (b_px x, b_py x)). rewrite psub_mirror, pnorm_mirror.
  rewrite !(turn_hitch _ _ _ T1), !(turn_hitch_pi _ _ _ T1). set (ud := Rltb _ _).
  destruct (f_mask r), (Z.eqb pref 0), ud; unfold where_; rewrite ?(turn_hitch _ _ _ T1), ?(turn_hitch_pi _ _ _ T1); reflexivity.
Qed.
Lemma nt_th1_mirror q : nt_th1 (nt_mirror q) = - nt_th1 q.
Proof. destruct q as [x y t0 [|t l]]; reflexivity. Qed.
Lemma nt_logpd_mirror s xref xref' xs pref : Forall2 row_mirrors xref xref' ->
  nt_logpd (nt_world_mirror s) xref' (map nt_mirror xs) pref = nt_logpd s xref xs pref.
Proof.
  intros F. unfold nt_logpd. cbv zeta. change (ns_p (nt_world_mirror s)) with (ns_p s).
  rewrite (map2_rel (fun x r => logpd_row (ns_p s) pref (where_ (use_tractor pref) (n_px x, n_py x) (nt_last_pos s x)) (n_th0 x) (nt_th1 x) r)
    _ nt_mirror row_mirrors) with (bs := xref); auto.
  intros x r r' Hr. rewrite <- (logpd_row_mirror (ns_p s) pref _ _ _ r r' Hr), nt_last_pos_mirror, nt_th1_mirror.
  destruct (use_tractor pref); reflexivity.
Qed.
Lemma row_tt_same r r' : row_mirrors r r' -> tt_same_pose (tt_mirror (row_tt r)) (row_tt r').
Proof. intros (A & B & C & D & _). repeat split; auto. Qed.
Lemma Forall2_last {A} (P : A -> A -> Prop) d l l' : P d d -> Forall2 P l l' -> P (last l d) (last l' d).
Proof.
  intros Hd F. induction F as [|a b l l' H F IH]; [exact Hd|]. destruct F; [exact H|]. exact IH.
Qed.
Lemma row0 : row_mirrors (mkRef 0 0 0 0 false) (mkRef 0 0 0 0 false).
Proof. unfold row_mirrors; cbn [f_px f_py f_th1 f_th2 f_mask]. repeat split; try (exists 0%Z; lra); lra. Qed.
Lemma rew_same {A} (f f' : A -> R) (P : A -> A -> Prop) l l' : (forall a b, P a b -> f' b = f a) -> Forall2 P l l' -> map f' l' = map f l.
Proof. intros Hf F. induction F; cbn [map]; auto. rewrite IHF, (Hf _ _ H). reflexivity. Qed.
Lemma tt_rew_row s r r' : row_mirrors r r' ->
  tt_reward (tt_world_mirror s) (row_tt r') = tt_reward s (row_tt r) /\ tt_terminal (tt_world_mirror s) (row_tt r') = tt_terminal s (row_tt r).
Proof.
  intros Hr. destruct (l_C17_tt_winding (tt_world_mirror s) (ts_xg (tt_world_mirror s)) _ _ (row_tt_same _ _ Hr)) as (_ & _ & A & B).
  { repeat split; apply turns_refl. }
  split; [rewrite <- (tt_reward_mirror s)|rewrite <- (tt_terminal_mirror s)]; assumption.
Qed.
Lemma tt_rew_xref_mirror s xref xref' : Forall2 row_mirrors xref xref' -> tt_rew_xref (tt_world_mirror s) xref' = tt_rew_xref s xref.
Proof.
  intros F. unfold tt_rew_xref. cbn [tt_world_mirror ts_p].
  rewrite (rew_same _ _ _ _ _ (fun a b H => proj1 (tt_rew_row s a b H)) F). f_equal. f_equal.
  apply tt_rew_row. unfold last_row; apply (Forall2_last row_mirrors); [apply row0|exact F].
Qed.
Lemma bk_rew_row s r r' : row_mirrors r r' ->
  bk_reward (bk_world_mirror s) (row_bk r') = bk_reward s (row_bk r) /\ bk_terminal (bk_world_mirror s) (row_bk r') = bk_terminal s (row_bk r).
Proof.
  intros (A & B & C & D & _).
  destruct (l_C17_bk_winding (bk_world_mirror s) (bs_xg (bk_world_mirror s)) (bk_mirror (row_bk r)) (row_bk r')) as (_ & E1 & E2).
  { repeat split; auto. }
  { repeat split; apply turns_refl. }
  split; [rewrite <- (bk_reward_mirror s); exact E1|].
  etransitivity; [exact E2|]. unfold bk_terminal. cbn [bk_world_mirror bs_p bs_xg]. rewrite bk_dpos_mirror. reflexivity.
Qed.
Lemma bk_rew_xref_mirror s xref xref' : Forall2 row_mirrors xref xref' -> bk_rew_xref (bk_world_mirror s) xref' = bk_rew_xref s xref.
Proof.
  intros F. unfold bk_rew_xref. change (bs_p (bk_world_mirror s)) with (bs_p s).
  rewrite (rew_same _ _ _ _ _ (fun a b H => proj1 (bk_rew_row s a b H)) F). f_equal. f_equal.
  apply bk_rew_row. unfold last_row; apply (Forall2_last row_mirrors); [apply row0|exact F].
Qed.

Lemma nt_rew_row s r r' : row_mirrors r r' ->
  nt_reward (nt_world_mirror s) (row_nt r') = nt_reward s (row_nt r) /\ nt_terminal (nt_world_mirror s) (row_nt r') = nt_terminal s (row_nt r).
Proof.
  intros (A & B & C & D & _).
  destruct (l_C17_nt_winding (nt_world_mirror s) (ns_xg (nt_world_mirror s)) (nt_mirror (row_nt r)) (row_nt r')) as (_ & _ & E1 & E2).
  { split; [exact A|]. split; [exact B|]. split; [exact C|]. constructor; [exact D|constructor]. }
  { split; [reflexivity|]. split; [reflexivity|]. split; [apply turns_refl|]. induction (n_ths (ns_xg (nt_world_mirror s))); constructor; auto. apply turns_refl. }
  split; [rewrite <- (nt_reward_mirror s); exact E1|rewrite <- (nt_terminal_mirror s); exact E2].
Qed.
Lemma nt_rew_xref_mirror s xref xref' : Forall2 row_mirrors xref xref' -> nt_rew_xref (nt_world_mirror s) xref' = nt_rew_xref s xref.
Proof.
  intros F. unfold nt_rew_xref. change (ns_p (nt_world_mirror s)) with (ns_p s).
  rewrite (rew_same _ _ _ _ _ (fun a b H => proj1 (nt_rew_row s a b H)) F). f_equal. f_equal.
  apply nt_rew_row. unfold last_row; apply (Forall2_last row_mirrors); [apply row0|exact F].
Qed.

(** ** Guidance *)
Lemma clip_pos_opp x : clip_pos (- x) = - clip_pos x.
Proof. unfold clip_pos, clip, Rmin, Rmax. repeat destruct Rle_dec; lra. Qed.
Lemma clip_ang_opp x : clip_ang (- x) = - clip_ang x.
Proof. pose proof PI_RGT_0. unfold clip_ang. replace (-2 * PI) with (- (2 * PI)) by ring. apply clip_opp_sym. lra. Qed.
Lemma iter_mirror {Q} (M : Q -> Q) f f' n : (forall q, f' (M q) = M (f q)) -> forall q, Nat.iter n f' (M q) = M (Nat.iter n f q).
Proof. intros Hf q. induction n as [|n IH]; [reflexivity|]. change (f' (Nat.iter n f' (M q)) = M (f (Nat.iter n f q))). rewrite IH. apply Hf. Qed.
Lemma tt_guide_mirror s grad grad' q : (forall q, grad' (tt_mirror q) = tt_mirror (grad q)) ->
  tt_guide (tt_world_mirror s) grad' (tt_mirror q) = tt_mirror (tt_guide s grad q).
Proof.
  intros Hg. unfold tt_guide, tt_apply_guidance_n. cbn [tt_world_mirror ts_p]. destruct (negb _); [reflexivity|].
  apply iter_mirror. clear q. intros q. unfold tt_guidance_step. cbv zeta. rewrite Hg. set (g := grad q).
  unfold tt_mirror; cbn [t_px t_py t_th1 t_th2].
  f_equal; first [rewrite <- clip_pos_opp|rewrite <- clip_ang_opp]; f_equal; ring.
Qed.
Lemma bk_guide_mirror s grad grad' q : (forall q, grad' (bk_mirror q) = bk_mirror (grad q)) ->
  bk_guide (bk_world_mirror s) grad' (bk_mirror q) = bk_mirror (bk_guide s grad q).
Proof.
  intros Hg. unfold bk_guide. cbn [bk_world_mirror bs_p]. destruct (negb _); [reflexivity|].
  apply iter_mirror. clear q. intros q. unfold bk_guidance_step. cbv zeta. rewrite Hg. set (g := grad q).
  unfold bk_mirror; cbn [b_px b_py b_th].
  f_equal; first [rewrite <- clip_pos_opp|rewrite <- clip_ang_opp]; f_equal; ring.
Qed.
Lemma nt_guide_mirror s grad grad' q : (forall q, grad' (nt_mirror q) = nt_mirror (grad q)) ->
  nt_guide (nt_world_mirror s) grad' (nt_mirror q) = nt_mirror (nt_guide s grad q).
Proof.
  intros Hg. unfold nt_guide. cbn [nt_world_mirror ns_p]. destruct (negb _); [reflexivity|].
  apply iter_mirror. clear q. intros q. unfold nt_guidance_step. cbv zeta. rewrite Hg. set (g := grad q).
  unfold nt_mirror; cbn [n_px n_py n_th0 n_ths]. rewrite map2_map, map_map2.
  f_equal; try (first [rewrite <- clip_pos_opp|rewrite <- clip_ang_opp]; f_equal; ring).
  apply map2_ext. intros a b. rewrite <- clip_ang_opp. f_equal. ring.
Qed.
Lemma acc_guide_mirror s grad grad' q : (forall q, grad' (tt_mirror q) = tt_mirror (grad q)) ->
  acc_guide (acc_world_mirror s) grad' (acc_mirror q) = acc_mirror (acc_guide s grad q).
Proof.
  intros Hg. unfold acc_guide. change (as_p (acc_world_mirror s)) with (as_p s). destruct (negb _); [reflexivity|].
  cbn [acc_world_mirror as_t acc_mirror a_q a_v a_d]. rewrite (tt_guide_mirror (as_t s) grad grad') by auto. reflexivity.
Qed.
Lemma circle_penalty_mirror P c : circle_penalty (mirror P) (circle_mirror c) = circle_penalty P c.
Proof.
  unfold circle_penalty. cbn [circle_mirror c_x c_y c_r]. change (c_x c, - c_y c) with (mirror (c_x c, c_y c)).
  rewrite psub_mirror, pnorm_mirror. reflexivity.
Qed.
Lemma tt_cost_mirror s q : tt_guidance_cost (tt_world_mirror s) (tt_mirror q) = tt_guidance_cost s q.
Proof.
  unfold tt_guidance_cost. cbv zeta. cbn [tt_world_mirror ts_p ts_circ ts_rect]. rewrite !map_length, map_map.
  cbn [tt_mirror t_px t_py t_th1 t_th2]. rewrite !cos_neg, !sin_neg. f_equal.
  - f_equal. apply map_ext. intros c. f_equal.
    + apply (circle_penalty_mirror (t_px q, t_py q)).
    + refine (eq_trans _ (circle_penalty_mirror _ c)). apply (f_equal (fun P => circle_penalty P (circle_mirror c))).
      unfold mirror; cbn [fst snd]. f_equal; ring.
  - f_equal. set (d := t_th1 q - t_th2 q).
    replace (- t_th1 q - - t_th2 q + 0) with (- (d + 0)) by (unfold d; ring).
    replace (- t_th1 q - - t_th2 q + 2 * PI) with (- (d + - (2 * PI))) by (unfold d; ring).
    replace (- t_th1 q - - t_th2 q + - (2 * PI)) with (- (d + 2 * PI)) by (unfold d; ring).
    rewrite !Rabs_Ropp. unfold Rmin_of, Rmin_list.
    generalize (hinge_sq (Rabs (d + 0) - p_phi_max (ts_p s))) (hinge_sq (Rabs (d + - (2 * PI)) - p_phi_max (ts_p s)))
      (hinge_sq (Rabs (d + 2 * PI) - p_phi_max (ts_p s))). intros x y z. unfold Rmin. repeat destruct Rle_dec; lra.
Qed.
Lemma bk_cost_mirror s q : bk_guidance_cost (bk_world_mirror s) (bk_mirror q) = bk_guidance_cost s q.
Proof.
  unfold bk_guidance_cost. cbn [bk_world_mirror bs_circ]. rewrite map_map. f_equal. apply map_ext. intros c.
  apply (circle_penalty_mirror (b_px q, b_py q)).
Qed.

(** C76, demonstrations: the demonstration for the mirrored task is the mirrored demonstration (headings up to
    whole turns), for every way-point direction and preference, and an exception arises for both or neither. *)
Lemma l_C76_demonstration_mirrors :
  forall (s : tt_self) (x0 : ttq) dir wmax pref,
  match tt_demo s x0 dir wmax pref, tt_demo (tt_world_mirror s) (tt_mirror x0) dir wmax pref with
  | Ok rows, Ok rows' => Forall2 (fun r r' => tt_same_pose (tt_mirror (row_tt r)) (row_tt r') /\ f_mask r' = f_mask r) rows rows'
  | Err e, Err e' => e = e'
  | _, _ => False
  end.
Proof.
  intros s x0 dir wmax pref. unfold tt_demo. cbn [tt_world_mirror ts_p ts_circ ts_rect ts_xg].
  pose proof (demo_mirror (p_H (ts_p s)) (ts_circ s) (ts_rect s) (t_px x0, t_py x0) (ts_xg s) dir wmax pref) as H.
  unfold opt_rows in H. unfold mirror in H; cbn [fst snd] in H. cbn [tt_mirror t_px t_py].
  destruct (demo _ _ _ (t_px x0, t_py x0) _ _ _ _), (demo _ _ _ (t_px x0, - t_py x0) _ _ _ _); auto.
  induction H as [|r r' l l' Hr F IH]; constructor; auto. split; [apply row_tt_same; exact Hr|]. apply Hr.
Qed.
(** C76, guidance cost: the penalty guidance descends is the same at mirrored poses. *)
Lemma l_C76_guidance_cost_mirrors :
  forall (s : tt_self) (q : ttq), tt_guidance_cost (tt_world_mirror s) (tt_mirror q) = tt_guidance_cost s q.
Proof. exact tt_cost_mirror. Qed.

(** C76, tractor-trailer with the code's own demonstration and guidance (gradients of mirrored worlds being
    mirrored): the whole plan is mirrored. *)
Lemma l_C76_tt_plan_with_demonstration :
  forall (s : tt_self) (x0 : ttq) proj proj' grad grad' dir wmax pref rows rows' (g : cfg) (rg : prng) out out',
  tt_sized (ts_p s) ->
  (forall q a, proj' (tt_mirror q) (mirror_act a) = mirror_act (proj q a)) ->
  (forall q, grad' (tt_mirror q) = tt_mirror (grad q)) ->
  tt_demo s x0 dir wmax pref = Ok rows ->
  tt_demo (tt_world_mirror s) (tt_mirror x0) dir wmax pref = Ok rows' ->
  run_diffusion (tt_penv s x0 proj (tt_guide s grad) (tt_logpd s rows) (tt_rew_xref s rows)) (Some g) rg = Ok out ->
  run_diffusion (tt_penv (tt_world_mirror s) (tt_mirror x0) proj' (tt_guide (tt_world_mirror s) grad')
    (tt_logpd (tt_world_mirror s) rows') (tt_rew_xref (tt_world_mirror s) rows')) (Some g) (mirror_noise rg) = Ok out' ->
  o_Y0 out' = map mirror_act (o_Y0 out) /\ o_rew out' = o_rew out /\ o_traj out' = map tt_mirror (o_traj out).
Proof.
  intros s x0 proj proj' grad grad' dir wmax pref rows rows' g rg out out' Hs Hp Hg Ed Ed' E E'.
  assert (F : Forall2 row_mirrors rows rows').
  { pose proof (demo_mirror (p_H (ts_p s)) (ts_circ s) (ts_rect s) (t_px x0, t_py x0) (ts_xg s) dir wmax pref) as H.
    unfold tt_demo in Ed, Ed'. rewrite Ed in H. exact (eq_rect _ (fun r => opt_rows (Ok rows) r) H _ Ed'). }
  rewrite (tt_rew_xref_mirror s rows rows' F) in E'.
  refine (l_C76_tt_plan_mirrors s x0 proj proj' (tt_guide s grad) (tt_guide (tt_world_mirror s) grad') (tt_logpd s rows)
    (tt_logpd (tt_world_mirror s) rows') (tt_rew_xref s rows) g rg out out' Hs Hp _ _ E E').
  - intros q. apply tt_guide_mirror; auto.
  - intros qs k. apply tt_logpd_mirror; auto.
Qed.
(** C76, acceleration class with demonstration and guidance. *)
Lemma l_C76_acc_plan_with_demonstration :
  forall (s : acc_self) (x0 : accq) proj proj' grad grad' dir wmax pref rows rows' (g : cfg) (rg : prng) out out',
  tt_sized (as_p s) -> 0 <= p_dmax (as_p s) ->
  (forall q a, proj' (acc_mirror q) (mirror_act a) = mirror_act (proj q a)) ->
  (forall q, grad' (tt_mirror q) = tt_mirror (grad q)) ->
  acc_demo s x0 dir wmax pref = Ok rows ->
  acc_demo (acc_world_mirror s) (acc_mirror x0) dir wmax pref = Ok rows' ->
  run_diffusion (acc_penv s x0 proj (acc_guide s grad) (acc_logpd s rows) (tt_rew_xref (as_t s) rows)) (Some g) rg = Ok out ->
  run_diffusion (acc_penv (acc_world_mirror s) (acc_mirror x0) proj' (acc_guide (acc_world_mirror s) grad')
    (acc_logpd (acc_world_mirror s) rows') (tt_rew_xref (as_t (acc_world_mirror s)) rows')) (Some g) (mirror_noise rg) = Ok out' ->
  o_Y0 out' = map mirror_act (o_Y0 out) /\ o_rew out' = o_rew out /\ o_traj out' = map acc_mirror (o_traj out).
Proof.
  intros s x0 proj proj' grad grad' dir wmax pref rows rows' g rg out out' Hs Hd Hp Hg Ed Ed' E E'.
  assert (F : Forall2 row_mirrors rows rows').
  { pose proof (demo_mirror (p_H (as_p s)) (ts_circ (as_t s)) (ts_rect (as_t s)) (t_px (a_q x0), t_py (a_q x0)) (ts_xg (as_t s)) dir wmax pref) as H.
    unfold acc_demo, tt_demo in Ed, Ed'. change (ts_p (as_t s)) with (as_p s) in Ed. rewrite Ed in H.
    exact (eq_rect _ (fun r => opt_rows (Ok rows) r) H _ Ed'). }
  change (as_t (acc_world_mirror s)) with (tt_world_mirror (as_t s)) in E'.
  rewrite (tt_rew_xref_mirror (as_t s) rows rows' F) in E'.
  refine (l_C76_acc_plan_mirrors s x0 proj proj' (acc_guide s grad) (acc_guide (acc_world_mirror s) grad') (acc_logpd s rows)
    (acc_logpd (acc_world_mirror s) rows') (tt_rew_xref (as_t s) rows) g rg out out' Hs Hd Hp _ _ E E').
  - intros q. apply acc_guide_mirror; auto.
  - intros qs k. unfold acc_logpd. rewrite map_map. rewrite <- (tt_logpd_mirror (as_t s) rows rows' _ k F), map_map. reflexivity.
Qed.
(** C76, n-trailer with demonstration and guidance. *)
Lemma l_C76_nt_plan_with_demonstration :
  forall (s : nt_self) (x0 : ntq) grad grad' dir wmax pref rows rows' (g : cfg) (rg : prng) out out',
  nt_sized s ->
  (forall q, grad' (nt_mirror q) = nt_mirror (grad q)) ->
  nt_demo s x0 dir wmax pref = Ok rows ->
  nt_demo (nt_world_mirror s) (nt_mirror x0) dir wmax pref = Ok rows' ->
  nt_run s x0 (nt_guide s grad) (nt_logpd s rows) (nt_rew_xref s rows) g rg = Ok out ->
  nt_run (nt_world_mirror s) (nt_mirror x0) (nt_guide (nt_world_mirror s) grad')
    (nt_logpd (nt_world_mirror s) rows') (nt_rew_xref (nt_world_mirror s) rows') g (mirror_noise rg) = Ok out' ->
  o_Y0 out' = map mirror_act (o_Y0 out) /\ o_rew out' = o_rew out /\ o_traj out' = map nt_mirror (o_traj out).
Proof.
  intros s x0 grad grad' dir wmax pref rows rows' g rg out out' Hs Hg Ed Ed' E E'.
  assert (F : Forall2 row_mirrors rows rows').
  { pose proof (demo_mirror (p_H (ns_p s)) (ns_circ s) (ns_rect s) (n_px x0, n_py x0)
      (mkTT (n_px (ns_xg s)) (n_py (ns_xg s)) (n_th0 (ns_xg s)) (nt_th1 (ns_xg s))) dir wmax pref) as H.
    unfold nt_demo in Ed, Ed'. rewrite Ed in H. cbn [nt_world_mirror ns_xg] in Ed'. rewrite nt_th1_mirror in Ed'.
    exact (eq_rect _ (fun r => opt_rows (Ok rows) r) H _ Ed'). }
  rewrite (nt_rew_xref_mirror s rows rows' F) in E'.
  refine (l_C76_nt_plan_mirrors s x0 (nt_guide s grad) (nt_guide (nt_world_mirror s) grad') (nt_logpd s rows)
    (nt_logpd (nt_world_mirror s) rows') (nt_rew_xref s rows) g rg out out' Hs _ _ E E').
  - intros q. apply nt_guide_mirror; auto.
  - intros qs k. apply nt_logpd_mirror; auto.
Qed.
(** C76, bicycle with demonstration and guidance. *)
Lemma l_C76_bk_plan_with_demonstration :
  forall (s : bk_self) (x0 : bkq) proj proj' grad grad' dir wmax pref rows rows' (g : cfg) (rg : prng) out out',
  tractor_sized (bs_p s) ->
  (forall q a, proj' (bk_mirror q) (mirror_act a) = mirror_act (proj q a)) ->
  (forall q, grad' (bk_mirror q) = bk_mirror (grad q)) ->
  bk_demo s x0 dir wmax pref = Ok rows ->
  bk_demo (bk_world_mirror s) (bk_mirror x0) dir wmax pref = Ok rows' ->
  run_diffusion (bk_penv s x0 proj (bk_guide s grad) (bk_logpd s rows) (bk_rew_xref s rows)) (Some g) rg = Ok out ->
  run_diffusion (bk_penv (bk_world_mirror s) (bk_mirror x0) proj' (bk_guide (bk_world_mirror s) grad')
    (bk_logpd (bk_world_mirror s) rows') (bk_rew_xref (bk_world_mirror s) rows')) (Some g) (mirror_noise rg) = Ok out' ->
  o_Y0 out' = map mirror_act (o_Y0 out) /\ o_rew out' = o_rew out /\ o_traj out' = map bk_mirror (o_traj out).
Proof.
  intros s x0 proj proj' grad grad' dir wmax pref rows rows' g rg out out' Hs Hp Hg Ed Ed' E E'.
  assert (F : Forall2 row_mirrors rows rows').
  { pose proof (demo_mirror (p_H (bs_p s)) (bs_circ s) (bs_rect s) (b_px x0, b_py x0)
      (mkTT (b_px (bs_xg s)) (b_py (bs_xg s)) (b_th (bs_xg s)) (b_th (bs_xg s))) dir wmax pref) as H.
    unfold bk_demo in Ed, Ed'. rewrite Ed in H. exact (eq_rect _ (fun r => opt_rows (Ok rows) r) H _ Ed'). }
  rewrite (bk_rew_xref_mirror s rows rows' F) in E'.
  refine (l_C76_bk_plan_mirrors s x0 proj proj' (bk_guide s grad) (bk_guide (bk_world_mirror s) grad') (bk_logpd s rows)
    (bk_logpd (bk_world_mirror s) rows') (bk_rew_xref s rows) g rg out out' Hs Hp _ _ E E').
  - intros q. apply bk_guide_mirror; auto.
  - intros qs k. apply bk_logpd_mirror; auto.
Qed.

(** ** Gradients *)
Lemma deriv_mirror (f f' : R -> R) y d : (forall z, f' (- z) = f z) -> derivable_pt_lim f y d -> derivable_pt_lim f' (- y) (- d).
Proof.
  intros E H eps He. destruct (H eps He) as [del Hd]. exists del. intros h Hh Hlt.
  replace (- y + h) with (- (y + - h)) by ring. rewrite !E.
  replace ((f (y + - h) - f y) / h - - d) with (- ((f (y + - h) - f y) / - h - d)) by (field; lra).
  rewrite Rabs_Ropp. apply Hd; [lra|rewrite Rabs_Ropp; exact Hlt].
Qed.
(** C76, guidance gradients: wherever the guidance cost has partial derivatives, those of the mirrored cost at the
    mirrored pose are the mirrored ones, as the plan theorems ask of the gradient. *)
Lemma l_C76_guidance_gradient_mirrors :
  forall (s : tt_self) (q d : ttq),
  let c := fun x y a b => tt_guidance_cost s (mkTT x y a b) in
  let c' := fun x y a b => tt_guidance_cost (tt_world_mirror s) (mkTT x y a b) in
  let gradient (c : R -> R -> R -> R -> R) (q d : ttq) :=
    derivable_pt_lim (fun z => c z (t_py q) (t_th1 q) (t_th2 q)) (t_px q) (t_px d) /\
    derivable_pt_lim (fun z => c (t_px q) z (t_th1 q) (t_th2 q)) (t_py q) (t_py d) /\
    derivable_pt_lim (fun z => c (t_px q) (t_py q) z (t_th2 q)) (t_th1 q) (t_th1 d) /\
    derivable_pt_lim (fun z => c (t_px q) (t_py q) (t_th1 q) z) (t_th2 q) (t_th2 d) in
  gradient c q d -> gradient c' (tt_mirror q) (tt_mirror d).
Proof.
  intros s q d c c' gradient (H1 & H2 & H3 & H4).
  assert (E : forall x y a b, c' x (- y) (- a) (- b) = c x y a b) by (intros; apply (tt_cost_mirror s (mkTT x y a b))).
  unfold gradient. cbn [tt_mirror t_px t_py t_th1 t_th2].
  split; [|split; [|split]].
  - intros eps He. destruct (H1 eps He) as [del Hd]. exists del. intros h Hh Hl. rewrite !E. apply Hd; auto.
  - apply deriv_mirror with (f := fun z => c (t_px q) z (t_th1 q) (t_th2 q)); [intros; apply E|exact H2].
  - apply deriv_mirror with (f := fun z => c (t_px q) (t_py q) z (t_th2 q)); [intros; apply E|exact H3].
  - apply deriv_mirror with (f := fun z => c (t_px q) (t_py q) (t_th1 q) z); [intros; apply E|exact H4].
Qed.
(** Non-vacuity: with the default horizon and the four way-points the planner asks for, both demonstrations exist, in
    any world, and have rows. *)
Lemma x_C76_demonstrations_exist :
  forall (s : tt_self) (x0 : ttq) dir pref, p_H (ts_p s) = 50%nat -> t_px x0 <> t_px (ts_xg s) ->
  exists rows rows', tt_demo s x0 dir 4 pref = Ok rows /\ tt_demo (tt_world_mirror s) (tt_mirror x0) dir 4 pref = Ok rows' /\ rows <> [].
Proof.
  intros s x0 dir pref HH Hx.
  destruct (l_C35_tt_demonstration_shape s x0 dir 4%nat pref) as (W & rows & E & _ & E0 & _); [lia|rewrite HH; lia|congruence|].
  pose proof (l_C76_demonstration_mirrors s x0 dir 4%nat pref) as H. rewrite E in H.
  destruct (tt_demo (tt_world_mirror s) (tt_mirror x0) dir 4 pref) as [rows'|e] eqn:E'; [|contradiction].
  exists rows, rows'. split; [exact E|]. split; [reflexivity|]. intros ->. 
  destruct (l_C35_tt_demonstration_shape s x0 dir 4%nat pref) as (W' & rows2 & E2 & _ & _ & E3 & _); [lia|rewrite HH; lia|congruence|].
  rewrite E in E2. injection E2 as <-. cbn in E0, E3. injection E0 as A B. injection E3 as C D. congruence.
Qed.
