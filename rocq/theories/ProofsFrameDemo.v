(** * ProofsFrameDemo: translations move the code's own demonstration, its scores and the whole plan along (C45). *)
From Coq Require Import String.
From Verif Require Import Base BaseFacts Params Geom TT2d Bicycle NTrailer Acc Demo Guidance SpecGeom SpecBodies SpecDyn SpecSym SpecProj
  Rollout Planner Instances ProofsGeom ProofsBodies ProofsKin ProofsRobots ProofsSafety ProofsSim ProofsSym ProofsFrame ProofsSymAcc ProofsDemo ProofsMirrorDemo.
Open Scope R_scope.

Section Shift.
Variable d : point.
Let m := mkMotion 0 d.
Lemma sh_move P : move m P = (fst d + fst P, snd d + snd P).
Proof. unfold move, m; cbn [m_ang m_t]. rewrite cos_0, sin_0. apply injective_projections; cbn [fst snd]; ring. Qed.
Lemma sh_psub a b : psub (move m a) (move m b) = psub a b.
Proof. rewrite !sh_move. unfold psub; cbn [fst snd]. apply injective_projections; cbn [fst snd]; ring. Qed.
Lemma sh_lerp a b t : lerp (move m a) (move m b) t = move m (lerp a b t).
Proof. rewrite !sh_move. unfold lerp; cbn [fst snd]. apply injective_projections; cbn [fst snd]; ring. Qed.
Lemma sh_in_circle P c : point_in_circle (move m P) (circle_move m c) = point_in_circle P c.
Proof.
  unfold point_in_circle. unfold circle_move; cbv zeta; cbn [c_x c_y c_r]. rewrite <- surjective_pairing, sh_psub. reflexivity.
Qed.
Lemma sh_in_rect P o : point_in_rect (move m P) (rect_move m o) = point_in_rect P o.
Proof.
  unfold point_in_rect, rect_move. cbv zeta. cbn [r_x r_y r_w r_h r_ang]. rewrite !sh_move; cbn [fst snd].
  replace (r_ang o + m_ang m) with (r_ang o) by (unfold m; cbn [m_ang]; ring).
  replace (fst d + fst P - (fst d + r_x o)) with (fst P - r_x o) by ring.
  replace (snd d + snd P - (snd d + r_y o)) with (snd P - r_y o) by ring. reflexivity.
Qed.
Lemma sh_check circ rect p1 p2 :
  check_line (map (circle_move m) circ) (map (rect_move m) rect) (move m p1) (move m p2) = check_line circ rect p1 p2.
Proof.
  unfold check_line. apply existsb_ext'. intros t. rewrite sh_lerp, !existsb_map'. f_equal; apply existsb_ext'; intros o.
  - apply sh_in_circle.
  - apply sh_in_rect.
Qed.
Lemma sh_waypoints circ rect dir x0 xg :
  waypoints (map (circle_move m) circ) (map (rect_move m) rect) dir (move m x0) (move m xg) = map (move m) (waypoints circ rect dir x0 xg).
Proof.
  unfold waypoints. cbv zeta.
  replace (if horizontal dir then (fst (move m xg), snd (move m x0)) else (fst (move m x0), snd (move m xg)))
    with (move m (if horizontal dir then (fst xg, snd x0) else (fst x0, snd xg))) by (destruct (horizontal dir); rewrite !sh_move; reflexivity).
  replace (if horizontal dir then (fst (move m x0), snd (move m xg)) else (fst (move m xg), snd (move m x0)))
    with (move m (if horizontal dir then (fst x0, snd xg) else (fst xg, snd x0))) by (destruct (horizontal dir); rewrite !sh_move; reflexivity).
  rewrite !sh_check.
  destruct (negb _); [reflexivity|]. destruct (_ && _); [reflexivity|]. destruct (_ && _); reflexivity.
Qed.
Lemma sh_limit W k : limit_waypoints (map (move m) W) k = map (move m) (limit_waypoints W k).
Proof.
  unfold limit_waypoints. rewrite map_length. change (@Datatypes.length pt W) with (@Datatypes.length point W).
  destruct (Nat.ltb k (length W)) eqn:E; [|reflexivity]. apply Nat.ltb_lt in E. rewrite map_map.
  apply map_ext_in. intros i Hi. apply in_seq in Hi.
  assert (Hk : (i * (length W - 1) / (k - 1) < length W)%nat).
  { destruct (Nat.eq_dec (k - 1) 0) as [Z|Z]; [rewrite Z; cbn; lia|].
    apply Nat.le_lt_trans with (m := (length W - 1)%nat); [|lia].
    apply Nat.div_le_upper_bound; [exact Z|]. apply Nat.mul_le_mono_r. lia. }
  rewrite (nth_indep _ (0, 0) (move m (0, 0))) by (rewrite map_length; exact Hk). apply map_nth.
Qed.
Lemma sh_lengths W : seg_lengths (map (move m) W) = seg_lengths W.
Proof.
  induction W as [|a W IH]; [reflexivity|]. destruct W as [|b W]; [reflexivity|].
  change (seg_lengths (map (move m) (a :: b :: W))) with (pnorm (psub (move m b) (move m a)) :: seg_lengths (map (move m) (b :: W))).
  rewrite IH, sh_psub. reflexivity.
Qed.
Definition shk (pk : pt * nat) : pt * nat := (move m (fst pk), snd pk).
Lemma sh_sample W : forall k cs, sample_segments k (map (move m) W) cs = res_map (map shk) (sample_segments k W cs).
Proof.
  induction W as [|a W IH]; intros k cs; [reflexivity|]. destruct W as [|b W]; [reflexivity|].
  destruct cs as [|c cs]; [reflexivity|].
  change (sample_segments k (map (move m) (a :: b :: W)) (c :: cs)) with
    (if Z.ltb c 0 then Err ValueError else
      match sample_segments (S k) (map (move m) (b :: W)) cs with
      | Err e => Err e
      | Ok more => Ok (map (fun t => (lerp (move m a) (move m b) t, k)) (match map (move m) W with [] => lin_closed (Z.to_nat c) | _ => lin_open (Z.to_nat c) end) ++ more)
      end).
  change (sample_segments k (a :: b :: W) (c :: cs)) with
    (if Z.ltb c 0 then Err ValueError else
      match sample_segments (S k) (b :: W) cs with
      | Err e => Err e
      | Ok more => Ok (map (fun t => (lerp a b t, k)) (match W with [] => lin_closed (Z.to_nat c) | _ => lin_open (Z.to_nat c) end) ++ more)
      end).
  destruct (Z.ltb c 0); [reflexivity|]. rewrite IH.
  destruct (sample_segments (S k) (b :: W) cs) as [more|e]; [|reflexivity]. cbn [res_map]. f_equal. rewrite map_app. f_equal.
  replace (match map (move m) W with [] => lin_closed (Z.to_nat c) | _ => lin_open (Z.to_nat c) end)
    with (match W with [] => lin_closed (Z.to_nat c) | _ => lin_open (Z.to_nat c) end) by (destruct W; reflexivity).
  rewrite map_map. apply map_ext. intros t. unfold shk; cbn [fst snd]. rewrite sh_lerp. reflexivity.
Qed.
Lemma sh_path H W : path_points H (map (move m) W) = res_map (map shk) (path_points H W).
Proof.
  unfold path_points. cbv zeta. rewrite sh_lengths. destruct (Rltb 0 _); [apply sh_sample|].
  destruct W as [|w W], H as [|H]; try reflexivity. cbn [map res_map]. f_equal.
  change ((move m w, O) :: repeat (move m w, O) H = shk (w, O) :: map shk (repeat (w, O) H)).
  f_equal. induction H as [|H IH]; cbn [repeat map]; [reflexivity|]. rewrite IH. reflexivity.
Qed.
Lemma sh_fix H W xg ps : fix_length H (map (move m) W) (move m xg) (map shk ps) = map shk (fix_length H W xg ps).
Proof.
  unfold fix_length. unfold final_segment. rewrite !map_length.
  destruct (Nat.ltb H (length ps)); [|destruct (Nat.ltb (length ps) H)].
  - rewrite map_map. apply map_ext. intros i. set (k := (i * (length ps - 1) / (H - 1))%nat). clearbody k.
    change (move m xg, O) with (shk (xg, O)). apply map_nth.
  - rewrite map_app. f_equal. induction (H - length ps)%nat as [|n IH]; cbn [repeat map]; [reflexivity|]. rewrite IH. reflexivity.
  - reflexivity.
Qed.
(** The translated row: positions moved, headings and mask as they were. *)
Definition shrow (r : refrow) : refrow :=
  mkRef (fst d + f_px r) (snd d + f_py r) (f_th1 r) (f_th2 r) (f_mask r).
Lemma sh_heading pref g1 g2 fin ps : forall prev,
  heading_rows pref g1 g2 fin prev (map shk ps) = map shrow (heading_rows pref g1 g2 fin prev ps).
Proof.
  induction ps as [|[a k] ps IH]; intros prev; [reflexivity|].
  destruct ps as [|[b kb] ps].
  - cbn [map shk fst snd heading_rows]. rewrite sh_move. reflexivity.
  - set (th := fun (P Q : pt) => if Nat.eqb k fin then (if moves P Q
      then (if Z.eqb pref (-1) || Z.eqb pref (-2) then atan2 (snd Q - snd P) (fst Q - fst P) + PI else atan2 (snd Q - snd P) (fst Q - fst P)) else prev) else 0).
    assert (E : th (move m a) (move m b) = th a b).
    { rewrite !sh_move. unfold th, moves; cbn [fst snd].
      replace (fst d + fst b - (fst d + fst a)) with (fst b - fst a) by ring.
      replace (snd d + snd b - (snd d + snd a)) with (snd b - snd a) by ring. reflexivity. }
    change (heading_rows pref g1 g2 fin prev ((a, k) :: (b, kb) :: ps)) with
      (mkRef (fst a) (snd a) (th a b) (th a b) (Nat.eqb k fin) :: heading_rows pref g1 g2 fin (th a b) ((b, kb) :: ps)).
    change (heading_rows pref g1 g2 fin prev (map shk ((a, k) :: (b, kb) :: ps))) with
      (mkRef (fst (move m a)) (snd (move m a)) (th (move m a) (move m b)) (th (move m a) (move m b)) (Nat.eqb k fin) ::
       heading_rows pref g1 g2 fin (th (move m a) (move m b)) (map shk ((b, kb) :: ps))).
    rewrite E, IH, sh_move. cbn [fst snd]. reflexivity.
Qed.
Lemma demo_shift H circ rect x0 xg dir wmax pref :
  demo H (map (circle_move m) circ) (map (rect_move m) rect) (move m x0) (tt_move m xg) dir wmax pref =
  res_map (map shrow) (demo H circ rect x0 xg dir wmax pref).
Proof.
  unfold demo. cbv zeta. unfold tt_move; cbv zeta; cbn [t_px t_py t_th1 t_th2].
  replace (t_th1 xg + m_ang m) with (t_th1 xg) by (unfold m; cbn [m_ang]; ring).
  replace (t_th2 xg + m_ang m) with (t_th2 xg) by (unfold m; cbn [m_ang]; ring).
  rewrite <- surjective_pairing.
  rewrite sh_waypoints, sh_limit, sh_path. set (W := limit_waypoints _ _).
  destruct (path_points H W) as [ps|e]; cbn [res_map]; [|reflexivity].
  rewrite sh_fix.
  replace (final_segment (map (move m) W)) with (final_segment W) by (unfold final_segment; rewrite map_length; reflexivity).
  set (qs := fix_length H W _ ps). destruct qs as [|q qs]; [reflexivity|]. cbn [res_map].
  rewrite <- sh_heading. reflexivity.
Qed.
Lemma shrow_pos r : f_pos (shrow r) = move m (f_pos r).
Proof. rewrite sh_move. reflexivity. Qed.
Lemma logpd_row_shift p pref pos a1 a2 r : logpd_row p pref (move m pos) a1 a2 (shrow r) = logpd_row p pref pos a1 a2 r.
Proof. unfold logpd_row. cbv zeta. rewrite shrow_pos, sh_psub. reflexivity. Qed.
Lemma tt_shift_q q : tt_move m q = mkTT (fst d + t_px q) (snd d + t_py q) (t_th1 q) (t_th2 q).
Proof. unfold tt_move. cbv zeta. rewrite sh_move; cbn [fst snd]. unfold m; cbn [m_ang]. f_equal; ring. Qed.
Lemma bk_shift_q q : bk_move m q = mkBK (fst d + b_px q) (snd d + b_py q) (b_th q).
Proof. unfold bk_move. cbv zeta. rewrite sh_move; cbn [fst snd]. unfold m; cbn [m_ang]. f_equal; ring. Qed.
Lemma nt_shift_q q : nt_move m q = mkNT (fst d + n_px q) (snd d + n_py q) (n_th0 q) (n_ths q).
Proof.
  unfold nt_move. cbv zeta. rewrite sh_move; cbn [fst snd]. unfold m; cbn [m_ang]. f_equal; [ring|].
  rewrite <- (map_id (n_ths q)) at 2. apply map_ext. intros; ring.
Qed.
Lemma map2_shift {A B} (f f' : A -> B -> R) (g : A -> A) (h : B -> B) l k :
  (forall a b, f' (g a) (h b) = f a b) -> map2 f' (map g l) (map h k) = map2 f l k.
Proof. intros H. revert k. induction l as [|a l IH]; intros [|b k]; cbn [map map2]; auto. rewrite H, IH. reflexivity. Qed.
Lemma tt_logpd_shift s rows xs pref :
  tt_logpd (tt_world_move m s) (map shrow rows) (map (tt_move m) xs) pref = tt_logpd s rows xs pref.
Proof.
  unfold tt_logpd. cbv zeta. cbn [tt_world_move ts_p]. f_equal. apply map2_shift. intros x r.
  rewrite <- (logpd_row_shift (ts_p s) pref _ _ _ r), tt_trailer_pos_move, tt_shift_q. cbn [t_px t_py t_th1 t_th2].
  destruct (use_tractor pref); cbn [where_]; [rewrite sh_move|]; reflexivity.
Qed.
Lemma bk_logpd_shift s rows xs pref :
  bk_logpd (bk_world_move m s) (map shrow rows) (map (bk_move m) xs) pref = bk_logpd s rows xs pref.
Proof.
  unfold bk_logpd. cbn [bk_world_move bs_p]. f_equal. apply map2_shift. intros x r.
  unfold bk_logpd_row. cbv zeta. rewrite shrow_pos, bk_shift_q. cbn [b_px b_py b_th].
  change (fst d + b_px x, snd d + b_py x) with (fst d + fst (b_px x, b_py x), snd d + snd (b_px x, b_py x)).
  rewrite <- sh_move, sh_psub. reflexivity.
Qed.
Lemma nt_last_pos_shift s q : nt_last_pos (nt_world_move m s) (nt_move m q) = move m (nt_last_pos s q).
Proof.
  unfold nt_last_pos. cbv zeta. change (ns_N (nt_world_move m s)) with (ns_N s). change (ns_p (nt_world_move m s)) with (ns_p s).
  rewrite nt_shift_q. cbn [n_px n_py n_th0 n_ths].
  assert (B : forall c i, nt_last_body (nt_world_move m s) (n_ths q) (move m (fst c), move m (snd c)) i =
    (move m (fst (nt_last_body s (n_ths q) c i)), move m (snd (nt_last_body s (n_ths q) c i)))).
  { intros [[hx hy] l] i. cbn [fst snd]. rewrite (sh_move (hx, hy)). unfold nt_last_body. cbv zeta. cbn [fst snd].
    change (ns_len (nt_world_move m s)) with (ns_len s). change (ns_front (nt_world_move m s)) with (ns_front s).
    rewrite !sh_move; cbn [fst snd]. apply injective_projections; cbn [fst snd]; apply injective_projections; cbn [fst snd]; ring. }
  assert (F : forall is c, fold_left (nt_last_body (nt_world_move m s) (n_ths q)) is (move m (fst c), move m (snd c)) =
    (move m (fst (fold_left (nt_last_body s (n_ths q)) is c)), move m (snd (fold_left (nt_last_body s (n_ths q)) is c)))).
  { induction is as [|i is IH]; intros c; cbn [fold_left]; [reflexivity|]. rewrite B. apply IH. }
  set (lh := p_lh (ns_p s)). set (h := (n_px q - lh * cos (n_th0 q), n_py q - lh * sin (n_th0 q))).
  replace (fst d + n_px q - lh * cos (n_th0 q), snd d + n_py q - lh * sin (n_th0 q)) with (move m h)
    by (rewrite sh_move; unfold h; cbn [fst snd]; f_equal; ring).
  change (move m h, move m h) with (move m (fst (h, h)), move m (snd (h, h))). rewrite F. reflexivity.
Qed.
Lemma nt_logpd_shift s rows xs pref :
  nt_logpd (nt_world_move m s) (map shrow rows) (map (nt_move m) xs) pref = nt_logpd s rows xs pref.
Proof.
  unfold nt_logpd. cbv zeta. change (ns_p (nt_world_move m s)) with (ns_p s). f_equal. apply map2_shift. intros x r.
  rewrite <- (logpd_row_shift (ns_p s) pref _ _ _ r), nt_last_pos_shift, nt_shift_q. unfold nt_th1. cbn [n_px n_py n_th0 n_ths].
  destruct (use_tractor pref); cbn [where_]; [rewrite sh_move|]; reflexivity.
Qed.
Lemma nt_dpos_shift s q : nt_dpos (nt_world_move m s) (nt_move m q) = nt_dpos s q.
Proof.
  unfold nt_dpos. cbv zeta. change (ns_xg (nt_world_move m s)) with (nt_move m (ns_xg s)). change (ns_p (nt_world_move m s)) with (ns_p s).
  rewrite !nt_last_pos_shift, sh_psub, !nt_shift_q. cbn [n_px n_py n_th0].
  set (P := psub (fst d + _ + _, _) _). replace P with (psub (n_px q + p_l1 (ns_p s) * cos (n_th0 q), n_py q + p_l1 (ns_p s) * sin (n_th0 q)) (n_px (ns_xg s), n_py (ns_xg s)))
    by (unfold P, psub; cbn [fst snd]; f_equal; ring). reflexivity.
Qed.
Lemma row_shift_tt r : row_tt (shrow r) = tt_move m (row_tt r).
Proof. rewrite tt_shift_q. reflexivity. Qed.
Lemma row_shift_bk r : row_bk (shrow r) = bk_move m (row_bk r).
Proof. rewrite bk_shift_q. reflexivity. Qed.
Lemma row_shift_nt r : row_nt (shrow r) = nt_move m (row_nt r).
Proof. rewrite nt_shift_q. reflexivity. Qed.
Lemma last_row_shift rows : rows <> [] -> last_row (map shrow rows) = shrow (last_row rows).
Proof.
  unfold last_row. induction rows as [|r rows IH]; [congruence|]. intros _. destruct rows as [|r2 rows]; [reflexivity|].
  change (map shrow (r :: r2 :: rows)) with (shrow r :: map shrow (r2 :: rows)). 
  change (last (shrow r :: map shrow (r2 :: rows)) (mkRef 0 0 0 0 false)) with (last (map shrow (r2 :: rows)) (mkRef 0 0 0 0 false)).
  apply IH. discriminate.
Qed.
Lemma tt_rew_xref_shift s rows : rows <> [] -> tt_rew_xref (tt_world_move m s) (map shrow rows) = tt_rew_xref s rows.
Proof.
  intros Hn. unfold tt_rew_xref. change (ts_p (tt_world_move m s)) with (ts_p s). rewrite map_map, last_row_shift, row_shift_tt, tt_terminal_move by auto.
  f_equal. f_equal. apply map_ext. intros r. rewrite row_shift_tt. apply tt_reward_move.
Qed.
Lemma bk_rew_xref_shift s rows : rows <> [] -> bk_rew_xref (bk_world_move m s) (map shrow rows) = bk_rew_xref s rows.
Proof.
  intros Hn. unfold bk_rew_xref. change (bs_p (bk_world_move m s)) with (bs_p s). rewrite map_map, last_row_shift, row_shift_bk, bk_terminal_move by auto.
  f_equal. f_equal. apply map_ext. intros r. rewrite row_shift_bk. apply bk_reward_move.
Qed.
Lemma nt_rew_xref_shift s rows : rows <> [] -> nt_rew_xref (nt_world_move m s) (map shrow rows) = nt_rew_xref s rows.
Proof.
  intros Hn. unfold nt_rew_xref. change (ns_p (nt_world_move m s)) with (ns_p s). rewrite map_map, last_row_shift, row_shift_nt by auto.
  unfold nt_terminal. rewrite nt_dpos_shift. f_equal. f_equal. apply map_ext. intros r. rewrite row_shift_nt.
  unfold nt_reward. rewrite nt_dpos_shift. reflexivity.
Qed.
End Shift.
Lemma demo_rows_nonempty H circ rect x0 xg dir wmax pref rows : demo H circ rect x0 xg dir wmax pref = Ok rows -> rows <> [].
Proof.
  unfold demo. cbv zeta. destruct (path_points _ _) as [ps|e]; [|discriminate].
  destruct (fix_length _ _ _ ps) as [|[a k] qs]; [discriminate|]. intros E. injection E as <-.
  destruct qs as [|[b kb] qs]; cbn [heading_rows]; discriminate.
Qed.

(** C45, demonstrations: translate start, goal and obstacles together and the code's own demonstration is translated
    with them - same headings, same row weights - or the same exception arises. *)
Lemma l_C45_demonstration_translates :
  forall (d : point) (s : tt_self) (x0 : ttq) dir wmax pref,
  match tt_demo s x0 dir wmax pref, tt_demo (tt_world_move (mkMotion 0 d) s) (tt_move (mkMotion 0 d) x0) dir wmax pref with
  | Ok rows, Ok rows' => Forall2 (fun r r' => f_px r' = fst d + f_px r /\ f_py r' = snd d + f_py r /\
      f_th1 r' = f_th1 r /\ f_th2 r' = f_th2 r /\ f_mask r' = f_mask r) rows rows'
  | Err e, Err e' => e = e'
  | _, _ => False
  end.
Proof.
  intros d s x0 dir wmax pref. unfold tt_demo. cbn [tt_world_move ts_p ts_circ ts_rect ts_xg].
  pose proof (demo_shift d (p_H (ts_p s)) (ts_circ s) (ts_rect s) (t_px x0, t_py x0) (ts_xg s) dir wmax pref) as D.
  rewrite (surjective_pairing (move _ _)) in D.
  refine (eq_ind _ (fun r => match demo (p_H (ts_p s)) (ts_circ s) (ts_rect s) (t_px x0, t_py x0) (ts_xg s) dir wmax pref, r with
    | Ok rows, Ok rows' => Forall2 _ rows rows' | Err e, Err e' => e = e' | _, _ => False end) _ _ (eq_sym D)). clear D.
  destruct (demo _ _ _ _ _ _ _ _) as [rows|e]; cbn [res_map]; [|reflexivity].
  induction rows as [|r rows IH]; cbn [map]; constructor; auto.
Qed.
(** C45, tractor-trailer, with the code's own demonstration (guidance off, as by default): translating the whole
    task translates the whole plan, with equal controls and equal rewards, in every mode. *)
Lemma l_C45_tt_plan_with_demonstration :
  forall (d : point) (s : tt_self) (x0 : ttq) proj proj' grad grad' dir wmax pref rows rows' (g : cfg) (rg : prng) out out',
  let m := mkMotion 0 d in
  p_guid (ts_p s) = false ->
  (forall q a, proj' (tt_move m q) a = proj q a) ->
  tt_demo s x0 dir wmax pref = Ok rows ->
  tt_demo (tt_world_move m s) (tt_move m x0) dir wmax pref = Ok rows' ->
  run_diffusion (tt_penv s x0 proj (tt_guide s grad) (tt_logpd s rows) (tt_rew_xref s rows)) (Some g) rg = Ok out ->
  run_diffusion (tt_penv (tt_world_move m s) (tt_move m x0) proj' (tt_guide (tt_world_move m s) grad')
    (tt_logpd (tt_world_move m s) rows') (tt_rew_xref (tt_world_move m s) rows')) (Some g) rg = Ok out' ->
  o_Y0 out' = o_Y0 out /\ o_rew out' = o_rew out /\ o_traj out' = map (tt_move m) (o_traj out).
Proof.
  intros d s x0 proj proj' grad grad' dir wmax pref rows rows' g rg out out' m Hg Hp Ed Ed' E E'.
  pose proof (demo_rows_nonempty _ _ _ _ _ _ _ _ _ Ed) as Hn.
  assert (F : rows' = map (shrow d) rows).
  { unfold tt_demo in Ed, Ed'.
    pose proof (demo_shift d (p_H (ts_p s)) (ts_circ s) (ts_rect s) (t_px x0, t_py x0) (ts_xg s) dir wmax pref) as D.
    rewrite Ed in D. cbn [res_map] in D.
    rewrite (surjective_pairing (move _ _)) in D. apply (eq_trans (eq_sym D)) in Ed'. injection Ed' as <-. reflexivity. }
  subst rows'. unfold m in *. rewrite tt_rew_xref_shift in E' by exact Hn.
  refine (l_C45_tt_plan_moves_along (mkMotion 0 d) s x0 proj proj' (tt_guide s grad) (tt_guide (tt_world_move (mkMotion 0 d) s) grad')
    (tt_logpd s rows) _ (tt_rew_xref s rows) g rg out out' Hp _ _ E E').
  - intros q. unfold tt_guide, tt_apply_guidance_n. cbn [tt_world_move ts_p]. rewrite Hg. reflexivity.
  - intros qs k. apply tt_logpd_shift.
Qed.
(** C45, bicycle with demonstration. *)
Lemma l_C45_bk_plan_with_demonstration :
  forall (d : point) (s : bk_self) (x0 : bkq) proj proj' grad grad' dir wmax pref rows rows' (g : cfg) (rg : prng) out out',
  let m := mkMotion 0 d in
  p_guid (bs_p s) = false ->
  (forall q a, proj' (bk_move m q) a = proj q a) ->
  bk_demo s x0 dir wmax pref = Ok rows ->
  bk_demo (bk_world_move m s) (bk_move m x0) dir wmax pref = Ok rows' ->
  run_diffusion (bk_penv s x0 proj (bk_guide s grad) (bk_logpd s rows) (bk_rew_xref s rows)) (Some g) rg = Ok out ->
  run_diffusion (bk_penv (bk_world_move m s) (bk_move m x0) proj' (bk_guide (bk_world_move m s) grad')
    (bk_logpd (bk_world_move m s) rows') (bk_rew_xref (bk_world_move m s) rows')) (Some g) rg = Ok out' ->
  o_Y0 out' = o_Y0 out /\ o_rew out' = o_rew out /\ o_traj out' = map (bk_move m) (o_traj out).
Proof.
  intros d s x0 proj proj' grad grad' dir wmax pref rows rows' g rg out out' m Hg Hp Ed Ed' E E'.
  pose proof (demo_rows_nonempty _ _ _ _ _ _ _ _ _ Ed) as Hn.
  assert (F : rows' = map (shrow d) rows).
  { unfold bk_demo in Ed, Ed'. 
    pose proof (demo_shift d (p_H (bs_p s)) (bs_circ s) (bs_rect s) (b_px x0, b_py x0)
      (mkTT (b_px (bs_xg s)) (b_py (bs_xg s)) (b_th (bs_xg s)) (b_th (bs_xg s))) dir wmax pref) as D.
    rewrite Ed in D. cbn [res_map] in D.
    rewrite (surjective_pairing (move _ _)) in D. apply (eq_trans (eq_sym D)) in Ed'. injection Ed' as <-. reflexivity. }
  subst rows'. unfold m in *. rewrite bk_rew_xref_shift in E' by exact Hn.
  refine (l_C45_bk_plan_moves_along (mkMotion 0 d) s x0 proj proj' (bk_guide s grad) (bk_guide (bk_world_move (mkMotion 0 d) s) grad')
    (bk_logpd s rows) _ (bk_rew_xref s rows) g rg out out' Hp _ _ E E').
  - intros q. unfold bk_guide. cbn [bk_world_move bs_p]. rewrite Hg. reflexivity.
  - intros qs k. apply bk_logpd_shift.
Qed.
(** C45, N trailers with demonstration. *)
Lemma l_C45_nt_plan_with_demonstration :
  forall (d : point) (s : nt_self) (x0 : ntq) grad grad' dir wmax pref rows rows' (g : cfg) (rg : prng) out out',
  let m := mkMotion 0 d in
  p_guid (ns_p s) = false ->
  (1 <= p_num_trailers (ns_p s))%nat -> length (n_ths (ns_xg s)) = p_num_trailers (ns_p s) ->
  length (ns_len s) = p_num_trailers (ns_p s) ->
  nt_demo s x0 dir wmax pref = Ok rows ->
  nt_demo (nt_world_move m s) (nt_move m x0) dir wmax pref = Ok rows' ->
  nt_run s x0 (nt_guide s grad) (nt_logpd s rows) (nt_rew_xref s rows) g rg = Ok out ->
  nt_run (nt_world_move m s) (nt_move m x0) (nt_guide (nt_world_move m s) grad')
    (nt_logpd (nt_world_move m s) rows') (nt_rew_xref (nt_world_move m s) rows') g rg = Ok out' ->
  o_Y0 out' = o_Y0 out /\ o_rew out' = o_rew out /\ o_traj out' = map (nt_move m) (o_traj out).
Proof.
  intros d s x0 grad grad' dir wmax pref rows rows' g rg out out' m Hg HN Hx Hl Ed Ed' E E'.
  pose proof (demo_rows_nonempty _ _ _ _ _ _ _ _ _ Ed) as Hn.
  assert (F : rows' = map (shrow d) rows).
  { unfold nt_demo in Ed, Ed'.
    pose proof (demo_shift d (p_H (ns_p s)) (ns_circ s) (ns_rect s) (n_px x0, n_py x0)
      (mkTT (n_px (ns_xg s)) (n_py (ns_xg s)) (n_th0 (ns_xg s)) (nt_th1 (ns_xg s))) dir wmax pref) as D.
    rewrite Ed in D. cbn [res_map] in D.
    rewrite (surjective_pairing (move _ _)) in D.
    assert (T : nt_th1 (nt_move m (ns_xg s)) = nt_th1 (ns_xg s) + m_ang m) by (unfold nt_th1; destruct (ns_xg s) as [x y t [|u l]]; reflexivity).
    cbn [nt_world_move ns_xg] in Ed'. rewrite T in Ed'.
    apply (eq_trans (eq_sym D)) in Ed'. injection Ed' as <-. reflexivity. }
  subst rows'. unfold m in *. rewrite nt_rew_xref_shift in E' by exact Hn.
  refine (l_C45_nt_plan_moves_along (mkMotion 0 d) s x0 (nt_guide s grad) (nt_guide (nt_world_move (mkMotion 0 d) s) grad')
    (nt_logpd s rows) _ (nt_rew_xref s rows) g rg out out' HN Hx Hl _ _ E E').
  - intros q Hq. unfold nt_guide. change (ns_p (nt_world_move (mkMotion 0 d) s)) with (ns_p s). rewrite Hg. cbn [negb]. auto.
  - intros qs k. apply nt_logpd_shift.
Qed.
(** C45, acceleration class with demonstration. *)
Lemma l_C45_acc_plan_with_demonstration :
  forall (d : point) (s : acc_self) (x0 : accq) proj proj' grad grad' dir wmax pref rows rows' (g : cfg) (rg : prng) out out',
  let m := mkMotion 0 d in
  p_guid (as_p s) = false ->
  (forall q a, proj' (acc_move m q) a = proj q a) ->
  acc_demo s x0 dir wmax pref = Ok rows ->
  acc_demo (acc_world_move m s) (acc_move m x0) dir wmax pref = Ok rows' ->
  run_diffusion (acc_penv s x0 proj (acc_guide s grad) (acc_logpd s rows) (tt_rew_xref (as_t s) rows)) (Some g) rg = Ok out ->
  run_diffusion (acc_penv (acc_world_move m s) (acc_move m x0) proj' (acc_guide (acc_world_move m s) grad')
    (acc_logpd (acc_world_move m s) rows') (tt_rew_xref (as_t (acc_world_move m s)) rows')) (Some g) rg = Ok out' ->
  o_Y0 out' = o_Y0 out /\ o_rew out' = o_rew out /\ o_traj out' = map (acc_move m) (o_traj out).
Proof.
  intros d s x0 proj proj' grad grad' dir wmax pref rows rows' g rg out out' m Hg Hp Ed Ed' E E'.
  pose proof (demo_rows_nonempty _ _ _ _ _ _ _ _ _ Ed) as Hn.
  assert (F : rows' = map (shrow d) rows).
  { unfold acc_demo, tt_demo in Ed, Ed'.
    pose proof (demo_shift d (p_H (as_p s)) (ts_circ (as_t s)) (ts_rect (as_t s)) (t_px (a_q x0), t_py (a_q x0)) (ts_xg (as_t s)) dir wmax pref) as D.
    change (ts_p (as_t s)) with (as_p s) in Ed. rewrite Ed in D. cbn [res_map] in D.
    rewrite (surjective_pairing (move _ _)) in D. apply (eq_trans (eq_sym D)) in Ed'. injection Ed' as <-. reflexivity. }
  subst rows'. change (as_t (acc_world_move m s)) with (tt_world_move m (as_t s)) in E'. unfold m in *. rewrite tt_rew_xref_shift in E' by exact Hn.
  refine (l_C45_acc_plan_moves_along (mkMotion 0 d) s x0 proj proj' (acc_guide s grad) (acc_guide (acc_world_move (mkMotion 0 d) s) grad')
    (acc_logpd s rows) _ (tt_rew_xref (as_t s) rows) g rg out out' Hp _ _ E E').
  - intros q. unfold acc_guide. change (as_p (acc_world_move (mkMotion 0 d) s)) with (as_p s). rewrite Hg. reflexivity.
  - intros qs k. unfold acc_logpd. rewrite map_map. rewrite <- (tt_logpd_shift d (as_t s) rows _ k), map_map. reflexivity.
Qed.
(** C45, guidance (finding): the guidance update clips the pose's coordinates into [-100, 100], a box around the world's
    origin: at zero gradient it leaves a pose at the origin alone but drags the translated pose back, so a plan with
    guidance is not translation-invariant. *)
Lemma l_C45_guidance_tied_to_origin_refuted :
  exists (s : tt_self) (d : point) (q : ttq), p_guid (ts_p s) = true /\
  let zero := fun _ : ttq => mkTT 0 0 0 0 in
  let m := mkMotion 0 d in
  tt_guide s zero q = q /\ t_px (tt_move m q) = 200 /\ t_px (tt_guide (tt_world_move m s) zero (tt_move m q)) = 100.
Proof.
  exists (mkTTSelf (with_modes default_params false true) [] [] (mkTT 1 1 0 0)), (200, 0), (mkTT 0 0 0 0).
  split; [reflexivity|]. cbv zeta. pose proof PI_RGT_0 as HP.
  assert (C0 : clip_pos 0 = 0) by (unfold clip_pos, clip, Rmin, Rmax; repeat destruct Rle_dec; lra).
  assert (A0 : clip_ang 0 = 0) by (unfold clip_ang, clip, Rmin, Rmax; repeat destruct Rle_dec; lra).
  assert (E0 : tt_guidance_step (fun _ => mkTT 0 0 0 0) (5 / 100) (mkTT 0 0 0 0) = mkTT 0 0 0 0).
  { unfold tt_guidance_step; cbv zeta; cbn [t_px t_py t_th1 t_th2]. replace (0 - 5 / 100 * 0) with 0 by ring. rewrite C0, A0. reflexivity. }
  split; [|split].
  - unfold tt_guide, tt_apply_guidance_n. cbn [ts_p p_guid with_modes negb]. change (Nat.iter 3 ?f ?x) with (f (f (f x))). rewrite !E0. reflexivity.
  - rewrite tt_shift_q. cbn [t_px fst]. ring.
  - unfold tt_guide, tt_apply_guidance_n. cbn [tt_world_move ts_p p_guid with_modes negb].
    change (Nat.iter 3 ?f ?x) with (f (f (f x))). rewrite tt_shift_q. cbn [t_px t_py t_th1 t_th2 fst snd].
    unfold tt_guidance_step; cbv zeta; cbn [t_px t_py t_th1 t_th2].
    assert (H1 : clip_pos (200 + 0 - 5 / 100 * 0) = 100).
    { replace (200 + 0 - 5 / 100 * 0) with 200 by ring. unfold clip_pos, clip, Rmin, Rmax. repeat destruct Rle_dec; lra. }
    assert (H2 : clip_pos (100 - 5 / 100 * 0) = 100).
    { replace (100 - 5 / 100 * 0) with 100 by ring. unfold clip_pos, clip, Rmin, Rmax. repeat destruct Rle_dec; lra. }
    rewrite H1, !H2. reflexivity.
Qed.
(** C45, turned demonstrations (finding): rows before the demonstration's last segment carry the placeholder heading 0 in
    every world, so unless the angle is a whole number of turns, turning the task never turns such a demonstration. *)
Lemma l_C45_turned_demonstration_refuted :
  forall (m : motion) (s : tt_self) (x0 : ttq) dir dir' wmax wmax' pref pref' rows rows' (i : nat),
  tt_demo s x0 dir wmax pref = Ok rows ->
  tt_demo (tt_world_move m s) (tt_move m x0) dir' wmax' pref' = Ok rows' ->
  (S i < length rows)%nat -> (S i < length rows')%nat ->
  f_mask (nth i rows (mkRef 0 0 0 0 false)) = false ->
  f_mask (nth i rows' (mkRef 0 0 0 0 false)) = false ->
  tt_same_pose (tt_move m (row_tt (nth i rows (mkRef 0 0 0 0 false)))) (row_tt (nth i rows' (mkRef 0 0 0 0 false))) ->
  turns 0 (m_ang m).
Proof.
  assert (P : forall s x0 dir wmax pref rows i, tt_demo s x0 dir wmax pref = Ok rows -> (S i < length rows)%nat ->
    f_mask (nth i rows (mkRef 0 0 0 0 false)) = false -> f_th1 (nth i rows (mkRef 0 0 0 0 false)) = 0).
  { intros s x0 dir wmax pref rows i. unfold tt_demo, demo. cbv zeta. destruct (path_points _ _) as [ps|e]; [|discriminate].
    destruct (fix_length _ _ _ ps) as [|q0 qs]; [discriminate|]. intros E Hi Hm. apply (f_equal (fun r => match r with Ok l => l | Err _ => rows end)) in E. cbv iota beta in E. subst rows.
    assert (L : length (heading_rows pref (t_th1 (ts_xg s)) (t_th2 (ts_xg s))
      (final_segment (limit_waypoints (waypoints (ts_circ s) (ts_rect s) dir (t_px x0, t_py x0) (t_px (ts_xg s), t_py (ts_xg s))) wmax))
      (t_th1 (ts_xg s)) (q0 :: qs)) = length (q0 :: qs)).
    { rewrite <- (map_length f_mask), heading_rows_mask, map_length. reflexivity. }
    refine (proj1 (proj2 (heading_rows_nth _ _ _ _ _ _ _ _)) Hm). rewrite <- L. exact Hi. }
  intros m s x0 dir dir' wmax wmax' pref pref' rows rows' i E E' Hi Hi' Hm Hm' (_ & _ & T & _).
  cbn [row_tt tt_move t_th1] in T. unfold tt_move in T; cbv zeta in T; cbn [t_th1 row_tt] in T.
  rewrite (P _ _ _ _ _ _ _ E Hi Hm), (P _ _ _ _ _ _ _ E' Hi' Hm') in T. destruct T as [k Hk].
  exists (- k)%Z. rewrite opp_IZR. lra.
Qed.
(** Non-vacuity: a task whose demonstration detours round a post, and its translate: both demonstrations exist, and
    their first rows lie before the last segment, as the theorems above ask. *)
Lemma x_C45_detours :
  forall d : point, exists s x0 rows rows', p_guid (ts_p s) = false /\ tt_demo s x0 "horizontal" 4 0 = Ok rows /\
    tt_demo (tt_world_move (mkMotion 0 d) s) (tt_move (mkMotion 0 d) x0) "horizontal" 4 0 = Ok rows' /\
    (1 < length rows)%nat /\ (1 < length rows')%nat /\
    f_mask (nth 0 rows (mkRef 0 0 0 0 false)) = false /\ f_mask (nth 0 rows' (mkRef 0 0 0 0 false)) = false /\
    tt_same_pose (tt_move (mkMotion 0 d) (row_tt (nth 0 rows (mkRef 0 0 0 0 false)))) (row_tt (nth 0 rows' (mkRef 0 0 0 0 false))).
Proof.
  intros d. exists (post_world 3), origin.
  assert (X : exists rows, tt_demo (post_world 3) origin "horizontal" 4 0 = Ok rows /\ (1 < length rows)%nat /\
    f_mask (nth 0 rows (mkRef 0 0 0 0 false)) = false).
  { destruct (detour_waypoints (ts_circ (post_world 3)) [] "horizontal" (0, 0) (1, 10) (post_direct_blocked 3) (post_detour_clear 3)) as (EW & N1 & N2).
    change (mid "horizontal" (0, 0) (1, 10)) with (1, 0) in *.
    unfold tt_demo, demo. change (ts_rect (post_world 3)) with (@nil rectobs).
    change (t_px (ts_xg (post_world 3)), t_py (ts_xg (post_world 3))) with (1, 10). change (t_px origin, t_py origin) with (0, 0).
    rewrite EW, limit_id by (cbn; lia). change (p_H (ts_p (post_world 3))) with 3%nat.
    unfold path_points. cbn [seg_lengths].
    assert (L1 : pnorm (psub (1, 0) (0, 0)) = 1).
    { unfold pnorm, psub. cbn [fst snd]. replace ((1 - 0) * (1 - 0) + (0 - 0) * (0 - 0)) with (1 * 1) by ring. apply sqrt_square. lra. }
    assert (L2 : pnorm (psub (1, 10) (1, 0)) = 10).
    { unfold pnorm, psub. cbn [fst snd]. replace ((1 - 1) * (1 - 1) + (10 - 0) * (10 - 0)) with (10 * 10) by ring. apply sqrt_square. lra. }
    rewrite L1, L2. destruct (Rltb 0 _) eqn:E; [|apply Rltb_false in E; cbn [Rsum] in E; lra].
    assert (C : counts 3 [1; 10] = [2; 1]%Z).
    { unfold counts, raw_counts, Zsum, argmax. cbn [map Rsum fold_left argmax_from].
      rewrite (round_small (INR 3 * 1 / (1 + (10 + 0)))) by (cbn [INR]; lra).
      pose proof (round_even_near (INR 3 * 10 / (1 + (10 + 0)))) as N. cbn [INR] in N.
      assert (E3 : round_even (INR 3 * 10 / (1 + (10 + 0))) = 3%Z).
      { cbn [INR]. assert (2 < round_even ((1 + 1 + 1) * 10 / (1 + (10 + 0))) < 4)%Z; [|lia]. split; apply lt_IZR; lra. }
      rewrite E3. reflexivity. }
    rewrite C. cbn [sample_segments Z.ltb Z.compare]. change (Z.to_nat 2) with 2%nat. change (Z.to_nat 1) with 1%nat.
    unfold lin_open, lin_closed. cbn -[INR]. unfold fix_length. cbn -[INR].
    eexists. split; [reflexivity|]. split; [cbn [length]; lia|reflexivity]. }
  destruct X as (rows & E & L & M).
  pose proof (l_C45_demonstration_translates d (post_world 3) origin "horizontal" 4 0) as T. rewrite E in T.
  destruct (tt_demo (tt_world_move _ _) _ _ _ _) as [rows'|e]; [|contradiction].
  exists rows, rows'. split; [reflexivity|]. split; [exact E|]. split; [reflexivity|]. split; [exact L|].
  destruct rows as [|r rows]; [cbn in L; lia|]. inversion T as [|? r' ? l' (Px & Py & A & B & Mk) F]; subst.
  split; [apply (f_equal S) in F || idtac|]; [|].
  - clear - L F. cbn [length] in *. induction F; cbn [length] in *; lia.
  - cbn [nth] in *. split; [exact M|]. split; [rewrite Mk; exact M|]. rewrite tt_shift_q.
    unfold tt_same_pose, row_tt; cbn [t_px t_py t_th1 t_th2]. rewrite Px, Py, A, B. repeat split; apply turns_refl.
Qed.
