(** * ProofsBodies: the vehicle checks decide the point-set predicates of SpecBodies. *)
From Verif Require Import Base BaseFacts Params Geom SpecGeom TT2d Bicycle NTrailer SpecBodies ProofsGeom.
From Coq Require Import Psatz.

Lemma rect_rect_sound g h :
  rect_rect_collision (region_corners g) (region_corners h) = false -> disjoint g h.
Proof.
  unfold rect_rect_collision. rewrite negb_false_iff. intros H P [S1 S2].
  assert (Hg : rg_back g <= rg_front g /\ 0 <= rg_half g).
  { destruct S1 as (a & b & ? & ? & _). lra. }
  assert (Hh : rg_back h <= rg_front h /\ 0 <= rg_half h).
  { destruct S2 as (a & b & ? & ? & _). lra. }
  destruct Hg as [Hg1 Hg2], Hh as [Hh1 Hh2].
  apply existsb_exists in H as (n & _ & Hn).
  assert (Hs : axis_separates (region_corners g) (region_corners h) n <> false) by congruence.
  apply Hs. apply axis_separates_iff; auto.
  apply solid_iff in S1 as [A1 A2]. apply solid_iff in S2 as [B1 B2].
  assert (Dec : forall r : region, forall D n : pt, pdot D n = pdot D (dir_u (rg_ang r)) * pdot (dir_u (rg_ang r)) n
      + pdot D (dir_v (rg_ang r)) * pdot (dir_v (rg_ang r)) n).
  { intros r D m. unfold pdot, dir_u, dir_v; cbn [fst snd]. destruct D as [dx dy], m as [nx ny]; cbn [fst snd].
    pose proof (sin2_cos2' (rg_ang r)) as T.
    transitivity ((dx * nx + dy * ny) * (sin (rg_ang r) * sin (rg_ang r) + cos (rg_ang r) * cos (rg_ang r))); [rewrite T|]; ring. }
  replace (pdot (psub (reg_center h) (reg_center g)) n)
    with (pdot (psub P (reg_center g)) n - pdot (psub P (reg_center h)) n)
    by (unfold pdot, psub; cbn [fst snd]; ring).
  rewrite (Dec g (psub P (reg_center g))), (Dec h (psub P (reg_center h))). unfold reg_radius.
  assert (Babs : forall u v k, Rabs v <= k -> - (k * Rabs u) <= v * u <= k * Rabs u).
  { intros u v k Hv. apply Rabs_def2'. rewrite Rabs_mult. apply Rmult_le_compat_r; [apply Rabs_pos|auto]. }
  pose proof (Babs (pdot (dir_u (rg_ang g)) n) _ _ A1).
  pose proof (Babs (pdot (dir_v (rg_ang g)) n) _ _ A2).
  pose proof (Babs (pdot (dir_u (rg_ang h)) n) _ _ B1).
  pose proof (Babs (pdot (dir_v (rg_ang h)) n) _ _ B2).
  apply Rabs_le. lra.
Qed.

Lemma obs_corners_region o : obs_corners o = region_corners (obstacle_body o).
Proof. unfold obs_corners, obstacle_body. apply box_corners_region; cbn [fst snd]; field. Qed.
Lemma tractor_corners_region p px py th :
  tractor_corners p px py th = region_corners (tractor_body p px py th).
Proof. unfold tractor_corners, tractor_body. apply box_corners_region; cbn [fst snd]; field. Qed.
Lemma trailer_corners_region hx hy th L lf lr width cx cy hl hw :
  cx = hx + (5/10 * (lf - lr) - L) * cos th -> cy = hy + (5/10 * (lf - lr) - L) * sin th ->
  hl = (lf + lr) / 2 -> hw = width / 2 ->
  box_corners cx cy th hl hw = region_corners (trailer_body (hx, hy) th L lf lr width).
Proof.
  intros -> -> -> ->. unfold trailer_body, ahead. apply box_corners_region; cbn [fst snd]; field.
Qed.
Lemma tt_trailer_corners_region p q : tt_trailer_corners p q =
  region_corners (trailer_body (ahead (t_px q, t_py q) (t_th1 q) (- p_lh p)) (t_th2 q)
      (p_l2 p) (p_lf2 p) (p_lr2 p) (p_trail_w p)).
Proof.
  unfold tt_trailer_corners.
  rewrite (trailer_corners_region (t_px q - p_lh p * cos (t_th1 q)) (t_py q - p_lh p * sin (t_th1 q)) (t_th2 q)
     (p_l2 p) (p_lf2 p) (p_lr2 p) (p_trail_w p)) by reflexivity.
  unfold trailer_body, ahead; cbn [fst snd]. repeat (f_equal; try ring).
Qed.

(** Negative radii behave like their absolute value; "clear" is meant for [0 <= r] or [r < 0]. *)
Lemma hits_circle_false_clear g c : sized g ->
  hits_circle (region_corners g) c = false -> clear_of_circle g c.
Proof.
  intros Hs H P Ho. unfold hits_circle in H.
  destruct (Rlt_dec (c_r c) (dist P (c_x c, c_y c))) as [|Hn]; auto. exfalso.
  assert (Hd : dist P (c_x c, c_y c) <= c_r c) by lra.
  assert (Hr : 0 <= c_r c) by (pose proof (sqrt_pos (dist2 P (c_x c, c_y c))); unfold dist in Hd; lra).
  apply dist_le_iff in Hd; auto.
  rewrite (circle_collision_complete g (c_x c, c_y c) (c_r c) P) in H; [discriminate|exact Hs|auto|auto].
Qed.
Lemma clear_hits_circle_false g c : sized g -> 0 <= c_r c ->
  clear_of_circle g c -> hits_circle (region_corners g) c = false.
Proof.
  intros Hs Hr H. unfold hits_circle. destruct (rect_circle_collision _ _ _) eqn:E; auto. exfalso.
  apply circle_collision_exact in E as (P & Ho & Hd); auto. specialize (H P Ho). unfold disc in Hd. lra.
Qed.
Lemma hits_rect_false_clear g o : hits_rect (region_corners g) o = false -> clear_of_rect g o.
Proof. unfold hits_rect. rewrite obs_corners_region. apply rect_rect_sound. Qed.
Lemma hits_rect_intro g o P : solid g P -> solid (obstacle_body o) P -> hits_rect (region_corners g) o = true.
Proof.
  intros S1 S2. destruct (hits_rect (region_corners g) o) eqn:E; auto. exfalso.
  exact (hits_rect_false_clear g o E P (conj S1 S2)).
Qed.
Lemma clear_hits_rect_false g o : sized g -> 0 < r_w o -> 0 < r_h o ->
  clear_of_rect g o -> hits_rect (region_corners g) o = false.
Proof.
  intros Hs Hw Hh H. unfold hits_rect. rewrite obs_corners_region.
  destruct (rect_rect_collision _ _) eqn:E; auto. exfalso.
  apply rect_rect_exact in E as (P & S1 & S2).
  - exact (H P (conj S1 S2)).
  - apply not_tiny_wf; exact Hs.
  - split; unfold obstacle_body; cbn [rg_back rg_front rg_half]; lra.
Qed.

Lemma existsb_false_iff {A} (f : A -> bool) l : existsb f l = false <-> forall x, In x l -> f x = false.
Proof.
  induction l; simpl; [tauto|]. rewrite orb_false_iff, IHl. split.
  - intros [H1 H2] x [<-|H]; auto.
  - intros H; split; auto.
Qed.

(** Generic statement: a list of bodies against all obstacles. *)
Definition bodies_hit (gs : list region) (circ : list circle) (rect : list rectobs) : bool :=
  existsb (fun g => existsb (hits_circle (region_corners g)) circ) gs
  || existsb (fun g => existsb (hits_rect (region_corners g)) rect) gs.

Lemma bodies_hit_false_clear gs circ rect : (forall g, In g gs -> sized g) ->
  bodies_hit gs circ rect = false -> clear_bodies gs circ rect.
Proof.
  intros Hs. unfold bodies_hit. rewrite orb_false_iff, !existsb_false_iff. intros [H1 H2]. split.
  - intros g c Hg Hc. apply hits_circle_false_clear; auto.
    specialize (H1 g Hg). rewrite existsb_false_iff in H1. auto.
  - intros g o Hg Ho. apply hits_rect_false_clear.
    specialize (H2 g Hg). rewrite existsb_false_iff in H2. auto.
Qed.
Lemma clear_bodies_hit_false gs circ rect : (forall g, In g gs -> sized g) -> proper_obstacles circ rect ->
  clear_bodies gs circ rect -> bodies_hit gs circ rect = false.
Proof.
  intros Hs [Hc Hr] [H1 H2]. unfold bodies_hit. rewrite orb_false_iff, !existsb_false_iff. split.
  - intros g Hg. apply existsb_false_iff. intros c Hcin. apply clear_hits_circle_false; auto.
  - intros g Hg. apply existsb_false_iff. intros o Ho. destruct (Hr o Ho). apply clear_hits_rect_false; auto.
Qed.

Lemma sized_trailer h th L lf lr w : / 10000 <= lf + lr -> / 10000 <= w -> sized (trailer_body h th L lf lr w).
Proof. intros. split; unfold trailer_body; cbn [rg_front rg_back rg_half]; lra. Qed.
Lemma sized_tractor p px py th : tractor_sized p -> sized (tractor_body p px py th).
Proof. intros [? ?]. split; unfold tractor_body; cbn [rg_front rg_back rg_half]; lra. Qed.

(** ** Tractor-trailer *)
Lemma existsb_orb_swap {A} (f g : A -> bool) l : existsb (fun x => f x || g x) l = existsb f l || existsb g l.
Proof.
  induction l; simpl; auto. rewrite IHl.
  destruct (f a), (g a), (existsb f l), (existsb g l); reflexivity.
Qed.
Lemma tt_coll_bodies p circ rect q : tt_coll p circ rect q = bodies_hit (tt_bodies p q) circ rect.
Proof.
  unfold tt_coll, bodies_hit, tt_bodies. unfold tt_tractor_corners.
  rewrite tt_trailer_corners_region, tractor_corners_region. cbn [existsb].
  rewrite !existsb_orb_swap, !orb_false_r. reflexivity.
Qed.
Lemma tt_bodies_sized p q : tt_sized p -> forall g, In g (tt_bodies p q) -> sized g.
Proof.
  intros (H1 & H2 & H3) g [<-|[<-|[]]].
  - apply sized_tractor; auto.
  - apply sized_trailer; auto.
Qed.

(** ** Hitch *)
Lemma hitch_check_iff phi a b : Rltb phi (Rabs (wrap_pi (a - b))) = false <-> hitch_ok phi a b.
Proof.
  rewrite Rltb_false. unfold hitch_ok. split.
  - intros H. destruct (wrap_pi_rep (a - b)) as [k Hk]. exists k. rewrite <- Hk. auto.
  - intros [k Hk]. eapply Rle_trans; [apply (wrap_pi_min (a - b) k)|exact Hk].
Qed.
Lemma tt_hitch_iff p q : tt_hitch p q = false <-> tt_hitch_ok p q.
Proof. apply hitch_check_iff. Qed.

(** ** Bicycle *)
Lemma bk_coll_bodies p circ rect q : bk_coll p circ rect q = bodies_hit (bk_bodies p q) circ rect.
Proof.
  unfold bk_coll, bodies_hit, bk_bodies, bk_corners. rewrite tractor_corners_region. cbn [existsb].
  rewrite !orb_false_r. reflexivity.
Qed.
Lemma bk_bodies_sized p q : tractor_sized p -> forall g, In g (bk_bodies p q) -> sized g.
Proof. intros H g [<-|[]]. apply sized_tractor; auto. Qed.

(** ** N trailers *)
Lemma jget_nth l i : (i < length l)%nat -> jget l i = nth i l 0.
Proof. intros. unfold jget. rewrite Nat.min_l by lia. reflexivity. Qed.

Lemma trailer_chain_length lh w h ths Ls lfs lrs n :
  length ths = n -> length Ls = n -> length lfs = n -> length lrs = n ->
  length (trailer_chain lh w h ths Ls lfs lrs) = n.
Proof.
  revert h ths Ls lfs lrs; induction n; intros h [|] [|] [|] [|]; simpl; intros; try discriminate; auto.
Qed.

Lemma skipn_nth_cons (l : list R) k : (k < length l)%nat -> skipn k l = nth k l 0 :: skipn (S k) l.
Proof.
  revert k; induction l; simpl; intros k Hk; [lia|]. destruct k; auto. apply IHl; lia.
Qed.

Lemma nt_rect_fold s ths m : forall k hx hy out,
  (k + m = length ths)%nat -> length (ns_len s) = length ths -> length (ns_front s) = length ths ->
  length (ns_rear s) = length ths ->
  snd (fold_left (nt_rect_body s ths) (seq k m) ((hx, hy), out)) =
  out ++ map region_corners (trailer_chain (p_lh (ns_p s)) (p_trail_w (ns_p s)) (hx, hy)
          (skipn k ths) (skipn k (ns_len s)) (skipn k (ns_front s)) (skipn k (ns_rear s))).
Proof.
  induction m; intros k hx hy out Hk H1 H2 H3.
  - cbn [seq fold_left snd]. rewrite (skipn_all2 ths) by lia. simpl. rewrite app_nil_r. reflexivity.
  - cbn [seq fold_left].
    rewrite (skipn_nth_cons ths k), (skipn_nth_cons (ns_len s) k), (skipn_nth_cons (ns_front s) k),
      (skipn_nth_cons (ns_rear s) k) by lia.
    cbn [trailer_chain map]. unfold nt_rect_body at 2. rewrite !jget_nth by lia.
    set (th := nth k ths 0). set (L := nth k (ns_len s) 0). set (lf := nth k (ns_front s) 0). set (lr := nth k (ns_rear s) 0).
    rewrite IHm by lia. rewrite <- app_assoc. f_equal. cbn [app]. f_equal.
    + apply trailer_corners_region; try reflexivity. field.
    + f_equal. unfold ahead; cbn [fst snd]. f_equal. f_equal; field.
Qed.

Lemma nt_trailer_corners_region s q :
  length (n_ths q) = ns_N s -> nt_sized s ->
  nt_tractor_corners s q :: nt_trailer_corners s q = map region_corners (nt_bodies s q).
Proof.
  intros Hl (H1 & H2 & H3 & H4 & H5 & H6). unfold nt_bodies. cbn [map]. f_equal.
  - apply tractor_corners_region.
  - unfold nt_trailer_corners. rewrite nt_rect_fold by (unfold ns_N in *; lia).
    cbn [app skipn]. f_equal. f_equal. unfold ahead; cbn [fst snd]. f_equal; ring.
Qed.

Lemma existsb_map {A B} (f : B -> bool) (h : A -> B) l : existsb f (map h l) = existsb (fun x => f (h x)) l.
Proof. induction l; simpl; congruence. Qed.

Lemma nt_coll_bodies s q : length (n_ths q) = ns_N s -> nt_sized s ->
  ns_coll s q = bodies_hit (nt_bodies s q) (ns_circ s) (ns_rect s).
Proof.
  intros Hl Hs. pose proof (nt_trailer_corners_region s q Hl Hs) as E.
  unfold ns_coll, nt_coll, bodies_hit.
  rewrite <- (existsb_map (fun rc => existsb (hits_circle rc) (ns_circ s)) region_corners).
  rewrite <- (existsb_map (fun rc => existsb (hits_rect rc) (ns_rect s)) region_corners).
  rewrite <- E. reflexivity.
Qed.

Lemma nth_ext_tail (l : list R) i d : nth i (tl l) d = nth (S i) l d.
Proof. destruct l; simpl; auto. destruct i; auto. Qed.

Lemma chain_sized lh w ths Ls lfs lrs : / 10000 <= w ->
  (forall i, (i < length lfs)%nat -> (i < length lrs)%nat -> / 10000 <= nth i lfs 0 + nth i lrs 0) ->
  forall h g, In g (trailer_chain lh w h ths Ls lfs lrs) -> sized g.
Proof.
  intros Hw. revert Ls lfs lrs; induction ths as [|th ths IH]; intros [|L Ls] [|lf lfs] [|lr lrs] H h g; simpl; try tauto.
  intros [<-|Hin].
  - apply sized_trailer; auto. apply (H 0%nat); simpl; lia.
  - eapply (IH Ls lfs lrs); [|exact Hin]. intros i Hi Hj. apply (H (S i)); simpl; lia.
Qed.
Lemma nt_bodies_sized s q : nt_sized s -> forall g, In g (nt_bodies s q) -> sized g.
Proof.
  intros (H1 & H2 & H3 & H4 & H5 & H6) g [<-|Hin].
  - apply sized_tractor; auto.
  - eapply chain_sized; [exact H2| |exact Hin]. intros i Hi Hj. apply H6. rewrite H4 in Hi. auto.
Qed.

Lemma nt_hitch_scan_iff phi ths : forall prev viol,
  nt_hitch_scan phi prev viol ths = false <-> viol = false /\ chain_ok phi (prev :: ths).
Proof.
  induction ths as [|th ths IH]; intros prev viol.
  - simpl. tauto.
  - cbn [nt_hitch_scan]. rewrite IH, orb_false_iff, hitch_check_iff. cbn [chain_ok]. tauto.
Qed.
Lemma nt_hitch_iff s q : length (n_ths q) = ns_N s -> (1 <= ns_N s)%nat ->
  (nt_hitch s q = false <-> nt_hitch_ok s q).
Proof.
  intros Hl HN. unfold nt_hitch, nt_hitch_ok. rewrite <- Hl, firstn_all.
  rewrite nt_hitch_scan_iff, hitch_check_iff.
  destruct (n_ths q) as [|t ts] eqn:E; [simpl in Hl; lia|].
  rewrite jget_nth by (simpl; lia). cbn [nth tl chain_ok]. tauto.
Qed.
