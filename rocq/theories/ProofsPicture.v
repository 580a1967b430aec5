(** * ProofsPicture: C54 (static pictures, printed layout) and C55 (heat map, progress markers). *)
From Coq Require Import String Reals List ZArith Ascii Lra Lia FinFun.
From Verif Require Import Base BaseFacts Params SpecGeom SpecBodies EnvModel SpecEnv Setup TT2d Rollout Planner Stats SpecStats Anim SpecAnim
  Cache Picture SpecPicture ProofsPlanner ProofsEnv ProofsSetup ProofsAnim ProofsStats.
Import ListNotations.
Local Open Scope string_scope.
Local Open Scope list_scope.
Open Scope R_scope.

Lemma in_zrange n k : In k (zrange n) <-> (0 <= k < n)%Z.
Proof.
  unfold zrange. rewrite in_map_iff. split.
  - intros (m & <- & H). apply in_seq in H. lia.
  - intros H. exists (Z.to_nat k). split; [lia|]. apply in_seq. lia.
Qed.
Lemma zrange_nodup n : NoDup (zrange n).
Proof. unfold zrange. apply Injective_map_NoDup; [intros a b H; lia|apply seq_NoDup]. Qed.
Lemma zmem_in n l : zmem n l = true <-> In n l.
Proof.
  unfold zmem. rewrite existsb_exists. split.
  - intros (x & Hx & E). apply Z.eqb_eq in E. subst. exact Hx.
  - intros H. exists n. split; [exact H|apply Z.eqb_refl].
Qed.
Lemma zmem_not n l : zmem n l = false <-> ~ In n l.
Proof. rewrite <- zmem_in. destruct (zmem n l); split; congruence. Qed.

Lemma nodup_app {A : Type} : forall l m : list A, NoDup l -> NoDup m -> (forall a, In a l -> ~ In a m) -> NoDup (l ++ m).
Proof.
  induction l as [|a l IH]; intros m Nl Nm D; cbn [app]; [exact Nm|]. inversion_clear Nl as [|? ? Na N]. constructor.
  - rewrite in_app_iff. intros [H|H]; [exact (Na H)|exact (D a (or_introl eq_refl) H)].
  - apply IH; [exact N|exact Nm|]. intros b Hb. apply D. right. exact Hb.
Qed.
Lemma nodup_flat_map {A B : Type} (f : A -> list B) : forall l, NoDup l -> (forall x, NoDup (f x)) ->
  (forall x y b, In x l -> In y l -> In b (f x) -> In b (f y) -> x = y) -> NoDup (flat_map f l).
Proof.
  induction l as [|a l IH]; intros N F D; cbn [flat_map]; [constructor|].
  inversion_clear N as [|? ? Na Nl]. apply nodup_app; [apply F| |].
  - apply IH; [exact Nl|exact F|]. intros x y b Hx Hy. apply D; right; assumption.
  - intros b Hb Hm. apply in_flat_map in Hm. destruct Hm as (y & Hy & Hb').
    apply Na. rewrite (D a y b (or_introl eq_refl) (or_intror Hy) Hb Hb'). exact Hy.
Qed.

Lemma render_inv r path pic : render_robot r path = Ok pic ->
  pc_path pic = path /\ pc_scene pic = draw_scene (rb_circ r) (rb_rect r) /\ pc_xlim pic = e_xr (rb_env r) /\ pc_ylim pic = e_yr (rb_env r) /\
  (forall c, e_case (rb_env r) = "parking" -> e_parking (rb_env r) = Some c ->
     pc_lines pic = lot_lines (fst (e_yr (rb_env r))) c /\ pc_labels pic = lot_labels (fst (e_yr (rb_env r))) c) /\
  (e_case (rb_env r) <> "parking" \/ e_parking (rb_env r) = None -> pc_lines pic = [] /\ pc_labels pic = []).
Proof.
  unfold render_robot, render. destruct (String.eqb_spec (e_case (rb_env r)) "parking") as [E|E].
  - destruct (e_parking (rb_env r)) as [c|] eqn:Ep; destruct (_ && _)%bool; try discriminate; intros H;
      injection H as <-; cbn [pc_path pc_scene pc_xlim pc_ylim pc_lines pc_labels]; repeat (split; [reflexivity|]); split.
    + intros c' _ [= <-]. split; reflexivity.
    + intros [H|H]; [congruence|discriminate].
    + intros c' _ H. discriminate.
    + intros _. split; reflexivity.
  - destruct (_ && _)%bool; try discriminate; intros H; injection H as <-; cbn [pc_path pc_scene pc_xlim pc_ylim pc_lines pc_labels].
    repeat (split; [reflexivity|]); split; [intros c' H; congruence|]. intros _. split; reflexivity.
Qed.

(** The picture can be drawn iff the path is empty, the robot is the bicycle, or the path has one point per time
    step of the robot's horizon and the start; otherwise ValueError. *)
Lemma l_C54_drawable :
  forall r path,
  ((exists pic, render_robot r path = Ok pic) <-> path = [] \/ rb_kind r = KBK \/ length path = S (p_H (rb_p r))) /\
  ((forall pic, render_robot r path <> Ok pic) -> render_robot r path = Err ValueError).
Proof.
  intros r path.
  assert (X : exists l m, render_robot r path =
    if (negb (Nat.eqb (length path) 0) && negb (Nat.eqb (match rb_kind r with KBK => length path | _ => (p_H (rb_p r) + 1)%nat end) (length path)))%bool
    then Err ValueError else Ok (mkPicture l m (draw_scene (rb_circ r) (rb_rect r)) path (e_xr (rb_env r)) (e_yr (rb_env r)))).
  { unfold render_robot, render. destruct (String.eqb (e_case (rb_env r)) "parking"), (e_parking (rb_env r)); do 2 eexists; reflexivity. }
  destruct X as (l & m & ->). destruct path as [|P path].
  - cbn [length Nat.eqb negb andb]. split; [|intros H; exfalso; exact (H _ eq_refl)]. split; [left; reflexivity|]. intros _. eexists; reflexivity.
  - cbn [length Nat.eqb negb andb].
    assert (Y : forall b : bool, ((exists pic, (if negb b then Err ValueError else Ok (mkPicture l m (draw_scene (rb_circ r) (rb_rect r)) (P :: path) (e_xr (rb_env r)) (e_yr (rb_env r)))) = Ok pic) <-> b = true) /\
      ((forall pic, (if negb b then Err ValueError else Ok (mkPicture l m (draw_scene (rb_circ r) (rb_rect r)) (P :: path) (e_xr (rb_env r)) (e_yr (rb_env r)))) <> Ok pic) ->
        (if negb b then Err ValueError else Ok (mkPicture l m (draw_scene (rb_circ r) (rb_rect r)) (P :: path) (e_xr (rb_env r)) (e_yr (rb_env r)))) = Err ValueError)).
    { intros [|]; cbn [negb].
      - split; [split; [reflexivity|eexists; reflexivity]|]. intros H; exfalso; exact (H _ eq_refl).
      - split; [split; [intros [? H]; discriminate|discriminate]|reflexivity]. }
    destruct (Y (Nat.eqb (match rb_kind r with KBK => S (length path) | _ => (p_H (rb_p r) + 1)%nat end) (S (length path)))) as [Y1 Y2].
    split; [|exact Y2]. rewrite Y1, Nat.eqb_eq. destruct (rb_kind r); split; intros H;
      first [right; left; reflexivity | reflexivity | (right; right; lia) | (destruct H as [H|[H|H]]; [discriminate|discriminate|lia])].
Qed.

(** What the picture shows: the given path, the axes of the environment, and the obstacles the collision check of
    this robot uses - rectangles cover exactly the same points, circles have the same centre and radius. *)
Lemma l_C54_contents :
  forall r path pic, render_robot r path = Ok pic ->
  pc_path pic = path /\ (pc_xlim pic, pc_ylim pic) = (e_xr (rb_env r), e_yr (rb_env r)) /\
  sc_circles (pc_scene pic) = map (fun c => ((c_x c, c_y c), c_r c)) (rb_circ r) /\
  ((forall o, In o (rb_rect r) -> 0 < r_w o /\ 0 < r_h o) -> Forall2 draws (sc_rects (pc_scene pic)) (map obstacle_body (rb_rect r))).
Proof.
  intros r path pic H. destruct (render_inv _ _ _ H) as (A & B & C & D & _). rewrite A, B, C, D.
  repeat (split; [reflexivity|]). intros Hp. apply (l_C47_obstacles_drawn (rb_circ r) (rb_rect r) Hp).
Qed.

(** Labels of the parking spaces: exactly the unoccupied spaces carry their number, once, at the centre of the space
    as reported by get_parking_space_center; targets are green, others blue. *)
Lemma l_C54_labels :
  forall r path pic c, render_robot r path = Ok pic -> e_case (rb_env r) = "parking" -> e_parking (rb_env r) = Some c ->
  (forall P n col, In (mkLabel P n col) (pc_labels pic) <->
     (exists i j, numbered c n i j) /\ ~ In n (pk_occ c) /\ get_parking_space_center (rb_env r) n = Ok P /\
     ((In n (pk_tgt c) /\ col = "lightgreen") \/ (~ In n (pk_tgt c) /\ col = "lightblue"))) /\
  NoDup (map lb_num (pc_labels pic)).
Proof.
  intros r path pic c H Ec Ep. destruct (render_inv _ _ _ H) as (_ & _ & _ & _ & L & _). destruct (L c Ec Ep) as [_ ->]. clear L H.
  assert (X : forall P n col, In (mkLabel P n col) (lot_labels (fst (e_yr (rb_env r))) c) <->
     exists i j, numbered c n i j /\ ~ In n (pk_occ c) /\
       P = (- (IZR (pk_cols c) * pk_w c) / 2 + (IZR j + 1/2) * pk_w c, fst (e_yr (rb_env r)) + pk_yoff c + (IZR i + 1/2) * pk_len c) /\
     ((In n (pk_tgt c) /\ col = "lightgreen") \/ (~ In n (pk_tgt c) /\ col = "lightblue"))).
  { intros P n col. unfold lot_labels. rewrite in_flat_map. split.
    - intros (i & Hi & Hl). apply in_flat_map in Hl. destruct Hl as (j & Hj & Hl). apply in_zrange in Hi, Hj.
      unfold space_label in Hl. destruct (zmem _ (pk_occ c)) eqn:Eo; [contradiction|]. apply zmem_not in Eo.
      cbn [In] in Hl. destruct Hl as [Hl|[]]. apply (f_equal (fun l => (lb_at l, lb_num l, lb_color l))) in Hl. cbn [lb_at lb_num lb_color] in Hl.
      apply pair_equal_spec in Hl as [Hl Hc]. apply pair_equal_spec in Hl as [HP Hn].
      exists i, j. rewrite <- Hn. split; [unfold numbered; repeat split; lia|]. split; [exact Eo|]. split; [symmetry; exact HP|].
      destruct (zmem _ (pk_tgt c)) eqn:Et; [apply zmem_in in Et|apply zmem_not in Et]; [left|right]; split; congruence.
    - intros (i & j & (Hi & Hj & Hn) & Ho & HP & Hc). exists i. split; [apply in_zrange; lia|]. apply in_flat_map. exists j.
      split; [apply in_zrange; lia|]. unfold space_label. rewrite <- Hn. apply zmem_not in Ho. rewrite Ho. left. rewrite HP.
      f_equal. destruct Hc as [[Ht ->]|[Ht ->]]; [apply zmem_in in Ht|apply zmem_not in Ht]; rewrite Ht; reflexivity. }
  split.
  - intros P n col. rewrite X. split.
    + intros (i & j & N & Ho & -> & Hc). split; [exists i, j; exact N|]. split; [exact Ho|]. split; [|exact Hc].
      unfold get_parking_space_center. rewrite Ec. cbn [String.eqb Ascii.eqb Bool.eqb negb]. rewrite Ep. apply (space_center_rc _ _ _ _ _ N).
    + intros ((i & j & N) & Ho & HP & Hc). exists i, j. split; [exact N|]. split; [exact Ho|]. split; [|exact Hc].
      unfold get_parking_space_center in HP. rewrite Ec in HP. cbn [String.eqb Ascii.eqb Bool.eqb negb] in HP. rewrite Ep in HP.
      rewrite (space_center_rc _ _ _ _ _ N) in HP. congruence.
  - clear X Ec Ep. unfold lot_labels. set (ylo := fst (e_yr (rb_env r))). clearbody ylo. clear.
    assert (N1 : forall i j n, In n (map lb_num (space_label ylo c i j)) -> n = (i * pk_cols c + j + 1)%Z).
    { intros i j n H. unfold space_label in H. destruct (zmem _ (pk_occ c)); cbn in H; [contradiction|]. destruct H as [<-|[]]. reflexivity. }
    assert (N2 : forall i j, NoDup (map lb_num (space_label ylo c i j))).
    { intros i j. unfold space_label. destruct (zmem _ (pk_occ c)); cbn; constructor; [intros []|constructor]. }
    assert (FM : forall (f : Z -> list label) l, map lb_num (flat_map f l) = flat_map (fun x => map lb_num (f x)) l).
    { intros f l. induction l as [|x l IH]; cbn; [reflexivity|]. rewrite map_app, IH. reflexivity. }
    rewrite FM. apply nodup_flat_map; [apply zrange_nodup| |].
    + intros i. rewrite FM. apply nodup_flat_map; [apply zrange_nodup|intros j; apply N2|].
      intros x y b _ _ Hx Hy. apply N1 in Hx, Hy. lia.
    + intros x y b _ _ Hx Hy. rewrite FM in Hx, Hy. apply in_flat_map in Hx, Hy. destruct Hx as (j & Hj & Hx), Hy as (j' & Hj' & Hy).
      apply in_zrange in Hj, Hj'. apply N1 in Hx, Hy. nia.
Qed.

Lemma column_of : forall n w d, 0 < w -> (0 < n)%Z -> 0 <= d <= IZR n * w ->
  exists j, (0 <= j < n)%Z /\ IZR j * w <= d <= (IZR j + 1) * w.
Proof.
  intros n w d Hw Hn. revert n Hn. 
  assert (G : forall m : nat, 0 <= d <= INR (S m) * w -> exists j, (0 <= j < Z.of_nat (S m))%Z /\ IZR j * w <= d <= (IZR j + 1) * w).
  { induction m as [|m IH]; intros H.
    - exists 0%Z. split; [lia|]. rewrite INR_IZR_INZ in H. cbn [Z.of_nat Pos.of_succ_nat] in H. lra.
    - destruct (Rle_lt_dec d (INR (S m) * w)) as [L|L].
      + destruct (IH (conj (proj1 H) L)) as (j & Hj & Hd). exists j. split; [lia|exact Hd].
      + exists (Z.of_nat (S m)). split; [lia|]. rewrite <- INR_IZR_INZ. rewrite (S_INR (S m)) in H. lra. }
  intros n Hn H. destruct (G (Z.to_nat n - 1)%nat) as (j & Hj & Hd).
  - replace (S (Z.to_nat n - 1)) with (Z.to_nat n) by lia. rewrite INR_IZR_INZ, Z2Nat.id by lia. exact H.
  - exists j. split; [lia|exact Hd].
Qed.
Lemma in_lines ylo c s : In s (lot_lines ylo c) <->
  (exists k, (0 <= k <= pk_rows c)%Z /\ s = ((- (IZR (pk_cols c) * pk_w c) / 2, ylo + pk_yoff c + IZR k * pk_len c),
     (- (IZR (pk_cols c) * pk_w c) / 2 + IZR (pk_cols c) * pk_w c, ylo + pk_yoff c + IZR k * pk_len c))) \/
  (exists k, (0 <= k <= pk_cols c)%Z /\ s = ((- (IZR (pk_cols c) * pk_w c) / 2 + IZR k * pk_w c, ylo + pk_yoff c),
     (- (IZR (pk_cols c) * pk_w c) / 2 + IZR k * pk_w c, ylo + pk_yoff c + IZR (pk_rows c) * pk_len c))).
Proof.
  unfold lot_lines. rewrite in_app_iff, !in_map_iff. split.
  - intros [(k & <- & H)|(k & <- & H)]; apply in_zrange in H; [left|right]; exists k; (split; [lia|reflexivity]).
  - intros [(k & H & ->)|(k & H & ->)]; [left|right]; exists k; (split; [reflexivity|apply in_zrange; lia]).
Qed.

Lemma izr_bounds i n w : 0 < w -> (0 <= i < n)%Z -> 0 <= IZR i * w /\ (IZR i + 1) * w <= IZR n * w.
Proof.
  intros Hw Hi. split.
  - apply Rmult_le_pos; [apply IZR_le; lia|lra].
  - apply Rmult_le_compat_r; [lra|]. apply IZR_le1. lia.
Qed.
Lemma param : forall a h y, 0 < h -> a <= y <= a + h -> exists t, 0 <= t <= 1 /\ y = a + t * h.
Proof.
  intros a h y Hh Hy. exists ((y - a) / h). split; [|field; lra]. split.
  - apply Rmult_le_reg_r with h; [exact Hh|]. replace ((y - a) / h * h) with (y - a) by (field; lra). lra.
  - apply Rmult_le_reg_r with h; [exact Hh|]. replace ((y - a) / h * h) with (y - a) by (field; lra). lra.
Qed.

(** The lines of the picture are the edges of the parking spaces: a point lies on a line iff it lies on the edge
    of a space. *)
Lemma l_C54_lines :
  forall r path pic c, render_robot r path = Ok pic -> e_case (rb_env r) = "parking" -> e_parking (rb_env r) = Some c -> proper_lot c ->
  forall P, on_a_line pic P <-> on_space_edge c (fst (e_yr (rb_env r)) + pk_yoff c) P.
Proof.
  intros r path pic c H Ec Ep (Hr & Hc & Hw & Hl) P. destruct (render_inv _ _ _ H) as (_ & _ & _ & _ & L & _). destruct (L c Ec Ep) as [L1 _].
  unfold on_a_line. rewrite L1. clear L L1 H Ec Ep. set (ylo := fst (e_yr (rb_env r))). clearbody ylo. clear r path pic.
  assert (W : 0 < IZR (pk_cols c) * pk_w c) by (apply Rmult_lt_0_compat; [apply IZR_lt; lia|exact Hw]).
  assert (T : 0 < IZR (pk_rows c) * pk_len c) by (apply Rmult_lt_0_compat; [apply IZR_lt; lia|exact Hl]).
  destruct P as [x y]. unfold on_space_edge, space_area, space_interior. cbn [fst snd]. split.
  - intros (s & Hs & t & Ht & Hx & Hy). apply in_lines in Hs. destruct Hs as [(k & Hk & ->)|(k & Hk & ->)]; cbn [fst snd] in Hx, Hy.
    + assert (D : 0 <= t * (IZR (pk_cols c) * pk_w c) <= IZR (pk_cols c) * pk_w c).
      { split; [apply Rmult_le_pos; lra|]. rewrite <- (Rmult_1_l (IZR (pk_cols c) * pk_w c)) at 2. apply Rmult_le_compat_r; lra. }
      destruct (column_of _ _ _ Hw Hc D) as (j & Hj & Dj).
      destruct (Z.eq_dec k (pk_rows c)) as [->|Nk].
      * exists ((pk_rows c - 1) * pk_cols c + j + 1)%Z, (pk_rows c - 1)%Z, j. split; [unfold numbered; repeat split; lia|].
        assert (I : IZR (pk_rows c - 1) = IZR (pk_rows c) - 1) by apply minus_IZR. rewrite I.
        split; [|intros (_ & _ & C); lra]. split; [split; lra|split; lra].
      * exists (k * pk_cols c + j + 1)%Z, k, j. split; [unfold numbered; repeat split; lia|].
        split; [|intros (_ & C & _); lra]. split; [split; lra|split; lra].
    + assert (D : 0 <= t * (IZR (pk_rows c) * pk_len c) <= IZR (pk_rows c) * pk_len c).
      { split; [apply Rmult_le_pos; lra|]. rewrite <- (Rmult_1_l (IZR (pk_rows c) * pk_len c)) at 2. apply Rmult_le_compat_r; lra. }
      destruct (column_of _ _ _ Hl Hr D) as (i & Hi & Di).
      destruct (Z.eq_dec k (pk_cols c)) as [->|Nk].
      * exists (i * pk_cols c + (pk_cols c - 1) + 1)%Z, i, (pk_cols c - 1)%Z. split; [unfold numbered; repeat split; lia|].
        assert (I : IZR (pk_cols c - 1) = IZR (pk_cols c) - 1) by apply minus_IZR. rewrite I.
        split; [|intros ((_ & C) & _); lra]. split; [split; lra|split; lra].
      * exists (i * pk_cols c + k + 1)%Z, i, k. split; [unfold numbered; repeat split; lia|].
        split; [|intros ((C & _) & _); lra]. split; [split; lra|split; lra].
  - intros (n & i & j & (Hi & Hj & _) & ((X1 & X2) & (Y1 & Y2)) & N).
    destruct (izr_bounds i _ _ Hl Hi) as [I1 I2]. destruct (izr_bounds j _ _ Hw Hj) as [J1 J2].
    assert (PX : exists t, 0 <= t <= 1 /\ x = - (IZR (pk_cols c) * pk_w c) / 2 + t * (IZR (pk_cols c) * pk_w c)) by (apply param; lra).
    assert (PY : exists t, 0 <= t <= 1 /\ y = ylo + pk_yoff c + t * (IZR (pk_rows c) * pk_len c)) by (apply param; lra).
    destruct PX as (tx & Tx & Ex), PY as (ty & Ty & Ey).
    assert (HK : forall k, (0 <= k <= pk_rows c)%Z -> y = ylo + pk_yoff c + IZR k * pk_len c ->
      exists s, In s (lot_lines ylo c) /\ on_segment s (x, y)).
    { intros k Hk E. eexists. split; [apply in_lines; left; exists k; split; [exact Hk|reflexivity]|].
      exists tx. cbn [fst snd]. split; [exact Tx|]. split; [lra|lra]. }
    assert (VK : forall k, (0 <= k <= pk_cols c)%Z -> x = - (IZR (pk_cols c) * pk_w c) / 2 + IZR k * pk_w c ->
      exists s, In s (lot_lines ylo c) /\ on_segment s (x, y)).
    { intros k Hk E. eexists. split; [apply in_lines; right; exists k; split; [exact Hk|reflexivity]|].
      exists ty. cbn [fst snd]. split; [exact Ty|]. split; [lra|lra]. }
    destruct (Rle_lt_or_eq_dec _ _ X1) as [X1'|E]; [|apply (VK j); [lia|lra]].
    destruct (Rle_lt_or_eq_dec _ _ X2) as [X2'|E]; [|apply (VK (j + 1)%Z); [lia|rewrite plus_IZR; lra]].
    destruct (Rle_lt_or_eq_dec _ _ Y1) as [Y1'|E]; [|apply (HK i); [lia|lra]].
    destruct (Rle_lt_or_eq_dec _ _ Y2) as [Y2'|E]; [|apply (HK (i + 1)%Z); [lia|rewrite plus_IZR; lra]].
    exfalso. apply N. repeat split; assumption.
Qed.

(** No number is written over an obstacle: in a parking environment as constructed, with obstacles that fit their
    spaces, the space of every number in the picture is free of circles, inside. *)
Lemma l_C54_numbered_spaces_free :
  forall w h c e r path pic l, env_init w h "parking" (Some c) = Ok e -> proper_lot c -> pk_occ c <> [] ->
  (forall m, In m (pk_occ c) -> lot_number c m) -> pk_rad c <= pk_w c / 2 -> pk_rad c + 2 <= pk_len c / 2 ->
  rb_env r = e -> rb_circ r = e_circles e -> render_robot r path = Ok pic -> In l (pc_labels pic) ->
  exists i j, numbered c (lb_num l) i j /\ space_interior c (- h / 2 + pk_yoff c) i j (lb_at l) /\
    forall k P, In k (sc_circles (pc_scene pic)) -> space_interior c (- h / 2 + pk_yoff c) i j P -> snd k < SpecGeom.dist P (fst k).
Proof.
  intros w h c e r path pic [P n col] He Hlot Hne Hocc Hw Hl Er Ecirc Hp HL.
  assert (Ec : e_case (rb_env r) = "parking" /\ e_parking (rb_env r) = Some c).
  { rewrite Er. apply env_init_parking in He as (cs & _ & ->). split; reflexivity. }
  destruct Ec as [Ec Ep]. destruct (l_C54_labels _ _ _ _ Hp Ec Ep) as [L _]. apply L in HL. clear L.
  destruct HL as ((i & j & N) & Ho & HP & _). cbn [lb_num lb_at].
  assert (Ln : lot_number c n). { destruct N as (Hi & Hj & ->). unfold lot_number. nia. }
  destruct (l_C27_center_in_lot _ _ _ _ _ He Hlot Ln) as (P' & i' & j' & HP' & N' & _ & S & _).
  rewrite Er in HP. assert (P' = P) by congruence. subst P'.
  exists i', j'. split; [exact N'|]. split; [exact S|].
  intros k Q Hk HQ. destruct (l_C54_contents _ _ _ Hp) as (_ & _ & Cc & _). rewrite Cc in Hk. apply in_map_iff in Hk.
  destruct Hk as (k' & <- & Hk'). cbn [fst snd]. rewrite Ecirc in Hk'.
  exact (l_C28_unoccupied_space_free _ _ _ _ _ _ _ _ _ He Hlot Hne Hocc Hw Hl N' Ho Hk' HQ).
Qed.

Lemma replay_length {Q : Type} (stp : State Q -> act -> State Q) : forall us st, length (replay stp st us) = length us.
Proof. induction us as [|u us IH]; intros st; cbn [replay length]; [reflexivity|]. cbv zeta. cbn [length]. rewrite IH. reflexivity. Qed.
Lemma run_traj_length {Q : Type} (env : penv Q) c rg out : run_diffusion env (Some c) rg = Ok out ->
  length (o_traj out) = S (g_Hsample c) /\ hd_error (o_traj out) = Some (st_q (pe_reset env)).
Proof.
  intros E. injection E as <-. pose proof (run_Y0_length env c rg) as L. revert L. unfold run_diffusion_core.
  destruct (reverse_loop _ _ _ _ _ _) as [Ys Yf]. cbn [o_Y0 o_traj]. intros L. split; [|reflexivity].
  unfold trajectory_states. cbn [length]. rewrite replay_length, L. reflexivity.
Qed.

(** The picture of a plan made without guidance: it can be drawn iff the robot is the bicycle or the planning horizon
    is the horizon of the robot; its path is the returned trajectory - start and one point per action -, and the
    demonstration is drawn iff it is enabled. *)
Lemma l_C54_plan_picture :
  forall (Q : Type) (env : penv Q) c rg out r pos demo ref, run_diffusion env (Some c) rg = Ok out ->
  let fig := plan_figure (render_robot r) pos false demo (mkOut out None) ref in
  ((exists pp, fig = Ok pp) <-> rb_kind r = KBK \/ g_Hsample c = p_H (rb_p r)) /\
  (forall pp, fig = Ok pp ->
     render_robot r (map pos (o_traj out)) = Ok (pp_pic pp) /\ pc_path (pp_pic pp) = map pos (o_traj out) /\
     length (pc_path (pp_pic pp)) = S (g_Hsample c) /\ hd_error (pc_path (pp_pic pp)) = Some (pos (st_q (pe_reset env))) /\
     pp_guided pp = [] /\ (demo = false -> pp_demo pp = []) /\ (forall l, demo = true -> ref = Some l -> pp_demo pp = l)).
Proof.
  intros Q env c rg out r pos demo ref H. cbv zeta. destruct (run_traj_length env c rg out H) as [L H0].
  unfold plan_figure. cbn [out_res out_unguided].
  destruct (l_C54_drawable r (map pos (o_traj out))) as [D _].
  destruct (render_robot r (map pos (o_traj out))) as [pic|x] eqn:E.
  - split.
    + split; [intros _|intros _; eexists; reflexivity]. destruct (proj1 D (ex_intro _ pic eq_refl)) as [X|[X|X]].
      * destruct (o_traj out); [cbn in L; lia|discriminate X].
      * left. exact X.
      * right. rewrite map_length, L in X. lia.
    + intros pp X. apply (f_equal (fun z => match z with Ok z => z | _ => pp end)) in X. subst pp. cbn [pp_pic pp_guided pp_demo].
      destruct (render_inv _ _ _ E) as (A & _). rewrite A. split; [reflexivity|]. split; [reflexivity|]. rewrite map_length, L. split; [reflexivity|].
      split. { destruct (o_traj out); [discriminate|]. cbn [hd_error map] in *. congruence. }
      split; [reflexivity|]. split; [intros ->; reflexivity|]. intros l -> ->. reflexivity.
  - split; [|discriminate]. split; [intros [pp X]; discriminate|]. intros X. exfalso.
    assert (Y : exists pic : picture, Err x = Ok pic); [|destruct Y; discriminate]. apply D. destruct X as [X|X]; [right; left; exact X|right; right].
    rewrite map_length, L, X. reflexivity.
Qed.

(** A plan over another horizon than the robot's is computed, but drawing it ends with ValueError, for every class
    except the bicycle. *)
Lemma l_C54_other_horizon_refuted :
  forall (Q : Type) (env : penv Q) c rg r pos demo ref, rb_kind r <> KBK -> g_Hsample c <> p_H (rb_p r) ->
  exists out, run_diffusion env (Some c) rg = Ok out /\
    plan_figure (render_robot r) pos false demo (mkOut out None) ref = Err ValueError.
Proof.
  intros Q env c rg r pos demo ref Hk Hh. exists (run_diffusion_core env c rg). split; [reflexivity|].
  destruct (run_traj_length env c rg _ eq_refl) as [L _].
  unfold plan_figure. cbn [out_res out_unguided].
  destruct (l_C54_drawable r (map pos (o_traj (run_diffusion_core env c rg)))) as [[D1 _] D2].
  rewrite D2; [reflexivity|]. intros pic E. destruct (D1 (ex_intro _ pic E)) as [X|[X|X]].
  - apply (f_equal (@length _)) in X. rewrite map_length, L in X. discriminate X.
  - exact (Hk X).
  - rewrite map_length, L in X. lia.
Qed.

(** With guidance the vehicle path in the picture is the recomputed unguided trajectory; the returned trajectory is
    the dashed line. *)
Lemma l_C54_guided_plan_picture :
  forall (Q : Type) rend (pos : Q -> pt) demo res us ref pp,
  plan_figure rend pos true demo (mkOut res (Some us)) ref = Ok pp ->
  rend (map pos us) = Ok (pp_pic pp) /\ pp_guided pp = map pos (o_traj res).
Proof.
  intros Q rend pos demo res us ref pp. unfold plan_figure. cbn [out_res out_unguided].
  destruct (rend (map pos us)); [|discriminate]. intros H. injection H as <-. split; reflexivity.
Qed.

(** ** The printed layout *)
Lemma get_append a : forall b k, String.get (String.length a + k) (a ++ b)%string = String.get k b.
Proof. induction a as [|x a IH]; intros b k; cbn; [reflexivity|]. apply IH. Qed.
Lemma concat_get (f : Z -> string) : (forall x, String.length (f x) = 4%nat) -> forall l k j x, nth_error l j = Some x -> (k < 4)%nat ->
  String.get (4 * j + k) (concat_all (map f l)) = String.get k (f x).
Proof.
  intros Hf l k j. revert l. induction j as [|j IH]; intros [|y l] x Hx Hk; try discriminate; cbn [map concat_all nth_error] in *.
  - injection Hx as ->. cbn [Nat.mul Nat.add].
    assert (G : forall a b, (k < String.length a)%nat -> String.get k (a ++ b)%string = String.get k a).
    { clear. intros a. revert k. induction a as [|z a IH]; intros [|k] b H; cbn in *; try lia; [reflexivity|]. apply IH. lia. }
    apply G. rewrite Hf. exact Hk.
  - replace (4 * S j + k)%nat with (String.length (f y) + (4 * j + k))%nat by (rewrite Hf; lia). rewrite get_append. apply IH; assumption.
Qed.
Lemma nth_zrange n j : (0 <= j < n)%Z -> nth_error (zrange n) (Z.to_nat j) = Some j.
Proof.
  intros H. unfold zrange. rewrite nth_error_map.
  rewrite (nth_error_nth' _ 0%nat) by (rewrite seq_length; lia). rewrite seq_nth by lia. cbn [option_map]. f_equal. lia.
Qed.
Lemma zrange_length n : length (zrange n) = Z.to_nat n.
Proof. unfold zrange. rewrite map_length, seq_length. reflexivity. Qed.
Lemma pairs_nth {A B : Type} (f : A -> B) (d : B) : forall l i x, nth_error l i = Some x ->
  nth_error (flat_map (fun a => [f a; d]) l) (2 * i) = Some (f x) /\ nth_error (flat_map (fun a => [f a; d]) l) (2 * i + 1) = Some d.
Proof.
  induction l as [|a l IH]; intros [|i] x H; try discriminate; cbn [flat_map app nth_error] in *.
  - injection H as ->. split; reflexivity.
  - destruct (IH i x H) as [A1 A2]. replace (2 * S i)%nat with (S (S (2 * i))) by lia. cbn [nth_error Nat.add]. split; assumption.
Qed.
Lemma nth_rev_error {A : Type} (l : list A) i : (i < length l)%nat -> nth_error (rev l) i = nth_error l (length l - 1 - i).
Proof.
  intros H. destruct l as [|a l]; [cbn in H; lia|].
  rewrite (nth_error_nth' _ a) by (rewrite rev_length; exact H). rewrite (nth_error_nth' _ a) by lia.
  f_equal. rewrite rev_nth by exact H. f_equal. lia.
Qed.

(** The printed layout has one line per row of the lot, the highest numbers on top, between lines of dashes; the
    symbol of a space is T for a target, O for an occupied space that is no target, E otherwise. *)
Lemma l_C54_layout :
  forall e c, e_case e = "parking" -> e_parking e = Some c -> (0 <= pk_rows c)%Z -> (0 <= pk_cols c)%Z ->
  exists lines, print_parking_layout e = Ok lines /\ Z.of_nat (length lines) = (3 + 2 * pk_rows c)%Z /\
  forall n i j, numbered c n i j -> exists line, nth_error lines (Z.to_nat (3 + 2 * (pk_rows c - 1 - i))) = Some line /\
    (String.get (Z.to_nat (2 + 4 * j)) line = Some "T"%char <-> In n (pk_tgt c)) /\
    (String.get (Z.to_nat (2 + 4 * j)) line = Some "O"%char <-> In n (pk_occ c) /\ ~ In n (pk_tgt c)) /\
    (String.get (Z.to_nat (2 + 4 * j)) line = Some "E"%char <-> ~ In n (pk_occ c) /\ ~ In n (pk_tgt c)).
Proof.
  intros e c Ec Ep Hr Hc. unfold print_parking_layout. rewrite Ec, Ep. cbn [String.eqb Ascii.eqb Bool.eqb negb].
  set (d := repeat_string "-" (Z.to_nat (pk_cols c * 4 + 1))). eexists. split; [reflexivity|].
  assert (FL : forall (f : Z -> string) l, length (flat_map (fun row => [f row; d]) l) = (2 * length l)%nat).
  { intros f l. induction l as [|x l IH]; cbn [flat_map app length]; [reflexivity|]. rewrite IH. lia. }
  split. { rewrite app_length, FL, rev_length, zrange_length. cbn [length]. lia. }
  intros n i j (Hi & Hj & Hn). exists (layout_row c i). split.
  - replace (Z.to_nat (3 + 2 * (pk_rows c - 1 - i))) with (3 + 2 * Z.to_nat (pk_rows c - 1 - i))%nat by lia.
    cbn [app nth_error Nat.add]. apply (pairs_nth (layout_row c) d). rewrite nth_rev_error by (rewrite zrange_length; lia).
    rewrite zrange_length. replace (Z.to_nat (pk_rows c) - 1 - Z.to_nat (pk_rows c - 1 - i))%nat with (Z.to_nat i) by lia. apply nth_zrange. exact Hi.
  - assert (G : String.get (Z.to_nat (2 + 4 * j)) (layout_row c i) = String.get 0 (space_symbol c n)).
    { unfold layout_row. replace (Z.to_nat (2 + 4 * j)) with (String.length "|" + (4 * Z.to_nat j + 1))%nat by (cbn [String.length]; lia).
      rewrite get_append.
      assert (S4 : forall x, String.length ((fun col => (" " ++ space_symbol c (i * pk_cols c + col + 1) ++ " |")%string) x) = 4%nat).
      { intros x. unfold space_symbol. destruct (zmem (i * pk_cols c + x + 1) (pk_tgt c)), (zmem (i * pk_cols c + x + 1) (pk_occ c)); reflexivity. }
      rewrite (concat_get _ S4 _ 1 _ j (nth_zrange _ _ Hj)) by lia.
      rewrite <- Hn. unfold space_symbol. destruct (zmem n (pk_tgt c)), (zmem n (pk_occ c)); reflexivity. }
    rewrite G. unfold space_symbol.
    destruct (zmem n (pk_tgt c)) eqn:Et; [apply zmem_in in Et|apply zmem_not in Et]; [|destruct (zmem n (pk_occ c)) eqn:Eo; [apply zmem_in in Eo|apply zmem_not in Eo]];
      cbn [String.get]; repeat split; intros; try tauto; try discriminate.
Qed.

(** ** Heat map *)
Definition trial_env (g : env_args) (r : robot) : Prop :=
  e_case (rb_env r) = "parking" /\ e_parking (rb_env r) = Some stat_parking /\ e_yr (rb_env r) = (- (32) / 2, 32 / 2) /\ p_l1 (rb_p r) = g_l1 g.
Definition placed (r : robot) (t : trial) : list R :=
  let v := start_vec (p_l1 (rb_p r)) t in
  match rb_kind r with KTT => v | KBK => firstn 3 v | KNT => augment (p_num_trailers (rb_p r)) v | KACC => v ++ [0; 0] end.
Lemma trial_env_set g r t : trial_env g r -> set_init_pos r (trial_init t) = (set_x0 r (Some (placed r t)), Ok tt).
Proof.
  intros (A & B & C & _). unfold set_init_pos. rewrite (stat_start_vec _ _ _ A B C). unfold placed. destruct (rb_kind r); reflexivity.
Qed.
Lemma placed_start g r t : trial_env g r -> exists rest, placed r t = fst (trial_start (g_l1 g) t) :: snd (trial_start (g_l1 g) t) :: rest.
Proof.
  intros (_ & _ & _ & D). unfold placed, start_vec, trial_start, start_state, pose_of. rewrite D. cbn [t_px t_py fst snd].
  destruct (rb_kind r); eexists; reflexivity.
Qed.
Lemma trial_env_x0 g r v : trial_env g r -> trial_env g (set_x0 r v).
Proof. exact (fun H => H). Qed.
Lemma create_trial_inv g t r : create_trial_environment g t = Ok r -> trial_env g r /\ rb_x0 r = Some (placed r t).
Proof.
  unfold create_trial_environment. rewrite stat_env_ok.
  destruct (get_env (with_env g stat_env)) as [r0|] eqn:E; [|discriminate].
  assert (HE : rb_env r0 = stat_env). { apply (l_C33_class_and_parameters _ _ E). reflexivity. }
  assert (HL : p_l1 (rb_p r0) = g_l1 g).
  { destruct (l_C33_class_and_parameters _ _ E) as (A & _). unfold as_requested in A.
    decompose [and] A. assumption. }
  set (r1 := put_env_rects (put_rects r0 stat_rects) stat_rects).
  assert (T : trial_env g r1). { unfold trial_env, r1. cbn [put_env_rects put_rects rb_env rb_p e_case e_parking e_yr]. rewrite HE. repeat split. exact HL. }
  rewrite (trial_env_set g r1 t T). intros H. apply (f_equal (fun z => match z with Ok z => z | _ => r end)) in H. subst r.
  unfold set_goal_pos. cbn [fst]. split; [exact T|]. reflexivity.
Qed.

Lemma placed_point g r t : trial_env g r -> start_point (set_x0 r (Some (placed r t))) = Ok (trial_start (g_l1 g) t).
Proof.
  intros T. unfold start_point. cbn [set_x0 rb_x0]. destruct (placed_start g r t T) as [rest ->]. apply (f_equal Ok). symmetry. apply surjective_pairing.
Qed.
Lemma heat_loop_spec g : forall results r, trial_env g r ->
  heat_loop r results = Ok (match rev results with [] => r | (t, _) :: _ => set_x0 r (Some (placed r t)) end,
    map (trial_start (g_l1 g)) (ended true results), map (trial_start (g_l1 g)) (ended false results)).
Proof.
  induction results as [|[t ok] results IH]; intros r T; [reflexivity|]. cbn [heat_loop]. rewrite (trial_env_set g r t T).
  rewrite (placed_point g r t T). rewrite (IH (set_x0 r (Some (placed r t))) T).
  assert (RV : match rev ((t, ok) :: results) with [] => r | (t', _) :: _ => set_x0 r (Some (placed r t')) end =
    match rev results with [] => set_x0 r (Some (placed r t)) | (t', _) :: _ => set_x0 (set_x0 r (Some (placed r t))) (Some (placed (set_x0 r (Some (placed r t))) t')) end).
  { cbn [rev]. destruct (rev results) as [|[t' ok'] l]; reflexivity. }
  rewrite RV. unfold ended. cbn [filter snd]. destruct ok; cbn [Bool.eqb map fst]; reflexivity.
Qed.

Lemma render_empty r : exists pic, render_robot r [] = Ok pic.
Proof. apply (l_C54_drawable r []). left. reflexivity. Qed.
Lemma heat_map_spec g r results : trial_env g r ->
  exists pic, render_robot r [] = Ok pic /\
  heat_map r results = Ok (match rev results with [] => r | (t, _) :: _ => set_x0 r (Some (placed r t)) end,
    mkHeat pic (map (trial_start (g_l1 g)) (ended true results)) (map (trial_start (g_l1 g)) (ended false results))
      (if Nat.ltb 0 (length results) then INR (length (ended true results)) / INR (length results) else 0) (length results)).
Proof.
  intros T. destruct (render_empty r) as [pic E]. exists pic. split; [exact E|]. unfold heat_map. rewrite E, (heat_loop_spec g _ _ T). rewrite map_length. reflexivity.
Qed.
Lemma ended_split : forall results, (length (ended true results) + length (ended false results) = length results)%nat.
Proof.
  induction results as [|[t ok] l IH]; [reflexivity|]. unfold ended in *. rewrite !map_length in *. cbn [filter snd length]. destruct ok; cbn [Bool.eqb length]; lia.
Qed.
Lemma ended_true : forall results, length (ended true results) = length (filter snd results).
Proof.
  induction results as [|[t ok] l IH]; [reflexivity|]. unfold ended in *. rewrite map_length in *. cbn [filter snd]. destruct ok; cbn [Bool.eqb length]; lia.
Qed.

(** The marker of a trial is where its vehicle starts, for every class. *)
Lemma l_C55_marker_is_start :
  forall g t r, create_trial_environment g t = Ok r -> start_point r = Ok (trial_start (g_l1 g) t).
Proof.
  intros g t r H. destruct (create_trial_inv g t r H) as [T E]. unfold start_point. rewrite E. destruct (placed_start g r t T) as [rest ->].
  apply (f_equal Ok). symmetry. apply surjective_pairing.
Qed.

(** The heat map of any list of results, drawn with the environment of any trial: green circles at the starts of the
    successful trials, red crosses at those of the others, each trial once; the success rate in the corner is the
    fraction of successful trials (0 without trials); background: the parking lot without a path. *)
Lemma l_C55_heat_map :
  forall g t0 r results, create_trial_environment g t0 = Ok r ->
  exists r' hm, heat_map r results = Ok (r', hm) /\
    hm_green hm = map (trial_start (g_l1 g)) (ended true results) /\
    hm_red hm = map (trial_start (g_l1 g)) (ended false results) /\
    hm_total hm = length results /\ (length (hm_green hm) + length (hm_red hm) = hm_total hm)%nat /\
    (results <> [] -> hm_rate hm = fraction snd results) /\ (results = [] -> hm_rate hm = 0) /\
    render_robot r [] = Ok (hm_pic hm).
Proof.
  intros g t0 r results H. destruct (create_trial_inv g t0 r H) as [T _]. destruct (heat_map_spec g r results T) as (pic & E & ->).
  do 2 eexists. split; [reflexivity|]. cbn [hm_green hm_red hm_total hm_rate hm_pic].
  split; [reflexivity|]. split; [reflexivity|]. split; [reflexivity|]. split; [rewrite !map_length; apply ended_split|].
  split; [|split; [intros ->; reflexivity|exact E]].
  intros Hne. destruct results as [|x l]; [contradiction|]. cbn [length Nat.ltb Nat.leb]. unfold fraction. rewrite ended_true. reflexivity.
Qed.

(** Drawing the heat map moves the environment to the start of the last trial; drawn with the environment of that
    trial, as run_statistical_evaluation does, it leaves the environment as it was. *)
Lemma l_C55_environment_kept :
  forall g t ok rs r, create_trial_environment g t = Ok r -> exists hm, heat_map r (rs ++ [(t, ok)]) = Ok (r, hm).
Proof.
  intros g t ok rs r H. destruct (create_trial_inv g t r H) as [T E]. destruct (heat_map_spec g r (rs ++ [(t, ok)]) T) as (pic & _ & ->).
  rewrite rev_app_distr. cbn [rev app]. rewrite <- E. eexists. apply f_equal. apply f_equal2; [|reflexivity]. destruct r; reflexivity.
Qed.
(** Used with the environment of another trial (the tuner passes the first one) the object is left at the start of
    the last trial. *)
Lemma l_C55_environment_moved :
  forall g t0 t ok rs r, create_trial_environment g t0 = Ok r ->
  exists r' hm, heat_map r (rs ++ [(t, ok)]) = Ok (r', hm) /\ start_point r' = Ok (trial_start (g_l1 g) t) /\
    rb_xg r' = rb_xg r /\ rb_p r' = rb_p r /\ rb_circ r' = rb_circ r /\ rb_rect r' = rb_rect r.
Proof.
  intros g t0 t ok rs r H. destruct (create_trial_inv g t0 r H) as [T E]. destruct (heat_map_spec g r (rs ++ [(t, ok)]) T) as (pic & _ & ->).
  rewrite rev_app_distr. cbn [rev app]. do 2 eexists. split; [reflexivity|]. split; [|repeat split].
  unfold start_point. cbn [set_x0 rb_x0]. destruct (placed_start g r t T) as [rest ->]. apply (f_equal Ok). symmetry. apply surjective_pairing.
Qed.

Lemma zip_ended {A : Type} (f : A -> bool) : forall (ts : list trial) (vs : list A), length vs = length ts ->
  length (filter snd (zip ts (map f vs))) = length (filter f vs) /\ length (zip ts (map f vs)) = length ts /\ map fst (zip ts (map f vs)) = ts.
Proof.
  induction ts as [|t ts IH]; intros [|v vs] H; try discriminate; [repeat split|]. cbn [length] in H.
  destruct (IH vs ltac:(lia)) as (A1 & A2 & A3). unfold zip in *. cbn [map map2 filter snd length fst].
  split; [destruct (f v); cbn [length]; lia|]. split; [lia|]. f_equal. exact A3.
Qed.

(** run_statistical_evaluation with a heat map, one-trailer configurations: as soon as one start is found it
    completes; the markers are the starts of the sampled trials, coloured by their verdicts; the environment used is
    left at the last trial. If all requested starts were found, the rate shown is the reported success rate. *)
Lemma l_C55_evaluation :
  forall g proj guide logpd rx c rg ng num seed,
  g_name g = "tt2d" -> g_trailers g <> 0%Z -> (g_trailers g < 2)%Z -> (0 < num)%nat ->
  fst (sample_initial_conditions ng num seed) <> [] ->
  exists results st r hm, tt_statistics g proj guide logpd rx c rg ng num seed = Ok (results, st) /\
    tt_evaluation_with_heat_map g proj guide logpd rx c rg ng num seed = Ok (st, r, hm) /\
    let trials := combine (fst (sample_initial_conditions ng num seed)) (map v_success results) in
    hm_green hm = map (trial_start (g_l1 g)) (ended true trials) /\ hm_red hm = map (trial_start (g_l1 g)) (ended false trials) /\
    (length (hm_green hm) + length (hm_red hm) = length (fst (sample_initial_conditions ng num seed)))%nat /\
    length (hm_green hm) = sr_successful st /\
    (length (fst (sample_initial_conditions ng num seed)) = num -> hm_rate hm = sr_success_rate st) /\
    (exists t, create_trial_environment g t = Ok r /\ hd_error (rev (fst (sample_initial_conditions ng num seed))) = Some t).
Proof.
  intros g proj guide logpd rx c rg ng num seed Hn H0 H2 Hnum Hne.
  destruct (l_C42_evaluation_total g proj guide logpd rx c rg ng num seed Hn H0 H2 Hnum) as (results & st & E).
  unfold tt_evaluation_with_heat_map. rewrite E. exists results, st.
  assert (ZC : forall (ts : list trial) (bs : list bool), zip ts bs = combine ts bs).
  { induction ts as [|t ts IH]; intros [|b bs]; try reflexivity. unfold zip in *. cbn [map2 combine]. f_equal. apply IH. }
  unfold tt_statistics in E. set (ts := fst (sample_initial_conditions ng num seed)) in *. clearbody ts.
  destruct (each (tt_trial g proj guide logpd rx c rg) ts) as [vs|] eqn:Ee; [|discriminate]. apply each_length in Ee.
  destruct (summarize num vs) as [st'|] eqn:Es; [|discriminate]. injection E as -> ->.
  destruct (zip_ended v_success ts results Ee) as (Z1 & Z2 & Z3).
  assert (HL : exists rs t, ts = rs ++ [t]). { destruct (exists_last Hne) as (rs & t & ->). eauto. }
  destruct HL as (rs & t & HL). rewrite <- ZC. cbv zeta.
  assert (HR : rev ts = t :: rev rs) by (rewrite HL, rev_app_distr; reflexivity). rewrite HR.
  destruct (create_trial_ok g t Hn H0 H2) as (r & _ & _ & Er & _). rewrite Er.
  set (zs := zip ts (map v_success results)) in *.
  assert (ZL : exists ws ok, zs = ws ++ [(t, ok)]).
  { destruct (@exists_last _ zs) as (ws & [t' ok] & Ez). { intros Ez. rewrite Ez in Z2. destruct ts; [contradiction|discriminate]. }
    exists ws, ok. rewrite Ez. rewrite Ez, map_app in Z3. cbn [map fst] in Z3. rewrite HL in Z3. apply app_inj_tail in Z3 as [_ ->]. reflexivity. }
  destruct ZL as (ws & ok & ZL). destruct (l_C55_environment_kept g t ok ws r Er) as (hm & Eh). rewrite <- ZL in Eh. rewrite Eh.
  exists r, hm. split; [reflexivity|]. split; [reflexivity|].
  destruct (l_C55_heat_map g t r zs Er) as (r' & hm' & Eh' & A1 & A2 & A3 & A4 & A5 & _). rewrite Eh in Eh'. injection Eh' as <- <-.
  split; [exact A1|]. split; [exact A2|]. split; [rewrite A4, A3; exact Z2|].
  assert (S1 : sr_successful st = length (filter v_success results) /\ sr_success_rate st = INR (length (filter v_success results)) / INR num).
  { unfold summarize in Es. destruct (Nat.eqb num 0); [discriminate|]. injection Es as <-. split; reflexivity. }
  destruct S1 as [S1 S2]. split; [rewrite A1, map_length, ended_true, Z1, S1; reflexivity|].
  split; [|exists t; split; [exact Er|reflexivity]].
  intros HN. rewrite A5, S2. { unfold fraction. rewrite Z1, Z2, HN. reflexivity. }
  intros Ez. rewrite Ez in Z2. destruct ts; [contradiction|discriminate].
Qed.

(** ** Progress markers *)
Lemma progress_loop_spec : forall trials green red i, (i < length trials)%nat ->
  nth_error (progress_loop green red trials) i = Some (green ++ marked true (firstn i trials), red ++ marked false (firstn i trials)).
Proof.
  induction trials as [|[P ok] l IH]; intros green red i Hi; [cbn in Hi; lia|]. destruct i as [|i]; cbn [progress_loop nth_error firstn].
  - unfold marked. cbn [filter map]. rewrite !app_nil_r. reflexivity.
  - cbn [length] in Hi. unfold marked. cbn [filter snd]. destruct ok; cbn [Bool.eqb map fst]; rewrite IH by lia; unfold marked; rewrite <- app_assoc; reflexivity.
Qed.
(** The video of trial i shows the markers of exactly the trials before it, coloured by their verdicts. *)
Lemma l_C55_progress_markers :
  forall trials, length (progress_markers trials) = length trials /\
  forall i, (i < length trials)%nat ->
    nth_error (progress_markers trials) i = Some (marked true (firstn i trials), marked false (firstn i trials)).
Proof.
  intros trials. split.
  - unfold progress_markers. generalize (@nil pt) at 1 as a. generalize (@nil pt) as b. induction trials as [|[P ok] l IH]; intros a b; [reflexivity|].
    cbn [progress_loop length]. f_equal. destruct ok; apply IH.
  - intros i Hi. apply (progress_loop_spec trials [] [] i Hi).
Qed.

(** ** No start found *)
Definition unlucky : R := asin (7/25).
Lemma unlucky_trig : sin unlucky = 7/25 /\ cos unlucky = 24/25 /\ 0 <= unlucky <= PI / 10.
Proof.
  unfold unlucky. assert (S : sin (asin (7/25)) = 7/25) by (apply sin_asin; lra). split; [exact S|].
  split. { rewrite cos_asin by lra. unfold Rsqr. replace (1 - 7/25 * (7/25)) with (24/25 * (24/25)) by field. rewrite sqrt_square; lra. }
  pose proof PI_RGT_0 as HP. pose proof PI2_3_2 as H3. pose proof (asin_bound (7/25)) as [B1 B2].
  split.
  - destruct (Rle_lt_dec 0 (asin (7/25))) as [H|H]; [exact H|exfalso].
    assert (X : sin (asin (7/25)) < 0) by (apply sin_lt_0_var; lra). lra.
  - destruct (Rle_lt_dec (asin (7/25)) (PI / 10)) as [H|H]; [exact H|exfalso].
    assert (X : sin (PI / 10) < sin (asin (7/25))) by (apply sin_increasing_1; lra).
    assert (Y : sin (3/10) <= sin (PI / 10)) by (apply sin_incr_1; lra).
    destruct (SIN (3/10) ltac:(lra) ltac:(lra)) as [Z _]. unfold sin_lb, sin_approx, sum_f_R0, sin_term in Z. cbn [fact Nat.mul Nat.add pow INR] in Z. lra.
Qed.
(** A generator that stays within the intervals and always proposes the same start: dx = 6.41, dy = 2, tractor
    level, trailer at asin(0.28). *)
Definition unlucky_next (k : nat) : nat := if Nat.eqb k 4 then 0%nat else S k.
Definition unlucky_value (k : nat) : R := match k with O => 641/100 | S O => 2 | S (S (S O)) => 0 | _ => unlucky end.
Definition unlucky_rng : np_rng := {|
  np_state := nat; np_seed := fun _ => 0%nat;
  np_uniform := fun k lo hi => (Rmax lo (Rmin hi (unlucky_value k)), unlucky_next k);
  np_random := fun k => (0, unlucky_next k) |}.
Lemma rmm lo hi x : lo <= x <= hi -> Rmax lo (Rmin hi x) = x.
Proof. intros H. unfold Rmax, Rmin. destruct (Rle_dec hi x); destruct (Rle_dec lo _); lra. Qed.
Lemma unlucky_draw id : draw_trial unlucky_rng 0%nat id = (mkTrial (641/100) 2 0 (0 + unlucky) id, 0%nat).
Proof.
  destruct unlucky_trig as (_ & _ & U). pose proof PI_RGT_0 as HP.
  unfold draw_trial. cbn [unlucky_rng np_uniform np_random unlucky_next Nat.eqb unlucky_value].
  assert (E : Rltb 0 (1/2) = true) by (apply Rltb_true; lra). rewrite E.
  cbn [unlucky_next Nat.eqb unlucky_value]. rewrite !rmm by lra. reflexivity.
Qed.
Lemma unlucky_rejected id : is_valid (mkTrial (641/100) 2 0 (0 + unlucky) id) = false.
Proof.
  destruct (is_valid _) eqn:E; [|reflexivity]. exfalso. apply l_C43_accepted_iff_safe in E.
  cbn [pose_of tr_dx tr_dy tr_th1 tr_th2 start_state] in E. destruct unlucky_trig as (S & C & _). rewrite Rplus_0_l in E.
  destruct E as [[Hc _] _].
  specialize (Hc (trailer_body (ahead (-7/4 + 641/100 - 323/100 * cos 0, 2 + 2) 0 (- (115/100))) unlucky (29/10) (142/100) (3225/1000) (25/10))
                (mkCircle (-21/4) (-3/2 + 2) 1)).
  assert (H : c_r (mkCircle (-21/4) (-3/2 + 2) 1) < SpecGeom.dist (-21/4, 1085/1000) (c_x (mkCircle (-21/4) (-3/2 + 2) 1), c_y (mkCircle (-21/4) (-3/2 + 2) 1))).
  { apply Hc.
    - right; left. reflexivity.
    - unfold scene_circles. cbn [flat_map app]. do 25 right. left. reflexivity.
    - exists (- (3225/1000)), (- (25/20)). cbn [rg_back rg_front rg_half rg_org rg_ang trailer_body].
      split; [lra|]. split; [lra|]. split; [left; reflexivity|].
      unfold at_frame, ahead. cbn [fst snd]. rewrite cos_0, sin_0, S, C. apply f_equal2; field. }
  cbn [c_r c_x c_y] in H. unfold SpecGeom.dist, dist2 in H. cbn [fst snd] in H.
  assert (X : sqrt ((-21/4 - -21/4) * (-21/4 - -21/4) + (1085/1000 - (-3/2 + 2)) * (1085/1000 - (-3/2 + 2))) <= 1).
  { rewrite <- sqrt_1 at 1. apply sqrt_le_1; lra. }
  lra.
Qed.
Lemma unlucky_sample num seed : fst (sample_initial_conditions unlucky_rng num seed) = [].
Proof.
  unfold sample_initial_conditions. change (np_seed unlucky_rng seed) with 0%nat. 
  assert (G : forall m att, fst (sample_loop unlucky_rng num m att 0%nat []) = []); [|apply G].
  induction m as [|m IH]; intros att; cbn [sample_loop]; [reflexivity|]. destruct (Nat.ltb _ num); [|reflexivity].
  rewrite unlucky_draw, unlucky_rejected. apply IH.
Qed.
(** If no start is accepted - possible with draws in the documented ranges, for any number of trials - the evaluation
    reports its statistics, and asking for the heat map ends with UnboundLocalError. *)
Lemma l_C55_no_start_refuted :
  uniform_in_range unlucky_rng /\
  forall g proj guide logpd rx c rg num seed, (0 < num)%nat ->
  (exists st, tt_statistics g proj guide logpd rx c rg unlucky_rng num seed = Ok ([], st)) /\
  tt_evaluation_with_heat_map g proj guide logpd rx c rg unlucky_rng num seed = Err UnboundLocalError.
Proof.
  split.
  { intros s lo hi H. cbn [unlucky_rng np_uniform fst]. split; [apply Rmax_l|]. apply Rmax_lub; [exact H|apply Rmin_l]. }
  intros g proj guide logpd rx c rg num seed Hn. unfold tt_evaluation_with_heat_map, tt_statistics. rewrite !unlucky_sample. cbn [each].
  unfold summarize. destruct (Nat.eqb_spec num 0) as [E|E]; [lia|]. split; [eexists; reflexivity|reflexivity].
Qed.
(** With fewer starts found than trials requested the rate in the heat map is not the reported one: one success in
    one trial of ten requested is shown as 1 and reported as 1/10. *)
Lemma l_C55_same_rate_refuted :
  forall g t r, create_trial_environment g t = Ok r ->
  exists r' hm st, heat_map r [(t, true)] = Ok (r', hm) /\ hm_rate hm = 1 /\
    summarize 10 [mkVerdict true 1 1 1 false false] = Ok st /\ sr_success_rate st = 1 / 10.
Proof.
  intros g t r H. destruct (l_C55_heat_map g t r [(t, true)] H) as (r' & hm & E & _ & _ & _ & _ & F & _).
  destruct l_C42_success_rate_is_fraction_of_trials_run_refuted as (st & S1 & _ & S2).
  exists r', hm, st. split; [exact E|]. split; [|split; [exact S1|exact S2]].
  rewrite F by discriminate. unfold fraction. cbn [filter snd length INR]. field.
Qed.

(** The hypotheses are met: the trial robots of the evaluation are drawn with a parking lot of two rows and eight
    columns, four of whose spaces are unoccupied. *)
Lemma x_C54_evaluation_scene :
  exists r pic, create_trial_environment (default_env_args "tt2d" "parking" 1) (mkTrial 0 3 0 0 0) = Ok r /\
    render_robot r [] = Ok pic /\ e_case (rb_env r) = "parking" /\ e_parking (rb_env r) = Some stat_parking /\
    proper_lot stat_parking /\ length (pc_lines pic) = 12%nat /\ map lb_num (pc_labels pic) = [4; 8; 12; 16]%Z /\
    map lb_color (pc_labels pic) = ["lightgreen"; "lightblue"; "lightgreen"; "lightblue"].
Proof.
  destruct (create_trial_ok (default_env_args "tt2d" "parking" 1) (mkTrial 0 3 0 0 0)) as (r & _ & _ & E & _); [reflexivity|discriminate|reflexivity|].
  destruct (create_trial_inv _ _ _ E) as [(A & B & _) _]. destruct (render_empty r) as [pic Ep].
  exists r, pic. split; [exact E|]. split; [exact Ep|]. split; [exact A|]. split; [exact B|].
  destruct (render_inv _ _ _ Ep) as (_ & _ & _ & _ & L & _). destruct (L _ A B) as [-> ->].
  split; [unfold proper_lot; cbn; repeat split; try lia; lra|]. split; [reflexivity|]. split; reflexivity.
Qed.
