(** * ProofsEnv: parking lots, obstacle setters, constructors (C27-C33). *)
From Coq Require Import String.
From Verif Require Import Base BaseFacts Params EnvModel Setup SpecGeom SpecBodies SpecEnv TT2d
  NTrailer ProofsGeom ProofsBodies ProofsRobots ProofsSafety ProofsAcc.
Local Open Scope string_scope.
Local Open Scope list_scope.
Open Scope R_scope.

Lemma Rabs_le_inv : forall a b, Rabs a <= b -> - b <= a <= b.
Proof. intros a b. unfold Rabs. destruct (Rcase_abs a); lra. Qed.

(** ** C27 *)

Lemma space_center_rc : forall ylo c n i j, numbered c n i j ->
  space_center ylo c n =
  Ok (- (IZR (pk_cols c) * pk_w c) / 2 + (IZR j + 1/2) * pk_w c, ylo + pk_yoff c + (IZR i + 1/2) * pk_len c).
Proof.
  intros ylo c n i j (Hi & Hj & Hn). unfold space_center.
  destruct (Z.eqb_spec (pk_cols c) 0) as [E|E]; [lia|].
  assert (H1 : ((n - 1) / pk_cols c = i)%Z).
  { symmetry. apply (Z.div_unique _ _ _ j); [left; lia | lia]. }
  assert (H2 : ((n - 1) mod pk_cols c = j)%Z).
  { symmetry. apply (Z.mod_unique _ _ i j); [left; lia | lia]. }
  rewrite H1, H2. reflexivity.
Qed.

Lemma numbered_ex : forall c n, proper_lot c -> lot_number c n -> exists i j, numbered c n i j.
Proof.
  intros c n (Hr & Hc & _) Hn. unfold lot_number in Hn.
  exists ((n - 1) / pk_cols c)%Z, ((n - 1) mod pk_cols c)%Z.
  pose proof (Z.div_mod (n - 1) (pk_cols c) ltac:(lia)) as Hd.
  pose proof (Z.mod_pos_bound (n - 1) (pk_cols c) Hc) as Hm.
  split; [|split; [exact Hm | lia]].
  split; [apply Z.div_pos; lia | apply Z.div_lt_upper_bound; nia].
Qed.

Lemma IZR_le1 : forall a b, (a < b)%Z -> IZR a + 1 <= IZR b.
Proof. intros a b H. rewrite <- plus_IZR. apply IZR_le. lia. Qed.

Lemma env_init_parking : forall w h c e, env_init w h "parking" (Some c) = Ok e ->
  exists circles, parking_circles (- h / 2) c (pk_occ c) = Ok circles /\
    e = mkEnv "parking" (- w / 2, w / 2) (- h / 2, h / 2) (Some c) (or_dummy circles) parking_rects.
Proof.
  intros w h c e He. unfold env_init in He. cbn [String.eqb Ascii.eqb Bool.eqb fst] in He. cbn in He.
  destruct (parking_circles _ _ _) as [l|x] eqn:E; [|discriminate].
  injection He as <-. exists l. split; reflexivity.
Qed.

Lemma env_init_center : forall w h c e n, env_init w h "parking" (Some c) = Ok e ->
  get_parking_space_center e n = space_center (- h / 2) c n.
Proof.
  intros w h c e n He. apply env_init_parking in He as (l & _ & ->).
  unfold get_parking_space_center. cbn. reflexivity.
Qed.

(** The centre of every painted space number is the midpoint of that space, strictly inside
    the lot. *)
Lemma l_C27_center_in_lot :
  forall w h c e n, env_init w h "parking" (Some c) = Ok e -> proper_lot c -> lot_number c n ->
  exists P i j, get_parking_space_center e n = Ok P /\ numbered c n i j /\
    lot_interior c (- h / 2 + pk_yoff c) P /\
    space_interior c (- h / 2 + pk_yoff c) i j P /\
    (forall dx dy, Rabs dx <= pk_w c / 2 -> Rabs dy <= pk_len c / 2 ->
       space_area c (- h / 2 + pk_yoff c) i j (fst P + dx, snd P + dy)).
Proof.
  intros w h c e n He Hl Hn.
  destruct (numbered_ex c n Hl Hn) as (i & j & Hij).
  rewrite (env_init_center _ _ _ _ _ He), (space_center_rc _ _ _ _ _ Hij).
  destruct Hl as (Hr & Hc & Hw & Hlen). destruct Hij as (Hi & Hj & E).
  eexists; exists i, j. split; [reflexivity|].
  split; [repeat split; lia|].
  assert (Hi0 : 0 <= IZR i) by (apply (IZR_le 0); lia).
  assert (Hj0 : 0 <= IZR j) by (apply (IZR_le 0); lia).
  assert (Hi1 : IZR i + 1 <= IZR (pk_rows c)) by (apply IZR_le1; lia).
  assert (Hj1 : IZR j + 1 <= IZR (pk_cols c)) by (apply IZR_le1; lia).
  set (W := pk_w c) in *. set (L := pk_len c) in *.
  assert (0 <= IZR i * L) by (apply Rmult_le_pos; lra).
  assert (0 <= IZR j * W) by (apply Rmult_le_pos; lra).
  assert ((IZR i + 1) * L <= IZR (pk_rows c) * L) by (apply Rmult_le_compat_r; lra).
  assert ((IZR j + 1) * W <= IZR (pk_cols c) * W) by (apply Rmult_le_compat_r; lra).
  unfold lot_interior, space_interior, space_area; cbn [fst snd]. fold W L.
  split; [|split].
  - split; split; lra.
  - split; split; lra.
  - intros dx dy Hx Hy. apply Rabs_le_inv in Hx. apply Rabs_le_inv in Hy. split; split; lra.
Qed.

(** Different numbers have centres at least a space width apart horizontally or a space length
    apart vertically. *)
Lemma l_C27_centers_apart :
  forall w h c e n m x y x' y', env_init w h "parking" (Some c) = Ok e -> proper_lot c ->
  lot_number c n -> lot_number c m -> n <> m ->
  get_parking_space_center e n = Ok (x, y) -> get_parking_space_center e m = Ok (x', y') ->
  pk_w c <= Rabs (x - x') \/ pk_len c <= Rabs (y - y').
Proof.
  intros w h c e n m x y x' y' He Hl Hn Hm Hne Hx Hx'.
  destruct (numbered_ex c n Hl Hn) as (i & j & Hij).
  destruct (numbered_ex c m Hl Hm) as (i' & j' & Hij').
  rewrite (env_init_center _ _ _ _ _ He), (space_center_rc _ _ _ _ _ Hij) in Hx.
  rewrite (env_init_center _ _ _ _ _ He), (space_center_rc _ _ _ _ _ Hij') in Hx'.
  injection Hx as <- <-. injection Hx' as <- <-.
  destruct Hl as (Hr & Hc & Hw & Hlen). destruct Hij as (Hi & Hj & E). destruct Hij' as (Hi' & Hj' & E').
  assert (Hd : forall a b k, 0 < k -> a <> b -> k <= Rabs (IZR a * k - IZR b * k)).
  { intros a b k Hk Hab. rewrite <- Rmult_minus_distr_r, Rabs_mult, (Rabs_right k) by lra.
    assert (1 <= Rabs (IZR a - IZR b)).
    { rewrite <- minus_IZR, <- abs_IZR. apply (IZR_le 1). lia. }
    rewrite <- (Rmult_1_l k) at 1. apply Rmult_le_compat_r; lra. }
  destruct (Z.eq_dec j j') as [Ej|Ej].
  - right. assert (Ei : i <> i') by (intros ->; subst; lia).
    replace (_ - _) with (IZR i * pk_len c - IZR i' * pk_len c) by ring. apply Hd; assumption.
  - left. replace (_ - _) with (IZR j * pk_w c - IZR j' * pk_w c) by ring. apply Hd; assumption.
Qed.

(** The lot is centred on x = 0: every centre has a mirror image among the centres. *)
Lemma l_C27_mirror :
  forall w h c e n x y, env_init w h "parking" (Some c) = Ok e -> proper_lot c -> lot_number c n ->
  get_parking_space_center e n = Ok (x, y) ->
  exists m, lot_number c m /\ get_parking_space_center e m = Ok (- x, y).
Proof.
  intros w h c e n x y He Hl Hn Hx.
  destruct (numbered_ex c n Hl Hn) as (i & j & Hij).
  rewrite (env_init_center _ _ _ _ _ He), (space_center_rc _ _ _ _ _ Hij) in Hx.
  injection Hx as <- <-.
  destruct Hij as (Hi & Hj & E).
  assert (Hm : numbered c (i * pk_cols c + (pk_cols c - 1 - j) + 1)%Z i (pk_cols c - 1 - j)%Z)
    by (repeat split; lia).
  exists (i * pk_cols c + (pk_cols c - 1 - j) + 1)%Z. split.
  - unfold lot_number. nia.
  - rewrite (env_init_center _ _ _ _ _ He), (space_center_rc _ _ _ _ _ Hm).
    rewrite !minus_IZR. f_equal. f_equal. field.
Qed.

(** Numbers that are not painted on the lot are accepted too, and give a point outside it. *)
Lemma l_C27_unpainted_number_rejected_refuted :
  forall w h c e n, env_init w h "parking" (Some c) = Ok e -> proper_lot c -> ~ lot_number c n ->
  exists P, get_parking_space_center e n = Ok P /\ ~ lot_interior c (- h / 2 + pk_yoff c) P.
Proof.
  intros w h c e n He (Hr & Hc & Hw & Hlen) Hn.
  rewrite (env_init_center _ _ _ _ _ He). unfold space_center.
  destruct (Z.eqb_spec (pk_cols c) 0) as [E|E]; [lia|].
  eexists; split; [reflexivity|]. unfold lot_interior; cbn [fst snd]. intros (_ & Hy).
  pose proof (Z.div_mod (n - 1) (pk_cols c) E) as Hd.
  pose proof (Z.mod_pos_bound (n - 1) (pk_cols c) Hc) as Hm.
  set (q := ((n - 1) / pk_cols c)%Z) in *.
  unfold lot_number in Hn.
  assert (Hq : (q < 0 \/ pk_rows c <= q)%Z).
  { destruct (Z_lt_ge_dec q 0); [left; lia|]. destruct (Z_lt_ge_dec q (pk_rows c)); [|right; lia].
    exfalso. apply Hn. split; nia. }
  destruct Hq as [Hq|Hq].
  - assert (Hq' : IZR q <= -1) by (apply IZR_le; lia).
    assert ((IZR q + 1/2) * pk_len c <= 0 * pk_len c) by (apply Rmult_le_compat_r; lra). lra.
  - assert (Hq' : IZR (pk_rows c) <= IZR q) by (apply IZR_le; lia).
    assert (IZR (pk_rows c) * pk_len c <= (IZR q + 1/2) * pk_len c) by (apply Rmult_le_compat_r; lra). lra.
Qed.

(** After set_plot_limits ("for visualization") the reported centres move, the obstacles do not:
    in the default lot the reported centre of occupied space 1 then is not an obstacle. *)
Lemma l_C27_plot_limits_harmless_refuted :
  exists e, env_init 32 32 "parking" None = Ok e /\
  (exists P, get_parking_space_center e 1 = Ok P /\ exists k, In k (e_circles e) /\ (c_x k, c_y k) = P) /\
  let e' := env_set_plot_limits e (-50, 50) (-50, 50) in
  exists P, get_parking_space_center e' 1 = Ok P /\
    forall k, In k (e_circles e') -> (c_x k, c_y k) <> P.
Proof.
  eexists; split; [reflexivity|]. cbv zeta. split.
  - eexists; split; [reflexivity|]. eexists; split; [left; reflexivity|]. cbn. reflexivity.
  - eexists; split; [reflexivity|]. intros k Hk. cbn in Hk.
    repeat match type of Hk with
    | False => contradiction
    | _ => destruct Hk as [<-|Hk]; [intros E; apply (f_equal snd) in E; cbn in E; lra|]
    end.
Qed.

(** Two rows of eight spaces, as shipped: the hypotheses hold. *)
Lemma x_C27_default_lot :
  exists e, env_init 32 32 "parking" (Some default_parking) = Ok e /\ proper_lot default_parking /\
  lot_number default_parking 11 /\ get_parking_space_center e 11 = Ok (- (8 * (35/10)) / 2 + (2 + 1/2) * (35/10), - 32 / 2 + 4 + (1 + 1/2) * 7).
Proof.
  eexists; split; [reflexivity|]. split; [|split].
  - repeat split; cbn; try lia; lra.
  - unfold lot_number; cbn; lia.
  - reflexivity.
Qed.

(** ** C28 *)

Lemma parking_circles_spec : forall ylo c occ l, parking_circles ylo c occ = Ok l ->
  length l = (3 * length occ)%nat /\
  (forall k, (k < length occ)%nat -> exists P, space_center ylo c (nth k occ 0%Z) = Ok P /\
     nth_error l (3 * k) = Some (mkCircle (fst P) (snd P) (pk_rad c)) /\
     nth_error l (3 * k + 1) = Some (mkCircle (fst P) (snd P + 2) (pk_rad c)) /\
     nth_error l (3 * k + 2) = Some (mkCircle (fst P) (snd P - 2) (pk_rad c))).
Proof.
  intros ylo c occ. induction occ as [|n occ IH]; intros l H; cbn [parking_circles] in H.
  - injection H as <-. split; [reflexivity|]. intros k Hk; cbn in Hk; lia.
  - destruct (space_center ylo c n) as [[cx cy]|x] eqn:Ec; [|discriminate].
    destruct (parking_circles ylo c occ) as [more|x] eqn:Em; [|discriminate].
    injection H as <-. destruct (IH more eq_refl) as [IHl IHn]. split; [cbn; lia|].
    intros [|k] Hk.
    + exists (cx, cy). cbn. auto.
    + cbn in Hk. destruct (IHn k ltac:(lia)) as (P & H1 & H2 & H3 & H4).
      exists P. cbn [nth]. split; [exact H1|].
      replace (3 * S k)%nat with (S (S (S (3 * k)))) by lia. cbn [nth_error].
      replace (S (S (S (3 * k))) + 1)%nat with (S (S (S (3 * k + 1)))) by lia. cbn [nth_error].
      replace (S (S (S (3 * k))) + 2)%nat with (S (S (S (3 * k + 2)))) by lia. cbn [nth_error].
      auto.
Qed.

(** There are three circles per occupied space, in the order of the list: at the space's centre,
    2 m above and 2 m below, all with the configured radius; and nothing else. *)
Lemma l_C28_three_per_occupied_space :
  forall w h c e, env_init w h "parking" (Some c) = Ok e -> pk_occ c <> [] ->
  length (e_circles e) = (3 * length (pk_occ c))%nat /\
  (forall k, (k < length (pk_occ c))%nat ->
     exists x y, get_parking_space_center e (nth k (pk_occ c) 0%Z) = Ok (x, y) /\
       nth_error (e_circles e) (3 * k) = Some (mkCircle x y (pk_rad c)) /\
       nth_error (e_circles e) (3 * k + 1) = Some (mkCircle x (y + 2) (pk_rad c)) /\
       nth_error (e_circles e) (3 * k + 2) = Some (mkCircle x (y - 2) (pk_rad c))).
Proof.
  intros w h c e He Hne.
  pose proof (env_init_center w h c e) as Hc.
  pose proof (env_init_parking _ _ _ _ He) as (l & Hl & Ee).
  destruct (parking_circles_spec _ _ _ _ Hl) as [H1 H2].
  assert (El : e_circles e = l).
  { rewrite Ee. cbn. destruct l; [|reflexivity]. destruct (pk_occ c); [congruence|cbn in H1; lia]. }
  rewrite El. split; [exact H1|]. intros k Hk. destruct (H2 k Hk) as ([x y] & H3 & H4).
  exists x, y. rewrite (Hc _ He). split; [exact H3 | exact H4].
Qed.

Lemma disc_box : forall C r P, disc C r P ->
  - r <= fst P - fst C <= r /\ - r <= snd P - snd C <= r.
Proof.
  intros [cx cy] r [x y] H. unfold disc, dist, dist2 in H; cbn [fst snd] in *.
  assert (Hs : forall a b, Rabs a <= sqrt (a * a + b * b)).
  { intros a b. rewrite <- sqrt_Rsqr_abs. apply sqrt_le_1_alt. unfold Rsqr.
    pose proof (Rle_0_sqr b). unfold Rsqr in *. lra. }
  pose proof (Hs (x - cx) (y - cy)) as H1. pose proof (Hs (y - cy) (x - cx)) as H2.
  rewrite (Rplus_comm ((y - cy) * (y - cy))) in H2.
  split; apply Rabs_le_inv; lra.
Qed.

Lemma circ_index : forall w h c e k, env_init w h "parking" (Some c) = Ok e -> pk_occ c <> [] ->
  In k (e_circles e) ->
  exists n P, In n (pk_occ c) /\ get_parking_space_center e n = Ok P /\ c_r k = pk_rad c /\
    c_x k = fst P /\ (c_y k = snd P \/ c_y k = snd P + 2 \/ c_y k = snd P - 2).
Proof.
  intros w h c e k He Hne Hk.
  destruct (l_C28_three_per_occupied_space _ _ _ _ He Hne) as [Hlen Hnth].
  apply In_nth_error in Hk as [m Hm].
  assert (Hml : (m < length (e_circles e))%nat) by (apply nth_error_Some; congruence).
  pose proof (Nat.div_mod m 3 ltac:(lia)) as Hd. pose proof (Nat.mod_upper_bound m 3 ltac:(lia)) as Hu.
  assert (Hq : (m / 3 < length (pk_occ c))%nat) by lia.
  destruct (Hnth _ Hq) as (x & y & Hp & H0 & H1 & H2).
  exists (nth (m / 3) (pk_occ c) 0%Z), (x, y). split; [apply nth_In; exact Hq|]. split; [exact Hp|].
  assert (Hc : (m = 3 * (m / 3) \/ m = 3 * (m / 3) + 1 \/ m = 3 * (m / 3) + 2)%nat) by lia.
  destruct Hc as [Hc|[Hc|Hc]]; rewrite Hc in Hm; rewrite ?H0, ?H1, ?H2 in Hm; injection Hm as <-; cbn; auto.
Qed.

(** If a space is at least as wide as an obstacle and leaves 2 m more than its radius at either
    end, every obstacle lies in one of the occupied spaces. *)
Lemma l_C28_obstacle_within_an_occupied_space :
  forall w h c e k, env_init w h "parking" (Some c) = Ok e -> proper_lot c -> pk_occ c <> [] ->
  (forall n, In n (pk_occ c) -> lot_number c n) ->
  pk_rad c <= pk_w c / 2 -> pk_rad c + 2 <= pk_len c / 2 -> In k (e_circles e) ->
  exists n i j, In n (pk_occ c) /\ numbered c n i j /\
    forall P, disc (c_x k, c_y k) (c_r k) P -> space_area c (- h / 2 + pk_yoff c) i j P.
Proof.
  intros w h c e k He Hl Hne Hocc Hrw Hrl Hk.
  destruct (circ_index _ _ _ _ _ He Hne Hk) as (n & Pc & Hn & Hp & Hr & Hx & Hy).
  destruct (l_C27_center_in_lot _ _ _ _ _ He Hl (Hocc n Hn)) as (Q & i & j & Hq & Hij & _ & _ & Hbox).
  rewrite Hp in Hq. injection Hq as <-.
  exists n, i, j. split; [exact Hn|]. split; [exact Hij|].
  intros P HP. apply disc_box in HP as [HPx HPy]. cbn [fst snd] in *.
  specialize (Hbox (fst P - fst Pc) (snd P - snd Pc)). destruct P as [px py]; cbn [fst snd] in *.
  replace (fst Pc + (px - fst Pc)) with px in Hbox by ring.
  replace (snd Pc + (py - snd Pc)) with py in Hbox by ring.
  rewrite Hr, Hx in *. apply Hbox; apply Rabs_le; destruct Hy as [E|[E|E]]; rewrite E in *; lra.
Qed.

(** Consequently the interior of every space that is not listed as occupied, for instance a
    target, contains no obstacle point. *)
Lemma l_C28_unoccupied_space_free :
  forall w h c e k n i j P, env_init w h "parking" (Some c) = Ok e -> proper_lot c -> pk_occ c <> [] ->
  (forall m, In m (pk_occ c) -> lot_number c m) ->
  pk_rad c <= pk_w c / 2 -> pk_rad c + 2 <= pk_len c / 2 ->
  numbered c n i j -> ~ In n (pk_occ c) -> In k (e_circles e) ->
  space_interior c (- h / 2 + pk_yoff c) i j P -> c_r k < dist P (c_x k, c_y k).
Proof.
  intros w h c e k n i j P He Hl Hne Hocc Hrw Hrl Hij Hn Hk HP.
  destruct (Rlt_le_dec (c_r k) (dist P (c_x k, c_y k))) as [H|H]; [exact H|exfalso].
  destruct (l_C28_obstacle_within_an_occupied_space _ _ _ _ _ He Hl Hne Hocc Hrw Hrl Hk)
    as (m & i' & j' & Hm & Hij' & Ha).
  specialize (Ha P H).
  destruct Hl as (Hr & Hc & Hw & Hlen).
  destruct Ha as [Hax Hay]. destruct HP as [Hpx Hpy].
  assert (Hsame : forall a b k0, 0 < k0 -> IZR a * k0 < (IZR b + 1) * k0 -> IZR b * k0 < (IZR a + 1) * k0 -> a = b).
  { intros a b k0 Hk0 H1 H2. apply Rmult_lt_reg_r in H1; [|exact Hk0]. apply Rmult_lt_reg_r in H2; [|exact Hk0].
    rewrite <- plus_IZR in H1, H2. apply lt_IZR in H1. apply lt_IZR in H2. lia. }
  assert (i = i') by (apply (Hsame i i' (pk_len c)); lra).
  assert (j = j') by (apply (Hsame j j' (pk_w c)); lra).
  subst. destruct Hij as (_ & _ & ->), Hij' as (_ & _ & ->). contradiction.
Qed.

(** The shipped lot: both target spaces are free. *)
Lemma x_C28_default_targets_free :
  exists e, env_init 32 32 "parking" (Some default_parking) = Ok e /\
  pk_tgt default_parking = [3; 11]%Z /\
  forall k P, In k (e_circles e) ->
    space_interior default_parking (- 32 / 2 + 4) 0 2 P \/ space_interior default_parking (- 32 / 2 + 4) 1 2 P ->
    c_r k < dist P (c_x k, c_y k).
Proof.
  eexists; split; [reflexivity|]. split; [reflexivity|]. intros k P Hk HP.
  assert (Hl : proper_lot default_parking) by (repeat split; cbn; try lia; lra).
  assert (Ho : forall m, In m (pk_occ default_parking) -> lot_number default_parking m).
  { intros m Hm. cbn in Hm. unfold lot_number; cbn. intuition lia. }
  destruct HP as [HP|HP].
  - eapply (l_C28_unoccupied_space_free 32 32 default_parking _ k 3 0 2 P); try eassumption;
      try reflexivity; cbn; try lra; try discriminate; [repeat split; cbn; lia | lia].
  - eapply (l_C28_unoccupied_space_free 32 32 default_parking _ k 11 1 2 P); try eassumption;
      try reflexivity; cbn; try lra; try discriminate; [repeat split; cbn; lia | lia].
Qed.

(** An environment without obstacles is not obstacle free: a circle of radius 0 at the origin is
    inserted, and a pose whose outline touches the origin is reported as a collision. *)
Lemma l_C28_empty_world_is_free_refuted :
  forall cfg, exists e, env_init 32 32 "navigation" cfg = Ok e /\ e_rects e = [] /\
  tt_coll default_params (e_circles e) (e_rects e) (mkTT (1848/1000) 0 0 0) = true.
Proof.
  intros cfg. eexists; split; [reflexivity|]. split; [reflexivity|]. cbn [e_circles e_rects or_dummy].
  destruct (tt_coll _ _ _ _) eqn:E; [reflexivity|exfalso].
  apply (tt_coll_false_clear (mkTTSelf default_params [mkCircle 0 0 0] [] (mkTT 0 0 0 0))) in E.
  - destruct E as [E _].
    specialize (E (tractor_body default_params (1848/1000) 0 0) (mkCircle 0 0 0) (or_introl eq_refl) (or_introl eq_refl) (0, 0)).
    cbn [c_r c_x c_y] in E.
    assert (Ho : outline (tractor_body default_params (1848/1000) 0 0) (0, 0)).
    { exists (- (1848/1000)), 0. unfold tractor_body; cbn [rg_back rg_front rg_half rg_org rg_ang p_lr p_l1 p_lf1 p_trac_w default_params].
      split; [lra|]. split; [lra|]. split; [left; reflexivity|].
      unfold at_frame; cbn [fst snd]. rewrite cos_0, sin_0. f_equal; lra. }
    specialize (E Ho). unfold dist, dist2 in E; cbn [fst snd] in E.
    replace ((0 - 0) * (0 - 0) + (0 - 0) * (0 - 0)) with 0 in E by ring. rewrite sqrt_0 in E. lra.
  - apply default_sized.
Qed.
