(** * ProofsSetup: start/goal/obstacle setters and constructors (C29-C33). *)
From Coq Require Import String Sorted Permutation.
From Verif Require Import Base BaseFacts Params EnvModel Setup SpecGeom SpecBodies SpecEnv TT2d
  NTrailer Instances ProofsGeom ProofsBodies ProofsRobots ProofsSafety ProofsAcc ProofsEnv.
Local Open Scope string_scope.
Local Open Scope list_scope.
Open Scope R_scope.

(** ** Sorting *)

Lemma Rleb_spec : forall x y, reflect (x <= y) (Rleb x y).
Proof. intros. unfold Rleb. destruct (Rle_dec x y); constructor; assumption. Qed.

Lemma insert_y_in : forall p l q, In q (insert_y p l) <-> q = p \/ In q l.
Proof.
  intros p l q. induction l as [|a l IH]; cbn; [firstorder|].
  destruct (Rleb (snd a) (snd p)); cbn; rewrite ?IH; firstorder.
Qed.

Lemma insert_y_sorted : forall p l, StronglySorted (fun a b => snd a <= snd b) l ->
  StronglySorted (fun a b => snd a <= snd b) (insert_y p l).
Proof.
  intros p l H. induction H as [|a l H IH Ha]; cbn; [repeat constructor|].
  destruct (Rleb_spec (snd a) (snd p)) as [Hl|Hl].
  - constructor; [exact IH|]. apply Forall_forall. intros q Hq. apply insert_y_in in Hq as [->|Hq]; [exact Hl|].
    rewrite Forall_forall in Ha. auto.
  - constructor; [constructor; assumption|]. constructor; [lra|].
    apply Forall_forall. intros q Hq. rewrite Forall_forall in Ha. specialize (Ha q Hq). cbn in *. lra.
Qed.

Lemma sort_y_acc : forall l acc, StronglySorted (fun a b => snd a <= snd b) acc ->
  StronglySorted (fun a b : pt => snd a <= snd b) (fold_left (fun acc p => insert_y p acc) l acc) /\
  (forall q, In q (fold_left (fun acc p => insert_y p acc) l acc) <-> In q l \/ In q acc).
Proof.
  induction l as [|p l IH]; intros acc H; cbn.
  - split; [exact H|]. firstorder.
  - destruct (IH (insert_y p acc) (insert_y_sorted p acc H)) as [H1 H2]. split; [exact H1|].
    intros q. rewrite H2, insert_y_in. firstorder.
Qed.

Lemma sort_y_in : forall l q, In q (sort_y l) <-> In q l.
Proof. intros l q. unfold sort_y. destruct (sort_y_acc l [] (SSorted_nil _)) as [_ H]. rewrite H. cbn. tauto. Qed.

Lemma sort_y_sorted : forall l, StronglySorted (fun a b : pt => snd a <= snd b) (sort_y l).
Proof. intros l. exact (proj1 (sort_y_acc l [] (SSorted_nil _))). Qed.

Lemma sorted_last : forall l d, StronglySorted (fun a b : pt => snd a <= snd b) l -> l <> [] ->
  In (last l d) l /\ forall q, In q l -> snd q <= snd (last l d).
Proof.
  intros l d H. induction H as [|a l H IH Ha]; intros Hne; [congruence|].
  destruct l as [|b l]; [cbn; split; [auto|intros q [<-|[]]; lra]|].
  destruct (IH ltac:(discriminate)) as [H1 H2]. change (last (a :: b :: l) d) with (last (b :: l) d).
  split; [right; exact H1|]. intros q [<-|Hq]; [|auto].
  rewrite Forall_forall in Ha. apply (Ha _ H1).
Qed.

Lemma head_first : forall l h acc, exists h' acc',
  fold_left (fun acc p => insert_y p acc) l (h :: acc) = h' :: acc' /\
  exists pre post, h :: l = pre ++ h' :: post /\ (forall q, In q pre -> snd h' < snd q).
Proof.
  induction l as [|p l IH]; intros h acc; cbn [fold_left].
  - exists h, acc. split; [reflexivity|]. exists [], []. split; [reflexivity|]. intros q [].
  - cbn [insert_y]. destruct (Rleb_spec (snd h) (snd p)) as [Hl|Hl].
    + destruct (IH h (insert_y p acc)) as (h' & acc' & H1 & pre & post & E & Hp). exists h', acc'. split; [exact H1|]. destruct pre as [|a pre].
      * cbn in E. injection E as -> ->. exists [], (p :: post). split; [reflexivity|]. intros q [].
      * cbn in E. injection E as -> ->. exists (a :: p :: pre), post. split; [reflexivity|].
        intros q [<-|[<-|Hq]]; [apply Hp; left; reflexivity | | apply Hp; right; exact Hq].
        specialize (Hp a (or_introl eq_refl)). lra.
    + destruct (IH p (h :: acc)) as (h' & acc' & H1 & pre & post & E & Hp). exists h', acc'. split; [exact H1|].
      exists (h :: pre), post. cbn. rewrite E. split; [reflexivity|].
      intros q [<-|Hq]; [|auto].
      destruct pre as [|a pre]; cbn in E; injection E as -> E; [lra|].
      specialize (Hp a (or_introl eq_refl)). lra.
Qed.

Lemma sort_y_head : forall l h t, sort_y l = h :: t -> exists pre post, l = pre ++ h :: post /\
  (forall q, In q pre -> snd h < snd q) /\ (forall q, In q l -> snd h <= snd q).
Proof.
  intros [|p l] h t H; [discriminate|].
  pose proof (sort_y_sorted (p :: l)) as Hs. pose proof (fun q => sort_y_in (p :: l) q) as Hin.
  rewrite H in Hs, Hin.
  unfold sort_y in H. cbn [fold_left insert_y] in H.
  destruct (head_first l p []) as (h' & acc' & H1 & pre & post & E & Hp). rewrite H1 in H. injection H as -> ->. exists pre, post. split; [exact E|]. split; [exact Hp|].
  intros q Hq. assert (Hq' : In q (h :: t)) by (apply Hin; exact Hq).
  inversion Hs as [|? ? _ Hf]; subst. rewrite Forall_forall in Hf. destruct Hq' as [<-|Hq']; [lra|auto].
Qed.

Lemma convert_all_ok : forall {A B} (f : A -> Res B) l, (forall x, In x l -> exists y, f x = Ok y) ->
  exists ys, convert_all f l = Ok ys.
Proof.
  intros A B f l. induction l as [|x l IH]; intros H; cbn; [eexists; reflexivity|].
  destruct (H x (or_introl eq_refl)) as [y ->]. destruct IH as [ys ->]; [firstorder|]. eexists; reflexivity.
Qed.

Lemma convert_all_nth : forall {A B} (f : A -> Res B) l ys, convert_all f l = Ok ys ->
  length ys = length l /\ forall k x, nth_error l k = Some x -> exists y, nth_error ys k = Some y /\ f x = Ok y.
Proof.
  intros A B f l. induction l as [|x l IH]; intros ys H; cbn in H.
  - injection H as <-. split; [reflexivity|]. intros [|k] x; discriminate.
  - destruct (f x) as [y|] eqn:E; [|discriminate]. destruct (convert_all f l) as [zs|] eqn:E'; [|discriminate].
    injection H as <-. destruct (IH zs eq_refl) as [H1 H2]. split; [cbn; lia|].
    intros [|k] a Ha; cbn in *; [injection Ha as <-; eauto | auto].
Qed.

Lemma convert_all_app : forall {A B} (f : A -> Res B) l ys pre y post, convert_all f l = Ok ys ->
  ys = pre ++ y :: post -> exists pre' x post', l = pre' ++ x :: post' /\ f x = Ok y /\
    convert_all f pre' = Ok pre.
Proof.
  intros A B f l. induction l as [|a l IH]; intros ys pre y post H E; cbn in H.
  - injection H as <-. destruct pre; discriminate.
  - destruct (f a) as [b|] eqn:Ea; [|discriminate]. destruct (convert_all f l) as [zs|] eqn:Ez; [|discriminate].
    injection H as <-. destruct pre as [|c pre]; cbn in E; injection E as -> ->.
    + exists [], a, l. auto.
    + destruct (IH _ pre y post eq_refl eq_refl) as (pre' & x & post' & -> & Hx & Hp).
      exists (a :: pre'), x, post'. split; [reflexivity|]. split; [exact Hx|]. cbn. rewrite Ea, Hp. reflexivity.
Qed.

Lemma convert_all_in : forall {A B} (f : A -> Res B) l ys, convert_all f l = Ok ys ->
  (forall x, In x l -> exists y, In y ys /\ f x = Ok y) /\ (forall y, In y ys -> exists x, In x l /\ f x = Ok y).
Proof.
  intros A B f l ys H. split.
  - intros x Hx. apply In_nth_error in Hx as [k Hk]. destruct (convert_all_nth f l ys H) as [_ Hn].
    destruct (Hn k x Hk) as (y & Hy & E). exists y. split; [eapply nth_error_In; eauto|exact E].
  - intros y Hy. apply in_split in Hy as (pre & post & ->).
    destruct (convert_all_app f l _ pre y post H eq_refl) as (p' & x & q' & -> & Hx & _).
    exists x. split; [apply in_elt|exact Hx].
Qed.

Lemma nth_repeat0 : forall (x d : R) n k, (k < n)%nat -> nth k (repeat x n) d = x.
Proof. intros x d n. induction n as [|n IH]; intros [|k] H; cbn; try lia; auto. apply IH. lia. Qed.

(** ** C29 *)

Lemma firstn3 : forall (a b c : R) l, firstn 3 (a :: b :: c :: l) = [a; b; c].
Proof. reflexivity. Qed.

(** In a parking environment, set_init_pos(dx, dy, ...) puts the point [l1] ahead of the start
    pose at horizontal distance dx from the centre of the lowest target space (the first listed
    if several are equally low), and the start pose dy above the upper edge of the highest
    target space, with the given headings; nothing else changes. Holds for every robot class. *)
Lemma l_C29_geometric_start :
  forall r a c dx dy, e_case (rb_env r) = "parking" -> e_parking (rb_env r) = Some c ->
  (pk_cols c <> 0)%Z -> pk_tgt c <> [] -> i_dx a = Some dx -> i_dy a = Some dy ->
  exists v lo hi xlo ylo xhi yhi before after,
    set_init_pos r a = (set_x0 r (Some v), Ok tt) /\
    pk_tgt c = before ++ lo :: after /\ In hi (pk_tgt c) /\
    get_parking_space_center (rb_env r) lo = Ok (xlo, ylo) /\
    get_parking_space_center (rb_env r) hi = Ok (xhi, yhi) /\
    (forall n x y, In n (pk_tgt c) -> get_parking_space_center (rb_env r) n = Ok (x, y) -> ylo <= y <= yhi) /\
    (forall n x y, In n before -> get_parking_space_center (rb_env r) n = Ok (x, y) -> ylo < y) /\
    nth 0 v 0 + p_l1 (rb_p r) * cos (i_th1 a) = xlo + dx /\
    nth 1 v 0 = yhi + pk_len c / 2 + dy /\
    nth 2 v 0 = i_th1 a /\
    (rb_kind r <> KBK -> nth 3 v 0 = i_th2 a) /\
    (rb_kind r = KNT -> forall k, (3 <= k < length v)%nat -> nth k v 0 = i_th2 a) /\
    (rb_kind r = KACC -> nth 4 v 0 = i_v a /\ nth 5 v 0 = i_delta a).
Proof.
  intros r a c dx dy Hcase Hpk Hcols Hne Hdx Hdy.
  assert (Hok : forall n, exists P, get_parking_space_center (rb_env r) n = Ok P).
  { intros n. unfold get_parking_space_center. rewrite Hcase, Hpk. cbn.
    unfold space_center. destruct (Z.eqb_spec (pk_cols c) 0); [contradiction|]. eexists; reflexivity. }
  destruct (convert_all_ok (get_parking_space_center (rb_env r)) (pk_tgt c)) as [cs Hcs]; [auto|].
  destruct (convert_all_nth _ _ _ Hcs) as [Hlen _].
  destruct (convert_all_in _ _ _ Hcs) as [Hin1 Hin2].
  destruct (sort_y cs) as [|[xl yl] rest] eqn:Es.
  { exfalso. destruct cs as [|p cs']; [destruct (pk_tgt c); [congruence|discriminate]|].
    assert (In p (sort_y (p :: cs'))) by (apply sort_y_in; left; reflexivity). rewrite Es in *. contradiction. }
  destruct (sort_y_head _ _ _ Es) as (pre & post & Ecs & Hpre & Hmin).
  pose proof (sort_y_sorted cs) as Hs.
  destruct (sorted_last _ (xl, yl) Hs ltac:(rewrite Es; discriminate)) as [Hl1 Hl2].
  remember (last (sort_y cs) (xl, yl)) as hp eqn:Elast. destruct hp as [xh yh].
  apply (sort_y_in cs (xh, yh)) in Hl1. apply Hin2 in Hl1 as (hi & Hhi & Ehi).
  destruct (convert_all_app _ _ _ _ _ _ Hcs Ecs) as (before & lo & after & Et & Elo & Eb).
  assert (Hbase : base_init_pos (rb_p r) (rb_env r) a =
    Ok [xl + dx - p_l1 (rb_p r) * cos (i_th1 a); yh + pk_len c / 2 + dy; i_th1 a; i_th2 a]).
  { unfold base_init_pos. rewrite Hcase, Hdx, Hdy, Hpk, Hcs. rewrite Es in *. rewrite <- Elast. reflexivity. }
  unfold set_init_pos. rewrite Hbase.
  eexists; exists lo, hi, xl, yl, xh, yh, before, after.
  split; [reflexivity|]. split; [exact Et|]. split; [exact Hhi|]. split; [exact Elo|]. split; [exact Ehi|].
  split.
  { intros n x y Hn En. destruct (Hin1 n Hn) as (P & HP & EP). rewrite En in EP. injection EP as <-.
    split; [apply (Hmin _ HP)|]. apply (Hl2 (x, y)). apply sort_y_in. exact HP. }
  split.
  { intros n x y Hn En. destruct (convert_all_in _ _ _ Eb) as [Hb _]. destruct (Hb n Hn) as (P & HP & EP).
    rewrite En in EP. injection EP as <-. apply (Hpre _ HP). }
  destruct (rb_kind r) eqn:Ek; unfold augment; cbn [firstn app nth jget length Nat.min Nat.sub];
    (split; [lra|]); (split; [reflexivity|]); (split; [reflexivity|]); (split; [intros; try reflexivity; congruence|]);
    (split; [intros E; try discriminate|intros E; try discriminate; split; reflexivity]).
  intros k Hk. unfold jget in *; cbn [length Nat.sub Nat.min nth] in *.
  rewrite repeat_length in Hk.
  do 3 (destruct k as [|k]; [lia|]). destruct k as [|k]; [reflexivity|].
  apply nth_repeat0. cbn in Hk. lia.
Qed.

(** Otherwise (navigation, or dx or dy missing) the given coordinates are used verbatim, a missing
    x becomes -3 and a missing y becomes 0. *)
Lemma l_C29_direct_start :
  forall r a, e_case (rb_env r) <> "parking" \/ i_dx a = None \/ i_dy a = None ->
  exists v, set_init_pos r a = (set_x0 r (Some v), Ok tt) /\
    nth 0 v 0 = match i_x a with Some x => x | None => -3 end /\
    nth 1 v 0 = match i_y a with Some y => y | None => 0 end /\
    nth 2 v 0 = i_th1 a /\
    (rb_kind r <> KBK -> nth 3 v 0 = i_th2 a) /\
    (rb_kind r = KNT -> forall k, (3 <= k < length v)%nat -> nth k v 0 = i_th2 a) /\
    (rb_kind r = KACC -> nth 4 v 0 = i_v a /\ nth 5 v 0 = i_delta a).
Proof.
  intros r a H.
  assert (Hb : base_init_pos (rb_p r) (rb_env r) a =
    Ok [match i_x a with Some x => x | None => -3 end; match i_y a with Some y => y | None => 0 end; i_th1 a; i_th2 a]).
  { unfold base_init_pos. destruct (String.eqb_spec (e_case (rb_env r)) "parking") as [E|E].
    - destruct H as [H|[H|H]]; [contradiction| |]; rewrite H; destruct (i_dx a), (i_x a), (i_y a); reflexivity.
    - destruct (i_dx a), (i_x a), (i_y a); reflexivity. }
  unfold set_init_pos. rewrite Hb. eexists; split; [reflexivity|].
  destruct (rb_kind r) eqn:Ek; unfold augment; cbn [firstn app nth jget length Nat.min Nat.sub];
    (split; [reflexivity|]); (split; [reflexivity|]); (split; [reflexivity|]); (split; [intros; try reflexivity; congruence|]);
    (split; [intros E; try discriminate|intros E; try discriminate; split; reflexivity]).
  intros k Hk. unfold jget in *; cbn [length Nat.sub Nat.min nth] in *.
  rewrite repeat_length in Hk.
  do 3 (destruct k as [|k]; [lia|]). destruct k as [|k]; [reflexivity|].
  apply nth_repeat0. cbn in Hk. lia.
Qed.

(** set_goal_pos changes exactly the components it is given (goal vectors of at least three, for
    the trailer classes four, components; every trailer of an N-trailer rig gets theta2). *)
Lemma l_C29_goal_update :
  forall r a xg, rb_xg r = Some xg -> length xg = observation_size r ->
  exists v, set_goal_pos r a = (set_xg r (Some v), Ok tt) /\
    nth 0 v 0 = match o_x a with Some x => x | None => nth 0 xg 0 end /\
    nth 1 v 0 = match o_y a with Some y => y | None => nth 1 xg 0 end /\
    nth 2 v 0 = match o_th1 a with Some t => t | None => nth 2 xg 0 end /\
    (rb_kind r = KTT \/ rb_kind r = KACC \/ (rb_kind r = KNT /\ (1 <= p_num_trailers (rb_p r))%nat) ->
       nth 3 v 0 = match o_th2 a with Some t => t | None => nth 3 xg 0 end) /\
    (rb_kind r = KNT -> forall k, (3 <= k < length v)%nat -> nth k v 0 = nth 3 v 0) /\
    (rb_kind r = KACC -> nth 4 v 0 = o_v a /\ nth 5 v 0 = o_delta a).
Proof.
  intros r a xg Hx Hl. unfold set_goal_pos. rewrite Hx. eexists; split; [reflexivity|].
  assert (Hj : forall i, (i < length xg)%nat -> jget xg i = nth i xg 0).
  { intros i Hi. unfold jget. f_equal. lia. }
  unfold observation_size in Hl. unfold default.
  destruct (rb_kind r) eqn:Ek; unfold augment; cbn [firstn app nth length Nat.min Nat.sub];
    rewrite ?(Hj 0%nat), ?(Hj 1%nat), ?(Hj 2%nat) by lia;
    (split; [reflexivity|]); (split; [reflexivity|]); (split; [reflexivity|]); (split; [|split]);
    try (intros E; discriminate); try (intros [E|[E|[E _]]]; congruence).
  - intros _. rewrite Hj by lia. reflexivity.
  - intros [E|[E|[_ E]]]; try discriminate. unfold jget at 1; cbn [length Nat.sub Nat.min nth].
    rewrite Hj by lia. reflexivity.
  - intros _ k Hk. rewrite repeat_length in Hk. cbn [length] in Hk.
    do 3 (destruct k as [|k]; [lia|]). destruct k as [|k]; [reflexivity|].
    apply nth_repeat0. cbn in Hk. lia.
  - intros _. rewrite Hj by lia. reflexivity.
  - intros _. split; reflexivity.
Qed.

(** The keyword dx is documented as the distance to the tractor's front face, but the front
    overhang is not included: with lf1 <> 0 the front face is off by lf1*cos(theta1). *)
Lemma l_C29_dx_is_front_face_distance_refuted :
  forall r a c dx dy, e_case (rb_env r) = "parking" -> e_parking (rb_env r) = Some c ->
  (pk_cols c <> 0)%Z -> (exists n, pk_tgt c = [n]) -> i_dx a = Some dx -> i_dy a = Some dy ->
  p_lf1 (rb_p r) * cos (i_th1 a) <> 0 ->
  exists v n x y, set_init_pos r a = (set_x0 r (Some v), Ok tt) /\ pk_tgt c = [n] /\
    get_parking_space_center (rb_env r) n = Ok (x, y) /\
    let body := tractor_body (rb_p r) (nth 0 v 0) (nth 1 v 0) (nth 2 v 0) in
    fst (at_frame (rg_org body) (rg_ang body) (rg_front body) 0) <> x + dx.
Proof.
  intros r a c dx dy Hcase Hpk Hcols [n Hn] Hdx Hdy Hlf.
  destruct (l_C29_geometric_start r a c dx dy Hcase Hpk Hcols ltac:(rewrite Hn; discriminate) Hdx Hdy)
    as (v & lo & hi & xl & yl & xh & yh & bef & aft & H1 & H2 & _ & H3 & _ & _ & _ & H4 & _ & H5 & _).
  rewrite Hn in H2.
  assert (lo = n).
  { destruct bef as [|b bef]; cbn in H2; injection H2; [congruence|]. intros E. destruct bef; discriminate. }
  subst lo. exists v, n, xl, yl. split; [exact H1|]. split; [exact Hn|]. split; [exact H3|].
  cbv zeta. unfold tractor_body, at_frame; cbn [rg_org rg_ang rg_front fst snd]. rewrite H5. lra.
Qed.

(** The start is measured from the lowest target, not from the first listed one (documented as the
    tractor's target), when they are in different columns. *)
Definition two_targets : parking := mkParking 2 8 (35/10) 7 4 [] [11; 4]%Z 1.
(** C29 (finding): the start is measured from the lowest target number, not from the first listed one (documented as the tractor's target). *)
Lemma l_C29_first_target_is_reference_refuted :
  exists e r v v', env_init 32 32 "parking" (Some two_targets) = Ok e /\
    rb_env r = e /\ get_parking_space_center e 11 = Ok v' /\
    set_init_pos r (mkInit None None (Some 0) (Some 0) 0 0 0 0) = (set_x0 r (Some v), Ok tt) /\
    nth 0 v 0 + p_l1 (rb_p r) * cos 0 <> fst v' + 0.
Proof.
  eexists.
  exists (mkRobot KTT default_params
            (mkEnv "parking" (- (32) / 2, 32 / 2) (- (32) / 2, 32 / 2) (Some two_targets) [mkCircle 0 0 0] parking_rects)
            None None [] [] 0 0 [] [] []).
  eexists; eexists. split; [reflexivity|]. split; [reflexivity|]. split; [reflexivity|].
  split.
  - unfold set_init_pos, base_init_pos; cbn [rb_env rb_p rb_kind e_case e_parking i_dx i_dy String.eqb Ascii.eqb Bool.eqb pk_tgt two_targets
      convert_all get_parking_space_center negb space_center pk_cols Z.eqb]. cbn -[IZR Rdiv Rmult Rplus Rminus cos].
    unfold Rleb at 1. destruct (Rle_dec _ _) as [H|H]; [exfalso; lra|]. reflexivity.
  - cbn -[IZR Rdiv Rmult Rplus Rminus cos]. rewrite cos_0. lra.
Qed.

(** The default start of the shipped parking scenario overlaps the upper wall: the robot built by
    get_env with default arguments starts in collision. *)
Lemma l_C29_default_start_safe_refuted :
  exists r q, get_env (default_env_args "tt2d" "parking" 1) = Ok r /\
    rb_x0 r = Some [t_px q; t_py q; t_th1 q; t_th2 q] /\
    ~ tt_safe (rb_p r) (rb_circ r) (rb_rect r) q /\ tt_coll (rb_p r) (rb_circ r) (rb_rect r) q = true.
Proof.
  eexists. exists (mkTT (- (32) / 2 + 2) (32 / 2 - 2) (1/10) (1/10)).
  split; [reflexivity|]. split; [reflexivity|].
  match goal with |- ~ tt_safe (rb_p ?r) _ _ _ /\ _ => set (rb := r) end.
  assert (Hn : ~ tt_clear (rb_p rb) (rb_circ rb) (rb_rect rb) (mkTT (- (32) / 2 + 2) (32 / 2 - 2) (1/10) (1/10))).
  { intros [_ H].
    specialize (H _ (mkRect 0 15 30 1 0) (or_introl eq_refl) (or_introl eq_refl)).
    pose proof (COS_bound (1/10)) as Hc. pose proof PI2_3_2 as Hpi.
    assert (Hc1 : 1 / 2 <= cos (1/10)).
    { rewrite <- cos_PI3. apply cos_decr_1; try lra. }
    assert (Hs0 : 0 <= sin (1/10) <= 1).
    { split; [apply sin_ge_0; lra|]. apply SIN_bound. }
    apply (H (at_frame (- (32) / 2 + 2, 32 / 2 - 2) (1/10) 0 1)). split.
    - exists 0, 1. cbn. repeat split; try lra.
    - exists (- (32) / 2 + 2 - sin (1/10)), (32 / 2 - 2 + cos (1/10) - 15).
      unfold obstacle_body; cbn [rg_back rg_front rg_half rg_org rg_ang r_x r_y r_w r_h r_ang].
      split; [lra|]. split; [lra|].
      unfold at_frame; cbn [fst snd]. rewrite cos_0, sin_0. f_equal; ring. }
  split; [intros [H _]; exact (Hn H)|].
  destruct (tt_coll _ _ _ _) eqn:E; [reflexivity|]. exfalso. apply Hn.
  apply (tt_coll_false_clear (mkTTSelf (rb_p rb) (rb_circ rb) (rb_rect rb) (mkTT 0 0 0 0))); [|exact E].
  unfold tt_sized, tractor_sized; cbn; lra.
Qed.

Lemma solid_level : forall P L b f h Q, solid (mkRegion P 0 b f h) Q -> L + h < snd P -> L < snd Q.
Proof.
  intros P L b f h Q (x & y & _ & Hy & ->) HL. cbn in *. rewrite cos_0, sin_0. lra.
Qed.
Lemma solid_level_up : forall P L b f h Q, solid (mkRegion P 0 b f h) Q -> snd P + h < L -> snd Q < L.
Proof.
  intros P L b f h Q (x & y & _ & Hy & ->) HL. cbn in *. rewrite cos_0, sin_0. lra.
Qed.
Lemma outline_solid' : forall g P, outline g P -> solid g P.
Proof. intros g P (a & b & H1 & H2 & _ & H3). exists a, b. auto. Qed.

(** The start used by the shipped main script (dx = 3, dy = 5, both headings 0) is safe. *)
Lemma l_C29_script_start_safe :
  exists r r' q, get_env (default_env_args "tt2d" "parking" 1) = Ok r /\
    set_init_pos r (mkInit None None (Some 3) (Some 5) 0 0 0 0) = (r', Ok tt) /\
    rb_x0 r' = Some [t_px q; t_py q; t_th1 q; t_th2 q] /\
    tt_safe (rb_p r') (rb_circ r') (rb_rect r') q.
Proof.
  eexists. 
  eexists. exists (mkTT (- (8 * (35/10)) / 2 + (2 + 1/2) * (35/10) + 3 - 323/100 * cos 0)
                   (- (32) / 2 + 4 + (1 + 1/2) * 7 + 7 / 2 + 5) 0 0).
  split; [reflexivity|]. split.
  { unfold set_init_pos, base_init_pos; cbn -[IZR Rdiv Rmult Rplus Rminus cos].
    assert (HR : Rleb (- (32) / 2 + 4 + (0 + 1 / 2) * 7) (- (32) / 2 + 4 + (1 + 1 / 2) * 7) = true).
    { unfold Rleb. destruct (Rle_dec _ _) as [H|H]; [reflexivity|exfalso; lra]. }
    rewrite !HR. reflexivity. }
  split; [reflexivity|].
  cbn [rb_p rb_circ rb_rect set_x0].
  split.
  - split.
    + intros g c Hg Hc P HP. apply outline_solid' in HP.
      assert (Hy : 5 < snd P).
      { cbn [tt_bodies In] in Hg. destruct Hg as [<-|[<-|[]]].
        - unfold tractor_body in HP; cbn [t_px t_py t_th1 t_th2 p_trac_w params_of] in HP.
          eapply solid_level; [exact HP|]. cbn. lra.
        - unfold trailer_body in HP. cbn [t_px t_py t_th1 t_th2] in HP.
          eapply solid_level; [exact HP|]. unfold ahead; cbn. rewrite sin_0. lra. }
      assert (Hcy : c_y c <= 1/2 /\ c_r c = 1).
      { cbn in Hc. repeat match type of Hc with
        | False => contradiction
        | _ => destruct Hc as [<-|Hc]; [cbn; lra|]
        end. }
      destruct (Rlt_le_dec (c_r c) (dist P (c_x c, c_y c))) as [H|H]; [exact H|exfalso].
      apply disc_box in H. cbn [fst snd] in H. lra.
    + intros g o Hg Ho P [H1 H2].
      assert (Hy : 5 < snd P < 9).
      { cbn [tt_bodies In] in Hg. destruct Hg as [<-|[<-|[]]].
        - unfold tractor_body in H1; cbn [t_px t_py t_th1 t_th2 p_trac_w params_of] in H1.
          split; [eapply solid_level|eapply solid_level_up]; try exact H1; cbn; lra.
        - unfold trailer_body in H1. cbn [t_px t_py t_th1 t_th2] in H1.
          split; [eapply solid_level|eapply solid_level_up]; try exact H1; unfold ahead; cbn; rewrite sin_0; lra. }
      cbn in Ho. destruct Ho as [<-|[<-|[]]]; destruct H2 as (a & b & Ha & Hb & ->); cbn in Ha, Hb, Hy;
        rewrite ?sin_0, ?cos_0 in Hy; lra.
  - apply hitch_ok_zero. cbn. unfold phi_max_const. pose proof PI_RGT_0. lra.
Qed.

(** A call of set_goal_pos on an acceleration-controlled robot that gives only a heading resets a
    previously requested goal speed. *)
Lemma l_C29_goal_speed_kept_refuted :
  exists r v, get_env (default_env_args "acc_tt2d" "navigation" 1) = Ok r /\
    let r1 := fst (set_goal_pos r (mkGoal (Some 5) (Some 0) None None 1 0)) in
    let r2 := fst (set_goal_pos r1 (mkGoal None None (Some 0) None 0 0)) in
    (exists w, rb_xg r1 = Some w /\ nth 4 w 0 = 1) /\ rb_xg r2 = Some v /\ nth 4 v 0 = 0.
Proof.
  eexists; eexists.
  split. { unfold get_env; cbn [default_env_args g_name String.eqb Ascii.eqb Bool.eqb]. unfold acc_init. cbn -[IZR Rdiv Reqb].
    unfold Reqb. destruct (Req_EM_T 2 0) as [E|E]; [exfalso; cbn in E; lra|]. reflexivity. }
  cbv zeta. split; [eexists; split; reflexivity|]. split; reflexivity.
Qed.

(** ** C30 *)

Lemma augment_length : forall N x, (1 <= N)%nat -> (3 <= length x)%nat -> length (augment N x) = (3 + N)%nat.
Proof.
  intros N x HN Hx. unfold augment. rewrite app_length, firstn_length. cbn [length]. rewrite repeat_length. lia.
Qed.

Definition sized_vec (r : robot) (o : option (list R)) : Prop :=
  exists v, o = Some v /\ length v = observation_size r.
Definition sized_robot (r : robot) : Prop :=
  sized_vec r (rb_x0 r) /\ sized_vec r (rb_xg r) /\ (rb_kind r = KNT -> (2 <= p_num_trailers (rb_p r))%nat).

Lemma base_init_pos_len : forall p e a v, base_init_pos p e a = Ok v -> length v = 4%nat.
Proof.
  intros p e a v H. unfold base_init_pos in H.
  destruct (String.eqb _ _), (i_dx a), (i_dy a), (i_x a), (i_y a);
    try (injection H as <-; reflexivity);
    (destruct (e_parking e); [|discriminate]); (destruct (convert_all _ _); [|discriminate]);
    (destruct (sort_y _); [discriminate|]); injection H as <-; reflexivity.
Qed.

Lemma call_sized : forall r o, sized_robot r -> sized_robot (call r o) /\
  rb_kind (call r o) = rb_kind r /\ rb_p (call r o) = rb_p r.
Proof.
  intros r o (H0 & Hg & HN). destruct o as [a|a|l m pad|l pad]; cbn [call].
  - unfold set_init_pos. destruct (base_init_pos _ _ _) as [v|x] eqn:E; cbn [fst]; [|split; [split; auto|auto]].
    apply base_init_pos_len in E. split; [|split; reflexivity].
    split; [|split; [exact Hg|exact HN]].
    eexists; split; [reflexivity|]. unfold observation_size; cbn [set_x0 rb_kind rb_p].
    destruct (rb_kind r) eqn:Ek.
    + exact E.
    + rewrite firstn_length, E. reflexivity.
    + apply augment_length; [specialize (HN eq_refl); lia | lia].
    + rewrite app_length, E. reflexivity.
  - unfold set_goal_pos. cbn [fst]. split; [|split; reflexivity].
    split; [exact H0|]. split; [|exact HN].
    eexists; split; [reflexivity|]. unfold observation_size; cbn [set_xg rb_kind rb_p].
    set (v := match rb_xg r with Some _ => _ | None => _ end).
    assert (E : length v = 4%nat) by (subst v; destruct (rb_xg r); reflexivity).
    destruct (rb_kind r) eqn:Ek.
    + exact E.
    + rewrite firstn_length, E. reflexivity.
    + apply augment_length; [specialize (HN eq_refl); lia | lia].
    + rewrite app_length, E. reflexivity.
  - unfold set_rectangle_obs. destruct (env_set_rects _ _ _ _) as [e' [l'|x]]; cbn; (split; [split; auto|auto]).
  - unfold set_circle_obs. destruct (env_set_circles _ _ _) as [e' [l'|x]]; cbn; (split; [split; auto|auto]).
Qed.

Lemma tt_init_fields : forall kd k N r, tt_init kd k N = Ok r -> k_x0 k = None -> k_xg k = None ->
  rb_kind r = kd /\ rb_p r = params_of k N /\ rb_circ r = e_circles (rb_env r) /\ rb_rect r = e_rects (rb_env r) /\
  (k_case k = "parking" \/ k_case k = "navigation" ->
    exists v w, rb_x0 r = Some v /\ length v = 4%nat /\ rb_xg r = Some w /\ length w = 4%nat).
Proof.
  intros kd k N r H Hx Hg. unfold tt_init in H.
  destruct (match k_env k with Some e => Ok e | None => _ end) as [e|x]; [|discriminate].
  destruct (initial_x0 k e) as [x0|x] eqn:E0; [|discriminate].
  destruct (initial_xg k e) as [xg|x] eqn:Eg; [|discriminate].
  injection H as <-. cbn. do 4 (split; [reflexivity|]).
  intros Hc. unfold initial_x0 in E0. unfold initial_xg in Eg. rewrite Hx in E0. rewrite Hg in Eg.
  unfold default_init_pos, default_goal_pos in *.
  destruct Hc as [Hc|Hc]; rewrite Hc in *; cbn in E0, Eg.
  - injection E0 as <-. destruct (e_parking e); [|discriminate]. destruct (pk_tgt p); [discriminate|].
    destruct (get_parking_space_center e z) as [[gx gy]|]; [|discriminate]. injection Eg as <-.
    eexists; eexists; repeat split; reflexivity.
  - injection E0 as <-. injection Eg as <-. eexists; eexists; repeat split; reflexivity.
Qed.

Lemma get_env_inv : forall g r, get_env g = Ok r ->
  (bk_init (kwargs g) = Ok r /\ (g_name g = "tt2d" /\ g_trailers g = 0%Z \/ g_name g = "kinematic_bicycle2d")) \/
  (nt_init (kwargs g) (g_trailers g) = Ok r /\ (2 <= g_trailers g)%Z /\ (g_name g = "tt2d" \/ g_name g = "n_trailer2d")) \/
  (tt_init KTT (kwargs g) 1 = Ok r /\ g_name g = "tt2d" /\ (g_trailers g < 2)%Z /\ g_trailers g <> 0%Z) \/
  (acc_init (kwargs g) (g_amax g) (g_omax g) = Ok r /\ g_name g = "acc_tt2d").
Proof.
  intros g r H. unfold get_env in H.
  destruct (String.eqb_spec (g_name g) "tt2d") as [E|E].
  - destruct (Z.eqb_spec (g_trailers g) 0) as [E0|E0]; [left; auto|].
    destruct (Z.leb_spec 2 (g_trailers g)) as [E1|E1]; [right; left; auto|]. right; right; left; auto.
  - destruct (String.eqb_spec (g_name g) "n_trailer2d") as [E1|E1].
    { right; left. split; [exact H|]. unfold nt_init in H. destruct (Z.leb_spec 2 (g_trailers g)); [auto|discriminate]. }
    destruct (String.eqb_spec (g_name g) "acc_tt2d") as [E2|E2]; [right; right; right; auto|].
    destruct (String.eqb_spec (g_name g) "kinematic_bicycle2d") as [E3|E3]; [left; auto|discriminate].
Qed.

Lemma get_env_sized : forall g r, get_env g = Ok r -> g_case g = "parking" \/ g_case g = "navigation" -> sized_robot r.
Proof.
  intros g r H Hc. apply get_env_inv in H as [[H _]|[[H [HN _]]|[[H _]|[H _]]]].
  - unfold bk_init in H. destruct (tt_init KBK (kwargs g) 1) as [r0|] eqn:E; [|discriminate]. injection H as <-.
    destruct (tt_init_fields _ _ _ _ E eq_refl eq_refl) as (H1 & H2 & _ & _ & H3).
    destruct (H3 Hc) as (v & w & Hv & Lv & Hw & Lw).
    unfold sized_robot, sized_vec, observation_size; cbn [set_x0 set_xg rb_x0 rb_xg rb_kind rb_p]. rewrite H1, Hv, Hw.
    split; [eexists; split; [reflexivity|change (length (firstn 3 v) = 3%nat); rewrite firstn_length, Lv; reflexivity]|].
    split; [eexists; split; [reflexivity|change (length (firstn 3 w) = 3%nat); rewrite firstn_length, Lw; reflexivity]|discriminate].
  - unfold nt_init in H. destruct (Z.leb_spec 2 (g_trailers g)) as [_|Hlt]; [|lia].
    destruct (tt_init KNT (kwargs g) (Z.to_nat (g_trailers g))) as [r0|] eqn:E; [|discriminate].
    destruct (tt_init_fields _ _ _ _ E eq_refl eq_refl) as (H1 & H2 & _ & _ & H3).
    destruct (H3 Hc) as (v & w & Hv & Lv & Hw & Lw). rewrite Hv, Hw in H. injection H as <-.
    unfold sized_robot, sized_vec, observation_size; cbn [rb_x0 rb_xg rb_kind rb_p]. rewrite H2. cbn [params_of p_num_trailers].
    split; [eexists; split; [reflexivity|apply augment_length; lia]|].
    split; [eexists; split; [reflexivity|apply augment_length; lia]|intros _; lia].
  - destruct (tt_init_fields _ _ _ _ H eq_refl eq_refl) as (H1 & H2 & _ & _ & H3).
    destruct (H3 Hc) as (v & w & Hv & Lv & Hw & Lw).
    unfold sized_robot, sized_vec, observation_size. rewrite H1, Hv, Hw.
    split; [eauto|]. split; [eauto|discriminate].
  - unfold acc_init in H. destruct (tt_init KACC (kwargs g) 1) as [r0|] eqn:E; [|discriminate].
    destruct (Reqb _ _); [discriminate|]. injection H as <-.
    destruct (tt_init_fields _ _ _ _ E eq_refl eq_refl) as (H1 & H2 & _ & _ & H3).
    destruct (H3 Hc) as (v & w & Hv & Lv & Hw & Lw).
    unfold sized_robot, sized_vec, observation_size; cbn [rb_x0 rb_xg rb_kind rb_p]. rewrite Hv, Hw.
    split; [eexists; split; [reflexivity|rewrite app_length, Lv; reflexivity]|].
    split; [eexists; split; [reflexivity|rewrite app_length, Lw; reflexivity]|discriminate].
Qed.

(** For every robot obtained from get_env in one of the two scenarios, and after any sequence of
    setter calls (including calls that raise), start and goal exist and have observation_size
    components; class, trailer count and all parameters are unchanged. *)
Lemma l_C30_dimensions :
  forall g r ops, get_env g = Ok r -> g_case g = "parking" \/ g_case g = "navigation" ->
  exists v w, rb_x0 (calls r ops) = Some v /\ rb_xg (calls r ops) = Some w /\
    length v = observation_size r /\ length w = observation_size r /\
    rb_kind (calls r ops) = rb_kind r /\ rb_p (calls r ops) = rb_p r.
Proof.
  intros g r ops H Hc. pose proof (get_env_sized g r H Hc) as Hs. clear H Hc.
  assert (HH : sized_robot (calls r ops) /\ rb_kind (calls r ops) = rb_kind r /\ rb_p (calls r ops) = rb_p r).
  { unfold calls. revert r Hs. induction ops as [|o ops IH]; intros r Hs; cbn; [auto|].
    destruct (call_sized r o Hs) as (H1 & H2 & H3). destruct (IH _ H1) as (H4 & H5 & H6).
    rewrite H5, H6. auto. }
  destruct HH as (((v & Hv & Lv) & (w & Hw & Lw) & _) & Hk & Hp).
  exists v, w. unfold observation_size in *. rewrite Hk, Hp in Lv, Lw. auto 8.
Qed.

(** One step of the N-trailer robot: a state that does not have exactly N trailer headings is refused with
    AssertionError, so is a robot built with the projection on; every other state is stepped, and the next
    state again has N trailer headings. *)
Lemma l_C30_n_trailer_step :
  forall (s : nt_self) guide viz st a,
  length (ns_len s) = p_num_trailers (ns_p s) ->
  (forall q, length (n_ths (guide q)) = length (n_ths q)) ->
  (nt_step_internal s guide viz st a = Err AssertionError <->
     length (n_ths (st_q st)) <> p_num_trailers (ns_p s) \/ p_proj (ns_p s) = true) /\
  (length (n_ths (st_q st)) = p_num_trailers (ns_p s) -> p_proj (ns_p s) = false ->
   exists st', nt_step_internal s guide viz st a = Ok st' /\ length (n_ths (st_q st')) = p_num_trailers (ns_p s)).
Proof.
  intros s guide viz st a HL HG.
  assert (Hok : length (n_ths (st_q st)) = p_num_trailers (ns_p s) -> p_proj (ns_p s) = false ->
    exists st', nt_step_internal s guide viz st a = Ok st' /\ length (n_ths (st_q st')) = p_num_trailers (ns_p s)).
  { intros Hq Hp. exists (nt_step_core s guide viz st a). unfold nt_step_internal. fold (ns_N s) in Hq, HL |- *.
    rewrite Hq, Nat.eqb_refl, Hp. cbn [negb]. split; [reflexivity|].
    unfold nt_step_core, nt_step_with.
    assert (Hv : forall c, length (n_ths (nt_euler s (st_q st) (input_scaler (ns_p s) c))) = ns_N s).
    { intros c. rewrite nt_euler_plain by auto. apply nt_plain_valid; auto. }
    destruct (p_guid (ns_p s)).
    - cbn [st_q]. destruct viz; [rewrite HG|]; apply Hv.
    - destruct (p_sh_coll (ns_p s) || p_sh_hitch (ns_p s)).
      + unfold shielded_rollout. cbv zeta. cbn [st_q]. 
        match goal with |- length (n_ths (where_ ?b _ (where_ ?c _ _))) = _ => destruct b; [exact Hq|]; destruct c; [exact Hq|] end. apply Hv.
      + unfold step_without_shield. cbn [st_q]. apply Hv. }
  split; [|exact Hok].
  split.
  - intros E. destruct (Nat.eq_dec (length (n_ths (st_q st))) (p_num_trailers (ns_p s))) as [e|]; [|auto].
    destruct (p_proj (ns_p s)) eqn:Hp; [auto|]. destruct (Hok e eq_refl) as (st' & E' & _). congruence.
  - intros H. unfold nt_step_internal, ns_N.
    destruct (Nat.eqb_spec (length (n_ths (st_q st))) (p_num_trailers (ns_p s))); cbn [negb]; [|reflexivity].
    destruct H as [H|H]; [contradiction|]. rewrite H. reflexivity.
Qed.

(** The same for a planning run of the N-trailer robot: it raises AssertionError before planning anything. *)
Lemma l_C30_n_trailer_run :
  forall (s : nt_self) x0 guide logpd rew_xref g rg,
  length (n_ths x0) <> p_num_trailers (ns_p s) \/ p_proj (ns_p s) = true ->
  nt_run s x0 guide logpd rew_xref g rg = Err AssertionError.
Proof.
  intros s x0 guide logpd rx g rg H. unfold nt_run, ns_N.
  destruct (Nat.eqb_spec (length (n_ths x0)) (p_num_trailers (ns_p s))); cbn [negb]; [|reflexivity].
  destruct H as [H|H]; [contradiction|]. rewrite H. reflexivity.
Qed.

(** A case name that is neither scenario is accepted when an Env object is passed; the robot then
    has no start and no goal. *)
Lemma l_C30_unknown_case_rejected_refuted :
  exists g r, g_case g = "parking_lot" /\ get_env g = Ok r /\ rb_x0 r = None /\ rb_xg r = None.
Proof.
  destruct (env_init 32 32 "navigation" None) as [e|] eqn:E; [|discriminate].
  exists (mkEnvArgs "tt2d" "parking_lot" (Some e) 1 1 0 1 1 true true false false 1 1 1 1 1 1 1 1 1 1 1 1 1 1 1 1 1 1 1 1 1 1 1 1 1 1 1 1).
  eexists. repeat split.
Qed.

(** A six-component start passed to the acceleration-controlled constructor becomes an
    eight-component one. *)
Lemma l_C30_constructor_start_kept_refuted :
  exists k r v, k_x0 k = Some [0; 0; 0; 0; 1; 0] /\ acc_init k 2 1 = Ok r /\ rb_x0 r = Some v /\
    observation_size r = 6%nat /\ length v = 8%nat.
Proof.
  exists (mkCtor (Some [0; 0; 0; 0; 1; 0]) None None "navigation" 1 1 0 1 true 1 true false false 1 1 1 1 1 1 1 1 1 1 1 1 1 1 1 1 1 1 1 1 1 1 1 1 1).
  eexists; eexists. split; [reflexivity|]. split.
  { unfold acc_init. cbn -[IZR Rdiv Reqb]. unfold Reqb. destruct (Req_EM_T 2 0) as [E|E]; [exfalso; cbn in E; lra|]. reflexivity. }
  repeat split.
Qed.

Lemma x_C30_n_trailer :
  exists r, get_env (default_env_args "n_trailer2d" "parking" 4) = Ok r /\ observation_size r = 7%nat.
Proof. eexists; split; reflexivity. Qed.

(** ** C31 *)

Lemma solid_axis : forall o P, r_ang o = 0 -> (solid (obstacle_body o) P <->
  r_x o - r_w o / 2 <= fst P <= r_x o + r_w o / 2 /\ r_y o - r_h o / 2 <= snd P <= r_y o + r_h o / 2).
Proof.
  intros o [px py] Ha. unfold solid, obstacle_body; cbn [rg_back rg_front rg_half rg_org rg_ang]. rewrite Ha. unfold at_frame. cbn [fst snd].
  rewrite cos_0, sin_0. split.
  - intros (a & b & H1 & H2 & E). injection E as -> ->. lra.
  - intros H. exists (px - r_x o), (py - r_y o). repeat split; try lra. f_equal; lra.
Qed.

Lemma rects_ok : forall r l mode pad r', set_rectangle_obs r l mode pad = (r', Ok tt) ->
  exists rs, convert_all (convert_rect mode pad) l = Ok rs /\ rb_rect r' = rs /\ e_rects (rb_env r') = rs /\
    rb_circ r' = rb_circ r /\ e_circles (rb_env r') = e_circles (rb_env r) /\ rb_x0 r' = rb_x0 r /\ rb_xg r' = rb_xg r /\ rb_p r' = rb_p r.
Proof.
  intros r l mode pad r' H. unfold set_rectangle_obs, env_set_rects in H.
  destruct (convert_all (convert_rect mode pad) l) as [rs|x] eqn:E; cbn in H; [|discriminate].
  injection H as <-. exists rs. repeat split.
Qed.
Lemma circles_ok : forall r l pad r', set_circle_obs r l pad = (r', Ok tt) ->
  exists cs, convert_all (convert_circle pad) l = Ok cs /\ rb_circ r' = cs /\ e_circles (rb_env r') = cs /\
    rb_rect r' = rb_rect r /\ e_rects (rb_env r') = e_rects (rb_env r) /\ rb_x0 r' = rb_x0 r /\ rb_xg r' = rb_xg r /\ rb_p r' = rb_p r.
Proof.
  intros r l pad r' H. unfold set_circle_obs, env_set_circles in H.
  destruct (convert_all (convert_circle pad) l) as [cs|x] eqn:E; cbn in H; [|discriminate].
  injection H as <-. exists cs. repeat split.
Qed.

(** A left-top rectangle [x, y, w, h], padded by [pad], covers exactly the points with
    x - pad <= X <= x + w + pad and y - h - pad <= Y <= y + pad. *)
Lemma l_C31_left_top_area :
  forall r l pad r' k x y w h, set_rectangle_obs r l "left-top" pad = (r', Ok tt) ->
  nth_error l k = Some [x; y; w; h] \/ nth_error l k = Some [x; y; w; h; 0] ->
  exists o, nth_error (rb_rect r') k = Some o /\
    forall X Y, solid (obstacle_body o) (X, Y) <-> x - pad <= X <= x + w + pad /\ y - h - pad <= Y <= y + pad.
Proof.
  intros r l pad r' k x y w h H Hk. apply rects_ok in H as (rs & Hc & -> & _).
  destruct (convert_all_nth _ _ _ Hc) as [_ Hn].
  destruct Hk as [Hk|Hk]; destruct (Hn _ _ Hk) as (o & Ho & E); exists o; (split; [exact Ho|]);
    cbn in E; injection E as <-; intros X Y; rewrite solid_axis by reflexivity; cbn; split; intros; lra.
Qed.

(** A rectangle given by its centre, with any rotation, covers exactly the points reached from the
    centre by going at most w/2 + pad along its axis and at most h/2 + pad across. *)
Lemma l_C31_center_area :
  forall r l pad r' k x y w h ang, set_rectangle_obs r l "center" pad = (r', Ok tt) ->
  nth_error l k = Some [x; y; w; h; ang] \/ (ang = 0 /\ nth_error l k = Some [x; y; w; h]) ->
  exists o, nth_error (rb_rect r') k = Some o /\
    forall P, solid (obstacle_body o) P <->
      exists a b, Rabs a <= w / 2 + pad /\ Rabs b <= h / 2 + pad /\ P = at_frame (x, y) ang a b.
Proof.
  intros r l pad r' k x y w h ang H Hk. apply rects_ok in H as (rs & Hc & -> & _).
  destruct (convert_all_nth _ _ _ Hc) as [_ Hn].
  destruct Hk as [Hk|[-> Hk]]; destruct (Hn _ _ Hk) as (o & Ho & E); exists o; (split; [exact Ho|]);
    cbn in E; injection E as <-; intros P; unfold solid, obstacle_body; cbn [rg_back rg_front rg_half rg_org rg_ang r_x r_y r_w r_h r_ang];
    (split; intros (a & b & H1 & H2 & H3); exists a, b;
     [ repeat split; [apply Rabs_le; lra|apply Rabs_le; lra|exact H3]
     | apply Rabs_le_inv in H1; apply Rabs_le_inv in H2; repeat split; try lra; exact H3 ]).
Qed.

(** A circle [x, y, r] padded by [pad] covers exactly the points within r + pad of (x, y). *)
Lemma l_C31_circle_area :
  forall r l pad r' k x y rad, set_circle_obs r l pad = (r', Ok tt) ->
  nth_error l k = Some [x; y; rad] ->
  exists c, nth_error (rb_circ r') k = Some c /\
    forall P, disc (c_x c, c_y c) (c_r c) P <-> dist P (x, y) <= rad + pad.
Proof.
  intros r l pad r' k x y rad H Hk. apply circles_ok in H as (cs & Hc & -> & _).
  destruct (convert_all_nth _ _ _ Hc) as [_ Hn]. destruct (Hn _ _ Hk) as (c & Ho & E).
  exists c. split; [exact Ho|]. cbn in E. injection E as <-. intros P. reflexivity.
Qed.

(** The new list replaces the old one: same number of obstacles, in the given order (by the area
    theorems), and the other kind of obstacle, start, goal and parameters are untouched. *)
Lemma l_C31_replaces :
  forall r l mode pad r', set_rectangle_obs r l mode pad = (r', Ok tt) ->
  length (rb_rect r') = length l /\ rb_circ r' = rb_circ r /\ rb_x0 r' = rb_x0 r /\ rb_xg r' = rb_xg r /\ rb_p r' = rb_p r.
Proof.
  intros r l mode pad r' H. apply rects_ok in H as (rs & Hc & -> & _ & H). destruct (convert_all_nth _ _ _ Hc). intuition.
Qed.
Lemma l_C31_circles_replaces :
  forall r l pad r', set_circle_obs r l pad = (r', Ok tt) ->
  length (rb_circ r') = length l /\ rb_rect r' = rb_rect r /\ rb_x0 r' = rb_x0 r /\ rb_xg r' = rb_xg r /\ rb_p r' = rb_p r.
Proof.
  intros r l pad r' H. apply circles_ok in H as (rs & Hc & -> & _ & H). destruct (convert_all_nth _ _ _ Hc). intuition.
Qed.

Lemma call_agree : forall r o, rb_circ r = e_circles (rb_env r) /\ rb_rect r = e_rects (rb_env r) ->
  rb_circ (call r o) = e_circles (rb_env (call r o)) /\ rb_rect (call r o) = e_rects (rb_env (call r o)).
Proof.
  intros r o H. destruct o as [a|a|l m pad|l pad]; cbn [call].
  - unfold set_init_pos. destruct (base_init_pos _ _ _); exact H.
  - exact H.
  - unfold set_rectangle_obs, env_set_rects. destruct (convert_all _ _); cbn; intuition.
  - unfold set_circle_obs, env_set_circles. destruct (convert_all _ _); cbn; intuition.
Qed.

(** The robot's obstacles and its environment's obstacles are the same list, from construction on
    and after any sequence of setter calls. *)
Lemma l_C31_robot_and_environment_agree :
  forall g r ops, get_env g = Ok r ->
  rb_circ (calls r ops) = e_circles (rb_env (calls r ops)) /\ rb_rect (calls r ops) = e_rects (rb_env (calls r ops)).
Proof.
  intros g r ops H.
  assert (H0 : rb_circ r = e_circles (rb_env r) /\ rb_rect r = e_rects (rb_env r)).
  { apply get_env_inv in H as [[H _]|[[H [HN _]]|[[H _]|[H _]]]].
    - unfold bk_init in H. destruct (tt_init KBK (kwargs g) 1) as [r0|] eqn:E; [|discriminate]. injection H as <-.
      destruct (tt_init_fields _ _ _ _ E eq_refl eq_refl) as (_ & _ & H1 & H2 & _). auto.
    - unfold nt_init in H. destruct (Z.leb 2 (g_trailers g)); [|discriminate].
      destruct (tt_init KNT (kwargs g) (Z.to_nat (g_trailers g))) as [r0|] eqn:E; [|discriminate].
      destruct (tt_init_fields _ _ _ _ E eq_refl eq_refl) as (_ & _ & H1 & H2 & _).
      destruct (rb_x0 r0), (rb_xg r0); try discriminate. injection H as <-. auto.
    - destruct (tt_init_fields _ _ _ _ H eq_refl eq_refl) as (_ & _ & H1 & H2 & _). auto.
    - unfold acc_init in H. destruct (tt_init KACC (kwargs g) 1) as [r0|] eqn:E; [|discriminate].
      destruct (Reqb _ _); [discriminate|]. injection H as <-.
      destruct (tt_init_fields _ _ _ _ E eq_refl eq_refl) as (_ & _ & H1 & H2 & _). auto. }
  clear H. unfold calls. revert r H0. induction ops as [|o ops IH]; intros r H0; cbn; [exact H0|].
  apply IH, call_agree, H0.
Qed.

(** With a rotation, the given (x, y) of a left-top rectangle is not one of its points in general:
    the conversion ignores the rotation. *)
Lemma l_C31_left_top_rotated_corner_refuted :
  forall r, exists r' o, set_rectangle_obs r [[0; 0; 4; 2; PI / 2]] "left-top" 0 = (r', Ok tt) /\
    rb_rect r' = [o] /\ ~ solid (obstacle_body o) (0, 0).
Proof.
  intros r. eexists; eexists. split; [reflexivity|]. split; [reflexivity|].
  intros (a & b & Ha & Hb & E). unfold at_frame, obstacle_body in E. cbn in *. rewrite cos_PI2, sin_PI2 in E.
  injection E as E1 E2. lra.
Qed.

(** Setting obstacles directly on the environment object does not reach the robot. *)
Lemma l_C31_environment_update_reaches_robot_refuted :
  forall r, exists e' l, env_set_rects (rb_env r) [[0; 0; 1; 1]; [5; 5; 1; 1]] "center" 0 = (e', Ok l) /\
    let r' := mkRobot (rb_kind r) (rb_p r) e' (rb_x0 r) (rb_xg r) (rb_circ r) (rb_rect r)
                (rb_amax r) (rb_omax r) (rb_len r) (rb_front r) (rb_rear r) in
    (length (rb_rect r) <> 2)%nat -> rb_rect r' <> e_rects (rb_env r').
Proof.
  intros r. eexists; eexists. split; [reflexivity|]. cbn. intros Hl E. rewrite E in Hl. cbn in Hl. congruence.
Qed.

(** ** C32 *)

Lemma convert_rect_ok : forall mode pad obs,
  (length obs = 4%nat \/ length obs = 5%nat) -> (mode = "left-top" \/ mode = "center") ->
  exists o, convert_rect mode pad obs = Ok o.
Proof.
  intros mode pad obs Hl Hm. destruct obs as [|a [|b [|c [|d [|f [|g obs]]]]]]; cbn in Hl; try lia;
    destruct Hm as [-> | ->]; eexists; reflexivity.
Qed.
Lemma convert_rect_bad : forall mode pad obs,
  (length obs <> 4%nat /\ length obs <> 5%nat) \/ (mode <> "left-top" /\ mode <> "center") ->
  convert_rect mode pad obs = Err ValueError.
Proof.
  intros mode pad obs H. destruct obs as [|a [|b [|c [|d [|f [|g obs]]]]]]; cbn in H; try reflexivity;
    (destruct H as [[H1 H2]|[H1 H2]]; [try congruence|]);
    unfold convert_rect; destruct (String.eqb_spec mode "left-top"), (String.eqb_spec mode "center"); congruence.
Qed.

Lemma convert_all_err : forall {A B} (f : A -> Res B) l e,
  (forall x, In x l -> f x = Err e \/ exists y, f x = Ok y) -> (exists x, In x l /\ f x = Err e) ->
  convert_all f l = Err e.
Proof.
  intros A B f l e. induction l as [|x l IH]; intros H [z [Hz Ez]]; [contradiction|]. cbn.
  destruct (H x (or_introl eq_refl)) as [->|[y Ey]]; [reflexivity|]. rewrite Ey.
  rewrite IH; [reflexivity| |].
  - intros a Ha. apply H. right; exact Ha.
  - destruct Hz as [<-|Hz]; [congruence|]. eauto.
Qed.

(** set_rectangle_obs raises ValueError exactly when some entry does not have four or five numbers
    or (with a non-empty list) the mode is unknown; the robot and its environment are then
    unchanged. In all other cases it succeeds. *)
Lemma l_C32_rectangles :
  forall r l mode pad,
  ((exists obs, In obs l /\ length obs <> 4%nat /\ length obs <> 5%nat) \/
   (l <> [] /\ mode <> "left-top" /\ mode <> "center") ->
     set_rectangle_obs r l mode pad = (r, Err ValueError)) /\
  (~ ((exists obs, In obs l /\ length obs <> 4%nat /\ length obs <> 5%nat) \/
      (l <> [] /\ mode <> "left-top" /\ mode <> "center")) ->
     exists r', set_rectangle_obs r l mode pad = (r', Ok tt)).
Proof.
  intros r l mode pad. split.
  - intros H. unfold set_rectangle_obs, env_set_rects.
    rewrite (convert_all_err (convert_rect mode pad) l ValueError).
    + destruct r; reflexivity.
    + intros obs Hobs. 
      destruct (String.eqb_spec mode "left-top") as [E|E];
        [|destruct (String.eqb_spec mode "center") as [E'|E']; [|left; apply convert_rect_bad; auto]].
      * destruct (Nat.eq_dec (length obs) 4); [right; apply convert_rect_ok; auto|].
        destruct (Nat.eq_dec (length obs) 5); [right; apply convert_rect_ok; auto|]. left. apply convert_rect_bad; auto.
      * destruct (Nat.eq_dec (length obs) 4); [right; apply convert_rect_ok; auto|].
        destruct (Nat.eq_dec (length obs) 5); [right; apply convert_rect_ok; auto|]. left. apply convert_rect_bad; auto.
    + destruct H as [(obs & H1 & H2)|(H1 & H2)].
      * exists obs. split; [exact H1|]. apply convert_rect_bad; auto.
      * destruct l as [|obs l]; [congruence|]. exists obs. split; [left; reflexivity|]. apply convert_rect_bad; auto.
  - intros H. unfold set_rectangle_obs, env_set_rects.
    destruct (convert_all_ok (convert_rect mode pad) l) as [ys ->]; [|eexists; reflexivity].
    intros obs Hobs. apply convert_rect_ok.
    + destruct (Nat.eq_dec (length obs) 4); [auto|]. destruct (Nat.eq_dec (length obs) 5); [auto|].
      exfalso. apply H. left. eauto.
    + destruct (String.eqb_spec mode "left-top"); [auto|]. destruct (String.eqb_spec mode "center"); [auto|].
      exfalso. apply H. right. split; [intros ->; contradiction|auto].
Qed.

(** The same for circles, which need three numbers. *)
Lemma l_C32_circles :
  forall r l pad,
  ((exists obs, In obs l /\ length obs <> 3%nat) -> set_circle_obs r l pad = (r, Err ValueError)) /\
  ((forall obs, In obs l -> length obs = 3%nat) -> exists r', set_circle_obs r l pad = (r', Ok tt)).
Proof.
  intros r l pad.
  assert (Hok : forall obs, length obs = 3%nat -> exists c, convert_circle pad obs = Ok c).
  { intros obs H. destruct obs as [|a [|b [|c [|d obs]]]]; cbn in H; try lia. eexists; reflexivity. }
  assert (Hbad : forall obs, length obs <> 3%nat -> convert_circle pad obs = Err ValueError).
  { intros obs H. destruct obs as [|a [|b [|c [|d obs]]]]; cbn in H; try reflexivity; lia. }
  split.
  - intros (obs & H1 & H2). unfold set_circle_obs, env_set_circles.
    rewrite (convert_all_err (convert_circle pad) l ValueError).
    + destruct r; reflexivity.
    + intros o _. destruct (Nat.eq_dec (length o) 3); [right; auto|left; auto].
    + eauto.
  - intros H. unfold set_circle_obs, env_set_circles.
    destruct (convert_all_ok (convert_circle pad) l) as [ys ->]; [|eexists; reflexivity]. intros; apply Hok; auto.
Qed.

(** The second entry is malformed: the first one is not installed either. *)
Lemma x_C32_second_bad :
  forall r, set_rectangle_obs r [[1; 2; 3; 4]; [1; 2; 3]] "center" 0 = (r, Err ValueError).
Proof. intros []. reflexivity. Qed.

(** ** C33 *)

Lemma as_requested_params : forall g N, as_requested g (params_of (kwargs g) N).
Proof. intros. unfold as_requested. repeat split. Qed.

(** The object returned by get_env has the class selected by (name, num_trailers), the requested
    number of trailers, and every attribute equal to the requested parameter. *)
Lemma l_C33_class_and_parameters :
  forall g r, get_env g = Ok r ->
  as_requested g (rb_p r) /\
  (rb_kind r = KBK <-> (g_name g = "tt2d" /\ g_trailers g = 0%Z) \/ g_name g = "kinematic_bicycle2d") /\
  (rb_kind r = KNT <-> (g_name g = "tt2d" \/ g_name g = "n_trailer2d") /\ (2 <= g_trailers g)%Z) /\
  (rb_kind r = KTT <-> g_name g = "tt2d" /\ g_trailers g <> 0%Z /\ (g_trailers g < 2)%Z) /\
  (rb_kind r = KACC <-> g_name g = "acc_tt2d") /\
  (rb_kind r = KNT -> Z.of_nat (p_num_trailers (rb_p r)) = g_trailers g /\
     length (rb_len r) = p_num_trailers (rb_p r) /\ length (rb_front r) = p_num_trailers (rb_p r) /\
     length (rb_rear r) = p_num_trailers (rb_p r)) /\
  (rb_kind r <> KNT -> p_num_trailers (rb_p r) = 1%nat) /\
  (rb_kind r = KACC -> rb_amax r = g_amax g /\ rb_omax r = g_omax g) /\
  (forall e, g_env g = Some e -> rb_env r = e).
Proof.
  intros g r H.
  assert (Henv : forall kd N r0, tt_init kd (kwargs g) N = Ok r0 -> forall e, g_env g = Some e -> rb_env r0 = e).
  { intros kd N r0 E e He. unfold tt_init in E. cbn [kwargs k_env] in E. rewrite He in E.
    destruct (initial_x0 _ _); [|discriminate]. destruct (initial_xg _ _); [|discriminate]. injection E as <-. reflexivity. }
  apply get_env_inv in H as [[H Hn]|[[H [HN Hn]]|[[H Hn]|[H Hn]]]].
  - unfold bk_init in H. destruct (tt_init KBK (kwargs g) 1) as [r0|] eqn:E; [|discriminate]. injection H as <-.
    pose proof (Henv _ _ _ E) as He.
    destruct (tt_init_fields _ _ _ _ E eq_refl eq_refl) as (H1 & H2 & _ & _ & _).
    cbn [set_x0 set_xg rb_kind rb_p rb_env]. rewrite H1, H2.
    split; [apply as_requested_params|].
    split; [split; auto|].
    do 3 (split; [split; [discriminate|intros X; exfalso; destruct Hn as [[A B]|A]; rewrite A in X; try rewrite B in X; intuition (discriminate || lia || congruence)]|]).
    repeat split; try discriminate. exact He.
  - unfold nt_init in H. destruct (Z.leb 2 (g_trailers g)); [|discriminate].
    destruct (tt_init KNT (kwargs g) (Z.to_nat (g_trailers g))) as [r0|] eqn:E; [|discriminate].
    pose proof (Henv _ _ _ E) as He.
    destruct (tt_init_fields _ _ _ _ E eq_refl eq_refl) as (H1 & H2 & _ & _ & _).
    destruct (rb_x0 r0), (rb_xg r0); try discriminate. injection H as <-.
    cbn [rb_kind rb_p rb_env rb_len rb_front rb_rear]. rewrite H2.
    split; [apply as_requested_params|].
    split; [split; [discriminate|intros X; exfalso; destruct Hn as [A|A]; rewrite A in X; intuition (discriminate || lia)]|].
    split; [split; auto|].
    split; [split; [discriminate|intros X; exfalso; lia]|].
    split; [split; [discriminate|intros X; exfalso; destruct Hn as [A|A]; rewrite A in X; discriminate]|].
    split.
    { intros _. cbn [params_of p_num_trailers]. unfold nt_default_lengths, nt_default_front, nt_default_rear.
      cbn [params_of p_num_trailers]. rewrite ?app_length, !repeat_length. cbn [length]. lia. }
    split; [congruence|]. split; [discriminate|]. exact He.
  - pose proof (Henv _ _ _ H) as He.
    destruct (tt_init_fields _ _ _ _ H eq_refl eq_refl) as (H1 & H2 & _ & _ & _).
    rewrite H1, H2. destruct Hn as (A & B & C).
    split; [apply as_requested_params|].
    split; [split; [discriminate|intros X; exfalso; rewrite A in X; intuition (discriminate || lia)]|].
    split; [split; [discriminate|intros X; exfalso; lia]|].
    split; [split; auto|].
    split; [split; [discriminate|intros X; exfalso; rewrite A in X; discriminate]|].
    repeat split; try discriminate. exact He.
  - unfold acc_init in H. destruct (tt_init KACC (kwargs g) 1) as [r0|] eqn:E; [|discriminate].
    pose proof (Henv _ _ _ E) as He.
    destruct (Reqb _ _); [discriminate|]. injection H as <-.
    destruct (tt_init_fields _ _ _ _ E eq_refl eq_refl) as (H1 & H2 & _ & _ & _).
    cbn [rb_kind rb_p rb_env rb_amax rb_omax]. rewrite H2.
    split; [apply as_requested_params|].
    do 3 (split; [split; [discriminate|intros X; exfalso; rewrite Hn in X; intuition (discriminate)]|]).
    repeat split; try discriminate; auto.
Qed.

(** The trailers of an N-trailer robot: every trailer has the requested length and front overhang; the last one
    has the requested trailer rear overhang, and every trailer before it the tractor's rear overhang. *)
Lemma l_C33_trailer_arrays :
  forall g r i, get_env g = Ok r -> rb_kind r = KNT -> (Z.of_nat i < g_trailers g)%Z ->
  nth_error (rb_len r) i = Some (g_l2 g) /\ nth_error (rb_front r) i = Some (g_lf2 g) /\
  nth_error (rb_rear r) i = Some (if Z.eqb (Z.of_nat i + 1) (g_trailers g) then g_lr2 g else g_lr g).
Proof.
  intros g r i H Hk Hi.
  assert (NR : forall (x : R) n j, (j < n)%nat -> nth_error (repeat x n) j = Some x).
  { intros x n. induction n; intros [|j] Hj; cbn; try lia; auto. apply IHn. lia. }
  destruct (l_C33_class_and_parameters g r H) as (_ & _ & [Hn _] & _). destruct (Hn Hk) as (_ & H2). clear Hn.
  apply get_env_inv in H as [[H Hn]|[[H [HN Hn]]|[[H Hn]|[H Hn]]]].
  - exfalso. unfold bk_init in H. destruct (tt_init KBK (kwargs g) 1) as [r0|] eqn:E; [|discriminate]. injection H as <-.
    destruct (tt_init_fields _ _ _ _ E eq_refl eq_refl) as (H1 & _). cbn [set_x0 set_xg rb_kind] in Hk. congruence.
  - unfold nt_init in H. destruct (Z.leb 2 (g_trailers g)); [|discriminate].
    destruct (tt_init KNT (kwargs g) (Z.to_nat (g_trailers g))) as [r0|] eqn:E; [|discriminate].
    destruct (tt_init_fields _ _ _ _ E eq_refl eq_refl) as (_ & H3 & _ & _ & _).
    destruct (rb_x0 r0), (rb_xg r0); try discriminate. injection H as <-.
    cbn [rb_len rb_front rb_rear]. rewrite H3. unfold nt_default_lengths, nt_default_front, nt_default_rear.
    cbn [params_of p_num_trailers p_l2 p_lf2 p_lr p_lr2 kwargs k_l2 k_lf2 k_lr k_lr2].
    rewrite !NR by lia. split; [reflexivity|]. split; [reflexivity|].
    destruct (Z.eqb_spec (Z.of_nat i + 1) (g_trailers g)) as [e|ne].
    + rewrite nth_error_app2 by (rewrite repeat_length; lia). rewrite repeat_length.
      replace (i - (Z.to_nat (g_trailers g) - 1))%nat with 0%nat by lia. reflexivity.
    + rewrite nth_error_app1 by (rewrite repeat_length; lia). apply NR. lia.
  - exfalso. destruct (tt_init_fields _ _ _ _ H eq_refl eq_refl) as (H1 & _). congruence.
  - exfalso. unfold acc_init in H. destruct (tt_init KACC (kwargs g) 1) as [r0|] eqn:E; [|discriminate].
    destruct (Reqb _ _); [discriminate|]. injection H as <-. discriminate.
Qed.

(** A hitch chain of three trailers: tractor overhang, tractor overhang, trailer overhang. *)
Lemma x_C33_three_trailers :
  exists r, get_env (default_env_args "n_trailer2d" "navigation" 3) = Ok r /\ rb_kind r = KNT /\
  rb_rear r = [g_lr (default_env_args "n_trailer2d" "navigation" 3); g_lr (default_env_args "n_trailer2d" "navigation" 3);
               g_lr2 (default_env_args "n_trailer2d" "navigation" 3)].
Proof. eexists. split; [reflexivity|]. split; reflexivity. Qed.

(** Unknown names raise ValueError; n_trailer2d with fewer than two trailers raises AssertionError. *)
Lemma l_C33_errors :
  forall g,
  (g_name g <> "tt2d" -> g_name g <> "n_trailer2d" -> g_name g <> "acc_tt2d" -> g_name g <> "kinematic_bicycle2d" ->
     get_env g = Err ValueError) /\
  (g_name g = "n_trailer2d" -> (g_trailers g < 2)%Z -> get_env g = Err AssertionError).
Proof.
  intros g. unfold get_env, nt_init. split.
  - intros. destruct (String.eqb_spec (g_name g) "tt2d"), (String.eqb_spec (g_name g) "n_trailer2d"),
      (String.eqb_spec (g_name g) "acc_tt2d"), (String.eqb_spec (g_name g) "kinematic_bicycle2d"); congruence.
  - intros -> H. cbn. destruct (Z.leb_spec 2 (g_trailers g)); [lia|reflexivity].
Qed.

(** Without a custom Env object, in either scenario and with a_max <> 0, every known name gives a
    robot. *)
Lemma l_C33_succeeds :
  forall g, g_env g = None -> g_case g = "parking" \/ g_case g = "navigation" ->
  g_name g = "tt2d" \/ (g_name g = "n_trailer2d" /\ (2 <= g_trailers g)%Z) \/
  (g_name g = "acc_tt2d" /\ g_amax g <> 0) \/ g_name g = "kinematic_bicycle2d" ->
  exists r, get_env g = Ok r.
Proof.
  intros g He Hc Hn.
  assert (Hi : forall kd N, exists r, tt_init kd (kwargs g) N = Ok r /\ rb_x0 r <> None /\ rb_xg r <> None).
  { intros kd N. unfold tt_init, initial_x0, initial_xg. cbn [kwargs k_env k_case k_x0 k_xg]. rewrite He.
    destruct Hc as [-> | ->]; (eexists; split; [reflexivity|]; split; discriminate). }
  unfold get_env. destruct Hn as [->|[[-> HN]|[[-> Ha]| ->]]]; cbn [String.eqb Ascii.eqb Bool.eqb].
  - destruct (Z.eqb (g_trailers g) 0).
    { unfold bk_init. destruct (Hi KBK 1%nat) as (r & -> & _). eexists; reflexivity. }
    destruct (Z.leb 2 (g_trailers g)) eqn:E.
    { unfold nt_init. rewrite E. destruct (Hi KNT (Z.to_nat (g_trailers g))) as (r & -> & H1 & H2).
      destruct (rb_x0 r), (rb_xg r); try congruence. eexists; reflexivity. }
    destruct (Hi KTT 1%nat) as (r & -> & _). eexists; reflexivity.
  - unfold nt_init. destruct (Z.leb_spec 2 (g_trailers g)); [|lia].
    destruct (Hi KNT (Z.to_nat (g_trailers g))) as (r & -> & H1 & H2).
    destruct (rb_x0 r), (rb_xg r); try congruence. eexists; reflexivity.
  - unfold acc_init. destruct (Hi KACC 1%nat) as (r & -> & _). unfold Reqb. destruct (Req_EM_T (g_amax g) 0); [contradiction|].
    eexists; reflexivity.
  - unfold bk_init. destruct (Hi KBK 1%nat) as (r & -> & _). eexists; reflexivity.
Qed.

(** A negative trailer count is not rejected for tt2d: it gives the one-trailer class. *)
Lemma l_C33_negative_trailers_rejected_refuted :
  exists r, get_env (default_env_args "tt2d" "parking" (-3)) = Ok r /\ rb_kind r = KTT /\ p_num_trailers (rb_p r) = 1%nat.
Proof. eexists; repeat split. Qed.
