(** * ProofsRobots: the three kinematic classes are instances of ProofsKin. *)
From Verif Require Import Base BaseFacts Params Geom TT2d Bicycle NTrailer SpecGeom SpecBodies SpecDyn
  Rollout Planner Instances ProofsGeom ProofsBodies ProofsKin.

Definition enabled_bad {Q : Type} (p : params) (coll hitch : Q -> bool) (q : Q) : bool :=
  (p_sh_coll p && coll q) || (p_sh_hitch p && hitch q).

Lemma shield_dispatch {Q : Type} p (coll hitch : Q -> bool) (q qp : Q) :
  (if p_sh_coll p || p_sh_hitch p then shielded_rollout p coll hitch q qp
   else step_without_shield coll hitch qp)
  = ((if enabled_bad p coll hitch qp then q else qp), coll qp, hitch qp).
Proof.
  unfold shielded_rollout, step_without_shield, enabled_bad, where_.
  destruct (p_sh_coll p), (p_sh_hitch p), (coll qp), (hitch qp); reflexivity.
Qed.

(** ** Tractor-trailer *)
Lemma tt_euler_plain p q a : tt_euler p q (input_scaler p a) = tt_plain p q a.
Proof.
  unfold tt_euler, euler, tt_plain, tt_axpy, tt_dyn, input_scaler. destruct a as [a1 a2]; cbn [fst snd t_px t_py t_th1 t_th2].
  f_equal; unfold Rdiv; ring.
Qed.

Definition tt_bad (s : tt_self) : ttq -> bool := enabled_bad (ts_p s) (ts_coll s) (ts_hitch s).

(** Full description of one step in shield mode. *)
Lemma tt_step_shield s proj guide viz st a :
  p_proj (ts_p s) = false -> p_guid (ts_p s) = false ->
  let act := where_ (st_bak st) (0, 0) (clip_act a) in
  let qp := tt_plain (ts_p s) (st_q st) act in
  let qf := if tt_bad s qp then st_q st else qp in
  let app := where_ (st_bak st || tt_bad s qp) (0, 0) (clip_act a) in
  tt_step_internal s proj guide viz st a =
  mkState qf qf
    (step_reward (ts_p s) (tt_reward s qf) (ts_coll s qp) (ts_hitch s qp)
       (preference_penalty (ts_p s) (fst app * p_vmax (ts_p s))))
    0 app (st_bak st).
Proof.
  intros Hp Hg. unfold tt_step_internal, tt_step_with. rewrite Hp, Hg. cbv zeta. rewrite tt_euler_plain.
  rewrite shield_dispatch. unfold tt_bad, enabled_bad. reflexivity.
Qed.

Lemma tt_plain_zero p q : tt_plain p q (0, 0) = q.
Proof.
  unfold tt_plain; cbn [fst snd]. rewrite !Rmult_0_l. destruct q; cbn.
  f_equal; unfold Rdiv; ring.
Qed.

Lemma tt_kinematic s proj guide viz : p_proj (ts_p s) = false -> p_guid (ts_p s) = false ->
  kinematic (tt_step_internal s proj guide viz) (tt_plain (ts_p s)) (tt_bad s) (fun _ => True).
Proof.
  intros Hp Hg. constructor.
  - intros st a Hb _. rewrite tt_step_shield by auto. rewrite Hb. reflexivity.
  - intros st a Hb _. rewrite tt_step_shield by auto. rewrite Hb. reflexivity.
  - intros st a. rewrite tt_step_shield by auto. reflexivity.
  - intros st st' a E1 E2. rewrite !tt_step_shield by auto. rewrite E1, E2. reflexivity.
  - intros q _. apply tt_plain_zero.
  - auto.
Qed.

Lemma tt_viz_same s proj guide viz st a : p_proj (ts_p s) = false -> p_guid (ts_p s) = false ->
  tt_step_internal s proj guide viz st a = tt_step s proj guide st a.
Proof. intros. unfold tt_step. rewrite !tt_step_shield by auto. reflexivity. Qed.

Lemma tt_coll_false_clear s q : tt_sized (ts_p s) -> ts_coll s q = false -> tt_clear (ts_p s) (ts_circ s) (ts_rect s) q.
Proof.
  intros Hs H. unfold ts_coll in H. rewrite tt_coll_bodies in H. apply bodies_hit_false_clear; auto.
  apply tt_bodies_sized; auto.
Qed.
Lemma tt_clear_coll_false s q : tt_sized (ts_p s) -> proper_obstacles (ts_circ s) (ts_rect s) ->
  tt_clear (ts_p s) (ts_circ s) (ts_rect s) q -> ts_coll s q = false.
Proof.
  intros Hs Ho H. unfold ts_coll. rewrite tt_coll_bodies. apply clear_bodies_hit_false; auto.
  apply tt_bodies_sized; auto.
Qed.
Lemma tt_not_bad_safe s q : tt_sized (ts_p s) -> p_sh_coll (ts_p s) = true -> p_sh_hitch (ts_p s) = true ->
  tt_bad s q = false -> tt_safe (ts_p s) (ts_circ s) (ts_rect s) q.
Proof.
  intros Hs H1 H2. unfold tt_bad, enabled_bad. rewrite H1, H2. cbn [andb]. rewrite orb_false_iff.
  intros [Hc Hh]. split; [apply tt_coll_false_clear; auto|]. apply tt_hitch_iff; auto.
Qed.

(** ** Bicycle *)
Lemma bk_euler_plain p q a : bk_euler p q (input_scaler p a) = bk_plain p q a.
Proof.
  unfold bk_euler, euler, bk_plain, bk_axpy, bk_dyn, input_scaler. destruct a as [a1 a2]; reflexivity.
Qed.
Definition bk_bad (s : bk_self) : bkq -> bool := enabled_bad (bs_p s) (bs_coll s) bk_hitch.
Lemma bk_step_shield s proj guide viz st a :
  p_proj (bs_p s) = false -> p_guid (bs_p s) = false ->
  let act := where_ (st_bak st) (0, 0) (clip_act a) in
  let qp := bk_plain (bs_p s) (st_q st) act in
  let qf := if bk_bad s qp then st_q st else qp in
  let app := where_ (st_bak st || bk_bad s qp) (0, 0) (clip_act a) in
  bk_step_internal s proj guide viz st a =
  mkState qf qf
    (step_reward (bs_p s) (bk_reward s qf) (bs_coll s qp) false
       (preference_penalty (bs_p s) (fst app * p_vmax (bs_p s))))
    0 app (st_bak st).
Proof.
  intros Hp Hg. unfold bk_step_internal, bk_step_with. rewrite Hp, Hg. cbv zeta. rewrite bk_euler_plain.
  rewrite shield_dispatch. unfold bk_bad, enabled_bad. reflexivity.
Qed.
Lemma bk_plain_zero p q : bk_plain p q (0, 0) = q.
Proof.
  unfold bk_plain; cbn [fst snd]. rewrite !Rmult_0_l. destruct q; cbn.
  f_equal; unfold Rdiv; ring.
Qed.
Lemma bk_kinematic s proj guide viz : p_proj (bs_p s) = false -> p_guid (bs_p s) = false ->
  kinematic (bk_step_internal s proj guide viz) (bk_plain (bs_p s)) (bk_bad s) (fun _ => True).
Proof.
  intros Hp Hg. constructor.
  - intros st a Hb _. rewrite bk_step_shield by auto. rewrite Hb. reflexivity.
  - intros st a Hb _. rewrite bk_step_shield by auto. rewrite Hb. reflexivity.
  - intros st a. rewrite bk_step_shield by auto. reflexivity.
  - intros st st' a E1 E2. rewrite !bk_step_shield by auto. rewrite E1, E2. reflexivity.
  - intros q _. apply bk_plain_zero.
  - auto.
Qed.
Lemma bk_coll_false_clear s q : tractor_sized (bs_p s) -> bs_coll s q = false -> bk_safe (bs_p s) (bs_circ s) (bs_rect s) q.
Proof.
  intros Hs H. unfold bs_coll in H. rewrite bk_coll_bodies in H. apply bodies_hit_false_clear; auto.
  apply bk_bodies_sized; auto.
Qed.
Lemma bk_not_bad_safe s q : tractor_sized (bs_p s) -> p_sh_coll (bs_p s) = true ->
  bk_bad s q = false -> bk_safe (bs_p s) (bs_circ s) (bs_rect s) q.
Proof.
  intros Hs H1. unfold bk_bad, enabled_bad. rewrite H1. cbn [andb]. rewrite orb_false_iff.
  intros [Hc _]. apply bk_coll_false_clear; auto.
Qed.

(** ** N trailers *)
Lemma nt_dyn_fold s v delta thetas m : forall k acc,
  (k + m = length thetas)%nat -> length (ns_len s) = length thetas ->
  (k = 0%nat -> k_speed acc = v /\ k_dot acc = v / p_l1 (ns_p s) * tan delta) ->
  forall dt,
  map2 (fun a b => a + dt * b) (skipn k thetas)
    (skipn (length (k_dots acc)) (k_dots (fold_left (nt_dyn_body s v delta (v / p_l1 (ns_p s) * tan delta) thetas) (seq k m) acc)))
  = trail dt (p_lh (ns_p s)) (k_speed acc) (k_dot acc) (k_theta acc) (skipn k thetas) (skipn k (ns_len s))
  /\ exists tail, k_dots (fold_left (nt_dyn_body s v delta (v / p_l1 (ns_p s) * tan delta) thetas) (seq k m) acc) = k_dots acc ++ tail
      /\ length tail = m.
Proof.
  induction m; intros k acc Hk HL H0 dt.
  - cbn [seq fold_left]. rewrite (skipn_all2 thetas) by lia. cbn. split; auto. exists []. rewrite app_nil_r; auto.
  - cbn [seq fold_left].
    set (acc' := nt_dyn_body s v delta (v / p_l1 (ns_p s) * tan delta) thetas acc k).
    destruct (IHm (S k) acc') with (dt := dt) as [E (tail & Et & Hlen)]; try lia; auto.
    rewrite Et in E |- *.
    unfold acc' in E |- *. unfold nt_dyn_body in E |- *. rewrite !jget_nth in * by lia.
    cbn [k_dots k_speed k_dot k_theta] in E |- *.
    assert (Espeed : forall x y : R, (k <> 0%nat -> x = y) -> where_ (Nat.eqb k 0) y x = y).
    { intros x y Hxy. unfold where_. destruct (Nat.eqb_spec k 0); auto. }
    set (th := nth k thetas 0) in *. set (L := nth k (ns_len s) 0) in *.
    set (d := k_theta acc - th) in *.
    assert (E1 : where_ (Nat.eqb k 0)
         (v / L * (sin d - p_lh (ns_p s) / p_l1 (ns_p s) * cos d * tan delta))
         (k_speed acc / L * sin d - p_lh (ns_p s) / L * k_dot acc * cos d)
       = (k_speed acc * sin d - p_lh (ns_p s) * k_dot acc * cos d) / L).
    { unfold where_. destruct (Nat.eqb_spec k 0) as [Ek|Ek].
      - destruct (H0 Ek) as [-> ->]. unfold Rdiv; ring.
      - unfold Rdiv; ring. }
    assert (E2 : where_ (Nat.eqb k 0)
         (v * cos d + p_lh (ns_p s) * (v / p_l1 (ns_p s) * tan delta) * sin d)
         (k_speed acc * cos d + p_lh (ns_p s) * k_dot acc * sin d)
       = k_speed acc * cos d + p_lh (ns_p s) * k_dot acc * sin d).
    { unfold where_. destruct (Nat.eqb_spec k 0) as [Ek|Ek]; auto.
      destruct (H0 Ek) as [-> ->]. reflexivity. }
    rewrite E1, E2 in *.
    split.
    + rewrite (skipn_nth_cons thetas k), (skipn_nth_cons (ns_len s) k) by lia. fold th L.
      cbn [trail]. fold d. rewrite app_length in E. cbn [length] in E.
      rewrite <- app_assoc, skipn_app, skipn_all, Nat.sub_diag, skipn_O. cbn [app map2]. f_equal.
      rewrite <- E. f_equal. rewrite skipn_app, skipn_all2, app_length by (rewrite app_length; simpl; lia). cbn [length].
      rewrite Nat.sub_diag. reflexivity.
    + eexists. split; [rewrite <- app_assoc; reflexivity|]. simpl. lia.
Qed.

Lemma nt_euler_plain s q a : length (n_ths q) = ns_N s -> length (ns_len s) = ns_N s ->
  nt_euler s q (input_scaler (ns_p s) a) = nt_plain s q a.
Proof.
  intros H1 H2. unfold nt_euler, euler, nt_plain, nt_axpy, nt_dyn, input_scaler. destruct a as [a1 a2].
  cbn [fst snd n_px n_py n_th0 n_ths]. f_equal.
  set (init := mkNTC _ _ _ _).
  destruct (nt_dyn_fold s (a1 * p_vmax (ns_p s)) (a2 * p_dmax (ns_p s)) (n_ths q) (ns_N s) 0 init) with (dt := p_dt (ns_p s)) as [E _]; try lia.
  - intros _. split; reflexivity.
  - cbn [skipn length k_dots init k_speed k_dot k_theta] in E. exact E.
Qed.

Lemma trail_length dt lh ths : forall sp r th Ls, length ths = length Ls -> length (trail dt lh sp r th ths Ls) = length ths.
Proof. induction ths as [|t ths IH]; intros sp r th [|L Ls]; simpl; intros; try discriminate; auto. Qed.

Lemma trail_zero dt lh ths : forall th Ls, length ths = length Ls -> trail dt lh 0 0 th ths Ls = ths.
Proof.
  induction ths as [|t ths IH]; intros th [|L Ls]; simpl; intros H; try discriminate; auto.
  f_equal.
  - unfold Rdiv; ring.
  - replace ((0 * sin (th - t) - lh * 0 * cos (th - t)) / L) with 0 by (unfold Rdiv; ring).
    replace (0 * cos (th - t) + lh * 0 * sin (th - t)) with 0 by ring. apply IH. lia.
Qed.
Lemma nt_plain_zero s q : length (n_ths q) = ns_N s -> length (ns_len s) = ns_N s -> nt_plain s q (0, 0) = q.
Proof.
  intros H1 H2. unfold nt_plain; cbn [fst snd]. rewrite !Rmult_0_l.
  replace (0 / p_l1 (ns_p s) * tan 0) with 0 by (unfold Rdiv; ring).
  rewrite trail_zero by lia. destruct q; cbn. f_equal; ring.
Qed.

Definition nt_valid (s : nt_self) (q : ntq) : Prop := length (n_ths q) = ns_N s.
Definition nt_bad (s : nt_self) : ntq -> bool := enabled_bad (ns_p s) (ns_coll s) (nt_hitch s).
Lemma nt_plain_valid s q a : length (ns_len s) = ns_N s -> nt_valid s q -> nt_valid s (nt_plain s q a).
Proof. unfold nt_valid, nt_plain. cbn [n_ths]. intros. rewrite trail_length; lia. Qed.

Lemma nt_step_shield s guide viz st a :
  p_guid (ns_p s) = false -> length (ns_len s) = ns_N s -> nt_valid s (st_q st) ->
  let act := where_ (st_bak st) (0, 0) (clip_act a) in
  let qp := nt_plain s (st_q st) act in
  let qf := if nt_bad s qp then st_q st else qp in
  let app := where_ (st_bak st || nt_bad s qp) (0, 0) (clip_act a) in
  nt_step_core s guide viz st a =
  mkState qf qf
    (step_reward (ns_p s) (nt_reward s qf) (ns_coll s qp) (nt_hitch s qp)
       (preference_penalty (ns_p s) (fst act * p_vmax (ns_p s))))
    0 app (st_bak st).
Proof.
  intros Hg HL Hv. unfold nt_step_core, nt_step_with. rewrite Hg. cbv zeta. rewrite nt_euler_plain by auto.
  rewrite shield_dispatch. unfold nt_bad, enabled_bad. reflexivity.
Qed.

Lemma nt_step_bak s guide viz st a : st_bak (nt_step_core s guide viz st a) = st_bak st.
Proof. unfold nt_step_core, nt_step_with. destruct (p_guid (ns_p s)), (p_sh_coll (ns_p s) || p_sh_hitch (ns_p s)); reflexivity. Qed.

Lemma nt_step_rew s guide viz st st' a : st_bak st = st_bak st' -> st_q st = st_q st' ->
  nt_step_core s guide viz st a = nt_step_core s guide viz st' a.
Proof. intros E1 E2. unfold nt_step_core, nt_step_with. rewrite E1, E2. reflexivity. Qed.

Lemma nt_kinematic s guide viz : p_guid (ns_p s) = false -> length (ns_len s) = ns_N s ->
  kinematic (nt_step_core s guide viz) (nt_plain s) (nt_bad s) (nt_valid s).
Proof.
  intros Hg HL. constructor.
  - intros st a Hb Hv. rewrite nt_step_shield by auto. rewrite Hb. reflexivity.
  - intros st a Hb Hv. rewrite nt_step_shield by auto. rewrite Hb. reflexivity.
  - intros st a. apply nt_step_bak.
  - intros st st' a E1 E2. rewrite (nt_step_rew s guide viz st st' a); auto.
  - intros q Hv. apply nt_plain_zero; auto.
  - intros q a Hv. apply nt_plain_valid; auto.
Qed.
Lemma nt_coll_false_clear s q : nt_sized s -> nt_valid s q -> ns_coll s q = false -> nt_clear s q.
Proof.
  intros Hs Hv H. rewrite nt_coll_bodies in H by auto. apply bodies_hit_false_clear; auto.
  apply nt_bodies_sized; auto.
Qed.
Lemma nt_not_bad_safe s q : nt_sized s -> (1 <= ns_N s)%nat -> nt_valid s q ->
  p_sh_coll (ns_p s) = true -> p_sh_hitch (ns_p s) = true ->
  nt_bad s q = false -> nt_safe s q.
Proof.
  intros Hs HN Hv H1 H2. unfold nt_bad, enabled_bad. rewrite H1, H2. cbn [andb]. rewrite orb_false_iff.
  intros [Hc Hh]. split; [apply nt_coll_false_clear; auto|]. apply nt_hitch_iff; auto.
Qed.
