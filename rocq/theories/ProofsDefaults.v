(** * ProofsDefaults: start and goal poses a robot has before any setter is called, and the bounds
    test of the environment (C57). *)
From Coq Require Import String.
From Verif Require Import Base BaseFacts Params EnvModel Setup SpecGeom SpecBodies SpecAcc SpecEnv TT2d Bicycle
  NTrailer Acc Instances ProofsGeom ProofsBodies ProofsRobots ProofsSafety ProofsAcc ProofsEnv ProofsSetup SpecDefaults.
Local Open Scope string_scope.
Local Open Scope list_scope.
Open Scope R_scope.

Lemma init_poses : forall kd k N r, tt_init kd k N = Ok r -> k_x0 k = None -> k_xg k = None ->
  (k_case k = "parking" -> exists c n rest gx gy,
     e_parking (rb_env r) = Some c /\ pk_tgt c = n :: rest /\ get_parking_space_center (rb_env r) n = Ok (gx, gy) /\
     rb_x0 r = Some [fst (e_xr (rb_env r)) + 2; snd (e_yr (rb_env r)) - 2; 1/10; 1/10] /\
     rb_xg r = Some [gx; gy; - PI / 2; - PI / 2]) /\
  (k_case k = "navigation" -> rb_x0 r = Some [0; 0; 0; 0] /\ rb_xg r = Some [0; 0; PI; PI]).
Proof.
  intros kd k N r H Hx Hg. unfold tt_init in H.
  destruct (match k_env k with Some e => Ok e | None => _ end) as [e|x]; [|discriminate].
  destruct (initial_x0 k e) as [x0|x] eqn:E0; [|discriminate].
  destruct (initial_xg k e) as [xg|x] eqn:Eg; [|discriminate].
  injection H as <-. cbn [rb_env rb_x0 rb_xg]. unfold initial_x0 in E0. unfold initial_xg in Eg. rewrite Hx in E0. rewrite Hg in Eg.
  unfold default_init_pos, default_goal_pos in *. split; intros Hc; rewrite Hc in *; cbn [String.eqb Ascii.eqb Bool.eqb] in E0, Eg.
  - injection E0 as <-. destruct (e_parking e) as [c|] eqn:Ec; [|discriminate]. destruct (pk_tgt c) as [|n rest] eqn:Et; [discriminate|].
    destruct (get_parking_space_center e n) as [[gx gy]|] eqn:En; [|discriminate]. injection Eg as <-.
    exists c, n, rest, gx, gy. rewrite Et. auto.
  - injection E0 as <-. injection Eg as <-. auto.
Qed.

Lemma augment_pose N x y a b : (1 <= N)%nat -> augment N [x; y; a; b] = [x; y; a] ++ repeat b N.
Proof.
  intros H. unfold augment, jget. cbn [firstn length Nat.leb nth app]. destruct N as [|N]; [lia|].
  cbn [Nat.sub]. rewrite Nat.sub_0_r. reflexivity.
Qed.

(** A robot built by get_env for the parking scenario starts 2 m inside the upper left corner of
    the area with all headings 0.1, and its goal is the centre of the first target space, every
    body pointing straight down; the speed and steering components are zero. *)
Lemma l_C57_parking_defaults :
  forall g r, get_env g = Ok r -> g_case g = "parking" ->
  exists c n rest gx gy, e_parking (rb_env r) = Some c /\ pk_tgt c = n :: rest /\
    get_parking_space_center (rb_env r) n = Ok (gx, gy) /\
    rb_x0 r = Some (pose_vector r (fst (e_xr (rb_env r)) + 2) (snd (e_yr (rb_env r)) - 2) (1/10) (1/10)) /\
    rb_xg r = Some (pose_vector r gx gy (- PI / 2) (- PI / 2)).
Proof.
  intros g r H Hc. apply get_env_inv in H. destruct H as [[H _]|[[H [HN _]]|[[H _]|[H _]]]].
  - unfold bk_init in H. destruct (tt_init KBK _ _) as [r0|x] eqn:E; [|discriminate]. injection H as <-.
    destruct (init_poses _ _ _ _ E eq_refl eq_refl) as [P _]. destruct (P Hc) as (c & n & rest & gx & gy & A & B & C & D & F).
    destruct (tt_init_fields _ _ _ _ E eq_refl eq_refl) as (K & _).
    exists c, n, rest, gx, gy. unfold set_xg, set_x0, pose_vector. cbn [rb_env rb_x0 rb_xg rb_kind rb_p]. rewrite D, F, K. auto.
  - unfold nt_init in H. destruct (Z.leb 2 (g_trailers g)); [|discriminate].
    destruct (tt_init KNT _ _) as [r0|x] eqn:E; [|discriminate].
    destruct (init_poses _ _ _ _ E eq_refl eq_refl) as [P _]. destruct (P Hc) as (c & n & rest & gx & gy & A & B & C & D & F).
    destruct (tt_init_fields _ _ _ _ E eq_refl eq_refl) as (K & L & _).
    rewrite D, F in H. injection H as <-. exists c, n, rest, gx, gy. unfold pose_vector. cbn [rb_env rb_x0 rb_xg rb_kind rb_p].
    rewrite !augment_pose by lia. rewrite L. cbn [params_of p_num_trailers]. auto.
  - destruct (init_poses _ _ _ _ H eq_refl eq_refl) as [P _]. destruct (P Hc) as (c & n & rest & gx & gy & A & B & C & D & F).
    destruct (tt_init_fields _ _ _ _ H eq_refl eq_refl) as (K & _).
    exists c, n, rest, gx, gy. unfold pose_vector. rewrite K. auto.
  - unfold acc_init in H. destruct (tt_init KACC _ _) as [r0|x] eqn:E; [|discriminate]. destruct (Reqb _ 0); [discriminate|].
    destruct (init_poses _ _ _ _ E eq_refl eq_refl) as [P _]. destruct (P Hc) as (c & n & rest & gx & gy & A & B & C & D & F).
    rewrite D, F in H. injection H as <-. exists c, n, rest, gx, gy. unfold pose_vector. cbn [rb_env rb_x0 rb_xg rb_kind rb_p app]. auto.
Qed.
(** In the navigation scenario start and goal are both at the origin, the goal turned round. *)
Lemma l_C57_navigation_defaults :
  forall g r, get_env g = Ok r -> g_case g = "navigation" ->
  rb_x0 r = Some (pose_vector r 0 0 0 0) /\ rb_xg r = Some (pose_vector r 0 0 PI PI).
Proof.
  intros g r H Hc. apply get_env_inv in H. destruct H as [[H _]|[[H [HN _]]|[[H _]|[H _]]]].
  - unfold bk_init in H. destruct (tt_init KBK _ _) as [r0|x] eqn:E; [|discriminate]. injection H as <-.
    destruct (init_poses _ _ _ _ E eq_refl eq_refl) as [_ P]. destruct (P Hc) as (D & F).
    destruct (tt_init_fields _ _ _ _ E eq_refl eq_refl) as (K & _).
    unfold set_xg, set_x0, pose_vector. cbn [rb_env rb_x0 rb_xg rb_kind rb_p]. rewrite D, F, K. auto.
  - unfold nt_init in H. destruct (Z.leb 2 (g_trailers g)); [|discriminate].
    destruct (tt_init KNT _ _) as [r0|x] eqn:E; [|discriminate].
    destruct (init_poses _ _ _ _ E eq_refl eq_refl) as [_ P]. destruct (P Hc) as (D & F).
    destruct (tt_init_fields _ _ _ _ E eq_refl eq_refl) as (K & L & _).
    rewrite D, F in H. injection H as <-. unfold pose_vector. cbn [rb_env rb_x0 rb_xg rb_kind rb_p].
    rewrite !augment_pose by lia. rewrite L. cbn [params_of p_num_trailers]. auto.
  - destruct (init_poses _ _ _ _ H eq_refl eq_refl) as [_ P]. destruct (P Hc) as (D & F).
    destruct (tt_init_fields _ _ _ _ H eq_refl eq_refl) as (K & _).
    unfold pose_vector. rewrite K. auto.
  - unfold acc_init in H. destruct (tt_init KACC _ _) as [r0|x] eqn:E; [|discriminate]. destruct (Reqb _ 0); [discriminate|].
    destruct (init_poses _ _ _ _ E eq_refl eq_refl) as [_ P]. destruct (P Hc) as (D & F).
    rewrite D, F in H. injection H as <-. unfold pose_vector. cbn [rb_env rb_x0 rb_xg rb_kind rb_p app]. auto.
Qed.
(** The bounds test accepts exactly the points of the closed area of the environment. *)
Lemma l_C57_bounds_test :
  forall w h case cfg e x y, env_init w h case cfg = Ok e ->
  (is_in_bounds e x y = true <-> Rabs x <= w / 2 /\ Rabs y <= h / 2).
Proof.
  intros w h case cfg e x y H.
  assert (E : e_xr e = (- w / 2, w / 2) /\ e_yr e = (- h / 2, h / 2)).
  { unfold env_init in H. cbv zeta in H. destruct (String.eqb case "parking").
    - destruct (parking_circles _ _ _) as [cs|]; [|discriminate]. injection H as <-. auto.
    - destruct (String.eqb case "navigation"); [|discriminate]. injection H as <-. auto. }
  destruct E as [E1 E2]. unfold is_in_bounds. rewrite E1, E2. cbn [fst snd]. rewrite !Bool.andb_true_iff.
  unfold Rleb, Rabs. repeat destruct Rle_dec; repeat destruct Rcase_abs; split; intros H'; repeat split; try tauto; try lra;
    destruct H' as [H1 H2]; try lra; destruct H1, H2; discriminate.
Qed.
(** The default start of the parking scenario lies in the area iff the area is at least 2 m wide
    and 2 m high. *)
Lemma l_C57_default_start_in_area :
  forall w h cfg e, env_init w h "parking" cfg = Ok e -> 0 <= w -> 0 <= h ->
  exists x y th1 th2, default_init_pos e "parking" = Ok [x; y; th1; th2] /\
    (is_in_bounds e x y = true <-> 2 <= w /\ 2 <= h).
Proof.
  intros w h cfg e H Hw Hh. do 4 eexists. split; [reflexivity|].
  refine (iff_trans (l_C57_bounds_test w h "parking" cfg e _ _ H) _).
  unfold env_init in H. cbv zeta in H. cbn [String.eqb Ascii.eqb Bool.eqb] in H.
  destruct (parking_circles _ _ _) as [cs|]; [|discriminate]. injection H as <-. cbn [e_xr e_yr fst snd].
  unfold Rabs. repeat destruct Rcase_abs; lra.
Qed.

(** ** The default goal is safe *)
Lemma at_down : forall o a b, at_frame o (- PI / 2) a b = (fst o + b, snd o - a).
Proof.
  intros o a b. unfold at_frame. replace (- PI / 2) with (- (PI / 2)) by lra. rewrite cos_neg, sin_neg, cos_PI2, sin_PI2.
  f_equal; ring.
Qed.
Lemma ahead_down : forall P d, ahead P (- PI / 2) d = (fst P, snd P - d).
Proof.
  intros P d. unfold ahead. replace (- PI / 2) with (- (PI / 2)) by lra. rewrite cos_neg, sin_neg, cos_PI2, sin_PI2.
  f_equal; ring.
Qed.
Lemma solid_down : forall o b f h P, solid (mkRegion o (- PI / 2) b f h) P ->
  fst o - h <= fst P <= fst o + h /\ snd o - f <= snd P <= snd o - b.
Proof. intros o b f h P (x & y & Hx & Hy & ->). cbn [rg_org rg_ang rg_back rg_front rg_half] in *. rewrite at_down. cbn [fst snd]. lra. Qed.

Definition lane (g : region) : Prop := forall P, solid g P -> -65/10 <= fst P <= -4 /\ -13 <= snd P <= 14.
Lemma lane_clear : forall gs r, get_env (default_env_args "tt2d" "parking" 1) = Ok r ->
  Forall lane gs -> clear_bodies gs (rb_circ r) (rb_rect r).
Proof.
  intros gs r E H. rewrite Forall_forall in H. injection E as <-. cbn [rb_circ rb_rect]. split.
  - intros g c Hg Hc P HP. apply outline_solid' in HP. destruct (H g Hg P HP) as [Hx Hy].
    assert (Hcx : (c_x c <= -85/10 \/ -2 <= c_x c) /\ c_r c = 1).
    { cbn in Hc. repeat match type of Hc with
        | False => contradiction
        | _ => destruct Hc as [<-|Hc]; [cbn; lra|]
        end. }
    destruct (Rlt_le_dec (c_r c) (SpecGeom.dist P (c_x c, c_y c))) as [G|G]; [exact G|exfalso].
    apply disc_box in G. cbn [fst snd] in G. lra.
  - intros g o Hg Ho P [H1 H2]. destruct (H g Hg P H1) as [Hx Hy].
    cbn in Ho. destruct Ho as [<-|[<-|[]]]; destruct H2 as (a & b & Ha & Hb & ->); cbn in Ha, Hb, Hy;
      rewrite ?sin_0, ?cos_0 in Hy; lra.
Qed.
Lemma same_default_map : forall n t r, get_env (default_env_args n "parking" t) = Ok r ->
  exists r0, get_env (default_env_args "tt2d" "parking" 1) = Ok r0 /\ rb_circ r = rb_circ r0 /\ rb_rect r = rb_rect r0.
Proof.
  intros n t r H. eexists. split; [reflexivity|].
  destruct (env_init 32 32 "parking" None) as [e|x] eqn:E; [|discriminate].
  assert (M : forall kd N r1, tt_init kd (kwargs (default_env_args n "parking" t)) N = Ok r1 -> rb_circ r1 = e_circles e /\ rb_rect r1 = e_rects e).
  { intros kd N r1 H1. unfold tt_init in H1. cbn [k_env kwargs default_env_args g_env k_case g_case] in H1. rewrite E in H1.
    destruct (initial_x0 _ _); [|discriminate]. destruct (initial_xg _ _); [|discriminate]. injection H1 as <-. auto. }
  assert (G : rb_circ r = e_circles e /\ rb_rect r = e_rects e).
  { apply get_env_inv in H. destruct H as [[H _]|[[H [HN _]]|[[H _]|[H _]]]].
    - unfold bk_init in H. destruct (tt_init KBK _ _) as [r0|] eqn:E1; [|discriminate]. injection H as <-. apply M in E1. exact E1.
    - unfold nt_init in H. destruct (Z.leb 2 _); [|discriminate]. destruct (tt_init KNT _ _) as [r0|] eqn:E1; [|discriminate].
      apply M in E1. destruct (rb_x0 r0), (rb_xg r0); try discriminate. injection H as <-. exact E1.
    - apply M in H. exact H.
    - unfold acc_init in H. destruct (tt_init KACC _ _) as [r0|] eqn:E1; [|discriminate]. destruct (Reqb _ 0); [discriminate|].
      apply M in E1. injection H as <-. exact E1. }
  destruct G as [G1 G2]. rewrite G1, G2. injection E as <-. split; reflexivity.
Qed.
Lemma lane_clear' : forall n t gs r, get_env (default_env_args n "parking" t) = Ok r ->
  Forall lane gs -> clear_bodies gs (rb_circ r) (rb_rect r).
Proof.
  intros n t gs r E H. destruct (same_default_map n t r E) as (r0 & E0 & -> & ->). apply lane_clear; assumption.
Qed.
Lemma default_goal_xy : forall e, env_init 32 32 "parking" None = Ok e -> get_parking_space_center e 3 = Ok (- (8 * (35/10)) / 2 + (2 + 1/2) * (35/10), - (32) / 2 + 4 + (0 + 1/2) * 7).
Proof. intros e H. injection H as <-. reflexivity. Qed.

Ltac all_tac := repeat match goal with |- Forall _ (_ :: _) => apply Forall_cons | |- Forall _ [] => apply Forall_nil end.
Lemma default_rig : forall n r, (2 <= n)%Z -> get_env (default_env_args "n_trailer2d" "parking" n) = Ok r ->
  rb_p r = params_of (kwargs (default_env_args "n_trailer2d" "parking" n)) (Z.to_nat n) /\
  rb_len r = repeat (29/10) (Z.to_nat n) /\ rb_front r = repeat (142/100) (Z.to_nat n) /\
  rb_rear r = repeat (1848/1000) (Z.to_nat n - 1) ++ [3225/1000] /\
  rb_xg r = Some (- (8 * (35/10)) / 2 + (2 + 1/2) * (35/10) :: - (32) / 2 + 4 + (0 + 1/2) * 7 :: - PI / 2 :: repeat (- PI / 2) (Z.to_nat n)).
Proof.
  intros n r Hn H. change (nt_init (kwargs (default_env_args "n_trailer2d" "parking" n)) n = Ok r) in H.
  unfold nt_init in H. rewrite (proj2 (Z.leb_le 2 n) Hn) in H.
  destruct (tt_init KNT _ _) as [r0|] eqn:E; [|discriminate].
  destruct (tt_init_fields _ _ _ _ E eq_refl eq_refl) as (K & L & _).
  destruct (init_poses _ _ _ _ E eq_refl eq_refl) as [P _]. destruct (P eq_refl) as (c & m & rest & gx & gy & A & B & C & D & F).
  assert (En : env_init 32 32 "parking" None = Ok (rb_env r0)).
  { unfold tt_init in E. cbn [kwargs k_env k_case default_env_args g_env g_case] in E.
    destruct (env_init 32 32 "parking" None) as [e|]; [|discriminate]. destruct (initial_x0 _ _); [|discriminate].
    destruct (initial_xg _ _); [|discriminate]. injection E as <-. reflexivity. }
  assert (Ep : e_parking (rb_env r0) = Some default_parking) by (injection En as <-; reflexivity).
  rewrite Ep in A. injection A as <-. cbn [pk_tgt default_parking] in B. injection B as <- <-.
  rewrite (default_goal_xy _ En) in C. injection C as <- <-.
  rewrite D, F in H. injection H as <-. cbn [rb_p rb_len rb_front rb_rear rb_xg]. rewrite L.
  unfold nt_default_lengths, nt_default_front, nt_default_rear.
  rewrite augment_pose by lia. repeat split; reflexivity.
Qed.
Lemma default_rig_exists : forall n, (2 <= n)%Z -> exists r, get_env (default_env_args "n_trailer2d" "parking" n) = Ok r.
Proof.
  intros n Hn. change (exists r, nt_init (kwargs (default_env_args "n_trailer2d" "parking" n)) n = Ok r). unfold nt_init.
  rewrite (proj2 (Z.leb_le 2 n) Hn). eexists. reflexivity.
Qed.
Lemma down_lane : forall x y b f h, -65/10 <= x - h -> x + h <= -4 -> -13 <= y - f -> y - b <= 14 -> lane (mkRegion (x, y) (- PI / 2) b f h).
Proof. intros x y b f h H1 H2 H3 H4 P HP. apply solid_down in HP. cbn [fst snd] in HP. lra. Qed.
Ltac params_tac := cbn [fst snd rb_p p_l1 p_l2 p_lh p_lf1 p_lf2 p_lr p_lr2 p_trac_w p_trail_w params_of kwargs k_l1 k_l2 k_lh k_lf1 k_lf2 k_lr k_lr2 k_trac_w k_trail_w
   default_env_args g_l1 g_l2 g_lh g_lf1 g_lf2 g_lr g_lr2 g_trac_w g_trail_w].
Ltac down_tac := unfold tractor_body, trailer_body; rewrite ?ahead_down; params_tac; apply down_lane; lra.

(** The default goal of the default parking scenario is a safe pose for the tractor-trailer, the car
    and rigs of two and three trailers. *)
Lemma l_C57_default_goal_safe :
  (exists r q, get_env (default_env_args "tt2d" "parking" 1) = Ok r /\
     rb_xg r = Some [t_px q; t_py q; t_th1 q; t_th2 q] /\ tt_safe (rb_p r) (rb_circ r) (rb_rect r) q) /\
  (exists r q, get_env (default_env_args "kinematic_bicycle2d" "parking" 1) = Ok r /\
     rb_xg r = Some [b_px q; b_py q; b_th q] /\ bk_safe (rb_p r) (rb_circ r) (rb_rect r) q) /\
  (forall n, n = 2%Z \/ n = 3%Z -> exists r q, get_env (default_env_args "n_trailer2d" "parking" n) = Ok r /\
     rb_xg r = Some (n_px q :: n_py q :: n_th0 q :: n_ths q) /\ length (n_ths q) = Z.to_nat n /\
     forall xg, nt_safe (mkNTSelf (rb_p r) (rb_len r) (rb_front r) (rb_rear r) (rb_circ r) (rb_rect r) xg) q).
Proof.
  set (gx := - (8 * (35/10)) / 2 + (2 + 1/2) * (35/10)). set (gy := - (32) / 2 + 4 + (0 + 1/2) * 7).
  assert (Gx : gx = -525/100) by (unfold gx; lra). assert (Gy : gy = -85/10) by (unfold gy; lra).
  assert (Z0 : 0 <= phi_max_const) by (unfold phi_max_const; pose proof PI_RGT_0; lra).
  split; [|split].
  - eexists. exists (mkTT gx gy (- PI / 2) (- PI / 2)). split; [reflexivity|]. split; [reflexivity|]. split.
    + eapply (lane_clear' "tt2d" 1); [reflexivity|]. unfold tt_bodies. cbn [t_px t_py t_th1 t_th2 rb_p]. rewrite Gx, Gy.
      all_tac; down_tac.
    + apply hitch_ok_zero. exact Z0.
  - eexists. exists (mkBK gx gy (- PI / 2)). split; [reflexivity|]. split; [reflexivity|].
    unfold bk_safe. eapply (lane_clear' "kinematic_bicycle2d" 1); [reflexivity|]. unfold bk_bodies. cbn [b_px b_py b_th rb_p set_xg set_x0]. rewrite Gx, Gy.
    all_tac; down_tac.
  - intros n Hn. destruct (default_rig_exists n ltac:(lia)) as [r E].
    destruct (default_rig n r ltac:(lia) E) as (E1 & E2 & E3 & E4 & E5). fold gx gy in E5.
    exists r, (mkNT gx gy (- PI / 2) (repeat (- PI / 2) (Z.to_nat n))). split; [exact E|]. split; [exact E5|].
    split; [apply repeat_length|]. intros xg. unfold nt_safe, nt_clear, nt_hitch_ok, nt_bodies.
    cbn [n_px n_py n_th0 n_ths ns_p ns_len ns_front ns_rear ns_circ ns_rect]. rewrite E2, E3, E4, Gx, Gy.
    destruct Hn as [-> | ->].
    + change (Z.to_nat 2) with 2%nat in *. cbn [repeat Nat.sub app trailer_chain chain_ok]. rewrite E1. split.
      * eapply (lane_clear' "n_trailer2d" 2); [exact E|]. all_tac; down_tac.
      * repeat split; apply hitch_ok_zero; exact Z0.
    + change (Z.to_nat 3) with 3%nat in *. cbn [repeat Nat.sub app trailer_chain chain_ok]. rewrite E1. split.
      * eapply (lane_clear' "n_trailer2d" 3); [exact E|]. all_tac; down_tac.
      * repeat split; apply hitch_ok_zero; exact Z0.
Qed.
(** With four trailers the default goal puts the last trailer into the upper wall: no plan can
    reach it safely. *)
Lemma l_C57_default_goal_safe_refuted :
  exists r q, get_env (default_env_args "n_trailer2d" "parking" 4) = Ok r /\
     rb_xg r = Some (n_px q :: n_py q :: n_th0 q :: n_ths q) /\
     forall xg, ~ nt_safe (mkNTSelf (rb_p r) (rb_len r) (rb_front r) (rb_rear r) (rb_circ r) (rb_rect r) xg) q.
Proof.
  set (gx := - (8 * (35/10)) / 2 + (2 + 1/2) * (35/10)). set (gy := - (32) / 2 + 4 + (0 + 1/2) * 7).
  assert (Gx : gx = -525/100) by (unfold gx; lra). assert (Gy : gy = -85/10) by (unfold gy; lra).
  destruct (default_rig_exists 4 ltac:(lia)) as [r E].
  destruct (default_rig 4 r ltac:(lia) E) as (E1 & E2 & E3 & E4 & E5). fold gx gy in E5.
  exists r, (mkNT gx gy (- PI / 2) (repeat (- PI / 2) (Z.to_nat 4))). split; [exact E|]. split; [exact E5|].
  intros xg [[_ H] _]. unfold nt_bodies in H.
  destruct (same_default_map _ _ _ E) as (r0 & E0 & _ & ER).
  assert (W : In (mkRect 0 15 30 1 0) (rb_rect r)) by (rewrite ER; injection E0 as <-; left; reflexivity).
  cbn [n_px n_py n_th0 n_ths ns_p ns_len ns_front ns_rear ns_circ ns_rect] in H. rewrite E2, E3, E4, Gx, Gy in H.
  change (Z.to_nat 4) with 4%nat in *. cbn [repeat Nat.sub app trailer_chain] in H.
  refine (H _ _ (or_intror (or_intror (or_intror (or_intror (or_introl eq_refl))))) W (-525/100, 15) _).
  unfold trailer_body. rewrite !ahead_down, E1. params_tac. split.
  - eexists (-8.5 + 1.15 + 2.9 + 3 * (2.9 + 1.848 + 1.15) - 15), 0. cbn [rg_back rg_front rg_half rg_org rg_ang]. rewrite at_down. cbn [fst snd].
    split; [lra|]. split; [lra|]. f_equal; lra.
  - exists (-525/100), 0. unfold obstacle_body. cbn [rg_back rg_front rg_half rg_org rg_ang r_x r_y r_w r_h r_ang].
    split; [lra|]. split; [lra|]. unfold at_frame; cbn [fst snd]. rewrite cos_0, sin_0. f_equal; ring.
Qed.
(** The hypotheses are met by each of the classes. *)
Lemma x_C57_default_robots :
  (exists r, get_env (default_env_args "acc_tt2d" "parking" 1) = Ok r /\ rb_kind r = KACC) /\
  (exists r, get_env (default_env_args "n_trailer2d" "navigation" 2) = Ok r /\ rb_kind r = KNT /\
     rb_x0 r = Some [0; 0; 0; 0; 0] /\ rb_xg r = Some [0; 0; PI; PI; PI]).
Proof.
  split.
  - unfold get_env. cbn [g_name default_env_args String.eqb Ascii.eqb Bool.eqb g_amax g_omax]. unfold acc_init.
    destruct (tt_init KACC _ 1) as [r0|] eqn:E; [|discriminate]. destruct (Reqb 2 0) eqn:B; [|eexists; split; reflexivity].
    unfold Reqb in B. destruct (Req_EM_T 2 0); [lra|discriminate].
  - eexists. repeat split; reflexivity.
Qed.
