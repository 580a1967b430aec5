(** * ProofsTune: the hyperparameter search (C53). *)
From Coq Require Import String Lia Reals Lra Classical.
From Verif Require Import Base BaseFacts Params Geom TT2d Rollout Instances Demo EnvModel Setup SpecEnv ProofsSetup Stats SpecStats ProofsStats
  Config SpecConfig ProofsConfig Planner Cache CacheInst SpecCache ProofsCache ProofsCacheInst Tune SpecTune.
Local Open Scope string_scope.
Local Open Scope list_scope.
Open Scope R_scope.

Fixpoint find_src (k : string) (ks : list (string * source)) : option source :=
  match ks with [] => None | (k', s) :: r => if String.eqb k' k then Some s else find_src k r end.
Definition src_val (base params : dict) (k : string) (s : source) : option val :=
  match s with FromBase => base k | FromParams => params k | Fixed v => Some v end.

Lemma tune_eval_lookup base params : forall ks m, tune_eval base params ks = Ok m -> forall k,
  lookup m k = match find_src k ks with Some s => src_val base params k s | None => None end.
Proof.
  induction ks as [|[k' s] ks IH]; intros m H k; cbn [tune_eval] in H.
  - injection H as <-. reflexivity.
  - assert (X : exists v m', src_val base params k' s = Some v /\ tune_eval base params ks = Ok m' /\ m = (k', v) :: m').
    { destruct s as [| |v]; cbn [src_val].
      - destruct (base k') as [v|]; [|discriminate]. destruct (tune_eval base params ks) as [m'|]; [|discriminate]. exists v, m'. repeat split; congruence.
      - destruct (params k') as [v|]; [|discriminate]. destruct (tune_eval base params ks) as [m'|]; [|discriminate]. exists v, m'. repeat split; congruence.
      - destruct (tune_eval base params ks) as [m'|]; [|discriminate]. exists v, m'. repeat split; congruence. }
    destruct X as (v & m' & Hv & Hm & ->). cbn [lookup find_src]. destruct (String.eqb_spec k' k) as [->|]; [symmetry; exact Hv|apply IH, Hm].
Qed.

Lemma tune_eval_total base params : forall ks, (forall k s, In (k, s) ks -> src_val base params k s <> None) ->
  exists m, tune_eval base params ks = Ok m.
Proof.
  induction ks as [|[k s] ks IH]; intros H; [eexists; reflexivity|].
  destruct IH as [m Hm]. { intros; apply H; right; assumption. }
  cbn [tune_eval]. rewrite Hm. pose proof (H k s (or_introl eq_refl)) as Hv. unfold src_val in Hv.
  destruct s as [| |v]; [destruct (base k)|destruct (params k)|]; try contradiction; eexists; reflexivity.
Qed.

Lemma tune_eval_key_error base params : forall ks, (forall k s, In (k, s) ks -> s = FromBase -> base k <> None) ->
  (exists k, In (k, FromParams) ks /\ params k = None) -> tune_eval base params ks = Err KeyError.
Proof.
  induction ks as [|[k s] ks IH]; intros H (k0 & Hi & Hp); [contradiction|]. cbn [tune_eval].
  destruct Hi as [E|Hi].
  - injection E as -> ->. rewrite Hp. reflexivity.
  - assert (R : tune_eval base params ks = Err KeyError). { apply IH; [intros; eapply H; [right; eassumption|assumption]|eauto]. }
    rewrite R. destruct s as [| |v].
    + pose proof (H k FromBase (or_introl eq_refl) eq_refl). destruct (base k); [reflexivity|contradiction].
    + destruct (params k); reflexivity.
    + reflexivity.
Qed.

Fixpoint field_in (l : list (string * ty * val)) (f : string) : option ty :=
  match l with [] => None | (k, t, _) :: r => if String.eqb k f then Some t else field_in r f end.
Lemma field_in_spec : forall l f t, field_in l f = Some t -> exists dv, In (f, t, dv) l.
Proof.
  induction l as [|[[k t'] v] l IH]; intros f t; cbn [field_in]; [discriminate|].
  destruct (String.eqb_spec k f) as [->|]; intros H; [injection H as ->; exists v; left; reflexivity|].
  destruct (IH f t H) as [dv Hd]. exists dv. right. exact Hd.
Qed.
Definition fieldb (f : string) : bool := match field_in dataclass_fields f with Some _ => true | None => false end.
Lemma fieldb_spec f : fieldb f = true -> exists t, is_field f t.
Proof. unfold fieldb. destruct (field_in dataclass_fields f) as [t|] eqn:E; [|discriminate]. intros _. exists t. exact (field_in_spec _ _ _ E). Qed.
Lemma kwargs_are_fields : forall k s, In (k, s) tune_kwargs -> exists t, is_field k t.
Proof.
  intros k s H. apply fieldb_spec.
  assert (A : forallb (fun x => fieldb (fst x)) tune_kwargs = true) by reflexivity.
  rewrite forallb_forall in A. exact (A (k, s) H).
Qed.

Lemma params_keys : forall k, In (k, FromParams) tune_kwargs -> k = "d_thr_factor" \/ k = "k_switch".
Proof.
  intros k H. unfold tune_kwargs in H. cbn [In] in H.
  repeat match type of H with
  | False => contradiction
  | _ \/ _ => destruct H as [H|H]; [apply pair_equal_spec in H as [<- H]; first [discriminate H | (left; reflexivity) | (right; reflexivity)]|]
  end.
Qed.

(** What the search evaluates: the base configuration with the two values of the trial, drawing switched off and the
    default number of trailers; the result has no other attributes. *)
Lemma l_C53_configuration :
  forall base params d k, complete base -> params "d_thr_factor" = Some d -> params "k_switch" = Some k ->
  exists c, create_config_with_params base params = Ok c /\ tuned_from base c d k /\ complete c /\
    (forall f, (forall t, ~ is_field f t) -> c f = None).
Proof.
  intros base params d k HC Hd Hk.
  destruct (tune_eval_total base params tune_kwargs) as [m Hm].
  { intros k0 s Hi. destruct s as [| |v]; cbn [src_val]; [|destruct (params_keys _ Hi) as [->| ->]; congruence|discriminate].
    destruct (kwargs_are_fields _ _ Hi) as [t Ht]. exact (HC _ _ Ht). }
  exists (with_defaults m). unfold create_config_with_params. rewrite Hm. split; [reflexivity|].
  pose proof (tune_eval_lookup base params tune_kwargs m Hm) as L.
  assert (V : forall f s v, find_src f tune_kwargs = Some s -> src_val base params f s = Some v -> with_defaults m f = Some v).
  { intros f s v Hf Hv. unfold with_defaults. rewrite L, Hf, Hv. reflexivity. }
  assert (B : forall f t, is_field f t -> ~ drawing f -> f <> "d_thr_factor" -> f <> "k_switch" -> f <> "num_trailers" -> with_defaults m f = base f).
  { intros f t Hf N1 N2 N3 N4. assert (Hs : find_src f tune_kwargs = Some FromBase).
    { destruct Hf as [dv Hf]. unfold dataclass_fields in Hf. cbn [In] in Hf.
      repeat match type of Hf with
      | False => contradiction
      | _ \/ _ => destruct Hf as [Hf|Hf]; [apply pair_equal_spec in Hf as [Hf _]; apply pair_equal_spec in Hf as [<- _];
          first [reflexivity | (exfalso; apply N1; unfold drawing; cbn [In]; tauto) | contradiction]|]
      end. }
    destruct (base f) as [v|] eqn:E; [|destruct (HC _ _ Hf E)]. exact (V f FromBase v Hs E). }
  assert (T : tuned_from base (with_defaults m) d k).
  { split; [apply (V _ FromParams); [reflexivity|exact Hd]|]. split; [apply (V _ FromParams); [reflexivity|exact Hk]|].
    split; [|split; [|exact B]].
    - intros f Hf. unfold drawing in Hf. cbn [In] in Hf.
      repeat match type of Hf with
      | False => contradiction
      | _ \/ _ => destruct Hf as [<-|Hf]; [apply (V _ (Fixed (VBool false))); reflexivity|]
      end.
    - unfold with_defaults. rewrite L. reflexivity. }
  split; [exact T|]. split.
  - intros f t Hf E. destruct T as (T1 & T2 & T3 & T4 & T5).
    destruct (string_dec f "d_thr_factor") as [->|n1]; [congruence|]. destruct (string_dec f "k_switch") as [->|n2]; [congruence|].
    destruct (string_dec f "num_trailers") as [->|n3]; [congruence|].
    destruct (classic (drawing f)) as [D|D]; [rewrite (T3 f D) in E; discriminate|].
    rewrite (T5 f t Hf D n1 n2 n3) in E. exact (HC _ _ Hf E).
  - intros f Hf. unfold with_defaults. rewrite L.
    destruct (find_src f tune_kwargs) as [s|] eqn:Es.
    + exfalso. assert (Hi : In (f, s) tune_kwargs).
      { revert Es. generalize tune_kwargs. induction l as [|[k' s'] l IH]; cbn [find_src]; [discriminate|].
        destruct (String.eqb_spec k' f) as [->|]; intros E; [injection E as ->; left; reflexivity|right; auto]. }
      destruct (kwargs_are_fields _ _ Hi) as [t Ht]. exact (Hf t Ht).
    + assert (G : forall l, (forall t dv, ~ In (f, t, dv) l) -> lookup (map (fun f : string * ty * val => (fst (fst f), snd f)) l) f = None).
      { induction l as [|[[k' t'] v'] l IH]; intros N; [reflexivity|]. cbn [map lookup fst snd].
        destruct (String.eqb_spec k' f) as [->|]; [exfalso; apply (N t' v'); left; reflexivity|]. apply IH. intros t dv Hi. apply (N t dv). right. exact Hi. }
      apply G. intros t dv Hi. apply (Hf t). exists dv. exact Hi.
Qed.

(** A trial without one of the two values raises KeyError. *)
Lemma l_C53_missing_value :
  forall base params, complete base -> params "d_thr_factor" = None \/ params "k_switch" = None ->
  create_config_with_params base params = Err KeyError.
Proof.
  intros base params HC H. unfold create_config_with_params. rewrite tune_eval_key_error; [reflexivity| |].
  - intros k s Hi _. destruct (kwargs_are_fields _ _ Hi) as [t Ht]. exact (HC _ _ Ht).
  - destruct H as [H|H]; [exists "d_thr_factor"|exists "k_switch"]; (split; [|exact H]); unfold tune_kwargs; cbn [In]; repeat (first [left; reflexivity | right]).
Qed.

Definition three_trailers_base : dict := with_defaults [("env_name", VStr "tt2d"); ("num_trailers", VInt 3)].
(** The number of trailers of the base configuration is lost: a search for a three-trailer vehicle evaluates the
    one-trailer vehicle. *)
Lemma l_C53_vehicle_kept_refuted :
  complete three_trailers_base /\
  (exists r, get_env (trial_args three_trailers_base) = Ok r /\ rb_kind r = KNT /\ p_num_trailers (rb_p r) = 3%nat) /\
  forall d k, exists c r, create_config_with_params three_trailers_base
      (fun f => if String.eqb f "d_thr_factor" then Some (VFloat d) else if String.eqb f "k_switch" then Some (VFloat k) else None) = Ok c /\
    get_env (trial_args c) = Ok r /\ rb_kind r = KTT /\ p_num_trailers (rb_p r) = 1%nat.
Proof.
  assert (HC : complete three_trailers_base).
  { intros f t [dv Hf]. unfold dataclass_fields in Hf. cbn [In] in Hf.
    repeat match type of Hf with
    | False => contradiction
    | _ \/ _ => destruct Hf as [Hf|Hf]; [apply pair_equal_spec in Hf as [Hf _]; apply pair_equal_spec in Hf as [<- _]; discriminate|]
    end. }
  split; [exact HC|]. split.
  - eexists. split; [reflexivity|]. split; reflexivity.
  - intros d k. eexists. eexists. split; [reflexivity|]. split; [reflexivity|]. split; reflexivity.
Qed.

Lemma trial_env_params g t r : create_trial_environment g t = Ok r ->
  as_requested g (rb_p r) /\ exists e r0, get_env (with_env g e) = Ok r0 /\ rb_p r = rb_p r0 /\ rb_kind r = rb_kind r0.
Proof.
  unfold create_trial_environment. destruct (env_init 32 32 "parking" (Some stat_parking)) as [e|]; [|discriminate].
  destruct (get_env (with_env g e)) as [r0|] eqn:E; [|discriminate]. intros H.
  assert (X : rb_p r = rb_p r0 /\ rb_kind r = rb_kind r0).
  { unfold set_init_pos in H. set (r1 := put_env_rects (put_rects r0 stat_rects) stat_rects) in *.
    assert (P1 : rb_p r1 = rb_p r0) by reflexivity. assert (P2 : rb_kind r1 = rb_kind r0) by reflexivity. clearbody r1.
    destruct (base_init_pos (rb_p r1) (rb_env r1) (trial_init t)); [|discriminate]. injection H as <-.
    unfold set_goal_pos. cbn [fst set_xg set_x0 rb_p rb_kind]. auto. }
  split; [|exists e, r0; tauto]. destruct X as [-> _].
  destruct (l_C33_class_and_parameters _ _ E) as (A & _). exact A.
Qed.

(** The robot a trial is planned with has the two values of the trial; every other parameter is the one of the base
    configuration. *)
Lemma l_C53_evaluated_robot :
  forall base c d k t r, tuned_from base c (VFloat d) (VFloat k) -> create_trial_environment (trial_args c) t = Ok r ->
  p_k_switch (rb_p r) = k /\ p_d_thr (rb_p r) = d * (num base "l1" + num base "lh" + num base "l2") /\
  (forall name f, In (name, f) named_parameters -> name <> "k_switch" -> f (rb_p r) = num base name) /\
  p_dmax (rb_p r) = num base "delta_max_deg" * PI / 180 /\
  p_H (rb_p r) = Z.to_nat (int base "Hsample") /\ p_motion (rb_p r) = int base "motion_preference" /\
  p_sh_coll (rb_p r) = flag base "enable_shielded_rollout_collision" /\
  p_sh_hitch (rb_p r) = flag base "enable_shielded_rollout_hitch" /\
  p_proj (rb_p r) = flag base "enable_projection" /\ p_guid (rb_p r) = flag base "enable_guidance" /\
  planner_cfg c = planner_cfg base.
Proof.
  intros base c d k t r (T1 & T2 & T3 & T4 & T5) H.
  destruct (trial_env_params _ _ _ H) as [A _]. clear H.
  assert (B : forall f ty dv, In (f, ty, dv) dataclass_fields -> ~ drawing f -> f <> "d_thr_factor" -> f <> "k_switch" -> f <> "num_trailers" -> c f = base f).
  { intros f ty dv Hi. apply (T5 f ty). exists dv. exact Hi. }
  assert (C : forall f, fieldb f = true ->
    existsb (String.eqb f) ["render"; "save_animation"; "show_animation"; "save_denoising_animation"; "d_thr_factor"; "k_switch"; "num_trailers"] = false -> c f = base f).
  { intros f Hfb N. destruct (fieldb_spec f Hfb) as [ty [dv Hi]]. assert (M : forall x, In x ["render"; "save_animation"; "show_animation"; "save_denoising_animation"; "d_thr_factor"; "k_switch"; "num_trailers"] -> f <> x).
    { intros x Hx ->. apply Bool.not_true_iff_false in N. apply N. apply existsb_exists. exists x. split; [exact Hx|apply String.eqb_refl]. }
    apply (B f ty dv Hi); try (apply M; cbn [In]; tauto). unfold drawing. intro D. apply (M f); [|reflexivity]. cbn [In] in *. tauto. }
  assert (N : forall f, c f = base f -> num c f = num base f) by (intros f E; unfold num; rewrite E; reflexivity).
  assert (I : forall f, c f = base f -> int c f = int base f) by (intros f E; unfold int; rewrite E; reflexivity).
  assert (F : forall f, c f = base f -> flag c f = flag base f) by (intros f E; unfold flag; rewrite E; reflexivity).
  assert (Kk : num c "k_switch" = k) by (unfold num; rewrite T2; reflexivity).
  assert (Kd : num c "d_thr_factor" = d) by (unfold num; rewrite T1; reflexivity).
  unfold as_requested in A. cbn [trial_args g_dt g_H Setup.g_motion g_coll_pen g_hitch_pen g_sh_coll g_sh_hitch g_proj Setup.g_guid g_rew_thr g_ref_thr
    g_max_w g_hitch_w g_l1 g_l2 g_lh g_lf1 g_lr g_lf2 g_lr2 g_trac_w g_trail_w g_vmax g_ddeg g_d_fac g_kswitch g_steer_w g_pref_w g_head_w g_term_thr
    g_term_w g_rpos_w g_rth1_w g_rth2_w] in A.
  rewrite Kk, Kd in A.
  repeat (rewrite (N _ (C "dt" eq_refl eq_refl)) in A).
  rewrite (N _ (C "collision_penalty" eq_refl eq_refl)), (N _ (C "hitch_penalty" eq_refl eq_refl)), (N _ (C "reward_threshold" eq_refl eq_refl)),
    (N _ (C "ref_reward_threshold" eq_refl eq_refl)), (N _ (C "max_w_theta" eq_refl eq_refl)), (N _ (C "hitch_angle_weight" eq_refl eq_refl)),
    (N _ (C "l1" eq_refl eq_refl)), (N _ (C "l2" eq_refl eq_refl)), (N _ (C "lh" eq_refl eq_refl)), (N _ (C "lf1" eq_refl eq_refl)),
    (N _ (C "lr" eq_refl eq_refl)), (N _ (C "lf2" eq_refl eq_refl)), (N _ (C "lr2" eq_refl eq_refl)), (N _ (C "tractor_width" eq_refl eq_refl)),
    (N _ (C "trailer_width" eq_refl eq_refl)), (N _ (C "v_max" eq_refl eq_refl)), (N _ (C "delta_max_deg" eq_refl eq_refl)),
    (N _ (C "steering_weight" eq_refl eq_refl)), (N _ (C "preference_penalty_weight" eq_refl eq_refl)), (N _ (C "heading_reward_weight" eq_refl eq_refl)),
    (N _ (C "terminal_reward_threshold" eq_refl eq_refl)), (N _ (C "terminal_reward_weight" eq_refl eq_refl)), (N _ (C "ref_pos_weight" eq_refl eq_refl)),
    (N _ (C "ref_theta1_weight" eq_refl eq_refl)), (N _ (C "ref_theta2_weight" eq_refl eq_refl)),
    (I _ (C "Hsample" eq_refl eq_refl)), (I _ (C "motion_preference" eq_refl eq_refl)),
    (F _ (C "enable_shielded_rollout_collision" eq_refl eq_refl)), (F _ (C "enable_shielded_rollout_hitch" eq_refl eq_refl)),
    (F _ (C "enable_projection" eq_refl eq_refl)), (F _ (C "enable_guidance" eq_refl eq_refl)) in A.
  destruct A as (A1 & A2 & A3 & A4 & A5 & A6 & A7 & A8 & A9 & A10 & A11 & A12 & A13 & A14 & A15 & A16 & A17 & A18 & A19 & A20 & A21 & A22 & A23 & A24 & A25 &
    A26 & A27 & _ & _ & A30 & A31 & A32 & A33 & A34 & A35 & A36).
  split; [exact A31|]. split; [exact A30|]. split; [|].
  { intros name f Hi Hn. unfold named_parameters in Hi. cbn [In] in Hi.
    repeat match type of Hi with
    | False => contradiction
    | _ \/ _ => destruct Hi as [Hi|Hi]; [apply pair_equal_spec in Hi as [<- <-]; first [assumption | contradiction]|]
    end. }
  split; [exact A27|]. split; [exact A2|]. split; [exact A3|]. split; [exact A5|]. split; [exact A7|]. split; [exact A8|]. split; [exact A9|].
  unfold planner_cfg.
  rewrite (I _ (C "seed" eq_refl eq_refl)), (I _ (C "Nsample" eq_refl eq_refl)), (I _ (C "Hsample" eq_refl eq_refl)), (I _ (C "Ndiffuse" eq_refl eq_refl)),
    (N _ (C "temp_sample" eq_refl eq_refl)), (N _ (C "beta0" eq_refl eq_refl)), (N _ (C "betaT" eq_refl eq_refl)), (F _ (C "enable_demo" eq_refl eq_refl)),
    (I _ (C "motion_preference" eq_refl eq_refl)), (F _ (C "enable_guidance" eq_refl eq_refl)). reflexivity.
Qed.

Lemma shared_self ea : exists s0 : tt_self, forall t r s x, create_trial_environment ea t = Ok r -> tt_of_robot r = Some (s, x) -> s = s0.
Proof.
  destruct (classic (exists t r s x, create_trial_environment ea t = Ok r /\ tt_of_robot r = Some (s, x))) as [(t & r & s & x & H1 & H2)|N].
  - exists s. intros t' r' s' x' H1' H2'. exact (trial_env_fixed _ _ _ _ _ _ _ _ _ H1' H1 H2' H2).
  - exists (mkTTSelf default_params [] [] (mkTT 0 0 0 0)). intros t r s x H1 H2. exfalso. apply N. exists t, r, s, x. auto.
Qed.

Lemma cached_after_clear proj guide (b : obj (tt_self * ttq) (list refrow)) h ea c rg s0 ts : g_demo c = false ->
  let cls := fun _ : string => tt_methods proj guide in
  (forall t r s x, create_trial_environment ea t = Ok r -> tt_of_robot r = Some (s, x) -> s = s0) ->
  tt_cached_trials cls (clear_cache (execs cls (start b) h)) ea c rg ts =
  each (tt_trial ea (fun _ => proj s0) (fun _ => guide s0) (fun _ _ _ => 0) (fun _ => 0) c rg) ts.
Proof.
  intros Hd cls Hs.
  assert (E : clear_cache (execs cls (start b) h) = execs cls (start b) (h ++ [Clear])).
  { unfold execs. rewrite fold_left_app. reflexivity. }
  rewrite E. apply (cached_trials_sound proj guide ea c rg s0 (mkTT 0 0 0 0) ts Hd Hs).
  - apply wf_execs, wf_start.
  - apply cache_ok_empty, empty_cleared. unfold cleared. rewrite fold_left_app. reflexivity.
Qed.

Lemma tuned_demo base c d k : tuned_from base c d k -> base "enable_demo" = Some (VBool false) -> g_demo (planner_cfg c) = false.
Proof.
  intros (T1 & T2 & T3 & T4 & T5) H. unfold planner_cfg. cbn [g_demo]. unfold flag.
  rewrite (T5 "enable_demo" TBool); [rewrite H; reflexivity| | | | |]; try discriminate.
  - destruct (fieldb_spec "enable_demo" eq_refl) as [t Ht]. exists (VBool false). unfold dataclass_fields. cbn [In]. do 10 right. left. reflexivity.
  - unfold drawing. cbn [In]. intuition discriminate.
Qed.
Lemma tuned_tt base c d k : tuned_from base c d k -> base "env_name" = Some (VStr "tt2d") ->
  g_name (trial_args c) = "tt2d" /\ g_trailers (trial_args c) = 1%Z.
Proof.
  intros (T1 & T2 & T3 & T4 & T5) H. cbn [trial_args g_name g_trailers]. unfold text, int.
  rewrite T4. split; [|reflexivity]. rewrite (T5 "env_name" TStr); [rewrite H; reflexivity| | | | |]; try discriminate.
  - exists (VStr "acc_tt2d"). unfold dataclass_fields. cbn [In]. right. left. reflexivity.
  - unfold drawing. cbn [In]. intuition discriminate.
Qed.

Lemma objective_config_err cls base rg ng n w i m b p e : create_config_with_params base p = Err e -> objective cls base rg ng n w i m b p = Err e.
Proof. intros H. unfold objective. rewrite H. reflexivity. Qed.

(** An evaluation does not depend on what happened in the process before: after any two histories of calls (earlier
    evaluations, other robots, other configurations) it gives the same result or the same exception. *)
Lemma l_C53_history_does_not_matter :
  forall proj guide (b1 b2 : obj (tt_self * ttq) (list refrow)) (h1 h2 : list op) base rg ng n number done1 done2 worse1 worse2 params,
  let cls := fun _ : string => tt_methods proj guide in
  complete base -> base "enable_demo" = Some (VBool false) ->
  objective cls base rg ng n (execs cls (start b1) h1) number done1 worse1 params =
  objective cls base rg ng n (execs cls (start b2) h2) number done2 worse2 params.
Proof.
  intros proj guide b1 b2 h1 h2 base rg ng n number d1 d2 w1 w2 params cls HC Hd.
  destruct (params "d_thr_factor") as [d|] eqn:Ed.
  2:{ rewrite !(objective_config_err _ _ _ _ _ _ _ _ _ _ KeyError); auto; apply l_C53_missing_value; auto. }
  destruct (params "k_switch") as [k|] eqn:Ek.
  2:{ rewrite !(objective_config_err _ _ _ _ _ _ _ _ _ _ KeyError); auto; apply l_C53_missing_value; auto. }
  destruct (l_C53_configuration base params d k HC Ed Ek) as (c & Ec & T & _).
  unfold objective. rewrite Ec. cbv zeta. destruct (shared_self (trial_args c)) as [s Hs].
  unfold cls. rewrite !(cached_after_clear proj guide _ _ _ _ rg s _ (tuned_demo _ _ _ _ T Hd) Hs).
  destruct (each _ _) as [results|]; [|reflexivity]. destruct (summarize n results); [|reflexivity].
  assert (P : forall m b, should_prune m 0 b = false) by (intros m b; unfold should_prune; destruct (Nat.ltb m 15); reflexivity).
  rewrite !P. reflexivity.
Qed.

(** Median pruning is configured but never happens: whatever the other trials scored, a trial is never stopped at
    the only step it reports. *)
Lemma l_C53_early_stopping_refuted :
  (forall completed worse, should_prune completed 0 worse = false) /\
  forall cls base rg ng n w number completed worse params, objective cls base rg ng n w number completed worse params <> Ok None.
Proof.
  assert (P : forall m b, should_prune m 0 b = false) by (intros m b; unfold should_prune; destruct (Nat.ltb m 15); reflexivity).
  split; [exact P|]. intros. unfold objective. rewrite P.
  destruct (create_config_with_params base params) as [c|]; [|discriminate]. cbv zeta.
  destruct (tt_cached_trials _ _ _ _ _ _); [|discriminate]. destruct (summarize n _); discriminate.
Qed.

(** For a one-trailer base configuration without demonstration an evaluation always completes, in any process, and
    reports the statistics of the configuration with the two values. *)
Lemma l_C53_evaluation :
  forall proj guide (b : obj (tt_self * ttq) (list refrow)) (h : list op) base rg ng n number completed worse params d k,
  let cls := fun _ : string => tt_methods proj guide in
  complete base -> one_trailer base -> (0 < n)%nat ->
  params "d_thr_factor" = Some (VFloat d) -> params "k_switch" = Some (VFloat k) ->
  exists r st, objective cls base rg ng n (execs cls (start b) h) number completed worse params = Ok (Some r) /\
    evaluated proj guide base rg ng n d k st /\ reports r number n d k st.
Proof.
  intros proj guide b h base rg ng n number m w params d k cls HC [H1 H2] Hn Ed Ek.
  destruct (l_C53_configuration base params _ _ HC Ed Ek) as (c & Ec & T & _).
  destruct (shared_self (trial_args c)) as [s Hs].
  destruct (tuned_tt _ _ _ _ T H1) as [G1 G2].
  destruct (l_C42_evaluation_total (trial_args c) (fun _ => proj s) (fun _ => guide s) (fun _ _ _ => 0) (fun _ => 0) (planner_cfg c) rg ng n 42 G1) as (results & st & E); [rewrite G2; discriminate|rewrite G2; reflexivity|exact Hn|].
  assert (P : should_prune m 0 w = false) by (unfold should_prune; destruct (Nat.ltb m 15); reflexivity).
  eexists. exists st. split; [|split].
  - unfold objective. rewrite Ec. cbv zeta. unfold cls. rewrite (cached_after_clear proj guide _ _ _ _ rg s _ (tuned_demo _ _ _ _ T H2) Hs).
    unfold tt_statistics in E. destruct (each _ _) as [rs|]; [|discriminate]. destruct (summarize n rs) as [st'|]; [|discriminate].
    apply (f_equal (fun x => match x with Ok (_, z) => z | Err _ => st' end)) in E. subst st'. rewrite P. reflexivity.
  - exists c, s, results. split; [exact T|]. split; [exact Hs|exact E].
  - unfold reports. cbn [tu_number tu_num tu_params tu_score tu_success tu_successful tu_error tu_coll tu_jack]. rewrite Ed, Ek.
    repeat split.
Qed.

(** Safety in the stored results. *)
Lemma l_C53_safety :
  forall cls base rg ng n w number completed worse params r, objective cls base rg ng n w number completed worse params = Ok (Some r) ->
  forall cr jr, tu_coll r = Some cr -> tu_jack r = Some jr -> tu_safety r = Some (1 - (cr + jr) / 2).
Proof.
  intros cls base rg ng n w number m b params r H cr jr. unfold objective in H.
  destruct (create_config_with_params base params) as [c|]; [|discriminate]. cbv zeta in H.
  destruct (tt_cached_trials _ _ _ _ _ _); [|discriminate]. destruct (summarize n _) as [st|]; [|discriminate].
  destruct (should_prune m 0 b); [discriminate|].
  apply (f_equal (fun x => match x with Ok (Some z) => z | _ => r end)) in H. subst r. cbn [tu_coll tu_jack tu_safety].
  intros -> ->. reflexivity.
Qed.

(** The score is the number of successful trials divided by the number asked for; it lies between 0 and 1. *)
Lemma l_C53_score :
  forall proj guide base rg ng n d k st, (0 < n)%nat -> evaluated proj guide base rg ng n d k st ->
  sr_success_rate st = INR (sr_successful st) / INR n /\
  (sr_successful st <= length (fst (sample_initial_conditions ng n 42)) <= n)%nat /\ 0 <= sr_success_rate st <= 1.
Proof.
  intros proj guide base rg ng n d k st Hn (c & s & results & T & Hs & E). unfold tt_statistics in E.
  destruct (each _ _) as [rs|] eqn:Ee; [|discriminate]. destruct (summarize n rs) as [st'|] eqn:Es; [|discriminate].
  apply (f_equal (fun x => match x with Ok z => z | Err _ => (rs, st') end)) in E. apply pair_equal_spec in E as [-> ->].
  pose proof (each_length _ _ _ Ee) as L. unfold summarize in Es. destruct (Nat.eqb_spec n 0) as [e|]; [lia|].
  assert (M : (length (fst (sample_initial_conditions ng n 42)) <= n)%nat).
  { destruct (sample_initial_conditions ng n 42) as [cs a] eqn:Ec. destruct (l_C43_sampling ng n 42 cs a Ec) as (ps & acc & _ & _ & _ & _ & _ & _ & Hb & _). exact Hb. }
  assert (F : (length (filter v_success results) <= length results)%nat).
  { clear. induction results as [|v l IH]; cbn; [lia|]. destruct (v_success v); cbn; lia. }
  apply (f_equal (fun x => match x with Ok z => z | Err _ => st end)) in Es. subst st. cbn [sr_success_rate sr_successful].
  split; [reflexivity|]. split; [lia|].
  assert (P : 0 < INR n) by (apply lt_0_INR; exact Hn).
  assert (Q : INR (length (filter v_success results)) <= INR n) by (apply le_INR; lia).
  pose proof (pos_INR (length (filter v_success results))). split.
  - apply Rmult_le_pos; [assumption|]. apply Rlt_le, Rinv_0_lt_compat, P.
  - apply Rmult_le_reg_r with (INR n); [exact P|]. unfold Rdiv. rewrite Rmult_assoc, Rinv_l, Rmult_1_l, Rmult_1_r by lra. exact Q.
Qed.

Lemma suggest_on_grid i : on_grid (suggest i).
Proof.
  exists (S (Nat.min i 9)). split; [lia|]. unfold suggest. rewrite S_INR. lra.
Qed.

(** Every grid value can be suggested. *)
Lemma l_C53_grid : forall x, on_grid x <-> exists i, suggest i = x.
Proof.
  intros x. split; [|intros [i <-]; apply suggest_on_grid].
  intros (m & Hm & ->). exists (m - 1)%nat. unfold suggest. replace (Nat.min (m - 1) 9) with (m - 1)%nat by lia.
  rewrite minus_INR by lia. cbn [INR]. lra.
Qed.

Lemma best_from_spec : forall l b, (In (best_from b l) (b :: l)) /\ forall r, In r (b :: l) -> tu_score r <= tu_score (best_from b l).
Proof.
  induction l as [|x l IH]; intros b; cbn [best_from].
  - split; [left; reflexivity|]. intros r [->|[]]. lra.
  - destruct (IH (if Rltb (tu_score b) (tu_score x) then x else b)) as [I1 I2]. split.
    + destruct I1 as [E|I1]; [|right; right; exact I1]. rewrite <- E. destruct (Rltb (tu_score b) (tu_score x)); [right; left|left]; reflexivity.
    + assert (B : tu_score b <= tu_score (if Rltb (tu_score b) (tu_score x) then x else b) /\ tu_score x <= tu_score (if Rltb (tu_score b) (tu_score x) then x else b)).
      { destruct (Rltb (tu_score b) (tu_score x)) eqn:E; [apply Rltb_true in E|apply Rltb_false in E]; lra. }
      pose proof (I2 _ (or_introl eq_refl)) as I0.
      intros r [->|[->|Hr]]; [lra|lra|]. apply I2. right. exact Hr.
Qed.

(** A whole search with a one-trailer base configuration without demonstration, however the sampler chooses, whatever
    else runs in the process between the evaluations: every trial started is completed and stored, in order, with grid
    values and the statistics of the configuration with those values; the best trial is one of them and none has a
    higher score; equal values give equal statistics. *)
Lemma l_C53_search :
  forall proj guide (b : obj (tt_self * ttq) (list refrow)) (hs : nat -> list op) base rg ng n sampler worse n_trials ran,
  let cls := fun _ : string => tt_methods proj guide in
  complete base -> one_trailer base -> (0 < n)%nat -> (0 < n_trials)%nat -> (0 < ran)%nat ->
  exists l best, run_optimization cls base rg ng n (fun i => execs cls (start b) (hs i)) sampler worse n_trials ran = Ok (l, best) /\
    length l = Nat.min n_trials ran /\
    (forall i r, nth_error l i = Some r -> exists d k st, on_grid d /\ on_grid k /\ evaluated proj guide base rg ng n d k st /\
       reports r i n d k st /\ 0 <= tu_score r <= 1) /\
    In best l /\ (forall r, In r l -> tu_score r <= tu_score best) /\
    (forall r1 r2, In r1 l -> In r2 l ->
       tu_params r1 "d_thr_factor" = tu_params r2 "d_thr_factor" -> tu_params r1 "k_switch" = tu_params r2 "k_switch" ->
       tu_score r1 = tu_score r2 /\ tu_coll r1 = tu_coll r2 /\ tu_jack r1 = tu_jack r2 /\ tu_error r1 = tu_error r2 /\
       tu_successful r1 = tu_successful r2).
Proof.
  intros proj guide b hs base rg ng n sampler worse n_trials ran cls HC H1 Hn Ht Hr.
  set (obj_ := objective cls base rg ng n).
  assert (OK : forall h num m w ij, exists r st, obj_ (execs cls (start b) h) num m w (hyperparameters ij) = Ok (Some r) /\
            evaluated proj guide base rg ng n (suggest (fst ij)) (suggest (snd ij)) st /\ reports r num n (suggest (fst ij)) (suggest (snd ij)) st).
  { intros h num m w [i j]. apply (l_C53_evaluation proj guide b h base rg ng n num m w (hyperparameters (i, j)) (suggest i) (suggest j)); auto. }
  assert (LOOP : forall left number done l res,
      optimize cls base rg ng n (fun i => execs cls (start b) (hs i)) sampler worse left number done = (l, res) ->
      length done = number ->
      res = Ok tt /\ exists more, l = done ++ more /\ length more = left /\
      forall i r, nth_error more i = Some r -> exists ij m w, obj_ (execs cls (start b) (hs (number + i)%nat)) (number + i)%nat m w (hyperparameters ij) = Ok (Some r)).
  { induction left as [|left IH]; intros number done l res E L; cbn [optimize] in E.
    - injection E as <- <-. split; [reflexivity|]. exists []. rewrite app_nil_r. split; [reflexivity|]. split; [reflexivity|]. intros [|i] r Hi; discriminate.
    - destruct (OK (hs number) number (length done) (worse number) (sampler done)) as (r & st & E1 & _). unfold obj_ in E1. rewrite E1 in E.
      destruct (IH (S number) (done ++ [r]) l res E) as (A & more & -> & Lm & F). { rewrite app_length. cbn. lia. }
      split; [exact A|]. exists (r :: more). rewrite <- app_assoc. split; [reflexivity|]. split; [cbn; lia|].
      intros [|i] r' Hi; cbn in Hi.
      + injection Hi as <-. rewrite Nat.add_0_r. do 3 eexists. exact E1.
      + replace (number + S i)%nat with (S number + i)%nat by lia. exact (F i r' Hi). }
  unfold run_optimization.
  destruct (optimize cls base rg ng n (fun i => execs cls (start b) (hs i)) sampler worse (Nat.min n_trials ran) 0 []) as [l res] eqn:E.
  destruct (LOOP _ _ _ _ _ E eq_refl) as (-> & more & -> & Lm & F). cbn [app] in *.
  destruct more as [|r0 rest] eqn:Em; [cbn in Lm; lia|]. rewrite <- Em in *.
  assert (Eb : best_trial more = Ok (best_from r0 rest)) by (rewrite Em; reflexivity).
  rewrite Eb. exists more, (best_from r0 rest). split; [reflexivity|]. split; [exact Lm|].
  assert (G : forall i r, nth_error more i = Some r -> exists ij st m w,
     evaluated proj guide base rg ng n (suggest (fst ij)) (suggest (snd ij)) st /\ reports r i n (suggest (fst ij)) (suggest (snd ij)) st /\
     obj_ (execs cls (start b) (hs i)) i m w (hyperparameters ij) = Ok (Some r) /\ tu_params r = hyperparameters ij).
  { intros i r Hi. destruct (F i r Hi) as (ij & m & w & Eo). cbn [plus] in Eo.
    destruct (OK (hs i) i m w ij) as (r' & st & E' & A & B). rewrite E' in Eo. 
    assert (r' = r) by (apply (f_equal (fun x => match x with Ok (Some z) => z | _ => r end)) in Eo; exact Eo). subst r'.
    exists ij, st, m, w. split; [exact A|]. split; [exact B|]. split; [exact E'|].
    clear - E'. unfold obj_, objective in E'.
    destruct (create_config_with_params base (hyperparameters ij)) as [c|]; [|discriminate]. cbv zeta in E'.
    destruct (tt_cached_trials _ _ _ _ _ _); [|discriminate]. destruct (summarize n _) as [st|]; [|discriminate].
    destruct (should_prune m 0 w); [discriminate|].
    apply (f_equal (fun x => match x with Ok (Some z) => z | _ => r end)) in E'. rewrite <- E'. reflexivity. }
  split.
  { intros i r Hi. destruct (G i r Hi) as ((i1 & i2) & st & m & w & A & B & _). exists (suggest i1), (suggest i2), st.
    split; [apply suggest_on_grid|]. split; [apply suggest_on_grid|]. split; [exact A|]. split; [exact B|].
    destruct (l_C53_score _ _ _ _ _ _ _ _ _ Hn A) as (_ & _ & S). destruct B as (_ & _ & _ & _ & -> & _). exact S. }
  destruct (best_from_spec rest r0) as [B1 B2]. rewrite <- Em in B1, B2.
  split; [exact B1|]. split; [exact B2|].
  intros r1 r2 I1 I2 P1 P2.
  apply In_nth_error in I1 as [i1 I1]. apply In_nth_error in I2 as [i2 I2].
  destruct (G _ _ I1) as (ij1 & st1 & m1 & w1 & A1 & B1' & E1 & Q1). destruct (G _ _ I2) as (ij2 & st2 & m2 & w2 & A2 & B2' & E2 & Q2).
  rewrite Q1, Q2 in P1, P2. cbn [hyperparameters String.eqb Ascii.eqb Bool.eqb] in P1, P2.
  unfold hyperparameters in P1, P2. cbn [String.eqb Ascii.eqb Bool.eqb] in P1, P2.
  assert (HP : hyperparameters ij1 = hyperparameters ij2).
  { assert (e1 : suggest (fst ij1) = suggest (fst ij2)) by congruence.
    assert (e2 : suggest (snd ij1) = suggest (snd ij2)) by congruence.
    unfold hyperparameters. rewrite e1, e2. reflexivity. }
  (* the two stored results differ in the trial number only *)
  assert (Z : forall num1 num2 h1 h2 m1 m2 w1 w2 p r1 r2, obj_ (execs cls (start b) h1) num1 m1 w1 p = Ok (Some r1) -> obj_ (execs cls (start b) h2) num2 m2 w2 p = Ok (Some r2) ->
     tu_score r1 = tu_score r2 /\ tu_coll r1 = tu_coll r2 /\ tu_jack r1 = tu_jack r2 /\ tu_error r1 = tu_error r2 /\ tu_successful r1 = tu_successful r2).
  { intros num1 num2 h1 h2 n1 n2 v1 v2 p s1 s2 X1 X2.
    pose proof (l_C53_history_does_not_matter proj guide b b h1 h2 base rg ng n num1 n1 n2 v1 v2 p HC (proj2 H1)) as Y. cbv zeta in Y. fold cls obj_ in Y.
    rewrite X1 in Y. clear X1. symmetry in Y. unfold obj_, objective in Y, X2.
    destruct (create_config_with_params base p) as [c|]; [|discriminate]. cbv zeta in Y, X2.
    destruct (tt_cached_trials _ _ _ _ _ _); [|discriminate]. destruct (summarize n _) as [st|]; [|discriminate].
    destruct (should_prune n2 0 v2); [discriminate|].
    apply (f_equal (fun x => match x with Ok (Some z) => z | _ => s1 end)) in Y. apply (f_equal (fun x => match x with Ok (Some z) => z | _ => s2 end)) in X2.
    subst s1. rewrite <- X2. repeat split. }
  rewrite <- HP in E2. exact (Z _ _ _ _ _ _ _ _ _ _ _ E1 E2).
Qed.

(** Without trials per evaluation the search raises ZeroDivisionError at the first evaluation; without any trial it
    raises ValueError. *)
Lemma l_C53_nothing_to_run :
  forall proj guide (b : obj (tt_self * ttq) (list refrow)) (hs : nat -> list op) base rg ng n sampler worse n_trials ran,
  let cls := fun _ : string => tt_methods proj guide in
  complete base -> one_trailer base ->
  ((0 < n_trials)%nat -> (0 < ran)%nat ->
   run_optimization cls base rg ng 0 (fun i => execs cls (start b) (hs i)) sampler worse n_trials ran = Err ZeroDivisionError) /\
  (n_trials = 0%nat \/ ran = 0%nat ->
   run_optimization cls base rg ng n (fun i => execs cls (start b) (hs i)) sampler worse n_trials ran = Err ValueError).
Proof.
  intros proj guide b hs base rg ng n sampler worse n_trials ran cls HC H1. split.
  - intros H2 H3. unfold run_optimization. destruct (Nat.min n_trials ran) as [|m] eqn:E; [lia|]. cbn [optimize].
    assert (X : forall num m w p, p "d_thr_factor" <> None -> p "k_switch" <> None ->
       objective cls base rg ng 0 (execs cls (start b) (hs 0%nat)) num m w p = Err ZeroDivisionError).
    { intros num m0 w p Pd Pk. destruct (p "d_thr_factor") as [d|] eqn:Ed; [|contradiction]. destruct (p "k_switch") as [k|] eqn:Ek; [|contradiction].
      destruct (l_C53_configuration base p _ _ HC Ed Ek) as (c & Ec & _). unfold objective. rewrite Ec. cbv zeta.
      reflexivity. }
    rewrite X; [reflexivity| |]; discriminate.
  - intros H. unfold run_optimization. replace (Nat.min n_trials ran) with 0%nat by lia. reflexivity.
Qed.

(** An exception in one evaluation ends the search: it is raised, whatever was found before. *)
Lemma l_C53_exception_ends_search :
  forall cls base rg ng n procs sampler worse n_trials ran i l e,
  (i < Nat.min n_trials ran)%nat ->
  optimize cls base rg ng n procs sampler worse i 0 [] = (l, Ok tt) ->
  objective cls base rg ng n (procs i) i (length l) (worse i) (hyperparameters (sampler l)) = Err e ->
  run_optimization cls base rg ng n procs sampler worse n_trials ran = Err e.
Proof.
  intros cls base rg ng n procs sampler worse n_trials ran i l e Hi Hl He. unfold run_optimization.
  assert (X : forall i left number done, (i < left)%nat -> optimize cls base rg ng n procs sampler worse i number done = (l, Ok tt) ->
    objective cls base rg ng n (procs (number + i)%nat) (number + i)%nat (length l) (worse (number + i)%nat) (hyperparameters (sampler l)) = Err e ->
    optimize cls base rg ng n procs sampler worse left number done = (l, Err e)).
  { clear. induction i as [|i IH]; intros left number done Hi Hl He; destruct left as [|left]; try lia; cbn [optimize] in *.
    - apply pair_equal_spec in Hl as [-> _]. rewrite Nat.add_0_r in He. rewrite He. reflexivity.
    - replace (number + S i)%nat with (S number + i)%nat in He by lia.
      destruct (objective cls base rg ng n (procs number) number (length done) (worse number) (hyperparameters (sampler done))) as [[r|]|];
        [apply IH; [lia|assumption|assumption]|apply IH; [lia|assumption|assumption]|].
      apply pair_equal_spec in Hl as [_ Hl]. discriminate. }
  rewrite (X i _ 0%nat [] Hi Hl He). reflexivity.
Qed.

Lemma base_complete : complete base_config.
Proof.
  intros f t [dv Hf]. unfold dataclass_fields in Hf. cbn [In] in Hf.
  repeat match type of Hf with
  | False => contradiction
  | _ \/ _ => destruct Hf as [Hf|Hf]; [apply pair_equal_spec in Hf as [Hf _]; apply pair_equal_spec in Hf as [<- _]; discriminate|]
  end.
Qed.
(** The shipped search (shields on, default vehicle): no evaluation ever sees a collision or a jackknife, so the
    reported safety is 1 for every choice of the two values, and a trial succeeds iff it ends within 4 m of the goal. *)
Lemma l_C53_shipped_search_safe :
  forall proj guide (b : obj (tt_self * ttq) (list refrow)) (h : list op) rg ng n number completed worse params d k,
  let cls := fun _ : string => tt_methods proj guide in
  (0 < n)%nat -> fst (sample_initial_conditions ng n 42) <> [] ->
  params "d_thr_factor" = Some (VFloat d) -> params "k_switch" = Some (VFloat k) ->
  exists r, objective cls base_config rg ng n (execs cls (start b) h) number completed worse params = Ok (Some r) /\
    tu_coll r = Some 0 /\ tu_jack r = Some 0 /\ tu_safety r = Some 1.
Proof.
  intros proj guide b h rg ng n number m w params d k cls Hn Hne Ed Ek.
  destruct (l_C53_evaluation proj guide b h base_config rg ng n number m w params d k base_complete (conj eq_refl eq_refl) Hn Ed Ek)
    as (r & st & E & (c & s & results & T & Hs & ES) & Rp). cbv zeta in E. fold cls in E.
  exists r. split; [exact E|].
  assert (C : forall f, existsb (String.eqb f) ["render"; "save_animation"; "show_animation"; "save_denoising_animation"; "d_thr_factor"; "k_switch"; "num_trailers"] = false ->
     fieldb f = true -> c f = base_config f).
  { intros f N Hf. assert (M : forall x, In x ["render"; "save_animation"; "show_animation"; "save_denoising_animation"; "d_thr_factor"; "k_switch"; "num_trailers"] -> f <> x).
    { intros x Hx ->. apply Bool.not_true_iff_false in N. apply N. apply existsb_exists. exists x. split; [exact Hx|apply String.eqb_refl]. }
    destruct (fieldb_spec f Hf) as [t Ht]. destruct T as (_ & _ & _ & _ & T). apply (T f t Ht); try (apply M; cbn [In]; tauto).
    unfold drawing. intro D. apply (M f); [|reflexivity]. cbn [In] in *. tauto. }
  destruct (tuned_tt _ _ _ _ T eq_refl) as [G1 G2].
  assert (Dm : default_dimensions (trial_args c)).
  { unfold default_dimensions. cbn [trial_args g_l1 g_l2 g_lh g_lf1 g_lr g_lf2 g_lr2 g_trac_w g_trail_w]. unfold num.
    rewrite (C "l1" eq_refl eq_refl), (C "l2" eq_refl eq_refl), (C "lh" eq_refl eq_refl), (C "lf1" eq_refl eq_refl), (C "lr" eq_refl eq_refl),
      (C "lf2" eq_refl eq_refl), (C "lr2" eq_refl eq_refl), (C "tractor_width" eq_refl eq_refl), (C "trailer_width" eq_refl eq_refl).
    cbn [base_config with_defaults lookup map dataclass_fields fst snd String.eqb Ascii.eqb Bool.eqb]. repeat split; lra. }
  destruct (l_C42_shielded_statistics (trial_args c) (fun _ => proj s) (fun _ => guide s) (fun _ _ _ => 0) (fun _ => 0) (planner_cfg c) rg ng n 42 results st) as (_ & P & L); auto.
  { rewrite G2. discriminate. } { rewrite G2. reflexivity. }
  { cbn [trial_args g_proj]. unfold flag. rewrite (C "enable_projection" eq_refl eq_refl). reflexivity. }
  { cbn [trial_args Setup.g_guid]. unfold flag. rewrite (C "enable_guidance" eq_refl eq_refl). reflexivity. }
  { cbn [trial_args g_sh_coll]. unfold flag. rewrite (C "enable_shielded_rollout_collision" eq_refl eq_refl). reflexivity. }
  { cbn [trial_args g_sh_hitch]. unfold flag. rewrite (C "enable_shielded_rollout_hitch" eq_refl eq_refl). reflexivity. }
  destruct P as [P1 P2]. { intros ->. apply Hne. destruct (fst (sample_initial_conditions ng n 42)); [reflexivity|discriminate]. }
  destruct Rp as (_ & _ & _ & _ & _ & _ & _ & _ & R1 & R2). rewrite R1, R2. split; [exact P1|]. split; [exact P2|].
  rewrite (l_C53_safety _ _ _ _ _ _ _ _ _ _ _ E 0 0); [f_equal; lra|congruence|congruence].
Qed.

(** The hypotheses of the C53 theorems are met by the shipped base configuration. *)
Lemma x_C53_shipped_base : complete base_config /\ one_trailer base_config /\ base_config "num_trailers" = Some (VInt 1) /\
  on_grid (5/2) /\ fst (sample_initial_conditions mid_rng 5 42) <> [] /\
  exists c, create_config_with_params base_config (hyperparameters (4, 9)%nat) = Ok c /\
    c "d_thr_factor" = Some (VFloat (suggest 4)) /\ suggest 4 = 5/2 /\ suggest 9 = 5 /\ c "Nsample" = Some (VInt 20000).
Proof.
  split; [exact base_complete|]. split; [split; reflexivity|]. split; [reflexivity|].
  split; [exists 5%nat; split; [lia|cbn; lra]|]. split.
  { destruct x_C43_five_trials as (_ & cs & E & L & _). rewrite E. cbn [fst]. intros ->. discriminate. }
  eexists. split; [reflexivity|]. split; [reflexivity|]. unfold suggest. cbn [Nat.min INR]. split; [lra|]. split; [lra|]. reflexivity.
Qed.
