(** * ProofsConfig: dict_to_config_obj (C34). *)
From Coq Require Import String.
From Verif Require Import Base Config SpecConfig EnvModel Setup.
Local Open Scope string_scope.
Local Open Scope list_scope.
Open Scope R_scope.

Definition keys_of {A : Type} (l : list (string * ty * A)) : list string := map (fun x => fst (fst x)) l.

Lemma eval_kwargs_lookup : forall repr d cs m, eval_kwargs repr d cs = Ok m -> NoDup (keys_of cs) ->
  (forall key t dflt, In (key, t, dflt) cs -> exists raw v,
     match d key with Some x => Some x | None => dflt end = Some raw /\ to_type repr t raw = Ok v /\ lookup m key = Some v) /\
  (forall key, ~ In key (keys_of cs) -> lookup m key = None).
Proof.
  intros repr d cs. induction cs as [|[[k t] dflt] cs IH]; intros m H Hnd; cbn [eval_kwargs] in H.
  - injection H as <-. split; [intros ? ? ? []|]. reflexivity.
  - inversion Hnd as [|? ? Hk Hnd']; subst.
    destruct (match d k, dflt with Some v, _ => Ok v | None, Some v => Ok v | None, None => Err KeyError end) as [raw|] eqn:Er; [|discriminate].
    destruct (to_type repr t raw) as [v|] eqn:Et; [|discriminate].
    destruct (eval_kwargs repr d cs) as [m'|] eqn:Em; [|discriminate]. injection H as <-.
    destruct (IH m' eq_refl Hnd') as [IH1 IH2]. split.
    + intros key t0 dflt0 [E|Hin].
      * injection E as -> -> ->. exists raw, v. cbn. rewrite String.eqb_refl. split; [|auto].
        destruct (d key), dflt0; congruence.
      * destruct (IH1 _ _ _ Hin) as (r & w & A & B & C). exists r, w. split; [exact A|]. split; [exact B|].
        cbn. destruct (String.eqb_spec k key) as [->|]; [|exact C].
        exfalso. apply Hk. cbn. unfold keys_of. apply in_map_iff. exists (key, t0, dflt0). auto.
    + intros key Hn. cbn in *. destruct (String.eqb_spec k key) as [->|]; [exfalso; auto|]. apply IH2. auto.
Qed.

Lemma conversions_nodup : NoDup (keys_of conversions).
Proof.
  assert (H : (fix nd (l : list string) : bool := match l with [] => true | x :: r => negb (existsb (String.eqb x) r) && nd r end)
            (keys_of conversions) = true) by (vm_compute; reflexivity).
  revert H. generalize (keys_of conversions). intros l. induction l as [|x l IH]; intros H; [constructor|].
  apply andb_prop in H as [H1 H2]. constructor; [|apply IH, H2].
  intros Hin. apply negb_true_iff in H1.
  assert (existsb (String.eqb x) l = true) by (apply existsb_exists; exists x; split; [exact Hin|apply String.eqb_refl]).
  congruence.
Qed.

Definition memb (f : string) (l : list string) : bool := existsb (String.eqb f) l.
Lemma memb_in : forall f l, memb f l = true <-> In f l.
Proof.
  intros f l. unfold memb. rewrite existsb_exists. split.
  - intros (x & H & E). apply String.eqb_eq in E. subst. exact H.
  - intros H. exists f. split; [exact H|apply String.eqb_refl].
Qed.
Definition ty_eqb (a b : ty) : bool :=
  match a, b with TInt, TInt | TFloat, TFloat | TBool, TBool | TStr, TStr => true | _, _ => false end.
Lemma ty_eqb_eq : forall a b, ty_eqb a b = true -> a = b.
Proof. intros [] []; cbn; congruence. Qed.

Definition mand_list : list string :=
  ["seed"; "render"; "env_name"; "case"; "Nsample"; "Hsample"; "Ndiffuse"; "temp_sample"; "beta0";
   "betaT"; "enable_demo"; "save_animation"; "show_animation"; "save_denoising_animation"; "dt"].
Definition drop_list : list string := ["verbose"; "frame_skip"; "num_trailers"].
Definition has_conv (f : string) (t : ty) (opt : bool) : bool :=
  existsb (fun c => String.eqb (fst (fst c)) f && ty_eqb t (snd (fst c)) &&
                    match snd c with None => negb opt | Some _ => opt end) conversions.
Lemma has_conv_in : forall f t opt, has_conv f t opt = true ->
  exists dflt, In (f, t, dflt) conversions /\ match dflt with None => opt = false | Some _ => opt = true end.
Proof.
  intros f t opt H. unfold has_conv in H. apply existsb_exists in H as ([[k t'] o] & Hin & H). cbn in H.
  apply andb_prop in H as [H H3]. apply andb_prop in H as [H1 H2].
  apply String.eqb_eq in H1. apply ty_eqb_eq in H2. subst. exists o. split; [exact Hin|].
  destruct o, opt; cbn in H3; congruence.
Qed.

Lemma field_cases : forall f t, is_field f t ->
  (dropped f /\ ~ mandatory f /\ ~ In f (keys_of conversions)) \/
  (~ dropped f /\ mandatory f /\ In (f, t, None) conversions) \/
  (~ dropped f /\ ~ mandatory f /\ exists dv, In (f, t, Some dv) conversions).
Proof.
  assert (H : forallb (fun x => let '(f, t, _) := x in
     (memb f drop_list && negb (memb f mand_list) && negb (memb f (keys_of conversions))) ||
     (negb (memb f drop_list) && memb f mand_list && has_conv f t false) ||
     (negb (memb f drop_list) && negb (memb f mand_list) && has_conv f t true)) dataclass_fields = true) by (vm_compute; reflexivity).
  rewrite forallb_forall in H. intros f t [dv Hin]. specialize (H _ Hin). cbn beta iota in H.
  assert (Hneg : forall l, negb (memb f l) = true -> ~ In f l).
  { intros l Hl Hi. apply memb_in in Hi. rewrite Hi in Hl. discriminate. }
  apply orb_prop in H as [H|H]; [apply orb_prop in H as [H|H]|];
    apply andb_prop in H as [H H3]; apply andb_prop in H as [H1 H2].
  - left. split; [apply memb_in, H1|]. split; [apply Hneg, H2|apply Hneg, H3].
  - right; left. split; [apply Hneg, H1|]. split; [apply memb_in, H2|].
    apply has_conv_in in H3 as ([d|] & Hd & E); [discriminate|exact Hd].
  - right; right. split; [apply Hneg, H1|]. split; [apply Hneg, H2|].
    apply has_conv_in in H3 as ([d|] & Hd & E); [eauto|discriminate].
Qed.

(** Conversely every conversion is for a field of that type, and its default has that type. *)
Lemma conv_field : forall f t o, In (f, t, o) conversions -> is_field f t /\ (mandatory f <-> o = None) /\
  (forall v, o = Some v -> has_type t v).
Proof.
  assert (H : forallb (fun x => let '(f, t, o) := x in
     existsb (fun y => String.eqb (fst (fst y)) f && ty_eqb t (snd (fst y))) dataclass_fields &&
     (match o with None => memb f mand_list | Some v => negb (memb f mand_list) &&
        match t, v with TInt, VInt _ | TFloat, VFloat _ | TBool, VBool _ | TStr, VStr _ => true | _, _ => false end end)) conversions = true) by (vm_compute; reflexivity).
  rewrite forallb_forall in H. intros f t o Hin. specialize (H _ Hin). cbn beta iota in H.
  apply andb_prop in H as [H1 H2]. split; [|split].
  - apply existsb_exists in H1 as ([[k t'] dv] & Hi & E). cbn in E. apply andb_prop in E as [E1 E2].
    apply String.eqb_eq in E1. apply ty_eqb_eq in E2. subst. exists dv. exact Hi.
  - destruct o as [v|].
    + apply andb_prop in H2 as [H2 _]. split; [|discriminate]. intros Hm. change (mandatory f) with (In f mand_list) in Hm.
      apply memb_in in Hm. rewrite Hm in H2. discriminate.
    + split; [reflexivity|]. intros _. apply memb_in, H2.
  - intros v ->. apply andb_prop in H2 as [_ H2]. destruct t, v; cbn in *; try discriminate; exact I.
Qed.

Lemma to_type_id : forall repr t v, has_type t v -> to_type repr t v = Ok v.
Proof. intros repr [] []; cbn; try contradiction; reflexivity. Qed.

Lemma config_value : forall repr d c f t dflt, dict_to_config_obj repr d = Ok c -> In (f, t, dflt) conversions ->
  exists raw v, match d f with Some x => Some x | None => dflt end = Some raw /\ to_type repr t raw = Ok v /\ c f = Some v.
Proof.
  intros repr d c f t dflt H Hin. unfold dict_to_config_obj in H.
  destruct (eval_kwargs repr d conversions) as [m|] eqn:E; [|discriminate]. injection H as <-.
  destruct (eval_kwargs_lookup _ _ _ _ E conversions_nodup) as [H1 _].
  destruct (H1 _ _ _ Hin) as (raw & v & A & B & C). exists raw, v. rewrite C. auto.
Qed.

(** Every field except verbose, frame_skip and num_trailers takes the dictionary's value, if it
    has the annotated type. *)
Lemma l_C34_values_copied :
  forall repr d c f t v, dict_to_config_obj repr d = Ok c -> is_field f t -> ~ dropped f ->
  d f = Some v -> has_type t v -> c f = Some v.
Proof.
  intros repr d c f t v H Hf Hnd Hd Ht.
  assert (Hin : exists o, In (f, t, o) conversions).
  { destruct (field_cases f t Hf) as [[A _]|[(_ & _ & A)|(_ & _ & A)]]; [contradiction|eauto|]. destruct A; eauto. }
  destruct Hin as [o Hin]. destruct (config_value _ _ _ _ _ _ H Hin) as (raw & w & A & B & C).
  rewrite Hd in A. injection A as <-. rewrite (to_type_id _ _ _ Ht) in B. injection B as <-. exact C.
Qed.

(** Every attribute of the result has its annotated type, whatever the dictionary contained. *)
Lemma l_C34_result_typed :
  forall repr d c f t, dict_to_config_obj repr d = Ok c -> is_field f t -> exists v, c f = Some v /\ has_type t v.
Proof.
  intros repr d c f t H Hf.
  assert (Htt : forall r v, to_type repr t r = Ok v -> has_type t v).
  { intros r v. destruct t, r; cbn; intros E; try discriminate; injection E as <-; exact I. }
  destruct (field_cases f t Hf) as [(A & _ & A')|[(_ & _ & A)|(_ & _ & dv & A)]].
  - unfold dict_to_config_obj in H. destruct (eval_kwargs repr d conversions) as [m|] eqn:E; [|discriminate].
    injection H as <-. destruct (eval_kwargs_lookup _ _ _ _ E conversions_nodup) as [_ H2]. rewrite (H2 _ A').
    destruct Hf as [dv Hdv].
    unfold dropped in A. cbn in A. destruct A as [<-|[<-|[<-|[]]]]; cbn; eexists; (split; [reflexivity|]);
      assert (Ht : forallb (fun x => let '(k, t', _) := x in
         (negb (String.eqb k "verbose") || ty_eqb t' TBool) && (negb (String.eqb k "frame_skip") || ty_eqb t' TInt) &&
         (negb (String.eqb k "num_trailers") || ty_eqb t' TInt)) dataclass_fields = true) by (vm_compute; reflexivity);
      rewrite forallb_forall in Ht; specialize (Ht _ Hdv); cbn in Ht; destruct t; cbn in *; try discriminate; exact I.
  - destruct (config_value _ _ _ _ _ _ H A) as (raw & v & _ & B & C). eauto.
  - destruct (config_value _ _ _ _ _ _ H A) as (raw & v & _ & B & C). eauto.
Qed.

Lemma eval_kwargs_ok : forall repr d cs,
  (forall key t dflt, In (key, t, dflt) cs -> exists raw v,
     match d key with Some x => Some x | None => dflt end = Some raw /\ to_type repr t raw = Ok v) ->
  exists m, eval_kwargs repr d cs = Ok m.
Proof.
  intros repr d cs. induction cs as [|[[k t] o] cs IH]; intros H; cbn; [eauto|].
  destruct (H k t o (or_introl eq_refl)) as (raw & v & A & B).
  replace (match d k, o with Some v, _ => Ok v | None, Some v => Ok v | None, None => Err KeyError end) with (Ok raw)
    by (destruct (d k), o; congruence).
  rewrite B. destruct IH as [m ->]; [intros; apply H; right; assumption|]. eauto.
Qed.

Lemma eval_kwargs_keyerror : forall repr d cs,
  (forall key t dflt raw, In (key, t, dflt) cs -> match d key with Some x => Some x | None => dflt end = Some raw ->
     exists v, to_type repr t raw = Ok v) ->
  (exists key t, In (key, t, None) cs /\ d key = None) -> eval_kwargs repr d cs = Err KeyError.
Proof.
  intros repr d cs. induction cs as [|[[k t] o] cs IH]; intros H (key & t0 & Hin & Hd); [contradiction|]. cbn.
  destruct (match d k with Some x => Some x | None => o end) as [raw|] eqn:E.
  - replace (match d k, o with Some v, _ => Ok v | None, Some v => Ok v | None, None => Err KeyError end) with (Ok raw)
      by (destruct (d k), o; congruence).
    destruct (H k t o raw (or_introl eq_refl) E) as [v ->].
    rewrite IH; [reflexivity|intros; eapply H; [right|]; eassumption|].
    destruct Hin as [Hin|Hin]; [|eauto]. injection Hin as -> -> ->. rewrite Hd in E. discriminate.
  - destruct (d k), o; try discriminate. reflexivity.
Qed.

Lemma numeric_conv : forall repr d f t o raw, numeric_where_needed d -> In (f, t, o) conversions ->
  match d f with Some x => Some x | None => o end = Some raw -> exists v, to_type repr t raw = Ok v.
Proof.
  intros repr d f t o raw Hn Hin E. destruct (conv_field _ _ _ Hin) as (Hf & _ & Ht).
  destruct (d f) as [x|] eqn:Ed.
  - injection E as ->. destruct raw as [z|x|b|s]; [destruct t; eexists; reflexivity..|].
    destruct (Hn f t s Hf Ed) as [-> | ->]; eexists; reflexivity.
  - subst o. exists raw. apply to_type_id. auto.
Qed.

Lemma mandatory_conv : forall f, mandatory f -> exists t, In (f, t, None) conversions.
Proof.
  assert (H : forallb (fun g => (has_conv g TInt false || has_conv g TFloat false) || (has_conv g TBool false || has_conv g TStr false)) mand_list = true)
    by (vm_compute; reflexivity).
  rewrite forallb_forall in H. intros f Hm. specialize (H f Hm).
  assert (Ht : exists t, has_conv f t false = true).
  { apply orb_prop in H as [H|H]; apply orb_prop in H as [H|H]; eauto. }
  destruct Ht as [t Ht]. apply has_conv_in in Ht as ([?|] & Hin & E); [discriminate|eauto].
Qed.

(** If numeric fields hold numbers: KeyError exactly when a mandatory key is missing. *)
Lemma l_C34_key_error :
  forall repr d, numeric_where_needed d ->
  ((exists f, mandatory f /\ d f = None) -> dict_to_config_obj repr d = Err KeyError) /\
  ((forall f, mandatory f -> d f <> None) -> exists c, dict_to_config_obj repr d = Ok c).
Proof.
  intros repr d Hn. unfold dict_to_config_obj. split.
  - intros (f & Hm & Hd). rewrite eval_kwargs_keyerror; [reflexivity| |].
    + intros; eapply numeric_conv; eassumption.
    + assert (Hc : exists t, In (f, t, None) conversions).
      { apply mandatory_conv, Hm. }
      destruct Hc as [t Hc]. eauto.
  - intros Hm. destruct (eval_kwargs_ok repr d conversions) as [m ->]; [|eauto].
    intros f t o Hin. destruct (conv_field _ _ _ Hin) as (_ & Hmand & _).
    destruct (match d f with Some x => Some x | None => o end) as [raw|] eqn:E.
    + destruct (numeric_conv repr d f t o raw Hn Hin E) as [v Hv]. eauto.
    + exfalso. destruct (d f) eqn:Ed; [discriminate|]. apply (Hm f); [apply Hmand, E|exact Ed].
Qed.

(** Without that hypothesis a missing mandatory key still never yields a configuration. *)
Lemma l_C34_missing_key_never_succeeds :
  forall repr d f, mandatory f -> d f = None -> forall c, dict_to_config_obj repr d <> Ok c.
Proof.
  intros repr d f Hm Hd c H.
  assert (Hc : exists t, In (f, t, None) conversions).
  { apply mandatory_conv, Hm. }
  destruct Hc as [t Hc]. destruct (config_value _ _ _ _ _ _ H Hc) as (raw & v & A & _). rewrite Hd in A. discriminate.
Qed.

(** Only the entries for supported fields matter. *)
Lemma l_C34_other_keys_ignored :
  forall repr d d', (forall f t, is_field f t -> ~ dropped f -> d f = d' f) ->
  dict_to_config_obj repr d = dict_to_config_obj repr d'.
Proof.
  intros repr d d' H. unfold dict_to_config_obj.
  replace (eval_kwargs repr d' conversions) with (eval_kwargs repr d conversions); [reflexivity|].
  assert (Hc : forall f t o, In (f, t, o) conversions -> d f = d' f).
  { intros f t o Hin. destruct (conv_field _ _ _ Hin) as (Hf & _). apply (H f t Hf).
    destruct (field_cases f t Hf) as [(_ & _ & A)|[(A & _)|(A & _)]]; [|exact A|exact A].
    exfalso. apply A. unfold keys_of. apply in_map_iff. exists (f, t, o). auto. }
  revert Hc. generalize conversions. intros cs. induction cs as [|[[k t] o] cs IH]; intros Hc; [reflexivity|]. cbn.
  rewrite (Hc k t o (or_introl eq_refl)), IH; [reflexivity|]. intros; eapply Hc; right; eassumption.
Qed.

Lemma dflt_value : forall repr d c f t dv, dict_to_config_obj repr d = Ok c -> In (f, t, Some dv) conversions ->
  d f = None -> c f = Some dv.
Proof.
  intros repr d c f t dv H Hin Hd. destruct (config_value _ _ _ _ _ _ H Hin) as (raw & v & A & B & C).
  rewrite Hd in A. injection A as <-. destruct (conv_field _ _ _ Hin) as (_ & _ & Ht).
  rewrite (to_type_id _ _ _ (Ht _ eq_refl)) in B. injection B as <-. exact C.
Qed.

Fixpoint find_conv (f : string) (l : list (string * ty * option val)) : option (ty * option val) :=
  match l with [] => None | (k, t, o) :: r => if String.eqb k f then Some (t, o) else find_conv f r end.
Lemma find_conv_in : forall f l t o, find_conv f l = Some (t, o) -> In (f, t, o) l.
Proof.
  intros f l t o. induction l as [|[[k t'] o'] l IH]; cbn; [discriminate|].
  destruct (String.eqb_spec k f) as [->|]; intros H; [injection H as -> ->; left; reflexivity|right; auto].
Qed.
Lemma dflt_find : forall repr d c f t dv, dict_to_config_obj repr d = Ok c -> find_conv f conversions = Some (t, Some dv) ->
  d f = None -> c f = Some dv.
Proof. intros. eapply dflt_value; eauto using find_conv_in. Qed.

(** An omitted optional key gets the default that get_env uses for the parameter of that name. *)
Lemma l_C34_defaults_are_those_of_get_env :
  forall repr d c name case trailers, dict_to_config_obj repr d = Ok c ->
  let g := default_env_args name case trailers in
  (d "motion_preference" = None -> c "motion_preference" = Some (VInt (g_motion g))) /\
  (d "enable_shielded_rollout_collision" = None -> c "enable_shielded_rollout_collision" = Some (VBool (g_sh_coll g))) /\
  (d "enable_shielded_rollout_hitch" = None -> c "enable_shielded_rollout_hitch" = Some (VBool (g_sh_hitch g))) /\
  (d "enable_projection" = None -> c "enable_projection" = Some (VBool (g_proj g))) /\
  (d "enable_guidance" = None -> c "enable_guidance" = Some (VBool (g_guid g))) /\
  forall f x, In (f, x) [
    ("collision_penalty", g_coll_pen g);
    ("hitch_penalty", g_hitch_pen g);
    ("reward_threshold", g_rew_thr g);
    ("ref_reward_threshold", g_ref_thr g);
    ("max_w_theta", g_max_w g);
    ("hitch_angle_weight", g_hitch_w g);
    ("l1", g_l1 g);
    ("l2", g_l2 g);
    ("lh", g_lh g);
    ("lf1", g_lf1 g);
    ("lr", g_lr g);
    ("lf2", g_lf2 g);
    ("lr2", g_lr2 g);
    ("tractor_width", g_trac_w g);
    ("trailer_width", g_trail_w g);
    ("v_max", g_vmax g);
    ("delta_max_deg", g_ddeg g);
    ("a_max", g_amax g);
    ("omega_max", g_omax g);
    ("d_thr_factor", g_d_fac g);
    ("k_switch", g_kswitch g);
    ("steering_weight", g_steer_w g);
    ("preference_penalty_weight", g_pref_w g);
    ("heading_reward_weight", g_head_w g);
    ("terminal_reward_threshold", g_term_thr g);
    ("terminal_reward_weight", g_term_w g);
    ("ref_pos_weight", g_rpos_w g);
    ("ref_theta1_weight", g_rth1_w g);
    ("ref_theta2_weight", g_rth2_w g)] ->
    d f = None -> exists x', c f = Some (VFloat x') /\ x' = x.
Proof.
  intros repr d c name case trailers H g.
  do 5 (split; [intros Hd; eapply dflt_find; [exact H|reflexivity|exact Hd]|]).
  intros f x Hin. cbn [In] in Hin.
  repeat match type of Hin with
  | False => contradiction
  | _ \/ _ => destruct Hin as [Hin|Hin]; [apply pair_equal_spec in Hin as [<- <-]; intros Hd;
      eexists; split; [eapply dflt_find; [exact H|reflexivity|exact Hd]|cbn; lra]|]
  end.
Qed.

(** The dataclass itself has different defaults: for these eleven fields an omitted key does not
    give the value that MBDConfig() has. *)
Lemma l_C34_defaults_are_those_of_the_dataclass_refuted :
  forall repr d c, dict_to_config_obj repr d = Ok c -> forall f,
  In f ["reward_threshold"; "ref_reward_threshold"; "max_w_theta"; "hitch_angle_weight"; "steering_weight";
        "preference_penalty_weight"; "terminal_reward_threshold"; "terminal_reward_weight"; "ref_pos_weight";
        "ref_theta1_weight"; "ref_theta2_weight"] ->
  d f = None -> exists v, c f = Some v /\ forall t dv, In (f, t, dv) dataclass_fields -> dv <> v.
Proof.
  intros repr d c H f Hin Hd.
  assert (Hu : forall f t dv t' dv', In (f, t, dv) dataclass_fields -> In (f, t', dv') dataclass_fields -> dv = dv').
  { intros f0 t dv t' dv' A B.
    assert (Hnd : NoDup (keys_of dataclass_fields)).
    { assert (Hb : (fix nd (l : list string) : bool := match l with [] => true | x :: r => negb (existsb (String.eqb x) r) && nd r end)
            (keys_of dataclass_fields) = true) by (vm_compute; reflexivity).
      revert Hb. generalize (keys_of dataclass_fields). intros l. induction l as [|x l IH]; intros Hb; [constructor|].
      apply andb_prop in Hb as [H1 H2]. constructor; [|apply IH, H2].
      intros Hi. apply negb_true_iff in H1.
      assert (existsb (String.eqb x) l = true) by (apply existsb_exists; exists x; split; [exact Hi|apply String.eqb_refl]).
      congruence. }
    revert Hnd A B. generalize dataclass_fields. intros l. induction l as [|[[k u] w] l IH]; intros Hnd A B; [contradiction|].
    inversion Hnd as [|? ? Hk Hnd']; subst.
    destruct A as [A|A], B as [B|B].
    - congruence.
    - exfalso. injection A as -> -> ->. apply Hk. unfold keys_of. apply in_map_iff. exists (f0, t', dv'). auto.
    - exfalso. injection B as -> -> ->. apply Hk. unfold keys_of. apply in_map_iff. exists (f0, t, dv). auto.
    - auto. }
  assert (Hfind : forall f t dv, (fix fd (l : list (string * ty * val)) := match l with [] => None | (k, u, w) :: r => if String.eqb k f then Some (u, w) else fd r end) dataclass_fields = Some (t, dv) -> In (f, t, dv) dataclass_fields).
  { intros f0 t dv. generalize dataclass_fields. intros l. induction l as [|[[k u] w] l IH]; [discriminate|].
    destruct (String.eqb_spec k f0) as [->|]; intros E; [injection E as -> ->; left; reflexivity|right; auto]. }
  cbn [In] in Hin.
  repeat match type of Hin with
  | False => contradiction
  | _ \/ _ => destruct Hin as [Hin|Hin]; [subst f; eexists; split; [eapply dflt_find; [exact H|reflexivity|exact Hd]|];
      intros t dv Hdv E; match type of Hdv with In (?k, _, _) _ => let Hy := fresh in eassert (Hy : In (k, _, _) dataclass_fields) by (apply Hfind; reflexivity); pose proof (Hu _ _ _ _ _ Hdv Hy) as Hx end; rewrite Hx in E; injection E as E; lra|]
  end.
Qed.

(** num_trailers, verbose and frame_skip in the dictionary are silently ignored. *)
Lemma l_C34_every_field_copied_refuted :
  forall repr d c, dict_to_config_obj repr d = Ok c ->
  c "num_trailers" = Some (VInt 1) /\ c "verbose" = Some (VBool false) /\ c "frame_skip" = Some (VInt 1).
Proof.
  intros repr d c H. unfold dict_to_config_obj in H.
  destruct (eval_kwargs repr d conversions) as [m|] eqn:E; [|discriminate]. injection H as <-.
  destruct (eval_kwargs_lookup _ _ _ _ E conversions_nodup) as [_ H2].
  assert (Hn : forall f, memb f (keys_of conversions) = false -> lookup m f = None).
  { intros f Hf. apply H2. intros Hi. apply memb_in in Hi. congruence. }
  rewrite !Hn by (vm_compute; reflexivity). auto.
Qed.

(** A flag given as the text "False" is switched on. *)
Lemma l_C34_text_false_is_false_refuted :
  forall repr d c, dict_to_config_obj repr d = Ok c -> d "enable_guidance" = Some (VStr "False") ->
  c "enable_guidance" = Some (VBool true).
Proof.
  intros repr d c H Hd.
  assert (Hin : In ("enable_guidance", TBool, Some (VBool false)) conversions) by (apply find_conv_in; reflexivity).
  destruct (config_value _ _ _ _ _ _ H Hin) as (raw & v & A & B & C). rewrite Hd in A. injection A as <-.
  cbn in B. injection B as <-. exact C.
Qed.

(** A dictionary with the mandatory keys only. *)
Definition ex_dict : dict := fun f =>
  if memb f ["seed"; "Nsample"; "Hsample"; "Ndiffuse"] then Some (VInt 50)
  else if memb f ["temp_sample"; "beta0"; "betaT"; "dt"] then Some (VFloat (1/4))
  else if memb f ["env_name"; "case"] then Some (VStr "tt2d")
  else if memb f ["render"; "enable_demo"; "save_animation"; "show_animation"; "save_denoising_animation"] then Some (VBool false)
  else None.
Lemma x_C34_mandatory_only :
  exists c, dict_to_config_obj (fun _ => "") ex_dict = Ok c /\ c "dt" = Some (VFloat (1/4)) /\
    c "reward_threshold" = Some (VFloat 25) /\ numeric_where_needed ex_dict.
Proof.
  eexists. split; [reflexivity|]. split; [reflexivity|]. split; [cbn; f_equal; f_equal; lra|].
  intros f t s Hf Hd. unfold ex_dict in Hd.
  destruct (memb f ["seed"; "Nsample"; "Hsample"; "Ndiffuse"]); [discriminate|].
  destruct (memb f ["temp_sample"; "beta0"; "betaT"; "dt"]); [discriminate|].
  destruct (memb f ["env_name"; "case"]) eqn:E.
  - destruct Hf as [dv Hf].
    assert (H : forallb (fun x => negb (memb (fst (fst x)) ["env_name"; "case"]) || ty_eqb (snd (fst x)) TStr) dataclass_fields = true) by (vm_compute; reflexivity).
    rewrite forallb_forall in H. specialize (H _ Hf). cbn [fst snd] in H. rewrite E in H. cbn in H. apply ty_eqb_eq in H. auto.
  - repeat match type of Hd with context [if ?b then _ else _] => destruct b end; discriminate.
Qed.
