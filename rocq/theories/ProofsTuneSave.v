(** * ProofsTuneSave: the result file of the hyperparameter search (C72). *)
From Coq Require Import String Lia Reals Lra.
From Verif Require Import Base BaseFacts Params Geom TT2d Rollout Demo EnvModel Setup Stats SpecStats
  ProofsStats Config SpecConfig Planner Cache CacheInst SpecCache Tune SpecTune ProofsTune TuneSave SpecTuneSave.
From Coq Require Import List.
Import ListNotations.
Local Open Scope string_scope.
Local Open Scope list_scope.
Open Scope R_scope.

Lemma best_from_first : forall l b, exists i, nth_error (b :: l) i = Some (best_from b l) /\
  forall j r, (j < i)%nat -> nth_error (b :: l) j = Some r -> tu_score r < tu_score (best_from b l).
Proof.
  induction l as [|x l IH]; intros b; cbn [best_from].
  - exists 0%nat. split; [reflexivity|]. intros j r H. lia.
  - destruct (IH (if Rltb (tu_score b) (tu_score x) then x else b)) as (i & E & F).
    pose proof (proj2 (best_from_spec l (if Rltb (tu_score b) (tu_score x) then x else b)) _ (or_introl eq_refl)) as G.
    destruct (Rltb (tu_score b) (tu_score x)) eqn:Lt.
    + apply Rltb_true in Lt. exists (S i). split; [exact E|]. intros [|j] r Hj Er; cbn in Er.
      * injection Er as <-. lra.
      * apply (F j r); [lia|exact Er].
    + apply Rltb_false in Lt. destruct i as [|i].
      * exists 0%nat. split; [exact E|]. intros j r H. lia.
      * exists (S (S i)). split; [exact E|]. pose proof (F 0%nat b ltac:(lia) eq_refl) as F0. intros [|[|j]] r Hj Er; cbn in Er.
        -- injection Er as <-. exact F0.
        -- injection Er as <-. lra.
        -- apply (F (S j) r); [lia|exact Er].
Qed.

Lemma dict_ok c ks : (forall k, In k ks -> c k <> None) -> exists m, config_to_dict c ks = Ok m /\
  forall k v, In (k, v) m <-> In k ks /\ c k = Some v.
Proof.
  induction ks as [|k ks IH]; intros H.
  - exists []. split; [reflexivity|]. intros k v. cbn [In]. tauto.
  - destruct (IH (fun k' Hk => H k' (or_intror Hk))) as (m & E & S). cbn [config_to_dict].
    destruct (c k) as [v0|] eqn:Ec; [|destruct (H k (or_introl eq_refl) Ec)]. rewrite E. exists ((k, v0) :: m). split; [reflexivity|].
    intros k' v. cbn [In]. split.
    + intros [Eq|I]; [apply pair_equal_spec in Eq as [<- <-]; auto|]. apply S in I. tauto.
    + intros [[<-|I] Ev]; [left; congruence|]. right. apply S. auto.
Qed.
Lemma recorded_fields : forall k, In k kept_fields <-> In k recorded.
Proof. intros k. unfold kept_fields, recorded. cbn [In]. tauto. Qed.
Lemma kept_are_fields : forall k, In k kept_fields -> exists t, is_field k t.
Proof.
  assert (A : forallb (fun k => existsb (fun f => String.eqb (fst (fst f)) k) dataclass_fields) kept_fields = true) by reflexivity.
  rewrite forallb_forall in A. intros k Hk. specialize (A k Hk). apply existsb_exists in A. destruct A as ([[k' t] dv] & Hf & E).
  apply String.eqb_eq in E. cbn [fst] in E. subst k'. exists t, dv. exact Hf.
Qed.
Lemma dict_complete c : complete c -> exists m, config_to_dict c kept_fields = Ok m /\ forall k v, In (k, v) m <-> In k recorded /\ c k = Some v.
Proof.
  intros C. destruct (dict_ok c kept_fields) as (m & E & S).
  { intros k Hk. destruct (kept_are_fields k Hk) as (t & Ht). exact (C k t Ht). }
  exists m. split; [exact E|]. intros k v. rewrite S, recorded_fields. reflexivity.
Qed.

(** A run of the method in terms of run_optimization. *)
Lemma optimise_run cls rg ng t procs sampler worse n_trials ran l best :
  run_optimization cls (tn_base t) rg ng (tn_evals t) procs sampler worse n_trials ran = Ok (l, best) ->
  optimise cls rg ng t procs sampler worse n_trials ran =
    (mkTuner (tn_base t) (tn_evals t) (tn_study t) (tn_results t ++ l), Ok (mkStudy (Nat.min n_trials ran) l)) /\ best_trial l = Ok best.
Proof.
  unfold run_optimization, optimise. destruct (optimize cls (tn_base t) rg ng (tn_evals t) procs sampler worse (Nat.min n_trials ran) 0 []) as [l' [u|e]]; [|discriminate].
  destruct (best_trial l') as [b|] eqn:Eb; [|discriminate]. intros H. 
  assert (E : (l', b) = (l, best)) by congruence. apply pair_equal_spec in E as [-> ->]. auto.
Qed.

Lemma best_numbered l best : best_trial l = Ok best -> (forall i r, nth_error l i = Some r -> tu_number r = i) ->
  nth_error l (tu_number best) = Some best /\ (forall r, In r l -> tu_score r <= tu_score best) /\
  (forall i r, (i < tu_number best)%nat -> nth_error l i = Some r -> tu_score r < tu_score best).
Proof.
  destruct l as [|r0 l]; [discriminate|]. cbn [best_trial]. intros [= <-] N.
  destruct (best_from_first l r0) as (i & E & F). pose proof (N _ _ E) as Ei. rewrite Ei. split; [exact E|]. split; [apply best_from_spec|exact F].
Qed.

(** A search and the file saved after it, for a base configuration of the one-trailer vehicle without demonstration: each
    earlier result of the object is kept, the new ones follow; the file holds them all, names the best of the new ones,
    counts the new ones, and records the listed fields of the base configuration; no other file changes. *)
Lemma search_saved proj guide (b : obj (tt_self * ttq) (list refrow)) (hs : nat -> list op) t rg ng sampler worse n_trials ran fs path :
  let cls := fun _ : string => tt_methods proj guide in
  complete (tn_base t) -> one_trailer (tn_base t) -> (0 < tn_evals t)%nat -> (0 < n_trials)%nat -> (0 < ran)%nat ->
  exists l f,
    optimise cls rg ng t (fun i => execs cls (start b) (hs i)) sampler worse n_trials ran =
      (mkTuner (tn_base t) (tn_evals t) (tn_study t) (tn_results t ++ l), Ok (mkStudy (Nat.min n_trials ran) l)) /\
    length l = Nat.min n_trials ran /\
    (forall i r, nth_error l i = Some r -> exists d k st, on_grid d /\ on_grid k /\
       evaluated proj guide (tn_base t) rg ng (tn_evals t) d k st /\ reports r i (tn_evals t) d k st) /\
    (forall s', sd_done s' = l -> sd_trials s' = length l ->
     save_results fs (mkTuner (tn_base t) (tn_evals t) (tn_study t) (tn_results t ++ l)) s' path =
      (fun p => if String.eqb p path then Some f else fs p, Ok tt)) /\
    sv_study f = tn_study t /\ sv_all f = tn_results t ++ l /\ sv_trials f = length l /\ names_best f l /\ holds_fields f (tn_base t) recorded.
Proof.
  intros cls HC H1 Hn Ht Hr.
  destruct (l_C53_search proj guide b hs (tn_base t) rg ng (tn_evals t) sampler worse n_trials ran HC H1 Hn Ht Hr) as (l & best & E & L & F & _).
  fold cls in E. destruct (optimise_run _ _ _ _ _ _ _ _ _ _ _ E) as [O B]. destruct (dict_complete _ HC) as (m & Em & Sm).
  assert (N : forall i r, nth_error l i = Some r -> tu_number r = i).
  { intros i r Hi. destruct (F i r Hi) as (d & k & st & _ & _ & _ & (A & _) & _). exact A. }
  destruct (best_numbered l best B N) as (B1 & B2 & B3).
  exists l, (mkSaved (tn_study t) (tu_number best) (tu_score best) (tu_params best) (length l) m (tn_results t ++ l)).
  split; [exact O|]. split; [exact L|]. split.
  { intros i r Hi. destruct (F i r Hi) as (d & k & st & G1 & G2 & G3 & G4 & _). exists d, k, st. auto. }
  split. { intros [tr dn] E1 E2. cbn [sd_done sd_trials] in E1, E2. subst. unfold save_results. cbn [sd_done sd_trials tn_base tn_study tn_results]. rewrite B, Em. reflexivity. }
  split; [reflexivity|]. split; [reflexivity|]. split; [reflexivity|]. split; [exists best; auto|exact Sm].
Qed.

(** A new search object is run once and saved: the file lists exactly the trials of the search, in order, each with values
    of the grid and the statistics of the configuration with those values, names the first of those with the highest score,
    counts them, and records the listed fields of the base configuration. *)
Lemma l_C72_saved_file :
  forall proj guide (b : obj (tt_self * ttq) (list refrow)) (hs : nat -> list op) base n name rg ng sampler worse n_trials ran fs path,
  let cls := fun _ : string => tt_methods proj guide in
  complete base -> one_trailer base -> (0 < n)%nat -> (0 < n_trials)%nat -> (0 < ran)%nat ->
  exists t s fs' f,
    optimise cls rg ng (new_tuner base n name) (fun i => execs cls (start b) (hs i)) sampler worse n_trials ran = (t, Ok s) /\
    save_results fs t s path = (fs', Ok tt) /\ fs' path = Some f /\ (forall p, p <> path -> fs' p = fs p) /\
    sv_study f = name /\ sv_trials f = Nat.min n_trials ran /\ length (sv_all f) = sv_trials f /\
    (forall i r, nth_error (sv_all f) i = Some r -> exists d k st, on_grid d /\ on_grid k /\
       evaluated proj guide base rg ng n d k st /\ reports r i n d k st) /\
    names_best f (sv_all f) /\ holds_fields f base recorded.
Proof.
  intros proj guide b hs base n name rg ng sampler worse n_trials ran fs path cls HC H1 Hn Ht Hr.
  destruct (search_saved proj guide b hs (new_tuner base n name) rg ng sampler worse n_trials ran fs path HC H1 Hn Ht Hr)
    as (l & f & O & L & F & S & A1 & A2 & A3 & A4 & A5). fold cls in O, F. cbn [new_tuner tn_base tn_evals tn_study tn_results app] in *.
  do 4 eexists. split; [exact O|]. split; [apply S; [reflexivity|cbn [sd_trials]; congruence]|]. cbv beta. split; [rewrite String.eqb_refl; reflexivity|].
  split. { intros p Hp. destruct (String.eqb_spec p path); [contradiction|reflexivity]. }
  rewrite A2, A3. split; [exact A1|]. split; [exact L|]. split; [reflexivity|]. split; [exact F|]. split; [exact A4|exact A5].
Qed.

(** The script: for every number of trials started within its time limit (at least one), "mbd_optimization_results.json" holds
    all of them - at most 100, each evaluated on 100 start conditions - and no other file changes. *)
Lemma l_C72_script :
  forall proj guide (b : obj (tt_self * ttq) (list refrow)) (hs : nat -> list op) rg ng sampler worse ran fs,
  let cls := fun _ : string => tt_methods proj guide in
  (0 < ran)%nat ->
  exists fs' f, tune_main cls rg ng fs (fun i => execs cls (start b) (hs i)) sampler worse ran = (fs', Ok tt) /\
    fs' "mbd_optimization_results.json" = Some f /\ (forall p, p <> "mbd_optimization_results.json" -> fs' p = fs p) /\
    sv_trials f = Nat.min 100 ran /\ length (sv_all f) = sv_trials f /\
    (forall i r, nth_error (sv_all f) i = Some r -> exists d k st, on_grid d /\ on_grid k /\
       evaluated proj guide base_config rg ng 100 d k st /\ reports r i 100 d k st) /\
    names_best f (sv_all f) /\ holds_fields f base_config recorded.
Proof.
  intros proj guide b hs rg ng sampler worse ran fs cls Hr. destruct x_C53_shipped_base as (HC & H1 & _).
  assert (P : (0 < 100)%nat) by (apply Nat.ltb_lt; reflexivity).
  destruct (l_C72_saved_file proj guide b hs base_config 100%nat "mbd_parking_optimization" rg ng sampler worse 100%nat ran fs
     "mbd_optimization_results.json" HC H1 P P Hr) as (t & s & fs' & f & O & S & A & B & _ & C).
  fold cls in O. exists fs', f. split; [unfold tune_main; rewrite O; exact S|]. split; [exact A|]. split; [exact B|exact C].
Qed.

(** Whatever goes wrong - no trial, an exception in an evaluation, an incomplete configuration - the files stay as they are. *)
Lemma l_C72_failure_changes_no_file :
  (forall fs t s path fs' e, save_results fs t s path = (fs', Err e) -> fs' = fs) /\
  (forall fs t s path, sd_done s = [] -> save_results fs t s path = (fs, Err ValueError)) /\
  (forall fs t s path k, sd_done s <> [] -> In k recorded -> tn_base t k = None -> save_results fs t s path = (fs, Err AttributeError)) /\
  (forall cls rg ng fs procs sampler worse ran fs' e, tune_main cls rg ng fs procs sampler worse ran = (fs', Err e) -> fs' = fs).
Proof.
  assert (A : forall fs t s path fs' e, save_results fs t s path = (fs', Err e) -> fs' = fs).
  { intros fs t s path fs' e. unfold save_results. destruct (best_trial (sd_done s)); [|intros [= <- _]; reflexivity].
    destruct (config_to_dict (tn_base t) kept_fields); [discriminate|]. intros [= <- _]; reflexivity. }
  split; [exact A|]. split. { intros fs t s path E. unfold save_results. rewrite E. reflexivity. }
  split.
  { intros fs t s path k Hd Hk Hn. unfold save_results. destruct (sd_done s) as [|x l]; [contradiction|]. cbn [best_trial].
    assert (D : forall ks, In k ks -> config_to_dict (tn_base t) ks = Err AttributeError).
    { induction ks as [|k' ks IH]; [intros []|]. intros Hi. cbn [config_to_dict]. destruct (tn_base t k') eqn:Ek; [|reflexivity].
      destruct Hi as [->|Hi]; [congruence|]. rewrite (IH Hi). reflexivity. }
    rewrite (D kept_fields) by (apply recorded_fields; exact Hk). reflexivity. }
  intros cls rg ng fs procs sampler worse ran fs' e. unfold tune_main.
  destruct (optimise cls rg ng (new_tuner base_config 100 "mbd_parking_optimization") procs sampler worse 100 ran) as [t [s|e']].
  - apply A.
  - intros [= <- _]. reflexivity.
Qed.

(** What is not true for a search object used twice: the file saved after the second search lists the trials of both, so two
    trials carry number 0, while the number of trials and the best trial are those of the second search alone. *)
Lemma l_C72_second_search_refuted :
  forall proj guide (b : obj (tt_self * ttq) (list refrow)) (hs hs' : nat -> list op) base n name rg ng sampler sampler' worse worse' m m' ran ran' fs path,
  let cls := fun _ : string => tt_methods proj guide in
  complete base -> one_trailer base -> (0 < n)%nat -> (0 < m)%nat -> (0 < ran)%nat -> (0 < m')%nat -> (0 < ran')%nat ->
  exists t1 s1 t2 s2 fs' f r0 r1,
    optimise cls rg ng (new_tuner base n name) (fun i => execs cls (start b) (hs i)) sampler worse m ran = (t1, Ok s1) /\
    optimise cls rg ng t1 (fun i => execs cls (start b) (hs' i)) sampler' worse' m' ran' = (t2, Ok s2) /\
    save_results fs t2 s2 path = (fs', Ok tt) /\ fs' path = Some f /\
    (sv_trials f < length (sv_all f))%nat /\ sv_all f = sd_done s1 ++ sd_done s2 /\ names_best f (sd_done s2) /\
    nth_error (sv_all f) 0 = Some r0 /\ nth_error (sv_all f) (length (sd_done s1)) = Some r1 /\ tu_number r0 = 0%nat /\ tu_number r1 = 0%nat.
Proof.
  intros proj guide b hs hs' base n name rg ng sampler sampler' worse worse' m m' ran ran' fs path cls HC H1 Hn Hm Hr Hm' Hr'.
  destruct (search_saved proj guide b hs (new_tuner base n name) rg ng sampler worse m ran fs path HC H1 Hn Hm Hr)
    as (l & f & O & L & F & _). fold cls in O, F. cbn [new_tuner tn_base tn_evals tn_study tn_results app] in *.
  destruct (search_saved proj guide b hs' (mkTuner base n name l) rg ng sampler' worse' m' ran' fs path HC H1 Hn Hm' Hr')
    as (l' & f' & O' & L' & F' & S' & A1 & A2 & A3 & A4 & A5). fold cls in O', F'. cbn [tn_base tn_evals tn_study tn_results] in *.
  assert (P : forall (k : list tuned) a c, (0 < a)%nat -> (0 < c)%nat -> length k = Nat.min a c -> exists x, nth_error k 0 = Some x).
  { intros [|x k] a c Ha Hc E; [cbn [length] in E; lia|]. exists x. reflexivity. }
  destruct (P l m ran Hm Hr L) as (r0 & E0). destruct (P l' m' ran' Hm' Hr' L') as (r1 & E1).
  do 5 eexists. exists f', r0, r1. split; [exact O|]. split; [exact O'|]. split; [apply S'; [reflexivity|cbn [sd_trials]; congruence]|].
  cbv beta. split; [rewrite String.eqb_refl; reflexivity|]. rewrite A2, A3. cbn [sd_done].
  split. { rewrite app_length. lia. }
  split; [reflexivity|]. split; [exact A4|].
  split. { rewrite nth_error_app1; [exact E0|]. lia. }
  split. { rewrite nth_error_app2, Nat.sub_diag by lia. exact E1. }
  destruct (F _ _ E0) as (? & ? & ? & _ & _ & _ & (N0 & _)). destruct (F' _ _ E1) as (? & ? & ? & _ & _ & _ & (N1 & _)). auto.
Qed.

Definition unshielded_base : dict := fun k => if String.eqb k "enable_shielded_rollout_collision" then Some (VBool false) else base_config k.
(** What is not true: the file does not tell which search was run. Two base configurations that differ in the collision
    shield give the same record, although their trials are run with the shield and without. *)
Lemma l_C72_settings_recorded_refuted :
  complete base_config /\ one_trailer base_config /\ complete unshielded_base /\ one_trailer unshielded_base /\
  config_to_dict unshielded_base kept_fields = config_to_dict base_config kept_fields /\
  forall d k t c c' r r', tuned_from base_config c (VFloat d) (VFloat k) -> tuned_from unshielded_base c' (VFloat d) (VFloat k) ->
    create_trial_environment (trial_args c) t = Ok r -> create_trial_environment (trial_args c') t = Ok r' ->
    p_sh_coll (rb_p r) = true /\ p_sh_coll (rb_p r') = false.
Proof.
  destruct x_C53_shipped_base as (HC & H1 & _). split; [exact HC|]. split; [exact H1|]. split.
  { intros f t Hf. unfold unshielded_base. destruct (String.eqb f _); [discriminate|exact (HC f t Hf)]. }
  split; [exact H1|]. split; [reflexivity|].
  intros d k t c c' r r' T T' E E'.
  destruct (l_C53_evaluated_robot _ _ _ _ _ _ T E) as (_ & _ & _ & _ & _ & _ & S & _).
  destruct (l_C53_evaluated_robot _ _ _ _ _ _ T' E') as (_ & _ & _ & _ & _ & _ & S' & _).
  rewrite S, S'. split; reflexivity.
Qed.

(** Such configurations and trials exist: the shipped one with the values 2.5 and 5. *)
Lemma x_C72_environments_exist :
  exists c c' t r r', tuned_from base_config c (VFloat (5/2)) (VFloat 5) /\ tuned_from unshielded_base c' (VFloat (5/2)) (VFloat 5) /\
    create_trial_environment (trial_args c) t = Ok r /\ create_trial_environment (trial_args c') t = Ok r'.
Proof.
  destruct x_C53_shipped_base as (HC & H1 & _).
  assert (HC' : complete unshielded_base). { intros f t Hf. unfold unshielded_base. destruct (String.eqb f _); [discriminate|exact (HC f t Hf)]. }
  set (ps := fun f => if String.eqb f "d_thr_factor" then Some (VFloat (5/2)) else if String.eqb f "k_switch" then Some (VFloat 5) else None).
  destruct (l_C53_configuration base_config ps (VFloat (5/2)) (VFloat 5) HC eq_refl eq_refl) as (c & _ & T & _).
  destruct (l_C53_configuration unshielded_base ps (VFloat (5/2)) (VFloat 5) HC' eq_refl eq_refl) as (c' & _ & T' & _).
  assert (G : forall base x, base "env_name" = Some (VStr "tt2d") -> tuned_from base x (VFloat (5/2)) (VFloat 5) ->
    exists r, create_trial_environment (trial_args x) (mkTrial 3 5 0 0 0) = Ok r).
  { intros base x Hb (_ & _ & _ & N & K).
    assert (En : x "env_name" = Some (VStr "tt2d")).
    { rewrite (K "env_name" TStr); auto; try discriminate.
      - exists (VStr "acc_tt2d"). unfold dataclass_fields. cbn [In]. tauto.
      - intros D. unfold drawing in D. cbn [In] in D. repeat (destruct D as [D|D]; [discriminate|]). contradiction. }
    destruct (l_C43_trial_environment (trial_args x) (mkTrial 3 5 0 0 0)) as (r & gx & gy & E & _).
    - unfold trial_args, text. cbn [g_name]. rewrite En. reflexivity.
    - unfold trial_args, int. cbn [g_trailers]. rewrite N. discriminate.
    - unfold trial_args, int. cbn [g_trailers]. rewrite N. reflexivity.
    - exists r. exact E. }
  destruct (G _ c eq_refl T) as (r & E). destruct (G _ c' eq_refl T') as (r' & E').
  exists c, c', (mkTrial 3 5 0 0 0), r, r'. auto.
Qed.
