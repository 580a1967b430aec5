(** * ProofsTuneWandb: what a hyperparameter search sends to Weights & Biases (C77). *)
From Coq Require Import String Lia Reals Lra DecimalString DecimalNat.
From Verif Require Import Base BaseFacts Params Geom TT2d Rollout Demo EnvModel Setup Stats SpecStats
  ProofsStats Config SpecConfig Planner Cache CacheInst SpecCache Anim Picture SpecPicture ProofsPicture ProofsFiles Tune SpecTune ProofsTune TuneSave SpecTuneSave
  ProofsTuneSave TuneWandb SpecTuneWandb.
From Coq Require Import List.
Import ListNotations.
Local Open Scope string_scope.
Local Open Scope list_scope.
Open Scope R_scope.

Lemma cached_first cls : forall ts w ea c rg vs, tt_cached_trials cls w ea c rg ts = Ok vs ->
  length vs = length ts /\ forall t rest, ts = t :: rest -> exists r, create_trial_environment ea t = Ok r.
Proof.
  induction ts as [|t ts IH]; intros w ea c rg vs H; cbn [tt_cached_trials] in H.
  - injection H as <-. split; [reflexivity|discriminate].
  - destruct (create_trial_environment ea t) as [r|] eqn:Er; [|discriminate].
    destruct (tt_of_robot r) as [[s x0]|]; [|discriminate]. cbv zeta in H. destruct (run _ _ _ _ _) as [w1 [out|]]; [|discriminate].
    destruct (tt_evaluate _ _ _) as [v|]; [|discriminate]. destruct (tt_cached_trials cls w1 ea c rg ts) as [vs'|] eqn:E; [|discriminate].
    apply (f_equal (fun r => match r with Ok l => l | Err _ => [] end)) in H. subst vs. destruct (IH _ _ _ _ _ E) as [L _]. split; [cbn; lia|].
    intros t' rest [= <- _]. exists r. exact Er.
Qed.

Lemma heat_made cls w c rg ts vs n : tt_cached_trials cls w (trial_args c) (planner_cfg c) rg ts = Ok vs -> ts <> [] ->
  exists m, create_heat_map true c (combine ts (map v_success vs)) n = Ok (Some (m, ("Trial " ++ digits n ++ " Performance Heat Map")%string)) /\
    pictures m (num c "l1") (combine ts (map v_success vs)).
Proof.
  intros H Hne. destruct (cached_first _ _ _ _ _ _ _ H) as [L F]. destruct ts as [|t ts]; [contradiction|].
  destruct (F t ts eq_refl) as [r Er]. destruct vs as [|v vs]; [discriminate|].
  unfold create_heat_map. cbn [negb map combine]. rewrite Er.
  destruct (l_C55_heat_map (trial_args c) t r ((t, v_success v) :: combine ts (map v_success vs)) Er) as (r' & m & E & A1 & A2 & A3 & _ & A4 & _).
  rewrite E. exists m. split; [reflexivity|]. unfold pictures. rewrite A1, A2, A3, A4 by discriminate. repeat split.
Qed.

(** The result of an evaluation as it is seen by the search. *)
Definition outcome (o : Res (option tuned)) (rows : list row) : done_trial :=
  match o with Err e => mkDone [] rows (Err e) | Ok None => mkDone [] rows (Ok false) | Ok (Some r) => mkDone [r] rows (Ok true) end.

Lemma no_prune m b : should_prune m 0 b = false.
Proof. unfold should_prune; destruct (Nat.ltb m 15); reflexivity. Qed.

Lemma objective_disabled cls rg ng im base n w i m b p :
  objective_logged cls rg ng im false base n w i m b p = outcome (objective cls base rg ng n w i m b p) [].
Proof.
  unfold objective_logged, objective. destruct (create_config_with_params base p) as [c|]; [|reflexivity]. cbv zeta.
  destruct (tt_cached_trials _ _ _ _ _ _) as [vs|]; [|reflexivity]. destruct (summarize n vs) as [st|]; [|reflexivity].
  rewrite no_prune. reflexivity.
Qed.

Definition titled (n : nat) : string := ("Trial " ++ digits n ++ " Performance Heat Map")%string.
Lemma objective_enabled cls rg ng im base n w i m b p : fst (sample_initial_conditions ng n 42) <> [] ->
  exists rows, objective_logged cls rg ng im true base n w i m b p = outcome (objective cls base rg ng n w i m b p) rows /\
    match objective cls base rg ng n w i m b p with
    | Ok (Some r) => exists c vs hm, rows = [trial_row r (IImage hm (titled i) (titled i))] /\
        create_config_with_params base p = Ok c /\
        tt_cached_trials cls (clear_cache w) (trial_args c) (planner_cfg c) rg (fst (sample_initial_conditions ng n 42)) = Ok vs /\
        pictures hm (num c "l1") (combine (fst (sample_initial_conditions ng n 42)) (map v_success vs))
    | _ => rows = []
    end.
Proof.
  intros Hne. unfold objective_logged, objective. destruct (create_config_with_params base p) as [c|] eqn:Ec; [|exists []; auto]. cbv zeta.
  destruct (tt_cached_trials _ _ _ _ _ _) as [vs|] eqn:Ev; [|exists []; auto].
  destruct (summarize n vs) as [st|] eqn:Es; [|exists []; auto]. rewrite no_prune.
  destruct (heat_made cls _ c rg _ vs i Ev Hne) as (hm & Eh & P). rewrite Eh. cbn [negb].
  eexists. split; [reflexivity|]. exists c, vs, hm. split; [reflexivity|]. auto.
Qed.

(** The loop. *)
Lemma loop_same cls rg ng im use base n procs sampler worse :
  use = false \/ fst (sample_initial_conditions ng n 42) <> [] ->
  forall left number done,
  let o := optimize_logged cls rg ng im use base n procs sampler worse left number done in
  optimize cls base rg ng n procs sampler worse left number done = (done ++ rt_stored o, rt_end o) /\
  (use = false -> rt_rows o = []) /\
  (rt_end o = Ok tt -> length (rt_states o) = left).
Proof.
  intros Hu. induction left as [|left IH]; intros number done o.
  - unfold o. cbn. rewrite app_nil_r. auto.
  - unfold o. cbn [optimize optimize_logged]. cbv zeta.
    assert (E : exists rows, objective_logged cls rg ng im use base n (procs number) number (length done) (worse number) (hyperparameters (sampler done)) =
       outcome (objective cls base rg ng n (procs number) number (length done) (worse number) (hyperparameters (sampler done))) rows /\ (use = false -> rows = [])).
    { destruct use.
      - destruct Hu as [Hu|Hu]; [discriminate|]. destruct (objective_enabled cls rg ng im base n (procs number) number (length done) (worse number) (hyperparameters (sampler done)) Hu) as (rows & -> & _).
        exists rows. split; [reflexivity|discriminate].
      - exists []. split; [apply objective_disabled|reflexivity]. }
    destruct E as (rows & -> & Hr).
    destruct (objective cls base rg ng n (procs number) number (length done) (worse number) (hyperparameters (sampler done))) as [[r|]|e];
      cbn [outcome dn_end dn_stored dn_rows rt_stored rt_rows rt_states rt_end].
    + destruct (IH (S number) (done ++ [r])) as (A & B & C). cbv zeta in A, B, C. rewrite A. rewrite <- app_assoc. split; [reflexivity|].
      split; [intros Hf; rewrite (Hr Hf), (B Hf); reflexivity|]. intros H. cbn [length]. rewrite (C H). reflexivity.
    + destruct (IH (S number) done) as (A & B & C). cbv zeta in A, B, C. rewrite A. cbn [app]. split; [reflexivity|].
      split; [intros Hf; rewrite (Hr Hf), (B Hf); reflexivity|]. intros H. cbn [length]. rewrite (C H). reflexivity.
    + rewrite app_nil_r. split; [reflexivity|]. split; [exact Hr|discriminate].
Qed.

Lemma search_same cls rg ng im use t procs sampler worse n_trials ran :
  use = false \/ fst (sample_initial_conditions ng (tn_evals t) 42) <> [] ->
  exists ev, optimise_logged cls rg ng im use t procs sampler worse n_trials ran =
    (fst (optimise cls rg ng t procs sampler worse n_trials ran), ev, snd (optimise cls rg ng t procs sampler worse n_trials ran)) /\
    (use = false -> ev = []).
Proof.
  intros Hu. unfold optimise_logged, optimise. cbv zeta.
  destruct (loop_same cls rg ng im use (tn_base t) (tn_evals t) procs sampler worse Hu (Nat.min n_trials ran) 0 []) as (A & B & C). cbv zeta in A, B, C.
  cbn [app] in A. rewrite A. destruct (optimize_logged cls rg ng im use (tn_base t) (tn_evals t) procs sampler worse (Nat.min n_trials ran) 0 []) as [l rows states res].
  cbn [rt_stored rt_rows rt_states rt_end] in *. destruct res as [[]|e].
  - rewrite (C eq_refl). destruct (best_trial l).
    + eexists. split; [reflexivity|]. intros Hf. rewrite (B Hf), Hf. reflexivity.
    + eexists. split; [reflexivity|]. intros Hf. rewrite (B Hf). reflexivity.
  - eexists. split; [reflexivity|]. intros Hf. rewrite (B Hf). reflexivity.
Qed.

(** Without W&B nothing is sent, whatever happens, and the search is the one of C53 and C72. *)
Lemma l_C77_disabled :
  forall cls rg ng im t procs sampler worse n_trials ran,
  optimise_logged cls rg ng im false t procs sampler worse n_trials ran =
    (fst (optimise cls rg ng t procs sampler worse n_trials ran), [], snd (optimise cls rg ng t procs sampler worse n_trials ran)) /\
  (forall base n name stamp, new_logged false base n name stamp = Ok (new_tuner base n name, [])).
Proof.
  intros. split; [|reflexivity]. destruct (search_same cls rg ng im false t procs sampler worse n_trials ran (or_introl eq_refl)) as (ev & E & H).
  rewrite E, (H eq_refl). reflexivity.
Qed.

(** Recording a search does not change it: as soon as one start condition is found, the object, the study and any exception
    are the same with W&B as without, for every base configuration, sampler and process. *)
Lemma l_C77_same_search :
  forall cls rg ng im t procs sampler worse n_trials ran,
  fst (sample_initial_conditions ng (tn_evals t) 42) <> [] ->
  exists ev, optimise_logged cls rg ng im true t procs sampler worse n_trials ran =
    (fst (optimise cls rg ng t procs sampler worse n_trials ran), ev, snd (optimise cls rg ng t procs sampler worse n_trials ran)).
Proof.
  intros cls rg ng im t procs sampler worse n_trials ran H.
  destruct (search_same cls rg ng im true t procs sampler worse n_trials ran (or_intror H)) as (ev & E & _). exists ev. exact E.
Qed.

Ltac key_in := cbn [In]; repeat first [left; reflexivity | right].
Ltac has_row := intros j; split;
  [ let H := fresh "H" in intros H; cbn [In] in H;
    repeat match type of H with
    | False => contradiction
    | _ \/ _ => destruct H as [H|H]; [let H1 := fresh in let H2 := fresh in apply pair_equal_spec in H as [H1 H2]; first [discriminate H1 | symmetry; exact H2]|]
    end
  | intros ->; key_in ].
Ltac keys_row := let kk := fresh "key" in intros kk; split;
  [ let H := fresh "H" in let ii := fresh "it" in intros [ii H]; cbn [In] in H |- *;
    repeat match type of H with
    | False => contradiction
    | _ \/ _ => destruct H as [H|H]; [let H1 := fresh in let H2 := fresh in apply pair_equal_spec in H as [H1 H2]; rewrite <- H1; tauto|]
    end
  | let H := fresh "H" in intros H; cbn [In] in H;
    repeat match type of H with
    | False => contradiction
    | _ \/ _ => destruct H as [H|H]; [rewrite <- H; eexists; key_in|]
    end ].

Lemma trial_row_reports n num x y st hm :
  row_reports (trial_row (mkTuned n (hyperparameters (x, y)) (sr_success_rate st) (sr_position_error st) (sr_collision_rate st)
      (sr_jackknife_rate st) (safety (sr_collision_rate st) (sr_jackknife_rate st)) (sr_success_rate st) (sr_successful st) num)
      (IImage hm (titled n) (titled n))) n (suggest x) (suggest y) st hm.
Proof.
  unfold trial_row. cbn [tu_number tu_score tu_success tu_error tu_coll tu_jack tu_safety tu_params].
  replace (prefixed "param_" (hyperparameters (x, y))) with
    [("param_d_thr_factor", IVal (VFloat (suggest x))); ("param_k_switch", IVal (VFloat (suggest y)))] by reflexivity.
  cbn [app]. fold (picture_key n). generalize (suggest x) (suggest y). intros d k.
  assert (K : forall s, In s ["trial_number"; "objective_score"; "success_rate"; "avg_position_error"; "collision_rate"; "jackknife_rate"; "safety"; "param_d_thr_factor"; "param_k_switch"] -> picture_key n <> s).
  { intros s Hs E. unfold picture_key in E. cbn [In] in Hs. repeat (destruct Hs as [<-|Hs]; [cbn [append] in E; discriminate|]). contradiction. }
  split; [keys_row|].
  split; [has_row|]. split; [has_row|]. split; [has_row|]. split; [has_row|]. split; [has_row|]. split; [has_row|].
  split. { unfold safety. has_row. }
  split. { exists (titled n). split; [reflexivity|]. 
    intros j. split.
    - intros H. cbn [In] in H. repeat match type of H with
      | False => contradiction
      | _ \/ _ => destruct H as [H|H]; [let H1 := fresh in let H2 := fresh in apply pair_equal_spec in H as [H1 H2]; first [discriminate H1 | symmetry; exact H2]|]
      end.
    - intros ->. key_in. }
  split; has_row.
Qed.

Lemma summary_sums states best total x y : Forall (eq COMPLETE) states -> length states = total -> tu_params best = hyperparameters (x, y) ->
  row_sums_up (summary_row states best) total best.
Proof.
  intros F L P.
  assert (C : count_state COMPLETE states = length states /\ count_state PRUNED states = 0%nat /\ count_state FAIL states = 0%nat).
  { clear L. unfold count_state. induction F as [|s l <- F (A & B & D)]; [repeat split|]. cbn [filter is_state length]. repeat split; congruence. }
  destruct C as (C1 & C2 & C3). unfold summary_row. rewrite C1, C2, C3, P.
  replace (prefixed "best_" (hyperparameters (x, y))) with
    [("best_d_thr_factor", IVal (VFloat (suggest x))); ("best_k_switch", IVal (VFloat (suggest y)))] by reflexivity.
  assert (Z : (if Nat.ltb 0 (length states) then INR 0 / INR (length states) else 0) = 0).
  { destruct (Nat.ltb 0 (length states)); [|reflexivity]. change (INR 0) with 0. unfold Rdiv. ring. }
  rewrite Z, L. unfold row_sums_up. rewrite P.
  assert (V : forall v, (hyperparameters (x, y) "d_thr_factor" = Some v -> v = VFloat (suggest x)) /\ (hyperparameters (x, y) "k_switch" = Some v -> v = VFloat (suggest y))).
  { intros v. change (hyperparameters (x, y) "d_thr_factor") with (Some (VFloat (suggest x))).
    change (hyperparameters (x, y) "k_switch") with (Some (VFloat (suggest y))). split; congruence. }
  generalize dependent (suggest x). generalize (suggest y). intros k d V. cbn [app].
  split; [keys_row|].
  do 8 (split; [has_row|]).
  split; intros v Hv; [rewrite (proj1 (V v) Hv)|rewrite (proj2 (V v) Hv)]; has_row.
Qed.

Lemma tuned_l1 base c d k : tuned_from base c d k -> num c "l1" = num base "l1".
Proof.
  intros (_ & _ & _ & _ & K). unfold num. rewrite (K "l1" TFloat); [reflexivity| | | | |]; try discriminate.
  - destruct (kept_are_fields "l1") as (t & dv & Ht); [unfold kept_fields; cbn [In]; tauto|].
    assert (A : existsb (fun f => String.eqb (fst (fst f)) "l1" && match snd (fst f) with TFloat => true | _ => false end)%bool dataclass_fields = true) by reflexivity.
    apply existsb_exists in A as ([[k' t'] dv'] & Hf & E). cbn [fst snd] in E. apply andb_prop in E as [E1 E2]. apply String.eqb_eq in E1. subst k'.
    destruct t'; try discriminate E2. exists dv'. exact Hf.
  - unfold drawing. cbn [In]. intuition discriminate.
Qed.

Lemma evaluation_logged proj guide (b : obj (tt_self * ttq) (list refrow)) (h : list op) im base rg ng n number m w x y :
  let cls := fun _ : string => tt_methods proj guide in
  complete base -> one_trailer base -> (0 < n)%nat -> fst (sample_initial_conditions ng n 42) <> [] ->
  exists r st hm trials row,
    objective_logged cls rg ng im true base n (execs cls (start b) h) number m w (hyperparameters (x, y)) = mkDone [r] [row] (Ok true) /\
    evaluated_each proj guide base rg ng n (suggest x) (suggest y) st trials /\ reports r number n (suggest x) (suggest y) st /\
    row_reports row number (suggest x) (suggest y) st hm /\ pictures hm (num base "l1") trials /\
    tu_params r = hyperparameters (x, y) /\
    objective cls base rg ng n (execs cls (start b) h) number m w (hyperparameters (x, y)) = Ok (Some r).
Proof.
  intros cls HC [H1 H2] Hn Hne.
  destruct (l_C53_configuration base (hyperparameters (x, y)) (VFloat (suggest x)) (VFloat (suggest y)) HC eq_refl eq_refl) as (c & Ec & T & _).
  destruct (shared_self (trial_args c)) as [s Hs].
  destruct (tuned_tt _ _ _ _ T H1) as [G1 G2].
  destruct (l_C42_evaluation_total (trial_args c) (fun _ => proj s) (fun _ => guide s) (fun _ _ _ => 0) (fun _ => 0) (planner_cfg c) rg ng n 42 G1) as (results & st & E);
    [rewrite G2; discriminate|rewrite G2; reflexivity|exact Hn|].
  assert (EV : tt_cached_trials cls (clear_cache (execs cls (start b) h)) (trial_args c) (planner_cfg c) rg (fst (sample_initial_conditions ng n 42)) = Ok results /\
               summarize n results = Ok st).
  { unfold cls. rewrite (cached_after_clear proj guide _ _ _ _ rg s _ (tuned_demo _ _ _ _ T H2) Hs).
    unfold tt_statistics in E. destruct (each _ _) as [rs|]; [|discriminate]. destruct (summarize n rs) as [st'|] eqn:Es; [|discriminate].
    pose proof (f_equal (fun x => match x with Ok (z, _) => z | Err _ => rs end) E) as E1. pose proof (f_equal (fun x => match x with Ok (_, z) => z | Err _ => st' end) E) as E2.
    cbv beta iota in E1, E2. subst. auto. }
  destruct EV as [EV ES]. destruct (heat_made cls _ c rg _ results number EV Hne) as (hm & Eh & P).
  assert (NP := no_prune m w).
  do 2 eexists. exists hm. do 2 eexists. split.
  { unfold objective_logged. rewrite Ec. cbv zeta. rewrite EV, ES, NP, Eh. cbn [negb]. reflexivity. }
  split. { exists c, s, results. split; [exact T|]. split; [exact Hs|]. split; [exact E|]. split; [reflexivity|]. exact (proj1 (cached_first _ _ _ _ _ _ _ EV)). }
  split. { repeat split. }
  split. { apply trial_row_reports. }
  split. { rewrite <- (tuned_l1 _ _ _ _ T). exact P. }
  split; [reflexivity|].
  unfold objective. rewrite Ec. cbv zeta. rewrite EV, ES, NP. reflexivity.
Qed.

Lemma loop_logged proj guide (b : obj (tt_self * ttq) (list refrow)) (hs : nat -> list op) im base rg ng n sampler worse :
  let cls := fun _ : string => tt_methods proj guide in
  complete base -> one_trailer base -> (0 < n)%nat -> fst (sample_initial_conditions ng n 42) <> [] ->
  forall left number done,
  let o := optimize_logged cls rg ng im true base n (fun i => execs cls (start b) (hs i)) sampler worse left number done in
  rt_end o = Ok tt /\ length (rt_stored o) = left /\ length (rt_rows o) = left /\ length (rt_states o) = left /\ Forall (eq COMPLETE) (rt_states o) /\
  forall i r row, nth_error (rt_stored o) i = Some r -> nth_error (rt_rows o) i = Some row ->
    exists x y st hm trials, evaluated_each proj guide base rg ng n (suggest x) (suggest y) st trials /\
      reports r (number + i) n (suggest x) (suggest y) st /\ row_reports row (number + i) (suggest x) (suggest y) st hm /\
      pictures hm (num base "l1") trials /\ tu_params r = hyperparameters (x, y).
Proof.
  intros cls HC H1 Hn Hne. induction left as [|left IH]; intros number done o.
  - unfold o. cbn. repeat split. constructor. intros [|i] r row; discriminate.
  - unfold o. cbn [optimize_logged]. cbv zeta. destruct (sampler done) as [x y].
    destruct (evaluation_logged proj guide b (hs number) im base rg ng n number (length done) (worse number) x y HC H1 Hn Hne)
      as (r & st & hm & trials & row & E & A1 & A2 & A3 & A4 & A5 & _). fold cls in E. rewrite E.
    cbn [dn_end dn_stored dn_rows rt_stored rt_rows rt_states rt_end].
    destruct (IH (S number) (done ++ [r])) as (B1 & B2 & B3 & B4 & B5 & B6). cbv zeta in B1, B2, B3, B4, B5, B6.
    split; [exact B1|]. split; [cbn [app length]; lia|]. split; [cbn [app length]; lia|]. split; [cbn [app length]; lia|]. split; [constructor; auto|].
    intros [|i] r' row' Hr Hw; cbn [app nth_error] in Hr, Hw.
    + injection Hr as <-. injection Hw as <-. rewrite Nat.add_0_r. exists x, y, st, hm, trials. auto.
    + destruct (B6 i r' row' Hr Hw) as (x' & y' & st' & hm' & tr' & C). exists x', y', st', hm', tr'.
      replace (number + S i)%nat with (S number + i)%nat by lia. exact C.
Qed.

(** A whole search with W&B, for a base configuration of the one-trailer vehicle without demonstration: the study and its results
    are those of C53; exactly one row is logged for each trial, in the order of the trials, with its number, its grid
    values, the statistics of its evaluation and the heat map of that evaluation; then one row sums up the search: how many
    trials, all completed, none pruned, and the number, values and score of the first trial with the highest score. *)
Lemma l_C77_search :
  forall proj guide (b : obj (tt_self * ttq) (list refrow)) (hs : nat -> list op) im t rg ng sampler worse n_trials ran,
  let cls := fun _ : string => tt_methods proj guide in
  complete (tn_base t) -> one_trailer (tn_base t) -> (0 < tn_evals t)%nat -> (0 < n_trials)%nat -> (0 < ran)%nat ->
  fst (sample_initial_conditions ng (tn_evals t) 42) <> [] ->
  exists l best rows summary,
    optimise_logged cls rg ng im true t (fun i => execs cls (start b) (hs i)) sampler worse n_trials ran =
      (mkTuner (tn_base t) (tn_evals t) (tn_study t) (tn_results t ++ l), map Logged rows ++ [Logged summary], Ok (mkStudy (length l) l)) /\
    optimise cls rg ng t (fun i => execs cls (start b) (hs i)) sampler worse n_trials ran =
      (mkTuner (tn_base t) (tn_evals t) (tn_study t) (tn_results t ++ l), Ok (mkStudy (length l) l)) /\
    length l = Nat.min n_trials ran /\ length rows = Nat.min n_trials ran /\
    (forall i r row, nth_error l i = Some r -> nth_error rows i = Some row ->
       exists d k st hm trials, on_grid d /\ on_grid k /\ evaluated_each proj guide (tn_base t) rg ng (tn_evals t) d k st trials /\
         reports r i (tn_evals t) d k st /\ row_reports row i d k st hm /\ pictures hm (num (tn_base t) "l1") trials) /\
    row_sums_up summary (Nat.min n_trials ran) best /\ nth_error l (tu_number best) = Some best /\
    (forall r, In r l -> tu_score r <= tu_score best) /\
    (forall i r, (i < tu_number best)%nat -> nth_error l i = Some r -> tu_score r < tu_score best).
Proof.
  intros proj guide b hs im t rg ng sampler worse n_trials ran cls HC H1 Hn Ht Hr Hne.
  pose proof (loop_logged proj guide b hs im (tn_base t) rg ng (tn_evals t) sampler worse HC H1 Hn Hne (Nat.min n_trials ran) 0 []) as L. cbv zeta in L. fold cls in L.
  destruct (l_C77_same_search cls rg ng im t (fun i => execs cls (start b) (hs i)) sampler worse n_trials ran Hne) as (ev & E).
  pose proof (proj1 (loop_same cls rg ng im true (tn_base t) (tn_evals t) (fun i => execs cls (start b) (hs i)) sampler worse (or_intror Hne) (Nat.min n_trials ran) 0 [])) as O. cbn [app] in O.
  unfold optimise in E |- *. unfold optimise_logged in E |- *. cbv zeta in E |- *. rewrite O in E |- *.
  destruct (optimize_logged cls rg ng im true (tn_base t) (tn_evals t) (fun i => execs cls (start b) (hs i)) sampler worse (Nat.min n_trials ran) 0 []) as [l rows states res].
  cbn [rt_stored rt_rows rt_states rt_end] in *. destruct L as (-> & L1 & L2 & L3 & L4 & L5).
  assert (Eb : exists best, best_trial l = Ok best). { destruct l as [|r0 l]; [cbn [length] in L1; lia|]. eexists. reflexivity. }
  destruct Eb as [best Eb]. rewrite Eb in E |- *.
  assert (N : forall i r, nth_error l i = Some r -> tu_number r = i).
  { intros i r Hi. destruct (nth_error rows i) as [row|] eqn:Ew.
    - destruct (L5 i r row Hi Ew) as (? & ? & ? & ? & ? & _ & (Nr & _) & _). exact Nr.
    - apply nth_error_None in Ew. assert (nth_error l i <> None) by congruence. apply nth_error_Some in H. lia. }
  destruct (best_numbered l best Eb N) as (B1 & B2 & B3).
  exists l, best, rows, (summary_row states best). rewrite L1, L3.
  split; [reflexivity|]. split; [reflexivity|]. split; [reflexivity|]. split; [exact L2|].
  split.
  { intros i r row Hi Hw. destruct (L5 i r row Hi Hw) as (x & y & st & hm & trials & A1 & A2 & A3 & A4 & _).
    exists (suggest x), (suggest y), st, hm, trials. split; [apply suggest_on_grid|]. split; [apply suggest_on_grid|]. auto. }
  split; [|auto].
  destruct (nth_error rows (tu_number best)) as [row|] eqn:Ew.
  - destruct (L5 _ _ _ B1 Ew) as (x & y & _ & _ & _ & _ & _ & _ & _ & P). exact (summary_sums states best _ x y L4 L3 P).
  - apply nth_error_None in Ew. assert (X : nth_error l (tu_number best) <> None) by congruence. apply nth_error_Some in X. lia.
Qed.

Lemma loop_prefix cls rg ng im base n procs sampler worse e : fst (sample_initial_conditions ng n 42) <> [] ->
  forall i left number done, (i < left)%nat ->
  let o := optimize_logged cls rg ng im true base n procs sampler worse i number done in
  rt_end o = Ok tt ->
  objective cls base rg ng n (procs (number + i)%nat) (number + i)%nat (length (done ++ rt_stored o)) (worse (number + i)%nat) (hyperparameters (sampler (done ++ rt_stored o))) = Err e ->
  optimize_logged cls rg ng im true base n procs sampler worse left number done = mkRan (rt_stored o) (rt_rows o) (rt_states o ++ [FAIL]) (Err e).
Proof.
  intros Hne. induction i as [|i IH]; intros left number done Hi o Ho He; destruct left as [|left]; try lia.
  - unfold o in He |- *. cbn [optimize_logged rt_stored rt_rows rt_states app] in He |- *. rewrite app_nil_r, Nat.add_0_r in He. cbv zeta.
    destruct (objective_enabled cls rg ng im base n (procs number) number (length done) (worse number) (hyperparameters (sampler done)) Hne) as (rows & E & F).
    rewrite E. rewrite He in F |- *. subst rows. reflexivity.
  - unfold o in Ho, He |- *. cbn [optimize_logged] in Ho, He |- *. cbv zeta in Ho, He |- *.
    destruct (objective_enabled cls rg ng im base n (procs number) number (length done) (worse number) (hyperparameters (sampler done)) Hne) as (rows & E & F).
    rewrite E in Ho, He |- *. destruct (objective cls base rg ng n (procs number) number (length done) (worse number) (hyperparameters (sampler done))) as [[r|]|e'];
      cbn [outcome dn_end dn_stored dn_rows rt_stored rt_rows rt_states rt_end] in Ho, He |- *; [| |discriminate].
    + replace (number + S i)%nat with (S number + i)%nat in He by lia. rewrite app_assoc in He.
      rewrite (IH left (S number) (done ++ [r]) ltac:(lia) Ho He). reflexivity.
    + replace (number + S i)%nat with (S number + i)%nat in He by lia. cbn [app] in He.
      rewrite (IH left (S number) done ltac:(lia) Ho He). reflexivity.
Qed.

(** An exception in an evaluation ends the record: the rows of the trials before it stay, as a search of just those trials
    would have logged them; the failed trial and the end of the search are not recorded. *)
Lemma l_C77_exception :
  forall cls rg ng im t procs sampler worse n_trials ran e,
  fst (sample_initial_conditions ng (tn_evals t) 42) <> [] ->
  ((0 < Nat.min n_trials ran)%nat ->
   objective cls (tn_base t) rg ng (tn_evals t) (procs 0%nat) 0 0 (worse 0%nat) (hyperparameters (sampler [])) = Err e ->
   optimise_logged cls rg ng im true t procs sampler worse n_trials ran =
     (mkTuner (tn_base t) (tn_evals t) (tn_study t) (tn_results t ++ []), [], Err e)) /\
  (forall i t' l events summary, (0 < i < Nat.min n_trials ran)%nat ->
   optimise_logged cls rg ng im true t procs sampler worse i i = (t', events ++ [summary], Ok (mkStudy i l)) ->
   objective cls (tn_base t) rg ng (tn_evals t) (procs i) i (length l) (worse i) (hyperparameters (sampler l)) = Err e ->
   optimise_logged cls rg ng im true t procs sampler worse n_trials ran = (t', events, Err e)).
Proof.
  intros cls rg ng im t procs sampler worse n_trials ran e Hne. split.
  - intros Hm He. unfold optimise_logged. cbv zeta.
    rewrite (loop_prefix cls rg ng im (tn_base t) (tn_evals t) procs sampler worse e Hne 0 (Nat.min n_trials ran) 0 [] Hm eq_refl He). reflexivity.
  - intros i t' l events summary Hi E He. unfold optimise_logged in E |- *. cbv zeta in E |- *. rewrite Nat.min_id in E.
    destruct (rt_end (optimize_logged cls rg ng im true (tn_base t) (tn_evals t) procs sampler worse i 0 [])) as [[]|e'] eqn:Eo.
    2:{ apply pair_equal_spec in E as [_ E]. discriminate. }
    destruct (best_trial (rt_stored (optimize_logged cls rg ng im true (tn_base t) (tn_evals t) procs sampler worse i 0 []))) as [best|].
    2:{ apply pair_equal_spec in E as [_ E]. discriminate. }
    apply pair_equal_spec in E as [E E3]. apply pair_equal_spec in E as [E1 E2]. apply app_inj_tail in E2 as [E2 _].
    assert (El : rt_stored (optimize_logged cls rg ng im true (tn_base t) (tn_evals t) procs sampler worse i 0 []) = l).
    { pose proof (f_equal (fun x => match x with Ok s => sd_done s | Err _ => [] end) E3) as X. exact X. }
    rewrite <- El in He.
    rewrite (loop_prefix cls rg ng im (tn_base t) (tn_evals t) procs sampler worse e Hne i (Nat.min n_trials ran) 0 [] (proj2 Hi) Eo He).
    cbn [rt_stored rt_rows rt_states rt_end]. rewrite E1, E2. reflexivity.
Qed.

(** Nothing to run: without a trial no row is logged and ValueError is raised; without trials per evaluation, ZeroDivisionError. *)
Lemma l_C77_nothing_to_run :
  forall cls rg ng im t procs sampler worse n_trials ran,
  (n_trials = 0%nat \/ ran = 0%nat ->
   snd (fst (optimise_logged cls rg ng im true t procs sampler worse n_trials ran)) = [] /\
   snd (optimise_logged cls rg ng im true t procs sampler worse n_trials ran) = Err ValueError) /\
  (complete (tn_base t) -> tn_evals t = 0%nat -> (0 < n_trials)%nat -> (0 < ran)%nat ->
   snd (fst (optimise_logged cls rg ng im true t procs sampler worse n_trials ran)) = [] /\
   snd (optimise_logged cls rg ng im true t procs sampler worse n_trials ran) = Err ZeroDivisionError).
Proof.
  intros cls rg ng im t procs sampler worse n_trials ran. split.
  - intros H. unfold optimise_logged. replace (Nat.min n_trials ran) with 0%nat by lia. cbn. auto.
  - intros HC H0 H1 H2. unfold optimise_logged. cbv zeta. destruct (Nat.min n_trials ran) as [|k] eqn:Ek; [lia|].
    cbn [optimize_logged]. cbv zeta. rewrite H0. destruct (sampler []) as [x y].
    destruct (l_C53_configuration (tn_base t) (hyperparameters (x, y)) (VFloat (suggest x)) (VFloat (suggest y)) HC eq_refl eq_refl) as (c & Ec & _).
    unfold objective_logged. rewrite Ec. cbv zeta.
    replace (fst (sample_initial_conditions ng 0 42)) with (@nil trial) by reflexivity. cbn. auto.
Qed.

(** What is not true when no start condition is found: if a picture that was not drawn cannot be uploaded, a search that
    completes without W&B ends at its first trial with W&B; the trial is stored, but nothing is logged. *)
Lemma l_C77_same_search_refuted :
  forall proj guide (b : obj (tt_self * ttq) (list refrow)) (hs : nat -> list op) t rg ng sampler worse n_trials ran e,
  let cls := fun _ : string => tt_methods proj guide in
  complete (tn_base t) -> one_trailer (tn_base t) -> (0 < tn_evals t)%nat -> (0 < n_trials)%nat -> (0 < ran)%nat ->
  fst (sample_initial_conditions ng (tn_evals t) 42) = [] ->
  exists r t' s, optimise_logged cls rg ng (Err e) true t (fun i => execs cls (start b) (hs i)) sampler worse n_trials ran =
      (mkTuner (tn_base t) (tn_evals t) (tn_study t) (tn_results t ++ [r]), [], Err e) /\
    optimise_logged cls rg ng (Err e) false t (fun i => execs cls (start b) (hs i)) sampler worse n_trials ran = (t', [], Ok s) /\
    length (sd_done s) = Nat.min n_trials ran.
Proof.
  intros proj guide b hs t rg ng sampler worse n_trials ran e cls HC H1 Hn Ht Hr H0.
  destruct (l_C53_search proj guide b hs (tn_base t) rg ng (tn_evals t) sampler worse n_trials ran HC H1 Hn Ht Hr) as (l & best & E & L & _).
  fold cls in E. destruct (optimise_run _ _ _ _ _ _ _ _ _ _ _ E) as [O _].
  destruct (l_C77_disabled cls rg ng (Err e) t (fun i => execs cls (start b) (hs i)) sampler worse n_trials ran) as [D _]. rewrite O in D. cbn [fst snd] in D.
  assert (F : exists r, optimise_logged cls rg ng (Err e) true t (fun i => execs cls (start b) (hs i)) sampler worse n_trials ran =
      (mkTuner (tn_base t) (tn_evals t) (tn_study t) (tn_results t ++ [r]), [], Err e)).
  { unfold optimise_logged. cbv zeta. destruct (Nat.min n_trials ran) as [|k] eqn:Ek; [lia|]. cbn [optimize_logged]. cbv zeta. destruct (sampler []) as [x y].
    destruct (l_C53_configuration (tn_base t) (hyperparameters (x, y)) (VFloat (suggest x)) (VFloat (suggest y)) HC eq_refl eq_refl) as (c & Ec & _).
    assert (Z : exists r, objective_logged cls rg ng (Err e) true (tn_base t) (tn_evals t) (execs cls (start b) (hs 0%nat)) 0 (length (@nil tuned)) (worse 0%nat) (hyperparameters (x, y)) = mkDone [r] [] (Err e)).
    { unfold objective_logged. rewrite Ec. cbv zeta. rewrite H0. cbn [tt_cached_trials]. unfold summarize. destruct (Nat.eqb_spec (tn_evals t) 0) as [Z|Z]; [lia|].
      rewrite no_prune. cbn [map combine create_heat_map negb]. eexists. reflexivity. }
    destruct Z as (r & Z). rewrite Z. cbn [dn_end dn_stored dn_rows rt_stored rt_rows rt_states rt_end map]. exists r. reflexivity. }
  destruct F as (r & F). do 3 eexists. split; [exact F|]. split; [exact D|]. exact L.
Qed.

(** Pictures of different trials never share a key. *)
Lemma l_C77_pictures_apart : forall i j, picture_key i = picture_key j -> i = j.
Proof.
  intros i j H. unfold picture_key in H. apply append_inj_l in H.
  pose proof (f_equal undigits H) as E. unfold undigits, digits in E. rewrite !NilEmpty.usu in E. cbn [option_map] in E.
  rewrite !Unsigned.of_to in E. congruence.
Qed.

(** The run is opened once, before anything else, under the study's name and the time, with the recorded settings of the base
    configuration; if one of those is missing, AttributeError is raised and no run is opened. *)
Lemma l_C77_run_opened :
  forall base n study stamp,
  (complete base -> exists m, new_logged true base n study stamp = Ok (new_tuner base n study, [RunStarted (study ++ "_" ++ stamp)%string m]) /\
     forall k v, In (k, v) m <-> In k recorded /\ base k = Some v) /\
  (forall k, In k recorded -> base k = None -> new_logged true base n study stamp = Err AttributeError).
Proof.
  intros base n study stamp. unfold new_logged. split.
  - intros HC. destruct (dict_complete _ HC) as (m & -> & S). exists m. split; [reflexivity|exact S].
  - intros k Hk Hn.
    assert (D : forall ks, In k ks -> config_to_dict base ks = Err AttributeError).
    { induction ks as [|k' ks IH]; [intros []|]. intros Hi. cbn [config_to_dict]. destruct (base k') eqn:Ek; [|reflexivity].
      destruct Hi as [->|Hi]; [congruence|]. rewrite (IH Hi). reflexivity. }
    rewrite (D kept_fields) by (apply recorded_fields; exact Hk). reflexivity.
Qed.

Lemma loop_states cls rg ng im use base n procs sampler worse : forall left number done,
  let o := optimize_logged cls rg ng im use base n procs sampler worse left number done in
  (rt_end o = Ok tt -> Forall (eq COMPLETE) (rt_states o)) /\
  Forall (fun rw => exists r i xy, rw = trial_row r i /\ tu_params r = hyperparameters xy) (rt_rows o).
Proof.
  induction left as [|left IH]; intros number done o; [unfold o; cbn; split; constructor|].
  unfold o. cbn [optimize_logged]. cbv zeta.
  assert (D : forall d, d = objective_logged cls rg ng im use base n (procs number) number (length done) (worse number) (hyperparameters (sampler done)) ->
    dn_end d <> Ok false /\ Forall (fun rw => exists r i xy, rw = trial_row r i /\ tu_params r = hyperparameters xy) (dn_rows d)).
  { intros d ->. unfold objective_logged. generalize (sampler done). intros xy. destruct (create_config_with_params base (hyperparameters xy)) as [c|]; [|split; [discriminate|constructor]]. cbv zeta.
    destruct (tt_cached_trials _ _ _ _ _ _) as [vs|]; [|split; [discriminate|constructor]].
    destruct (summarize n vs) as [st|]; [|split; [discriminate|constructor]]. rewrite no_prune.
    destruct (create_heat_map _ _ _ _) as [fig|]; [|split; [discriminate|constructor]]. destruct use; cbn [negb]; [|split; [discriminate|constructor]].
    destruct (match fig with Some _ => _ | None => _ end) as [i|]; [|split; [discriminate|constructor]].
    split; [discriminate|]. constructor; [|constructor]. do 2 eexists. exists xy. split; reflexivity. }
  specialize (D _ eq_refl). destruct (objective_logged cls rg ng im use base n (procs number) number (length done) (worse number) (hyperparameters (sampler done))) as [sto rows res].
  cbn [dn_end dn_rows dn_stored] in *. destruct D as [D1 D2]. destruct res as [[|]|e]; [|contradiction|].
  - destruct (IH (S number) (done ++ sto)) as [I1 I2]. cbv zeta in I1, I2. cbn [rt_end rt_states rt_rows]. split; [intros H; constructor; [reflexivity|exact (I1 H)]|].
    apply Forall_app. auto.
  - cbn [rt_end rt_states rt_rows]. split; [discriminate|exact D2].
Qed.

Lemma trial_row_keys r i xy k j : tu_params r = hyperparameters xy -> In (k, j) (trial_row r i) ->
  In k ["trial_number"; "objective_score"; "success_rate"; "avg_position_error"; "collision_rate"; "jackknife_rate"; "safety";
        picture_key (tu_number r); "param_d_thr_factor"; "param_k_switch"].
Proof.
  intros P H. unfold trial_row in H. rewrite P in H. destruct xy as [x y].
  change (prefixed "param_" (hyperparameters (x, y))) with [("param_d_thr_factor", IVal (VFloat (suggest x))); ("param_k_switch", IVal (VFloat (suggest y)))] in H.
  cbn [app] in H. fold (picture_key (tu_number r)) in H. cbn [In] in H |- *.
  repeat match type of H with
  | False => contradiction
  | _ \/ _ => destruct H as [H|H]; [apply pair_equal_spec in H as [H _]; rewrite <- H; tauto|]
  end.
Qed.

Lemma summary_keys states b x y : tu_params b = hyperparameters (x, y) ->
  summary_row states b = [("optimization_completed", IBool true); ("total_trials", INat (length states));
   ("completed_trials", INat (count_state COMPLETE states)); ("pruned_trials", INat (count_state PRUNED states));
   ("failed_trials", INat (count_state FAIL states));
   ("pruning_efficiency", INum (Some (if Nat.ltb 0 (length states) then INR (count_state PRUNED states) / INR (length states) else 0)));
   ("best_objective_score", INum (Some (tu_score b))); ("best_trial_number", INat (tu_number b));
   ("best_d_thr_factor", IVal (VFloat (suggest x))); ("best_k_switch", IVal (VFloat (suggest y)))].
Proof. intros P. unfold summary_row. rewrite P. reflexivity. Qed.

(** Early stopping never shows up in the record: for every base configuration, sampler and scores, the summary says that no
    trial was pruned and none failed, and that the pruning efficiency is 0. *)
Lemma l_C77_pruning_refuted :
  forall cls rg ng im t procs sampler worse n_trials ran r k i,
  In (Logged r) (snd (fst (optimise_logged cls rg ng im true t procs sampler worse n_trials ran))) -> In (k, i) r ->
  (k = "pruned_trials" -> i = INat 0) /\ (k = "failed_trials" -> i = INat 0) /\ (k = "pruning_efficiency" -> i = INum (Some 0)).
Proof.
  intros cls rg ng im t procs sampler worse n_trials ran r k i H Hk. unfold optimise_logged in H. cbv zeta in H.
  destruct (loop_states cls rg ng im true (tn_base t) (tn_evals t) procs sampler worse (Nat.min n_trials ran) 0 []) as [S1 S2]. cbv zeta in S1, S2.
  destruct (optimize_logged cls rg ng im true (tn_base t) (tn_evals t) procs sampler worse (Nat.min n_trials ran) 0 []) as [l rows states res].
  cbn [rt_stored rt_rows rt_states rt_end] in *.
  assert (ROW : In (Logged r) (map Logged rows) -> (k = "pruned_trials" -> i = INat 0) /\ (k = "failed_trials" -> i = INat 0) /\ (k = "pruning_efficiency" -> i = INum (Some 0))).
  { intros I. apply in_map_iff in I as (r' & E & I). assert (r' = r) by congruence. subst r'. rewrite Forall_forall in S2. destruct (S2 r I) as (q & im' & xy & -> & P).
    apply (trial_row_keys _ _ _ _ _ P) in Hk.
    assert (K : k <> "pruned_trials" /\ k <> "failed_trials" /\ k <> "pruning_efficiency").
    { cbn [In] in Hk. repeat match type of Hk with
      | False => contradiction
      | _ \/ _ => destruct Hk as [<-|Hk]; [repeat split; unfold picture_key; cbn [append]; discriminate|]
      end. }
    intuition. }
  destruct res as [[]|e]; [|exact (ROW H)]. destruct (best_trial l) as [b|] eqn:Eb; [|exact (ROW H)].
  cbn [fst snd] in H. apply in_app_or in H as [H|H]; [exact (ROW H)|]. destruct H as [H|[]].
  assert (r = summary_row states b) by congruence. subst r. clear H ROW.
  assert (C : count_state PRUNED states = 0%nat /\ count_state FAIL states = 0%nat).
  { specialize (S1 eq_refl). clear - S1. unfold count_state. induction S1 as [|s l <- F (B & D)]; [repeat split|]. cbn [filter is_state length]. auto. }
  destruct C as [C1 C2]. unfold summary_row in Hk. rewrite C1, C2 in Hk.
  assert (Z : (if Nat.ltb 0 (length states) then INR 0 / INR (length states) else 0) = 0).
  { destruct (Nat.ltb 0 (length states)); [|reflexivity]. change (INR 0) with 0. unfold Rdiv. ring. }
  rewrite Z in Hk. apply in_app_or in Hk as [Hk|Hk].
  - cbn [In] in Hk. repeat match type of Hk with
    | False => contradiction
    | _ \/ _ => destruct Hk as [Hk|Hk]; [apply pair_equal_spec in Hk as [<- <-]; split; [|split]; intros Q; first [discriminate Q | reflexivity]|]
    end.
  - unfold prefixed in Hk. apply in_flat_map in Hk as (key & Hkey & Hk). destruct (tu_params b key) as [v|]; [|destruct Hk]. destruct Hk as [Hk|[]].
    apply pair_equal_spec in Hk as [<- _]. cbn [In] in Hkey. destruct Hkey as [<-|[<-|[]]]; cbn [append]; split; [|split| |split]; intros Q; discriminate Q.
Qed.

(** A search object used twice keeps one run: the second search numbers its trials from 0 again, so the first trials of both
    are logged under the same number and the same picture key. *)
Lemma l_C77_second_search_refuted :
  forall proj guide (b : obj (tt_self * ttq) (list refrow)) (hs hs' : nat -> list op) im t rg ng sampler sampler' worse worse' m m' ran ran',
  let cls := fun _ : string => tt_methods proj guide in
  complete (tn_base t) -> one_trailer (tn_base t) -> (0 < tn_evals t)%nat -> (0 < m)%nat -> (0 < ran)%nat -> (0 < m')%nat -> (0 < ran')%nat ->
  fst (sample_initial_conditions ng (tn_evals t) 42) <> [] ->
  exists t1 s1 t2 s2 r1 ev1 r2 ev2,
    optimise_logged cls rg ng im true t (fun i => execs cls (start b) (hs i)) sampler worse m ran = (t1, Logged r1 :: ev1, Ok s1) /\
    optimise_logged cls rg ng im true t1 (fun i => execs cls (start b) (hs' i)) sampler' worse' m' ran' = (t2, Logged r2 :: ev2, Ok s2) /\
    has r1 "trial_number" (INat 0) /\ has r2 "trial_number" (INat 0) /\
    (exists i, In ("heat_map_trial_0", i) r1) /\ (exists i, In ("heat_map_trial_0", i) r2).
Proof.
  intros proj guide b hs hs' im t rg ng sampler sampler' worse worse' m m' ran ran' cls HC H1 Hn Hm Hr Hm' Hr' Hne.
  destruct (l_C77_search proj guide b hs im t rg ng sampler worse m ran HC H1 Hn Hm Hr Hne) as (l & best & rows & su & E & _ & L1 & L2 & F & _). fold cls in E.
  destruct (l_C77_search proj guide b hs' im (mkTuner (tn_base t) (tn_evals t) (tn_study t) (tn_results t ++ l)) rg ng sampler' worse' m' ran' HC H1 Hn Hm' Hr' Hne)
    as (l' & best' & rows' & su' & E' & _ & L1' & L2' & F' & _). fold cls in E'. cbn [tn_base tn_evals tn_study tn_results] in *.
  destruct rows as [|r1 rows]; [cbn [length] in L2; lia|]. destruct rows' as [|r2 rows']; [cbn [length] in L2'; lia|].
  destruct l as [|x l]; [cbn [length] in L1; lia|]. destruct l' as [|x' l']; [cbn [length] in L1'; lia|].
  do 4 eexists. exists r1. eexists. exists r2. eexists. split; [exact E|]. split; [exact E'|].
  destruct (F 0%nat x r1 eq_refl eq_refl) as (d & k & st & hm & tr & _ & _ & _ & _ & (K & T & _) & _).
  destruct (F' 0%nat x' r2 eq_refl eq_refl) as (d' & k' & st' & hm' & tr' & _ & _ & _ & _ & (K' & T' & _) & _).
  split; [exact T|]. split; [exact T'|]. split; [apply K|apply K']; cbn [In]; do 7 right; left; reflexivity.
Qed.

Lemma only_logged cls rg ng im use t procs sampler worse n_trials ran ev :
  In ev (snd (fst (optimise_logged cls rg ng im use t procs sampler worse n_trials ran))) -> exists r, ev = Logged r.
Proof.
  unfold optimise_logged. cbv zeta. destruct (optimize_logged _ _ _ _ _ _ _ _ _ _ _ _ _) as [l rows states res]. cbn [rt_stored rt_rows rt_states rt_end].
  assert (M : forall e, In e (map Logged rows) -> exists r, e = Logged r) by (intros e H; apply in_map_iff in H as (r & <- & _); eauto).
  destruct res; [|apply M]. destruct (best_trial l); [|apply M]. cbn [fst snd]. intros H. apply in_app_or in H as [H|H]; [apply M, H|].
  destruct use; [|destruct H]. destruct H as [<-|[]]. eauto.
Qed.

(** The script: for every number of trials started within its time limit, one run is opened, one row logged for each of the at
    most 100 trials, then the summary, and the run is closed; the result file is the one of C72, it lists the trials of the rows in
    the same order and names the same best trial as the summary. *)
Lemma l_C77_script :
  forall proj guide (b : obj (tt_self * ttq) (list refrow)) (hs : nat -> list op) im rg ng sampler worse ran fs stamp,
  let cls := fun _ : string => tt_methods proj guide in
  (0 < ran)%nat -> fst (sample_initial_conditions ng 100 42) <> [] ->
  exists fs' f m rows summary best,
    main_logged cls rg ng im stamp fs (fun i => execs cls (start b) (hs i)) sampler worse ran =
      (fs', [RunStarted ("mbd_parking_optimization_" ++ stamp)%string m] ++ map Logged rows ++ [Logged summary; RunFinished], Ok tt) /\
    tune_main cls rg ng fs (fun i => execs cls (start b) (hs i)) sampler worse ran = (fs', Ok tt) /\
    fs' "mbd_optimization_results.json" = Some f /\ (forall p, p <> "mbd_optimization_results.json" -> fs' p = fs p) /\
    (forall k v, In (k, v) m <-> In k recorded /\ base_config k = Some v) /\
    length rows = Nat.min 100 ran /\ length (sv_all f) = Nat.min 100 ran /\
    (forall i r row, nth_error (sv_all f) i = Some r -> nth_error rows i = Some row ->
       exists d k st hm trials, on_grid d /\ on_grid k /\ evaluated_each proj guide base_config rg ng 100 d k st trials /\
         reports r i 100 d k st /\ row_reports row i d k st hm /\ pictures hm (323/100) trials) /\
    row_sums_up summary (Nat.min 100 ran) best /\ sv_best_number f = tu_number best /\ sv_best_score f = tu_score best /\ names_best f (sv_all f).
Proof.
  intros proj guide b hs im rg ng sampler worse ran fs stamp cls Hr Hne. destruct x_C53_shipped_base as (HC & H1 & _).
  assert (P : (0 < 100)%nat) by (apply Nat.ltb_lt; reflexivity).
  destruct (l_C77_run_opened base_config 100 "mbd_parking_optimization" stamp) as [RO _]. destruct (RO HC) as (m & Em & Sm). clear RO.
  destruct (l_C77_search proj guide b hs im (new_tuner base_config 100 "mbd_parking_optimization") rg ng sampler worse 100 ran HC H1 P P Hr Hne)
    as (l & best & rows & su & E & O & L1 & L2 & F & SU & B1 & B2 & B3). fold cls in E, O.
  destruct (l_C72_script proj guide b hs rg ng sampler worse ran fs Hr) as (fs' & f & T & A1 & A2 & A3 & A4 & _ & A6 & _). fold cls in T.
  cbn [new_tuner tn_base tn_evals tn_study tn_results app] in E, O, F.
  assert (SV : save_results fs (mkTuner base_config 100 "mbd_parking_optimization" l) (mkStudy (length l) l) "mbd_optimization_results.json" = (fs', Ok tt)).
  { unfold tune_main in T. change (new_tuner base_config 100 "mbd_parking_optimization") with (mkTuner base_config 100 "mbd_parking_optimization" []) in T.
    unfold new_tuner in O. rewrite O in T. exact T. }
  assert (Ef : sv_all f = l).
  { unfold save_results in SV. cbn [sd_done sd_trials tn_base tn_study tn_results] in SV.
    destruct (best_trial l) as [bt|]; [|apply pair_equal_spec in SV as [_ SV]; discriminate].
    destruct (config_to_dict base_config kept_fields) as [bm|]; [|apply pair_equal_spec in SV as [_ SV]; discriminate].
    apply pair_equal_spec in SV as [SV _]. rewrite <- SV in A1. rewrite String.eqb_refl in A1.
    pose proof (f_equal (fun x => match x with Some z => sv_all z | None => [] end) A1) as X. cbn [sv_all] in X. symmetry. exact X. }
  assert (NB : sv_best_number f = tu_number best /\ sv_best_score f = tu_score best).
  { rewrite Ef in A6. destruct A6 as (b' & N1 & N2 & N3 & N4 & N5).
    destruct (Nat.lt_trichotomy (sv_best_number f) (tu_number best)) as [Q|[Q|Q]].
    - pose proof (B3 _ _ Q N1) as Y. pose proof (N4 _ (nth_error_In _ _ B1)) as Y2. rewrite <- N2 in Y. lra.
    - split; [exact Q|]. rewrite Q in N1. rewrite N2. congruence.
    - pose proof (N5 _ _ Q B1) as Y. pose proof (B2 _ (nth_error_In _ _ N1)) as Y2. rewrite <- N2 in Y2. lra. }
  exists fs', f, m, rows, su, best. split.
  { unfold main_logged. rewrite Em. unfold new_tuner in E |- *. rewrite E. rewrite SV. rewrite <- app_assoc. reflexivity. }
  split; [exact T|]. split; [exact A1|]. split; [exact A2|]. split; [exact Sm|]. split; [exact L2|]. split; [rewrite Ef; exact L1|].
  split.
  { rewrite Ef. intros i r row Hi Hw. destruct (F i r row Hi Hw) as (d & k & st & hm & trials & Q1 & Q2 & Q3 & Q4 & Q5 & Q6).
    exists d, k, st, hm, trials. replace (323/100) with (num base_config "l1"); [auto 10|].
    unfold num. change (base_config "l1") with (Some (VFloat (323/100))). reflexivity. }
  split; [exact SU|]. split; [exact (proj1 NB)|]. split; [exact (proj2 NB)|exact A6].
Qed.

(** If the script fails, the run is not closed and no file changes. *)
Lemma l_C77_failed_script :
  forall cls rg ng im stamp fs procs sampler worse ran fs' events e,
  main_logged cls rg ng im stamp fs procs sampler worse ran = (fs', events, Err e) ->
  fs' = fs /\ ~ In RunFinished events /\ (exists m, hd_error events = Some (RunStarted ("mbd_parking_optimization_" ++ stamp)%string m)).
Proof.
  intros cls rg ng im stamp fs procs sampler worse ran fs' events e H. destruct x_C53_shipped_base as (HC & _ & _).
  destruct (l_C77_run_opened base_config 100 "mbd_parking_optimization" stamp) as [RO _]. destruct (RO HC) as (m & Em & _). clear RO.
  unfold main_logged in H. rewrite Em in H.
  pose proof (only_logged cls rg ng im true (new_tuner base_config 100 "mbd_parking_optimization") procs sampler worse 100 ran) as OL.
  destruct (optimise_logged cls rg ng im true (new_tuner base_config 100 "mbd_parking_optimization") procs sampler worse 100 ran) as [[t ev] r].
  cbn [fst snd] in OL.
  assert (N : forall x, ~ In RunFinished ([RunStarted x m] ++ ev)).
  { intros x I. apply in_app_or in I as [[I|[]]|I]; [discriminate|]. destruct (OL _ I) as [q Q]. discriminate. }
  destruct r as [s|e'].
  - destruct (save_results fs t s "mbd_optimization_results.json") as [fs2 r'] eqn:Es. destruct r' as [u|e'']; [discriminate|].
    apply pair_equal_spec in H as [H _]. apply pair_equal_spec in H as [<- <-].
    split; [exact (proj1 l_C72_failure_changes_no_file _ _ _ _ _ _ Es)|]. split; [apply N|]. exists m. reflexivity.
  - apply pair_equal_spec in H as [H _]. apply pair_equal_spec in H as [<- <-]. split; [reflexivity|]. split; [apply N|]. exists m. reflexivity.
Qed.

(** Such searches exist: a generator that finds start conditions, the shipped base configuration, 5 evaluations. *)
Lemma x_C77_recorded_search :
  let t := new_tuner base_config 5 "study" in
  complete (tn_base t) /\ one_trailer (tn_base t) /\ (0 < tn_evals t)%nat /\ fst (sample_initial_conditions mid_rng (tn_evals t) 42) <> [] /\
  fst (sample_initial_conditions unlucky_rng (tn_evals t) 42) = [] /\
  picture_key 12 = "heat_map_trial_12".
Proof.
  destruct x_C53_shipped_base as (A & B & _ & _ & C & _). cbv zeta. split; [exact A|]. split; [exact B|].
  split; [apply Nat.ltb_lt; reflexivity|]. split; [exact C|]. split; [apply unlucky_sample|reflexivity].
Qed.
