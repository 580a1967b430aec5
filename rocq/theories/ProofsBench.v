(** * ProofsBench: timing reports and benchmarks (C50-C52). *)
From Coq Require Import String Lia Reals Lra FunctionalExtensionality Permutation Sorted.
From Verif Require Import Base BaseFacts Params Geom TT2d Rollout Demo EnvModel Config Setup Stats Planner Cache CacheInst SpecCache Bench SpecBench SpecGeom SpecBodies SpecEnv SpecDemo ProofsAcc ProofsEnv ProofsDemo ProofsSetup ProofsCache.
Local Open Scope string_scope.
Local Open Scope list_scope.
Open Scope R_scope.

Section Again.
Context {D X Q : Type}.
Variable cls : string -> methods D X Q.
Local Notation W := (world D X Q).
Implicit Types w : W.

Lemma put_same w o : put_obj w o (w_obj w o) = w.
Proof.
  destruct w as [a b c d e f h i j k l]. unfold put_obj. cbn [w_objs w_obj w_fns w_env w_rev t_reset t_reward t_terminal t_step t_roll t_rev].
  f_equal. apply functional_extensionality. intros n. unfold upd. destruct (Nat.eqb_spec n o); congruence.
Qed.
Lemma reward_stored w o : t_reward (fst (call_reward cls w o)) o = Some (snd (call_reward cls w o)).
Proof. unfold call_reward. destruct (t_reward w o) eqn:E; cbn [fst snd]; [exact E | apply upd_same]. Qed.
Lemma reward_again w o f : t_reward w o = Some f -> call_reward cls w o = (w, f).
Proof. intros H. unfold call_reward. rewrite H. reflexivity. Qed.
Lemma terminal_again w o f : t_terminal w o = Some f -> call_terminal cls w o = (w, f).
Proof. intros H. unfold call_terminal. rewrite H. reflexivity. Qed.
Lemma step_again w o v f : t_step w o v = Some f -> call_step cls w o v = (w, f).
Proof. intros H. unfold call_step. rewrite H. reflexivity. Qed.
Lemma rev_again w rf g r : t_rev w (rf_id rf) (key_of g) = Some r -> call_rev cls w rf g = (w, r).
Proof. intros H. unfold call_rev. rewrite H. reflexivity. Qed.
(** reset answers st in w. *)
Definition reset_is w o st : Prop :=
  if m_jit_reset (meth cls w o) then t_reset w o = Some st else m_reset (meth cls w o) (data w o) = st.
Lemma reset_stored w o : reset_is (fst (call_reset cls w o)) o (snd (call_reset cls w o)).
Proof.
  unfold reset_is, call_reset. destruct (m_jit_reset (meth cls w o)) eqn:E.
  - destruct (t_reset w o) eqn:E2; cbn [fst snd]; unfold meth in *; cbn [w_obj t_reset].
    + rewrite E. exact E2.
    + rewrite E. apply upd_same.
  - cbn [fst snd]. rewrite E. reflexivity.
Qed.
Lemma reset_again w o st : reset_is w o st -> call_reset cls w o = (w, st).
Proof.
  unfold reset_is, call_reset. destruct (m_jit_reset (meth cls w o)); intros H; rewrite H; reflexivity.
Qed.
Lemma reset_keep w w' o st : w_obj w' = w_obj w -> grows w w' -> reset_is w o st -> reset_is w' o st.
Proof.
  unfold reset_is, meth, data. intros -> (G & _). destruct (m_jit_reset _); auto.
Qed.

(** What the demonstration step leaves behind. *)
Definition demo_is w o g : Prop :=
  g_demo g = true ->
  exists x rew tm, m_gen (meth cls w o) (data w o) (g_motion g) = Ok x /\
    t_reward w o = Some rew /\ t_terminal w o = Some tm /\
    w_obj w o = mkObj (ob_class (w_obj w o)) (data w o) (Some x) (m_score (meth cls w o) (data w o) x rew tm).
Lemma demo_stored w o g w1 : prepare_demo cls w o g = (w1, Ok tt) -> demo_is w1 o g.
Proof.
  unfold prepare_demo. intros H Hd. rewrite Hd in H.
  destruct (m_gen (meth cls w o) (data w o) (g_motion g)) as [x|e] eqn:Eg; [|discriminate].
  pose proof (reward_stored w o) as R. pose proof (core_reward cls w o) as C1.
  destruct (call_reward cls w o) as [wa rew]. cbn [fst snd] in *.
  pose proof (term_stored cls wa o) as T. pose proof (core_terminal cls wa o) as C2. pose proof (grows_terminal cls wa o) as G2.
  destruct (call_terminal cls wa o) as [wb tm]. cbn [fst snd] in *.
  injection H as <-. exists x, rew, tm.
  unfold meth, data, put_obj. cbn [w_obj t_reward t_terminal]. rewrite upd_same. cbn [ob_class ob_data].
  destruct C1 as (_ & C1 & _), C2 as (_ & C2 & _).
  assert (Hb : w_obj wb o = w_obj w o) by congruence.
  unfold meth, data in *. rewrite Hb. destruct G2 as (_ & G2 & _).
  split; [exact Eg|]. split; [apply G2; exact R|]. split; [exact T|]. reflexivity.
Qed.
Lemma demo_keep w w' o g : w_obj w' = w_obj w -> grows w w' -> demo_is w o g -> demo_is w' o g.
Proof.
  unfold demo_is, meth, data. intros -> (_ & G1 & G2 & _) H Hd. destruct (H Hd) as (x & rew & tm & A & B & C & E).
  exists x, rew, tm. auto.
Qed.
Lemma demo_again w o g : demo_is w o g -> prepare_demo cls w o g = (w, Ok tt).
Proof.
  unfold demo_is, prepare_demo. destruct (g_demo g); [|reflexivity]. intros H.
  destruct (H eq_refl) as (x & rew & tm & A & B & C & E). rewrite A, (reward_again _ _ _ B), (terminal_again _ _ _ C).
  rewrite <- E, put_same. reflexivity.
Qed.

(** A run without guidance leaves a process in which the same run changes nothing and returns the
    same result. *)
Lemma run_leaves w o g rg w' out : g_guid g = false -> run cls w o g rg = (w', Ok out) ->
  run cls w' o g rg = (w', Ok out) /\ prepare_demo cls w' o g = (w', Ok tt) /\
  exists fs st rf rev, get_funcs w' o = (w', fs) /\ call_reset cls w' o = (w', st) /\ get_rev w' o g fs = (w', rf) /\
    t_rev w' (rf_id rf) (key_of g) = Some rev.
Proof.
  intros Hg HR. pose proof (run_inv cls w o g rg) as I.
  destruct (prepare_demo cls w o g) as [w1 [[]|e]] eqn:ED; [|congruence].
  destruct I as (w2 & fs & w3 & st0 & w4 & rf & w5 & rev & Ybars & Yfin & w6 & roll & w7 & step & w8 & un & w9 & roll' &
    E2 & E3 & E4 & E5 & EL & E6 & E7 & E8 & E9 & ER).
  rewrite Hg in E7, E8. injection E8 as <- <-. rewrite ER in HR. injection HR as <- <-.
  pose proof (demo_stored _ _ _ _ ED) as D1.
  (* get_funcs *)
  assert (F2 : w_obj w2 = w_obj w1 /\ w_env w2 (ob_class (w_obj w1 o)) = Some fs /\ grows w1 w2).
  { unfold get_funcs in E2. destruct (w_env w1 _) eqn:Ee; injection E2 as <- <-.
    - repeat split; auto.
    - split; [reflexivity|]. split; [apply upd_str_same | apply grows_same; reflexivity]. }
  destruct F2 as (O2 & F2 & G2).
  pose proof (core_reset cls w2 o) as C3. pose proof (grows_reset cls w2 o) as G3. pose proof (reset_stored w2 o) as S3.
  rewrite E3 in C3, G3, S3. cbn [fst snd] in *.
  assert (F4 : w_obj w4 = w_obj w3 /\ w_env w4 = w_env w3 /\ w_rev w4 = Some rf /\ grows w3 w4).
  { unfold get_rev in E4. destruct (w_rev w3) eqn:Ee; injection E4 as <- <-.
    - repeat split; auto.
    - split; [reflexivity|]. split; [reflexivity|]. split; [reflexivity | apply grows_same; reflexivity]. }
  destruct F4 as (O4 & V4 & F4 & G4).
  pose proof (core_rev cls w4 rf g) as C5. pose proof (grows_rev cls w4 rf g) as G5. pose proof (rev_stored cls w4 rf g) as S5.
  rewrite E5 in C5, G5, S5. cbn [fst snd] in *.
  pose proof (core_roll cls w5 fs (g_Hsample g)) as C6. pose proof (grows_roll cls w5 fs (g_Hsample g)) as G6.
  pose proof (roll_stored cls w5 fs (g_Hsample g)) as S6. rewrite E6 in C6, G6, S6. cbn [fst snd] in *.
  pose proof (core_step cls w6 (ef_obj fs) false) as C7. pose proof (grows_step cls w6 (ef_obj fs) false) as G7.
  pose proof (step_stored cls w6 (ef_obj fs) false) as S7. rewrite E7 in C7, G7, S7. cbn [fst snd] in *.
  assert (S6' : t_roll w7 (ef_id fs) (g_Hsample g) = Some roll) by (apply G7; exact S6).
  rewrite (roll_again cls _ _ _ _ S6') in E9. injection E9 as <- <-.
  destruct C3 as (_ & C3a & _ & C3b & C3c), C5 as (_ & C5a & _ & C5b & C5c), C6 as (_ & C6a & _ & C6b & C6c), C7 as (_ & C7a & _ & C7b & C7c).
  assert (GG3 : grows w3 w7) by (exact (grows_trans _ _ _ G4 (grows_trans _ _ _ G5 (grows_trans _ _ _ G6 G7)))).
  assert (GG1 : grows w1 w7) by (exact (grows_trans _ _ _ G2 (grows_trans _ _ _ G3 GG3))).
  assert (OO3 : w_obj w7 = w_obj w3) by congruence.
  assert (OO1 : w_obj w7 = w_obj w1) by congruence.
  pose proof (demo_keep _ _ _ _ OO1 GG1 D1) as D7. pose proof (reset_keep _ _ _ _ OO3 GG3 S3) as R7.
  assert (FF : w_env w7 (ob_class (w_obj w7 o)) = Some fs).
  { rewrite C7b, C6b, C5b, V4, C3b, OO1. exact F2. }
  assert (RR : w_rev w7 = Some rf) by congruence.
  assert (TV : t_rev w7 (rf_id rf) (key_of g) = Some rev) by (apply G7, G6; exact S5).
  assert (GF : get_funcs w7 o = (w7, fs)) by (unfold get_funcs; rewrite FF; reflexivity).
  assert (GR : get_rev w7 o g fs = (w7, rf)) by (unfold get_rev; rewrite RR; reflexivity).
  split; [|split; [exact (demo_again _ _ _ D7) | exists fs, st0, rf, rev; split; [exact GF|]; split; [exact (reset_again _ _ _ R7)|]; split; [exact GR | exact TV]]].
  unfold run. rewrite (demo_again _ _ _ D7), GF, (reset_again _ _ _ R7), GR, (rev_again _ _ _ _ TV), EL.
  rewrite (roll_again cls _ _ _ _ S6'), Hg, (step_again _ _ _ _ S7), (roll_again cls _ _ _ _ S6'). reflexivity.
Qed.

(** What the methods of an object answer in w: the trace if there is one, else the current attributes. *)
Definition stepv w o (v : bool) : State Q -> act -> State Q :=
  match t_step w o v with Some f => f | None => m_step (meth cls w o) (data w o) (rew_of cls w o) v end.
Definition same_eff (o : nat) w w' : Prop :=
  w_obj w' o = w_obj w o /\ start_of cls w' o = start_of cls w o /\ rew_of cls w' o = rew_of cls w o /\
  term_of cls w' o = term_of cls w o /\ forall v, stepv w' o v = stepv w o v.
Lemma eff_refl o w : same_eff o w w.
Proof. repeat split. Qed.
Lemma eff_trans o a b c : same_eff o a b -> same_eff o b c -> same_eff o a c.
Proof.
  intros (A1 & A2 & A3 & A4 & A5) (B1 & B2 & B3 & B4 & B5). repeat split; try congruence; intros; rewrite B5; apply A5.
Qed.
Lemma eff_same o w w' : w_obj w' o = w_obj w o -> t_reset w' o = t_reset w o -> t_reward w' o = t_reward w o ->
  t_terminal w' o = t_terminal w o -> t_step w' o = t_step w o -> same_eff o w w'.
Proof.
  intros A B C E F. unfold same_eff, start_of, rew_of, term_of, stepv, rew_of, meth, data. rewrite A, B, C, E, F. repeat split.
Qed.
Lemma eff_reset o w o' : same_eff o w (fst (call_reset cls w o')).
Proof.
  unfold call_reset. destruct (m_jit_reset (meth cls w o')) eqn:Ej; [|apply eff_refl].
  destruct (t_reset w o') eqn:E; [apply eff_refl|]. cbn [fst]. destruct (Nat.eq_dec o o') as [<-|N].
  - unfold same_eff, start_of, rew_of, term_of, stepv, rew_of, meth, data in *. cbn [w_obj t_reset t_reward t_terminal t_step].
    rewrite Ej, upd_same, E. repeat split.
  - apply eff_same; try reflexivity. cbn [t_reset]. apply upd_other. exact N.
Qed.
Lemma eff_reward o w o' : same_eff o w (fst (call_reward cls w o')).
Proof.
  unfold call_reward. destruct (t_reward w o') eqn:E; [apply eff_refl|]. cbn [fst]. destruct (Nat.eq_dec o o') as [<-|N].
  - unfold same_eff, start_of, rew_of, term_of, stepv, rew_of, meth, data in *. cbn [w_obj t_reset t_reward t_terminal t_step].
    rewrite upd_same, E. repeat split.
  - apply eff_same; try reflexivity. cbn [t_reward]. apply upd_other. exact N.
Qed.
Lemma eff_terminal o w o' : same_eff o w (fst (call_terminal cls w o')).
Proof.
  unfold call_terminal. destruct (t_terminal w o') eqn:E; [apply eff_refl|]. cbn [fst]. destruct (Nat.eq_dec o o') as [<-|N].
  - unfold same_eff, start_of, rew_of, term_of, stepv, rew_of, meth, data in *. cbn [w_obj t_reset t_reward t_terminal t_step].
    rewrite upd_same, E. repeat split.
  - apply eff_same; try reflexivity. cbn [t_terminal]. apply upd_other. exact N.
Qed.
Lemma reward_is w o : snd (call_reward cls w o) = rew_of cls w o.
Proof. unfold call_reward, rew_of. destruct (t_reward w o); reflexivity. Qed.
Lemma eff_step o w o' v : same_eff o w (fst (call_step cls w o' v)).
Proof.
  unfold call_step. destruct (t_step w o' v) eqn:E; [apply eff_refl|].
  pose proof (eff_reward o w o') as A. pose proof (reward_is w o') as B. pose proof (core_reward cls w o') as (_ & C & _).
  pose proof (step_table_reward cls w o') as TS.
  destruct (call_reward cls w o') as [w1 f]. cbn [fst snd] in *. apply (eff_trans _ _ _ _ A).
  destruct (Nat.eq_dec o o') as [<-|N].
  - assert (RW : rew_of cls w1 o = f) by (destruct A as (_ & _ & A & _); congruence).
    unfold same_eff, start_of, rew_of, term_of, stepv, meth, data in *. cbn [w_obj t_reset t_reward t_terminal t_step].
    rewrite upd_same. split; [reflexivity|]. split; [reflexivity|]. split; [reflexivity|]. split; [reflexivity|].
    intros v'. unfold upd_bool. destruct (Bool.eqb v' v) eqn:Ev; [|reflexivity]. apply Bool.eqb_prop in Ev. subst v'.
    rewrite TS, E. unfold rew_of, meth, data. cbn [t_reward w_obj]. rewrite RW. reflexivity.
  - apply eff_same; try reflexivity. cbn [t_step]. apply upd_other. exact N.
Qed.
Lemma stepv_is w o v : snd (call_step cls w o v) = stepv w o v.
Proof.
  unfold call_step, stepv. destruct (t_step w o v) eqn:E; [reflexivity|].
  pose proof (reward_is w o) as B. pose proof (core_reward cls w o) as (_ & C & _). destruct (call_reward cls w o) as [w1 f]. cbn [fst snd] in *.
  unfold meth, data. rewrite C, B. reflexivity.
Qed.
Lemma eff_roll o w fs H : same_eff o w (fst (call_roll cls w fs H)).
Proof.
  unfold call_roll. destruct (t_roll w (ef_id fs) H); [apply eff_refl|].
  pose proof (eff_step o w (ef_obj fs) false) as A. destruct (call_step cls w (ef_obj fs) false) as [w1 f]. cbn [fst] in A.
  pose proof (eff_terminal o w1 (ef_obj fs)) as B. destruct (call_terminal cls w1 (ef_obj fs)) as [w2 tm]. cbn [fst] in B.
  apply (eff_trans _ _ _ _ A), (eff_trans _ _ _ _ B). apply eff_same; reflexivity.
Qed.
Lemma eff_rev o w rf g : same_eff o w (fst (call_rev cls w rf g)).
Proof.
  unfold call_rev. destruct (t_rev w (rf_id rf) (key_of g)); [apply eff_refl|].
  pose proof (eff_roll o w (rf_funcs rf) (g_Hsample g)) as A.
  destruct (call_roll cls w (rf_funcs rf) (g_Hsample g)) as [w1 r]. cbn [fst] in *. apply (eff_trans _ _ _ _ A). apply eff_same; reflexivity.
Qed.
Lemma roll_new w fs H : t_roll w (ef_id fs) H = None ->
  snd (call_roll cls w fs H) = mkRoll (stepv w (ef_obj fs) false) (term_of cls w (ef_obj fs)) (m_term_w (meth cls w (ef_obj fs)) (data w (ef_obj fs))) /\
  t_step (fst (call_roll cls w fs H)) (ef_obj fs) false = Some (stepv w (ef_obj fs) false).
Proof.
  intros N. unfold call_roll. rewrite N. pose proof (stepv_is w (ef_obj fs) false) as A. pose proof (eff_step (ef_obj fs) w (ef_obj fs) false) as (_ & _ & _ & B & _).
  pose proof (core_step cls w (ef_obj fs) false) as (_ & C & _). pose proof (step_stored cls w (ef_obj fs) false) as S.
  destruct (call_step cls w (ef_obj fs) false) as [w1 f]. cbn [fst snd] in *.
  pose proof (term_is cls w1 (ef_obj fs)) as E. pose proof (core_terminal cls w1 (ef_obj fs)) as (_ & F & _).
  pose proof (viz_terminal cls w1 (ef_obj fs) (ef_obj fs)) as V.
  destruct (call_terminal cls w1 (ef_obj fs)) as [w2 tm]. cbn [fst snd t_step] in *. unfold meth, data. rewrite F, C.
  split; [subst; congruence | rewrite V, S, A; reflexivity].
Qed.

(** The planner's view of object o in w. *)
Definition eff_env w o : penv Q :=
  mkPenv (start_of cls w o) (stepv w o false) (stepv w o true) (term_of cls w o) (m_term_w (meth cls w o) (data w o))
    (m_steer_w (meth cls w o) (data w o)) (m_dmax (meth cls w o) (data w o))
    (m_logpd (meth cls w o) (data w o) (ob_ref (w_obj w o))) (ob_rx (w_obj w o)).
Lemma eff_env_eq o w w' : same_eff o w w' -> eff_env w' o = eff_env w o.
Proof.
  intros (A & B & C & E & F). unfold eff_env. unfold meth, data. rewrite A, B, E, !F. reflexivity.
Qed.
(** A run with an empty dictionary depends on the planner's view of the object only and, after the
    demonstration step, does not change it. *)
Definition clean_output w o g rg : output (Q := Q) :=
  let r := run_diffusion_core (eff_env w o) g rg in
  mkOut r (if g_guid g then Some (trajectory_states (stepv w o false) (start_of cls w o) (o_Y0 r)) else None).
Lemma start_is w o : snd (call_reset cls w o) = start_of cls w o.
Proof. unfold call_reset, start_of. destruct (m_jit_reset (meth cls w o)); [destruct (t_reset w o)|]; reflexivity. Qed.
Lemma run_clean_gen w o g rg w1 : wf w -> empty w -> (o < w_objs w)%nat -> prepare_demo cls w o g = (w1, Ok tt) ->
  snd (run cls w o g rg) = Ok (clean_output w1 o g rg) /\ same_eff o w1 (fst (run cls w o g rg)) /\
  (g_guid g = true -> empty (fst (run cls w o g rg))).
Proof.
  intros Hw [Em1 Em2] L ED. pose proof (run_inv cls w o g rg) as I. rewrite ED in I.
  pose proof (wf_demo cls w o g L Hw) as Hw1. rewrite ED in Hw1. cbn [fst] in Hw1.
  assert (EM : w_env w1 = w_env w /\ w_rev w1 = w_rev w).
  { unfold prepare_demo in ED. destruct (g_demo g); [|injection ED as <-; auto]. destruct (m_gen _ _ _); [|discriminate].
    pose proof (core_reward cls w o) as (_ & _ & _ & A1 & A2). destruct (call_reward cls w o) as [wa f]. cbn [fst] in *.
    pose proof (core_terminal cls wa o) as (_ & _ & _ & B1 & B2). destruct (call_terminal cls wa o) as [wb tm]. cbn [fst] in *.
    injection ED as <-. cbn [put_obj w_env w_rev]. split; congruence. }
  destruct EM as [EM1 EM2].
  destruct I as (w2 & fs & w3 & st0 & w4 & rf & w5 & rev & Ybars & Yfin & w6 & roll & w7 & step & w8 & un & w9 & roll' &
    E2 & E3 & E4 & E5 & EL & E6 & E7 & E8 & E9 & ER). rewrite ER. cbn [fst snd].
  unfold get_funcs in E2. rewrite EM1, Em1 in E2. injection E2 as <- <-.
  set (fs := mkFuncs (w_fns w1) o) in *.
  match type of E3 with call_reset cls ?x o = _ => set (w2 := x) in * end.
  assert (EF2 : same_eff o w1 w2) by (apply eff_same; reflexivity).
  pose proof (start_is w2 o) as S3. pose proof (eff_reset o w2 o) as EF3. pose proof (core_reset cls w2 o) as (_ & B3 & F3 & V3 & R3).
  pose proof (roll_tables_reset cls w2 o) as [TA3 TB3]. rewrite E3 in *. cbn [fst snd] in *.
  change (w_rev w2) with (w_rev w1) in R3. change (w_fns w2) with (S (w_fns w1)) in F3.
  unfold get_rev in E4. rewrite R3, EM2, Em2 in E4. injection E4 as <- <-.
  match type of E5 with call_rev cls ?x ?y g = _ => set (w4 := x) in *; set (rf := y) in * end.
  assert (EF4 : same_eff o w3 w4) by (apply eff_same; reflexivity).
  pose proof (eff_trans _ _ _ _ EF2 (eff_trans _ _ _ _ EF3 EF4)) as EF.
  assert (N4 : t_rev w4 (rf_id rf) (key_of g) = None).
  { change (t_rev w3 (w_fns w3) (key_of g) = None). rewrite TB3, F3. apply (proj1 Hw1 (S (w_fns w1))). lia. }
  assert (M4 : t_roll w4 (ef_id fs) (g_Hsample g) = None).
  { change (t_roll w3 (w_fns w1) (g_Hsample g) = None). rewrite TA3. apply (proj1 Hw1 (w_fns w1)). lia. }
  unfold call_rev in E5. rewrite N4 in E5. change (rf_funcs rf) with fs in E5.
  destruct (roll_new w4 fs (g_Hsample g) M4) as [RS1 RS2]. pose proof (eff_roll o w4 fs (g_Hsample g)) as EFR.
  pose proof (core_roll cls w4 fs (g_Hsample g)) as (_ & RB & _ & RV & RR). pose proof (roll_stored cls w4 fs (g_Hsample g)) as RT.
  destruct (call_roll cls w4 fs (g_Hsample g)) as [wr rr]. cbn [fst snd] in *.
  change (ef_obj fs) with o in *. change (rf_obj rf) with o in *. change (rf_cfg rf) with g in *.
  injection E5 as <- <-.
  match type of E6 with call_roll cls ?x _ _ = _ => set (w5 := x) in * end.
  assert (EF5 : same_eff o wr w5) by (apply eff_same; reflexivity).
  rewrite (roll_again cls w5 fs (g_Hsample g) _ RT) in E6. injection E6 as <- <-.
  assert (EA : same_eff o w1 w5) by (exact (eff_trans _ _ _ _ EF (eff_trans _ _ _ _ EFR EF5))).
  assert (S5 : t_step w5 o false = Some (stepv w4 o false)) by exact RS2.
  assert (ST : forall v, stepv w4 o v = stepv w1 o v) by (intros; apply EF).
  assert (OB : w_obj wr o = w_obj w1 o) by (rewrite RB; apply EF).
  assert (OB4 : w_obj w4 o = w_obj w1 o) by apply EF.
  assert (EQ : rr = mkRoll (stepv w1 o false) (term_of cls w1 o) (m_term_w (meth cls w1 o) (data w1 o))).
  { rewrite RS1, ST. unfold meth, data. rewrite OB4. f_equal. apply EF. }
  assert (EST : st0 = start_of cls w1 o) by (rewrite S3; apply EF2).
  (* the diffusion loop *)
  rewrite (loop_agree _ st0 g g (eff_env w1 o) rg) in EL; [|reflexivity | apply schedule_refl| |].
  2:{ unfold traced_env, eff_env, meth, data. cbn [pe_reset pe_step pe_terminal pe_term_w pe_steer_w pe_dmax pe_logpd pe_rew_xref rr_roll rr_steer_w rr_dmax rr_logpd rr_rx].
      rewrite EQ, OB, EST. repeat split. }
  2:{ apply indices_range. }
  assert (EY : o_Y0 (run_diffusion_core (eff_env w1 o) g rg) = snd (roll_with rr st0 Yfin)).
  { unfold run_diffusion_core. rewrite EL. cbn [o_Y0]. rewrite EQ, EST. reflexivity. }
  (* final rollout *)
  assert (E78 : step = (if g_guid g then stepv w1 o true else stepv w1 o false) /\
    un = (if g_guid g then Some (trajectory_states (stepv w1 o false) st0 (snd (roll_with rr st0 Yfin))) else None) /\
    same_eff o w1 w8 /\ t_roll w8 (ef_id fs) (g_Hsample g) = Some rr /\ (g_guid g = true -> empty w8)).
  { destruct (g_guid g).
    - pose proof (stepv_is w5 o true) as A1. pose proof (eff_step o w5 o true) as A2. pose proof (grows_step cls w5 o true) as (_ & _ & _ & A3 & A4 & _).
      rewrite E7 in A1, A2, A3, A4. cbn [fst snd] in *. cbv zeta in E8.
      assert (S7 : t_step w7 o false = Some (stepv w4 o false)) by (apply A3; exact S5).
      match type of E8 with context [call_step cls ?x o false] => set (wu := x) in * end.
      rewrite (step_again wu o false (stepv w4 o false) S7) in E8. injection E8 as <- <-.
      split; [rewrite A1; apply EA|]. split; [rewrite ST; reflexivity|]. split; [|split; [|split; reflexivity]].
      + apply (eff_trans _ _ _ _ EA), (eff_trans _ _ _ _ A2). apply eff_same; try reflexivity.
        cbn [put_obj w_obj clear_cache]. apply upd_same.
      + cbn [put_obj wu clear_cache t_roll]. apply A4. exact RT.
    - change (ef_obj fs) with o in E7. rewrite (step_again w5 o false _ S5) in E7. injection E7 as <- <-. injection E8 as <- <-.
      split; [apply ST|]. split; [reflexivity|]. split; [exact EA|]. split; [exact RT | discriminate]. }
  destruct E78 as (-> & -> & E8' & T8 & EM8).
  rewrite (roll_again cls w8 fs (g_Hsample g) _ T8) in E9. injection E9 as <- <-.
  split; [|split; [exact E8' | exact EM8]]. unfold clean_output. cbv zeta. rewrite EY, <- EST. f_equal. f_equal.
  unfold run_diffusion_core. rewrite EL. rewrite EQ, EST. reflexivity.
Qed.

(** From the second run on nothing changes any more, with guidance too. *)
Lemma demo_settled w o g w1 : prepare_demo cls w o g = (w1, Ok tt) -> forall w2, same_eff o w1 w2 ->
  exists w3, prepare_demo cls w2 o g = (w3, Ok tt) /\ same_eff o w1 w3.
Proof.
  unfold prepare_demo. intros H w2 E. destruct (g_demo g) eqn:Hd.
  2:{ exists w2. split; [reflexivity | exact E]. }
  destruct (m_gen (meth cls w o) (data w o) (g_motion g)) as [x|e] eqn:Eg; [|discriminate].
  pose proof (reward_is w o) as R1. pose proof (eff_reward o w o) as F1. destruct (call_reward cls w o) as [wa f]. cbn [fst snd] in *.
  pose proof (term_is cls wa o) as R2. pose proof (eff_terminal o wa o) as F2. destruct (call_terminal cls wa o) as [wb tm]. cbn [fst snd] in *.
  injection H as <-. set (b := mkObj _ _ _ _) in E.
  set (w1 := put_obj wb o b) in *.
  assert (O1 : w_obj w1 o = b) by (apply upd_same).
  assert (CD : ob_class (w_obj wb o) = ob_class (w_obj w o) /\ ob_data (w_obj wb o) = ob_data (w_obj w o)) by (destruct F1 as [F1 _], F2 as [F2 _]; split; congruence).
  destruct CD as [CC CD].
  assert (O2 : w_obj w2 o = b) by (rewrite <- O1; apply E).
  assert (M2 : meth cls w2 o = meth cls w o) by (unfold meth; rewrite O2; unfold b; cbn [ob_class]; rewrite CC; reflexivity).
  assert (D2 : data w2 o = data w o) by (unfold data at 1; rewrite O2; unfold b; cbn [ob_data]; unfold data; rewrite CD; reflexivity).
  rewrite M2, D2, Eg.
  pose proof (reward_is w2 o) as Q1. pose proof (eff_reward o w2 o) as G1. destruct (call_reward cls w2 o) as [wc f']. cbn [fst snd] in *.
  pose proof (term_is cls wc o) as Q2. pose proof (eff_terminal o wc o) as G2. destruct (call_terminal cls wc o) as [wd tm']. cbn [fst snd] in *.
  pose proof (eff_trans _ _ _ _ G1 G2) as G. pose proof (eff_trans _ _ _ _ F1 F2) as F.
  assert (M1 : meth cls wb o = meth cls w o) by (unfold meth; rewrite CC; reflexivity).
  assert (D1 : data wb o = data w o) by (unfold data; exact CD).
  assert (MD : meth cls wd o = meth cls w o /\ data wd o = data w o).
  { destruct G as [G _]. unfold meth, data in *. rewrite G. auto. }
  destruct MD as [MD DD].
  (* effective methods of w1 are those of wb *)
  assert (E1 : rew_of cls w1 o = rew_of cls wb o /\ term_of cls w1 o = term_of cls wb o).
  { unfold rew_of, term_of, meth, data. rewrite O1. unfold b. cbn [ob_class ob_data]. rewrite CC. unfold data. auto. }
  destruct E1 as [E1 E1'].
  assert (Hf : f' = f).
  { rewrite Q1, R1. destruct E as (_ & _ & E & _). rewrite E, E1. destruct F as (_ & _ & F & _). exact F. }
  assert (Ht : tm' = tm).
  { rewrite Q2, R2. destruct G1 as (_ & _ & _ & G1 & _). rewrite G1. destruct E as (_ & _ & _ & E & _). rewrite E, E1'.
    destruct F2 as (_ & _ & _ & F2 & _). exact F2. }
  eexists. split; [reflexivity|]. apply (eff_trans _ _ _ _ E), (eff_trans _ _ _ _ G). apply eff_same; try reflexivity.
  cbn [put_obj w_obj]. rewrite upd_same. destruct G as [G _]. rewrite G, O2. subst f' tm'.
  unfold b. cbn [ob_class]. rewrite MD, M1, DD, D1, Hf, Ht. reflexivity.
Qed.

Lemma eff_output o w w' g rg : same_eff o w w' -> clean_output w' o g rg = clean_output w o g rg.
Proof.
  intros E. unfold clean_output. rewrite (eff_env_eq _ _ _ E). destruct E as (_ & A & _ & _ & B). rewrite A, B. reflexivity.
Qed.
Lemma same_eff_obj o w w' : same_eff o w w' -> w_obj w' o = w_obj w o.
Proof. intros (A & _). exact A. Qed.

(** A process in which the run on o with g returns out and which it leaves in such a state. *)
Definition settled w o g rg (out : output (Q := Q)) (ref : option X) : Prop :=
  wf w /\ empty w /\ (o < w_objs w)%nat /\
  exists wd, prepare_demo cls w o g = (wd, Ok tt) /\ clean_output wd o g rg = out /\ ob_ref (w_obj wd o) = ref.
Lemma settled_run w o g rg out ref : g_guid g = true -> settled w o g rg out ref ->
  exists w', run cls w o g rg = (w', Ok out) /\ settled w' o g rg out ref.
Proof.
  intros Hg (Hw & He & L & wd & ED & EO & ER). destruct (run_clean_gen w o g rg wd Hw He L ED) as (A & B & C).
  pose proof (wf_run cls w o g rg L Hw) as [W' L']. destruct (run cls w o g rg) as [w' r]. cbn [fst snd] in *. subst r.
  exists w'. rewrite EO. split; [reflexivity|]. destruct (demo_settled _ _ _ _ ED w' B) as (w3 & E3 & F3).
  split; [exact W'|]. split; [apply C, Hg|]. split; [lia|]. exists w3. split; [exact E3|].
  split; [rewrite (eff_output _ _ _ _ _ F3); exact EO | rewrite (same_eff_obj _ _ _ F3); exact ER].
Qed.
(** A guided run leaves the dictionary empty. *)
Lemma guided_empty w o g rg out w' : g_guid g = true -> run cls w o g rg = (w', Ok out) -> empty w'.
Proof.
  intros Hg HR. pose proof (run_inv cls w o g rg) as I. destruct (prepare_demo cls w o g) as [w1 [[]|e]]; [|congruence].
  destruct I as (w2 & fs & w3 & st0 & w4 & rf & w5 & rev & Ybars & Yfin & w6 & roll & w7 & step & w8 & un & w9 & roll' &
    E2 & E3 & E4 & E5 & EL & E6 & E7 & E8 & E9 & ER). rewrite HR in ER. injection ER as -> _. rewrite Hg in E8. cbv zeta in E8.
  match type of E8 with context [call_step cls ?x o false] => pose proof (core_step cls x o false) as (_ & _ & _ & A & B); destruct (call_step cls x o false) as [wu us] end.
  injection E8 as <- _. match type of E9 with call_roll cls ?x _ _ = _ => pose proof (core_roll cls x fs (g_Hsample g)) as (_ & _ & _ & C & E) end.
  rewrite E9 in C, E. cbn [fst put_obj clear_cache w_env w_rev] in *. split; [intros c; rewrite C, A; reflexivity | rewrite E, B; reflexivity].
Qed.
Lemma demo_ok_data w o g w1 w2 : prepare_demo cls w o g = (w1, Ok tt) ->
  ob_class (w_obj w2 o) = ob_class (w_obj w o) -> ob_data (w_obj w2 o) = ob_data (w_obj w o) ->
  exists w3, prepare_demo cls w2 o g = (w3, Ok tt).
Proof.
  unfold prepare_demo, meth, data. intros H C E. destruct (g_demo g); [|eexists; reflexivity]. rewrite C, E.
  destruct (m_gen _ _ _); [|discriminate]. destruct (call_reward cls w2 o) as [wa f]. destruct (call_terminal cls wa o) as [wb tm].
  eexists; reflexivity.
Qed.
Lemma run_ok_demo w o g rg out : snd (run cls w o g rg) = Ok out -> exists w1, prepare_demo cls w o g = (w1, Ok tt).
Proof.
  intros H. pose proof (run_inv cls w o g rg) as I. destruct (prepare_demo cls w o g) as [w1 [[]|e]]; [eexists; reflexivity|].
  rewrite I in H. discriminate.
Qed.
Lemma guided_settles w o g rg out w' : g_guid g = true -> wf w -> (o < w_objs w)%nat -> run cls w o g rg = (w', Ok out) ->
  exists out' ref, settled w' o g rg out' ref.
Proof.
  intros Hg Hw L HR. pose proof (wf_run cls w o g rg L Hw) as [W' L']. pose proof (data_run cls w o g rg o) as (C & E & _).
  assert (HO : snd (run cls w o g rg) = Ok out) by (rewrite HR; reflexivity).
  destruct (run_ok_demo _ _ _ _ _ HO) as [w1 ED]. rewrite HR in *. cbn [fst] in *.
  destruct (demo_ok_data _ _ _ _ w' ED C E) as [w3 E3].
  exists (clean_output w3 o g rg), (ob_ref (w_obj w3 o)). split; [exact W'|]. split; [exact (guided_empty _ _ _ _ _ _ Hg HR)|].
  split; [lia|]. exists w3. auto.
Qed.

Variable rows : X -> nat.
(** Whether the demonstration of the object fits the horizon. *)
Definition fits (g : cfg) (ref : option X) : bool :=
  match ref with Some x => rows_fit (rows x) (g_Hsample g) | None => true end.
Lemma run_py_cases w o g rg w' out : run_py cls rows w o g rg = (w', Ok out) -> run cls w o g rg = (w', Ok out).
Proof.
  unfold run_py. destruct (prepare_demo cls w o g) as [w1 [[]|e]]; [|auto].
  destruct (get_funcs w1 o) as [w2 fs]. destruct (call_reset cls w2 o) as [w3 st0]. destruct (get_rev w3 o g fs) as [w4 rf].
  destruct (t_rev w4 (rf_id rf) (key_of g)); [auto|]. destruct (g_demo g && _); [discriminate | auto].
Qed.
Lemma run_py_again w o g rg w' out : g_guid g = false -> run_py cls rows w o g rg = (w', Ok out) ->
  run_py cls rows w' o g rg = (w', Ok out).
Proof.
  intros Hg H. apply run_py_cases in H. destruct (run_leaves w o g rg w' out Hg H) as (A & B & fs & st & rf & rev & C & E & F & G).
  unfold run_py. rewrite B, C, E, F, G. exact A.
Qed.
Lemma settled_py w o g rg out ref : g_guid g = true -> settled w o g rg out ref ->
  if g_demo g && negb (fits g ref) then exists w', run_py cls rows w o g rg = (w', Err TypeError)
  else run_py cls rows w o g rg = run cls w o g rg.
Proof.
  intros Hg (Hw & [He1 He2] & L & wd & ED & EO & ER). unfold run_py. rewrite ED.
  pose proof (wf_demo cls w o g L Hw) as Hwd. rewrite ED in Hwd. cbn [fst] in Hwd.
  assert (EM : w_env wd = w_env w /\ w_rev wd = w_rev w).
  { clear - ED. unfold prepare_demo in ED. destruct (g_demo g); [|injection ED as <-; auto]. destruct (m_gen _ _ _); [|discriminate].
    pose proof (core_reward cls w o) as (_ & _ & _ & A1 & A2). destruct (call_reward cls w o) as [wa f]. cbn [fst] in *.
    pose proof (core_terminal cls wa o) as (_ & _ & _ & B1 & B2). destruct (call_terminal cls wa o) as [wb tm]. cbn [fst] in *.
    injection ED as <-. cbn [put_obj w_env w_rev]. split; congruence. }
  destruct EM as [EM1 EM2]. unfold get_funcs. rewrite EM1, He1.
  match goal with |- context [call_reset cls ?x o] => set (w2 := x) end.
  pose proof (core_reset cls w2 o) as (_ & B3 & F3 & V3 & R3). pose proof (roll_tables_reset cls w2 o) as [TA3 TB3].
  destruct (call_reset cls w2 o) as [w3 st]. cbn [fst] in *. change (w_rev w2) with (w_rev wd) in R3. change (w_fns w2) with (S (w_fns wd)) in F3.
  unfold get_rev. rewrite R3, EM2, He2. cbn [rf_id rf_obj t_rev w_obj].
  rewrite TB3, F3. change (t_rev w2 (S (w_fns wd)) (key_of g)) with (t_rev wd (S (w_fns wd)) (key_of g)).
  assert (N : t_rev wd (S (w_fns wd)) (key_of g) = None) by (apply (proj1 Hwd (S (w_fns wd))); lia). rewrite N.
  rewrite B3. change (w_obj w2) with (w_obj wd). rewrite ER. unfold fits.
  replace (match ref with Some x => negb (rows_fit (rows x) (g_Hsample g)) | None => false end)
    with (negb (match ref with Some x => rows_fit (rows x) (g_Hsample g) | None => true end)) by (destruct ref; reflexivity).
  destruct (g_demo g && negb _); [eexists; reflexivity | reflexivity].
Qed.
Lemma settled_py_again w o g rg out ref w' r : g_guid g = true -> settled w o g rg out ref -> run_py cls rows w o g rg = (w', Ok r) ->
  r = out /\ settled w' o g rg out ref.
Proof.
  intros Hg S H. pose proof (settled_py w o g rg out ref Hg S) as A. destruct (g_demo g && negb (fits g ref)).
  - destruct A as [w'' A]. congruence.
  - destruct (settled_run w o g rg out ref Hg S) as (w1 & B & C). rewrite A, B in H. injection H as <- <-. auto.
Qed.

(** Rewards of consecutive runs. *)
Lemma later_0 g clock : later g 0 clock = clock.
Proof. unfold later. apply functional_extensionality. reflexivity. Qed.
Lemma later_later g i j clock : later g i (later g j clock) = later g (i + j) clock.
Proof. unfold later. apply functional_extensionality. intros n. f_equal. lia. Qed.
Lemma run_timed_inv w o g rg clock w' r t : run_timed cls rows w o g rg clock = (w', Ok (r, t)) ->
  exists out, run_py cls rows w o g rg = (w', Ok out) /\ r = o_rew (out_res out) /\ t = timing_of (g_demo g) clock /\ ti_total t <> 0.
Proof.
  unfold run_timed. destruct (run_py cls rows w o g rg) as [w1 [out|e]]; [|discriminate].
  unfold Reqb. destruct (Req_EM_T _ 0) as [E|E]; [discriminate|]. intros H. injection H as <- <- <-. exists out. auto.
Qed.
Lemma runs_inv n : forall w o g rg clock w' l, runs cls rows w o g rg clock n = (w', Ok l) ->
  map snd l = map (fun k => timing_of (g_demo g) (later g k clock)) (seq 0 n) /\ Forall (fun t => ti_total t <> 0) (map snd l) /\ length l = n.
Proof.
  induction n as [|n IH]; intros w o g rg clock w' l H; cbn [runs] in H.
  - injection H as <- <-. repeat split; constructor.
  - destruct (run_timed cls rows w o g rg clock) as [w1 [[r t]|e]] eqn:E1; [|discriminate].
    destruct (runs cls rows w1 o g rg (later g 1 clock) n) as [w2 [l'|e]] eqn:E2; [|discriminate]. injection H as <- <-.
    destruct (run_timed_inv _ _ _ _ _ _ _ _ E1) as (out & _ & _ & Ht & Hz). destruct (IH _ _ _ _ _ _ _ E2) as (A & B & C).
    cbn [map length seq snd]. split; [|split; [constructor; assumption | congruence]].
    rewrite A. f_equal; [rewrite later_0; exact Ht|]. rewrite <- seq_shift, map_map. apply map_ext. intros k. rewrite later_later. f_equal. f_equal. lia.
Qed.
(** After a successful unguided run all further runs give the same reward. *)
Lemma runs_same w o g rg out : g_guid g = false -> run_py cls rows w o g rg = (w, Ok out) ->
  forall n clock w' l, runs cls rows w o g rg clock n = (w', Ok l) -> w' = w /\ map fst l = repeat (o_rew (out_res out)) n.
Proof.
  intros Hg HR. induction n as [|n IH]; intros clock w' l H; cbn [runs] in H.
  - injection H as <- <-. auto.
  - destruct (run_timed cls rows w o g rg clock) as [w1 [[r t]|e]] eqn:E1; [|discriminate].
    destruct (run_timed_inv _ _ _ _ _ _ _ _ E1) as (out' & A & Hr & _). rewrite HR in A. injection A as <- <-.
    destruct (runs cls rows w o g rg (later g 1 clock) n) as [w2 [l'|e]] eqn:E2; [|discriminate]. injection H as <- <-.
    destruct (IH _ _ _ E2) as [-> B]. split; [reflexivity|]. cbn [map fst repeat]. rewrite B, Hr. reflexivity.
Qed.
Lemma runs_settled g rg o out ref : g_guid g = true ->
  forall n w clock w' l, settled w o g rg out ref -> runs cls rows w o g rg clock n = (w', Ok l) ->
  settled w' o g rg out ref /\ map fst l = repeat (o_rew (out_res out)) n.
Proof.
  intros Hg. induction n as [|n IH]; intros w clock w' l S H; cbn [runs] in H.
  - injection H as <- <-. auto.
  - destruct (run_timed cls rows w o g rg clock) as [w1 [[r t]|e]] eqn:E1; [|discriminate].
    destruct (run_timed_inv _ _ _ _ _ _ _ _ E1) as (out' & A & Hr & _).
    destruct (settled_py_again _ _ _ _ _ _ _ _ Hg S A) as [-> S1].
    destruct (runs cls rows w1 o g rg (later g 1 clock) n) as [w2 [l'|e]] eqn:E2; [|discriminate]. injection H as <- <-.
    destruct (IH _ _ _ _ S1 E2) as [S2 B]. split; [exact S2|]. cbn [map fst repeat]. rewrite B, Hr. reflexivity.
Qed.
Lemma runs_wf n : forall w o g rg clock, (o < w_objs w)%nat -> wf w -> forall w' l, runs cls rows w o g rg clock n = (w', Ok l) ->
  wf w' /\ w_objs w' = w_objs w.
Proof.
  induction n as [|n IH]; intros w o g rg clock L Hw w' l H; cbn [runs] in H.
  - injection H as <- _. auto.
  - destruct (run_timed cls rows w o g rg clock) as [w1 [[r t]|e]] eqn:E1; [|discriminate].
    destruct (run_timed_inv _ _ _ _ _ _ _ _ E1) as (out & A & _). apply run_py_cases in A.
    destruct (wf_run cls w o g rg L Hw) as [W1 O1]. rewrite A in W1, O1. cbn [fst] in *.
    destruct (runs cls rows w1 o g rg (later g 1 clock) n) as [w2 [l'|e]] eqn:E2; [|discriminate]. injection H as <- _.
    destruct (IH w1 o g rg (later g 1 clock) ltac:(lia) W1 _ _ E2) as [B C]. split; [exact B | congruence].
Qed.
End Again.

(** ** C50 *)
Lemma clock_le clock : never_back clock -> forall a b, (a <= b)%nat -> clock a <= clock b.
Proof. intros H a b L. induction L; [lra | pose proof (H m); lra]. Qed.

Lemma measured_timing demo clock : measured demo clock (timing_of demo clock).
Proof.
  unfold measured, span, timing_of. cbv zeta. destruct demo; cbn [ti_total ti_demo ti_compile ti_jit ti_warmup ti_reward ti_setup ti_pure ti_post ti_overhead Nat.add];
    repeat split; lra.
Qed.
(** Which reading every entry of the report comes from, for any clock. *)
Lemma l_C50_entries : forall (D X Q : Type) (cls : string -> methods D X Q) rows w o g rg clock w' r t,
  run_timed cls rows w o g rg clock = (w', Ok (r, t)) -> measured (g_demo g) clock t.
Proof.
  intros D X Q cls rows w o g rg clock w' r t H.
  destruct (run_timed_inv _ _ _ _ _ _ _ _ _ _ H) as (out & _ & _ & -> & Hz). apply measured_timing.
Qed.
(** The report of a run that returned, if the clock never goes back: every entry is a length of
    time, the compile time and the overhead are what their names say, and the separately measured
    phases do not overlap and fit into the total. *)
Lemma l_C50_timing_report : forall (D X Q : Type) (cls : string -> methods D X Q) rows w o g rg clock w' r t,
  never_back clock -> run_timed cls rows w o g rg clock = (w', Ok (r, t)) ->
  0 < ti_total t /\
  0 <= ti_demo t /\ 0 <= ti_jit t /\ 0 <= ti_warmup t /\ 0 <= ti_reward t /\ 0 <= ti_setup t /\ 0 <= ti_pure t /\ 0 <= ti_post t /\
  ti_compile t = ti_jit t + ti_warmup t + ti_reward t /\
  ti_overhead t = ti_total t - ti_pure t /\
  ti_demo t + ti_compile t + ti_setup t + ti_post t <= ti_overhead t /\
  ti_demo t + ti_compile t + ti_setup t + ti_pure t + ti_post t <= ti_total t <= clock (readings_of (g_demo g)) - clock 0%nat /\
  (g_demo g = false -> ti_reward t = 0).
Proof.
  intros D X Q cls rows w o g rg clock w' r t Hc H.
  destruct (run_timed_inv _ _ _ _ _ _ _ _ _ _ H) as (out & _ & _ & -> & Hz).
  unfold timing_of, readings_of in *. cbv zeta in *.
  pose proof (Hc 0%nat). pose proof (Hc 1%nat). pose proof (Hc 2%nat). pose proof (Hc 3%nat). pose proof (Hc 4%nat).
  pose proof (Hc 5%nat). pose proof (Hc 6%nat). pose proof (Hc 7%nat). pose proof (Hc 8%nat). pose proof (Hc 9%nat).
  pose proof (Hc 10%nat). pose proof (Hc 11%nat). pose proof (Hc 12%nat). pose proof (Hc 13%nat). pose proof (Hc 14%nat).
  pose proof (Hc 15%nat).
  destruct (g_demo g); cbn [ti_total ti_demo ti_compile ti_jit ti_warmup ti_reward ti_setup ti_pure ti_post ti_overhead Nat.add] in *.
  - repeat split; try lra; discriminate.
  - repeat split; lra.
Qed.
(** No time between first and last reading: the log line divides by zero. *)
Lemma l_C50_zero_time : forall (D X Q : Type) (cls : string -> methods D X Q) rows w o g rg clock w' out,
  run_py cls rows w o g rg = (w', Ok out) -> clock (readings_of (g_demo g) - 1)%nat = clock 0%nat ->
  run_timed cls rows w o g rg clock = (w', Err ZeroDivisionError).
Proof.
  intros D X Q cls rows w o g rg clock w' out H E. unfold run_timed. rewrite H. unfold timing_of, readings_of in *. cbv zeta.
  unfold Reqb. destruct (Req_EM_T _ 0) as [_|N]; [reflexivity|]. exfalso. apply N. cbn [ti_total].
  destruct (g_demo g); cbn [Nat.add Nat.sub] in *; lra.
Qed.
(** time.time() may be set back during a run: then a negative total is reported. *)
Lemma l_C50_clock_set_back_refuted : forall (D X Q : Type) (cls : string -> methods D X Q) rows w o g rg w' out,
  run_py cls rows w o g rg = (w', Ok out) ->
  exists clock r t, run_timed cls rows w o g rg clock = (w', Ok (r, t)) /\ ti_total t < 0.
Proof.
  intros D X Q cls rows w o g rg w' out H. exists (fun n => - INR n), (o_rew (out_res out)), (timing_of (g_demo g) (fun n => - INR n)).
  assert (E : ti_total (timing_of (g_demo g) (fun n => - INR n)) < 0) by (unfold timing_of; cbv zeta; cbn [ti_total]; destruct (g_demo g); cbn; lra).
  split; [|exact E]. unfold run_timed. rewrite H. unfold Reqb. destruct (Req_EM_T _ 0) as [Z|_]; [lra | reflexivity].
Qed.

(** ** Statistics of a series *)
Lemma total_sum l : total l = Rsum l.
Proof. induction l as [|x xs IH]; [reflexivity|]. cbn [total Rsum]. rewrite IH. reflexivity. Qed.
Lemma insert_perm x l : Permutation (x :: l) (insert x l).
Proof.
  induction l as [|y ys IH]; [reflexivity|]. cbn [insert]. destruct (Rleb x y); [reflexivity|].
  rewrite perm_swap. apply perm_skip, IH.
Qed.
Lemma sort_perm l : Permutation l (np_sort l).
Proof. induction l as [|x xs IH]; [reflexivity|]. cbn [np_sort fold_right]. rewrite <- insert_perm. apply perm_skip, IH. Qed.
Lemma insert_sorted x l : StronglySorted Rle l -> StronglySorted Rle (insert x l).
Proof.
  induction l as [|y ys IH]; intros H; cbn [insert]; [repeat constructor|].
  inversion H as [|? ? H1 H2]; subst. unfold Rleb. destruct (Rle_dec x y) as [L|L].
  - constructor; [exact H|]. constructor; [exact L|]. apply (Forall_impl _ (fun a (p : y <= a) => Rle_trans _ _ _ L p) H2).
  - constructor; [apply IH, H1|]. apply (Permutation_Forall (insert_perm x ys)). constructor; [lra | exact H2].
Qed.
Lemma sort_sorted l : StronglySorted Rle (np_sort l).
Proof. induction l as [|x xs IH]; [constructor|]. apply insert_sorted, IH. Qed.
Lemma sorted_low s : StronglySorted Rle s -> forall k, (k < length s)%nat -> Forall (fun x => x <= nth k s 0) (firstn (S k) s).
Proof.
  induction s as [|a s IH]; intros H k L; [inversion L|]. inversion H as [|? ? H1 H2]; subst. cbn [length] in L.
  destruct k as [|k]; [cbn; repeat constructor; lra|]. change (nth (S k) (a :: s) 0) with (nth k s 0).
  change (firstn (S (S k)) (a :: s)) with (a :: firstn (S k) s). constructor; [|apply IH; [exact H1 | lia]].
  rewrite Forall_forall in H2. apply H2, nth_In. lia.
Qed.
Lemma sorted_high s : StronglySorted Rle s -> forall k, Forall (fun x => nth k s 0 <= x) (skipn k s).
Proof.
  induction s as [|a s IH]; intros H k; [rewrite skipn_nil; constructor|]. inversion H as [|? ? H1 H2]; subst.
  destruct k as [|k]; [cbn [nth skipn]; constructor; [lra | exact H2]|]. apply IH, H1.
Qed.
Lemma nth_drop (s : list R) : forall k i, nth i (skipn k s) 0 = nth (k + i) s 0.
Proof. induction s as [|a s IH]; intros [|k] i; try reflexivity; [destruct i; reflexivity | apply IH]. Qed.
Lemma half_perm P l l' : Permutation l l' -> at_least_half P l' -> at_least_half P l.
Proof. intros H (y & n & A & B & C). exists y, n. split; [rewrite H; exact A | auto]. Qed.
Lemma median_ok l : l <> [] -> median_of (np_median l) l.
Proof.
  intros Hne. unfold np_median. pose proof (sort_perm l) as HP. pose proof (sort_sorted l) as HS.
  pose proof (Permutation_length HP) as HL. set (s := np_sort l) in *. clearbody s. cbv zeta.
  assert (N : (0 < length l)%nat) by (destruct l; [congruence | cbn; lia]).
  assert (half_perm' : forall P, at_least_half P s -> at_least_half P l) by (intros P; apply half_perm, HP).
  assert (F : forall P k, Forall P (firstn k s) -> (length s <= 2 * k)%nat -> (k <= length s)%nat -> at_least_half P l).
  { intros P k A B B'. apply half_perm'. exists (firstn k s), (skipn k s). rewrite firstn_skipn. split; [reflexivity|].
    split; [exact A|]. rewrite firstn_length, skipn_length. lia. }
  assert (K : forall P k, Forall P (skipn k s) -> (2 * k <= length s)%nat -> at_least_half P l).
  { intros P k A B. apply half_perm'. exists (skipn k s), (firstn k s). split; [rewrite Permutation_app_comm, firstn_skipn; reflexivity|].
    split; [exact A|]. rewrite firstn_length, skipn_length. lia. }
  rewrite HL in *. destruct (Nat.even (length s)) eqn:E.
  - apply Nat.even_spec in E. destruct E as [k E]. assert (D : (length s / 2 = k)%nat) by (rewrite E, Nat.mul_comm; apply Nat.div_mul; lia).
    rewrite D. assert (Hk : (0 < k)%nat) by lia.
    pose proof (sorted_low s HS (k - 1) ltac:(lia)) as A. replace (S (k - 1)) with k in A by lia.
    pose proof (sorted_high s HS k) as B. pose proof (sorted_high s HS (k - 1)) as B'.
    assert (C : nth (k - 1) s 0 <= nth k s 0).
    { rewrite Forall_forall in B'. apply B'. replace (nth k s 0) with (nth 1 (skipn (k - 1) s) 0) by (rewrite nth_drop; f_equal; lia).
      apply nth_In. rewrite skipn_length. lia. }
    split.
    + apply (F _ k); [|lia|lia]. apply (Forall_impl _ (P := fun x => x <= nth (k - 1) s 0)); [intros; lra | exact A].
    + apply (K _ k); [|lia]. apply (Forall_impl _ (P := fun x => nth k s 0 <= x)); [intros; lra | exact B].
  - assert (O : Nat.odd (length s) = true) by (unfold Nat.odd; rewrite E; reflexivity). apply Nat.odd_spec in O. destruct O as [k O].
    assert (D : (length s / 2 = k)%nat). { symmetry. apply (Nat.div_unique _ _ _ 1); lia. }
    rewrite D. split.
    + apply (F _ (S k)); [|lia|lia]. apply sorted_low; [exact HS | lia].
    + apply (K _ k); [|lia]. apply sorted_high, HS.
Qed.
Lemma half_witness P l : l <> [] -> at_least_half P l -> exists x, In x l /\ P x.
Proof.
  intros Hne (y & n & A & B & C). destruct y as [|x y].
  - destruct n; [|cbn in C; lia]. apply Permutation_sym, Permutation_nil in A. congruence.
  - exists x. split; [apply (Permutation_in _ (Permutation_sym A)); left; reflexivity | inversion B; auto].
Qed.


(** ** C51 *)
(** The figures computed for a non-empty series are its mean, its (population) standard deviation,
    its least and greatest entry and a median; mean and median lie between least and greatest. *)
Lemma l_C51_statistics : forall l, l <> [] ->
  exists s, np_summary l = Ok s /\ summarises (su_mean s) (su_std s) (su_min s) (su_max s) (su_median s) l /\
    su_min s <= su_mean s <= su_max s /\ su_min s <= su_median s <= su_max s.
Proof.
  intros l Hne. exists (mkSummary (Rmean l) (Rstd l) (Rmin_of l) (Rmax_of l) (np_median l)).
  split; [destruct l; [congruence | reflexivity]|]. cbn [su_mean su_std su_min su_max su_median].
  assert (N : INR (length l) > 0) by (destruct l; [congruence | cbn [length]; apply lt_0_INR; lia]).
  assert (B : forall x, In x l -> Rmin_of l <= x <= Rmax_of l) by (intros x Hx; split; [apply Rmin_of_le | apply Rmax_of_ge]; exact Hx).
  pose proof (median_ok l Hne) as M.
  assert (ME : forall l', length l' = length l -> mean_of (Rmean l') l').
  { intros l' E. change (Rsum l' / INR (length l') * INR (length l') = Rsum l'). rewrite E. field. lra. }
  split; [|split].
  - split; [apply ME; reflexivity|]. split; [split; [apply sqrt_pos|] | split; [apply Rmin_of_in, Hne | split; [apply Rmax_of_in, Hne | split; [exact B | exact M]]]].
    unfold mean_of. unfold Rstd. rewrite <- Rsqr_pow2. rewrite Rsqr_sqrt.
      * pose proof (ME (map (fun x => (x - Rmean l) * (x - Rmean l)) l) ltac:(apply map_length)) as E. unfold mean_of in E.
        rewrite map_length in E |- *. rewrite E. f_equal. apply map_ext. intros x. ring.
      * unfold Rmean at 1. rewrite map_length. apply Rmult_le_pos; [|left; apply Rinv_0_lt_compat; lra].
        apply Rsum_nonneg. intros x Hx. apply in_map_iff in Hx. destruct Hx as (y & <- & _). apply Rle_0_sqr.
  - apply Rmean_bounds; assumption.
  - destruct M as [M1 M2]. destruct (half_witness _ _ Hne M1) as (x & X1 & X2). destruct (half_witness _ _ Hne M2) as (y & Y1 & Y2).
    pose proof (B x X1). pose proof (B y Y1). lra.
Qed.

Lemma benchmark_inv {D X Q} (cls : string -> methods D X Q) rows w o g rg clock num warm w' rep :
  benchmark cls rows w o g rg clock num warm = (w', Ok rep) ->
  exists w1 l1 l, runs cls rows w o g rg clock warm = (w1, Ok l1) /\ runs cls rows w1 o g rg (later g warm clock) num = (w', Ok l) /\
    l <> [] /\ br_num rep = num /\ br_timings rep = map snd l /\ br_rewards rep = map fst l /\
    np_summary (map ti_pure (map snd l)) = Ok (br_pure rep) /\ np_summary (map ti_total (map snd l)) = Ok (br_total rep) /\
    np_summary (map ti_overhead (map snd l)) = Ok (br_overhead rep) /\ np_summary (map ti_compile (map snd l)) = Ok (br_compile rep) /\
    np_summary (map fst l) = Ok (br_reward rep).
Proof.
  unfold benchmark. destruct (runs cls rows w o g rg clock warm) as [w1 [l1|e]]; [|discriminate].
  destruct (runs cls rows w1 o g rg (later g warm clock) num) as [w2 [l|e]] eqn:E; [|discriminate].
  intros H. exists w1, l1, l. injection H as -> H.
  destruct (np_summary (map ti_pure (map snd l))) eqn:A1; [|discriminate]. destruct (np_summary (map ti_total (map snd l))) eqn:A2; [|discriminate].
  destruct (np_summary (map ti_overhead (map snd l))) eqn:A3; [|discriminate]. destruct (np_summary (map ti_compile (map snd l))) eqn:A4; [|discriminate].
  destruct (np_summary (map fst l)) eqn:A5; [|discriminate].
  injection H as <-. split; [reflexivity|]. split; [exact E|]. split; [intros ->; discriminate|]. repeat split; assumption.
Qed.

(** What is reported: as many trials as asked for, each with the readings of its own run, the
    warm-up runs left out; every summary describes the listed series. *)
Lemma l_C51_report : forall (D X Q : Type) (cls : string -> methods D X Q) rows w o g rg clock num warm w' rep,
  benchmark cls rows w o g rg clock num warm = (w', Ok rep) ->
  (1 <= num)%nat /\ br_num rep = num /\ length (br_timings rep) = num /\ length (br_rewards rep) = num /\
  (forall k d, (k < num)%nat ->
     measured (g_demo g) (fun n => clock ((warm + k) * readings_of (g_demo g) + n)%nat) (nth k (br_timings rep) d)) /\
  Forall (fun t => ti_total t <> 0) (br_timings rep) /\
  describes (br_pure rep) (map ti_pure (br_timings rep)) /\ describes (br_total rep) (map ti_total (br_timings rep)) /\
  describes (br_overhead rep) (map ti_overhead (br_timings rep)) /\ describes (br_compile rep) (map ti_compile (br_timings rep)) /\
  describes (br_reward rep) (br_rewards rep).
Proof.
  intros D X Q cls rows w o g rg clock num warm w' rep H.
  destruct (benchmark_inv _ _ _ _ _ _ _ _ _ _ _ H) as (w1 & l1 & l & E1 & E2 & Hne & A1 & A2 & A3 & S1 & S2 & S3 & S4 & S5).
  destruct (runs_inv _ _ _ _ _ _ _ _ _ _ E2) as (B1 & B2 & B3).
  assert (DD : forall l s, np_summary l = Ok s -> describes s l).
  { intros l0 s E. destruct l0 as [|x xs]; [discriminate|]. destruct (l_C51_statistics (x :: xs) ltac:(discriminate)) as (s' & F & G & _).
    rewrite F in E. injection E as <-. exact G. }
  rewrite A2, A3, !map_length.
  split; [destruct l; [congruence | cbn [length] in B3; lia]|]. split; [exact A1|]. split; [exact B3|]. split; [exact B3|].
  split; [|split; [exact B2 | repeat (split; [apply DD; assumption|]); apply DD; assumption]].
  intros k d Hk. rewrite B1. rewrite (nth_indep _ d (timing_of (g_demo g) (later g 0 (later g warm clock)))) by (rewrite map_length, seq_length; lia).
  rewrite (map_nth (fun k => timing_of (g_demo g) (later g k (later g warm clock)))), seq_nth by lia. cbn [Nat.add].
  rewrite later_later. unfold later.
  replace (fun n => clock ((k + warm) * readings (g_demo g) + n)%nat) with (fun n => clock ((warm + k) * readings_of (g_demo g) + n)%nat); [apply measured_timing|].
  apply functional_extensionality. intros n. f_equal. rewrite (Nat.add_comm k warm). reflexivity.
Qed.

Lemma describes_repeat r n l s : l = repeat r n -> l <> [] -> np_summary l = Ok s -> s = mkSummary r 0 r r r.
Proof.
  intros -> Hne Hs. destruct (l_C51_statistics _ Hne) as (s' & E & (A1 & (A2 & A2') & A3 & A4 & _ & A5 & A6) & _). rewrite E in Hs. injection Hs as ->.
  assert (N : n <> 0%nat) by (intros ->; apply Hne; reflexivity).
  assert (IN : forall x, In x (repeat r n) -> x = r) by (intros x; apply repeat_spec).
  assert (NZ : INR n <> 0) by (apply not_0_INR, N).
  assert (SC : forall c k, total (repeat c k) = INR k * c).
  { intros c k. induction k as [|k IH]; [cbn; lra|]. cbn [repeat total]. rewrite IH, S_INR. lra. }
  assert (E1 : su_mean s = r).
  { unfold mean_of in A1. rewrite SC, repeat_length in A1. apply (Rmult_eq_reg_r (INR n)); [lra | exact NZ]. }
  assert (E2 : su_std s = 0).
  { unfold mean_of in A2'. rewrite map_length, repeat_length, E1 in A2'. assert (MR : map (fun x => (x - r) ^ 2) (repeat r n) = repeat ((r - r) ^ 2) n) by (clear; induction n as [|n IH]; [reflexivity | cbn [repeat map]; rewrite IH; reflexivity]). rewrite MR in A2'. rewrite SC in A2'.
    replace ((r - r) ^ 2) with 0 in A2' by ring. rewrite Rmult_0_r in A2'. apply Rmult_integral in A2'. destruct A2' as [Z|Z]; [|contradiction].
    rewrite <- Rsqr_pow2 in Z. apply Rsqr_0_uniq. exact Z. }
  assert (E5 : su_median s = r).
  { destruct (half_witness _ _ Hne A5) as (x & X1 & X2), (half_witness _ _ Hne A6) as (y & Y1 & Y2).
    apply IN in X1, Y1. subst x y. lra. }
  apply IN in A3, A4. destruct s as [m d lo hi me]. cbn [su_mean su_std su_min su_max su_median] in *. congruence.
Qed.

(** Same object, same arguments, same seed: all trials report the same reward, so its spread is
    zero - unless guidance is on, nothing was warmed up and the dictionary was not clean. *)
Lemma l_C51_same_reward : forall (D X Q : Type) (cls : string -> methods D X Q) rows b h o g rg clock num warm w' rep,
  let w := execs cls (start b) h in
  (o < w_objs w)%nat ->
  (g_guid g = false \/ (1 <= warm)%nat \/ cleared h = true) ->
  benchmark cls rows w o g rg clock num warm = (w', Ok rep) ->
  exists r, br_rewards rep = repeat r num /\ br_reward rep = mkSummary r 0 r r r.
Proof.
  intros D X Q cls rows b h o g rg clock num warm w' rep w L Hc H.
  assert (Hw : wf w) by apply wf_execs, wf_start.
  destruct (benchmark_inv _ _ _ _ _ _ _ _ _ _ _ H) as (w1 & l1 & l & E1 & E2 & Hne & A1 & A2 & A3 & _ & _ & _ & _ & S5).
  assert (G : exists r, map fst l = repeat r num).
  2:{ destruct G as [r G]. exists r. rewrite A3. split; [exact G|]. apply (describes_repeat _ num (map fst l)); auto.
      destruct l; [congruence | discriminate]. }
  clear H A1 A2 A3 S5.
  destruct (g_guid g) eqn:Hg.
  - (* a settled world before the counted trials *)
    destruct Hc as [Hc|Hc]; [discriminate|].
    assert (exists out ref, settled cls w1 o g rg out ref \/ (w1 = w /\ warm = 0%nat)).
    { destruct warm as [|n]; [cbn [runs] in E1; injection E1 as <- _|].
      - (* not settled by a warm-up *)
        destruct num as [|m]; [cbn [runs] in E2; injection E2 as _ <-; congruence|].
        cbn [runs] in E2. destruct (run_timed cls rows w o g rg (later g 0 clock)) as [w2 [[r t]|e]] eqn:E3; [|discriminate].
        destruct (run_timed_inv _ _ _ _ _ _ _ _ _ _ E3) as (out & R & _). exists out, None. right. auto.
      - cbn [runs] in E1. destruct (run_timed cls rows w o g rg clock) as [w2 [[r t]|e]] eqn:E3; [|discriminate].
        destruct (run_timed_inv _ _ _ _ _ _ _ _ _ _ E3) as (out & R & _). apply run_py_cases in R.
        destruct (guided_settles cls _ _ _ _ _ _ Hg Hw L R) as (out' & ref & S).
        destruct (runs cls rows w2 o g rg (later g 1 clock) n) as [w3 [l'|e]] eqn:E4; [|discriminate]. injection E1 as <- _.
        destruct (runs_settled cls rows g rg o out' ref Hg n _ _ _ _ S E4) as [S' _]. exists out', ref. left. exact S'. }
    destruct H as (out & ref & [S|[-> ->]]).
    + destruct (runs_settled cls rows g rg o out ref Hg num _ _ _ _ S E2) as [_ R]. eauto.
    + destruct Hc as [Hc|Hc]; [lia|]. pose proof (empty_cleared cls b h Hc) as Em. fold w in Em.
      destruct num as [|m]; [cbn [runs] in E2; injection E2 as _ <-; congruence|].
      assert (exists out ref, settled cls w o g rg out ref).
      { cbn [runs] in E2. destruct (run_timed cls rows w o g rg (later g 0 clock)) as [w2 [[r t]|e]] eqn:E3; [|discriminate].
        destruct (run_timed_inv _ _ _ _ _ _ _ _ _ _ E3) as (out' & R & _). apply run_py_cases in R.
        destruct (run_ok_demo cls w o g rg out') as [wd ED]; [rewrite R; reflexivity|].
        exists (clean_output cls wd o g rg), (ob_ref (w_obj wd o)). split; [exact Hw|]. split; [exact Em|]. split; [exact L|].
        exists wd. auto. }
      destruct H as (out' & ref' & S). destruct (runs_settled cls rows g rg o out' ref' Hg _ _ _ _ _ S E2) as [_ R]. eauto.
  - (* without guidance *)
    destruct warm as [|n].
    + cbn [runs] in E1. injection E1 as <- _. destruct num as [|m]; [cbn [runs] in E2; injection E2 as _ <-; congruence|].
      cbn [runs] in E2. destruct (run_timed cls rows w o g rg (later g 0 clock)) as [w2 [[r t]|e]] eqn:E3; [|discriminate].
      destruct (run_timed_inv _ _ _ _ _ _ _ _ _ _ E3) as (out & R & Hr & _). pose proof (run_py_again cls rows _ _ _ _ _ _ Hg R) as R2.
      match type of E2 with context [runs _ _ w2 o g rg ?c m] => destruct (runs cls rows w2 o g rg c m) as [w3 [l'|e]] eqn:E4; [|discriminate] end.
      injection E2 as <- <-. destruct (runs_same cls rows _ _ _ _ _ Hg R2 _ _ _ _ E4) as [_ F]. exists r. cbn [map fst repeat]. rewrite F, Hr. reflexivity.
    + cbn [runs] in E1. destruct (run_timed cls rows w o g rg clock) as [w2 [[r t]|e]] eqn:E3; [|discriminate].
      destruct (run_timed_inv _ _ _ _ _ _ _ _ _ _ E3) as (out & R & Hr & _). pose proof (run_py_again cls rows _ _ _ _ _ _ Hg R) as R2.
      destruct (runs cls rows w2 o g rg (later g 1 clock) n) as [w3 [l'|e]] eqn:E4; [|discriminate]. injection E1 as <- _.
      destruct (runs_same cls rows _ _ _ _ _ Hg R2 _ _ _ _ E4) as [-> _].
      destruct (runs_same cls rows _ _ _ _ _ Hg R2 _ _ _ _ E2) as [_ F]. eauto.
Qed.

(** No counted trials: the report fails on an empty list. *)
Lemma l_C51_no_trials : forall (D X Q : Type) (cls : string -> methods D X Q) rows w o g rg clock warm w1 l1,
  runs cls rows w o g rg clock warm = (w1, Ok l1) ->
  benchmark cls rows w o g rg clock 0 warm = (w1, Err ValueError).
Proof. intros. unfold benchmark. rewrite H. reflexivity. Qed.
(** An exception of the first run ends the benchmark. *)
Lemma l_C51_exception : forall (D X Q : Type) (cls : string -> methods D X Q) rows w o g rg clock num warm w1 e,
  (1 <= warm + num)%nat -> run_py cls rows w o g rg = (w1, Err e) ->
  benchmark cls rows w o g rg clock num warm = (w1, Err e).
Proof.
  intros D X Q cls rows w o g rg clock num warm w1 e L H. unfold benchmark.
  assert (E : forall c n, runs cls rows w o g rg c (S n) = (w1, Err e)) by (intros c n; cbn [runs]; unfold run_timed; rewrite H; reflexivity).
  destruct warm as [|n]; [|rewrite E; reflexivity]. destruct num as [|m]; [lia|]. change (runs cls rows w o g rg clock 0) with (w, Ok (@nil (R * timing))). cbv iota beta. rewrite E. reflexivity.
Qed.
Lemma later_advancing g k clock : advancing clock -> advancing (later g k clock).
Proof. intros H n. unfold later. rewrite Nat.add_succ_r. apply H. Qed.
Lemma advancing_total demo clock : advancing clock -> ti_total (timing_of demo clock) <> 0.
Proof.
  intros H. assert (A : forall n, clock 0%nat < clock (S n)) by (intros n; induction n; [apply H | pose proof (H (S n)); lra]).
  unfold timing_of. cbv zeta. cbn [ti_total]. destruct demo; cbn [Nat.add]; match goal with |- clock ?n - _ <> 0 => pose proof (A (Nat.pred n)) as B end;
  cbn [Nat.pred] in B; lra.
Qed.
Lemma completes_gen : forall (D X Q : Type) (cls : string -> methods D X Q) rows w o g rg clock num warm w1 out,
  wf w -> (o < w_objs w)%nat -> (g_guid g = false \/ empty w) ->
  run_py cls rows w o g rg = (w1, Ok out) -> advancing clock -> (1 <= num)%nat ->
  exists w' rep, benchmark cls rows w o g rg clock num warm = (w', Ok rep).
Proof.
  intros D X Q cls rows w o g rg clock num warm w1 out Hw L Hc HR Hk Hn.
  assert (RR : forall n c, advancing c -> exists w' l, runs cls rows w o g rg c n = (w', Ok l) /\ length l = n /\
    (w' = w \/ w' = w1 \/ exists out ref, g_guid g = true /\ settled cls w' o g rg out ref /\ run_py cls rows w' o g rg = run cls w' o g rg)).
  { (* a world from which any number of runs succeeds *)
    assert (T : forall w0 wn out0 c, advancing c -> run_py cls rows w0 o g rg = (wn, Ok out0) ->
      run_timed cls rows w0 o g rg c = (wn, Ok (o_rew (out_res out0), timing_of (g_demo g) c))).
    { intros w0 wn out0 c Hc' H. unfold run_timed. rewrite H. unfold Reqb. destruct (Req_EM_T _ 0) as [E|_]; [|reflexivity].
      exfalso. exact (advancing_total _ _ Hc' E). }
    destruct (g_guid g) eqn:Hg.
    - destruct Hc as [Hc|Em]; [discriminate|].
      pose proof HR as HR'. apply run_py_cases in HR'. destruct (run_ok_demo cls w o g rg out) as [wd ED]; [rewrite HR'; reflexivity|].
      set (ref := ob_ref (w_obj wd o)). set (oo := clean_output cls wd o g rg).
      assert (S : settled cls w o g rg oo ref) by (split; [exact Hw|]; split; [exact Em|]; split; [exact L|]; exists wd; auto).
      pose proof (settled_py cls rows w o g rg oo ref Hg S) as F.
      destruct (g_demo g && negb (fits rows g ref)) eqn:Ef; [destruct F as [w'' F]; congruence|].
      intros n. enough (forall w0 c, settled cls w0 o g rg oo ref -> advancing c -> exists w' l, runs cls rows w0 o g rg c n = (w', Ok l) /\ length l = n /\ settled cls w' o g rg oo ref).
      { intros c Hc'. destruct (H w c S Hc') as (w' & l & A & B & C). exists w', l. split; [exact A|]. split; [exact B|]. right. right.
        exists oo, ref. split; [reflexivity|]. split; [exact C|]. pose proof (settled_py cls rows w' o g rg oo ref Hg C) as F'. rewrite Ef in F'. exact F'. }
      induction n as [|n IH]; intros w0 c S0 Hc'; [exists w0, []; auto|].
      cbn [runs]. pose proof (settled_py cls rows w0 o g rg oo ref Hg S0) as F'. rewrite Ef in F'.
      destruct (settled_run cls _ _ _ _ _ _ Hg S0) as (w2 & A & B). rewrite A in F'. rewrite (T _ _ _ _ Hc' F').
      destruct (IH w2 (later g 1 c) B (later_advancing g 1 c Hc')) as (w' & l & A' & B' & C'). rewrite A'.
      eexists w', (_ :: l). split; [reflexivity|]. split; [cbn [length]; congruence | exact C'].
    - pose proof (run_py_again cls rows _ _ _ _ _ _ Hg HR) as R2.
      assert (P : forall n c, advancing c -> exists l, runs cls rows w1 o g rg c n = (w1, Ok l) /\ length l = n).
      { induction n as [|n IH]; intros c Hc'; [exists []; auto|]. cbn [runs]. rewrite (T _ _ _ _ Hc' R2).
        destruct (IH (later g 1 c) (later_advancing g 1 c Hc')) as (l & A & B). rewrite A. eexists. split; [reflexivity | cbn [length]; congruence]. }
      intros [|n] c Hc'; [exists w, []; auto|]. cbn [runs]. rewrite (T _ _ _ _ Hc' HR).
      destruct (P n (later g 1 c) (later_advancing g 1 c Hc')) as (l & A & B). rewrite A. eexists w1, (_ :: l). split; [reflexivity|].
      split; [cbn [length]; congruence | auto]. }
  unfold benchmark. destruct (RR warm clock Hk) as (wa & la & A1 & A2 & A3). rewrite A1.
  assert (exists w' l, runs cls rows wa o g rg (later g warm clock) num = (w', Ok l) /\ length l = num).
  { pose proof (RR (warm + num)%nat clock Hk) as (wt & lt & B1 & B2 & _).
    assert (SP : forall n w0 c wm lm, runs cls rows w0 o g rg c n = (wm, Ok lm) -> forall m we le, runs cls rows w0 o g rg c (n + m) = (we, Ok le) ->
      exists l, runs cls rows wm o g rg (later g n c) m = (we, Ok l)).
    { induction n as [|n IH]; intros w0 c wm lm P1 m we le P2.
      - cbn [runs] in P1. injection P1 as <- _. rewrite later_0. eauto.
      - cbn [runs Nat.add] in P1, P2. destruct (run_timed cls rows w0 o g rg c) as [w2 [rt|e]]; [|discriminate].
        destruct (runs cls rows w2 o g rg (later g 1 c) n) as [w3 [l3|e]] eqn:P3; [|discriminate]. injection P1 as <- _.
        destruct (runs cls rows w2 o g rg (later g 1 c) (n + m)) as [w4 [l4|e]] eqn:P4; [|discriminate]. injection P2 as <- _.
        destruct (IH _ _ _ _ P3 _ _ _ P4) as [l5 P5]. rewrite later_later in P5. exists l5. rewrite <- P5. f_equal. f_equal. lia. }
    destruct (SP _ _ _ _ _ A1 _ _ _ B1) as [l' B']. exists wt, l'. split; [exact B'|]. apply (runs_inv _ _ _ _ _ _ _ _ _ _ B'). }
  destruct H as (w' & l & B1 & B2). rewrite B1.
  destruct l as [|[r t] l]; [cbn in B2; lia|]. cbn [map fst snd np_summary]. eauto.
Qed.

(** If the first run returns and the clock advances, the report is returned (with guidance: if the
    dictionary was clean). *)
Lemma l_C51_completes : forall (D X Q : Type) (cls : string -> methods D X Q) rows b h o g rg clock num warm w1 out,
  let w := execs cls (start b) h in
  (o < w_objs w)%nat -> (g_guid g = false \/ cleared h = true) ->
  run_py cls rows w o g rg = (w1, Ok out) -> advancing clock -> (1 <= num)%nat ->
  exists w' rep, benchmark cls rows w o g rg clock num warm = (w', Ok rep).
Proof.
  intros D X Q cls rows b h o g rg clock num warm w1 out w L Hc HR Hk Hn.
  apply (completes_gen D X Q cls rows w o g rg clock num warm w1 out); auto; [apply wf_execs, wf_start|].
  destruct Hc as [Hc|Hc]; [left; exact Hc | right; exact (empty_cleared cls b h Hc)].
Qed.

(** ** C52 *)
Section Second.
Context {D X Q : Type}.
Variable cls : string -> methods D X Q.
Variable rows : X -> nat.
Local Notation W := (world D X Q).
Implicit Types w : W.
Lemma rev_table w rf g k : key_eqb k (key_of g) = false -> t_rev (fst (call_rev cls w rf g)) (rf_id rf) k = t_rev w (rf_id rf) k.
Proof.
  intros Hk. unfold call_rev. destruct (t_rev w (rf_id rf) (key_of g)); [reflexivity|].
  pose proof (rev_table_roll0 cls w (rf_funcs rf) (g_Hsample g)) as T. destruct (call_roll cls w (rf_funcs rf) (g_Hsample g)) as [w1 r]. cbn [fst t_rev] in *.
  rewrite upd_same. unfold upd_key. rewrite Hk, T. reflexivity.
Qed.
(** What a run without guidance in a clean process leaves in the dictionary: reverse_once of this
    object, traced for these static arguments only. *)
Lemma run_clean_rev w o g rg w1 : wf w -> empty w -> (o < w_objs w)%nat -> g_guid g = false -> prepare_demo cls w o g = (w1, Ok tt) ->
  let w' := fst (run cls w o g rg) in
  exists rf, w_rev w' = Some rf /\ rf_obj rf = o /\ w_obj w' o = w_obj w1 o /\ (rf_id rf < w_fns w')%nat /\
    forall k, key_eqb k (key_of g) = false -> t_rev w' (rf_id rf) k = None.
Proof.
  intros Hw [Em1 Em2] L Hg ED. pose proof (run_inv cls w o g rg) as I. rewrite ED in I.
  pose proof (wf_demo cls w o g L Hw) as Hw1. rewrite ED in Hw1. cbn [fst] in Hw1.
  pose proof (proj1 (proj2 (run_clean_gen cls w o g rg w1 Hw (conj Em1 Em2) L ED))) as OB.
  assert (EM : w_env w1 = w_env w /\ w_rev w1 = w_rev w).
  { unfold prepare_demo in ED. destruct (g_demo g); [|injection ED as <-; auto]. destruct (m_gen _ _ _); [|discriminate].
    pose proof (core_reward cls w o) as (_ & _ & _ & A1 & A2). destruct (call_reward cls w o) as [wa f]. cbn [fst] in *.
    pose proof (core_terminal cls wa o) as (_ & _ & _ & B1 & B2). destruct (call_terminal cls wa o) as [wb tm]. cbn [fst] in *.
    injection ED as <-. cbn [put_obj w_env w_rev]. split; congruence. }
  destruct EM as [EM1 EM2].
  destruct I as (w2 & fs & w3 & st0 & w4 & rf & w5 & rev & Ybars & Yfin & w6 & roll & w7 & step & w8 & un & w9 & roll' &
    E2 & E3 & E4 & E5 & EL & E6 & E7 & E8 & E9 & ER). rewrite Hg in E7, E8. injection E8 as <- <-. rewrite ER in OB |- *. cbn [fst] in *. cbv zeta.
  unfold get_funcs in E2. rewrite EM1, Em1 in E2. injection E2 as <- <-.
  set (fs := mkFuncs (w_fns w1) o) in *.
  match type of E3 with call_reset cls ?x o = _ => set (w2 := x) in * end.
  pose proof (core_reset cls w2 o) as (_ & B3 & F3 & V3 & R3).
  pose proof (roll_tables_reset cls w2 o) as [TA3 TB3]. rewrite E3 in *. cbn [fst] in *.
  change (w_rev w2) with (w_rev w1) in R3. change (w_fns w2) with (S (w_fns w1)) in F3.
  unfold get_rev in E4. rewrite R3, EM2, Em2 in E4. injection E4 as <- <-.
  match type of E5 with call_rev cls ?x ?y g = _ => set (w4 := x) in *; set (rf := y) in * end.
  assert (N4 : forall k, t_rev w4 (rf_id rf) k = None).
  { intros k. change (t_rev w3 (w_fns w3) k = None). rewrite TB3, F3. apply (proj1 Hw1 (S (w_fns w1))). lia. }
  pose proof (core_rev cls w4 rf g) as (_ & _ & C5 & _ & D5). pose proof (fun k => rev_table w4 rf g k) as T5. rewrite E5 in C5, D5, T5. cbn [fst] in *.
  pose proof (core_roll cls w5 fs (g_Hsample g)) as (_ & _ & C6 & _ & D6). pose proof (rev_table_roll0 cls w5 fs (g_Hsample g)) as T6. rewrite E6 in C6, D6, T6. cbn [fst] in *.
  pose proof (core_step cls w6 (ef_obj fs) false) as (_ & _ & C7 & _ & D7). pose proof (rev_table_step cls w6 (ef_obj fs) false) as T7. rewrite E7 in C7, D7, T7. cbn [fst] in *.
  pose proof (core_roll cls w7 fs (g_Hsample g)) as (_ & _ & C9 & _ & D9). pose proof (rev_table_roll0 cls w7 fs (g_Hsample g)) as T9. rewrite E9 in C9, D9, T9. cbn [fst] in *.
  exists rf. split; [rewrite D9, D7, D6, D5; reflexivity|]. split; [reflexivity|]. split; [exact (same_eff_obj cls _ _ _ OB)|].
  split; [rewrite C9, C7, C6, C5; unfold w4, rf; cbn [w_fns rf_id]; lia|].
  intros k Hk. rewrite T9, T7, T6, (T5 k Hk). apply N4.
Qed.
Lemma demo_ref w o g w1 : prepare_demo cls w o g = (w1, Ok tt) -> g_demo g = true ->
  exists x, m_gen (meth cls w o) (data w o) (g_motion g) = Ok x /\ ob_ref (w_obj w1 o) = Some x.
Proof.
  unfold prepare_demo. intros H Hd. rewrite Hd in H. destruct (m_gen _ _ _) as [x|e]; [|discriminate].
  destruct (call_reward cls w o) as [wa f]. destruct (call_terminal cls wa o) as [wb tm]. injection H as <-.
  exists x. split; [reflexivity|]. cbn [put_obj w_obj]. rewrite upd_same. reflexivity.
Qed.
Lemma key_H g1 g2 : g_Hsample g2 <> g_Hsample g1 -> key_eqb (key_of g2) (key_of g1) = false.
Proof.
  intros H. unfold key_eqb, key_of. destruct (Nat.eqb_spec (g_Hsample g2) (g_Hsample g1)) as [E|_]; [congruence|]. apply Bool.andb_false_r.
Qed.
(** The stored reverse_once answers for its own object: a run on another object with another
    horizon compares the demonstration of the first object with trajectories of the new length. *)
Lemma second_horizon w o rf g2 rg2 o2 x1 x2 : w_rev w = Some rf -> rf_obj rf = o -> o2 <> o ->
  ob_ref (w_obj w o) = Some x1 -> t_rev w (rf_id rf) (key_of g2) = None ->
  g_demo g2 = true -> m_gen (meth cls w o2) (data w o2) (g_motion g2) = Ok x2 ->
  rows_fit (rows x1) (g_Hsample g2) = false ->
  exists w', run_py cls rows w o2 g2 rg2 = (w', Err TypeError).
Proof.
  intros ER EO NO EX ET Hd EG HF. unfold run_py, prepare_demo. rewrite Hd, EG.
  pose proof (core_reward cls w o2) as (_ & A1 & _ & _ & A2). pose proof (roll_tables_reward cls w o2) as [_ A3].
  destruct (call_reward cls w o2) as [wa f]. cbn [fst] in *.
  pose proof (core_terminal cls wa o2) as (_ & B1 & _ & _ & B2). pose proof (roll_tables_terminal cls wa o2) as [_ B3].
  destruct (call_terminal cls wa o2) as [wb tm]. cbn [fst] in *.
  match goal with |- context [get_funcs ?x o2] => set (w1 := x) end.
  assert (O1 : w_obj w1 o = w_obj w o) by (unfold w1; cbn [put_obj w_obj]; rewrite upd_other, B1, A1 by congruence; reflexivity).
  assert (R1 : w_rev w1 = Some rf) by (unfold w1; cbn [put_obj w_rev]; congruence).
  assert (T1 : t_rev w1 = t_rev w) by (unfold w1; cbn [put_obj t_rev]; congruence).
  clearbody w1.
  assert (F : w_obj (fst (get_funcs w1 o2)) o = w_obj w o /\ w_rev (fst (get_funcs w1 o2)) = Some rf /\ t_rev (fst (get_funcs w1 o2)) = t_rev w).
  { unfold get_funcs. destruct (w_env w1 _); cbn [fst w_obj w_rev t_rev]; auto. }
  destruct (get_funcs w1 o2) as [w2 fs]. cbn [fst] in F. destruct F as (O2 & R2 & T2).
  pose proof (core_reset cls w2 o2) as (_ & C1 & _ & _ & C2). pose proof (roll_tables_reset cls w2 o2) as [_ C3].
  destruct (call_reset cls w2 o2) as [w3 st]. cbn [fst] in *. unfold get_rev. rewrite C2, R2.
  rewrite C3, T2, ET, C1, EO, O2, EX, HF. rewrite Bool.andb_true_l. cbn [negb]. eexists. reflexivity.
Qed.
End Second.

(** A process with a clean dictionary; the planner runs on a new object with demonstrations and
    without guidance, then on a further object, made afterwards, with another horizon: if the
    first demonstration does not have as many rows as the second horizon, the second run raises
    TypeError - whatever the second object is, and although in a clean process it may run. *)
Lemma l_C52_other_horizon_fails : forall (D X Q : Type) (cls : string -> methods D X Q) rows b h o g1 rg1 w1 out1 x1 c2 d2 g2 rg2 x2,
  let w := execs cls (start b) h in
  (o < w_objs w)%nat -> cleared h = true ->
  g_demo g1 = true -> g_guid g1 = false -> run_py cls rows w o g1 rg1 = (w1, Ok out1) ->
  m_gen (cls (ob_class (w_obj w o))) (ob_data (w_obj w o)) (g_motion g1) = Ok x1 ->
  g_demo g2 = true -> m_gen (cls c2) d2 (g_motion g2) = Ok x2 ->
  g_Hsample g2 <> g_Hsample g1 -> rows x1 <> g_Hsample g2 -> (2 <= rows x1)%nat -> (2 <= g_Hsample g2)%nat ->
  exists w', run_py cls rows (exec cls w1 (New c2 d2)) (w_objs w1) g2 rg2 = (w', Err TypeError).
Proof.
  intros D X Q cls rows b h o g1 rg1 w1 out1 x1 c2 d2 g2 rg2 x2 w L Hc Hd1 Hg1 HR EG1 Hd2 EG2 HH HX R1 R2.
  assert (Hw : wf w) by apply wf_execs, wf_start. pose proof (empty_cleared cls b h Hc) as Em. fold w in Em.
  apply run_py_cases in HR. destruct (run_ok_demo cls w o g1 rg1 out1) as [wd ED]; [rewrite HR; reflexivity|].
  destruct (run_clean_rev cls w o g1 rg1 wd Hw Em L Hg1 ED) as (rf & A1 & A2 & A3 & _ & A4). rewrite HR in A1, A3, A4. cbn [fst] in *.
  destruct (demo_ref cls w o g1 wd ED Hd1) as (x & EX & ER). unfold meth, data in EX. rewrite EG1 in EX. injection EX as <-.
  pose proof (wf_run cls w o g1 rg1 L Hw) as [_ LO]. rewrite HR in LO. cbn [fst] in LO.
  refine (second_horizon cls rows _ o rf g2 rg2 (w_objs w1) x1 x2 _ A2 _ _ _ Hd2 _ _).
  - exact A1.
  - lia.
  - cbn [exec put_obj w_obj]. rewrite upd_other by lia. rewrite A3. exact ER.
  - cbn [exec put_obj t_rev]. apply A4, key_H, HH.
  - unfold meth, data. cbn [exec put_obj w_obj]. rewrite upd_same. exact EG2.
  - unfold rows_fit. repeat rewrite (proj2 (Nat.eqb_neq _ _)) by lia. reflexivity.
Qed.


(** The environment of a benchmark configuration. *)
Definition scenario_start : ttq := mkTT (-1148/100) 3 0 0.
Definition scenario_goal : ttq := mkTT (-21/4) (-17/2) (PI / 2) (PI / 2).
Lemma scenario_robot_is H : exists r, scenario_robot H = Ok r /\ rb_kind r = KTT /\ rb_p r = params_of (kwargs (scenario_args H)) 1 /\
  tt_of_robot r = Some (mkTTSelf (rb_p r) (rb_circ r) (rb_rect r) scenario_goal, scenario_start).
Proof.
  unfold scenario_robot. unfold get_env. cbn [scenario_args g_name g_trailers default_env_args String.eqb Ascii.eqb Bool.eqb Z.eqb Z.leb Z.compare Pos.compare Pos.compare_cont].
  unfold tt_init. cbn [kwargs k_env g_env scenario_args].
  match goal with |- context [env_init 32 32 ?c None] => change (env_init 32 32 c None) with (env_init 32 32 "parking" None) end.
  destruct (env_init 32 32 "parking" None) as [e|] eqn:EE; [|discriminate EE].
  injection EE as <-.
  match goal with |- context [initial_x0 ?k ?e] => set (ee := e) end.
  assert (X0 : initial_x0 (kwargs (scenario_args H)) ee = Ok (Some [- (32) / 2 + 2; 32 / 2 - 2; 1/10; 1/10])) by reflexivity.
  assert (XG : initial_xg (kwargs (scenario_args H)) ee = Ok (Some [- (8 * (35/10)) / 2 + (2 + 1/2) * (35/10); - (32) / 2 + 4 + (0 + 1/2) * 7; - PI / 2; - PI / 2])) by reflexivity.
  rewrite X0, XG. unfold set_init_pos. cbn [rb_p rb_env rb_kind].
  assert (B : base_init_pos (params_of (kwargs (scenario_args H)) 1) ee (mkInit None None (Some (-3)) (Some 1) 0 0 0 0) =
    Ok [- (8 * (35/10)) / 2 + (2 + 1/2) * (35/10) + -3 - 323/100 * cos 0; - (32) / 2 + 4 + (1 + 1/2) * 7 + 7 / 2 + 1; 0; 0]).
  { unfold base_init_pos. cbn [i_x i_y i_dx i_dy i_th1 i_th2]. unfold ee. cbn [e_case e_parking String.eqb Ascii.eqb Bool.eqb pk_tgt default_parking].
    cbn -[IZR Rdiv Rmult Rplus Rminus cos Rleb Ropp].
    assert (HR : Rleb (- (32) / 2 + 4 + (0 + 1 / 2) * 7) (- (32) / 2 + 4 + (1 + 1 / 2) * 7) = true).
    { unfold Rleb. destruct (Rle_dec _ _) as [H'|H']; [reflexivity|exfalso; lra]. }
    rewrite !HR. reflexivity. }
  rewrite B. eexists. split; [reflexivity|]. split; [reflexivity|]. split; [reflexivity|].
  unfold tt_of_robot, set_goal_pos. cbn [fst set_xg set_x0 rb_kind rb_x0 rb_xg rb_p rb_circ rb_rect vec4 default o_x o_y o_th1 o_th2].
  unfold jget. cbn [nth length Nat.min Nat.pred Nat.sub]. unfold scenario_goal, scenario_start.
  f_equal. f_equal; [f_equal|]; f_equal; try reflexivity; try (rewrite cos_0; field); field.
Qed.

Section Seq.
Context {D X Q : Type}.
Variable cls : string -> methods D X Q.
Variable rows : X -> nat.
Local Notation W := (world D X Q).
Implicit Types w : W.
(** The dictionary holds the reverse_once of an object with a demonstration of H rows, traced only
    for horizon H. *)
Definition holds w (H : nat) : Prop :=
  exists rf x, wf w /\ w_rev w = Some rf /\ (rf_obj rf < w_objs w)%nat /\ ob_ref (w_obj w (rf_obj rf)) = Some x /\ rows x = H /\
    forall k, snd k <> H -> t_rev w (rf_id rf) k = None.
Lemma key_snd k g : snd k <> g_Hsample g -> key_eqb k (key_of g) = false.
Proof.
  destruct k as [[[[a b] c] d] e]. cbn [snd]. intros H. unfold key_eqb, key_of. destruct (Nat.eqb_spec e (g_Hsample g)); [congruence|]. apply Bool.andb_false_r.
Qed.
Lemma holds_first w o g rg w' out x : wf w -> empty w -> (o < w_objs w)%nat -> g_guid g = false -> g_demo g = true ->
  run cls w o g rg = (w', Ok out) -> m_gen (meth cls w o) (data w o) (g_motion g) = Ok x -> rows x = g_Hsample g ->
  holds w' (g_Hsample g).
Proof.
  intros Hw Em L Hg Hd HR EG HX. destruct (run_ok_demo cls w o g rg out) as [wd ED]; [rewrite HR; reflexivity|].
  destruct (run_clean_rev cls w o g rg wd Hw Em L Hg ED) as (rf & A1 & A2 & A3 & A5 & A4). rewrite HR in A1, A3, A4. cbn [fst] in *.
  destruct (demo_ref cls w o g wd ED Hd) as (x' & EX & ER). rewrite EG in EX. injection EX as <-.
  pose proof (wf_run cls w o g rg L Hw) as [W' LO]. rewrite HR in W', LO. cbn [fst] in *.
  exists rf, x. split; [exact W'|]. split; [exact A1|]. split; [rewrite A2; lia|]. split; [rewrite A2, A3; exact ER|]. split; [exact HX|].
  intros k Hk. apply A4, key_snd, Hk.
Qed.
Lemma holds_run w o g rg w' out H : holds w H -> (o < w_objs w)%nat -> (forall rf, w_rev w = Some rf -> rf_obj rf <> o) -> g_guid g = false ->
  g_Hsample g = H -> run cls w o g rg = (w', Ok out) -> holds w' H.
Proof.
  intros (rf & x & Hw & A1 & A2 & A3 & A4 & A5) L NO Hg HH HR. specialize (NO rf A1).
  pose proof (wf_run cls w o g rg L Hw) as [W' LO]. rewrite HR in W', LO. cbn [fst] in *.
  exists rf, x. split; [exact W'|].
  pose proof (run_inv cls w o g rg) as I. destruct (prepare_demo cls w o g) as [w1 [[]|e]] eqn:ED; [|congruence].
  assert (P1 : w_obj w1 (rf_obj rf) = w_obj w (rf_obj rf) /\ w_rev w1 = Some rf /\ t_rev w1 = t_rev w).
  { unfold prepare_demo in ED. destruct (g_demo g); [|injection ED as <-; auto]. destruct (m_gen _ _ _); [|discriminate].
    pose proof (core_reward cls w o) as (_ & B1 & _ & _ & B2). pose proof (roll_tables_reward cls w o) as [_ B3]. destruct (call_reward cls w o) as [wa f]. cbn [fst] in *.
    pose proof (core_terminal cls wa o) as (_ & C1 & _ & _ & C2). pose proof (roll_tables_terminal cls wa o) as [_ C3]. destruct (call_terminal cls wa o) as [wb tm]. cbn [fst] in *.
    injection ED as <-. cbn [put_obj w_obj w_rev t_rev]. rewrite upd_other by exact NO. repeat split; congruence. }
  destruct P1 as (O1 & R1 & T1).
  destruct I as (w2 & fs & w3 & st0 & w4 & rf' & w5 & rev & Ybars & Yfin & w6 & roll & w7 & step & w8 & un & w9 & roll' &
    E2 & E3 & E4 & E5 & EL & E6 & E7 & E8 & E9 & ER). rewrite Hg in E7, E8. injection E8 as <- <-. rewrite ER in HR. injection HR as <- _.
  assert (P2 : w_obj w2 = w_obj w1 /\ w_rev w2 = w_rev w1 /\ t_rev w2 = t_rev w1).
  { unfold get_funcs in E2. destruct (w_env w1 _); injection E2 as <- _; auto. }
  destruct P2 as (O2 & R2 & T2).
  pose proof (core_reset cls w2 o) as (_ & O3 & _ & _ & R3). pose proof (roll_tables_reset cls w2 o) as [_ T3]. rewrite E3 in *. cbn [fst] in *.
  unfold get_rev in E4. rewrite R3, R2, R1 in E4. injection E4 as <- <-.
  pose proof (core_rev cls w3 rf g) as (_ & O5 & _ & _ & R5). pose proof (fun k => rev_table cls w3 rf g k) as T5. rewrite E5 in *. cbn [fst] in *.
  pose proof (core_roll cls w5 fs (g_Hsample g)) as (_ & O6 & _ & _ & R6). pose proof (rev_table_roll0 cls w5 fs (g_Hsample g)) as T6. rewrite E6 in *. cbn [fst] in *.
  pose proof (core_step cls w6 (ef_obj fs) false) as (_ & O7 & _ & _ & R7). pose proof (rev_table_step cls w6 (ef_obj fs) false) as T7. rewrite E7 in *. cbn [fst] in *.
  pose proof (core_roll cls w7 fs (g_Hsample g)) as (_ & O9 & _ & _ & R9). pose proof (rev_table_roll0 cls w7 fs (g_Hsample g)) as T9. rewrite E9 in *. cbn [fst] in *.
  split; [congruence|]. split; [lia|]. split; [rewrite O9, O7, O6, O5, O3, O2, O1; exact A3|]. split; [exact A4|].
  intros k Hk. rewrite T9, T7, T6, T5, T3, T2, T1 by (apply key_snd; congruence). apply A5, Hk.
Qed.
Lemma holds_new w H c d : holds w H -> holds (exec cls w (New c d)) H.
Proof.
  intros (rf & x & Hw & A1 & A2 & A3 & A4 & A5). exists rf, x. split; [apply wf_exec, Hw|]. split; [exact A1|].
  split; [cbn [exec put_obj w_objs]; lia|]. split; [cbn [exec put_obj w_obj]; rewrite upd_other by lia; exact A3|]. auto.
Qed.
(** With such a dictionary a run with demonstration on a newer object returns if its horizon is H,
    and raises TypeError otherwise. *)
Lemma holds_py w o g rg H x : holds w H -> (o < w_objs w)%nat -> (forall rf, w_rev w = Some rf -> rf_obj rf <> o) -> g_demo g = true ->
  m_gen (meth cls w o) (data w o) (g_motion g) = Ok x -> (2 <= H)%nat -> (2 <= g_Hsample g)%nat ->
  if Nat.eqb (g_Hsample g) H then run_py cls rows w o g rg = run cls w o g rg /\ exists w' out, run cls w o g rg = (w', Ok out)
  else exists w', run_py cls rows w o g rg = (w', Err TypeError).
Proof.
  intros (rf & x1 & Hw & A1 & A2 & A3 & A4 & A5) L NO Hd EG HH HG. specialize (NO rf A1).
  destruct (Nat.eqb_spec (g_Hsample g) H) as [E|N].
  - assert (RO : exists w' out, run cls w o g rg = (w', Ok out)).
    { pose proof (run_inv cls w o g rg) as I. unfold prepare_demo in I at 1. rewrite Hd, EG in I.
      destruct (call_reward cls w o) as [wa f]. destruct (call_terminal cls wa o) as [wb tm].
      destruct I as (w2 & fs & w3 & st0 & w4 & rf' & w5 & rev & Ybars & Yfin & w6 & roll & w7 & step & w8 & un & w9 & roll' & _ & _ & _ & _ & _ & _ & _ & _ & _ & ER).
      rewrite ER. eauto. }
    split; [|exact RO]. unfold run_py, prepare_demo. rewrite Hd, EG.
    pose proof (core_reward cls w o) as (_ & B1 & _ & _ & B2). pose proof (roll_tables_reward cls w o) as [_ B3].
    destruct (call_reward cls w o) as [wa f]. cbn [fst] in *.
    pose proof (core_terminal cls wa o) as (_ & C1 & _ & _ & C2). pose proof (roll_tables_terminal cls wa o) as [_ C3].
    destruct (call_terminal cls wa o) as [wb tm]. cbn [fst] in *.
    match goal with |- context [get_funcs ?z o] => set (w1 := z) end.
    assert (O1 : w_obj w1 (rf_obj rf) = w_obj w (rf_obj rf)) by (unfold w1; cbn [put_obj w_obj]; rewrite upd_other, C1, B1 by congruence; reflexivity).
    assert (R1 : w_rev w1 = Some rf) by (unfold w1; cbn [put_obj w_rev]; congruence).
    clearbody w1.
    assert (F : w_obj (fst (get_funcs w1 o)) (rf_obj rf) = w_obj w (rf_obj rf) /\ w_rev (fst (get_funcs w1 o)) = Some rf).
    { unfold get_funcs. destruct (w_env w1 _); cbn [fst w_obj w_rev]; auto. }
    destruct (get_funcs w1 o) as [w2 fs]. cbn [fst] in F. destruct F as (O2 & R2).
    pose proof (core_reset cls w2 o) as (_ & F1 & _ & _ & F2). destruct (call_reset cls w2 o) as [w3 st]. cbn [fst] in *.
    unfold get_rev. rewrite F2, R2. destruct (t_rev w3 (rf_id rf) (key_of g)); [reflexivity|].
    rewrite F1, O2, A3. unfold rows_fit. rewrite A4, E, Nat.eqb_refl. cbn [orb negb]. rewrite Bool.andb_false_r. reflexivity.
  - apply (second_horizon cls rows w (rf_obj rf) rf g rg o x1 x); auto.
    unfold rows_fit. rewrite A4. repeat rewrite (proj2 (Nat.eqb_neq _ _)) by lia. reflexivity.
Qed.
(** The process after a benchmark without guidance is the process after its first run. *)
Lemma bench_world w o g rg clock num warm w1 out w' rep : g_guid g = false -> run_py cls rows w o g rg = (w1, Ok out) ->
  benchmark cls rows w o g rg clock num warm = (w', Ok rep) -> w' = w1.
Proof.
  intros Hg HR H. destruct (benchmark_inv _ _ _ _ _ _ _ _ _ _ _ H) as (wa & la & l & E1 & E2 & Hne & _).
  pose proof (run_py_again cls rows _ _ _ _ _ _ Hg HR) as R2.
  assert (F : forall n c we le, runs cls rows w o g rg c n = (we, Ok le) -> (n = 0%nat /\ we = w) \/ we = w1).
  { intros [|n] c we le F; cbn [runs] in F; [injection F as <- _; auto|]. right. unfold run_timed in F. rewrite HR in F.
    destruct (Reqb _ 0); [discriminate|]. destruct (runs cls rows w1 o g rg (later g 1 c) n) as [w3 [l3|e]] eqn:F3; [|discriminate]. injection F as <- _.
    apply (runs_same cls rows _ _ _ _ _ Hg R2 _ _ _ _ F3). }
  destruct (F _ _ _ _ E1) as [[-> ->]| -> ].
  - destruct (F _ _ _ _ E2) as [[-> _]|E]; [|exact E]. cbn [runs] in E2. injection E2 as _ <-. congruence.
  - apply (runs_same cls rows _ _ _ _ _ Hg R2 _ _ _ _ E2).
Qed.
End Seq.

Section Scenario.
Variable cls : string -> methods (tt_self * ttq) (list refrow) ttq.
Variable proj : tt_self -> ttq -> act -> act.
Variable guide : tt_self -> ttq -> ttq.
Hypothesis Hcls : cls "TractorTrailer2d" = tt_methods proj guide.
Variable rg : prng.
Local Notation L := (@length refrow).

Lemma scenario_object N H T : (4 <= H)%nat -> exists r sx x, scenario_robot H = Ok r /\ tt_of_robot r = Some sx /\
  m_gen (tt_methods proj guide) sx (g_motion (scenario_cfg N H T)) = Ok x /\ L x = H.
Proof.
  intros HH. destruct (scenario_robot_is H) as (r & E & K1 & K2 & K3).
  assert (EH : p_H (rb_p r) = H) by (rewrite K2; reflexivity).
  set (s := mkTTSelf (rb_p r) (rb_circ r) (rb_rect r) scenario_goal) in *.
  destruct (l_C35_tt_demonstration_shape s scenario_start "horizontal" 4 (-1)) as (W & x & A & (ss & B & _) & _).
  - lia.
  - unfold s. cbn [ts_p]. lia.
  - unfold s, scenario_start, scenario_goal. cbn [ts_xg t_px t_py]. intros F. injection F as F1 F2. lra.
  - exists r, (s, scenario_start), x. split; [exact E|]. split; [exact K3|]. split; [exact A|]. rewrite B. exact EH.
Qed.
Lemma new_data (w : world (tt_self * ttq) (list refrow) ttq) sx : meth cls (exec cls w (New "TractorTrailer2d" sx)) (w_objs w) = tt_methods proj guide /\
  data (exec cls w (New "TractorTrailer2d" sx)) (w_objs w) = sx /\ (w_objs w < w_objs (exec cls w (New "TractorTrailer2d" sx)))%nat.
Proof.
  unfold meth, data. cbn [exec put_obj w_obj w_objs]. rewrite upd_same. cbn [ob_class ob_data]. rewrite Hcls. auto.
Qed.
Lemma run_returns (w : world (tt_self * ttq) (list refrow) ttq) o g x : m_gen (meth cls w o) (data w o) (g_motion g) = Ok x ->
  exists w' out, run cls w o g rg = (w', Ok out).
Proof.
  intros EG. pose proof (run_inv cls w o g rg) as I. unfold prepare_demo in I at 1.
  destruct (g_demo g).
  - rewrite EG in I. destruct (call_reward cls w o) as [wa f]. destruct (call_terminal cls wa o) as [wb tm].
    destruct I as (w2 & fs & w3 & st0 & w4 & rf' & w5 & rev & Ybars & Yfin & w6 & roll & w7 & step & w8 & un & w9 & roll' & _ & _ & _ & _ & _ & _ & _ & _ & _ & ER).
    rewrite ER. eauto.
  - destruct I as (w2 & fs & w3 & st0 & w4 & rf' & w5 & rev & Ybars & Yfin & w6 & roll & w7 & step & w8 & un & w9 & roll' & _ & _ & _ & _ & _ & _ & _ & _ & _ & ER).
    rewrite ER. eauto.
Qed.

Definition horizon (t : string * (nat * nat * nat)) : nat := snd (fst (snd t)).
Lemma scenario_rest H : (4 <= H)%nat -> forall tests w clocks, holds L w H -> (forall k, advancing (clocks k)) ->
  Forall (fun t => (4 <= horizon t)%nat) tests ->
  (Forall (fun t => horizon t = H) tests -> exists reps, scenario cls w rg clocks tests = Ok reps /\ map fst reps = map fst tests /\
     Forall (fun nr => br_num (snd nr) = 3%nat) reps) /\
  (~ Forall (fun t => horizon t = H) tests -> scenario cls w rg clocks tests = Err TypeError).
Proof.
  intros HH. induction tests as [|[name [[N H'] T]] rest IH]; intros w clocks Hw Hc HF.
  - split; [intros _; exists []; auto | intros F; exfalso; apply F; constructor].
  - inversion HF as [|? ? HF1 HF2]; subst. cbn [horizon fst snd] in HF1.
    destruct (scenario_object N H' T HF1) as (r & sx & x & E1 & E2 & E3 & E4).
    destruct (new_data w sx) as (M1 & M2 & M3).
    pose proof (holds_new cls L w H "TractorTrailer2d" sx Hw) as Hn.
    assert (NO : forall rf, w_rev (exec cls w (New "TractorTrailer2d" sx)) = Some rf -> rf_obj rf <> w_objs w).
    { destruct Hw as (rf0 & x0 & _ & A1 & A2 & _). intros rf F. cbn [exec put_obj w_rev] in F. rewrite A1 in F. injection F as <-. lia. }
    assert (EG : m_gen (meth cls (exec cls w (New "TractorTrailer2d" sx)) (w_objs w)) (data (exec cls w (New "TractorTrailer2d" sx)) (w_objs w)) (g_motion (scenario_cfg N H' T)) = Ok x)
      by (rewrite M1, M2; exact E3).
    pose proof (holds_py cls L _ (w_objs w) (scenario_cfg N H' T) rg H x Hn M3 NO eq_refl EG ltac:(lia) ltac:(cbn; lia)) as P.
    cbn [scenario]. rewrite E1, E2. change (g_Hsample (scenario_cfg N H' T)) with H' in P.
    destruct (Nat.eqb_spec H' H) as [->|NH].
    + destruct P as (P1 & w1 & out & P2). rewrite P2 in P1.
      assert (Wn : wf (exec cls w (New "TractorTrailer2d" sx))) by (destruct Hn as (? & ? & A & _); exact A).
      destruct (completes_gen _ _ _ cls L _ (w_objs w) (scenario_cfg N H T) rg (clocks 0%nat) 3 1 w1 out Wn M3 (or_introl eq_refl) P1 (Hc 0%nat) ltac:(lia)) as (w' & rep & B).
      rewrite B. pose proof (bench_world cls L _ _ (scenario_cfg N H T) _ _ _ _ _ _ _ _ eq_refl P1 B) as ->.
      pose proof (holds_run cls L _ _ (scenario_cfg N H T) _ _ _ H Hn M3 NO eq_refl eq_refl P2) as H1.
      destruct (IH w1 (fun k => clocks (S k)) H1 (fun k => Hc (S k)) HF2) as [I1 I2].
      split.
      * intros F. inversion F as [|? ? F1 F2]; subst. destruct (I1 F2) as (reps & J1 & J2 & J3). rewrite J1.
        eexists. split; [reflexivity|]. split; [cbn [map fst]; rewrite J2; reflexivity|]. constructor; [|exact J3].
        cbn [snd]. apply (l_C51_report _ _ _ _ _ _ _ _ _ _ _ _ _ _ B).
      * intros F. rewrite I2; [reflexivity|]. intros F'. apply F. constructor; [reflexivity | exact F'].
    + destruct P as (w' & P). rewrite (l_C51_exception _ _ _ cls L _ (w_objs w) (scenario_cfg N H' T) rg (clocks 0%nat) 3 1 w' TypeError ltac:(lia) P).
      split; [intros F; inversion F; subst; cbn [horizon fst snd] in *; congruence | reflexivity].
Qed.
Lemma scenario_all w H name N T rest clocks : wf w -> empty w -> (4 <= H)%nat -> (forall k, advancing (clocks k)) ->
  Forall (fun t => (4 <= horizon t)%nat) rest ->
  (Forall (fun t => horizon t = H) rest -> exists reps, scenario cls w rg clocks ((name, (N, H, T)) :: rest) = Ok reps /\
     map fst reps = name :: map fst rest /\ Forall (fun nr => br_num (snd nr) = 3%nat) reps) /\
  (~ Forall (fun t => horizon t = H) rest -> scenario cls w rg clocks ((name, (N, H, T)) :: rest) = Err TypeError).
Proof.
  intros Hw Em HH Hc HF. destruct (scenario_object N H T HH) as (r & sx & x & E1 & E2 & E3 & E4).
  destruct (new_data w sx) as (M1 & M2 & M3). set (w0 := exec cls w (New "TractorTrailer2d" sx)) in *. set (g := scenario_cfg N H T) in *.
  assert (W0 : wf w0) by (apply wf_exec, Hw). assert (EM0 : empty w0) by exact Em.
  assert (EG : m_gen (meth cls w0 (w_objs w)) (data w0 (w_objs w)) (g_motion g) = Ok x) by (rewrite M1, M2; exact E3).
  destruct (run_returns w0 (w_objs w) g x EG) as (w1 & out & P2).
  assert (P1 : run_py cls L w0 (w_objs w) g rg = (w1, Ok out)).
  { destruct (run_ok_demo cls w0 (w_objs w) g rg out) as [wd ED]; [rewrite P2; reflexivity|].
    destruct (demo_ref cls _ _ _ _ ED eq_refl) as (x' & EX & ER). rewrite EG in EX. injection EX as <-.
    unfold run_py. rewrite ED. destruct (get_funcs wd (w_objs w)) as [w2 fs] eqn:E5. destruct (call_reset cls w2 (w_objs w)) as [w3 st] eqn:E6.
    destruct (get_rev w3 (w_objs w) g fs) as [w4 rf] eqn:E7. destruct (t_rev w4 (rf_id rf) (key_of g)); [exact P2|].
    assert (F : rf_obj rf = w_objs w /\ w_obj w4 = w_obj wd).
    { assert (EMd : w_env wd = w_env w0 /\ w_rev wd = w_rev w0).
      { clear - ED. unfold prepare_demo in ED. destruct (g_demo g); [|injection ED as <-; auto]. destruct (m_gen _ _ _); [|discriminate].
        pose proof (core_reward cls w0 (w_objs w)) as (_ & _ & _ & A1 & A2). destruct (call_reward cls w0 (w_objs w)) as [wa f]. cbn [fst] in *.
        pose proof (core_terminal cls wa (w_objs w)) as (_ & _ & _ & B1 & B2). destruct (call_terminal cls wa (w_objs w)) as [wb tm]. cbn [fst] in *.
        injection ED as <-. cbn [put_obj w_env w_rev]. split; congruence. }
      destruct EMd as [EA EB]. destruct EM0 as [E8 E9]. unfold get_funcs in E5. rewrite EA, E8 in E5. injection E5 as <- <-.
      match type of E6 with call_reset cls ?z _ = _ => pose proof (core_reset cls z (w_objs w)) as (_ & B3 & _ & _ & R3) end.
      rewrite E6 in B3, R3. cbn [fst w_obj w_rev] in *. unfold get_rev in E7. rewrite R3, EB, E9 in E7. injection E7 as <- <-. cbn [rf_obj w_obj]. auto. }
    destruct F as [F1 F2]. rewrite F1, F2, ER. unfold rows_fit. rewrite E4. change (g_Hsample g) with H. rewrite Nat.eqb_refl. cbn [orb negb].
    rewrite Bool.andb_false_r. exact P2. }
  destruct (completes_gen _ _ _ cls L _ (w_objs w) g rg (clocks 0%nat) 3 1 w1 out W0 M3 (or_introl eq_refl) P1 (Hc 0%nat) ltac:(lia)) as (w' & rep & B).
  pose proof (bench_world cls L _ _ g _ _ _ _ _ _ _ _ eq_refl P1 B) as ->.
  pose proof (holds_first cls L _ _ g _ _ _ _ W0 EM0 M3 eq_refl eq_refl P2 EG E4) as H1. change (g_Hsample g) with H in H1.
  destruct (scenario_rest H HH rest w1 (fun k => clocks (S k)) H1 (fun k => Hc (S k)) HF) as [I1 I2].
  cbn [scenario]. rewrite E1, E2. fold w0. fold g. rewrite B. split.
  - intros F. destruct (I1 F) as (reps & J1 & J2 & J3). rewrite J1. eexists. split; [reflexivity|]. split; [cbn [map fst]; rewrite J2; reflexivity|].
    constructor; [|exact J3]. cbn [snd]. apply (l_C51_report _ _ _ _ _ _ _ _ _ _ _ _ _ _ B).
  - intros F. rewrite I2; [reflexivity | exact F].
Qed.
End Scenario.

(** A list of configurations, horizons at least 4, in a process with a clean dictionary and an
    advancing clock: if all horizons agree every configuration gets its report, otherwise the
    scenario ends with TypeError. *)
Lemma l_C52_scenario_partial : forall cls proj guide rg b h clocks name N H T rest,
  cls "TractorTrailer2d" = tt_methods proj guide -> cleared h = true -> (forall k, advancing (clocks k)) ->
  (4 <= H)%nat -> Forall (fun t => (4 <= snd (fst (snd t)))%nat) rest ->
  let tests := (name, (N, H, T)) :: rest in
  let answer := scenario cls (execs cls (start b) h) rg clocks tests in
  (Forall (fun t => snd (fst (snd t)) = H) rest ->
     exists reps, answer = Ok reps /\ map fst reps = map fst tests /\ Forall (fun nr => br_num (snd nr) = 3%nat) reps) /\
  (~ Forall (fun t => snd (fst (snd t)) = H) rest -> answer = Err TypeError).
Proof.
  intros cls proj guide rg b h clocks name N H T rest Hcls Hc Hk HH HF.
  exact (scenario_all cls proj guide Hcls rg _ H name N T rest clocks (wf_execs cls _ h (wf_start b)) (empty_cleared cls b h Hc) HH Hk HF).
Qed.
(** The shipped list has the horizons 30, 40 and 50: the scenario never finishes. *)
Lemma l_C52_shipped_scenario_refuted : forall cls proj guide rg b h clocks,
  cls "TractorTrailer2d" = tt_methods proj guide -> cleared h = true -> (forall k, advancing (clocks k)) ->
  scenario cls (execs cls (start b) h) rg clocks scenario_tests = Err TypeError.
Proof.
  intros cls proj guide rg b h clocks Hcls Hc Hk. unfold scenario_tests.
  apply (l_C52_scenario_partial cls proj guide rg b h clocks "Small (Fast)" 5000 30 100 _ Hcls Hc Hk).
  - apply Nat.leb_le. reflexivity.
  - repeat constructor; cbn [fst snd]; apply Nat.leb_le; reflexivity.
  - intros F. inversion F as [|? ? F1 F2]; subst. cbn [fst snd] in F1. apply Nat.eqb_eq in F1. discriminate.
Qed.

(** The length of the demonstration (the environment's H) must be the planner's horizon: in a clean
    process a run with a demonstration of another length raises TypeError, one of the right length
    returns. *)
Lemma l_C52_demonstration_length : forall (D X Q : Type) (cls : string -> methods D X Q) rows b h o g rg x,
  let w := execs cls (start b) h in
  (o < w_objs w)%nat -> cleared h = true -> g_demo g = true ->
  m_gen (cls (ob_class (w_obj w o))) (ob_data (w_obj w o)) (g_motion g) = Ok x ->
  (2 <= rows x)%nat -> (2 <= g_Hsample g)%nat ->
  (rows x = g_Hsample g -> exists w' out, run_py cls rows w o g rg = (w', Ok out)) /\
  (rows x <> g_Hsample g -> exists w', run_py cls rows w o g rg = (w', Err TypeError)).
Proof.
  intros D X Q cls rows b h o g rg x w L Hc Hd EG R1 R2.
  assert (Hw : wf w) by apply wf_execs, wf_start. pose proof (empty_cleared cls b h Hc) as [Em1 Em2]. fold w in Em1, Em2.
  assert (RO : exists w' out, run cls w o g rg = (w', Ok out)).
  { pose proof (run_inv cls w o g rg) as I. unfold prepare_demo in I at 1. rewrite Hd in I.
    assert (EG' : m_gen (meth cls w o) (data w o) (g_motion g) = Ok x) by exact EG. rewrite EG' in I.
    destruct (call_reward cls w o) as [wa f]. destruct (call_terminal cls wa o) as [wb tm].
    destruct I as (w2 & fs & w3 & st0 & w4 & rf' & w5 & rev & Ybars & Yfin & w6 & roll & w7 & step & w8 & un & w9 & roll' & _ & _ & _ & _ & _ & _ & _ & _ & _ & ER).
    rewrite ER. eauto. }
  destruct RO as (w' & out & RO). destruct (run_ok_demo cls w o g rg out) as [wd ED]; [rewrite RO; reflexivity|].
  destruct (demo_ref cls w o g wd ED Hd) as (x' & EX & ER). unfold meth, data in EX. rewrite EG in EX. injection EX as <-.
  pose proof (wf_demo cls w o g L Hw) as Hwd. rewrite ED in Hwd. cbn [fst] in Hwd.
  assert (EM : w_env wd = w_env w /\ w_rev wd = w_rev w).
  { clear - ED. unfold prepare_demo in ED. destruct (g_demo g); [|injection ED as <-; auto]. destruct (m_gen _ _ _); [|discriminate].
    pose proof (core_reward cls w o) as (_ & _ & _ & A1 & A2). destruct (call_reward cls w o) as [wa f]. cbn [fst] in *.
    pose proof (core_terminal cls wa o) as (_ & _ & _ & B1 & B2). destruct (call_terminal cls wa o) as [wb tm]. cbn [fst] in *.
    injection ED as <-. cbn [put_obj w_env w_rev]. split; congruence. }
  destruct EM as [EM1 EM2]. unfold run_py. rewrite ED. unfold get_funcs. rewrite EM1, Em1.
  match goal with |- context [call_reset cls ?z o] => set (w2 := z) end.
  pose proof (core_reset cls w2 o) as (_ & B3 & F3 & V3 & R3). pose proof (roll_tables_reset cls w2 o) as [TA3 TB3].
  destruct (call_reset cls w2 o) as [w3 st]. cbn [fst] in *. change (w_rev w2) with (w_rev wd) in R3. change (w_fns w2) with (S (w_fns wd)) in F3.
  unfold get_rev. rewrite R3, EM2, Em2. cbn [rf_id rf_obj t_rev w_obj].
  rewrite TB3, F3. change (t_rev w2 (S (w_fns wd)) (key_of g)) with (t_rev wd (S (w_fns wd)) (key_of g)).
  assert (N : t_rev wd (S (w_fns wd)) (key_of g) = None) by (apply (proj1 Hwd (S (w_fns wd))); lia). rewrite N.
  rewrite B3. change (w_obj w2) with (w_obj wd). rewrite ER, Hd, RO. unfold rows_fit.
  split.
  - intros E. rewrite E, Nat.eqb_refl. cbn [orb negb andb]. eauto.
  - intros E. repeat rewrite (proj2 (Nat.eqb_neq _ _)) by lia. cbn [orb negb andb]. eauto.
Qed.

(** The environment of a benchmark configuration carries the configuration's (default) values, the
    asked-for horizon and preference, a safe start left above the target space, and the goal
    heading "backward". *)
Lemma l_C52_environment : forall H, exists r s, scenario_robot H = Ok r /\ tt_of_robot r = Some (s, mkTT (-1148/100) 3 0 0) /\
  ts_xg s = mkTT (-21/4) (-17/2) (PI / 2) (PI / 2) /\
  p_H (ts_p s) = H /\ p_motion (ts_p s) = (-1)%Z /\ p_sh_coll (ts_p s) = true /\ p_sh_hitch (ts_p s) = true /\
  p_proj (ts_p s) = false /\ p_guid (ts_p s) = false /\
  Forall (fun nf => exists v, In (fst nf, TFloat, VFloat v) dataclass_fields /\ snd nf (ts_p s) = v) passed_on /\
  tt_safe (ts_p s) (ts_circ s) (ts_rect s) (mkTT (-1148/100) 3 0 0).
Proof.
  intros H. destruct (scenario_robot_is H) as (r & E & K1 & K2 & K3).
  exists r, (mkTTSelf (rb_p r) (rb_circ r) (rb_rect r) scenario_goal). split; [exact E|]. split; [exact K3|]. split; [reflexivity|].
  cbn [ts_p ts_circ ts_rect]. rewrite K2. repeat (split; [reflexivity|]).
  split.
  { assert (FI : forall n v, In (n, TFloat, VFloat v) dataclass_fields -> forall x, x = v -> exists v, In (n, TFloat, VFloat v) dataclass_fields /\ x = v).
    { intros n v I x ->. exists v. split; [exact I | reflexivity]. }
    unfold passed_on.
    constructor; [cbn [fst snd]; eapply FI; [unfold dataclass_fields; repeat (first [left; reflexivity | right]) | reflexivity]|].
    constructor; [cbn [fst snd]; eapply FI; [unfold dataclass_fields; repeat (first [left; reflexivity | right]) | reflexivity]|].
    constructor; [cbn [fst snd]; eapply FI; [unfold dataclass_fields; repeat (first [left; reflexivity | right]) | reflexivity]|].
    constructor; [cbn [fst snd]; eapply FI; [unfold dataclass_fields; repeat (first [left; reflexivity | right]) | reflexivity]|].
    constructor; [cbn [fst snd]; eapply FI; [unfold dataclass_fields; repeat (first [left; reflexivity | right]) | reflexivity]|].
    constructor; [cbn [fst snd]; eapply FI; [unfold dataclass_fields; repeat (first [left; reflexivity | right]) | reflexivity]|].
    constructor; [cbn [fst snd]; eapply FI; [unfold dataclass_fields; repeat (first [left; reflexivity | right]) | reflexivity]|].
    constructor; [cbn [fst snd]; eapply FI; [unfold dataclass_fields; repeat (first [left; reflexivity | right]) | reflexivity]|].
    constructor; [cbn [fst snd]; eapply FI; [unfold dataclass_fields; repeat (first [left; reflexivity | right]) | reflexivity]|].
    constructor; [cbn [fst snd]; eapply FI; [unfold dataclass_fields; repeat (first [left; reflexivity | right]) | reflexivity]|].
    constructor; [cbn [fst snd]; eapply FI; [unfold dataclass_fields; repeat (first [left; reflexivity | right]) | reflexivity]|].
    constructor; [cbn [fst snd]; eapply FI; [unfold dataclass_fields; repeat (first [left; reflexivity | right]) | transitivity (1848 / 1000); [reflexivity | lra]]|].
    constructor; [cbn [fst snd]; eapply FI; [unfold dataclass_fields; repeat (first [left; reflexivity | right]) | transitivity (142 / 100); [reflexivity | lra]]|].
    constructor; [cbn [fst snd]; eapply FI; [unfold dataclass_fields; repeat (first [left; reflexivity | right]) | transitivity (3225 / 1000); [reflexivity | lra]]|].
    constructor; [cbn [fst snd]; eapply FI; [unfold dataclass_fields; repeat (first [left; reflexivity | right]) | reflexivity]|].
    constructor; [cbn [fst snd]; eapply FI; [unfold dataclass_fields; repeat (first [left; reflexivity | right]) | reflexivity]|].
    constructor; [cbn [fst snd]; eapply FI; [unfold dataclass_fields; repeat (first [left; reflexivity | right]) | reflexivity]|].
    constructor; [cbn [fst snd]; eapply FI; [unfold dataclass_fields; repeat (first [left; reflexivity | right]) | reflexivity]|].
    constructor; [cbn [fst snd]; eapply FI; [unfold dataclass_fields; repeat (first [left; reflexivity | right]) | reflexivity]|].
    constructor; [cbn [fst snd]; eapply FI; [unfold dataclass_fields; repeat (first [left; reflexivity | right]) | reflexivity]|].
    constructor; [cbn [fst snd]; eapply FI; [unfold dataclass_fields; repeat (first [left; reflexivity | right]) | reflexivity]|].
    constructor; [cbn [fst snd]; eapply FI; [unfold dataclass_fields; repeat (first [left; reflexivity | right]) | reflexivity]|].
    constructor; [cbn [fst snd]; eapply FI; [unfold dataclass_fields; repeat (first [left; reflexivity | right]) | reflexivity]|].
    constructor; [cbn [fst snd]; eapply FI; [unfold dataclass_fields; repeat (first [left; reflexivity | right]) | reflexivity]|].
    constructor. }
  assert (KC : rb_circ r = match env_init 32 32 "parking" None with Ok e => e_circles e | Err _ => [] end /\ rb_rect r = parking_rects).
  { clear - E. unfold scenario_robot in E. destruct (get_env (scenario_args H)) as [r0|] eqn:G; [|discriminate].
    assert (G' : rb_circ r0 = match env_init 32 32 "parking" None with Ok e => e_circles e | Err _ => [] end /\ rb_rect r0 = parking_rects).
    { unfold get_env in G. cbn [scenario_args g_name g_trailers default_env_args String.eqb Ascii.eqb Bool.eqb Z.eqb Z.leb Z.compare Pos.compare Pos.compare_cont] in G.
      unfold tt_init in G. cbn [kwargs k_env g_env scenario_args] in G.
      match type of G with context [env_init 32 32 ?c None] => change (env_init 32 32 c None) with (env_init 32 32 "parking" None) in G end.
      destruct (env_init 32 32 "parking" None) as [e|] eqn:EE; [|discriminate EE].
      injection EE as <-. destruct (initial_x0 _ _); [|discriminate]. destruct (initial_xg _ _); [|discriminate].
      injection G as <-. split; reflexivity. }
    unfold set_init_pos in E. destruct (base_init_pos _ _ _); [|discriminate]. injection E as <-. exact G'. }
  destruct KC as [-> ->].
  split.
  - split.
    + intros g c Hg Hc P HP. apply outline_solid' in HP.
      assert (Hy : 17/10 < snd P).
      { cbn [tt_bodies In] in Hg. destruct Hg as [<-|[<-|[]]].
        - unfold tractor_body in HP; cbn [t_px t_py t_th1 t_th2 p_trac_w params_of] in HP.
          eapply solid_level; [exact HP|]. cbn. lra.
        - unfold trailer_body in HP. cbn [t_px t_py t_th1 t_th2] in HP.
          eapply solid_level; [exact HP|]. unfold ahead; cbn. rewrite sin_0. lra. }
      assert (Hcy : c_y c <= 1/2 /\ c_r c = 1).
      { cbn in Hc. repeat match type of Hc with
        | False => contradiction
        | _ => destruct Hc as [<-|Hc]; [cbn; lra|]
        end. }
      destruct (Rlt_le_dec (c_r c) (SpecGeom.dist P (c_x c, c_y c))) as [H'|H']; [exact H'|exfalso].
      apply disc_box in H'. cbn [fst snd] in H'. lra.
    + intros g o Hg Ho P [H1 H2].
      assert (Hy : 17/10 < snd P < 9).
      { cbn [tt_bodies In] in Hg. destruct Hg as [<-|[<-|[]]].
        - unfold tractor_body in H1; cbn [t_px t_py t_th1 t_th2 p_trac_w params_of] in H1.
          split; [eapply solid_level|eapply solid_level_up]; try exact H1; cbn; lra.
        - unfold trailer_body in H1. cbn [t_px t_py t_th1 t_th2] in H1.
          split; [eapply solid_level|eapply solid_level_up]; try exact H1; unfold ahead; cbn; rewrite sin_0; lra. }
      cbn in Ho. destruct Ho as [<-|[<-|[]]]; destruct H2 as (a & b & Ha & Hb & ->); cbn in Ha, Hb, Hy;
        rewrite ?sin_0, ?cos_0 in Hy; lra.
  - apply hitch_ok_zero. cbn. unfold phi_max_const. pose proof PI_RGT_0. lra.
Qed.
(** Two of the configuration's values do not reach the environment: the terminal reward threshold
    and weight are not passed, so get_env's own defaults 10 and 1 apply instead of 20 and 5. *)
Lemma l_C52_terminal_reward_settings_refuted : forall H r, scenario_robot H = Ok r ->
  In ("terminal_reward_threshold", TFloat, VFloat 20) dataclass_fields /\ p_term_thr (rb_p r) = 10 /\
  In ("terminal_reward_weight", TFloat, VFloat 5) dataclass_fields /\ p_term_w (rb_p r) = 1.
Proof.
  intros H r E. destruct (scenario_robot_is H) as (r' & E' & _ & K & _). rewrite E in E'. injection E' as <-. rewrite K.
  split; [repeat (first [left; reflexivity | right])|]. split; [reflexivity|]. split; [repeat (first [left; reflexivity | right]) | reflexivity].
Qed.

(** ** Cases that meet the hypotheses *)
Lemma clock_INR : advancing INR /\ never_back INR.
Proof. split; intros n; rewrite S_INR; lra. Qed.
Lemma demo_off_runs {D X Q} (cls : string -> methods D X Q) rows w o g rg : g_demo g = false ->
  exists w' out, run_py cls rows w o g rg = (w', Ok out).
Proof.
  intros Hd. pose proof (run_inv cls w o g rg) as I. unfold run_py. unfold prepare_demo in *. rewrite Hd in *.
  destruct I as (w2 & fs & w3 & st0 & w4 & rf' & w5 & rev & Ybars & Yfin & w6 & roll & w7 & step & w8 & un & w9 & roll' & A & B & C & _ & _ & _ & _ & _ & _ & ER).
  rewrite A, B, C. cbn [andb]. destruct (t_rev w4 _ _); eauto.
Qed.
Lemma x_C50_timed_run : forall proj guide s x0 rg,
  let cls := fun _ : string => tt_methods proj guide in
  let w := execs cls (start (mkObj "" (s, x0) None 0)) [New "TractorTrailer2d" (s, x0)] in
  let g := mkCfg 42 100 20 10 (1/10) (1/100) (1/10) false 0 false in
  exists w' r t, never_back INR /\ run_timed cls (@length refrow) w 0 g rg INR = (w', Ok (r, t)) /\ ti_total t = 13 /\ ti_pure t = 1.
Proof.
  intros proj guide s x0 rg cls w g. destruct (demo_off_runs cls (@length refrow) w 0 g rg eq_refl) as (w' & out & H).
  exists w', (o_rew (out_res out)), (timing_of false INR). split; [apply clock_INR|].
  assert (T : ti_total (timing_of false INR) = 13) by (unfold timing_of; cbn; lra).
  split; [|split; [exact T | unfold timing_of; cbn; lra]].
  unfold run_timed. rewrite H. change (g_demo g) with false. unfold Reqb. destruct (Req_EM_T _ 0) as [E|_]; [|reflexivity]. rewrite T in E. lra.
Qed.
Lemma x_C51_benchmark : forall proj guide s x0 rg,
  let cls := fun _ : string => tt_methods proj guide in
  let w := execs cls (start (mkObj "" (s, x0) None 0)) [New "TractorTrailer2d" (s, x0)] in
  let g := mkCfg 42 100 20 10 (1/10) (1/100) (1/10) false 0 false in
  exists w' rep r, benchmark cls (@length refrow) w 0 g rg INR 3 1 = (w', Ok rep) /\ br_rewards rep = [r; r; r].
Proof.
  intros proj guide s x0 rg cls w g. destruct (demo_off_runs cls (@length refrow) w 0 g rg eq_refl) as (w1 & out & H).
  assert (L : (0 < w_objs w)%nat) by (cbn; lia).
  destruct (l_C51_completes _ _ _ cls (@length refrow) (mkObj "" (s, x0) None 0) [New "TractorTrailer2d" (s, x0)] 0 g rg INR 3 1 w1 out L
    (or_introl eq_refl) H (proj1 clock_INR) ltac:(lia)) as (w' & rep & B).
  destruct (l_C51_same_reward _ _ _ cls (@length refrow) (mkObj "" (s, x0) None 0) [New "TractorTrailer2d" (s, x0)] 0 g rg INR 3 1 w' rep L
    (or_introl eq_refl) B) as (r & R & _).
  exists w', rep, r. split; [exact B | exact R].
Qed.
Lemma x_C51_median : np_median [3; 1; 2; 10] = 5 / 2 /\ np_median [3; 1; 2] = 2.
Proof.
  assert (F : forall a b, a <= b -> Rleb a b = true) by (intros a b H; unfold Rleb; destruct (Rle_dec a b); [reflexivity | contradiction]).
  assert (G : forall a b, b < a -> Rleb a b = false) by (intros a b H; unfold Rleb; destruct (Rle_dec a b); [lra | reflexivity]).
  unfold np_median, np_sort. cbn [fold_right insert length].
  rewrite ?(F 2 10), ?(F 1 2) by lra. cbn [insert]. rewrite ?(F 1 2) by lra. cbn [insert]. rewrite ?(G 3 1), ?(G 3 2), ?(F 3 10) by lra.
  cbn [insert]. rewrite ?(G 3 1), ?(G 3 2), ?(F 3 10) by lra. cbn. split; lra.
Qed.
Lemma x_C52_scenario_hypotheses : forall proj guide,
  (fun _ : string => tt_methods proj guide) "TractorTrailer2d" = tt_methods proj guide /\
  cleared (D := tt_self * ttq) [] = true /\ (forall k : nat, advancing ((fun _ => INR) k)) /\
  Forall (fun t : string * (nat * nat * nat) => (4 <= snd (fst (snd t)))%nat) scenario_tests.
Proof.
  intros proj guide. split; [reflexivity|]. split; [reflexivity|]. split; [intros _; apply clock_INR|].
  repeat constructor; cbn [fst snd]; apply Nat.leb_le; reflexivity.
Qed.
