(** * ProofsMix: trials in different worlds and with different vehicle classes in one process (C38). *)
From Coq Require Import String Lia Reals Lra.
From Verif Require Import Base BaseFacts Params Geom TT2d NTrailer Rollout Instances Demo EnvModel Setup Stats Planner Cache CacheInst SpecCache ProofsCache SpecMix.
From Coq Require Import List.
Import ListNotations.
Local Open Scope string_scope.
Local Open Scope list_scope.
Open Scope R_scope.

Section Mix.
Context {D X Q : Type}.
Variable cls : string -> methods D X Q.
Local Notation W := (world D X Q).

Lemma last_next {A : Type} (l : list A) : forall y d, last (y :: l) d = last l y.
Proof.
  induction l as [|a l IH]; intros y d; [reflexivity|]. change (last (a :: l) d = last (a :: l) y). rewrite !IH. reflexivity.
Qed.
Lemma loop_last {E : penv Q} g rg : forall is k Y, snd (reverse_loop E g rg is k Y) = last (fst (reverse_loop E g rg is k Y)) Y.
Proof.
  induction is as [|i is IH]; intros k Y; [reflexivity|]. cbn [reverse_loop].
  destruct (prng_split rg k) as [k' ks]. destruct (reverse_once E g i _ Y) as [Y' rw].
  specialize (IH k' Y'). destruct (reverse_loop E g rg is k' Y') as [Yb Yf]. cbn [fst snd] in *. rewrite IH.
  symmetry. apply last_next.
Qed.

(** The rollout functions of the class and reverse_once are cached from an object with attributes [d]: a fresh object
    of the same class is planned in the world of [d], from its own start. *)
Lemma run_borrowed c d gs (w : W) o g rg fs rf : wf w -> (o < w_objs w)%nat -> ob_class (w_obj w o) = c -> untraced w o ->
  cache_ok cls c d gs w -> w_env w c = Some fs -> w_rev w = Some rf -> same_schedule g gs -> g_demo g = false -> g_guid g = false ->
  returned (snd (run cls w o g rg)) = Ok (run_diffusion_core (entered_at (cls c) d (cls c) (ob_data (w_obj w o))) g rg) /\
  cache_ok cls c d gs (fst (run cls w o g rg)) /\
  w_env (fst (run cls w o g rg)) c = Some fs /\ w_rev (fst (run cls w o g rg)) = Some rf.
Proof.
  intros Hw L Hc U J Ef Er Hs Hd Hg. pose proof (run_inv cls w o g rg) as I. unfold prepare_demo in I. rewrite Hd in I.
  destruct I as (w2 & fs' & w3 & st0 & w4 & rf' & w5 & rev & Ybars & Yfin & w6 & roll & w7 & step & w8 & un & w9 & roll' &
    E2 & E3 & E4 & E5 & EL & E6 & E7 & E8 & E9 & ER). rewrite ER. cbn [fst snd]. rewrite Hg in *. injection E8 as <- <-.
  unfold get_funcs in E2. rewrite Hc, Ef in E2. injection E2 as <- <-.
  assert (S0 : st0 = m_reset (cls c) (ob_data (w_obj w o))).
  { unfold call_reset in E3. unfold meth, data in E3. rewrite Hc in E3. destruct U as (U1 & _). rewrite U1 in E3.
    destruct (m_jit_reset (cls c)); injection E3 as _ <-; reflexivity. }
  pose proof (core_reset cls w o) as (A1 & A2 & A3 & A4 & A5). pose proof (roll_tables_reset cls w o) as [TA TB].
  assert (K : t_reward (fst (call_reset cls w o)) = t_reward w /\ t_terminal (fst (call_reset cls w o)) = t_terminal w /\ t_step (fst (call_reset cls w o)) = t_step w).
  { unfold call_reset. destruct (m_jit_reset _); [destruct (t_reset w o)|]; auto. }
  destruct K as (K1 & K2 & K3). rewrite E3 in *. cbn [fst] in *.
  assert (FX : forall f, fsound cls c d w f -> fsound cls c d w3 f) by (intros f; apply fsound_ext; assumption).
  unfold get_rev in E4. rewrite A5, Er in E4. injection E4 as <- <-.
  assert (R3 : rsound cls c d gs w3 rf).
  { apply (rsound_keep cls c d gs w w3); auto. - apply FX. apply (proj2 J _ Er). - apply (proj2 J _ Er). }
  assert (F3 : fsound cls c d w3 fs) by (apply FX, (proj1 J _ Ef)).
  pose proof (rev_step_sound cls c d gs w3 rf g R3) as RS. pose proof (core_rev cls w3 rf g) as C5. rewrite E5 in RS, C5. cbn [fst] in C5.
  destruct RS as ((RL & RK) & _ & R5 & FS5 & _). pose proof (FS5 _ F3) as F5.
  pose proof (roll_val cls c d w5 fs (g_Hsample g) F5) as V6. pose proof (fsound_roll cls c d w5 fs (g_Hsample g) fs F5 F5) as F6.
  pose proof (fsound_roll cls c d w5 fs (g_Hsample g) _ F5 (proj1 (proj2 (proj2 (proj2 R5))))) as FR6.
  pose proof (rev_table_roll0 cls w5 fs (g_Hsample g)) as T6. pose proof (core_roll cls w5 fs (g_Hsample g)) as C6.
  rewrite E6 in *. cbn [fst snd] in *.
  pose proof (step_val cls c d w6 (ef_obj fs) (proj1 F6)) as V7. pose proof (fsound_step cls c d w6 (ef_obj fs) false _ F6) as F7.
  pose proof (fsound_step cls c d w6 (ef_obj fs) false _ FR6) as FR7.
  pose proof (rev_table_step cls w6 (ef_obj fs) false) as T7. pose proof (core_step cls w6 (ef_obj fs) false) as C7.
  rewrite E7 in *. cbn [fst snd] in *.
  pose proof (roll_val cls c d w7 fs (g_Hsample g) F7) as V9. pose proof (fsound_roll cls c d w7 fs (g_Hsample g) fs F7 F7) as F9.
  pose proof (fsound_roll cls c d w7 fs (g_Hsample g) _ F7 FR7) as FR9.
  pose proof (rev_table_roll0 cls w7 fs (g_Hsample g)) as T9. pose proof (core_roll cls w7 fs (g_Hsample g)) as C9.
  rewrite E9 in *. cbn [fst snd] in *. subst roll step roll'.
  assert (CC : same_core w3 w9) by (eapply core_trans; [exact C5|]; eapply core_trans; [exact C6|]; eapply core_trans; [exact C7|exact C9]).
  destruct CC as (_ & CO & _ & CE & CR).
  assert (R9 : rsound cls c d gs w9 rf).
  { apply (rsound_keep cls c d gs w5 w9); auto.
    - rewrite (core_obj _ _ C9), (core_obj _ _ C7), (core_obj _ _ C6). reflexivity.
    - rewrite T9, T7, T6. reflexivity. }
  split; [|split; [split|split]].
  - cbn [returned out_res]. f_equal.
    assert (SC : same_schedule (rf_cfg rf) g). { destruct R3 as (S1 & _). destruct S1 as (a1 & a2 & a3), Hs as (b1 & b2 & b3). repeat split; congruence. }
    rewrite (loop_agree rev st0 (rf_cfg rf) g (entered_at (cls c) d (cls c) (ob_data (w_obj w o))) rg) in EL; [|exact RK|exact SC| |].
    2:{ destruct RL as (L1 & L2 & L3). split; [exact S0|]. unfold traced_env. cbn [pe_step pe_terminal pe_term_w pe_steer_w pe_dmax].
        rewrite L1. cbn [the_roll rt_step rt_terminal rt_term_w]. repeat split; auto; congruence. }
    2:{ apply indices_range. }
    unfold run_diffusion_core. rewrite EL, Hg. subst st0. reflexivity.
  - intros f Hf. rewrite CE, A4 in Hf. assert (f = fs) by congruence. subst f. exact F9.
  - intros f Hf. rewrite CR, A5 in Hf. assert (f = rf) by congruence. subst f. exact R9.
  - rewrite CE, A4. exact Ef.
  - rewrite CR, A5. exact Er.
Qed.

(** After a run that did not fail, without guidance, the functions of the class are in the dictionary. *)
Lemma run_leaves (w : W) o g rg : g_demo g = false -> g_guid g = false ->
  (exists fs, w_env (fst (run cls w o g rg)) (ob_class (w_obj w o)) = Some fs) /\
  (exists rf, w_rev (fst (run cls w o g rg)) = Some rf) /\
  (forall c', c' <> ob_class (w_obj w o) -> w_env (fst (run cls w o g rg)) c' = w_env w c').
Proof.
  intros Hd Hg. pose proof (run_inv cls w o g rg) as I. unfold prepare_demo in I. rewrite Hd in I.
  destruct I as (w2 & fs & w3 & st0 & w4 & rf & w5 & rev & Ybars & Yfin & w6 & roll & w7 & step & w8 & un & w9 & roll' &
    E2 & E3 & E4 & E5 & EL & E6 & E7 & E8 & E9 & ER). rewrite ER. cbn [fst]. rewrite Hg in *. injection E8 as <- <-.
  pose proof (core_reset cls w2 o) as C3. rewrite E3 in C3. cbn [fst] in C3.
  pose proof (core_rev cls w4 rf g) as C5. rewrite E5 in C5. cbn [fst] in C5.
  pose proof (core_roll cls w5 fs (g_Hsample g)) as C6. rewrite E6 in C6. cbn [fst] in C6.
  pose proof (core_step cls w6 (ef_obj fs) false) as C7. rewrite E7 in C7. cbn [fst] in C7.
  pose proof (core_roll cls w7 fs (g_Hsample g)) as C9. rewrite E9 in C9. cbn [fst] in C9.
  assert (CC : same_core w4 w9) by (eapply core_trans; [exact C5|]; eapply core_trans; [exact C6|]; eapply core_trans; [exact C7|exact C9]).
  destruct CC as (_ & _ & _ & CE & CR). destruct C3 as (_ & _ & _ & CE3 & CR3).
  assert (N4 : w_env w4 = w_env w3 /\ w_rev w4 = Some rf).
  { unfold get_rev in E4. destruct (w_rev w3) as [rf0|] eqn:Er; injection E4 as <- <-; auto. }
  destruct N4 as [N4 R4].
  assert (N2 : w_env w2 (ob_class (w_obj w o)) = Some fs /\ forall c', c' <> ob_class (w_obj w o) -> w_env w2 c' = w_env w c').
  { unfold get_funcs in E2. destruct (w_env w (ob_class (w_obj w o))) as [f|] eqn:Ef; injection E2 as <- <-; [auto|].
    cbn [w_env]. split; [apply upd_str_same|]. intros c' N. unfold upd_str. destruct (String.eqb_spec c' (ob_class (w_obj w o))); [contradiction|reflexivity]. }
  split; [exists fs|split; [exists rf|]].
  - rewrite CE, N4, CE3. apply N2.
  - rewrite CR. exact R4.
  - intros c' N. rewrite CE, N4, CE3. apply N2, N.
Qed.

Lemma env_changes fs : forall (w : W) o, w_env (execs cls w (map (Change o) fs)) = w_env w.
Proof.
  induction fs as [|f fs IH]; intros w o; [reflexivity|]. cbn [map execs fold_left].
  etransitivity; [apply IH|]. cbn [exec]. destruct (Nat.ltb o (w_objs w)); reflexivity.
Qed.
Lemma env_setup (w : W) c t : w_env (execs cls w (trial_ops c (w_objs w) t)) = w_env w.
Proof. unfold trial_ops. cbn [execs fold_left]. etransitivity; [apply env_changes|]. reflexivity. Qed.

Lemma borrowed_trials c d gs (ts : list (ptrial D)) : forall (w : W) fs rf, wf w -> cache_ok cls c d gs w ->
  w_env w c = Some fs -> w_rev w = Some rf ->
  (forall t, In t ts -> same_schedule (tl_cfg t) gs /\ g_demo (tl_cfg t) = false /\ g_guid (tl_cfg t) = false) ->
  run_trials cls c w ts =
  map (fun t => Ok (run_diffusion_core (entered_at (cls c) d (cls c) (final_data t)) (tl_cfg t) (tl_rng t))) ts.
Proof.
  induction ts as [|t ts IH]; intros w fs rf Hw J Ef Er Ht; [reflexivity|]. cbn [run_trials map].
  destruct (trial_setup cls c d gs w t Hw J) as (W1 & L1 & U1 & C1 & E1 & J1 & R1 & _). pose proof (env_setup w c t) as N1.
  set (w1 := execs cls w (trial_ops c (w_objs w) t)) in *.
  destruct (Ht t (or_introl eq_refl)) as (T1 & T2 & T3).
  destruct (run_borrowed c d gs w1 (w_objs w) (tl_cfg t) (tl_rng t) fs rf W1 L1 C1 U1 J1) as (A & B & F & G); auto; [congruence|congruence|].
  rewrite A, E1. f_equal. cbn [exec]. rewrite (proj2 (Nat.ltb_lt _ _) L1).
  apply (IH _ fs rf); auto.
  - apply (wf_run cls w1 (w_objs w)); auto.
  - intros t' Ht'. apply Ht. right. exact Ht'.
Qed.

(** A fresh object of a class whose functions are not cached, while reverse_once is cached from an object of class [c]
    with attributes [d]. *)
Lemma run_crossed c d gs (w : W) o c2 g rg rf : wf w -> (o < w_objs w)%nat -> ob_class (w_obj w o) = c2 -> untraced w o ->
  cache_ok cls c d gs w -> w_env w c2 = None -> w_rev w = Some rf -> same_schedule g gs -> g_demo g = false -> g_guid g = false ->
  returned (snd (run cls w o g rg)) = Ok (crossed (cls c) d (cls c2) (ob_data (w_obj w o)) g rg).
Proof.
  intros Hw L Hc U J Ef Er Hs Hd Hg. pose proof (run_inv cls w o g rg) as I. unfold prepare_demo in I. rewrite Hd in I.
  destruct I as (w2 & fs' & w3 & st0 & w4 & rf' & w5 & rev & Ybars & Yfin & w6 & roll & w7 & step & w8 & un & w9 & roll' &
    E2 & E3 & E4 & E5 & EL & E6 & E7 & E8 & E9 & ER). rewrite ER. cbn [fst snd]. rewrite Hg in *. injection E8 as <- <-.
  set (d2 := ob_data (w_obj w o)).
  unfold get_funcs in E2. rewrite Hc, Ef in E2. injection E2 as <- <-. set (fs := mkFuncs (w_fns w) o) in *.
  match type of E3 with call_reset cls ?x o = _ => set (w2 := x) in * end.
  assert (O2 : osound cls c2 d2 w2 o) by (apply (untraced_sound cls c2 d2 w2 o Hc U); apply same_refl).
  assert (F2 : fsound cls c2 d2 w2 fs).
  { split; [exact O2|]. intros H. left. cbn [ef_id fs w2 t_roll]. apply (proj1 Hw (w_fns w)). lia. }
  assert (NF2 : new_fn w2 (ef_id fs)) by (apply (proj1 Hw (w_fns w)); lia).
  assert (R2 : rsound cls c d gs w2 rf).
  { destruct (proj2 J _ Er) as (a1 & a2 & a3 & a4 & a5). split; [exact a1|]. split; [exact a2|]. split; [exact a3|]. split; [exact a4|exact a5]. }
  assert (S0 : st0 = m_reset (cls c2) d2).
  { unfold call_reset in E3. unfold meth, data in E3. cbn [w2 w_obj] in E3. rewrite Hc in E3. destruct U as (U1 & _). cbn [w2 t_reset] in E3. rewrite U1 in E3.
    destruct (m_jit_reset (cls c2)); injection E3 as _ <-; reflexivity. }
  pose proof (core_reset cls w2 o) as (A1 & A2 & A3 & A4 & A5). pose proof (roll_tables_reset cls w2 o) as [TA TB].
  assert (K : t_reward (fst (call_reset cls w2 o)) = t_reward w2 /\ t_terminal (fst (call_reset cls w2 o)) = t_terminal w2 /\ t_step (fst (call_reset cls w2 o)) = t_step w2).
  { unfold call_reset. destruct (m_jit_reset _); [destruct (t_reset w2 o)|]; auto. }
  destruct K as (K1 & K2 & K3). pose proof (fn_reset cls w2 o _ NF2) as NF3. rewrite E3 in *. cbn [fst] in *.
  unfold get_rev in E4. rewrite A5 in E4. cbn [w2 w_rev] in E4. rewrite Er in E4. injection E4 as <- <-.
  assert (R3 : rsound cls c d gs w3 rf).
  { apply (rsound_keep cls c d gs w2 w3); auto. apply (fsound_ext cls c d w2 w3); auto. apply R2. }
  assert (F3 : fsound cls c2 d2 w3 fs) by (apply (fsound_ext cls c2 d2 w2 w3); auto).
  assert (F5 : fsound cls c2 d2 w5 fs).
  { split.
    - pose proof E5 as E5'. unfold call_rev in E5'. destruct (t_rev w3 (rf_id rf) (key_of g)); [injection E5' as <- _; apply F3|].
      pose proof (osound_roll cls c2 d2 w3 (rf_funcs rf) (g_Hsample g) o (proj1 F3)) as OR.
      destruct (call_roll cls w3 (rf_funcs rf) (g_Hsample g)) as [w31 r31]. injection E5' as <- _. exact OR.
    - intros H. left. destruct Hw as (_ & _ & _ & W4). destruct (W4 _ Er) as (N1 & N2 & N3).
      pose proof (fn_rev cls w3 rf g (ef_id fs)) as FR. rewrite E5 in FR. cbn [fst] in FR.
      assert (NN : ef_id fs <> rf_id rf /\ ef_id fs <> ef_id (rf_funcs rf)).
      { cbn [fs ef_id]. destruct N3 as [N3 _]. split; lia. }
      apply FR; [apply NN | apply NN | exact NF3]. }
  pose proof (rev_step_sound cls c d gs w3 rf g R3) as RS. rewrite E5 in RS. destruct RS as ((RL & RK) & _).
  pose proof (roll_val cls c2 d2 w5 fs (g_Hsample g) F5) as V6. pose proof (fsound_roll cls c2 d2 w5 fs (g_Hsample g) fs F5 F5) as F6.
  rewrite E6 in *. cbn [fst snd] in *.
  pose proof (step_val cls c2 d2 w6 (ef_obj fs) (proj1 F6)) as V7. pose proof (fsound_step cls c2 d2 w6 (ef_obj fs) false _ F6) as F7.
  rewrite E7 in *. cbn [fst snd] in *.
  pose proof (roll_val cls c2 d2 w7 fs (g_Hsample g) F7) as V9. rewrite E9 in *. cbn [fst snd] in *. subst roll step roll'.
  cbn [returned out_res]. f_equal.
  assert (SC : same_schedule (rf_cfg rf) g). { destruct R3 as (S1 & _). destruct S1 as (a1 & a2 & a3), Hs as (b1 & b2 & b3). repeat split; congruence. }
  rewrite (loop_agree rev st0 (rf_cfg rf) g (entered_at (cls c) d (cls c2) d2) rg) in EL; [|exact RK|exact SC| |].
  2:{ destruct RL as (L1 & L2 & L3). split; [exact S0|]. unfold traced_env. cbn [pe_step pe_terminal pe_term_w pe_steer_w pe_dmax].
      rewrite L1. cbn [the_roll rt_step rt_terminal rt_term_w]. repeat split; auto; congruence. }
  2:{ apply indices_range. }
  pose proof (loop_last (E := entered_at (cls c) d (cls c2) d2) g rg (diffusion_indices g)
    (fst (prng_split rg (fst (prng_split rg (prng_key rg (g_seed g)))))) (YN g)) as LL. rewrite EL in LL. cbn [fst snd] in LL.
  unfold crossed, run_diffusion_core. rewrite EL. cbn [o_Ybars]. unfold YN in LL. rewrite <- LL. subst st0. reflexivity.
Qed.
End Mix.

(** C38, what is not true. Trials of one class after each other, each with a fresh object, no cache clear in between: every
    trial is planned - and its reward computed - in the world of the first trial, from its own start pose. Later goals,
    obstacles, dimensions, limits and reward settings are ignored. *)
Lemma l_C38_later_trials_use_first_world : forall (D X Q : Type) (cls : string -> methods D X Q) (b : obj D X)
  (h : list op) (c : string) (t : ptrial D) (ts : list (ptrial D)),
  cleared h = true ->
  (forall t', In t' (t :: ts) -> same_schedule (tl_cfg t') (tl_cfg t) /\ g_demo (tl_cfg t') = false /\ g_guid (tl_cfg t') = false) ->
  run_trials cls c (execs cls (start b) h) (t :: ts) =
  map (fun t' => Ok (run_diffusion_core (entered_at (cls c) (final_data t) (cls c) (final_data t')) (tl_cfg t') (tl_rng t'))) (t :: ts).
Proof.
  intros D X Q cls b h c t ts Hc Ht. set (w := execs cls (start b) h).
  assert (Hw : wf w) by apply wf_execs, wf_start. assert (Em : empty w) by (apply empty_cleared, Hc).
  assert (J : cache_ok cls c (final_data t) (tl_cfg t) w) by (apply cache_ok_empty, Em). cbn [run_trials map].
  destruct (trial_setup cls c _ (tl_cfg t) w t Hw J) as (W1 & L1 & U1 & C1 & E1 & J1 & R1 & V1). set (w1 := execs cls w (trial_ops c (w_objs w) t)) in *.
  assert (S1 : same_but_start (cls c) (final_data t) (ob_data (w_obj w1 (w_objs w)))) by (rewrite E1; apply same_refl).
  destruct (Ht t (or_introl eq_refl)) as (T1 & T2 & T3).
  destruct (run_sound cls c (final_data t) (tl_cfg t) w1 (w_objs w) (tl_cfg t) (tl_rng t) W1 L1 C1 U1 S1 J1 (schedule_refl _)) as [A1 J2]; [congruence|].
  destruct (run_leaves cls w1 (w_objs w) (tl_cfg t) (tl_rng t) T2 T3) as ((fs & Ef) & (rf & Er) & _). rewrite C1 in Ef.
  rewrite A1, E1. f_equal.
  - unfold planned. rewrite T2. reflexivity.
  - cbn [exec]. rewrite (proj2 (Nat.ltb_lt _ _) L1). apply (borrowed_trials cls c (final_data t) (tl_cfg t) ts _ fs rf); auto.
    + apply (wf_run cls w1 (w_objs w)); auto.
    + intros t' Ht'. apply Ht. right. exact Ht'.
Qed.

(** C38, what is not true. A trial of another class after a trial of a first class, no cache clear in between: the
    commands are searched for with the vehicle and the world of the first trial; only the plan found is carried out and
    rewarded with the second one. *)
Lemma l_C38_other_class_searched_with_first : forall (D X Q : Type) (cls : string -> methods D X Q) (b : obj D X)
  (h : list op) (c1 c2 : string) (t1 t2 : ptrial D),
  cleared h = true -> c1 <> c2 -> same_schedule (tl_cfg t2) (tl_cfg t1) ->
  g_demo (tl_cfg t1) = false -> g_guid (tl_cfg t1) = false -> g_demo (tl_cfg t2) = false -> g_guid (tl_cfg t2) = false ->
  let w := execs cls (start b) h in
  let w' := execs cls w (trial_ops c1 (w_objs w) t1 ++ [Run (w_objs w) (tl_cfg t1) (tl_rng t1)]) in
  run_trials cls c2 w' [t2] = [Ok (crossed (cls c1) (final_data t1) (cls c2) (final_data t2) (tl_cfg t2) (tl_rng t2))].
Proof.
  intros D X Q cls b h c1 c2 t1 t2 Hc N Hs D1 G1 D2 G2 w w'.
  assert (Hw : wf w) by apply wf_execs, wf_start. assert (Em : empty w) by (apply empty_cleared, Hc).
  assert (J : cache_ok cls c1 (final_data t1) (tl_cfg t1) w) by (apply cache_ok_empty, Em).
  destruct (trial_setup cls c1 _ (tl_cfg t1) w t1 Hw J) as (W1 & L1 & U1 & C1 & E1 & J1 & R1 & V1). pose proof (env_setup cls w c1 t1) as N1.
  set (w1 := execs cls w (trial_ops c1 (w_objs w) t1)) in *.
  assert (S1 : same_but_start (cls c1) (final_data t1) (ob_data (w_obj w1 (w_objs w)))) by (rewrite E1; apply same_refl).
  destruct (run_sound cls c1 (final_data t1) (tl_cfg t1) w1 (w_objs w) (tl_cfg t1) (tl_rng t1) W1 L1 C1 U1 S1 J1 (schedule_refl _)) as [A1 J2]; [congruence|].
  destruct (run_leaves cls w1 (w_objs w) (tl_cfg t1) (tl_rng t1) D1 G1) as (_ & (rf & Er) & Ne). rewrite C1 in Ne.
  assert (Ew : w' = fst (run cls w1 (w_objs w) (tl_cfg t1) (tl_rng t1))).
  { unfold w'. rewrite execs_app. fold w1. cbn [execs fold_left exec]. rewrite (proj2 (Nat.ltb_lt _ _) L1). reflexivity. }
  assert (Hw' : wf w') by (rewrite Ew; apply (wf_run cls w1 (w_objs w)); auto).
  rewrite <- Ew in *. cbn [run_trials].
  destruct (trial_setup_any cls c1 c2 _ (tl_cfg t1) w' t2 Hw' J2) as (W3 & L3 & U3 & C3 & E3 & J3 & R3 & _).
  pose proof (env_setup cls w' c2 t2) as N3.
  set (w3 := execs cls w' (trial_ops c2 (w_objs w') t2)) in *.
  rewrite (run_crossed cls c1 (final_data t1) (tl_cfg t1) w3 (w_objs w') c2 (tl_cfg t2) (tl_rng t2) rf); auto; [rewrite E3; reflexivity| |congruence].
  rewrite N3, Ne by auto. rewrite N1. apply Em.
Qed.

(** C38 for TractorTrailer2d, what is not true: several trials without a cache clear in between, each environment with its
    own obstacles, goal, dimensions and weights: all are planned with those of the first, s. *)
Lemma l_C38_tt_later_worlds_ignored : forall proj guide (b : obj (tt_self * ttq) (list refrow)) (h : list op)
  (c : string) (s : tt_self) (t : ptrial (tt_self * ttq)) (ts : list (ptrial (tt_self * ttq))),
  let cls := fun _ : string => tt_methods proj guide in
  cleared h = true -> fst (final_data t) = s ->
  (forall t', In t' (t :: ts) -> same_schedule (tl_cfg t') (tl_cfg t) /\ g_demo (tl_cfg t') = false /\ g_guid (tl_cfg t') = false) ->
  run_trials cls c (execs cls (start b) h) (t :: ts) =
  map (fun t' => run_diffusion (tt_penv s (snd (final_data t')) (proj s) (guide s) (fun _ _ => 0) 0) (Some (tl_cfg t')) (tl_rng t')) (t :: ts).
Proof.
  intros proj guide b h c s t ts cls Hc <- Ht. rewrite (l_C38_later_trials_use_first_world _ _ _ cls b h c t ts Hc Ht).
  apply map_ext. intros t'. reflexivity.
Qed.

(** Two trials in different worlds: no obstacle first, then an obstacle on the way and another goal. *)
Lemma x_C38_two_worlds : forall rg,
  let g := mkCfg 0 1000 50 100 (1/100) (1/10000) (1/100) false 0 false in
  let s1 := mkTTSelf default_params [] [] (mkTT 5 0 0 0) in
  let s2 := mkTTSelf default_params [mkCircle 2 0 1] [] (mkTT 5 4 0 0) in
  let t1 := mkPTrial (s1, mkTT 0 0 0 0) [] g rg in
  let t2 := mkPTrial (s1, mkTT 0 0 0 0) [fun d => (s2, snd d); fun d => (fst d, mkTT (-1) 0 0 0)] g rg in
  (forall t', In t' [t1; t2] -> same_schedule (tl_cfg t') (tl_cfg t1) /\ g_demo (tl_cfg t') = false /\ g_guid (tl_cfg t') = false) /\
  final_data t1 = (s1, mkTT 0 0 0 0) /\ final_data t2 = (s2, mkTT (-1) 0 0 0) /\ ts_circ s1 <> ts_circ s2 /\
  cleared [New "TractorTrailer2d" (s2, mkTT 9 9 0 0); Run 0 g rg; Clear] = true /\ "TractorTrailer2d" <> "NTrailer2d".
Proof.
  intros rg g s1 s2 t1 t2. split.
  { intros t' [<-|[<-|[]]]; (split; [repeat split|split; reflexivity]). }
  split; [reflexivity|]. split; [reflexivity|]. split; [discriminate|]. split; [reflexivity|discriminate].
Qed.
