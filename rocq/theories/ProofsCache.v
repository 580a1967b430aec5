(** * ProofsCache: the JIT cache (C38). *)
From Coq Require Import String Lia Reals Lra.
From Verif Require Import Base BaseFacts Params Rollout Planner Cache SpecCache.
Local Open Scope string_scope.
Local Open Scope list_scope.
Open Scope R_scope.

Lemma upd_same {A} (f : nat -> A) k v : upd f k v k = v.
Proof. unfold upd. rewrite Nat.eqb_refl. reflexivity. Qed.
Lemma upd_other {A} (f : nat -> A) k v n : n <> k -> upd f k v n = f n.
Proof. intros H. unfold upd. rewrite (proj2 (Nat.eqb_neq n k) H). reflexivity. Qed.
Lemma upd_str_same {A} (f : string -> A) k v : upd_str f k v k = v.
Proof. unfold upd_str. rewrite String.eqb_refl. reflexivity. Qed.
Lemma upd_str_other {A} (f : string -> A) k v n : n <> k -> upd_str f k v n = f n.
Proof. intros H. unfold upd_str. rewrite (proj2 (String.eqb_neq n k) H). reflexivity. Qed.
Lemma key_eqb_true a b : key_eqb a b = true -> a = b.
Proof.
  destruct a as [[[[m1 t1] d1] n1] h1], b as [[[[m2 t2] d2] n2] h2]. cbn [key_eqb].
  rewrite !Bool.andb_true_iff. intros [[[[A B] C] E] F].
  apply Z.eqb_eq in A. apply Bool.eqb_prop in C. apply Nat.eqb_eq in E. apply Nat.eqb_eq in F.
  unfold Reqb in B. destruct (Req_EM_T t1 t2); [|discriminate]. subst. reflexivity.
Qed.
Lemma key_eqb_refl a : key_eqb a a = true.
Proof.
  destruct a as [[[[m t] d] n] h]. cbn [key_eqb]. rewrite Z.eqb_refl, Bool.eqb_reflx, !Nat.eqb_refl.
  unfold Reqb. destruct (Req_EM_T t t); [reflexivity | congruence].
Qed.
Lemma upd_key_same {A} (f : rkey -> A) k v : upd_key f k v k = v.
Proof. unfold upd_key. rewrite key_eqb_refl. reflexivity. Qed.
Lemma upd_key_cases {A} (f : rkey -> A) k v n : upd_key f k v n = v /\ n = k \/ upd_key f k v n = f n.
Proof.
  unfold upd_key. destruct (key_eqb n k) eqn:E; [left; split; [reflexivity | apply key_eqb_true; exact E] | right; reflexivity].
Qed.
Lemma upd_cases {A} (f : nat -> A) k v n : upd f k v n = v /\ n = k \/ upd f k v n = f n /\ n <> k.
Proof.
  unfold upd. destruct (Nat.eqb n k) eqn:E.
  - left. apply Nat.eqb_eq in E. auto.
  - right. apply Nat.eqb_neq in E. auto.
Qed.

Section Proofs.
Context {D X Q : Type}.
Variable cls : string -> methods D X Q.
Local Notation W := (world D X Q).
Implicit Types w : W.

(** Parts of the process a traced call does not change. *)
Definition same_core w w' : Prop :=
  w_objs w' = w_objs w /\ w_obj w' = w_obj w /\ w_fns w' = w_fns w /\ w_env w' = w_env w /\ w_rev w' = w_rev w.
Lemma core_refl w : same_core w w.
Proof. repeat split. Qed.
Lemma core_trans a b c : same_core a b -> same_core b c -> same_core a c.
Proof. intros (A1 & A2 & A3 & A4 & A5) (B1 & B2 & B3 & B4 & B5). repeat split; congruence. Qed.

Lemma core_reset w o : same_core w (fst (call_reset cls w o)).
Proof. unfold call_reset. destruct (m_jit_reset _); [destruct (t_reset w o)|]; repeat split. Qed.
Lemma core_reward w o : same_core w (fst (call_reward cls w o)).
Proof. unfold call_reward. destruct (t_reward w o); repeat split. Qed.
Lemma core_terminal w o : same_core w (fst (call_terminal cls w o)).
Proof. unfold call_terminal. destruct (t_terminal w o); repeat split. Qed.
Lemma core_step w o v : same_core w (fst (call_step cls w o v)).
Proof.
  unfold call_step. destruct (t_step w o v); [apply core_refl|].
  pose proof (core_reward w o) as H. destruct (call_reward cls w o) as [w1 f]. exact H.
Qed.
Lemma core_roll w fs H : same_core w (fst (call_roll cls w fs H)).
Proof.
  unfold call_roll. destruct (t_roll w (ef_id fs) H); [apply core_refl|].
  pose proof (core_step w (ef_obj fs) false) as A. destruct (call_step cls w (ef_obj fs) false) as [w1 f]. cbn [fst] in A.
  pose proof (core_terminal w1 (ef_obj fs)) as B. destruct (call_terminal cls w1 (ef_obj fs)) as [w2 tm]. cbn [fst] in B.
  exact (core_trans _ _ _ A B).
Qed.
Lemma core_rev w rf g : same_core w (fst (call_rev cls w rf g)).
Proof.
  unfold call_rev. destruct (t_rev w (rf_id rf) (key_of g)); [apply core_refl|].
  pose proof (core_roll w (rf_funcs rf) (g_Hsample g)) as A.
  destruct (call_roll cls w (rf_funcs rf) (g_Hsample g)) as [w1 r]. exact A.
Qed.

(** Traces made by a call: only for the object and function called; a trace is never replaced. *)
Definition untraced w (o : nat) : Prop :=
  t_reset w o = None /\ t_reward w o = None /\ t_terminal w o = None /\ forall v, t_step w o v = None.

Lemma untraced_reset w o e : e <> o -> untraced w e -> untraced (fst (call_reset cls w o)) e.
Proof.
  intros N (A & B & C & E). unfold call_reset. destruct (m_jit_reset _); [destruct (t_reset w o)|];
    try (repeat split; assumption). cbn [fst]. repeat split; cbn [t_reset t_reward t_terminal t_step]; auto.
  rewrite upd_other; auto.
Qed.
Lemma untraced_reward w o e : e <> o -> untraced w e -> untraced (fst (call_reward cls w o)) e.
Proof.
  intros N (A & B & C & E). unfold call_reward. destruct (t_reward w o); [repeat split; assumption|].
  cbn [fst]. repeat split; cbn [t_reset t_reward t_terminal t_step]; auto. rewrite upd_other; auto.
Qed.
Lemma untraced_terminal w o e : e <> o -> untraced w e -> untraced (fst (call_terminal cls w o)) e.
Proof.
  intros N (A & B & C & E). unfold call_terminal. destruct (t_terminal w o); [repeat split; assumption|].
  cbn [fst]. repeat split; cbn [t_reset t_reward t_terminal t_step]; auto. rewrite upd_other; auto.
Qed.
Lemma untraced_step w o v e : e <> o -> untraced w e -> untraced (fst (call_step cls w o v)) e.
Proof.
  intros N U. unfold call_step. destruct (t_step w o v); [exact U|].
  pose proof (untraced_reward w o e N U) as U1. destruct (call_reward cls w o) as [w1 f]. cbn [fst] in *.
  destruct U1 as (A & B & C & E). repeat split; cbn [t_reset t_reward t_terminal t_step]; auto.
  intros v'. rewrite upd_other; auto.
Qed.
Lemma untraced_roll w fs H e : e <> ef_obj fs -> untraced w e -> untraced (fst (call_roll cls w fs H)) e.
Proof.
  intros N U. unfold call_roll. destruct (t_roll w (ef_id fs) H); [exact U|].
  pose proof (untraced_step w (ef_obj fs) false e N U) as U1. destruct (call_step cls w (ef_obj fs) false) as [w1 f]. cbn [fst] in U1.
  pose proof (untraced_terminal w1 (ef_obj fs) e N U1) as U2. destruct (call_terminal cls w1 (ef_obj fs)) as [w2 tm]. cbn [fst] in *.
  exact U2.
Qed.
Lemma untraced_rev w rf g e : e <> ef_obj (rf_funcs rf) -> untraced w e -> untraced (fst (call_rev cls w rf g)) e.
Proof.
  intros N U. unfold call_rev. destruct (t_rev w (rf_id rf) (key_of g)); [exact U|].
  pose proof (untraced_roll w (rf_funcs rf) (g_Hsample g) e N U) as U1.
  destruct (call_roll cls w (rf_funcs rf) (g_Hsample g)) as [w1 r]. exact U1.
Qed.

(** Function identities not given out yet have no trace. *)
Definition new_fn w (n : nat) : Prop := (forall H, t_roll w n H = None) /\ forall k, t_rev w n k = None.
Lemma fn_reset w o n : new_fn w n -> new_fn (fst (call_reset cls w o)) n.
Proof. intros U. unfold call_reset. destruct (m_jit_reset _); [destruct (t_reset w o)|]; exact U. Qed.
Lemma fn_reward w o n : new_fn w n -> new_fn (fst (call_reward cls w o)) n.
Proof. intros U. unfold call_reward. destruct (t_reward w o); exact U. Qed.
Lemma fn_terminal w o n : new_fn w n -> new_fn (fst (call_terminal cls w o)) n.
Proof. intros U. unfold call_terminal. destruct (t_terminal w o); exact U. Qed.
Lemma fn_step w o v n : new_fn w n -> new_fn (fst (call_step cls w o v)) n.
Proof.
  intros U. unfold call_step. destruct (t_step w o v); [exact U|].
  pose proof (fn_reward w o n U) as U1. destruct (call_reward cls w o) as [w1 f]. exact U1.
Qed.
Lemma fn_roll w fs H n : n <> ef_id fs -> new_fn w n -> new_fn (fst (call_roll cls w fs H)) n.
Proof.
  intros N U. unfold call_roll. destruct (t_roll w (ef_id fs) H); [exact U|].
  pose proof (fn_step w (ef_obj fs) false n U) as U1. destruct (call_step cls w (ef_obj fs) false) as [w1 f]. cbn [fst] in U1.
  pose proof (fn_terminal w1 (ef_obj fs) n U1) as U2. destruct (call_terminal cls w1 (ef_obj fs)) as [w2 tm]. cbn [fst] in *.
  destruct U2 as [A B]. split; cbn [t_roll t_rev]; auto. intros H'. rewrite upd_other; auto.
Qed.
Lemma fn_rev w rf g n : n <> rf_id rf -> n <> ef_id (rf_funcs rf) -> new_fn w n -> new_fn (fst (call_rev cls w rf g)) n.
Proof.
  intros N1 N2 U. unfold call_rev. destruct (t_rev w (rf_id rf) (key_of g)); [exact U|].
  pose proof (fn_roll w (rf_funcs rf) (g_Hsample g) n N2 U) as U1.
  destruct (call_roll cls w (rf_funcs rf) (g_Hsample g)) as [w1 r]. destruct U1 as [A B].
  split; cbn [fst t_roll t_rev] in *; auto. intros k. rewrite upd_other; auto.
Qed.

(** Well-formed processes: what every history leaves behind. *)
Definition fs_ok w (fs : env_funcs) : Prop := (ef_id fs < w_fns w)%nat /\ (ef_obj fs < w_objs w)%nat.
Definition rf_ok w (rf : rev_func) : Prop :=
  (rf_id rf < w_fns w)%nat /\ (rf_obj rf < w_objs w)%nat /\ fs_ok w (rf_funcs rf).
Definition wf w : Prop :=
  (forall n, (w_fns w <= n)%nat -> new_fn w n) /\
  (forall o, (w_objs w <= o)%nat -> untraced w o) /\
  (forall c fs, w_env w c = Some fs -> fs_ok w fs) /\
  (forall rf, w_rev w = Some rf -> rf_ok w rf).

Lemma wf_core w w' : same_core w w' -> wf w ->
  (forall n, (w_fns w <= n)%nat -> new_fn w' n) -> (forall o, (w_objs w <= o)%nat -> untraced w' o) -> wf w'.
Proof.
  intros (A1 & A2 & A3 & A4 & A5) (B1 & B2 & B3 & B4) F U.
  unfold wf, rf_ok, fs_ok in *. rewrite A1, A3, A4, A5. repeat split; auto; try apply F; try apply U; auto;
    try (eapply B3; eassumption); try (eapply B4; eassumption).
Qed.
Lemma wf_call_reset w o : (o < w_objs w)%nat -> wf w -> wf (fst (call_reset cls w o)).
Proof.
  intros L H. apply (wf_core w); auto using core_reset.
  - intros n Hn. apply fn_reset, H; auto.
  - intros e He. apply untraced_reset; [lia | apply H; auto].
Qed.
Lemma wf_call_reward w o : (o < w_objs w)%nat -> wf w -> wf (fst (call_reward cls w o)).
Proof.
  intros L H. apply (wf_core w); auto using core_reward.
  - intros n Hn. apply fn_reward, H; auto.
  - intros e He. apply untraced_reward; [lia | apply H; auto].
Qed.
Lemma wf_call_terminal w o : (o < w_objs w)%nat -> wf w -> wf (fst (call_terminal cls w o)).
Proof.
  intros L H. apply (wf_core w); auto using core_terminal.
  - intros n Hn. apply fn_terminal, H; auto.
  - intros e He. apply untraced_terminal; [lia | apply H; auto].
Qed.
Lemma wf_call_step w o v : (o < w_objs w)%nat -> wf w -> wf (fst (call_step cls w o v)).
Proof.
  intros L H. apply (wf_core w); auto using core_step.
  - intros n Hn. apply fn_step, H; auto.
  - intros e He. apply untraced_step; [lia | apply H; auto].
Qed.
Lemma wf_call_roll w fs H : fs_ok w fs -> wf w -> wf (fst (call_roll cls w fs H)).
Proof.
  intros [L1 L2] Hw. apply (wf_core w); auto using core_roll.
  - intros n Hn. apply fn_roll; [lia | apply Hw; auto].
  - intros e He. apply untraced_roll; [lia | apply Hw; auto].
Qed.
Lemma wf_call_rev w rf g : rf_ok w rf -> wf w -> wf (fst (call_rev cls w rf g)).
Proof.
  intros (L1 & L2 & L3 & L4) Hw. apply (wf_core w); auto using core_rev.
  - intros n Hn. apply fn_rev; [lia | lia | apply Hw; auto].
  - intros e He. apply untraced_rev; [lia | apply Hw; auto].
Qed.
Lemma wf_put w o b : wf w -> wf (put_obj w o b).
Proof. intros H. exact H. Qed.
Lemma wf_clear w : wf w -> wf (clear_cache w).
Proof.
  intros (A & B & C & E). split; [exact A | split; [exact B | split]]; cbn [clear_cache w_env w_rev]; intros; discriminate.
Qed.
Lemma wf_demo w o g : (o < w_objs w)%nat -> wf w -> wf (fst (prepare_demo cls w o g)).
Proof.
  intros L H. unfold prepare_demo. destruct (g_demo g); [|exact H].
  destruct (m_gen _ _ _); [|exact H].
  pose proof (wf_call_reward w o L H) as H1. pose proof (core_reward w o) as C1.
  destruct (call_reward cls w o) as [w1 f]. cbn [fst] in *.
  pose proof (wf_call_terminal w1 o) as H2. destruct C1 as (C1 & _). rewrite C1 in H2. specialize (H2 L H1).
  destruct (call_terminal cls w1 o) as [w2 tm]. cbn [fst] in *. apply wf_put, H2.
Qed.
Lemma wf_funcs w o : (o < w_objs w)%nat -> wf w ->
  wf (fst (get_funcs w o)) /\ fs_ok (fst (get_funcs w o)) (snd (get_funcs w o)) /\
  w_objs (fst (get_funcs w o)) = w_objs w /\ w_obj (fst (get_funcs w o)) = w_obj w.
Proof.
  intros L (A & B & C & E). unfold get_funcs. destruct (w_env w (ob_class (w_obj w o))) as [fs|] eqn:Ew; cbn [fst snd].
  - split; [repeat split; auto; try (apply A; auto); try (apply B; auto); try (eapply C; eassumption); try (eapply E; eassumption)|].
    split; [eapply C; eassumption | auto].
  - split; [|split; [split; cbn; lia | auto]].
    split; [|split; [|split]]; cbn [w_fns w_objs w_env w_rev].
    + intros n Hn. apply A. lia.
    + exact B.
    + intros c fs. destruct (String.eqb_spec c (ob_class (w_obj w o))) as [->|N].
      * rewrite upd_str_same. intros [= <-]. split; cbn; lia.
      * rewrite upd_str_other by auto. intros Hf. destruct (C _ _ Hf). split; cbn; lia.
    + intros rf Hf. destruct (E _ Hf) as (E1 & E2 & E3 & E4). repeat split; cbn; lia.
Qed.
Lemma wf_get_rev w o g fs : (o < w_objs w)%nat -> fs_ok w fs -> wf w ->
  wf (fst (get_rev w o g fs)) /\ rf_ok (fst (get_rev w o g fs)) (snd (get_rev w o g fs)) /\
  fs_ok (fst (get_rev w o g fs)) fs /\
  w_objs (fst (get_rev w o g fs)) = w_objs w /\ w_obj (fst (get_rev w o g fs)) = w_obj w.
Proof.
  intros L [F1 F2] Hw. pose proof Hw as (A & B & C & E). unfold get_rev. destruct (w_rev w) as [rf|] eqn:Ew; cbn [fst snd].
  - split; [exact Hw|]. split; [apply E; reflexivity|]. split; [split; lia | auto].
  - split; [|split; [repeat split; cbn; lia | split; [split; cbn; lia | auto]]].
    split; [|split; [|split]]; cbn [w_fns w_objs w_env w_rev].
    + intros n Hn. apply A. lia.
    + exact B.
    + intros c f Hf. destruct (C _ _ Hf). split; cbn; lia.
    + intros rf [= <-]. repeat split; cbn; lia.
Qed.

(** The part of run after the demonstration, in one piece. *)
Lemma run_inv w o g rg :
  let '(w1, demo) := prepare_demo cls w o g in
  match demo with
  | Err e => run cls w o g rg = (w1, Err e)
  | Ok _ =>
      exists w2 fs w3 st0 w4 rf w5 rev Ybars Yfin w6 roll w7 step w8 un w9 roll',
        get_funcs w1 o = (w2, fs) /\ call_reset cls w2 o = (w3, st0) /\ get_rev w3 o g fs = (w4, rf) /\
        call_rev cls w4 rf g = (w5, rev) /\
        cached_loop (cached_once rev st0 (rf_cfg rf)) (rr_key rev) rg (diffusion_indices g)
          (fst (prng_split rg (fst (prng_split rg (prng_key rg (g_seed g)))))) (YN g) = (Ybars, Yfin) /\
        call_roll cls w5 fs (g_Hsample g) = (w6, roll) /\
        (if g_guid g then call_step cls w6 o true else call_step cls w6 (ef_obj fs) false) = (w7, step) /\
        (if g_guid g then
           let wc := clear_cache w7 in
           let b := w_obj wc o in
           let wu := put_obj wc o (mkObj (ob_class b) (m_unguided (meth cls wc o) (ob_data b)) (ob_ref b) (ob_rx b)) in
           let '(wu', ustep) := call_step cls wu o false in
           (put_obj wu' o b, Some (trajectory_states ustep st0 (snd (roll_with roll st0 Yfin))))
         else (w7, None)) = (w8, un) /\
        call_roll cls w8 fs (g_Hsample g) = (w9, roll') /\
        run cls w o g rg =
          (w9, Ok (mkOut (mkResult (fst (fst (roll_with roll' st0 (snd (roll_with roll st0 Yfin)))))
                           (snd (roll_with roll st0 Yfin))
                           (trajectory_states step st0 (snd (roll_with roll st0 Yfin))) Ybars) un))
  end.
Proof.
  unfold run. destruct (prepare_demo cls w o g) as [w1 demo]. destruct demo as [[]|e]; [|reflexivity].
  destruct (get_funcs w1 o) as [w2 fs] eqn:E2. destruct (call_reset cls w2 o) as [w3 st0] eqn:E3.
  destruct (get_rev w3 o g fs) as [w4 rf] eqn:E4. destruct (call_rev cls w4 rf g) as [w5 rev] eqn:E5.
  destruct (cached_loop (cached_once rev st0 (rf_cfg rf)) _ _ _ _ _) as [Ybars Yfin] eqn:EL.
  destruct (call_roll cls w5 fs (g_Hsample g)) as [w6 roll] eqn:E6.
  destruct (if g_guid g then call_step cls w6 o true else call_step cls w6 (ef_obj fs) false) as [w7 step] eqn:E7.
  match goal with |- context [let '(_, _) := (if g_guid g then ?a else ?b) in _] => destruct (if g_guid g then a else b) as [w8 un] eqn:E8 end.
  destruct (call_roll cls w8 fs (g_Hsample g)) as [w9 roll'] eqn:E9.
  exists w2, fs, w3, st0, w4, rf, w5, rev, Ybars, Yfin, w6, roll, w7, step, w8, un, w9, roll'.
  split; [reflexivity|]. do 8 (split; [assumption|]). reflexivity.
Qed.

Lemma fs_ok_core w w' fs : same_core w w' -> fs_ok w fs -> fs_ok w' fs.
Proof. intros (A & _ & B & _) [C E]. split; lia. Qed.
Lemma demo_objs w o g : w_objs (fst (prepare_demo cls w o g)) = w_objs w.
Proof.
  unfold prepare_demo. destruct (g_demo g); [|reflexivity]. destruct (m_gen _ _ _); [|reflexivity].
  pose proof (core_reward w o) as C1. destruct (call_reward cls w o) as [w1 f]. cbn [fst] in *.
  pose proof (core_terminal w1 o) as C2. destruct (call_terminal cls w1 o) as [w2 tm]. cbn [fst] in *.
  cbn [put_obj w_objs]. destruct C1 as [C1 _], C2 as [C2 _]. congruence.
Qed.

Lemma wf_run w o g rg : (o < w_objs w)%nat -> wf w -> wf (fst (run cls w o g rg)) /\ w_objs (fst (run cls w o g rg)) = w_objs w.
Proof.
  intros L Hw. pose proof (run_inv w o g rg) as I. pose proof (wf_demo w o g L Hw) as H1. pose proof (demo_objs w o g) as O1.
  destruct (prepare_demo cls w o g) as [w1 [u|e]]; cbn [fst] in *; [|rewrite I; auto].
  destruct I as (w2 & fs & w3 & st0 & w4 & rf & w5 & rev & Ybars & Yfin & w6 & roll & w7 & step & w8 & un & w9 & roll' &
    E2 & E3 & E4 & E5 & EL & E6 & E7 & E8 & E9 & ER). rewrite ER. cbn [fst]. clear ER EL.
  assert (L1 : (o < w_objs w1)%nat) by lia.
  destruct (wf_funcs w1 o L1 H1) as (H2 & F2 & O2 & B2). rewrite E2 in *. cbn [fst snd] in *.
  assert (L2 : (o < w_objs w2)%nat) by lia.
  pose proof (wf_call_reset w2 o L2 H2) as H3. pose proof (core_reset w2 o) as C3. rewrite E3 in *. cbn [fst] in *.
  pose proof (fs_ok_core _ _ _ C3 F2) as F3.
  assert (L3 : (o < w_objs w3)%nat) by (destruct C3; lia).
  destruct (wf_get_rev w3 o g fs L3 F3 H3) as (H4 & R4 & F4 & O4 & B4). rewrite E4 in *. cbn [fst snd] in *.
  pose proof (wf_call_rev w4 rf g R4 H4) as H5. pose proof (core_rev w4 rf g) as C5. rewrite E5 in *. cbn [fst] in *.
  pose proof (fs_ok_core _ _ _ C5 F4) as F5.
  pose proof (wf_call_roll w5 fs (g_Hsample g) F5 H5) as H6. pose proof (core_roll w5 fs (g_Hsample g)) as C6. rewrite E6 in *. cbn [fst] in *.
  pose proof (fs_ok_core _ _ _ C6 F5) as F6.
  assert (O6 : w_objs w6 = w_objs w) by (destruct C3, C5, C6; lia).
  assert (H7 : wf w7 /\ same_core w6 w7).
  { destruct (g_guid g).
    - pose proof (wf_call_step w6 o true) as A. pose proof (core_step w6 o true) as B. rewrite E7 in *. split; [apply A; [lia | auto] | exact B].
    - pose proof (wf_call_step w6 (ef_obj fs) false) as A. pose proof (core_step w6 (ef_obj fs) false) as B.
      rewrite E7 in *. split; [apply A; [apply F6 | auto] | exact B]. }
  destruct H7 as [H7 C7]. pose proof (fs_ok_core _ _ _ C7 F6) as F7.
  assert (O7 : w_objs w7 = w_objs w) by (destruct C7; lia).
  assert (H8 : wf w8 /\ w_objs w8 = w_objs w /\ w_fns w8 = w_fns w7).
  { destruct (g_guid g); [|injection E8 as <- <-; auto].
    cbv zeta in E8.
    match type of E8 with context [call_step cls ?x o false] =>
      pose proof (wf_call_step x o false) as A; pose proof (core_step x o false) as B; destruct (call_step cls x o false) as [wu' us] end.
    injection E8 as <- <-. cbn [fst] in *. cbn [put_obj clear_cache w_objs w_fns] in A, B |- *.
    split; [|destruct B as (B1 & B2' & B3' & _); cbn in B1, B3'; split; congruence].
    apply wf_put. apply A; [lia|]. apply (wf_put (clear_cache w7)), wf_clear, H7. }
  destruct H8 as (H8 & O8 & N8).
  assert (F8 : fs_ok w8 fs) by (destruct F7; split; lia).
  pose proof (wf_call_roll w8 fs (g_Hsample g) F8 H8) as H9. pose proof (core_roll w8 fs (g_Hsample g)) as C9. rewrite E9 in *. cbn [fst] in *.
  split; [exact H9 | destruct C9; lia].
Qed.

Lemma wf_exec w a : wf w -> wf (exec cls w a).
Proof.
  intros Hw. destruct a; cbn [exec]; try (destruct (Nat.ltb_spec o (w_objs w)) as [L|L]; [|exact Hw]).
  - destruct Hw as (A & B & C & E). split; [|split; [|split]]; cbn [w_fns w_objs w_env w_rev put_obj].
    + exact A.
    + intros o Ho. apply B. lia.
    + intros c' fs Hf. destruct (C _ _ Hf). split; cbn; lia.
    + intros rf Hf. destruct (E _ Hf) as (E1 & E2 & E3 & E4). repeat split; cbn; lia.
  - apply wf_put, Hw.
  - apply wf_clear, Hw.
  - apply wf_run; auto.
  - apply wf_call_reset; auto.
  - apply wf_call_reward; auto.
  - apply wf_call_terminal; auto.
  - apply wf_call_step; auto.
Qed.
Lemma wf_execs w h : wf w -> wf (execs cls w h).
Proof. revert w. induction h as [|a h IH]; intros w Hw; [exact Hw|]. apply IH, wf_exec, Hw. Qed.
Lemma wf_start b : wf (start b : W).
Proof. repeat split; cbn; intros; discriminate. Qed.

(** Object [o] was never used: nothing is traced for it and nothing cached refers to it. *)
Definition quiet w (o : nat) : Prop :=
  untraced w o /\ (forall c fs, w_env w c = Some fs -> ef_obj fs <> o) /\
  (forall rf, w_rev w = Some rf -> rf_obj rf <> o /\ ef_obj (rf_funcs rf) <> o).
Lemma quiet_core w w' o : same_core w w' -> quiet w o -> untraced w' o -> quiet w' o.
Proof. intros (_ & _ & _ & A & B) (_ & C & E) U. unfold quiet. rewrite A, B. auto. Qed.
Lemma quiet_clear w o : quiet w o -> quiet (clear_cache w) o.
Proof. intros (A & B & C). split; [exact A|]. split; cbn [clear_cache w_env w_rev]; intros; discriminate. Qed.

Lemma quiet_run w o g rg e : e <> o -> quiet w e -> quiet (fst (run cls w o g rg)) e.
Proof.
  intros N Hq. pose proof (run_inv w o g rg) as I.
  assert (Q1 : quiet (fst (prepare_demo cls w o g)) e).
  { unfold prepare_demo. destruct (g_demo g); [|exact Hq]. destruct (m_gen _ _ _); [|exact Hq].
    pose proof (untraced_reward w o e N (proj1 Hq)) as U1. pose proof (core_reward w o) as C1.
    destruct (call_reward cls w o) as [w1 f]. cbn [fst] in *.
    pose proof (untraced_terminal w1 o e N U1) as U2. pose proof (core_terminal w1 o) as C2.
    destruct (call_terminal cls w1 o) as [w2 tm]. cbn [fst] in *.
    exact (quiet_core _ _ _ (core_trans _ _ _ C1 C2) Hq U2). }
  destruct (prepare_demo cls w o g) as [w1 [u|x]]; cbn [fst] in *; [|rewrite I; auto].
  destruct I as (w2 & fs & w3 & st0 & w4 & rf & w5 & rev & Ybars & Yfin & w6 & roll & w7 & step & w8 & un & w9 & roll' &
    E2 & E3 & E4 & E5 & EL & E6 & E7 & E8 & E9 & ER). rewrite ER. cbn [fst]. clear ER EL Hq.
  assert (Q2 : quiet w2 e /\ ef_obj fs <> e).
  { unfold get_funcs in E2. destruct (w_env w1 (ob_class (w_obj w1 o))) as [f|] eqn:Ef.
    - injection E2 as <- <-. split; [auto | eapply Q1; eassumption].
    - injection E2 as <- <-. split; [|cbn; auto]. destruct Q1 as (A & B & C). split; [exact A|]. split; [|exact C].
      cbn [w_env]. intros c f. destruct (String.eqb_spec c (ob_class (w_obj w1 o))) as [->|Nc].
      + rewrite upd_str_same. intros [= <-]. cbn. auto.
      + rewrite upd_str_other by auto. apply B. }
  destruct Q2 as [Q2 Nf].
  assert (Q3 : quiet w3 e).
  { pose proof (untraced_reset w2 o e N (proj1 Q2)) as U. pose proof (core_reset w2 o) as C. rewrite E3 in *. exact (quiet_core _ _ _ C Q2 U). }
  assert (Q4 : quiet w4 e /\ ef_obj (rf_funcs rf) <> e).
  { unfold get_rev in E4. destruct (w_rev w3) as [r|] eqn:Er.
    - injection E4 as <- <-. split; [auto | eapply Q3; eassumption].
    - injection E4 as <- <-. split; [|cbn; auto]. destruct Q3 as (A & B & C). split; [exact A|]. split; [exact B|].
      cbn [w_rev]. intros r [= <-]. cbn. auto. }
  destruct Q4 as [Q4 Nr].
  assert (Q5 : quiet w5 e).
  { pose proof (untraced_rev w4 rf g e (fun H => Nr (eq_sym H)) (proj1 Q4)) as U. pose proof (core_rev w4 rf g) as C. rewrite E5 in *. exact (quiet_core _ _ _ C Q4 U). }
  assert (Q6 : quiet w6 e).
  { pose proof (untraced_roll w5 fs (g_Hsample g) e (fun H => Nf (eq_sym H)) (proj1 Q5)) as U. pose proof (core_roll w5 fs (g_Hsample g)) as C. rewrite E6 in *. exact (quiet_core _ _ _ C Q5 U). }
  assert (Q7 : quiet w7 e).
  { destruct (g_guid g).
    - pose proof (untraced_step w6 o true e N (proj1 Q6)) as U. pose proof (core_step w6 o true) as C. rewrite E7 in *. exact (quiet_core _ _ _ C Q6 U).
    - pose proof (untraced_step w6 (ef_obj fs) false e (fun H => Nf (eq_sym H)) (proj1 Q6)) as U. pose proof (core_step w6 (ef_obj fs) false) as C.
      rewrite E7 in *. exact (quiet_core _ _ _ C Q6 U). }
  assert (Q8 : quiet w8 e).
  { destruct (g_guid g); [|injection E8 as <- <-; auto]. cbv zeta in E8.
    match type of E8 with context [call_step cls ?x o false] =>
      pose proof (untraced_step x o false e N (proj1 (quiet_clear _ _ Q7))) as U; pose proof (core_step x o false) as C;
      destruct (call_step cls x o false) as [wu' us] end.
    injection E8 as <- <-. destruct (quiet_clear _ _ Q7) as (_ & A & B). destruct C as (_ & _ & _ & C1 & C2). cbn [fst] in *.
    split; [exact U|]. cbn [put_obj w_env w_rev]. rewrite C1, C2. split; [exact A | exact B]. }
  pose proof (untraced_roll w8 fs (g_Hsample g) e (fun H => Nf (eq_sym H)) (proj1 Q8)) as U. pose proof (core_roll w8 fs (g_Hsample g)) as C.
  rewrite E9 in *. exact (quiet_core _ _ _ C Q8 U).
Qed.

Lemma quiet_exec w a e : (e < w_objs w)%nat -> leaves_alone e a -> wf w -> quiet w e -> quiet (exec cls w a) e.
Proof.
  intros Le LA Hw Hq. destruct a; cbn [exec leaves_alone] in *; try (destruct (Nat.ltb_spec o (w_objs w)) as [L|L]; [|exact Hq]).
  - exact Hq.
  - exact Hq.
  - apply quiet_clear, Hq.
  - apply quiet_run; auto.
  - apply (quiet_core w); auto using core_reset. apply untraced_reset; [auto | apply Hq].
  - apply (quiet_core w); auto using core_reward. apply untraced_reward; [auto | apply Hq].
  - apply (quiet_core w); auto using core_terminal. apply untraced_terminal; [auto | apply Hq].
  - apply (quiet_core w); auto using core_step. apply untraced_step; [auto | apply Hq].
Qed.
Lemma exec_objs w a : wf w -> (w_objs w <= w_objs (exec cls w a))%nat.
Proof.
  intros Hw. destruct a; cbn [exec]; try (destruct (Nat.ltb_spec o (w_objs w)) as [L|L]; [|lia]).
  - cbn. lia.
  - cbn. lia.
  - cbn. lia.
  - destruct (wf_run w o g rg L Hw) as [_ E]. lia.
  - destruct (core_reset w o). lia.
  - destruct (core_reward w o). lia.
  - destruct (core_terminal w o). lia.
  - destruct (core_step w o viz). lia.
Qed.

(** Attributes of an object change only by [Change] on it; its demonstration only by running it. *)
Lemma data_run w o g rg e : ob_class (w_obj (fst (run cls w o g rg)) e) = ob_class (w_obj w e) /\
  ob_data (w_obj (fst (run cls w o g rg)) e) = ob_data (w_obj w e) /\
  (e <> o -> w_obj (fst (run cls w o g rg)) e = w_obj w e).
Proof.
  pose proof (run_inv w o g rg) as I.
  assert (P1 : ob_class (w_obj (fst (prepare_demo cls w o g)) e) = ob_class (w_obj w e) /\
    ob_data (w_obj (fst (prepare_demo cls w o g)) e) = ob_data (w_obj w e) /\
    (e <> o -> w_obj (fst (prepare_demo cls w o g)) e = w_obj w e)).
  { unfold prepare_demo. destruct (g_demo g); [|auto]. destruct (m_gen _ _ _); [|auto].
    pose proof (core_reward w o) as C1. destruct (call_reward cls w o) as [w1 f]. cbn [fst] in *.
    pose proof (core_terminal w1 o) as C2. destruct (call_terminal cls w1 o) as [w2 tm]. cbn [fst] in *.
    destruct C1 as (_ & C1 & _), C2 as (_ & C2 & _). cbn [put_obj w_obj]. unfold data. rewrite C2, C1.
    destruct (Nat.eq_dec e o) as [->|N].
    - rewrite upd_same. cbn [ob_class ob_data]. repeat split; auto. intros H; exfalso; auto.
    - rewrite upd_other by auto. auto. }
  destruct (prepare_demo cls w o g) as [w1 [u|x]]; cbn [fst] in *; [|rewrite I; auto].
  destruct I as (w2 & fs & w3 & st0 & w4 & rf & w5 & rev & Ybars & Yfin & w6 & roll & w7 & step & w8 & un & w9 & roll' &
    E2 & E3 & E4 & E5 & EL & E6 & E7 & E8 & E9 & ER). rewrite ER. cbn [fst]. clear ER EL.
  assert (S : w_obj w9 e = w_obj w1 e).
  { assert (S2 : w_obj w2 = w_obj w1).
    { unfold get_funcs in E2. destruct (w_env w1 _); injection E2 as <- <-; reflexivity. }
    pose proof (core_reset w2 o) as C3. rewrite E3 in C3. destruct C3 as (_ & C3 & _).
    assert (S4 : w_obj w4 = w_obj w3).
    { unfold get_rev in E4. destruct (w_rev w3); injection E4 as <- <-; reflexivity. }
    pose proof (core_rev w4 rf g) as C5. rewrite E5 in C5. destruct C5 as (_ & C5 & _).
    pose proof (core_roll w5 fs (g_Hsample g)) as C6. rewrite E6 in C6. destruct C6 as (_ & C6 & _).
    assert (C7 : w_obj w7 = w_obj w6).
    { destruct (g_guid g).
      - pose proof (core_step w6 o true) as C. rewrite E7 in C. apply C.
      - pose proof (core_step w6 (ef_obj fs) false) as C. rewrite E7 in C. apply C. }
    assert (C8 : w_obj w8 e = w_obj w7 e).
    { destruct (g_guid g); [|injection E8 as <- <-; auto]. cbv zeta in E8.
      match type of E8 with context [call_step cls ?x o false] => pose proof (core_step x o false) as C; destruct (call_step cls x o false) as [wu' us] end.
      injection E8 as <- <-. destruct C as (_ & C & _). cbn [fst put_obj w_obj clear_cache] in *.
      destruct (Nat.eq_dec e o) as [->|N]; [rewrite upd_same; reflexivity | rewrite upd_other by auto; rewrite C, upd_other by auto; reflexivity]. }
    pose proof (core_roll w8 fs (g_Hsample g)) as C9. rewrite E9 in C9. destruct C9 as (_ & C9 & _). cbn [fst] in *.
    rewrite C9, C8, C7, C6, C5, S4, C3, S2. reflexivity. }
  rewrite S. exact P1.
Qed.
Lemma class_exec w a e : (e < w_objs w)%nat -> ob_class (w_obj (exec cls w a) e) = ob_class (w_obj w e).
Proof.
  intros Le. destruct a; cbn [exec]; try (destruct (Nat.ltb_spec o (w_objs w)) as [L|L]; [|reflexivity]).
  - cbn [put_obj w_obj w_objs]. rewrite upd_other by lia. reflexivity.
  - cbn [put_obj w_obj]. destruct (Nat.eq_dec e o) as [->|N]; [rewrite upd_same | rewrite upd_other by auto]; reflexivity.
  - reflexivity.
  - apply data_run.
  - destruct (core_reset w o) as (_ & E & _). rewrite E. reflexivity.
  - destruct (core_reward w o) as (_ & E & _). rewrite E. reflexivity.
  - destruct (core_terminal w o) as (_ & E & _). rewrite E. reflexivity.
  - destruct (core_step w o viz) as (_ & E & _). rewrite E. reflexivity.
Qed.
Lemma obj_exec w a e : (e < w_objs w)%nat -> leaves_alone e a ->
  w_obj (exec cls w a) e =
  mkObj (ob_class (w_obj w e)) (changed e [a] (ob_data (w_obj w e))) (ob_ref (w_obj w e)) (ob_rx (w_obj w e)).
Proof.
  intros Le LA. assert (T : forall b : obj D X, b = mkObj (ob_class b) (ob_data b) (ob_ref b) (ob_rx b)) by (intros []; reflexivity).
  destruct a; cbn [exec leaves_alone changed] in *; try (destruct (Nat.ltb_spec o (w_objs w)) as [L|L]; [|try apply T]).
  - cbn [put_obj w_obj w_objs]. rewrite upd_other by lia. apply T.
  - cbn [put_obj w_obj]. destruct (Nat.eqb_spec o e) as [->|N].
    + rewrite upd_same. reflexivity.
    + rewrite upd_other by auto. apply T.
  - destruct (Nat.eqb_spec o e); [lia | apply T].
  - apply T.
  - rewrite (proj2 (proj2 (data_run w o g rg e))) by auto. apply T.
  - destruct (core_reset w o) as (_ & E & _). rewrite E. apply T.
  - destruct (core_reward w o) as (_ & E & _). rewrite E. apply T.
  - destruct (core_terminal w o) as (_ & E & _). rewrite E. apply T.
  - destruct (core_step w o viz) as (_ & E & _). rewrite E. apply T.
Qed.
Lemma changed_app o h1 h2 (d : D) : changed o (h1 ++ h2) d = changed o h2 (changed o h1 d).
Proof. revert d. induction h1 as [|a h IH]; intros d; [reflexivity|]. destruct a; cbn [app changed]; apply IH. Qed.
Lemma execs_app w h1 h2 : execs cls w (h1 ++ h2) = execs cls (execs cls w h1) h2.
Proof. unfold execs. apply fold_left_app. Qed.
Lemma quiet_execs h : forall w e, (e < w_objs w)%nat -> Forall (leaves_alone e) h -> wf w -> quiet w e ->
  quiet (execs cls w h) e /\ (e < w_objs (execs cls w h))%nat /\
  w_obj (execs cls w h) e = mkObj (ob_class (w_obj w e)) (changed e h (ob_data (w_obj w e))) (ob_ref (w_obj w e)) (ob_rx (w_obj w e)).
Proof.
  induction h as [|a h IH]; intros w e Le LA Hw Hq.
  - cbn. split; [exact Hq|]. split; [exact Le|]. destruct (w_obj w e); reflexivity.
  - apply Forall_cons_iff in LA. destruct LA as [LA LH].
    pose proof (exec_objs w a Hw). cbn [execs fold_left].
    destruct (IH (exec cls w a) e) as (A & B & C); auto; try lia; try (apply wf_exec; auto); try (apply quiet_exec; auto).
    split; [exact A | split; [exact B|]]. unfold execs in C |- *. rewrite C. rewrite (obj_exec w a e Le LA). cbn [ob_class ob_data ob_ref ob_rx].
    f_equal. change (a :: h) with ([a] ++ h). rewrite changed_app. reflexivity.
Qed.

(** Traces are never replaced. *)
Definition grows w w' : Prop :=
  (forall e v, t_reset w e = Some v -> t_reset w' e = Some v) /\
  (forall e v, t_reward w e = Some v -> t_reward w' e = Some v) /\
  (forall e v, t_terminal w e = Some v -> t_terminal w' e = Some v) /\
  (forall e b v, t_step w e b = Some v -> t_step w' e b = Some v) /\
  (forall n H v, t_roll w n H = Some v -> t_roll w' n H = Some v) /\
  (forall n q v, t_rev w n q = Some v -> t_rev w' n q = Some v).
Lemma grows_refl w : grows w w.
Proof. repeat split; auto. Qed.
Lemma grows_trans a b e : grows a b -> grows b e -> grows a e.
Proof. intros (A1 & A2 & A3 & A4 & A5 & A6) (B1 & B2 & B3 & B4 & B5 & B6). repeat split; auto. Qed.
Lemma grows_same w w' : t_reset w' = t_reset w -> t_reward w' = t_reward w -> t_terminal w' = t_terminal w ->
  t_step w' = t_step w -> t_roll w' = t_roll w -> t_rev w' = t_rev w -> grows w w'.
Proof. intros A B C E F G. unfold grows. rewrite A, B, C, E, F, G. apply grows_refl. Qed.
Lemma grows_reset w o : grows w (fst (call_reset cls w o)).
Proof.
  unfold call_reset. destruct (m_jit_reset _); [destruct (t_reset w o) eqn:Er|]; try apply grows_refl.
  repeat split; auto. cbn [fst t_reset]. intros e v Hv. rewrite upd_other by congruence. exact Hv.
Qed.
Lemma grows_reward w o : grows w (fst (call_reward cls w o)).
Proof.
  unfold call_reward. destruct (t_reward w o) eqn:Er; [apply grows_refl|].
  repeat split; auto. cbn [fst t_reward]. intros e v Hv. rewrite upd_other by congruence. exact Hv.
Qed.
Lemma grows_terminal w o : grows w (fst (call_terminal cls w o)).
Proof.
  unfold call_terminal. destruct (t_terminal w o) eqn:Er; [apply grows_refl|].
  repeat split; auto. cbn [fst t_terminal]. intros e v Hv. rewrite upd_other by congruence. exact Hv.
Qed.
Lemma step_table_reward w o : t_step (fst (call_reward cls w o)) = t_step w.
Proof. unfold call_reward. destruct (t_reward w o); reflexivity. Qed.
Lemma grows_step w o v : grows w (fst (call_step cls w o v)).
Proof.
  unfold call_step. destruct (t_step w o v) eqn:Er; [apply grows_refl|].
  pose proof (grows_reward w o) as G. pose proof (step_table_reward w o) as T.
  destruct (call_reward cls w o) as [w1 f]. cbn [fst] in *. apply (grows_trans _ _ _ G).
  repeat split; auto. cbn [t_step]. intros e b x Hv.
  destruct (upd_cases (t_step w1) o (upd_bool (t_step w1 o) v (Some (m_step (meth cls w1 o) (data w1 o) f v))) e) as [[-> ->]|[-> _]]; [|exact Hv].
  unfold upd_bool. destruct (Bool.eqb b v) eqn:Eb; [|exact Hv]. apply Bool.eqb_prop in Eb. subst b. rewrite T, Er in Hv. discriminate.
Qed.
Lemma roll_table_step w o v : t_roll (fst (call_step cls w o v)) = t_roll w.
Proof. unfold call_step, call_reward. destruct (t_step w o v); [auto|]. destruct (t_reward w o); auto. Qed.
Lemma roll_table_terminal w o : t_roll (fst (call_terminal cls w o)) = t_roll w.
Proof. unfold call_terminal. destruct (t_terminal w o); auto. Qed.
Lemma rev_table_step w o v : t_rev (fst (call_step cls w o v)) = t_rev w.
Proof. unfold call_step, call_reward. destruct (t_step w o v); [auto|]. destruct (t_reward w o); auto. Qed.
Lemma rev_table_terminal w o : t_rev (fst (call_terminal cls w o)) = t_rev w.
Proof. unfold call_terminal. destruct (t_terminal w o); auto. Qed.
Lemma grows_roll w fs H : grows w (fst (call_roll cls w fs H)).
Proof.
  unfold call_roll. destruct (t_roll w (ef_id fs) H) eqn:Er; [apply grows_refl|].
  pose proof (grows_step w (ef_obj fs) false) as G1. pose proof (roll_table_step w (ef_obj fs) false) as T1.
  destruct (call_step cls w (ef_obj fs) false) as [w1 st]. cbn [fst] in *.
  pose proof (grows_terminal w1 (ef_obj fs)) as G2. pose proof (roll_table_terminal w1 (ef_obj fs)) as T2.
  destruct (call_terminal cls w1 (ef_obj fs)) as [w2 tm]. cbn [fst] in *.
  apply (grows_trans _ _ _ G1), (grows_trans _ _ _ G2). repeat split; auto. cbn [t_roll]. intros n H' x Hv.
  match goal with |- upd _ _ ?v n H' = _ => destruct (upd_cases (t_roll w2) (ef_id fs) v n) as [[-> ->]|[-> _]]; [|exact Hv] end.
  match goal with |- upd _ _ ?v H' = _ => destruct (upd_cases (t_roll w2 (ef_id fs)) H v H') as [[-> ->]|[-> _]]; [|exact Hv] end.
  rewrite T2, T1, Er in Hv. discriminate.
Qed.
Lemma rev_table_roll0 w fs H : t_rev (fst (call_roll cls w fs H)) = t_rev w.
Proof.
  unfold call_roll. destruct (t_roll w (ef_id fs) H); [reflexivity|].
  pose proof (rev_table_step w (ef_obj fs) false) as A. destruct (call_step cls w (ef_obj fs) false) as [w1 st]. cbn [fst] in *.
  pose proof (rev_table_terminal w1 (ef_obj fs)) as B. destruct (call_terminal cls w1 (ef_obj fs)) as [w2 tm]. cbn in *. congruence.
Qed.
Lemma grows_rev w rf g : grows w (fst (call_rev cls w rf g)).
Proof.
  unfold call_rev. destruct (t_rev w (rf_id rf) (key_of g)) eqn:Er; [apply grows_refl|].
  pose proof (grows_roll w (rf_funcs rf) (g_Hsample g)) as G1. pose proof (rev_table_roll0 w (rf_funcs rf) (g_Hsample g)) as T1.
  destruct (call_roll cls w (rf_funcs rf) (g_Hsample g)) as [w1 r]. cbn [fst] in *.
  apply (grows_trans _ _ _ G1). repeat split; auto. cbn [t_rev]. intros n q x Hv.
  match goal with |- upd _ _ ?v n q = _ => destruct (upd_cases (t_rev w1) (rf_id rf) v n) as [[-> ->]|[-> _]]; [|exact Hv] end.
  match goal with |- upd_key _ _ ?v q = _ => destruct (upd_key_cases (t_rev w1 (rf_id rf)) (key_of g) v q) as [[-> ->]| ->]; [|exact Hv] end.
  rewrite T1, Er in Hv. discriminate.
Qed.
Lemma grows_run w o g rg : grows w (fst (run cls w o g rg)).
Proof.
  pose proof (run_inv w o g rg) as I.
  assert (G1 : grows w (fst (prepare_demo cls w o g))).
  { unfold prepare_demo. destruct (g_demo g); [|apply grows_refl]. destruct (m_gen _ _ _); [|apply grows_refl].
    pose proof (grows_reward w o) as G. destruct (call_reward cls w o) as [w1 f]. cbn [fst] in *.
    pose proof (grows_terminal w1 o) as G'. destruct (call_terminal cls w1 o) as [w2 tm]. cbn [fst] in *.
    exact (grows_trans _ _ _ G G'). }
  destruct (prepare_demo cls w o g) as [w1 [u|x]]; cbn [fst] in *; [|rewrite I; auto].
  destruct I as (w2 & fs & w3 & st0 & w4 & rf & w5 & rev & Ybars & Yfin & w6 & roll & w7 & step & w8 & un & w9 & roll' &
    E2 & E3 & E4 & E5 & EL & E6 & E7 & E8 & E9 & ER). rewrite ER. cbn [fst]. clear ER EL.
  apply (grows_trans _ _ _ G1).
  assert (G2 : grows w1 w2) by (unfold get_funcs in E2; destruct (w_env w1 _); injection E2 as <- <-; apply grows_same; reflexivity).
  pose proof (grows_reset w2 o) as G3. rewrite E3 in G3.
  assert (G4 : grows w3 w4) by (unfold get_rev in E4; destruct (w_rev w3); injection E4 as <- <-; apply grows_same; reflexivity).
  pose proof (grows_rev w4 rf g) as G5. rewrite E5 in G5.
  pose proof (grows_roll w5 fs (g_Hsample g)) as G6. rewrite E6 in G6.
  assert (G7 : grows w6 w7).
  { destruct (g_guid g); [pose proof (grows_step w6 o true) as G | pose proof (grows_step w6 (ef_obj fs) false) as G]; rewrite E7 in G; exact G. }
  assert (G8 : grows w7 w8).
  { destruct (g_guid g); [|injection E8 as <- <-; apply grows_refl]. cbv zeta in E8.
    match type of E8 with context [call_step cls ?x o false] => pose proof (grows_step x o false) as G; destruct (call_step cls x o false) as [wu' us] end.
    injection E8 as <- <-. exact G. }
  pose proof (grows_roll w8 fs (g_Hsample g)) as G9. rewrite E9 in G9. cbn [fst] in *.
  exact (grows_trans _ _ _ G2 (grows_trans _ _ _ G3 (grows_trans _ _ _ G4 (grows_trans _ _ _ G5 (grows_trans _ _ _ G6 (grows_trans _ _ _ G7 (grows_trans _ _ _ G8 G9))))))).
Qed.
Lemma grows_exec w a : grows w (exec cls w a).
Proof.
  destruct a; cbn [exec]; try (destruct (Nat.ltb_spec o (w_objs w)) as [L|L]; [|apply grows_refl]).
  - apply grows_same; reflexivity.
  - apply grows_same; reflexivity.
  - apply grows_same; reflexivity.
  - apply grows_run.
  - apply grows_reset.
  - apply grows_reward.
  - apply grows_terminal.
  - apply grows_step.
Qed.
Lemma grows_execs h : forall w, grows w (execs cls w h).
Proof. induction h as [|a h IH]; intros w; [apply grows_refl|]. exact (grows_trans _ _ _ (grows_exec w a) (IH _)). Qed.

(** A traced rollout comes with a traced step of its object. *)
Definition roll_step w (fs : env_funcs) : Prop := forall H, t_roll w (ef_id fs) H <> None -> t_step w (ef_obj fs) false <> None.
Lemma step_stored w o v : t_step (fst (call_step cls w o v)) o v = Some (snd (call_step cls w o v)).
Proof.
  unfold call_step. destruct (t_step w o v) eqn:E; [exact E|]. destruct (call_reward cls w o) as [w1 f]. cbn [fst snd t_step].
  rewrite upd_same. unfold upd_bool. rewrite Bool.eqb_reflx. reflexivity.
Qed.
Lemma roll_step_roll w fs H fs' : roll_step w fs' -> (fs = fs' \/ ef_id fs <> ef_id fs') -> roll_step (fst (call_roll cls w fs H)) fs'.
Proof.
  intros R C. pose proof (grows_roll w fs H) as (_ & _ & _ & G & _). unfold roll_step in *. intros H' HR.
  destruct (t_roll w (ef_id fs') H') eqn:Eo.
  - destruct (t_step w (ef_obj fs') false) as [f|] eqn:Es; [rewrite (G _ _ _ Es); discriminate | exfalso; apply (R H'); [congruence | reflexivity]].
  - unfold call_roll in *. destruct (t_roll w (ef_id fs) H) eqn:Er; [exfalso; exact (HR Eo)|].
    pose proof (step_stored w (ef_obj fs) false) as SS. pose proof (roll_table_step w (ef_obj fs) false) as T1.
    destruct (call_step cls w (ef_obj fs) false) as [w1 st]. cbn [fst snd] in *.
    assert (TS : t_step (fst (call_terminal cls w1 (ef_obj fs))) = t_step w1) by (unfold call_terminal; destruct (t_terminal w1 (ef_obj fs)); reflexivity).
    pose proof (roll_table_terminal w1 (ef_obj fs)) as T2. destruct (call_terminal cls w1 (ef_obj fs)) as [w2 tm]. cbn [fst t_roll t_step] in *.
    destruct C as [->|C].
    + rewrite TS, SS. discriminate.
    + rewrite upd_other in HR by auto. rewrite T2, T1 in HR. congruence.
Qed.
Lemma roll_step_rev w rf g fs' : roll_step w fs' -> (rf_funcs rf = fs' \/ ef_id (rf_funcs rf) <> ef_id fs') -> roll_step (fst (call_rev cls w rf g)) fs'.
Proof.
  intros R C. unfold call_rev. destruct (t_rev w (rf_id rf) (key_of g)); [exact R|].
  pose proof (roll_step_roll w (rf_funcs rf) (g_Hsample g) fs' R C) as A.
  destruct (call_roll cls w (rf_funcs rf) (g_Hsample g)) as [w1 r]. exact A.
Qed.

(** ** The cache holds data equivalent to [d] (class [c], schedule of [gs]). *)
Section Sound.
Variables (c : string) (d : D) (gs : cfg).
Let m := cls c.
Definition the_step := m_step m d (m_reward m d) false.
Definition the_roll : roll_trace Q := mkRoll the_step (m_terminal m d) (m_term_w m d).
Definition ofeq {A} (x : option A) (v : A) : Prop := x = None \/ x = Some v.

Definition osound w (o : nat) : Prop :=
  ob_class (w_obj w o) = c /\ same_but_start m d (ob_data (w_obj w o)) /\
  ofeq (t_reward w o) (m_reward m d) /\ ofeq (t_terminal w o) (m_terminal m d) /\ ofeq (t_step w o false) the_step.
Definition fsound w (fs : env_funcs) : Prop :=
  osound w (ef_obj fs) /\ forall H, ofeq (t_roll w (ef_id fs) H) the_roll.
Definition rev_like (r : rev_trace Q) : Prop :=
  rr_roll r = the_roll /\ rr_steer_w r = m_steer_w m d /\ rr_dmax r = m_dmax m d.
Definition rsound w (rf : rev_func) : Prop :=
  same_schedule (rf_cfg rf) gs /\ ob_class (w_obj w (rf_obj rf)) = c /\ same_but_start m d (ob_data (w_obj w (rf_obj rf))) /\
  fsound w (rf_funcs rf) /\ forall k r, t_rev w (rf_id rf) k = Some r -> rev_like r /\ rr_key r = k.

Lemma osound_reset w o e : osound w e -> osound (fst (call_reset cls w o)) e.
Proof. intros H. unfold call_reset. destruct (m_jit_reset _); [destruct (t_reset w o)|]; exact H. Qed.
Lemma osound_reward w o e : osound w e -> osound (fst (call_reward cls w o)) e.
Proof.
  intros (A & B & C & E & F). unfold call_reward. destruct (t_reward w o) eqn:Er; [repeat split; auto; apply B|].
  cbn [fst]. split; [exact A|]. split; [exact B|]. cbn [t_reward t_terminal t_step]. split; [|auto].
  destruct (upd_cases (t_reward w) o (Some (m_reward (meth cls w o) (data w o))) e) as [[-> ->]|[-> _]]; [|exact C].
  right. unfold meth, data. rewrite A. destruct B as [B _]. fold m. rewrite <- B. reflexivity.
Qed.
Lemma reward_val w o : osound w o -> snd (call_reward cls w o) = m_reward m d.
Proof.
  intros (A & B & C & E & F). unfold call_reward. destruct (t_reward w o) as [f|] eqn:Er; cbn [snd].
  - destruct C as [C|C]; congruence.
  - unfold meth, data. rewrite A. destruct B as [B _]. symmetry. exact B.
Qed.
Lemma osound_terminal w o e : osound w e -> osound (fst (call_terminal cls w o)) e.
Proof.
  intros (A & B & C & E & F). unfold call_terminal. destruct (t_terminal w o) eqn:Er; [repeat split; auto; apply B|].
  cbn [fst]. split; [exact A|]. split; [exact B|]. cbn [t_reward t_terminal t_step]. split; [auto|]. split; [|auto].
  destruct (upd_cases (t_terminal w) o (Some (m_terminal (meth cls w o) (data w o))) e) as [[-> ->]|[-> _]]; [|exact E].
  right. unfold meth, data. rewrite A. destruct B as (_ & B & _). fold m. rewrite <- B. reflexivity.
Qed.
Lemma terminal_val w o : osound w o -> snd (call_terminal cls w o) = m_terminal m d.
Proof.
  intros (A & B & C & E & F). unfold call_terminal. destruct (t_terminal w o) as [f|] eqn:Er; cbn [snd].
  - destruct E as [E|E]; congruence.
  - unfold meth, data. rewrite A. destruct B as (_ & B & _). symmetry. exact B.
Qed.
Lemma step_val w o : osound w o -> snd (call_step cls w o false) = the_step.
Proof.
  intros H. pose proof H as (A & B & C & E & F). unfold call_step. destruct (t_step w o false) as [f|] eqn:Er.
  - cbn [snd]. destruct F as [F|F]; congruence.
  - pose proof (reward_val w o H) as V. pose proof (core_reward w o) as (_ & K & _).
    destruct (call_reward cls w o) as [w1 f]. cbn [fst snd] in *. unfold meth, data. rewrite K, A, V.
    destruct B as (_ & _ & B & _). unfold the_step. fold m. rewrite <- B. reflexivity.
Qed.
Lemma osound_step w o v e : osound w e -> osound (fst (call_step cls w o v)) e.
Proof.
  intros H. pose proof (step_val w o) as SV. unfold call_step in *. destruct (t_step w o v) eqn:Er; [exact H|].
  destruct v.
  - pose proof (osound_reward w o e H) as H1. destruct (call_reward cls w o) as [w1 f]. cbn [fst] in *.
    destruct H1 as (A & B & C & E & F). split; [exact A|]. split; [exact B|]. split; [exact C|]. split; [exact E|].
    cbn [t_step]. destruct (upd_cases (t_step w1) o (upd_bool (t_step w1 o) true (Some (m_step (meth cls w1 o) (data w1 o) f true))) e) as [[-> ->]|[-> _]]; [|exact F].
    cbn [upd_bool Bool.eqb]. exact F.
  - rewrite Er in SV. pose proof (osound_reward w o e H) as H1. pose proof (osound_reward w o o) as HO.
    destruct (call_reward cls w o) as [w1 f]. cbn [fst snd] in *.
    destruct H1 as (A & B & C & E & F). split; [exact A|]. split; [exact B|]. split; [exact C|]. split; [exact E|].
    cbn [t_step]. destruct (upd_cases (t_step w1) o (upd_bool (t_step w1 o) false (Some (m_step (meth cls w1 o) (data w1 o) f false))) e) as [[-> ->]|[-> _]]; [|exact F].
    right. cbn [upd_bool Bool.eqb]. rewrite SV by exact H. reflexivity.
Qed.
Lemma roll_val w fs H : fsound w fs -> snd (call_roll cls w fs H) = the_roll.
Proof.
  intros [S R]. unfold call_roll. destruct (t_roll w (ef_id fs) H) as [r|] eqn:Er.
  - cbn [snd]. destruct (R H) as [F|F]; congruence.
  - pose proof (step_val w (ef_obj fs) S) as V. pose proof (osound_step w (ef_obj fs) false _ S) as S1.
    destruct (call_step cls w (ef_obj fs) false) as [w1 st]. cbn [fst snd] in *.
    pose proof (terminal_val w1 (ef_obj fs) S1) as V2. pose proof (osound_terminal w1 (ef_obj fs) _ S1) as S2.
    destruct (call_terminal cls w1 (ef_obj fs)) as [w2 tm]. cbn [fst snd] in *. subst st tm.
    unfold the_roll. f_equal. destruct S2 as (A & B & _). unfold meth, data. rewrite A. destruct B as (_ & _ & _ & B & _). symmetry. exact B.
Qed.
Lemma roll_tables w o v : t_roll (fst (call_step cls w o v)) = t_roll w /\ t_rev (fst (call_step cls w o v)) = t_rev w.
Proof.
  unfold call_step, call_reward. destruct (t_step w o v); [auto|]. destruct (t_reward w o); auto.
Qed.
Lemma roll_tables_terminal w o : t_roll (fst (call_terminal cls w o)) = t_roll w /\ t_rev (fst (call_terminal cls w o)) = t_rev w.
Proof. unfold call_terminal. destruct (t_terminal w o); auto. Qed.
Lemma roll_tables_reward w o : t_roll (fst (call_reward cls w o)) = t_roll w /\ t_rev (fst (call_reward cls w o)) = t_rev w.
Proof. unfold call_reward. destruct (t_reward w o); auto. Qed.
Lemma roll_tables_reset w o : t_roll (fst (call_reset cls w o)) = t_roll w /\ t_rev (fst (call_reset cls w o)) = t_rev w.
Proof. unfold call_reset. destruct (m_jit_reset _); [destruct (t_reset w o)|]; auto. Qed.
Lemma osound_roll w fs H e : osound w e -> osound (fst (call_roll cls w fs H)) e.
Proof.
  intros S. unfold call_roll. destruct (t_roll w (ef_id fs) H); [exact S|].
  pose proof (osound_step w (ef_obj fs) false e S) as S1. destruct (call_step cls w (ef_obj fs) false) as [w1 st]. cbn [fst] in *.
  pose proof (osound_terminal w1 (ef_obj fs) e S1) as S2. destruct (call_terminal cls w1 (ef_obj fs)) as [w2 tm]. exact S2.
Qed.
Lemma rev_table_roll w fs H : t_rev (fst (call_roll cls w fs H)) = t_rev w.
Proof.
  unfold call_roll. destruct (t_roll w (ef_id fs) H); [reflexivity|].
  pose proof (roll_tables w (ef_obj fs) false) as [_ A]. destruct (call_step cls w (ef_obj fs) false) as [w1 st]. cbn [fst] in *.
  pose proof (roll_tables_terminal w1 (ef_obj fs)) as [_ B]. destruct (call_terminal cls w1 (ef_obj fs)) as [w2 tm]. cbn in *. congruence.
Qed.
Lemma roll_table_roll w fs H n H' : fsound w fs -> ofeq (t_roll w n H') the_roll -> ofeq (t_roll (fst (call_roll cls w fs H)) n H') the_roll.
Proof.
  intros S O. pose proof (roll_val w fs H S) as V. unfold call_roll in *. destruct (t_roll w (ef_id fs) H) eqn:Er; [exact O|].
  pose proof (roll_tables w (ef_obj fs) false) as [A _]. destruct (call_step cls w (ef_obj fs) false) as [w1 st]. cbn [fst] in *.
  pose proof (roll_tables_terminal w1 (ef_obj fs)) as [B _]. destruct (call_terminal cls w1 (ef_obj fs)) as [w2 tm]. cbn [fst snd t_roll] in *.
  rewrite V. destruct (upd_cases (t_roll w2) (ef_id fs) (upd (t_roll w2 (ef_id fs)) H (Some the_roll)) n) as [[-> ->]|[-> _]].
  - destruct (upd_cases (t_roll w2 (ef_id fs)) H (Some the_roll) H') as [[-> _]|[-> _]]; [right; reflexivity|]. rewrite B, A. exact O.
  - rewrite B, A. exact O.
Qed.
Lemma fsound_roll w fs H fs' : fsound w fs -> fsound w fs' -> fsound (fst (call_roll cls w fs H)) fs'.
Proof.
  intros S [A B]. split; [apply osound_roll; exact A|]. intros H'. apply roll_table_roll; auto.
Qed.
Lemma core_obj w w' : same_core w w' -> w_obj w' = w_obj w.
Proof. intros (_ & A & _). exact A. Qed.
Lemma rsound_keep w w' rf : w_obj w' = w_obj w -> t_rev w' = t_rev w -> fsound w' (rf_funcs rf) -> rsound w rf -> rsound w' rf.
Proof. intros A B F (R1 & R2 & R3 & R4 & R5). unfold rsound. rewrite A, B. auto. Qed.

Lemma fsound_ext w w' fs : w_obj w' = w_obj w -> t_reward w' = t_reward w -> t_terminal w' = t_terminal w ->
  t_step w' = t_step w -> t_roll w' = t_roll w -> fsound w fs -> fsound w' fs.
Proof. intros A B C E F. unfold fsound, osound. rewrite A, B, C, E, F. auto. Qed.
Lemma rev_step_sound w rf g : rsound w rf ->
  let '(w', r) := call_rev cls w rf g in
  (rev_like r /\ rr_key r = key_of g) /\ fsound w' (rf_funcs rf) /\ rsound w' rf /\
  (forall fs, fsound w fs -> fsound w' fs) /\
  (t_rev w (rf_id rf) (key_of g) = None ->
     rr_logpd r = m_logpd m (ob_data (w_obj w (rf_obj rf))) (ob_ref (w_obj w (rf_obj rf))) /\ rr_rx r = ob_rx (w_obj w (rf_obj rf))).
Proof.
  intros HR. pose proof HR as (R1 & R2 & R3 & R4 & R5). unfold call_rev. destruct (t_rev w (rf_id rf) (key_of g)) as [r|] eqn:Er.
  - split; [eapply R5; eassumption|]. split; [exact R4|]. split; [exact HR|]. split; [auto | discriminate].
  - pose proof (roll_val w (rf_funcs rf) (g_Hsample g) R4) as V. pose proof (core_roll w (rf_funcs rf) (g_Hsample g)) as C.
    pose proof (fun fs (F : fsound w fs) => fsound_roll w (rf_funcs rf) (g_Hsample g) fs R4 F) as FS.
    pose proof (rev_table_roll w (rf_funcs rf) (g_Hsample g)) as T.
    destruct (call_roll cls w (rf_funcs rf) (g_Hsample g)) as [w1 roll]. cbn [fst snd] in *. subst roll.
    apply core_obj in C. unfold meth, data. rewrite C, R2. fold m.
    match goal with |- (rev_like ?r /\ _) /\ _ => assert (L : rev_like r /\ rr_key r = key_of g) end.
    { split; [|reflexivity]. split; [reflexivity|]. cbn [rr_steer_w rr_dmax]. destruct R3 as (_ & _ & _ & _ & B1 & B2). rewrite <- B1, <- B2. auto. }
    assert (FS' : forall fs, fsound w fs -> fsound (mkWorld (w_objs w1) (w_obj w) (w_fns w1) (w_env w1) (w_rev w1) (t_reset w1)
      (t_reward w1) (t_terminal w1) (t_step w1) (t_roll w1) (upd (t_rev w1) (rf_id rf) (upd_key (t_rev w1 (rf_id rf)) (key_of g)
      (Some (mkRev (key_of g) the_roll (m_steer_w m (ob_data (w_obj w (rf_obj rf)))) (m_dmax m (ob_data (w_obj w (rf_obj rf))))
         (m_logpd m (ob_data (w_obj w (rf_obj rf))) (ob_ref (w_obj w (rf_obj rf)))) (ob_rx (w_obj w (rf_obj rf)))))))) fs).
    { intros fs F. apply (fsound_ext w1); [exact (eq_sym C) | reflexivity | reflexivity | reflexivity | reflexivity | exact (FS fs F)]. }
    split; [exact L|]. split; [exact (FS' _ R4)|]. split; [|split; [exact FS' | auto]].
    split; [exact R1|]. cbn [w_obj]. split; [exact R2|]. split; [exact R3|]. split; [exact (FS' _ R4)|].
    cbn [t_rev]. intros k r. rewrite upd_same. rewrite T.
    destruct (upd_key_cases (t_rev w (rf_id rf)) (key_of g)
      (Some (mkRev (key_of g) the_roll (m_steer_w m (ob_data (w_obj w (rf_obj rf)))) (m_dmax m (ob_data (w_obj w (rf_obj rf))))
         (m_logpd m (ob_data (w_obj w (rf_obj rf))) (ob_ref (w_obj w (rf_obj rf)))) (ob_rx (w_obj w (rf_obj rf))))) k) as [[-> ->]| ->].
    + intros [= <-]. exact L.
    + apply R5.
Qed.

Lemma fsound_step w o v fs : fsound w fs -> fsound (fst (call_step cls w o v)) fs.
Proof. intros [A B]. split; [apply osound_step; exact A|]. destruct (roll_tables w o v) as [-> _]. exact B. Qed.
Lemma viz_reward w o e : t_step (fst (call_reward cls w o)) e = t_step w e.
Proof. unfold call_reward. destruct (t_reward w o); reflexivity. Qed.
Lemma viz_terminal w o e : t_step (fst (call_terminal cls w o)) e = t_step w e.
Proof. unfold call_terminal. destruct (t_terminal w o); reflexivity. Qed.
Lemma viz_reset w o e : t_step (fst (call_reset cls w o)) e = t_step w e.
Proof. unfold call_reset. destruct (m_jit_reset _); [destruct (t_reset w o)|]; reflexivity. Qed.
Lemma viz_step w o e : t_step (fst (call_step cls w o false)) e true = t_step w e true.
Proof.
  unfold call_step. destruct (t_step w o false); [reflexivity|]. pose proof (viz_reward w o) as V.
  destruct (call_reward cls w o) as [w1 f]. cbn [fst t_step] in *.
  destruct (upd_cases (t_step w1) o (upd_bool (t_step w1 o) false (Some (m_step (meth cls w1 o) (data w1 o) f false))) e) as [[-> ->]|[-> _]];
    cbn [upd_bool Bool.eqb]; rewrite V; reflexivity.
Qed.
Lemma viz_roll w fs H e : t_step (fst (call_roll cls w fs H)) e true = t_step w e true.
Proof.
  unfold call_roll. destruct (t_roll w (ef_id fs) H); [reflexivity|].
  pose proof (viz_step w (ef_obj fs) e) as A. destruct (call_step cls w (ef_obj fs) false) as [w1 st]. cbn [fst] in *.
  pose proof (viz_terminal w1 (ef_obj fs) e) as B. destruct (call_terminal cls w1 (ef_obj fs)) as [w2 tm]. cbn in *. congruence.
Qed.
Lemma viz_rev w rf g e : t_step (fst (call_rev cls w rf g)) e true = t_step w e true.
Proof.
  unfold call_rev. destruct (t_rev w (rf_id rf) (key_of g)); [reflexivity|].
  pose proof (viz_roll w (rf_funcs rf) (g_Hsample g) e) as A. destruct (call_roll cls w (rf_funcs rf) (g_Hsample g)) as [w1 r]. exact A.
Qed.
Lemma roll_stored w fs H : t_roll (fst (call_roll cls w fs H)) (ef_id fs) H = Some (snd (call_roll cls w fs H)).
Proof.
  unfold call_roll. destruct (t_roll w (ef_id fs) H) eqn:E; [exact E|].
  destruct (call_step cls w (ef_obj fs) false) as [w1 st]. destruct (call_terminal cls w1 (ef_obj fs)) as [w2 tm].
  cbn [fst snd t_roll]. rewrite upd_same, upd_same. reflexivity.
Qed.
Lemma roll_again w fs H r : t_roll w (ef_id fs) H = Some r -> call_roll cls w fs H = (w, r).
Proof. intros E. unfold call_roll. rewrite E. reflexivity. Qed.

Lemma rev_stored w rf g : t_rev (fst (call_rev cls w rf g)) (rf_id rf) (key_of g) = Some (snd (call_rev cls w rf g)).
Proof.
  unfold call_rev. destruct (t_rev w (rf_id rf) (key_of g)) eqn:E; [exact E|].
  destruct (call_roll cls w (rf_funcs rf) (g_Hsample g)) as [w1 r]. cbn [fst snd t_rev]. rewrite upd_same, upd_key_same. reflexivity.
Qed.

(** The diffusion loop on traced data is the loop of Planner.v. *)
Lemma linspace_length a b n : length (linspace a b n) = n.
Proof. unfold linspace. rewrite map_length, seq_length. reflexivity. Qed.
Lemma cumprod_from_length l : forall a, length (cumprod_from a l) = length l.
Proof. induction l; intros; cbn; auto. Qed.
Lemma jget_in l i : (i < length l)%nat -> jget l i = nth i l 0.
Proof. intros H. unfold jget. rewrite Nat.min_l by lia. reflexivity. Qed.
Lemma schedule_eq g1 g2 : same_schedule g1 g2 -> alphas g1 = alphas g2 /\ alphas_bar g1 = alphas_bar g2 /\ sigmas g1 = sigmas g2.
Proof.
  intros (A & B & C). assert (E : alphas g1 = alphas g2) by (unfold alphas, betas; rewrite A, B, C; reflexivity).
  unfold sigmas, alphas_bar. rewrite E. auto.
Qed.
Definition agree_env (g : cfg) (e1 e2 : penv Q) : Prop :=
  pe_reset e1 = pe_reset e2 /\ pe_step e1 = pe_step e2 /\ pe_terminal e1 = pe_terminal e2 /\
  pe_term_w e1 = pe_term_w e2 /\ pe_steer_w e1 = pe_steer_w e2 /\ pe_dmax e1 = pe_dmax e2 /\
  (g_demo g = true -> pe_logpd e1 = pe_logpd e2 /\ pe_rew_xref e1 = pe_rew_xref e2).
Lemma evaluate_agree g e1 e2 Ys : agree_env g e1 e2 -> evaluate_samples e1 g Ys = evaluate_samples e2 g Ys.
Proof.
  intros (A & B & C & E & F & G & H). unfold evaluate_samples, rollout_term, log_scores. rewrite A, B, C, E, F, G.
  destruct (g_demo g); [|reflexivity]. destruct (H eq_refl) as [-> ->]. reflexivity.
Qed.
Lemma indices_range g i : In i (diffusion_indices g) -> (1 <= i < g_Ndiffuse g)%nat.
Proof. unfold diffusion_indices. rewrite <- in_rev, in_seq. lia. Qed.
(** The static tuple holds all that a step of the diffusion reads from the configuration, apart from
    the schedule. *)
Lemma key_cfg_same (E : penv Q) g gc ab ab1 al sg eps Y :
  reverse_once_with E (key_cfg (key_of g) gc) ab ab1 al sg eps Y = reverse_once_with E g ab ab1 al sg eps Y.
Proof. reflexivity. Qed.
Lemma loop_agree r st0 gc g E rg : rr_key r = key_of g -> same_schedule gc g -> agree_env g (traced_env r st0) E ->
  forall is k Y, (forall i, In i is -> (1 <= i < g_Ndiffuse g)%nat) ->
  cached_loop (cached_once r st0 gc) (rr_key r) rg is k Y = reverse_loop E g rg is k Y.
Proof.
  intros KE S A. rewrite KE. induction is as [|i is IH]; intros k Y Hi; [reflexivity|]. cbn [cached_loop reverse_loop].
  destruct (prng_split rg k) as [k' ks]. cbn [key_of].
  assert (L : (i < g_Ndiffuse g)%nat) by (apply Hi; left; reflexivity).
  assert (LA : length (alphas g) = g_Ndiffuse g) by (unfold alphas, betas; rewrite map_length; apply linspace_length).
  assert (LB : length (alphas_bar g) = g_Ndiffuse g) by (unfold alphas_bar, cumprod; rewrite cumprod_from_length; exact LA).
  assert (LS : length (sigmas g) = g_Ndiffuse g) by (unfold sigmas; rewrite map_length; exact LB).
  destruct (schedule_eq _ _ S) as (S1 & S2 & S3).
  replace (cached_once r st0 gc i (prng_normal rg ks (g_Nsample g) (g_Hsample g)) Y)
    with (reverse_once E g i (prng_normal rg ks (g_Nsample g) (g_Hsample g)) Y).
  2:{ unfold cached_once, reverse_once. rewrite KE, key_cfg_same. unfold reverse_once_with. rewrite S1, S2, S3. rewrite !jget_in by lia.
      rewrite (evaluate_agree g _ _ _ A). reflexivity. }
  destruct (reverse_once E g i _ Y) as [Y' rew]. rewrite IH by (intros; apply Hi; right; auto). reflexivity.
Qed.
Lemma core_agree g e1 e2 rg : agree_env g e1 e2 -> pe_step_viz e1 = pe_step_viz e2 ->
  run_diffusion_core e1 g rg = run_diffusion_core e2 g rg.
Proof.
  intros A V. unfold run_diffusion_core.
  assert (L : forall is k Y, reverse_loop e1 g rg is k Y = reverse_loop e2 g rg is k Y).
  { induction is as [|i is IH]; intros k Y; [reflexivity|]. cbn [reverse_loop]. destruct (prng_split rg k) as [k' ks].
    unfold reverse_once, reverse_once_with. rewrite (evaluate_agree g e1 e2 _ A).
    destruct (evaluate_samples e2 g _) as [[ef rw] ws]. rewrite IH. reflexivity. }
  rewrite L. destruct (reverse_loop e2 g rg _ _ _) as [Yb Yf].
  destruct A as (A1 & A2 & A3 & A4 & _). unfold rollout_term. rewrite A1, A2, A3, A4, V. reflexivity.
Qed.

Definition cache_ok w : Prop :=
  (forall fs, w_env w c = Some fs -> fsound w fs) /\ (forall rf, w_rev w = Some rf -> rsound w rf).
Lemma cache_ok_clear w : cache_ok (clear_cache w).
Proof. split; cbn [clear_cache w_env w_rev]; intros; discriminate. Qed.

Lemma osound_put w o b e : ob_class b = ob_class (w_obj w o) -> ob_data b = ob_data (w_obj w o) -> osound w e -> osound (put_obj w o b) e.
Proof.
  intros A B (H1 & H2 & H3). unfold osound. cbn [put_obj w_obj t_reward t_terminal t_step].
  destruct (upd_cases (w_obj w) o b e) as [[-> ->]|[-> _]]; [|auto]. rewrite A, B. auto.
Qed.
Lemma fsound_put w o b fs : ob_class b = ob_class (w_obj w o) -> ob_data b = ob_data (w_obj w o) -> fsound w fs -> fsound (put_obj w o b) fs.
Proof. intros A B [F1 F2]. split; [apply osound_put; auto | exact F2]. Qed.
Lemma rsound_put w o b rf : ob_class b = ob_class (w_obj w o) -> ob_data b = ob_data (w_obj w o) -> rsound w rf -> rsound (put_obj w o b) rf.
Proof.
  intros A B (H1 & H2 & H3 & H4 & H5). split; [exact H1|]. cbn [put_obj w_obj t_rev].
  destruct (upd_cases (w_obj w) o b (rf_obj rf)) as [[-> EE]|[-> _]]; [rewrite EE in *|]; rewrite ?A, ?B; (split; [auto|]; split; [auto|]; split; [apply fsound_put; auto | exact H5]).
Qed.
Lemma fsound_reward w o fs : fsound w fs -> fsound (fst (call_reward cls w o)) fs.
Proof. intros [A B]. split; [apply osound_reward; exact A|]. destruct (roll_tables_reward w o) as [-> _]. exact B. Qed.
Lemma fsound_terminal w o fs : fsound w fs -> fsound (fst (call_terminal cls w o)) fs.
Proof. intros [A B]. split; [apply osound_terminal; exact A|]. destruct (roll_tables_terminal w o) as [-> _]. exact B. Qed.

(** What the demonstration part leaves. *)
Lemma demo_sound w o g : wf w -> (o < w_objs w)%nat -> osound w o -> cache_ok w ->
  let '(w1, r) := prepare_demo cls w o g in
  match r with
  | Err e => g_demo g = true /\ m_gen m (ob_data (w_obj w o)) (g_motion g) = Err e /\ w1 = w
  | Ok _ =>
      osound w1 o /\ cache_ok w1 /\ t_reset w1 o = t_reset w o /\ t_step w1 o true = t_step w o true /\
      ob_data (w_obj w1 o) = ob_data (w_obj w o) /\ w_env w1 = w_env w /\ w_rev w1 = w_rev w /\
      (g_demo g = true -> exists x, m_gen m (ob_data (w_obj w o)) (g_motion g) = Ok x /\ ob_ref (w_obj w1 o) = Some x /\
         ob_rx (w_obj w1 o) = m_score m (ob_data (w_obj w o)) x (m_reward m (ob_data (w_obj w o))) (m_terminal m (ob_data (w_obj w o)))) /\
      t_rev w1 = t_rev w /\ (forall e, osound w e -> osound w1 e)
  end.
Proof.
  intros Hw L O0 J. pose proof O0 as (Hc & S & _).
  unfold prepare_demo. destruct (g_demo g) eqn:Eg.
  2:{ split; [exact O0|]. split; [exact J|]. do 5 (split; [reflexivity|]). split; [discriminate|]. split; [reflexivity | auto]. }
  unfold meth, data. rewrite Hc. fold m.
  destruct (m_gen m (ob_data (w_obj w o)) (g_motion g)) as [x|e] eqn:Egen; [|auto].
  pose proof (reward_val w o O0) as V1. pose proof (osound_reward w o o O0) as O1. pose proof (osound_reward w o) as OE1. pose proof (core_reward w o) as C1.
  pose proof (viz_reward w o o) as T1. pose proof (fsound_reward w o) as FS1. pose proof (roll_tables_reward w o) as [_ TV1].
  assert (R1 : t_reset (fst (call_reward cls w o)) o = t_reset w o) by (unfold call_reward; destruct (t_reward w o); reflexivity).
  destruct (call_reward cls w o) as [w1 f]. cbn [fst snd] in *.
  pose proof (terminal_val w1 o O1) as V2. pose proof (osound_terminal w1 o o O1) as O2. pose proof (osound_terminal w1 o) as OE2. pose proof (core_terminal w1 o) as C2.
  pose proof (viz_terminal w1 o o) as T2. pose proof (fsound_terminal w1 o) as FS2. pose proof (roll_tables_terminal w1 o) as [_ TV2].
  assert (R2 : t_reset (fst (call_terminal cls w1 o)) o = t_reset w1 o) by (unfold call_terminal; destruct (t_terminal w1 o); reflexivity).
  destruct (call_terminal cls w1 o) as [w2 tm]. cbn [fst snd] in *. subst f tm.
  pose proof (core_trans _ _ _ C1 C2) as (K1 & K2 & K3 & K4 & K5).
  assert (Hobj : w_obj (put_obj w2 o (mkObj (ob_class (w_obj w2 o)) (ob_data (w_obj w2 o)) (Some x)
                 (m_score (cls (ob_class (w_obj w2 o))) (ob_data (w_obj w2 o)) x (m_reward m d) (m_terminal m d)))) o
          = mkObj c (ob_data (w_obj w o)) (Some x) (m_score m (ob_data (w_obj w o)) x (m_reward m d) (m_terminal m d))).
  { cbn [put_obj w_obj]. rewrite upd_same, K2, Hc. reflexivity. }
  split.
  { destruct O2 as (A & B & C & E & F). split; [rewrite Hobj; reflexivity|]. split; [rewrite Hobj; exact S|]. auto. }
  split.
  { split; cbn [put_obj w_env w_rev]; rewrite ?K4, ?K5.
    - intros fs Hf. apply fsound_put; [reflexivity | reflexivity|]. apply FS2, FS1, J, Hf.
    - intros rf Hf. apply rsound_put; [reflexivity | reflexivity|]. pose proof (proj2 J _ Hf) as RS. apply (rsound_keep w); [congruence | congruence | | exact RS].
      apply FS2, FS1. apply RS. }
  split; [cbn [put_obj t_reset]; rewrite R2, R1; reflexivity|].
  split; [cbn [put_obj t_step]; rewrite T2, T1; reflexivity|].
  split; [rewrite Hobj; reflexivity|].
  split; [exact K4|]. split; [exact K5|]. split; [|split; [cbn [put_obj t_rev]; congruence | intros e He; apply osound_put; [reflexivity | reflexivity | auto]]]. intros _. exists x. rewrite Hobj. cbn [ob_ref ob_rx].
  split; [reflexivity|]. split; [reflexivity|]. destruct S as (S1 & S2 & _). rewrite S1, S2. reflexivity.
Qed.

(** The initial state and the visualisation step in effect for object [o]. *)
Definition cur_reset w o : State Q :=
  if m_jit_reset m then match t_reset w o with Some v => v | None => m_reset m (ob_data (w_obj w o)) end
  else m_reset m (ob_data (w_obj w o)).
Definition cur_viz w o : State Q -> act -> State Q :=
  match t_step w o true with Some f => f | None => m_step m d (m_reward m d) true end.
Definition gen_plan (st : State Q) (viz : State Q -> act -> State Q) (lp : list Q -> Z -> R) (rx : R) (dd : D)
  (g : cfg) (rg : prng) : Res (result (Q := Q)) :=
  let core lp rx := Ok (run_diffusion_core (mkPenv st (m_step m dd (m_reward m dd) false) viz
           (m_terminal m dd) (m_term_w m dd) (m_steer_w m dd) (m_dmax m dd) lp rx) g rg) in
  if g_demo g then match m_gen m dd (g_motion g) with Err e => Err e | Ok _ => core lp rx end
  else core (m_logpd m dd None) 0.

Lemma run_sound_gen w o g rg : wf w -> (o < w_objs w)%nat -> osound w o -> cache_ok w -> same_schedule g gs ->
  exists lp rx,
  returned (snd (run cls w o g rg)) = gen_plan (cur_reset w o) (cur_viz w o) lp rx (ob_data (w_obj w o)) g rg /\ cache_ok (fst (run cls w o g rg)) /\
  (g_guid g = true -> w_env w c = None -> forall out, snd (run cls w o g rg) = Ok out ->
     out_unguided out = Some (trajectory_states the_step (cur_reset w o) (o_Y0 (out_res out)))) /\
  (w_rev w = None -> g_demo g = true -> forall x, m_gen m (ob_data (w_obj w o)) (g_motion g) = Ok x ->
     lp = m_logpd m (ob_data (w_obj w o)) (Some x) /\
     rx = m_score m (ob_data (w_obj w o)) x (m_reward m (ob_data (w_obj w o))) (m_terminal m (ob_data (w_obj w o)))) /\
  (forall rf r, w_rev w = Some rf -> t_rev w (rf_id rf) (key_of g) = Some r -> lp = rr_logpd r /\ rx = rr_rx r) /\
  (g_guid g = false -> forall out, snd (run cls w o g rg) = Ok out ->
     exists rf r, w_rev (fst (run cls w o g rg)) = Some rf /\ t_rev (fst (run cls w o g rg)) (rf_id rf) (key_of g) = Some r /\
       rr_logpd r = lp /\ rr_rx r = rx) /\
  (forall e, snd (run cls w o g rg) = Err e -> fst (run cls w o g rg) = w) /\
  (g_guid g = false -> forall e, osound w e -> osound (fst (run cls w o g rg)) e).
Proof.
  intros Hw L O0 J Hs. pose proof O0 as (Hc & S & _). pose proof (run_inv w o g rg) as I.
  pose proof (demo_sound w o g Hw L O0 J) as P. pose proof (wf_demo w o g L Hw) as Hw1. pose proof (demo_objs w o g) as On1.
  destruct (prepare_demo cls w o g) as [w1 [u|x]]; cbn [fst] in *.
  2:{ rewrite I. cbn [fst snd returned]. destruct P as (P1 & P2 & P3). subst w1.
      assert (T : exists lp rx, (w_rev w = None -> forall y, Err x = Ok y -> lp = m_logpd m (ob_data (w_obj w o)) (Some y) /\
                    rx = m_score m (ob_data (w_obj w o)) y (m_reward m (ob_data (w_obj w o))) (m_terminal m (ob_data (w_obj w o)))) /\
                  (forall rf r, w_rev w = Some rf -> t_rev w (rf_id rf) (key_of g) = Some r -> lp = rr_logpd r /\ rx = rr_rx r)).
      { destruct (w_rev w) as [rf|].
        - destruct (t_rev w (rf_id rf) (key_of g)) as [r|] eqn:Er.
          + exists (rr_logpd r), (rr_rx r). split; [discriminate|]. intros rf' r' [= <-] E. rewrite Er in E. injection E as <-. auto.
          + exists (fun _ _ => 0), 0. split; [discriminate|]. intros rf' r' [= <-] E. congruence.
        - exists (fun _ _ => 0), 0. split; discriminate. }
      destruct T as (lp & rx & T1 & T2). exists lp, rx. split; [unfold gen_plan; rewrite P1, P2; reflexivity|].
      split; [exact J|]. split; [discriminate|]. split; [intros Hn _; rewrite P2; apply T1, Hn|]. split; [exact T2|]. split; [discriminate|]. split; auto. }
  destruct P as (O1 & J1 & T1 & V1 & D1 & N1 & M1 & X1 & TV1 & OE1).
  destruct I as (w2 & fs & w3 & st0 & w4 & rf & w5 & rev & Ybars & Yfin & w6 & roll & w7 & step & w8 & un & w9 & roll' &
    E2 & E3 & E4 & E5 & EL & E6 & E7 & E8 & E9 & ER).
  pose proof O1 as (Oc & OS & _).
  (* environment functions *)
  assert (P2 : fsound w2 fs /\ osound w2 o /\ w_env w2 c = Some fs /\ w_rev w2 = w_rev w1 /\ w_obj w2 = w_obj w1 /\
               (forall rf, w_rev w2 = Some rf -> rsound w2 rf) /\ t_reset w2 o = t_reset w o /\ t_step w2 o true = t_step w o true /\
               (w_env w1 c = None -> ef_obj fs = o) /\ (forall e, osound w e -> osound w2 e)).
  { unfold get_funcs in E2. rewrite Oc in E2. destruct (w_env w1 c) as [f|] eqn:Ef; injection E2 as <- <-.
    - split; [apply J1; exact Ef|]. split; [exact O1|]. split; [exact Ef|]. split; [reflexivity|]. split; [reflexivity|].
      split; [apply J1|]. split; [exact T1|]. split; [exact V1|]. split; [discriminate | exact OE1].
    - split.
      { split; [exact O1|]. intros H. left. cbn [ef_id t_roll]. apply (proj1 Hw1 (w_fns w1)). lia. }
      split; [exact O1|]. split; [cbn [w_env]; apply upd_str_same|]. split; [reflexivity|]. split; [reflexivity|].
      split; [|split; [exact T1|]; split; [exact V1|]; split; [reflexivity | exact OE1]]. intros rf' Hr. cbn [w_rev] in Hr. destruct (proj2 J1 _ Hr) as (R1 & R2 & R3 & R4 & R5).
      split; [exact R1|]. split; [exact R2|]. split; [exact R3|]. split; [exact R4 | exact R5]. }
  destruct P2 as (F2 & O2 & N2 & M2 & B2 & R2 & T2 & V2 & Hfo & OE2).
  assert (Hfns : (forall n, (w_fns w2 <= n)%nat -> new_fn w2 n)).
  { pose proof (wf_funcs w1 o) as Hf. rewrite On1 in Hf. destruct (Hf L Hw1) as (Hf1 & _). rewrite E2 in Hf1. exact (proj1 Hf1). }
  (* reset *)
  assert (P3 : st0 = cur_reset w o /\ fsound w3 fs /\ osound w3 o /\ t_step w3 o true = t_step w o true /\
               (forall rf, w_rev w3 = Some rf -> rsound w3 rf) /\ (forall n, (w_fns w3 <= n)%nat -> new_fn w3 n) /\
               same_core w2 w3 /\ (forall e, osound w e -> osound w3 e)).
  { pose proof (core_reset w2 o) as C. pose proof (osound_reset w2 o) as OR. pose proof (viz_reset w2 o o) as VR.
    pose proof (roll_tables_reset w2 o) as [TR1 TR2]. pose proof (fn_reset w2 o) as FR.
    rewrite E3 in *. cbn [fst] in *. pose proof C as (C1 & C2 & C3 & C4 & C5).
    assert (F3 : fsound w3 fs) by (split; [apply OR, F2 | rewrite TR1; apply F2]).
    split.
    { unfold call_reset, meth, data in E3. rewrite B2, Oc, D1, T2 in E3. fold m in E3. unfold cur_reset. destruct (m_jit_reset m); [destruct (t_reset w o)|]; injection E3 as _ <-; reflexivity. }
    split; [exact F3|]. split; [apply OR, O2|]. split; [rewrite VR; exact V2|].
    split; [|split; [intros n Hn; apply FR, Hfns; lia | split; [exact C | intros e He; apply OR, OE2, He]]].
    intros rf' Hr. rewrite C5 in Hr. pose proof (R2 _ Hr) as RS. apply (rsound_keep w2); auto.
    destruct RS as (_ & _ & _ & [RF1 RF2] & _). split; [apply OR, RF1 | rewrite TR1; exact RF2]. }
  destruct P3 as (-> & F3 & O3 & V3 & R3 & N3 & C3 & OE3). set (st0 := cur_reset w o) in *.
  pose proof C3 as (C31 & C32 & C33 & C34 & C35).
  (* reverse_once *)
  assert (P4 : rsound w4 rf /\ fsound w4 fs /\ osound w4 o /\ t_step w4 o true = t_step w o true /\ w_rev w4 = Some rf /\
               w_env w4 = w_env w3 /\ w_obj w4 = w_obj w3 /\ same_schedule (rf_cfg rf) g /\
               (w_rev w3 = None -> t_rev w4 (rf_id rf) (key_of g) = None /\ rf_obj rf = o) /\ (forall e, osound w e -> osound w4 e)).
  { unfold get_rev in E4. destruct (w_rev w3) as [rf'|] eqn:Er; injection E4 as <- <-.
    - pose proof (R3 _ eq_refl) as RS. split; [exact RS|]. split; [exact F3|]. split; [exact O3|]. split; [exact V3|]. split; [exact Er|].
      split; [reflexivity|]. split; [reflexivity|]. split; [|split; [discriminate | exact OE3]].
      destruct RS as ((A1 & A2 & A3) & _). destruct Hs as (H1 & H2 & H3). split; [|split]; congruence.
    - split.
      { split; [exact Hs|]. cbn [rf_obj rf_funcs rf_id w_obj t_rev]. split; [rewrite C32, B2; exact Oc|]. split; [rewrite C32, B2; exact OS|]. split; [exact F3|].
        intros k r. rewrite (proj2 (N3 (w_fns w3) (le_n _))). discriminate. }
      split; [exact F3|]. split; [exact O3|]. split; [exact V3|]. split; [reflexivity|]. split; [reflexivity|]. split; [reflexivity|].
      split; [repeat split|]. split; [|exact OE3]. intros _. split; [apply (N3 (w_fns w3) (le_n _)) | reflexivity]. }
  destruct P4 as (R4 & F4 & O4 & V4 & M4 & N4 & B4 & S4 & X4 & OE4).
  pose proof (rev_step_sound w4 rf g R4) as P5. pose proof (core_rev w4 rf g) as C5. pose proof (viz_rev w4 rf g o) as V5.
  assert (OE5 : forall e, osound w4 e -> osound w5 e).
  { intros e He. unfold call_rev in E5. destruct (t_rev w4 (rf_id rf) (key_of g)); [injection E5 as <- _; exact He|].
    pose proof (osound_roll w4 (rf_funcs rf) (g_Hsample g) e He) as A. destruct (call_roll cls w4 (rf_funcs rf) (g_Hsample g)) as [wr r0].
    injection E5 as <- _. exact A. }
  pose proof (OE5 o O4) as O5.
  rewrite E5 in *. cbn [fst] in *. destruct P5 as ((L5 & K5) & F5' & R5 & FF5 & X5). pose proof (FF5 _ F4) as F5.
  (* rollout *)
  pose proof (roll_val w5 fs (g_Hsample g) F5) as RV. pose proof (fsound_roll w5 fs (g_Hsample g) fs F5 F5) as F6.
  pose proof (fsound_roll w5 fs (g_Hsample g) (rf_funcs rf) F5 F5') as F6'.
  pose proof (osound_roll w5 fs (g_Hsample g) o O5) as O6. pose proof (osound_roll w5 fs (g_Hsample g)) as OE6. pose proof (viz_roll w5 fs (g_Hsample g) o) as V6.
  pose proof (core_roll w5 fs (g_Hsample g)) as C6. pose proof (roll_stored w5 fs (g_Hsample g)) as ST6.
  pose proof (rev_table_roll w5 fs (g_Hsample g)) as TR6.
  rewrite E6 in *. cbn [fst snd] in *. subst roll.
  (* the loop *)
  set (dd := ob_data (w_obj w o)) in *.
  set (E := let core lp rx := mkPenv st0 (m_step m dd (m_reward m dd) false) (cur_viz w o)
           (m_terminal m dd) (m_term_w m dd) (m_steer_w m dd) (m_dmax m dd) lp rx in
           if g_demo g then core (rr_logpd rev) (rr_rx rev) else core (m_logpd m dd None) 0).
  assert (AE : agree_env g (traced_env rev st0) E).
  { destruct L5 as (L1 & L2 & L3). destruct S as (S1 & S2 & S3 & S5 & S6 & S7).
    unfold E. destruct (g_demo g) eqn:Eg; (split; [reflexivity|]); cbn [traced_env pe_step pe_terminal pe_term_w pe_steer_w pe_dmax pe_logpd pe_rew_xref].
    all: rewrite L1, L2, L3; unfold the_roll, the_step; cbn [rt_step rt_terminal rt_term_w]; rewrite S1, S2, S3, S5, S6, S7.
    all: do 5 (split; [reflexivity|]). { intros _. auto. } rewrite Eg. discriminate. }
  pose proof (loop_agree rev st0 (rf_cfg rf) g E rg K5 S4 AE (diffusion_indices g)
     (fst (prng_split rg (fst (prng_split rg (prng_key rg (g_seed g)))))) (YN g) (indices_range g)) as LE.
  rewrite EL in LE.
  assert (PE : gen_plan st0 (cur_viz w o) (rr_logpd rev) (rr_rx rev) dd g rg = Ok (run_diffusion_core E g rg)).
  { unfold gen_plan, E. destruct (g_demo g); [|reflexivity]. destruct (X1 eq_refl) as (x & X11 & X12 & X13). rewrite X11. reflexivity. }
  (* final rollouts *)
  assert (P7 : step = (if g_guid g then pe_step_viz E else pe_step E) /\ same_core w6 w7 /\ t_roll w7 = t_roll w6 /\
               t_rev w7 = t_rev w6 /\ fsound w7 fs /\ fsound w7 (rf_funcs rf) /\ osound w7 o /\ (forall e, osound w6 e -> osound w7 e)).
  { assert (SE : pe_step E = the_step).
    { destruct AE as (_ & A & _). rewrite <- A. cbn [traced_env pe_step]. rewrite (proj1 L5). reflexivity. }
    destruct (g_guid g).
    - pose proof (core_step w6 o true) as C. pose proof (roll_tables w6 o true) as [TA TB].
      pose proof (fsound_step w6 o true fs F6) as FA. pose proof (fsound_step w6 o true _ F6') as FB. pose proof (osound_step w6 o true) as OA.
      rewrite E7 in *. cbn [fst] in *. split; [|auto 10].
      unfold call_step in E7. rewrite V6, V5, V4 in E7. unfold E, cur_viz. destruct (t_step w o true) as [fv|]; [injection E7 as _ <-; destruct (g_demo g); reflexivity|]. pose proof (reward_val w6 o O6) as RW. pose proof (core_reward w6 o) as (_ & CW & _).
      destruct (call_reward cls w6 o) as [wr f]. cbn [fst snd] in *. injection E7 as _ <-.
      destruct O6 as (Oc6 & OS6 & _). unfold meth, data. rewrite CW, Oc6, RW. fold m. destruct OS6 as (_ & _ & OS6 & _). rewrite <- OS6.
      destruct (g_demo g); reflexivity.
    - pose proof (core_step w6 (ef_obj fs) false) as C. pose proof (roll_tables w6 (ef_obj fs) false) as [TA TB].
      pose proof (fsound_step w6 (ef_obj fs) false fs F6) as FA. pose proof (fsound_step w6 (ef_obj fs) false _ F6') as FB.
      pose proof (osound_step w6 (ef_obj fs) false) as OA.
      pose proof (step_val w6 (ef_obj fs) (proj1 F6)) as SV. rewrite E7 in *. cbn [fst snd] in *. split; [congruence | auto 10]. }
  destruct P7 as (-> & C7 & TA7 & TB7 & F7 & F7' & O7 & OE7).
  assert (P8 : t_roll w8 = t_roll w7).
  { destruct (g_guid g); [|injection E8 as <- <-; reflexivity]. cbv zeta in E8.
    match type of E8 with context [call_step cls ?x o false] => pose proof (roll_tables x o false) as [A _]; destruct (call_step cls x o false) as [wu' us] end.
    injection E8 as <- <-. exact A. }
  assert (E9' : w9 = w8 /\ roll' = the_roll).
  { rewrite (roll_again w8 fs (g_Hsample g) the_roll) in E9; [injection E9 as <- <-; auto|]. rewrite P8, TA7. exact ST6. }
  destruct E9' as [-> ->]. clear E9. exists (rr_logpd rev), (rr_rx rev). rewrite ER. cbn [fst snd returned out_res].
  assert (RT : forall us, rollout_term E us = roll_with the_roll st0 us).
  { intros us. unfold rollout_term, roll_with. destruct AE as (A1 & A2 & A3 & A4 & _). rewrite <- A1, <- A2, <- A3, <- A4.
    cbn [traced_env pe_reset pe_step pe_terminal pe_term_w]. rewrite (proj1 L5). reflexivity. }
  split; [|split; [|split; [|split; [|split; [|split; [|split; [discriminate|]]]]]]].
  - rewrite PE. unfold run_diffusion_core. rewrite <- LE. rewrite !RT. replace (pe_reset E) with st0 by exact (proj1 AE). reflexivity.
  - destruct (g_guid g).
    + cbv zeta in E8.
      match type of E8 with context [call_step cls ?x o false] => pose proof (core_step x o false) as C; destruct (call_step cls x o false) as [wu' us] end.
      injection E8 as <- <-. destruct C as (_ & _ & _ & CA & CB). cbn [fst put_obj clear_cache w_env w_rev] in *.
      split; cbn [put_obj w_env w_rev]; [rewrite CA | rewrite CB]; intros; discriminate.
    + injection E8 as <- <-. destruct C7 as (C71 & C72 & C73 & C74 & C75), C6 as (C61 & C62 & C63 & C64 & C65), C5 as (C51 & C52 & C53 & C54 & C55).
      split.
      * intros f Hf. rewrite C74, C64, C54, N4, C34, N2 in Hf. injection Hf as <-. exact F7.
      * intros r Hr. rewrite C75, C65, C55, M4 in Hr. injection Hr as <-.
        apply (rsound_keep w5); auto; congruence.
  - intros Hg Hne out [= <-]. cbn [out_unguided out_res o_Y0]. rewrite Hg in E8. cbv zeta in E8.
    rewrite N1 in Hfo. specialize (Hfo Hne).
    assert (K : t_step w7 o false = Some the_step).
    { assert (K2 : roll_step w2 fs).
      { unfold get_funcs in E2. rewrite Oc, N1, Hne in E2. injection E2 as <- <-. intros H HR. exfalso. apply HR. cbn [ef_id t_roll].
        apply (proj1 Hw1 (w_fns w1)). lia. }
      assert (K3 : roll_step w3 fs).
      { pose proof (roll_tables_reset w2 o) as [A _]. pose proof (viz_reset w2 o (ef_obj fs)) as B. rewrite E3 in A, B. cbn [fst] in A, B.
        unfold roll_step. rewrite A, B. exact K2. }
      assert (K4 : roll_step w4 fs /\ (rf_funcs rf = fs \/ ef_id (rf_funcs rf) <> ef_id fs)).
      { unfold get_rev in E4. destruct (w_rev w3) as [rf'|] eqn:Er; injection E4 as <- <-; (split; [exact K3|]); [|left; reflexivity].
        right. assert (Er1 : w_rev w1 = Some rf') by congruence. destruct (proj2 (proj2 (proj2 Hw1)) _ Er1) as (_ & _ & Hlt & _).
        unfold get_funcs in E2. rewrite Oc, N1, Hne in E2. injection E2 as _ <-. cbn [ef_id]. lia. }
      destruct K4 as [K4 K4'].
      pose proof (roll_step_rev w4 rf g fs K4 K4') as K5a. rewrite E5 in K5a. cbn [fst] in K5a.
      pose proof (roll_step_roll w5 fs (g_Hsample g) fs K5a (or_introl eq_refl)) as K6. rewrite E6 in K6. cbn [fst] in K6.
      unfold roll_step in K6. specialize (K6 (g_Hsample g)). rewrite ST6 in K6. rewrite Hfo in K6. specialize (K6 ltac:(discriminate)).
      rewrite Hg in E7. pose proof (grows_step w6 o true) as (_ & _ & _ & G & _). rewrite E7 in G. cbn [fst] in G.
      destruct (t_step w6 o false) as [f|] eqn:Ef; [|exfalso; congruence].
      rewrite (G _ _ _ Ef). destruct O6 as (_ & _ & _ & _ & [O6|O6]); congruence. }
    match type of E8 with context [call_step cls ?x o false] => assert (K' : call_step cls x o false = (x, the_step)) by (unfold call_step; cbn [put_obj clear_cache t_step]; rewrite K; reflexivity); rewrite K' in E8 end.
    injection E8 as _ <-. reflexivity.
  - intros Hn Hg x Hx. destruct X4 as [X41 X42]; [congruence|]. destruct (X5 X41) as [X51 X52]. rewrite X51, X52, X42, B4, C32, B2, D1.
    destruct (X1 Hg) as (x' & X11 & X12 & X13). rewrite X12, X13. assert (x = x') as -> by congruence. auto.
  - intros rf' r Hr Ht. assert (Er : w_rev w3 = Some rf') by congruence. unfold get_rev in E4. rewrite Er in E4. injection E4 as <- <-.
    assert (Tr : t_rev w3 = t_rev w).
    { pose proof (roll_tables_reset w2 o) as [_ A]. rewrite E3 in A. cbn [fst] in A. rewrite A.
      unfold get_funcs in E2. destruct (w_env w1 _); injection E2 as <- <-; exact TV1. }
    unfold call_rev in E5. rewrite Tr, Ht in E5. injection E5 as _ <-. auto.
  - intros Hg out _. rewrite Hg in E8. injection E8 as <- <-. exists rf, rev.
    destruct C7 as (C71 & C72 & C73 & C74 & C75), C6 as (C61 & C62 & C63 & C64 & C65), C5 as (C51 & C52 & C53 & C54 & C55).
    split; [congruence|]. split; [|auto]. rewrite TB7, TR6.
    pose proof (rev_stored w4 rf g) as RS. rewrite E5 in RS. exact RS.
  - intros Hg e He. rewrite Hg in E8. injection E8 as <- <-. apply OE7, OE6, OE5, OE4, He.
Qed.
Lemma untraced_sound w o : ob_class (w_obj w o) = c -> untraced w o -> same_but_start m d (ob_data (w_obj w o)) -> osound w o.
Proof. intros Hc (U1 & U2 & U3 & U4) S. split; [exact Hc|]. split; [exact S|]. split; [left; auto|]. split; left; auto. Qed.
Lemma gen_untraced w o lp rx g rg : untraced w o -> same_but_start m d (ob_data (w_obj w o)) ->
  gen_plan (cur_reset w o) (cur_viz w o) lp rx (ob_data (w_obj w o)) g rg = planned_scored m lp rx (ob_data (w_obj w o)) g rg.
Proof.
  intros (U1 & _ & _ & U4) (S1 & _ & S3 & _). unfold gen_plan, planned_scored, cur_reset, cur_viz. rewrite U1, U4, S1, S3.
  destruct (m_jit_reset m); reflexivity.
Qed.

Lemma run_sound w o g rg : wf w -> (o < w_objs w)%nat -> ob_class (w_obj w o) = c -> untraced w o ->
  same_but_start m d (ob_data (w_obj w o)) -> cache_ok w -> same_schedule g gs ->
  (g_demo g = true -> w_rev w = None) ->
  returned (snd (run cls w o g rg)) = planned m (ob_data (w_obj w o)) g rg /\ cache_ok (fst (run cls w o g rg)).
Proof.
  intros Hw L Hc U S J Hs Hd. destruct (run_sound_gen w o g rg Hw L (untraced_sound _ _ Hc U S) J Hs) as (lp & rx & A & B & _ & C & _).
  split; [|exact B]. rewrite A, (gen_untraced w o lp rx g rg U S). unfold planned_scored, planned. destruct (g_demo g); [|reflexivity].
  destruct (m_gen m (ob_data (w_obj w o)) (g_motion g)) as [x|e]; [|reflexivity]. destruct (C (Hd eq_refl) eq_refl x eq_refl) as [-> ->]. reflexivity.
Qed.

(** Histories that change start poses only keep every object and the cache sound. *)
Definition all_sound (n : nat) w : Prop := (forall e, (n <= e < w_objs w)%nat -> osound w e) /\ cache_ok w.
Lemma osound_change w o f e : (forall x, same_but_start m d x -> same_but_start m d (f x)) -> osound w e ->
  osound (put_obj w o (mkObj (ob_class (w_obj w o)) (f (ob_data (w_obj w o))) (ob_ref (w_obj w o)) (ob_rx (w_obj w o)))) e.
Proof.
  intros F (H1 & H2 & H3). unfold osound. cbn [put_obj w_obj t_reward t_terminal t_step].
  destruct (upd_cases (w_obj w) o (mkObj (ob_class (w_obj w o)) (f (ob_data (w_obj w o))) (ob_ref (w_obj w o)) (ob_rx (w_obj w o))) e) as [[-> ->]|[-> _]]; [|auto].
  cbn [ob_class ob_data]. auto.
Qed.
Lemma cache_ok_keep w w' : w_env w' = w_env w -> w_rev w' = w_rev w -> t_roll w' = t_roll w -> t_rev w' = t_rev w -> wf w ->
  (forall e, (e < w_objs w)%nat -> osound w e -> osound w' e) ->
  (forall e, (e < w_objs w)%nat -> ob_class (w_obj w e) = c -> same_but_start m d (ob_data (w_obj w e)) ->
     ob_class (w_obj w' e) = c /\ same_but_start m d (ob_data (w_obj w' e))) ->
  cache_ok w -> cache_ok w'.
Proof.
  intros A B C E (_ & _ & W3 & W4) F G [J1 J2].
  assert (K : forall fs, fs_ok w fs -> fsound w fs -> fsound w' fs).
  { intros fs [K1 K2] [K3 K4]. split; [apply F; auto | rewrite C; exact K4]. }
  split; [rewrite A | rewrite B].
  - intros fs Hf. apply K; [eapply W3; eassumption | auto].
  - intros rf Hf. destruct (J2 _ Hf) as (R1 & R2 & R3 & R4 & R5). destruct (W4 _ Hf) as (V1 & V2 & V3).
    destruct (G _ V2 R2 R3) as [G1 G2]. split; [exact R1|]. split; [exact G1|]. split; [exact G2|]. split; [apply K; auto|]. rewrite E. exact R5.
Qed.
Lemma sound_exec n w a : wf w -> start_only m c d gs n a -> all_sound n w -> all_sound n (exec cls w a).
Proof.
  intros Hw T [A J]. destruct a; cbn [exec start_only] in *; try (destruct (Nat.ltb_spec o (w_objs w)) as [L|L]; [|split; assumption]).
  - destruct T as [-> T]. split.
    + cbn [w_objs put_obj]. intros e He. destruct (Nat.eq_dec e (w_objs w)) as [->|N].
      * apply untraced_sound; cbn [w_obj put_obj]; rewrite ?upd_same; auto. apply (proj1 (proj2 Hw)); auto.
      * destruct (A e) as (A1 & A2 & A3); [lia|]. unfold osound. cbn [w_obj put_obj]. rewrite upd_other by lia. auto.
    + apply (cache_ok_keep w); try reflexivity; auto.
      * intros e He (A1 & A2 & A3). unfold osound. cbn [w_obj put_obj]. rewrite upd_other by lia. auto.
      * intros e He A1 A2. cbn [w_obj put_obj]. rewrite upd_other by lia. auto.
  - split.
    + intros e He. apply osound_change; [exact T | apply A, He].
    + apply (cache_ok_keep w); try reflexivity; auto; [intros e _; apply osound_change; exact T|].
      intros e _ A1 A2. cbn [w_obj put_obj].
      destruct (upd_cases (w_obj w) o (mkObj (ob_class (w_obj w o)) (f (ob_data (w_obj w o))) (ob_ref (w_obj w o)) (ob_rx (w_obj w o))) e) as [[-> ->]|[-> _]]; [|split; assumption].
      cbn [ob_class ob_data]. split; [exact A1 | apply T, A2].
  - split; [exact A | apply cache_ok_clear].
  - destruct T as (T1 & T2 & T3 & T4). destruct (run_sound_gen w o g rg Hw L (A o (conj T1 L)) J T4) as (lp & rx & _ & J' & _ & _ & _ & _ & _ & O').
    destruct (wf_run w o g rg L Hw) as [_ E]. split; [|exact J']. rewrite E. intros e He. apply O'; auto.
  - pose proof (core_reset w o) as (E1 & E2 & _ & E4 & E5). split; [rewrite E1; intros e He; apply osound_reset; auto|].
    destruct (roll_tables_reset w o). apply (cache_ok_keep w); try reflexivity; auto; [intros; apply osound_reset; auto | rewrite E2; auto].
  - pose proof (core_reward w o) as (E1 & E2 & _ & E4 & E5). split; [rewrite E1; intros e He; apply osound_reward; auto|].
    destruct (roll_tables_reward w o). apply (cache_ok_keep w); try reflexivity; auto; [intros; apply osound_reward; auto | rewrite E2; auto].
  - pose proof (core_terminal w o) as (E1 & E2 & _ & E4 & E5). split; [rewrite E1; intros e He; apply osound_terminal; auto|].
    destruct (roll_tables_terminal w o). apply (cache_ok_keep w); try reflexivity; auto; [intros; apply osound_terminal; auto | rewrite E2; auto].
  - pose proof (core_step w o viz) as (E1 & E2 & _ & E4 & E5). split; [rewrite E1; intros e He; apply osound_step; auto|].
    destruct (roll_tables w o viz). apply (cache_ok_keep w); try reflexivity; auto; [intros; apply osound_step; auto | rewrite E2; auto].
Qed.
Lemma sound_execs n h : forall w, wf w -> Forall (start_only m c d gs n) h -> all_sound n w -> all_sound n (execs cls w h).
Proof.
  induction h as [|a h IH]; intros w Hw F A; [exact A|]. apply Forall_cons_iff in F. destruct F as [F1 F2].
  apply (IH (exec cls w a)); auto; [apply wf_exec; auto | apply sound_exec; auto].
Qed.
End Sound.

(** Nothing in the dictionary. *)
Definition empty w : Prop := (forall c, w_env w c = None) /\ w_rev w = None.
Lemma empty_exec w a : match a with Run _ _ _ => False | _ => True end -> empty w -> empty (exec cls w a).
Proof.
  intros N [A B]. destruct a; cbn [exec] in *; try (destruct (Nat.ltb_spec o (w_objs w)) as [L|L]; [|split; assumption]).
  - exact (conj A B).
  - exact (conj A B).
  - split; [reflexivity | reflexivity].
  - destruct N.
  - destruct (core_reset w o) as (_ & _ & _ & E4 & E5). split; [rewrite E4 | rewrite E5]; auto.
  - destruct (core_reward w o) as (_ & _ & _ & E4 & E5). split; [rewrite E4 | rewrite E5]; auto.
  - destruct (core_terminal w o) as (_ & _ & _ & E4 & E5). split; [rewrite E4 | rewrite E5]; auto.
  - destruct (core_step w o viz) as (_ & _ & _ & E4 & E5). split; [rewrite E4 | rewrite E5]; auto.
Qed.
Lemma empty_execs h : forall w e, (e = true -> empty w) ->
  fold_left (fun e (a : op (D := D)) => match a with Clear => true | Run _ _ _ => false | _ => e end) h e = true -> empty (execs cls w h).
Proof.
  induction h as [|a h IH]; intros w e He Hf; [apply He, Hf|]. cbn [fold_left] in Hf. cbn [execs fold_left].
  apply (IH (exec cls w a) _ ) in Hf; [exact Hf|]. destruct a; try discriminate; try (intros H; apply empty_exec; [exact I | apply He, H]).
  intros _. split; reflexivity.
Qed.
Lemma empty_cleared b h : cleared h = true -> empty (execs cls (start b) h).
Proof. intros H. apply (empty_execs h (start b) true); [intros _; split; reflexivity | exact H]. Qed.
Lemma cache_ok_empty c d gs w : empty w -> cache_ok c d gs w.
Proof. intros [A B]. split; [intros fs; rewrite A; discriminate | rewrite B; discriminate]. Qed.
Lemma same_refl (m : methods D X Q) d : same_but_start m d d.
Proof. repeat split. Qed.
Lemma schedule_refl g : same_schedule g g.
Proof. repeat split. Qed.

(** An object made in a history and left alone since. *)
Lemma fresh_object b h1 c d h2 : let o := w_objs (execs cls (start b) h1) in
  Forall (leaves_alone o) h2 ->
  let w := execs cls (start b) (h1 ++ New c d :: h2) in
  wf w /\ (o < w_objs w)%nat /\ quiet w o /\ ob_class (w_obj w o) = c /\ ob_data (w_obj w o) = changed o h2 d.
Proof.
  intros o Hl w. unfold w. rewrite execs_app. set (w1 := execs cls (start b) h1) in *.
  assert (W1 : wf w1) by (apply wf_execs, wf_start). cbn [execs fold_left]. set (w2 := exec cls w1 (New c d)).
  assert (W2 : wf w2) by (apply wf_exec; exact W1).
  assert (Q2 : quiet w2 o).
  { destruct W1 as (A & B & C & E). split; [apply (B o); auto|]. split; cbn [w2 exec w_env w_rev put_obj].
    - intros c' fs Hf. destruct (C _ _ Hf). unfold o. lia.
    - intros rf Hf. destruct (E _ Hf) as (E1 & E2 & E3 & E4). unfold o. lia. }
  assert (L2 : (o < w_objs w2)%nat) by (unfold w2, o; cbn; lia).
  assert (B2 : w_obj w2 o = mkObj c d None 0) by (unfold w2, o; cbn [exec w_obj put_obj]; apply upd_same).
  destruct (quiet_execs h2 w2 o L2 Hl W2 Q2) as (A & B & C). fold (execs cls w2 h2).
  split; [apply wf_execs, W2|]. split; [exact B|]. split; [exact A|]. rewrite C, B2. auto.
Qed.
End Proofs.

(** C38. Whatever happened before - any constructions, attribute changes, method calls, planner runs
    and cache clears - planning with an environment object that was made in the history and not used
    yet, with no planner run since the last clear_jit_cache, returns exactly the plan of that object's
    own attributes. *)
Lemma l_C38_fresh_env_after_clear : forall (D X Q : Type) (cls : string -> methods D X Q) (b : obj D X)
  (h1 h2 : list op) (c : string) (d : D) (g : cfg) (rg : prng),
  let o := w_objs (execs cls (start b) h1) in
  cleared (h1 ++ New c d :: h2) = true -> Forall (leaves_alone o) h2 ->
  returned (snd (run cls (execs cls (start b) (h1 ++ New c d :: h2)) o g rg)) = planned (cls c) (changed o h2 d) g rg.
Proof.
  intros D X Q cls b h1 h2 c d g rg o Hc Hl.
  destruct (fresh_object cls b h1 c d h2 Hl) as (W & L & Hq & C & E). fold o in L, Hq, C, E.
  pose proof (empty_cleared cls b _ Hc) as Em.
  set (w := execs cls (start b) (h1 ++ New c d :: h2)) in *.
  destruct (run_sound cls c (ob_data (w_obj w o)) g w o g rg W L C (proj1 Hq) (same_refl _ _) (cache_ok_empty cls _ _ _ _ Em) (schedule_refl g)
    (fun _ => proj2 Em)) as [A _]. rewrite A, E. reflexivity.
Qed.

(** C38. In the same situation the trajectory reported as "unguided" next to a guided plan is the
    rollout of the planned controls with the object's ordinary step - with guidance still enabled,
    because that step was traced before the flag was switched off. *)
Lemma l_C38_unguided_comparison_is_guided : forall (D X Q : Type) (cls : string -> methods D X Q) (b : obj D X)
  (h1 h2 : list op) (c : string) (d : D) (g : cfg) (rg : prng) (out : output),
  let o := w_objs (execs cls (start b) h1) in
  let d' := changed o h2 d in
  cleared (h1 ++ New c d :: h2) = true -> Forall (leaves_alone o) h2 -> g_guid g = true ->
  snd (run cls (execs cls (start b) (h1 ++ New c d :: h2)) o g rg) = Ok out ->
  out_unguided out = Some (trajectory_states (m_step (cls c) d' (m_reward (cls c) d') false) (m_reset (cls c) d') (o_Y0 (out_res out))).
Proof.
  intros D X Q cls b h1 h2 c d g rg out o d' Hc Hl Hg Ho.
  destruct (fresh_object cls b h1 c d h2 Hl) as (W & L & Hq & C & E). fold o in L, Hq, C, E.
  pose proof (empty_cleared cls b _ Hc) as Em.
  set (w := execs cls (start b) (h1 ++ New c d :: h2)) in *.
  destruct (run_sound_gen cls c (ob_data (w_obj w o)) g w o g rg W L (untraced_sound cls c _ _ _ C (proj1 Hq) (same_refl _ _))
    (cache_ok_empty cls _ _ _ _ Em) (schedule_refl g)) as (lp & rx & _ & _ & A & _).
  rewrite (A Hg (proj1 Em _) out Ho). unfold the_step, cur_reset. rewrite (proj1 (proj1 Hq)). fold d' in E. rewrite E.
  destruct (m_jit_reset (cls c)); reflexivity.
Qed.

(** One trial. *)
Lemma changed_map {D : Type} o (fs : list (D -> D)) : forall d, changed o (map (Change o) fs) d = fold_left (fun d f => f d) fs d.
Proof. induction fs as [|f fs IH]; intros d; [reflexivity|]. cbn [map changed fold_left]. rewrite Nat.eqb_refl. apply IH. Qed.
Lemma changes_alone {D : Type} o (fs : list (D -> D)) : Forall (leaves_alone o) (map (Change o) fs).
Proof. apply Forall_forall. intros a Ha. apply in_map_iff in Ha. destruct Ha as (f & <- & _). exact I. Qed.

Lemma cache_ok_changes {D X Q : Type} (cls : string -> methods D X Q) c d gs fs : forall w o, (w_objs w <= o \/ quiet w o)%nat -> wf w ->
  cache_ok cls c d gs w -> cache_ok cls c d gs (execs cls w (map (Change o) fs)) /\
  w_rev (execs cls w (map (Change o) fs)) = w_rev w /\ t_rev (execs cls w (map (Change o) fs)) = t_rev w.
Proof.
  induction fs as [|f fs IH]; intros w o Hq Hw J; [auto|]. cbn [map execs fold_left].
  assert (P : wf (exec cls w (Change o f)) /\ (w_objs (exec cls w (Change o f)) <= o \/ quiet (exec cls w (Change o f)) o)%nat /\
    cache_ok cls c d gs (exec cls w (Change o f)) /\ w_rev (exec cls w (Change o f)) = w_rev w /\ t_rev (exec cls w (Change o f)) = t_rev w).
  { split; [apply wf_exec; exact Hw|]. cbn [exec]. destruct (Nat.ltb_spec o (w_objs w)) as [L|L].
    2:{ split; [left; exact L|]. split; [exact J|]. auto. }
    destruct Hq as [Hq|Hq]; [lia|]. split; [right; exact Hq|]. split; [|auto].
    destruct Hq as (_ & Q1 & Q2). destruct J as [J1 J2].
    assert (K : forall fs, ef_obj fs <> o -> fsound cls c d w fs ->
      fsound cls c d (put_obj w o (mkObj (ob_class (w_obj w o)) (f (ob_data (w_obj w o))) (ob_ref (w_obj w o)) (ob_rx (w_obj w o)))) fs).
    { intros f0 N [(A & B & C) R]. split; [|exact R]. unfold osound. cbn [put_obj w_obj]. rewrite upd_other by auto. auto. }
    split.
    - intros f0 Hf. apply K; [eapply Q1; exact Hf | apply J1; exact Hf].
    - intros rf Hf. destruct (Q2 _ Hf) as [N1 N2]. destruct (J2 _ Hf) as (R1 & R2 & R3 & R4 & R5).
      split; [exact R1|]. cbn [put_obj w_obj t_rev]. rewrite upd_other by auto. split; [exact R2|]. split; [exact R3|]. split; [apply K; auto | exact R5]. }
  destruct P as (P1 & P2 & P3 & P4 & P5). destruct (IH (exec cls w (Change o f)) o P2 P1 P3) as (A & B & C).
  split; [exact A|]. split; [exact (eq_trans B P4) | exact (eq_trans C P5)].
Qed.

Lemma trial_setup_any {D X Q : Type} (cls : string -> methods D X Q) c0 c d0 gs w (t : ptrial D) : wf w -> cache_ok cls c0 d0 gs w ->
  let o := w_objs w in let w1 := execs cls w (trial_ops c o t) in
  wf w1 /\ (o < w_objs w1)%nat /\ untraced w1 o /\ ob_class (w_obj w1 o) = c /\ ob_data (w_obj w1 o) = final_data t /\
  cache_ok cls c0 d0 gs w1 /\ w_rev w1 = w_rev w /\ t_rev w1 = t_rev w.
Proof.
  intros Hw J o w1. unfold w1, trial_ops. cbn [execs fold_left]. set (w2 := exec cls w (New c (tl_data t))).
  assert (W2 : wf w2) by (apply wf_exec; exact Hw).
  assert (Q2 : quiet w2 o).
  { destruct Hw as (A & B & C & E). split; [apply (B o); auto|]. split; cbn [w2 exec w_env w_rev put_obj].
    - intros c' fs Hf. destruct (C _ _ Hf). unfold o. lia.
    - intros rf Hf. destruct (E _ Hf) as (E1 & E2 & E3 & E4). unfold o. lia. }
  assert (L2 : (o < w_objs w2)%nat) by (unfold w2, o; cbn; lia).
  assert (B2 : w_obj w2 o = mkObj c (tl_data t) None 0) by (unfold w2, o; cbn [exec w_obj put_obj]; apply upd_same).
  destruct (quiet_execs cls (map (Change o) (tl_changes t)) w2 o L2 (changes_alone o _) W2 Q2) as (A & B & C).
  assert (J2 : cache_ok cls c0 d0 gs w2).
  { destruct J as [J1 J2]. destruct Hw as (_ & _ & W3 & W4).
    assert (K : forall fs, fs_ok w fs -> fsound cls c0 d0 w fs -> fsound cls c0 d0 w2 fs).
    { intros f0 [_ N] [(A0 & B0 & C0) R]. split; [|exact R]. unfold osound. cbn [w2 exec put_obj w_obj]. rewrite upd_other by lia. auto. }
    split.
    - intros f0 Hf. apply K; [eapply W3; exact Hf | apply J1; exact Hf].
    - intros rf Hf. destruct (W4 _ Hf) as (N1 & N2 & N3). destruct (J2 _ Hf) as (R1 & R2 & R3 & R4 & R5).
      split; [exact R1|]. cbn [w2 exec put_obj w_obj t_rev]. rewrite upd_other by lia. split; [exact R2|]. split; [exact R3|]. split; [apply K; auto | exact R5]. }
  destruct (cache_ok_changes cls c0 d0 gs (tl_changes t) w2 o (or_intror Q2) W2 J2) as (K1 & K2 & K3).
  fold (execs cls w2 (map (Change o) (tl_changes t))).
  split; [apply wf_execs, W2|]. split; [exact B|]. split; [apply A|]. rewrite C, B2. cbn [ob_class ob_data].
  split; [reflexivity|]. split; [apply changed_map|]. split; [exact K1|]. split; [exact K2 | exact K3].
Qed.

Lemma trial_setup {D X Q : Type} (cls : string -> methods D X Q) c d0 gs w (t : ptrial D) : wf w -> cache_ok cls c d0 gs w ->
  let o := w_objs w in let w1 := execs cls w (trial_ops c o t) in
  wf w1 /\ (o < w_objs w1)%nat /\ untraced w1 o /\ ob_class (w_obj w1 o) = c /\ ob_data (w_obj w1 o) = final_data t /\
  cache_ok cls c d0 gs w1 /\ w_rev w1 = w_rev w /\ t_rev w1 = t_rev w.
Proof. apply trial_setup_any. Qed.

Lemma trials_sound {D X Q : Type} (cls : string -> methods D X Q) c d0 gs (ts : list (ptrial D)) : forall w, wf w -> cache_ok cls c d0 gs w ->
  (forall t, In t ts -> same_but_start (cls c) d0 (final_data t) /\ same_schedule (tl_cfg t) gs /\ g_demo (tl_cfg t) = false) ->
  run_trials cls c w ts = map (fun t => planned (cls c) (final_data t) (tl_cfg t) (tl_rng t)) ts.
Proof.
  induction ts as [|t ts IH]; intros w Hw J Ht; [reflexivity|]. cbn [run_trials map].
  destruct (trial_setup cls c d0 gs w t Hw J) as (W1 & L1 & U1 & C1 & E1 & J1 & _). set (w1 := execs cls w (trial_ops c (w_objs w) t)) in *.
  destruct (Ht t (or_introl eq_refl)) as (T1 & T2 & T3).
  destruct (run_sound cls c d0 gs w1 (w_objs w) (tl_cfg t) (tl_rng t) W1 L1 C1 U1) as [A B]; auto; [rewrite E1; exact T1 | congruence|].
  rewrite A, E1. f_equal. apply IH.
  - apply wf_exec. exact W1.
  - cbn [exec]. rewrite (proj2 (Nat.ltb_lt _ _) L1). exact B.
  - intros t' Ht'. apply Ht. right. exact Ht'.
Qed.

(** C38. Consecutive trials, each with a fresh object of the same class, that differ in the start pose
    only and share the noise schedule: without any cache clear in between, each trial returns the plan
    of its own attributes. Guidance may be on or off; the demonstration must be off (see
    C38_demo_of_first_trial). *)
Lemma l_C38_trials_without_clearing : forall (D X Q : Type) (cls : string -> methods D X Q) (b : obj D X)
  (h : list op) (c : string) (ts : list (ptrial D)),
  cleared h = true ->
  (forall t1 t2, In t1 ts -> In t2 ts ->
     same_but_start (cls c) (final_data t1) (final_data t2) /\ same_schedule (tl_cfg t1) (tl_cfg t2)) ->
  (forall t, In t ts -> g_demo (tl_cfg t) = false) ->
  run_trials cls c (execs cls (start b) h) ts = map (fun t => planned (cls c) (final_data t) (tl_cfg t) (tl_rng t)) ts.
Proof.
  intros D X Q cls b h c ts Hc Hp Hd. destruct ts as [|t ts]; [reflexivity|].
  apply (trials_sound cls c (final_data t) (tl_cfg t)).
  - apply wf_execs, wf_start.
  - apply cache_ok_empty, empty_cleared, Hc.
  - intros t' Ht'. destruct (Hp t t' (or_introl eq_refl) Ht') as [A (B1 & B2 & B3)]. split; [exact A|]. split; [|apply Hd, Ht'].
    repeat split; congruence.
Qed.

(** C38. More generally: in a history that only makes objects of one class, changes start poses, calls
    methods, clears the cache and plans without demonstration and guidance, in any order and on any of
    these objects, a fresh object always gets the plan of its own attributes. *)
Lemma l_C38_start_only_histories : forall (D X Q : Type) (cls : string -> methods D X Q) (b : obj D X)
  (h0 h1 h2 : list op) (c : string) (d0 d : D) (g : cfg) (rg : prng),
  let n := w_objs (execs cls (start b) h0) in
  let o := w_objs (execs cls (start b) (h0 ++ h1)) in
  cleared h0 = true -> Forall (start_only (cls c) c d0 g n) (h1 ++ New c d :: h2) -> Forall (leaves_alone o) h2 ->
  g_demo g = false ->
  returned (snd (run cls (execs cls (start b) ((h0 ++ h1) ++ New c d :: h2)) o g rg)) = planned (cls c) (changed o h2 d) g rg.
Proof.
  intros D X Q cls b h0 h1 h2 c d0 d g rg n o Hc Hs Hl Hd.
  destruct (fresh_object cls b (h0 ++ h1) c d h2 Hl) as (W & L & Hq & C & E). fold o in L, Hq, C, E.
  set (w := execs cls (start b) ((h0 ++ h1) ++ New c d :: h2)) in *.
  assert (A0 : all_sound cls c d0 g n (execs cls (start b) h0)).
  { split; [unfold n; lia|]. apply cache_ok_empty, empty_cleared, Hc. }
  assert (W0 : wf (execs cls (start b) h0)) by apply wf_execs, wf_start.
  assert (A : all_sound cls c d0 g n w).
  { unfold w. rewrite <- app_assoc, execs_app. apply sound_execs; auto. }
  assert (Ln : (n <= o)%nat).
  { unfold n, o. rewrite execs_app. clear - W0. revert W0. generalize (execs cls (start b) h0). induction h1 as [|a h IH]; intros w Hw; [cbn; lia|].
    pose proof (exec_objs cls w a Hw). pose proof (IH _ (wf_exec cls w a Hw)). cbn [execs fold_left] in *. unfold execs in *. lia. }
  assert (S : same_but_start (cls c) d0 (ob_data (w_obj w o))) by (apply (proj1 A o); lia).
  destruct (run_sound cls c d0 g w o g rg W L C (proj1 Hq) S (proj2 A) (schedule_refl g)) as [R _]; [congruence|]. rewrite R, E. reflexivity.
Qed.

Lemma trials_demo {D X Q : Type} (cls : string -> methods D X Q) c d0 gs lp rx key (ts : list (ptrial D)) : forall w, wf w -> cache_ok cls c d0 gs w ->
  (exists rf r, w_rev w = Some rf /\ t_rev w (rf_id rf) key = Some r /\ rr_logpd r = lp /\ rr_rx r = rx) ->
  (forall t, In t ts -> same_but_start (cls c) d0 (final_data t) /\ same_schedule (tl_cfg t) gs /\ key_of (tl_cfg t) = key /\ g_guid (tl_cfg t) = false) ->
  run_trials cls c w ts = map (fun t => planned_scored (cls c) lp rx (final_data t) (tl_cfg t) (tl_rng t)) ts.
Proof.
  induction ts as [|t ts IH]; intros w Hw J He Ht; [reflexivity|]. cbn [run_trials map].
  destruct (trial_setup cls c d0 gs w t Hw J) as (W1 & L1 & U1 & C1 & E1 & J1 & R1 & V1). set (w1 := execs cls w (trial_ops c (w_objs w) t)) in *.
  destruct (Ht t (or_introl eq_refl)) as (T1 & T2 & T3 & T4).
  assert (S1 : same_but_start (cls c) d0 (ob_data (w_obj w1 (w_objs w)))) by (rewrite E1; exact T1).
  destruct (run_sound_gen cls c d0 gs w1 (w_objs w) (tl_cfg t) (tl_rng t) W1 L1 (untraced_sound cls c d0 _ _ C1 U1 S1) J1 T2)
    as (lp' & rx' & A & J2 & _ & _ & B & F & G & _).
  destruct He as (rf & r & H1 & H2 & H3 & H4). rewrite <- R1 in H1. rewrite <- V1, <- T3 in H2. destruct (B _ _ H1 H2) as [-> ->].
  rewrite A, (gen_untraced cls c d0 _ _ _ _ _ _ U1 S1), E1, H3, H4. f_equal. apply IH.
  - apply wf_exec. exact W1.
  - cbn [exec]. rewrite (proj2 (Nat.ltb_lt _ _) L1). exact J2.
  - cbn [exec]. rewrite (proj2 (Nat.ltb_lt _ _) L1). destruct (snd (run cls w1 (w_objs w) (tl_cfg t) (tl_rng t))) as [out|e] eqn:Eo.
    + destruct (F T4 out eq_refl) as (rf' & r' & F1 & F2 & F3 & F4). exists rf', r'. rewrite T3 in F2. rewrite F3, F4. auto.
    + rewrite (G e eq_refl). exists rf, r. rewrite T3 in H2. auto.
  - intros t' Ht'. apply Ht. right. exact Ht'.
Qed.

(** C38, what is not true. With demonstrations, trials without a cache clear score all their samples
    against the demonstration and the demonstration reward of the first trial, not their own. *)
Lemma l_C38_demo_of_first_trial : forall (D X Q : Type) (cls : string -> methods D X Q) (b : obj D X)
  (h : list op) (c : string) (t : ptrial D) (ts : list (ptrial D)) (x : X),
  cleared h = true ->
  (forall t', In t' ts -> same_but_start (cls c) (final_data t) (final_data t') /\ same_schedule (tl_cfg t') (tl_cfg t) /\
     same_static (tl_cfg t') (tl_cfg t) /\ g_guid (tl_cfg t') = false) ->
  g_demo (tl_cfg t) = true -> g_guid (tl_cfg t) = false ->
  m_gen (cls c) (final_data t) (g_motion (tl_cfg t)) = Ok x ->
  let d := final_data t in
  run_trials cls c (execs cls (start b) h) (t :: ts) =
  map (fun t' => planned_scored (cls c) (m_logpd (cls c) d (Some x)) (m_score (cls c) d x (m_reward (cls c) d) (m_terminal (cls c) d))
                   (final_data t') (tl_cfg t') (tl_rng t')) (t :: ts).
Proof.
  intros D X Q cls b h c t ts x Hc Hp Hd Hg Hx d. set (w := execs cls (start b) h).
  assert (Hw : wf w) by apply wf_execs, wf_start. assert (Em : empty w) by (apply empty_cleared, Hc).
  assert (J : cache_ok cls c d (tl_cfg t) w) by (apply cache_ok_empty, Em). cbn [run_trials map].
  destruct (trial_setup cls c d (tl_cfg t) w t Hw J) as (W1 & L1 & U1 & C1 & E1 & J1 & R1 & V1). set (w1 := execs cls w (trial_ops c (w_objs w) t)) in *.
  assert (S1 : same_but_start (cls c) d (ob_data (w_obj w1 (w_objs w)))) by (rewrite E1; apply same_refl).
  destruct (run_sound_gen cls c d (tl_cfg t) w1 (w_objs w) (tl_cfg t) (tl_rng t) W1 L1 (untraced_sound cls c d _ _ C1 U1 S1) J1 (schedule_refl _))
    as (lp' & rx' & A & J2 & _ & B & _ & F & G & _).
  rewrite E1 in B. destruct (B (eq_trans R1 (proj2 Em)) Hd x Hx) as [-> ->].
  rewrite A, (gen_untraced cls c d _ _ _ _ _ _ U1 S1), E1. f_equal. apply (trials_demo cls c d (tl_cfg t) _ _ (key_of (tl_cfg t))).
  - apply wf_exec. exact W1.
  - cbn [exec]. rewrite (proj2 (Nat.ltb_lt _ _) L1). exact J2.
  - cbn [exec]. rewrite (proj2 (Nat.ltb_lt _ _) L1). destruct (snd (run cls w1 (w_objs w) (tl_cfg t) (tl_rng t))) as [out|e] eqn:Eo.
    + exact (F Hg out eq_refl).
    + exfalso. cbn [returned] in A. unfold gen_plan in A. rewrite Hd, E1, Hx in A. discriminate.
  - intros t' Ht'. destruct (Hp t' Ht') as (P1 & P2 & (K1 & K2 & K3 & K4 & K5) & P4). split; [exact P1|]. split; [exact P2|]. split; [|exact P4].
    unfold key_of. rewrite K1, K2, K3, K4, K5. reflexivity.
Qed.

(** ** Using one object several times. *)
Section Again.
Context {D X Q : Type}.
Variable cls : string -> methods D X Q.
Local Notation W := (world D X Q).
Implicit Types w : W.

Lemma demo_reset w o g : t_reset (fst (prepare_demo cls w o g)) = t_reset w.
Proof.
  unfold prepare_demo. destruct (g_demo g); [|reflexivity]. destruct (m_gen _ _ _); [|reflexivity].
  assert (A : t_reset (fst (call_reward cls w o)) = t_reset w) by (unfold call_reward; destruct (t_reward w o); reflexivity).
  destruct (call_reward cls w o) as [w1 f]. cbn [fst] in A.
  assert (B : t_reset (fst (call_terminal cls w1 o)) = t_reset w1) by (unfold call_terminal; destruct (t_terminal w1 o); reflexivity).
  destruct (call_terminal cls w1 o) as [w2 tm]. cbn [fst put_obj t_reset] in *. congruence.
Qed.
Lemma demo_obj w o g e : ob_class (w_obj (fst (prepare_demo cls w o g)) e) = ob_class (w_obj w e) /\
  ob_data (w_obj (fst (prepare_demo cls w o g)) e) = ob_data (w_obj w e).
Proof.
  unfold prepare_demo. destruct (g_demo g); [|auto]. destruct (m_gen _ _ _) as [x|]; [|auto].
  pose proof (core_reward cls w o) as (_ & A & _). destruct (call_reward cls w o) as [w1 f]. cbn [fst] in A.
  pose proof (core_terminal cls w1 o) as (_ & B & _). destruct (call_terminal cls w1 o) as [w2 tm]. cbn [fst put_obj w_obj] in *.
  unfold data. rewrite B, A. destruct (upd_cases (w_obj w) o (mkObj (ob_class (w_obj w o)) (ob_data (w_obj w o)) (Some x)
    (m_score (meth cls w2 o) (ob_data (w_obj w o)) x f tm)) e) as [[-> ->]|[-> _]]; auto.
Qed.

(** The initial state a run uses. *)
Definition start_of w (o : nat) : State Q :=
  if m_jit_reset (meth cls w o) then match t_reset w o with Some v => v | None => m_reset (meth cls w o) (data w o) end
  else m_reset (meth cls w o) (data w o).
Lemma run_start w o g rg out : snd (run cls w o g rg) = Ok out ->
  hd_error (o_traj (out_res out)) = Some (st_q (start_of w o)) /\
  (m_jit_reset (meth cls w o) = true -> t_reset (fst (run cls w o g rg)) o = Some (start_of w o)).
Proof.
  intros Ho. pose proof (run_inv cls w o g rg) as I. pose proof (demo_reset w o g) as R1. pose proof (demo_obj w o g o) as [C1 D1].
  destruct (prepare_demo cls w o g) as [w1 [u|x]]; cbn [fst] in *; [|rewrite I in Ho; discriminate].
  destruct I as (w2 & fs & w3 & st0 & w4 & rf & w5 & rev & Ybars & Yfin & w6 & roll & w7 & step & w8 & un & w9 & roll' &
    E2 & E3 & E4 & E5 & EL & E6 & E7 & E8 & E9 & ER). rewrite ER in *. cbn [fst snd] in *. injection Ho as <-. cbn [out_res o_traj trajectory_states hd_error].
  assert (P : st0 = start_of w o /\ (m_jit_reset (meth cls w o) = true -> t_reset w3 o = Some st0)).
  { assert (B2 : w_obj w2 = w_obj w1 /\ t_reset w2 = t_reset w1) by (unfold get_funcs in E2; destruct (w_env w1 _); injection E2 as <- <-; auto).
    destruct B2 as [B2 T2]. unfold call_reset, start_of, meth, data in *. rewrite B2, C1, D1, T2, R1 in E3.
    destruct (m_jit_reset (cls (ob_class (w_obj w o)))).
    - destruct (t_reset w o) as [v|] eqn:Er; injection E3 as <- <-.
      + split; [reflexivity|]. intros _. congruence.
      + split; [reflexivity|]. intros _. cbn [t_reset]. apply upd_same.
    - injection E3 as <- <-. split; [reflexivity | discriminate]. }
  destruct P as [-> P]. split; [reflexivity|]. intros Hj. specialize (P Hj).
  assert (G4 : grows w3 w4) by (unfold get_rev in E4; destruct (w_rev w3); injection E4 as <- <-; apply grows_same; reflexivity).
  pose proof (grows_rev cls w4 rf g) as G5. rewrite E5 in G5.
  pose proof (grows_roll cls w5 fs (g_Hsample g)) as G6. rewrite E6 in G6.
  assert (G7 : grows w6 w7).
  { destruct (g_guid g); [pose proof (grows_step cls w6 o true) as G | pose proof (grows_step cls w6 (ef_obj fs) false) as G]; rewrite E7 in G; exact G. }
  assert (G8 : grows w7 w8).
  { destruct (g_guid g); [|injection E8 as <- <-; apply grows_refl]. cbv zeta in E8.
    match type of E8 with context [call_step cls ?x o false] => pose proof (grows_step cls x o false) as G; destruct (call_step cls x o false) as [wu' us] end.
    injection E8 as <- <-. exact G. }
  pose proof (grows_roll cls w8 fs (g_Hsample g)) as G9. rewrite E9 in G9. cbn [fst] in *.
  pose proof (grows_trans _ _ _ G4 (grows_trans _ _ _ G5 (grows_trans _ _ _ G6 (grows_trans _ _ _ G7 (grows_trans _ _ _ G8 G9))))) as (G & _).
  apply G, P.
Qed.
Lemma class_execs h : forall w e, wf w -> (e < w_objs w)%nat -> ob_class (w_obj (execs cls w h) e) = ob_class (w_obj w e).
Proof.
  induction h as [|a h IH]; intros w e Hw L; [reflexivity|]. cbn [execs fold_left]. change (fold_left (exec cls) h (exec cls w a)) with (execs cls (exec cls w a) h).
  pose proof (exec_objs cls w a Hw). rewrite IH; [apply class_exec; exact L | apply wf_exec; exact Hw | lia].
Qed.

(** A run right after a clear, without demonstration and guidance: what is in effect and what is traced. *)
Definition rew_of w (o : nat) : Q -> R := match t_reward w o with Some f => f | None => m_reward (meth cls w o) (data w o) end.
Definition step_of w (o : nat) : State Q -> act -> State Q :=
  match t_step w o false with Some f => f | None => m_step (meth cls w o) (data w o) (rew_of w o) false end.
Definition term_of w (o : nat) : Q -> R := match t_terminal w o with Some f => f | None => m_terminal (meth cls w o) (data w o) end.
Lemma step_is w o : snd (call_step cls w o false) = step_of w o.
Proof.
  unfold call_step, step_of, rew_of. destruct (t_step w o false); [reflexivity|]. unfold call_reward. destruct (t_reward w o); reflexivity.
Qed.
Lemma term_is w o : snd (call_terminal cls w o) = term_of w o.
Proof. unfold call_terminal, term_of. destruct (t_terminal w o); reflexivity. Qed.
Lemma term_stored w o : t_terminal (fst (call_terminal cls w o)) o = Some (snd (call_terminal cls w o)).
Proof. unfold call_terminal. destruct (t_terminal w o) eqn:E; [exact E|]. cbn [fst snd t_terminal]. apply upd_same. Qed.
Lemma term_of_step w o v : term_of (fst (call_step cls w o v)) o = term_of w o.
Proof.
  pose proof (core_step cls w o v) as (_ & A & _).
  assert (B : t_terminal (fst (call_step cls w o v)) = t_terminal w).
  { unfold call_step. destruct (t_step w o v); [reflexivity|]. unfold call_reward. destruct (t_reward w o); reflexivity. }
  unfold term_of, meth, data. rewrite A, B. reflexivity.
Qed.
Definition clean_env w (o : nat) : penv Q :=
  mkPenv (start_of w o) (step_of w o) (step_of w o) (term_of w o) (m_term_w (meth cls w o) (data w o))
    (m_steer_w (meth cls w o) (data w o)) (m_dmax (meth cls w o) (data w o)) (fun _ _ => 0) 0.
Lemma run_clean w o g rg : wf w -> empty w -> g_demo g = false -> g_guid g = false ->
  returned (snd (run cls w o g rg)) = Ok (run_diffusion_core (clean_env w o) g rg) /\
  t_step (fst (run cls w o g rg)) o false = Some (step_of w o) /\ t_terminal (fst (run cls w o g rg)) o = Some (term_of w o).
Proof.
  intros Hw [Em1 Em2] Hd Hg. pose proof (run_inv cls w o g rg) as I. unfold prepare_demo in I. rewrite Hd in I.
  destruct I as (w2 & fs & w3 & st0 & w4 & rf & w5 & rev & Ybars & Yfin & w6 & roll & w7 & step & w8 & un & w9 & roll' &
    E2 & E3 & E4 & E5 & EL & E6 & E7 & E8 & E9 & ER). rewrite ER. cbn [fst snd]. rewrite Hg in *. injection E8 as <- <-.
  unfold get_funcs in E2. rewrite Em1 in E2. injection E2 as <- <-.
  set (fs := mkFuncs (w_fns w) o) in *. cbn [ef_obj fs] in E7.
  match type of E3 with call_reset cls ?x o = _ => set (w2 := x) in * end.
  assert (S0 : st0 = start_of w o).
  { unfold call_reset, start_of in *. change (meth cls w2 o) with (meth cls w o) in E3. change (data w2 o) with (data w o) in E3.
    change (t_reset w2 o) with (t_reset w o) in E3.
    destruct (m_jit_reset (meth cls w o)); [destruct (t_reset w o)|]; injection E3 as _ <-; reflexivity. }
  pose proof (core_reset cls w2 o) as (_ & B3 & F3 & _ & R3). pose proof (viz_reset cls w2 o) as V3. pose proof (roll_tables_reset cls w2 o) as [TA3 TB3].
  assert (K3 : t_reward w3 = t_reward w /\ t_terminal w3 = t_terminal w).
  { unfold call_reset in E3. destruct (m_jit_reset _); [destruct (t_reset w2 o)|]; injection E3 as <- _; auto. }
  destruct K3 as [K31 K32]. rewrite E3 in *. cbn [fst] in *.
  change (w_rev w2) with (w_rev w) in R3. change (w_fns w2) with (S (w_fns w)) in F3. change (w_obj w2) with (w_obj w) in B3.
  unfold get_rev in E4. rewrite R3, Em2 in E4. injection E4 as <- <-. cbn [rf_cfg] in EL.
  match type of E5 with call_rev cls ?x ?y g = _ => set (w4 := x) in *; set (rf := y) in * end.
  assert (N4 : t_rev w4 (rf_id rf) (key_of g) = None).
  { change (t_rev w3 (w_fns w3) (key_of g) = None). rewrite TB3, F3. apply (proj1 Hw (S (w_fns w))). lia. }
  assert (M4 : t_roll w4 (ef_id fs) (g_Hsample g) = None).
  { change (t_roll w3 (w_fns w) (g_Hsample g) = None). rewrite TA3. apply (proj1 Hw (w_fns w)). lia. }
  assert (SO : step_of w4 o = step_of w o).
  { unfold step_of, rew_of, meth, data. change (t_step w4 o) with (t_step w3 o). change (t_reward w4) with (t_reward w3). change (w_obj w4) with (w_obj w3).
    rewrite V3, K31, B3. reflexivity. }
  assert (TO : term_of w4 o = term_of w o).
  { unfold term_of, meth, data. change (t_terminal w4) with (t_terminal w3). change (w_obj w4) with (w_obj w3). rewrite K32, B3. reflexivity. }
  unfold call_rev in E5. rewrite N4 in E5. change (rf_funcs rf) with fs in E5.
  assert (RS : snd (call_roll cls w4 fs (g_Hsample g)) = mkRoll (step_of w o) (term_of w o) (m_term_w (meth cls w o) (data w o)) /\
    t_step (fst (call_roll cls w4 fs (g_Hsample g))) o false = Some (step_of w o) /\
    t_terminal (fst (call_roll cls w4 fs (g_Hsample g))) o = Some (term_of w o)).
  { unfold call_roll. rewrite M4. change (ef_obj fs) with o.
    pose proof (step_is w4 o) as A1. pose proof (step_stored cls w4 o false) as A2. pose proof (term_of_step w4 o false) as A3. pose proof (core_step cls w4 o false) as (_ & A4 & _).
    destruct (call_step cls w4 o false) as [wa sa]. cbn [fst snd] in *.
    pose proof (term_is wa o) as B1. pose proof (term_stored wa o) as B2. pose proof (core_terminal cls wa o) as (_ & B4 & _).
    pose proof (viz_terminal cls wa o o) as B5. destruct (call_terminal cls wa o) as [wb tb]. cbn [fst snd t_step t_terminal] in *.
    unfold meth, data. rewrite B4, A4. change (w_obj w4) with (w_obj w3). rewrite B3. rewrite A1, SO, B1, A3, TO.
    split; [reflexivity|]. split; [rewrite B5, A2, A1, SO; reflexivity|]. rewrite B2, B1, A3, TO. reflexivity. }
  destruct RS as (RS1 & RS2 & RS3).
  pose proof (core_roll cls w4 fs (g_Hsample g)) as (_ & RB & _). pose proof (roll_stored cls w4 fs (g_Hsample g)) as RT.
  destruct (call_roll cls w4 fs (g_Hsample g)) as [wr rr]. cbn [fst snd] in *. subst rr.
  injection E5 as <- <-. unfold meth, data in EL, E6. rewrite RB in *. change (w_obj w4) with (w_obj w3) in *. rewrite B3 in *. change (rf_obj rf) with o in *.
  match type of E6 with call_roll cls ?x _ _ = _ => rewrite (roll_again cls x fs (g_Hsample g) _ RT) in E6 end. injection E6 as <- <-.
  unfold call_step in E7. cbn [t_step] in E7. rewrite RS2 in E7. injection E7 as <- <-.
  match type of E9 with call_roll cls ?x _ _ = _ => rewrite (roll_again cls x fs (g_Hsample g) _ RT) in E9 end. injection E9 as <- <-.
  split; [|split; [exact RS2 | exact RS3]]. cbn [returned out_res]. f_equal.
  rewrite (loop_agree _ st0 g g (clean_env w o) rg) in EL; [|reflexivity | apply schedule_refl| |].
  2:{ subst st0. split; [reflexivity|]. do 5 (split; [reflexivity|]). rewrite Hd. discriminate. }
  2:{ apply indices_range. }
  unfold run_diffusion_core. rewrite EL, Hg. subst st0. reflexivity.
Qed.
End Again.

(** C38, the reverse of the medal. For the classes whose reset is traced (all but the N-trailer) the
    start pose of an object is fixed by its first planner run: every later run on the same object starts
    there, whatever was set on it and however often the cache was cleared in between. *)
Lemma l_C38_start_fixed_by_first_run : forall (D X Q : Type) (cls : string -> methods D X Q) (b : obj D X)
  (h1 h2 : list op) (o : nat) (g1 g2 : cfg) (rg1 rg2 : prng) (out1 out2 : output),
  let w1 := execs cls (start b) h1 in
  let w2 := execs cls (start b) (h1 ++ Run o g1 rg1 :: h2) in
  (o < w_objs w1)%nat -> m_jit_reset (cls (ob_class (w_obj w1 o))) = true ->
  snd (run cls w1 o g1 rg1) = Ok out1 -> snd (run cls w2 o g2 rg2) = Ok out2 ->
  hd_error (o_traj (out_res out2)) = hd_error (o_traj (out_res out1)).
Proof.
  intros D X Q cls b h1 h2 o g1 g2 rg1 rg2 out1 out2 w1 w2 L Hj H1 H2.
  assert (W1 : wf w1) by apply wf_execs, wf_start.
  destruct (run_start cls w1 o g1 rg1 out1 H1) as [A1 A2]. specialize (A2 Hj).
  destruct (run_start cls w2 o g2 rg2 out2 H2) as [B1 _]. rewrite A1, B1.
  assert (E2 : w2 = execs cls (fst (run cls w1 o g1 rg1)) h2).
  { unfold w2. rewrite execs_app. cbn [execs fold_left exec]. fold (execs cls (start b) h1). fold w1. rewrite (proj2 (Nat.ltb_lt _ _) L). reflexivity. }
  destruct (wf_run cls w1 o g1 rg1 L W1) as [Wr Er].
  assert (C2 : ob_class (w_obj w2 o) = ob_class (w_obj w1 o)) by (rewrite E2, class_execs; [apply data_run | exact Wr | lia]).
  assert (T2 : t_reset w2 o = Some (start_of cls w1 o)) by (rewrite E2; apply (proj1 (grows_execs cls h2 _)); exact A2).
  unfold start_of, meth. unfold start_of, meth in T2. rewrite C2, Hj, T2, Hj. reflexivity.
Qed.

(** C38. The N-trailer's reset is not traced: each run starts at the start pose the object has then. *)
Lemma l_C38_untraced_reset_follows_start : forall (D X Q : Type) (cls : string -> methods D X Q) (b : obj D X)
  (h : list op) (o : nat) (g : cfg) (rg : prng) (out : output),
  let w := execs cls (start b) h in
  let m := cls (ob_class (w_obj w o)) in
  m_jit_reset m = false -> snd (run cls w o g rg) = Ok out ->
  hd_error (o_traj (out_res out)) = Some (st_q (m_reset m (ob_data (w_obj w o)))).
Proof.
  intros D X Q cls b h o g rg out w m Hj H. destruct (run_start cls w o g rg out H) as [A _]. rewrite A.
  unfold start_of, meth. fold m. rewrite Hj. reflexivity.
Qed.

(** C38. Planning twice with the same object, same configuration and same random numbers, each time
    right after a cache clear (no demonstration, no guidance): the two results are identical, whatever
    attributes - start, goal, obstacles, dimensions, rewards - were changed in between, as long as
    terminal_reward_weight, steering_weight and delta_max are the same. clear_jit_cache does not make an
    object usable again after changing it. *)
Lemma l_C38_used_object_ignores_changes : forall (D X Q : Type) (cls : string -> methods D X Q) (b : obj D X)
  (h1 h2 : list op) (o : nat) (g : cfg) (rg : prng),
  let w1 := execs cls (start b) h1 in
  let w2 := execs cls (start b) (h1 ++ Run o g rg :: h2) in
  let m := cls (ob_class (w_obj w1 o)) in
  let d1 := ob_data (w_obj w1 o) in let d2 := ob_data (w_obj w2 o) in
  (o < w_objs w1)%nat -> cleared h1 = true -> cleared (h1 ++ Run o g rg :: h2) = true ->
  g_demo g = false -> g_guid g = false -> m_jit_reset m = true ->
  m_term_w m d1 = m_term_w m d2 -> m_steer_w m d1 = m_steer_w m d2 -> m_dmax m d1 = m_dmax m d2 ->
  returned (snd (run cls w2 o g rg)) = returned (snd (run cls w1 o g rg)).
Proof.
  intros D X Q cls b h1 h2 o g rg w1 w2 m d1 d2 L C1 C2 Hd Hg Hj X1 X2 X3.
  assert (W1 : wf w1) by apply wf_execs, wf_start. assert (W2 : wf w2) by apply wf_execs, wf_start.
  destruct (run_clean cls w1 o g rg W1 (empty_cleared cls b _ C1) Hd Hg) as (A & T1 & T2).
  destruct (run_clean cls w2 o g rg W2 (empty_cleared cls b _ C2) Hd Hg) as (B & _).
  assert (T3 : t_reset (fst (run cls w1 o g rg)) o = Some (start_of cls w1 o)).
  { destruct (snd (run cls w1 o g rg)) as [out|e] eqn:Eo; [|discriminate A]. apply (run_start cls w1 o g rg out Eo). exact Hj. }
  assert (E2 : w2 = execs cls (fst (run cls w1 o g rg)) h2).
  { unfold w2. rewrite execs_app. cbn [execs fold_left exec]. fold (execs cls (start b) h1). fold w1. rewrite (proj2 (Nat.ltb_lt _ _) L). reflexivity. }
  destruct (wf_run cls w1 o g rg L W1) as [Wr Er].
  assert (K : ob_class (w_obj w2 o) = ob_class (w_obj w1 o)) by (rewrite E2, class_execs; [apply data_run | exact Wr | lia]).
  destruct (grows_execs cls h2 (fst (run cls w1 o g rg))) as (G1 & _ & G3 & G4 & _). rewrite <- E2 in *.
  rewrite B, A. f_equal. f_equal. unfold clean_env.
  assert (S1 : start_of cls w2 o = start_of cls w1 o).
  { unfold start_of at 1. unfold meth. rewrite K. fold m. rewrite Hj, (G1 _ _ T3). reflexivity. }
  assert (S2 : step_of cls w2 o = step_of cls w1 o) by (unfold step_of at 1; rewrite (G4 _ _ _ T1); reflexivity).
  assert (S3 : term_of cls w2 o = term_of cls w1 o) by (unfold term_of at 1; rewrite (G3 _ _ T2); reflexivity).
  rewrite S1, S2, S3. unfold meth, data. rewrite K. fold m d1 d2. rewrite X1, X2, X3. reflexivity.
Qed.

Lemma run_schedule {D X Q : Type} (cls : string -> methods D X Q) w o g g' rg rf : w_rev w = Some rf -> g_Ndiffuse g' = g_Ndiffuse g ->
  returned (snd (run cls w o (with_schedule g g') rg)) = returned (snd (run cls w o g rg)).
Proof.
  intros Hr Hn. unfold run. change (prepare_demo cls w o (with_schedule g g')) with (prepare_demo cls w o g).
  assert (R1 : w_rev (fst (prepare_demo cls w o g)) = w_rev w).
  { unfold prepare_demo. destruct (g_demo g); [|reflexivity]. destruct (m_gen _ _ _); [|reflexivity].
    pose proof (core_reward cls w o) as (_ & _ & _ & _ & A). destruct (call_reward cls w o) as [w1 f]. cbn [fst] in A.
    pose proof (core_terminal cls w1 o) as (_ & _ & _ & _ & B). destruct (call_terminal cls w1 o) as [w2 tm]. cbn [fst put_obj w_rev] in *. congruence. }
  destruct (prepare_demo cls w o g) as [w1 [u|e]]; [|reflexivity]. cbn [fst] in R1.
  assert (R2 : w_rev (fst (get_funcs w1 o)) = w_rev w1) by (unfold get_funcs; destruct (w_env w1 _); reflexivity).
  destruct (get_funcs w1 o) as [w2 fs]. cbn [fst] in R2.
  pose proof (core_reset cls w2 o) as (_ & _ & _ & _ & R3). destruct (call_reset cls w2 o) as [w3 st0]. cbn [fst] in R3.
  unfold get_rev. rewrite R3, R2, R1, Hr.
  assert (EI : diffusion_indices (with_schedule g g') = diffusion_indices g) by (unfold diffusion_indices; cbn [with_schedule g_Ndiffuse]; rewrite Hn; reflexivity).
  change (call_rev cls w3 rf (with_schedule g g')) with (call_rev cls w3 rf g). destruct (call_rev cls w3 rf g) as [w5 rev].
  rewrite EI. change (YN (with_schedule g g')) with (YN g).
  reflexivity.
Qed.
(** C38, what is not true. A change of the noise schedule (beta0, betaT) between trials without a cache
    clear is ignored: the second trial uses the schedule of the first. *)
Lemma l_C38_schedule_of_first_trial : forall (D X Q : Type) (cls : string -> methods D X Q) (b : obj D X)
  (h : list op) (c : string) (t1 t2 : ptrial D),
  cleared h = true -> same_but_start (cls c) (final_data t1) (final_data t2) ->
  g_demo (tl_cfg t1) = false -> g_demo (tl_cfg t2) = false -> g_guid (tl_cfg t1) = false ->
  g_Ndiffuse (tl_cfg t1) = g_Ndiffuse (tl_cfg t2) ->
  run_trials cls c (execs cls (start b) h) [t1; t2] =
  [planned (cls c) (final_data t1) (tl_cfg t1) (tl_rng t1);
   planned (cls c) (final_data t2) (with_schedule (tl_cfg t2) (tl_cfg t1)) (tl_rng t2)].
Proof.
  intros D X Q cls b h c t1 t2 Hc S D1 D2 G1 N. set (w := execs cls (start b) h).
  assert (Hw : wf w) by apply wf_execs, wf_start. assert (Em : empty w) by (apply empty_cleared, Hc).
  assert (J : cache_ok cls c (final_data t1) (tl_cfg t1) w) by (apply cache_ok_empty, Em). cbn [run_trials].
  destruct (trial_setup cls c _ (tl_cfg t1) w t1 Hw J) as (W1 & L1 & U1 & C1 & E1 & J1 & R1 & V1). set (w1 := execs cls w (trial_ops c (w_objs w) t1)) in *.
  assert (S1 : same_but_start (cls c) (final_data t1) (ob_data (w_obj w1 (w_objs w)))) by (rewrite E1; apply same_refl).
  destruct (run_sound cls c (final_data t1) (tl_cfg t1) w1 (w_objs w) (tl_cfg t1) (tl_rng t1) W1 L1 C1 U1 S1 J1 (schedule_refl _)) as [A1 J2]; [congruence|].
  destruct (run_sound_gen cls c (final_data t1) (tl_cfg t1) w1 (w_objs w) (tl_cfg t1) (tl_rng t1) W1 L1 (untraced_sound cls c _ _ _ C1 U1 S1) J1 (schedule_refl _))
    as (lp' & rx' & _ & _ & _ & _ & _ & F & _).
  assert (Ev : exec cls w1 (Run (w_objs w) (tl_cfg t1) (tl_rng t1)) = fst (run cls w1 (w_objs w) (tl_cfg t1) (tl_rng t1))).
  { cbn [exec]. rewrite (proj2 (Nat.ltb_lt _ _) L1). reflexivity. }
  rewrite Ev. destruct (wf_run cls w1 (w_objs w) (tl_cfg t1) (tl_rng t1) L1 W1) as [W2 _].
  assert (Rv : exists rf, w_rev (fst (run cls w1 (w_objs w) (tl_cfg t1) (tl_rng t1))) = Some rf).
  { destruct (snd (run cls w1 (w_objs w) (tl_cfg t1) (tl_rng t1))) as [out|e] eqn:Eo.
    - destruct (F G1 out eq_refl) as (rf & r & F1 & _). exists rf. exact F1.
    - exfalso. cbn [returned] in A1. unfold planned in A1. rewrite D1 in A1. discriminate. }
  rewrite A1, E1. f_equal. set (w2 := fst (run cls w1 (w_objs w) (tl_cfg t1) (tl_rng t1))) in *.
  destruct (trial_setup cls c _ (tl_cfg t1) w2 t2 W2 J2) as (W3 & L3 & U3 & C3 & E3 & J3 & R3 & V3). set (w3 := execs cls w2 (trial_ops c (w_objs w2) t2)) in *.
  destruct Rv as (rf & Rv). rewrite <- (run_schedule cls w3 (w_objs w2) (tl_cfg t2) (tl_cfg t1) (tl_rng t2) rf) by (auto; congruence).
  f_equal.
  destruct (run_sound cls c (final_data t1) (tl_cfg t1) w3 (w_objs w2) (with_schedule (tl_cfg t2) (tl_cfg t1)) (tl_rng t2) W3 L3 C3 U3) as [A3 _]; auto.
  - rewrite E3. exact S.
  - repeat split.
  - cbn [with_schedule g_demo]. congruence.
  - rewrite A3, E3. reflexivity.
Qed.
