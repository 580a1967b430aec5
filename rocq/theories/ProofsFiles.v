(** * ProofsFiles: denoising frames, animation files (C46) and merged progress videos (C49). *)
From Coq Require Import Lia Lra Psatz String Ascii DecimalString DecimalNat ZArith Permutation Sorted.
From Verif Require Import SpecGeom Base BaseFacts Params Rollout Anim SpecAnim.
Import ListNotations.
Local Open Scope string_scope.
Local Open Scope list_scope.
Open Scope R_scope.

(** ** Which denoising steps are drawn. *)
Lemma mod_skip : forall (skip : Z) (k : nat), skip <> 0%Z ->
  Z.eqb (Z.modulo (Z.of_nat k) skip) 0 = Nat.eqb (k mod Z.abs_nat skip) 0.
Proof.
  intros skip k H. set (m := Z.abs_nat skip). assert (Hm : (m <> 0)%nat) by (unfold m; lia).
  destruct (Nat.eqb_spec (k mod m) 0) as [E|E].
  - apply Nat.mod_divides in E; [|exact Hm]. destruct E as [c ->]. apply Z.eqb_eq. rewrite Nat2Z.inj_mul.
    unfold m. rewrite Zabs2Nat.id_abs. apply Z.mod_divide; [exact H|]. apply Z.divide_mul_l. apply Z.divide_abs_r. apply Z.divide_refl.
  - apply Z.eqb_neq. intros E2. apply E. apply Z.mod_divide in E2; [|exact H]. apply Nat.mod_divides; [exact Hm|].
    apply Z.divide_abs_l in E2. rewrite <- Zabs2Nat.id_abs in E2. destruct E2 as [c Hc]. fold m in Hc. exists (Z.to_nat c). nia.
Qed.

Section Loop.
Context {Q : Type} (pos : Q -> pt) (stp : State Q -> act -> State Q) (st0 : State Q) (N total : nat) (skip : Z).
Hypothesis Hs : skip <> 0%Z.
Let m := Z.abs_nat skip.
(** From step [s], with [r] further steps until the next drawn one. *)
Lemma loop_nth : forall Yi s r, (r < m)%nat -> ((s + r) mod m = 0)%nat -> forall k,
  nth_error (denoise_loop pos stp st0 N total skip s Yi) k =
  option_map (denoise_frame pos stp st0 N total (s + (r + k * m))) (nth_error Yi (r + k * m)).
Proof.
  assert (Hm : (m <> 0)%nat) by (unfold m; lia).
  induction Yi as [|us Yi IH]; intros s r Hr Hd k.
  - cbn. destruct k, (r + _ * m)%nat; reflexivity.
  - cbn [denoise_loop]. rewrite (mod_skip skip s Hs). fold m. destruct r as [|r].
    + rewrite Nat.add_0_r in Hd. rewrite Hd, Nat.eqb_refl. destruct k as [|k]; cbn [nth_error].
      * cbn [Nat.mul Nat.add nth_error option_map]. rewrite Nat.add_0_r. reflexivity.
      * rewrite (IH (S s) (m - 1)%nat ltac:(lia)).
        -- replace (0 + S k * m)%nat with (S (m - 1 + k * m))%nat by (cbn [Nat.mul]; lia). cbn [nth_error].
           replace (S s + (m - 1 + k * m))%nat with (s + S (m - 1 + k * m))%nat by lia. reflexivity.
        -- replace (S s + (m - 1))%nat with (s + 1 * m)%nat by lia. rewrite Nat.mod_add by exact Hm. exact Hd.
    + assert (E : (s mod m <> 0)%nat).
      { intros E. rewrite Nat.add_mod, E, Nat.add_0_l, Nat.mod_mod, Nat.mod_small in Hd by (exact Hm || lia). discriminate. }
      apply Nat.eqb_neq in E. rewrite E.
      rewrite (IH (S s) r ltac:(lia)) by (replace (S s + r)%nat with (s + S r)%nat by lia; exact Hd).
      replace (S s + (r + k * m))%nat with (s + (S r + k * m))%nat by lia. reflexivity.
Qed.
End Loop.

Lemma traj_states_nth {Q : Type} (stp : State Q -> act -> State Q) : forall us st j q,
  nth_error (trajectory_states stp st us) j = Some q -> (j <= length us)%nat /\ q = st_q (fold_left stp (firstn j us) st).
Proof.
  unfold trajectory_states. induction us as [|u us IH]; intros st [|j] q H; cbn in H.
  - injection H as <-. split; [lia|reflexivity].
  - destruct j; discriminate.
  - injection H as <-. split; [lia|reflexivity].
  - destruct j as [|j].
    + injection H as <-. split; [cbn; lia|reflexivity].
    + destruct (IH (stp st u) (S j) q H) as [A B]. split; [cbn [length]; lia|]. exact B.
Qed.
Lemma traj_states_length {Q : Type} (stp : State Q -> act -> State Q) : forall us st,
  length (trajectory_states stp st us) = S (length us).
Proof. unfold trajectory_states. cbn. induction us as [|u us IH]; intros st; [reflexivity|]. cbn. rewrite IH. reflexivity. Qed.

(** C46: with frame_skip other than 0 the denoising animation draws every |frame_skip|-th of the
    recorded plans, starting with the first; frame k shows the positions of the rollout of plan number
    k * |frame_skip| from the initial state, one position per action and one for the start. *)
Lemma l_C46_denoising_frames :
  forall (Q : Type) (pos : Q -> point) (stp : State Q -> act -> State Q) st0 N skip (Yi : list (list act)), skip <> 0%Z ->
  exists fs, denoising_frames pos stp st0 N skip Yi = Ok fs /\ every_nth (length Yi) (Z.abs_nat skip) (length fs) /\
  forall k f, nth_error fs k = Some f ->
  exists us, nth_error Yi (k * Z.abs_nat skip) = Some us /\
    df_step f = (k * Z.abs_nat skip)%nat /\ df_title f = (Z.of_nat N - 1 - Z.of_nat (k * Z.abs_nat skip))%Z /\
    length (df_path f) = S (length us) /\
    forall j P, nth_error (df_path f) j = Some P -> P = pos (st_q (fold_left stp (firstn j us) st0)).
Proof.
  intros Q pos stp st0 N skip Yi Hs. set (m := Z.abs_nat skip). assert (Hm : (m <> 0)%nat) by (unfold m; lia).
  exists (denoise_loop pos stp st0 N (length Yi) skip 0 Yi). split.
  { destruct Yi; [reflexivity|]. cbn [denoising_frames]. destruct (Z.eqb_spec skip 0); [contradiction|reflexivity]. }
  pose proof (loop_nth pos stp st0 N (length Yi) skip Hs Yi 0 0) as K. fold m in K.
  specialize (K ltac:(lia) (Nat.mod_0_l m Hm)). cbn [Nat.add] in K.
  set (fs := denoise_loop pos stp st0 N (length Yi) skip 0 Yi) in *. split.
  - assert (A : forall k, (k < length fs <-> k * m < length Yi)%nat).
    { intros k. rewrite <- !nth_error_Some, K. destruct (nth_error Yi (k * m)); cbn; split; congruence. }
    unfold every_nth. split.
    + destruct (Nat.le_gt_cases (length Yi) (length fs * m)) as [|C]; [assumption|]. apply A in C. lia.
    + destruct (length fs) as [|n] eqn:E; [lia|]. assert (n * m < length Yi)%nat by (apply A; lia). cbn [Nat.mul]. lia.
  - intros k f Hf. rewrite K in Hf. destruct (nth_error Yi (k * m)) as [us|]; [|discriminate]. cbn in Hf. injection Hf as <-.
    exists us. split; [reflexivity|]. split; [reflexivity|]. split; [reflexivity|]. cbn [denoise_frame df_path]. split.
    + rewrite map_length. apply traj_states_length.
    + intros j P HP. rewrite nth_error_map in HP. destruct (nth_error (trajectory_states stp st0 us) j) as [q|] eqn:Eq; [|discriminate].
      injection HP as <-. f_equal. apply (traj_states_nth stp us st0 j q Eq).
Qed.
(** C46: frame_skip = 0 raises ZeroDivisionError, unless there is nothing to draw. *)
Lemma l_C46_zero_skip :
  forall (Q : Type) (pos : Q -> point) (stp : State Q -> act -> State Q) st0 N (Yi : list (list act)),
  denoising_frames pos stp st0 N 0 Yi = match Yi with [] => Ok [] | _ => Err ZeroDivisionError end.
Proof. intros. destruct Yi; reflexivity. Qed.
(** C46: the first plan is always drawn, *)
Lemma l_C46_first_step_drawn :
  forall (Q : Type) (pos : Q -> point) (stp : State Q -> act -> State Q) st0 N skip us (Yi : list (list act)) fs,
  denoising_frames pos stp st0 N skip (us :: Yi) = Ok fs -> exists f rest, fs = f :: rest /\ df_step f = 0%nat.
Proof.
  intros Q pos stp st0 N skip us Yi fs H.
  assert (Hs : skip <> 0%Z). { intros ->. discriminate. }
  destruct (l_C46_denoising_frames Q pos stp st0 N skip (us :: Yi) Hs) as (fs' & E & [C _] & K). rewrite H in E. injection E as <-.
  destruct fs as [|f rest]; [cbn in C; lia|]. exists f, rest. split; [reflexivity|]. destruct (K 0%nat f eq_refl) as (_ & _ & A & _). exact A.
Qed.
(** C46: but the last one (the final plan) only if |frame_skip| divides the number of plans minus one. *)
Lemma l_C46_last_step_refuted :
  forall (Q : Type) (pos : Q -> point) (stp : State Q -> act -> State Q) st0 N skip (Yi : list (list act)) fs,
  Yi <> [] -> denoising_frames pos stp st0 N skip Yi = Ok fs ->
  ((exists f, In f fs /\ df_step f = (length Yi - 1)%nat) <-> Nat.divide (Z.abs_nat skip) (length Yi - 1)).
Proof.
  intros Q pos stp st0 N skip Yi fs Hne H.
  assert (Hs : skip <> 0%Z). { intros ->. rewrite l_C46_zero_skip in H. destruct Yi; [contradiction|discriminate]. }
  destruct (l_C46_denoising_frames Q pos stp st0 N skip Yi Hs) as (fs' & E & C & K). rewrite H in E. injection E as <-.
  assert (Hm : (Z.abs_nat skip <> 0)%nat) by lia. assert (HL : (length Yi <> 0)%nat) by (destruct Yi; [contradiction|discriminate]).
  split.
  - intros (f & Hf & Ef). apply In_nth_error in Hf. destruct Hf as [k Hk]. destruct (K k f Hk) as (us & _ & Es & _). exists k. lia.
  - intros [k Hk]. unfold every_nth in C. assert (Hkl : (k < length fs)%nat) by nia.
    apply nth_error_Some in Hkl. destruct (nth_error fs k) as [f|] eqn:Ef; [|contradiction]. exists f.
    split; [apply (nth_error_In _ _ Ef)|]. destruct (K k f Ef) as (us & _ & Es & _). lia.
Qed.
(** C46: opacity grows with the step, from 0.3 to at most 1. *)
Lemma l_C46_opacity :
  forall (Q : Type) (pos : Q -> point) (stp : State Q -> act -> State Q) st0 N skip (Yi : list (list act)) fs,
  denoising_frames pos stp st0 N skip Yi = Ok fs ->
  forall f g, In f fs -> In g fs ->
  3/10 <= df_alpha f <= 1 /\ ((df_step f <= df_step g)%nat -> df_alpha f <= df_alpha g) /\ (df_step f = 0%nat -> df_alpha f = 3/10) /\
  ((1 < length Yi)%nat -> df_step f = (length Yi - 1)%nat -> df_alpha f = 1).
Proof.
  intros Q pos stp st0 N skip Yi fs H.
  assert (Ne : Yi <> [] \/ fs = []). { destruct Yi; [right; cbn in H; congruence|left; discriminate]. }
  destruct Ne as [Hne| ->]; [|intros f g []].
  assert (Hs : skip <> 0%Z). { intros ->. rewrite l_C46_zero_skip in H. destruct Yi; [contradiction|discriminate]. }
  assert (Ef : fs = denoise_loop pos stp st0 N (length Yi) skip 0 Yi).
  { destruct Yi; [contradiction|]. cbn [denoising_frames] in H. destruct (Z.eqb_spec skip 0); [contradiction|]. congruence. }
  assert (Hm : (Z.abs_nat skip <> 0)%nat) by lia.
  assert (A : forall f, In f fs -> (df_step f < length Yi)%nat /\ df_alpha f = 3/10 + 7/10 * (INR (df_step f) / INR (Nat.max 1 (length Yi - 1)))).
  { intros f Hf. apply In_nth_error in Hf. destruct Hf as [k Hk]. rewrite Ef in Hk.
    rewrite (loop_nth pos stp st0 N (length Yi) skip Hs Yi 0 0 ltac:(lia) (Nat.mod_0_l _ Hm) k) in Hk. cbn [Nat.add] in Hk.
    destruct (nth_error Yi (k * Z.abs_nat skip)) as [us|] eqn:Eu; [|discriminate]. cbn in Hk. injection Hk as <-. cbn. split; [|reflexivity].
    apply nth_error_Some. congruence. }
  set (M := INR (Nat.max 1 (length Yi - 1))) in *. assert (HM : 0 < M) by (unfold M; apply lt_0_INR; lia).
  assert (B : forall x y, x <= y -> x / M <= y / M). { intros x y Hxy. unfold Rdiv. apply Rmult_le_compat_r; [|exact Hxy]. left. apply Rinv_0_lt_compat, HM. }
  assert (Z0 : 0 / M = 0) by (field; lra). assert (O1 : M / M = 1) by (field; lra).
  intros f g Hf Hg. destruct (A f Hf) as [A1 A2]. destruct (A g Hg) as [A3 A4]. rewrite A2, A4.
  assert (S1 : INR (df_step f) <= M) by (unfold M; apply le_INR; lia).
  pose proof (B _ _ S1) as T1. pose proof (B _ _ (pos_INR (df_step f))) as T2. rewrite O1 in T1. rewrite Z0 in T2.
  split; [lra|]. split; [|split].
  - intros Hle. pose proof (B _ _ (le_INR _ _ Hle)). lra.
  - intros ->. cbn [INR]. rewrite Z0. lra.
  - intros H1 ->. unfold M in *. replace (Nat.max 1 (length Yi - 1)) with (length Yi - 1)%nat in * by lia. rewrite O1. lra.
Qed.
(** 100 plans, every 10th: ten frames, and the final plan is not among them. *)
Lemma x_C46_ten_frames :
  exists fs, denoising_frames (fun q : R => (q, 0)) (fun st _ => st) (reset_state 0) 100 10 (repeat [] 100) = Ok fs /\
  length fs = 10%nat /\ ~ exists f, In f fs /\ df_step f = (length (repeat (@nil act) 100) - 1)%nat.
Proof.
  destruct (l_C46_denoising_frames R (fun q => (q, 0)) (fun st _ => st) (reset_state 0) 100 10 (repeat [] 100) ltac:(discriminate)) as (fs & E & C & _).
  exists fs. split; [exact E|]. unfold every_nth in C. rewrite repeat_length in C. change (Z.abs_nat 10) with 10%nat in C. split; [lia|].
  intros H. apply (l_C46_last_step_refuted R (fun q => (q, 0)) (fun st _ => st) (reset_state 0) 100 10 (repeat [] 100) fs ltac:(discriminate) E) in H. rewrite repeat_length in H.
  destruct H as [k Hk]. change (Z.abs_nat 10) with 10%nat in Hk. lia.
Qed.

(** ** Names. *)
Lemma append_length : forall a b, String.length (String.append a b) = (String.length a + String.length b)%nat.
Proof. induction a as [|c a IH]; intros b; [reflexivity|]. cbn. rewrite IH. reflexivity. Qed.
Lemma prefix_append : forall a b, String.prefix a (String.append a b) = true.
Proof. induction a as [|c a IH]; intros b; [destruct b; reflexivity|]. cbn. destruct (ascii_dec c c); [apply IH|contradiction]. Qed.
Lemma prefix_split : forall a s, String.prefix a s = true -> exists b, s = String.append a b.
Proof.
  induction a as [|c a IH]; intros s H; [exists s; reflexivity|]. destruct s as [|d s]; [discriminate|]. cbn in H.
  destruct (ascii_dec c d); [|discriminate]. subst. destruct (IH s H) as [b ->]. exists b. reflexivity.
Qed.
Lemma substring_all : forall s, String.substring 0 (String.length s) s = s.
Proof. induction s as [|c s IH]; [reflexivity|]. cbn. rewrite IH. reflexivity. Qed.
Lemma substring_append : forall a b, String.substring (String.length a) (String.length b) (String.append a b) = b.
Proof. induction a as [|c a IH]; intros b; [apply substring_all|]. cbn. apply IH. Qed.
Lemma ends_append : forall a b, ends b (String.append a b) = true.
Proof.
  intros a b. unfold ends. rewrite append_length. replace (String.length a + String.length b - String.length b)%nat with (String.length a) by lia.
  rewrite substring_append, String.eqb_refl. destruct (Nat.leb_spec (String.length b) (String.length a + String.length b)); [reflexivity|lia].
Qed.
Lemma append_assoc : forall a b c, String.append (String.append a b) c = String.append a (String.append b c).
Proof. induction a as [|x a IH]; intros; [reflexivity|]. cbn. rewrite IH. reflexivity. Qed.
Lemma append_inj_l : forall a b c, String.append a b = String.append a c -> b = c.
Proof. induction a as [|x a IH]; intros b c H; [exact H|]. cbn in H. injection H as H. apply IH, H. Qed.
Lemma append_inj_r : forall a b c, String.append a c = String.append b c -> a = b.
Proof.
  intros a b c H. assert (L : String.length a = String.length b). { pose proof (f_equal String.length H) as E. rewrite !append_length in E. lia. }
  revert b L H. induction a as [|x a IH]; intros [|y b] L H; try discriminate; [reflexivity|]. cbn in *. injection H as -> H. f_equal. apply IH; [lia|exact H].
Qed.

Definition undigits (s : string) : option nat := option_map Nat.of_uint (NilEmpty.uint_of_string s).
Lemma undigits_zeros : forall n s k, undigits s = Some k -> undigits (String.append (zeros n) s) = Some k.
Proof.
  unfold undigits. induction n as [|n IH]; intros s k H; [exact H|]. cbn [zeros String.append NilEmpty.uint_of_string].
  specialize (IH s k H). destruct (NilEmpty.uint_of_string (String.append (zeros n) s)) as [d|]; [|discriminate]. cbn in *. exact IH.
Qed.
Lemma undigits_pad : forall w k, undigits (pad w k) = Some k.
Proof.
  intros w k. unfold pad. apply undigits_zeros. unfold undigits, digits. rewrite NilEmpty.usu. cbn. f_equal. apply Unsigned.of_to.
Qed.
Lemma pad_inj : forall w i j, pad w i = pad w j -> i = j.
Proof. intros w i j H. pose proof (undigits_pad w i) as A. rewrite H, undigits_pad in A. congruence. Qed.
Lemma frame_name_inj : forall i j, frame_name i = frame_name j -> i = j.
Proof. unfold frame_name. intros i j H. apply append_inj_l, append_inj_r, pad_inj in H. exact H. Qed.
(** The pattern handed to ffmpeg names the files the frames were saved to. *)
Lemma ffmpeg_reads_saved : forall k, ffmpeg_name k = frame_name k.
Proof.
  intros k. unfold ffmpeg_name, frame_name, pad. rewrite append_assoc. do 2 f_equal. generalize (digits k) as s.
  intros [|a [|b [|c [|d s]]]]; reflexivity.
Qed.
Lemma trial_video_inj : forall i j, trial_video i = trial_video j -> i = j.
Proof. unfold trial_video. intros i j H. apply append_inj_l, append_inj_r, pad_inj in H. exact H. Qed.
Lemma glob_append : forall pre mid suf, glob pre suf (String.append pre (String.append mid suf)) = true.
Proof.
  intros. unfold glob, starts. rewrite prefix_append. rewrite <- append_assoc at 2. rewrite ends_append, !append_length.
  destruct (Nat.leb_spec (String.length pre + String.length suf) (String.length pre + (String.length mid + String.length suf))); [reflexivity|lia].
Qed.
Lemma frame_name_frame : forall k, is_frame (frame_name k) = true.
Proof. intros k. apply glob_append. Qed.
Lemma is_frame_png : forall n, is_frame n = true -> is_png n = true.
Proof.
  intros n H. unfold is_frame, glob in H. apply andb_prop in H. destruct H as [H H3]. apply andb_prop in H. destruct H as [H1 H2].
  unfold starts in H2. apply prefix_split in H2. destruct H2 as [b ->]. unfold is_png, glob, starts. rewrite H3.
  apply Nat.leb_le in H1. rewrite append_length in H1.
  destruct (Nat.leb_spec (String.length "" + String.length ".png") (String.length (String.append "frame_" b))) as [|C]; [reflexivity|].
  rewrite append_length in C. cbn in *. lia.
Qed.
Lemma frame_name_png : forall k, is_png (frame_name k) = true.
Proof. intros k. apply is_frame_png, frame_name_frame. Qed.

(** ** Directories. *)
Section Dirs.
Context {F : Type}.
Implicit Types d : dir F.
Lemma look_remove : forall d keep n, look (remove d keep) n = if keep n then look d n else None.
Proof.
  intros d keep n. induction d as [|[m c] d IH]; [destruct (keep n); reflexivity|]. unfold remove in *. cbn [filter fst].
  destruct (String.eqb_spec m n) as [->|Ne].
  - destruct (keep n) eqn:E; cbn [look]; [rewrite String.eqb_refl; reflexivity | exact IH].
  - apply String.eqb_neq in Ne. destruct (keep m); cbn [look]; rewrite Ne; exact IH.
Qed.
Lemma look_write : forall d n c m, look (write d n c) m = if String.eqb n m then Some c else look d m.
Proof.
  intros d n c m. unfold write. cbn [look]. destruct (String.eqb_spec n m) as [->|Ne]; [reflexivity|]. rewrite look_remove.
  destruct (String.eqb_spec m n) as [->|_]; [contradiction|reflexivity].
Qed.
Lemma look_setup : forall d n, look (setup_saving d) n = if is_png n then None else look d n.
Proof. intros. unfold setup_saving. rewrite look_remove. destruct (is_png n); reflexivity. Qed.
Lemma look_in : forall d n c, look d n = Some c -> In n (map fst d).
Proof.
  induction d as [|[m c'] d IH]; intros n c H; [discriminate|]. cbn [look] in H. cbn [map fst]. destruct (String.eqb_spec m n) as [->|]; [left; reflexivity | right; exact (IH n c H)].
Qed.
Lemma in_look : forall d n, In n (map fst d) -> exists c, look d n = Some c.
Proof.
  induction d as [|[m c'] d IH]; intros n H; [destruct H|]. cbn [look]. cbn [map fst] in H. destruct (String.eqb_spec m n) as [->|Ne]; [eexists; reflexivity|].
  destruct H as [->|H]; [contradiction | exact (IH n H)].
Qed.
Lemma has_frame : forall d, existsb (fun e => is_frame (fst e)) d = true <-> exists n c, is_frame n = true /\ look d n = Some c.
Proof.
  intros d. rewrite existsb_exists. split.
  - intros ([n c] & Hi & Hf). apply (in_map fst) in Hi. destruct (in_look d n Hi) as [c' Hc]. exists n, c'. split; [exact Hf|exact Hc].
  - intros (n & c & Hf & Hl). apply look_in in Hl. apply in_map_iff in Hl. destruct Hl as ([m c'] & <- & Hi). exists (m, c'). split; [exact Hi|exact Hf].
Qed.

(** Directory after saving frames fs from number k on, stopping before c if c is one of them. *)
Lemma look_save : forall fs k crash d n, look (fst (save_frames d k crash fs)) n =
  match crash with
  | Some c => look (fst (save_frames d k None (if Nat.leb k c then firstn (c - k) fs else fs))) n
  | None => look (fst (save_frames d k None fs)) n
  end.
Proof.
  intros fs k [c|] d n; [|reflexivity]. revert k d. induction fs as [|f fs IH]; intros k d.
  - rewrite firstn_nil. destruct (Nat.leb k c); reflexivity.
  - cbn [save_frames]. destruct (Nat.eqb_spec c k) as [->|Ne].
    + rewrite Nat.leb_refl, Nat.sub_diag. reflexivity.
    + rewrite IH. destruct (Nat.leb_spec k c).
      * destruct (Nat.leb_spec (S k) c); [|lia]. replace (c - k)%nat with (S (c - S k)) by lia. reflexivity.
      * destruct (Nat.leb_spec (S k) c); [lia|]. reflexivity.
Qed.
Lemma saved_flag : forall fs k crash (d : dir F), snd (save_frames d k crash fs) =
  match crash with Some c => negb (Nat.leb k c && Nat.ltb c (k + length fs)) | None => true end.
Proof.
  induction fs as [|f fs IH]; intros k crash d; cbn [save_frames].
  - destruct crash as [c|]; [|reflexivity]. cbn [snd length]. destruct (Nat.leb_spec k c), (Nat.ltb_spec c (k + 0)); try reflexivity; lia.
  - destruct crash as [c|]; [|apply IH]. destruct (Nat.eqb_spec c k) as [->|Ne].
    + cbn [snd length]. rewrite Nat.leb_refl. destruct (Nat.ltb_spec k (k + S (length fs))); [reflexivity|lia].
    + rewrite IH. cbn [length]. destruct (Nat.leb_spec k c), (Nat.leb_spec (S k) c), (Nat.ltb_spec c (k + S (length fs))), (Nat.ltb_spec c (S k + length fs)); cbn; try reflexivity; lia.
Qed.
Lemma save_other : forall fs k (d : dir F) n, (forall j, n <> frame_name j) -> look (fst (save_frames d k None fs)) n = look d n.
Proof.
  induction fs as [|f fs IH]; intros k d n H; [reflexivity|]. cbn [save_frames]. rewrite IH by exact H. rewrite look_write.
  destruct (String.eqb_spec (frame_name k) n) as [E|_]; [exfalso; apply (H k); congruence|reflexivity].
Qed.
Lemma save_frame : forall fs k (d : dir F) j, look (fst (save_frames d k None fs)) (frame_name j) =
  if Nat.leb k j then match nth_error fs (j - k) with Some f => Some (Image f) | None => look d (frame_name j) end else look d (frame_name j).
Proof.
  induction fs as [|f fs IH]; intros k d j; cbn [save_frames].
  - destruct (Nat.leb k j); [destruct (j - k)%nat|]; reflexivity.
  - rewrite IH, look_write. destruct (String.eqb_spec (frame_name k) (frame_name j)) as [E|Ne].
    + apply frame_name_inj in E. subst. rewrite Nat.leb_refl, Nat.sub_diag. destruct (Nat.leb_spec (S j) j); [lia|]. reflexivity.
    + assert (k <> j) by congruence. destruct (Nat.leb_spec (S k) j), (Nat.leb_spec k j); try lia; [|reflexivity].
      replace (j - k)%nat with (S (j - S k)) by lia. reflexivity.
Qed.
Lemma saved_pictures : forall (d : dir F) fs, pictures_are (fst (save_frames (setup_saving d) 0 None fs)) fs.
Proof.
  intros d fs. split.
  - intros k. rewrite save_frame. cbn [Nat.leb]. rewrite Nat.sub_0_r. destruct (nth_error fs k); [reflexivity|]. rewrite look_setup, frame_name_png. reflexivity.
  - intros n Hn Hk. rewrite save_other by exact Hk. rewrite look_setup, Hn. reflexivity.
Qed.
Lemma saved_rest : forall (d : dir F) fs n, is_png n = false -> look (fst (save_frames (setup_saving d) 0 None fs)) n = look d n.
Proof.
  intros d fs n Hn. rewrite save_other; [rewrite look_setup, Hn; reflexivity|]. intros k ->. rewrite frame_name_png in Hn. discriminate.
Qed.
Lemma read_is : forall fuel (d : dir F) fs k, (forall j, (k <= j)%nat -> look d (frame_name j) = option_map Image (nth_error fs (j - k))) ->
  (length fs <= fuel)%nat -> read_frames d k fuel = fs.
Proof.
  induction fuel as [|fuel IH]; intros d fs k H Hl.
  - destruct fs; [reflexivity|cbn in Hl; lia].
  - cbn [read_frames]. rewrite ffmpeg_reads_saved, (H k (le_n k)), Nat.sub_diag. destruct fs as [|f fs]; [reflexivity|]. cbn [nth_error option_map]. f_equal.
    apply IH; [|cbn in Hl; lia]. intros j Hj. rewrite H by lia. replace (j - k)%nat with (S (j - S k)) by lia. reflexivity.
Qed.
Lemma saved_length : forall (d : dir F) fs, pictures_are d fs -> (length fs <= length d)%nat.
Proof.
  intros d fs [H _]. rewrite <- (map_length fst d). rewrite <- (seq_length (length fs) 0), <- (map_length frame_name).
  apply NoDup_incl_length.
  - apply FinFun.Injective_map_NoDup; [exact frame_name_inj | apply seq_NoDup].
  - intros n Hn. apply in_map_iff in Hn. destruct Hn as (k & <- & Hk). apply in_seq in Hk. specialize (H k).
    destruct (nth_error fs k) as [f|] eqn:E; [|apply nth_error_None in E; lia]. apply (look_in _ _ _ H).
Qed.
Lemma pictures_has : forall (d : dir F) fs, pictures_are d fs -> existsb (fun e => is_frame (fst e)) d = match fs with [] => false | _ => true end.
Proof.
  intros d fs [H1 H2]. destruct (existsb (fun e => is_frame (fst e)) d) eqn:E.
  - apply has_frame in E. destruct E as (n & c & Hn & Hl). destruct fs; [|reflexivity]. exfalso.
    destruct (Classical_Prop.classic (exists k, n = frame_name k)) as [[k ->]|Nk].
    + rewrite H1 in Hl. destruct k; discriminate.
    + rewrite H2 in Hl; [discriminate | apply is_frame_png, Hn | intros k Hk; apply Nk; exists k; exact Hk].
  - destruct fs as [|f fs]; [reflexivity|]. exfalso. apply Bool.diff_true_false. rewrite <- E. symmetry. apply has_frame.
    exists (frame_name 0), (Image f). split; [apply frame_name_frame | apply (H1 0%nat)].
Qed.
End Dirs.

(** C46: a successful call: ffmpeg ends with code 0 and the video consists of exactly the frames of this
    call, in order; no picture file is left, and no other file of the directory has changed. *)
Lemma l_C46_video_complete :
  forall (F : Type) (d : dir F) (fs : list F) video out, fs <> [] -> is_png video = false ->
  exists d', animate d fs None video (Exits 0 out) = (d', Ok tt) /\
  look d' video = Some (Video fs) /\ no_pictures d' /\ same_but_video video d d'.
Proof.
  intros F d fs video out Hne Hv. unfold animate. pose proof (saved_flag fs 0 None (setup_saving d)) as Hf.
  pose proof (saved_pictures d fs) as HP. pose proof (saved_rest d fs) as HR.
  destruct (save_frames (setup_saving d) 0 None fs) as [d1 ok]. cbn [fst snd] in *. subst ok. unfold export_video.
  rewrite (pictures_has d1 fs HP). destruct fs as [|f fs]; [contradiction|]. cbn [Z.eqb]. eexists. split; [reflexivity|].
  assert (Er : read_frames d1 0 (length d1) = f :: fs).
  { apply read_is; [|apply saved_length, HP]. intros j _. rewrite Nat.sub_0_r. apply HP. }
  rewrite Er. split; [|split].
  - rewrite look_remove, Hv, look_write, String.eqb_refl. reflexivity.
  - intros n Hn. rewrite look_remove, Hn. reflexivity.
  - intros n Hn Hnv. rewrite look_remove, Hn, look_write. cbn [negb]. destruct (String.eqb_spec video n); [congruence|]. apply HR, Hn.
Qed.
(** C46: pictures are deleted only after ffmpeg succeeded. If ffmpeg is missing the call raises
    FileNotFoundError; if it fails the call returns normally; in both cases every frame is still there. *)
Lemma l_C46_frames_kept :
  forall (F : Type) (d : dir F) (fs : list F) video ff, fs <> [] -> is_png video = false -> (forall out, ff <> Exits 0 out) ->
  exists d' r, animate d fs None video ff = (d', r) /\ pictures_are d' fs /\ same_but_video video d d' /\
  match ff with
  | NotInstalled => r = Err FileNotFoundError /\ look d' video = look d video
  | Exits code out => r = Ok tt /\ look d' video = match out with Some c => Some c | None => look d video end
  end.
Proof.
  intros F d fs video ff Hne Hv Hff. unfold animate. pose proof (saved_flag fs 0 None (setup_saving d)) as Hf.
  pose proof (saved_pictures d fs) as HP. pose proof (saved_rest d fs) as HR.
  destruct (save_frames (setup_saving d) 0 None fs) as [d1 ok]. cbn [fst snd] in *. subst ok. unfold export_video.
  rewrite (pictures_has d1 fs HP). destruct fs as [|f fs]; [contradiction|]. destruct ff as [|code out].
  - do 2 eexists. split; [reflexivity|]. split; [exact HP|]. split; [intros n Hn _; apply HR, Hn|]. split; [reflexivity|apply HR, Hv].
  - destruct (Z.eqb_spec code 0) as [->|Hc]; [exfalso; apply (Hff out); reflexivity|].
    do 2 eexists. split; [reflexivity|]. destruct out as [c|].
    + split; [|split; [|split; [reflexivity|]]].
      * destruct HP as [P1 P2]. split.
        -- intros k. rewrite look_write. destruct (String.eqb_spec video (frame_name k)) as [->|_]; [rewrite frame_name_png in Hv; discriminate|]. apply P1.
        -- intros n Hn Hk. rewrite look_write. destruct (String.eqb_spec video n) as [->|_]; [congruence|]. apply P2; assumption.
      * intros n Hn Hnv. rewrite look_write. destruct (String.eqb_spec video n); [congruence|]. apply HR, Hn.
      * rewrite look_write, String.eqb_refl. reflexivity.
    + split; [exact HP|]. split; [intros n Hn _; apply HR, Hn|]. split; [reflexivity|]. apply HR, Hv.
Qed.
(** C46: if drawing or saving frame number c fails, the frames 0 .. c-1 are there, and no video or other
    file has changed. *)
Lemma l_C46_interrupted :
  forall (F : Type) (d : dir F) (fs : list F) c video ff, (c < length fs)%nat ->
  exists d', animate d fs (Some c) video ff = (d', Err RuntimeError) /\ pictures_are d' (firstn c fs) /\
  forall n, is_png n = false -> look d' n = look d n.
Proof.
  intros F d fs c video ff Hc. unfold animate. pose proof (saved_flag fs 0 (Some c) (setup_saving d)) as Hf.
  pose proof (look_save fs 0 (Some c) (setup_saving d)) as HL.
  pose proof (saved_pictures d (firstn c fs)) as HP. pose proof (saved_rest d (firstn c fs)) as HR.
  destruct (save_frames (setup_saving d) 0 (Some c) fs) as [d1 ok]. cbn [fst snd Nat.leb Nat.add andb] in *.
  destruct (Nat.ltb_spec c (length fs)); [|lia]. cbn in Hf. subst ok. rewrite Nat.sub_0_r in HL.
  eexists. split; [reflexivity|]. split.
  - destruct HP as [P1 P2]. split; [intros k | intros n Hn Hk]; rewrite HL; [apply P1 | apply P2; assumption].
  - intros n Hn. rewrite HL. apply HR, Hn.
Qed.
(** C46: an animation without frames makes no video: an older one keeps its name and contents. *)
Lemma l_C46_no_frames :
  forall (F : Type) (d : dir F) video ff, exists d', animate d [] None video ff = (d', Ok tt) /\ no_pictures d' /\
  forall n, is_png n = false -> look d' n = look d n.
Proof.
  intros F d video ff. unfold animate. cbn [save_frames]. unfold export_video.
  assert (E : existsb (fun e => is_frame (fst e)) (setup_saving d) = false).
  { apply (pictures_has (setup_saving d) []). apply (saved_pictures d []). }
  rewrite E. eexists. split; [reflexivity|]. split; intros n Hn; rewrite look_setup, Hn; reflexivity.
Qed.

(** ** Histories. *)
Lemma animate_look {F : Type} : forall (d : dir F) fs crash video ff v, is_png v = false -> is_png video = false ->
  let saved := match crash with Some c => Nat.leb (length fs) c | None => true end in
  look (fst (animate d fs crash video ff)) v =
  if (saved && negb (match fs with [] => true | _ => false end) && String.eqb video v)%bool then
    match ff with
    | NotInstalled => look d v
    | Exits code out => if Z.eqb code 0 then Some (Video fs) else match out with Some c => Some c | None => look d v end
    end
  else look d v.
Proof.
  intros d fs crash video ff v Hv Hvid saved. unfold animate. pose proof (saved_flag fs 0 crash (setup_saving d)) as Hf.
  pose proof (look_save fs 0 crash (setup_saving d)) as HL.
  assert (Hfl : snd (save_frames (setup_saving d) 0 crash fs) = saved).
  { rewrite Hf. unfold saved. destruct crash as [c|]; [|reflexivity]. cbn [Nat.leb andb Nat.add]. rewrite Nat.ltb_antisym, Bool.negb_involutive. reflexivity. }
  clear Hf. destruct (save_frames (setup_saving d) 0 crash fs) as [d1 ok]. cbn [fst snd] in *. subst ok.
  assert (HR : look d1 v = look d v). { rewrite HL. destruct crash as [c|]; apply saved_rest, Hv. }
  destruct saved eqn:Es; [|exact HR]. cbn [andb].
  assert (HP : pictures_are d1 fs).
  { assert (A : forall n, look d1 n = look (fst (save_frames (setup_saving d) 0 None fs)) n).
    { intros n. rewrite HL. destruct crash as [c|]; [|reflexivity]. unfold saved in Es. apply Nat.leb_le in Es. cbn [Nat.leb]. rewrite Nat.sub_0_r, firstn_all2 by exact Es. reflexivity. }
    destruct (saved_pictures d fs) as [P1 P2]. split; [intros k | intros n Hn Hk]; rewrite A; [apply P1 | apply P2; assumption]. }
  unfold export_video. rewrite (pictures_has d1 fs HP). destruct fs as [|f fs]; [exact HR|]. cbn [negb andb].
  destruct ff as [|code out].
  - cbn [fst]. rewrite HR. destruct (String.eqb video v); reflexivity.
  - destruct (Z.eqb code 0).
    + cbn [fst]. rewrite look_remove, Hv. cbn [negb]. rewrite look_write, HR.
      assert (Er : read_frames d1 0 (length d1) = f :: fs).
      { apply read_is; [|apply saved_length, HP]. intros j _. rewrite Nat.sub_0_r. apply HP. }
      rewrite Er. reflexivity.
    + cbn [fst]. destruct out as [c|]; [rewrite look_write, HR; reflexivity|]. rewrite HR. destruct (String.eqb video v); reflexivity.
Qed.

(** C46: after any sequence of animation calls on a directory, failed and interrupted ones included, a
    video file holds exactly the frames of the latest completed call with that name, or is what was
    there before if there was none. *)
Lemma l_C46_video_history :
  forall (F : Type) (d : dir F) (calls : list (acall F)) v fs, is_png v = false ->
  (forall c, In c calls -> is_png (ac_video c) = false /\ honest_failure c) ->
  look (run_calls d calls) v = Some (Video fs) ->
  (look d v = Some (Video fs) /\ forall c, In c calls -> ac_video c = v -> ~ completes c) \/
  (exists before c after, calls = before ++ c :: after /\ ac_video c = v /\ ac_frames c = fs /\ completes c /\
     forall c', In c' after -> ac_video c' = v -> ~ completes c').
Proof.
  intros F d calls v fs Hv. induction calls as [|c calls IH] using rev_ind; intros Hc H.
  - left. split; [exact H|intros c []].
  - unfold run_calls in H. rewrite fold_left_app in H. cbn [fold_left] in H. fold (run_calls d calls) in H.
    assert (Hc' : forall c, In c calls -> is_png (ac_video c) = false /\ honest_failure c) by (intros c' Hi; apply Hc, in_or_app; left; exact Hi).
    destruct (Hc c ltac:(apply in_or_app; right; left; reflexivity)) as [Hp Hh].
    unfold run_call in H. rewrite (animate_look _ _ _ _ _ _ Hv Hp) in H. cbv zeta in H.
    (* either this call wrote the video, or it did not touch it and is not a completed call for v *)
    assert (D : (ac_video c = v /\ completes c /\ fs = ac_frames c) \/ (look (run_calls d calls) v = Some (Video fs) /\ (ac_video c = v -> ~ completes c))).
    { destruct c as [cf cc cv cff]. cbn [ac_frames ac_crash ac_video ac_ffmpeg] in *.
      set (saved := match cc with Some k => Nat.leb (length cf) k | None => true end) in H.
      assert (Hsv : saved = true <-> forall k, cc = Some k -> (length cf <= k)%nat).
      { unfold saved. destruct cc as [k|]; [|split; [intros _ k; discriminate | reflexivity]]. split.
        - intros E k' Ek. injection Ek as <-. apply Nat.leb_le, E.
        - intros E. apply Nat.leb_le, E. reflexivity. }
      destruct saved eqn:Es; cbn [andb] in H.
      2: { right. split; [exact H|]. intros _ (_ & A & _). cbn in A. apply Hsv in A. discriminate. }
      destruct cf as [|f cf]; cbn [negb andb] in H.
      { right. split; [exact H|]. intros _ (A & _). apply A. reflexivity. }
      destruct (String.eqb_spec cv v) as [Ev|Ev]; cbn [andb] in H.
      2: { right. split; [exact H|]. intros A. contradiction. }
      destruct cff as [|code out].
      { right. split; [exact H|]. intros _ (_ & _ & out & A). discriminate. }
      destruct (Z.eqb_spec code 0) as [->|Hcode].
      { left. split; [exact Ev|]. split; [|congruence]. split; [discriminate|]. split; [apply Hsv; reflexivity | exists out; reflexivity]. }
      right. split.
      - destruct out as [x|]; [|exact H]. injection H as ->. exfalso. apply (Hh code fs Hcode). reflexivity.
      - intros _ (_ & _ & out' & A). cbn in A. injection A as A _. contradiction. }
    destruct D as [(E1 & E2 & E3)|[E1 E2]].
    + right. exists calls, c, []. split; [reflexivity|]. split; [exact E1|]. split; [congruence|]. split; [exact E2|]. intros c' [].
    + destruct (IH Hc' E1) as [[A B]|(before & c0 & after & -> & A & B & C & D)].
      * left. split; [exact A|]. intros c' Hi Ev. apply in_app_or in Hi. destruct Hi as [Hi|[<-|[]]]; [apply B; assumption | apply E2; exact Ev].
      * right. exists before, c0, (after ++ [c]). rewrite <- app_assoc. split; [reflexivity|]. split; [exact A|]. split; [exact B|]. split; [exact C|].
        intros c' Hi Ev. apply in_app_or in Hi. destruct Hi as [Hi|[<-|[]]]; [apply D; assumption | apply E2; exact Ev].
Qed.
(** A failed call, then a shorter successful one under the same name: the video has the two frames of the
    second call only. *)
Lemma x_C46_history :
  let calls := [mkCall [1; 2; 3]%nat None "a.mp4" (Exits 1 None); mkCall [4; 5]%nat None "a.mp4" (Exits 0 None)] in
  look (run_calls [] calls) "a.mp4" = Some (Video [4; 5]%nat) /\
  (forall c, In c calls -> is_png (ac_video c) = false /\ honest_failure c).
Proof.
  cbv zeta. split; [reflexivity|]. intros c [<-|[<-|[]]]; (split; [reflexivity|]); intros code fs _; discriminate.
Qed.

(** ** Sorting. *)
Lemma str_leb_refl : forall a, str_leb a a = true.
Proof. induction a as [|x a IH]; [reflexivity|]. cbn [str_leb]. rewrite Nat.ltb_irrefl. exact IH. Qed.
Lemma str_leb_total : forall a b, str_leb a b = false -> str_leb b a = true.
Proof.
  induction a as [|x a IH]; intros [|y b] H; try discriminate; [reflexivity|]. cbn [str_leb] in *.
  destruct (Nat.ltb_spec (nat_of_ascii x) (nat_of_ascii y)); [discriminate|].
  destruct (Nat.ltb_spec (nat_of_ascii y) (nat_of_ascii x)); [reflexivity|]. apply IH, H.
Qed.
Lemma str_leb_antisym : forall a b, str_leb a b = true -> str_leb b a = true -> a = b.
Proof.
  induction a as [|x a IH]; intros [|y b] H1 H2; try discriminate; [reflexivity|]. cbn [str_leb] in *.
  destruct (Nat.ltb_spec (nat_of_ascii x) (nat_of_ascii y)); destruct (Nat.ltb_spec (nat_of_ascii y) (nat_of_ascii x)); try lia; try discriminate.
  assert (E : nat_of_ascii x = nat_of_ascii y) by lia. apply (f_equal ascii_of_nat) in E. rewrite !ascii_nat_embedding in E. subst. f_equal. apply IH; assumption.
Qed.
Lemma str_leb_trans : forall a b c, str_leb a b = true -> str_leb b c = true -> str_leb a c = true.
Proof.
  induction a as [|x a IH]; intros [|y b] [|z c] H1 H2; try discriminate; try reflexivity. cbn [str_leb] in *.
  destruct (Nat.ltb_spec (nat_of_ascii x) (nat_of_ascii y)), (Nat.ltb_spec (nat_of_ascii y) (nat_of_ascii x)),
    (Nat.ltb_spec (nat_of_ascii y) (nat_of_ascii z)), (Nat.ltb_spec (nat_of_ascii z) (nat_of_ascii y)),
    (Nat.ltb_spec (nat_of_ascii x) (nat_of_ascii z)), (Nat.ltb_spec (nat_of_ascii z) (nat_of_ascii x)); try lia; try discriminate; try reflexivity.
  apply (IH b c); assumption.
Qed.
Definition sle (a b : string) : Prop := str_leb a b = true.
Lemma insert_perm : forall n l, Permutation (n :: l) (insert n l).
Proof.
  intros n l. induction l as [|m l IH]; [apply Permutation_refl|]. cbn. destruct (str_leb n m); [apply Permutation_refl|].
  apply perm_trans with (m :: n :: l); [apply perm_swap | apply perm_skip, IH].
Qed.
Lemma sort_perm : forall l, Permutation l (sort_names l).
Proof. induction l as [|n l IH]; [constructor|]. cbn. apply perm_trans with (n :: sort_names l); [apply perm_skip, IH | apply insert_perm]. Qed.
Lemma insert_sorted : forall n l, StronglySorted sle l -> StronglySorted sle (insert n l).
Proof.
  intros n l H. induction H as [|m l H IH Hm]; [repeat constructor|]. cbn. destruct (str_leb n m) eqn:E.
  - constructor; [constructor; assumption|]. constructor; [exact E|]. apply (Forall_impl _ (fun a Ha => str_leb_trans n m a E Ha) Hm).
  - constructor; [exact IH|]. apply Forall_forall. intros a Ha. apply (Permutation_in _ (Permutation_sym (insert_perm n l))) in Ha.
    destruct Ha as [<-|Ha]; [apply str_leb_total, E | apply (proj1 (Forall_forall _ _) Hm a Ha)].
Qed.
Lemma sort_sorted : forall l, StronglySorted sle (sort_names l).
Proof. induction l as [|n l IH]; [constructor|]. cbn. apply insert_sorted, IH. Qed.
Lemma sorted_unique : forall l m, StronglySorted sle l -> StronglySorted sle m -> Permutation l m -> l = m.
Proof.
  intros l m Hl. revert m. induction Hl as [|x l Hl IH Hx]; intros m Hm Hp.
  - apply Permutation_nil in Hp. congruence.
  - destruct Hm as [|y m Hm Hy]; [apply Permutation_sym, Permutation_nil in Hp; discriminate|].
    assert (x = y).
    { assert (A : In y (x :: l)) by (apply (Permutation_in _ (Permutation_sym Hp)); left; reflexivity).
      assert (B : In x (y :: m)) by (apply (Permutation_in _ Hp); left; reflexivity).
      destruct A as [A|A]; [exact A|]. destruct B as [B|B]; [congruence|].
      apply str_leb_antisym; [apply (proj1 (Forall_forall _ _) Hx y A) | apply (proj1 (Forall_forall _ _) Hy x B)]. }
    subst y. f_equal. apply IH; [exact Hm|]. apply (Permutation_cons_inv Hp).
Qed.
Lemma adjacent_sorted : forall n, (n <= 999)%nat -> StronglySorted sle (map trial_video (seq 1 n)).
Proof.
  intros n Hn.
  assert (A : forallb (fun i => str_leb (trial_video i) (trial_video (S i))) (seq 1 998) = true) by (vm_compute; reflexivity).
  assert (B : forall i, (1 <= i < 999)%nat -> sle (trial_video i) (trial_video (S i))).
  { intros i Hi. apply (proj1 (forallb_forall _ _) A i). apply in_seq. lia. }
  assert (C : forall j i, (1 <= i)%nat -> (i + j <= 999)%nat -> sle (trial_video i) (trial_video (i + j))).
  { induction j as [|j IH]; intros i H1 H2; [rewrite Nat.add_0_r; apply str_leb_refl|].
    apply (str_leb_trans _ (trial_video (i + j))); [apply IH; lia|]. rewrite Nat.add_succ_r. apply B. lia. }
  assert (D : forall n a, (1 <= a)%nat -> (a + n <= 1000)%nat -> StronglySorted sle (map trial_video (seq a n))).
  { induction n0 as [|k IH]; intros a Ha Hk; [constructor|]. cbn. constructor; [apply IH; lia|]. apply Forall_forall. intros x Hx.
    apply in_map_iff in Hx. destruct Hx as (j & <- & Hj). apply in_seq in Hj. replace j with (a + (j - a))%nat by lia. apply C; lia. }
  apply D; lia.
Qed.

(** ** The progress videos. *)
Lemma trial_not_png : forall i, is_png (trial_video i) = false.
Proof.
  intros i. unfold is_png, glob. assert (E : ends ".png" (trial_video i) = false).
  { unfold ends, trial_video. rewrite <- append_assoc. set (a := String.append "progress_trial_" (pad 3 i)). rewrite append_length.
    change (String.length ".mp4") with 4%nat. change (String.length ".png") with 4%nat. replace (String.length a + 4 - 4)%nat with (String.length a) by lia.
    pose proof (substring_append a ".mp4") as S1. change (String.length ".mp4") with 4%nat in S1. rewrite S1. apply Bool.andb_false_r. }
  rewrite E, !Bool.andb_false_r. reflexivity.
Qed.
Lemma trial_glob : forall i, glob "progress_trial_" ".mp4" (trial_video i) = true.
Proof. intros i. apply (glob_append "progress_trial_" (pad 3 i) ".mp4"). Qed.

Section Trials.
Context {F : Type}.
Lemma remove_unique : forall (d : dir F) keep, unique_names d -> unique_names (remove d keep).
Proof.
  unfold unique_names, remove. induction d as [|[n c] d IH]; intros keep H; [constructor|]. cbn [map fst] in H. inversion H as [|? ? Hn Hd]; subst.
  cbn [filter fst]. destruct (keep n); [|apply IH, Hd]. cbn [map fst]. constructor; [|apply IH, Hd]. intros Hi. apply Hn.
  apply in_map_iff in Hi. destruct Hi as ([m c'] & E & Hi). apply filter_In in Hi. cbn in E. subst. apply (in_map fst d (n, c')), Hi.
Qed.
Lemma write_unique : forall (d : dir F) n c, unique_names d -> unique_names (write d n c).
Proof.
  intros d n c H. unfold write, unique_names. cbn [map fst]. constructor; [|apply remove_unique, H]. intros Hi. apply in_look in Hi. destruct Hi as [c' Hc].
  rewrite look_remove, String.eqb_refl in Hc. discriminate.
Qed.
Lemma save_unique : forall fs k crash (d : dir F), unique_names d -> unique_names (fst (save_frames d k crash fs)).
Proof.
  induction fs as [|f fs IH]; intros k crash d H; [exact H|]. cbn [save_frames].
  destruct crash as [c|]; [destruct (Nat.eqb c k); [exact H|]|]; apply IH, write_unique, H.
Qed.
Lemma animate_unique : forall (d : dir F) fs crash video ff, unique_names d -> unique_names (fst (animate d fs crash video ff)).
Proof.
  intros d fs crash video ff H. unfold animate. pose proof (save_unique fs 0 crash (setup_saving d) (remove_unique d _ H)) as K.
  destruct (save_frames (setup_saving d) 0 crash fs) as [d1 ok]. cbn [fst] in K. destruct ok; [|exact K]. unfold export_video.
  destruct (existsb _ d1); [|exact K]. destruct ff as [|code out]; [exact K|]. destruct (Z.eqb code 0); cbn [fst].
  - apply remove_unique, write_unique, K.
  - destruct out; [apply write_unique, K | exact K].
Qed.

Definition all_ok (ts : list (list F)) : list (list F * ffmpeg F) := map (fun fs => (fs, Exits 0 None)) ts.
Lemma trials_result : forall ts i (d : dir F), unique_names d -> Forall (fun fs => fs <> []) ts ->
  exists d', animate_trials d i (all_ok ts) = (d', Ok tt) /\ unique_names d' /\
  (forall n, is_png n = false -> (forall k, (i <= k < i + length ts)%nat -> n <> trial_video k) -> look d' n = look d n) /\
  (forall k fs, nth_error ts k = Some fs -> look d' (trial_video (i + k)) = Some (Video fs)).
Proof.
  induction ts as [|fs ts IH]; intros i d Hu Hne.
  - exists d. split; [reflexivity|]. split; [exact Hu|]. split; [reflexivity|]. intros [|k] fs H; discriminate.
  - inversion Hne as [|? ? H1 H2]; subst. cbn [all_ok map animate_trials].
    destruct (l_C46_video_complete F d fs (trial_video i) None H1 (trial_not_png i)) as (d1 & E1 & E2 & _ & E4).
    pose proof (animate_unique d fs None (trial_video i) (Exits 0 None) Hu) as U1. rewrite E1 in U1 |- *. cbn [fst] in U1.
    destruct (IH (S i) d1 U1 H2) as (d' & A1 & A2 & A3 & A4). exists d'. split; [exact A1|]. split; [exact A2|]. split.
    + intros n Hn Hk. rewrite A3; [|exact Hn|intros k Hk'; apply Hk; cbn [length]; lia]. apply E4; [exact Hn|]. apply Hk. cbn [length]. lia.
    + intros [|k] gs Hg.
      * injection Hg as <-. rewrite Nat.add_0_r, A3; [exact E2 | apply trial_not_png|]. intros k Hk Ek. apply trial_video_inj in Ek. lia.
      * rewrite Nat.add_succ_r. apply A4. exact Hg.
Qed.

Lemma names_perm : forall (d : dir F) vs, unique_names d -> progress_videos_are d vs ->
  Permutation (map trial_video (seq 1 (length vs))) (filter (glob "progress_trial_" ".mp4") (map fst d)).
Proof.
  intros d vs Hu [H1 H2]. apply NoDup_Permutation.
  - apply FinFun.Injective_map_NoDup; [exact trial_video_inj | apply seq_NoDup].
  - apply NoDup_filter, Hu.
  - intros n. split.
    + intros Hn. apply in_map_iff in Hn. destruct Hn as (i & <- & Hi). apply in_seq in Hi. apply filter_In. split; [|apply trial_glob].
      specialize (H1 i ltac:(lia)). destruct (nth_error vs (i - 1)) as [v|] eqn:E; [|apply nth_error_None in E; lia]. apply (look_in _ _ _ H1).
    + intros Hn. apply filter_In in Hn. destruct Hn as [Hi Hg]. apply in_look in Hi. destruct Hi as [c Hc].
      destruct (Classical_Prop.classic (exists i, (1 <= i)%nat /\ n = trial_video i)) as [(i & Hi & ->)|Ni].
      * rewrite H1 in Hc by exact Hi. destruct (nth_error vs (i - 1)) as [v|] eqn:E; [|discriminate].
        assert (i - 1 < length vs)%nat by (apply nth_error_Some; congruence). apply in_map, in_seq. lia.
      * rewrite H2 in Hc; [discriminate | exact Hg|]. intros i Hi E. apply Ni. exists i. split; assumption.
Qed.
Lemma trial_not_list : forall i, trial_video i <> "video_list.txt".
Proof. intros i E. pose proof (trial_glob i) as G. rewrite E in G. discriminate. Qed.
Lemma trial_not_merged : forall i, trial_video i <> "progress_merged.mp4".
Proof. intros i E. pose proof (trial_glob i) as G. rewrite E in G. discriminate. Qed.

Lemma merge_result : forall (d : dir F) vs, unique_names d -> progress_videos_are d vs -> vs <> [] ->
  exists is d', Permutation (seq 1 (length vs)) is /\ StronglySorted sle (map trial_video is) /\
  merge_videos d "progress_trial_" "progress_merged.mp4" (Exits 0 None) = (d', Ok (Some "progress_merged.mp4")) /\
  look d' "progress_merged.mp4" = Some (Video (flat_map (fun i => nth (i - 1) vs []) is)) /\
  (forall n, n <> "progress_merged.mp4" -> n <> "video_list.txt" -> look d' n = look d n) /\ look d' "video_list.txt" = None.
Proof.
  intros d vs Hu Hv Hne. pose proof (names_perm d vs Hu Hv) as P.
  pose proof (perm_trans P (sort_perm _)) as P2. apply Permutation_sym in P2.
  destruct (Permutation_map_inv _ _ P2) as (is & Ei & Pi). pose proof (sort_sorted (filter (glob "progress_trial_" ".mp4") (map fst d))) as Ss.
  exists is. unfold merge_videos. rewrite Ei in Ss |- *.
  assert (Hin : is <> []). { intros ->. apply Permutation_length in Pi. rewrite seq_length in Pi. destruct vs; [contradiction|discriminate]. }
  destruct (map trial_video is) as [|n0 ns] eqn:En; [destruct is; [contradiction|discriminate]|]. rewrite <- En in *. cbn [Z.eqb].
  eexists. split; [exact Pi|]. split; [exact Ss|]. split; [reflexivity|]. split.
  - rewrite look_remove. cbn [negb String.eqb Ascii.eqb Bool.eqb]. rewrite look_write, String.eqb_refl. do 2 f_equal.
    rewrite !flat_map_concat_map, map_map. f_equal. apply map_ext_in. intros i Hi.
    unfold video_frames. rewrite look_write. destruct (String.eqb_spec "video_list.txt" (trial_video i)) as [E|_]; [exfalso; apply (trial_not_list i); congruence|].
    apply (Permutation_in _ (Permutation_sym Pi)) in Hi. apply in_seq in Hi.
    rewrite (proj1 Hv i) by lia. destruct (nth_error vs (i - 1)) as [v|] eqn:E; [|apply nth_error_None in E; lia].
    cbn [option_map]. symmetry. apply nth_error_nth, E.
  - split; [|rewrite look_remove; reflexivity].
    intros n N1 N2. rewrite look_remove. destruct (String.eqb_spec n "video_list.txt"); [contradiction|]. cbn [negb]. rewrite !look_write.
    destruct (String.eqb_spec "progress_merged.mp4" n); [congruence|]. destruct (String.eqb_spec "video_list.txt" n); [congruence|]. reflexivity.
Qed.
Lemma flat_map_seq : forall (vs : list (list F)) a, flat_map (fun i => nth (i - a) vs []) (seq a (length vs)) = concat vs.
Proof.
  induction vs as [|v vs IH]; intros a; [reflexivity|]. cbn [length seq flat_map concat]. rewrite Nat.sub_diag. cbn [nth]. f_equal.
  rewrite <- (IH (S a)), !flat_map_concat_map. f_equal. apply map_ext_in. intros i Hi. apply in_seq in Hi. replace (i - a)%nat with (S (i - S a)) by lia. reflexivity.
Qed.
Lemma sorted_seq : forall n is, (n <= 999)%nat -> Permutation (seq 1 n) is -> StronglySorted sle (map trial_video is) -> is = seq 1 n.
Proof.
  intros n is Hn P S. pose proof (sorted_unique _ _ S (adjacent_sorted n Hn) (Permutation_map trial_video (Permutation_sym P))) as E.
  clear -E. revert E. generalize (seq 1 n) as l. induction is as [|i is IH]; intros [|j l] E; try discriminate; [reflexivity|].
  cbn [map] in E. pose proof (f_equal (hd EmptyString) E) as E1. pose proof (f_equal (@tl _) E) as E2. cbn [hd tl] in E1, E2. apply trial_video_inj in E1. subst. f_equal. apply IH, E2.
Qed.
(** The trials of an evaluation replace the older progress videos of the same numbers. *)
Lemma trials_over_old : forall (d : dir F) ts old, unique_names d -> Forall (fun fs => fs <> []) ts -> progress_videos_are d old ->
  exists d', animate_trials d 1 (all_ok ts) = (d', Ok tt) /\ unique_names d' /\ progress_videos_are d' (ts ++ skipn (length ts) old) /\
  (forall n, is_png n = false -> glob "progress_trial_" ".mp4" n = false -> look d' n = look d n).
Proof.
  intros d ts old Hu Hne [O1 O2]. destruct (trials_result ts 1 d Hu Hne) as (d' & A1 & A2 & A3 & A4). exists d'. split; [exact A1|]. split; [exact A2|]. split; [split|].
  - intros i Hi. destruct (Nat.lt_ge_cases (i - 1) (length ts)) as [L|L].
    + rewrite nth_error_app1 by exact L. destruct (nth_error ts (i - 1)) as [fs|] eqn:E; [|apply nth_error_None in E; lia].
      specialize (A4 _ _ E). replace (1 + (i - 1))%nat with i in A4 by lia. exact A4.
    + rewrite nth_error_app2 by exact L. rewrite A3; [|apply trial_not_png|intros k Hk Ek; apply trial_video_inj in Ek; lia].
      rewrite O1 by exact Hi. f_equal. replace (i - 1)%nat with (length ts + (i - 1 - length ts))%nat at 1 by lia.
      generalize (i - 1 - length ts)%nat as k. clear. revert old. generalize (length ts) as m. induction m as [|m IH]; intros old k; [reflexivity|].
      destruct old as [|o old]; [destruct k; reflexivity|]. apply IH.
  - intros n Hg Hk. destruct (is_png n) eqn:Ep.
    + exfalso. unfold is_png, glob in Ep. unfold glob in Hg. apply andb_prop in Hg. destruct Hg as [_ Hg]. apply andb_prop in Ep. destruct Ep as [_ Ep].
      apply andb_prop in Ep. destruct Ep as [_ Ep]. unfold ends in *. apply andb_prop in Hg. apply andb_prop in Ep. destruct Hg as [_ Hg]. destruct Ep as [_ Ep].
      change (String.length ".mp4") with 4%nat in Hg. change (String.length ".png") with 4%nat in Ep. apply String.eqb_eq in Hg. apply String.eqb_eq in Ep. rewrite Hg in Ep. discriminate.
    + rewrite A3; [apply O2; [exact Hg|exact Hk]|exact Ep|]. intros k Hk'. apply Hk. lia.
  - intros n Hp Hg. apply A3; [exact Hp|]. intros k _ ->. rewrite trial_glob in Hg. discriminate.
Qed.
End Trials.

(** C49: up to 999 trials, in a directory without older progress videos: the merged video shows the
    trials in the order in which they were run, each with all its frames; the list file is gone; files that are
    neither pictures nor progress videos are untouched. *)
Lemma l_C49_merged_in_order :
  forall (F : Type) (d : dir F) (ts : list (list F)), unique_names d -> progress_videos_are d [] ->
  ts <> [] -> (length ts <= 999)%nat -> (forall fs, In fs ts -> fs <> []) ->
  exists d', progress_videos d (map (fun fs => (fs, Exits 0 None)) ts) (Exits 0 None) = (d', Ok (Some "progress_merged.mp4")) /\
  look d' "progress_merged.mp4" = Some (Video (concat ts)) /\ progress_videos_are d' ts /\
  (forall n, is_png n = false -> glob "progress_trial_" ".mp4" n = false -> n <> "progress_merged.mp4" -> n <> "video_list.txt" ->
     look d' n = look d n) /\
  look d' "video_list.txt" = None.
Proof.
  intros F d ts Hu Ho Hne HL Hf. destruct (trials_over_old d ts [] Hu (proj2 (Forall_forall _ _) Hf) Ho) as (d1 & A1 & A2 & A3 & A4).
  rewrite skipn_nil, app_nil_r in A3. destruct (merge_result d1 ts A2 A3 Hne) as (is & d' & P & Ss & M1 & M2 & M3 & M4).
  exists d'. unfold progress_videos. fold (all_ok ts). rewrite A1. split; [exact M1|]. split.
  - rewrite M2. rewrite (sorted_seq _ _ HL P Ss). do 2 f_equal. apply flat_map_seq.
  - split; [|split; [intros n Hp Hg N1 N2; rewrite M3 by assumption; apply A4; assumption|exact M4]]. destruct A3 as [V1 V2]. split.
    + intros i Hi. rewrite M3; [apply V1, Hi | apply trial_not_merged | apply trial_not_list].
    + intros n Hg Hk. rewrite M3; [apply V2; assumption | intros ->; discriminate | intros ->; discriminate].
Qed.
(** C49 fails in a directory that still has the progress videos of an earlier, longer evaluation: the
    merged video continues with the old trials. *)
Lemma l_C49_old_videos_refuted :
  forall (F : Type) (d : dir F) (ts old : list (list F)), unique_names d -> progress_videos_are d old ->
  ts <> [] -> (length ts < length old <= 999)%nat -> (forall fs, In fs ts -> fs <> []) ->
  exists d', progress_videos d (map (fun fs => (fs, Exits 0 None)) ts) (Exits 0 None) = (d', Ok (Some "progress_merged.mp4")) /\
  look d' "progress_merged.mp4" = Some (Video (concat ts ++ concat (skipn (length ts) old))).
Proof.
  intros F d ts old Hu Ho Hne HL Hf. destruct (trials_over_old d ts old Hu (proj2 (Forall_forall _ _) Hf) Ho) as (d1 & A1 & A2 & A3 & A4).
  destruct (merge_result d1 _ A2 A3) as (is & d' & P & Ss & M1 & M2 & M3); [destruct ts; [contradiction|discriminate]|].
  exists d'. unfold progress_videos. fold (all_ok ts). rewrite A1. split; [exact M1|]. rewrite M2.
  assert (L2 : (length (ts ++ skipn (length ts) old) <= 999)%nat) by (rewrite app_length, skipn_length; lia).
  rewrite (sorted_seq _ _ L2 P Ss). do 2 f_equal. rewrite <- concat_app. apply flat_map_seq.
Qed.
Lemma sorted_split : forall l1 a l2 b, StronglySorted sle (l1 ++ a :: l2) -> In b l2 -> sle a b.
Proof.
  induction l1 as [|x l1 IH]; intros a l2 b H Hb; inversion H as [|? ? H1 H2]; subst; [apply (proj1 (Forall_forall _ _) H2 b Hb)|]. apply (IH a l2 b H1 Hb).
Qed.
(** C49 fails from 1000 trials on: names are sorted as strings, and the zero padding has three digits
    (progress_trial_1000 comes before progress_trial_101). *)
Lemma l_C49_thousand_trials_refuted :
  forall n (d : dir nat), (1000 <= n)%nat -> unique_names d -> progress_videos_are d [] ->
  let ts := map (fun i => [i]) (seq 1 n) in
  exists d' shown, progress_videos d (map (fun fs => (fs, Exits 0 None)) ts) (Exits 0 None) = (d', Ok (Some "progress_merged.mp4")) /\
  look d' "progress_merged.mp4" = Some (Video shown) /\ Permutation (seq 1 n) shown /\ shown <> seq 1 n.
Proof.
  intros n d Hn Hu Ho ts. assert (Hl : length ts = n) by (unfold ts; rewrite map_length, seq_length; reflexivity).
  assert (Hf : Forall (fun fs => fs <> []) ts). { apply Forall_forall. intros fs Hi. apply in_map_iff in Hi. destruct Hi as (i & <- & _). discriminate. }
  destruct (trials_over_old d ts [] Hu Hf Ho) as (d1 & A1 & A2 & A3 & A4). rewrite skipn_nil, app_nil_r in A3.
  destruct (merge_result d1 ts A2 A3) as (is & d' & P & Ss & M1 & M2 & M3); [intros E; rewrite E in Hl; cbn in Hl; lia|].
  rewrite Hl in P. exists d', is. unfold progress_videos. fold (all_ok ts). rewrite A1. split; [exact M1|]. split; [|split; [exact P|]].
  - rewrite M2. do 2 f_equal. rewrite flat_map_concat_map.
    assert (E : map (fun i => nth (i - 1) ts []) is = map (fun i => [i]) is).
    { apply map_ext_in. intros i Hi. apply (Permutation_in _ (Permutation_sym P)) in Hi. apply in_seq in Hi. unfold ts.
      rewrite (nth_indep _ [] [0%nat]) by (rewrite map_length, seq_length; lia). rewrite (map_nth (fun i => [i])). rewrite seq_nth by lia. f_equal. lia. }
    rewrite E. clear. induction is as [|i is IH]; [reflexivity|]. cbn. f_equal. exact IH.
  - intros ->. replace n with (100 + S (n - 101))%nat in Ss by lia. rewrite seq_app, map_app in Ss. cbn [seq map] in Ss.
    assert (B : sle (trial_video 101) (trial_video 1000)).
    { apply (sorted_split _ _ _ _ Ss). apply in_map, in_seq. lia. }
    vm_compute in B. discriminate.
Qed.
(** C49 fails when ffmpeg fails for a trial: the merged video is made without it, and success is reported. *)
Lemma l_C49_failed_trial_refuted :
  exists d', progress_videos [] [([1%nat], Exits 0 None); ([2%nat], Exits 1 None); ([3%nat], Exits 0 None)] (Exits 0 None) =
    (d', Ok (Some "progress_merged.mp4")) /\ look d' "progress_merged.mp4" = Some (Video [1; 3]%nat).
Proof. eexists. split; vm_compute; reflexivity. Qed.
(** An empty directory meets the hypotheses; three trials. *)
Lemma x_C49_three_trials :
  unique_names (@nil (string * file nat)) /\ progress_videos_are (@nil (string * file nat)) [] /\
  exists d', progress_videos [] (map (fun fs => (fs, Exits 0 None)) [[1; 2]; [3]; [4; 5]]%nat) (Exits 0 None) =
    (d', Ok (Some "progress_merged.mp4")) /\ look d' "progress_merged.mp4" = Some (Video [1; 2; 3; 4; 5]%nat).
Proof.
  split; [constructor|]. split; [split; [intros [|[|i]] Hi; [lia|reflexivity|reflexivity] | reflexivity]|]. eexists. split; vm_compute; reflexivity.
Qed.
