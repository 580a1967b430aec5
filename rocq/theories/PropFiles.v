(** * Property theorems (generated from ProofsFiles.v by tools/genprops.py; statements only,
    each closed by [exact]). *)
From Coq Require Import Lia Lra Psatz String Ascii DecimalString DecimalNat ZArith Permutation Sorted.
From Verif Require Import SpecGeom Base BaseFacts Params Rollout Anim SpecAnim.
From Verif Require Import ProofsFiles.
Local Open Scope string_scope.
Local Open Scope list_scope.
Open Scope R_scope.

(** C46: with frame_skip other than 0 the denoising animation draws every |frame_skip|-th of the
    recorded plans, starting with the first; frame k shows the positions of the rollout of plan number
    k * |frame_skip| from the initial state, one position per action and one for the start. *)
Theorem C46_denoising_frames :
  forall (Q : Type) (pos : Q -> point) (stp : State Q -> act -> State Q) st0 N skip (Yi : list (list act)), skip <> 0%Z ->
  exists fs, denoising_frames pos stp st0 N skip Yi = Ok fs /\ every_nth (length Yi) (Z.abs_nat skip) (length fs) /\
  forall k f, nth_error fs k = Some f ->
  exists us, nth_error Yi (k * Z.abs_nat skip) = Some us /\
    df_step f = (k * Z.abs_nat skip)%nat /\ df_title f = (Z.of_nat N - 1 - Z.of_nat (k * Z.abs_nat skip))%Z /\
    length (df_path f) = S (length us) /\
    forall j P, nth_error (df_path f) j = Some P -> P = pos (st_q (fold_left stp (firstn j us) st0)).
Proof. exact l_C46_denoising_frames. Qed.
Print Assumptions C46_denoising_frames.

(** C46: frame_skip = 0 raises ZeroDivisionError, unless there is nothing to draw. *)
Theorem C46_zero_skip :
  forall (Q : Type) (pos : Q -> point) (stp : State Q -> act -> State Q) st0 N (Yi : list (list act)),
  denoising_frames pos stp st0 N 0 Yi = match Yi with [] => Ok [] | _ => Err ZeroDivisionError end.
Proof. exact l_C46_zero_skip. Qed.
Print Assumptions C46_zero_skip.

(** C46: the first plan is always drawn, *)
Theorem C46_first_step_drawn :
  forall (Q : Type) (pos : Q -> point) (stp : State Q -> act -> State Q) st0 N skip us (Yi : list (list act)) fs,
  denoising_frames pos stp st0 N skip (us :: Yi) = Ok fs -> exists f rest, fs = f :: rest /\ df_step f = 0%nat.
Proof. exact l_C46_first_step_drawn. Qed.
Print Assumptions C46_first_step_drawn.

(** C46: but the last one (the final plan) only if |frame_skip| divides the number of plans minus one. *)
Theorem C46_last_step_refuted :
  forall (Q : Type) (pos : Q -> point) (stp : State Q -> act -> State Q) st0 N skip (Yi : list (list act)) fs,
  Yi <> [] -> denoising_frames pos stp st0 N skip Yi = Ok fs ->
  ((exists f, In f fs /\ df_step f = (length Yi - 1)%nat) <-> Nat.divide (Z.abs_nat skip) (length Yi - 1)).
Proof. exact l_C46_last_step_refuted. Qed.
Print Assumptions C46_last_step_refuted.

(** C46: opacity grows with the step, from 0.3 to at most 1. *)
Theorem C46_opacity :
  forall (Q : Type) (pos : Q -> point) (stp : State Q -> act -> State Q) st0 N skip (Yi : list (list act)) fs,
  denoising_frames pos stp st0 N skip Yi = Ok fs ->
  forall f g, In f fs -> In g fs ->
  3/10 <= df_alpha f <= 1 /\ ((df_step f <= df_step g)%nat -> df_alpha f <= df_alpha g) /\ (df_step f = 0%nat -> df_alpha f = 3/10) /\
  ((1 < length Yi)%nat -> df_step f = (length Yi - 1)%nat -> df_alpha f = 1).
Proof. exact l_C46_opacity. Qed.
Print Assumptions C46_opacity.

(** 100 plans, every 10th: ten frames, and the final plan is not among them. *)
Example C46_ten_frames :
  exists fs, denoising_frames (fun q : R => (q, 0)) (fun st _ => st) (reset_state 0) 100 10 (repeat [] 100) = Ok fs /\
  length fs = 10%nat /\ ~ exists f, In f fs /\ df_step f = (length (repeat (@nil act) 100) - 1)%nat.
Proof. exact x_C46_ten_frames. Qed.

(** C46: a successful call: ffmpeg ends with code 0 and the video consists of exactly the frames of this
    call, in order; no picture file is left, and no other file of the directory has changed. *)
Theorem C46_video_complete :
  forall (F : Type) (d : dir F) (fs : list F) video out, fs <> [] -> is_png video = false ->
  exists d', animate d fs None video (Exits 0 out) = (d', Ok tt) /\
  look d' video = Some (Video fs) /\ no_pictures d' /\ same_but_video video d d'.
Proof. exact l_C46_video_complete. Qed.
Print Assumptions C46_video_complete.

(** C46: pictures are deleted only after ffmpeg succeeded. If ffmpeg is missing the call raises
    FileNotFoundError; if it fails the call returns normally; in both cases every frame is still there. *)
Theorem C46_frames_kept :
  forall (F : Type) (d : dir F) (fs : list F) video ff, fs <> [] -> is_png video = false -> (forall out, ff <> Exits 0 out) ->
  exists d' r, animate d fs None video ff = (d', r) /\ pictures_are d' fs /\ same_but_video video d d' /\
  match ff with
  | NotInstalled => r = Err FileNotFoundError /\ look d' video = look d video
  | Exits code out => r = Ok tt /\ look d' video = match out with Some c => Some c | None => look d video end
  end.
Proof. exact l_C46_frames_kept. Qed.
Print Assumptions C46_frames_kept.

(** C46: if drawing or saving frame number c fails, the frames 0 .. c-1 are there, and no video or other
    file has changed. *)
Theorem C46_interrupted :
  forall (F : Type) (d : dir F) (fs : list F) c video ff, (c < length fs)%nat ->
  exists d', animate d fs (Some c) video ff = (d', Err RuntimeError) /\ pictures_are d' (firstn c fs) /\
  forall n, is_png n = false -> look d' n = look d n.
Proof. exact l_C46_interrupted. Qed.
Print Assumptions C46_interrupted.

(** C46: an animation without frames makes no video: an older one keeps its name and contents. *)
Theorem C46_no_frames :
  forall (F : Type) (d : dir F) video ff, exists d', animate d [] None video ff = (d', Ok tt) /\ no_pictures d' /\
  forall n, is_png n = false -> look d' n = look d n.
Proof. exact l_C46_no_frames. Qed.
Print Assumptions C46_no_frames.

(** C46: after any sequence of animation calls on a directory, failed and interrupted ones included, a
    video file holds exactly the frames of the latest completed call with that name, or is what was
    there before if there was none. *)
Theorem C46_video_history :
  forall (F : Type) (d : dir F) (calls : list (acall F)) v fs, is_png v = false ->
  (forall c, In c calls -> is_png (ac_video c) = false /\ honest_failure c) ->
  look (run_calls d calls) v = Some (Video fs) ->
  (look d v = Some (Video fs) /\ forall c, In c calls -> ac_video c = v -> ~ completes c) \/
  (exists before c after, calls = before ++ c :: after /\ ac_video c = v /\ ac_frames c = fs /\ completes c /\
     forall c', In c' after -> ac_video c' = v -> ~ completes c').
Proof. exact l_C46_video_history. Qed.
Print Assumptions C46_video_history.

(** A failed call, then a shorter successful one under the same name: the video has the two frames of the
    second call only. *)
Example C46_history :
  let calls := [mkCall [1; 2; 3]%nat None "a.mp4" (Exits 1 None); mkCall [4; 5]%nat None "a.mp4" (Exits 0 None)] in
  look (run_calls [] calls) "a.mp4" = Some (Video [4; 5]%nat) /\
  (forall c, In c calls -> is_png (ac_video c) = false /\ honest_failure c).
Proof. exact x_C46_history. Qed.

(** C49: up to 999 trials, in a directory without older progress videos: the merged video shows the
    trials in the order in which they were run, each with all its frames; the list file is gone; files that are
    neither pictures nor progress videos are untouched. *)
Theorem C49_merged_in_order :
  forall (F : Type) (d : dir F) (ts : list (list F)), unique_names d -> progress_videos_are d [] ->
  ts <> [] -> (length ts <= 999)%nat -> (forall fs, In fs ts -> fs <> []) ->
  exists d', progress_videos d (map (fun fs => (fs, Exits 0 None)) ts) (Exits 0 None) = (d', Ok (Some "progress_merged.mp4")) /\
  look d' "progress_merged.mp4" = Some (Video (concat ts)) /\ progress_videos_are d' ts /\
  (forall n, is_png n = false -> glob "progress_trial_" ".mp4" n = false -> n <> "progress_merged.mp4" -> n <> "video_list.txt" ->
     look d' n = look d n) /\
  look d' "video_list.txt" = None.
Proof. exact l_C49_merged_in_order. Qed.
Print Assumptions C49_merged_in_order.

(** C49 fails in a directory that still has the progress videos of an earlier, longer evaluation: the
    merged video continues with the old trials. *)
Theorem C49_old_videos_refuted :
  forall (F : Type) (d : dir F) (ts old : list (list F)), unique_names d -> progress_videos_are d old ->
  ts <> [] -> (length ts < length old <= 999)%nat -> (forall fs, In fs ts -> fs <> []) ->
  exists d', progress_videos d (map (fun fs => (fs, Exits 0 None)) ts) (Exits 0 None) = (d', Ok (Some "progress_merged.mp4")) /\
  look d' "progress_merged.mp4" = Some (Video (concat ts ++ concat (skipn (length ts) old))).
Proof. exact l_C49_old_videos_refuted. Qed.
Print Assumptions C49_old_videos_refuted.

(** C49 fails from 1000 trials on: names are sorted as strings, and the zero padding has three digits
    (progress_trial_1000 comes before progress_trial_101). *)
Theorem C49_thousand_trials_refuted :
  forall n (d : dir nat), (1000 <= n)%nat -> unique_names d -> progress_videos_are d [] ->
  let ts := map (fun i => [i]) (seq 1 n) in
  exists d' shown, progress_videos d (map (fun fs => (fs, Exits 0 None)) ts) (Exits 0 None) = (d', Ok (Some "progress_merged.mp4")) /\
  look d' "progress_merged.mp4" = Some (Video shown) /\ Permutation (seq 1 n) shown /\ shown <> seq 1 n.
Proof. exact l_C49_thousand_trials_refuted. Qed.
Print Assumptions C49_thousand_trials_refuted.

(** C49 fails when ffmpeg fails for a trial: the merged video is made without it, and success is reported. *)
Theorem C49_failed_trial_refuted :
  exists d', progress_videos [] [([1%nat], Exits 0 None); ([2%nat], Exits 1 None); ([3%nat], Exits 0 None)] (Exits 0 None) =
    (d', Ok (Some "progress_merged.mp4")) /\ look d' "progress_merged.mp4" = Some (Video [1; 3]%nat).
Proof. exact l_C49_failed_trial_refuted. Qed.
Print Assumptions C49_failed_trial_refuted.

(** An empty directory meets the hypotheses; three trials. *)
Example C49_three_trials :
  unique_names (@nil (string * file nat)) /\ progress_videos_are (@nil (string * file nat)) [] /\
  exists d', progress_videos [] (map (fun fs => (fs, Exits 0 None)) [[1; 2]; [3]; [4; 5]]%nat) (Exits 0 None) =
    (d', Ok (Some "progress_merged.mp4")) /\ look d' "progress_merged.mp4" = Some (Video [1; 2; 3; 4; 5]%nat).
Proof. exact x_C49_three_trials. Qed.
