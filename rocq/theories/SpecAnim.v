(** * SpecAnim: vocabulary for the claims about pictures and videos. *)
From Coq Require Import Reals List ZArith String.
From Verif Require Import Base Params Anim SpecGeom.
Import ListNotations.
Local Open Scope string_scope.
Local Open Scope list_scope.
Open Scope R_scope.

(** P is covered by the drawn rectangle: a point of the axis-parallel rectangle with one corner
    (x, y), width w and height h, rotated about the origin and then translated. *)
Definition shown (g : patch) (P : point) : Prop :=
  exists u v, 0 <= u <= 1 /\ 0 <= v <= 1 /\
    P = at_frame (pa_tx g, pa_ty g) (pa_rot g) (pa_x g + u * pa_w g) (pa_y g + v * pa_h g).

(** P is on the border of the drawn rectangle. *)
Definition border (g : patch) (P : point) : Prop :=
  exists u v, 0 <= u <= 1 /\ 0 <= v <= 1 /\ (u = 0 \/ u = 1 \/ v = 0 \/ v = 1) /\
    P = at_frame (pa_tx g, pa_ty g) (pa_rot g) (pa_x g + u * pa_w g) (pa_y g + v * pa_h g).

(** The drawn rectangle covers exactly the points of the solid region, and its border is the outline. *)
Definition draws (g : patch) (r : region) : Prop :=
  (forall P, shown g P <-> solid r P) /\ (forall P, border g P <-> outline r P).

(** In the picture a body of the vehicle and a rectangular obstacle have a common point. *)
Definition meets_rect (f : frame) : Prop :=
  exists b o P, In b (dr_bodies (fr_vehicle f)) /\ In o (sc_rects (fr_scene f)) /\ shown b P /\ shown o P.
(** The border of a body enters (or touches) a circular obstacle. *)
Definition edge_meets_circle (f : frame) : Prop :=
  exists b c P, In b (dr_bodies (fr_vehicle f)) /\ In c (sc_circles (fr_scene f)) /\ border b P /\ SpecGeom.dist P (fst c) <= snd c.

(** The wheel is drawn around the point P with heading ang. *)
Definition wheel_at (w : patch) (P : point) (ang : R) : Prop :=
  pa_tx w = fst P /\ pa_ty w = snd P /\ pa_rot w = ang.

(** Number of pictures when every skip-th of n is taken, starting with the first. *)
Definition every_nth (n skip m : nat) : Prop := (n <= m * skip)%nat /\ (m * skip < n + skip)%nat.

(** No picture file in the directory. *)
Definition no_pictures {F : Type} (d : dir F) : Prop := forall n, is_png n = true -> look d n = None.
(** The picture files of the directory are exactly the numbered frames fs. *)
Definition pictures_are {F : Type} (d : dir F) (fs : list F) : Prop :=
  (forall k, look d (frame_name k) = option_map Image (nth_error fs k)) /\
  (forall n, is_png n = true -> (forall k, n <> frame_name k) -> look d n = None).
(** d2 has the same files as d1 under every name that is neither a picture nor v. *)
Definition same_but_video {F : Type} (v : string) (d1 d2 : dir F) : Prop :=
  forall n, is_png n = false -> n <> v -> look d2 n = look d1 n.

(** The call saved all its frames (at least one) and ffmpeg reported success. *)
Definition completes {F : Type} (c : acall F) : Prop :=
  ac_frames c <> [] /\ (forall k, ac_crash c = Some k -> (length (ac_frames c) <= k)%nat) /\ exists out, ac_ffmpeg c = Exits 0 out.
(** A failing ffmpeg leaves nothing that looks like a complete video. *)
Definition honest_failure {F : Type} (c : acall F) : Prop :=
  forall code fs, code <> 0%Z -> ac_ffmpeg c <> Exits code (Some (Video fs)).

(** File names of a directory are unique. *)
Definition unique_names {F : Type} (d : dir F) : Prop := NoDup (map fst d).
(** The progress videos of the directory are those of trials 1 .. length vs, with contents vs. *)
Definition progress_videos_are {F : Type} (d : dir F) (vs : list (list F)) : Prop :=
  (forall i, (1 <= i)%nat -> look d (trial_video i) = option_map Video (nth_error vs (i - 1))) /\
  (forall n, glob "progress_trial_" ".mp4" n = true -> (forall i, (1 <= i)%nat -> n <> trial_video i) -> look d n = None).

(** In frame k of the animation of a trajectory the blue line runs through the positions of states 0 to k, in that order, and
    the overlay line through those of the first k+1 states of the overlay. *)
Definition frame_lines {Q : Type} (a : animated Q) (pos : Q -> point) : Prop :=
  forall over states us k f, length states = S (length us) ->
  nth_error (trajectory_frames a over states (with_final us)) k = Some f ->
  fr_trace f = map pos (firstn (S k) states) /\ fr_overlay f = map pos (firstn (S k) over).
