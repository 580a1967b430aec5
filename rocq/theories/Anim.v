(** * Anim: pictures, animation files and videos (mbd/utils.py:66-646, the drawing methods of the
    robot classes, mbd_planner.py:696-730).

    A drawn rectangle is described by the arguments of plt.Rectangle and Affine2D().rotate().translate();
    a saved frame by what is drawn in it. Not modelled: colours, line widths, legends, text of the
    parking spaces, start and goal markers, dpi, the progress bar, interactive display.

    The files of one animation directory (results/<env>/animations/<type>) are an association list of
    names and contents. *)
From Coq Require Import Reals List ZArith String Ascii DecimalString.
From Verif Require Import Base Params Geom TT2d Bicycle NTrailer Acc Rollout EnvModel Setup.
Import ListNotations.
Local Open Scope string_scope.
Local Open Scope list_scope.
Open Scope R_scope.

(** plt.Rectangle((x, y), w, h) with the transform Affine2D().rotate(rot).translate(tx, ty). *)
Record patch : Type := mkPatch { pa_x : R; pa_y : R; pa_w : R; pa_h : R; pa_rot : R; pa_tx : R; pa_ty : R }.
(** plt.Rectangle((-w/2, -h/2), w, h). *)
Definition centred (w h rot tx ty : R) : patch := mkPatch (- w / 2) (- h / 2) w h rot tx ty.

(** Drawn vehicle: bodies, wheels and hitch lines. *)
Record drawing : Type := mkDrawing { dr_bodies : list patch; dr_wheels : list patch; dr_lines : list (pt * pt) }.

Definition wheel_len : R := 8/10.
Definition wheel_wid : R := 45/100.
Definition wheel (rot : R) (at_ : pt) : patch := centred wheel_len wheel_wid rot (fst at_) (snd at_).

(** TractorTrailer2d: setup_animation_patches, get_tractor_trailer_positions, render_rigid_body
    (tt2d.py:1278-1423). [steer] is the steering angle extracted from the state or the action. *)
Definition tt_draw_with (p : params) (q : ttq) (steer : R) : drawing :=
  let '(mkTT px py th1 th2) := q in
  let tractor_full := p_l1 p + p_lf1 p + p_lr p in
  let trailer_full := p_lf2 p + p_lr2 p in
  let front := (px + p_l1 p * cos th1, py + p_l1 p * sin th1) in
  let hitch_x := px - p_lh p * cos th1 in
  let hitch_y := py - p_lh p * sin th1 in
  let trailer_rear := (hitch_x - p_l2 p * cos th2, hitch_y - p_l2 p * sin th2) in
  let trailer_front := (hitch_x - (p_l2 p - p_lf2 p) * cos th2, hitch_y - (p_l2 p - p_lf2 p) * sin th2) in
  let tcx := px + 1/2 * (p_l1 p + p_lf1 p - p_lr p) * cos th1 in
  let tcy := py + 1/2 * (p_l1 p + p_lf1 p - p_lr p) * sin th1 in
  let rcx := hitch_x + (1/2 * (p_lf2 p - p_lr2 p) - p_l2 p) * cos th2 in
  let rcy := hitch_y + (1/2 * (p_lf2 p - p_lr2 p) - p_l2 p) * sin th2 in
  mkDrawing [centred tractor_full (p_trac_w p) th1 tcx tcy; centred trailer_full (p_trail_w p) th2 rcx rcy]
    [wheel th1 (px, py); wheel (th1 + steer) front; wheel th2 trailer_rear]
    [((px, py), (hitch_x, hitch_y)); (trailer_front, (hitch_x, hitch_y))].
(** u = None at the last frame: no steering (tt2d.py:1394-1403). *)
Definition steer_of (u : option act) : R := match u with Some a => snd a | None => 0 end.
Definition tt_draw (p : params) (q : ttq) (u : option act) : drawing := tt_draw_with p q (steer_of u).
(** A six-component state carries its steering angle at index 5 (tt2d.py:1397-1399). *)
Definition acc_draw (p : params) (q : accq) (u : option act) : drawing := tt_draw_with p (a_q q) (a_d q).

(** KinematicBicycle2d (kinematic_bicycle2d.py:503-581). *)
Definition bk_draw (p : params) (q : bkq) (u : option act) : drawing :=
  let '(mkBK px py th) := q in
  let tcx := px + 1/2 * (p_l1 p + p_lf1 p - p_lr p) * cos th in
  let tcy := py + 1/2 * (p_l1 p + p_lf1 p - p_lr p) * sin th in
  mkDrawing [centred (p_l1 p + p_lf1 p + p_lr p) (p_trac_w p) th tcx tcy]
    [wheel th (px, py); wheel (th + steer_of u) (px + p_l1 p * cos th, py + p_l1 p * sin th)] [].

(** NTrailer2d.render_rigid_body (n_trailer2d.py:442-512): missing headings are padded with the last
    one; one loop turn per trailer. *)
Definition nt_pad (n : nat) (th0 : R) (ths : list R) : list R :=
  if Nat.ltb (length ths) n then ths ++ repeat (last ths th0) (n - length ths) else firstn n ths.
Fixpoint nt_draw_trailers (s : nt_self) (ths : list R) (n i : nat) (hitch : pt)
  : list patch * list patch * list (pt * pt) * list (pt * pt) :=
  match n with
  | O => ([], [], [], [])
  | S n' =>
      let L := jget (ns_len s) i in
      let lf := jget (ns_front s) i in
      let lr := jget (ns_rear s) i in
      let th := nth i ths 0 in
      let sc := 1/2 * (lf - lr) - L in
      let cx := fst hitch + sc * cos th in
      let cy := snd hitch + sc * sin th in
      let half := 1/2 * (lf + lr) in
      let rear := (cx - half * cos th, cy - half * sin th) in
      let next := (fst rear - p_lh (ns_p s) * cos th, snd rear - p_lh (ns_p s) * sin th) in
      let front := (cx + half * cos th, cy + half * sin th) in
      let '(bs, ws, fs, ks) := nt_draw_trailers s ths n' (S i) next in
      (centred (lf + lr) (p_trail_w (ns_p s)) th cx cy :: bs, wheel th (cx, cy) :: ws, (hitch, front) :: fs,
       match n' with O => ks | S _ => (rear, next) :: ks end)
  end.
Definition nt_draw (s : nt_self) (q : ntq) (u : option act) : drawing :=
  let p := ns_p s in
  let '(mkNT px py th0 ths0) := q in
  let tcx := px + 1/2 * (p_l1 p + p_lf1 p - p_lr p) * cos th0 in
  let tcy := py + 1/2 * (p_l1 p + p_lf1 p - p_lr p) * sin th0 in
  let ths := nt_pad (ns_N s) th0 ths0 in
  let hitch := (px - p_lh p * cos th0, py - p_lh p * sin th0) in
  let '(bs, ws, fs, ks) := nt_draw_trailers s ths (ns_N s) 0 hitch in
  mkDrawing (centred (p_l1 p + p_lf1 p + p_lr p) (p_trac_w p) th0 tcx tcy :: bs)
    (wheel th0 (px, py) :: wheel (th0 + steer_of u) (px + p_l1 p * cos th0, py + p_l1 p * sin th0) :: ws)
    (((px, py), hitch) :: fs ++ ks).

(** Drawn obstacles (utils.py:254-281 from env.env.get_obstacles(); tt2d.py:1227-1250 from self). *)
Definition draw_rect (o : rectobs) : patch := centred (r_w o) (r_h o) (r_ang o) (r_x o) (r_y o).
Definition draw_circle (c : circle) : pt * R := ((c_x c, c_y c), c_r c).
Record scene : Type := mkScene { sc_circles : list (pt * R); sc_rects : list patch }.
Definition draw_scene (circ : list circle) (rect : list rectobs) : scene :=
  mkScene (map draw_circle circ) (map draw_rect rect).

(** ** The trajectory animation. *)
Record frame : Type := mkFrame {
  fr_scene : scene;
  fr_vehicle : drawing;
  fr_coll : bool;                (* red exclamation mark *)
  fr_hitch : bool;               (* purple exclamation mark *)
  fr_trace : list pt;            (* blue line *)
  fr_overlay : list pt           (* guided trajectory, if an overlay was passed *)
}.
(** What create_animation uses of a robot: the drawing method, the two checks, the position. *)
Record animated (Q : Type) : Type := mkAnimated {
  an_scene : scene; an_draw : Q -> option act -> drawing; an_coll : Q -> bool; an_hitch : Q -> bool; an_pos : Q -> pt }.
Arguments an_scene {Q}. Arguments an_draw {Q}. Arguments an_coll {Q}. Arguments an_hitch {Q}. Arguments an_pos {Q}.
Arguments mkAnimated {Q}.

(** The frame loop (utils.py:379-448): [done] are the earlier states, [over] the guided overlay. *)
Fixpoint anim_frames {Q : Type} (a : animated Q) (over : list Q) (before : list Q) (pairs : list (Q * option act)) : list frame :=
  match pairs with
  | [] => []
  | (q, u) :: rest =>
      let trace := before ++ [q] in
      mkFrame (an_scene a) (an_draw a q u) (an_coll a q) (an_hitch a q) (map (an_pos a) trace)
        (map (an_pos a) (firstn (length trace) over))
      :: anim_frames a over trace rest
  end.
Definition zip {A B : Type} (l : list A) (m : list B) : list (A * B) := map2 pair l m.
Definition trajectory_frames {Q : Type} (a : animated Q) (over states : list Q) (actions : list (option act)) : list frame :=
  anim_frames a over [] (zip states actions).
(** The action list passed by run_diffusion and stat_mbd.py: Y0 followed by None
    (mbd_planner.py:700-704, 723-724, stat_mbd.py:430-431). *)
Definition with_final {A : Type} (l : list A) : list (option A) := map Some l ++ [None].

(** The four classes: checks on x[:3], x[:4] or the whole state (utils.py:394-413); obstacles drawn
    are those of the Env object [e], checks use those of the robot. *)
Definition tt_animated (e : env_obj) (s : tt_self) : animated ttq :=
  mkAnimated (draw_scene (e_circles e) (e_rects e)) (tt_draw (ts_p s)) (ts_coll s) (ts_hitch s) (fun q => (t_px q, t_py q)).
Definition bk_animated (e : env_obj) (s : bk_self) : animated bkq :=
  mkAnimated (draw_scene (e_circles e) (e_rects e)) (bk_draw (bs_p s)) (bs_coll s) (fun _ => false) (fun q => (b_px q, b_py q)).
Definition nt_animated (e : env_obj) (s : nt_self) : animated ntq :=
  mkAnimated (draw_scene (e_circles e) (e_rects e)) (nt_draw s) (ns_coll s) (nt_hitch s) (fun q => (n_px q, n_py q)).
Definition acc_animated (e : env_obj) (s : acc_self) : animated accq :=
  mkAnimated (draw_scene (e_circles e) (e_rects e)) (acc_draw (as_p s)) (fun q => ts_coll (as_t s) (a_q q))
    (fun q => ts_hitch (as_t s) (a_q q)) (fun q => (t_px (a_q q), t_py (a_q q))).

(** ** The denoising animation (utils.py:588-640). *)
Record dframe : Type := mkDFrame {
  df_step : nat;                 (* index into Yi *)
  df_path : list pt;             (* drawn positions *)
  df_alpha : R;                  (* opacity of the line *)
  df_title : Z                   (* "Denoising Step {df_title}/..." *)
}.
(** One drawn step: the rollout of Yi[step] with step_env_jit from state_init. *)
Definition denoise_frame {Q : Type} (pos : Q -> pt) (stp : State Q -> act -> State Q) (st0 : State Q)
  (Ndiffuse total step : nat) (us : list act) : dframe :=
  mkDFrame step (map pos (trajectory_states stp st0 us))
    (3/10 + 7/10 * (INR step / INR (Nat.max 1 (total - 1)))) (Z.of_nat Ndiffuse - 1 - Z.of_nat step).
(** The loop over range(total_steps) with [step % frame_skip == 0]; frame_skip = 0 raises
    ZeroDivisionError at the first step. Frames are numbered 0, 1, ... by frame_idx. *)
Fixpoint denoise_loop {Q : Type} (pos : Q -> pt) (stp : State Q -> act -> State Q) (st0 : State Q)
  (Ndiffuse total : nat) (skip : Z) (step : nat) (Yi : list (list act)) : list dframe :=
  match Yi with
  | [] => []
  | us :: rest =>
      let fs := denoise_loop pos stp st0 Ndiffuse total skip (S step) rest in
      if Z.eqb (Z.modulo (Z.of_nat step) skip) 0 then denoise_frame pos stp st0 Ndiffuse total step us :: fs else fs
  end.
Definition denoising_frames {Q : Type} (pos : Q -> pt) (stp : State Q -> act -> State Q) (st0 : State Q)
  (Ndiffuse : nat) (skip : Z) (Yi : list (list act)) : Res (list dframe) :=
  match Yi with
  | [] => Ok []
  | _ => if Z.eqb skip 0 then Err ZeroDivisionError else Ok (denoise_loop pos stp st0 Ndiffuse (length Yi) skip 0 Yi)
  end.

(** ** Files. *)
(** f"{k:0wd}". *)
Definition digits (k : nat) : string := NilEmpty.string_of_uint (Nat.to_uint k).
Fixpoint zeros (n : nat) : string := match n with O => "" | S n' => String "0" (zeros n') end.
Definition pad (w k : nat) : string := String.append (zeros (w - String.length (digits k))) (digits k).
(** f"frame_{k:04d}.png". *)
Definition frame_name (k : nat) : string := String.append "frame_" (String.append (pad 4 k) ".png").

(** The name ffmpeg makes of the pattern frame_%04d.png (utils.py:111) for number k: at least four digits, zeros in front. *)
Definition percent_04d (s : string) : string :=
  match s with
  | EmptyString => "0000"
  | String _ EmptyString => String.append "000" s
  | String _ (String _ EmptyString) => String.append "00" s
  | String _ (String _ (String _ EmptyString)) => String.append "0" s
  | _ => s
  end.
Definition ffmpeg_name (k : nat) : string := String.append (String.append "frame_" (percent_04d (digits k))) ".png".

(** glob patterns without further wildcards: [prefix*suffix]. *)
Definition starts (pre s : string) : bool := String.prefix pre s.
Definition ends (suf s : string) : bool :=
  Nat.leb (String.length suf) (String.length s) &&
  String.eqb (String.substring (String.length s - String.length suf) (String.length suf) s) suf.
Definition glob (pre suf s : string) : bool :=
  Nat.leb (String.length pre + String.length suf) (String.length s) && starts pre s && ends suf s.
(** glob("*.png") does not match names that start with a dot. *)
Definition is_png (s : string) : bool := negb (starts "." s) && glob "" ".png" s.
Definition is_frame (s : string) : bool := glob "frame_" ".png" s.

Section Files.
Context {F : Type}.              (* frame contents *)
(** A picture, a video (the list of its pictures), a text file, or anything else. *)
Inductive file : Type := Image (f : F) | Video (fs : list F) | Text (lines : list string) | Other (n : nat).
Definition dir : Type := list (string * file).
Fixpoint look (d : dir) (n : string) : option file :=
  match d with [] => None | (m, c) :: rest => if String.eqb m n then Some c else look rest n end.
Definition remove (d : dir) (keep : string -> bool) : dir := filter (fun e => keep (fst e)) d.
Definition write (d : dir) (n : string) (c : file) : dir := (n, c) :: remove d (fun m => negb (String.eqb m n)).

(** setup_animation_saving (utils.py:66-82): all .png files of the directory are deleted. *)
Definition setup_saving (d : dir) : dir := remove d (fun m => negb (is_png m)).

(** plt.savefig for each frame, numbered from k; stops before frame number [crash] (an exception or
    the end of the process), if there is one. Result: directory, and whether all were saved. *)
Fixpoint save_frames (d : dir) (k : nat) (crash : option nat) (fs : list F) : dir * bool :=
  match fs with
  | [] => (d, true)
  | f :: rest =>
      match crash with
      | Some c => if Nat.eqb c k then (d, false) else save_frames (write d (frame_name k) (Image f)) (S k) crash rest
      | None => save_frames (write d (frame_name k) (Image f)) (S k) crash rest
      end
  end.

(** What ffmpeg reads for -i frame_%04d.png: the consecutive images from number 0 on (fuel: the
    number of files). Its default start-number search (0..4) is not modelled. *)
Fixpoint read_frames (d : dir) (k fuel : nat) : list F :=
  match fuel with
  | O => []
  | S fuel' => match look d (ffmpeg_name k) with Some (Image f) => f :: read_frames d (S k) fuel' | _ => [] end
  end.

(** The ffmpeg process: not installed (subprocess.call raises FileNotFoundError), or it ends with a
    return code; a failing ffmpeg may leave some output file behind. *)
Inductive ffmpeg : Type := NotInstalled | Exits (code : Z) (partial : option file).

(** export_video (utils.py:85-123) for a given video name. *)
Definition export_video (d : dir) (video : string) (ff : ffmpeg) : dir * Res unit :=
  if existsb (fun e => is_frame (fst e)) d then
    match ff with
    | NotInstalled => (d, Err FileNotFoundError)
    | Exits code partial =>
        if Z.eqb code 0 then
          (remove (write d video (Video (read_frames d 0 (length d)))) (fun m => negb (is_png m)), Ok tt)
        else (match partial with Some c => write d video c | None => d end, Ok tt)
    end
  else (d, Ok tt).

(** create_animation with save_animation (utils.py:183-184, 433-441, 470-472) and
    create_denoising_animation (480, 634-636, 644-645), as far as files are concerned; [crash] as in
    save_frames: then export_video is not reached. *)
Definition animate (d : dir) (fs : list F) (crash : option nat) (video : string) (ff : ffmpeg) : dir * Res unit :=
  let '(d1, finished) := save_frames (setup_saving d) 0 crash fs in
  if finished then export_video d1 video ff else (d1, Err RuntimeError).

(** A history of calls on one directory, whatever each of them raises. *)
Record acall : Type := mkCall { ac_frames : list F; ac_crash : option nat; ac_video : string; ac_ffmpeg : ffmpeg }.
Definition run_call (d : dir) (c : acall) : dir := fst (animate d (ac_frames c) (ac_crash c) (ac_video c) (ac_ffmpeg c)).
Definition run_calls (d : dir) (cs : list acall) : dir := fold_left run_call cs d.

(** sorted() of names: insertion sort by code points. *)
Fixpoint str_leb (a b : string) : bool :=
  match a, b with
  | EmptyString, _ => true
  | String _ _, EmptyString => false
  | String x a', String y b' =>
      if Nat.ltb (nat_of_ascii x) (nat_of_ascii y) then true
      else if Nat.ltb (nat_of_ascii y) (nat_of_ascii x) then false else str_leb a' b'
  end.
Fixpoint insert (n : string) (l : list string) : list string :=
  match l with [] => [n] | m :: rest => if str_leb n m then n :: l else m :: insert n rest end.
Definition sort_names (l : list string) : list string := fold_right insert [] l.

(** merge_progress_videos (utils.py:126-168) on an existing directory: the list file names the videos
    in sorted order; a successful ffmpeg concatenates them; the list file is then removed. [None] is
    returned when there is nothing to merge or ffmpeg fails. *)
Definition video_frames (d : dir) (n : string) : list F :=
  match look d n with Some (Video fs) => fs | _ => [] end.
Definition merge_videos (d : dir) (prefix output : string) (ff : ffmpeg) : dir * Res (option string) :=
  let names := sort_names (filter (glob prefix ".mp4") (map fst d)) in
  match names with
  | [] => (d, Ok None)
  | _ =>
      let d1 := write d "video_list.txt" (Text names) in
      match ff with
      | NotInstalled => (d1, Err FileNotFoundError)
      | Exits code partial =>
          if Z.eqb code 0 then
            (remove (write d1 output (Video (flat_map (video_frames d1) names))) (fun m => negb (String.eqb m "video_list.txt")),
             Ok (Some output))
          else (match partial with Some c => write d1 output c | None => d1 end, Ok None)
      end
  end.

(** The animations of run_statistical_evaluation with save_progress_animation (stat_mbd.py:424-449,
    498-499): trial i (from 1) is saved as progress_trial_{i:03d}.mp4; then the videos are merged. *)
Definition trial_video (i : nat) : string := String.append "progress_trial_" (String.append (pad 3 i) ".mp4").
Fixpoint animate_trials (d : dir) (i : nat) (ts : list (list F * ffmpeg)) : dir * Res unit :=
  match ts with
  | [] => (d, Ok tt)
  | (fs, ff) :: rest =>
      let '(d1, r) := animate d fs None (trial_video i) ff in
      match r with Err x => (d1, Err x) | Ok _ => animate_trials d1 (S i) rest end
  end.
Definition progress_videos (d : dir) (ts : list (list F * ffmpeg)) (ff : ffmpeg) : dir * Res (option string) :=
  let '(d1, r) := animate_trials d 1 ts in
  match r with
  | Err x => (d1, Err x)
  | Ok _ => merge_videos d1 "progress_trial_" "progress_merged.mp4" ff
  end.
End Files.
Arguments file : clear implicits. Arguments dir : clear implicits. Arguments ffmpeg : clear implicits. Arguments acall : clear implicits.

(** ** Wheels of an animated object across animations. setup_animation_patches of TractorTrailer2d
    appends two tractor wheels and one trailer wheel to lists made in __init__ (tt2d.py:159-160,
    1302-1319); the other classes start new lists. update_animation_patches indexes the two transforms by
    the position in the list (tt2d.py:1434-1437). *)
Inductive wheel_lists : Type := Appended | Fresh.
Definition setup_wheels (k : wheel_lists) (n : nat) : nat := match k with Appended => n + 2 | Fresh => 2 end.
(** The first update of an animation; an animation without frames never updates. *)
Definition update_wheels (n : nat) : Res unit := if Nat.leb n 2 then Ok tt else Err IndexError.
Fixpoint animations (k : wheel_lists) (n : nat) (frames : list nat) : Res unit :=
  match frames with
  | [] => Ok tt
  | m :: rest =>
      let n' := setup_wheels k n in
      match (match m with O => Ok tt | S _ => update_wheels n' end) with
      | Err x => Err x
      | Ok _ => animations k n' rest
      end
  end.
