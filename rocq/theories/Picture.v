(** * Picture: the static picture of a plan, the printed parking layout, the heat map and the progress
    markers (tt2d.py:1176-1275, kinematic_bicycle2d.py:418-501, env.py:195-228, mbd_planner.py:637-684,
    tests/stat_mbd.py:384-455, 501-502, 510-600, utils.py:296-303).

    A picture is described by what is drawn in it, in data coordinates. Not modelled: line styles, legends, axis
    titles, image files, interactive display. *)
From Coq Require Import String Reals List ZArith Ascii.
From Verif Require Import Base Params EnvModel Setup TT2d Rollout Planner Stats Anim Cache.
Import ListNotations.
Local Open Scope string_scope.
Local Open Scope list_scope.
Open Scope R_scope.

(** range(n) for an integer n. *)
Definition zrange (n : Z) : list Z := map Z.of_nat (seq 0 (Z.to_nat n)).
(** [n in l] on lists of integers. *)
Definition zmem (n : Z) (l : list Z) : bool := existsb (Z.eqb n) l.

(** The number written on a parking space: position of the text, the number, the colour behind it. *)
Record label : Type := mkLabel { lb_at : pt; lb_num : Z; lb_color : string }.

(** Boundaries of the parking spaces (tt2d.py:1188-1202, kinematic_bicycle2d.py:430-444); [ylo] is
    env.y_range[0]. *)
Definition lot_lines (ylo : R) (c : parking) : list (pt * pt) :=
  let lot_w := IZR (pk_cols c) * pk_w c in
  let lot_h := IZR (pk_rows c) * pk_len c in
  let x0 := - lot_w / 2 in
  let y0 := ylo + pk_yoff c in
  map (fun row => let y := y0 + IZR row * pk_len c in ((x0, y), (x0 + lot_w, y))) (zrange (pk_rows c + 1)) ++
  map (fun col => let x := x0 + IZR col * pk_w c in ((x, y0), (x, y0 + lot_h))) (zrange (pk_cols c + 1)).

(** Numbers of the spaces (tt2d.py:1204-1227, kinematic_bicycle2d.py:446-466). *)
Definition space_label (ylo : R) (c : parking) (row col : Z) : list label :=
  let num := (row * pk_cols c + col + 1)%Z in
  let cx := - (IZR (pk_cols c) * pk_w c) / 2 + (IZR col + 1/2) * pk_w c in
  let cy := ylo + pk_yoff c + (IZR row + 1/2) * pk_len c in
  let color := if zmem num (pk_tgt c) then "lightgreen" else if zmem num (pk_occ c) then "lightcoral" else "lightblue" in
  if zmem num (pk_occ c) then [] else [mkLabel (cx, cy) num color].
Definition lot_labels (ylo : R) (c : parking) : list label :=
  flat_map (fun row => flat_map (space_label ylo c row) (zrange (pk_cols c))) (zrange (pk_rows c)).

Record picture : Type := mkPicture {
  pc_lines : list (pt * pt); pc_labels : list label; pc_scene : scene; pc_path : list pt; pc_xlim : R * R; pc_ylim : R * R }.

(** render (tt2d.py:1176-1275; kinematic_bicycle2d.py:418-501; NTrailer2d and AccTractorTrailer2d inherit
    tt2d's). [path] are the columns 0 and 1 of xs. ax.scatter(..., c=range(self.H + 1)) raises ValueError if
    the number of colours is not the number of points; the bicycle passes range(len(xs)). The obstacles are
    those of the robot object. *)
Definition render (k : kind) (H : nat) (e : env_obj) (circ : list circle) (rect : list rectobs) (path : list pt) : Res picture :=
  let '(lines, labels) :=
    match String.eqb (e_case e) "parking", e_parking e with
    | true, Some c => (lot_lines (fst (e_yr e)) c, lot_labels (fst (e_yr e)) c)
    | _, _ => ([], [])
    end in
  let colours := match k with KBK => length path | _ => (H + 1)%nat end in
  if negb (Nat.eqb (length path) 0) && negb (Nat.eqb colours (length path)) then Err ValueError
  else Ok (mkPicture lines labels (draw_scene circ rect) path (e_xr e) (e_yr e)).
Definition render_robot (r : robot) (path : list pt) : Res picture :=
  render (rb_kind r) (p_H (rb_p r)) (rb_env r) (rb_circ r) (rb_rect r) path.

(** The picture made by run_diffusion with render=True (mbd_planner.py:651-677): with guidance and a recomputed
    unguided trajectory, the latter is drawn as the path and the returned trajectory as a dashed line; [ref]
    is env.xref, if the attribute exists. *)
Record plan_picture : Type := mkPlanPicture { pp_pic : picture; pp_guided : list pt; pp_demo : list pt }.
Definition plan_figure {Q : Type} (rend : list pt -> Res picture) (pos : Q -> pt) (guidance demo : bool) (out : output (Q := Q))
  (ref : option (list pt)) : Res plan_picture :=
  let traj := map pos (o_traj (out_res out)) in
  let '(main, over) :=
    match guidance, out_unguided out with
    | true, Some us => (map pos us, traj)
    | _, _ => (traj, [])
    end in
  match rend main with
  | Err x => Err x
  | Ok pic => Ok (mkPlanPicture pic over (match demo, ref with true, Some l => l | _, _ => [] end))
  end.

(** print_parking_layout (env.py:199-228): the logged lines. *)
Fixpoint repeat_string (s : string) (n : nat) : string := match n with O => "" | S n' => (s ++ repeat_string s n')%string end.
Definition space_symbol (c : parking) (n : Z) : string :=
  if zmem n (pk_tgt c) then "T" else if zmem n (pk_occ c) then "O" else "E".
Fixpoint concat_all (l : list string) : string := match l with [] => "" | s :: r => (s ++ concat_all r)%string end.
Definition layout_row (c : parking) (row : Z) : string :=
  ("|" ++ concat_all (map (fun col => " " ++ space_symbol c (row * pk_cols c + col + 1)%Z ++ " |") (zrange (pk_cols c))))%string.
Definition print_parking_layout (e : env_obj) : Res (list string) :=
  if negb (String.eqb (e_case e) "parking") then Ok ["Parking layout only available for parking scenario"]
  else match e_parking e with
       | None => Err AttributeError
       | Some c =>
           let dashes := repeat_string "-" (Z.to_nat (pk_cols c * 4 + 1)) in
           Ok (["Parking Layout:"; "O = Occupied, E = Empty, T = Target"; dashes] ++
               flat_map (fun row => [layout_row c row; dashes]) (rev (zrange (pk_rows c))))
       end.

(** ** The heat map (stat_mbd.py:510-600) *)

(** (env.x0[0], env.x0[1]). *)
Definition start_point (r : robot) : Res pt :=
  match rb_x0 r with
  | Some (x :: y :: _) => Ok (x, y)
  | Some _ => Err IndexError
  | None => Err TypeError
  end.
(** The loop over the results (stat_mbd.py:536-557); set_init_pos changes the robot that was passed. *)
Fixpoint heat_loop (r : robot) (results : list (trial * bool)) : Res (robot * list pt * list pt) :=
  match results with
  | [] => Ok (r, [], [])
  | (t, ok) :: rest =>
      let '(r1, res) := set_init_pos r (trial_init t) in
      match res with
      | Err x => Err x
      | Ok _ =>
          match start_point r1 with
          | Err x => Err x
          | Ok P =>
              match heat_loop r1 rest with
              | Err x => Err x
              | Ok (r2, green, red) => Ok (if ok then (r2, P :: green, red) else (r2, green, P :: red))
              end
          end
      end
  end.
(** hm_green: green circles, hm_red: red crosses, hm_rate and hm_total: the text in the corner. *)
Record heat : Type := mkHeat { hm_pic : picture; hm_green : list pt; hm_red : list pt; hm_rate : R; hm_total : nat }.
Definition heat_map (r : robot) (results : list (trial * bool)) : Res (robot * heat) :=
  match render_robot r [] with
  | Err x => Err x
  | Ok pic =>
      match heat_loop r results with
      | Err x => Err x
      | Ok (r', green, red) =>
          let total := length results in
          let rate := if Nat.ltb 0 total then INR (length green) / INR total else 0 in
          Ok (r', mkHeat pic green red rate total)
      end
  end.

(** run_statistical_evaluation(..., show_heat_map=True) for a TractorTrailer2d (stat_mbd.py:351-507): the heat map
    is drawn with the variable [env] of the loop, which is not bound if no start was found. *)
Definition tt_evaluation_with_heat_map (g : env_args) proj guide logpd rx (c : cfg) (rg : prng) (ng : np_rng) (num : nat) (seed : Z)
  : Res (statistics * robot * heat) :=
  match tt_statistics g proj guide logpd rx c rg ng num seed with
  | Err x => Err x
  | Ok (results, st) =>
      let ts := fst (sample_initial_conditions ng num seed) in
      match rev ts with
      | [] => Err UnboundLocalError
      | t :: _ =>
          match create_trial_environment g t with
          | Err x => Err x
          | Ok r => match heat_map r (zip ts (map v_success results)) with
                    | Err x => Err x
                    | Ok (r', hm) => Ok (st, r', hm)
                    end
          end
      end
  end.

(** ** Progress markers (stat_mbd.py:385-387, 399-400, 436-455; drawn by utils.py:296-303): green and red
    markers in the video of each trial; a trial's own marker is added after its video. *)
Fixpoint progress_loop (green red : list pt) (trials : list (pt * bool)) : list (list pt * list pt) :=
  match trials with
  | [] => []
  | (P, ok) :: rest =>
      (green, red) :: (if ok then progress_loop (green ++ [P]) red rest else progress_loop green (red ++ [P]) rest)
  end.
Definition progress_markers (trials : list (pt * bool)) : list (list pt * list pt) := progress_loop [] [] trials.
