(** * EnvModel: the Env class (mbd/envs/env.py).

    Not modelled: [resolution], [obs_boundary] (always the empty list, env.py:59-64),
    logging; [get_plot_limits] and [print_parking_layout] are in Picture. A parking configuration is a record
    instead of a dictionary, so a missing key (KeyError) is not represented. *)
From Coq Require Import String.
From Verif Require Import Base Params.
Local Open Scope string_scope.
Local Open Scope list_scope.

(** Keys of a parking configuration (env.py:44-57). *)
Record parking : Type := mkParking {
  pk_rows : Z; pk_cols : Z; pk_w : R; pk_len : R; pk_yoff : R;
  pk_occ : list Z; pk_tgt : list Z; pk_rad : R }.

(** get_default_parking_config (env.py:44-57). *)
Definition default_parking : parking := {|
  pk_rows := 2; pk_cols := 8; pk_w := 35/10; pk_len := 7; pk_yoff := 4;
  pk_occ := [1; 2; 4; 5; 6; 7; 9; 10; 12; 13; 14; 15]%Z; pk_tgt := [3; 11]%Z; pk_rad := 1 |}.

(** Attributes of an Env object (env.py:15-42). [e_parking = None] means that the attribute
    parking_config does not exist. *)
Record env_obj : Type := mkEnv {
  e_case : string;
  e_xr : R * R;
  e_yr : R * R;
  e_parking : option parking;
  e_circles : list circle;
  e_rects : list rectobs }.

(** env.py:98-110 and 133-146: centre of space [n]; [//] and [%] are Python's floor division
    and modulo, which raise on 0; Coq's [Z.div], [Z.modulo] agree with them for other divisors. *)
Definition space_center (ylo : R) (c : parking) (n : Z) : Res (R * R) :=
  let lot_w := IZR (pk_cols c) * pk_w c in
  let start_x := - lot_w / 2 in
  let start_y := ylo + pk_yoff c in
  let idx := (n - 1)%Z in
  if Z.eqb (pk_cols c) 0 then Err ZeroDivisionError
  else
    let row := Z.div idx (pk_cols c) in
    let col := Z.modulo idx (pk_cols c) in
    Ok (start_x + (IZR col + 1/2) * pk_w c, start_y + (IZR row + 1/2) * pk_len c).

(** set_obs_circle_parking (env.py:81-119): the loop over occupied_spaces. *)
Fixpoint parking_circles (ylo : R) (c : parking) (occ : list Z) : Res (list circle) :=
  match occ with
  | [] => Ok []
  | n :: rest =>
      match space_center ylo c n with
      | Err e => Err e
      | Ok (cx, cy) =>
          match parking_circles ylo c rest with
          | Err e => Err e
          | Ok more =>
              let delta_y := 2 in
              Ok (mkCircle cx cy (pk_rad c) :: mkCircle cx (cy + delta_y) (pk_rad c)
                  :: mkCircle cx (cy - delta_y) (pk_rad c) :: more)
          end
      end
  end.

(** set_obs_rectangle_parking (env.py:71-79). *)
Definition parking_rects : list rectobs := [ mkRect 0 15 30 1 0; mkRect 0 (-14) 30 1 0 ].

(** env.py:41-42: the placeholder circle. *)
Definition or_dummy (l : list circle) : list circle :=
  match l with [] => [mkCircle 0 0 0] | _ => l end.

(** Env.__init__ (env.py:15-42). *)
Definition env_init (width height : R) (case : string) (cfg : option parking) : Res env_obj :=
  let xr := (- width / 2, width / 2) in
  let yr := (- height / 2, height / 2) in
  if String.eqb case "parking" then
    let c := match cfg with None => default_parking | Some c => c end in
    match parking_circles (fst yr) c (pk_occ c) with
    | Err e => Err e
    | Ok circles => Ok (mkEnv case xr yr (Some c) (or_dummy circles) parking_rects)
    end
  else if String.eqb case "navigation" then
    Ok (mkEnv case xr yr None (or_dummy []) [])
  else Err ValueError.

(** get_parking_space_center (env.py:121-148). *)
Definition get_parking_space_center (e : env_obj) (n : Z) : Res (R * R) :=
  if negb (String.eqb (e_case e) "parking") then Err ValueError
  else match e_parking e with
       | None => Err AttributeError
       | Some c => space_center (fst (e_yr e)) c n
       end.

(** get_default_init_pos (env.py:150-161). *)
Definition default_init_pos (e : env_obj) (case : string) : Res (list R) :=
  if String.eqb case "parking" then Ok [fst (e_xr e) + 2; snd (e_yr e) - 2; 1/10; 1/10]
  else Err ValueError.

(** get_default_goal_pos (env.py:163-172). *)
Definition default_goal_pos (e : env_obj) (case : string) : Res (list R) :=
  if String.eqb case "parking" then
    match e_parking e with
    | None => Err AttributeError
    | Some c =>
        match pk_tgt c with
        | [] => Err IndexError
        | t :: _ =>
            match get_parking_space_center e t with
            | Err x => Err x
            | Ok (gx, gy) => Ok [gx; gy; - PI / 2; - PI / 2]
            end
        end
    end
  else Err ValueError.

(** is_in_bounds (env.py:190-193). *)
Definition is_in_bounds (e : env_obj) (x y : R) : bool :=
  (Rleb (fst (e_xr e)) x && Rleb x (snd (e_xr e))) && (Rleb (fst (e_yr e)) y && Rleb y (snd (e_yr e))).

(** One iteration of the loop of set_rectangle_obs (env.py:244-262). *)
Definition convert_rect (mode : string) (padding : R) (obs : list R) : Res rectobs :=
  let conv x y width height rotation :=
    if String.eqb mode "left-top" then
      let center_x := x + width / 2 in
      let center_y := y - height / 2 in
      Ok (mkRect center_x center_y (width + padding * 2) (height + padding * 2) rotation)
    else if String.eqb mode "center" then
      Ok (mkRect x y (width + padding * 2) (height + padding * 2) rotation)
    else Err ValueError in
  match obs with
  | [x; y; width; height] => conv x y width height 0
  | [x; y; width; height; rotation] => conv x y width height rotation
  | _ => Err ValueError
  end.

(** One iteration of the loop of set_circle_obs (env.py:284-289). *)
Definition convert_circle (padding : R) (obs : list R) : Res circle :=
  match obs with
  | [x; y; radius] => Ok (mkCircle x y (radius + padding))
  | _ => Err ValueError
  end.

(** The conversion loops: the first failing element raises. *)
Fixpoint convert_all {A B : Type} (f : A -> Res B) (l : list A) : Res (list B) :=
  match l with
  | [] => Ok []
  | x :: xs =>
      match f x with
      | Err e => Err e
      | Ok y => match convert_all f xs with Err e => Err e | Ok ys => Ok (y :: ys) end
      end
  end.

(** set_rectangle_obs (env.py:229-266): object after the call, and returned array or exception.
    Simplification: [np.array([])] of an empty list has shape (0,) in the code; here it is the
    empty list, as every consumer tests [shape[0] > 0] or [len] first. *)
Definition env_set_rects (e : env_obj) (obstacles : list (list R)) (mode : string) (padding : R)
  : env_obj * Res (list rectobs) :=
  match convert_all (convert_rect mode padding) obstacles with
  | Err x => (e, Err x)
  | Ok l => (mkEnv (e_case e) (e_xr e) (e_yr e) (e_parking e) (e_circles e) l, Ok l)
  end.

(** set_circle_obs (env.py:268-292); no placeholder is added here when the list is empty. *)
Definition env_set_circles (e : env_obj) (obstacles : list (list R)) (padding : R)
  : env_obj * Res (list circle) :=
  match convert_all (convert_circle padding) obstacles with
  | Err x => (e, Err x)
  | Ok l => (mkEnv (e_case e) (e_xr e) (e_yr e) (e_parking e) l (e_rects e), Ok l)
  end.

(** set_plot_limits (env.py:294-298). *)
Definition env_set_plot_limits (e : env_obj) (xr yr : R * R) : env_obj :=
  mkEnv (e_case e) xr yr (e_parking e) (e_circles e) (e_rects e).
