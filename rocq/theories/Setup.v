(** * Setup: constructors, get_env and the start/goal/obstacle setters of the robot classes.

    Vectors x0, xg are lists; [None] means the attribute does not exist (hasattr is false).
    Not modelled: animation attributes, xref, rew_xref, logging, printing. The Env object is
    owned by the robot here; two robots sharing one Env object are not represented. *)
From Coq Require Import String.
From Verif Require Import Base Params EnvModel NTrailer.
Local Open Scope string_scope.
Local Open Scope list_scope.

(** The four classes. *)
Inductive kind : Type := KTT | KBK | KNT | KACC.

(** Keyword arguments of TractorTrailer2d.__init__ (tt2d.py:49-57), common to all classes. *)
Record ctor_args : Type := mkCtor {
  k_x0 : option (list R); k_xg : option (list R);
  k_env : option env_obj; k_case : string;
  k_dt : R; k_H : nat; k_motion : Z; k_coll_pen : R; k_sh_coll : bool; k_hitch_pen : R;
  k_sh_hitch : bool; k_proj : bool; k_guid : bool; k_rew_thr : R; k_ref_thr : R; k_max_w : R;
  k_hitch_w : R; k_l1 : R; k_l2 : R; k_lh : R; k_lf1 : R; k_lr : R; k_lf2 : R; k_lr2 : R;
  k_trac_w : R; k_trail_w : R; k_vmax : R; k_ddeg : R; k_d_fac : R; k_kswitch : R;
  k_steer_w : R; k_pref_w : R; k_head_w : R; k_term_thr : R; k_term_w : R;
  k_rpos_w : R; k_rth1_w : R; k_rth2_w : R }.

(** A robot object. [rb_amax], [rb_omax] exist for KACC only, the arrays for KNT only. *)
Record robot : Type := mkRobot {
  rb_kind : kind;
  rb_p : params;
  rb_env : env_obj;
  rb_x0 : option (list R);
  rb_xg : option (list R);
  rb_circ : list circle;
  rb_rect : list rectobs;
  rb_amax : R; rb_omax : R;
  rb_len : list R; rb_front : list R; rb_rear : list R }.

(** tt2d.py:58-115: the scalar attributes. *)
Definition params_of (k : ctor_args) (num_trailers : nat) : params := {|
  p_dt := k_dt k; p_H := k_H k; p_num_trailers := num_trailers; p_motion := k_motion k;
  p_coll_pen := k_coll_pen k; p_sh_coll := k_sh_coll k; p_hitch_pen := k_hitch_pen k;
  p_sh_hitch := k_sh_hitch k; p_proj := k_proj k; p_guid := k_guid k;
  p_rew_thr := k_rew_thr k; p_ref_thr := k_ref_thr k; p_max_w := k_max_w k; p_hitch_w := k_hitch_w k;
  p_ref_pos_w := k_rpos_w k; p_ref_th1_w := k_rth1_w k; p_ref_th2_w := k_rth2_w k;
  p_l1 := k_l1 k; p_l2 := k_l2 k; p_lh := k_lh k; p_lf1 := k_lf1 k; p_lr := k_lr k;
  p_lf2 := k_lf2 k; p_lr2 := k_lr2 k; p_trac_w := k_trac_w k; p_trail_w := k_trail_w k;
  p_vmax := k_vmax k; p_dmax := delta_max_of_deg (k_ddeg k);
  p_theta_max := theta_max_const; p_phi_max := phi_max_const;
  p_d_thr := d_thr_of (k_d_fac k) (k_l1 k) (k_lh k) (k_l2 k);
  p_k_switch := k_kswitch k; p_steer_w := k_steer_w k; p_pref_w := k_pref_w k;
  p_head_w := k_head_w k; p_term_thr := k_term_thr k; p_term_w := k_term_w k |}.

(** tt2d.py:129-137. *)
Definition initial_x0 (k : ctor_args) (e : env_obj) : Res (option (list R)) :=
  match k_x0 k with
  | Some v => Ok (Some v)
  | None =>
      if String.eqb (k_case k) "parking" then
        match default_init_pos e (k_case k) with Ok v => Ok (Some v) | Err x => Err x end
      else if String.eqb (k_case k) "navigation" then Ok (Some [0; 0; 0; 0])
      else Ok None
  end.

(** tt2d.py:139-147. *)
Definition initial_xg (k : ctor_args) (e : env_obj) : Res (option (list R)) :=
  match k_xg k with
  | Some v => Ok (Some v)
  | None =>
      if String.eqb (k_case k) "parking" then
        match default_goal_pos e (k_case k) with Ok v => Ok (Some v) | Err x => Err x end
      else if String.eqb (k_case k) "navigation" then Ok (Some [0; 0; PI; PI])
      else Ok None
  end.

(** TractorTrailer2d.__init__ (tt2d.py:49-165); Env(case=case) uses width = height = 32. *)
Definition tt_init (kd : kind) (k : ctor_args) (num_trailers : nat) : Res robot :=
  let env := match k_env k with
             | None => env_init 32 32 (k_case k) None
             | Some e => Ok e
             end in
  match env with
  | Err x => Err x
  | Ok e =>
      match initial_x0 k e with
      | Err x => Err x
      | Ok x0 =>
          match initial_xg k e with
          | Err x => Err x
          | Ok xg => Ok (mkRobot kd (params_of k num_trailers) e x0 xg (e_circles e) (e_rects e) 0 0 [] [] [])
          end
      end
  end.

Definition set_x0 (r : robot) (v : option (list R)) : robot :=
  mkRobot (rb_kind r) (rb_p r) (rb_env r) v (rb_xg r) (rb_circ r) (rb_rect r)
    (rb_amax r) (rb_omax r) (rb_len r) (rb_front r) (rb_rear r).
Definition set_xg (r : robot) (v : option (list R)) : robot :=
  mkRobot (rb_kind r) (rb_p r) (rb_env r) (rb_x0 r) v (rb_circ r) (rb_rect r)
    (rb_amax r) (rb_omax r) (rb_len r) (rb_front r) (rb_rear r).

(** KinematicBicycle2d.__init__ (kinematic_bicycle2d.py:30-38): [x0[:3]] when longer than 3. *)
Definition bk_init (k : ctor_args) : Res robot :=
  match tt_init KBK k 1 with
  | Err x => Err x
  | Ok r => Ok (set_xg (set_x0 r (option_map (firstn 3) (rb_x0 r))) (option_map (firstn 3) (rb_xg r)))
  end.

(** AccTractorTrailer2d.__init__ (acc_tt2d.py:26-52); line 39 divides by a_max. *)
Definition acc_init (k : ctor_args) (a_max omega_max : R) : Res robot :=
  match tt_init KACC k 1 with
  | Err x => Err x
  | Ok r =>
      if Reqb a_max 0 then Err ZeroDivisionError
      else
        let x0 := match rb_x0 r with Some v => v ++ [0; 0] | None => [0; 0; 0; 0; 0; 0] end in
        let xg := match rb_xg r with Some v => v ++ [0; 0] | None => [3; 0; PI; PI; 0; 0] end in
        Ok (mkRobot KACC (rb_p r) (rb_env r) (Some x0) (Some xg) (rb_circ r) (rb_rect r)
              a_max omega_max [] [] [])
  end.

(** _augment_state (n_trailer2d.py:43-48). *)
Definition augment (N : nat) (x4 : list R) : list R :=
  firstn 3 x4 ++ jget x4 3 :: repeat (jget x4 3) (N - 1).

(** NTrailer2d.__init__ (n_trailer2d.py:18-55) with the default trailer arrays (no caller in
    the repository passes them); a missing x0/xg raises AttributeError at line 49/50. *)
Definition nt_init (k : ctor_args) (num_trailers : Z) : Res robot :=
  if Z.leb 2 num_trailers then
    let N := Z.to_nat num_trailers in
    match tt_init KNT k N with
    | Err x => Err x
    | Ok r =>
        match rb_x0 r, rb_xg r with
        | Some x0, Some xg =>
            Ok (mkRobot KNT (rb_p r) (rb_env r) (Some (augment N x0)) (Some (augment N xg))
                  (rb_circ r) (rb_rect r) 0 0
                  (nt_default_lengths (rb_p r)) (nt_default_front (rb_p r)) (nt_default_rear (rb_p r)))
        | _, _ => Err AttributeError
        end
    end
  else Err AssertionError.

(** Arguments of get_env (mbd/envs/__init__.py:6-47). *)
Record env_args : Type := mkEnvArgs {
  g_name : string; g_case : string; g_env : option env_obj;
  g_dt : R; g_H : nat; g_motion : Z; g_coll_pen : R; g_hitch_pen : R; g_sh_coll : bool;
  g_sh_hitch : bool; g_proj : bool; g_guid : bool; g_rew_thr : R; g_ref_thr : R; g_max_w : R;
  g_hitch_w : R; g_l1 : R; g_l2 : R; g_lh : R; g_lf1 : R; g_lr : R; g_lf2 : R; g_lr2 : R;
  g_trac_w : R; g_trail_w : R; g_vmax : R; g_ddeg : R; g_d_fac : R; g_kswitch : R;
  g_steer_w : R; g_pref_w : R; g_head_w : R; g_term_thr : R; g_term_w : R;
  g_rpos_w : R; g_rth1_w : R; g_rth2_w : R; g_amax : R; g_omax : R; g_trailers : Z }.

(** The keyword list of each constructor call (__init__.py:50-87, 89-127, 129-166, 168-206,
    208-247, 249-286): the six calls pass the same 36 keywords; x0 and xg are never passed. *)
Definition kwargs (g : env_args) : ctor_args := {|
  k_x0 := None; k_xg := None; k_env := g_env g; k_case := g_case g;
  k_dt := g_dt g; k_H := g_H g; k_motion := g_motion g; k_coll_pen := g_coll_pen g;
  k_sh_coll := g_sh_coll g; k_hitch_pen := g_hitch_pen g; k_sh_hitch := g_sh_hitch g;
  k_proj := g_proj g; k_guid := g_guid g; k_rew_thr := g_rew_thr g; k_ref_thr := g_ref_thr g;
  k_max_w := g_max_w g; k_hitch_w := g_hitch_w g; k_l1 := g_l1 g; k_l2 := g_l2 g; k_lh := g_lh g;
  k_lf1 := g_lf1 g; k_lr := g_lr g; k_lf2 := g_lf2 g; k_lr2 := g_lr2 g; k_trac_w := g_trac_w g;
  k_trail_w := g_trail_w g; k_vmax := g_vmax g; k_ddeg := g_ddeg g; k_d_fac := g_d_fac g;
  k_kswitch := g_kswitch g; k_steer_w := g_steer_w g; k_pref_w := g_pref_w g; k_head_w := g_head_w g;
  k_term_thr := g_term_thr g; k_term_w := g_term_w g; k_rpos_w := g_rpos_w g;
  k_rth1_w := g_rth1_w g; k_rth2_w := g_rth2_w g |}.

(** get_env (__init__.py:48-288). *)
Definition get_env (g : env_args) : Res robot :=
  if String.eqb (g_name g) "tt2d" then
    if Z.eqb (g_trailers g) 0 then bk_init (kwargs g)
    else if Z.leb 2 (g_trailers g) then nt_init (kwargs g) (g_trailers g)
    else tt_init KTT (kwargs g) 1
  else if String.eqb (g_name g) "n_trailer2d" then nt_init (kwargs g) (g_trailers g)
  else if String.eqb (g_name g) "acc_tt2d" then acc_init (kwargs g) (g_amax g) (g_omax g)
  else if String.eqb (g_name g) "kinematic_bicycle2d" then bk_init (kwargs g)
  else Err ValueError.

(** Python's [sorted(l, key=lambda p: p[1])]: a stable insertion sort. *)
Fixpoint insert_y (p : pt) (l : list pt) : list pt :=
  match l with
  | [] => [p]
  | q :: qs => if Rleb (snd q) (snd p) then q :: insert_y p qs else p :: q :: qs
  end.
Definition sort_y (l : list pt) : list pt := fold_left (fun acc p => insert_y p acc) l [].

(** Optional arguments. *)
Definition default {A : Type} (o : option A) (d : A) : A := match o with Some v => v | None => d end.

(** Keyword arguments of set_init_pos; [v], [delta] exist for the acceleration class only. *)
Record init_args : Type := mkInit {
  i_x : option R; i_y : option R; i_dx : option R; i_dy : option R; i_th1 : R; i_th2 : R;
  i_v : R; i_delta : R }.

(** TractorTrailer2d.set_init_pos (tt2d.py:170-222): the new x0, or an exception. *)
Definition base_init_pos (p : params) (e : env_obj) (a : init_args) : Res (list R) :=
  let direct :=
    match i_x a, i_y a with
    | Some x, Some y => [x; y; i_th1 a; i_th2 a]
    | _, _ => [default (i_x a) (-3); default (i_y a) 0; i_th1 a; i_th2 a]
    end in
  match String.eqb (e_case e) "parking", i_dx a, i_dy a with
  | true, Some dx, Some dy =>
      match e_parking e with
      | None => Err AttributeError
      | Some c =>
          match convert_all (get_parking_space_center e) (pk_tgt c) with
          | Err x => Err x
          | Ok centers =>
              let target_centers := sort_y centers in
              match target_centers with
              | [] => Err IndexError
              | lowest :: _ =>
                  let higher_target_y := snd (last target_centers lowest) in
                  let entrance_y := higher_target_y + pk_len c / 2 in
                  let target_x := fst lowest in
                  let px := target_x + dx - p_l1 p * cos (i_th1 a) in
                  let py := entrance_y + dy in
                  Ok [px; py; i_th1 a; i_th2 a]
              end
          end
      end
  | _, _, _ => Ok direct
  end.

(** set_init_pos of each class (tt2d.py:170-222, kinematic_bicycle2d.py:40-56,
    n_trailer2d.py:105-111, acc_tt2d.py:55-64): object after the call and exception, if any. *)
Definition set_init_pos (r : robot) (a : init_args) : robot * Res unit :=
  match base_init_pos (rb_p r) (rb_env r) a with
  | Err x => (r, Err x)
  | Ok v =>
      let w := match rb_kind r with
               | KTT => v
               | KBK => firstn 3 v
               | KNT => augment (p_num_trailers (rb_p r)) v
               | KACC => v ++ [i_v a; i_delta a]
               end in
      (set_x0 r (Some w), Ok tt)
  end.

(** Keyword arguments of set_goal_pos. *)
Record goal_args : Type := mkGoal {
  o_x : option R; o_y : option R; o_th1 : option R; o_th2 : option R; o_v : R; o_delta : R }.

(** set_goal_pos of each class (tt2d.py:227-250, kinematic_bicycle2d.py:58-75,
    n_trailer2d.py:113-118, acc_tt2d.py:66-75). *)
Definition set_goal_pos (r : robot) (a : goal_args) : robot * Res unit :=
  let v := match rb_xg r with
           | Some xg => [default (o_x a) (jget xg 0); default (o_y a) (jget xg 1);
                         default (o_th1 a) (jget xg 2); default (o_th2 a) (jget xg 3)]
           | None => [default (o_x a) 3; default (o_y a) 0; default (o_th1 a) PI; default (o_th2 a) PI]
           end in
  let w := match rb_kind r with
           | KTT => v
           | KBK => firstn 3 v
           | KNT => augment (p_num_trailers (rb_p r)) v
           | KACC => v ++ [o_v a; o_delta a]
           end in
  (set_xg r (Some w), Ok tt).

(** set_rectangle_obs, set_circle_obs (tt2d.py:255-261): the robot keeps the returned array. *)
Definition set_rectangle_obs (r : robot) (rectangles : list (list R)) (mode : string) (padding : R)
  : robot * Res unit :=
  let '(e', res) := env_set_rects (rb_env r) rectangles mode padding in
  match res with
  | Err x => (mkRobot (rb_kind r) (rb_p r) e' (rb_x0 r) (rb_xg r) (rb_circ r) (rb_rect r)
                (rb_amax r) (rb_omax r) (rb_len r) (rb_front r) (rb_rear r), Err x)
  | Ok l => (mkRobot (rb_kind r) (rb_p r) e' (rb_x0 r) (rb_xg r) (rb_circ r) l
               (rb_amax r) (rb_omax r) (rb_len r) (rb_front r) (rb_rear r), Ok tt)
  end.
Definition set_circle_obs (r : robot) (circles : list (list R)) (padding : R) : robot * Res unit :=
  let '(e', res) := env_set_circles (rb_env r) circles padding in
  match res with
  | Err x => (mkRobot (rb_kind r) (rb_p r) e' (rb_x0 r) (rb_xg r) (rb_circ r) (rb_rect r)
                (rb_amax r) (rb_omax r) (rb_len r) (rb_front r) (rb_rear r), Err x)
  | Ok l => (mkRobot (rb_kind r) (rb_p r) e' (rb_x0 r) (rb_xg r) l (rb_rect r)
               (rb_amax r) (rb_omax r) (rb_len r) (rb_front r) (rb_rear r), Ok tt)
  end.

(** env.set_plot_limits called on the robot's env (tests and scripts do this through robot.env). *)
Definition robot_set_plot_limits (r : robot) (xr yr : R * R) : robot :=
  mkRobot (rb_kind r) (rb_p r) (env_set_plot_limits (rb_env r) xr yr) (rb_x0 r) (rb_xg r) (rb_circ r)
    (rb_rect r) (rb_amax r) (rb_omax r) (rb_len r) (rb_front r) (rb_rear r).

(** observation_size (tt2d.py:1172-1174, kinematic_bicycle2d.py:331-333, n_trailer2d.py:379-381,
    acc_tt2d.py:399-401). *)
Definition observation_size (r : robot) : nat :=
  match rb_kind r with KTT => 4 | KBK => 3 | KNT => 3 + p_num_trailers (rb_p r) | KACC => 6 end.

(** Default arguments of get_env (__init__.py:6-47). *)
Definition default_env_args (name case : string) (trailers : Z) : env_args := {|
  g_name := name; g_case := case; g_env := None; g_dt := 2/10; g_H := 50; g_motion := 0;
  g_coll_pen := 15/100; g_hitch_pen := 10/100; g_sh_coll := true; g_sh_hitch := true;
  g_proj := false; g_guid := false; g_rew_thr := 25; g_ref_thr := 5; g_max_w := 75/100;
  g_hitch_w := 2/10; g_l1 := 323/100; g_l2 := 29/10; g_lh := 115/100; g_lf1 := 9/10;
  g_lr := 1848/1000; g_lf2 := 142/100; g_lr2 := 3225/1000; g_trac_w := 2; g_trail_w := 25/10;
  g_vmax := 3; g_ddeg := 55; g_d_fac := 1; g_kswitch := 25/10; g_steer_w := 5/100; g_pref_w := 5/100;
  g_head_w := 5/10; g_term_thr := 10; g_term_w := 1; g_rpos_w := 3/10; g_rth1_w := 5/10;
  g_rth2_w := 2/10; g_amax := 2; g_omax := 1; g_trailers := trailers |}.
