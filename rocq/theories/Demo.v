(** * Demo: the demonstration trajectory and its score (mbd/robots/tt2d.py:466-703, 1089-1166;
    kinematic_bicycle2d.py:335-416; acc_tt2d.py:403-440; n_trailer2d.py:387-389). *)
From Coq Require Import String.
From Verif Require Import Base Params Geom TT2d Bicycle NTrailer Acc.
Local Open Scope list_scope.
Open Scope R_scope.

(** np.arctan2(y, x) (signed zeros are not represented: arctan2(0, x<0) = +pi). *)
Definition atan2 (y x : R) : R :=
  if Rlt_dec 0 x then atan (y / x)
  else if Rlt_dec x 0 then (if Rle_dec 0 y then atan (y / x) + PI else atan (y / x) - PI)
  else if Rlt_dec 0 y then PI / 2
  else if Rlt_dec y 0 then - (PI / 2)
  else 0.

(** np.round: nearest integer, halves to the even one (tt2d.py:589). *)
Definition round_even (x : R) : Z :=
  let f := Int_part x in
  let d := x - IZR f in
  if Rlt_dec d (1 / 2) then f
  else if Rlt_dec (1 / 2) d then (f + 1)%Z
  else if Z.even f then f else (f + 1)%Z.

(** p1 + t * (p2 - p1) (tt2d.py:497, 606). *)
Definition lerp (a b : pt) (t : R) : pt :=
  (fst a + t * (fst b - fst a), snd a + t * (snd b - snd a)).

(** Point tests inside check_line_collision (tt2d.py:500-525). *)
Definition point_in_circle (P : pt) (c : circle) : bool :=
  Rleb (pnorm (psub P (c_x c, c_y c))) (c_r c).
Definition point_in_rect (P : pt) (o : rectobs) : bool :=
  let dx := fst P - r_x o in
  let dy := snd P - r_y o in
  let ca := cos (- r_ang o) in
  let sa := sin (- r_ang o) in
  let local_x := dx * ca - dy * sa in
  let local_y := dx * sa + dy * ca in
  Rleb (Rabs local_x) (r_w o / 2) && Rleb (Rabs local_y) (r_h o / 2).

(** np.linspace(0, 1, n) and np.linspace(0, 1, n, endpoint=False) (tt2d.py:494, 602-604);
    for n = 1 numpy returns [0]. *)
Definition lin_closed (n : nat) : list R := map (fun k => INR k / INR (n - 1)) (seq 0 n).
Definition lin_open (n : nat) : list R := map (fun k => INR k / INR n) (seq 0 n).

(** check_line_collision with num_samples = 50 (tt2d.py:490-527). *)
Definition check_line (circ : list circle) (rect : list rectobs) (p1 p2 : pt) : bool :=
  existsb (fun t => existsb (point_in_circle (lerp p1 p2 t)) circ
                    || existsb (point_in_rect (lerp p1 p2 t)) rect) (lin_closed 50).

(** Way-point choice (tt2d.py:530-562). *)
Definition horizontal (dir : string) : bool := String.eqb dir "horizontal".
Definition waypoints (circ : list circle) (rect : list rectobs) (dir : string) (x0 xg : pt) : list pt :=
  if negb (check_line circ rect x0 xg) then [x0; xg]
  else
    let m1 := if horizontal dir then (fst xg, snd x0) else (fst x0, snd xg) in
    if negb (check_line circ rect x0 m1) && negb (check_line circ rect m1 xg) then [x0; m1; xg]
    else
      let m2 := if horizontal dir then (fst x0, snd xg) else (fst xg, snd x0) in
      if negb (check_line circ rect x0 m2) && negb (check_line circ rect m2 xg) then [x0; m2; xg]
      else [x0; xg].

(** Truncation to num_waypoints_max (tt2d.py:564-568): np.linspace(0, len-1, m, dtype=int). *)
Definition limit_waypoints (W : list pt) (m : nat) : list pt :=
  if Nat.ltb m (length W)
  then map (fun i => nth (i * (length W - 1) / (m - 1)) W (0, 0)) (seq 0 m)
  else W.

(** Segment lengths (tt2d.py:574-580). *)
Fixpoint seg_lengths (W : list pt) : list R :=
  match W with
  | a :: ((b :: _) as rest) => pnorm (psub b a) :: seg_lengths rest
  | _ => []
  end.

(** points_per_segment before and after the adjustment (tt2d.py:587-598). *)
Definition raw_counts (H : nat) (lens : list R) : list Z :=
  map (fun len => Z.max 2 (round_even (INR H * len / Rsum lens))) lens.
Definition Zsum (l : list Z) : Z := fold_left Z.add l 0%Z.
(** np.argmax: index of the first largest entry. *)
Fixpoint argmax_from (i best_i : nat) (best : Z) (l : list Z) : nat :=
  match l with
  | [] => best_i
  | z :: zs => if Z.ltb best z then argmax_from (S i) i z zs else argmax_from (S i) best_i best zs
  end.
Definition argmax (l : list Z) : nat :=
  match l with [] => O | z :: zs => argmax_from 1 0 z zs end.
Fixpoint add_at (i : nat) (d : Z) (l : list Z) : list Z :=
  match l, i with
  | [], _ => []
  | z :: zs, O => (z + d)%Z :: zs
  | z :: zs, S k => z :: add_at k d zs
  end.
Definition counts (H : nat) (lens : list R) : list Z :=
  let c := raw_counts H lens in
  let tot := Zsum c in
  if Z.eqb tot (Z.of_nat H) then c else add_at (argmax c) (Z.of_nat H - tot) c.

(** Points along each segment together with the segment index (tt2d.py:600-611);
    np.linspace raises ValueError for a negative count. [k] is the index of segment a-b. *)
Fixpoint sample_segments (k : nat) (W : list pt) (cs : list Z) : Res (list (pt * nat)) :=
  match W with
  | a :: ((b :: tl) as rest) =>
      match cs with
      | [] => Err IndexError
      | c :: cs' =>
          if Z.ltb c 0 then Err ValueError
          else
            let n := Z.to_nat c in
            let ts := match tl with [] => lin_closed n | _ => lin_open n end in
            let here := map (fun t => (lerp a b t, k)) ts in
            match sample_segments (S k) rest cs' with
            | Err e => Err e
            | Ok more => Ok (here ++ more)
            end
      end
  | _ => Ok []
  end.

(** The discretised path before the length fix-up (tt2d.py:582-615). *)
Definition path_points (H : nat) (W : list pt) : Res (list (pt * nat)) :=
  let lens := seg_lengths W in
  if Rltb 0 (Rsum lens) then sample_segments 0 W (counts H lens)
  else match W, H with
       | [], S _ => Err IndexError
       | [], O => Ok []
       | w :: _, _ => Ok (repeat (w, O) H)
       end.

(** Downsampling and padding to exactly H points (tt2d.py:617-633). *)
Definition final_segment (W : list pt) : nat := length W - 2.
Definition fix_length (H : nat) (W : list pt) (xg : pt) (ps : list (pt * nat)) : list (pt * nat) :=
  if Nat.ltb H (length ps)
  then map (fun i => nth (i * (length ps - 1) / (H - 1)) ps (xg, O)) (seq 0 H)
  else if Nat.ltb (length ps) H
  then ps ++ repeat (xg, final_segment W) (H - length ps)
  else ps.

(** A reference row [px, py, theta1, theta2] and its angle_mask entry. *)
Record refrow : Type := mkRef { f_px : R; f_py : R; f_th1 : R; f_th2 : R; f_mask : bool }.
Definition f_pos (r : refrow) : pt := (f_px r, f_py r).

(** Heading loop (tt2d.py:651-676) over the remaining points; [prev] is xref[i-1, 2]
    (self.xg[2] before the first row); the last point gets the goal's headings
    (tt2d.py:678-680). *)
Definition moves (a b : pt) : bool :=
  Rltb (1 / 1000000) (Rabs (fst b - fst a)) || Rltb (1 / 1000000) (Rabs (snd b - snd a)).
Fixpoint heading_rows (pref : Z) (g1 g2 : R) (fin : nat) (prev : R) (ps : list (pt * nat)) : list refrow :=
  match ps with
  | [] => []
  | [ (a, k) ] => [ mkRef (fst a) (snd a) g1 g2 (Nat.eqb k fin) ]
  | (a, k) :: (((b, _) :: _) as rest) =>
      let dx := fst b - fst a in
      let dy := snd b - snd a in
      let theta := if moves a b
                   then (if Z.eqb pref (-1) || Z.eqb pref (-2) then atan2 dy dx + PI else atan2 dy dx)
                   else prev in
      let m := Nat.eqb k fin in
      let th := if m then theta else 0 in
      mkRef (fst a) (snd a) th th m :: heading_rows pref g1 g2 fin th rest
  end.

(** generate_demonstration_trajectory of TractorTrailer2d (tt2d.py:466-683), with
    x0_pos = self.x0[:2] and self.xg = [gx, gy, g1, g2]. With H = 0 the assignment of the empty
    point array to xref[:, :2] fails (tt2d.py:637). *)
Definition demo (H : nat) (circ : list circle) (rect : list rectobs) (x0 : pt) (xg : ttq)
  (dir : string) (wmax : nat) (pref : Z) : Res (list refrow) :=
  let gp := (t_px xg, t_py xg) in
  let W := limit_waypoints (waypoints circ rect dir x0 gp) wmax in
  match path_points H W with
  | Err e => Err e
  | Ok ps =>
      match fix_length H W gp ps with
      | [] => Err ValueError
      | qs => Ok (heading_rows pref (t_th1 xg) (t_th2 xg) (final_segment W) (t_th1 xg) qs)
      end
  end.

(** self.generate_demonstration_trajectory of each class: TractorTrailer2d, AccTractorTrailer2d
    (6-D goal, first four entries used: acc_tt2d.py:403-415), NTrailer2d (inherited: theta2 is
    the first trailer's goal heading) and KinematicBicycle2d (goal extended by theta2 = theta1,
    kinematic_bicycle2d.py:335-361; its xref drops the fourth column, so f_th2 is ignored). *)
Definition tt_demo (s : tt_self) (x0 : ttq) dir wmax pref : Res (list refrow) :=
  demo (p_H (ts_p s)) (ts_circ s) (ts_rect s) (t_px x0, t_py x0) (ts_xg s) dir wmax pref.
Definition acc_demo (s : acc_self) (x0 : accq) dir wmax pref : Res (list refrow) :=
  tt_demo (as_t s) (a_q x0) dir wmax pref.
(** x[3] of an n-trailer state (JAX clamps the index when there is no trailer). *)
Definition nt_th1 (q : ntq) : R := match n_ths q with [] => n_th0 q | t :: _ => t end.
Definition nt_demo (s : nt_self) (x0 : ntq) dir wmax pref : Res (list refrow) :=
  demo (p_H (ns_p s)) (ns_circ s) (ns_rect s) (n_px x0, n_py x0)
       (mkTT (n_px (ns_xg s)) (n_py (ns_xg s)) (n_th0 (ns_xg s)) (nt_th1 (ns_xg s))) dir wmax pref.
Definition bk_demo (s : bk_self) (x0 : bkq) dir wmax pref : Res (list refrow) :=
  demo (p_H (bs_p s)) (bs_circ s) (bs_rect s) (b_px x0, b_py x0)
       (mkTT (b_px (bs_xg s)) (b_py (bs_xg s)) (b_th (bs_xg s)) (b_th (bs_xg s))) dir wmax pref.

(** -(clip(e, 0, thr) / thr)^2 (tt2d.py:1116, 1147-1148). *)
Definition clip_score (e thr : R) : R := - ((clip e 0 thr / thr) * (clip e 0 thr / thr)).

(** One row of _eval_xref_logpd (tt2d.py:1101-1155); [pos], [th1], [th2] are the row's selected
    position and headings, [r] the reference row. *)
Definition logpd_row (p : params) (pref : Z) (pos : pt) (th1 th2 : R) (r : refrow) : R :=
  let pos_logpd := clip_score (pnorm (psub pos (f_pos r))) (p_ref_thr p) in
  let d1 := wrap_pi (th1 - f_th1 r) in
  let d2 := wrap_pi (th2 - f_th2 r) in
  let o1 := wrap_pi (th1 - f_th1 r - PI) in
  let o2 := wrap_pi (th2 - f_th2 r - PI) in
  let use_direct := Rltb (Rabs d1 + Rabs d2) (Rabs o1 + Rabs o2) in
  let w1 := where_ use_direct d1 o1 in
  let w2 := where_ use_direct d2 o2 in
  let no_pref := Z.eqb pref 0 in
  let e1 := where_ (f_mask r) (where_ no_pref w1 d1) 0 in
  let e2 := where_ (f_mask r) (where_ no_pref w2 d2) 0 in
  p_ref_pos_w p * pos_logpd + p_ref_th1_w p * clip_score (Rabs e1) (p_phi_max p)
    + p_ref_th2_w p * clip_score (Rabs e2) (p_phi_max p).

(** eval_xref_logpd of TractorTrailer2d for an explicit motion_preference and a stored xref
    (tt2d.py:1089-1166). Simplification: xs and xref are taken row by row; arrays of different
    lengths (a TypeError in JAX) are excluded by hypothesis in the theorems. *)
Definition tt_logpd (s : tt_self) (xref : list refrow) (xs : list ttq) (pref : Z) : R :=
  let p := ts_p s in
  Rmean (map2 (fun x r =>
    let pos := where_ (use_tractor pref) (t_px x, t_py x) (tt_trailer_pos p x) in
    logpd_row p pref pos (t_th1 x) (t_th2 x) r) xs xref).
(** acc_tt2d.py:431-440: xs[:, :4]. *)
Definition acc_logpd (s : acc_self) (xref : list refrow) (xs : list accq) (pref : Z) : R :=
  tt_logpd (as_t s) xref (map a_q xs) pref.
(** NTrailer2d inherits it with get_trailer_position = get_last_trailer_position
    (n_trailer2d.py:387-389). *)
Definition nt_logpd (s : nt_self) (xref : list refrow) (xs : list ntq) (pref : Z) : R :=
  let p := ns_p s in
  Rmean (map2 (fun x r =>
    let pos := where_ (use_tractor pref) (n_px x, n_py x) (nt_last_pos s x) in
    logpd_row p pref pos (n_th0 x) (nt_th1 x) r) xs xref).
(** KinematicBicycle2d.eval_xref_logpd (kinematic_bicycle2d.py:363-416). *)
Definition bk_logpd_row (p : params) (pref : Z) (x : bkq) (r : refrow) : R :=
  let pos_logpd := clip_score (pnorm (psub (b_px x, b_py x) (f_pos r))) (p_ref_thr p) in
  let d1 := wrap_pi (b_th x - f_th1 r) in
  let o1 := wrap_pi (b_th x - f_th1 r - PI) in
  let w1 := where_ (Rltb (Rabs d1) (Rabs o1)) d1 o1 in
  let e1 := where_ (f_mask r) (where_ (Z.eqb pref 0) w1 d1) 0 in
  p_ref_pos_w p * pos_logpd + p_ref_th1_w p * clip_score (Rabs e1) (p_phi_max p).
Definition bk_logpd (s : bk_self) (xref : list refrow) (xs : list bkq) (pref : Z) : R :=
  Rmean (map2 (bk_logpd_row (bs_p s) pref) xs xref).

(** compute_demonstration_reward (tt2d.py:685-703): mean stage reward of the reference rows plus
    the weighted terminal reward of the last one. For AccTractorTrailer2d get_reward reads only
    the first four entries (Acc.v), so the same formula applies. *)
Definition last_row (xref : list refrow) : refrow := last xref (mkRef 0 0 0 0 false).
Definition row_tt (r : refrow) : ttq := mkTT (f_px r) (f_py r) (f_th1 r) (f_th2 r).
Definition row_bk (r : refrow) : bkq := mkBK (f_px r) (f_py r) (f_th1 r).
Definition row_nt (r : refrow) : ntq := mkNT (f_px r) (f_py r) (f_th1 r) [f_th2 r].
Definition tt_rew_xref (s : tt_self) (xref : list refrow) : R :=
  Rmean (map (fun r => tt_reward s (row_tt r)) xref)
  + p_term_w (ts_p s) * tt_terminal s (row_tt (last_row xref)).
Definition bk_rew_xref (s : bk_self) (xref : list refrow) : R :=
  Rmean (map (fun r => bk_reward s (row_bk r)) xref)
  + p_term_w (bs_p s) * bk_terminal s (row_bk (last_row xref)).
(** NTrailer2d inherits it too; the rows have a single trailer heading and the traced index of
    get_last_trailer_position is clamped to it (n_trailer2d.py:228-250). *)
Definition nt_rew_xref (s : nt_self) (xref : list refrow) : R :=
  Rmean (map (fun r => nt_reward s (row_nt r)) xref)
  + p_term_w (ns_p s) * nt_terminal s (row_nt (last_row xref)).
