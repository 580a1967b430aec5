(** * Guidance: _guidance_function and apply_guidance (mbd/robots/tt2d.py:1718-1824,
    kinematic_bicycle2d.py:770-842, n_trailer2d.py:210-226, acc_tt2d.py:361-379).

    [jax.grad] is not modelled: the gradient is an argument of the model (any function), so that
    the theorems hold for every gradient value. Over the reals the [isfinite] guards are the
    identity. *)
From Verif Require Import Base Params Geom TT2d Bicycle NTrailer Acc.

(** max(0, z) ** 2 *)
Definition hinge_sq (z : R) : R := Rmax 0 z * Rmax 0 z.

(** Penalty of one point against one circle (tt2d.py:1745-1756): safety margin 2 m. *)
Definition circle_penalty (P : pt) (c : circle) : R :=
  hinge_sq (c_r c + 2 - pnorm (psub P (c_x c, c_y c))).

(** TractorTrailer2d._guidance_function (tt2d.py:1718-1782). *)
Definition tt_guidance_cost (s : tt_self) (x : ttq) : R :=
  let p := ts_p s in
  let tractor_pos := (t_px x, t_py x) in
  let trailer_pos := (t_px x - p_lh p * cos (t_th1 x) - p_l2 p * cos (t_th2 x),
                      t_py x - p_lh p * sin (t_th1 x) - p_l2 p * sin (t_th2 x)) in
  let circles := Rsum (map (fun c => circle_penalty tractor_pos c + circle_penalty trailer_pos c) (ts_circ s)) in
  let raw := t_th1 x - t_th2 x in
  let pen off := hinge_sq (Rabs (raw + off) - p_phi_max p) in
  let hitch_penalty := Rmin_of [pen 0; pen (2 * PI); pen (- (2 * PI))] in
  let n := INR (length (ts_circ s) + length (ts_rect s)) in
  circles + Rmax 1 (n * (5 / 100)) * hitch_penalty.

(** KinematicBicycle2d._guidance_function (kinematic_bicycle2d.py:770-797). *)
Definition bk_guidance_cost (s : bk_self) (x : bkq) : R :=
  Rsum (map (circle_penalty (b_px x, b_py x)) (bs_circ s)).

(** Bounds applied after each descent step: positions +-100, angles +-2 pi
    (tt2d.py:1810-1813). *)
Definition clip_pos (x : R) : R := clip x (-100) 100.
Definition clip_ang (x : R) : R := clip x (-2 * PI) (2 * PI).

(** guidance_step (tt2d.py:1799-1818), [step_size] as passed. *)
Definition tt_guidance_step (grad : ttq -> ttq) (step_size : R) (x : ttq) : ttq :=
  let g := grad x in
  mkTT (clip_pos (t_px x - step_size * t_px g)) (clip_pos (t_py x - step_size * t_py g))
       (clip_ang (t_th1 x - step_size * t_th1 g)) (clip_ang (t_th2 x - step_size * t_th2 g)).
(** apply_guidance (tt2d.py:1784-1824): scan of length max_steps. *)
Definition tt_apply_guidance_n (s : tt_self) (grad : ttq -> ttq) (step_size : R) (max_steps : nat) (q : ttq) : ttq :=
  if negb (p_guid (ts_p s)) then q else Nat.iter max_steps (tt_guidance_step grad step_size) q.
(** Called with its default arguments by _step_internal (tt2d.py:341). *)
Definition tt_guide (s : tt_self) (grad : ttq -> ttq) (q : ttq) : ttq := tt_apply_guidance_n s grad (5 / 100) 3 q.

(** KinematicBicycle2d.apply_guidance (kinematic_bicycle2d.py:800-842). *)
Definition bk_guidance_step (grad : bkq -> bkq) (step_size : R) (x : bkq) : bkq :=
  let g := grad x in
  mkBK (clip_pos (b_px x - step_size * b_px g)) (clip_pos (b_py x - step_size * b_py g))
       (clip_ang (b_th x - step_size * b_th g)).
Definition bk_guide (s : bk_self) (grad : bkq -> bkq) (q : bkq) : bkq :=
  if negb (p_guid (bs_p s)) then q else Nat.iter 3 (bk_guidance_step grad (5 / 100)) q.

(** NTrailer2d.apply_guidance (n_trailer2d.py:210-226); the gradient has the shape of x. *)
Definition nt_guidance_step (grad : ntq -> ntq) (step_size : R) (x : ntq) : ntq :=
  let g := grad x in
  mkNT (clip_pos (n_px x - step_size * n_px g)) (clip_pos (n_py x - step_size * n_py g))
       (clip_ang (n_th0 x - step_size * n_th0 g))
       (map2 (fun a b => clip_ang (a - step_size * b)) (n_ths x) (n_ths g)).
Definition nt_guide (s : nt_self) (grad : ntq -> ntq) (q : ntq) : ntq :=
  if negb (p_guid (ns_p s)) then q else Nat.iter 3 (nt_guidance_step grad (5 / 100)) q.

(** AccTractorTrailer2d.apply_guidance (acc_tt2d.py:361-379). *)
Definition acc_guide (s : acc_self) (grad : ttq -> ttq) (q : accq) : accq :=
  if negb (p_guid (as_p s)) then q else mkAcc (tt_guide (as_t s) grad (a_q q)) (a_v q) (a_d q).
