(** * SpecMirror: the reflection of the plane in the x-axis, acting on points, poses, controls,
    obstacles and noise. Left and right are exchanged; forwards and backwards are not. *)
From Coq Require Import Reals List.
From Verif Require Import Base SpecGeom Params TT2d Bicycle NTrailer Acc Rollout Planner.
Import ListNotations.
Open Scope R_scope.

Definition mirror (P : point) : point := (fst P, - snd P).
(** A control is (longitudinal, steering): only the steering part changes sign. *)
Definition mirror_act (a : act) : act := (fst a, - snd a).
Definition tt_mirror (q : ttq) : ttq := mkTT (t_px q) (- t_py q) (- t_th1 q) (- t_th2 q).
Definition bk_mirror (q : bkq) : bkq := mkBK (b_px q) (- b_py q) (- b_th q).
Definition nt_mirror (q : ntq) : ntq := mkNT (n_px q) (- n_py q) (- n_th0 q) (map Ropp (n_ths q)).
(** Acceleration class: the speed stays, the steering angle changes sign. *)
Definition acc_mirror (q : accq) : accq := mkAcc (tt_mirror (a_q q)) (a_v q) (- a_d q).
Definition circle_mirror (c : circle) : circle := mkCircle (c_x c) (- c_y c) (c_r c).
Definition rect_mirror (o : rectobs) : rectobs := mkRect (r_x o) (- r_y o) (r_w o) (r_h o) (- r_ang o).
(** The same vehicle in the mirrored world: goal and obstacles reflected. *)
Definition tt_world_mirror (s : tt_self) : tt_self :=
  mkTTSelf (ts_p s) (map circle_mirror (ts_circ s)) (map rect_mirror (ts_rect s)) (tt_mirror (ts_xg s)).
Definition bk_world_mirror (s : bk_self) : bk_self :=
  mkBKSelf (bs_p s) (map circle_mirror (bs_circ s)) (map rect_mirror (bs_rect s)) (bk_mirror (bs_xg s)).
Definition nt_world_mirror (s : nt_self) : nt_self :=
  mkNTSelf (ns_p s) (ns_len s) (ns_front s) (ns_rear s)
    (map circle_mirror (ns_circ s)) (map rect_mirror (ns_rect s)) (nt_mirror (ns_xg s)).
Definition acc_world_mirror (s : acc_self) : acc_self :=
  mkAccSelf (tt_world_mirror (as_t s)) (as_amax s) (as_omax s).
(** The generator whose every steering draw has the opposite sign. *)
Definition mirror_noise (rg : prng) : prng :=
  mkPrng (key rg) (prng_key rg) (prng_split rg) (fun k n h => map (map mirror_act) (prng_normal rg k n h)).
