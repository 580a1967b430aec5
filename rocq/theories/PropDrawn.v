(** * Property theorems (generated from ProofsDrawn.v by tools/genprops.py; statements only,
    each closed by [exact]). *)
From Coq Require Import Lia.
From Verif Require Import Base BaseFacts Params Geom TT2d Bicycle NTrailer Acc Rollout EnvModel Anim SpecGeom SpecBodies SpecReward SpecAnim ProofsBodies ProofsAnim.
From Verif Require Import ProofsDrawn.
Local Open Scope list_scope.
Open Scope R_scope.

(** Every drawn wheel is a rectangle 0.8 m long and 0.45 m wide around the centre it is turned about. *)
Theorem C47_wheel_size : forall w : patch,
  (exists p q u, In w (dr_wheels (tt_draw p q u))) \/ (exists p q u, In w (dr_wheels (acc_draw p q u))) \/
  (exists p q u, In w (dr_wheels (bk_draw p q u))) \/ (exists s q u, In w (dr_wheels (nt_draw s q u))) ->
  pa_w w = 8/10 /\ pa_h w = 45/100 /\ pa_x w = - (4/10) /\ pa_y w = - (225/1000).
Proof. exact l_C47_wheel_size. Qed.
Print Assumptions C47_wheel_size.

(** In frame k of the animation of a trajectory the blue line runs through the positions of states 0 to k, in that order, and
    the overlay line through those of the first k+1 states of the overlay. *)
Theorem C47_lines :
  (forall e s, frame_lines (tt_animated e s) (fun q => (t_px q, t_py q))) /\
  (forall e s, frame_lines (acc_animated e s) (fun q => (t_px (a_q q), t_py (a_q q)))) /\
  (forall e s, frame_lines (bk_animated e s) (fun q => (b_px q, b_py q))) /\
  (forall e s, frame_lines (nt_animated e s) (fun q => (n_px q, n_py q))).
Proof. exact l_C47_lines. Qed.
Print Assumptions C47_lines.

Theorem C47_nt_hitch_lines :
  forall s q u, nt_sized s -> length (n_ths q) = p_num_trailers (ns_p s) ->
  let trailers := tl (nt_bodies s q) in
  let behind := fun g => ahead (rg_org g) (rg_ang g) (rg_back g - p_lh (ns_p s)) in
  let hitches := ahead (n_px q, n_py q) (n_th0 q) (- p_lh (ns_p s)) :: map behind trailers in
  dr_lines (nt_draw s q u) =
    ((n_px q, n_py q), ahead (n_px q, n_py q) (n_th0 q) (- p_lh (ns_p s))) ::
    map2 (fun h g => (h, ahead (rg_org g) (rg_ang g) (rg_front g))) hitches trailers ++
    map (fun g => (ahead (rg_org g) (rg_ang g) (rg_back g), behind g)) (removelast trailers).
Proof. exact l_C47_nt_hitch_lines. Qed.
Print Assumptions C47_nt_hitch_lines.
