(** * Property theorems (generated from ProofsEnv.v by tools/genprops.py; statements only,
    each closed by [exact]). *)
From Coq Require Import String.
From Verif Require Import Base BaseFacts Params EnvModel Setup SpecGeom SpecBodies SpecEnv TT2d
  NTrailer ProofsGeom ProofsBodies ProofsRobots ProofsSafety ProofsAcc.
From Verif Require Import ProofsEnv.
Local Open Scope string_scope.
Local Open Scope list_scope.
Open Scope R_scope.

(** The centre of every painted space number is the midpoint of that space, strictly inside
    the lot. *)
Theorem C27_center_in_lot :
  forall w h c e n, env_init w h "parking" (Some c) = Ok e -> proper_lot c -> lot_number c n ->
  exists P i j, get_parking_space_center e n = Ok P /\ numbered c n i j /\
    lot_interior c (- h / 2 + pk_yoff c) P /\
    space_interior c (- h / 2 + pk_yoff c) i j P /\
    (forall dx dy, Rabs dx <= pk_w c / 2 -> Rabs dy <= pk_len c / 2 ->
       space_area c (- h / 2 + pk_yoff c) i j (fst P + dx, snd P + dy)).
Proof. exact l_C27_center_in_lot. Qed.
Print Assumptions C27_center_in_lot.

(** Different numbers have centres at least a space width apart horizontally or a space length
    apart vertically. *)
Theorem C27_centers_apart :
  forall w h c e n m x y x' y', env_init w h "parking" (Some c) = Ok e -> proper_lot c ->
  lot_number c n -> lot_number c m -> n <> m ->
  get_parking_space_center e n = Ok (x, y) -> get_parking_space_center e m = Ok (x', y') ->
  pk_w c <= Rabs (x - x') \/ pk_len c <= Rabs (y - y').
Proof. exact l_C27_centers_apart. Qed.
Print Assumptions C27_centers_apart.

(** The lot is centred on x = 0: every centre has a mirror image among the centres. *)
Theorem C27_mirror :
  forall w h c e n x y, env_init w h "parking" (Some c) = Ok e -> proper_lot c -> lot_number c n ->
  get_parking_space_center e n = Ok (x, y) ->
  exists m, lot_number c m /\ get_parking_space_center e m = Ok (- x, y).
Proof. exact l_C27_mirror. Qed.
Print Assumptions C27_mirror.

(** Numbers that are not painted on the lot are accepted too, and give a point outside it. *)
Theorem C27_unpainted_number_rejected_refuted :
  forall w h c e n, env_init w h "parking" (Some c) = Ok e -> proper_lot c -> ~ lot_number c n ->
  exists P, get_parking_space_center e n = Ok P /\ ~ lot_interior c (- h / 2 + pk_yoff c) P.
Proof. exact l_C27_unpainted_number_rejected_refuted. Qed.
Print Assumptions C27_unpainted_number_rejected_refuted.

(** After set_plot_limits ("for visualization") the reported centres move, the obstacles do not:
    in the default lot the reported centre of occupied space 1 then is not an obstacle. *)
Theorem C27_plot_limits_harmless_refuted :
  exists e, env_init 32 32 "parking" None = Ok e /\
  (exists P, get_parking_space_center e 1 = Ok P /\ exists k, In k (e_circles e) /\ (c_x k, c_y k) = P) /\
  let e' := env_set_plot_limits e (-50, 50) (-50, 50) in
  exists P, get_parking_space_center e' 1 = Ok P /\
    forall k, In k (e_circles e') -> (c_x k, c_y k) <> P.
Proof. exact l_C27_plot_limits_harmless_refuted. Qed.
Print Assumptions C27_plot_limits_harmless_refuted.

(** Two rows of eight spaces, as shipped: the hypotheses hold. *)
Example C27_default_lot :
  exists e, env_init 32 32 "parking" (Some default_parking) = Ok e /\ proper_lot default_parking /\
  lot_number default_parking 11 /\ get_parking_space_center e 11 = Ok (- (8 * (35/10)) / 2 + (2 + 1/2) * (35/10), - 32 / 2 + 4 + (1 + 1/2) * 7).
Proof. exact x_C27_default_lot. Qed.

(** There are three circles per occupied space, in the order of the list: at the space's centre,
    2 m above and 2 m below, all with the configured radius; and nothing else. *)
Theorem C28_three_per_occupied_space :
  forall w h c e, env_init w h "parking" (Some c) = Ok e -> pk_occ c <> [] ->
  length (e_circles e) = (3 * length (pk_occ c))%nat /\
  (forall k, (k < length (pk_occ c))%nat ->
     exists x y, get_parking_space_center e (nth k (pk_occ c) 0%Z) = Ok (x, y) /\
       nth_error (e_circles e) (3 * k) = Some (mkCircle x y (pk_rad c)) /\
       nth_error (e_circles e) (3 * k + 1) = Some (mkCircle x (y + 2) (pk_rad c)) /\
       nth_error (e_circles e) (3 * k + 2) = Some (mkCircle x (y - 2) (pk_rad c))).
Proof. exact l_C28_three_per_occupied_space. Qed.
Print Assumptions C28_three_per_occupied_space.

(** If a space is at least as wide as an obstacle and leaves 2 m more than its radius at either
    end, every obstacle lies in one of the occupied spaces. *)
Theorem C28_obstacle_within_an_occupied_space :
  forall w h c e k, env_init w h "parking" (Some c) = Ok e -> proper_lot c -> pk_occ c <> [] ->
  (forall n, In n (pk_occ c) -> lot_number c n) ->
  pk_rad c <= pk_w c / 2 -> pk_rad c + 2 <= pk_len c / 2 -> In k (e_circles e) ->
  exists n i j, In n (pk_occ c) /\ numbered c n i j /\
    forall P, disc (c_x k, c_y k) (c_r k) P -> space_area c (- h / 2 + pk_yoff c) i j P.
Proof. exact l_C28_obstacle_within_an_occupied_space. Qed.
Print Assumptions C28_obstacle_within_an_occupied_space.

(** Consequently the interior of every space that is not listed as occupied, for instance a
    target, contains no obstacle point. *)
Theorem C28_unoccupied_space_free :
  forall w h c e k n i j P, env_init w h "parking" (Some c) = Ok e -> proper_lot c -> pk_occ c <> [] ->
  (forall m, In m (pk_occ c) -> lot_number c m) ->
  pk_rad c <= pk_w c / 2 -> pk_rad c + 2 <= pk_len c / 2 ->
  numbered c n i j -> ~ In n (pk_occ c) -> In k (e_circles e) ->
  space_interior c (- h / 2 + pk_yoff c) i j P -> c_r k < dist P (c_x k, c_y k).
Proof. exact l_C28_unoccupied_space_free. Qed.
Print Assumptions C28_unoccupied_space_free.

(** The shipped lot: both target spaces are free. *)
Example C28_default_targets_free :
  exists e, env_init 32 32 "parking" (Some default_parking) = Ok e /\
  pk_tgt default_parking = [3; 11]%Z /\
  forall k P, In k (e_circles e) ->
    space_interior default_parking (- 32 / 2 + 4) 0 2 P \/ space_interior default_parking (- 32 / 2 + 4) 1 2 P ->
    c_r k < dist P (c_x k, c_y k).
Proof. exact x_C28_default_targets_free. Qed.

(** An environment without obstacles is not obstacle free: a circle of radius 0 at the origin is
    inserted, and a pose whose outline touches the origin is reported as a collision. *)
Theorem C28_empty_world_is_free_refuted :
  forall cfg, exists e, env_init 32 32 "navigation" cfg = Ok e /\ e_rects e = [] /\
  tt_coll default_params (e_circles e) (e_rects e) (mkTT (1848/1000) 0 0 0) = true.
Proof. exact l_C28_empty_world_is_free_refuted. Qed.
Print Assumptions C28_empty_world_is_free_refuted.
