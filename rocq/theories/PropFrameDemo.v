(** * Property theorems (generated from ProofsFrameDemo.v by tools/genprops.py; statements only,
    each closed by [exact]). *)
From Coq Require Import String.
From Verif Require Import Base BaseFacts Params Geom TT2d Bicycle NTrailer Acc Demo Guidance SpecGeom SpecBodies SpecDyn SpecSym SpecProj
  Rollout Planner Instances ProofsGeom ProofsBodies ProofsKin ProofsRobots ProofsSafety ProofsSim ProofsSym ProofsFrame ProofsSymAcc ProofsDemo ProofsMirrorDemo.
From Verif Require Import ProofsFrameDemo.
Open Scope R_scope.

(** C45, demonstrations: translate start, goal and obstacles together and the code's own demonstration is translated
    with them - same headings, same row weights - or the same exception arises. *)
Theorem C45_demonstration_translates :
  forall (d : point) (s : tt_self) (x0 : ttq) dir wmax pref,
  match tt_demo s x0 dir wmax pref, tt_demo (tt_world_move (mkMotion 0 d) s) (tt_move (mkMotion 0 d) x0) dir wmax pref with
  | Ok rows, Ok rows' => Forall2 (fun r r' => f_px r' = fst d + f_px r /\ f_py r' = snd d + f_py r /\
      f_th1 r' = f_th1 r /\ f_th2 r' = f_th2 r /\ f_mask r' = f_mask r) rows rows'
  | Err e, Err e' => e = e'
  | _, _ => False
  end.
Proof. exact l_C45_demonstration_translates. Qed.
Print Assumptions C45_demonstration_translates.

(** C45, tractor-trailer, with the code's own demonstration (guidance off, as by default): translating the whole
    task translates the whole plan, with equal controls and equal rewards, in every mode. *)
Theorem C45_tt_plan_with_demonstration :
  forall (d : point) (s : tt_self) (x0 : ttq) proj proj' grad grad' dir wmax pref rows rows' (g : cfg) (rg : prng) out out',
  let m := mkMotion 0 d in
  p_guid (ts_p s) = false ->
  (forall q a, proj' (tt_move m q) a = proj q a) ->
  tt_demo s x0 dir wmax pref = Ok rows ->
  tt_demo (tt_world_move m s) (tt_move m x0) dir wmax pref = Ok rows' ->
  run_diffusion (tt_penv s x0 proj (tt_guide s grad) (tt_logpd s rows) (tt_rew_xref s rows)) (Some g) rg = Ok out ->
  run_diffusion (tt_penv (tt_world_move m s) (tt_move m x0) proj' (tt_guide (tt_world_move m s) grad')
    (tt_logpd (tt_world_move m s) rows') (tt_rew_xref (tt_world_move m s) rows')) (Some g) rg = Ok out' ->
  o_Y0 out' = o_Y0 out /\ o_rew out' = o_rew out /\ o_traj out' = map (tt_move m) (o_traj out).
Proof. exact l_C45_tt_plan_with_demonstration. Qed.
Print Assumptions C45_tt_plan_with_demonstration.

(** C45, bicycle with demonstration. *)
Theorem C45_bk_plan_with_demonstration :
  forall (d : point) (s : bk_self) (x0 : bkq) proj proj' grad grad' dir wmax pref rows rows' (g : cfg) (rg : prng) out out',
  let m := mkMotion 0 d in
  p_guid (bs_p s) = false ->
  (forall q a, proj' (bk_move m q) a = proj q a) ->
  bk_demo s x0 dir wmax pref = Ok rows ->
  bk_demo (bk_world_move m s) (bk_move m x0) dir wmax pref = Ok rows' ->
  run_diffusion (bk_penv s x0 proj (bk_guide s grad) (bk_logpd s rows) (bk_rew_xref s rows)) (Some g) rg = Ok out ->
  run_diffusion (bk_penv (bk_world_move m s) (bk_move m x0) proj' (bk_guide (bk_world_move m s) grad')
    (bk_logpd (bk_world_move m s) rows') (bk_rew_xref (bk_world_move m s) rows')) (Some g) rg = Ok out' ->
  o_Y0 out' = o_Y0 out /\ o_rew out' = o_rew out /\ o_traj out' = map (bk_move m) (o_traj out).
Proof. exact l_C45_bk_plan_with_demonstration. Qed.
Print Assumptions C45_bk_plan_with_demonstration.

(** C45, N trailers with demonstration. *)
Theorem C45_nt_plan_with_demonstration :
  forall (d : point) (s : nt_self) (x0 : ntq) grad grad' dir wmax pref rows rows' (g : cfg) (rg : prng) out out',
  let m := mkMotion 0 d in
  p_guid (ns_p s) = false ->
  (1 <= p_num_trailers (ns_p s))%nat -> length (n_ths (ns_xg s)) = p_num_trailers (ns_p s) ->
  length (ns_len s) = p_num_trailers (ns_p s) ->
  nt_demo s x0 dir wmax pref = Ok rows ->
  nt_demo (nt_world_move m s) (nt_move m x0) dir wmax pref = Ok rows' ->
  nt_run s x0 (nt_guide s grad) (nt_logpd s rows) (nt_rew_xref s rows) g rg = Ok out ->
  nt_run (nt_world_move m s) (nt_move m x0) (nt_guide (nt_world_move m s) grad')
    (nt_logpd (nt_world_move m s) rows') (nt_rew_xref (nt_world_move m s) rows') g rg = Ok out' ->
  o_Y0 out' = o_Y0 out /\ o_rew out' = o_rew out /\ o_traj out' = map (nt_move m) (o_traj out).
Proof. exact l_C45_nt_plan_with_demonstration. Qed.
Print Assumptions C45_nt_plan_with_demonstration.

(** C45, acceleration class with demonstration. *)
Theorem C45_acc_plan_with_demonstration :
  forall (d : point) (s : acc_self) (x0 : accq) proj proj' grad grad' dir wmax pref rows rows' (g : cfg) (rg : prng) out out',
  let m := mkMotion 0 d in
  p_guid (as_p s) = false ->
  (forall q a, proj' (acc_move m q) a = proj q a) ->
  acc_demo s x0 dir wmax pref = Ok rows ->
  acc_demo (acc_world_move m s) (acc_move m x0) dir wmax pref = Ok rows' ->
  run_diffusion (acc_penv s x0 proj (acc_guide s grad) (acc_logpd s rows) (tt_rew_xref (as_t s) rows)) (Some g) rg = Ok out ->
  run_diffusion (acc_penv (acc_world_move m s) (acc_move m x0) proj' (acc_guide (acc_world_move m s) grad')
    (acc_logpd (acc_world_move m s) rows') (tt_rew_xref (as_t (acc_world_move m s)) rows')) (Some g) rg = Ok out' ->
  o_Y0 out' = o_Y0 out /\ o_rew out' = o_rew out /\ o_traj out' = map (acc_move m) (o_traj out).
Proof. exact l_C45_acc_plan_with_demonstration. Qed.
Print Assumptions C45_acc_plan_with_demonstration.

(** C45, guidance (finding): the guidance update clips the pose's coordinates into [-100, 100], a box around the world's
    origin: at zero gradient it leaves a pose at the origin alone but drags the translated pose back, so a plan with
    guidance is not translation-invariant. *)
Theorem C45_guidance_tied_to_origin_refuted :
  exists (s : tt_self) (d : point) (q : ttq), p_guid (ts_p s) = true /\
  let zero := fun _ : ttq => mkTT 0 0 0 0 in
  let m := mkMotion 0 d in
  tt_guide s zero q = q /\ t_px (tt_move m q) = 200 /\ t_px (tt_guide (tt_world_move m s) zero (tt_move m q)) = 100.
Proof. exact l_C45_guidance_tied_to_origin_refuted. Qed.
Print Assumptions C45_guidance_tied_to_origin_refuted.

(** C45, turned demonstrations (finding): rows before the demonstration's last segment carry the placeholder heading 0 in
    every world, so unless the angle is a whole number of turns, turning the task never turns such a demonstration. *)
Theorem C45_turned_demonstration_refuted :
  forall (m : motion) (s : tt_self) (x0 : ttq) dir dir' wmax wmax' pref pref' rows rows' (i : nat),
  tt_demo s x0 dir wmax pref = Ok rows ->
  tt_demo (tt_world_move m s) (tt_move m x0) dir' wmax' pref' = Ok rows' ->
  (S i < length rows)%nat -> (S i < length rows')%nat ->
  f_mask (nth i rows (mkRef 0 0 0 0 false)) = false ->
  f_mask (nth i rows' (mkRef 0 0 0 0 false)) = false ->
  tt_same_pose (tt_move m (row_tt (nth i rows (mkRef 0 0 0 0 false)))) (row_tt (nth i rows' (mkRef 0 0 0 0 false))) ->
  turns 0 (m_ang m).
Proof. exact l_C45_turned_demonstration_refuted. Qed.
Print Assumptions C45_turned_demonstration_refuted.

(** Non-vacuity: a task whose demonstration detours round a post, and its translate: both demonstrations exist, and
    their first rows lie before the last segment, as the theorems above ask. *)
Example C45_detours :
  forall d : point, exists s x0 rows rows', p_guid (ts_p s) = false /\ tt_demo s x0 "horizontal" 4 0 = Ok rows /\
    tt_demo (tt_world_move (mkMotion 0 d) s) (tt_move (mkMotion 0 d) x0) "horizontal" 4 0 = Ok rows' /\
    (1 < length rows)%nat /\ (1 < length rows')%nat /\
    f_mask (nth 0 rows (mkRef 0 0 0 0 false)) = false /\ f_mask (nth 0 rows' (mkRef 0 0 0 0 false)) = false /\
    tt_same_pose (tt_move (mkMotion 0 d) (row_tt (nth 0 rows (mkRef 0 0 0 0 false)))) (row_tt (nth 0 rows' (mkRef 0 0 0 0 false))).
Proof. exact x_C45_detours. Qed.
