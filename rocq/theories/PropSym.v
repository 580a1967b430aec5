(** * Property theorems (generated from ProofsSym.v by tools/genprops.py; statements only,
    each closed by [exact]). *)
From Verif Require Import Base BaseFacts Params Geom TT2d Bicycle NTrailer SpecGeom SpecBodies SpecDyn SpecSym
  Rollout Planner Instances ProofsGeom ProofsBodies ProofsKin ProofsRobots ProofsSafety ProofsSim.
From Verif Require Import ProofsSym.
Open Scope R_scope.

(** C17, tractor-trailer: two poses that differ only by whole turns of the headings get the
    same collision and hitch verdicts and the same rewards (goal headings likewise). *)
Theorem C17_tt_winding :
  forall (s : tt_self) (xg' q q' : ttq), tt_same_pose q q' -> tt_same_pose (ts_xg s) xg' ->
  let s' := mkTTSelf (ts_p s) (ts_circ s) (ts_rect s) xg' in
  tt_coll (ts_p s) (ts_circ s) (ts_rect s) q' = tt_coll (ts_p s) (ts_circ s) (ts_rect s) q /\
  tt_hitch (ts_p s) q' = tt_hitch (ts_p s) q /\
  tt_reward s' q' = tt_reward s q /\ tt_terminal s' q' = tt_terminal s q.
Proof. exact l_C17_tt_winding. Qed.
Print Assumptions C17_tt_winding.

Theorem C17_bk_winding :
  forall (s : bk_self) (xg' q q' : bkq), bk_same_pose q q' -> bk_same_pose (bs_xg s) xg' ->
  let s' := mkBKSelf (bs_p s) (bs_circ s) (bs_rect s) xg' in
  bk_coll (bs_p s) (bs_circ s) (bs_rect s) q' = bk_coll (bs_p s) (bs_circ s) (bs_rect s) q /\
  bk_reward s' q' = bk_reward s q /\ bk_terminal s' q' = bk_terminal s q.
Proof. exact l_C17_bk_winding. Qed.
Print Assumptions C17_bk_winding.

(** C17, N trailers (any N). *)
Theorem C17_nt_winding :
  forall (s : nt_self) (xg' q q' : ntq), nt_same_pose q q' -> nt_same_pose (ns_xg s) xg' ->
  let s' := mkNTSelf (ns_p s) (ns_len s) (ns_front s) (ns_rear s) (ns_circ s) (ns_rect s) xg' in
  nt_coll s (ns_circ s) (ns_rect s) q' = nt_coll s (ns_circ s) (ns_rect s) q /\
  nt_hitch s q' = nt_hitch s q /\
  nt_reward s' q' = nt_reward s q /\ nt_terminal s' q' = nt_terminal s q.
Proof. exact l_C17_nt_winding. Qed.
Print Assumptions C17_nt_winding.

(** C17: planning from a start that differs by whole turns gives the same plan, the same
    final reward and the same trajectory up to whole turns — in every mode, provided the
    demonstration score, projection and guidance respect whole turns as well. *)
Theorem C17_tt_plan_winding :
  forall (s : tt_self) (x0 x0' xg' : ttq) proj guide logpd rx (g : cfg) (rg : prng) out out',
  tt_same_pose x0 x0' -> tt_same_pose (ts_xg s) xg' ->
  (forall q q' a, tt_same_pose q q' -> proj q a = proj q' a) ->
  (forall q q', tt_same_pose q q' -> tt_same_pose (guide q) (guide q')) ->
  (forall qs qs' m, Forall2 tt_same_pose qs qs' -> logpd qs m = logpd qs' m) ->
  run_diffusion (tt_penv s x0 proj guide logpd rx) (Some g) rg = Ok out ->
  run_diffusion (tt_penv (mkTTSelf (ts_p s) (ts_circ s) (ts_rect s) xg') x0' proj guide logpd rx) (Some g) rg = Ok out' ->
  o_Y0 out' = o_Y0 out /\ o_rew out' = o_rew out /\ Forall2 tt_same_pose (o_traj out) (o_traj out').
Proof. exact l_C17_tt_plan_winding. Qed.
Print Assumptions C17_tt_plan_winding.

Theorem C17_bk_plan_winding :
  forall (s : bk_self) (x0 x0' xg' : bkq) proj guide logpd rx (g : cfg) (rg : prng) out out',
  bk_same_pose x0 x0' -> bk_same_pose (bs_xg s) xg' ->
  (forall q q' a, bk_same_pose q q' -> proj q a = proj q' a) ->
  (forall q q', bk_same_pose q q' -> bk_same_pose (guide q) (guide q')) ->
  (forall qs qs' m, Forall2 bk_same_pose qs qs' -> logpd qs m = logpd qs' m) ->
  run_diffusion (bk_penv s x0 proj guide logpd rx) (Some g) rg = Ok out ->
  run_diffusion (bk_penv (mkBKSelf (bs_p s) (bs_circ s) (bs_rect s) xg') x0' proj guide logpd rx) (Some g) rg = Ok out' ->
  o_Y0 out' = o_Y0 out /\ o_rew out' = o_rew out /\ Forall2 bk_same_pose (o_traj out) (o_traj out').
Proof. exact l_C17_bk_plan_winding. Qed.
Print Assumptions C17_bk_plan_winding.

Theorem C17_nt_plan_winding :
  forall (s : nt_self) (x0 x0' xg' : ntq) guide logpd rx (g : cfg) (rg : prng) out out',
  nt_same_pose x0 x0' -> nt_same_pose (ns_xg s) xg' ->
  (forall q q', nt_same_pose q q' -> nt_same_pose (guide q) (guide q')) ->
  (forall qs qs' m, Forall2 nt_same_pose qs qs' -> logpd qs m = logpd qs' m) ->
  nt_run s x0 guide logpd rx g rg = Ok out ->
  nt_run (mkNTSelf (ns_p s) (ns_len s) (ns_front s) (ns_rear s) (ns_circ s) (ns_rect s) xg') x0' guide logpd rx g rg = Ok out' ->
  o_Y0 out' = o_Y0 out /\ o_rew out' = o_rew out /\ Forall2 nt_same_pose (o_traj out) (o_traj out').
Proof. exact l_C17_nt_plan_winding. Qed.
Print Assumptions C17_nt_plan_winding.
