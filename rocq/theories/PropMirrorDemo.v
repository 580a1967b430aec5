(** * Property theorems (generated from ProofsMirrorDemo.v by tools/genprops.py; statements only,
    each closed by [exact]). *)
From Coq Require Import String.
From Verif Require Import Base BaseFacts Params Geom TT2d Bicycle NTrailer Acc Demo Guidance SpecGeom SpecBodies SpecDyn SpecSym SpecMirror
  Rollout Planner Instances ProofsGeom ProofsBodies ProofsKin ProofsRobots ProofsSafety ProofsSim ProofsSym ProofsFrame ProofsMirror ProofsDemo.
From Verif Require Import ProofsMirrorDemo.
Open Scope R_scope.

(** C76, demonstrations: the demonstration for the mirrored task is the mirrored demonstration (headings up to
    whole turns), for every way-point direction and preference, and an exception arises for both or neither. *)
Theorem C76_demonstration_mirrors :
  forall (s : tt_self) (x0 : ttq) dir wmax pref,
  match tt_demo s x0 dir wmax pref, tt_demo (tt_world_mirror s) (tt_mirror x0) dir wmax pref with
  | Ok rows, Ok rows' => Forall2 (fun r r' => tt_same_pose (tt_mirror (row_tt r)) (row_tt r') /\ f_mask r' = f_mask r) rows rows'
  | Err e, Err e' => e = e'
  | _, _ => False
  end.
Proof. exact l_C76_demonstration_mirrors. Qed.
Print Assumptions C76_demonstration_mirrors.

(** C76, guidance cost: the penalty guidance descends is the same at mirrored poses. *)
Theorem C76_guidance_cost_mirrors :
  forall (s : tt_self) (q : ttq), tt_guidance_cost (tt_world_mirror s) (tt_mirror q) = tt_guidance_cost s q.
Proof. exact l_C76_guidance_cost_mirrors. Qed.
Print Assumptions C76_guidance_cost_mirrors.

(** C76, tractor-trailer with the code's own demonstration and guidance (gradients of mirrored worlds being
    mirrored): the whole plan is mirrored. *)
Theorem C76_tt_plan_with_demonstration :
  forall (s : tt_self) (x0 : ttq) proj proj' grad grad' dir wmax pref rows rows' (g : cfg) (rg : prng) out out',
  tt_sized (ts_p s) ->
  (forall q a, proj' (tt_mirror q) (mirror_act a) = mirror_act (proj q a)) ->
  (forall q, grad' (tt_mirror q) = tt_mirror (grad q)) ->
  tt_demo s x0 dir wmax pref = Ok rows ->
  tt_demo (tt_world_mirror s) (tt_mirror x0) dir wmax pref = Ok rows' ->
  run_diffusion (tt_penv s x0 proj (tt_guide s grad) (tt_logpd s rows) (tt_rew_xref s rows)) (Some g) rg = Ok out ->
  run_diffusion (tt_penv (tt_world_mirror s) (tt_mirror x0) proj' (tt_guide (tt_world_mirror s) grad')
    (tt_logpd (tt_world_mirror s) rows') (tt_rew_xref (tt_world_mirror s) rows')) (Some g) (mirror_noise rg) = Ok out' ->
  o_Y0 out' = map mirror_act (o_Y0 out) /\ o_rew out' = o_rew out /\ o_traj out' = map tt_mirror (o_traj out).
Proof. exact l_C76_tt_plan_with_demonstration. Qed.
Print Assumptions C76_tt_plan_with_demonstration.

(** C76, acceleration class with demonstration and guidance. *)
Theorem C76_acc_plan_with_demonstration :
  forall (s : acc_self) (x0 : accq) proj proj' grad grad' dir wmax pref rows rows' (g : cfg) (rg : prng) out out',
  tt_sized (as_p s) -> 0 <= p_dmax (as_p s) ->
  (forall q a, proj' (acc_mirror q) (mirror_act a) = mirror_act (proj q a)) ->
  (forall q, grad' (tt_mirror q) = tt_mirror (grad q)) ->
  acc_demo s x0 dir wmax pref = Ok rows ->
  acc_demo (acc_world_mirror s) (acc_mirror x0) dir wmax pref = Ok rows' ->
  run_diffusion (acc_penv s x0 proj (acc_guide s grad) (acc_logpd s rows) (tt_rew_xref (as_t s) rows)) (Some g) rg = Ok out ->
  run_diffusion (acc_penv (acc_world_mirror s) (acc_mirror x0) proj' (acc_guide (acc_world_mirror s) grad')
    (acc_logpd (acc_world_mirror s) rows') (tt_rew_xref (as_t (acc_world_mirror s)) rows')) (Some g) (mirror_noise rg) = Ok out' ->
  o_Y0 out' = map mirror_act (o_Y0 out) /\ o_rew out' = o_rew out /\ o_traj out' = map acc_mirror (o_traj out).
Proof. exact l_C76_acc_plan_with_demonstration. Qed.
Print Assumptions C76_acc_plan_with_demonstration.

(** C76, n-trailer with demonstration and guidance. *)
Theorem C76_nt_plan_with_demonstration :
  forall (s : nt_self) (x0 : ntq) grad grad' dir wmax pref rows rows' (g : cfg) (rg : prng) out out',
  nt_sized s ->
  (forall q, grad' (nt_mirror q) = nt_mirror (grad q)) ->
  nt_demo s x0 dir wmax pref = Ok rows ->
  nt_demo (nt_world_mirror s) (nt_mirror x0) dir wmax pref = Ok rows' ->
  nt_run s x0 (nt_guide s grad) (nt_logpd s rows) (nt_rew_xref s rows) g rg = Ok out ->
  nt_run (nt_world_mirror s) (nt_mirror x0) (nt_guide (nt_world_mirror s) grad')
    (nt_logpd (nt_world_mirror s) rows') (nt_rew_xref (nt_world_mirror s) rows') g (mirror_noise rg) = Ok out' ->
  o_Y0 out' = map mirror_act (o_Y0 out) /\ o_rew out' = o_rew out /\ o_traj out' = map nt_mirror (o_traj out).
Proof. exact l_C76_nt_plan_with_demonstration. Qed.
Print Assumptions C76_nt_plan_with_demonstration.

(** C76, bicycle with demonstration and guidance. *)
Theorem C76_bk_plan_with_demonstration :
  forall (s : bk_self) (x0 : bkq) proj proj' grad grad' dir wmax pref rows rows' (g : cfg) (rg : prng) out out',
  tractor_sized (bs_p s) ->
  (forall q a, proj' (bk_mirror q) (mirror_act a) = mirror_act (proj q a)) ->
  (forall q, grad' (bk_mirror q) = bk_mirror (grad q)) ->
  bk_demo s x0 dir wmax pref = Ok rows ->
  bk_demo (bk_world_mirror s) (bk_mirror x0) dir wmax pref = Ok rows' ->
  run_diffusion (bk_penv s x0 proj (bk_guide s grad) (bk_logpd s rows) (bk_rew_xref s rows)) (Some g) rg = Ok out ->
  run_diffusion (bk_penv (bk_world_mirror s) (bk_mirror x0) proj' (bk_guide (bk_world_mirror s) grad')
    (bk_logpd (bk_world_mirror s) rows') (bk_rew_xref (bk_world_mirror s) rows')) (Some g) (mirror_noise rg) = Ok out' ->
  o_Y0 out' = map mirror_act (o_Y0 out) /\ o_rew out' = o_rew out /\ o_traj out' = map bk_mirror (o_traj out).
Proof. exact l_C76_bk_plan_with_demonstration. Qed.
Print Assumptions C76_bk_plan_with_demonstration.

(** C76, guidance gradients: wherever the guidance cost has partial derivatives, those of the mirrored cost at the
    mirrored pose are the mirrored ones, as the plan theorems ask of the gradient. *)
Theorem C76_guidance_gradient_mirrors :
  forall (s : tt_self) (q d : ttq),
  let c := fun x y a b => tt_guidance_cost s (mkTT x y a b) in
  let c' := fun x y a b => tt_guidance_cost (tt_world_mirror s) (mkTT x y a b) in
  let gradient (c : R -> R -> R -> R -> R) (q d : ttq) :=
    derivable_pt_lim (fun z => c z (t_py q) (t_th1 q) (t_th2 q)) (t_px q) (t_px d) /\
    derivable_pt_lim (fun z => c (t_px q) z (t_th1 q) (t_th2 q)) (t_py q) (t_py d) /\
    derivable_pt_lim (fun z => c (t_px q) (t_py q) z (t_th2 q)) (t_th1 q) (t_th1 d) /\
    derivable_pt_lim (fun z => c (t_px q) (t_py q) (t_th1 q) z) (t_th2 q) (t_th2 d) in
  gradient c q d -> gradient c' (tt_mirror q) (tt_mirror d).
Proof. exact l_C76_guidance_gradient_mirrors. Qed.
Print Assumptions C76_guidance_gradient_mirrors.

(** Non-vacuity: with the default horizon and the four way-points the planner asks for, both demonstrations exist, in
    any world, and have rows. *)
Example C76_demonstrations_exist :
  forall (s : tt_self) (x0 : ttq) dir pref, p_H (ts_p s) = 50%nat -> t_px x0 <> t_px (ts_xg s) ->
  exists rows rows', tt_demo s x0 dir 4 pref = Ok rows /\ tt_demo (tt_world_mirror s) (tt_mirror x0) dir 4 pref = Ok rows' /\ rows <> [].
Proof. exact x_C76_demonstrations_exist. Qed.
