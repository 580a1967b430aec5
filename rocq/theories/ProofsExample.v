(** * ProofsExample: the example script tests/test_mbd.py. *)
From Coq Require Import String.
From Verif Require Import Base BaseFacts Params Geom TT2d Bicycle NTrailer Acc Rollout Instances EnvModel Setup Stats Config Tune Planner
  Harness Recipes SpecRecipes SpecHarness SpecGeom SpecBodies SpecAcc SpecEnv SpecStats SpecDefaults SpecDyn SpecTune
  ProofsGeom ProofsBodies ProofsRobots ProofsKin ProofsSafety ProofsAcc ProofsEnv ProofsSetup ProofsDefaults ProofsStats ProofsPlanner ProofsPicture
  ProofsHarness ProofsHarnessRun ProofsHarnessJudge ProofsRecipes ProofsReadme.
Local Open Scope string_scope.
Local Open Scope list_scope.
Open Scope R_scope.

(** ** The example tests/test_mbd.py *)
Definition example_args : env_args :=
  timed (default_env_args (text example_config "env_name") (text example_config "case") 1)
    (num example_config "dt") (Z.to_nat (int example_config "Hsample"))
    (Some (mkEnv "navigation" (- 32 / 2, 32 / 2) (- 32 / 2, 32 / 2) None [mkCircle 0 0 0] [])).
Definition example_edit (r0 : robot) : Res robot :=
  andthen (set_rectangle_obs r0 example_rects "center" 0) (fun r1 =>
  andthen (set_circle_obs r1 example_circles 0) (fun r2 =>
  andthen (set_init_pos r2 (mkInit (Some (-10)) (Some 5) None None 0 0 0 0)) (fun r3 =>
  andthen (set_goal_pos r3 (mkGoal (Some 5) (Some (-5)) (Some (- PI / 2)) (Some (- PI / 2)) 0 0)) (fun r4 => Ok r4)))).
Lemma example_shape : example_setup = match get_env example_args with Err x => Err x | Ok r0 => example_edit r0 end.
Proof. reflexivity. Qed.
Lemma example_edited : forall r0, rb_kind r0 = KACC -> e_case (rb_env r0) = "navigation" ->
  exists r, example_edit r0 = Ok r /\ rb_kind r = KACC /\ rb_p r = rb_p r0 /\ rb_amax r = rb_amax r0 /\ rb_omax r = rb_omax r0 /\
  e_xr (rb_env r) = e_xr (rb_env r0) /\
  rb_circ r = [mkCircle (15/2) (-2) 1; mkCircle (15/2) (-8) 2; mkCircle (17/2) (-5) (3/2); mkCircle (17/2) 7 (7/2)] /\
  rb_rect r = [mkRect (3/2) (-5) 1 10 0; mkRect 5 (-11) 9 1 0; mkRect (-7/2) (-5) 1 10 (- PI / 4); mkRect (-7/2) 13 (6/5) 10 (PI / 4);
    mkRect (-19/2) 13 (4/5) 5 (- PI / 6)] /\
  rb_x0 r = Some [-10; 5; 0; 0; 0; 0] /\ rb_xg r = Some [5; -5; - PI / 2; - PI / 2; 0; 0].
Proof.
  intros r0 K C. unfold example_edit.
  assert (R : convert_all (convert_rect "center" 0) example_rects = Ok [mkRect (3/2) (-5) 1 10 0; mkRect 5 (-11) 9 1 0; mkRect (-7/2) (-5) 1 10 (- PI / 4);
    mkRect (-7/2) 13 (6/5) 10 (PI / 4); mkRect (-19/2) 13 (4/5) 5 (- PI / 6)]).
  { unfold example_rects. cbn [convert_all convert_rect String.eqb Ascii.eqb Bool.eqb].
    replace (5 - 5/2 - 1) with (3/2) by lra. replace (-5 - 5 - 1) with (-11) by lra. replace (5 - 5/2 - 6) with (-7/2) by lra.
    replace (-5 + 18) with 13 by lra. replace (5 - 5/2 - 12) with (-19/2) by lra. replace (1 + 0 * 2) with 1 by lra. replace (5 * 2 + 0 * 2) with 10 by lra.
    replace (5 / 2 * 2 + 4 + 0 * 2) with 9 by lra. replace (12/10 + 0 * 2) with (6/5) by lra. replace (8/10 + 0 * 2) with (4/5) by lra.
    replace (5 + 0 * 2) with 5 by lra. reflexivity. }
  unfold set_rectangle_obs, env_set_rects. rewrite R. cbv beta iota zeta. cbn [andthen].
  assert (Q : convert_all (convert_circle 0) example_circles = Ok [mkCircle (15/2) (-2) 1; mkCircle (15/2) (-8) 2; mkCircle (17/2) (-5) (3/2); mkCircle (17/2) 7 (7/2)]).
  { unfold example_circles. cbn [convert_all convert_circle]. replace (5 + 5/2 + 0) with (15/2) by lra. replace (5 + 5/2 + 1) with (17/2) by lra.
    replace (-5 + 3) with (-2) by lra. replace (-5 - 3) with (-8) by lra. replace (-5 + 12) with 7 by lra. replace (1 + 0) with 1 by lra.
    replace (2 + 0) with 2 by lra. replace (3/2 + 0) with (3/2) by lra. replace (7/2 + 0) with (7/2) by lra. reflexivity. }
  unfold set_circle_obs, env_set_circles. rewrite Q. cbv beta iota zeta. cbn [andthen].
  unfold set_init_pos, base_init_pos. cbn [rb_env rb_p rb_kind e_case]. rewrite C, K. cbn [String.eqb Ascii.eqb Bool.eqb i_x i_y i_dx i_dy i_th1 i_th2 i_v i_delta].
  unfold set_goal_pos. destruct (rb_xg r0); cbn [andthen app set_x0 rb_kind rb_xg o_x o_y o_th1 o_th2 o_v o_delta default];
  eexists; (split; [reflexivity|]); cbn [set_xg set_x0 rb_kind rb_p rb_amax rb_omax rb_circ rb_rect rb_x0 rb_xg rb_env e_xr]; repeat split.
Qed.
Lemma example_env : exists r0, get_env example_args = Ok r0.
Proof.
  unfold get_env. change (g_name example_args) with "acc_tt2d". cbn [String.eqb Ascii.eqb Bool.eqb].
  unfold acc_init. change (g_amax example_args) with 2.
  assert (T : exists r, tt_init KACC (kwargs example_args) 1 = Ok r) by (eexists; reflexivity). destruct T as [r ->].
  unfold Reqb. destruct (Req_EM_T 2 0) as [H|H]; [lra|]. eexists. reflexivity.
Qed.
Lemma example_char : forall r, example_setup = Ok r -> exists r0, get_env example_args = Ok r0 /\ rb_kind r0 = KACC /\ e_case (rb_env r0) = "navigation" /\
  e_xr (rb_env r0) = (- 32 / 2, 32 / 2) /\ example_edit r0 = Ok r.
Proof.
  intros r H. rewrite example_shape in H. destruct example_env as [r0 E]. rewrite E in H. exists r0.
  destruct (l_C33_class_and_parameters _ _ E) as (_ & _ & _ & _ & KA & _ & _ & _ & EE). specialize (EE _ eq_refl).
  split; [exact E|]. split; [apply KA; reflexivity|]. rewrite EE. auto.
Qed.
(** What the example plans for: the acceleration-controlled vehicle, a horizon of 50 steps of 0.25 s, five rectangles
    and four circles and nothing else, a start at (-10, 5) at rest, and a goal at (5, -5) at rest. *)
Lemma l_C71_setup :
  (exists r, example_setup = Ok r) /\
  forall r, example_setup = Ok r ->
  rb_kind r = KACC /\ p_dt (rb_p r) = 1/4 /\ p_H (rb_p r) = 50%nat /\ rb_amax r = 2 /\ rb_omax r = 1 /\
  p_vmax (rb_p r) = 3 /\ p_dmax (rb_p r) = 55 * PI / 180 /\ p_phi_max (rb_p r) = 40 * PI / 180 /\
  p_sh_coll (rb_p r) = true /\ p_sh_hitch (rb_p r) = true /\ p_proj (rb_p r) = false /\ p_guid (rb_p r) = false /\
  rb_circ r = [mkCircle (15/2) (-2) 1; mkCircle (15/2) (-8) 2; mkCircle (17/2) (-5) (3/2); mkCircle (17/2) 7 (7/2)] /\
  rb_rect r = [mkRect (3/2) (-5) 1 10 0; mkRect 5 (-11) 9 1 0; mkRect (-7/2) (-5) 1 10 (- PI / 4); mkRect (-7/2) 13 (6/5) 10 (PI / 4);
    mkRect (-19/2) 13 (4/5) 5 (- PI / 6)] /\
  rb_x0 r = Some [-10; 5; 0; 0; 0; 0] /\ rb_xg r = Some [5; -5; - PI / 2; - PI / 2; 0; 0].
Proof.
  split.
  - rewrite example_shape. destruct example_env as [r0 E]. rewrite E. 
    destruct (l_C33_class_and_parameters _ _ E) as (_ & _ & _ & _ & KA & _ & _ & _ & EE). specialize (EE _ eq_refl).
    destruct (example_edited r0) as (r & R & _); [apply KA; reflexivity|rewrite EE; reflexivity|eauto].
  - intros r H. destruct (example_char r H) as (r0 & E & K & C & _ & X). destruct (example_edited r0 K C) as (r' & X' & Q1 & Q2 & Q3 & Q4 & _ & Q5 & Q6 & Q7 & Q8).
    rewrite X in X'. injection X' as <-. rewrite Q2, Q3, Q4.
    destruct (l_C33_class_and_parameters _ _ E) as (A & _ & _ & _ & _ & _ & _ & AM & _). destruct (AM K) as [-> ->]. unfold as_requested in A.
    destruct A as (A1 & A2 & _ & _ & A5 & _ & A7 & A8 & A9 & _ & _ & _ & _ & _ & _ & _ & _ & _ & _ & _ & _ & _ & _ & _ & _ & A26 & A27 & _ & A29 & _).
    split; [exact Q1|]. split; [exact A1|]. split; [exact A2|]. split; [reflexivity|]. split; [reflexivity|]. split; [exact A26|]. split; [exact A27|]. split; [exact A29|].
    do 4 (split; [assumption|]). auto.
Qed.

Lemma example_dims : forall r, example_setup = Ok r -> usual_dims (rb_p r).
Proof.
  intros r H. destruct (example_char r H) as (r0 & E & K & C & _ & X). destruct (example_edited r0 K C) as (r' & X' & _ & Q2 & _).
  rewrite X in X'. injection X' as <-. rewrite Q2. destruct (l_C33_class_and_parameters _ _ E) as (A & _). unfold as_requested in A.
  destruct A as (_ & _ & _ & _ & _ & _ & _ & _ & _ & _ & _ & _ & _ & _ & _ & _ & A17 & A18 & A19 & A20 & A21 & A22 & A23 & A24 & A25 & _ & _ & _ & A29 & _).
  unfold example_args in *. cbn [timed default_env_args g_l1 g_l2 g_lh g_lf1 g_lr g_lf2 g_lr2 g_trac_w g_trail_w] in *. unfold usual_dims. rewrite A29. lra.
Qed.
(** A body turned by any angle stays within half its sides' sum of its centre. *)
Lemma body_reach : forall o P, solid (obstacle_body o) P -> Rabs (snd P - r_y o) <= r_w o / 2 + r_h o / 2.
Proof.
  intros o P (a & b & Ha & Hb & ->). cbn [obstacle_body rg_back rg_front rg_half rg_org rg_ang at_frame fst snd] in *. unfold at_frame. cbn [fst snd].
  match goal with |- Rabs ?e <= _ => replace e with (a * sin (r_ang o) + b * cos (r_ang o)) by ring end.
  eapply Rle_trans; [apply Rabs_triang|]. apply Rplus_le_compat.
  - replace (r_w o / 2) with (r_w o / 2 * 1) by ring. apply abs_mult_le; apply Rabs_le; [lra|apply SIN_bound].
  - replace (r_h o / 2) with (r_h o / 2 * 1) by ring. apply abs_mult_le; apply Rabs_le; [lra|apply COS_bound].
Qed.
Lemma level_x : forall P b f h Q, solid (mkRegion P 0 b f h) Q -> fst P + b <= fst Q <= fst P + f /\ snd P - h <= snd Q <= snd P + h.
Proof.
  intros P b f h Q (u & v & Hu & Hv & ->). cbn [rg_back rg_front rg_half rg_org rg_ang] in *. unfold at_frame. rewrite cos_0, sin_0. cbn [fst snd]. lra.
Qed.
(** The example starts in a safe pose and at rest. *)
Lemma l_C71_start_safe :
  forall r, example_setup = Ok r -> starts_safe r.
Proof.
  intros r H. pose proof (example_dims r H) as (L1 & L2 & LH & LF & LR & LF2 & LR2 & TW & TW2 & PH).
  destruct l_C71_setup as [_ S]. destruct (S r H) as (K & _ & _ & _ & _ & _ & _ & _ & _ & _ & _ & _ & CI & RE & X0 & _). clear S.
  unfold starts_safe. rewrite K. exists (mkTT (-10) 5 0 0). split; [exact X0|]. split.
  2:{ unfold tt_hitch_ok. cbn [t_th1 t_th2]. apply hitch_ok_zero. rewrite PH. pose proof PI_RGT_0. lra. }
  assert (B : forall g P, In g (tt_bodies (rb_p r) (mkTT (-10) 5 0 0)) -> solid g P -> fst P <= -5 /\ 15/4 <= snd P <= 25/4).
  { intros g P [<-|[<-|[]]] HP; unfold tractor_body, trailer_body in HP; cbn [t_px t_py t_th1 t_th2] in HP; apply level_x in HP; unfold ahead in HP; cbn [fst snd] in HP;
      rewrite ?cos_0, ?sin_0, ?L1, ?L2, ?LH, ?LF, ?LR, ?LF2, ?LR2, ?TW, ?TW2 in HP; lra. }
  split.
  - intros g k Hg Hk P HP. apply outline_solid' in HP. apply (B g P Hg) in HP.
    destruct (Rlt_le_dec (c_r k) (SpecGeom.dist P (c_x k, c_y k))) as [D|D]; [exact D|exfalso].
    apply disc_box in D. cbn [fst snd] in D. rewrite CI in Hk. destruct Hk as [<-|[<-|[<-|[<-|[]]]]]; cbn [c_x c_y c_r] in D; lra.
  - intros g o Hg Ho P [H1 H2]. apply (B g P Hg) in H1. rewrite RE in Ho. pose proof (body_reach o P H2) as Y. apply Rabs_le_both in Y.
    destruct Ho as [<-|[<-|[<-|[<-|[<-|[]]]]]]; cbn [r_x r_y r_w r_h r_ang] in Y; lra.
Qed.

(** Planning returns 51 states and 50 controls for all random numbers; the first two states are the start. (That the
    later ones are safe does not hold in general: C23.) *)
Lemma l_C71_run :
  forall r, example_setup = Ok r ->
  exists x0 xg, rb_x0 r = Some [t_px x0; t_py x0; t_th1 x0; t_th2 x0; 0; 0] /\ rb_xg r = Some [t_px xg; t_py xg; t_th1 xg; t_th2 xg; 0; 0] /\
    tt_safe (rb_p r) (rb_circ r) (rb_rect r) x0 /\
    let s := mkAccSelf (mkTTSelf (rb_p r) (rb_circ r) (rb_rect r) xg) (rb_amax r) (rb_omax r) in
    forall proj guide logpd rx rg, exists out,
    run_diffusion (acc_penv s (mkAcc x0 0 0) proj guide logpd rx) (Some (planner_cfg example_config)) rg = Ok out /\
    length (o_Y0 out) = 50%nat /\ length (o_traj out) = 51%nat /\
    nth_error (o_traj out) 0 = Some (mkAcc x0 0 0) /\
    (forall q, nth_error (o_traj out) 1 = Some q -> a_q q = x0).
Proof.
  intros r H. pose proof (l_C71_start_safe r H) as SS.
  destruct l_C71_setup as [_ S]. destruct (S r H) as (K & _ & _ & _ & _ & VM & DM & _ & _ & _ & PJ & GD & _ & _ & X0 & XG). clear S.
  unfold starts_safe in SS. rewrite K in SS. destruct SS as (x0 & X0' & S0). exists x0, (mkTT 5 (-5) (- PI / 2) (- PI / 2)).
  split; [exact X0'|]. split; [exact XG|]. split; [exact S0|]. cbv zeta. intros proj guide logpd rx rg.
  set (s := mkAccSelf _ _ _).
  destruct (run_lengths (acc_penv s (mkAcc x0 0 0) proj guide logpd rx) example_config rg) as (out & E & LY & LT). exists out. do 3 (split; [assumption|]).
  assert (V1 : 0 <= p_vmax (as_p s)) by (change (p_vmax (as_p s)) with (p_vmax (rb_p r)); rewrite VM; lra).
  assert (V2 : 0 <= p_dmax (as_p s)) by (change (p_dmax (as_p s)) with (p_dmax (rb_p r)); rewrite DM; pose proof PI_RGT_0; lra).
  injection E as <-. unfold run_diffusion_core in *. destruct (reverse_loop _ _ _ _ _ _) as [Ys Yf]. cbn [o_Y0 o_traj] in *.
  change (Planner.g_guid (planner_cfg example_config)) with false in *. set (Y0 := snd (rollout_term _ Yf)) in *. clearbody Y0. unfold trajectory_states. split; [reflexivity|].
  intros q Hq. destruct Y0 as [|u us]; [discriminate|]. cbn [replay nth_error] in Hq. injection Hq as <-.
  change (pe_step (acc_penv s (mkAcc x0 0 0) proj guide logpd rx)) with (acc_step s proj guide).
  change (pe_reset (acc_penv s (mkAcc x0 0 0) proj guide logpd rx)) with (reset_state (mkAcc x0 0 0)).
  destruct (l_C23_at_rest_stays_safe_partial s proj guide (reset_state (mkAcc x0 0 0)) u PJ GD V1 V2 eq_refl) as [R _]. exact R.
Qed.

(** C71 (finding): the goal stands on an obstacle: no safe pose has its tractor there. *)
Lemma l_C71_goal_safe_refuted :
  forall r, example_setup = Ok r ->
  exists goal, rb_xg r = Some [t_px goal; t_py goal; t_th1 goal; t_th2 goal; 0; 0] /\
    forall q, t_px q = t_px goal -> t_py q = t_py goal -> t_th1 q = t_th1 goal -> ~ tt_safe (rb_p r) (rb_circ r) (rb_rect r) q.
Proof.
  intros r H. pose proof (example_dims r H) as (L1 & L2 & LH & LF & LR & LF2 & LR2 & TW & TW2 & PH).
  destruct l_C71_setup as [_ S]. destruct (S r H) as (K & _ & _ & _ & _ & _ & _ & _ & _ & _ & _ & _ & CI & RE & X0 & XG). clear S.
  exists (mkTT 5 (-5) (- PI / 2) (- PI / 2)). split; [exact XG|]. cbn [t_px t_py t_th1 t_th2]. intros q Q1 Q2 Q3 [[S _] _].
  specialize (S (tractor_body (rb_p r) (t_px q) (t_py q) (t_th1 q)) (mkCircle (15/2) (-8) 2) (or_introl eq_refl)).
  rewrite CI in S. specialize (S (or_intror (or_introl eq_refl)) (6, -8)).
  assert (OU : outline (tractor_body (rb_p r) (t_px q) (t_py q) (t_th1 q)) (6, -8)).
  { rewrite Q1, Q2, Q3. exists 3, 1. unfold tractor_body. cbn [rg_back rg_front rg_half rg_org rg_ang]. rewrite at_down, L1, LF, LR, TW. cbn [fst snd].
    split; [lra|]. split; [lra|]. split; [right; right; right; lra|f_equal; lra]. }
  specialize (S OU). unfold SpecGeom.dist, dist2 in S. cbn [fst snd c_x c_y c_r] in S.
  replace ((6 - 15/2) * (6 - 15/2) + (-8 - -8) * (-8 - -8)) with (3/2 * (3/2)) in S by lra. rewrite sqrt_square in S; lra.
Qed.

(** C71 (finding): the start sticks out of the 32 m by 32 m area the example asks for. *)
Lemma l_C71_start_in_area_refuted :
  forall r, example_setup = Ok r ->
  exists q P, rb_x0 r = Some [t_px q; t_py q; t_th1 q; t_th2 q; 0; 0] /\
    (exists g, In g (tt_bodies (rb_p r) q) /\ solid g P) /\ is_in_bounds (rb_env r) (fst P) (snd P) = false.
Proof.
  intros r H. pose proof (example_dims r H) as (L1 & L2 & LH & LF & LR & LF2 & LR2 & TW & TW2 & PH).
  destruct (example_char r H) as (r0 & E & K & C & XR & X). destruct (example_edited r0 K C) as (r' & X' & _ & _ & _ & _ & XE & _ & _ & X0 & _).
  rewrite X in X'. injection X' as <-. exists (mkTT (-10) 5 0 0), (-17, 5). split; [exact X0|]. split.
  - eexists. split; [right; left; reflexivity|]. exists (-17 + 281/20), 0. cbn [t_px t_py t_th1 t_th2]. unfold trailer_body, at_frame, ahead.
    cbn [rg_back rg_front rg_half rg_org rg_ang fst snd]. rewrite cos_0, sin_0, L2, LH, LF2, LR2, TW2. split; [lra|]. split; [lra|]. f_equal; lra.
  - unfold is_in_bounds. rewrite XE, XR. cbn [fst snd]. destruct (Rleb_spec (-32/2) (-17)) as [A|A]; [lra|reflexivity].
Qed.
