(** * Property theorems (generated from ProofsPicture.v by tools/genprops.py; statements only,
    each closed by [exact]). *)
From Coq Require Import String Reals List ZArith Ascii Lra Lia FinFun.
From Verif Require Import Base BaseFacts Params SpecGeom SpecBodies EnvModel SpecEnv Setup TT2d Rollout Planner Stats SpecStats Anim SpecAnim
  Cache Picture SpecPicture ProofsPlanner ProofsEnv ProofsSetup ProofsAnim ProofsStats.
From Verif Require Import ProofsPicture.
Local Open Scope string_scope.
Local Open Scope list_scope.
Open Scope R_scope.

(** The picture can be drawn iff the path is empty, the robot is the bicycle, or the path has one point per time
    step of the robot's horizon and the start; otherwise ValueError. *)
Theorem C54_drawable :
  forall r path,
  ((exists pic, render_robot r path = Ok pic) <-> path = [] \/ rb_kind r = KBK \/ length path = S (p_H (rb_p r))) /\
  ((forall pic, render_robot r path <> Ok pic) -> render_robot r path = Err ValueError).
Proof. exact l_C54_drawable. Qed.
Print Assumptions C54_drawable.

(** What the picture shows: the given path, the axes of the environment, and the obstacles the collision check of
    this robot uses - rectangles cover exactly the same points, circles have the same centre and radius. *)
Theorem C54_contents :
  forall r path pic, render_robot r path = Ok pic ->
  pc_path pic = path /\ (pc_xlim pic, pc_ylim pic) = (e_xr (rb_env r), e_yr (rb_env r)) /\
  sc_circles (pc_scene pic) = map (fun c => ((c_x c, c_y c), c_r c)) (rb_circ r) /\
  ((forall o, In o (rb_rect r) -> 0 < r_w o /\ 0 < r_h o) -> Forall2 draws (sc_rects (pc_scene pic)) (map obstacle_body (rb_rect r))).
Proof. exact l_C54_contents. Qed.
Print Assumptions C54_contents.

(** Labels of the parking spaces: exactly the unoccupied spaces carry their number, once, at the centre of the space
    as reported by get_parking_space_center; targets are green, others blue. *)
Theorem C54_labels :
  forall r path pic c, render_robot r path = Ok pic -> e_case (rb_env r) = "parking" -> e_parking (rb_env r) = Some c ->
  (forall P n col, In (mkLabel P n col) (pc_labels pic) <->
     (exists i j, numbered c n i j) /\ ~ In n (pk_occ c) /\ get_parking_space_center (rb_env r) n = Ok P /\
     ((In n (pk_tgt c) /\ col = "lightgreen") \/ (~ In n (pk_tgt c) /\ col = "lightblue"))) /\
  NoDup (map lb_num (pc_labels pic)).
Proof. exact l_C54_labels. Qed.
Print Assumptions C54_labels.

(** The lines of the picture are the edges of the parking spaces: a point lies on a line iff it lies on the edge
    of a space. *)
Theorem C54_lines :
  forall r path pic c, render_robot r path = Ok pic -> e_case (rb_env r) = "parking" -> e_parking (rb_env r) = Some c -> proper_lot c ->
  forall P, on_a_line pic P <-> on_space_edge c (fst (e_yr (rb_env r)) + pk_yoff c) P.
Proof. exact l_C54_lines. Qed.
Print Assumptions C54_lines.

(** No number is written over an obstacle: in a parking environment as constructed, with obstacles that fit their
    spaces, the space of every number in the picture is free of circles, inside. *)
Theorem C54_numbered_spaces_free :
  forall w h c e r path pic l, env_init w h "parking" (Some c) = Ok e -> proper_lot c -> pk_occ c <> [] ->
  (forall m, In m (pk_occ c) -> lot_number c m) -> pk_rad c <= pk_w c / 2 -> pk_rad c + 2 <= pk_len c / 2 ->
  rb_env r = e -> rb_circ r = e_circles e -> render_robot r path = Ok pic -> In l (pc_labels pic) ->
  exists i j, numbered c (lb_num l) i j /\ space_interior c (- h / 2 + pk_yoff c) i j (lb_at l) /\
    forall k P, In k (sc_circles (pc_scene pic)) -> space_interior c (- h / 2 + pk_yoff c) i j P -> snd k < SpecGeom.dist P (fst k).
Proof. exact l_C54_numbered_spaces_free. Qed.
Print Assumptions C54_numbered_spaces_free.

(** The picture of a plan made without guidance: it can be drawn iff the robot is the bicycle or the planning horizon
    is the horizon of the robot; its path is the returned trajectory - start and one point per action -, and the
    demonstration is drawn iff it is enabled. *)
Theorem C54_plan_picture :
  forall (Q : Type) (env : penv Q) c rg out r pos demo ref, run_diffusion env (Some c) rg = Ok out ->
  let fig := plan_figure (render_robot r) pos false demo (mkOut out None) ref in
  ((exists pp, fig = Ok pp) <-> rb_kind r = KBK \/ g_Hsample c = p_H (rb_p r)) /\
  (forall pp, fig = Ok pp ->
     render_robot r (map pos (o_traj out)) = Ok (pp_pic pp) /\ pc_path (pp_pic pp) = map pos (o_traj out) /\
     length (pc_path (pp_pic pp)) = S (g_Hsample c) /\ hd_error (pc_path (pp_pic pp)) = Some (pos (st_q (pe_reset env))) /\
     pp_guided pp = [] /\ (demo = false -> pp_demo pp = []) /\ (forall l, demo = true -> ref = Some l -> pp_demo pp = l)).
Proof. exact l_C54_plan_picture. Qed.
Print Assumptions C54_plan_picture.

(** A plan over another horizon than the robot's is computed, but drawing it ends with ValueError, for every class
    except the bicycle. *)
Theorem C54_other_horizon_refuted :
  forall (Q : Type) (env : penv Q) c rg r pos demo ref, rb_kind r <> KBK -> g_Hsample c <> p_H (rb_p r) ->
  exists out, run_diffusion env (Some c) rg = Ok out /\
    plan_figure (render_robot r) pos false demo (mkOut out None) ref = Err ValueError.
Proof. exact l_C54_other_horizon_refuted. Qed.
Print Assumptions C54_other_horizon_refuted.

(** With guidance the vehicle path in the picture is the recomputed unguided trajectory; the returned trajectory is
    the dashed line. *)
Theorem C54_guided_plan_picture :
  forall (Q : Type) rend (pos : Q -> pt) demo res us ref pp,
  plan_figure rend pos true demo (mkOut res (Some us)) ref = Ok pp ->
  rend (map pos us) = Ok (pp_pic pp) /\ pp_guided pp = map pos (o_traj res).
Proof. exact l_C54_guided_plan_picture. Qed.
Print Assumptions C54_guided_plan_picture.

(** The printed layout has one line per row of the lot, the highest numbers on top, between lines of dashes; the
    symbol of a space is T for a target, O for an occupied space that is no target, E otherwise. *)
Theorem C54_layout :
  forall e c, e_case e = "parking" -> e_parking e = Some c -> (0 <= pk_rows c)%Z -> (0 <= pk_cols c)%Z ->
  exists lines, print_parking_layout e = Ok lines /\ Z.of_nat (length lines) = (3 + 2 * pk_rows c)%Z /\
  forall n i j, numbered c n i j -> exists line, nth_error lines (Z.to_nat (3 + 2 * (pk_rows c - 1 - i))) = Some line /\
    (String.get (Z.to_nat (2 + 4 * j)) line = Some "T"%char <-> In n (pk_tgt c)) /\
    (String.get (Z.to_nat (2 + 4 * j)) line = Some "O"%char <-> In n (pk_occ c) /\ ~ In n (pk_tgt c)) /\
    (String.get (Z.to_nat (2 + 4 * j)) line = Some "E"%char <-> ~ In n (pk_occ c) /\ ~ In n (pk_tgt c)).
Proof. exact l_C54_layout. Qed.
Print Assumptions C54_layout.

(** The marker of a trial is where its vehicle starts, for every class. *)
Theorem C55_marker_is_start :
  forall g t r, create_trial_environment g t = Ok r -> start_point r = Ok (trial_start (g_l1 g) t).
Proof. exact l_C55_marker_is_start. Qed.
Print Assumptions C55_marker_is_start.

(** The heat map of any list of results, drawn with the environment of any trial: green circles at the starts of the
    successful trials, red crosses at those of the others, each trial once; the success rate in the corner is the
    fraction of successful trials (0 without trials); background: the parking lot without a path. *)
Theorem C55_heat_map :
  forall g t0 r results, create_trial_environment g t0 = Ok r ->
  exists r' hm, heat_map r results = Ok (r', hm) /\
    hm_green hm = map (trial_start (g_l1 g)) (ended true results) /\
    hm_red hm = map (trial_start (g_l1 g)) (ended false results) /\
    hm_total hm = length results /\ (length (hm_green hm) + length (hm_red hm) = hm_total hm)%nat /\
    (results <> [] -> hm_rate hm = fraction snd results) /\ (results = [] -> hm_rate hm = 0) /\
    render_robot r [] = Ok (hm_pic hm).
Proof. exact l_C55_heat_map. Qed.
Print Assumptions C55_heat_map.

(** Drawing the heat map moves the environment to the start of the last trial; drawn with the environment of that
    trial, as run_statistical_evaluation does, it leaves the environment as it was. *)
Theorem C55_environment_kept :
  forall g t ok rs r, create_trial_environment g t = Ok r -> exists hm, heat_map r (rs ++ [(t, ok)]) = Ok (r, hm).
Proof. exact l_C55_environment_kept. Qed.
Print Assumptions C55_environment_kept.

(** Used with the environment of another trial (the tuner passes the first one) the object is left at the start of
    the last trial. *)
Theorem C55_environment_moved :
  forall g t0 t ok rs r, create_trial_environment g t0 = Ok r ->
  exists r' hm, heat_map r (rs ++ [(t, ok)]) = Ok (r', hm) /\ start_point r' = Ok (trial_start (g_l1 g) t) /\
    rb_xg r' = rb_xg r /\ rb_p r' = rb_p r /\ rb_circ r' = rb_circ r /\ rb_rect r' = rb_rect r.
Proof. exact l_C55_environment_moved. Qed.
Print Assumptions C55_environment_moved.

(** run_statistical_evaluation with a heat map, one-trailer configurations: as soon as one start is found it
    completes; the markers are the starts of the sampled trials, coloured by their verdicts; the environment used is
    left at the last trial. If all requested starts were found, the rate shown is the reported success rate. *)
Theorem C55_evaluation :
  forall g proj guide logpd rx c rg ng num seed,
  g_name g = "tt2d" -> g_trailers g <> 0%Z -> (g_trailers g < 2)%Z -> (0 < num)%nat ->
  fst (sample_initial_conditions ng num seed) <> [] ->
  exists results st r hm, tt_statistics g proj guide logpd rx c rg ng num seed = Ok (results, st) /\
    tt_evaluation_with_heat_map g proj guide logpd rx c rg ng num seed = Ok (st, r, hm) /\
    let trials := combine (fst (sample_initial_conditions ng num seed)) (map v_success results) in
    hm_green hm = map (trial_start (g_l1 g)) (ended true trials) /\ hm_red hm = map (trial_start (g_l1 g)) (ended false trials) /\
    (length (hm_green hm) + length (hm_red hm) = length (fst (sample_initial_conditions ng num seed)))%nat /\
    length (hm_green hm) = sr_successful st /\
    (length (fst (sample_initial_conditions ng num seed)) = num -> hm_rate hm = sr_success_rate st) /\
    (exists t, create_trial_environment g t = Ok r /\ hd_error (rev (fst (sample_initial_conditions ng num seed))) = Some t).
Proof. exact l_C55_evaluation. Qed.
Print Assumptions C55_evaluation.

(** The video of trial i shows the markers of exactly the trials before it, coloured by their verdicts. *)
Theorem C55_progress_markers :
  forall trials, length (progress_markers trials) = length trials /\
  forall i, (i < length trials)%nat ->
    nth_error (progress_markers trials) i = Some (marked true (firstn i trials), marked false (firstn i trials)).
Proof. exact l_C55_progress_markers. Qed.
Print Assumptions C55_progress_markers.

(** If no start is accepted - possible with draws in the documented ranges, for any number of trials - the evaluation
    reports its statistics, and asking for the heat map ends with UnboundLocalError. *)
Theorem C55_no_start_refuted :
  uniform_in_range unlucky_rng /\
  forall g proj guide logpd rx c rg num seed, (0 < num)%nat ->
  (exists st, tt_statistics g proj guide logpd rx c rg unlucky_rng num seed = Ok ([], st)) /\
  tt_evaluation_with_heat_map g proj guide logpd rx c rg unlucky_rng num seed = Err UnboundLocalError.
Proof. exact l_C55_no_start_refuted. Qed.
Print Assumptions C55_no_start_refuted.

(** With fewer starts found than trials requested the rate in the heat map is not the reported one: one success in
    one trial of ten requested is shown as 1 and reported as 1/10. *)
Theorem C55_same_rate_refuted :
  forall g t r, create_trial_environment g t = Ok r ->
  exists r' hm st, heat_map r [(t, true)] = Ok (r', hm) /\ hm_rate hm = 1 /\
    summarize 10 [mkVerdict true 1 1 1 false false] = Ok st /\ sr_success_rate st = 1 / 10.
Proof. exact l_C55_same_rate_refuted. Qed.
Print Assumptions C55_same_rate_refuted.

(** The hypotheses are met: the trial robots of the evaluation are drawn with a parking lot of two rows and eight
    columns, four of whose spaces are unoccupied. *)
Example C54_evaluation_scene :
  exists r pic, create_trial_environment (default_env_args "tt2d" "parking" 1) (mkTrial 0 3 0 0 0) = Ok r /\
    render_robot r [] = Ok pic /\ e_case (rb_env r) = "parking" /\ e_parking (rb_env r) = Some stat_parking /\
    proper_lot stat_parking /\ length (pc_lines pic) = 12%nat /\ map lb_num (pc_labels pic) = [4; 8; 12; 16]%Z /\
    map lb_color (pc_labels pic) = ["lightgreen"; "lightblue"; "lightgreen"; "lightblue"].
Proof. exact x_C54_evaluation_scene. Qed.
