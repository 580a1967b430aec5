[
{
"id": "B1",
"file": "Base",
"old": "Rmin (Rmax x lo) hi",
"new": "Rmax (Rmin x lo) hi",
"definition": "clip",
"edit": "min and max swapped",
"breaks": [
"C08",
"C10"
]
},
{
"id": "B2",
"file": "Base",
"old": "fmod (a + PI) (2 * PI) - PI",
"new": "fmod (a + PI) (2 * PI)",
"definition": "wrap_pi",
"edit": "result not shifted back to (-pi, pi)",
"breaks": [
"C06",
"C16",
"C17"
]
},
{
"id": "B3",
"file": "Base",
"old": "(clip (fst a) (-1) 1, clip (snd a) (-1) 1)",
"new": "(clip (fst a) (-1) 1, snd a)",
"definition": "clip_act",
"edit": "steering not clipped",
"breaks": [
"C08",
"C10"
]
},
{
"id": "B4",
"file": "Base",
"old": "axpy x (dt / 6) (axpy (axpy (axpy k1 2 k2) 2 k3) 1 k4)",
"new": "axpy x (dt / 6) (axpy (axpy (axpy k1 2 k2) 2 k3) 2 k4)",
"definition": "rk4",
"edit": "weight of k4 is 2",
"breaks": [
"C20"
]
},
{
"id": "B5",
"file": "Base",
"old": "Rsum l / INR (length l)",
"new": "Rsum l / INR (length l - 1)",
"definition": "Rmean",
"edit": "divides by n-1",
"breaks": [
"C13",
"C15"
]
},
{
"id": "P1",
"file": "Params",
"old": "(fst u * p_vmax p, snd u * p_dmax p)",
"new": "(fst u * p_dmax p, snd u * p_vmax p)",
"definition": "input_scaler",
"edit": "speed and steering limits swapped",
"breaks": [
"C08"
]
},
{
"id": "P2",
"file": "Params",
"old": "where_ (p_sh_hitch p && hitch_violation) q q_shielded",
"new": "q_shielded",
"definition": "shielded_rollout",
"edit": "hitch shield dropped",
"breaks": [
"C01",
"C02"
]
},
{
"id": "P3",
"file": "Params",
"old": "where_ (p_sh_coll p && obstacle_collision) q q_proposed",
"new": "where_ (p_sh_hitch p && obstacle_collision) q q_proposed",
"definition": "shielded_rollout",
"edit": "collision shield governed by the hitch flag",
"breaks": [
"C02"
]
},
{
"id": "P4",
"file": "Params",
"old": "where_ (Rltb v 0) (w * Rabs v) 0",
"new": "where_ (Rltb 0 v) (w * Rabs v) 0",
"definition": "preference_penalty",
"edit": "forward preference penalises forward motion",
"breaks": [
"C18"
]
},
{
"id": "P5",
"file": "Params",
"old": "where_ (p_sh_hitch p && hitch_violation) q q_shielded",
"new": "where_ (p_sh_hitch p && hitch_violation) q q_proposed",
"definition": "shielded_rollout",
"edit": "second shield overwrites the first",
"breaks": [
"C01",
"C02"
]
},
{
"id": "P6",
"file": "Params",
"old": "(q_proposed, coll q_proposed, hitch q_proposed)",
"new": "(q_proposed, hitch q_proposed, coll q_proposed)",
"definition": "step_without_shield",
"edit": "the two verdicts swapped",
"breaks": [
"C19"
]
},
{
"id": "P7",
"file": "Params",
"old": "mkState x0 x0 0 0 (0, 0) false",
"new": "mkState x0 x0 0 0 (0, 0) true",
"definition": "reset_state",
"edit": "backup flag set by reset",
"breaks": [
"C44"
]
},
{
"id": "P8",
"file": "Params",
"old": "Definition phi_max_const : R := 40 * PI / 180",
"new": "Definition phi_max_const : R := 45 * PI / 180",
"definition": "phi_max_const",
"edit": "hitch limit 45 degrees",
"breaks": [
"C33"
]
},
{
"id": "P9",
"file": "Params",
"old": "let q_shielded := where_ (p_sh_coll p && obstacle_collision) q q_proposed in",
"new": "let q_shielded := where_ (p_sh_coll p && obstacle_collision && negb hitch_violation) q q_proposed in",
"definition": "shielded_rollout",
"edit": "collision ignored when the hitch is violated too",
"breaks": [
"C02"
]
},
{
"id": "G1",
"file": "Geom",
"old": "lx * cos ang + ly * (- sin ang) + cx",
"new": "lx * cos ang + ly * sin ang + cx",
"definition": "box_corner",
"edit": "rotation sign",
"breaks": [
"C04",
"C05",
"C47"
]
},
{
"id": "G2",
"file": "Geom",
"old": "let t := clip proj 0 1 in",
"new": "let t := proj in",
"definition": "edge_dist_sq",
"edit": "projection on the edge not clipped to the segment",
"breaks": [
"C05"
]
},
{
"id": "G3",
"file": "Geom",
"old": "Rleb (Rmin_of dist_sqs) (radius * radius)",
"new": "Rltb (Rmin_of dist_sqs) (radius * radius)",
"definition": "rect_circle_collision",
"edit": "touching not reported",
"breaks": [
"C05"
]
},
{
"id": "G4",
"file": "Geom",
"old": " || Rltb (project_max c2 axis) (project_min c1 axis)",
"new": " || Rltb (project_max c2 axis) (project_max c1 axis)",
"definition": "axis_separates",
"edit": "min replaced by max",
"breaks": [
"C04"
]
},
{
"id": "G5",
"file": "Geom",
"old": "let all_axes := get_axes c1 ++ get_axes c2 in",
"new": "let all_axes := get_axes c1 ++ get_axes c1 in",
"definition": "rect_rect_collision",
"edit": "only the axes of the first body",
"breaks": [
"C04"
]
},
{
"id": "G6",
"file": "Geom",
"old": "box_corners (r_x o) (r_y o) (r_ang o) (r_w o / 2) (r_h o / 2)",
"new": "box_corners (r_x o) (r_y o) (r_ang o) (r_h o / 2) (r_w o / 2)",
"definition": "obs_corners",
"edit": "width and height swapped",
"breaks": [
"C04"
]
},
{
"id": "G7",
"file": "Geom",
"old": "map2 psub (roll1 corners) corners",
"new": "map2 psub corners (roll1 corners)",
"definition": "edges_of",
"edit": "edges reversed",
"breaks": [
"C05"
]
},
{
"id": "G8",
"file": "Geom",
"old": "Rleb (Rmin_of dist_sqs) (radius * radius)",
"new": "Rleb (Rmin_of dist_sqs) radius",
"definition": "rect_circle_collision",
"edit": "radius not squared",
"breaks": [
"C05"
]
},
{
"id": "G9",
"file": "Geom",
"old": "(c_x c, c_y c) (c_r c)",
"new": "(c_y c, c_x c) (c_r c)",
"definition": "hits_circle",
"edit": "circle coordinates swapped",
"breaks": [
"C05",
"C47"
]
},
{
"id": "T1",
"file": "TT2d",
"old": "mkTT (v * cos (t_th1 x))\n       (v * sin (t_th1 x))",
"new": "mkTT (v * sin (t_th1 x))\n       (v * cos (t_th1 x))",
"definition": "tt_dyn",
"edit": "cos and sin swapped",
"breaks": [
"C20",
"C45"
]
},
{
"id": "T2",
"file": "TT2d",
"old": "- (p_lh p / p_l1 p) * cos (t_th1 x - t_th2 x) * tan delta",
"new": "+ (p_lh p / p_l1 p) * cos (t_th1 x - t_th2 x) * tan delta",
"definition": "tt_dyn",
"edit": "sign of the hitch term",
"breaks": [
"C20"
]
},
{
"id": "T3",
"file": "TT2d",
"old": "5/10 * (p_lf2 p - p_lr2 p) - p_l2 p) * cos",
"new": "5/10 * (p_lr2 p - p_lf2 p) - p_l2 p) * cos",
"definition": "tt_trailer_corners",
"edit": "overhangs swapped in x only",
"breaks": [
"C04",
"C47"
]
},
{
"id": "T4",
"file": "TT2d",
"old": "Rltb (p_phi_max p) (Rabs hitch_angle)",
"new": "Rleb (p_phi_max p) (Rabs hitch_angle)",
"definition": "tt_hitch",
"edit": "limit itself rejected",
"breaks": [
"C06"
]
},
{
"id": "T5",
"file": "TT2d",
"old": "let hitch_angle := wrap_pi (t_th1 x - t_th2 x) in",
"new": "let hitch_angle := t_th1 x - t_th2 x in",
"definition": "tt_hitch",
"edit": "angle not wrapped",
"breaks": [
"C06",
"C17"
]
},
{
"id": "T6",
"file": "TT2d",
"old": "existsb (fun o => hits_rect tc o || hits_rect rc o) rect",
"new": "existsb (fun o => hits_rect tc o) rect",
"definition": "tt_coll",
"edit": "trailer not checked against rectangles",
"breaks": [
"C04"
]
},
{
"id": "T7",
"file": "TT2d",
"old": "existsb (fun c => hits_circle tc c || hits_circle rc c) circ",
"new": "existsb (fun c => hits_circle tc c && hits_circle rc c) circ",
"definition": "tt_coll",
"edit": "or replaced by and",
"breaks": [
"C05"
]
},
{
"id": "T8",
"file": "TT2d",
"old": "where_ (use_tractor (p_motion p)) d_tractor d_trailer",
"new": "where_ (use_tractor (p_motion p)) d_trailer d_tractor",
"definition": "tt_dpos",
"edit": "tracked point swapped",
"breaks": [
"C16"
]
},
{
"id": "T9",
"file": "TT2d",
"old": "(1 - p_hitch_w p) * ((1 - w) * r_pos + w * r_hdg) + p_hitch_w p * r_art",
"new": "(1 - w) * r_pos + w * r_hdg + p_hitch_w p * r_art",
"definition": "tt_reward",
"edit": "weights do not sum to one",
"breaks": [
"C16"
]
},
{
"id": "T10",
"file": "TT2d",
"old": "let r1 := where_ oc (base - p_coll_pen p) base in",
"new": "let r1 := where_ oc (base - p_hitch_pen p) base in",
"definition": "step_reward",
"edit": "wrong penalty for a collision",
"breaks": [
"C19"
]
},
{
"id": "T11",
"file": "TT2d",
"old": "where_ hv (r1 - p_hitch_pen p) r1",
"new": "where_ hv (base - p_hitch_pen p) r1",
"definition": "step_reward",
"edit": "hitch penalty replaces the collision penalty",
"breaks": [
"C19"
]
},
{
"id": "T12",
"file": "TT2d",
"old": "let action := clip_act action0 in",
"new": "let action := action0 in",
"definition": "tt_step_with",
"edit": "command not clipped",
"breaks": [
"C08"
]
},
{
"id": "T13",
"file": "TT2d",
"old": "(qf, qf, oc, hv, where_ backup_next u_backup action)",
"new": "(qf, qf, oc, hv, action)",
"definition": "tt_step_with",
"edit": "refused command reported as executed",
"breaks": [
"C07",
"C09"
]
},
{
"id": "T14",
"file": "TT2d",
"old": "mkState q_final q_final reward 0 applied backup_prev",
"new": "mkState q_final q_final reward 0 applied (backup_prev || (p_sh_coll p && oc))",
"definition": "tt_step_with",
"edit": "backup flag latches",
"breaks": [
"C44"
]
},
{
"id": "T15",
"file": "TT2d",
"old": "let qf := if viz then qr else q_prop in",
"new": "let qf := qr in",
"definition": "tt_step_with",
"edit": "guided state executed while denoising",
"breaks": [
"C41"
]
},
{
"id": "T16",
"file": "TT2d",
"old": "(qf, qr, ts_coll s qr, ts_hitch s qr, action_eff)",
"new": "(qf, qf, ts_coll s qr, ts_hitch s qr, action_eff)",
"definition": "tt_step_with",
"edit": "reward of the unguided state",
"breaks": [
"C41"
]
},
{
"id": "T17",
"file": "TT2d",
"old": "1 - (clip d 0 thr / thr) * (clip d 0 thr / thr)",
"new": "1 - (d / thr) * (d / thr)",
"definition": "pos_reward",
"edit": "distance not clipped",
"breaks": [
"C16"
]
},
{
"id": "T18",
"file": "TT2d",
"old": "let e1o := wrap_pi (t_th1 q - thetag - PI) in",
"new": "let e1o := wrap_pi (t_th1 q - thetag - PI / 2) in",
"definition": "tt_reward",
"edit": "opposite heading measured 90 degrees off",
"breaks": [
"C16"
]
},
{
"id": "T19",
"file": "TT2d",
"old": "mkState q_final q_final reward 0 applied backup_prev",
"new": "mkState q_final q reward 0 applied backup_prev",
"definition": "tt_step_with",
"edit": "observation lags the state",
"breaks": [
"C07"
]
},
{
"id": "T20",
"file": "TT2d",
"old": "let pen := preference_penalty p (fst u_applied) in",
"new": "let pen := preference_penalty p (fst u_scaled) in",
"definition": "tt_step_with",
"edit": "refused command charged",
"breaks": [
"C19"
]
},
{
"id": "T21",
"file": "TT2d",
"old": "if p_sh_coll p || p_sh_hitch p",
"new": "if p_sh_coll p && p_sh_hitch p",
"definition": "tt_step_with",
"edit": "shield needs both flags",
"breaks": [
"C02"
]
},
{
"id": "T22",
"file": "TT2d",
"old": "(qf, qf, false, false, u_safe)",
"new": "(qf, qf, false, false, action)",
"definition": "tt_step_with",
"edit": "projected command not reported",
"breaks": [
"C07",
"C40"
]
},
{
"id": "T23",
"file": "TT2d",
"old": "Definition use_tractor (m : Z) : bool := Z.eqb m 1 || Z.eqb m 2",
"new": "Definition use_tractor (m : Z) : bool := Z.eqb m 1 || Z.eqb m (-2)",
"definition": "use_tractor",
"edit": "strict directions confused",
"breaks": [
"C16"
]
},
{
"id": "K1",
"file": "Bicycle",
"old": "let action := clip_act action0 in",
"new": "let action := action0 in",
"definition": "bk_step_with",
"edit": "command not clipped",
"breaks": [
"C08"
]
},
{
"id": "K3",
"file": "Bicycle",
"old": "(qf, qf, oc, hv, where_ backup_next u_backup action)",
"new": "(q_prop, qf, oc, hv, where_ backup_next u_backup action)",
"definition": "bk_step_with",
"edit": "shield verdict ignored for the state",
"breaks": [
"C01"
]
},
{
"id": "K4",
"file": "Bicycle",
"old": "((v / p_l1 p) * tan delta)",
"new": "((v / p_l1 p) * delta)",
"definition": "bk_dyn",
"edit": "small angle approximation",
"breaks": [
"C20"
]
},
{
"id": "N1",
"file": "NTrailer",
"old": "(k_speed acc * cos dtheta + p_lh p * k_dot acc * sin dtheta)",
"new": "(k_speed acc * cos dtheta - p_lh p * k_dot acc * sin dtheta)",
"definition": "nt_dyn_body",
"edit": "axle speed sign",
"breaks": [
"C20"
]
},
{
"id": "N2",
"file": "NTrailer",
"old": "nt_hitch_scan phi (jget thetas 0) h0 (tl thetas)",
"new": "h0",
"definition": "nt_hitch",
"edit": "only the first hitch",
"breaks": [
"C06"
]
},
{
"id": "N3",
"file": "NTrailer",
"old": "nt_hitch_scan phi_max th (viol",
"new": "nt_hitch_scan phi_max prev (viol",
"definition": "nt_hitch_scan",
"edit": "all trailers compared with the first",
"breaks": [
"C06"
]
},
{
"id": "N4",
"file": "NTrailer",
"old": "existsb (fun rc => existsb (hits_rect rc) rect) rcs",
"new": "existsb (fun rc => existsb (hits_rect rc) rect) (firstn 1 rcs)",
"definition": "nt_coll",
"edit": "only the first trailer",
"breaks": [
"C04"
]
},
{
"id": "N5",
"file": "NTrailer",
"old": "repeat (p_lr p) (p_num_trailers p - 1) ++ [p_lr2 p]",
"new": "repeat (p_lr2 p) (p_num_trailers p)",
"definition": "nt_default_rear",
"edit": "every trailer has the last overhang",
"breaks": [
"C33"
]
},
{
"id": "N6",
"file": "NTrailer",
"old": "if negb (Nat.eqb (length (n_ths (st_q st))) (ns_N s)) then Err AssertionError",
"new": "if false then Err AssertionError",
"definition": "nt_step_internal",
"edit": "dimension assertion dropped",
"breaks": [
"C30"
]
},
{
"id": "N7",
"file": "NTrailer",
"old": "else Rmin d_tr d_la",
"new": "else Rmax d_tr d_la",
"definition": "nt_dpos",
"edit": "max instead of min",
"breaks": [
"C16"
]
},
{
"id": "N8",
"file": "NTrailer",
"old": "(qf, qf, oc, hv, where_ backup_next u_backup action)",
"new": "(qf, qf, oc, hv, action)",
"definition": "nt_step_with",
"edit": "refused command reported as executed",
"breaks": [
"C07"
]
},
{
"id": "A1",
"file": "Acc",
"old": "let v := clip (a_v x) (- p_vmax p) (p_vmax p) in",
"new": "let v := a_v x in",
"definition": "acc_dyn",
"edit": "speed not limited",
"breaks": [
"C24"
]
},
{
"id": "A2",
"file": "Acc",
"old": "(where_ (Rltb w (- v_threshold)) 1 0)",
"new": "(where_ (Rltb w v_threshold) 1 0)",
"definition": "decel_sign",
"edit": "threshold sign",
"breaks": [
"C22"
]
},
{
"id": "A3",
"file": "Acc",
"old": "clip (Rabs (v / p_dt (as_p s))) 0 (as_amax s)",
"new": "clip (Rabs (v * p_dt (as_p s))) 0 (as_amax s)",
"definition": "a_backup",
"edit": "times dt instead of divided",
"breaks": [
"C22"
]
},
{
"id": "A4",
"file": "Acc",
"old": "(q_next, oc || as_coll s q_next, hv || as_hitch s q_next)",
"new": "(q_next, as_coll s q_next, as_hitch s q_next)",
"definition": "acc_rollout_step",
"edit": "only the last predicted state",
"breaks": [
"C25"
]
},
{
"id": "A5",
"file": "Acc",
"old": "(q_new, as_coll s q_new, as_hitch s q_new) in",
"new": "(q_new, false, false) in",
"definition": "check_with_rollout",
"edit": "proposed state itself not checked",
"breaks": [
"C25"
]
},
{
"id": "A6",
"file": "Acc",
"old": "(p_sh_coll p && oc) || (p_sh_hitch p && hv) in\n  (where_",
"new": "(p_sh_coll p && oc) && (p_sh_hitch p && hv) in\n  (where_",
"definition": "acc_shielded_rollout",
"edit": "brakes only if both fail",
"breaks": [
"C23"
]
},
{
"id": "A7",
"file": "Acc",
"old": "let action := clip_act action0 in",
"new": "let action := action0 in",
"definition": "acc_step_with",
"edit": "command not clipped",
"breaks": [
"C08"
]
},
{
"id": "A8",
"file": "Acc",
"old": "let pen := preference_penalty p (a_v q_final) in",
"new": "let pen := preference_penalty p (a_v q) in",
"definition": "acc_step_with",
"edit": "penalty on the old speed",
"breaks": [
"C19"
]
},
{
"id": "A9",
"file": "Acc",
"old": "(decel_sign v_curr v_curr * a_backup s v_curr / as_amax s, 0)",
"new": "(decel_sign v_curr v_curr * a_backup s v_curr, 0)",
"definition": "acc_backup_norm",
"edit": "not normalised",
"breaks": [
"C08"
]
},
{
"id": "A10",
"file": "Acc",
"old": "where_ (Rltb v_threshold v) (-1)",
"new": "where_ (Rltb v_threshold v) 1",
"definition": "decel_sign",
"edit": "braking accelerates",
"breaks": [
"C22"
]
},
{
"id": "R1",
"file": "Rollout",
"old": "(fin, (st_rew st', st_q st', st_app st') :: outs)",
"new": "(fin, (st_rew st', st_q st', u) :: outs)",
"definition": "scan_us",
"edit": "commanded instead of executed control",
"breaks": [
"C07",
"C09"
]
},
{
"id": "R2",
"file": "Rollout",
"old": "let st_init := step_env st (0, 0) in\n  let '(fin, outs)",
"new": "let st_init := step_env st (1, 0) in\n  let '(fin, outs)",
"definition": "rollout_us_with_terminal",
"edit": "warm-up with a moving command",
"breaks": [
"C26"
]
},
{
"id": "R3",
"file": "Rollout",
"old": "term_w * terminal (st_q fin)",
"new": "term_w * terminal (st_q st_init)",
"definition": "rollout_us_with_terminal",
"edit": "terminal reward of the first state",
"breaks": [
"C15"
]
},
{
"id": "R4",
"file": "Rollout",
"old": "st_q st :: replay st us",
"new": "replay st us",
"definition": "trajectory_states",
"edit": "initial state dropped",
"breaks": [
"C07"
]
},
{
"id": "L1",
"file": "Planner",
"old": "((b - a) / INR (n - 1))",
"new": "((b - a) / INR n)",
"definition": "linspace",
"edit": "end point never reached",
"breaks": [
"C12"
]
},
{
"id": "L2",
"file": "Planner",
"old": "Definition cumprod (l : list R) : list R := cumprod_from 1 l",
"new": "Definition cumprod (l : list R) : list R := cumprod_from 0 l",
"definition": "cumprod",
"edit": "starts at 0",
"breaks": [
"C12"
]
},
{
"id": "L3",
"file": "Planner",
"old": "map (fun x => exp x / z) l",
"new": "map (fun x => exp x) l",
"definition": "softmax",
"edit": "not normalised",
"breaks": [
"C13"
]
},
{
"id": "L4",
"file": "Planner",
"old": "(clip v (-1) 0)",
"new": "(clip v 0 1)",
"definition": "enforce_motion",
"edit": "strict backward clips to forward",
"breaks": [
"C11"
]
},
{
"id": "L5",
"file": "Planner",
"old": "enforce_motion motion (clip_act (act_add (act_scale scale e) y))",
"new": "act_add (act_scale scale e) (enforce_motion motion (clip_act y))",
"definition": "make_sample",
"edit": "noise added after clipping",
"breaks": [
"C10"
]
},
{
"id": "L6",
"file": "Planner",
"old": "where_ (Rltb l d) d l",
"new": "where_ (Rltb d l) d l",
"definition": "log_scores",
"edit": "demo lowers the score",
"breaks": [
"C14"
]
},
{
"id": "L7",
"file": "Planner",
"old": "let Ybar := einsum_avg (g_Hsample g) weights effective in",
"new": "let Ybar := einsum_avg (g_Hsample g) weights Y0s in",
"definition": "reverse_once_with",
"edit": "average of commanded controls",
"breaks": [
"C09"
]
},
{
"id": "L8",
"file": "Planner",
"old": "rev (seq 1 (g_Ndiffuse g - 1))",
"new": "rev (seq 0 (g_Ndiffuse g))",
"definition": "diffusion_indices",
"edit": "one step too many",
"breaks": [
"C12"
]
},
{
"id": "L9",
"file": "Planner",
"old": "let Y0 := snd (rollout_term Yfin) in",
"new": "let Y0 := Yfin in",
"definition": "run_diffusion_core",
"edit": "returns commands instead of executed controls",
"breaks": [
"C07"
]
},
{
"id": "L10",
"file": "Planner",
"old": "let rew := fst (fst (rollout_term Y0)) in",
"new": "let rew := fst (fst (rollout_term Yfin)) in",
"definition": "run_diffusion_core",
"edit": "reward of the commanded controls",
"breaks": [
"C15"
]
},
{
"id": "L11",
"file": "Planner",
"old": "act_scale (1 / (1 - ab)) (act_add",
"new": "act_scale (1 / ab) (act_add",
"definition": "reverse_once_with",
"edit": "score scaled by the wrong factor",
"breaks": [
"C09"
]
},
{
"id": "L12",
"file": "Planner",
"old": "where_ (Rltb std0 (1 / 10000)) 1 std0",
"new": "std0",
"definition": "log_scores",
"edit": "no guard for equal rewards",
"breaks": [
"C13"
]
},
{
"id": "L13",
"file": "Planner",
"old": "let lmax := Rmax_of lps in",
"new": "let lmax := Rmin_of lps in",
"definition": "log_scores",
"edit": "min instead of max of the demo scores",
"breaks": [
"C14"
]
},
{
"id": "L14",
"file": "Planner",
"old": "let step := if g_guid g then pe_step_viz env else pe_step env in",
"new": "let step := pe_step_viz env in",
"definition": "run_diffusion_core",
"edit": "trajectory always replayed with guidance",
"breaks": [
"C07"
]
},
{
"id": "L15",
"file": "Planner",
"old": "let r_dot_padded := 1 :: r_dot in",
"new": "let r_dot_padded := r_dot ++ [1] in",
"definition": "steering_reward",
"edit": "padding at the end",
"breaks": [
"C39"
]
},
{
"id": "L16",
"file": "Planner",
"old": "map (fun d => 1 - Rabs d * Rabs d) deltas",
"new": "map (fun d => 1 - Rabs d) deltas",
"definition": "steering_reward",
"edit": "not squared",
"breaks": [
"C39"
]
},
{
"id": "L17",
"file": "Planner",
"old": "(r - mean) / std / g_temp g) rews",
"new": "(mean - r) / std / g_temp g) rews",
"definition": "log_scores",
"edit": "sign: bad samples weigh more",
"breaks": [
"C13"
]
},
{
"id": "E1",
"file": "EnvModel",
"old": "let idx := (n - 1)%Z in",
"new": "let idx := n in",
"definition": "space_center",
"edit": "numbering off by one",
"breaks": [
"C27"
]
},
{
"id": "E2",
"file": "EnvModel",
"old": "start_x + (IZR col + 1/2) * pk_w c, start_y + (IZR row + 1/2) * pk_len c",
"new": "start_x + (IZR row + 1/2) * pk_w c, start_y + (IZR col + 1/2) * pk_len c",
"definition": "space_center",
"edit": "row and column swapped",
"breaks": [
"C27"
]
},
{
"id": "E3",
"file": "EnvModel",
"old": "mkCircle cx (cy - delta_y) (pk_rad c) :: more",
"new": "more",
"definition": "parking_circles",
"edit": "third circle dropped",
"breaks": [
"C28"
]
},
{
"id": "E4",
"file": "EnvModel",
"old": "let center_y := y - height / 2 in",
"new": "let center_y := y + height / 2 in",
"definition": "convert_rect",
"edit": "left-top anchor treated as left-bottom",
"breaks": [
"C31"
]
},
{
"id": "E5",
"file": "EnvModel",
"old": "Ok (mkRect center_x center_y (width + padding * 2) (height + padding * 2) rotation)",
"new": "Ok (mkRect center_x center_y (width + padding) (height + padding) rotation)",
"definition": "convert_rect",
"edit": "padding on one side only",
"breaks": [
"C31"
]
},
{
"id": "E6",
"file": "EnvModel",
"old": "| Err x => (e, Err x)\n  | Ok l => (mkEnv (e_case e) (e_xr e) (e_yr e) (e_parking e) (e_circles e) l, Ok l)",
"new": "| Err x => (mkEnv (e_case e) (e_xr e) (e_yr e) (e_parking e) (e_circles e) [], Err x)\n  | Ok l => (mkEnv (e_case e) (e_xr e) (e_yr e) (e_parking e) (e_circles e) l, Ok l)",
"definition": "env_set_rects",
"edit": "obstacles cleared before the error",
"breaks": [
"C32"
]
},
{
"id": "E7",
"file": "EnvModel",
"old": "Ok [gx; gy; - PI / 2; - PI / 2]",
"new": "Ok [gx; gy; PI / 2; PI / 2]",
"definition": "default_goal_pos",
"edit": "goal heading flipped",
"breaks": [
"C29"
]
},
{
"id": "E8",
"file": "EnvModel",
"old": "(e_parking e) l (e_rects e), Ok l)",
"new": "(e_parking e) (e_circles e ++ l) (e_rects e), Ok l)",
"definition": "env_set_circles",
"edit": "appends instead of replacing",
"breaks": [
"C31"
]
},
{
"id": "E9",
"file": "EnvModel",
"old": "let start_y := ylo + pk_yoff c in",
"new": "let start_y := ylo - pk_yoff c in",
"definition": "space_center",
"edit": "offset sign",
"breaks": [
"C27"
]
},
{
"id": "E10",
"file": "EnvModel",
"old": "Ok (mkCircle x y (radius + padding))",
"new": "Ok (mkCircle x y radius)",
"definition": "convert_circle",
"edit": "padding ignored",
"breaks": [
"C31"
]
},
{
"id": "S1",
"file": "Setup",
"old": "k_lf2 := g_lf2 g; k_lr2 := g_lr2 g",
"new": "k_lf2 := g_lr2 g; k_lr2 := g_lf2 g",
"definition": "kwargs",
"edit": "overhangs swapped",
"breaks": [
"C33"
]
},
{
"id": "S2",
"file": "Setup",
"old": "else if Z.leb 2 (g_trailers g) then nt_init",
"new": "else if Z.leb 1 (g_trailers g) then nt_init",
"definition": "get_env",
"edit": "boundary of the trailer count",
"breaks": [
"C33"
]
},
{
"id": "S3",
"file": "Setup",
"old": "firstn 3 x4 ++ jget x4 3 :: repeat (jget x4 3) (N - 1)",
"new": "firstn 3 x4 ++ jget x4 3 :: repeat (jget x4 3) N",
"definition": "augment",
"edit": "one trailer too many",
"breaks": [
"C30"
]
},
{
"id": "S4",
"file": "Setup",
"old": "let px := target_x + dx - p_l1 p * cos (i_th1 a) in",
"new": "let px := target_x + dx in",
"definition": "base_init_pos",
"edit": "wheelbase not subtracted",
"breaks": [
"C29"
]
},
{
"id": "S5",
"file": "Setup",
"old": "default (o_th1 a) (jget xg 2); default (o_th2 a) (jget xg 3)]",
"new": "default (o_th1 a) (jget xg 3); default (o_th2 a) (jget xg 2)]",
"definition": "set_goal_pos",
"edit": "kept headings swapped",
"breaks": [
"C29"
]
},
{
"id": "S6",
"file": "Setup",
"old": "(mkRobot (rb_kind r) (rb_p r) e' (rb_x0 r) (rb_xg r) l (rb_rect r)",
"new": "(mkRobot (rb_kind r) (rb_p r) e' (rb_x0 r) (rb_xg r) (rb_circ r) (rb_rect r)",
"definition": "set_circle_obs",
"edit": "robot keeps its old copy",
"breaks": [
"C31"
]
},
{
"id": "S7",
"file": "Setup",
"old": "if Rleb (snd q) (snd p) then q :: insert_y p qs else p :: q :: qs",
"new": "if Rleb (snd p) (snd q) then q :: insert_y p qs else p :: q :: qs",
"definition": "insert_y",
"edit": "sorted downwards",
"breaks": [
"C29"
]
},
{
"id": "S8",
"file": "Setup",
"old": "| KACC => v ++ [i_v a; i_delta a]",
"new": "| KACC => v ++ [i_delta a; i_v a]",
"definition": "set_init_pos",
"edit": "speed and steering swapped",
"breaks": [
"C29"
]
},
{
"id": "S9",
"file": "Setup",
"old": "p_dmax := delta_max_of_deg (k_ddeg k)",
"new": "p_dmax := k_ddeg k",
"definition": "params_of",
"edit": "degrees used as radians",
"breaks": [
"C33"
]
},
{
"id": "S10",
"file": "Setup",
"old": "if Z.leb 2 num_trailers then",
"new": "if true then",
"definition": "nt_init",
"edit": "assertion dropped",
"breaks": [
"C33"
]
},
{
"id": "F1",
"file": "Config",
"old": "(\"reward_threshold\", TFloat, Some (VFloat (25)))",
"new": "(\"reward_threshold\", TFloat, Some (VFloat (50)))",
"definition": "conversions",
"edit": "other default",
"breaks": [
"C34"
]
},
{
"id": "F2",
"file": "Config",
"old": "(\"seed\", TInt, None);\n  (\"render\"",
"new": "(\"seed\", TInt, Some (VInt 42));\n  (\"render\"",
"definition": "conversions",
"edit": "required key made optional",
"breaks": [
"C34"
]
},
{
"id": "F3",
"file": "Config",
"old": "(\"dt\", TFloat, None)\n].\n",
"new": "(\"dt\", TInt, None)\n].\n",
"definition": "conversions",
"edit": "dt truncated to an integer",
"breaks": [
"C34"
]
},
{
"id": "F4",
"file": "Config",
"old": "(\"lf2\", TFloat, Some (VFloat (71/50)));\n  (\"lr2\"",
"new": "(\"lr2\"",
"definition": "conversions",
"edit": "key not copied",
"breaks": [
"C34"
]
},
{
"id": "D1",
"file": "Demo",
"old": "| [ (a, k) ] => [ mkRef (fst a) (snd a) g1 g2 (Nat.eqb k fin) ]",
"new": "| [ (a, k) ] => [ mkRef (fst a) (snd a) g2 g1 (Nat.eqb k fin) ]",
"definition": "heading_rows",
"edit": "goal headings swapped",
"breaks": [
"C35"
]
},
{
"id": "D2",
"file": "Demo",
"old": "let m1 := if horizontal dir then (fst xg, snd x0) else (fst x0, snd xg) in",
"new": "let m1 := if horizontal dir then (fst x0, snd xg) else (fst xg, snd x0) in",
"definition": "waypoints",
"edit": "directions swapped",
"breaks": [
"C36"
]
},
{
"id": "D3",
"file": "Demo",
"old": "if negb (check_line circ rect x0 m1) && negb (check_line circ rect m1 xg) then [x0; m1; xg]",
"new": "if negb (check_line circ rect x0 m1) || negb (check_line circ rect m1 xg) then [x0; m1; xg]",
"definition": "waypoints",
"edit": "one free leg suffices",
"breaks": [
"C36"
]
},
{
"id": "D4",
"file": "Demo",
"old": "then (if Z.eqb pref (-1) || Z.eqb pref (-2) then atan2 dy dx + PI else atan2 dy dx)",
"new": "then atan2 dy dx",
"definition": "heading_rows",
"edit": "backward driving not turned",
"breaks": [
"C35"
]
},
{
"id": "D5",
"file": "Demo",
"old": "if Z.eqb tot (Z.of_nat H) then c else add_at (argmax c) (Z.of_nat H - tot) c",
"new": "c",
"definition": "counts",
"edit": "counts not corrected to H",
"breaks": [
"C35"
]
},
{
"id": "D6",
"file": "Demo",
"old": "let e1 := where_ (f_mask r) (where_ no_pref w1 d1) 0 in\n  let e2",
"new": "let e1 := where_ no_pref w1 d1 in\n  let e2",
"definition": "logpd_row",
"edit": "mask ignored",
"breaks": [
"C37"
]
},
{
"id": "D7",
"file": "Demo",
"old": "- ((clip e 0 thr / thr) * (clip e 0 thr / thr))",
"new": "- ((e / thr) * (e / thr))",
"definition": "clip_score",
"edit": "error not clipped",
"breaks": [
"C37"
]
},
{
"id": "D8",
"file": "Demo",
"old": "let ts := match tl with [] => lin_closed n | _ => lin_open n end in",
"new": "let ts := lin_open n in",
"definition": "sample_segments",
"edit": "goal not reached",
"breaks": [
"C35"
]
},
{
"id": "D9",
"file": "Demo",
"old": "Rleb (Rabs local_x) (r_w o / 2) && Rleb (Rabs local_y) (r_h o / 2)",
"new": "Rleb (Rabs local_x) (r_w o) && Rleb (Rabs local_y) (r_h o)",
"definition": "point_in_rect",
"edit": "full instead of half size",
"breaks": [
"C36"
]
},
{
"id": "D10",
"file": "Demo",
"old": "p_ref_th2_w p * clip_score (Rabs e2) (p_phi_max p)",
"new": "p_ref_th1_w p * clip_score (Rabs e2) (p_phi_max p)",
"definition": "logpd_row",
"edit": "weight of the wrong heading",
"breaks": [
"C37"
]
},
{
"id": "J1",
"file": "Projection",
"old": "| OptDone false _ => u_orig",
"new": "| OptDone false x => x",
"definition": "proj_answer",
"edit": "failed optimiser answer used",
"breaks": [
"C40"
]
},
{
"id": "J2",
"file": "Projection",
"old": "Rmin d1 d2 - c_r c",
"new": "Rmax d1 d2 - c_r c",
"definition": "tt_dist_circle",
"edit": "farther body counts",
"breaks": [
"C40"
]
},
{
"id": "J3",
"file": "Projection",
"old": "Rmax ((p2 - r2) - (p1 + r1)) ((p1 - r1) - (p2 + r2))",
"new": "Rmin ((p2 - r2) - (p1 + r1)) ((p1 - r1) - (p2 + r2))",
"definition": "gap_on_axis",
"edit": "min of the two gaps",
"breaks": [
"C40"
]
},
{
"id": "J4",
"file": "Projection",
"old": "mkBounds (-1, 1) (-1, 1)",
"new": "mkBounds (-2, 2) (-1, 1)",
"definition": "proj_bounds",
"edit": "bounds too wide",
"breaks": [
"C40"
]
},
{
"id": "J5",
"file": "Projection",
"old": "((p_l1 p + p_lf1 p + p_lr p) / 2, p_trac_w p / 2)",
"new": "(p_l1 p / 2, p_trac_w p / 2)",
"definition": "bk_np_half",
"edit": "wheelbase instead of full length",
"breaks": [
"C40"
]
},
{
"id": "J6",
"file": "Projection",
"old": "let inside := Rmin (Rmax (fst q) (snd q)) 0 in",
"new": "let inside := 0 in",
"definition": "sdf_box",
"edit": "inside distance dropped",
"breaks": [
"C40"
]
},
{
"id": "U1",
"file": "Guidance",
"old": "Definition clip_pos (x : R) : R := clip x (-100) 100",
"new": "Definition clip_pos (x : R) : R := x",
"definition": "clip_pos",
"edit": "positions not bounded",
"breaks": [
"C41"
]
},
{
"id": "U2",
"file": "Guidance",
"old": "let hitch_penalty := Rmin_of [pen 0; pen (2 * PI); pen (- (2 * PI))] in",
"new": "let hitch_penalty := pen 0 in",
"definition": "tt_guidance_cost",
"edit": "hitch angle not wrapped",
"breaks": [
"C41"
]
},
{
"id": "U3",
"file": "Guidance",
"old": "if negb (p_guid (ts_p s)) then q else",
"new": "",
"definition": "tt_apply_guidance_n",
"edit": "guidance applied although disabled",
"breaks": [
"C41"
]
},
{
"id": "U4",
"file": "Guidance",
"old": "hinge_sq (c_r c + 2 - pnorm",
"new": "hinge_sq (c_r c - pnorm",
"definition": "circle_penalty",
"edit": "no safety margin",
"breaks": [
"C41"
]
},
{
"id": "X1",
"file": "Stats",
"old": "negb (tt_coll (rb_p r) (rb_circ r) (rb_rect r) q || tt_hitch (rb_p r) q)",
"new": "negb (tt_coll (rb_p r) (rb_circ r) (rb_rect r) q && tt_hitch (rb_p r) q)",
"definition": "is_valid",
"edit": "rejected only if both fail",
"breaks": [
"C43"
]
},
{
"id": "X2",
"file": "Stats",
"old": "sample_loop g num (num * 10) 0 (np_seed g seed) []",
"new": "sample_loop g num num 0 (np_seed g seed) []",
"definition": "sample_initial_conditions",
"edit": "attempt budget num instead of 10 num",
"breaks": [
"C43"
]
},
{
"id": "X3",
"file": "Stats",
"old": "if oc' && hv' then (oc', hv') else",
"new": "if oc' || hv' then (oc', hv') else",
"definition": "violations",
"edit": "stops at the first violation of any kind",
"breaks": [
"C42"
]
},
{
"id": "X4",
"file": "Stats",
"old": "let err := Rmin tractor trailer in",
"new": "let err := Rmax tractor trailer in",
"definition": "evaluate",
"edit": "max instead of min",
"breaks": [
"C42"
]
},
{
"id": "X5",
"file": "Stats",
"old": "Rleb err threshold && negb oc && negb hv",
"new": "Rleb err threshold && negb oc",
"definition": "evaluate",
"edit": "jackknife ignored",
"breaks": [
"C42"
]
},
{
"id": "X6",
"file": "Stats",
"old": "sr_position_error := np_mean (map v_error (filter v_success results))",
"new": "sr_position_error := np_mean (map v_error results)",
"definition": "summarize",
"edit": "failed trials included",
"breaks": [
"C42"
]
},
{
"id": "X7",
"file": "Stats",
"old": "np_uniform g s1 2 7 in",
"new": "np_uniform g s1 0 7 in",
"definition": "draw_trial",
"edit": "range of dy",
"breaks": [
"C43"
]
},
{
"id": "X8",
"file": "Stats",
"old": "(if is_valid t then configs ++ [t] else configs)",
"new": "(configs ++ [t])",
"definition": "sample_loop",
"edit": "validity ignored",
"breaks": [
"C43"
]
},
{
"id": "X9",
"file": "Stats",
"old": "let final := cut (last traj q0) in",
"new": "let final := cut q0 in",
"definition": "evaluate",
"edit": "first state judged",
"breaks": [
"C42"
]
},
{
"id": "X10",
"file": "Stats",
"old": "sr_success_rate := INR successful / INR num_trials",
"new": "sr_success_rate := INR (length results) / INR num_trials",
"definition": "summarize",
"edit": "counts all results",
"breaks": [
"C42"
]
},
{
"id": "H1",
"file": "Cache",
"old": "(w_fns w) (fun _ => None) None\n",
"new": "(w_fns w) (fun _ => None) (w_rev w)\n",
"definition": "clear_cache",
"edit": "denoiser kept",
"breaks": [
"C38"
]
},
{
"id": "H2",
"file": "Cache",
"old": "(w_fns w) (fun _ => None) None\n",
"new": "(w_fns w) (w_env w) None\n",
"definition": "clear_cache",
"edit": "environment functions kept",
"breaks": [
"C38"
]
},
{
"id": "H3",
"file": "Cache",
"old": "(g_motion g, g_temp g, g_demo g, g_Nsample g, g_Hsample g)",
"new": "(g_motion g, 0, g_demo g, g_Nsample g, g_Hsample g)",
"definition": "key_of",
"edit": "temperature not part of the key",
"breaks": [
"C38"
]
},
{
"id": "H4",
"file": "Cache",
"old": "let '(w1, demo) := prepare_demo w o g in",
"new": "let '(w1, demo) := (w, Ok tt : Res unit) in",
"definition": "run",
"edit": "demonstration not prepared",
"breaks": [
"C38"
]
},
{
"id": "H5",
"file": "Cache",
"old": "let rf := mkRevFunc (w_fns w) g o fs in",
"new": "let rf := mkRevFunc (w_fns w) g (ef_obj fs) fs in",
"definition": "get_rev",
"edit": "denoiser bound to the object of the cached functions",
"breaks": [
"C38"
]
},
{
"id": "M1",
"file": "Anim",
"old": "let tcx := px + 1/2 * (p_l1 p + p_lf1 p - p_lr p) * cos th1 in",
"new": "let tcx := px + 1/2 * p_l1 p * cos th1 in",
"definition": "tt_draw_with",
"edit": "centre offset ignores the overhangs",
"breaks": [
"C47"
]
},
{
"id": "M2",
"file": "Anim",
"old": "mkPatch (- w / 2) (- h / 2) w h rot tx ty",
"new": "mkPatch (- w) (- h / 2) w h rot tx ty",
"definition": "centred",
"edit": "not centred",
"breaks": [
"C47"
]
},
{
"id": "M3",
"file": "Anim",
"old": "let next := (fst rear - p_lh (ns_p s) * cos th",
"new": "let next := (fst rear + p_lh (ns_p s) * cos th",
"definition": "nt_draw_trailers",
"edit": "hitch in front of the rear edge",
"breaks": [
"C47"
]
},
{
"id": "M4",
"file": "Anim",
"old": "(remove (write d video (Video (read_frames d 0 (length d)))) (fun m => negb (is_png m)), Ok tt)",
"new": "(write d video (Video (read_frames d 0 (length d))), Ok tt)",
"definition": "export_video",
"edit": "frames not deleted",
"breaks": [
"C46"
]
},
{
"id": "M5",
"file": "Anim",
"old": "save_frames (setup_saving d) 0 crash fs",
"new": "save_frames d 0 crash fs",
"definition": "animate",
"edit": "old pngs kept",
"breaks": [
"C46"
]
},
{
"id": "M6",
"file": "Anim",
"old": "save_frames (setup_saving d) 0 crash fs",
"new": "save_frames (setup_saving d) 1 crash fs",
"definition": "animate",
"edit": "frame numbers start at 1",
"breaks": [
"C46"
]
},
{
"id": "M7",
"file": "Anim",
"old": "else (match partial with Some c => write d video c | None => d end, Ok tt)",
"new": "else (remove d (fun m => negb (is_png m)), Ok tt)",
"definition": "export_video",
"edit": "frames deleted on failure",
"breaks": [
"C46"
]
},
{
"id": "M8",
"file": "Anim",
"old": "if str_leb n m then n :: l else m :: insert n rest",
"new": "if str_leb m n then n :: l else m :: insert n rest",
"definition": "insert",
"edit": "videos sorted downwards",
"breaks": [
"C49"
]
},
{
"id": "M9",
"file": "Anim",
"old": "if Z.eqb (Z.modulo (Z.of_nat step) skip) 0 then",
"new": "if Z.eqb (Z.modulo (Z.of_nat step) skip) 1 then",
"definition": "denoise_loop",
"edit": "wrong residue",
"breaks": [
"C46"
]
},
{
"id": "M10",
"file": "Anim",
"old": "let trace := before ++ [q] in",
"new": "let trace := before in",
"definition": "anim_frames",
"edit": "trace lags",
"breaks": [
"C47"
]
},
{
"id": "M11",
"file": "Anim",
"old": "an_coll a q) (an_hitch a q)",
"new": "an_hitch a q) (an_coll a q)",
"definition": "anim_frames",
"edit": "marks swapped",
"breaks": [
"C47"
]
},
{
"id": "M12",
"file": "Anim",
"old": "(pad 3 i)",
"new": "(digits i)",
"definition": "trial_video",
"edit": "number not padded",
"breaks": [
"C49"
]
},
{
"id": "M13",
"file": "Anim",
"old": "match k with Appended => n + 2 | Fresh => 2 end",
"new": "n + 2",
"definition": "setup_wheels",
"edit": "wheel lists appended in every class",
"breaks": [
"C48"
]
},
{
"id": "M14",
"file": "Anim",
"old": "tt_draw_with p (a_q q) (a_d q)",
"new": "tt_draw_with p (a_q q) (steer_of u)",
"definition": "acc_draw",
"edit": "steering from the command",
"breaks": [
"C47"
]
},
{
"id": "Y1",
"file": "Bench",
"old": "ti_overhead := total - pure",
"new": "ti_overhead := pure - total",
"definition": "timing_of",
"edit": "overhead negated",
"breaks": [
"C50"
]
},
{
"id": "Y2",
"file": "Bench",
"old": "ti_demo := demo_time - reward_compile;",
"new": "ti_demo := demo_time;",
"definition": "timing_of",
"edit": "reward compile counted in demo time too",
"breaks": [
"C50"
]
},
{
"id": "Y3",
"file": "Bench",
"old": "let post := clock (n + 10)%nat - clock (n + 9)%nat in",
"new": "let post := clock (n + 10)%nat - clock (n + 8)%nat in",
"definition": "timing_of",
"edit": "post-processing starts at the wrong reading",
"breaks": [
"C50"
]
},
{
"id": "Y4",
"file": "Bench",
"old": "nth (n / 2 - 1) s 0 + nth (n / 2) s 0",
"new": "nth (n / 2) s 0 + nth (n / 2 + 1) s 0",
"definition": "np_median",
"edit": "median of an even series off by one",
"breaks": [
"C51"
]
},
{
"id": "Y5",
"file": "Bench",
"old": "let s := np_sort l in",
"new": "let s := l in",
"definition": "np_median",
"edit": "series not sorted before taking the median",
"breaks": [
"C51"
]
},
{
"id": "Y6",
"file": "Bench",
"old": "(Rmin_of l) (Rmax_of l)",
"new": "(Rmax_of l) (Rmin_of l)",
"definition": "np_summary",
"edit": "min and max swapped",
"breaks": [
"C51"
]
},
{
"id": "Y7",
"file": "Bench",
"old": "let ts := map snd l in",
"new": "let ts := tl (map snd l) in",
"definition": "benchmark",
"edit": "first timing dropped",
"breaks": [
"C51"
]
},
{
"id": "Y8",
"file": "Bench",
"old": "runs w1 o g rg (later g warm clock) num in",
"new": "runs w1 o g rg (later g warm clock) (num + warm) in",
"definition": "benchmark",
"edit": "warm-up trials counted",
"breaks": [
"C51"
]
},
{
"id": "Y9",
"file": "Bench",
"old": "Nat.eqb a b || Nat.eqb a 1 || Nat.eqb b 1",
"new": "true",
"definition": "rows_fit",
"edit": "demonstration length never checked",
"breaks": [
"C52"
]
},
{
"id": "Y10",
"file": "Bench",
"old": "rg (clocks 0%nat) 3 1 in",
"new": "rg (clocks 0%nat) 1 1 in",
"definition": "scenario",
"edit": "one trial per configuration",
"breaks": [
"C52"
]
},
{
"id": "Y11",
"file": "Bench",
"old": "(Some (-3)) (Some 1)",
"new": "(Some (-3)) (Some (-1))",
"definition": "scenario_robot",
"edit": "start inside the lot",
"breaks": [
"C52"
]
},
{
"id": "Y12",
"file": "Bench",
"old": "if Reqb (ti_total t) 0 then (w1, Err ZeroDivisionError)",
"new": "if false then (w1, Err ZeroDivisionError)",
"definition": "run_timed",
"edit": "division by zero in the log line ignored",
"breaks": [
"C50",
"C51"
]
},
{
"id": "V1",
"file": "Tune",
"old": "(\"d_thr_factor\", FromParams)",
"new": "(\"d_thr_factor\", FromBase)",
"definition": "tune_kwargs",
"edit": "suggested d_thr_factor ignored",
"breaks": [
"C53"
]
},
{
"id": "V2",
"file": "Tune",
"old": "suggest (fst ij)",
"new": "suggest (snd ij)",
"definition": "hyperparameters",
"edit": "both parameters get the same suggestion",
"breaks": [
"C53"
]
},
{
"id": "V3",
"file": "Tune",
"old": "5/10 + 5/10 * INR (Nat.min i 9)",
"new": "5/10 * INR (Nat.min i 9)",
"definition": "suggest",
"edit": "grid starts at 0",
"breaks": [
"C53"
]
},
{
"id": "V4",
"file": "Tune",
"old": "INR (Nat.min i 9)",
"new": "INR (Nat.min i 10)",
"definition": "suggest",
"edit": "grid one point too long",
"breaks": [
"C53"
]
},
{
"id": "V5",
"file": "Tune",
"old": "if Rltb (tu_score b) (tu_score r) then r else b",
"new": "if Rltb (tu_score b) (tu_score r) then b else r",
"definition": "best_from",
"edit": "worst trial reported as best",
"breaks": [
"C53"
]
},
{
"id": "V6",
"file": "Tune",
"old": "let w1 := clear_cache w in",
"new": "let w1 := w in",
"definition": "objective",
"edit": "cache not cleared between evaluations",
"breaks": [
"C53"
]
},
{
"id": "V7",
"file": "Tune",
"old": "sample_initial_conditions ng num_eval 42",
"new": "sample_initial_conditions ng num_eval (Z.of_nat number)",
"definition": "objective",
"edit": "seed depends on the trial number",
"breaks": [
"C53"
]
},
{
"id": "V8",
"file": "Tune",
"old": "1 - (c + j) / 2",
"new": "1 - (c - j) / 2",
"definition": "safety",
"edit": "sign in safety",
"breaks": [
"C53"
]
},
{
"id": "V9",
"file": "Tune",
"old": "(\"steering_weight\", FromBase); (\"pref",
"new": "(\"pref",
"definition": "tune_kwargs",
"edit": "steering_weight not passed on",
"breaks": [
"C53"
]
},
{
"id": "V10",
"file": "Tune",
"old": "(\"v_max\", FromBase)",
"new": "(\"v_max\", Fixed (VFloat 3))",
"definition": "tune_kwargs",
"edit": "v_max of the base configuration ignored",
"breaks": [
"C53"
]
},
{
"id": "V11",
"file": "Tune",
"old": "if Nat.ltb step 1 then false",
"new": "if Nat.ltb step 0 then false",
"definition": "should_prune",
"edit": "no warm-up step: pruning happens",
"breaks": [
"C53"
]
},
{
"id": "V12",
"file": "Tune",
"old": "optimize procs sampler worse left' (S number) (done ++ [r])",
"new": "optimize procs sampler worse left' (S number) done",
"definition": "optimize",
"edit": "result not stored",
"breaks": [
"C53"
]
},
{
"id": "V13",
"file": "Tune",
"old": "g_kswitch := num c \"k_switch\"",
"new": "g_kswitch := num c \"d_thr_factor\"",
"definition": "trial_args",
"edit": "wrong value passed on as k_switch",
"breaks": [
"C53"
]
},
{
"id": "V14",
"file": "Tune",
"old": "(sr_success_rate st) (sr_successful st) num_eval))",
"new": "(match safety (sr_collision_rate st) (sr_jackknife_rate st) with Some x => x | None => 0 end) (sr_successful st) num_eval))",
"definition": "objective",
"edit": "score is safety instead of success rate",
"breaks": [
"C53"
]
},
{
"id": "V15",
"file": "Tune",
"old": "(\"Hsample\", VInt 50)",
"new": "(\"Hsample\", VInt 0)",
"definition": "base_config",
"edit": "empty horizon in the base configuration",
"breaks": []
},
{
"id": "Q1",
"file": "Picture",
"old": "(zrange (pk_rows c + 1))",
"new": "(zrange (pk_rows c))",
"definition": "lot_lines",
"edit": "top line missing",
"breaks": [
"C54"
]
},
{
"id": "Q2",
"file": "Picture",
"old": "(zrange (pk_cols c + 1))",
"new": "(zrange (pk_rows c + 1))",
"definition": "lot_lines",
"edit": "wrong count of vertical lines",
"breaks": [
"C54"
]
},
{
"id": "Q3",
"file": "Picture",
"old": "IZR col + 1/2",
"new": "IZR col",
"definition": "space_label",
"edit": "label at the edge of the space",
"breaks": [
"C54"
]
},
{
"id": "Q4",
"file": "Picture",
"old": "let num := (row * pk_cols c + col + 1)%Z in",
"new": "let num := (col * pk_rows c + row + 1)%Z in",
"definition": "space_label",
"edit": "numbers run up the columns",
"breaks": [
"C54"
]
},
{
"id": "Q5",
"file": "Picture",
"old": "if zmem num (pk_occ c) then [] else",
"new": "",
"definition": "space_label",
"edit": "occupied spaces labelled too",
"breaks": [
"C54"
]
},
{
"id": "Q6",
"file": "Picture",
"old": "\"lightgreen\" else if",
"new": "\"lightblue\" else if",
"definition": "space_label",
"edit": "targets not highlighted",
"breaks": [
"C54"
]
},
{
"id": "Q7",
"file": "Picture",
"old": "| _ => (H + 1)%nat end in",
"new": "| _ => H end in",
"definition": "render",
"edit": "one colour too few",
"breaks": [
"C54"
]
},
{
"id": "Q8",
"file": "Picture",
"old": "(e_xr e) (e_yr e))",
"new": "(e_yr e) (e_xr e))",
"definition": "render",
"edit": "axes swapped",
"breaks": [
"C54"
]
},
{
"id": "Q9",
"file": "Picture",
"old": "(rb_circ r) (rb_rect r) path",
"new": "(e_circles (rb_env r)) (rb_rect r) path",
"definition": "render_robot",
"edit": "circles of the environment instead of the robot",
"breaks": [
"C54"
]
},
{
"id": "Q10",
"file": "Picture",
"old": "| true, Some us => (map pos us, traj)",
"new": "| true, Some us => (traj, map pos us)",
"definition": "plan_figure",
"edit": "guided and unguided paths swapped",
"breaks": [
"C54"
]
},
{
"id": "Q11",
"file": "Picture",
"old": "if zmem n (pk_tgt c) then \"T\" else if zmem n (pk_occ c) then \"O\" else \"E\"",
"new": "if zmem n (pk_occ c) then \"O\" else if zmem n (pk_tgt c) then \"T\" else \"E\"",
"definition": "space_symbol",
"edit": "occupied targets printed as O",
"breaks": [
"C54"
]
},
{
"id": "Q12",
"file": "Picture",
"old": "(rev (zrange (pk_rows c)))",
"new": "(zrange (pk_rows c))",
"definition": "print_parking_layout",
"edit": "layout upside down",
"breaks": [
"C54"
]
},
{
"id": "Q13",
"file": "Picture",
"old": "Ok (if ok then (r2, P :: green, red) else (r2, green, P :: red))",
"new": "Ok (if ok then (r2, green, P :: red) else (r2, P :: green, red))",
"definition": "heat_loop",
"edit": "colours swapped",
"breaks": [
"C55"
]
},
{
"id": "Q14",
"file": "Picture",
"old": "INR (length green) / INR total",
"new": "INR (length green) / INR (length red)",
"definition": "heat_map",
"edit": "rate relative to the failures",
"breaks": [
"C55"
]
},
{
"id": "Q15",
"file": "Picture",
"old": "| Some (x :: y :: _) => Ok (x, y)",
"new": "| Some (x :: y :: _) => Ok (y, x)",
"definition": "start_point",
"edit": "coordinates swapped",
"breaks": [
"C55"
]
},
{
"id": "Q16",
"file": "Picture",
"old": "(green, red) :: (if ok then",
"new": "(if ok then (green ++ [P], red) else (green, red ++ [P])) :: (if ok then",
"definition": "progress_loop",
"edit": "marker of the running trial shown",
"breaks": [
"C55"
]
},
{
"id": "Q17",
"file": "Picture",
"old": "match heat_loop r1 rest with",
"new": "match heat_loop r rest with",
"definition": "heat_loop",
"edit": "environment object not carried along (no effect on positions)",
"breaks": [
"C55"
]
},
{
"id": "Q18",
"file": "Picture",
"old": "match rev ts with",
"new": "match ts with",
"definition": "tt_evaluation_with_heat_map",
"edit": "environment of the first trial used",
"breaks": [
"C55"
]
},
{
"id": "Q19",
"file": "Picture",
"old": "match render_robot r [] with",
"new": "match render_robot r (match start_point r with Ok P => [P] | Err _ => [] end) with",
"definition": "heat_map",
"edit": "heat map drawn with a path",
"breaks": [
"C55"
]
},
{
"id": "HX1",
"file": "Cache",
"old": "mkCfg (g_seed gc) n h (g_Ndiffuse gc)",
"new": "mkCfg (g_seed gc) h n (g_Ndiffuse gc)",
"definition": "key_cfg",
"edit": "sample count and horizon swapped",
"breaks": [
"C38"
]
},
{
"id": "HX2",
"file": "Cache",
"old": "(m_logpd (meth w1 o) (data w1 o) (ob_ref (w_obj w1 o))) (ob_rx (w_obj w1 o)) in",
"new": "(m_logpd (meth w1 o) (data w1 o) (ob_ref (w_obj w1 o))) 0 in",
"definition": "call_rev",
"edit": "demonstration reward not used",
"breaks": [
"C38"
]
},
{
"id": "HX3",
"file": "Cache",
"old": "  | Some rf => (w, rf)\n  | None =>\n      let rf := mkRevFunc (w_fns w) g o fs in",
"new": "  | Some _ | None =>\n      let rf := mkRevFunc (w_fns w) g o fs in",
"definition": "get_rev",
"edit": "reverse_once made anew every time",
"breaks": [
"C38"
]
},
{
"id": "HX4",
"file": "Cache",
"old": "    | Some v => (w, v)\n    | None =>\n        let v := m_reset",
"new": "    | Some _ | None =>\n        let v := m_reset",
"definition": "call_reset",
"edit": "reset never answered from its trace",
"breaks": [
"C38"
]
},
{
"id": "HX5",
"file": "Cache",
"old": "fun _ => None) None\n    (t_reset w) (t_reward w) (t_terminal w) (t_step w) (t_roll w) (t_rev w).",
"new": "fun _ => None) None\n    (fun _ => None) (fun _ => None) (fun _ => None) (fun _ _ => None) (t_roll w) (t_rev w).",
"definition": "clear_cache",
"edit": "also forgets the traces of the objects",
"breaks": [
"C38"
]
},
{
"id": "HX6",
"file": "Cache",
"old": "  let c := ob_class (w_obj w o) in\n  match w_env w c with",
"new": "  let c := EmptyString in\n  match w_env w c with",
"definition": "get_funcs",
"edit": "cache key does not name the class",
"breaks": [
"C38"
]
},
{
"id": "HX7",
"file": "Cache",
"old": "(put_obj w2 o (mkObj (ob_class (w_obj w2 o)) (data w2 o) (Some x) rx), Ok tt)",
"new": "(put_obj w2 o (mkObj (ob_class (w_obj w2 o)) (data w2 o) (Some x) (ob_rx (w_obj w2 o))), Ok tt)",
"definition": "prepare_demo",
"edit": "demonstration reward not stored",
"breaks": [
"C38"
]
},
{
"id": "HX8",
"file": "Cache",
"old": "(upd (t_step w1) o (upd_bool (t_step w1 o) viz (Some f)))",
"new": "(upd (t_step w1) o (fun _ => Some f))",
"definition": "call_step",
"edit": "one trace for both modes",
"breaks": [
"C38"
]
},
{
"id": "HX9",
"file": "Cache",
"old": "cached_loop (cached_once rev st0 (rf_cfg rf)) (rr_key rev)",
"new": "cached_loop (cached_once rev st0 g) (rr_key rev)",
"definition": "run",
"edit": "schedule of the current configuration",
"breaks": [
"C38"
]
},
{
"id": "HX10",
"file": "Cache",
"old": "mkPenv st0 (rt_step (rr_roll r)) (rt_step (rr_roll r)) (rt_terminal (rr_roll r))\n    (rt_term_w (rr_roll r)) (rr_steer_w r)",
"new": "mkPenv st0 (rt_step (rr_roll r)) (rt_step (rr_roll r)) (rt_terminal (rr_roll r))\n    (rt_term_w (rr_roll r)) (rr_dmax r)",
"definition": "traced_env",
"edit": "steering weight replaced",
"breaks": [
"C38"
]
},
{
"id": "HX11",
"file": "Cache",
"old": "          (put_obj wu' o b, Some (trajectory_states ustep st0 Y0))",
"new": "          (wu', Some (trajectory_states ustep st0 Y0))",
"definition": "run",
"edit": "guidance not switched on again",
"breaks": [
"C38"
]
},
{
"id": "HX12",
"file": "Setup",
"old": "mkRobot (rb_kind r) (rb_p r) (rb_env r) v (rb_xg r) (rb_circ r)",
"new": "mkRobot (rb_kind r) (rb_p r) (rb_env r) v v (rb_circ r)",
"definition": "set_x0",
"edit": "goal overwritten too",
"breaks": [
"C29"
]
},
{
"id": "HX13",
"file": "Setup",
"old": "(rb_p r) e' (rb_x0 r) (rb_xg r) (rb_circ r) l\n",
"new": "(rb_p r) (rb_env r) (rb_x0 r) (rb_xg r) (rb_circ r) l\n",
"definition": "set_rectangle_obs",
"edit": "environment object not updated",
"breaks": [
"C31"
]
},
{
"id": "HX14",
"file": "EnvModel",
"old": "mkEnv (e_case e) xr yr (e_parking e)",
"new": "mkEnv (e_case e) yr xr (e_parking e)",
"definition": "env_set_plot_limits",
"edit": "axes swapped",
"breaks": [
"C27"
]
},
{
"id": "HX15",
"file": "Demo",
"old": "String.eqb dir \"horizontal\"",
"new": "String.eqb dir \"vertical\"",
"definition": "horizontal",
"edit": "direction inverted",
"breaks": [
"C36"
]
},
{
"id": "HX16",
"file": "Demo",
"old": "pnorm (psub b a) :: seg_lengths rest",
"new": "fst (psub b a) :: seg_lengths rest",
"definition": "seg_lengths",
"edit": "horizontal distance only",
"breaks": [
"C35"
]
},
{
"id": "HX17",
"file": "Demo",
"old": "if Z.ltb best z then argmax_from (S i) i z zs",
"new": "if Z.ltb z best then argmax_from (S i) i z zs",
"definition": "argmax_from",
"edit": "smallest instead of largest",
"breaks": [
"C35"
]
},
{
"id": "HX18",
"file": "Demo",
"old": "(final_segment W) (t_th1 xg) qs)",
"new": "(final_segment W) (t_th2 xg) qs)",
"definition": "demo",
"edit": "initial heading of the loop",
"breaks": [
"C36"
]
},
{
"id": "HX19",
"file": "Demo",
"old": "let pos := where_ (use_tractor pref) (t_px x, t_py x) (tt_trailer_pos p x) in\n    logpd_row p pref pos (t_th1 x) (t_th2 x) r) xs xref)",
"new": "let pos := where_ (use_tractor pref) (tt_trailer_pos p x) (t_px x, t_py x) in\n    logpd_row p pref pos (t_th1 x) (t_th2 x) r) xs xref)",
"definition": "tt_logpd",
"edit": "wrong body followed",
"breaks": [
"C37"
]
},
{
"id": "HX20",
"file": "Demo",
"old": "mkTT (f_px r) (f_py r) (f_th1 r) (f_th2 r).",
"new": "mkTT (f_px r) (f_py r) (f_th2 r) (f_th1 r).",
"definition": "row_tt",
"edit": "headings swapped",
"breaks": [
"C37"
]
},
{
"id": "HX21",
"file": "Demo",
"old": "mkNT (f_px r) (f_py r) (f_th1 r) [f_th2 r].",
"new": "mkNT (f_px r) (f_py r) (f_th1 r) [f_th1 r].",
"definition": "row_nt",
"edit": "trailer heading replaced",
"breaks": [
"C37"
]
},
{
"id": "HX22",
"file": "Demo",
"old": "demo (p_H (bs_p s)) (bs_circ s) (bs_rect s) (b_px x0, b_py x0)",
"new": "demo (p_H (bs_p s)) [] (bs_rect s) (b_px x0, b_py x0)",
"definition": "bk_demo",
"edit": "circles ignored",
"breaks": [
"C36"
]
},
{
"id": "HX23",
"file": "Demo",
"old": "match n_ths q with [] => n_th0 q | t :: _ => t end",
"new": "n_th0 q",
"definition": "nt_th1",
"edit": "tractor heading used for the trailer",
"breaks": [
"C36"
]
},
{
"id": "HX24",
"file": "Stats",
"old": "[px; py; th1; th2] => Some (mkTT px py th1 th2)",
"new": "[px; py; th1; th2] => Some (mkTT px py th2 th1)",
"definition": "vec4",
"edit": "headings swapped",
"breaks": [
"C42"
]
},
{
"id": "HX25",
"file": "Stats",
"old": "(t_px (ts_xg s), t_py (ts_xg s)).",
"new": "(t_py (ts_xg s), t_px (ts_xg s)).",
"definition": "tt_evaluate",
"edit": "goal coordinates swapped",
"breaks": [
"C42"
]
},
{
"id": "HX26",
"file": "Stats",
"old": "evaluate (fun q => q) (bs_coll s) bk_hitch",
"new": "evaluate (fun q => q) bk_hitch bk_hitch",
"definition": "bk_evaluate",
"edit": "collisions not counted",
"breaks": [
"C42"
]
},
{
"id": "HX27",
"file": "Stats",
"old": "evaluate nt_cut (ns_coll s) (nt_hitch s)",
"new": "evaluate (fun q => q) (ns_coll s) (nt_hitch s)",
"definition": "nt_evaluate",
"edit": "state not cut",
"breaks": [
"C42"
]
},
{
"id": "HX28",
"file": "Stats",
"old": "match each f xs with Err e => Err e | Ok ys => Ok (y :: ys) end",
"new": "match each f xs with Err e => Ok [y] | Ok ys => Ok (y :: ys) end",
"definition": "each",
"edit": "later errors swallowed",
"breaks": [
"C42"
]
},
{
"id": "HX29",
"file": "Stats",
"old": "tt_evaluate s 4 (o_traj out)",
"new": "tt_evaluate s 40 (o_traj out)",
"definition": "tt_trial",
"edit": "success threshold",
"breaks": [
"C42"
]
},
{
"id": "HX30",
"file": "Projection",
"old": "(input_scaler (ts_p s) u) (p_dt (ts_p s))).",
"new": "u (p_dt (ts_p s))).",
"definition": "tt_constraint",
"edit": "unscaled control in the constraint",
"breaks": [
"C40"
]
},
{
"id": "HX31",
"file": "Projection",
"old": "minimize (proj_objective u_orig) u_orig proj_bounds (tt_constraint s q)",
"new": "minimize (proj_objective u_orig) (0, 0) proj_bounds (tt_constraint s q)",
"definition": "tt_np_projection",
"edit": "starts at zero",
"breaks": [
"C40"
]
},
{
"id": "HX32",
"file": "Projection",
"old": "tt_step s (tt_project s minimize) guide",
"new": "tt_step s (fun _ u => u) guide",
"definition": "tt_step_p",
"edit": "projection not applied",
"breaks": [
"C40"
]
},
{
"id": "HX33",
"file": "Anim",
"old": "map Some l ++ [None]",
"new": "None :: map Some l",
"definition": "with_final",
"edit": "missing action first",
"breaks": [
"C46"
]
},
{
"id": "HX34",
"file": "Anim",
"old": "(tt_draw (ts_p s)) (ts_coll s) (ts_hitch s)",
"new": "(tt_draw (ts_p s)) (ts_hitch s) (ts_coll s)",
"definition": "tt_animated",
"edit": "checks swapped",
"breaks": [
"C46"
]
},
{
"id": "HX35",
"file": "Anim",
"old": "String.append \"frame_\" (String.append (pad 4 k) \".png\")",
"new": "String.append \"frame_\" (String.append (pad 3 k) \".png\")",
"definition": "frame_name",
"edit": "three digits",
"breaks": [
"C48"
]
},
{
"id": "HX36",
"file": "Anim",
"old": "glob \"frame_\" \".png\" s",
"new": "glob \"frame\" \".png\" s",
"definition": "is_frame",
"edit": "pattern without underscore",
"breaks": [
"C48"
]
},
{
"id": "HX37",
"file": "Anim",
"old": "Some (Image f) => f :: read_frames d (S k) fuel'",
"new": "Some (Image f) => f :: read_frames d (S (S k)) fuel'",
"definition": "read_frames",
"edit": "every second frame",
"breaks": [
"C48"
]
},
{
"id": "HX38",
"file": "Anim",
"old": "animate_trials d1 (S i) rest end",
"new": "animate_trials d1 i rest end",
"definition": "animate_trials",
"edit": "trial number not increased",
"breaks": [
"C49"
]
},
{
"id": "HX39",
"file": "Anim",
"old": "| Ok _ => animations k n' rest",
"new": "| Ok _ => animations k n rest",
"definition": "animations",
"edit": "wheel list not carried along",
"breaks": [
"C48"
]
},
{
"id": "HX40",
"file": "Tune",
"old": "(num c \"temp_sample\") (num c \"beta0\") (num c \"betaT\")",
"new": "(num c \"temp_sample\") (num c \"betaT\") (num c \"beta0\")",
"definition": "planner_cfg",
"edit": "schedule reversed",
"breaks": [
"C53"
]
},
{
"id": "HX41",
"file": "Tune",
"old": "FromParams => match params k with",
"new": "FromParams => match base k with",
"definition": "tune_eval",
"edit": "hyperparameters ignored",
"breaks": [
"C53"
]
},
{
"id": "HX42",
"file": "Planner",
"old": "let '(k', ksample) := prng_split rg k in",
"new": "let '(ksample, k') := prng_split rg k in",
"definition": "reverse_loop",
"edit": "keys swapped",
"breaks": [
"C56"
]
},
{
"id": "AZ19",
"file": "Params",
"old": "Definition delta_max_of_deg (deg : R) : R := deg * PI / 180.\n",
"new": "Definition delta_max_of_deg (deg : R) : R := deg + PI / 180.\n",
"definition": "delta_max_of_deg",
"edit": "* -> +",
"breaks": [],
"timeout": 150
},
{
"id": "AZ20",
"file": "Params",
"old": "Definition theta_max_const : R := PI / 2.\n",
"new": "Definition theta_max_const : R := PI * 2.\n",
"definition": "theta_max_const",
"edit": "/ -> *",
"breaks": [],
"timeout": 150
},
{
"id": "AZ21",
"file": "Params",
"old": "Definition d_thr_of (factor l1 lh l2 : R) : R := factor * (l1 + lh + l2).\n\n",
"new": "Definition d_thr_of (factor l1 lh l2 : R) : R := factor + (l1 + lh + l2).\n\n",
"definition": "d_thr_of",
"edit": "* -> +",
"breaks": [],
"timeout": 150
},
{
"id": "AZ22",
"file": "Params",
"old": "Definition default_params : params := {|\n  p_dt := 2/10; p_H := 50; p_num_trailers := 1; p_motion := 0%Z;\n  p_coll_pen := 15/100; p_sh_coll := true; p_hitch_pen := 10/100; p_sh_hitch := true;\n  p_proj := false; p_guid := false;\n  p_rew_thr := 25; p_ref_thr := 5; p_max_w := 75/100; p_hitch_w := 2/10;\n  p_ref_pos_w := 3/10; p_ref_th1_w := 5/10; p_ref_th2_w := 2/10;\n  p_l1 := 323/100; p_l2 := 29/10; p_lh := 115/100; p_lf1 := 9/10; p_lr := 1848/1000;\n  p_lf2 := 142/100; p_lr2 := 3225/1000;\n  p_trac_w := 2; p_trail_w := 25/10;\n  p_vmax := 3; p_dmax := delta_max_of_deg 55;\n  p_theta_max := theta_max_const; p_phi_max := phi_max_const;\n  p_d_thr := d_thr_of 1 (323/100) (115/100) (29/10);\n  p_k_switch := 25/10; p_steer_w := 5/100; p_pref_w := 5/100; p_head_w := 5/10;\n  p_term_thr := 10; p_term_w := 1 |}.\n\n",
"new": "Definition default_params : params := {|\n  p_dt := 2/10; p_H := 50; p_num_trailers := 1; p_motion := 0%Z;\n  p_coll_pen := 15/100; p_sh_coll := true; p_hitch_pen := 10/100; p_sh_hitch := true;\n  p_proj := false; p_guid := false;\n  p_rew_thr := 25; p_ref_thr := 5; p_max_w := 75/100; p_hitch_w := 2/10;\n  p_ref_pos_w := 3/10; p_ref_th1_w := 5/10; p_ref_th2_w := 2/10;\n  p_l1 := 323/100; p_l2 := 29/10; p_lh := 115/100; p_lf1 := 9/10; p_lr := 1848/1000;\n  p_lf2 := 142/100; p_lr2 := 3225/1000;\n  p_trac_w := 2; p_trail_w := 25/10;\n  p_vmax := 3; p_dmax := delta_max_of_deg 7;\n  p_theta_max := theta_max_const; p_phi_max := phi_max_const;\n  p_d_thr := d_thr_of 1 (323/100) (115/100) (29/10);\n  p_k_switch := 25/10; p_steer_w := 5/100; p_pref_w := 5/100; p_head_w := 5/10;\n  p_term_thr := 10; p_term_w := 1 |}.\n\n",
"definition": "default_params",
"edit": "55 -> 7",
"breaks": [],
"timeout": 150
},
{
"id": "AZ23",
"file": "Geom",
"old": "Definition axis_of_edge (e : pt) : pt :=\n  let n := (- snd e, fst e) in\n  let nn0 := pnorm n in\n  let nn := where_ (Rltb nn0 (/ 100000000)) 1 nn0 in\n  (fst n / nn, snd n / nn).\n",
"new": "Definition axis_of_edge (e : pt) : pt :=\n  let n := (- snd e, fst e) in\n  let nn0 := pnorm n in\n  let nn := where_ (Rleb nn0 (/ 100000000)) 1 nn0 in\n  (fst n / nn, snd n / nn).\n",
"definition": "axis_of_edge",
"edit": "Rltb -> Rleb",
"breaks": [],
"timeout": 150
},
{
"id": "AZ24",
"file": "TT2d",
"old": "Definition tt_axpy (x : ttq) (c : R) (k : ttq) : ttq :=\n  mkTT (t_px x + c * t_px k) (t_py x + c * t_py k)\n       (t_th1 x + c * t_th1 k) (t_th2 x + c * t_th2 k).\n\n",
"new": "Definition tt_axpy (x : ttq) (c : R) (k : ttq) : ttq :=\n  mkTT (t_px x + c * t_px k) (t_py x - c * t_py k)\n       (t_th1 x + c * t_th1 k) (t_th2 x + c * t_th2 k).\n\n",
"definition": "tt_axpy",
"edit": "+ -> -",
"breaks": [],
"timeout": 150
},
{
"id": "AZ25",
"file": "TT2d",
"old": "Definition tt_trailer_pos (p : params) (x : ttq) : pt :=\n  let hx := t_px x - p_lh p * cos (t_th1 x) in\n  let hy := t_py x - p_lh p * sin (t_th1 x) in\n  (hx - p_l2 p * cos (t_th2 x), hy - p_l2 p * sin (t_th2 x)).\n\n",
"new": "Definition tt_trailer_pos (p : params) (x : ttq) : pt :=\n  let hx := t_px x - p_lh p * cos (t_th1 x) in\n  let hy := t_py x - p_lh p * sin (t_th1 x) in\n  (hx - p_l2 p * cos (t_th2 x), hy + p_l2 p * sin (t_th2 x)).\n\n",
"definition": "tt_trailer_pos",
"edit": "- -> +",
"breaks": [],
"timeout": 150
},
{
"id": "AZ26",
"file": "TT2d",
"old": "Definition tt_trailer_back (p : params) (x : ttq) : pt :=\n  let hx := t_px x - p_lh p * cos (t_th1 x) in\n  let hy := t_py x - p_lh p * sin (t_th1 x) in\n  (hx - (p_l2 p + p_lr2 p) * cos (t_th2 x), hy - (p_l2 p + p_lr2 p) * sin (t_th2 x)).\n\n",
"new": "Definition tt_trailer_back (p : params) (x : ttq) : pt :=\n  let hx := t_px x - p_lh p + cos (t_th1 x) in\n  let hy := t_py x - p_lh p * sin (t_th1 x) in\n  (hx - (p_l2 p + p_lr2 p) * cos (t_th2 x), hy - (p_l2 p + p_lr2 p) * sin (t_th2 x)).\n\n",
"definition": "tt_trailer_back",
"edit": "* -> +",
"breaks": [],
"timeout": 150
},
{
"id": "AZ27",
"file": "TT2d",
"old": "Definition tractor_corners (p : params) (px py th : R) : list pt :=\n  let cx := px + 5/10 * (p_l1 p + p_lf1 p - p_lr p) * cos th in\n  let cy := py + 5/10 * (p_l1 p + p_lf1 p - p_lr p) * sin th in\n  box_corners cx cy th ((p_l1 p + p_lf1 p + p_lr p) / 2) (p_trac_w p / 2).\n",
"new": "Definition tractor_corners (p : params) (px py th : R) : list pt :=\n  let cx := px + 5/7 * (p_l1 p + p_lf1 p - p_lr p) * cos th in\n  let cy := py + 5/10 * (p_l1 p + p_lf1 p - p_lr p) * sin th in\n  box_corners cx cy th ((p_l1 p + p_lf1 p + p_lr p) / 2) (p_trac_w p / 2).\n",
"definition": "tractor_corners",
"edit": "10 -> 7",
"breaks": [],
"timeout": 150
},
{
"id": "AZ28",
"file": "TT2d",
"old": "Definition tt_check_collision (p : params) circ rect (x : ttq) : bool :=\n  tt_coll p circ rect x || tt_hitch p x.\n\n",
"new": "Definition tt_check_collision (p : params) circ rect (x : ttq) : bool :=\n  tt_coll p circ rect x && tt_hitch p x.\n\n",
"definition": "tt_check_collision",
"edit": "|| -> &&",
"breaks": [],
"timeout": 150
},
{
"id": "AZ29",
"file": "TT2d",
"old": "Definition sigmoid (z : R) : R := 1 / (1 + exp (- z)).\n\n",
"new": "Definition sigmoid (z : R) : R := 1 / (2 + exp (- z)).\n\n",
"definition": "sigmoid",
"edit": "1 -> 2",
"breaks": [],
"timeout": 150
},
{
"id": "AZ30",
"file": "Bicycle",
"old": "Definition bk_axpy (x : bkq) (c : R) (k : bkq) : bkq :=\n  mkBK (b_px x + c * b_px k) (b_py x + c * b_py k) (b_th x + c * b_th k).\n\n",
"new": "Definition bk_axpy (x : bkq) (c : R) (k : bkq) : bkq :=\n  mkBK (b_px x - c * b_px k) (b_py x + c * b_py k) (b_th x + c * b_th k).\n\n",
"definition": "bk_axpy",
"edit": "+ -> -",
"breaks": [],
"timeout": 150
},
{
"id": "AZ31",
"file": "Bicycle",
"old": "Definition bk_hitch (x : bkq) : bool := false.\n",
"new": "Definition bk_hitch (x : bkq) : bool := true.\n",
"definition": "bk_hitch",
"edit": "false -> true",
"breaks": [],
"timeout": 150
},
{
"id": "AZ32",
"file": "Bicycle",
"old": "Definition bk_back (p : params) (x : bkq) : pt :=\n  (b_px x - p_lh p * cos (b_th x), b_py x - p_lh p * sin (b_th x)).\n\n",
"new": "Definition bk_back (p : params) (x : bkq) : pt :=\n  (b_px x + p_lh p * cos (b_th x), b_py x - p_lh p * sin (b_th x)).\n\n",
"definition": "bk_back",
"edit": "- -> +",
"breaks": [],
"timeout": 150
},
{
"id": "AZ33",
"file": "Bicycle",
"old": "Definition bk_dpos (p : params) (xg q : bkq) : R :=\n  pnorm (psub (b_px q + p_l1 p * cos (b_th q), b_py q + p_l1 p * sin (b_th q)) (b_px xg, b_py xg)).\n",
"new": "Definition bk_dpos (p : params) (xg q : bkq) : R :=\n  pnorm (psub (b_px q + p_l1 p + cos (b_th q), b_py q + p_l1 p * sin (b_th q)) (b_px xg, b_py xg)).\n",
"definition": "bk_dpos",
"edit": "* -> +",
"breaks": [],
"timeout": 150
},
{
"id": "AZ34",
"file": "Bicycle",
"old": "Definition bk_reward (s : bk_self) (q : bkq) : R :=\n  let p := bs_p s in\n  let thetag := b_th (bs_xg s) in\n  let d_pos := bk_dpos p (bs_xg s) q in\n  let r_pos := pos_reward d_pos (p_rew_thr p) in\n  let e1d := wrap_pi (b_th q - thetag) in\n  let e1o := wrap_pi (b_th q - thetag - PI) in\n  let e1w := where_ (Rltb (Rabs e1d) (Rabs e1o)) e1d e1o in\n  let e1 := where_ (Z.eqb (p_motion p) 0) e1w e1d in\n  let r_hdg := 1 - (Rabs e1 / p_theta_max p) * (Rabs e1 / p_theta_max p) in\n  let w := clip (sigmoid ((p_d_thr p - d_pos) / p_k_switch p)) 0 (p_max_w p) in\n  (1 - w) * r_pos + w * r_hdg.\n",
"new": "Definition bk_reward (s : bk_self) (q : bkq) : R :=\n  let p := bs_p s in\n  let thetag := b_th (bs_xg s) in\n  let d_pos := bk_dpos p (bs_xg s) q in\n  let r_pos := pos_reward d_pos (p_rew_thr p) in\n  let e1d := wrap_pi (b_th q - thetag) in\n  let e1o := wrap_pi (b_th q - thetag - PI) in\n  let e1w := where_ (Rltb (Rabs e1d) (Rabs e1o)) e1d e1o in\n  let e1 := where_ (Z.eqb (p_motion p) 0) e1w e1d in\n  let r_hdg := 1 + (Rabs e1 / p_theta_max p) * (Rabs e1 / p_theta_max p) in\n  let w := clip (sigmoid ((p_d_thr p - d_pos) / p_k_switch p)) 0 (p_max_w p) in\n  (1 - w) * r_pos + w * r_hdg.\n",
"definition": "bk_reward",
"edit": "- -> +",
"breaks": [],
"timeout": 150
},
{
"id": "AZ35",
"file": "NTrailer",
"old": "Definition nt_axpy (x : ntq) (c : R) (k : ntq) : ntq :=\n  mkNT (n_px x + c * n_px k) (n_py x + c * n_py k) (n_th0 x + c * n_th0 k)\n       (map2 (fun a b => a + c * b) (n_ths x) (n_ths k)).\n\n",
"new": "Definition nt_axpy (x : ntq) (c : R) (k : ntq) : ntq :=\n  mkNT (n_px x + c + n_px k) (n_py x + c * n_py k) (n_th0 x + c * n_th0 k)\n       (map2 (fun a b => a + c * b) (n_ths x) (n_ths k)).\n\n",
"definition": "nt_axpy",
"edit": "* -> +",
"breaks": [],
"timeout": 150
},
{
"id": "AZ36",
"file": "NTrailer",
"old": "Definition nt_last_body (s : nt_self) (thetas : list R) (carry : pt * pt) (i : nat) : pt * pt :=\n  let '((hx, hy), _) := carry in\n  let th := jget thetas i in\n  let L := jget (ns_len s) i in\n  let lf := jget (ns_front s) i in\n  let cx := hx - L * cos th in\n  let cy := hy - L * sin th in\n  ((cx + lf * cos th, cy + lf * sin th), (cx, cy)).\n",
"new": "Definition nt_last_body (s : nt_self) (thetas : list R) (carry : pt * pt) (i : nat) : pt * pt :=\n  let '((hx, hy), _) := carry in\n  let th := jget thetas i in\n  let L := jget (ns_len s) i in\n  let lf := jget (ns_front s) i in\n  let cx := hx - L * cos th in\n  let cy := hy - L * cos th in\n  ((cx + lf * cos th, cy + lf * sin th), (cx, cy)).\n",
"definition": "nt_last_body",
"edit": "sin -> cos",
"breaks": [],
"timeout": 150
},
{
"id": "AZ37",
"file": "NTrailer",
"old": "Definition nt_last_pos (s : nt_self) (x : ntq) : pt :=\n  let lh := p_lh (ns_p s) in\n  let hitch := (n_px x - lh * cos (n_th0 x), n_py x - lh * sin (n_th0 x)) in\n  snd (fold_left (nt_last_body s (n_ths x)) (seq 0 (ns_N s)) (hitch, hitch)).\n\n",
"new": "Definition nt_last_pos (s : nt_self) (x : ntq) : pt :=\n  let lh := p_lh (ns_p s) in\n  let hitch := (n_px x - lh * sin (n_th0 x), n_py x - lh * sin (n_th0 x)) in\n  snd (fold_left (nt_last_body s (n_ths x)) (seq 0 (ns_N s)) (hitch, hitch)).\n\n",
"definition": "nt_last_pos",
"edit": "cos -> sin",
"breaks": [],
"timeout": 150
},
{
"id": "AZ38",
"file": "NTrailer",
"old": "Definition nt_rect_body (s : nt_self) (thetas : list R) (acc : pt * list (list pt)) (i : nat)\n  : pt * list (list pt) :=\n  let '((hx, hy), out) := acc in\n  let p := ns_p s in\n  let th := jget thetas i in\n  let L := jget (ns_len s) i in\n  let lf := jget (ns_front s) i in\n  let lr := jget (ns_rear s) i in\n  let sc := 5/10 * (lf - lr) - L in\n  let cx := hx + sc * cos th in\n  let cy := hy + sc * sin th in\n  let half_len := 5/10 * (lf + lr) in\n  let corners := box_corners cx cy th half_len (p_trail_w p / 2) in\n  let rx := cx - half_len * cos th in\n  let ry := cy - half_len * sin th in\n  ((rx - p_lh p * cos th, ry - p_lh p * sin th), out ++ [corners]).\n",
"new": "Definition nt_rect_body (s : nt_self) (thetas : list R) (acc : pt * list (list pt)) (i : nat)\n  : pt * list (list pt) :=\n  let '((hx, hy), out) := acc in\n  let p := ns_p s in\n  let th := jget thetas i in\n  let L := jget (ns_len s) i in\n  let lf := jget (ns_front s) i in\n  let lr := jget (ns_rear s) i in\n  let sc := 5/10 * (lf - lr) - L in\n  let cx := hx + sc * cos th in\n  let cy := hy + sc + sin th in\n  let half_len := 5/10 * (lf + lr) in\n  let corners := box_corners cx cy th half_len (p_trail_w p / 2) in\n  let rx := cx - half_len * cos th in\n  let ry := cy - half_len * sin th in\n  ((rx - p_lh p * cos th, ry - p_lh p * sin th), out ++ [corners]).\n",
"definition": "nt_rect_body",
"edit": "* -> +",
"breaks": [],
"timeout": 150
},
{
"id": "AZ39",
"file": "NTrailer",
"old": "Definition nt_trailer_corners (s : nt_self) (x : ntq) : list (list pt) :=\n  let lh := p_lh (ns_p s) in\n  let hitch := (n_px x - lh * cos (n_th0 x), n_py x - lh * sin (n_th0 x)) in\n  snd (fold_left (nt_rect_body s (n_ths x)) (seq 0 (ns_N s)) (hitch, [])).\n\n",
"new": "Definition nt_trailer_corners (s : nt_self) (x : ntq) : list (list pt) :=\n  let lh := p_lh (ns_p s) in\n  let hitch := (n_px x - lh * cos (n_th0 x), n_py x + lh * sin (n_th0 x)) in\n  snd (fold_left (nt_rect_body s (n_ths x)) (seq 0 (ns_N s)) (hitch, [])).\n\n",
"definition": "nt_trailer_corners",
"edit": "- -> +",
"breaks": [],
"timeout": 150
},
{
"id": "AZ40",
"file": "Acc",
"old": "Definition v_threshold : R := 1 / 100.\n",
"new": "Definition v_threshold : R := 2 / 100.\n",
"definition": "v_threshold",
"edit": "1 -> 2",
"breaks": [],
"timeout": 150
},
{
"id": "AZ41",
"file": "Acc",
"old": "Definition max_rollout_steps (s : acc_self) : nat :=\n  Z.to_nat (Int_part (2 * (p_vmax (as_p s) - 0) / (as_amax s * rollout_dt))).\n\n",
"new": "Definition max_rollout_steps (s : acc_self) : nat :=\n  Z.to_nat (Int_part (2 * (p_vmax (as_p s) - 1) / (as_amax s * rollout_dt))).\n\n",
"definition": "max_rollout_steps",
"edit": "0 -> 1",
"breaks": [],
"timeout": 150
},
{
"id": "AZ42",
"file": "Acc",
"old": "Definition acc_axpy (x : accq) (c : R) (k : accq) : accq :=\n  mkAcc (tt_axpy (a_q x) c (a_q k)) (a_v x + c * a_v k) (a_d x + c * a_d k).\n\n",
"new": "Definition acc_axpy (x : accq) (c : R) (k : accq) : accq :=\n  mkAcc (tt_axpy (a_q x) c (a_q k)) (a_v x + c * a_v k) (a_d x - c * a_d k).\n\n",
"definition": "acc_axpy",
"edit": "+ -> -",
"breaks": [],
"timeout": 150
},
{
"id": "AZ43",
"file": "Acc",
"old": "Definition acc_scaler (s : acc_self) (u : act) : act := (fst u * as_amax s, snd u * as_omax s).\n\n",
"new": "Definition acc_scaler (s : acc_self) (u : act) : act := (fst u + as_amax s, snd u * as_omax s).\n\n",
"definition": "acc_scaler",
"edit": "* -> +",
"breaks": [],
"timeout": 150
},
{
"id": "AZ45",
"file": "Planner",
"old": "Fixpoint cumprod_from (acc : R) (l : list R) : list R :=\n  match l with [] => [] | x :: xs => (acc * x) :: cumprod_from (acc * x) xs end.\n",
"new": "Fixpoint cumprod_from (acc : R) (l : list R) : list R :=\n  match l with [] => [] | x :: xs => (acc + x) :: cumprod_from (acc * x) xs end.\n",
"definition": "cumprod_from",
"edit": "* -> +",
"breaks": [],
"timeout": 150
},
{
"id": "AZ46",
"file": "Planner",
"old": "Definition alphas (g : cfg) : list R := map (fun b => 1 - b) (betas g).\n",
"new": "Definition alphas (g : cfg) : list R := map (fun b => 2 - b) (betas g).\n",
"definition": "alphas",
"edit": "1 -> 2",
"breaks": [],
"timeout": 150
},
{
"id": "AZ47",
"file": "Planner",
"old": "Definition sigmas (g : cfg) : list R := map (fun a => sqrt (1 - a)) (alphas_bar g).\n\n",
"new": "Definition sigmas (g : cfg) : list R := map (fun a => sqrt (1 + a)) (alphas_bar g).\n\n",
"definition": "sigmas",
"edit": "- -> +",
"breaks": [],
"timeout": 150
},
{
"id": "AZ48",
"file": "Planner",
"old": "Fixpoint diffs (l : list R) : list R :=\n  match l with\n  | x :: ((y :: _) as rest) => (y - x) :: diffs rest\n  | _ => []\n  end.\n\n",
"new": "Fixpoint diffs (l : list R) : list R :=\n  match l with\n  | x :: ((y :: _) as rest) => (y + x) :: diffs rest\n  | _ => []\n  end.\n\n",
"definition": "diffs",
"edit": "- -> +",
"breaks": [],
"timeout": 150
},
{
"id": "AZ49",
"file": "Planner",
"old": "Definition weighted (f : act -> R) (ws : list R) (Ys : list (list act)) (t : nat) : R :=\n  Rsum (map2 (fun w Y => w * f (nth t Y (0, 0))) ws Ys).\n",
"new": "Definition weighted (f : act -> R) (ws : list R) (Ys : list (list act)) (t : nat) : R :=\n  Rsum (map2 (fun w Y => w * f (nth t Y (0, 1))) ws Ys).\n",
"definition": "weighted",
"edit": "0 -> 1",
"breaks": [],
"timeout": 150
},
{
"id": "AZ50",
"file": "Planner",
"old": "Definition einsum_avg (H : nat) (ws : list R) (Ys : list (list act)) : list act :=\n  map (fun t => (weighted fst ws Ys t, weighted snd ws Ys t)) (seq 0 H).\n\n",
"new": "Definition einsum_avg (H : nat) (ws : list R) (Ys : list (list act)) : list act :=\n  map (fun t => (weighted snd ws Ys t, weighted snd ws Ys t)) (seq 0 H).\n\n",
"definition": "einsum_avg",
"edit": "fst -> snd",
"breaks": [],
"timeout": 150
},
{
"id": "AZ51",
"file": "Planner",
"old": "Definition act_scale (c : R) (a : act) : act := (c * fst a, c * snd a).\n",
"new": "Definition act_scale (c : R) (a : act) : act := (c * fst a, c + snd a).\n",
"definition": "act_scale",
"edit": "* -> +",
"breaks": [],
"timeout": 150
},
{
"id": "AZ52",
"file": "Planner",
"old": "Definition act_add (a b : act) : act := (fst a + fst b, snd a + snd b).\n\n",
"new": "Definition act_add (a b : act) : act := (fst a + snd b, snd a + snd b).\n\n",
"definition": "act_add",
"edit": "fst -> snd",
"breaks": [],
"timeout": 150
},
{
"id": "AZ54",
"file": "Planner",
"old": "Definition YN : list act := repeat (0, 0) (g_Hsample g).\n",
"new": "Definition YN : list act := repeat (0, 1) (g_Hsample g).\n",
"definition": "YN",
"edit": "0 -> 1",
"breaks": [],
"timeout": 150
},
{
"id": "AZ55",
"file": "Instances",
"old": "Definition tt_penv (s : tt_self) (x0 : ttq) proj guide (logpd : list ttq -> Z -> R) (rew_xref : R) : penv ttq :=\n  {| pe_reset := reset_state x0;\n     pe_step := tt_step s proj guide;\n     pe_step_viz := tt_step_internal s proj guide true;\n     pe_terminal := tt_terminal s;\n     pe_term_w := p_term_w (ts_p s); pe_steer_w := p_steer_w (ts_p s); pe_dmax := p_dmax (ts_p s);\n     pe_logpd := logpd; pe_rew_xref := rew_xref |}.\n\n",
"new": "Definition tt_penv (s : tt_self) (x0 : ttq) proj guide (logpd : list ttq -> Z -> R) (rew_xref : R) : penv ttq :=\n  {| pe_reset := reset_state x0;\n     pe_step := tt_step s proj guide;\n     pe_step_viz := tt_step_internal s proj guide false;\n     pe_terminal := tt_terminal s;\n     pe_term_w := p_term_w (ts_p s); pe_steer_w := p_steer_w (ts_p s); pe_dmax := p_dmax (ts_p s);\n     pe_logpd := logpd; pe_rew_xref := rew_xref |}.\n\n",
"definition": "tt_penv",
"edit": "true -> false",
"breaks": [],
"timeout": 150
},
{
"id": "AZ56",
"file": "Instances",
"old": "Definition bk_penv (s : bk_self) (x0 : bkq) proj guide (logpd : list bkq -> Z -> R) (rew_xref : R) : penv bkq :=\n  {| pe_reset := reset_state x0;\n     pe_step := bk_step s proj guide;\n     pe_step_viz := bk_step_internal s proj guide true;\n     pe_terminal := bk_terminal s;\n     pe_term_w := p_term_w (bs_p s); pe_steer_w := p_steer_w (bs_p s); pe_dmax := p_dmax (bs_p s);\n     pe_logpd := logpd; pe_rew_xref := rew_xref |}.\n\n",
"new": "Definition bk_penv (s : bk_self) (x0 : bkq) proj guide (logpd : list bkq -> Z -> R) (rew_xref : R) : penv bkq :=\n  {| pe_reset := reset_state x0;\n     pe_step := bk_step s proj guide;\n     pe_step_viz := bk_step_internal s proj guide false;\n     pe_terminal := bk_terminal s;\n     pe_term_w := p_term_w (bs_p s); pe_steer_w := p_steer_w (bs_p s); pe_dmax := p_dmax (bs_p s);\n     pe_logpd := logpd; pe_rew_xref := rew_xref |}.\n\n",
"definition": "bk_penv",
"edit": "true -> false",
"breaks": [],
"timeout": 150
},
{
"id": "AZ57",
"file": "Instances",
"old": "Definition nt_penv (s : nt_self) (x0 : ntq) guide (logpd : list ntq -> Z -> R) (rew_xref : R) : penv ntq :=\n  {| pe_reset := reset_state x0;\n     pe_step := nt_step_core s guide false;\n     pe_step_viz := nt_step_core s guide true;\n     pe_terminal := nt_terminal s;\n     pe_term_w := p_term_w (ns_p s); pe_steer_w := p_steer_w (ns_p s); pe_dmax := p_dmax (ns_p s);\n     pe_logpd := logpd; pe_rew_xref := rew_xref |}.\n",
"new": "Definition nt_penv (s : nt_self) (x0 : ntq) guide (logpd : list ntq -> Z -> R) (rew_xref : R) : penv ntq :=\n  {| pe_reset := reset_state x0;\n     pe_step := nt_step_core s guide true;\n     pe_step_viz := nt_step_core s guide true;\n     pe_terminal := nt_terminal s;\n     pe_term_w := p_term_w (ns_p s); pe_steer_w := p_steer_w (ns_p s); pe_dmax := p_dmax (ns_p s);\n     pe_logpd := logpd; pe_rew_xref := rew_xref |}.\n",
"definition": "nt_penv",
"edit": "false -> true",
"breaks": [],
"timeout": 150
},
{
"id": "AZ58",
"file": "Instances",
"old": "Definition nt_run (s : nt_self) (x0 : ntq) guide logpd rew_xref (g : cfg) (rg : prng) : Res (result (Q := ntq)) :=\n  if negb (Nat.eqb (length (n_ths x0)) (ns_N s)) then Err AssertionError\n  else if p_proj (ns_p s) then Err AssertionError\n  else run_diffusion (nt_penv s x0 guide logpd rew_xref) (Some g) rg.\n\n",
"new": "Definition nt_run (s : nt_self) (x0 : ntq) guide logpd rew_xref (g : cfg) (rg : prng) : Res (result (Q := ntq)) :=\n  if  (Nat.eqb (length (n_ths x0)) (ns_N s)) then Err AssertionError\n  else if p_proj (ns_p s) then Err AssertionError\n  else run_diffusion (nt_penv s x0 guide logpd rew_xref) (Some g) rg.\n\n",
"definition": "nt_run",
"edit": "negb -> ",
"breaks": [],
"timeout": 150
},
{
"id": "AZ59",
"file": "Instances",
"old": "Definition acc_penv (s : acc_self) (x0 : accq) proj guide (logpd : list accq -> Z -> R) (rew_xref : R) : penv accq :=\n  {| pe_reset := reset_state x0;\n     pe_step := acc_step s proj guide;\n     pe_step_viz := acc_step_internal s proj guide true;\n     pe_terminal := acc_terminal s;\n     pe_term_w := p_term_w (as_p s); pe_steer_w := p_steer_w (as_p s); pe_dmax := p_dmax (as_p s);\n     pe_logpd := logpd; pe_rew_xref := rew_xref |}.\n",
"new": "Definition acc_penv (s : acc_self) (x0 : accq) proj guide (logpd : list accq -> Z -> R) (rew_xref : R) : penv accq :=\n  {| pe_reset := reset_state x0;\n     pe_step := acc_step s proj guide;\n     pe_step_viz := acc_step_internal s proj guide false;\n     pe_terminal := acc_terminal s;\n     pe_term_w := p_term_w (as_p s); pe_steer_w := p_steer_w (as_p s); pe_dmax := p_dmax (as_p s);\n     pe_logpd := logpd; pe_rew_xref := rew_xref |}.\n",
"definition": "acc_penv",
"edit": "true -> false",
"breaks": [],
"timeout": 150
},
{
"id": "AZ60",
"file": "EnvModel",
"old": "Definition default_parking : parking := {|\n  pk_rows := 2; pk_cols := 8; pk_w := 35/10; pk_len := 7; pk_yoff := 4;\n  pk_occ := [1; 2; 4; 5; 6; 7; 9; 10; 12; 13; 14; 15]%Z; pk_tgt := [3; 11]%Z; pk_rad := 1 |}.\n\n",
"new": "Definition default_parking : parking := {|\n  pk_rows := 2; pk_cols := 8; pk_w := 35/10; pk_len := 7; pk_yoff := 4;\n  pk_occ := [1; 3; 4; 5; 6; 7; 9; 10; 12; 13; 14; 15]%Z; pk_tgt := [3; 11]%Z; pk_rad := 1 |}.\n\n",
"definition": "default_parking",
"edit": "2 -> 3",
"breaks": [],
"timeout": 150
},
{
"id": "AZ61",
"file": "EnvModel",
"old": "Definition parking_rects : list rectobs := [ mkRect 0 15 30 1 0; mkRect 0 (-14) 30 1 0 ].\n\n",
"new": "Definition parking_rects : list rectobs := [ mkRect 0 15 30 1 0; mkRect 1 (-14) 30 1 0 ].\n\n",
"definition": "parking_rects",
"edit": "0 -> 1",
"breaks": [],
"timeout": 150
},
{
"id": "AZ62",
"file": "EnvModel",
"old": "Definition or_dummy (l : list circle) : list circle :=\n  match l with [] => [mkCircle 0 0 0] | _ => l end.\n\n",
"new": "Definition or_dummy (l : list circle) : list circle :=\n  match l with [] => [mkCircle 0 0 1] | _ => l end.\n\n",
"definition": "or_dummy",
"edit": "0 -> 1",
"breaks": [],
"timeout": 150
},
{
"id": "AZ63",
"file": "EnvModel",
"old": "Definition env_init (width height : R) (case : string) (cfg : option parking) : Res env_obj :=\n  let xr := (- width / 2, width / 2) in\n  let yr := (- height / 2, height / 2) in\n  if String.eqb case \"parking\" then\n    let c := match cfg with None => default_parking | Some c => c end in\n    match parking_circles (fst yr) c (pk_occ c) with\n    | Err e => Err e\n    | Ok circles => Ok (mkEnv case xr yr (Some c) (or_dummy circles) parking_rects)\n    end\n  else if String.eqb case \"navigation\" then\n    Ok (mkEnv case xr yr None (or_dummy []) [])\n  else Err ValueError.\n\n",
"new": "Definition env_init (width height : R) (case : string) (cfg : option parking) : Res env_obj :=\n  let xr := (- width / 2, width / 2) in\n  let yr := (- height / 2, height * 2) in\n  if String.eqb case \"parking\" then\n    let c := match cfg with None => default_parking | Some c => c end in\n    match parking_circles (fst yr) c (pk_occ c) with\n    | Err e => Err e\n    | Ok circles => Ok (mkEnv case xr yr (Some c) (or_dummy circles) parking_rects)\n    end\n  else if String.eqb case \"navigation\" then\n    Ok (mkEnv case xr yr None (or_dummy []) [])\n  else Err ValueError.\n\n",
"definition": "env_init",
"edit": "/ -> *",
"breaks": [],
"timeout": 150
},
{
"id": "AZ64",
"file": "EnvModel",
"old": "Definition get_parking_space_center (e : env_obj) (n : Z) : Res (R * R) :=\n  if negb (String.eqb (e_case e) \"parking\") then Err ValueError\n  else match e_parking e with\n       | None => Err AttributeError\n       | Some c => space_center (fst (e_yr e)) c n\n       end.\n\n",
"new": "Definition get_parking_space_center (e : env_obj) (n : Z) : Res (R * R) :=\n  if negb (String.eqb (e_case e) \"parking\") then Err ValueError\n  else match e_parking e with\n       | None => Err AttributeError\n       | Some c => space_center (snd (e_yr e)) c n\n       end.\n\n",
"definition": "get_parking_space_center",
"edit": "fst -> snd",
"breaks": [],
"timeout": 150
},
{
"id": "AZ65",
"file": "EnvModel",
"old": "Definition default_init_pos (e : env_obj) (case : string) : Res (list R) :=\n  if String.eqb case \"parking\" then Ok [fst (e_xr e) + 2; snd (e_yr e) - 2; 1/10; 1/10]\n  else Err ValueError.\n\n",
"new": "Definition default_init_pos (e : env_obj) (case : string) : Res (list R) :=\n  if String.eqb case \"parking\" then Ok [fst (e_xr e) + 3; snd (e_yr e) - 2; 1/10; 1/10]\n  else Err ValueError.\n\n",
"definition": "default_init_pos",
"edit": "2 -> 3",
"breaks": [],
"timeout": 150
},
{
"id": "AZ66",
"file": "EnvModel",
"old": "Definition is_in_bounds (e : env_obj) (x y : R) : bool :=\n  (Rleb (fst (e_xr e)) x && Rleb x (snd (e_xr e))) && (Rleb (fst (e_yr e)) y && Rleb y (snd (e_yr e))).\n\n",
"new": "Definition is_in_bounds (e : env_obj) (x y : R) : bool :=\n  (Rleb (fst (e_xr e)) x && Rleb x (snd (e_xr e))) && (Rleb (snd (e_yr e)) y && Rleb y (snd (e_yr e))).\n\n",
"definition": "is_in_bounds",
"edit": "fst -> snd",
"breaks": [],
"timeout": 150
},
{
"id": "AZ67",
"file": "Setup",
"old": "Definition initial_x0 (k : ctor_args) (e : env_obj) : Res (option (list R)) :=\n  match k_x0 k with\n  | Some v => Ok (Some v)\n  | None =>\n      if String.eqb (k_case k) \"parking\" then\n        match default_init_pos e (k_case k) with Ok v => Ok (Some v) | Err x => Err x end\n      else if String.eqb (k_case k) \"navigation\" then Ok (Some [0; 0; 0; 0])\n      else Ok None\n  end.\n\n",
"new": "Definition initial_x0 (k : ctor_args) (e : env_obj) : Res (option (list R)) :=\n  match k_x0 k with\n  | Some v => Ok (Some v)\n  | None =>\n      if String.eqb (k_case k) \"parking\" then\n        match default_init_pos e (k_case k) with Ok v => Ok (Some v) | Err x => Err x end\n      else if String.eqb (k_case k) \"navigation\" then Ok (Some [0; 0; 0; 1])\n      else Ok None\n  end.\n\n",
"definition": "initial_x0",
"edit": "0 -> 1",
"breaks": [],
"timeout": 150
},
{
"id": "AZ68",
"file": "Setup",
"old": "Definition initial_xg (k : ctor_args) (e : env_obj) : Res (option (list R)) :=\n  match k_xg k with\n  | Some v => Ok (Some v)\n  | None =>\n      if String.eqb (k_case k) \"parking\" then\n        match default_goal_pos e (k_case k) with Ok v => Ok (Some v) | Err x => Err x end\n      else if String.eqb (k_case k) \"navigation\" then Ok (Some [0; 0; PI; PI])\n      else Ok None\n  end.\n\n",
"new": "Definition initial_xg (k : ctor_args) (e : env_obj) : Res (option (list R)) :=\n  match k_xg k with\n  | Some v => Ok (Some v)\n  | None =>\n      if String.eqb (k_case k) \"parking\" then\n        match default_goal_pos e (k_case k) with Ok v => Ok (Some v) | Err x => Err x end\n      else if String.eqb (k_case k) \"navigation\" then Ok (Some [0; 1; PI; PI])\n      else Ok None\n  end.\n\n",
"definition": "initial_xg",
"edit": "0 -> 1",
"breaks": [],
"timeout": 150
},
{
"id": "AZ69",
"file": "Setup",
"old": "Definition tt_init (kd : kind) (k : ctor_args) (num_trailers : nat) : Res robot :=\n  let env := match k_env k with\n             | None => env_init 32 32 (k_case k) None\n             | Some e => Ok e\n             end in\n  match env with\n  | Err x => Err x\n  | Ok e =>\n      match initial_x0 k e with\n      | Err x => Err x\n      | Ok x0 =>\n          match initial_xg k e with\n          | Err x => Err x\n          | Ok xg => Ok (mkRobot kd (params_of k num_trailers) e x0 xg (e_circles e) (e_rects e) 0 0 [] [] [])\n          end\n      end\n  end.\n\n",
"new": "Definition tt_init (kd : kind) (k : ctor_args) (num_trailers : nat) : Res robot :=\n  let env := match k_env k with\n             | None => env_init 32 7 (k_case k) None\n             | Some e => Ok e\n             end in\n  match env with\n  | Err x => Err x\n  | Ok e =>\n      match initial_x0 k e with\n      | Err x => Err x\n      | Ok x0 =>\n          match initial_xg k e with\n          | Err x => Err x\n          | Ok xg => Ok (mkRobot kd (params_of k num_trailers) e x0 xg (e_circles e) (e_rects e) 0 0 [] [] [])\n          end\n      end\n  end.\n\n",
"definition": "tt_init",
"edit": "32 -> 7",
"breaks": [],
"timeout": 150
},
{
"id": "AZ70",
"file": "Setup",
"old": "Definition bk_init (k : ctor_args) : Res robot :=\n  match tt_init KBK k 1 with\n  | Err x => Err x\n  | Ok r => Ok (set_xg (set_x0 r (option_map (firstn 3) (rb_x0 r))) (option_map (firstn 3) (rb_xg r)))\n  end.\n\n",
"new": "Definition bk_init (k : ctor_args) : Res robot :=\n  match tt_init KBK k 2 with\n  | Err x => Err x\n  | Ok r => Ok (set_xg (set_x0 r (option_map (firstn 3) (rb_x0 r))) (option_map (firstn 3) (rb_xg r)))\n  end.\n\n",
"definition": "bk_init",
"edit": "1 -> 2",
"breaks": [],
"timeout": 150
},
{
"id": "AZ71",
"file": "Setup",
"old": "Definition acc_init (k : ctor_args) (a_max omega_max : R) : Res robot :=\n  match tt_init KACC k 1 with\n  | Err x => Err x\n  | Ok r =>\n      if Reqb a_max 0 then Err ZeroDivisionError\n      else\n        let x0 := match rb_x0 r with Some v => v ++ [0; 0] | None => [0; 0; 0; 0; 0; 0] end in\n        let xg := match rb_xg r with Some v => v ++ [0; 0] | None => [3; 0; PI; PI; 0; 0] end in\n        Ok (mkRobot KACC (rb_p r) (rb_env r) (Some x0) (Some xg) (rb_circ r) (rb_rect r)\n              a_max omega_max [] [] [])\n  end.\n\n",
"new": "Definition acc_init (k : ctor_args) (a_max omega_max : R) : Res robot :=\n  match tt_init KACC k 1 with\n  | Err x => Err x\n  | Ok r =>\n      if Reqb a_max 0 then Err ZeroDivisionError\n      else\n        let x0 := match rb_x0 r with Some v => v ++ [0; 0] | None => [0; 0; 0; 0; 0; 0] end in\n        let xg := match rb_xg r with Some v => v ++ [1; 0] | None => [3; 0; PI; PI; 0; 0] end in\n        Ok (mkRobot KACC (rb_p r) (rb_env r) (Some x0) (Some xg) (rb_circ r) (rb_rect r)\n              a_max omega_max [] [] [])\n  end.\n\n",
"definition": "acc_init",
"edit": "0 -> 1",
"breaks": [],
"timeout": 150
},
{
"id": "AZ72",
"file": "Setup",
"old": "Definition observation_size (r : robot) : nat :=\n  match rb_kind r with KTT => 4 | KBK => 3 | KNT => 3 + p_num_trailers (rb_p r) | KACC => 6 end.\n\n",
"new": "Definition observation_size (r : robot) : nat :=\n  match rb_kind r with KTT => 4 | KBK => 3 | KNT => 3 - p_num_trailers (rb_p r) | KACC => 6 end.\n\n",
"definition": "observation_size",
"edit": "+ -> -",
"breaks": [],
"timeout": 150
},
{
"id": "AZ73",
"file": "Setup",
"old": "Definition default_env_args (name case : string) (trailers : Z) : env_args := {|\n  g_name := name; g_case := case; g_env := None; g_dt := 2/10; g_H := 50; g_motion := 0;\n  g_coll_pen := 15/100; g_hitch_pen := 10/100; g_sh_coll := true; g_sh_hitch := true;\n  g_proj := false; g_guid := false; g_rew_thr := 25; g_ref_thr := 5; g_max_w := 75/100;\n  g_hitch_w := 2/10; g_l1 := 323/100; g_l2 := 29/10; g_lh := 115/100; g_lf1 := 9/10;\n  g_lr := 1848/1000; g_lf2 := 142/100; g_lr2 := 3225/1000; g_trac_w := 2; g_trail_w := 25/10;\n  g_vmax := 3; g_ddeg := 55; g_d_fac := 1; g_kswitch := 25/10; g_steer_w := 5/100; g_pref_w := 5/100;\n  g_head_w := 5/10; g_term_thr := 10; g_term_w := 1; g_rpos_w := 3/10; g_rth1_w := 5/10;\n  g_rth2_w := 2/10; g_amax := 2; g_omax := 1; g_trailers := trailers |}.\n",
"new": "Definition default_env_args (name case : string) (trailers : Z) : env_args := {|\n  g_name := name; g_case := case; g_env := None; g_dt := 2/10; g_H := 50; g_motion := 0;\n  g_coll_pen := 15/100; g_hitch_pen := 10/100; g_sh_coll := true; g_sh_hitch := true;\n  g_proj := false; g_guid := false; g_rew_thr := 25; g_ref_thr := 5; g_max_w := 75/100;\n  g_hitch_w := 2/10; g_l1 := 323/100; g_l2 := 29/10; g_lh := 115/100; g_lf1 := 9/10;\n  g_lr := 1848/1000; g_lf2 := 142/100; g_lr2 := 3225/1000; g_trac_w := 2; g_trail_w := 25/10;\n  g_vmax := 3; g_ddeg := 55; g_d_fac := 1; g_kswitch := 25/10; g_steer_w := 5/100; g_pref_w := 5/100;\n  g_head_w := 5/10; g_term_thr := 10; g_term_w := 1; g_rpos_w := 3/10; g_rth1_w := 5/10;\n  g_rth2_w := 2/10; g_amax := 2; g_omax := 2; g_trailers := trailers |}.\n",
"definition": "default_env_args",
"edit": "1 -> 2",
"breaks": [],
"timeout": 150
},
{
"id": "AZ74",
"file": "Config",
"old": "Definition dataclass_fields : list (string * ty * val) := [\n  (\"seed\", TInt, VInt 42);\n  (\"env_name\", TStr, VStr \"acc_tt2d\");\n  (\"case\", TStr, VStr \"parking\");\n  (\"verbose\", TBool, VBool false);\n  (\"Nsample\", TInt, VInt 20000);\n  (\"Hsample\", TInt, VInt 50);\n  (\"Ndiffuse\", TInt, VInt 100);\n  (\"temp_sample\", TFloat, VFloat (1/100000));\n  (\"beta0\", TFloat, VFloat (1/100000));\n  (\"betaT\", TFloat, VFloat (1/100));\n  (\"enable_demo\", TBool, VBool false);\n  (\"motion_preference\", TInt, VInt 0);\n  (\"collision_penalty\", TFloat, VFloat (3/20));\n  (\"hitch_penalty\", TFloat, VFloat (1/10));\n  (\"enable_shielded_rollout_collision\", TBool, VBool true);\n  (\"enable_shielded_rollout_hitch\", TBool, VBool true);\n  (\"enable_projection\", TBool, VBool false);\n  (\"enable_guidance\", TBool, VBool false);\n  (\"l1\", TFloat, VFloat (323/100));\n  (\"l2\", TFloat, VFloat (29/10));\n  (\"lh\", TFloat, VFloat (23/20));\n  (\"lf1\", TFloat, VFloat (9/10));\n  (\"lr\", TFloat, VFloat (231/125));\n  (\"lf2\", TFloat, VFloat (71/50));\n  (\"lr2\", TFloat, VFloat (129/40));\n  (\"tractor_width\", TFloat, VFloat (2));\n  (\"trailer_width\", TFloat, VFloat (5/2));\n  (\"v_max\", TFloat, VFloat (3));\n  (\"delta_max_deg\", TFloat, VFloat (55));\n  (\"a_max\", TFloat, VFloat (2));\n  (\"omega_max\", TFloat, VFloat (1));\n  (\"reward_threshold\", TFloat, VFloat (50));\n  (\"ref_reward_threshold\", TFloat, VFloat (10));\n  (\"max_w_theta\", TFloat, VFloat (1/2));\n  (\"hitch_angle_weight\", TFloat, VFloat (1/100));\n  (\"terminal_reward_threshold\", TFloat, VFloat (20));\n  (\"terminal_reward_weight\", TFloat, VFloat (5));\n  (\"d_thr_factor\", TFloat, VFloat (1));\n  (\"k_switch\", TFloat, VFloat (5/2));\n  (\"steering_weight\", TFloat, VFloat (1/100));\n  (\"preference_penalty_weight\", TFloat, VFloat (1/2));\n  (\"heading_reward_weight\", TFloat, VFloat (1/2));\n  (\"ref_pos_weight\", TFloat, VFloat (4/5));\n  (\"ref_theta1_weight\", TFloat, VFloat (1/10));\n  (\"ref_theta2_weight\", TFloat, VFloat (1/10));\n  (\"render\", TBool, VBool true);\n  (\"save_animation\", TBool, VBool false);\n  (\"show_animation\", TBool, VBool true);\n  (\"save_denoising_animation\", TBool, VBool false);\n  (\"frame_skip\", TInt, VInt 1);\n  (\"dt\", TFloat, VFloat (1/4));\n  (\"num_trailers\", TInt, VInt 1)\n].\n\n",
"new": "Definition dataclass_fields : list (string * ty * val) := [\n  (\"seed\", TInt, VInt 42);\n  (\"env_name\", TStr, VStr \"acc_tt2d\");\n  (\"case\", TStr, VStr \"parking\");\n  (\"verbose\", TBool, VBool false);\n  (\"Nsample\", TInt, VInt 20000);\n  (\"Hsample\", TInt, VInt 50);\n  (\"Ndiffuse\", TInt, VInt 100);\n  (\"temp_sample\", TFloat, VFloat (1/100000));\n  (\"beta0\", TFloat, VFloat (1/100000));\n  (\"betaT\", TFloat, VFloat (1/100));\n  (\"enable_demo\", TBool, VBool false);\n  (\"motion_preference\", TInt, VInt 0);\n  (\"collision_penalty\", TFloat, VFloat (3/20));\n  (\"hitch_penalty\", TFloat, VFloat (1/10));\n  (\"enable_shielded_rollout_collision\", TBool, VBool true);\n  (\"enable_shielded_rollout_hitch\", TBool, VBool true);\n  (\"enable_projection\", TBool, VBool false);\n  (\"enable_guidance\", TBool, VBool false);\n  (\"l1\", TFloat, VFloat (323/100));\n  (\"l2\", TFloat, VFloat (29/7));\n  (\"lh\", TFloat, VFloat (23/20));\n  (\"lf1\", TFloat, VFloat (9/10));\n  (\"lr\", TFloat, VFloat (231/125));\n  (\"lf2\", TFloat, VFloat (71/50));\n  (\"lr2\", TFloat, VFloat (129/40));\n  (\"tractor_width\", TFloat, VFloat (2));\n  (\"trailer_width\", TFloat, VFloat (5/2));\n  (\"v_max\", TFloat, VFloat (3));\n  (\"delta_max_deg\", TFloat, VFloat (55));\n  (\"a_max\", TFloat, VFloat (2));\n  (\"omega_max\", TFloat, VFloat (1));\n  (\"reward_threshold\", TFloat, VFloat (50));\n  (\"ref_reward_threshold\", TFloat, VFloat (10));\n  (\"max_w_theta\", TFloat, VFloat (1/2));\n  (\"hitch_angle_weight\", TFloat, VFloat (1/100));\n  (\"terminal_reward_threshold\", TFloat, VFloat (20));\n  (\"terminal_reward_weight\", TFloat, VFloat (5));\n  (\"d_thr_factor\", TFloat, VFloat (1));\n  (\"k_switch\", TFloat, VFloat (5/2));\n  (\"steering_weight\", TFloat, VFloat (1/100));\n  (\"preference_penalty_weight\", TFloat, VFloat (1/2));\n  (\"heading_reward_weight\", TFloat, VFloat (1/2));\n  (\"ref_pos_weight\", TFloat, VFloat (4/5));\n  (\"ref_theta1_weight\", TFloat, VFloat (1/10));\n  (\"ref_theta2_weight\", TFloat, VFloat (1/10));\n  (\"render\", TBool, VBool true);\n  (\"save_animation\", TBool, VBool false);\n  (\"show_animation\", TBool, VBool true);\n  (\"save_denoising_animation\", TBool, VBool false);\n  (\"frame_skip\", TInt, VInt 1);\n  (\"dt\", TFloat, VFloat (1/4));\n  (\"num_trailers\", TInt, VInt 1)\n].\n\n",
"definition": "dataclass_fields",
"edit": "10 -> 7",
"breaks": [],
"timeout": 150
},
{
"id": "AZ75",
"file": "Config",
"old": "Definition trunc (x : R) : Z := if Rltb x 0 then (- Int_part (- x))%Z else Int_part x.\n",
"new": "Definition trunc (x : R) : Z := if Rltb x 1 then (- Int_part (- x))%Z else Int_part x.\n",
"definition": "trunc",
"edit": "0 -> 1",
"breaks": [],
"timeout": 150
},
{
"id": "AZ76",
"file": "Config",
"old": "Definition to_type (repr : val -> string) (t : ty) (v : val) : Res val :=\n  match t, v with\n  | TInt, VInt z => Ok (VInt z)\n  | TInt, VFloat x => Ok (VInt (trunc x))\n  | TInt, VBool b => Ok (VInt (if b then 1 else 0))\n  | TInt, VStr _ => Err ValueError\n  | TFloat, VInt z => Ok (VFloat (IZR z))\n  | TFloat, VFloat x => Ok (VFloat x)\n  | TFloat, VBool b => Ok (VFloat (if b then 1 else 0))\n  | TFloat, VStr _ => Err ValueError\n  | TBool, VInt z => Ok (VBool (negb (Z.eqb z 0)))\n  | TBool, VFloat x => Ok (VBool (negb (Reqb x 0)))\n  | TBool, VBool b => Ok (VBool b)\n  | TBool, VStr s => Ok (VBool (negb (String.eqb s \"\")))\n  | TStr, VStr s => Ok (VStr s)\n  | TStr, _ => Ok (VStr (repr v))\n  end.\n\n",
"new": "Definition to_type (repr : val -> string) (t : ty) (v : val) : Res val :=\n  match t, v with\n  | TInt, VInt z => Ok (VInt z)\n  | TInt, VFloat x => Ok (VInt (trunc x))\n  | TInt, VBool b => Ok (VInt (if b then 1 else 0))\n  | TInt, VStr _ => Err ValueError\n  | TFloat, VInt z => Ok (VFloat (IZR z))\n  | TFloat, VFloat x => Ok (VFloat x)\n  | TFloat, VBool b => Ok (VFloat (if b then 1 else 0))\n  | TFloat, VStr _ => Err ValueError\n  | TBool, VInt z => Ok (VBool (negb (Z.eqb z 0)))\n  | TBool, VFloat x => Ok (VBool (negb (Reqb x 0)))\n  | TBool, VBool b => Ok (VBool b)\n  | TBool, VStr s => Ok (VBool ( (String.eqb s \"\")))\n  | TStr, VStr s => Ok (VStr s)\n  | TStr, _ => Ok (VStr (repr v))\n  end.\n\n",
"definition": "to_type",
"edit": "negb -> ",
"breaks": [],
"timeout": 150
},
{
"id": "AZ79",
"file": "Demo",
"old": "Definition round_even (x : R) : Z :=\n  let f := Int_part x in\n  let d := x - IZR f in\n  if Rlt_dec d (1 / 2) then f\n  else if Rlt_dec (1 / 2) d then (f + 1)%Z\n  else if Z.even f then f else (f + 1)%Z.\n\n",
"new": "Definition round_even (x : R) : Z :=\n  let f := Int_part x in\n  let d := x - IZR f in\n  if Rlt_dec d (1 / 2) then f\n  else if Rlt_dec (1 / 2) d then (f + 2)%Z\n  else if Z.even f then f else (f + 1)%Z.\n\n",
"definition": "round_even",
"edit": "1 -> 2",
"breaks": [],
"timeout": 150
},
{
"id": "AZ80",
"file": "Demo",
"old": "Definition lerp (a b : pt) (t : R) : pt :=\n  (fst a + t * (fst b - fst a), snd a + t * (snd b - snd a)).\n\n",
"new": "Definition lerp (a b : pt) (t : R) : pt :=\n  (snd a + t * (fst b - fst a), snd a + t * (snd b - snd a)).\n\n",
"definition": "lerp",
"edit": "fst -> snd",
"breaks": [],
"timeout": 150
},
{
"id": "AZ81",
"file": "Demo",
"old": "Definition point_in_circle (P : pt) (c : circle) : bool :=\n  Rleb (pnorm (psub P (c_x c, c_y c))) (c_r c).\n",
"new": "Definition point_in_circle (P : pt) (c : circle) : bool :=\n  Rltb (pnorm (psub P (c_x c, c_y c))) (c_r c).\n",
"definition": "point_in_circle",
"edit": "Rleb -> Rltb",
"breaks": [],
"timeout": 150
},
{
"id": "AZ82",
"file": "Demo",
"old": "Definition lin_closed (n : nat) : list R := map (fun k => INR k / INR (n - 1)) (seq 0 n).\n",
"new": "Definition lin_closed (n : nat) : list R := map (fun k => INR k / INR (n + 1)) (seq 0 n).\n",
"definition": "lin_closed",
"edit": "- -> +",
"breaks": [],
"timeout": 150
},
{
"id": "AZ83",
"file": "Demo",
"old": "Definition lin_open (n : nat) : list R := map (fun k => INR k / INR n) (seq 0 n).\n\n",
"new": "Definition lin_open (n : nat) : list R := map (fun k => INR k / INR n) (seq 1 n).\n\n",
"definition": "lin_open",
"edit": "0 -> 1",
"breaks": [],
"timeout": 150
},
{
"id": "AZ84",
"file": "Demo",
"old": "Definition check_line (circ : list circle) (rect : list rectobs) (p1 p2 : pt) : bool :=\n  existsb (fun t => existsb (point_in_circle (lerp p1 p2 t)) circ\n                    || existsb (point_in_rect (lerp p1 p2 t)) rect) (lin_closed 50).\n\n",
"new": "Definition check_line (circ : list circle) (rect : list rectobs) (p1 p2 : pt) : bool :=\n  existsb (fun t => existsb (point_in_circle (lerp p1 p2 t)) circ\n                    || existsb (point_in_rect (lerp p1 p2 t)) rect) (lin_closed 7).\n\n",
"definition": "check_line",
"edit": "50 -> 7",
"breaks": [],
"timeout": 150
},
{
"id": "AZ85",
"file": "Demo",
"old": "Definition limit_waypoints (W : list pt) (m : nat) : list pt :=\n  if Nat.ltb m (length W)\n  then map (fun i => nth (i * (length W - 1) / (m - 1)) W (0, 0)) (seq 0 m)\n  else W.\n\n",
"new": "Definition limit_waypoints (W : list pt) (m : nat) : list pt :=\n  if Nat.ltb m (length W)\n  then map (fun i => nth (i * (length W - 1) / (m - 1)) W (1, 0)) (seq 0 m)\n  else W.\n\n",
"definition": "limit_waypoints",
"edit": "0 -> 1",
"breaks": [],
"timeout": 150
},
{
"id": "AZ86",
"file": "Demo",
"old": "Definition raw_counts (H : nat) (lens : list R) : list Z :=\n  map (fun len => Z.max 2 (round_even (INR H * len / Rsum lens))) lens.\n",
"new": "Definition raw_counts (H : nat) (lens : list R) : list Z :=\n  map (fun len => Z.max 3 (round_even (INR H * len / Rsum lens))) lens.\n",
"definition": "raw_counts",
"edit": "2 -> 3",
"breaks": [],
"timeout": 150
},
{
"id": "AZ87",
"file": "Demo",
"old": "Definition Zsum (l : list Z) : Z := fold_left Z.add l 0%Z.\n",
"new": "Definition Zsum (l : list Z) : Z := fold_left Z.add l 1%Z.\n",
"definition": "Zsum",
"edit": "0 -> 1",
"breaks": [],
"timeout": 150
},
{
"id": "AZ88",
"file": "Demo",
"old": "Definition argmax (l : list Z) : nat :=\n  match l with [] => O | z :: zs => argmax_from 1 0 z zs end.\n",
"new": "Definition argmax (l : list Z) : nat :=\n  match l with [] => O | z :: zs => argmax_from 2 0 z zs end.\n",
"definition": "argmax",
"edit": "1 -> 2",
"breaks": [],
"timeout": 150
},
{
"id": "AZ89",
"file": "Demo",
"old": "Fixpoint add_at (i : nat) (d : Z) (l : list Z) : list Z :=\n  match l, i with\n  | [], _ => []\n  | z :: zs, O => (z + d)%Z :: zs\n  | z :: zs, S k => z :: add_at k d zs\n  end.\n",
"new": "Fixpoint add_at (i : nat) (d : Z) (l : list Z) : list Z :=\n  match l, i with\n  | [], _ => []\n  | z :: zs, O => (z - d)%Z :: zs\n  | z :: zs, S k => z :: add_at k d zs\n  end.\n",
"definition": "add_at",
"edit": "+ -> -",
"breaks": [],
"timeout": 150
},
{
"id": "AZ90",
"file": "Demo",
"old": "Definition path_points (H : nat) (W : list pt) : Res (list (pt * nat)) :=\n  let lens := seg_lengths W in\n  if Rltb 0 (Rsum lens) then sample_segments 0 W (counts H lens)\n  else match W, H with\n       | [], S _ => Err IndexError\n       | [], O => Ok []\n       | w :: _, _ => Ok (repeat (w, O) H)\n       end.\n\n",
"new": "Definition path_points (H : nat) (W : list pt) : Res (list (pt * nat)) :=\n  let lens := seg_lengths W in\n  if Rleb 0 (Rsum lens) then sample_segments 0 W (counts H lens)\n  else match W, H with\n       | [], S _ => Err IndexError\n       | [], O => Ok []\n       | w :: _, _ => Ok (repeat (w, O) H)\n       end.\n\n",
"definition": "path_points",
"edit": "Rltb -> Rleb",
"breaks": [],
"timeout": 150
},
{
"id": "AZ91",
"file": "Demo",
"old": "Definition final_segment (W : list pt) : nat := length W - 2.\n",
"new": "Definition final_segment (W : list pt) : nat := length W + 2.\n",
"definition": "final_segment",
"edit": "- -> +",
"breaks": [],
"timeout": 150
},
{
"id": "AZ92",
"file": "Demo",
"old": "Definition fix_length (H : nat) (W : list pt) (xg : pt) (ps : list (pt * nat)) : list (pt * nat) :=\n  if Nat.ltb H (length ps)\n  then map (fun i => nth (i * (length ps - 1) / (H - 1)) ps (xg, O)) (seq 0 H)\n  else if Nat.ltb (length ps) H\n  then ps ++ repeat (xg, final_segment W) (H - length ps)\n  else ps.\n\n",
"new": "Definition fix_length (H : nat) (W : list pt) (xg : pt) (ps : list (pt * nat)) : list (pt * nat) :=\n  if Nat.ltb H (length ps)\n  then map (fun i => nth (i * (length ps - 1) / (H - 1)) ps (xg, O)) (seq 1 H)\n  else if Nat.ltb (length ps) H\n  then ps ++ repeat (xg, final_segment W) (H - length ps)\n  else ps.\n\n",
"definition": "fix_length",
"edit": "0 -> 1",
"breaks": [],
"timeout": 150
},
{
"id": "AZ93",
"file": "Demo",
"old": "Definition moves (a b : pt) : bool :=\n  Rltb (1 / 1000000) (Rabs (fst b - fst a)) || Rltb (1 / 1000000) (Rabs (snd b - snd a)).\n",
"new": "Definition moves (a b : pt) : bool :=\n  Rltb (2 / 1000000) (Rabs (fst b - fst a)) || Rltb (1 / 1000000) (Rabs (snd b - snd a)).\n",
"definition": "moves",
"edit": "1 -> 2",
"breaks": [],
"timeout": 150
},
{
"id": "AZ94",
"file": "Demo",
"old": "Definition bk_logpd_row (p : params) (pref : Z) (x : bkq) (r : refrow) : R :=\n  let pos_logpd := clip_score (pnorm (psub (b_px x, b_py x) (f_pos r))) (p_ref_thr p) in\n  let d1 := wrap_pi (b_th x - f_th1 r) in\n  let o1 := wrap_pi (b_th x - f_th1 r - PI) in\n  let w1 := where_ (Rltb (Rabs d1) (Rabs o1)) d1 o1 in\n  let e1 := where_ (f_mask r) (where_ (Z.eqb pref 0) w1 d1) 0 in\n  p_ref_pos_w p * pos_logpd + p_ref_th1_w p * clip_score (Rabs e1) (p_phi_max p).\n",
"new": "Definition bk_logpd_row (p : params) (pref : Z) (x : bkq) (r : refrow) : R :=\n  let pos_logpd := clip_score (pnorm (psub (b_px x, b_py x) (f_pos r))) (p_ref_thr p) in\n  let d1 := wrap_pi (b_th x + f_th1 r) in\n  let o1 := wrap_pi (b_th x - f_th1 r - PI) in\n  let w1 := where_ (Rltb (Rabs d1) (Rabs o1)) d1 o1 in\n  let e1 := where_ (f_mask r) (where_ (Z.eqb pref 0) w1 d1) 0 in\n  p_ref_pos_w p * pos_logpd + p_ref_th1_w p * clip_score (Rabs e1) (p_phi_max p).\n",
"definition": "bk_logpd_row",
"edit": "- -> +",
"breaks": [],
"timeout": 150
},
{
"id": "AZ95",
"file": "Demo",
"old": "Definition last_row (xref : list refrow) : refrow := last xref (mkRef 0 0 0 0 false).\n",
"new": "Definition last_row (xref : list refrow) : refrow := last xref (mkRef 0 0 0 0 true).\n",
"definition": "last_row",
"edit": "false -> true",
"breaks": [],
"timeout": 150
},
{
"id": "AZ96",
"file": "Demo",
"old": "Definition tt_rew_xref (s : tt_self) (xref : list refrow) : R :=\n  Rmean (map (fun r => tt_reward s (row_tt r)) xref)\n  + p_term_w (ts_p s) * tt_terminal s (row_tt (last_row xref)).\n",
"new": "Definition tt_rew_xref (s : tt_self) (xref : list refrow) : R :=\n  Rmean (map (fun r => tt_reward s (row_tt r)) xref)\n  + p_term_w (ts_p s) + tt_terminal s (row_tt (last_row xref)).\n",
"definition": "tt_rew_xref",
"edit": "* -> +",
"breaks": [],
"timeout": 150
},
{
"id": "AZ97",
"file": "Demo",
"old": "Definition bk_rew_xref (s : bk_self) (xref : list refrow) : R :=\n  Rmean (map (fun r => bk_reward s (row_bk r)) xref)\n  + p_term_w (bs_p s) * bk_terminal s (row_bk (last_row xref)).\n",
"new": "Definition bk_rew_xref (s : bk_self) (xref : list refrow) : R :=\n  Rmean (map (fun r => bk_reward s (row_bk r)) xref)\n  + p_term_w (bs_p s) + bk_terminal s (row_bk (last_row xref)).\n",
"definition": "bk_rew_xref",
"edit": "* -> +",
"breaks": [],
"timeout": 150
},
{
"id": "AZ98",
"file": "Demo",
"old": "Definition nt_rew_xref (s : nt_self) (xref : list refrow) : R :=\n  Rmean (map (fun r => nt_reward s (row_nt r)) xref)\n  + p_term_w (ns_p s) * nt_terminal s (row_nt (last_row xref)).\n",
"new": "Definition nt_rew_xref (s : nt_self) (xref : list refrow) : R :=\n  Rmean (map (fun r => nt_reward s (row_nt r)) xref)\n  + p_term_w (ns_p s) + nt_terminal s (row_nt (last_row xref)).\n",
"definition": "nt_rew_xref",
"edit": "* -> +",
"breaks": [],
"timeout": 150
},
{
"id": "AZ99",
"file": "Stats",
"old": "Definition stat_parking : parking := {|\n  pk_rows := 2; pk_cols := 8; pk_w := 35/10; pk_len := 7; pk_yoff := 4;\n  pk_occ := [1; 2; 3; 5; 6; 7; 9; 10; 11; 13; 14; 15]%Z; pk_tgt := [4; 12]%Z; pk_rad := 1 |}.\n\n",
"new": "Definition stat_parking : parking := {|\n  pk_rows := 2; pk_cols := 8; pk_w := 35/10; pk_len := 7; pk_yoff := 4;\n  pk_occ := [1; 2; 3; 5; 6; 7; 9; 10; 7; 13; 14; 15]%Z; pk_tgt := [4; 12]%Z; pk_rad := 1 |}.\n\n",
"definition": "stat_parking",
"edit": "11 -> 7",
"breaks": [],
"timeout": 150
},
{
"id": "AZ100",
"file": "Stats",
"old": "Definition stat_rects : list rectobs := [mkRect 0 (-14) 30 1 0].\n\n",
"new": "Definition stat_rects : list rectobs := [mkRect 0 (-14) 30 2 0].\n\n",
"definition": "stat_rects",
"edit": "1 -> 2",
"breaks": [],
"timeout": 150
},
{
"id": "AZ101",
"file": "Stats",
"old": "Definition trial_init (t : trial) : init_args :=\n  mkInit None None (Some (tr_dx t)) (Some (tr_dy t)) (tr_th1 t) (tr_th2 t) 0 0.\n\n",
"new": "Definition trial_init (t : trial) : init_args :=\n  mkInit None None (Some (tr_dx t)) (Some (tr_dy t)) (tr_th1 t) (tr_th2 t) 1 0.\n\n",
"definition": "trial_init",
"edit": "0 -> 1",
"breaks": [],
"timeout": 150
},
{
"id": "AZ102",
"file": "Stats",
"old": "Definition validation_robot (t : trial) : Res robot :=\n  match env_init 32 32 \"parking\" (Some stat_parking) with\n  | Err x => Err x\n  | Ok e =>\n      match get_env (with_env (default_env_args \"tt2d\" \"parking\" 1) e) with\n      | Err x => Err x\n      | Ok r =>\n          let r1 := put_rects r stat_rects in\n          let '(r2, res) := set_init_pos r1 (trial_init t) in\n          match res with Err x => Err x | Ok _ => Ok r2 end\n      end\n  end.\n",
"new": "Definition validation_robot (t : trial) : Res robot :=\n  match env_init 7 32 \"parking\" (Some stat_parking) with\n  | Err x => Err x\n  | Ok e =>\n      match get_env (with_env (default_env_args \"tt2d\" \"parking\" 1) e) with\n      | Err x => Err x\n      | Ok r =>\n          let r1 := put_rects r stat_rects in\n          let '(r2, res) := set_init_pos r1 (trial_init t) in\n          match res with Err x => Err x | Ok _ => Ok r2 end\n      end\n  end.\n",
"definition": "validation_robot",
"edit": "32 -> 7",
"breaks": [],
"timeout": 150
},
{
"id": "AZ103",
"file": "Stats",
"old": "Definition create_trial_environment (g : env_args) (t : trial) : Res robot :=\n  match env_init 32 32 \"parking\" (Some stat_parking) with\n  | Err x => Err x\n  | Ok e =>\n      match get_env (with_env g e) with\n      | Err x => Err x\n      | Ok r =>\n          let r1 := put_env_rects (put_rects r stat_rects) stat_rects in\n          let '(r2, res) := set_init_pos r1 (trial_init t) in\n          match res with\n          | Err x => Err x\n          | Ok _ => Ok (fst (set_goal_pos r2 (mkGoal None None (Some (- PI / 2)) (Some (- PI / 2)) 0 0)))\n          end\n      end\n  end.\n\n",
"new": "Definition create_trial_environment (g : env_args) (t : trial) : Res robot :=\n  match env_init 32 32 \"parking\" (Some stat_parking) with\n  | Err x => Err x\n  | Ok e =>\n      match get_env (with_env g e) with\n      | Err x => Err x\n      | Ok r =>\n          let r1 := put_env_rects (put_rects r stat_rects) stat_rects in\n          let '(r2, res) := set_init_pos r1 (trial_init t) in\n          match res with\n          | Err x => Err x\n          | Ok _ => Ok (fst (set_goal_pos r2 (mkGoal None None (Some (- PI / 3)) (Some (- PI / 2)) 0 0)))\n          end\n      end\n  end.\n\n",
"definition": "create_trial_environment",
"edit": "2 -> 3",
"breaks": [],
"timeout": 150
},
{
"id": "AZ104",
"file": "Stats",
"old": "Definition nt_cut (q : ntq) : ntq := mkNT (n_px q) (n_py q) (n_th0 q) (firstn 1 (n_ths q)).\n",
"new": "Definition nt_cut (q : ntq) : ntq := mkNT (n_px q) (n_py q) (n_th0 q) (firstn 2 (n_ths q)).\n",
"definition": "nt_cut",
"edit": "1 -> 2",
"breaks": [],
"timeout": 150
},
{
"id": "AZ105",
"file": "Stats",
"old": "Definition nt_back (s : nt_self) (q : ntq) : pt :=\n  tt_trailer_back (ns_p s) (mkTT (n_px q) (n_py q) (n_th0 q) (jget (n_ths q) 0)).\n",
"new": "Definition nt_back (s : nt_self) (q : ntq) : pt :=\n  tt_trailer_back (ns_p s) (mkTT (n_px q) (n_py q) (n_th0 q) (jget (n_ths q) 1)).\n",
"definition": "nt_back",
"edit": "0 -> 1",
"breaks": [],
"timeout": 150
},
{
"id": "AZ106",
"file": "Stats",
"old": "Definition b2r (b : bool) : R := if b then 1 else 0.\n",
"new": "Definition b2r (b : bool) : R := if b then 2 else 0.\n",
"definition": "b2r",
"edit": "1 -> 2",
"breaks": [],
"timeout": 150
},
{
"id": "AZ107",
"file": "Stats",
"old": "Definition time_statistics (times : list R) : R * R :=\n  match filter (fun t => Rltb 0 t) times with\n  | [] => (0, 0)\n  | l => (Rmean l, Rstd l)\n  end.\n\n",
"new": "Definition time_statistics (times : list R) : R * R :=\n  match filter (fun t => Rleb 0 t) times with\n  | [] => (0, 0)\n  | l => (Rmean l, Rstd l)\n  end.\n\n",
"definition": "time_statistics",
"edit": "Rltb -> Rleb",
"breaks": [],
"timeout": 150
},
{
"id": "AZ109",
"file": "Projection",
"old": "Definition sdf_two_boxes (c1 h1 : pt) (a1 : R) (c2 h2 : pt) (a2 : R) : R :=\n  let u1 := (cos a1, sin a1) in\n  let v1 := (- sin a1, cos a1) in\n  let u2 := (cos a2, sin a2) in\n  let v2 := (- sin a2, cos a2) in\n  Rmax_of (map (gap_on_axis c1 h1 u1 v1 c2 h2 u2 v2) [u1; v1; u2; v2]).\n\n",
"new": "Definition sdf_two_boxes (c1 h1 : pt) (a1 : R) (c2 h2 : pt) (a2 : R) : R :=\n  let u1 := (cos a1, cos a1) in\n  let v1 := (- sin a1, cos a1) in\n  let u2 := (cos a2, sin a2) in\n  let v2 := (- sin a2, cos a2) in\n  Rmax_of (map (gap_on_axis c1 h1 u1 v1 c2 h2 u2 v2) [u1; v1; u2; v2]).\n\n",
"definition": "sdf_two_boxes",
"edit": "sin -> cos",
"breaks": [],
"timeout": 150
},
{
"id": "AZ110",
"file": "Projection",
"old": "Definition np_tractor_center (p : params) (px py th : R) : pt :=\n  (px + 5/10 * (p_l1 p + p_lf1 p - p_lr p) * cos th, py + 5/10 * (p_l1 p + p_lf1 p - p_lr p) * sin th).\n",
"new": "Definition np_tractor_center (p : params) (px py th : R) : pt :=\n  (px + 5/10 * (p_l1 p + p_lf1 p - p_lr p) * cos th, py - 5/10 * (p_l1 p + p_lf1 p - p_lr p) * sin th).\n",
"definition": "np_tractor_center",
"edit": "+ -> -",
"breaks": [],
"timeout": 150
},
{
"id": "AZ111",
"file": "Projection",
"old": "Definition np_trailer_center (p : params) (x : ttq) : pt :=\n  let hx := t_px x - p_lh p * cos (t_th1 x) in\n  let hy := t_py x - p_lh p * sin (t_th1 x) in\n  (hx + (5/10 * (p_lf2 p - p_lr2 p) - p_l2 p) * cos (t_th2 x),\n   hy + (5/10 * (p_lf2 p - p_lr2 p) - p_l2 p) * sin (t_th2 x)).\n",
"new": "Definition np_trailer_center (p : params) (x : ttq) : pt :=\n  let hx := t_px x - p_lh p * cos (t_th1 x) in\n  let hy := t_py x - p_lh p * sin (t_th1 x) in\n  (hx + (5/10 * (p_lf2 p - p_lr2 p) - p_l2 p) * cos (t_th2 x),\n   hy + (5/10 * (p_lf2 p - p_lr2 p) + p_l2 p) * sin (t_th2 x)).\n",
"definition": "np_trailer_center",
"edit": "- -> +",
"breaks": [],
"timeout": 150
},
{
"id": "AZ112",
"file": "Projection",
"old": "Definition np_tractor_half (p : params) : pt := (p_l1 p / 2, p_trac_w p / 2).\n",
"new": "Definition np_tractor_half (p : params) : pt := (p_l1 p / 2, p_trac_w p / 3).\n",
"definition": "np_tractor_half",
"edit": "2 -> 3",
"breaks": [],
"timeout": 150
},
{
"id": "AZ113",
"file": "Projection",
"old": "Definition np_trailer_half (p : params) : pt := (p_l2 p / 2, p_trail_w p / 2).\n\n",
"new": "Definition np_trailer_half (p : params) : pt := (p_l2 p / 2, p_trail_w p / 3).\n\n",
"definition": "np_trailer_half",
"edit": "2 -> 3",
"breaks": [],
"timeout": 150
},
{
"id": "AZ114",
"file": "Projection",
"old": "Definition tt_dist_rect (p : params) (x : ttq) (o : rectobs) : R :=\n  let c_obs := (r_x o, r_y o) in\n  let h_obs := (r_w o / 2, r_h o / 2) in\n  let d1 := sdf_two_boxes (np_tractor_center p (t_px x) (t_py x) (t_th1 x)) (np_tractor_half p) (t_th1 x) c_obs h_obs (r_ang o) in\n  let d2 := sdf_two_boxes (np_trailer_center p x) (np_trailer_half p) (t_th2 x) c_obs h_obs (r_ang o) in\n  Rmin d1 d2.\n",
"new": "Definition tt_dist_rect (p : params) (x : ttq) (o : rectobs) : R :=\n  let c_obs := (r_x o, r_y o) in\n  let h_obs := (r_w o / 3, r_h o / 2) in\n  let d1 := sdf_two_boxes (np_tractor_center p (t_px x) (t_py x) (t_th1 x)) (np_tractor_half p) (t_th1 x) c_obs h_obs (r_ang o) in\n  let d2 := sdf_two_boxes (np_trailer_center p x) (np_trailer_half p) (t_th2 x) c_obs h_obs (r_ang o) in\n  Rmin d1 d2.\n",
"definition": "tt_dist_rect",
"edit": "2 -> 3",
"breaks": [],
"timeout": 150
},
{
"id": "AZ115",
"file": "Projection",
"old": "Definition tt_constraints_at (s : tt_self) (x : ttq) : list R :=\n  let p := ts_p s in\n  map (tt_dist_circle p x) (ts_circ s) ++ map (tt_dist_rect p x) (ts_rect s)\n  ++ [p_phi_max p - Rabs (wrap_pi (t_th1 x - t_th2 x))].\n\n",
"new": "Definition tt_constraints_at (s : tt_self) (x : ttq) : list R :=\n  let p := ts_p s in\n  map (tt_dist_circle p x) (ts_circ s) ++ map (tt_dist_rect p x) (ts_rect s)\n  ++ [p_phi_max p + Rabs (wrap_pi (t_th1 x - t_th2 x))].\n\n",
"definition": "tt_constraints_at",
"edit": "- -> +",
"breaks": [],
"timeout": 150
},
{
"id": "AZ116",
"file": "Projection",
"old": "Definition proj_objective (u_orig u : act) : R :=\n  (fst u - fst u_orig) * (fst u - fst u_orig) + (snd u - snd u_orig) * (snd u - snd u_orig).\n",
"new": "Definition proj_objective (u_orig u : act) : R :=\n  (fst u - fst u_orig) * (fst u + fst u_orig) + (snd u - snd u_orig) * (snd u - snd u_orig).\n",
"definition": "proj_objective",
"edit": "- -> +",
"breaks": [],
"timeout": 150
},
{
"id": "AZ117",
"file": "Projection",
"old": "Definition tt_project (s : tt_self) (minimize : optimiser) (q : ttq) (u : act) : act :=\n  if negb (p_proj (ts_p s)) then u else tt_np_projection s minimize q u.\n\n",
"new": "Definition tt_project (s : tt_self) (minimize : optimiser) (q : ttq) (u : act) : act :=\n  if  (p_proj (ts_p s)) then u else tt_np_projection s minimize q u.\n\n",
"definition": "tt_project",
"edit": "negb -> ",
"breaks": [],
"timeout": 150
},
{
"id": "AZ118",
"file": "Projection",
"old": "Definition bk_dist_circle (p : params) (x : bkq) (c : circle) : R :=\n  sdf_box (c_x c, c_y c) (np_tractor_center p (b_px x) (b_py x) (b_th x)) (bk_np_half p) (b_th x) - c_r c.\n",
"new": "Definition bk_dist_circle (p : params) (x : bkq) (c : circle) : R :=\n  sdf_box (c_x c, c_y c) (np_tractor_center p (b_px x) (b_py x) (b_th x)) (bk_np_half p) (b_th x) + c_r c.\n",
"definition": "bk_dist_circle",
"edit": "- -> +",
"breaks": [],
"timeout": 150
},
{
"id": "AZ119",
"file": "Projection",
"old": "Definition bk_dist_rect (p : params) (x : bkq) (o : rectobs) : R :=\n  sdf_two_boxes (np_tractor_center p (b_px x) (b_py x) (b_th x)) (bk_np_half p) (b_th x)\n    (r_x o, r_y o) (r_w o / 2, r_h o / 2) (r_ang o).\n",
"new": "Definition bk_dist_rect (p : params) (x : bkq) (o : rectobs) : R :=\n  sdf_two_boxes (np_tractor_center p (b_px x) (b_py x) (b_th x)) (bk_np_half p) (b_th x)\n    (r_x o, r_y o) (r_w o / 3, r_h o / 2) (r_ang o).\n",
"definition": "bk_dist_rect",
"edit": "2 -> 3",
"breaks": [],
"timeout": 150
},
{
"id": "AZ120",
"file": "Projection",
"old": "Definition bk_constraints_at (s : bk_self) (x : bkq) : list R :=\n  match map (bk_dist_circle (bs_p s) x) (bs_circ s) ++ map (bk_dist_rect (bs_p s) x) (bs_rect s) with\n  | [] => [1]\n  | cs => cs\n  end.\n",
"new": "Definition bk_constraints_at (s : bk_self) (x : bkq) : list R :=\n  match map (bk_dist_circle (bs_p s) x) (bs_circ s) ++ map (bk_dist_rect (bs_p s) x) (bs_rect s) with\n  | [] => [2]\n  | cs => cs\n  end.\n",
"definition": "bk_constraints_at",
"edit": "1 -> 2",
"breaks": [],
"timeout": 150
},
{
"id": "AZ121",
"file": "Projection",
"old": "Definition bk_project (s : bk_self) (minimize : optimiser) (q : bkq) (u : act) : act :=\n  if negb (p_proj (bs_p s)) then u else bk_np_projection s minimize q u.\n\n",
"new": "Definition bk_project (s : bk_self) (minimize : optimiser) (q : bkq) (u : act) : act :=\n  if  (p_proj (bs_p s)) then u else bk_np_projection s minimize q u.\n\n",
"definition": "bk_project",
"edit": "negb -> ",
"breaks": [],
"timeout": 150
},
{
"id": "AZ122",
"file": "Projection",
"old": "Definition acc_project (s : acc_self) (minimize : optimiser) (q : accq) (u : act) : act :=\n  if negb (p_proj (as_p s)) then u else tt_project (as_t s) minimize (a_q q) u.\n\n",
"new": "Definition acc_project (s : acc_self) (minimize : optimiser) (q : accq) (u : act) : act :=\n  if  (p_proj (as_p s)) then u else tt_project (as_t s) minimize (a_q q) u.\n\n",
"definition": "acc_project",
"edit": "negb -> ",
"breaks": [],
"timeout": 150
},
{
"id": "AZ123",
"file": "Guidance",
"old": "Definition hinge_sq (z : R) : R := Rmax 0 z * Rmax 0 z.\n\n",
"new": "Definition hinge_sq (z : R) : R := Rmax 1 z * Rmax 0 z.\n\n",
"definition": "hinge_sq",
"edit": "0 -> 1",
"breaks": [],
"timeout": 150
},
{
"id": "AZ124",
"file": "Guidance",
"old": "Definition clip_ang (x : R) : R := clip x (-2 * PI) (2 * PI).\n\n",
"new": "Definition clip_ang (x : R) : R := clip x (-3 * PI) (2 * PI).\n\n",
"definition": "clip_ang",
"edit": "2 -> 3",
"breaks": [],
"timeout": 150
},
{
"id": "AZ125",
"file": "Guidance",
"old": "Definition tt_guidance_step (grad : ttq -> ttq) (step_size : R) (x : ttq) : ttq :=\n  let g := grad x in\n  mkTT (clip_pos (t_px x - step_size * t_px g)) (clip_pos (t_py x - step_size * t_py g))\n       (clip_ang (t_th1 x - step_size * t_th1 g)) (clip_ang (t_th2 x - step_size * t_th2 g)).\n",
"new": "Definition tt_guidance_step (grad : ttq -> ttq) (step_size : R) (x : ttq) : ttq :=\n  let g := grad x in\n  mkTT (clip_pos (t_px x - step_size * t_px g)) (clip_pos (t_py x - step_size * t_py g))\n       (clip_ang (t_th1 x - step_size + t_th1 g)) (clip_ang (t_th2 x - step_size * t_th2 g)).\n",
"definition": "tt_guidance_step",
"edit": "* -> +",
"breaks": [],
"timeout": 150
},
{
"id": "AZ126",
"file": "Guidance",
"old": "Definition tt_guide (s : tt_self) (grad : ttq -> ttq) (q : ttq) : ttq := tt_apply_guidance_n s grad (5 / 100) 3 q.\n\n",
"new": "Definition tt_guide (s : tt_self) (grad : ttq -> ttq) (q : ttq) : ttq := tt_apply_guidance_n s grad (5 * 100) 3 q.\n\n",
"definition": "tt_guide",
"edit": "/ -> *",
"breaks": [],
"timeout": 150
},
{
"id": "AZ127",
"file": "Guidance",
"old": "Definition bk_guidance_step (grad : bkq -> bkq) (step_size : R) (x : bkq) : bkq :=\n  let g := grad x in\n  mkBK (clip_pos (b_px x - step_size * b_px g)) (clip_pos (b_py x - step_size * b_py g))\n       (clip_ang (b_th x - step_size * b_th g)).\n",
"new": "Definition bk_guidance_step (grad : bkq -> bkq) (step_size : R) (x : bkq) : bkq :=\n  let g := grad x in\n  mkBK (clip_pos (b_px x - step_size * b_px g)) (clip_pos (b_py x + step_size * b_py g))\n       (clip_ang (b_th x - step_size * b_th g)).\n",
"definition": "bk_guidance_step",
"edit": "- -> +",
"breaks": [],
"timeout": 150
},
{
"id": "AZ128",
"file": "Guidance",
"old": "Definition bk_guide (s : bk_self) (grad : bkq -> bkq) (q : bkq) : bkq :=\n  if negb (p_guid (bs_p s)) then q else Nat.iter 3 (bk_guidance_step grad (5 / 100)) q.\n\n",
"new": "Definition bk_guide (s : bk_self) (grad : bkq -> bkq) (q : bkq) : bkq :=\n  if negb (p_guid (bs_p s)) then q else Nat.iter 3 (bk_guidance_step grad (5 * 100)) q.\n\n",
"definition": "bk_guide",
"edit": "/ -> *",
"breaks": [],
"timeout": 150
},
{
"id": "AZ129",
"file": "Guidance",
"old": "Definition nt_guidance_step (grad : ntq -> ntq) (step_size : R) (x : ntq) : ntq :=\n  let g := grad x in\n  mkNT (clip_pos (n_px x - step_size * n_px g)) (clip_pos (n_py x - step_size * n_py g))\n       (clip_ang (n_th0 x - step_size * n_th0 g))\n       (map2 (fun a b => clip_ang (a - step_size * b)) (n_ths x) (n_ths g)).\n",
"new": "Definition nt_guidance_step (grad : ntq -> ntq) (step_size : R) (x : ntq) : ntq :=\n  let g := grad x in\n  mkNT (clip_pos (n_px x - step_size * n_px g)) (clip_pos (n_py x - step_size * n_py g))\n       (clip_ang (n_th0 x + step_size * n_th0 g))\n       (map2 (fun a b => clip_ang (a - step_size * b)) (n_ths x) (n_ths g)).\n",
"definition": "nt_guidance_step",
"edit": "- -> +",
"breaks": [],
"timeout": 150
},
{
"id": "AZ130",
"file": "Guidance",
"old": "Definition nt_guide (s : nt_self) (grad : ntq -> ntq) (q : ntq) : ntq :=\n  if negb (p_guid (ns_p s)) then q else Nat.iter 3 (nt_guidance_step grad (5 / 100)) q.\n\n",
"new": "Definition nt_guide (s : nt_self) (grad : ntq -> ntq) (q : ntq) : ntq :=\n  if negb (p_guid (ns_p s)) then q else Nat.iter 3 (nt_guidance_step grad (5 * 100)) q.\n\n",
"definition": "nt_guide",
"edit": "/ -> *",
"breaks": [],
"timeout": 150
},
{
"id": "AZ131",
"file": "Guidance",
"old": "Definition acc_guide (s : acc_self) (grad : ttq -> ttq) (q : accq) : accq :=\n  if negb (p_guid (as_p s)) then q else mkAcc (tt_guide (as_t s) grad (a_q q)) (a_v q) (a_d q).\n",
"new": "Definition acc_guide (s : acc_self) (grad : ttq -> ttq) (q : accq) : accq :=\n  if  (p_guid (as_p s)) then q else mkAcc (tt_guide (as_t s) grad (a_q q)) (a_v q) (a_d q).\n",
"definition": "acc_guide",
"edit": "negb -> ",
"breaks": [],
"timeout": 150
},
{
"id": "AZ133",
"file": "Cache",
"old": "Definition key_eqb (a b : rkey) : bool :=\n  let '(m1, t1, d1, n1, h1) := a in\n  let '(m2, t2, d2, n2, h2) := b in\n  Z.eqb m1 m2 && Reqb t1 t2 && Bool.eqb d1 d2 && Nat.eqb n1 n2 && Nat.eqb h1 h2.\n",
"new": "Definition key_eqb (a b : rkey) : bool :=\n  let '(m1, t1, d1, n1, h1) := a in\n  let '(m2, t2, d2, n2, h2) := b in\n  Z.eqb m1 m2 || Reqb t1 t2 && Bool.eqb d1 d2 && Nat.eqb n1 n2 && Nat.eqb h1 h2.\n",
"definition": "key_eqb",
"edit": "&& -> ||",
"breaks": [],
"timeout": 150
},
{
"id": "AZ134",
"file": "Cache",
"old": "Definition call_roll (w : W) (fs : env_funcs) (H : nat) : W * roll_trace Q :=\n  match t_roll w (ef_id fs) H with\n  | Some r => (w, r)\n  | None =>\n      let o := ef_obj fs in\n      let '(w1, st) := call_step w o false in\n      let '(w2, tm) := call_terminal w1 o in\n      let r := mkRoll st tm (m_term_w (meth w2 o) (data w2 o)) in\n      (mkWorld (w_objs w2) (w_obj w2) (w_fns w2) (w_env w2) (w_rev w2)\n         (t_reset w2) (t_reward w2) (t_terminal w2) (t_step w2)\n         (upd (t_roll w2) (ef_id fs) (upd (t_roll w2 (ef_id fs)) H (Some r))) (t_rev w2), r)\n  end.\n\n",
"new": "Definition call_roll (w : W) (fs : env_funcs) (H : nat) : W * roll_trace Q :=\n  match t_roll w (ef_id fs) H with\n  | Some r => (w, r)\n  | None =>\n      let o := ef_obj fs in\n      let '(w1, st) := call_step w o true in\n      let '(w2, tm) := call_terminal w1 o in\n      let r := mkRoll st tm (m_term_w (meth w2 o) (data w2 o)) in\n      (mkWorld (w_objs w2) (w_obj w2) (w_fns w2) (w_env w2) (w_rev w2)\n         (t_reset w2) (t_reward w2) (t_terminal w2) (t_step w2)\n         (upd (t_roll w2) (ef_id fs) (upd (t_roll w2 (ef_id fs)) H (Some r))) (t_rev w2), r)\n  end.\n\n",
"definition": "call_roll",
"edit": "false -> true",
"breaks": [],
"timeout": 150
},
{
"id": "AZ135",
"file": "Cache",
"old": "Definition cached_once (r : rev_trace Q) (st0 : State Q) (gc : cfg) (i : nat)\n  (eps : list (list act)) (Y : list act) : list act * R :=\n  reverse_once_with (traced_env r st0) (key_cfg (rr_key r) gc) (jget (alphas_bar gc) i) (jget (alphas_bar gc) (i - 1))\n    (jget (alphas gc) i) (jget (sigmas gc) i) eps Y.\n",
"new": "Definition cached_once (r : rev_trace Q) (st0 : State Q) (gc : cfg) (i : nat)\n  (eps : list (list act)) (Y : list act) : list act * R :=\n  reverse_once_with (traced_env r st0) (key_cfg (rr_key r) gc) (jget (alphas_bar gc) i) (jget (alphas_bar gc) (i + 1))\n    (jget (alphas gc) i) (jget (sigmas gc) i) eps Y.\n",
"definition": "cached_once",
"edit": "- -> +",
"breaks": [],
"timeout": 150
},
{
"id": "AZ137",
"file": "Cache",
"old": "Definition start (b : obj D X) : W :=\n  mkWorld 0 (fun _ => b) 0 (fun _ => None) None (fun _ => None) (fun _ => None) (fun _ => None)\n    (fun _ _ => None) (fun _ _ => None) (fun _ _ => None).\n",
"new": "Definition start (b : obj D X) : W :=\n  mkWorld 0 (fun _ => b) 1 (fun _ => None) None (fun _ => None) (fun _ => None) (fun _ => None)\n    (fun _ _ => None) (fun _ _ => None) (fun _ _ => None).\n",
"definition": "start",
"edit": "0 -> 1",
"breaks": [],
"timeout": 150
},
{
"id": "AZ138",
"file": "CacheInst",
"old": "Definition no_guid (p : params) : params :=\n  mkParams (p_dt p) (p_H p) (p_num_trailers p) (p_motion p) (p_coll_pen p) (p_sh_coll p) (p_hitch_pen p) (p_sh_hitch p)\n    (p_proj p) false (p_rew_thr p) (p_ref_thr p) (p_max_w p) (p_hitch_w p) (p_ref_pos_w p) (p_ref_th1_w p) (p_ref_th2_w p)\n    (p_l1 p) (p_l2 p) (p_lh p) (p_lf1 p) (p_lr p) (p_lf2 p) (p_lr2 p) (p_trac_w p) (p_trail_w p) (p_vmax p) (p_dmax p)\n    (p_theta_max p) (p_phi_max p) (p_d_thr p) (p_k_switch p) (p_steer_w p) (p_pref_w p) (p_head_w p) (p_term_thr p) (p_term_w p).\n\n",
"new": "Definition no_guid (p : params) : params :=\n  mkParams (p_dt p) (p_H p) (p_num_trailers p) (p_motion p) (p_coll_pen p) (p_sh_coll p) (p_hitch_pen p) (p_sh_hitch p)\n    (p_proj p) true (p_rew_thr p) (p_ref_thr p) (p_max_w p) (p_hitch_w p) (p_ref_pos_w p) (p_ref_th1_w p) (p_ref_th2_w p)\n    (p_l1 p) (p_l2 p) (p_lh p) (p_lf1 p) (p_lr p) (p_lf2 p) (p_lr2 p) (p_trac_w p) (p_trail_w p) (p_vmax p) (p_dmax p)\n    (p_theta_max p) (p_phi_max p) (p_d_thr p) (p_k_switch p) (p_steer_w p) (p_pref_w p) (p_head_w p) (p_term_thr p) (p_term_w p).\n\n",
"definition": "no_guid",
"edit": "false -> true",
"breaks": [],
"timeout": 150
},
{
"id": "AZ139",
"file": "CacheInst",
"old": "Definition score_with {Q : Type} (row : refrow -> Q) (tw : R) (x : list refrow) (rew tm : Q -> R) : R :=\n  Rmean (map (fun r => rew (row r)) x) + tw * tm (row (last_row x)).\n",
"new": "Definition score_with {Q : Type} (row : refrow -> Q) (tw : R) (x : list refrow) (rew tm : Q -> R) : R :=\n  Rmean (map (fun r => rew (row r)) x) - tw * tm (row (last_row x)).\n",
"definition": "score_with",
"edit": "+ -> -",
"breaks": [],
"timeout": 150
},
{
"id": "AZ140",
"file": "CacheInst",
"old": "Definition logpd_with {Q : Type} (f : list refrow -> list Q -> Z -> R) (x : option (list refrow)) : list Q -> Z -> R :=\n  match x with Some x => f x | None => fun _ _ => 0 end.\n\n",
"new": "Definition logpd_with {Q : Type} (f : list refrow -> list Q -> Z -> R) (x : option (list refrow)) : list Q -> Z -> R :=\n  match x with Some x => f x | None => fun _ _ => 1 end.\n\n",
"definition": "logpd_with",
"edit": "0 -> 1",
"breaks": [],
"timeout": 150
},
{
"id": "AZ144",
"file": "CacheInst",
"old": "Definition row_acc (r : refrow) : accq := mkAcc (row_tt r) 0 0.\n",
"new": "Definition row_acc (r : refrow) : accq := mkAcc (row_tt r) 1 0.\n",
"definition": "row_acc",
"edit": "0 -> 1",
"breaks": [],
"timeout": 150
},
{
"id": "AZ146",
"file": "Anim",
"old": "Definition steer_of (u : option act) : R := match u with Some a => snd a | None => 0 end.\n",
"new": "Definition steer_of (u : option act) : R := match u with Some a => fst a | None => 0 end.\n",
"definition": "steer_of",
"edit": "snd -> fst",
"breaks": [],
"timeout": 150
},
{
"id": "AZ147",
"file": "Anim",
"old": "Definition bk_draw (p : params) (q : bkq) (u : option act) : drawing :=\n  let '(mkBK px py th) := q in\n  let tcx := px + 1/2 * (p_l1 p + p_lf1 p - p_lr p) * cos th in\n  let tcy := py + 1/2 * (p_l1 p + p_lf1 p - p_lr p) * sin th in\n  mkDrawing [centred (p_l1 p + p_lf1 p + p_lr p) (p_trac_w p) th tcx tcy]\n    [wheel th (px, py); wheel (th + steer_of u) (px + p_l1 p * cos th, py + p_l1 p * sin th)] [].\n\n",
"new": "Definition bk_draw (p : params) (q : bkq) (u : option act) : drawing :=\n  let '(mkBK px py th) := q in\n  let tcx := px + 1/2 * (p_l1 p + p_lf1 p - p_lr p) * cos th in\n  let tcy := py + 1/2 * (p_l1 p + p_lf1 p - p_lr p) * sin th in\n  mkDrawing [centred (p_l1 p + p_lf1 p + p_lr p) (p_trac_w p) th tcx tcy]\n    [wheel th (px, py); wheel (th + steer_of u) (px + p_l1 p * cos th, py + p_l1 p * cos th)] [].\n\n",
"definition": "bk_draw",
"edit": "sin -> cos",
"breaks": [],
"timeout": 150
},
{
"id": "AZ148",
"file": "Anim",
"old": "Definition nt_pad (n : nat) (th0 : R) (ths : list R) : list R :=\n  if Nat.ltb (length ths) n then ths ++ repeat (last ths th0) (n - length ths) else firstn n ths.\n",
"new": "Definition nt_pad (n : nat) (th0 : R) (ths : list R) : list R :=\n  if Nat.leb (length ths) n then ths ++ repeat (last ths th0) (n - length ths) else firstn n ths.\n",
"definition": "nt_pad",
"edit": "Nat.ltb -> Nat.leb",
"breaks": [],
"timeout": 150
},
{
"id": "AZ150",
"file": "Anim",
"old": "Definition bk_animated (e : env_obj) (s : bk_self) : animated bkq :=\n  mkAnimated (draw_scene (e_circles e) (e_rects e)) (bk_draw (bs_p s)) (bs_coll s) (fun _ => false) (fun q => (b_px q, b_py q)).\n",
"new": "Definition bk_animated (e : env_obj) (s : bk_self) : animated bkq :=\n  mkAnimated (draw_scene (e_circles e) (e_rects e)) (bk_draw (bs_p s)) (bs_coll s) (fun _ => true) (fun q => (b_px q, b_py q)).\n",
"definition": "bk_animated",
"edit": "false -> true",
"breaks": [],
"timeout": 150
},
{
"id": "AZ151",
"file": "Anim",
"old": "Definition denoise_frame {Q : Type} (pos : Q -> pt) (stp : State Q -> act -> State Q) (st0 : State Q)\n  (Ndiffuse total step : nat) (us : list act) : dframe :=\n  mkDFrame step (map pos (trajectory_states stp st0 us))\n    (3/10 + 7/10 * (INR step / INR (Nat.max 1 (total - 1)))) (Z.of_nat Ndiffuse - 1 - Z.of_nat step).\n",
"new": "Definition denoise_frame {Q : Type} (pos : Q -> pt) (stp : State Q -> act -> State Q) (st0 : State Q)\n  (Ndiffuse total step : nat) (us : list act) : dframe :=\n  mkDFrame step (map pos (trajectory_states stp st0 us))\n    (3/10 + 7/10 * (INR step / INR (Nat.max 2 (total - 1)))) (Z.of_nat Ndiffuse - 1 - Z.of_nat step).\n",
"definition": "denoise_frame",
"edit": "1 -> 2",
"breaks": [],
"timeout": 150
},
{
"id": "AZ152",
"file": "Anim",
"old": "Definition denoising_frames {Q : Type} (pos : Q -> pt) (stp : State Q -> act -> State Q) (st0 : State Q)\n  (Ndiffuse : nat) (skip : Z) (Yi : list (list act)) : Res (list dframe) :=\n  match Yi with\n  | [] => Ok []\n  | _ => if Z.eqb skip 0 then Err ZeroDivisionError else Ok (denoise_loop pos stp st0 Ndiffuse (length Yi) skip 0 Yi)\n  end.\n\n",
"new": "Definition denoising_frames {Q : Type} (pos : Q -> pt) (stp : State Q -> act -> State Q) (st0 : State Q)\n  (Ndiffuse : nat) (skip : Z) (Yi : list (list act)) : Res (list dframe) :=\n  match Yi with\n  | [] => Ok []\n  | _ => if Z.eqb skip 1 then Err ZeroDivisionError else Ok (denoise_loop pos stp st0 Ndiffuse (length Yi) skip 0 Yi)\n  end.\n\n",
"definition": "denoising_frames",
"edit": "0 -> 1",
"breaks": [],
"timeout": 150
},
{
"id": "AZ153",
"file": "Anim",
"old": "Fixpoint zeros (n : nat) : string := match n with O => \"\" | S n' => String \"0\" (zeros n') end.\n",
"new": "Fixpoint zeros (n : nat) : string := match n with O => \"\" | S n' => String \"1\" (zeros n') end.\n",
"definition": "zeros",
"edit": "0 -> 1",
"breaks": [],
"timeout": 150
},
{
"id": "AZ154",
"file": "Anim",
"old": "Definition pad (w k : nat) : string := String.append (zeros (w - String.length (digits k))) (digits k).\n",
"new": "Definition pad (w k : nat) : string := String.append (zeros (w + String.length (digits k))) (digits k).\n",
"definition": "pad",
"edit": "- -> +",
"breaks": [],
"timeout": 150
},
{
"id": "AZ155",
"file": "Anim",
"old": "Definition ends (suf s : string) : bool :=\n  Nat.leb (String.length suf) (String.length s) &&\n  String.eqb (String.substring (String.length s - String.length suf) (String.length suf) s) suf.\n",
"new": "Definition ends (suf s : string) : bool :=\n  Nat.leb (String.length suf) (String.length s) &&\n  String.eqb (String.substring (String.length s + String.length suf) (String.length suf) s) suf.\n",
"definition": "ends",
"edit": "- -> +",
"breaks": [],
"timeout": 150
},
{
"id": "AZ156",
"file": "Anim",
"old": "Definition glob (pre suf s : string) : bool :=\n  Nat.leb (String.length pre + String.length suf) (String.length s) && starts pre s && ends suf s.\n",
"new": "Definition glob (pre suf s : string) : bool :=\n  Nat.leb (String.length pre + String.length suf) (String.length s) || starts pre s && ends suf s.\n",
"definition": "glob",
"edit": "&& -> ||",
"breaks": [],
"timeout": 150
},
{
"id": "AZ157",
"file": "Anim",
"old": "Definition is_png (s : string) : bool := negb (starts \".\" s) && glob \"\" \".png\" s.\n",
"new": "Definition is_png (s : string) : bool := negb (starts \".\" s) || glob \"\" \".png\" s.\n",
"definition": "is_png",
"edit": "&& -> ||",
"breaks": [],
"timeout": 150
},
{
"id": "AZ160",
"file": "Anim",
"old": "Definition write (d : dir) (n : string) (c : file) : dir := (n, c) :: remove d (fun m => negb (String.eqb m n)).\n\n",
"new": "Definition write (d : dir) (n : string) (c : file) : dir := (n, c) :: remove d (fun m =>  (String.eqb m n)).\n\n",
"definition": "write",
"edit": "negb -> ",
"breaks": [],
"timeout": 150
},
{
"id": "AZ161",
"file": "Anim",
"old": "Definition setup_saving (d : dir) : dir := remove d (fun m => negb (is_png m)).\n\n",
"new": "Definition setup_saving (d : dir) : dir := remove d (fun m =>  (is_png m)).\n\n",
"definition": "setup_saving",
"edit": "negb -> ",
"breaks": [],
"timeout": 150
},
{
"id": "AZ162",
"file": "Anim",
"old": "Fixpoint save_frames (d : dir) (k : nat) (crash : option nat) (fs : list F) : dir * bool :=\n  match fs with\n  | [] => (d, true)\n  | f :: rest =>\n      match crash with\n      | Some c => if Nat.eqb c k then (d, false) else save_frames (write d (frame_name k) (Image f)) (S k) crash rest\n      | None => save_frames (write d (frame_name k) (Image f)) (S k) crash rest\n      end\n  end.\n\n",
"new": "Fixpoint save_frames (d : dir) (k : nat) (crash : option nat) (fs : list F) : dir * bool :=\n  match fs with\n  | [] => (d, true)\n  | f :: rest =>\n      match crash with\n      | Some c => if Nat.eqb c k then (d, true) else save_frames (write d (frame_name k) (Image f)) (S k) crash rest\n      | None => save_frames (write d (frame_name k) (Image f)) (S k) crash rest\n      end\n  end.\n\n",
"definition": "save_frames",
"edit": "false -> true",
"breaks": [],
"timeout": 150
},
{
"id": "AZ164",
"file": "Anim",
"old": "Fixpoint str_leb (a b : string) : bool :=\n  match a, b with\n  | EmptyString, _ => true\n  | String _ _, EmptyString => false\n  | String x a', String y b' =>\n      if Nat.ltb (nat_of_ascii x) (nat_of_ascii y) then true\n      else if Nat.ltb (nat_of_ascii y) (nat_of_ascii x) then false else str_leb a' b'\n  end.\n",
"new": "Fixpoint str_leb (a b : string) : bool :=\n  match a, b with\n  | EmptyString, _ => false\n  | String _ _, EmptyString => false\n  | String x a', String y b' =>\n      if Nat.ltb (nat_of_ascii x) (nat_of_ascii y) then true\n      else if Nat.ltb (nat_of_ascii y) (nat_of_ascii x) then false else str_leb a' b'\n  end.\n",
"definition": "str_leb",
"edit": "true -> false",
"breaks": [],
"timeout": 150
},
{
"id": "AZ166",
"file": "Anim",
"old": "Definition progress_videos (d : dir) (ts : list (list F * ffmpeg)) (ff : ffmpeg) : dir * Res (option string) :=\n  let '(d1, r) := animate_trials d 1 ts in\n  match r with\n  | Err x => (d1, Err x)\n  | Ok _ => merge_videos d1 \"progress_trial_\" \"progress_merged.mp4\" ff\n  end.\n",
"new": "Definition progress_videos (d : dir) (ts : list (list F * ffmpeg)) (ff : ffmpeg) : dir * Res (option string) :=\n  let '(d1, r) := animate_trials d 2 ts in\n  match r with\n  | Err x => (d1, Err x)\n  | Ok _ => merge_videos d1 \"progress_trial_\" \"progress_merged.mp4\" ff\n  end.\n",
"definition": "progress_videos",
"edit": "1 -> 2",
"breaks": [],
"timeout": 150
},
{
"id": "AZ167",
"file": "Anim",
"old": "Definition update_wheels (n : nat) : Res unit := if Nat.leb n 2 then Ok tt else Err IndexError.\n",
"new": "Definition update_wheels (n : nat) : Res unit := if Nat.ltb n 2 then Ok tt else Err IndexError.\n",
"definition": "update_wheels",
"edit": "Nat.leb -> Nat.ltb",
"breaks": [],
"timeout": 150
},
{
"id": "AZ168",
"file": "Bench",
"old": "Definition readings (demo : bool) : nat := if demo then 16 else 14.\n",
"new": "Definition readings (demo : bool) : nat := if demo then 7 else 14.\n",
"definition": "readings",
"edit": "16 -> 7",
"breaks": [],
"timeout": 150
},
{
"id": "AZ169",
"file": "Bench",
"old": "Fixpoint insert (x : R) (l : list R) : list R :=\n  match l with\n  | [] => [x]\n  | y :: ys => if Rleb x y then x :: y :: ys else y :: insert x ys\n  end.\n",
"new": "Fixpoint insert (x : R) (l : list R) : list R :=\n  match l with\n  | [] => [x]\n  | y :: ys => if Rltb x y then x :: y :: ys else y :: insert x ys\n  end.\n",
"definition": "insert",
"edit": "Rleb -> Rltb",
"breaks": [],
"timeout": 150
},
{
"id": "AZ170",
"file": "Bench",
"old": "Definition run_py (w : W) (o : nat) (g : cfg) (rg : prng) : W * Res (output (Q := Q)) :=\n  let '(w1, demo) := prepare_demo cls w o g in\n  match demo with\n  | Err _ => run cls w o g rg\n  | Ok _ =>\n      let '(w2, fs) := get_funcs w1 o in\n      let '(w3, _) := call_reset cls w2 o in\n      let '(w4, rf) := get_rev w3 o g fs in\n      let misfit := match ob_ref (w_obj w4 (rf_obj rf)) with\n                    | Some x => negb (rows_fit (rows x) (g_Hsample g))\n                    | None => false\n                    end in\n      match t_rev w4 (rf_id rf) (key_of g) with\n      | None => if g_demo g && misfit then (fst (call_roll cls w4 (rf_funcs rf) (g_Hsample g)), Err TypeError)\n                else run cls w o g rg\n      | Some _ => run cls w o g rg\n      end\n  end.\n\n",
"new": "Definition run_py (w : W) (o : nat) (g : cfg) (rg : prng) : W * Res (output (Q := Q)) :=\n  let '(w1, demo) := prepare_demo cls w o g in\n  match demo with\n  | Err _ => run cls w o g rg\n  | Ok _ =>\n      let '(w2, fs) := get_funcs w1 o in\n      let '(w3, _) := call_reset cls w2 o in\n      let '(w4, rf) := get_rev w3 o g fs in\n      let misfit := match ob_ref (w_obj w4 (rf_obj rf)) with\n                    | Some x => negb (rows_fit (rows x) (g_Hsample g))\n                    | None => false\n                    end in\n      match t_rev w4 (rf_id rf) (key_of g) with\n      | None => if g_demo g || misfit then (fst (call_roll cls w4 (rf_funcs rf) (g_Hsample g)), Err TypeError)\n                else run cls w o g rg\n      | Some _ => run cls w o g rg\n      end\n  end.\n\n",
"definition": "run_py",
"edit": "&& -> ||",
"breaks": [],
"timeout": 150
},
{
"id": "AZ171",
"file": "Bench",
"old": "Definition later (g : cfg) (k : nat) (clock : nat -> R) : nat -> R :=\n  fun n => clock (k * readings (g_demo g) + n)%nat.\n",
"new": "Definition later (g : cfg) (k : nat) (clock : nat -> R) : nat -> R :=\n  fun n => clock (k * readings (g_demo g) - n)%nat.\n",
"definition": "later",
"edit": "+ -> -",
"breaks": [],
"timeout": 150
},
{
"id": "AZ172",
"file": "Bench",
"old": "Fixpoint runs (w : W) (o : nat) (g : cfg) (rg : prng) (clock : nat -> R) (n : nat)\n  : W * Res (list (R * timing)) :=\n  match n with\n  | O => (w, Ok [])\n  | S n' =>\n      let '(w1, r) := run_timed w o g rg clock in\n      match r with\n      | Err e => (w1, Err e)\n      | Ok rt =>\n          let '(w2, rs) := runs w1 o g rg (later g 1 clock) n' in\n          (w2, match rs with Err e => Err e | Ok l => Ok (rt :: l) end)\n      end\n  end.\n\n",
"new": "Fixpoint runs (w : W) (o : nat) (g : cfg) (rg : prng) (clock : nat -> R) (n : nat)\n  : W * Res (list (R * timing)) :=\n  match n with\n  | O => (w, Ok [])\n  | S n' =>\n      let '(w1, r) := run_timed w o g rg clock in\n      match r with\n      | Err e => (w1, Err e)\n      | Ok rt =>\n          let '(w2, rs) := runs w1 o g rg (later g 2 clock) n' in\n          (w2, match rs with Err e => Err e | Ok l => Ok (rt :: l) end)\n      end\n  end.\n\n",
"definition": "runs",
"edit": "1 -> 2",
"breaks": [],
"timeout": 150
},
{
"id": "AZ173",
"file": "Bench",
"old": "Definition scenario_args (H : nat) : env_args :=\n  let d := default_env_args \"tt2d\" \"parking\" 1 in {|\n  g_name := \"tt2d\"; g_case := \"parking\"; g_env := None; g_dt := 1/4; g_H := H; Setup.g_motion := -1;\n  g_coll_pen := 3/20; g_hitch_pen := 1/10; g_sh_coll := true; g_sh_hitch := true;\n  g_proj := g_proj d; Setup.g_guid := Setup.g_guid d; g_rew_thr := 50; g_ref_thr := 10; g_max_w := 1/2;\n  g_hitch_w := 1/100; g_l1 := 323/100; g_l2 := 29/10; g_lh := 23/20; g_lf1 := g_lf1 d;\n  g_lr := g_lr d; g_lf2 := g_lf2 d; g_lr2 := g_lr2 d; g_trac_w := 2; g_trail_w := 5/2;\n  g_vmax := 3; g_ddeg := 55; g_d_fac := 1; g_kswitch := 5/2; g_steer_w := 1/100; g_pref_w := 1/2;\n  g_head_w := 1/2; g_term_thr := g_term_thr d; g_term_w := g_term_w d; g_rpos_w := 4/5; g_rth1_w := 1/10;\n  g_rth2_w := 1/10; g_amax := g_amax d; g_omax := g_omax d; g_trailers := g_trailers d |}.\n\n",
"new": "Definition scenario_args (H : nat) : env_args :=\n  let d := default_env_args \"tt2d\" \"parking\" 1 in {|\n  g_name := \"tt2d\"; g_case := \"parking\"; g_env := None; g_dt := 1/4; g_H := H; Setup.g_motion := -1;\n  g_coll_pen := 3/20; g_hitch_pen := 1/10; g_sh_coll := true; g_sh_hitch := true;\n  g_proj := g_proj d; Setup.g_guid := Setup.g_guid d; g_rew_thr := 50; g_ref_thr := 10; g_max_w := 1/2;\n  g_hitch_w := 1/100; g_l1 := 323/100; g_l2 := 29/10; g_lh := 23/20; g_lf1 := g_lf1 d;\n  g_lr := g_lr d; g_lf2 := g_lf2 d; g_lr2 := g_lr2 d; g_trac_w := 2; g_trail_w := 5/2;\n  g_vmax := 3; g_ddeg := 55; g_d_fac := 2; g_kswitch := 5/2; g_steer_w := 1/100; g_pref_w := 1/2;\n  g_head_w := 1/2; g_term_thr := g_term_thr d; g_term_w := g_term_w d; g_rpos_w := 4/5; g_rth1_w := 1/10;\n  g_rth2_w := 1/10; g_amax := g_amax d; g_omax := g_omax d; g_trailers := g_trailers d |}.\n\n",
"definition": "scenario_args",
"edit": "1 -> 2",
"breaks": [],
"timeout": 150
},
{
"id": "AZ174",
"file": "Bench",
"old": "Definition scenario_cfg (Nsample Hsample Ndiffuse : nat) : cfg :=\n  mkCfg 42 Nsample Hsample Ndiffuse (1/100000) (1/100000) (1/100) true (-1) false.\n",
"new": "Definition scenario_cfg (Nsample Hsample Ndiffuse : nat) : cfg :=\n  mkCfg 42 Nsample Hsample Ndiffuse (1/100000) (1/7) (1/100) true (-1) false.\n",
"definition": "scenario_cfg",
"edit": "100000 -> 7",
"breaks": [],
"timeout": 150
},
{
"id": "AZ175",
"file": "Bench",
"old": "Definition scenario_tests : list (string * (nat * nat * nat)) :=\n  [ (\"Small (Fast)\", (5000, 30, 100)); (\"Medium\", (10000, 40, 120)); (\"Large (Original)\", (20000, 50, 150)) ]%nat.\n\n",
"new": "Definition scenario_tests : list (string * (nat * nat * nat)) :=\n  [ (\"Small (Fast)\", (5000, 30, 100)); (\"Medium\", (10000, 7, 120)); (\"Large (Original)\", (20000, 50, 150)) ]%nat.\n\n",
"definition": "scenario_tests",
"edit": "40 -> 7",
"breaks": [],
"timeout": 150
},
{
"id": "AZ177",
"file": "Tune",
"old": "Definition num (c : dict) (k : string) : R :=\n  match c k with Some (VFloat x) => x | Some (VInt z) => IZR z | Some (VBool b) => b2r b | _ => 0 end.\n",
"new": "Definition num (c : dict) (k : string) : R :=\n  match c k with Some (VFloat x) => x | Some (VInt z) => IZR z | Some (VBool b) => b2r b | _ => 1 end.\n",
"definition": "num",
"edit": "0 -> 1",
"breaks": [],
"timeout": 150
},
{
"id": "AZ178",
"file": "Tune",
"old": "Definition int (c : dict) (k : string) : Z :=\n  match c k with Some (VInt z) => z | Some (VBool b) => if b then 1%Z else 0%Z | _ => 0%Z end.\n",
"new": "Definition int (c : dict) (k : string) : Z :=\n  match c k with Some (VInt z) => z | Some (VBool b) => if b then 1%Z else 0%Z | _ => 1%Z end.\n",
"definition": "int",
"edit": "0 -> 1",
"breaks": [],
"timeout": 150
},
{
"id": "AZ179",
"file": "Tune",
"old": "Definition flag (c : dict) (k : string) : bool :=\n  match c k with Some (VBool b) => b | Some (VInt z) => negb (Z.eqb z 0) | _ => false end.\n",
"new": "Definition flag (c : dict) (k : string) : bool :=\n  match c k with Some (VBool b) => b | Some (VInt z) => negb (Z.eqb z 0) | _ => true end.\n",
"definition": "flag",
"edit": "false -> true",
"breaks": [],
"timeout": 150
},
{
"id": "AZ180",
"file": "Tune",
"old": "Definition run_optimization (procs : nat -> W) (sampler : list tuned -> nat * nat) (worse : nat -> bool)\n  (n_trials ran : nat) : Res (list tuned * tuned) :=\n  let '(l, r) := optimize procs sampler worse (Nat.min n_trials ran) 0 [] in\n  match r with\n  | Err e => Err e\n  | Ok _ => match best_trial l with Err e => Err e | Ok b => Ok (l, b) end\n  end.\n",
"new": "Definition run_optimization (procs : nat -> W) (sampler : list tuned -> nat * nat) (worse : nat -> bool)\n  (n_trials ran : nat) : Res (list tuned * tuned) :=\n  let '(l, r) := optimize procs sampler worse (Nat.min n_trials ran) 1 [] in\n  match r with\n  | Err e => Err e\n  | Ok _ => match best_trial l with Err e => Err e | Ok b => Ok (l, b) end\n  end.\n",
"definition": "run_optimization",
"edit": "0 -> 1",
"breaks": [],
"timeout": 150
},
{
"id": "AZ181",
"file": "Picture",
"old": "Definition zrange (n : Z) : list Z := map Z.of_nat (seq 0 (Z.to_nat n)).\n",
"new": "Definition zrange (n : Z) : list Z := map Z.of_nat (seq 1 (Z.to_nat n)).\n",
"definition": "zrange",
"edit": "0 -> 1",
"breaks": [],
"timeout": 150
},
{
"id": "AZ182",
"file": "Picture",
"old": "Definition layout_row (c : parking) (row : Z) : string :=\n  (\"|\" ++ concat_all (map (fun col => \" \" ++ space_symbol c (row * pk_cols c + col + 1)%Z ++ \" |\") (zrange (pk_cols c))))%string.\n",
"new": "Definition layout_row (c : parking) (row : Z) : string :=\n  (\"|\" ++ concat_all (map (fun col => \" \" ++ space_symbol c (row * pk_cols c + col + 2)%Z ++ \" |\") (zrange (pk_cols c))))%string.\n",
"definition": "layout_row",
"edit": "1 -> 2",
"breaks": [],
"timeout": 150
},
{
"id": "AZ1",
"file": "Base",
"old": "Definition Rltb (x y : R) : bool := if Rlt_dec x y then true else false.\n",
"new": "Definition Rltb (x y : R) : bool := if Rlt_dec x y then true else true.\n",
"definition": "Rltb",
"edit": "false -> true",
"breaks": [],
"timeout": 150
},
{
"id": "AZ2",
"file": "Base",
"old": "Definition Rleb (x y : R) : bool := if Rle_dec x y then true else false.\n",
"new": "Definition Rleb (x y : R) : bool := if Rle_dec x y then false else false.\n",
"definition": "Rleb",
"edit": "true -> false",
"breaks": [],
"timeout": 150
},
{
"id": "AZ3",
"file": "Base",
"old": "Definition Reqb (x y : R) : bool := if Req_EM_T x y then true else false.\n\n",
"new": "Definition Reqb (x y : R) : bool := if Req_EM_T x y then true else true.\n\n",
"definition": "Reqb",
"edit": "false -> true",
"breaks": [],
"timeout": 150
},
{
"id": "AZ4",
"file": "Base",
"old": "Definition fmod (x y : R) : R := x - y * IZR (Int_part (x / y)).\n\n",
"new": "Definition fmod (x y : R) : R := x - y * IZR (Int_part (x * y)).\n\n",
"definition": "fmod",
"edit": "/ -> *",
"breaks": [],
"timeout": 150
},
{
"id": "AZ6",
"file": "Base",
"old": "Definition padd (a b : pt) : pt := (fst a + fst b, snd a + snd b).\n",
"new": "Definition padd (a b : pt) : pt := (fst a - fst b, snd a + snd b).\n",
"definition": "padd",
"edit": "+ -> -",
"breaks": [],
"timeout": 150
},
{
"id": "AZ7",
"file": "Base",
"old": "Definition psub (a b : pt) : pt := (fst a - fst b, snd a - snd b).\n",
"new": "Definition psub (a b : pt) : pt := (fst a - fst b, fst a - snd b).\n",
"definition": "psub",
"edit": "snd -> fst",
"breaks": [],
"timeout": 150
},
{
"id": "AZ8",
"file": "Base",
"old": "Definition pscale (c : R) (a : pt) : pt := (c * fst a, c * snd a).\n",
"new": "Definition pscale (c : R) (a : pt) : pt := (c + fst a, c * snd a).\n",
"definition": "pscale",
"edit": "* -> +",
"breaks": [],
"timeout": 150
},
{
"id": "AZ9",
"file": "Base",
"old": "Definition pdot (a b : pt) : R := fst a * fst b + snd a * snd b.\n\n",
"new": "Definition pdot (a b : pt) : R := fst a * fst b + snd a + snd b.\n\n",
"definition": "pdot",
"edit": "* -> +",
"breaks": [],
"timeout": 150
},
{
"id": "AZ10",
"file": "Base",
"old": "Definition pnorm (a : pt) : R := sqrt (fst a * fst a + snd a * snd a).\n\n",
"new": "Definition pnorm (a : pt) : R := sqrt (fst a * snd a + snd a * snd a).\n\n",
"definition": "pnorm",
"edit": "fst -> snd",
"breaks": [],
"timeout": 150
},
{
"id": "AZ11",
"file": "Base",
"old": "Fixpoint Rsum (l : list R) : R :=\n  match l with [] => 0 | x :: xs => x + Rsum xs end.\n",
"new": "Fixpoint Rsum (l : list R) : R :=\n  match l with [] => 0 | x :: xs => x - Rsum xs end.\n",
"definition": "Rsum",
"edit": "+ -> -",
"breaks": [],
"timeout": 150
},
{
"id": "AZ12",
"file": "Base",
"old": "Definition Rstd (l : list R) : R :=\n  sqrt (Rmean (map (fun x => (x - Rmean l) * (x - Rmean l)) l)).\n",
"new": "Definition Rstd (l : list R) : R :=\n  sqrt (Rmean (map (fun x => (x - Rmean l) + (x - Rmean l)) l)).\n",
"definition": "Rstd",
"edit": "* -> +",
"breaks": [],
"timeout": 150
},
{
"id": "AZ13",
"file": "Base",
"old": "Fixpoint Rmin_list (x : R) (l : list R) : R :=\n  match l with [] => x | y :: ys => Rmin_list (Rmin x y) ys end.\n",
"new": "Fixpoint Rmin_list (x : R) (l : list R) : R :=\n  match l with [] => x | y :: ys => Rmin_list (Rmax x y) ys end.\n",
"definition": "Rmin_list",
"edit": "Rmin -> Rmax",
"breaks": [],
"timeout": 150
},
{
"id": "AZ14",
"file": "Base",
"old": "Fixpoint Rmax_list (x : R) (l : list R) : R :=\n  match l with [] => x | y :: ys => Rmax_list (Rmax x y) ys end.\n",
"new": "Fixpoint Rmax_list (x : R) (l : list R) : R :=\n  match l with [] => x | y :: ys => Rmax_list (Rmin x y) ys end.\n",
"definition": "Rmax_list",
"edit": "Rmax -> Rmin",
"breaks": [],
"timeout": 150
},
{
"id": "AZ15",
"file": "Base",
"old": "Definition Rmin_of (l : list R) : R := match l with [] => 0 | x :: xs => Rmin_list x xs end.\n",
"new": "Definition Rmin_of (l : list R) : R := match l with [] => 1 | x :: xs => Rmin_list x xs end.\n",
"definition": "Rmin_of",
"edit": "0 -> 1",
"breaks": [],
"timeout": 150
},
{
"id": "AZ16",
"file": "Base",
"old": "Definition Rmax_of (l : list R) : R := match l with [] => 0 | x :: xs => Rmax_list x xs end.\n\n",
"new": "Definition Rmax_of (l : list R) : R := match l with [] => 1 | x :: xs => Rmax_list x xs end.\n\n",
"definition": "Rmax_of",
"edit": "0 -> 1",
"breaks": [],
"timeout": 150
},
{
"id": "AZ18",
"file": "Base",
"old": "Definition jget (l : list R) (i : nat) : R := nth (Nat.min i (length l - 1)) l 0.\n\n",
"new": "Definition jget (l : list R) (i : nat) : R := nth (Nat.min i (length l + 1)) l 0.\n\n",
"definition": "jget",
"edit": "- -> +",
"breaks": [],
"timeout": 150
},
{
"id": "TH1",
"file": "Harness",
"old": "if negb (Rleb (tc_min c) final_distance)",
"new": "if Rleb (tc_min c) final_distance",
"definition": "judge",
"edit": "minimum check inverted",
"breaks": [
"C63"
]
},
{
"id": "TH2",
"file": "Harness",
"old": "negb (Rleb final_distance (tc_max c))",
"new": "negb (Rleb final_distance (tc_limit c))",
"definition": "judge",
"edit": "max distance replaced by the success limit",
"breaks": [
"C63"
]
},
{
"id": "TH3",
"file": "Harness",
"old": "let final_distance := Rmin tractor trailer in",
"new": "let final_distance := Rmax tractor trailer in",
"definition": "judge",
"edit": "farther instead of nearer distance",
"breaks": [
"C63"
]
},
{
"id": "TH4",
"file": "Harness",
"old": "Rleb tractor (tc_limit c) || Rleb trailer (tc_limit c)",
"new": "Rleb tractor (tc_limit c) && Rleb trailer (tc_limit c)",
"definition": "judge",
"edit": "both distances required",
"breaks": [
"C63"
]
},
{
"id": "TH5",
"file": "Harness",
"old": "int (tc_mbd c) \"Hsample\" + 1",
"new": "int (tc_mbd c) \"Hsample\"",
"definition": "judge",
"edit": "states length off by one",
"breaks": [
"C63"
]
},
{
"id": "TH6",
"file": "Harness",
"old": "let final := last states q0 in",
"new": "let final := q0 in",
"definition": "judge",
"edit": "first state judged instead of the last",
"breaks": [
"C63"
]
},
{
"id": "TH7",
"file": "Harness",
"old": "(if hitch q then true else hv) (if coll q then true else oc)",
"new": "(hitch q) (if coll q then true else oc)",
"definition": "trajectory_violations",
"edit": "only the last state's hitch flag kept",
"breaks": [
"C63"
]
},
{
"id": "TH8",
"file": "Harness",
"old": "(if hitch q then true else hv) (if coll q then true else oc)",
"new": "(if coll q then true else hv) (if hitch q then true else oc)",
"definition": "trajectory_violations",
"edit": "flags swapped",
"breaks": [
"C63"
]
},
{
"id": "TH9",
"file": "Harness",
"old": "filter (fun k => Rltb 0 (c_r k)) (e_circles e) ++ o :: l",
"new": "o :: l",
"definition": "setup_parking_environment",
"edit": "environment circles dropped",
"breaks": [
"C62"
]
},
{
"id": "TH10",
"file": "Harness",
"old": "| Some (o :: l) => e_rects e ++ o :: l",
"new": "| Some (o :: l) => o :: l",
"definition": "setup_parking_environment",
"edit": "occupied spaces dropped when custom rectangles are given",
"breaks": [
"C62"
]
},
{
"id": "TH11",
"file": "Harness",
"old": "\"parking\" (tc_parking c)",
"new": "\"parking\" None",
"definition": "setup_parking_environment",
"edit": "custom lot ignored",
"breaks": [
"C62"
]
},
{
"id": "TH12",
"file": "Harness",
"old": "let r1 := put_env r0 e in",
"new": "let r1 := r0 in",
"definition": "create_test_environment",
"edit": "environment object not installed",
"breaks": [
"C62"
]
},
{
"id": "TH13",
"file": "Harness",
"old": "(e_circles e) (e_rects e)",
"new": "(rb_circ r) (rb_rect r)",
"definition": "put_env",
"edit": "obstacle lists not copied",
"breaks": [
"C62"
]
},
{
"id": "TH14",
"file": "Harness",
"old": "mkInit None None (Some dx) (Some dy) th1 th2 0 0",
"new": "mkInit (Some dx) (Some dy) None None th1 th2 0 0",
"definition": "create_test_environment",
"edit": "offsets used as absolute position",
"breaks": [
"C62"
]
},
{
"id": "TH15",
"file": "Harness",
"old": "mkInit None None (Some dx) (Some dy) th1 th2 0 0",
"new": "mkInit None None (Some dx) (Some dy) th2 th1 0 0",
"definition": "create_test_environment",
"edit": "angles swapped",
"breaks": [
"C62"
]
},
{
"id": "TH16",
"file": "Harness",
"old": "mkGoal None None (Some g1) (Some g2) 0 0",
"new": "mkGoal None None (Some g2) (Some g1) 0 0",
"definition": "create_test_environment",
"edit": "goal angles swapped",
"breaks": [
"C62"
]
},
{
"id": "TH17",
"file": "Harness",
"old": "\"enable_demo\" (VBool true)",
"new": "\"enable_demo\" (VBool false)",
"definition": "demo_copy",
"edit": "demo variant without demo",
"breaks": [
"C60"
]
},
{
"id": "TH18",
"file": "Harness",
"old": "tc_limit := tc_limit c |}.",
"new": "tc_limit := tc_max c |}.",
"definition": "demo_copy",
"edit": "limit replaced by max (equal in all scenarios: equivalent on the tables)",
"breaks": [
"C60"
]
},
{
"id": "TH19",
"file": "Harness",
"old": "tc_dx := tc_dx c; tc_dy := tc_dy c",
"new": "tc_dx := tc_dy c; tc_dy := tc_dx c",
"definition": "demo_copy",
"edit": "offsets swapped in the demo copy",
"breaks": [
"C60"
]
},
{
"id": "TH20",
"file": "Harness",
"old": "dget all_scenarios name",
"new": "dget kinematic_scenarios name",
"definition": "get_test_config",
"edit": "only the kinematic table is searched",
"breaks": [
"C60"
]
},
{
"id": "TH21",
"file": "Harness",
"old": "if enable_demo then demo_copy base c else c",
"new": "demo_copy base c",
"definition": "create_demo_variant",
"edit": "enable_demo=False ignored",
"breaks": [
"C60"
]
},
{
"id": "TH22",
"file": "Harness",
"old": "let base := remove_demo name in",
"new": "let base := name in",
"definition": "create_demo_variant",
"edit": "suffix not removed",
"breaks": [
"C60"
]
},
{
"id": "TH23",
"file": "Harness",
"old": "else Err ValueError",
"new": "else Ok c",
"definition": "apply_override",
"edit": "unknown attribute silently accepted",
"breaks": [
"C60"
]
},
{
"id": "TH24",
"file": "Harness",
"old": "(Some dx) (Some dy) (Some th1) (Some th2)",
"new": "(Some dx) (Some dx) (Some th1) (Some th2)",
"definition": "apply_override",
"edit": "dy overridden with dx",
"breaks": [
"C60"
]
},
{
"id": "TH25",
"file": "Harness",
"old": "| OVisualize b => Ok (build (tc_mbd c) (tc_timeout c) b",
"new": "| OVisualize b => Ok (build (tc_mbd c) (tc_timeout c) (tc_visualize c)",
"definition": "apply_override",
"edit": "visualize override dropped",
"breaks": [
"C60"
]
},
{
"id": "TH26",
"file": "Harness",
"old": "Ok c' => apply_overrides c' rest",
"new": "Ok c' => Ok c'",
"definition": "apply_overrides",
"edit": "only the first override applied",
"breaks": [
"C60"
]
},
{
"id": "TH27",
"file": "Harness",
"old": "(fun n => negb (endswith n \"_demo\")) (keys all_scenarios).\nDefinition list_demo",
"new": "(fun n => endswith n \"_demo\") (keys all_scenarios).\nDefinition list_demo",
"definition": "list_default_scenarios",
"edit": "lists the demo ones",
"breaks": [
"C60"
]
},
{
"id": "TH28",
"file": "Harness",
"old": "(keys kinematic_scenarios) ++ map (fun n => (n, (n ++ \"_demo\")%string)) (keys acc_scenarios)",
"new": "(keys kinematic_scenarios)",
"definition": "get_scenario_pairs",
"edit": "acceleration pairs missing",
"breaks": [
"C60"
]
},
{
"id": "TH29",
"file": "Harness",
"old": "if Rltb (tc_timeout c) (t1 - t0) then Failed\n              else judge (ts_coll s)",
"new": "if Rltb (t1 - t0) (tc_timeout c) then Failed\n              else judge (ts_coll s)",
"definition": "run_mbd_test",
"edit": "timeout comparison reversed",
"breaks": [
"C63"
]
},
{
"id": "TH30",
"file": "Harness",
"old": "if Rltb (tc_timeout c) (t1 - t0) then Failed\n              else judge (fun q",
"new": "if false then Failed\n              else judge (fun q",
"definition": "run_mbd_test",
"edit": "no timeout for the acceleration class",
"breaks": [
"C63"
]
},
{
"id": "TH31",
"file": "Harness",
"old": "judge (ts_coll s) (ts_hitch s)",
"new": "judge (ts_hitch s) (ts_coll s)",
"definition": "run_mbd_test",
"edit": "checks swapped",
"breaks": [
"C63",
"C64"
]
},
{
"id": "TH32",
"file": "Harness",
"old": "(w2, ok && oks)",
"new": "(w2, oks)",
"definition": "run_suite",
"edit": "only the last test counts",
"breaks": [
"C61"
]
},
{
"id": "TH33",
"file": "Harness",
"old": "(w2, ok && oks)",
"new": "(w2, ok || oks)",
"definition": "run_suite",
"edit": "one passing test is enough",
"breaks": [
"C61"
]
},
{
"id": "TH34",
"file": "Harness",
"old": "Some b => b :: suite_of rest | None => suite_of rest",
"new": "Some b => b :: suite_of rest | None => []",
"definition": "suite_of",
"edit": "suite stops at the first unknown name",
"breaks": [
"C61"
]
},
{
"id": "TH35",
"file": "Harness",
"old": "| Single n => match dget methods n with Some b => code [b] | None => 1%Z end",
"new": "| Single n => match dget methods n with Some b => code [b] | None => 0%Z end",
"definition": "main",
"edit": "unknown test name succeeds",
"breaks": [
"C61"
]
},
{
"id": "TH36",
"file": "Harness",
"old": "if snd (run_suite w suite) then 0%Z else 1%Z",
"new": "if snd (run_suite w suite) then 1%Z else 0%Z",
"definition": "main",
"edit": "exit codes swapped",
"breaks": [
"C61"
]
},
{
"id": "TH37",
"file": "Harness",
"old": "| Kinematic | NoAction => code (suite_of (map (fun n => \"test_\" ++ n)%string (no_demo list_kinematic_scenarios)))",
"new": "| Kinematic | NoAction => code (suite_of (map (fun n => \"test_\" ++ n)%string list_kinematic_scenarios))",
"definition": "main",
"edit": "kinematic run includes demos",
"breaks": [
"C61"
]
},
{
"id": "TH38",
"file": "Harness",
"old": "if ok1 then run_scenario_test w1 \"parking_basic_forward\" (Some false) else (w1, false)",
"new": "(w1, ok1)",
"definition": "run_body",
"edit": "override test runs only the demo",
"breaks": [
"C61"
]
},
{
"id": "TH39",
"file": "Harness",
"old": "match config with Err _ => (w, false)",
"new": "match config with Err _ => (w, true)",
"definition": "run_scenario_test",
"edit": "missing scenario passes",
"breaks": [
"C61"
]
},
{
"id": "TH40",
"file": "Harness",
"old": "Nat.eqb (length list_default_scenarios) 10",
"new": "Nat.eqb (length list_default_scenarios) 8",
"definition": "list_assertions",
"edit": "expected count of default scenarios",
"breaks": [
"C61"
]
},
{
"id": "TH41",
"file": "Harness",
"old": "g_sh_hitch := flag c \"enable_shielded_rollout_hitch\"",
"new": "g_sh_hitch := flag c \"enable_shielded_rollout_collision\"",
"definition": "test_args",
"edit": "hitch shield flag from the collision flag",
"breaks": [
"C64"
]
},
{
"id": "TH42",
"file": "Harness",
"old": "g_proj := false; Setup.g_guid := false",
"new": "g_proj := flag c \"enable_projection\"; Setup.g_guid := flag c \"enable_guidance\"",
"definition": "test_args",
"edit": "flags passed through",
"breaks": [
"C62"
]
},
{
"id": "TH43",
"file": "Harness",
"old": "g_l1 := num c \"l1\"; g_l2 := num c \"l2\"",
"new": "g_l1 := num c \"l2\"; g_l2 := num c \"l1\"",
"definition": "test_args",
"edit": "lengths swapped",
"breaks": [
"C62"
]
},
{
"id": "TH44",
"file": "Harness",
"old": "12 5 0 0 (PI / 2) (PI / 2)",
"new": "12 5 0 0 (- PI / 2) (- PI / 2)",
"definition": "kinematic_scenarios",
"edit": "backward scenario has the forward goal heading",
"breaks": [
"C60"
]
},
{
"id": "TH45",
"file": "Harness",
"old": "tc_timeout := 300",
"new": "tc_timeout := 30",
"definition": "scenario",
"edit": "timeout 30 s",
"breaks": [
"C60"
]
},
{
"id": "TH46",
"file": "Harness",
"old": "tc_limit := 4 |}).",
"new": "tc_limit := 40 |}).",
"definition": "scenario",
"edit": "success limit 40",
"breaks": [
"C60",
"C63"
]
},
{
"id": "TH47",
"file": "Harness",
"old": "(mkTT gx gy g1 g2)) (rb_amax r) (rb_omax r)",
"new": "(mkTT gx gy g1 g2)) (rb_omax r) (rb_amax r)",
"definition": "acc_of_robot",
"edit": "acceleration and steering-rate limits swapped",
"breaks": [
"C64"
]
},
{
"id": "TH48",
"file": "Harness",
"old": "if String.eqb k' k then (k', v) :: r",
"new": "if String.eqb k' k then (k', v') :: r",
"definition": "dset",
"edit": "existing key keeps its old value",
"breaks": [
"C60"
]
},
{
"id": "TH49",
"file": "Harness",
"old": "pk_tgt := [6; 12]%Z",
"new": "pk_tgt := [6; 11]%Z",
"definition": "tight_parking",
"edit": "goal space occupied",
"breaks": [
"C62"
]
},
{
"id": "FL1",
"file": "Float",
"old": "(a_add A (a_dot2 A lx c ly (- s)) cx,",
"new": "(a_add A (a_dot2 A lx c ly s) cx,",
"definition": "fl_box_corner",
"edit": "rotation sign",
"breaks": [
"C65",
"C66"
]
},
{
"id": "FL2",
"file": "Float",
"old": "a_add A (a_dot2 A lx s ly c) cy)",
"new": "a_add A (a_dot2 A lx s ly c) cx)",
"definition": "fl_box_corner",
"edit": "centre coordinate swapped",
"breaks": [
"C65",
"C66"
]
},
{
"id": "FL3",
"file": "Float",
"old": "fl_box_corner A c s cx cy (- hl) hw;",
"new": "fl_box_corner A c s cx cy (- hl) (- hw);",
"definition": "fl_box_corners",
"edit": "corner repeated",
"breaks": [
"C65",
"C66"
]
},
{
"id": "FL4",
"file": "Float",
"old": "let k := a_cvt P (5/10 * (p_l1 p + p_lf1 p - p_lr p)) in",
"new": "let k := a_cvt P (5/10 * (p_l1 p + p_lf1 p + p_lr p)) in",
"definition": "fl_tractor_corners",
"edit": "rear overhang added in the centre offset",
"breaks": [
"C65",
"C66"
]
},
{
"id": "FL5",
"file": "Float",
"old": "(a_cvt C ((p_l1 p + p_lf1 p + p_lr p) / 2)) (a_cvt C (p_trac_w p / 2))",
"new": "(a_cvt C (p_l1 p + p_lf1 p + p_lr p)) (a_cvt C (p_trac_w p / 2))",
"definition": "fl_tractor_corners",
"edit": "length not halved",
"breaks": [
"C65",
"C67"
]
},
{
"id": "FL6",
"file": "Float",
"old": "(a_cvt C ((p_l1 p + p_lf1 p + p_lr p) / 2)) (a_cvt C (p_trac_w p / 2))",
"new": "(a_cvt C ((p_l1 p + p_lf1 p + p_lr p) / 2)) (a_cvt C (p_trail_w p / 2))",
"definition": "fl_tractor_corners",
"edit": "trailer's width for the tractor",
"breaks": [
"C65",
"C66"
]
},
{
"id": "FL7",
"file": "Float",
"old": "let hx := a_mac P (- lh) (a_cos P (t_th1 x)) (t_px x) in",
"new": "let hx := a_mac P lh (a_cos P (t_th1 x)) (t_px x) in",
"definition": "fl_trailer_corners",
"edit": "hitch in front",
"breaks": [
"C65",
"C66"
]
},
{
"id": "FL8",
"file": "Float",
"old": "let cx := a_mac P k (a_cos P (t_th2 x)) hx in",
"new": "let cx := a_mac P k (a_cos P (t_th1 x)) hx in",
"definition": "fl_trailer_corners",
"edit": "tractor heading for trailer centre",
"breaks": [
"C65",
"C66"
]
},
{
"id": "FL9",
"file": "Float",
"old": "fl_box_corners C cx cy (t_th2 x)",
"new": "fl_box_corners C cx cy (t_th1 x)",
"definition": "fl_trailer_corners",
"edit": "tractor heading for trailer corners",
"breaks": [
"C65",
"C66"
]
},
{
"id": "FL10",
"file": "Float",
"old": "let k := a_cvt P (5/10 * (p_lf2 p - p_lr2 p) - p_l2 p) in",
"new": "let k := a_cvt P (5/10 * (p_lf2 p - p_lr2 p) + p_l2 p) in",
"definition": "fl_trailer_corners",
"edit": "trailer in front of hitch",
"breaks": [
"C65",
"C66"
]
},
{
"id": "FL11",
"file": "Float",
"old": "(a_div O (r_w o) 2) (a_div O (r_h o) 2)",
"new": "(a_div O (r_h o) 2) (a_div O (r_w o) 2)",
"definition": "fl_obs_corners",
"edit": "width and height swapped",
"breaks": [
"C65",
"C66"
]
},
{
"id": "FL12",
"file": "Float",
"old": "(a_div O (r_w o) 2) (a_div O (r_h o) 2)",
"new": "(r_w o) (r_h o)",
"definition": "fl_obs_corners",
"edit": "not halved",
"breaks": [
"C65",
"C67"
]
},
{
"id": "FL13",
"file": "Float",
"old": "Definition fl_psub (A : arith) (a b : pt) : pt := (a_sub A (fst a) (fst b), a_sub A (snd a) (snd b)).",
"new": "Definition fl_psub (A : arith) (a b : pt) : pt := (a_sub A (fst a) (fst b), a_sub A (snd b) (snd a)).",
"definition": "fl_psub",
"edit": "second difference reversed",
"breaks": [
"C65",
"C66"
]
},
{
"id": "FL14",
"file": "Float",
"old": "let t := clip proj 0 1 in",
"new": "let t := proj in",
"definition": "fl_edge_dist_sq",
"edit": "projection not clipped",
"breaks": [
"C65"
]
},
{
"id": "FL15",
"file": "Float",
"old": "let t := clip proj 0 1 in",
"new": "let t := clip proj 0 (1/2) in",
"definition": "fl_edge_dist_sq",
"edit": "clip range",
"breaks": [
"C65",
"C66"
]
},
{
"id": "FL16",
"file": "Float",
"old": "where_ (Rltb len_sq0 (/ 100000000)) (/ 100000000) len_sq0 in\n  let proj",
"new": "where_ (Rltb len_sq0 (/ 100000000)) len_sq0 (/ 100000000) in\n  let proj",
"definition": "fl_edge_dist_sq",
"edit": "where branches swapped",
"breaks": [
"C65",
"C66"
]
},
{
"id": "FL17",
"file": "Float",
"old": "Rleb (Rmin_of dist_sqs) (a_mul A radius radius).",
"new": "Rleb (Rmin_of dist_sqs) radius.",
"definition": "fl_rect_circle_collision",
"edit": "radius not squared",
"breaks": [
"C65",
"C66"
]
},
{
"id": "FL18",
"file": "Float",
"old": "Rleb (Rmin_of dist_sqs) (a_mul A radius radius).",
"new": "Rleb (Rmax_of dist_sqs) (a_mul A radius radius).",
"definition": "fl_rect_circle_collision",
"edit": "max for min",
"breaks": [
"C65",
"C66"
]
},
{
"id": "FL19",
"file": "Float",
"old": "let n := (- snd e, fst e) in",
"new": "let n := (snd e, fst e) in",
"definition": "fl_axis_of_edge",
"edit": "normal's sign",
"breaks": [
"C65",
"C66"
]
},
{
"id": "FL20",
"file": "Float",
"old": "| e0 :: e1 :: _ => [fl_axis_of_edge A e0; fl_axis_of_edge A e1]",
"new": "| e0 :: e1 :: _ => [fl_axis_of_edge A e0; fl_axis_of_edge A e0]",
"definition": "fl_get_axes",
"edit": "one axis only",
"breaks": [
"C65",
"C67"
]
},
{
"id": "FL21",
"file": "Float",
"old": "Rmax_of (map (fun c => fl_pdot A c axis) corners).",
"new": "Rmin_of (map (fun c => fl_pdot A c axis) corners).",
"definition": "fl_project_max",
"edit": "min for max",
"breaks": [
"C65",
"C66"
]
},
{
"id": "FL22",
"file": "Float",
"old": "Rltb (fl_project_max A c1 axis) (fl_project_min A c2 axis) ||",
"new": "Rltb (fl_project_min A c1 axis) (fl_project_max A c2 axis) ||",
"definition": "fl_axis_separates",
"edit": "min and max swapped",
"breaks": [
"C65",
"C66"
]
},
{
"id": "FL23",
"file": "Float",
"old": "(fl_get_axes X c1 ++ fl_get_axes X c2)",
"new": "(fl_get_axes X c1)",
"definition": "fl_rect_rect_collision",
"edit": "second box's axes missing",
"breaks": [
"C65",
"C67"
]
},
{
"id": "FL24",
"file": "Float",
"old": "existsb (fun c => fl_hits_circle A tc c || fl_hits_circle A rc c) circ",
"new": "existsb (fun c => fl_hits_circle A tc c) circ",
"definition": "fl_tt_coll",
"edit": "trailer not checked against circles",
"breaks": [
"C65",
"C66"
]
},
{
"id": "FL25",
"file": "Float",
"old": "|| existsb (fun o => fl_hits_rect A tc o || fl_hits_rect A rc o) rect.",
"new": "|| existsb (fun o => fl_hits_rect A tc o && fl_hits_rect A rc o) rect.",
"definition": "fl_tt_coll",
"edit": "and for or",
"breaks": [
"C65",
"C66"
]
},
{
"id": "FL26",
"file": "Float",
"old": "existsb (fl_hits_circle A tc) circ || existsb (fl_hits_rect A tc) rect.",
"new": "existsb (fl_hits_circle A tc) circ.",
"definition": "fl_bk_coll",
"edit": "rectangles dropped",
"breaks": [
"C65",
"C66"
]
},
{
"id": "FL27",
"file": "Float",
"old": "a_sub A (a_mod A (a_add A a (a_cvt A PI)) (a_cvt A (2 * PI))) (a_cvt A PI).",
"new": "a_mod A (a_add A a (a_cvt A PI)) (a_cvt A (2 * PI)).",
"definition": "fl_wrap_pi",
"edit": "pi not taken off",
"breaks": [
"C65",
"C66",
"C67"
]
},
{
"id": "FL28",
"file": "Float",
"old": "Rltb (a_cvt (A SHitch) (p_phi_max p)) (Rabs",
"new": "Rltb (a_cvt (A SHitch) (p_phi_max p)) (id",
"definition": "fl_tt_hitch",
"edit": "absolute value dropped",
"breaks": [
"C65",
"C66"
]
},
{
"id": "FL29",
"file": "Float",
"old": "(a_sub (A SHitch) (t_th1 x) (t_th2 x)))).",
"new": "(a_add (A SHitch) (t_th1 x) (t_th2 x)))).",
"definition": "fl_tt_hitch",
"edit": "sum of headings",
"breaks": [
"C65",
"C66",
"C67"
]
},
{
"id": "FL30",
"file": "Float",
"old": "then shielded_rollout p (fl_tt_coll A p (ts_circ s) (ts_rect s)) (fl_tt_hitch A p) q q_prop",
"new": "then shielded_rollout p (fl_tt_coll A p (ts_circ s) (ts_rect s)) (fl_tt_hitch A p) q_prop q",
"definition": "fl_tt_step",
"edit": "current and proposed state swapped",
"breaks": [
"C66"
]
},
{
"id": "FL32",
"file": "Float",
"old": "if p_sh_coll p || p_sh_hitch p\n    then shielded_rollout p (fl_tt_coll",
"new": "if p_sh_coll p && p_sh_hitch p\n    then shielded_rollout p (fl_tt_coll",
"definition": "fl_tt_step",
"edit": "shield only with both flags",
"breaks": [
"C66"
]
},
{
"id": "FL33",
"file": "Float",
"old": "then shielded_rollout p (fl_tt_coll A p (ts_circ s) (ts_rect s))",
"new": "then shielded_rollout p (fl_tt_coll A p (ts_circ s) [])",
"definition": "fl_tt_step",
"edit": "rectangles dropped from the shield",
"breaks": [
"C66"
]
},
{
"id": "FL34",
"file": "Float",
"old": "| a :: rest => let q' := fl_tt_step A s q a in q' :: fl_tt_run A s q' rest",
"new": "| a :: rest => let q' := fl_tt_step A s q a in fl_tt_euler (A SStep) (ts_p s) q a :: fl_tt_run A s q' rest",
"definition": "fl_tt_run",
"edit": "unshielded states reported",
"breaks": [
"C66"
]
},
{
"id": "FL35",
"file": "Float",
"old": "then shielded_rollout p (fl_bk_coll A p (bs_circ s) (bs_rect s)) bk_hitch q q_prop",
"new": "then step_without_shield (fl_bk_coll A p (bs_circ s) (bs_rect s)) bk_hitch q_prop",
"definition": "fl_bk_step",
"edit": "no shield",
"breaks": [
"C66"
]
},
{
"id": "FL36",
"file": "Float",
"old": "(a_mul A v (a_sin A (t_th1 x)))",
"new": "(a_mul A v (a_cos A (t_th1 x)))",
"definition": "fl_tt_dyn",
"edit": "cos for sin",
"breaks": [
"C65"
]
},
{
"id": "FL37",
"file": "Float",
"old": "mkTT (a_mac A dt (t_px k) (t_px q))",
"new": "mkTT (a_mac A 1 (t_px k) (t_px q))",
"definition": "fl_tt_euler",
"edit": "time step dropped",
"breaks": [
"C65",
"C66"
]
},
{
"id": "FL38",
"file": "Float",
"old": "(a_mul A (fst u) (a_cvt A (p_vmax p)), a_mul A (snd u) (a_cvt A (p_dmax p)))",
"new": "(a_mul A (fst u) (a_cvt A (p_dmax p)), a_mul A (snd u) (a_cvt A (p_vmax p)))",
"definition": "fl_input_scaler",
"edit": "limits swapped",
"breaks": [
"C65"
]
},
{
"id": "FL39",
"file": "Float",
"old": "fl_tt_euler (A SStep) p q (fl_input_scaler (A SStep) p (clip_act a)) in",
"new": "fl_tt_euler (A SStep) p q (fl_input_scaler (A SStep) p a) in",
"definition": "fl_tt_step",
"edit": "action not clipped",
"breaks": [
"C66"
]
},
{
"id": "FL40",
"file": "Float",
"old": "let k := a_cvt P (5/10 * (p_l1 p + p_lf1 p - p_lr p)) in",
"new": "let k := a_mul P (a_mul P (a_cvt P (5/10 * (p_l1 p + p_lf1 p - p_lr p))) (1 + 1/100)) 1 in",
"definition": "fl_tractor_corners",
"edit": "one percent error in the centre",
"breaks": [
"C65",
"C66"
]
},
{
"id": "FL41",
"file": "Float",
"old": "let nn := where_ (Rltb nn0 (/ 100000000)) 1 nn0 in",
"new": "let nn := 1 in",
"definition": "fl_axis_of_edge",
"edit": "axes not normalised",
"breaks": []
},
{
"id": "FL42",
"file": "Float",
"old": "let nn := where_ (Rltb nn0 (/ 100000000)) 1 nn0 in",
"new": "let nn := where_ (Rltb nn0 1) 1 nn0 in",
"definition": "fl_axis_of_edge",
"edit": "threshold 1",
"breaks": []
},
{
"id": "RC1",
"file": "Recipes",
"old": "| (_, Err e) => Err e end",
"new": "| (r, Err _) => k r end",
"definition": "andthen",
"edit": "exceptions of setters swallowed",
"breaks": [
"C69"
],
"timeout": 150
},
{
"id": "RC2",
"file": "Recipes",
"old": "g_lf2 := num c \"lf2\"; g_lr2 := num c \"lr2\";\n  g_trac_w := num c \"tractor_width\"; g_trail_w := num c \"trailer_width\"; g_vmax := num c \"v_max\";\n  g_ddeg := num c \"delta_max_deg\"; g_amax",
"new": "g_lf2 := num c \"lr2\"; g_lr2 := num c \"lf2\";\n  g_trac_w := num c \"tractor_width\"; g_trail_w := num c \"trailer_width\"; g_vmax := num c \"v_max\";\n  g_ddeg := num c \"delta_max_deg\"; g_amax",
"definition": "main_args",
"edit": "lf2 and lr2 swapped",
"breaks": [
"C69"
],
"timeout": 150
},
{
"id": "RC3",
"file": "Recipes",
"old": "g_proj := flag c \"enable_projection\"",
"new": "g_proj := flag c \"enable_guidance\"",
"definition": "main_args",
"edit": "projection from the wrong key",
"breaks": [
"C69"
],
"timeout": 150
},
{
"id": "RC4",
"file": "Recipes",
"old": "g_motion := int c \"motion_preference\"",
"new": "g_motion := 0%Z",
"definition": "main_args",
"edit": "preference not passed",
"breaks": [
"C69"
],
"timeout": 150
},
{
"id": "RC5",
"file": "Recipes",
"old": "g_trailers := int c \"num_trailers\" |}.\n\n(** A setter",
"new": "g_trailers := 1 |}.\n\n(** A setter",
"definition": "main_args",
"edit": "num_trailers not passed",
"breaks": [
"C69"
],
"timeout": 150
},
{
"id": "RC6",
"file": "Recipes",
"old": "g_term_w := num c \"terminal_reward_weight\";\n  g_rpos_w := num c \"ref_pos_weight\"",
"new": "g_term_w := num c \"terminal_reward_threshold\";\n  g_rpos_w := num c \"ref_pos_weight\"",
"definition": "main_args",
"edit": "terminal weight from threshold",
"breaks": [
"C69"
],
"timeout": 150
},
{
"id": "RC7",
"file": "Recipes",
"old": "(Some dx) (Some dy) th1 th2 0 0",
"new": "(Some dy) (Some dx) th1 th2 0 0",
"definition": "start_at",
"edit": "dx and dy swapped",
"breaks": [
"C69"
],
"timeout": 150
},
{
"id": "RC8",
"file": "Recipes",
"old": "start_at 3 5 0 0",
"new": "start_at 3 0 0 0",
"definition": "script_setup",
"edit": "start dy 0 instead of 5",
"breaks": [
"C69"
],
"timeout": 150
},
{
"id": "RC9",
"file": "Recipes",
"old": "Z.ltb 1 (int c \"num_trailers\") then",
"new": "Z.ltb 2 (int c \"num_trailers\") then",
"definition": "script_setup",
"edit": "boundary of the number of trailers",
"breaks": [
"C69"
],
"timeout": 150
},
{
"id": "RC10",
"file": "Recipes",
"old": "start_at 25 15 (- PI / 8) 0",
"new": "start_at 25 15 (PI / 8) 0",
"definition": "script_setup",
"edit": "sign of the heading for many trailers",
"breaks": [
"C69"
],
"timeout": 150
},
{
"id": "RC11",
"file": "Recipes",
"old": "start_at (-12) 1 PI PI",
"new": "start_at (-12) 1 0 0",
"definition": "script_setup",
"edit": "forward-enter start heading",
"breaks": [
"C69"
],
"timeout": 150
},
{
"id": "RC12",
"file": "Recipes",
"old": "(-1) || Z.eqb (int c \"motion_preference\") (-2)",
"new": "(-1)",
"definition": "script_setup",
"edit": "preference -2 keeps the default goal heading",
"breaks": [
"C69"
],
"timeout": 150
},
{
"id": "RC13",
"file": "Recipes",
"old": "(Some (PI / 2)) (Some (PI / 2)) 0 0) else (r3, Ok tt)",
"new": "(Some (PI / 2)) (Some (- PI / 2)) 0 0) else (r3, Ok tt)",
"definition": "script_setup",
"edit": "trailer goal heading reversed",
"breaks": [
"C69"
],
"timeout": 150
},
{
"id": "RC14",
"file": "Recipes",
"old": "g_lh := g_lh g;",
"new": "g_lh := g_l1 g;",
"definition": "timed",
"edit": "lh from l1",
"breaks": [
"C70",
"C71"
],
"timeout": 150
},
{
"id": "RC15",
"file": "Recipes",
"old": "g_env := e; g_dt := dt",
"new": "g_env := None; g_dt := dt",
"definition": "timed",
"edit": "environment object dropped",
"breaks": [
"C71"
],
"timeout": 150
},
{
"id": "RC16",
"file": "Recipes",
"old": "(text c \"case\") (int c \"num_trailers\")) (num c \"dt\")",
"new": "\"parking\" (int c \"num_trailers\")) (num c \"dt\")",
"definition": "readme_args",
"edit": "case ignored",
"breaks": [
"C70"
],
"timeout": 150
},
{
"id": "RC17",
"file": "Recipes",
"old": "start_at 2 1 0 0",
"new": "start_at 2 1 PI PI",
"definition": "readme_start_goal",
"edit": "start reversed",
"breaks": [
"C70"
],
"timeout": 150
},
{
"id": "RC18",
"file": "Recipes",
"old": "(Some (- PI / 2)) (Some (- PI / 2)) 0 0)) (fun r2 => Ok r2)",
"new": "None None 0 0)) (fun r2 => Ok r1)",
"definition": "readme_start_goal",
"edit": "goal setter dropped",
"breaks": [
"C70"
],
"timeout": 150
},
{
"id": "RC19",
"file": "Recipes",
"old": "(pk_occ c) l (pk_rad c)",
"new": "l (pk_tgt c) (pk_rad c)",
"definition": "put_targets",
"edit": "occupied list overwritten instead of targets",
"breaks": [
"C70"
],
"timeout": 150
},
{
"id": "RC20",
"file": "Recipes",
"old": "[5 - 5/2 - 1; -5; 1; 5 * 2; 0]",
"new": "[5 - 5/2 + 1; -5; 1; 5 * 2; 0]",
"definition": "example_rects",
"edit": "left wall inside the space",
"breaks": [
"C71"
],
"timeout": 150
},
{
"id": "RC21",
"file": "Recipes",
"old": "[5; -5 - 5 - 1; 5/2 * 2 + 4; 1; 0]",
"new": "[5; -5 + 5 - 1; 5/2 * 2 + 4; 1; 0]",
"definition": "example_rects",
"edit": "bottom wall above the goal",
"breaks": [
"C71"
],
"timeout": 150
},
{
"id": "RC22",
"file": "Recipes",
"old": "[5 - 5/2 - 6; -5 + 18; 12/10; 5 * 2; PI / 4]",
"new": "[5 - 5/2 - 6; -5 - 18; 12/10; 5 * 2; PI / 4]",
"definition": "example_rects",
"edit": "wall below",
"breaks": [
"C71"
],
"timeout": 150
},
{
"id": "RC23",
"file": "Recipes",
"old": "[5 + 5/2 + 0; -5 - 3; 2]",
"new": "[5 + 5/2 + 0; -5 - 3; 3]",
"definition": "example_circles",
"edit": "radius",
"breaks": [
"C71"
],
"timeout": 150
},
{
"id": "RC24",
"file": "Recipes",
"old": "[5 + 5/2 + 1; -5 + 12; 7/2]",
"new": "[5 + 5/2 - 9; -5 + 12; 7/2]",
"definition": "example_circles",
"edit": "circle on the start",
"breaks": [
"C71"
],
"timeout": 150
},
{
"id": "RC25",
"file": "Recipes",
"old": "(Some (-10)) (Some 5) None None 0 0 0 0",
"new": "(Some 10) (Some 5) None None 0 0 0 0",
"definition": "example_setup",
"edit": "start x sign",
"breaks": [
"C71"
],
"timeout": 150
},
{
"id": "RC26",
"file": "Recipes",
"old": "(Some 5) (Some (-5)) (Some (- PI / 2)) (Some (- PI / 2)) 0 0",
"new": "(Some 5) (Some 5) (Some (- PI / 2)) (Some (- PI / 2)) 0 0",
"definition": "example_setup",
"edit": "goal y sign",
"breaks": [
"C71"
],
"timeout": 150
},
{
"id": "RC27",
"file": "Recipes",
"old": "set_circle_obs r1 example_circles 0) (fun r2",
"new": "set_circle_obs r0 example_circles 0) (fun r2",
"definition": "example_setup",
"edit": "rectangles lost",
"breaks": [
"C71"
],
"timeout": 150
},
{
"id": "RC28",
"file": "Recipes",
"old": "(\"case\", VStr \"navigation\")",
"new": "(\"case\", VStr \"parking\")",
"definition": "example_config",
"edit": "case",
"breaks": [
"C71"
],
"timeout": 150
},
{
"id": "MX1",
"file": "Acc",
"old": "Definition acc_reward (s : acc_self) (q : accq) : R := tt_reward (as_t s) (a_q q)",
"new": "Definition acc_reward (s : acc_self) (q : accq) : R := tt_terminal (as_t s) (a_q q)",
"definition": "acc_reward",
"edit": "running reward uses the terminal threshold",
"breaks": []
},
{
"id": "MX2",
"file": "Acc",
"old": "Definition acc_terminal (s : acc_self) (q : accq) : R := tt_terminal (as_t s) (a_q q)",
"new": "Definition acc_terminal (s : acc_self) (q : accq) : R := tt_reward (as_t s) (a_q q)",
"definition": "acc_terminal",
"edit": "terminal reward replaced by the running reward",
"breaks": []
},
{
"id": "MX3",
"file": "Acc",
"old": "(as_coll s q_new, as_hitch s q_new)",
"new": "(as_hitch s q_new, as_coll s q_new)",
"definition": "check_single",
"edit": "flags swapped",
"breaks": []
},
{
"id": "MX4",
"file": "Acc",
"old": "ts_hitch (as_t s) (a_q x)",
"new": "false",
"definition": "as_hitch",
"edit": "hitch check dropped for the acceleration model",
"breaks": []
},
{
"id": "MX5",
"file": "Acc",
"old": "Definition as_coll (s : acc_self) (x : accq) : bool := ts_coll (as_t s) (a_q x)",
"new": "Definition as_coll (s : acc_self) (x : accq) : bool := tt_coll (as_p s) (ts_circ (as_t s)) [] (a_q x)",
"definition": "as_coll",
"edit": "rectangles not checked",
"breaks": []
},
{
"id": "MX6",
"file": "Anim",
"old": "centred wheel_len wheel_wid rot",
"new": "centred wheel_wid wheel_len rot",
"definition": "wheel",
"edit": "wheel length and width swapped",
"breaks": []
},
{
"id": "MX7",
"file": "Anim",
"old": "wheel (th0 + steer_of u)",
"new": "wheel (th0 - steer_of u)",
"definition": "nt_draw",
"edit": "front wheel drawn turned the wrong way",
"breaks": []
},
{
"id": "MX8",
"file": "Anim",
"old": "mkDrawing (centred (p_l1 p + p_lf1 p + p_lr p) (p_trac_w p) th0 tcx tcy :: bs)",
"new": "mkDrawing (centred (p_l1 p + p_lf1 p + p_lr p) (p_trail_w p) th0 tcx tcy :: bs)",
"definition": "nt_draw",
"edit": "tractor drawn with the trailer width",
"breaks": []
},
{
"id": "MX9",
"file": "Anim",
"old": "centred (r_w o) (r_h o) (r_ang o)",
"new": "centred (r_w o) (r_h o) (- r_ang o)",
"definition": "draw_rect",
"edit": "obstacle drawn rotated the wrong way",
"breaks": []
},
{
"id": "MX10",
"file": "Anim",
"old": "centred (r_w o) (r_h o) (r_ang o)",
"new": "centred (r_h o) (r_w o) (r_ang o)",
"definition": "draw_rect",
"edit": "width and height swapped",
"breaks": []
},
{
"id": "MX11",
"file": "Anim",
"old": "((c_x c, c_y c), c_r c)",
"new": "((c_x c, c_y c), 2 * c_r c)",
"definition": "draw_circle",
"edit": "diameter as radius",
"breaks": []
},
{
"id": "MX12",
"file": "Anim",
"old": "| String _ EmptyString => String.append \"000\" s",
"new": "| String _ EmptyString => String.append \"00\" s",
"definition": "percent_04d",
"edit": "one zero too few for single digits",
"breaks": []
},
{
"id": "MX13",
"file": "Anim",
"old": "Definition sort_names (l : list string) : list string := fold_right insert [] l",
"new": "Definition sort_names (l : list string) : list string := l",
"definition": "sort_names",
"edit": "videos merged in directory order",
"breaks": []
},
{
"id": "MX14",
"file": "Anim",
"old": "(fun m => negb (String.eqb m \"video_list.txt\"))",
"new": "(fun m => true)",
"definition": "merge_videos",
"edit": "temporary list left behind",
"breaks": []
},
{
"id": "MX15",
"file": "Anim",
"old": "(nt_draw s) (ns_coll s) (nt_hitch s)",
"new": "(nt_draw s) (nt_hitch s) (ns_coll s)",
"definition": "nt_animated",
"edit": "collision and hitch marks swapped",
"breaks": []
},
{
"id": "MX16",
"file": "Anim",
"old": "(fun q => ts_hitch (as_t s) (a_q q)) (fun q => (t_px (a_q q), t_py (a_q q)))",
"new": "(fun q => ts_hitch (as_t s) (a_q q)) (fun q => (t_py (a_q q), t_px (a_q q)))",
"definition": "acc_animated",
"edit": "trace coordinates swapped",
"breaks": []
},
{
"id": "MX17",
"file": "Bicycle",
"old": "(p_term_thr (bs_p s))",
"new": "(p_rew_thr (bs_p s))",
"definition": "bk_terminal",
"edit": "terminal reward uses the running threshold",
"breaks": []
},
{
"id": "MX18",
"file": "Bicycle",
"old": "tractor_corners p (b_px x) (b_py x) (b_th x)",
"new": "tractor_corners p (b_px x) (b_py x) (- b_th x)",
"definition": "bk_corners",
"edit": "body rotated the wrong way",
"breaks": []
},
{
"id": "MX19",
"file": "Bicycle",
"old": "existsb (hits_circle (bk_corners p x)) circ || existsb",
"new": "existsb (hits_circle (bk_corners p x)) circ && existsb",
"definition": "bk_coll",
"edit": "both kinds must hit",
"breaks": []
},
{
"id": "MX20",
"file": "CacheInst",
"old": "m_terminal := fun d => acc_terminal (fst d)",
"new": "m_terminal := fun d => acc_reward (fst d)",
"definition": "acc_methods",
"edit": "terminal method is get_reward",
"breaks": []
},
{
"id": "MX21",
"file": "CacheInst",
"old": "m_jit_reset := false",
"new": "m_jit_reset := true",
"definition": "nt_methods",
"edit": "N-trailer reset traced",
"breaks": []
},
{
"id": "MX22",
"file": "Cache",
"old": "match w_env w c with",
"new": "match w_env w \"\" with",
"definition": "get_funcs",
"edit": "functions shared by all classes",
"breaks": []
},
{
"id": "MX23",
"file": "Cache",
"old": "  match w_rev w with\n  | Some rf => (w, rf)",
"new": "  match (if Nat.eqb 0 1 then w_rev w else None) with\n  | Some rf => (w, rf)",
"definition": "get_rev",
"edit": "reverse_once never reused",
"breaks": []
},
{
"id": "MX24",
"file": "Cache",
"old": "let fs := mkFuncs (w_fns w) o in",
"new": "let fs := mkFuncs (w_fns w) 0 in",
"definition": "get_funcs",
"edit": "functions wrap the first object of the process",
"breaks": []
},
{
"id": "MX25",
"file": "Cache",
"old": "if g_guid g then call_step w6 o true else call_step w6 (ef_obj fs) false",
"new": "if g_guid g then call_step w6 o true else call_step w6 o false",
"definition": "run",
"edit": "states recomputed with the object itself, not with the cached step",
"breaks": []
},
{
"id": "MX26",
"file": "Cache",
"old": "let '(w9, roll') := call_roll w8 fs (g_Hsample g) in",
"new": "let '(w9, roll') := call_roll w8 (rf_funcs rf) (g_Hsample g) in",
"definition": "run",
"edit": "final reward with the functions reverse_once captured",
"breaks": []
},
{
"id": "MX27",
"file": "Cache",
"old": "let '(w6, roll) := call_roll w5 fs (g_Hsample g) in",
"new": "let '(w6, roll) := call_roll w5 (rf_funcs rf) (g_Hsample g) in",
"definition": "run",
"edit": "plan carried out with the functions reverse_once captured",
"breaks": []
},
{
"id": "MX28",
"file": "Cache",
"old": "m_dmax (meth w1 o) (data w1 o)",
"new": "m_steer_w (meth w1 o) (data w1 o)",
"definition": "call_rev",
"edit": "wrong attribute",
"breaks": []
},
{
"id": "MX29",
"file": "Config",
"old": "if String.eqb k key then Some v else lookup rest key",
"new": "match lookup rest key with Some x => Some x | None => if String.eqb k key then Some v else None end",
"definition": "lookup",
"edit": "last entry wins",
"breaks": []
},
{
"id": "MX30",
"file": "Config",
"old": "| None, Some v => Ok v",
"new": "| None, Some v => Err KeyError",
"definition": "eval_kwargs",
"edit": "defaults ignored",
"breaks": []
},
{
"id": "MX31",
"file": "Demo",
"old": "if Rle_dec 0 y then atan (y / x) + PI else atan (y / x) - PI",
"new": "if Rle_dec 0 y then atan (y / x) - PI else atan (y / x) + PI",
"definition": "atan2",
"edit": "branches swapped",
"breaks": []
},
{
"id": "MX32",
"file": "Demo",
"old": "demo (p_H (ns_p s)) (ns_circ s) (ns_rect s) (n_px x0, n_py x0)",
"new": "demo (p_H (ns_p s)) (ns_circ s) [] (n_px x0, n_py x0)",
"definition": "nt_demo",
"edit": "rectangles not passed to the demonstration",
"breaks": []
},
{
"id": "MX33",
"file": "Demo",
"old": "where_ (use_tractor pref) (n_px x, n_py x) (nt_last_pos s x)",
"new": "where_ (use_tractor pref) (nt_last_pos s x) (n_px x, n_py x)",
"definition": "nt_logpd",
"edit": "tracked axle swapped",
"breaks": []
},
{
"id": "MX34",
"file": "Demo",
"old": "mkBK (f_px r) (f_py r) (f_th1 r)",
"new": "mkBK (f_px r) (f_py r) (f_th2 r)",
"definition": "row_bk",
"edit": "wrong heading column",
"breaks": []
},
{
"id": "MX35",
"file": "Demo",
"old": "(t_px x0, t_py x0) (ts_xg s) dir wmax pref",
"new": "(t_py x0, t_px x0) (ts_xg s) dir wmax pref",
"definition": "tt_demo",
"edit": "start coordinates swapped",
"breaks": []
},
{
"id": "MX36",
"file": "EnvModel",
"old": "| Ok y => match convert_all f xs with Err e => Err e | Ok ys => Ok (y :: ys) end",
"new": "| Ok y => match convert_all f xs with Err e => Err e | Ok ys => Ok ys end",
"definition": "convert_all",
"edit": "elements dropped",
"breaks": []
},
{
"id": "MX37",
"file": "Float",
"old": "(a_sin A (b_th x)))\n       (a_mul A (a_div A v (a_cvt A (p_l1 p)))",
"new": "(a_sin A (b_th x)))\n       (a_mul A (a_div A v (a_cvt A (p_l2 p)))",
"definition": "fl_bk_dyn",
"edit": "wrong length",
"breaks": []
},
{
"id": "MX38",
"file": "Float",
"old": "(fl_obs_corners (A SObstacle) o)",
"new": "(fl_obs_corners (A SObstacle) (mkRect (r_x o) (r_y o) (r_w o) (r_h o) 0))",
"definition": "fl_hits_rect",
"edit": "obstacle angle ignored",
"breaks": []
},
{
"id": "MX39",
"file": "Float",
"old": "(c_x c, c_y c) (c_r c)",
"new": "(c_x c, c_y c) (2 * c_r c)",
"definition": "fl_hits_circle",
"edit": "radius doubled",
"breaks": []
},
{
"id": "MX40",
"file": "Geom",
"old": "box_corner ang cx cy hl hw;\n    box_corner ang cx cy hl (- hw)",
"new": "box_corner ang cx cy hl (- hw);\n    box_corner ang cx cy hl hw",
"definition": "box_corners",
"edit": "corners in crossing order",
"breaks": []
},
{
"id": "MX41",
"file": "Geom",
"old": "[axis_of_edge e0; axis_of_edge e1]",
"new": "[axis_of_edge e0; axis_of_edge e0]",
"definition": "get_axes",
"edit": "second axis missing",
"breaks": []
},
{
"id": "MX42",
"file": "Guidance",
"old": "(circle_penalty (b_px x, b_py x))",
"new": "(circle_penalty (b_py x, b_px x))",
"definition": "bk_guidance_cost",
"edit": "coordinates swapped",
"breaks": []
},
{
"id": "MX43",
"file": "Harness",
"old": "(String.length s - String.length suf)",
"new": "0",
"definition": "endswith",
"edit": "compares the beginning",
"breaks": []
},
{
"id": "MX44",
"file": "Harness",
"old": "drop_all \"_demo\" s 0",
"new": "s",
"definition": "remove_demo",
"edit": "suffix kept",
"breaks": []
},
{
"id": "MX45",
"file": "Harness",
"old": "dset acc (fst kv) (snd kv)",
"new": "acc",
"definition": "dmerge",
"edit": "right operand ignored",
"breaks": []
},
{
"id": "MX46",
"file": "Harness",
"old": "(\"seed\", VInt 0); (\"render\", VBool false)",
"new": "(\"seed\", VInt 0); (\"render\", VBool true)",
"definition": "test_overrides",
"edit": "tests render",
"breaks": []
},
{
"id": "MX47",
"file": "Harness",
"old": "if String.eqb key k then Some v else d key",
"new": "match d key with Some x => Some x | None => if String.eqb key k then Some v else None end",
"definition": "put",
"edit": "overrides do not override",
"breaks": []
},
{
"id": "MX48",
"file": "Harness",
"old": "(demo_of acc_scenarios).",
"new": "(demo_of kinematic_scenarios).",
"definition": "all_scenarios",
"edit": "acceleration demo scenarios missing",
"breaks": []
},
{
"id": "MX49",
"file": "Harness",
"old": "Definition list_acceleration_scenarios : list string :=\n  filter (fun n => startswith n \"acc_parking_\")",
"new": "Definition list_acceleration_scenarios : list string :=\n  filter (fun n => startswith n \"acc\")",
"definition": "list_acceleration_scenarios",
"edit": "looser prefix (same names today)",
"breaks": []
},
{
"id": "MX50",
"file": "Harness",
"old": "Definition list_kinematic_scenarios : list string := filter (fun n => startswith n \"parking_\")",
"new": "Definition list_kinematic_scenarios : list string := filter (fun n => endswith n \"parking_\")",
"definition": "list_kinematic_scenarios",
"edit": "suffix instead of prefix",
"breaks": []
},
{
"id": "MX51",
"file": "Harness",
"old": "if String.leb n m then n :: l",
"new": "if String.leb m n then n :: l",
"definition": "insert_name",
"edit": "descending order",
"breaks": []
},
{
"id": "MX52",
"file": "Harness",
"old": "(\"test_demo_flag_override\", DemoOverride); ",
"new": "",
"definition": "methods",
"edit": "one test forgotten",
"breaks": []
},
{
"id": "MX53",
"file": "NTrailer",
"old": "repeat (p_l2 p)",
"new": "repeat (p_l1 p)",
"definition": "nt_default_lengths",
"edit": "tractor wheelbase as trailer length",
"breaks": []
},
{
"id": "HS1",
"file": "HarnessSave",
"old": "\"_arrays.npz\"",
"new": "\"_result.json\"",
"breaks": [
"C73"
],
"edit": "arrays file gets the name of the result file",
"definition": "arrays_name"
},
{
"id": "HS2",
"file": "HarnessSave",
"old": "if Z.eqb code 0 then out else \"unknown\"",
"new": "if Z.eqb code 0 then \"unknown\" else out",
"breaks": [
"C73"
],
"edit": "git answer inverted",
"definition": "get_git_commit"
},
{
"id": "HS3",
"file": "HarnessSave",
"old": "let trailer := final_distance_of (back final) goal in",
"new": "let trailer := final_distance_of (pos final) goal in",
"breaks": [
"C73"
],
"edit": "trailer distance measured at the tractor",
"definition": "save_test_results"
},
{
"id": "HS4",
"file": "HarnessSave",
"old": "trajectory_violations coll hitch false false states in",
"new": "trajectory_violations hitch coll false false states in",
"breaks": [
"C73"
],
"edit": "collision and hitch checks swapped",
"definition": "save_test_results"
},
{
"id": "HS5",
"file": "HarnessSave",
"old": "let final := last states q0 in",
"new": "let final := q0 in",
"breaks": [
"C73"
],
"edit": "first state instead of the last",
"definition": "save_test_results"
},
{
"id": "HS6",
"file": "HarnessSave",
"old": "hv oc success tractor trailer",
"new": "oc hv success tractor trailer",
"breaks": [
"C73"
],
"edit": "violations stored under each other's key",
"definition": "save_test_results"
},
{
"id": "HS7",
"file": "HarnessSave",
"old": "(Rmin tractor trailer) (row final)",
"new": "(Rmax tractor trailer) (row final)",
"breaks": [
"C73"
],
"edit": "max instead of min of the distances",
"definition": "save_test_results"
},
{
"id": "HS8",
"file": "HarnessSave",
"old": "Rleb tractor_chk (tc_limit c) || Rleb",
"new": "Rleb tractor_chk (tc_limit c) && Rleb",
"breaks": [
"C73"
],
"edit": "success needs both distances",
"definition": "save_test_results"
},
{
"id": "HS9",
"file": "HarnessSave",
"old": "(length states) (length actions) in",
"new": "(length actions) (length states) in",
"breaks": [
"C73"
],
"edit": "numbers of states and actions swapped",
"definition": "save_test_results"
},
{
"id": "HS10",
"file": "HarnessSave",
"old": "Arrays actions (map row states)",
"new": "Arrays actions (map row (tl states))",
"breaks": [
"C73"
],
"edit": "arrays without the first state",
"definition": "save_test_results"
},
{
"id": "HS11",
"file": "HarnessSave",
"old": "| Some (0%nat, e) => (fs, Err e)",
"new": "| Some (0%nat, e) => (fs, Ok tt)",
"breaks": [
"C73"
],
"edit": "opening error swallowed",
"definition": "save_test_results"
},
{
"id": "HS12",
"file": "HarnessSave",
"old": "| Some (2%nat, e) => (fs1, Err e)",
"new": "| Some (2%nat, e) => (fs1, Ok tt)",
"breaks": [
"C73"
],
"edit": "arrays open error swallowed",
"definition": "save_test_results"
},
{
"id": "HS13",
"file": "HarnessSave",
"old": "| o => (fs, o)",
"new": "| o => (fst (save_test_results m fs), o)",
"breaks": [
"C73"
],
"edit": "results saved also when validation fails",
"definition": "finish_test"
},
{
"id": "HS14",
"file": "HarnessSave",
"old": "if Rltb (tc_timeout c) (t1 - t0) then (fs, Failed)",
"new": "if Rltb (t1 - t0) (tc_timeout c) then (fs, Failed)",
"breaks": [
"C73"
],
"edit": "timeout comparison inverted",
"definition": "finish_test"
},
{
"id": "HS15",
"file": "HarnessSave",
"old": "[t_px q; t_py q; t_th1 q; t_th2 q]",
"new": "[t_px q; t_py q; t_th2 q; t_th1 q]",
"breaks": [
"C73"
],
"edit": "state row with swapped headings",
"definition": "tt_row"
},
{
"id": "HS16",
"file": "HarnessSave",
"old": "tt_row (a_q q) ++ [a_v q; a_d q]",
"new": "tt_row (a_q q)",
"breaks": [
"C73"
],
"edit": "acceleration class saves only four components",
"definition": "acc_row"
},
{
"id": "HS17",
"file": "HarnessSave",
"old": "write fs1 an (Arrays",
"new": "write fs an (Arrays",
"breaks": [
"C73"
],
"edit": "second write drops the first",
"definition": "save_test_results"
},
{
"id": "HS18",
"file": "HarnessSave",
"old": "String.eqb m name then Some x else fs m",
"new": "String.eqb m name then Some x else None",
"breaks": [
"C73"
],
"edit": "writing a file removes all others",
"definition": "write"
},
{
"id": "HS19",
"file": "HarnessSave",
"old": "let trailer_chk := pnorm (psub (back final) goal) in",
"new": "let trailer_chk := pnorm (psub goal goal) in",
"breaks": [
"C73"
],
"edit": "trailer check always zero",
"definition": "save_test_results"
},
{
"id": "HS20",
"file": "HarnessSave",
"old": "(t_px (ts_xg s), t_py (ts_xg s)) c (o_Y0 out)",
"new": "(t_px x0, t_py x0) c (o_Y0 out)",
"breaks": [
"C73"
],
"edit": "distance to the start instead of the goal",
"definition": "run_and_save"
},
{
"id": "HS21",
"file": "HarnessSave",
"old": "((w', fs'), match o with",
"new": "((w', snd s), match o with",
"breaks": [
"C73"
],
"edit": "runner restores the directory",
"definition": "saving_run"
},
{
"id": "HS23",
"file": "HarnessSave",
"old": "| Some (3%nat, e) => (write fs1 an Broken, Err e)",
"new": "| Some (3%nat, e) => (write fs rn Broken, Err e)",
"breaks": [
"C73"
],
"edit": "failure of the arrays damages the result file",
"definition": "save_test_results"
},
{
"id": "HS24",
"file": "HarnessSave",
"old": "| Err x => (fs, Errored x)\n          | Ok out =>\n              finish_test tt_row",
"new": "| Err x => (write fs (result_name (tc_name c)) Broken, Errored x)\n          | Ok out =>\n              finish_test tt_row",
"breaks": [
"C73"
],
"edit": "result file opened before planning",
"definition": "run_and_save"
},
{
"id": "TS1",
"file": "TuneSave",
"old": "\"tractor_width\"; \"trailer_width\"; \"v_max\"",
"new": "\"tractor_width\"; \"v_max\"",
"breaks": [
"C72"
],
"edit": "trailer_width not kept",
"definition": "kept_fields"
},
{
"id": "TS2",
"file": "TuneSave",
"old": "Some v => match config_to_dict c rest with Err e => Err e | Ok m => Ok ((k, v) :: m) end",
"new": "Some v => match config_to_dict c rest with Err e => Err e | Ok m => Ok (m ++ [(k, v)]) end",
"breaks": [],
"edit": "base fields in reverse order",
"definition": "config_to_dict"
},
{
"id": "TS3",
"file": "TuneSave",
"old": "| None => Err AttributeError",
"new": "| None => config_to_dict c rest",
"breaks": [
"C72"
],
"edit": "missing attribute skipped",
"definition": "config_to_dict"
},
{
"id": "TS4",
"file": "TuneSave",
"old": "(tn_study t) (tu_number b) (tu_score b)",
"new": "(tn_study t) (sd_trials s) (tu_score b)",
"breaks": [
"C72"
],
"edit": "best trial number is the number of trials",
"definition": "save_results"
},
{
"id": "TS5",
"file": "TuneSave",
"old": "(tu_params b) (sd_trials s) base",
"new": "(tu_params b) (length (tn_results t)) base",
"breaks": [
"C72"
],
"edit": "n_trials counts the results",
"definition": "save_results"
},
{
"id": "TS6",
"file": "TuneSave",
"old": "(tn_results t ++ l)",
"new": "l",
"breaks": [
"C72"
],
"edit": "results of earlier searches dropped",
"definition": "optimise"
},
{
"id": "TS7",
"file": "TuneSave",
"old": "base_config 100 \"mbd_parking",
"new": "base_config 10 \"mbd_parking",
"breaks": [
"C72"
],
"edit": "ten evaluations per trial",
"definition": "tune_main"
},
{
"id": "TS8",
"file": "TuneSave",
"old": "sampler worse 100 ran in",
"new": "sampler worse 20 ran in",
"breaks": [
"C72"
],
"edit": "twenty trials",
"definition": "tune_main"
},
{
"id": "TS9",
"file": "TuneSave",
"old": "\"mbd_optimization_results.json\" end.",
"new": "\"mbd_optimization_results.jsn\" end.",
"breaks": [
"C72"
],
"edit": "other file name",
"definition": "tune_main"
},
{
"id": "TS10",
"file": "TuneSave",
"old": "| Err e => (fs, Err e)\n  | Ok b =>",
"new": "| Err e => (fs, Ok tt)\n  | Ok b =>",
"breaks": [
"C72"
],
"edit": "search without completed trial saved silently",
"definition": "save_results"
},
{
"id": "TS11",
"file": "TuneSave",
"old": "(Nat.min n_trials ran) 0 [] in",
"new": "(Nat.max n_trials ran) 0 [] in",
"breaks": [
"C72"
],
"edit": "runs the larger number of trials",
"definition": "optimise"
},
{
"id": "TS12",
"file": "TuneSave",
"old": "else fs p,",
"new": "else None,",
"breaks": [
"C72"
],
"edit": "saving drops other files",
"definition": "save_results"
},
{
"id": "TS13",
"file": "TuneSave",
"old": "Ok (mkStudy (Nat.min n_trials ran) l)",
"new": "Ok (mkStudy n_trials l)",
"breaks": [
"C72"
],
"edit": "study counts requested trials",
"definition": "optimise"
},
{
"id": "TP1",
"file": "Planner",
"old": "(r - mean) / std / g_temp g) rews",
"new": "(r - mean) / std * g_temp g) rews",
"breaks": [
"C74"
],
"edit": "temperature multiplied",
"definition": "log_scores"
},
{
"id": "TP2",
"file": "Planner",
"old": "(r - mean) / std / g_temp g) rews",
"new": "(r - mean) / g_temp g) rews",
"breaks": [
"C74"
],
"edit": "rewards not standardised",
"definition": "log_scores"
},
{
"id": "TP3",
"file": "Planner",
"old": "(r - mean) / std / g_temp g) rews",
"new": "(r - mean) / std) rews",
"breaks": [
"C74"
],
"edit": "temperature ignored",
"definition": "log_scores"
},
{
"id": "TP4",
"file": "Planner",
"old": "where_ (Rltb std0 (1 / 10000)) 1 std0",
"new": "where_ (Rltb std0 1) 1 std0",
"breaks": [
"C74"
],
"edit": "spread below 1 replaced by 1",
"definition": "log_scores"
},
{
"id": "SM1",
"file": "StatMain",
"old": "(\"Nsample\", VInt 20000)",
"new": "(\"Nsample\", VInt 2000)",
"edit": "fewer samples",
"definition": "stat_config",
"breaks": [
"C75"
]
},
{
"id": "SM2",
"file": "StatMain",
"old": "(\"motion_preference\", VInt 0)",
"new": "(\"motion_preference\", VInt (-1))",
"edit": "backward preference",
"definition": "stat_config",
"breaks": [
"C75"
]
},
{
"id": "SM3",
"file": "StatMain",
"old": "(\"enable_shielded_rollout_hitch\", VBool true)",
"new": "(\"enable_shielded_rollout_hitch\", VBool false)",
"edit": "hitch shield off",
"definition": "stat_config",
"breaks": [
"C75"
]
},
{
"id": "SM4",
"file": "StatMain",
"old": "(\"enable_demo\", VBool false)",
"new": "(\"enable_demo\", VBool true)",
"edit": "demonstration on",
"definition": "stat_config",
"breaks": [
"C75"
]
},
{
"id": "SM5",
"file": "StatMain",
"old": "(\"temp_sample\", VFloat (1/100000))",
"new": "(\"temp_sample\", VFloat (1/1000))",
"edit": "other temperature",
"definition": "stat_config",
"breaks": [
"C75"
]
},
{
"id": "SM6",
"file": "StatMain",
"old": "(\"num_trailers\", VInt 1)",
"new": "(\"num_trailers\", VInt 2)",
"edit": "two trailers",
"definition": "stat_config",
"breaks": [
"C75"
]
},
{
"id": "SM7",
"file": "StatMain",
"old": "(\"steering_weight\", VFloat (1/100))",
"new": "(\"steering_weight\", VFloat (1/10))",
"edit": "steering weight",
"definition": "stat_config",
"breaks": [
"C75"
]
},
{
"id": "SM8",
"file": "StatMain",
"old": "(\"case\", VStr \"parking\")",
"new": "(\"case\", VStr \"navigation\")",
"edit": "other case",
"definition": "stat_config",
"breaks": [
"C75"
]
},
{
"id": "SM9",
"file": "StatMain",
"old": "(\"enable_guidance\", VBool false)",
"new": "(\"enable_guidance\", VBool true)",
"edit": "guidance on",
"definition": "stat_config",
"breaks": [
"C75"
]
},
{
"id": "SM10",
"file": "StatMain",
"old": "(\"terminal_reward_weight\", VFloat 5)",
"new": "(\"terminal_reward_weight\", VFloat 1)",
"edit": "terminal weight",
"definition": "stat_config",
"breaks": [
"C75"
]
},
{
"id": "SM11",
"file": "StatMain",
"old": "evaluation_in w stat_config 100 42",
"new": "evaluation_in w stat_config 100 41",
"edit": "other seed",
"definition": "stat_main",
"breaks": [
"C75"
]
},
{
"id": "SM12",
"file": "StatMain",
"old": "evaluation_in w stat_config 100 42",
"new": "evaluation_in w stat_config 10 42",
"edit": "fewer trials",
"definition": "stat_main",
"breaks": [
"C75"
]
},
{
"id": "SM13",
"file": "StatMain",
"old": "match rev ts with",
"new": "match ts with",
"edit": "environment of the first trial for the heat map",
"definition": "evaluation_in",
"breaks": [
"C75"
]
},
{
"id": "SM14",
"file": "StatMain",
"old": "match summarize n results with",
"new": "match summarize (length results) results with",
"edit": "rate over the trials found",
"definition": "evaluation_in",
"breaks": [
"C75"
]
},
{
"id": "SM15",
"file": "StatMain",
"old": "zip ts (map v_success results)",
"new": "zip ts (map (fun v => negb (v_success v)) results)",
"edit": "colours swapped",
"definition": "evaluation_in",
"breaks": [
"C75"
]
},
{
"id": "SM16",
"file": "StatMain",
"old": "zip ts (map v_success results)",
"new": "zip ts (map v_coll results)",
"edit": "collision flag for success",
"definition": "evaluation_in",
"breaks": [
"C75"
]
},
{
"id": "SM17",
"file": "StatMain",
"old": "zip ts (map v_success results)",
"new": "zip (rev ts) (map v_success results)",
"edit": "starts reversed",
"definition": "evaluation_in",
"breaks": [
"C75"
]
},
{
"id": "SM18",
"file": "StatMain",
"old": "| [] => Err UnboundLocalError",
"new": "| [] => Ok (results, st, mkHeat [] [])",
"edit": "no exception without trials",
"definition": "evaluation_in",
"breaks": [
"C75"
]
},
{
"id": "SM19",
"file": "StatMain",
"old": "(\"d_thr_factor\", VFloat 1)",
"new": "(\"d_thr_factor\", VFloat 2)",
"edit": "distance threshold",
"definition": "stat_config",
"breaks": [
"C75"
]
},
{
"id": "SM20",
"file": "StatMain",
"old": "(\"Hsample\", VInt 50)",
"new": "(\"Hsample\", VInt 60)",
"edit": "horizon",
"definition": "stat_config",
"breaks": [
"C75"
]
},
{
"id": "MR1",
"file": "TT2d",
"old": "((v / p_l1 p) * tan delta)\n       ((v / p_l2 p)",
"new": "((v / p_l1 p) * tan (delta + 1/100))\n       ((v / p_l2 p)",
"definition": "tt_dyn",
"edit": "front wheel off-centre in the heading rate",
"breaks": [
"C76"
],
"timeout": 150
},
{
"id": "MR2",
"file": "Base",
"old": "(clip (fst a) (-1) 1, clip (snd a) (-1) 1)",
"new": "(clip (fst a) (-1) 1, clip (snd a) (-1/2) 1)",
"definition": "clip_act",
"edit": "steering command clipped to [-1/2, 1]",
"breaks": [
"C76"
],
"timeout": 150
},
{
"id": "MR3",
"file": "TT2d",
"old": "let cy := py + 5/10 * (p_l1 p + p_lf1 p - p_lr p) * sin th in",
"new": "let cy := py + 1/10 + 5/10 * (p_l1 p + p_lf1 p - p_lr p) * sin th in",
"definition": "tractor_corners",
"edit": "tractor body displaced sideways",
"breaks": [
"C76"
],
"timeout": 150
},
{
"id": "MR4",
"file": "TT2d",
"old": "Rltb (p_phi_max p) (Rabs hitch_angle)",
"new": "Rltb (p_phi_max p) hitch_angle",
"definition": "tt_hitch",
"edit": "abs dropped: jackknife to one side only",
"breaks": [
"C76"
],
"timeout": 150
},
{
"id": "MR5",
"file": "TT2d",
"old": "let use_direct := Rltb (Rabs e1d + Rabs e2d) (Rabs e1o + Rabs e2o) in",
"new": "let use_direct := Rltb (Rabs e1d + e2d) (Rabs e1o + Rabs e2o) in",
"definition": "tt_reward",
"edit": "abs of the trailer error dropped when choosing the direction",
"breaks": [
"C76"
],
"timeout": 150
},
{
"id": "MR6",
"file": "NTrailer",
"old": "(viol || Rltb phi_max (Rabs (wrap_pi (prev - th))))",
"new": "(viol || Rltb phi_max (wrap_pi (prev - th)))",
"definition": "nt_hitch_scan",
"edit": "abs dropped between trailers",
"breaks": [
"C76"
],
"timeout": 150
},
{
"id": "MR7",
"file": "Planner",
"old": "map (fun d => 1 - Rabs d * Rabs d) deltas",
"new": "map (fun d => 1 - d) deltas",
"definition": "steering_reward",
"edit": "steering magnitude signed instead of squared",
"breaks": [
"C76"
],
"timeout": 150
},
{
"id": "MR8",
"file": "Acc",
"old": "clip (a_d x) (- p_dmax p) (p_dmax p)",
"new": "clip (a_d x) 0 (p_dmax p)",
"definition": "acc_dyn",
"edit": "steering angle limited to one side",
"breaks": [
"C76"
],
"timeout": 150
},
{
"id": "MR9",
"file": "Guidance",
"old": "clip x (-2 * PI) (2 * PI)",
"new": "clip x (- PI) (2 * PI)",
"definition": "clip_ang",
"edit": "guided heading bounded unevenly",
"breaks": [
"C76"
],
"timeout": 150
},
{
"id": "MR10",
"file": "Demo",
"old": "let m1 := if horizontal dir then (fst xg, snd x0) else (fst x0, snd xg) in",
"new": "let m1 := if horizontal dir then (fst xg, snd x0 + 1) else (fst x0, snd xg) in",
"definition": "waypoints",
"edit": "corner of the detour moved up",
"breaks": [
"C76"
],
"timeout": 150
},
{
"id": "MR11",
"file": "Demo",
"old": "then (if Z.eqb pref (-1) || Z.eqb pref (-2) then atan2 dy dx + PI else atan2 dy dx)",
"new": "then (if Z.eqb pref (-1) || Z.eqb pref (-2) then atan2 dy dx + PI else atan2 (Rabs dy) dx)",
"definition": "heading_rows",
"edit": "heading of a segment from |dy|",
"breaks": [
"C76"
],
"timeout": 150
},
{
"id": "MR12",
"file": "Guidance",
"old": "Rmin_of [pen 0; pen (2 * PI); pen (- (2 * PI))]",
"new": "Rmin_of [pen 0; pen (2 * PI)]",
"definition": "tt_guidance_cost",
"edit": "one of the three hitch representatives dropped",
"breaks": [
"C76"
],
"timeout": 150
},
{
"id": "MR13",
"file": "Bicycle",
"old": "mkBK (v * cos (b_th x)) (v * sin (b_th x)) ((v / p_l1 p) * tan delta)",
"new": "mkBK (v * cos (b_th x)) (v * sin (b_th x)) ((v / p_l1 p) * tan (Rabs delta))",
"definition": "bk_dyn",
"edit": "turns left whatever the steering sign",
"breaks": [
"C76"
],
"timeout": 150
},
{
"id": "MR14",
"file": "NTrailer",
"old": "((k_speed acc / L) * sin dtheta - (p_lh p / L) * k_dot acc * cos dtheta) in",
"new": "((k_speed acc / L) * cos dtheta - (p_lh p / L) * k_dot acc * cos dtheta) in",
"definition": "nt_dyn_body",
"edit": "sin replaced by cos in the rate of later trailers",
"breaks": [
"C76"
],
"timeout": 150
},
{
"id": "MR15",
"file": "Geom",
"old": "let t := clip proj 0 1 in",
"new": "let t := clip proj 0 (1/2) in",
"definition": "edge_dist_sq",
"edit": "only the first half of each edge is tested",
"breaks": [
"C76"
],
"timeout": 150
},
{
"id": "MR16",
"file": "Planner",
"old": "(weighted fst ws Ys t, weighted snd ws Ys t)",
"new": "(weighted fst ws Ys t, Rabs (weighted snd ws Ys t))",
"definition": "einsum_avg",
"edit": "abs of the averaged steering",
"breaks": [
"C76"
],
"timeout": 150
},
{
"id": "MR17",
"file": "Demo",
"old": "Rleb (Rabs local_x) (r_w o / 2) && Rleb (Rabs local_y) (r_h o / 2)",
"new": "Rleb (Rabs local_x) (r_w o / 2) && Rleb local_y (r_h o / 2)",
"definition": "point_in_rect",
"edit": "abs dropped across the obstacle",
"breaks": [
"C76"
],
"timeout": 150
},
{
"id": "MR18",
"file": "NTrailer",
"old": "let ry := cy - half_len * sin th in",
"new": "let ry := cy - half_len * cos th in",
"definition": "nt_rect_body",
"edit": "sin replaced by cos in the next hitch position",
"breaks": [
"C76"
],
"timeout": 150
},
{
"id": "MR19",
"file": "Acc",
"old": "let u_stop := (decel_sign v_new v_new * a_backup s v_new, 0) in",
"new": "let u_stop := (decel_sign v_new v_new * a_backup s v_new, 1/10) in",
"definition": "check_with_rollout",
"edit": "predicted braking steers left",
"breaks": [
"C76"
],
"timeout": 150
},
{
"id": "MR20",
"file": "Demo",
"old": "let o1 := wrap_pi (th1 - f_th1 r - PI) in\n  let o2",
"new": "let o1 := wrap_pi (th1 - f_th1 r - PI / 2) in\n  let o2",
"definition": "logpd_row",
"edit": "opposite heading a quarter turn away",
"breaks": [
"C76"
],
"timeout": 150
},
{
"id": "MR21",
"file": "Bicycle",
"old": "let e1o := wrap_pi (b_th q - thetag - PI) in",
"new": "let e1o := wrap_pi (b_th q - thetag - PI / 2) in",
"definition": "bk_reward",
"edit": "opposite heading a quarter turn away",
"breaks": [
"C76"
],
"timeout": 150
},
{
"id": "MR22",
"file": "Geom",
"old": "let n := (- snd e, fst e) in",
"new": "let n := (snd e, fst e) in",
"definition": "axis_of_edge",
"edit": "separating axis reflected",
"breaks": [
"C76"
],
"timeout": 150
},
{
"id": "MR23",
"file": "NTrailer",
"old": "let cy := hy - L * sin th in\n  ((cx + lf",
"new": "let cy := hy - L * cos th in\n  ((cx + lf",
"definition": "nt_last_body",
"edit": "sin replaced by cos in the last trailer's position",
"breaks": [
"C76"
],
"timeout": 150
},
{
"id": "WB1",
"file": "TuneWandb",
"old": "if negb use_wandb then Ok None\n  else match",
"new": "if use_wandb then Ok None\n  else match",
"definition": "create_heat_map",
"edit": "the heat map is made only without W&B",
"breaks": [
"C77"
],
"timeout": 120
},
{
"id": "WB2",
"file": "TuneWandb",
"old": "| Ok (_, m) => Ok (Some (m, (\"Trial \" ++ digits number",
"new": "| Ok (_, m) => Ok (Some (m, (\"Trial \" ++ digits (S number)",
"definition": "create_heat_map",
"edit": "title counts trials from 1",
"breaks": [
"C77"
],
"timeout": 120
},
{
"id": "WB3",
"file": "TuneWandb",
"old": "match heat_map r results with",
"new": "match heat_map r (removelast results) with",
"definition": "create_heat_map",
"edit": "the last result is left out of the heat map",
"breaks": [
"C77"
],
"timeout": 120
},
{
"id": "WB4",
"file": "TuneWandb",
"old": "match heat_map r results with",
"new": "match heat_map r (map (fun x => (fst x, negb (snd x))) results) with",
"definition": "create_heat_map",
"edit": "colours of successes and failures swapped",
"breaks": [
"C77"
],
"timeout": 120
},
{
"id": "WB5",
"file": "TuneWandb",
"old": "[\"d_thr_factor\"; \"k_switch\"].",
"new": "[\"d_thr_factor\"].",
"definition": "prefixed",
"edit": "only the first hyperparameter is logged",
"breaks": [
"C77"
],
"timeout": 120
},
{
"id": "WB6",
"file": "TuneWandb",
"old": "(\"success_rate\", INum (Some (tu_success r)))",
"new": "(\"success_rate\", INum (tu_safety r))",
"definition": "trial_row",
"edit": "success_rate logged from the safety",
"breaks": [
"C77"
],
"timeout": 120
},
{
"id": "WB7",
"file": "TuneWandb",
"old": "(\"collision_rate\", INum (tu_coll r)); (\"jackknife_rate\", INum (tu_jack r))",
"new": "(\"collision_rate\", INum (tu_jack r)); (\"jackknife_rate\", INum (tu_coll r))",
"definition": "trial_row",
"edit": "collision and jackknife rates swapped in the row",
"breaks": [
"C77"
],
"timeout": 120
},
{
"id": "WB8",
"file": "TuneWandb",
"old": "((\"heat_map_trial_\" ++ digits (tu_number r))%string, image)",
"new": "(\"heat_map\", image)",
"definition": "trial_row",
"edit": "one picture key for all trials",
"breaks": [
"C77"
],
"timeout": 120
},
{
"id": "WB9",
"file": "TuneWandb",
"old": "(\"avg_position_error\", INum (tu_error r));",
"new": "",
"definition": "trial_row",
"edit": "the position error is not logged",
"breaks": [
"C77"
],
"timeout": 120
},
{
"id": "WB10",
"file": "TuneWandb",
"old": "INR (count_state PRUNED states) / INR (length states) else 0",
"new": "INR (count_state COMPLETE states) / INR (length states) else 0",
"definition": "summary_row",
"edit": "efficiency computed from the completed trials",
"breaks": [
"C77"
],
"timeout": 120
},
{
"id": "WB11",
"file": "TuneWandb",
"old": "(\"completed_trials\", INat (count_state COMPLETE states))",
"new": "(\"completed_trials\", INat (pred (count_state COMPLETE states)))",
"definition": "summary_row",
"edit": "one completed trial too few",
"breaks": [
"C77"
],
"timeout": 120
},
{
"id": "WB12",
"file": "TuneWandb",
"old": "prefixed \"best_\" (tu_params b)",
"new": "prefixed \"param_\" (tu_params b)",
"definition": "summary_row",
"edit": "best values logged under param_",
"breaks": [
"C77"
],
"timeout": 120
},
{
"id": "WB13",
"file": "TuneWandb",
"old": "mkDone [r] [trial_row r im] (Ok true)",
"new": "mkDone [r] [trial_row r im; trial_row r im] (Ok true)",
"definition": "objective_logged",
"edit": "each row logged twice",
"breaks": [
"C77"
],
"timeout": 120
},
{
"id": "WB14",
"file": "TuneWandb",
"old": "mkDone [r] [trial_row r im] (Ok true)",
"new": "mkDone [] [trial_row r im] (Ok true)",
"definition": "objective_logged",
"edit": "result stored only without W&B",
"breaks": [
"C77"
],
"timeout": 120
},
{
"id": "WB15",
"file": "TuneWandb",
"old": "mkDone [r] [trial_row r im] (Ok true)",
"new": "mkDone [r] [] (Ok true)",
"definition": "objective_logged",
"edit": "the row is not logged",
"breaks": [
"C77"
],
"timeout": 120
},
{
"id": "WB16",
"file": "TuneWandb",
"old": "(combine ts (map v_success results))",
"new": "(combine ts (map v_coll results))",
"definition": "objective_logged",
"edit": "the heat map shows collisions instead of successes",
"breaks": [
"C77"
],
"timeout": 120
},
{
"id": "WB17",
"file": "TuneWandb",
"old": "| Err e => mkRan (dn_stored d) (dn_rows d) [FAIL] (Err e)",
"new": "| Err e => mkRan (dn_stored d) (dn_rows d ++ [[(\"trial_number\", INat number)]]) [FAIL] (Err e)",
"definition": "optimize_logged",
"edit": "a row is logged for a failed trial",
"breaks": [
"C77"
],
"timeout": 120
},
{
"id": "WB18",
"file": "TuneWandb",
"old": "| Err e => mkRan (dn_stored d) (dn_rows d) [FAIL] (Err e)",
"new": "| Err e => optimize_logged use_wandb base num_eval procs sampler worse left' (S number) completed",
"definition": "optimize_logged",
"edit": "a failed trial is skipped",
"breaks": [
"C77"
],
"timeout": 120
},
{
"id": "WB19",
"file": "TuneWandb",
"old": "mkRan (dn_stored d ++ rt_stored rest) (dn_rows d ++ rt_rows rest)",
"new": "mkRan (dn_stored d ++ rt_stored rest) (rt_rows rest ++ dn_rows d)",
"definition": "optimize_logged",
"edit": "rows in reverse order",
"breaks": [
"C77"
],
"timeout": 120
},
{
"id": "WB20",
"file": "TuneWandb",
"old": "rows ++ (if use_wandb then [Logged (summary_row (rt_states o) b)] else [])",
"new": "(if use_wandb then [Logged (summary_row (rt_states o) b)] else []) ++ rows",
"definition": "optimise_logged",
"edit": "summary logged before the trials",
"breaks": [
"C77"
],
"timeout": 120
},
{
"id": "WB21",
"file": "TuneWandb",
"old": "rows ++ (if use_wandb then [Logged (summary_row (rt_states o) b)] else [])",
"new": "rows ++ [Logged (summary_row (rt_states o) b)]",
"definition": "optimise_logged",
"edit": "summary logged even without W&B",
"breaks": [
"C77"
],
"timeout": 120
},
{
"id": "WB22",
"file": "TuneWandb",
"old": "tn_results t ++ rt_stored o",
"new": "rt_stored o",
"definition": "optimise_logged",
"edit": "earlier results of the object dropped",
"breaks": [
"C77"
],
"timeout": 120
},
{
"id": "WB23",
"file": "TuneWandb",
"old": "match config_to_dict base kept_fields with",
"new": "match config_to_dict base (tl kept_fields) with",
"definition": "new_logged",
"edit": "env_name missing in the settings of the run",
"breaks": [
"C77"
],
"timeout": 120
},
{
"id": "WB24",
"file": "TuneWandb",
"old": "RunStarted (study ++ \"_\" ++ stamp)%string m",
"new": "RunStarted stamp m",
"definition": "new_logged",
"edit": "run named by the time alone",
"breaks": [
"C77"
],
"timeout": 120
},
{
"id": "WB25",
"file": "TuneWandb",
"old": "(fs, ev0 ++ ev, Err e)\n      | Ok s",
"new": "(fs, ev0 ++ ev ++ [RunFinished], Err e)\n      | Ok s",
"definition": "main_logged",
"edit": "run closed after a failed search",
"breaks": [
"C77"
],
"timeout": 120
},
{
"id": "WB26",
"file": "TuneWandb",
"old": "(fs', ev0 ++ ev ++ [RunFinished], Ok tt)",
"new": "(fs', ev0 ++ ev, Ok tt)",
"definition": "main_logged",
"edit": "run not closed",
"breaks": [
"C77"
],
"timeout": 120
},
{
"id": "RE1",
"file": "TT2d",
"old": "existsb (fun c => hits_circle tc c || hits_circle rc c) circ",
"new": "existsb (fun c => hits_circle tc c || hits_circle rc c) (firstn 1 circ)",
"definition": "tt_coll",
"edit": "only the first circle is checked",
"breaks": [
"C78"
],
"timeout": 150
},
{
"id": "RE2",
"file": "TT2d",
"old": "existsb (fun o => hits_rect tc o || hits_rect rc o) rect.",
"new": "existsb (fun o => hits_rect tc o || hits_rect rc o) (tl rect).",
"definition": "tt_coll",
"edit": "loop over rectangles starts at 1",
"breaks": [
"C78"
],
"timeout": 150
},
{
"id": "RE3",
"file": "Bicycle",
"old": "existsb (hits_circle (bk_corners p x)) circ ||",
"new": "Nat.odd (length (filter (hits_circle (bk_corners p x)) circ)) ||",
"definition": "bk_coll",
"edit": "hits of circles combined by exclusive or",
"breaks": [
"C78"
],
"timeout": 150
},
{
"id": "RE4",
"file": "NTrailer",
"old": "(existsb (hits_rect tc) rect ||",
"new": "(existsb (hits_rect tc) (removelast rect) ||",
"definition": "nt_coll",
"edit": "last rectangle skipped for the tractor",
"breaks": [
"C78"
],
"timeout": 150
},
{
"id": "RE5",
"file": "Acc",
"old": "Definition rollout_dt : R := 1.",
"new": "Definition rollout_dt : R := 2.",
"definition": "rollout_dt",
"edit": "lookahead in steps of two seconds",
"breaks": [
"C78"
],
"timeout": 150
},
{
"id": "RE6",
"file": "Acc",
"old": "let v := clip (a_v x) (- p_vmax p) (p_vmax p) in",
"new": "let v := a_v x in",
"definition": "acc_dyn",
"edit": "speed not clipped",
"breaks": [
"C78"
],
"timeout": 150
},
{
"id": "RE7",
"file": "Base",
"old": "(clip (fst a) (-1) 1, clip (snd a) (-1) 1)",
"new": "(clip (fst a) (-1) 2, clip (snd a) (-1) 1)",
"definition": "clip_act",
"edit": "forward command clipped at 2",
"breaks": [
"C78"
],
"timeout": 150
},
{
"id": "RE8",
"file": "TT2d",
"old": "mkTT (v * cos (t_th1 x))\n       (v * sin (t_th1 x))",
"new": "mkTT (2 * v * cos (t_th1 x))\n       (2 * v * sin (t_th1 x))",
"definition": "tt_dyn",
"edit": "twice the speed",
"breaks": [
"C78"
],
"timeout": 150
},
{
"id": "RE9",
"file": "Acc",
"old": "Z.to_nat (Int_part (2 * (p_vmax (as_p s) - 0) / (as_amax s * rollout_dt))).",
"new": "(Z.to_nat (Int_part (2 * (p_vmax (as_p s) - 0) / (as_amax s * rollout_dt))) + length (ts_circ (as_t s)))%nat.",
"definition": "max_rollout_steps",
"edit": "lookahead longer with every circle listed",
"breaks": [
"C78"
],
"timeout": 150
},
{
"id": "RE10",
"file": "TT2d",
"old": "pos_reward (tt_dpos (ts_p s) (ts_xg s) q) (p_term_thr (ts_p s)).",
"new": "pos_reward (tt_dpos (ts_p s) (ts_xg s) q) (p_term_thr (ts_p s)) - INR (length (ts_circ s)) / 100.",
"definition": "tt_terminal",
"edit": "terminal reward lowered by the number of circles listed",
"breaks": [
"C78"
],
"timeout": 150
},
{
"id": "RE11",
"file": "Bicycle",
"old": "pos_reward (bk_dpos (bs_p s) (bs_xg s) q) (p_term_thr (bs_p s)).",
"new": "pos_reward (bk_dpos (bs_p s) (bs_xg s) q) (p_term_thr (bs_p s)) - INR (length (bs_rect s)) / 100.",
"definition": "bk_terminal",
"edit": "terminal reward lowered by the number of rectangles listed",
"breaks": [
"C78"
],
"timeout": 150
},
{
"id": "RE12",
"file": "NTrailer",
"old": "pos_reward (nt_dpos s q) (p_rew_thr (ns_p s)).",
"new": "pos_reward (nt_dpos s q) (p_rew_thr (ns_p s)) + fold_right (fun c a => c_r c + a) 0 (ns_circ s) / 1000.",
"definition": "nt_reward",
"edit": "reward depends on the size of every circle",
"breaks": [
"C78"
],
"timeout": 150
},
{
"id": "RE13",
"file": "TT2d",
"old": "let cx := px + 5/10 * (p_l1 p + p_lf1 p - p_lr p) * cos th in",
"new": "let cx := px + 10 + 5/10 * (p_l1 p + p_lf1 p - p_lr p) * cos th in",
"definition": "tractor_corners",
"edit": "tractor body displaced by 10 m",
"breaks": [
"C78"
],
"timeout": 150
},
{
"id": "UN1",
"file": "TT2d",
"old": "Rltb (p_phi_max p) (Rabs hitch_angle).",
"new": "Rltb (p_phi_max p) (Rabs hitch_angle + t_px x / 1000000).",
"definition": "tt_hitch",
"edit": "hitch check reads the position entry",
"breaks": [
"C79"
],
"timeout": 150
},
{
"id": "UN2",
"file": "TT2d",
"old": "1 - (clip d 0 thr / thr) * (clip d 0 thr / thr).",
"new": "1 - (clip d 0 thr) * (clip d 0 thr / thr).",
"definition": "pos_reward",
"edit": "distance divided by the threshold only once",
"breaks": [
"C79"
],
"timeout": 150
},
{
"id": "UN3",
"file": "TT2d",
"old": "(v / p_l1 p) * tan delta)",
"new": "v * tan delta)",
"definition": "tt_dyn",
"edit": "turn rate not divided by the wheelbase",
"breaks": [
"C79"
],
"timeout": 150
},
{
"id": "UN4",
"file": "TT2d",
"old": "- (p_lh p / p_l1 p) * cos (t_th1 x - t_th2 x) * tan delta)).",
"new": "- p_lh p * cos (t_th1 x - t_th2 x) * tan delta)).",
"definition": "tt_dyn",
"edit": "hitch offset not divided by the wheelbase",
"breaks": [
"C79"
],
"timeout": 150
},
{
"id": "UN5",
"file": "TT2d",
"old": "(hx - p_l2 p * cos (t_th2 x), hy - p_l2 p * sin (t_th2 x)).",
"new": "(hx - cos (t_th2 x), hy - sin (t_th2 x)).",
"definition": "tt_trailer_pos",
"edit": "trailer length left out",
"breaks": [
"C79"
],
"timeout": 150
},
{
"id": "UN6",
"file": "Bicycle",
"old": "let w := clip (sigmoid ((p_d_thr p - d_pos) / p_k_switch p)) 0 (p_max_w p) in",
"new": "let w := clip (sigmoid (p_d_thr p - d_pos)) 0 (p_max_w p) in",
"definition": "bk_reward",
"edit": "switch width left out",
"breaks": [
"C79"
],
"timeout": 150
},
{
"id": "UN7",
"file": "Bicycle",
"old": "pnorm (psub (b_px q + p_l1 p * cos (b_th q), b_py q + p_l1 p * sin (b_th q)) (b_px xg, b_py xg)).",
"new": "pnorm (psub (b_px q + cos (b_th q), b_py q + sin (b_th q)) (b_px xg, b_py xg)).",
"definition": "bk_dpos",
"edit": "front point one metre ahead whatever the wheelbase",
"breaks": [
"C79"
],
"timeout": 150
},
{
"id": "UN9",
"file": "NTrailer",
"old": "((v / L) * (sin dtheta - (p_lh p / p_l1 p) * cos dtheta * tan delta))",
"new": "((v / L) * (sin dtheta - p_lh p * cos dtheta * tan delta))",
"definition": "nt_dyn_body",
"edit": "hitch offset not divided by the wheelbase",
"breaks": [
"C79"
],
"timeout": 150
},
{
"id": "UN10",
"file": "NTrailer",
"old": "let half_len := 5/10 * (lf + lr) in\n  let corners",
"new": "let half_len := 5/10 * (lf + lr) + 1/10 in\n  let corners",
"definition": "nt_rect_body",
"edit": "trailers a decimetre longer",
"breaks": [
"C79"
],
"timeout": 150
},
{
"id": "UN11",
"file": "Params",
"old": "(fst u * p_vmax p, snd u * p_dmax p).",
"new": "(clip (fst u * p_vmax p) (-3) 3, snd u * p_dmax p).",
"definition": "input_scaler",
"edit": "speed also clipped at 3",
"breaks": [
"C79"
],
"timeout": 150
},
{
"id": "UN12",
"file": "Params",
"old": "let forward := where_ (Rltb v 0) (w * Rabs v) 0 in",
"new": "let forward := where_ (Rltb v 0) (w * Rmin (Rabs v) 1) 0 in",
"definition": "preference_penalty",
"edit": "speed in the penalty capped at 1",
"breaks": [
"C79"
],
"timeout": 150
}
]