{
 "C02": {
  "status": "proved",
  "note": "Kinematic classes; the acceleration class is C23."
 },
 "C05": {
  "status": "proved",
  "note": "The documented gap (a circle strictly inside a body is not reported) is C05_swallowed_circle_refuted."
 },
 "C07": {
  "status": "proved",
  "note": "Proved for the three kinematic classes as stated; C07_acc_* say what remains for the acceleration class (the claim is false there, C07_acc_refuted)."
 },
 "C11": {
  "status": "proved",
  "note": "Kinematic classes as stated; false for the acceleration class (C11_acc_refuted)."
 },
 "C16": {
  "status": "proved",
  "note": "The statement is restricted to trailer tracking because with tractor tracking the goal state itself is not optimal (the *_goal_state_not_optimal_refuted theorems)."
 },
 "C17": {
  "status": "proved",
  "note": "All four classes."
 },
 "C19": {
  "status": "partial",
  "note": "True for tractor-trailer, bicycle and acceleration class; for the N-trailer the penalty is that of the refused command (C19_nt_refused_command_charged_refuted)."
 },
 "C20": {
  "status": "proved",
  "note": "The *_refuted theorems show that the N-trailer's reward, collision and drawing geometry uses other axle positions than its dynamics."
 },
 "C23": {
  "status": "partial",
  "note": "False in general: the shield of the acceleration class comes one step late and never brakes in reverse (two *_refuted theorems). Proved: the pose ignores command and shield in the step, accepted-or-penalised, safety from rest."
 },
 "C24": {
  "status": "proved",
  "note": "The stored speed is not limited (C24_stored_speed_refuted)."
 },
 "C25": {
  "status": "proved",
  "note": "The predicted manoeuvre need not come to a stop (C25_prediction_does_not_stop_refuted)."
 },
 "C26": {
  "status": "partial",
  "note": "Proved for the kinematic classes and for the acceleration class from rest; false for a moving start of the acceleration class (C26_acc_moving_start_refuted)."
 },
 "C27": {
  "status": "proved",
  "note": "Numbers outside 1..rows*cols are not rejected (C27_unpainted_number_rejected_refuted)."
 },
 "C28": {
  "status": "proved",
  "note": "An environment without any obstacle gets a circle of radius 0 at the origin (C28_empty_world_is_free_refuted)."
 },
 "C29": {
  "status": "proved",
  "note": "The *_refuted theorems rule out readings suggested by comments and parameter names."
 },
 "C30": {
  "status": "proved",
  "note": "The *_refuted theorems: unknown cases accepted, constructor start overwritten."
 },
 "C31": {
  "status": "partial",
  "note": "Exact for unrotated rectangles; with an angle the given corner is not a corner (C31_left_top_rotated_corner_refuted), and an update of the Env object alone does not reach the robot (C31_environment_update_reaches_robot_refuted)."
 },
 "C33": {
  "status": "proved",
  "note": "Zero or negative trailer numbers are accepted for tt2d (C33_negative_trailers_rejected_refuted)."
 },
 "C34": {
  "status": "proved",
  "note": "Defaults differ from the dataclass's, some fields are not copied, the text 'False' becomes True (*_refuted)."
 },
 "C35": {
  "status": "proved",
  "note": "For every class and every horizon the quantifier ranges over (H >= 4); for one to three rows the code fails (*_refuted)."
 },
 "C36": {
  "status": "proved",
  "note": "Samples can step over a thin obstacle (C36_thin_obstacle_missed_refuted)."
 },
 "C37": {
  "status": "proved",
  "note": "All classes. The reference rows themselves, taken as states, score 0 only in the forward branch, because the trailer axle is compared otherwise (C37_reference_itself_scores_negative_refuted)."
 },
 "C38": {
  "status": "partial",
  "note": "Proved: fresh object after clearing; start-only changes without clearing when demonstration and schedule are the same. Otherwise, without clearing, the demonstration, the schedule and the whole world (goal, obstacles, vehicle, weights) of the first trial stay in use, another class is searched for with the first class's vehicle, and a used object ignores changes (C38_demo_of_first_trial, C38_schedule_of_first_trial, C38_later_trials_use_first_world, C38_tt_later_worlds_ignored, C38_other_class_searched_with_first, C38_used_object_ignores_changes)."
 },
 "C40": {
  "status": "proved",
  "note": "The *_refuted theorems: the gap is not the distance, and a command the optimiser finds feasible can lead to an unsafe state."
 },
 "C41": {
  "status": "proved",
  "note": "The *_refuted theorems: guidance can leave a safe state, ignores rectangles, and the returned guided trajectory is no motion of the vehicle."
 },
 "C42": {
  "status": "partial",
  "note": "Exact for tractor-trailer, bicycle and acceleration class; for the N-trailer only the first hitch is looked at (C42_nt_verdict_partial, C42_inner_jackknife_reported_refuted)."
 },
 "C43": {
  "status": "partial",
  "note": "Valid means valid for the default vehicle and map of the sampling function, not the configured one (C43_configured_vehicle_checked_refuted)."
 },
 "C45": {
  "status": "proved",
  "note": "All four classes: any rigid motion for given noise with goal, obstacles and demonstration moved along (C45_*_moves_along); with the code's own demonstration, all translations, guidance off as by default (C45_*_with_demonstration). Two limits of the code are theorems: guidance clips coordinates into a box round the origin, and demonstrations carry a placeholder heading 0 before their last segment, so they do not turn with the task."
 },
 "C46": {
  "status": "proved",
  "note": "The last plan is drawn only if frame_skip divides the number of plans minus one (C46_last_step_refuted)."
 },
 "C47": {
  "status": "partial",
  "note": "Bodies, obstacles, frames and marks proved for all classes; wheel angle and N-trailer wheel position are wrong (C47_kinematic_steering_refuted, C47_nt_wheels_refuted)."
 },
 "C48": {
  "status": "partial",
  "note": "True for bicycle and N-trailer; false for the tractor-trailer and acceleration classes (C48_second_animation_refuted)."
 },
 "C49": {
  "status": "partial",
  "note": "True up to 999 trials in a clean directory with working ffmpeg; false otherwise (three *_refuted theorems)."
 },
 "C50": {
  "status": "proved",
  "note": "time.time() can be set back: then a negative total is reported (clock_set_back_refuted); equal first and last readings raise ZeroDivisionError in the log line."
 },
 "C51": {
  "status": "proved",
  "note": "With guidance, no warm-up and a used cache the first trial may report another reward."
 },
 "C52": {
  "status": "partial",
  "note": "True when all horizons agree; the shipped list has horizons 30, 40, 50 and ends with TypeError, because the cache still holds the first environment (shipped_scenario_refuted). Terminal reward settings of the configuration are not passed on."
 },
 "C53": {
  "status": "partial",
  "note": "True for one-trailer base configurations without demonstration; num_trailers of the base configuration is lost (vehicle_kept_refuted) and the configured median pruning never happens (early_stopping_refuted)."
 },
 "C54": {
  "status": "partial",
  "note": "A plan over another horizon than the robot's cannot be drawn (ValueError, other_horizon_refuted), except for the bicycle."
 },
 "C55": {
  "status": "partial",
  "note": "If no start is found the heat map raises UnboundLocalError (no_start_refuted); with fewer starts than requested its rate differs from the reported success rate (same_rate_refuted)."
 },
 "C56": {
  "status": "proved",
  "note": "Soundness and uniqueness: run_diffusion = Ok out iff out fits SpecDiffusion.planned (positive steering limit, noise arrays of the requested shape)."
 },
 "C57": {
  "status": "proved",
  "note": "Finding: with four trailers the default goal has the last trailer in the upper wall (C57_default_goal_safe_refuted)."
 },
 "C58": {
  "status": "proved",
  "note": "Proved for the three kinematic classes with an explicit size condition; C58_default_vehicle_and_discs and C58_default_parking_lot show that the shipped vehicle and lot satisfy it (one trailer, car); C58_small_disc_refuted shows the condition is needed. For rigs the condition uses a first-order bound on the motion of each drawn trailer. The acceleration class is outside (its shield has no plain step-wise guarantee, see C19)."
 },
 "C59": {
  "status": "proved",
  "note": "motion projection and guidance off (as in C01); start off the padded discs; in-between positions are the code's own motion law (constant rates), plus any speed-bounded motion of one body; failure without padding shown by C59_no_padding_refuted Acceleration class: clear rows of the returned plan (its shield does not guarantee them, C23) imply that nothing listed is touched between them."
 },
 "C60": {
  "status": "partial",
  "note": "lookup, configuration, listings, pairs, demo variants of the kinematic scenarios and custom configurations proved; false for acceleration scenarios (create_demo_variant raises KeyError, C60_acceleration_override_refuted) and for visualize=True in a custom configuration (nothing is rendered, C60_custom_visualize_refuted)"
 },
 "C61": {
  "status": "partial",
  "note": "exit code characterised for every action; two parts of the expectation are false: --all can never succeed, because test_scenario_list_functions expects ten scenarios of each kind and two acceleration tests have no scenario (C61_all_can_pass_refuted), and comparing an unknown scenario runs nothing and succeeds (C61_unknown_comparison_refuted)"
 },
 "C62": {
  "status": "partial",
  "note": "obstacles, vehicle, start and existence proved in full; the goal only for tests without their own lot: with one, the goal stays in the default lot, for the shipped tight lot on top of an obstacle (C62_goal_in_own_lot_refuted); enable_guidance, enable_projection and num_trailers of a configuration do not reach the robot (C62_all_settings_forwarded_refuted)"
 },
 "C63": {
  "status": "partial",
  "note": "everything but the last sentence proved (C63_kinematic_verdict, C63_acceleration_verdict); a passing test need not be safe: violations are only reported (C63_passed_means_safe_refuted)"
 },
 "C64": {
  "status": "proved",
  "note": "safe start for all sixteen scenarios; safe trajectories for the kinematic ones (the acceleration class has no such guarantee, see C23); one start pose sticks out of the drawing area (C64_start_inside_area_refuted)"
 },
 "C65": {
  "status": "proved",
  "note": "Arithmetic is any set of functions with the error bounds of SpecFloat.v; Flocq's binary32 rounding, fused or not, satisfies them (C65_single_precision), and with exact arithmetic the computed checks are those of the rest of the model (C65_exact). Assumes float32 matrix products (no TF32) and no overflow."
 },
 "C66": {
  "status": "proved",
  "note": "Tractor-trailer and car, without projection and guidance. A lemma bounds how far a rounded step can move, so the range condition is on the start only."
 },
 "C67": {
  "status": "proved",
  "note": "Example C67_default_vehicle applies C65-C67 to the default vehicle, in single precision, for every plan of 50 actions."
 },
 "C68": {
  "status": "proved",
  "note": "Euler integration, the one step uses. The drift of the trailer's heading is bounded per step only: driving backwards the exact law itself is unstable there, so no linear bound over a run holds."
 },
 "C69": {
  "status": "partial",
  "note": "Everything but the last sentence is proved. Finding: parking backwards (motion_preference -1 or -2) sets a goal at which the trailer stands in the wall behind the lot (C69_backward_goal_safe_refuted). Safety of the later states of the acceleration-controlled vehicle does not hold in general (C23)."
 },
 "C70": {
  "status": "partial",
  "note": "The first two sentences are proved; each part of the last is refuted. Findings: the recipe forwards five settings only, so a switched-off shield stays on and eleven reward parameters differ from the configured ones; without the start recipe the robot starts in the upper wall and the returned trajectory is that pose repeated; choosing an occupied pair such as the README's [4, 12] leaves the parked obstacles on the goal."
 },
 "C71": {
  "status": "partial",
  "note": "The last sentence is refuted. Findings: the goal stands on the circle at (7.5, -8) (C71_goal_safe_refuted); the trailer at the start sticks out of the area by more than a metre (C71_start_in_area_refuted)."
 },
 "C72": {
  "status": "partial",
  "note": "Proved for a search object used once. Not true: the file of an object used twice mixes both searches (C72_second_search_refuted); the recorded configuration leaves out the shields, penalties, weights, schedule and time step, so it does not determine the search (C72_settings_recorded_refuted). Text of the JSON file and times are not modelled; with W&B the file is the same (C77)."
 },
 "C73": {
  "status": "partial",
  "note": "all but the last sentence is proved for all inputs, write failures, suites and sessions; the last sentence is false (C73_file_of_latest_run_refuted): results are saved only after validation, so a failing run keeps the file of an earlier passing run, and every saved file says position_success = true."
 },
 "C74": {
  "status": "proved",
  "note": "Closed forms and two-sided error bounds for the softmax weights over exact reals; the box hypothesis on executed commands is proved for the four classes."
 },
 "C75": {
  "status": "proved",
  "note": "Exact reals. A script run in a process that already planned with another configuration is the case of C38_later_trials_use_first_world: the trials are then searched with the first configuration's environment."
 },
 "C76": {
  "status": "proved",
  "note": "Exact reals. Projection (scipy's optimiser) is a parameter and must itself be symmetric; it is off by default and the demonstration and guidance are the code's own."
 },
 "C77": {
  "status": "partial",
  "note": "Proved as soon as one start condition is found. Not true: if no start is found the missing picture is passed to wandb.Image, and if that raises, a search that would complete without W&B ends at its first trial (C77_same_search_refuted); pruned_trials and pruning_efficiency are always 0 although pruning is enabled (C77_pruning_refuted); an object used twice logs two trials under the same number and picture key (C77_second_search_refuted). The dashboard and its failures, times and pixels are not modelled."
 },
 "C78": {
  "status": "proved",
  "note": "Proved for all four vehicle classes, with any fixed score function and with the code's own demonstration, which only looks at obstacles within the start-goal distance. Guidance is different (C78_guidance_*): its cost ignores the order of the obstacles, but charges a repeated circle twice and weights the hitch by the number of obstacles from the 21st on, however far they are; both are shown."
 },
 "C79": {
  "status": "proved",
  "note": "Proved for the three kinematic vehicle classes. The demonstration's score function is required to read the same in both units; C79_scores_same_in_both_units shows that the code's own scores do when the stored reference is converted too. Projection and guidance (which contain absolute step sizes) and the acceleration class (absolute speed threshold and one-second lookahead) are outside the statement. The size hypothesis (bodies at least 0.1 mm long and wide) must hold in both units because the collision routine's parallel-edge tolerance is absolute."
 },
 "C80": {
  "status": "proved",
  "note": "Proved for the three kinematic vehicle classes. The first part needs a non-negative collision penalty. A plan optimised among fewer obstacles is a different plan; the claim is about executing given controls."
 }
}