{
 "claims": [
  {
   "property": "C01",
   "status": "proved",
   "theorems": [
    "C01_tt_returned_trajectory_safe",
    "C01_tt_sampled_rollouts_safe",
    "C01_bk_returned_trajectory_safe",
    "C01_bk_sampled_rollouts_safe",
    "C01_nt_returned_trajectory_safe",
    "C01_nt_sampled_rollouts_safe"
   ],
   "note": ""
  },
  {
   "property": "C02",
   "status": "proved",
   "theorems": [
    "C02_tt_collision_flag",
    "C02_tt_hitch_flag",
    "C02_nt_collision_flag",
    "C02_nt_hitch_flag",
    "C02_bk_collision_flag",
    "C02_tt_no_flag_no_protection"
   ],
   "note": "Kinematic classes; the acceleration class is C23."
  },
  {
   "property": "C03",
   "status": "proved",
   "theorems": [
    "C03_tt_stays_or_safe",
    "C03_tt_once_safe_always_safe",
    "C03_nt_stays_or_safe",
    "C03_bk_stays_or_safe"
   ],
   "note": ""
  },
  {
   "property": "C04",
   "status": "proved",
   "theorems": [
    "C04_boxes_exact",
    "C04_tt_bodies_vs_obstacle",
    "C04_tt_vehicle_check_exact",
    "C04_nt_vehicle_check_exact",
    "C04_bk_vehicle_check_exact",
    "C04_never_misses"
   ],
   "note": ""
  },
  {
   "property": "C05",
   "status": "proved",
   "theorems": [
    "C05_outline_exact",
    "C05_no_false_alarm",
    "C05_big_circles_never_missed",
    "C05_outside_centres_never_missed",
    "C05_radius_sign_irrelevant",
    "C05_swallowed_circle_refuted"
   ],
   "note": "The documented gap (a circle strictly inside a body is not reported) is C05_swallowed_circle_refuted."
  },
  {
   "property": "C06",
   "status": "proved",
   "theorems": [
    "C06_tt_hitch_meaning",
    "C06_nt_hitch_meaning",
    "C06_bk_never_violates",
    "C06_tt_winding",
    "C06_large_limit_never_violated"
   ],
   "note": ""
  },
  {
   "property": "C07",
   "status": "proved",
   "theorems": [
    "C07_acc_step_feasible_partial",
    "C07_acc_unshielded_feasible_partial",
    "C07_acc_refuted",
    "C07_tt_plan_is_feasible",
    "C07_tt_reexecution",
    "C07_bk_plan_is_feasible",
    "C07_bk_reexecution",
    "C07_nt_plan_is_feasible",
    "C07_nt_reexecution"
   ],
   "note": "Proved for the three kinematic classes as stated; C07_acc_* say what remains for the acceleration class (the claim is false there, C07_acc_refuted)."
  },
  {
   "property": "C08",
   "status": "proved",
   "theorems": [
    "C08_tt_actuator_limits",
    "C08_bk_actuator_limits",
    "C08_nt_actuator_limits",
    "C08_acc_actuator_limits"
   ],
   "note": ""
  },
  {
   "property": "C09",
   "status": "proved",
   "theorems": [
    "C09_denoising_step_is_weighted_average",
    "C09_previous_mean_only_through_samples"
   ],
   "note": ""
  },
  {
   "property": "C10",
   "status": "proved",
   "theorems": [
    "C10_tt_means_in_box",
    "C10_bk_means_in_box",
    "C10_nt_means_in_box",
    "C10_acc_means_in_box"
   ],
   "note": ""
  },
  {
   "property": "C11",
   "status": "proved",
   "theorems": [
    "C11_tt_commands_have_direction",
    "C11_bk_commands_have_direction",
    "C11_nt_commands_have_direction",
    "C11_tt_never_moves_against",
    "C11_bk_never_moves_against",
    "C11_nt_never_moves_against",
    "C11_acc_refuted"
   ],
   "note": "Kinematic classes as stated; false for the acceleration class (C11_acc_refuted)."
  },
  {
   "property": "C12",
   "status": "proved",
   "theorems": [
    "C12_schedule_formulas",
    "C12_schedule_well_formed"
   ],
   "note": ""
  },
  {
   "property": "C13",
   "status": "proved",
   "theorems": [
    "C13_weights_are_a_distribution",
    "C13_weights_follow_reward",
    "C13_weights_follow_score",
    "C13_shift_invariant",
    "C13_permutation_of_weights",
    "C13_permutation_of_samples"
   ],
   "note": ""
  },
  {
   "property": "C14",
   "status": "proved",
   "theorems": [
    "C14_score_is_larger_of_both",
    "C14_demonstration_only_raises",
    "C14_disabled_means_rewards_only"
   ],
   "note": ""
  },
  {
   "property": "C15",
   "status": "proved",
   "theorems": [
    "C15_tt_final_reward",
    "C15_bk_final_reward",
    "C15_nt_final_reward"
   ],
   "note": ""
  },
  {
   "property": "C16",
   "status": "proved",
   "theorems": [
    "C16_tt_reward_formula",
    "C16_bk_reward_formula",
    "C16_tt_terminal_formula",
    "C16_tt_terminal_trailer_tracking",
    "C16_tt_terminal_tractor_tracking",
    "C16_tt_goal_state_not_optimal_refuted",
    "C16_bk_terminal",
    "C16_bk_goal_state_not_optimal_refuted",
    "C16_nt_rewards",
    "C16_tt_reward_range",
    "C16_tt_goal_state_optimal",
    "C16_bk_reward_range",
    "C16_tt_final_reward_bound",
    "C16_bk_final_reward_bound",
    "C16_nt_final_reward_bound"
   ],
   "note": "The statement is restricted to trailer tracking because with tractor tracking the goal state itself is not optimal (the *_goal_state_not_optimal_refuted theorems)."
  },
  {
   "property": "C17",
   "status": "proved",
   "theorems": [
    "C17_tt_goal_turned_by_pi",
    "C17_bk_goal_turned_by_pi",
    "C17_tt_winding",
    "C17_bk_winding",
    "C17_nt_winding",
    "C17_tt_plan_winding",
    "C17_bk_plan_winding",
    "C17_nt_plan_winding",
    "C17_acc_winding",
    "C17_acc_plan_winding"
   ],
   "note": "All four classes."
  },
  {
   "property": "C18",
   "status": "proved",
   "theorems": [
    "C18_preference_penalty"
   ],
   "note": ""
  },
  {
   "property": "C19",
   "status": "partial",
   "theorems": [
    "C19_acc_step_reward",
    "C19_tt_step_reward",
    "C19_bk_step_reward",
    "C19_nt_step_reward",
    "C19_nt_refused_command_charged_refuted",
    "C19_tt_charges",
    "C19_bk_charges",
    "C19_nt_charges",
    "C19_acc_charges"
   ],
   "note": "True for tractor-trailer, bicycle and acceleration class; for the N-trailer the penalty is that of the refused command (C19_nt_refused_command_charged_refuted)."
  },
  {
   "property": "C20",
   "status": "proved",
   "theorems": [
    "C20_nt_no_slip",
    "C20_tt_no_slip",
    "C20_tt_trailer_position_is_axle",
    "C20_bk_no_slip",
    "C20_front_wheel_no_slip",
    "C20_models_nest",
    "C20_front_part_unaffected",
    "C20_nt_last_axle_positions_disagree_refuted",
    "C20_nt_drawn_trailer_slips_refuted"
   ],
   "note": "The *_refuted theorems show that the N-trailer's reward, collision and drawing geometry uses other axle positions than its dynamics."
  },
  {
   "property": "C21",
   "status": "proved",
   "theorems": [
    "C21_acc_step_displacement",
    "C21_acc_n_step_displacement",
    "C21_tt_step_displacement",
    "C21_bk_step_displacement",
    "C21_nt_step_displacement",
    "C21_tt_n_step_displacement"
   ],
   "note": ""
  },
  {
   "property": "C22",
   "status": "proved",
   "theorems": [
    "C22_braking_stops",
    "C22_backup_mode_brakes",
    "C22_backup_mode_stops"
   ],
   "note": ""
  },
  {
   "property": "C23",
   "status": "partial",
   "theorems": [
    "C23_pose_ignores_command_and_shield_partial",
    "C23_accepted_or_penalised_partial",
    "C23_at_rest_stays_safe_partial",
    "C23_shield_too_late_refuted",
    "C23_reverse_never_brakes_refuted"
   ],
   "note": "False in general: the shield of the acceleration class comes one step late and never brakes in reverse (two *_refuted theorems). Proved: the pose ignores command and shield in the step, accepted-or-penalised, safety from rest."
  },
  {
   "property": "C24",
   "status": "proved",
   "theorems": [
    "C24_limits",
    "C24_limits_all_modes",
    "C24_stored_speed_refuted"
   ],
   "note": "The stored speed is not limited (C24_stored_speed_refuted)."
  },
  {
   "property": "C25",
   "status": "proved",
   "theorems": [
    "C25_predictive_check_exact",
    "C25_prediction_does_not_stop_refuted"
   ],
   "note": "The predicted manoeuvre need not come to a stop (C25_prediction_does_not_stop_refuted)."
  },
  {
   "property": "C26",
   "status": "partial",
   "theorems": [
    "C26_acc_rollout_from_rest",
    "C26_acc_moving_start_refuted",
    "C26_tt_rollout_starts_at_state",
    "C26_bk_rollout_starts_at_state",
    "C26_nt_rollout_starts_at_state"
   ],
   "note": "Proved for the kinematic classes and for the acceleration class from rest; false for a moving start of the acceleration class (C26_acc_moving_start_refuted)."
  },
  {
   "property": "C27",
   "status": "proved",
   "theorems": [
    "C27_plot_limits_kept",
    "C27_center_in_lot",
    "C27_centers_apart",
    "C27_mirror",
    "C27_unpainted_number_rejected_refuted",
    "C27_plot_limits_harmless_refuted"
   ],
   "note": "Numbers outside 1..rows*cols are not rejected (C27_unpainted_number_rejected_refuted)."
  },
  {
   "property": "C28",
   "status": "proved",
   "theorems": [
    "C28_fences",
    "C28_three_per_occupied_space",
    "C28_obstacle_within_an_occupied_space",
    "C28_unoccupied_space_free",
    "C28_empty_world_is_free_refuted"
   ],
   "note": "An environment without any obstacle gets a circle of radius 0 at the origin (C28_empty_world_is_free_refuted)."
  },
  {
   "property": "C29",
   "status": "proved",
   "theorems": [
    "C29_geometric_start",
    "C29_direct_start",
    "C29_goal_update",
    "C29_dx_is_front_face_distance_refuted",
    "C29_first_target_is_reference_refuted",
    "C29_default_start_safe_refuted",
    "C29_script_start_safe",
    "C29_goal_speed_kept_refuted"
   ],
   "note": "The *_refuted theorems rule out readings suggested by comments and parameter names."
  },
  {
   "property": "C30",
   "status": "proved",
   "theorems": [
    "C30_dimensions",
    "C30_n_trailer_step",
    "C30_n_trailer_run",
    "C30_unknown_case_rejected_refuted",
    "C30_constructor_start_kept_refuted"
   ],
   "note": "The *_refuted theorems: unknown cases accepted, constructor start overwritten."
  },
  {
   "property": "C31",
   "status": "partial",
   "theorems": [
    "C31_left_top_area",
    "C31_center_area",
    "C31_circle_area",
    "C31_replaces",
    "C31_circles_replaces",
    "C31_robot_and_environment_agree",
    "C31_left_top_rotated_corner_refuted",
    "C31_environment_update_reaches_robot_refuted"
   ],
   "note": "Exact for unrotated rectangles; with an angle the given corner is not a corner (C31_left_top_rotated_corner_refuted), and an update of the Env object alone does not reach the robot (C31_environment_update_reaches_robot_refuted)."
  },
  {
   "property": "C32",
   "status": "proved",
   "theorems": [
    "C32_rectangles",
    "C32_circles"
   ],
   "note": ""
  },
  {
   "property": "C33",
   "status": "proved",
   "theorems": [
    "C33_class_and_parameters",
    "C33_trailer_arrays",
    "C33_errors",
    "C33_succeeds",
    "C33_negative_trailers_rejected_refuted"
   ],
   "note": "Zero or negative trailer numbers are accepted for tt2d (C33_negative_trailers_rejected_refuted)."
  },
  {
   "property": "C34",
   "status": "proved",
   "theorems": [
    "C34_values_copied",
    "C34_result_typed",
    "C34_key_error",
    "C34_missing_key_never_succeeds",
    "C34_other_keys_ignored",
    "C34_defaults_are_those_of_get_env",
    "C34_defaults_are_those_of_the_dataclass_refuted",
    "C34_every_field_copied_refuted",
    "C34_text_false_is_false_refuted",
    "C34_values_read"
   ],
   "note": "Defaults differ from the dataclass's, some fields are not copied, the text 'False' becomes True (*_refuted)."
  },
  {
   "property": "C35",
   "status": "proved",
   "theorems": [
    "C35_tt_demonstration_shape",
    "C35_acc_demonstration_shape",
    "C35_bk_demonstration_shape",
    "C35_nt_demonstration_shape",
    "C35_tt_start_is_goal",
    "C35_acc_start_is_goal",
    "C35_bk_start_is_goal",
    "C35_nt_start_is_goal",
    "C35_two_rows_miss_the_start_refuted",
    "C35_one_row_detour_fails_refuted",
    "C35_three_rows_miss_the_goal_refuted"
   ],
   "note": "For every class and every horizon the quantifier ranges over (H >= 4); for one to three rows the code fails (*_refuted)."
  },
  {
   "property": "C36",
   "status": "proved",
   "theorems": [
    "C36_tt_path_choice",
    "C36_bk_path_choice",
    "C36_nt_path_choice",
    "C36_waypoint_limit_two_is_straight",
    "C36_thin_obstacle_missed_refuted"
   ],
   "note": "Samples can step over a thin obstacle (C36_thin_obstacle_missed_refuted)."
  },
  {
   "property": "C37",
   "status": "proved",
   "theorems": [
    "C37_tt_score_range",
    "C37_acc_score_range",
    "C37_nt_score_range",
    "C37_bk_score_range",
    "C37_tt_zero_iff_followed",
    "C37_unflagged_headings_irrelevant",
    "C37_acc_zero_iff_followed",
    "C37_nt_zero_iff_followed",
    "C37_bk_zero_iff_followed",
    "C37_acc_unflagged_headings_irrelevant",
    "C37_nt_unflagged_headings_irrelevant",
    "C37_bk_unflagged_headings_irrelevant",
    "C37_followed_scores_zero",
    "C37_reference_itself_forward",
    "C37_reference_itself_scores_negative_refuted",
    "C37_reference_reward_bounded",
    "C37_reference_reward_is_score"
   ],
   "note": "All classes. The reference rows themselves, taken as states, score 0 only in the forward branch, because the trailer axle is compared otherwise (C37_reference_itself_scores_negative_refuted)."
  },
  {
   "property": "C38",
   "status": "partial",
   "theorems": [
    "C38_fresh_env_after_clear",
    "C38_unguided_comparison_is_guided",
    "C38_trials_without_clearing",
    "C38_start_only_histories",
    "C38_demo_of_first_trial",
    "C38_start_fixed_by_first_run",
    "C38_untraced_reset_follows_start",
    "C38_used_object_ignores_changes",
    "C38_schedule_of_first_trial",
    "C38_tt_fresh_env_after_clear",
    "C38_bk_fresh_env_after_clear",
    "C38_nt_fresh_env_after_clear",
    "C38_acc_fresh_env_after_clear",
    "C38_tt_trials_without_clearing",
    "C38_bk_trials_without_clearing",
    "C38_nt_trials_without_clearing",
    "C38_acc_trials_without_clearing",
    "C38_tt_reused_object_refuted",
    "C38_tt_statistics_without_clearing",
    "C38_nt_planned_from_current_start",
    "C38_tt_planned_from_first_start",
    "C38_bk_planned_from_first_start",
    "C38_acc_planned_from_first_start",
    "C38_later_trials_use_first_world",
    "C38_other_class_searched_with_first",
    "C38_tt_later_worlds_ignored",
    "C38_guidance_switched_off"
   ],
   "note": "Proved: fresh object after clearing; start-only changes without clearing when demonstration and schedule are the same. Otherwise, without clearing, the demonstration, the schedule and the whole world (goal, obstacles, vehicle, weights) of the first trial stay in use, another class is searched for with the first class's vehicle, and a used object ignores changes (C38_demo_of_first_trial, C38_schedule_of_first_trial, C38_later_trials_use_first_world, C38_tt_later_worlds_ignored, C38_other_class_searched_with_first, C38_used_object_ignores_changes)."
  },
  {
   "property": "C39",
   "status": "proved",
   "theorems": [
    "C39_steering_reward_formula",
    "C39_steering_reward_range"
   ],
   "note": ""
  },
  {
   "property": "C40",
   "status": "proved",
   "theorems": [
    "C40_tt_constraint_pose",
    "C40_tt_predicted_pose_safe",
    "C40_signed_distance_sign",
    "C40_signed_distance_outside",
    "C40_signed_distance_inside",
    "C40_circle_constraint_exact",
    "C40_circle_constraint_nonneg",
    "C40_gap_positive_disjoint",
    "C40_gap_exact",
    "C40_gap_nonneg",
    "C40_gap_at_most_distance",
    "C40_gap_is_distance_refuted",
    "C40_bk_constraints_exact",
    "C40_bk_constraints_imply_safe",
    "C40_bk_constraint_pose",
    "C40_tt_step",
    "C40_bk_step",
    "C40_acc_step",
    "C40_applied_in_box",
    "C40_bounds_need_optimiser",
    "C40_disabled_is_identity",
    "C40_bk_predicted_pose_safe",
    "C40_tt_constraints_exact",
    "C40_tt_projection_safe_refuted",
    "C40_feasible_command_safe_refuted",
    "C40_acc_projection_ignores_speed",
    "C40_acc_projection_safe_refuted"
   ],
   "note": "The *_refuted theorems: the gap is not the distance, and a command the optimiser finds feasible can lead to an unsafe state."
  },
  {
   "property": "C41",
   "status": "proved",
   "theorems": [
    "C41_tt_bounded",
    "C41_all_bounded",
    "C41_disabled_is_identity",
    "C41_tt_denoising_step",
    "C41_bk_denoising_step",
    "C41_nt_denoising_step",
    "C41_acc_denoising_step",
    "C41_tt_denoising_rollout",
    "C41_bk_denoising_rollout",
    "C41_nt_denoising_rollout",
    "C41_acc_denoising_scan",
    "C41_guidance_off_dynamics",
    "C41_tt_visualised_step",
    "C41_tt_cost_zero_iff",
    "C41_tt_roomy_unchanged",
    "C41_rectangles_ignored",
    "C41_safe_state_kept_refuted",
    "C41_rectangle_avoidance_refuted",
    "C41_returned_trajectory_is_motion_refuted",
    "C41_tt_charges",
    "C41_bk_charges",
    "C41_bk_pushed_away",
    "C41_tt_pushed_away",
    "C41_three_descents"
   ],
   "note": "The *_refuted theorems: guidance can leave a safe state, ignores rectangles, and the returned guided trajectory is no motion of the vehicle."
  },
  {
   "property": "C42",
   "status": "partial",
   "theorems": [
    "C42_tt_verdict",
    "C42_bk_verdict",
    "C42_acc_verdict",
    "C42_always_defined",
    "C42_nt_verdict_partial",
    "C42_inner_jackknife_reported_refuted",
    "C42_shielded_trial",
    "C42_shielded_statistics",
    "C42_aggregates",
    "C42_success_rate_is_fraction_of_trials_run_refuted",
    "C42_zero_trials_raise",
    "C42_evaluation_total",
    "C42_times",
    "C42_nt_errors",
    "C42_bk_errors",
    "C42_acc_flags",
    "C42_report_exists"
   ],
   "note": "Exact for tractor-trailer, bicycle and acceleration class; for the N-trailer only the first hitch is looked at (C42_nt_verdict_partial, C42_inner_jackknife_reported_refuted)."
  },
  {
   "property": "C43",
   "status": "partial",
   "theorems": [
    "C43_accepted_iff_safe",
    "C43_sampling",
    "C43_enough_draws_suffice",
    "C43_returned_starts",
    "C43_trial_environment",
    "C43_configured_vehicle_checked_refuted"
   ],
   "note": "Valid means valid for the default vehicle and map of the sampling function, not the configured one (C43_configured_vehicle_checked_refuted)."
  },
  {
   "property": "C44",
   "status": "proved",
   "theorems": [
    "C44_acc_no_latch",
    "C44_tt_no_latch",
    "C44_bk_no_latch",
    "C44_nt_no_latch"
   ],
   "note": ""
  },
  {
   "property": "C45",
   "status": "proved",
   "theorems": [
    "C45_tt_plan_moves_along",
    "C45_bk_plan_moves_along",
    "C45_nt_plan_moves_along",
    "C45_tt_step_moves_along",
    "C45_demonstration_translates",
    "C45_tt_plan_with_demonstration",
    "C45_bk_plan_with_demonstration",
    "C45_nt_plan_with_demonstration",
    "C45_acc_plan_with_demonstration",
    "C45_guidance_tied_to_origin_refuted",
    "C45_turned_demonstration_refuted",
    "C45_acc_plan_moves_along",
    "C45_acc_step_moves_along"
   ],
   "note": "All four classes: any rigid motion for given noise with goal, obstacles and demonstration moved along (C45_*_moves_along); with the code's own demonstration, all translations, guidance off as by default (C45_*_with_demonstration). Two limits of the code are theorems: guidance clips coordinates into a box round the origin, and demonstrations carry a placeholder heading 0 before their last segment, so they do not turn with the task."
  },
  {
   "property": "C46",
   "status": "proved",
   "theorems": [
    "C46_denoising_frames",
    "C46_zero_skip",
    "C46_first_step_drawn",
    "C46_last_step_refuted",
    "C46_opacity",
    "C46_video_complete",
    "C46_frames_kept",
    "C46_interrupted",
    "C46_no_frames",
    "C46_video_history"
   ],
   "note": "The last plan is drawn only if frame_skip divides the number of plans minus one (C46_last_step_refuted)."
  },
  {
   "property": "C47",
   "status": "partial",
   "theorems": [
    "C47_tt_bodies_drawn",
    "C47_acc_bodies_drawn",
    "C47_bk_bodies_drawn",
    "C47_nt_bodies_drawn",
    "C47_obstacles_drawn",
    "C47_trajectory_frames",
    "C47_tt_marks",
    "C47_acc_marks",
    "C47_bk_marks",
    "C47_nt_marks",
    "C47_tt_wheels_partial",
    "C47_acc_wheels",
    "C47_kinematic_steering_refuted",
    "C47_nt_wheels_partial",
    "C47_nt_wheels_refuted",
    "C47_tt_hitch_lines",
    "C47_wheel_size",
    "C47_lines",
    "C47_nt_hitch_lines",
    "C47_bk_wheels_partial"
   ],
   "note": "Bodies, obstacles, frames and marks proved for all classes; wheel angle and N-trailer wheel position are wrong (C47_kinematic_steering_refuted, C47_nt_wheels_refuted)."
  },
  {
   "property": "C48",
   "status": "partial",
   "theorems": [
    "C48_fresh_lists",
    "C48_first_animation_partial",
    "C48_second_animation_refuted"
   ],
   "note": "True for bicycle and N-trailer; false for the tractor-trailer and acceleration classes (C48_second_animation_refuted)."
  },
  {
   "property": "C49",
   "status": "partial",
   "theorems": [
    "C49_merged_in_order",
    "C49_old_videos_refuted",
    "C49_thousand_trials_refuted",
    "C49_failed_trial_refuted"
   ],
   "note": "True up to 999 trials in a clean directory with working ffmpeg; false otherwise (three *_refuted theorems)."
  },
  {
   "property": "C50",
   "status": "proved",
   "theorems": [
    "C50_entries",
    "C50_timing_report",
    "C50_zero_time",
    "C50_clock_set_back_refuted"
   ],
   "note": "time.time() can be set back: then a negative total is reported (clock_set_back_refuted); equal first and last readings raise ZeroDivisionError in the log line."
  },
  {
   "property": "C51",
   "status": "proved",
   "theorems": [
    "C51_statistics",
    "C51_report",
    "C51_same_reward",
    "C51_no_trials",
    "C51_exception",
    "C51_completes"
   ],
   "note": "With guidance, no warm-up and a used cache the first trial may report another reward."
  },
  {
   "property": "C52",
   "status": "partial",
   "theorems": [
    "C52_other_horizon_fails",
    "C52_scenario_partial",
    "C52_shipped_scenario_refuted",
    "C52_demonstration_length",
    "C52_environment",
    "C52_terminal_reward_settings_refuted",
    "C52_planner_settings",
    "C52_sizes_grow",
    "C52_original_size_refuted",
    "C52_derived_settings"
   ],
   "note": "True when all horizons agree; the shipped list has horizons 30, 40, 50 and ends with TypeError, because the cache still holds the first environment (shipped_scenario_refuted). Terminal reward settings of the configuration are not passed on."
  },
  {
   "property": "C53",
   "status": "partial",
   "theorems": [
    "C53_planner_settings",
    "C53_configuration",
    "C53_missing_value",
    "C53_vehicle_kept_refuted",
    "C53_evaluated_robot",
    "C53_history_does_not_matter",
    "C53_early_stopping_refuted",
    "C53_evaluation",
    "C53_safety",
    "C53_score",
    "C53_grid",
    "C53_search",
    "C53_nothing_to_run",
    "C53_exception_ends_search",
    "C53_shipped_search_safe"
   ],
   "note": "True for one-trailer base configurations without demonstration; num_trailers of the base configuration is lost (vehicle_kept_refuted) and the configured median pruning never happens (early_stopping_refuted)."
  },
  {
   "property": "C54",
   "status": "partial",
   "theorems": [
    "C54_drawable",
    "C54_contents",
    "C54_labels",
    "C54_lines",
    "C54_numbered_spaces_free",
    "C54_plan_picture",
    "C54_other_horizon_refuted",
    "C54_guided_plan_picture",
    "C54_layout"
   ],
   "note": "A plan over another horizon than the robot's cannot be drawn (ValueError, other_horizon_refuted), except for the bicycle."
  },
  {
   "property": "C55",
   "status": "partial",
   "theorems": [
    "C55_marker_is_start",
    "C55_heat_map",
    "C55_environment_kept",
    "C55_environment_moved",
    "C55_evaluation",
    "C55_progress_markers",
    "C55_no_start_refuted",
    "C55_same_rate_refuted"
   ],
   "note": "If no start is found the heat map raises UnboundLocalError (no_start_refuted); with fewer starts than requested its rate differs from the reported success rate (same_rate_refuted)."
  },
  {
   "property": "C56",
   "status": "proved",
   "theorems": [
    "C56_planner_is_model_based_diffusion",
    "C56_description_determines_result",
    "C56_candidates_admissible",
    "C56_single_step_plan",
    "C56_result_shape"
   ],
   "note": "Soundness and uniqueness: run_diffusion = Ok out iff out fits SpecDiffusion.planned (positive steering limit, noise arrays of the requested shape)."
  },
  {
   "property": "C57",
   "status": "proved",
   "theorems": [
    "C57_parking_defaults",
    "C57_navigation_defaults",
    "C57_bounds_test",
    "C57_default_start_in_area",
    "C57_default_goal_safe",
    "C57_default_goal_safe_refuted"
   ],
   "note": "Finding: with four trailers the default goal has the last trailer in the upper wall (C57_default_goal_safe_refuted)."
  },
  {
   "property": "C58",
   "status": "proved",
   "theorems": [
    "C58_tt_body_motion_limits",
    "C58_tt_returned_trajectory_off_disc",
    "C58_tt_sampled_rollouts_off_disc",
    "C58_bk_returned_trajectory_off_disc",
    "C58_bk_sampled_rollouts_off_disc",
    "C58_nt_returned_trajectory_off_disc",
    "C58_nt_sampled_rollouts_off_disc",
    "C58_default_vehicle_and_discs",
    "C58_default_parking_lot",
    "C58_small_disc_refuted"
   ],
   "note": "Proved for the three kinematic classes with an explicit size condition; C58_default_vehicle_and_discs and C58_default_parking_lot show that the shipped vehicle and lot satisfy it (one trailer, car); C58_small_disc_refuted shows the condition is needed. For rigs the condition uses a first-order bound on the motion of each drawn trailer. The acceleration class is outside (its shield has no plain step-wise guarantee, see C19)."
  },
  {
   "property": "C59",
   "status": "proved",
   "theorems": [
    "C59_rectangle_padding",
    "C59_circle_padding",
    "C59_any_motion_misses_rectangles",
    "C59_any_motion_misses_circles",
    "C59_tt_nothing_touched_between_rows",
    "C59_bk_nothing_touched_between_rows",
    "C59_nt_nothing_touched_between_rows",
    "C59_between_is_a_shorter_step",
    "C59_default_vehicle_padding",
    "C59_no_padding_refuted",
    "C59_acc_clear_rows_suffice"
   ],
   "note": "motion projection and guidance off (as in C01); start off the padded discs; in-between positions are the code's own motion law (constant rates), plus any speed-bounded motion of one body; failure without padding shown by C59_no_padding_refuted Acceleration class: clear rows of the returned plan (its shield does not guarantee them, C23) imply that nothing listed is touched between them."
  },
  {
   "property": "C60",
   "status": "partial",
   "theorems": [
    "C60_lookup",
    "C60_configuration",
    "C60_listings",
    "C60_pairs",
    "C60_demo_override",
    "C60_acceleration_override_refuted",
    "C60_override_result",
    "C60_custom",
    "C60_custom_visualize_refuted"
   ],
   "note": "lookup, configuration, listings, pairs, demo variants of the kinematic scenarios and custom configurations proved; false for acceleration scenarios (create_demo_variant raises KeyError, C60_acceleration_override_refuted) and for visualize=True in a custom configuration (nothing is rendered, C60_custom_visualize_refuted)"
  },
  {
   "property": "C61",
   "status": "partial",
   "theorems": [
    "C61_exit_code",
    "C61_success_is_earned",
    "C61_all_can_pass_refuted",
    "C61_unknown_comparison_refuted",
    "C61_unknown_single",
    "C61_other_tests",
    "C61_all_order"
   ],
   "note": "exit code characterised for every action; two parts of the expectation are false: --all can never succeed, because test_scenario_list_functions expects ten scenarios of each kind and two acceleration tests have no scenario (C61_all_can_pass_refuted), and comparing an unknown scenario runs nothing and succeeds (C61_unknown_comparison_refuted)"
  },
  {
   "property": "C62",
   "status": "partial",
   "theorems": [
    "C62_obstacles",
    "C62_vehicle",
    "C62_start",
    "C62_goal_partial",
    "C62_succeeds",
    "C62_goal_in_own_lot_refuted",
    "C62_all_settings_forwarded_refuted",
    "C62_tight_targets_free"
   ],
   "note": "obstacles, vehicle, start and existence proved in full; the goal only for tests without their own lot: with one, the goal stays in the default lot, for the shipped tight lot on top of an obstacle (C62_goal_in_own_lot_refuted); enable_guidance, enable_projection and num_trailers of a configuration do not reach the robot (C62_all_settings_forwarded_refuted)"
  },
  {
   "property": "C63",
   "status": "partial",
   "theorems": [
    "C63_kinematic_verdict",
    "C63_acceleration_verdict",
    "C63_passed_means_safe_refuted"
   ],
   "note": "everything but the last sentence proved (C63_kinematic_verdict, C63_acceleration_verdict); a passing test need not be safe: violations are only reported (C63_passed_means_safe_refuted)"
  },
  {
   "property": "C64",
   "status": "proved",
   "theorems": [
    "C64_start_safe",
    "C64_kinematic_scenarios_safe",
    "C64_acceleration_scenarios",
    "C64_start_inside_area_refuted"
   ],
   "note": "safe start for all sixteen scenarios; safe trajectories for the kinematic ones (the acceleration class has no such guarantee, see C23); one start pose sticks out of the drawing area (C64_start_inside_area_refuted)"
  },
  {
   "property": "C65",
   "status": "proved",
   "theorems": [
    "C65_tractor_trailer",
    "C65_bicycle",
    "C65_hitch",
    "C65_padded",
    "C65_padded_bicycle",
    "C65_exact",
    "C65_single_precision"
   ],
   "note": "Arithmetic is any set of functions with the error bounds of SpecFloat.v; Flocq's binary32 rounding, fused or not, satisfies them (C65_single_precision), and with exact arithmetic the computed checks are those of the rest of the model (C65_exact). Assumes float32 matrix products (no TF32) and no overflow."
  },
  {
   "property": "C66",
   "status": "proved",
   "theorems": [
    "C66_check_collision",
    "C66_check_hitch",
    "C66_shielded_run",
    "C66_padded_run",
    "C66_bicycle_run"
   ],
   "note": "Tractor-trailer and car, without projection and guidance. A lemma bounds how far a rounded step can move, so the range condition is on the start only."
  },
  {
   "property": "C67",
   "status": "proved",
   "theorems": [
    "C67_hitch_alarm",
    "C67_no_false_alarm",
    "C67_no_false_alarm_bicycle"
   ],
   "note": "Example C67_default_vehicle applies C65-C67 to the default vehicle, in single precision, for every plan of 50 actions."
  },
  {
   "property": "C68",
   "status": "proved",
   "theorems": [
    "C68_step",
    "C68_bicycle_step",
    "C68_run",
    "C68_tractor_drift",
    "C68_bicycle_drift",
    "C68_room_to_spare",
    "C68_bicycle_room_to_spare"
   ],
   "note": "Euler integration, the one step uses. The drift of the trailer's heading is bounded per step only: driving backwards the exact law itself is unstable there, so no linear bound over a run holds."
  },
  {
   "property": "C69",
   "status": "partial",
   "theorems": [
    "C69_settings",
    "C69_succeeds",
    "C69_start_and_goal",
    "C69_navigation_start",
    "C69_start_safe",
    "C69_plans_safe",
    "C69_acceleration_run",
    "C69_backward_goal_safe_refuted"
   ],
   "note": "Everything but the last sentence is proved. Finding: parking backwards (motion_preference -1 or -2) sets a goal at which the trailer stands in the wall behind the lot (C69_backward_goal_safe_refuted). Safety of the later states of the acceleration-controlled vehicle does not hold in general (C23)."
  },
  {
   "property": "C70",
   "status": "partial",
   "theorems": [
    "C70_recipe_settings",
    "C70_recipe_succeeds",
    "C70_start_and_goal",
    "C70_start_safe",
    "C70_configuration_reaches_robot_refuted",
    "C70_quick_start_moves_refuted",
    "C70_target_spaces",
    "C70_chosen_target_free_refuted"
   ],
   "note": "The first two sentences are proved; each part of the last is refuted. Findings: the recipe forwards five settings only, so a switched-off shield stays on and eleven reward parameters differ from the configured ones; without the start recipe the robot starts in the upper wall and the returned trajectory is that pose repeated; choosing an occupied pair such as the README's [4, 12] leaves the parked obstacles on the goal."
  },
  {
   "property": "C71",
   "status": "partial",
   "theorems": [
    "C71_setup",
    "C71_start_safe",
    "C71_run",
    "C71_goal_safe_refuted",
    "C71_start_in_area_refuted"
   ],
   "note": "The last sentence is refuted. Findings: the goal stands on the circle at (7.5, -8) (C71_goal_safe_refuted); the trailer at the start sticks out of the area by more than a metre (C71_start_in_area_refuted)."
  },
  {
   "property": "C72",
   "status": "partial",
   "theorems": [
    "C72_saved_file",
    "C72_script",
    "C72_failure_changes_no_file",
    "C72_second_search_refuted",
    "C72_settings_recorded_refuted"
   ],
   "note": "Proved for a search object used once. Not true: the file of an object used twice mixes both searches (C72_second_search_refuted); the recorded configuration leaves out the shields, penalties, weights, schedule and time step, so it does not determine the search (C72_settings_recorded_refuted). Text of the JSON file and times are not modelled; with W&B the file is the same (C77)."
  },
  {
   "property": "C73",
   "status": "partial",
   "theorems": [
    "C73_kinematic_files",
    "C73_acceleration_files",
    "C73_verdict_unchanged",
    "C73_own_files",
    "C73_write_failure",
    "C73_names",
    "C73_session",
    "C73_after_success",
    "C73_results_after_any_suite",
    "C73_file_of_latest_run_refuted"
   ],
   "note": "all but the last sentence is proved for all inputs, write failures, suites and sessions; the last sentence is false (C73_file_of_latest_run_refuted): results are saved only after validation, so a failing run keeps the file of an earlier passing run, and every saved file says position_success = true."
  },
  {
   "property": "C74",
   "status": "proved",
   "theorems": [
    "C74_weight_ratio",
    "C74_cold_follows_the_best",
    "C74_hot_averages",
    "C74_temperature_to_zero",
    "C74_scale_free",
    "C74_lead_in_units_of_the_range",
    "C74_tt_executed_in_box",
    "C74_bk_executed_in_box",
    "C74_nt_executed_in_box",
    "C74_acc_executed_in_box"
   ],
   "note": "Closed forms and two-sided error bounds for the softmax weights over exact reals; the box hypothesis on executed commands is proved for the four classes."
  },
  {
   "property": "C75",
   "status": "proved",
   "theorems": [
    "C75_settings",
    "C75_script",
    "C75_trials",
    "C75_no_start",
    "C75_repeatable"
   ],
   "note": "Exact reals. A script run in a process that already planned with another configuration is the case of C38_later_trials_use_first_world: the trials are then searched with the first configuration's environment."
  },
  {
   "property": "C76",
   "status": "proved",
   "theorems": [
    "C76_tt_plan_mirrors",
    "C76_bk_plan_mirrors",
    "C76_nt_plan_mirrors",
    "C76_acc_plan_mirrors",
    "C76_tt_step_mirrors",
    "C76_verdicts_mirror",
    "C76_demonstration_mirrors",
    "C76_guidance_cost_mirrors",
    "C76_tt_plan_with_demonstration",
    "C76_acc_plan_with_demonstration",
    "C76_nt_plan_with_demonstration",
    "C76_bk_plan_with_demonstration",
    "C76_guidance_gradient_mirrors"
   ],
   "note": "Exact reals. Projection (scipy's optimiser) is a parameter and must itself be symmetric; it is off by default and the demonstration and guidance are the code's own."
  },
  {
   "property": "C77",
   "status": "partial",
   "theorems": [
    "C77_disabled",
    "C77_same_search",
    "C77_search",
    "C77_exception",
    "C77_nothing_to_run",
    "C77_same_search_refuted",
    "C77_pictures_apart",
    "C77_run_opened",
    "C77_pruning_refuted",
    "C77_second_search_refuted",
    "C77_script",
    "C77_failed_script"
   ],
   "note": "Proved as soon as one start condition is found. Not true: if no start is found the missing picture is passed to wandb.Image, and if that raises, a search that would complete without W&B ends at its first trial (C77_same_search_refuted); pruned_trials and pruning_efficiency are always 0 although pruning is enabled (C77_pruning_refuted); an object used twice logs two trials under the same number and picture key (C77_second_search_refuted). The dashboard and its failures, times and pixels are not modelled."
  },
  {
   "property": "C78",
   "status": "proved",
   "theorems": [
    "C78_tt_only_reachable_obstacles",
    "C78_bk_only_reachable_obstacles",
    "C78_nt_only_reachable_obstacles",
    "C78_acc_only_reachable_obstacles",
    "C78_tt_extends_at_most_span",
    "C78_bk_extends_at_most_span",
    "C78_nt_extends_at_most_span",
    "C78_tt_obstacle_order",
    "C78_bk_obstacle_order",
    "C78_nt_obstacle_order",
    "C78_acc_obstacle_order",
    "C78_demonstration_only_near_obstacles",
    "C78_tt_with_demonstration",
    "C78_bk_with_demonstration",
    "C78_nt_with_demonstration",
    "C78_acc_with_demonstration",
    "C78_guidance_cost_order",
    "C78_guidance_far_circle_ignored",
    "C78_guidance_repetition_refuted",
    "C78_guidance_far_obstacle_refuted"
   ],
   "note": "Proved for all four vehicle classes, with any fixed score function and with the code's own demonstration, which only looks at obstacles within the start-goal distance. Guidance is different (C78_guidance_*): its cost ignores the order of the obstacles, but charges a repeated circle twice and weights the hitch by the number of obstacles from the 21st on, however far they are; both are shown."
  },
  {
   "property": "C79",
   "status": "proved",
   "theorems": [
    "C79_tt_units",
    "C79_bk_units",
    "C79_nt_units",
    "C79_scores_same_in_both_units",
    "C79_tt_units_with_demonstration"
   ],
   "note": "Proved for the three kinematic vehicle classes. The demonstration's score function is required to read the same in both units; C79_scores_same_in_both_units shows that the code's own scores do when the stored reference is converted too. Projection and guidance (which contain absolute step sizes) and the acceleration class (absolute speed threshold and one-second lookahead) are outside the statement. The size hypothesis (bodies at least 0.1 mm long and wide) must hold in both units because the collision routine's parallel-edge tolerance is absolute."
  },
  {
   "property": "C80",
   "status": "proved",
   "theorems": [
    "C80_tt_fewer_obstacles_never_worse",
    "C80_tt_untouched_obstacles",
    "C80_bk_fewer_obstacles_never_worse",
    "C80_bk_untouched_obstacles",
    "C80_nt_fewer_obstacles_never_worse",
    "C80_nt_untouched_obstacles"
   ],
   "note": "Proved for the three kinematic vehicle classes. The first part needs a non-negative collision penalty. A plan optimised among fewer obstacles is a different plan; the claim is about executing given controls."
  }
 ]
}