{"id": "C01", "title": "Shielded kinematic plans are safe end to end", "statement": "For the kinematic robots (tractor-trailer, n-trailer, bicycle) with both shielded-rollout flags on and projection/guidance off, if the start pose is safe then every state reached in every sampled rollout and every row of the trajectory_states returned by run_diffusion is safe: the vehicle's body rectangles share no point with any rectangular obstacle, keep their outline more than r away from the centre of each circular obstacle of radius r, and every hitch angle stays within the 40 degree limit.", "quantifier": "every start pose, goal, obstacle set, vehicle geometry, horizon, number of diffusion steps and samples, temperature, noise draw and seed", "why_tests_cant": "Sampling noise is continuous and unbounded; a test runs finitely many seeds and maps, while the claim is about every noise draw and every map.", "anchors": ["mbd/robots/tt2d.py:_step_internal,shielded_rollout,check_obstacle_collision,check_hitch_violation", "mbd/robots/n_trailer2d.py:_step_internal", "mbd/robots/kinematic_bicycle2d.py:_step_internal", "mbd/utils.py:rollout_us_with_terminal", "mbd/planners/mbd_planner.py:run_diffusion"]}
{"id": "C02", "title": "Each shield flag protects its own constraint", "statement": "With only the collision shield on, no step ever turns a collision-free state into a colliding one; with only the hitch shield on, no step ever turns a hitch-safe state into a violating one; with both off, no protection is claimed.", "quantifier": "every state, action, parameter set and flag combination", "why_tests_cant": "Requires all states and actions, including those on the decision boundary.", "anchors": ["mbd/robots/tt2d.py:shielded_rollout", "mbd/robots/n_trailer2d.py:shielded_rollout", "mbd/robots/kinematic_bicycle2d.py:_step_internal"]}
{"id": "C03", "title": "A start that is already unsafe is never made silently worse", "statement": "From an unsafe start the shielded kinematic vehicle either stays exactly where it is or moves to a state that passes every enabled check; once safe it remains safe for ever.", "quantifier": "every start (safe or not), every action sequence of any length", "why_tests_cant": "Histories of unbounded length.", "anchors": ["mbd/robots/tt2d.py:_step_internal,shielded_rollout"]}
{"id": "C04", "title": "Rectangle-rectangle collision check is exact", "statement": "The separating-axis check between a vehicle body and a rectangular obstacle reports a collision exactly when the two solid rectangles share a point (touching counts as collision).", "quantifier": "all pairs of rectangles: any centres, sizes, orientations", "why_tests_cant": "Real-valued geometry: no finite sample covers grazing contacts and all orientations.", "anchors": ["mbd/robots/tt2d.py:check_rectangle_rectangle_collision,get_tractor_trailer_rectangles"]}
{"id": "C05", "title": "Rectangle-circle collision check: what it decides", "statement": "The circle check reports a collision exactly when some point of the body's outline is within r of the circle's centre; hence it never misses an overlap if r is at least half the body's smaller dimension, and never reports one for a circle disjoint from the body. (A circle lying strictly inside the body is not reported.)", "quantifier": "all rectangles with non-degenerate edges and all circles", "why_tests_cant": "Real-valued geometry, and the missed case needs a specific containment that random tests do not hit.", "anchors": ["mbd/robots/tt2d.py:check_rectangle_circle_collision"]}
{"id": "C06", "title": "Hitch check means: every hitch angle, measured the short way round, is at most the limit", "statement": "check_hitch_violation is false exactly when for every consecutive pair of bodies some whole-turn shift of the heading difference has magnitude at most phi_max; it does not depend on which 2*pi representative the headings use; the bicycle never violates.", "quantifier": "all headings (unbounded reals), any number of trailers, any limit below pi", "why_tests_cant": "Unbounded windings and unbounded numbers of trailers.", "anchors": ["mbd/robots/tt2d.py:check_hitch_violation", "mbd/robots/n_trailer2d.py:check_hitch_violation", "mbd/robots/kinematic_bicycle2d.py:check_hitch_violation"]}
{"id": "C07", "title": "Returned plan and returned trajectory agree (kinodynamic feasibility)", "statement": "For kinematic robots without projection/guidance, trajectory_states starts at the start pose, has one more row than Y0, and each row follows from the previous one by the plain unshielded vehicle dynamics under the returned action; executing the returned actions again (with or without the shield) reproduces exactly the same states and the same applied actions.", "quantifier": "every noise draw, horizon, map, start", "why_tests_cant": "Consistency must hold after any pattern of shield interventions.", "anchors": ["mbd/utils.py:rollout_us_with_terminal", "mbd/planners/mbd_planner.py:run_diffusion", "mbd/robots/tt2d.py:_step_internal"]}
{"id": "C08", "title": "Commands always respect actuator limits", "statement": "Whatever action is given to step, the recorded applied action lies in [-1,1]^2, so the commanded speed/steering (or acceleration/steering rate) stays within the configured maxima.", "quantifier": "all actions (unbounded), all states, all modes without projection", "why_tests_cant": "Unbounded input space.", "anchors": ["mbd/robots/tt2d.py:_step_internal,input_scaler", "mbd/robots/acc_tt2d.py:_step_internal", "mbd/robots/n_trailer2d.py:_step_internal", "mbd/robots/kinematic_bicycle2d.py:_step_internal"]}
{"id": "C09", "title": "One denoising step returns exactly the weighted average of executed controls", "statement": "For 0<beta<1 the new mean control sequence produced by a reverse diffusion step equals the softmax-weighted average of the control sequences that the samples actually executed (after clipping, direction enforcement and shielding); the previous mean enters only through the sampling.", "quantifier": "all noise draws, schedules with betas in (0,1), step indices, horizons, sample counts", "why_tests_cant": "An algebraic identity over reals for all schedules and samples.", "anchors": ["mbd/planners/mbd_planner.py:reverse_once"]}
{"id": "C10", "title": "Plans stay inside the control box at every denoising step", "statement": "Every intermediate mean control sequence and the final Y0 has all components in [-1,1] (without projection), from the all-zero initialisation on.", "quantifier": "all noise, all numbers of diffusion steps and samples", "why_tests_cant": "All diffusion histories.", "anchors": ["mbd/planners/mbd_planner.py:run_diffusion"]}
{"id": "C11", "title": "Strict motion direction is enforced on the final plan", "statement": "With motion_preference=2 every velocity command in the returned plan of a kinematic robot is >=0, with -2 it is <=0, and the vehicle therefore never moves against the enforced direction.", "quantifier": "all noise, maps, horizons", "why_tests_cant": "Must survive averaging and shielding for every draw.", "anchors": ["mbd/planners/mbd_planner.py:reverse_once", "mbd/robots/tt2d.py:_step_internal"]}
{"id": "C12", "title": "Diffusion schedule is well formed", "statement": "For 0<beta0<=betaT<1 the cumulative products alphas_bar are strictly decreasing in (0,1), sigmas are strictly increasing in (0,1), so every square root and division in the reverse step is defined.", "quantifier": "all beta0, betaT, all Ndiffuse", "why_tests_cant": "All schedules.", "anchors": ["mbd/planners/mbd_planner.py:run_diffusion"]}
{"id": "C13", "title": "Sample weights form a probability distribution ordered by reward", "statement": "The weights used for averaging are positive, sum to one, order samples by their (reward or demonstration) score, and do not change when all rewards are shifted by a constant; permuting the samples permutes the weights and leaves the averaged plan unchanged.", "quantifier": "all reward vectors of any length, all positive temperatures", "why_tests_cant": "All vectors.", "anchors": ["mbd/planners/mbd_planner.py:reverse_once"]}
{"id": "C14", "title": "Demonstration guidance only raises a sample's score", "statement": "With the demonstration enabled each sample's log-score is the larger of its own score and its demonstration score; the best-matching sample gets the demonstration's own score; with the demonstration disabled scores depend on rewards only.", "quantifier": "all samples, references, temperatures", "why_tests_cant": "All real vectors.", "anchors": ["mbd/planners/mbd_planner.py:reverse_once", "mbd/robots/tt2d.py:eval_xref_logpd"]}
{"id": "C15", "title": "Reported final reward is the reward of the returned trajectory", "statement": "For kinematic robots, rew_final equals the mean over the returned trajectory's steps of the per-step reward plus terminal_reward_weight times the terminal reward of the last returned state.", "quantifier": "all runs", "why_tests_cant": "Holds for every shield intervention pattern.", "anchors": ["mbd/utils.py:rollout_us_with_terminal", "mbd/planners/mbd_planner.py:run_diffusion"]}
{"id": "C16", "title": "Reward range and goal optimality", "statement": "Position rewards lie in [0,1]; the per-step reward never exceeds 1 and is bounded below; for trailer tracking the terminal reward is 1 exactly when the trailer axle is at its goal position and decreases with distance; beyond the threshold distance it is 0. The reward of a state is the documented blend: position score and heading score weighted by a logistic function of the distance (one half at the switching distance, capped), heading errors measured the short way round and, without a direction preference, relative to whichever of the goal heading and its opposite is nearer in sum, plus the hitch term.", "quantifier": "all states, goals, positive thresholds", "why_tests_cant": "All reals.", "anchors": ["mbd/robots/tt2d.py:get_reward,get_terminal_reward", "mbd/robots/n_trailer2d.py:get_reward,get_terminal_reward", "mbd/robots/kinematic_bicycle2d.py:get_reward,get_terminal_reward"]}
{"id": "C17", "title": "Rewards and checks do not depend on the heading's winding number", "statement": "Adding whole turns to any heading changes neither the reward, the terminal reward, the collision check nor the hitch check; with no motion preference, turning the goal heading by pi does not change the heading part of the reward.", "quantifier": "all states, all integers", "why_tests_cant": "Unbounded integers.", "anchors": ["mbd/robots/tt2d.py:get_reward,check_hitch_violation,get_tractor_trailer_rectangles"]}
{"id": "C18", "title": "Motion preference penalty", "statement": "The preference penalty is 0 for preferences 0 and +-2 and for motion in the preferred direction, and weight*|v| against it; it never rewards.", "quantifier": "all velocities, preferences, weights >=0", "why_tests_cant": "All reals.", "anchors": ["mbd/robots/tt2d.py:get_preference_penalty", "mbd/robots/n_trailer2d.py:get_preference_penalty", "mbd/robots/acc_tt2d.py:get_preference_penalty"]}
{"id": "C19", "title": "Violation penalties are exact", "statement": "A step's reward is the state's reward minus collision_penalty iff the proposed state collides, minus hitch_penalty iff it violates the hitch limit, minus the preference penalty of the applied command iff a preference is set; being shielded does not waive the penalty.", "quantifier": "all states and actions", "why_tests_cant": "All states.", "anchors": ["mbd/robots/tt2d.py:_step_internal", "mbd/robots/kinematic_bicycle2d.py:_step_internal", "mbd/robots/n_trailer2d.py:_step_internal"]}
{"id": "C20", "title": "Trailers roll without slipping", "statement": "In the vehicle dynamics every axle (tractor rear axle and each trailer axle, each hitched lh behind the previous axle) has zero velocity component across its own body; the n-trailer model restricted to its first trailer is the single-trailer model and that restricted to the tractor is the bicycle.", "quantifier": "all states, inputs, numbers of trailers", "why_tests_cant": "Unbounded number of trailers; all angles.", "anchors": ["mbd/robots/tt2d.py:tractor_trailer_dynamics", "mbd/robots/n_trailer2d.py:n_trailer_dynamics", "mbd/robots/kinematic_bicycle2d.py:bicycle_dynamics"]}
{"id": "C21", "title": "Per-step displacement is bounded", "statement": "In one step the tractor reference point of a kinematic robot moves exactly |v|*dt <= v_max*dt, and over n steps at most n*v_max*dt; the acceleration robot's displacement per step is also at most v_max*dt even though its stored speed is not clipped.", "quantifier": "all states, actions, sequences of any length", "why_tests_cant": "Unbounded histories.", "anchors": ["mbd/robots/tt2d.py:_step_internal,tractor_trailer_dynamics", "mbd/robots/acc_tt2d.py:tractor_trailer_dynamics"]}
{"id": "C22", "title": "Backup braking stops the acceleration-controlled vehicle", "statement": "Repeatedly applying the backup command makes |v| non-increasing, never reverses its sign, and brings it to at most the speed threshold within ceil(|v|/(a_max*dt)) steps, with zero steering rate throughout.", "quantifier": "all initial speeds, a_max, dt > 0", "why_tests_cant": "Unbounded speeds and step counts.", "anchors": ["mbd/robots/acc_tt2d.py:_step_internal,shielded_rollout"]}
{"id": "C23", "title": "Shielded rollout of the acceleration-controlled robot keeps it safe", "statement": "With both flags on, if the start is safe then every visited state is collision-free and hitch-safe.", "quantifier": "all starts, actions, maps", "why_tests_cant": "Universal safety claim.", "anchors": ["mbd/robots/acc_tt2d.py:shielded_rollout,_check_safety_with_rollout,_rollout_step"]}
{"id": "C24", "title": "Velocity and steering limits of the acceleration-controlled robot", "statement": "The speed and steering actually used to move the vehicle never exceed v_max and delta_max.", "quantifier": "all states and action histories", "why_tests_cant": "Unbounded histories.", "anchors": ["mbd/robots/acc_tt2d.py:tractor_trailer_dynamics"]}
{"id": "C25", "title": "Predictive braking check of the acceleration-controlled robot", "statement": "The safety check of a fast state declares it safe only if that state and each of the predicted states of the braking manoeuvre are safe, where the number of predicted states is floor(2*v_max/a_max).", "quantifier": "all states, obstacles, parameters", "why_tests_cant": "All states.", "anchors": ["mbd/robots/acc_tt2d.py:_rollout_step,_check_safety_with_rollout"]}
{"id": "C26", "title": "Scoring a plan starts from the given state", "statement": "rollout_us and rollout_us_with_terminal evaluate the plan from the state they are given: row t is the state after t+1 actions applied to that state.", "quantifier": "all states, action sequences, robots", "why_tests_cant": "All inputs of any length.", "anchors": ["mbd/utils.py:rollout_us,rollout_us_with_terminal"]}
{"id": "C27", "title": "Parking space geometry", "statement": "For space numbers 1..rows*cols, the space centre lies strictly inside the lot, distinct numbers have distinct centres at least one space width or length apart, and the layout is centred horizontally.", "quantifier": "all rows, cols, positive dimensions, all space numbers", "why_tests_cant": "All integer grids.", "anchors": ["mbd/envs/env.py:get_parking_space_center"]}
{"id": "C28", "title": "Parking obstacles", "statement": "There are exactly three circles per occupied space, all inside that space when the space is large enough, so target spaces not listed as occupied are free of obstacle centres. The rectangular obstacles are two fences, 30 m long and 1 m thick, along y = 15 and y = -14.", "quantifier": "all configurations", "why_tests_cant": "All configurations.", "anchors": ["mbd/envs/env.py:set_obs_circle_parking"]}
{"id": "C29", "title": "Start and goal setters", "statement": "set_init_pos(dx,dy) puts the tractor front axle dx from the lowest target's centre and dy above the entrance line of the highest target; direct coordinates are used verbatim; set_goal_pos changes only the given components.", "quantifier": "all configurations and arguments", "why_tests_cant": "All configurations.", "anchors": ["mbd/robots/tt2d.py:set_init_pos,set_goal_pos", "mbd/robots/acc_tt2d.py:set_init_pos,set_goal_pos", "mbd/robots/n_trailer2d.py:set_init_pos,set_goal_pos", "mbd/robots/kinematic_bicycle2d.py:set_init_pos,set_goal_pos"]}
{"id": "C30", "title": "State dimension invariant", "statement": "For every robot class the start and goal vectors always have length observation_size, after construction and after any sequence of setter calls.", "quantifier": "any sequence of calls, any number of trailers", "why_tests_cant": "Unbounded call histories.", "anchors": ["mbd/robots/tt2d.py:__init__,set_init_pos,set_goal_pos", "mbd/robots/acc_tt2d.py:__init__", "mbd/robots/n_trailer2d.py:__init__", "mbd/robots/kinematic_bicycle2d.py:__init__"]}
{"id": "C31", "title": "Obstacle setters mean what they say", "statement": "A rectangle given in left-top mode occupies exactly the points between its corners; padding grows each side by exactly the padding on all sides; circles grow radially; the new list replaces the old one, in order, and robot and environment agree.", "quantifier": "all lists of obstacles, all paddings", "why_tests_cant": "All lists.", "anchors": ["mbd/envs/env.py:set_rectangle_obs,set_circle_obs", "mbd/robots/tt2d.py:set_rectangle_obs,set_circle_obs"]}
{"id": "C32", "title": "Invalid obstacle input changes nothing", "statement": "If any obstacle has the wrong arity or the coordinate mode is unknown (and the list is non-empty) a ValueError is raised and both environment and robot keep their previous obstacles.", "quantifier": "all lists, all positions of the bad entry", "why_tests_cant": "All lists.", "anchors": ["mbd/envs/env.py:set_rectangle_obs,set_circle_obs"]}
{"id": "C33", "title": "get_env builds the requested robot", "statement": "get_env returns the class determined by (env_name, num_trailers), passes every parameter through, and raises ValueError for an unknown name and AssertionError for n_trailer2d with fewer than two trailers.", "quantifier": "all names, all integers", "why_tests_cant": "All strings and integers.", "anchors": ["mbd/envs/__init__.py:get_env"]}
{"id": "C34", "title": "Configuration dictionary conversion", "statement": "dict_to_config_obj copies every supported key's value, raises KeyError when a mandatory key is missing, and supplies a default otherwise. A value given for a field is read with the field's type: fractions are dropped towards zero for whole-number fields, and numbers count as true unless they are zero.", "quantifier": "all dictionaries", "why_tests_cant": "All dictionaries.", "anchors": ["mbd/planners/mbd_planner.py:dict_to_config_obj,MBDConfig"]}
{"id": "C35", "title": "Demonstration trajectory shape", "statement": "The demonstration has exactly H rows, begins at the start position, ends at the goal position with the goal's headings, and all its points lie on the chosen polyline.", "quantifier": "all H>=4, starts, goals, obstacle sets", "why_tests_cant": "All horizons and geometries (rounding cases).", "anchors": ["mbd/robots/tt2d.py:generate_demonstration_trajectory"]}
{"id": "C36", "title": "Demonstration path choice", "statement": "The straight line is used if its samples are clear; otherwise the requested L-shaped detour if clear, else the other L, else the straight line.", "quantifier": "all obstacle sets", "why_tests_cant": "All maps.", "anchors": ["mbd/robots/tt2d.py:generate_demonstration_trajectory"]}
{"id": "C37", "title": "Demonstration score is bounded", "statement": "eval_xref_logpd lies in [-(sum of weights),0]; with positive weights it is 0 exactly for a trajectory that follows the reference: row by row the compared point (tractor for forward preferences, trailer axle otherwise; the car itself for the bicycle) is the reference point and, on the final segment, the headings agree; points outside the final segment contribute no heading error. The demonstration's own reward is the score a trajectory gets that visits exactly its poses.", "quantifier": "all trajectories, references, preferences and robot classes", "why_tests_cant": "All reals, any length.", "anchors": ["mbd/robots/tt2d.py:eval_xref_logpd", "mbd/robots/kinematic_bicycle2d.py:eval_xref_logpd"]}
{"id": "C38", "title": "JIT cache discipline", "statement": "After clear_jit_cache, planning with a fresh environment object uses exactly that object's data; consecutive trials with fresh environments of the same class that differ only in their start pose are unaffected by the cache even without clearing. In all other cases it is determined which trial's data is used: the world, the noise schedule and the demonstration of the first trial since the last clear.", "quantifier": "all sequences of constructions, setter calls, runs and cache clears", "why_tests_cant": "Unbounded histories.", "anchors": ["mbd/planners/mbd_planner.py:run_diffusion,clear_jit_cache", "mbd/robots/tt2d.py:reset,step"]}
{"id": "C39", "title": "Steering reward bound", "statement": "The trajectory-level steering reward lies in [0,1] for action sequences in the control box, equals 1 for zero steering, and only the second control component matters.", "quantifier": "all action sequences of any length", "why_tests_cant": "All sequences.", "anchors": ["mbd/planners/mbd_planner.py:compute_steering_reward"]}
{"id": "C40", "title": "Projection never leaves the control box and falls back to the command", "statement": "With projection on, the applied command is the optimiser's answer when it reports success and the original command otherwise (also on exceptions); if the optimiser respects its bounds the applied command is in the box; the signed distance used is negative inside, positive outside, and a positive two-box gap implies disjoint boxes. The constraints are evaluated at the Runge-Kutta prediction under the scaled command, where a strictly admissible command leaves the (shortened) bodies free of all obstacles.", "quantifier": "all optimiser behaviours, all states", "why_tests_cant": "The optimiser is arbitrary.", "anchors": ["mbd/robots/tt2d.py:_numpy_projection_function,project_control_to_safe_set", "mbd/robots/kinematic_bicycle2d.py:_numpy_projection_function"]}
{"id": "C41", "title": "Guidance keeps states bounded and off the executed dynamics while denoising", "statement": "For any gradient values guidance output stays within +-100 m and +-2 pi; during denoising the next state is the plain dynamics' state and only the reward sees the guided one. Guidance is three steps of gradient descent with step 0.05, each followed by that cut; a vehicle whose tractor axle is closer than 2 m to exactly one circular obstacle, with room elsewhere, is shifted straight away from it by 0.271 of what is missing.", "quantifier": "all gradients, states", "why_tests_cant": "Gradient is arbitrary.", "anchors": ["mbd/robots/tt2d.py:apply_guidance,_step_internal", "mbd/robots/n_trailer2d.py:apply_guidance", "mbd/robots/acc_tt2d.py:apply_guidance"]}
{"id": "C42", "title": "Trial evaluation verdict", "statement": "evaluate_trial_result reports success exactly when the smaller of tractor and trailer-back distance to the goal is within the threshold and no state of the trajectory collides or violates the hitch limit. The reported errors are these two distances and the smaller of them, the two flags report collisions and hitch violations, and only an empty trajectory has no report.", "quantifier": "all trajectories of any length", "why_tests_cant": "Unbounded trajectories.", "anchors": ["tests/stat_mbd.py:evaluate_trial_result"]}
{"id": "C43", "title": "Initial-condition sampling", "statement": "sample_initial_conditions returns at most num_trials configurations, all valid, with ids 0,1,2,..., using at most 10*num_trials attempts, and exactly num_trials if enough valid draws occur.", "quantifier": "all random streams", "why_tests_cant": "All streams.", "anchors": ["tests/stat_mbd.py:sample_initial_conditions"]}
{"id": "C44", "title": "Backup mode does not latch", "statement": "A shield intervention affects only the step it occurs in: the backup flag of the state is the one it was reset with (false), so later safe actions are executed.", "quantifier": "all histories", "why_tests_cant": "Unbounded histories.", "anchors": ["mbd/robots/tt2d.py:_step_internal", "mbd/robots/acc_tt2d.py:_step_internal", "mbd/robots/n_trailer2d.py:_step_internal", "mbd/robots/kinematic_bicycle2d.py:_step_internal"]}
{"id": "C45", "title": "World-frame invariance", "statement": "Translating and rotating start, goal, and obstacles together translates and rotates the whole shielded rollout: same safety decisions, same applied actions, same rewards.", "quantifier": "all rigid motions, maps, action sequences", "why_tests_cant": "Continuous group of motions.", "anchors": ["mbd/robots/tt2d.py:_step_internal,get_reward,check_obstacle_collision"]}
{"id": "C46", "title": "Animation frame bookkeeping", "statement": "The denoising animation draws every |frame_skip|-th recorded plan, always including the first, frame k being the rollout of plan k*|frame_skip|; picture files are deleted only after ffmpeg succeeded; after any sequence of completed, failed and interrupted calls a video holds exactly the frames of the latest completed call of that name.", "quantifier": "all numbers of steps and skips, all directories, all sequences of calls and points of failure", "why_tests_cant": "All integers.", "anchors": ["mbd/utils.py:create_denoising_animation,export_video"]}
{"id": "C47", "title": "Pictures show what the checks use", "statement": "In every frame of the trajectory animation the drawn bodies and obstacles cover exactly the point sets the collision check works on, frame k shows state k and the path up to it, the red mark is present exactly when in the picture a body meets a rectangle or its border meets a circle, and the purple mark exactly when a hitch angle exceeds its limit; wheels are drawn at the axles with the executed steering angle.", "quantifier": "all vehicle parameters, obstacle maps, trajectories, numbers of trailers", "why_tests_cant": "Continuous states; any trajectory length and number of trailers.", "anchors": ["mbd/utils.py:create_animation", "mbd/robots/tt2d.py:render_rigid_body", "mbd/robots/n_trailer2d.py:render_rigid_body", "mbd/robots/kinematic_bicycle2d.py:render_rigid_body"]}
{"id": "C48", "title": "Environments can be animated repeatedly", "statement": "create_animation can be called any number of times on the same environment object.", "quantifier": "all sequences of animations of one object", "why_tests_cant": "Depends on the history of the object.", "anchors": ["mbd/robots/tt2d.py:setup_animation_patches,update_animation_patches", "mbd/robots/kinematic_bicycle2d.py:setup_animation_patches", "mbd/robots/n_trailer2d.py:setup_animation_patches"]}
{"id": "C49", "title": "Merged progress video", "statement": "The merged progress video of a statistical evaluation shows the trials of this evaluation, each completely, in the order in which they were run.", "quantifier": "all numbers of trials, earlier contents of the directory, ffmpeg outcomes", "why_tests_cant": "Any number of trials and any directory history.", "anchors": ["mbd/utils.py:merge_progress_videos", "tests/stat_mbd.py:run_statistical_evaluation"]}
{"id": "C50", "title": "The timing report is consistent", "statement": "If the clock does not go back during a run, every entry of the timing report is a non-negative length of time, the total is positive, compile time is the sum of its three parts, overhead is total minus pure diffusion time, and demonstration, compile, setup, diffusion and post-processing times together do not exceed the total.", "quantifier": "all environments, configurations, cache histories and clock readings", "why_tests_cant": "Clock readings and cache histories are unbounded; a test sees a few runs only.", "anchors": ["mbd/planners/mbd_planner.py:run_diffusion"]}
{"id": "C51", "title": "benchmark_diffusion reports the trials it ran", "statement": "benchmark_diffusion reports exactly num_trials trials, each with the timing of its own run, warm-up runs excluded; all trials report the same reward (no guidance, or a warm-up, or a clean cache), so its spread is 0; mean, standard deviation, minimum, maximum and median are those of the listed series; a planner exception ends the benchmark; no trials is a ValueError.", "quantifier": "all environments, configurations, numbers of trials and warm-ups, cache histories, clock readings", "why_tests_cant": "Any number of trials, any history of earlier runs in the process.", "anchors": ["mbd/scripts/benchmark_diffusion.py:benchmark_diffusion"]}
{"id": "C52", "title": "The parking benchmark finishes", "statement": "benchmark_parking_scenario runs every listed configuration with an environment built from that configuration, starting safely, and reports three trials for each of them. The configurations grow in all three sizes and otherwise use the dataclass's planner and vehicle settings.", "quantifier": "all lists of configurations, generators, clock readings, earlier histories with a clean cache", "why_tests_cant": "Depends on which configurations ran before in the same process.", "anchors": ["mbd/scripts/benchmark_diffusion.py:benchmark_parking_scenario"]}
{"id": "C53", "title": "The hyperparameter search reports what it evaluated", "statement": "Every trial of the search evaluates the base configuration with the two suggested values (drawing switched off), values come from the grid 0.5..5.0, the result is independent of what ran before in the process, the stored score is the success rate of exactly that configuration over the trials with seed 42, the best trial is one of the stored ones and none scores higher, equal values score equally, a planner exception ends the search, and with the shipped configuration the reported safety is 1 for every choice of values.", "quantifier": "all samplers, base configurations, process histories, random generators, numbers of trials", "why_tests_cant": "Any sampler choice, any history of evaluations in the process.", "anchors": ["tests/tune_mbd.py:DiffusionOptimizer", "tests/tune_mbd.py:create_config_with_params", "tests/tune_mbd.py:objective_function"]}
{"id": "C54", "title": "The static picture shows the plan and the lot it was planned in", "statement": "render draws the given path in order, the robot's own obstacles (same points), the axes of the environment, lines exactly on the edges of the parking spaces, and the number of exactly the unoccupied spaces, each once, at the space's centre, green iff it is a target; no number lies over an obstacle; the picture of a plan starts at the start state and has one point per action; the printed layout shows every space with its symbol, highest row on top.", "quantifier": "all robots, lots, paths, configurations, generators", "why_tests_cant": "Any lot size, occupancy and path.", "anchors": ["mbd/robots/tt2d.py:render", "mbd/robots/kinematic_bicycle2d.py:render", "mbd/envs/env.py:print_parking_layout", "mbd/planners/mbd_planner.py:run_diffusion"]}
{"id": "C55", "title": "Heat map and progress markers show the trials", "statement": "The heat map shows each trial once, at the position where it started, green iff it succeeded, and the fraction of successful trials; drawing it leaves the environment at the last trial; the progress video of trial i shows exactly the markers of the trials before it.", "quantifier": "all lists of results, environments of every class, samplers, numbers of trials", "why_tests_cant": "Any list of trials and verdicts.", "anchors": ["tests/stat_mbd.py:create_heat_map_visualization", "tests/stat_mbd.py:run_statistical_evaluation"]}
{"id": "C56", "title": "run_diffusion is exactly the documented model-based diffusion", "statement": "For every configuration with 0<beta0,betaT<1, run_diffusion performs Ndiffuse-1 denoising steps (indices Ndiffuse-1 down to 1) from the all-zero control sequence. In each step every candidate is the current mean plus noise scaled by sigma_i/sqrt(alpha_bar_(i-1)), moved to the nearest command admissible for the direction preference; each is executed from the start; its value is mean reward plus weighted terminal reward plus weighted steering smoothness; scores are the standardised values over the temperature, raised to the demonstration score if enabled; the next mean is the softmax-weighted average of the executed controls. The returned controls are those executed for the last mean, the returned states their replay from the start, the returned reward the value of re-evaluating them. This description determines the result uniquely.", "quantifier": "all configurations, environments, seeds and random generators of the right shape", "why_tests_cant": "An equivalence between the program and a mathematical description, over all schedules, noise arrays and environments.", "anchors": ["mbd/planners/mbd_planner.py:run_diffusion,reverse_once,reverse", "mbd/utils.py:rollout_us_with_terminal"]}
{"id": "C57", "title": "Default start and goal poses", "statement": "Before any setter is called, a robot in the parking scenario starts 2 m inside the upper left corner with all headings 0.1 rad and has as goal the centre of the first target space with every body pointing straight down; in the navigation scenario both are at the origin with the goal turned by pi. The default goal of the default parking lot is a safe pose for the car, the tractor-trailer and rigs of two or three trailers. is_in_bounds accepts exactly the points of the environment's closed area.", "quantifier": "all get_env arguments; all points", "why_tests_cant": "All configurations, trailer counts and points; safety of a pose is a statement about all points of the bodies.", "anchors": ["mbd/envs/env.py:get_default_init_pos,get_default_goal_pos,is_in_bounds", "mbd/robots/tt2d.py:__init__", "mbd/robots/n_trailer2d.py:_augment_state"]}
{"id": "C58", "title": "Large discs are never driven over, although the check only looks at outlines", "statement": "The collision check tests a circular obstacle against the outline of each body only, so a disc lying completely inside a body is not reported. Nevertheless, with the collision shield on (no projection, no guidance), a vehicle that starts with no point in common with a disc never gets one in any row of the returned trajectory or of any scored candidate, provided the disc is at least as wide as each body or its diameter is at least the distance a body point over it can move in one time step (explicit formula from speed, steering limit, wheelbase, hitch offset and body sizes). The shipped vehicle with time steps up to 0.25 s and discs of radius at least 1 m (all discs of the default lot) satisfies this. Smaller discs can be driven over: a 5 cm post in front of the default tractor ends up under it after one accepted step.", "quantifier": "every vehicle geometry, map, start pose off the disc, action sequence, planner configuration and random source; tractor-trailer, car and rigs of any number of trailers; every disc satisfying the size condition", "why_tests_cant": "depends on every pose reachable by any action sequence and on every relation of disc size, body size and step length; the unsafe case needs the disc to be strictly inside the body, which random tests do not hit", "anchors": ["mbd/robots/tt2d.py: check_rectangle_circle_collision, check_obstacle_collision, _step_internal", "mbd/robots/n_trailer2d.py: check_obstacle_collision", "mbd/robots/kinematic_bicycle2d.py: check_obstacle_collision", "mbd/planners/mbd_planner.py: run_diffusion", "mbd/utils.py: rollout_us_with_terminal"]}
{"id": "C59", "title": "Obstacle padding makes the returned plan safe between time steps too", "statement": "If the user sets the obstacles with set_rectangle_obs/set_circle_obs and a padding that is at least half the distance any point of the vehicle can travel in one time step, then with the collision shield on the vehicle touches none of the obstacles as listed (without the padding) at any moment between two consecutive rows of the returned trajectory - not only at the rows that the code checks. Without padding this is false: a short fast car goes through a thin wall.", "quantifier": "every obstacle list, mode and padding, every vehicle and start, every planner configuration and random stream, every pair of consecutive rows and every moment in between (and, for one body, every motion with bounded speed)", "why_tests_cant": "the code only checks sampled instants; the claim is about a continuum of positions between them, for every plan", "anchors": ["mbd/envs/env.py:set_rectangle_obs", "mbd/envs/env.py:set_circle_obs", "mbd/robots/tt2d.py:_step_internal", "mbd/robots/tt2d.py:check_obstacle_collision", "mbd/robots/kinematic_bicycle2d.py:_step_internal", "mbd/robots/n_trailer2d.py:_step_internal", "mbd/planners/mbd_planner.py:run_diffusion"]}
{"id": "C60", "title": "The predefined test scenarios are what their names say", "statement": "get_test_config knows exactly the eight base scenarios and their _demo variants (KeyError for any other name) and returns a configuration that carries its own name, passes within 4 m, allows 300 s, has demonstrations on exactly if its name ends in _demo, uses the vehicle and the preferred driving direction its name says, and otherwise the MBDConfig defaults; each _demo variant differs from its base only in the demonstration flag, name and description; the list functions split the known names (default/demo, kinematic/acceleration) without repetition and the pairs are exactly base and variant; create_demo_variant gives the base or its variant for every kinematic base name, and create_custom_test_config takes each overridden setting from the last override that gives it and everything else from the base (KeyError for an unknown base, ValueError for an unknown setting).", "quantifier": "every string as a scenario name, every setting, every list of overrides", "why_tests_cant": "ranges over all strings and all override lists; the repository's own test of the listings is itself wrong (see C61)", "anchors": ["tests/test_planners/fixtures/test_configs.py:TEST_SCENARIOS", "tests/test_planners/fixtures/test_configs.py:get_test_config", "tests/test_planners/fixtures/test_configs.py:create_demo_variant", "tests/test_planners/fixtures/test_configs.py:create_custom_test_config", "tests/test_planners/fixtures/test_configs.py:list_default_scenarios", "tests/test_planners/fixtures/test_configs.py:get_scenario_pairs"]}
{"id": "C61", "title": "The test runner exits with 0 only if every selected test passed", "statement": "run_tests.py ends with exit code 0 exactly if every test it selected passed (for --single, --demo, --acc, --kinematic, --compare, --all and no option), and an unknown test name given to --single ends with 1; so a successful run means that the scenarios it names have run and passed.", "quantifier": "every command line action, every test name, every behaviour of the individual tests (an arbitrary state of process and machine is threaded through them)", "why_tests_cant": "it is about the runner of the tests itself, for every combination of outcomes", "anchors": ["tests/test_planners/run_tests.py:main", "tests/test_planners/run_tests.py:run_single_test", "tests/test_planners/run_tests.py:run_comparison_tests", "tests/test_planners/test_mbd_planner.py:TestMBDPlanner"]}
{"id": "C62", "title": "A test runs in the environment its configuration describes", "statement": "create_test_tt2d_environment gives a robot of the configured class and parameters whose obstacles are exactly the custom obstacles plus the circles and walls of the test's own lot, on robot and environment alike; it starts with the configured headings, at rest, with its front axle init_dx beside the lowest target of the test's lot and its rear axle init_dy above the entrance of the highest; its goal has the configured headings and lies at the centre of the first target space of the test's lot; and it exists for every parking test whose lot has columns and targets. The target spaces of the fixtures' tight lot are free spaces of that lot.", "quantifier": "every test configuration (settings, obstacles, lot, start and goal)", "why_tests_cant": "for every configuration, including lots and obstacles no shipped test uses", "anchors": ["tests/test_planners/fixtures/test_environments.py:create_test_tt2d_environment", "tests/test_planners/fixtures/test_environments.py:setup_parking_environment", "tests/test_planners/fixtures/test_environments.py:create_tight_parking_config"]}
{"id": "C63", "title": "The verdict of a test is right", "statement": "run_mbd_test returns exactly if planning took no longer than the allowed time, the smaller of the two distances of the final state to the goal (rear axle, middle of the trailer's rear face) lies in the expected range and one of them is within the success distance; otherwise it fails, and it never ends in another way. The saved summary reports the two distances, the number of states and actions, and exactly whether the returned trajectory contains a collision or a hitch violation. A passing test means a safe plan.", "quantifier": "every test configuration with an environment, every random stream, every clock reading, both vehicle classes", "why_tests_cant": "for every trajectory the planner can return", "anchors": ["tests/test_planners/test_base.py:run_mbd_test", "tests/test_planners/test_base.py:validate_test_results", "tests/test_planners/test_base.py:check_trajectory_violations", "tests/test_planners/test_base.py:compute_final_min_distance", "tests/test_planners/test_base.py:save_test_results"]}
{"id": "C64", "title": "Every predefined scenario starts safe, and its kinematic tests always yield a safe plan", "statement": "For every predefined scenario the environment exists and the vehicle starts at rest in a pose free of collision and jackknife. For every kinematic scenario, with or without demonstration, whatever the random numbers, all states of the returned trajectory are safe, and the test passes, reporting no violation, exactly if planning took at most 300 s and the final state is within 4 m of the goal; otherwise it fails. For the acceleration scenarios the verdict is the same and the reported flags are exact.", "quantifier": "all sixteen scenarios, every random stream, every clock reading", "why_tests_cant": "a run shows one random stream; the claim is for all of them", "anchors": ["tests/test_planners/fixtures/test_configs.py:TEST_SCENARIOS", "tests/test_planners/fixtures/test_configs.py:ACC_TEST_SCENARIOS", "tests/test_planners/test_mbd_planner.py:TestMBDPlanner", "tests/test_planners/test_base.py:run_mbd_test"]}
{"id": "C65", "title": "Rounding cannot hide a collision of more than 2 mm or a hitch excess of more than 1 mrad", "statement": "The collision and hitch checks of the tractor-trailer and of the car, computed in single precision (with products contracted into the following sum or not), never miss anything beyond the rounding tolerance: if the collision check reports no collision, then in exact geometry the bodies are clear of every obstacle from whose sides 2 mm (radius: 2 mm) have been taken, so that obstacles entered 2 mm larger than they are can never be touched unnoticed; if the hitch check reports no violation, the hitch angle is at most phi_max + 0.001 rad.", "quantifier": "all vehicle poses with coordinates up to 100 m and angles up to 1000 rad, all vehicle dimensions of 0.1 to 10 m, all sets of obstacles up to 100 m, all arithmetics whose operations are accurate to the last place", "why_tests_cant": "rounding errors depend on the pose; a test samples a few poses, the tolerance must hold for all of them", "anchors": ["mbd/robots/tt2d.py:check_obstacle_collision", "mbd/robots/tt2d.py:check_hitch_violation", "mbd/robots/tt2d.py:check_rectangle_circle_collision", "mbd/robots/tt2d.py:check_rectangle_rectangle_collision", "mbd/robots/kinematic_bicycle2d.py:check_obstacle_collision"]}
{"id": "C66", "title": "Shielded execution in single precision is safe up to the tolerance of the checks", "statement": "When any sequence of actions is executed with both shields on, with steps and checks computed in single precision, from a start that passes the computed checks, every state visited passes them too, and hence is clear, in exact geometry, of all obstacles less 2 mm and within phi_max + 0.001 rad; with obstacles entered 2 mm larger and the hitch limit 0.001 rad tighter, every state visited is safe with respect to the real obstacles and limit. The first part holds for any arithmetic whatsoever.", "quantifier": "all action sequences, all starts from which the plan cannot leave the 100 m range, all accurate arithmetics", "why_tests_cant": "rounding errors accumulate along the run; the claim covers every run", "anchors": ["mbd/robots/tt2d.py:_step_internal", "mbd/robots/tt2d.py:shielded_rollout", "mbd/robots/tt2d.py:tractor_trailer_dynamics", "mbd/robots/kinematic_bicycle2d.py:_step_internal"]}
{"id": "C67", "title": "Rounding raises no false alarm far from an obstacle", "statement": "If, in exact geometry, the bodies are clear of every circle grown by 2 mm and of every rectangle grown by 2 mm plus 0.12 % of (extent of the scene / shortest side in metres), the collision check computed in single precision reports no collision; and if the computed hitch check reports a violation, the hitch angle exceeds phi_max - 0.003 rad.", "quantifier": "all poses, vehicles, obstacle sets and arithmetics as in C65", "why_tests_cant": "as C65", "anchors": ["mbd/robots/tt2d.py:check_obstacle_collision", "mbd/robots/tt2d.py:check_hitch_violation", "mbd/robots/kinematic_bicycle2d.py:check_obstacle_collision"]}
{"id": "C68", "title": "The computed trajectory follows the exact motion law", "statement": "A step of the tractor-trailer or of the car, computed in single precision, either leaves the state where it was (only with a shield on) or agrees with the exact motion law for the action cut to [-1,1]: position within 0.04 mm + 0.003 ms*vmax, tractor heading within 0.00002 rad + 0.00002 s*vmax, trailer heading within 0.00002 + 0.0001 s*vmax rad. Hence the computed trajectory of the tractor (of the whole car) after n steps is within n position errors plus dt*vmax*n^2 heading errors of the trajectory that exact motion takes with the executed actions, that is the given ones with the refused ones replaced by standing still; and an action whose exact successor is clear of everything by the slack of C67 and the shift of one computed step is executed, not refused.", "quantifier": "all states with headings up to 30 rad and positions up to 100 m, all actions, all action sequences, all vehicles and obstacle sets in range, all arithmetics with the stated error bounds, every shield setting", "why_tests_cant": "tests compare a few states with tolerances chosen after the fact; the bound has to hold at every state and to add up over every sequence", "anchors": ["mbd/robots/tt2d.py:tractor_trailer_dynamics", "mbd/robots/tt2d.py:input_scaler", "mbd/robots/tt2d.py:step", "mbd/robots/kinematic_bicycle2d.py:step"]}
{"id": "C69", "title": "Running the planner script plans safely from a sound start", "statement": "Running mbd/planners/mbd_planner.py with an edited MBDConfig builds the robot of the class, the sizes, limits, weights and switches the configuration names, with the obstacles of the configured scenario and nothing else; it succeeds for every known robot class in both scenarios. In the parking scenario the start is the documented one (3 m right and 5 m above the entrance of the target space; 25 m and 15 m for several trailers; the reversed start for motion preference -2) and the goal is the target space, turned round when parking backwards is asked for. With the default lot and vehicle that start is a safe pose at rest, whatever the other settings; with the shields on and neither projection nor guidance every state returned is safe for the tractor-trailer, the car and rigs of any number of trailers; for the acceleration-controlled vehicle the run returns H+1 states and H controls and does not move in its first step. The goal it sets is a pose the vehicle can stand in.", "quantifier": "all configurations, all robot classes, any number of trailers, all random numbers", "why_tests_cant": "the script is run with a handful of configurations; which robot, start and goal result, and that nothing unsafe is returned, must hold for every edit of the configuration and every seed", "anchors": ["mbd/planners/mbd_planner.py:__main__", "mbd/planners/mbd_planner.py:MBDConfig", "mbd/envs/__init__.py:get_env", "mbd/robots/tt2d.py:set_init_pos"]}
{"id": "C70", "title": "The recipes of README.md give working setups", "statement": "The recipe 'Select via MBDConfig' builds the robot class named in the configuration, with its scenario, number of trailers, time step and horizon, for every listed class; followed by the recipe for start and goal, the robot starts 2 m right of and 1 m above the entrance in a safe pose, at rest, is asked to reach the target space, and planning returns safe states only (tractor-trailer, car, any number of trailers). Changing 'target_spaces' makes the first of them the goal. The other settings in the configuration reach the robot; the quick start plans a motion; the chosen target space is free.", "quantifier": "all configurations, all robot classes, any number of trailers, all choices of target spaces, all random numbers", "why_tests_cant": "the README's snippets are not run by any test; that they work must hold for every configuration the reader puts in", "anchors": ["README.md", "mbd/envs/__init__.py:get_env", "mbd/envs/env.py:get_default_init_pos", "mbd/robots/tt2d.py:set_init_pos"]}
{"id": "C71", "title": "The example script plans in the scene it describes", "statement": "tests/test_mbd.py builds the acceleration-controlled vehicle with a horizon of 50 steps of 0.25 s, exactly its five rectangles and four circles as obstacles, a start at (-10, 5) at rest and a goal at (5, -5) at rest, and this setup never fails. The start is a safe pose; planning returns 51 states and 50 controls for all random numbers, beginning with the start, which is not left in the first step. The goal is a safe pose, and the start lies in the 32 m by 32 m area.", "quantifier": "all random numbers", "why_tests_cant": "one run of the example shows one plan; whether its start and goal are poses the vehicle can be in is a statement about all points of its body and of nine obstacles", "anchors": ["tests/test_mbd.py:main"]}
{"id": "C72", "title": "The result file of the hyperparameter search tells what was searched", "statement": "After a search, save_results writes a file that lists exactly the trials of that search in order, with the values tried and the statistics they gave, names the first trial with the highest score, counts the trials and records the configuration searched; no other file changes, and if anything goes wrong no file changes at all.", "quantifier": "all base configurations, sampler choices, process histories, numbers of trials, evaluation statistics and file systems", "why_tests_cant": "Sampler, timeouts and process history are unbounded; a search takes hours.", "anchors": ["tests/tune_mbd.py:DiffusionOptimizer.save_results,_config_to_dict,run_optimization,main"]}
{"id": "C73", "title": "The result files of the integration tests tell what was run", "statement": "A passing test leaves <name>_result.json and <name>_arrays.npz: the configuration it ran, the returned plan and trajectory, the two distances of the final state to the goal, the timing report and exactly the collisions and hitch violations of the trajectory. No other file changes; tests with different names never share a file; failing runs change nothing, and a write that fails makes the test end with that error and damages at most its own two files. After a successful suite every test it ran has its two files from that suite. A result file is the latest run's.", "quantifier": "every configuration, random numbers, clock readings, git answer, point where writing fails, directory contents, suite of test methods and session of any number of runs", "why_tests_cant": "these are the files of the tests themselves; what they hold after any history of passing, failing and interrupted runs ranges over all histories and all trajectories", "anchors": ["tests/test_planners/test_base.py:run_mbd_test", "tests/test_planners/test_base.py:save_test_results", "tests/test_planners/test_base.py:compute_final_min_distance", "tests/test_planners/test_base.py:get_git_commit", "tests/test_planners/run_tests.py"]}
{"id": "C74", "title": "What the sampling temperature does to the plan", "statement": "With no demonstration configured, the planner's sampling temperature interpolates between following the best sampled plan and averaging all of them, independently of the unit of the rewards: the weights of two samples differ by the factor exp(reward difference / (standard deviation of the rewards x temperature)); if one sample leads all others by d, every command of the denoised plan is that sample's executed command up to 2(n-1)exp(-d/(spread x temperature)), and as the temperature goes to 0 its weight goes to 1; if all rewards lie between lo and hi, the denoised plan is the plain average of the executed plans up to exp((hi-lo)/(spread x temperature)) - 1; multiplying all rewards by a positive constant and adding another leaves all weights unchanged (as long as the spread stays above 1/10000).", "quantifier": "every class of robot, environment, configuration with a positive temperature, noise draw, number of samples and horizon, every denoising step", "why_tests_cant": "the bounds hold for every set of rewards and temperature; a test sees a handful of sampled rewards and one temperature", "anchors": ["mbd/planners/mbd_planner.py:run_diffusion.reverse_once", "mbd/planners/mbd_planner.py:MBDConfig.temp_sample"]}
{"id": "C75", "title": "What the statistical evaluation script reports", "statement": "The script tests/stat_mbd.py plans with 20000 samples, 50 steps of 0.25 s, 100 denoising steps and temperature 1e-5 for the one-trailer truck with both shields in its parking lot. Started in a process in which nothing was planned since the last clearing of the JIT cache, it reports, whatever the random numbers, a collision rate and a jackknife rate of exactly 0, as successful exactly the trials ending within 4 m of the target, the success rate over the 100 requested trials even if fewer starts were found, and a heat map showing every start once, green iff successful. Every trial is planned as if no cache existed; its trajectory starts at the sampled start and is free of collisions and jackknifing throughout, and its error is the distance from the target to the rear axle or the trailer's rear, whichever is less. The report does not depend on what the process did before; if no sampled start is accepted the script ends with an exception.", "quantifier": "every random number generator of numpy and of jax, every planner-internal projection and guidance function, every earlier history of the process that ends cleared", "why_tests_cant": "the zero rates hold for every possible outcome of the random search over 100 trials of 20000 samples; a run is one seed on one machine", "anchors": ["tests/stat_mbd.py:main", "tests/stat_mbd.py:run_statistical_evaluation", "tests/stat_mbd.py:sample_initial_conditions", "tests/stat_mbd.py:create_heat_map"]}
{"id": "C76", "title": "Mirror invariance", "statement": "Reflect a planning task in the x-axis: start and goal pose, circular and rectangular obstacles, and the sign of every steering draw of the noise. Then for each of the four vehicle classes the planner returns the reflected plan: the same longitudinal commands, the opposite steering commands, the same reward and the reflected trajectory; no class favours left over right. Every step is stopped by the shields exactly when its mirror image is and earns the same reward, with the shields on or off and with any motion preference. With demonstrations on, the demonstration generated for the reflected task is the reflected one (headings up to whole turns; an exception in one world is the same exception in the other), and with guidance on, the guidance cost and its gradient are reflected, so that the plans still correspond.", "quantifier": "every task, obstacle set, configuration, number of trailers, noise and schedule; bodies at least 0.1 mm long and wide; projections that are themselves symmetric", "why_tests_cant": "a sign error that favours one side shows only for particular poses, obstacles and noise; the claim ranges over all of them and over whole searches", "anchors": ["mbd/planners/mbd_planner.py:run_diffusion", "mbd/robots/tt2d.py:_step_internal,get_reward,check_obstacle_collision,generate_demonstration_trajectory,_guidance_function", "mbd/robots/n_trailer2d.py:n_trailer_dynamics", "mbd/robots/acc_tt2d.py:_check_safety_with_rollout", "mbd/robots/kinematic_bicycle2d.py:_step_internal"]}
{"id": "C77", "title": "The Weights & Biases record of a hyperparameter search", "statement": "With use_wandb=True a search opens one run with the settings of the base configuration, logs exactly one row for each completed trial - in order, with the trial's number, its two hyperparameters, the statistics of its evaluation and a heat map showing each evaluated start in green or red by its own outcome - and at the end one row that counts the trials and names the first trial with the highest score. Recording a search changes neither its results, nor the study, nor the result file, nor any exception. If an evaluation raises, the rows of the earlier trials stay and neither a row for the failed trial nor a summary is logged; the script then leaves the run open and writes no file. Pictures of different trials have different keys.", "quantifier": "every base configuration, sampler, noise, number of trials and evaluations, and every history of the processes; the content of the rows for one-trailer configurations without demonstration", "why_tests_cant": "a row carrying the values of another trial, a skipped row or an upload that disturbs the search shows only for particular scores and failures; tests run without the service", "anchors": ["tests/tune_mbd.py:DiffusionOptimizer.__init__,create_heat_map,objective_function,run_optimization,main", "tests/stat_mbd.py:create_heat_map_visualization"]}
{"id": "C78", "title": "Obstacles out of reach, their order and their repetition do not matter", "statement": "A plan depends only on the set of obstacles the vehicle can reach. Two scenes with the same vehicle, start, goal and seed whose obstacle lists agree on every obstacle with a point within (Hsample+1) steps at full speed plus the vehicle's extent of the start - for the acceleration class plus one second at full speed for each step of the braking lookahead - give the same result: controls, reward, trajectory and every diffusion iterate. What lies farther away is irrelevant, and so are the order in which obstacles are listed and repetitions of one. The extent is at most the sum of the vehicle's dimensions, in every pose.", "quantifier": "every vehicle and scene, start, noise, planner configuration and score function of the demonstration; far obstacles for the shielded or unshielded simulator without projection and guidance, order and repetition in every mode for a fixed guidance function (the code's guidance cost ignores order but charges repeated circles)", "why_tests_cant": "an obstacle that leaks into the plan from afar, or a list position that matters, shows only for particular pairs of scenes; equality of whole plans over all noise is a statement about pairs of runs", "anchors": ["mbd/robots/tt2d.py:TractorTrailer2d.check_obstacle_collision,step", "mbd/robots/kinematic_bicycle2d.py:KinematicBicycle2d.check_obstacle_collision,step", "mbd/robots/n_trailer2d.py:NTrailer2d.check_obstacle_collision,step", "mbd/robots/acc_tt2d.py:AccTractorTrailer2d._check_safety_with_rollout,step", "mbd/planners/mbd_planner.py:run_diffusion"]}
{"id": "C79", "title": "Plans do not depend on the units of length and time", "statement": "Expressing a kinematic planning problem in other units changes nothing but the units. If every length of the vehicle, the obstacles, the start, the goal and the reward thresholds is multiplied by l, the time step by tau, the speed limit by l/tau and the weight of the motion preference (charged per unit of speed) by tau/l, then for the same seed and planner settings the planner returns the same normalised controls, the same reward and the same diffusion iterates, and the same trajectory in the new units: positions multiplied by l, headings unchanged.", "quantifier": "every l > 0 and tau > 0, vehicle and scene of realistic size in both units (tractor-trailer, bicycle, n-trailer), start, noise, planner configuration, with or without shields; projection and guidance off", "why_tests_cant": "a hard-coded absolute distance or speed somewhere in dynamics, collision geometry or reward shows only for particular scales and scenes; the claim compares whole plans for every scale and all noise", "anchors": ["mbd/robots/tt2d.py:TractorTrailer2d.step,get_reward,check_obstacle_collision", "mbd/robots/kinematic_bicycle2d.py:KinematicBicycle2d.step,get_reward", "mbd/robots/n_trailer2d.py:NTrailer2d.step,get_reward,get_last_trailer_position", "mbd/planners/mbd_planner.py:run_diffusion"]}
{"id": "C80", "title": "Removing obstacles never hurts; untouched obstacles do not matter", "statement": "Take obstacles away from a scene. With the collision shield off, rolling out the same controls visits the same states with the same applied controls, and the total reward never gets smaller. With the shields on or off, if the run among the remaining obstacles stays clear of the removed ones (at the start and in every visited state), then the run in the full scene visits exactly the same states with the same applied controls: an obstacle has an effect on the motion only if it is touched.", "quantifier": "every vehicle (tractor-trailer, bicycle, n-trailer), scene, subset of its obstacles, start, control sequence and combination of shields; projection and guidance off", "why_tests_cant": "a collision check whose verdict depends on the number or mix of obstacles (a wrong reduction, an early exit, a parity) shows only for particular scenes; the claim compares two scenes along runs of any length", "anchors": ["mbd/robots/tt2d.py:TractorTrailer2d.step,check_obstacle_collision,shielded_rollout", "mbd/robots/kinematic_bicycle2d.py:KinematicBicycle2d.step,check_obstacle_collision", "mbd/robots/n_trailer2d.py:NTrailer2d.step,check_obstacle_collision", "mbd/utils.py:rollout_us,rollout_us_with_terminal"]}
