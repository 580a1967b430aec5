# Formal model of safe-mpd in Rocq (Coq 8.16.1)

## Approach

The Python classes are modelled as total Gallina functions over `R` (Coq.Reals),
`Z`, `nat`, `bool`, `list` and records.  One model file per source file area;
each definition cites the lines it models.  Exceptions are values
(`Res A := Ok | Err exn`).  Everything random or external (JAX PRNG, SciPy's
optimiser, automatic differentiation, ffmpeg, wall clock) is an argument of the
model function, so theorems hold for every behaviour of it.

Layers:

* `Base`      – reals, clipping, `where`, Python modulo, vectors, lists.
* `Params`    – constructor attributes of the robots, obstacles.
* `EnvModel`  – `mbd/envs/env.py`.
* `Geom`      – corners, rectangle/circle and rectangle/rectangle checks.
* `TT2d`, `Bicycle`, `NTrailer`, `Acc` – dynamics, checks, rewards, `_step_internal`.
* `Rollout`, `Planner` – `mbd/utils.py` rollouts and `run_diffusion`.
* `Demo`, `Setup`, `Config`, `Cache`, `Projection`, `Guidance`, `Stats`, `Anim`.
* `Spec*`     – small independent vocabulary used in theorem statements
  (point sets, hitch limits, trajectories), no reference to model helpers.
* `Proofs*`   – lemmas;  `Prop*` – the property theorems only.

## Simplifications (global)

* float32/float64 arithmetic is modelled by exact reals: rounding, NaN and
  infinities are not represented.  `jnp.isfinite` guards are therefore identity.
* JAX tracing/compilation is modelled only in `Cache`; elsewhere a jitted
  function is the function.
* Logging and printing are not modelled; of rendering, what is drawn where and which files are written (`Anim`).

## Plan per property

| id | how modelled | how proved |
|----|--------------|------------|
| C01-C03 | step of each kinematic class, rollouts, whole planner | invariant by induction over the action list; checks tied to point-set geometry |
| C04-C05 | corner construction + SAT / closest point on edge | real geometry, zonotope argument for completeness |
| C06 | wrap to [-pi,pi) via floor | uniqueness of representative; induction over trailers |
| C07,C15,C26 | rollouts and replay | induction over actions; zero action is a fixpoint |
| C08,C10,C11 | clip; convex combination | convexity of weighted means |
| C09,C12,C13,C14,C39 | schedule, softmax, reverse step | algebra on reals, induction on lists |
| C16-C19 | reward formulas | inequalities, periodicity |
| C20,C21 | dynamics | derivative-free: velocity of axle point computed by chain rule, checked with Coquelicot-free algebra; displacement by norm of (cos,sin) |
| C22-C25 | acceleration robot | induction on steps; `_refuted` witnesses where false |
| C27-C34 | env, setters, factories | div/mod arithmetic, induction over call sequences, case analysis |
| C35-C37 | demo generator | arithmetic on point counts |
| C38 | state machine of caches | invariant over histories |
| C40,C41 | oracle-parametric | case analysis |
| C42-C44,C46 | loops | induction |
| C45 | rigid motions (SpecSym.v); Demo.v and Guidance.v for the with-demonstration theorems | equivariance by induction (ProofsFrame.v); way-points, sampling and headings commute with translations (ProofsFrameDemo.v) |
| C47 | drawn patches, frame loop, marks | drawn point sets = bodies of the checks; C04/C05 for the marks |
| C48 | wheel lists across animations | induction over the list of animations |
| C49 | progress videos, name sorting, merge | sorted permutation is unique; string order of padded numbers |
| C50 | clock readings and timing report of a run | arithmetic over the ordered readings |
| C51 | benchmark loop over the cached runs, np statistics | invariants: after one run nothing changes any more (fixed point of the process state); sorting |
| C52 | scenario loop, demonstration length check | invariant on the stored reverse_once and its object; induction over the configurations |
| C53 | tuner: configuration of a trial, objective, search loop, best trial | cached trials equal uncached ones (C36/C44), induction over the search |
| C54 | render of all classes, picture of a plan, printed layout | membership in the generated lists, interval arithmetic on lines; string positions by induction |
| C55 | heat map loop, evaluation with heat map, progress markers | induction over the results with an invariant on the environment; a generator whose every draw collides |
| C56 | Planner, Rollout | refinement: each model function shown equal to the relational description in SpecDiffusion; the relation is functional (nearest point, maximum and execution are unique) |
| C57 | EnvModel, Setup | case analysis on the class; point-set separation of all bodies from all obstacles |
| C58 | the shielded step and rollout models of C01; no new model code | geometry: coordinates of the disc centre in the moving body frame change by at most axle motion plus heading change times lever arm, while passing from more than r outside to more than r inside needs 2r; motion limits by a second-order bound on the rotating drawbar (mean value theorem); induction along the rollout |
| C59 | the obstacle setters (EnvModel, Setup), the shielded steps and run_diffusion of the three kinematic classes | padding as a neighbourhood of the listed area; Lipschitz bound of every body point in the fraction of the step (chord bound, induction along the trailer chain); every in-between position is within the padding of one of the two rows, both of which are clear by the shield invariant; discs by the no-swallowing lemma |
| C60 | the scenario tables and accessors of test_configs.py (Harness) | the table as a list, case analysis over its entries; string lemmas for suffixes and removal; induction over the override list |
| C61 | the unittest methods, the suites and main (Harness) | induction over the suite with the state threaded through; evaluation of the selected names |
| C62 | setup_parking_environment and create_test_tt2d_environment (Harness) over Env, get_env and the setters (EnvModel, Setup) | inversion of the construction, then the setter theorems of C29, C33 and C57 |
| C63 | run_mbd_test and its checks (Harness) around run_diffusion (Planner) | the scan as an existential over the states; shape of the planner's output; geometry of the trailer's rear face |
| C64 | the scenario tables, the test environment and run_mbd_test (Harness) with the shielded step and run_diffusion | common facts of the sixteen table entries; safety of every level pose above the lot; then C01 and C63 |
| C65 | Float.v: every operation of the checks as a function of an abstract arithmetic; FloatSingle.v: IEEE single precision from Flocq | forward error analysis of corners, projections and closest points; the separating-axis argument needs only that the computed axis is almost a unit vector |
| C66 | Float.v: fl_tt_step, fl_tt_run, fl_bk_step, fl_bk_run | invariant of the run: the last accepted state passes the computed checks; C65 turns the check into geometry; motion bound by error analysis of one Euler step |
| C67 | as C65 | direction error of the computed axes, then the exact separating-axis theorem on the grown obstacle |
| C68 | the computed step (Float.v: scaler, dynamics, Euler update, shield) and the exact motion law of SpecDyn.v | forward error analysis of one step (sine, cosine and tangent are Lipschitz), induction over the actions for the drift, C67 for the shield's answer on a state moved by the errors |
| C69 | the main block of mbd_planner.py before run_diffusion (Recipes.v: main_args, script_setup) over the setters and get_env of Setup.v, run_diffusion of Planner.v | the setters change start and goal only; the lot leaves a zone free in which the three starts lie (any number of level trailers); C01 for the returned states, C23 for the first step |
| C70 | the snippets of README.md (Recipes.v: readme_setup, readme_start_goal, readme_targets) | C33 for the class and the parameters, the free zone of C69 for the start; for the quick start, every pose one step away from the default start still overlaps the wall (bounds on one Euler step), so the shield undoes every step |
| C71 | tests/test_mbd.py before run_diffusion (Recipes.v: example_config, example_setup) | evaluation of the setters; extents of turned rectangles for the start; a point of the tractor's outline for the goal |
| C72 | `TuneSave.v`: search object with its result list, study, `save_results`, `_config_to_dict`, `main`; a file system of saved records | from the search theorem of C53; the numbering of trials; first maximum of the score list by induction |
| C73 | `HarnessSave`: the result directory, `save_test_results` with its four failure points, `run_mbd_test` with files, the runner carrying the directory | case analysis of one run; induction over suites and sessions |
| C74 | Planner.v (log_scores, evaluate_samples, reverse_once) and Instances.v (the four classes); SpecTemp.v gives deviation, leads, between, within. | ProofsTemp.v: ratio of softmax weights; weighted averages with small weights elsewhere or nearly equal weights; affine invariance of mean and deviation; exp(-y) < 1/y for the limit. |
| C75 | StatMain.v: the configuration of main, run_statistical_evaluation with the process-wide JIT cache and the heat map drawn with the last environment; the rest from Stats.v, CacheInst.v, Picture.v. | ProofsStatMain.v: evaluation of the configuration; the cached trial loop equals the uncached one (C38); zero rates from C42, the heat map from C55, the trajectories from C01, C43. |
| C76 | The same model functions as C45 and C35: TT2d.v, Bicycle.v, NTrailer.v, Acc.v, Planner.v, Demo.v, Guidance.v; the reflection itself is defined in SpecMirror.v. | ProofsMirror.v: reflected boxes have the same corners in another order, distances and separating axes do not see it; steps, rollouts, evaluation and the reverse loop commute with the reflection. ProofsMirrorDemo.v: way-points, sampling, headings up to turns (C17), scores, guidance cost and gradient. |
| C77 | TuneWandb.v: create_heat_map, objective_function and run_optimization with logging, __init__, main; a row is a list of keys and values, the run a list of calls; whether wandb.Image(None) is accepted is a parameter. Reuses Tune.v, TuneSave.v, Picture.v. | ProofsTuneWandb.v: the loop with logging refines the loop of C53; each evaluation that succeeds has a trial environment, so its heat map is drawn (C55); rows follow by induction over the trials. |
| C78 | TT2d.v, Bicycle.v, NTrailer.v, Acc.v, Planner.v; SpecReach.v: obstacles near a point, lists that name the same obstacles near it, extent of a vehicle. | The displacement bound (C21) gives an invariant on the distance from the start; on states satisfying it both environments take the same step, because a body hit by an obstacle (C04, C05) is within its extent of the reference point; the planner is then followed step by step. |
| C79 | TT2d.v, Bicycle.v, NTrailer.v, Planner.v; SpecUnits.v: a change of units for points, parameters, states, obstacles and scenes. | The plain dynamics, the bodies, the goal distance, the reward and the preference penalty commute with the change of units; collision verdicts agree because they are exact (C04, C05) and the bodies are scaled copies; the two environments are then in lockstep and the planner is followed step by step. |
| C80 | TT2d.v, Bicycle.v, NTrailer.v, Rollout.v; clearance is SpecBodies.v. | A collision verdict among fewer obstacles implies the verdict among all; a rejected step is rejected in both scenes and an accepted one ends in a visited state, which is clear by hypothesis (C04, C05). Induction along the run. |

## Trusted base

* Coq 8.16.1's kernel (and `vm_compute`, used for closed computations on strings, integers and lists).
* Axioms reported by `Print Assumptions` (each `Prop*.v` file ends with a `Print Assumptions` for its theorems; the
  build log lists them). They are all from the standard library:
  `ClassicalDedekindReals.sig_forall_dec`, `ClassicalDedekindReals.sig_not_dec`,
  `FunctionalExtensionality.functional_extensionality_dep`, `Classical_Prop.classic`.
  The theorems without real numbers (configuration, files, caches on abstract data) mostly use none of them or only
  `classic`. `Coq.Reals` itself introduces `R` through sealed modules of the standard library (`RbaseSymbolsImpl`,
  `RinvImpl`); no axiom, parameter, functor or module type is declared in this development.
* The reading of the Python source into the model files. Every definition of `Base, Params, EnvModel, Geom, TT2d,
  Bicycle, NTrailer, Acc, Rollout, Planner, Demo, Setup, Config, Projection, Guidance, Stats, Cache, CacheInst, Anim,
  Bench, Tune, TuneSave, Picture, Harness, HarnessSave, Recipes, StatMain, Float` carries the lines it models and its simplifications.
* Real arithmetic in place of float32/float64 (no rounding, NaN, infinities) everywhere but in `Float.v`. `C01` etc. are
  claims about exact arithmetic; a float implementation can violate them by rounding. `C65`-`C68` are the bridge for the
  tractor-trailer's and the car's collision and hitch checks and their unguided (hard or no shield) steps: there every
  operation carries a relative error `u` (and an absolute error `eta` for subnormal results), and `FloatSingle.v` shows
  that IEEE binary32 round-to-nearest, as defined by Flocq, is an instance. Assumed there: matrix products are done in
  float32 or better (no TF32/bfloat16), fused multiply-adds round once (both contractions are allowed), `sin`, `cos`
  have a given absolute error, no NaN or overflow occurs, and obstacles and states are the float32 numbers stored.
  Flocq adds no axiom of its own: `Print Assumptions` lists the standard library's above.

## What is modelled, what is not

Modelled: `mbd/envs/env.py` (parking lot, obstacle lists, setters), the four robot classes (dynamics, checks, rewards,
shield, backup manoeuvre, setters, demonstration path, constructor dispatch), `mbd/planners/mbd_planner.py`
(configuration, schedule, reverse diffusion, demonstration weighting, final rollout, caches), `mbd/utils.py` rollouts,
animations and files, `tests/stat_mbd.py` (sampling, trials, aggregates, progress videos), `tests/tune_mbd.py` (configuration,
objective, search loop, result file; Optuna's sampler is arbitrary, its plots are not modelled),
`tests/test_planners` (`Harness`: scenario tables, test environment, verdict, runner; `HarnessSave`: its result files; not its log nor its
pictures), `mbd/scripts/benchmark_diffusion.py` as far as said in `Bench.v`, and the main block of `mbd_planner.py`, the
snippets of `README.md` and `tests/test_mbd.py` (`Recipes`: what they set up and hand to the planner).

Arbitrary in the model (the theorems hold for every value): random draws, SciPy's optimiser (`Projection`), gradients
of the guidance cost (`Guidance`), ffmpeg's outcome and the point where saving pictures fails (`Anim`), clock readings
(`Stats`, `Bench`).

Assumed about JAX (`Cache`): a jitted method is traced once per (object, static arguments); a trace reads the object's
attributes at trace time, together with those read by the methods it calls; clearing the module-level cache drops the
functions held there, not what is compiled for an object. Classes may be mixed in one process
only as far as their states have the same shape (in the model: the same type); JAX would retrace for another shape.

Not modelled: floating point other than in `Float.v`, device placement, multi-process effects, matplotlib beyond the drawn patches, lines,
markers and space numbers (other colours, legends, titles), the W&B service (which calls are made with which values is C77), Docker files.

## Statements

`Spec*.v` holds the vocabulary of the statements: regions and solid/outline point sets (`SpecGeom`, `SpecBodies`),
motion of axles with derivatives (`SpecMotion`, `SpecDyn`), plans and weights (`SpecPlan`), rewards (`SpecReward`),
environments and setters (`SpecEnv`), configuration (`SpecConfig`), caches (`SpecCache`, `SpecMix`), commands and their limits (`SpecInput`), projection, guidance,
statistics, demonstration, pictures, the search's result file (`SpecProj`, `SpecGuid`, `SpecStats`, `SpecDemo`, `SpecAnim`, `SpecTuneSave`, `SpecHarnessSave`), the temperature (`SpecTemp`). `Prop*.v` are
generated by `tools/genprops.py` from lemmas `l_Cnn_*` of `Proofs*.v` (a theorem of the same statement, proved by the
lemma); `x_Cnn_*` become Examples: concrete cases that meet the hypotheses.

Names: `_partial` is a weaker part of the property; `_refuted` proves that the property, or a reading of it suggested by
names and comments in the code, is false of the modelled code (the doc comment says which).

## Findings (each is a theorem)

| theorem | what the code does |
|---------|--------------------|
| `C05_swallowed_circle_refuted` | a circular obstacle lying strictly inside the body is not reported: the default trailer (2.5 m wide, 4.645 m long) standing over a circle of radius 1 m passes the check although its centre is inside the trailer. |
| `C07_acc_refuted` | reversing towards an obstacle, the step reports the stopping command although the vehicle was not braked; re-executing the reported action gives a different state. |
| `C11_acc_refuted` | the acceleration class ignores strict preferences for the direction of motion: started at 1 m/s forward with preference -2, its first step goes 0.2 m forward, for every noise draw. |
| `C16_bk_goal_state_not_optimal_refuted` | C16, what does not hold for the bicycle: its goal state is a wheelbase away from optimal under every preference. |
| `C16_tt_goal_state_not_optimal_refuted` | C16, what does not hold: with the tractor tracked the goal state itself is not optimal. Its front axle is a wheelbase away from the goal position, so its terminal reward is the score at distance l1, less than 1, while the state shifted back by the wheelbase has reward 1. |
| `C19_nt_refused_command_charged_refuted` | an N-trailer whose reversing command is refused stays where it is, reports the zero action, and is still charged the preference penalty of the refused command. |
| `C20_nt_drawn_trailer_slips_refuted` | the second trailer's axle as the collision check (and the drawing) places it slips sideways under the code's own dynamics. |
| `C20_nt_last_axle_positions_disagree_refuted` | with two or more trailers the three places of the code that locate the last trailer's axle disagree: the dynamics roll about an axle hitched lh behind the previous axle, the collision check places the body lh behind the previous body's rear face, and the reward uses a hitch lf in front of the previous axle. Straight train, default sizes. |
| `C23_reverse_never_brakes_refuted` | reversing slowly and commanding a stop, the vehicle is kept at its speed by the shield step after step, into and through an obstacle, for any number of steps. |
| `C23_shield_too_late_refuted` | from a safe start at speed the next state overlaps an obstacle whatever is commanded, so no plan returned by run_diffusion is safe. |
| `C24_stored_speed_refuted` | the speed stored in the state is not limited: n steps of full acceleration give n*a_max*dt, beyond any bound. The vehicle then needs longer to brake than its actual speed suggests. |
| `C25_prediction_does_not_stop_refuted` | the predicted manoeuvre is not a stopping manoeuvre. It keeps the first braking acceleration for one-second steps, so from 0.5 m/s (default limits) the predicted vehicle shoots through zero and then accelerates backwards: -1.5, -3.5, -5.5 m/s. |
| `C26_acc_moving_start_refuted` | with initial speed 1 m/s the first row of every scored plan is the state after two time steps (0.4 m), while executing the plan reaches 0.2 m. |
| `C27_plot_limits_harmless_refuted` | After set_plot_limits ("for visualization") the reported centres move, the obstacles do not: in the default lot the reported centre of occupied space 1 then is not an obstacle. |
| `C27_unpainted_number_rejected_refuted` | Numbers that are not painted on the lot are accepted too, and give a point outside it. |
| `C28_empty_world_is_free_refuted` | An environment without obstacles is not obstacle free: a circle of radius 0 at the origin is inserted, and a pose whose outline touches the origin is reported as a collision. |
| `C29_default_start_safe_refuted` | The default start of the shipped parking scenario overlaps the upper wall: the robot built by get_env with default arguments starts in collision. |
| `C29_dx_is_front_face_distance_refuted` | The keyword dx is documented as the distance to the tractor's front face, but the front overhang is not included: with lf1 <> 0 the front face is off by lf1*cos(theta1). |
| `C29_first_target_is_reference_refuted` | the start is measured from the lowest target number, not from the first listed one (documented as the tractor's target). |
| `C29_goal_speed_kept_refuted` | A call of set_goal_pos on an acceleration-controlled robot that gives only a heading resets a previously requested goal speed. |
| `C30_constructor_start_kept_refuted` | A six-component start passed to the acceleration-controlled constructor becomes an eight-component one. |
| `C30_unknown_case_rejected_refuted` | A case name that is neither scenario is accepted when an Env object is passed; the robot then has no start and no goal. |
| `C31_environment_update_reaches_robot_refuted` | Setting obstacles directly on the environment object does not reach the robot. |
| `C31_left_top_rotated_corner_refuted` | With a rotation, the given (x, y) of a left-top rectangle is not one of its points in general: the conversion ignores the rotation. |
| `C33_negative_trailers_rejected_refuted` | A negative trailer count is not rejected for tt2d: it gives the one-trailer class. |
| `C34_defaults_are_those_of_the_dataclass_refuted` | The dataclass itself has different defaults: for these eleven fields an omitted key does not give the value that MBDConfig() has. |
| `C34_every_field_copied_refuted` | num_trailers, verbose and frame_skip in the dictionary are silently ignored. |
| `C34_text_false_is_false_refuted` | A flag given as the text "False" is switched on. |
| `C35_one_row_detour_fails_refuted` | with one row and a two-leg path the call raises ValueError. |
| `C35_three_rows_miss_the_goal_refuted` | with three rows the demonstration may stop at the corner and never reach the goal. |
| `C35_two_rows_miss_the_start_refuted` | with two rows and a two-leg path the start is missed: the first row is the corner. |
| `C36_thin_obstacle_missed_refuted` | the clearance samples step over a thin obstacle, and the demonstration built from the 'clear' line has a row inside it. |
| `C37_reference_itself_scores_negative_refuted` | ... but not with any other preference: there the trailer axle, not the tractor, is held against the reference positions, so the reference does not score 0 against itself. |
| `C38_tt_reused_object_refuted` | a TractorTrailer2d that was planned once is planned again after its start was set to x0', its goal to xg', its obstacles to circ', rect' and after a clear_jit_cache(): the result is the old one, for the old start, goal and obstacles. |
| `C40_acc_projection_safe_refuted` | the claim of safety for the acceleration vehicle. Same post, speed 3 m/s, no acceleration requested: the projection evaluates the vehicle as if standing still. |
| `C40_feasible_command_safe_refuted` | the claim "a command whose constraints hold leads to a safe next state". The constraints look at the Runge-Kutta prediction, the vehicle is moved by the Euler step: for every car, pose and turning command there is a post for which all constraints hold strictly and the car hits it in that very step. |
| `C40_gap_is_distance_refuted` | the gap is not the distance: two unit squares diagonally apart are sqrt 2 apart but the gap says 1. |
| `C40_tt_projection_safe_refuted` | the claim "with projection on and a perfect optimiser the tractor-trailer never enters an obstacle". The default vehicle starts clear of a post ahead, asks to drive straight on, the perfect optimiser finds the command admissible, and the front of the tractor is inside the post after the step; the step's reward is not even reduced (the collision flags are constants in this mode). |
| `C41_rectangle_avoidance_refuted` | the claim "guidance moves a vehicle that touches an obstacle". A trailer standing in the middle of a rectangular obstacle is left exactly where it is. |
| `C41_returned_trajectory_is_motion_refuted` | the claim "the trajectory returned with guidance on is a motion of the vehicle". Whatever the commands, a vehicle 150 m from the origin is put back to 100 m in one step. |
| `C41_safe_state_kept_refuted` | the claim "guidance keeps a state that is safe". A vehicle in free space that has turned by more than a full turn gets its heading changed: the window is imposed on the raw angle. |
| `C42_inner_jackknife_reported_refuted` | a trial that ends with the second trailer folded by two radians counts as a success. |
| `C42_success_rate_is_fraction_of_trials_run_refuted` | With fewer valid starts than requested trials the success rate is not the fraction of the trials run: one successful trial out of one, ten requested, gives 0.1. |
| `C43_configured_vehicle_checked_refuted` | a sampled start can be valid for the default vehicle used by the sampler and collide for the configured one. |
| `C45_guidance_tied_to_origin_refuted` | C45, guidance (finding): the guidance update clips the pose's coordinates into [-100, 100], a box around the world's origin: at zero gradient it leaves a pose at the origin alone but drags the translated pose back, so a plan with guidance is not translation-invariant. |
| `C45_turned_demonstration_refuted` | C45, turned demonstrations (finding): rows before the demonstration's last segment carry the placeholder heading 0 in every world, so unless the angle is a whole number of turns, turning the task never turns such a demonstration. |
| `C46_last_step_refuted` | but the last one (the final plan) only if \|frame_skip\| divides the number of plans minus one. |
| `C47_kinematic_steering_refuted` | C47 fails for the kinematic classes: run_diffusion passes normalised actions, and the drawn front wheel is turned by the normalised component instead of the steering angle that is executed; the two agree only when it is 0 or the steering limit is 1 rad. |
| `C47_nt_wheels_refuted` | C47 fails: with unequal overhangs no trailer wheel is at its axle. |
| `C48_second_animation_refuted` | C48 fails for these classes: a sequence of animations of one object works only if every animation after the first has no frame at all; otherwise IndexError is raised. |
| `C49_failed_trial_refuted` | C49 fails when ffmpeg fails for a trial: the merged video is made without it, and success is reported. |
| `C49_old_videos_refuted` | C49 fails in a directory that still has the progress videos of an earlier, longer evaluation: the merged video continues with the old trials. |
| `C49_thousand_trials_refuted` | C49 fails from 1000 trials on: names are sorted as strings, and the zero padding has three digits (progress_trial_1000 comes before progress_trial_101). |
| `C50_clock_set_back_refuted` | time.time() may be set back during a run: then a negative total is reported. |
| `C52_original_size_refuted` | the configuration called "Original" (commented as the original default) runs 150 denoising levels, the dataclass 100. |
| `C52_shipped_scenario_refuted` | The shipped list has the horizons 30, 40 and 50: the scenario never finishes. |
| `C52_terminal_reward_settings_refuted` | Two of the configuration's values do not reach the environment: the terminal reward threshold and weight are not passed, so get_env's own defaults 10 and 1 apply instead of 20 and 5. |
| `C53_early_stopping_refuted` | Median pruning is configured but never happens: whatever the other trials scored, a trial is never stopped at the only step it reports. |
| `C53_vehicle_kept_refuted` | The number of trailers of the base configuration is lost: a search for a three-trailer vehicle evaluates the one-trailer vehicle. |
| `C54_other_horizon_refuted` | A plan over another horizon than the robot's is computed, but drawing it ends with ValueError, for every class except the bicycle. |
| `C55_no_start_refuted` | If no start is accepted - possible with draws in the documented ranges, for any number of trials - the evaluation reports its statistics, and asking for the heat map ends with UnboundLocalError. |
| `C55_same_rate_refuted` | With fewer starts found than trials requested the rate in the heat map is not the reported one: one success in one trial of ten requested is shown as 1 and reported as 1/10. |
| `C57_default_goal_safe_refuted` | With four trailers the default goal puts the last trailer into the upper wall: no plan can reach it safely. |
| `C58_small_disc_refuted` | C58 fails without the size condition: with both shields on, the default tractor-trailer facing a post of 5 cm radius drives over it in one accepted full-speed step; it then stands on the post and every later check still reports it clear. |
| `C59_no_padding_refuted` | C59 fails without padding: with the collision shield on, a car 0.3 m long at 3 m/s and a time step of a quarter of a second is accepted on both sides of a wall 0.1 m thick and goes through it. |
| `C60_acceleration_override_refuted` | no acceleration scenario can be had this way; every one of them raises KeyError. |
| `C60_custom_visualize_refuted` | the README's way of watching a custom test, visualize=True, changes nothing: rendering stays off. |
| `C61_all_can_pass_refuted` | run_tests.py --all exits with 1 however well the planner does: test_scenario_list_functions expects 10 scenarios of each sort and four test methods name scenarios that are commented out. |
| `C61_unknown_comparison_refuted` | --compare with a name that has no test methods runs nothing and exits with 0. |
| `C62_all_settings_forwarded_refuted` | enable_guidance, enable_projection and num_trailers of a test configuration do not reach the robot. |
| `C62_goal_in_own_lot_refuted` | with its own lot (here the tight lot of the fixtures) a test still aims at the first target space of the default lot, which is no target of its lot; parked there, the vehicle would overlap an obstacle. |
| `C63_passed_means_safe_refuted` | a test passes although every state of its trajectory collides: whatever the random numbers, a vehicle put on the goal inside an obstacle stays there, and only its distance to the goal counts. |
| `C64_start_inside_area_refuted` | the start of parking_enforce_backward sticks out of the 32 m x 32 m area. |
| `C69_backward_goal_safe_refuted` | asked to park backwards (motion_preference -1 or -2), the script sets a goal at which the trailer stands in the wall behind the lot: no safe pose has its trailer there. |
| `C70_chosen_target_free_refuted` | the obstacles of an Env object are placed when it is built and do not follow the edit: the new target, if it was occupied (all of 1 2 4 5 6 7 9 10 12 13 14 15, so also the README's pair [4, 12]), still has its parked obstacles, and the goal pose stands on them. |
| `C70_configuration_reaches_robot_refuted` | settings a user changes in MBDConfig do not reach the robot: a switched-off shield stays on, and with the unedited configuration each of the eleven reward parameters differs from the configured one. |
| `C70_quick_start_moves_refuted` | the quick-start recipe sets no start pose, and the default one stands in the upper wall. With a time step of at most 0.25 s (the default), every first step still overlaps the wall and is undone by the shield: the returned trajectory is the start pose repeated, for tractor-trailer, car and rigs of any length. |
| `C71_goal_safe_refuted` | the goal stands on an obstacle: no safe pose has its tractor there. |
| `C71_start_in_area_refuted` | the start sticks out of the 32 m by 32 m area the example asks for. |
| `C72_second_search_refuted` | What is not true for a search object used twice: the file saved after the second search lists the trials of both, so two trials carry number 0, while the number of trials and the best trial are those of the second search alone. |
| `C72_settings_recorded_refuted` | What is not true: the file does not tell which search was run. Two base configurations that differ in the collision shield give the same record, although their trials are run with the shield and without. |
| `C73_file_of_latest_run_refuted` | the result file of a test need not be of its latest run, and cannot show a failure: a test that passed once and then takes too long still has the file of the first run, which says that the goal was reached. The test here is the one of C63 that passes for all random numbers. |
| `C77_pruning_refuted` | Early stopping never shows up in the record: for every base configuration, sampler and scores, the summary says that no trial was pruned and none failed, and that the pruning efficiency is 0. |
| `C77_same_search_refuted` | What is not true when no start condition is found: if a picture that was not drawn cannot be uploaded, a search that completes without W&B ends at its first trial with W&B; the trial is stored, but nothing is logged. |
| `C77_second_search_refuted` | A search object used twice keeps one run: the second search numbers its trials from 0 again, so the first trials of both are logged under the same number and the same picture key. |
| `C78_guidance_far_obstacle_refuted` | a 21st obstacle changes the cost of a jackknifed pose however far away it is, because the hitch is weighted by the number of obstacles. |
| `C78_guidance_repetition_refuted` | repeating a circle changes the cost guidance descends, because every listed circle is charged. |

## Seeded bugs

`seeded/LOG.jsonl` records edits of a scratch copy of the model that imitate programming errors, with the theorems that
stopped proving and the theorems tightened as a consequence. `tools/mutate.py` replays them (`tools/mutants.json`).

## Status

See `MANIFEST.json` (generated by `tools/manifest.py` from the theorems and `tools/status.json`).
