# Formal model of safe-mpd in Rocq (Coq 8.16.1)

## Approach

The Python classes are modelled as total Gallina functions over `R` (Coq.Reals),
`Z`, `nat`, `bool`, `list` and records.  One model file per source file area;
each definition cites the lines it models.  Exceptions are values
(`Res A := Ok | Err exn`).  Everything random or external (JAX PRNG, SciPy's
optimiser, automatic differentiation, ffmpeg, wall clock) is an argument of the
model function, so theorems hold for every behaviour of it.

Layers:

* `Base`      – reals, clipping, `where`, Python modulo, vectors, lists.
* `Params`    – constructor attributes of the robots, obstacles.
* `EnvModel`  – `mbd/envs/env.py`.
* `Geom`      – corners, rectangle/circle and rectangle/rectangle checks.
* `TT2d`, `Bicycle`, `NTrailer`, `Acc` – dynamics, checks, rewards, `_step_internal`.
* `Rollout`, `Planner` – `mbd/utils.py` rollouts and `run_diffusion`.
* `Demo`, `Setup`, `Config`, `Cache`, `Projection`, `Guidance`, `Stats`, `Anim`.
* `Spec*`     – small independent vocabulary used in theorem statements
  (point sets, hitch limits, trajectories), no reference to model helpers.
* `Proofs*`   – lemmas;  `Prop*` – the property theorems only.

## Simplifications (global)

* float32/float64 arithmetic is modelled by exact reals: rounding, NaN and
  infinities are not represented.  `jnp.isfinite` guards are therefore identity.
* JAX tracing/compilation is modelled only in `Cache`; elsewhere a jitted
  function is the function.
* Logging and printing are not modelled; of rendering, what is drawn where and which files are written (`Anim`).

## Plan per property

| id | how modelled | how proved |
|----|--------------|------------|
| C01-C03 | step of each kinematic class, rollouts, whole planner | invariant by induction over the action list; checks tied to point-set geometry |
| C04-C05 | corner construction + SAT / closest point on edge | real geometry, zonotope argument for completeness |
| C06 | wrap to [-pi,pi) via floor | uniqueness of representative; induction over trailers |
| C07,C15,C26 | rollouts and replay | induction over actions; zero action is a fixpoint |
| C08,C10,C11 | clip; convex combination | convexity of weighted means |
| C09,C12,C13,C14,C39 | schedule, softmax, reverse step | algebra on reals, induction on lists |
| C16-C19 | reward formulas | inequalities, periodicity |
| C20,C21 | dynamics | derivative-free: velocity of axle point computed by chain rule, checked with Coquelicot-free algebra; displacement by norm of (cos,sin) |
| C22-C25 | acceleration robot | induction on steps; `_refuted` witnesses where false |
| C27-C34 | env, setters, factories | div/mod arithmetic, induction over call sequences, case analysis |
| C35-C37 | demo generator | arithmetic on point counts |
| C38 | state machine of caches | invariant over histories |
| C40,C41 | oracle-parametric | case analysis |
| C42-C44,C46 | loops | induction |
| C45 | rigid motions (SpecSym.v); Demo.v and Guidance.v for the with-demonstration theorems | equivariance by induction (ProofsFrame.v); way-points, sampling and headings commute with translations (ProofsFrameDemo.v) |
| C47 | drawn patches, frame loop, marks | drawn point sets = bodies of the checks; C04/C05 for the marks |
| C48 | wheel lists across animations | induction over the list of animations |
| C49 | progress videos, name sorting, merge | sorted permutation is unique; string order of padded numbers |
| C50 | clock readings and timing report of a run | arithmetic over the ordered readings |
| C51 | benchmark loop over the cached runs, np statistics | invariants: after one run nothing changes any more (fixed point of the process state); sorting |
| C52 | scenario loop, demonstration length check | invariant on the stored reverse_once and its object; induction over the configurations |
| C53 | tuner: configuration of a trial, objective, search loop, best trial | cached trials equal uncached ones (C36/C44), induction over the search |
| C54 | render of all classes, picture of a plan, printed layout | membership in the generated lists, interval arithmetic on lines; string positions by induction |
| C55 | heat map loop, evaluation with heat map, progress markers | induction over the results with an invariant on the environment; a generator whose every draw collides |
| C56 | Planner, Rollout | refinement: each model function shown equal to the relational description in SpecDiffusion; the relation is functional (nearest point, maximum and execution are unique) |
| C57 | EnvModel, Setup | case analysis on the class; point-set separation of all bodies from all obstacles |
| C58 | the shielded step and rollout models of C01; no new model code | geometry: coordinates of the disc centre in the moving body frame change by at most axle motion plus heading change times lever arm, while passing from more than r outside to more than r inside needs 2r; motion limits by a second-order bound on the rotating drawbar (mean value theorem); induction along the rollout |
| C59 | the obstacle setters (EnvModel, Setup), the shielded steps and run_diffusion of the three kinematic classes | padding as a neighbourhood of the listed area; Lipschitz bound of every body point in the fraction of the step (chord bound, induction along the trailer chain); every in-between position is within the padding of one of the two rows, both of which are clear by the shield invariant; discs by the no-swallowing lemma |
| C60 | the scenario tables and accessors of test_configs.py (Harness) | the table as a list, case analysis over its entries; string lemmas for suffixes and removal; induction over the override list |
| C61 | the unittest methods, the suites and main (Harness) | induction over the suite with the state threaded through; evaluation of the selected names |
| C62 | setup_parking_environment and create_test_tt2d_environment (Harness) over Env, get_env and the setters (EnvModel, Setup) | inversion of the construction, then the setter theorems of C29, C33 and C57 |
| C63 | run_mbd_test and its checks (Harness) around run_diffusion (Planner) | the scan as an existential over the states; shape of the planner's output; geometry of the trailer's rear face |
| C64 | the scenario tables, the test environment and run_mbd_test (Harness) with the shielded step and run_diffusion | common facts of the sixteen table entries; safety of every level pose above the lot; then C01 and C63 |
| C65 | Float.v: every operation of the checks as a function of an abstract arithmetic; FloatSingle.v: IEEE single precision from Flocq | forward error analysis of corners, projections and closest points; the separating-axis argument needs only that the computed axis is almost a unit vector |
| C66 | Float.v: fl_tt_step, fl_tt_run, fl_bk_step, fl_bk_run | invariant of the run: the last accepted state passes the computed checks; C65 turns the check into geometry; motion bound by error analysis of one Euler step |
| C67 | as C65 | direction error of the computed axes, then the exact separating-axis theorem on the grown obstacle |
| C68 | the computed step (Float.v: scaler, dynamics, Euler update, shield) and the exact motion law of SpecDyn.v | forward error analysis of one step (sine, cosine and tangent are Lipschitz), induction over the actions for the drift, C67 for the shield's answer on a state moved by the errors |
| C69 | the main block of mbd_planner.py before run_diffusion (Recipes.v: main_args, script_setup) over the setters and get_env of Setup.v, run_diffusion of Planner.v | the setters change start and goal only; the lot leaves a zone free in which the three starts lie (any number of level trailers); C01 for the returned states, C23 for the first step |
| C70 | the snippets of README.md (Recipes.v: readme_setup, readme_start_goal, readme_targets) | C33 for the class and the parameters, the free zone of C69 for the start; for the quick start, every pose one step away from the default start still overlaps the wall (bounds on one Euler step), so the shield undoes every step |
| C71 | tests/test_mbd.py before run_diffusion (Recipes.v: example_config, example_setup) | evaluation of the setters; extents of turned rectangles for the start; a point of the tractor's outline for the goal |
| C72 | `TuneSave.v`: search object with its result list, study, `save_results`, `_config_to_dict`, `main`; a file system of saved records | from the search theorem of C53; the numbering of trials; first maximum of the score list by induction |
| C73 | `HarnessSave`: the result directory, `save_test_results` with its four failure points, `run_mbd_test` with files, the runner carrying the directory | case analysis of one run; induction over suites and sessions |
| C74 | Planner.v (log_scores, evaluate_samples, reverse_once) and Instances.v (the four classes); SpecTemp.v gives deviation, leads, between, within. | ProofsTemp.v: ratio of softmax weights; weighted averages with small weights elsewhere or nearly equal weights; affine invariance of mean and deviation; exp(-y) < 1/y for the limit. |
| C75 | StatMain.v: the configuration of main, run_statistical_evaluation with the process-wide JIT cache and the heat map drawn with the last environment; the rest from Stats.v, CacheInst.v, Picture.v. | ProofsStatMain.v: evaluation of the configuration; the cached trial loop equals the uncached one (C38); zero rates from C42, the heat map from C55, the trajectories from C01, C43. |
| C76 | The same model functions as C45 and C35: TT2d.v, Bicycle.v, NTrailer.v, Acc.v, Planner.v, Demo.v, Guidance.v; the reflection itself is defined in SpecMirror.v. | ProofsMirror.v: reflected boxes have the same corners in another order, distances and separating axes do not see it; steps, rollouts, evaluation and the reverse loop commute with the reflection. ProofsMirrorDemo.v: way-points, sampling, headings up to turns (C17), scores, guidance cost and gradient. |
| C77 | TuneWandb.v: create_heat_map, objective_function and run_optimization with logging, __init__, main; a row is a list of keys and values, the run a list of calls; whether wandb.Image(None) is accepted is a parameter. Reuses Tune.v, TuneSave.v, Picture.v. | ProofsTuneWandb.v: the loop with logging refines the loop of C53; each evaluation that succeeds has a trial environment, so its heat map is drawn (C55); rows follow by induction over the trials. |
| C78 | TT2d.v, Bicycle.v, NTrailer.v, Acc.v, Planner.v; SpecReach.v: obstacles near a point, lists that name the same obstacles near it, extent of a vehicle. | The displacement bound (C21) gives an invariant on the distance from the start; on states satisfying it both environments take the same step, because a body hit by an obstacle (C04, C05) is within its extent of the reference point; the planner is then followed step by step. |
| C79 | TT2d.v, Bicycle.v, NTrailer.v, Planner.v; SpecUnits.v: a change of units for points, parameters, states, obstacles and scenes. | The plain dynamics, the bodies, the goal distance, the reward and the preference penalty commute with the change of units; collision verdicts agree because they are exact (C04, C05) and the bodies are scaled copies; the two environments are then in lockstep and the planner is followed step by step. |
| C80 | TT2d.v, Bicycle.v, NTrailer.v, Rollout.v; clearance is SpecBodies.v. | A collision verdict among fewer obstacles implies the verdict among all; a rejected step is rejected in both scenes and an accepted one ends in a visited state, which is clear by hypothesis (C04, C05). Induction along the run. |

## Trusted base

* Coq 8.16.1's kernel (and `vm_compute`, used for closed computations on strings, integers and lists).
* Axioms reported by `Print Assumptions` (each `Prop*.v` file ends with a `Print Assumptions` for its theorems; the
  build log lists them). They are all from the standard library:
  `ClassicalDedekindReals.sig_forall_dec`, `ClassicalDedekindReals.sig_not_dec`,
  `FunctionalExtensionality.functional_extensionality_dep`, `Classical_Prop.classic`.
  The theorems without real numbers (configuration, files, caches on abstract data) mostly use none of them or only
  `classic`. `Coq.Reals` itself introduces `R` through sealed modules of the standard library (`RbaseSymbolsImpl`,
  `RinvImpl`); no axiom, parameter, functor or module type is declared in this development.
* The reading of the Python source into the model files. Every definition of `Base, Params, EnvModel, Geom, TT2d,
  Bicycle, NTrailer, Acc, Rollout, Planner, Demo, Setup, Config, Projection, Guidance, Stats, Cache, CacheInst, Anim,
  Bench, Tune, TuneSave, Picture, Harness, HarnessSave, Recipes, StatMain, Float` carries the lines it models and its simplifications.
* Real arithmetic in place of float32/float64 (no rounding, NaN, infinities) everywhere but in `Float.v`. `C01` etc. are
  claims about exact arithmetic; a float implementation can violate them by rounding. `C65`-`C68` are the bridge for the
  tractor-trailer's and the car's collision and hitch checks and their unguided (hard or no shield) steps: there every
  operation carries a relative error `u` (and an absolute error `eta` for subnormal results), and `FloatSingle.v` shows
  that IEEE binary32 round-to-nearest, as defined by Flocq, is an instance. Assumed there: matrix products are done in
  float32 or better (no TF32/bfloat16), fused multiply-adds round once (both contractions are allowed), `sin`, `cos`
  have a given absolute error, no NaN or overflow occurs, and obstacles and states are the float32 numbers stored.
  Flocq adds no axiom of its own: `Print Assumptions` lists the standard library's above.

## What is modelled, what is not

Modelled: `mbd/envs/env.py` (parking lot, obstacle lists, setters), the four robot classes (dynamics, checks, rewards,
shield, backup manoeuvre, setters, demonstration path, constructor dispatch), `mbd/planners/mbd_planner.py`
(configuration, schedule, reverse diffusion, demonstration weighting, final rollout, caches), `mbd/utils.py` rollouts,
animations and files, `tests/stat_mbd.py` (sampling, trials, aggregates, progress videos), `tests/tune_mbd.py` (configuration,
objective, search loop, result file; Optuna's sampler is arbitrary, its plots are not modelled),
`tests/test_planners` (`Harness`: scenario tables, test environment, verdict, runner; `HarnessSave`: its result files; not its log nor its
pictures), `mbd/scripts/benchmark_diffusion.py` as far as said in `Bench.v`, and the main block of `mbd_planner.py`, the
snippets of `README.md` and `tests/test_mbd.py` (`Recipes`: what they set up and hand to the planner).

Arbitrary in the model (the theorems hold for every value): random draws, SciPy's optimiser (`Projection`), gradients
of the guidance cost (`Guidance`), ffmpeg's outcome and the point where saving pictures fails (`Anim`), clock readings
(`Stats`, `Bench`).

Assumed about JAX (`Cache`): a jitted method is traced once per (object, static arguments); a trace reads the object's
attributes at trace time, together with those read by the methods it calls; clearing the module-level cache drops the
functions held there, not what is compiled for an object. Classes may be mixed in one process
only as far as their states have the same shape (in the model: the same type); JAX would retrace for another shape.

Not modelled: floating point other than in `Float.v`, device placement, multi-process effects, matplotlib beyond the drawn patches, lines,
markers and space numbers (other colours, legends, titles), the W&B service (which calls are made with which values is C77), Docker files.

## Statements

`Spec*.v` holds the vocabulary of the statements: regions and solid/outline point sets (`SpecGeom`, `SpecBodies`),
motion of axles with derivatives (`SpecMotion`, `SpecDyn`), plans and weights (`SpecPlan`), rewards (`SpecReward`),
environments and setters (`SpecEnv`), configuration (`SpecConfig`), caches (`SpecCache`, `SpecMix`), commands and their limits (`SpecInput`), projection, guidance,
statistics, demonstration, pictures, the search's result file (`SpecProj`, `SpecGuid`, `SpecStats`, `SpecDemo`, `SpecAnim`, `SpecTuneSave`, `SpecHarnessSave`), the temperature (`SpecTemp`). `Prop*.v` are
generated by `tools/genprops.py` from lemmas `l_Cnn_*` of `Proofs*.v` (a theorem of the same statement, proved by the
lemma); `x_Cnn_*` become Examples: concrete cases that meet the hypotheses.

Names: `_partial` is a weaker part of the property; `_refuted` proves that the property, or a reading of it suggested by
names and comments in the code, is false of the modelled code (the doc comment says which).

## Findings (each is a theorem)

| theorem | what the code does |
|---------|--------------------|
@@FINDINGS@@

## Seeded bugs

`seeded/LOG.jsonl` records edits of a scratch copy of the model that imitate programming errors, with the theorems that
stopped proving and the theorems tightened as a consequence. `tools/mutate.py` replays them (`tools/mutants.json`).

## Status

See `MANIFEST.json` (generated by `tools/manifest.py` from the theorems and `tools/status.json`).
