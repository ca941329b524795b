# Design: a machine-checked model of pyDeltaRCM in Rocq (Coq 8.16.1)

## What is modelled, and how

The model is a set of total Gallina functions, one per function or method of
`/repo/pyDeltaRCM`, each carrying a comment with the file and lines it transcribes.
They are parametric in

* the **arithmetic** (`Arith F` in `Base.v`): the same definition is
  - reasoned about over the reals, with an arbitrary rounding function applied after
    every operation (`RA rnd : Arith R`).  `rnd = fun x => x` is exact arithmetic;
    *robust* theorems hold for every monotone rounding, so they also cover the rounding of
    machine formats (`Rounding` class, instantiated with Flocq's binary formats);
  - executed, on IEEE binary64 numbers from the standard library's `SpecFloat`
    (`F64 : Arith spec_float`), to produce concrete floating-point witnesses and to show
    that hypotheses are satisfiable.
* the **random generator** (`Rng F S`): a state type, a `draw` and a `seed`.  Theorems
  quantify over all generators; where a range is needed it is an explicit hypothesis.

Fields are functions `Z -> Z -> F` with explicit dimensions.  `gmemo` only memoises for
execution and is provably the identity.  Python exceptions are values of `result`.
Negative indices wrap as in numpy; an index out of range is `Err`.

### Layers / files (rocq/theories)

| file | content |
|---|---|
| `Base.v` | results, arithmetic class, real / rounded / binary64 instances, vectors, grids |
| `Shared.v` | `shared_tools.py` |
| `Water.v` | `water_tools.py` |
| `Sed.v` | `sed_tools.py` |
| `Init.v` | `init_tools.py` (constants, boundary conditions, domain, subsidence) |
| `Iter.v`, `Model.v` | `iteration_tools.py`, `model.py` update / finalize / setters |
| `Attrs.v`, `Session.v` | public attributes, sessions, resuming |
| `Dict.v`, `Text.v` | Python dictionaries, `str` and `zfill` |
| `Config.v` | `import_files`, type checks, `default.yml` |
| `Switches.v` | output switches, contents of the output file and of a record |
| `WeightSpec.v`, `WeightFormula.v` | the routing rule written out as a formula, and its agreement with `Shared.v` |
| `Hooks.v` | the order of method and hook calls in `update` and construction |
| `Expand.v` | `preprocessor.py`: merging of arguments and file, set/matrix/ensemble expansion, job folders and job files |
| `Jobs.v` | `preprocessor.py`: end time, construction and run of serial and parallel jobs |
| `Sched.v` | `preprocessor.py`: the semaphore and the interleaving of parallel jobs |
| `Files.v` | file-system effects of output, checkpoint and resume, with crash points |
| `SurfaceSpec.v`, `SurfaceFormula.v`, `WaterRules.v` | free surface, smoothing, discharge field, speed and jump of looping parcels written out as formulas, and their agreement with `Water.v` |
| `ChanceSpec.v`, `ChanceProofs.v` | the choice a random variate makes and the order in which the stream is used |
| `SedRules.v`, `SedRulesProofs.v` | the movement of sediment as a relational specification, and its agreement with `Sed.v` |
| `StepSpec.v`, `StepProofs.v` | a turn of water routing and a whole time step as relational specifications, and the agreement of the model |
| `Records.v`, `RecordsSpec.v`, `RecordsProofs.v` | the contents of the output file (time dimension, selected grids, time-varying metadata; storage rounding is an arbitrary function), what an entry must show, and the files of interrupted and resumed runs |
| `Regex.v`, `YamlText.v`, `YamlSpec.v`, `YamlProofs.v` | regular expressions; the text of job configuration files and its loading (shared_tools.py:484-520, preprocessor.py:1168-1190; the behaviour of PyYAML for one-line plain scalars is written down from its documentation and source and trusted; lists, mappings, quoted and multi-line text are not modelled) |
| `Header.v`, `HeaderSpec.v`, `HeaderProofs.v` | dimensions, coordinates, units and fixed metadata of a new output file |
| `Cli.v`, `CliSpec.v`, `CliProofs.v` | the command line: options to settings, dry run, factor as text |
| `MirrorSpec.v`, `MirrorProofs.v`, `MirrorWalk.v`, `MirrorRun.v`, `MirrorFlow.v`, `MirrorSed.v`, `MirrorIter.v` | mirror images of models, states and runs (no new code; specification and proofs) |
| `QuietSpec.v`, `QuietProofs.v` | runs that differ in output settings (no new code; specification and proofs) |
| `LocalSpec.v`, `LocalProofs.v` | cells undisturbed by sediment, diffusion as averaging (no new code; specification and proofs) |
| `Binary64Spec.v`, `Binary64.v`, `Transfer.v`, `TransferWalk.v`, `TransferPicks.v`, `TransferOps.v`, `TransferFlow.v`, `TransferSurface.v`, `Binary64Init.v`, `TransferInit.v` | binary64 numbers as real numbers, water routing in both (no new code; specification and proofs) |
| `Log.v`; `LogSpec.v`, `LogProofs.v` | the log: `iteration_tools.py` (log_info, log_model_time) and all calls of the logger in `model.py`, `iteration_tools.py`, `water_tools.py`, `sed_tools.py`, `init_tools.py`; handlers of log files |
| `DatumSpec.v`, `DatumProofs.v` (water), `DatumSed.v` (sediment, runs) | two runs with elevations counted from different zeros |
| `BudgetSpec.v`, `BudgetProofs.v` | the sediment account of a run |
| `RunAll.v`, `RunAllSpec.v`, `RunAllProofs.v` | all jobs of a configuration, from the files to the outputs |
| `Resumed.v`, `ResumedProofs.v` | jobs that resume from checkpoints |
| `Assign.v`, `AssignSpec.v`, `AssignProofs.v` | assigning configuration values to a model in use |
| `PaceSpec.v`, `PaceProofs.v`, `PaceSed.v`, `PaceInit.v`, `PaceStart.v` | the same delta at another pace |
| `Branch.v`, `BranchSpec.v`, `BranchProofs.v` | folders and processes on disk: interrupted, resumed and branched runs (model.py:99-143, 184-215, 1067-1074, init_tools.py:633-668, 839-997) |
| `ScenarioSpec.v`, `ScenarioProofs.v` | resuming with another configuration than that of the checkpoint (model.py:99-143, init_tools.py:839-928) |
| `WiderSpec.v`, `WiderProofs.v`, `WiderInit.v` | the same delta on cells k times as wide (no new code) |
| `Custom.v`, `CustomSpec.v`, `CustomProofs.v` | derived classes with hooks that change the model; deprecated names (hook_tools.py, documented classes) |
| `GrainSpec.v`, `GrainProofs.v` | runs with one kind of sediment |
| `NeutralSpec.v`, `NeutralProofs.v` | settings that switch a process off |
| `DomainSpec.v`, `DomainProofs.v` | states that agree in the domain |
| `Debug.v`, `DebugSpec.v`, `DebugProofs.v` | debug_tools.py: which attribute, points and lines are drawn where (colours, colour bar, grid and axes objects left out) |
| `*Proofs.v` | lemmas |
| `Props_*.v` | the theorems of the catalogue, each closed by `exact`, followed by `Print Assumptions` |

### Not modelled

numba/numpy dtype conversions (float32 storage is covered only through the "every monotone
rounding" theorems), overflow to infinity and NaN production over the reals (the binary64
instance has them; C76 shows when the water routing is free of them), matplotlib, the text of dates, times and values in the log, the log lines of the preprocessor, the binary layout of netCDF files
(their contents are lists of records and variables), YAML beyond one-line plain scalars, user
subclasses beyond hooks, appearance of debug plots.

## Per-property plan

* **C01 Edge padding** — `custom_pad` transcribed as the sequence of slice writes; pointwise equality with clamped indexing by case analysis.
* **C02 Flat index round trip** — `custom_ravel`/`custom_unravel` over Z with the code's own bounds tests; Euclidean division; refuted clause by witness.
* **C03 Weighted pick returns a valid choice** — cumulative sum + first index reaching the draw; induction over the vector; witness for the zero draw.
* **C04 Parcels start in the inlet** — fold over the number of parcels with the generator threaded; induction.
* **C05 Time and rate scaling** — field arithmetic over R.
* **C06 Water routing weights are a probability distribution** — nine-direction weight function; non-negativity (any rounding) and normalisation (exact); gamma>1 refuted in binary64.
* **C07 Water does not flow into dry or land cells while a wet choice exists** — same function; case analysis of the fallback chain.
* **C08 Water parcels stay in the domain** — flat-index step; domain predicate on cell types; row-0 escape refuted in binary64.
* **C09 Water routing always terminates within stepmax steps** — the while loop is structurally recursive on stepmax-step; invariant on retired parcels.
* **C10 The path record never overflows** — loop invariant on the width; refuted for stepmax 1..3.
* **C11 Discharge budget of routed parcels** — ghost counters along the loop; sum over the grid of point updates.
* **C12 Loop correction keeps parcels inside** — fold over parcels with the carried (px,py); range by min/max; stale-variable witness.
* **C13 Computed free surface is above sea level and bed** — pointwise max; any rounding, any accumulated sums.
* **C14 Smoothing obeys a maximum principle** — induction on passes; convexity of the neighbour average; refuted for coefficient > 1.
* **C15 Flooding correction touches only shoreline cells** — sequential loop proved equal to a pointwise function; frame; witness below datum. In exact arithmetic the corrected stage of every cell is given by a formula written without the model's functions (`flooded`, `StepSpec.v`).
* **C16 Water iteration postcondition** — postcondition of the transcribed method, then of the whole loop.
* **C17 Flow velocity bounds and consistency** — algebra over R, upper/lower bounds for any rounding.
* **C18 Discharge field update** — algebra over R.
* **C19 Sediment routing weights are a probability distribution** — as C06.
* **C20 Sediment mass conservation** — grid-sum lemma for point updates; induction over steps and parcels.
* **C21 Deposition never exceeds a quarter of the water column** — bounds on the limiter; lifted to histories through the routing loop.
* **C22 A parcel never carries negative sediment** — invariant of the routing loop; refuted for lag > 1.
* **C23 Sediment routing preserves depth and velocity invariants** — invariant of the routing loop.
* **C24 Sediment parcels stop within stepmax steps or at the boundary** — structural recursion on remaining steps; domain predicate; row-0 escape witness.
* **C25 Parcel split between sand and mud** — floor arithmetic over R; binary64 and exact witnesses.
* **C26 Topographic diffusion budget** — summation by parts on the 3x3 stencil.
* **C27 Sand fraction stays a fraction** — invariant over runs.
* **C28 Sand fraction update rule** — pointwise case analysis.
* **C29 Subsidence** — pointwise; sequences of updates and assignments; the effective rate after each setter; refuted for the inlet attributes by witness.
* **C30 End-of-step invariants** — invariant of `update` by composing the stage postconditions; witness with rising sea level.
* **C31 Sea level and clock** — induction over updates.
* **C32 Update and finalize life cycle** — state machine; induction over call sequences.
* **C33 Save schedule** — trace of records; induction over updates.
* **C34 Checkpoint schedule** — as C33.
* **C35 Resume from checkpoint continues the same trajectory** — `save` then `load` into a freshly initialised model; update reads only saved or recomputed fields; induction.
* **C36 Resume and the output schedule** — as C35 for the schedule; fractional witness.
* **C37 Crash safety of resume and checkpoint files** — file system as a finite map, operations as small steps, crash = prefix; witnesses.
* **C38 Seed determines the run** — seeding resets the generator state; corollary of determinism of the model functions.
* **C39 Configuration resolution** — `Config.v`: dictionaries as association lists, the loops of `import_files` and the table of `default.yml` transcribed; what each lookup of the result gives, and that nothing else reaches the model.
* **C40 Type checking of inputs** — `Config.v`: exact Python types of the declarations; iff characterisation of acceptance; the declared null is refuted for every parameter.
* **C41 Input validation** — setter functions; iff characterisation.
* **C42 Derived quantities are well-defined** — rounding lemmas and sign analysis.
* **C43 Domain layout** — pointwise computation of cell_type; rounding of N0/2.
* **C44 Output variable selection follows the switches** — `Switches.v`: state machine over assignments; induction over every sequence; refuted for the velocity figure and for grids switched on after construction.
* **C45 Public attribute round trip** — setter/getter algebra over an invariant of all reached models; inlet quantities by the exact specification of create_boundary_conditions.
* **C46 Matrix expansion** — `Expand.v`: product as a list function; proved a bijection with the choices (`combinations` in `ExpandSpec.v`), acceptance as an iff, zero-padded numbering injective.
* **C47 Set and ensemble expansion** — as C46, on lists of dictionaries; refutation by a concrete set whose comparison table is mislabelled.
* **C48 Run duration** — `Jobs.v`: end time as a function of the configuration, the loop as a relation in any arithmetic; exact clock gives the least number; totality from C56; binary64 witness computed on an 8 x 5 domain.
* **C49 Precedence of arguments over file in the high-level API** — dictionary update lemmas (`merged`), then what a single job reads (`job_input`).
* **C50 Job isolation of random streams** — generator state threaded through constructions and runs; construction with a seed does not depend on it; the serial order refuted by a computed run.
* **C51 Parallel job scheduling** — interleaving semantics of the semaphore and the job processes (`Sched.v`); invariant, measure, progress.
* **C52 Failed jobs are finalized and do not stop the others** — relation for the run of a job with the codes it reports; induction over jobs.
* **C53 Existing output is never silently overwritten** — finite map of folders and job files (`Expand.v`); output file in `Files.v`.
* **C54 Hooks run immediately before their method, exactly once** — `Hooks.v`: calls of methods and hooks as a parameter; `update` and construction are shown to perform exactly one list of events; adjacency, order and counts by induction on runs; simulation with the model's `update` for hooks that only watch.
* **C55 Deposition and erosion thresholds** — same walk semantics; case analysis of each event against the written rules.
* **C56 Sound configurations run for any number of steps** — readiness predicate established by construction (C42, C43) and preserved by every update (C30).
* **C57 Attributes that do not reach everything that depends on them** — invariant over all sequences of updates and assignments: constants no setter writes.
* **C58 Figure files do not collide** — `Switches.v`: file names as strings; injectivity of decimal printing and zero padding.
* **C59 Routing probabilities follow the published rule** — `WeightSpec.v`: the routing rule written from geometry (row/column steps, distances) over the reals; the code's weight computation, with its lookup tables, masks, in-place zeroing and rebalancing, shown equal to it.
* **C60 Water surface from parcel paths** — exact arithmetic; `SurfaceSpec.v` defines the level of a path position by position, induction over the path relates it to the in-place grids of the code (`SurfaceFormula.v`).
* **C61 Smoothing and relaxation of the stage** — exact arithmetic; one pass and its iteration as functions in `SurfaceSpec.v`; the stage after `compute_free_surface`.
* **C62 Discharge field from parcel steps** — exact arithmetic; induction over the steps of an iteration, cell by cell.
* **C63 Sediment moves by the written rules** — exact arithmetic; `SedRules.v` is a relational specification of moves, journeys and the whole step that uses none of the model's functions; `SedRulesProofs.v` shows that every completed call of the model is such a run, and derives the per-cell sums from the rules alone by induction over journeys. Each move's direction is the one its own variate selects (C66).
* **C64 A turn of water routing by the written rules** — exact arithmetic; `StepSpec.v` says what one turn of water routing makes of every field: entries and routes of the parcels, counts of their visits, surface, smoothing, relaxation, flooding, discharge, depth, speed; `StepProofs.v` composes the formulas of C11, C12, C15, C17, C59-C62 with the walk induction and shows the model's turn is such a turn.
* **C65 A time step by the written rules** — exact arithmetic; a step is `water_turns`, then the sediment rules of C63, subsidence, final flooding, sand fractions, sea level and clock, stated as one relation between the states before and after; proved by composing C64, C63, C27-C30.
* **C66 Random variates: one for each choice, in order** — exact arithmetic, generators with values in (0, 1); `ChanceSpec.v` defines the alternative a variate selects and threads the stream of variates through entries, steps and journeys; counts by induction over the relations.
* **C67 The output file holds the history of the run** — Records.v models the contents of the output file along its time dimension: each record writes the time, the selected grids and the time-varying metadata at the save index, through an arbitrary storage function. Proved by induction over the outputs of a run with the invariant that the save index equals the length of the file and every entry shows the state of a shorter run.
* **C68 A resumed run completes the output file** — Same file model, with the resume of ResumeProofs.v: the resumed run's records are those of the uninterrupted run, so writing them over any file that agrees on the records counted by the checkpoint gives the uninterrupted run's file followed by whatever lay beyond it.
* **C69 A job's written configuration reads back as given** — YamlText.v models the text: str() of scalar values, the written lines, and loading (scanner for one-line plain scalars, PyYAML's resolver patterns with the project's float pattern, constructors). Patterns are regular expressions with a derivative matcher proved correct (Regex.v). The round trip is proved by induction over the configuration, from facts about which characters each pattern needs or excludes. str of a float and its reading are parameters; the theorem asks that the text has Python's form and that float(str(x)) is x. The PyYAML behaviour is library behaviour and part of the trusted base.
* **C70 The header of the output file describes the domain** — Header.v models the dimensions, coordinates, units and fixed metadata of a new file, with an arbitrary storage rounding. Proved from the layout and derived constants of a new model (C42, C43): counting the channel and land cells of a row by induction over columns, the rest by lookup in the list of variables. The legacy coordinates and the discharge units are refuted forms of the claim.
* **C71 The command line asks for what its options say** — Cli.v models the conversion of parsed options to settings (int() and float() of texts are parameters, argparse itself is not modelled), the merge with the file, the dry-run flag and a factor given as text. Proved by cases over the options, using C46-C49 for the expansion into jobs and C48 for durations. Two claims of the help text and of the file's dryrun setting are refuted by concrete command lines.
* **C72 Left and right are treated alike** — MirrorSpec.v defines the mirror image of parameters, states, checkpoints and output, and a generator that replays given variates. The mirrored model is related to the original stage by stage (weights, choice of direction, walks, free surface, velocities, sediment parcels, diffusion, end of step, output): for each random choice of the original there is a variate in (0, 1) that makes the mirrored choice, and all deterministic parts commute with the mirror; runs by induction over updates. The layout of a new model is compared with its mirror image from C43 (a finite set of columns cannot be symmetric about two centres).
* **C73 Output settings do not disturb the run** — QuietSpec.v lists the output parameters and says when two configurations, models and states are the same but for output. Every stage of an update is shown to commute with replacing the output settings of the constants and the counters of the state; the writing stage changes counters only; updates by induction, construction of a model stage by stage, configurations from the precedence rules of C46. No property of the arithmetic is used.
* **C74 Debugging plots mark the cells they are given** — Debug.v models the index handling of debug_tools.py (conversion of flat numbers, pairs and arrays, loops over them, points and lines drawn up to the first exception); DebugSpec.v defines cells, their numbers and their place on the map. Proved by induction over the lists and the division algorithm; the exceptions are computed for all shapes.
* **C75 The bed changes where sediment goes, and diffusion only averages** — LocalSpec.v says when a cell is undisturbed by given parcel journeys and which weight a diffusion pass gives to the surroundings of a cell. The locality theorem follows from the step rules of C65: the rules of C63 change only cells that a parcel reached, and the exchange of the diffusion pass is zero where no flux is near. Averaging: the pass is an affine combination whose coefficients are shown to be non-negative; passes by induction.
* **C76 Binary64 arithmetic rounds correctly and routes water like rounded reals** — Binary64Spec.v says which real number a binary64 number stands for and when two models, one in binary64 and one in reals, hold the same numbers. Binary64.v shows that the SpecFloat operations of the standard library are Flocq's BinarySingleNaN operations and takes correctness from there. Transfer.v carries a bound 2^b along with each intermediate result of the weight computation, so that nothing overflows and every comparison agrees; TransferWalk.v follows the parcels step by step. TransferPicks.v bounds the total weight from below, so that a non-zero variate gives a positive threshold, which discharges the hypothesis positive_picks of C08 and C09 for binary64. TransferOps.v, TransferFlow.v and TransferSurface.v carry the bounds through a whole routing: discharge sums are bounded by the number of visits, visit counts are exact integers, levels along a path grow by one slope per step, and each iteration adds at most thirteen to the exponent of the bound, so that six iterations stay far from overflow. What is known of the routing in rounded reals (C16, C17) then holds of binary64. TransferInit.v does the same for construction: every derived constant lies between two powers of two, the cell counts are roundings of equal quotients, the number of diffusion passes is at least one by the relative error of rounding, and the cell types agree everywhere, also where the squared distance overflows.
* **C77 The log of a run** — Log.v repeats each logging function of the model with its messages, as a computation that returns the lines written and the result; the results are proved equal to the functions of the other files. LogSpec.v selects lines by kind. The proofs follow the program structure: monotonicity by a relation between two runs, the selected lines by a function of the lines of each step. The text of times, values and the date at the start of each line are left out; the step number, the record number and the seed are spelled out.
* **C78 The zero of elevations** — DatumSpec.v relates a state to one with all elevations higher by c, field by field on the grid, and compares two results. Each function of an update is shown to preserve the relation (a simulation), bottom up, and the runs follow by induction on the number of updates. The dependence of flooding and diffusion on the zero is shown by a witness and by an exact formula.
* **C79 The sediment account of a run** — BudgetSpec.v states a line of account for one update (parcels, residues, border, unchanging cells, subsidence, inlet) with the rules of single parcels of SedRules.v, and the accounts of a run as a chain. Volume of a journey, of all journeys, of a pass and of the passes is summed by induction; the update is put together from the frames; runs by induction on the number of updates. Delivery follows from the derived constants of InitSpec.v.
* **C80 From a configuration of several jobs to the output of each** — RunAllSpec.v says what it means that a job did what its configuration says, in terms of a new model and updates. The expansion (C46, C47), the text of the files (C69), configuration (values decide), construction and the loop (C48) are composed; the output files follow from C67.
* **C81 Jobs that resume from checkpoints** — Resumed.v models a job made from a file that asks to resume, serially and in a process of its own, and the operations on its folder. Loading a checkpoint twice is loading it once; the loop is the updates of C35 and C36, so same_point of SessionSpec.v says where the run ends.
* **C82 Assigning configuration values to a model in use** — Assign.v models the plain setters: the stored value and the constant the update reads, if it reads one. AssignSpec.v writes down the configuration with the value, the classes of values and what an inlet assignment recomputes. The further run is compared with that of the model made from the changed configuration, by commuting the assignment with each stage of making a model.
* **C83 Speed and concentration set the pace of a run** — PaceSpec.v writes down the fields, constants, configuration and files at another pace. Every function of an update is shown to commute with the change of pace (PaceProofs.v water, PaceSed.v sediment and update), as are the steps of making a model (PaceInit.v); PaceStart.v removes the start of subsidence from the account when subsidence is off.
* **C84 Interrupted, resumed and branched runs are one run** — Branch.v models folders and processes that start, write and are stopped; BranchSpec.v the histories a user can make and what it means that a folder shows the run. By induction over histories: every checkpoint is a point of the run up to its counters (C84_one_run), and files stay beginnings of the run's file under overwriting (BranchProofs.v), using the lockstep of resumed and uninterrupted updates of C35 and C36.
* **C85 Going on from a checkpoint with another configuration** — No new code is modelled: Session.v's resume with a configuration other than that of the checkpoint. ScenarioSpec.v says what the same domain is, what it means that a state holds a checkpoint and that a model goes on from a state with given constants. Cell types, modifiers and path widths of two configurations of the same domain agree, so the lockstep of C35 applies with the new constants (ScenarioProofs.v); C82 gives the comparison with assignment and C73 that output settings do not matter.
* **C86 Horizontal distances set the scale of a delta** — No new code is modelled. WiderSpec.v gives the configuration and the constants on cells k times as wide and the relation between two states; WiderProofs.v shows function by function that an update preserves the relation (routing of water is literally unchanged, volumes of sediment carry the factor k*k), WiderInit.v that construction establishes it.
* **C87 Classes derived from the model class** — Custom.v models a derived class: constants, the constants its routers hold, fields and own attributes, all of which hooks may change, and the update that calls them; CustomSpec.v says what hooks leave alone and gives the two documented classes. CustomProofs.v follows the sequence of calls of an update (C60) with arbitrary hooks, shows that changes at the start commute with saving and loading, and that classes with an invariant run without exceptions (for the examples). Hooks that replace the array mod_erosion by another are left out (the routers keep the old one).
* **C88 Only the cells of the domain matter** — DomainSpec.v: two states (checkpoints, records) with the same values at all 0 <= i < L, 0 <= j < W. DomainProofs.v follows every function of the update with two such states: padded copies and shifted planes are equal as functions, cells of parcels come from checked indices, all else is cell by cell. Composed with the proof of C35 for the leftovers of the previous step. This is also a check of the model itself, whose arrays are functions on all integers.
* **C89 With one kind of sediment, the settings of the other do not matter** — GrainSpec.v: configurations with other values for the settings of one grain; states without deposits of a grain; fractions of two kinds. GrainProofs.v: no parcels of the missing grain are started, so its routing is the identity on the state and the generator; the routing of the other grain reads none of the changed constants; without moving sand the cross flux is zero in every rounding. Construction with the changed settings gives the same fields and constants that differ only in those. Induction over updates.
* **C90 Neutral settings switch smoothing and diffusion off** — NeutralSpec.v: configurations with other settings of smoothing; when smoothing is off. NeutralProofs.v: construction gives the same fields and constants that differ only in those settings; a smoothing pass with full own weight is the identity; the new stage is then the same in each case; the rest of an update reads neither setting. The diffusion multiplier is a multiple of alpha, and a pass with multiplier zero moves nothing.

## Trusted base

* Coq 8.16.1's kernel (no kernel check is switched off, no plugin is used, no functor,
  module type or axiom is declared here).  `vm_compute` is used in `Example`s and in a few
  binary64 witness theorems.
* The axioms listed by `Print Assumptions`, all from the standard library, see below.
* The transcription of Python to Gallina, for the parts listed above.  Nothing in /repo is
  executed: agreement is by reading, each definition cites the lines it transcribes.
* The standard library's `SpecFloat` as the meaning of IEEE binary64 for the witnesses
  (C76 proves that its operations round correctly).

### Simplifications of the transcription

* One rounding function stands for every rounding; the code mixes float32 arrays and
  float64 scalars.  "Every monotone rounding" theorems do not need more; exact theorems say so.
* Over the reals there is no NaN or infinity; the two `inf` initial values of the output
  clocks are the constructor `Inf`.  `round`/`int` of NaN or infinity (an error in Python)
  do not arise over the reals.
* Integer parameters are Z; Python numbers that may be int or float are real.
* numba's unchecked array access is `Err IndexError` where the index can leave the array;
  theorems show it cannot, or exhibit when it can.
* numba's scalar division by zero raises ZeroDivisionError; numpy's array division gives
  inf/NaN and is guarded in the code by masks that are transcribed.
* `u0**2` is `u0*u0`; `**beta` is a real power (integer exponents in binary64).
* When `create_boundary_conditions` fails half way the code keeps the attributes already
  assigned; the model's call has no effect.
* Except in `YamlText.v`, the text of YAML files is not parsed: a file is absent, empty or a
  mapping from strings to values; mappings with non-string keys and NaN values are not modelled.  Output switches hold
  True or False only.
* Log messages are modelled in Log.v only; every other file leaves them out (C77 shows that this makes no difference). The drawing of figures and timing are not modelled.

### What `Print Assumptions` lists

Every axiom below is declared in Coq's standard library.

* nothing (closed under the global context) — 184 theorems: `C82_acts_as_configured`, `C82_before_the_first_update`, `C82_no_effect`, `C82_never`, `C76_huge_surface_refuted`, `C84_one_run`, `C84_every_folder`, `C84_begin`, `C84_go_on`, `C84_branch`, `C84_other_folders`, `C84_refusals`, `C71_options`, `C71_same_as_python`, `C71_options_reach_every_job`, `C71_dry_run_is_the_option`, `C39_resolution`, `C39_unknown_keys_have_no_effect`, `C39_attributes`, `C40_accepted_types`, `C40_null_always_rejected`, `C40_declared_null_refuted`, `C40_types_are_exact`, `C40_empty_file_rejected`, `C87_schedule`, `C87_layout`, `C87_changes_between_updates`, `C87_resume`, `C87_velocity_class_resumes`, `C87_routers_keep_their_constants`, `C87_sediment_has_the_constants_of_the_routers`, `C87_old_names`, `C74_attribute_shown_iff`, `C74_points_drawn_at_their_cells`, `C74_bad_point_stops`, `C74_lines_through_their_cells`, `C74_one_line_for_each_column`, `C74_line_of_pairs_transposed_refuted`, `C74_line_from_list_refuted`, `C74_list_of_tables`, `C74_points_outside_drawn_refuted`, `C46_matrix_jobs`, `C46_accepted_iff`, `C46_job_files`, `C46_table`, `C47_set_jobs`, `C47_set_accepted`, `C47_set_table_refuted`, `C47_ensemble_of_set`, `C47_ensemble_of_matrix`, `C47_ensemble_of_one`, `C47_ensemble_refused`, `C47_fixed_seed_refused`, `C47_set_and_matrix_refused`, `C47_shared_folder_when_resuming`, `C49_arguments_over_file`, `C49_something_must_be_given`, `C53_jobs_keep_what_exists`, `C53_existing_root_refused`, `C37_data_survive_a_crash_while_resuming`, `C37_completed_resume`, `C37_unreadable_files_are_left_alone`, `C37_resuming_twice_refuted`, `C37_resuming_three_times_refuted`, `C37_checkpoint_crash_points`, `C37_a_readable_checkpoint_remains_refuted`, `C53_existing_output_refused`, `C53_output_created`, `C53_nothing_saved_nothing_touched`, `C53_existing_checkpoint_kept_refuted`, `C70_file_when_something_saved`, `C70_grid_units`, `C54_update`, `C54_updates`, `C54_construction`, `C54_refused`, `C54_watching_hooks`, `C41_nan_is_accepted`, `C38_seed_determines_the_run`, `C38_recorded_seed_repeats_the_run`, `C30_stage_below_reported_sea_level`, `C33_record_shows_the_model`, `C34_checkpoint_holds_the_model`, `C48_no_duration`, `C48_timesteps_are_updates_refuted`, `C49_single_job_prefers_the_file`, `C49_single_job_model_ignores_arguments`, `C49_arguments_reach_every_job`, `C50_alone`, `C50_parallel`, `C50_first_serial_job_has_the_last_seed`, `C50_serial_jobs_as_alone_refuted`, `C52_ends_of_a_job`, `C52_remaining_jobs`, `C52_all_jobs_finalized`, `C52_run_again`, `C52_construction_failure_stops_all`, `C77_logging_is_passive`, `C77_verbosity_only_adds_lines`, `C77_two_is_most`, `C77_one_time_line_per_update`, `C77_times_of_a_run`, `C77_output_is_announced`, `C77_warning_lines`, `C77_log_records_the_configuration`, `C77_seed_line_tells_the_seed`, `C77_negative_verbosity_refuted`, `C77_log_of_a_resumed_model`, `C77_seed_of_a_resumed_model_refuted`, `C77_log_of_a_finalized_model`, `C77_initializing_water_lines_refuted`, `C77_step_numbers`, `C77_step_numbers_beyond_a_million_refuted`, `C77_step_numbers_beyond_a_million`, `C77_own_log_file`, `C77_same_second_refuted`, `C72_binary64_weights_refuted`, `C73_updates_unchanged`, `C73_new_models_unchanged`, `C73_output_settings_do_not_change_the_run`, `C73_outputs_show_the_same_run`, `C67_file_shows_the_run`, `C67_entries_are_kept`, `C68_resumed_file`, `C68_interrupted_and_resumed`, `C68_missing_file`, `C81_parallel_as_serial`, `C81_same_files`, `C80_deleted_files`, `C85_what_comes_from_where`, `C85_constants_exchanged`, `C85_as_assigned`, `C85_seed_and_output_do_not_matter`, `C51_mode`, `C51_refusals`, `C51_slots`, `C51_never_more_than_the_slots`, `C51_schedules_end`, `C51_all_jobs_run`, `C51_construction_failure`, `C51_codes_of_runs`, `C24_zero_threshold_fails`, `C26_passes`, `C32_life_cycle`, `C32_finalized_iff_called`, `C35_resume_continues_the_trajectory`, `C35_checkpoint_of_a_run`, `C36_same_records_when_whole`, `C36_first_update_writes_a_checkpoint`, `C45_round_trip`, `C45_fields_unchanged`, `C01_pad_is_nearest`, `C01_window_defined`, `C01_window_centre`, `C02_round_trip`, `C02_round_trip_back`, `C02_injective`, `C02_unravel_rejects_beyond`, `C02_ravel_rejects_beyond`, `C02_end_index_accepted_refuted`, `C02_end_pair_accepted_refuted`, `C02_flat_walk`, `C44_selection_follows_switches`, `C44_starts_empty`, `C44_velocity_figure_refuted`, `C44_construction`, `C44_records`, `C44_late_grid_refuted`, `C58_sequential_figures_distinct`, `C58_latest_figures`, `C06_gamma_above_one_refuted`, `C08_first_row_escape_refuted`, `C09_retired_add_nothing`, `C10_record_grows_in_time`, `C12_centre_line_refuted`, `C14_coefficient_above_one_refuted`, `C15_zero_stage_refuted`, `C69_config_reads_back`, `C69_written_twice`, `C69_scientific_notation`, `C69_parameter_names`, `C69_job_folder_reads_back`, `C69_job_files_hold_the_jobs`, `C69_other_texts_refuted`
* `ClassicalDedekindReals.sig_forall_dec` — 2 theorems: `C78_raised_states_exist`, `C72_mirror_images_exist`
* `FunctionalExtensionality.functional_extensionality_dep` — 3 theorems: `C88_only_the_domain_matters`, `C88_what_an_update_looks_at`, `C88_checkpoints`
* `ClassicalDedekindReals.sig_forall_dec`, `FunctionalExtensionality.functional_extensionality_dep` — 9 theorems: `C76_one_value`, `C76_value_unique`, `C42_sizes_and_time_step`, `C42_negative_velocity_gives_negative_time_step`, `C80_edited_duration_refuted`, `C66_one_choice_per_variate`, `C08_all_paths_inside`, `C09_retired_never_return`, `C13_paths_usable`
* `ClassicalDedekindReals.sig_forall_dec`, `ClassicalDedekindReals.sig_not_dec`, `Classical_Prop.classic`, `FunctionalExtensionality.functional_extensionality_dep` — 206 theorems: `C82_configured_it_counts`, `C82_refused`, `C82_pending`, `C82_acts_in_part`, `C82_parcels_change_the_supply`, `C76_operations`, `C76_same_paths`, `C76_iteration_completes`, `C76_water_routed`, `C76_routing_completes`, `C76_weights_rounded`, `C76_pick_in_range`, `C76_new_model`, `C76_first_routing`, `C84_whole_time_steps`, `C84_branch_again_refuted`, `C84_start_of_a_branch_refuted`, `C79_run_has_an_account`, `C79_accounts_balance`, `C79_delivered`, `C79_sunk`, `C79_no_diffusion`, `C79_bed_gains_at_most_the_supply`, `C71_dry_run_of_the_file_refuted`, `C71_duration_without_file`, `C71_timesteps_decide`, `C71_time_overrides_refuted`, `C39_defaults_run`, `C87_end_of_step`, `C87_bedload_class_resumes`, `C78_same_water_paths`, `C78_water_routing`, `C78_sand_and_mud`, `C78_diffusion_exact`, `C78_diffusion_inside`, `C78_level_bed_moves_at_rim`, `C78_run`, `C78_run_without_diffusion`, `C78_flooding_below_zero_refuted`, `C78_configured_sea_level_moves_only_the_sea`, `C78_new_model_levels`, `C89_mud_only_ignores_sand_settings`, `C89_sand_only_ignores_mud_settings`, `C89_mud_only_fractions`, `C89_sand_only_fractions`, `C89_mud_only_steps`, `C89_sand_only_steps`, `C70_coordinates`, `C70_metadata_describe_the_domain`, `C70_subsidence_metadata`, `C70_legacy_coordinates`, `C70_legacy_metres_refuted`, `C70_discharge_units_refuted`, `C41_setters_accept_exactly_their_range`, `C41_configuration_stored_or_rejected`, `C42_construction_outcome`, `C43_layout`, `C43_initial_fields`, `C43_ocean_exists_iff`, `C43_small_grids_have_no_ocean`, `C56_runnable_configurations_run`, `C34_schedule_of_a_run`, `C33_schedule_of_a_run`, `C27_fractions_stay_in_unit_interval`, `C27_boundary_value_until_first_deposit`, `C28_sand_fraction_update_rule`, `C29_subsidence`, `C29_first_subsiding_step`, `C30_end_of_step`, `C30_depth_non_negative`, `C30_updates_never_fail`, `C31_clock_and_sea_level`, `C33_save_schedule`, `C34_checkpoint_schedule`, `C34_no_checkpoint_when_off`, `C48_end_time`, `C48_least_number_of_updates`, `C48_least_number_from_any_start`, `C48_timesteps_are_updates`, `C48_jobs_complete`, `C75_bed_changes_where_sediment_goes`, `C75_diffusion_averages_neighbours`, `C75_diffusion_stays_in_range`, `C75_level_bed_drifts_at_border_refuted`, `C77_times_of_a_run_exact`, `C72_water_weights_mirrored`, `C72_sediment_weights_mirrored`, `C72_run_mirrored`, `C72_new_model_mirrored`, `C72_basin_off_centre_refuted`, `C72_inlet_centred_iff`, `C90_smoothing_switched_off`, `C90_diffusion_switched_off`, `C83_any_model`, `C83_models`, `C83_runs`, `C83_concentration_alone`, `C83_speed_on_a_slope`, `C81_resumed_job_continues`, `C81_duration_starts_again`, `C12_jump`, `C17_speed_formula`, `C63_routers_follow_the_rules`, `C63_ledgers`, `C63_sediment_step`, `C80_jobs_do_what_they_say`, `C80_edited_files`, `C80_every_combination`, `C80_every_member`, `C80_output_files`, `C85_counts_when_resuming`, `C85_never_fails`, `C85_wider_inlet_refuted`, `C19_weights_rounded`, `C19_weights_distribution`, `C20_parcel_budget`, `C20_bed_volume_budget`, `C20_step_budget`, `C21_changes_limited`, `C21_bed_stays_below_water`, `C22_loads_nonnegative`, `C22_deposit_records_grow`, `C22_lag_above_one_refuted`, `C23_fields_consistent`, `C23_speed_and_depth_bounds`, `C24_routing_completes`, `C24_sediment_step_completes`, `C24_walks`, `C24_escape`, `C25_parcel_split`, `C26_fixed_cells`, `C26_no_flux_no_change`, `C26_cell_budget`, `C26_region_budget`, `C55_sand_rules`, `C55_mud_rules`, `C36_next_record_at_most_one_step_late`, `C36_record_can_be_late`, `C45_channel_width_rounded_and_clamped`, `C45_concentration_reads_hundredfold`, `C45_other_attributes_unchanged`, `C45_inlet_quantities_follow`, `C45_values_taken`, `C29_rate_kept`, `C29_rate_after_assignment`, `C29_velocity_keeps_rate_refuted`, `C57_values_no_attribute_updates`, `C57_inlet_cells_as_configured`, `C57_time_step_and_sediment_feed`, `C57_bedload_fraction_not_passed_on`, `C03_pick_in_range`, `C03_pick_positive_weight`, `C03_pick_positive_weight_exact`, `C03_pick_interval`, `C03_zero_draw_refuted`, `C04_starts_in_inlet`, `C05_accepts_exactly`, `C05_rejects_with_ValueError`, `C05_increasing`, `C05_never_shortens`, `C05_units_consistent`, `C05_slr_rate`, `C15_flooding_formula`, `C64_turn_by_the_rules`, `C64_turns_by_the_rules`, `C65_time_step_by_the_rules`, `C66_water_variates`, `C66_sediment_variates`, `C60_surface_is_the_mean_of_path_levels`, `C61_new_stage`, `C61_smoothing_pass`, `C15_shore_cells_flooded`, `C62_fields_of_an_iteration`, `C06_weights_distribution`, `C06_weights_rounded`, `C06_land_cell_zero`, `C06_array`, `C07_dry_and_centre_excluded`, `C08_step_stays_inside`, `C08_positive_picks_exact`, `C09_terminates`, `C10_small_stepmax_refuted`, `C11_step_budget`, `C11_iteration_budget`, `C12_loop_correction`, `C13_surface_above_sea_and_bed`, `C14_maximum_principle`, `C14_edges_unchanged`, `C14_flat_unchanged`, `C15_only_shore_cells_raised`, `C15_raised_value`, `C15_order_independent`, `C16_levels_after_iteration`, `C16_levels_after_routing`, `C16_routing_never_fails`, `C17_flow_consistent`, `C17_speed_bounds`, `C18_relaxation`, `C59_water_rule`, `C59_sediment_rule`, `C86_any_model`, `C86_models`, `C86_runs`, `C86_sand_fraction`, `C86_sand_fraction_refuted`, `C86_heights_refuted`
