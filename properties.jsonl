{"id": "C01", "title": "Edge padding", "statement": "Padding any non-empty 2-D field by one cell gives a field two rows and two columns larger in which every cell equals the nearest cell of the original field; in particular the 3x3 window around any cell of the domain is always defined and its centre is the cell itself.", "quantifier": "every field, every shape with at least one row and column, every cell of the padded field", "why_tests_cant": "the routine is ten separate slice assignments whose overlap at corners and for one-row/one-column shapes depends on the shape; a test fixes a few shapes", "anchors": ["pyDeltaRCM/shared_tools.py:custom_pad"]}
{"id": "C02", "title": "Flat index round trip", "statement": "Converting a cell to its flat index and back returns the same cell for every in-domain cell, and converting every in-range flat index to a cell and back returns the same index; distinct cells get distinct flat indices. The bounds check rejects every flat index above the number of cells, but it accepts the index that equals the number of cells (one past the end), and the pair check likewise accepts a row equal to the number of rows.", "quantifier": "every shape, every cell, every flat index", "why_tests_cant": "the index space is unbounded and the failing case is exactly the boundary value", "anchors": ["pyDeltaRCM/shared_tools.py:custom_ravel", "pyDeltaRCM/shared_tools.py:custom_unravel"]}
{"id": "C03", "title": "Weighted pick returns a valid choice", "statement": "For any weight vector with non-negative entries and positive sum, and any random draw strictly above zero, the weighted pick returns an in-range index whose weight is positive; each index is returned exactly for the draws in a half-open interval whose length is its weight, so probabilities are proportional to weights. When the draw is exactly zero the first index is returned even if its weight is zero.", "quantifier": "every weight vector of any length, every value the uniform generator can return", "why_tests_cant": "the property is about every possible draw, including the measure-zero boundary draws that a sampled test never hits", "anchors": ["pyDeltaRCM/shared_tools.py:random_pick", "pyDeltaRCM/shared_tools.py:get_random_uniform"]}
{"id": "C04", "title": "Parcels start in the inlet", "statement": "The start locations generated for a step are exactly the requested number, and each of them is one of the inlet cells, for every inlet, every positive inlet weighting and every random stream.", "quantifier": "every inlet list, every non-negative weighting with positive sum, every number of parcels, every random stream", "why_tests_cant": "all random streams cannot be enumerated", "anchors": ["pyDeltaRCM/shared_tools.py:get_start_indices", "pyDeltaRCM/shared_tools.py:get_inlet_weights"]}
{"id": "C05", "title": "Time and rate scaling", "statement": "Scaling model time with a given intermittency and unit is rejected exactly when the intermittency is outside (0,1] or the unit is unknown, is strictly increasing in time, never shortens time, and is consistent across units (one year equals 365.25 days of 86400 seconds). A relative sea-level rate converted to model units raises sea level by exactly the given millimetres over one intermittency-scaled year.", "quantifier": "every time, every intermittency in (0,1], every supported unit, every rate", "why_tests_cant": "an identity over all real inputs", "anchors": ["pyDeltaRCM/shared_tools.py:scale_model_time", "pyDeltaRCM/shared_tools.py:_scale_factor", "pyDeltaRCM/preprocessor.py:scale_relative_sea_level_rise_rate"]}
{"id": "C06", "title": "Water routing weights are a probability distribution", "statement": "For every cell that is not land, the water routing weights of its nine directions are non-negative and sum to one; a land cell with no usable neighbour gets all-zero weights; no land neighbour ever receives weight. This needs the surface/inertia partition coefficient (gamma) to lie in [0,1]; parameters accepted by the model can make gamma exceed one, and then a negative weight is produced.", "quantifier": "every water surface, depth, discharge, cell-type field, every exponent, every cell", "why_tests_cant": "the nine-way case analysis over wet/dry/land neighbours with three fallback levels has far too many combinations, over real-valued inputs", "anchors": ["pyDeltaRCM/water_tools.py:_get_weight_at_cell_water", "pyDeltaRCM/water_tools.py:_get_water_weight_array", "pyDeltaRCM/shared_tools.py:get_weight_sfc_int"]}
{"id": "C07", "title": "Water does not flow into dry or land cells while a wet choice exists", "statement": "If a cell has a neighbour that is wet and not land (upward neighbours of the first row not counted), then dry neighbours and the cell itself have weight zero; dry cells only become reachable through the last-resort fallback.", "quantifier": "every neighbourhood", "why_tests_cant": "quantifies over every neighbourhood configuration", "anchors": ["pyDeltaRCM/water_tools.py:_get_weight_at_cell_water"]}
{"id": "C08", "title": "Water parcels stay in the domain", "statement": "A water parcel standing on a non-land, non-boundary cell that is not in the first row always steps to a cell inside the domain that is not land and differs by at most one row and one column, or (only when it has no wet neighbour) stays put and is retired. In the first row the upward directions are not excluded in general: a parcel can be given positive weight to step out of the domain, in which case its flux is added to the opposite boundary row.", "quantifier": "every field state, every position, every random stream", "why_tests_cant": "a walk is a long random history; the escape needs a particular surface shape at the inlet", "anchors": ["pyDeltaRCM/water_tools.py:run_water_iteration", "pyDeltaRCM/water_tools.py:_choose_next_directions", "pyDeltaRCM/water_tools.py:_calculate_new_inds"]}
{"id": "C09", "title": "Water routing always terminates within stepmax steps", "statement": "One water iteration takes at most stepmax steps, retired parcels never move again, never add discharge, and never re-enter the domain.", "quantifier": "every field state, every number of parcels, every random stream", "why_tests_cant": "termination and monotone retirement are statements about whole histories", "anchors": ["pyDeltaRCM/water_tools.py:run_water_iteration", "pyDeltaRCM/water_tools.py:update_Q"]}
{"id": "C10", "title": "The path record never overflows", "statement": "The record of parcel paths is always wide enough for the next step when stepmax is at least 4, for any number of steps; when stepmax is 1, 2 or 3 the growth increment is zero and the record overflows (IndexError) on the first step that does not fit.", "quantifier": "every stepmax, every step number", "why_tests_cant": "needs an invariant over the loop; the default stepmax hides the failing range", "anchors": ["pyDeltaRCM/water_tools.py:check_size_of_indices_matrix", "pyDeltaRCM/init_tools.py:create_boundary_conditions"]}
{"id": "C11", "title": "Discharge budget of routed parcels", "statement": "Each step of a moving parcel adds exactly half a parcel's unit discharge to the cell it leaves and half to the cell it enters, a parcel reaching the boundary adds another half to the boundary cell, and nothing else is changed; accumulated over a whole iteration the total discharge equals half a parcel's discharge times (the number of distinct inlet cells used + 2 x moves + boundary arrivals). Inlet inflow is counted once per distinct inlet cell, not once per parcel.", "quantifier": "every history of moves of any number of parcels", "why_tests_cant": "an accounting identity over arbitrary histories; the duplicate-start effect depends on random collisions", "anchors": ["pyDeltaRCM/water_tools.py:run_water_iteration", "pyDeltaRCM/water_tools.py:update_Q", "pyDeltaRCM/water_tools.py:_update_absQfield"]}
{"id": "C12", "title": "Loop correction keeps parcels inside", "statement": "When a parcel revisits a cell it is relocated five cells further along the line from the inlet centre (rounded to whole cells), kept strictly inside the domain and out of the land strip; parcels that do not revisit are left where they are; a parcel is disqualified from the water surface only if it revisits a cell whose stage is away from sea level. If the revisited cell is exactly row 1 of the domain centre line, the relocation target is taken from a previously relocated parcel (or is undefined).", "quantifier": "every set of walks, every step, every domain shape, every stage field", "why_tests_cant": "depends on the history of every parcel and on the order parcels are processed in", "anchors": ["pyDeltaRCM/water_tools.py:_check_for_loops"]}
{"id": "C13", "title": "Computed free surface is above sea level and bed", "statement": "After the free surface is computed from the parcel paths it is nowhere below sea level and nowhere below the bed, whatever the paths; cells that no path crossed keep max(bed + depth, sea level, bed).", "quantifier": "every set of paths, flags and fields", "why_tests_cant": "quantifies over all path sets", "anchors": ["pyDeltaRCM/water_tools.py:compute_free_surface", "pyDeltaRCM/water_tools.py:_accumulate_free_surface_walks"]}
{"id": "C14", "title": "Smoothing obeys a maximum principle", "statement": "Smoothing the free surface any number of times with coefficient in [0,1] never creates a value outside the range of the input surface, never changes boundary cells, and leaves a flat surface unchanged. The model accepts coefficients above one, for which the bound fails.", "quantifier": "every surface, every cell-type field, every number of passes, every coefficient", "why_tests_cant": "an invariant over arbitrarily many passes on arbitrary surfaces", "anchors": ["pyDeltaRCM/water_tools.py:_smooth_free_surface", "pyDeltaRCM/model.py:Csmooth"]}
{"id": "C15", "title": "Flooding correction touches only shoreline cells", "statement": "The flooding correction changes the stage only of dry cells that have at least one wet neighbour and whose bed is below some neighbouring value, it can only raise such a cell's stage above its bed, and the result does not depend on the order cells are visited. When the bed is below zero the new stage can be zero even though every wet neighbour has a lower stage.", "quantifier": "every stage, bed and depth field", "why_tests_cant": "frame condition plus order independence over all fields", "anchors": ["pyDeltaRCM/water_tools.py:flooding_correction", "pyDeltaRCM/water_tools.py:build_weight_array", "pyDeltaRCM/water_tools.py:get_wet_mask_nh"]}
{"id": "C16", "title": "Water iteration postcondition", "statement": "After every water iteration stage is at least sea level everywhere, and depth equals max(stage - bed, 0), hence is non-negative.", "quantifier": "every state before the iteration, every parcel history, any number of iterations", "why_tests_cant": "an invariant of the loop, for all states", "anchors": ["pyDeltaRCM/water_tools.py:finalize_water_iteration"]}
{"id": "C17", "title": "Flow velocity bounds and consistency", "statement": "After each water iteration the speed of a wet cell carrying discharge is discharge over depth, capped at the maximum velocity; speed is between 0 and the maximum velocity everywhere, speed times depth never exceeds unit discharge, velocity components have the speed as magnitude and the direction of the discharge vector, and dry cells have zero velocity.", "quantifier": "every discharge and depth field", "why_tests_cant": "real-valued universally quantified relation", "anchors": ["pyDeltaRCM/water_tools.py:update_velocity_field", "pyDeltaRCM/init_tools.py:create_boundary_conditions"]}
{"id": "C18", "title": "Discharge field update", "statement": "The new discharge field is the stated under-relaxation of the old field and the normalised parcel field (pure replacement on the very first step), the magnitude field is the norm of its components, and inlet cells always carry exactly the prescribed unit inflow straight downstream.", "quantifier": "every field, every iteration number, every time step", "why_tests_cant": "relation over all fields", "anchors": ["pyDeltaRCM/water_tools.py:update_flow_field"]}
{"id": "C19", "title": "Sediment routing weights are a probability distribution", "statement": "Whenever the sediment weights of a cell are computed without error they are non-negative, sum to one, are zero on land and on the cell itself; and the error is raised only if all eight neighbours are land.", "quantifier": "every neighbourhood and exponent", "why_tests_cant": "as for water: all combinations of wet/dry/land neighbours over real inputs", "anchors": ["pyDeltaRCM/sed_tools.py:_get_weight_at_cell_sediment", "pyDeltaRCM/sed_tools.py:BaseRouter._choose_next_location"]}
{"id": "C20", "title": "Sediment mass conservation", "statement": "For every parcel of sand or mud the volume carried into the domain equals the change of bed volume plus the volume still carried when the parcel stops; summed over all parcels of a step the bed volume changes by exactly (number of parcels x parcel volume) minus the total residual volume.", "quantifier": "every field state, every number of parcels, every random stream, every number of steps", "why_tests_cant": "conservation must hold along every random history", "anchors": ["pyDeltaRCM/sed_tools.py:SandRouter", "pyDeltaRCM/sed_tools.py:MudRouter", "pyDeltaRCM/sed_tools.py:BaseRouter._update_fields"]}
{"id": "C21", "title": "Deposition never exceeds a quarter of the water column", "statement": "Each deposition or erosion event changes the bed of one cell by at most a quarter of the local water depth, so deposition never raises the bed above the water surface; a cell whose bed is above the water surface never receives deposition.", "quantifier": "every cell state and parcel volume, and hence every history of events", "why_tests_cant": "quantifies over all states reached along random histories", "anchors": ["pyDeltaRCM/sed_tools.py:BaseRouter._limit_Vp_change", "pyDeltaRCM/sed_tools.py:SandRouter._deposit_or_erode", "pyDeltaRCM/sed_tools.py:MudRouter._deposit_or_erode"]}
{"id": "C22", "title": "A parcel never carries negative sediment", "statement": "Along every walk the volume carried by a sand parcel stays non-negative, and likewise for a mud parcel when the sedimentation lag is in [0,1] ; deposits recorded for the step stay non-negative. The model accepts a sedimentation lag above one, for which a mud parcel can deposit more than it carries.", "quantifier": "every walk, every field state, every lag", "why_tests_cant": "an invariant along random histories", "anchors": ["pyDeltaRCM/sed_tools.py:MudRouter._deposit_or_erode", "pyDeltaRCM/sed_tools.py:SandRouter._deposit_or_erode", "pyDeltaRCM/model.py:sed_lag"]}
{"id": "C23", "title": "Sediment routing preserves depth and velocity invariants", "statement": "Throughout sediment routing depth stays non-negative and equals max(stage - bed, 0) in every cell touched since routing began, speed stays within [0, maximum velocity], and the water surface, discharge and cell types are never changed.", "quantifier": "every history of parcels", "why_tests_cant": "invariant along random histories", "anchors": ["pyDeltaRCM/sed_tools.py:BaseRouter._update_fields"]}
{"id": "C24", "title": "Sediment parcels stop within stepmax steps or at the boundary", "statement": "Each sediment parcel takes between one and stepmax steps, stops at the first boundary cell it enters, and every cell it visits is not land; it stays inside the domain unless it steps up out of the first row, which, where the flow at that cell points straight into the domain, requires every down-valley neighbour to be dry or land.", "quantifier": "every field state, every random stream, every stepmax >= 1", "why_tests_cant": "random histories of arbitrary length", "anchors": ["pyDeltaRCM/sed_tools.py:SandRouter._route_one_parcel", "pyDeltaRCM/sed_tools.py:MudRouter._route_one_parcel"]}
{"id": "C25", "title": "Parcel split between sand and mud", "statement": "The number of sand parcels plus the number of mud parcels is never more than the configured number of parcels and never less than that number minus one; it is exactly one less for some accepted bedload fractions, so the sediment added per step can fall short of the nominal volume by one parcel volume.", "quantifier": "every parcel count and bedload fraction in [0,1]", "why_tests_cant": "rounding property over all real fractions", "anchors": ["pyDeltaRCM/sed_tools.py:route_all_sand_parcels", "pyDeltaRCM/sed_tools.py:route_all_mud_parcels"]}
{"id": "C26", "title": "Topographic diffusion budget", "statement": "Diffusion never changes land cells or the first row; exchanges between two interior non-land cells are equal and opposite, so total bed volume over a region changes only through cells that border the grid edge, land or the first row; with zero sediment flux it changes nothing. Total bed volume is not conserved in general.", "quantifier": "every bed and flux field, any number of passes", "why_tests_cant": "an exact identity over all fields", "anchors": ["pyDeltaRCM/sed_tools.py:topo_diffusion", "pyDeltaRCM/init_tools.py:set_constants"]}
{"id": "C27", "title": "Sand fraction stays a fraction", "statement": "The bed sand fraction and the active-layer sand fraction stay within [0,1] (and equal the boundary value until first disturbed) over any number of time steps, if the boundary value is in [0,1].", "quantifier": "every history of beds and deposits", "why_tests_cant": "invariant over arbitrarily long runs", "anchors": ["pyDeltaRCM/iteration_tools.py:compute_sand_frac"]}
{"id": "C28", "title": "Sand fraction update rule", "statement": "In one step, a cell with recorded deposits gets exactly deposited-sand/(sand+mud) in both records; an eroded cell without deposits gets the active-layer value if the erosion is within the active layer and the boundary value if deeper; every other cell is unchanged. (If no cell at all eroded, cells are only changed by deposits.)", "quantifier": "every pair of beds, every deposit field", "why_tests_cant": "three overlapping masks over every cell combination", "anchors": ["pyDeltaRCM/iteration_tools.py:compute_sand_frac"]}
{"id": "C29", "title": "Subsidence", "statement": "When subsidence is off or model time is before the start time the bed is untouched by it; otherwise each step lowers every basin cell by exactly rate x time step and leaves the land strip and inlet untouched; the first subsiding step is the first step that begins at a time >= the start time. Changing the time step through its public attribute keeps the rate; changing the channel flow velocity, width, depth or concentration changes the time step but leaves the per-step subsidence amount stale, so the rate is then wrong.", "quantifier": "every configuration, every sequence of updates and attribute changes", "why_tests_cant": "the stale value needs a history of setter calls; the start rule is about all step sequences", "anchors": ["pyDeltaRCM/iteration_tools.py:apply_subsidence", "pyDeltaRCM/init_tools.py:init_subsidence", "pyDeltaRCM/model.py:time_step", "pyDeltaRCM/model.py:channel_flow_velocity"]}
{"id": "C30", "title": "End-of-step invariants", "statement": "After every update, for every random stream: depth is non-negative; inlet cells have exactly the channel depth and a bed one channel depth below their stage; away from the inlet depth = max(stage - bed, 0); stage is at least the sea level used during the step; cell types, grid shape and inlet are unchanged. With rising sea level, stage can be below the new sea level reported after the step.", "quantifier": "every reachable model state, i.e. any number of updates from any configuration", "why_tests_cant": "induction over arbitrarily long runs", "anchors": ["pyDeltaRCM/iteration_tools.py:finalize_timestep", "pyDeltaRCM/model.py:DeltaModel.update"]}
{"id": "C31", "title": "Sea level and clock", "statement": "After n updates with a constant time step the step counter is n, model time is n x dt, and sea level is the initial sea level plus rate x dt x n.", "quantifier": "every n, every configuration", "why_tests_cant": "induction over n", "anchors": ["pyDeltaRCM/model.py:DeltaModel.update", "pyDeltaRCM/iteration_tools.py:finalize_timestep"]}
{"id": "C32", "title": "Update and finalize life cycle", "statement": "Updating a finalized model raises and changes nothing; finalizing twice raises; before finalization updates are accepted; no update ever finalizes the model.", "quantifier": "every sequence of update/finalize calls", "why_tests_cant": "quantifies over every call sequence", "anchors": ["pyDeltaRCM/model.py:DeltaModel.update", "pyDeltaRCM/model.py:DeltaModel.finalize"]}
{"id": "C33", "title": "Save schedule", "statement": "Output is recorded at time zero; record indices are 0,1,2,... with no gap or reuse; record times are strictly increasing; consecutive records are at least save_dt apart and less than save_dt + dt apart; the elapsed time since the last record is always below save_dt after an update.", "quantifier": "every number of updates, every save_dt and dt", "why_tests_cant": "induction over runs and all interval/step ratios", "anchors": ["pyDeltaRCM/iteration_tools.py:output_data", "pyDeltaRCM/model.py:DeltaModel.update"]}
{"id": "C34", "title": "Checkpoint schedule", "statement": "With checkpointing on, a checkpoint exists from time zero, consecutive checkpoints are at least checkpoint_dt and less than checkpoint_dt + dt apart; with checkpointing off none is ever written; the interval defaults to the save interval.", "quantifier": "every run", "why_tests_cant": "induction over runs", "anchors": ["pyDeltaRCM/iteration_tools.py:output_checkpoint", "pyDeltaRCM/model.py:checkpoint_dt"]}
{"id": "C35", "title": "Resume from checkpoint continues the same trajectory", "statement": "A model resumed from a checkpoint with the same configuration has, after any number of further updates, exactly the bed, stage, depth, velocity, discharge, sand fraction, sea level, time, step counter and random state the uninterrupted model has after the same updates.", "quantifier": "every reachable state at which the checkpoint is taken, every number of later updates, every random generator", "why_tests_cant": "equivalence of two unbounded executions from any cut point", "anchors": ["pyDeltaRCM/iteration_tools.py:save_the_checkpoint", "pyDeltaRCM/init_tools.py:load_checkpoint", "pyDeltaRCM/model.py:DeltaModel.__init__"]}
{"id": "C36", "title": "Resume and the output schedule", "statement": "A resumed run produces the same output records as the uninterrupted run when the elapsed time since the last record is a whole number of seconds; because that value is truncated to an integer on load, a fractional value can delay a record by a step. The first update after a resume always writes a checkpoint.", "quantifier": "every reachable state", "why_tests_cant": "depends on the history of saves and non-integer time steps", "anchors": ["pyDeltaRCM/init_tools.py:load_checkpoint"]}
{"id": "C37", "title": "Crash safety of resume and checkpoint files", "statement": "If the process dies at any point while a run is being resumed, the previously saved output data still exist in one of the two output files; resuming again after such a crash can destroy them. A crash while a checkpoint is being written can leave no readable checkpoint, even though a good one existed before.", "quantifier": "every crash point of the file operations, and every second resume", "why_tests_cant": "crash points are not exercised by tests", "anchors": ["pyDeltaRCM/init_tools.py:load_checkpoint", "pyDeltaRCM/iteration_tools.py:save_the_checkpoint"]}
{"id": "C38", "title": "Seed determines the run", "statement": "Two models built from the same configuration with the same seed give identical fields after any number of updates, whatever random numbers were drawn before construction.", "quantifier": "every prior random state, every number of updates", "why_tests_cant": "all prior random states", "anchors": ["pyDeltaRCM/init_tools.py:determine_random_seed", "pyDeltaRCM/shared_tools.py:set_random_seed"]}
{"id": "C39", "title": "Configuration resolution", "statement": "Building a model either fails with a type error or yields a configuration with exactly the known parameters (plus declared custom ones), each one equal to the keyword value if given, else the file value if given, else the default; unknown keys never take effect.", "quantifier": "every file, keyword set and custom parameter declaration", "why_tests_cant": "all dictionaries and overrides", "anchors": ["pyDeltaRCM/init_tools.py:import_files"]}
{"id": "C40", "title": "Type checking of inputs", "statement": "A user value is accepted exactly when its type is one of the declared ones. Parameters declared as allowing None nevertheless reject an explicit null.", "quantifier": "every parameter and every value", "why_tests_cant": "the failing case is a declared-legal value for several parameters", "anchors": ["pyDeltaRCM/init_tools.py:import_files", "pyDeltaRCM/default.yml"]}
{"id": "C41", "title": "Input validation", "statement": "The setters accept exactly the documented ranges: lengths and parcel counts positive, dx positive and no larger than either domain side, fractions within [0,1], intermittency within (0,1], smoothing and concentration non-negative. Accepted values are stored unchanged; rejected values leave the model unchanged.", "quantifier": "every value", "why_tests_cant": "all real values including boundaries", "anchors": ["pyDeltaRCM/model.py:DeltaModel"]}
{"id": "C42", "title": "Derived quantities are well-defined", "statement": "For every accepted configuration with non-zero velocity, depth, concentration and iteration count, the grid has at least one row and column, the inlet length is between 1 and max(1, rows/4), the inlet width between 3 and max(3, columns/4), the diffusion repeat count is at least 1, the time step is positive and equals the documented formula. Accepted values of zero for concentration, iteration count, slope... make construction fail by division by zero exactly when documented quantities vanish.", "quantifier": "every accepted configuration", "why_tests_cant": "all real-valued configurations, rounding of sizes", "anchors": ["pyDeltaRCM/init_tools.py:create_other_variables", "pyDeltaRCM/init_tools.py:create_boundary_conditions"]}
{"id": "C43", "title": "Domain layout", "statement": "For every grid large enough, every cell is land, channel, ocean or boundary; the first rows are land except a contiguous channel of the inlet width around the centre; the last row, first and last columns below the land strip are boundary; the inlet is exactly the channel columns and never contains column 0; initially bed = stage - depth, depth is the channel depth in the channel and the basin depth in the basin. The basin contains ocean exactly when the land strip ends within the radius of the domain; grids of at most five rows or ten columns have none.", "quantifier": "every grid size and inlet size", "why_tests_cant": "all grid sizes; off-by-one at centring with banker's rounding", "anchors": ["pyDeltaRCM/init_tools.py:create_domain"]}
{"id": "C44", "title": "Output variable selection follows the switches", "statement": "After any sequence of switch assignments, the set of saved grids and figures equals the set of switches currently on. This holds for every switch except the velocity figure: switching it off removes the sediment-flux figure (or fails) and keeps the velocity figure.", "quantifier": "every sequence of switch assignments", "why_tests_cant": "history of assignments", "anchors": ["pyDeltaRCM/model.py:save_velocity_figs", "pyDeltaRCM/model.py:save_eta_grids"]}
{"id": "C45", "title": "Public attribute round trip", "statement": "Reading a boundary-condition attribute after setting it returns the value set, for velocity, depth, sea level, sea-level rate and bedload fraction; channel width returns the width rounded to whole cells and clamped; the sediment concentration attribute returns one hundred times the value set. Derived inlet discharges are consistent with the new values.", "quantifier": "every value, every prior state", "why_tests_cant": "all values and histories", "anchors": ["pyDeltaRCM/model.py:influx_sediment_concentration", "pyDeltaRCM/model.py:channel_width"]}
{"id": "C46", "title": "Matrix expansion", "statement": "A matrix specification yields exactly the cartesian product: as many jobs as the product of the list lengths, each combination exactly once, every fixed parameter carried into every job unchanged, all output folders distinct; and it is rejected exactly when the output folder or a fixed key is in the matrix, a key contains a colon, or a value is a list.", "quantifier": "every matrix of any dimension and size", "why_tests_cant": "all sizes (including more than 1000 jobs where the zero-padding stops)", "anchors": ["pyDeltaRCM/preprocessor.py:BasePreprocessor._expand_matrix"]}
{"id": "C47", "title": "Set and ensemble expansion", "statement": "A set yields one job per entry with that entry's values over the fixed ones; an ensemble of n > 1 multiplies the jobs by n with the same parameters apart from seed; an ensemble of one changes nothing; set and matrix together are refused. Output folders are distinct unless a set entry itself overrides the output folder.", "quantifier": "every set and ensemble specification", "why_tests_cant": "all specifications", "anchors": ["pyDeltaRCM/preprocessor.py:BasePreprocessor._expand_set", "pyDeltaRCM/preprocessor.py:BasePreprocessor._expand_ensemble"]}
{"id": "C48", "title": "Run duration", "statement": "A job with `timesteps: n` performs exactly n updates and a job with a time performs the least number of updates reaching it (exact arithmetic); timesteps take precedence over time and time over years; no duration is an error. In binary floating point the accumulated clock can make `timesteps: n` run n+1 updates.", "quantifier": "every duration, time step and start time", "why_tests_cant": "floating point accumulation over long runs", "anchors": ["pyDeltaRCM/preprocessor.py:_BaseJob.__init__", "pyDeltaRCM/preprocessor.py:_SerialJob.run"]}
{"id": "C49", "title": "Precedence of arguments over file in the high-level API", "statement": "The merged configuration prefers arguments over the file. For a single job, however, the job re-reads the file and lets it override the arguments, and arguments that are model parameters never reach the model. Without a file and without arguments ValueError is raised and nothing is prepared or written.", "quantifier": "every pair of configurations", "why_tests_cant": "all dictionaries", "anchors": ["pyDeltaRCM/preprocessor.py:BasePreprocessor.run_jobs", "pyDeltaRCM/preprocessor.py:Preprocessor.__init__"]}
{"id": "C50", "title": "Job isolation of random streams", "statement": "A job run alone, or in parallel, gives the result determined by its own configuration and seed. Jobs of a serial multi-job run share one random stream that is seeded for every job before the first one runs, so the first job runs with the last job's seed.", "quantifier": "every list of jobs, every generator, every schedule", "why_tests_cant": "depends on the order of constructions and runs, and on schedules", "anchors": ["pyDeltaRCM/preprocessor.py:BasePreprocessor.run_jobs", "pyDeltaRCM/preprocessor.py:_ParallelJob.run", "pyDeltaRCM/init_tools.py:determine_random_seed"]}
{"id": "C51", "title": "Parallel job scheduling", "statement": "In a parallel run, for every schedule, no more than the configured number of jobs run at once (never more than the number of jobs), every job is started, and the run ends with all slots released whether or not jobs fail; each job reports a start code and, unless it dies from an uncaught error, exactly one code for the run and one for finalization. A setting other than false that Python counts as false is refused; on systems other than Linux a setting that counts as true is not implemented.", "quantifier": "every interleaving and every pattern of job failures", "why_tests_cant": "schedules", "anchors": ["pyDeltaRCM/preprocessor.py:BasePreprocessor.run_jobs", "pyDeltaRCM/preprocessor.py:_ParallelJob.run"]}
{"id": "C52", "title": "Failed jobs are finalized and do not stop the others", "statement": "If a job's update raises a runtime or value error, the job is still finalized and the remaining jobs still run; any other exception propagates and the remaining serial jobs are not run.", "quantifier": "every pattern of failures", "why_tests_cant": "all failure patterns over any number of jobs", "anchors": ["pyDeltaRCM/preprocessor.py:_SerialJob.run"]}
{"id": "C53", "title": "Existing output is never silently overwritten", "statement": "Without the clobber switch, constructing a model that writes output fails if an output file exists and leaves it untouched; with it the file is replaced. Multi-job runs refuse an existing job root or job folder unless resuming.", "quantifier": "every file-system state and configuration", "why_tests_cant": "all file-system states", "anchors": ["pyDeltaRCM/init_tools.py:init_output_file", "pyDeltaRCM/preprocessor.py:BasePreprocessor._prepare_multijob_output", "pyDeltaRCM/preprocessor.py:BasePreprocessor._write_job_configs"]}
{"id": "C54", "title": "Hooks run immediately before their method, exactly once", "statement": "In every update the hook calls and the method calls occur in the documented order, each hook immediately before the method it names; a model defining a deprecated hook cannot be constructed.", "quantifier": "every iteration count and every pattern of hook definitions", "why_tests_cant": "order of effects for every iteration count", "anchors": ["pyDeltaRCM/model.py:DeltaModel.update", "pyDeltaRCM/iteration_tools.py:solve_water_and_sediment_timestep", "pyDeltaRCM/hook_tools.py:hook_tools._check_deprecated_hooks"]}
{"id": "C55", "title": "Deposition and erosion thresholds", "statement": "At each cell a sand parcel visits it deposits what it carries (up to a quarter of the column) exactly when the local sand flux exceeds the transport capacity of the flow, erodes exactly when the flow is faster than the sand erosion velocity and below capacity, and otherwise leaves the bed alone; a mud parcel deposits only in flow slower than the mud deposition velocity and erodes only in flow faster than the mud erosion velocity, by the documented power law; the bed of that cell changes by the volume over the cell area and no other bed cell changes; only deposits are recorded, under their own grain.", "quantifier": "every parcel, every walk, every field state", "why_tests_cant": "thresholds between real-valued quantities over all histories of earlier parcels", "anchors": ["pyDeltaRCM/sed_tools.py:SandRouter._deposit_or_erode", "pyDeltaRCM/sed_tools.py:MudRouter._deposit_or_erode", "pyDeltaRCM/sed_tools.py:BaseRouter._compute_Vp_ero", "pyDeltaRCM/sed_tools.py:BaseRouter._update_fields"]}
{"id": "C56", "title": "Sound configurations run for any number of steps", "statement": "For every accepted configuration with at least 8 rows, 5 columns, an inlet at least 2 cells long, positive velocity, concentration, iteration count and threshold coefficients, non-zero depth, a slope whose downstream weight does not exceed one and a step limit of at least 4, construction succeeds and every number of updates completes without an error.", "quantifier": "every such configuration, every generator with values strictly between 0 and 1, every number of updates", "why_tests_cant": "unbounded runs over all configurations; an index or division error anywhere in the step would refute it", "anchors": ["pyDeltaRCM/model.py:DeltaModel", "pyDeltaRCM/water_tools.py:run_water_iteration", "pyDeltaRCM/sed_tools.py:sed_tools.route_sediment"]}
{"id": "C57", "title": "Attributes that do not reach everything that depends on them", "statement": "Whatever attributes are set on a model, the erosion and deposition velocities stay those of the configured flow velocity, and the basin depth, active layer, inlet cells and cell types stay those of the new model, so water and sediment keep entering through the configured number of cells. Setting the time step keeps the sediment volume fed per step, so the feed rate is right only if the step is unchanged. Setting the bedload fraction does not reach the sediment router.", "quantifier": "every configuration, every sequence of updates and attribute changes, every value", "why_tests_cant": "all histories of changes; a test sets one attribute and reads it back", "anchors": ["pyDeltaRCM/model.py:channel_flow_velocity", "pyDeltaRCM/model.py:channel_width", "pyDeltaRCM/model.py:time_step", "pyDeltaRCM/model.py:bedload_fraction", "pyDeltaRCM/init_tools.py:create_boundary_conditions"]}
{"id": "C58", "title": "Figure files do not collide", "statement": "With sequential figure saving every saved figure goes to its own file: the file name determines the variable and the record number, however many records there are. Otherwise each variable has one file, replaced at every record, and different variables have different files.", "quantifier": "every pair of figure variables and record numbers, beyond the five digits of padding", "why_tests_cant": "unbounded record numbers", "anchors": ["pyDeltaRCM/iteration_tools.py:save_figure"]}
{"id": "C59", "title": "Routing probabilities follow the published rule", "statement": "In exact arithmetic the probability that a water parcel moves to a neighbour is proportional to (depth times weighting)^theta times gamma * share of the downhill water-surface slope + (1 - gamma) * share of the flow component towards it per distance, the shares taken over the wet neighbours that are not land; sediment uses the flow component alone with the exponent of its grain and strictly wet neighbours. With no attractive neighbour water picks uniformly among wet neighbours inside the domain (else anything not land) and sediment by inverse distance; sediment surrounded by land is an error.", "quantifier": "every cell, every field, every parameter set with 0 <= gamma <= 1", "why_tests_cant": "a weight vector is real-valued; tests compare a few cells with numbers computed by the same code", "anchors": ["pyDeltaRCM/water_tools.py:_get_weight_at_cell_water", "pyDeltaRCM/sed_tools.py:_get_weight_at_cell_sediment", "pyDeltaRCM/shared_tools.py:get_weight_sfc_int", "pyDeltaRCM/init_tools.py:set_constants"]}
{"id": "C60", "title": "Water surface from parcel paths", "statement": "For every set of recorded parcel paths, the water surface assigned to a cell is the average, over all passages of paths that reached the edge of the domain without looping, of the level of the path there, but never below sea level or the bed; cells no such path visits keep their present level under the same limits. The level of a path starts at sea level at its seaward end, stays there until the path has passed the shoreline (a cell that is fast or shallow) and from then on rises by the basin slope times the distance travelled against the flow direction.", "quantifier": "all states, parameters and finite families of recorded paths", "why_tests_cant": "the result depends on every path of every parcel; tests compare a few stored surfaces", "anchors": ["pyDeltaRCM/water_tools.py:_accumulate_free_surface_walks", "pyDeltaRCM/water_tools.py:compute_free_surface"]}
{"id": "C61", "title": "Smoothing and relaxation of the stage", "statement": "The new stage of a cell is the old stage relaxed towards the smoothed surface with the configured weight; on the very first time step the stage is not changed by the surface. The smoothed surface is obtained by exactly the configured number of passes, each replacing a cell's value by the weighted mean of itself and the average of its non-land neighbours, edge cells keeping theirs. Afterwards the stage changes only at dry cells next to wet ones, and such a cell gets at least the stage of each wet neighbour if one stands above its bed.", "quantifier": "all states, parameters and surfaces", "why_tests_cant": "the number and weights of smoothing passes and the relaxation are not visible in example-based checks of the final state", "anchors": ["pyDeltaRCM/water_tools.py:_smooth_free_surface", "pyDeltaRCM/water_tools.py:finalize_free_surface", "pyDeltaRCM/water_tools.py:flooding_correction"]}
{"id": "C62", "title": "Discharge field from parcel steps", "statement": "After a routing iteration, the flow direction held by each cell is the sum of the unit vectors of all parcel steps that left it, entered it or ended there at the domain edge, plus a downstream unit vector at the cells where parcels started; the discharge held by the cell is half a parcel's discharge per cell width for each of these steps and for being a start cell.", "quantifier": "all states ready for routing, all generators with positive draws, all cells", "why_tests_cant": "the sum ranges over every step of every random walk", "anchors": ["pyDeltaRCM/water_tools.py:update_Q", "pyDeltaRCM/water_tools.py:_update_dirQfield", "pyDeltaRCM/water_tools.py:_update_absQfield", "pyDeltaRCM/water_tools.py:run_water_iteration"]}
{"id": "C63", "title": "Sediment moves by the written rules", "statement": "A routing call for one grain sends, one after the other, the whole part of its share of parcels, each from an inlet cell of the first row. Each move goes in the direction its random number selects under the documented routing rule, adds half of the parcel's load as sand flux at the cell left and at the cell reached (sand only), deposits or erodes the volume given by the capacity and threshold rules, changes the bed of the cell reached by that volume over the cell area, and resets the depth and the velocity of that cell from the new bed with the discharge unchanged; nothing else changes. A whole sediment step clears the flux and deposit records, routes sand, diffuses the bed the configured number of passes without touching depths, then routes mud. At the end the bed change, the sand flux and the deposit record of every cell are the sums of what every parcel did there.", "quantifier": "all states and parameters meeting the domain conditions, all generators with positive draws, any number of parcels and steps", "why_tests_cant": "the outcome is a fold over all moves of all random walks through fields that each move changes; tests fix a handful of single calls", "anchors": ["pyDeltaRCM/sed_tools.py:route_sediment", "pyDeltaRCM/sed_tools.py:SandRouter", "pyDeltaRCM/sed_tools.py:MudRouter", "pyDeltaRCM/sed_tools.py:BaseRouter._update_fields", "pyDeltaRCM/sed_tools.py:topo_diffusion"]}
{"id": "C64", "title": "A turn of water routing by the written rules", "statement": "One turn of water routing sends the configured number of parcels from inlet cells; they step together, each in a direction decided by the routing probabilities of the present fields, jumping on when they come back to their own path, until none is left or the step limit is reached. The new stage is the sea level or the flooded, relaxed and smoothed mean level along the paths, the discharge is that of the visits of the parcels relaxed against the old one with the inlet kept at its feed, depth is stage minus bed or zero, and speed is discharge over depth up to the limit; nothing else changes.", "quantifier": "every ready state and parameter set, every generator, every cell, every number of turns", "why_tests_cant": "it composes random walks of unbounded length with real-valued formulas for every field; a test compares fields with stored output of the same code", "anchors": ["pyDeltaRCM/water_tools.py:route_water", "pyDeltaRCM/water_tools.py:run_water_iteration", "pyDeltaRCM/water_tools.py:compute_free_surface", "pyDeltaRCM/water_tools.py:finalize_free_surface", "pyDeltaRCM/water_tools.py:flooding_correction", "pyDeltaRCM/water_tools.py:finalize_water_iteration"]}
{"id": "C65", "title": "A time step by the written rules", "statement": "Every completed update of a ready model is: the configured number of turns of water routing; flux and deposit records cleared; sand routed; the bed diffused; mud routed; the bed lowered by subsidence once it has started; the stage flooded onto the shore and raised to sea level; the bed of the inlet cells set from the stage; the sand fractions updated from the bed change and the deposits; sea level and clock advanced.", "quantifier": "every ready state and parameter set, every generator, every cell", "why_tests_cant": "order and content of all parts of a step for all states; tests check parts in isolation with mocked neighbours", "anchors": ["pyDeltaRCM/model.py:update", "pyDeltaRCM/iteration_tools.py:solve_water_and_sediment_timestep", "pyDeltaRCM/iteration_tools.py:apply_subsidence", "pyDeltaRCM/iteration_tools.py:finalize_timestep"]}
{"id": "C66", "title": "Random variates: one for each choice, in order", "statement": "A variate strictly between 0 and 1 selects exactly one alternative, the one in whose share of the cumulated weights it falls, and it has positive weight. A turn of water routing uses one variate for each parcel's entry column, then one for each parcel still under way at each step, in parcel order; routing a grain uses one for each entry column, all first, then one for each move of each parcel in turn. Entry columns are equally likely. Nothing else uses the stream.", "quantifier": "every weight list, every variate, every ready state, every generator", "why_tests_cant": "that no variate is reused, skipped or drawn out of order is a statement about entire executions", "anchors": ["pyDeltaRCM/shared_tools.py:random_pick", "pyDeltaRCM/shared_tools.py:get_start_indices", "pyDeltaRCM/water_tools.py:_choose_next_directions", "pyDeltaRCM/sed_tools.py:BaseRouter._choose_next_location"]}
{"id": "C67", "title": "The output file holds the history of the run", "statement": "For every choice of output switches that saves something, entry k of the output file shows the model as it stood after some number of updates: the time, exactly the switched-on grids each under its own variable name, the sea level and the configured bedload fraction, concentration and inlet velocity. The numbers of updates increase strictly from zero, there are no gaps, and going on with the run never alters earlier entries.", "quantifier": "all configurations, switch choices, random generators, numbers of updates and all arithmetics (including every rounding to four-byte storage)", "why_tests_cant": "Tests open one file and compare the shapes or a few values; a variable paired with the wrong field, or an entry overwritten or skipped at some later save, shows only for particular switch combinations and run lengths.", "anchors": ["pyDeltaRCM/iteration_tools.py:save_grids_and_figs", "pyDeltaRCM/iteration_tools.py:save_grids", "pyDeltaRCM/iteration_tools.py:output_data", "pyDeltaRCM/init_tools.py:init_output_file", "pyDeltaRCM/init_tools.py:init_metadata_list"]}
{"id": "C68", "title": "A resumed run completes the output file", "statement": "A run that is interrupted at any point and resumed from any of its checkpoints leaves an output file equal to that of one uninterrupted run: nothing lost, repeated or misplaced, whatever the interrupted run had written after the checkpoint. If the output file has gone, the new file holds exactly the entries that the uninterrupted run would have saved after the checkpoint. (The time since the last record, at the checkpoint, is taken to be a whole number of seconds; see C36.)", "quantifier": "all configurations, switch choices, interruption points, checkpoints of the run, later contents of the file, and lengths of both parts", "why_tests_cant": "Tests resume once, from one checkpoint, and check that the file grew; that every pairing of interruption and resumption leaves the same file is a statement about all runs.", "anchors": ["pyDeltaRCM/init_tools.py:load_checkpoint", "pyDeltaRCM/init_tools.py:init_output_file", "pyDeltaRCM/iteration_tools.py:save_grids", "pyDeltaRCM/iteration_tools.py:save_the_checkpoint"]}
{"id": "C69", "title": "A job's written configuration reads back as given", "statement": "The configuration that the preprocessor writes to a job's file loads, with the project's YAML loader, as the same configuration: None, truth values, integers, finite floats in every notation Python prints (including 1e-05) and plain texts come back under their keys, and appending a second configuration updates the first. The folder of every job comes back for every output folder whose name has no \": \" or \" #\" and no special first character. Numbers in scientific notation with or without a signed exponent are read as floats. Texts outside these conditions do not all come back: a folder name is cut at \" #\", and texts that look like numbers or truth values change type.", "quantifier": "all configurations with scalar values and parameter names as keys; all integers; all float notations; all folder names; all numbers of jobs", "why_tests_cant": "Tests write a few values; whether the pattern for floats and the other patterns of the YAML library separate all integers, floats and texts is a statement about all strings.", "anchors": ["pyDeltaRCM/preprocessor.py:_write_yaml_config_to_file", "pyDeltaRCM/shared_tools.py:custom_yaml_loader", "pyDeltaRCM/preprocessor.py:BasePreprocessor._write_job_configs", "pyDeltaRCM/init_tools.py:import_files"]}
{"id": "C70", "title": "The header of the output file describes the domain", "statement": "A new output file exists exactly when something is to be saved. Its x and y coordinates are the distances in metres of rows and columns (row or column number times cell size), the number of rows and columns match the configured length and width to within half a cell, and every saved grid is laid out by time, x and y. The fixed metadata describe the domain: N0 channel cells in each of the first L0 rows, land elsewhere in them, column CTR among the channel cells, no channel or land below; dx and h0 as configured; hb the initial depth past the inlet strip; with subsidence, the lowering per time step in each cell and the start of subsidence with its fraction of a second dropped. In the legacy format x and y count cells (columns and rows) although labelled metres. The discharge grids, which hold speed times depth, are labelled cubic metres per second instead of square metres per second.", "quantifier": "all accepted configurations, choices of output switches, both file formats, all seeds and generators, any rounding of stored numbers", "why_tests_cant": "Tests look at the metadata of one model; that cell counts, channel position and coordinates agree with the domain for every size and inlet is a statement about all configurations.", "anchors": ["pyDeltaRCM/init_tools.py:init_output_file", "pyDeltaRCM/init_tools.py:init_metadata_list", "pyDeltaRCM/init_tools.py:create_domain", "pyDeltaRCM/init_tools.py:init_subsidence", "pyDeltaRCM/model.py:DeltaModel.legacy_netcdf", "pyDeltaRCM/model.py:DeltaModel.save_discharge_grids"]}
{"id": "C71", "title": "The command line asks for what its options say", "statement": "Each option of the command line becomes the setting it names (time steps an integer, times floats, parallel true or a number of processes), options not given leave the configuration file's setting in place, and the jobs are those the Python interface makes for the same file and settings; a duration that is not a number is refused before anything is written. With several jobs every job has the options' settings. Without a file, the one job runs for the duration the options ask for: time steps, else seconds, else years, the latter two scaled by the intermittency factor. Against the help text, a time on the command line does not override time steps given there or in the file; and a dry run asked for in the file is not honoured, because the command line always says whether to make one.", "quantifier": "all command lines (option values arbitrary texts), all files, all states of the disk", "why_tests_cant": "Tests call the program with a few fixed option lists; the precedence among options, file and defaults has to hold for every combination.", "anchors": ["pyDeltaRCM/preprocessor.py:PreprocessorCLI", "pyDeltaRCM/preprocessor.py:PreprocessorCLI.process_arguments", "pyDeltaRCM/preprocessor.py:BasePreprocessor._prelim_config_parsing", "pyDeltaRCM/preprocessor.py:_BaseJob"]}
{"id": "C72", "title": "Left and right are treated alike", "statement": "In exact arithmetic the rules have no preferred side. Seen in a mirror, every direction a water or sediment parcel may take has the same weight; and whatever a run does and writes (fields, output records, checkpoints, clock), the run of the mirrored model from the mirrored state does and writes the mirror image of it for some sequence of random variates, of which exactly so many are used. A new model, on the other hand, is not symmetric: its centre column lies left of the middle, so a basin with ocean cells is never its own mirror image, and the inlet is in the middle only if width and inlet are both even, or the width is odd and the inlet one more than a multiple of four. In binary64, sums are taken from left to right and the weights of a mirrored cell can differ.", "quantifier": "all parameters, all states a model can run from, any number of updates, all generators of variates in (0, 1); for the layout all accepted configurations with at least six columns", "why_tests_cant": "A test sees one run; a bias to one side shows only in the statistics of many runs, and symmetry of the rules is a statement about all states and all variates.", "anchors": ["pyDeltaRCM/water_tools.py:water_tools.run_water_iteration", "pyDeltaRCM/water_tools.py:_get_water_weight_array", "pyDeltaRCM/sed_tools.py:BaseRouter", "pyDeltaRCM/init_tools.py:create_other_variables", "pyDeltaRCM/init_tools.py:create_domain", "pyDeltaRCM/model.py:DeltaModel.update"]}
{"id": "C73", "title": "Output settings do not disturb the run", "statement": "Switching any figure or grid on or off, changing the saving or checkpoint interval, the output directory, verbosity, metadata, clobbering or file format leaves the simulation itself untouched: two configurations that give every other parameter the same value start the same model and, after any number of updates, are in the same state (bed, stage, depth, water and sediment fields, velocity, sand fraction, clock, sea level, random generator), or stop with the same exception. Everything written by one of the runs is a state that the other run passes through too.", "quantifier": "all pairs of configurations (file, keyword arguments or both) that differ in the 25 output parameters only, all numbers of updates, all arithmetics including binary64, all generators", "why_tests_cant": "Saving code runs inside the update; whether it draws a random number, touches a field or shifts the clock for some setting can be seen by a test only for the settings and steps it tries.", "anchors": ["pyDeltaRCM/iteration_tools.py:iteration_tools.output_data", "pyDeltaRCM/iteration_tools.py:iteration_tools.output_checkpoint", "pyDeltaRCM/model.py:DeltaModel.update", "pyDeltaRCM/init_tools.py:init_tools.import_files"]}
{"id": "C74", "title": "Debugging plots mark the cells they are given", "statement": "The debugging methods that draw on a map put each cell where it is: a point given as a flat number, a pair or an array of numbers is drawn at its column across and its row down, all of them in order, up to the first point that is malformed or beyond the domain, which raises IndexError or ValueError; lines through arrays of flat numbers join their cells, with cell zero left out on request, one line for each column of a table; an attribute is shown if and only if it is a two-dimensional array, with TypeError, ValueError or AttributeError otherwise. Exceptions: a line given as pairs is drawn with row and column exchanged; a list of numbers or pairs given for a line raises AttributeError, an empty list UnboundLocalError, a list of tables gives one line for each table, and only the last line of a list is returned; the number one past the last cell and negative numbers are drawn outside the map.", "quantifier": "all domain shapes, all cells and lists of cells, all forms in which they may be given", "why_tests_cant": "Tests compare images of a few examples, in which a transposed line or a point one past the end is not noticed.", "anchors": ["pyDeltaRCM/debug_tools.py:debug_tools.show_attribute", "pyDeltaRCM/debug_tools.py:debug_tools.show_ind", "pyDeltaRCM/debug_tools.py:debug_tools.show_line", "pyDeltaRCM/debug_tools.py:plot_ind", "pyDeltaRCM/debug_tools.py:plot_line"]}
{"id": "C75", "title": "The bed changes where sediment goes, and diffusion only averages", "statement": "In a completed update a cell that no sand parcel was in or next to and no mud parcel reached keeps its active layer, keeps its bed elevation except for subsidence, and without subsidence keeps its sand fraction (inlet cells are set separately). A diffusion pass whose fluxes are not negative and leave a cell a weight of its own gives a cell away from the border an elevation within the range of its own and its neighbours' elevations; all passes of a step keep the bed within any range that contains both the bed and the zero level. Exceptions: at the border of the grid the level beyond counts as zero, so that even a level bed moves there; with fluxes too large for the multiplier a pass overshoots.", "quantifier": "all domains, states, generators and completed updates; all cells; all fluxes and multipliers meeting the stated condition", "why_tests_cant": "Locality is a statement about every cell a parcel did not visit, in every update; overshooting needs fluxes that tests do not try.", "anchors": ["pyDeltaRCM/sed_tools.py:sed_tools.route_all_sand_parcels", "pyDeltaRCM/sed_tools.py:sed_tools.topo_diffusion", "pyDeltaRCM/sed_tools.py:BaseRouter", "pyDeltaRCM/sed_tools.py:sed_tools.route_all_mud_parcels"]}
{"id": "C76", "title": "Binary64 arithmetic rounds correctly and routes water like rounded reals", "statement": "Every operation of the binary64 model on finite numbers gives the exact result rounded to nearest with ties to even, or the infinity of its sign when the rounded result is too large; comparisons and roundings to integers are exact. With a domain of at most 10000 by 10000 cells, an inlet of at most 900 cells, a depth exponent of 0, 1 or 2, gamma between 0 and 1, depths and hook weights that are not negative and all fields of at most 10^30 in size, the weights of the water routing in binary64 are finite, at most 1 in size and equal to the weights computed in rounded reals; all parcels take the same paths and draw the same variates as in rounded reals; and if the domain is ready for routing and no variate is zero, an iteration of the water routing in binary64 completes without exception or NaN, with the parcels walking as C08 and C09 say. With at most 10^6 parcels and steps, six iterations, ten smoothing passes, a dry depth of at least 10^-10, a cell size between 10^-6 and 10^6 and relaxation factors between 0 and 1, a whole routing of water in binary64 (parcels, free surface, smoothing, flooding of dry cells, depths, discharges, velocities, in all iterations) ends like the routing in rounded reals: the same exception, or fields without NaN or infinity whose values are exactly the rounded ones. From a domain ready for routing it always completes, and then in every cell the surface is not below sea level, the depth is the rounded difference of surface and bed or zero, and the speed is between 0 and the greatest speed and 0 in dry cells. An ordinary configuration (cells of 10^-3 to 10^5 m, between 8 by 5 and 10000 by 10000 of them, flow speed and depth between 10^-3 and 10^3, slope such that gamma is a fraction, two to six iterations; the documented defaults are ordinary) gives in binary64 the model it gives in rounded reals, and the first routing of water of that model completes in binary64. The weighted choice returns an index in range. Exception: with surfaces near the largest binary64 number the routing stops with RuntimeError.", "quantifier": "all finite binary64 numbers; all domains, fields and generators within the stated sizes", "why_tests_cant": "Overflow, NaN and rounding in intermediate results depend on all values of all fields; no test set covers them.", "anchors": ["pyDeltaRCM/water_tools.py:water_tools.run_water_iteration", "pyDeltaRCM/water_tools.py:_get_weight_at_cell_water", "pyDeltaRCM/water_tools.py:_check_for_loops", "pyDeltaRCM/water_tools.py:water_tools.compute_free_surface", "pyDeltaRCM/water_tools.py:water_tools.finalize_water_iteration", "pyDeltaRCM/water_tools.py:water_tools.route_water", "pyDeltaRCM/init_tools.py:init_tools.create_boundary_conditions", "pyDeltaRCM/init_tools.py:init_tools.create_domain", "pyDeltaRCM/shared_tools.py:random_pick", "pyDeltaRCM/shared_tools.py:get_start_indices"]}
{"id": "C77", "title": "The log of a run", "statement": "Logging does not change what a model does, at any verbosity; a more verbose model writes the same lines and further ones, and nothing is added beyond verbosity 2. Every completed update writes one time line with the time and step just reached, and prints it exactly when the verbosity is positive; a failing update writes none; the time lines of a run are steps 0 to n at k time steps. From verbosity 1 on each record (with its number), each checkpoint and each lowering of the bed is announced, and no other; unequal intervals are warned about at each checkpoint at any verbosity. From verbosity 0 on the log of a new model lists the resolved configuration, once and in order, and one seed line; that seed repeats the run. The log of a resumed model does not list the configuration and starts at the time of the checkpoint. A model with its own logger writes every line once and touches no other log. Exceptions: a negative verbosity omits the seed and the configuration; the seed line of a resumed model is not the seed of its random numbers; a failing second finalize is logged like the first; the sediment routing logs 'Initializing water iteration' once more; step numbers from a million on are rounded to six digits (to the nearest, ties to even); two models in one folder in one second write every later line twice.", "quantifier": "all verbosities, configurations, checkpoints, generators, numbers of updates and arithmetics", "why_tests_cant": "Log lines depend on verbosity, schedule and failures in combination; tests look at single lines of single runs.", "anchors": ["pyDeltaRCM/iteration_tools.py:iteration_tools.log_info", "pyDeltaRCM/iteration_tools.py:iteration_tools.log_model_time", "pyDeltaRCM/init_tools.py:init_tools.init_logger", "pyDeltaRCM/init_tools.py:init_tools.process_input_to_model", "pyDeltaRCM/init_tools.py:init_tools.determine_random_seed", "pyDeltaRCM/model.py:DeltaModel.update", "pyDeltaRCM/model.py:DeltaModel.finalize"]}
{"id": "C78", "title": "The zero of elevations", "statement": "Counting all elevations (bed, water surface, sea level) from another zero changes nothing else: the water parcels take the same paths, the sand and mud parcels drop and pick up the same volumes, and the fields, clocks, variates, records and checkpoints of n updates are those of the original run with elevations shifted. For whole runs this needs the levels to stay at or above zero, a sea that does not fall and no diffusion of sand across the rim of the grid; a new model with a sea level at or above zero meets the first for every lower zero. Exceptions: a dry shore cell whose wet neighbours are all below zero is flooded to zero, and cross-slope diffusion treats cells outside the grid as lying at elevation zero, so that a level bed at elevation z moves towards zero where sand passed the rim, by exactly multiplier * flux * missing neighbours * z. The configured sea level moves the sea of a new model only, not its bed or water surface.", "quantifier": "all states, constants, generators, shifts and numbers of updates, over the reals", "why_tests_cant": "The zero of elevations is a convention that no single test varies; the equality of two whole runs ranges over all states.", "anchors": ["pyDeltaRCM/water_tools.py:water_tools.run_water_iteration", "pyDeltaRCM/water_tools.py:water_tools.flooding_correction", "pyDeltaRCM/sed_tools.py:sed_tools.route_sediment", "pyDeltaRCM/sed_tools.py:sed_tools.topo_diffusion", "pyDeltaRCM/init_tools.py:init_tools.create_domain", "pyDeltaRCM/model.py:DeltaModel.H_SL"]}
{"id": "C79", "title": "The sediment account of a run", "statement": "In every completed run the volume of the bed changes by exactly the sum, over the updates, of: the sediment brought by the parcels, minus what the parcels still carry when their journeys end, minus what diffusion moves out of the grid, plus what diffusion moves in from land and the first row, minus subsidence, plus the resetting of the inlet bed. The sediment brought is the configured discharge (u0 * h0 * inlet width * C0) times the elapsed time when the share of sand is a whole number of parcels; otherwise one parcel of each update is missing, a factor 1 - 1/Np_sed. Subsidence takes rate * dt from each row past the inlet once it has started, and nothing before. Parcels never end with a negative volume, so the bed never gains more than was delivered, apart from diffusion and the resetting of the inlet.", "quantifier": "all accepted configurations, generators, states and numbers of updates, over the reals", "why_tests_cant": "A balance over a whole run is a statement about sums over all parcels, cells, passes and updates; a test sees one run within rounding.", "anchors": ["pyDeltaRCM/sed_tools.py:sed_tools.route_sediment", "pyDeltaRCM/sed_tools.py:sed_tools.topo_diffusion", "pyDeltaRCM/sed_tools.py:BaseRouter", "pyDeltaRCM/iteration_tools.py:iteration_tools.apply_subsidence", "pyDeltaRCM/iteration_tools.py:iteration_tools.finalize_timestep", "pyDeltaRCM/init_tools.py:init_tools.create_other_variables", "pyDeltaRCM/model.py:DeltaModel.update"]}
{"id": "C80", "title": "From a configuration of several jobs to the output of each", "statement": "When the preprocessor accepts a configuration of several jobs and each job's configuration is complete (values that give a model that runs, a seed and a duration, all of kinds that can be written to a file and read back), then running the jobs in parallel finishes every one of them. Each job did what its own configuration says: its final state and output are those of a new model of that configuration after the least number of updates that reach the duration asked for, whatever the random generators held before; there is no other outcome. With a matrix every combination of its values is run exactly once, with an ensemble once for each seed, each in a numbered folder of its own; the output file of a job shows that run. A job whose configuration file was edited before the run does what the edited file says, and reading the jobs' files fails with FileNotFoundError exactly when the file of some job is gone.", "quantifier": "all configurations, disks, generators and orders of keys, over the reals", "why_tests_cant": "It joins expansion, writing and reading of files, configuration, construction, the loop and the output; a test runs one small matrix.", "anchors": ["pyDeltaRCM/preprocessor.py:BasePreprocessor.construct_file_list", "pyDeltaRCM/preprocessor.py:BasePreprocessor.run_jobs", "pyDeltaRCM/preprocessor.py:_ParallelJob", "pyDeltaRCM/preprocessor.py:_BaseJob", "pyDeltaRCM/model.py:DeltaModel"]}
{"id": "C81", "title": "Jobs that resume from checkpoints", "statement": "A job whose configuration asks to resume continues the interrupted run: it makes the least number of updates that reach the duration asked for, counted from the time of the checkpoint, and ends where the run that was not interrupted is after the updates before the checkpoint plus those of the job. So a job of k steps resumed after i updates ends after i + k updates. Run in a parallel process, where the model is first made without touching any output and the checkpoint is loaded a second time, the outcome is that of the same job run serially, and the files of its folder are changed by the same operations in the same order, with the same exception if one is raised; making the job touches nothing.", "quantifier": "all configurations, checkpoints of runs, folders, generators; the first and last parts over the reals, the parallel part for every arithmetic", "why_tests_cant": "Needs a run, a checkpoint at any step and a resumed job under both schedulers; the tests resume one model without the preprocessor.", "anchors": ["pyDeltaRCM/preprocessor.py:_BaseJob", "pyDeltaRCM/preprocessor.py:_SerialJob", "pyDeltaRCM/preprocessor.py:_ParallelJob", "pyDeltaRCM/init_tools.py:init_tools.load_checkpoint", "pyDeltaRCM/model.py:DeltaModel"]}
{"id": "C82", "title": "Assigning configuration values to a model in use", "statement": "Every configuration value can be assigned to a model that has been made; what that does depends on the value. Smoothing, underrelaxation, rate and start of sea-level rise and subsidence, the thickness of the active layer, the saving and checkpoint intervals and the boundary's composition act from the next update on exactly as if they had been configured, and before the first update they make the model of the changed configuration. The transport coefficients, the routing coefficients of sand and mud, the lag, the exponent of the flow, diffusion, the inlet's length and width, the depth of the basin, the subsidence rate, the concentration and the seed are stored, change nothing of the further run although configured they would have, and some of them (exponent, lag, diffusion, inlet's dimensions, concentration) take effect unannounced when a public inlet attribute is assigned later; thresholds, exponents of sand and mud, basin depth, size and inlet cells never change whatever is done. Four values act in part: the routing exponent of water leaves those of sediment, the slope leaves the weight of inertia, the number of iterations leaves the underrelaxation derived from it, and the number of sediment parcels leaves their volume, so n parcels instead of the configured k deliver n/k times the supply. A saving interval leaves the checkpoint interval that was derived from it. An assignment is refused with ValueError exactly when the configuration with the value would be.", "quantifier": "all configurations, values, generators, numbers of updates before and after; sequences of updates and assignments; the first three parts and the unchanging constants for every arithmetic, the rest over the reals", "why_tests_cant": "Each setter has a test that the value is stored; whether the run then follows it is a statement about all later updates compared with a model made differently.", "anchors": ["pyDeltaRCM/model.py:DeltaModel", "pyDeltaRCM/init_tools.py:init_tools.create_other_variables", "pyDeltaRCM/init_tools.py:init_tools.create_boundary_conditions", "pyDeltaRCM/init_tools.py:init_tools.init_sediment_routers"]}
{"id": "C83", "title": "Speed and concentration set the pace of a run", "statement": "Let a configuration have water that flows a times as fast and brings sediment b times as fast: inlet speed times a, concentration times b/a, rates of sea-level rise and subsidence times b, start of subsidence, saving and checkpoint intervals divided by b. Then, on a bed without slope (or with a = 1), every run makes the same delta update by update with the same random numbers: bed, depth, water surface, sea level, sand fraction and cell types are equal, velocities and discharges a times as large, the sand flux b times as large, and the clock b times as slow; the same exceptions are raised and the same records and checkpoints written. Without sea-level rise and subsidence the concentration alone only sets the pace: k times the concentration makes the same delta after the same number of updates in a k-th of the time. On a sloping bed the inlet speed does more than that: the weight given to the slope of the water surface falls with its square.", "quantifier": "all configurations, factors a, b, k > 0, generators, seeds and numbers of updates; all models and states for the update-by-update statement; exact arithmetic", "why_tests_cant": "A similarity law relates whole runs of different configurations; a test can only compare two runs within rounding, at a few factors.", "anchors": ["pyDeltaRCM/init_tools.py:init_tools.create_boundary_conditions", "pyDeltaRCM/water_tools.py:water_tools.route_water", "pyDeltaRCM/sed_tools.py:sed_tools.route_sediment", "pyDeltaRCM/iteration_tools.py:iteration_tools.apply_subsidence", "pyDeltaRCM/model.py:DeltaModel.update"]}
{"id": "C84", "title": "Interrupted, resumed and branched runs are one run", "statement": "With one configuration a user may begin a run in an unused folder, go on in a folder (resume_checkpoint true), or branch off from the checkpoint of another folder into an unused one (resume_checkpoint with that folder), any number of times and with any interruptions, after which only a beginning of what was to be written is on disk. A folder with a checkpoint can always be resumed from; the resumed model stands at a point of the one uninterrupted run and does the same from there on, or fails in the same way, whatever the random generators held. If a whole number of seconds has passed since the last record at every step (as with time steps of whole seconds), every folder shows the uninterrupted run from one of its records on: no record twice, missing or left over; begun folders from the first, branches from the first record not yet written at their checkpoint; a session that ends normally completes the file up to its last update. Only the folder of a process changes. Exceptions: a branch has no record of the state it begins with, and running a branch again with the same resume_checkpoint folder goes back to the origin's checkpoint, numbers its records from the origin's count and leaves a file with gaps. Starting a new run in a folder with an output file raises FileExistsError, and resuming from a folder without a checkpoint FileNotFoundError.", "quantifier": "all configurations, generators, choices of what is saved, folders, numbers of updates, places of interruption and sequences of these actions; every arithmetic", "why_tests_cant": "A test can resume once or twice from chosen points; the claim is about every sequence of interruptions and branches.", "anchors": ["pyDeltaRCM/model.py:DeltaModel.__init__", "pyDeltaRCM/model.py:DeltaModel.resume_checkpoint", "pyDeltaRCM/init_tools.py:init_tools.load_checkpoint", "pyDeltaRCM/init_tools.py:init_tools.init_output_file", "pyDeltaRCM/iteration_tools.py:iteration_tools.save_the_checkpoint", "pyDeltaRCM/iteration_tools.py:iteration_tools.save_grids_and_figs"]}
{"id": "C85", "title": "Going on from a checkpoint with another configuration", "statement": "A model resumed with another configuration than the one the checkpoint was made with has the constants, attributes and cell types of a new model of that configuration, and the fields, clock, sea level and random generator of the checkpoint. If grid, land strip, channel width and step limit are the same, the run goes on from the state of the checkpoint exactly as if the constants of the run had been exchanged at that step, failing in the same way if at all. For the settings an update reads directly (smoothing, underrelaxation, sea level rise, start of subsidence, active layer, boundary composition, intervals) this is the same as assigning the value to the running model at that step; settings that are only used when a model is made, which have no effect when assigned, do take effect on resuming. The seed and the output settings of the new configuration do not matter: branches of one checkpoint that differ in their seeds are all the same run. A configuration that can be run can be resumed with from any checkpoint of its grid and never fails. Exception: resuming with a wider inlet turns dry land into channel cells whose depth is not that of the channel.", "quantifier": "all configurations with which a model can be made, checkpoints of all runs, generators, numbers of updates before and after; every arithmetic (constants: exact arithmetic)", "why_tests_cant": "A test can change one setting at one checkpoint; the claim is about every change, checkpoint and later step, including that seeds have no effect.", "anchors": ["pyDeltaRCM/model.py:DeltaModel.__init__", "pyDeltaRCM/init_tools.py:init_tools.load_checkpoint", "pyDeltaRCM/init_tools.py:init_tools.create_domain", "pyDeltaRCM/init_tools.py:init_tools.create_boundary_conditions", "pyDeltaRCM/shared_tools.py:set_random_state"]}
{"id": "C86", "title": "Horizontal distances set the scale of a delta", "statement": "In exact arithmetic, enlarging every horizontal distance of a configuration (length and width of the basin, cell size, length of the land strip, width of the inlet) by the same factor k, with the slope k times as gentle, the diffusion coefficient k times as large, the rates of sea-level rise and subsidence k times as slow and the given times and intervals k times as long, gives the same delta on cells k times as wide: after every update bed, water surface, depth, velocities, discharges and sand flux per unit width, cell types, sea level and random numbers are the same, the deposited volumes k*k times as large and the model time k times as long; the same records and checkpoints are written at k times the times, and runs fail with the same exception or not at all. The sand fractions are also the same, except that a step's deposit counts when its mud exceeds 10^-6 cubic metres whatever the size of the cells. Heights do not scale like this: the depth below which cells count as dry is 0.1 m for every channel deeper than 1 m.", "quantifier": "all factors k > 0, all configurations, all model states, generators and numbers of updates; exact real arithmetic", "why_tests_cant": "It relates two whole runs of different configurations at every step; a test could compare a few pairs and would see rounding differences.", "anchors": ["pyDeltaRCM/init_tools.py:init_tools.create_boundary_conditions", "pyDeltaRCM/init_tools.py:init_tools.create_domain", "pyDeltaRCM/init_tools.py:init_tools.create_other_variables", "pyDeltaRCM/init_tools.py:init_tools.init_subsidence", "pyDeltaRCM/water_tools.py:_accumulate_free_surface_walks", "pyDeltaRCM/sed_tools.py:BaseRouter", "pyDeltaRCM/sed_tools.py:sed_tools.topo_diffusion", "pyDeltaRCM/iteration_tools.py:iteration_tools.compute_sand_frac"]}
{"id": "C87", "title": "Classes derived from the model class", "statement": "A derived class may change anything in its hooks. Whatever it does, as long as the hooks called after the levels of a step are settled leave bed, stage, depth and sea level alone, every update ends with the depth that of bed and stage, the stage nowhere below the sea level of the step, the inlet at its depth and the sea risen by rate times step. Hooks that leave clock and intervals alone do not change when records and checkpoints are written; kinds of cells and modifiers change by hooks only. Changes made only at the beginning of updates amount to library updates with the constants and fields chosen for each, provided the routers have the constants of the model; the routers keep the constants they were built with until they are built again. A class whose changes follow from what a checkpoint holds goes on after a resume as if it had not been interrupted; so does the documented class that switches the bedload fraction, although its switches are not saved, and the documented class with a changing velocity if it builds the routers again. Defining a hook under one of the two deprecated names is refused, and the deprecated methods run_one_timestep and sed_route perform the calls of the new ones.", "quantifier": "all hooks of derived classes (any functions of constants, routers, fields and own attributes), all configurations, states, generators, numbers of updates before and after a resume; every arithmetic (end of step and bedload class: every rounding)", "why_tests_cant": "Hooks are arbitrary code supplied by users; a test can only try some classes.", "anchors": ["pyDeltaRCM/hook_tools.py:hook_tools", "pyDeltaRCM/hook_tools.py:hook_tools._check_deprecated_hooks", "pyDeltaRCM/model.py:DeltaModel.update", "pyDeltaRCM/iteration_tools.py:iteration_tools.run_one_timestep", "pyDeltaRCM/sed_tools.py:sed_tools.sed_route", "pyDeltaRCM/sed_tools.py:SandRouter.__init__", "pyDeltaRCM/sed_tools.py:MudRouter.__init__", "pyDeltaRCM/init_tools.py:init_tools.init_sediment_routers", "docs/source/examples/variable_velocity.rst", "docs/source/examples/variable_bedload.rst"]}
{"id": "C88", "title": "Only the cells of the domain matter", "statement": "Two model states with the same numbers in every cell of the domain, the same scalars and the same generator behave the same through any number of updates: the same exception, or the same numbers in every cell, the same records and the same checkpoints. Nothing outside the arrays is ever read: no window at an edge, no shifted copy, no step of a parcel, no convolution. Of the fields an update looks only at bed, water surface, depth, discharges, velocities, composition, cell types and hook arrays, besides sea level, clock and generator; leftovers of the previous step do not matter. Two checkpoints with the same numbers in every cell resume to the same run.", "quantifier": "all arithmetics, generators, parameters with at least one row and one column, pairs of states agreeing in the domain, numbers of updates; all pairs of checkpoints with equal contents", "why_tests_cant": "An access outside an array reads neighbouring memory in compiled code and usually goes unnoticed; no test compares two runs that differ outside their arrays.", "anchors": ["pyDeltaRCM/shared_tools.py:custom_pad", "pyDeltaRCM/water_tools.py:_get_water_weight_array", "pyDeltaRCM/water_tools.py:_check_for_loops", "pyDeltaRCM/water_tools.py:_accumulate_free_surface_walks", "pyDeltaRCM/water_tools.py:_smooth_free_surface", "pyDeltaRCM/water_tools.py:water_tools.flooding_correction", "pyDeltaRCM/sed_tools.py:BaseRouter._choose_next_location", "pyDeltaRCM/sed_tools.py:sed_tools.topo_diffusion", "pyDeltaRCM/model.py:DeltaModel.update", "pyDeltaRCM/init_tools.py:init_tools.load_checkpoint"]}
{"id": "C89", "title": "With one kind of sediment, the settings of the other do not matter", "statement": "With no bed load, a model with other values for the routing exponent of sand, its erosion threshold or the coefficient of topographic diffusion gives the same run: the same fields, records, checkpoints, exceptions. With bed load alone, the same holds for the routing exponent of mud, its two velocity thresholds and the sediment lag. With no bed load no time step deposits sand, and after any number of time steps every cell has, at the surface and in the active layer, the sand fraction of the undisturbed bed or zero; with bed load alone no time step deposits mud, and every cell has that fraction or one.", "quantifier": "all configurations with bed-load fraction 0 or 1, all values of the settings of the missing grain, all generators, roundings of arithmetic and numbers of updates; all models in any state with such fractions", "why_tests_cant": "The settings are real numbers and runs are random and long; a test compares a few values on a few steps, and a constant used for the wrong grain changes results only slightly.", "anchors": ["pyDeltaRCM/sed_tools.py:sed_tools.route_sediment", "pyDeltaRCM/sed_tools.py:sed_tools.route_all_sand_parcels", "pyDeltaRCM/sed_tools.py:sed_tools.route_all_mud_parcels", "pyDeltaRCM/sed_tools.py:sed_tools.topo_diffusion", "pyDeltaRCM/sed_tools.py:SandRouter", "pyDeltaRCM/sed_tools.py:MudRouter", "pyDeltaRCM/iteration_tools.py:iteration_tools.compute_sand_frac", "pyDeltaRCM/init_tools.py:init_tools.create_other_variables", "pyDeltaRCM/init_tools.py:init_tools.create_boundary_conditions"]}
{"id": "C90", "title": "Neutral settings switch smoothing and diffusion off", "statement": "The smoothing of the water surface is off when a cell's own value has all the weight (Csmooth 1), when there are no passes (Nsmooth 0 or less), or when nothing of the new surface is taken over (omega_sfc 0). In each case a run does not depend on the settings of smoothing that are then without meaning: other values give the same fields, records, checkpoints and exceptions. With a diffusion coefficient alpha of zero the diffusion of the bed leaves every bed as it is.", "quantifier": "all configurations with such settings, all other values that are accepted, all generators and numbers of updates; all states of a model with alpha zero; exact arithmetic", "why_tests_cant": "The settings are numbers and runs are long; tests use the default weight, and a weight applied to the wrong term still gives a plausible smooth surface.", "anchors": ["pyDeltaRCM/water_tools.py:water_tools.compute_free_surface", "pyDeltaRCM/water_tools.py:_smooth_free_surface", "pyDeltaRCM/sed_tools.py:sed_tools.topo_diffusion", "pyDeltaRCM/init_tools.py:init_tools.create_boundary_conditions"]}
