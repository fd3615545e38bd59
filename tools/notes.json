{
"C01": "Polymorphic in the number type.",
"C02": "find_shoreline with any interpolant through the data; scipy's bisection loop is modelled. Profile width bounded by 1e18 (100 halvings).",
"C03": "Refuted: a profile whose first and last columns are both submerged but has an island raises ValueError (search interval wraps to x[-1]). Partial theorem: characterises exactly when it fails.",
"C04": "",
"C05": "",
"C06": "Any curve, including one that raises; linear tables through the spec relation on_curve.",
"C07": "Over the reals.",
"C08": "kind='linear' only.",
"C09": "Refuted: interp1d is created with bounds_error=True, so the step raises ValueError. Partial: what happens instead, for every time outside the table.",
"C10": "kind='linear'. Rejected tables leave the old rate in force.",
"C11": "kind='linear'.",
"C12": "",
"C68": "Refuted: a shore landward of the grid is kept and the whole profile is under water. Partial: a shore seaward of the grid is moved inside.",
"C13": "Over the reals; the model shows the internal division never divides by zero.",
"C14": "",
"C15": "Any relaxation time accepted by the constructor, any history.",
"C16": "Refuted for grids of more than one row: the relaxed fraction is divided by the number of rows. Partial: exact on one row, for single steps and through any history from construction; on any grid never faster than the e-folding time.",
"C17": "",
"C18": "Any plate solver. Relaxation conserves the deflection.",
"C19": "",
"C69": "Any plate solver.",
"C20": "After any history. The first row uses the load computed by the previous call (see C21); stated explicitly through level_used.",
"C21": "Refuted: the load is refreshed inside the row loop after the first row has used it. Partial: all other rows, all land, everywhere if the load does not depend on sea level, and everywhere from the second call on.",
"C22": "Refuted: k[-1, :] = k[-1, :] leaves the top row zero for ever. Partial: bottom row.",
"C23": "Any diffusion solver.",
"C24": "k_land = load / plain_slope proved for every history. Refuted: assigning sediment_load uses the sea level of construction instead of the current one. Partial: holds after every calculation.",
"C25": "Refuted in doubles (NaN on a flat delta plain with a mud-free river). Partial: in [0,1] over the reals; never below 0 nor above 1 in any arithmetic, doubles included.",
"C26": "Refuted: np.divide and np.clip write into a temporary copy, so submerged nodes always have sand fraction 0. Partial: characterises the actual value.",
"C27": "Refuted in the first column (taper starts at column 1). Partial: everything else; C27_mud_exact gives the exact amount at every node.",
"C28": "Over the reals, any interpolator, any parameters.",
"C29": "Counts in any arithmetic; contents (archived column = unarchived column with its first groups of ten merged, under any deposition and erosion) over the reals.",
"C30": "Any stack and any range; whole-history thickness through archiving.",
"C31": "Any sequence of additions, removals and merges, over the reals.",
"C33": "Exact (real) arithmetic: the run, with or without until and dt, equals a list of updates whose lengths, number and final time are as stated.",
"C34": "Refuted in IEEE doubles (machine-checked binary64 run): run(until=1.0, dt=0.1) from 0 ends at 0.9999999999999999. Proved for numbers that are exact in binary and, for any doubles, up to an explicit rounding bound. Missing for the full claim: it is false.",
"C35": "Refuted: Sequence.update never applies bedrock_surface__increment_of_elevation. Proved instead: bedrock and increment stay as the components left them.",
"C36": "Refuted: at_row has n_rows entries, the per-layer row record n_rows+2. Proved: always ValueError unless n_rows = 1, and always success for n_rows = 1.",
"C37": "One record per update in any arithmetic, with the age, sea level, shores and shelf edges recorded; ages of any history of nonnegative steps in exact arithmetic.",
"C32": "Sequence in any arithmetic. SequenceModel over the reals, constructed on a grid whose bedrock lies 100 below the surface (load_grid builds such grids: C32_load_grid_hundred); a grid with another bedrock is balanced only after the first step. C32_deposits_not_carried holds in any arithmetic.",
"C38": "Over the reals. full_steps pins n to floor((stop-start)/step), 0 if stop < start. The log of component calls is kept by wrapping each component. C38_never_ends shows that step > 0 and a stop are needed.",
"C39": "Refuted: run_one_step(dt) moves the clock by its own step whatever dt is, and dt = 0 runs the components by a full step. The partial theorem says what is true of every dt.",
"C40": "Over the reals.",
"C41": "Any arithmetic; the zero on dry nodes over the reals.",
"C42": "Refuted: erosion is weighed before it is cut off at the sediment present (_update_fields uses the requested deposit). Partial: holds when no cell is eroded by more than its sediment; the requested weight is always what is added.",
"C70": "Over the reals. Components are required to succeed on ready grids and to leave them ready.",
"C43": "load_processes modelled with an arbitrary constructor call; duplicates keep the first position, as in a Python dict.",
"C45": "Refuted: sediments is not a process, so its section never takes part in the matching. The fluvial section alone decides.",
"C46": "Stated on the parameters each class is called with.",
"C71": "Components are dictionaries of attributes; setters that validate are not modelled here.",
"C47": "Values are compared up to tuple/list (as_list), since sections store tuples.",
"C48": "Values are scalars and lists of scalars (plain_sections); a set's iteration order is arbitrary.",
"C49": "Refuted when the first section is after time 0: the update that reaches it reports the whole section. Partial: proved when the first section alone is at or before 0, after any earlier updates.",
"C51": "Also shown: false for equal times.",
"C72": "Refuted for times [0, 0]: only the first section is used. Partial: proved when the first section alone is at or before 0.",
"C73": "Refuted: a list of lists is unhashable and update() and dump() raise TypeError. Partial: proved for scalars and lists of scalars.",
"C52": "Refuted: with several sections in sequence.toml only the first is used. Partial: proved for files with one section each, the first (and no other) with time 0: the loop passes each step's changes to set_params, and attributes follow the configuration.",
"C53": "Names are ASCII.",
"C54": "Refuted: of two options of one group only the last has an effect. Partial: proved for an option no later option of its group follows; other parameters keep their values; valid options never fail.",
"C55": "Refuted at depth three (names come out of order); partial for depth one and two. All assignments together lose values already at depth two (C55_together_refuted).",
"C56": "Options valid and text rendering total for the creating half.",
"C74": "Refuted: a first file with a time after 0 (e.g. only sequence-1.toml, or sequence.toml with sequence-100.toml) raises KeyError. Partial: proved when the first file alone has time 0.",
"C75": "Refuted: an unreadable option leaves an empty bathymetry.csv, which makes the next setup abort. Partial: valid options and total rendering.",
"C76": "Refuted: --set changes the class-level defaults. Partial: when the first command has no options.",
"C57": "Any history of grids with a fixed number of nodes; any field selection; times are the sums of the dt passed.",
"C58": "Constructor, setter and steps; no file other than the writer's own is ever touched.",
"C59": "Refuted: interval=0 is accepted and every run_one_step then raises ZeroDivisionError. Partial: every accepted interval >= 1 works on every history of recordable grids.",
"C60": "Refuted: layers are archived (reduced) on the grid but the file's layer dimension never shrinks, so stale layers remain at the end; shown for every interval that is not steady. Partial: the file always starts with the grid's layers, and has nothing else for steady intervals.",
"C61": "Refuted when the clock's start is not 0 (the writer counts from 0). Partial: exact value of both, equal when start = 0.",
"C62": "Refuted: an empty selection, or one none of whose names exist, writes all fields. Partial: exact characterisation (iff) when some requested field exists.",
"C77": "Refuted, for every proper selection on every grid with 2 or more rows and a layer: the layers of all the rows are written into the selected rows. Partial: any permutation/selection of full length works.",
"C78": "Refuted: both are off by exactly one grid spacing (the indices are of the interior, the coordinates of all the nodes). Partial: exact values; x_of_cell and y_of_cell are right.",
"C79": "Refuted, for every grid with a layer and at least 4 columns: the row and column dimensions include the boundary, the layers do not. Partial: works without layers and row fields.",
"C63": "Exact polygon: closed walk along neighbouring columns, follows top and bottom, straight sides. Limits may be one beyond the last column, as searchsorted gives. Over the reals.",
"C64": "For 0 <= start <= stop; the number of selected layers lies in [num-1, 2 num).",
"C65": "Refuted: plot_file reads the bedrock at node row `row` but the layers at cell row `row`, so the bedrock is that of another row (of the grid's boundary for a one-row grid), and wrong once flexure or subsidence moves the two differently. Partial: exact elevation drawn; right when the bedrock is the same in all rows.",
"C66": "",
"C67": "",
"C80": "Over the reals. The layers selected for outlines are those of C64.",
"C81": "Refuted: with two or more rows plot_grid always raises (C81_several_rows_refuted, all grids with at least 4 columns). Partial: one row.",
"C82": "Refuted twice, each for every run: one record only (IndexError), a clock that starts after 0 (ValueError: ages lie outside the recorded times). Partial: start = 0 and at least one step.",
"C83": "Refuted: a non-negative layer_stop excludes that layer (a negative one includes it). Partial: both cases exactly.",
"C84": "Refuted: shape (3, 5) with xy_spacing 10.0 raises ValueError, without xy_spacing KeyError. Partial: a pair.",
"C85": "Columns over the reals, numbers of layers in any arithmetic. Components that change layers (compaction) are excluded by keeps_layers; see C13-C15 for those.",
"C86": "Refuted twice: the layer laid when a Sequence is constructed records the depth over a surface raised by its thickness once more; a SequenceModel step records the depth before its deposit. Partial: Sequence updates (components leave the surface on top of the layers, no erosion below the bottom), and what a SequenceModel step records instead.",
"C87": "Refuted for the layers laid at construction: a Sequence records the pending deposit, a SequenceModel 10 for a layer of 100. Partial: every update and every step.",
"C88": "Refuted when a step is given a dt other than the clock's step (see C39). Partial: any number of default steps, any arithmetic.",
"C89": "Any grid with the model's fields; the load in exact arithmetic.",
"C90": "update() in any arithmetic, run() in exact arithmetic; components may change anything and may raise.",
"C91": "In exact arithmetic, configuration times are whole numbers as in the file names; the set_params theorems assume components that do not change their own parameters.",
"C92": "Refuted: the loop advances the configuration by 1 per step, so a clock step other than 1 applies parameters at the wrong time. Partial: clock step 1.",
"C93": "Refuted: set_params does not match values, so giving the parameter to one process leaves the other behind. Partial: given to both or to neither.",
"C94": "The text formats are arbitrary functions such that reading gives back what was rendered, with the section's processes added by the template.",
"C95": "toml and yaml text is an arbitrary parser; the [plot] table, if present, is a table.",
"C96": "Refuted: PLOT_KEYWORDS has title='', which is always passed, so plot_file never uses its default. Partial: a title that is given on the command line shows.",
"C97": "Refuted: the depth is divided by the signed slope, which is negative on a plain falling seaward, so such rivers are never braided. Partial: the exact fraction with the signed slope, in exact arithmetic (the clipping of the code turns out to be idle).",
"C98": "Refuted: a sinusoidal sea level copies its parameters in its constructor, so assigning any of them is accepted and changes nothing; alpha of the shoreline finder cannot be assigned at all. Partial: the parameters listed in the theorem give the very same process and grid, at any later time for the fluvial, sea-level and subsidence processes; assigning an ignored parameter changes nothing.",
"C99": "Refuted: the dry run makes the model, and the constructor of OutputWriter removes the output file if clobber is true (the default parameters). Partial: no other file changes, and without clobber none does.",
"C100": "Refuted: set_params raises for a section that is no component of the model (e.g. plot, grid, clock, output when absent), so the run ends at that step. Partial: it completes if later sections are those of components; otherwise it always ends with an exception once the change is due.",
"C101": "Refuted: the sea-level table ends at 200000 years and the default clock at 600000, so a run that names it raises ValueError. Partial: every table is read back to the nearest tenth; the bathymetry gives 20 m - x/1000 on every grid up to 100 km wide and raises on wider ones; the subsidence is zero; the sea level is -t/20000 up to 200000 years.",
"C102": "Refuted: the sea level is not used, so the result can be on land; and a bend at the second column is reported at the first. Partial: it is the first place of least curvature of the whole profile, unaffected by tilting the profile, and the place of a single bend from the third column on.",
"C103": "Refuted: the output of a run of one step (one record) gives an IndexError, and a setting that does not exist a TypeError. Partial: missing variables and rows that do not exist are reported; whatever else goes wrong with reading ends the command with that error.",
"C104": "Creation, assignment and steps of every process but WaterFlexure and Compact, whose parameters are numbers or tables; the interpolator, the diffuser and the flexure are arbitrary functions.",
"C105": "Refuted: the submarine diffuser sets the sea level to its own parameter. Partial: every node field and every other value is kept by every process.",
"C106": "For a new file (mode w); node, link, patch, corner, face and cell locations. Appending is C57.",
"C107": "configured_raises: over R, any model made by load_model and any history of run_one_step/set_params; the exception is the one of a component whose turn came, on the grid the earlier ones left, and for a class of /repo it has the cause listed in Spec/Configured.v and is not KeyError. well_behaved is the assumption on landlab, SciPy, Compact and WaterFlexure; the causes of failures of load_processes itself are not characterised here (see C104, C105).",
"C108": "Over R. Includes set_params, any dt, flexure and (well-behaved) compaction.",
"C109": "Refuted: sand_density, mud_density and water_density of the flexure and sea_level of the fluvial process never change anything a user can see, in any configuration, arithmetic or history (C109_no_effect_partial). Missing: which other parameters matter; shown for isostasytime by example only.",
"C110": "Refuted: the pair (fluvial, sediments, hemipelagic) of params_to_match is dead because only the sections of listed processes are read and 'sediments' can not be listed: [sediments] hemipelagic, which the configuration files of tests/ and data/ set, is silently ignored. Partial: only the sections of processes that run are used.",
"C111": "Refuted: the diffuser uses and writes \"kd\", the river reads the pending bedrock increment, the flexure uses and writes two lithosphere fields and the shoreline finder reads the deposit thickness without declaring them. Proved: exactly for which classes the claim holds, and the claim for every class once these fields are added.",
"C112": "Errors are compared as errors only: the two orders may raise different exceptions in the same call. The models are compared from the same created processes.",
"C113": "Refuted: run_one_step(dt) with a dt other than the clock's step moves the sea level by dt but the time of the model by the clock's step (landlab's TimeStepper, as recalled). Proved for steps of the clock's length and set_params other than the component's time; the classes that are not modelled are assumed to leave the sea level alone.",
"C114": "Compact and WaterFlexure, which are not modelled, are assumed to leave the bedrock and its increment alone (true of Compact, not of WaterFlexure, which this excludes).",
"C115": "The order in any arithmetic, the layer over the reals. leaves_counts: a step of the classes that are not modelled (the compaction package, WaterFlexure) keeps the number of layers of every cell.",
"C116": "Any arithmetic. The model keeps no changes of a set_params that raises: what remains of it after the exception is not stated.",
"C117": "Refuted as stated, twice: setup writes isostasytime 0 where the constructor has 7000 (C117_refuted), and a constructor's own default written out overrides what the neighbouring process shares (C117_own_refuted). Proved: a line with the constructor's default of a parameter that is not shared changes nothing (C117_line_partial), configurations that say the same make the same model (C117_config_partial), and so does each constructor (C117_class). Not covered: models with water_flexure (its constructor is an arbitrary function), arithmetic in which a value can differ from itself (NaN).",
"C118": "Over the reals. The error is one of the reasons that hold; when several hold, which one is reported is not stated. Compact and WaterFlexure are arbitrary functions that may refuse anything. The partial theorems leave out sections with the kind of an interpolation and with the keywords that SubmarineDiffuser passes on to the LinearDiffuser of landlab, whose use is not modelled; the others do not need that.",
"C119": "C119_process and C119_read_only in any arithmetic, C119_model and C119_time over the reals. The numbers that a keyword sets and an attribute holds, for the classes of the package: the files of sea_level and subsidence, the sea level of the diffuser (which is the one of the grid) and attributes of landlab are not among them.",
"C120": "Numbers are exact: the rounding of a decimal to a double is not modelled. numpy.loadtxt is modelled from its documentation and behaviour (numpy 1.23 and later). Fields inf and nan, and lines of blanks only, are left out of C120_refused.",
"C121": "The YAML and TOML libraries are arbitrary functions from texts to values, so nothing is assumed of them. A _time that is not a number is an error in the model when the file is read; in Python when it is compared with another.",
"C122": "Refuted for YAML, for the actual defaults and whatever options: yaml.dump tags tuples and safe_load refuses the tag. What the libraries do with tuples and other values is a hypothesis of the theorems, shown beside them to be satisfiable. Proved for TOML, for YAML without tuples, and that setup writes what generate prints.",
"C123": "Refuted for files with an array of tables, which is what dump writes; proved for one table.",
"C124": "Refuted as stated (start 0, stop 0.3, step 0.1 makes two rounds). Proved for clocks whose numbers are exact in binary, and with an explicit bound of the drift for all doubles whose step is not lost. Missing for the full claim: it is false.",
"C125": "Refuted as stated (0.1 and 0.2 merge into 0.30000000000000004). Proved up to an explicit rounding bound for up to 2^25 operations moving up to 2^1000 of sediment, and that no layer is ever below zero for any doubles. Missing for the full claim: it is false.",
"C126": "For runs that end, with components that keep the shapes of the grid and leave its layers alone (as all components of the project do).",
"C127": "Refuted as stated (run(until=2.2, dt=0.1) ends with a step of length 0). Proved for numbers that are exact in binary and, for any doubles, up to explicit rounding bounds, for at most 2^49 steps and times up to 2^960. Missing for the full claim: it is false.",
"C128": "For plate solvers that return a deflection for every node, and for any Compact class that keeps the shapes of the grid and removes no fields.",
"C129": "Refuted as stated (the sea level rises by 0.1 in the example and 0.1 is missing). Proved with the new sea level on both sides, and as stated when the sea level does not move, for all columns but the first (which is under no cell and is rewritten by SubmarineDiffuser). Missing for the full claim: it is false.",
"C130": "Refuted in doubles: the value may pass the second line by a rounding. Proved: exact at the lines, never past the first line, within 2^-49 of the larger value (plus 2^-950) of the straight line, refused exactly outside the table. Missing: tables with numbers above 2^100 or positions less than 2^-100 apart, where the slope may overflow; infinities and NaN in a table.",
"C131": "Refuted in doubles; proved up to 2^-52 of the sum of the sizes of the increments, for every history. C131_tables: every table of doubles qualifies. Missing: sin of the sinusoidal curve is not modelled in doubles, so that the sinusoidal curve has to be assumed to give numbers of at most 2^1000.",
"C132": "Refuted by a rational run whose plate bends at once: the bedrock lags the load by one step. Proved over the reals for every history: start, subsidence, deflection under the load at the beginning of the last step, less what is owed; what is owed, step by step (C132_owed); the surface (C132_surface). Assumed of the plate solver of landlab: it is linear. Missing: the load of the last step, and changes of the parameters of the plate during the run.",
"C133": "C133_statement: the bedrock is exactly the start plus the rates times the lengths of the steps, in doubles; C133_refuted: one step of 0.1. C133_partial: for whole configured models with any history, it is within steps/2^51 of the distance travelled (plus 2^-1000 per step) and is a number; boundary rows do not move. C133_tables: tables of doubles give rates that are numbers. Missing: models with flexure, whose plate solver is not modelled.",
"C134": "C134_statement: delivered plus owed is exactly what was given, in doubles; C134_refuted: two steps, 1 and then 0.1. C134_partial: up to steps/2^51 of the sizes given, and all are numbers. C134_step: what a step delivers and leaves is between nothing and all. exp is assumed to be between 0 and 1 below zero; the exact statement over the reals is C15.",
"C135": "Refuted: WaterFlexure documents water_density and has no such parameter, so that it reaches landlab as an unknown keyword (TypeError). Partial: the other documented numbers are taken, and the reasons for a refusal are exactly three; method, also a parameter of Flexure1D, is refused because it is already given. Over the reals; the checks that Flexure1D itself makes of its numbers are not modelled."
}
