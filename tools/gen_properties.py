#!/usr/bin/env python3
"""Regenerates properties.jsonl (kept as a script so the text stays reviewable)."""
import json, pathlib
P = []
def p(title, statement, quantifier, why, anchors):
    P.append(dict(id="C%02d" % (len(P)+1), title=title, statement=statement,
                  quantifier=quantifier, why_tests_cant=why, anchors=anchors))

# ---------------------------------------------------------------- shoreline
p("Shoreline index is the first submerged column",
  "find_shoreline_index(x, z, sea_level) returns the smallest column index whose elevation is strictly below sea level; every column landward of it is not below sea level. It raises ShorelineError, and only then, when no column is below sea level ('above') or every column is ('below').",
  "every profile of every length, every sea level",
  "A finite set of profiles cannot cover all shapes (islands, lagoons, plateaus exactly at sea level, single columns).",
  ["sequence/shoreline.py:find_shoreline_index"])
p("find_shoreline always returns a point between the last dry and first wet column",
  "If the landward-most column is not below sea level, find_shoreline returns a position between the last column before the first submerged one and that submerged column, for every interpolation method that passes through the data; if nothing (resp. everything) is submerged it returns the last (resp. first) x. It never raises for such a profile, and the returned x is within the root-finder tolerance of a true crossing of sea level.",
  "every strictly increasing x, every profile, every sea level, every continuous interpolant through the nodes",
  "Depends on the root finder being given a valid bracket for every profile and interpolant; tests try one straight line.",
  ["sequence/shoreline.py:find_shoreline", "sequence/shoreline.py:find_shoreline_index"])
p("find_shoreline does not fail on a profile that crosses sea level",
  "For every profile that has at least one column below and one column not below sea level, find_shoreline returns a shoreline position rather than raising.",
  "every profile containing both dry and submerged columns",
  "The failing shapes (submerged landward column with an island seaward of it) do not occur in the sloping ramps used by tests.",
  ["sequence/shoreline.py:find_shoreline"])
p("Shelf edge is the thickest deposit seaward of the shoreface",
  "find_shelf_edge(x, dz, x_of_shore, alpha) returns the x of the first column with the largest deposit among the columns strictly seaward of x_of_shore + 3/alpha, and raises ShelfEdgeError exactly when there is no such column.",
  "every sorted x, every deposit profile, every shore position, every nonzero alpha",
  "Quantifies over all deposit profiles including ties and boundary positions of the binary search.",
  ["sequence/shoreline.py:find_shelf_edge"])
p("ShorelineFinder records an ordered shore / shelf-edge pair on every row",
  "After ShorelineFinder.run_one_step with alpha > 0 each row's x_of_shore is a valid shoreline of that row and its x_of_shelf_edge is either NaN or strictly seaward of the shore, so the internal assertion never fires; elevations and deposits are unchanged.",
  "every grid with any number of rows, every topography with dry landward edge, every deposit, every sea level",
  "An assertion that never fires is a universally quantified claim.",
  ["sequence/shoreline.py:ShorelineFinder.update"])
# ---------------------------------------------------------------- sea level
p("Sea-level increments add up",
  "After any history of SeaLevelTimeSeries / SinusoidalSeaLevel run_one_step calls, interleaved with any changes of the component's time or file, the grid's sea level is, after each step, the value at the component's time of the curve then in force, each step's recorded increment is exactly the new level minus the previous level, and the sum of the increments is the total change in sea level.",
  "every curve, every finite history of steps, time resets and file changes",
  "It is an invariant over unbounded histories.",
  ["sequence/sea_level.py:SeaLevelTimeSeries.run_one_step"])
p("Sinusoidal sea level is periodic with a linear trend and stays in its band",
  "SinusoidalSeaLevel at time t + wave_length equals its value at t plus linear * wave_length, equals mean + linear*t at t = phase, and never departs from mean + linear*t by more than 1.3*|amplitude|.",
  "every time, nonzero wave length, amplitude, phase, mean and trend",
  "Trigonometric identity over all reals.",
  ["sequence/sea_level.py:SinusoidalSeaLevel.__init__"])
p("Tabulated curves are interpolated without overshoot and never extrapolated",
  "The interpolator used for sea-level, subsidence and bathymetry files (kind='linear') returns the tabulated value at each tabulated position, stays between the two neighbouring tabulated values elsewhere, and raises ValueError exactly when the position is outside the table.",
  "every strictly increasing table with at least two rows, every position",
  "All tables and all query positions, including the end points.",
  ["sequence/sea_level.py:_sea_level_interpolator", "sequence/subsidence.py:_subsidence_interpolator", "sequence/bathymetry.py:BathymetryReader.__init__"])
p("Sea level beyond the end of the table uses the nearest tabulated value",
  "Documented in docs/tutorials/cli/sealevel.md: if the sea-level curve is not defined for all times of the simulation, Sequence extrapolates using the nearest value of the curve instead of stopping.",
  "every table and every time outside it",
  "Applies to every time outside every table.",
  ["sequence/sea_level.py:_sea_level_interpolator", "docs/tutorials/cli/sealevel.md"])
# ---------------------------------------------------------------- subsidence, bathymetry
p("Subsidence accumulates rate x time on every profile row and nowhere else",
  "After any sequence of SubsidenceTimeSeries.run_one_step calls (with file changes in between) each interior node's pending bedrock increment has changed by the sum of rate(x)*dt over the calls, identically on every row; the two boundary rows are unchanged; splitting a step in two makes no difference.",
  "every rate table covering the grid, every grid shape, every finite list of time steps and file changes",
  "Invariant over histories and all grid shapes.",
  ["sequence/subsidence.py:SubsidenceTimeSeries.run_one_step"])
p("Bathymetry reader sets every row to the interpolated profile or nothing at all",
  "BathymetryReader.run_one_step sets the elevation of every node to the table value interpolated at the node's x on all rows (including boundaries); if any column lies outside the table it raises and leaves the topography unchanged. Running it twice is the same as running it once.",
  "every table, every grid shape and spacing",
  "All tables and grid shapes.",
  ["sequence/bathymetry.py:BathymetryReader.run_one_step"])
p("Synthetic initial profile is a seaward-dipping ramp through zero at the shore",
  "_create_initial_profile is strictly decreasing in x, positive landward of the shore, zero at the shore, negative seaward of it, and if the requested shore lies beyond the seaward end of the grid the shore is moved to the grid's centre.",
  "every sorted x and all positive slope/height/alpha parameters",
  "Analytic claim over all parameters.",
  ["sequence/bathymetry.py:_create_initial_profile"])
# ---------------------------------------------------------------- flexure
p("Sediment load is the exact weight of the deposit with its submerged pores full of water",
  "SedimentFlexure._calc_loading returns, at each node, (1-porosity)*grain_density*thickness plus porosity*water_density times the signed part of [z, z+thickness] that lies below sea level - for deposition and erosion, dry, wet and straddling sea level; it never divides by zero.",
  "every thickness, elevation, porosity, grain density, water density",
  "Piecewise formula over a continuum of cases with measure-zero boundaries.",
  ["sequence/sediment_flexure.py:SedimentFlexure._calc_loading"])
p("Sediment load is path independent",
  "Loading a deposit in two parts gives the same total load as loading it at once, so depositing and then eroding the same sediment returns the load to where it was.",
  "every elevation and every pair of thickness changes of either sign",
  "All pairs of changes, including those that cross sea level.",
  ["sequence/sediment_flexure.py:SedimentFlexure._calc_loading"])
p("Isostatic deflection is conserved",
  "Over any history of DynamicFlexure steps, the deflection delivered so far plus the deflection still held back equals the total isostatic deflection supplied; with a positive isostasy time each step delivers a fraction between 0 and 1 of what is held.",
  "every history of loads and positive time steps, every isostasy time, every number of rows",
  "Conservation invariant over unbounded histories.",
  ["sequence/sediment_flexure.py:DynamicFlexure.calc_dynamic_deflection", "sequence/sediment_flexure.py:DynamicFlexure.calc_isostasy_fraction"])
p("isostasytime is the e-folding time of the response",
  "With no further loading the undelivered deflection decays by exp(-T/isostasytime) over any elapsed time T, no matter how T is split into steps; without an isostasy time (None or 0) all of the deflection is delivered in the step it arises.",
  "every isostasy time, every split of every elapsed time, every grid",
  "All time-step splits; depends on the number of rows in a way tests with one row never see.",
  ["sequence/sediment_flexure.py:DynamicFlexure.calc_isostasy_fraction", "sequence/sediment_flexure.py:DynamicFlexure.calc_dynamic_deflection"])
p("Bulk densities always agree with the densities currently set",
  "After construction and any sequence of sand_density, mud_density and water_density assignments, valid or rejected, the reported bulk densities are 0.6*sand+0.4*water and 0.35*mud+0.65*water for the current densities, all densities are positive, and a rejected assignment changes nothing.",
  "every finite history of assignments",
  "History invariant.",
  ["sequence/sediment_flexure.py:SedimentFlexure.sand_density", "sequence/sediment_flexure.py:SedimentFlexure.water_density"])
p("Flexure only ever sees each load increment once",
  "Over any history of SedimentFlexure updates the load increments handed to the flexure solver add up to the current total load minus the load at construction; running a step with an unchanged total load applies no new load. Only the interior rows of the pending bedrock increment change.",
  "every history of total-load values and updates",
  "History invariant.",
  ["sequence/sediment_flexure.py:SedimentFlexure.update"])
p("Water loading is one-sided and the half-plane deflection is bounded by its value at the seaward edge",
  "calc_water_loading is zero on land, never negative and proportional to depth in water; calc_half_plane_deflection equals load/(2*gamma) at the seaward edge and is never larger than that in magnitude anywhere on the profile, and is linear in the load.",
  "every elevation, load, positive flexural parameter and grid",
  "Analytic bound over all columns.",
  ["sequence/sediment_flexure.py:WaterFlexure.calc_water_loading", "sequence/sediment_flexure.py:WaterFlexure.calc_half_plane_deflection"])
# ---------------------------------------------------------------- submarine
p("Diffusion coefficients are positive and follow the land / shelf / deep-water rules",
  "calc_diffusion_coef gives every interior node the land value (channel row at full strength, other rows at half), the shelf value in water no deeper than wave base, and the shelf value damped by exp(-(depth-wave_base)/wave_base) below wave base; the result is strictly positive at every node for positive parameters and a shoreline landward of the first submerged column.",
  "every topography, sea level, grid shape, every positive parameter set",
  "All topographies and parameter sets.",
  ["sequence/submarine.py:SubmarineDiffuser.calc_diffusion_coef"])
p("Diffusion coefficients depend only on the current sea level and topography",
  "Two calls of calc_diffusion_coef with the same topography, sea level, shoreline and parameters give the same coefficients, and rows with the same profile (and equally in or out of the channel) get the same submarine coefficients, whatever happened before.",
  "every history of sea levels before the call",
  "A history-independence claim (two-run property).",
  ["sequence/submarine.py:SubmarineDiffuser.calc_diffusion_coef"])
p("Both boundary rows mirror the adjacent interior row",
  "After calc_diffusion_coef the bottom boundary row of coefficients equals the first interior row and the top boundary row equals the last interior row.",
  "every grid shape and every state",
  "All grids.",
  ["sequence/submarine.py:SubmarineDiffuser.calc_diffusion_coef"])
p("The diffuser moves sediment only through the deposit field",
  "SubmarineDiffuser.run_one_step leaves the topography as it was except for the upstream boundary column, which is set to the next column plus plain_slope*dx on every interior row; the deposit field grows by exactly the elevation change the diffusion solver computed.",
  "every grid, every topography, every deposit, every behaviour of the diffusion solver",
  "Quantifies over any solver behaviour.",
  ["sequence/submarine.py:SubmarineDiffuser.run_one_step"])
p("Land diffusivity always equals current load over current plain slope",
  "After construction and any sequence of plain_slope, sediment_load, wave_base, ... assignments and coefficient calculations, k_land equals the current load divided by the current plain slope, and the current load equals sediment_load*(1 + sea_level*load_sealevel) for the sea level of the moment when it was last computed.",
  "every finite history of assignments and calculations",
  "History invariant.",
  ["sequence/submarine.py:SubmarineDiffuser.plain_slope", "sequence/submarine.py:SubmarineDiffuser.sediment_load"])
# ---------------------------------------------------------------- fluvial
p("Sand fraction is always between 0 and 1",
  "After Fluvial.run_one_step every node of the channel profile has a sand fraction in [0, 1], whatever the topography, deposit and parameters.",
  "every topography, deposit, subsidence, parameter set and time step",
  "All inputs to a loop with data-dependent branches.",
  ["sequence/fluvial.py:Fluvial.run_one_step"])
p("Sand fraction under water is the non-hemipelagic part of the deposit",
  "After Fluvial.run_one_step each submerged node with a positive deposit has sand fraction (deposit - hemipelagic mud)/deposit clipped to [0, 1].",
  "every profile with submerged, depositional nodes",
  "Must hold for every deposit; no test looks at the submerged sand fraction.",
  ["sequence/fluvial.py:Fluvial.run_one_step"])
p("Hemipelagic mud falls only in water deeper than wave base and never exceeds its rate",
  "Fluvial.run_one_step adds to the deposit nothing on land or in water no deeper than wave base, a share growing linearly from 0 to hemipelagic*dt between one and two wave bases, and between 0 and hemipelagic*dt below that; no other node field value of the deposit changes.",
  "every profile, wave base > 0, hemipelagic >= 0, dt >= 0",
  "All depth profiles, including ones that re-enter the shallow zone.",
  ["sequence/fluvial.py:Fluvial.run_one_step"])
p("The delta-plain walk never runs off the grid",
  "For every profile Fluvial's downstream walk only reads and writes existing columns (the column after the last land column always exists) and terminates after one pass.",
  "every profile of at least two columns, every sea level",
  "Index safety for all inputs.",
  ["sequence/fluvial.py:Fluvial.run_one_step"])
# ---------------------------------------------------------------- layers and Sequence
p("Old layers are archived ten at a time, recent ones never",
  "After any number N of layers has been added (starting from an empty grid) the number of stored layers is N for N < 20 and N - 9*floor((N-10)/10) afterwards; the newest 10 layers are always the last 10 added, unmodified by archiving; each archived layer merges exactly ten consecutive original layers and is never merged again.",
  "every number of steps and every deposition / erosion history",
  "Unbounded step counts.",
  ["sequence/sequence.py:Sequence.add_layer", "sequence/sequence_model.py:SequenceModel.advance_components"])
p("Archiving layers loses no sediment and keeps time order",
  "Archiving changes no column's total thickness or total initial thickness (t0), keeps the age of every archived layer the largest of its members so that ages never decrease upward, and leaves mean properties between the smallest and largest member value.",
  "every layer stack",
  "All stacks.",
  ["sequence/sequence.py:Sequence.layer_reducers", "sequence/sequence_model.py:SequenceModel.layer_reducers"])
p("Layer stacks never have negative thickness and erosion removes exactly what is asked or everything",
  "After any history of layers of either sign every layer of every column has thickness >= 0 and each addition changes the column's total thickness T to max(0, T + dz); erosion never touches a layer while one above it still has thickness.",
  "every finite history of per-column additions and removals",
  "History invariant.",
  ["sequence/sequence.py:Sequence.add_layer"])
p("Topography is bedrock plus sediment after every step",
  "After constructing Sequence or SequenceModel and after every step, with any components in any order, the elevation of every cell is its bedrock elevation plus the total thickness of its layers, and a deposit enters the layers only once (it never carries over into a later step).",
  "every list of components, every number of steps",
  "Holds for arbitrary user components and histories.",
  ["sequence/sequence.py:Sequence.update", "sequence/sequence_model.py:SequenceModel._update_fields"])
p("Sequence.run reaches the requested time exactly, in steps no longer than dt",
  "Sequence.run(until, dt) with dt > 0 ends at time max(time, until), using ceil((until - time)/dt) updates (none if until is in the past), each of positive length at most dt; time never decreases.",
  "every current time, until and dt > 0 (exact arithmetic)",
  "All combinations of real times.",
  ["sequence/sequence.py:Sequence.run"])
p("Sequence.run reaches the requested time in floating point",
  "With IEEE double arithmetic, after Sequence.run(until=T, dt=d) the model time equals T. This is false (until 1, dt 0.1 ends at 0.9999999999999999). It holds for numbers that are exact in binary, and up to an explicit rounding bound for any doubles.",
  "all finite doubles T and d > 0",
  "Only specific doubles expose accumulated rounding; tests use approx().",
  ["sequence/sequence.py:Sequence.run"])
p("Subsidence and flexure move the bedrock in the Sequence API",
  "When a Sequence is updated, the bedrock increment that its components have accumulated (subsidence, flexure) is applied to the bedrock elevation.",
  "every Sequence with a subsidence or flexure component and every update",
  "A universal claim about all updates; no test combines Sequence with subsidence.",
  ["sequence/sequence.py:Sequence.update", "sequence/subsidence.py:SubsidenceTimeSeries.run_one_step"])
p("Sequence works on grids with several rows",
  "Sequence.update succeeds with a ShorelineFinder component on a grid with any number of rows.",
  "every number of rows",
  "All row counts; tests use one row.",
  ["sequence/sequence.py:Sequence.__init__", "sequence/sequence.py:Sequence.add_layer", "sequence/grid.py:SequenceModelGrid.number_of_rows"])
p("Layer records keep pace with time",
  "Each Sequence.update records exactly one entry in the per-grid and per-row layer histories, with the model time after the step; recorded ages never decrease, and their number is never reduced by archiving.",
  "every history of updates with nonnegative dt",
  "History invariant.",
  ["sequence/sequence.py:Sequence.add_layer"])
# ---------------------------------------------------------------- SequenceModel
p("SequenceModel.run takes every full step up to stop, then terminates",
  "SequenceModel.run with step > 0 runs every component exactly floor((stop-start)/step) times (0 if stop < start), in order, each with dt = step, then terminates; the clock is left one step past the last executed step.",
  "every start, stop, step > 0, every component list",
  "Termination and step count for all clocks.",
  ["sequence/sequence_model.py:SequenceModel.run", "sequence/sequence_model.py:SequenceModel.run_one_step"])
p("Model clock and components advance by the same dt",
  "SequenceModel.run_one_step(dt) advances the clock by dt and every component by dt.",
  "every dt",
  "All time steps; tests never pass dt.",
  ["sequence/sequence_model.py:SequenceModel.run_one_step"])
p("Pending bedrock increments are applied exactly once",
  "Over any number of SequenceModel steps, with components that only add to the pending increment, the bedrock has moved by exactly the sum of all increments contributed, independently of the order of the components within a step, and the pending increment is zero between steps.",
  "every component list and order, every number of steps",
  "Exactly-once accounting over histories and permutations.",
  ["sequence/sequence_model.py:SequenceModel._update_fields"])
p("Water-depth increments are the true change in water depth of the step",
  "After each SequenceModel step the recorded water-depth increment of each profile node is (new depth - depth before the fields were updated), depths clipped at zero, so it is zero on nodes that stay dry.",
  "every state",
  "All states.",
  ["sequence/sequence_model.py:SequenceModel._update_fields"])
p("Accumulated sediment load matches the sediment present",
  "Over any history of SequenceModel steps the accumulated sediment load changes by the weight of the sediment actually added to or removed from each column.",
  "every history of deposition and erosion",
  "Erosion deeper than the available sediment is never exercised by tests.",
  ["sequence/sequence_model.py:SequenceModel._update_fields"])
p("Processes run in the order given, with fluvial and shoreline always present",
  "load_processes creates exactly the requested processes in the requested order, followed by fluvial and shoreline if they were not requested; an unknown name raises.",
  "every list of process names",
  "All lists.",
  ["sequence/sequence_model.py:SequenceModel.load_processes"])
p("Parameter matching fills gaps and reports every conflict",
  "_match_values(d1, d2, keys) raises ParameterMismatchError listing exactly the keys that both dictionaries define with different values, in order; otherwise it returns exactly the requested keys defined by either with their common value, so that updating both dictionaries makes them agree.",
  "every pair of dictionaries and every list of keys",
  "All dictionaries.",
  ["sequence/sequence_model.py:_match_values"])
p("hemipelagic in the sediments section reaches the fluvial process",
  "If the configuration sets sediments.hemipelagic and not fluvial.hemipelagic, the fluvial process is created with that value.",
  "every configuration context",
  "All contexts; the default value 0 hides the effect.",
  ["sequence/sequence_model.py:SequenceModel.load_processes"])
p("Conflicting parameters are reported and left alone, matching ones are shared",
  "After load_processes' parameter matching, for each matched pair of processes either both end up with the same value of every matched key, or (when a conflict was reported) neither process's values for that pair are changed.",
  "every context and list of processes",
  "All contexts.",
  ["sequence/sequence_model.py:SequenceModel.load_processes"])
# ---------------------------------------------------------------- config
p("Time-varying configuration is the accumulation of all sections up to a time",
  "TimeVaryingConfig(times, dicts)(t), for sorted times, gives each key the value from the latest section with time <= t that sets it, and no other keys.",
  "every sorted list of times, every list of configurations, every t",
  "All configurations.",
  ["sequence/input_reader.py:TimeVaryingConfig.__call__"])
p("update() reports exactly what changed",
  "For a configuration whose first section, and no other, is at or before time 0, after any sequence of nonnegative update(inc) calls the current items equal the configuration at the total elapsed time, and applying the returned differences in order to the initial items gives the current items; each difference contains only keys whose value changed.",
  "every configuration and every finite sequence of increments",
  "History invariant; incremental vs. direct evaluation.",
  ["sequence/input_reader.py:TimeVaryingConfig.update", "sequence/input_reader.py:TimeVaryingConfig.diff"])
p("update() reports only changes, whatever the time of the first section",
  "A key whose value is the same before and after update() is not in the returned difference, for every list of times.",
  "every configuration, including those whose first time is after 0",
  "Tests only check as_dict() before any update.",
  ["sequence/input_reader.py:TimeVaryingConfig.update"])
p("Flattening and expanding a configuration is lossless",
  "_expand_dict(_flatten_dict(d)) equals d for every nested dictionary without empty sub-dictionaries (tuples come back as lists); empty sub-dictionaries are the only thing lost.",
  "every nested dictionary of any depth",
  "Structural induction over all nested dictionaries.",
  ["sequence/input_reader.py:_flatten_dict", "sequence/input_reader.py:_expand_dict", "sequence/input_reader.py:_walk_dict"])
p("dump() followed by loading gives the same configuration at every time",
  "For strictly increasing times, the sections written by dump(), read back, give the same configuration as the original at every time.",
  "every configuration with strictly increasing times, every time",
  "Round-trip over all configurations and all times.",
  ["sequence/input_reader.py:TimeVaryingConfig.dump", "sequence/input_reader.py:TimeVaryingConfig.from_file"])
p("sequence run applies the time-varying sections of sequence.toml",
  "If sequence.toml contains several sections with _time entries, 'sequence run' applies each section's parameters when its time is reached (docs/reference/cli/input_files.md).",
  "every configuration file with more than one section",
  "All multi-section files.",
  ["sequence/cli.py:run", "sequence/input_reader.py:TimeVaryingConfig.from_files"])
# ---------------------------------------------------------------- cli
p("Configuration files are paired with their times and sorted",
  "_find_config_files returns times in nondecreasing order, each paired with the file it came from, each file exactly once; yaml files are ignored if any toml file exists; a file's time is the first run of digits in its name or else its alphabetical position.",
  "every set of file names",
  "All directories.",
  ["sequence/cli.py:_find_config_files", "sequence/cli.py:_time_from_filename"])
p("Every --set option takes effect",
  "Each --set group.key=value given to 'sequence setup' or 'sequence generate' changes that key in the generated parameters.",
  "every list of options",
  "All option lists; single options work.",
  ["sequence/cli.py:_load_params_from_strings", "sequence/cli.py:_load_model_params"])
p("Dotted names round-trip through dictionaries of any depth",
  "Turning a nested dictionary into dotted assignments and back puts each value under the same path.",
  "every nested dictionary of any depth",
  "Depth three or more is never tested.",
  ["sequence/cli.py:_dict_to_dots", "sequence/cli.py:_walk_dict", "sequence/cli.py:_dots_to_dict"])
p("sequence setup never overwrites a file",
  "If any of the files to be generated exists, 'sequence setup' changes no file and aborts; otherwise, with options it can read, it creates exactly the four input files and changes nothing else; no file that exists is ever changed.",
  "every initial directory content",
  "All directory states.",
  ["sequence/cli.py:setup"])
# ---------------------------------------------------------------- output
p("Output is written every interval steps, stamped with the elapsed time",
  "After any n calls of OutputWriter.run_one_step with interval k >= 1, the file has ceil(n/k) records; record j was written at call j*k and carries the sum of the time steps of the j*k calls before it; earlier records are never changed.",
  "every interval >= 1, every list of time steps, every sequence of grid states",
  "History invariant.",
  ["sequence/output_writer.py:OutputWriter.run_one_step", "sequence/netcdf.py:to_netcdf"])
p("An existing output file is removed only with clobber",
  "Constructing an OutputWriter or setting its filepath on an existing file raises and leaves the file in place unless clobber is set, in which case the old content is gone; other files are never touched.",
  "every file-system state and path",
  "All file-system states.",
  ["sequence/output_writer.py:OutputWriter.filepath"])
p("An accepted output interval can be used",
  "Every interval accepted by OutputWriter lets run_one_step run.",
  "every integer interval",
  "All integers including the boundary value 0.",
  ["sequence/output_writer.py:OutputWriter.interval"])
p("The layers in the output file are the layers of the grid",
  "After each write the layer variables of the output file contain exactly the grid's current layers.",
  "every write schedule and every number of steps",
  "Depends on how archiving (which shrinks the stack) interleaves with output over long runs.",
  ["sequence/netcdf.py:_set_layers", "sequence/sequence_model.py:SequenceModel.advance_components"])
p("Each output record's time is the age of the newest layer in it",
  "At every record written by a SequenceModel run the record's time equals the age of the topmost layer written with it, so plotting never has to extrapolate shoreline positions beyond the recorded times.",
  "every clock, interval and number of steps",
  "Relates two counters over whole histories.",
  ["sequence/output_writer.py:OutputWriter.run_one_step", "sequence/sequence_model.py:SequenceModel.layer_properties", "sequence/plot.py:plot_file"])
p("Only the requested fields are written",
  "to_netcdf with a list of field names writes only those fields of that location.",
  "every list of names, including the empty list",
  "All selections, including empty ones.",
  ["sequence/netcdf.py:_set_field", "sequence/netcdf.py:to_netcdf"])
# ---------------------------------------------------------------- plot
p("Layer outlines are closed walks around the layer",
  "_outline_layer returns matching x and y lists; consecutive vertices (including last to first) are on the same or neighbouring columns, every vertex x is a column of the profile within the limits, and every y lies between the bottom and the top layer at that column.",
  "every pair of layers, every limits within the profile with lower <= upper",
  "All limit combinations and layer shapes.",
  ["sequence/plot.py:_outline_layer", "sequence/plot.py:_interp_between_layers"])
p("Layers selected for plotting are within range and about the requested number",
  "_get_layers_to_plot(start, stop, num) selects layers in [start, stop) starting with start with a constant stride of at least 1; with num = 0 none; with 0 < num <= stop-start+1 at least num-1 and fewer than 2*num layers.",
  "every start <= stop and num",
  "All integers.",
  ["sequence/plot.py:_get_layers_to_plot"])
p("Plotting a file shows the same elevations as plotting the grid",
  "The layer elevations plotted by plot_file for row r of an output file equal those of plot_grid for the same row of the grid that was written.",
  "every grid, bedrock and layer stack",
  "All bedrock fields; equal boundary rows hide the difference.",
  ["sequence/plot.py:plot_file", "sequence/plot.py:plot_grid"])
# ---------------------------------------------------------------- grid
p("Grid shape and spacing arguments are interpreted consistently",
  "SequenceModelGrid accepts exactly 1-D shapes with scalar spacing and 2-D shapes with 2-D spacing, giving (rows+2, cols) nodes with columns spaced by the column spacing; an integer n is the same grid as (1, n) with spacing (1, s); from_dict with xy_spacing=(a, b) is the same as spacing=(b, a).",
  "every shape and spacing of every dimension",
  "All argument shapes.",
  ["sequence/grid.py:SequenceModelGrid.__init__", "sequence/grid.py:SequenceModelGrid.from_dict"])
p("Profile views address exactly the interior rows",
  "get_profile gives rows 1..n of an (n+2)-row field; writing through it changes exactly those rows and reading it back gives what was written.",
  "every grid shape and field",
  "All shapes.",
  ["sequence/grid.py:SequenceModelGrid.get_profile"])
# ---------------------------------------------------------------- added as the model grew
p("A synthetic profile always contains its shore",
  "If the shore requested from _create_initial_profile lies outside the grid, on either side, the shore is moved inside so that the first column is not submerged and the last one not dry.",
  "every sorted x, every shore outside the grid, all positive slope/height/alpha parameters",
  "All shores on both sides of the grid; the function is only ever called with one.",
  ["sequence/bathymetry.py:_create_initial_profile"])
p("A water-flexure step moves only interior bedrock, by the delivered deflection",
  "WaterFlexure.run_one_step(dt) changes only the interior rows of the bedrock increment, by minus the part of (plate response to the change in water depth + half-plane response to the change in sea level) that the relaxation delivers; with no change in water depth or sea level and nothing held back, the bedrock increment is unchanged.",
  "every grid, water-depth and sea-level increment, relaxation time, plate solver, and dt",
  "All fields and solvers.",
  ["sequence/sediment_flexure.py:WaterFlexure.run_one_step", "sequence/sediment_flexure.py:WaterFlexure.calc_flexure_due_to_water"])
p("A model step raises nothing its components do not raise",
  "SequenceModel, constructed on a grid that has the fields it documents, never raises during run() or run_one_step() unless one of its components raises: every field update, layer and archive operation of the step succeeds, for any number of steps.",
  "every list of components that succeed and keep the fields, every grid, every number of steps",
  "an exception may only appear after many steps (for example once layers are archived) or for one order of components",
  ["sequence/sequence_model.py:SequenceModel.__init__", "sequence/sequence_model.py:SequenceModel.run", "sequence/sequence_model.py:SequenceModel.advance_components", "sequence/sequence_model.py:SequenceModel._update_fields"])
p("New parameters reach exactly the named processes",
  "SequenceModel.set_params(params) gives each named process the named values, leaves every other attribute, process and the order of the processes as they were, and raises if a name is not one of the model's processes.",
  "every set of processes and every parameter dictionary",
  "All dictionaries; the effect on attributes that are not named.",
  ["sequence/sequence_model.py:SequenceModel.set_params"])

p("The configuration starts as all the sections at or before time 0",
  "as_dict() of a new TimeVaryingConfig is the configuration at time 0: each key has the value from the latest section at or before time 0 that sets it.",
  "every sorted list of times, including several at or before 0, and every list of configurations",
  "The tests use one section at time 0; the claim is about every list of times.",
  ["sequence/input_reader.py: TimeVaryingConfig.__init__, TimeVaryingConfig.as_dict", "sequence/cli.py: _find_config_files"])
p("A configuration that loads can be updated",
  "If TimeVaryingConfig accepts the sections then update() and dump() never raise because of the values in them.",
  "every list of times and sections, with values of every kind TOML and YAML can hold",
  "The values can be nested to any depth; the tests use scalars and flat lists.",
  ["sequence/input_reader.py: TimeVaryingConfig.update, TimeVaryingConfig.diff, TimeVaryingConfig.dump, _flatten_dict"])

p("The number in a configuration file's name never stops a run",
  "If each configuration file has one section and those after the first only name parameters of enabled processes, the parameter updates of 'sequence run' never raise, whatever times the file names give.",
  "every set of file names, every number of steps, every set of processes",
  "It must hold for every combination of file names and steps.",
  ["sequence/cli.py: run, _find_config_files", "sequence/input_reader.py: TimeVaryingConfig.update", "sequence/sequence_model.py: set_params"])
p("A failed setup leaves the folder as it was",
  "If 'sequence setup' fails, for whatever reason, no file is left behind, so that it can be repeated with corrected options.",
  "every folder content and every list of options",
  "It quantifies over all option strings and all points of failure.",
  ["sequence/cli.py: setup, _contents_of_input_file, _load_params_from_strings"])
p("Options of one command do not affect another",
  "The input file generated by a command depends on the options of that command only, also when several commands are chained on one command line.",
  "every sequence of chained commands and options",
  "The defaults are shared mutable state; the claim is about every history of commands.",
  ["sequence/cli.py: _contents_of_input_file, _load_model_params", "sequence/sequence_model.py: SequenceModel.DEFAULT_PARAMS"])

p("Output can be restricted to some of the grid's rows",
  "An OutputWriter created with any nonempty selection of distinct rows of the grid (rows=...) writes every record without raising.",
  "every grid shape, every selection of rows, every sequence of steps",
  "All shapes and selections; the tests write one-row grids only.",
  ["sequence/output_writer.py:OutputWriter.__init__", "sequence/output_writer.py:OutputWriter.run_one_step", "sequence/netcdf.py:_set_layers"])
p("The row and column coordinates in the output file are those of the layers",
  "x_of_column[j] and y_of_row[i] in a file written by OutputWriter are the coordinates of the cells whose layers are stored at row i and column j.",
  "every grid shape and spacing, every row and column",
  "All shapes and spacings; the tests do not read the coordinates of files written by OutputWriter.",
  ["sequence/output_writer.py:OutputWriter.run_one_step", "sequence/netcdf.py:_set_grid_coordinates", "sequence/grid.py:SequenceModelGrid.x_of_column"])
p("to_netcdf with its default arguments writes any grid",
  "to_netcdf(grid, path) succeeds for every grid, with or without layers and row fields.",
  "every grid shape, set of fields and stack of layers",
  "All grids and stacks; the tests pass ids that avoid the default.",
  ["sequence/netcdf.py:to_netcdf", "sequence/netcdf.py:_set_layers", "sequence/netcdf.py:_set_field"])

p("Land, shoreface, shelf and water are drawn where the shore and shelf edge say",
  "plot_layers fills, between each pair of neighbouring layers, the land from the first column to the shore of those layers, the shoreface from there to the shelf edge and the shelf from there to the last column, and the water over exactly the columns beyond the shore of the newest layer, down from the elevation at the first of them; colours that are switched off are not drawn, lines are the selected layers and the top.",
  "every number of layers and columns, every position of shore and shelf edge with the shore not beyond the edge, every choice of colours and layers",
  "All positions of shore and shelf edge relative to the columns, in every pair of layers.",
  ["sequence/plot.py:plot_layers", "sequence/plot.py:_fill_between_layers", "sequence/plot.py:_outline_layer"])
p("A grid can be plotted whatever its number of rows",
  "Sequence.plot (plot_grid) works after any history of updates on a grid of any number of rows; it shows the top of each layer over the cells of the chosen row, and for each layer the shore and shelf edge recorded at the layer's age.",
  "every grid shape, every history of updates, every row",
  "All shapes and histories; the tests do not call plot_grid.",
  ["sequence/plot.py:plot_grid", "sequence/sequence.py:Sequence.plot"])
p("The file of a completed run can be plotted",
  "plot_file does not raise on a file written by a SequenceModel with an output section, whatever the clock and the number of steps.",
  "every start, step and number of steps, every interval, every set of processes",
  "All clocks and run lengths.",
  ["sequence/plot.py:plot_file", "sequence/output_writer.py:OutputWriter.run_one_step"])
p("layer_stop names the last layer that is outlined",
  "plot_layers with layer_start, layer_stop and no limit on the number of layers outlines exactly the layers from layer_start to layer_stop, both included, negative values of layer_stop counting from the end.",
  "every number of layers, every layer_start and layer_stop",
  "All combinations of start and stop, of either sign.",
  ["sequence/plot.py:plot_layers", "sequence/plot.py:_get_layers_to_plot"])
p("A dictionary for a raster grid creates the grid",
  "SequenceModelGrid.from_dict accepts the shape and xy_spacing with which a RasterModelGrid can be created: no xy_spacing, a number or a pair.",
  "every shape, every kind of xy_spacing",
  "All combinations of optional arguments.",
  ["sequence/grid.py:SequenceModelGrid.from_dict"])

p("Every column is what the updates laid",
  "After any calls of a Sequence or SequenceModel whose components do not touch the layers, each column holds the sediment laid at construction and then one layer per update or step, in order, with the thickness the components deposited there (erosion removes from the top and stops at the bottom), dated with the time reached and recorded with water depth, thickness, porosity and sand fraction; once twenty unmerged layers are there the ten oldest of them are one layer. So n layers laid appear as n - 9 m layers, m groups having been merged.",
  "every grid, every set of components that leave the layers alone, every sequence of updates, steps, runs and parameter changes, every cell",
  "All histories of deposits, of any length; the archiving only starts after twenty updates.",
  ["sequence/sequence.py:Sequence.update", "sequence/sequence.py:Sequence.add_layer", "sequence/sequence_model.py:SequenceModel.advance_components"])
p("The recorded water depth is the depth over the new layer",
  "The water_depth recorded with the newest layer of a column is sea level minus the elevation of the surface once the layer is laid.",
  "every grid, history, cell; layers laid at construction, by updates and by steps",
  "All histories and deposits.",
  ["sequence/sequence.py:Sequence.layer_properties", "sequence/sequence.py:Sequence.add_layer", "sequence/sequence_model.py:SequenceModel.advance_components"])
p("A new layer records its thickness as t0",
  "The t0 recorded with the newest layer of each column is the thickness of that layer (0 where sediment was eroded).",
  "every grid, history, cell; layers laid at construction, by updates and by steps",
  "All histories and deposits.",
  ["sequence/sequence.py:Sequence.layer_properties", "sequence/sequence_model.py:SequenceModel.__init__", "sequence/sequence_model.py:SequenceModel.layer_properties"])
p("A SequenceModel's sea level is that of its clock",
  "After construction and any number of steps the time of the sea-level component is the time of the clock, whatever time the clock started at, and after a step the sea level is the curve at that time.",
  "every curve, start and step of the clock, every set of components, every number of steps and dt",
  "All clocks and numbers of steps.",
  ["sequence/sequence_model.py:SequenceModel.__init__", "sequence/sequence_model.py:SequenceModel.run_one_step", "sequence/sea_level.py:SeaLevelTimeSeries.run_one_step"])

p("A new SequenceModel starts from a clean sea and load",
  "Constructing a SequenceModel on a grid sets the sea level to 0 and the shores and shelf edges to not-a-number, whatever a previous use of the grid left there, keeps every node field except the water load, and sets that load to the water standing on each interior node (density 1030 times its depth, nothing on land).",
  "every grid whose fields exist, every set of components, every clock",
  "All states a grid can be in when a model is constructed.",
  ["sequence/sequence_model.py:SequenceModel.__init__"])
p("A Sequence calls each component once per update, in order",
  "update(dt) runs every component exactly once, in the order given, each with the dt of the update, or the time step if none is given; run(until, dt) does so for every update it makes, and its updates add up to the time to go. If a component raises, the error comes out unchanged.",
  "every list of components, every state, every until and positive dt",
  "All lists of components and run lengths.",
  ["sequence/sequence.py:Sequence.update", "sequence/sequence.py:Sequence.run"])

p("sequence run takes every step to the clock's stop with the parameters then due",
  "`sequence run` makes as many steps as fit between the clock's start and its stop, then stops without an error; after each step exactly the parameters that the configuration changes at that step number are set, so step k+1 runs with the parameters the configuration gives at k. Only an error raised by a component (or by set_params) can end it earlier, and it comes out at that step. A clock without a stop is an error at once.",
  "every set of components, every clock, every list of configuration files and times that starts at 0, every order in which Python walks a set",
  "All configurations, clocks and run lengths; the loop is not covered by a unit test.",
  ["sequence/cli.py:run", "sequence/input_reader.py:TimeVaryingConfig.update"])
p("Configuration times are simulation times",
  "During `sequence run` the parameters in force are those that the configuration gives for the time of the clock.",
  "every configuration, every clock starting at 0, every number of steps",
  "All configurations, clock steps and run lengths.",
  ["sequence/cli.py:run", "sequence/sequence_model.py:SequenceModel.run_one_step"])
p("Shared parameters stay shared while the model runs",
  "A parameter that two processes must share (sediment load, porosities, densities) still has the same value in both after set_params, unless the two are given different values.",
  "every set of processes and sections, every dictionary of parameters",
  "All parameter dictionaries.",
  ["sequence/sequence_model.py:SequenceModel.set_params", "sequence/sequence_model.py:_match_values"])
p("setup and then run uses the options and the defaults",
  "After `sequence setup --set ...` in a folder without input files, `sequence run` in that folder reads one configuration, in which each option given has its value (the last one given for its group) and every other parameter its default, whatever other files are in the folder.",
  "every folder contents, every list of valid options, every text format that reads back what it wrote",
  "All folder contents and option lists.",
  ["sequence/cli.py:setup", "sequence/cli.py:run", "sequence/cli.py:_load_model_params"])
p("Settings of a plot: command line, then file, then default",
  "`sequence plot` draws with the settings given with --set, for the rest with those of the [plot] table of sequence.toml, and for the rest with the defaults.",
  "every list of settings, every sequence.toml or none, every setting name",
  "All combinations of sources per setting.",
  ["sequence/cli.py:plot", "sequence/cli.py:PLOT_KEYWORDS"])
p("A plot without a title shows the name of the file",
  "`sequence plot` titles the figure with the title that is set or, if none is set, with the name of the plotted file.",
  "every list of settings, every sequence.toml or none, every file name",
  "All combinations of settings.",
  ["sequence/cli.py:plot", "sequence/plot.py:plot_file", "sequence/cli.py:PLOT_KEYWORDS"])

p("Sand on land follows from the river's channels and the mud it carries",
  "Fluvial.run_one_step gives each land column that received a deposit the sand fraction 1 - exp(-(channel belts)), where channels more than 75 times as wide as deep are braided and others meander, the depth is inversely proportional to the steepness of the plain, flood plains grow with the mud the river still carries there, and that mud is the supply minus what the columns upstream kept; land without deposit gets 0.",
  "every profile, deposit, bedrock increment and parameters with positive load and sand denser than water, every land column",
  "All profiles and parameters; each column depends on all columns upstream.",
  ["sequence/fluvial.py:Fluvial.run_one_step"])

p("Assigning a parameter has the same effect as having started with it",
  "Setting an attribute of a process (as set_params does while a model runs) has, from the next step on, the effect of having created the process with that value.",
  "every process, every parameter of it, every value, every history of steps and assignments, every grid",
  "All processes, parameters and histories of steps and assignments.",
  ["sequence/sequence_model.py:SequenceModel.set_params", "sequence/fluvial.py:Fluvial", "sequence/sea_level.py:SinusoidalSeaLevel", "sequence/submarine.py:SubmarineDiffuser", "sequence/subsidence.py:SubsidenceTimeSeries", "sequence/sediment_flexure.py:SedimentFlexure"])
p("A dry run changes no file",
  "`sequence run --dry-run` leaves every file as it was.",
  "every set of parameters, every model they load, every contents of the file system",
  "All contents of the file system and parameters.",
  ["sequence/cli.py:run", "sequence/sequence_model.py:SequenceModel.__init__", "sequence/output_writer.py:OutputWriter.filepath"])
p("Any section of the configuration may change while the model runs",
  "`sequence run` with a configuration that changes over time runs to the clock's stop whenever its steps do not raise, whichever sections change.",
  "every list of configuration files and times that starts at 0, every clock with a stop, every set of components that only read their parameters",
  "All configurations and run lengths.",
  ["sequence/cli.py:run", "sequence/sequence_model.py:SequenceModel.set_params", "sequence/input_reader.py:TimeVaryingConfig.update"])
p("The example tables suit the default grid and clock",
  "The bathymetry, subsidence and sea-level tables that Sequence writes as examples can be read back as written (to a tenth) and can be used for a run with the default grid and clock.",
  "every table of numbers and one-line header, every grid, every time of the run",
  "All grids, times and tables.",
  ["sequence/cli.py:_contents_of_input_file", "sequence/bathymetry.py:BathymetryReader", "sequence/subsidence.py:SubsidenceTimeSeries", "sequence/sea_level.py:SeaLevelTimeSeries", "sequence/sequence_model.py:SequenceModel.DEFAULT_PARAMS"])
p("The shelf edge by curvature is the sharpest downward bend of the sea floor",
  "find_shelf_edge_by_curvature returns the position of the sea floor (the submerged part of the profile) where it bends down most.",
  "every profile, every increasing list of positions (however spaced), every sea level",
  "All real-valued profiles, spacings and sea levels.",
  ["sequence/shoreline.py:find_shelf_edge_by_curvature"])
p("The plot command says what is wrong with a file it cannot draw",
  "`sequence plot` draws the file or aborts with a message: it never ends with an unexplained error of the program.",
  "every output file (any dimensions, variables and values), every list of settings, every sequence.toml or none",
  "All files and settings.",
  ["sequence/cli.py:plot", "sequence/plot.py:plot_file", "sequence/plot.py:plot_layers"])

p("A process finds every field it needs",
  "On a grid loaded with a bathymetry, any program that creates processes in any order, assigns their attributes and runs their steps never raises KeyError: no process depends on another one having been created before.",
  "every grid and bathymetry, every sequence of creations, assignments and steps, every parameters",
  "All orders of creation, assignment and steps.",
  ["sequence/fluvial.py:Fluvial.__init__", "sequence/submarine.py:SubmarineDiffuser.__init__", "sequence/sediment_flexure.py:SedimentFlexure.__init__", "sequence/subsidence.py:SubsidenceTimeSeries.__init__", "sequence/shoreline.py:ShorelineFinder.__init__"])
p("Creating a process changes no existing value of the grid",
  "Creating a process on a grid leaves every field and value that was there (other than the shore and shelf edge that the shoreline finder reports) as it was.",
  "every grid, every process and parameters",
  "All grids, processes and parameters.",
  ["sequence/submarine.py:SubmarineDiffuser.__init__", "sequence/fluvial.py:Fluvial.__init__", "sequence/sediment_flexure.py:SedimentFlexure.__init__"])
p("to_netcdf writes the elements that are asked for",
  "In a new file, the variable of a field holds exactly the values of the elements given by ids for its location (all of them if none are given), in that order, and the x and y coordinates written for the location are those of the same elements.",
  "every grid, field, location with coordinates, list of element ids (negative ones count from the end), choice of names and layers",
  "All selections of elements.",
  ["sequence/netcdf.py:to_netcdf", "sequence/netcdf.py:_set_grid_coordinates", "sequence/netcdf.py:_set_field"])
p("A configured model stops only for a stated cause",
  "A model made from a configuration (grid, bathymetry, any list of processes with any parameters) and then used in any way raises in a step only because of a stated cause: the sea-level curve does not cover the time, the shore can not be found on a row of the topography the earlier processes left, or a parameter that is divided by is zero (or a negative alpha). It never stops because a field or a process is missing, and making the model itself fails only if one of its processes can not be made.",
  "every grid, bathymetry, list of processes, parameters and clock; every history of run_one_step(dt), run() and set_params(...); every well-behaved landlab",
  "All configurations and all histories of calls.",
  ["sequence/cli.py:run", "sequence/sequence_model.py:SequenceModel.load_processes", "sequence/sequence_model.py:SequenceModel.run_one_step", "sequence/sequence_model.py:SequenceModel.set_params"])
p("A configured model keeps its books at all times",
  "In a model made from a configuration, after any history of steps of any lengths and set_params, the elevation of every cell is its bedrock plus the thickness of its layers.",
  "every grid, bathymetry, list of processes (including flexure and compaction), parameters and clock; every history of calls",
  "All configurations and all histories of calls.",
  ["sequence/sequence_model.py:SequenceModel.__init__", "sequence/sequence_model.py:SequenceModel.advance_components", "sequence/sequence_model.py:SequenceModel.set_params"])
p("Every parameter matters",
  "Each parameter that a process accepts can change the outcome of some model: two values of it can be told apart by what some model does.",
  "every parameter of every process; for the parameters without effect: every configuration, arithmetic and history of calls",
  "That a parameter never changes anything is a claim about all configurations and histories.",
  ["sequence/sediment_flexure.py:SedimentFlexure.__init__", "sequence/fluvial.py:Fluvial.__init__"])
p("What a section of the configuration says is used",
  "A value given in a section of the configuration for a parameter that two sections share is used by the process that needs it, whichever of the two sections it is given in; sections of processes that do not run change nothing.",
  "every configuration, list of processes, pair of sections that share parameters",
  "All configurations.",
  ["sequence/sequence_model.py:SequenceModel.load_processes", "sequence/sequence_model.py:_match_values"])
p("A process uses only the fields it declares",
  "What a process does in a step depends only on the fields it lists in its declared inputs and outputs, and the step changes only the fields declared as outputs.",
  "every class, every state of it, every pair of grids, every length of step",
  "All grids that differ in some other field.",
  ["sequence/submarine.py:SubmarineDiffuser._info", "sequence/fluvial.py:Fluvial._info", "sequence/sediment_flexure.py:SedimentFlexure._info", "sequence/shoreline.py:ShorelineFinder._info", "sequence/sea_level.py:SeaLevelTimeSeries._info", "sequence/subsidence.py:SubsidenceTimeSeries._info"])
p("The order of independent processes does not matter",
  "If two neighbouring processes of a model do not write fields that the other uses, listing them the other way round changes nothing: every series of steps and changes of parameters gives the same times and grids, or raises in both.",
  "every model, every order that swaps of independent neighbours lead to, every history of calls",
  "All orders and all histories of calls.",
  ["sequence/sequence_model.py:SequenceModel.advance_components", "sequence/sequence_model.py:SequenceModel.set_params"])
p("The sea level follows the configured curve",
  "In a model made from a configuration, after every step the sea level is the value, at the time of the model, of the curve that the sea_level section describes (a file or a sinusoid), or of the newest file given with set_params; its increment is the difference from the sea level before the step.",
  "every grid, bathymetry, list of processes, parameters and clock; every history of steps and set_params",
  "All configurations and all histories of calls.",
  ["sequence/sea_level.py:SeaLevelTimeSeries", "sequence/sea_level.py:SinusoidalSeaLevel", "sequence/sequence_model.py:SequenceModel.run_one_step", "sequence/sequence_model.py:SequenceModel.set_params"])
p("The bedrock sinks by the configured rates",
  "In a model made from a configuration with subsidence and without flexure, after any history of steps of any lengths and set_params, the bedrock at every column of every profile row is the bathymetry there, less 100 m, plus for every step the rate of the file that was the newest then, at that column, times the length of the step; the two boundary rows stay.",
  "every grid, bathymetry, list of processes without flexure, parameters and clock; every history of steps and set_params",
  "All configurations and all histories of calls.",
  ["sequence/subsidence.py:SubsidenceTimeSeries", "sequence/bathymetry.py:BathymetryReader", "sequence/sequence_model.py:SequenceModel.load_grid", "sequence/sequence_model.py:SequenceModel._update_fields"])
p("The processes of a configured model run in the listed order and lay one layer per step",
  "A model made from a configuration has the listed processes, then fluvial and shoreline if they are not listed, each once. In every step each of them runs exactly once, in that order, each on the grid that the one before left; then one layer is laid on every cell: the deposit on the grid that the last one left, dated with the new time of the clock, with a porosity of one half or, if there is a compaction, the porosity it states.",
  "every grid, bathymetry, list of processes (with repetitions), parameters and clock; every history of steps and set_params",
  "All configurations and all histories of calls.",
  ["sequence/sequence_model.py:SequenceModel.load_processes", "sequence/sequence_model.py:SequenceModel.advance_components", "sequence/sequence_model.py:SequenceModel._update_fields", "sequence/grid.py:SequenceModelGrid"])
p("set_params assigns in the order given, and only to processes the model has",
  "set_params makes one assignment for each value, section by section in the order given, each to the process of that name as the earlier assignments left it and the grid; nothing else changes. A section for a process that the model does not have raises, KeyError if it is the first.",
  "every configuration, history of calls, and every argument of set_params",
  "All arguments and all histories of calls.",
  ["sequence/sequence_model.py:SequenceModel.set_params"])

p("A value left out of the configuration is the value that setup writes there",
  "The setup command writes a sequence.toml with every parameter at its default. So a configuration without a line makes the same model as the same configuration with the line that setup writes. This is false (flexure.isostasytime is written as 0 and defaults to 7000; sea_level.amplitude and wave_length differ too), and even writing out a constructor's own default can change the model, when the neighbouring process shares the parameter. What holds: a line with the constructor's default changes nothing if the parameter is not shared, and configurations whose sections say the same once the defaults are filled in make the same model.",
  "every grid, bathymetry, list of processes without water_flexure, parameters, clock; every line",
  "All configurations; two configurations have to be compared.",
  ["sequence/sequence_model.py:SequenceModel.DEFAULT_PARAMS", "sequence/sequence_model.py:SequenceModel.load_processes", "sequence/sequence_model.py:_match_values", "sequence/sediment_flexure.py:SedimentFlexure.__init__"])
p("A configuration makes a model exactly when every process accepts its section",
  "Loading a configuration fails only because of one of its processes: its name is not a known one (KeyError), or its section, completed with the parameters that its neighbour shares, has a parameter that the class does not take, a file where a number belongs, no file or a number where a file belongs, or a value out of range: a column beyond the subsidence file, a plain slope of 0, a density that is not positive, a negative isostasy time, an alpha of 0 or a profile without a shoreline. And each of these makes it fail; in particular a misspelled parameter is never ignored.",
  "every grid, bathymetry, list of processes, parameters and clock",
  "All configurations, and the absence of any other reason.",
  ["sequence/sequence_model.py:SequenceModel.load_processes", "sequence/subsidence.py:SubsidenceTimeSeries.__init__", "sequence/submarine.py:SubmarineDiffuser.__init__", "sequence/sediment_flexure.py:SedimentFlexure.__init__", "sequence/shoreline.py:ShorelineFinder.__init__", "sequence/sea_level.py:SeaLevelTimeSeries.__init__", "sequence/fluvial.py:Fluvial.__init__"])
p("The parameters of a process read back as they were given",
  "The attributes of a process that hold its parameters are what the configuration gives it, completed with what its neighbour shares and with the defaults, until set_params or an assignment gives another value; then they are the value given last. No step of the process or the model changes them. The isostasy time is None, for no delay, if the configured one is 0 (at most 1e-8), else the configured one. Attributes without a setter cannot be assigned.",
  "every class of process with its keywords; every configuration, and every history of steps, assignments and set_params",
  "All configurations and all histories of calls.",
  ["sequence/submarine.py:SubmarineDiffuser", "sequence/fluvial.py:Fluvial", "sequence/sediment_flexure.py:SedimentFlexure", "sequence/shoreline.py:ShorelineFinder", "sequence/sequence_model.py:SequenceModel.set_params"])
p("A table file means the numbers that are written in it",
  "The files of bathymetry, sea level and subsidence are read as the numbers written in their first two columns, whatever the layout: comments, empty lines, blanks around the numbers, signs, points and exponents, any of the three line ends, with or without one after the last line. So two files with the same numbers make the same model. A field that is not a number, or rows of different lengths, is a ValueError; fewer than two rows or columns is an IndexError.",
  "every text and every layout of every table of decimal numerals",
  "All texts; layouts can be combined without bound.",
  ["sequence/bathymetry.py:BathymetryReader.__init__", "sequence/subsidence.py:SubsidenceTimeSeries.__init__", "sequence/sea_level.py:SeaLevelTimeSeries.__init__"])
p("YAML and TOML files with the same sections mean the same",
  "A configuration file means its sections with their times, whatever the format (YAML or TOML, told by the end of the name unless it is given), the layout (one document or several, lists of sections, a table or an array of tables) and the name. So load_config, TimeVaryingConfig.from_file and from_files give the same for any two files with the same sections, and the run command too. A section without _time is at its place in the file. Any other format, or a name that does not tell one, is a ValueError, as is a stream without a format.",
  "every text that the YAML and TOML libraries accept, every name, format and layout",
  "All texts, names and layouts; two files have to be compared.",
  ["sequence/input_reader.py:load_config", "sequence/input_reader.py:TimeVaryingConfig.from_file", "sequence/input_reader.py:TimeVaryingConfig.from_files", "sequence/input_reader.py:TimeVaryingConfig.load_yaml", "sequence/input_reader.py:TimeVaryingConfig.load_toml", "sequence/input_reader.py:TimeVaryingConfig.get_loader", "sequence/cli.py:run"])
p("The configuration that generate prints can be run",
  "sequence generate prints a configuration, in YAML or TOML, of the defaults with the options; a run in a folder with this file has these parameters, and all processes. This is false of YAML: the shape and the spacing of the grid are tuples, which the YAML writer tags and the safe loader refuses, whatever options are given. It holds for TOML, and setup writes, into each of its files, exactly what generate prints for the same options.",
  "all options that are understood, and all folders in which the file is the only configuration",
  "All options; two commands have to be combined.",
  ["sequence/cli.py:generate", "sequence/cli.py:_contents_of_input_file", "sequence/cli.py:setup", "sequence/cli.py:run", "sequence/sequence_model.py:SequenceModel.DEFAULT_PARAMS"])
p("from_toml makes the grid of the configuration file",
  "SequenceModelGrid.from_toml makes the grid that from_dict makes of the grid section of the (first) section of the file. This is false of a file whose sections are an array of tables, [[sequence]], which is what TimeVaryingConfig.dump writes: it raises TypeError. It holds for a file with one table, [sequence].",
  "every TOML file that is a configuration",
  "All files.",
  ["sequence/grid.py:SequenceModelGrid.from_toml", "sequence/grid.py:SequenceModelGrid.from_dict"])
p("In floating point a run takes the steps that were written",
  "A run makes as many rounds of calls as steps fit between the clock's start and stop as these numbers are written, although the clock adds the step in floating point. This is false: with start 0, stop 0.3 and step 0.1 it makes two rounds, not three. It holds for numbers that are exact in binary (whole numbers, halves, quarters, ... up to 2^53 of them), so for the default clock. For any doubles, each addition moves the clock by at most (M + step)/2^53 from the exact time, M being a bound of start and stop; if this is less than the step the run ends, and the number of rounds and the final time are within that drift. A step that the addition loses makes run() never end. The clock never goes back.",
  "every clock in IEEE doubles with a positive step, every set of processes and every state",
  "All starts, stops and steps, and runs of any length; rounding errors build up with the number of steps.",
  ["sequence/sequence_model.py:SequenceModel.run", "sequence/sequence_model.py:SequenceModel.run_one_step", "landlab TimeStepper as used in sequence/sequence_model.py"])
p("In floating point a column keeps its sediment, and no layer is negative",
  "Layers are laid, eroded and merged in floating point. What a column holds is what was laid less what was eroded, with erosion stopping at bedrock. This is false of doubles: 0.1 and 0.2 merge into 0.30000000000000004. It holds up to rounding: after n operations that move D of sediment in all, the column holds what it should within 4 n (n + 1) D / 2^53. Whatever doubles are laid and eroded (infinite ones and NaN too), no layer is ever below zero, in a stack, in a SequenceModel and in a Sequence.",
  "every history of layers laid, eroded and merged in IEEE doubles; every run of a SequenceModel or a Sequence with any components that keep the shapes of the grid",
  "All amounts and histories of any length; rounding errors build up.",
  ["sequence/sequence_model.py:SequenceModel.advance_components", "sequence/sequence.py:Sequence.add_layer", "landlab EventLayers as used in sequence"])
p("In floating point the layers of a run are dated in order",
  "After run() every layer of every column has an age that is a number, that is not before the clock's start nor after its stop, and that is later than the age of every layer below it, although the clock adds the step in floating point and old layers are merged.",
  "every clock in IEEE doubles with a positive step, every grid, every set of components that keep the shapes of the grid and leave its layers alone, every run that ends",
  "All starts, stops and steps, and runs of any length.",
  ["sequence/sequence_model.py:SequenceModel.run", "sequence/sequence_model.py:SequenceModel.advance_components", "landlab EventLayers as used in sequence"])
p("In floating point Sequence.run makes steps forward only",
  "Sequence.run(until, dt) updates the components by positive lengths of at most dt, as many as it takes to get from the current time to until. This is false in floating point, because the number of steps is fixed before the first one while the time is rounded after each: run(until=2.2, dt=0.1) from 0 makes 23 updates and the last one has length 0 (it lays one more layer with the same age). It holds for numbers that are exact in binary (whole numbers, halves, quarters, ...). For any doubles no step is longer than dt, none goes back by more than rounding, and their number is that of the steps that fit, up to rounding.",
  "every time, until and dt in IEEE doubles with a positive dt and a later until, every list of components and every state",
  "All doubles and runs of any length; rounding errors build up with the number of steps.",
  ["sequence/sequence.py:Sequence.run", "sequence/sequence.py:Sequence.update"])
p("Water flexure never stops a run",
  "In any model made from parameters with a water_flexure process, after any calls of run_one_step, run and set_params, a step never raises in the turn of the WaterFlexure; if a step raises it is in the turn of another process, for that process's own cause. Bedrock plus layers is the elevation with water flexure too, and the WaterFlexure leaves the sea level, the layers and all fields but the bedrock increment and the lithosphere's increment alone, so that what is proved of configured models (C107, C108, C112 to C116) needs no assumption about it.",
  "every bathymetry file, list of processes, parameters and history; every plate solver that returns a deflection for every node; every Compact class that keeps the shapes of the grid",
  "All configurations and histories.",
  ["sequence/sediment_flexure.py:WaterFlexure", "sequence/sediment_flexure.py:DynamicFlexure", "sequence/sequence_model.py:SequenceModel.load_processes", "sequence/sequence_model.py:SequenceModel.set_params"])
p("The change in water depth that is loaded on the plate is the change over the step",
  "After each step of a model with water flexure, water__increment_of_depth is at each node of the profiles the water depth after the step less the water depth before it. This is false: both depths are taken with the sea level after the step, so that what the sea level has risen or fallen in the step is left out. What holds: it is the depth of the new surface less the depth of the old surface, both under the new sea level; so it is the true change when the sea level has not moved.",
  "every model made from parameters, every history and every node of the profiles but those of the first column",
  "All configurations, histories and nodes.",
  ["sequence/sequence_model.py:SequenceModel._update_fields", "sequence/sediment_flexure.py:WaterFlexure.update"])
p("In floating point a table is read within rounding of its lines",
  "The sea level, the subsidence and the initial profile are read off tables by linear interpolation. In floating point a value between two lines of a table lies between the values of the lines. This is false: with the table 0,-5 / 3,-0.8, ten steps of 0.3 end just before 3 and the sea level is just above -0.8. What holds: at a line of the table the value is that of the line to the last bit; between two lines it is never on the far side of the value of the first, is beyond that of the second by at most 2^-49 of the larger of the two (plus 2^-950), and is that near to the straight line; it is refused exactly outside the table.",
  "every table of doubles of at most 2^100, with positions at least 2^-100 apart, and every double",
  "All tables and all doubles.",
  ["sequence/sea_level.py:SeaLevelTimeSeries", "sequence/subsidence.py:SubsidenceTimeSeries", "sequence/bathymetry.py:BathymetryReader", "scipy interp1d / numpy interp as used there"])
p("In floating point the sea-level increments add up",
  "The sea level after any history of steps, changes of file and changes of time is the sea level at the start plus all recorded increments. In floating point this is false: the increment from 0.1 to 1 is rounded. It holds up to 2^-52 times the sum of the sizes of the increments, also when steps fail in between.",
  "every history in IEEE doubles, every table of doubles, and every curve whose values are numbers of at most 2^1000",
  "All histories of any length; rounding errors build up.",
  ["sequence/sea_level.py:SeaLevelTimeSeries.run_one_step", "sequence/sea_level.py:SeaLevelTimeSeries.filepath", "sequence/sea_level.py:SeaLevelTimeSeries.time"])
p("The bedrock is in balance with the load on it",
  "In a model with flexure whose isostasy time is zero (the plate bends at once), after any steps the bedrock has moved from where it started by the plate's deflection under the sediment load the model has then. This is false: the load that a step lays down is added after the plate has bent, so that the bedrock is in balance with the load of the step before. What holds, for any isostasy time and with subsidence too: the bedrock is where the bathymetry file puts it less the 100 m of the first layer, plus what it has subsided, less the deflection under what the load had changed by when the last step began, plus what the plate still owes; on a grid of one row a plate that bends at once owes nothing. No step's load is lost or counted twice.",
  "every bathymetry file, list of processes with flexure, parameters, and history of steps and changes of parameters other than the plate's; every plate solver that is linear in the load",
  "All configurations, histories and cells.",
  ["sequence/sediment_flexure.py:SedimentFlexure.run_one_step", "sequence/sediment_flexure.py:DynamicFlexure", "sequence/sequence_model.py:SequenceModel._update_fields", "sequence/subsidence.py:SubsidenceTimeSeries.run_one_step"])
p("The bedrock of a model with subsidence, with rounding",
  "With subsidence and without flexure, in the arithmetic the program uses, the bedrock of a profile row after any steps and changes of parameters is where the bathymetry file puts it, less 100 m, plus for each step the rate of the newest subsidence table at the column times the length of the step. This is false: each step rounds. What holds: it is a number, never infinite or NaN, and away from that sum by at most (steps / 2^51) of the distance travelled plus 2^-1000 per step; the two boundary rows stay exactly where they were.",
  "every bathymetry file, list of processes without flexure, parameters, and history of up to 2^50 steps of any lengths and changes of parameters, in IEEE doubles, whose rates and lengths are numbers and whose distance travelled is at most 2^1000",
  "All configurations, histories and cells; rounding errors build up over a run.",
  ["sequence/subsidence.py:SubsidenceTimeSeries.run_one_step", "sequence/sequence_model.py:SequenceModel._update_fields", "sequence/bathymetry.py:BathymetryReader", "sequence/sequence_model.py:SequenceModel.run_one_step"])
p("In floating point a plate delivers what it is given",
  "With an isostasy time, in the arithmetic the program uses, whatever deflections a plate is given over any steps, what it has delivered at a node and what it still owes there add up to what it was given. This is false: each step rounds. What holds: the difference is at most (steps / 2^51) of the sizes of what it was given, nothing infinite or NaN comes up, and no step delivers more than there is or in the other direction.",
  "every isostasy time that is accepted, number of rows up to 2^53, history of up to 2^50 steps of lengths up to 2^900 and deflections whose sizes add up to at most 2^1000, in IEEE doubles; every exponential function with values between 0 and 1 below zero",
  "All histories of any length; rounding errors build up.",
  ["sequence/sediment_flexure.py:DynamicFlexure.calc_dynamic_deflection", "sequence/sediment_flexure.py:DynamicFlexure.calc_isostasy_fraction", "sequence/sediment_flexure.py:DynamicFlexure.__init__"])
p("A water flexure takes the parameters it documents",
  "A positive number given in [water_flexure] for any of the documented numbers (isostasytime, water_density, and what is passed on to landlab's Flexure1D) makes a process. This is false: water_density is documented and a TypeError. What holds: every other documented number is taken; a section is refused only for a name it does not take (TypeError), an isostasy time that is not a number (TypeError) or one that is negative (ValueError), each of these is enough, and a configuration whose water flexure is refused makes no model.",
  "every section, grid, and configuration with a water flexure, whatever the other processes and the plate solver are",
  "All sections and configurations; tests try a few.",
  ["sequence/sediment_flexure.py:WaterFlexure.__init__", "sequence/sediment_flexure.py:DynamicFlexure.__init__", "sequence/sequence_model.py:SequenceModel.load_processes"])

out = pathlib.Path(__file__).resolve().parent.parent / "properties.jsonl"
out.write_text("".join(json.dumps(q, ensure_ascii=False) + "\n" for q in P))
print(len(P))
