# A Rocq model of sequence-dev/sequence

Source modelled: `/repo/sequence/*.py` (read as text, never executed). Prover: Coq 8.16.1,
standard library only (`List`, `ZArith`, `QArith`, `Reals`, `Lra`, `String`, `SpecFloat`).

## 1. How the model is built

* One model file per Python module (`rocq/theories/Model/*.v`). Each definition carries a comment
  naming the file and lines it models and every simplification made there.
* `Base/Num.v`: numbers are an operations-only class `Num A`. The same model functions are
  instantiated at
  * `R` - exact real arithmetic; arithmetic theorems are proved here;
  * `Q` - exact rationals; executable, used by `Example`s that replay the repository's own tests;
  * `spec_float` with binary64 precision (`Coq.Floats.SpecFloat`, no axioms) - used where the claim is
    about IEEE doubles (C34, C124, C125, C126, C127).
  Theorems that only involve comparisons, indexing or bookkeeping are proved for *every* `Num A`
  (no law is assumed of the class), hence also for doubles including NaN.
* Python exceptions are values (`Err e`); a function that can raise returns `result`. Python-level
  float division by zero is `Err ZeroDivisionError`; numpy division is only modelled where the
  divisor is shown to be nonzero or the case is excluded by a named hypothesis.
* Node fields are lists of rows (n_rows + 2 rows of n_cols), profiles are the rows 1..n_rows, cells
  are the profile rows without their first and last column. Dictionaries are insertion-ordered
  association lists.
* Code that is not in the repository (landlab `EventLayers`, `TimeStepper`, `LinearDiffuser`,
  `Flexure1D`; scipy `interp1d`, `bisect`; netCDF4; file system) is either modelled from its
  documented behaviour (small executable model, listed in section 4) or left as an arbitrary
  function the theorem quantifies over.
* `Spec/*.v` holds small specification vocabulary that does not mention the model.
  `Props/*.v` holds only the property theorems (each closed by `exact`), their non-vacuity
  `Example`s and `Print Assumptions`.
* Where the code violates the property, the full statement is kept as a `Definition ..._statement`,
  its negation is proved (`..._refuted`) by a concrete execution of the model, and the part that
  does hold is proved with the suffix `_partial`. Such properties have status `partial`.

## 2. Plan per property

| id | modelled | proof |
|----|----------|-------|
| C01 | `find_shoreline_index` | list induction, any `Num` |
| C02 | `find_shoreline` with scipy's bisection loop and an arbitrary interpolant through the nodes | loop invariant of the bisection, intermediate value theorem for the accuracy part |
| C03 | same | refuted by profile (-1, 1, -1); partial: holds if the first column is dry or the last column is dry |
| C04 | Python `bisect`, `argmax`, `find_shelf_edge` | loop invariant of the binary search; first-maximum induction |
| C05 | `ShorelineFinder.update` | from C02 and C04 per row |
| C06 | `SeaLevelTimeSeries` state machine | invariant over operation lists |
| C07 | curve of `SinusoidalSeaLevel` at R | trigonometric identities |
| C08 | `interp1d(kind="linear", bounds_error=True)` | real algebra, search invariant |
| C09 | same | refuted; partial: inside the table |
| C10 | `SubsidenceTimeSeries` | induction over operation lists |
| C11 | `BathymetryReader` | list lemmas |
| C12 | `_create_initial_profile` at R | monotonicity of exp |
| C13, C14 | `_calc_loading` | case analysis and field arithmetic |
| C15, C16 | `DynamicFlexure` | induction over histories; exp algebra; C16 refuted for more than one row, proved for one row |
| C17 | density setters | invariant over operation lists |
| C18 | `SedimentFlexure.update` with arbitrary `Flexure1D` | telescoping induction |
| C19 | `WaterFlexure` pure functions | real analysis |
| C20-C22, C24 | `calc_diffusion_coef`, setters | per-node functions; C21, C22 refuted, partials |
| C23 | `SubmarineDiffuser.run_one_step` with arbitrary solver | list lemmas |
| C25-C28 | `Fluvial.run_one_step` | loop invariants; C26 refuted (writes to a copy) |
| C29-C31 | landlab `EventLayers.add/reduce` + archive rule | invariants over histories |
| C32, C35-C37 | `Sequence` with arbitrary components | invariants over histories; C35, C36 refuted, partials |
| C33, C34 | `Sequence.run` | floor/ceil arithmetic; C34 refuted by computing in binary64 |
| C38-C42 | `SequenceModel` + clock | invariants; C39, C42 refuted, partials |
| C43-C46 | `load_processes`, `_match_values` | list/dictionary induction; C45 refuted |
| C47-C52 | `TimeVaryingConfig`, flatten/expand, dump/load, `from_files` | induction; C49, C52 refuted |
| C53-C56 | `cli.py` helpers on an abstract file system | induction; C54, C55 refuted, partials |
| C57-C62 | `OutputWriter`, `to_netcdf` on an abstract file | invariants over histories; C59, C60, C61, C62 refuted, partials |
| C63-C65 | `_outline_layer`, `_get_layers_to_plot`, elevations plotted by `plot_file`/`plot_grid` | list induction; C65 refuted |
| C66, C67 | `SequenceModelGrid` argument handling, `get_profile` | case analysis, list lemmas |
| C68 | `_create_initial_profile` | refuted when the shore is beyond the grid; partial: what is built instead |
| C69 | `WaterFlexure.update` with arbitrary `Flexure1D` | field lemmas |
| C70, C89 | `SequenceModel.__init__`, steps | invariants over runs |
| C71, C93 | `set_params` | dictionary induction; C93 refuted (parameters shared at construction are set separately later) |
| C72-C74 | `TimeVaryingConfig` as loaded by `run` | C72-C74 refuted, partials |
| C75, C76 | `setup` and its mutable defaults | refuted by a failing option / by two commands, partials |
| C77-C79 | `to_netcdf` with rows, coordinates, default arguments | refuted, partials |
| C80, C83 | `plot_layers`: regions, outlines, `layer_stop` | list induction; C83 refuted |
| C81, C82 | `plot_grid`, `plot_file` after runs | C81 refuted for several rows, C82 for one record; partials over runs |
| C84 | `SequenceModelGrid.from_dict` | refuted for `shape` of landlab's form, partial |
| C85-C87 | whole runs of `Sequence` and `SequenceModel`: what is laid and recorded | invariants over runs; C86, C87 refuted for the first layer, partials |
| C88 | sea level in whole runs | invariant; refuted for a step given its own dt |
| C90 | calls that `Sequence` makes | traces of arbitrary components |
| C91, C92 | the loop of `sequence run` | equality of the loop with the model's own run; C92 refuted (configuration time counts steps) |
| C94 | `setup` followed by `run` in one folder | dictionary induction, string lemmas |
| C95, C96 | settings of `sequence plot` | C96 refuted (the title is never missing) |
| C97 | the sand fraction of land columns | loop invariant of the downstream walk; refuted that braided rivers occur on a seaward-falling plain |
| C98 | the processes as objects with attributes: constructors, assignments and steps (Model/Setattr.v) | histories of steps and assignments compared with a process made with the last values; refuted for the attributes that a constructor turns into something else; partial: the settable ones, and what the ignored ones do |
| C99 | making the model of the run command, with the file system (Model/DryRun.v) | case analysis of the constructor of OutputWriter; refuted: it removes an existing output file; partial: only that file can change |
| C100 | the run command, time-varying configurations and set_params | the rounds of the run command; refuted: a change of a section that is not a component's ends the run with an error; partial: sections of components |
| C101 | writing and reading csv text (Model/Csv.v: digits, signs, comments, `%.1f`) and the components made from the example tables | digits by induction on text; piecewise linear interpolation; refuted: the sea-level table ends before the default clock; partial: what each table gives on any grid or time |
| C102 | `numpy.gradient` on unevenly spaced positions, `argmin`, `find_shelf_edge_by_curvature` | slopes specified by differences; refuted: land is searched too; partial: first place of least curvature, invariant under tilting, the place of a single bend |
| C103 | `plot` command: settings to figure (legend, labels, limits), errors of `plot_file` | case analysis over what is read from the file; refuted: a file of one record, an unknown setting; partial: missing variables and rows are reported |
| C104 | `construct`, `set_attribute`, `process_step` in any order on one grid (Spec/Script.v `play`) | invariant: base fields present and each process's own fields present; fields are never removed; KeyError-freedom by induction over the script |
| C105 | `construct` on any grid | frame lemma per constructor; refuted by the diffuser's assignment of the sea level; partial: everything else kept |
| C106 | `to_netcdf` with `ids` | coordinates and fields traced through the fold over locations; `picked` (Spec/Selecting.v) says which elements, `asked` which ids apply |
| C107 | `load_model` (load_grid, load_processes, SequenceModel), `run_one_step`, `set_model_params` on the repository's own processes; landlab, SciPy, Compact and WaterFlexure are the `externals` E, assumed `well_behaved` (they keep the shape of what they are given, remove no fields, keep existing fields when created, keep the layers except in a step of Compact, and interp1d does not raise KeyError) | invariant over `reached`: every field a process uses is there with the right shape and every process is in the dictionary; per process the set of exceptions of its step (`cause`); the first raising process of the fold is a `turn` |
| C108 | the same | every step of the configured components keeps the grid whole, so `advance_balanced` applies; set_params changes neither layers nor elevation |
| C109 | `load_model`, `session` in any arithmetic | refuted for the densities; partial: twin invariant between two models that differ only in the parameters without effect |
| C110 | `load_processes` inside `load_model` | refuted for `[sediments] hemipelagic`; partial: congruence in the sections of the listed processes |
| C111 | `_info` of each class (Model/Info.v), `process_step` | refuted for the diffuser, the river, the flexure and the shoreline; partial: exactly these classes, and for all classes with the undeclared fields added, by congruence of every step |
| C112 | `session` of any model with `named_processes` | a step of a process depends on its fields and writes its outputs only (C111), so two independent steps commute; the rest of a step of the model depends on the values of the fields only; induction over the calls. The models start equal: what creating the processes in another order changes is not covered |
| C113 | `load_model`, `run_one_step` and `set_model_params` with every process | refuted: run_one_step(dt) moves the sea level by dt and the clock by its own step (landlab's TimeStepper.advance, which is recalled, not read). Partial, for steps of the length of the clock's: invariant that the component named sea_level holds the described curve and the time of the clock, by induction over the history |
| C114 | the same, with `read_bathymetry` | invariant that the pending increment is zero between steps, that only the component named subsidence writes it and that its rates are those of the newest table at the columns; induction over the history. In any arithmetic in the order of the additions, and over the reals as a sum |
| C115 | the same | the names of the model are the keys of the dictionary that load_processes fills; a step is a fold over them, split into the grids between the turns. For the layer (over the reals): invariant that every cell has the same number of layers and that the object named compaction is one of the class that is not modelled; then the layer the grid adds is the last of each stack |
| C116 | `set_model_params` | induction over the sections and the values of each, relating the fold to a sequence of single assignments to named objects and the grid |
| C117 | `construct`, `load_model`, `match_params` | each keyword read with its default depends only on what the section says; the outcome of matching two processes depends only on the shared values; refuted for what setup writes, and for a shared default, by computing two models |
| C118 | `construct`, `load_processes`, `load_model` | each constructor by cases on its keywords, in both directions; the section handed to a process from the outcome of `match_params`; induction over the listed processes, carrying the grid that the earlier ones left |
| C119 | reading attributes (Model/Getattr.v), `construct`, `set_attribute`, `process_step`, `load_model`, `set_model_params` | each class: what the constructor stores, that a step keeps it, what an assignment changes; induction over the history of a process and of a model; the section handed to a process from C118 |
| C120 | the reading of csv text (Model/Csv.v) | numerals: what the parser returns is what the figures denote, and what it accepts is a numeral; lines of a text by induction over its layout |
| C121 | the choice of a reader and what it does with the values the YAML and TOML libraries give (Model/Reader.v); the libraries are arbitrary functions | both readers give the sections of the file; the rest depends on these alone |
| C122 | `generate`, `setup` and `run` on the text of the configuration file (Model/Reader.v) | the defaults with their tuples followed through the options, the writer and the reader; the behaviour of the libraries is a hypothesis; refuted for YAML |
| C123 | `from_toml` up to the TOML library (Model/Reader.v) | unfolding; refuted for an array of tables |
| C124 | the clock and `run()` of Model/SequenceModel.v at the instance `Num_b64` of the arithmetic (IEEE doubles) | the standard library's executable doubles are shown equal to Flocq's, whose rounding theorems bound each addition; induction on the number of steps; refuted for 0, 0.3, 0.1 |
| C125 | event layers of Model/Layers.v, Model/Archive.v and whole runs at `Num_b64` | induction on the history: the error of each addition is bounded with Flocq, erosion and merging included; the sign of every layer is an invariant of any doubles; refuted exactly by 0.1 and 0.2 merged |
| C126 | `run()` of Model/SequenceModel.v and the dating and merging of layers at `Num_b64` | the times of a run that ends are strictly increasing doubles (a lost step would keep it from ending); sortedness of ages is kept by laying and by merging |
| C127 | `Sequence.run` of Model/Sequence.v at `Num_b64`, with CPython's `//`, `%` and `int()` of doubles | `//` and `%` of doubles are shown exact for quotients up to 2^50; exact case by induction on the steps; in general the ideal step min(t + dt, until) is non-expansive, so the error grows by a constant per step; refuted by until 2.2, dt 0.1 |
| C128 | `WaterFlexure` (`water_make`, `water_step`, `water_set`) put in the place of the unmodelled class of Model/Whole.v; Compact stays external | an invariant of all reached states: the grid has the fields and sizes that the WaterFlexure needs; generic lemma for any such fact about the processes outside Model/Setattr.v |
| C129 | the same models; `_update_fields` | refuted by a model whose sea level rises; otherwise C41 and a lemma that no process moves the elevation except SubmarineDiffuser, in the first column |
| C130 | `interp_linear` in IEEE doubles | refuted by a table and a time that ten steps of 0.3 reach; otherwise Flocq's error of each rounding (one subtraction each for the values, the positions and the time, one division, one product, one sum), and monotony of rounding for the side of the first line |
| C131 | `SeaLevelTimeSeries.run_one_step` and its setters in IEEE doubles | refuted by one step; otherwise induction over the history with the error of one subtraction |
| C132 | loaded models with `SedimentFlexure` in any list of processes, over the reals | refuted by one step of a rational run; otherwise an invariant over the parts of a step, the steps and the changes of parameters: bedrock plus pending increment is start plus subsidence less the deflection under the load last seen, plus the pool; the plate is assumed linear, its solver is landlab's |
| C133 | loaded models with `SubsidenceTimeSeries` in IEEE doubles (C114 gives the doubles that are added) | refuted by one step of 0.1; otherwise induction over the steps with the errors of one product and one sum, growing by (1 + 2^-53)^2 per step |
| C134 | `DynamicFlexure` in IEEE doubles; numpy's `exp` is any function with values in [0, 1] below zero | refuted by two steps; otherwise induction over the steps at a node: rounding is monotone, so what is delivered and what is left stay between nothing and all, and the errors of one sum and one difference add up |
| C135 | `WaterFlexure.__init__` (`water_make`) and `load_model` with it; landlab's own checks of the numbers passed on are not modelled | refuted by `water_density`; otherwise cases on the section, and induction over the processes that are made |

No property on the list is considered inexpressible. What is outside the model is listed in section 4.

## 3. Trusted base

* Coq's kernel (8.16.1) and its standard library. No plugin, no axiom of our own, no kernel check
  switched off, no functor or module type, no `Admitted`.
* Axioms, all from the standard library. `Print Assumptions` lists for every theorem a subset of
  `ClassicalDedekindReals.sig_forall_dec`, `ClassicalDedekindReals.sig_not_dec`,
  `FunctionalExtensionality.functional_extensionality_dep` and `Classical_Prop.classic`: the
  axioms under the real numbers and real analysis of the standard library. Theorems over `Num A`,
  `Z`, `nat`, `Q` and binary64 have none. Section 5 lists every theorem. `coqchk -o`
  also shows the opaque constants of `Rdefinitions.RbaseSymbolsImpl`, `RinvImpl` and
  `ssrunder.Under_rel`: these are sealed modules of the standard library, with definitions.
* The transcription from Python to Gallina (by hand, cited line by line), and the behaviour of the
  libraries described in section 4.
* The numbers: theorems about arithmetic are about exact reals. A Python run uses doubles and
  rounds; only C34, C124, C125, C126, C127 (and the theorems stated for every `Num A`) speak about doubles.

## 4. What is modelled and what is not

### 4.1 The repository

| file | modelled | not modelled |
|------|----------|--------------|
| `bathymetry.py` | `BathymetryReader.__init__`, `run_one_step`, `_create_initial_profile`, reading csv text | inf, nan and rounding of numbers; `kind` other than "linear" |
| `cli.py` | `_time_from_filename`, `_find_config_files`, `_load_params_from_strings`, `_dots_to_dict`, `_dict_to_dots`, `_walk_dict`, `_load_model_params`, `_contents_of_input_file`, and the commands `setup`, `generate`, `run`, `plot` | click's parsing of arguments, printing, logging, progress bar, timing, text of toml/yaml (an arbitrary `render`/`parse`, or the `formats` of Model/Reader.v; the text of the csv tables is modelled in Model/Csv.v), `os.chdir` |
| `errors.py` | the exceptions as values | their messages |
| `fluvial.py` | `__init__`, `run_one_step`, the property setters | numpy warnings |
| `grid.py` | `__init__`, `from_dict`, `from_toml` (the TOML library is an arbitrary function), `x_of_column`, `y_of_row`, `number_of_*`, `get_profile` | landlab's limits on sizes, node status flags |
| `input_reader.py` | `TimeVaryingConfig` (all methods), `load_config`, `load_yaml`, `load_toml`, `get_loader` and the choice of reader by file suffix, `_flatten_dict`, `_expand_dict`, `_add_flattened_item`, `_walk_dict` | toml and yaml text (the libraries are arbitrary functions); `__repr__` |
| `logging.py` | nothing | output only |
| `netcdf.py` | `to_netcdf` and all its helpers | data types, units, `format`, contents of a file after an exception |
| `output_writer.py` | all | - |
| `plot.py` | `plot_layers`, `plot_grid`, `plot_file`, `_outline_layer`, `_fill_between_layers`, `_get_layers_to_plot`: the polygons and lines and their coordinates; legend entries, labels, title and limits (Model/PlotCommand.v) | matplotlib: drawing the colours, axes and legend, showing |
| `processes.py` | (re-exports) | - |
| `sea_level.py` | `SeaLevelTimeSeries`, `SinusoidalSeaLevel`, reading csv text | inf, nan and rounding of numbers; `kind` other than "linear" |
| `sediment_flexure.py` | `DynamicFlexure`, `WaterFlexure`, `SedimentFlexure`; the keywords passed on to `Flexure1D` (eet, youngs, rho_mantle, rho_water, gravity) are kept with the object and given to the solver; `WaterFlexure` also as a process of a configured model (Model/Water.v), around a plate solver and attributes of `Flexure1D` that are any functions of those keywords | set-up inside landlab's `Flexure1D`, its checks of those values |
| `sequence.py` | `Sequence` | progress bar |
| `sequence_model.py` | `SequenceModel`, `load_grid`, `load_processes`, `_match_values`, `set_params` | timers, log messages |
| `shoreline.py` | `ShorelineFinder` (with its constructor), `find_shoreline`, `find_shoreline_index`, `find_shelf_edge`, `find_shelf_edge_by_curvature` (with `numpy.gradient`); `_find_shoreline_polyfit` is unused and left out | NaN elevations |
| `submarine.py` | `SubmarineDiffuser` | the constructor of landlab's `LinearDiffuser` |
| `subsidence.py` | `SubsidenceTimeSeries`, reading csv text | inf, nan and rounding of numbers; `kind` other than "linear" |

### 4.2 Libraries

Modelled from their documented behaviour:

* landlab `EventLayers`: `add` appends an empty layer with the given properties and deposits on it
  or erodes from the top down; the first `add` fixes the tracked names and a later unknown name is a
  `ValueError`; `reduce` replaces a run of layers by one whose thickness is the sum and whose
  properties come from the reducers; `z` is the cumulative thickness.
* landlab `TimeStepper.advance`: the time moves first, then `StopIteration` past `stop`. In the loop
  of `sequence run` a `StopIteration` raised by a component is treated as an error.
* landlab grids: dictionaries of fields by name; a missing field is a `KeyError`; assigning to
  `at_grid` replaces the value; nodes and cells are numbered row by row. The grids seen by
  `to_netcdf` have no link, face or cell fields.
* numpy: `loadtxt` (1.23 and later; no inf, nan or rounding to doubles) and `savetxt` with "%.1f"; `searchsorted`, `gradient`, `argmax`, `where`, broadcasting of equal shapes and of single
  values, boolean-mask indexing makes a copy, `isclose(t, 0)` is |t| <= 1e-8, NaN sorts to the end.
* scipy: `interp1d(kind="linear", bounds_error=True)` is numpy's `interp` after a bounds check
  (the second attempt that numpy makes when infinities give NaN is not modelled);
  `optimize.bisect` is the loop of its C source with the default tolerances.
* Python: `bisect.bisect`; `sorted` is any stable sort; the items of a set come in an arbitrary
  order (`set_order`); `int(x)` truncates; `pathlib.glob` is case sensitive; dictionary `update` takes
  a dictionary (not a list of pairs); names are ASCII.
* netCDF4: an unlimited dimension grows with assignments and never shrinks; unassigned records are
  fill values; an assignment of as many values as there are places is reshaped, another one is
  broadcast or is a `ValueError`; creating an existing variable is a `RuntimeError`; an unknown
  dimension is a `KeyError`.
* the file system: a map from paths to files, directories or nothing.

Left as arbitrary functions that the theorems quantify over: the solver of `LinearDiffuser`,
`Flexure1D.calc_flexure`/`update`, `interp1d` inside `find_shoreline` (theorems name what they need
of it), the components inside a `Sequence` or `SequenceModel`, `yaml.safe_load` and the writing of
parameters as text, `setattr` on a component in the theorems about whole runs (Model/Setattr.v has it for
each class), the compaction process (which comes from another
package).

## 5. Print Assumptions per theorem

Output of `Print Assumptions` for the 379 property theorems, grouped (regenerate with `tools/gen_assumptions.py` after a build).

* **Closed under the global context** (no axioms) - 161 theorems:
  C132_refuted, C53_config_files, C53_time_unique, C54_options_refuted, C54_options_partial, C54_others_partial, C54_never_fail_partial, C55_dots_refuted, C55_dots_partial, C55_together_refuted, C56_existing, C56_never_overwrites, C56_creates, C75_failed_setup_refuted, C75_failed_setup_partial, C76_independent_refuted, C76_independent_partial, C93_shared_refuted, C93_shared_partial, C50_expand_flatten, C50_lossless, C104_fields_found, C104_any_grid, C104_diffuser_first, C105_sea_level_refuted, C105_partial, C102_raises, C111_refuted, C111_reads_which_partial, C111_writes_which_partial, C111_reads_partial, C111_writes_partial, C112_order, C117_refuted, C117_own_refuted, C117_line_partial, C117_config_partial, C117_class, C125_stack, C125_model, C125_sequence, C124_any, C124_stuck, C25_never_outside_partial, C113_refuted, C113_partial, C114_steps, C121_same, C121_stream, C121_files, C121_means, C121_refused, C121_not_config, C121_run, C122_yaml_refuted, C122_setup_partial, C123_refuted, C123_array_refuted, C123_partial, C66_accepted, C66_pair, C66_number, C66_dictionary_shape, C66_dictionary_spacing, C67_read, C67_write, C84_refuted, C84_partial, C85_sequence_number, C85_model_number, C86_start_depth_refuted, C86_model_depth_refuted, C87_start_thickness_refuted, C87_model_start_thickness_refuted, C88_any_dt_refuted, C88_sea_level_at_clock_partial, C29_layer_counts, C31_properties_kept, C57_records, C57_earlier_records_kept, C58_constructor, C58_setter, C58_steps, C59_interval_refuted, C59_interval_partial, C60_layers_refuted, C60_unsteady_refuted, C60_layers_partial, C61_age_refuted, C61_age_partial, C62_names_refuted, C62_names_partial, C77_rows_refuted, C77_selection_refuted, C77_all_rows_partial, C78_coordinates_partial, C79_defaults_refuted, C79_layers_refuted, C79_no_layers_partial, C103_reported_partial, C65_refuted, C65_file_partial, C65_level_bedrock_partial, C81_refuted, C81_several_rows_refuted, C81_one_row_partial, C82_refuted, C82_one_record_refuted, C83_refuted, C43_processes_in_order, C43_unknown_raises, C43_one_call_each, C44_match_values, C45_hemipelagic_refuted, C45_fluvial_section_partial, C46_shared_parameters, C46_conflicts_reported, C71_set_params, C71_unknown_raises, C119_process, C119_read_only, C99_refuted, C99_partial, C99_removes_partial, C99_keeps_partial, C106_selected_elements, C32_deposits_not_carried, C39_clock_moves_by_step_partial, C41_water_depth_change, C32_sequence_balanced, C34_run_in_doubles_refuted, C35_bedrock_moves_refuted, C35_fields_as_components_left_them_partial, C36_any_rows_refuted, C36_several_rows_fail_partial, C36_one_row_succeeds_partial, C37_one_record_per_update, C98_alpha_refuted, C98_partial, C98_fluvial_later_partial, C98_sea_level_later_partial, C98_subsidence_later_partial, C98_flexure_later_partial, C98_file_refuted, C98_ignored_partial, C01_shoreline_index, C01_rows, C90_update_calls, C101_csv, C115_order, C116_assigns, C116_unlisted, C128_assumptions, C128_fields, C129_refuted, C109_refuted, C109_no_effect_partial, C110_refuted, C110_only_listed_partial, C120_ragged, C120_refused.
* `FunctionalExtensionality.functional_extensionality_dep` - 1 theorems:
  C25_sand_fraction_refuted.
* `ClassicalDedekindReals.sig_forall_dec`, `FunctionalExtensionality.functional_extensionality_dep` - 136 theorems:
  C118_class_partial, C118_refuses, C118_handed, C52_sections_refuted, C52_files_partial, C52_parameters_partial, C74_run_refuted, C74_run_partial, C91_rounds, C91_run, C91_parameters, C91_no_stop, C92_in_time_refuted, C92_in_time_partial, C94_setup_then_run, C95_plot_settings, C96_title_refuted, C96_title_partial, C47_config_at, C47_file_sections, C47_load_config, C48_updates, C49_only_changes_refuted, C49_only_changes_partial, C51_dump_load, C51_equal_times_refuted, C72_initial_refuted, C72_initial_partial, C73_never_raises_refuted, C73_never_raises_partial, C102_refuted, C102_least_curvature_partial, C102_curvature_exists, C102_tilted, C102_bend_partial, C102_second_column_refuted, C125_refuted, C134_refuted, C127_refuted, C130_refuted, C131_refuted, C133_refuted, C124_refuted, C13_sediment_load, C14_load_in_two_parts, C14_load_undone, C14_load_defined, C15_negative_time_refused, C17_bulk_densities, C17_rejected_changes_nothing, C17_construction, C19_water_load, C27_submerged_beyond_shore, C28_shoreline_on_grid, C114_sum, C06_sea_level_increments, C08_interpolation, C09_nearest_extrapolation_refuted, C09_outside_table_partial, C10_subsidence_history, C10_uplift_unique, C10_split_step, C11_bathymetry, C11_constructed, C122_refuted, C122_toml_partial, C122_yaml_partial, C85_sequence_column, C85_model_column, C85_column_thickness, C86_update_depth_partial, C86_model_depth_before_partial, C87_update_thickness_partial, C87_model_thickness_partial, C29_archived_column, C30_archiving_preserves, C30_archived_totals, C31_thickness, C31_erosion_from_top, C78_coordinates_refuted, C95_figure, C95_default_figure, C103_refuted, C103_partial, C103_unknown_setting_refuted, C63_outline, C63_default_limits, C64_layers_to_plot, C80_regions, C80_unknown_shores, C81_recorded_shore_partial, C82_late_start_refuted, C82_partial, C83_from_start_partial, C83_from_end_partial, C119_model, C119_time, C100_refuted, C100_partial, C100_stops_partial, C32_model_balanced, C32_load_grid_hundred, C38_run_takes_every_full_step, C38_from_start, C38_never_ends, C38_never_ends_without_stop, C39_same_dt_refuted, C39_zero_dt_refuted, C40_increments_applied_once, C40_any_order, C41_zero_where_dry, C42_load_matches_refuted, C42_load_matches_partial, C42_requested_weight_partial, C70_run_succeeds, C70_init_ready, C33_run_reaches_time, C37_ages_never_decrease, C02_shoreline_all_submerged, C04_shelf_edge, C04_shelf_edge_zero_alpha, C05_assertion_never_fires, C05_constructor, C89_clean_start, C90_run_calls, C101_refuted, C101_bathymetry_partial, C101_subsidence_partial, C101_sea_level_partial, C135_partial, C135_reasons, C135_refuses, C135_model, C135_typo, C120_numbers, C120_layout.
* `ClassicalDedekindReals.sig_forall_dec`, `ClassicalDedekindReals.sig_not_dec`, `FunctionalExtensionality.functional_extensionality_dep` - 55 theorems:
  C118_fails_partial, C118_makes, C118_typo, C132_partial, C132_owed, C132_surface, C105_refuted, C15_deflection_conserved, C16_instant_refuted, C16_efolding_one_row_partial, C16_instant_one_row_partial, C16_instant_history_partial, C16_efolding_history_partial, C18_load_seen_once, C18_unchanged_load, C19_half_plane_linear, C69_water_flexure_step, C69_water_flexure_idle, C25_exact_sand_fraction_partial, C26_water_sand_refuted, C26_water_sand_zero_partial, C27_mud_within_rate_refuted, C27_mud_partial, C27_mud_exact, C28_walk_stays_on_grid, C07_sinusoid, C07_sinusoid_component, C98_refuted, C98_statement_refuted, C02_shoreline_between_dry_and_wet, C02_shoreline_linear, C03_no_failure_refuted, C03_no_failure_partial, C05_shoreline_finder, C20_coefficient_rules, C20_coefficients_positive, C21_same_call_twice_refuted, C21_same_rows_refuted, C21_present_only_partial, C21_second_calculation_partial, C22_both_boundaries_refuted, C22_bottom_boundary_partial, C23_moves_sediment_only, C24_load_follows_sea_level_refuted, C24_load_after_calculation_partial, C24_k_land, C115_layer, C135_refuted, C128_never_raises, C128_balanced, C129_partial, C129_still_sea_partial, C107_step_raises_only, C107_model_made, C108_balanced.
* `ClassicalDedekindReals.sig_forall_dec`, `ClassicalDedekindReals.sig_not_dec`, `Classical_Prop.classic`, `FunctionalExtensionality.functional_extensionality_dep` - 26 theorems:
  C125_balance_partial, C126_ages, C134_partial, C134_step, C34_exact_partial, C34_drift_partial, C127_exact_partial, C127_drift_partial, C130_partial, C131_partial, C131_tables, C133_partial, C133_tables, C124_exact_partial, C124_drift_partial, C124_inside_partial, C124_forward, C15_fraction_between_0_and_1, C16_efolding_refuted, C16_relaxation_bounds_partial, C19_half_plane, C97_steepness_refuted, C97_land_sand_partial, C12_initial_profile, C68_shore_outside_grid_refuted, C68_shore_outside_grid_partial.
