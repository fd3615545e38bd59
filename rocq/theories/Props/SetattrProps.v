(** C98: parameters that change while a model runs.

    [construct cls p g] creates a process with the parameters p, [set_attribute]
    is what SequenceModel.set_params does for each changed parameter, and
    [behave_alike] compares two processes by the grids that any later steps
    leave.  Histories are in Spec/Setting.v. *)
From Coq Require Import String List ZArith QArith Reals.
From Verif.Base Require Import Num Py Arr.
From Verif.Model Require Import Layers Grid Setattr.
From Verif.Spec Require Import Setting.
From Verif.Proofs Require Import SequenceModelEx SetattrP SetattrEx SolverP.
Import ListNotations.
Local Open Scope R_scope.

(** C98 in full: assigning a parameter of a new process does what creating the
    process with that value does. *)
Definition C98_statement : Prop :=
  forall interp1d diffuse flexure gravity cls p (g : grid R) name v o g1 o' g1',
  In name (parameters cls) ->
  construct interp1d cls p g = Ok (o, g1) -> construct interp1d cls (dset String.eqb p name v) g = Ok (o', g1') ->
  exists o2 g2, set_attribute name v (o, g1) = Ok (o2, g2)
    /\ behave_alike interp1d diffuse flexure gravity (o2, g2) (o', g1').

(** No parameter of a sinusoidal sea level can be changed: the assignment is
    accepted and has no effect. *)
Theorem C98_refuted interp1d diffuse flexure gravity name : In name (parameters SinusoidalSeaLevel) ->
  exists v o g o' g', construct interp1d SinusoidalSeaLevel [] ex_sea = Ok (o, g)
    /\ construct interp1d SinusoidalSeaLevel (dset String.eqb [] name (Number v)) ex_sea = Ok (o', g')
    /\ set_attribute name (Number v) (o, g) = Ok (o, g)
    /\ ~ behave_alike interp1d diffuse flexure gravity (o, g) (o', g').
Proof. exact (sine_ignored interp1d diffuse flexure gravity name). Qed.
Print Assumptions C98_refuted.
Theorem C98_statement_refuted : ~ C98_statement.
Proof. exact statement_refuted. Qed.
Print Assumptions C98_statement_refuted.
(** The alpha of the shoreline cannot be changed either: the run stops. *)
Theorem C98_alpha_refuted {A} {num : Num A} {tr : Trans A} interp1d p (g g1 : grid A) o v :
  construct interp1d ShorelineFinder p g = Ok (o, g1) -> set_attribute "alpha" v (o, g1) = Err AttributeError.
Proof. exact (alpha_fixed interp1d p g g1 o v). Qed.
Print Assumptions C98_alpha_refuted.

(** What holds: these parameters, in any arithmetic, give the very same process
    and grid.  Missing: the parameters of [ignored], the flexure's method, the diffuser's sea_level
    and the shoreline's alpha. *)
Theorem C98_partial {A} {num : Num A} {tr : Trans A} interp1d cls p (g : grid A) name v o g1 o' g1' :
  In name (match cls with
           | SeaLevelTimeSeries | SubsidenceTimeSeries => ["filepath"]
           | SubmarineDiffuser => ["plain_slope"; "wave_base"; "shoreface_height"; "alpha"; "shelf_slope"; "sediment_load"]
           | Fluvial => ["sand_frac"; "wave_base"; "sediment_load"; "sand_density"; "plain_slope"; "sea_level"]
           | SedimentFlexure => ["sand_density"; "mud_density"; "water_density"; "eet"; "youngs"; "rho_mantle"; "rho_water"; "gravity"]
           | SinusoidalSeaLevel | ShorelineFinder => []
           end)%string ->
  construct interp1d cls p g = Ok (o, g1) -> construct interp1d cls (dset String.eqb p name v) g = Ok (o', g1') ->
  set_attribute name v (o, g1) = Ok (o', g1').
Proof. exact (set_as_construct interp1d cls p g name v o g1 o' g1'). Qed.
Print Assumptions C98_partial.
Example C98_nonvacuous interp1d :
  exists o g1 o' g1', construct interp1d SubmarineDiffuser [] (ex_coast (A:=R)) = Ok (o, g1)
    /\ construct interp1d SubmarineDiffuser (dset String.eqb [] "wave_base"%string (Number 30)) (ex_coast (A:=R)) = Ok (o', g1')
    /\ o <> o'.
Proof. exact (ex_settable interp1d). Qed.

(** At any time later: after any steps and assignments the process is one newly
    created, on the present grid, with the parameters assigned last. *)
Theorem C98_fluvial_later_partial {A} {num : Num A} {tr : Trans A} interp1d diffuse flexure gravity p (g g0 g1 g1' : grid A) o0 h o o' :
  assigns ["sand_frac"; "wave_base"; "sediment_load"; "sand_density"; "plain_slope"]%string h ->
  construct interp1d Fluvial p g = Ok (o0, g0) -> foldM (happen interp1d diffuse flexure gravity) h (o0, g0) = Ok (o, g1) ->
  construct interp1d Fluvial (assigned p h) g1 = Ok (o', g1') ->
  o' = o /\ g1' = g1.
Proof. exact (fluvial_later interp1d diffuse flexure gravity interp1d p g g0 g1 g1' o0 h o o'). Qed.
Print Assumptions C98_fluvial_later_partial.
Theorem C98_sea_level_later_partial {A} {num : Num A} {tr : Trans A} interp1d diffuse flexure gravity p (g g0 g1 g1' : grid A) o0 h o o' :
  assigns ["filepath"%string] h ->
  construct interp1d SeaLevelTimeSeries p g = Ok (o0, g0) ->
  foldM (happen interp1d diffuse flexure gravity) h (o0, g0) = Ok (o, g1) ->
  (forall t, kwd p "start" n0 = Ok t ->
     construct interp1d SeaLevelTimeSeries (dset String.eqb (assigned p h) "start"%string (Number (elapsed t h))) g1 = Ok (o', g1')) ->
  o' = o /\ g1' = g1.
Proof. exact (sea_level_later interp1d diffuse flexure gravity interp1d p g g1 g1' o0 h o o' g0). Qed.
Print Assumptions C98_sea_level_later_partial.
Theorem C98_subsidence_later_partial {A} {num : Num A} {tr : Trans A} interp1d diffuse flexure gravity p (g g0 g1 g1' : grid A) o0 h o o' :
  assigns ["filepath"%string] h ->
  construct interp1d SubsidenceTimeSeries p g = Ok (o0, g0) ->
  foldM (happen interp1d diffuse flexure gravity) h (o0, g0) = Ok (o, g1) ->
  construct interp1d SubsidenceTimeSeries (assigned p h) g1 = Ok (o', g1') ->
  g1' = g1 /\ behave_alike interp1d diffuse flexure gravity (o, g1) (o', g1').
Proof. exact (subsidence_later interp1d diffuse flexure gravity interp1d p g g0 g1 g1' o0 h o o'). Qed.
Print Assumptions C98_subsidence_later_partial.
(* the flexure: the solver that is used is the one for the keywords given last *)
Theorem C98_flexure_later_partial {A} {num : Num A} {tr : Trans A} interp1d diffuse flexure gravity p (g g0 g1 : grid A) o0 h o flexure' gravity' :
  construct interp1d SedimentFlexure p g = Ok (o0, g0) ->
  foldM (happen interp1d diffuse flexure gravity) h (o0, g0) = Ok (o, g1) ->
  (forall k, (forall n, In n ["eet"; "youngs"; "rho_mantle"; "rho_water"; "gravity"]%string -> dget String.eqb k n = dget String.eqb (assigned p h) n) ->
     flexure k = flexure' k /\ gravity k = gravity' k) ->
  forall dt, process_step interp1d diffuse flexure gravity dt (o, g1) = process_step interp1d diffuse flexure' gravity' dt (o, g1).
Proof. exact (solver_used interp1d diffuse flexure gravity interp1d p g g0 g1 o0 h o flexure' gravity'). Qed.
Print Assumptions C98_flexure_later_partial.
(* a sinusoidal sea level never takes a file *)
Theorem C98_file_refuted {A} {num : Num A} {tr : Trans A} interp1d diffuse flexure gravity p (g g0 g1 : grid A) o0 h o x y :
  construct interp1d SinusoidalSeaLevel p g = Ok (o0, g0) ->
  foldM (happen interp1d diffuse flexure gravity) h (o0, g0) = Ok (o, g1) ->
  set_attribute "filepath"%string (Table x y) (o, g1) = Err AttributeError.
Proof. exact (sine_file interp1d diffuse flexure gravity interp1d p g g0 g1 o0 h o x y). Qed.
Print Assumptions C98_file_refuted.
Example C98_flexure_nonvacuous {tr : Trans Q} interp1d :
  exists o g1 o1, construct interp1d SedimentFlexure [("eet"%string, Number 5000)]%Q (ex_coast (A:=Q)) = Ok (o, g1)
    /\ set_attribute "gravity"%string (Number 10)%Q (o, g1) = Ok (o1, g1)
    /\ exists o2 g2, construct interp1d SinusoidalSeaLevel [] (ex_coast (A:=Q)) = Ok (o2, g2).
Proof. exact (ex_solver interp1d). Qed.
Example C98_later_nonvacuous interp1d diffuse flexure gravity :
  assigns fluvial_names ex_history /\
  exists o0 g0 o g1 o' g1',
    construct interp1d Fluvial [("wave_base"%string, Number 60)] (ex_coast (A:=R)) = Ok (o0, g0)
    /\ foldM (happen interp1d diffuse flexure gravity) ex_history (o0, g0) = Ok (o, g1)
    /\ construct interp1d Fluvial (assigned [("wave_base"%string, Number 60)] ex_history) g1 = Ok (o', g1')
    /\ assigned [("wave_base"%string, Number 60)] ex_history = [("wave_base"%string, Number 20); ("plain_slope"%string, Number (1 / 100))].
Proof. exact (ex_later interp1d diffuse flexure gravity). Qed.
(* the level after one step of a table, after a step of the next, the time *)
Example C98_run : ex_tables_level = Some [1; 5; 2]%Q.
Proof. exact ex_tables_level_ok. Qed.

(** And what happens to the others: assigning them, at any moments of any
    history, is as not assigning them. *)
Theorem C98_ignored_partial {A} {num : Num A} {tr : Trans A} interp1d diffuse flexure gravity cls p (g g1 : grid A) o h :
  construct interp1d cls p g = Ok (o, g1) ->
  assigns (match cls with
           | SeaLevelTimeSeries => ["start"]
           | SinusoidalSeaLevel => ["wave_length"; "amplitude"; "phase"; "mean"; "start"; "linear"]
           | SubmarineDiffuser => ["load_sealevel"; "basin_width"]
           | Fluvial => ["hemipelagic"; "sea_level"]
           | SedimentFlexure => ["isostasytime"]
           | SubsidenceTimeSeries | ShorelineFinder => []
           end)%string h ->
  foldM (happen interp1d diffuse flexure gravity) h (o, g1)
  = foldM (happen interp1d diffuse flexure gravity) (filter (fun e => match e with Step _ => true | Assign _ _ => false end) h) (o, g1).
Proof. exact (ignored_later interp1d diffuse flexure gravity cls p g g1 o h). Qed.
Print Assumptions C98_ignored_partial.
