(** Creating the processes and changing their parameters while a model runs:
    process_class[name](grid, **params) (sequence/sequence_model.py:262-264) and
    setattr(c, param, value) (sequence/sequence_model.py:286-297).

    A value is a number, or a csv file given as its two columns; any other
    string is written as a file with no lines.  Parameters that are handed on to
    LinearDiffuser, "kind" other than linear and isostasytime=None are not
    modelled; neither is Compact.  WaterFlexure is in Model/Water.v. *)
From Coq Require Import String List ZArith QArith.
From Verif.Base Require Import Num Py Arr.
From Verif.Model Require Import Layers Grid Interp Shoreline SeaLevel Subsidence Flexure Submarine Fluvial.
Import ListNotations.
Local Open Scope string_scope.
Local Open Scope num_scope.

Section Setattr.
  Context {A : Type} `{Num A} `{Trans A}.

  Inductive pvalue : Type := Number (v : A) | Table (x y : list A).
  Definition kwds : Type := list (string * pvalue).

  (* a keyword argument with its default *)
  Definition kwd (p : kwds) (name : string) (default : A) : result A :=
    match dget String.eqb p name with
    | None => Ok default
    | Some (Number v) => Ok v
    | Some (Table _ _) => Err TypeError
    end.
  (* a filepath; a missing one is a TypeError *)
  Definition kwd_file (p : kwds) (name : string) : result (list A * list A) :=
    match dget String.eqb p name with
    | Some (Table x y) => Ok (x, y)
    | Some (Number _) => Err FileError
    | None => Err TypeError
    end.

  Inductive pclass : Type :=
    SeaLevelTimeSeries | SinusoidalSeaLevel | SubsidenceTimeSeries | SubmarineDiffuser | Fluvial | SedimentFlexure | ShorelineFinder.
  Inductive process : Type :=
  | PSeaLevel (c : sea_level_comp A)           (* from a file *)
  | PSinusoid (c : sea_level_comp A)
  | PSubsidence (c : subsidence_comp A)
  | PSubmarine (c : submarine A)
  | PFluvial (c : fluvial A)
  | PFlexure (d : densities A) (k : kwds) (c : sed_flexure A)   (* k: what Flexure1D was given *)
  | PShoreline (alpha : A).

  (* the keyword arguments of landlab's Flexure1D that SedimentFlexure passes on
     (sediment_flexure.py:37-44,328-335, with method and rows already set).
     Their values are not checked here, and what they mean is left to the
     functions [flexure] and [gravity] below *)
  Definition flexure1d : list string := ["eet"; "youngs"; "rho_mantle"; "rho_water"; "gravity"].
  Definition those_of (names : list string) (p : kwds) : kwds :=
    flat_map (fun n => match dget String.eqb p n with Some v => [(n, v)] | None => [] end) names.
  Definition passed_on (p : kwds) : kwds := those_of flexure1d p.
  (* the keyword arguments: sequence/sea_level.py:47-53,133-142,
     subsidence.py:33-35, submarine.py:48-61, fluvial.py:57-67,
     sediment_flexure.py:293-301, shoreline.py:62 *)
  Definition parameters (c : pclass) : list string :=
    match c with
    | SeaLevelTimeSeries => ["filepath"; "start"]
    | SinusoidalSeaLevel => ["wave_length"; "amplitude"; "phase"; "mean"; "start"; "linear"]
    | SubsidenceTimeSeries => ["filepath"]
    | SubmarineDiffuser => ["sea_level"; "plain_slope"; "wave_base"; "shoreface_height"; "alpha"; "shelf_slope"; "sediment_load";
                            "load_sealevel"; "basin_width"]
    | Fluvial => ["sand_frac"; "wave_base"; "sediment_load"; "sand_density"; "plain_slope"; "hemipelagic"; "sea_level"]
    | SedimentFlexure => ["sand_density"; "mud_density"; "isostasytime"; "water_density"; "method"] ++ flexure1d
    | ShorelineFinder => ["alpha"]
    end.

  Section Construct.
  Context (interp1d : list A -> list A -> result (A -> A)).

  (* the constructors, with their defaults; an unexpected name is a TypeError *)
  Definition construct (cls : pclass) (p : kwds) (g : grid A) : result (process * grid A) :=
    if negb (forallb (fun kv => existsb (String.eqb (fst kv)) (parameters cls)) p) then Err TypeError
    else match cls with
    | SeaLevelTimeSeries =>
        let* file := kwd_file p "filepath" in
        let* start := kwd p "start" n0 in
        Ok (PSeaLevel (mkSeaLevel (sea_level_interpolator (fst file) (snd file)) start), g)
    | SinusoidalSeaLevel =>
        let* wave_length := kwd p "wave_length" n1 in
        let* amplitude := kwd p "amplitude" n1 in
        let* phase := kwd p "phase" n0 in
        let* mean := kwd p "mean" n0 in
        let* start := kwd p "start" n0 in
        let* linear := kwd p "linear" n0 in
        Ok (PSinusoid (sinusoidal_init wave_length amplitude phase mean start linear), g)
    | SubsidenceTimeSeries =>
        let* file := kwd_file p "filepath" in
        let (g, c) := subsidence_init (fst file) (snd file) g in
        let* c := c in Ok (PSubsidence c, g)
    | SubmarineDiffuser =>
        let* sea_level := kwd p "sea_level" n0 in
        let* plain_slope := kwd p "plain_slope" (nlit (8 # 10000)) in
        let* wave_base := kwd p "wave_base" (nlit 60) in
        let* shoreface_height := kwd p "shoreface_height" (nlit 15) in
        let* alpha := kwd p "alpha" (nlit (5 # 10000)) in
        let* shelf_slope := kwd p "shelf_slope" (nlit (1 # 1000)) in
        let* sediment_load := kwd p "sediment_load" (nlit 3) in
        let* load_sealevel := kwd p "load_sealevel" n0 in
        let* basin_width := kwd p "basin_width" (nlit 500000) in
        let* (c, g) := submarine_init (mkSubParams sea_level plain_slope wave_base shoreface_height alpha shelf_slope
                                         sediment_load load_sealevel basin_width) g in
        Ok (PSubmarine c, g)
    | Fluvial =>
        let* sand_frac := kwd p "sand_frac" (nlit (1 # 2)) in
        let* wave_base := kwd p "wave_base" (nlit 60) in
        let* sediment_load := kwd p "sediment_load" (nlit 3) in
        let* sand_density := kwd p "sand_density" (nlit 2650) in
        let* plain_slope := kwd p "plain_slope" (nlit (8 # 10000)) in
        let* hemipelagic := kwd p "hemipelagic" n0 in
        let* _ := kwd p "sea_level" n0 in
        let (c, g) := fluvial_init (mkFluvial sand_frac sediment_load sand_density plain_slope wave_base hemipelagic) g in
        Ok (PFluvial c, g)
    | SedimentFlexure =>
        let* sand_density := kwd p "sand_density" (nlit 2650) in
        let* mud_density := kwd p "mud_density" (nlit 2720) in
        let* isostasytime := kwd p "isostasytime" (nlit 7000) in
        let* water_density := kwd p "water_density" (nlit 1030) in
        let* d := densities_init sand_density mud_density water_density in
        let* (c, g) := sed_flexure_init (Some isostasytime) g in
        Ok (PFlexure d (passed_on p) c, g)   (* :328 method is dropped *)
    | ShorelineFinder =>
        let* alpha := kwd p "alpha" (nlit (5 # 10000)) in
        let* g := shoreline_init interp1d alpha g in
        Ok (PShoreline alpha, g)
    end.
  End Construct.

  (* what a value that has to be a number, or a file, gives *)
  Definition as_number (v : pvalue) : result A := match v with Number v => Ok v | Table _ _ => Err TypeError end.
  Definition as_file (v : pvalue) : result (list A * list A) := match v with Table x y => Ok (x, y) | Number _ => Err FileError end.

  (* setattr(c, name, value).  A property with a setter runs it; a property
     without one raises AttributeError; an attribute of that name is replaced;
     any other name becomes a new attribute that nothing reads. *)
  Definition set_attribute (name : string) (v : pvalue) (pg : process * grid A) : result (process * grid A) :=
    let (p, g) := pg in
    match p with
    | PSeaLevel c =>
        (* sequence/sea_level.py:92-111 *)
        if String.eqb name "filepath" then
          let* file := as_file v in Ok (PSeaLevel (sea_level_set_file (fst file) (snd file) c), g)
        else if String.eqb name "time" then let* t := as_number v in Ok (PSeaLevel (sea_level_set_time t c), g)
        else Ok pg
    | PSinusoid c =>
        (* the same properties; the setter of filepath reads _kind, which is
           not there *)
        if String.eqb name "filepath" then let* file := as_file v in Err AttributeError
        else if String.eqb name "time" then let* t := as_number v in Ok (PSinusoid (sea_level_set_time t c), g)
        else Ok pg
    | PSubsidence c =>
        (* sequence/subsidence.py:66-104 *)
        if String.eqb name "filepath" then
          let* file := as_file v in
          match subsidence_set_file (fst file) (snd file) g c with
          | (c, None) => Ok (PSubsidence c, g)
          | (_, Some e) => Err e
          end
        else if existsb (String.eqb name) ["subsidence_rate"; "time"] then Err AttributeError
        else Ok pg
    | PSubmarine c =>
        (* sequence/submarine.py:117-197 *)
        let set f := let* v := as_number v in Ok (PSubmarine (f v c), g) in
        if String.eqb name "plain_slope" then set set_plain_slope
        else if String.eqb name "wave_base" then set set_wave_base
        else if String.eqb name "shoreface_height" then set set_shoreface_height
        else if String.eqb name "alpha" then set set_alpha
        else if String.eqb name "shelf_slope" then set set_shelf_slope
        else if String.eqb name "sediment_load" then
          let* v := as_number v in let (c, g) := set_sediment_load v c g in Ok (PSubmarine c, g)
        else if String.eqb name "sea_level" then
          let* v := as_number v in Ok (PSubmarine c, set_sea_level v g)
        else if existsb (String.eqb name) ["load0"; "k_land"; "time"] then Err AttributeError
        else Ok pg
    | PFluvial c =>
        (* sequence/fluvial.py:107-112: attributes; the hemipelagic rate is in
           the attribute hemi *)
        let '(mkFluvial sf sl sd ps wb he) := c in
        let set f := let* v := as_number v in Ok (PFluvial (f v), g) in
        if String.eqb name "sand_frac" then set (fun v => mkFluvial v sl sd ps wb he)
        else if String.eqb name "sediment_load" then set (fun v => mkFluvial sf v sd ps wb he)
        else if String.eqb name "sand_density" then set (fun v => mkFluvial sf sl v ps wb he)
        else if String.eqb name "plain_slope" then set (fun v => mkFluvial sf sl sd v wb he)
        else if String.eqb name "wave_base" then set (fun v => mkFluvial sf sl sd ps v he)
        else if String.eqb name "hemi" then set (fun v => mkFluvial sf sl sd ps wb v)
        else Ok pg
    | PFlexure d k c =>
        (* sequence/sediment_flexure.py:71-74,413-462; the others are properties
           of Flexure1D *)
        let set f := let* v := as_number v in let* d := f v d in Ok (PFlexure d k c, g) in
        if String.eqb name "sand_density" then set set_sand_density
        else if String.eqb name "mud_density" then set set_mud_density
        else if String.eqb name "water_density" then set set_water_density
        else if existsb (String.eqb name) ["isostasy_time"; "sand_bulk_density"; "mud_bulk_density"] then Err AttributeError
        else if existsb (String.eqb name) ("method" :: flexure1d) then
          (* attributes have no order: they are kept in this one *)
          Ok (PFlexure d (those_of (flexure1d ++ ["method"]) (dset String.eqb k name v)) c, g)
        else Ok pg
    | PShoreline _ =>
        (* sequence/shoreline.py:102-105 *)
        if String.eqb name "alpha" then Err AttributeError else Ok pg
    end.

  Section Steps.
  Context (interp1d : list A -> list A -> result (A -> A)) (diffuse : A -> field A -> field A -> field A)
    (flexure : kwds -> field A -> field A) (gravity : kwds -> A).

  (* run_one_step(dt) of a process *)
  Definition process_step (dt : A) (pg : process * grid A) : result (process * grid A) :=
    let (p, g) := pg in
    match p with
    | PSeaLevel c => match sea_level_step dt c g with
                     | (c, g, None) => Ok (PSeaLevel c, g)
                     | (_, _, Some e) => Err e
                     end
    | PSinusoid c => match sea_level_step dt c g with
                     | (c, g, None) => Ok (PSinusoid c, g)
                     | (_, _, Some e) => Err e
                     end
    | PSubsidence c => let* (c, g) := subsidence_step dt c g in Ok (PSubsidence c, g)
    | PSubmarine c => let* (c, g) := submarine_step interp1d diffuse dt c g in Ok (PSubmarine c, g)
    | PFluvial c => let* g := fluvial_step interp1d dt c g in Ok (PFluvial c, g)
    | PFlexure d k c => let* (c, g) := sed_flexure_step (flexure k) (gravity k) dt c g in Ok (PFlexure d k c, g)
    | PShoreline alpha => let* g := shoreline_update interp1d alpha g in Ok (PShoreline alpha, g)
    end.
  (* the grid that some steps leave *)
  Definition process_run (dts : list A) (pg : process * grid A) : result (grid A) :=
    let* pg := foldM (fun pg dt => process_step dt pg) dts pg in Ok (snd pg).
  End Steps.
End Setattr.
Arguments pvalue : clear implicits. Arguments kwds : clear implicits. Arguments process : clear implicits.
Arguments Number {A}. Arguments Table {A}.
