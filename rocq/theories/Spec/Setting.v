(** Parameters that are assigned while a process is in use.

    A history is a list of steps and assignments.  [assigned p h] are the
    parameters p with the assignments of h, the last one of a name counting, and
    [elapsed t h] the time t plus the steps of h. *)
From Coq Require Import String List.
From Verif.Base Require Import Num Py Arr.
From Verif.Model Require Import Grid Setattr.
Import ListNotations.
Local Open Scope string_scope.

Section Setting.
  Context {A : Type} {num : Num A} {tr : Trans A}.

  Inductive event : Type := Step (dt : A) | Assign (name : string) (v : pvalue A).
  Definition assigned (p : kwds A) (h : list event) : kwds A :=
    fold_left (fun p e => match e with Step _ => p | Assign n v => dset String.eqb p n v end) h p.
  Definition elapsed (t : A) (h : list event) : A :=
    fold_left (fun t e => match e with Step dt => nadd t dt | Assign _ _ => t end) h t.
  Definition assigns (names : list string) (h : list event) : Prop :=
    forall n v, In (Assign n v) h -> In n names.

  Section Happen.
  Context (interp1d : list A -> list A -> result (A -> A)) (diffuse : A -> field A -> field A -> field A)
    (flexure : kwds A -> field A -> field A) (gravity : kwds A -> A).
  Definition happen (pg : process A * grid A) (e : event) : result (process A * grid A) :=
    match e with
    | Step dt => process_step interp1d diffuse flexure gravity dt pg
    | Assign name v => set_attribute name v pg
    end.
  (* the same grid, or the same exception, whatever steps follow *)
  Definition behave_alike (a b : process A * grid A) : Prop :=
    forall dts, process_run interp1d diffuse flexure gravity dts a = process_run interp1d diffuse flexure gravity dts b.
  End Happen.

  (* the parameters that an assignment changes as the constructor would *)
  Definition settable (c : pclass) : list string :=
    match c with
    | SeaLevelTimeSeries => ["filepath"]
    | SinusoidalSeaLevel => []
    | SubsidenceTimeSeries => ["filepath"]
    | SubmarineDiffuser => ["plain_slope"; "wave_base"; "shoreface_height"; "alpha"; "shelf_slope"; "sediment_load"]
    | Fluvial => ["sand_frac"; "wave_base"; "sediment_load"; "sand_density"; "plain_slope"; "sea_level"]
    | SedimentFlexure => ["sand_density"; "mud_density"; "water_density"; "eet"; "youngs"; "rho_mantle"; "rho_water"; "gravity"]
    | ShorelineFinder => []
    end.

  (* the parameters that an assignment does not reach *)
  Definition ignored (cls : pclass) : list string :=
    match cls with
    | SeaLevelTimeSeries => ["start"]
    | SinusoidalSeaLevel => ["wave_length"; "amplitude"; "phase"; "mean"; "start"; "linear"]
    | SubsidenceTimeSeries => []
    | SubmarineDiffuser => ["load_sealevel"; "basin_width"]
    | Fluvial => ["hemipelagic"; "sea_level"]
    | SedimentFlexure => ["isostasytime"]
    | ShorelineFinder => []
    end.
  Definition class_of (o : process A) : pclass :=
    match o with
    | PSeaLevel _ => SeaLevelTimeSeries | PSinusoid _ => SinusoidalSeaLevel | PSubsidence _ => SubsidenceTimeSeries
    | PSubmarine _ => SubmarineDiffuser | PFluvial _ => Fluvial | PFlexure _ _ _ => SedimentFlexure | PShoreline _ => ShorelineFinder
    end.
  Definition fluvial_names : list string := ["sand_frac"; "wave_base"; "sediment_load"; "sand_density"; "plain_slope"].
End Setting.
Arguments event : clear implicits. Arguments Step {A}. Arguments Assign {A}.
