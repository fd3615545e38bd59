(** The defaults of the parameters, and the values that setup writes (C117). *)
From Coq Require Import String List ZArith QArith.
From Verif.Base Require Import Num Py.
From Verif.Model Require Import Setattr Processes.
From Verif.Spec Require Import Session.
Import ListNotations.
Local Open Scope string_scope.

Section Defaults.
  Context {A : Type} {num : Num A}.
  Local Notation "k '=:' q" := (k, Number (nlit q)) (at level 60).

  (* the defaults in the signatures of the constructors: sea_level.py:47-53,
     133-142, submarine.py:48-61, fluvial.py:57-67, sediment_flexure.py:293-301,
     shoreline.py:62 *)
  Definition defaults (c : pclass) : list (string * pvalue A) :=
    match c with
    | SeaLevelTimeSeries => ["start" =: 0]
    | SinusoidalSeaLevel => ["wave_length" =: 1; "amplitude" =: 1; "phase" =: 0; "mean" =: 0; "start" =: 0; "linear" =: 0]
    | SubsidenceTimeSeries => []
    | SubmarineDiffuser => ["sea_level" =: 0; "plain_slope" =: 8 # 10000; "wave_base" =: 60; "shoreface_height" =: 15; "alpha" =: 5 # 10000;
                            "shelf_slope" =: 1 # 1000; "sediment_load" =: 3; "load_sealevel" =: 0; "basin_width" =: 500000]
    | Fluvial => ["sand_frac" =: 1 # 2; "wave_base" =: 60; "sediment_load" =: 3; "sand_density" =: 2650; "plain_slope" =: 8 # 10000;
                  "hemipelagic" =: 0; "sea_level" =: 0]
    | SedimentFlexure => ["sand_density" =: 2650; "mud_density" =: 2720; "isostasytime" =: 7000; "water_density" =: 1030]
    | ShorelineFinder => ["alpha" =: 5 # 10000]
    end.
  (* what a section says of a parameter: its value there, or the default *)
  Definition says (c : pclass) (s : section (pvalue A)) (k : string) : option (pvalue A) :=
    match dget String.eqb s k with Some v => Some v | None => dget String.eqb (defaults c) k end.

  (* the class of a process with that section; none for those that are not
     modelled *)
  Definition class_at (n : string) (s : section (pvalue A)) : option pclass :=
    if String.eqb n "sea_level" then
      Some (match dget String.eqb s "filepath" with Some _ => SeaLevelTimeSeries | None => SinusoidalSeaLevel end)
    else dget String.eqb [("subsidence", SubsidenceTimeSeries); ("submarine_diffusion", SubmarineDiffuser); ("fluvial", Fluvial);
                          ("flexure", SedimentFlexure); ("shoreline", ShorelineFinder)] n.
  (* two sections for a process that say the same *)
  Definition same_section (n : string) (s s' : section (pvalue A)) : Prop :=
    match class_at n s with
    | Some c => class_at n s' = Some c /\ forall k, says c s k = says c s' k
    | None => s = s'
    end.
  (* the parameters that two processes of a model share *)
  Definition shared : list (string * string) :=
    [("fluvial", "sediment_load"); ("fluvial", "plain_slope"); ("shoreline", "alpha");
     ("submarine_diffusion", "sediment_load"); ("submarine_diffusion", "plain_slope"); ("submarine_diffusion", "alpha")].

  (* the values that setup writes for the processes: sequence_model.py:57-72 *)
  Definition written : list (string * list (string * pvalue A)) :=
    [("submarine_diffusion", ["plain_slope" =: 8 # 10000; "wave_base" =: 60; "shoreface_height" =: 15; "alpha" =: 5 # 10000; "shelf_slope" =: 1 # 1000;
                              "sediment_load" =: 3; "load_sealevel" =: 0; "basin_width" =: 500000]);
     ("sea_level", ["amplitude" =: 10; "wave_length" =: 200000; "phase" =: 0; "linear" =: 0]);
     ("flexure", ["rho_mantle" =: 3300; "isostasytime" =: 0])].
  (* the configuration with one more line *)
  Definition with_line (ctx : context (pvalue A)) (n k : string) (v : pvalue A) : context (pvalue A) :=
    dset String.eqb ctx n (section_of ctx n ++ [(k, v)])%list.
End Defaults.
