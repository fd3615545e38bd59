(** The fields that the processes declare: the class attribute _info.  The
    units, types and texts are left out, and so is whether a field is
    optional. *)
From Coq Require Import String List.
From Verif.Model Require Import Setattr.
Import ListNotations.
Local Open Scope string_scope.

Inductive place : Type := AtNode | AtGrid | AtRow.          (* "mapping" *)
Inductive intent : Type := ToRead | ToWrite | ToReadWrite.  (* "in", "out", "inout" *)
Definition place_eqb (a b : place) : bool :=
  match a, b with AtNode, AtNode | AtGrid, AtGrid | AtRow, AtRow => true | _, _ => false end.

Definition info (c : pclass) : list (string * place * intent) :=
  match c with
  (* sequence/sea_level.py:28-45; SinusoidalSeaLevel is a subclass *)
  | SeaLevelTimeSeries | SinusoidalSeaLevel =>
      [("sea_level__elevation", AtGrid, ToWrite); ("sea_level__increment_of_elevation", AtGrid, ToWrite)]
  (* sequence/subsidence.py:22-31 *)
  | SubsidenceTimeSeries => [("bedrock_surface__increment_of_elevation", AtNode, ToReadWrite)]
  (* sequence/submarine.py:21-46 *)
  | SubmarineDiffuser =>
      [("sea_level__elevation", AtGrid, ToRead); ("topographic__elevation", AtNode, ToReadWrite);
       ("sediment_deposit__thickness", AtNode, ToReadWrite)]
  (* sequence/fluvial.py:22-55 *)
  | Fluvial =>
      [("topographic__elevation", AtNode, ToRead); ("sea_level__elevation", AtGrid, ToRead);
       ("sediment_deposit__thickness", AtNode, ToReadWrite); ("delta_sediment_sand__volume_fraction", AtNode, ToWrite)]
  (* sequence/sediment_flexure.py:273-290 *)
  | SedimentFlexure =>
      [("sediment__total_of_loading", AtNode, ToRead); ("bedrock_surface__increment_of_elevation", AtNode, ToReadWrite)]
  (* sequence/shoreline.py:27-60 *)
  | ShorelineFinder =>
      [("topographic__elevation", AtNode, ToRead); ("sea_level__elevation", AtGrid, ToRead);
       ("x_of_shore", AtRow, ToWrite); ("x_of_shelf_edge", AtRow, ToWrite)]
  end.
