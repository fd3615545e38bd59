(** The attributes of the processes that are numbers and can be read (part of
    C119). *)
From Coq Require Import String List.
From Verif.Base Require Import Num Py Arr.
From Verif.Model Require Import Layers Grid SeaLevel Subsidence Flexure Submarine Fluvial Setattr.
Import ListNotations.
Local Open Scope string_scope.

Section Getattr.
  Context {A : Type} {num : Num A}.

  (* getattr(c, name).  None is AttributeError, and Python's None for an isostasy
     time of 0.  Of the attributes that are not modelled are the sea level of
     SubmarineDiffuser, which is the one of the grid, those of landlab's
     components and those whose name starts with an underscore. *)
  Definition get_attribute (name : string) (p : process A) : option A :=
    match p with
    (* sequence/sea_level.py:104-107 *)
    | PSeaLevel c | PSinusoid c => if String.eqb name "time" then Some (slc_time c) else None
    (* sequence/subsidence.py:87-90 *)
    | PSubsidence c => if String.eqb name "time" then Some (sub_time c) else None
    (* sequence/submarine.py:117-188 *)
    | PSubmarine c =>
        dget String.eqb [("plain_slope", sb_plain_slope c); ("wave_base", sb_wave_base c); ("shoreface_height", sb_shoreface_height c);
                         ("alpha", sb_alpha c); ("shelf_slope", sb_shelf_slope c); ("sediment_load", sb_load0 c); ("load0", sb_load0 c);
                         ("k_land", sb_ksh c); ("time", sb_time c)] name
    (* sequence/fluvial.py:107-112 *)
    | PFluvial c =>
        dget String.eqb [("sand_frac", fl_sand_frac c); ("sediment_load", fl_sediment_load c); ("sand_density", fl_sand_density c);
                         ("plain_slope", fl_plain_slope c); ("wave_base", fl_wave_base c); ("hemi", fl_hemi c)] name
    (* sequence/sediment_flexure.py:71-74,413-452 *)
    | PFlexure d _ c =>
        if String.eqb name "isostasy_time" then df_time (sf_dyn c)
        else dget String.eqb [("sand_density", sand_density d); ("mud_density", mud_density d); ("water_density", water_density d);
                              ("sand_bulk_density", sand_bulk d); ("mud_bulk_density", mud_bulk d)] name
    (* sequence/shoreline.py:102-105 *)
    | PShoreline alpha => if String.eqb name "alpha" then Some alpha else None
    end.
End Getattr.
