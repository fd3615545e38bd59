(** sequence/subsidence.py *)
From Coq Require Import String List ZArith QArith Arith.
From Verif.Base Require Import Num Py Arr.
From Verif.Model Require Import Layers Grid Interp.
Import ListNotations.
Local Open Scope num_scope.

Section Subsidence.
  Context {A : Type} `{Num A}.

  Definition INCREMENT : string := "bedrock_surface__increment_of_elevation".

  (** State of a SubsidenceTimeSeries (sequence/subsidence.py:33-64): the rate
      at each column and the component's time.  The csv file is given as its
      two columns; only kind="linear" is modelled. *)
  Record subsidence_comp : Type := mkSubsidence {
    sub_rate : list A;               (* self._dz_dt *)
    sub_time : A                     (* self._time *)
  }.

  (* sequence/subsidence.py:71-85 _subsidence_interpolator and
     _calc_subsidence_rate: interp1d evaluated at every column, raising if any
     column is outside the table *)
  Definition calc_subsidence_rate (x y : list A) (g : grid A) : result (list A) :=
    mapM (interp_linear x y) (x_of_column g).

  (* sequence/subsidence.py:33-64 __init__; the increment field is created if
     it does not exist (before anything can raise) *)
  Definition subsidence_init (x y : list A) (g : grid A) : grid A * result subsidence_comp :=
    let g' := if has_node g INCREMENT then g
              else put_node g INCREMENT (full (g_rows g + 2) (g_cols g) n0) in
    (g', let* rate := calc_subsidence_rate x y g' in Ok (mkSubsidence rate n0)).

  (* sequence/subsidence.py:97-104 filepath setter: if the new table does not
     cover the grid the exception leaves the old rate in place *)
  Definition subsidence_set_file (x y : list A) (g : grid A) (c : subsidence_comp)
    : subsidence_comp * option exn :=
    match calc_subsidence_rate x y g with
    | Ok rate => (mkSubsidence rate (sub_time c), None)
    | Err e => (c, Some e)
    end.

  (* sequence/subsidence.py:106-118 run_one_step: the rate (one value per
     column) is broadcast over the profile rows *)
  Definition subsidence_step (dt : A) (c : subsidence_comp) (g : grid A)
    : result (subsidence_comp * grid A) :=
    let* inc := get_profile g INCREMENT in
    let change := map (fun r => r * dt) (sub_rate c) in
    let* g' := set_profile g INCREMENT (map (fun row => zipw nadd row change) inc) in
    Ok (mkSubsidence (sub_rate c) (sub_time c + dt), g').
End Subsidence.
Arguments subsidence_comp : clear implicits.
