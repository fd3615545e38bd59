(** sequence/bathymetry.py *)
From Coq Require Import String List ZArith QArith Arith.
From Verif.Base Require Import Num Py Arr.
From Verif.Model Require Import Layers Grid Interp.
Import ListNotations.
Local Open Scope num_scope.

Section Bathymetry.
  Context {A : Type} `{Num A}.

  (* sequence/bathymetry.py:36-68 BathymetryReader.__init__: the csv file is
     given as its two columns (kept by the component); only kind="linear". *)
  Definition bathymetry_init (g : grid A) : grid A :=
    if has_node g "topographic__elevation" then g
    else put_node g "topographic__elevation" (full (g_rows g + 2) (g_cols g) n0).

  (* sequence/bathymetry.py:82-92 run_one_step: the right-hand side is
     evaluated first, so an exception changes nothing; z[:] = row broadcasts
     the profile over all rows of the field *)
  Definition bathymetry_step (x y : list A) (g : grid A) : result (grid A) :=
    let* z := node_r g "topographic__elevation" in
    let* profile := mapM (interp_linear x y) (x_of_column g) in
    Ok (put_node g "topographic__elevation" (map (fun _ => profile) z)).

  (* sequence/bathymetry.py:95-116 _create_initial_profile (its wavebase
     argument is unused) *)
  Definition shore_in_profile (x : list A) (init_shore : A) : A :=
    if lastn x n0 <? init_shore then (nth 0 x n0 + lastn x n0) / nlit 2 else init_shore.
  Definition create_initial_profile `{Trans A} (x : list A)
      (sl_plain init_shore hgt alpha sl_sh : A) : list A :=
    let init_shore := shore_in_profile x init_shore in
    map (fun x =>
      if x <? init_shore then (init_shore - x) * sl_plain
      else (init_shore - x) * sl_sh - hgt * (n1 - nexp ((init_shore - x) * alpha))) x.
End Bathymetry.
