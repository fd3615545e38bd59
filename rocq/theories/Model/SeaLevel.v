(** sequence/sea_level.py *)
From Coq Require Import String List ZArith QArith Arith.
From Verif.Base Require Import Num Py Arr.
From Verif.Model Require Import Layers Grid Interp.
Import ListNotations.
Local Open Scope num_scope.

Section SeaLevel.
  Context {A : Type} `{Num A}.

  (** State of a SeaLevelTimeSeries (sequence/sea_level.py:47-77): the current
      curve and the component's time.  The curve may raise. *)
  Record sea_level_comp : Type := mkSeaLevel {
    slc_curve : A -> result A;       (* self._sea_level *)
    slc_time : A                     (* self._time *)
  }.

  (* sequence/sea_level.py:79-90 _sea_level_interpolator(data, kind="linear"),
     data given as its two columns.  Other kinds are not modelled. *)
  Definition sea_level_interpolator (times levels : list A) : A -> result A :=
    interp_linear times levels.

  (* sequence/sea_level.py:113-127 run_one_step(dt).  An exception leaves the
     state reached so far: the time has advanced, the grid is untouched. *)
  Definition sea_level_step (dt : A) (c : sea_level_comp) (g : grid A)
    : sea_level_comp * grid A * option exn :=
    let c' := mkSeaLevel (slc_curve c) (slc_time c + dt) in
    match gval g "sea_level__elevation" with
    | None => (c', g, Some KeyError)
    | Some old_sea_level =>
        match slc_curve c' (slc_time c') with
        | Err e => (c', g, Some e)
        | Ok new_sea_level =>
            let g1 := put_gval g "sea_level__elevation" new_sea_level in
            (c', put_gval g1 "sea_level__increment_of_elevation" (new_sea_level - old_sea_level), None)
        end
    end.

  (* the time setter, sequence/sea_level.py:109-111 *)
  Definition sea_level_set_time (t : A) (c : sea_level_comp) : sea_level_comp :=
    mkSeaLevel (slc_curve c) t.
  (* the filepath setter, sequence/sea_level.py:97-102; reading the csv file is
     not modelled, its two columns are given *)
  Definition sea_level_set_file (times levels : list A) (c : sea_level_comp) : sea_level_comp :=
    mkSeaLevel (sea_level_interpolator times levels) (slc_time c).

  (* sequence/sea_level.py:133-175 SinusoidalSeaLevel.__init__: the curve *)
  Definition sinusoid `{Trans A} (wave_length amplitude phase mean linear : A) (time : A) : A :=
    let wave_length := wave_length / (nlit 2 * npi) in
    (nsin ((time - phase) / wave_length)
     + nlit (3 # 10) * nsin ((nlit 2 * (time - phase)) / wave_length))
    * amplitude + mean + linear * time.
  Definition sinusoidal_init `{Trans A} (wave_length amplitude phase mean start linear : A)
    : sea_level_comp :=
    mkSeaLevel (fun t => Ok (sinusoid wave_length amplitude phase mean linear t)) start.
End SeaLevel.
Arguments sea_level_comp : clear implicits.
