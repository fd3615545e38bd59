(** Models made from parameters (C107 onward): what a user can reach, and what
    the parts that are not modelled have to keep. *)
From Coq Require Import String List Reals Arith.
From Verif.Base Require Import Num Py Arr.
From Verif.Model Require Import Layers Grid Shoreline SeaLevel Fluvial SequenceModel Setattr Processes Whole.
From Verif.Spec Require Import Column.
Import ListNotations.

Section Configured.
  Context {A X : Type} {num : Num A} {tr : Trans A} (E : externals A X).

  (* the states of a model after any calls of run_one_step(dt), run() (which is
     a series of them) and set_params(...) that returned *)
  Inductive reached (names : list string) (m0 : smodel A (parts A X)) : smodel A (parts A X) -> Prop :=
  | reached_start : reached names m0 m0
  | reached_step m dt m' : reached names m0 m -> run_one_step (named_processes E names) dt m = Stepped m' -> reached names m0 m'
  | reached_stop m dt m' : reached names m0 m -> run_one_step (named_processes E names) dt m = ClockStop m' -> reached names m0 m'
  | reached_set m params m' : reached names m0 m -> set_model_params E params m = Ok m' -> reached names m0 m'.

  (* of the same size and with the same number of layers; fields may be added
     and changed but not removed *)
  Definition adds_only (g g' : grid A) : Prop :=
    whole_grid g' /\ g_rows g' = g_rows g /\ g_cols g' = g_cols g /\ g_dx g' = g_dx g
    /\ (forall n, node g n <> None -> node g' n <> None) /\ (forall n, gval g n <> None -> gval g' n <> None)
    /\ (forall n, rowf g n <> None -> rowf g' n <> None)
    /\ el_number (layers g') = el_number (layers g) /\ el_tracking (layers g') = el_tracking (layers g).
  (* what is assumed of landlab and of the classes Compact and WaterFlexure; C128
     proves it of the second *)
  Record well_behaved : Prop := {
    wb_interp1d : forall x y, ex_interp1d E x y <> Err KeyError;
    wb_diffuse : forall dt kd n m z, shaped n m z -> shaped n m (ex_diffuse E dt kd z);
    wb_flexure : forall k n m z, shaped n m z -> shaped n m (ex_flexure E k z);
    wb_make : forall cls params g x g', whole_grid g -> ex_make E cls params g = Ok (x, g') ->
      adds_only g g' /\ layers g' = layers g /\ forall n f, node g n = Some f -> node g' n = Some f;
    wb_step : forall dt x g x' g', whole_grid g -> ex_step E dt (x, g) = Ok (x', g') -> adds_only g g';
    wb_set : forall name v x g x' g', whole_grid g -> ex_set E name v (x, g) = Ok (x', g') ->
      adds_only g g' /\ layers g' = layers g /\ forall n, node g' n = node g n
  }.

  (* the same grid with nothing waiting to be deposited: a step starts there *)
  Definition cleared (g g' : grid A) : Prop :=
    g_rows g' = g_rows g /\ g_cols g' = g_cols g /\ g_dx g' = g_dx g /\ deposit_cleared g'
    /\ (forall n, n <> "sediment_deposit__thickness"%string -> node g' n = node g n)
    /\ (forall n, gval g' n = gval g n) /\ (forall n, rowf g' n = rowf g n) /\ layers g' = layers g.
  (* in a step of length d from the states ps and the grid g, p comes to run,
     on the grid h *)
  Inductive turn (d : A) : list string -> parts A X -> grid A -> part A X -> grid A -> Prop :=
  | turn_now name rest ps g p : dget String.eqb ps name = Some p -> turn d (name :: rest) ps g p g
  | turn_later name rest ps g p p' g' q h : dget String.eqb ps name = Some p -> part_step E d (p, g) = Ok (p', g') ->
      turn d rest (dset String.eqb ps name p') g' q h -> turn d (name :: rest) ps g q h.
  (* the time step that run_one_step(dt) uses *)
  Definition step_used (dt : option A) (m : smodel A (parts A X)) : A :=
    match dt with
    | Some d => if neqb d n0 then ck_step (sm_clock m) else d
    | None => ck_step (sm_clock m)
    end.
End Configured.

Local Open Scope R_scope.
(* find_shoreline raises e on some row of the profile *)
Definition no_shoreline {X} (E : externals R X) (g : grid R) (e : exn) : Prop :=
  exists z sea i, node g "topographic__elevation" = Some z /\ gval g "sea_level__elevation" = Some sea
    /\ (1 <= i <= g_rows g)%nat /\ find_shoreline (ex_interp1d E) (x_of_column g) (nth i z []) sea = Err e.
(* why a process raises e in a step of length d on the grid g *)
Definition cause {X} {tr : Trans R} (E : externals R X) (d : R) (p : process R) (g : grid R) (e : exn) : Prop :=
  match p with
  | PSeaLevel c => slc_curve c (slc_time c + d) = Err e
  | PSinusoid _ | PSubsidence _ | PFlexure _ _ _ => False
  | PSubmarine _ => no_shoreline E g e
  | PFluvial c => no_shoreline E g e
      \/ (e = ZeroDivisionError /\ (fl_sand_frac c = 0 \/ fl_plain_slope c = 0 \/ fl_sediment_load c = 0))
  | PShoreline alpha => no_shoreline E g e \/ (e = ZeroDivisionError /\ alpha = 0) \/ (e = AssertionError /\ alpha < 0)
  end.
