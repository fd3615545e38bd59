(** Tables and the sea level in doubles (C130, C131). *)
From Coq Require Import String List ZArith QArith Reals.
From Verif.Base Require Import Num Py.
From Verif.Model Require Import Layers Grid Interp SeaLevel.
From Verif.Spec Require Import History Doubles DoubleTables.
From Verif.Proofs Require Import DoubleSeaP DoubleSeaEx.
Import ListNotations.
Local Open Scope R_scope.

(** C130.  In doubles, a value that is read between two lines of a table lies
    between the values of the lines.  It need not: *)
Definition C130_statement : Prop := forall x y u i v, double_table x y -> a_number u -> (S i < length x)%nat ->
  number_at x i <= value u <= number_at x (S i) -> interp_linear x y u = Ok v ->
  Rmin (number_at y i) (number_at y (S i)) <= value v <= Rmax (number_at y i) (number_at y (S i)).
Theorem C130_refuted : ~ C130_statement.
Proof. exact overshoot_refuted. Qed.
Print Assumptions C130_refuted.
(** At a line it is the value of the line, to the last bit.  Between two lines
    it is never on the far side of the value of the first one, is beyond that
    of the second by at most [rounding], and is that near to the straight line
    between them.  It is refused exactly outside the table. *)
Theorem C130_partial x y : double_table x y ->
  (forall u i, a_number u -> (i < length x)%nat -> value u = number_at x i -> interp_linear x y u = Ok (nth i y n0))
  /\ (forall u i, a_number u -> (S i < length x)%nat -> number_at x i <= value u <= number_at x (S i) ->
        exists v, interp_linear x y u = Ok v /\ a_number v
          /\ Rabs (value v - line (number_at x i) (number_at y i) (number_at x (S i)) (number_at y (S i)) (value u)) <= rounding (number_at y i) (number_at y (S i))
          /\ (number_at y i <= number_at y (S i) -> number_at y i <= value v <= number_at y (S i) + rounding (number_at y i) (number_at y (S i)))
          /\ (number_at y (S i) <= number_at y i -> number_at y (S i) - rounding (number_at y i) (number_at y (S i)) <= value v <= number_at y i))
  /\ (forall u, a_number u -> number_at x 0 <= value u <= number_at x (length x - 1) -> exists v, interp_linear x y u = Ok v)
  /\ (forall u, a_number u -> ~ (number_at x 0 <= value u <= number_at x (length x - 1)) -> interp_linear x y u = Err ValueError).
Proof. exact (table_values x y). Qed.
Print Assumptions C130_partial.
Example C130_nonvacuous : double_table [nlit 0; nlit 3] [nlit (-5 # 1); nlit (-8 # 10)].
Proof. exact ex_double_table. Qed.
(* a sea level that rises from -5 at time 0 to -0.8 at time 3: after ten steps
   of 0.3 the time is just before 3 and the level just above -0.8 *)
Example C130_run :
  match sea_run (repeat (SeaStep (nlit (3 # 10))) 10) (mkSeaLevel (sea_level_interpolator [nlit 0; nlit 3] [nlit (-5 # 1); nlit (-8 # 10)]) (nlit 0)) ex_sea with
  | (c, g, incs) => slc_time c = ex_late /\ gval g "sea_level__elevation" = Some ex_above /\ length incs = 10%nat
  end.
Proof. exact ex_ten_steps. Qed.
Example C130_above : a_number ex_late /\ 0 <= value ex_late <= 3 /\ a_number ex_above /\ value (nlit (-8 # 10)) < value ex_above.
Proof. exact ex_late_number. Qed.

(** C131.  In doubles, the sea level after any history is the one at the start
    plus the increments that the steps recorded.  It is not: *)
Definition C131_statement : Prop := forall curve start (g : grid b64) old ops c' g' incs new,
  sound_curve curve -> not_nan start -> gval g "sea_level__elevation" = Some old -> a_number old -> Rabs (value old) <= 2 ^ 1000 ->
  Forall sound_op ops -> sea_run ops (mkSeaLevel curve start) g = (c', g', incs) -> gval g' "sea_level__elevation" = Some new ->
  value new = value old + rsum (map value incs).
Theorem C131_refuted : ~ C131_statement.
Proof. exact adding_refuted. Qed.
Print Assumptions C131_refuted.
(** It is, up to 2^-52 of the sum of their sizes, whatever the steps, the
    times that are set, the tables that are given and the steps that fail. *)
Theorem C131_partial ops curve start (g : grid b64) old :
  sound_curve curve -> not_nan start -> gval g "sea_level__elevation" = Some old -> a_number old -> Rabs (value old) <= 2 ^ 1000 ->
  Forall sound_op ops ->
  let '(_, g', incs) := sea_run ops (mkSeaLevel curve start) g in
  exists new, gval g' "sea_level__elevation" = Some new /\ a_number new /\ Forall a_number incs
    /\ Rabs (value new - (value old + rsum (map value incs))) <= rsum (map (fun i => Rabs (value i)) incs) / 2 ^ 52.
Proof. exact (increments ops curve start g old). Qed.
Print Assumptions C131_partial.
(** Every table of doubles gives such a curve. *)
Theorem C131_tables x y : double_table x y -> sound_curve (sea_level_interpolator x y).
Proof. exact (table_sound x y). Qed.
Print Assumptions C131_tables.
(* a step, another table, a step, a step that fails, back to time 0, a step *)
Example C131_nonvacuous : sound_curve (sea_level_interpolator ex_times ex_rise) /\ not_nan (nlit 0) /\ a_number (nlit (-5 # 1))
  /\ Rabs (value (nlit (-5 # 1))) <= 2 ^ 1000 /\ gval ex_sea "sea_level__elevation" = Some (nlit (-5 # 1)) /\ Forall sound_op ex_ops
  /\ (let '(_, g, incs) := sea_run ex_ops (mkSeaLevel (sea_level_interpolator ex_times ex_rise) (nlit 0)) ex_sea in
      length incs = 3%nat /\ gval g "sea_level__elevation" = Some (nlit (-8 # 10))).
Proof. exact ex_history. Qed.
