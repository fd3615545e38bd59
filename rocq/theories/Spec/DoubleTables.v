(** Tables of doubles. *)
From Coq Require Import String List ZArith Reals Floats.SpecFloat.
From Verif.Base Require Import Num Py.
From Verif.Model Require Import Layers Grid SeaLevel.
From Verif.Spec Require Import Doubles.
Import ListNotations.
Local Open Scope R_scope.

(* The number at a place of a list of doubles. *)
Definition number_at (l : list b64) (i : nat) : R := value (nth i l n0).

(* A table of numbers of at most 2^100, with positions that rise by at least
   2^-100 from one line to the next. *)
Definition double_table (x y : list b64) : Prop :=
  (1 <= length x)%nat /\ length y = length x
  /\ (forall i, (i < length x)%nat ->
        a_number (nth i x n0) /\ Rabs (number_at x i) <= 2 ^ 100
        /\ a_number (nth i y n0) /\ Rabs (number_at y i) <= 2 ^ 100)
  /\ (forall i, (S i < length x)%nat -> number_at x i + / 2 ^ 100 <= number_at x (S i)).

(* the straight line through (x0, y0) and (x1, y1) *)
Definition line (x0 y0 x1 y1 u : R) : R := y0 + (y1 - y0) * ((u - x0) / (x1 - x0)).

(* how far rounding may take a value between two lines of a table *)
Definition rounding (y0 y1 : R) : R := Rmax (Rabs y0) (Rabs y1) / 2 ^ 49 + / 2 ^ 950.

(** A user of the sea-level component can step it, set its time, or give it
    another table. *)
Inductive sea_op (A : Type) : Type :=
| SeaStep (dt : A)
| SeaTime (t : A)
| SeaFile (times levels : list A).
Arguments SeaStep {A}. Arguments SeaTime {A}. Arguments SeaFile {A}.

(* the component and the grid after the operations, and the increments that
   the grid showed after every step that did not raise *)
Fixpoint sea_run {A} `{Num A} (ops : list (sea_op A)) (c : sea_level_comp A) (g : grid A) : sea_level_comp A * grid A * list A :=
  match ops with
  | [] => (c, g, [])
  | SeaStep dt :: ops =>
      match sea_level_step dt c g with
      | (c, g, None) =>
          let '(c', g', incs) := sea_run ops c g in
          (c', g', match gval g "sea_level__increment_of_elevation" with Some v => v :: incs | None => incs end)
      | (c, g, Some _) => sea_run ops c g
      end
  | SeaTime t :: ops => sea_run ops (sea_level_set_time t c) g
  | SeaFile x y :: ops => sea_run ops (sea_level_set_file x y c) g
  end.

(* a double that is not NaN *)
Definition not_nan (t : b64) : Prop := valid_binary 53 1024 t = true /\ t <> S754_nan.
(* a curve whose values are numbers of at most 2^1000 *)
Definition sound_curve (f : b64 -> result b64) : Prop :=
  forall t v, not_nan t -> f t = Ok v -> a_number v /\ Rabs (value v) <= 2 ^ 1000.
Definition sound_op (op : sea_op b64) : Prop :=
  match op with
  | SeaStep dt => a_number dt
  | SeaTime t => a_number t
  | SeaFile x y => double_table x y
  end.
