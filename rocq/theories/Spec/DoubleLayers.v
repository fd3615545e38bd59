(** Layers of sediment whose thicknesses are doubles. *)
From Coq Require Import String List ZArith Reals Floats.SpecFloat.
From Verif.Base Require Import Num Py Arr.
From Verif.Model Require Import Layers Archive.
From Verif.Spec Require Import Strata Doubles.
Import ListNotations.
Local Open Scope R_scope.

(* the sediment in a column: the exact sum of what its layers' doubles stand for *)
Definition sediment (st : stack b64) : R := rsum (map (fun c => value (c_dz c)) st).
(* what was laid (or eroded, if negative) in a history of one column *)
Definition laid_amounts (ops : list (stack_op b64)) : list R :=
  flat_map (fun op => match op with Lay dz _ => [value dz] | Merge _ _ _ => [] end) ops.
(* every amount is a number and every merge is of a range of layers *)
Definition proper_ops (ops : list (stack_op b64)) : Prop :=
  forall op, In op ops ->
    match op with Lay dz _ => a_number dz | Merge start stop _ => (start <= stop)%nat end.
(* the sum of all amounts, whether laid or eroded *)
Definition turnover (ops : list (stack_op b64)) : R := rsum (map Rabs (laid_amounts ops)).
(* every layer of every column is a double that is not below zero (it may be
   infinite, or not a number) *)
Definition none_below_zero (el : event_layers b64) : Prop :=
  forall row st c, In row (el_stacks el) -> In st row -> In c st -> nltb (c_dz c) n0 = false.

(** ** ages *)
(* the recorded ages of the layers of a column, from the bottom up *)
Definition ages {A} (st : stack A) : list (option A) :=
  map (fun c => dget String.eqb (c_props c) "age"%string) st.
(* every layer has an age that is a number, not before [first], not after
   [last] (or [first], if that is later), and after the age of any layer below
   it *)
Definition dated_upward (first last : b64) (st : stack b64) : Prop :=
  exists l, ages st = map Some l
    /\ (forall a, In a l -> a_number a /\ value first <= value a <= Rmax (value first) (value last))
    /\ forall i j a b, (i < j)%nat -> nth_error l i = Some a -> nth_error l j = Some b -> value a < value b.
