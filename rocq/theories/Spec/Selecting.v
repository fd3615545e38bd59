(** The elements that are asked for with `ids`. *)
From Coq Require Import String List ZArith.
From Verif.Base Require Import Num Py Arr.
From Verif.Model Require Import Netcdf.
Import ListNotations.

(* the same for every location, or by location; none given is all of them *)
Definition asked (ids : ids_arg) (loc : string) : selection :=
  match ids with
  | SameIds s => s
  | IdsAt d => match dget String.eqb d loc with Some s => s | None => All end
  end.
(* l are the elements of vs that are selected, in the order of the selection;
   a negative number counts from the end *)
Definition picked {B} (s : selection) (vs l : list B) : Prop :=
  match s with
  | All => l = vs
  | Ids is => length l = length is
      /\ forall k i, nth_error is k = Some i ->
         exists j, (Z.of_nat j = i \/ (i < 0 /\ Z.of_nat j = i + Z.of_nat (length vs)))%Z
           /\ (j < length vs)%nat /\ nth_error l k = nth_error vs j
  end.
