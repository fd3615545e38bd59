(** Vocabulary for plots of grids and files (C65, C80-C82). *)
From Coq Require Import String List ZArith Arith.
From Verif.Base Require Import Num Py Arr.
From Verif.Model Require Import Layers Grid Netcdf OutputWriter.
Import ListNotations.

Section Drawn.
  Context {A : Type} `{Num A}.

  (* the thickness of layers 0 ... k of a stack *)
  Definition thickness_to (k : nat) (st : list (lcell A)) : A :=
    fold_left nadd (map c_dz (firstn (S k) st)) n0.
  (* the elevation of the top of layer k in column j of profile row i, on a
     bedrock given at nodes: profile row i is node row i + 1, column j of the
     cells is column j + 1 of the nodes *)
  Definition top_of_layer (b : field A) (g : grid A) (i j k : nat) : A :=
    nadd (at2 n0 b (S i) (S j)) (thickness_to k (at2 [] (el_stacks (layers g)) i j)).

  (* every layer is there in every cell *)
  Definition full_stacks (g : grid A) : Prop :=
    forall i j, (i < g_rows g)%nat -> (j < g_cols g - 2)%nat ->
      length (at2 [] (el_stacks (layers g)) i j) = el_number (layers g).

  (* numpy's a[i] along an axis of n: the place of index i *)
  Definition place (n : nat) (i : Z) (k : nat) : Prop :=
    (k < n)%nat /\ (i = Z.of_nat k \/ i = (Z.of_nat k - Z.of_nat n)%Z).
  (* the row that is plotted: the given one, the middle one by default *)
  Definition chosen_row (rows : nat) (row : option Z) (i : nat) : Prop :=
    place rows (match row with Some r => r | None => Z.of_nat (rows / 2) end) i.
End Drawn.

(* a value, or another one if it is NaN *)
Definition known_or {A} (other : A) (v : option A) : option A := match v with Some a => Some a | None => Some other end.
