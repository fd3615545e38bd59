(** Vocabulary for layer stacks (C29-C31). *)
From Coq Require Import String List Reals Arith.
From Verif.Base Require Import Num Py Arr.
From Verif.Model Require Import Layers Archive.
Import ListNotations.

(* how many merged layers there are after n layers have been laid *)
Definition merged_after (n : nat) : nat := if Nat.ltb n 20 then 0 else (n - 10) / 10.

(* entries 10k ... 10k+9 of a list *)
Definition ten {B} (l : list B) (k : nat) : list B := firstn 10 (skipn (10 * k) l).

(* the first a groups of ten *)
Definition tens {B} (a : nat) (l : list B) : list (list B) := map (ten l) (seq 0 a).

(* thickness of a column under deposits (positive) and erosion (negative):
   erosion stops at the bedrock *)
Definition column_total (T : R) (dzs : list R) : R :=
  fold_left (fun t dz => Rmax 0 (t + dz)) dzs T.

Definition rsum (l : list R) : R := fold_right Rplus 0%R l.

(* never decreasing *)
Definition nondecreasing (l : list R) : Prop :=
  forall i j, (i < j < length l)%nat -> (nth i l 0 <= nth j l 0)%R.

(* between the smallest and the largest entry of l *)
Definition between (l : list R) (v : R) : Prop :=
  (exists a, In a l /\ (a <= v)%R) /\ (exists b, In b l /\ (v <= b)%R).

(* the largest entry of l *)
Definition greatest (l : list R) (v : R) : Prop := In v l /\ (forall a, In a l -> (a <= v)%R).

(** ** reading a stack *)
(* total thickness *)
Definition thick (l : list (lcell R)) : R := rsum (map c_dz l).
(* the value of a property in a layer *)
Definition prop_of (name : string) (c : lcell R) : R :=
  match dget String.eqb (c_props c) name with Some v => v | None => 0%R end.
Definition has_prop (name : string) (c : lcell R) : Prop :=
  dget String.eqb (c_props c) name <> None.

(** ** reading a history *)
(* every layer of the history carries the same property names *)
Definition tracked {A} (names : list string) (hist : list (field A * list (string * field A))) : Prop :=
  forall h, In h hist -> map fst (snd h) = names.
(* what was laid in a history of operations, and that its merges are of
   ranges start <= stop *)
Definition lays (ops : list (stack_op R)) : list R :=
  flat_map (fun op => match op with Lay dz _ => [dz] | Merge _ _ _ => [] end) ops.
Definition merges_ok (ops : list (stack_op R)) : Prop :=
  forall start stop red, In (Merge start stop red) ops -> (start <= stop)%nat.
