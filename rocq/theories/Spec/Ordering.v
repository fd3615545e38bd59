(** The order of the processes of a model (C112). *)
From Coq Require Import String List.
From Verif.Base Require Import Num Py Arr.
From Verif.Model Require Import Layers Grid SequenceModel Setattr Info Whole.
From Verif.Spec Require Import Declared.
Import ListNotations.

(* neither writes a field that the other uses *)
Definition uses (c : pclass) : list (string * place) := declared c ++ undeclared c.
Definition writes (c : pclass) : list (string * place) := declared_output c ++ undeclared_output c.
Definition independent (c c' : pclass) : Prop :=
  (forall f, In f (writes c) -> ~ In f (uses c')) /\ (forall f, In f (writes c') -> ~ In f (uses c)).

Section Ordering.
  Context {A X : Type}.
  (* the same size, layers and values of every field *)
  Definition same_grid (g g' : grid A) : Prop := same_size g g' /\ layers g = layers g' /\ forall f, same_field g g' f.
  (* the class of a process of a model *)
  Definition kind (ps : parts A X) (name : string) : option pclass :=
    match dget String.eqb ps name with Some (Ours p) => Some (class_of p) | _ => None end.
  (* one order becomes the other by swapping neighbours that are independent *)
  Inductive reordered (kinds : string -> option pclass) : list string -> list string -> Prop :=
  | reordered_refl names : reordered kinds names names
  | reordered_swap before a b after c c' : a <> b -> kinds a = Some c -> kinds b = Some c' -> independent c c' ->
      reordered kinds (before ++ a :: b :: after) (before ++ b :: a :: after)
  | reordered_trans l1 l2 l3 : reordered kinds l1 l2 -> reordered kinds l2 l3 -> reordered kinds l1 l3.
  (* the same time and grid, or both raised *)
  Definition same_outcome (r r' : result (A * grid A)) : Prop :=
    match r, r' with
    | Ok (t, g), Ok (t', g') => t = t' /\ same_grid g g'
    | Err _, Err _ => True
    | _, _ => False
    end.
  (* the classes that are not modelled use the values of the fields only *)
  Definition uses_values (E : externals A X) : Prop :=
    (forall dt x g g', same_grid g g' ->
       match ex_step E dt (x, g), ex_step E dt (x, g') with
       | Ok (y, h), Ok (y', h') => y = y' /\ same_grid h h' | Err e, Err e' => e = e' | _, _ => False end)
    /\ (forall n v x g g', same_grid g g' ->
       match ex_set E n v (x, g), ex_set E n v (x, g') with
       | Ok (y, h), Ok (y', h') => y = y' /\ same_grid h h' | Err e, Err e' => e = e' | _, _ => False end).
End Ordering.
