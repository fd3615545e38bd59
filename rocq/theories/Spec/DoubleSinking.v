(** The bedrock of runs in doubles (C133). *)
From Coq Require Import List ZArith Reals.
From Verif.Base Require Import Num Py.
From Verif.Spec Require Import Doubles Column.
Import ListNotations.
Local Open Scope R_scope.

(* for each step the rate at the position x and the length of the step; [l] has
   the tables and the lengths *)
Definition rates_at (l : list ((b64 -> result b64) * b64)) (x : b64) : result (list (b64 * b64)) :=
  mapM (fun fd => let* rate := fst fd x in Ok (rate, snd fd)) l.
(* what the steps sink by, without rounding, and how much that is up and down *)
Fixpoint sinkage (rs : list (b64 * b64)) : R :=
  match rs with [] => 0 | (rate, dt) :: rs => value rate * value dt + sinkage rs end.
Fixpoint travelled (rs : list (b64 * b64)) : R :=
  match rs with [] => 0 | (rate, dt) :: rs => Rabs (value rate * value dt) + travelled rs end.
