(** A plate that bends with time, in doubles (C134). *)
From Coq Require Import List ZArith Reals.
From Verif.Base Require Import Num Py Arr.
From Verif.Model Require Import Flexure.
From Verif.Spec Require Import History Doubles.
Import ListNotations.
Local Open Scope R_scope.

(* steps with these isostatic deflections and lengths, and the deflections that
   each of them delivers *)
Fixpoint plate_run {tr : Trans b64} (c : dyn_flexure b64) (hist : list (field b64 * b64)) : dyn_flexure b64 * list (field b64) :=
  match hist with
  | [] => (c, [])
  | (d, dt) :: hist =>
      let '(c1, out) := calc_dynamic_deflection c d dt in
      let '(c2, outs) := plate_run c1 hist in
      (c2, out :: outs)
  end.
(* the sum of a field over steps at a node, and of its sizes *)
Definition total_at (i j : nat) (fs : list (field b64)) : R := rsum (map (fun f => value (at2 n0 f i j)) fs).
Definition size_at (i j : nat) (fs : list (field b64)) : R := rsum (map (fun f => Rabs (value (at2 n0 f i j))) fs).
(* what is used of the library's exponential function *)
Definition exp_like {tr : Trans b64} : Prop :=
  forall x : b64, a_number x -> value x <= 0 -> a_number (nexp x) /\ 0 <= value (nexp x) <= 1.
