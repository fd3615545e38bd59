(** A plate that bends with time, in doubles (C134). *)
From Coq Require Import List ZArith QArith Reals Floats.SpecFloat.
From Verif.Base Require Import Num Py Arr.
From Verif.Model Require Import Flexure.
From Verif.Spec Require Import History Doubles DoublePlate.
From Verif.Proofs Require Import DoublePlateP DoublePlateEx.
Import ListNotations.
Local Open Scope R_scope.

(** C134.  In doubles, whatever the deflections and the lengths of the steps,
    what a plate has delivered at a node and what it still owes there add up to
    what it was given.  Not exactly, although these are numbers of moderate
    size.  [exp_like]: the library's exp of a number below zero is a number
    between 0 and 1. *)
Definition C134_statement : Prop := forall (tr : Trans b64) (isostasytime : option b64) n m hist c i j c' delivered, exp_like ->
  match isostasytime with Some t => a_number t | None => True end ->
  (0 < n)%nat -> (Z.of_nat n <= 2 ^ 53)%Z -> dyn_init isostasytime n m = Ok c -> (i < n)%nat -> (j < m)%nat ->
  (forall d dt, In (d, dt) hist -> shaped n m d /\ a_number (at2 n0 d i j) /\ a_number dt /\ 0 <= value dt <= 2 ^ 900) ->
  INR (length hist) <= 2 ^ 50 -> size_at i j (map fst hist) <= 2 ^ 1000 -> plate_run c hist = (c', delivered) ->
  total_at i j delivered + value (at2 n0 (df_pool c') i j) = total_at i j (map fst hist).
Theorem C134_refuted : ~ C134_statement.
Proof. exact all_delivered_refuted. Qed.
Print Assumptions C134_refuted.
(** They do up to [steps * 2^-51] of the sizes of what it was given, and no
    infinity and no NaN comes up. *)
Theorem C134_partial {tr : Trans b64} (isostasytime : option b64) n m hist c i j : exp_like ->
  match isostasytime with Some t => a_number t | None => True end ->
  (0 < n)%nat -> (Z.of_nat n <= 2 ^ 53)%Z -> dyn_init isostasytime n m = Ok c -> (i < n)%nat -> (j < m)%nat ->
  (forall d dt, In (d, dt) hist -> shaped n m d /\ a_number (at2 n0 d i j) /\ a_number dt /\ 0 <= value dt <= 2 ^ 900) ->
  INR (length hist) <= 2 ^ 50 -> size_at i j (map fst hist) <= 2 ^ 1000 ->
  let '(c', delivered) := plate_run c hist in
  a_number (at2 n0 (df_pool c') i j) /\ Forall (fun f => a_number (at2 n0 f i j)) delivered
  /\ Rabs (total_at i j delivered + value (at2 n0 (df_pool c') i j) - total_at i j (map fst hist)) <= INR (length hist) / 2 ^ 51 * size_at i j (map fst hist).
Proof. exact (plate_delivers isostasytime n m hist c i j). Qed.
Print Assumptions C134_partial.
(** A step delivers no more than there is, and never in the other direction:
    of what is owed with the new deflection, rounded, both what it delivers and
    what it leaves are between nothing and all. *)
Theorem C134_step {tr : Trans b64} (isostasytime : option b64) n m c0 pool d dt i j : exp_like ->
  match isostasytime with Some t => a_number t | None => True end ->
  (0 < n)%nat -> (Z.of_nat n <= 2 ^ 53)%Z -> dyn_init isostasytime n m = Ok c0 -> (i < n)%nat -> (j < m)%nat ->
  shaped n m pool -> shaped n m d -> a_number (at2 n0 pool i j) -> a_number (at2 n0 d i j) ->
  Rabs (value (at2 n0 pool i j)) + Rabs (value (at2 n0 d i j)) <= 2 ^ 1000 -> a_number dt -> 0 <= value dt <= 2 ^ 900 ->
  let '(c', out) := calc_dynamic_deflection (mkDyn (df_time c0) n pool) d dt in
  let all := value (nadd (at2 n0 pool i j) (at2 n0 d i j)) in
  (0 <= value (at2 n0 out i j) <= all \/ all <= value (at2 n0 out i j) <= 0)
  /\ (0 <= value (at2 n0 (df_pool c') i j) <= all \/ all <= value (at2 n0 (df_pool c') i j) <= 0).
Proof. exact (plate_no_more isostasytime n m c0 pool d dt i j). Qed.
Print Assumptions C134_step.
(* two steps: 1 and then 0.1 *)
Example C134_nonvacuous : @exp_like half_exp /\ a_number (nlit 7000) /\ (exists c, dyn_init (Some (nlit 7000)) 1 1 = Ok c)
  /\ (forall d dt, In (d, dt) ex_plate_hist -> shaped 1 1 d /\ a_number (at2 n0 d 0 0) /\ a_number dt /\ 0 <= value dt <= 2 ^ 900)
  /\ INR (length ex_plate_hist) <= 2 ^ 50 /\ size_at 0 0 (map fst ex_plate_hist) <= 2 ^ 1000.
Proof. exact (conj ex_half_exp ex_plate_fits). Qed.
Example C134_run : match ex_plate with
  | Ok c => let '(c', outs) := @plate_run half_exp c ex_plate_hist in df_pool c' = [[ex_owed]] /\ outs = [[[nlit (1 # 2)]]; [[ex_owed]]]
  | Err _ => False
  end.
Proof. exact ex_plate_run. Qed.
