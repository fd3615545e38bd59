(** Sequence.run when time is kept in doubles. *)
From Coq Require Import List ZArith QArith Reals Floats.SpecFloat.
From Verif.Base Require Import Num Py Arr.
From Verif.Model Require Import Grid Sequence.
From Verif.Spec Require Import Column Doubles DoubleRun.
From Verif.Proofs Require Import DoubleRunP DoubleRunEx SequenceModelEx.
Import ListNotations.
Local Open Scope R_scope.

(** C34 (refuted in SequenceProps.v), numbers that are exact in binary: whole
    numbers, halves, quarters and so on. *)
Theorem C34_exact_partial {W} (components : list (component b64 W)) until dt s s' k z0 z1 z2 :
  (0 <= k <= 1074)%Z -> parts k z0 (sq_time s) -> parts k z1 (goal until s) -> parts k z2 (longest dt s) ->
  (0 < z2)%Z -> (z0 < z1)%Z -> (z1 - z0 <= 2 ^ 50 * z2)%Z -> sequence_run components until dt s = Ok s' ->
  a_number (sq_time s') /\ value (sq_time s') = value (goal until s).
Proof. exact (exact_time components until dt s s' k z0 z1 z2). Qed.
Print Assumptions C34_exact_partial.
(** C34, any doubles: the run ends at the requested time up to rounding. *)
Theorem C34_drift_partial {W} (components : list (component b64 W)) until dt s s' M :
  let T := goal until s in let d := longest dt s in let t := sq_time s in
  a_number T -> a_number d -> a_number t -> 0 < value d -> value t < value T ->
  Rabs (value t) <= M -> Rabs (value T) <= M -> M <= powerRZ 2 960 -> value T - value t <= 2 ^ 49 * value d ->
  sequence_run components until dt s = Ok s' ->
  a_number (sq_time s') /\ Rabs (value (sq_time s') - value T) <= 6 * ((value T - value t) / value d + 3) * M / 2 ^ 53.
Proof. exact (drift_time components until dt s s' M). Qed.
Print Assumptions C34_drift_partial.

(** C127: run(until, dt) makes steps forward of at most dt, as many as it takes. *)
Definition C127_statement : Prop :=
  forall W (components : list (component b64 W)) T d s, a_number T -> a_number d -> a_number (sq_time s) ->
    0 < value d -> value (sq_time s) < value T ->
    exists ds, runs_by components (Some T) (Some d) s ds
      /\ (forall e, In e ds -> 0 < value e <= value d)
      /\ (INR (length ds) - 1) * value d < value T - value (sq_time s) <= INR (length ds) * value d.
Theorem C127_refuted : ~ C127_statement.
Proof. exact forward_refuted. Qed.
Print Assumptions C127_refuted.
(* run(until=2.2, dt=0.1) from 0 makes 23 updates, the last one with dt = 0 *)
Example C127_idle : ex_calls (nlit (22 # 10)) (nlit (1 # 10)) = Some (23%nat, (0%nat, S754_zero false), nlit (22 # 10)).
Proof. exact ex_idle. Qed.

(** C127, numbers that are exact in binary. *)
Theorem C127_exact_partial {W} (components : list (component b64 W)) until dt s k z0 z1 z2 :
  (0 <= k <= 1074)%Z -> parts k z0 (sq_time s) -> parts k z1 (goal until s) -> parts k z2 (longest dt s) ->
  (0 < z2)%Z -> (z0 < z1)%Z -> (z1 - z0 <= 2 ^ 50 * z2)%Z ->
  exists ds, runs_by components until dt s ds
    /\ (forall e, In e ds -> a_number e /\ 0 < value e <= value (longest dt s))
    /\ ((Z.of_nat (length ds) - 1) * z2 < z1 - z0 <= Z.of_nat (length ds) * z2)%Z
    /\ forall s', sequence_run components until dt s = Ok s' ->
         a_number (sq_time s') /\ value (sq_time s') = value (goal until s).
Proof. exact (exact_run components until dt s k z0 z1 z2). Qed.
Print Assumptions C127_exact_partial.
(* run(until=1, dt=0.375): the last of three steps is 0.25 *)
Example C127_exact_nonvacuous :
  (exists s : sequence b64 unit, parts 3 0 (sq_time s) /\ parts 3 8 (nlit 1) /\ parts 3 3 (nlit (375 # 1000)))
  /\ ex_calls (nlit 1) (nlit (375 # 1000)) = Some (3%nat, (0%nat, nlit (25 # 100)), nlit 1).
Proof. exact (conj ex_run_exact ex_eighths). Qed.

(** C127, any doubles: no step is longer than dt or goes back by more than
    rounding, and their number is that of the steps that fit, up to rounding. *)
Theorem C127_drift_partial {W} (components : list (component b64 W)) until dt s M :
  let T := goal until s in let d := longest dt s in let t := sq_time s in
  a_number T -> a_number d -> a_number t -> 0 < value d -> value t < value T ->
  Rabs (value t) <= M -> Rabs (value T) <= M -> M <= powerRZ 2 960 -> value T - value t <= 2 ^ 49 * value d ->
  exists ds, runs_by components until dt s ds
    /\ (INR (length ds) - 1) * value d < (value T - value t) * (1 + / 2 ^ 53)
    /\ (value T - value t) * (1 - / 2 ^ 53) <= INR (length ds) * value d
    /\ (forall e, In e ds -> a_number e /\ - (6 * (INR (length ds) + 1) * M / 2 ^ 53) <= value e <= value d)
    /\ forall s', sequence_run components until dt s = Ok s' ->
         a_number (sq_time s') /\ Rabs (value (sq_time s') - value T) <= 6 * (INR (length ds) + 1) * M / 2 ^ 53.
Proof. exact (drift_words components until dt s M). Qed.
Print Assumptions C127_drift_partial.
(* until = 2.2, dt = 0.1 *)
Example C127_drift_nonvacuous : exists s : sequence b64 unit,
  a_number (nlit (22 # 10)) /\ a_number (nlit (1 # 10)) /\ a_number (sq_time s) /\ 0 < value (nlit (1 # 10))
  /\ value (sq_time s) < value (nlit (22 # 10)) /\ Rabs (value (sq_time s)) <= 3 /\ Rabs (value (nlit (22 # 10))) <= 3
  /\ 3 <= powerRZ 2 960 /\ value (nlit (22 # 10)) - value (sq_time s) <= 2 ^ 49 * value (nlit (1 # 10)).
Proof. exact ex_run_drift. Qed.
