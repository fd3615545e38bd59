(** Runs whose clock is kept in doubles. *)
From Coq Require Import List ZArith QArith Reals Floats.SpecFloat.
From Verif.Base Require Import Num Py Arr.
From Verif.Model Require Import Grid SequenceModel.
From Verif.Spec Require Import Column Doubles.
From Verif.Proofs Require Import DoublesP DoublesEx SequenceModelEx.
Import ListNotations.
Local Open Scope R_scope.

(** C124: a run makes as many rounds as steps fit between the start and the
    stop, as the three numbers are written. *)
Definition C124_statement : Prop :=
  forall W (pr : processes b64 W) (m : smodel b64 W) (start stop step : Q), (0 < step)%Q ->
    ck_time (sm_clock m) = nlit start -> ck_stop (sm_clock m) = Some (nlit stop) -> ck_step (sm_clock m) = nlit step ->
    exists n time, full_steps (Q2R start) (Q2R stop) (Q2R step) n /\ makes_rounds pr m n time.
Theorem C124_refuted : ~ C124_statement.
Proof. exact decimal_refuted. Qed.
Print Assumptions C124_refuted.
(* start: 0, stop: 0.3, step: 0.1 runs two steps, not three *)
Example C124_tenths : ex_ran 4 (nlit 0) (nlit (3 # 10)) (nlit (1 # 10))
  = Some ([0; 1; 0; 1]%nat, S754_finite false 5404319552844596 (-54)).
Proof. exact ex_tenths. Qed.

(** C124, numbers that are exact in binary: whole numbers, halves, quarters and
    so on, up to 2^53 of the smallest such part. *)
Theorem C124_exact_partial {W} (pr : processes b64 W) (m : smodel b64 W) (start stop step : Q) k z0 z1 z2 :
  (0 <= k <= 1074)%Z -> fits k z0 start -> fits k z1 stop -> fits k z2 step -> (0 < step)%Q ->
  (z0 + z2 <= 2 ^ 53)%Z -> (z1 + z2 <= 2 ^ 53)%Z ->
  ck_time (sm_clock m) = nlit start -> ck_stop (sm_clock m) = Some (nlit stop) -> ck_step (sm_clock m) = nlit step ->
  exists n time, full_steps (Q2R start) (Q2R stop) (Q2R step) n /\ makes_rounds pr m n time
    /\ a_number time /\ value time = Q2R start + (INR n + 1) * Q2R step.
Proof. exact (exact_rounds pr m start stop step k z0 z1 z2). Qed.
Print Assumptions C124_exact_partial.
(* the default clock (0, 600000, 100), and 0, 1, 0.25 *)
Example C124_exact_nonvacuous :
  (fits 0 0 0 /\ fits 0 600000 600000 /\ fits 0 100 100 /\ fits 2 0 0 /\ fits 2 4 1 /\ fits 2 1 (25 # 100))
  /\ ex_ran 5 (nlit 0) (nlit 1) (nlit (25 # 100)) = Some ([0; 1; 0; 1; 0; 1; 0; 1]%nat, nlit (125 # 100)).
Proof. exact (conj ex_fits ex_quarters). Qed.

(** C124, any doubles: with M a bound of the start and the stop, each addition
    loses at most d = (M + step) / 2^53.  If that is less than the step, the run
    ends, with a number of rounds and a final time that d bounds. *)
Theorem C124_drift_partial {W} (pr : processes b64 W) (m : smodel b64 W) stop M :
  let start := ck_time (sm_clock m) in let step := ck_step (sm_clock m) in
  let d := (M + value step) / 2 ^ 53 in
  a_number start -> a_number stop -> a_number step -> ck_stop (sm_clock m) = Some stop ->
  0 < value step -> Rabs (value start) <= M -> Rabs (value stop) <= M -> M + value step <= powerRZ 2 1023 -> d < value step ->
  exists n time, makes_rounds pr m n time
    /\ (n = 0%nat \/ value start + INR n * (value step - d) <= value stop)
    /\ value stop < value start + (INR n + 1) * (value step + d)
    /\ a_number time /\ Rabs (value time - (value start + (INR n + 1) * value step)) <= (INR n + 1) * d.
Proof. exact (drift pr m stop M). Qed.
Print Assumptions C124_drift_partial.
(* away from the ends of a step, rounding does not change the number of rounds *)
Theorem C124_inside_partial {W} (pr : processes b64 W) (m : smodel b64 W) stop M n :
  let start := ck_time (sm_clock m) in let step := ck_step (sm_clock m) in
  let d := (M + value step) / 2 ^ 53 in
  a_number start -> a_number stop -> a_number step -> ck_stop (sm_clock m) = Some stop ->
  0 < value step -> Rabs (value start) <= M -> Rabs (value stop) <= M -> M + value step <= powerRZ 2 1023 -> d < value step ->
  value start + INR n * (value step + d) <= value stop < value start + (INR n + 1) * (value step - d) ->
  exists time, makes_rounds pr m n time /\ a_number time
    /\ Rabs (value time - (value start + (INR n + 1) * value step)) <= (INR n + 1) * d.
Proof. exact (drift_same pr m stop M n). Qed.
Print Assumptions C124_inside_partial.
(* start: 0, stop: 0.35, step: 0.1 *)
Example C124_drift_nonvacuous : exists (m : smodel b64 unit) stop,
  let start := ck_time (sm_clock m) in let step := ck_step (sm_clock m) in
  let d := (1 + value step) / 2 ^ 53 in
  a_number start /\ a_number stop /\ a_number step /\ ck_stop (sm_clock m) = Some stop
  /\ 0 < value step /\ Rabs (value start) <= 1 /\ Rabs (value stop) <= 1 /\ 1 + value step <= powerRZ 2 1023 /\ d < value step
  /\ value start + INR 3 * (value step + d) <= value stop < value start + (INR 3 + 1) * (value step - d).
Proof. exact ex_drift. Qed.

(** C124, any arithmetic: the rounds of a run are counted by adding the step
    again and again until the sum is past the stop. *)
Theorem C124_any {A} {num : Num A} {W} (pr : processes A W) (m : smodel A W) stop n :
  ck_stop (sm_clock m) = Some stop ->
  (forall k, (1 <= k <= n)%nat -> nltb stop (added k (ck_time (sm_clock m)) (ck_step (sm_clock m))) = false) ->
  nltb stop (added (S n) (ck_time (sm_clock m)) (ck_step (sm_clock m))) = true ->
  makes_rounds pr m n (added (S n) (ck_time (sm_clock m)) (ck_step (sm_clock m))).
Proof. exact (rounds_any pr m stop n). Qed.
Print Assumptions C124_any.
(* a step too small for the time: run() does not end *)
Theorem C124_stuck {A} {num : Num A} {W} (pr : processes A W) fuel (m m' : smodel A W) stop :
  ck_stop (sm_clock m) = Some stop -> nadd (ck_time (sm_clock m)) (ck_step (sm_clock m)) = ck_time (sm_clock m) ->
  nltb stop (ck_time (sm_clock m)) = false -> model_run fuel pr m <> Some (Ok m').
Proof. exact (stuck pr fuel m m' stop). Qed.
Print Assumptions C124_stuck.
(* a step of 1 at 2^53, with the stop at 2^53 + 2 *)
Example C124_stuck_nonvacuous : nadd (b64_of (2 ^ 53) 0) (b64_of 1 0) = b64_of (2 ^ 53) 0
  /\ nltb (b64_of (2 ^ 53 + 2) 0) (b64_of (2 ^ 53) 0) = false.
Proof. exact ex_lost. Qed.
(* the clock never goes back *)
Theorem C124_forward (time step : b64) : a_number time -> a_number step -> 0 <= value step -> nltb (nadd time step) time = false.
Proof. exact (later_or_same time step). Qed.
Print Assumptions C124_forward.
