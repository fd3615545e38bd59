(** Runs whose clock is kept in doubles. *)
From Coq Require Import List ZArith QArith Reals Floats.SpecFloat.
From Verif.Base Require Import Num Py.
From Verif.Model Require Import Grid SequenceModel.
From Verif.Spec Require Import Column.
Import ListNotations.

(* The number that a double stands for; 0 for infinities and NaN. *)
Definition value (x : b64) : R :=
  match x with
  | S754_finite s m e => (IZR (if s then Zneg m else Zpos m) * powerRZ 2 e)%R
  | _ => 0%R
  end.

(* A double that is a number: neither infinite nor NaN, and with a mantissa and
   an exponent that fit in 64 bits. *)
Definition a_number (x : b64) : Prop :=
  valid_binary 53 1024 x = true
  /\ match x with S754_zero _ | S754_finite _ _ _ => True | _ => False end.

(* run() from [m] makes exactly [n] rounds of calls of the components, each
   component once and in order with the clock's step, and leaves the clock at
   [time]; or it stops at the first error of a component. *)
Definition makes_rounds {A} `{Num A} {W} (pr : processes A W) (m : smodel A W) (n : nat) (time : A) : Prop :=
  forall fuel, (n < fuel)%nat ->
    match model_run fuel pr m, model_run fuel (logged_processes pr) (with_log m []) with
    | Some (Ok m'), Some (Ok ml) =>
        ml = with_log m' (concat (repeat (map (fun i => (i, ck_step (sm_clock m)))
                                           (seq 0 (length (pr_components pr)))) n))
        /\ ck_time (sm_clock m') = time
    | Some (Err e), Some (Err e') => e' = e
    | _, _ => False
    end.

(* the time after k additions of the step *)
Fixpoint added {A} `{Num A} (k : nat) (time step : A) : A :=
  match k with
  | O => time
  | S k => added k (nadd time step) step
  end.

(* [z0 + n z2] is the last of z0 + z2, z0 + 2 z2, ... that is not past z1 *)
Definition whole_steps (z0 z1 z2 : Z) (n : nat) : Prop :=
  ((n = 0%nat \/ z0 + Z.of_nat n * z2 <= z1) /\ z1 < z0 + (Z.of_nat n + 1) * z2)%Z.

(* a number as it is written, of at most 2^53 over at most 2^53, that is exactly
   z / 2^k, with z of at most 2^53: whole numbers, halves, quarters, ... *)
Definition fits (k z : Z) (q : Q) : Prop :=
  (Z.abs (Qnum q) <= 2 ^ 53 /\ Z.pos (Qden q) <= 2 ^ 53 /\ Z.abs z <= 2 ^ 53 /\ Qnum q * 2 ^ k = z * Z.pos (Qden q))%Z.
