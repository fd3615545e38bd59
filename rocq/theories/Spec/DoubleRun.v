(** Sequence.run when time is kept in doubles. *)
From Coq Require Import List ZArith Reals Floats.SpecFloat.
From Verif.Base Require Import Num Py Arr.
From Verif.Model Require Import Grid Sequence.
From Verif.Spec Require Import Column Doubles.
Import ListNotations.
Local Open Scope R_scope.

(* x is z parts of 1/2^k, up to 2^52 of them: whole numbers, halves, quarters,
   and so on *)
Definition parts (k z : Z) (x : b64) : Prop :=
  a_number x /\ (Z.abs z <= 2 ^ 52)%Z /\ value x = IZR z * powerRZ 2 (- k).
(* run(until, dt) calls every component, in order, once with each of ds *)
Definition runs_by {W} (components : list (component b64 W)) (until dt : option b64) (s : sequence b64 W)
  (ds : list b64) : Prop :=
  match sequence_run components until dt s, sequence_run (mapi logged components) until dt (seq_log s []) with
  | Ok s', Ok sl => sl = seq_log s' (calls_of (length components) ds)
  | Err e, Err e' => e' = e
  | _, _ => False
  end.
(* the time to run to, and the longest step *)
Definition goal {W} (until : option b64) (s : sequence b64 W) : b64 :=
  match until with Some u => u | None => nadd (sq_time s) (sq_time_step s) end.
Definition longest {W} (dt : option b64) (s : sequence b64 W) : b64 :=
  match dt with Some d => d | None => sq_time_step s end.
