(** Slopes and curvature of a profile, independent of the model. *)
From Coq Require Import List Reals.
From Verif.Spec Require Import Profile.
Import ListNotations.
Local Open Scope R_scope.

(* s are the slopes of the values f at the positions x: the slope at a position
   is that of the parabola through it and its two neighbours and, at the ends,
   that of the line through it and its neighbour *)
Definition slopes (x f s : list R) : Prop :=
  length s = length x /\
  forall i, (i < length x)%nat -> exists q,
    (forall k, (k < length x)%nat -> k = (i - 1)%nat \/ k = S i ->
       nth k f 0 = nth i f 0 + nth i s 0 * (nth k x 0 - nth i x 0) + q * (nth k x 0 - nth i x 0) ^ 2)
    /\ (i = 0%nat \/ S i = length x -> q = 0).

(* c is the curvature of the profile z: the slopes of its slopes *)
Definition curvature (x z c : list R) : Prop := exists s, slopes x z s /\ slopes x s c.

(* entry j is the first of the smallest ones *)
Definition first_smallest (l : list R) (j : nat) : Prop :=
  (j < length l)%nat /\ (forall k, (k < length l)%nat -> nth j l 0 <= nth k l 0)
  /\ (forall k, (k < j)%nat -> nth j l 0 < nth k l 0).

(* a profile that falls with the slope s1 as far as column b and with s2 after it *)
Definition bends_at (x z : list R) (b : nat) (s1 s2 : R) : Prop :=
  length z = length x /\ (b < length x)%nat
  /\ (forall i, (i <= b)%nat -> nth i z 0 = nth b z 0 + s1 * (nth i x 0 - nth b x 0))
  /\ (forall i, (b <= i < length x)%nat -> nth i z 0 = nth b z 0 + s2 * (nth i x 0 - nth b x 0)).
