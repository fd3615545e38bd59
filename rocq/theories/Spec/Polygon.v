(** Vocabulary for plots (C63-C65, C80-C84). *)
From Coq Require Import List Reals Arith.
Import ListNotations.

(* the same column or the next one *)
Definition neighbours (a b : nat) : Prop := a = b \/ a = S b \/ b = S a.
(* columns visited one after the other, the last followed by the first *)
Definition closed_walk (cols : list nat) : Prop :=
  forall i, i < length cols -> neighbours (nth i cols 0) (nth (S i mod length cols) cols 0).

Local Open Scope R_scope.
(* columns that lie between a and b, in either order *)
Definition between (a b c : nat) : Prop := (Nat.min a b <= c <= Nat.max a b)%nat.

(* a and b are columns with a <= b; the column after the last one is allowed
   and stands for the last one *)
Definition ordered (n a b : nat) : Prop := (a <= n /\ b <= n /\ Nat.min a (n - 1) <= Nat.min b (n - 1))%nat.

(** The polygon (xs, ys) outlines the layer between the profiles [bottom] and
    [top] over the columns x, where the bottom is seen from column b0 to b1 and
    the top from t0 to t1. *)
Definition outlines (x bottom top : list R) (b0 b1 t0 t1 : nat) (xs ys : list R) : Prop :=
  exists cols, length xs = length cols /\ length ys = length cols /\ closed_walk cols
  (* every vertex is a column within the limits, between bottom and top *)
  /\ (forall i, (i < length cols)%nat -> let c := nth i cols 0%nat in
        (c < length x)%nat /\ (Nat.min b0 t0 <= c <= Nat.max b1 t1)%nat /\ nth i xs 0 = nth c x 0
        /\ Rmin (nth c bottom 0) (nth c top 0) <= nth i ys 0 <= Rmax (nth c bottom 0) (nth c top 0))
  (* it follows the top and the bottom *)
  /\ (forall c, (t0 < c <= t1)%nat -> (c < length x)%nat -> In (nth c x 0, nth c top 0) (combine xs ys))
  /\ (forall c, (b0 <= c < b1)%nat -> (c < length x)%nat -> In (nth c x 0, nth c bottom 0) (combine xs ys))
  (* and goes straight down from the top at t0 to the bottom at b0, straight up
     from the bottom at b1 to the top at t1 *)
  /\ (forall c, between t0 b0 c -> c <> b0 -> (t0 < length x)%nat -> (b0 < length x)%nat ->
        In (nth c x 0, nth c top 0 + (nth c bottom 0 - nth c top 0) * ((nth c x 0 - nth t0 x 0) / (nth b0 x 0 - nth t0 x 0)))
          (combine xs ys))
  /\ (forall c, between b1 t1 c -> c <> t1 -> (b1 < length x)%nat -> (t1 < length x)%nat ->
        In (nth c x 0, nth c bottom 0 + (nth c top 0 - nth c bottom 0) * ((nth c x 0 - nth b1 x 0) / (nth t1 x 0 - nth b1 x 0)))
          (combine xs ys)).

(* the first column at or beyond position v; length x if there is none *)
Definition first_column (x : list R) (v : R) (k : nat) : Prop :=
  (k <= length x)%nat /\ (forall i, (i < k)%nat -> nth i x 0 < v)
  /\ (forall i, (k <= i < length x)%nat -> v <= nth i x 0).
