(** Vocabulary for profiles, independent of the model. *)
From Coq Require Import List Reals.
From Verif.Base Require Import Num.
Import ListNotations.

(* strictly increasing positions *)
Definition increasing (x : list R) : Prop :=
  forall i j, (i < j < length x)%nat -> (nth i x 0 < nth j x 0)%R.

(* f goes through the points (x_i, y_i) *)
Definition interpolates (f : R -> R) (x y : list R) : Prop :=
  length y = length x /\ forall i, (i < length x)%nat -> f (nth i x 0%R) = nth i y 0%R.

(* column i is submerged: its elevation is strictly below sea level *)
Definition submerged {A} `{Num A} (z : list A) (sea_level : A) (i : nat) : Prop :=
  (i < length z)%nat /\ nltb (nth i z n0) sea_level = true.

(* i is the landward-most submerged column *)
Definition first_submerged {A} `{Num A} (z : list A) (sea_level : A) (i : nat) : Prop :=
  submerged z sea_level i /\ forall j, (j < i)%nat -> ~ submerged z sea_level j.

(* straight line through (x0,y0) and (x1,y1), at v *)
Definition lerp (x0 y0 x1 y1 v : R) : R := (y0 + (y1 - y0) * ((v - x0) / (x1 - x0)))%R.

(* f is continuous on [a, b]: it agrees there with a continuous function *)
Definition continuous_between (f : R -> R) (a b : R) : Prop :=
  exists g, continuity g /\ forall v, (a <= v <= b)%R -> g v = f v.

(* s is as close to a zero of f in [a, b] as the root finder promises:
   absolute tolerance 2e-12, relative tolerance 4 machine epsilons (2^-50) *)
Definition near_root (f : R -> R) (a b s : R) : Prop :=
  exists c, (a <= c <= b)%R /\ f c = 0%R
    /\ (Rabs (s - c) <= 2 / 10 ^ 12 + 1 / 2 ^ 50 * Rabs s)%R.

(* non-decreasing positions *)
Definition sorted (x : list R) : Prop :=
  forall i j, (i <= j < length x)%nat -> (nth i x 0 <= nth j x 0)%R.
