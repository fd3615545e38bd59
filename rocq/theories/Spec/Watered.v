(** Models with a WaterFlexure (C128, C129). *)
From Coq Require Import String List Reals.
From Verif.Base Require Import Num Py Arr.
From Verif.Model Require Import Layers Grid Setattr SequenceModel Whole Water.
From Verif.Spec Require Import Column.
Import ListNotations.
Local Open Scope string_scope.

(* what is assumed of landlab's Flexure1D.calc_flexure: a deflection for every
   node of the profiles *)
Definition keeps_shape {A} (P : plate A) : Prop := forall k x n m z, shaped n m z -> shaped n m (pt_flexure P k x z).
(* a step of the class that is not modelled leaves the elevation alone *)
Definition leaves_elevation {A X} (E : externals A X) : Prop := forall dt x g x' g', ex_step E dt (x, g) = Ok (x', g') ->
  node g' "topographic__elevation" = node g "topographic__elevation".
Section Depth.
  Context {A : Type} {num : Num A}.
  (* the depth of the water over a node, when the sea is at [sea] *)
  Definition depth_under (sea : A) (g : grid A) (i j : nat) (d : A) : Prop :=
    exists z, node g "topographic__elevation" = Some z /\ d = nmax (nsub sea (at2 n0 z i j)) n0.
  Definition water_depth (g : grid A) (i j : nat) (d : A) : Prop :=
    exists sea, gval g "sea_level__elevation" = Some sea /\ depth_under sea g i j d.
  (* what a model keeps as the change in water depth *)
  Definition recorded_change (g : grid A) (i j : nat) (d : A) : Prop :=
    exists w, node g "water__increment_of_depth" = Some w /\ at2 n0 w i j = d.
End Depth.
