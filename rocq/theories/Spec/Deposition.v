(** Vocabulary for the fluvial properties (C25-C28), independent of the
    algorithm in Model/Fluvial.v. *)
From Coq Require Import String List Reals Arith.
From Verif.Base Require Import Num Py Arr.
From Verif.Model Require Import Grid.
Import ListNotations.

(* a grid of at least one profile row and two columns that carries the fields
   and the sea level a Fluvial component reads *)
Definition delta_grid {A} `{Num A} (g : grid A) (z deposit sand : field A) (sea_level : A) : Prop :=
  0 < g_rows g /\ 2 <= g_cols g
  /\ (node g "topographic__elevation" = Some z /\ shaped (g_rows g + 2) (g_cols g) z)
  /\ (node g "sediment_deposit__thickness" = Some deposit /\ shaped (g_rows g + 2) (g_cols g) deposit)
  /\ (node g "delta_sediment_sand__volume_fraction" = Some sand /\ shaped (g_rows g + 2) (g_cols g) sand)
  /\ (exists inc, node g "bedrock_surface__increment_of_elevation" = Some inc
                  /\ shaped (g_rows g + 2) (g_cols g) inc)
  /\ gval g "sea_level__elevation" = Some sea_level.

(* the node row of the channel: the middle one of the profile rows, which are
   the node rows but the first and the last *)
Definition channel_row {A} (g : grid A) : nat := Nat.div2 (g_rows g) + 1.

(* column j is between one and two wave bases deep *)
Definition on_ramp (wave_base depth : R) : Prop := (wave_base < depth < 2 * wave_base)%R.

(* t is the last column before j, not landward of the shore, that is on the
   ramp; column 1 if there is none *)
Definition taper_start (ramp : nat -> Prop) (j t : nat) : Prop :=
  (t = 1 /\ forall i, i < j -> ~ ramp i)
  \/ (t < j /\ ramp t /\ forall i, t < i < j -> ~ ramp i).
