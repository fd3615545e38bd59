(** Vocabulary for the sand that rivers leave on land (C97). *)
From Coq Require Import Reals Arith.
Local Open Scope R_scope.

(* the slope of a profile z of m columns at column j: half the difference
   between the neighbours, the difference to the only neighbour at the ends *)
Definition slope (dx : R) (m : nat) (z : nat -> R) (j : nat) : R :=
  (if Nat.eqb j 0 then z 1%nat - z 0%nat
   else if Nat.eqb j (m - 1) then z j - z (j - 1)%nat
   else (z (j + 1)%nat - z (j - 1)%nat) / 2) / dx.

(* width and depth of channels: grains of 1 mm and the given density, sand
   load, slope *)
Definition channel_width (load density : R) : R := load / (10 * sqrt (98 / 10 * (density / 1000 - 1)) * (1 / 1000)).
Definition channel_depth (density slope : R) : R := (density - 1000) / 1000 * (1 / 1000) / slope.
(* channels more than 75 times as wide as deep are braided, others meander *)
Definition belt_share (width depth : R) : R := if Rlt_dec 75 (width / depth) then 4 / 10 else 125 / 1000.

(* the sand fraction of a land column: [belt] and [plain] are the shares of the
   deposit that build channel belts and flood plains *)
Definition land_sand (width depth0 depth mud_concentration deposit : R) : R :=
  if Rlt_dec 0 deposit then
    let belt := belt_share width depth0 in
    let plain := Rmin belt (1 / 10 * depth / 10 * mud_concentration / deposit) in
    let avulsions := 10 * (belt - plain) in
    let reworked := if Rlt_dec 1 avulsions then belt * avulsions else belt in
    1 - exp (- (width / belt_share width depth / 10000 * (10 * (reworked - plain))))
  else 0.

(* the mud that a river still carries at column j, when column i got the sand
   fraction [sand i] and rose by [rise i] during dt *)
Fixpoint mud_carried (supply dx dt : R) (rise sand : nat -> R) (j : nat) : R :=
  match j with
  | O => supply
  | S i => mud_carried supply dx dt rise sand i
           - if Rlt_dec 0 (rise i) then (1 - sand i) * dx * (rise i + rise (S i)) / 2 / dt else 0
  end.
