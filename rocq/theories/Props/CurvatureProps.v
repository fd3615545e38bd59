(** C102: the shelf edge by curvature.

    Slopes, curvature and profiles with a bend are in Spec/Curvature.v. *)
From Coq Require Import List Reals Lra Lia.
From Verif.Base Require Import Num Py.
From Verif.Model Require Import Shoreline.
From Verif.Spec Require Import Profile Curvature.
From Verif.Proofs Require Import CurvatureP.
Import ListNotations.
Local Open Scope R_scope.

(** C102 in full: it is a place of the sea floor. *)
Definition C102_statement : Prop :=
  forall x z sea_level v, increasing x -> (2 <= length x)%nat -> length z = length x ->
  (exists i, submerged z sea_level i) ->
  find_shelf_edge_by_curvature x z sea_level = Ok v ->
  exists i, submerged z sea_level i /\ nth i x 0 = v.
Theorem C102_refuted : ~ C102_statement.
Proof. exact sea_floor_refuted. Qed.
Print Assumptions C102_refuted.

(** What holds: it is the first place of least curvature of the whole profile. *)
Theorem C102_least_curvature_partial x z sea_level c j : increasing x -> (2 <= length x)%nat -> length z = length x ->
  curvature x z c -> first_smallest c j -> find_shelf_edge_by_curvature x z sea_level = Ok (nth j x 0).
Proof. exact (edge_least_curvature x z sea_level c j). Qed.
Print Assumptions C102_least_curvature_partial.
Theorem C102_curvature_exists x z : increasing x -> (2 <= length x)%nat -> length z = length x ->
  exists c j, curvature x z c /\ length c = length x /\ first_smallest c j.
Proof. exact (curvature_exists x z). Qed.
Print Assumptions C102_curvature_exists.
(** Profiles that are too short or of another length than x raise. *)
Theorem C102_raises x z sea_level : (length z < 2)%nat \/ length z <> length x ->
  find_shelf_edge_by_curvature x z sea_level = Err ValueError.
Proof. exact (edge_needs_two x z sea_level). Qed.
Print Assumptions C102_raises.
(** Tilting or lifting a profile, or the sea, does not move it. *)
Theorem C102_tilted x z z' sea_level sea_level' p q : increasing x -> (2 <= length x)%nat -> length z = length x -> length z' = length x ->
  (forall i, (i < length x)%nat -> nth i z' 0 = nth i z 0 + p + q * nth i x 0) ->
  find_shelf_edge_by_curvature x z' sea_level' = find_shelf_edge_by_curvature x z sea_level.
Proof. exact (edge_detrended x z z' sea_level sea_level' p q). Qed.
Print Assumptions C102_tilted.
(** A shelf that steepens at one column has its edge there, whatever the
    spacing, unless that is the second column. *)
Theorem C102_bend_partial x z sea_level b s1 s2 : increasing x -> bends_at x z b s1 s2 -> s2 < s1 ->
  (2 <= b)%nat -> (S b < length x)%nat -> find_shelf_edge_by_curvature x z sea_level = Ok (nth b x 0).
Proof. exact (edge_of_bend x z sea_level b s1 s2). Qed.
Print Assumptions C102_bend_partial.
Theorem C102_second_column_refuted x z sea_level s1 s2 : increasing x -> bends_at x z 1 s1 s2 -> s2 < s1 ->
  (2 < length x)%nat -> find_shelf_edge_by_curvature x z sea_level = Ok (nth 0 x 0).
Proof. exact (edge_of_first_bend x z sea_level s1 s2). Qed.
Print Assumptions C102_second_column_refuted.
(* a profile with a bend on land *)
Example C102_nonvacuous : increasing [0; 1; 2; 3; 4; 5; 6] /\ bends_at [0; 1; 2; 3; 4; 5; 6] [8; 7; 6; 3; 0; -3; -6] 2 (-1) (-3)
  /\ find_shelf_edge_by_curvature [0; 1; 2; 3; 4; 5; 6] [8; 7; 6; 3; 0; -3; -6] 0 = Ok 2.
Proof. exact (conj ex_bx_increasing (conj ex_bends ex_edge_on_land)). Qed.
