(** Which sections [water_flexure] of a configuration make a process (C135). *)
From Coq Require Import String List Reals.
From Verif.Base Require Import Num Py.
From Verif.Model Require Import Setattr Processes.
Import ListNotations.
Local Open Scope string_scope.
Local Open Scope list_scope.
Local Open Scope R_scope.

(* the numbers that the documentation of the class names as parameters: two of its own
   (sediment_flexure.py:135-147), and those of landlab's Flexure1D *)
Definition documented : list string := ["isostasytime"; "water_density"; "eet"; "youngs"; "rho_mantle"; "rho_water"; "gravity"].
(* the parameters that it takes *)
Definition water_takes : list string := ["isostasytime"; "eet"; "youngs"; "rho_mantle"; "rho_water"; "gravity"].
(* why a section makes no process *)
Definition water_refused (s : section (pvalue R)) (e : exn) : Prop :=
  (e = TypeError /\ exists k v, dget String.eqb s k = Some v /\ ~ In k water_takes)
  \/ (e = TypeError /\ exists x y, dget String.eqb s "isostasytime" = Some (Table x y))
  \/ (e = ValueError /\ exists t, dget String.eqb s "isostasytime" = Some (Number t) /\ t < - (1 / 100000000)).
