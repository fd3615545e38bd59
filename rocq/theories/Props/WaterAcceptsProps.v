(** C135: which sections [water_flexure] make a process.  [documented],
    [water_takes] and [water_refused] are in Spec/WaterAccepts.v, [handed] is in
    Spec/Accepts.v. *)
From Coq Require Import String List Reals.
From Verif.Base Require Import Num Py Arr.
From Verif.Model Require Import Layers Grid Csv SequenceModel Setattr Processes Whole Water.
From Verif.Spec Require Import Configured Session Accepts WaterAccepts.
From Verif.Proofs Require Import WholeEx WaterEx WaterAcceptsP.
Import ListNotations.
Local Open Scope string_scope.
Local Open Scope list_scope.
Local Open Scope R_scope.

(** The full claim: a positive value of any documented number is taken. *)
Definition C135_statement : Prop := forall (tr : Trans R) (g : grid R) k v, In k documented -> 0 < v -> exists r, water_make [(k, Number v)] g = Ok r.
(** It is false: the density of the water is documented and refused. *)
Theorem C135_refuted : ~ C135_statement.
Proof. exact (fun H => documented_refuted (H _)). Qed.
Print Assumptions C135_refuted.
(** What holds: every other documented number is taken. *)
Theorem C135_partial {tr : Trans R} (g : grid R) k v : In k documented -> k <> "water_density" -> 0 < v -> exists r, water_make [(k, Number v)] g = Ok r.
Proof. exact (documented_taken g k v). Qed.
Print Assumptions C135_partial.
(** A section makes no process only for one of the reasons, and with its
    exception. *)
Theorem C135_reasons {tr : Trans R} (s : section (pvalue R)) (g : grid R) e : water_make s g = Err e -> water_refused s e.
Proof. exact (water_class s g e). Qed.
Print Assumptions C135_reasons.
(** And each of the reasons is enough. *)
Theorem C135_refuses {tr : Trans R} (s : section (pvalue R)) (g : grid R) e : water_refused s e -> exists e', water_make s g = Err e'.
Proof. exact (water_refuses s g e). Qed.
Print Assumptions C135_refuses.
Example C135_nonvacuous {tr : Trans R} : water_refused [("water_density", Number 1030)] TypeError /\ water_refused [("isostasytime", Table [0] [7000])] TypeError
  /\ water_refused [("isostasytime", Number (-1))] ValueError /\ (forall e, ~ water_refused [("isostasytime", Number 0); ("eet", Number 5000)] e).
Proof. exact ex_water_refused. Qed.

(** If a model with a water flexure was made, then its section was not refused. *)
Theorem C135_model {X} {tr : Trans R} (P : plate R) (E : externals R X) params read names ctx c r :
  load_model (with_water P E) params read names ctx c = Ok r -> In "water_flexure" names ->
  forall s e, handed ctx names "water_flexure" s -> ~ water_refused s e.
Proof. exact (water_loads P E params read names ctx c r). Qed.
Print Assumptions C135_model.
(** A name that it does not take, as the density of the water, makes no model. *)
Theorem C135_typo {X} {tr : Trans R} (P : plate R) (E : externals R X) params read names ctx c k v :
  In "water_flexure" names -> dget String.eqb (section_of ctx "water_flexure") k = Some v -> ~ In k water_takes ->
  exists e, load_model (with_water P E) params read names ctx c = Err e.
Proof. exact (water_typo P E params read names ctx c k v). Qed.
Print Assumptions C135_typo.
Example C135_loads {tr : Trans R} : exists (g : grid R) names m, load_grid ex_grid4 (Some (read_bathymetry ex_flat)) = Ok g
  /\ (2 <= g_cols g)%nat /\ (0 < g_rows g)%nat /\ 0 < g_dx g
  /\ load_model (with_water ex_plate (ex_ext ex_level)) ex_grid4 (read_bathymetry ex_flat) ["water_flexure"] [] (clock_init 0 (Some 10) 1) = Ok (names, m).
Proof. exact ex_water_load. Qed.
