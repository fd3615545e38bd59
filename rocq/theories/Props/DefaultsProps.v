(** Values that a configuration leaves out (C117). *)
From Coq Require Import String List ZArith QArith Bool.
From Verif.Base Require Import Num Py Arr.
From Verif.Model Require Import Layers Grid Csv SequenceModel Setattr Processes Whole.
From Verif.Spec Require Import Session Defaults.
From Verif.Proofs Require Import FluvialEx ScriptEx WholeEx DefaultsP DefaultsEx.
Import ListNotations.
Local Open Scope string_scope.

(** C117.  To leave a line out of a section of the configuration is to give the
    value that the setup command writes there.  False: the time constant of the
    flexure, that setup writes as 0, is 7000 when it is left out. *)
Definition C117_statement {A X} {num : Num A} {tr : Trans A} : Prop :=
  forall (E : externals A X) params read names ctx c n lines k v,
    In (n, lines) written -> In (k, v) lines -> In n names -> dget String.eqb (section_of ctx n) k = None ->
    load_model E params read names ctx c = load_model E params read names (with_line ctx n k v) c.
Theorem C117_refuted : ~ @C117_statement Q unit _ half_trans.
Proof. exact written_refuted. Qed.
Print Assumptions C117_refuted.

(** Nor is it to give the default of the constructor: the process next to it
    may share the parameter, and then the value given there is taken. *)
Definition C117_own_statement {A X} {num : Num A} {tr : Trans A} : Prop :=
  forall (E : externals A X) params read names ctx c n cls k v,
    class_at n (section_of ctx n) = Some cls -> In (k, v) (defaults cls) -> In n names -> dget String.eqb (section_of ctx n) k = None ->
    load_model E params read names ctx c = load_model E params read names (with_line ctx n k v) c.
Theorem C117_own_refuted : ~ @C117_own_statement Q unit _ half_trans.
Proof. exact own_refuted. Qed.
Print Assumptions C117_own_refuted.

(** What holds: a line with the default of the constructor changes nothing if
    the parameter is not shared, or if there is no submarine diffusion. *)
Theorem C117_line_partial {A X} {num : Num A} {tr : Trans A} (E : externals A X) : (forall a : A, neqb a a = true) ->
  forall params read names ctx c n cls k v,
    ~ In "water_flexure" names -> ~ In "sediments" names ->
    class_at n (section_of ctx n) = Some cls -> In (k, v) (defaults cls) -> dget String.eqb (section_of ctx n) k = None ->
    (In "submarine_diffusion" names -> ~ In (n, k) shared) ->
    load_model E params read names ctx c = load_model E params read names (with_line ctx n k v) c.
Proof. exact (line_default E). Qed.
Print Assumptions C117_line_partial.
(** More generally, configurations whose sections say the same, with or without
    the defaults and in any order, and give the same shared parameters, make the
    same model. *)
Theorem C117_config_partial {A X} {num : Num A} {tr : Trans A} (E : externals A X) : (forall a : A, neqb a a = true) ->
  forall params read names ctx ctx' c,
    ~ In "water_flexure" names -> ~ In "sediments" names ->
    (forall n, In n (names ++ ["fluvial"; "shoreline"])%list -> same_section n (section_of ctx n) (section_of ctx' n)) ->
    (In "submarine_diffusion" names -> forall n k, In (n, k) shared -> dget String.eqb (section_of ctx n) k = dget String.eqb (section_of ctx' n) k) ->
    load_model E params read names ctx c = load_model E params read names ctx' c.
Proof. exact (loaded_said E). Qed.
Print Assumptions C117_config_partial.
(** And the same holds of each constructor. *)
Theorem C117_class {A} {num : Num A} {tr : Trans A} interp1d c (s s' : section (pvalue A)) g :
  (forall k, says c s k = says c s' k) -> construct interp1d c s g = construct interp1d c s' g.
Proof. exact (construct_said interp1d c s s' g). Qed.
Print Assumptions C117_class.
(* a model in which the value that setup writes matters, and the default does
   not; two configurations that say the same, and whose model is made *)
Example C117_nonvacuous :
  (ex_seen (ex_load ex_names ex_context) <> ex_seen (ex_load ex_names (with_line ex_context "flexure" "isostasytime" (Number 0%Q)))
   /\ ex_seen (ex_load ex_names ex_context) = ex_seen (ex_load ex_names (with_line ex_context "flexure" "isostasytime" (Number 7000%Q)))
   /\ ex_seen (ex_load ex_names ex_context) <> None)
  /\ (forall a : Q, neqb a a = true)
  /\ (let names := ["compaction"; "submarine_diffusion"; "flexure"] in
      (forall n, In n (names ++ ["fluvial"; "shoreline"])%list -> same_section n (section_of ex_terse n) (section_of ex_full n))
      /\ (forall n k, In (n, k) shared -> dget String.eqb (section_of ex_terse n) k = dget String.eqb (section_of ex_full n) k)
      /\ ex_seen (ex_load names ex_terse) <> None).
Proof. split; [exact ex_seen_ok|]. split; [exact ex_Qrefl|exact ex_terse_full]. Qed.
