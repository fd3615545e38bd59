(** C111 and C112: the fields a process declares, and the order of processes.

    [info] (Model/Info.v) is the _info of a class.  landlab, SciPy and gravity
    are arguments.  [agree_on], [changes_only] and [alike_on] are in
    Spec/Declared.v; [reordered] and [same_outcome] are in Spec/Ordering.v. *)
From Coq Require Import String List ZArith QArith.
From Verif.Base Require Import Num Py Arr.
From Verif.Model Require Import Layers Grid SequenceModel Setattr Info Whole.
From Verif.Spec Require Import Declared Ordering Session.
From Verif.Proofs Require Import DeclaredP DeclaredEx OrderP OrderEx WholeEx.
Import ListNotations.
Local Open Scope string_scope.

(** C111 in full: what a process does depends on the fields it declares only,
    and it changes only those it declares as outputs *)
Definition C111_reads (cls : pclass) : Prop := forall interp1d diffuse flexure gravity dt (p : process Q) g g', class_of p = cls ->
  agree_on (declared cls) g g' ->
  alike_on (declared cls) (@process_step Q _ slow_trans interp1d diffuse flexure gravity dt (p, g)) (@process_step Q _ slow_trans interp1d diffuse flexure gravity dt (p, g')).
Definition C111_writes (cls : pclass) : Prop := forall interp1d diffuse flexure gravity dt (p : process Q) g p' g', class_of p = cls ->
  @process_step Q _ slow_trans interp1d diffuse flexure gravity dt (p, g) = Ok (p', g') -> changes_only (declared_output cls) g g'.
Definition C111_statement : Prop := forall cls, C111_reads cls /\ C111_writes cls.
Theorem C111_refuted : ~ C111_statement.
Proof. exact (fun H => diffuser_reads (proj1 (H SubmarineDiffuser))). Qed.
Print Assumptions C111_refuted.
(** It is true of the classes for which [undeclared], and for the outputs
    [undeclared_output], is empty, and of no other class. *)
Theorem C111_reads_which_partial cls : C111_reads cls <-> undeclared cls = [].
Proof. exact (undeclared_reads cls). Qed.
Print Assumptions C111_reads_which_partial.
Theorem C111_writes_which_partial cls : C111_writes cls <-> undeclared_output cls = [].
Proof. exact (undeclared_writes cls). Qed.
Print Assumptions C111_writes_which_partial.
(** With the undeclared fields of Spec/Declared.v it is true of every class, in
    any arithmetic: a step on two grids that agree on these fields raises the
    same, or leaves the same process and these fields alike. *)
Theorem C111_reads_partial {A} {num : Num A} {tr : Trans A} interp1d diffuse flexure gravity dt (p : process A) g g' :
  agree_on (declared (class_of p) ++ undeclared (class_of p)) g g' ->
  alike_on (declared (class_of p) ++ undeclared (class_of p))
    (process_step interp1d diffuse flexure gravity dt (p, g)) (process_step interp1d diffuse flexure gravity dt (p, g')).
Proof. exact (step_reads interp1d diffuse flexure gravity dt p g g'). Qed.
Print Assumptions C111_reads_partial.
Theorem C111_writes_partial {A} {num : Num A} {tr : Trans A} interp1d diffuse flexure gravity dt (p p' : process A) g g' :
  process_step interp1d diffuse flexure gravity dt (p, g) = Ok (p', g') ->
  class_of p' = class_of p /\ changes_only (declared_output (class_of p) ++ undeclared_output (class_of p)) g g'.
Proof. exact (step_writes interp1d diffuse flexure gravity dt p g p' g'). Qed.
Print Assumptions C111_writes_partial.
(* a grid on which every class makes a step *)
Example C111_nonvacuous : forallb (fun p => match ex_step 1%Q p ex_fields with Ok _ => true | Err _ => false end)
  [ex_made SinusoidalSeaLevel; ex_made SubmarineDiffuser; ex_made Fluvial; ex_made SedimentFlexure; ex_finder] = true.
Proof. vm_compute. reflexivity. Qed.

(** C112.  Processes that do not write what their neighbour uses can be
    swapped: for any series of steps and changes of parameters, both models
    give the same times and grids, or both raise.  [uses_values]: so do the
    classes that are not modelled.  In any arithmetic. *)
Theorem C112_order {A X} {num : Num A} {tr : Trans A} (E : externals A X) : uses_values E ->
  forall names names' m calls, reordered (kind (sm_world m)) names names' ->
  Forall2 same_outcome (session E names calls m) (session E names' calls m).
Proof. exact (order_irrelevant E). Qed.
Print Assumptions C112_order.
(* the classes this is true of *)
Example C112_independent : independent SeaLevelTimeSeries SubsidenceTimeSeries /\ independent SeaLevelTimeSeries SedimentFlexure
  /\ independent SubsidenceTimeSeries SubmarineDiffuser /\ independent SubsidenceTimeSeries ShorelineFinder
  /\ independent SubmarineDiffuser SedimentFlexure /\ independent SedimentFlexure ShorelineFinder.
Proof. exact ex_pairs. Qed.
(* a model with every process, and another order of them *)
Example C112_nonvacuous : uses_values ex_whole
  /\ (exists m, ex_ordered_model = Some m /\ reordered (kind (sm_world m)) ex_order ex_reorder)
  /\ ex_orders ex_order = ex_orders ex_reorder /\ ex_all_return (ex_orders ex_order) = true.
Proof. exact (conj ex_uses_values (conj ex_reordered ex_same_order)). Qed.
(* an order of processes that are not independent gives other elevations *)
Example C112_dependent : ex_first (ex_orders ex_order) = Some [49 # 5; -27 # 5; -3069 # 200; -5061 # 200]%Q
  /\ ex_first (ex_orders ex_disorder) = Some [49 # 5; -27 # 5; -307 # 20; -5061 # 200]%Q.
Proof. exact ex_other_order. Qed.
