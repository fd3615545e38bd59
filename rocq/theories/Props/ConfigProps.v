(** C47-C51, C72 and C73: time-varying configurations.

    Dictionaries are association lists in insertion order; [proper] ones
    have each key once.  [leaf_at d path] is d[k1][k2]..., [in_force] is the
    value a list of timed sections gives to a path at a time, and
    [reports_change before after d] says that d holds the changed values and
    nothing else: see Spec/Sections.v.  [seqb] is == on scalar values and
    [set_order] the arbitrary order in which Python walks a set. *)
From Coq Require Import String List Bool Reals Lra Permutation.
From Verif.Base Require Import Num Py.
From Verif.Model Require Import Config.
From Verif.Spec Require Import Profile Sections Run.
From Verif.Proofs Require Import ConfigP TimeVaryingP ConfigEx FolderP.
Import ListNotations.
Local Open Scope R_scope.
Local Open Scope string_scope.
Local Open Scope list_scope.

(** C47 *)
Theorem C47_config_at {S} (times : list R) (dicts : list (dict S)) c :
  (forall d, In d dicts -> proper (PyDict d)) -> sorted times -> config_init times dicts = Ok c ->
  forall t path, option_map as_list (dget path_eqb (config_at c t) path) = in_force (combine times dicts) t path.
Proof. exact (config_at_init times dicts c). Qed.
Print Assumptions C47_config_at.
(* the sections of a file are timed by their _time or by their place *)
Theorem C47_file_sections {S} (sections : list (option R * dict S)) c : from_file sections = Ok c ->
  (forall t d, In (t, d) sections -> proper (PyDict d)) ->
  (forall i j, (i <= j < length sections)%nat -> section_time sections i <= section_time sections j) ->
  forall t path, option_map as_list (dget path_eqb (config_at c t) path)
    = in_force (combine (map (section_time sections) (seq 0 (length sections))) (map snd sections)) t path.
Proof. exact (file_config sections c). Qed.
Print Assumptions C47_file_sections.
Theorem C47_load_config {S} (sections : list (option R * dict S)) :
  load_config sections = match sections with
                         | [(_, d)] => inr d
                         | _ => inl (combine (map (section_time sections) (seq 0 (length sections))) (map snd sections))
                         end.
Proof. exact (loaded sections). Qed.
Print Assumptions C47_load_config.
Example C47_nonvacuous : exists c, config_init [0; 1] [ex_first; ex_second] = Ok c
  /\ (forall d, In d [ex_first; ex_second] -> proper (PyDict d)) /\ sorted [0; 1]
  /\ in_force (combine [0; 1] [ex_first; ex_second]) (1/2) ["foo"] = Some (num1 0)
  /\ in_force (combine [0; 1] [ex_first; ex_second]) 1 ["foo"] = Some (num1 1)
  /\ in_force (combine [0; 1] [ex_first; ex_second]) 1 ["bar"; "baz"] = Some (PyList [num1 1; num1 2])
  /\ in_force (combine [0; 1] [ex_first; ex_second]) (-1) ["foo"] = None.
Proof. exact ex_in_force. Qed.
Example C47_sections_nonvacuous : exists c, from_file [(None, ex_first); (Some (5 / 2), ex_second)] = Ok c
  /\ (forall t d, In (t, d) [(None, ex_first); (Some (5 / 2), ex_second)] -> proper (PyDict d))
  /\ (forall i j, (i <= j < 2)%nat -> section_time [(None, ex_first); (Some (5 / 2), ex_second)] i
                                     <= section_time [(None, ex_first); (Some (5 / 2), ex_second)] j)
  /\ (let timed := combine (map (section_time [(None, ex_first); (Some (5 / 2), ex_second)]) (seq 0 2)) [ex_first; ex_second] in
      in_force timed 2 ["foo"] = Some (num1 0) /\ in_force timed 3 ["foo"] = Some (num1 1)).
Proof. exact ex_sections. Qed.

(** C48 *)
Theorem C48_updates {S} (seqb : S -> S -> bool) (set_order : flat S -> flat S) t0 times (dicts : list (dict S)) c incs :
  (forall a b, seqb a b = true <-> a = b) -> (forall l, Permutation (set_order l) l) ->
  plain_sections dicts -> t0 <= 0 -> Forall (fun t => 0 < t) times -> sorted (t0 :: times) ->
  Forall (fun inc => 0 <= inc) incs -> config_init (t0 :: times) dicts = Ok c ->
  let at_time := in_force (combine (t0 :: times) dicts) in
  exists ds c' e, updates seqb set_order incs c = Ok (ds, c') /\ as_dict c' = Ok e
    /\ (forall path, leaf_at e path = at_time (total incs) path)
    /\ length ds = length incs
    /\ forall i, (i < length incs)%nat ->
         reports_change (at_time (total (firstn i incs))) (at_time (total (firstn (Datatypes.S i) incs))) (nth i ds []).
Proof. exact (updates_init seqb set_order t0 times dicts c incs). Qed.
Print Assumptions C48_updates.
Example C48_nonvacuous : plain_sections [ex_first; ex_second]
  /\ exists c c', config_init [0; 1] [ex_first; ex_second] = Ok c
     /\ update Nat.eqb (fun l => l) 1 c = Ok ([("foo", num1 1)], c').
Proof. exact (conj ex_plain ex_update). Qed.

(** C49: with the first section after time 0, the update that reaches it
    reports all of it, although the configuration started as that section *)
Definition C49_statement : Prop :=
  forall (S : Type) (seqb : S -> S -> bool) (set_order : flat S -> flat S) times dicts c inc d c',
  (forall a b, seqb a b = true <-> a = b) -> (forall l, Permutation (set_order l) l) -> plain_sections dicts -> sorted times ->
  config_init times dicts = Ok c -> 0 <= inc -> update seqb set_order inc c = Ok (d, c') ->
  forall path, dget path_eqb (tv_current c) path = dget path_eqb (tv_current c') path -> leaf_at d path = None.
Theorem C49_only_changes_refuted : ~ C49_statement.
Proof. exact late_first_refuted. Qed.
Print Assumptions C49_only_changes_refuted.
(* proved if the first section alone is at or before time 0, for an update
   after any others *)
Theorem C49_only_changes_partial {S} (seqb : S -> S -> bool) (set_order : flat S -> flat S) t0 times (dicts : list (dict S)) c incs ds c1 inc d c2 :
  (forall a b, seqb a b = true <-> a = b) -> (forall l, Permutation (set_order l) l) ->
  plain_sections dicts -> t0 <= 0 -> Forall (fun t => 0 < t) times -> sorted (t0 :: times) ->
  config_init (t0 :: times) dicts = Ok c ->
  Forall (fun inc => 0 <= inc) incs -> updates seqb set_order incs c = Ok (ds, c1) ->
  0 <= inc -> update seqb set_order inc c1 = Ok (d, c2) ->
  forall path, dget path_eqb (tv_current c1) path = dget path_eqb (tv_current c2) path -> leaf_at d path = None.
Proof. exact (only_changes_init seqb set_order t0 times dicts c incs ds c1 inc d c2). Qed.
Print Assumptions C49_only_changes_partial.

(** C50 *)
Theorem C50_expand_flatten {S} (d : dict S) :
  proper (PyDict d) -> exists d', expand_dict (flatten_dict d) = Ok d' /\ without_empty (PyDict d) = PyDict d'.
Proof. exact (expand_flatten d). Qed.
Print Assumptions C50_expand_flatten.
Theorem C50_lossless {S} (d : dict S) :
  proper (PyDict d) -> Forall (fun kv => solid (snd kv)) d -> expand_dict (flatten_dict d) = Ok d.
Proof. exact (expand_flatten_solid d). Qed.
Print Assumptions C50_lossless.
Example C50_nonvacuous : proper (PyDict ex_first) /\ Forall (fun kv => solid (snd kv)) ex_first
  /\ without_empty (PyDict [("a", PyDict [("b", PyDict [])]); ("c", PyTuple [num1 1])]) = PyDict [("c", PyList [num1 1])].
Proof. exact ex_solid. Qed.

(** C51 *)
Theorem C51_dump_load {S} (seqb : S -> S -> bool) (set_order : flat S -> flat S) times (dicts : list (dict S)) c :
  (forall a b, seqb a b = true <-> a = b) -> (forall l, Permutation (set_order l) l) ->
  plain_sections dicts -> increasing times -> length times = length dicts -> config_init times dicts = Ok c ->
  exists docs c', dump seqb set_order c = Ok docs /\ from_file docs = Ok c'
    /\ forall t path, dget path_eqb (config_at c' t) path = dget path_eqb (config_at c t) path.
Proof. exact (dump_load_init seqb set_order times dicts c). Qed.
Print Assumptions C51_dump_load.
(* the times must be different *)
Definition C51_equal_times_statement : Prop :=
  forall (S : Type) (seqb : S -> S -> bool) (set_order : flat S -> flat S) times dicts c,
  (forall a b, seqb a b = true <-> a = b) -> (forall l, Permutation (set_order l) l) -> plain_sections dicts -> sorted times ->
  length times = length dicts -> config_init times dicts = Ok c ->
  exists docs c', dump seqb set_order c = Ok docs /\ from_file docs = Ok c'
    /\ forall t path, dget path_eqb (config_at c' t) path = dget path_eqb (config_at c t) path.
Theorem C51_equal_times_refuted : ~ C51_equal_times_statement.
Proof. exact dump_equal_times_refuted. Qed.
Print Assumptions C51_equal_times_refuted.
Example C51_nonvacuous : plain_sections [ex_first; ex_second] /\ increasing [0; 1]
  /\ exists c, config_init [0; 1] [ex_first; ex_second] = Ok c.
Proof. exact ex_increasing. Qed.

(** C72: of several sections at or before time 0, only the first is used *)
Definition C72_statement : Prop :=
  forall (S : Type) times dicts (c : config S R) path,
  plain_sections dicts -> sorted times -> config_init times dicts = Ok c ->
  option_map as_list (dget path_eqb (tv_current c) path) = in_force (combine times dicts) 0 path.
Theorem C72_initial_refuted : ~ C72_statement.
Proof. exact two_at_start_refuted. Qed.
Print Assumptions C72_initial_refuted.
(* proved if the first section alone is *)
Theorem C72_initial_partial {S} t0 times (dicts : list (dict S)) (c : config S R) path :
  plain_sections dicts -> t0 <= 0 -> Forall (fun t => 0 < t) times -> sorted (t0 :: times) -> config_init (t0 :: times) dicts = Ok c ->
  option_map as_list (dget path_eqb (tv_current c) path) = in_force (combine (t0 :: times) dicts) 0 path.
Proof. exact (initial_init t0 times dicts c path). Qed.
Print Assumptions C72_initial_partial.

(** C73: a list of lists makes update() and dump() raise *)
Definition C73_statement : Prop :=
  forall (S : Type) (seqb : S -> S -> bool) (set_order : flat S -> flat S) times dicts c inc,
  (forall a b, seqb a b = true <-> a = b) -> (forall l, Permutation (set_order l) l) ->
  (forall d, In d dicts -> proper (PyDict d)) -> compatible dicts -> sorted times -> 0 <= inc ->
  config_init times dicts = Ok c -> exists r, update seqb set_order inc c = Ok r.
Theorem C73_never_raises_refuted : ~ C73_statement.
Proof. exact nested_refuted. Qed.
Print Assumptions C73_never_raises_refuted.
(* proved if the values are scalars and lists of scalars; the first section
   at or before time 0, no other *)
Theorem C73_never_raises_partial {S} (seqb : S -> S -> bool) (set_order : flat S -> flat S) t0 times (dicts : list (dict S)) c incs :
  (forall a b, seqb a b = true <-> a = b) -> (forall l, Permutation (set_order l) l) ->
  plain_sections dicts -> t0 <= 0 -> Forall (fun t => 0 < t) times -> sorted (t0 :: times) ->
  Forall (fun inc => 0 <= inc) incs -> config_init (t0 :: times) dicts = Ok c ->
  exists r, updates seqb set_order incs c = Ok r.
Proof. exact (updates_never_raise seqb set_order t0 times dicts c incs). Qed.
Print Assumptions C73_never_raises_partial.
