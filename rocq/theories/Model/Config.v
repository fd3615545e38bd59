(** sequence/input_reader.py: flattening dictionaries and TimeVaryingConfig.

    A configuration value is a scalar of any type [S], a list, a tuple or a
    dictionary with string keys; two scalars are equal in Python (==) when
    they are the same element of [S].  Text formats (tomlkit, yaml) are not
    modelled: a file is the list of its sections after parsing. *)
From Coq Require Import String List Bool ZArith.
From Verif.Base Require Import Num Py.
From Verif.Model Require Import Shoreline.
Import ListNotations.
Local Open Scope string_scope.
Local Open Scope list_scope.

Inductive pyval (S : Type) : Type :=
| Scalar (s : S)
| PyList (l : list (pyval S))
| PyTuple (l : list (pyval S))
| PyDict (d : list (string * pyval S)).
Arguments Scalar {S}. Arguments PyList {S}. Arguments PyTuple {S}. Arguments PyDict {S}.

Section Config.
  Context {S : Type} (seqb : S -> S -> bool).

  Definition dict : Type := list (string * pyval S).
  (* a flat dictionary: tuples of keys to values *)
  Definition flat : Type := list (list string * pyval S).
  Fixpoint path_eqb (a b : list string) : bool :=
    match a, b with
    | [], [] => true
    | x :: a, y :: b => String.eqb x y && path_eqb a b
    | _, _ => false
    end.

  (* hash(v) succeeds *)
  Fixpoint hashable (v : pyval S) : bool :=
    match v with
    | Scalar _ => true
    | PyTuple l => forallb hashable l
    | PyList _ | PyDict _ => false
    end.
  (* v == w; only hashable values are compared *)
  Fixpoint pyeqb (v w : pyval S) : bool :=
    match v, w with
    | Scalar a, Scalar b => seqb a b
    | PyTuple l, PyTuple m =>
        (fix go l m := match l, m with
                       | [], [] => true
                       | a :: l, b :: m => pyeqb a b && go l m
                       | _, _ => false
                       end) l m
    | _, _ => false
    end.

  (* sequence/input_reader.py:420-460 _walk_dict *)
  Fixpoint walk_value (prev : list string) (v : pyval S) : flat :=
    match v with
    | PyDict d => flat_map (fun kv => walk_value (prev ++ [fst kv]) (snd kv)) d
    | v => [(prev, v)]
    end.
  Definition walk_dict (d : dict) : flat := walk_value [] (PyDict d).

  (* sequence/input_reader.py:365-396 _flatten_dict with sep=None *)
  Definition flatten_dict (d : dict) : flat := dupdate path_eqb [] (walk_dict d).

  (* sequence/input_reader.py:399-410 _add_flattened_item.  Descending into a
     value that is not a dictionary raises TypeError, whatever its type; an
     empty tuple of keys raises IndexError *)
  Definition as_list (v : pyval S) : pyval S := match v with PyTuple l => PyList l | v => v end.
  Fixpoint add_item (keys : list string) (v : pyval S) (d : dict) : result dict :=
    match keys with
    | [] => Err IndexError
    | [name] => Ok (dset String.eqb d name (as_list v))
    | k :: parent =>
        match dget String.eqb d k with
        | None => let* sub := add_item parent v [] in Ok (dset String.eqb d k (PyDict sub))
        | Some (PyDict sub) => let* sub := add_item parent v sub in Ok (dset String.eqb d k (PyDict sub))
        | Some _ => Err TypeError
        end
    end.

  (* sequence/input_reader.py:413-417 _expand_dict *)
  Definition expand_dict (m : flat) : result dict := foldM (fun d kv => add_item (fst kv) (snd kv) d) m [].

  Section TimeVarying.
  Context {A : Type} {num : Num A}.
  (* the order in which Python lists the items of a set *)
  Variable set_order : flat -> flat.

  Record config : Type := mkConfig { tv_times : list A; tv_dicts : list flat; tv_time : A; tv_current : flat }.

  (* sequence/input_reader.py:85-90 lists become tuples *)
  Definition as_tuple (v : pyval S) : pyval S := match v with PyList l => PyTuple l | v => v end.
  (* sequence/input_reader.py:62-92 __init__ *)
  Definition config_init (times : list A) (dicts : list dict) : result config :=
    let ds := map (fun d => map (fun kv => (fst kv, as_tuple (snd kv))) (flatten_dict d)) dicts in
    match ds with
    | [] => Err IndexError
    | d :: _ => Ok (mkConfig times ds n0 d)
    end.

  (* sequence/input_reader.py:98-100 as_dict *)
  Definition as_dict (c : config) : result dict := expand_dict (tv_current c).

  (* sequence/input_reader.py:120-121 _bisect_times; np.searchsorted with
     side="right" is the bisection of Python's bisect_right *)
  Definition bisect_times (c : config) (time : A) : nat := bisect_right (tv_times c) time.

  (* sequence/input_reader.py:102-118 __call__ *)
  Definition config_at (c : config) (time : A) : flat :=
    fold_left (fun d next => dupdate path_eqb d next) (firstn (bisect_times c time) (tv_dicts c)) [].

  (* sequence/input_reader.py:123-142 diff *)
  Definition diff (c : config) (start stop : A) : result flat :=
    let start_params := config_at c start in
    let stop_params := config_at c stop in
    if negb (forallb (fun kv => hashable (snd kv)) stop_params && forallb (fun kv => hashable (snd kv)) start_params)
    then Err TypeError
    else
      let items := filter (fun kv => negb (existsb (fun kv' => path_eqb (fst kv) (fst kv') && pyeqb (snd kv) (snd kv'))
                                             start_params)) stop_params in
      Ok (set_order items).

  (* sequence/input_reader.py:144-170 update *)
  Definition update (inc : A) (c : config) : result (dict * config) :=
    let next_time := nadd (tv_time c) inc in
    let prev := bisect_times c (tv_time c) in
    let next := bisect_times c next_time in
    if Nat.ltb prev next then
      let current := config_at c next_time in
      let* items := diff c (tv_time c) next_time in
      let* d := expand_dict items in
      Ok (d, mkConfig (tv_times c) (tv_dicts c) next_time current)
    else Ok ([], mkConfig (tv_times c) (tv_dicts c) next_time (tv_current c)).

  (* sequence/input_reader.py:172-190 dump: the sections, each with its time,
     before they are written as text *)
  Definition dump (c : config) : result (list (option A * dict)) :=
    match tv_dicts c with
    | [] => Err IndexError
    | d0 :: _ =>
        let* first := expand_dict d0 in
        let* rest := mapM (fun pn => let* items := diff c (fst pn) (snd pn) in expand_dict items)
                       (combine (removelast (tv_times c)) (tl (tv_times c))) in
        Ok (match tv_times c with
            | [] => [(None, first)]
            | times => combine (map Some times) (first :: rest)
            end)
    end.

  (* sequence/input_reader.py:266 and 320: the sections of a file, with _time
     (if there is one) taken out, and their times *)
  Definition load_sections (sections : list (option A * dict)) : list (A * dict) :=
    map (fun ts => (match fst (snd ts) with Some t => t | None => nofnat (fst ts) end, snd (snd ts)))
      (combine (seq 0 (length sections)) sections).

  (* sequence/input_reader.py:199-220 from_files, once the files are read *)
  Definition from_files (files : list (list (option A * dict))) (times : option (list A)) : result config :=
    let dicts := flat_map (fun f => map snd (load_sections f)) files in
    config_init (match times with Some ts => ts | None => map nofnat (seq 0 (length dicts)) end) dicts.

  (* sequence/input_reader.py:223-243 from_file, once the file is read; an
     empty file gives no arguments: TypeError *)
  Definition from_file (sections : list (option A * dict)) : result config :=
    match sections with
    | [] => Err TypeError
    | _ => let loaded := load_sections sections in config_init (map fst loaded) (map snd loaded)
    end.

  (* sequence/input_reader.py:22-56 load_config, once the file is read: a
     single section is returned by itself *)
  Definition load_config (sections : list (option A * dict)) : list (A * dict) + dict :=
    match load_sections sections with
    | [(_, d)] => inr d
    | l => inl l
    end.

  (* a list of calls of update: what they returned and the state they leave *)
  Fixpoint updates (incs : list A) (c : config) : result (list dict * config) :=
    match incs with
    | [] => Ok ([], c)
    | inc :: incs => let* (d, c) := update inc c in let* (ds, c) := updates incs c in Ok (d :: ds, c)
    end.
  End TimeVarying.
End Config.
Arguments dict : clear implicits. Arguments flat : clear implicits.
Arguments config : clear implicits.
