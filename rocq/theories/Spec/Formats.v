(** Vocabulary for configuration files in different formats (C121, C122, C123). *)
From Coq Require Import String Ascii List Bool.
From Verif.Base Require Import Num Py.
From Verif.Model Require Import Config Cli Reader.
From Verif.Spec Require Import Sections CommandLine.
Import ListNotations.
Local Open Scope string_scope.
Local Open Scope list_scope.

Section Formats.
  Context {S A : Type} {NA : Num A} (F : formats S A).

  (* the documents of a YAML file that hold the sections ds, one after another:
     a document is a section or a list of sections *)
  Inductive yaml_layout : list (pyval S) -> list (dict S) -> Prop :=
  | yaml_end : yaml_layout [] []
  | yaml_section d docs ds : yaml_layout docs ds -> yaml_layout (PyDict d :: docs) (d :: ds)
  | yaml_list some docs ds : yaml_layout docs ds -> yaml_layout (PyList (map PyDict some) :: docs) (some ++ ds).
  (* a TOML file with the sections ds: the table [sequence], or the array of
     tables [[sequence]] *)
  Inductive toml_layout : dict S -> list (dict S) -> Prop :=
  | toml_table doc d : dget String.eqb doc "sequence" = Some (PyDict d) -> toml_layout doc [d]
  | toml_array doc ds : dget String.eqb doc "sequence" = Some (PyList (map PyDict ds)) -> toml_layout doc ds.
  (* a text in a format that holds the sections ds *)
  Definition holds (fmt text : string) (ds : list (dict S)) : Prop :=
    (fmt = "yaml" /\ exists docs, yaml_load_all F text = Ok docs /\ yaml_layout docs ds)
    \/ (fmt = "toml" /\ exists doc, toml_parse F text = Ok doc /\ toml_layout doc ds).

  (* the time of the section in place i: its _time, or else its place *)
  Definition dated (i : nat) (d : dict S) (t : A) : Prop :=
    match dget String.eqb d "_time" with Some v => time_value F v = Ok t | None => t = nofnat i end.
  Definition without_time (d : dict S) : dict S := filter (fun kv => negb (String.eqb (fst kv) "_time")) d.

  (* the format that is used: the one given, or else what the name ends with *)
  Definition named_format (path : string) (fmt : option string) (f : string) : Prop :=
    fmt = Some f
    \/ (fmt = None /\ exists front base, path = (front ++ base ++ "." ++ f)%string /\ base <> "" /\ lacks "/" base
                        /\ (front = "" \/ exists parent, front = (parent ++ "/")%string)
                        /\ f <> "" /\ lacks "." f /\ lacks "/" f).

  (* a name from which no format can be told *)
  Definition names_no_format (path : string) : Prop :=
    exists front base, path = (front ++ base)%string /\ base <> "" /\ lacks "/" base /\ lacks "." base
                       /\ (front = "" \/ exists parent, front = (parent ++ "/")%string).

  (* the file, whose name tells its format, holds the sections ds *)
  Definition file_holds (files : list (string * string)) (name : string) (ds : list (dict S)) : Prop :=
    exists f text, named_format name None f /\ dget String.eqb files name = Some text /\ holds f text ds.

  (* a tuple anywhere in a value *)
  Fixpoint has_tuple (v : pyval S) : bool :=
    match v with
    | Scalar _ => false
    | PyTuple _ => true
    | PyList l => existsb has_tuple l
    | PyDict d => existsb (fun kv => has_tuple (snd kv)) d
    end.
  (* d' says the same as d; the keys may be in another order *)
  Definition alike (d d' : dict S) : Prop :=
    proper (PyDict d') /\ (forall path, says d' path = says d path) /\ forall k, In k (dkeys d') <-> In k (dkeys d).
  (* PyYAML: a tuple is written with a tag that the safe loader refuses; other
     values are read as they were written *)
  Definition yaml_refuses (e : exn) (d : dict S) : Prop :=
    forall t, yaml_dump F (PyDict d) = Ok t -> yaml_load_all F (t ++ newline)%string = Err e.
  Definition yaml_keeps (d : dict S) : Prop :=
    forall t, yaml_dump F (PyDict d) = Ok t -> exists d', yaml_load_all F (t ++ newline)%string = Ok [PyDict d'] /\ alike d d'.
  (* tomlkit: values are read as they were written, tuples as lists *)
  Definition toml_keeps (d : dict S) : Prop :=
    forall t, toml_dumps F d = Ok t -> exists d', toml_parse F (t ++ newline)%string = Ok d' /\ alike d d'.

  (* the table [sequence] of a TOML file, with a time, the processes and the
     parameters *)
  Definition sequence_table (params : dict S) : dict S :=
    [("sequence", PyDict (("_time", Scalar (zero_value F)) :: ("processes", processes_value F) :: params))].

  (* f, with the text t, is the only configuration file of the folder *)
  Definition only_config (w : @world S) (f t : string) : Prop :=
    NoDup (dkeys (w_files w)) /\ file w f = Some t
    /\ forall f', file w f' <> None -> (exists m, f' = ("sequence" ++ m ++ ".toml")%string \/ f' = ("sequence" ++ m ++ ".yaml")%string) -> f' = f.
End Formats.
