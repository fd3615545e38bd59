(** Configuration files in YAML and TOML (C121), the files that generate prints
    (C122) and a grid from a TOML file (C123). *)
From Coq Require Import String Ascii List Bool QArith Reals.
From Verif.Base Require Import Num Py.
From Verif.Model Require Import Config Cli Commands Reader.
From Verif.Spec Require Import Sections CommandLine Run Formats.
From Verif.Proofs Require Import DotsP FormatsP FormatsEx.
Import ListNotations.
Local Open Scope string_scope.
Local Open Scope list_scope.

(** C121.  Two files that hold the same sections mean the same, whatever their
    names, formats and layouts. *)
Theorem C121_same {S A} {NA : Num A} (F : formats S A) files path fmt f text files' path' fmt' f' text' ds :
  named_format path fmt f -> named_format path' fmt' f' -> dget String.eqb files path = Some text -> dget String.eqb files' path' = Some text' ->
  holds F f text ds -> holds F f' text' ds ->
  load_config_path F files path fmt = load_config_path F files' path' fmt' /\ from_file_path F files path fmt = from_file_path F files' path' fmt'.
Proof. exact (same_file F files path fmt f text files' path' fmt' f' text' ds). Qed.
Print Assumptions C121_same.
(** so do two streams, and two lists of files *)
Theorem C121_stream {S A} {NA : Num A} (F : formats S A) f text f' text' ds :
  holds F f text ds -> holds F f' text' ds -> load_config_stream F text (Some f) = load_config_stream F text' (Some f').
Proof. exact (same_stream F f text f' text' ds). Qed.
Print Assumptions C121_stream.
Theorem C121_files {S A} {NA : Num A} (F : formats S A) files files' names names' times :
  Forall2 (fun n n' => exists ds, file_holds F files n ds /\ file_holds F files' n' ds) names names' ->
  from_files_paths F files names times = from_files_paths F files' names' times.
Proof. exact (same_files F files files' names names' times). Qed.
Print Assumptions C121_files.
(** What a file means: one section is that section; several are at their times,
    or else at their places. *)
Theorem C121_means {S A} {NA : Num A} (F : formats S A) files path fmt f text ds ts :
  named_format path fmt f -> dget String.eqb files path = Some text -> holds F f text ds ->
  length ts = length ds -> (forall i d t, nth_error ds i = Some d -> nth_error ts i = Some t -> dated F i d t) ->
  load_config_path F files path fmt = Ok (match ds with [d] => inr (without_time d) | _ => inl (combine ts (map without_time ds)) end)
  /\ (ds <> [] -> from_file_path F files path fmt = config_init ts (map without_time ds))
  /\ (ds = [] -> from_file_path F files path fmt = Err TypeError).
Proof. exact (file_means F files path fmt f text ds ts). Qed.
Print Assumptions C121_means.
(** Any other format, and a name from which none can be told, is refused
    whatever is in the file. *)
Theorem C121_refused {S A} {NA : Num A} (F : formats S A) files path fmt f text times :
  named_format path fmt f \/ (fmt = None /\ names_no_format path /\ f = "") -> f <> "yaml" -> f <> "toml" ->
  load_config_path F files path fmt = Err ValueError /\ from_file_path F files path fmt = Err ValueError
  /\ load_config_stream F text (Some f) = Err ValueError /\ load_config_stream F text None = Err ValueError
  /\ (fmt = None -> dget String.eqb files path = Some text -> from_files_paths F files [path] times = Err ValueError).
Proof. exact (other_format F files path fmt f text times). Qed.
Print Assumptions C121_refused.
(** A text that its library refuses is refused with that error; a TOML file
    without sequence is a KeyError, and a value where a section belongs an
    AttributeError. *)
Theorem C121_not_config {S A} {NA : Num A} (F : formats S A) files path fmt f text e :
  named_format path fmt f -> dget String.eqb files path = Some text ->
  (f = "yaml" /\ (yaml_load_all F text = Err e \/ exists docs before bad after, yaml_load_all F text = Ok docs
      /\ docs = map PyDict before ++ bad :: after /\ (forall d, In d before -> dget String.eqb d "_time" = None)
      /\ (exists x, (bad = Scalar x \/ bad = PyList [Scalar x]) /\ e = AttributeError)))
  \/ (f = "toml" /\ (toml_parse F text = Err e \/ exists doc, toml_parse F text = Ok doc
      /\ ((dget String.eqb doc "sequence" = None /\ e = KeyError) \/ exists x, dget String.eqb doc "sequence" = Some (Scalar x) /\ e = AttributeError))) ->
  load_config_path F files path fmt = Err e /\ from_file_path F files path fmt = Err e.
Proof. exact (not_config F files path fmt f text e). Qed.
Print Assumptions C121_not_config.
Example C121_not_config_nonvacuous : named_format "x" (Some "toml") "toml" /\ toml_parse ex_lib "nonsense" = Err ValueError.
Proof. exact (conj (or_introl eq_refl) eq_refl). Qed.
(** A run in a folder with one file of a configuration does not depend on the
    format of the file. *)
Theorem C121_run {S A} {NA : Num A} (F : formats S A) (w w' : @world S) m t t' ds :
  lacks "/" m -> only_config w ("sequence" ++ m ++ ".yaml") t -> only_config w' ("sequence" ++ m ++ ".toml") t' ->
  holds F "yaml" t ds -> holds F "toml" t' ds -> run_read (read_sections F) w = run_read (read_sections F) w'.
Proof. exact (same_run F w w' m t t' ds). Qed.
Print Assumptions C121_run.
(* two texts with the same two sections, and names that tell the format *)
Example C121_nonvacuous : (holds ex_lib "yaml" "two" ex_sections /\ holds ex_lib "toml" "two" ex_sections)
  /\ (named_format "runs/case.2.yaml" None "yaml" /\ named_format "notes.txt" (Some "toml") "toml")
  /\ (load_config_path ex_lib [("runs/case.2.yaml", "two")] "runs/case.2.yaml" None
        = Ok (inl [(5%R, [("clock", PyDict [("step", text "1")])]); (nofnat 1, [("clock", PyDict [("step", text "2")])])])
      /\ load_config_path ex_lib [("notes.txt", "two")] "notes.txt" (Some "toml") = load_config_path ex_lib [("runs/case.2.yaml", "two")] "runs/case.2.yaml" None
      /\ load_config_path ex_lib [("notes.txt", "two")] "notes.txt" None = Err ValueError)
  /\ only_config (ex_folder "sequence.yaml" "two") "sequence.yaml" "two".
Proof. exact (conj ex_holds (conj ex_named (conj ex_loaded (ex_only _ _ (or_introl eq_refl))))). Qed.

(** C122.  The configuration that generate prints can be run. *)
Definition C122_statement : Prop :=
  forall (S : Type) (F : formats S R) (parse : string -> result (pyval S)) num yes f os (w w' : @world S) text params w2 e t0,
  f = "sequence.yaml" \/ f = "sequence.toml" -> w_defaults w = default_params F num yes -> load_model_params parse (w_defaults w) os = Ok params ->
  (forall d, has_tuple (PyDict d) = true -> yaml_refuses F e d) -> (has_tuple (PyDict params) = false -> yaml_keeps F params) ->
  time_value F (Scalar (zero_value F)) = Ok t0 -> toml_keeps F (sequence_table F params) ->
  generate F parse f os w = (w', Ok text) -> only_config w2 f text -> exists c, run_read (read_sections F) w2 = Ok c.
Theorem C122_refuted : ~ C122_statement.
Proof. exact generated_yaml_never. Qed.
Print Assumptions C122_refuted.
(* the YAML file is refused whatever options are given: the shape and the
   spacing of the grid are tuples, and options replace at most one of them *)
Theorem C122_yaml_refuted {S A} {NA : Num A} (F : formats S A) parse num yes os (w w' : @world S) text e w2 :
  w_defaults w = default_params F num yes -> Forall (valid_option parse) os ->
  (forall d, has_tuple (PyDict d) = true -> yaml_refuses F e d) ->
  generate F parse "sequence.yaml" (map written os) w = (w', Ok text) -> only_config w2 "sequence.yaml" text ->
  run_read (read_sections F) w2 = Err e.
Proof. exact (generated_yaml_refused F parse num yes os w w' text e w2). Qed.
Print Assumptions C122_yaml_refuted.
(* proved for TOML: the run has every parameter of the defaults and the options,
   and every process *)
Theorem C122_toml_partial {S} (F : formats S R) parse num yes os (w w' : @world S) text params w2 t0 :
  w_defaults w = default_params F num yes -> load_model_params parse (w_defaults w) os = Ok params ->
  time_value F (Scalar (zero_value F)) = Ok t0 -> toml_keeps F (sequence_table F params) ->
  generate F parse "sequence.toml" os w = (w', Ok text) -> only_config w2 "sequence.toml" text ->
  exists c e, run_read (read_sections F) w2 = Ok c /\ as_dict c = Ok e
    /\ (forall path, hd "" path <> "processes" -> leaf_at e path = says params path)
    /\ run_processes F e = as_list (processes_value F).
Proof. exact (default_toml F parse num yes os w w' text params w2 t0). Qed.
Print Assumptions C122_toml_partial.
(* and for YAML if the library reads back what it wrote, as it would if the
   defaults had lists *)
Theorem C122_yaml_partial {S} (F : formats S R) parse os (w w' : @world S) text params w2 :
  load_model_params parse (w_defaults w) os = Ok params -> ~ In "yaml" (dkeys (w_defaults w)) -> ~ In "_time" (dkeys (w_defaults w)) ->
  yaml_keeps F params -> generate F parse "sequence.yaml" os w = (w', Ok text) -> only_config w2 "sequence.yaml" text ->
  exists c e, run_read (read_sections F) w2 = Ok c /\ as_dict c = Ok e /\ (forall path, leaf_at e path = says params path)
    /\ (~ In "processes" (dkeys (w_defaults w)) -> run_processes F e = processes_value F).
Proof. exact (generated_yaml F parse os w w' text params w2). Qed.
Print Assumptions C122_yaml_partial.
(* setup writes, into each of its files, what generate prints *)
Theorem C122_setup_partial {S A} {NA : Num A} (F : formats S A) parse os (w : @world S) f :
  Forall (valid_option parse) os -> Forall (fun gd => exists sub, snd gd = PyDict sub) (w_defaults w) ->
  (forall f', In f' input_files -> file w f' = None) -> In f input_files ->
  match generate F parse f (map written os) w with
  | (_, Ok text) => exists w', setup parse (input_text F) (map written os) w = (w', Ok tt) /\ file w' f = Some text
  | (_, Err e) => exists w', setup parse (input_text F) (map written os) w = (w', Err e)
  end.
Proof. exact (generate_setup F parse os w f). Qed.
Print Assumptions C122_setup_partial.
(* libraries that behave in this way, and defaults for which both files are made *)
Example C122_nonvacuous : w_defaults ex_world = default_params ex_lib ex_num "true"
  /\ (forall d, has_tuple (PyDict d) = true -> yaml_refuses ex_lib ValueError d)
  /\ toml_keeps ex_lib (sequence_table ex_lib ex_defaults)
  /\ (forall f, f = "sequence.yaml" \/ f = "sequence.toml" -> exists text, generate ex_lib parse_text f [] ex_world = (ex_world, Ok text))
  /\ (forall f t, f = "sequence.yaml" \/ f = "sequence.toml" -> only_config (ex_folder f t) f t)
  /\ yaml_keeps ex_lib ex_lists /\ exists t, generate ex_lib parse_text "sequence.yaml" [] (mkWorld [] ex_lists) = (mkWorld [] ex_lists, Ok t).
Proof. exact (conj eq_refl (conj ex_refuses (conj ex_keeps (conj ex_generates (conj ex_only ex_lists_kept))))). Qed.

(** C123.  The grid of a TOML file is the one of the (first) section of the
    file. *)
Definition C123_statement : Prop :=
  forall (S : Type) (F : formats S R) (G : Type) (from_dict : pyval S -> result G) text d ds params g,
  holds F "toml" text (d :: ds) -> dget String.eqb d "grid" = Some params -> from_dict params = Ok g -> grid_from_toml F from_dict text = Ok g.
Theorem C123_refuted : ~ C123_statement.
Proof. exact from_toml_refuted. Qed.
Print Assumptions C123_refuted.
(* a file whose sections are an array of tables, which dump writes, is never
   read *)
Theorem C123_array_refuted {S A G} {NA : Num A} (F : formats S A) (from_dict : pyval S -> result G) text doc ds :
  toml_parse F text = Ok doc -> dget String.eqb doc "sequence" = Some (PyList ds) -> grid_from_toml F from_dict text = Err TypeError.
Proof. exact (toml_grid_array F from_dict text doc ds). Qed.
Print Assumptions C123_array_refuted.
(* proved for one table *)
Theorem C123_partial {S A G} {NA : Num A} (F : formats S A) (from_dict : pyval S -> result G) text doc d params :
  toml_parse F text = Ok doc -> dget String.eqb doc "sequence" = Some (PyDict d) -> dget String.eqb d "grid" = Some params ->
  grid_from_toml F from_dict text = from_dict params.
Proof. exact (toml_grid F from_dict text doc d params). Qed.
Print Assumptions C123_partial.
Example C123_nonvacuous : grid_from_toml ex_lib (fun v => Ok v) ("defaults" ++ newline)
  = Ok (PyDict [("shape", PyList [text "1"; text "more"]); ("spacing", PyList [text "1"; text "more"])]).
Proof. exact eq_refl. Qed.
