(** Configuration files as text: the choice of a reader, reading YAML and TOML,
    and the `generate` command.

    The parsers and writers of the two languages are arbitrary functions
    ([formats]); what is modelled is what the program does with the values
    that they give.  The error that a library reports is also arbitrary. *)
From Coq Require Import String Ascii List Bool Arith QArith.
From Verif.Base Require Import Num Py.
From Verif.Model Require Import Config Cli Csv.
Import ListNotations.
Local Open Scope string_scope.
Local Open Scope list_scope.

Record formats (S A : Type) : Type := mkFormats {
  yaml_load_all : string -> result (list (pyval S));  (* list(yaml.safe_load_all(text)) *)
  yaml_dump : pyval S -> result string;               (* yaml.dump(v, default_flow_style=False) *)
  toml_parse : string -> result (dict S);             (* tomlkit.parse(text), as plain values *)
  toml_dumps : dict S -> result string;               (* tomlkit.dumps(d) *)
  time_value : pyval S -> result A;                   (* the number that is given as _time *)
  text_value : string -> S;                           (* a string and 0.0, as values *)
  zero_value : S
}.
Arguments yaml_load_all {S A}. Arguments yaml_dump {S A}. Arguments toml_parse {S A}. Arguments toml_dumps {S A}.
Arguments time_value {S A}. Arguments text_value {S A}. Arguments zero_value {S A}.

(** ** Formats *)

(* pathlib.Path(path).name: the last part of the path; empty parts and "." do
   not count *)
Definition base_name (path : string) : string :=
  last (filter (fun p => negb (String.eqb p "" || String.eqb p ".")) (split_on "/" path)) "".
(* what follows the last dot *)
Fixpoint after_dot (s : string) : option string :=
  match s with
  | EmptyString => None
  | String a s => match after_dot s with
                  | Some rest => Some rest
                  | None => if Ascii.eqb a "." then Some s else None
                  end
  end.
(* pathlib.Path(path).suffix[1:]: a dot at the start of the name is part of the
   name *)
Definition format_of (path : string) : string :=
  match base_name path with
  | EmptyString => ""
  | String _ s => match after_dot s with Some rest => rest | None => "" end
  end.

Section Reader.
  Context {S A : Type} {NA : Num A} (F : formats S A).

  (* sequence/input_reader.py:266 and 320: d.pop("_time", idx).  Simplified: a
     _time that is not a number is an error here; in Python only when it is
     compared with another time. *)
  Definition take_time (v : pyval S) : result (option A * dict S) :=
    match v with
    | PyDict d =>
        match dget String.eqb d "_time" with
        | None => Ok (None, d)
        | Some t => let* time := time_value F t in
                    Ok (Some time, filter (fun kv => negb (String.eqb (fst kv) "_time")) d)
        end
    | PyList _ => Err TypeError
    | Scalar _ | PyTuple _ => Err AttributeError
    end.

  (* sequence/input_reader.py:245-266 load_yaml *)
  Definition load_yaml (text : string) : result (list (option A * dict S)) :=
    let* docs := yaml_load_all F text in
    mapM take_time (flat_map (fun d => match d with PyList l => l | v => [v] end) docs).

  (* sequence/input_reader.py:268-320 load_toml; _tomlkit_to_popo is part of
     [toml_parse] *)
  Definition load_toml (text : string) : result (list (option A * dict S)) :=
    let* doc := toml_parse F text in
    match dget String.eqb doc "sequence" with
    | None => Err KeyError
    | Some (PyList l) => mapM take_time l
    | Some v => mapM take_time [v]
    end.

  (* sequence/input_reader.py:322-347 get_loader *)
  Definition get_loader (fmt : string) : result (string -> result (list (option A * dict S))) :=
    if String.eqb fmt "toml" then Ok load_toml
    else if String.eqb fmt "yaml" then Ok load_yaml
    else Err ValueError.

  (* open(path).read() *)
  Definition open_text (files : folder) (path : string) : result string :=
    match dget String.eqb files path with Some text => Ok text | None => Err FileError end.

  (* sequence/input_reader.py:22-56 load_config, of a path and of a stream *)
  Definition load_config_path (files : folder) (path : string) (fmt : option string) : result (list (A * dict S) + dict S) :=
    let* loader := get_loader (match fmt with Some f => f | None => format_of path end) in
    let* text := open_text files path in
    let* sections := loader text in
    Ok (load_config sections).
  Definition load_config_stream (text : string) (fmt : option string) : result (list (A * dict S) + dict S) :=
    match fmt with
    | None => Err ValueError
    | Some f => let* loader := get_loader f in
                let* sections := loader text in
                Ok (load_config sections)
    end.

  (* sequence/input_reader.py:222-243 from_file *)
  Definition from_file_path (files : folder) (path : string) (fmt : option string) : result (config S A) :=
    let* loader := get_loader (match fmt with Some f => f | None => format_of path end) in
    let* text := open_text files path in
    let* sections := loader text in
    from_file sections.

  (* sequence/input_reader.py:214-217: the file is opened before its loader is
     looked for *)
  Definition read_sections (name text : string) : result (list (option A * dict S)) :=
    let* loader := get_loader (format_of name) in loader text.
  (* sequence/input_reader.py:198-220 from_files *)
  Definition from_files_paths (files : folder) (names : list string) (times : option (list A)) : result (config S A) :=
    let* read := mapM (fun name => let* text := open_text files name in read_sections name text) names in
    from_files read times.

  (** ** Input files *)

  (* sequence/sequence_model.py:37-44 ALL_PROCESSES, a tuple *)
  Definition all_processes : list string :=
    ["sea_level"; "subsidence"; "compaction"; "submarine_diffusion"; "fluvial"; "flexure"].
  Definition processes_value : pyval S := PyTuple (map (fun p => Scalar (text_value F p)) all_processes).

  (* sequence/sequence_model.py:46-90 DEFAULT_PARAMS *)
  Definition default_params (num : Q -> S) (true_value : S) : dict S :=
    let n q := Scalar (num q) in
    let s t := Scalar (text_value F t) in
    [("grid", PyDict [("shape", PyTuple [n 1; n 100]); ("spacing", PyTuple [n 1; n 1000])]);
     ("clock", PyDict [("start", n 0); ("stop", n 600000); ("step", n 100)]);
     ("output", PyDict [("interval", n 10); ("filepath", s "sequence.nc"); ("clobber", Scalar true_value);
                        ("fields", PyList [s "sediment_deposit__thickness"; s "bedrock_surface__elevation"])]);
     ("submarine_diffusion", PyDict [("plain_slope", n (8 # 10000)); ("wave_base", n 60); ("shoreface_height", n 15);
                                     ("alpha", n (5 # 10000)); ("shelf_slope", n (1 # 1000)); ("sediment_load", n 3);
                                     ("load_sealevel", n 0); ("basin_width", n 500000)]);
     ("sea_level", PyDict [("amplitude", n 10); ("wave_length", n 200000); ("phase", n 0); ("linear", n 0)]);
     ("subsidence", PyDict [("filepath", s "subsidence.csv")]);
     ("flexure", PyDict [("method", s "flexure"); ("rho_mantle", n 3300); ("isostasytime", n 0)]);
     ("sediments", PyDict [("layers", n 2); ("sand", n 1); ("mud", n (6 # 1000)); ("sand_density", n 2650); ("mud_density", n 2720);
                           ("sand_frac", n (1 # 2)); ("hemipelagic", n 0)]);
     ("bathymetry", PyDict [("filepath", s "bathymetry.csv"); ("kind", s "linear")]);
     ("compaction", PyDict [("c", n (5 # 100000000)); ("porosity_max", n (1 # 2)); ("porosity_min", n (1 # 100));
                            ("rho_grain", n 2650); ("rho_void", n 1000)])]%Q.

  (* sequence/cli.py:97-130: the texts are all made before one is chosen *)
  Definition input_text (infile : string) (params : dict S) : result string :=
    let* y := yaml_dump F (PyDict params) in
    let* t := toml_dumps F [("sequence", PyDict (dupdate String.eqb [("_time", Scalar (zero_value F)); ("processes", processes_value)] params))] in
    let contents := [("sequence.yaml", y); ("sequence.toml", t); ("bathymetry.csv", example_bathymetry);
                     ("sealevel.csv", example_sealevel); ("subsidence.csv", example_subsidence)] in
    let* sections := mapM (fun gd => let* text := yaml_dump F (snd gd) in Ok ("sequence." ++ fst gd, text)%string) params in
    match dget String.eqb (dupdate String.eqb contents sections) infile with
    | Some text => Ok text
    | None => Err KeyError
    end.

  (* sequence/cli.py:346-350 generate: what is printed *)
  Definition generate (parse : string -> result (pyval S)) (infile : string) (set : list string) (w : @world S)
    : @world S * result string :=
    match contents_of_input_file parse input_text w infile set with
    | (w, Ok text) => (w, Ok (text ++ newline)%string)
    | (w, Err e) => (w, Err e)
    end.

  (* sequence/cli.py:272: the processes of a run *)
  Definition run_processes (params : dict S) : pyval S :=
    match dget String.eqb params "processes" with Some v => v | None => processes_value end.

  (* sequence/grid.py:123-133 from_toml: tomllib.load(fp)["sequence"]["grid"];
     [from_dict] makes the grid *)
  Definition grid_from_toml {G} (from_dict : pyval S -> result G) (text : string) : result G :=
    let* doc := toml_parse F text in
    match dget String.eqb doc "sequence" with
    | None => Err KeyError
    | Some (PyDict d) => match dget String.eqb d "grid" with Some params => from_dict params | None => Err KeyError end
    | Some _ => Err TypeError
    end.
End Reader.
