(** sequence/cli.py: the run command as a whole and the settings of the plot
    command.  What is printed, logged and timed is not modelled. *)
From Coq Require Import String Ascii List Bool Arith QArith.
From Verif.Base Require Import Num Py Arr.
From Verif.Model Require Import Config Cli Layers Grid Sequence SequenceModel.
Import ListNotations.
Local Open Scope string_scope.
Local Open Scope list_scope.

Section Run.
  Context {S A W : Type} {NA : Num A} (seqb : S -> S -> bool) (set_order : flat S -> flat S).
  (* set_params of the model, which acts on the states of the components *)
  Context (pr : processes A W) (setp : W -> dict S -> result W).

  (* sequence/cli.py:301-305: int(stop // step); the number is only shown *)
  Definition progress_total (c : clock A) : result unit :=
    match ck_stop c with
    | None => Err TypeError
    | Some _ => if neqb (ck_step c) n0 then Err ZeroDivisionError else Ok tt
    end.

  Definition with_world (m : smodel A W) (w : W) : smodel A W := mkModel w (sm_grid m) (sm_clock m) (sm_archived m).

  (* sequence/cli.py:307-311: the loop, which the StopIteration of the clock
     ends.  (One raised by a component would end it too: here it is an error
     like the others.)  None is running out of fuel. *)
  Fixpoint run_until_stop (fuel : nat) (m : smodel A W) (c : config S A) : option (result (smodel A W * config S A)) :=
    match fuel with
    | O => None
    | Datatypes.S fuel =>
        match run_one_step pr None m with
        | ClockStop m => Some (Ok (m, c))
        | Raised e => Some (Err e)
        | Stepped m =>
            match (let* (d, c) := update seqb set_order n1 c in let* w := setp (sm_world m) d in Ok (w, c)) with
            | Ok (w, c) => run_until_stop fuel (with_world m w) c
            | Err e => Some (Err e)
            end
        end
    end.

  (* sequence/cli.py:300-311, with the model and the configuration made *)
  Definition run_command (fuel : nat) (m : smodel A W) (c : config S A) : option (result (smodel A W * config S A)) :=
    match progress_total (sm_clock m) with
    | Err e => Some (Err e)
    | Ok _ => run_until_stop fuel m c
    end.
End Run.

Section Folder.
  Context {S A : Type} {NA : Num A}.

  (* what follows a prefix; a name that ends with a suffix *)
  Fixpoint after_prefix (p s : string) : option string :=
    match p, s with
    | EmptyString, _ => Some s
    | String a p, String b s => if Ascii.eqb a b then after_prefix p s else None
    | _, EmptyString => None
    end.
  Fixpoint ends_with (suffix s : string) : bool :=
    String.eqb s suffix || match s with EmptyString => false | String _ s => ends_with suffix s end.
  (* sequence/cli.py:179-180: pathname.glob("sequence*.toml") and
     glob("sequence*.yaml") on the name of a file *)
  Definition in_glob (suffix name : string) : bool :=
    match after_prefix "sequence" name with Some rest => ends_with suffix rest | None => false end.

  (* sequence/cli.py:258-267: find the configuration files of the folder and
     read them; [read name text] parses the text of a file *)
  Definition run_read (read : string -> string -> result (list (option A * dict S))) (w : @world S) : result (config S A) :=
    let names := dkeys (w_files w) in
    let (times, found) := find_config_files (filter (in_glob ".toml") names) (filter (in_glob ".yaml") names) in
    match times with
    | [] => Err ClickAbort
    | _ =>
        let* files := mapM (fun name => match dget String.eqb (w_files w) name with
                                        | Some text => read name text
                                        | None => Err FileError
                                        end) found in
        run_config times files
    end.

  (* sequence/cli.py:46-57 PLOT_KEYWORDS: the keywords of plot_layers with their
     defaults, sequence/plot.py:25-37 *)
  Definition plot_keywords (str : string -> S) (num : Q -> S) : dict S :=
    let rgb r g b := PyTuple [Scalar (num r); Scalar (num g); Scalar (num b)] in
    [("color_water", rgb (8 # 10) 1 1); ("color_land", rgb (8 # 10) 1 (8 # 10)); ("color_shoreface", rgb (8 # 10) (8 # 10) 0);
     ("color_shelf", rgb (75 # 100) (1 # 2) (1 # 2)); ("layer_line_width", Scalar (num (1 # 2))); ("layer_line_color", Scalar (str "k"));
     ("layer_start", Scalar (num 0)); ("layer_stop", Scalar (num (-1))); ("n_layers", Scalar (num 5)); ("title", Scalar (str ""));
     ("x_label", Scalar (str "Distance (m)")); ("y_label", Scalar (str "Elevation (m)")); ("legend_location", Scalar (str "lower left"))]%Q.

  (* sequence/cli.py:402-411: the settings of the plot: [defaults] is
     PLOT_KEYWORDS and [toml] the sections of sequence.toml, if there is one.
     A plot entry that is not a section is a TypeError here; Python also takes
     a list of pairs. *)
  Definition plot_config (parse : string -> result (pyval S)) (defaults : dict S) (toml : option (list (option A * dict S)))
      (set : list string) : result (dict S) :=
    let* config := match toml with
                   | None => Ok defaults
                   | Some sections =>
                       let* c := from_file sections in
                       let* d := as_dict c in
                       match dget String.eqb d "plot" with
                       | None => Ok defaults
                       | Some (PyDict p) => Ok (dupdate String.eqb defaults p)
                       | Some _ => Err TypeError
                       end
                   end in
    let* options := load_params_from_strings parse set in
    Ok (dupdate String.eqb config options).

  (* sequence/plot.py:244: kwds.setdefault("title", f"{filename}") *)
  Definition plot_title (config : dict S) (filename : pyval S) : pyval S :=
    match dget String.eqb config "title" with Some t => t | None => filename end.
End Folder.
