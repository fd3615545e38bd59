(** sequence/cli.py: the commands.

    Names and option strings are ASCII strings.  A parameter value is a
    [pyval S]; yaml.safe_load is [parse], str() is [show], and the text
    written for a parameter file is [render]: all three arbitrary.  What is
    printed and logged is not modelled. *)
From Coq Require Import String Ascii List Bool Arith.
From Verif.Base Require Import Num Py.
From Verif.Model Require Import Config.
Import ListNotations.
Local Open Scope string_scope.
Local Open Scope list_scope.

(** ** Python's str.split and sorted *)

(* s.split(c) *)
Fixpoint split_on (c : ascii) (s : string) : list string :=
  match s with
  | EmptyString => [EmptyString]
  | String a s => if Ascii.eqb a c then EmptyString :: split_on c s
                  else match split_on c s with
                       | p :: ps => String a p :: ps
                       | [] => [String a EmptyString]
                       end
  end.

Section Sorting.
  Context {X : Type} (leb : X -> X -> bool).
  (* sorted(l): any stable sort gives this list *)
  Fixpoint insert (x : X) (l : list X) : list X :=
    match l with
    | [] => [x]
    | y :: l => if leb x y then x :: y :: l else y :: insert x l
    end.
  Definition sorted_list (l : list X) : list X := fold_right insert [] l.
End Sorting.

(* comparison of (time, name) tuples *)
Definition pair_leb (a b : nat * string) : bool :=
  if Nat.ltb (fst a) (fst b) then true else if Nat.ltb (fst b) (fst a) then false else String.leb (snd a) (snd b).

(** ** Configuration files *)

Definition is_digit (a : ascii) : bool := Nat.leb 48 (nat_of_ascii a) && Nat.leb (nat_of_ascii a) 57.
Fixpoint take_digits (acc : nat) (s : string) : nat :=
  match s with
  | EmptyString => acc
  | String a s => if is_digit a then take_digits (10 * acc + (nat_of_ascii a - 48)) s else acc
  end.

(* sequence/cli.py:133-161 _time_from_filename, of a name without a folder:
   the first of the runs of digits that re.split finds *)
Fixpoint time_from_filename (name : string) : option nat :=
  match name with
  | EmptyString => None
  | String a s => if is_digit a then Some (take_digits 0 name) else time_from_filename s
  end.

(* sequence/cli.py:164-196 _find_config_files, with the files that the two
   globs find, in any order.  The names are in one folder, so that paths
   compare as names. *)
Definition find_config_files (toml_files yaml_files : list string) : list nat * list string :=
  let config_files := sorted_list String.leb (match toml_files with [] => yaml_files | _ => toml_files end) in
  let times := map (fun ic => match time_from_filename (snd ic) with Some t => t | None => fst ic end)
                 (combine (seq 0 (length config_files)) config_files) in
  let names := map snd (sorted_list pair_leb (combine times config_files)) in
  (sorted_list Nat.leb times, names).

Section Cli.
  Context {S : Type}.
  Notation dict := (dict S).

  (** ** Parameters from the command line *)
  Section Options.
  Context (parse : string -> result (pyval S)) (show : pyval S -> string).

  (* sequence/cli.py:440-448 _dots_to_dict; name.split(".") is never empty *)
  Fixpoint nest (names : list string) (value : pyval S) : dict :=
    match names with
    | [] => []
    | [k] => [(k, value)]
    | k :: names => [(k, PyDict (nest names value))]
    end.
  Definition dots_to_dict (name : string) (value : pyval S) : dict := nest (split_on "." name) value.

  (* sequence/cli.py:430-437 _load_params_from_strings *)
  Definition load_params_from_strings (values : list string) : result dict :=
    foldM (fun params param =>
             match split_on "=" param with
             | [dotted_name; value] =>
                 let* v := parse value in
                 Ok (dupdate String.eqb params (dots_to_dict dotted_name v))
             | _ => Err ValueError
             end) values [].

  (* sequence/cli.py:475-487 _walk_dict, of a dictionary: the names and then
     the value *)
  Fixpoint walk_dots (prev : list string) (v : pyval S) : list (list string * pyval S) :=
    match v with
    | PyDict d => (fix go (d : list (string * pyval S)) : list (list string * pyval S) :=
                     match d with
                     | [] => []
                     | (key, value) :: d =>
                         match value with
                         | PyDict _ => walk_dots (key :: prev) value
                         | _ => [(prev ++ [key], value)]
                         end ++ go d
                     end) d
    | _ => []
    end.
  (* sequence/cli.py:451-455 _dict_to_dots *)
  Definition dict_to_dots (d : dict) : list string :=
    map (fun nv => String.concat "." (fst nv) ++ "=" ++ show (snd nv))%string (walk_dots [] (PyDict d)).

  (* d.update(v): v must be a dictionary.  Simplified: Python also accepts a
     list of pairs. *)
  Definition update_with (d : pyval S) (v : pyval S) : result (pyval S) :=
    match d, v with
    | PyDict d, PyDict e => Ok (PyDict (dupdate String.eqb d e))
    | PyDict _, _ => Err TypeError
    | _, _ => Err AttributeError
    end.
  (* sequence/cli.py:458-472 _load_model_params, without a parameter file
     (no command gives one).  The defaults are updated in place: the result
     is also their new value. *)
  Definition load_model_params (defaults : dict) (dotted_params : list string) : result dict :=
    let* from_cl := load_params_from_strings dotted_params in
    mapM (fun gd => let* d := update_with (snd gd) (match dget String.eqb from_cl (fst gd) with
                                                     | Some v => v
                                                     | None => PyDict []
                                                     end) in
                    Ok (fst gd, d)) defaults.

  (** ** sequence setup *)

  (* the files of the folder, by name *)
  Definition folder : Type := list (string * string).
  Definition setup_files : list string := ["bathymetry.csv"; "sequence.toml"; "sealevel.csv"; "subsidence.csv"].

  Record world : Type := mkWorld { w_files : folder; w_defaults : dict }.

  (* sequence/cli.py:86-130 _contents_of_input_file; writing the parameters
     as text ([render]) can fail too.  A failure while the groups of the
     defaults are updated leaves them partly updated; here they are left as
     they were. *)
  Definition contents_of_input_file (render : string -> dict -> result string) (w : world) (infile : string) (set : list string)
    : world * result string :=
    match load_model_params (w_defaults w) set with
    | Ok params => (mkWorld (w_files w) params, render infile params)
    | Err e => (w, Err e)
    end.

  Definition newline : string := String (ascii_of_nat 10) EmptyString.
  Definition set_file (w : world) (name contents : string) : world :=
    mkWorld (dset String.eqb (w_files w) name contents) (w_defaults w).

  (* sequence/cli.py:377-380: open the file for writing, which makes it
     empty, then work out what goes into it *)
  Fixpoint write_files (render : string -> dict -> result string) (files : list string) (set : list string) (w : world)
    : world * result unit :=
    match files with
    | [] => (w, Ok tt)
    | f :: files =>
        let w := set_file w f "" in
        match contents_of_input_file render w f set with
        | (w, Ok text) => write_files render files set (set_file w f (text ++ newline)%string)
        | (w, Err e) => (w, Err e)
        end
    end.

  (* sequence/cli.py:355-383 setup *)
  Definition setup (render : string -> dict -> result string) (set : list string) (w : world) : world * result unit :=
    if existsb (fun f => din String.eqb (w_files w) f) setup_files
    then (w, Err ClickAbort)
    else write_files render setup_files set w.
  End Options.

  (** ** sequence run *)
  Section Run.
  Context {A : Type} {NA : Num A} (seqb : S -> S -> bool) (set_order : flat S -> flat S).

  (* sequence/sequence_model.py:286-297 set_params, with the dictionary that
     update returns *)
  Definition set_params {P} (setattr : P -> string -> pyval S -> result P) (components : list (string * P)) (params : dict)
    : result (list (string * P)) :=
    foldM (fun cs nv =>
             match dget String.eqb cs (fst nv) with
             | None => Err KeyError
             | Some c =>
                 match snd nv with
                 | PyDict values =>
                     let* c := foldM (fun c kv => setattr c (fst kv) (snd kv)) values c in
                     Ok (dset String.eqb cs (fst nv) c)
                 | _ => Err AttributeError
                 end
             end) params components.

  (* sequence/cli.py:258-267: the configuration that the run starts with.
     The files are what _find_config_files found, each already read. *)
  Definition run_config (times : list nat) (files : list (list (option A * dict))) : result (config S A) :=
    match times with
    | [] => Err ClickAbort
    | _ => from_files files (Some (map nofnat times))
    end.

  (* sequence/cli.py:307-311: [n] rounds of the loop; [step] is
     run_one_step of the model and [setp] its set_params.  The loop goes on
     until [step] raises. *)
  Fixpoint run_loop {M} (step : M -> result M) (setp : M -> dict -> result M) (n : nat) (mc : M * config S A)
    : result (M * config S A) :=
    match n with
    | O => Ok mc
    | Datatypes.S n =>
        let* m := step (fst mc) in
        let* dc := update seqb set_order n1 (snd mc) in
        let* m := setp m (fst dc) in
        run_loop step setp n (m, snd dc)
    end.
  End Run.
End Cli.
