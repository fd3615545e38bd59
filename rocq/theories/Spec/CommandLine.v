(** Vocabulary for file names, options and folders. *)
From Coq Require Import String Ascii List Bool Arith.
From Verif.Base Require Import Py.
From Verif.Model Require Import Config Cli.
From Verif.Model Require Processes.
From Verif.Spec Require Import Sections Parameters.
Import ListNotations.
Local Open Scope string_scope.
Local Open Scope list_scope.

Definition digit_value (a : ascii) : option nat :=
  match a with
  | "0" => Some 0 | "1" => Some 1 | "2" => Some 2 | "3" => Some 3 | "4" => Some 4
  | "5" => Some 5 | "6" => Some 6 | "7" => Some 7 | "8" => Some 8 | "9" => Some 9
  | _ => None
  end%char.

(* what decimal digits say *)
Inductive decimal : string -> nat -> Prop :=
| decimal_none : decimal "" 0
| decimal_snoc s n a d : decimal s n -> digit_value a = Some d -> decimal (s ++ String a "") (10 * n + d).

Definition without_digits (s : string) : Prop := Forall (fun a => digit_value a = None) (list_ascii_of_string s).
Definition starts_with_digit (s : string) : Prop :=
  match s with "" => False | String a _ => digit_value a <> None end.

(* the first number in a name *)
Definition first_number (name : string) (n : nat) : Prop :=
  exists before digits after, name = (before ++ digits ++ after)%string /\ without_digits before
    /\ digits <> "" /\ decimal digits n /\ ~ starts_with_digit after.

(* the place of a name in alphabetical order, counted from 0 *)
Definition position (files : list string) (name : string) : nat := length (filter (fun f => String.ltb f name) files).

(* the time of a file: the number in its name or else its position *)
Definition time_of_file (files : list string) (name : string) (t : nat) : Prop :=
  first_number name t \/ (without_digits name /\ t = position files name).

Definition lacks (c : ascii) (s : string) : Prop := ~ In c (list_ascii_of_string s).

Section Options.
  Context {S : Type}.
  (* an option: the names, the text of the value and the value *)
  Record option_string : Type := mkOption { op_names : list string; op_text : string; op_value : pyval S }.
  (* name.name=text *)
  Definition written (o : option_string) : string := (String.concat "." (op_names o) ++ "=" ++ op_text o)%string.
  Definition valid_option (parse : string -> result (pyval S)) (o : option_string) : Prop :=
    2 <= length (op_names o) /\ Forall (fun n => lacks "." n /\ lacks "=" n) (op_names o)
    /\ lacks "=" (op_text o) /\ parse (op_text o) = Ok (op_value o).
  Definition group_of (o : option_string) : string := hd "" (op_names o).

  (* d[k1][k2]...[kn], whatever it is *)
  Fixpoint value_at (d : dict S) (path : list string) : option (pyval S) :=
    match path with
    | [] => None
    | [k] => dget String.eqb d k
    | k :: rest => match dget String.eqb d k with Some (PyDict sub) => value_at sub rest | _ => None end
    end.
End Options.
Arguments option_string : clear implicits.

Section Later.
  Context {S : Type}.
  (* the sections after the first give values to parameters of the components
     and to nothing else *)
  Definition later_sections_fit (components : list string) (dicts : list (dict S)) : Prop :=
    forall d path v, In d (tl dicts) -> leaf_at d path = Some v -> exists p k, path = [p; k] /\ In p components.

  (* the contents of a file of the folder *)
  Definition file (w : @world S) (f : string) : option string := dget String.eqb (w_files w) f.

  (* the attributes of the components that are in the configuration have the
     values it gives them *)
  Definition agrees (config : list string -> option (pyval S)) (m : Processes.context (pyval S)) : Prop :=
    forall p k, In p (dkeys m) -> config [p; k] <> None -> value m p k = config [p; k].
End Later.
