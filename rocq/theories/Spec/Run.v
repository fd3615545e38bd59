(** Vocabulary for the run and plot commands. *)
From Coq Require Import String Ascii List Bool Reals.
From Verif.Base Require Import Num Py Arr.
From Verif.Model Require Import Config Cli Layers Grid Sequence SequenceModel Commands.
From Verif.Model Require Processes.
From Verif.Spec Require Import Sections Parameters CommandLine.
Import ListNotations.
Local Open Scope list_scope.

(* steps of the model, each followed by a change of parameters *)
Inductive rounds {S A W} {num : Num A} (pr : processes A W) (setp : W -> dict S -> result W)
  : list (dict S) -> smodel A W -> smodel A W -> Prop :=
| rounds_nil m : rounds pr setp [] m m
| rounds_cons d ds m m1 w m' :
    run_one_step pr None m = Stepped m1 -> setp (sm_world m1) d = Ok w ->
    rounds pr setp ds (mkModel w (sm_grid m1) (sm_clock m1) (sm_archived m1)) m' ->
    rounds pr setp (d :: ds) m m'.

(* components whose parameters are the first part of the world, set by
   set_params *)
Definition set_world {S X} (w : Processes.context (pyval S) * X) (d : dict S) : result (Processes.context (pyval S) * X) :=
  let* ctx := set_params store (fst w) d in Ok (ctx, snd w).
(* and only by it *)
Definition only_reads {A S X} (c : component A (Processes.context (pyval S) * X)) : Prop :=
  forall dt w g w' g', c dt (w, g) = Ok (w', g') -> fst w' = fst w.

(* the files of setup *)
Definition input_files : list string := ["bathymetry.csv"; "sequence.toml"; "sealevel.csv"; "subsidence.csv"]%string.

(* the times of the sections of a file: _time or else the place of the
   section, counted from 0 *)
Definition section_time {S} (sections : list (option R * dict S)) (i : nat) : R :=
  match nth i (map fst sections) None with Some t => t | None => INR i end.

(* the attributes that components are created with *)
Definition attributes {V} (objs : list (string * (string * Processes.section V))) : Processes.context V :=
  map (fun o => (fst o, snd (snd o))) objs.

(* an option for the plot command: the name of a setting, the text and the value *)
Definition valid_setting {S} (parse : string -> result (pyval S)) (o : option_string S) : Prop :=
  (exists k, op_names o = [k] /\ lacks "."%char k /\ lacks "="%char k) /\ lacks "="%char (op_text o) /\ parse (op_text o) = Ok (op_value o).
(* the value that the last of some options gives to a setting *)
Definition last_setting {S} (os : list (option_string S)) (k : string) : option (pyval S) :=
  fold_left (fun v o => if String.eqb k (group_of o) then Some (op_value o) else v) os None.

(* the value of a setting of the plot command: the last one given, else the one
   in the plot table of sequence.toml, else the default *)
Definition in_effect {S} (os : list (option_string S)) (toml : option (list (option R * dict S))) (default : option (pyval S))
    (k : string) (v : pyval S) : Prop :=
  last_setting os k = Some v
  \/ (last_setting os k = None
      /\ ((exists t d0 rest, toml = Some ((t, d0) :: rest) /\ says d0 ["plot"; k]%string = Some v)
          \/ ((forall t d0 rest, toml = Some ((t, d0) :: rest) -> value_at d0 ["plot"; k]%string = None) /\ default = Some v))).
(* nobody gives a setting *)
Definition not_given {S} (os : list (option_string S)) (toml : option (list (option R * dict S))) (k : string) : Prop :=
  last_setting os k = None /\ forall t d0 rest, toml = Some ((t, d0) :: rest) -> value_at d0 ["plot"; k]%string = None.

(* the state of the run command after k rounds of its loop *)
Definition reached {S W} (seqb : S -> S -> bool) set_order (pr : processes R W) (setp : W -> dict S -> result W)
    (c : config S R) (k : nat) (m mk : smodel R W) : Prop :=
  exists ds c', updates seqb set_order (repeat 1%R k) c = Ok (ds, c') /\ rounds pr setp ds m mk.
