(** The archiving of old layers, shared by Sequence.add_layer
    (sequence/sequence.py:246,262-270) and SequenceModel.advance_components
    (sequence/sequence_model.py:328-342). *)
From Coq Require Import String List ZArith QArith Arith Lia.
From Verif.Base Require Import Num Py Arr.
From Verif.Model Require Import Layers.
Import ListNotations.
Local Open Scope num_scope.

Section Archive.
  Context {A : Type} `{Num A}.

  (* sequence/sequence.py:197-215 and sequence/sequence_model.py:380-398 *)
  Definition layer_reducers (tracking : list string) : list (string * (list A -> A)) :=
    [("age"%string, np_max); ("water_depth"%string, np_mean); ("t0"%string, np_sum);
     ("porosity"%string, np_mean)]
    ++ (if existsb (String.eqb "percent_sand") tracking then [("percent_sand"%string, np_mean)] else []).

  (* sequence/sequence.py:262-270 and sequence/sequence_model.py:334-343; the
     number is _n_archived_layers *)
  Definition archive (st : nat * event_layers A) : nat * event_layers A :=
    let (n_archived, el) := st in
    if ((Z.of_nat (el_number el) - Z.of_nat n_archived) mod 20 =? 0)%Z
    then (S n_archived,
          el_reduce n_archived (n_archived + 10) (layer_reducers (el_tracking el)) el)
    else (n_archived, el).

  (* adding a layer and archiving: sequence/sequence.py:246,262-270 *)
  Definition add_and_archive (dz : field A) (props : list (string * field A))
      (st : nat * event_layers A) : result (nat * event_layers A) :=
    let* el := el_add dz props (snd st) in Ok (archive (fst st, el)).

  (** a history of layers, with and without archiving (clients, no repository
      code) *)
  Definition layer_run (hist : list (field A * list (string * field A)))
      (st : nat * event_layers A) : result (nat * event_layers A) :=
    foldM (fun s h => add_and_archive (fst h) (snd h) s) hist st.

  (* the stack of one column when nothing is ever archived *)
  Definition raw_stack (i j : nat) (hist : list (field A * list (string * field A))) : stack A :=
    fold_left (fun st h => add_stack (at2 n0 (fst h) i j)
                             (map (fun kv => (fst kv, at2 n0 (snd kv) i j)) (snd h)) st) hist [].

  (* operations on one column *)
  Inductive stack_op : Type :=
  | Lay (dz : A) (props : list (string * A))
  | Merge (start stop : nat) (reducers : list (string * (list A -> A))).
  Definition stack_exec (st : stack A) (op : stack_op) : stack A :=
    match op with
    | Lay dz props => add_stack dz props st
    | Merge start stop reducers => reduce_stack start stop reducers st
    end.
  Definition stack_run (ops : list stack_op) (st : stack A) : stack A := fold_left stack_exec ops st.
End Archive.
Arguments stack_op : clear implicits.
