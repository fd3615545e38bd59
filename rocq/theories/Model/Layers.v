(** landlab's EventLayers, as used by the repository.

    EventLayers is not part of /repo; this is a model of the documented
    behaviour of landlab.layers.EventLayers (add, reduce, thickness,
    number_of_layers, tracking) that sequence/sequence.py:84-85,98-104,131-134,
    212,246,262-269 and sequence/sequence_model.py:130-137,328-342,432 rely on.
    Simplifications: landlab keeps (layer, stack) matrices in preallocated
    memory; the model keeps one list of layers (oldest first) per cell, with
    the cells arranged as rows of the grid instead of one flat index. *)
From Coq Require Import String List ZArith Arith Lia.
From Verif.Base Require Import Num Py Arr.
Import ListNotations.
Local Open Scope num_scope.

Section Layers.
  Context {A : Type} `{Num A}.

  (* one layer in one cell: thickness and tracked properties *)
  Record lcell : Type := mkCell { c_dz : A; c_props : list (string * A) }.
  Definition stack : Type := list lcell.                    (* oldest first *)

  Record event_layers : Type := mkLayers {
    el_number : nat;                    (* EventLayers.number_of_layers *)
    el_tracking : list string;          (* EventLayers.tracking *)
    el_stacks : field stack
  }.

  (* EventLayers(number_of_stacks) *)
  Definition el_empty (n m : nat) : event_layers :=
    mkLayers 0 [] (full n m []).

  Definition nsum (l : list A) : A := fold_left nadd l n0.

  (* the erosion loop of landlab's deposit_or_erode for one stack, walking
     down from the top layer (the list is newest first here) *)
  Fixpoint erode (amount : A) (l : list lcell) : list lcell :=
    match l with
    | [] => []
    | c :: l' =>
        let amount' := amount - c_dz c in
        if n0 <? amount' then mkCell n0 (c_props c) :: erode amount' l'
        else mkCell (- amount') (c_props c) :: l'
    end.

  (* EventLayers.add for one stack: append an empty layer carrying the
     properties, then deposit on it or erode from it downwards *)
  Definition add_stack (dz : A) (props : list (string * A)) (st : stack) : stack :=
    if dz <? n0 then rev (erode (- dz) (mkCell n0 props :: rev st))
    else st ++ [mkCell dz props].

  (* EventLayers.add(dz, **props).  The first call fixes the tracked names;
     later calls with an untracked name raise ValueError.  dz and the property
     values are given per cell (numpy broadcasting of scalars is done by the
     caller with [full]). *)
  Definition el_add (dz : field A) (props : list (string * field A))
      (el : event_layers) : result event_layers :=
    let tracking := if Nat.eqb (el_number el) 0 then map fst props else el_tracking el in
    if forallb (fun kv => existsb (String.eqb (fst kv)) tracking) props then
      Ok (mkLayers (S (el_number el)) tracking
            (fmapi (fun i j st =>
                      add_stack (at2 n0 dz i j)
                        (map (fun kv => (fst kv, at2 n0 (snd kv) i j)) props) st)
                   (el_stacks el)))
    else Err ValueError.

  (* EventLayers.reduce(start, stop, **reducers): layers start..stop-1 become
     one layer; thickness is summed, each property goes through its reducer *)
  Definition merge_cells (reducers : list (string * (list A -> A))) (l : list lcell) : lcell :=
    mkCell (nsum (map c_dz l))
      (flat_map (fun kr =>
         let vals := map (fun c => dget String.eqb (c_props c) (fst kr)) l in
         if forallb (fun v => match v with Some _ => true | None => false end) vals
         then [(fst kr, snd kr (map (fun v => match v with Some a => a | None => n0 end) vals))]
         else []) reducers).

  Definition slice {B} (start stop : nat) (l : list B) : list B :=
    firstn (stop - start) (skipn start l).

  Definition reduce_stack (start stop : nat) (reducers : list (string * (list A -> A)))
      (st : stack) : stack :=
    firstn start st ++ merge_cells reducers (slice start stop st) :: skipn stop st.

  Definition el_reduce (start stop : nat) (reducers : list (string * (list A -> A)))
      (el : event_layers) : event_layers :=
    mkLayers (el_number el - (stop - start) + 1) (el_tracking el)
      (fmap (reduce_stack start stop reducers) (el_stacks el)).

  (* EventLayers.thickness *)
  Definition stack_thickness (st : stack) : A := nsum (map c_dz st).
  Definition el_thickness (el : event_layers) : field A := fmap stack_thickness (el_stacks el).

  (* np.max, np.mean, np.sum as layer reducers (sequence/sequence.py:206-213) *)
  Definition np_max (l : list A) : A :=
    match l with [] => n0 | a :: l' => fold_left nmax l' a end.
  Definition np_mean (l : list A) : A := nsum l / nofnat (length l).
  Definition np_sum (l : list A) : A := nsum l.
End Layers.
Arguments lcell : clear implicits.
Arguments stack : clear implicits.
Arguments event_layers : clear implicits.
