(** Vocabulary for nested dictionaries and time-varying configurations. *)
From Coq Require Import String List Bool Reals.
From Verif.Base Require Import Num Py.
From Verif.Model Require Import Config.
Import ListNotations.
Local Open Scope list_scope.

Section Sections.
  Context {S : Type}.

  (* d[k1][k2]...[kn], if it is there and is not itself a dictionary *)
  Fixpoint leaf_at (d : dict S) (path : list string) : option (pyval S) :=
    match path with
    | [] => None
    | k :: rest =>
        match dget String.eqb d k with
        | Some (PyDict sub) => leaf_at sub rest
        | Some v => match rest with [] => Some v | _ => None end
        | None => None
        end
    end.

  (* a Python dictionary has each key once, at every depth *)
  Fixpoint proper (v : pyval S) : Prop :=
    match v with
    | PyDict d => NoDup (dkeys d)
                  /\ (fix all d := match d with [] => True | kv :: d => proper (snd kv) /\ all d end) d
    | _ => True
    end.

  (* the same dictionary without empty dictionaries in it, tuples written as
     lists *)
  Fixpoint without_empty (v : pyval S) : pyval S :=
    match v with
    | PyDict d => PyDict (flat_map (fun kv => match without_empty (snd kv) with
                                              | PyDict [] => []
                                              | v => [(fst kv, v)]
                                              end) d)
    | PyTuple l => PyList l
    | v => v
    end.
  (* nothing in it is an empty dictionary or a tuple *)
  Fixpoint solid (v : pyval S) : Prop :=
    match v with
    | PyDict d => d <> [] /\ (fix all d := match d with [] => True | kv :: d => solid (snd kv) /\ all d end) d
    | PyTuple _ => False
    | _ => True
    end.

  (* a scalar, or a list or tuple of scalars *)
  Definition is_scalar (v : pyval S) : bool := match v with Scalar _ => true | _ => false end.
  Definition simple (v : pyval S) : Prop :=
    match v with
    | Scalar _ => True
    | PyList l | PyTuple l => forallb is_scalar l = true
    | PyDict _ => False
    end.

  (* what a section says about a path; [1, 2] and (1, 2) are the same value *)
  Definition says (d : dict S) (path : list string) : option (pyval S) := option_map as_list (leaf_at d path).

  (* one path never holds a value in one section and a dictionary of values
     in another *)
  Definition compatible (ds : list (dict S)) : Prop :=
    forall d d' path k rest v v', In d ds -> In d' ds -> leaf_at d path = Some v -> leaf_at d' (path ++ k :: rest) <> Some v'.

  (* sections whose values can be compared *)
  Definition plain_sections (ds : list (dict S)) : Prop :=
    (forall d, In d ds -> proper (PyDict d) /\ forall path v, leaf_at d path = Some v -> simple v)
    /\ compatible ds.

  (* the dictionary holds the values that changed and nothing else *)
  Definition reports_change (before after : list string -> option (pyval S)) (d : dict S) : Prop :=
    forall path, (before path = after path /\ leaf_at d path = None)
                 \/ (before path <> after path /\ leaf_at d path = after path).

  Local Open Scope R_scope.
  (* the value of a path at time t: from the last section, at or before t,
     that gives it one *)
  Definition in_force (sections : list (R * dict S)) (t : R) (path : list string) : option (pyval S) :=
    fold_left (fun v section => if Rle_dec (fst section) t
                                then match says (snd section) path with Some v' => Some v' | None => v end
                                else v) sections None.

  Definition total (incs : list R) : R := fold_right Rplus 0 incs.
  Definition increasing (times : list R) : Prop :=
    forall i j, (i < j < length times)%nat -> nth i times 0 < nth j times 0.
End Sections.
