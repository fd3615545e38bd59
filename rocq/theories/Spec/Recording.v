(** Vocabulary for output files (C57-C62, C77, C78). *)
From Coq Require Import String List ZArith Arith.
From Verif.Base Require Import Num Py Arr.
From Verif.Model Require Import Layers Grid Netcdf OutputWriter Sequence SequenceModel.
From Verif.Spec Require Import Column.
Import ListNotations.

Section Recording.
  Context {A : Type} `{Num A}.

  (* what a file's variable [v] holds in time record [i]; None if nothing was
     written there *)
  Definition record_of (d : dataset A) (v : string) (i : nat) : option (list (option A)) := nth i (var_of d v) None.

  (* the file at a path, if to_netcdf wrote it *)
  Definition file_at (fs : filesystem A) (path : string) : option (dataset A) :=
    match fs path with Some (Nc d) => Some d | _ => None end.

  (* calls of OutputWriter.run_one_step: the grid as it is then, and dt *)
  Definition run_writer (calls : list (gview A * option A)) (wf : writer A * filesystem A)
    : result (writer A * filesystem A) := foldM (fun wf c => writer_step (fst c) (snd c) wf) calls wf.

  (* the sum of the time steps (1 if none is given), added one by one *)
  Definition elapsed (calls : list (gview A * option A)) : A :=
    fold_left nadd (map (fun c => match snd c with Some dt => dt | None => n1 end) calls) n0.

  (* how many of the calls 0 ... n-1 are multiples of k *)
  Definition records (n k : nat) : nat := (n + k - 1) / k.

  (* a field of a grid *)
  Definition field_at (g : gview A) (loc name : string) : option (values A) :=
    match dget String.eqb (gv_fields g) loc with Some fs => dget String.eqb fs name | None => None end.

  (* a grid with n nodes whose node fields have n values *)
  Definition with_nodes (n : nat) (g : gview A) : Prop :=
    length (gv_xy g "node") = n
    /\ forall name v, field_at g "node" name = Some v -> exists l, v = Vector l /\ length l = n.

  (* the writer's next call writes *)
  Definition due (w : writer A) : Prop := (Z.of_nat (ow_count w) mod ow_interval w = 0)%Z.

  (* a model that also writes output: the writer runs after the other
     components (sequence/sequence_model.py:118-121) *)
  Definition with_output {W} (pr : processes A W) : processes A (W * (writer A * filesystem A)) :=
    mkProcesses (map beside_output (pr_components pr) ++ [output_component])
      (fun w => pr_porosity pr (fst w)) (fun t w => (pr_set_sea_time pr t (fst w), snd w)).
  (* n steps without a dt, as run() takes them, that all complete *)
  Fixpoint default_steps {W} (n : nat) (pr : processes A W) (m : smodel A W) : option (smodel A W) :=
    match n with
    | O => Some m
    | S n => match run_one_step pr None m with Stepped m => default_steps n pr m | _ => None end
    end.
  (* the sum of n steps, added one by one *)
  Definition after_steps (start step : A) (n : nat) : A := fold_left nadd (repeat step n) start.

  (* a component that may change the thickness and the other properties of the
     layers, but neither their number nor their ages *)
  Definition keeps_ages {W} (c : component A W) : Prop :=
    forall dt w g w' g', c dt (w, g) = Ok (w', g') ->
      el_number (layers g') = el_number (layers g) /\ el_tracking (layers g') = el_tracking (layers g)
      /\ fmap (map (fun c => dget String.eqb (c_props c) "age"%string)) (el_stacks (layers g'))
         = fmap (map (fun c => dget String.eqb (c_props c) "age"%string)) (el_stacks (layers g)).

  (* a new grid *)
  Definition fresh_grid (g : grid A) : Prop :=
    whole_grid g /\ el_number (layers g) = 0
    /\ forall i j, i < g_rows g -> j < g_cols g - 2 -> at2 [] (el_stacks (layers g)) i j = [].
  (* a grid whose row fields have a value per row *)
  Definition recordable (g : grid A) : Prop :=
    whole_grid g /\ forall name l, In name ["x_of_shore"; "x_of_shelf_edge"]%string -> rowf g name = Some l -> length l = g_rows g.
  (* a model on grid g0 with an OutputWriter that writes every k steps, after n
     default steps *)
  Definition output_run {W} (pr : processes A W) (w0 : W) (g0 : grid A) (start : A) (stop : option A) (step : A)
      (path : string) (k : nat) (fields : option (list string)) (clobber : bool) (fs : filesystem A)
      (n : nat) (m : smodel A (W * (writer A * filesystem A))) : Prop :=
    exists fs1 wr m0, writer_init (view g0) path (IntInterval (Z.of_nat k)) fields clobber None fs = (fs1, Ok wr)
    /\ model_init (with_output pr) (w0, (wr, fs1)) g0 (clock_init start stop step) = Ok m0
    /\ default_steps n (with_output pr) m0 = Some m.
  (* the files after that *)
  Definition files {W} (m : smodel A (W * (writer A * filesystem A))) : filesystem A := snd (snd (sm_world m)).
  (* what to_netcdf writes as layers: the thickness and every property *)
  Definition layer_names (el : event_layers A) : list string := el_tracking el ++ ["thickness"%string].
  (* the thickness, or a property, of each layer from the bottom up: a value
     for every cell *)
  Definition layer_values (el : event_layers A) (name : string) : list (field (option A)) :=
    map (fun k => map (map (fun column =>
      match nth_error column k with
      | Some cell => if String.eqb name "thickness" then Some (c_dz cell) else dget String.eqb (c_props cell) name
      | None => None
      end)) (el_stacks el)) (seq 0 (el_number el)).

  (* intervals for which the number of layers never decreases from one write
     to the next *)
  Definition steady_interval (k : nat) : bool := (Nat.eqb (k mod 10) 0 || Nat.leb 9 (k / 10 + k mod 10))%bool.

  (* the names asked for at a location *)
  Definition requested (names : names_arg) (loc : string) (l : list string) : Prop :=
    match names with
    | SameNames (Names l') => l' = l
    | SameNames (Name s) => l = [s]
    | SameNames NoNames => False
    | NamesAt d => match dget String.eqb d loc with
                   | Some (Names l') => l' = l
                   | Some (Name s) => l = [s]
                   | _ => False
                   end
    end.
  (* a field of the grid that to_netcdf can write as such: x_of_shore and
     x_of_shelf_edge are written as row fields, not as grid fields *)
  Definition writable (g : gview A) (loc name : string) : Prop :=
    field_at g loc name <> None
    /\ (loc = "grid"%string -> ~ In name ["x_of_shelf_edge"; "x_of_shore"]%string).
  (* the file has the variable "at_loc:name" *)
  Definition has_variable (d : dataset A) (loc name : string) : Prop :=
    dget String.eqb (ds_fields d) (var_name name loc) <> None.
End Recording.
