(** sequence/netcdf.py: writing a grid to a NetCDF file.

    The netCDF4 library is not part of /repo.  A file is modelled by what can
    be read back from it; data types are left out.  An exception in the middle
    of a write is an [Err]: what the file then contains is not modelled. *)
From Coq Require Import String List ZArith Arith Bool.
From Verif.Base Require Import Num Py Arr.
From Verif.Model Require Import Layers Grid.
Import ListNotations.
Local Open Scope string_scope.

(** ** numpy and netCDF4 *)

(* l[i], for any int i *)
Definition py_nth {B} (l : list B) (i : Z) : result B :=
  let i := if (i <? 0)%Z then (i + Z.of_nat (length l))%Z else i in
  if (i <? 0)%Z then Err IndexError
  else match nth_error l (Z.to_nat i) with Some b => Ok b | None => Err IndexError end.
(* what selects elements: slice(None) or an array of int *)
Inductive selection : Type := All | Ids (l : list Z).
(* a[ids] *)
Definition take {B} (ids : selection) (l : list B) : result (list B) :=
  match ids with All => Ok l | Ids is => mapM (py_nth l) is end.

(* assigning l to n places *)
Definition fit {B} (n : nat) (l : list B) : result (list B) :=
  if Nat.eqb (length l) n then Ok l
  else match l with [b] => Ok (repeat b n) | _ => Err ValueError end.

(* an array of r rows of c *)
Definition in_rows {B} (r c : nat) (l : list B) : field B :=
  map (fun i => firstn c (skipn (i * c) l)) (seq 0 r).
(* assigning layers of R x C values to a variable whose layers are r x c: they
   are reshaped if they have as many values, broadcast otherwise *)
Definition fit_layers {B} (r c : nat) (R C : nat) (layers : list (field B)) : result (list (field B)) :=
  if Nat.eqb (length layers * (R * C)) (length layers * (r * c))
  then Ok (if (Nat.eqb R r && Nat.eqb C c)%bool then layers else map (fun f => in_rows r c (concat f)) layers)
  else mapM (fun f => let* rows := fit r f in mapM (fit c) rows) layers.

(* var[i] = v along an unlimited dimension; [None] is the fill value *)
Definition put_record {B} (i : nat) (v : B) (var : list (option B)) : list (option B) :=
  firstn i (var ++ repeat None (i - length var)) ++ Some v :: skipn (S i) var.
(* var[:n] = l along an unlimited dimension, l having n entries; the dimension
   does not shrink *)
Definition put_first {B} (l : list B) (var : list (option B)) : list (option B) :=
  map Some l ++ skipn (length l) var.

Section Netcdf.
  Context {A : Type} `{Num A}.

  (** A value in a file; None is NaN. *)
  Notation value := (option A).

  (** What to_netcdf reads from a grid.  A field is an array with one value
      per element, or a scalar (0-dimensional). *)
  Inductive values : Type := Scalar (v : value) | Vector (l : list value).
  Record gview : Type := mkView {
    gv_rows : nat;                                      (* shape[0] - 2 *)
    gv_cols : nat;                                      (* shape[1] *)
    gv_x_of_column : list A;
    gv_y_of_row : list A;
    gv_xy : string -> list (A * A);                     (* xy_of_node, ... *)
    gv_fields : list (string * list (string * values)); (* grid[at] *)
    gv_layers : event_layers A
  }.

  (** A file: lengths of the fixed dimensions, the time variable, the
      coordinates, the field variables (records along time) and the layer
      variables (along layer). *)
  Record dataset : Type := mkDataset {
    ds_dims : list (string * nat);
    ds_time : list A;
    ds_coords : list (string * list value);
    ds_fields : list (string * list (option (list value)));
    ds_layers : list (string * list (option (field value)))
  }.
  Definition ds_empty : dataset := mkDataset [] [] [] [] [].

  (* grid[at] *)
  Definition fields_at (g : gview) (loc : string) : result (list (string * values)) :=
    match dget String.eqb (gv_fields g) loc with Some fs => Ok fs | None => Err KeyError end.

  (* sequence/netcdf.py:34-36 _netcdf_var_name *)
  Definition var_name (name loc : string) : string := "at_" ++ loc ++ ":" ++ name.

  Definition known_locations : list string :=
    ["node"; "link"; "patch"; "corner"; "face"; "cell"; "grid"; "row"; "column"].
  Definition mem (x : string) (l : list string) : bool := existsb (String.eqb x) l.

  Definition set_dims (d : dataset) v := mkDataset v (ds_time d) (ds_coords d) (ds_fields d) (ds_layers d).
  Definition set_times (d : dataset) v := mkDataset (ds_dims d) v (ds_coords d) (ds_fields d) (ds_layers d).
  Definition set_coords (d : dataset) v := mkDataset (ds_dims d) (ds_time d) v (ds_fields d) (ds_layers d).
  Definition set_fields (d : dataset) v := mkDataset (ds_dims d) (ds_time d) (ds_coords d) v (ds_layers d).
  Definition set_lays (d : dataset) v := mkDataset (ds_dims d) (ds_time d) (ds_coords d) (ds_fields d) v.

  (* sequence/netcdf.py:102-126 _set_grid_coordinates, with
     _create_grid_dimension (44-77) and _create_grid_coordinates (80-99).
     Creating a variable that exists is netCDF4's RuntimeError.  x_of_row and
     y_of_column are created and never written. *)
  Definition set_grid_coordinates (g : gview) (loc : string) (ids : selection) (d : dataset) : result dataset :=
    if mem loc known_locations then
      if String.eqb loc "grid" then
        Ok (if din String.eqb (ds_dims d) loc then d else set_dims d (dset String.eqb (ds_dims d) loc 1))
      else
        let* xy := if String.eqb loc "row" then
                     let* ys := take ids (gv_y_of_row g) in Ok (map (fun y => (None, Some y)) ys)
                   else if String.eqb loc "column" then
                     let* xs := take ids (gv_x_of_column g) in Ok (map (fun x => (Some x, None)) xs)
                   else let* ps := take ids (gv_xy g loc) in Ok (map (fun p => (Some (fst p), Some (snd p))) ps) in
        if din String.eqb (ds_coords d) ("x_of_" ++ loc) then Err RuntimeError
        else Ok (mkDataset (dset String.eqb (ds_dims d) loc (length xy)) (ds_time d)
                   (dset String.eqb (dset String.eqb (ds_coords d) ("x_of_" ++ loc) (map fst xy)) ("y_of_" ++ loc) (map snd xy))
                   (ds_fields d) (ds_layers d))
    else Err ValueError.

  (* sequence/netcdf.py:166-168 names = set(names or grid[at]), less the
     missing ones; 170-174.  The order in which a set is visited is not
     observable: each name has its own variable. *)
  Definition fields_to_write (loc : string) (names : list string) (fs : list (string * values)) : list string :=
    let names := match names with [] => map fst fs | _ => names end in
    let names := filter (fun n => mem n (map fst fs)) names in
    if String.eqb loc "grid" then filter (fun n => negb (mem n ["x_of_shelf_edge"; "x_of_shore"])) names else names.

  (* the values of a variable *)
  Definition var_of (d : dataset) (v : string) : list (option (list value)) :=
    match dget String.eqb (ds_fields d) v with Some l => l | None => [] end.

  (* sequence/netcdf.py:129-186 _set_field with _create_field; every file
     written by to_netcdf has a time dimension *)
  Definition set_field (g : gview) (loc : string) (ids : selection) (names : list string) (d : dataset) : result dataset :=
    let* fs := fields_at g loc in
    foldM (fun d name =>
      match dget String.eqb (ds_dims d) loc with
      | None => Err KeyError
      | Some n =>
          let* v := match dget String.eqb fs name with
                    | Some (Vector l) => take ids l
                    | Some (Scalar v) => Ok [v]
                    | None => Err KeyError
                    end in
          let* v := fit n v in
          let var := var_name name loc in
          Ok (set_fields d (dset String.eqb (ds_fields d) var
                              (put_record (length (ds_time d) - 1) v (var_of d var))))
      end) (fields_to_write loc names fs) d.

  (* event_layers[name] and event_layers.dz as layers of rows x columns: the
     reshape of sequence/netcdf.py:225-235 *)
  Definition layers_of (f : lcell A -> value) (el : event_layers A) : list (field value) :=
    map (fun k => fmap (fun st => match nth_error st k with Some c => f c | None => None end) (el_stacks el))
      (seq 0 (el_number el)).
  Definition layer_data (el : event_layers A) (name : string) : list (field value) :=
    if String.eqb name "thickness" then layers_of (fun c => Some (c_dz c)) el
    else layers_of (fun c => dget String.eqb (c_props c) name) el.
  Definition layer_var (d : dataset) (name : string) : list (option (field value)) :=
    match dget String.eqb (ds_layers d) (var_name name "layer") with Some l => l | None => [] end.

  (* sequence/netcdf.py:189-235 _set_layers with _create_layers, with every
     tracked property.  [ids] only selects all the cells in the calls below.  A
     tracked property called "thickness" is not modelled. *)
  Definition set_layers_vars (g : gview) (d : dataset) : result dataset :=
    match dget String.eqb (ds_dims d) "row", dget String.eqb (ds_dims d) "column" with
    | Some r, Some c =>
        foldM (fun d name =>
          let* l := fit_layers r c (gv_rows g) (gv_cols g - 2) (layer_data (gv_layers g) name) in
          Ok (set_lays d (dset String.eqb (ds_layers d) (var_name name "layer") (put_first l (layer_var d name)))))
          (el_tracking (gv_layers g) ++ ["thickness"]) d
    | _, _ => Err KeyError
    end.

  (** The arguments at, names and ids: None, a str, an iterable of str, a
      dictionary; an int is the iterable of that int. *)
  Inductive name_list : Type := NoNames | Name (s : string) | Names (l : list string).
  Inductive names_arg : Type := SameNames (l : name_list) | NamesAt (d : list (string * name_list)).
  Inductive ids_arg : Type := SameIds (s : selection) | IdsAt (d : list (string * selection)).

  (* sequence/netcdf.py:294-314: names_dict[loc]; the dictionary gives the
     empty list for the locations it does not have *)
  Definition names_of (g : gview) (names : names_arg) (loc : string) : result (list string) :=
    let* l := match names with
              | SameNames NoNames => let* fs := fields_at g loc in Ok (map fst fs)
              | SameNames (Name s) => let* fs := fields_at g loc in Ok (filter (fun n => mem n (map fst fs)) [s])
              | SameNames (Names l) => let* fs := fields_at g loc in Ok (filter (fun n => mem n (map fst fs)) l)
              | NamesAt d =>
                  match dget String.eqb d loc with
                  | None => Ok []
                  | Some NoNames => let* fs := fields_at g loc in Ok (map fst fs)
                  | Some (Name s) => Ok [s]
                  | Some (Names l) => Ok l
                  end
              end in
    Ok (if String.eqb loc "grid" then filter (fun n => negb (mem n ["x_of_shelf_edge"; "x_of_shore"])) l else l).
  (* sequence/netcdf.py:316-325 ids_dict[loc] *)
  Definition ids_of (at_ : list string) (ids : ids_arg) (loc : string) : selection :=
    match ids with
    | SameIds s => if mem loc at_ then s else All
    | IdsAt d => match dget String.eqb d loc with Some s => s | None => All end
    end.

  Definition default_at : list string := ["node"; "link"; "face"; "cell"; "grid"].

  (* sequence/netcdf.py:238-353 to_netcdf on an open file: [d] is the existing
     file if it is appended to, None if a new one is begun *)
  Definition write_dataset (g : gview) (time : A) (at_ : list string) (ids : ids_arg) (names : names_arg)
      (with_layers : bool) (d : option dataset) : result dataset :=
    let* names_at := mapM (fun loc => let* l := names_of g names loc in Ok (loc, l)) at_ in
    let* d := match d with
              | Some d => Ok d
              | None => foldM (fun d loc => set_grid_coordinates g loc (ids_of at_ ids loc) d)
                          ("row" :: "column" :: at_) ds_empty
              end in
    let d := set_times d (ds_time d ++ [time])%list in
    let* d := foldM (fun d ln => set_field g (fst ln) (ids_of at_ ids (fst ln)) (snd ln) d) names_at d in
    let* d := set_field g "row" (ids_of at_ ids "row") ["x_of_shore"; "x_of_shelf_edge"] d in
    if with_layers then set_layers_vars g d else Ok d.

  (** ** Files *)

  (* what is at a path: a file written by to_netcdf, another file, a directory *)
  Inductive entry : Type := Nc (d : dataset) | OtherFile | Directory.
  Definition filesystem : Type := string -> option entry.
  Definition is_file (fs : filesystem) (path : string) : bool :=
    match fs path with Some (Nc _) | Some OtherFile => true | _ => false end.
  Definition fs_set (fs : filesystem) (path : string) (e : option entry) : filesystem :=
    fun p => if String.eqb p path then e else fs p.

  (* sequence/netcdf.py:238-353 to_netcdf(grid, filepath, mode, "NETCDF4",
     time, at, ids, names, with_layers).  Opening a directory, or a file that
     is not NetCDF for appending, fails.  The check of the format (279-280) is
     not modelled. *)
  Definition to_netcdf (g : gview) (path : string) (append : bool) (time : A) (at_ : list string)
      (ids : ids_arg) (names : names_arg) (with_layers : bool) (fs : filesystem) : result filesystem :=
    let* d := match fs path, append with
              | Some Directory, _ => Err FileError
              | Some OtherFile, true => Err FileError
              | Some (Nc d), true => Ok (Some d)
              | _, _ => Ok None
              end in
    let* d := write_dataset g time at_ ids names with_layers d in
    Ok (fs_set fs path (Some (Nc d))).

  (* what to_netcdf sees of a SequenceModelGrid: landlab's numbering of nodes
     and cells row by row; no fields on links, faces and cells *)
  Definition node_xy (g : grid A) : field (A * A) :=
    map (fun y => map (fun x => (x, y)) (x_of_column g)) (y_of_row g).
  Definition view (g : grid A) : gview :=
    mkView (g_rows g) (g_cols g) (x_of_column g) (y_of_row g)
      (fun loc => if String.eqb loc "node" then concat (node_xy g)
                  else if String.eqb loc "cell" then concat (cells (node_xy g)) else [])
      [("node", map (fun kf => (fst kf, Vector (map Some (concat (snd kf))))) (at_node g));
       ("link", []); ("face", []); ("cell", []);
       ("grid", map (fun kv => (fst kv, Scalar (Some (snd kv)))) (at_grid g));
       ("row", map (fun kv => (fst kv, Vector (snd kv))) (at_row g))]
      (layers g).
End Netcdf.
Arguments values : clear implicits.
Arguments gview : clear implicits.
Arguments dataset : clear implicits.
Arguments entry : clear implicits.
Arguments filesystem : clear implicits.
