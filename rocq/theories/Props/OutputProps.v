(** C57-C62 and C77-C79: output files.

    The vocabulary is in Spec/Recording.v: [run_writer] calls run_one_step of
    an OutputWriter on a list of grids; [output_run] is a SequenceModel with
    an OutputWriter, run for n steps; [file_at] is what can be read from the
    file at a path; [record_of], [layer_var] are its variables. *)
From Coq Require Import String List ZArith QArith Reals Arith.
From Verif.Base Require Import Num Py Arr.
From Verif.Model Require Import Layers Grid Netcdf OutputWriter Sequence SequenceModel.
From Verif.Spec Require Import Column Recording.
From Verif.Proofs Require Import OutputP ModelFileP OutputRunsP OutputEx SequenceModelEx.
Import ListNotations.
Local Open Scope nat_scope.

(** C57 *)
Theorem C57_records {A} `{Num A} (g0 : gview A) path interval fields clobber rows fs fs1 w N calls w' fs' :
  writer_init g0 path interval fields clobber rows fs = (fs1, Ok w) ->
  Forall (fun c => with_nodes N (fst c)) calls ->
  run_writer calls (w, fs1) = Ok (w', fs') -> calls <> [] ->
  exists k d, interval = IntInterval (Z.of_nat k) /\ 1 <= k /\ file_at fs' path = Some d
    /\ ds_time d = map (fun j => elapsed (firstn (j * k) calls)) (seq 0 (records (length calls) k))
    /\ forall j, j < records (length calls) k ->
         exists g dt, nth_error calls (j * k) = Some (g, dt)
         /\ forall name l, match fields with Some (f :: fl) => In name (f :: fl) | _ => True end ->
              field_at g "node" name = Some (Vector l) -> record_of d ("at_node:" ++ name)%string j = Some l.
Proof. exact (records_file g0 path interval fields clobber rows fs fs1 w N calls w' fs'). Qed.
Print Assumptions C57_records.
(* records are only added *)
Theorem C57_earlier_records_kept {A} `{Num A} calls (w : writer A) fs w' fs' d :
  run_writer calls (w, fs) = Ok (w', fs') -> file_at fs (ow_path w) = Some d ->
  exists d', file_at fs' (ow_path w) = Some d' /\ ds_coords d' = ds_coords d
  /\ (exists ts, ds_time d' = ds_time d ++ ts)
  /\ forall v i, i < length (ds_time d) -> record_of d' v i = record_of d v i.
Proof. exact (records_kept calls w fs w' fs' d). Qed.
Print Assumptions C57_earlier_records_kept.
Example C57_nonvacuous : ex_summary 5 2 4 = Some ([0; 2]%Q, 3, [Some 5; Some 6; Some 7]%Q).
Proof. exact ex_summary_2. Qed.

(** C58 *)
Theorem C58_constructor {A} `{Num A} (g : gview A) path interval fields clobber rows fs fs' r :
  writer_init g path interval fields clobber rows fs = (fs', r) ->
  (clobber = false -> fs' = fs /\ (is_file fs path = true -> exists e, r = Err e))
  /\ (clobber = true -> (exists w, r = Ok w) -> fs' path = None)
  /\ (forall p, p <> path -> fs' p = fs p).
Proof. exact (init_files g path interval fields clobber rows fs fs' r). Qed.
Print Assumptions C58_constructor.
Theorem C58_setter {A} `{Num A} path (w w' : writer A) fs fs' r : set_filepath path w fs = (w', fs', r) ->
  (ow_clobber w = false -> fs' = fs /\ (is_file fs path = true -> w' = w /\ exists e, r = Err e))
  /\ (ow_clobber w = true -> r = Ok tt -> fs' path = None /\ ow_path w' = path)
  /\ (forall p, p <> path -> fs' p = fs p).
Proof. exact (setter_files path w w' fs fs' r). Qed.
Print Assumptions C58_setter.
Theorem C58_steps {A} `{Num A} calls (w : writer A) fs w' fs' p :
  run_writer calls (w, fs) = Ok (w', fs') -> p <> ow_path w -> fs' p = fs p.
Proof. exact (fun E => proj2 (run_writer_state calls w fs w' fs' E) p). Qed.
Print Assumptions C58_steps.
(* an existing file, with and without clobber *)
Example C58_nonvacuous :
  let fs := fs_set no_files "out.nc" (Some OtherFile) : filesystem Q in
  snd (writer_init (view ex_coast) "out.nc" (IntInterval 1) None false None fs) = Err RuntimeError
  /\ (exists w, snd (writer_init (view ex_coast) "out.nc" (IntInterval 1) None true None fs) = Ok w).
Proof. split; [reflexivity|eexists; reflexivity]. Qed.

(** C59: interval 0 is accepted and cannot be used *)
Definition C59_statement : Prop :=
  forall k (g : grid Q) path fields clobber fs fs1 w, recordable g ->
    writer_init (view g) path (IntInterval k) fields clobber None fs = (fs1, Ok w) ->
    forall calls : list (grid Q * option Q),
      Forall (fun c => recordable (fst c) /\ g_rows (fst c) = g_rows g /\ g_cols (fst c) = g_cols g) calls ->
      exists wf, run_writer (map (fun c => (view (fst c), snd c)) calls) (w, fs1) = Ok wf.
Theorem C59_interval_refuted : ~ C59_statement.
Proof. exact interval_refuted. Qed.
Print Assumptions C59_interval_refuted.
(* every other accepted interval can be used, on any sequence of grids *)
Theorem C59_interval_partial {A} `{Num A} k (g : grid A) path fields clobber fs fs1 w : recordable g -> (1 <= k)%Z ->
  writer_init (view g) path (IntInterval k) fields clobber None fs = (fs1, Ok w) ->
  forall calls : list (grid A * option A),
    Forall (fun c => recordable (fst c) /\ g_rows (fst c) = g_rows g /\ g_cols (fst c) = g_cols g) calls ->
    exists wf, run_writer (map (fun c => (view (fst c), snd c)) calls) (w, fs1) = Ok wf.
Proof. exact (interval_works k g path fields clobber fs fs1 w). Qed.
Print Assumptions C59_interval_partial.
Example C59_nonvacuous : recordable (@ex_coast Q _) /\ recordable (@ex_two Q _).
Proof. exact (conj ex_coast_recordable ex_two_recordable). Qed.

(** C60: archiving shortens the stack of layers, but not the file's *)
Definition C60_statement : Prop :=
  forall (pr : processes Q unit) g0 start stop step path k fields clobber fs n m m' g1,
  fresh_grid g0 -> Forall keeps_whole (pr_components pr) -> Forall keeps_ages (pr_components pr) -> 1 <= k ->
  output_run pr tt g0 start stop step path k fields clobber fs n m -> n mod k = 0 ->
  run_one_step (with_output pr) None m = Stepped m' -> after_components (with_output pr) step m g1 ->
  exists d, file_at (files m') path = Some d
    /\ forall name, In name (layer_names (layers g1)) -> layer_var d name = map Some (layer_values (layers g1) name).
Theorem C60_layers_refuted : ~ C60_statement.
Proof. exact layers_refuted. Qed.
Print Assumptions C60_layers_refuted.
(* so it is for every model and every interval that is not steady: the file
   ends up with more layers than the grid that was written *)
Theorem C60_unsteady_refuted {A} `{Num A} {W} k : 1 <= k -> steady_interval k = false -> exists n, n mod k = 0 /\
  forall (pr : processes A W) w0 g0 start stop step path fields clobber fs m m' g1,
  fresh_grid g0 -> Forall keeps_whole (pr_components pr) -> Forall keeps_ages (pr_components pr) ->
  output_run pr w0 g0 start stop step path k fields clobber fs n m ->
  run_one_step (with_output pr) None m = Stepped m' -> after_components (with_output pr) step m g1 ->
  exists d, file_at (files m') path = Some d /\ el_number (layers g1) < length (layer_var d "thickness").
Proof. exact (file_stale k). Qed.
Print Assumptions C60_unsteady_refuted.
(* the file always begins with the grid's layers; with a steady interval there
   is nothing else in it *)
Theorem C60_layers_partial {A} `{Num A} {W} (pr : processes A W) w0 g0 start stop step path k fields clobber fs n m m' g1 :
  fresh_grid g0 -> Forall keeps_whole (pr_components pr) -> Forall keeps_ages (pr_components pr) -> 1 <= k ->
  output_run pr w0 g0 start stop step path k fields clobber fs n m -> n mod k = 0 ->
  run_one_step (with_output pr) None m = Stepped m' -> after_components (with_output pr) step m g1 ->
  exists d, file_at (files m') path = Some d
    /\ forall name, In name (layer_names (layers g1)) ->
         exists stale, layer_var d name = map Some (layer_values (layers g1) name) ++ stale
         /\ (steady_interval k = true -> stale = []).
Proof. exact (file_layers pr w0 g0 start stop step path k fields clobber fs n m m' g1). Qed.
Print Assumptions C60_layers_partial.
(* 20 steps, all written: 19 layers in the file, of which 8 are stale *)
Example C60_nonvacuous : ex_summary 0 1 20
  = Some (map inject_Z (map Z.of_nat (seq 0 20)), 19,
      map (fun i => Some (inject_Z (Z.of_nat i))) (seq 9 11 ++ seq 11 8)).
Proof. exact ex_summary_stale. Qed.
Example C60_nonvacuous_hypotheses : fresh_grid (@ex_coast Q _) /\ Forall keeps_whole [@ex_lay Q unit 1%Q]
  /\ Forall keeps_ages [@ex_lay Q unit 1%Q] /\ map steady_interval [1; 9; 10; 50; 100; 120] = [false; true; true; true; true; true].
Proof. exact (conj ex_coast_fresh (conj (proj1 (ex_keeps 1%Q)) (conj (proj2 (ex_keeps 1%Q)) eq_refl))). Qed.

(** C61: the writer counts from 0, the layers from the clock's start *)
Definition C61_statement : Prop :=
  forall (pr : processes Q unit) g0 start stop step path k fields clobber fs n m m' g1,
  fresh_grid g0 -> Forall keeps_whole (pr_components pr) -> Forall keeps_ages (pr_components pr) -> 1 <= k ->
  output_run pr tt g0 start stop step path k fields clobber fs n m -> n mod k = 0 ->
  run_one_step (with_output pr) None m = Stepped m' -> after_components (with_output pr) step m g1 ->
  exists d t, file_at (files m') path = Some d
    /\ nth_error (ds_time d) (length (ds_time d) - 1) = Some t
    /\ nth_error (layer_var d "age") (el_number (layers g1) - 1) = Some (Some (full (g_rows g0) (g_cols g0 - 2) (Some t))).
Theorem C61_age_refuted : ~ C61_statement.
Proof. exact age_refuted. Qed.
Print Assumptions C61_age_refuted.
(* with a clock that starts at 0 they are equal; otherwise the age is the time
   counted from start *)
Theorem C61_age_partial {A} `{Num A} {W} (pr : processes A W) w0 g0 start stop step path k fields clobber fs n m m' g1 :
  fresh_grid g0 -> Forall keeps_whole (pr_components pr) -> Forall keeps_ages (pr_components pr) -> 1 <= k ->
  output_run pr w0 g0 start stop step path k fields clobber fs n m -> n mod k = 0 ->
  run_one_step (with_output pr) None m = Stepped m' -> after_components (with_output pr) step m g1 ->
  exists d, file_at (files m') path = Some d
    /\ nth_error (ds_time d) (length (ds_time d) - 1) = Some (after_steps n0 step n)
    /\ nth_error (layer_var d "age") (el_number (layers g1) - 1)
       = Some (Some (full (g_rows g0) (g_cols g0 - 2) (Some (after_steps start step n)))).
Proof. exact (file_age pr w0 g0 start stop step path k fields clobber fs n m m' g1). Qed.
Print Assumptions C61_age_partial.
Example C61_nonvacuous : ex_summary 0 1 2 = Some ([0; 1]%Q, 2, [Some 0; Some 1]%Q).
Proof. exact ex_summary_1. Qed.

(** C62: the empty list, or one with no field of the location, stands for all
    the fields *)
Definition C62_statement : Prop :=
  forall (g : gview Q) path time at_ ids names wl fs fs' d loc l,
  to_netcdf g path false time at_ ids names wl fs = Ok fs' -> file_at fs' path = Some d ->
  NoDup at_ -> ~ In "row"%string at_ -> In loc at_ -> requested names loc l ->
  forall name, has_variable d loc name -> In name l.
Theorem C62_names_refuted : ~ C62_statement.
Proof. exact names_refuted. Qed.
Print Assumptions C62_names_refuted.
Theorem C62_names_partial {A} `{Num A} (g : gview A) path time at_ ids names wl fs fs' d loc l :
  to_netcdf g path false time at_ ids names wl fs = Ok fs' -> file_at fs' path = Some d ->
  NoDup at_ -> ~ In "row"%string at_ -> In loc at_ -> requested names loc l ->
  (exists name, In name l /\ writable g loc name) ->
  forall name, has_variable d loc name <-> In name l /\ writable g loc name.
Proof. exact (names_written g path time at_ ids names wl fs fs' d loc l). Qed.
Print Assumptions C62_names_partial.
Example C62_nonvacuous : match to_netcdf (view ex_coast) "out.nc" false 0%Q ["node"; "grid"]%string (SameIds All)
    (NamesAt [("node", Name "topographic__elevation"); ("grid", Names ["sea_level__elevation"; "other"])])%string false no_files with
  | Ok fs => option_map (fun d => map fst (ds_fields d)) (file_at fs "out.nc") | Err _ => None end
  = Some ["at_node:topographic__elevation"; "at_grid:sea_level__elevation"; "at_row:x_of_shore"; "at_row:x_of_shelf_edge"]%string.
Proof. exact ex_right_names. Qed.

(** C77: only all the rows work *)
Definition C77_statement : Prop :=
  forall k (g : grid Q) path fields clobber rows fs fs1 w, recordable g -> (1 <= k)%Z ->
    rows <> [] -> NoDup rows -> Forall (fun i => (1 <= i <= Z.of_nat (g_rows g))%Z) rows ->
    writer_init (view g) path (IntInterval k) fields clobber (Some rows) fs = (fs1, Ok w) ->
    forall calls : list (grid Q * option Q),
      Forall (fun c => recordable (fst c) /\ g_rows (fst c) = g_rows g /\ g_cols (fst c) = g_cols g) calls ->
      exists wf, run_writer (map (fun c => (view (fst c), snd c)) calls) (w, fs1) = Ok wf.
Theorem C77_rows_refuted : ~ C77_statement.
Proof. exact rows_refuted. Qed.
Print Assumptions C77_rows_refuted.
(* no proper selection works on a grid of several rows with a layer *)
Theorem C77_selection_refuted {A} `{Num A} (g : grid A) path interval fields clobber rows fs fs1 w dt calls wf : whole_grid g ->
  2 <= g_rows g -> 3 <= g_cols g -> 1 <= el_number (layers g) -> length rows <> g_rows g ->
  writer_init (view g) path interval fields clobber (Some rows) fs = (fs1, Ok w) ->
  run_writer ((view g, dt) :: calls) (w, fs1) <> Ok wf.
Proof. exact (rows_subset_fails g path interval fields clobber rows fs fs1 w dt calls wf). Qed.
Print Assumptions C77_selection_refuted.
Theorem C77_all_rows_partial {A} `{Num A} (g : grid A) k path fields clobber rows fs fs1 w : recordable g -> (1 <= k)%Z ->
  length rows = g_rows g -> Forall (fun i => (1 <= i <= Z.of_nat (g_rows g))%Z) rows ->
  writer_init (view g) path (IntInterval k) fields clobber (Some rows) fs = (fs1, Ok w) ->
  forall calls : list (grid A * option A),
    Forall (fun c => recordable (fst c) /\ g_rows (fst c) = g_rows g /\ g_cols (fst c) = g_cols g) calls ->
    exists wf, run_writer (map (fun c => (view (fst c), snd c)) calls) (w, fs1) = Ok wf.
Proof. exact (rows_all_work g k path fields clobber rows fs fs1 w). Qed.
Print Assumptions C77_all_rows_partial.
Example C77_nonvacuous : recordable (@ex_two Q _) /\ g_rows (@ex_two Q _) = 2 /\ el_number (layers (@ex_two Q _)) = 1.
Proof. exact (conj ex_two_recordable (conj eq_refl eq_refl)). Qed.

(** C78: layer column j and row i are those of the cell (i, j), one column and
    one row further than the file's coordinates say *)
Definition C78_statement : Prop :=
  forall (g : grid R) path interval fields clobber fs fs1 w dt w' fs' d,
  writer_init (view g) path interval fields clobber None fs = (fs1, Ok w) -> 2 <= g_cols g ->
  writer_step (view g) dt (w, fs1) = Ok (w', fs') -> file_at fs' path = Some d ->
  exists xs xc, dget String.eqb (ds_coords d) "x_of_column"%string = Some xs
    /\ dget String.eqb (ds_coords d) "x_of_cell"%string = Some xc
    /\ forall i j, i < g_rows g -> j < g_cols g - 2 -> nth j xs None = nth (i * (g_cols g - 2) + j) xc None.
Theorem C78_coordinates_refuted : ~ C78_statement.
Proof. exact coordinates_refuted. Qed.
Print Assumptions C78_coordinates_refuted.
Theorem C78_coordinates_partial {A} `{Num A} (g : grid A) path interval fields clobber fs fs1 w dt w' fs' :
  writer_init (view g) path interval fields clobber None fs = (fs1, Ok w) -> 2 <= g_cols g ->
  writer_step (view g) dt (w, fs1) = Ok (w', fs') ->
  exists d xcol yrow xcell ycell, file_at fs' path = Some d
  /\ dget String.eqb (ds_coords d) "x_of_column"%string = Some xcol
  /\ dget String.eqb (ds_coords d) "y_of_row"%string = Some yrow
  /\ dget String.eqb (ds_coords d) "x_of_cell"%string = Some xcell
  /\ dget String.eqb (ds_coords d) "y_of_cell"%string = Some ycell
  /\ length xcol = g_cols g - 2 /\ length yrow = g_rows g
  /\ forall i j, i < g_rows g -> j < g_cols g - 2 ->
       nth j xcol None = Some (nofnat j * g_dx g)%num /\ nth i yrow None = Some (nofnat i * g_dy g)%num
       /\ nth (i * (g_cols g - 2) + j) xcell None = Some (nofnat (S j) * g_dx g)%num
       /\ nth (i * (g_cols g - 2) + j) ycell None = Some (nofnat (S i) * g_dy g)%num.
Proof. exact (coordinates_file g path interval fields clobber fs fs1 w dt w' fs'). Qed.
Print Assumptions C78_coordinates_partial.

(** C79 *)
Definition C79_statement : Prop :=
  forall (g : grid Q) path time fs, recordable g -> is_file fs path = false -> fs path <> Some Directory ->
  exists fs', to_netcdf (view g) path false time default_at (SameIds All) (SameNames NoNames) true fs = Ok fs'.
Theorem C79_defaults_refuted : ~ C79_statement.
Proof. exact default_refuted. Qed.
Print Assumptions C79_defaults_refuted.
(* it never works with a layer, except on grids of 3 columns *)
Theorem C79_layers_refuted {A} `{Num A} (g : grid A) path append time fs fs' : whole_grid g -> 4 <= g_cols g -> 1 <= g_rows g ->
  1 <= el_number (layers g) -> (append = false \/ fs path = None) ->
  to_netcdf (view g) path append time default_at (SameIds All) (SameNames NoNames) true fs <> Ok fs'.
Proof. exact (default_layers g path append time fs fs'). Qed.
Print Assumptions C79_layers_refuted.
Theorem C79_no_layers_partial {A} `{Num A} (g : grid A) path time fs : whole_grid g -> el_number (layers g) = 0 ->
  rowf g "x_of_shore" = None -> rowf g "x_of_shelf_edge" = None -> fs path <> Some Directory ->
  exists fs', to_netcdf (view g) path false time default_at (SameIds All) (SameNames NoNames) true fs = Ok fs'.
Proof. exact (default_ok g path time fs). Qed.
Print Assumptions C79_no_layers_partial.
Example C79_nonvacuous : recordable ex_layered /\ el_number (layers ex_layered) = 1
  /\ el_number (layers (@ex_coast Q _)) = 0 /\ rowf (set_at_row (@ex_coast Q _) []) "x_of_shore" = None.
Proof. exact (conj ex_layered_recordable (conj eq_refl (conj eq_refl eq_refl))). Qed.
