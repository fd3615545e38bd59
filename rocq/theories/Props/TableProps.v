(** C101: the example tables.

    The tables the generate and setup commands write, read back by the
    components that take them.  Straight-line interpolation is specified in
    Spec/Profile.v and proved in C07. *)
From Coq Require Import String Ascii List ZArith QArith Qabs Reals Lra Lia.
From Verif.Base Require Import Num Py Arr.
From Verif.Model Require Import Layers Grid Interp Bathymetry Subsidence SeaLevel SequenceModel Csv.
From Verif.Spec Require Import Profile.
From Verif.Proofs Require Import CliP CsvP TablesP.
Import ListNotations.
Local Open Scope R_scope.

(** C101 in full: with the default grid and clock a run can read its
    bathymetry, subsidence and sea levels from the three tables. *)
Definition C101_statement : Prop :=
  forall g : grid R,
  load_grid (mkGridParams (Some [1%nat; 100%nat]) None (Some [1; 1000]) None) (Some (read_bathymetry example_bathymetry)) = Ok g ->
  (exists c, read_subsidence example_subsidence g = Ok c)
  /\ exists c, read_sea_level example_sealevel = Ok c /\ forall t, 0 <= t <= 600000 -> exists level, slc_curve c t = Ok level.
(* the sea levels end at 200000 years, the default clock at 600000 *)
Theorem C101_refuted : ~ C101_statement.
Proof. exact tables_refuted. Qed.
Print Assumptions C101_refuted.

(** A table of any numbers written and read back has each number to the nearest
    tenth, of two the even one, and numbers that are whole tenths unchanged; with
    fewer than two rows it cannot be read. *)
Theorem C101_csv data header : ~ In "010"%char (list_ascii_of_string header) -> ~ In "013"%char (list_ascii_of_string header) ->
  Forall (fun row => length row = 2%nat) data ->
  ((2 <= length data)%nat ->
   exists xs ys, read_table (as_csv data header) = Ok (xs, ys)
    /\ length xs = length data /\ length ys = length data
    /\ forall i, (i < length data)%nat ->
       let near q q' := (Qabs (q - q') <= 1 # 20)%Q
         /\ (exists z : Z, (q' == z # 10)%Q /\ ((Qabs (q - q') == 1 # 20)%Q -> Z.even z = true))
         /\ forall z : Z, (q * 10 == inject_Z z)%Q -> (q' == q)%Q in
       near (nth 0 (nth i data []) 0%Q) (nth i xs 0%Q) /\ near (nth 1 (nth i data []) 0%Q) (nth i ys 0%Q))
  /\ ((length data < 2)%nat -> read_table (as_csv data header) = Err IndexError).
Proof. exact (csv_round_trip data header). Qed.
Print Assumptions C101_csv.

(** On every grid no wider than 100 km the example bathymetry starts a model
    with a straight slope from 20 m down to -80 m; on wider ones it raises. *)
Theorem C101_bathymetry_partial rows cols dy dx : 0 < dx -> (1 <= cols)%nat ->
  let start := load_grid (mkGridParams (Some [rows; cols]) None (Some [dy; dx]) None) (Some (read_bathymetry example_bathymetry)) in
  (INR (cols - 1) * dx <= 100000 ->
     exists g z, start = Ok g
       /\ g_rows g = rows /\ g_cols g = cols /\ g_dx g = dx
       /\ node g "topographic__elevation" = Some z /\ shaped (rows + 2) cols z
       /\ (forall i j, (i < rows + 2)%nat -> (j < cols)%nat -> at2 0 z i j = 20 - INR j * dx / 1000)
       /\ node g "bedrock_surface__elevation" = Some (fmap (fun v => v - 100) z))
  /\ (100000 < INR (cols - 1) * dx -> start = Err ValueError).
Proof. exact (example_start rows cols dy dx). Qed.
Print Assumptions C101_bathymetry_partial.
(** On such grids the example subsidence is none at all. *)
Theorem C101_subsidence_partial (g : grid R) : 0 < g_dx g -> INR (g_cols g - 1) * g_dx g <= 100000 ->
  exists c, read_subsidence example_subsidence g = Ok c /\ sub_rate c = repeat 0 (g_cols g).
Proof. exact (example_subsides g). Qed.
Print Assumptions C101_subsidence_partial.
(** The example sea level falls by 10 m in 200000 years, and is not defined at
    any other time. *)
Theorem C101_sea_level_partial : exists c, read_sea_level example_sealevel = Ok c /\ slc_time c = 0
  /\ (forall t, 0 <= t <= 200000 -> slc_curve c t = Ok (- t / 20000))
  /\ (forall t, t < 0 \/ 200000 < t -> slc_curve c t = Err ValueError).
Proof. exact example_sea. Qed.
Print Assumptions C101_sea_level_partial.
(* the default grid *)
Example C101_nonvacuous : exists g z,
  load_grid (mkGridParams (Some [1%nat; 100%nat]) None (Some [1; 1000]) None) (Some (read_bathymetry example_bathymetry)) = Ok g
  /\ node g "topographic__elevation" = Some z /\ at2 0 z 1 0 = 20 /\ at2 0 z 1 99 = -79
  /\ g_dx g = 1000 /\ INR (g_cols g - 1) * g_dx g <= 100000.
Proof. exact default_start. Qed.
(* a table with a number that is not a whole tenth *)
Example C101_rounds : read_table (as_csv [[0; 1 # 4]; [1 # 3; -5 # 2]]%Q "a, b") = Ok ([0 # 10; 3 # 10], [2 # 10; -25 # 10])%Q.
Proof. exact ex_rounds. Qed.
