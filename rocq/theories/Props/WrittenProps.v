(** C120: a table file means the numbers that are written in it.  [written],
    [worth], [column], [same_worth] and [bad_line] are in Spec/Written.v. *)
From Coq Require Import String Ascii List ZArith QArith Reals Qreals.
From Verif.Base Require Import Num Py Arr.
From Verif.Model Require Import Grid Subsidence SeaLevel Bathymetry Csv.
From Verif.Spec Require Import Written.
From Verif.Proofs Require Import WrittenP WrittenEx.
Import ListNotations.

(** The first two columns of a file are the numbers written there; with fewer
    than two rows or columns it cannot be used, and with rows of different
    lengths it cannot be read. *)
Theorem C120_numbers text rows n : written text rows -> Forall (fun ns => length ns = n) rows ->
  ((2 <= n)%nat -> (2 <= length rows)%nat -> file_table (A := R) text = Ok (map Q2R (column 0 rows), map Q2R (column 1 rows)))
  /\ ((n < 2)%nat \/ (length rows < 2)%nat -> read_table text = Err IndexError).
Proof. exact (fun W H => conj (written_file text rows n W H) (proj2 (written_table text rows n W H))). Qed.
Print Assumptions C120_numbers.
Theorem C120_ragged text rows : written text rows ->
  (exists ns ns', In ns rows /\ In ns' rows /\ length ns <> length ns') -> read_table text = Err ValueError.
Proof. exact (written_ragged text rows). Qed.
Print Assumptions C120_ragged.
(** Layout does not matter: files with the same numbers make the same bathymetry,
    subsidence and sea level. *)
Theorem C120_layout text rows text' rows' : written text rows -> written text' rows' -> same_worth rows rows' ->
  (forall g : grid R, read_bathymetry text g = read_bathymetry text' g /\ read_subsidence text g = read_subsidence text' g)
  /\ read_sea_level (A := R) text = read_sea_level text'.
Proof. exact (same_layout text rows text' rows'). Qed.
Print Assumptions C120_layout.
(** A file with a field that is not a number cannot be read. *)
Theorem C120_refused text : bad_line text -> read_table text = Err ValueError.
Proof. exact (bad_line_refused text). Qed.
Print Assumptions C120_refused.
Example C120_nonvacuous : written ex_wild ex_wild_rows /\ written ex_tidy ex_tidy_rows /\ same_worth ex_wild_rows ex_tidy_rows
  /\ (map Qred (column 0 ex_wild_rows) = [0; 100000; 200000]%Q /\ map Qred (column 1 ex_wild_rows) = [20; -80 # 1; -80 # 1]%Q)
  /\ bad_line ("0,1" ++ lf ++ "1;2,3 # x").
Proof. exact (conj ex_wild_written (conj ex_tidy_written (conj ex_same (conj ex_columns ex_bad)))). Qed.
