(** sequence/output_writer.py: OutputWriter. *)
From Coq Require Import String List ZArith Arith Bool.
From Verif.Base Require Import Num Py Arr.
From Verif.Model Require Import Layers Grid Netcdf Sequence.
Import ListNotations.

(** The interval argument: an int or another number (of which only the sign
    matters). *)
Inductive interval_arg : Type := IntInterval (k : Z) | FloatInterval (negative : bool).

Section OutputWriter.
  Context {A : Type} `{Num A}.

  Record writer : Type := mkWriter {
    ow_clobber : bool;
    ow_interval : Z;
    ow_fields : list string;
    ow_path : string;
    ow_rows : list Z;
    ow_time : A;
    ow_count : nat
  }.

  (* sequence/output_writer.py:110-116 the interval setter *)
  Definition check_interval (k : interval_arg) : result Z :=
    match k with
    | IntInterval k => if (k <? 0)%Z then Err TypeError else Ok k
    | FloatInterval negative => if negative then Err TypeError else Err ValueError
    end.

  (* sequence/output_writer.py:93-103 the filepath setter's effect on the
     files; os.remove fails on a directory *)
  Definition clear_path (clobber : bool) (path : string) (fs : filesystem A) : filesystem A * result unit :=
    if (is_file fs path && negb clobber)%bool then (fs, Err RuntimeError)
    else match fs path with
         | None => (fs, Ok tt)
         | Some Directory => (fs, Err FileError)
         | Some _ => (fs_set fs path None, Ok tt)
         end.
  (* the writer after the setter: its path changes unless the file exists and
     may not be removed *)
  Definition set_filepath (path : string) (w : writer) (fs : filesystem A) : writer * filesystem A * result unit :=
    let (fs', r) := clear_path (ow_clobber w) path fs in
    (if (is_file fs path && negb (ow_clobber w))%bool then w
     else mkWriter (ow_clobber w) (ow_interval w) (ow_fields w) path (ow_rows w) (ow_time w) (ow_count w), fs', r).

  (* sequence/output_writer.py:19-62 __init__ *)
  Definition writer_init (g : gview A) (path : string) (interval : interval_arg) (fields : option (list string))
      (clobber : bool) (rows : option (list Z)) (fs : filesystem A) : filesystem A * result writer :=
    match check_interval interval with
    | Err e => (fs, Err e)
    | Ok k =>
        match clear_path clobber path fs with
        | (fs, Err e) => (fs, Err e)
        | (fs, Ok _) =>
            (fs, Ok (mkWriter clobber k (match fields with Some l => l | None => [] end) path
                       (match rows with
                        | Some l => map (fun i => (i - 1)%Z) l
                        | None => map Z.of_nat (seq 0 (gv_rows g))
                        end) n0 0))
        end
    end.

  (* sequence/output_writer.py:64-86 run_one_step(dt) *)
  Definition writer_step (g : gview A) (dt : option A) (wf : writer * filesystem A) : result (writer * filesystem A) :=
    let (w, fs) := wf in
    let dt := match dt with Some d => d | None => n1 end in
    if (ow_interval w =? 0)%Z then Err ZeroDivisionError
    else
      let* fs :=
        if (Z.of_nat (ow_count w) mod ow_interval w =? 0)%Z then
          to_netcdf g (ow_path w) true (ow_time w) default_at
            (IdsAt [("row"%string, Ids (ow_rows w));
                    ("column"%string, Ids (map Z.of_nat (seq 0 (gv_cols g - 2))))])
            (NamesAt [("node"%string, Names (ow_fields w))]) true fs
        else Ok fs in
      Ok (mkWriter (ow_clobber w) (ow_interval w) (ow_fields w) (ow_path w) (ow_rows w)
            (nadd (ow_time w) dt) (S (ow_count w)), fs).

  (* the writer as a component of a model (sequence/sequence_model.py:120-121) *)
  Definition output_component {W} : component A (W * (writer * filesystem A)) :=
    fun dt s =>
      let* wf := writer_step (view (snd s)) (Some dt) (snd (fst s)) in
      Ok (fst (fst s), wf, snd s).
  (* the other components do not touch it *)
  Definition beside_output {W} (c : component A W) : component A (W * (writer * filesystem A)) :=
    fun dt s =>
      let* (w, g) := c dt (fst (fst s), snd s) in
      Ok (w, snd (fst s), g).
End OutputWriter.
Arguments writer : clear implicits.
