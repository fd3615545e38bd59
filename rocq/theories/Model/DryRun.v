(** sequence/cli.py and sequence/sequence_model.py: starting the run command,
    with the files it touches. *)
From Coq Require Import String List ZArith Bool.
From Verif.Base Require Import Num Py Arr.
From Verif.Model Require Import Layers Grid Netcdf OutputWriter Config Sequence SequenceModel.
Import ListNotations.

Section DryRun.
  Context {A S W : Type} `{Num A}.

  (* sequence/output_writer.py:19-27 the arguments of OutputWriter *)
  Record output_args : Type := mkOutputArgs {
    oa_path : string;
    oa_interval : interval_arg;
    oa_fields : option (list string);
    oa_clobber : bool;
    oa_rows : option (list Z)
  }.

  (* sequence/sequence_model.py:94-150 __init__ as sequence/cli.py:268-284 run
     calls it.  [load] makes the grid, the processes (with what they hold) and
     the clock from the parameters (load_grid, load_processes and TimeStepper,
     modelled in Model/Processes.v and Model/Clock.v; they write no file);
     [output_of] is the output section, None when there is none. *)
  Definition start_model
      (load : dict S -> result (processes A (W * option (writer A * filesystem A)) * W * grid A * clock A))
      (output_of : dict S -> result (option output_args))
      (params : dict S) (fs : filesystem A)
      : filesystem A * result (smodel A (W * option (writer A * filesystem A))) :=
    match load params with
    | Err e => (fs, Err e)
    | Ok (pr, w, g, c) =>
        match output_of params with
        | Err e => (fs, Err e)
        | Ok None => (fs, model_init pr (w, None) g c)
        | Ok (Some a) =>
            match writer_init (view g) (oa_path a) (oa_interval a) (oa_fields a) (oa_clobber a) (oa_rows a) fs with
            | (fs, Err e) => (fs, Err e)
            | (fs, Ok wr) => (fs, model_init pr (w, Some (wr, fs)) g c)
            end
        end
    end.

  (* sequence/cli.py:239-330 run --dry-run: the model is made and nothing
     else; the messages are not modelled *)
  Definition dry_run load output_of (params : dict S) (fs : filesystem A) : filesystem A * result unit :=
    let (fs, m) := start_model load output_of params fs in
    (fs, let* _ := m in Ok tt).
End DryRun.
