(** What a user sees of a model: the outcomes of a series of calls (C109,
    C110). *)
From Coq Require Import String List.
From Verif.Base Require Import Num Py Arr.
From Verif.Model Require Import Layers Grid SequenceModel Setattr Processes Whole.
Import ListNotations.
Local Open Scope string_scope.

Section Session.
  Context {A X : Type} {num : Num A} {tr : Trans A} (E : externals A X).

  (* model.run_one_step(dt) and model.set_params(params) *)
  Inductive call : Type := CallStep (dt : option A) | CallSet (params : context (pvalue A)).
  (* after each call: the time and the grid, or what was raised; after
     StopIteration the model can still be used *)
  Fixpoint session (names : list string) (calls : list call) (m : smodel A (parts A X)) : list (result (A * grid A)) :=
    match calls with
    | [] => []
    | CallStep dt :: calls =>
        match run_one_step (named_processes E names) dt m with
        | Stepped m => Ok (ck_time (sm_clock m), sm_grid m) :: session names calls m
        | ClockStop m => Err StopIteration :: session names calls m
        | Raised e => [Err e]
        end
    | CallSet params :: calls =>
        match set_model_params E params m with
        | Ok m => Ok (ck_time (sm_clock m), sm_grid m) :: session names calls m
        | Err e => [Err e]
        end
    end.

  (* two sections with the same keys, and the same values but for those of
     some keys *)
  Definition agree_but {V} (keys : list string) (s s' : section V) : Prop :=
    Forall2 (fun a b => fst a = fst b /\ (In (fst a) keys \/ snd a = snd b)) s s'.
  (* parameters of a process that have no effect *)
  Definition without_effect (process : string) : list string :=
    if String.eqb process "flexure" then ["sand_density"; "mud_density"; "water_density"]
    else if String.eqb process "fluvial" then ["sea_level"]
    else [].
  (* a missing section is an empty one *)
  Definition section_of {V} (ctx : context V) (process : string) : section V :=
    match dget String.eqb ctx process with Some s => s | None => [] end.
End Session.
Arguments call : clear implicits. Arguments CallStep {A}. Arguments CallSet {A}.
