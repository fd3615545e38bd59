(** A model made from parameters: load_grid, load_processes and SequenceModel
    as `sequence run` calls them (sequence/cli.py:268-280), with the
    repository's own processes.

    The context holds the parameters of Model/Setattr.v; those that are handed
    on to landlab are left out of it.  The classes Compact (not part of /repo)
    and WaterFlexure are any functions here; Model/Water.v replaces the second.  The output is left out here; see
    Spec/Recording.v [with_output]. *)
From Coq Require Import String List ZArith QArith Bool.
From Verif.Base Require Import Num Py Arr.
From Verif.Model Require Import Layers Grid Sequence SequenceModel Setattr Processes.
Import ListNotations.
Local Open Scope string_scope.

(* what is not modelled: SciPy's interp1d, landlab's LinearDiffuser and
   Flexure1D, gravity, and the other two classes: their constructors, steps,
   setattr and porosity_max *)
Record externals (A X : Type) : Type := mkExternals {
  ex_interp1d : list A -> list A -> result (A -> A);
  ex_diffuse : A -> field A -> field A -> field A;
  ex_flexure : kwds A -> field A -> field A;
  ex_gravity : kwds A -> A;
  ex_make : string -> section (pvalue A) -> grid A -> result (X * grid A);
  ex_step : A -> X * grid A -> result (X * grid A);
  ex_set : string -> pvalue A -> X * grid A -> result (X * grid A);
  ex_porosity_max : X -> A
}.
Arguments ex_interp1d {A X}. Arguments ex_diffuse {A X}. Arguments ex_flexure {A X}. Arguments ex_gravity {A X}.
Arguments ex_make {A X}. Arguments ex_step {A X}. Arguments ex_set {A X}. Arguments ex_porosity_max {A X}.

Section Whole.
  Context {A : Type} {num : Num A} {tr : Trans A} {X : Type} (E : externals A X).

  (* a component of a model: one of the classes of Model/Setattr.v or another *)
  Inductive part : Type := Ours (p : process A) | Extra (x : X).
  Definition parts : Type := list (string * part).

  (* Python's == of two parameters *)
  Definition same_list (l l' : list A) : bool :=
    Nat.eqb (length l) (length l') && forallb (fun p => neqb (fst p) (snd p)) (combine l l').
  Definition same_value (v v' : pvalue A) : bool :=
    match v, v' with
    | Number a, Number b => neqb a b
    | Table x y, Table x' y' => same_list x x' && same_list y y'
    | _, _ => false
    end.

  (* sequence/sequence_model.py:250-265: the classes *)
  Definition class_named (cls : string) : option pclass :=
    dget String.eqb [("SubsidenceTimeSeries", SubsidenceTimeSeries); ("SubmarineDiffuser", SubmarineDiffuser); ("Fluvial", Fluvial);
                     ("SedimentFlexure", SedimentFlexure); ("ShorelineFinder", ShorelineFinder);
                     ("SeaLevelTimeSeries", SeaLevelTimeSeries); ("SinusoidalSeaLevel", SinusoidalSeaLevel)] cls.
  Definition make (cls : string) (params : section (pvalue A)) (g : grid A) : result (part * grid A) :=
    match class_named cls with
    | Some c => let* (p, g) := construct (ex_interp1d E) c params g in Ok (Ours p, g)
    | None => let* (x, g) := ex_make E cls params g in Ok (Extra x, g)
    end.

  (* component.run_one_step(dt) *)
  Definition part_step (dt : A) (pg : part * grid A) : result (part * grid A) :=
    match fst pg with
    | Ours p => let* (p, g) := process_step (ex_interp1d E) (ex_diffuse E) (ex_flexure E) (ex_gravity E) dt (p, snd pg) in Ok (Ours p, g)
    | Extra x => let* (x, g) := ex_step E dt (x, snd pg) in Ok (Extra x, g)
    end.
  (* the component of a name, among all of them *)
  Definition step_of (name : string) : component A parts :=
    fun dt wg => match dget String.eqb (fst wg) name with
                 | None => Err KeyError
                 | Some p => let* (p, g) := part_step dt (p, snd wg) in Ok (dset String.eqb (fst wg) name p, g)
                 end.
  (* sequence/sequence_model.py:365-369 *)
  Definition new_porosity (ps : parts) : A :=
    match dget String.eqb ps "compaction" with Some (Extra x) => ex_porosity_max E x | _ => nlit (1 # 2) end.
  (* sequence/sequence_model.py:139-140; "sea_level" is always one of the two
     sea-level classes *)
  Definition set_sea_time (t : A) (ps : parts) : parts :=
    match dget String.eqb ps "sea_level" with
    | Some (Ours (PSeaLevel c)) => dset String.eqb ps "sea_level" (Ours (PSeaLevel (SeaLevel.sea_level_set_time t c)))
    | Some (Ours (PSinusoid c)) => dset String.eqb ps "sea_level" (Ours (PSinusoid (SeaLevel.sea_level_set_time t c)))
    | _ => ps
    end.
  (* the components by name, in the order of the dictionary
     (sequence/sequence_model.py:119,323) *)
  Definition named_processes (names : list string) : processes A parts :=
    mkProcesses (map step_of names) new_porosity set_sea_time.

  (* sequence/cli.py:271-280; [read] reads the bathymetry.  The processes are
     created before the model *)
  Definition load_model (params : grid_params A) (read : grid A -> result (grid A)) (names : list string)
      (context : context (pvalue A)) (c : clock A) : result (list string * smodel A parts) :=
    let* g := load_grid params (Some read) in
    let* (ps, g) := load_processes same_value make g names context in
    let* m := model_init (named_processes (map fst ps)) ps g c in
    Ok (map fst ps, m).

  (* sequence/sequence_model.py:286-297 set_params; assigning may change the
     grid *)
  Definition part_set (name : string) (v : pvalue A) (pg : part * grid A) : result (part * grid A) :=
    match fst pg with
    | Ours p => let* (p, g) := set_attribute name v (p, snd pg) in Ok (Ours p, g)
    | Extra x => let* (x, g) := ex_set E name v (x, snd pg) in Ok (Extra x, g)
    end.
  Definition set_model_params (params : context (pvalue A)) (m : smodel A parts) : result (smodel A parts) :=
    let* (ps, g) := foldM (fun st nv =>
                       match dget String.eqb (fst st) (fst nv) with
                       | None => Err KeyError
                       | Some p =>
                           let* (p, g) := foldM (fun pg kv => part_set (fst kv) (snd kv) pg) (snd nv) (p, snd st) in
                           Ok (dset String.eqb (fst st) (fst nv) p, g)
                       end) params (sm_world m, sm_grid m) in
    Ok (mkModel ps g (sm_clock m) (sm_archived m)).
End Whole.
Arguments part : clear implicits. Arguments parts : clear implicits.
Arguments Ours {A X}. Arguments Extra {A X}.
