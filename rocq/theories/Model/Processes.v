(** sequence/sequence_model.py: load_processes, _match_values and set_params.

    A parameter value is any type [V] with Python's == as [veqb]; a
    configuration is a dictionary (insertion-ordered association list) of
    dictionaries. *)
From Coq Require Import String List Bool.
From Verif.Base Require Import Py.
Import ListNotations.
Local Open Scope string_scope.
Local Open Scope list_scope.

Section Processes.
  Context {V : Type} (veqb : V -> V -> bool).

  Definition section : Type := list (string * V).
  Definition context : Type := list (string * section).

  Inductive match_result : Type :=
  | Matched (d : section)
  | Mismatch (keys : list string).   (* ParameterMismatchError(keys) *)

  (* sequence/sequence_model.py:483-495 _match_values *)
  Definition match_key (d1 d2 : section) (st : section * list string) (key : string) : section * list string :=
    let matched := match dget String.eqb d2 key with Some v => dset String.eqb (fst st) key v | None => fst st end in
    match dget String.eqb d1 key with
    | None => (matched, snd st)
    | Some v1 =>
        let matched := if din String.eqb matched key then matched else dset String.eqb matched key v1 in
        match dget String.eqb matched key with
        | Some v => if veqb v v1 then (matched, snd st) else (matched, snd st ++ [key])
        | None => (matched, snd st)
        end
    end.
  Definition match_values (d1 d2 : section) (keys : list string) : match_result :=
    let st := fold_left (match_key d1 d2) keys ([], []) in
    match snd st with
    | [] => Matched (fst st)
    | ks => Mismatch ks
    end.

  (* sequence/sequence_model.py:189-192 *)
  Definition with_required (processes : list string) : list string :=
    let has p l := existsb (String.eqb p) l in
    let ps := if has "fluvial" processes then processes else processes ++ ["fluvial"] in
    if has "shoreline" ps then ps else ps ++ ["shoreline"].

  (* sequence/sequence_model.py:193-196; a missing section is {} *)
  Definition own_params (ctx : context) (processes : list string) : context :=
    fold_left (fun acc p => dset String.eqb acc p match dget String.eqb ctx p with Some d => d | None => [] end)
      processes [].

  (* params[name] of a defaultdict(dict).  Reading a missing name also inserts
     {}: no later step can tell, so the insertion is left out *)
  Definition params_of (params : context) (name : string) : section :=
    match dget String.eqb params name with Some d => d | None => [] end.

  (* sequence/sequence_model.py:198-203 params_to_match *)
  Definition params_to_match : list (string * string * list string) :=
    [("fluvial", "submarine_diffusion", ["sediment_load"; "plain_slope"]);
     ("fluvial", "sediments", ["hemipelagic"]);
     ("shoreline", "submarine_diffusion", ["alpha"]);
     ("water_flexure", "flexure", ["isostasytime"; "eet"])].

  (* sequence/sequence_model.py:204-238; the log messages are left out, the
     conflicts that are warned about are kept *)
  Definition match_pair (st : context * list (string * string * list string)) (pair : string * string * list string)
    : context * list (string * string * list string) :=
    let '(d1, d2, keys) := pair in
    match match_values (params_of (fst st) d1) (params_of (fst st) d2) keys with
    | Mismatch ks => (fst st, snd st ++ [(d1, d2, ks)])
    | Matched m =>
        let ps := dset String.eqb (fst st) d1 (dupdate String.eqb (params_of (fst st) d1) m) in
        (dset String.eqb ps d2 (dupdate String.eqb (params_of ps d2) m), snd st)
    end.
  Definition match_params (params : context) : context * list (string * string * list string) :=
    fold_left match_pair params_to_match (params, []).

  (* sequence/sequence_model.py:250-265: the class of a process *)
  Definition process_class (params : context) (name : string) : result string :=
    let classes :=
      [("subsidence", "SubsidenceTimeSeries"); ("compaction", "Compact");
       ("submarine_diffusion", "SubmarineDiffuser"); ("fluvial", "Fluvial"); ("flexure", "SedimentFlexure");
       ("shoreline", "ShorelineFinder"); ("water_flexure", "WaterFlexure");
       ("sea_level", if din String.eqb (params_of params "sea_level") "filepath"
                     then "SeaLevelTimeSeries" else "SinusoidalSeaLevel")] in
    match dget String.eqb classes name with Some c => Ok c | None => Err KeyError end.

  (* sequence/sequence_model.py:174-269 load_processes.  [make class params g]
     is the call of a class on the grid: an object and the changed grid *)
  Definition load_processes {G P} (make : string -> section -> G -> result (P * G)) (g : G)
      (processes : list string) (ctx : context) : result (list (string * P) * G) :=
    let names := with_required processes in
    let params := fst (match_params (own_params ctx names)) in
    let* (objs, g) := foldM (fun st name =>
                               let* cls := process_class params name in
                               let* (p, g) := make cls (params_of params name) (snd st) in
                               Ok (fst st ++ [(name, p)], g)) names ([], g) in
    Ok (dupdate String.eqb [] objs, g).

  (* sequence/sequence_model.py:286-297 set_params; [setattr] is setattr on a
     component *)
  Definition set_params {P} (setattr : P -> string -> V -> result P) (components : list (string * P)) (params : context)
    : result (list (string * P)) :=
    foldM (fun cs nv =>
             match dget String.eqb cs (fst nv) with
             | None => Err KeyError
             | Some c =>
                 let* c := foldM (fun c kv => setattr c (fst kv) (snd kv)) (snd nv) c in
                 Ok (dset String.eqb cs (fst nv) c)
             end) params components.
End Processes.
Arguments section : clear implicits. Arguments context : clear implicits.
Arguments match_result : clear implicits.
Arguments Matched {V}. Arguments Mismatch {V}.
