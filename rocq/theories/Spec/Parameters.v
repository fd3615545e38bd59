(** Vocabulary for the parameters of processes. *)
From Coq Require Import String List Bool.
From Verif.Base Require Import Py.
From Verif.Model Require Import Processes.
Import ListNotations.
Local Open Scope string_scope.
Local Open Scope list_scope.

Section Parameters.
  Context {V : Type} (veqb : V -> V -> bool).

  (* context[p][k], if there is such a value *)
  Definition value (ctx : context V) (p k : string) : option V :=
    match dget String.eqb ctx p with Some d => dget String.eqb d k | None => None end.

  (* both define the key, with different values *)
  Definition conflict (d1 d2 : section V) (k : string) : bool :=
    match dget String.eqb d1 k, dget String.eqb d2 k with
    | Some v1, Some v2 => negb (veqb v2 v1)
    | _, _ => false
    end.
  (* the value either gives to the key *)
  Definition either (d1 d2 : section V) (k : string) : option V :=
    match dget String.eqb d2 k with Some v => Some v | None => dget String.eqb d1 k end.

  (* a list without repetitions, in order of first appearance *)
  Fixpoint once (seen l : list string) : list string :=
    match l with
    | [] => []
    | x :: l => if existsb (String.eqb x) seen then once seen l else x :: once (seen ++ [x]) l
    end.

  Definition known_processes : list (string * string) :=
    [("subsidence", "SubsidenceTimeSeries"); ("compaction", "Compact");
     ("submarine_diffusion", "SubmarineDiffuser"); ("fluvial", "Fluvial"); ("flexure", "SedimentFlexure");
     ("shoreline", "ShorelineFinder"); ("water_flexure", "WaterFlexure")].
  Definition is_known (name : string) : Prop := name = "sea_level" \/ In name (map fst known_processes).

  (* a constructor that returns its arguments *)
  Definition record_call {G} (cls : string) (params : section V) (g : G) : result (string * section V * G) :=
    Ok (cls, params, g).

  (* call each class in turn, passing the grid along, and collect the objects *)
  Definition call_all {G P} (make : string -> section V -> G -> result (P * G)) (calls : list (string * (string * section V)))
     (st : list (string * P) * G) : result (list (string * P) * G) :=
    foldM (fun st c => let* (p, g) := make (fst (snd c)) (snd (snd c)) (snd st) in Ok (fst st ++ [(fst c, p)], g)) calls st.

  (* components that are dictionaries of attributes *)
  Definition store (c : section V) (k : string) (v : V) : result (section V) := Ok (dset String.eqb c k v).

  (* what becomes of one matched pair: [p1 p2 keys] between the parameters
     [before] and [after] *)
  Definition pair_outcome (before after : string -> string -> option V) (pair : string * string * list string) : Prop :=
    let '(p1, p2, keys) := pair in
    ((exists k v1 v2, In k keys /\ before p1 k = Some v1 /\ before p2 k = Some v2 /\ veqb v2 v1 = false) ->
       forall k, In k keys -> after p1 k = before p1 k /\ after p2 k = before p2 k)
    /\ (~ (exists k v1 v2, In k keys /\ before p1 k = Some v1 /\ before p2 k = Some v2 /\ veqb v2 v1 = false) ->
        forall k, In k keys -> after p1 k = after p2 k
          /\ after p1 k = match before p2 k with Some v => Some v | None => before p1 k end).
End Parameters.

(* the parameters that two processes should share *)
Definition shared_parameters : list (string * string * list string) :=
  [("fluvial", "submarine_diffusion", ["sediment_load"; "plain_slope"]);
   ("fluvial", "sediments", ["hemipelagic"]);
   ("shoreline", "submarine_diffusion", ["alpha"]);
   ("water_flexure", "flexure", ["isostasytime"; "eet"])].
(* what runs: the requested processes, fluvial and shoreline *)
Definition enabled (processes : list string) (p : string) : Prop :=
  In p processes \/ p = "fluvial" \/ p = "shoreline".
(* the value of a parameter in the recorded call of a class *)
Definition created {V} (objs : list (string * (string * section V))) (p k : string) : option V :=
  match dget String.eqb objs p with Some (_, params) => dget String.eqb params k | None => None end.
