(** C43-C46 and C71: loading the processes and setting their parameters.

    A constructor call is [make class parameters grid]; it is arbitrary, or
    [record_call], which returns its arguments.  [enabled], [created],
    [known_processes], [shared_parameters], [pair_outcome], [call_all] and
    [store] are in Spec/Parameters.v; [veqb] is Python's == on parameter
    values. *)
From Coq Require Import String List Bool.
From Verif.Base Require Import Py.
From Verif.Model Require Import Processes.
From Verif.Spec Require Import Parameters.
From Verif.Proofs Require Import ProcessesP.
Import ListNotations.
Local Open Scope string_scope.
Local Open Scope list_scope.

(** C43 *)
Theorem C43_processes_in_order {V G P} (veqb : V -> V -> bool) (make : string -> section V -> G -> result (P * G))
    g processes ctx objs g' :
  load_processes veqb make g processes ctx = Ok (objs, g') ->
  dkeys objs = once [] (processes ++ (if existsb (String.eqb "fluvial") processes then [] else ["fluvial"])
                                  ++ (if existsb (String.eqb "shoreline") processes then [] else ["shoreline"]))
  /\ Forall is_known processes.
Proof. exact (load_processes_names veqb make g processes ctx objs g'). Qed.
Print Assumptions C43_processes_in_order.
Theorem C43_unknown_raises {V G P} (veqb : V -> V -> bool) (make : string -> section V -> G -> result (P * G)) g processes ctx p :
  In p processes -> ~ is_known p -> exists e, load_processes veqb make g processes ctx = Err e.
Proof. exact (load_processes_unknown veqb make g processes ctx p). Qed.
Print Assumptions C43_unknown_raises.
(* one call for each, whatever the classes do: with the calls that
   [record_call] shows, whose parameters are the subject of C46 *)
Theorem C43_one_call_each {V} (veqb : V -> V -> bool) processes ctx : (forall v, veqb v v = true) ->
  Forall is_known processes ->
  exists calls : list (string * (string * section V)),
    map fst calls = processes ++ (if existsb (String.eqb "fluvial") processes then [] else ["fluvial"])
                              ++ (if existsb (String.eqb "shoreline") processes then [] else ["shoreline"])
    /\ (forall name cls params, In (name, (cls, params)) calls ->
          (name = "sea_level" /\ cls = match value ctx "sea_level" "filepath" with
                                       | Some _ => "SeaLevelTimeSeries" | None => "SinusoidalSeaLevel" end)
          \/ In (name, cls) known_processes)
    /\ (exists objs, load_processes veqb record_call tt processes ctx = Ok (objs, tt)
          /\ forall call, In call calls -> dget String.eqb objs (fst call) = Some (snd call))
    /\ forall G P (make : string -> section V -> G -> result (P * G)) g,
         load_processes veqb make g processes ctx
         = let* (objs, g) := call_all make calls ([], g) in Ok (dupdate String.eqb [] objs, g).
Proof. exact (fun r => one_call_each veqb r processes ctx). Qed.
Print Assumptions C43_one_call_each.
Example C43_nonvacuous :
  load_processes Nat.eqb record_call tt ["submarine_diffusion"; "fluvial"] ex_context
  = Ok ([("submarine_diffusion", ("SubmarineDiffuser", [("sediment_load", 4); ("alpha", 5)]));
         ("fluvial", ("Fluvial", [("sediment_load", 1); ("plain_slope", 2)]));
         ("shoreline", ("ShorelineFinder", [("alpha", 5)]))], tt)
  /\ Forall is_known ["submarine_diffusion"; "fluvial"]
  /\ load_processes Nat.eqb record_call tt ["sediments"] ex_context = Err KeyError.
Proof.
  split; [exact ex_load|]. split; [|reflexivity]. repeat constructor; right; cbn; tauto.
Qed.

(** C44 *)
Theorem C44_match_values {V} (veqb : V -> V -> bool) d1 d2 keys : (forall v, veqb v v = true) ->
  match match_values veqb d1 d2 keys with
  | Mismatch ks => ks = filter (conflict veqb d1 d2) keys /\ ks <> []
  | Matched m =>
      filter (conflict veqb d1 d2) keys = [] /\ NoDup (dkeys m)
      /\ (forall k, In k keys -> dget String.eqb m k = either d1 d2 k)
      /\ (forall k, ~ In k keys -> dget String.eqb m k = None)
      /\ forall k, In k keys ->
           dget String.eqb (dupdate String.eqb d1 m) k = dget String.eqb (dupdate String.eqb d2 m) k
  end.
Proof. exact (fun r => match_values_spec veqb r d1 d2 keys). Qed.
Print Assumptions C44_match_values.
(* the docstring's examples *)
Example C44_nonvacuous :
  match_values Nat.eqb [("foo", 0); ("bar", 1)] [("foo", 0); ("baz", 3)] ["foo"; "bar"] = Matched [("foo", 0); ("bar", 1)]
  /\ match_values Nat.eqb [("foo", 0); ("bar", 1)] [("foo", 2); ("bar", 3)] ["bar"; "foo"] = Mismatch ["bar"; "foo"]
  /\ match_values Nat.eqb [("foo", 0); ("bar", 1)] [("foo", 2)] ["baz"; "bar"] = Matched [("bar", 1)].
Proof. repeat split; reflexivity. Qed.

(** C45: sediments is not a process, so its section is never read. *)
Definition C45_statement : Prop := forall (V : Type) (veqb : V -> V -> bool) processes ctx objs v,
  (forall v, veqb v v = true) -> load_processes veqb record_call tt processes ctx = Ok (objs, tt) ->
  value ctx "sediments" "hemipelagic" = Some v -> value ctx "fluvial" "hemipelagic" = None ->
  created objs "fluvial" "hemipelagic" = Some v.
Theorem C45_hemipelagic_refuted : ~ C45_statement.
Proof. exact hemipelagic_refuted. Qed.
Print Assumptions C45_hemipelagic_refuted.
(* what holds instead: only the fluvial section counts.  Missing: the value of
   the sediments section *)
Theorem C45_fluvial_section_partial {V G} (veqb : V -> V -> bool) (g g' : G) processes ctx objs :
  (forall v, veqb v v = true) -> load_processes veqb record_call g processes ctx = Ok (objs, g') ->
  created objs "fluvial" "hemipelagic" = value ctx "fluvial" "hemipelagic".
Proof. exact (fun r => fluvial_hemipelagic veqb r g g' processes ctx objs). Qed.
Print Assumptions C45_fluvial_section_partial.
Example C45_nonvacuous : exists objs,
  load_processes Nat.eqb record_call tt [] [("fluvial", [("hemipelagic", 7)])] = Ok (objs, tt)
  /\ created objs "fluvial" "hemipelagic" = Some 7.
Proof. eexists. split; reflexivity. Qed.

(** C46: the parameters the processes are created with. *)
Theorem C46_shared_parameters {V G} (veqb : V -> V -> bool) (g g' : G) processes ctx objs :
  (forall v, veqb v v = true) -> load_processes veqb record_call g processes ctx = Ok (objs, g') ->
  (forall p1 p2 keys, In (p1, p2, keys) shared_parameters -> enabled processes p1 -> enabled processes p2 ->
     pair_outcome veqb (value ctx) (created objs) (p1, p2, keys))
  /\ (forall p k, enabled processes p ->
        (forall p1 p2 keys, In (p1, p2, keys) shared_parameters -> enabled processes p1 -> enabled processes p2 ->
           ~ ((p = p1 \/ p = p2) /\ In k keys)) ->
        created objs p k = value ctx p k).
Proof. exact (fun r => created_parameters veqb r g g' processes ctx objs). Qed.
Print Assumptions C46_shared_parameters.
Theorem C46_conflicts_reported {V} (veqb : V -> V -> bool) processes ctx p1 p2 ks : (forall v, veqb v v = true) ->
  In (p1, p2, ks) (snd (match_params veqb (own_params ctx (with_required processes))))
  <-> exists keys, In (p1, p2, keys) shared_parameters /\ enabled processes p1 /\ enabled processes p2
      /\ ks = filter (fun k => match value ctx p1 k, value ctx p2 k with
                               | Some v1, Some v2 => negb (veqb v2 v1) | _, _ => false end) keys
      /\ ks <> [].
Proof. exact (fun r => conflicts_reported veqb r processes ctx p1 p2 ks). Qed.
Print Assumptions C46_conflicts_reported.
(* a conflict keeps both sides, no conflict fills both sides *)
Example C46_nonvacuous :
  snd (match_params Nat.eqb (own_params ex_context (with_required ["submarine_diffusion"])))
  = [("fluvial", "submarine_diffusion", ["sediment_load"])]
  /\ load_processes Nat.eqb record_call tt ["submarine_diffusion"]
       [("fluvial", [("sediment_load", 1)]); ("submarine_diffusion", [("plain_slope", 4)])]
     = Ok ([("submarine_diffusion", ("SubmarineDiffuser", [("plain_slope", 4); ("sediment_load", 1)]));
            ("fluvial", ("Fluvial", [("sediment_load", 1); ("plain_slope", 4)]));
            ("shoreline", ("ShorelineFinder", []))], tt).
Proof. split; [reflexivity|exact ex_load_agreeing]. Qed.

(** C71: set_params on components with plain attributes; a name that is not a
    component raises, whatever the attributes are. *)
Theorem C71_set_params {V} (params components : context V) : NoDup (dkeys params) ->
  Forall (fun nv => NoDup (dkeys (snd nv))) params -> (forall p, In p (dkeys params) -> In p (dkeys components)) ->
  exists cs, set_params store components params = Ok cs /\ dkeys cs = dkeys components
    /\ forall p k, value cs p k = match value params p k with Some v => Some v | None => value components p k end.
Proof. exact (fun n f => set_params_ok params n f components). Qed.
Print Assumptions C71_set_params.
Theorem C71_unknown_raises {V P} (setattr : P -> string -> V -> result P) (params : context V) p (components : list (string * P)) :
  In p (dkeys params) -> ~ In p (dkeys components) -> exists e, set_params setattr components params = Err e.
Proof. exact (fun i => set_params_unknown setattr params p i components). Qed.
Print Assumptions C71_unknown_raises.
Example C71_nonvacuous :
  set_params store [("a", [("x", 1); ("y", 2)]); ("b", [("x", 3)])] [("b", [("z", 5)]); ("a", [("y", 4)])]
  = Ok [("a", [("x", 1); ("y", 4)]); ("b", [("x", 3); ("z", 5)])].
Proof. reflexivity. Qed.
