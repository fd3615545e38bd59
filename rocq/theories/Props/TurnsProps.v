(** The turns of the processes of a configured model (C115), and what
    set_params assigns (C116). *)
From Coq Require Import String List ZArith QArith Reals Bool Arith.
From Verif.Base Require Import Num Py Arr.
From Verif.Model Require Import Layers Grid Interp Csv SequenceModel Setattr Processes Whole.
From Verif.Spec Require Import Laid Session Configured Turns.
From Verif.Proofs Require Import FluvialEx ScriptEx WholeP WholeEx FollowEx TurnsP TurnsEx.
Import ListNotations.
Local Open Scope string_scope.

(** C115.  The model has the listed processes, then fluvial and shoreline if
    they are not listed, each once; in every step each of them runs once, in
    that order, on what the one before left.  In any arithmetic. *)
Theorem C115_order {A X} {num : Num A} {tr : Trans A} (E : externals A X) params read names ctx c names' m0 m :
  load_model E params read names ctx c = Ok (names', m0) -> reached E names' m0 m ->
  (names' = once_each (names ++ ["fluvial"; "shoreline"])%list /\ forall n, object m n <> None <-> In n names')
  /\ forall dt m', run_one_step (named_processes E names') dt m = Stepped m' -> exists gs, in_order E (step_used dt m) names' m m' gs.
Proof. exact (fun Hl Hr => conj (objects_listed E params read names ctx c names' m0 m Hl Hr) (fun dt m' => runs_in_order E params read names ctx c names' m0 m dt m' Hl Hr)). Qed.
Print Assumptions C115_order.
(** On top of every cell the step lays what is to be deposited on the last of
    those grids, dated with the new time of the clock; its porosity is one half,
    or what the compaction says if there is one. *)
Theorem C115_layer {X} {tr : Trans R} (E : externals R X) : well_behaved E -> leaves_counts E ->
  forall params text names ctx c (g0 : grid R) names' m0 m dt m', load_grid params (Some (read_bathymetry text)) = Ok g0 ->
    (2 <= g_cols g0)%nat -> (0 < g_rows g0)%nat -> (0 < g_dx g0)%R ->
    load_model E params (read_bathymetry text) names ctx c = Ok (names', m0) -> reached E names' m0 m ->
    run_one_step (named_processes E names') dt m = Stepped m' ->
    exists gs porosity, in_order E (step_used dt m) names' m m' gs /\ porosity_is E names' m' porosity
      /\ forall i j, (i < g_rows (sm_grid m))%nat -> (j < g_cols (sm_grid m) - 2)%nat ->
         exists l, step_lays i j (ck_time (sm_clock m'), porosity, last gs (sm_grid m)) l
           /\ newest_layer (sm_grid m') i j = mkCell (Rmax (fst l) 0) (snd l).
Proof. exact (lays_layer E). Qed.
Print Assumptions C115_layer.
(* a grid and a model that meet the hypotheses over the reals, and, over the
   rationals, models that make a step: their processes, and thickness, age and
   porosity of the newest layer of a cell *)
Example C115_nonvacuous {tr : Trans R} : well_behaved (ex_ext (@ex_level R _)) /\ leaves_counts (ex_ext (@ex_level R _))
  /\ (exists (g : grid R) names m,
       load_grid ex_grid4 (Some (read_bathymetry ex_flat)) = Ok g /\ (2 <= g_cols g)%nat /\ (0 < g_rows g)%nat /\ (0 < g_dx g)%R
       /\ load_model (ex_ext ex_level) ex_grid4 (read_bathymetry ex_flat) [] [] (clock_init 0%R (Some 10%R) 1%R) = Ok (names, m))
  /\ ex_laid ["submarine_diffusion"; "shoreline"; "subsidence"; "submarine_diffusion"]
     = Some (["submarine_diffusion"; "shoreline"; "subsidence"; "fluvial"], [Some (1 # 4); Some 1; Some (1 # 2)]%Q)
  /\ ex_laid ["compaction"; "fluvial"; "sea_level"]
     = Some (["compaction"; "fluvial"; "sea_level"; "shoreline"], [Some (1 # 4); Some 1; Some (1 # 4)]%Q).
Proof. split; [apply ex_behaved; discriminate|]. split; [apply ex_counts|]. split; [exact ex_two_load|exact ex_laid_ok]. Qed.

(** C116.  set_params assigns section by section and value by value in the
    order of its argument, each to the object of that process and the grid as
    the earlier assignments left them; clock and archive stay, and so do the
    processes there are. *)
Theorem C116_assigns {A X} {num : Num A} {tr : Trans A} (E : externals A X) params (m m' : smodel A (parts A X)) : set_model_params E params m = Ok m' ->
  sm_clock m' = sm_clock m /\ sm_archived m' = sm_archived m
  /\ assigns E (assignments params) (object m) (sm_grid m) (object m') (sm_grid m')
  /\ (forall n, object m' n <> None <-> object m n <> None) /\ forall n, In n (map fst params) -> object m n <> None.
Proof. exact (set_in_order E params m m'). Qed.
Print Assumptions C116_assigns.
(** A section for a process the model does not have raises: KeyError if it is
    the first. *)
Theorem C116_unlisted {A X} {num : Num A} {tr : Trans A} (E : externals A X) params read names ctx c names' m0 m n :
  load_model E params read names ctx c = Ok (names', m0) -> reached E names' m0 m -> ~ In n (names ++ ["fluvial"; "shoreline"])%list ->
  (forall changes, In n (map fst changes) -> exists e, set_model_params E changes m = Err e)
  /\ forall kvs changes, set_model_params E ((n, kvs) :: changes) m = Err KeyError.
Proof. exact (unlisted E params read names ctx c names' m0 m n). Qed.
Print Assumptions C116_unlisted.
(* the rates of subsidence and the sea level after set_params *)
Example C116_nonvacuous :
  ex_assigning [("subsidence", [ex_sinks 2]); ("flexure", [("isostasytime", Number 1%Q)])] = Err KeyError
  /\ ex_assigning [] = Ok ([0; -1 # 5; -2 # 5; -3 # 5; -4 # 5; -1 # 1]%Q, Some 0%Q)
  /\ ex_assigning [("submarine_diffusion", [("sea_level", Number 8%Q)]); ("subsidence", [ex_sinks 7; ex_sinks 2]); ("submarine_diffusion", [("sea_level", Number 9%Q)])]
     = Ok ([2; 2; 2; 2; 2; 2]%Q, Some 9%Q).
Proof. exact ex_assigning_ok. Qed.
