(** Vocabulary for whole models (C32-C42). *)
From Coq Require Import String List QArith Reals Arith.
From Verif.Base Require Import Num Py Arr.
From Verif.Model Require Import Layers Grid Sequence Flexure SequenceModel.
Import ListNotations.

Section Column.
  Context {A : Type} `{Num A}.

  (* a node field of the grid's size *)
  Definition has_field (g : grid A) (name : string) : Prop :=
    exists f, node g name = Some f /\ shaped (g_rows g + 2) (g_cols g) f.

  (* l is the row field f over all rows: NaN if there is no such field, and a
     field of one value is spread *)
  Definition recorded_rows (rows : nat) (f : option (list (option A))) (l : list (option A)) : Prop :=
    length l = rows /\ forall k, (k < rows)%nat ->
      nth k l None = match f with
                     | None => None
                     | Some v => if Nat.eqb (length v) rows then nth k v None else nth 0 v None
                     end.

  (* a grid on which a model can work *)
  Definition model_grid (g : grid A) : Prop :=
    (2 <= g_cols g)%nat
    /\ has_field g "topographic__elevation" /\ has_field g "bedrock_surface__elevation"
    /\ has_field g "sediment_deposit__thickness"
    /\ shaped (g_rows g) (g_cols g - 2) (el_stacks (layers g)).

  (* a component that leaves the grid one on which a model can work, of the
     same size *)
  Definition keeps_grid {W} (c : component A W) : Prop :=
    forall dt w g w' g', model_grid g -> c dt (w, g) = Ok (w', g') ->
      model_grid g' /\ g_rows g' = g_rows g /\ g_cols g' = g_cols g.

  (* the same, with every node field of the grid's size (landlab allows no
     other) *)
  Definition whole_grid (g : grid A) : Prop :=
    model_grid g /\ forall name f, node g name = Some f -> shaped (g_rows g + 2) (g_cols g) f.
  Definition keeps_whole {W} (c : component A W) : Prop :=
    forall dt w g w' g', whole_grid g -> c dt (w, g) = Ok (w', g') ->
      whole_grid g' /\ g_rows g' = g_rows g /\ g_cols g' = g_cols g.

  (* elevation of every cell = its bedrock + its layers *)
  Definition balanced (g : grid A) : Prop :=
    forall z z0 i j, node g "topographic__elevation" = Some z ->
      node g "bedrock_surface__elevation" = Some z0 ->
      (i < g_rows g)%nat -> (j < g_cols g - 2)%nat ->
      at2 n0 z (S i) (S j) = nadd (at2 n0 z0 (S i) (S j)) (stack_thickness (at2 [] (el_stacks (layers g)) i j)).

  (* nothing waits to be deposited *)
  Definition deposit_cleared (g : grid A) : Prop :=
    forall dz i j, node g "sediment_deposit__thickness" = Some dz ->
      (i < g_rows g + 2)%nat -> (j < g_cols g)%nat -> at2 n0 dz i j = n0.

  (* the properties recorded in each layer *)
  Definition layer_names (g : grid A) : list string :=
    ["age"; "water_depth"; "t0"; "porosity"]%string
    ++ match node g "delta_sediment_sand__volume_fraction" with Some _ => ["percent_sand"%string] | None => [] end.
  (* the layers laid so far record the same properties *)
  Definition tracks (g : grid A) : Prop :=
    el_number (layers g) = 0%nat \/ el_tracking (layers g) = layer_names g.
End Column.

(** What a user of Sequence calls. *)
Inductive seq_call (A : Type) : Type :=
| Update (dt : option A)
| Run (until dt : option A).
Arguments Update {A}. Arguments Run {A}.

Definition seq_exec {A} `{Num A} {W} (components : list (component A W)) (s : sequence A W) (c : seq_call A)
  : result (sequence A W) :=
  match c with
  | Update (Some dt) => sequence_update components dt s
  | Update None => sequence_update_default components s
  | Run until dt => sequence_run components until dt s
  end.
Definition seq_calls {A} `{Num A} {W} (components : list (component A W)) (calls : list (seq_call A))
  (s : sequence A W) : result (sequence A W) := foldM (seq_exec components) calls s.

(** What a user of SequenceModel calls: steps, run() and changes of
    parameters (set_params, any change of the components' states). *)
Inductive model_call (A W : Type) : Type :=
| Step (dt : option A)
| RunToStop (fuel : nat)
| SetParams (f : W -> result W).
Arguments Step {A W}. Arguments RunToStop {A W}. Arguments SetParams {A W}.

(* None: an exception, or a run() that did not end within its fuel *)
Definition model_exec {A} `{Num A} {W} (pr : processes A W) (m : smodel A W) (c : model_call A W)
  : option (smodel A W) :=
  match c with
  | Step dt => match run_one_step pr dt m with Stepped m | ClockStop m => Some m | Raised _ => None end
  | RunToStop fuel => match model_run fuel pr m with Some (Ok m) => Some m | _ => None end
  | SetParams f => match f (sm_world m) with
                   | Ok w => Some (mkModel w (sm_grid m) (sm_clock m) (sm_archived m))
                   | Err _ => None
                   end
  end.
Fixpoint model_calls {A} `{Num A} {W} (pr : processes A W) (calls : list (model_call A W)) (m : smodel A W)
  : option (smodel A W) :=
  match calls with
  | [] => Some m
  | c :: cs => match model_exec pr m c with Some m => model_calls pr cs m | None => None end
  end.

(** A component that also keeps a log of its calls. *)
Definition logged {A W} (k : nat) (c : component A W) : component A (W * list (nat * A)) :=
  fun dt s => match c dt (fst (fst s), snd s) with
              | Ok (w, g) => Ok (w, snd (fst s) ++ [(k, dt)], g)
              | Err e => Err e
              end.
(* every component keeps the log, under its position in the list *)
Definition logged_processes {A W} (pr : processes A W) : processes A (W * list (nat * A)) :=
  mkProcesses (mapi logged (pr_components pr)) (fun w => pr_porosity pr (fst w))
    (fun t w => (pr_set_sea_time pr t (fst w), snd w)).

(** The increments that a list of components adds to the bedrock, one field per
    component: each leaves the bedrock alone and adds its field, node by node,
    to the pending increment. *)
Inductive adds_up {W} : list (component R W) -> R -> W * grid R -> list (field R) -> W * grid R -> Prop :=
| adds_none dt wg : adds_up [] dt wg [] wg
| adds_some c cs dt w g w1 g1 d ds wg' inc inc1 :
    c dt (w, g) = Ok (w1, g1) ->
    node g1 "bedrock_surface__elevation" = node g "bedrock_surface__elevation" ->
    node g "bedrock_surface__increment_of_elevation" = Some inc ->
    node g1 "bedrock_surface__increment_of_elevation" = Some inc1 ->
    (forall i j, (i < g_rows g + 2)%nat -> (j < g_cols g)%nat ->
       at2 0%R inc1 i j = (at2 0%R inc i j + at2 0%R d i j)%R) ->
    adds_up cs dt (w1, g1) ds wg' ->
    adds_up (c :: cs) dt (w, g) (d :: ds) wg'.

(* several steps of a model, with the increments added in each *)
Inductive adds_up_steps {W} : processes R W -> list R -> smodel R W -> list (list (field R)) -> smodel R W -> Prop :=
| steps_none pr m : adds_up_steps pr [] m [] m
| steps_some pr dt dts m g0 ds wg dss m1 m' :
    dt <> 0%R ->
    clear_deposit (sm_grid m) = Ok g0 ->
    adds_up (pr_components pr) dt (sm_world m, g0) ds wg ->
    run_one_step pr (Some dt) m = Stepped m1 ->
    adds_up_steps pr dts m1 dss m' ->
    adds_up_steps pr (dt :: dts) m (ds :: dss) m'.

(* a component that adds a fixed field to the pending increment *)
Definition contributes {W} (c : component R W) (d : field R) : Prop :=
  forall dt w g w1 g1 inc, whole_grid g -> node g "bedrock_surface__increment_of_elevation" = Some inc ->
    c dt (w, g) = Ok (w1, g1) ->
    node g1 "bedrock_surface__elevation" = node g "bedrock_surface__elevation"
    /\ exists inc1, node g1 "bedrock_surface__increment_of_elevation" = Some inc1
       /\ forall i j, (i < g_rows g + 2)%nat -> (j < g_cols g)%nat ->
            at2 0%R inc1 i j = (at2 0%R inc i j + at2 0%R d i j)%R.

(* steps that all complete *)
Fixpoint complete_steps {A} `{Num A} {W} (pr : processes A W) (dts : list A) (m : smodel A W) : option (smodel A W) :=
  match dts with
  | [] => Some m
  | dt :: dts => match run_one_step pr (Some dt) m with
                 | Stepped m1 => complete_steps pr dts m1
                 | _ => None
                 end
  end.

(* the grid as the components of a step leave it *)
Definition after_components {A} `{Num A} {W} (pr : processes A W) (dt : A) (m : smodel A W) (g1 : grid A) : Prop :=
  exists g0 w1, clear_deposit (sm_grid m) = Ok g0
    /\ run_components (pr_components pr) dt (sm_world m, g0) = Ok (w1, g1).

(* the weight of a column of sediment (sand fraction s, porosity 0.5, water
   1030) that raises a surface from z, relative to the sea, by d *)
Definition sediment_weight {A} `{Num A} (s z d : A) : A :=
  ((nlit (1 # 2)) * (s * nlit 2650 + (n1 - s) * nlit 2720) * d
   + (nlit (1 # 2)) * nlit 1030 * (nmin (z + d) n0 - nmin z n0))%num.

(* n steps fit between start and stop, and no more *)
Definition full_steps (start stop step : R) (n : nat) : Prop :=
  ((n = 0%nat \/ start + INR n * step <= stop) /\ stop < start + (INR n + 1) * step)%R.

(* the same model with an empty or given log *)
Definition with_log {A W} (m : smodel A W) (log : list (nat * A)) : smodel A (W * list (nat * A)) :=
  mkModel (sm_world m, log) (sm_grid m) (sm_clock m) (sm_archived m).

(* a Sequence with a log; its components are [mapi logged components] *)
Definition seq_log {A W} (s : sequence A W) (log : list (nat * A)) : sequence A (W * list (nat * A)) :=
  mkSequence (sq_world s, log) (sq_grid s) (sq_time s) (sq_time_step s) (sq_archived s)
    (sq_at_layer_grid s) (sq_at_layer_row s).
(* every component once, in order, by each of the lengths ds *)
Definition calls_of {A} (n : nat) (ds : list A) : list (nat * A) :=
  flat_map (fun d => map (fun i => (i, d)) (seq 0 n)) ds.

(* everything a step of a SequenceModel reads is there, and the named node
   fields too *)
Definition ready {A} `{Num A} (names : list string) (g : grid A) : Prop :=
  whole_grid g /\ gval g "sea_level__elevation" <> None
  /\ (node g "sediment__total_of_loading" <> None -> node g "delta_sediment_sand__volume_fraction" <> None)
  /\ el_number (layers g) <> 0%nat
  /\ incl ["age"; "water_depth"; "t0"; "percent_sand"; "porosity"]%string (el_tracking (layers g))
  /\ forall n, In n names -> node g n <> None.
(* a component that succeeds on every such grid and leaves one *)
Definition reliable {A} `{Num A} {W} (names : list string) (c : component A W) : Prop :=
  forall dt w g, ready names g -> exists w' g', c dt (w, g) = Ok (w', g') /\ ready names g'
    /\ g_rows g' = g_rows g /\ g_cols g' = g_cols g.

(* the load of every cell changes by the weight of what its layers gain or lose *)
Local Open Scope R_scope.
Definition load_matches {W} (pr : processes R W) (dt : R) (m m' : smodel R W) (g1 : grid R) : Prop :=
  forall t t' z sand sea i j,
    node g1 "sediment__total_of_loading" = Some t -> node (sm_grid m') "sediment__total_of_loading" = Some t' ->
    node g1 "topographic__elevation" = Some z -> node g1 "delta_sediment_sand__volume_fraction" = Some sand ->
    gval g1 "sea_level__elevation" = Some sea ->
    (i < g_rows (sm_grid m))%nat -> (j < g_cols (sm_grid m) - 2)%nat ->
    at2 0 t' (S i) (S j) = at2 0 t (S i) (S j)
      + sediment_weight (at2 0 sand (S i) (S j)) (at2 0 z (S i) (S j) - sea)
          (stack_thickness (at2 [] (el_stacks (layers (sm_grid m'))) i j)
           - stack_thickness (at2 [] (el_stacks (layers g1)) i j)).

