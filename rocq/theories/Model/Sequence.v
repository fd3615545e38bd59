(** sequence/sequence.py: the Sequence class. *)
From Coq Require Import String List ZArith QArith Arith.
From Verif.Base Require Import Num Py Arr.
From Verif.Model Require Import Layers Grid Archive.
Import ListNotations.
Local Open Scope num_scope.

Section Sequence.
  Context {A : Type} `{Num A}.

  (** A component: run_one_step(dt) acts on the component's own state and on
      the grid.  [W] is the joint state of all components, any type. *)
  Definition component (W : Type) : Type := A -> W * grid A -> result (W * grid A).

  (** One entry of grid.at_layer_grid (landlab EventLayers(1), always added
      with thickness 1); None is NaN. *)
  Record grid_entry : Type := mkGridEntry {
    ge_age : A; ge_sea_level : A; ge_shore : option A; ge_shelf_edge : option A
  }.
  (** One entry of grid.at_layer_row (EventLayers(number_of_rows)). *)
  Record row_entry : Type := mkRowEntry {
    re_age : A; re_sea_level : A; re_shore : list (option A); re_shelf_edge : list (option A)
  }.

  (** State of a Sequence (sequence/sequence.py:75-85), oldest entry first in
      the histories. *)
  Record sequence (W : Type) : Type := mkSequence {
    sq_world : W;
    sq_grid : grid A;
    sq_time : A;
    sq_time_step : A;
    sq_archived : nat;
    sq_at_layer_grid : list grid_entry;
    sq_at_layer_row : list row_entry
  }.
  Arguments mkSequence {W}.
  Arguments sq_world {W}. Arguments sq_grid {W}. Arguments sq_time {W}. Arguments sq_time_step {W}.
  Arguments sq_archived {W}. Arguments sq_at_layer_grid {W}. Arguments sq_at_layer_row {W}.

  Definition set_sq_grid {W} (s : sequence W) (g : grid A) : sequence W :=
    mkSequence (sq_world s) g (sq_time s) (sq_time_step s) (sq_archived s)
      (sq_at_layer_grid s) (sq_at_layer_row s).

  (* numpy: assign an array of values to n entries *)
  Definition broadcast {B} (n : nat) (l : list B) : result (list B) :=
    if Nat.eqb (length l) n then Ok l
    else match l with [v] => Ok (repeat v n) | _ => Err ValueError end.

  (* sequence/sequence.py:165-195 layer_properties and
     sequence/sequence_model.py:345-378 (which passes its own time and
     porosity).  Scalars are spread over the cells, as EventLayers.add does. *)
  Definition layer_properties (time porosity : A) (g : grid A) : result (list (string * field A)) :=
    let* dz := node_r g "sediment_deposit__thickness" in
    let* sea_level := gval_r g "sea_level__elevation" in
    let* z := node_r g "topographic__elevation" in
    let n := g_rows g in
    let m := Nat.sub (g_cols g) 2 in
    let properties :=
      [("age"%string, full n m time);
       ("water_depth"%string, cells (fmap (fun v => sea_level - v) z));
       ("t0"%string, fmap (fun v => nmax v n0) (cells dz));
       ("porosity"%string, full n m porosity)] in
    Ok (match node g "delta_sediment_sand__volume_fraction" with
        | Some percent_sand => properties ++ [("percent_sand"%string, cells percent_sand)]
        | None => properties
        end).

  (* sequence/sequence.py:217-270 add_layer *)
  Definition add_layer {W} (dz_at_cell : field A) (s : sequence W) : result (sequence W) :=
    let g := sq_grid s in
    let nan_rows := repeat (@None A) (number_of_rows g) in
    let x_of_shore := gval g "x_of_shore" in
    let x_of_shelf_edge := gval g "x_of_shelf_edge" in
    let x_of_shores := match rowf g "x_of_shore" with Some v => v | None => nan_rows end in
    let x_of_shelf_edges := match rowf g "x_of_shelf_edge" with Some v => v | None => nan_rows end in
    let* z := node_r g "topographic__elevation" in
    let g := put_node g "topographic__elevation"
               (set_cells z (fmap2 nadd (cells z) dz_at_cell)) in
    let* properties := layer_properties (sq_time s) (nlit (1 # 2)) g in
    let* el := el_add dz_at_cell properties (layers g) in
    let* sea_level := gval_r g "sea_level__elevation" in
    let grid_entry := mkGridEntry (sq_time s) sea_level x_of_shore x_of_shelf_edge in
    let* shores := broadcast (number_of_rows g) x_of_shores in
    let* shelf_edges := broadcast (number_of_rows g) x_of_shelf_edges in
    let row_entry := mkRowEntry (sq_time s) sea_level shores shelf_edges in
    let (n_archived, el) := archive (sq_archived s, el) in
    Ok (mkSequence (sq_world s) (set_layers g el) (sq_time s) (sq_time_step s) n_archived
          (sq_at_layer_grid s ++ [grid_entry]) (sq_at_layer_row s ++ [row_entry])).

  (* sequence/sequence.py:101-104,131-134 and sequence/sequence_model.py:430-433 *)
  Definition settle (g : grid A) : result (grid A) :=
    let* z := node_r g "topographic__elevation" in
    let* z0 := node_r g "bedrock_surface__elevation" in
    Ok (put_node g "topographic__elevation"
          (set_cells z (fmap2 nadd (cells z0) (el_thickness (layers g))))).

  (* sequence/sequence.py:105,135 and sequence/sequence_model.py:321: fill(0.0) *)
  Definition clear_deposit (g : grid A) : result (grid A) :=
    let* dz := node_r g "sediment_deposit__thickness" in
    Ok (put_node g "sediment_deposit__thickness" (fmap (fun _ => n0) dz)).

  (* sequence/sequence.py:58-105 __init__.  landlab's check that the required
     fields exist is the KeyError of the first access. *)
  Definition sequence_init {W} (w : W) (g : grid A) (time_step : A) : result (sequence W) :=
    let* z := node_r g "topographic__elevation" in
    let g := if has_node g "bedrock_surface__elevation" then g
             else put_node g "bedrock_surface__elevation" (fmap (fun v => v - nlit 100) z) in
    let* z0 := node_r g "bedrock_surface__elevation" in
    let initial := cells (fmap2 nsub z z0) in
    let s := mkSequence w g n0 time_step 0 [] [] in
    let* s := if existsb (existsb (fun v => n0 <? v)) initial then add_layer initial s else Ok s in
    let* g := settle (sq_grid s) in
    let* g := clear_deposit g in
    Ok (set_sq_grid s g).

  Definition run_components {W} (components : list (component W)) (dt : A) (wg : W * grid A)
    : result (W * grid A) :=
    foldM (fun wg c => c dt wg) components wg.

  (* sequence/sequence.py:112-135 update(dt) *)
  Definition sequence_update {W} (components : list (component W)) (dt : A) (s : sequence W)
    : result (sequence W) :=
    let* (w, g) := run_components components dt (sq_world s, sq_grid s) in
    let s := mkSequence w g (sq_time s + dt) (sq_time_step s) (sq_archived s)
               (sq_at_layer_grid s) (sq_at_layer_row s) in
    let* dz := node_r g "sediment_deposit__thickness" in
    let* s := add_layer (cells dz) s in
    let* g := settle (sq_grid s) in
    let* g := clear_deposit g in
    Ok (set_sq_grid s g).

  (* update() without dt: sequence/sequence.py:121 *)
  Definition sequence_update_default {W} components (s : sequence W) :=
    sequence_update components (sq_time_step s) s.

  (* sequence/sequence.py:158-163, once until and dt are known.  The number of
     steps is computed up front; a negative count runs no step (trange). *)
  Fixpoint run_steps {W} (components : list (component W)) (until dt : A) (n : nat) (s : sequence W)
    : result (sequence W) :=
    match n with
    | O => Ok s
    | S n' => let* s := sequence_update components (nmin dt (until - sq_time s)) s in
              run_steps components until dt n' s
    end.
  Definition n_steps (until dt time : A) : Z :=
    let n := nint (nfloordiv (until - time) dt) in
    if n0 <? nmod (until - time) dt then (n + 1)%Z else n.
  (* sequence/sequence.py:137-163 run(until, dt) *)
  Definition sequence_run {W} (components : list (component W)) (until dt : option A) (s : sequence W)
    : result (sequence W) :=
    let dt := match dt with Some d => d | None => sq_time_step s end in
    let until := match until with Some u => u | None => sq_time s + sq_time_step s end in
    if dt =? n0 then Err ZeroDivisionError
    else run_steps components until dt (Z.to_nat (n_steps until dt (sq_time s))) s.
End Sequence.
Arguments component A W : clear implicits.
Arguments grid_entry : clear implicits.
Arguments row_entry : clear implicits.
Arguments sequence A W : clear implicits.
Arguments mkSequence {A W}.
Arguments sq_world {A W}. Arguments sq_grid {A W}. Arguments sq_time {A W}. Arguments sq_time_step {A W}.
Arguments sq_archived {A W}. Arguments sq_at_layer_grid {A W}. Arguments sq_at_layer_row {A W}.
