(** sequence/sequence_model.py: the SequenceModel class (its clock, steps and
    fields; load_processes is in Model/Processes.v). *)
From Coq Require Import String List ZArith QArith Arith.
From Verif.Base Require Import Num Py Arr.
From Verif.Model Require Import Layers Grid Archive Flexure Sequence.
Import ListNotations.
Local Open Scope num_scope.

Section SequenceModel.
  Context {A : Type} `{Num A}.

  (** landlab's TimeStepper (landlab/bmi/bmi_bridge.py, not part of /repo) as
      sequence/sequence_model.py:118,301-303 uses it.  Its [dt] attribute is
      assigned but never read, so it is left out. *)
  Record clock : Type := mkClock { ck_start : A; ck_stop : option A; ck_step : A; ck_time : A }.
  Definition clock_init (start : A) (stop : option A) (step : A) : clock := mkClock start stop step start.
  (* advance(): the time moves first, then StopIteration is raised past stop *)
  Definition clock_advance (c : clock) : clock * bool :=
    let time := ck_time c + ck_step c in
    (mkClock (ck_start c) (ck_stop c) (ck_step c) time,
     match ck_stop c with Some stop => stop <? time | None => false end).

  (** The processes of a model: the components in the order in which they run;
      the porosity given to new layers, which is the compaction component's
      porosity_max or 0.5 (sequence/sequence_model.py:365-369); and the
      assignment of the sea-level component's time (lines 139-140; the identity
      if there is none). *)
  Record processes (W : Type) : Type := mkProcesses {
    pr_components : list (component A W);
    pr_porosity : W -> A;
    pr_set_sea_time : A -> W -> W
  }.
  Arguments pr_components {W}. Arguments pr_porosity {W}. Arguments pr_set_sea_time {W}.

  Record smodel (W : Type) : Type := mkModel {
    sm_world : W;                    (* the states of the components *)
    sm_grid : grid A;
    sm_clock : clock;
    sm_archived : nat                (* _n_archived_layers *)
  }.
  Arguments mkModel {W}. Arguments sm_world {W}. Arguments sm_grid {W}. Arguments sm_clock {W}.
  Arguments sm_archived {W}.

  Definition WATER_LOAD : string := "water__total_of_loading".
  Definition WATER_DEPTH_INC : string := "water__increment_of_depth".

  (* sequence/sequence_model.py:94-150 __init__.  The shape checks of at_row
     are not modelled: the rows are filled with NaN (None) as they are. *)
  Definition model_init {W} (pr : processes W) (w : W) (g : grid A) (c : clock) : result (smodel W) :=
    let* g := match rowf g "x_of_shore" with
              | Some v => Ok (put_rowf g "x_of_shore" (map (fun _ => None) v))
              | None => Err KeyError
              end in
    let* g := match rowf g "x_of_shelf_edge" with
              | Some v => Ok (put_rowf g "x_of_shelf_edge" (map (fun _ => None) v))
              | None => Err KeyError
              end in
    let g := put_gval g "sea_level__elevation" n0 in
    let* z0 := node_r g "bedrock_surface__elevation" in
    let n := g_rows g in
    let m := Nat.sub (g_cols g) 2 in
    let* el := el_add (full n m (nlit 100))
                 [("age"%string, full n m (ck_start c));
                  ("water_depth"%string, fmap nopp (cells z0));
                  ("t0"%string, full n m (nlit 10));
                  ("percent_sand"%string, full n m (nlit (1 # 2)));
                  ("porosity"%string, full n m (nlit (1 # 2)))] (layers g) in
    let g := set_layers g el in
    let w := pr_set_sea_time pr (ck_time c) w in
    let* g := if has_node g WATER_LOAD then
                let* z := get_profile g "topographic__elevation" in
                let* sea := gval_r g "sea_level__elevation" in
                set_profile g WATER_LOAD
                  (map (fun row => calc_water_loading (map (fun v => v - sea) row) (nlit 1030)) z)
              else Ok g in
    Ok (mkModel w g c 0).

  (* sequence/sequence_model.py:402-407,435-440: water depth of the profile *)
  Definition profile_depth (g : grid A) : result (field A) :=
    let* sea := gval_r g "sea_level__elevation" in
    let* z := get_profile g "topographic__elevation" in
    Ok (fmap (fun v => nmax (sea - v) n0) z).

  (* sequence/sequence_model.py:409-422: the sediment load *)
  Definition update_load (g : grid A) : result (grid A) :=
    if has_node g TOTAL_LOAD then
      let* dz := get_profile g "sediment_deposit__thickness" in
      let* z := get_profile g "topographic__elevation" in
      let* sea := gval_r g "sea_level__elevation" in
      let* sand := get_profile g "delta_sediment_sand__volume_fraction" in
      let* sediment_load :=
        mapM (fun r => calc_loading (fst (fst r)) (map (fun v => v - sea) (snd (fst r))) (nlit (1 # 2))
                         (map (fun s => calc_density s (nlit 2650) (nlit 2720)) (snd r)) (nlit 1030))
             (combine (combine dz z) sand) in
      let* total := get_profile g TOTAL_LOAD in
      set_profile g TOTAL_LOAD (fmap2 nadd total sediment_load)
    else Ok g.

  (* sequence/sequence_model.py:424-428: the pending bedrock increment *)
  Definition apply_increment (g : grid A) : result (grid A) :=
    if has_node g BEDROCK_INC then
      let* z0 := node_r g "bedrock_surface__elevation" in
      let* inc := node_r g BEDROCK_INC in
      let g := put_node g "bedrock_surface__elevation" (fmap2 nadd z0 inc) in
      Ok (put_node g BEDROCK_INC (fmap (fun _ => n0) inc))
    else Ok g.

  (* sequence/sequence_model.py:400-443 _update_fields *)
  Definition update_fields (g : grid A) : result (grid A) :=
    let* old_water_depth := profile_depth g in
    let* g := update_load g in
    let* g := apply_increment g in
    let* g := settle g in
    let* new_water_depth := profile_depth g in
    if has_node g WATER_DEPTH_INC then
      set_profile g WATER_DEPTH_INC (fmap2 nsub new_water_depth old_water_depth)
    else Ok g.

  (* sequence/sequence_model.py:313-343 advance_components; the timers are
     left out *)
  Definition advance_components {W} (pr : processes W) (dt : A) (m : smodel W) : result (smodel W) :=
    let* g := clear_deposit (sm_grid m) in
    let* (w, g) := run_components (pr_components pr) dt (sm_world m, g) in
    let* dz := node_r g "sediment_deposit__thickness" in
    let* properties := layer_properties (ck_time (sm_clock m)) (pr_porosity pr w) g in
    let* el := el_add (cells dz) properties (layers g) in
    let* g := update_fields (set_layers g el) in
    let (n_archived, el) := archive (sm_archived m, layers g) in
    Ok (mkModel w (set_layers g el) (sm_clock m) n_archived).

  (** A step either completes, or finds the clock past its stop, or raises (the
      state is then lost to the caller of the script; it is not modelled). *)
  Inductive outcome (W : Type) : Type :=
  | Stepped (m : smodel W)
  | ClockStop (m : smodel W)
  | Raised (e : exn).
  Arguments Stepped {W}. Arguments ClockStop {W}. Arguments Raised {W}.

  (* sequence/sequence_model.py:299-305 run_one_step(dt) *)
  Definition run_one_step {W} (pr : processes W) (dt : option A) (m : smodel W) : outcome W :=
    let dt := match dt with
              | Some d => if d =? n0 then ck_step (sm_clock m) else d
              | None => ck_step (sm_clock m)
              end in
    let (c, stop) := clock_advance (sm_clock m) in
    let m := mkModel (sm_world m) (sm_grid m) c (sm_archived m) in
    if stop then ClockStop m
    else match advance_components pr dt m with
         | Ok m => Stepped m
         | Err e => Raised e
         end.

  (* sequence/sequence_model.py:307-311 run(); None is running out of fuel *)
  Fixpoint model_run {W} (fuel : nat) (pr : processes W) (m : smodel W) : option (result (smodel W)) :=
    match fuel with
    | O => None
    | S fuel' =>
        match run_one_step pr None m with
        | Stepped m => model_run fuel' pr m
        | ClockStop m => Some (Ok m)
        | Raised e => Some (Err e)
        end
    end.

  (* sequence/sequence_model.py:153-171 load_grid; [read] is
     BathymetryReader.run_one_step *)
  Definition load_grid (params : grid_params A) (read : option (grid A -> result (grid A))) : result (grid A) :=
    let* g := grid_from_dict params in
    match read with
    | None => Ok g
    | Some read =>
        let* g := read g in
        let* z := node_r g "topographic__elevation" in
        Ok (put_node g "bedrock_surface__elevation" (fmap (fun v => v - nlit 100) z))
    end.
End SequenceModel.
Arguments clock : clear implicits.
Arguments processes A W : clear implicits.
Arguments smodel A W : clear implicits.
Arguments outcome A W : clear implicits.
Arguments mkProcesses {A W}. Arguments mkModel {A W}.
Arguments pr_components {A W}. Arguments pr_porosity {A W}. Arguments pr_set_sea_time {A W}.
Arguments sm_world {A W}. Arguments sm_grid {A W}. Arguments sm_clock {A W}. Arguments sm_archived {A W}.
Arguments Stepped {A W}. Arguments ClockStop {A W}. Arguments Raised {A W}.
