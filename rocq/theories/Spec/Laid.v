(** Vocabulary for the layers that whole models lay (C85-C88). *)
From Coq Require Import String List QArith Reals Arith.
From Verif.Base Require Import Num Py Arr.
From Verif.Model Require Import Layers Grid Archive SeaLevel Sequence Flexure SequenceModel.
From Verif.Spec Require Import Strata Column.
Import ListNotations.

Section Laid.
  Context {A : Type} `{Num A}.

  (* a component that leaves the layers alone: every component but compaction *)
  Definition keeps_layers {W} (c : component A W) : Prop :=
    forall dt w g w' g', c dt (w, g) = Ok (w', g') -> layers g' = layers g.

  (* the layer laid in one cell: its thickness (negative for erosion) and what
     is recorded with it *)
  Definition laid_layer (thickness age water_depth t0 porosity : A) (sand : option A) : A * list (string * A) :=
    (thickness, [("age", age); ("water_depth", water_depth); ("t0", t0); ("porosity", porosity)]%string
                ++ match sand with Some s => [("percent_sand"%string, s)] | None => [] end).

  (* value of a node field in cell (i, j): nodes have one more row and column
     on every side *)
  Definition in_cell (f : field A) (i j : nat) : A := at2 n0 f (S i) (S j).

  (** ** one column *)
  (* all layers laid one after another, none merged *)
  Definition column (ls : list (A * list (string * A))) : stack A :=
    fold_left (fun st l => add_stack (fst l) (snd l) st) ls [].
  (* the properties tracked: those of the first layer *)
  Definition first_names (ls : list (A * list (string * A))) : list string :=
    match ls with [] => [] | l :: _ => map fst (snd l) end.
  (* the same column with its oldest groups of ten merged *)
  Definition archived_column (ls : list (A * list (string * A))) : stack A :=
    let a := merged_after (length ls) in
    map (merge_cells (layer_reducers (first_names ls))) (tens a (column ls)) ++ skipn (10 * a) (column ls).

  (* a grid on which nothing has been laid yet *)
  Definition fresh_grid (g : grid A) : Prop :=
    (2 <= g_cols g)%nat /\ has_field g "topographic__elevation" /\ has_field g "sediment_deposit__thickness"
    /\ (forall name f, node g name = Some f -> shaped (g_rows g + 2) (g_cols g) f)
    /\ layers g = el_empty (g_rows g) (g_cols g - 2).

  (** ** Sequence *)
  (* the updates of a history: the time reached and the grid as the components
     left it *)
  Inductive seq_history {W} (components : list (component A W))
    : sequence A W -> list (A * grid A) -> sequence A W -> Prop :=
  | sh_none s : seq_history components s [] s
  | sh_update dt s w g s1 hist s' :
      run_components components dt (sq_world s, sq_grid s) = Ok (w, g) ->
      sequence_update components dt s = Ok s1 ->
      seq_history components s1 hist s' ->
      seq_history components s ((nadd (sq_time s) dt, g) :: hist) s'.

  (* an update lays what the components deposited, dated with the time
     reached; the depth is that over the raised surface *)
  Definition update_lays (i j : nat) (tg : A * grid A) (l : A * list (string * A)) : Prop :=
    exists deposit z sea,
      node (snd tg) "sediment_deposit__thickness" = Some deposit
      /\ node (snd tg) "topographic__elevation" = Some z
      /\ gval (snd tg) "sea_level__elevation" = Some sea
      /\ let d := in_cell deposit i j in
         l = laid_layer d (fst tg) (nsub sea (nadd (in_cell z i j) d)) (nmax d n0) (nlit (1 # 2))
               (option_map (fun f => in_cell f i j) (node (snd tg) "delta_sediment_sand__volume_fraction")).

  (* construction lays the sediment between bedrock (100 below the surface if
     not given) and surface; the depth is that over a surface raised by its
     thickness once more, t0 is what waits to be deposited *)
  Definition init_lays (i j : nat) (g : grid A) (l : A * list (string * A)) : Prop :=
    exists deposit z sea,
      node g "sediment_deposit__thickness" = Some deposit
      /\ node g "topographic__elevation" = Some z
      /\ gval g "sea_level__elevation" = Some sea
      /\ let z0 := match node g "bedrock_surface__elevation" with
                   | Some b => in_cell b i j
                   | None => nsub (in_cell z i j) (nlit 100)
                   end in
         let d := nsub (in_cell z i j) z0 in
         l = laid_layer d n0 (nsub sea (nadd (in_cell z i j) d)) (nmax (in_cell deposit i j) n0) (nlit (1 # 2))
               (option_map (fun f => in_cell f i j) (node g "delta_sediment_sand__volume_fraction")).
  (* there is sediment to lay at the start *)
  Definition some_sediment (g : grid A) : Prop :=
    exists (i j : nat) z, (i < g_rows g)%nat /\ (j < g_cols g - 2)%nat /\ node g "topographic__elevation" = Some z
      /\ nltb n0 (nsub (in_cell z i j)
                   match node g "bedrock_surface__elevation" with
                   | Some b => in_cell b i j
                   | None => nsub (in_cell z i j) (nlit 100)
                   end) = true.

  (** ** SequenceModel *)
  (* the steps of a history: the time of the clock, the porosity in force and
     the grid as the components left it *)
  Inductive model_history {W} (pr : processes A W)
    : smodel A W -> list (A * A * grid A) -> smodel A W -> Prop :=
  | mh_none m : model_history pr m [] m
  | mh_params m m1 hist m' :          (* parameters or clock changed in between *)
      sm_grid m1 = sm_grid m -> sm_archived m1 = sm_archived m ->
      model_history pr m1 hist m' -> model_history pr m hist m'
  | mh_step dt d m m1 g hist m' :
      run_one_step pr dt m = Stepped m1 ->
      d = match dt with
          | Some d => if neqb d n0 then ck_step (sm_clock m) else d
          | None => ck_step (sm_clock m)
          end ->
      after_components pr d m g ->
      model_history pr m1 hist m' ->
      model_history pr m ((ck_time (sm_clock m1), pr_porosity pr (sm_world m1), g) :: hist) m'.

  (* a step lays what the components deposited, dated with the time of the
     clock; the depth is that over the surface before the deposit *)
  Definition step_lays (i j : nat) (tg : A * A * grid A) (l : A * list (string * A)) : Prop :=
    exists deposit z sea,
      node (snd tg) "sediment_deposit__thickness" = Some deposit
      /\ node (snd tg) "topographic__elevation" = Some z
      /\ gval (snd tg) "sea_level__elevation" = Some sea
      /\ let d := in_cell deposit i j in
         l = laid_layer d (fst (fst tg)) (nsub sea (in_cell z i j)) (nmax d n0) (snd (fst tg))
               (option_map (fun f => in_cell f i j) (node (snd tg) "delta_sediment_sand__volume_fraction")).

  (* construction lays 100 of sediment *)
  Definition model_init_lays (i j : nat) (start : A) (g : grid A) (l : A * list (string * A)) : Prop :=
    exists z0, node g "bedrock_surface__elevation" = Some z0
      /\ l = (nlit 100, [("age", start); ("water_depth", nopp (in_cell z0 i j)); ("t0", nlit 10);
                          ("percent_sand", nlit (1 # 2)); ("porosity", nlit (1 # 2))]%string).

  (** ** the newest layer of cell (i, j) *)
  Definition newest_layer (g : grid A) (i j : nat) : lcell A :=
    last (at2 [] (el_stacks (layers g)) i j) (mkCell n0 []).
  Definition newest_record (name : string) (g : grid A) (i j : nat) : option A :=
    dget String.eqb (c_props (newest_layer g i j)) name.
  Definition newest_thickness (g : grid A) (i j : nat) : A := c_dz (newest_layer g i j).

  (** ** sea level and clock *)
  (* a component that leaves the sea level and the state of the sea-level
     component alone *)
  Definition keeps_sea {W} (get : W -> sea_level_comp A) (c : component A W) : Prop :=
    forall dt w g w' g', c dt (w, g) = Ok (w', g') ->
      get w' = get w /\ gval g' "sea_level__elevation" = gval g "sea_level__elevation".
  (* n steps of run() that complete *)
  Fixpoint steps_of_run {W} (n : nat) (pr : processes A W) (m : smodel A W) : option (smodel A W) :=
    match n with
    | O => Some m
    | S n => match run_one_step pr None m with Stepped m1 => steps_of_run n pr m1 | _ => None end
    end.
End Laid.
