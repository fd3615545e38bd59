(** C85-C88: the layers that whole models lay, what is recorded with them, and
    the sea level of a SequenceModel.

    The histories [seq_history] and [model_history], what one update or step
    lays ([update_lays], [step_lays], [init_lays], [model_init_lays]), the
    column of merged layers [archived_column] and the newest layer are in
    Spec/Laid.v; [merged_after] and [column_total] in Spec/Strata.v. *)
From Coq Require Import String List ZArith QArith Reals.
From Verif.Base Require Import Num Py Arr.
From Verif.Model Require Import Layers Grid Archive SeaLevel Sequence Flexure Components SequenceModel.
From Verif.Spec Require Import Strata Column Laid.
From Verif.Proofs Require Import SequenceEx SequenceModelEx LaidP LaidEx.
Import ListNotations.
Local Open Scope R_scope.

(** C85 for Sequence: from construction, through any calls, every column is
    the list of what the updates laid, the oldest merged by tens. *)
Theorem C85_sequence_column {W} (components : list (component R W)) calls w g step s s' i j :
  fresh_grid g -> Forall keeps_whole components -> Forall keeps_layers components ->
  sequence_init w g step = Ok s -> seq_calls components calls s = Ok s' ->
  (i < g_rows g)%nat -> (j < g_cols g - 2)%nat ->
  exists gs first rest, seq_history components s gs s'
    /\ ((~ some_sediment g /\ first = []) \/ (some_sediment g /\ exists l, first = [l] /\ init_lays i j g l))
    /\ Forall2 (update_lays i j) gs rest
    /\ length (first ++ rest) = length (sq_at_layer_grid s')
    /\ at2 [] (el_stacks (layers (sq_grid s'))) i j = archived_column (first ++ rest).
Proof. exact (sequence_column components calls w g step s s' i j). Qed.
Print Assumptions C85_sequence_column.
Theorem C85_sequence_number {A} {num : Num A} {W} (components : list (component A W)) calls w g step s s' :
  fresh_grid g -> Forall keeps_whole components -> Forall keeps_layers components ->
  sequence_init w g step = Ok s -> seq_calls components calls s = Ok s' ->
  let n := length (sq_at_layer_grid s') in
  el_number (layers (sq_grid s')) = (n - 9 * merged_after n)%nat.
Proof. exact (sequence_counts components calls w g step s s'). Qed.
Print Assumptions C85_sequence_number.
Example C85_sequence_nonvacuous {A} {num : Num A} rows :
  fresh_grid (A:=A) (ex_beach rows) /\ Forall (keeps_whole (A:=A) (W:=unit)) [ex_rain]
  /\ Forall (keeps_layers (A:=A) (W:=unit)) [ex_rain].
Proof.
  exact (conj (ex_beach_fresh rows) (conj (Forall_cons _ ex_rain_whole (Forall_nil _))
                                       (Forall_cons _ ex_rain_layers (Forall_nil _)))).
Qed.
(* run(until=25) by steps of 1: 26 laid, 17 left; thickness and age of the oldest four *)
Example C85_sequence_run : ex_laid_run = Some (17%nat, [(109, 9); (1, 10); (1, 11); (1, 12)]%Q).
Proof. exact ex_laid_ok. Qed.

(** C85 for SequenceModel. *)
Theorem C85_model_column {W} (pr : processes R W) w (g : grid R) c calls m m' i j :
  whole_grid g -> layers g = el_empty (g_rows g) (g_cols g - 2) ->
  Forall keeps_whole (pr_components pr) -> Forall keeps_layers (pr_components pr) ->
  model_init pr w g c = Ok m -> model_calls pr calls m = Some m' ->
  (i < g_rows g)%nat -> (j < g_cols g - 2)%nat ->
  exists gs first rest, model_history pr m gs m' /\ model_init_lays i j (ck_start c) g first
    /\ Forall2 (step_lays i j) gs rest
    /\ at2 [] (el_stacks (layers (sm_grid m'))) i j = archived_column (first :: rest).
Proof. exact (model_column pr w g c calls m m' i j). Qed.
Print Assumptions C85_model_column.
Theorem C85_model_number {A} {num : Num A} {W} (pr : processes A W) w (g : grid A) c calls m m' :
  whole_grid g -> layers g = el_empty (g_rows g) (g_cols g - 2) ->
  Forall keeps_whole (pr_components pr) -> Forall keeps_layers (pr_components pr) ->
  model_init pr w g c = Ok m -> model_calls pr calls m = Some m' ->
  exists gs, model_history pr m gs m'
    /\ el_number (layers (sm_grid m')) = (S (length gs) - 9 * merged_after (S (length gs)))%nat.
Proof. exact (model_counts pr w g c calls m m'). Qed.
Print Assumptions C85_model_number.
Example C85_model_nonvacuous :
  whole_grid (A:=R) ex_coast /\ layers (A:=R) ex_coast = el_empty (g_rows (A:=R) ex_coast) (g_cols (A:=R) ex_coast - 2)
  /\ Forall (keeps_whole (A:=R) (W:=unit)) [ex_lay 1; ex_push (full 3 4 5)]
  /\ Forall (keeps_layers (A:=R) (W:=unit)) [ex_lay 1; ex_push (full 3 4 5)].
Proof.
  exact (conj ex_coast_whole (conj eq_refl
    (conj (Forall_cons _ (ex_lay_keeps 1) (Forall_cons _ (ex_push_keeps _) (Forall_nil _)))
          (Forall_cons _ (ex_lay_layers 1) (Forall_cons _ (ex_push_layers _) (Forall_nil _)))))).
Qed.
(** and the thickness of such a column: erosion stops at its bottom *)
Theorem C85_column_thickness (ls : list (R * list (string * R))) :
  stack_thickness (archived_column ls) = column_total 0 (map fst ls).
Proof. exact (archived_thickness ls). Qed.
Print Assumptions C85_column_thickness.

(** C86: the recorded water depth is the depth over the top of the layer. *)
Definition C86_start_statement : Prop :=
  forall W (w : W) (g : grid Q) step s z sea i j d, fresh_grid g ->
    sequence_init w g step = Ok s -> (i < g_rows g)%nat -> (j < g_cols g - 2)%nat ->
    node (sq_grid s) "topographic__elevation" = Some z -> gval (sq_grid s) "sea_level__elevation" = Some sea ->
    newest_record "water_depth" (sq_grid s) i j = Some d -> (d == sea - in_cell z i j)%Q.
Theorem C86_start_depth_refuted : ~ C86_start_statement.
Proof. exact seq_depth_refuted. Qed.
Print Assumptions C86_start_depth_refuted.
Definition C86_model_statement : Prop :=
  forall W (pr : processes Q W) w (g : grid Q) c m dt m' z sea i j d, whole_grid g ->
    Forall keeps_whole (pr_components pr) ->
    model_init pr w g c = Ok m -> run_one_step pr dt m = Stepped m' -> (i < g_rows g)%nat -> (j < g_cols g - 2)%nat ->
    node (sm_grid m') "topographic__elevation" = Some z -> gval (sm_grid m') "sea_level__elevation" = Some sea ->
    newest_record "water_depth" (sm_grid m') i j = Some d -> (d == sea - in_cell z i j)%Q.
Theorem C86_model_depth_refuted : ~ C86_model_statement.
Proof. exact model_depth_refuted. Qed.
Print Assumptions C86_model_depth_refuted.
(** what holds: the updates of a Sequence that do not erode to the bottom and
    whose components leave the surface on top of the layers *)
Theorem C86_update_depth_partial {W} (components : list (component R W)) calls w g step s s1 dt s2 w1 g1 z2 sea i j :
  fresh_grid g -> Forall keeps_whole components -> Forall keeps_layers components ->
  sequence_init w g step = Ok s -> seq_calls components calls s = Ok s1 ->
  run_components components dt (sq_world s1, sq_grid s1) = Ok (w1, g1) ->
  sequence_update components dt s1 = Ok s2 -> (i < g_rows g)%nat -> (j < g_cols g - 2)%nat ->
  balanced g1 ->
  (forall d, node g1 "sediment_deposit__thickness" = Some d ->
     - in_cell d i j <= stack_thickness (at2 [] (el_stacks (layers (sq_grid s1))) i j)) ->
  node (sq_grid s2) "topographic__elevation" = Some z2 -> gval (sq_grid s2) "sea_level__elevation" = Some sea ->
  newest_record "water_depth" (sq_grid s2) i j = Some (sea - in_cell z2 i j).
Proof. exact (sequence_depth components calls w g step s s1 dt s2 w1 g1 z2 sea i j). Qed.
Print Assumptions C86_update_depth_partial.
(** a step of SequenceModel records the depth over the surface as the
    components left it, before the deposit and the bedrock's motion *)
Theorem C86_model_depth_before_partial {W} (pr : processes R W) w (g : grid R) c calls m m1 dt m2 i j :
  whole_grid g -> layers g = el_empty (g_rows g) (g_cols g - 2) ->
  Forall keeps_whole (pr_components pr) -> Forall keeps_layers (pr_components pr) ->
  model_init pr w g c = Ok m -> model_calls pr calls m = Some m1 -> run_one_step pr dt m1 = Stepped m2 ->
  (i < g_rows g)%nat -> (j < g_cols g - 2)%nat ->
  exists d g1 z sea, d = match dt with Some d => if neqb d n0 then ck_step (sm_clock m1) else d | None => ck_step (sm_clock m1) end
    /\ after_components pr d m1 g1 /\ node g1 "topographic__elevation" = Some z /\ gval g1 "sea_level__elevation" = Some sea
    /\ newest_record "water_depth" (sm_grid m2) i j = Some (sea - in_cell z i j).
Proof. exact (model_depth pr w g c calls m m1 dt m2 i j). Qed.
Print Assumptions C86_model_depth_before_partial.

(** C87: the newest layer records its own thickness as t0. *)
Definition C87_start_statement : Prop :=
  forall W (w : W) (g : grid Q) step s i j t, fresh_grid g ->
    sequence_init w g step = Ok s -> (i < g_rows g)%nat -> (j < g_cols g - 2)%nat ->
    newest_record "t0" (sq_grid s) i j = Some t -> (t == newest_thickness (sq_grid s) i j)%Q.
Theorem C87_start_thickness_refuted : ~ C87_start_statement.
Proof. exact seq_t0_refuted. Qed.
Print Assumptions C87_start_thickness_refuted.
Definition C87_model_start_statement : Prop :=
  forall W (pr : processes Q W) w (g : grid Q) c m i j t, whole_grid g ->
    model_init pr w g c = Ok m -> (i < g_rows g)%nat -> (j < g_cols g - 2)%nat ->
    newest_record "t0" (sm_grid m) i j = Some t -> (t == newest_thickness (sm_grid m) i j)%Q.
Theorem C87_model_start_thickness_refuted : ~ C87_model_start_statement.
Proof. exact model_t0_refuted. Qed.
Print Assumptions C87_model_start_thickness_refuted.
Theorem C87_update_thickness_partial {W} (components : list (component R W)) calls w g step s s1 dt s2 i j :
  fresh_grid g -> Forall keeps_whole components -> Forall keeps_layers components ->
  sequence_init w g step = Ok s -> seq_calls components calls s = Ok s1 ->
  sequence_update components dt s1 = Ok s2 -> (i < g_rows g)%nat -> (j < g_cols g - 2)%nat ->
  newest_record "t0" (sq_grid s2) i j = Some (newest_thickness (sq_grid s2) i j).
Proof. exact (sequence_t0 components calls w g step s s1 dt s2 i j). Qed.
Print Assumptions C87_update_thickness_partial.
Theorem C87_model_thickness_partial {W} (pr : processes R W) w (g : grid R) c calls m m1 dt m2 i j :
  whole_grid g -> layers g = el_empty (g_rows g) (g_cols g - 2) ->
  Forall keeps_whole (pr_components pr) -> Forall keeps_layers (pr_components pr) ->
  model_init pr w g c = Ok m -> model_calls pr calls m = Some m1 -> run_one_step pr dt m1 = Stepped m2 ->
  (i < g_rows g)%nat -> (j < g_cols g - 2)%nat ->
  newest_record "t0" (sm_grid m2) i j = Some (newest_thickness (sm_grid m2) i j).
Proof. exact (model_t0 pr w g c calls m m1 dt m2 i j). Qed.
Print Assumptions C87_model_thickness_partial.

(** C88: the sea-level component keeps the time of the clock. *)
Definition C88_statement : Prop :=
  forall W (get : W -> sea_level_comp Q) put (pr : processes Q W) before after w g c m dt m',
    (forall c w, get (put c w) = c) ->
    pr_components pr = before ++ sea_level_component get put :: after ->
    Forall (keeps_sea get) before -> Forall (keeps_sea get) after ->
    (forall t w, pr_set_sea_time pr t w = put (sea_level_set_time t (get w)) w) ->
    Forall keeps_whole (pr_components pr) -> whole_grid g ->
    model_init pr w g c = Ok m -> run_one_step pr dt m = Stepped m' ->
    (slc_time (get (sm_world m')) == ck_time (sm_clock m'))%Q.
Theorem C88_any_dt_refuted : ~ C88_statement.
Proof. exact sea_clock_refuted. Qed.
Print Assumptions C88_any_dt_refuted.
(** in any arithmetic, in steps of run(): the sea level is the curve at the
    time of the clock *)
Theorem C88_sea_level_at_clock_partial {A} {num : Num A} {W} (get : W -> sea_level_comp A) put (pr : processes A W)
    before after w g c m n m' :
  (forall c w, get (put c w) = c) ->
  pr_components pr = before ++ sea_level_component get put :: after ->
  Forall (keeps_sea get) before -> Forall (keeps_sea get) after ->
  (forall t w, pr_set_sea_time pr t w = put (sea_level_set_time t (get w)) w) ->
  Forall keeps_whole (pr_components pr) -> whole_grid g ->
  model_init pr w g c = Ok m -> steps_of_run n pr m = Some m' ->
  slc_time (get (sm_world m')) = ck_time (sm_clock m')
  /\ (n <> 0%nat -> exists v, slc_curve (get w) (ck_time (sm_clock m')) = Ok v
                       /\ gval (sm_grid m') "sea_level__elevation" = Some v).
Proof. exact (sea_follows_clock get put pr before after w g c m n m'). Qed.
Print Assumptions C88_sea_level_at_clock_partial.
Example C88_nonvacuous :
  pr_components ex_tidal = [ex_lay 1%Q] ++ sea_level_component (fun w => w) (fun c _ => c) :: [ex_lay 2%Q]
  /\ Forall (keeps_sea (fun w => w)) [@ex_lay Q (sea_level_comp Q) 1%Q]
  /\ Forall (keeps_sea (fun w => w)) [@ex_lay Q (sea_level_comp Q) 2%Q]
  /\ (forall t w, pr_set_sea_time ex_tidal t w = sea_level_set_time t w)
  /\ Forall keeps_whole (pr_components ex_tidal) /\ whole_grid (A:=Q) ex_coast.
Proof. exact ex_tidal_hyps. Qed.
(* clock, component time and sea level after 2 steps of 3 from 5 *)
Example C88_run : ex_tidal_run = Some (11, 11, 22)%Q.
Proof. exact ex_tidal_ok. Qed.
