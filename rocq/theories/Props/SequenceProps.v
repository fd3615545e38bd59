(** C32-C37: the Sequence class.

    A component is any function on (component states, grid); [balanced],
    [deposit_cleared], [keeps_grid], [model_grid] and the user's calls
    [seq_calls] are in Spec/Column.v. *)
From Coq Require Import String List ZArith QArith Reals Floats.SpecFloat.
From Verif.Base Require Import Num Py Arr.
From Verif.Model Require Import Layers Grid Interp Shoreline Subsidence Sequence Components.
From Verif.Spec Require Import Strata Column.
From Verif.Proofs Require Import SequenceP SequenceEx.
Import ListNotations.
Local Open Scope R_scope.

(** C32 for Sequence, in any arithmetic: construct, then any calls. *)
Theorem C32_sequence_balanced {A} {num : Num A} {W} (components : list (component A W)) calls (w : W)
    (g : grid A) step s s' :
  (2 <= g_cols g)%nat -> has_field g "topographic__elevation" ->
  (forall f, node g "bedrock_surface__elevation" = Some f -> shaped (g_rows g + 2) (g_cols g) f) ->
  has_field g "sediment_deposit__thickness" -> shaped (g_rows g) (g_cols g - 2) (el_stacks (layers g)) ->
  Forall keeps_grid components ->
  sequence_init w g step = Ok s -> seq_calls components calls s = Ok s' ->
  balanced (sq_grid s') /\ deposit_cleared (sq_grid s').
Proof. exact (sequence_balanced components calls w g step s s'). Qed.
Print Assumptions C32_sequence_balanced.
Example C32_sequence_nonvacuous {A} {num : Num A} rows :
  ((2 <= g_cols (A:=A) (ex_beach rows))%nat /\ has_field (ex_beach rows) "topographic__elevation"
   /\ (forall f, node (ex_beach rows) "bedrock_surface__elevation" = Some f ->
         shaped (g_rows (ex_beach rows) + 2) (g_cols (ex_beach rows)) f)
   /\ has_field (ex_beach rows) "sediment_deposit__thickness"
   /\ shaped (g_rows (ex_beach rows)) (g_cols (ex_beach rows) - 2) (el_stacks (layers (ex_beach rows))))
  /\ Forall (keeps_grid (W:=unit)) [ex_rain; ex_sink; ex_rain].
Proof.
  split; [exact (ex_beach_fields rows)|].
  exact (Forall_cons _ ex_rain_keeps (Forall_cons _ ex_sink_keeps (Forall_cons _ ex_rain_keeps (Forall_nil _)))).
Qed.
(* elevations, time and recorded ages after update() and run(until=3, dt=2) *)
Example C32_sequence_run : ex_sequence_run = Some ([2; 1; -1 # 1; -2 # 1]%Q, 3%Q, [0; 1 # 2; 5 # 2; 3]%Q).
Proof. exact ex_sequence_ok. Qed.

(** C33, exact arithmetic: the run is a list of updates. *)
Theorem C33_run_reaches_time {W} (components : list (component R W)) until dt (s : sequence R W) :
  let T := match until with Some u => u | None => sq_time s + sq_time_step s end in
  let d := match dt with Some d => d | None => sq_time_step s end in
  0 < d ->
  exists ds, sequence_run components until dt s = foldM (fun s d => sequence_update components d s) ds s
    /\ (forall e, In e ds -> 0 < e <= d)
    /\ (T <= sq_time s -> ds = [])
    /\ (sq_time s < T -> (T - sq_time s) / d <= INR (length ds) < (T - sq_time s) / d + 1)
    /\ (until = None -> dt = None -> length ds = 1%nat)
    /\ forall s', sequence_run components until dt s = Ok s' -> sq_time s' = Rmax (sq_time s) T.
Proof. exact (run_reaches_any components until dt s). Qed.
Print Assumptions C33_run_reaches_time.

(** C34, doubles. *)
Definition C34_statement : Prop :=
  forall (components : list (component b64 unit)) T d s s',
    (n0 <? d)%num = true -> (sq_time s <? T)%num = true ->
    sequence_run components (Some T) (Some d) s = Ok s' -> sq_time s' = T.
Theorem C34_run_in_doubles_refuted : ~ C34_statement.
Proof. exact run_rounding_refuted. Qed.
Print Assumptions C34_run_in_doubles_refuted.
(* run(until=1.0, dt=0.1) from 0 ends at (2^53 - 1) / 2^53 *)
Example C34_run : ex_rounding = Some (S754_finite false 9007199254740991 (-53)).
Proof. exact ex_rounding_ok. Qed.

(** C35 *)
Definition C35_statement : Prop :=
  forall W (components : list (component Q W)) dt s s' w g z0 inc,
    run_components components dt (sq_world s, sq_grid s) = Ok (w, g) ->
    node g "bedrock_surface__elevation" = Some z0 ->
    node g "bedrock_surface__increment_of_elevation" = Some inc ->
    sequence_update components dt s = Ok s' ->
    node (sq_grid s') "bedrock_surface__elevation" = Some (fmap2 nadd z0 inc).
Theorem C35_bedrock_moves_refuted : ~ C35_statement.
Proof. exact bedrock_moves_refuted. Qed.
Print Assumptions C35_bedrock_moves_refuted.
(** What happens instead: bedrock, pending increment and every other node field
    but elevation and deposit stay as the components left them. *)
Theorem C35_fields_as_components_left_them_partial {A} {num : Num A} {W} (components : list (component A W)) dt
    (s s' : sequence A W) w g name :
  run_components components dt (sq_world s, sq_grid s) = Ok (w, g) ->
  sequence_update components dt s = Ok s' ->
  name <> "topographic__elevation"%string -> name <> "sediment_deposit__thickness"%string ->
  node (sq_grid s') name = node g name.
Proof. exact (bedrock_untouched components dt s s' w g name). Qed.
Print Assumptions C35_fields_as_components_left_them_partial.
(* bedrock before and after one step of subsidence, and the increment pending *)
Example C35_run : ex_subsidence_run
  = Some ([-98 # 1; -99 # 1; -101 # 1; -102 # 1]%Q, [-98 # 1; -99 # 1; -101 # 1; -102 # 1]%Q, [1; 1; 1; 1]%Q).
Proof. exact ex_subsidence_ok. Qed.

(** C36 *)
Definition C36_statement : Prop :=
  forall interp1d alpha dt (s : sequence b64 unit) g1,
    model_grid (sq_grid s) -> gval (sq_grid s) "sea_level__elevation" <> None -> tracks (sq_grid s) ->
    shoreline_update interp1d alpha (sq_grid s) = Ok g1 ->
    exists s', sequence_update [shoreline_component interp1d alpha] dt s = Ok s'.
Theorem C36_any_rows_refuted : ~ C36_statement.
Proof. exact several_rows_refuted. Qed.
Print Assumptions C36_any_rows_refuted.
(** It always fails when there are several rows ... *)
Theorem C36_several_rows_fail_partial {A} {num : Num A} {W} interp1d alpha dt (s : sequence A W) g1 :
  model_grid (sq_grid s) -> gval (sq_grid s) "sea_level__elevation" <> None -> (g_rows (sq_grid s) <> 1)%nat ->
  shoreline_update interp1d alpha (sq_grid s) = Ok g1 ->
  sequence_update [shoreline_component interp1d alpha] dt s = Err ValueError.
Proof. exact (several_rows_fail interp1d alpha dt s g1). Qed.
Print Assumptions C36_several_rows_fail_partial.
(** ... and always succeeds, step after step, when there is one. *)
Theorem C36_one_row_succeeds_partial {A} {num : Num A} {W} interp1d alpha dt (s : sequence A W) g1 :
  model_grid (sq_grid s) -> gval (sq_grid s) "sea_level__elevation" <> None -> tracks (sq_grid s) ->
  g_rows (sq_grid s) = 1%nat ->
  shoreline_update interp1d alpha (sq_grid s) = Ok g1 ->
  exists s', sequence_update [shoreline_component interp1d alpha] dt s = Ok s'
    /\ model_grid (sq_grid s') /\ g_rows (sq_grid s') = 1%nat /\ tracks (sq_grid s')
    /\ gval (sq_grid s') "sea_level__elevation" <> None.
Proof. exact (one_row_succeeds interp1d alpha dt s g1). Qed.
Print Assumptions C36_one_row_succeeds_partial.
(* one and two rows, in doubles *)
Example C36_run :
  (match ex_two_rows 1 with Ok s => is_ok (sequence_update [ex_shore] n1 s) | Err _ => false end = true)
  /\ (match ex_two_rows 2 with
      | Ok s => match shoreline_update interp1d_linear (nlit (1 # 2)) (sq_grid s) with
                | Ok _ => match sequence_update [ex_shore] n1 s with Err ValueError => true | _ => false end
                | Err _ => false
                end
      | Err _ => false end = true).
Proof. exact ex_rows_runs. Qed.

(** C37.  Each update, in any arithmetic ... *)
Theorem C37_one_record_per_update {A} {num : Num A} {W} (components : list (component A W)) dt (s s' : sequence A W) :
  sequence_update components dt s = Ok s' ->
  exists ge re, sq_time s' = nadd (sq_time s) dt /\ sq_time_step s' = sq_time_step s
    /\ sq_at_layer_grid s' = sq_at_layer_grid s ++ [ge] /\ sq_at_layer_row s' = sq_at_layer_row s ++ [re]
    /\ ge_age ge = sq_time s' /\ re_age re = sq_time s'
    /\ re_sea_level re = ge_sea_level ge
    /\ gval (sq_grid s') "sea_level__elevation" = Some (ge_sea_level ge)
    /\ ge_shore ge = gval (sq_grid s') "x_of_shore" /\ ge_shelf_edge ge = gval (sq_grid s') "x_of_shelf_edge"
    /\ recorded_rows (number_of_rows (sq_grid s')) (rowf (sq_grid s') "x_of_shore") (re_shore re)
    /\ recorded_rows (number_of_rows (sq_grid s')) (rowf (sq_grid s') "x_of_shelf_edge") (re_shelf_edge re).
Proof. exact (update_records components dt s s'). Qed.
Print Assumptions C37_one_record_per_update.
(** ... and any history of updates with nonnegative steps, from construction. *)
Theorem C37_ages_never_decrease {W} (components : list (component R W)) (w : W) g step ds s s' :
  sequence_init w g step = Ok s -> (forall d, In d ds -> 0 <= d) ->
  foldM (fun s d => sequence_update components d s) ds s = Ok s' ->
  nondecreasing (map ge_age (sq_at_layer_grid s'))
  /\ map re_age (sq_at_layer_row s') = map ge_age (sq_at_layer_grid s')
  /\ (forall a, In a (map ge_age (sq_at_layer_grid s')) -> a <= sq_time s')
  /\ length (sq_at_layer_grid s') = (length (sq_at_layer_grid s) + length ds)%nat
  /\ (length (sq_at_layer_grid s) <= 1)%nat.
Proof. exact (history_ages components w g step ds s s'). Qed.
Print Assumptions C37_ages_never_decrease.
