(** Layers whose thicknesses and ages are kept in doubles. *)
From Coq Require Import String List ZArith QArith Reals Floats.SpecFloat.
From Verif.Base Require Import Num Py Arr.
From Verif.Model Require Import Layers Archive Grid Sequence SequenceModel.
From Verif.Spec Require Import Strata Column Laid Doubles DoubleLayers.
From Verif.Proofs Require Import DoublesEx DoubleLayersP DoubleAgesP DoubleLayersEx SequenceEx SequenceModelEx.
Import ListNotations.
Local Open Scope R_scope.

(** C125: laying, eroding and merging keeps a column's sediment: what is there
    is what was laid less what was eroded, and erosion stops at bedrock. *)
Definition C125_statement : Prop :=
  forall ops : list (stack_op b64), proper_ops ops -> sediment (stack_run ops []) = column_total 0 (laid_amounts ops).
Theorem C125_refuted : ~ C125_statement.
Proof. exact exact_refuted. Qed.
Print Assumptions C125_refuted.
(* 0.1 and 0.2 merge into 0.30000000000000004 *)
Example C125_pair : map c_dz (stack_run ex_pair []) = [S754_finite false 5404319552844596 (-54)].
Proof. exact pair_run. Qed.

(** C125, up to rounding: n operations that move D in all lose or gain at most
    4 n (n + 1) D / 2^53. *)
Theorem C125_balance_partial (ops : list (stack_op b64)) :
  proper_ops ops -> INR (length ops) <= 2 ^ 25 -> turnover ops <= powerRZ 2 1000 ->
  Rabs (sediment (stack_run ops []) - column_total 0 (laid_amounts ops))
    <= INR (length ops) * (INR (length ops) + 1) * 4 * turnover ops / 2 ^ 53.
Proof. exact (balance ops). Qed.
Print Assumptions C125_balance_partial.
Example C125_balance_nonvacuous : proper_ops ex_pair
  /\ INR (length ex_pair) <= 2 ^ 25 /\ 0 < turnover ex_pair <= powerRZ 2 1000.
Proof. exact (conj pair_proper pair_fits). Qed.

(** C125, no layer is below zero, whatever doubles are laid and eroded. *)
Theorem C125_stack (ops : list (stack_op b64)) c : In c (stack_run ops []) -> nltb (c_dz c) n0 = false.
Proof. exact (stack_not_below ops c). Qed.
Print Assumptions C125_stack.
(* 0.3 laid and 0.1 eroded twice, and three times *)
Example C125_stack_nonvacuous :
  map c_dz (stack_run ex_thirds []) = [S754_zero false; S754_zero false; S754_zero false; S754_zero false]
  /\ map c_dz (stack_run (removelast ex_thirds) []) = [S754_finite false 7205759403792792 (-56); S754_zero false; S754_zero false].
Proof. exact thirds_run. Qed.
Theorem C125_model {W} (pr : processes b64 W) w (g : grid b64) c calls m m' :
  whole_grid g -> layers g = el_empty (g_rows g) (g_cols g - 2) ->
  Forall keeps_whole (pr_components pr) -> Forall keeps_layers (pr_components pr) ->
  model_init pr w g c = Ok m -> model_calls pr calls m = Some m' -> none_below_zero (layers (sm_grid m')).
Proof. exact (model_below pr w g c calls m m'). Qed.
Print Assumptions C125_model.
Theorem C125_sequence {W} (components : list (component b64 W)) calls w g step s s' :
  fresh_grid g -> Forall keeps_whole components -> Forall keeps_layers components ->
  sequence_init w g step = Ok s -> seq_calls components calls s = Ok s' -> none_below_zero (layers (sq_grid s')).
Proof. exact (sequence_below components calls w g step s s'). Qed.
Print Assumptions C125_sequence.

(** C126: after run() in doubles every layer is dated, between the start and the
    stop of the clock, and later than every layer below it. *)
Theorem C126_ages {W} (pr : processes b64 W) w (g : grid b64) start stop step fuel m m' i j :
  whole_grid g -> layers g = el_empty (g_rows g) (g_cols g - 2) ->
  Forall keeps_whole (pr_components pr) -> Forall keeps_layers (pr_components pr) ->
  a_number start -> a_number stop -> a_number step -> 0 < value step ->
  model_init pr w g (clock_init start (Some stop) step) = Ok m -> model_run fuel pr m = Some (Ok m') ->
  (i < g_rows g)%nat -> (j < g_cols g - 2)%nat ->
  dated_upward start stop (at2 [] (el_stacks (layers (sm_grid m'))) i j).
Proof. exact (model_ages pr w g start stop step fuel m m' i j). Qed.
Print Assumptions C126_ages.
(* start: 0, stop: 0.35, step: 0.1 on a beach *)
Example C126_nonvacuous :
  (whole_grid (ex_coast (A:=b64)) /\ layers (ex_coast (A:=b64)) = el_empty (g_rows (ex_coast (A:=b64))) (g_cols (ex_coast (A:=b64)) - 2)
   /\ Forall keeps_whole (pr_components ex_two) /\ Forall keeps_layers (pr_components ex_two)
   /\ a_number (nlit 0) /\ a_number (nlit (35 # 100)) /\ a_number (nlit (1 # 10)) /\ 0 < value (nlit (1 # 10)))
  /\ ex_ages 5 (nlit 0) (nlit (35 # 100)) (nlit (1 # 10))
     = Some (map Some [nlit 0; nlit (1 # 10); nlit (2 # 10); S754_finite false 5404319552844596 (-54)]).
Proof. exact (conj ex_keeps ex_dated). Qed.
