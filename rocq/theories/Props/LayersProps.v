(** C29-C31: layer stacks and archiving.

    [layer_run hist] adds the layers of [hist] one by one, archiving after each
    as the models do; [raw_stack i j hist] is the column that would result
    without archiving (both in Model/Archive.v).  The vocabulary is in
    Spec/Strata.v. *)
From Coq Require Import String List ZArith QArith Reals.
From Verif.Base Require Import Num Py Arr.
From Verif.Model Require Import Layers Archive.
From Verif.Spec Require Import Strata.
From Verif.Proofs Require Import LayersP LayersEx.
Import ListNotations.
Local Open Scope R_scope.

(** C29.  Counts, in any arithmetic ... *)
Theorem C29_layer_counts {A} {num : Num A} (hist : list (field A * list (string * field A))) n m names :
  tracked names hist ->
  exists el, layer_run hist (0%nat, el_empty n m) = Ok (merged_after (length hist), el)
    /\ el_number el = (length hist - 9 * merged_after (length hist))%nat
    /\ (length hist < 20 -> el_number el = length hist)%nat
    /\ (20 <= length hist -> 10 <= length hist - 10 * merged_after (length hist) < 20)%nat.
Proof. exact (archive_counts hist n m names). Qed.
Print Assumptions C29_layer_counts.
(** ... and contents: the archived column is the unarchived one with its first
    [merged_after] groups of ten merged, everything later untouched. *)
Theorem C29_archived_column (hist : list (field R * list (string * field R))) n m names a el i j :
  tracked names hist -> layer_run hist (0%nat, el_empty n m) = Ok (a, el) -> (i < n)%nat -> (j < m)%nat ->
  at2 [] (el_stacks el) i j
  = map (merge_cells (layer_reducers names)) (tens (merged_after (length hist)) (raw_stack i j hist))
    ++ skipn (10 * merged_after (length hist)) (raw_stack i j hist).
Proof. exact (recent_layers hist n m names a el i j). Qed.
Print Assumptions C29_archived_column.
Example C29_nonvacuous {A} {num : Num A} (dz : nat -> A) n : tracked ex_names (ex_hist dz n).
Proof. exact (ex_hist_tracked dz n). Qed.
(* 32 layers of 1, the last removing 15 *)
Example C29_run : ex_archive_run
  = Some (2%nat, 14%nat, [10; 6; 0; 0; 0; 0; 0; 0; 0; 0; 0; 0; 0; 0]%Q,
          [9; 19; 20; 21; 22; 23; 24; 25; 26; 27; 28; 29; 30; 31]%Q).
Proof. exact ex_archive_ok. Qed.

(** C30 *)
Theorem C30_archiving_preserves start stop names (st : stack R) :
  (start < stop <= length st)%nat ->
  (forall c name, In c st -> In name ["age"; "water_depth"; "t0"; "porosity"]%string -> has_prop name c) ->
  let st' := reduce_stack start stop (layer_reducers names) st in
  let merged := slice start stop st in
  let new := nth start st' (mkCell 0 []) in
  length st' = (length st - (stop - start) + 1)%nat
  /\ thick st' = thick st
  /\ rsum (map (prop_of "t0") st') = rsum (map (prop_of "t0") st)
  /\ greatest (map (prop_of "age") merged) (prop_of "age" new)
  /\ (nondecreasing (map (prop_of "age") st) -> nondecreasing (map (prop_of "age") st'))
  /\ between (map (prop_of "water_depth") merged) (prop_of "water_depth" new)
  /\ between (map (prop_of "porosity") merged) (prop_of "porosity" new)
  /\ (In "percent_sand"%string names -> (forall c, In c st -> has_prop "percent_sand" c) ->
      between (map (prop_of "percent_sand") merged) (prop_of "percent_sand" new)).
Proof. exact (merging_preserves start stop names st). Qed.
Print Assumptions C30_archiving_preserves.
(** Through a whole history with archiving, every column keeps the thickness it
    would have without. *)
Theorem C30_archived_totals (hist : list (field R * list (string * field R))) n m names a el i j :
  tracked names hist -> layer_run hist (0%nat, el_empty n m) = Ok (a, el) -> (i < n)%nat -> (j < m)%nat ->
  at2 0 (el_thickness el) i j = column_total 0 (map (fun h => at2 0 (fst h) i j) hist).
Proof. exact (archived_totals hist n m names a el i j). Qed.
Print Assumptions C30_archived_totals.
Example C30_nonvacuous :
  let st := raw_stack 0 0 (ex_hist (fun _ => 1) 20) in
  (0 < 10 <= length st)%nat
  /\ forall c name, In c st -> In name ["age"; "water_depth"; "t0"; "porosity"]%string -> has_prop name c.
Proof. exact ex_merge_hyps. Qed.

(** C31.  Laying and merging in any order. *)
Theorem C31_thickness ops : merges_ok ops ->
  (forall c, In c (stack_run ops []) -> 0 <= c_dz c)
  /\ thick (stack_run ops []) = column_total 0 (lays ops).
Proof. exact (stack_totals ops). Qed.
Print Assumptions C31_thickness.
Theorem C31_erosion_from_top ops dz props i j d : merges_ok ops ->
  (i < j <= length (stack_run ops []))%nat ->
  c_dz (nth i (stack_run (ops ++ [Lay dz props]) []) d) <> c_dz (nth i (stack_run ops []) d) ->
  c_dz (nth j (stack_run (ops ++ [Lay dz props]) []) d) = 0.
Proof. exact (erosion_from_top ops dz props i j d). Qed.
Print Assumptions C31_erosion_from_top.
Theorem C31_properties_kept {A} {num : Num A} ops dz props :
  map c_props (stack_run (ops ++ [Lay dz props]) []) = map c_props (stack_run ops []) ++ [props].
Proof. exact (laying_keeps_properties ops dz props). Qed.
Print Assumptions C31_properties_kept.
(* 2 and 3 laid, merged, 1 laid, 2 eroded: 4 left *)
Example C31_run :
  map c_dz (stack_run [Lay 2%Q []; Lay 3%Q []; Merge 0 2 []; Lay 1%Q []; Lay (-2 # 1)%Q []] [])
  = [4; 0; 0]%Q.
Proof. vm_compute. reflexivity. Qed.
Example C31_nonvacuous : merges_ok [Lay 2 []; Lay 3 []; Merge 0 2 []; Lay 1 []; Lay (-2) []].
Proof. exact ex_merges_ok. Qed.
