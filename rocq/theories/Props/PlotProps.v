(** C63-C65 and C80-C83: plots.

    The vocabulary is in Spec/Polygon.v ([outlines], [first_column]) and in
    Spec/Drawn.v ([top_of_layer], [chosen_row]).  None is NaN. *)
From Coq Require Import String List ZArith QArith Reals Arith.
From Verif.Base Require Import Num Py Arr.
From Verif.Model Require Import Layers Grid Netcdf OutputWriter Sequence SequenceModel Plot.
From Verif.Spec Require Import Profile Column Recording Polygon Drawn.
From Verif.Proofs Require Import SequenceP SequenceModelEx OutputEx PlotP PlotLayersP PlotFileP PlotRunsP PlotGridP PlotEx.
Import ListNotations.
Local Open Scope nat_scope.

(** C63 *)
Theorem C63_outline (x bottom top : list R) b0 b1 t0 t1 :
  increasing x -> length bottom = length x -> length top = length x ->
  ordered (length x) b0 b1 -> ordered (length x) t0 t1 ->
  exists xs ys, outline_layer x bottom top (Some (Some b0, Some b1)) (Some (Some t0, Some t1)) = Ok (xs, ys)
  /\ outlines x bottom top b0 b1 t0 t1 xs ys.
Proof. exact (outline_spec x bottom top b0 b1 t0 t1). Qed.
Print Assumptions C63_outline.
(* a limit that is not given is the first or last column *)
Theorem C63_default_limits (x bottom top : list R) a b l :
  let last := length x - 1 in
  outline_layer x bottom top None l = outline_layer x bottom top (Some (Some 0, Some last)) l
  /\ outline_layer x bottom top l None = outline_layer x bottom top l (Some (Some 0, Some last))
  /\ outline_layer x bottom top (Some (None, b)) l = outline_layer x bottom top (Some (Some 0, b)) l
  /\ outline_layer x bottom top l (Some (None, b)) = outline_layer x bottom top l (Some (Some 0, b))
  /\ outline_layer x bottom top (Some (a, None)) l = outline_layer x bottom top (Some (a, Some last)) l
  /\ outline_layer x bottom top l (Some (a, None)) = outline_layer x bottom top l (Some (a, Some last)).
Proof. exact (outline_defaults x bottom top a b l). Qed.
Print Assumptions C63_default_limits.
Example C63_nonvacuous :
  (let* o := outline_layer [0; 1; 2; 3]%Q [0; 0; 0; 0]%Q [1; 1; 1; 1]%Q (Some (Some 0, None)) (Some (Some 1, Some 2)) in
   Ok (map Qred (fst o), map Qred (snd o))) = Ok ([2; 1; 0; 1; 2; 3]%Q, [1; 1; 0; 0; 0; 0]%Q).
Proof. exact ex_outline. Qed.

(** C64 *)
Theorem C64_layers_to_plot start stop num : (0 <= start <= stop)%Z ->
  exists r, get_layers_to_plot (A := R) start stop num = Ok r
  /\ (num = 0%Z -> r = None)
  /\ (num <> 0%Z -> exists step, r = Some (start, stop, step) /\ (1 <= step)%Z
        /\ ((num < 0 \/ stop - start + 1 < num)%Z -> step = 1%Z)
        /\ forall n, (stop <= Z.of_nat n)%Z ->
             let sel := slice_indices n (start, stop, step) in
             (forall i, In i sel <-> (start <= Z.of_nat i < stop)%Z /\ (step | Z.of_nat i - start)%Z)
             /\ NoDup sel
             /\ ((0 < num <= stop - start + 1)%Z -> (num - 1 <= Z.of_nat (length sel) < 2 * num)%Z)).
Proof. exact (layers_to_plot start stop num). Qed.
Print Assumptions C64_layers_to_plot.
Example C64_nonvacuous : get_layers_to_plot (A := Q) 0 10 5 = Ok (Some (0, 10, 2)%Z) /\ slice_indices 10 (0, 10, 2)%Z = [0; 2; 4; 6; 8].
Proof. split; vm_compute; reflexivity. Qed.

(** C65 *)
Definition C65_statement : Prop :=
  forall (pr : processes Q unit) w0 g0 start stop step path k fields clobber fs n m m' g1 b d row i p,
    fresh_grid g0 -> Forall keeps_whole (pr_components pr) -> Forall keeps_ages (pr_components pr) -> 1 <= k ->
    output_run pr w0 g0 start stop step path k fields clobber fs n m -> n mod k = 0 ->
    run_one_step (with_output pr) None m = Stepped m' -> after_components (with_output pr) step m g1 ->
    node g1 "bedrock_surface__elevation" = Some b ->
    file_at (files m') path = Some d -> chosen_row (g_rows g0) row i -> plot_file_args d row = Ok p ->
    forall kk jj, kk < el_number (layers g1) -> jj < g_cols g0 - 2 ->
    exists z, nth jj (nth kk (pa_elevation p) []) None = Some z /\ (z == top_of_layer b g1 i jj kk)%Q.
Theorem C65_refuted : ~ C65_statement.
Proof. exact plot_file_refuted. Qed.
Print Assumptions C65_refuted.
(* plot_file adds the layers of row i to the bedrock of another row: the row
   is used as a row of cells for the one, and of nodes for the other.
   Missing: the right bedrock; it is right when both rows have the same. *)
Theorem C65_file_partial {A} `{Num A} {W} (pr : processes A W) w0 g0 start stop step path k fields clobber fs n m m' g1 b d row i p :
  fresh_grid g0 -> Forall keeps_whole (pr_components pr) -> Forall keeps_ages (pr_components pr) -> 1 <= k ->
  output_run pr w0 g0 start stop step path k fields clobber fs n m -> n mod k = 0 ->
  run_one_step (with_output pr) None m = Stepped m' -> after_components (with_output pr) step m g1 ->
  3 <= g_cols g0 ->
  match fields with Some (f :: fl) => In "bedrock_surface__elevation"%string (f :: fl) | _ => True end ->
  node g1 "bedrock_surface__elevation" = Some b ->
  rowf g1 "x_of_shore" <> None -> rowf g1 "x_of_shelf_edge" <> None ->
  file_at (files m') path = Some d -> chosen_row (g_rows g0) row i -> plot_file_args d row = Ok p ->
  (forall brow, chosen_row (g_rows g0 + 2) (Some (match row with Some r => r | None => Z.of_nat (g_rows g0 / 2) end)) brow ->
     forall kk jj, kk < el_number (layers g1) -> jj < g_cols g0 - 2 ->
     nth jj (nth kk (pa_elevation p) []) None
     = Some (nadd (at2 n0 b brow (S jj)) (thickness_to kk (at2 [] (el_stacks (layers g1)) i jj)))).
Proof. exact (plot_file_elevation pr w0 g0 start stop step path k fields clobber fs n m m' g1 b d row i p). Qed.
Print Assumptions C65_file_partial.
Theorem C65_level_bedrock_partial {A} `{Num A} {W} (pr : processes A W) w0 g0 start stop step path k fields clobber fs n m m' g1 b d row i p :
  fresh_grid g0 -> Forall keeps_whole (pr_components pr) -> Forall keeps_ages (pr_components pr) -> 1 <= k ->
  output_run pr w0 g0 start stop step path k fields clobber fs n m -> n mod k = 0 ->
  run_one_step (with_output pr) None m = Stepped m' -> after_components (with_output pr) step m g1 ->
  3 <= g_cols g0 ->
  match fields with Some (f :: fl) => In "bedrock_surface__elevation"%string (f :: fl) | _ => True end ->
  node g1 "bedrock_surface__elevation" = Some b ->
  rowf g1 "x_of_shore" <> None -> rowf g1 "x_of_shelf_edge" <> None ->
  file_at (files m') path = Some d -> chosen_row (g_rows g0) row i -> plot_file_args d row = Ok p ->
  (forall i i' j, i < g_rows g0 + 2 -> i' < g_rows g0 + 2 -> at2 n0 b i j = at2 n0 b i' j) ->
  forall kk jj, kk < el_number (layers g1) -> jj < g_cols g0 - 2 ->
  nth jj (nth kk (pa_elevation p) []) None = Some (top_of_layer b g1 i jj kk).
Proof. exact (plot_file_level pr w0 g0 start stop step path k fields clobber fs n m m' g1 b d row i p). Qed.
Print Assumptions C65_level_bedrock_partial.
(* what is plotted, and what was written: not the same, and the same *)
Example C65_nonvacuous_refuted : ex_plotted ex_sagging 0 1 2 None
  = Some (Ok [[Some 1; Some (-1 # 1)]; [Some 2; Some 0]; [Some 3; Some 1]]%Q,
          [[Some (-1 # 1); Some (-3 # 1)]; [Some 0; Some (-2 # 1)]; [Some 1; Some (-1 # 1)]]%Q).
Proof. exact ex_plot_sagging. Qed.
Example C65_nonvacuous : ex_plotted [ex_lay 1%Q] 0 1 2 None
  = Some (Ok [[Some 1; Some (-1 # 1)]; [Some 2; Some 0]; [Some 3; Some 1]]%Q,
          [[Some 1; Some (-1 # 1)]; [Some 2; Some 0]; [Some 3; Some 1]]%Q).
Proof. exact ex_plot_level. Qed.

(** C80 *)
Theorem C80_regions (st : plot_style) (p : plot_args R) sel :
  increasing (pa_x p) -> pa_elevation p <> [] -> (forall l, In l (pa_elevation p) -> length l = length (pa_x p)) ->
  length (pa_shore p) = length (pa_elevation p) -> length (pa_shelf_edge p) = length (pa_elevation p) ->
  (forall k, (k < length (pa_elevation p))%nat -> (nth k (pa_shore p) 0 <= nth k (pa_shelf_edge p) 0)%R) ->
  get_layers_to_plot (A := R) (ps_start st) (layer_stop st (length (pa_elevation p))) (ps_n_layers st) = Ok sel ->
  let x := pa_x p in let y := pa_elevation p in let n := length y in
  exists (column : R -> nat) water land shoreface shelf,
    plot_layers st p = Ok (water ++ map (fun o => Fill Land (fst o) (snd o)) land
      ++ map (fun o => Fill Shoreface (fst o) (snd o)) shoreface ++ map (fun o => Fill Shelf (fst o) (snd o)) shelf
      ++ map (fun k => Line x (nth k y [])) (match sel with Some s => slice_indices n s | None => [] end)
      ++ [Line x (lastn y [])])
    /\ (forall v, first_column x v (column v))
    /\ (forall k, (k <= length x)%nat -> (forall i, (i < k)%nat -> (nth i x 0 <= lastn (pa_shore p) 0)%R) ->
          (forall i, (k <= i < length x)%nat -> (lastn (pa_shore p) 0 < nth i x 0)%R) ->
          water = if (k <? length x)%nat then
                    (if ps_water st then [Water (skipn k x) (skipn k (lastn y [])) (nth k (lastn y []) 0%R)] else [])
                    ++ [WaterLine (nth k x 0%R) (lastn x 0%R) (nth k (lastn y []) 0%R)]
                  else [])
    /\ (if ps_land st then Forall2 (fun k o => outlines x (nth k y []) (nth (S k) y []) 0 (column (nth k (pa_shore p) 0%R))
              0 (column (nth (S k) (pa_shore p) 0%R)) (fst o) (snd o)) (seq 0 (n - 1)) land else land = [])
    /\ (if ps_shoreface st then Forall2 (fun k o => outlines x (nth k y []) (nth (S k) y [])
              (column (nth k (pa_shore p) 0%R)) (column (nth k (pa_shelf_edge p) 0%R))
              (column (nth (S k) (pa_shore p) 0%R)) (column (nth (S k) (pa_shelf_edge p) 0%R)) (fst o) (snd o)) (seq 0 (n - 1)) shoreface
        else shoreface = [])
    /\ (if ps_shelf st then Forall2 (fun k o => outlines x (nth k y []) (nth (S k) y [])
              (column (nth k (pa_shelf_edge p) 0%R)) (length x - 1)
              (column (nth (S k) (pa_shelf_edge p) 0%R)) (length x - 1) (fst o) (snd o)) (seq 0 (n - 1)) shelf
        else shelf = []).
Proof. exact (plot_layers_spec st p sel). Qed.
Print Assumptions C80_regions.
(* a shore or shelf edge that is NaN, as in layers from before the first step,
   is drawn as one beyond the last column *)
Theorem C80_unknown_shores (st : plot_style) (p : plot_args (option R)) beyond :
  Forall (fun v => exists a, v = Some a /\ (a < beyond)%R) (pa_x p) ->
  plot_layers st p = plot_layers st (mkPlotArgs (pa_elevation p) (pa_x p)
    (map (known_or beyond) (pa_shore p)) (map (known_or beyond) (pa_shelf_edge p))).
Proof. exact (unknown_shores st p beyond). Qed.
Print Assumptions C80_unknown_shores.
Example C80_unknown_nonvacuous :
  plot_layers (mkPlotStyle true true true true 0 (-1) 0)
    (mkPlotArgs [[Some 2; Some 1; Some (-1 # 1)]; [Some 3; Some 2; Some 0]]%Q [Some 0; Some 1; Some 2]%Q [None; Some 1]%Q [None; Some 2]%Q)
  = plot_layers (mkPlotStyle true true true true 0 (-1) 0)
    (mkPlotArgs [[Some 2; Some 1; Some (-1 # 1)]; [Some 3; Some 2; Some 0]]%Q [Some 0; Some 1; Some 2]%Q [Some 3; Some 1]%Q [Some 3; Some 2]%Q)
  /\ exists ds, plot_layers (mkPlotStyle true true true true 0 (-1) 0)
    (mkPlotArgs [[Some 2; Some 1; Some (-1 # 1)]; [Some 3; Some 2; Some 0]]%Q [Some 0; Some 1; Some 2]%Q [None; Some 1]%Q [None; Some 2]%Q) = Ok ds.
Proof. split; [vm_compute; reflexivity|]. eexists. vm_compute. reflexivity. Qed.
(* two layers, the shore at 1, the shelf edge at 2 *)
Example C80_nonvacuous :
  plot_layers (mkPlotStyle true true true true 0 (-1) (-1))
    (mkPlotArgs [[2; 1; -1; -3]; [3; 2; 0; -2]]%Q [0; 1; 2; 3]%Q [1; 1]%Q [2; 2]%Q)
  = Ok [Water [2; 3] [0; -2] 0; WaterLine 2 3 0; Fill Land [1; 0] [2; 2]; Fill Shoreface [2; 1] [0; 1]; Fill Shelf [3; 2] [-2; -1];
        Line [0; 1; 2; 3] [2; 1; -1; -3]; Line [0; 1; 2; 3] [3; 2; 0; -2]; Line [0; 1; 2; 3] [3; 2; 0; -2]]%Q.
Proof. vm_compute. reflexivity. Qed.

(** C81 *)
Definition C81_statement : Prop :=
  forall (components : list (component Q unit)) w g step s calls s',
    sequence_init w g step = Ok s -> seq_calls components calls s = Ok s' -> sq_at_layer_row s' <> [] ->
    exists p, plot_grid_args s' None = Ok p.
Theorem C81_refuted : ~ C81_statement.
Proof. exact plot_grid_refuted. Qed.
Print Assumptions C81_refuted.
Theorem C81_several_rows_refuted {A} `{Num A} {W} (s : sequence A W) st row :
  2 <= g_rows (sq_grid s) -> 4 <= g_cols (sq_grid s) ->
  (forall b, node (sq_grid s) "bedrock_surface__elevation" = Some b ->
     shaped (g_rows (sq_grid s) + 2) (g_cols (sq_grid s)) b) ->
  exists e, plot_grid st s row = Err e.
Proof. exact (several_rows_fail s st row). Qed.
Print Assumptions C81_several_rows_refuted.
Example C81_nonvacuous_refuted : ex_grid_shown 2 = Some (Err ValueError).
Proof. exact ex_grid_shown_2. Qed.
(* missing: grids of several rows *)
Theorem C81_one_row_partial {A} `{Num A} {W} (s : sequence A W) row p b shores edges :
  g_rows (sq_grid s) = 1 -> 3 <= g_cols (sq_grid s) ->
  shaped 1 (g_cols (sq_grid s) - 2) (el_stacks (layers (sq_grid s))) -> full_stacks (sq_grid s) ->
  node (sq_grid s) "bedrock_surface__elevation" = Some b -> shaped 3 (g_cols (sq_grid s)) b ->
  map re_shore (sq_at_layer_row s) = map (fun v => repeat v 3) shores ->
  map re_shelf_edge (sq_at_layer_row s) = map (fun v => repeat v 3) edges ->
  plot_grid_args s row = Ok p ->
  length (pa_elevation p) = el_number (layers (sq_grid s))
  /\ (forall k j, k < el_number (layers (sq_grid s)) -> j < g_cols (sq_grid s) - 2 ->
        nth j (nth k (pa_elevation p) []) None = Some (top_of_layer b (sq_grid s) 0 j k))
  /\ pa_x p = map (fun j => Some (nmul (nofnat (S j)) (g_dx (sq_grid s)))) (seq 0 (g_cols (sq_grid s) - 2))
  /\ interp_all (map ge_age (sq_at_layer_grid s)) shores
       (map (fun f => at2 None f 0 0) (layer_values (layers (sq_grid s)) "age")) = Ok (pa_shore p)
  /\ interp_all (map ge_age (sq_at_layer_grid s)) edges
       (map (fun f => at2 None f 0 0) (layer_values (layers (sq_grid s)) "age")) = Ok (pa_shelf_edge p).
Proof. exact (one_row_plotted s row p b shores edges). Qed.
Print Assumptions C81_one_row_partial.
(* a layer whose age is a recorded time has the shore recorded then *)
Theorem C81_recorded_shore_partial (times : list R) (y ages l : list (option R)) k m :
  increasing times -> length y = length times ->
  interp_all times y ages = Ok l -> k < length ages -> m < length times -> nth k ages None = Some (nth m times 0%R) ->
  nth k l None = nth m y None.
Proof. exact (interp_all_recorded times y ages l k m). Qed.
Print Assumptions C81_recorded_shore_partial.
Example C81_nonvacuous : ex_grid_shown 1
  = Some (Ok ([[Some (-1 # 1); Some (-3 # 1)]; [Some (-1 # 2); Some (-5 # 2)]; [Some 0; Some (-2 # 1)];
               [Some (1 # 2); Some (-3 # 2)]; [Some 1; Some (-1 # 1)]],
              [Some 1; Some 2],
              [None; Some (1 # 2); Some 1; Some (3 # 2); Some 2],
              [None; Some (3 # 2); Some 2; Some (5 # 2); Some 3]))%Q
  /\ option_map (fun r => (fst r, map (map (option_map Qred)) (snd r))) (ex_grid_recorded 1)
  = Some ([0; 1 # 2; 1; 3 # 2; 2], map (fun v => repeat v 3) [None; Some (1 # 2); Some 1; Some (3 # 2); Some 2])%Q.
Proof. exact (conj ex_grid_shown_1 ex_grid_recorded_1). Qed.

(** C82 *)
Definition C82_statement : Prop :=
  forall (pr : processes Q unit) w0 g0 start stop step path k fields clobber fs n m m' g1 b d row i,
    fresh_grid g0 -> Forall keeps_whole (pr_components pr) -> Forall keeps_ages (pr_components pr) -> 1 <= k -> (0 < step)%Q ->
    output_run pr w0 g0 start stop step path k fields clobber fs n m -> n mod k = 0 ->
    run_one_step (with_output pr) None m = Stepped m' -> after_components (with_output pr) step m g1 ->
    3 <= g_cols g0 ->
    match fields with Some (f :: fl) => In "bedrock_surface__elevation"%string (f :: fl) | _ => True end ->
    node g1 "bedrock_surface__elevation" = Some b ->
    rowf g1 "x_of_shore" <> None -> rowf g1 "x_of_shelf_edge" <> None ->
    file_at (files m') path = Some d -> chosen_row (g_rows g0) row i ->
    exists p, plot_file_args d row = Ok p.
Theorem C82_refuted : ~ C82_statement.
Proof. exact plot_late_refuted. Qed.
Print Assumptions C82_refuted.
(* every file of one record fails *)
Theorem C82_one_record_refuted {A} `{Num A} {W} (pr : processes A W) w0 g0 start stop step path k fields clobber fs m m' g1 b d row i :
  fresh_grid g0 -> Forall keeps_whole (pr_components pr) -> Forall keeps_ages (pr_components pr) -> 1 <= k ->
  output_run pr w0 g0 start stop step path k fields clobber fs 0 m ->
  run_one_step (with_output pr) None m = Stepped m' -> after_components (with_output pr) step m g1 ->
  3 <= g_cols g0 ->
  match fields with Some (f :: fl) => In "bedrock_surface__elevation"%string (f :: fl) | _ => True end ->
  node g1 "bedrock_surface__elevation" = Some b ->
  rowf g1 "x_of_shore" <> None -> rowf g1 "x_of_shelf_edge" <> None ->
  file_at (files m') path = Some d -> chosen_row (g_rows g0) row i -> plot_file_args d row = Err IndexError.
Proof. exact (plot_file_one_record pr w0 g0 start stop step path k fields clobber fs m m' g1 b d row i). Qed.
Print Assumptions C82_one_record_refuted.
Example C82_nonvacuous_one_record : option_map fst (ex_plotted [ex_lay 1%Q] 0 1 0 None) = Some (Err IndexError).
Proof. exact ex_plot_one_record. Qed.
(* so does every file of a model whose clock starts after 0 *)
Theorem C82_late_start_refuted {W} (pr : processes R W) w0 g0 start stop step path k fields clobber fs n m m' g1 b d row i :
  fresh_grid g0 -> Forall keeps_whole (pr_components pr) -> Forall keeps_ages (pr_components pr) -> 1 <= k ->
  output_run pr w0 g0 start stop step path k fields clobber fs n m -> n mod k = 0 ->
  run_one_step (with_output pr) None m = Stepped m' -> after_components (with_output pr) step m g1 ->
  3 <= g_cols g0 ->
  match fields with Some (f :: fl) => In "bedrock_surface__elevation"%string (f :: fl) | _ => True end ->
  node g1 "bedrock_surface__elevation" = Some b ->
  rowf g1 "x_of_shore" <> None -> rowf g1 "x_of_shelf_edge" <> None ->
  file_at (files m') path = Some d -> chosen_row (g_rows g0) row i ->
  1 <= n -> (0 < start)%R -> plot_file_args d row = Err ValueError.
Proof. exact (plot_file_late_start pr w0 g0 start stop step path k fields clobber fs n m m' g1 b d row i). Qed.
Print Assumptions C82_late_start_refuted.
Example C82_nonvacuous_late : option_map fst (ex_plotted [ex_lay 1%Q] 5 1 2 None) = Some (Err ValueError).
Proof. exact ex_plot_late. Qed.
(* missing: one record, and a start other than 0 *)
Theorem C82_partial {W} (pr : processes R W) w0 g0 start stop step path k fields clobber fs n m m' g1 b d row i :
  fresh_grid g0 -> Forall keeps_whole (pr_components pr) -> Forall keeps_ages (pr_components pr) -> 1 <= k ->
  output_run pr w0 g0 start stop step path k fields clobber fs n m -> n mod k = 0 ->
  run_one_step (with_output pr) None m = Stepped m' -> after_components (with_output pr) step m g1 ->
  3 <= g_cols g0 ->
  match fields with Some (f :: fl) => In "bedrock_surface__elevation"%string (f :: fl) | _ => True end ->
  node g1 "bedrock_surface__elevation" = Some b ->
  rowf g1 "x_of_shore" <> None -> rowf g1 "x_of_shelf_edge" <> None ->
  file_at (files m') path = Some d -> chosen_row (g_rows g0) row i ->
  1 <= n -> start = 0%R -> (0 <= step)%R -> exists p, plot_file_args d row = Ok p.
Proof. exact (plot_file_works pr w0 g0 start stop step path k fields clobber fs n m m' g1 b d row i). Qed.
Print Assumptions C82_partial.

(** C83 *)
Definition C83_statement : Prop := forall (st : plot_style) (p : plot_args Q) ds k,
  (ps_n_layers st < 0)%Z -> (0 <= ps_start st <= ps_stop st)%Z -> ps_stop st = Z.of_nat k -> k < length (pa_elevation p) ->
  plot_layers st p = Ok ds -> In (Line (pa_x p) (nth k (pa_elevation p) [])) ds.
Theorem C83_refuted : ~ C83_statement.
Proof. exact layer_stop_refuted. Qed.
Print Assumptions C83_refuted.
(* counted from the start it is the first layer that is not outlined, counted
   from the end it is the last one that is.  The top is always outlined. *)
Theorem C83_from_start_partial (st : plot_style) (p : plot_args R) ds a stop :
  (ps_n_layers st < 0)%Z ->
  (* counted from the start, or from the end if negative *)
  ps_start st = Z.of_nat a \/ (a < length (pa_elevation p) /\ ps_start st = (Z.of_nat a - Z.of_nat (length (pa_elevation p)))%Z) ->
  ps_stop st = Z.of_nat stop ->
  a <= stop -> stop <= length (pa_elevation p) ->
  plot_layers st p = Ok ds ->
  exists before, (forall xs ys, ~ In (Line xs ys) before)
  /\ ds = before ++ map (fun k => Line (pa_x p) (nth k (pa_elevation p) [])) (seq a (stop - a)) ++ [Line (pa_x p) (lastn (pa_elevation p) [])].
Proof. exact (layer_stop_start st p ds a stop). Qed.
Print Assumptions C83_from_start_partial.
Theorem C83_from_end_partial (st : plot_style) (p : plot_args R) ds a k :
  (ps_n_layers st < 0)%Z ->
  (* counted from the start, or from the end if negative *)
  ps_start st = Z.of_nat a \/ (a < length (pa_elevation p) /\ ps_start st = (Z.of_nat a - Z.of_nat (length (pa_elevation p)))%Z) ->
  ps_stop st = (Z.of_nat k - Z.of_nat (length (pa_elevation p)))%Z ->
  a <= S k -> k < length (pa_elevation p) ->
  plot_layers st p = Ok ds ->
  exists before, (forall xs ys, ~ In (Line xs ys) before)
  /\ ds = before ++ map (fun k => Line (pa_x p) (nth k (pa_elevation p) [])) (seq a (S k - a)) ++ [Line (pa_x p) (lastn (pa_elevation p) [])].
Proof. exact (layer_stop_end st p ds a k). Qed.
Print Assumptions C83_from_end_partial.
Example C83_nonvacuous :
  ex_stop 2 = Ok [Line [0; 1] [0; 0]; Line [0; 1] [1; 1]; Line [0; 1] [3; 3]]%Q
  /\ ex_stop (-2) = Ok [Line [0; 1] [0; 0]; Line [0; 1] [1; 1]; Line [0; 1] [2; 2]; Line [0; 1] [3; 3]]%Q.
Proof. exact (conj ex_stop_2 ex_stop_end). Qed.
