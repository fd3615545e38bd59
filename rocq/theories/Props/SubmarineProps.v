(** C20-C24: submarine diffusion.

    [diff_run ops (c, g)] performs the operations [ops] (Spec/Diffusion.v) on a
    SubmarineDiffuser; [diff_tracked] is the list of current parameter values,
    [level_used] the sea level behind the load in force before the calculation
    (it is only used by the first row, see C21). *)
From Coq Require Import String List ZArith QArith Reals.
From Verif.Base Require Import Num Py Arr.
From Verif.Model Require Import Layers Grid Shoreline Submarine Clients.
From Verif.Spec Require Import Diffusion.
From Verif.Proofs Require Import SubmarineP SubmarineEx.
Import ListNotations.
Local Open Scope R_scope.

(** C20 *)
Theorem C20_coefficient_rules ps0 load0 wb0 sh0 al0 ss0 w0 lsl bw (g : grid R) z0 c0 g0 ops shores :
  (0 < g_rows g)%nat -> node g "topographic__elevation" = Some z0 ->
  shaped (g_rows g + 2) (g_cols g) z0 -> node g "kd" = None ->
  submarine_init (mkSubParams w0 ps0 wb0 sh0 al0 ss0 load0 lsl bw) g = Ok (c0, g0) ->
  (forall op, In op ops -> diff_ok (g_rows g) (g_cols g) op) -> length shores = g_rows g ->
  let z := last_topography z0 ops in
  let now := diff_tracked (mkNow ps0 load0 wb0 sh0 al0 ss0 w0) ops in
  let load_at level := now_sediment_load now * (1 + level * lsl) in
  exists kd, node (snd (diff_run (ops ++ [Calc shores]) (c0, g0))) "kd" = Some kd
    /\ shaped (g_rows g + 2) (g_cols g) kd
    /\ (forall i j, (i < g_rows g)%nat -> (j < g_cols g)%nat ->
          at2 0 kd (i + 1) j
          = diffusion_rule
              (load_at (if Nat.eqb i 0 then level_used w0 w0 w0 ops else now_sea_level now))
              (load_at (now_sea_level now)) (g_dx g)
              (now_plain_slope now) (now_wave_base now) (now_shoreface_height now) (now_alpha now)
              (now_shelf_slope now) bw
              (INR j * g_dx g) (nth i shores 0) (now_sea_level now - at2 0 z (i + 1) j)
              (Nat.eqb i (Nat.div2 (g_rows g))))
    /\ (forall j, (j < g_cols g)%nat -> at2 0 kd 0 j = at2 0 kd 1 j)
    /\ (forall j, (j < g_cols g)%nat -> at2 0 kd (g_rows g + 1) j = 0).
Proof. exact (diff_history ps0 load0 wb0 sh0 al0 ss0 w0 lsl bw g z0 c0 g0 ops shores). Qed.
Print Assumptions C20_coefficient_rules.
Theorem C20_coefficients_positive ps0 load0 wb0 sh0 al0 ss0 w0 lsl bw (g : grid R) z0 c0 g0 ops shores :
  (0 < g_rows g)%nat -> node g "topographic__elevation" = Some z0 ->
  shaped (g_rows g + 2) (g_cols g) z0 -> node g "kd" = None ->
  submarine_init (mkSubParams w0 ps0 wb0 sh0 al0 ss0 load0 lsl bw) g = Ok (c0, g0) ->
  (forall op, In op ops -> diff_ok (g_rows g) (g_cols g) op) -> length shores = g_rows g ->
  let z := last_topography z0 ops in
  let now := diff_tracked (mkNow ps0 load0 wb0 sh0 al0 ss0 w0) ops in
  let load_at level := now_sediment_load now * (1 + level * lsl) in
  0 < g_dx g -> 0 < now_plain_slope now ->
  0 < load_at (now_sea_level now) -> 0 < load_at (level_used w0 w0 w0 ops) ->
  0 <= now_shoreface_height now * now_alpha now + now_shelf_slope now ->
  (forall i j, (i < g_rows g)%nat -> (j < g_cols g)%nat ->
     at2 0 z (i + 1) j < now_sea_level now -> nth i shores 0 <= INR j * g_dx g) ->
  exists kd, node (snd (diff_run (ops ++ [Calc shores]) (c0, g0))) "kd" = Some kd
    /\ forall i j, (i < g_rows g)%nat -> (j < g_cols g)%nat -> 0 < at2 0 kd (i + 1) j.
Proof. exact (coefficients_positive ps0 load0 wb0 sh0 al0 ss0 w0 lsl bw g z0 c0 g0 ops shores). Qed.
Print Assumptions C20_coefficients_positive.
Example C20_nonvacuous :
  (0 < g_rows (ex_sub_grid 2))%nat
  /\ node (ex_sub_grid 2) "topographic__elevation" = Some (full 4 1 0)
  /\ shaped (g_rows (ex_sub_grid 2) + 2) (g_cols (ex_sub_grid 2)) (full 4 1 0)
  /\ node (ex_sub_grid 2) "kd" = None
  /\ exists c0 g0, submarine_init (mkSubParams 0 1 10 0 0 0 1 1 0) (ex_sub_grid 2) = Ok (c0, g0).
Proof. exact ex_sub_nonvacuous. Qed.
(* the docstring of calc_diffusion_coef *)
Example C20_docstring : ex_docstring = Some [3750; 3750; 3750; 1000 # 3]%Q.
Proof. exact ex_docstring_ok. Qed.

(** C21.  Two calls in a row with nothing changed in between. *)
Definition C21_statement : Prop :=
  forall p (g : grid R) z c0 g0 ops shores,
    (0 < g_rows g)%nat -> node g "topographic__elevation" = Some z ->
    shaped (g_rows g + 2) (g_cols g) z -> node g "kd" = None ->
    submarine_init p g = Ok (c0, g0) ->
    (forall op, In op ops -> diff_ok (g_rows g) (g_cols g) op) -> length shores = g_rows g ->
    node (snd (diff_run (ops ++ [Calc shores]) (c0, g0))) "kd"
    = node (snd (diff_run (ops ++ [Calc shores; Calc shores]) (c0, g0))) "kd".
(** It fails: the first row uses the load of the previous call. *)
Theorem C21_same_call_twice_refuted : ~ C21_statement.
Proof. exact same_coefficient_twice_refuted. Qed.
Print Assumptions C21_same_call_twice_refuted.
Definition C21_rows_statement : Prop :=
  forall p (g : grid R) z c0 g0 ops shores kd i1 i2,
    (0 < g_rows g)%nat -> node g "topographic__elevation" = Some z ->
    shaped (g_rows g + 2) (g_cols g) z -> node g "kd" = None ->
    submarine_init p g = Ok (c0, g0) ->
    (forall op, In op ops -> diff_ok (g_rows g) (g_cols g) op) -> length shores = g_rows g ->
    let g' := snd (diff_run (ops ++ [Calc shores]) (c0, g0)) in
    node g' "kd" = Some kd ->
    (i1 < g_rows g)%nat -> (i2 < g_rows g)%nat -> nth i1 shores 0 = nth i2 shores 0 ->
    (forall j, (j < g_cols g)%nat -> at2 0 (last_topography z ops) (i1 + 1) j = at2 0 (last_topography z ops) (i2 + 1) j) ->
    (forall j, (j < g_cols g)%nat -> at2 0 (last_topography z ops) (i1 + 1) j
        < now_sea_level (diff_tracked (mkNow (p_plain_slope p) (p_sediment_load p) (p_wave_base p)
             (p_shoreface_height p) (p_alpha p) (p_shelf_slope p) (p_sea_level p)) ops)) ->
    forall j, (j < g_cols g)%nat -> at2 0 kd (i1 + 1) j = at2 0 kd (i2 + 1) j.
Theorem C21_same_rows_refuted : ~ C21_rows_statement.
Proof. exact same_rows_refuted. Qed.
Print Assumptions C21_same_rows_refuted.
(** Two diffusers with different pasts and the same present agree on every row
    but the first, on all land, everywhere if the load does not depend on sea
    level, ... *)
Theorem C21_present_only_partial ps0 load0 wb0 sh0 al0 ss0 w0 ps0' load0' wb0' sh0' al0' ss0' w0' lsl bw
    (g g' : grid R) z0 z0' c0 c0' g0 g0' ops ops' shores :
  (0 < g_rows g)%nat ->
  node g "topographic__elevation" = Some z0 -> shaped (g_rows g + 2) (g_cols g) z0 -> node g "kd" = None ->
  submarine_init (mkSubParams w0 ps0 wb0 sh0 al0 ss0 load0 lsl bw) g = Ok (c0, g0) ->
  (forall op, In op ops -> diff_ok (g_rows g) (g_cols g) op) ->
  node g' "topographic__elevation" = Some z0' -> shaped (g_rows g' + 2) (g_cols g') z0' -> node g' "kd" = None ->
  submarine_init (mkSubParams w0' ps0' wb0' sh0' al0' ss0' load0' lsl bw) g' = Ok (c0', g0') ->
  (forall op, In op ops' -> diff_ok (g_rows g') (g_cols g') op) ->
  g_rows g' = g_rows g -> g_cols g' = g_cols g -> g_dx g' = g_dx g ->
  length shores = g_rows g ->
  diff_tracked (mkNow ps0 load0 wb0 sh0 al0 ss0 w0) ops
    = diff_tracked (mkNow ps0' load0' wb0' sh0' al0' ss0' w0') ops' ->
  last_topography z0 ops = last_topography z0' ops' ->
  exists kd kd', node (snd (diff_run (ops ++ [Calc shores]) (c0, g0))) "kd" = Some kd
    /\ node (snd (diff_run (ops' ++ [Calc shores]) (c0', g0'))) "kd" = Some kd'
    /\ (forall i j, (1 <= i < g_rows g)%nat -> (j < g_cols g)%nat ->
          at2 0 kd (i + 1) j = at2 0 kd' (i + 1) j)
    /\ (lsl = 0 \/ level_used w0 w0 w0 ops = level_used w0' w0' w0' ops' ->
        forall i j, (i < g_rows g)%nat -> (j < g_cols g)%nat ->
          at2 0 kd (i + 1) j = at2 0 kd' (i + 1) j)
    /\ (forall i j, (i < g_rows g)%nat -> (j < g_cols g)%nat ->
          now_sea_level (diff_tracked (mkNow ps0 load0 wb0 sh0 al0 ss0 w0) ops)
            <= at2 0 (last_topography z0 ops) (i + 1) j ->
          at2 0 kd (i + 1) j = at2 0 kd' (i + 1) j).
Proof.
  exact (two_histories ps0 load0 wb0 sh0 al0 ss0 w0 ps0' load0' wb0' sh0' al0' ss0' w0' lsl bw
           g g' z0 z0' c0 c0' g0 g0' ops ops' shores).
Qed.
Print Assumptions C21_present_only_partial.
(** ... and everywhere from the second calculation on. *)
Theorem C21_second_calculation_partial ps0 load0 wb0 sh0 al0 ss0 w0 ps0' load0' wb0' sh0' al0' ss0' w0' lsl bw
    (g g' : grid R) z0 z0' c0 c0' g0 g0' ops ops' first first' shores :
  (0 < g_rows g)%nat -> g_rows g' = g_rows g -> g_cols g' = g_cols g -> g_dx g' = g_dx g ->
  node g "topographic__elevation" = Some z0 -> shaped (g_rows g + 2) (g_cols g) z0 -> node g "kd" = None ->
  submarine_init (mkSubParams w0 ps0 wb0 sh0 al0 ss0 load0 lsl bw) g = Ok (c0, g0) ->
  (forall op, In op ops -> diff_ok (g_rows g) (g_cols g) op) ->
  node g' "topographic__elevation" = Some z0' -> shaped (g_rows g' + 2) (g_cols g') z0' -> node g' "kd" = None ->
  submarine_init (mkSubParams w0' ps0' wb0' sh0' al0' ss0' load0' lsl bw) g' = Ok (c0', g0') ->
  (forall op, In op ops' -> diff_ok (g_rows g') (g_cols g') op) ->
  length first = g_rows g -> length first' = g_rows g -> length shores = g_rows g ->
  diff_tracked (mkNow ps0 load0 wb0 sh0 al0 ss0 w0) ops
    = diff_tracked (mkNow ps0' load0' wb0' sh0' al0' ss0' w0') ops' ->
  last_topography z0 ops = last_topography z0' ops' ->
  exists kd kd',
    node (snd (diff_run (ops ++ [Calc first; Calc shores]) (c0, g0))) "kd" = Some kd
    /\ node (snd (diff_run (ops' ++ [Calc first'; Calc shores]) (c0', g0'))) "kd" = Some kd'
    /\ forall i j, (i < g_rows g)%nat -> (j < g_cols g)%nat -> at2 0 kd (i + 1) j = at2 0 kd' (i + 1) j.
Proof.
  exact (second_calculation ps0 load0 wb0 sh0 al0 ss0 w0 ps0' load0' wb0' sh0' al0' ss0' w0' lsl bw
           g g' z0 z0' c0 c0' g0 g0' ops ops' first first' shores).
Qed.
Print Assumptions C21_second_calculation_partial.

(** C22 *)
Definition C22_statement : Prop :=
  forall p (g : grid R) z c0 g0 ops shores kd,
    (0 < g_rows g)%nat -> node g "topographic__elevation" = Some z ->
    shaped (g_rows g + 2) (g_cols g) z -> node g "kd" = None ->
    submarine_init p g = Ok (c0, g0) ->
    (forall op, In op ops -> diff_ok (g_rows g) (g_cols g) op) -> length shores = g_rows g ->
    node (snd (diff_run (ops ++ [Calc shores]) (c0, g0))) "kd" = Some kd ->
    forall j, (j < g_cols g)%nat ->
      at2 0 kd 0 j = at2 0 kd 1 j /\ at2 0 kd (g_rows g + 1) j = at2 0 kd (g_rows g) j.
Theorem C22_both_boundaries_refuted : ~ C22_statement.
Proof. exact both_boundaries_refuted. Qed.
Print Assumptions C22_both_boundaries_refuted.
(** The bottom row mirrors its neighbour; the top row stays zero for ever. *)
Theorem C22_bottom_boundary_partial ps0 load0 wb0 sh0 al0 ss0 w0 lsl bw (g : grid R) z0 c0 g0 ops shores :
  (0 < g_rows g)%nat -> node g "topographic__elevation" = Some z0 ->
  shaped (g_rows g + 2) (g_cols g) z0 -> node g "kd" = None ->
  submarine_init (mkSubParams w0 ps0 wb0 sh0 al0 ss0 load0 lsl bw) g = Ok (c0, g0) ->
  (forall op, In op ops -> diff_ok (g_rows g) (g_cols g) op) -> length shores = g_rows g ->
  exists kd, node (snd (diff_run (ops ++ [Calc shores]) (c0, g0))) "kd" = Some kd
    /\ (forall j, (j < g_cols g)%nat -> at2 0 kd 0 j = at2 0 kd 1 j)
    /\ (forall j, (j < g_cols g)%nat -> at2 0 kd (g_rows g + 1) j = 0).
Proof. exact (boundary_rows ps0 load0 wb0 sh0 al0 ss0 w0 lsl bw g z0 c0 g0 ops shores). Qed.
Print Assumptions C22_bottom_boundary_partial.

(** C23.  [diffuse] is any diffusion solver. *)
Theorem C23_moves_sediment_only interp1d diffuse dt (c : submarine R) (g : grid R) z kd deposit sl shores n m :
  g_rows g = n -> g_cols g = m -> (0 < n)%nat -> (2 <= m)%nat ->
  node g "topographic__elevation" = Some z -> shaped (n + 2) m z ->
  node g "kd" = Some kd -> shaped (n + 2) m kd ->
  node g "sediment_deposit__thickness" = Some deposit -> shaped (n + 2) m deposit ->
  gval g "sea_level__elevation" = Some sl ->
  (forall i, (i < n)%nat ->
     find_shoreline interp1d (x_of_column g) (nth (i + 1) z []) sl = Ok (nth i shores 0)) ->
  length shores = n ->
  (forall k u, shaped (n + 2) m k -> shaped (n + 2) m u -> shaped (n + 2) m (diffuse dt k u)) ->
  exists c' g' z' kd' deposit' c1 g1,
    submarine_step interp1d diffuse dt c g = Ok (c', g')
    /\ calc_diffusion_coef shores c g = Ok (c1, g1) /\ node g1 "kd" = Some kd'
    /\ node g' "kd" = Some kd'
    /\ node g' "topographic__elevation" = Some z' /\ node g' "sediment_deposit__thickness" = Some deposit'
    /\ (forall i j, (i < n + 2)%nat -> (j < m)%nat ->
          at2 0 z' i j = if (Nat.leb 1 i && Nat.leb i n && Nat.eqb j 0)%bool
                         then at2 0 z i 1 + sb_plain_slope c * g_dx g else at2 0 z i j)
    /\ (forall i j, (i < n + 2)%nat -> (j < m)%nat ->
          at2 0 deposit' i j = at2 0 deposit i j + (at2 0 (diffuse dt kd' z') i j - at2 0 z' i j))
    /\ (forall name, name <> "topographic__elevation"%string -> name <> "kd"%string ->
          name <> "sediment_deposit__thickness"%string -> node g' name = node g name)
    /\ at_grid g' = at_grid g /\ at_row g' = at_row g /\ layers g' = layers g
    /\ sb_time c' = sb_time c + dt.
Proof. exact (submarine_step_spec interp1d diffuse dt c g z kd deposit sl shores n m). Qed.
Print Assumptions C23_moves_sediment_only.
Example C23_nonvacuous :
  (2 <= g_cols ex_step_grid)%nat
  /\ node ex_step_grid "topographic__elevation" = Some (full 3 3 0)
  /\ node ex_step_grid "kd" = Some (full 3 3 0)
  /\ node ex_step_grid "sediment_deposit__thickness" = Some (full 3 3 0)
  /\ gval ex_step_grid "sea_level__elevation" = Some 0
  /\ forall interp1d i, (i < 1)%nat ->
       find_shoreline interp1d (x_of_column ex_step_grid) (nth (i + 1) (full 3 3 0) []) 0 = Ok (nth i [20] 0).
Proof. exact ex_step_nonvacuous. Qed.
(* topography, deposit and time after one step with a solver that raises
   everything by dt = 2 *)
Example C23_run : ex_sub_step = Some ([2; 1; -1; -3], [2; 2; 2; 2], 2)%Q.
Proof. exact ex_sub_step_ok. Qed.

(** C24.  k_land is [sb_ksh], the current load [sb_load]. *)
Definition C24_statement : Prop :=
  forall ps0 load0 wb0 sh0 al0 ss0 w0 lsl bw (g : grid R) z0 c0 g0 ops last,
    (0 < g_rows g)%nat -> node g "topographic__elevation" = Some z0 ->
    shaped (g_rows g + 2) (g_cols g) z0 -> node g "kd" = None ->
    submarine_init (mkSubParams w0 ps0 wb0 sh0 al0 ss0 load0 lsl bw) g = Ok (c0, g0) ->
    (forall op, In op (ops ++ [last]) -> diff_ok (g_rows g) (g_cols g) op) ->
    (exists v, last = SetSedimentLoad v) \/ (exists s, last = Calc s) ->
    let now := diff_tracked (mkNow ps0 load0 wb0 sh0 al0 ss0 w0) (ops ++ [last]) in
    sb_load (fst (diff_run (ops ++ [last]) (c0, g0)))
    = now_sediment_load now * (1 + now_sea_level now * lsl).
(** It fails: assigning sediment_load goes back to the sea level of construction. *)
Theorem C24_load_follows_sea_level_refuted : ~ C24_statement.
Proof. exact load_follows_refuted. Qed.
Print Assumptions C24_load_follows_sea_level_refuted.
Theorem C24_load_after_calculation_partial ps0 load0 wb0 sh0 al0 ss0 w0 lsl bw (g : grid R) z0 c0 g0 ops shores :
  (0 < g_rows g)%nat -> node g "topographic__elevation" = Some z0 ->
  shaped (g_rows g + 2) (g_cols g) z0 -> node g "kd" = None ->
  submarine_init (mkSubParams w0 ps0 wb0 sh0 al0 ss0 load0 lsl bw) g = Ok (c0, g0) ->
  (forall op, In op ops -> diff_ok (g_rows g) (g_cols g) op) -> length shores = g_rows g ->
  let now := diff_tracked (mkNow ps0 load0 wb0 sh0 al0 ss0 w0) ops in
  sb_load (fst (diff_run (ops ++ [Calc shores]) (c0, g0)))
  = now_sediment_load now * (1 + now_sea_level now * lsl).
Proof. exact (load_after_calc ps0 load0 wb0 sh0 al0 ss0 w0 lsl bw g z0 c0 g0 ops shores). Qed.
Print Assumptions C24_load_after_calculation_partial.
Theorem C24_k_land ps0 load0 wb0 sh0 al0 ss0 w0 lsl bw (g : grid R) z0 c0 g0 ops :
  (0 < g_rows g)%nat -> node g "topographic__elevation" = Some z0 ->
  shaped (g_rows g + 2) (g_cols g) z0 -> node g "kd" = None ->
  submarine_init (mkSubParams w0 ps0 wb0 sh0 al0 ss0 load0 lsl bw) g = Ok (c0, g0) ->
  (forall op, In op ops -> diff_ok (g_rows g) (g_cols g) op) ->
  let now := diff_tracked (mkNow ps0 load0 wb0 sh0 al0 ss0 w0) ops in
  let c := fst (diff_run ops (c0, g0)) in
  sb_plain_slope c = now_plain_slope now /\ sb_load0 c = now_sediment_load now
  /\ sb_ksh c = sb_load c / sb_plain_slope c
  /\ sb_load c = now_sediment_load now * (1 + level_used w0 w0 w0 ops * lsl).
Proof. exact (land_coefficient ps0 load0 wb0 sh0 al0 ss0 w0 lsl bw g z0 c0 g0 ops). Qed.
Print Assumptions C24_k_land.
