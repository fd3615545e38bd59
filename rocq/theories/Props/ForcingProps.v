(** C06-C12, C68: sea level, tabulated curves, subsidence, bathymetry. *)
From Coq Require Import String List ZArith QArith Reals.
From Verif.Base Require Import Num Py Arr.
From Verif.Model Require Import Layers Grid Interp SeaLevel Subsidence Bathymetry Clients.
From Verif.Spec Require Import Profile History.
From Verif.Proofs Require Import SeaLevelP SubsidenceP ForcingEx StartsP.
Import ListNotations.
Local Open Scope R_scope.

(** C06.  A component created with any curve at any time goes through any
    history [ops] and then takes one more step. *)
Theorem C06_sea_level_increments (curve : R -> result R) start (g : grid R) old ops dt :
  gval g "sea_level__elevation" = Some old ->
  let '(c1, g1, incs) := sl_run ops (mkSeaLevel curve start) g in
  let '(c2, g2, e) := sea_level_step dt c1 g1 in
  let t := time_after start ops + dt in
  let at_curve v := match last_file None ops with
                    | None => curve t = Ok v
                    | Some (x, y) => good_table x y -> on_curve x y t v
                    end in
  gval g1 "sea_level__elevation" = Some (old + rsum incs)
  /\ slc_time c2 = t
  /\ at_node g2 = at_node g /\ at_row g2 = at_row g /\ layers g2 = layers g
  /\ match e with
     | None => exists new, gval g2 "sea_level__elevation" = Some new /\ at_curve new
                 /\ gval g2 "sea_level__increment_of_elevation" = Some (new - (old + rsum incs))
     | Some _ => g2 = g1 /\ (forall v, match last_file None ops with
                               | None => curve t <> Ok v
                               | Some (x, y) => good_table x y -> ~ on_curve x y t v
                               end)
     end.
Proof. exact (sl_history curve start g old ops dt). Qed.
Print Assumptions C06_sea_level_increments.

(* step, change file, fail (outside the table), reset the time, step *)
Example C06_run :
  let c0 := mkSeaLevel (fun t : R => Ok (2 * t)) 0 in
  let g0 := put_gval (mkGrid 1 3 1 1 [] [] [] (el_empty 1 1)) "sea_level__elevation" 7 in
  let '(_, g, incs) := sl_run [SlStep 3; SlStep 1] c0 g0 in
  gval g "sea_level__elevation" = Some (2 * (0 + 3 + 1)) /\ incs = [2 * (0 + 3) - 7; 2 * (0 + 3 + 1) - 2 * (0 + 3)].
Proof. split; reflexivity. Qed.

(** C07 *)
Theorem C07_sinusoid (wave_length amplitude phase mean linear : R) :
  wave_length <> 0 ->
  let level t := sinusoid wave_length amplitude phase mean linear t in
  (forall t, level (t + wave_length) = level t + linear * wave_length)
  /\ level phase = mean + linear * phase
  /\ level (phase + wave_length / 4) = mean + amplitude + linear * (phase + wave_length / 4)
  /\ (forall t, Rabs (level t - (mean + linear * t)) <= 13 / 10 * Rabs amplitude).
Proof. exact (sinusoid_all wave_length amplitude phase mean linear). Qed.
Print Assumptions C07_sinusoid.

(** and the component built by SinusoidalSeaLevel follows that curve, starting
    at its start time *)
Theorem C07_sinusoid_component (wave_length amplitude phase mean start linear dt : R) g old :
  gval g "sea_level__elevation" = Some old ->
  let '(c, g', e) := sea_level_step dt (sinusoidal_init wave_length amplitude phase mean start linear) g in
  e = None
  /\ gval g' "sea_level__elevation" = Some (sinusoid wave_length amplitude phase mean linear (start + dt))
  /\ slc_time c = start + dt.
Proof. exact (sinusoidal_step wave_length amplitude phase mean start linear dt g old). Qed.
Print Assumptions C07_sinusoid_component.

Example C07_nonvacuous : (1 : R) <> 0 /\ sinusoid 1 2 0 3 0 (0 + 1 / 4) = 3 + 2 + 0 * (0 + 1 / 4).
Proof. exact ex_sinusoid. Qed.

(** C08 *)
Theorem C08_interpolation (x y : list R) :
  good_table x y ->
  (forall i, (i < length x)%nat -> interp_linear x y (nth i x 0) = Ok (nth i y 0))
  /\ (forall i u, (S i < length x)%nat -> nth i x 0 <= u <= nth (S i) x 0 ->
        exists v, interp_linear x y u = Ok v
          /\ v = lerp (nth i x 0) (nth i y 0) (nth (S i) x 0) (nth (S i) y 0) u
          /\ Rmin (nth i y 0) (nth (S i) y 0) <= v <= Rmax (nth i y 0) (nth (S i) y 0))
  /\ (forall u, (exists v, interp_linear x y u = Ok v) <->
                nth 0 x 0 <= u <= nth (length x - 1) x 0)
  /\ (forall u, interp_linear x y u = Err ValueError <->
                ~ (nth 0 x 0 <= u <= nth (length x - 1) x 0)).
Proof. exact (interp_table x y). Qed.
Print Assumptions C08_interpolation.

Example C08_nonvacuous : good_table [0; 10; 30] [5; 1; 2].
Proof. exact ex_table. Qed.

(** C09.  The documented behaviour: *)
Definition C09_statement : Prop :=
  forall (x y : list R) u, good_table x y ->
    (u < nth 0 x 0 -> sea_level_interpolator x y u = Ok (nth 0 y 0))
    /\ (nth (length x - 1) x 0 < u -> sea_level_interpolator x y u = Ok (nth (length y - 1) y 0)).
(** It does not hold: *)
Theorem C09_nearest_extrapolation_refuted : ~ C09_statement.
Proof. exact nearest_refuted. Qed.
Print Assumptions C09_nearest_extrapolation_refuted.
(** What happens instead, for every table and every time outside it: the step
    raises ValueError, the component's time has advanced and the grid keeps its
    old sea level and increment. *)
Theorem C09_outside_table_partial (x y : list R) dt t (g : grid R) old :
  good_table x y -> gval g "sea_level__elevation" = Some old ->
  ~ (nth 0 x 0 <= t + dt <= nth (length x - 1) x 0) ->
  sea_level_step dt (mkSeaLevel (sea_level_interpolator x y) t) g
  = (mkSeaLevel (sea_level_interpolator x y) (t + dt), g, Some ValueError).
Proof. exact (outside_table x y dt t g old). Qed.
Print Assumptions C09_outside_table_partial.
Example C09_nonvacuous : good_table [0; 10; 30] [5; 1; 2] /\ ~ (0 <= 29 + 2 <= 30).
Proof. exact ex_outside. Qed.

(** C10.  [uplift] (Spec/History.v) is the sum of rate * dt over the steps, with
    the rate read off the table in force. *)
Theorem C10_subsidence_history ops (g : grid R) f x y :
  0 < g_dx g -> (0 < g_cols g)%nat ->
  node g "bedrock_surface__increment_of_elevation" = Some f ->
  shaped (g_rows g + 2) (g_cols g) f ->
  good_table x y -> nth 0 x 0 <= 0 -> INR (g_cols g - 1) * g_dx g <= nth (length x - 1) x 0 ->
  (forall x' y', In (SubSetFile x' y') ops -> good_table x' y') ->
  exists c f', snd (subsidence_init x y g) = Ok c /\ fst (subsidence_init x y g) = g
    /\ snd (sub_run ops c g) = put_node g "bedrock_surface__increment_of_elevation" f'
    /\ (forall j, (j < g_cols g)%nat -> exists total,
          uplift 0 (INR (g_cols g - 1) * g_dx g) x y ops (INR j * g_dx g) total
          /\ (forall i, (1 <= i <= g_rows g)%nat -> at2 0 f' i j = at2 0 f i j + total)
          /\ at2 0 f' 0 j = at2 0 f 0 j /\ at2 0 f' (g_rows g + 1) j = at2 0 f (g_rows g + 1) j).
Proof. exact (subsidence_history ops g f x y). Qed.
Print Assumptions C10_subsidence_history.

(** the total is determined by the tables and steps *)
Theorem C10_uplift_unique lo hi ops x y u a b :
  good_table x y -> (forall x' y', In (SubSetFile x' y') ops -> good_table x' y') ->
  uplift lo hi x y ops u a -> uplift lo hi x y ops u b -> a = b.
Proof. exact (uplift_fun lo hi ops x y u a b). Qed.
Print Assumptions C10_uplift_unique.

Theorem C10_split_step dt1 dt2 c (g : grid R) f :
  node g "bedrock_surface__increment_of_elevation" = Some f ->
  shaped (g_rows g + 2) (g_cols g) f -> length (sub_rate c) = g_cols g ->
  (let* cg := subsidence_step dt1 c g in subsidence_step dt2 (fst cg) (snd cg))
  = subsidence_step (dt1 + dt2) c g.
Proof. exact (subsidence_split dt1 dt2 c g f). Qed.
Print Assumptions C10_split_step.

Example C10_nonvacuous :
  0 < g_dx ex_sub_grid /\ (0 < g_cols ex_sub_grid)%nat
  /\ node ex_sub_grid INCREMENT = Some (full 4 3 1)
  /\ shaped (g_rows ex_sub_grid + 2) (g_cols ex_sub_grid) (full 4 3 1)
  /\ good_table [0; 10; 30] [5; 1; 2] /\ nth 0 [0; 10; 30] 0 <= 0
  /\ INR (g_cols ex_sub_grid - 1) * g_dx ex_sub_grid <= nth 2 [0; 10; 30] 0.
Proof. exact ex_sub_nonvacuous. Qed.
Example C10_run :
  match snd (subsidence_init (map inject_Z [0;10;30]%Z) (map inject_Z [5;1;2]%Z) ex_sub_gridQ) with
  | Ok c => match subsidence_step 2%Q c ex_sub_gridQ with
            | Ok (_, g') => match node g' INCREMENT with Some f => map (map Qred) f | None => [] end
            | Err _ => [] end
  | Err _ => [] end
  = map (map inject_Z) [[1;1;1]; [11;3;4]; [11;3;4]; [1;1;1]]%Z.
Proof. exact ex_sub_run. Qed.

(** C11.  An exception returns no grid: the caller's is unchanged. *)
Theorem C11_bathymetry x y (g : grid R) z :
  good_table x y -> 0 < g_dx g -> (0 < g_cols g)%nat ->
  node g "topographic__elevation" = Some z -> shaped (g_rows g + 2) (g_cols g) z ->
  (nth 0 x 0 <= 0 /\ INR (g_cols g - 1) * g_dx g <= nth (length x - 1) x 0 ->
     exists z', bathymetry_step x y g = Ok (put_node g "topographic__elevation" z')
       /\ shaped (g_rows g + 2) (g_cols g) z'
       /\ (forall i j, (i < g_rows g + 2)%nat -> (j < g_cols g)%nat ->
             on_curve x y (INR j * g_dx g) (at2 0 z' i j))
       /\ bathymetry_step x y (put_node g "topographic__elevation" z')
          = Ok (put_node g "topographic__elevation" z'))
  /\ (~ (nth 0 x 0 <= 0 /\ INR (g_cols g - 1) * g_dx g <= nth (length x - 1) x 0) ->
     exists e, bathymetry_step x y g = Err e).
Proof. exact (bathymetry_all x y g z). Qed.
Print Assumptions C11_bathymetry.
(* a reader created on a grid without topography adds it *)
Theorem C11_constructed x y (g : grid R) : good_table x y -> 0 < g_dx g -> (0 < g_cols g)%nat ->
  node g "topographic__elevation" = None -> nth 0 x 0 <= 0 -> INR (g_cols g - 1) * g_dx g <= nth (length x - 1) x 0 ->
  exists z', bathymetry_step x y (bathymetry_init g) = Ok (put_node g "topographic__elevation" z')
    /\ shaped (g_rows g + 2) (g_cols g) z'
    /\ forall i j, (i < g_rows g + 2)%nat -> (j < g_cols g)%nat -> on_curve x y (INR j * g_dx g) (at2 0 z' i j).
Proof. exact (bathymetry_new x y g). Qed.
Print Assumptions C11_constructed.
Example C11_constructed_run :
  match bathymetry_step (map inject_Z [0;10;30]%Z) (map inject_Z [5;1;2]%Z) (bathymetry_init (mkGrid 1 4 1%Q 5%Q [] [] [] (el_empty 1 2))) with
  | Ok g' => match node g' "topographic__elevation" with Some f => map (map Qred) f | None => [] end
  | Err _ => [] end
  = let r := [5; 3; 1; 5 # 4]%Q in [r; r; r].
Proof. exact ex_bath_new. Qed.
Example C11_run :
  match bathymetry_step (map inject_Z [0;10;30]%Z) (map inject_Z [5;1;2]%Z) ex_bath_gridQ with
  | Ok g' => match node g' "topographic__elevation" with Some f => map (map Qred) f | None => [] end
  | Err _ => [] end
  = let r := [5; 3; 1; 5 # 4]%Q in [r; r; r].
Proof. exact ex_bath_run. Qed.
Example C11_fail :
  bathymetry_step (map inject_Z [0;10;14]%Z) (map inject_Z [5;1;2]%Z) ex_bath_gridQ = Err ValueError.
Proof. exact ex_bath_fail. Qed.
Example C11_nonvacuous : exists (g : grid R) z,
  good_table [0; 10; 30] [5; 1; 2] /\ 0 < g_dx g /\ (0 < g_cols g)%nat
  /\ node g "topographic__elevation" = Some z /\ shaped (g_rows g + 2) (g_cols g) z
  /\ nth 0 [0; 10; 30] 0 <= 0 /\ INR (g_cols g - 1) * g_dx g <= nth 2 [0; 10; 30] 0.
Proof. exact ex_bath_nonvacuous. Qed.

(** C12 *)
Theorem C12_initial_profile (x : list R) sl_plain init_shore hgt alpha sl_sh :
  (0 < length x)%nat -> increasing x -> 0 < sl_plain -> 0 < sl_sh -> 0 <= hgt -> 0 <= alpha ->
  let z := create_initial_profile x sl_plain init_shore hgt alpha sl_sh in
  exists shore,
    (init_shore <= nth (length x - 1) x 0 -> shore = init_shore)
    /\ (nth (length x - 1) x 0 < init_shore ->
          shore = (nth 0 x 0 + nth (length x - 1) x 0) / 2
          /\ nth 0 x 0 <= shore <= nth (length x - 1) x 0)
    /\ length z = length x
    /\ (forall i j, (i < j < length x)%nat -> nth j z 0 < nth i z 0)
    /\ (forall i, (i < length x)%nat ->
          (nth i x 0 < shore -> 0 < nth i z 0)
          /\ (nth i x 0 = shore -> nth i z 0 = 0)
          /\ (shore < nth i x 0 -> nth i z 0 < 0)).
Proof. exact (initial_profile_spec x sl_plain init_shore hgt alpha sl_sh). Qed.
Print Assumptions C12_initial_profile.
Example C12_nonvacuous :
  increasing [0; 10; 30] /\ 15 <= nth (length [0; 10; 30] - 1) [0; 10; 30] 0.
Proof. exact ex_profile_nonvacuous. Qed.

(** C68.  A shore outside the grid, on either side: *)
Definition C68_statement : Prop :=
  forall (x : list R) sl_plain init_shore hgt alpha sl_sh,
    (2 <= length x)%nat -> increasing x -> 0 < sl_plain -> 0 < sl_sh -> 0 <= hgt -> 0 <= alpha ->
    ~ (nth 0 x 0 <= init_shore <= nth (length x - 1) x 0) ->
    let z := create_initial_profile x sl_plain init_shore hgt alpha sl_sh in
    0 <= nth 0 z 0 /\ nth (length x - 1) z 0 <= 0.
(** a shore landward of the grid is kept, and the whole profile is submerged *)
Theorem C68_shore_outside_grid_refuted : ~ C68_statement.
Proof. exact shore_recentred_refuted. Qed.
Print Assumptions C68_shore_outside_grid_refuted.
Theorem C68_shore_outside_grid_partial (x : list R) sl_plain init_shore hgt alpha sl_sh :
  (2 <= length x)%nat -> increasing x -> 0 < sl_plain -> 0 < sl_sh -> 0 <= hgt -> 0 <= alpha ->
  nth (length x - 1) x 0 < init_shore ->
  let z := create_initial_profile x sl_plain init_shore hgt alpha sl_sh in
  0 < nth 0 z 0 /\ nth (length x - 1) z 0 < 0.
Proof. exact (shore_recentred_seaward x sl_plain init_shore hgt alpha sl_sh). Qed.
Print Assumptions C68_shore_outside_grid_partial.
Example C68_nonvacuous : increasing [0; 10; 30] /\ nth 2 [0; 10; 30] 0 < 31.
Proof. exact ex_profile_seaward. Qed.
