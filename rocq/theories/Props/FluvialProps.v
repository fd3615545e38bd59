(** C25-C28 and C97: fluvial deposition.

    [delta_grid], [channel_row], [on_ramp] and [taper_start] are in
    Spec/Deposition.v;
    [channel_width], [channel_depth], [land_sand] and [mud_carried] in Spec/Sand.v.  [interp1d] is any interpolator. *)
From Coq Require Import String List ZArith QArith Reals Floats.SpecFloat.
From Verif.Base Require Import Num Py Arr.
From Verif.Model Require Import Layers Grid Shoreline Submarine Fluvial.
From Verif.Spec Require Import Profile Deposition Sand.
From Verif.Proofs Require Import FluvialR FluvialEx SandP.
Import ListNotations.
Local Open Scope R_scope.

(** C25.  In doubles, with any exponential that maps NaN to NaN. *)
Definition C25_statement (e : b64 -> b64) : Prop :=
  forall interp1d dt (c : fluvial b64) (g : grid b64) z deposit sand sl g' sand' j,
    delta_grid g z deposit sand sl ->
    @fluvial_step b64 _ (b64_fns e) interp1d dt c g = Ok g' ->
    node g' "delta_sediment_sand__volume_fraction" = Some sand' -> (j < g_cols g)%nat ->
    (n0 <=? at2 n0 sand' (channel_row g) j)%num = true /\ (at2 n0 sand' (channel_row g) j <=? n1)%num = true.
(** It fails: a flat delta plain under a river without mud gives NaN. *)
Theorem C25_sand_fraction_refuted e : e S754_nan = S754_nan -> ~ C25_statement e.
Proof. exact (sand_in_range_refuted e). Qed.
Print Assumptions C25_sand_fraction_refuted.
(** In exact arithmetic it holds ... *)
Theorem C25_exact_sand_fraction_partial interp1d dt (c : fluvial R) (g : grid R) z deposit sand sl g' :
  delta_grid g z deposit sand sl -> fluvial_step interp1d dt c g = Ok g' ->
  exists sand', node g' "delta_sediment_sand__volume_fraction" = Some sand'
    /\ forall j, (j < g_cols g)%nat -> 0 <= at2 0 sand' (channel_row g) j <= 1.
Proof. exact (sand_fraction_range interp1d dt c g z deposit sand sl g'). Qed.
Print Assumptions C25_exact_sand_fraction_partial.
(** ... and in any arithmetic whose order knows that 0 < 0, 1 < 1 and 1 < 0 are
    false, doubles included, it is never below 0 and never above 1. *)
Theorem C25_never_outside_partial {A} {num : Num A} {trans : Trans A} interp1d dt (c : fluvial A) (g : grid A)
    z deposit sand sl g' :
  (n1 <? n0)%num = false -> (n0 <? n0)%num = false -> (n1 <? n1)%num = false ->
  delta_grid g z deposit sand sl -> fluvial_step interp1d dt c g = Ok g' ->
  exists sand', node g' "delta_sediment_sand__volume_fraction" = Some sand'
    /\ shaped (g_rows g + 2) (g_cols g) sand'
    /\ forall j, (j < g_cols g)%nat ->
         (at2 n0 sand' (channel_row g) j <? n0)%num = false
         /\ (n1 <? at2 n0 sand' (channel_row g) j)%num = false.
Proof. exact (sand_never_outside interp1d dt c g z deposit sand sl g'). Qed.
Print Assumptions C25_never_outside_partial.
Example C25_doubles_nonvacuous :
  (@n1 b64 _ <? n0)%num = false /\ (@n0 b64 _ <? n0)%num = false /\ (@n1 b64 _ <? n1)%num = false.
Proof. exact b64_order. Qed.
Example C25_nonvacuous interp1d :
  delta_grid (ex_delta 3 (-1) 1 1) (full 3 3 (-1)) (full 3 3 1) (full 3 3 n0) n0
  /\ exists g', fluvial_step interp1d 1 ex_fluvial (ex_delta 3 (-1) 1 1) = Ok g'.
Proof. split; [apply ex_delta_grid|apply ex_step]; auto; Lra.lra. Qed.
(* sand fraction and deposit along a coast, the exponential replaced by 1/2 *)
Example C25_run : ex_coast_run = Some ([1 # 2; 1 # 2; 0; 0; 0; 0]%Q, [1; 1; 1; 2; 149 # 50; 74 # 25]%Q).
Proof. exact ex_coast_ok. Qed.

(** C26 *)
Definition C26_statement : Prop :=
  forall interp1d dt (c : fluvial R) (g : grid R) z deposit sand sl g' shore sand' deposit' j,
    delta_grid g z deposit sand sl -> 0 < g_dx g -> 0 < fl_wave_base c -> 0 <= fl_hemi c -> 0 <= dt ->
    fluvial_step interp1d dt c g = Ok g' ->
    find_shoreline interp1d (x_of_column g) (nth (channel_row g) z []) sl = Ok shore ->
    node g' "delta_sediment_sand__volume_fraction" = Some sand' ->
    node g' "sediment_deposit__thickness" = Some deposit' ->
    (j < g_cols g)%nat -> shore <= INR j * g_dx g ->
    let new := at2 0 deposit' (channel_row g) j in
    let mud := new - at2 0 deposit (channel_row g) j in
    0 < new -> at2 0 sand' (channel_row g) j = Rmin 1 (Rmax 0 ((new - mud) / new)).
(** It fails: the result is written to a temporary copy. *)
Theorem C26_water_sand_refuted : ~ C26_statement.
Proof. exact water_sand_formula_refuted. Qed.
Print Assumptions C26_water_sand_refuted.
(** Under water the fraction is always 0, which is the formula's value exactly
    where there was nothing but hemipelagic mud to deposit. *)
Theorem C26_water_sand_zero_partial interp1d dt (c : fluvial R) (g : grid R) z deposit sand sl g' :
  delta_grid g z deposit sand sl -> fluvial_step interp1d dt c g = Ok g' ->
  exists shore sand' deposit',
    find_shoreline interp1d (x_of_column g) (nth (channel_row g) z []) sl = Ok shore
    /\ node g' "delta_sediment_sand__volume_fraction" = Some sand'
    /\ node g' "sediment_deposit__thickness" = Some deposit'
    /\ forall j, (j < g_cols g)%nat -> shore <= INR j * g_dx g ->
       let new := at2 0 deposit' (channel_row g) j in
       let mud := new - at2 0 deposit (channel_row g) j in
       at2 0 sand' (channel_row g) j = 0
       /\ (0 < new -> at2 0 deposit (channel_row g) j <= 0 ->
           at2 0 sand' (channel_row g) j = Rmin 1 (Rmax 0 ((new - mud) / new))).
Proof. exact (water_sand_zero interp1d dt c g z deposit sand sl g'). Qed.
Print Assumptions C26_water_sand_zero_partial.

(** C27 *)
Definition C27_statement : Prop :=
  forall interp1d dt (c : fluvial R) (g : grid R) z deposit sand sl g' deposit' j,
    delta_grid g z deposit sand sl -> 0 < g_dx g -> 0 < fl_wave_base c -> 0 <= fl_hemi c -> 0 <= dt ->
    fluvial_step interp1d dt c g = Ok g' ->
    node g' "sediment_deposit__thickness" = Some deposit' ->
    (j < g_cols g)%nat -> 2 * fl_wave_base c <= sl - at2 0 z (channel_row g) j ->
    at2 0 deposit' (channel_row g) j - at2 0 deposit (channel_row g) j <= fl_hemi c * dt.
(** It fails in the first column: the distance is measured from the second. *)
Theorem C27_mud_within_rate_refuted : ~ C27_statement.
Proof. exact mud_within_rate_refuted. Qed.
Print Assumptions C27_mud_within_rate_refuted.
Theorem C27_mud_partial interp1d dt (c : fluvial R) (g : grid R) z deposit sand sl g' :
  delta_grid g z deposit sand sl -> fluvial_step interp1d dt c g = Ok g' ->
  0 < g_dx g -> 0 < fl_wave_base c -> 0 <= fl_hemi c -> 0 <= dt ->
  exists shore deposit',
    find_shoreline interp1d (x_of_column g) (nth (channel_row g) z []) sl = Ok shore
    /\ node g' "sediment_deposit__thickness" = Some deposit'
    /\ (forall i j, (i < g_rows g + 2)%nat -> (j < g_cols g)%nat -> i <> channel_row g ->
          at2 0 deposit' i j = at2 0 deposit i j)
    /\ (forall j, (j < g_cols g)%nat ->
          let depth := sl - at2 0 z (channel_row g) j in
          let mud := at2 0 deposit' (channel_row g) j - at2 0 deposit (channel_row g) j in
          let rate := fl_hemi c * dt in
          (INR j * g_dx g < shore \/ depth <= fl_wave_base c -> mud = 0)
          /\ (shore <= INR j * g_dx g -> on_ramp (fl_wave_base c) depth ->
                mud = rate * ((depth - fl_wave_base c) / fl_wave_base c))
          /\ (2 * fl_wave_base c <= depth -> (1 <= j)%nat -> 0 <= mud <= rate)
          /\ (j = 0%nat -> 0 <= mud <= rate * (1 + g_dx g / 100000))).
Proof. exact (mud_range interp1d dt c g z deposit sand sl g'). Qed.
Print Assumptions C27_mud_partial.
(** The exact amount, for any parameters, and nothing else changes. *)
Theorem C27_mud_exact interp1d dt (c : fluvial R) (g : grid R) z deposit sand sl g' :
  delta_grid g z deposit sand sl -> fluvial_step interp1d dt c g = Ok g' ->
  exists shore sand' deposit',
    find_shoreline interp1d (x_of_column g) (nth (channel_row g) z []) sl = Ok shore
    /\ node g' "delta_sediment_sand__volume_fraction" = Some sand'
    /\ shaped (g_rows g + 2) (g_cols g) sand'
    /\ node g' "sediment_deposit__thickness" = Some deposit'
    /\ shaped (g_rows g + 2) (g_cols g) deposit'
    /\ (forall name, name <> "delta_sediment_sand__volume_fraction"%string ->
          name <> "sediment_deposit__thickness"%string -> node g' name = node g name)
    /\ at_grid g' = at_grid g /\ at_row g' = at_row g /\ layers g' = layers g
    /\ (forall i j, (i < g_rows g + 2)%nat -> (j < g_cols g)%nat -> i <> channel_row g ->
          at2 0 sand' i j = at2 0 sand i j /\ at2 0 deposit' i j = at2 0 deposit i j)
    /\ (forall j, (j < g_cols g)%nat ->
          let x := INR j * g_dx g in
          let depth k := sl - at2 0 z (channel_row g) k in
          let wb := fl_wave_base c in
          let rate := fl_hemi c * dt in
          let old := at2 0 deposit (channel_row g) j in
          let new := at2 0 deposit' (channel_row g) j in
          (x < shore -> new = old)
          /\ (shore <= x -> at2 0 sand' (channel_row g) j = 0)
          /\ (shore <= x -> depth j <= wb -> depth j < 2 * wb -> new = old)
          /\ (shore <= x -> on_ramp wb (depth j) -> new = old + (depth j - wb) / wb * rate)
          /\ (shore <= x -> 2 * wb <= depth j ->
                exists t, taper_start (fun i => shore <= INR i * g_dx g /\ on_ramp wb (depth i)) j t
                  /\ new = old + Rmax 0 (rate * (1 - (INR j * g_dx g - INR t * g_dx g) / 100000)))).
Proof. exact (mud_exact interp1d dt c g z deposit sand sl g'). Qed.
Print Assumptions C27_mud_exact.
(** Every submerged column is at or beyond the shore, unless the profile starts
    under water and comes up later. *)
Theorem C27_submerged_beyond_shore interp1d (x z : list R) sl s j :
  sorted x -> length z = length x -> find_shoreline interp1d x z sl = Ok s ->
  sl <= nth 0 z 0 \/ (forall i, (i < length z)%nat -> nth i z 0 < sl) ->
  (j < length z)%nat -> nth j z 0 < sl -> s <= nth j x 0.
Proof. exact (submerged_beyond_shore interp1d x z sl s j). Qed.
Print Assumptions C27_submerged_beyond_shore.

(** C28.  The only failures are a zero parameter and a shoreline that cannot be
    found; in particular no index is ever out of range. *)
Theorem C28_walk_stays_on_grid interp1d dt (c : fluvial R) (g : grid R) z deposit sand sl :
  delta_grid g z deposit sand sl -> 0 < g_dx g ->
  match fluvial_step interp1d dt c g with
  | Ok _ => True
  | Err e => (e = ZeroDivisionError
              /\ (fl_sand_frac c = 0 \/ fl_plain_slope c = 0 \/ fl_sediment_load c = 0))
             \/ find_shoreline interp1d (x_of_column g) (nth (channel_row g) z []) sl = Err e
  end.
Proof. exact (step_succeeds interp1d dt c g z deposit sand sl). Qed.
Print Assumptions C28_walk_stays_on_grid.
(** The shoreline is never beyond the last column. *)
Theorem C28_shoreline_on_grid interp1d (x z : list R) sl s :
  sorted x -> length z = length x -> find_shoreline interp1d x z sl = Ok s ->
  nth 0 x 0 <= s <= nth (length x - 1) x 0.
Proof. exact (find_shoreline_on_grid interp1d x z sl s). Qed.
Print Assumptions C28_shoreline_on_grid.

(** C97.  The slope of a plain that falls towards the sea is negative, and so is
    its channel depth: such channels are never braided *)
Definition C97_statement : Prop :=
  forall interp1d dt (c : fluvial R) (g : grid R) z deposit sand rise sl g' shore sand',
  delta_grid g z deposit sand sl -> node g "bedrock_surface__increment_of_elevation" = Some rise ->
  fluvial_step interp1d dt c g = Ok g' -> 0 < g_dx g -> 0 < dt -> 0 < fl_sand_frac c <= 1 -> 0 < fl_plain_slope c ->
  0 < fl_sediment_load c -> 1000 < fl_sand_density c ->
  find_shoreline interp1d (x_of_column g) (nth (channel_row g) z []) sl = Ok shore ->
  node g' "delta_sediment_sand__volume_fraction" = Some sand' ->
  let width := channel_width (fl_sediment_load c) (fl_sand_density c) in
  let depth k := channel_depth (fl_sand_density c) (Rabs (slope (g_dx g) (g_cols g) (at2 0 z (channel_row g)) k)) in
  let supply := fl_sediment_load c * (1 - fl_sand_frac c) / fl_sand_frac c in
  let water := fl_sediment_load c / fl_plain_slope c / (61 / 100) in
  let mud k := mud_carried supply (g_dx g) dt (at2 0 rise (channel_row g)) (at2 0 sand' (channel_row g)) k in
  forall j, (j < g_cols g)%nat -> INR j * g_dx g < shore ->
    slope (g_dx g) (g_cols g) (at2 0 z (channel_row g)) 0 <> 0 -> slope (g_dx g) (g_cols g) (at2 0 z (channel_row g)) j <> 0 ->
    at2 0 sand' (channel_row g) j = land_sand width (depth 0%nat) (depth j) (mud j / water) (at2 0 deposit (channel_row g) j).
Theorem C97_steepness_refuted : ~ C97_statement.
Proof. exact sand_by_steepness_refuted. Qed.
Print Assumptions C97_steepness_refuted.
(* the same with the slope instead of the steepness *)
Theorem C97_land_sand_partial interp1d dt (c : fluvial R) (g : grid R) z deposit sand rise sl g' :
  delta_grid g z deposit sand sl -> node g "bedrock_surface__increment_of_elevation" = Some rise ->
  fluvial_step interp1d dt c g = Ok g' -> 0 < g_dx g -> 0 <= fl_sediment_load c -> 1000 < fl_sand_density c ->
  exists shore sand', find_shoreline interp1d (x_of_column g) (nth (channel_row g) z []) sl = Ok shore
  /\ node g' "delta_sediment_sand__volume_fraction" = Some sand'
  /\ let width := channel_width (fl_sediment_load c) (fl_sand_density c) in
     let depth k := channel_depth (fl_sand_density c) (slope (g_dx g) (g_cols g) (at2 0 z (channel_row g)) k) in
     let supply := fl_sediment_load c * (1 - fl_sand_frac c) / fl_sand_frac c in
     let water := fl_sediment_load c / fl_plain_slope c / (61 / 100) in
     let mud k := mud_carried supply (g_dx g) dt (at2 0 rise (channel_row g)) (at2 0 sand' (channel_row g)) k in
     forall j, (j < g_cols g)%nat -> INR j * g_dx g < shore ->
       at2 0 sand' (channel_row g) j = land_sand width (depth 0%nat) (depth j) (mud j / water) (at2 0 deposit (channel_row g) j).
Proof. exact (land_sand_exact interp1d dt c g z deposit sand rise sl g'). Qed.
Print Assumptions C97_land_sand_partial.
Example C97_nonvacuous interp1d : delta_grid plain_grid [[3; 2; 1]; [3; 2; 1]; [3; 2; 1]] [[1; 1; 1]; [1; 1; 1]; [1; 1; 1]] [[0; 0; 0]; [0; 0; 0]; [0; 0; 0]] 0
  /\ find_shoreline interp1d (x_of_column plain_grid) [3; 2; 1] 0 = Ok 2
  /\ exists g', fluvial_step interp1d 1 plain_river plain_grid = Ok g'.
Proof. split; [exact plain_delta|]. split; [exact (plain_shore interp1d)|exact (plain_step interp1d)]. Qed.
