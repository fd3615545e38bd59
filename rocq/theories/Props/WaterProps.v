(** C128 and C129: models made from parameters with a WaterFlexure.

    [with_water P E] (Model/Water.v) are the externals in which WaterFlexure is
    the class of sequence/sediment_flexure.py, around the plate solver P of
    landlab; of the classes of the code, E still stands for Compact. *)
From Coq Require Import String List ZArith QArith Reals.
From Verif.Base Require Import Num Py Arr.
From Verif.Model Require Import Layers Grid Csv SequenceModel Setattr Processes Whole Water.
From Verif.Spec Require Import Column Configured Followed Turns Ordering Watered.
From Verif.Proofs Require Import FluvialEx ScriptEx WholeEx WaterP WaterRunP DepthP WaterEx.
Import ListNotations.
Local Open Scope string_scope.

(** C128.  A step never raises in the turn of the WaterFlexure: only in the turn
    of another process, for its own cause. *)
Theorem C128_never_raises {X} {tr : Trans R} (P : plate R) (HP : keeps_shape P) (E : externals R X) (WB : well_behaved E) :
  forall params text names ctx c (g0 : grid R) names' m0 m dt e,
  load_grid params (Some (read_bathymetry text)) = Ok g0 -> (2 <= g_cols g0)%nat -> (0 < g_rows g0)%nat -> (0 < g_dx g0)%R ->
  load_model (with_water P E) params (read_bathymetry text) names ctx c = Ok (names', m0) -> reached (with_water P E) names' m0 m ->
  run_one_step (named_processes (with_water P E) names') dt m = Raised e ->
  exists g p h, cleared (sm_grid m) g /\ turn (with_water P E) (step_used dt m) names' (sm_world m) g p h
    /\ part_step (with_water P E) (step_used dt m) (p, h) = Err e
    /\ match p with
       | Ours q => cause (with_water P E) (step_used dt m) q h e /\ e <> KeyError
       | Extra (inl _) => False
       | Extra (inr x) => Whole.ex_step E (step_used dt m) (x, h) = Err e
       end.
Proof. exact (water_raises P HP E WB). Qed.
Print Assumptions C128_never_raises.
(* what C107, C108 and C113 to C116 assume of WaterFlexure and Compact, and
   C112 too, WaterFlexure keeps; in any arithmetic *)
Theorem C128_assumptions {A X} {num : Num A} {tr : Trans A} (P : plate A) (HP : keeps_shape P) (E : externals A X) :
  (well_behaved E -> well_behaved (with_water P E)) /\ (leaves_sea E -> leaves_sea (with_water P E))
  /\ (leaves_counts E -> leaves_counts (with_water P E)) /\ (uses_values E -> uses_values (with_water P E)).
Proof. exact (conj (water_behaved P HP E) (conj (water_leaves_sea P E) (conj (water_leaves_counts P E) (water_uses_values P E)))). Qed.
Print Assumptions C128_assumptions.
Theorem C128_fields {A} {num : Num A} {tr : Trans A} (P : plate A) dt (w : water A) (g : grid A) w' g' : water_step P dt (w, g) = Ok (w', g') ->
  (forall n, n <> "lithosphere_surface__increment_of_elevation" -> n <> "bedrock_surface__increment_of_elevation" -> node g' n = node g n)
  /\ (forall n, gval g' n = gval g n) /\ layers g' = layers g.
Proof. exact (step_fields P dt w g w' g'). Qed.
Print Assumptions C128_fields.
(* so that bedrock plus layers is the elevation with it too *)
Theorem C128_balanced {X} {tr : Trans R} (P : plate R) (HP : keeps_shape P) (E : externals R X) (WB : well_behaved E) :
  forall params text names ctx c (g0 : grid R) names' m0 m,
  load_grid params (Some (read_bathymetry text)) = Ok g0 -> (2 <= g_cols g0)%nat -> (0 < g_rows g0)%nat -> (0 < g_dx g0)%R ->
  load_model (with_water P E) params (read_bathymetry text) names ctx c = Ok (names', m0) -> reached (with_water P E) names' m0 m -> balanced (sm_grid m).
Proof. exact (water_balanced P HP E WB). Qed.
Print Assumptions C128_balanced.
(* a model with a WaterFlexure that meets the hypotheses over the reals; two
   steps of one over the rationals: sea level, elevation and the change in
   water depth of the profile *)
Example C128_nonvacuous {tr : Trans R} : keeps_shape (@ex_plate R _) /\ well_behaved (ex_ext (@ex_level R _)) /\ leaves_elevation (ex_ext (@ex_level R _))
  /\ exists (g : grid R) names m,
       load_grid ex_grid4 (Some (read_bathymetry ex_flat)) = Ok g /\ (2 <= g_cols g)%nat /\ (0 < g_rows g)%nat /\ (0 < g_dx g)%R
       /\ load_model (with_water ex_plate (ex_ext ex_level)) ex_grid4 (read_bathymetry ex_flat) ["water_flexure"] [] (clock_init 0%R (Some 10%R) 1%R) = Ok (names, m).
Proof. split; [apply ex_plate_keeps|]. split; [apply ex_behaved; discriminate|]. split; [apply ex_unmoved|exact ex_water_load]. Qed.
Example C128_run : ex_water_seen = Some
  (["sea_level"; "subsidence"; "submarine_diffusion"; "water_flexure"; "fluvial"; "shoreline"],
   [(Some 0, Some [20; 10; -5 # 1; -15 # 1; -25 # 1; -35 # 1], Some [0; 0; 0; 0; 0; 0]);
    (Some (1 # 10), Some [54 # 5; 979 # 100; -2163 # 400; -307 # 20; -10123 # 400; -35 # 1], Some [0; 0; 163 # 400; 7 # 20; 123 # 400; 0]);
    (Some (1 # 5), Some [1059 # 100; 479 # 50; -989 # 100; -7671 # 400; -2869 # 100; -35 # 1], Some [0; 0; 1793 # 400; 1531 # 400; 1353 # 400; 0])]%Q).
Proof. exact ex_water_is. Qed.

(** C129.  The change in water depth that the model keeps for the WaterFlexure
    is the change over the step.  This is false: what the sea level has risen
    in the step is left out. *)
Definition C129_statement : Prop := forall X (P : plate Q) (E : externals Q X) params text names ctx c names' m0 m dt m' i j d before after,
  keeps_shape P -> well_behaved E -> leaves_elevation E ->
  @load_model Q _ half_trans _ (@with_water Q _ half_trans X P E) params (read_bathymetry text) names ctx c = Ok (names', m0) ->
  @reached Q _ _ half_trans (@with_water Q _ half_trans X P E) names' m0 m ->
  @run_one_step Q _ _ (@named_processes Q _ half_trans _ (@with_water Q _ half_trans X P E) names') dt m = Stepped m' ->
  (1 <= i <= g_rows (sm_grid m))%nat -> (1 <= j < g_cols (sm_grid m))%nat ->
  recorded_change (sm_grid m') i j d -> water_depth (sm_grid m) i j before -> water_depth (sm_grid m') i j after -> (d == after - before)%Q.
Theorem C129_refuted : ~ C129_statement.
Proof. exact true_change_refuted. Qed.
Print Assumptions C129_refuted.
(** It is the change in the depth under the new sea level, of the old surface
    and of the new one.  [leaves_elevation]: the class that is not modelled does
    not touch the elevation.  The first column is left out: it is not under any
    cell, and SubmarineDiffuser moves it. *)
Theorem C129_partial {X} {tr : Trans R} (P : plate R) (HP : keeps_shape P) (E : externals R X) (WB : well_behaved E) : leaves_elevation E ->
  forall params text names ctx c (g0 : grid R) names' m0 m dt m' i j d,
  load_grid params (Some (read_bathymetry text)) = Ok g0 -> (2 <= g_cols g0)%nat -> (0 < g_rows g0)%nat -> (0 < g_dx g0)%R ->
  load_model (with_water P E) params (read_bathymetry text) names ctx c = Ok (names', m0) -> reached (with_water P E) names' m0 m ->
  run_one_step (named_processes (with_water P E) names') dt m = Stepped m' ->
  (1 <= i <= g_rows (sm_grid m))%nat -> (1 <= j < g_cols (sm_grid m))%nat -> recorded_change (sm_grid m') i j d ->
  exists sea before after, gval (sm_grid m') "sea_level__elevation" = Some sea /\ depth_under sea (sm_grid m) i j before
    /\ depth_under sea (sm_grid m') i j after /\ d = (after - before)%R.
Proof. exact (change_kept P HP E WB). Qed.
Print Assumptions C129_partial.
(* so it is the true change when the sea level is where it was *)
Theorem C129_still_sea_partial {X} {tr : Trans R} (P : plate R) (HP : keeps_shape P) (E : externals R X) (WB : well_behaved E) : leaves_elevation E ->
  forall params text names ctx c (g0 : grid R) names' m0 m dt m' i j d before after,
  load_grid params (Some (read_bathymetry text)) = Ok g0 -> (2 <= g_cols g0)%nat -> (0 < g_rows g0)%nat -> (0 < g_dx g0)%R ->
  load_model (with_water P E) params (read_bathymetry text) names ctx c = Ok (names', m0) -> reached (with_water P E) names' m0 m ->
  run_one_step (named_processes (with_water P E) names') dt m = Stepped m' ->
  gval (sm_grid m') "sea_level__elevation" = gval (sm_grid m) "sea_level__elevation" ->
  (1 <= i <= g_rows (sm_grid m))%nat -> (1 <= j < g_cols (sm_grid m))%nat -> recorded_change (sm_grid m') i j d ->
  water_depth (sm_grid m) i j before -> water_depth (sm_grid m') i j after -> d = (after - before)%R.
Proof. exact (change_true P HP E WB). Qed.
Print Assumptions C129_still_sea_partial.
(* C128_nonvacuous and C128_run show a model and its changes: the water over
   the third column has become 5.5075 - 5 deeper in the first step, of which
   0.4075 is kept *)
