(** C13-C19, C69: flexure. *)
From Coq Require Import String List ZArith QArith Reals.
From Verif.Base Require Import Num Py Arr.
From Verif.Model Require Import Layers Grid Flexure Clients.
From Verif.Spec Require Import Profile History.
From Verif.Proofs Require Import FlexureP FlexureEx.
Import ListNotations.
Local Open Scope R_scope.

(** C13.  Elevations are relative to sea level; [submerged_part z d] is the
    signed part of [z, z+d] below 0.  The model reports a division by zero as an
    error; there is none. *)
Theorem C13_sediment_load (thickness z density : list R) porosity water_density :
  length z = length thickness -> length density = length thickness ->
  exists loads, calc_loading thickness z porosity density water_density = Ok loads
    /\ length loads = length thickness
    /\ forall i, (i < length thickness)%nat ->
         nth i loads 0 = (1 - porosity) * nth i density 0 * nth i thickness 0
                         + porosity * water_density * submerged_part (nth i z 0) (nth i thickness 0).
Proof. exact (calc_loading_spec thickness z porosity density water_density). Qed.
Print Assumptions C13_sediment_load.

(* dry deposit, straddling deposit, wet deposit, straddling erosion, nothing *)
Example C13_run :
  calc_loading (map inject_Z [2;2;2;-3;0]%Z) (map inject_Z [1;-1;-4;1;0]%Z) (1#2)%Q
               (map inject_Z [2;2;2;2;2]%Z) 1%Q
  = Ok (map Qred [2; 5#2; 3; -4; 0]%Q).
Proof. exact ex_load_mixed. Qed.

(** C14 *)
Theorem C14_load_in_two_parts z d1 d2 porosity density water_density a b c :
  calc_loading_at d1 z porosity density water_density = Ok a ->
  calc_loading_at d2 (z + d1) porosity density water_density = Ok b ->
  calc_loading_at (d1 + d2) z porosity density water_density = Ok c ->
  a + b = c.
Proof. exact (loading_additive z d1 d2 porosity density water_density a b c). Qed.
Print Assumptions C14_load_in_two_parts.
Theorem C14_load_undone z d porosity density water_density a b :
  calc_loading_at d z porosity density water_density = Ok a ->
  calc_loading_at (- d) (z + d) porosity density water_density = Ok b -> a + b = 0.
Proof. exact (loading_undo z d porosity density water_density a b). Qed.
Print Assumptions C14_load_undone.
(** the three loads always exist *)
Theorem C14_load_defined d z porosity density water_density :
  calc_loading_at d z porosity density water_density
  = Ok ((1 - porosity) * density * d + porosity * water_density * submerged_part z d).
Proof. exact (calc_loading_at_spec d z porosity density water_density). Qed.
Print Assumptions C14_load_defined.

(** C15 *)
Theorem C15_deflection_conserved isostasytime n m hist c :
  (0 < n)%nat -> dyn_init isostasytime n m = Ok c ->
  (forall d dt, In (d, dt) hist -> shaped n m d) ->
  let '(c', delivered) := dyn_run c hist in
  forall i j, (i < n)%nat -> (j < m)%nat ->
    nsum_at i j delivered + at2 0 (df_pool c') i j = nsum_at i j (map fst hist).
Proof. exact (isostasy_conserved isostasytime n m hist c). Qed.
Print Assumptions C15_deflection_conserved.
Theorem C15_fraction_between_0_and_1 isostasytime n m hist c d dt :
  (0 < n)%nat -> dyn_init isostasytime n m = Ok c ->
  (forall d dt, In (d, dt) hist -> shaped n m d) -> shaped n m d -> 0 <= dt ->
  let '(c1, _) := dyn_run c hist in
  let '(c2, out) := calc_dynamic_deflection c1 d dt in
  exists fraction, 0 <= fraction <= 1 /\
    forall i j, (i < n)%nat -> (j < m)%nat ->
      at2 0 out i j = fraction * (at2 0 (df_pool c1) i j + at2 0 d i j)
      /\ at2 0 (df_pool c2) i j = (1 - fraction) * (at2 0 (df_pool c1) i j + at2 0 d i j).
Proof. exact (isostasy_fraction_step isostasytime n m hist c d dt). Qed.
Print Assumptions C15_fraction_between_0_and_1.
(** construction is refused exactly for a clearly negative time *)
Theorem C15_negative_time_refused isostasytime n m :
  (exists e, dyn_init isostasytime n m = Err e)
  <-> exists t, isostasytime = Some t /\ t < - Q2R (1 # 100000000).
Proof. exact (dyn_init_errors isostasytime n m). Qed.
Print Assumptions C15_negative_time_refused.
Example C15_nonvacuous : exists c, dyn_init (Some 7000) 2 3 = Ok c /\ df_time c = Some 7000.
Proof. exact ex_dyn_init. Qed.

(** C16.  [unloaded n m dts]: steps of the given lengths with no new load. *)
Definition C16_statement : Prop :=
  forall n m tau dts pool, (0 < n)%nat -> 0 < tau -> (forall dt, In dt dts -> 0 <= dt) ->
    shaped n m pool ->
    let '(c', _) := dyn_run (mkDyn (Some tau) n pool) (unloaded n m dts) in
    forall i j, (i < n)%nat -> (j < m)%nat ->
      at2 0 (df_pool c') i j = at2 0 pool i j * exp (- rsum dts / tau).
(** It fails on two rows: the fraction is divided by the number of rows. *)
Theorem C16_efolding_refuted : ~ C16_statement.
Proof. exact efolding_refuted. Qed.
Print Assumptions C16_efolding_refuted.
Definition C16_instant_statement : Prop :=
  forall n m d dt pool, (0 < n)%nat -> shaped n m pool -> shaped n m d ->
    let '(c', out) := calc_dynamic_deflection (mkDyn None n pool) d dt in
    forall i j, (i < n)%nat -> (j < m)%nat ->
      at2 0 out i j = at2 0 pool i j + at2 0 d i j /\ at2 0 (df_pool c') i j = 0.
Theorem C16_instant_refuted : ~ C16_instant_statement.
Proof. exact instant_refuted. Qed.
Print Assumptions C16_instant_refuted.
(** Both hold on a grid of one row, *)
Theorem C16_efolding_one_row_partial m dts tau pool :
  0 < tau -> shaped 1 m pool ->
  let '(c', _) := dyn_run (mkDyn (Some tau) 1 pool) (unloaded 1 m dts) in
  forall j, (j < m)%nat ->
    at2 0 (df_pool c') 0 j = at2 0 pool 0 j * exp (- rsum dts / tau).
Proof. exact (dyn_relax_one_row m dts tau pool). Qed.
Print Assumptions C16_efolding_one_row_partial.
Theorem C16_instant_one_row_partial m d dt pool :
  shaped 1 m pool -> shaped 1 m d ->
  let '(c', out) := calc_dynamic_deflection (mkDyn None 1 pool) d dt in
  forall j, (j < m)%nat ->
    at2 0 out 0 j = at2 0 pool 0 j + at2 0 d 0 j /\ at2 0 (df_pool c') 0 j = 0.
Proof. exact (dyn_instant_one_row m d dt pool). Qed.
Print Assumptions C16_instant_one_row_partial.
(** and from construction, through any history; a time of 0 (1e-8 at most)
    means an instantaneous response, *)
Theorem C16_instant_history_partial m T hist c d dt :
  (T = None \/ exists t, T = Some t /\ Rabs t <= Q2R (1 # 100000000)) -> dyn_init T 1 m = Ok c ->
  (forall d dt, In (d, dt) hist -> shaped 1 m d) -> shaped 1 m d ->
  let '(c1, _) := dyn_run c hist in
  let '(c2, out) := calc_dynamic_deflection c1 d dt in
  forall j, (j < m)%nat -> at2 0 out 0 j = at2 0 d 0 j /\ at2 0 (df_pool c2) 0 j = 0.
Proof. exact (dyn_instant_history m T hist c d dt). Qed.
Print Assumptions C16_instant_history_partial.
Theorem C16_efolding_history_partial m t hist dts c :
  Q2R (1 # 100000000) < t -> dyn_init (Some t) 1 m = Ok c -> (forall d dt, In (d, dt) hist -> shaped 1 m d) ->
  let '(c1, _) := dyn_run c hist in
  let '(c2, _) := dyn_run c1 (unloaded 1 m dts) in
  forall j, (j < m)%nat -> at2 0 (df_pool c2) 0 j = at2 0 (df_pool c1) 0 j * exp (- rsum dts / t).
Proof. exact (dyn_relax_history m t hist dts c). Qed.
Print Assumptions C16_efolding_history_partial.
(** and on any grid the deflection never relaxes faster than the e-folding time
    says. *)
Theorem C16_relaxation_bounds_partial n m tau dts pool :
  (0 < n)%nat -> 0 < tau -> (forall dt, In dt dts -> 0 <= dt) -> shaped n m pool ->
  let '(c', _) := dyn_run (mkDyn (Some tau) n pool) (unloaded n m dts) in
  exists k, exp (- rsum dts / tau) <= k <= 1 /\
    forall i j, (i < n)%nat -> (j < m)%nat -> at2 0 (df_pool c') i j = at2 0 pool i j * k.
Proof. exact (relax_bounds n m tau dts pool). Qed.
Print Assumptions C16_relaxation_bounds_partial.
Example C16_nonvacuous : shaped 1 3 [[1; 2; 3]].
Proof. split; [reflexivity|]. intros r [<-|[]]. reflexivity. Qed.

(** C17.  [density_trace] is the list of accepted values. *)
Theorem C17_bulk_densities sand mud water ops d :
  densities_init sand mud water = Ok d ->
  let d' := density_run ops d in
  let '(w', s', m') := density_trace ops water sand mud in
  water_density d' = w' /\ sand_density d' = s' /\ mud_density d' = m'
  /\ 0 < w' /\ 0 < s' /\ 0 < m'
  /\ sand_bulk d' = 6 / 10 * s' + 4 / 10 * w'
  /\ mud_bulk d' = 35 / 100 * m' + 65 / 100 * w'.
Proof. exact (densities_history sand mud water ops d). Qed.
Print Assumptions C17_bulk_densities.
Theorem C17_rejected_changes_nothing op d v :
  (op = SetSand v \/ op = SetMud v \/ op = SetWater v) -> v <= 0 -> density_exec op d = d.
Proof. exact (density_exec_rejected op d v). Qed.
Print Assumptions C17_rejected_changes_nothing.
Theorem C17_construction sand mud water :
  (exists d, densities_init sand mud water = Ok d) <-> 0 < sand /\ 0 < mud /\ 0 < water.
Proof. exact (densities_init_ok sand mud water). Qed.
Print Assumptions C17_construction.
Example C17_nonvacuous : exists d, densities_init 2650 2720 1030 = Ok d.
Proof. exact ex_densities. Qed.
Example C17_trace :
  density_trace [SetWater 1000; SetSand (-5); SetMud 2700; SetSand 0] 1030 2650 2720 = (1000, 2650, 2700).
Proof. exact ex_density_trace. Qed.

(** C18.  [ps] are the pressure fields seen after each step; [flexure] is any
    solver. *)
Theorem C18_load_seen_once isostasytime (g : grid R) flexure gravity hist c g0 tl0 bi0 :
  (forall f name, node g name = Some f -> shaped (g_rows g + 2) (g_cols g) f) ->
  sed_flexure_init isostasytime g = Ok (c, g0) ->
  node g0 "sediment__total_of_loading" = Some tl0 ->
  node g0 "bedrock_surface__increment_of_elevation" = Some bi0 ->
  (forall p, shaped (g_rows g) (g_cols g) p -> shaped (g_rows g) (g_cols g) (flexure p)) ->
  (forall load dt, In (load, dt) hist -> shaped (g_rows g + 2) (g_cols g) load) ->
  let last_load := match rev hist with [] => tl0 | (load, _) :: _ => load end in
  exists c' g' ps bi', sed_flexure_run flexure gravity hist c g0 = Ok (c', g', ps)
    /\ length ps = length hist
    /\ node g' "bedrock_surface__increment_of_elevation" = Some bi'
    /\ (forall i j, (1 <= i <= g_rows g)%nat -> (j < g_cols g)%nat ->
          nsum_at i j ps = (at2 0 last_load i j - at2 0 tl0 i j) * gravity * g_dx g
          /\ at2 0 bi0 i j - at2 0 bi' i j + at2 0 (df_pool (sf_dyn c')) (i - 1) j
             = nsum_at (i - 1) j (map (fun p => flexure (inner p)) ps))
    /\ (forall j, (j < g_cols g)%nat ->
          at2 0 bi' 0 j = at2 0 bi0 0 j /\ at2 0 bi' (g_rows g + 1) j = at2 0 bi0 (g_rows g + 1) j)
    /\ (forall name, ~ In name ["lithosphere_surface__increment_of_elevation";
                                "lithosphere__increment_of_overlying_pressure";
                                "bedrock_surface__increment_of_elevation";
                                "sediment__total_of_loading"]%string ->
          node g' name = node g0 name).
Proof. exact (sed_flexure_history isostasytime g flexure gravity hist c g0 tl0 bi0). Qed.
Print Assumptions C18_load_seen_once.
Theorem C18_unchanged_load isostasytime (g : grid R) flexure gravity hist c g0 load dt dt' c1 g1 ps1 c2 g2 ps2 :
  (forall f name, node g name = Some f -> shaped (g_rows g + 2) (g_cols g) f) ->
  sed_flexure_init isostasytime g = Ok (c, g0) ->
  (forall p, shaped (g_rows g) (g_cols g) p -> shaped (g_rows g) (g_cols g) (flexure p)) ->
  (forall l d, In (l, d) (hist ++ [(load, dt)]) -> shaped (g_rows g + 2) (g_cols g) l) ->
  sed_flexure_run flexure gravity (hist ++ [(load, dt)]) c g0 = Ok (c1, g1, ps1) ->
  sed_flexure_run flexure gravity [(load, dt')] c1 g1 = Ok (c2, g2, ps2) ->
  forall i j, (1 <= i <= g_rows g)%nat -> (j < g_cols g)%nat -> nsum_at i j ps2 = 0.
Proof. exact (sed_flexure_unchanged isostasytime g flexure gravity hist c g0 load dt dt' c1 g1 ps1 c2 g2 ps2). Qed.
Print Assumptions C18_unchanged_load.
Example C18_nonvacuous :
  (forall f name, node ex_flex_grid name = Some f -> shaped (g_rows ex_flex_grid + 2) (g_cols ex_flex_grid) f)
  /\ exists c g0, sed_flexure_init (Some 7000) ex_flex_grid = Ok (c, g0)
       /\ node g0 TOTAL_LOAD = Some (full 4 3 1) /\ node g0 BEDROCK_INC = Some (full 4 3 0).
Proof. exact ex_flex_nonvacuous. Qed.
(* pressure 4*2*10 on the interior rows; half of the deflection (two rows) *)
Example C18_run :
  ex_flex_run = Some (map (map inject_Z) [[0;0;0]; [80;80;80]; [80;80;80]; [0;0;0]]%Z,
                      map (map inject_Z) [[0;0;0]; [-4;-4;-4]; [-4;-4;-4]; [0;0;0]]%Z).
Proof. exact ex_flex_run_ok. Qed.

(** C19 *)
Theorem C19_water_load (z : list R) water_density i : (i < length z)%nat -> 0 <= water_density ->
  let l := nth i (calc_water_loading z water_density) 0 in
  0 <= l /\ (0 <= nth i z 0 -> l = 0) /\ (nth i z 0 <= 0 -> l = water_density * - nth i z 0).
Proof. exact (water_loading_spec z water_density i). Qed.
Print Assumptions C19_water_load.
Theorem C19_half_plane (x : list R) alpha gamma_mantle load :
  0 < alpha -> 0 < gamma_mantle -> (0 < length x)%nat -> sorted x ->
  let w := calc_half_plane_deflection x alpha gamma_mantle load in
  length w = length x
  /\ nth (length x - 1) w 0 = load / (2 * gamma_mantle)
  /\ (forall i, (i < length x)%nat -> Rabs (nth i w 0) <= Rabs load / (2 * gamma_mantle))
  /\ (forall i, (i < length x)%nat ->
        let r := (nth (length x - 1) x 0 - nth i x 0) / alpha in
        nth i w 0 = load / (2 * gamma_mantle) * exp (- r) * cos r).
Proof. exact (half_plane_spec x alpha gamma_mantle load). Qed.
Print Assumptions C19_half_plane.
Theorem C19_half_plane_linear (x : list R) alpha gamma_mantle a b p q i :
  gamma_mantle <> 0 -> (i < length x)%nat ->
  nth i (calc_half_plane_deflection x alpha gamma_mantle (a * p + b * q)) 0
  = a * nth i (calc_half_plane_deflection x alpha gamma_mantle p) 0
    + b * nth i (calc_half_plane_deflection x alpha gamma_mantle q) 0.
Proof. exact (half_plane_linear x alpha gamma_mantle a b p q i). Qed.
Print Assumptions C19_half_plane_linear.
Example C19_nonvacuous : 0 < 3 /\ 0 < 2 /\ (0 < length [0; 10; 30])%nat /\ sorted [0; 10; 30].
Proof. exact ex_half_plane. Qed.

(** C69 *)
Theorem C69_water_flexure_step n m calc_flexure alpha gamma_mantle rho_water gravity dt
    (c : dyn_flexure R) (g : grid R) li wd bi dsl :
  df_rows c = n -> g_cols g = m -> shaped n m (df_pool c) ->
  node g "lithosphere_surface__increment_of_elevation" = Some li -> shaped (n + 2) m li ->
  node g "water__increment_of_depth" = Some wd -> shaped (n + 2) m wd ->
  node g "bedrock_surface__increment_of_elevation" = Some bi -> shaped (n + 2) m bi ->
  gval g "sea_level__increment_of_elevation" = Some dsl ->
  (forall p, shaped n m p -> shaped n m (calc_flexure p)) ->
  exists c' g' bi' iso,
    water_flexure_step calc_flexure alpha gamma_mantle rho_water gravity dt c g = Ok (c', g')
    /\ calc_dynamic_deflection c iso dt = (c', snd (calc_dynamic_deflection c iso dt))
    /\ shaped n m iso
    /\ (forall i j, (i < n)%nat -> (j < m)%nat ->
          at2 0 iso i j = at2 0 (calc_flexure (fmap (fun d => d * rho_water * gravity * g_dx g) (inner wd))) i j
            + nth j (calc_half_plane_deflection (x_of_column g) alpha gamma_mantle (dsl * rho_water * gravity)) 0)
    /\ node g' "bedrock_surface__increment_of_elevation" = Some bi' /\ shaped (n + 2) m bi'
    /\ (forall i j, (i < n + 2)%nat -> (j < m)%nat ->
          at2 0 bi' i j = if (Nat.leb 1 i && Nat.leb i n)%bool
                          then at2 0 bi i j - at2 0 (snd (calc_dynamic_deflection c iso dt)) (i - 1) j
                          else at2 0 bi i j)
    /\ (forall name, name <> "lithosphere_surface__increment_of_elevation"%string ->
          name <> "bedrock_surface__increment_of_elevation"%string -> node g' name = node g name)
    /\ at_grid g' = at_grid g /\ at_row g' = at_row g /\ layers g' = layers g.
Proof. exact (water_flexure_step_spec n m calc_flexure alpha gamma_mantle rho_water gravity dt c g li wd bi dsl). Qed.
Print Assumptions C69_water_flexure_step.
(** No change in water depth or sea level, nothing held back: the bedrock stays. *)
Theorem C69_water_flexure_idle n m calc_flexure alpha gamma_mantle rho_water gravity dt isostasytime
    (c : dyn_flexure R) (g : grid R) li wd bi :
  dyn_init isostasytime n m = Ok c -> g_cols g = m -> gamma_mantle <> 0 ->
  node g "lithosphere_surface__increment_of_elevation" = Some li -> shaped (n + 2) m li ->
  node g "water__increment_of_depth" = Some wd -> shaped (n + 2) m wd ->
  (forall i j, (1 <= i <= n)%nat -> (j < m)%nat -> at2 0 wd i j = 0) ->
  node g "bedrock_surface__increment_of_elevation" = Some bi -> shaped (n + 2) m bi ->
  gval g "sea_level__increment_of_elevation" = Some 0 ->
  (forall p, shaped n m p -> shaped n m (calc_flexure p)) ->
  calc_flexure (full n m 0) = full n m 0 ->
  exists c' g', water_flexure_step calc_flexure alpha gamma_mantle rho_water gravity dt c g = Ok (c', g')
    /\ node g' "bedrock_surface__increment_of_elevation" = Some bi.
Proof.
  exact (water_flexure_idle n m calc_flexure alpha gamma_mantle rho_water gravity dt isostasytime c g li wd bi).
Qed.
Print Assumptions C69_water_flexure_idle.
Example C69_nonvacuous : exists (c : dyn_flexure R) (g : grid R) li wd bi,
  dyn_init (Some 7000) 2 3 = Ok c /\ g_cols g = 3%nat
  /\ node g LITHO = Some li /\ shaped (2 + 2) 3 li
  /\ node g "water__increment_of_depth" = Some wd /\ shaped (2 + 2) 3 wd
  /\ (forall i j, (1 <= i <= 2)%nat -> (j < 3)%nat -> at2 0 wd i j = 0)
  /\ node g BEDROCK_INC = Some bi /\ shaped (2 + 2) 3 bi
  /\ gval g "sea_level__increment_of_elevation" = Some 0.
Proof. exact ex_water_nonvacuous. Qed.
