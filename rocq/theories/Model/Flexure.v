(** sequence/sediment_flexure.py *)
From Coq Require Import String List ZArith QArith Arith.
From Verif.Base Require Import Num Py Arr.
From Verif.Model Require Import Layers Grid.
Import ListNotations.
Local Open Scope num_scope.

Section Flexure.
  Context {A : Type} `{Num A} `{Trans A}.

  (** State of a DynamicFlexure (sequence/sediment_flexure.py:20-47) *)
  Record dyn_flexure : Type := mkDyn {
    df_time : option A;              (* self._isostasy_time *)
    df_rows : nat;                   (* grid.shape[0] - 2 *)
    df_pool : field A                (* self._subsidence_pool, rows x cols *)
  }.

  (* sequence/sediment_flexure.py:49-69 *)
  Definition validate_isostasy_time (time : A) : result A :=
    if time <? n0 then Err ValueError else Ok time.

  (* np.isclose(t, 0.0): |t| <= atol = 1e-8 *)
  Definition isclose0 (t : A) : bool := nabs t <=? nlit (1 # 100000000).

  (* sequence/sediment_flexure.py:20-47 __init__; what landlab's Flexure1D
     sets up (rigidity, alpha, gamma_mantle) is not modelled *)
  Definition dyn_init (isostasytime : option A) (rows cols : nat) : result dyn_flexure :=
    let* t := match isostasytime with
              | None => Ok None
              | Some t => if isclose0 t then Ok None
                          else let* t := validate_isostasy_time t in Ok (Some t)
              end in
    Ok (mkDyn t rows (full rows cols n0)).

  (* sequence/sediment_flexure.py:76-96 calc_isostasy_fraction.  The time is
     never zero (see [dyn_init]). *)
  Definition calc_isostasy_fraction (isostasy_time : option A) (dt : A) : A :=
    match isostasy_time with
    | None => n1
    | Some t => n1 - nexp ((- dt) / t)
    end.

  (* sequence/sediment_flexure.py:98-123 calc_dynamic_deflection *)
  Definition calc_dynamic_deflection (c : dyn_flexure) (isostatic_deflection : field A) (dt : A)
    : dyn_flexure * field A :=
    let isostasy_fraction := calc_isostasy_fraction (df_time c) dt in
    let isostasy_fraction := isostasy_fraction / nofnat (df_rows c) in
    let pool := fmap2 nadd (df_pool c) isostatic_deflection in
    let deflection := fmap (fun p => p * isostasy_fraction) pool in
    (mkDyn (df_time c) (df_rows c) (fmap2 nsub pool deflection), deflection).

  (** ** WaterFlexure *)

  (* sequence/sediment_flexure.py:177-183 *)
  Definition calc_water_loading (z : list A) (water_density : A) : list A :=
    map (fun z => water_density * nmax (- z) n0) z.

  (* sequence/sediment_flexure.py:185-201; alpha and gamma_mantle are
     Flexure1D attributes *)
  Definition calc_half_plane_deflection (x : list A) (alpha gamma_mantle load : A) : list A :=
    map (fun xi => let r := (lastn x n0 - xi) / alpha in
                   let c := load / (nlit 2 * gamma_mantle) in
                   (c * nexp (- r)) * ncos r) x.

  (* sequence/sediment_flexure.py:203-227 calc_flexure_due_to_water.
     [calc_flexure] stands for landlab's Flexure1D.calc_flexure (x, alpha and
     rigidity fixed): any function of the load profiles. *)
  Definition calc_flexure_due_to_water (calc_flexure : field A -> field A)
      (x : list A) (alpha gamma_mantle rho_water gravity dx : A)
      (change_in_water_depth : field A) (change_in_sea_level : A) : field A :=
    let load := fmap (fun d => ((d * rho_water) * gravity) * dx) change_in_water_depth in
    let half := calc_half_plane_deflection x alpha gamma_mantle ((change_in_sea_level * rho_water) * gravity) in
    map (fun row => zipw nadd row half) (calc_flexure load).

  Definition LITHO : string := "lithosphere_surface__increment_of_elevation".
  Definition BEDROCK_INC : string := "bedrock_surface__increment_of_elevation".

  (* sequence/sediment_flexure.py:229-264 update and run_one_step *)
  Definition water_flexure_step (calc_flexure : field A -> field A)
      (alpha gamma_mantle rho_water gravity : A)
      (dt : A) (c : dyn_flexure) (g : grid A) : result (dyn_flexure * grid A) :=
    let* litho := get_profile g LITHO in
    let* g := set_profile g LITHO (fmap (fun _ => n0) litho) in
    let* change_in_sea_level := gval_r g "sea_level__increment_of_elevation" in
    let* change_in_water_depth := get_profile g "water__increment_of_depth" in
    let isostatic := calc_flexure_due_to_water calc_flexure (x_of_column g) alpha gamma_mantle
                       rho_water gravity (g_dx g) change_in_water_depth change_in_sea_level in
    let '(c, deflection) := calc_dynamic_deflection c isostatic dt in
    let* total := get_profile g BEDROCK_INC in
    let* g := set_profile g BEDROCK_INC (fmap2 nsub total deflection) in
    Ok (c, g).

  (** ** SedimentFlexure *)

  (* sequence/sediment_flexure.py:366-388 *)
  Definition calc_bulk_density (grain_density void_density porosity : A) : A :=
    porosity * (void_density - grain_density) + grain_density.

  (* sequence/sediment_flexure.py:390-411 *)
  Definition validate_density (density : A) : result A :=
    if density <=? n0 then Err ValueError else Ok density.

  (** The density attributes of a SedimentFlexure *)
  Record densities : Type := mkDensities {
    water_density : A; sand_density : A; mud_density : A;
    sand_bulk : A;                   (* self._rho_sand *)
    mud_bulk : A                     (* self._rho_mud *)
  }.

  Definition SAND_POROSITY : A := nlit (2 # 5).      (* 0.4 *)
  Definition MUD_POROSITY : A := nlit (13 # 20).     (* 0.65 *)

  (* sequence/sediment_flexure.py:319-328, first lines of __init__ *)
  Definition densities_init (sand mud water : A) : result densities :=
    let* w := validate_density water in
    let* s := validate_density sand in
    let* m := validate_density mud in
    Ok (mkDensities w s m (calc_bulk_density s w SAND_POROSITY) (calc_bulk_density m w MUD_POROSITY)).

  (* sequence/sediment_flexure.py:418-424; a rejected value raises before
     anything is assigned *)
  Definition set_sand_density (v : A) (d : densities) : result densities :=
    let* v := validate_density v in
    Ok (mkDensities (water_density d) v (mud_density d)
          (calc_bulk_density v (water_density d) SAND_POROSITY) (mud_bulk d)).
  (* sequence/sediment_flexure.py:436-442 *)
  Definition set_mud_density (v : A) (d : densities) : result densities :=
    let* v := validate_density v in
    Ok (mkDensities (water_density d) (sand_density d) v
          (sand_bulk d) (calc_bulk_density v (water_density d) MUD_POROSITY)).
  (* sequence/sediment_flexure.py:454-462 *)
  Definition set_water_density (v : A) (d : densities) : result densities :=
    let* v := validate_density v in
    Ok (mkDensities v (sand_density d) (mud_density d)
          (calc_bulk_density (sand_density d) v SAND_POROSITY)
          (calc_bulk_density (mud_density d) v MUD_POROSITY)).

  (* sequence/sediment_flexure.py:464-512 _calc_loading, at one node.  The
     numpy division on mixed nodes is checked: a zero divisor is reported as
     ZeroDivisionError (numpy would give inf or nan with a warning). *)
  Definition calc_loading_at (deposit_thickness z porosity density water : A) : result A :=
    let z_new := z + deposit_thickness in
    let dry := ((n0 <=? z) && (n0 <=? z_new))%bool in
    let wet := ((z <=? n0) && (z_new <=? n0))%bool in
    let* void_density :=
      if (negb dry && negb wet)%bool then
        if deposit_thickness =? n0 then Err ZeroDivisionError
        else Ok (water * (n1 - nabs (nmax z_new z / deposit_thickness)))
      else Ok (if wet then water else n0) in
    Ok (calc_bulk_density density void_density porosity * deposit_thickness).

  (* the same for arrays of nodes; porosity and water density are scalars,
     the grain density is an array *)
  Definition calc_loading (deposit_thickness z : list A) (porosity : A) (density : list A) (water : A)
    : result (list A) :=
    mapM (fun p => calc_loading_at (fst (fst p)) (snd (fst p)) porosity (snd p) water)
         (combine (combine deposit_thickness z) density).

  (* sequence/sediment_flexure.py:514-543 _calc_density at one node *)
  Definition calc_density (sand_fraction sand_density mud_density : A) : A :=
    sand_fraction * sand_density + (n1 - sand_fraction) * mud_density.

  (** The part of a SedimentFlexure used when stepping *)
  Record sed_flexure : Type := mkSedFlex {
    sf_dyn : dyn_flexure;
    sf_last_load : field A           (* self._last_load, rows x cols *)
  }.

  Definition TOTAL_LOAD : string := "sediment__total_of_loading".
  Definition PRESSURE : string := "lithosphere__increment_of_overlying_pressure".

  Definition ensure_node (g : grid A) (n : string) : grid A :=
    if has_node g n then g else put_node g n (full (g_rows g + 2) (g_cols g) n0).

  (* sequence/sediment_flexure.py:330-347, the rest of __init__.
     grid.add_empty is modelled as zeros: the field is overwritten before it is
     read. *)
  Definition sed_flexure_init (isostasytime : option A) (g : grid A) : result (sed_flexure * grid A) :=
    let g := ensure_node g TOTAL_LOAD in
    let* dyn := dyn_init isostasytime (g_rows g) (g_cols g) in
    let g := ensure_node g PRESSURE in
    let g := ensure_node g LITHO in
    let g := ensure_node g BEDROCK_INC in
    let* load := get_profile g TOTAL_LOAD in
    Ok (mkSedFlex dyn load, g).

  (* sequence/sediment_flexure.py:545-584 update and run_one_step.
     [flexure] stands for landlab's Flexure1D.update: any function that
     computes the deflection profile from the pressure profile and writes it
     to the profile rows of the lithosphere field. *)
  Definition sed_flexure_step (flexure : field A -> field A) (gravity : A)
      (dt : A) (c : sed_flexure) (g : grid A) : result (sed_flexure * grid A) :=
    let* litho := get_profile g LITHO in
    let* g := set_profile g LITHO (fmap (fun _ => n0) litho) in
    let* total_load := get_profile g TOTAL_LOAD in
    let new_load := fmap2 nsub total_load (sf_last_load c) in
    let* g := set_profile g PRESSURE (fmap (fun l => (l * gravity) * g_dx g) new_load) in
    let* pressure := get_profile g PRESSURE in
    let* g := set_profile g LITHO (flexure pressure) in
    let* isostatic_deflection := get_profile g LITHO in
    let '(dyn, deflection) := calc_dynamic_deflection (sf_dyn c) isostatic_deflection dt in
    let* total_deflection := get_profile g BEDROCK_INC in
    let* g := set_profile g BEDROCK_INC (fmap2 nsub total_deflection deflection) in
    Ok (mkSedFlex dyn total_load, g).
End Flexure.
Arguments dyn_flexure : clear implicits.
Arguments densities : clear implicits.
Arguments sed_flexure : clear implicits.
