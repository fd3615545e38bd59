(** C107 to C110: models made from parameters.

    [load_model] (Model/Whole.v) is what `sequence run` does: load_grid,
    load_processes and SequenceModel.  [reached] (Spec/Configured.v) are the
    states after any calls of run_one_step, run and set_params that returned.
    landlab, SciPy and the classes Compact and WaterFlexure are the externals E;
    [well_behaved] is what is assumed of them. *)
From Coq Require Import String List ZArith QArith Reals.
From Verif.Base Require Import Num Py Arr.
From Verif.Model Require Import Layers Grid Csv SequenceModel Setattr Processes Whole.
From Verif.Spec Require Import Column Configured Session.
From Verif.Proofs Require Import FluvialEx ScriptEx LoadP NoEffectP WholeEx.
Import ListNotations.
Local Open Scope string_scope.

(** C107.  A step raises only in the turn of one of the processes, on the grid
    that the earlier ones left, and only for the cause of that process
    ([cause], Spec/Configured.v); never because a field is missing. *)
Theorem C107_step_raises_only {X} {tr : Trans R} (E : externals R X) : well_behaved E -> forall params text names ctx c (g0 : grid R) names' m0 m dt e,
  load_grid params (Some (read_bathymetry text)) = Ok g0 -> (2 <= g_cols g0)%nat -> (0 < g_rows g0)%nat -> (0 < g_dx g0)%R ->
  load_model E params (read_bathymetry text) names ctx c = Ok (names', m0) -> reached E names' m0 m ->
  run_one_step (named_processes E names') dt m = Raised e ->
  exists g p h, cleared (sm_grid m) g /\ turn E (step_used dt m) names' (sm_world m) g p h
    /\ part_step E (step_used dt m) (p, h) = Err e
    /\ forall q, p = Ours q -> cause E (step_used dt m) q h e /\ e <> KeyError.
Proof. exact (configured_raises E). Qed.
Print Assumptions C107_step_raises_only.
(* and making the model raises only if one of the processes can not be made *)
Theorem C107_model_made {X} {tr : Trans R} (E : externals R X) : well_behaved E -> forall params text names ctx c (g0 : grid R) e,
  load_grid params (Some (read_bathymetry text)) = Ok g0 -> (2 <= g_cols g0)%nat -> (0 < g_rows g0)%nat -> (0 < g_dx g0)%R ->
  load_model E params (read_bathymetry text) names ctx c = Err e -> load_processes same_value (make E) g0 names ctx = Err e.
Proof. exact (configured_loads E). Qed.
Print Assumptions C107_model_made.
(* a grid and a model that meet the hypotheses *)
Example C107_nonvacuous {tr : Trans R} : well_behaved (ex_ext (@ex_level R _)) /\ exists (g : grid R) names m,
  load_grid ex_grid4 (Some (read_bathymetry ex_flat)) = Ok g /\ (2 <= g_cols g)%nat /\ (0 < g_rows g)%nat /\ (0 < g_dx g)%R
  /\ load_model (ex_ext ex_level) ex_grid4 (read_bathymetry ex_flat) [] [] (clock_init 0%R (Some 10%R) 1%R) = Ok (names, m).
Proof. split; [apply ex_behaved; discriminate|exact ex_two_load]. Qed.
(* a step that raises: the fluvial process divides by its sand fraction *)
Example C107_raises :
  match @load_model Q _ half_trans unit ex_whole ex_grid6 (read_bathymetry ex_bath) ex_names (app ex_context [("flexure", [])]) (clock_init 0 (Some 10) 1)%Q with
  | Ok (names, m) =>
      match set_model_params ex_whole [("fluvial", [("sand_frac", Number 0%Q)])] m with
      | Ok m => match @run_one_step Q _ (parts Q unit) (@named_processes Q _ half_trans unit ex_whole names) None m with Raised e => Some e | _ => None end
      | Err _ => None
      end
  | Err _ => None
  end = Some ZeroDivisionError.
Proof. exact ex_raises. Qed.

(** C108.  Bedrock plus layers is the elevation, at every cell, at all times. *)
Theorem C108_balanced {X} {tr : Trans R} (E : externals R X) : well_behaved E -> forall params text names ctx c (g0 : grid R) names' m0 m,
  load_grid params (Some (read_bathymetry text)) = Ok g0 -> (2 <= g_cols g0)%nat -> (0 < g_rows g0)%nat -> (0 < g_dx g0)%R ->
  load_model E params (read_bathymetry text) names ctx c = Ok (names', m0) -> reached E names' m0 m -> balanced (sm_grid m).
Proof. exact (configured_balanced E). Qed.
Print Assumptions C108_balanced.
(* every process, two steps and a set_params: time, elevation, bedrock plus layers *)
Example C108_nonvacuous : ex_three = Some
  (["sea_level"; "subsidence"; "compaction"; "submarine_diffusion"; "flexure"; "fluvial"; "shoreline"],
   [Some (0, [10; -5 # 1; -15 # 1; -25 # 1], [10; -5 # 1; -15 # 1; -25 # 1])%Q;
    Some (1, [49 # 5; -27 # 5; -3069 # 200; -5061 # 200], [49 # 5; -27 # 5; -3069 # 200; -5061 # 200])%Q;
    Some (1, [49 # 5; -27 # 5; -3069 # 200; -5061 # 200], [49 # 5; -27 # 5; -3069 # 200; -5061 # 200])%Q;
    Some (2, [47 # 5; -31 # 5; -4303156961 # 2000; -835317683 # 200], [47 # 5; -31 # 5; -4303156961 # 2000; -835317683 # 200])%Q]).
Proof. exact ex_three_ok. Qed.

(** C109 in full, for the parameters of the flexure: two values of it can be
    told apart by some model and calls *)
Definition C109_statement : Prop := forall k, In k (parameters SedimentFlexure) ->
  exists (E : externals Q unit) params read names ctx s s' c names1 m names1' m' calls,
    agree_but [k] s s'
    /\ @load_model Q _ half_trans unit E params read names (with_flexure ctx s) c = Ok (names1, m)
    /\ @load_model Q _ half_trans unit E params read names (with_flexure ctx s') c = Ok (names1', m')
    /\ @session Q unit _ half_trans E names1 calls m <> @session Q unit _ half_trans E names1' calls m'.
Theorem C109_refuted : ~ C109_statement.
Proof. exact matters_refuted. Qed.
Print Assumptions C109_refuted.
(** The densities of the flexure and the sea level of the fluvial process
    change nothing: the grid is the same at the start, and so is every outcome
    of every series of calls, in any arithmetic. *)
Theorem C109_no_effect_partial {A X} {num : Num A} {tr : Trans A} (E : externals A X) params read names ctx ctx' c names1 m names1' m' calls :
  (forall n, agree_but (without_effect n) (section_of ctx n) (section_of ctx' n)) ->
  load_model E params read names ctx c = Ok (names1, m) -> load_model E params read names ctx' c = Ok (names1', m') ->
  names1 = names1' /\ sm_grid m = sm_grid m' /\ session E names1 calls m = session E names1' calls m'.
Proof. exact (no_effect E params read names ctx ctx' c names1 m names1' m' calls). Qed.
Print Assumptions C109_no_effect_partial.
(* other densities, and another parameter that matters *)
Example C109_nonvacuous : ex_dense (ex_densities 2650 2720 1030) = ex_dense (ex_densities 1 1 5000)
  /\ ex_dense (ex_densities 1 1 5000) <> None
  /\ agree_but (without_effect "flexure") (ex_densities 2650 2720 1030) (ex_densities 1 1 5000)
  /\ ex_dense [("isostasytime", Number 0%Q)] <> ex_dense [("isostasytime", Number 7000%Q)].
Proof. exact ex_dense_ok. Qed.

(** C110 in full: what the section of one process says of a parameter that
    two processes share is used by the other *)
Definition C110_statement : Prop := forall d1 d2 keys k (E : externals Q unit) params read names ctx v c names1 m,
  In (d1, d2, keys) params_to_match -> In k keys -> In d1 names ->
  dget String.eqb (section_of ctx d1) k = None -> dget String.eqb (section_of ctx d2) k = Some v ->
  @load_model Q _ half_trans unit E params read names ctx c = Ok (names1, m) ->
  forall m', @load_model Q _ half_trans unit E params read names (dset String.eqb ctx d1 (dset String.eqb (section_of ctx d1) k v)) c = Ok (names1, m') -> sm_world m = sm_world m'.
Theorem C110_refuted : ~ C110_statement.
Proof. exact shared_refuted. Qed.
Print Assumptions C110_refuted.
(** Only the sections of the processes that run are used. *)
Theorem C110_only_listed_partial {A X} {num : Num A} {tr : Trans A} (E : externals A X) params read names ctx ctx' c :
  (forall n, In n (with_required names) -> section_of ctx n = section_of ctx' n) ->
  load_model E params read names ctx c = load_model E params read names ctx' c.
Proof. exact (only_listed E params read names ctx ctx' c). Qed.
Print Assumptions C110_only_listed_partial.
(* [sediments] hemipelagic is not used; [fluvial] hemipelagic is *)
Example C110_nonvacuous : ex_hemi [("sediments", [("hemipelagic", Number 2%Q)])] = Some 0%Q /\ ex_hemi [("fluvial", [("hemipelagic", Number 2%Q)])] = Some 2%Q
  /\ In ("fluvial", "sediments", ["hemipelagic"]) params_to_match.
Proof. exact ex_hemi_ok. Qed.
