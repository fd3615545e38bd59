(** Models with a WaterFlexure. *)
From Coq Require Import String List ZArith QArith Bool Arith Reals Lra Lia.
From Verif.Base Require Import Num Py Arr.
From Verif.Model Require Import Layers Grid Csv Flexure Sequence SequenceModel Setattr Processes Whole Water.
From Verif.Spec Require Import Column Configured Parameters Followed Turns Watered.
From Verif.Proofs Require Import GridP SequenceModelP FluvialEx ScriptP ScriptEx ShapesP WholeP LoadP WholeEx WaterP WaterRunP DepthP.
Import ListNotations.
Local Open Scope string_scope.
Local Open Scope list_scope.

(* a plate that bends by some of what is put on it *)
Definition ex_plate {A} `{Num A} : plate A := mkPlate A (fun _ _ z => fmap (nmul (nlit (1 # 100))) z) (fun _ => nlit 2) (fun _ => nlit 5000) (fun _ => n1) (fun _ => n1).
Lemma ex_plate_keeps {A} `{Num A} : keeps_shape (@ex_plate A _).
Proof. intros k x n m z S. apply shaped_fmap. exact S. Qed.
Lemma ex_unmoved {A} `{Num A} i1 : leaves_elevation (ex_ext i1).
Proof. intros dt x g x' g' Y. cbn in Y. unfold kept in Y. assert (g' = g) by (cbn in Y; congruence). subst. reflexivity. Qed.
Lemma ex_behaved_any {A} `{Num A} (i1 : list A -> list A -> result (A -> A)) : (forall x y, i1 x y <> Err KeyError) -> well_behaved (ex_ext i1).
Proof.
  intros Hi. assert (K : forall g : grid A, whole_grid g -> adds_only g g) by (intros g W; split; [exact W|]; auto 10).
  constructor; cbn.
  - exact Hi.
  - auto.
  - auto.
  - intros cls ps g x g' W Y. unfold kept in Y. assert (g' = g) by congruence. subst. auto.
  - intros dt x g x' g' W Y. unfold kept in Y. assert (g' = g) by congruence. subst. auto.
  - intros n v x g x' g' W Y. unfold kept in Y. assert (g' = g) by congruence. subst. auto.
Qed.

(* over the reals: a model with a water flexure *)
Section Loads.
  Context {tr : Trans R}.
  Local Open Scope R_scope.
  Lemma water_makes (g : grid R) : exists w g', water_make [] g = Ok (w, g').
  Proof.
    unfold water_make. cbn [negb forallb]. unfold kwd. cbn [dget bind]. unfold water_init. cbv zeta. unfold dyn_init.
    match goal with |- context [isclose0 ?t] => destruct (isclose0 t) end; cbn [bind]; [eauto|].
    unfold validate_isostasy_time. match goal with |- context [if ?b then _ else _] => destruct b eqn:B end; cbn [bind]; [exfalso|eauto].
    revert B. numR. unfold Num.Rltb. destruct (Rlt_dec _ _) as [L|]; [|discriminate]. intros _. revert L. rewrite ?n0_R. unfold Q2R. simpl. lra.
  Qed.
  Lemma ex_water_load : exists (g : grid R) names m, load_grid ex_grid4 (Some (read_bathymetry ex_flat)) = Ok g
    /\ (2 <= g_cols g)%nat /\ (0 < g_rows g)%nat /\ 0 < g_dx g
    /\ load_model (with_water ex_plate (ex_ext ex_level)) ex_grid4 (read_bathymetry ex_flat) ["water_flexure"] [] (clock_init 0 (Some 10) 1) = Ok (names, m).
  Proof.
    destruct ex_grid4_loads as (g & El & Hr & Hc & Hd). exists g.
    assert (G : (2 <= g_cols g)%nat /\ (0 < g_rows g)%nat /\ 0 < g_dx g) by (rewrite Hr, Hc, Hd; split; [lia|]; split; [lia|lra]).
    destruct G as (G1 & G2 & G3). destruct (loaded_whole _ _ _ El G1) as (W & L & B).
    set (WE := with_water ex_plate (ex_ext (@ex_level R _))).
    assert (WB : well_behaved WE) by (apply (water_behaved ex_plate ex_plate_keeps), ex_behaved; discriminate).
    pose proof (load_inv WE WB _ _ ["water_flexure"] [] (clock_init 0 (Some 10) 1) _ El G1 G2 G3) as I.
    destruct (load_model _ _ _ _ _ _) as [[names m]|e]; [exists names, m; auto 8|exfalso].
    unfold load_processes in I. cbv zeta in I. change (with_required ["water_flexure"]) with ["water_flexure"; "fluvial"; "shoreline"] in I. cbn [foldM fst snd] in I.
    change (process_class _ "water_flexure") with (Ok "WaterFlexure") in I.
    change (process_class _ "fluvial") with (Ok "Fluvial") in I. change (process_class _ "shoreline") with (Ok "ShorelineFinder") in I.
    change (params_of _ "water_flexure") with (@nil (string * pvalue R)) in I.
    change (params_of _ "fluvial") with (@nil (string * pvalue R)) in I. change (params_of _ "shoreline") with (@nil (string * pvalue R)) in I.
    cbn [bind] in I.
    assert (S0 : solid g) by (split; [exact W|]; auto).
    destruct (water_makes g) as (w & h & Ew).
    assert (Em : make WE "WaterFlexure" [] g = Ok (Extra (inl w), h)).
    { unfold make. change (class_named "WaterFlexure") with (@None pclass). cbv iota. unfold WE. cbn [with_water ex_make]. change (String.eqb "WaterFlexure" "WaterFlexure") with true.
      cbv iota. rewrite Ew. reflexivity. }
    rewrite Em in I. cbn [bind fst snd] in I. destruct (made WE WB _ _ _ _ _ S0 Em) as (A1 & _). pose proof (solid_adds _ _ S0 A1) as (W1 & B1 & _ & G4).
    destruct (fluvial_makes ex_level h) as (c & g1 & Ec). assert (Ef : make WE "Fluvial" [] h = Ok (Ours (PFluvial c), g1)).
    { unfold make. change (class_named "Fluvial") with (Some Fluvial). cbv iota. change (ex_interp1d WE) with (@ex_level R _). rewrite Ec. reflexivity. }
    rewrite Ef in I. cbn [bind fst snd] in I. destruct (made WE WB _ _ _ _ _ (solid_adds _ _ S0 A1) Ef) as (A2 & _). pose proof (solid_adds _ _ (solid_adds _ _ S0 A1) A2) as (W2 & B2 & _ & G5).
    destruct (shoreline_makes g1 W2 B2 G5) as (o & g2 & Eo). assert (Es : make WE "ShorelineFinder" [] g1 = Ok (Ours o, g2)).
    { unfold make. change (class_named "ShorelineFinder") with (Some ShorelineFinder). cbv iota. change (ex_interp1d WE) with (@ex_level R _). rewrite Eo. reflexivity. }
    rewrite Es in I. discriminate I.
  Qed.
End Loads.

(* over the rationals: every process but the compaction *)
Definition ex_water : externals Q (water Q + unit) := @with_water Q _ half_trans unit ex_plate ex_whole.
Definition ex_water_names : list string := ["sea_level"; "subsidence"; "submarine_diffusion"; "water_flexure"].
Definition ex_water_context : context (pvalue Q) := ex_context ++ [("water_flexure", [("isostasytime", Number 0%Q)])].
Notation ex_water_model := (@load_model Q _ half_trans _ ex_water ex_grid6 (read_bathymetry ex_bath) ex_water_names ex_water_context (clock_init 0 (Some 10) 1)%Q).
Notation ex_water_run names dt m := (@run_one_step Q _ (parts Q (water Q + unit)) (@named_processes Q _ half_trans _ ex_water names) dt m).
Definition ex_water_go : option (list string * smodel Q (parts Q (water Q + unit)) * smodel Q (parts Q (water Q + unit)) * smodel Q (parts Q (water Q + unit))) :=
  match ex_water_model with
  | Ok (names, m0) => match ex_water_run names None m0 with
                      | Stepped m1 => match ex_water_run names None m1 with Stepped m2 => Some (names, m0, m1, m2) | _ => None end
                      | _ => None
                      end
  | Err _ => None
  end.
Definition ex_water_seen : option (list string * list (option Q * option (list Q) * option (list Q))) :=
  match ex_water_go with
  | Some (names, m0, m1, m2) => Some (names, map (fun m => (option_map Qred (gval (sm_grid m) "sea_level__elevation"),
        option_map (fun f => map Qred (nth 1 f [])) (node (sm_grid m) "topographic__elevation"),
        option_map (fun f => map Qred (nth 1 f [])) (node (sm_grid m) "water__increment_of_depth"))) [m0; m1; m2])
  | None => None
  end.
Lemma ex_water_is : ex_water_seen = Some
  (["sea_level"; "subsidence"; "submarine_diffusion"; "water_flexure"; "fluvial"; "shoreline"],
   [(Some 0, Some [20; 10; -5 # 1; -15 # 1; -25 # 1; -35 # 1], Some [0; 0; 0; 0; 0; 0]);
    (Some (1 # 10), Some [54 # 5; 979 # 100; -2163 # 400; -307 # 20; -10123 # 400; -35 # 1], Some [0; 0; 163 # 400; 7 # 20; 123 # 400; 0]);
    (Some (1 # 5), Some [1059 # 100; 479 # 50; -989 # 100; -7671 # 400; -2869 # 100; -35 # 1], Some [0; 0; 1793 # 400; 1531 # 400; 1353 # 400; 0])]%Q).
Proof. vm_compute. reflexivity. Qed.

Lemma ex_linear_named x y : @ex_linear x y <> Err KeyError.
Proof. discriminate. Qed.
Definition ex_depth_goes : bool :=
  match ex_water_go with
  | Some (names, m0, m1, _) =>
      match gval (sm_grid m0) "sea_level__elevation", node (sm_grid m0) "topographic__elevation",
            gval (sm_grid m1) "sea_level__elevation", node (sm_grid m1) "topographic__elevation", node (sm_grid m1) "water__increment_of_depth" with
      | Some s, Some z, Some s', Some z', Some w =>
          Nat.leb 1 (g_rows (sm_grid m0)) && Nat.ltb 2 (g_cols (sm_grid m0))
          && negb (Qeq_bool (at2 n0 w 1 2) (nmax (nsub s' (at2 n0 z' 1 2)) n0 - nmax (nsub s (at2 n0 z 1 2)) n0))
      | _, _, _, _, _ => false
      end
  | None => false
  end.
Lemma ex_depth_goes_ok : ex_depth_goes = true. Proof. vm_compute. reflexivity. Qed.
Definition true_change : Prop := forall X (P : plate Q) (E : externals Q X) params text names ctx c names' m0 m dt m' i j d before after,
  keeps_shape P -> well_behaved E -> leaves_elevation E ->
  @load_model Q _ half_trans _ (@with_water Q _ half_trans X P E) params (read_bathymetry text) names ctx c = Ok (names', m0) ->
  @reached Q _ _ half_trans (@with_water Q _ half_trans X P E) names' m0 m ->
  @run_one_step Q _ _ (@named_processes Q _ half_trans _ (@with_water Q _ half_trans X P E) names') dt m = Stepped m' ->
  (1 <= i <= g_rows (sm_grid m))%nat -> (1 <= j < g_cols (sm_grid m))%nat ->
  recorded_change (sm_grid m') i j d -> water_depth (sm_grid m) i j before -> water_depth (sm_grid m') i j after -> (d == after - before)%Q.
Lemma true_change_refuted : ~ true_change.
Proof.
  intros H. pose proof ex_depth_goes_ok as G. unfold ex_depth_goes, ex_water_go in G.
  destruct ex_water_model as [[names m0]|] eqn:E0; [|discriminate].
  destruct (ex_water_run names None m0) as [m1|m1|e] eqn:E1; [|discriminate|discriminate]. destruct (ex_water_run names None m1) as [m2|m2|e] eqn:E2; [|discriminate|discriminate].
  destruct (gval (sm_grid m0) _) as [s|] eqn:S0; [|discriminate]. destruct (node (sm_grid m0) _) as [z|] eqn:Z0; [|discriminate].
  destruct (gval (sm_grid m1) _) as [s'|] eqn:S1; [|discriminate]. destruct (node (sm_grid m1) "topographic__elevation") as [z'|] eqn:Z1; [|discriminate].
  destruct (node (sm_grid m1) "water__increment_of_depth") as [w|] eqn:W1; [|discriminate].
  apply andb_true_iff in G as [G G3]. apply andb_true_iff in G as [G1 G2]. apply Nat.leb_le in G1. apply Nat.ltb_lt in G2. apply negb_true_iff in G3.
  apply Qeq_bool_neq in G3. apply G3.
  eapply (H unit ex_plate ex_whole ex_grid6 ex_bath ex_water_names ex_water_context (clock_init 0 (Some 10) 1)%Q names m0 m0 None m1 1%nat 2%nat _ _ _ ex_plate_keeps
    (ex_behaved_any _ ex_linear_named) (ex_unmoved _) E0 (@reached_start _ _ _ half_trans _ _ _) E1); [lia|lia|..].
  - exists w. auto.
  - exists s. split; [exact S0|]. exists z. auto.
  - exists s'. split; [exact S1|]. exists z'. auto.
Qed.

Section Kept.
  Context {X : Type} {tr : Trans R} (P : plate R) (HP : keeps_shape P) (E : externals R X) (WB : well_behaved E).
  Local Open Scope R_scope.
  Theorem change_kept : leaves_elevation E -> forall params text names ctx c (g0 : grid R) names' m0 m dt m' i j d,
    load_grid params (Some (read_bathymetry text)) = Ok g0 -> (2 <= g_cols g0)%nat -> (0 < g_rows g0)%nat -> 0 < g_dx g0 ->
    load_model (with_water P E) params (read_bathymetry text) names ctx c = Ok (names', m0) -> reached (with_water P E) names' m0 m ->
    run_one_step (named_processes (with_water P E) names') dt m = Stepped m' ->
    (1 <= i <= g_rows (sm_grid m))%nat -> (1 <= j < g_cols (sm_grid m))%nat -> recorded_change (sm_grid m') i j d ->
    exists sea before after, gval (sm_grid m') "sea_level__elevation" = Some sea /\ depth_under sea (sm_grid m) i j before
      /\ depth_under sea (sm_grid m') i j after /\ d = after - before.
  Proof.
    intros LE params text names ctx c g0 names' m0 m dt m' i j d El Hc Hr Hd Em Hm Es Hi Hj Hw.
    destruct (water_reached P HP E WB _ _ _ _ _ _ _ _ _ El Hc Hr Hd Em Hm) as [Iv _].
    exact (recorded (with_water P E) (water_behaved P HP E WB) (water_leaves_elevation P E LE) names' dt m m' i j d Iv Es Hi Hj Hw).
  Qed.
  Theorem change_true : leaves_elevation E -> forall params text names ctx c (g0 : grid R) names' m0 m dt m' i j d before after,
    load_grid params (Some (read_bathymetry text)) = Ok g0 -> (2 <= g_cols g0)%nat -> (0 < g_rows g0)%nat -> 0 < g_dx g0 ->
    load_model (with_water P E) params (read_bathymetry text) names ctx c = Ok (names', m0) -> reached (with_water P E) names' m0 m ->
    run_one_step (named_processes (with_water P E) names') dt m = Stepped m' ->
    gval (sm_grid m') "sea_level__elevation" = gval (sm_grid m) "sea_level__elevation" ->
    (1 <= i <= g_rows (sm_grid m))%nat -> (1 <= j < g_cols (sm_grid m))%nat -> recorded_change (sm_grid m') i j d ->
    water_depth (sm_grid m) i j before -> water_depth (sm_grid m') i j after -> d = after - before.
  Proof.
    intros LE params text names ctx c g0 names' m0 m dt m' i j d b a El Hc Hr Hd Em Hm Es Sea Hi Hj Hw (s & Hs & z & Hz & ->) (s' & Hs' & z' & Hz' & ->).
    destruct (change_kept LE _ _ _ _ _ _ _ _ _ _ _ _ _ _ El Hc Hr Hd Em Hm Es Hi Hj Hw) as (sea & b1 & a1 & V & (y & Hy & ->) & (y' & Hy' & ->) & ->).
    assert (s = sea) by congruence. assert (s' = sea) by congruence. assert (y = z) by congruence. assert (y' = z') by congruence. subst. reflexivity.
  Qed.
  Theorem water_balanced : forall params text names ctx c (g0 : grid R) names' m0 m,
    load_grid params (Some (read_bathymetry text)) = Ok g0 -> (2 <= g_cols g0)%nat -> (0 < g_rows g0)%nat -> 0 < g_dx g0 ->
    load_model (with_water P E) params (read_bathymetry text) names ctx c = Ok (names', m0) -> reached (with_water P E) names' m0 m -> balanced (sm_grid m).
  Proof. exact (configured_balanced (with_water P E) (water_behaved P HP E WB)). Qed.
End Kept.
