(** Models made from parameters: loading one. *)
From Coq Require Import String List ZArith QArith Bool Arith Reals Lra Lia.
From Verif.Base Require Import Num Py Arr.
From Verif.Model Require Import Layers Grid Archive Interp Shoreline SeaLevel Subsidence Bathymetry Csv Flexure Submarine Fluvial Sequence SequenceModel Setattr Processes Whole.
From Verif.Spec Require Import Column Configured Parameters.
From Verif.Proofs Require Import GridP SequenceP SequenceModelP ClockP ProcessesP ScriptP ScriptEx ShapesP CausesP WholeP.
Import ListNotations.
Local Open Scope string_scope.
Local Open Scope list_scope.
Local Open Scope R_scope.

Lemma grid_new (shape : list nat) (spacing : list R) g : grid_init shape spacing = Ok g ->
  at_node g = [("sediment_deposit__thickness", full (g_rows g + 2) (g_cols g) 0)]
  /\ layers g = el_empty (g_rows g) (g_cols g - 2) /\ gval g "sea_level__elevation" <> None.
Proof.
  unfold grid_init. destruct (_ || _)%bool; [discriminate|]. rewrite n0_R.
  destruct shape as [|r [|c [|]]]; try discriminate; destruct spacing as [|dy [|dx [|]]]; try discriminate; intros Y;
    injection Y as <-; cbn; split; try reflexivity; split; try reflexivity; discriminate.
Qed.

Lemma loaded_whole params text (g : grid R) : load_grid params (Some (read_bathymetry text)) = Ok g -> (2 <= g_cols g)%nat ->
  whole_grid g /\ layers g = el_empty (g_rows g) (g_cols g - 2) /\ base g.
Proof.
  intros E Hc. assert (B : base g).
  { destruct (loaded _ _ _ E) as (H1 & H2 & H3). split; [apply has_iff, H1|]. split; [apply has_iff, H2|apply hasv_iff, H3]. }
  enough (Y : whole_grid g /\ layers g = el_empty (g_rows g) (g_cols g - 2)) by (destruct Y; auto).
  unfold load_grid in E. steps E. injection E as <-. unfold grid_from_dict in K. steps K. destruct (grid_new _ _ _ K) as (Hn & Hl & _).
  match goal with H : read_bathymetry _ _ = Ok _ |- _ => unfold read_bathymetry in H; steps H; unfold bathymetry_step in H; steps H; injection H as <- end.
  match goal with H : mapM _ _ = Ok ?l |- _ => rename H into Hp; rename l into prof end.
  match goal with H : node_r (bathymetry_init ?gg) _ = Ok ?zz |- _ => rename H into Hz; rename gg into g0; rename zz into z0 end.
  match goal with H : node_r (put_node _ _ _) _ = Ok ?zz |- _ => rename H into Hz1; rename zz into z1 end.
  assert (Hb : bathymetry_init g0 = put_node g0 "topographic__elevation" (full (g_rows g0 + 2) (g_cols g0) 0)).
  { unfold bathymetry_init, has_node. rewrite Hn. cbn. rewrite n0_R. reflexivity. }
  rewrite Hb in *. apply node_r_ok in Hz, Hz1. rewrite node_put_same in Hz, Hz1. injection Hz as <-. injection Hz1 as <-.
  assert (Lp : length prof = g_cols g0).
  { rewrite (mapM_length _ _ _ Hp). unfold x_of_column. rewrite map_length, seq_length. reflexivity. }
  assert (Sz : shaped (g_rows g0 + 2) (g_cols g0) (map (fun _ : list R => prof) (full (g_rows g0 + 2) (g_cols g0) 0))).
  { split; [rewrite map_length; apply (shaped_full (g_rows g0 + 2) (g_cols g0) 0)|]. intros r Hr. apply in_map_iff in Hr. destruct Hr as [? [<- _]]. exact Lp. }
  split; [|exact Hl].
  assert (Nd : node g0 "sediment_deposit__thickness" = Some (full (g_rows g0 + 2) (g_cols g0) 0)) by (unfold node; rewrite Hn; reflexivity).
  match goal with |- whole_grid ?gg => set (g := gg) in * end.
  assert (All : forall name f, node g name = Some f -> shaped (g_rows g0 + 2) (g_cols g0) f).
  { intros name f Hf. unfold g in Hf. rewrite !node_put_node in Hf. destruct (String.eqb name "bedrock_surface__elevation").
    - injection Hf as <-. apply shaped_fmap. exact Sz.
    - destruct (String.eqb name "topographic__elevation"); [injection Hf as <-; exact Sz|].
      unfold node in Hf. rewrite Hn in Hf. cbn in Hf. destruct (String.eqb name _); [|discriminate]. injection Hf as <-. apply shaped_full. }
  split; [|exact All]. split; [exact Hc|]. unfold has_field.
  split; [|split; [|split]].
  - eexists. split; [unfold g; rewrite node_put_node; eqb_lit; apply node_put_same|exact Sz].
  - eexists. split; [unfold g; apply node_put_same|apply shaped_fmap; exact Sz].
  - eexists. split; [unfold g; rewrite !node_put_node; eqb_lit; exact Nd|apply shaped_full].
  - change (layers g) with (layers g0). rewrite Hl. cbn [el_stacks el_empty]. apply shaped_full.
Qed.

Section P.
  Context {X : Type} {tr : Trans R} (E : externals R X) (WB : well_behaved E).

  Lemma loaded_parts names ctx (g : grid R) ps g' : solid g -> load_processes same_value (make E) g names ctx = Ok (ps, g') ->
    adds g g' /\ layers g' = layers g /\ (forall n p, dget String.eqb ps n = Some p -> good g' p)
    /\ rowf g' "x_of_shore" <> None /\ rowf g' "x_of_shelf_edge" <> None /\ has g' SAND
    /\ (forall n f, node g n = Some f -> node g' n = Some f).
  Proof.
    intros S El. unfold load_processes in El. cbv zeta in El.
    change (foldM _ (with_required names) ([], g)) with (load_fold E (fst (match_params same_value (own_params ctx (with_required names)))) (with_required names) ([], g)) in El.
    destruct (load_fold E _ _ ([], g)) as [[objs g1]|] eqn:Ef; [|discriminate]. cbn [bind] in El. injection El as <- <-.
    destruct (load_folded E WB _ _ _ _ _ _ S (fun n p (Y : In (n, p) []) => match Y with end) Ef) as (A1 & L1 & G1 & _ & _ & R1 & R2 & R3).
    split; [exact A1|]. split; [exact L1|]. split.
    - intros n p Hp. destruct (dget_dupdate_in _ _ _ _ Hp) as [Hi|Hi]; [exact (G1 _ _ Hi)|discriminate].
    - destruct R1 as [R1 R1']; [apply with_required_In; auto|]. split; [exact R1|]. split; [exact R1'|]. split; [apply R2, with_required_In; auto|exact R3].
  Qed.

  Lemma sea_time_good (g : grid R) t (ps : parts R X) n p : (forall n p, dget String.eqb ps n = Some p -> good g p) ->
    dget String.eqb (set_sea_time t ps) n = Some p -> good g p.
  Proof.
    intros G. unfold set_sea_time. destruct (dget String.eqb ps "sea_level") as [[[]|]|] eqn:Es; try apply G;
      rewrite (dget_dset _ String.eqb_eq); (destruct (String.eqb n "sea_level"); [|apply G]); intros Y; injection Y as <-;
      pose proof (G _ _ Es) as (G1 & G2 & G3); (split; [exact G1|]; split; [exact G2|exact G3]).
  Qed.
  Lemma sea_time_keys t (ps : parts R X) n : dget String.eqb ps n <> None -> dget String.eqb (set_sea_time t ps) n <> None.
  Proof.
    intros Hn. unfold set_sea_time. destruct (dget String.eqb ps "sea_level") as [[[]|]|] eqn:Es; try exact Hn;
      rewrite (dget_dset _ String.eqb_eq); (destruct (String.eqb n "sea_level"); [discriminate|exact Hn]).
  Qed.

  Lemma init_dx {W} (pr : processes R W) w (g : grid R) c m : model_init pr w g c = Ok m -> g_dx (sm_grid m) = g_dx g.
  Proof.
    intros Y. unfold model_init in Y. steps Y. injection Y as <-. cbn [sm_grid].
    destruct (rowf g "x_of_shore"); [|discriminate]. injection K as <-.
    destruct (rowf _ "x_of_shelf_edge"); [|discriminate]. injection K0 as <-.
    destruct (has_node _ WATER_LOAD); [|injection K3 as <-; reflexivity]. steps K3. destruct (set_profile_inv _ _ _ _ K3) as [f [_ ->]]. reflexivity.
  Qed.
  Lemma init_grows {W} (pr : processes R W) w (g : grid R) c m : model_init pr w g c = Ok m -> grows g (sm_grid m).
  Proof.
    intros Y. unfold model_init in Y. steps Y. injection Y as <-. cbn [sm_grid].
    destruct (rowf g "x_of_shore") as [v1|]; [|discriminate]. injection K as <-.
    destruct (rowf _ "x_of_shelf_edge") as [v2|]; [|discriminate]. injection K0 as <-.
    assert (G : forall l, grows g (set_layers (put_gval (put_rowf (put_rowf g "x_of_shore" (map (fun _ => None) v1)) "x_of_shelf_edge" (map (fun _ => None) v2)) "sea_level__elevation" n0) l)).
    { intros l. split; intros n Hn; [exact Hn|]. apply hasv_iff. apply hasv_iff in Hn. change (gval (set_layers ?a ?b)) with (gval a). rewrite gval_put_gval.
      destruct (String.eqb _ _); [discriminate|exact Hn]. }
    destruct (has_node _ WATER_LOAD); [|injection K3 as <-; apply G]. steps K3. destruct (set_profile_inv _ _ _ _ K3) as [f [_ ->]].
    eapply grows_trans; [apply G|apply grows_put].
  Qed.

  Theorem load_inv params text names ctx c g0 : load_grid params (Some (read_bathymetry text)) = Ok g0 ->
    (2 <= g_cols g0)%nat -> (0 < g_rows g0)%nat -> 0 < g_dx g0 ->
    match load_model E params (read_bathymetry text) names ctx c with
    | Ok (names', m) => inv names' m
    | Err e => load_processes same_value (make E) g0 names ctx = Err e
    end.
  Proof.
    intros El Hc Hr Hd. unfold load_model. rewrite El. cbn [bind].
    destruct (load_processes same_value (make E) g0 names ctx) as [[ps g1]|e] eqn:Ep; [|reflexivity]. cbn [bind].
    destruct (loaded_whole _ _ _ El Hc) as (W & L & B). assert (S : solid g0) by (split; [exact W|]; auto).
    destruct (loaded_parts _ _ _ _ _ S Ep) as (A1 & L1 & G1 & R1 & R2 & R3 & _).
    pose proof (solid_adds _ _ S A1) as S1.
    destruct (init_ready [SAND] (named_processes E (map fst ps)) ps g1 c) as [m [Em [Rm Cm]]].
    - apply A1.
    - rewrite L1, L. reflexivity.
    - exact R1.
    - exact R2.
    - intros _. apply has_iff, R3.
    - intros n [<-|[]]. apply has_iff, R3.
    - rewrite Em. cbn [bind]. split; [exact Rm|].
      destruct (init_spec _ _ _ _ _ (proj1 S1) Em) as (Wm & Rr & Rc & _ & _ & Ew & _).
      pose proof (init_dx _ _ _ _ _ Em) as Dm. pose proof (init_grows _ _ _ _ _ Em) as Gm.
      cbn [named_processes pr_set_sea_time] in Ew.
      split; [|split].
      + destruct S1 as (_ & B1 & H1 & H2). split; [exact Wm|]. split; [exact (base_grows _ _ Gm B1)|]. rewrite Rr, Dm. auto.
      + intros n Hn. rewrite Ew. apply sea_time_keys. intros Y. apply (dget_none_iff _ String.eqb_eq) in Y. contradiction.
      + intros n p Hp. rewrite Ew in Hp. pose proof (sea_time_good g1 _ _ _ _ G1 Hp) as G. destruct p as [q|]; [|exact I]. destruct G as (G & G' & G'').
        split; [exact (serves_grows _ _ _ Gm G)|]. split; [exact (fits_size _ _ _ Rr Rc G')|exact G''].
  Qed.
End P.

(** ** one step of any components, as a component that keeps every grid whole *)
Section Once.
  Context {W : Type}.
  Definition once (r : result (W * grid R)) (g0 : grid R) : component R W :=
    fun _ wg => if (Nat.eqb (g_rows (snd wg)) (g_rows g0) && Nat.eqb (g_cols (snd wg)) (g_cols g0))%bool then r else Err KeyError.
  Lemma once_keeps r g0 : (forall w g, r = Ok (w, g) -> whole_grid g /\ g_rows g = g_rows g0 /\ g_cols g = g_cols g0) -> keeps_whole (once r g0).
  Proof.
    intros H dt w g w' g' Wg Er. unfold once in Er. cbn [snd] in Er. destruct (_ && _)%bool eqn:B; [|discriminate].
    apply andb_prop in B. destruct B as [B1 B2]. apply Nat.eqb_eq in B1, B2. destruct (H _ _ Er) as (H1 & H2 & H3). rewrite B1, B2. auto.
  Qed.
  Lemma once_step (pr : processes R W) d m :
    (forall g0 w g, clear_deposit (sm_grid m) = Ok g0 -> run_components (pr_components pr) d (sm_world m, g0) = Ok (w, g) ->
       whole_grid g /\ g_rows g = g_rows g0 /\ g_cols g = g_cols g0) ->
    exists pr', Forall keeps_whole (pr_components pr') /\ pr_porosity pr' = pr_porosity pr /\ pr_set_sea_time pr' = pr_set_sea_time pr
      /\ advance_components pr' d m = advance_components pr d m
      /\ forall g0, clear_deposit (sm_grid m) = Ok g0 -> run_components (pr_components pr') d (sm_world m, g0) = run_components (pr_components pr) d (sm_world m, g0).
  Proof.
    intros H. destruct (clear_deposit (sm_grid m)) as [g0|e] eqn:Ec.
    2:{ exists (mkProcesses [] (pr_porosity pr) (pr_set_sea_time pr)). split; [constructor|]. split; [reflexivity|]. split; [reflexivity|].
        split; [unfold advance_components; rewrite Ec; reflexivity|]. intros g0 Y. discriminate Y. }
    set (r := run_components (pr_components pr) d (sm_world m, g0)) in *.
    exists (mkProcesses [once r g0] (pr_porosity pr) (pr_set_sea_time pr)). cbn [pr_components pr_porosity pr_set_sea_time].
    assert (Y : run_components [once r g0] d (sm_world m, g0) = r).
    { unfold run_components. cbn [foldM]. unfold once at 1. cbn [snd]. rewrite !Nat.eqb_refl. cbn [andb]. destruct r; reflexivity. }
    split; [constructor; [|constructor]; apply once_keeps; intros w g Er; exact (H g0 w g eq_refl Er)|].
    split; [reflexivity|]. split; [reflexivity|]. split.
    - unfold advance_components. rewrite Ec. cbn [bind pr_components pr_porosity]. rewrite Y. reflexivity.
    - intros g1 Y1. injection Y1 as <-. exact Y.
  Qed.
End Once.

Section Balance.
  Context {X : Type} {tr : Trans R} (E : externals R X) (WB : well_behaved E).

  Lemma ran_whole names d m g0 w g : inv names m -> clear_deposit (sm_grid m) = Ok g0 ->
    run_components (pr_components (named_processes E names)) d (sm_world m, g0) = Ok (w, g) ->
    whole_grid g /\ g_rows g = g_rows g0 /\ g_cols g = g_cols g0.
  Proof.
    intros [Hr Hs] Ec Er. pose proof (clear_adds _ _ (proj1 Hr) Ec) as A0.
    pose proof (components_run E WB names d names (sm_world m) g0 (incl_refl _) (sound_adds _ _ _ _ Hs A0)) as C.
    cbn [pr_components named_processes] in Er. rewrite Er in C. destruct C as [_ (W1 & R1 & C1 & _)]. auto.
  Qed.

  Lemma advance_fine names d m m' : inv names m -> advance_components (named_processes E names) d m = Ok m' -> balanced (sm_grid m').
  Proof.
    intros Hi Ea. destruct (once_step (named_processes E names) d m (fun g0 w g => ran_whole names d m g0 w g Hi)) as (pr' & K & _ & _ & Ea' & _).
    rewrite <- Ea' in Ea.
    exact (proj1 (proj2 (advance_balanced pr' d m m' K (proj1 (proj1 Hi)) Ea))).
  Qed.
  Lemma step_fine names dt m : inv names m -> balanced (sm_grid m) ->
    match run_one_step (named_processes E names) dt m with Stepped m' | ClockStop m' => balanced (sm_grid m') | Raised _ => True end.
  Proof.
    intros Hi Hb. unfold run_one_step. cbv zeta. destruct (clock_advance (sm_clock m)) as [c stop].
    set (m1 := mkModel (sm_world m) (sm_grid m) c (sm_archived m)). assert (H1 : inv names m1) by exact Hi.
    destruct stop; [exact Hb|]. fold (step_used dt m). destruct (advance_components _ _ m1) as [m'|] eqn:Ea; [|exact I].
    exact (advance_fine _ _ _ _ H1 Ea).
  Qed.
  Lemma reached_fine names m0 m : inv names m0 -> balanced (sm_grid m0) -> reached E names m0 m -> inv names m /\ balanced (sm_grid m).
  Proof.
    intros H0 B0 Hr. induction Hr as [|m dt m' Hr IH Es|m dt m' Hr IH Es|m params m' Hr IH Es]; [auto| | |]; destruct IH as [Hi Hb].
    - pose proof (stepped_inv E WB names dt m Hi) as S. rewrite Es in S. split; [exact S|]. pose proof (step_fine names dt m Hi Hb) as B. rewrite Es in B. exact B.
    - pose proof (stepped_inv E WB names dt m Hi) as S. rewrite Es in S. split; [exact S|]. pose proof (step_fine names dt m Hi Hb) as B. rewrite Es in B. exact B.
    - destruct (set_inv E WB names params m m' Hi Es) as (S & L & Ad & _ & N). split; [exact S|].
      intros z z0 i j Ez E0 Hi' Hj. destruct Ad as (_ & R1 & C1 & _). rewrite N in Ez, E0. rewrite L. rewrite R1 in Hi'. rewrite C1 in Hj. exact (Hb z z0 i j Ez E0 Hi' Hj).
  Qed.

  Lemma load_fine params text names ctx c g0 names' m : load_grid params (Some (read_bathymetry text)) = Ok g0 ->
    (2 <= g_cols g0)%nat -> (0 < g_rows g0)%nat -> 0 < g_dx g0 ->
    load_model E params (read_bathymetry text) names ctx c = Ok (names', m) -> inv names' m /\ balanced (sm_grid m).
  Proof.
    intros El Hc Hr Hd Em. pose proof (load_inv E WB params text names ctx c g0 El Hc Hr Hd) as Hi. rewrite Em in Hi. split; [exact Hi|].
    unfold load_model in Em. rewrite El in Em. cbn [bind] in Em.
    destruct (load_processes same_value (make E) g0 names ctx) as [[ps g1]|e] eqn:Ep; [|discriminate]. cbn [bind] in Em.
    destruct (model_init (named_processes E (map fst ps)) ps g1 c) as [mm|] eqn:Ei; [|discriminate]. cbn [bind] in Em. injection Em as <- <-.
    destruct (loaded_whole _ _ _ El Hc) as (W & L & B). assert (S : solid g0) by (split; [exact W|]; auto).
    destruct (loaded_parts E WB _ _ _ _ _ S Ep) as (A1 & L1 & _ & _ & _ & _ & N1).
    destruct A1 as (W1 & R1 & C1 & _). pose proof W as [(_ & (z & Ez & Sz) & (z0 & E0 & S0) & _) _].
    refine (proj2 (init_balanced _ _ _ _ _ z z0 W1 (N1 _ _ Ez) (N1 _ _ E0) _ _ Ei)).
    - intros i j Hi' Hj. rewrite R1 in Hi'. rewrite C1 in Hj.
      destruct (load_grid_hundred params (read_bathymetry text) g0 (Datatypes.S i) (Datatypes.S j) El W) as (z' & z0' & Ez' & E0' & Hz); [lia|lia|]. congruence.
    - intros i j Hi' Hj. rewrite L1, L. cbn [el_stacks el_empty]. rewrite at2_full; [reflexivity|lia|lia].
  Qed.

  Lemma clear_cleared (g g' : grid R) : whole_grid g -> clear_deposit g = Ok g' -> cleared g g'.
  Proof.
    intros W Ec. destruct (clear_spec _ _ Ec) as [dz [Ed ->]].
    split; [reflexivity|]. split; [reflexivity|]. split; [reflexivity|]. split; [|split; [|auto]].
    - intros d i j Hd Hi Hj. rewrite node_put_same in Hd. injection Hd as <-. pose proof (proj2 W _ _ Ed) as S.
      rewrite (at2_fmap _ (g_rows g + 2) (g_cols g) _ 0 _ _ _ S Hi Hj). reflexivity.
    - intros n Hn. rewrite node_put_node. destruct (String.eqb n _) eqn:N; [apply String.eqb_eq in N; contradiction|reflexivity].
  Qed.

  Theorem configured_raises params text names ctx c g0 names' m0 m dt e : load_grid params (Some (read_bathymetry text)) = Ok g0 ->
    (2 <= g_cols g0)%nat -> (0 < g_rows g0)%nat -> 0 < g_dx g0 ->
    load_model E params (read_bathymetry text) names ctx c = Ok (names', m0) -> reached E names' m0 m ->
    run_one_step (named_processes E names') dt m = Raised e ->
    exists g p h, cleared (sm_grid m) g /\ turn E (step_used dt m) names' (sm_world m) g p h
      /\ part_step E (step_used dt m) (p, h) = Err e
      /\ forall q, p = Ours q -> cause E (step_used dt m) q h e /\ e <> KeyError.
  Proof.
    intros El Hc Hr Hd Em Hm Es. destruct (load_fine _ _ _ _ _ _ _ _ El Hc Hr Hd Em) as [H0 _].
    pose proof (reached_inv E WB _ _ _ H0 Hm) as Hi. pose proof (stepped_inv E WB names' dt m Hi) as S. rewrite Es in S.
    destruct S as (g & p & h & Ec & T & Ep & Hq). exists g, p, h. split; [exact (clear_cleared _ _ (proj1 (proj1 Hi)) Ec)|]. auto.
  Qed.
  Theorem configured_loads params text names ctx c g0 e : load_grid params (Some (read_bathymetry text)) = Ok g0 ->
    (2 <= g_cols g0)%nat -> (0 < g_rows g0)%nat -> 0 < g_dx g0 ->
    load_model E params (read_bathymetry text) names ctx c = Err e -> load_processes same_value (make E) g0 names ctx = Err e.
  Proof.
    intros El Hc Hr Hd Em. pose proof (load_inv E WB params text names ctx c g0 El Hc Hr Hd) as Hi. rewrite Em in Hi. exact Hi.
  Qed.
  Theorem configured_balanced params text names ctx c g0 names' m0 m : load_grid params (Some (read_bathymetry text)) = Ok g0 ->
    (2 <= g_cols g0)%nat -> (0 < g_rows g0)%nat -> 0 < g_dx g0 ->
    load_model E params (read_bathymetry text) names ctx c = Ok (names', m0) -> reached E names' m0 m -> balanced (sm_grid m).
  Proof.
    intros El Hc Hr Hd Em Hm. destruct (load_fine _ _ _ _ _ _ _ _ El Hc Hr Hd Em) as [H0 B0].
    exact (proj2 (reached_fine _ _ _ H0 B0 Hm)).
  Qed.
End Balance.
