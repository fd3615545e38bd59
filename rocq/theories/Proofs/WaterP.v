(** WaterFlexure in a model made from parameters keeps what the other theorems
    assume of it. *)
From Coq Require Import String List ZArith QArith Bool Arith Lia.
From Verif.Base Require Import Num Py Arr.
From Verif.Model Require Import Layers Grid Flexure Sequence SequenceModel Setattr Processes Whole Water.
From Verif.Spec Require Import Column Configured Followed Turns Declared Ordering Watered.
From Verif.Proofs Require Import OrderP GridP SequenceP SequenceModelP ScriptP ShapesP.
Import ListNotations.
Local Open Scope string_scope.
Local Open Scope list_scope.

Section P.
  Context {A X : Type} {num : Num A} {tr : Trans A} (P : plate A) (HP : keeps_shape P) (E : externals A X).

  Ltac steps E := repeat (cbn [bind] in E; match type of E with
    | bind ?r _ = Ok _ => let H := fresh "K" in destruct r eqn:H; [|discriminate E]
    end); cbn [bind] in E.

  Lemma is_shaped_iff n m (f : field A) : is_shaped n m f = true <-> shaped n m f.
  Proof.
    unfold is_shaped. rewrite andb_true_iff, Nat.eqb_eq, forallb_forall. unfold shaped. split; intros [H1 H2]; (split; [exact H1|]); intros r Hr.
    - apply Nat.eqb_eq, H2, Hr.
    - apply Nat.eqb_eq, H2, Hr.
  Qed.

  (* fields are only added, and rows and values of the grid stay *)
  Definition more (g g' : grid A) : Prop :=
    alike g g' /\ grows g g' /\ (forall n, rowf g' n = rowf g n).
  Lemma more_refl g : whole_grid g -> more g g.
  Proof. intros W. split; [apply alike_refl, W|]. split; [apply grows_refl|reflexivity]. Qed.
  Lemma more_trans g1 g2 g3 : more g1 g2 -> more g2 g3 -> more g1 g3.
  Proof.
    intros (A1 & G1 & R1) (A2 & G2 & R2). split; [eapply alike_trans; eassumption|]. split; [eapply grows_trans; eassumption|].
    intros n. rewrite R2. apply R1.
  Qed.
  Lemma more_ensure g n : whole_grid g -> more g (ensure_node g n).
  Proof.
    intros W. split; [apply alike_ensure, W|]. split; [apply grows_ensure|]. intros k. unfold ensure_node. destruct (has_node g n); reflexivity.
  Qed.
  Lemma more_put g n f : whole_grid g -> shaped (g_rows g + 2) (g_cols g) f -> more g (put_node g n f).
  Proof. intros W S. split; [apply alike_put; assumption|]. split; [apply grows_put|reflexivity]. Qed.
  Lemma more_gval g n v : whole_grid g -> more g (put_gval g n v).
  Proof. intros W. split; [apply alike_gval, W|]. split; [apply grows_gval|reflexivity]. Qed.
  Lemma more_profile g n v g' : whole_grid g -> shaped (g_rows g) (g_cols g) v -> set_profile g n v = Ok g' -> more g g'.
  Proof.
    intros W S Es. destruct (set_profile_inv _ _ _ _ Es) as [f [Ef ->]]. apply more_put; [exact W|].
    apply shaped_set_inner; [exact (proj2 W _ _ Ef)|exact S].
  Qed.
  Lemma more_adds g g' : more g g' -> adds_only g g'.
  Proof.
    intros ((W & R1 & C1 & D1 & L1) & [G1 G2] & Rw). split; [exact W|]. split; [exact R1|]. split; [exact C1|]. split; [exact D1|].
    split; [|split; [|split; [|rewrite L1; auto]]].
    - intros n Hn. destruct (node g n) as [f|] eqn:En; [|congruence]. destruct (G1 n) as [f' Ef]; [exists f; exact En|]. congruence.
    - intros n Hn. destruct (gval g n) as [f|] eqn:En; [|congruence]. destruct (G2 n) as [f' Ef]; [exists f; exact En|]. congruence.
    - intros n. rewrite Rw. auto.
  Qed.
  Lemma more_size g g' : more g g' -> g_rows g' = g_rows g /\ g_cols g' = g_cols g /\ whole_grid g'.
  Proof. intros ((W & R1 & C1 & _) & _). auto. Qed.

  Lemma ensure_keeps g k n f : node g n = Some f -> node (ensure_node g k) n = Some f.
  Proof.
    intros Hn. unfold ensure_node. destruct (has_node g k) eqn:Hk; [exact Hn|]. rewrite node_put_node. destruct (String.eqb n k) eqn:Nk; [|exact Hn].
    apply String.eqb_eq in Nk. subst. unfold has_node, din in Hk. unfold node in Hn. rewrite Hn in Hk. discriminate.
  Qed.

  (* what a WaterFlexure needs of the grid *)
  Definition served (g : grid A) (w : water A) : Prop :=
    shaped (g_rows g) (g_cols g) (df_pool (wf_dyn w)) /\ has g LITHO /\ has g WATER_DEPTH_INC /\ has g BEDROCK_INC
    /\ hasv g "sea_level__increment_of_elevation".
  Lemma served_grows g g' w : g_rows g' = g_rows g -> g_cols g' = g_cols g -> grows g g' -> served g w -> served g' w.
  Proof. intros R1 C1 [G1 G2] (H1 & H2 & H3 & H4 & H5). unfold served. rewrite R1, C1. auto 8. Qed.

  Lemma init_more t (g : grid A) dyn g' : whole_grid g -> water_init t g = Ok (dyn, g') ->
    more g g' /\ (forall n f, node g n = Some f -> node g' n = Some f) /\ (forall k, served g' (mkWater k dyn))
    /\ (forall n v, gval g n = Some v -> gval g' n = Some v).
  Proof.
    intros W Ei. unfold water_init in Ei. cbv zeta in Ei.
    set (g1 := ensure_node g PRESSURE) in *. set (g2 := ensure_node g1 WATER_DEPTH_INC) in *.
    assert (M1 : more g g1) by (apply more_ensure, W). assert (M2 : more g1 g2) by (apply more_ensure, (more_size _ _ M1)).
    set (g3 := match gval g2 "sea_level__increment_of_elevation" with Some _ => g2 | None => _ end) in *.
    assert (M3 : more g2 g3 /\ hasv g3 "sea_level__increment_of_elevation" /\ (forall n, node g3 n = node g2 n) /\ forall n v, gval g2 n = Some v -> gval g3 n = Some v).
    { unfold g3. destruct (gval g2 _) as [s|] eqn:Es; [split; [apply more_refl, (more_size _ _ M2)|]; split; [exists s; exact Es|]; auto|].
      split; [apply more_gval, (more_size _ _ M2)|]. split; [exists n0; rewrite gval_put_gval; reflexivity|]. split; [reflexivity|].
      intros n v Hv. rewrite gval_put_gval. destruct (String.eqb n _) eqn:N; [|exact Hv]. apply String.eqb_eq in N. congruence. }
    destruct M3 as (M3 & V3 & N3 & V3'). unfold dyn_init in Ei. steps Ei. steps K. injection K as <-. injection Ei as <- <-.
    set (g4 := ensure_node g3 LITHO) in *. set (g5 := ensure_node g4 BEDROCK_INC) in *.
    assert (M4 : more g3 g4) by (apply more_ensure, (more_size _ _ M3)). assert (M5 : more g4 g5) by (apply more_ensure, (more_size _ _ M4)).
    pose proof (more_trans _ _ _ M1 (more_trans _ _ _ M2 (more_trans _ _ _ M3 (more_trans _ _ _ M4 M5)))) as M.
    split; [exact M|]. split; [|split].
    - intros n f Hn. apply ensure_keeps, ensure_keeps. rewrite N3. apply ensure_keeps, ensure_keeps, Hn.
    - intros k. pose proof (more_trans _ _ _ M4 M5) as M35.
      destruct (more_size _ _ M35) as (R5 & C5 & _). unfold served. cbn [wf_dyn df_pool]. rewrite R5, C5. split; [apply shaped_full|].
      split; [apply (proj1 (proj1 (proj2 M5))), has_ensure|]. split; [|split].
      + apply (proj1 (proj1 (proj2 M35))). destruct (has_ensure g1 WATER_DEPTH_INC) as [f Hf]. exists f. rewrite N3. exact Hf.
      + apply has_ensure.
      + apply (proj2 (proj1 (proj2 M35))), V3.
    - intros n v Hv. assert (En : forall (h : grid A) q, gval (ensure_node h q) n = gval h n) by (intros h q; unfold ensure_node; destruct (has_node h q); reflexivity).
      unfold g5, g4. rewrite !En. apply V3'. unfold g2, g1. rewrite !En. exact Hv.
  Qed.

  (* a step changes two fields *)
  Lemma step_fields dt w (g : grid A) w' g' : water_step P dt (w, g) = Ok (w', g') ->
    (forall n, n <> LITHO -> n <> BEDROCK_INC -> node g' n = node g n) /\ (forall n, gval g' n = gval g n) /\ layers g' = layers g.
  Proof.
    intros Es. unfold water_step in Es. cbv zeta in Es. destruct (is_shaped _ _ _); [|discriminate]. cbn [negb] in Es.
    steps Es. destruct a as [dyn h]. injection Es as <- <-. unfold water_flexure_step in K. steps K.
    destruct (calc_dynamic_deflection _ _ dt) as [c out]. steps K. injection K as <- <-.
    repeat match goal with H : set_profile _ _ _ = Ok _ |- _ => destruct (set_profile_inv _ _ _ _ H) as [? [_ ->]]; clear H end.
    split; [|split; reflexivity]. intros n N1 N2. rewrite !node_put_node.
    rewrite (proj2 (String.eqb_neq n BEDROCK_INC) N2), (proj2 (String.eqb_neq n LITHO) N1). reflexivity.
  Qed.
  Lemma step_more dt w (g : grid A) w' g' : whole_grid g -> water_step P dt (w, g) = Ok (w', g') ->
    more g g' /\ shaped (g_rows g') (g_cols g') (df_pool (wf_dyn w')).
  Proof.
    intros W Es. unfold water_step in Es. cbv zeta in Es. destruct (is_shaped _ _ _) eqn:Sp; [|discriminate]. cbn [negb] in Es.
    apply is_shaped_iff in Sp. steps Es. destruct a as [dyn h]. injection Es as <- <-. cbn [wf_dyn].
    unfold water_flexure_step in K. steps K. destruct (calc_dynamic_deflection _ _ dt) as [c out] eqn:Ed. steps K.
    match goal with H : set_profile _ BEDROCK_INC _ = Ok ?r |- _ => rename H into Sb; rename r into h1 end.
    match goal with H : set_profile _ LITHO _ = Ok ?r |- _ => rename H into Sl; rename r into g1 end.
    match goal with H : get_profile g LITHO = Ok ?r |- _ => rename H into Gl; rename r into li end.
    match goal with H : get_profile _ "water__increment_of_depth" = Ok ?r |- _ => rename H into Gw; rename r into wd end.
    match goal with H : get_profile _ BEDROCK_INC = Ok ?r |- _ => rename H into Gb; rename r into bi end.
    injection K as <- <-.
    assert (M1 : more g g1) by (refine (more_profile _ _ _ _ W _ Sl); apply shaped_fmap, (profile_shaped _ _ _ W Gl)).
    destruct (more_size _ _ M1) as (R1 & C1 & W1).
    pose proof (profile_shaped _ _ _ W1 Gw) as Sw. pose proof (profile_shaped _ _ _ W1 Gb) as Sbi.
    unfold calc_dynamic_deflection in Ed. cbv zeta in Ed. injection Ed as <- <-. cbn [df_pool].
    match goal with |- context [fmap2 nadd (df_pool (wf_dyn w)) ?q] => set (iso := q) in * end.
    assert (Si : shaped (g_rows g) (g_cols g) iso).
    { unfold iso, calc_flexure_due_to_water. cbv zeta. set (half := calc_half_plane_deflection _ _ _ _).
      assert (Lh : length half = g_cols g) by (unfold half, calc_half_plane_deflection; rewrite map_length, x_length; exact C1).
      apply shaped_rows; [apply HP, shaped_fmap; rewrite <- R1, <- C1; exact Sw|]. intros r Hr. rewrite zipw_length, Hr, Lh. lia. }
    assert (So : shaped (g_rows g) (g_cols g) (fmap2 nadd (df_pool (wf_dyn w)) iso)) by (apply shaped_fmap2; assumption).
    assert (M2 : more g1 h1).
    { refine (more_profile _ _ _ _ W1 _ Sb). rewrite R1, C1. apply shaped_fmap2; [rewrite <- R1, <- C1; exact Sbi|]. apply shaped_fmap, So. }
    pose proof (more_trans _ _ _ M1 M2) as M. destruct (more_size _ _ M) as (R2 & C2 & _).
    split; [exact M|]. rewrite R2, C2. apply shaped_fmap2; [exact So|]. apply shaped_fmap, So.
  Qed.
  (* and never fails on a grid that serves it *)
  Lemma step_total dt w (g : grid A) : served g w -> exists w' g', water_step P dt (w, g) = Ok (w', g').
  Proof.
    intros (S & [li Hl] & [wd Hw] & [bi Hb] & [s Hs]). unfold water_step. rewrite (proj2 (is_shaped_iff _ _ _) S). cbn [negb].
    unfold water_flexure_step. rewrite (get_profile_ok g LITHO li Hl). cbn [bind]. rewrite (set_profile_ok g LITHO li _ Hl). cbn [bind].
    set (g1 := put_node g LITHO _). unfold gval_r. change (gval g1 ?n) with (gval g n). rewrite Hs. cbn [bind].
    assert (Hw1 : node g1 "water__increment_of_depth" = Some wd) by (unfold g1; rewrite node_put_node; exact Hw).
    assert (Hb1 : node g1 BEDROCK_INC = Some bi) by (unfold g1; rewrite node_put_node; exact Hb).
    rewrite (get_profile_ok g1 _ wd Hw1). cbn [bind]. destruct (calc_dynamic_deflection _ _ dt) as [c out].
    rewrite (get_profile_ok g1 _ bi Hb1). cbn [bind]. rewrite (set_profile_ok g1 _ bi _ Hb1). cbn [bind]. eauto.
  Qed.
  Lemma set_grid n v w (g : grid A) w' g' : water_set n v (w, g) = Ok (w', g') -> g' = g /\ wf_dyn w' = wf_dyn w.
  Proof.
    unfold water_set. intros Es. destruct (String.eqb n _); [discriminate|]. destruct (existsb _ _); injection Es as <- <-; auto.
  Qed.

  Ltac cases Y x := cbn [with_water ex_step ex_set ex_make fst snd] in Y; destruct x as [w|x]; steps Y; match type of Y with (let (_, _) := ?q in _) = _ => destruct q as [? ?] end; injection Y as <- <-.

  Theorem water_behaved : well_behaved E -> well_behaved (with_water P E).
  Proof.
    intros WB. constructor.
    - exact (wb_interp1d E WB).
    - exact (wb_diffuse E WB).
    - exact (wb_flexure E WB).
    - intros cls ps g x g' W Y. cbn [with_water ex_make] in Y. destruct (String.eqb cls "WaterFlexure"); steps Y; destruct a as [q h]; injection Y as <- <-.
      + unfold water_make in K. destruct (negb _); [discriminate|]. steps K. destruct a0 as [dyn h1]. injection K as <- <-.
        destruct (init_more _ _ _ _ W K1) as (M & N & _). split; [apply more_adds, M|]. split; [apply M|exact N].
      + exact (wb_make E WB _ _ _ _ _ W K).
    - intros dt x g x' g' W Y. cases Y x.
      + apply more_adds. exact (proj1 (step_more _ _ _ _ _ W K)).
      + exact (wb_step E WB _ _ _ _ _ W K).
    - intros n v x g x' g' W Y. cases Y x.
      + destruct (set_grid _ _ _ _ _ _ K) as [-> _]. split; [apply more_adds, more_refl, W|]. auto.
      + exact (wb_set E WB _ _ _ _ _ _ W K).
  Qed.

  Theorem water_leaves_sea : leaves_sea E -> leaves_sea (with_water P E).
  Proof.
    intros L dt x g x' g' Y. cases Y x.
    - destruct (step_fields _ _ _ _ _ K) as (_ & V & _). rewrite !V. auto.
    - exact (L _ _ _ _ _ K).
  Qed.
  Theorem water_leaves_counts : leaves_counts E -> leaves_counts (with_water P E).
  Proof.
    intros L dt x g x' g' Y. cases Y x.
    - destruct (step_fields _ _ _ _ _ K) as (_ & _ & Ly). unfold counts. rewrite Ly. auto.
    - exact (L _ _ _ _ _ K).
  Qed.
  Theorem water_leaves_elevation : leaves_elevation E -> leaves_elevation (with_water P E).
  Proof.
    intros L dt x g x' g' Y. cases Y x.
    - destruct (step_fields _ _ _ _ _ K) as (N & _). apply N; discriminate.
    - exact (L _ _ _ _ _ K).
  Qed.

  Lemma sg_water_step dt w g g' : same_grid g g' ->
    match water_step P dt (w, g), water_step P dt (w, g') with
    | Ok (y, h), Ok (y', h') => y = y' /\ same_grid h h' | Err e, Err e' => e = e' | _, _ => False end.
  Proof.
    intros S. unfold water_step. cbv zeta. rewrite (sg_columns _ _ S). assert (R1 : g_rows g' = g_rows g /\ g_cols g' = g_cols g) by (destruct S as ((? & ? & _) & _); split; congruence).
    destruct R1 as [-> ->]. destruct (negb _); [reflexivity|]. unfold water_flexure_step. rewrite (sg_profile _ _ LITHO S). destruct (get_profile g LITHO) as [li|]; [|reflexivity]. cbn [bind].
    pose proof (sg_set _ _ LITHO (fmap (fun _ => n0) li) S) as S1. destruct (set_profile g LITHO _) as [g1|], (set_profile g' LITHO _) as [g1'|]; cbn in S1; try contradiction; [|exact S1].
    cbn [bind]. rewrite (sg_gval_r _ _ _ S1), (sg_profile _ _ "water__increment_of_depth" S1), (sg_profile _ _ BEDROCK_INC S1), (sg_columns _ _ S1).
    assert (Dx : g_dx g1' = g_dx g1) by (destruct S1 as ((_ & _ & _ & ?) & _); congruence). rewrite Dx.
    destruct (gval_r g1 _); [|reflexivity]. cbn [bind]. destruct (get_profile g1 "water__increment_of_depth"); [|reflexivity]. cbn [bind].
    destruct (calc_dynamic_deflection _ _ dt) as [c out]. destruct (get_profile g1 BEDROCK_INC) as [bi|]; [|reflexivity]. cbn [bind].
    pose proof (sg_set _ _ BEDROCK_INC (fmap2 nsub bi out) S1) as S2. destruct (set_profile g1 BEDROCK_INC _) as [g2|], (set_profile g1' BEDROCK_INC _) as [g2'|]; cbn in S2; try contradiction; [|exact S2].
    cbn [bind]. auto.
  Qed.
  Theorem water_uses_values : uses_values E -> uses_values (with_water P E).
  Proof.
    intros [U1 U2]. split.
    - intros dt x g g' S. cbn [with_water ex_step fst snd]. destruct x as [w|x].
      + pose proof (sg_water_step dt w g g' S) as Y. destruct (water_step P dt (w, g)) as [[]|], (water_step P dt (w, g')) as [[]|]; cbn [bind]; try contradiction; [|exact Y].
        destruct Y as [-> Y]. auto.
      + pose proof (U1 dt x g g' S) as Y. destruct (ex_step E dt (x, g)) as [[]|], (ex_step E dt (x, g')) as [[]|]; cbn [bind]; try contradiction; [|exact Y].
        destruct Y as [-> Y]. auto.
    - intros n v x g g' S. cbn [with_water ex_set fst snd]. destruct x as [w|x].
      + unfold water_set. destruct (String.eqb n _); [reflexivity|]. destruct (existsb _ _); cbn [bind]; auto.
      + pose proof (U2 n v x g g' S) as Y. destruct (ex_set E n v (x, g)) as [[]|], (ex_set E n v (x, g')) as [[]|]; cbn [bind]; try contradiction; [|exact Y].
        destruct Y as [-> Y]. auto.
  Qed.
End P.
