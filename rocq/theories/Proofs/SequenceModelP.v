(** Facts about SequenceModel. *)
From Coq Require Import String List ZArith QArith Reals Lra Lia Arith Bool Permutation.
From Verif.Base Require Import Num Py Arr.
From Verif.Model Require Import Layers Grid Archive Flexure Sequence SequenceModel.
From Verif.Spec Require Import Strata Column.
From Verif.Proofs Require Import GridP LayersP FlexureP SequenceP.
Import ListNotations.

Section Any.
  Context {A : Type} `{Num A} {W : Type}.

  Lemma gval_r_ok (g : grid A) n v : gval_r g n = Ok v -> gval g n = Some v.
  Proof. unfold gval_r. destruct (gval g n); [intros E; injection E as ->; reflexivity|discriminate]. Qed.
  Lemma get_profile_inv (g : grid A) n v : get_profile g n = Ok v -> exists f, node g n = Some f /\ v = inner f.
  Proof. unfold get_profile. intros E. okinv E Ef. injection E as <-. apply node_r_ok in Ef. eauto. Qed.
  Lemma set_profile_inv (g g' : grid A) n v : set_profile g n v = Ok g' ->
    exists f, node g n = Some f /\ g' = put_node g n (set_inner f v).
  Proof. unfold set_profile. intros E. okinv E Ef. injection E as <-. apply node_r_ok in Ef. eauto. Qed.

  (* only the node fields [names] differ *)
  Definition same_but (names : list string) (g g' : grid A) : Prop :=
    g_rows g' = g_rows g /\ g_cols g' = g_cols g /\ layers g' = layers g
    /\ (forall n, gval g' n = gval g n) /\ (forall n, ~ In n names -> node g' n = node g n).
  Lemma same_but_refl names g : same_but names g g.
  Proof. repeat split; reflexivity. Qed.
  Lemma same_but_trans names g1 g2 g3 : same_but names g1 g2 -> same_but names g2 g3 -> same_but names g1 g3.
  Proof.
    intros [A1 [A2 [A3 [A4 A5]]]] [B1 [B2 [B3 [B4 B5]]]].
    split; [congruence|]. split; [congruence|]. split; [congruence|].
    split; [intros n; rewrite B4; apply A4|]. intros n Hn. rewrite (B5 n Hn). apply A5. exact Hn.
  Qed.
  Lemma same_but_incl names names' g g' : incl names names' -> same_but names g g' -> same_but names' g g'.
  Proof.
    intros I [A1 [A2 [A3 [A4 A5]]]]. repeat (split; [assumption|]). intros n Hn. apply A5. intros X. apply Hn, I, X.
  Qed.
  Lemma same_but_put g n f : same_but [n] g (put_node g n f).
  Proof.
    repeat (split; [reflexivity|]). intros n' Hn. rewrite node_put_node.
    destruct (String.eqb_spec n' n) as [->|]; [|reflexivity]. destruct Hn. left. reflexivity.
  Qed.

  Lemma whole_put (g : grid A) n f : shaped (g_rows g + 2) (g_cols g) f -> whole_grid g -> whole_grid (put_node g n f).
  Proof.
    intros Hf [Hg Hn]. split; [apply model_grid_put; assumption|]. intros name f'. rewrite node_put_node.
    destruct (String.eqb name n); [intros E; injection E as <-; exact Hf|apply Hn].
  Qed.
  Lemma whole_layers (g : grid A) el : shaped (g_rows g) (g_cols g - 2) (el_stacks el) ->
    whole_grid g -> whole_grid (set_layers g el).
  Proof.
    intros Hs [[H1 [H2 [H3 [H4 H5]]]] Hn]. split; [|exact Hn].
    split; [exact H1|]. split; [exact H2|]. split; [exact H3|]. split; [exact H4|]. exact Hs.
  Qed.
  Lemma whole_set_profile (g g' : grid A) n v : whole_grid g -> shaped (g_rows g) (g_cols g) v ->
    set_profile g n v = Ok g' ->
    whole_grid g' /\ same_but [n] g g' /\ node g' n <> None
    /\ forall f f' i j, node g n = Some f -> node g' n = Some f' -> (i < g_rows g)%nat -> (j < g_cols g)%nat ->
         at2 n0 f' (S i) j = at2 n0 v i j.
  Proof.
    intros Hw Hv E. destruct (set_profile_inv _ _ _ _ E) as [f [Ef ->]].
    assert (Hf := proj2 Hw _ _ Ef).
    split; [apply whole_put; [apply shaped_set_inner; assumption|exact Hw]|].
    split; [apply same_but_put|]. split; [rewrite node_put_same; discriminate|].
    intros f0 f' i j Ef0 E'. rewrite node_put_same in E'. injection E' as <-. intros Hi Hj.
    rewrite (at2_set_inner (g_rows g) (g_cols g)) by (assumption || lia).
    replace (Nat.leb 1 (S i) && Nat.leb (S i) (g_rows g))%bool with true.
    - cbn [Nat.sub]. rewrite Nat.sub_0_r. reflexivity.
    - symmetry. rewrite andb_true_iff. split; apply Nat.leb_le; lia.
  Qed.

  Lemma update_load_spec (g g' : grid A) : whole_grid g -> update_load g = Ok g' ->
    whole_grid g' /\ same_but [TOTAL_LOAD] g g'.
  Proof.
    intros Hw E. unfold update_load in E. destruct (has_node g TOTAL_LOAD).
    2:{ injection E as <-. split; [exact Hw|apply same_but_refl]. }
    okinv E E1. okinv E E2. okinv E E3. okinv E E4. okinv E E5. okinv E E6.
    destruct (get_profile_inv _ _ _ E1) as [dz [Ed ->]]. destruct (get_profile_inv _ _ _ E2) as [z [Ez ->]].
    destruct (get_profile_inv _ _ _ E4) as [sand [Es ->]]. destruct (get_profile_inv _ _ _ E6) as [t [Et ->]].
    assert (P := fun n f X => shaped_inner _ _ _ (proj2 Hw n f X)).
    assert (Hdz := P _ _ Ed). assert (Hz := P _ _ Ez). assert (Hs := P _ _ Es). assert (Ht := P _ _ Et).
    refine (let X := whole_set_profile g g' _ _ Hw _ E in conj (proj1 X) (proj1 (proj2 X))).
    apply shaped_fmap2; [exact Ht|]. apply shaped_of_nth.
    - rewrite (mapM_length _ _ _ E5), !combine_length, (shaped_len _ _ _ Hdz), (shaped_len _ _ _ Hz), (shaped_len _ _ _ Hs). lia.
    - intros i Hi.
      pose proof (mapM_nth _ _ _ (([], []), []) [] E5 i) as Hn. cbv beta in Hn.
      rewrite !combine_length, (shaped_len _ _ _ Hdz), (shaped_len _ _ _ Hz), (shaped_len _ _ _ Hs) in Hn.
      specialize (Hn ltac:(lia)). unfold calc_loading in Hn. apply mapM_length in Hn.
      rewrite Hn, !combine_length, !map_length, !combine_nth
        by (rewrite ?combine_length, ?(shaped_len _ _ _ Hdz), ?(shaped_len _ _ _ Hz), ?(shaped_len _ _ _ Hs); lia).
      cbn [fst snd]. rewrite (shaped_nth _ _ _ _ Hdz Hi), (shaped_nth _ _ _ _ Hz Hi), (shaped_nth _ _ _ _ Hs Hi). lia.
  Qed.

  Lemma apply_increment_spec (g g' : grid A) : whole_grid g -> apply_increment g = Ok g' ->
    whole_grid g' /\ same_but ["bedrock_surface__elevation"%string; BEDROCK_INC] g g'
    /\ (node g BEDROCK_INC = None -> g' = g)
    /\ forall inc, node g BEDROCK_INC = Some inc -> exists z0 z0' inc',
         node g "bedrock_surface__elevation" = Some z0
         /\ node g' "bedrock_surface__elevation" = Some z0' /\ node g' BEDROCK_INC = Some inc'
         /\ forall i j, (i < g_rows g + 2)%nat -> (j < g_cols g)%nat ->
              at2 n0 z0' i j = nadd (at2 n0 z0 i j) (at2 n0 inc i j) /\ at2 n0 inc' i j = n0.
  Proof.
    intros Hw E. unfold apply_increment, has_node, din in E. fold (node g BEDROCK_INC) in E.
    destruct (node g BEDROCK_INC) as [inc0|] eqn:Ei.
    2:{ injection E as <-. split; [exact Hw|]. split; [apply same_but_refl|]. split; [reflexivity|].
        intros inc X. discriminate X. }
    okinv E E0. apply node_r_ok in E0. unfold node_r in E. rewrite Ei in E. cbn [bind] in E. injection E as <-.
    assert (H0 := proj2 Hw _ _ E0). assert (Hi := proj2 Hw _ _ Ei).
    split; [|split; [|split; [intros X; discriminate X|]]].
    - apply whole_put; [apply shaped_fmap; exact Hi|]. apply whole_put; [apply shaped_fmap2; assumption|exact Hw].
    - eapply same_but_trans; (eapply same_but_incl; [|apply same_but_put]).
      + intros x [<-|[]]. left. reflexivity.
      + intros x [<-|[]]. right. left. reflexivity.
    - intros inc X. injection X as <-. eexists _, _, _. split; [exact E0|].
      split; [rewrite node_put_node; eqb_lit; apply node_put_same|]. split; [apply node_put_same|].
      intros i j Hi' Hj. split.
      + apply (at2_fmap2 _ (g_rows g + 2) (g_cols g)); assumption.
      + apply (at2_fmap (fun _ : A => n0) (g_rows g + 2) (g_cols g) _ n0); assumption.
  Qed.

  Lemma settle_whole (g g' : grid A) : whole_grid g -> settle g = Ok g' ->
    whole_grid g' /\ same_but ["topographic__elevation"%string] g g' /\ balanced g'.
  Proof.
    intros Hw E. destruct (settle_spec _ _ E) as [z [z0 [Ez [E0 Eg]]]].
    destruct (settle_ok g (proj1 Hw)) as [g'' [E' [_ [_ [_ [B _]]]]]]. rewrite E in E'. injection E' as <-.
    subst g'. split; [|split; [apply same_but_put|exact B]].
    apply whole_put; [|exact Hw]. assert (Hc := proj1 (proj1 Hw)).
    apply shaped_set_cells'; [exact Hc|exact (proj2 Hw _ _ Ez)|].
    apply shaped_fmap2; [apply shaped_cells'; [exact Hc|exact (proj2 Hw _ _ E0)]|].
    apply shaped_fmap. apply Hw.
  Qed.

  Lemma profile_depth_spec (g : grid A) d : whole_grid g -> profile_depth g = Ok d -> exists sea z,
    gval g "sea_level__elevation" = Some sea /\ node g "topographic__elevation" = Some z
    /\ shaped (g_rows g) (g_cols g) d
    /\ forall i j, (i < g_rows g)%nat -> (j < g_cols g)%nat -> at2 n0 d i j = nmax (nsub sea (at2 n0 z (S i) j)) n0.
  Proof.
    intros Hw E. unfold profile_depth in E. okinv E Es. okinv E Ez. injection E as <-. apply gval_r_ok in Es.
    destruct (get_profile_inv _ _ _ Ez) as [z [Ez' ->]]. exists a, z. split; [exact Es|]. split; [exact Ez'|].
    assert (Hz := proj2 Hw _ _ Ez').
    split; [apply shaped_fmap, shaped_inner; exact Hz|]. intros i j Hi Hj.
    rewrite (at2_fmap _ (g_rows g) (g_cols g) _ n0) by (try apply shaped_inner; assumption).
    rewrite (at2_inner (g_rows g) (g_cols g)) by assumption. reflexivity.
  Qed.

  Definition touched : list string :=
    [TOTAL_LOAD; "bedrock_surface__elevation"%string; BEDROCK_INC; "topographic__elevation"%string; WATER_DEPTH_INC].

  (* the stages of _update_fields *)
  Lemma update_fields_stages (g g' : grid A) : whole_grid g -> update_fields g = Ok g' ->
    exists g1 g2 g3 old new, profile_depth g = Ok old /\ update_load g = Ok g1 /\ apply_increment g1 = Ok g2
      /\ settle g2 = Ok g3 /\ profile_depth g3 = Ok new
      /\ (whole_grid g1 /\ whole_grid g2 /\ whole_grid g3)
      /\ (if has_node g3 WATER_DEPTH_INC then set_profile g3 WATER_DEPTH_INC (fmap2 nsub new old) = Ok g' else g' = g3)
      /\ whole_grid g' /\ same_but [WATER_DEPTH_INC] g3 g'.
  Proof.
    intros Hw E. unfold update_fields in E. okinv E E1. okinv E E2. okinv E E3. okinv E E4. okinv E E5.
    destruct (update_load_spec _ _ Hw E2) as [Hw1 S1].
    destruct (apply_increment_spec _ _ Hw1 E3) as [Hw2 [S2 _]].
    destruct (settle_whole _ _ Hw2 E4) as [Hw3 [S3 _]].
    exists a0, a1, a2, a, a3. do 5 (split; [assumption || reflexivity|]). split; [auto|].
    destruct (has_node a2 WATER_DEPTH_INC); [|injection E as <-; split; [reflexivity|]; split; [exact Hw3|apply same_but_refl]].
    split; [exact E|].
    destruct (profile_depth_spec _ _ Hw E1) as [_ [_ [_ [_ [Sh1 _]]]]].
    destruct (profile_depth_spec _ _ Hw3 E5) as [_ [_ [_ [_ [Sh3 _]]]]].
    assert (X : shaped (g_rows a2) (g_cols a2) (fmap2 nsub a3 a)).
    { apply shaped_fmap2; [exact Sh3|].
      destruct S1 as [R1 [C1 _]], S2 as [R2 [C2 _]], S3 as [R3 [C3 _]]. rewrite R3, R2, R1, C3, C2, C1. exact Sh1. }
    destruct (whole_set_profile _ _ _ _ Hw3 X E) as [Y1 [Y2 _]]. auto.
  Qed.

  Lemma same_but_balanced names (g g' : grid A) : same_but names g g' ->
    ~ In "topographic__elevation"%string names -> ~ In "bedrock_surface__elevation"%string names ->
    balanced g -> balanced g'.
  Proof.
    intros [R1 [C1 [L1 [_ N]]]] H1 H2 B z z0 i j Ez E0 Hi Hj. rewrite N in Ez, E0 by assumption.
    rewrite R1 in Hi. rewrite C1 in Hj. rewrite L1. apply B; assumption.
  Qed.

  Lemma update_fields_whole (g g' : grid A) : whole_grid g -> update_fields g = Ok g' ->
    whole_grid g' /\ same_but touched g g' /\ balanced g'.
  Proof.
    intros Hw E.
    destruct (update_fields_stages _ _ Hw E) as [g1 [g2 [g3 [old [new [E1 [E2 [E3 [E4 [E5 [[H1 [H2 H3]] [_ [Hw' S4]]]]]]]]]]]]].
    destruct (update_load_spec _ _ Hw E2) as [_ S1].
    destruct (apply_increment_spec _ _ H1 E3) as [_ [S2 _]].
    destruct (settle_whole _ _ H2 E4) as [_ [S3 B3]].
    split; [exact Hw'|]. split.
    - eapply same_but_trans; [eapply same_but_incl; [|exact S1]|];
      [|eapply same_but_trans; [eapply same_but_incl; [|exact S2]|];
      [|eapply same_but_trans; [eapply same_but_incl; [|exact S3]|eapply same_but_incl; [|exact S4]]]];
      intros x; cbn; tauto.
    - refine (same_but_balanced _ _ _ S4 _ _ B3); intros [X|[]]; discriminate X.
  Qed.

  Lemma components_whole (components : list (component A W)) dt w g w' g' :
    Forall keeps_whole components -> whole_grid g -> run_components components dt (w, g) = Ok (w', g') ->
    whole_grid g' /\ g_rows g' = g_rows g /\ g_cols g' = g_cols g.
  Proof.
    intros Hk. revert w g. induction Hk as [|c cs Hc Hk IH]; intros w g Hg E.
    - cbn in E. injection E as <- <-. auto.
    - unfold run_components in E. cbn [foldM] in E.
      destruct (c dt (w, g)) as [[w1 g1]|] eqn:E1; [|discriminate]. cbn [bind] in E.
      destruct (Hc _ _ _ _ _ Hg E1) as [Hg1 [R1 C1]].
      destruct (IH w1 g1 Hg1 E) as [Hg2 [R2 C2]]. split; [exact Hg2|]. split; congruence.
  Qed.

  Lemma clear_whole (g g' : grid A) : whole_grid g -> clear_deposit g = Ok g' ->
    whole_grid g' /\ same_but ["sediment_deposit__thickness"%string] g g'.
  Proof.
    intros Hw E. destruct (clear_spec _ _ E) as [dz [Ed ->]]. split; [|apply same_but_put].
    apply whole_put; [apply shaped_fmap; exact (proj2 Hw _ _ Ed)|exact Hw].
  Qed.

  (* the stages of a step *)
  Lemma advance_stages (pr : processes A W) dt (m m' : smodel A W) :
    Forall keeps_whole (pr_components pr) -> whole_grid (sm_grid m) -> advance_components pr dt m = Ok m' ->
    exists g0 g1 dz props el g2,
      clear_deposit (sm_grid m) = Ok g0 /\ whole_grid g0
      /\ run_components (pr_components pr) dt (sm_world m, g0) = Ok (sm_world m', g1) /\ whole_grid g1
      /\ g_rows g1 = g_rows (sm_grid m) /\ g_cols g1 = g_cols (sm_grid m)
      /\ node g1 "sediment_deposit__thickness" = Some dz
      /\ layer_properties (ck_time (sm_clock m)) (pr_porosity pr (sm_world m')) g1 = Ok props
      /\ el_add (cells dz) props (layers g1) = Ok el
      /\ whole_grid (set_layers g1 el)
      /\ update_fields (set_layers g1 el) = Ok g2 /\ whole_grid g2 /\ same_but touched (set_layers g1 el) g2
      /\ balanced g2 /\ whole_grid (sm_grid m')
      /\ sm_grid m' = set_layers g2 (snd (archive (sm_archived m, el)))
      /\ sm_archived m' = fst (archive (sm_archived m, el)) /\ sm_clock m' = sm_clock m.
  Proof.
    intros Hk Hw E. unfold advance_components in E. okinv E E0.
    destruct (run_components (pr_components pr) dt (sm_world m, a)) as [[w g1]|] eqn:Er; [|discriminate E]. cbn [bind] in E.
    okinv E E1. okinv E E2. okinv E E3. okinv E E4.
    destruct (clear_whole _ _ Hw E0) as [Hw0 S0]. destruct (components_whole _ _ _ _ _ _ Hk Hw0 Er) as [Hw1 [R1 C1]].
    apply node_r_ok in E1.
    assert (Hwl : whole_grid (set_layers g1 a2)).
    { apply whole_layers; [|exact Hw1]. eapply el_add_shaped; [exact E3|]. apply Hw1. }
    destruct (update_fields_whole _ _ Hwl E4) as [Hw2 [S2 B2]].
    assert (L2 : layers a3 = a2) by (apply S2).
    rewrite L2 in E. destruct (archive (sm_archived m, a2)) as [na el'] eqn:Ea. injection E as <-.
    exists a, g1, a0, a1, a2, a3. rewrite Ea. cbn [sm_world sm_grid sm_clock sm_archived fst snd].
    do 4 (split; [assumption || reflexivity|]).
    split; [rewrite R1; apply S0|]. split; [rewrite C1; apply S0|].
    do 6 (split; [assumption || reflexivity|]). split; [exact S2|]. split; [exact B2|].
    split; [|auto].
    apply whole_layers; [|exact Hw2]. change el' with (snd (na, el')). rewrite <- Ea. apply archive_shaped.
    cbn [snd]. rewrite <- L2. apply Hw2.
  Qed.
End Any.

(** ** balance *)
Section Balance.
  Context {W : Type}.
  Local Open Scope R_scope.

  Lemma archive_thick (st : nat * event_layers R) n m i j : shaped n m (el_stacks (snd st)) -> (i < n)%nat -> (j < m)%nat ->
    stack_thickness (at2 [] (el_stacks (snd (archive st))) i j) = stack_thickness (at2 [] (el_stacks (snd st)) i j).
  Proof.
    intros Hs Hi Hj. destruct st as [a el]. cbn [snd] in *. unfold archive. destruct (_ =? 0)%Z; [|reflexivity].
    cbn [snd el_reduce el_stacks].
    etransitivity; [apply f_equal; apply (at2_fmap (A:=stack R) (B:=stack R) _ n m _ []); assumption|].
    rewrite !thickness_R. apply reduce_thick. lia.
  Qed.

  Lemma advance_balanced (pr : processes R W) dt (m m' : smodel R W) :
    Forall keeps_whole (pr_components pr) -> whole_grid (sm_grid m) -> advance_components pr dt m = Ok m' ->
    whole_grid (sm_grid m') /\ balanced (sm_grid m')
    /\ g_rows (sm_grid m') = g_rows (sm_grid m) /\ g_cols (sm_grid m') = g_cols (sm_grid m).
  Proof.
    intros Hk Hw E.
    destruct (advance_stages pr dt m m' Hk Hw E)
      as [g0 [g1 [dz [props [el [g2 [_ [_ [_ [_ [R1 [C1 [_ [_ [_ [_ [_ [Hw2 [S2 [B2 [Hw' [Eg _]]]]]]]]]]]]]]]]]]]]]].
    split; [exact Hw'|].
    assert (L : layers g2 = el) by apply S2.
    split; [|rewrite Eg; cbn [set_layers g_rows g_cols]; destruct S2 as [R2 [C2 _]]; cbn [set_layers g_rows g_cols] in R2, C2; split; congruence].
    rewrite Eg. intros z z0 i j Ez E0 Hi Hj. cbn [set_layers g_rows g_cols layers] in *.
    rewrite (archive_thick _ (g_rows g2) (g_cols g2 - 2)); [|cbn [snd]; rewrite <- L; apply Hw2|assumption|assumption].
    cbn [snd]. rewrite <- L. apply B2; assumption.
  Qed.

  Definition fine (m : smodel R W) : Prop := whole_grid (sm_grid m) /\ balanced (sm_grid m).

  Lemma step_balanced (pr : processes R W) dt (m : smodel R W) :
    Forall keeps_whole (pr_components pr) -> whole_grid (sm_grid m) ->
    match run_one_step pr dt m with
    | Stepped m' => fine m'
    | ClockStop m' => sm_grid m' = sm_grid m /\ sm_world m' = sm_world m
    | Raised _ => True
    end.
  Proof.
    intros Hk Hw. unfold run_one_step, clock_advance.
    destruct (match ck_stop (sm_clock m) with Some s => _ | None => _ end); [split; reflexivity|].
    destruct (advance_components _ _ _) as [m'|] eqn:E; [|exact I].
    pose proof (fun Hw' => advance_balanced pr _ _ m' Hk Hw' E) as X. destruct (X Hw) as [H1 [H2 _]]. split; assumption.
  Qed.

  Lemma run_balanced (pr : processes R W) fuel : Forall keeps_whole (pr_components pr) -> forall m m',
    fine m -> model_run fuel pr m = Some (Ok m') -> fine m'.
  Proof.
    intros Hk. induction fuel as [|fuel IH]; intros m m' Hm E; [discriminate|]. cbn [model_run] in E.
    pose proof (step_balanced pr None m Hk (proj1 Hm)) as X.
    destruct (run_one_step pr None m) as [m1|m1|e]; [|injection E as <-|discriminate].
    - exact (IH m1 m' X E).
    - destruct X as [X _]. unfold fine. rewrite X. exact Hm.
  Qed.

  Lemma calls_balanced (pr : processes R W) calls : Forall keeps_whole (pr_components pr) -> forall m m',
    fine m -> model_calls pr calls m = Some m' -> fine m'.
  Proof.
    intros Hk. induction calls as [|c calls IH]; intros m m' Hm E; [injection E as <-; exact Hm|].
    cbn [model_calls] in E. destruct (model_exec pr m c) as [m1|] eqn:E1; [|discriminate].
    apply (IH m1 m'); [|exact E]. destruct c as [dt|fuel|f]; cbn [model_exec] in E1.
    - pose proof (step_balanced pr dt m Hk (proj1 Hm)) as X.
      destruct (run_one_step pr dt m) as [m2|m2|e]; [| |discriminate]; injection E1 as <-; [exact X|].
      destruct X as [X _]. unfold fine. rewrite X. exact Hm.
    - destruct (model_run fuel pr m) as [[m2|]|] eqn:Er; try discriminate. injection E1 as <-.
      eapply run_balanced; eassumption.
    - destruct (f (sm_world m)); [|discriminate]. injection E1 as <-. exact Hm.
  Qed.

  Lemma init_spec (pr : processes R W) w (g : grid R) c m : whole_grid g -> model_init pr w g c = Ok m ->
    whole_grid (sm_grid m) /\ g_rows (sm_grid m) = g_rows g /\ g_cols (sm_grid m) = g_cols g
    /\ sm_clock m = c /\ sm_archived m = 0%nat /\ sm_world m = pr_set_sea_time pr (ck_time c) w
    /\ (forall n, n <> WATER_LOAD -> node (sm_grid m) n = node g n)
    /\ gval (sm_grid m) "sea_level__elevation" = Some 0
    /\ exists props, el_add (full (g_rows g) (g_cols g - 2) 100) props (layers g) = Ok (layers (sm_grid m)).
  Proof.
    intros Hw E. unfold model_init in E. okinv E E1. okinv E E2. okinv E E3. okinv E E4. okinv E E5. injection E as <-.
    destruct (rowf g "x_of_shore") as [v1|]; [injection E1 as <-|discriminate].
    destruct (rowf _ "x_of_shelf_edge") as [v2|]; [injection E2 as <-|discriminate].
    set (g1 := put_gval _ _ _) in *.
    assert (Hg1 : whole_grid g1) by exact Hw.
    cbn [sm_grid sm_clock sm_archived sm_world].
    assert (Hg2 : whole_grid (set_layers g1 a2)).
    { apply whole_layers; [|exact Hg1]. eapply el_add_shaped; [exact E4|]. apply Hg1. }
    assert (Sea : gval (set_layers g1 a2) "sea_level__elevation" = Some 0).
    { change (gval (set_layers g1 a2)) with (gval g1). unfold g1. rewrite gval_put_gval. eqb_lit. rewrite n0_R. reflexivity. }
    assert (H100 : @nlit R _ 100 = 100) by (cbn; unfold Q2R; simpl; lra). rewrite H100 in E4.
    destruct (has_node (set_layers g1 a2) WATER_LOAD).
    - okinv E5 E6. okinv E5 E7. destruct (get_profile_inv _ _ _ E6) as [z [Ez ->]].
      assert (Hz := proj2 Hg2 _ _ Ez).
      pose proof (fun Y => whole_set_profile _ _ _ _ Hg2 Y E5) as X. match type of X with ?T -> _ => assert (Y : T) end.
      + apply shaped_of_nth.
        * rewrite map_length. apply shaped_len with (m := g_cols g). apply shaped_inner. exact Hz.
        * intros i Hi. rewrite nth_map' with (da := []) by (rewrite (shaped_len _ _ _ (shaped_inner _ _ _ Hz)); exact Hi).
          unfold calc_water_loading. rewrite !map_length. apply (shaped_nth (g_rows g) (g_cols g) _ i); [|exact Hi].
          apply shaped_inner. exact Hz.
      + specialize (X Y). destruct X as [X1 [[X2 [X3 [X4 [X5 X6]]]] _]].
        split; [exact X1|]. split; [exact X2|]. split; [exact X3|]. do 3 (split; [reflexivity|]).
        split; [intros n Hn; rewrite X6; [reflexivity|intros [Y'|[]]; congruence]|].
        split; [rewrite X5; exact Sea|]. rewrite X4. eexists. exact E4.
    - injection E5 as <-. split; [exact Hg2|]. do 5 (split; [reflexivity|]). split; [reflexivity|].
      split; [exact Sea|]. eexists. exact E4.
  Qed.

  Lemma init_balanced (pr : processes R W) w (g : grid R) c m z z0 : whole_grid g ->
    node g "topographic__elevation" = Some z -> node g "bedrock_surface__elevation" = Some z0 ->
    (forall i j, (i < g_rows g)%nat -> (j < g_cols g - 2)%nat -> at2 0 z (S i) (S j) = at2 0 z0 (S i) (S j) + 100) ->
    (forall i j, (i < g_rows g)%nat -> (j < g_cols g - 2)%nat -> at2 [] (el_stacks (layers g)) i j = []) ->
    model_init pr w g c = Ok m -> fine m.
  Proof.
    intros Hw Ez E0 Hz Hl E.
    destruct (init_spec pr w g c m Hw E) as [Hw' [R1 [C1 [_ [_ [_ [Hn [_ [props El]]]]]]]]].
    split; [exact Hw'|]. intros z' z0' i j Ez' E0' Hi Hj. rewrite Hn in Ez', E0' by discriminate.
    rewrite Ez in Ez'. injection Ez' as <-. rewrite E0 in E0'. injection E0' as <-. rewrite R1 in Hi. rewrite C1 in Hj.
    rewrite n0_R. numR. rewrite (Hz i j Hi Hj). f_equal.
    unfold el_add in El. destruct (forallb _ _); [|discriminate]. injection El as <-. cbn [el_stacks].
    assert (Hs : shaped (g_rows g) (g_cols g - 2) (el_stacks (layers g))) by apply Hw.
    symmetry. etransitivity; [apply f_equal; apply (at2_fmapi (A:=stack R) (B:=stack R) _ (g_rows g) (g_cols g - 2) _ []); assumption|].
    specialize (Hl i j Hi Hj). change (list (lcell R)) with (stack R) in Hl.
    rewrite Hl, at2_full by assumption. rewrite thickness_R, add_stack_thick.
    - unfold thick. cbn. unfold Rmax. destruct (Rle_dec 0 (0 + 100)); lra.
    - intros x [].
  Qed.

  Theorem model_balanced (pr : processes R W) w (g : grid R) c calls m m' z z0 :
    Forall keeps_whole (pr_components pr) -> whole_grid g ->
    node g "topographic__elevation" = Some z -> node g "bedrock_surface__elevation" = Some z0 ->
    (forall i j, (i < g_rows g)%nat -> (j < g_cols g - 2)%nat -> at2 0 z (S i) (S j) = at2 0 z0 (S i) (S j) + 100) ->
    (forall i j, (i < g_rows g)%nat -> (j < g_cols g - 2)%nat -> at2 [] (el_stacks (layers g)) i j = []) ->
    model_init pr w g c = Ok m -> model_calls pr calls m = Some m' -> balanced (sm_grid m').
  Proof.
    intros Hk Hw Ez E0 Hz Hl E Ec. refine (proj2 (calls_balanced pr calls Hk m m' _ Ec)).
    eapply init_balanced; eassumption.
  Qed.

  Lemma load_grid_hundred params (read : grid R -> result (grid R)) g i j : load_grid params (Some read) = Ok g ->
    whole_grid g -> (i < g_rows g + 2)%nat -> (j < g_cols g)%nat -> exists z z0,
    node g "topographic__elevation" = Some z /\ node g "bedrock_surface__elevation" = Some z0
    /\ at2 0 z i j = at2 0 z0 i j + 100.
  Proof.
    intros E Hw Hi Hj. unfold load_grid in E. okinv E E1. okinv E E2. okinv E E3. injection E as <-.
    apply node_r_ok in E3. exists a1. eexists. split; [rewrite node_put_node; eqb_lit; exact E3|].
    split; [apply node_put_same|].
    assert (Hz : shaped (g_rows a0 + 2) (g_cols a0) a1).
    { apply (proj2 Hw "topographic__elevation"%string). rewrite node_put_node. eqb_lit. exact E3. }
    rewrite (at2_fmap _ (g_rows a0 + 2) (g_cols a0) _ 0) by assumption. numR.
    replace (Q2R 100) with 100 by (unfold Q2R; simpl; lra). lra.
  Qed.
End Balance.

(** ** deposits do not carry over *)
Lemma clear_forgets {A} `{Num A} (g : grid A) f f' n m : shaped n m f -> shaped n m f' ->
  node g "sediment_deposit__thickness" = Some f ->
  clear_deposit (put_node g "sediment_deposit__thickness" f') = clear_deposit g.
Proof.
  intros Hf Hf' E. unfold clear_deposit, node_r. rewrite node_put_same, E. cbn [bind].
  rewrite put_node_put_node. f_equal. f_equal.
  apply (field_ext n m _ _ n0); [apply shaped_fmap; assumption|apply shaped_fmap; assumption|].
  intros i j Hi Hj. rewrite !(at2_fmap (fun _ : A => n0) n m _ n0) by assumption. reflexivity.
Qed.

Theorem deposits_not_carried {A} `{Num A} {W} (pr : processes A W) dt w (g : grid A) c a f' : whole_grid g ->
  shaped (g_rows g + 2) (g_cols g) f' ->
  run_one_step pr dt (mkModel w (put_node g "sediment_deposit__thickness" f') c a)
  = run_one_step pr dt (mkModel w g c a)
  \/ exists m m', run_one_step pr dt (mkModel w (put_node g "sediment_deposit__thickness" f') c a) = ClockStop m
     /\ run_one_step pr dt (mkModel w g c a) = ClockStop m'.
Proof.
  intros Hw Hf'. unfold run_one_step, clock_advance. cbn [sm_clock sm_world sm_grid sm_archived].
  destruct (match ck_stop c with Some s => _ | None => _ end).
  - right. eauto.
  - left. unfold advance_components. cbn [sm_clock sm_world sm_grid sm_archived].
    assert (Hd := proj1 (proj2 (proj2 (proj2 (proj1 Hw))))). destruct Hd as [f [E Hf]].
    rewrite (clear_forgets g f f' (g_rows g + 2) (g_cols g)) by assumption. reflexivity.
Qed.
