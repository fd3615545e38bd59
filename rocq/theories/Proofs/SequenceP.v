(** Facts about Sequence. *)
From Coq Require Import String List ZArith QArith Reals Lra Lia Arith Bool.
From Verif.Base Require Import Num Py Arr.
From Verif.Model Require Import Layers Grid Archive Sequence Components Shoreline Subsidence.
From Verif.Spec Require Import Strata Column.
From Verif.Proofs Require Import GridP LayersP.
Import ListNotations.

Tactic Notation "okinv" hyp(H) ident(E) := match type of H with bind ?r _ = Ok _ =>
  destruct r eqn:E; [cbn [bind] in H | discriminate H] end.

Lemma node_r_ok {A} `{Num A} (g : grid A) n f : node_r g n = Ok f -> node g n = Some f.
Proof. unfold node_r. destruct (node g n); [intros E; injection E as ->; reflexivity|discriminate]. Qed.

Section Any.
  Context {A : Type} `{Num A} {W : Type}.

  Lemma sub2_add c : (2 <= c)%nat -> (c - 2 + 2 = c)%nat.
  Proof. lia. Qed.

  Lemma shaped_cells' n c (f : field A) : (2 <= c)%nat -> shaped (n + 2) c f -> shaped n (c - 2) (cells f).
  Proof. intros Hc Hf. apply shaped_cells. rewrite sub2_add by exact Hc. exact Hf. Qed.
  Lemma shaped_set_cells' n c (f v : field A) : (2 <= c)%nat ->
    shaped (n + 2) c f -> shaped n (c - 2) v -> shaped (n + 2) c (set_cells f v).
  Proof.
    intros Hc Hf Hv. rewrite <- (sub2_add c) by exact Hc. apply shaped_set_cells; [|exact Hv].
    rewrite sub2_add by exact Hc. exact Hf.
  Qed.
  Lemma at2_set_cells_in n c (f v : field A) d i j : (2 <= c)%nat ->
    shaped (n + 2) c f -> shaped n (c - 2) v -> (i < n)%nat -> (j < c - 2)%nat ->
    at2 d (set_cells f v) (S i) (S j) = at2 d v i j.
  Proof.
    intros Hc Hf Hv Hi Hj. rewrite (at2_set_cells n (c - 2)); try (rewrite ?sub2_add by exact Hc; assumption || lia).
    replace (Nat.leb 1 (S i) && Nat.leb (S i) n && Nat.leb 1 (S j) && Nat.leb (S j) (c - 2))%bool with true.
    - cbn [Nat.sub]. rewrite !Nat.sub_0_r. reflexivity.
    - symmetry. rewrite !andb_true_iff. repeat split; apply Nat.leb_le; lia.
  Qed.
  Lemma at2_set_cells_out n c (f v : field A) d i j : (2 <= c)%nat ->
    shaped (n + 2) c f -> shaped n (c - 2) v -> (i < n + 2)%nat -> (j < c)%nat ->
    i = 0%nat \/ i = S n \/ j = 0%nat \/ j = (c - 1)%nat ->
    at2 d (set_cells f v) i j = at2 d f i j.
  Proof.
    intros Hc Hf Hv Hi Hj B. rewrite (at2_set_cells n (c - 2)); try (rewrite ?sub2_add by exact Hc; assumption || lia).
    replace (Nat.leb 1 i && Nat.leb i n && Nat.leb 1 j && Nat.leb j (c - 2))%bool with false; [reflexivity|].
    symmetry. rewrite !andb_false_iff, !Nat.leb_gt. lia.
  Qed.
  Lemma at2_cells' n c (f : field A) d i j : (2 <= c)%nat -> shaped (n + 2) c f ->
    (i < n)%nat -> (j < c - 2)%nat -> at2 d (cells f) i j = at2 d f (S i) (S j).
  Proof. intros Hc Hf. apply at2_cells. rewrite sub2_add by exact Hc. exact Hf. Qed.

  Lemma el_add_shaped dz props (el el' : event_layers A) n m :
    el_add dz props el = Ok el' -> shaped n m (el_stacks el) -> shaped n m (el_stacks el').
  Proof.
    unfold el_add. destruct (forallb _ _); [|discriminate]. intros E Hs. injection E as <-.
    cbn [el_stacks]. apply shaped_fmapi. exact Hs.
  Qed.
  Lemma archive_shaped (st : nat * event_layers A) n m : shaped n m (el_stacks (snd st)) ->
    shaped n m (el_stacks (snd (archive st))).
  Proof.
    destruct st as [a el]. cbn [snd]. intros Hs. unfold archive. destruct (_ =? 0)%Z; cbn [snd]; [|exact Hs].
    cbn [el_reduce el_stacks]. apply shaped_fmap. exact Hs.
  Qed.

  Lemma has_field_put (g : grid A) n n' f : shaped (g_rows g + 2) (g_cols g) f ->
    has_field g n' -> has_field (put_node g n f) n'.
  Proof.
    intros Hf [f' [E Hf']]. unfold has_field. rewrite node_put_node.
    destruct (String.eqb n' n); [exists f; split; [reflexivity|exact Hf]|exists f'; split; assumption].
  Qed.
  Lemma model_grid_put (g : grid A) n f : shaped (g_rows g + 2) (g_cols g) f ->
    model_grid g -> model_grid (put_node g n f).
  Proof.
    intros Hf [Hc [H1 [H2 [H3 H4]]]]. split; [exact Hc|].
    split; [apply has_field_put; assumption|]. split; [apply has_field_put; assumption|].
    split; [apply has_field_put; assumption|]. exact H4.
  Qed.

  (* what add_layer does *)
  Lemma add_layer_spec dz (s s' : sequence A W) : add_layer dz s = Ok s' ->
    exists z el1 ge re,
      node (sq_grid s) "topographic__elevation" = Some z
      /\ (exists props, layer_properties (sq_time s) (nlit (1 # 2))
           (put_node (sq_grid s) "topographic__elevation" (set_cells z (fmap2 nadd (cells z) dz))) = Ok props
         /\ el_add dz props (layers (sq_grid s)) = Ok el1)
      /\ sq_world s' = sq_world s /\ sq_time s' = sq_time s /\ sq_time_step s' = sq_time_step s
      /\ sq_archived s' = fst (archive (sq_archived s, el1))
      /\ sq_grid s' = set_layers (put_node (sq_grid s) "topographic__elevation"
                          (set_cells z (fmap2 nadd (cells z) dz))) (snd (archive (sq_archived s, el1)))
      /\ sq_at_layer_grid s' = sq_at_layer_grid s ++ [ge]
      /\ sq_at_layer_row s' = sq_at_layer_row s ++ [re]
      /\ ge_age ge = sq_time s /\ re_age re = sq_time s
      /\ gval (sq_grid s) "sea_level__elevation" = Some (ge_sea_level ge)
      /\ re_sea_level re = ge_sea_level ge
      /\ ge_shore ge = gval (sq_grid s) "x_of_shore"
      /\ ge_shelf_edge ge = gval (sq_grid s) "x_of_shelf_edge"
      /\ length (re_shore re) = number_of_rows (sq_grid s)
      /\ length (re_shelf_edge re) = number_of_rows (sq_grid s)
      /\ recorded_rows (number_of_rows (sq_grid s)) (rowf (sq_grid s) "x_of_shore") (re_shore re)
      /\ recorded_rows (number_of_rows (sq_grid s)) (rowf (sq_grid s) "x_of_shelf_edge") (re_shelf_edge re).
  Proof.
    intros E. unfold add_layer in E. okinv E Ez. apply node_r_ok in Ez.
    set (g1 := put_node _ _ _) in E. okinv E Ep. okinv E Ee. okinv E Es.
    okinv E E1. okinv E E2.
    destruct (archive (sq_archived s, a1)) as [n el] eqn:Ea. injection E as <-.
    eexists _, a1, _, _. split; [exact Ez|]. split; [exists a0; split; [exact Ep|exact Ee]|].
    rewrite Ea. cbn [sq_world sq_time sq_time_step sq_archived sq_grid sq_at_layer_grid sq_at_layer_row fst snd].
    assert (B : forall (l l' : list (option A)) k, broadcast k l = Ok l' -> length l' = k).
    { intros l l' k. unfold broadcast. destruct (Nat.eqb_spec (length l) k) as [L|L].
      - intros X; injection X as <-; exact L.
      - destruct l as [|v [|]]; try discriminate. intros X; injection X as <-. apply repeat_length. }
    do 7 (split; [reflexivity|]). cbn [ge_age re_age ge_sea_level re_sea_level re_shore re_shelf_edge ge_shore ge_shelf_edge].
    do 2 (split; [reflexivity|]). split.
    { unfold gval_r in Es. change (gval g1 "sea_level__elevation") with (gval (sq_grid s) "sea_level__elevation") in Es.
      destruct (gval (sq_grid s) "sea_level__elevation"); [injection Es as ->; reflexivity|discriminate]. }
    assert (B2 : forall f l' k, broadcast k (match f with Some v => v | None => repeat (@None A) k end) = Ok l' -> recorded_rows k f l').
    { intros f l' k X. split; [eapply B; exact X|]. intros r Hr. unfold broadcast in X. destruct f as [v|].
      - destruct (Nat.eqb (length v) k); [injection X as <-; reflexivity|].
        destruct v as [|v0 [|]]; try discriminate X. injection X as <-. apply nth_repeat'; exact Hr.
      - rewrite repeat_length, Nat.eqb_refl in X. injection X as <-. apply nth_repeat'; exact Hr. }
    do 3 (split; [reflexivity|]). split; [eapply B; eassumption|]. split; [eapply B; eassumption|].
    split; apply B2; assumption.
  Qed.

  Lemma add_layer_grid dz (s s' : sequence A W) : add_layer dz s = Ok s' -> model_grid (sq_grid s) ->
    shaped (g_rows (sq_grid s)) (g_cols (sq_grid s) - 2) dz ->
    model_grid (sq_grid s') /\ g_rows (sq_grid s') = g_rows (sq_grid s) /\ g_cols (sq_grid s') = g_cols (sq_grid s).
  Proof.
    intros E Hg Hdz. destruct (add_layer_spec _ _ _ E) as [z [el1 [ge [re [Ez [[props [_ Ee]] [_ [_ [_ [_ [Eg _]]]]]]]]]]].
    rewrite Eg. split; [|split; reflexivity].
    destruct Hg as [Hc [[z' [Ez' Hz]] [Hb [Hd Hl]]]]. rewrite Ez in Ez'. injection Ez' as <-.
    assert (Hz' : shaped (g_rows (sq_grid s) + 2) (g_cols (sq_grid s)) (set_cells z (fmap2 nadd (cells z) dz))).
    { apply shaped_set_cells'; [exact Hc|exact Hz|]. apply shaped_fmap2; [|exact Hdz].
      apply shaped_cells'; assumption. }
    assert (M : model_grid (put_node (sq_grid s) "topographic__elevation" (set_cells z (fmap2 nadd (cells z) dz)))).
    { apply model_grid_put; [exact Hz'|]. split; [exact Hc|]. split; [exists z; split; assumption|]. auto. }
    destruct M as [M1 [M2 [M3 [M4 M5]]]]. split; [exact M1|]. split; [exact M2|]. split; [exact M3|].
    split; [exact M4|]. cbn [set_layers layers g_rows g_cols].
    apply archive_shaped. cbn [snd]. eapply el_add_shaped; [exact Ee|exact Hl].
  Qed.

  Lemma settle_spec (g g' : grid A) : settle g = Ok g' -> exists z z0,
    node g "topographic__elevation" = Some z /\ node g "bedrock_surface__elevation" = Some z0
    /\ g' = put_node g "topographic__elevation" (set_cells z (fmap2 nadd (cells z0) (el_thickness (layers g)))).
  Proof.
    intros E. unfold settle in E. okinv E Ez. okinv E E0. injection E as <-.
    apply node_r_ok in Ez, E0. eexists _, _. eauto.
  Qed.
  Lemma clear_spec (g g' : grid A) : clear_deposit g = Ok g' -> exists dz,
    node g "sediment_deposit__thickness" = Some dz
    /\ g' = put_node g "sediment_deposit__thickness" (fmap (fun _ => n0) dz).
  Proof. intros E. unfold clear_deposit in E. okinv E Ez. injection E as <-. apply node_r_ok in Ez. eauto. Qed.

  Lemma settle_ok (g : grid A) : model_grid g -> exists g', settle g = Ok g'
    /\ model_grid g' /\ g_rows g' = g_rows g /\ g_cols g' = g_cols g /\ balanced g'
    /\ layers g' = layers g.
  Proof.
    intros [Hc [[z [Ez Hz]] [[z0 [E0 H0]] [Hd Hl]]]].
    unfold settle, node_r. rewrite Ez, E0. cbn [bind]. eexists. split; [reflexivity|].
    assert (Ht : shaped (g_rows g) (g_cols g - 2) (fmap2 nadd (cells z0) (el_thickness (layers g)))).
    { apply shaped_fmap2; [apply shaped_cells'; assumption|]. apply shaped_fmap. exact Hl. }
    split.
    { apply model_grid_put; [apply shaped_set_cells'; assumption|]. split; [exact Hc|].
      split; [exists z; split; assumption|]. split; [exists z0; split; assumption|]. auto. }
    do 2 (split; [reflexivity|]). split; [|reflexivity].
    intros z1 z01 i j. node_simp. intros X X0 Hi Hj. injection X as <-. rewrite E0 in X0. injection X0 as <-.
    cbn [put_node set_at_node g_rows g_cols layers] in *.
    rewrite (at2_set_cells_in (g_rows g) (g_cols g)) by assumption.
    rewrite (at2_fmap2 _ (g_rows g) (g_cols g - 2) _ _ n0 n0 n0); try assumption.
    - rewrite (at2_cells' (g_rows g) (g_cols g)) by assumption. f_equal.
      unfold el_thickness. rewrite (at2_fmap stack_thickness (g_rows g) (g_cols g - 2) _ []); auto.
    - apply shaped_cells'; assumption.
    - apply shaped_fmap. exact Hl.
  Qed.

  Lemma clear_ok (g : grid A) : model_grid g -> balanced g -> exists g', clear_deposit g = Ok g'
    /\ model_grid g' /\ g_rows g' = g_rows g /\ g_cols g' = g_cols g /\ balanced g' /\ deposit_cleared g'
    /\ layers g' = layers g.
  Proof.
    intros Hg Hb. assert (Hg' := Hg). destruct Hg' as [Hc [_ [_ [[dz [Ed Hd]] _]]]].
    unfold clear_deposit, node_r. rewrite Ed. cbn [bind]. eexists. split; [reflexivity|].
    split; [apply model_grid_put; [apply shaped_fmap; exact Hd|exact Hg]|].
    do 2 (split; [reflexivity|]). split.
    - intros z z0 i j. node_simp. apply Hb.
    - split; [|reflexivity]. intros dz' i j. node_simp. intros X Hi Hj. injection X as <-.
      cbn [put_node set_at_node g_rows g_cols] in *.
      rewrite (at2_fmap (fun _ : A => n0) (g_rows g + 2) (g_cols g) dz n0) by assumption. reflexivity.
  Qed.

  Lemma run_components_keep (components : list (component A W)) dt w g w' g' :
    Forall keeps_grid components -> model_grid g -> run_components components dt (w, g) = Ok (w', g') ->
    model_grid g' /\ g_rows g' = g_rows g /\ g_cols g' = g_cols g.
  Proof.
    intros Hk. revert w g. induction Hk as [|c cs Hc Hk IH]; intros w g Hg E.
    - cbn in E. injection E as <- <-. auto.
    - cbn [run_components foldM] in E. unfold run_components in E. cbn [foldM] in E.
      destruct (c dt (w, g)) as [[w1 g1]|] eqn:E1; [|discriminate]. cbn [bind] in E.
      destruct (Hc _ _ _ _ _ Hg E1) as [Hg1 [R1 C1]].
      destruct (IH w1 g1 Hg1 E) as [Hg2 [R2 C2]]. split; [exact Hg2|]. split; congruence.
  Qed.

  Definition good (s : sequence A W) : Prop :=
    model_grid (sq_grid s) /\ balanced (sq_grid s) /\ deposit_cleared (sq_grid s).

  (* layers, then settling, then clearing *)
  Lemma finish_ok (s : sequence A W) : model_grid (sq_grid s) ->
    exists g1 g2, settle (sq_grid s) = Ok g1 /\ clear_deposit g1 = Ok g2
      /\ good (set_sq_grid s g2) /\ g_rows g2 = g_rows (sq_grid s) /\ g_cols g2 = g_cols (sq_grid s)
      /\ layers g2 = layers (sq_grid s).
  Proof.
    intros Hg. destruct (settle_ok _ Hg) as [g1 [E1 [M1 [R1 [C1 [B1 L1]]]]]].
    destruct (clear_ok _ M1 B1) as [g2 [E2 [M2 [R2 [C2 [B2 [D2 L2]]]]]]].
    exists g1, g2. split; [exact E1|]. split; [exact E2|]. split; [|repeat split; congruence].
    unfold good. cbn [set_sq_grid sq_grid]. auto.
  Qed.

  Lemma update_good (components : list (component A W)) dt (s s' : sequence A W) :
    Forall keeps_grid components -> model_grid (sq_grid s) ->
    sequence_update components dt s = Ok s' ->
    good s' /\ g_rows (sq_grid s') = g_rows (sq_grid s) /\ g_cols (sq_grid s') = g_cols (sq_grid s).
  Proof.
    intros Hk Hg E. unfold sequence_update in E.
    destruct (run_components components dt (sq_world s, sq_grid s)) as [[w g]|] eqn:Er; [|discriminate].
    cbn [bind] in E. destruct (run_components_keep _ _ _ _ _ _ Hk Hg Er) as [Hg1 [R1 C1]].
    okinv E Ed. apply node_r_ok in Ed. okinv E Ea.
    assert (Hd : shaped (g_rows g) (g_cols g - 2) (cells a)).
    { destruct Hg1 as [Hc [_ [_ [[dz [Ed' Hd]] _]]]]. rewrite Ed in Ed'. injection Ed' as <-.
      apply shaped_cells'; assumption. }
    destruct (add_layer_grid _ _ _ Ea Hg1 Hd) as [Hg2 [R2 C2]]. cbn [sq_grid] in R2, C2.
    destruct (finish_ok _ Hg2) as [g1 [g2 [E1 [E2 [G2 [R3 [C3 _]]]]]]].
    rewrite E1 in E. cbn [bind] in E. rewrite E2 in E. cbn [bind] in E. injection E as <-.
    split; [exact G2|]. cbn [set_sq_grid sq_grid]. split; congruence.
  Qed.

  Lemma init_good (w : W) (g : grid A) step s : (2 <= g_cols g)%nat ->
    has_field g "topographic__elevation" ->
    (forall f, node g "bedrock_surface__elevation" = Some f -> shaped (g_rows g + 2) (g_cols g) f) ->
    has_field g "sediment_deposit__thickness" -> shaped (g_rows g) (g_cols g - 2) (el_stacks (layers g)) ->
    sequence_init w g step = Ok s ->
    good s /\ g_rows (sq_grid s) = g_rows g /\ g_cols (sq_grid s) = g_cols g.
  Proof.
    intros Hc Hz Hb Hd Hl E. unfold sequence_init in E. okinv E Ez. apply node_r_ok in Ez.
    destruct Hz as [z' [Ez' Hz]]. rewrite Ez in Ez'. injection Ez' as <-.
    set (g1 := if has_node g "bedrock_surface__elevation" then g else _) in E.
    assert (R1 : g_rows g1 = g_rows g /\ g_cols g1 = g_cols g /\ layers g1 = layers g).
    { unfold g1. destruct (has_node g _); auto. }
    assert (Hg1 : model_grid g1).
    { unfold g1. destruct (has_node g "bedrock_surface__elevation") eqn:Eb.
      - split; [exact Hc|]. split; [exists a; split; assumption|]. split; [|auto].
        unfold has_node, din in Eb. fold (node g "bedrock_surface__elevation") in Eb.
        destruct (node g "bedrock_surface__elevation") as [f|] eqn:Ef; [|discriminate].
        exists f. split; [exact Ef|]. apply Hb. reflexivity.
      - assert (Hs : shaped (g_rows g + 2) (g_cols g) (fmap (fun v => nsub v (nlit 100)) a)) by (apply shaped_fmap; exact Hz).
        split; [exact Hc|]. split; [apply has_field_put; [exact Hs|exists a; split; assumption]|].
        split; [|split; [apply has_field_put; assumption|exact Hl]].
        eexists. split; [apply node_put_same|]. exact Hs. }
    destruct R1 as [R1 [C1 L1]].
    okinv E E0. apply node_r_ok in E0.
    set (s0 := mkSequence w g1 n0 step 0 [] []) in E.
    assert (Hi : shaped (g_rows g1) (g_cols g1 - 2) (cells (fmap2 nsub a a0))).
    { apply shaped_cells'; [rewrite C1; exact Hc|]. apply shaped_fmap2; [rewrite R1, C1; exact Hz|].
      destruct Hg1 as [_ [_ [[f [Ef Hf]] _]]]. rewrite E0 in Ef. injection Ef as <-. exact Hf. }
    okinv E Es.
    assert (Hg2 : model_grid (sq_grid a1) /\ g_rows (sq_grid a1) = g_rows g1 /\ g_cols (sq_grid a1) = g_cols g1).
    { destruct (existsb _ _).
      - apply (add_layer_grid _ s0 _ Es Hg1 Hi).
      - injection Es as <-. auto. }
    destruct Hg2 as [Hg2 [R2 C2]].
    destruct (finish_ok _ Hg2) as [g3 [g4 [E3 [E4 [G4 [R4 [C4 _]]]]]]].
    rewrite E3 in E. cbn [bind] in E. rewrite E4 in E. cbn [bind] in E. injection E as <-.
    split; [exact G4|]. cbn [set_sq_grid sq_grid]. split; congruence.
  Qed.

  Lemma run_steps_good (components : list (component A W)) until dt n : Forall keeps_grid components ->
    forall s s', good s -> run_steps components until dt n s = Ok s' -> good s'.
  Proof.
    intros Hk. induction n as [|n IH]; intros s s' Hs E; [injection E as <-; exact Hs|].
    cbn [run_steps] in E. okinv E Eu. apply (IH a); [|exact E].
    refine (proj1 (update_good components _ s a Hk _ Eu)). apply Hs.
  Qed.

  Lemma calls_good (components : list (component A W)) calls : Forall keeps_grid components ->
    forall s s', good s -> seq_calls components calls s = Ok s' -> good s'.
  Proof.
    intros Hk. unfold seq_calls. induction calls as [|c calls IH]; intros s s' Hs E; [injection E as <-; exact Hs|].
    cbn [foldM] in E. okinv E Ec. apply (IH a); [|exact E].
    destruct c as [[dt|]|until dt]; cbn [seq_exec] in Ec.
    - refine (proj1 (update_good components _ s a Hk _ Ec)). apply Hs.
    - refine (proj1 (update_good components _ s a Hk _ Ec)). apply Hs.
    - unfold sequence_run in Ec. destruct (_ =? n0)%num; [discriminate|].
      eapply run_steps_good; eassumption.
  Qed.

  Theorem sequence_balanced (components : list (component A W)) calls (w : W) (g : grid A) step s s' :
    (2 <= g_cols g)%nat -> has_field g "topographic__elevation" ->
    (forall f, node g "bedrock_surface__elevation" = Some f -> shaped (g_rows g + 2) (g_cols g) f) ->
    has_field g "sediment_deposit__thickness" -> shaped (g_rows g) (g_cols g - 2) (el_stacks (layers g)) ->
    Forall keeps_grid components ->
    sequence_init w g step = Ok s -> seq_calls components calls s = Ok s' ->
    balanced (sq_grid s') /\ deposit_cleared (sq_grid s').
  Proof.
    intros. assert (good s') as [_ G]; [|exact G].
    eapply calls_good; [eassumption| |eassumption]. eapply init_good; eassumption.
  Qed.

  (** ** time and records *)
  Lemma update_records (components : list (component A W)) dt (s s' : sequence A W) :
    sequence_update components dt s = Ok s' ->
    exists ge re, sq_time s' = nadd (sq_time s) dt /\ sq_time_step s' = sq_time_step s
      /\ sq_at_layer_grid s' = sq_at_layer_grid s ++ [ge] /\ sq_at_layer_row s' = sq_at_layer_row s ++ [re]
      /\ ge_age ge = sq_time s' /\ re_age re = sq_time s'
      /\ re_sea_level re = ge_sea_level ge
      /\ gval (sq_grid s') "sea_level__elevation" = Some (ge_sea_level ge)
      /\ ge_shore ge = gval (sq_grid s') "x_of_shore" /\ ge_shelf_edge ge = gval (sq_grid s') "x_of_shelf_edge"
      /\ recorded_rows (number_of_rows (sq_grid s')) (rowf (sq_grid s') "x_of_shore") (re_shore re)
      /\ recorded_rows (number_of_rows (sq_grid s')) (rowf (sq_grid s') "x_of_shelf_edge") (re_shelf_edge re).
  Proof.
    intros E. unfold sequence_update in E.
    destruct (run_components components dt (sq_world s, sq_grid s)) as [[w g]|] eqn:Er; [|discriminate].
    cbn [bind] in E. okinv E Ed. okinv E Ea. okinv E Es. okinv E Ec. injection E as <-.
    destruct (add_layer_spec _ _ _ Ea)
      as [z [el1 [ge [re [Ez [_ [_ [Et [Est [_ [Eg [G [R [A1 [A2 [SL [SL2 [S1 [S2 [_ [_ [S3 S4]]]]]]]]]]]]]]]]]]]]]].
    cbn [sq_time sq_at_layer_grid sq_at_layer_row sq_time_step sq_grid] in *.
    exists ge, re. cbn [set_sq_grid sq_time sq_at_layer_grid sq_at_layer_row sq_time_step sq_grid].
    rewrite Et, Est, G, R, A1, A2. do 6 (split; [reflexivity|]). split; [exact SL2|].
    destruct (settle_spec _ _ Es) as [z1 [z0 [_ [_ ->]]]]. destruct (clear_spec _ _ Ec) as [dz [_ ->]].
    rewrite !gval_put_node, Eg. split; [exact SL|]. split; [exact S1|]. split; [exact S2|]. split; assumption.
  Qed.
End Any.

(** ** exact time *)
Local Open Scope R_scope.

Lemma Int_part_spec x : IZR (Int_part x) <= x < IZR (Int_part x) + 1.
Proof. destruct (base_Int_part x) as [H1 H2]. split; [exact H1|lra]. Qed.
Lemma Int_part_unique x z : IZR z <= x < IZR z + 1 -> Int_part x = z.
Proof.
  intros [H1 H2]. unfold Int_part. rewrite <- (tech_up x (z + 1)).
  - lia.
  - rewrite plus_IZR. exact H2.
  - rewrite plus_IZR. lra.
Qed.
Lemma Rtrunc_IZR z : Rtrunc (IZR z) = z.
Proof.
  unfold Rtrunc. destruct (Rle_dec 0 (IZR z)).
  - apply Int_part_unique. lra.
  - rewrite (Int_part_unique (- IZR z) (- z)); [lia|]. rewrite opp_IZR. lra.
Qed.

Lemma n_steps_R (until dt time : R) : 0 < dt ->
  let x := (until - time) / dt in
  (0 < x -> x <= INR (Z.to_nat (n_steps until dt time)) < x + 1)
  /\ (x <= 0 -> Z.to_nat (n_steps until dt time) = 0%nat).
Proof.
  intros Hd x. unfold n_steps. numR. rewrite n0_R. fold x.
  assert (Ex : until - time = dt * x) by (unfold x; field; lra).
  pose proof (Int_part_spec x) as B. rewrite Rtrunc_IZR. set (z := Int_part x) in *.
  rewrite Ex. replace (dt * x - dt * IZR z) with (dt * (x - IZR z)) by ring.
  destruct (Rltb 0 (dt * (x - IZR z))) eqn:Hc; [apply Rltb_true in Hc|apply Rltb_false in Hc].
  - assert (Hx : 0 < x - IZR z) by (apply (Rmult_lt_reg_l dt); lra).
    split; intros Px.
    + assert (Hz : (0 <= z)%Z) by (apply le_IZR; assert (-1 < IZR z) by lra; apply IZR_le; apply lt_IZR in H; lia).
      rewrite INR_IZR_INZ, Z2Nat.id by lia. rewrite plus_IZR. lra.
    + assert (Hz : (z < 0)%Z) by (apply lt_IZR; lra). lia.
  - assert (Hx : x - IZR z <= 0).
    { destruct (Rle_dec (x - IZR z) 0) as [L|L]; [exact L|]. assert (0 < dt * (x - IZR z)) by (apply Rmult_lt_0_compat; lra). lra. }
    assert (Exz : x = IZR z) by lra.
    split; intros Px.
    + assert (Hz : (0 < z)%Z) by (apply lt_IZR; lra). rewrite INR_IZR_INZ, Z2Nat.id by lia. lra.
    + assert (Hz : (z <= 0)%Z) by (apply le_IZR; lra). lia.
Qed.

(* the steps that run takes *)
Fixpoint schedule (n : nat) (dt rem : R) : list R :=
  match n with
  | O => []
  | S n' => Rmin dt rem :: schedule n' dt (rem - Rmin dt rem)
  end.
Lemma schedule_length n dt rem : length (schedule n dt rem) = n.
Proof. revert rem. induction n; intros; cbn [schedule length]; auto. Qed.
Lemma schedule_ok n dt : 0 < dt -> forall rem,
  (0 < rem -> rem <= INR n * dt < rem + dt) -> (rem <= 0 -> n = 0%nat) ->
  (forall d, In d (schedule n dt rem) -> 0 < d <= dt) /\ rsum (schedule n dt rem) = Rmax 0 rem.
Proof.
  intros Hd. induction n as [|n IH]; intros rem H1 H2; cbn [schedule].
  - split; [intros d []|]. cbn. rewrite Rmax_left; [reflexivity|].
    destruct (Rle_dec rem 0) as [L|L]; [exact L|]. assert (0 < rem) by lra. specialize (H1 H). cbn in H1. lra.
  - assert (Pr : 0 < rem) by (destruct (Rlt_dec 0 rem); [assumption|]; assert (S n = 0%nat) by (apply H2; lra); discriminate).
    specialize (H1 Pr). rewrite S_INR in H1.
    destruct (IH (rem - Rmin dt rem)) as [I1 I2].
    + intros P. unfold Rmin in *. destruct (Rle_dec dt rem); lra.
    + intros P. unfold Rmin in P. destruct (Rle_dec dt rem) as [L|L].
      * assert (E : rem = dt) by lra. assert (Hn : INR n * dt < dt) by lra.
        assert (INR n < 1) by (apply (Rmult_lt_reg_r dt); lra). destruct n; [reflexivity|].
        rewrite S_INR in H. pose proof (pos_INR n). lra.
      * assert (Hn : INR n * dt < dt) by lra.
        assert (INR n < 1) by (apply (Rmult_lt_reg_r dt); lra). destruct n; [reflexivity|].
        rewrite S_INR in H. pose proof (pos_INR n). lra.
    + split.
      * intros d [<-|Hin]; [|apply I1; exact Hin]. unfold Rmin. destruct (Rle_dec dt rem); lra.
      * change (rsum (?a :: ?l)) with (a + rsum l). rewrite I2. rewrite (Rmax_right 0 rem) by lra.
        rewrite Rmax_right; [lra|]. unfold Rmin. destruct (Rle_dec dt rem); lra.
Qed.

Lemma run_steps_schedule {W} (components : list (component R W)) until dt n : forall s,
  run_steps components until dt n s
  = foldM (fun s d => sequence_update components d s) (schedule n dt (until - sq_time s)) s.
Proof.
  induction n as [|n IH]; intros s; [reflexivity|]. cbn [run_steps schedule foldM]. rewrite nmin_R. numR.
  destruct (sequence_update components (Rmin dt (until - sq_time s)) s) as [s1|] eqn:E; [|reflexivity].
  cbn [bind]. rewrite IH. destruct (update_records _ _ _ _ E) as [ge [re [Et _]]]. rewrite Et. numR.
  f_equal. f_equal. lra.
Qed.

Lemma updates_time {W} (components : list (component R W)) ds : forall s s',
  foldM (fun s d => sequence_update components d s) ds s = Ok s' -> sq_time s' = sq_time s + rsum ds.
Proof.
  induction ds as [|d ds IH]; intros s s' E.
  - injection E as <-. cbn. lra.
  - cbn [foldM] in E. okinv E Eu. rewrite (IH _ _ E). destruct (update_records _ _ _ _ Eu) as [ge [re [Et _]]].
    rewrite Et. numR. change (rsum (d :: ds)) with (d + rsum ds). lra.
Qed.

Theorem run_reaches {W} (components : list (component R W)) until dt (s : sequence R W) : 0 < dt ->
  exists ds, sequence_run components (Some until) (Some dt) s
             = foldM (fun s d => sequence_update components d s) ds s
    /\ (forall d, In d ds -> 0 < d <= dt)
    /\ (until <= sq_time s -> ds = [])
    /\ (sq_time s < until ->
        (until - sq_time s) / dt <= INR (length ds) < (until - sq_time s) / dt + 1)
    /\ forall s', sequence_run components (Some until) (Some dt) s = Ok s' -> sq_time s' = Rmax (sq_time s) until.
Proof.
  intros Hd. unfold sequence_run. numR. rewrite n0_R.
  destruct (Reqb dt 0) eqn:Hc; [apply Reqb_true in Hc; lra|].
  pose proof (n_steps_R until dt (sq_time s) Hd) as [N1 N2]. set (n := Z.to_nat _) in *.
  set (x := (until - sq_time s) / dt) in *.
  assert (Ex : until - sq_time s = x * dt) by (unfold x; field; lra).
  assert (P1 : 0 < until - sq_time s -> 0 < x).
  { intros P. unfold x. apply Rdiv_lt_0_compat; assumption. }
  assert (P2 : until - sq_time s <= 0 -> x <= 0).
  { intros P. destruct (Rle_dec x 0) as [L|L]; [exact L|].
    assert (0 < x * dt) by (apply Rmult_lt_0_compat; lra). lra. }
  destruct (schedule_ok n dt Hd (until - sq_time s)) as [S1 S2].
  { intros P. specialize (N1 (P1 P)). rewrite Ex. split.
    - apply Rmult_le_compat_r; lra.
    - replace (x * dt + dt) with ((x + 1) * dt) by ring. apply Rmult_lt_compat_r; lra. }
  { intros P. apply N2, P2, P. }
  exists (schedule n dt (until - sq_time s)). rewrite run_steps_schedule.
  split; [reflexivity|]. split; [exact S1|]. split.
  { intros Hu. assert (n = 0%nat) as -> by (apply N2, P2; lra). reflexivity. }
  split.
  { intros Hu. rewrite schedule_length. apply N1, P1. lra. }
  intros s' E. rewrite (updates_time _ _ _ _ E), S2. unfold Rmax.
  destruct (Rle_dec 0 (until - sq_time s)), (Rle_dec (sq_time s) until); lra.
Qed.

(* the default end is one time step ahead, the default step the time step *)
Theorem run_reaches_any {W} (components : list (component R W)) until dt (s : sequence R W) :
  let T := match until with Some u => u | None => sq_time s + sq_time_step s end in
  let d := match dt with Some d => d | None => sq_time_step s end in
  0 < d ->
  exists ds, sequence_run components until dt s = foldM (fun s d => sequence_update components d s) ds s
    /\ (forall e, In e ds -> 0 < e <= d)
    /\ (T <= sq_time s -> ds = [])
    /\ (sq_time s < T -> (T - sq_time s) / d <= INR (length ds) < (T - sq_time s) / d + 1)
    /\ (until = None -> dt = None -> length ds = 1%nat)
    /\ forall s', sequence_run components until dt s = Ok s' -> sq_time s' = Rmax (sq_time s) T.
Proof.
  intros T d Hd. destruct (run_reaches components T d s Hd) as [ds [E [H1 [H2 [H3 H4]]]]].
  assert (X : sequence_run components until dt s = sequence_run components (Some T) (Some d) s).
  { unfold T, d. destruct until, dt; reflexivity. }
  exists ds. rewrite X. split; [exact E|]. split; [exact H1|]. split; [exact H2|]. split; [exact H3|].
  split; [|exact H4]. intros -> ->. unfold T, d in *. assert (B : sq_time s < sq_time s + sq_time_step s) by lra.
  specialize (H3 B). replace ((sq_time s + sq_time_step s - sq_time s) / sq_time_step s) with 1 in H3 by (field; lra).
  destruct H3 as [L1 L2]. replace (1 + 1) with (INR 2) in L2 by (simpl; lra). apply INR_lt in L2.
  replace 1 with (INR 1) in L1 by reflexivity. apply INR_le in L1. lia.
Qed.

(** ** ages *)
Definition ages_ok {W} (s : sequence R W) : Prop :=
  nondecreasing (map ge_age (sq_at_layer_grid s)) /\ map re_age (sq_at_layer_row s) = map ge_age (sq_at_layer_grid s)
  /\ forall a, In a (map ge_age (sq_at_layer_grid s)) -> a <= sq_time s.

Lemma nondecreasing_snoc l b : nondecreasing l -> (forall a, In a l -> a <= b) -> nondecreasing (l ++ [b]).
Proof.
  intros Hl Hb i j Hij. rewrite app_length in Hij. cbn [length] in Hij.
  destruct (Nat.eq_dec j (length l)) as [->|Hj].
  - rewrite (app_nth2 l [b] 0 (le_n _)), Nat.sub_diag. cbn [nth]. rewrite app_nth1 by lia. apply Hb, nth_In. lia.
  - rewrite !app_nth1 by lia. apply Hl. lia.
Qed.

Lemma update_ages {W} (components : list (component R W)) d s s' : 0 <= d -> ages_ok s ->
  sequence_update components d s = Ok s' -> ages_ok s'.
Proof.
  intros Hd [A1 [A2 A3]] E. destruct (update_records _ _ _ _ E) as [ge [re [Et [_ [G [R [Ag [Ar _]]]]]]]].
  numR. unfold ages_ok. rewrite G, R, !map_app. cbn [map]. rewrite Ag, Ar, A2.
  assert (B : forall a, In a (map ge_age (sq_at_layer_grid s)) -> a <= sq_time s') by (intros a Ha; specialize (A3 a Ha); lra).
  split; [apply nondecreasing_snoc; assumption|]. split; [reflexivity|].
  intros a Ha. apply in_app_or in Ha. destruct Ha as [Ha|[<-|[]]]; [apply B; exact Ha|lra].
Qed.

Theorem records_follow_time {W} (components : list (component R W)) ds : forall s s',
  (forall d, In d ds -> 0 <= d) -> ages_ok s ->
  foldM (fun s d => sequence_update components d s) ds s = Ok s' ->
  ages_ok s' /\ length (sq_at_layer_grid s') = (length (sq_at_layer_grid s) + length ds)%nat
  /\ length (sq_at_layer_row s') = (length (sq_at_layer_row s) + length ds)%nat.
Proof.
  induction ds as [|d ds IH]; intros s s' Hd Hs E.
  - injection E as <-. cbn. split; [exact Hs|]. lia.
  - cbn [foldM] in E. okinv E Eu.
    destruct (IH a s') as [I1 [I2 I3]].
    + intros; apply Hd; right; assumption.
    + eapply update_ages; [|exact Hs|exact Eu]. apply Hd; left; reflexivity.
    + exact E.
    + destruct (update_records _ _ _ _ Eu) as [ge [re [_ [_ [G [R _]]]]]].
      rewrite G, app_length in I2. rewrite R, app_length in I3. cbn [length] in *. split; [exact I1|]. lia.
Qed.

Lemma init_ages {W} (w : W) (g : grid R) step s : sequence_init w g step = Ok s ->
  ages_ok s /\ sq_time s = 0 /\ (length (sq_at_layer_grid s) <= 1)%nat.
Proof.
  intros E. unfold sequence_init in E. okinv E Ez. okinv E Eb.
  match type of E with bind ?r _ = _ => assert (X : forall s1, r = Ok s1 ->
    sq_time s1 = 0 /\ map ge_age (sq_at_layer_grid s1) = map re_age (sq_at_layer_row s1)
    /\ (map ge_age (sq_at_layer_grid s1) = [] \/ map ge_age (sq_at_layer_grid s1) = [0])) end.
  { intros s1. destruct (existsb _ _).
    - intros Ea. destruct (add_layer_spec _ _ _ Ea)
        as [z [el1 [ge [re [_ [_ [_ [Et [_ [_ [_ [G [R [A1 [A2 _]]]]]]]]]]]]]]].
      cbn [sq_time sq_at_layer_grid sq_at_layer_row] in *. rewrite Et, G, R. cbn [map app]. rewrite A1, A2, n0_R. auto.
    - intros X. injection X as <-. cbn [sq_time sq_at_layer_grid sq_at_layer_row map]. rewrite n0_R. auto. }
  okinv E Ea. specialize (X _ eq_refl). okinv E Es. okinv E Ec. injection E as <-.
  destruct X as [X1 [X2 X3]]. unfold ages_ok. cbn [set_sq_grid sq_time sq_at_layer_grid sq_at_layer_row].
  rewrite X1, <- X2. split; [|split; [reflexivity|]].
  2:{ destruct X3 as [X3|X3]; apply (f_equal (@length _)) in X3; rewrite map_length in X3; cbn [length] in X3; lia. }
  destruct X3 as [X3|X3]; rewrite X3.
  - split; [intros i j Hij; cbn in Hij; lia|]. split; [reflexivity|]. intros v [].
  - split; [intros i j Hij; cbn in Hij; lia|]. split; [reflexivity|]. intros v [<-|[]]. lra.
Qed.

(** ** when adding a layer succeeds *)
Section Success.
  Context {A : Type} `{Num A} {W : Type}.

  Definition row_fits (g : grid A) (name : string) : Prop :=
    match rowf g name with
    | None => True
    | Some v => length v = 1%nat \/ length v = number_of_rows g
    end.

  Lemma layer_properties_ok time por (g : grid A) : model_grid g ->
    gval g "sea_level__elevation" <> None ->
    exists props, layer_properties time por g = Ok props /\ map fst props = layer_names g.
  Proof.
    intros [_ [[z [Ez _]] [_ [[dz [Ed _]] _]]]] Hs. unfold layer_properties, node_r, gval_r, layer_names.
    rewrite Ez, Ed. destruct (gval g "sea_level__elevation"); [|contradiction]. cbn [bind].
    destruct (node g "delta_sediment_sand__volume_fraction"); eexists; split; reflexivity.
  Qed.

  Lemma broadcast_fits (g : grid A) name (l : list (option A)) : row_fits g name ->
    l = match rowf g name with Some v => v | None => repeat None (number_of_rows g) end ->
    exists l', broadcast (number_of_rows g) l = Ok l'.
  Proof.
    unfold row_fits, broadcast. intros Hf ->. destruct (rowf g name) as [v|].
    - destruct Hf as [Hf|Hf].
      + destruct (Nat.eqb _ _); [eauto|]. destruct v as [|x [|]]; try discriminate. eauto.
      + rewrite Hf, Nat.eqb_refl. eauto.
    - rewrite repeat_length, Nat.eqb_refl. eauto.
  Qed.

  Lemma add_layer_ok dz (s : sequence A W) : model_grid (sq_grid s) ->
    shaped (g_rows (sq_grid s)) (g_cols (sq_grid s) - 2) dz ->
    gval (sq_grid s) "sea_level__elevation" <> None -> tracks (sq_grid s) ->
    row_fits (sq_grid s) "x_of_shore" -> row_fits (sq_grid s) "x_of_shelf_edge" ->
    exists s', add_layer dz s = Ok s' /\ tracks (sq_grid s')
      /\ at_grid (sq_grid s') = at_grid (sq_grid s) /\ at_row (sq_grid s') = at_row (sq_grid s).
  Proof.
    intros Hg Hdz Hs Ht F1 F2. unfold add_layer, node_r.
    assert (Hg' := Hg). destruct Hg' as [Hc [[z [Ez Hz]] _]]. rewrite Ez. cbn [bind].
    set (g1 := put_node _ _ _).
    assert (Hz' : shaped (g_rows (sq_grid s) + 2) (g_cols (sq_grid s)) (set_cells z (fmap2 nadd (cells z) dz))).
    { apply shaped_set_cells'; [exact Hc|exact Hz|]. apply shaped_fmap2; [|exact Hdz].
      apply shaped_cells'; assumption. }
    assert (Hg1 : model_grid g1) by (apply model_grid_put; assumption).
    destruct (layer_properties_ok (sq_time s) (nlit (1 # 2)) g1 Hg1 Hs) as [props [Ep Hp]].
    rewrite Ep. cbn [bind].
    destruct (el_add_ok dz props (layers g1) (layer_names g1) Hp) as [el1 [E1 [N1 [T1 _]]]].
    { destruct Ht as [Ht|Ht]; [left; exact Ht|right]. 
      change (el_tracking (layers g1)) with (el_tracking (layers (sq_grid s))). rewrite Ht.
      unfold layer_names, g1. node_simp. reflexivity. }
    rewrite E1. cbn [bind]. unfold gval_r.
    change (gval g1 "sea_level__elevation") with (gval (sq_grid s) "sea_level__elevation").
    destruct (gval (sq_grid s) "sea_level__elevation"); [|contradiction]. cbn [bind].
    destruct (broadcast_fits (sq_grid s) _ _ F1 eq_refl) as [l1 B1].
    destruct (broadcast_fits (sq_grid s) _ _ F2 eq_refl) as [l2 B2].
    change (number_of_rows g1) with (number_of_rows (sq_grid s)). rewrite B1. cbn [bind]. rewrite B2. cbn [bind].
    destruct (archive (sq_archived s, el1)) as [n el] eqn:Ea.
    eexists. split; [reflexivity|]. cbn [sq_grid]. split; [|split; reflexivity].
    right. cbn [set_layers layers].
    assert (Te : el_tracking el = el_tracking el1).
    { unfold archive in Ea. destruct (_ =? 0)%Z; injection Ea as _ <-; reflexivity. }
    rewrite Te, T1. reflexivity.
  Qed.

  Lemma add_layer_fails dz (s : sequence A W) v name : model_grid (sq_grid s) ->
    shaped (g_rows (sq_grid s)) (g_cols (sq_grid s) - 2) dz ->
    gval (sq_grid s) "sea_level__elevation" <> None ->
    name = "x_of_shore"%string \/ name = "x_of_shelf_edge"%string ->
    rowf (sq_grid s) name = Some v -> (length v = g_rows (sq_grid s))%nat -> (g_rows (sq_grid s) <> 1)%nat ->
    add_layer dz s = Err ValueError.
  Proof.
    intros Hg Hdz Hs Hn Hv Hl Hr. unfold add_layer, node_r.
    assert (Hg' := Hg). destruct Hg' as [Hc [[z [Ez Hz]] _]]. rewrite Ez. cbn [bind].
    set (g1 := put_node _ _ _).
    assert (Hz' : shaped (g_rows (sq_grid s) + 2) (g_cols (sq_grid s)) (set_cells z (fmap2 nadd (cells z) dz))).
    { apply shaped_set_cells'; [exact Hc|exact Hz|]. apply shaped_fmap2; [|exact Hdz].
      apply shaped_cells'; assumption. }
    assert (Hg1 : model_grid g1) by (apply model_grid_put; assumption).
    destruct (layer_properties_ok (sq_time s) (nlit (1 # 2)) g1 Hg1 Hs) as [props [Ep Hp]].
    rewrite Ep. cbn [bind]. destruct (el_add dz props (layers g1)) as [el1|e] eqn:Ee.
    2:{ unfold el_add in Ee. destruct (forallb _ _); [discriminate|]. injection Ee as <-. reflexivity. }
    cbn [bind]. unfold gval_r.
    change (gval g1 "sea_level__elevation") with (gval (sq_grid s) "sea_level__elevation").
    destruct (gval (sq_grid s) "sea_level__elevation"); [|contradiction]. cbn [bind].
    change (number_of_rows g1) with (number_of_rows (sq_grid s)).
    assert (B : broadcast (number_of_rows (sq_grid s)) v = Err ValueError).
    { unfold broadcast, number_of_rows. destruct (Nat.eqb_spec (length v) (g_rows (sq_grid s) + 2)); [lia|].
      destruct v as [|x [|]]; try reflexivity. cbn [length] in Hl. congruence. }
    assert (BE : forall l : list (option A), broadcast (number_of_rows (sq_grid s)) l = Err ValueError
                      \/ exists l', broadcast (number_of_rows (sq_grid s)) l = Ok l').
    { intros l. unfold broadcast. destruct (Nat.eqb _ _); [eauto|]. destruct l as [|x [|]]; eauto. }
    destruct Hn as [->| ->]; rewrite Hv.
    - rewrite B. reflexivity.
    - destruct (BE (match rowf (sq_grid s) "x_of_shore" with
                    | Some v0 => v0 | None => repeat None (number_of_rows (sq_grid s)) end)) as [B1|[l' B1]];
        rewrite B1; [reflexivity|]. cbn [bind]. rewrite B. reflexivity.
  Qed.

  Lemma shoreline_update_spec interp1d alpha (g g' : grid A) : model_grid g ->
    shoreline_update interp1d alpha g = Ok g' ->
    exists v1 v2, rowf g' "x_of_shore" = Some v1 /\ length v1 = g_rows g
      /\ rowf g' "x_of_shelf_edge" = Some v2 /\ length v2 = g_rows g
      /\ at_node g' = at_node g /\ at_grid g' = at_grid g /\ layers g' = layers g
      /\ g_rows g' = g_rows g /\ g_cols g' = g_cols g.
  Proof.
    intros [Hc [[z [Ez Hz]] [_ [[dz [Ed Hd]] _]]]] E. unfold shoreline_update in E.
    rewrite (get_profile_ok _ _ _ Ez) in E. cbn [bind] in E. rewrite (get_profile_ok _ _ _ Ed) in E. cbn [bind] in E.
    okinv E Es. okinv E Er. injection E as <-.
    assert (L : length a0 = g_rows g).
    { rewrite (mapM_length _ _ _ Er), combine_length.
      rewrite (shaped_len _ _ _ (shaped_inner _ _ _ Hz)), (shaped_len _ _ _ (shaped_inner _ _ _ Hd)). lia. }
    eexists _, _. rewrite !rowf_put_rowf. cbn [String.eqb]. eqb_lit.
    split; [reflexivity|]. split; [rewrite map_length; exact L|]. split; [reflexivity|].
    split; [rewrite map_length; exact L|]. auto 10.
  Qed.

  Lemma model_grid_same (g g' : grid A) : at_node g' = at_node g -> layers g' = layers g ->
    g_rows g' = g_rows g -> g_cols g' = g_cols g -> model_grid g -> model_grid g'.
  Proof.
    intros E1 E2 E3 E4 [Hc [H1 [H2 [H3 H4]]]].
    assert (F : forall n, has_field g n -> has_field g' n).
    { intros n [f [Ef Hf]]. exists f. unfold node. rewrite E1, E3, E4. split; assumption. }
    unfold model_grid. rewrite E2, E3, E4. auto 10.
  Qed.

  Theorem several_rows_fail interp1d alpha dt (s : sequence A W) g1 : model_grid (sq_grid s) ->
    gval (sq_grid s) "sea_level__elevation" <> None -> (g_rows (sq_grid s) <> 1)%nat ->
    shoreline_update interp1d alpha (sq_grid s) = Ok g1 ->
    sequence_update [shoreline_component interp1d alpha] dt s = Err ValueError.
  Proof.
    intros Hg Hs Hr E. unfold sequence_update, run_components. cbn [foldM]. unfold shoreline_component at 1.
    cbn [snd fst]. rewrite E. cbn [bind].
    destruct (shoreline_update_spec _ _ _ _ Hg E) as [v1 [v2 [V1 [L1 [_ [_ [En [Eg [El [Er Ec]]]]]]]]]].
    assert (Hg1 : model_grid g1) by (apply (model_grid_same (sq_grid s)); assumption).
    assert (Hg1' := Hg1). destruct Hg1' as [Hc [_ [_ [[dz [Ed Hd]] _]]]]. unfold node_r. rewrite Ed. cbn [bind].
    rewrite (add_layer_fails _ _ v1 "x_of_shore"); cbn [sq_grid]; try assumption; try reflexivity.
    - apply shaped_cells'; assumption.
    - unfold gval. rewrite Eg. exact Hs.
    - left; reflexivity.
    - congruence.
    - congruence.
  Qed.

  Theorem one_row_succeeds interp1d alpha dt (s : sequence A W) g1 : model_grid (sq_grid s) ->
    gval (sq_grid s) "sea_level__elevation" <> None -> tracks (sq_grid s) -> g_rows (sq_grid s) = 1%nat ->
    shoreline_update interp1d alpha (sq_grid s) = Ok g1 ->
    exists s', sequence_update [shoreline_component interp1d alpha] dt s = Ok s'
      /\ model_grid (sq_grid s') /\ g_rows (sq_grid s') = 1%nat /\ tracks (sq_grid s')
      /\ gval (sq_grid s') "sea_level__elevation" <> None.
  Proof.
    intros Hg Hs Ht Hr E. unfold sequence_update, run_components. cbn [foldM]. unfold shoreline_component at 1.
    cbn [snd fst]. rewrite E. cbn [bind].
    destruct (shoreline_update_spec _ _ _ _ Hg E) as [v1 [v2 [V1 [L1 [V2 [L2 [En [Eg [El [Er Ec]]]]]]]]]].
    assert (Hg1 : model_grid g1) by (apply (model_grid_same (sq_grid s)); assumption).
    assert (Hg1' := Hg1). destruct Hg1' as [Hc [_ [_ [[dz [Ed Hd]] _]]]]. unfold node_r. rewrite Ed. cbn [bind].
    set (s1 := mkSequence _ g1 _ _ _ _ _).
    assert (Sh : shaped (g_rows g1) (g_cols g1 - 2) (cells dz)) by (apply shaped_cells'; assumption).
    assert (Hs1 : gval g1 "sea_level__elevation" <> None) by (unfold gval; rewrite Eg; exact Hs).
    assert (LN : forall g' : grid A, at_node g' = at_node g1 -> layer_names g' = layer_names g1).
    { intros g' X. unfold layer_names, node. rewrite X. reflexivity. }
    destruct (add_layer_ok (cells dz) s1) as [s2 [E2 [T2 [AG AR]]]]; try assumption.
    { unfold tracks in *. cbn [sq_grid s1]. rewrite El. rewrite (LN (sq_grid s)) in Ht by (symmetry; exact En). exact Ht. }
    { unfold row_fits. cbn [sq_grid s1]. rewrite V1. left. congruence. }
    { unfold row_fits. cbn [sq_grid s1]. rewrite V2. left. congruence. }
    rewrite E2. cbn [bind].
    destruct (add_layer_grid _ _ _ E2 Hg1 Sh) as [Hg2 [R2 C2]]. cbn [sq_grid s1] in *.
    destruct (finish_ok _ Hg2) as [g3 [g4 [E3 [E4 [[G4 _] [R4 [C4 L4]]]]]]].
    rewrite E3. cbn [bind]. rewrite E4. cbn [bind]. eexists. split; [reflexivity|].
    cbn [set_sq_grid sq_grid] in *. split; [exact G4|]. split; [congruence|].
    destruct (settle_spec _ _ E3) as [z1 [z0 [_ [_ X3]]]]. destruct (clear_spec _ _ E4) as [dz1 [_ X4]]. split.
    - unfold tracks in *. rewrite L4.
      assert (N4 : node g4 "delta_sediment_sand__volume_fraction" = node (sq_grid s2) "delta_sediment_sand__volume_fraction").
      { rewrite X4. node_simp. rewrite X3. node_simp. reflexivity. }
      unfold layer_names in *. rewrite N4. exact T2.
    - rewrite X4, gval_put_node, X3, gval_put_node. unfold gval. rewrite AG. cbn [sq_grid s1]. rewrite Eg. exact Hs.
  Qed.

  (* bedrock and pending increments are left as the components left them *)
  Theorem bedrock_untouched (components : list (component A W)) dt (s s' : sequence A W) w g name :
    run_components components dt (sq_world s, sq_grid s) = Ok (w, g) ->
    sequence_update components dt s = Ok s' ->
    name <> "topographic__elevation"%string -> name <> "sediment_deposit__thickness"%string ->
    node (sq_grid s') name = node g name.
  Proof.
    intros Er E N1 N2. unfold sequence_update in E. rewrite Er in E. cbn [bind] in E.
    okinv E Ed. okinv E Ea. okinv E Es. okinv E Ec. injection E as <-. cbn [set_sq_grid sq_grid].
    destruct (settle_spec _ _ Es) as [z1 [z0 [_ [_ ->]]]]. destruct (clear_spec _ _ Ec) as [dz1 [_ ->]].
    destruct (add_layer_spec _ _ _ Ea) as [z [el1 [ge [re [_ [_ [_ [_ [_ [_ [-> _]]]]]]]]]]].
    cbn [sq_grid]. rewrite !node_put_node.
    destruct (String.eqb_spec name "sediment_deposit__thickness"); [contradiction|].
    destruct (String.eqb_spec name "topographic__elevation"); [contradiction|].
    change (node (set_layers ?g' ?l) name) with (node g' name). rewrite node_put_node.
    destruct (String.eqb_spec name "topographic__elevation"); [contradiction|]. reflexivity.
  Qed.
End Success.

Theorem history_ages {W} (components : list (component R W)) (w : W) g step ds s s' :
  sequence_init w g step = Ok s -> (forall d, In d ds -> 0 <= d) ->
  foldM (fun s d => sequence_update components d s) ds s = Ok s' ->
  nondecreasing (map ge_age (sq_at_layer_grid s'))
  /\ map re_age (sq_at_layer_row s') = map ge_age (sq_at_layer_grid s')
  /\ (forall a, In a (map ge_age (sq_at_layer_grid s')) -> a <= sq_time s')
  /\ length (sq_at_layer_grid s') = (length (sq_at_layer_grid s) + length ds)%nat
  /\ (length (sq_at_layer_grid s) <= 1)%nat.
Proof.
  intros Ei Hd E. destruct (init_ages w g step s Ei) as [Ha [_ Hl]].
  destruct (records_follow_time components ds s s' Hd Ha E) as [[A1 [A2 A3]] [L _]].
  auto.
Qed.
