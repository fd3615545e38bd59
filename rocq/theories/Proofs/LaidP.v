(** The layers that whole models lay (C85-C87). *)
From Coq Require Import String List ZArith QArith Reals Arith Lia Lra.
From Verif.Base Require Import Num Py Arr.
From Verif.Model Require Import Layers Grid Archive SeaLevel Sequence Flexure Components SequenceModel.
From Verif.Spec Require Import Strata Column Laid.
From Verif.Proofs Require Import GridP LayersP SequenceP SequenceModelP ClockP.
Import ListNotations.
Local Open Scope nat_scope.

Section Any.
  Context {A : Type} `{Num A}.

  (* one entry of a history, in one cell *)
  Definition cell_of (i j : nat) (h : field A * list (string * field A)) : A * list (string * A) :=
    (at2 n0 (fst h) i j, map (fun kv => (fst kv, at2 n0 (snd kv) i j)) (snd h)).

  Lemma raw_column i j hist : raw_stack i j hist = column (map (cell_of i j) hist).
  Proof.
    unfold raw_stack, column. generalize (@nil (lcell A)).
    induction hist as [|h hist IH]; intros st; [reflexivity|]. cbn [map fold_left]. rewrite IH. reflexivity.
  Qed.

  Definition names_of (hist : list (field A * list (string * field A))) : list string :=
    match hist with [] => [] | h :: _ => map fst (snd h) end.

  Lemma first_names_of i j hist : first_names (map (cell_of i j) hist) = names_of hist.
  Proof. destruct hist as [|h hist]; [reflexivity|]. cbn. rewrite map_map. reflexivity. Qed.

  Lemma el_add_inv dz props (el el' : event_layers A) : el_add dz props el = Ok el' ->
    el_number el' = S (el_number el)
    /\ el_tracking el' = (if Nat.eqb (el_number el) 0 then map fst props else el_tracking el)
    /\ el_stacks el' = fmapi (fun i j st => add_stack (at2 n0 dz i j)
                        (map (fun kv => (fst kv, at2 n0 (snd kv) i j)) props) st) (el_stacks el).
  Proof.
    unfold el_add. destruct (forallb _ _); [|discriminate]. intros X; injection X as <-. cbn. auto.
  Qed.

  (* counts, of every history that goes through *)
  Lemma run_counts hist n m : forall a el, layer_run hist (0, el_empty n m) = Ok (a, el) ->
    a = merged_after (length hist) /\ el_number el + 9 * a = length hist
    /\ (hist <> [] -> el_number el <> 0) /\ (el_number el <> 0 -> el_tracking el = names_of hist)
    /\ shaped n m (el_stacks el).
  Proof.
    induction hist as [|h hist IH] using rev_ind; intros a el E.
    - injection E as <- <-. split; [reflexivity|]. split; [reflexivity|]. split; [intros C; contradiction|].
      split; [intros C; exfalso; apply C; reflexivity|]. apply shaped_full.
    - rewrite layer_run_snoc in E. destruct (layer_run hist (0, el_empty n m)) as [[a0 el0]|] eqn:E0; [|discriminate].
      cbn [bind] in E. destruct (IH _ _ eq_refl) as [Ea [En [Ep [Et Sh]]]].
      unfold add_and_archive in E. cbn [fst snd] in E.
      destruct (el_add (fst h) (snd h) el0) as [el1|] eqn:E1; [|discriminate]. cbn [bind] in E.
      destruct (el_add_inv _ _ _ _ E1) as [N1 [T1 S1]].
      assert (Sh1 : shaped n m (el_stacks el1)) by (rewrite S1; apply shaped_fmapi; exact Sh).
      assert (T2 : el_tracking el1 = names_of (hist ++ [h])).
      { rewrite T1. destruct (Nat.eqb_spec (el_number el0) 0) as [Z|Z].
        - destruct hist as [|h0 hist]; [reflexivity|]. exfalso. apply Ep; [discriminate|exact Z].
        - rewrite (Et Z). destruct hist as [|h0 hist]; [|reflexivity]. exfalso. cbn in En. lia. }
      unfold archive in E. rewrite app_length. cbn [length]. rewrite Nat.add_1_r.
      rewrite (archive_test (length hist) a0) in E by lia.
      pose proof (merged_after_S (length hist)) as MS. rewrite <- Ea in MS.
      destruct (Nat.eqb_spec (S (length hist)) (10 * a0 + 20)) as [B|B]; injection E as <- <-;
        cbn [el_reduce el_number el_tracking el_stacks].
      + split; [lia|]. split; [lia|]. split; [intros _; lia|]. split; [intros _; exact T2|]. apply shaped_fmap. exact Sh1.
      + split; [lia|]. split; [lia|]. split; [intros _; lia|]. split; [intros _; exact T2|]. exact Sh1.
  Qed.

  Lemma names_of_snoc hist h : hist <> [] -> names_of (hist ++ [h]) = names_of hist.
  Proof. destruct hist; [contradiction|reflexivity]. Qed.
End Any.

Lemma grouped_nil red (r : list (lcell R)) : grouped red 0 r = r.
Proof. reflexivity. Qed.

(* contents *)
Lemma run_column (hist : list (field R * list (string * field R))) n m : forall a el,
  layer_run hist (0, el_empty n m) = Ok (a, el) -> forall i j, i < n -> j < m ->
  at2 [] (el_stacks el) i j
  = archived_column (map (cell_of i j) hist).
Proof.
  assert (G : forall i j h0, archived_column (map (cell_of i j) h0)
              = grouped (layer_reducers (names_of h0)) (merged_after (length h0)) (raw_stack i j h0)).
  { intros i j h0. unfold archived_column. rewrite map_length, raw_column, first_names_of. reflexivity. }
  induction hist as [|h hist IH] using rev_ind; intros a el E i j Hi Hj.
  - injection E as <- <-. unfold el_empty. cbn [el_stacks]. rewrite at2_full by assumption. reflexivity.
  - assert (E' := E). rewrite layer_run_snoc in E.
    destruct (layer_run hist (0, el_empty n m)) as [[a0 el0]|] eqn:E0; [|discriminate].
    cbn [bind] in E. destruct (run_counts _ _ _ _ _ E0) as [Ea [En [Ep [Et Sh]]]].
    specialize (IH _ _ eq_refl i j Hi Hj). rewrite G in IH.
    unfold add_and_archive in E. cbn [fst snd] in E.
    destruct (el_add (fst h) (snd h) el0) as [el1|] eqn:E1; [|discriminate]. cbn [bind] in E.
    destruct (el_add_inv _ _ _ _ E1) as [N1 [T1 S1]].
    assert (Sh1 : shaped n m (el_stacks el1)) by (rewrite S1; apply shaped_fmapi; exact Sh).
    assert (T2 : el_tracking el1 = names_of (hist ++ [h])).
    { rewrite T1. destruct (Nat.eqb_spec (el_number el0) 0) as [Z|Z].
      - destruct hist as [|h0 hist]; [reflexivity|]. exfalso. apply Ep; [discriminate|exact Z].
      - rewrite (Et Z). destruct hist as [|h0 hist]; [|reflexivity]. exfalso. cbn in En. lia. }
    rewrite G. set (a' := merged_after (length hist)) in *.
    assert (St1 : at2 [] (el_stacks el1) i j = grouped (layer_reducers (names_of (hist ++ [h]))) a' (raw_stack i j (hist ++ [h]))).
    { rewrite S1. etransitivity; [apply (at2_fmapi (A := stack R) (B := stack R) _ n m _ []); assumption|].
      etransitivity; [apply f_equal; exact IH|].
      assert (X : grouped (layer_reducers (names_of hist)) a' (raw_stack i j hist)
                  = grouped (layer_reducers (names_of (hist ++ [h]))) a' (raw_stack i j hist)).
      { destruct hist as [|h0 hist0]; [reflexivity|]. rewrite names_of_snoc by discriminate. reflexivity. }
      rewrite X, raw_snoc. apply grouped_add; [apply raw_nonneg|]. rewrite raw_length.
      unfold a'. pose proof (merged_after_cases (length hist)). lia. }
    unfold archive in E. rewrite app_length. cbn [length]. rewrite Nat.add_1_r.
    rewrite (archive_test (length hist) a0) in E by lia.
    pose proof (merged_after_S (length hist)) as MS. fold a' in MS. rewrite Ea in E.
    destruct (Nat.eqb_spec (S (length hist)) (10 * a' + 20)) as [B|B]; injection E as <- <-; rewrite MS; [|exact St1].
    cbn [el_reduce el_stacks].
    etransitivity; [apply (at2_fmap (A := stack R) (B := stack R) _ n m _ []); assumption|].
    etransitivity; [apply f_equal; exact St1|]. rewrite T2. apply grouped_reduce. rewrite raw_length, app_length. cbn. lia.
Qed.

(** ** one update of a Sequence *)
Section Update.
  Context {A : Type} `{Num A} {W : Type}.

  Lemma props_cells t por (g : grid A) props : whole_grid g -> layer_properties t por g = Ok props ->
    map fst props = layer_names g
    /\ exists deposit z sea,
      node g "sediment_deposit__thickness" = Some deposit /\ node g "topographic__elevation" = Some z
      /\ gval g "sea_level__elevation" = Some sea
      /\ forall i j d, i < g_rows g -> j < g_cols g - 2 ->
         (d, map (fun kv => (fst kv, at2 n0 (snd kv) i j)) props)
         = laid_layer d t (nsub sea (in_cell z i j)) (nmax (in_cell deposit i j) n0) por
             (option_map (fun f => in_cell f i j) (node g "delta_sediment_sand__volume_fraction")).
  Proof.
    intros [Hg Hw] E. assert (Hc := proj1 Hg). unfold layer_properties in E.
    okinv E Ed. okinv E Es. okinv E Ez. apply node_r_ok in Ed. apply node_r_ok in Ez. apply gval_r_ok in Es.
    injection E as <-. split.
    { unfold layer_names. destruct (node g "delta_sediment_sand__volume_fraction"); reflexivity. }
    exists a, a1, a0. split; [exact Ed|]. split; [exact Ez|]. split; [exact Es|].
    intros i j d Hi Hj. unfold laid_layer. f_equal.
    assert (Hcell : forall f, shaped (g_rows g + 2) (g_cols g) f -> at2 n0 (cells f) i j = in_cell f i j).
    { intros f Hf. apply (at2_cells' (g_rows g) (g_cols g)); assumption. }
    assert (X1 : at2 n0 (cells (fmap (fun v => nsub a0 v) a1)) i j = nsub a0 (in_cell a1 i j)).
    { rewrite Hcell by (apply shaped_fmap; exact (Hw _ _ Ez)).
      unfold in_cell at 1. rewrite (at2_fmap _ (g_rows g + 2) (g_cols g) _ n0); [reflexivity|exact (Hw _ _ Ez)|lia|lia]. }
    assert (X2 : at2 n0 (fmap (fun v => nmax v n0) (cells a)) i j = nmax (in_cell a i j) n0).
    { rewrite (at2_fmap _ (g_rows g) (g_cols g - 2) _ n0); [|apply shaped_cells'; [exact Hc|exact (Hw _ _ Ed)]|assumption|assumption].
      rewrite (Hcell a (Hw _ _ Ed)). reflexivity. }
    destruct (node g "delta_sediment_sand__volume_fraction") as [sand|] eqn:Esand; cbn [map fst snd app option_map];
      rewrite !at2_full by assumption; rewrite X1, X2; [rewrite (Hcell _ (Hw _ _ Esand))|]; reflexivity.
  Qed.

  Lemma node_put_layers (g : grid A) el n : node (set_layers g el) n = node g n.
  Proof. reflexivity. Qed.

  Lemma add_layer_laid dz (s s' : sequence A W) : whole_grid (sq_grid s) ->
    shaped (g_rows (sq_grid s)) (g_cols (sq_grid s) - 2) dz -> add_layer dz s = Ok s' ->
    whole_grid (sq_grid s') /\ g_rows (sq_grid s') = g_rows (sq_grid s) /\ g_cols (sq_grid s') = g_cols (sq_grid s)
    /\ exists h deposit z sea, 
      add_and_archive (fst h) (snd h) (sq_archived s, layers (sq_grid s)) = Ok (sq_archived s', layers (sq_grid s'))
      /\ node (sq_grid s) "sediment_deposit__thickness" = Some deposit
      /\ node (sq_grid s) "topographic__elevation" = Some z
      /\ gval (sq_grid s) "sea_level__elevation" = Some sea
      /\ forall i j, i < g_rows (sq_grid s) -> j < g_cols (sq_grid s) - 2 ->
           cell_of i j h = laid_layer (at2 n0 dz i j) (sq_time s) (nsub sea (nadd (in_cell z i j) (at2 n0 dz i j)))
             (nmax (in_cell deposit i j) n0) (nlit (1 # 2))
             (option_map (fun f => in_cell f i j) (node (sq_grid s) "delta_sediment_sand__volume_fraction")).
  Proof.
    intros Hw Hd E. destruct (add_layer_spec _ _ _ E)
      as [z [el1 [ge [re [Ez [[props [Ep Ee]] [Ew [Et [Es [Ea [Eg _]]]]]]]]]]].
    set (g1 := put_node _ _ _) in *.
    assert (Hc := proj1 (proj1 Hw)).
    assert (Hz : shaped (g_rows (sq_grid s) + 2) (g_cols (sq_grid s)) z) by exact (proj2 Hw _ _ Ez).
    assert (Hz' : shaped (g_rows (sq_grid s) + 2) (g_cols (sq_grid s)) (set_cells z (fmap2 nadd (cells z) dz))).
    { apply shaped_set_cells'; [exact Hc|exact Hz|]. apply shaped_fmap2; [|exact Hd]. apply shaped_cells'; assumption. }
    assert (Hw1 : whole_grid g1) by (apply whole_put; assumption).
    assert (Hwl : whole_grid (sq_grid s')).
    { rewrite Eg. apply whole_layers; [|exact Hw1]. apply archive_shaped. cbn [snd]. eapply el_add_shaped; [exact Ee|].
      exact (proj2 (proj2 (proj2 (proj2 (proj1 Hw))))). }
    split; [exact Hwl|]. rewrite Eg. split; [reflexivity|]. split; [reflexivity|].
    destruct (props_cells _ _ _ _ Hw1 Ep) as [Hn [deposit [z' [sea [E1 [E2 [E3 E4]]]]]]].
    exists (dz, props), deposit, z, sea. cbn [fst snd].
    split.
    { unfold add_and_archive. cbn [fst snd]. rewrite Ee. cbn [bind]. rewrite Ea. f_equal.
      rewrite <- surjective_pairing. reflexivity. }
    unfold g1 in E1, E2. revert E1 E2. node_simp. intros E1 E2. injection E2 as <-.
    split; [exact E1|]. split; [exact Ez|]. split; [exact E3|].
    intros i j Hi Hj. unfold cell_of. cbn [fst snd]. rewrite (E4 i j _ Hi Hj). unfold g1. node_simp. f_equal.
    unfold in_cell. rewrite (at2_set_cells_in (g_rows (sq_grid s)) (g_cols (sq_grid s))) by first
      [assumption | apply shaped_fmap2; [apply shaped_cells'; assumption|exact Hd]].
    rewrite (at2_fmap2 _ (g_rows (sq_grid s)) (g_cols (sq_grid s) - 2) _ _ n0 n0 n0); try assumption;
      [|apply shaped_cells'; assumption].
    rewrite (at2_cells' (g_rows (sq_grid s)) (g_cols (sq_grid s))) by assumption. reflexivity.
  Qed.
End Update.

(** ** histories of a Sequence *)
Section History.
  Context {A : Type} `{Num A} {W : Type}.

  Lemma components_layers (components : list (component A W)) dt : Forall keeps_layers components ->
    forall w g w' g', run_components components dt (w, g) = Ok (w', g') -> layers g' = layers g.
  Proof.
    intros Hk. induction Hk as [|c cs Hc Hk IH]; intros w g w' g' E.
    - injection E as <- <-. reflexivity.
    - unfold run_components in E. cbn [foldM] in E.
      destruct (c dt (w, g)) as [[w1 g1]|] eqn:E1; [|discriminate]. cbn [bind] in E.
      rewrite (IH _ _ _ _ E). exact (Hc _ _ _ _ _ E1).
  Qed.

  Lemma finish_whole (s : sequence A W) g1 g2 : whole_grid (sq_grid s) -> settle (sq_grid s) = Ok g1 ->
    clear_deposit g1 = Ok g2 ->
    whole_grid g2 /\ g_rows g2 = g_rows (sq_grid s) /\ g_cols g2 = g_cols (sq_grid s) /\ layers g2 = layers (sq_grid s)
    /\ at_grid g2 = at_grid (sq_grid s)
    /\ forall n, n <> "topographic__elevation"%string -> n <> "sediment_deposit__thickness"%string ->
         node g2 n = node (sq_grid s) n.
  Proof.
    intros Hw E1 E2. destruct (settle_whole _ _ Hw E1) as [Hw1 _].
    destruct (clear_whole _ _ Hw1 E2) as [Hw2 _]. split; [exact Hw2|].
    destruct (settle_spec _ _ E1) as [z [z0 [_ [_ ->]]]]. destruct (clear_spec _ _ E2) as [d [_ ->]].
    do 4 (split; [reflexivity|]). intros n N1 N2. rewrite !node_put_node.
    destruct (String.eqb_spec n "sediment_deposit__thickness"); [contradiction|].
    destruct (String.eqb_spec n "topographic__elevation"); [contradiction|]. reflexivity.
  Qed.

  Lemma update_laid (components : list (component A W)) dt (s s' : sequence A W) w g :
    Forall keeps_whole components -> whole_grid (sq_grid s) ->
    run_components components dt (sq_world s, sq_grid s) = Ok (w, g) ->
    sequence_update components dt s = Ok s' ->
    whole_grid (sq_grid s') /\ g_rows (sq_grid s') = g_rows (sq_grid s) /\ g_cols (sq_grid s') = g_cols (sq_grid s)
    /\ sq_time s' = nadd (sq_time s) dt
    /\ exists h, add_and_archive (fst h) (snd h) (sq_archived s, layers g) = Ok (sq_archived s', layers (sq_grid s'))
       /\ forall i j, i < g_rows (sq_grid s) -> j < g_cols (sq_grid s) - 2 ->
            update_lays i j (nadd (sq_time s) dt, g) (cell_of i j h).
  Proof.
    intros Hk Hw Er E. unfold sequence_update in E. rewrite Er in E. cbn [bind] in E.
    destruct (components_whole _ _ _ _ _ _ Hk Hw Er) as [Hw1 [R1 C1]].
    okinv E Ed. apply node_r_ok in Ed. okinv E Ea. okinv E E1. okinv E E2. injection E as <-.
    assert (Hd : shaped (g_rows g) (g_cols g - 2) (cells a)).
    { apply shaped_cells'; [exact (proj1 (proj1 Hw1))|exact (proj2 Hw1 _ _ Ed)]. }
    pose proof (fun X Y => add_layer_laid _ _ _ X Y Ea) as AL. cbn [sq_grid sq_time sq_archived] in AL.
    destruct (AL Hw1 Hd) as [Hw2 [R2 [C2 [h [deposit [z [sea [Eh [N1 [N2 [N3 N4]]]]]]]]]]].
    destruct (add_layer_spec _ _ _ Ea) as [_ [_ [_ [_ [_ [_ [_ [Tm _]]]]]]]]. cbn [sq_time] in Tm.
    destruct (finish_whole _ _ _ Hw2 E1 E2) as [Hw3 [R3 [C3 [L3 _]]]].
    cbn [set_sq_grid sq_grid sq_time sq_archived]. split; [exact Hw3|]. split; [congruence|]. split; [congruence|].
    split; [exact Tm|]. exists h. rewrite L3. split; [exact Eh|].
    intros i j Hi Hj. exists deposit, z, sea. cbn [fst snd]. split; [exact N1|]. split; [exact N2|]. split; [exact N3|].
    rewrite Ed in N1. injection N1 as <-.
    rewrite N4 by (rewrite ?R1, ?C1; assumption).
    rewrite (at2_cells' (g_rows g) (g_cols g)); [reflexivity|exact (proj1 (proj1 Hw1))|exact (proj2 Hw1 _ _ Ed)| |];
      rewrite ?R1, ?C1; assumption.
  Qed.

  Lemma layer_run_app h1 h2 (st : nat * event_layers A) :
    layer_run (h1 ++ h2) st = bind (layer_run h1 st) (layer_run h2).
  Proof. unfold layer_run. rewrite foldM_app. reflexivity. Qed.

  Lemma history_laid (components : list (component A W)) (s : sequence A W) gs s' :
    Forall keeps_whole components -> Forall keeps_layers components ->
    seq_history components s gs s' -> whole_grid (sq_grid s) ->
    whole_grid (sq_grid s') /\ g_rows (sq_grid s') = g_rows (sq_grid s) /\ g_cols (sq_grid s') = g_cols (sq_grid s)
    /\ exists hist, layer_run hist (sq_archived s, layers (sq_grid s)) = Ok (sq_archived s', layers (sq_grid s'))
       /\ length hist = length gs
       /\ forall i j, i < g_rows (sq_grid s) -> j < g_cols (sq_grid s) - 2 ->
            Forall2 (update_lays i j) gs (map (cell_of i j) hist).
  Proof.
    intros Hk Hl Hh. induction Hh as [s|dt s w g s1 gs s' Er Eu Hh IH]; intros Hw.
    - split; [exact Hw|]. do 2 (split; [reflexivity|]). exists []. split; [reflexivity|]. split; [reflexivity|]. intros; constructor.
    - destruct (update_laid _ _ _ _ _ _ Hk Hw Er Eu) as [Hw1 [R1 [C1 [_ [h [Eh Hc]]]]]].
      rewrite (components_layers _ _ Hl _ _ _ _ Er) in Eh.
      destruct (IH Hw1) as [Hw2 [R2 [C2 [hist [Er2 [Lh Hf]]]]]]. split; [exact Hw2|]. split; [congruence|]. split; [congruence|].
      exists (h :: hist). split.
      + unfold layer_run. cbn [foldM]. rewrite Eh. exact Er2.
      + split; [cbn [length]; lia|]. intros i j Hi Hj. cbn [map]. constructor; [apply Hc; assumption|]. apply Hf; rewrite ?R1, ?C1; assumption.
  Qed.

  Lemma existsb_field {B} (p : B -> bool) n m (f : field B) d : shaped n m f ->
    existsb (existsb p) f = true <-> exists i j, i < n /\ j < m /\ p (at2 d f i j) = true.
  Proof.
    intros Hs. rewrite existsb_exists. split.
    - intros [r [Hr Hp]]. apply existsb_exists in Hp. destruct Hp as [v [Hv Hp]].
      destruct (In_nth _ _ [] Hr) as [i [Hi Ei]]. destruct (In_nth _ _ d Hv) as [j [Hj Ej]].
      rewrite (shaped_len _ _ _ Hs) in Hi. exists i, j. split; [exact Hi|].
      rewrite <- Ei, (shaped_nth _ _ _ i Hs Hi) in Hj. split; [exact Hj|]. unfold at2. rewrite Ei, Ej. exact Hp.
    - intros [i [j [Hi [Hj Hp]]]]. exists (nth i f []). split; [apply nth_In; rewrite (shaped_len _ _ _ Hs); exact Hi|].
      apply existsb_exists. exists (at2 d f i j). split; [|exact Hp]. unfold at2. apply nth_In.
      rewrite (shaped_nth _ _ _ i Hs Hi). exact Hj.
  Qed.

  (* the layer laid by construction, and its mark in the record *)
  Lemma init_laid (w : W) (g : grid A) step s : fresh_grid g -> sequence_init w g step = Ok s ->
    whole_grid (sq_grid s) /\ g_rows (sq_grid s) = g_rows g /\ g_cols (sq_grid s) = g_cols g /\ sq_time s = n0
    /\ exists hist, layer_run hist (0, el_empty (g_rows g) (g_cols g - 2)) = Ok (sq_archived s, layers (sq_grid s))
       /\ length (sq_at_layer_grid s) = length hist
       /\ ((~ some_sediment g /\ hist = [])
           \/ (some_sediment g /\ exists h, hist = [h] /\ forall i j, i < g_rows g -> j < g_cols g - 2 ->
                 init_lays i j g (cell_of i j h))).
  Proof.
    intros [Hc [Hz [Hd [Hn Hl]]]] E. unfold sequence_init in E. okinv E Ez. apply node_r_ok in Ez.
    set (g1 := if has_node g "bedrock_surface__elevation" then g else _) in E.
    assert (Sz := Hn _ _ Ez).
    assert (P1 : g_rows g1 = g_rows g /\ g_cols g1 = g_cols g /\ layers g1 = layers g /\ at_grid g1 = at_grid g
                /\ forall n, n <> "bedrock_surface__elevation"%string -> node g1 n = node g n).
    { unfold g1. destruct (has_node g _); [auto 6|]. do 4 (split; [reflexivity|]). intros n N. rewrite node_put_node.
      destruct (String.eqb_spec n "bedrock_surface__elevation"); [contradiction|reflexivity]. }
    destruct P1 as [R1 [C1 [L1 [A1 N1]]]].
    okinv E E0. apply node_r_ok in E0.
    assert (B0 : shaped (g_rows g + 2) (g_cols g) a0 /\ forall i j, i < g_rows g -> j < g_cols g - 2 ->
      in_cell a0 i j = match node g "bedrock_surface__elevation" with
                       | Some b => in_cell b i j | None => nsub (in_cell a i j) (nlit 100) end).
    { unfold g1, has_node, din in E0. fold (node g "bedrock_surface__elevation") in E0.
      destruct (node g "bedrock_surface__elevation") as [b|] eqn:Eb.
      - rewrite Eb in E0. injection E0 as <-. split; [exact (Hn _ _ Eb)|reflexivity].
      - rewrite node_put_node, String.eqb_refl in E0. injection E0 as <-. split; [apply shaped_fmap; exact Sz|].
        intros i j Hi Hj. unfold in_cell. rewrite (at2_fmap _ (g_rows g + 2) (g_cols g) _ n0) by (try assumption; lia).
        reflexivity. }
    destruct B0 as [S0 B0].
    assert (Hw1 : whole_grid g1).
    { split.
      - split; [rewrite C1; exact Hc|]. unfold has_field. rewrite R1, C1, L1.
        rewrite (N1 "topographic__elevation"%string), (N1 "sediment_deposit__thickness"%string) by discriminate.
        split; [exact Hz|]. split; [exists a0; split; assumption|]. split; [exact Hd|].
        rewrite Hl. apply shaped_full.
      - intros n f Ef. rewrite R1, C1. destruct (String.eqb_spec n "bedrock_surface__elevation") as [->|N].
        + rewrite E0 in Ef. injection Ef as <-. exact S0.
        + rewrite N1 in Ef by exact N. exact (Hn _ _ Ef). }
    set (s0 := mkSequence w g1 n0 step 0 [] []) in E.
    assert (Hi : shaped (g_rows g) (g_cols g - 2) (cells (fmap2 nsub a a0))).
    { apply shaped_cells'; [exact Hc|]. apply shaped_fmap2; assumption. }
    assert (Ci : forall i j, i < g_rows g -> j < g_cols g - 2 ->
      at2 n0 (cells (fmap2 nsub a a0)) i j = nsub (in_cell a i j)
        match node g "bedrock_surface__elevation" with
        | Some b => in_cell b i j | None => nsub (in_cell a i j) (nlit 100) end).
    { intros i j Hi' Hj. rewrite (at2_cells' (g_rows g) (g_cols g)); [|exact Hc|apply shaped_fmap2; assumption|exact Hi'|exact Hj].
      rewrite (at2_fmap2 _ (g_rows g + 2) (g_cols g) _ _ n0 n0 n0) by (try assumption; lia).
      fold (in_cell a i j). fold (in_cell a0 i j). rewrite B0 by assumption. reflexivity. }
    okinv E Es. okinv E E3. okinv E E4. injection E as <-. cbn [set_sq_grid sq_grid sq_time sq_archived sq_at_layer_grid].
    pose proof (existsb_field (fun v => nltb n0 v) _ _ _ n0 Hi) as Ex.
    match type of Es with (if ?b then _ else _) = _ => destruct b eqn:Eb end.
    - pose proof (fun X Y => add_layer_laid _ _ _ X Y Es) as AL. unfold s0 in AL. cbn [sq_grid sq_time sq_archived] in AL.
      rewrite R1, C1, L1, Hl in AL.
      destruct (AL Hw1 Hi) as [Hw2 [R2 [C2 [h [deposit [z [sea [Eh [D1 [D2 [D3 D4]]]]]]]]]]].
      destruct (add_layer_spec _ _ _ Es) as [_ [_ [ge [re [_ [_ [_ [Tm [_ [_ [_ [G _]]]]]]]]]]]]. unfold s0 in Tm, G. cbn [sq_time sq_at_layer_grid] in Tm, G.
      destruct (finish_whole _ _ _ Hw2 E3 E4) as [Hw3 [R3 [C3 [L3 _]]]].
      split; [exact Hw3|]. split; [congruence|]. split; [congruence|]. split; [exact Tm|].
      exists [h]. rewrite L3. split; [unfold layer_run; cbn [foldM]; rewrite Eh; reflexivity|].
      split; [rewrite G; reflexivity|]. right. split.
      + destruct (proj1 Ex eq_refl) as [i [j [Hi' [Hj Hp]]]]. exists i, j, a. rewrite Ci in Hp by assumption. auto.
      + exists h. split; [reflexivity|]. intros i j Hi' Hj. exists deposit, z, sea.
        rewrite N1 in D1, D2 by discriminate. split; [exact D1|]. split; [exact D2|].
        split; [unfold gval in *; rewrite <- A1; exact D3|]. rewrite Ez in D2. injection D2 as <-.
        rewrite (D4 i j Hi' Hj), Ci by assumption. rewrite N1 by discriminate. reflexivity.
    - injection Es as <-. cbn [s0 sq_grid] in *. destruct (finish_whole s0 _ _ Hw1 E3 E4) as [Hw3 [R3 [C3 [L3 _]]]].
      unfold s0 in R3, C3, L3. cbn [sq_grid] in *.
      split; [exact Hw3|]. split; [congruence|]. split; [congruence|]. split; [reflexivity|].
      exists []. rewrite L3, L1, Hl. split; [reflexivity|]. split; [reflexivity|]. left. split; [|reflexivity].
      intros [i [j [z [Hi' [Hj [Ez' Hp]]]]]]. rewrite Ez in Ez'. injection Ez' as <-.
      assert (T : false = true); [|discriminate].
      apply Ex. exists i, j. rewrite Ci by assumption. auto.
  Qed.

  (* every list of calls is a list of updates *)
  Lemma history_app (components : list (component A W)) s1 h1 s2 h2 s3 :
    seq_history components s1 h1 s2 -> seq_history components s2 h2 s3 -> seq_history components s1 (h1 ++ h2) s3.
  Proof. intros H1 H2. induction H1; [exact H2|]. cbn [app]. econstructor; eauto. Qed.

  Lemma update_history (components : list (component A W)) dt s s' : sequence_update components dt s = Ok s' ->
    exists gs, seq_history components s gs s'.
  Proof.
    intros E. assert (E' := E). unfold sequence_update in E'.
    destruct (run_components components dt (sq_world s, sq_grid s)) as [[w g]|] eqn:Er; [|discriminate].
    eexists. eapply sh_update; [exact Er|exact E|constructor].
  Qed.

  Lemma calls_history (components : list (component A W)) calls : forall s s',
    seq_calls components calls s = Ok s' -> exists gs, seq_history components s gs s'.
  Proof.
    unfold seq_calls. induction calls as [|c calls IH]; intros s s' E.
    - injection E as <-. eexists. constructor.
    - cbn [foldM] in E. okinv E Ec. destruct (IH _ _ E) as [h2 H2].
      assert (H1 : exists h1, seq_history components s h1 a).
      { destruct c as [[dt|]|until dt]; cbn [seq_exec] in Ec.
        - exact (update_history _ _ _ _ Ec).
        - exact (update_history _ _ _ _ Ec).
        - unfold sequence_run in Ec. destruct (_ =? n0)%num; [discriminate|].
          match type of Ec with run_steps _ ?u ?d ?n _ = _ => generalize dependent n; generalize u, d; clear E IH H2 end.
          intros u d n. revert s. induction n as [|n IH]; intros s E; cbn [run_steps] in E.
          + injection E as <-. eexists. constructor.
          + okinv E Eu. destruct (update_history _ _ _ _ Eu) as [ha Ha]. destruct (IH _ E) as [hb Hb].
            eexists. eapply history_app; eassumption. }
      destruct H1 as [h1 H1]. eexists. eapply history_app; eassumption.
  Qed.

  Lemma history_records (components : list (component A W)) s gs s' : seq_history components s gs s' ->
    length (sq_at_layer_grid s') = length (sq_at_layer_grid s) + length gs.
  Proof.
    induction 1 as [s|dt s w g s1 gs s' Er Eu Hh IH]; [cbn [length]; lia|].
    destruct (update_records _ _ _ _ Eu) as [ge [re [_ [_ [G _]]]]]. rewrite IH, G, app_length. cbn [length]. lia.
  Qed.

  (* counts, in any arithmetic *)
  Theorem sequence_counts (components : list (component A W)) calls w g step s s' :
    fresh_grid g -> Forall keeps_whole components -> Forall keeps_layers components ->
    sequence_init w g step = Ok s -> seq_calls components calls s = Ok s' ->
    let n := length (sq_at_layer_grid s') in
    el_number (layers (sq_grid s')) = n - 9 * merged_after n.
  Proof.
    intros Hf Hk Hl Ei Ec n. destruct (init_laid _ _ _ _ Hf Ei) as [Hw [R1 [C1 [_ [h0 [E0 [L0 _]]]]]]].
    destruct (calls_history _ _ _ _ Ec) as [gs Hh].
    destruct (history_laid _ _ _ _ Hk Hl Hh Hw) as [Hw' [R2 [C2 [hist [E1 [Lh F]]]]]].
    assert (Er : layer_run (h0 ++ hist) (0, el_empty (g_rows g) (g_cols g - 2)) = Ok (sq_archived s', layers (sq_grid s'))).
    { rewrite layer_run_app, E0. exact E1. }
    destruct (run_counts _ _ _ _ _ Er) as [Ea [En _]].
    assert (X : length (h0 ++ hist) = n)
      by (unfold n; rewrite (history_records _ _ _ _ Hh), L0, app_length, Lh; reflexivity).
    rewrite X in *. lia.
  Qed.
End History.

Theorem sequence_column {W} (components : list (component R W)) calls w g step s s' i j :
  fresh_grid g -> Forall keeps_whole components -> Forall keeps_layers components ->
  sequence_init w g step = Ok s -> seq_calls components calls s = Ok s' ->
  i < g_rows g -> j < g_cols g - 2 ->
  exists gs first rest, seq_history components s gs s'
    /\ ((~ some_sediment g /\ first = []) \/ (some_sediment g /\ exists l, first = [l] /\ init_lays i j g l))
    /\ Forall2 (update_lays i j) gs rest
    /\ length (first ++ rest) = length (sq_at_layer_grid s')
    /\ at2 [] (el_stacks (layers (sq_grid s'))) i j = archived_column (first ++ rest).
Proof.
  intros Hf Hk Hl Ei Ec Hi Hj. destruct (init_laid _ _ _ _ Hf Ei) as [Hw [R1 [C1 [_ [h0 [E0 [L0 D0]]]]]]].
  destruct (calls_history _ _ _ _ Ec) as [gs Hh].
  destruct (history_laid _ _ _ _ Hk Hl Hh Hw) as [Hw' [R2 [C2 [hist [E1 [Lh F]]]]]].
  assert (Er : layer_run (h0 ++ hist) (0, el_empty (g_rows g) (g_cols g - 2)) = Ok (sq_archived s', layers (sq_grid s'))).
  { rewrite layer_run_app, E0. exact E1. }
  exists gs, (map (cell_of i j) h0), (map (cell_of i j) hist). split; [exact Hh|]. split.
  { destruct D0 as [[N ->]|[N [h [-> D]]]]; [left; auto|right]. split; [exact N|]. eexists. split; [reflexivity|]. auto. }
  split; [apply F; rewrite ?R1, ?C1; assumption|].
  rewrite <- map_app. split.
  - rewrite map_length, (history_records _ _ _ _ Hh), L0, app_length, Lh. reflexivity.
  - exact (run_column _ _ _ _ _ Er i j Hi Hj).
Qed.

(** ** SequenceModel *)
Section Model.
  Context {A : Type} `{Num A} {W : Type}.

  Lemma step_laid (pr : processes A W) dt d (m m' : smodel A W) g :
    Forall keeps_whole (pr_components pr) -> whole_grid (sm_grid m) ->
    run_one_step pr dt m = Stepped m' ->
    d = match dt with Some d => if neqb d n0 then ck_step (sm_clock m) else d | None => ck_step (sm_clock m) end ->
    after_components pr d m g ->
    whole_grid (sm_grid m') /\ g_rows (sm_grid m') = g_rows (sm_grid m) /\ g_cols (sm_grid m') = g_cols (sm_grid m)
    /\ exists h, add_and_archive (fst h) (snd h) (sm_archived m, layers g) = Ok (sm_archived m', layers (sm_grid m'))
       /\ forall i j, i < g_rows (sm_grid m) -> j < g_cols (sm_grid m) - 2 ->
            step_lays i j (ck_time (sm_clock m'), pr_porosity pr (sm_world m'), g) (cell_of i j h).
  Proof.
    intros Hk Hw E Ed [g0 [w1 [Ec Er]]]. destruct (step_stepped _ _ _ _ E) as [d' [Hd' Ea]].
    assert (d' = d) as -> by (destruct dt as [x|]; [destruct (neqb x n0)|]; congruence). clear Hd' Ed.
    set (m0 := mkModel _ _ _ _) in Ea.
    destruct (advance_stages pr d m0 m' Hk Hw Ea)
      as [g0' [g1' [dz [props [el [g2 [E0' [_ [Er' [Hw1 [R1 [C1 [Ed [Ep [El [Hwl [Eu [Hw2 [S2 [B2 [Hw' [Eg [Ear Eck]]]]]]]]]]]]]]]]]]]]]]].
    unfold m0 in *. cbn [sm_world sm_grid sm_clock sm_archived] in *.
    rewrite Ec in E0'. injection E0' as <-. rewrite Er in Er'. injection Er' as Ew <-. 
    split; [exact Hw'|]. rewrite Eg. cbn [set_layers g_rows g_cols layers].
    split; [rewrite (proj1 S2); exact R1|]. split; [rewrite (proj1 (proj2 S2)); exact C1|].
    destruct (props_cells _ _ _ _ Hw1 Ep) as [Hn [deposit [z [sea [E1 [E2 [E3 E4]]]]]]].
    exists (cells dz, props). cbn [fst snd]. split.
    { unfold add_and_archive. cbn [fst snd]. rewrite El. cbn [bind]. rewrite Ear. f_equal. apply surjective_pairing. }
    rewrite Eck. intros i j Hi Hj. exists deposit, z, sea. cbn [fst snd]. rewrite Ed in E1. injection E1 as <-.
    split; [exact Ed|]. split; [exact E2|]. split; [exact E3|].
    unfold cell_of. cbn [fst snd]. rewrite E4 by (rewrite ?R1, ?C1; assumption).
    rewrite (at2_cells' (g_rows g) (g_cols g)); [reflexivity|exact (proj1 (proj1 Hw1))|exact (proj2 Hw1 _ _ Ed)| |];
      rewrite ?R1, ?C1; assumption.
  Qed.

  Lemma after_layers (pr : processes A W) d (m : smodel A W) g : Forall keeps_layers (pr_components pr) ->
    after_components pr d m g -> layers g = layers (sm_grid m).
  Proof.
    intros Hl [g0 [w1 [Ec Er]]]. rewrite (components_layers _ _ Hl _ _ _ _ Er).
    destruct (clear_spec _ _ Ec) as [dz [_ ->]]. reflexivity.
  Qed.

  Lemma model_history_laid (pr : processes A W) m gs m' :
    Forall keeps_whole (pr_components pr) -> Forall keeps_layers (pr_components pr) ->
    model_history pr m gs m' -> whole_grid (sm_grid m) ->
    whole_grid (sm_grid m') /\ g_rows (sm_grid m') = g_rows (sm_grid m) /\ g_cols (sm_grid m') = g_cols (sm_grid m)
    /\ exists hist, layer_run hist (sm_archived m, layers (sm_grid m)) = Ok (sm_archived m', layers (sm_grid m'))
       /\ length hist = length gs
       /\ forall i j, i < g_rows (sm_grid m) -> j < g_cols (sm_grid m) - 2 ->
            Forall2 (step_lays i j) gs (map (cell_of i j) hist).
  Proof.
    intros Hk Hl Hh. induction Hh as [m|m m1 gs m' Eg Ea Hh IH|dt d m m1 g gs m' Es Ed Ha Hh IH]; intros Hw.
    - split; [exact Hw|]. do 2 (split; [reflexivity|]). exists []. split; [reflexivity|]. split; [reflexivity|]. intros; constructor.
    - rewrite Eg, Ea in IH. exact (IH Hw).
    - destruct (step_laid _ _ _ _ _ _ Hk Hw Es Ed Ha) as [Hw1 [R1 [C1 [h [Eh Hc]]]]].
      rewrite (after_layers _ _ _ _ Hl Ha) in Eh.
      destruct (IH Hw1) as [Hw2 [R2 [C2 [hist [Er2 [Lh Hf]]]]]]. split; [exact Hw2|]. split; [congruence|]. split; [congruence|].
      exists (h :: hist). split; [unfold layer_run; cbn [foldM]; rewrite Eh; exact Er2|]. split; [cbn [length]; lia|].
      intros i j Hi Hj. cbn [map]. constructor; [apply Hc; assumption|]. apply Hf; rewrite ?R1, ?C1; assumption.
  Qed.

  Lemma model_init_laid (pr : processes A W) w (g : grid A) c m : whole_grid g ->
    layers g = el_empty (g_rows g) (g_cols g - 2) -> model_init pr w g c = Ok m ->
    whole_grid (sm_grid m) /\ g_rows (sm_grid m) = g_rows g /\ g_cols (sm_grid m) = g_cols g
    /\ exists h, layer_run [h] (0, el_empty (g_rows g) (g_cols g - 2)) = Ok (sm_archived m, layers (sm_grid m))
       /\ forall i j, i < g_rows g -> j < g_cols g - 2 -> model_init_lays i j (ck_start c) g (cell_of i j h).
  Proof.
    intros Hw Hl E. unfold model_init in E. okinv E E1. okinv E E2. okinv E E3. okinv E E4. okinv E E5. injection E as <-.
    destruct (rowf g "x_of_shore") as [v1|]; [injection E1 as <-|discriminate].
    destruct (rowf _ "x_of_shelf_edge") as [v2|]; [injection E2 as <-|discriminate].
    set (g1 := put_gval _ _ _) in *. apply node_r_ok in E3. change (node g1 "bedrock_surface__elevation" = Some a1) in E3.
    assert (Hg1 : whole_grid g1) by exact Hw.
    cbn [sm_grid sm_archived].
    assert (Hg2 : whole_grid (set_layers g1 a2)).
    { apply whole_layers; [|exact Hg1]. eapply el_add_shaped; [exact E4|]. apply Hg1. }
    assert (X : whole_grid a3 /\ g_rows a3 = g_rows g /\ g_cols a3 = g_cols g /\ layers a3 = a2).
    { destruct (has_node (set_layers g1 a2) WATER_LOAD).
      - okinv E5 E6. okinv E5 E7. destruct (get_profile_inv _ _ _ E6) as [z [Ez ->]].
        assert (Hz := proj2 Hg2 _ _ Ez).
        pose proof (fun Y => whole_set_profile _ _ _ _ Hg2 Y E5) as X. match type of X with ?T -> _ => assert (Y : T) end.
        + apply shaped_of_nth.
          * rewrite map_length. apply shaped_len with (m := g_cols g). apply shaped_inner. exact Hz.
          * intros i Hi. rewrite nth_map' with (da := []) by (rewrite (shaped_len _ _ _ (shaped_inner _ _ _ Hz)); exact Hi).
            unfold calc_water_loading. rewrite !map_length. apply (shaped_nth (g_rows g) (g_cols g) _ i); [|exact Hi].
            apply shaped_inner. exact Hz.
        + specialize (X Y). destruct X as [X1 [[X2 [X3 [X4 [X5 X6]]]] _]]. auto.
      - injection E5 as <-. auto. }
    destruct X as [X1 [X2 [X3 X4]]]. split; [exact X1|]. split; [exact X2|]. split; [exact X3|].
    change (layers g1) with (layers g) in E4. rewrite Hl in E4.
    match type of E4 with el_add ?d ?p _ = _ => exists (d, p) end. split.
    - unfold layer_run. cbn [foldM]. unfold add_and_archive. cbn [fst snd].
      change (g_rows g1) with (g_rows g) in *. change (g_cols g1) with (g_cols g) in *. rewrite E4. cbn [bind].
      unfold archive. destruct (el_add_inv _ _ _ _ E4) as [N _]. rewrite N, X4. reflexivity.
    - intros i j Hi Hj. exists a1. split; [exact E3|]. unfold cell_of. cbn [fst snd map].
      change (g_rows g1) with (g_rows g). change (g_cols g1) with (g_cols g).
      rewrite !at2_full by assumption.
      assert (Sz := proj2 Hg1 _ _ E3). change (g_rows g1) with (g_rows g) in Sz. change (g_cols g1) with (g_cols g) in Sz.
      assert (Hc : 2 <= g_cols g) by exact (proj1 (proj1 Hw)).
      rewrite (at2_fmap _ (g_rows g) (g_cols g - 2) _ n0); [|apply shaped_cells'; assumption|assumption|assumption].
      rewrite (at2_cells' (g_rows g) (g_cols g)) by assumption. reflexivity.
  Qed.

  Lemma model_history_app (pr : processes A W) s1 h1 s2 h2 s3 :
    model_history pr s1 h1 s2 -> model_history pr s2 h2 s3 -> model_history pr s1 (h1 ++ h2) s3.
  Proof.
    intros H1 H2. induction H1; [exact H2|eapply mh_params; eauto|]. cbn [app]. eapply mh_step; eauto.
  Qed.

  Lemma step_history (pr : processes A W) dt m m' : run_one_step pr dt m = Stepped m' ->
    exists gs, model_history pr m gs m'.
  Proof.
    intros E. destruct (step_stepped _ _ _ _ E) as [d [Hd Ea]]. set (m0 := mkModel _ _ _ _) in Ea.
    assert (Ea' := Ea). unfold advance_components in Ea'. okinv Ea' E0.
    destruct (run_components (pr_components pr) d (sm_world m0, a)) as [[w g1]|] eqn:Er; [|discriminate Ea'].
    eexists. eapply mh_step with (d := d); [exact E| |exists a, w; split; [exact E0|exact Er]|constructor].
    destruct dt as [x|]; [destruct (neqb x n0)|]; exact Hd.
  Qed.

  Lemma stop_same (pr : processes A W) dt m m' : run_one_step pr dt m = ClockStop m' ->
    sm_grid m' = sm_grid m /\ sm_archived m' = sm_archived m.
  Proof.
    unfold run_one_step. destruct (clock_advance (sm_clock m)) as [c stop]. destruct stop.
    - intros X; injection X as <-. auto.
    - destruct (advance_components _ _ _); discriminate.
  Qed.

  Lemma run_history (pr : processes A W) fuel : forall m m', model_run fuel pr m = Some (Ok m') ->
    exists gs, model_history pr m gs m'.
  Proof.
    induction fuel as [|fuel IH]; intros m m' E; [discriminate|]. cbn [model_run] in E.
    destruct (run_one_step pr None m) as [m1|m1|e] eqn:E1; [| |discriminate].
    - destruct (step_history _ _ _ _ E1) as [h1 H1]. destruct (IH _ _ E) as [h2 H2]. eexists. eapply model_history_app; eassumption.
    - injection E as <-. destruct (stop_same _ _ _ _ E1). eexists. eapply mh_params; [eassumption|eassumption|constructor].
  Qed.

  Lemma model_calls_history (pr : processes A W) calls : forall m m', model_calls pr calls m = Some m' ->
    exists gs, model_history pr m gs m'.
  Proof.
    induction calls as [|c calls IH]; intros m m' E; [injection E as <-; eexists; constructor|].
    cbn [model_calls] in E. destruct (model_exec pr m c) as [m1|] eqn:E1; [|discriminate].
    destruct (IH _ _ E) as [h2 H2].
    assert (X : exists h1, model_history pr m h1 m1).
    { destruct c as [dt|fuel|f]; cbn [model_exec] in E1.
      - destruct (run_one_step pr dt m) as [m2|m2|e] eqn:E2; [| |discriminate]; injection E1 as <-.
        + exact (step_history _ _ _ _ E2).
        + destruct (stop_same _ _ _ _ E2). eexists. eapply mh_params; [eassumption|eassumption|constructor].
      - destruct (model_run fuel pr m) as [[m2|]|] eqn:E2; try discriminate. injection E1 as <-.
        exact (run_history _ _ _ _ E2).
      - destruct (f (sm_world m)); [|discriminate]. injection E1 as <-.
        eexists. eapply mh_params; [| |constructor]; reflexivity. }
    destruct X as [h1 H1]. eexists. eapply model_history_app; eassumption.
  Qed.

  Theorem model_counts (pr : processes A W) w (g : grid A) c calls m m' :
    whole_grid g -> layers g = el_empty (g_rows g) (g_cols g - 2) ->
    Forall keeps_whole (pr_components pr) -> Forall keeps_layers (pr_components pr) ->
    model_init pr w g c = Ok m -> model_calls pr calls m = Some m' ->
    exists gs, model_history pr m gs m'
      /\ el_number (layers (sm_grid m')) = S (length gs) - 9 * merged_after (S (length gs)).
  Proof.
    intros Hw Hl0 Hk Hl Ei Ec. destruct (model_init_laid _ _ _ _ _ Hw Hl0 Ei) as [Hw1 [R1 [C1 [h0 [E0 D0]]]]].
    destruct (model_calls_history _ _ _ _ Ec) as [gs Hh]. exists gs. split; [exact Hh|].
    destruct (model_history_laid _ _ _ _ Hk Hl Hh Hw1) as [Hw' [R2 [C2 [hist [E1 [Lh F]]]]]].
    assert (Er : layer_run ([h0] ++ hist) (0, el_empty (g_rows g) (g_cols g - 2)) = Ok (sm_archived m', layers (sm_grid m'))).
    { rewrite layer_run_app, E0. exact E1. }
    destruct (run_counts _ _ _ _ _ Er) as [Ea [En _]]. cbn [app length] in *. rewrite <- Lh. lia.
  Qed.
End Model.

Theorem model_column {W} (pr : processes R W) w (g : grid R) c calls m m' i j :
  whole_grid g -> layers g = el_empty (g_rows g) (g_cols g - 2) ->
  Forall keeps_whole (pr_components pr) -> Forall keeps_layers (pr_components pr) ->
  model_init pr w g c = Ok m -> model_calls pr calls m = Some m' ->
  i < g_rows g -> j < g_cols g - 2 ->
  exists gs first rest, model_history pr m gs m' /\ model_init_lays i j (ck_start c) g first
    /\ Forall2 (step_lays i j) gs rest
    /\ at2 [] (el_stacks (layers (sm_grid m'))) i j = archived_column (first :: rest).
Proof.
  intros Hw Hl0 Hk Hl Ei Ec Hi Hj. destruct (model_init_laid _ _ _ _ _ Hw Hl0 Ei) as [Hw1 [R1 [C1 [h0 [E0 D0]]]]].
  destruct (model_calls_history _ _ _ _ Ec) as [gs Hh].
  destruct (model_history_laid _ _ _ _ Hk Hl Hh Hw1) as [Hw' [R2 [C2 [hist [E1 [Lh F]]]]]].
  assert (Er : layer_run ([h0] ++ hist) (0, el_empty (g_rows g) (g_cols g - 2)) = Ok (sm_archived m', layers (sm_grid m'))).
  { rewrite layer_run_app, E0. exact E1. }
  exists gs, (cell_of i j h0), (map (cell_of i j) hist). split; [exact Hh|]. split; [apply D0; assumption|].
  split; [apply F; rewrite ?R1, ?C1; assumption|].
  exact (run_column _ _ _ _ _ Er i j Hi Hj).
Qed.

(** ** the newest layer *)
Local Open Scope R_scope.

Lemma last_app_cons {B} (l1 l2 : list B) d : l2 <> [] -> last (l1 ++ l2) d = last l2 d.
Proof.
  intros N. induction l1 as [|a l1 IH]; [reflexivity|]. cbn [app]. rewrite <- IH.
  destruct (l1 ++ l2) eqn:E; [|reflexivity]. destruct l1; [cbn in E; congruence|discriminate].
Qed.
Lemma last_skipn {B} k (l : list B) d : (k < length l)%nat -> last (skipn k l) d = last l d.
Proof.
  intros Hk. rewrite <- (firstn_skipn k l) at 2. symmetry. apply last_app_cons. intros E.
  apply (f_equal (@length _)) in E. rewrite skipn_length in E. cbn in E. lia.
Qed.

Lemma last_add_stack (d : R) p (st : stack R) c : last (add_stack d p st) c = mkCell (Rmax d 0) p.
Proof.
  unfold add_stack. numR. rewrite n0_R. destruct (Rltb d 0) eqn:E.
  - apply Rltb_true in E. cbn [rev erode c_dz c_props]. numR. rewrite n0_R.
    assert (X : Rltb 0 (- d - 0) = true) by (apply Rltb_true; lra). rewrite X. cbn [rev].
    rewrite last_last. f_equal. rewrite Rmax_right; [reflexivity|lra].
  - apply Rltb_false in E. rewrite last_last. f_equal. rewrite Rmax_left; [reflexivity|lra].
Qed.

Lemma column_snoc {A} `{Num A} (ls : list (A * list (string * A))) l :
  column (ls ++ [l]) = add_stack (fst l) (snd l) (column ls).
Proof. unfold column. rewrite fold_left_app. reflexivity. Qed.
Lemma column_length {A} `{Num A} (ls : list (A * list (string * A))) : length (column ls) = length ls.
Proof.
  induction ls as [|l ls IH] using rev_ind; [reflexivity|]. rewrite column_snoc, add_stack_length, IH, app_length. cbn. lia.
Qed.

Lemma archived_last (ls : list (R * list (string * R))) l c :
  last (archived_column (ls ++ [l])) c = mkCell (Rmax (fst l) 0) (snd l).
Proof.
  unfold archived_column. set (a := merged_after (length (ls ++ [l]))).
  assert (Ha : (10 * a < length (ls ++ [l]))%nat).
  { unfold a. pose proof (merged_after_cases (length (ls ++ [l]))). rewrite app_length in *. cbn [length] in *. lia. }
  assert (Hc : (10 * a < length (column (ls ++ [l])))%nat) by (rewrite column_length; exact Ha).
  rewrite last_app_cons.
  - rewrite last_skipn by exact Hc. rewrite column_snoc. apply last_add_stack.
  - intros E. apply (f_equal (@length _)) in E. rewrite skipn_length in E. cbn in E. lia.
Qed.

Lemma column_nonneg (ls : list (R * list (string * R))) : nonneg (column ls).
Proof.
  induction ls as [|l ls IH] using rev_ind; [intros c []|]. rewrite column_snoc. apply add_stack_nonneg. exact IH.
Qed.
Lemma archived_thickness (ls : list (R * list (string * R))) :
  stack_thickness (archived_column ls) = column_total 0 (map fst ls).
Proof.
  rewrite thickness_R. change (archived_column ls)
    with (grouped (layer_reducers (first_names ls)) (merged_after (length ls)) (column ls)). rewrite grouped_thick.
  induction ls as [|l ls IH] using rev_ind; [reflexivity|].
  rewrite column_snoc, add_stack_thick by apply column_nonneg. rewrite IH, map_app. unfold column_total.
  rewrite fold_left_app. reflexivity.
Qed.

Lemma laid_prop_t0 th (age depth t0 por : R) sand d :
  prop_of "t0" (mkCell d (snd (laid_layer th age depth t0 por sand))) = t0.
Proof. reflexivity. Qed.
Lemma laid_prop_depth th (age depth t0 por : R) sand d :
  prop_of "water_depth" (mkCell d (snd (laid_layer th age depth t0 por sand))) = depth.
Proof. reflexivity. Qed.
Lemma laid_prop_age th (age depth t0 por : R) sand d :
  prop_of "age" (mkCell d (snd (laid_layer th age depth t0 por sand))) = age.
Proof. reflexivity. Qed.

Lemma sequence_newest {W} (components : list (component R W)) calls w g step s s1 dt s2 w1 g1 i j :
  fresh_grid g -> Forall keeps_whole components -> Forall keeps_layers components ->
  sequence_init w g step = Ok s -> seq_calls components calls s = Ok s1 ->
  run_components components dt (sq_world s1, sq_grid s1) = Ok (w1, g1) ->
  sequence_update components dt s1 = Ok s2 -> (i < g_rows g)%nat -> (j < g_cols g - 2)%nat ->
  exists l, update_lays i j (sq_time s2, g1) l
    /\ (forall c, last (at2 [] (el_stacks (layers (sq_grid s2))) i j) c = mkCell (Rmax (fst l) 0) (snd l))
    /\ stack_thickness (at2 [] (el_stacks (layers (sq_grid s2))) i j)
       = Rmax 0 (stack_thickness (at2 [] (el_stacks (layers (sq_grid s1))) i j) + fst l).
Proof.
  intros Hf Hk Hl Ei Ec Er Eu Hi Hj. destruct (init_laid _ _ _ _ Hf Ei) as [Hw [R1 [C1 [_ [h0 [E0 [L0 D0]]]]]]].
  destruct (calls_history _ _ _ _ Ec) as [gs Hh].
  destruct (history_laid _ _ _ _ Hk Hl Hh Hw) as [Hw' [R2 [C2 [hist [E1 [Lh F]]]]]].
  destruct (update_laid _ _ _ _ _ _ Hk Hw' Er Eu) as [Hw2 [R3 [C3 [T3 [h [Eh Hc]]]]]].
  rewrite (components_layers _ _ Hl _ _ _ _ Er) in Eh.
  assert (E2 : layer_run (h0 ++ hist) (0%nat, el_empty (g_rows g) (g_cols g - 2)) = Ok (sq_archived s1, layers (sq_grid s1))).
  { rewrite layer_run_app, E0. exact E1. }
  assert (E3 : layer_run ((h0 ++ hist) ++ [h]) (0%nat, el_empty (g_rows g) (g_cols g - 2)) = Ok (sq_archived s2, layers (sq_grid s2))).
  { rewrite layer_run_snoc, E2. exact Eh. }
  exists (cell_of i j h). rewrite T3. split; [apply Hc; rewrite ?R2, ?C2, ?R1, ?C1; assumption|].
  pose proof (run_column _ _ _ _ _ E3 i j Hi Hj) as X. pose proof (run_column _ _ _ _ _ E2 i j Hi Hj) as Y.
  rewrite map_app in X. cbn [map] in X. split.
  - intros c. rewrite X. apply archived_last.
  - transitivity (stack_thickness (archived_column (map (cell_of i j) (h0 ++ hist) ++ [cell_of i j h]))); [f_equal; exact X|].
    transitivity (Rmax 0 (stack_thickness (archived_column (map (cell_of i j) (h0 ++ hist))) + fst (cell_of i j h)));
      [|do 3 f_equal; symmetry; exact Y].
    rewrite !archived_thickness, map_app. unfold column_total. rewrite fold_left_app. reflexivity.
Qed.

Theorem sequence_t0 {W} (components : list (component R W)) calls w g step s s1 dt s2 i j :
  fresh_grid g -> Forall keeps_whole components -> Forall keeps_layers components ->
  sequence_init w g step = Ok s -> seq_calls components calls s = Ok s1 ->
  sequence_update components dt s1 = Ok s2 -> (i < g_rows g)%nat -> (j < g_cols g - 2)%nat ->
  newest_record "t0" (sq_grid s2) i j = Some (newest_thickness (sq_grid s2) i j).
Proof.
  intros Hf Hk Hl Ei Ec Eu Hi Hj. assert (E' := Eu). unfold sequence_update in E'.
  destruct (run_components components dt (sq_world s1, sq_grid s1)) as [[w1 g1]|] eqn:Er; [|discriminate]. clear E'.
  destruct (sequence_newest _ _ _ _ _ _ _ _ _ _ _ _ _ Hf Hk Hl Ei Ec Er Eu Hi Hj) as [l [[dep [z [sea [_ [_ [_ El]]]]]] [L _]]].
  unfold newest_record, newest_thickness, newest_layer. rewrite L, El. cbn [c_dz c_props laid_layer fst snd app dget]. eqb_lit.
  rewrite nmax_R, n0_R. reflexivity.
Qed.

Theorem sequence_depth {W} (components : list (component R W)) calls w g step s s1 dt s2 w1 g1 z2 sea i j :
  fresh_grid g -> Forall keeps_whole components -> Forall keeps_layers components ->
  sequence_init w g step = Ok s -> seq_calls components calls s = Ok s1 ->
  run_components components dt (sq_world s1, sq_grid s1) = Ok (w1, g1) ->
  sequence_update components dt s1 = Ok s2 -> (i < g_rows g)%nat -> (j < g_cols g - 2)%nat ->
  balanced g1 ->
  (forall d, node g1 "sediment_deposit__thickness" = Some d ->
     - in_cell d i j <= stack_thickness (at2 [] (el_stacks (layers (sq_grid s1))) i j)) ->
  node (sq_grid s2) "topographic__elevation" = Some z2 -> gval (sq_grid s2) "sea_level__elevation" = Some sea ->
  newest_record "water_depth" (sq_grid s2) i j = Some (sea - in_cell z2 i j).
Proof.
  intros Hf Hk Hl Ei Ec Er Eu Hi Hj Hb He Ez2 Es2.
  destruct (sequence_newest _ _ _ _ _ _ _ _ _ _ _ _ _ Hf Hk Hl Ei Ec Er Eu Hi Hj)
    as [l [[dep [z [sea' [N1 [N2 [N3 El]]]]]] [L T]]].
  unfold newest_record, newest_layer. rewrite L, El. cbn [c_props laid_layer fst snd app dget]. eqb_lit. f_equal. cbn [fst snd] in *. numR.
  assert (Sz : exists gs, seq_history components s gs s1) by exact (calls_history _ _ _ _ Ec). destruct Sz as [gs Hh].
  destruct (init_laid _ _ _ _ Hf Ei) as [Hw [R1 [C1 _]]].
  destruct (history_laid _ _ _ _ Hk Hl Hh Hw) as [Hw' [R2 [C2 _]]].
  destruct (components_whole _ _ _ _ _ _ Hk Hw' Er) as [Hw1 [R3 C3]].
  (* elevation after the update *)
  destruct (update_laid _ _ _ _ _ _ Hk Hw' Er Eu) as [Hw2 [R4 [C4 _]]].
  pose proof (bedrock_untouched _ _ _ _ _ _ "bedrock_surface__elevation" Er Eu ltac:(discriminate) ltac:(discriminate)) as EB.
  assert (Hb2 : balanced (sq_grid s2)).
  { unfold sequence_update in Eu. rewrite Er in Eu. cbn [bind] in Eu. okinv Eu Ed. apply node_r_ok in Ed. okinv Eu Ea.
    pose proof (fun X Y => add_layer_laid _ _ _ X Y Ea) as AL. cbn [sq_grid] in AL.
    destruct AL as [AW _]; [exact Hw1| |].
    { apply shaped_cells'; [exact (proj1 (proj1 Hw1))|exact (proj2 Hw1 _ _ Ed)]. }
    destruct (finish_ok _ (proj1 AW)) as [g3 [g4 [E3 [E4 [[_ [G4 _]] _]]]]].
    rewrite E3 in Eu. cbn [bind] in Eu. rewrite E4 in Eu. cbn [bind] in Eu. injection Eu as <-. exact G4. }
  destruct (proj1 (proj2 (proj2 (proj1 Hw1)))) as [z0 [E0 S0]].
  rewrite E0 in EB.
  assert (I1 : (i < g_rows g1)%nat) by congruence. assert (J1 : (j < g_cols g1 - 2)%nat) by (rewrite C3, C2, C1; exact Hj).
  assert (I2 : (i < g_rows (sq_grid s2))%nat) by congruence.
  assert (J2 : (j < g_cols (sq_grid s2) - 2)%nat) by (rewrite C4, C2, C1; exact Hj).
  pose proof (Hb2 _ _ _ _ Ez2 EB I2 J2) as B2. pose proof (Hb _ _ _ _ N2 E0 I1 J1) as B1.
  rewrite T in B2. rewrite (components_layers _ _ Hl _ _ _ _ Er) in B1. specialize (He _ N1).
  rewrite El in B2. cbn [laid_layer fst] in B2.
  destruct (update_records _ _ _ _ Eu) as [ge [re [_ [_ [_ [_ [_ [_ [_ [Sea _]]]]]]]]]].
  assert (Es : sea = sea').
  { unfold sequence_update in Eu. rewrite Er in Eu. cbn [bind] in Eu. okinv Eu Ed. okinv Eu Ea. okinv Eu E5. okinv Eu E6.
    injection Eu as <-. cbn [set_sq_grid sq_grid] in Es2.
    destruct (add_layer_spec _ _ _ Ea) as [zz [el1 [ge' [re' [_ [_ [_ [_ [_ [_ [Eg _]]]]]]]]]]].
    destruct (settle_spec _ _ E5) as [z1' [z0' [_ [_ ->]]]]. destruct (clear_spec _ _ E6) as [dz [_ ->]].
    rewrite !gval_put_node, Eg in Es2. cbn [sq_grid] in Es2. 
    assert (Y : gval g1 "sea_level__elevation" = Some sea) by exact Es2.
    rewrite N3 in Y. injection Y as <-. reflexivity. }
  unfold in_cell in *. rewrite n0_R in *. numR. rewrite B1, B2, Es. rewrite Rmax_right by lra. lra.
Qed.

Lemma model_newest {W} (pr : processes R W) w (g : grid R) c calls m m1 dt m2 i j :
  whole_grid g -> layers g = el_empty (g_rows g) (g_cols g - 2) ->
  Forall keeps_whole (pr_components pr) -> Forall keeps_layers (pr_components pr) ->
  model_init pr w g c = Ok m -> model_calls pr calls m = Some m1 -> run_one_step pr dt m1 = Stepped m2 ->
  (i < g_rows g)%nat -> (j < g_cols g - 2)%nat ->
  exists d g1 l, d = match dt with Some d => if neqb d n0 then ck_step (sm_clock m1) else d | None => ck_step (sm_clock m1) end
    /\ after_components pr d m1 g1
    /\ step_lays i j (ck_time (sm_clock m2), pr_porosity pr (sm_world m2), g1) l
    /\ forall x, last (at2 [] (el_stacks (layers (sm_grid m2))) i j) x = mkCell (Rmax (fst l) 0) (snd l).
Proof.
  intros Hw Hl0 Hk Hl Ei Ec Es Hi Hj. destruct (model_init_laid _ _ _ _ _ Hw Hl0 Ei) as [Hw1 [R1 [C1 [h0 [E0 D0]]]]].
  destruct (model_calls_history _ _ _ _ Ec) as [gs Hh].
  destruct (model_history_laid _ _ _ _ Hk Hl Hh Hw1) as [Hw' [R2 [C2 [hist [E1 [Lh F]]]]]].
  destruct (step_stepped _ _ _ _ Es) as [d [Hd Ea]]. set (m0 := mkModel _ _ _ _) in Ea.
  assert (Ea' := Ea). unfold advance_components in Ea'. okinv Ea' Ex.
  destruct (run_components (pr_components pr) d (sm_world m0, a)) as [[w1 g1]|] eqn:Er; [|discriminate Ea']. clear Ea'.
  assert (Ha : after_components pr d m1 g1) by (exists a, w1; split; assumption).
  assert (Hd' : d = match dt with Some d => if neqb d n0 then ck_step (sm_clock m1) else d | None => ck_step (sm_clock m1) end)
    by (destruct dt as [x|]; [destruct (neqb x n0)|]; exact Hd).
  destruct (step_laid _ _ _ _ _ _ Hk Hw' Es Hd' Ha) as [Hw2 [R3 [C3 [h [Eh Hc]]]]].
  rewrite (after_layers _ _ _ _ Hl Ha) in Eh.
  assert (E3 : layer_run (([h0] ++ hist) ++ [h]) (0%nat, el_empty (g_rows g) (g_cols g - 2)) = Ok (sm_archived m2, layers (sm_grid m2))).
  { rewrite layer_run_snoc, layer_run_app, E0. cbn [bind]. rewrite E1. exact Eh. }
  exists d, g1, (cell_of i j h). split; [exact Hd'|]. split; [exact Ha|].
  split; [apply Hc; rewrite ?R2, ?C2, ?R1, ?C1; assumption|].
  pose proof (run_column _ _ _ _ _ E3 i j Hi Hj) as X. rewrite map_app in X. cbn [map] in X.
  intros x. rewrite X. apply archived_last.
Qed.

Theorem model_t0 {W} (pr : processes R W) w (g : grid R) c calls m m1 dt m2 i j :
  whole_grid g -> layers g = el_empty (g_rows g) (g_cols g - 2) ->
  Forall keeps_whole (pr_components pr) -> Forall keeps_layers (pr_components pr) ->
  model_init pr w g c = Ok m -> model_calls pr calls m = Some m1 -> run_one_step pr dt m1 = Stepped m2 ->
  (i < g_rows g)%nat -> (j < g_cols g - 2)%nat ->
  newest_record "t0" (sm_grid m2) i j = Some (newest_thickness (sm_grid m2) i j).
Proof.
  intros Hw Hl0 Hk Hl Ei Ec Es Hi Hj.
  destruct (model_newest _ _ _ _ _ _ _ _ _ _ _ Hw Hl0 Hk Hl Ei Ec Es Hi Hj)
    as [d [g1 [l [_ [_ [[dep [z [sea [_ [_ [_ El]]]]]] L]]]]]].
  unfold newest_record, newest_thickness, newest_layer. rewrite L, El. cbn [c_dz c_props laid_layer fst snd app dget]. eqb_lit.
  rewrite nmax_R, n0_R. reflexivity.
Qed.

Theorem model_depth {W} (pr : processes R W) w (g : grid R) c calls m m1 dt m2 i j :
  whole_grid g -> layers g = el_empty (g_rows g) (g_cols g - 2) ->
  Forall keeps_whole (pr_components pr) -> Forall keeps_layers (pr_components pr) ->
  model_init pr w g c = Ok m -> model_calls pr calls m = Some m1 -> run_one_step pr dt m1 = Stepped m2 ->
  (i < g_rows g)%nat -> (j < g_cols g - 2)%nat ->
  exists d g1 z sea, d = match dt with Some d => if neqb d n0 then ck_step (sm_clock m1) else d | None => ck_step (sm_clock m1) end
    /\ after_components pr d m1 g1 /\ node g1 "topographic__elevation" = Some z /\ gval g1 "sea_level__elevation" = Some sea
    /\ newest_record "water_depth" (sm_grid m2) i j = Some (sea - in_cell z i j).
Proof.
  intros Hw Hl0 Hk Hl Ei Ec Es Hi Hj.
  destruct (model_newest _ _ _ _ _ _ _ _ _ _ _ Hw Hl0 Hk Hl Ei Ec Es Hi Hj)
    as [d [g1 [l [Hd [Ha [[dep [z [sea [N1 [N2 [N3 El]]]]]] L]]]]]].
  exists d, g1, z, sea. cbn [fst snd] in *. split; [exact Hd|]. split; [exact Ha|]. split; [exact N2|]. split; [exact N3|].
  unfold newest_record, newest_layer. rewrite L, El. cbn [c_props laid_layer fst snd app dget]. eqb_lit. numR. reflexivity.
Qed.

(** ** sea level and clock (C88) *)
Section Sea.
  Context {A : Type} `{Num A} {W : Type}.
  Context (get : W -> sea_level_comp A) (put : sea_level_comp A -> W -> W).

  Lemma components_sea cs dt : Forall (keeps_sea get) cs -> forall w g w' g',
    run_components cs dt (w, g) = Ok (w', g') ->
    get w' = get w /\ gval g' "sea_level__elevation" = gval g "sea_level__elevation".
  Proof.
    intros Hk. induction Hk as [|c cs Hc Hk IH]; intros w g w' g' E.
    - injection E as <- <-. auto.
    - unfold run_components in E. cbn [foldM] in E.
      destruct (c dt (w, g)) as [[w1 g1]|] eqn:E1; [|discriminate]. cbn [bind] in E.
      destruct (IH _ _ _ _ E) as [X1 X2]. destruct (Hc _ _ _ _ _ E1) as [Y1 Y2]. split; congruence.
  Qed.

  Lemma run_components_app (cs1 cs2 : list (component A W)) dt wg :
    run_components (cs1 ++ cs2) dt wg = bind (run_components cs1 dt wg) (run_components cs2 dt).
  Proof. unfold run_components. rewrite foldM_app. reflexivity. Qed.

  Lemma step_sea before after dt w g w' g' : (forall c w, get (put c w) = c) ->
    Forall (keeps_sea get) before -> Forall (keeps_sea get) after ->
    run_components (before ++ sea_level_component get put :: after) dt (w, g) = Ok (w', g') ->
    slc_curve (get w') = slc_curve (get w) /\ slc_time (get w') = nadd (slc_time (get w)) dt
    /\ exists v, slc_curve (get w) (slc_time (get w')) = Ok v /\ gval g' "sea_level__elevation" = Some v.
  Proof.
    intros Hg Hb Ha E. rewrite run_components_app in E.
    destruct (run_components before dt (w, g)) as [[w1 g1]|] eqn:E1; [|discriminate]. cbn [bind] in E.
    destruct (components_sea _ _ Hb _ _ _ _ E1) as [X1 X2].
    unfold run_components in E. cbn [foldM] in E.
    destruct (sea_level_component get put dt (w1, g1)) as [[w2 g2]|] eqn:E2; [|discriminate]. cbn [bind] in E.
    destruct (components_sea _ _ Ha _ _ _ _ E) as [Y1 Y2].
    unfold sea_level_component, on_part, sea_level_step in E2. cbn [fst snd] in E2.
    destruct (gval g1 "sea_level__elevation"); [|discriminate E2]. cbn [slc_curve slc_time] in E2.
    destruct (slc_curve (get w1) (nadd (slc_time (get w1)) dt)) as [v|] eqn:Ev; [|discriminate E2].
    cbn [bind] in E2. injection E2 as <- <-. rewrite Y1, Hg, Y2, <- X1. cbn [slc_curve slc_time].
    split; [reflexivity|]. split; [reflexivity|]. exists v. split; [exact Ev|].
    rewrite !gval_put_gval. reflexivity.
  Qed.

  Lemma update_fields_sea (g g' : grid A) : whole_grid g -> update_fields g = Ok g' ->
    gval g' "sea_level__elevation" = gval g "sea_level__elevation".
  Proof. intros Hw E. destruct (update_fields_whole _ _ Hw E) as [_ [S _]]. destruct S as [_ [_ [_ [S _]]]]. rewrite S. reflexivity. Qed.

  Theorem sea_follows_clock (pr : processes A W) before after w g c m n m' :
    (forall c w, get (put c w) = c) ->
    pr_components pr = before ++ sea_level_component get put :: after ->
    Forall (keeps_sea get) before -> Forall (keeps_sea get) after ->
    (forall t w, pr_set_sea_time pr t w = put (sea_level_set_time t (get w)) w) ->
    Forall keeps_whole (pr_components pr) -> whole_grid g ->
    model_init pr w g c = Ok m -> steps_of_run n pr m = Some m' ->
    slc_time (get (sm_world m')) = ck_time (sm_clock m')
    /\ (n <> 0%nat -> exists v, slc_curve (get w) (ck_time (sm_clock m')) = Ok v
                         /\ gval (sm_grid m') "sea_level__elevation" = Some v).
  Proof.
    intros Hg Hp Hb Ha Hs Hk Hw Ei En.
    assert (I : whole_grid (sm_grid m) /\ slc_time (get (sm_world m)) = ck_time (sm_clock m)
                /\ slc_curve (get (sm_world m)) = slc_curve (get w)).
    { assert (sm_world m = pr_set_sea_time pr (ck_time c) w /\ sm_clock m = c /\ whole_grid (sm_grid m)) as [-> [-> Hwm]].
      { assert (E := Ei). unfold model_init in E. okinv E E1. okinv E E2. okinv E E3. okinv E E4. okinv E E5. injection E as <-.
        cbn [sm_world sm_clock sm_grid]. split; [reflexivity|]. split; [reflexivity|].
        destruct (rowf g "x_of_shore") as [v1|]; [injection E1 as <-|discriminate].
        destruct (rowf _ "x_of_shelf_edge") as [v2|]; [injection E2 as <-|discriminate].
        set (g1 := put_gval _ _ _) in *. assert (Hg1 : whole_grid g1) by exact Hw.
        assert (Hg2 : whole_grid (set_layers g1 a2)).
        { apply whole_layers; [|exact Hg1]. eapply el_add_shaped; [exact E4|]. apply Hg1. }
        destruct (has_node (set_layers g1 a2) WATER_LOAD).
        - okinv E5 E6. okinv E5 E7. destruct (get_profile_inv _ _ _ E6) as [z [Ez ->]].
          assert (Hz := proj2 Hg2 _ _ Ez).
          pose proof (fun Y => whole_set_profile _ _ _ _ Hg2 Y E5) as X. match type of X with ?T -> _ => assert (Y : T) end.
          + apply shaped_of_nth.
            * rewrite map_length. apply shaped_len with (m := g_cols g). apply shaped_inner. exact Hz.
            * intros i Hi. rewrite nth_map' with (da := []) by (rewrite (shaped_len _ _ _ (shaped_inner _ _ _ Hz)); exact Hi).
              unfold calc_water_loading. rewrite !map_length. apply (shaped_nth (g_rows g) (g_cols g) _ i); [|exact Hi].
              apply shaped_inner. exact Hz.
          + exact (proj1 (X Y)).
        - injection E5 as <-. exact Hg2. }
      rewrite Hs, Hg. cbn [slc_time slc_curve sea_level_set_time]. auto. }
    destruct I as [Hwm [It Ic]]. rewrite <- Ic. clear Ei Ic. revert m Hwm It En.
    induction n as [|n IH]; intros m Hwm It En.
    - injection En as <-. split; [exact It|]. intros X; contradiction.
    - cbn [steps_of_run] in En. destruct (run_one_step pr None m) as [m1| |] eqn:E1; [|discriminate|discriminate].
      destruct (step_stepped _ _ _ _ E1) as [d [-> Ea]]. set (m0 := mkModel _ _ _ _) in Ea.
      destruct (advance_stages pr _ m0 m1 Hk Hwm Ea)
        as [g0' [g1' [dz [props [el [g2 [E0' [_ [Er' [Hw1 [R1 [C1 [Ed [Ep [El [Hwl [Eu [Hw2 [S2 [B2 [Hw' [Eg [Ear Eck]]]]]]]]]]]]]]]]]]]]]]].
      rewrite Hp in Er'. destruct (step_sea _ _ _ _ _ _ _ Hg Hb Ha Er') as [S1 [T1 [v [V1 V2]]]].
      unfold m0 in *. cbn [sm_world sm_clock sm_grid] in *.
      assert (T2 : slc_time (get (sm_world m1)) = ck_time (sm_clock m1)) by (rewrite T1, It, Eck; reflexivity).
      destruct (IH m1 Hw' T2 En) as [J1 J2]. split; [exact J1|]. intros _.
      destruct n as [|n].
      + injection En as <-. exists v. rewrite <- T2. split; [exact V1|].
        rewrite Eg. change (gval (set_layers g2 ?e)) with (gval g2).
        rewrite (update_fields_sea _ _ Hwl Eu). exact V2.
      + rewrite <- S1. apply J2. discriminate.
  Qed.
End Sea.
