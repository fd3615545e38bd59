(** The output file of a model. *)
From Coq Require Import String List ZArith Arith Lia Bool.
From Verif.Base Require Import Num Py Arr.
From Verif.Model Require Import Layers Grid Archive Sequence SequenceModel Netcdf OutputWriter.
From Verif.Spec Require Import Strata Column Recording.
From Verif.Proofs Require Import GridP LayersP SequenceP SequenceModelP NetcdfP OutputP OutputLayersP ModelOutputP.
Import ListNotations.

Lemma repeat_firstn {B C D} (f : B -> C) (g : D -> B) x l : (forall b, f (g b) = x) ->
  forall p, p <= length l -> map f (firstn p (map g l)) = repeat x p.
Proof.
  intros Hf. induction l as [|b l IH]; intros [|p] Hp; cbn in *; try reflexivity; [lia|]. rewrite Hf, IH by lia. reflexivity.
Qed.
Lemma concat_length {B} n m (f : field B) : shaped n m f -> length (concat f) = n * m.
Proof.
  intros [H1 H2]. subst n. induction f as [|r f IH]; [reflexivity|]. cbn. rewrite app_length, IH.
  - rewrite (H2 r (or_introl eq_refl)). lia.
  - intros r' Hr. apply H2. right. exact Hr.
Qed.

Section Any.
  Context {A : Type} `{Num A} {W : Type}.
  Notation OW := (W * (writer A * filesystem A))%type.

  Lemma init_clears (g0 : gview A) path interval fields clobber rows fs fs1 wr :
    writer_init g0 path interval fields clobber rows fs = (fs1, Ok wr) ->
    fs1 path = None /\ ow_path wr = path /\ ow_count wr = 0 /\ ow_time wr = n0 /\ ow_clobber wr = clobber
    /\ (exists k, interval = IntInterval k /\ ow_interval wr = k /\ (0 <= k)%Z)
    /\ ow_rows wr = match rows with Some l => map (fun i => (i - 1)%Z) l | None => map Z.of_nat (seq 0 (gv_rows g0)) end.
  Proof.
    unfold writer_init. destruct (check_interval interval) as [z|] eqn:Ez; [|discriminate].
    destruct (clear_path clobber path fs) as [f1 [u|]] eqn:Ec; [|discriminate]. intros E. injection E as <- <-.
    cbn [ow_path ow_count ow_time ow_interval ow_rows ow_clobber]. split.
    - unfold clear_path in Ec. destruct (is_file fs path && negb clobber)%bool; [discriminate Ec|].
      destruct (fs path) as [[d| |]|] eqn:Ep; try discriminate Ec; injection Ec as <-; [| |exact Ep];
        unfold fs_set; rewrite String.eqb_refl; reflexivity.
    - do 4 (split; [reflexivity|]). split; [|reflexivity]. exists z.
      unfold check_interval in Ez. destruct interval as [z'|[]]; try discriminate Ez.
      destruct (Z.ltb_spec z' 0); [discriminate Ez|]. injection Ez as <-. auto.
  Qed.

  Lemma view_with_nodes (g : grid A) : whole_grid g -> with_nodes ((g_rows g + 2) * g_cols g) (view g).
  Proof.
    intros [_ Hw]. split.
    - cbn. apply concat_length. split.
      + unfold node_xy, y_of_row. rewrite !map_length, seq_length. reflexivity.
      + intros r Hr. apply in_map_iff in Hr. destruct Hr as [y [<- _]]. unfold x_of_column. rewrite !map_length, seq_length. reflexivity.
    - intros name v E. unfold field_at in E. cbn in E.
      assert (X : exists f, node g name = Some f /\ v = Vector (map Some (concat f))).
      { unfold node. clear Hw. induction (at_node g) as [|[nm f] l IH]; [discriminate E|]. cbn [map dget fst snd] in *.
        destruct (String.eqb name nm); [injection E as <-; eauto|apply IH; exact E]. }
      destruct X as [f [Ef ->]]. eexists. split; [reflexivity|]. rewrite map_length. apply concat_length. apply (Hw name f Ef).
  Qed.

  Lemma top_layer n t (g : grid A) : whole_grid g -> laid n t g ->
    1 <= el_number (layers g)
    /\ nth_error (layer_data (layers g) "age") (el_number (layers g) - 1) = Some (full (g_rows g) (g_cols g - 2) (Some t)).
  Proof.
    intros Hw [H1 [H2 H3]]. assert (Hn : 1 <= el_number (layers g)) by (pose proof (merged_after_cases (S n)); lia).
    split; [exact Hn|]. unfold layer_data, layers_of. change (String.eqb "age" "thickness") with false. cbn iota.
    set (N := el_number (layers g)) in *. rewrite nth_error_map.
    assert (Es : nth_error (seq 0 N) (N - 1) = Some (N - 1)).
    { rewrite (nth_error_nth' _ 0) by (rewrite seq_length; lia). rewrite seq_nth by lia. reflexivity. }
    rewrite Es. cbn [option_map]. f_equal.
    assert (Sh : shaped (g_rows g) (g_cols g - 2) (el_stacks (layers g))) by apply (proj1 Hw).
    apply field_ext with (n := g_rows g) (m := g_cols g - 2) (d := None).
    - apply shaped_fmap. exact Sh.
    - apply shaped_full.
    - intros i j Hi Hj. rewrite at2_full by assumption.
      destruct (H3 i j Hi Hj) as [_ X].
      match goal with |- at2 None (fmap ?f _) _ _ = _ => set (sel := f) end.
      assert (Y : at2 None (fmap sel (el_stacks (layers g))) i j = sel (at2 [] (el_stacks (layers g)) i j))
        by exact (at2_fmap sel _ _ (el_stacks (layers g)) [] None i j Sh Hi Hj).
      rewrite Y. unfold sel. rewrite nth_error_map in X.
      destruct (nth_error (at2 [] (el_stacks (layers g)) i j) (N - 1)) as [c|] eqn:Ec; [|discriminate X].
      injection X as X. exact X.
  Qed.

  (* what the writer saw *)
  Lemma output_trace (pr : processes A W) w0 g0 start stop step path k fields clobber fs n m m' :
    fresh_grid g0 -> Forall keeps_whole (pr_components pr) -> Forall keeps_ages (pr_components pr) ->
    output_run pr w0 g0 start stop step path k fields clobber fs n m ->
    run_one_step (with_output pr) None m = Stepped m' ->
    exists fs1 wr gs g1,
      writer_init (view g0) path (IntInterval (Z.of_nat k)) fields clobber None fs = (fs1, Ok wr)
      /\ length gs = n /\ after_components (with_output pr) step m g1
      /\ run_writer (map (fun g => (view g, Some step)) (gs ++ [g1])) (wr, fs1) = Ok (snd (sm_world m'))
      /\ forall j g, nth_error (gs ++ [g1]) j = Some g ->
           g_rows g = g_rows g0 /\ g_cols g = g_cols g0 /\ whole_grid g /\ laid j (after_steps start step j) g
           /\ dated start step j g.
  Proof.
    intros [Hw [Hn0 Hst]] Hk Ha [fs1 [wr [m0 [Ei [Em Es]]]]] E1.
    destruct (init_running (with_output pr) (w0, (wr, fs1)) g0 (clock_init start stop step) m0 Hw Hn0 Hst eq_refl Em)
      as [Hr [R0 [C0 [K0 W0]]]].
    assert (Hstep : ck_step (sm_clock m0) = step) by (rewrite K0; reflexivity).
    assert (Hsw : snd (sm_world m0) = (wr, fs1)) by (rewrite W0; reflexivity).
    destruct (steps_running pr _ Hk Ha n 0 m0 m Hr Es) as [Hr2 [S2 [R2 [C2 [gs [Lgs [Erw Hgs]]]]]]].
    rewrite Hstep in *. rewrite Hsw in Erw. rewrite Nat.add_0_l in Hr2. change (ck_start (clock_init start stop step)) with start in *.
    destruct (step_running pr _ n m m' Hk Ha Hr2 E1) as [_ [_ [_ [_ [g1 [Hac [Ew [Rg [Cg [Wg Lg]]]]]]]]]].
    rewrite S2 in *. exists fs1, wr, gs, g1. split; [exact Ei|]. split; [exact Lgs|]. split; [exact Hac|]. split.
    - rewrite map_app. cbn [map]. rewrite run_writer_snoc, Erw. cbn [bind fst snd]. exact Ew.
    - intros j g X. destruct (Nat.lt_ge_cases j (length gs)) as [Hj|Hj].
      + rewrite nth_error_app1 in X by exact Hj. destruct (Hgs j g X) as [a [b [c d]]].
        split; [congruence|]. split; [congruence|]. split; [exact c|]. exact d.
      + assert (X' : nth_error (gs ++ [g1]) j <> None) by congruence. apply nth_error_Some in X'.
        rewrite app_length in X'. cbn [length] in X'. assert (j = length gs) by lia. subst j.
        rewrite nth_error_app2, Nat.sub_diag in X by lia. cbn in X. injection X as <-. rewrite Lgs.
        split; [congruence|]. split; [congruence|]. split; [exact Wg|exact Lg].
  Qed.

  Lemma after_components_fun (pr : processes A W) dt m g g' :
    after_components pr dt m g -> after_components pr dt m g' -> g = g'.
  Proof.
    intros [a [b [E1 E2]]] [a' [b' [E1' E2']]]. rewrite E1 in E1'. injection E1' as <-. rewrite E2 in E2'. injection E2' as <- <-. reflexivity.
  Qed.

  Theorem model_file (pr : processes A W) w0 g0 start stop step path k fields clobber fs j m m' :
    fresh_grid g0 -> Forall keeps_whole (pr_components pr) -> Forall keeps_ages (pr_components pr) -> 1 <= k ->
    output_run pr w0 g0 start stop step path k fields clobber fs (j * k) m ->
    run_one_step (with_output pr) None m = Stepped m' ->
    exists g1 d, after_components (with_output pr) step m g1 /\ file_at (files m') path = Some d
      /\ ds_time d = map (fun i => after_steps n0 step (i * k)) (seq 0 (S j))
      /\ el_number (layers g1) = layers_after (j * k)
      /\ 1 <= el_number (layers g1)
      /\ nth_error (layer_data (layers g1) "age") (el_number (layers g1) - 1)
         = Some (full (g_rows g0) (g_cols g0 - 2) (Some (after_steps start step (j * k))))
      /\ (forall name, In name (layer_names (layers g1)) ->
            exists rest, layer_var d name = map Some (layer_data (layers g1) name) ++ rest
            /\ (steady_interval k = true -> rest = []))
      /\ In "age"%string (el_tracking (layers g1))
      /\ forall i, i <= j -> layers_after (i * k) <= length (layer_var d "thickness").
  Proof.
    intros Hf Hkw Hka Hk Hrun E1.
    destruct (output_trace pr w0 g0 start stop step path k fields clobber fs (j * k) m m' Hf Hkw Hka Hrun E1)
      as [fs1 [wr [gs [g1 [Ei [Lgs [Hac [Erw Hgs]]]]]]]].
    exists g1. destruct (snd (sm_world m')) as [w' fs'] eqn:Ews.
    destruct (init_clears _ _ _ _ _ _ _ _ _ Ei) as [Hnone [Hp [Hc0 [_ [_ [[kz [Ek1 [Ek2 _]]] Hrows]]]]]].
    injection Ek1 as <-.
    set (calls := map (fun g => (view g, Some step)) (gs ++ [g1])) in *.
    assert (Lc : length calls = S (j * k)) by (unfold calls; rewrite map_length, app_length; cbn; lia).
    assert (Hne : calls <> []) by (intros X; rewrite X in Lc; discriminate Lc).
    assert (Hall : forall g, In g (gs ++ [g1]) -> g_rows g = g_rows g0 /\ g_cols g = g_cols g0 /\ whole_grid g).
    { intros g Hg. apply In_nth_error in Hg. destruct Hg as [i Hi]. destruct (Hgs i g Hi) as [a [b [c _]]]. auto. }
    destruct (writer_records _ _ _ _ _ _ _ _ _ ((g_rows g0 + 2) * g_cols g0) calls w' fs' Ei) as [k' [d [Ek' [_ [Hd [Ht _]]]]]];
      [|exact Erw|exact Hne|].
    { unfold calls. apply Forall_map, Forall_forall. intros g Hg. destruct (Hall g Hg) as [a [b c]]. cbn [fst].
      rewrite <- a, <- b. apply view_with_nodes. exact c. }
    assert (k' = k) by (rewrite Ek2 in Ek'; apply Nat2Z.inj; symmetry; exact Ek'). subst k'.
    destruct (layer_file (g_rows g0) (g_cols g0) k path wr fs1 calls w' fs' Ek2 Hk Hc0 Hp Hnone) as [d2 [Hd2 [U [Lo La]]]];
      [rewrite Hrows, map_length, seq_length; reflexivity| |exact Erw|exact Hne|].
    { unfold calls. apply Forall_map, Forall_forall. intros g Hg. destruct (Hall g Hg) as [a [b c]]. split; assumption. }
    assert (d2 = d) by (rewrite Hd2 in Hd; injection Hd as <-; reflexivity). subst d2.
    assert (Hself : nth_error (gs ++ [g1]) (j * k) = Some g1) by (rewrite nth_error_app2, Lgs, Nat.sub_diag by lia; reflexivity).
    destruct (Hgs _ _ Hself) as [Rg [Cg [Wg [Lg _]]]]. destruct (top_layer _ _ _ Wg Lg) as [Hn1 Htop]. rewrite Rg, Cg in Htop.
    assert (Hwr : forall i g, nth_error (gs ++ [g1]) (i * k) = Some g -> writes_at calls k i (view g)).
    { intros i g X. exists (Some step). unfold calls. rewrite nth_error_map, X. reflexivity. }
    assert (Hwr2 : forall i v, writes_at calls k i v -> exists g, nth_error (gs ++ [g1]) (i * k) = Some g /\ v = view g /\ i <= j).
    { intros i v [dt X]. unfold calls in X. rewrite nth_error_map in X.
      destruct (nth_error (gs ++ [g1]) (i * k)) as [g|] eqn:Eg; [|discriminate X]. injection X as X _.
      exists g. split; [reflexivity|]. split; [symmetry; exact X|].
      assert (Y : nth_error (gs ++ [g1]) (i * k) <> None) by congruence. apply nth_error_Some in Y.
      rewrite app_length, Lgs in Y. cbn [length] in Y. nia. }
    exists d. split; [exact Hac|]. split; [unfold file_at, files; rewrite Ews; cbn [snd]; rewrite Hd; reflexivity|].
    split.
    { rewrite Ht, Lc, records_S by exact Hk. rewrite Nat.mod_mul by lia. cbn [Nat.eqb].
      assert (Hrec : records (j * k) k = j).
      { pose proof (records_due (j * k) k Hk (Nat.mod_mul j k ltac:(lia))). nia. }
      rewrite Hrec. apply map_ext_in. intros i Hi. apply in_seq in Hi. unfold elapsed, after_steps. f_equal.
      apply repeat_firstn; [reflexivity|]. rewrite app_length, Lgs. cbn [length]. nia. }
    split; [eapply laid_number; exact Lg|]. split; [exact Hn1|]. split; [exact Htop|].
    split.
    { intros name Hn. destruct (La j (view g1) (Hwr _ _ Hself)) with (name := name) as [rest Hrest]; [rewrite Lc; nia|exact Hn|].
      cbn [gv_layers view] in Hrest. exists rest. split; [exact Hrest|]. intros Hs.
      assert (HU := U (el_number (layers g1))). 
      assert (X : length (layer_var d name) <= el_number (layers g1)).
      { apply HU. intros i v Hv. destruct (Hwr2 i v Hv) as [g [Hg [-> Hij]]]. cbn [gv_layers view].
        destruct (Hgs _ _ Hg) as [_ [_ [_ [Lg' _]]]]. rewrite (laid_number _ _ _ Lg'), (laid_number _ _ _ Lg).
        apply steady_mono; assumption. }
      rewrite Hrest, app_length, map_length, layer_data_length in X. destruct rest; [reflexivity|cbn in X; lia]. }
    split; [apply (proj1 (proj2 Lg)); left; reflexivity|].
    intros i Hij. assert (Hi : i * k < length (gs ++ [g1])) by (rewrite app_length, Lgs; cbn; nia).
    destruct (nth_error (gs ++ [g1]) (i * k)) as [g|] eqn:Eg; [|apply nth_error_None in Eg; lia].
    destruct (Hgs _ _ Eg) as [_ [_ [_ [Lg' _]]]]. rewrite <- (laid_number _ _ _ Lg').
    apply (Lo i (view g) (Hwr i g Eg)). apply in_or_app. right. left. reflexivity.
  Qed.
End Any.
