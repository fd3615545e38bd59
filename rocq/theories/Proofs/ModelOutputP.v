(** Models that write output. *)
From Coq Require Import String List ZArith Arith Lia Bool.
From Verif.Base Require Import Num Py Arr.
From Verif.Model Require Import Layers Grid Archive Sequence SequenceModel Netcdf OutputWriter.
From Verif.Spec Require Import Strata Column Recording.
From Verif.Proofs Require Import GridP LayersP SequenceP SequenceModelP NetcdfP OutputP.
Import ListNotations.

Lemma nth_error_skip {B} (l : list B) : forall k i, nth_error (skipn k l) i = nth_error l (k + i).
Proof. induction l as [|b l IH]; intros [|k] i; try reflexivity; [destruct i; reflexivity|apply IH]. Qed.

Section Any.
  Context {A : Type} `{Num A} {W : Type}.
  Notation OW := (W * (writer A * filesystem A))%type.

  Definition age_of (c : lcell A) : option A := dget String.eqb (c_props c) "age"%string.

  (* n steps after construction: the layers *)
  Definition laid (n : nat) (t : A) (g : grid A) : Prop :=
    el_number (layers g) + 9 * merged_after (S n) = S n
    /\ incl ["age"%string] (el_tracking (layers g))
    /\ forall i j, i < g_rows g -> j < g_cols g - 2 ->
         length (at2 [] (el_stacks (layers g)) i j) = el_number (layers g)
         /\ nth_error (map age_of (at2 [] (el_stacks (layers g)) i j)) (el_number (layers g) - 1) = Some (Some t).

  Lemma laid_same n t (g g' : grid A) : shaped (g_rows g) (g_cols g - 2) (el_stacks (layers g)) ->
    shaped (g_rows g) (g_cols g - 2) (el_stacks (layers g')) -> g_rows g' = g_rows g -> g_cols g' = g_cols g ->
    el_number (layers g') = el_number (layers g) -> el_tracking (layers g') = el_tracking (layers g) ->
    fmap (map age_of) (el_stacks (layers g')) = fmap (map age_of) (el_stacks (layers g)) ->
    laid n t g -> laid n t g'.
  Proof.
    intros Sh Sh' Er Ec En Et Ea [H1 [H2 H3]]. unfold laid. rewrite Er, Ec, En, Et. split; [exact H1|]. split; [exact H2|].
    intros i j Hi Hj.
    assert (X : map age_of (at2 [] (el_stacks (layers g')) i j) = map age_of (at2 [] (el_stacks (layers g)) i j)).
    { rewrite <- (at2_fmap (map age_of) _ _ (el_stacks (layers g)) [] [] i j Sh Hi Hj).
      rewrite <- Ea. symmetry. exact (at2_fmap (map age_of) _ _ (el_stacks (layers g')) [] [] i j Sh' Hi Hj). }
    rewrite X. split; [|apply H3; assumption].
    rewrite <- (map_length age_of), X, map_length. apply H3; assumption.
  Qed.

  Lemma dget_cell_props (props : list (string * field A)) name v i j : dget String.eqb props name = Some v ->
    dget String.eqb (map (fun kv => (fst kv, at2 n0 (snd kv) i j)) props) name = Some (at2 n0 v i j).
  Proof.
    induction props as [|[nm x] props IH]; [discriminate|]. cbn [dget map fst snd].
    destruct (String.eqb name nm); [intros E; injection E as ->; reflexivity|exact IH].
  Qed.

  (* every layer has the age of one of the steps 0 ... n *)
  Definition dated (start step : A) (n : nat) (g : grid A) : Prop :=
    forall i j, i < g_rows g -> j < g_cols g - 2 ->
      Forall (fun a => exists q, q <= n /\ a = Some (after_steps start step q)) (map age_of (at2 [] (el_stacks (layers g)) i j)).

  Lemma dated_same start step n (g g' : grid A) : shaped (g_rows g) (g_cols g - 2) (el_stacks (layers g)) ->
    shaped (g_rows g) (g_cols g - 2) (el_stacks (layers g')) -> g_rows g' = g_rows g -> g_cols g' = g_cols g ->
    fmap (map age_of) (el_stacks (layers g')) = fmap (map age_of) (el_stacks (layers g)) ->
    dated start step n g -> dated start step n g'.
  Proof.
    intros Sh Sh' Er Ec Ea Hd. unfold dated. rewrite Er, Ec. intros i j Hi Hj.
    assert (X : map age_of (at2 [] (el_stacks (layers g')) i j) = map age_of (at2 [] (el_stacks (layers g)) i j)).
    { rewrite <- (at2_fmap (map age_of) _ _ (el_stacks (layers g)) [] [] i j Sh Hi Hj).
      rewrite <- Ea. symmetry. exact (at2_fmap (map age_of) _ _ (el_stacks (layers g')) [] [] i j Sh' Hi Hj). }
    rewrite X. apply Hd; assumption.
  Qed.

  Lemma np_max_In (a : A) l : In (np_max (a :: l)) (a :: l).
  Proof.
    cbn [np_max]. revert a. induction l as [|b l IH]; intros a; [left; reflexivity|]. cbn [fold_left].
    destruct (IH (nmax a b)) as [X|X]; [|right; right; exact X]. rewrite <- X. unfold nmax.
    destruct (nleb b a), (nltb a b); cbn; tauto.
  Qed.
  Lemma merged_age (P : option A -> Prop) tracking a b (st : list (lcell A)) : a < b -> b <= length st ->
    Forall (fun v => (exists t, v = Some t) /\ P v) (map age_of st) ->
    Forall (fun v => (exists t, v = Some t) /\ P v) (map age_of (reduce_stack a b (layer_reducers tracking) st)).
  Proof.
    intros Hab Hb Hst. unfold reduce_stack. rewrite map_app. cbn [map]. rewrite <- firstn_map, <- skipn_map.
    assert (F : forall n, Forall (fun v => (exists t, v = Some t) /\ P v) (firstn n (map age_of st))).
    { intros n. rewrite <- (firstn_skipn n (map age_of st)) in Hst. apply Forall_app in Hst. apply Hst. }
    assert (K : forall n, Forall (fun v => (exists t, v = Some t) /\ P v) (skipn n (map age_of st))).
    { intros n. rewrite <- (firstn_skipn n (map age_of st)) in Hst. apply Forall_app in Hst. apply Hst. }
    apply Forall_app. split; [apply F|]. constructor; [|apply K].
    set (l := slice a b st).
    assert (Hl : Forall (fun v => (exists t, v = Some t) /\ P v) (map age_of l)).
    { unfold l, slice. rewrite <- firstn_map, <- skipn_map. specialize (K a).
      rewrite <- (firstn_skipn (b - a) (skipn a (map age_of st))) in K. apply Forall_app in K. apply K. }
    assert (Hne : l <> []).
    { unfold l, slice. intros X. apply (f_equal (@length _)) in X. rewrite firstn_length, skipn_length in X. cbn in X. lia. }
    unfold age_of at 1, merge_cells. cbn [c_props layer_reducers app flat_map fst snd].
    change (map (fun c => dget String.eqb (c_props c) "age"%string) l) with (map age_of l).
    assert (Hall : forallb (fun v : option A => match v with Some _ => true | None => false end) (map age_of l) = true).
    { apply forallb_forall. intros v Hv. rewrite Forall_forall in Hl. destruct (Hl v Hv) as [[t ->] _]. reflexivity. }
    rewrite Hall. cbn [app dget]. rewrite String.eqb_refl.
    destruct (map age_of l) as [|v0 vs] eqn:Ev; [apply map_eq_nil in Ev; contradiction|].
    set (un := fun v : option A => match v with Some a => a | None => n0 end).
    assert (X : In (np_max (map un (v0 :: vs))) (map un (v0 :: vs))) by apply np_max_In.
    apply in_map_iff in X. destruct X as [v [Ex Hv]]. rewrite Forall_forall in Hl. destruct (Hl v Hv) as [[t ->] Pt].
    cbn [un] in Ex. rewrite <- Ex. split; [eauto|exact Pt].
  Qed.

  Lemma dated_add start step n (g g' : grid A) dz props el a :
    shaped (g_rows g) (g_cols g - 2) (el_stacks (layers g)) ->
    (forall i j, i < g_rows g -> j < g_cols g - 2 -> length (at2 [] (el_stacks (layers g)) i j) = el_number (layers g)) ->
    a + 10 <= S (el_number (layers g)) \/ ((Z.of_nat (S (el_number (layers g))) - Z.of_nat a) mod 20 <> 0)%Z ->
    dated start step n g -> 1 <= el_number (layers g) ->
    dget String.eqb props "age"%string = Some (full (g_rows g) (g_cols g - 2) (after_steps start step (S n))) ->
    el_add dz props (layers g) = Ok el ->
    g_rows g' = g_rows g -> g_cols g' = g_cols g -> layers g' = snd (archive (a, el)) ->
    dated start step (S n) g'.
  Proof.
    intros Sh Hlen Hbig Hd Hn1 Ht Ea Er Ec El. unfold el_add in Ea.
    rewrite (proj2 (Nat.eqb_neq _ _)) in Ea by lia. destruct (forallb _ _); [|discriminate Ea]. injection Ea as <-.
    set (el := mkLayers _ _ _) in *.
    assert (Shel : shaped (g_rows g) (g_cols g - 2) (el_stacks el)) by (apply shaped_fmapi; exact Sh).
    assert (Hel : forall i j, i < g_rows g -> j < g_cols g - 2 ->
      length (at2 [] (el_stacks el) i j) = S (el_number (layers g))
      /\ Forall (fun v => (exists t, v = Some t) /\ exists q, q <= S n /\ v = Some (after_steps start step q)) (map age_of (at2 [] (el_stacks el) i j))).
    { intros i j Hi Hj.
      assert (Y : at2 [] (el_stacks el) i j = add_stack (at2 n0 dz i j) (map (fun kv => (fst kv, at2 n0 (snd kv) i j)) props)
                                                (at2 [] (el_stacks (layers g)) i j))
        by exact (at2_fmapi _ _ _ _ [] [] _ _ Sh Hi Hj).
      rewrite Y. split; [rewrite add_stack_length, Hlen by assumption; reflexivity|].
      set (st := at2 [] (el_stacks (layers g)) i j) in *.
      assert (X : map age_of (add_stack (at2 n0 dz i j) (map (fun kv => (fst kv, at2 n0 (snd kv) i j)) props) st)
                  = map age_of st ++ [Some (after_steps start step (S n))]).
      { unfold age_of. rewrite <- (map_map c_props (fun p => dget String.eqb p "age"%string)), add_stack_props, map_app, map_map. f_equal.
        cbn [map]. f_equal. rewrite (dget_cell_props _ _ _ _ _ Ht). f_equal. apply at2_full; assumption. }
      rewrite X. apply Forall_app. split.
      - eapply Forall_impl; [|apply (Hd i j Hi Hj)]. intros v [q [Hq ->]]. split; [eauto|]. exists q. split; [lia|reflexivity].
      - constructor; [|constructor]. split; [eauto|]. exists (S n). auto. }
    unfold dated. rewrite El, Er, Ec. unfold archive. cbn [el_number el].
    destruct (Z.eqb_spec ((Z.of_nat (S (el_number (layers g))) - Z.of_nat a) mod 20)%Z 0) as [B|B]; cbn [snd].
    - intros i j Hi Hj. unfold el_reduce. cbn [el_stacks].
      assert (Y : at2 [] (fmap (reduce_stack a (a + 10) (layer_reducers (el_tracking (layers g)))) (el_stacks el)) i j
                  = reduce_stack a (a + 10) (layer_reducers (el_tracking (layers g))) (at2 [] (el_stacks el) i j))
        by exact (at2_fmap _ _ _ (el_stacks el) [] [] i j Shel Hi Hj).
      change (el_tracking el) with (el_tracking (layers g)). rewrite Y. destruct (Hel i j Hi Hj) as [L F].
      destruct Hbig as [Hbig|Hbig]; [|contradiction].
      eapply Forall_impl; [|apply (merged_age (fun v => exists q, q <= S n /\ v = Some (after_steps start step q)) _ a (a + 10)); [lia|rewrite L; exact Hbig|exact F]].
      intros v [_ X]. exact X.
    - intros i j Hi Hj. eapply Forall_impl; [|apply (Hel i j Hi Hj)]. intros v [_ X]. exact X.
  Qed.

  (* adding a layer and archiving *)
  Lemma laid_add n t t' (g g' : grid A) dz props el : laid n t g -> shaped (g_rows g) (g_cols g - 2) (el_stacks (layers g)) ->
    dget String.eqb props "age"%string = Some (full (g_rows g) (g_cols g - 2) t') ->
    el_add dz props (layers g) = Ok el ->
    g_rows g' = g_rows g -> g_cols g' = g_cols g -> layers g' = snd (archive (merged_after (S n), el)) ->
    laid (S n) t' g' /\ fst (archive (merged_after (S n), el)) = merged_after (S (S n)).
  Proof.
    intros [H1 [H2 H3]] Sh Ht Ea Er Ec El. unfold el_add in Ea.
    assert (Hn0 : Nat.eqb (el_number (layers g)) 0 = false).
    { apply Nat.eqb_neq. pose proof (merged_after_cases (S n)). lia. }
    rewrite Hn0 in Ea. destruct (forallb _ _); [|discriminate Ea]. injection Ea as <-.
    set (a := merged_after (S n)) in *. set (el := mkLayers _ _ _) in *.
    assert (Hlen : forall i j, i < g_rows g -> j < g_cols g - 2 ->
      length (at2 [] (el_stacks el) i j) = S (el_number (layers g))
      /\ nth_error (map age_of (at2 [] (el_stacks el) i j)) (el_number (layers g)) = Some (Some t')).
    { intros i j Hi Hj.
      assert (Y : at2 [] (el_stacks el) i j = add_stack (at2 n0 dz i j) (map (fun kv => (fst kv, at2 n0 (snd kv) i j)) props)
                                                (at2 [] (el_stacks (layers g)) i j))
        by exact (at2_fmapi _ _ _ _ [] [] _ _ Sh Hi Hj).
      rewrite Y. destruct (H3 i j Hi Hj) as [L _].
      split; [rewrite add_stack_length, L; reflexivity|].
      set (st := at2 [] (el_stacks (layers g)) i j) in *.
      assert (X : map age_of (add_stack (at2 n0 dz i j) (map (fun kv => (fst kv, at2 n0 (snd kv) i j)) props) st)
                  = map age_of st ++ [Some t']).
      { unfold age_of. rewrite <- (map_map c_props (fun p => dget String.eqb p "age"%string)), add_stack_props, map_app, map_map. f_equal.
        cbn [map]. f_equal. rewrite (dget_cell_props _ _ _ _ _ Ht). f_equal. apply at2_full; assumption. }
      rewrite X, nth_error_app2 by (rewrite map_length; lia). rewrite map_length, L, Nat.sub_diag. reflexivity. }
    assert (Shel : shaped (g_rows g) (g_cols g - 2) (el_stacks el)) by (apply shaped_fmapi; exact Sh).
    unfold archive in El |- *. cbn [el_number el] in El |- *.
    pose proof (merged_after_S (S n)) as MS. fold a in MS.
    rewrite (archive_test (S n) a (S (el_number (layers g)))) in El |- * by (unfold a in *; lia || reflexivity).
    destruct (Nat.eqb_spec (S (S n)) (10 * a + 20)) as [B|B]; cbn [snd fst] in El |- *.
    - split; [|symmetry; exact MS]. unfold laid. rewrite El, Er, Ec, MS. unfold el_reduce. cbn [el_number el_tracking el_stacks].
      set (N := el_number (layers g)) in *.
      assert (HN : N = a + 19) by lia.
      change (el_number el) with (S N). change (el_tracking el) with (el_tracking (layers g)).
      split; [lia|]. split; [exact H2|]. intros i j Hi Hj.
      assert (Y : at2 [] (fmap (reduce_stack a (a + 10) (layer_reducers (el_tracking el))) (el_stacks el)) i j
                  = reduce_stack a (a + 10) (layer_reducers (el_tracking el)) (at2 [] (el_stacks el) i j))
        by exact (at2_fmap _ _ _ (el_stacks el) [] [] i j Shel Hi Hj).
      change (el_tracking el) with (el_tracking (layers g)) in Y. rewrite Y.
      destruct (Hlen i j Hi Hj) as [L T]. set (st := at2 [] (el_stacks el) i j) in *.
      split; [rewrite reduce_length by lia; lia|].
      unfold reduce_stack. rewrite map_app. cbn [map].
      rewrite nth_error_app2; rewrite map_length, firstn_length; [|lia].
      replace (S N - (a + 10 - a) + 1 - 1 - Nat.min a (length st)) with (S (N - (a + 10))) by lia.
      cbn [nth_error]. rewrite <- skipn_map, nth_error_skip.
      replace (a + 10 + (N - (a + 10))) with N by lia. exact T.
    - split; [|symmetry; exact MS]. unfold laid. rewrite El, Er, Ec, MS. change (el_number el) with (S (el_number (layers g))).
      change (el_tracking el) with (el_tracking (layers g)).
      split; [lia|]. split; [exact H2|]. intros i j Hi Hj. cbn [Nat.sub]. rewrite Nat.sub_0_r. exact (Hlen i j Hi Hj).
  Qed.

  (* components *)
  Lemma beside_whole (c : component A W) : keeps_whole c -> keeps_whole (beside_output c).
  Proof.
    intros Hc dt w g w' g' Hg E. unfold beside_output in E. cbn [fst snd] in E.
    destruct (c dt (fst w, g)) as [[w1 g1]|] eqn:E1; [|discriminate E]. injection E as <- <-. eapply Hc; eassumption.
  Qed.
  Lemma output_whole : keeps_whole (@output_component A _ W).
  Proof.
    intros dt w g w' g' Hg E. unfold output_component in E. cbn [fst snd] in E. okstep E wf E1. injection E as <- <-. auto.
  Qed.

  Lemma run_components_output (cs : list (component A W)) dt (w : OW) g w' g' :
    run_components (map beside_output cs ++ [output_component]) dt (w, g) = Ok (w', g') ->
    exists w1, run_components cs dt (fst w, g) = Ok (w1, g') /\ fst w' = w1
      /\ writer_step (view g') (Some dt) (snd w) = Ok (snd w').
  Proof.
    revert w g. induction cs as [|c cs IH]; intros w g E.
    - cbn [map app] in E. unfold run_components in E |- *. cbn [foldM] in E |- *. okstep E s E1. injection E as ->.
      unfold output_component in E1. cbn [fst snd] in E1. okstep E1 wf E2. injection E1 as <- <-.
      exists (fst w). split; [reflexivity|]. split; [reflexivity|]. exact E2.
    - cbn [map app] in E. unfold run_components in E |- *. cbn [foldM] in E |- *. okstep E s E1.
      unfold beside_output in E1. cbn [fst snd] in E1. destruct (c dt (fst w, g)) as [[w1 g1]|]; [|discriminate E1].
      cbn [bind] in E1 |- *. injection E1 as <-. destruct (IH _ _ E) as [w2 [a [b d]]]. exists w2. auto.
  Qed.

  Lemma components_ages (cs : list (component A W)) dt w g w' g' : Forall keeps_ages cs ->
    run_components cs dt (w, g) = Ok (w', g') ->
    el_number (layers g') = el_number (layers g) /\ el_tracking (layers g') = el_tracking (layers g)
    /\ fmap (map age_of) (el_stacks (layers g')) = fmap (map age_of) (el_stacks (layers g)).
  Proof.
    intros Hk. revert w g. induction Hk as [|c cs Hc Hk IH]; intros w g E; unfold run_components in E; cbn [foldM] in E.
    - injection E as <- <-. auto.
    - okstep E s E1. destruct s as [w1 g1]. destruct (Hc _ _ _ _ _ E1) as [a [b d]]. destruct (IH _ _ E) as [a' [b' d']].
      split; [congruence|]. split; [congruence|]. rewrite d'. exact d.
  Qed.

  (* a model n steps after its construction *)
  Definition running (start : A) (n : nat) (m : smodel A OW) : Prop :=
    whole_grid (sm_grid m) /\ sm_archived m = merged_after (S n)
    /\ ck_time (sm_clock m) = after_steps start (ck_step (sm_clock m)) n
    /\ laid n (ck_time (sm_clock m)) (sm_grid m) /\ dated start (ck_step (sm_clock m)) n (sm_grid m).

  Lemma after_steps_S (start step : A) n : after_steps start step (S n) = nadd (after_steps start step n) step.
  Proof.
    unfold after_steps. replace (repeat step (S n)) with (repeat step n ++ [step]).
    - rewrite fold_left_app. reflexivity.
    - induction n as [|n IH]; [reflexivity|]. cbn [repeat app]. f_equal. exact IH.
  Qed.

  Lemma step_running (pr : processes A W) start n m m' :
    Forall keeps_whole (pr_components pr) -> Forall keeps_ages (pr_components pr) -> running start n m ->
    run_one_step (with_output pr) None m = Stepped m' ->
    running start (S n) m' /\ g_rows (sm_grid m') = g_rows (sm_grid m) /\ g_cols (sm_grid m') = g_cols (sm_grid m)
    /\ ck_step (sm_clock m') = ck_step (sm_clock m)
    /\ exists g, after_components (with_output pr) (ck_step (sm_clock m)) m g
       /\ writer_step (view g) (Some (ck_step (sm_clock m))) (snd (sm_world m)) = Ok (snd (sm_world m'))
       /\ g_rows g = g_rows (sm_grid m) /\ g_cols g = g_cols (sm_grid m) /\ whole_grid g
       /\ laid n (after_steps start (ck_step (sm_clock m)) n) g /\ dated start (ck_step (sm_clock m)) n g.
  Proof.
    intros Hk Ha [Hw [Harch [Hclk [Hl Hda]]]] E. unfold run_one_step in E.
    destruct (clock_advance (sm_clock m)) as [c stop] eqn:Ec. destruct stop; [discriminate E|].
    destruct (advance_components _ _ _) as [mm|] eqn:Ead; [|discriminate E]. injection E as ->.
    assert (Ect : c = mkClock (ck_start (sm_clock m)) (ck_stop (sm_clock m)) (ck_step (sm_clock m)) (nadd (ck_time (sm_clock m)) (ck_step (sm_clock m)))).
    { unfold clock_advance in Ec. congruence. }
    assert (Hkw : Forall keeps_whole (pr_components (with_output pr))).
    { cbn [with_output pr_components]. apply Forall_app. split; [|constructor; [apply output_whole|constructor]].
      clear - Hk. induction Hk; cbn [map]; constructor; [apply beside_whole; assumption|assumption]. }
    set (m1 := mkModel _ _ c _) in Ead.
    destruct (advance_stages _ _ m1 _ Hkw (Hw : whole_grid (sm_grid m1)) Ead) as
      [g0 [g1 [dz [props [el [g2 [E0 [W0 [Er [W1 [R1 [C1 [Ed [Ep [Eel [Wl [Eu [W2 [S2 [B2 [Wm [Gm [Am Cm]]]]]]]]]]]]]]]]]]]]]]].
    cbn [m1 sm_grid sm_clock sm_archived sm_world] in *.
    cbn [with_output pr_components] in Er. destruct (run_components_output _ _ _ _ _ _ Er) as [w1 [Erc [_ Ews]]].
    destruct (components_ages _ _ _ _ _ _ Ha Erc) as [En [Et Eag]].
    destruct (clear_spec _ _ E0) as [dz0 [_ Eg0]]. assert (L0 : layers g0 = layers (sm_grid m)) by (rewrite Eg0; reflexivity).
    rewrite L0 in En, Et, Eag.
    assert (Sh : shaped (g_rows (sm_grid m)) (g_cols (sm_grid m) - 2) (el_stacks (layers (sm_grid m)))) by apply Hw.
    assert (Sh1 : shaped (g_rows (sm_grid m)) (g_cols (sm_grid m) - 2) (el_stacks (layers g1))).
    { rewrite <- R1, <- C1. apply W1. }
    assert (Hl1 : laid n (ck_time (sm_clock m)) g1) by (eapply laid_same; eassumption).
    assert (Hda1 : dated start (ck_step (sm_clock m)) n g1) by (eapply dated_same; eassumption).
    assert (Page : dget String.eqb props "age"%string = Some (full (g_rows g1) (g_cols g1 - 2) (ck_time c))).
    { unfold layer_properties in Ep. okstep Ep a1 X1. okstep Ep a2 X2. okstep Ep a3 X3. injection Ep as <-.
      destruct (node g1 "delta_sediment_sand__volume_fraction"); reflexivity. }
    destruct S2 as [S2r [S2c [S2l _]]]. cbn in S2r, S2c, S2l.
    rewrite Harch in Gm, Am.
    assert (Sh1' : shaped (g_rows g1) (g_cols g1 - 2) (el_stacks (layers g1))) by apply W1.
    destruct (laid_add n (ck_time (sm_clock m)) (ck_time c) g1 (sm_grid m') (cells dz) props el Hl1 Sh1' Page Eel) as [Hl' Ha'].
    { rewrite Gm. exact S2r. } { rewrite Gm. exact S2c. } { rewrite Gm. reflexivity. }
    assert (Etc : ck_time c = after_steps start (ck_step (sm_clock m)) (S n))
      by (rewrite Ect, after_steps_S, Hclk; reflexivity).
    assert (Esc : ck_step c = ck_step (sm_clock m)) by (rewrite Ect; reflexivity).
    split.
    { split; [exact Wm|]. split; [rewrite Am; exact Ha'|]. rewrite Cm, Esc. split; [exact Etc|]. split; [exact Hl'|].
      rewrite Etc in Page. apply (dated_add start (ck_step (sm_clock m)) n g1 (sm_grid m') (cells dz) props el (merged_after (S n)));
        [exact Sh1'| | |exact Hda1| |exact Page|exact Eel|rewrite Gm; exact S2r|rewrite Gm; exact S2c|rewrite Gm; reflexivity].
      - intros i j Hi Hj. apply (proj2 (proj2 Hl1)); assumption.
      - destruct Hl1 as [H1 _].
        destruct (Z.eq_dec ((Z.of_nat (S (el_number (layers g1))) - Z.of_nat (merged_after (S n))) mod 20)%Z 0) as [B|B]; [left|right; exact B].
        pose proof (archive_test (S n) (merged_after (S n)) (S (el_number (layers g1))) ltac:(lia) ltac:(reflexivity)) as T.
        rewrite B in T. symmetry in T. apply Nat.eqb_eq in T. lia.
      - destruct Hl1 as [H1 _]. pose proof (merged_after_cases (S n)). lia. }
    split; [rewrite Gm; cbn; congruence|]. split; [rewrite Gm; cbn; congruence|].
    split; [rewrite Cm, Ect; reflexivity|].
    exists g1. split; [exists g0, (sm_world m'); split; [exact E0|exact Er]|].
    split; [exact Ews|]. split; [exact R1|]. split; [exact C1|]. split; [exact W1|].
    split; [rewrite <- Hclk; exact Hl1|exact Hda1].
  Qed.

  Lemma steps_running (pr : processes A W) start : 
    Forall keeps_whole (pr_components pr) -> Forall keeps_ages (pr_components pr) -> forall n n0' m m', running start n0' m ->
    default_steps n (with_output pr) m = Some m' ->
    running start (n0' + n) m' /\ ck_step (sm_clock m') = ck_step (sm_clock m)
    /\ g_rows (sm_grid m') = g_rows (sm_grid m) /\ g_cols (sm_grid m') = g_cols (sm_grid m)
    /\ exists gs, length gs = n
       /\ run_writer (map (fun g => (view g, Some (ck_step (sm_clock m)))) gs) (snd (sm_world m)) = Ok (snd (sm_world m'))
       /\ forall j g, nth_error gs j = Some g -> g_rows g = g_rows (sm_grid m) /\ g_cols g = g_cols (sm_grid m) /\ whole_grid g
            /\ laid (n0' + j) (after_steps start (ck_step (sm_clock m)) (n0' + j)) g
            /\ dated start (ck_step (sm_clock m)) (n0' + j) g.
  Proof.
    intros Hk Ha n. induction n as [|n IH]; intros k m m' Hr E; cbn [default_steps] in E.
    - injection E as <-. rewrite Nat.add_0_r. split; [exact Hr|]. do 3 (split; [reflexivity|]). exists []. split; [reflexivity|].
      split; [cbn; destruct (snd (sm_world m)); reflexivity|]. intros [|j] g X; discriminate X.
    - destruct (run_one_step (with_output pr) None m) as [m1| |] eqn:E1; try discriminate E.
      destruct (step_running pr start k m m1 Hk Ha Hr E1) as [Hr1 [R1 [C1 [S1 [g [_ [Ew [Rg [Cg [Wg Lg]]]]]]]]]].
      destruct (IH (S k) m1 m' Hr1 E) as [Hr2 [S2 [R2 [C2 [gs [Lgs [Erw Hgs]]]]]]].
      replace (k + S n) with (S k + n) by lia.
      split; [exact Hr2|]. split; [congruence|]. split; [congruence|]. split; [congruence|].
      exists (g :: gs). split; [cbn; lia|]. split.
      + unfold run_writer in *. cbn [map foldM fst snd]. rewrite Ew. cbn [bind]. rewrite <- S1. exact Erw.
      + intros [|j] g' X; cbn in X.
        * injection X as <-. rewrite Nat.add_0_r. auto.
        * destruct (Hgs j g' X) as [a [b [c d]]]. split; [congruence|]. split; [congruence|]. split; [exact c|].
          rewrite <- S1. replace (k + S j) with (S k + j) by lia. exact d.
  Qed.

  Lemma init_running (pr : processes A OW) w (g : grid A) c m : whole_grid g ->
    el_number (layers g) = 0 ->
    (forall i j, i < g_rows g -> j < g_cols g - 2 -> at2 [] (el_stacks (layers g)) i j = []) ->
    ck_time c = ck_start c -> model_init pr w g c = Ok m ->
    running (ck_start c) 0 m /\ g_rows (sm_grid m) = g_rows g /\ g_cols (sm_grid m) = g_cols g
    /\ sm_clock m = c /\ sm_world m = pr_set_sea_time pr (ck_time c) w.
  Proof.
    intros Hw Hnum Hst Hck E. unfold model_init in E.
    okstep E ga E1. okstep E gb E2. okstep E z0 E3. okstep E el E4. okstep E gc E5. injection E as <-.
    destruct (rowf g "x_of_shore") as [v1|]; [injection E1 as <-|discriminate].
    destruct (rowf _ "x_of_shelf_edge") as [v2|]; [injection E2 as <-|discriminate].
    set (g1 := put_gval _ _ _) in *.
    assert (Hg1 : whole_grid g1) by exact Hw.
    cbn [sm_grid sm_clock sm_archived sm_world].
    assert (Shl : shaped (g_rows g) (g_cols g - 2) (el_stacks (layers g1))) by apply Hg1.
    assert (Hg2 : whole_grid (set_layers g1 el)).
    { apply whole_layers; [|exact Hg1]. eapply el_add_shaped; [exact E4|]. exact Shl. }
    assert (Hl : laid 0 (ck_start c) (set_layers g1 el)).
    { unfold el_add in E4. change (el_number (layers g1)) with (el_number (layers g)) in E4. rewrite Hnum in E4.
      cbn [Nat.eqb] in E4. destruct (forallb _ _); [|discriminate E4]. injection E4 as <-.
      split; [reflexivity|]. split; [intros x [<-|[]]; left; reflexivity|]. cbn [set_layers g_rows g_cols layers el_number el_stacks].
      intros i j Hi Hj. change (g_rows g1) with (g_rows g) in *. change (g_cols g1) with (g_cols g) in *.
      match goal with |- context [fmapi ?f _] => set (add := f) end.
      match goal with |- length ?x = _ /\ _ => assert (Y : x = add i j (at2 [] (el_stacks (layers g)) i j))
        by exact (at2_fmapi add _ _ (el_stacks (layers g1)) [] [] i j Shl Hi Hj) end.
      rewrite Y, (Hst i j Hi Hj). unfold add. clear Y add.
      split; [rewrite add_stack_length; reflexivity|].
      unfold age_of. rewrite <- (map_map c_props (fun p => dget String.eqb p "age"%string)), add_stack_props.
      cbn [map app fst snd Nat.sub nth_error dget]. rewrite String.eqb_refl, at2_full by assumption. reflexivity. }
    assert (X : whole_grid gc /\ g_rows gc = g_rows g /\ g_cols gc = g_cols g /\ layers gc = el).
    { destruct (has_node (set_layers g1 el) WATER_LOAD).
      - okstep E5 z E6. okstep E5 sea E7. destruct (get_profile_inv _ _ _ E6) as [f [Ef ->]]. assert (Hf := proj2 Hg2 _ _ Ef).
        pose proof (fun Y => whole_set_profile _ _ _ _ Hg2 Y E5) as X. match type of X with ?T -> _ => assert (Y : T) end.
        + apply shaped_of_nth.
          * rewrite map_length. apply shaped_len with (m := g_cols g). apply shaped_inner. exact Hf.
          * intros i Hi. rewrite nth_map' with (da := []) by (rewrite (shaped_len _ _ _ (shaped_inner _ _ _ Hf)); exact Hi).
            unfold Flexure.calc_water_loading. rewrite !map_length. apply (shaped_nth (g_rows g) (g_cols g) _ i); [|exact Hi].
            apply shaped_inner. exact Hf.
        + destruct (X Y) as [X1 [[X2 [X3 [X4 _]]] _]]. auto.
      - injection E5 as <-. auto. }
    destruct X as [X1 [X2 [X3 X4]]].
    split; [|auto]. split; [exact X1|]. split; [reflexivity|]. split; [exact Hck|].
    cbn [sm_grid sm_clock].
    assert (Hd0 : dated (ck_start c) (ck_step c) 0 gc).
    { intros i j Hi Hj. rewrite X2 in Hi. rewrite X3 in Hj. rewrite X4. destruct Hl as [N0 [_ Hl]]. cbn [set_layers layers g_rows g_cols] in Hl, N0.
      destruct (Hl i j Hi Hj) as [L T]. change (merged_after 1) with 0 in N0. replace (el_number el) with 1 in * by lia.
      destruct (at2 [] (el_stacks el) i j) as [|c0 [|? ?]]; try discriminate L. cbn in T. injection T as T.
      constructor; [|constructor]. exists 0. split; [lia|]. exact T. }
    split; [|exact Hd0]. rewrite Hck. eapply laid_same; [| | | | | | |exact Hl].
    - exact (proj2 (proj2 (proj2 (proj2 (proj1 Hg2))))).
    - rewrite X4. exact (proj2 (proj2 (proj2 (proj2 (proj1 Hg2))))).
    - exact X2.
    - exact X3.
    - rewrite X4. reflexivity.
    - rewrite X4. reflexivity.
    - rewrite X4. reflexivity.
  Qed.
End Any.

(** the number of layers *)
Definition layers_after (n : nat) : nat := S n - 9 * merged_after (S n).
Lemma laid_number {A} `{Num A} n t (g : grid A) : laid n t g -> el_number (layers g) = layers_after n.
Proof. intros [E _]. unfold layers_after. lia. Qed.

Lemma steady_step k j : steady_interval k = true -> layers_after (j * k) <= layers_after (S j * k).
Proof.
  unfold steady_interval. intros Hs. apply orb_true_iff in Hs.
  assert (Hs' : k mod 10 = 0 \/ 9 <= k / 10 + k mod 10).
  { destruct Hs as [Hs|Hs]; [left; apply Nat.eqb_eq; exact Hs|right; apply Nat.leb_le; exact Hs]. }
  clear Hs. pose proof (Nat.div_mod k 10 ltac:(lia)) as D. pose proof (Nat.mod_upper_bound k 10 ltac:(lia)) as B.
  set (q := k / 10) in *. set (r := k mod 10) in *. clearbody q r.
  unfold layers_after. pose proof (merged_after_cases (S (j * k))) as M1. pose proof (merged_after_cases (S (S j * k))) as M2.
  replace (S j * k) with (k + j * k) in * by lia.
  destruct j as [|j]; [cbn [Nat.mul] in *; lia|].
  assert (Hx : exists y, S j * k = k + y) by (exists (j * k); lia).
  set (x := S j * k) in *. assert (Hxk : x = k + j * k) by (unfold x; lia). clearbody x.
  destruct (Nat.le_gt_cases 20 (S x)) as [Hc|Hc]; [lia|].
  assert (Hq : q = 0 \/ q = 1) by lia.
  assert (Hk : k = 0 \/ k = 9 \/ k = 10 \/ k = 18) by lia.
  destruct Hk as [->|[->|[->| ->]]]; lia.
Qed.
Lemma steady_mono k : steady_interval k = true -> forall i j, i <= j -> layers_after (i * k) <= layers_after (j * k).
Proof.
  intros Hs i j Hij. induction Hij as [|j Hij IH]; [lia|]. pose proof (steady_step k j Hs). lia.
Qed.
Lemma unsteady k : steady_interval k = false -> exists j, layers_after (S j * k) < layers_after (j * k).
Proof.
  intros Hs.
  assert (Hk : k < 90).
  { unfold steady_interval in Hs. apply orb_false_iff in Hs. destruct Hs as [_ Hs]. apply Nat.leb_gt in Hs.
    pose proof (Nat.div_mod k 10 ltac:(lia)) as D. pose proof (Nat.mod_upper_bound k 10 ltac:(lia)). lia. }
  assert (F : forallb (fun k => steady_interval k || existsb (fun j => Nat.ltb (layers_after (S j * k)) (layers_after (j * k))) (seq 0 30))%bool
                (seq 0 90) = true) by (vm_compute; reflexivity).
  rewrite forallb_forall in F. specialize (F k). rewrite Hs in F. cbn [orb] in F.
  assert (X := F ltac:(apply in_seq; lia)). apply existsb_exists in X. destruct X as [j [_ X]]. exists j. apply Nat.ltb_lt. exact X.
Qed.
