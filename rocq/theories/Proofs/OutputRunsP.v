(** When writing works, and what is written. *)
From Coq Require Import String List ZArith Arith Lia Bool.
From Verif.Base Require Import Num Py Arr.
From Verif.Model Require Import Layers Grid Netcdf OutputWriter Sequence SequenceModel.
From Verif.Spec Require Import Column Recording.
From Verif.Proofs Require Import GridP NetcdfP OutputP OutputLayersP ModelFileP.
Import ListNotations.

Lemma py_nth_ok {B} (l : list B) i : (- Z.of_nat (length l) <= i < Z.of_nat (length l))%Z -> exists b, py_nth l i = Ok b.
Proof.
  intros Hi. unfold py_nth. set (i' := if (i <? 0)%Z then _ else _).
  assert (Hi' : (0 <= i' < Z.of_nat (length l))%Z) by (unfold i'; destruct (Z.ltb_spec i 0); lia).
  destruct (Z.ltb_spec i' 0); [lia|]. destruct (nth_error l (Z.to_nat i')) as [b|] eqn:E; [eauto|].
  apply nth_error_None in E. lia.
Qed.
Lemma mapM_all {B C} (f : B -> result C) l : (forall b, In b l -> exists c, f b = Ok c) -> exists l', mapM f l = Ok l'.
Proof.
  induction l as [|b l IH]; intros X; [exists []; reflexivity|]. cbn [mapM].
  destruct (X b (or_introl eq_refl)) as [c ->]. destruct IH as [l' ->]; [intros b' Hb; apply X; right; exact Hb|].
  cbn. eauto.
Qed.
Lemma take_rows {B} (rows : list Z) (l : list B) n : n <= length l ->
  Forall (fun r => (- Z.of_nat n <= r < Z.of_nat n)%Z) rows -> exists l', take (Ids rows) l = Ok l' /\ length l' = length rows.
Proof.
  intros Hn Hr. cbn [take]. destruct (mapM_all (py_nth l) rows) as [l' E].
  - intros r Hin. apply py_nth_ok. rewrite Forall_forall in Hr. apply Hr in Hin. lia.
  - exists l'. split; [exact E|]. apply mapM_length in E. exact E.
Qed.
Lemma rows_all n : Forall (fun r => (- Z.of_nat n <= r < Z.of_nat n)%Z) (map Z.of_nat (seq 0 n)).
Proof. apply Forall_map, Forall_forall. intros i Hi. apply in_seq in Hi. lia. Qed.
Lemma fit_ok {B} (l : list B) : fit (length l) l = Ok l.
Proof. unfold fit. rewrite Nat.eqb_refl. reflexivity. Qed.

Lemma inner_seq {B} (f : nat -> B) n : 2 <= n -> inner (map f (seq 0 n)) = map (fun i => f (S i)) (seq 0 (n - 2)).
Proof.
  intros Hn. destruct n as [|[|n]]; [lia|lia|]. replace (S (S n) - 2) with n by lia.
  unfold inner. cbn [seq map tl]. change (f 1 :: map f (seq 2 n)) with (map f (seq 1 (S n))).
  rewrite seq_S, map_app. cbn [map]. rewrite removelast_last, <- seq_shift, map_map. reflexivity.
Qed.

Lemma mem_not x l : mem x l = false <-> ~ In x l.
Proof.
  pose proof (mem_In x l) as M. destruct (mem x l); split; intros X; try discriminate X; try reflexivity.
  - exfalso. apply X. apply M. reflexivity.
  - intros Y. apply M in Y. discriminate Y.
Qed.

Section Any.
  Context {A : Type} `{Num A}.
  Implicit Types (w : writer A) (fs : filesystem A).

  Lemma set_field_ok (g : gview A) loc ids names d (fs : list (string * values A)) n : fields_at g loc = Ok fs ->
    dget String.eqb (ds_dims d) loc = Some n ->
    (forall name v, In name (fields_to_write loc names fs) -> dget String.eqb fs name = Some v ->
       exists l, selected ids v = Ok l /\ length l = n) ->
    exists d', set_field g loc ids names d = Ok d'.
  Proof.
    intros Ef En Hok. unfold set_field. rewrite Ef. cbn [bind].
    assert (Hd : forall name, In name (fields_to_write loc names fs) -> exists v, dget String.eqb fs name = Some v).
    { intros name Hn. assert (X : mem name (map fst fs) = true).
      { unfold fields_to_write in Hn. destruct (String.eqb loc "grid"); [apply filter_In in Hn; destruct Hn as [Hn _]|];
          apply filter_In in Hn; apply Hn. }
      apply mem_In in X. clear -X. induction fs as [|[nm v] fs IH]; [destruct X|]. cbn [dget].
      destruct (String.eqb_spec name nm); [eauto|]. apply IH. destruct X as [X|X]; [cbn in X; congruence|exact X]. }
    revert Hok Hd. generalize (fields_to_write loc names fs) as ns. intros ns. revert d En.
    induction ns as [|name ns IH]; intros d En Hok Hd; cbn [foldM]; [eauto|].
    rewrite En. destruct (Hd name (or_introl eq_refl)) as [v Ev]. destruct (Hok name v (or_introl eq_refl) Ev) as [l [El Ll]].
    rewrite Ev.
    assert (X : match v with Scalar v => Ok [v] | Vector l => take ids l end = Ok l) by (destruct v; exact El).
    match goal with |- context [bind (bind ?r _) _] => assert (Y : r = Ok l) by exact X; rewrite Y end. cbn [bind].
    rewrite <- Ll, fit_ok. cbn [bind]. apply IH; [exact En| |].
    - intros nm v' Hn. apply Hok. right. exact Hn.
    - intros nm Hn. apply Hd. right. exact Hn.
  Qed.

  Lemma set_layers_ok (g : gview A) d : dget String.eqb (ds_dims d) "row"%string = Some (gv_rows g) ->
    dget String.eqb (ds_dims d) "column"%string = Some (gv_cols g - 2) -> exists d', set_layers_vars g d = Ok d'.
  Proof.
    intros E1 E2. unfold set_layers_vars. rewrite E1, E2.
    generalize (el_tracking (gv_layers g) ++ ["thickness"%string])%list as ns. intros ns. clear E1 E2.
    revert d. induction ns as [|name ns IH]; intros d; cbn [foldM]; [eauto|]. rewrite fit_layers_same. cbn [bind]. apply IH.
  Qed.

  Definition dims_of (g : grid A) : list (string * nat) :=
    [("row", g_rows g); ("column", g_cols g - 2); ("node", (g_rows g + 2) * g_cols g); ("link", 0); ("face", 0);
     ("cell", g_rows g * (g_cols g - 2)); ("grid", 1)]%string.

  Lemma node_xy_shaped (g : grid A) : shaped (g_rows g + 2) (g_cols g) (node_xy g).
  Proof.
    split.
    - unfold node_xy, y_of_row. rewrite !map_length, seq_length. reflexivity.
    - intros r Hr. apply in_map_iff in Hr. destruct Hr as [y [<- _]]. unfold x_of_column. rewrite !map_length, seq_length. reflexivity.
  Qed.

  Lemma header_ok (g : grid A) rows : 2 <= g_cols g -> length rows = g_rows g ->
    Forall (fun r => (- Z.of_nat (g_rows g) <= r < Z.of_nat (g_rows g))%Z) rows ->
    exists d0, foldM (fun d loc => set_grid_coordinates (view g) loc (ids_of default_at (writer_ids rows (view g)) loc) d)
      ("row" :: "column" :: default_at)%string ds_empty = Ok d0 /\ ds_dims d0 = dims_of g.
  Proof.
    intros HC Hl Hr.
    destruct (take_rows rows (y_of_row g) (g_rows g)) as [ys [Ey Ly]]; [unfold y_of_row; rewrite map_length, seq_length; lia|exact Hr|].
    destruct (take_rows (map Z.of_nat (seq 0 (g_cols g - 2))) (x_of_column g) (g_cols g - 2)) as [xs [Ex Lx]];
      [unfold x_of_column; rewrite map_length, seq_length; lia|apply rows_all|].
    assert (X : exists d0, foldM (fun d loc => set_grid_coordinates (view g) loc (ids_of default_at (writer_ids rows (view g)) loc) d)
      ("row" :: "column" :: default_at)%string ds_empty = Ok d0).
    { unfold default_at, writer_ids, ids_of. cbn -[take map y_of_row x_of_column]. rewrite Ey. cbn -[take map y_of_row x_of_column].
      rewrite Ex. cbn -[map]. eauto. }
    destruct X as [d0 E0]. exists d0. split; [exact E0|]. apply header_spec in E0.
    destruct E0 as [_ [_ [_ [ys' [xs' [Ey' [Ex' [D _]]]]]]]]. rewrite D. unfold dims_of.
    assert (ys' = ys) by (change (gv_y_of_row (view g)) with (y_of_row g) in Ey'; congruence). subst ys'.
    assert (xs' = xs) by (change (gv_x_of_column (view g)) with (x_of_column g) in Ex';
                          change (gv_cols (view g)) with (g_cols g) in Ex'; congruence). subst xs'.
    rewrite Ly, Lx, Hl, map_length, seq_length. cbn [view gv_xy String.eqb Ascii.eqb Bool.eqb length].
    rewrite (concat_length _ _ _ (node_xy_shaped g)).
    rewrite (concat_length (g_rows g) (g_cols g - 2) (cells (node_xy g))); [reflexivity|].
    apply shaped_cells. replace (g_cols g - 2 + 2) with (g_cols g) by lia. exact (node_xy_shaped g).
  Qed.

  Lemma view_field (g : grid A) name v : dget String.eqb (map (fun kf => (fst kf, Vector (map Some (concat (snd kf))))) (at_node g)) name = Some v ->
    exists f, node g name = Some f /\ v = Vector (map Some (concat f)).
  Proof.
    unfold node. induction (at_node g) as [|[nm f] l IH]; [discriminate|]. cbn [map dget fst snd].
    destruct (String.eqb name nm); [intros E; injection E as <-; eauto|exact IH].
  Qed.
  Lemma view_row (g : grid A) name v : dget String.eqb (map (fun kv => (fst kv, Vector (snd kv))) (at_row g)) name = Some v ->
    exists l, rowf g name = Some l /\ v = Vector l.
  Proof.
    unfold rowf. induction (at_row g) as [|[nm f] l IH]; [discriminate|]. cbn [map dget fst snd].
    destruct (String.eqb name nm); [intros E; injection E as <-; eauto|exact IH].
  Qed.
  Lemma view_grid (g : grid A) name v : dget String.eqb (map (fun kv => (fst kv, Scalar (Some (snd kv)))) (at_grid g)) name = Some v ->
    exists l, v = Scalar l.
  Proof.
    induction (at_grid g) as [|[nm f] l IH]; [discriminate|]. cbn [map dget fst snd].
    destruct (String.eqb name nm); [intros E; injection E as <-; eauto|exact IH].
  Qed.

  Lemma write_ok (g : grid A) t rows fields (od : option (dataset A)) : recordable g -> length rows = g_rows g ->
    Forall (fun r => (- Z.of_nat (g_rows g) <= r < Z.of_nat (g_rows g))%Z) rows ->
    match od with Some d => ds_dims d = dims_of g | None => True end ->
    exists d', writer_write (view g) t rows fields od = Ok d' /\ ds_dims d' = dims_of g.
  Proof.
    intros [Hw Hrow] Hl Hr Hod.
    assert (Hh : exists d0, (match od with
        | Some d => Ok d
        | None => foldM (fun d loc => set_grid_coordinates (view g) loc (ids_of default_at (writer_ids rows (view g)) loc) d)
                    ("row" :: "column" :: default_at)%string ds_empty
        end) = Ok d0 /\ ds_dims d0 = dims_of g).
    { destruct od as [d|]; [eauto|]. apply header_ok; [|assumption..].
      destruct Hw as [Hm _]. unfold model_grid in Hm. lia. }
    destruct Hh as [d0 [E0 D0]].
    assert (X : exists d', writer_write (view g) t rows fields od = Ok d').
    { unfold writer_write, write_dataset. rewrite E0. cbn [bind].
      set (d1 := set_times d0 (ds_time d0 ++ [t])). assert (D1 : ds_dims d1 = dims_of g) by exact D0.
      assert (En : mapM (fun loc => let* l := names_of (view g) (NamesAt [("node"%string, Names fields)]) loc in Ok (loc, l)) default_at
                   = Ok [("node", fields); ("link", []); ("face", []); ("cell", []); ("grid", [])]%string) by reflexivity.
      rewrite En. cbn [bind foldM fst snd].
      destruct (set_field_ok (view g) "node" (ids_of default_at (writer_ids rows (view g)) "node") fields d1 _ ((g_rows g + 2) * g_cols g) eq_refl)
        as [d2 E2]; [rewrite D1; reflexivity| |].
      { intros name v _ Ev. apply view_field in Ev. destruct Ev as [f [Ef ->]]. eexists. split; [reflexivity|].
        rewrite map_length. apply concat_length. apply (proj2 Hw _ _ Ef). }
      rewrite E2. cbn [bind].
      assert (D2 : ds_dims d2 = dims_of g).
      { apply set_field_writes in E2. destruct E2 as [? [_ [S _]]]. transitivity (ds_dims d1); [apply S|exact D1]. }
      destruct (set_field_ok (view g) "link" (ids_of default_at (writer_ids rows (view g)) "link") [] d2 _ 0 eq_refl)
        as [d3 E3]; [rewrite D2; reflexivity|intros name v []|].
      rewrite E3. cbn [bind].
      assert (D3 : ds_dims d3 = dims_of g).
      { apply set_field_writes in E3. destruct E3 as [? [_ [S _]]]. transitivity (ds_dims d2); [apply S|exact D2]. }
      destruct (set_field_ok (view g) "face" (ids_of default_at (writer_ids rows (view g)) "face") [] d3 _ 0 eq_refl)
        as [d4 E4]; [rewrite D3; reflexivity|intros name v []|].
      rewrite E4. cbn [bind].
      assert (D4 : ds_dims d4 = dims_of g).
      { apply set_field_writes in E4. destruct E4 as [? [_ [S _]]]. transitivity (ds_dims d3); [apply S|exact D3]. }
      destruct (set_field_ok (view g) "cell" (ids_of default_at (writer_ids rows (view g)) "cell") [] d4 _ (g_rows g * (g_cols g - 2)) eq_refl)
        as [d5 E5]; [rewrite D4; reflexivity|intros name v []|].
      rewrite E5. cbn [bind].
      assert (D5 : ds_dims d5 = dims_of g).
      { apply set_field_writes in E5. destruct E5 as [? [_ [S _]]]. transitivity (ds_dims d4); [apply S|exact D4]. }
      destruct (set_field_ok (view g) "grid" (ids_of default_at (writer_ids rows (view g)) "grid") [] d5 _ 1 eq_refl)
        as [d6 E6]; [rewrite D5; reflexivity| |].
      { intros name v _ Ev. apply view_grid in Ev. destruct Ev as [l ->]. eexists. split; reflexivity. }
      rewrite E6. cbn [bind].
      assert (D6 : ds_dims d6 = dims_of g).
      { apply set_field_writes in E6. destruct E6 as [? [_ [S _]]]. transitivity (ds_dims d5); [apply S|exact D5]. }
      destruct (set_field_ok (view g) "row" (ids_of default_at (writer_ids rows (view g)) "row") ["x_of_shore"; "x_of_shelf_edge"]%string
                  d6 _ (g_rows g) eq_refl) as [d7 E7]; [rewrite D6; reflexivity| |].
      { intros name v Hn Ev. unfold fields_to_write in Hn. change (String.eqb "row" "grid") with false in Hn. cbn iota in Hn.
        apply filter_In in Hn. destruct Hn as [Hn _]. apply view_row in Ev. destruct Ev as [l [El ->]].
        assert (Ll := Hrow name l Hn El).
        change (ids_of default_at (writer_ids rows (view g)) "row") with (Ids rows). cbn [selected].
        destruct (take_rows rows l (g_rows g)) as [l' [E' L']]; [lia|exact Hr|]. exists l'. split; [exact E'|congruence]. }
      rewrite E7. cbn [bind].
      assert (D7 : ds_dims d7 = dims_of g).
      { apply set_field_writes in E7. destruct E7 as [? [_ [S _]]]. transitivity (ds_dims d6); [apply S|exact D6]. }
      apply set_layers_ok; rewrite D7; reflexivity. }
    destruct X as [d' E']. exists d'. split; [exact E'|]. apply writer_write_spec in E'.
    destruct E' as [d0' [Hd0' [_ [D' _]]]]. rewrite D'. destruct od as [d|]; [subst d0'; exact Hod|].
    rewrite <- D0. apply header_spec in E0. destruct Hd0' as [_ [_ [_ [ys [xs [a [b [c _]]]]]]]].
    destruct E0 as [_ [_ [_ [ys' [xs' [a' [b' [c' _]]]]]]]]. rewrite c, c'. congruence.
  Qed.

  Theorem run_ok (R C : nat) w fs : (1 <= ow_interval w)%Z -> fs (ow_path w) = None -> length (ow_rows w) = R ->
    Forall (fun r => (- Z.of_nat R <= r < Z.of_nat R)%Z) (ow_rows w) -> ow_count w = 0 ->
    forall calls : list (grid A * option A),
      Forall (fun c => recordable (fst c) /\ g_rows (fst c) = R /\ g_cols (fst c) = C) calls ->
      exists w' fs', run_writer (map (fun c => (view (fst c), snd c)) calls) (w, fs) = Ok (w', fs')
        /\ match calls with
           | [] => fs' = fs
           | (g, _) :: _ => exists d, fs' (ow_path w) = Some (Nc d) /\ ds_dims d = dims_of g
           end.
  Proof.
    intros Hk Hnone HR Hrows Hc0 calls. induction calls as [|[g dt] calls IH] using rev_ind; intros Hall.
    - exists w, fs. split; reflexivity.
    - apply Forall_app in Hall. destruct Hall as [Hall Hg]. apply Forall_inv in Hg. destruct Hg as [Hrec [Gr Gc]]. cbn [fst] in Hrec, Gr, Gc.
      destruct (IH Hall) as [w1 [fs1 [E1 Hf]]]. clear IH.
      destruct (run_writer_state _ _ _ _ _ E1) as [Ew1 _].
      rewrite map_app. cbn [map fst snd]. rewrite run_writer_snoc, E1. cbn [bind fst snd].
      assert (Hf' : match fs1 (ow_path w1) with None => True | Some (Nc d) => ds_dims d = dims_of g | _ => False end).
      { rewrite Ew1. cbn [ow_path]. destruct calls as [|[g' dt'] calls'].
        - subst fs1. rewrite Hnone. exact I.
        - destruct Hf as [d [-> D]]. rewrite D. apply Forall_inv in Hall. destruct Hall as [_ [Gr' Gc']]. cbn [fst] in Gr', Gc'.
          unfold dims_of. rewrite Gr', Gc', Gr, Gc. reflexivity. }
      assert (Wok : forall od, match od with Some d => ds_dims d = dims_of g | None => True end ->
        exists d', writer_write (view g) (ow_time w1) (ow_rows w1) (ow_fields w1) od = Ok d' /\ ds_dims d' = dims_of g).
      { intros od Hod. apply write_ok; [exact Hrec| | |exact Hod]; rewrite Ew1; cbn [ow_rows]; [congruence|rewrite Gr; exact Hrows]. }
      assert (Hpath : ow_path w1 = ow_path w) by (rewrite Ew1; reflexivity).
      assert (Hint : ow_interval w1 = ow_interval w) by (rewrite Ew1; reflexivity).
      assert (Hcnt : ow_count w1 = length calls) by (rewrite Ew1; cbn; rewrite map_length; lia).
      unfold writer_step. rewrite Hint. destruct (Z.eqb_spec (ow_interval w) 0); [lia|].
      destruct (Z.eqb_spec (Z.of_nat (ow_count w1) mod ow_interval w) 0) as [Hd|Hd].
      + assert (X : exists d', to_netcdf (view g) (ow_path w1) true (ow_time w1) default_at
            (IdsAt [("row"%string, Ids (ow_rows w1)); ("column"%string, Ids (map Z.of_nat (seq 0 (gv_cols (view g) - 2))))])
            (NamesAt [("node"%string, Names (ow_fields w1))]) true fs1 = Ok (fs_set fs1 (ow_path w1) (Some (Nc d')))
            /\ ds_dims d' = dims_of g).
        { unfold to_netcdf. destruct (fs1 (ow_path w1)) as [[d| |]|] eqn:Ep; try contradiction.
          - destruct (Wok (Some d) Hf') as [d' [E' D']]. exists d'. cbn [bind]. unfold writer_write, writer_ids in E'. rewrite E'. split; [reflexivity|exact D'].
          - destruct (Wok None I) as [d' [E' D']]. exists d'. cbn [bind]. unfold writer_write, writer_ids in E'. rewrite E'. split; [reflexivity|exact D']. }
        destruct X as [d' [E' D']]. rewrite E'. cbn [bind]. do 2 eexists. split; [reflexivity|].
        assert (Y : exists d, fs_set fs1 (ow_path w1) (Some (Nc d')) (ow_path w) = Some (Nc d) /\ ds_dims d = dims_of g).
        { exists d'. rewrite <- Hpath. unfold fs_set. rewrite String.eqb_refl. split; [reflexivity|exact D']. }
        destruct calls as [|[g' dt'] calls']; cbn [app]; [exact Y|]. destruct Y as [d [Y1 Y2]]. exists d. split; [exact Y1|].
        apply Forall_inv in Hall. destruct Hall as [_ [Gr' Gc']]. cbn [fst] in Gr', Gc'. rewrite Y2. unfold dims_of. rewrite Gr', Gc', Gr, Gc. reflexivity.
      + cbn [bind]. do 2 eexists. split; [reflexivity|]. destruct calls as [|[g' dt'] calls']; cbn [app].
        * exfalso. apply Hd. rewrite Hcnt. reflexivity.
        * exact Hf.
  Qed.

  (* rows that are not all of them *)
  Lemma rows_subset (g : gview A) t rows fields od d' : gv_rows g <> length rows -> 2 <= gv_rows g -> 3 <= gv_cols g ->
    shaped (gv_rows g) (gv_cols g - 2) (el_stacks (gv_layers g)) ->
    1 <= el_number (gv_layers g) ->
    match od with Some d => dget String.eqb (ds_dims d) "row"%string = Some (length rows)
                            /\ dget String.eqb (ds_dims d) "column"%string = Some (gv_cols g - 2) | None => True end ->
    writer_write g t rows fields od <> Ok d'.
  Proof.
    intros Hne HR HC Sh Hn Hod E. apply writer_write_spec in E.
    destruct E as [d0 [Hd0 [_ [_ [_ [_ [_ [_ [r [c [Er [Ec [_ Hl]]]]]]]]]]]]].
    assert (Hrc : r = length rows /\ c = gv_cols g - 2).
    { destruct od as [d|].
      - subst d0. destruct Hod as [a b]. split; congruence.
      - destruct Hd0 as [_ [_ [_ [ys [xs [Ey [Ex [D _]]]]]]]]. rewrite D in Er, Ec. cbn in Er, Ec.
        cbn [take] in Ey, Ex. apply mapM_length in Ey, Ex. rewrite map_length, seq_length in Ex. split; congruence. }
    destruct Hrc as [-> ->]. destruct (Hl "thickness"%string) as [l [Hfit _]]; [apply in_or_app; right; left; reflexivity|].
    unfold fit_layers in Hfit. rewrite layer_data_length in Hfit.
    destruct (Nat.eqb_spec (el_number (gv_layers g) * (gv_rows g * (gv_cols g - 2)))
                (el_number (gv_layers g) * (length rows * (gv_cols g - 2)))) as [X|_].
    - apply Nat.mul_cancel_l in X; [|lia]. apply Nat.mul_cancel_r in X; [|lia]. contradiction.
    - pose proof (proj1 (mapM_Forall2 _ _ _) Hfit) as F. destruct (layer_data (gv_layers g) "thickness") as [|f ls] eqn:Ed.
      + pose proof (layer_data_length (gv_layers g) "thickness") as L. rewrite Ed in L. cbn in L. lia.
      + inversion F as [|? ? ? ? Hf _]; subst.
        assert (Lf : length f = gv_rows g).
        { assert (X : In f (layer_data (gv_layers g) "thickness")) by (rewrite Ed; left; reflexivity).
          unfold layer_data, layers_of in X. change (String.eqb "thickness" "thickness") with true in X. cbn iota in X.
          apply in_map_iff in X. destruct X as [i [<- _]]. unfold fmap. rewrite map_length. apply (shaped_len _ _ _ Sh). }
        unfold fit in Hf. rewrite Lf in Hf. destruct (Nat.eqb_spec (gv_rows g) (length rows)); [contradiction|].
        destruct f as [|b [|b' f]]; try discriminate Hf. cbn in Lf. lia.
  Qed.

  Lemma fields_to_write_In (g : gview A) loc ns (fs : list (string * values A)) name : fields_at g loc = Ok fs ->
    In name (fields_to_write loc ns fs) <-> writable g loc name /\ (ns = [] \/ In name ns).
  Proof.
    intros Ef.
    assert (Hf : field_at g loc name <> None <-> mem name (map fst fs) = true).
    { rewrite mem_In. unfold field_at. unfold fields_at in Ef. destruct (dget String.eqb (gv_fields g) loc) as [fs'|]; [|discriminate Ef].
      injection Ef as ->. clear. induction fs as [|[nm v] fs IH]; cbn [dget map fst In].
      - split; [intros X; exfalso; apply X; reflexivity|intros []].
      - destruct (String.eqb_spec name nm) as [->|Hn].
        + split; [left; reflexivity|discriminate].
        + rewrite IH. split; [right; assumption|intros [X|X]; [congruence|exact X]]. }
    set (base := match ns with [] => map fst fs | _ => ns end).
    assert (Hb : In name base /\ mem name (map fst fs) = true <-> mem name (map fst fs) = true /\ (ns = [] \/ In name ns)).
    { unfold base. destruct ns as [|n ns].
      - rewrite mem_In. tauto.
      - split; [tauto|]. intros [a [b|b]]; [discriminate b|tauto]. }
    unfold fields_to_write. fold base. unfold writable. rewrite Hf.
    destruct (String.eqb_spec loc "grid") as [->|Hloc].
    - rewrite !filter_In, Hb, negb_true_iff.
      assert (X : mem name ["x_of_shelf_edge"; "x_of_shore"]%string = false <-> ~ In name ["x_of_shelf_edge"; "x_of_shore"]%string).
      { apply mem_not. }
      rewrite X. tauto.
    - rewrite filter_In, Hb. tauto.
  Qed.

  Lemma mapM_pairs (f : string -> result (list string)) at_ l :
    mapM (fun loc => let* x := f loc in Ok (loc, x)) at_ = Ok l ->
    map fst l = at_ /\ forall loc ns, In (loc, ns) l -> f loc = Ok ns.
  Proof.
    revert l. induction at_ as [|loc at_ IH]; intros l E; cbn [mapM] in E.
    - injection E as <-. split; [reflexivity|intros ? ? []].
    - okstep E p Ep. okstep Ep x Ex. injection Ep as <-. okstep E l' El. injection E as <-.
      destruct (IH l' eq_refl) as [a b]. split; [cbn; congruence|]. intros loc' ns [X|X]; [injection X as <- <-; exact Ex|apply b; exact X].
  Qed.

  (* the field variables of a new file *)
  Lemma write_fields (g : gview A) t at_ ids names wl d' : NoDup at_ -> ~ In "row"%string at_ ->
    write_dataset g t at_ ids names wl None = Ok d' ->
    forall loc, In loc at_ -> exists ns (fs : list (string * values A)), names_of g names loc = Ok ns /\ fields_at g loc = Ok fs
      /\ forall name, has_variable d' loc name <-> In name (fields_to_write loc ns fs).
  Proof.
    intros Hnd Hrow E loc Hloc. unfold write_dataset in E. okstep E names_at En. okstep E d0 E0.
    destruct (coordinates_empty _ _ _ _ _ E0) as [_ [F0 [_ Hincl]]].
    destruct (mapM_pairs _ _ _ En) as [Hfst Hnames]. rewrite <- Hfst in Hnd.
    set (d1 := set_times d0 _) in E. okstep E d2 E2. okstep E d3 E3.
    assert (Hincl' : incl (map fst names_at) written_locations).
    { rewrite Hfst. intros x Hx. apply Hincl. right. right. exact Hx. }
    destruct (field_list_writes g (ids_of at_ ids) names_at Hnd Hincl' _ _ E2) as [_ [V2 [_ N2]]].
    apply set_field_writes in E3. destruct E3 as [fsr [_ [_ [V3 _]]]].
    assert (Hin : exists ns, In (loc, ns) names_at).
    { rewrite <- Hfst in Hloc. apply in_map_iff in Hloc. destruct Hloc as [[l ns] [<- X]]. exists ns. exact X. }
    destruct Hin as [ns Hin]. exists ns. destruct (N2 loc ns Hin) as [fs [Efs N2']]. exists fs.
    split; [apply Hnames; exact Hin|]. split; [exact Efs|].
    assert (Hf3 : forall name, dget String.eqb (ds_fields d3) (var_name name loc) = dget String.eqb (ds_fields d2) (var_name name loc)).
    { intros name. apply V3. intros nm _ X. apply var_name_loc in X.
      - destruct X as [-> _]. contradiction.
      - apply Hincl. right. right. exact Hloc.
      - cbn. tauto. }
    assert (Hd' : ds_fields d' = ds_fields d3).
    { destruct wl; [apply set_layers_writes in E; apply E|congruence]. }
    intros name. unfold has_variable. rewrite Hd', Hf3. split.
    - intros X. destruct (in_dec string_dec name (fields_to_write loc ns fs)) as [Y|Y]; [exact Y|]. exfalso. apply X.
      rewrite V2.
      + change (ds_fields d1) with (ds_fields d0). rewrite F0. reflexivity.
      + intros l' ns' fs' nm Hin' Efs' Hnm X2. apply var_name_loc in X2.
        * destruct X2 as [-> ->]. assert (fs' = fs) by congruence. subst fs'.
          assert (ns' = ns); [|subst; contradiction].
          clear -Hnd Hin Hin'. induction names_at as [|[l n] rest IH]; [destruct Hin|]. inversion Hnd as [|? ? Hni Hnd']; subst.
          destruct Hin as [X|X], Hin' as [Y|Y].
          -- congruence.
          -- injection X as -> ->. exfalso. apply Hni. apply in_map_iff. exists (l', ns'). split; [reflexivity|exact Y].
          -- injection Y as -> ->. exfalso. apply Hni. apply in_map_iff. exists (l', ns). split; [reflexivity|exact X].
          -- apply IH; assumption.
        * apply Hincl. right. right. exact Hloc.
        * apply Hincl'. apply in_map_iff. exists (l', ns'). split; [reflexivity|exact Hin'].
    - intros X. destruct (N2' name X) as [n [x [vals [l [_ [_ [_ [_ [_ D]]]]]]]]]. unfold din in D.
      destruct (dget String.eqb (ds_fields d2) (var_name name loc)); [discriminate|discriminate D].
  Qed.

  Theorem names_written (g : gview A) path time at_ ids names wl fs fs' d loc l :
    to_netcdf g path false time at_ ids names wl fs = Ok fs' -> file_at fs' path = Some d ->
    NoDup at_ -> ~ In "row"%string at_ -> In loc at_ -> requested names loc l ->
    (exists name, In name l /\ writable g loc name) ->
    forall name, has_variable d loc name <-> In name l /\ writable g loc name.
  Proof.
    intros E Hd Hnd Hrow Hloc Hreq [nm [Hnm Hwr]] name.
    unfold to_netcdf in E. okstep E od Eo. assert (od = None) by (destruct (fs path) as [[| |]|]; congruence). subst od. clear Eo.
    okstep E d1 E1. injection E as <-. unfold file_at, fs_set in Hd. rewrite String.eqb_refl in Hd. injection Hd as ->.
    destruct (write_fields g time at_ ids names wl d Hnd Hrow E1 loc Hloc) as [ns [fs0 [En [Ef Hiff]]]].
    rewrite Hiff, (fields_to_write_In g loc ns fs0 name Ef).
    assert (Hmem : forall n, mem n (map fst fs0) = true <-> field_at g loc n <> None).
    { intros n. rewrite mem_In. unfold field_at. unfold fields_at in Ef. destruct (dget String.eqb (gv_fields g) loc) as [fs2|]; [|discriminate Ef].
      injection Ef as ->. clear. induction fs0 as [|[k v] fs0 IH]; cbn [dget map fst In].
      - split; [intros []|intros X; exfalso; apply X; reflexivity].
      - destruct (String.eqb_spec n k) as [->|Hn]; [split; [discriminate|left; reflexivity]|].
        rewrite <- IH. split; [intros [X|X]; [congruence|exact X]|right; assumption]. }
    set (sel := if String.eqb loc "grid" then fun n => negb (mem n ["x_of_shelf_edge"; "x_of_shore"]%string) else fun _ => true).
    assert (Hsel : forall n, (loc = "grid"%string -> ~ In n ["x_of_shelf_edge"; "x_of_shore"]%string) <-> sel n = true).
    { intros n. unfold sel. destruct (String.eqb_spec loc "grid") as [->|Hl]; [|tauto].
      rewrite negb_true_iff, mem_not. tauto. }
    assert (Hns : forall n, writable g loc n -> (In n ns <-> In n l)).
    { intros n [W1 W2]. apply Hmem in W1. apply Hsel in W2.
      assert (Hpost : forall x, names_of g names loc = Ok (if String.eqb loc "grid" then filter (fun n => negb (mem n ["x_of_shelf_edge"; "x_of_shore"]%string)) x else x) ->
                (In n x <-> In n l) -> (In n ns <-> In n l)).
      { intros x Ex Hx. rewrite En in Ex. injection Ex as ->. unfold sel in W2. destruct (String.eqb loc "grid"); [|exact Hx].
        rewrite filter_In, Hx. tauto. }
      unfold names_of in Hpost. rewrite Ef in Hpost. cbn [bind] in Hpost. unfold requested in Hreq.
      destruct names as [[|s|l']|dd].
      - destruct Hreq.
      - subst l. eapply Hpost; [reflexivity|]. rewrite filter_In. tauto.
      - subst l'. eapply Hpost; [reflexivity|]. rewrite filter_In. tauto.
      - destruct (dget String.eqb dd loc) as [[|s|l']|]; try contradiction; subst; (eapply Hpost; [reflexivity|reflexivity]). }
    assert (Hne : ns <> []) by (intros X; apply (Hns nm Hwr) in Hnm; rewrite X in Hnm; destruct Hnm).
    split.
    - intros [W [X|X]]; [contradiction|]. split; [apply (Hns name W); exact X|exact W].
    - intros [X W]. split; [exact W|]. right. apply (Hns name W). exact X.
  Qed.

  (* to_netcdf's default arguments *)
  Theorem default_layers (g : grid A) path append time fs fs' : whole_grid g -> 4 <= g_cols g -> 1 <= g_rows g ->
    1 <= el_number (layers g) -> (append = false \/ fs path = None) ->
    to_netcdf (view g) path append time default_at (SameIds All) (SameNames NoNames) true fs <> Ok fs'.
  Proof.
    intros Hw HC HR Hn Hap E. unfold to_netcdf in E. okstep E od Eo.
    assert (od = None).
    { destruct Hap as [-> | Hp]; [destruct (fs path) as [[| |]|]; congruence|rewrite Hp in Eo; congruence]. }
    subst od. clear Eo. okstep E d1 E1. clear E. unfold write_dataset in E1. okstep E1 nms En. okstep E1 d0 E0.
    set (dd := set_times d0 _) in E1. okstep E1 d2 E2. okstep E1 d3 E3.
    assert (Hd0 : dget String.eqb (ds_dims d0) "row"%string = Some (g_rows g + 2)
                  /\ dget String.eqb (ds_dims d0) "column"%string = Some (g_cols g)).
    { unfold default_at, ids_of in E0. cbn -[map y_of_row x_of_column node_xy cells concat] in E0. injection E0 as <-.
      cbn -[map y_of_row x_of_column node_xy cells concat]. unfold y_of_row, x_of_column. rewrite !map_length, !seq_length. split; reflexivity. }
    assert (D2 : ds_dims d2 = ds_dims d0).
    { transitivity (ds_dims dd); [|reflexivity]. clear -E2. clearbody dd.
      revert dd E2. induction nms as [|[l n] nms IH]; intros dd E2; cbn [foldM] in E2; [congruence|].
      okstep E2 d1 E1. rewrite (IH _ E2). apply set_field_writes in E1. destruct E1 as [? [_ [S _]]]. apply S. }
    assert (D3 : ds_dims d3 = ds_dims d0).
    { apply set_field_writes in E3. destruct E3 as [? [_ [S _]]]. transitivity (ds_dims d2); [apply S|exact D2]. }
    apply set_layers_writes in E1. destruct E1 as [_ [r [c [Dr [Dc [_ Hl]]]]]]. rewrite D3 in Dr, Dc.
    destruct Hd0 as [Hr Hc]. rewrite Hr in Dr. rewrite Hc in Dc. injection Dr as <-. injection Dc as <-.
    destruct (Hl "thickness"%string) as [l [Hfit _]]; [apply in_or_app; right; left; reflexivity|].
    change (gv_rows (view g)) with (g_rows g) in Hfit. change (gv_cols (view g)) with (g_cols g) in Hfit.
    change (gv_layers (view g)) with (layers g) in Hfit.
    unfold fit_layers in Hfit. rewrite layer_data_length in Hfit.
    destruct (Nat.eqb_spec (el_number (layers g) * (g_rows g * (g_cols g - 2)))
                (el_number (layers g) * ((g_rows g + 2) * g_cols g))) as [X|_].
    - apply Nat.mul_cancel_l in X; [|lia]. nia.
    - pose proof (proj1 (mapM_Forall2 _ _ _) Hfit) as F. destruct (layer_data (layers g) "thickness") as [|f ls] eqn:Ed.
      + pose proof (layer_data_length (layers g) "thickness") as L. rewrite Ed in L. cbn in L. lia.
      + inversion F as [|? ? ? ? Hf _]; subst.
        assert (Sf : shaped (g_rows g) (g_cols g - 2) f).
        { assert (X : In f (layer_data (layers g) "thickness")) by (rewrite Ed; left; reflexivity).
          unfold layer_data, layers_of in X. change (String.eqb "thickness" "thickness") with true in X. cbn iota in X.
          apply in_map_iff in X. destruct X as [i [<- _]]. apply shaped_fmap. apply (proj1 Hw). }
        okstep Hf rws Erw. assert (Hrws : forall x, In x rws -> In x f).
        { unfold fit in Erw. rewrite (shaped_len _ _ _ Sf) in Erw. destruct (Nat.eqb_spec (g_rows g) (g_rows g + 2)); [lia|].
          destruct f as [|b [|b' f]]; try discriminate Erw. injection Erw as <-. intros x Hx. apply repeat_spec in Hx. left. congruence. }
        assert (Lr : length rws = g_rows g + 2).
        { unfold fit in Erw. rewrite (shaped_len _ _ _ Sf) in Erw. destruct (Nat.eqb_spec (g_rows g) (g_rows g + 2)); [lia|].
          destruct f as [|b [|b' f]]; try discriminate Erw. injection Erw as <-. apply repeat_length. }
        destruct rws as [|x rws]; [cbn in Lr; lia|]. cbn [mapM] in Hf.
        assert (Lx : length x = g_cols g - 2) by (apply (proj2 Sf); apply Hrws; left; reflexivity).
        unfold fit in Hf at 1. rewrite Lx in Hf. destruct (Nat.eqb_spec (g_cols g - 2) (g_cols g)); [lia|].
        destruct x as [|b [|b' x]]; cbn in Lx; try discriminate Hf; lia.
  Qed.

  (* the coordinates an OutputWriter writes *)
  Theorem coordinates_written (g0 g : grid A) path interval fields clobber fs fs1 w dt w' fs' :
    writer_init (view g0) path interval fields clobber None fs = (fs1, Ok w) ->
    g_rows g = g_rows g0 -> 2 <= g_cols g ->
    writer_step (view g) dt (w, fs1) = Ok (w', fs') ->
    exists d, file_at fs' path = Some d
    /\ dget String.eqb (ds_coords d) "x_of_column"%string
       = Some (map (fun j => Some (nofnat j * g_dx g)%num) (seq 0 (g_cols g - 2)))
    /\ dget String.eqb (ds_coords d) "y_of_row"%string
       = Some (map (fun i => Some (nofnat i * g_dy g)%num) (seq 0 (g_rows g)))
    /\ dget String.eqb (ds_coords d) "x_of_cell"%string
       = Some (concat (map (fun _ => map (fun j => Some (nofnat (S j) * g_dx g)%num) (seq 0 (g_cols g - 2))) (seq 0 (g_rows g))))
    /\ dget String.eqb (ds_coords d) "y_of_cell"%string
       = Some (concat (map (fun i => map (fun _ => Some (nofnat (S i) * g_dy g)%num) (seq 0 (g_cols g - 2))) (seq 0 (g_rows g)))).
  Proof.
    intros Ei HR HC E. destruct (init_clears _ _ _ _ _ _ _ _ _ Ei) as [Hnone [Hp [Hc0 [_ [_ [_ Hrows]]]]]].
    destruct (writer_step_spec _ _ _ _ _ _ E) as [_ [_ [D1 _]]].
    assert (Hdue : due w) by (unfold due; rewrite Hc0; apply Z.mod_0_l; apply (writer_step_spec _ _ _ _ _ _ E)).
    destruct (D1 Hdue) as [d [Hw Hfs]]. rewrite Hp in Hw, Hfs. rewrite Hnone in Hw. exists d.
    split; [unfold file_at; rewrite Hfs; unfold fs_set; rewrite String.eqb_refl; reflexivity|].
    apply writer_write_spec in Hw. destruct Hw as [d0 [Hh [_ [_ [Cc _]]]]]. rewrite Cc.
    destruct Hh as [_ [_ [_ [ys [xs [Ey [Ex [_ Dc]]]]]]]].
    assert (Hc4 : dget String.eqb (ds_coords d0) "x_of_column"%string = Some (map Some xs)
      /\ dget String.eqb (ds_coords d0) "y_of_row"%string = Some (map Some ys)
      /\ dget String.eqb (ds_coords d0) "x_of_cell"%string = Some (map (fun p => Some (fst p)) (gv_xy (view g) "cell"))
      /\ dget String.eqb (ds_coords d0) "y_of_cell"%string = Some (map (fun p => Some (snd p)) (gv_xy (view g) "cell"))).
    { rewrite Dc. clear. generalize (view g) as v. intros v. cbn. rewrite !map_map. cbn. auto. }
    destruct Hc4 as [-> [-> [-> ->]]]. clear Dc.
    assert (Hpre : forall (f : nat -> A) n m l, n <= m ->
              take (Ids (map Z.of_nat (seq 0 n))) (map f (seq 0 m)) = Ok l -> l = map f (seq 0 n)).
    { intros f n m l Hnm Et. cbn [take] in Et.
      assert (X : mapM (py_nth (map f (seq 0 m))) (map Z.of_nat (seq 0 n)) = Ok (map f (seq 0 n))); [|congruence].
      apply mapM_Forall2. assert (Hall : forall i, In i (seq 0 n) -> i < m) by (intros i Hi; apply in_seq in Hi; lia). clear Et l Hnm.
      induction (seq 0 n) as [|i s IH]; cbn [map]; constructor.
      - unfold py_nth. destruct (Z.ltb_spec (Z.of_nat i) 0); [lia|]. destruct (Z.ltb_spec (Z.of_nat i) 0); [lia|]. rewrite Nat2Z.id.
        rewrite nth_error_map. assert (Hi := Hall i (or_introl eq_refl)).
        rewrite (nth_error_nth' _ 0) by (rewrite seq_length; exact Hi). rewrite seq_nth by exact Hi. reflexivity.
      - apply IH. intros k Hk. apply Hall. right. exact Hk. }
    rewrite Hrows in Ey. change (gv_rows (view g0)) with (g_rows g0) in Ey. rewrite <- HR in Ey.
    change (gv_y_of_row (view g)) with (map (fun i => nofnat i * g_dy g)%num (seq 0 (g_rows g + 2))) in Ey.
    change (gv_x_of_column (view g)) with (map (fun i => nofnat i * g_dx g)%num (seq 0 (g_cols g))) in Ex.
    change (gv_cols (view g)) with (g_cols g) in Ex.
    apply Hpre in Ey; [|lia]. apply Hpre in Ex; [|lia]. subst ys xs.
    split; [f_equal; rewrite !map_map; reflexivity|]. split; [f_equal; rewrite !map_map; reflexivity|].
    assert (Hcells : cells (node_xy g) = map (fun i => map (fun j => (nofnat (S j) * g_dx g, nofnat (S i) * g_dy g)%num)
                                (seq 0 (g_cols g - 2))) (seq 0 (g_rows g))).
    { unfold cells, node_xy, y_of_row. rewrite !map_map, inner_seq by lia.
      rewrite map_map. replace (g_rows g + 2 - 2) with (g_rows g) by lia. apply map_ext. intros i.
      unfold x_of_column. rewrite map_map, inner_seq by exact HC. reflexivity. }
    change (gv_xy (view g) "cell") with (concat (cells (node_xy g))). rewrite Hcells.
    rewrite !concat_map, !map_map. split; do 2 f_equal; apply map_ext; intros i; rewrite map_map; reflexivity.
  Qed.

  (* to_netcdf's default arguments, without layers *)
  Theorem default_ok (g : grid A) path time fs : whole_grid g -> el_number (layers g) = 0 ->
    rowf g "x_of_shore" = None -> rowf g "x_of_shelf_edge" = None -> fs path <> Some Directory ->
    exists fs', to_netcdf (view g) path false time default_at (SameIds All) (SameNames NoNames) true fs = Ok fs'.
  Proof.
    intros Hw Hn Hr1 Hr2 Hp. unfold to_netcdf.
    assert (Eo : match fs path, false with
                 | Some Directory, _ => Err FileError
                 | Some OtherFile, true => Err FileError
                 | Some (Nc d), true => Ok (Some d)
                 | _, _ => Ok None
                 end = Ok (@None (dataset A))) by (destruct (fs path) as [[| |]|]; congruence).
    rewrite Eo. cbn [bind]. clear Eo.
    cut (exists d, write_dataset (view g) time default_at (SameIds All) (SameNames NoNames) true None = Ok d).
    { intros [d ->]. cbn [bind]. eauto. }
    unfold write_dataset.
    assert (En : exists l1 l2, mapM (fun loc => let* l := names_of (view g) (SameNames NoNames) loc in Ok (loc, l)) default_at
                 = Ok [("node", l1); ("link", []); ("face", []); ("cell", []); ("grid", l2)]%string) by (do 2 eexists; reflexivity).
    destruct En as [l1 [l2 En]]. rewrite En. cbn [bind]. clear En.
    assert (E0 : exists d0, foldM (fun d loc => set_grid_coordinates (view g) loc (ids_of default_at (SameIds All) loc) d)
                              ("row" :: "column" :: default_at)%string ds_empty = Ok d0
                 /\ ds_dims d0 = [("row", g_rows g + 2); ("column", g_cols g); ("node", (g_rows g + 2) * g_cols g);
                                  ("link", 0); ("face", 0); ("cell", g_rows g * (g_cols g - 2)); ("grid", 1)]%string).
    { unfold default_at, ids_of. cbn -[map y_of_row x_of_column node_xy cells concat]. eexists. split; [reflexivity|].
      cbn -[map y_of_row x_of_column node_xy cells concat]. rewrite !map_length. unfold y_of_row, x_of_column. rewrite !map_length, !seq_length.
      rewrite (concat_length _ _ _ (node_xy_shaped g)).
      rewrite (concat_length (g_rows g) (g_cols g - 2) (cells (node_xy g))); [reflexivity|].
      apply shaped_cells. assert (HC : 2 <= g_cols g) by apply (proj1 Hw).
      replace (g_cols g - 2 + 2) with (g_cols g) by lia. exact (node_xy_shaped g). }
    destruct E0 as [d0 [-> D0]]. cbn [bind]. set (d1 := set_times d0 _).
    assert (D1 : ds_dims d1 = ds_dims d0) by reflexivity. clearbody d1. rewrite <- D1 in D0. clear D1 d0.
    cbn [foldM fst snd].
    assert (Hstep : forall d loc names (fs0 : list (string * values A)) n, ds_dims d = ds_dims d1 -> fields_at (view g) loc = Ok fs0 ->
      dget String.eqb (ds_dims d1) loc = Some n ->
      (forall name v, In name (fields_to_write loc names fs0) -> dget String.eqb fs0 name = Some v ->
         exists l, selected (ids_of default_at (SameIds All) loc) v = Ok l /\ length l = n) ->
      exists d', set_field (view g) loc (ids_of default_at (SameIds All) loc) names d = Ok d' /\ ds_dims d' = ds_dims d1).
    { intros d loc names fs0 n Hd Hf Hdim Hok.
      destruct (set_field_ok (view g) loc (ids_of default_at (SameIds All) loc) names d fs0 n Hf) as [d' E']; [rewrite Hd; exact Hdim|exact Hok|].
      exists d'. split; [exact E'|]. apply set_field_writes in E'. destruct E' as [? [_ [S _]]]. transitivity (ds_dims d); [apply S|exact Hd]. }
    destruct (Hstep d1 "node"%string l1 _ ((g_rows g + 2) * g_cols g) eq_refl eq_refl) as [d2 [E2 D2]]; [rewrite D0; reflexivity| |].
    { intros name v _ Ev. apply view_field in Ev. destruct Ev as [f [Ef ->]]. eexists. split; [reflexivity|].
      rewrite map_length. apply concat_length. apply (proj2 Hw _ _ Ef). }
    rewrite E2. cbn [bind].
    destruct (Hstep d2 "link"%string [] _ 0 D2 eq_refl) as [d3 [E3 D3]]; [rewrite D0; reflexivity|intros name v []|].
    rewrite E3. cbn [bind].
    destruct (Hstep d3 "face"%string [] _ 0 D3 eq_refl) as [d4 [E4 D4]]; [rewrite D0; reflexivity|intros name v []|].
    rewrite E4. cbn [bind].
    destruct (Hstep d4 "cell"%string [] _ (g_rows g * (g_cols g - 2)) D4 eq_refl) as [d5 [E5 D5]]; [rewrite D0; reflexivity|intros name v []|].
    rewrite E5. cbn [bind].
    destruct (Hstep d5 "grid"%string l2 _ 1 D5 eq_refl) as [d6 [E6 D6]]; [rewrite D0; reflexivity| |].
    { intros name v _ Ev. apply view_grid in Ev. destruct Ev as [l ->]. eexists. split; reflexivity. }
    rewrite E6. cbn [bind].
    destruct (Hstep d6 "row"%string ["x_of_shore"; "x_of_shelf_edge"]%string _ (g_rows g + 2) D6 eq_refl) as [d7 [E7 D7]]; [rewrite D0; reflexivity| |].
    { intros name v Hn' Ev. apply view_row in Ev. destruct Ev as [l [El _]]. exfalso.
      unfold fields_to_write in Hn'. change (String.eqb "row" "grid") with false in Hn'. cbn iota in Hn'.
      apply filter_In in Hn'. destruct Hn' as [[<-|[<-|[]]] _]; congruence. }
    rewrite E7. cbn [bind]. unfold set_layers_vars. rewrite D7, D0. cbn [dget String.eqb Ascii.eqb Bool.eqb].
    change (gv_layers (view g)) with (layers g).
    generalize (el_tracking (layers g) ++ ["thickness"%string])%list as ns. intros ns. generalize d7 as d. clear -Hn.
    induction ns as [|name ns IH]; intros d; cbn [foldM]; [eauto|].
    assert (X : layer_data (layers g) name = []) by (apply length_zero_iff_nil; rewrite layer_data_length; exact Hn).
    rewrite X. cbn [fit_layers length Nat.mul Nat.eqb bind]. apply IH.
  Qed.
End Any.
