(** What plot_file and plot_grid plot. *)
From Coq Require Import String List ZArith Arith Lia Bool.
From Verif.Base Require Import Num Py Arr.
From Verif.Model Require Import Layers Grid Netcdf OutputWriter Sequence SequenceModel Interp Plot.
From Verif.Spec Require Import Column Recording Drawn.
From Verif.Proofs Require Import GridP NetcdfP OutputP OutputLayersP ModelOutputP ModelFileP OutputRunsP.
Import ListNotations.
Local Open Scope nat_scope.

Lemma fit_length {B} n (l l' : list B) : fit n l = Ok l' -> length l' = n.
Proof.
  unfold fit. destruct (Nat.eqb_spec (length l) n); [congruence|].
  destruct l as [|b [|? ?]]; intros E; try discriminate E. injection E as <-. apply repeat_length.
Qed.
Lemma put_record_length {B} i (v : B) var n : length var <= n -> i < n -> length (put_record i v var) <= n.
Proof.
  intros Hv Hi. unfold put_record. rewrite app_length. cbn [length]. rewrite firstn_length, app_length, repeat_length, skipn_length. lia.
Qed.
Lemma py_nth_place {B} (l : list B) i b : py_nth l i = Ok b -> exists k, place (length l) i k /\ nth_error l k = Some b.
Proof.
  unfold py_nth, place. destruct (Z.ltb_spec i 0).
  - destruct (Z.ltb_spec (i + Z.of_nat (length l)) 0); [discriminate|].
    destruct (nth_error l (Z.to_nat (i + Z.of_nat (length l)))) as [b'|] eqn:E; [|discriminate].
    intros X. injection X as ->. exists (Z.to_nat (i + Z.of_nat (length l))). split; [|exact E].
    assert (Y : nth_error l (Z.to_nat (i + Z.of_nat (length l))) <> None) by congruence. apply nth_error_Some in Y. lia.
  - destruct (Z.ltb_spec i 0); [lia|].
    destruct (nth_error l (Z.to_nat i)) as [b'|] eqn:E; [|discriminate].
    intros X. injection X as ->. exists (Z.to_nat i). split; [|exact E].
    assert (Y : nth_error l (Z.to_nat i) <> None) by congruence. apply nth_error_Some in Y. lia.
Qed.
Lemma place_fun n i k k' : place n i k -> place n i k' -> k = k'.
Proof. unfold place. lia. Qed.
Lemma py_nth_at {B} (l : list B) i k : place (length l) i k -> exists b, py_nth l i = Ok b /\ nth_error l k = Some b.
Proof.
  intros [Hk Hi]. destruct (nth_error l k) as [b|] eqn:E; [|apply nth_error_None in E; lia].
  exists b. split; [|reflexivity]. unfold py_nth. destruct Hi as [-> | ->].
  - destruct (Z.ltb_spec (Z.of_nat k) 0); [lia|]. rewrite (proj2 (Z.ltb_ge _ _)) by lia. rewrite Nat2Z.id, E. reflexivity.
  - destruct (Z.ltb_spec (Z.of_nat k - Z.of_nat (length l)) 0); [|lia].
    rewrite Z.sub_add. rewrite (proj2 (Z.ltb_ge _ _)) by lia. rewrite Nat2Z.id, E. reflexivity.
Qed.

(* an array of r rows of c is its rows one after the other *)
Lemma in_rows_concat {B} r c (f : field B) : shaped r c f -> in_rows r c (concat f) = f.
Proof.
  unfold in_rows. revert r. induction f as [|row f IH]; intros r [L S].
  - cbn in L. subst r. reflexivity.
  - cbn in L. destruct r as [|r]; [lia|]. injection L as L.
    assert (Hrow : length row = c) by (apply S; left; reflexivity).
    cbn [seq map concat]. rewrite Nat.mul_0_l. cbn [skipn]. f_equal.
    + rewrite firstn_app, Hrow, Nat.sub_diag. cbn [firstn]. rewrite app_nil_r, firstn_all2; [reflexivity|lia].
    + rewrite <- seq_shift, map_map. etransitivity; [|apply (IH r); split; [exact L|intros x Hx; apply S; right; exact Hx]].
      apply map_ext. intros i. f_equal. rewrite skipn_app, Hrow.
      rewrite skipn_all2 by (rewrite Hrow; nia). cbn [app]. f_equal. lia.
Qed.
Lemma concat_len {B} r c (f : field B) : shaped r c f -> length (concat f) = r * c.
Proof.
  revert r. induction f as [|row f IH]; intros r [L S]; cbn in L; subst r; [reflexivity|].
  cbn [concat]. rewrite app_length, (IH (length f)); [|split; [reflexivity|intros x Hx; apply S; right; exact Hx]].
  rewrite (S row) by (left; reflexivity). cbn. lia.
Qed.

Section Any.
  Context {A : Type} `{Num A}.

  (* records of the right length, none beyond the recorded times *)
  Definition regular (d : dataset A) : Prop :=
    (forall v, length (var_of d v) <= length (ds_time d))
    /\ (forall loc name i l, In loc written_locations -> record_of d (var_name name loc) i = Some l ->
          dget String.eqb (ds_dims d) loc = Some (length l)).

  Lemma set_field_regular g loc ids names d d' : In loc written_locations -> 1 <= length (ds_time d) ->
    set_field g loc ids names d = Ok d' -> regular d -> regular d' /\ ds_time d' = ds_time d.
  Proof.
    intros Hloc Ht E. unfold set_field in E. okstep E fs E0. clear E0. revert d Ht E.
    generalize (fields_to_write loc names fs) as ns. intros ns. 
    induction ns as [|name ns IH]; intros d Ht E Hr; cbn [foldM] in E; [injection E as <-; auto|].
    okstep E d1 E1. destruct (dget String.eqb (ds_dims d) loc) as [n|] eqn:En; [|discriminate E1].
    okstep E1 vals E0. okstep E1 v E2. injection E1 as <-. apply fit_length in E2.
    set (d1 := set_fields d _) in *. destruct (IH d1 Ht E) as [X Y]; [|split; [exact X|exact Y]]. clear IH E.
    destruct Hr as [R1 R2]. split.
    - intros v'. unfold var_of, d1. cbn [set_fields ds_fields ds_time]. rewrite dget_dset_s.
      destruct (String.eqb v' (var_name name loc)); [|apply R1]. apply put_record_length; [apply R1|lia].
    - intros loc' name' i l Hl' Er. change (ds_dims d1) with (ds_dims d). unfold d1 in Er. rewrite record_put in Er.
      destruct (String.eqb_spec (var_name name' loc') (var_name name loc)) as [Ev|Ev]; cbn [andb] in Er; [|eapply R2; eassumption].
      destruct (Nat.eqb i (length (ds_time d) - 1)); [|eapply R2; eassumption].
      injection Er as ->. apply var_name_loc in Ev; try assumption. destruct Ev as [-> _]. rewrite En, E2. reflexivity.
  Qed.

  Lemma write_regular g t rows fields od d' : writer_write g t rows fields od = Ok d' ->
    match od with Some d => regular d | None => True end -> regular d'.
  Proof.
    unfold writer_write, write_dataset. intros E Hr. okstep E names_at En.
    assert (Hn : names_at = [("node", fields); ("link", []); ("face", []); ("cell", []); ("grid", [])]%string).
    { unfold default_at in En. cbn in En. congruence. }
    subst names_at. clear En. okstep E d0 E0.
    assert (R0 : regular d0).
    { destruct od as [d|]; [injection E0 as <-; exact Hr|]. apply header_spec in E0. destruct E0 as [_ [F _]].
      split; [intros v|intros loc name i l _ Er]; unfold record_of, var_of in *; rewrite F in *; [cbn; lia|].
      cbn [dget] in Er. destruct i; discriminate Er. }
    clear E0 Hr. set (d1 := set_times d0 _) in E. okstep E d2 E2. okstep E d3 E3.
    assert (L1 : 1 <= length (ds_time d1)) by (unfold d1; cbn [set_times ds_time]; rewrite app_length; cbn; lia).
    assert (R1 : regular d1).
    { destruct R0 as [a b]. split; [|exact b]. intros v. specialize (a v). unfold d1. cbn [set_times ds_time]. rewrite app_length.
      unfold var_of in *. cbn. lia. }
    assert (R2 : regular d2 /\ ds_time d2 = ds_time d1).
    { clear E3 E. clearbody d1. clear R0.
      assert (Hl : Forall (fun ln : string * list string => In (fst ln) written_locations)
                     [("node", fields); ("link", []); ("face", []); ("cell", []); ("grid", [])]%string)
        by (repeat constructor; cbn; tauto).
      revert E2 Hl. generalize [("node", fields); ("link", []); ("face", []); ("cell", []); ("grid", [])]%string as ls.
      intros ls. revert d1 L1 R1. induction ls as [|[loc ns] ls IH]; intros d1 L1 R1 E2 Hl; cbn [foldM fst snd] in E2; [injection E2 as <-; auto|].
      okstep E2 d1' E1. inversion Hl as [|? ? Hl1 Hl2]; subst. cbn [fst] in Hl1.
      destruct (set_field_regular _ _ _ _ _ _ Hl1 L1 E1 R1) as [R1' T1].
      destruct (IH d1') as [X Y]; [rewrite T1; exact L1|exact R1'|exact E2|exact Hl2|]. split; [exact X|congruence]. }
    destruct R2 as [R2 T2]. apply set_field_regular in E3; [|cbn; tauto|rewrite T2; exact L1|exact R2]. destruct E3 as [R3 T3].
    apply set_layers_writes in E. destruct E as [[S1 [S2 [_ S4]]] _].
    destruct R3 as [a b]. unfold regular, record_of, var_of in *. rewrite S1, S2, S4. split; assumption.
  Qed.

  Lemma run_regular calls w fs w' fs' : run_writer calls (w, fs) = Ok (w', fs') ->
    match file_at fs (ow_path w) with Some d => regular d | None => True end ->
    match file_at fs' (ow_path w) with Some d => regular d | None => True end.
  Proof.
    revert w' fs'. induction calls as [|c calls IH] using rev_ind; intros w' fs' E Hr.
    - injection E as <- <-. exact Hr.
    - rewrite run_writer_snoc in E. destruct (run_writer calls (w, fs)) as [[w1 fs1]|] eqn:E1; [|discriminate E]. cbn [bind] in E.
      specialize (IH _ _ eq_refl Hr). destruct (run_writer_state _ _ _ _ _ E1) as [Ew1 _].
      assert (Ep : ow_path w1 = ow_path w) by (rewrite Ew1; reflexivity).
      destruct (writer_step_spec _ _ _ _ _ _ E) as [_ [_ [D1 D2]]].
      destruct (Z.eq_dec (Z.of_nat (ow_count w1) mod ow_interval w1) 0) as [Hd|Hd].
      + destruct (D1 Hd) as [d' [Hw ->]]. rewrite Ep in *. unfold file_at at 1. unfold fs_set. rewrite String.eqb_refl.
        unfold file_at in IH. destruct (fs1 (ow_path w)) as [[d| |]|]; try contradiction.
        * eapply write_regular; [exact Hw|exact IH].
        * eapply write_regular; [exact Hw|exact I].
      + rewrite (D2 Hd). exact IH.
  Qed.

  (* layers of r x c values *)
  Definition layers_shaped (r c : nat) (d : dataset A) : Prop :=
    forall name f, In (Some f) (layer_var d name) -> shaped r c f.
  Definition layers_from (P : string -> field (option A) -> Prop) (d : dataset A) : Prop :=
    forall name f, In (Some f) (layer_var d name) -> P name f.

  Lemma layer_data_shaped (el : event_layers A) name r c f : shaped r c (el_stacks el) -> In f (layer_data el name) -> shaped r c f.
  Proof.
    intros Sh X. unfold layer_data, layers_of in X. destruct (String.eqb name "thickness");
      apply in_map_iff in X; destruct X as [i [<- _]]; apply shaped_fmap; exact Sh.
  Qed.

  Lemma mapM_map {B C} (f : B -> result C) (g : B -> C) l : (forall b, In b l -> f b = Ok (g b)) -> mapM f l = Ok (map g l).
  Proof.
    induction l as [|b l IH]; intros Hl; [reflexivity|]. cbn. rewrite (Hl b (or_introl eq_refl)). cbn.
    rewrite IH; [reflexivity|intros x Hx; apply Hl; right; exact Hx].
  Qed.

  Lemma layer_array_shaped r c (l : list (option (field (option A)))) f :
    (forall f, In (Some f) l -> shaped r c f) -> In f (layer_array r c l) -> shaped r c f.
  Proof.
    intros Hl X. unfold layer_array in X. apply in_map_iff in X. destruct X as [[f'|] [<- Hf]]; [apply Hl; exact Hf|apply shaped_full].
  Qed.

  Lemma nth_error_len {B} (l : list B) k d : k < length l -> nth_error l k = Some (nth k l d).
  Proof. intros Hk. apply nth_error_nth'. exact Hk. Qed.

  Lemma list_of_nth {B} (l : list B) n d : length l = n -> l = map (fun k => nth k l d) (seq 0 n).
  Proof.
    intros Hn. subst n. apply nth_ext' with (d := d); [rewrite map_length, seq_length; reflexivity|].
    intros i Hi. rewrite nth_map' with (da := 0) by (rewrite seq_length; exact Hi). rewrite seq_nth by exact Hi. reflexivity.
  Qed.

  (* running sums *)
  Lemma cumsum_spec m (l : list (list (option A))) : forall acc, length acc = m -> (forall x, In x l -> length x = m) ->
    cumsum acc l = map (fun k => map (fun j => fold_left nadd (map (fun x => nth j x None) (firstn (S k) l)) (nth j acc None)) (seq 0 m)) (seq 0 (length l)).
  Proof.
    induction l as [|x l IH]; intros acc Ha Hl; [reflexivity|].
    assert (Hx : length x = m) by (apply Hl; left; reflexivity).
    cbn [cumsum length seq map]. set (s := zipw nadd acc x).
    assert (Ls : length s = m) by (unfold s; rewrite zipw_length; lia).
    assert (Hs : forall j, j < m -> nth j s None = nadd (nth j acc None) (nth j x None)).
    { intros j Hj. unfold s. apply nth_zipw; lia. }
    f_equal.
    - rewrite (list_of_nth s m None Ls). apply map_ext_in. intros j Hj. apply in_seq in Hj. cbn [firstn map fold_left].
      apply Hs. lia.
    - rewrite (IH s Ls) by (intros y Hy; apply Hl; right; exact Hy). rewrite <- (seq_shift (length l) 0), map_map.
      apply map_ext. intros k. apply map_ext_in. intros j Hj. apply in_seq in Hj. cbn [firstn map fold_left]. rewrite Hs by lia. reflexivity.
  Qed.

  Lemma add_bedrock m (z : list (option A)) (l : list (list (option A))) : length z = m -> (forall x, In x l -> length x = m) ->
    mapM (broadcast_add z) l = Ok (map (fun x => map (fun j => nadd (nth j z None) (nth j x None)) (seq 0 m)) l).
  Proof.
    intros Hz Hl. apply mapM_map. intros x Hx. unfold broadcast_add. rewrite Hz, (Hl x Hx), Nat.eqb_refl. f_equal.
    apply nth_ext' with (d := None).
    - rewrite zipw_length, map_length, seq_length, (Hl x Hx). lia.
    - intros j Hj. rewrite zipw_length, (Hl x Hx) in Hj. rewrite nth_map' with (da := 0) by (rewrite seq_length; lia).
      rewrite seq_nth by lia. apply nth_zipw; [|rewrite (Hl x Hx)]; lia.
  Qed.

  Lemma records_concat n (l : list (option (list (option A)))) :
    (forall x, In (Some x) l -> length x = n) ->
    length (concat (map (fun o => match o with Some x => x | None => repeat None n end) l)) = length l * n
    /\ forall x, nth (length l - 1) l None = Some x ->
         skipn ((length l - 1) * n) (concat (map (fun o => match o with Some x => x | None => repeat None n end) l)) = x.
  Proof.
    intros Hl. set (rec := fun o : option (list (option A)) => match o with Some x => x | None => repeat None n end).
    assert (Lr : forall o, In o l -> length (rec o) = n).
    { intros [x|] Ho; cbn; [apply Hl; exact Ho|apply repeat_length]. }
    assert (Lc : forall l', (forall o, In o l' -> length (rec o) = n) -> length (concat (map rec l')) = length l' * n).
    { induction l' as [|o l' IH]; intros Ho; [reflexivity|]. cbn [map concat length]. rewrite app_length, IH, (Ho o); [lia|left; reflexivity|].
      intros o' Ho'. apply Ho. right. exact Ho'. }
    split; [apply Lc; exact Lr|]. intros x Hx.
    destruct l as [|o l] using rev_ind; [discriminate Hx|]. clear IHl.
    rewrite app_length in *. cbn [length] in *. replace (length l + 1 - 1) with (length l) in * by lia.
    rewrite app_nth2, Nat.sub_diag in Hx by lia. cbn in Hx. subst o.
    rewrite map_app, concat_app. cbn [map concat]. rewrite app_nil_r, skipn_app.
    rewrite Lc by (intros o Ho; apply Lr; apply in_or_app; left; exact Ho).
    rewrite Nat.sub_diag, skipn_all2; [reflexivity|]. rewrite Lc; [lia|]. intros o Ho. apply Lr. apply in_or_app. left. exact Ho.
  Qed.

  (* the shape of a variable that was written last *)
  Lemma record_var (d : dataset A) v l : regular d -> record_of d v (length (ds_time d) - 1) = Some l ->
    exists var, dget String.eqb (ds_fields d) v = Some var /\ length var = length (ds_time d) /\ forall m, nth m var None = record_of d v m.
  Proof.
    intros [R1 _] E. specialize (R1 v). unfold record_of, var_of in *. destruct (dget String.eqb (ds_fields d) v) as [var|].
    - exists var. split; [reflexivity|]. split; [|reflexivity].
      destruct (Nat.lt_ge_cases (length (ds_time d) - 1) (length var)); [lia|]. rewrite nth_overflow in E by assumption. discriminate E.
    - destruct (length (ds_time d) - 1); discriminate E.
  Qed.

  Definition row_values (d : dataset A) (v : string) (i : nat) : list (option A) :=
    map (fun m => nth i (match record_of d v m with Some l => l | None => [] end) None) (seq 0 (length (ds_time d))).

  Lemma row_values_ok (d : dataset A) v name r row i l : regular d -> v = var_name name "row" ->
    dget String.eqb (ds_dims d) "row"%string = Some r -> place r row i ->
    record_of d v (length (ds_time d) - 1) = Some l -> exists var, dget String.eqb (ds_fields d) v = Some var
    /\ mapM (fun o => py_nth (match o with Some l => l | None => repeat None r end) row) var = Ok (row_values d v i).
  Proof.
    intros Hr Hv Hd Hp E. destruct (record_var d v l Hr E) as [var [Ev [Lv Nv]]]. exists var. split; [exact Ev|].
    assert (Hrec : forall m x, record_of d v m = Some x -> length x = r).
    { intros m x Hx. subst v. apply (proj2 Hr "row"%string name m x) in Hx; [|cbn; tauto]. congruence. }
    rewrite (list_of_nth var _ None Lv). unfold row_values.
    rewrite (mapM_map _ (fun o => nth i (match o with Some l => l | None => [] end) None)).
    - rewrite map_map. f_equal. apply map_ext. intros m. rewrite Nv. reflexivity.
    - intros o Ho. apply in_map_iff in Ho. destruct Ho as [m [<- _]]. rewrite Nv.
      destruct (record_of d v m) as [x|] eqn:Ex.
      + apply Hrec in Ex. subst r. destruct (py_nth_at x row i Hp) as [b [-> Hb]]. rewrite (nth_error_nth _ _ _ Hb). reflexivity.
      + destruct (py_nth_at (repeat (@None A) r) row i) as [b [-> Hb]]; [rewrite repeat_length; exact Hp|].
        apply nth_error_In, repeat_spec in Hb. subst b. destruct i; reflexivity.
  Qed.

  Definition plotted_elevation (b : field A) (brow : nat) (th : list (field (option A))) (i c : nat) : list (list (option A)) :=
    map (fun k => map (fun j => nadd (Some (at2 n0 b brow (S j)))
                          (fold_left nadd (map (fun f => at2 None f i j) (firstn (S k) th)) (Some n0))) (seq 0 c)) (seq 0 (length th)).

  Theorem plot_file_computes d r c row i brow b xs s0 e0 :
    regular d -> layers_shaped r c d ->
    dget String.eqb (ds_dims d) "row"%string = Some r -> dget String.eqb (ds_dims d) "column"%string = Some c ->
    dget String.eqb (ds_dims d) "node"%string = Some ((r + 2) * (c + 2)) -> 1 <= c ->
    place r row i -> place (r + 2) row brow ->
    record_of d "at_node:bedrock_surface__elevation" (length (ds_time d) - 1) = Some (map Some (concat b)) -> shaped (r + 2) (c + 2) b ->
    record_of d "at_row:x_of_shore" (length (ds_time d) - 1) = Some s0 ->
    record_of d "at_row:x_of_shelf_edge" (length (ds_time d) - 1) = Some e0 ->
    dget String.eqb (ds_layers d) "at_layer:thickness"%string <> None -> dget String.eqb (ds_layers d) "at_layer:age"%string <> None ->
    dget String.eqb (ds_coords d) "x_of_cell"%string = Some (concat xs) -> shaped r c xs ->
    plot_file_args d (Some row)
    = if Nat.leb (length (ds_time d)) 1 then Err IndexError
      else
        let ages := map (fun f => at2 None f i 0) (layer_array r c (layer_var d "age")) in
        let* shore := interp_all (ds_time d) (row_values d "at_row:x_of_shore" i) ages in
        let* shelf_edge := interp_all (ds_time d) (row_values d "at_row:x_of_shelf_edge" i) ages in
        Ok (mkPlotArgs (plotted_elevation b brow (layer_array r c (layer_var d "thickness")) i c) (nth i xs []) shore shelf_edge).
  Proof.
    intros Hr Hls Dr Dc Dn Hc Hp Hpb Hb Sb Hs He Ht Ha Hx Sx.
    unfold plot_file_args. rewrite Dr.
    assert (Hrange : ((row >=? Z.of_nat r) || (row <? - Z.of_nat r))%Z%bool = false).
    { destruct Hp as [Hi Hp]. destruct (Z.geb_spec row (Z.of_nat r)), (Z.ltb_spec row (- Z.of_nat r)); cbn; lia. }
    rewrite Hrange. cbn [bind].
    destruct (row_values_ok d "at_row:x_of_shore" "x_of_shore" r row i s0 Hr eq_refl Dr Hp Hs) as [vs [Evs Ms]].
    destruct (row_values_ok d "at_row:x_of_shelf_edge" "x_of_shelf_edge" r row i e0 Hr eq_refl Dr Hp He) as [ve [Eve Me]].
    destruct (record_var d "at_node:bedrock_surface__elevation" _ Hr Hb) as [vb [Evb [Lvb Nvb]]].
    destruct (dget String.eqb (ds_layers d) "at_layer:thickness"%string) as [vt|] eqn:Et; [|contradiction].
    destruct (dget String.eqb (ds_layers d) "at_layer:age"%string) as [va|] eqn:Ea; [|contradiction].
    rewrite Evs, Eve, Evb, Dn, Dc.
    assert (Lt : layer_var d "thickness" = vt) by (unfold layer_var; change (var_name "thickness" "layer") with "at_layer:thickness"%string; rewrite Et; reflexivity).
    assert (La : layer_var d "age" = va) by (unfold layer_var; change (var_name "age" "layer") with "at_layer:age"%string; rewrite Ea; reflexivity).
    rewrite Lt, La.
    assert (St : forall f, In f (layer_array r c vt) -> shaped r c f).
    { intros f. apply layer_array_shaped. intros f' Hf'. apply (Hls "thickness"%string). rewrite Lt. exact Hf'. }
    assert (Sa : forall f, In f (layer_array r c va) -> shaped r c f).
    { intros f. apply layer_array_shaped. intros f' Hf'. apply (Hls "age"%string). rewrite La. exact Hf'. }
    rewrite (mapM_map _ (fun f => nth i f [])).
    2:{ intros f Hf. specialize (St f Hf). assert (Hp' : place (length f) row i) by (rewrite (shaped_len _ _ _ St); exact Hp).
        destruct (py_nth_at f row i Hp') as [x [-> Hx']]. rewrite (nth_error_nth _ _ _ Hx'). reflexivity. }
    cbn [bind].
    destruct (records_concat ((r + 2) * (c + 2)) vb) as [Lc Lastc].
    { intros x Hx'. apply In_nth with (d := None) in Hx'. destruct Hx' as [m [_ Hm]]. rewrite Nvb in Hm.
      apply (proj2 Hr "node"%string "bedrock_surface__elevation"%string m) in Hm; [|cbn; tauto]. congruence. }
    rewrite Lc, Lvb. rewrite Nat.mod_mul by lia. cbn [Nat.eqb negb]. rewrite Nat.div_mul by lia.
    rewrite Hx. rewrite (concat_len r c xs Sx), Nat.eqb_refl, (in_rows_concat r c xs Sx).
    assert (Hpx : place (length xs) row i) by (rewrite (shaped_len _ _ _ Sx); exact Hp).
    destruct (py_nth_at xs row i Hpx) as [x [-> Hx']]. cbn [bind]. rewrite (nth_error_nth _ _ [] Hx').
    destruct (Nat.leb (length (ds_time d)) 1) eqn:E1; [reflexivity|]. apply Nat.leb_gt in E1.
    rewrite <- Lvb. rewrite (Lastc (map Some (concat b))) by (rewrite Lvb, Nvb; exact Hb).
    rewrite concat_map, in_rows_concat by (apply (shaped_fmap Some); exact Sb).
    assert (Hp' : place (length (map (map Some) b)) row brow) by (rewrite map_length, (shaped_len _ _ _ Sb); exact Hpb).
    destruct (py_nth_at (map (map Some) b) row brow Hp') as [z [-> Hz]]. cbn [bind].
    assert (Ez : z = map Some (nth brow b [])).
    { rewrite nth_error_map in Hz. rewrite (nth_error_len b brow []) in Hz by (rewrite (shaped_len _ _ _ Sb); apply Hpb). cbn in Hz. congruence. }
    assert (Lz : length z = c + 2) by (rewrite Ez, map_length; apply (shaped_nth (r + 2)); [exact Sb|apply Hpb]).
    assert (Lrow : forall y, In y (map (fun f : field (option A) => nth i f []) (layer_array r c vt)) -> length y = c).
    { intros y Hy. apply in_map_iff in Hy. destruct Hy as [f [<- Hf]]. apply (shaped_nth r); [apply St; exact Hf|apply Hp]. }
    assert (Lin : length (inner z) = c) by (rewrite inner_length; lia).
    rewrite (cumsum_spec c) by (try apply repeat_length; exact Lrow).
    rewrite (add_bedrock c) by (try exact Lin; intros y Hy; apply in_map_iff in Hy; destruct Hy as [k [<- _]]; rewrite map_length, seq_length; reflexivity).
    cbn [bind]. rewrite Ms. cbn [bind]. rewrite Me. cbn [bind].
    rewrite (mapM_map (B := list (list (option A))) _ (fun f => at2 None f i 0)).
    2:{ intros f Hf. specialize (Sa f Hf). assert (Hpf : place (length f) row i) by (rewrite (shaped_len _ _ _ Sa); exact Hp).
        destruct (py_nth_at f row i Hpf) as [y [-> Hy]]. cbn [bind]. unfold at2. rewrite (nth_error_nth _ _ _ Hy).
        assert (Ly : length y = c) by (apply (proj2 Sa); eapply nth_error_In; exact Hy).
        destruct (py_nth_at y 0 0) as [v [-> Hv]]; [rewrite Ly; unfold place; lia|]. rewrite (nth_error_nth _ _ _ Hv). reflexivity. }
    cbn [bind]. cbv zeta.
    destruct (interp_all _ (row_values d "at_row:x_of_shore" i) _) as [sh|]; [|reflexivity]. cbn [bind].
    destruct (interp_all _ (row_values d "at_row:x_of_shelf_edge" i) _) as [se|]; [|reflexivity]. cbn [bind].
    f_equal. f_equal. unfold plotted_elevation. rewrite map_map, map_length. apply map_ext. intros k. apply map_ext_in. intros j Hj.
    apply in_seq in Hj. f_equal.
    - rewrite nth_inner by lia. rewrite Ez. rewrite nth_map' with (da := n0) by (rewrite <- (map_length Some), <- Ez; lia). reflexivity.
    - rewrite nth_map' with (da := 0) by (rewrite seq_length; lia). rewrite seq_nth by lia. cbn [Nat.add].
      rewrite nth_repeat' by lia. rewrite firstn_map, map_map. reflexivity.
  Qed.

  (** Files of an OutputWriter. *)
  (* a grid of the size of g0 *)
  Definition like (g0 g : grid A) : Prop := g_rows g = g_rows g0 /\ g_cols g = g_cols g0.

  Definition cell_x (g : grid A) : field (option A) :=
    map (fun _ => map (fun j => Some (nofnat (S j) * g_dx g)%num) (seq 0 (g_cols g - 2))) (seq 0 (g_rows g)).
  Lemma cell_x_shaped g : shaped (g_rows g) (g_cols g - 2) (cell_x g).
  Proof.
    split; [unfold cell_x; rewrite map_length, seq_length; reflexivity|].
    intros x Hx. apply in_map_iff in Hx. destruct Hx as [? [<- _]]. rewrite map_length, seq_length. reflexivity.
  Qed.

  Definition file_of (g0 : grid A) (d : dataset A) : Prop :=
    regular d /\ layers_shaped (g_rows g0) (g_cols g0 - 2) d
    /\ dget String.eqb (ds_dims d) "row"%string = Some (g_rows g0)
    /\ dget String.eqb (ds_dims d) "column"%string = Some (g_cols g0 - 2)
    /\ dget String.eqb (ds_dims d) "node"%string = Some ((g_rows g0 + 2) * g_cols g0)
    /\ exists xs, shaped (g_rows g0) (g_cols g0 - 2) xs /\ dget String.eqb (ds_coords d) "x_of_cell"%string = Some (concat xs).

  Lemma mapM_length {B C} (f : B -> result C) l l' : mapM f l = Ok l' -> length l' = length l.
  Proof.
    revert l'. induction l as [|b l IH]; cbn [mapM]; intros l' E; [injection E as <-; reflexivity|].
    okstep E c Ec. okstep E cs Ecs. injection E as <-. cbn. rewrite (IH _ eq_refl). reflexivity.
  Qed.

  Lemma cells_xy (g : grid A) : 2 <= g_cols g ->
    map (fun p => Some (fst p)) (concat (cells (node_xy g))) = concat (cell_x g).
  Proof.
    intros HC.
    assert (Hcells : cells (node_xy g) = map (fun i => map (fun j => (nofnat (S j) * g_dx g, nofnat (S i) * g_dy g)%num)
                                (seq 0 (g_cols g - 2))) (seq 0 (g_rows g))).
    { unfold cells, node_xy, y_of_row. rewrite !map_map, inner_seq by lia.
      rewrite map_map. replace (g_rows g + 2 - 2) with (g_rows g) by lia. apply map_ext. intros i.
      unfold x_of_column. rewrite map_map, inner_seq by exact HC. reflexivity. }
    rewrite Hcells, concat_map, !map_map. unfold cell_x. f_equal. apply map_ext. intros i. rewrite map_map. reflexivity.
  Qed.

  Lemma write_file g0 g t rows fields od d' : whole_grid g -> like g0 g -> length rows = g_rows g0 ->
    writer_write (view g) t rows fields od = Ok d' ->
    match od with Some d => file_of g0 d | None => True end -> file_of g0 d'.
  Proof.
    intros Hw [HR HC] Hrows E Hod. assert (H2 : 2 <= g_cols g) by apply Hw.
    assert (Rg : regular d').
    { eapply write_regular; [exact E|]. destruct od as [d|]; [apply Hod|exact I]. }
    apply writer_write_spec in E. destruct E as [d0 [Hd0 [T [D [Cc [_ [_ [_ [r [c [Dr [Dc [L0 L1]]]]]]]]]]]]].
    assert (F0 : layers_shaped (g_rows g0) (g_cols g0 - 2) d0
      /\ dget String.eqb (ds_dims d0) "row"%string = Some (g_rows g0)
      /\ dget String.eqb (ds_dims d0) "column"%string = Some (g_cols g0 - 2)
      /\ dget String.eqb (ds_dims d0) "node"%string = Some ((g_rows g0 + 2) * g_cols g0)
      /\ exists xs, shaped (g_rows g0) (g_cols g0 - 2) xs /\ dget String.eqb (ds_coords d0) "x_of_cell"%string = Some (concat xs)).
    { destruct od as [d|]; [subst d0; apply Hod|].
      destruct Hd0 as [_ [_ [Hl [ys [xs [Ey [Ex [Dd Dcc]]]]]]]]. rewrite Dd. cbn [take] in Ey, Ex.
      apply mapM_length in Ey. apply mapM_length in Ex. rewrite map_length, seq_length in Ex.
      change (gv_cols (view g)) with (g_cols g) in Ex.
      split; [intros name f Hf; unfold layer_var in Hf; rewrite Hl in Hf; destruct Hf|].
      split; [cbn; congruence|]. split; [cbn; congruence|]. split.
      { change (dget String.eqb [("row", length ys); ("column", length xs); ("node", length (gv_xy (view g) "node"));
                        ("link", length (gv_xy (view g) "link")); ("face", length (gv_xy (view g) "face"));
                        ("cell", length (gv_xy (view g) "cell")); ("grid", 1)]%string "node"%string) with (Some (length (concat (node_xy g)))).
        rewrite (concat_len _ _ _ (node_xy_shaped g)), HR, HC. reflexivity. }
      assert (X : dget String.eqb (ds_coords d0) "x_of_cell"%string = Some (map (fun p => Some (fst p)) (gv_xy (view g) "cell"))).
      { rewrite Dcc. clear. generalize (view g) as v. intros v. cbn. rewrite !map_map. cbn. reflexivity. }
      rewrite X. change (gv_xy (view g) "cell") with (concat (cells (node_xy g))). rewrite (cells_xy g H2).
      exists (cell_x g). split; [rewrite <- HR, <- HC; apply cell_x_shaped|reflexivity]. }
    destruct F0 as [F1 [F2 [F3 [F4 F5]]]].
    split; [exact Rg|]. rewrite D, Cc. split; [|split; [exact F2|split; [exact F3|split; [exact F4|exact F5]]]].
    intros name f Hf.
    destruct (in_dec string_dec name (el_tracking (gv_layers (view g)) ++ ["thickness"%string])) as [Hin|Hin];
      [|rewrite (L0 name Hin) in Hf; exact (F1 name f Hf)].
    destruct (L1 name Hin) as [l [Hl Ev]]. rewrite Ev in Hf. rewrite F2 in Dr. rewrite F3 in Dc. injection Dr as <-. injection Dc as <-.
    change (gv_rows (view g)) with (g_rows g) in Hl. change (gv_cols (view g)) with (g_cols g) in Hl.
    rewrite HR, HC, fit_layers_same in Hl. injection Hl as <-.
    unfold put_first in Hf. apply in_app_or in Hf. destruct Hf as [Hf|Hf].
    - apply in_map_iff in Hf. destruct Hf as [f' [Ef Hf]]. injection Ef as ->. eapply layer_data_shaped; [|exact Hf].
      rewrite <- HR, <- HC. apply Hw.
    - apply (F1 name f). rewrite <- (firstn_skipn (length (layer_data (gv_layers (view g)) name)) (layer_var d0 name)).
      apply in_or_app. right. exact Hf.
  Qed.

  Definition seen (c : grid A * option A) : gview A * option A := (view (fst c), snd c).

  Lemma run_file g0 calls w fs w' fs' : length (ow_rows w) = g_rows g0 ->
    Forall (fun c => whole_grid (fst c) /\ like g0 (fst c)) calls ->
    run_writer (map seen calls) (w, fs) = Ok (w', fs') ->
    match file_at fs (ow_path w) with Some d => file_of g0 d | None => True end ->
    match file_at fs' (ow_path w) with Some d => file_of g0 d | None => True end.
  Proof.
    intros Hrows. revert w' fs'. induction calls as [|c calls IH] using rev_ind; intros w' fs' Hall E Hr.
    - injection E as <- <-. exact Hr.
    - apply Forall_app in Hall. destruct Hall as [Hall Hc]. inversion Hc as [|? ? [Hc1 Hc2] _]; subst. clear Hc.
      rewrite map_app in E. cbn [map] in E.
      rewrite run_writer_snoc in E. destruct (run_writer (map seen calls) (w, fs)) as [[w1 fs1]|] eqn:E1; [|discriminate E]. cbn [bind] in E.
      specialize (IH _ _ Hall eq_refl Hr). destruct (run_writer_state _ _ _ _ _ E1) as [Ew1 _].
      assert (Ep : ow_path w1 = ow_path w) by (rewrite Ew1; reflexivity).
      assert (Er : ow_rows w1 = ow_rows w) by (rewrite Ew1; reflexivity).
      destruct (writer_step_spec _ _ _ _ _ _ E) as [_ [_ [D1 D2]]].
      destruct (Z.eq_dec (Z.of_nat (ow_count w1) mod ow_interval w1) 0) as [Hd|Hd].
      + destruct (D1 Hd) as [d' [Hw ->]]. rewrite Ep in *. unfold file_at at 1. unfold fs_set. rewrite String.eqb_refl.
        unfold file_at in IH. cbn [fst seen] in Hw. destruct (fs1 (ow_path w)) as [[d| |]|]; try contradiction.
        * eapply write_file; [exact Hc1|exact Hc2| |exact Hw|exact IH]. congruence.
        * eapply write_file; [exact Hc1|exact Hc2| |exact Hw|exact I]. congruence.
      + rewrite (D2 Hd). exact IH.
  Qed.

  (* every layer in the file is one that was written *)
  Lemma write_layers_from (P : string -> field (option A) -> Prop) (g0 g : grid A) t rows fields od d' : like g0 g ->
    length rows = g_rows g0 -> (forall name f, In f (layer_data (layers g) name) -> P name f) ->
    writer_write (view g) t rows fields od = Ok d' ->
    match od with Some d => file_of g0 d /\ layers_from P d | None => True end -> layers_from P d'.
  Proof.
    intros [HR HC] Hrows HP E Hod.
    apply writer_write_spec in E. destruct E as [d0 [Hd0 [T [D [Cc [_ [_ [_ [r [c [Dr [Dc [L0 L1]]]]]]]]]]]]].
    assert (F0 : layers_from P d0 /\ dget String.eqb (ds_dims d0) "row"%string = Some (g_rows g0)
      /\ dget String.eqb (ds_dims d0) "column"%string = Some (g_cols g0 - 2)).
    { destruct od as [d|]; [subst d0; destruct Hod as [[_ [_ [a [b _]]]] e]; auto|].
      destruct Hd0 as [_ [_ [Hl [ys [xs [Ey [Ex [Dd Dcc]]]]]]]]. rewrite Dd. cbn [take] in Ey, Ex.
      apply mapM_length in Ey. apply mapM_length in Ex. rewrite map_length, seq_length in Ex.
      change (gv_cols (view g)) with (g_cols g) in Ex.
      split; [intros name f Hf; unfold layer_var in Hf; rewrite Hl in Hf; destruct Hf|].
      split; cbn; congruence. }
    destruct F0 as [F1 [F2 F3]]. intros name f Hf.
    destruct (in_dec string_dec name (el_tracking (gv_layers (view g)) ++ ["thickness"%string])) as [Hin|Hin];
      [|rewrite (L0 name Hin) in Hf; exact (F1 name f Hf)].
    destruct (L1 name Hin) as [l [Hl Ev]]. rewrite Ev in Hf. rewrite F2 in Dr. rewrite F3 in Dc. injection Dr as <-. injection Dc as <-.
    change (gv_rows (view g)) with (g_rows g) in Hl. change (gv_cols (view g)) with (g_cols g) in Hl.
    rewrite HR, HC, fit_layers_same in Hl. injection Hl as <-.
    unfold put_first in Hf. apply in_app_or in Hf. destruct Hf as [Hf|Hf].
    - apply in_map_iff in Hf. destruct Hf as [f' [Ef Hf]]. injection Ef as ->. apply HP. exact Hf.
    - apply (F1 name f). rewrite <- (firstn_skipn (length (layer_data (gv_layers (view g)) name)) (layer_var d0 name)).
      apply in_or_app. right. exact Hf.
  Qed.

  Lemma run_layers_from (P : string -> field (option A) -> Prop) (g0 : grid A) calls w fs w' fs' : length (ow_rows w) = g_rows g0 ->
    Forall (fun c => whole_grid (fst c) /\ like g0 (fst c)) calls ->
    (forall c name f, In c calls -> In f (layer_data (layers (fst c)) name) -> P name f) ->
    run_writer (map seen calls) (w, fs) = Ok (w', fs') -> file_at fs (ow_path w) = None ->
    match file_at fs' (ow_path w) with Some d => layers_from P d | None => True end.
  Proof.
    intros Hrows. revert w' fs'. induction calls as [|c calls IH] using rev_ind; intros w' fs' Hall HP E Hnone.
    - injection E as <- <-. rewrite Hnone. exact I.
    - apply Forall_app in Hall. destruct Hall as [Hall Hc]. inversion Hc as [|? ? [Hc1 Hc2] _]; subst. clear Hc.
      rewrite map_app in E. cbn [map] in E.
      rewrite run_writer_snoc in E. destruct (run_writer (map seen calls) (w, fs)) as [[w1 fs1]|] eqn:E1; [|discriminate E]. cbn [bind] in E.
      assert (F := run_file g0 calls w fs w1 fs1 Hrows Hall E1). rewrite Hnone in F. specialize (F I).
      specialize (IH _ _ Hall (fun c name f Hc => HP c name f (in_or_app _ _ _ (or_introl Hc))) eq_refl Hnone).
      destruct (run_writer_state _ _ _ _ _ E1) as [Ew1 _].
      assert (Ep : ow_path w1 = ow_path w) by (rewrite Ew1; reflexivity).
      assert (Er : ow_rows w1 = ow_rows w) by (rewrite Ew1; reflexivity).
      destruct (writer_step_spec _ _ _ _ _ _ E) as [_ [_ [D1 D2]]].
      assert (HPc : forall name f, In f (layer_data (layers (fst c)) name) -> P name f).
      { intros name f. apply HP. apply in_or_app. right. left. reflexivity. }
      destruct (Z.eq_dec (Z.of_nat (ow_count w1) mod ow_interval w1) 0) as [Hd|Hd].
      + destruct (D1 Hd) as [d' [Hw ->]]. rewrite Ep in *. unfold file_at at 1. unfold fs_set. rewrite String.eqb_refl.
        unfold file_at in IH, F. cbn [fst seen] in Hw. destruct (fs1 (ow_path w)) as [[d| |]|]; try contradiction.
        * eapply write_layers_from; [exact Hc2| |exact HPc|exact Hw|split; assumption]. congruence.
        * eapply write_layers_from; [exact Hc2| |exact HPc|exact Hw|exact I]. congruence.
      + rewrite (D2 Hd). exact IH.
  Qed.

  (* the row fields of the last write *)
  Lemma run_rows (g0 : grid A) k path w fs calls w' fs' : ow_interval w = Z.of_nat k -> 1 <= k -> ow_count w = 0 -> ow_path w = path ->
    length (ow_rows w) = g_rows g0 -> fs path = None ->
    run_writer (map seen calls) (w, fs) = Ok (w', fs') -> forall j g dt,
    nth_error calls (j * k) = Some (g, dt) -> length calls <= S j * k ->
    forall d, file_at fs' path = Some d -> forall name, In name ["x_of_shore"; "x_of_shelf_edge"]%string -> rowf g name <> None ->
    exists l, record_of d (var_name name "row") (length (ds_time d) - 1) = Some l.
  Proof.
    intros Ek Hk Hc0 Hp Hrows Hnone. revert w' fs'. induction calls as [|c calls IH] using rev_ind; intros w' fs' E j g dt Hj Hlast d Hd name Hname Hrow.
    - destruct (j * k); discriminate Hj.
    - rewrite map_app in E. cbn [map] in E.
      rewrite run_writer_snoc in E. destruct (run_writer (map seen calls) (w, fs)) as [[w1 fs1]|] eqn:E1; [|discriminate E]. cbn [bind] in E.
      destruct (run_writer_state _ _ _ _ _ E1) as [Ew1 _].
      assert (Ep : ow_path w1 = path) by (rewrite Ew1; exact Hp).
      assert (Ei : ow_interval w1 = Z.of_nat k) by (rewrite Ew1; exact Ek).
      assert (En : ow_count w1 = length calls) by (rewrite Ew1, map_length; cbn; lia).
      destruct (writer_step_spec _ _ _ _ _ _ E) as [_ [_ [D1 D2]]].
      pose proof (due_nat w1 k Ei Hk) as Hdue. rewrite En in Hdue.
      rewrite app_length in Hlast. cbn [length] in Hlast.
      destruct (Nat.eq_dec (j * k) (length calls)) as [Hjk|Hjk].
      + rewrite Hjk, nth_error_app2, Nat.sub_diag in Hj by lia. cbn in Hj. injection Hj as ->.
        assert (Hm : length calls mod k = 0) by (rewrite <- Hjk; apply Nat.mod_mul; lia).
        destruct (D1 (proj2 Hdue Hm)) as [d' [Hw ->]]. rewrite Ep in *. unfold file_at, fs_set in Hd. rewrite String.eqb_refl in Hd. injection Hd as ->.
        cbn [seen fst snd] in Hw.
        assert (X : exists od, writer_write (view g) (ow_time w1) (ow_rows w1) (ow_fields w1) od = Ok d)
          by (destruct (fs1 path) as [[?| |]|]; try contradiction; eauto).
        destruct X as [od X]. apply writer_write_spec in X. destruct X as [d0 [_ [T [_ [_ [_ [_ [Rn _]]]]]]]].
        destruct (Rn "row"%string name) as [n [x [vals [l [_ [_ [_ [_ Hl]]]]]]]]; [left; reflexivity| |].
        * unfold written_names, fields_at. cbn [view gv_fields dget String.eqb Ascii.eqb Bool.eqb].
          unfold fields_to_write. cbn [String.eqb Ascii.eqb Bool.eqb]. apply filter_In. split; [exact Hname|]. apply mem_In.
          rewrite map_map. cbn [fst]. clear -Hrow. unfold rowf in Hrow. induction (at_row g) as [|[nm v] l IH]; [contradiction|].
          cbn [dget] in Hrow. cbn [map fst]. destruct (String.eqb_spec name nm); [left; auto|right; apply IH; exact Hrow].
        * exists l. rewrite T, app_length. cbn [length]. rewrite Nat.add_sub. exact Hl.
      + assert (Hlt : j * k < length calls).
        { assert (X : nth_error (calls ++ [c]) (j * k) <> None) by congruence. apply nth_error_Some in X. rewrite app_length in X. cbn in X. lia. }
        assert (Hm : length calls mod k <> 0).
        { intros Hm. apply Nat.mod_divides in Hm; [|lia]. destruct Hm as [q Hq]. assert (j < q < S j) by nia. lia. }
        rewrite (D2 (fun X => Hm (proj1 Hdue X))) in Hd. rewrite nth_error_app1 in Hj by exact Hlt.
        eapply (IH w1 fs1); try eassumption; [reflexivity|lia].
  Qed.

  Lemma records_upto n k j : 1 <= k -> j * k < n <= S j * k -> records n k = S j.
  Proof.
    intros Hk Hn. unfold records. symmetry. apply (Nat.div_unique _ _ _ (n + k - 1 - S j * k)); nia.
  Qed.

  Theorem written_plot g0 path k fields clobber fs fs1 w calls w' fs' j g dt b :
    writer_init (view g0) path (IntInterval (Z.of_nat k)) fields clobber None fs = (fs1, Ok w) ->
    Forall (fun c => whole_grid (fst c) /\ like g0 (fst c)) calls ->
    run_writer (map seen calls) (w, fs1) = Ok (w', fs') ->
    nth_error calls (j * k) = Some (g, dt) -> length calls <= S j * k -> 3 <= g_cols g0 ->
    match fields with Some (f :: fl) => In "bedrock_surface__elevation"%string (f :: fl) | _ => True end ->
    node g "bedrock_surface__elevation" = Some b ->
    rowf g "x_of_shore" <> None -> rowf g "x_of_shelf_edge" <> None -> In "age"%string (el_tracking (layers g)) ->
    1 <= el_number (layers g) ->
    exists d, file_at fs' path = Some d
    /\ ds_time d = map (fun i => elapsed (firstn (i * k) (map seen calls))) (seq 0 (S j))
    /\ (forall name, In name (layer_names (layers g)) -> exists rest, layer_var d name = map Some (layer_data (layers g) name) ++ rest)
    /\ dget String.eqb (ds_dims d) "row"%string = Some (g_rows g0)
    /\ exists xs, shaped (g_rows g0) (g_cols g0 - 2) xs /\ forall row i brow, place (g_rows g0) row i -> place (g_rows g0 + 2) row brow ->
       plot_file_args d (Some row)
       = if Nat.leb (S j) 1 then Err IndexError
         else
           let ages := map (fun f => at2 None f i 0) (layer_array (g_rows g0) (g_cols g0 - 2) (layer_var d "age")) in
           let* shore := interp_all (ds_time d) (row_values d "at_row:x_of_shore" i) ages in
           let* shelf_edge := interp_all (ds_time d) (row_values d "at_row:x_of_shelf_edge" i) ages in
           Ok (mkPlotArgs (plotted_elevation b brow (layer_array (g_rows g0) (g_cols g0 - 2) (layer_var d "thickness")) i (g_cols g0 - 2))
                 (nth i xs []) shore shelf_edge).
  Proof.
    intros Hi Hall E Hj Hlast HC Hf Hb Hs He Hage Hn1.
    destruct (init_clears _ _ _ _ _ _ _ _ _ Hi) as [Hnone [Hp [Hc0 [_ [_ [[kz [Ek1 [Ek2 _]]] Hrows]]]]]].
    injection Ek1 as <-.
    assert (Lrows : length (ow_rows w) = g_rows g0) by (rewrite Hrows, map_length, seq_length; reflexivity).
    assert (Hne : map seen calls <> []).
    { intros X. apply map_eq_nil in X. subst calls. destruct (j * k); discriminate Hj. }
    assert (Hwn : Forall (fun c => with_nodes ((g_rows g0 + 2) * g_cols g0) (fst c)) (map seen calls)).
    { apply Forall_map. eapply Forall_impl; [|exact Hall]. intros c [Hc1 [Hc2 Hc3]]. cbn [seen fst].
      rewrite <- Hc2, <- Hc3. apply view_with_nodes. exact Hc1. }
    destruct (writer_records _ _ _ _ _ _ _ _ _ ((g_rows g0 + 2) * g_cols g0) (map seen calls) w' fs' Hi Hwn E Hne)
      as [k' [d [Ek' [Hk [Hd [Ht Hg]]]]]].
    assert (k' = k) by (rewrite Ek2 in Ek'; apply Nat2Z.inj; symmetry; exact Ek'). subst k'.
    assert (Hjl : j * k < length calls) by (apply nth_error_Some; congruence).
    rewrite map_length in Ht, Hg. rewrite (records_upto (length calls) k j Hk) in Ht, Hg by lia.
    exists d. assert (Hfd : file_at fs' path = Some d) by (unfold file_at; rewrite Hd; reflexivity). split; [exact Hfd|].
    split; [exact Ht|].
    assert (Lt : length (ds_time d) = S j) by (rewrite Ht, map_length, seq_length; reflexivity).
    destruct (layer_file (g_rows g0) (g_cols g0) k path w fs1 (map seen calls) w' fs' Ek2 Hk Hc0 Hp Hnone Lrows) as [d2 [Hd2 [_ [_ La]]]];
      [apply Forall_map; eapply Forall_impl; [|exact Hall]; intros c [_ [a b']]; split; assumption|exact E|exact Hne|].
    assert (d2 = d) by congruence. subst d2.
    assert (Hlay : forall name, In name (layer_names (layers g)) -> exists rest, layer_var d name = map Some (layer_data (layers g) name) ++ rest).
    { intros name Hn. apply (La j (view g)); [exists dt; rewrite nth_error_map, Hj; reflexivity|rewrite map_length; exact Hlast|exact Hn]. }
    split; [exact Hlay|].
    assert (Hlike : whole_grid g /\ like g0 g) by (exact (proj1 (Forall_forall _ _) Hall (g, dt) (nth_error_In _ _ Hj))).
    destruct Hlike as [Hwg [HR HCg]].
    assert (F : file_of g0 d).
    { pose proof (run_file g0 calls w fs1 w' fs' Lrows Hall E) as X. rewrite Hp in X. rewrite Hfd in X. apply X.
      unfold file_at. rewrite Hnone. exact I. }
    destruct F as [F1 [F2 [F3 [F4 [F5 [xs [Sxs F6]]]]]]].
    destruct (run_rows g0 k path w fs1 calls w' fs' Ek2 Hk Hc0 Hp Lrows Hnone E j g dt Hj Hlast d Hfd "x_of_shore"%string) as [s0 Es0];
      [cbn; tauto|exact Hs|].
    destruct (run_rows g0 k path w fs1 calls w' fs' Ek2 Hk Hc0 Hp Lrows Hnone E j g dt Hj Hlast d Hfd "x_of_shelf_edge"%string) as [e0 Ee0];
      [cbn; tauto|exact He|].
    destruct (Hg j ltac:(lia)) as [gv [dt' [Egv Rgv]]]. rewrite nth_error_map, Hj in Egv. cbn in Egv. injection Egv as <- <-.
    assert (Hbr : record_of d "at_node:bedrock_surface__elevation" j = Some (map Some (concat b))).
    { apply (Rgv "bedrock_surface__elevation"%string).
      - destruct fields as [[|f fl]|]; auto.
      - unfold field_at. cbn [view gv_fields dget String.eqb Ascii.eqb Bool.eqb].
        unfold node in Hb. clear -Hb. induction (at_node g) as [|[nm v] l IH]; [discriminate Hb|].
        cbn [dget map fst snd] in *. destruct (String.eqb _ nm); [injection Hb as ->; reflexivity|apply IH; exact Hb]. }
    assert (Sb : shaped (g_rows g0 + 2) (g_cols g0 - 2 + 2) b).
    { replace (g_cols g0 - 2 + 2) with (g_cols g0) by lia. rewrite <- HR, <- HCg. apply (proj2 Hwg _ _ Hb). }
    assert (HlayN : forall name, In name (layer_names (layers g)) -> dget String.eqb (ds_layers d) (var_name name "layer") <> None).
    { intros name Hn X. destruct (Hlay name Hn) as [rest Hrest]. unfold layer_var in Hrest. rewrite X in Hrest.
      symmetry in Hrest. apply app_eq_nil in Hrest. destruct Hrest as [Hrest _]. apply map_eq_nil in Hrest.
      pose proof (layer_data_length (layers g) name) as L. rewrite Hrest in L. cbn in L. lia. }
    split; [exact F3|]. exists xs. split; [exact Sxs|]. intros row i brow Hpi Hpb.
    rewrite <- Lt at 1.
    apply plot_file_computes with (s0 := s0) (e0 := e0); try assumption.
    - replace (g_cols g0 - 2 + 2) with (g_cols g0) by lia. exact F5.
    - lia.
    - rewrite Lt. cbn [Nat.sub]. rewrite Nat.sub_0_r. exact Hbr.
    - apply (HlayN "thickness"%string). apply in_or_app. right. left. reflexivity.
    - apply (HlayN "age"%string). apply in_or_app. left. exact Hage.
  Qed.

  Lemma plot_file_default (d : dataset A) r : dget String.eqb (ds_dims d) "row"%string = Some r -> 1 <= r ->
    plot_file_args d None = plot_file_args d (Some (Z.of_nat (r / 2))).
  Proof.
    intros E Hr. unfold plot_file_args. rewrite E.
    replace ((Z.of_nat (r / 2) >=? Z.of_nat r) || (Z.of_nat (r / 2) <? - Z.of_nat r))%Z%bool with false; [reflexivity|].
    assert (r / 2 < r) by (apply Nat.div_lt; lia). symmetry. apply orb_false_intro; [|apply Z.ltb_ge; lia].
    rewrite Z.geb_leb. apply Z.leb_gt. lia.
  Qed.

  Lemma thickness_layers (g : grid A) i j : shaped (g_rows g) (g_cols g - 2) (el_stacks (layers g)) -> full_stacks g ->
    i < g_rows g -> j < g_cols g - 2 -> forall k, k < el_number (layers g) ->
    fold_left nadd (map (fun f => at2 None f i j) (firstn (S k) (layer_data (layers g) "thickness"))) (Some n0)
    = Some (thickness_to k (at2 [] (el_stacks (layers g)) i j)).
  Proof.
    intros Sh Hf Hi Hj k Hk. unfold thickness_to.
    assert (X : map (fun f => at2 None f i j) (layer_data (layers g) "thickness")
                = map Some (map c_dz (at2 [] (el_stacks (layers g)) i j))).
    { change (layer_data (layers g) "thickness") with (layers_of (fun c => Some (c_dz c)) (layers g)). unfold layers_of.
      specialize (Hf i j Hi Hj). rewrite (list_of_nth (at2 [] (el_stacks (layers g)) i j) _ (mkCell n0 []) Hf) at 1.
      rewrite !map_map. apply map_ext_in. intros q Hq. apply in_seq in Hq.
      rewrite (at2_fmap _ _ _ _ [] None i j Sh Hi Hj). rewrite (nth_error_len _ q (mkCell n0 [])) by lia. reflexivity. }
    rewrite <- firstn_map, X, !firstn_map. generalize (map c_dz (firstn (S k) (at2 [] (el_stacks (layers g)) i j))) as l.
    generalize (@n0 A _). intros a l. revert a. induction l as [|v l IH]; intros a; [reflexivity|]. cbn [map fold_left].
    rewrite <- IH. reflexivity.
  Qed.

  (* the elevations plotted from a file *)
  Lemma plotted_from_file (g : grid A) b brow i (d : dataset A) rest p : whole_grid g -> full_stacks g ->
    layer_var d "thickness" = map Some (layer_data (layers g) "thickness") ++ rest -> i < g_rows g ->
    pa_elevation p = plotted_elevation b brow (layer_array (g_rows g) (g_cols g - 2) (layer_var d "thickness")) i (g_cols g - 2) ->
    forall k j, k < el_number (layers g) -> j < g_cols g - 2 ->
    nth j (nth k (pa_elevation p) []) None = Some (nadd (at2 n0 b brow (S j)) (thickness_to k (at2 [] (el_stacks (layers g)) i j))).
  Proof.
    intros Hw Hf Hl Hi -> k j Hk Hj. unfold plotted_elevation. rewrite Hl.
    set (th := layer_array _ _ _).
    assert (Eth : th = layer_data (layers g) "thickness" ++ layer_array (g_rows g) (g_cols g - 2) rest).
    { unfold th, layer_array. rewrite map_app, map_map, map_id. reflexivity. }
    assert (Lth : k < length th) by (rewrite Eth, app_length, layer_data_length; lia).
    rewrite nth_map' with (da := 0) by (rewrite seq_length; exact Lth). rewrite seq_nth by exact Lth.
    rewrite nth_map' with (da := 0) by (rewrite seq_length; exact Hj). rewrite seq_nth by exact Hj. cbn [Nat.add].
    assert (Ef : firstn (S k) th = firstn (S k) (layer_data (layers g) "thickness")).
    { rewrite Eth, firstn_app, layer_data_length. replace (S k - el_number (layers g)) with 0 by lia. rewrite firstn_O, app_nil_r. reflexivity. }
    rewrite Ef, (thickness_layers g i j) by (try assumption; apply Hw). reflexivity.
  Qed.

  Lemma interp_all_ok (x : list A) y ages : x <> [] ->
    (forall v, In v ages -> match v with
                            | Some a => nltb a (nth 0 x n0) = false /\ nltb (nth (length x - 1) x n0) a = false
                            | None => True
                            end) -> exists l, interp_all x y ages = Ok l /\ length l = length ages.
  Proof.
    intros Hx Ha. unfold interp_all.
    assert (X : exists l, mapM (interp_linear (map Some x) y) ages = Ok l).
    { induction ages as [|v ages IH]; [eexists; reflexivity|]. cbn [mapM].
      destruct IH as [l ->]; [intros u Hu; apply Ha; right; exact Hu|].
      assert (Hv := Ha v (or_introl eq_refl)). unfold interp_linear at 1. rewrite map_length.
      assert (Ln : 0 < length x) by (destruct x; [contradiction|cbn; lia]).
      rewrite !(nth_map' Some x) with (da := n0) by lia. destruct v as [a|].
      - destruct Hv as [H1 H2]. cbn [nltb Num_nan test2]. rewrite H1, H2. destruct (negb _); [cbn [bind]; eauto|].
        cbv zeta. destruct (_ || _)%bool; cbn [bind]; eauto.
      - cbn [nltb neqb Num_nan test2 bind negb]. eauto. }
    destruct X as [l Hl]. exists l. split; [exact Hl|]. apply mapM_length in Hl. exact Hl.
  Qed.
End Any.
