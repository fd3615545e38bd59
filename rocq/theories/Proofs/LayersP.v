(** Facts about layer stacks. *)
From Coq Require Import String List ZArith QArith Reals Lra Lia Arith Bool.
From Verif.Base Require Import Num Py Arr.
From Verif.Model Require Import Layers Archive.
From Verif.Spec Require Import Strata.
Import ListNotations.

Section Any.
  Context {A : Type} `{Num A}.

  Lemma erode_props r (l : list (lcell A)) : map c_props (erode r l) = map c_props l.
  Proof.
    revert r. induction l as [|c l IH]; intros r; [reflexivity|].
    cbn [erode]. destruct (nltb n0 (nsub r (c_dz c))); cbn [map c_props]; [f_equal; apply IH|reflexivity].
  Qed.
  Lemma erode_length r (l : list (lcell A)) : length (erode r l) = length l.
  Proof. rewrite <- (map_length c_props (erode r l)), erode_props. apply map_length. Qed.

  Lemma add_stack_length dz p (st : stack A) : length (add_stack dz p st) = S (length st).
  Proof.
    unfold add_stack. destruct (nltb dz n0).
    - rewrite rev_length, erode_length. cbn. rewrite rev_length. reflexivity.
    - rewrite app_length. cbn. lia.
  Qed.
  Lemma add_stack_props dz p (st : stack A) : map c_props (add_stack dz p st) = map c_props st ++ [p].
  Proof.
    unfold add_stack. destruct (nltb dz n0).
    - rewrite map_rev, erode_props. cbn [map c_props]. rewrite map_rev. cbn. rewrite rev_involutive. reflexivity.
    - rewrite map_app. reflexivity.
  Qed.

  (** counting *)
  Lemma merged_after_spec n a :
    (a = 0%nat /\ (n < 20)%nat) \/ (1 <= a /\ 10 * a + 10 <= n < 10 * a + 20)%nat -> merged_after n = a.
  Proof.
    intros [[-> Hn]|[Ha Hn]]; unfold merged_after.
    - rewrite (proj2 (Nat.ltb_lt _ _)) by lia. reflexivity.
    - rewrite (proj2 (Nat.ltb_ge _ _)) by lia. symmetry.
      apply (Nat.div_unique (n - 10) 10 a (n - 10 - 10 * a)); lia.
  Qed.
  Lemma merged_after_cases n :
    (merged_after n = 0%nat /\ (n < 20)%nat)
    \/ (1 <= merged_after n /\ 10 * merged_after n + 10 <= n < 10 * merged_after n + 20)%nat.
  Proof.
    unfold merged_after. destruct (Nat.ltb_spec n 20); [left; split; auto|right].
    pose proof (Nat.div_mod (n - 10) 10 ltac:(lia)). pose proof (Nat.mod_upper_bound (n - 10) 10 ltac:(lia)).
    lia.
  Qed.
  Lemma merged_after_S n :
    merged_after (S n) = if Nat.eqb (S n) (10 * merged_after n + 20) then S (merged_after n) else merged_after n.
  Proof.
    apply merged_after_spec. destruct (Nat.eqb_spec (S n) (10 * merged_after n + 20)) as [E|E];
      destruct (merged_after_cases n); lia.
  Qed.

  Lemma archive_test n a num : (num + 9 * a = S n)%nat -> a = merged_after n ->
    ((Z.of_nat num - Z.of_nat a) mod 20 =? 0)%Z = Nat.eqb (S n) (10 * a + 20).
  Proof.
    intros E Ea. replace (Z.of_nat num - Z.of_nat a)%Z with (Z.of_nat (S n - 10 * a)).
    2:{ pose proof (merged_after_cases n). lia. }
    assert (B : (1 <= S n - 10 * a <= 20)%nat) by (pose proof (merged_after_cases n); lia).
    destruct (Nat.eqb_spec (S n) (10 * a + 20)) as [E1|E1].
    - replace (S n - 10 * a)%nat with 20%nat by lia. reflexivity.
    - apply Z.eqb_neq. rewrite Z.mod_small by lia. lia.
  Qed.


  Lemma el_add_ok dz props (el : event_layers A) names : map fst props = names ->
    el_number el = 0%nat \/ el_tracking el = names ->
    exists el', el_add dz props el = Ok el' /\ el_number el' = S (el_number el)
      /\ el_tracking el' = names
      /\ el_stacks el' = fmapi (fun i j st => add_stack (at2 n0 dz i j)
                        (map (fun kv => (fst kv, at2 n0 (snd kv) i j)) props) st) (el_stacks el).
  Proof.
    intros Hn Ht. unfold el_add.
    assert (Et : (if Nat.eqb (el_number el) 0 then map fst props else el_tracking el) = names).
    { destruct (Nat.eqb_spec (el_number el) 0) as [E|E]; [exact Hn|]. destruct Ht; [congruence|assumption]. }
    rewrite Et. replace (forallb _ props) with true.
    - eexists. split; [reflexivity|]. cbn. auto.
    - symmetry. apply forallb_forall. intros [k v] Hin. apply existsb_exists. exists k.
      split; [rewrite <- Hn; apply (in_map fst) in Hin; exact Hin|]. apply String.eqb_refl.
  Qed.

  Lemma layer_run_snoc hist h (st : nat * event_layers A) :
    layer_run (hist ++ [h]) st
    = bind (layer_run hist st) (fun s => add_and_archive (fst h) (snd h) s).
  Proof.
    unfold layer_run. rewrite foldM_app.
    destruct (foldM (fun s h0 => add_and_archive (fst h0) (snd h0) s) hist st) as [s|e]; [|reflexivity].
    cbn [bind foldM]. destruct (add_and_archive (fst h) (snd h) s); reflexivity.
  Qed.

  Lemma archive_count hist n m names : tracked names hist ->
    exists a el, layer_run hist (0%nat, el_empty n m) = Ok (a, el)
      /\ a = merged_after (length hist) /\ (el_number el + 9 * a = length hist)%nat
      /\ (hist <> [] -> el_tracking el = names) /\ (hist = [] -> el_number el = 0%nat)
      /\ shaped n m (el_stacks el).
  Proof.
    induction hist as [|h hist IH] using rev_ind; intros Ht.
    - exists 0%nat, (el_empty n m). split; [reflexivity|]. split; [reflexivity|]. split; [reflexivity|].
      split; [intros C; contradiction|]. split; [reflexivity|]. apply shaped_full.
    - destruct IH as [a [el [E [Ea [En [Et [E0 Sh]]]]]]].
      { intros h' Hh'. apply Ht. apply in_or_app. left; exact Hh'. }
      rewrite layer_run_snoc, E. cbn [bind].
      assert (Hh : map fst (snd h) = names) by (apply Ht, in_or_app; right; left; reflexivity).
      destruct (el_add_ok (fst h) (snd h) el names Hh) as [el1 [E1 [N1 [T1 S1]]]].
      { destruct hist as [|h0 hist]; [left; apply E0; reflexivity|right; apply Et; discriminate]. }
      unfold add_and_archive. cbn [fst snd]. rewrite E1. cbn [bind]. unfold archive.
      rewrite app_length. cbn [length]. rewrite Nat.add_1_r.
      rewrite (archive_test (length hist) a) by lia.
      pose proof (merged_after_S (length hist)) as MS. rewrite <- Ea in MS.
      assert (Sh1 : shaped n m (el_stacks el1)) by (rewrite S1; apply shaped_fmapi; exact Sh).
      assert (Hne : hist ++ [h] <> []) by (destruct hist; discriminate).
      destruct (Nat.eqb_spec (S (length hist)) (10 * a + 20)) as [B|B].
      + eexists _, _. split; [reflexivity|]. cbn [el_reduce el_number el_tracking el_stacks].
        split; [lia|]. split; [lia|]. split; [auto|]. split; [intros; contradiction|].
        apply shaped_fmap. exact Sh1.
      + eexists _, _. split; [reflexivity|].
        split; [lia|]. split; [lia|]. split; [auto|]. split; [intros; contradiction|]. exact Sh1.
  Qed.
End Any.

(** ** real thicknesses *)
Local Open Scope R_scope.

Lemma fold_left_Rplus l a : fold_left Rplus l a = a + rsum l.
Proof. revert a. induction l as [|b l IH]; intros a; cbn [fold_left rsum fold_right]; [lra|]. rewrite IH. unfold rsum. lra. Qed.
Lemma nsum_rsum (l : list R) : nsum l = rsum l.
Proof. unfold nsum. numR. rewrite n0_R. change (fold_left nadd l 0) with (fold_left Rplus l 0). rewrite fold_left_Rplus. lra. Qed.
Lemma rsum_app l1 l2 : rsum (l1 ++ l2) = rsum l1 + rsum l2.
Proof. induction l1 as [|a l1 IH]; cbn [app]; [cbn; lra|]. change (rsum (a :: l1 ++ l2)) with (a + rsum (l1 ++ l2)). rewrite IH. change (rsum (a :: l1)) with (a + rsum l1). lra. Qed.
Lemma rsum_rev l : rsum (rev l) = rsum l.
Proof. induction l as [|a l IH]; [reflexivity|]. cbn [rev]. rewrite rsum_app, IH. unfold rsum. cbn [fold_right]. lra. Qed.
Lemma rsum_nonneg l : (forall a, In a l -> 0 <= a) -> 0 <= rsum l.
Proof. induction l as [|a l IH]; intros Hl; cbn; [lra|]. pose proof (Hl a (or_introl eq_refl)).
  assert (0 <= rsum l) by (apply IH; intros; apply Hl; right; assumption). unfold rsum in *. lra. Qed.

Definition nonneg (l : list (lcell R)) : Prop := forall c, In c l -> 0 <= c_dz c.

Lemma thick_app l1 l2 : thick (l1 ++ l2) = thick l1 + thick l2.
Proof. unfold thick. rewrite map_app. apply rsum_app. Qed.
Lemma thick_rev l : thick (rev l) = thick l.
Proof. unfold thick. rewrite map_rev. apply rsum_rev. Qed.
Lemma thick_nonneg l : nonneg l -> 0 <= thick l.
Proof. intros Hl. apply rsum_nonneg. intros a Ha. apply in_map_iff in Ha. destruct Ha as [c [<- Hc]]. auto. Qed.
Lemma nonneg_app l1 l2 : nonneg (l1 ++ l2) <-> nonneg l1 /\ nonneg l2.
Proof. unfold nonneg. split; [intros Hl; split; intros; apply Hl, in_or_app; auto|].
  intros [H1 H2] c Hc. apply in_app_or in Hc. destruct Hc; auto. Qed.
Lemma nonneg_rev l : nonneg (rev l) <-> nonneg l.
Proof. unfold nonneg. split; intros Hl c Hc; apply Hl.
  - apply -> in_rev. exact Hc.
  - apply <- in_rev. exact Hc.
Qed.
Lemma nonneg_cons c l : nonneg (c :: l) <-> 0 <= c_dz c /\ nonneg l.
Proof. unfold nonneg. split; [intros Hl; split; [apply Hl; left; auto|intros; apply Hl; right; auto]|].
  intros [H1 H2] c' [<-|Hc]; auto. Qed.
Lemma thickness_R (st : stack R) : stack_thickness st = thick st.
Proof. apply nsum_rsum. Qed.

Lemma cell_eta (c : lcell R) d : c_dz c = d -> mkCell d (c_props c) = c.
Proof. intros <-. destruct c; reflexivity. Qed.

Lemma erode_cons r (c : lcell R) l : erode r (c :: l) =
  if Rlt_dec 0 (r - c_dz c) then mkCell 0 (c_props c) :: erode (r - c_dz c) l
  else mkCell (c_dz c - r) (c_props c) :: l.
Proof.
  cbn [erode]. numR. rewrite n0_R. unfold Rltb. destruct (Rlt_dec 0 (r - c_dz c)); [reflexivity|].
  do 2 f_equal. lra.
Qed.

Lemma erode_zero l : nonneg l -> erode 0 l = l.
Proof.
  destruct l as [|c l]; intros Hl; [reflexivity|]. apply nonneg_cons in Hl. rewrite erode_cons.
  destruct (Rlt_dec 0 (0 - c_dz c)); [lra|]. f_equal. apply cell_eta. lra.
Qed.

Lemma erode_app r l1 l2 : 0 <= r -> nonneg (l1 ++ l2) ->
  erode r (l1 ++ l2) = erode r l1 ++ erode (Rmax 0 (r - thick l1)) l2.
Proof.
  revert r. induction l1 as [|c l1 IH]; intros r Hr Hl.
  - cbn [app erode]. unfold thick. cbn. rewrite Rmax_right by lra. f_equal. lra.
  - cbn [app] in *. apply nonneg_cons in Hl. destruct Hl as [Hc Hl]. rewrite !erode_cons.
    change (thick (c :: l1)) with (c_dz c + thick l1).
    destruct (Rlt_dec 0 (r - c_dz c)) as [L|L].
    + cbn [app]. f_equal. rewrite IH by (try lra; assumption). do 3 f_equal. lra.
    + cbn [app]. f_equal. f_equal. apply nonneg_app in Hl. destruct Hl as [H1 H2].
      rewrite Rmax_left by (pose proof (thick_nonneg _ H1); lra). symmetry. apply erode_zero. exact H2.
Qed.

Lemma erode_nonneg r l : 0 <= r -> nonneg l -> nonneg (erode r l).
Proof.
  revert r. induction l as [|c l IH]; intros r Hr Hl; [exact Hl|].
  apply nonneg_cons in Hl. destruct Hl as [Hc Hl]. rewrite erode_cons.
  destruct (Rlt_dec 0 (r - c_dz c)); apply nonneg_cons; cbn [c_dz]; split; try lra.
  - apply IH; [lra|assumption].
  - assumption.
Qed.

Lemma erode_thick r l : 0 <= r -> nonneg l -> thick (erode r l) = Rmax 0 (thick l - r).
Proof.
  revert r. induction l as [|c l IH]; intros r Hr Hl.
  - unfold thick; cbn. rewrite Rmax_left; lra.
  - apply nonneg_cons in Hl. destruct Hl as [Hc Hl]. rewrite erode_cons.
    pose proof (thick_nonneg _ Hl).
    destruct (Rlt_dec 0 (r - c_dz c)) as [L|L].
    + change (thick (mkCell 0 (c_props c) :: erode (r - c_dz c) l)) with (0 + thick (erode (r - c_dz c) l)).
      rewrite IH by (try lra; assumption). change (thick (c :: l)) with (c_dz c + thick l).
      rewrite Rplus_0_l. f_equal. lra.
    + change (thick (mkCell (c_dz c - r) (c_props c) :: l)) with (c_dz c - r + thick l).
      change (thick (c :: l)) with (c_dz c + thick l). rewrite Rmax_right; lra.
Qed.

(* newest first: a layer is touched only when every newer one is gone *)
Lemma erode_order r l i j d : 0 <= r -> nonneg l -> (i < j < length l)%nat ->
  c_dz (nth j (erode r l) d) <> c_dz (nth j l d) -> c_dz (nth i (erode r l) d) = 0.
Proof.
  revert r i j. induction l as [|c l IH]; intros r i j Hr Hl Hij Hne; [cbn in Hij; lia|].
  apply nonneg_cons in Hl. destruct Hl as [Hc Hl]. rewrite erode_cons in *.
  destruct (Rlt_dec 0 (r - c_dz c)) as [L|L].
  - destruct j as [|j]; [lia|]. destruct i as [|i]; [reflexivity|].
    cbn [nth length] in *. apply (IH (r - c_dz c) i j); try assumption; [lra|lia].
  - destruct j as [|j]; [lia|]. exfalso. apply Hne. reflexivity.
Qed.

(* oldest first *)
Definition eo (r : R) (st : stack R) : stack R := rev (erode r (rev st)).

Lemma add_stack_R dz p (st : stack R) : add_stack dz p st =
  if Rlt_dec dz 0 then eo (- dz) (st ++ [mkCell 0 p]) else st ++ [mkCell dz p].
Proof.
  unfold add_stack, eo. numR. rewrite n0_R. unfold Rltb. rewrite rev_app_distr. cbn [rev app].
  destruct (Rlt_dec dz 0); reflexivity.
Qed.

Lemma eo_length r st : length (eo r st) = length st.
Proof. unfold eo. rewrite rev_length, erode_length, rev_length. reflexivity. Qed.
Lemma eo_props r st : map c_props (eo r st) = map c_props st.
Proof. unfold eo. rewrite map_rev, erode_props, map_rev, rev_involutive. reflexivity. Qed.
Lemma eo_nonneg r st : 0 <= r -> nonneg st -> nonneg (eo r st).
Proof. intros Hr Hs. apply (proj2 (nonneg_rev _)), erode_nonneg; [exact Hr|]. apply (proj2 (nonneg_rev _)). exact Hs. Qed.
Lemma eo_thick r st : 0 <= r -> nonneg st -> thick (eo r st) = Rmax 0 (thick st - r).
Proof. intros Hr Hs. unfold eo. rewrite thick_rev, erode_thick, thick_rev; auto. apply (proj2 (nonneg_rev _)). exact Hs. Qed.
Lemma eo_app r lo hi : 0 <= r -> nonneg (lo ++ hi) ->
  eo r (lo ++ hi) = eo (Rmax 0 (r - thick hi)) lo ++ eo r hi.
Proof.
  intros Hr Hn. unfold eo. rewrite rev_app_distr, erode_app, rev_app_distr, thick_rev; auto.
  rewrite <- rev_app_distr. apply (proj2 (nonneg_rev _)). exact Hn.
Qed.

Lemma add_stack_nonneg dz p st : nonneg st -> nonneg (add_stack dz p st).
Proof.
  intros Hs. rewrite add_stack_R. destruct (Rlt_dec dz 0).
  - apply eo_nonneg; [lra|]. apply nonneg_app. split; [exact Hs|]. apply nonneg_cons. cbn. split; [lra|]. intros c [].
  - apply nonneg_app. split; [exact Hs|]. apply nonneg_cons. cbn. split; [lra|]. intros c [].
Qed.
Lemma add_stack_thick dz p st : nonneg st -> thick (add_stack dz p st) = Rmax 0 (thick st + dz).
Proof.
  intros Hs. rewrite add_stack_R. pose proof (thick_nonneg _ Hs). destruct (Rlt_dec dz 0).
  - rewrite eo_thick.
    + rewrite thick_app. unfold thick at 2. cbn. f_equal. lra.
    + lra.
    + apply nonneg_app. split; [exact Hs|]. apply nonneg_cons. cbn. split; [lra|]. intros c [].
  - rewrite thick_app. unfold thick at 2. cbn. rewrite Rmax_right; lra.
Qed.

Lemma add_stack_order dz p st i j d : nonneg st -> (i < j < S (length st))%nat ->
  c_dz (nth i (add_stack dz p st) d) <> c_dz (nth i st d) -> c_dz (nth j (add_stack dz p st) d) = 0.
Proof.
  intros Hs Hij Hne. rewrite add_stack_R in *. destruct (Rlt_dec dz 0) as [L|L].
  - set (s1 := st ++ [mkCell 0 p]) in *.
    assert (Hs1 : nonneg s1).
    { apply nonneg_app. split; [exact Hs|]. apply nonneg_cons. cbn. split; [lra|]. intros c []. }
    assert (L1 : length s1 = S (length st)) by (unfold s1; rewrite app_length; cbn; lia).
    assert (E1 : nth i st d = nth i s1 d) by (unfold s1; rewrite app_nth1 by lia; reflexivity).
    rewrite E1 in Hne. unfold eo in *.
    assert (Le : length (erode (- dz) (rev s1)) = length s1) by (rewrite erode_length, rev_length; reflexivity).
    rewrite !rev_nth in * by lia. rewrite Le in *.
    assert (E2 : nth i s1 d = nth (length s1 - S i) (rev s1) d).
    { rewrite rev_nth by lia. f_equal. lia. }
    rewrite E2 in Hne.
    apply (erode_order (- dz) (rev s1) (length s1 - S j) (length s1 - S i) d); auto; [lra| |].
    + apply (proj2 (nonneg_rev _)). exact Hs1.
    + rewrite rev_length. lia.
  - exfalso. apply Hne. rewrite app_nth1 by lia. reflexivity.
Qed.

(** ** merging *)
Section Merge.
  Variable reducers : list (string * (list R -> R)).
  Notation M := (merge_cells reducers).

  Lemma merge_thick l : c_dz (M l) = thick l.
  Proof. apply nsum_rsum. Qed.

  Lemma merge_props l l' : map c_props l = map c_props l' -> c_props (M l) = c_props (M l').
  Proof.
    intros E. unfold merge_cells. cbn [c_props].
    assert (V : forall name, map (fun c : lcell R => dget String.eqb (c_props c) name) l
                = map (fun c => dget String.eqb (c_props c) name) l').
    { intros name. rewrite <- (map_map c_props (fun p => dget String.eqb p name)).
      rewrite <- (map_map c_props (fun p => dget String.eqb p name) l'). rewrite E. reflexivity. }
    induction reducers as [|[k f] red IH]; cbn [flat_map]; [reflexivity|].
    rewrite IH, V. reflexivity.
  Qed.

  Lemma eo_merge r l : 0 <= r -> nonneg l -> eo r [M l] = [M (eo r l)].
  Proof.
    intros Hr Hl. unfold eo at 1. cbn [rev app]. rewrite erode_cons, merge_thick.
    pose proof (thick_nonneg _ Hl) as Ht.
    assert (E : forall d, d = thick (eo r l) -> mkCell d (c_props (M l)) = M (eo r l)).
    { intros d Hd. rewrite (merge_props l (eo r l)) by (rewrite eo_props; reflexivity).
      apply cell_eta. rewrite merge_thick. symmetry. exact Hd. }
    destruct (Rlt_dec 0 (r - thick l)); cbn [erode rev app]; f_equal; apply E;
      rewrite eo_thick by assumption; [rewrite Rmax_left|rewrite Rmax_right]; lra.
  Qed.

  (* erosion of a pile of chunks, given newest chunk first *)
  Fixpoint ec (r : R) (rcs : list (stack R)) : list (stack R) :=
    match rcs with
    | [] => []
    | c :: rcs' => eo r c :: ec (Rmax 0 (r - thick c)) rcs'
    end.

  Lemma ec_concat rcs : forall r, 0 <= r -> nonneg (concat (rev rcs)) ->
    concat (rev (ec r rcs)) = eo r (concat (rev rcs)).
  Proof.
    induction rcs as [|c rcs IH]; intros r Hr Hn; [reflexivity|].
    cbn [ec rev] in *. rewrite !concat_app in *. cbn [concat] in *. rewrite !app_nil_r in *.
    rewrite eo_app by assumption. apply nonneg_app in Hn. destruct Hn as [H1 H2].
    rewrite IH by (auto; apply Rmax_l). reflexivity.
  Qed.
  Lemma ec_merge rcs : forall r, 0 <= r -> nonneg (concat (rev rcs)) ->
    map M (rev (ec r rcs)) = eo r (map M (rev rcs)).
  Proof.
    induction rcs as [|c rcs IH]; intros r Hr Hn; [reflexivity|].
    cbn [ec rev] in *. rewrite concat_app in Hn. cbn [concat] in Hn. rewrite app_nil_r in Hn.
    apply nonneg_app in Hn. destruct Hn as [H1 H2].
    rewrite !map_app. cbn [map]. rewrite eo_app.
    - rewrite IH by (auto; apply Rmax_l). rewrite eo_merge by assumption.
      replace (thick [M c]) with (thick c) by (unfold thick at 2; cbn [map rsum fold_right]; rewrite merge_thick; lra).
      reflexivity.
    - exact Hr.
    - apply nonneg_app. split.
      + intros x Hx. apply in_map_iff in Hx. destruct Hx as [c' [<- Hc']]. rewrite merge_thick.
        apply thick_nonneg. intros y Hy. apply H1. apply in_concat. exists c'. auto.
      + apply nonneg_cons. rewrite merge_thick. split; [apply thick_nonneg; exact H2|intros x []].
  Qed.
  Lemma ec_length r rcs : map (@length _) (ec r rcs) = map (@length _) rcs.
  Proof.
    revert r. induction rcs as [|c rcs IH]; intros r; [reflexivity|]. cbn [ec map]. rewrite eo_length, IH. reflexivity.
  Qed.

  Definition grouped (a : nat) (raw : stack R) : stack R := map M (tens a raw) ++ skipn (10 * a) raw.

  Lemma tens_S {B} a (l : list B) : tens (S a) l = tens a l ++ [ten l a].
  Proof. unfold tens. rewrite seq_S, map_app. reflexivity. Qed.
  Lemma tens_length {B} a (l : list B) : length (tens a l) = a.
  Proof. unfold tens. rewrite map_length, seq_length. reflexivity. Qed.
  Lemma concat_tens {B} a (l : list B) : concat (tens a l) = firstn (10 * a) l.
  Proof.
    induction a as [|a IH]; [reflexivity|]. rewrite tens_S, concat_app, IH. cbn [concat]. rewrite app_nil_r.
    unfold ten. replace (10 * S a)%nat with (10 * a + 10)%nat by lia.
    rewrite <- (firstn_skipn (10 * a) l) at 3.
    destruct (Nat.le_gt_cases (10 * a) (length l)) as [L|L].
    - rewrite firstn_app. rewrite firstn_length_le by lia.
      replace (10 * a + 10 - 10 * a)%nat with 10%nat by lia.
      rewrite (firstn_all2 (firstn (10 * a) l)) by (rewrite firstn_length; lia). reflexivity.
    - rewrite (skipn_all2 l) by lia. rewrite firstn_nil, !app_nil_r.
      rewrite (firstn_all2 l) by lia. rewrite firstn_all2 by lia. reflexivity.
  Qed.
  Lemma tens_of_concat {B} (cs : list (list B)) rest :
    (forall c, In c cs -> length c = 10%nat) -> tens (length cs) (concat cs ++ rest) = cs.
  Proof.
    revert rest. induction cs as [|c cs IH] using rev_ind; intros rest Hc; [reflexivity|].
    assert (Hc' : forall c0, In c0 cs -> length c0 = 10%nat) by (intros; apply Hc, in_or_app; auto).
    assert (Lc : length (concat cs) = (10 * length cs)%nat).
    { clear - Hc'. induction cs as [|c0 cs IH]; [reflexivity|]. cbn [concat length]. rewrite app_length.
      rewrite IH by (intros; apply Hc'; right; assumption). rewrite (Hc' c0) by (left; reflexivity). lia. }
    rewrite app_length. cbn [length]. rewrite Nat.add_1_r, tens_S, concat_app. cbn [concat].
    rewrite app_nil_r, <- app_assoc. rewrite IH by exact Hc'. f_equal. f_equal.
    unfold ten. rewrite skipn_app, Lc, Nat.sub_diag. rewrite skipn_all2 by lia. cbn [app skipn].
    rewrite firstn_app. assert (Lc10 : length c = 10%nat) by (apply Hc, in_or_app; right; left; reflexivity).
    rewrite Lc10, Nat.sub_diag, firstn_O, app_nil_r. apply firstn_all2. lia.
  Qed.
  Lemma In_tens_length {B} a (l : list B) : (10 * a <= length l)%nat ->
    forall c, In c (tens a l) -> length c = 10%nat.
  Proof.
    intros Hl c Hc. unfold tens in Hc. apply in_map_iff in Hc. destruct Hc as [k [<- Hk]]. apply in_seq in Hk.
    unfold ten. rewrite firstn_length, skipn_length. lia.
  Qed.

  Lemma grouped_eo a raw r : 0 <= r -> nonneg raw -> (10 * a <= length raw)%nat ->
    eo r (grouped a raw) = grouped a (eo r raw).
  Proof.
    intros Hr Hn Ha. unfold grouped.
    assert (Hsplit : raw = concat (tens a raw) ++ skipn (10 * a) raw).
    { rewrite concat_tens. symmetry. apply firstn_skipn. }
    assert (Hn' := Hn). rewrite Hsplit in Hn'. apply nonneg_app in Hn'. destruct Hn' as [N1 N2].
    set (r' := Rmax 0 (r - thick (skipn (10 * a) raw))).
    set (cs := rev (ec r' (rev (tens a raw)))).
    assert (Hr' : 0 <= r') by apply Rmax_l.
    assert (Hcs : map (@length _) cs = map (@length _) (tens a raw)).
    { unfold cs. rewrite map_rev, ec_length, map_rev, rev_involutive. reflexivity. }
    assert (Lcs : @length (list (lcell R)) cs = a).
    { apply (f_equal (@length _)) in Hcs. rewrite !map_length in Hcs. rewrite tens_length in Hcs. exact Hcs. }
    assert (Ecs : eo r raw = concat cs ++ eo r (skipn (10 * a) raw)).
    { rewrite Hsplit at 1. rewrite eo_app by (rewrite <- ?Hsplit; assumption). fold r'. f_equal.
      unfold cs. rewrite ec_concat; rewrite ?rev_involutive; auto. }
    assert (Lc10 : forall c, In c cs -> length c = 10%nat).
    { intros c Hc. assert (In (length c) (map (@length _) (tens a raw))) by (rewrite <- Hcs; apply in_map; exact Hc).
      apply in_map_iff in H. destruct H as [c' [<- Hc']]. apply (In_tens_length a raw); assumption. }
    rewrite Ecs.
    assert (Tcs : forall rest, tens a (concat cs ++ rest) = cs).
    { intros rest. pose proof (tens_of_concat cs rest Lc10) as T. rewrite Lcs in T. exact T. }
    rewrite Tcs.
    assert (Lcc : length (concat cs) = (10 * a)%nat).
    { assert (E : length (concat cs ++ eo r (skipn (10 * a) raw)) = length raw) by (rewrite <- Ecs; apply eo_length).
      rewrite app_length, eo_length, skipn_length in E. lia. }
    rewrite skipn_app, Lcc, Nat.sub_diag. rewrite (skipn_all2 (concat cs)) by lia. cbn [app skipn].
    rewrite eo_app.
    - f_equal. unfold cs. rewrite ec_merge; rewrite ?rev_involutive; auto.
    - exact Hr.
    - apply nonneg_app. split; [|exact N2]. intros x Hx. apply in_map_iff in Hx. destruct Hx as [c' [<- Hc']].
      rewrite merge_thick. apply thick_nonneg. intros y Hy. apply N1. apply in_concat. exists c'. auto.
  Qed.

  Lemma grouped_snoc a raw c : (10 * a <= length raw)%nat ->
    grouped a raw ++ [c] = grouped a (raw ++ [c]).
  Proof.
    intros Ha. unfold grouped. rewrite <- app_assoc. f_equal.
    - unfold tens. f_equal. apply map_ext_in. intros k Hk. apply in_seq in Hk. unfold ten.
      rewrite skipn_app, firstn_app, skipn_length.
      replace (10 - (length raw - 10 * k))%nat with 0%nat by lia. cbn [firstn]. rewrite app_nil_r. reflexivity.
    - rewrite skipn_app. replace (10 * a - length raw)%nat with 0%nat by lia. reflexivity.
  Qed.

  Lemma grouped_add a raw dz p : nonneg raw -> (10 * a <= length raw)%nat ->
    add_stack dz p (grouped a raw) = grouped a (add_stack dz p raw).
  Proof.
    intros Hn Ha. rewrite !add_stack_R. destruct (Rlt_dec dz 0) as [L|L].
    - rewrite grouped_snoc by exact Ha. apply grouped_eo; [lra| |rewrite app_length; lia].
      apply nonneg_app. split; [exact Hn|]. apply nonneg_cons. cbn. split; [lra|]. intros c [].
    - apply grouped_snoc. exact Ha.
  Qed.

  Lemma grouped_reduce a raw : (10 * a + 10 <= length raw)%nat ->
    reduce_stack a (a + 10) reducers (grouped a raw) = grouped (S a) raw.
  Proof.
    intros Ha. unfold reduce_stack, slice, grouped. rewrite tens_S, map_app, <- app_assoc. cbn [map app].
    assert (L : length (map M (tens a raw)) = a) by (rewrite map_length; apply tens_length).
    rewrite firstn_app, L, Nat.sub_diag. cbn [firstn]. rewrite app_nil_r, firstn_all2 by lia. f_equal. f_equal.
    - f_equal. rewrite skipn_app, L, Nat.sub_diag. rewrite skipn_all2 by lia. cbn [app skipn].
      replace (a + 10 - a)%nat with 10%nat by lia. reflexivity.
    - rewrite skipn_app, L. rewrite skipn_all2 by lia. cbn [app].
      replace (a + 10 - a)%nat with 10%nat by lia.
      replace (10 * S a)%nat with (10 * a + 10)%nat by lia.
      clear. revert raw. induction (10 * a)%nat as [|n IH]; intros raw; [reflexivity|].
      destruct raw; [rewrite !skipn_nil; reflexivity|apply IH].
  Qed.

  Lemma grouped_thick a raw : thick (grouped a raw) = thick raw.
  Proof.
    unfold grouped. rewrite thick_app.
    assert (E : thick (map M (tens a raw)) = thick (concat (tens a raw))).
    { induction (tens a raw) as [|c cs IH]; [reflexivity|]. cbn [map concat]. rewrite thick_app, <- IH.
      unfold thick at 1. cbn [map rsum fold_right]. rewrite merge_thick. reflexivity. }
    rewrite E, concat_tens, <- thick_app, firstn_skipn. reflexivity.
  Qed.
End Merge.

(** ** the whole history *)
Lemma raw_snoc {A} `{Num A} i j hist h : raw_stack i j (hist ++ [h])
  = add_stack (at2 n0 (fst h) i j) (map (fun kv => (fst kv, at2 n0 (snd kv) i j)) (snd h)) (raw_stack i j hist).
Proof. unfold raw_stack. rewrite fold_left_app. reflexivity. Qed.

Lemma raw_length {A} `{Num A} i j hist : length (raw_stack i j hist) = length hist.
Proof.
  induction hist as [|h hist IH] using rev_ind; [reflexivity|].
  rewrite raw_snoc, add_stack_length, app_length, IH. cbn. lia.
Qed.

Lemma raw_nonneg i j hist : nonneg (raw_stack i j hist).
Proof.
  induction hist as [|h hist IH] using rev_ind; [intros c []|]. rewrite raw_snoc. apply add_stack_nonneg. exact IH.
Qed.

Theorem archive_history (hist : list (field R * list (string * field R))) n m names : tracked names hist ->
  exists el, layer_run hist (0%nat, el_empty n m) = Ok (merged_after (length hist), el)
    /\ (el_number el + 9 * merged_after (length hist) = length hist)%nat
    /\ shaped n m (el_stacks el)
    /\ forall i j, (i < n)%nat -> (j < m)%nat ->
         at2 [] (el_stacks el) i j
         = grouped (layer_reducers names) (merged_after (length hist)) (raw_stack i j hist).
Proof.
  induction hist as [|h hist IH] using rev_ind; intros Ht.
  - exists (el_empty n m). split; [reflexivity|]. split; [reflexivity|]. split; [apply shaped_full|].
    intros i j Hi Hj. unfold el_empty. cbn [el_stacks]. rewrite at2_full by assumption. reflexivity.
  - assert (Ht' : tracked names hist) by (intros h' Hh'; apply Ht, in_or_app; left; exact Hh').
    destruct (IH Ht') as [el [E [En [Sh St]]]]. clear IH.
    destruct (archive_count hist n m names Ht') as [a' [el' [E' [_ [_ [Et [E0 _]]]]]]].
    rewrite E in E'. injection E' as <- <-.
    rewrite layer_run_snoc, E. cbn [bind].
    assert (Hh : map fst (snd h) = names) by (apply Ht, in_or_app; right; left; reflexivity).
    destruct (el_add_ok (fst h) (snd h) el names Hh) as [el1 [E1 [N1 [T1 S1]]]].
    { destruct hist as [|h0 hist]; [left; apply E0; reflexivity|right; apply Et; discriminate]. }
    set (a := merged_after (length hist)) in *.
    unfold add_and_archive. cbn [fst snd]. rewrite E1. cbn [bind]. unfold archive.
    rewrite app_length. cbn [length]. rewrite Nat.add_1_r.
    rewrite (archive_test (length hist) a) by (unfold a in *; lia).
    pose proof (merged_after_S (length hist)) as MS. fold a in MS.
    assert (Sh1 : shaped n m (el_stacks el1)) by (rewrite S1; apply shaped_fmapi; exact Sh).
    assert (St1 : forall i j, (i < n)%nat -> (j < m)%nat ->
         at2 [] (el_stacks el1) i j
         = grouped (layer_reducers names) a (raw_stack i j (hist ++ [h]))).
    { intros i j Hi Hj. rewrite S1. etransitivity; [apply (at2_fmapi (A := stack R) (B := stack R) _ n m _ []); assumption|].
      rewrite St by assumption.
      rewrite raw_snoc. apply grouped_add; [apply raw_nonneg|]. rewrite raw_length.
      unfold a. pose proof (merged_after_cases (length hist)). lia. }
    destruct (Nat.eqb_spec (S (length hist)) (10 * a + 20)) as [B|B]; rewrite MS.
    + eexists. split; [reflexivity|]. cbn [el_reduce el_number el_tracking el_stacks].
      split; [lia|]. split; [apply shaped_fmap; exact Sh1|].
      intros i j Hi Hj. etransitivity; [apply (at2_fmap (A := stack R) (B := stack R) _ n m _ []); assumption|].
      rewrite St1 by assumption. rewrite T1.
      apply grouped_reduce. rewrite raw_length, app_length. cbn. lia.
    + eexists. split; [reflexivity|]. split; [lia|]. split; [exact Sh1|]. exact St1.
Qed.

(** ** properties of merged layers *)

Lemma merged_prop reducers name f (l : list (lcell R)) :
  NoDup (map fst reducers) -> In (name, f) reducers -> (forall c, In c l -> has_prop name c) ->
  dget String.eqb (c_props (merge_cells reducers l)) name = Some (f (map (prop_of name) l)).
Proof.
  intros Hnd Hin Hl. unfold merge_cells. cbn [c_props].
  induction reducers as [|[k g] red IH]; [destruct Hin|].
  cbn [map fst] in Hnd. apply NoDup_cons_iff in Hnd. destruct Hnd as [Hk Hnd].
  cbn [flat_map fst snd]. destruct Hin as [Heq|Hin].
  - injection Heq as -> ->.
    replace (forallb _ _) with true.
    + cbn [app]. cbn [dget]. rewrite String.eqb_refl. do 2 f_equal. rewrite map_map. apply map_ext. intros c. unfold prop_of. rewrite n0_R. reflexivity.
    + symmetry. apply forallb_forall. intros v Hv. apply in_map_iff in Hv. destruct Hv as [c [<- Hc]].
      specialize (Hl c Hc). unfold has_prop in Hl.
      destruct (dget String.eqb (c_props c) name); [reflexivity|contradiction].
  - assert (Hne : name <> k) by (intros ->; apply Hk; apply (in_map fst) in Hin; exact Hin).
    rewrite <- IH by assumption.
    destruct (forallb _ _); cbn [app]; [|reflexivity].
    cbn [dget]. destruct (String.eqb_spec name k); [contradiction|reflexivity].
Qed.

Lemma layer_reducers_nodup names : NoDup (map fst (@layer_reducers R _ names)).
Proof.
  unfold layer_reducers. destruct (existsb _ names); cbn;
    repeat (constructor; [cbn; intuition discriminate|]); constructor.
Qed.

Lemma np_max_R (l : list R) : l <> [] -> greatest l (np_max l).
Proof.
  destruct l as [|a l]; [contradiction|intros _]. unfold np_max.
  assert (G : forall l a, In (fold_left nmax l a) (a :: l) /\ forall b, In b (a :: l) -> b <= fold_left nmax l a).
  { clear. induction l as [|b l IH]; intros a; cbn [fold_left].
    - split; [left; reflexivity|]. intros b [<-|[]]. lra.
    - destruct (IH (nmax a b)) as [I1 I2]. rewrite nmax_R in *. split.
      + destruct I1 as [E|I1]; [|right; right; exact I1]. rewrite <- E.
        unfold Rmax. destruct (Rle_dec a b); [right; left; reflexivity|left; reflexivity].
      + intros c [<-|[<-|Hc]].
        * eapply Rle_trans; [apply (Rmax_l a b)|]. apply I2. left; reflexivity.
        * eapply Rle_trans; [apply (Rmax_r a b)|]. apply I2. left; reflexivity.
        * apply I2. right; exact Hc. }
  exact (G l a).
Qed.

Lemma rsum_le_max l b : (forall a, In a l -> a <= b) -> rsum l <= INR (length l) * b.
Proof.
  induction l as [|a l IH]; intros Hl; [cbn; lra|].
  change (rsum (a :: l)) with (a + rsum l). change (length (a :: l)) with (S (length l)). rewrite S_INR.
  pose proof (Hl a (or_introl eq_refl)). assert (rsum l <= INR (length l) * b) by (apply IH; intros; apply Hl; right; assumption).
  lra.
Qed.
Lemma rsum_ge_min l b : (forall a, In a l -> b <= a) -> INR (length l) * b <= rsum l.
Proof.
  induction l as [|a l IH]; intros Hl; [cbn; lra|].
  change (rsum (a :: l)) with (a + rsum l). change (length (a :: l)) with (S (length l)). rewrite S_INR.
  pose proof (Hl a (or_introl eq_refl)). assert (INR (length l) * b <= rsum l) by (apply IH; intros; apply Hl; right; assumption).
  lra.
Qed.

Lemma np_mean_R (l : list R) : l <> [] -> between l (np_mean l).
Proof.
  intros Hl. unfold np_mean. rewrite nsum_rsum, nofnat_R. numR.
  assert (P : 0 < INR (length l)) by (apply lt_0_INR; destruct l; [contradiction|cbn; lia]).
  assert (Mx : exists b, greatest l b) by (exists (np_max l); apply np_max_R; exact Hl).
  assert (Mn : exists b, greatest (map Ropp l) b).
  { exists (np_max (map Ropp l)). apply np_max_R. destruct l; [contradiction|discriminate]. }
  destruct Mx as [b [Hb Hb']], Mn as [c [Hc Hc']].
  apply in_map_iff in Hc. destruct Hc as [a [<- Ha]].
  split.
  - exists a. split; [exact Ha|]. apply (Rmult_le_reg_l _ _ _ P).
    replace (INR (length l) * (rsum l / INR (length l))) with (rsum l) by (field; lra).
    apply rsum_ge_min. intros x Hx. specialize (Hc' (- x) (in_map Ropp _ _ Hx)). lra.
  - exists b. split; [exact Hb|]. apply (Rmult_le_reg_l _ _ _ P).
    replace (INR (length l) * (rsum l / INR (length l))) with (rsum l) by (field; lra).
    apply rsum_le_max. exact Hb'.
Qed.

Lemma slice_split {B} start stop (l : list B) : (start <= stop)%nat ->
  l = firstn start l ++ slice start stop l ++ skipn stop l.
Proof.
  intros Hs. unfold slice. rewrite <- (firstn_skipn start l) at 1. f_equal.
  rewrite <- (firstn_skipn (stop - start) (skipn start l)) at 1. f_equal.
  clear - Hs. revert stop Hs l. induction start as [|s IH]; intros stop Hs l; [cbn; rewrite Nat.sub_0_r; reflexivity|].
  destruct stop as [|t]; [lia|]. destruct l as [|x l]; [rewrite !skipn_nil; reflexivity|].
  cbn [Nat.sub skipn]. apply IH. lia.
Qed.

Lemma slice_nonempty {B} start stop (l : list B) : (start < stop <= length l)%nat -> slice start stop l <> [].
Proof.
  intros Hs E. apply (f_equal (@length _)) in E. unfold slice in E.
  rewrite firstn_length, skipn_length in E. cbn in E. lia.
Qed.

Lemma reduce_thick start stop reducers (st : stack R) : (start <= stop)%nat ->
  thick (reduce_stack start stop reducers st) = thick st.
Proof.
  intros Hs. rewrite (slice_split start stop st Hs) at 2. unfold reduce_stack.
  rewrite !thick_app. change (thick (?c :: ?l)) with (c_dz c + thick l).
  rewrite merge_thick. reflexivity.
Qed.
Lemma reduce_nonneg start stop reducers (st : stack R) : (start <= stop)%nat ->
  nonneg st -> nonneg (reduce_stack start stop reducers st).
Proof.
  intros Hs Hn. rewrite (slice_split start stop st Hs) in Hn. apply nonneg_app in Hn. destruct Hn as [N1 Hn].
  apply nonneg_app in Hn. destruct Hn as [N2 N3].
  unfold reduce_stack. apply nonneg_app. split; [exact N1|]. apply nonneg_cons. split; [|exact N3].
  rewrite merge_thick. apply thick_nonneg. exact N2.
Qed.

Lemma has_slice start stop (st : stack R) name : (forall c, In c st -> has_prop name c) ->
  forall c, In c (slice start stop st) -> has_prop name c.
Proof.
  intros Hst c Hc. apply Hst. unfold slice in Hc.
  rewrite <- (firstn_skipn start st). apply in_or_app. right.
  rewrite <- (firstn_skipn (stop - start) (skipn start st)). apply in_or_app. left. exact Hc.
Qed.

Lemma reduce_t0 start stop names (st : stack R) : (start <= stop)%nat ->
  (forall c, In c st -> has_prop "t0" c) ->
  rsum (map (prop_of "t0") (reduce_stack start stop (layer_reducers names) st)) = rsum (map (prop_of "t0") st).
Proof.
  intros Hs Hst. rewrite (slice_split start stop st Hs) at 2. unfold reduce_stack.
  rewrite !map_app, !rsum_app. f_equal. cbn [map]. 
  change (rsum (?c :: ?l)) with (c + rsum l). f_equal. unfold prop_of at 1.
  rewrite (merged_prop _ "t0" np_sum).
  - apply nsum_rsum.
  - apply layer_reducers_nodup.
  - right; right; left; reflexivity.
  - apply has_slice. exact Hst.
Qed.

Lemma merged_age names (l : list (lcell R)) : l <> [] -> (forall c, In c l -> has_prop "age" c) ->
  greatest (map (prop_of "age") l) (prop_of "age" (merge_cells (layer_reducers names) l)).
Proof.
  intros Hl Hp. unfold prop_of at 2. rewrite (merged_prop _ "age" np_max).
  - apply np_max_R. destruct l; [contradiction|discriminate].
  - apply layer_reducers_nodup.
  - left; reflexivity.
  - exact Hp.
Qed.

Lemma merged_mean names name (l : list (lcell R)) : l <> [] -> (forall c, In c l -> has_prop name c) ->
  In name ["water_depth"; "porosity"]%string \/ (name = "percent_sand"%string /\ In name names) ->
  between (map (prop_of name) l) (prop_of name (merge_cells (layer_reducers names) l)).
Proof.
  intros Hl Hp Hn. unfold prop_of at 2. rewrite (merged_prop _ name np_mean).
  - apply np_mean_R. destruct l; [contradiction|discriminate].
  - apply layer_reducers_nodup.
  - unfold layer_reducers. destruct Hn as [[<-|[<-|[]]]|[-> Hn]].
    + right; left; reflexivity.
    + right; right; right; left; reflexivity.
    + replace (existsb _ names) with true.
      * right; right; right; right; left; reflexivity.
      * symmetry. apply existsb_exists. exists "percent_sand"%string. split; [exact Hn|reflexivity].
  - exact Hp.
Qed.

Lemma nondecreasing_app l1 l2 : nondecreasing (l1 ++ l2) <->
  nondecreasing l1 /\ nondecreasing l2 /\ forall a b, In a l1 -> In b l2 -> a <= b.
Proof.
  unfold nondecreasing. rewrite app_length. split.
  - intros Hn. split; [|split].
    + intros i j Hij. specialize (Hn i j ltac:(lia)). rewrite !app_nth1 in Hn by lia. exact Hn.
    + intros i j Hij. specialize (Hn (length l1 + i) (length l1 + j) ltac:(lia))%nat.
      rewrite !app_nth2 in Hn by lia. replace (length l1 + i - length l1)%nat with i in Hn by lia.
      replace (length l1 + j - length l1)%nat with j in Hn by lia. exact Hn.
    + intros a b Ha Hb. apply (In_nth _ _ 0) in Ha, Hb. destruct Ha as [i [Hi <-]], Hb as [j [Hj <-]].
      specialize (Hn i (length l1 + j) ltac:(lia))%nat. rewrite app_nth1 in Hn by lia.
      rewrite app_nth2 in Hn by lia. replace (length l1 + j - length l1)%nat with j in Hn by lia. exact Hn.
  - intros [H1 [H2 H3]] i j Hij. destruct (Nat.lt_ge_cases j (length l1)) as [L|L].
    + rewrite !app_nth1 by lia. apply H1. lia.
    + rewrite (app_nth2 l1 l2 0 L). destruct (Nat.lt_ge_cases i (length l1)) as [L'|L'].
      * rewrite app_nth1 by lia. apply H3; apply nth_In; lia.
      * rewrite app_nth2 by lia. apply H2. lia.
Qed.

Lemma reduce_ages start stop names (st : stack R) : (start < stop <= length st)%nat ->
  (forall c, In c st -> has_prop "age" c) ->
  nondecreasing (map (prop_of "age") st) ->
  nondecreasing (map (prop_of "age") (reduce_stack start stop (layer_reducers names) st)).
Proof.
  intros Hs Hst Hn.
  destruct (merged_age names (slice start stop st) (slice_nonempty _ _ _ Hs) (has_slice _ _ _ _ Hst)) as [G1 G2].
  rewrite (slice_split start stop st ltac:(lia)) in Hn. unfold reduce_stack.
  rewrite !map_app in *. cbn [map]. set (v := prop_of "age" (merge_cells _ _)) in *.
  apply nondecreasing_app in Hn. destruct Hn as [N1 [N2 N3]].
  apply nondecreasing_app in N2. destruct N2 as [N2 [N4 N5]].
  apply nondecreasing_app. split; [exact N1|]. split.
  - change (v :: ?l) with ([v] ++ l). apply nondecreasing_app. split.
    + intros i j Hij. cbn in Hij. lia.
    + split; [exact N4|]. intros a b [<-|[]] Hb. apply N5; assumption.
  - intros a b Ha [<-|Hb]; apply N3; try assumption; apply in_or_app; auto.
Qed.

Lemma reduce_length {A} `{Num A} start stop reducers (st : stack A) : (start < stop <= length st)%nat ->
  length (reduce_stack start stop reducers st) = (length st - (stop - start) + 1)%nat.
Proof.
  intros Hs. unfold reduce_stack. rewrite app_length. cbn [length]. rewrite firstn_length, skipn_length. lia.
Qed.

Lemma nth_reduce {A} `{Num A} start stop reducers (st : stack A) d : (start < stop <= length st)%nat ->
  nth start (reduce_stack start stop reducers st) d = merge_cells reducers (slice start stop st).
Proof.
  intros Hs. unfold reduce_stack. assert (L : length (firstn start st) = start) by (rewrite firstn_length; lia).
  rewrite app_nth2 by lia. rewrite L, Nat.sub_diag. reflexivity.
Qed.

(** ** runs of operations on one column *)

Lemma stack_run_inv ops (st : stack R) : nonneg st -> merges_ok ops ->
  nonneg (stack_run ops st) /\ thick (stack_run ops st) = column_total (thick st) (lays ops).
Proof.
  revert st. induction ops as [|op ops IH]; intros st Hn Hm; [split; [exact Hn|reflexivity]|].
  assert (Hm' : merges_ok ops) by (intros s e r Hin; apply (Hm s e r); right; exact Hin).
  change (stack_run (op :: ops) st) with (stack_run ops (stack_exec st op)).
  destruct op as [dz p|s e r].
  - cbn [stack_exec]. destruct (IH (add_stack dz p st)) as [N T]; [apply add_stack_nonneg; exact Hn|exact Hm'|].
    split; [exact N|]. rewrite T, add_stack_thick by exact Hn. reflexivity.
  - cbn [stack_exec]. assert (Hse : (s <= e)%nat) by (apply (Hm s e r); left; reflexivity).
    destruct (IH (reduce_stack s e r st)) as [N T]; [apply reduce_nonneg; assumption|exact Hm'|].
    split; [exact N|]. rewrite T, reduce_thick by exact Hse. reflexivity.
Qed.

Lemma raw_thick i j hist :
  thick (raw_stack i j hist) = column_total 0 (map (fun h => at2 n0 (fst h) i j) hist).
Proof.
  induction hist as [|h hist IH] using rev_ind; [reflexivity|].
  rewrite raw_snoc, add_stack_thick by apply raw_nonneg.
  rewrite map_app. unfold column_total at 1. rewrite fold_left_app. cbn [map fold_left].
  fold (column_total 0 (map (fun h0 => at2 n0 (fst h0) i j) hist)). rewrite IH. reflexivity.
Qed.

Theorem archived_totals (hist : list (field R * list (string * field R))) n m names a el i j : tracked names hist ->
  layer_run hist (0%nat, el_empty n m) = Ok (a, el) -> (i < n)%nat -> (j < m)%nat ->
  at2 0 (el_thickness el) i j = column_total 0 (map (fun h => at2 0 (fst h) i j) hist).
Proof.
  intros Ht E Hi Hj. destruct (archive_history hist n m names Ht) as [el' [E' [_ [Sh St]]]].
  rewrite E in E'. injection E' as -> <-. unfold el_thickness.
  etransitivity; [apply (at2_fmap (A := stack R) (B := R) _ n m _ []); assumption|].
  rewrite St by assumption. rewrite thickness_R, grouped_thick, raw_thick. rewrite n0_R. reflexivity.
Qed.

Theorem recent_layers (hist : list (field R * list (string * field R))) n m names a el i j : tracked names hist ->
  layer_run hist (0%nat, el_empty n m) = Ok (a, el) -> (i < n)%nat -> (j < m)%nat ->
  at2 [] (el_stacks el) i j
  = map (merge_cells (layer_reducers names)) (tens (merged_after (length hist)) (raw_stack i j hist))
    ++ skipn (10 * merged_after (length hist)) (raw_stack i j hist).
Proof.
  intros Ht E Hi Hj. destruct (archive_history hist n m names Ht) as [el' [E' [_ [Sh St]]]].
  rewrite E in E'. injection E' as -> <-. apply St; assumption.
Qed.

Theorem archive_counts {A} `{Num A} (hist : list (field A * list (string * field A))) n m names : tracked names hist ->
  exists el, layer_run hist (0%nat, el_empty n m) = Ok (merged_after (length hist), el)
    /\ el_number el = (length hist - 9 * merged_after (length hist))%nat
    /\ (length hist < 20 -> el_number el = length hist)%nat
    /\ (20 <= length hist -> 10 <= length hist - 10 * merged_after (length hist) < 20)%nat.
Proof.
  intros Ht. destruct (archive_count hist n m names Ht) as [a [el [E [Ea [En _]]]]].
  exists el. rewrite E, Ea. split; [reflexivity|]. subst a.
  pose proof (merged_after_cases (length hist)). lia.
Qed.

Theorem merging_preserves start stop names (st : stack R) : (start < stop <= length st)%nat ->
  (forall c name, In c st -> In name ["age"; "water_depth"; "t0"; "porosity"]%string -> has_prop name c) ->
  let st' := reduce_stack start stop (layer_reducers names) st in
  let merged := slice start stop st in
  let new := nth start st' (mkCell 0 []) in
  length st' = (length st - (stop - start) + 1)%nat
  /\ thick st' = thick st
  /\ rsum (map (prop_of "t0") st') = rsum (map (prop_of "t0") st)
  /\ greatest (map (prop_of "age") merged) (prop_of "age" new)
  /\ (nondecreasing (map (prop_of "age") st) -> nondecreasing (map (prop_of "age") st'))
  /\ between (map (prop_of "water_depth") merged) (prop_of "water_depth" new)
  /\ between (map (prop_of "porosity") merged) (prop_of "porosity" new)
  /\ (In "percent_sand"%string names -> (forall c, In c st -> has_prop "percent_sand" c) ->
      between (map (prop_of "percent_sand") merged) (prop_of "percent_sand" new)).
Proof.
  intros Hs Hp st' merged new.
  assert (En : new = merge_cells (layer_reducers names) merged) by (apply nth_reduce; exact Hs).
  assert (Hm : merged <> []) by (apply slice_nonempty; exact Hs).
  split; [apply reduce_length; exact Hs|]. split; [apply reduce_thick; lia|].
  split; [apply reduce_t0; [lia|]; intros c Hc; apply Hp; [exact Hc|right; right; left; reflexivity]|].
  rewrite En. split.
  { apply merged_age; [exact Hm|]. apply has_slice. intros c Hc. apply Hp; [exact Hc|left; reflexivity]. }
  split.
  { apply reduce_ages; [exact Hs|]. intros c Hc. apply Hp; [exact Hc|left; reflexivity]. }
  split.
  { apply merged_mean; [exact Hm| |left; left; reflexivity]. apply has_slice. intros c Hc.
    apply Hp; [exact Hc|right; left; reflexivity]. }
  split.
  { apply merged_mean; [exact Hm| |left; right; left; reflexivity]. apply has_slice. intros c Hc.
    apply Hp; [exact Hc|right; right; right; left; reflexivity]. }
  intros Hn Hps. apply merged_mean; [exact Hm| |right; split; [reflexivity|exact Hn]]. apply has_slice. exact Hps.
Qed.

Theorem stack_totals ops : merges_ok ops ->
  (forall c, In c (stack_run ops []) -> 0 <= c_dz c)
  /\ thick (stack_run ops []) = column_total 0 (lays ops).
Proof. intros Hm. apply (stack_run_inv ops [] ltac:(intros c []) Hm). Qed.

Theorem erosion_from_top ops dz props i j d : merges_ok ops ->
  (i < j <= length (stack_run ops []))%nat ->
  c_dz (nth i (stack_run (ops ++ [Lay dz props]) []) d) <> c_dz (nth i (stack_run ops []) d) ->
  c_dz (nth j (stack_run (ops ++ [Lay dz props]) []) d) = 0.
Proof.
  intros Hm Hij. unfold stack_run. rewrite fold_left_app. cbn [fold_left stack_exec].
  apply add_stack_order; [|unfold stack_run in Hij; lia].
  apply (stack_run_inv ops [] ltac:(intros c []) Hm).
Qed.

Theorem laying_keeps_properties {A} `{Num A} ops dz props :
  map c_props (stack_run (ops ++ [Lay dz props]) []) = map c_props (stack_run ops []) ++ [props].
Proof. unfold stack_run. rewrite fold_left_app. cbn [fold_left stack_exec]. apply add_stack_props. Qed.
