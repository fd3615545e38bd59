(** The ages of layers when the clock is kept in doubles. *)
From Coq Require Import String List ZArith QArith Reals Lra Lia Bool Floats.SpecFloat Sorting.Sorted Arith.
From Flocq Require Import Core.
From Verif.Base Require Import Num Py Arr.
From Verif.Model Require Import Layers Grid Archive Sequence SequenceModel.
From Verif.Spec Require Import Strata Column Laid Doubles DoubleLayers.
From Verif.Proofs Require Import SequenceP LayersP LaidP ModelOutputP ClockP DoubleP DoublesP DoubleLayersP StartsP.
Import ListNotations.
Local Open Scope R_scope.

Lemma rising_app {A} (rel : A -> A -> Prop) l1 l2 : StronglySorted rel (l1 ++ l2)
  <-> StronglySorted rel l1 /\ StronglySorted rel l2 /\ forall x y, In x l1 -> In y l2 -> rel x y.
Proof.
  induction l1 as [|a l1 IH]; cbn [app].
  - split; [intros S; split; [constructor|split; [exact S|intros x y []]]|intros [_ [S _]]; exact S].
  - split.
    + intros S. apply StronglySorted_inv in S. destruct S as [S F]. apply IH in S. destruct S as [S1 [S2 S3]].
      rewrite Forall_forall in F. split; [constructor; [exact S1|apply Forall_forall; intros x Hx; apply F, in_or_app; left; exact Hx]|].
      split; [exact S2|]. intros x y [<-|Hx] Hy; [apply F, in_or_app; right; exact Hy|]. exact (S3 x y Hx Hy).
    + intros [S1 [S2 S3]]. apply StronglySorted_inv in S1. destruct S1 as [S1 F]. constructor.
      * apply IH. split; [exact S1|]. split; [exact S2|]. intros x y Hx Hy. apply S3; [right; exact Hx|exact Hy].
      * apply Forall_app. split; [exact F|]. apply Forall_forall. intros y Hy. apply S3; [left; reflexivity|exact Hy].
Qed.

Lemma skipn_more {A} a b (l : list A) : skipn b (skipn a l) = skipn (a + b) l.
Proof. revert l. induction a as [|a IH]; intros [|x l]; cbn [skipn Nat.add]; [reflexivity..| |exact (IH l)]. destruct b; reflexivity. Qed.
Section Rel.
  Variable rel : b64 -> b64 -> Prop.
  Notation rising := (StronglySorted rel).
(* a column whose ages are the numbers l *)
Definition aged (st : stack b64) (l : list b64) : Prop := ages st = map Some l /\ Forall a_number l /\ rising l.
Lemma aged_add dz p st l t : aged st l -> dget String.eqb p "age"%string = Some t -> a_number t ->
  (forall x, In x l -> rel x t) -> aged (add_stack dz p st) (l ++ [t]).
Proof.
  intros [E [F S]] P N U. split; [|split].
  - unfold ages in *. transitivity (map (fun p => dget String.eqb p "age"%string) (map c_props (add_stack dz p st))); [rewrite map_map; reflexivity|].
    rewrite add_stack_props, map_app, map_map, E, map_app. cbn [map]. rewrite P. reflexivity.
  - apply Forall_app. split; [exact F|]. constructor; [exact N|constructor].
  - apply (rising_app rel). split; [exact S|]. split; [constructor; [constructor|constructor]|]. intros x y Hx [<-|[]]. exact (U x Hx).
Qed.
Lemma aged_reduce tracking a b st l : (a < b)%nat -> (b <= length st)%nat -> aged st l ->
  exists v, In v l /\ aged (reduce_stack a b (layer_reducers tracking) st) (firstn a l ++ v :: skipn b l).
Proof.
  intros Hab Hb [E [F S]]. set (sl := firstn (b - a) (skipn a l)).
  assert (Ll : length l = length st).
  { apply (f_equal (@length _)) in E. unfold ages in E. rewrite !map_length in E. symmetry. exact E. }
  assert (D : l = firstn a l ++ sl ++ skipn b l).
  { rewrite <- (firstn_skipn a l) at 1. f_equal. unfold sl. rewrite <- (firstn_skipn (b - a) (skipn a l)) at 1. f_equal.
    rewrite skipn_more. f_equal. lia. }
  assert (Es : map (fun c => dget String.eqb (c_props c) "age"%string) (slice a b st) = map Some sl).
  { unfold slice, sl. rewrite <- !firstn_map, <- !skipn_map. unfold ages in E. rewrite E. reflexivity. }
  destruct sl as [|v0 vs] eqn:Esl.
  { exfalso. apply (f_equal (@length _)) in Es. rewrite map_length in Es. unfold slice in Es. rewrite firstn_length, skipn_length in Es. cbn in Es. lia. }
  assert (Fs : Forall a_number (v0 :: vs)) by (rewrite D in F; apply Forall_app in F; destruct F as [_ F]; apply Forall_app in F; apply F).
  set (v := np_max (v0 :: vs)). assert (Iv : In v (v0 :: vs)) by apply np_max_In.
  exists v. split; [rewrite D; apply in_or_app; right; apply in_or_app; left; exact Iv|].
  split; [|split].
  - unfold ages, reduce_stack. rewrite map_app. cbn [map]. rewrite <- firstn_map, <- skipn_map. unfold ages in E. rewrite E.
    rewrite map_app. cbn [map]. rewrite firstn_map, skipn_map. f_equal. f_equal.
    unfold merge_cells. cbn [c_props layer_reducers app flat_map fst snd]. rewrite Es.
    replace (forallb _ (map Some (v0 :: vs))) with true by (symmetry; apply forallb_forall; intros x Hx; apply in_map_iff in Hx; destruct Hx as [y [<- _]]; reflexivity).
    cbn [app dget]. rewrite String.eqb_refl, map_map, map_id. reflexivity.
  - rewrite D in F. apply Forall_app in F. destruct F as [F1 F]. apply Forall_app in F. destruct F as [F2 F3].
    apply Forall_app. split; [exact F1|]. constructor; [|exact F3]. rewrite Forall_forall in F2. exact (F2 v Iv).
  - rewrite D in S. apply (rising_app rel) in S. destruct S as [S1 [S2 S3]]. apply (rising_app rel) in S2. destruct S2 as [S4 [S5 S6]].
    apply (rising_app rel). split; [exact S1|]. split.
    + constructor; [exact S5|]. apply Forall_forall. intros y Hy. exact (S6 v y Iv Hy).
    + intros x y Hx [<-|Hy]; [apply S3; [exact Hx|apply in_or_app; left; exact Iv]|]. apply S3; [exact Hx|apply in_or_app; right; exact Hy].
Qed.

(* any history of layers dated by rising times *)
Lemma run_aged hist n m i j : (i < n)%nat -> (j < m)%nat -> forall a el ts,
  layer_run hist (0%nat, el_empty n m) = Ok (a, el) ->
  Forall2 (fun t h => dget String.eqb (snd (cell_of i j h)) "age"%string = Some t) ts hist ->
  Forall a_number ts -> rising ts ->
  exists l, aged (at2 (A := stack b64) [] (el_stacks el) i j) l /\ incl l ts /\ length (at2 (A := stack b64) [] (el_stacks el) i j) = el_number el.
Proof.
  intros Hi Hj. induction hist as [|h hist IH] using rev_ind; intros a el ts E F2 N S.
  - injection E as <- <-. exists []. cbn [el_empty el_stacks el_number]. rewrite at2_full by assumption.
    split; [split; [reflexivity|split; constructor]|]. split; [intros x []|reflexivity].
  - rewrite layer_run_snoc in E. destruct (layer_run hist (0%nat, el_empty n m)) as [[a0 el0]|] eqn:E0; [|discriminate].
    apply Forall2_app_inv_r in F2. destruct F2 as [ts0 [ts1 [F0 [F1 ->]]]].
    inversion F1 as [|t ? ? ? Ht F1']; subst. inversion F1'; subst.
    apply Forall_app in N. destruct N as [N0 N1]. inversion N1 as [|? ? Nt _]; subst.
    apply (rising_app rel) in S. destruct S as [S0 [_ S1]].
    destruct (IH _ _ _ eq_refl F0 N0 S0) as [l [Al [Il Ln]]]. clear IH.
    cbn [bind] in E. destruct (run_counts _ _ _ _ _ E0) as [Ea [En [Ep [Et Sh]]]].
    unfold add_and_archive in E. cbn [fst snd] in E.
    destruct (el_add (fst h) (snd h) el0) as [el1|] eqn:E1; [|discriminate]. cbn [bind] in E.
    destruct (el_add_inv _ _ _ _ E1) as [Nu [T1 St1]].
    assert (Sh1 : shaped n m (el_stacks el1)) by (rewrite St1; apply shaped_fmapi; exact Sh).
    assert (C1 : at2 (A := stack b64) [] (el_stacks el1) i j = add_stack (at2 n0 (fst h) i j) (snd (cell_of i j h)) (at2 (A := stack b64) [] (el_stacks el0) i j)).
    { rewrite St1. exact (at2_fmapi _ _ _ _ [] [] _ _ Sh Hi Hj). }
    assert (A1 : aged (at2 (A := stack b64) [] (el_stacks el1) i j) (l ++ [t])).
    { rewrite C1. apply aged_add; [exact Al|exact Ht|exact Nt|]. intros x Hx. apply S1; [exact (Il x Hx)|left; reflexivity]. }
    assert (L1 : length (at2 (A := stack b64) [] (el_stacks el1) i j) = S (el_number el0)).
    { rewrite C1. rewrite <- (map_length c_props), add_stack_props, app_length, map_length. cbn. rewrite Ln. lia. }
    assert (I1 : incl (l ++ [t]) (ts0 ++ [t])) by (apply incl_app; [apply incl_appl; exact Il|apply incl_appr, incl_refl]).
    unfold archive in E. rewrite (archive_test (length hist) a0) in E by lia.
    destruct (Nat.eqb_spec (S (length hist)) (10 * a0 + 20)) as [B|B]; injection E as <- <-.
    + assert (L2 : (a0 + 10 <= length (at2 (A := stack b64) [] (el_stacks el1) i j))%nat) by (rewrite L1; lia).
      destruct (aged_reduce (el_tracking el1) a0 (a0 + 10) _ _ ltac:(lia) L2 A1) as [v [Iv Av]].
      eexists. cbn [el_reduce el_stacks el_number].
      rewrite (at2_fmap (A := stack b64) (B := stack b64) _ n m _ [] [] i j Sh1 Hi Hj). split; [exact Av|]. split.
      * intros x Hx. apply I1. apply in_app_or in Hx. destruct Hx as [Hx|[<-|Hx]].
        -- rewrite <- (firstn_skipn a0 (l ++ [t])). apply in_or_app. left. exact Hx.
        -- exact Iv.
        -- rewrite <- (firstn_skipn (a0 + 10) (l ++ [t])). apply in_or_app. right. exact Hx.
      * unfold reduce_stack. rewrite app_length. cbn [length]. rewrite firstn_length, skipn_length, L1, Nu. lia.
    + exists (l ++ [t]). split; [exact A1|]. split; [exact I1|]. rewrite L1, Nu. reflexivity.
Qed.

End Rel.

(** ** a run *)
Lemma step_past x s : a_number x -> a_number s -> 0 <= value s -> forall t, a_number t -> nltb t (nadd x s) = false -> a_number (nadd x s).
Proof.
  intros X S P t T L. change nadd with (SFadd prec64 emax64) in *. change nltb with SFltb in L. exact (add_not_past x s t X S T P L).
Qed.
Lemma still x s : a_number x -> a_number s -> 0 < value s -> a_number (nadd x s) -> value (nadd x s) <= value x -> nadd x s = x.
Proof.
  intros X S P Na L. change nadd with (SFadd prec64 emax64) in *.
  assert (U : value x <= value (SFadd prec64 emax64 x s)).
  { apply (ltb_value_false _ _ Na X). apply add_not_less; [exact X|exact S|lra]. }
  assert (E : value (SFadd prec64 emax64 x s) = value x) by lra. clear U L. exact (add_same x s X S P Na E).
Qed.
Lemma run_dated {W} (pr : processes b64 W) stop fuel : a_number stop -> forall m m',
  model_run fuel pr m = Some (Ok m') -> ck_stop (sm_clock m) = Some stop -> a_number (ck_step (sm_clock m)) -> 0 < value (ck_step (sm_clock m)) ->
  a_number (ck_time (sm_clock m)) ->
  exists gs, model_history pr m gs m' /\ Forall a_number (map (fun x => fst (fst x)) gs)
    /\ StronglySorted (fun x y => value x < value y) (ck_time (sm_clock m) :: map (fun x => fst (fst x)) gs)
    /\ Forall (fun t => value t <= value stop) (map (fun x => fst (fst x)) gs).
Proof.
  intros Ns. induction fuel as [|fuel IH]; intros m m' E Cs Nd Pd Nt; [discriminate|]. assert (E' := E). cbn [model_run] in E.
  assert (O := one_step_any pr m stop Cs).
  destruct (run_one_step pr None m) as [m1|m1|e] eqn:E1; [| |discriminate E].
  - destruct (nltb stop (nadd (ck_time (sm_clock m)) (ck_step (sm_clock m)))) eqn:L; [discriminate O|].
    destruct (advance_components pr (ck_step (sm_clock m)) (atick m)) as [m2|] eqn:Ea; [|discriminate O]. injection O as <-.
    assert (Ec := advance_clock _ _ _ _ Ea). cbn [atick sm_clock] in Ec.
    assert (N1 := step_past _ _ Nt Nd (Rlt_le _ _ Pd) stop Ns L).
    assert (Up : value (ck_time (sm_clock m)) < value (nadd (ck_time (sm_clock m)) (ck_step (sm_clock m)))).
    { apply Rnot_le_lt. intros Le. apply (still _ _ Nt Nd Pd N1) in Le. apply (stuck pr (S fuel) m m' stop Cs Le); [rewrite Le in L; exact L|exact E']. }
    destruct (IH m1 m' E) as [gs [Hh [Fn [Ri Fu]]]]; [rewrite Ec; assumption..|]. rewrite Ec in Ri. cbn [ck_time] in Ri.
    assert (Ea' := Ea). unfold advance_components in Ea'. okinv Ea' E0.
    destruct (run_components (pr_components pr) (ck_step (sm_clock m)) (sm_world (atick m), a)) as [[w g1]|] eqn:Er; [|discriminate Ea'].
    eexists. split; [eapply mh_step with (d := ck_step (sm_clock m)); [exact E1|reflexivity|exists a, w; split; [exact E0|exact Er]|exact Hh]|].
    cbn [map fst]. rewrite Ec. cbn [ck_time].
    split; [constructor; [exact N1|exact Fn]|]. split.
    + constructor; [exact Ri|]. constructor; [exact Up|]. apply StronglySorted_inv in Ri. destruct Ri as [_ Ri].
      revert Ri. apply Forall_impl. intros x Hx. lra.
    + constructor; [|exact Fu]. change nltb with SFltb in L. apply (ltb_value_false _ _ Ns N1) in L. exact L.
  - injection E as <-. destruct (stop_same _ _ _ _ E1). exists []. split; [eapply mh_params; [eassumption|eassumption|constructor]|].
    split; [constructor|]. split; [constructor; constructor|constructor].
Qed.
Lemma aged_dated lo hi st l : aged (fun x y => value x < value y) st l -> (forall a, In a l -> value lo <= value a <= Rmax (value lo) (value hi)) -> dated_upward lo hi st.
Proof.
  intros [E [F S]] B. exists l. split; [exact E|]. split.
  - intros a Ha. rewrite Forall_forall in F. split; [exact (F a Ha)|exact (B a Ha)].
  - clear -S. induction S as [|x l S IH Fx]; intros [|i] [|j] a b L H1 H2; try lia; try discriminate; cbn [nth_error] in *.
    + injection H1 as <-. apply nth_error_In in H2. rewrite Forall_forall in Fx. exact (Fx b H2).
    + apply (IH i j a b); [lia|assumption..].
Qed.
Theorem model_ages {W} (pr : processes b64 W) w (g : grid b64) start stop step fuel m m' i j :
  whole_grid g -> layers g = el_empty (g_rows g) (g_cols g - 2) ->
  Forall keeps_whole (pr_components pr) -> Forall keeps_layers (pr_components pr) ->
  a_number start -> a_number stop -> a_number step -> 0 < value step ->
  model_init pr w g (clock_init start (Some stop) step) = Ok m -> model_run fuel pr m = Some (Ok m') ->
  (i < g_rows g)%nat -> (j < g_cols g - 2)%nat ->
  dated_upward start stop (at2 [] (el_stacks (layers (sm_grid m'))) i j).
Proof.
  intros Hw Hl0 Hk Hl N0 N1 N2 P2 Ei Er Hi Hj. destruct (model_init_laid _ _ _ _ _ Hw Hl0 Ei) as [Hw1 [R1 [C1 [h0 [E0 D0]]]]].
  assert (Ck := StartsP.model_init_clock _ _ _ _ _ Ei).
  destruct (run_dated pr stop fuel N1 m m' Er) as [gs [Hh [Fn [Ri Fu]]]]; [rewrite Ck; assumption || reflexivity..|].
  rewrite Ck in Ri. cbn [clock_init ck_time] in Ri.
  destruct (model_history_laid _ _ _ _ Hk Hl Hh Hw1) as [Hw' [R2 [C2 [hist [E1 [Lh F]]]]]].
  assert (Er' : layer_run ([h0] ++ hist) (0%nat, el_empty (g_rows g) (g_cols g - 2)) = Ok (sm_archived m', layers (sm_grid m'))).
  { rewrite layer_run_app, E0. exact E1. }
  destruct (run_aged (fun x y => value x < value y) _ _ _ i j Hi Hj _ _ (start :: map (fun x => fst (fst x)) gs) Er') as [l [Al [Il _]]].
  - cbn [app]. constructor.
    + destruct (D0 i j Hi Hj) as [z0 [_ Ez]]. rewrite Ez. reflexivity.
    + specialize (F i j ltac:(rewrite R1; exact Hi) ltac:(rewrite C1; exact Hj)). clear -F.
      assert (G : forall gs hist, Forall2 (step_lays i j) gs (map (cell_of i j) hist) ->
                Forall2 (fun t h => dget String.eqb (snd (cell_of i j h)) "age"%string = Some t) (map (fun x => fst (fst x)) gs) hist).
      { clear. induction gs as [|x gs IH]; intros [|h hist] F; inversion F; subst; [constructor|]. cbn [map]. constructor; [|apply IH; assumption].
        match goal with H : step_lays _ _ _ _ |- _ => destruct H as [dep [z [sea [_ [_ [_ Q]]]]]] end. rewrite Q. reflexivity. }
      exact (G _ _ F).
  - constructor; [exact N0|exact Fn].
  - exact Ri.
  - apply (aged_dated _ _ _ l Al). intros a Ha. apply Il in Ha. apply StronglySorted_inv in Ri. destruct Ri as [_ Rf].
    assert (M1 := Rmax_l (value start) (value stop)). assert (M2 := Rmax_r (value start) (value stop)).
    destruct Ha as [<-|Ha]; [lra|]. rewrite Forall_forall in Rf, Fu. specialize (Rf a Ha). specialize (Fu a Ha). lra.
Qed.
