(** What a step of a process reads and writes. *)
From Coq Require Import String List ZArith QArith Bool Arith Lia.
From Verif.Base Require Import Num Py Arr.
From Verif.Model Require Import Layers Grid Interp Shoreline SeaLevel Subsidence Flexure Submarine Fluvial Setattr Info.
From Verif.Spec Require Import Declared.
Import ListNotations.
Local Open Scope string_scope.
Local Open Scope list_scope.

Ltac steps E := repeat (cbn [bind] in E; match type of E with
  | bind ?r _ = Ok _ => let H := fresh "K" in destruct r eqn:H; [|discriminate E]
  end); cbn [bind] in E.

Section P.
  Context {A : Type} {num : Num A} {tr : Trans A}.
  Implicit Types g h : grid A.

  Lemma node_dset g n v k : node (put_node g n v) k = if String.eqb k n then Some v else node g k.
  Proof. unfold node, put_node. cbn [at_node set_at_node]. apply (dget_dset _ String.eqb_eq). Qed.
  Lemma gval_dset g n v k : gval (put_gval g n v) k = if String.eqb k n then Some v else gval g k.
  Proof. unfold gval, put_gval. cbn [at_grid set_at_grid]. apply (dget_dset _ String.eqb_eq). Qed.
  Lemma rowf_dset g n v k : rowf (put_rowf g n v) k = if String.eqb k n then Some v else rowf g k.
  Proof. unfold rowf, put_rowf. cbn [at_row set_at_row]. apply (dget_dset _ String.eqb_eq). Qed.

  (** reading *)
  Lemma agree_same F g : agree_on F g g.
  Proof. split; [repeat split|]. intros [n []] _; reflexivity. Qed.
  Lemma agree_put_node F g g' n v : agree_on F g g' -> agree_on F (put_node g n v) (put_node g' n v).
  Proof.
    intros [S H]. split; [exact S|]. intros [k p] Hk. specialize (H _ Hk). destruct p; unfold same_field in *; cbn [fst snd] in *; try exact H.
    rewrite !node_dset. destruct (String.eqb k n); [reflexivity|exact H].
  Qed.
  Lemma agree_put_gval F g g' n v : agree_on F g g' -> agree_on F (put_gval g n v) (put_gval g' n v).
  Proof.
    intros [S H]. split; [exact S|]. intros [k p] Hk. specialize (H _ Hk). destruct p; unfold same_field in *; cbn [fst snd] in *; try exact H.
    rewrite !gval_dset. destruct (String.eqb k n); [reflexivity|exact H].
  Qed.
  Lemma agree_put_rowf F g g' n v : agree_on F g g' -> agree_on F (put_rowf g n v) (put_rowf g' n v).
  Proof.
    intros [S H]. split; [exact S|]. intros [k p] Hk. specialize (H _ Hk). destruct p; unfold same_field in *; cbn [fst snd] in *; try exact H.
    rewrite !rowf_dset. destruct (String.eqb k n); [reflexivity|exact H].
  Qed.
  Lemma agree_node_r F g g' n : agree_on F g g' -> In (n, AtNode) F -> node_r g' n = node_r g n.
  Proof. intros [_ H] Hn. specialize (H _ Hn). unfold same_field in H. cbn [fst snd] in H. unfold node_r. rewrite H. reflexivity. Qed.
  Lemma agree_profile F g g' n : agree_on F g g' -> In (n, AtNode) F -> get_profile g' n = get_profile g n.
  Proof. intros H Hn. unfold get_profile. rewrite (agree_node_r _ _ _ _ H Hn). reflexivity. Qed.
  Lemma agree_gval F g g' n : agree_on F g g' -> In (n, AtGrid) F -> gval g' n = gval g n.
  Proof. intros [_ H] Hn. specialize (H _ Hn). symmetry. exact H. Qed.
  Lemma agree_gval_r F g g' n : agree_on F g g' -> In (n, AtGrid) F -> gval_r g' n = gval_r g n.
  Proof. intros H Hn. unfold gval_r. rewrite (agree_gval _ _ _ _ H Hn). reflexivity. Qed.
  Lemma agree_set F g g' n v : agree_on F g g' -> In (n, AtNode) F ->
    match set_profile g n v, set_profile g' n v with Ok h, Ok h' => agree_on F h h' | Err e, Err e' => e = e' | _, _ => False end.
  Proof.
    intros H Hn. unfold set_profile. rewrite (agree_node_r _ _ _ _ H Hn). destruct (node_r g n); cbn [bind]; [|reflexivity]. apply agree_put_node, H.
  Qed.
  Lemma agree_x F g g' : agree_on F g g' -> x_of_column g' = x_of_column g.
  Proof. intros [(_ & Hc & _ & Hx) _]. unfold x_of_column. rewrite Hc, Hx. reflexivity. Qed.

  Ltac step_set H n v := let Y := fresh "Y" in
    match type of H with agree_on ?F ?g ?g' =>
      assert (Y := agree_set F g g' n v H); cbn [declared undeclared map fst info app In] in Y
    end.

  Context (interp1d : list A -> list A -> result (A -> A)) (diffuse : A -> field A -> field A -> field A) (flexure : kwds A -> field A -> field A) (gravity : kwds A -> A).
  Notation step := (process_step interp1d diffuse flexure gravity).

  Ltac inF := unfold TOPO, SEALEVEL, DEPOSIT, KD, SAND, BEDROCK_INC, LITHO, PRESSURE, TOTAL_LOAD, INCREMENT; cbn; tauto.
  Ltac wr H := match type of H with agree_on ?F ?g ?g' =>
    rewrite ?(agree_x F g g' H);
    repeat match goal with
    | |- context [get_profile g' ?n] => rewrite (agree_profile F g g' n H) by inF
    | |- context [node_r g' ?n] => rewrite (agree_node_r F g g' n H) by inF
    | |- context [gval_r g' ?n] => rewrite (agree_gval_r F g g' n H) by inF
    | |- context [gval g' ?n] => rewrite (agree_gval F g g' n H) by inF
    end end.
  Ltac head r := lazymatch r with bind ?s _ => head s | _ => r end.
  Ltac dr := cbn [bind]; match goal with |- match ?r with _ => _ end => let s := head r in destruct s eqn:?; cbn [bind]; [|reflexivity] end.
  Ltac ds H := cbn [bind]; match goal with |- match ?r with _ => _ end => let s := head r in match s with set_profile ?g ?n ?v =>
    let Y := fresh "Y" in let h := fresh "h" in let h' := fresh "h'" in
    match type of H with agree_on ?F _ ?g' =>
      assert (Y := agree_set F g g' n v H ltac:(inF)); destruct (set_profile g n v) as [h|] eqn:?, (set_profile g' n v) as [h'|]; try contradiction; cbn [bind]; [|exact Y]
    end end end.

  Theorem step_reads dt (p : process A) g g' :
    agree_on (declared (class_of p) ++ undeclared (class_of p)) g g' ->
    alike_on (declared (class_of p) ++ undeclared (class_of p)) (step dt (p, g)) (step dt (p, g')).
  Proof.
    intros H. pose proof H as [(Hr & Hc & Hy & Hx) _]. unfold alike_on, process_step. destruct p; cbn [class_of] in H |- *.
    - unfold sea_level_step. cbv zeta. wr H. destruct (gval g _); [|reflexivity].
      destruct (slc_curve _ _); [|reflexivity]. split; [reflexivity|]. apply agree_put_gval, agree_put_gval, H.
    - unfold sea_level_step. cbv zeta. wr H. destruct (gval g _); [|reflexivity].
      destruct (slc_curve _ _); [|reflexivity]. split; [reflexivity|]. apply agree_put_gval, agree_put_gval, H.
    - unfold subsidence_step. wr H. dr. ds H. split; [reflexivity|exact Y].
    - unfold submarine_step, calc_diffusion_coef. wr H. dr. dr. dr. dr.
      destruct (negb _); [reflexivity|]. rewrite <- Hx. destruct (kd_rows _ _ _ _ _ _ _ _ _) as [c1 k1]. ds H. pose proof Y as [(_ & Hc1 & _ & Hx1) _]. wr Y. dr.
      set (q := put_node h KD _). set (q' := put_node h' KD _). assert (Q : agree_on (declared SubmarineDiffuser ++ undeclared SubmarineDiffuser) q q') by (apply agree_put_node, Y).
      wr Q. dr. change (g_cols q) with (g_cols h). change (g_cols q') with (g_cols h'). rewrite <- Hc1. destruct (Nat.ltb _ _); [reflexivity|]. dr.
      set (z1 := set_upstream _ _ _). set (q2 := put_node q TOPO z1). set (q2' := put_node q' TOPO z1).
      assert (Q2 : agree_on (declared SubmarineDiffuser ++ undeclared SubmarineDiffuser) q2 q2') by (apply agree_put_node, Q).
      wr Q2. dr. split; [reflexivity|]. apply agree_put_node, Q2.
    - unfold fluvial_step. repeat match goal with |- context [if neqb ?a ?b then Err _ else _] => destruct (neqb a b); [reflexivity|] end. cbv zeta.
      rewrite <- Hc, <- Hx. wr H. dr. dr. dr. dr. dr. dr. dr. dr. destruct a6 as [[? ?] ps]. destruct (fold_left _ _ _) as [? add]. ds H.
      match goal with |- context [set_profile h DEPOSIT ?v] => pose proof (agree_set _ _ _ DEPOSIT v Y ltac:(inF)) as Z;
        destruct (set_profile h DEPOSIT v) as [k|], (set_profile h' DEPOSIT v) as [k'|]; try contradiction; cbn [bind]; [|exact Z] end.
      split; [reflexivity|exact Z].
    - unfold sed_flexure_step. wr H. dr. ds H. wr Y. rewrite <- (proj2 (proj2 (proj2 (proj1 Y)))). dr. ds Y.
      wr Y0. dr. ds Y0. wr Y1. dr. destruct (calc_dynamic_deflection _ _ _) as [dyn defl]. dr. ds Y1. split; [reflexivity|exact Y2].
    - unfold shoreline_update. wr H. dr. dr. dr. dr. split; [reflexivity|]. apply agree_put_rowf, agree_put_rowf, H.
  Qed.

  (** writing *)
  Lemma changes_same F g : changes_only F g g.
  Proof. split; [repeat split|]. split; [reflexivity|]. intros [n []] _; reflexivity. Qed.
  Lemma changes_trans F g1 g2 g3 : changes_only F g1 g2 -> changes_only F g2 g3 -> changes_only F g1 g3.
  Proof.
    intros ((A1 & A2 & A3 & A4) & L & H) ((B1 & B2 & B3 & B4) & L' & H'). split; [repeat split; congruence|]. split; [congruence|].
    intros f Hf. specialize (H _ Hf). specialize (H' _ Hf). destruct f as [n []]; unfold same_field in *; cbn [fst snd] in *; congruence.
  Qed.
  Lemma changes_node (F : list (string * place)) g n v : In (n, AtNode) F -> changes_only F g (put_node g n v).
  Proof.
    intros Hn. split; [repeat split|]. split; [reflexivity|]. intros [k []] Hk; unfold same_field; cbn [fst snd]; try reflexivity.
    rewrite node_dset. destruct (String.eqb k n) eqn:N; [|reflexivity]. apply String.eqb_eq in N. subst k. contradiction.
  Qed.
  Lemma changes_gval (F : list (string * place)) g n v : In (n, AtGrid) F -> changes_only F g (put_gval g n v).
  Proof.
    intros Hn. split; [repeat split|]. split; [reflexivity|]. intros [k []] Hk; unfold same_field; cbn [fst snd]; try reflexivity.
    rewrite gval_dset. destruct (String.eqb k n) eqn:N; [|reflexivity]. apply String.eqb_eq in N. subst k. contradiction.
  Qed.
  Lemma changes_rowf (F : list (string * place)) g n v : In (n, AtRow) F -> changes_only F g (put_rowf g n v).
  Proof.
    intros Hn. split; [repeat split|]. split; [reflexivity|]. intros [k []] Hk; unfold same_field; cbn [fst snd]; try reflexivity.
    rewrite rowf_dset. destruct (String.eqb k n) eqn:N; [|reflexivity]. apply String.eqb_eq in N. subst k. contradiction.
  Qed.
  Lemma changes_profile (F : list (string * place)) g n v h : In (n, AtNode) F -> set_profile g n v = Ok h -> changes_only F g h.
  Proof. intros Hn E. unfold set_profile in E. destruct (node_r g n); [|discriminate]. cbn [bind] in E. assert (h = put_node g n (set_inner a v)) as -> by congruence. apply changes_node, Hn. Qed.
  Ltac ch := first [ apply changes_same
    | eapply changes_trans; [|apply changes_node; inF]; ch
    | eapply changes_trans; [|apply changes_gval; inF]; ch
    | eapply changes_trans; [|apply changes_rowf; inF]; ch
    | match goal with K : set_profile ?g ?n ?v = Ok ?h |- changes_only _ _ ?h => eapply changes_trans; [|apply (changes_profile _ g n v h); [inF|exact K]]; ch end ].

  Theorem step_writes dt (p : process A) g p' g' : step dt (p, g) = Ok (p', g') ->
    class_of p' = class_of p /\ changes_only (declared_output (class_of p) ++ undeclared_output (class_of p)) g g'.
  Proof.
    unfold process_step. intros E. destruct p; cbn [class_of].
    - unfold sea_level_step in E. cbv zeta in E. destruct (gval g _); [|discriminate]. destruct (slc_curve _ _); [|discriminate]. injection E as <- <-.
      split; [reflexivity|]. ch.
    - unfold sea_level_step in E. cbv zeta in E. destruct (gval g _); [|discriminate].
      destruct (slc_curve (mkSeaLevel (slc_curve c) _) _); [|discriminate]. injection E as <- <-. split; [reflexivity|]. ch.
    - steps E. destruct a as [c1 g1]. injection E as <- <-. split; [reflexivity|]. unfold subsidence_step in K. steps K. injection K as <- <-. ch.
    - steps E. destruct a as [c1 g1]. injection E as <- <-. split; [reflexivity|]. unfold submarine_step, calc_diffusion_coef in K. steps K.
      steps K3. destruct (negb _); [discriminate|]. destruct (kd_rows _ _ _ _ _ _ _ _ _) as [c2 k2]. steps K3. injection K3 as <-. steps K.
      destruct (Nat.ltb _ _); [discriminate|]. steps K. injection K as <- <-. ch.
    - steps E. injection E as <- <-. split; [reflexivity|]. unfold fluvial_step in K.
      repeat match type of K with (if ?b then _ else _) = _ => destruct b; [discriminate|] end. cbv zeta in K. steps K.
      match type of K with (let '(_, _) := ?w in _) = _ => destruct w as [[? ?] ps] end. destruct (fold_left _ _ _) as [? add]. steps K. ch.
    - steps E. destruct a as [c1 g1]. injection E as <- <-. split; [reflexivity|]. unfold sed_flexure_step in K. steps K.
      destruct (calc_dynamic_deflection _ _ _) as [dyn defl]. steps K. injection K as <- <-. ch.
    - steps E. injection E as <- <-. split; [reflexivity|]. unfold shoreline_update in K. steps K. injection K as <-. ch.
  Qed.
End P.
