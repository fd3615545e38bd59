(** The balance of sediment in doubles. *)
From Coq Require Import String List ZArith QArith Reals Lra Lia Bool Floats.SpecFloat.
From Flocq Require Import Core.
From Verif.Base Require Import Num Py Arr.
From Verif.Model Require Import Layers Archive.
From Verif.Spec Require Import Strata Doubles DoubleLayers.
From Verif.Proofs Require Import LayersP DoubleP DoubleLayersP.
Import ListNotations.
Local Open Scope R_scope.

Lemma sub_as_add x y : SFsub prec64 emax64 x y = SFadd prec64 emax64 x (SFopp y).
Proof.
  destruct x as [sx|sx| |sx mx ex]; destruct y as [sy|sy| |sy my ey]; try destruct sx; try destruct sy; try reflexivity;
    cbn [SFsub SFadd SFopp negb cond_Zopp]; f_equal; lia.
Qed.
Lemma opp_number x : a_number x -> a_number (SFopp x) /\ value (SFopp x) = - value x.
Proof.
  intros [V F]. destruct x as [s|s| |s m e]; try easy.
  - split; [split; [reflexivity|exact I]|]. cbn. lra.
  - split; [split; [exact V|exact I]|]. cbn [SFopp value]. destruct s; cbn [negb].
    + change (Z.pos m) with (- Z.neg m)%Z. rewrite opp_IZR. ring.
    + change (Z.neg m) with (- Z.pos m)%Z. rewrite opp_IZR. ring.
Qed.
Lemma zero_number : a_number (n0 : b64) /\ value n0 = 0.
Proof. rewrite n0_b64. split; [split; [reflexivity|exact I]|reflexivity]. Qed.
Notation ulp53 := (bpow radix2 (-53)).
Lemma sub_error x y C : a_number x -> a_number y -> Rabs (value x - value y) <= C -> C <= bpow radix2 1023 ->
  a_number (nsub x y) /\ Rabs (value (nsub x y) - (value x - value y)) <= ulp53 * C.
Proof.
  intros X Y B L. change (nsub x y) with (SFsub prec64 emax64 x y). rewrite sub_as_add.
  destruct (opp_number y Y) as [NY VY].
  destruct (add_error x (SFopp y) X NY) as [N E]; [rewrite VY; unfold Rminus in B; lra|]. split; [exact N|].
  rewrite VY in E. replace (value x + - value y) with (value x - value y) in E by ring.
  apply Rle_trans with (1 := E). rewrite Rmult_comm. apply Rmult_le_compat_l; [apply bpow_ge_0|exact B].
Qed.
Lemma add_error_le x y C : a_number x -> a_number y -> Rabs (value x + value y) <= C -> C <= bpow radix2 1023 ->
  a_number (nadd x y) /\ Rabs (value (nadd x y) - (value x + value y)) <= ulp53 * C.
Proof.
  intros X Y B L. change (nadd x y) with (SFadd prec64 emax64 x y).
  destruct (add_error x y X Y) as [N E]; [lra|]. split; [exact N|].
  apply Rle_trans with (1 := E). rewrite Rmult_comm. apply Rmult_le_compat_l; [apply bpow_ge_0|exact B].
Qed.

Lemma skipn_twice {B} (l : list B) : forall a b, skipn a (skipn b l) = skipn (b + a) l.
Proof. induction l as [|x l IH]; intros a [|b]; rewrite ?skipn_nil; try reflexivity. cbn [skipn Nat.add]. apply IH. Qed.
Definition sound (st : stack b64) : Prop := Forall (fun c => a_number (c_dz c) /\ 0 <= value (c_dz c)) st.
Lemma sediment_cons c st : sediment (c :: st) = value (c_dz c) + sediment st.
Proof. reflexivity. Qed.
Lemma rsum_app l1 l2 : rsum (l1 ++ l2) = rsum l1 + rsum l2.
Proof. unfold rsum. induction l1 as [|x l IH]; cbn [app fold_right]; [lra|]. rewrite IH. ring. Qed.
Lemma sediment_app l1 l2 : sediment (l1 ++ l2) = sediment l1 + sediment l2.
Proof. unfold sediment. rewrite map_app. apply rsum_app. Qed.
Lemma sediment_rev l : sediment (rev l) = sediment l.
Proof. induction l as [|c l IH]; [reflexivity|]. cbn [rev]. rewrite sediment_app, IH, !sediment_cons. unfold sediment. cbn. ring. Qed.
Lemma sediment_pos st : sound st -> 0 <= sediment st.
Proof. induction 1 as [|c st [_ Hc] Hs IH]; [unfold sediment; cbn; lra|]. rewrite sediment_cons. lra. Qed.
Lemma max_diff a b : Rabs (Rmax 0 a - Rmax 0 b) <= Rabs (a - b).
Proof. unfold Rmax. destruct (Rle_dec 0 a), (Rle_dec 0 b); unfold Rabs; repeat destruct (Rcase_abs _); lra. Qed.

(** ** erosion *)
Section Bound.
  Context (C : R) (Cp : 0 <= C) (Ct : C <= bpow radix2 1023).
  Lemma erode_error l : forall amount, a_number amount -> 0 <= value amount <= C -> sound l -> sediment l <= C ->
    sound (erode amount l)
    /\ Rabs (sediment (erode amount l) - Rmax 0 (sediment l - value amount)) <= INR (length l) * (ulp53 * C).
  Proof.
    assert (Up : 0 <= ulp53 * C) by (apply Rmult_le_pos; [apply bpow_ge_0|exact Cp]).
    induction l as [|c l IH]; intros amount Na Ba S T.
    - cbn [erode length INR]. split; [constructor|]. unfold sediment. cbn. rewrite Rmax_left by lra. rewrite Rminus_0_r, Rabs_R0. lra.
    - inversion S as [|? ? [Nc Pc] Sl]; subst. rewrite sediment_cons in T. pose proof (sediment_pos l Sl) as Pl.
      cbn [erode]. destruct (sub_error amount (c_dz c) C Na Nc) as [N' E']; [apply Rabs_le; lra|exact Ct|].
      set (a' := nsub amount (c_dz c)) in *. destruct zero_number as [Nz Vz].
      cbn [length]. rewrite S_INR. destruct (nltb n0 a') eqn:L; change nltb with SFltb in L.
      + apply (ltb_value _ _ Nz N') in L. rewrite Vz in L.
        assert (U : value a' <= value amount).
        { unfold a'. change (nsub amount (c_dz c)) with (SFsub prec64 emax64 amount (c_dz c)). rewrite sub_as_add.
          apply add_not_more; [exact Na|apply opp_number; exact Nc|rewrite (proj2 (opp_number _ Nc)); lra|].
          rewrite <- sub_as_add. exact N'. }
        destruct (IH a' N' ltac:(lra) Sl ltac:(lra)) as [S1 E1]. split.
        * constructor; [|exact S1]. cbn [c_dz]. split; [exact Nz|lra].
        * rewrite !sediment_cons. cbn [c_dz]. rewrite Vz.
          pose proof (max_diff (sediment l - value a') (value (c_dz c) + sediment l - value amount)) as M.
          replace (sediment l - value a' - (value (c_dz c) + sediment l - value amount))
            with (- (value a' - (value amount - value (c_dz c)))) in M by ring. rewrite Rabs_Ropp in M.
          replace (0 + sediment (erode a' l) - Rmax 0 (value (c_dz c) + sediment l - value amount))
            with ((sediment (erode a' l) - Rmax 0 (sediment l - value a'))
                  + (Rmax 0 (sediment l - value a') - Rmax 0 (value (c_dz c) + sediment l - value amount))) by ring.
          apply Rle_trans with (1 := Rabs_triang _ _). lra.
      + apply (ltb_value_false _ _ Nz N') in L. rewrite Vz in L. destruct (opp_number a' N') as [No Vo]. split.
        * constructor; [|exact Sl]. cbn [c_dz]. change nopp with SFopp. split; [exact No|lra].
        * rewrite !sediment_cons. cbn [c_dz]. change nopp with SFopp. rewrite Vo.
          pose proof (max_diff (- value a' + sediment l) (value (c_dz c) + sediment l - value amount)) as M.
          rewrite (Rmax_right 0 (- value a' + sediment l)) in M by lra.
          replace (- value a' + sediment l - (value (c_dz c) + sediment l - value amount))
            with (- (value a' - (value amount - value (c_dz c)))) in M by ring. rewrite Rabs_Ropp in M.
          apply Rle_trans with (1 := M). apply Rle_trans with (1 := E').
          assert (0 <= INR (length l) * (ulp53 * C)) by (apply Rmult_le_pos; [apply pos_INR|exact Up]). lra.
  Qed.
  Lemma add_stack_error dz p (st : stack b64) : a_number dz -> Rabs (value dz) <= C -> sound st -> sediment st <= C ->
    sound (add_stack dz p st) /\ length (add_stack dz p st) = S (length st)
    /\ Rabs (sediment (add_stack dz p st) - Rmax 0 (sediment st + value dz)) <= (INR (length st) + 1) * (ulp53 * C).
  Proof.
    intros Nd Bd S T. assert (Up : 0 <= ulp53 * C) by (apply Rmult_le_pos; [apply bpow_ge_0|exact Cp]).
    destruct zero_number as [Nz Vz]. unfold add_stack. pose proof (sediment_pos st S) as Pt. destruct (nltb dz n0) eqn:L; change nltb with SFltb in L.
    - apply (ltb_value _ _ Nd Nz) in L. rewrite Vz in L. destruct (opp_number dz Nd) as [No Vo]. change nopp with SFopp.
      rewrite Rabs_left in Bd by exact L.
      assert (S' : sound (mkCell n0 p :: rev st)) by (constructor; [split; [exact Nz|cbn [c_dz]; lra]|apply Forall_rev; exact S]).
      assert (T' : sediment (mkCell n0 p :: rev st) = sediment st) by (rewrite sediment_cons, sediment_rev; cbn [c_dz]; rewrite Vz; ring).
      destruct (erode_error (mkCell n0 p :: rev st) (SFopp dz) No ltac:(rewrite Vo; lra) S' ltac:(lra)) as [S1 E1].
      rewrite T', Vo in E1. cbn [length] in E1. rewrite rev_length, S_INR in E1.
      split; [apply Forall_rev; exact S1|]. split.
      + rewrite rev_length, erode_length. cbn [length]. rewrite rev_length. reflexivity.
      + rewrite sediment_rev. replace (sediment st + value dz) with (sediment st - - value dz) by ring. exact E1.
    - apply (ltb_value_false _ _ Nd Nz) in L. rewrite Vz in L. split; [apply Forall_app; split; [exact S|constructor; [split; assumption|constructor]]|].
      split; [rewrite app_length; cbn; lia|]. rewrite sediment_app, sediment_cons. cbn [c_dz]. rewrite Rmax_right by lra.
      replace (sediment st + (value dz + sediment []) - (sediment st + value dz)) with 0 by (unfold sediment; cbn; ring).
      rewrite Rabs_R0. apply Rmult_le_pos; [pose proof (pos_INR (length st)); lra|exact Up].
  Qed.
  Lemma fold_error l : forall acc, a_number acc -> 0 <= value acc -> Forall (fun x => a_number x /\ 0 <= value x) l ->
    value acc + rsum (map value l) + INR (length l) * (ulp53 * C) <= C ->
    a_number (fold_left nadd l acc)
    /\ Rabs (value (fold_left nadd l acc) - (value acc + rsum (map value l))) <= INR (length l) * (ulp53 * C).
  Proof.
    assert (Up : 0 <= ulp53 * C) by (apply Rmult_le_pos; [apply bpow_ge_0|exact Cp]).
    induction l as [|x l IH]; intros acc Na Pa F B.
    - split; [exact Na|]. cbn. rewrite Rplus_0_r, Rminus_eq_0, Rabs_R0. lra.
    - inversion F as [|? ? [Nx Px] Fl]; subst. cbn [map length] in B. rewrite S_INR in B. change (rsum (value x :: map value l)) with (value x + rsum (map value l)) in B.
      assert (Pl : 0 <= rsum (map value l)).
      { clear -Fl. induction Fl as [|y l [_ Hy] _ IH]; cbn; [lra|]. unfold rsum in IH. lra. }
      pose proof (Rmult_le_pos _ _ (pos_INR (length l)) Up) as Pm.
      destruct (add_error_le acc x C Na Nx) as [N' E']; [rewrite Rabs_pos_eq by lra; lra|exact Ct|].
      assert (P' : 0 <= value (nadd acc x)).
      { pose proof (add_not_less acc x Na Nx Px) as Q. apply (ltb_value_false _ _ N' Na) in Q. lra. }
      apply Rabs_le_inv in E'. cbn [fold_left]. destruct (IH (nadd acc x) N' P' Fl) as [N1 E1]; [lra|]. split; [exact N1|].
      apply Rabs_le_inv in E1. cbn [map length]. rewrite S_INR. change (rsum (value x :: map value l)) with (value x + rsum (map value l)).
      apply Rabs_le. lra.
  Qed.
  Lemma sum_error (st : stack b64) : sound st -> sediment st + INR (length st) * (ulp53 * C) <= C ->
    a_number (nsum (map c_dz st)) /\ 0 <= value (nsum (map c_dz st))
    /\ Rabs (value (nsum (map c_dz st)) - sediment st) <= INR (length st) * (ulp53 * C).
  Proof.
    intros S B. destruct zero_number as [Nz Vz]. unfold nsum.
    assert (Q : rsum (map value (map c_dz st)) = sediment st) by (unfold sediment; rewrite map_map; reflexivity).
    destruct (fold_error (map c_dz st) n0) as [N E].
    - exact Nz.
    - lra.
    - rewrite Forall_map. exact S.
    - rewrite Vz, Q, map_length. lra.
    - split; [exact N|]. rewrite Vz, Q, map_length, Rplus_0_l in E. split; [|exact E].
      assert (G : below (nsum (map c_dz st)) = false).
      { apply sum_below. rewrite Forall_map. apply Forall_forall. intros c Hc. unfold sound in S. rewrite Forall_forall in S.
        destruct (S c Hc) as [N1 P1]. rewrite <- n0_b64. apply (ltb_value_false _ _ N1 Nz). lra. }
      unfold nsum in G. rewrite <- n0_b64 in G. apply (ltb_value_false _ _ N Nz) in G. lra.
  Qed.
  Lemma reduce_error start stop red (st : stack b64) : (start <= stop)%nat -> sound st ->
    sediment st + INR (length st) * (ulp53 * C) <= C ->
    sound (reduce_stack start stop red st) /\ (length (reduce_stack start stop red st) <= S (length st))%nat
    /\ Rabs (sediment (reduce_stack start stop red st) - sediment st) <= INR (length st) * (ulp53 * C).
  Proof.
    intros Hs S B. assert (Up : 0 <= ulp53 * C) by (apply Rmult_le_pos; [apply bpow_ge_0|exact Cp]).
    assert (D : st = firstn start st ++ slice start stop st ++ skipn stop st).
    { unfold slice. rewrite <- (firstn_skipn start st) at 1. f_equal. rewrite <- (firstn_skipn (stop - start) (skipn start st)) at 1.
      f_equal. rewrite skipn_twice. f_equal. lia. }
    assert (Q : sediment st = sediment (firstn start st) + sediment (slice start stop st) + sediment (skipn stop st)).
    { rewrite D at 1. rewrite !sediment_app. ring. }
    assert (Sf : sound (firstn start st)) by (apply Forall_firstn; exact S).
    assert (Ss : sound (slice start stop st)) by (apply Forall_firstn, Forall_skipn; exact S).
    assert (Sk : sound (skipn stop st)) by (apply Forall_skipn; exact S).
    pose proof (sediment_pos _ Sf). pose proof (sediment_pos _ Sk). pose proof (sediment_pos _ Ss).
    assert (Ls : (length (slice start stop st) <= length st)%nat).
    { rewrite D at 2. rewrite !app_length. lia. }
    assert (Lm : INR (length (slice start stop st)) * (ulp53 * C) <= INR (length st) * (ulp53 * C)).
    { apply Rmult_le_compat_r; [exact Up|]. apply le_INR. exact Ls. }
    destruct (sum_error _ Ss ltac:(lra)) as [N [P E]]. unfold reduce_stack. cbn [merge_cells]. split; [|split].
    - apply Forall_app. split; [exact Sf|]. constructor; [split; assumption|exact Sk].
    - rewrite D at 4. rewrite !app_length. cbn [length]. lia.
    - rewrite sediment_app, sediment_cons, Q. cbn [c_dz merge_cells].
      replace (sediment (firstn start st) + (value (nsum (map c_dz (slice start stop st))) + sediment (skipn stop st))
               - (sediment (firstn start st) + sediment (slice start stop st) + sediment (skipn stop st)))
        with (value (nsum (map c_dz (slice start stop st))) - sediment (slice start stop st)) by ring. lra.
  Qed.
End Bound.

(** ** any history of one column *)
Lemma column_total_snoc l x : column_total 0 (l ++ [x]) = Rmax 0 (column_total 0 l + x).
Proof. unfold column_total. rewrite fold_left_app. reflexivity. Qed.
Lemma column_total_bound l : 0 <= column_total 0 l <= rsum (map Rabs l).
Proof.
  induction l as [|x l IH] using rev_ind; [cbn; lra|]. rewrite column_total_snoc, map_app, rsum_app. cbn.
  pose proof (Rle_abs x). pose proof (Rabs_pos x). unfold Rmax. destruct (Rle_dec 0 (column_total 0 l + x)); lra.
Qed.
Lemma run_error N D ops : (N <= Pos.to_nat (2 ^ 25))%nat -> D <= bpow radix2 1000 -> 0 <= D ->
  (length ops <= N)%nat -> proper_ops ops -> turnover ops <= D ->
  sound (stack_run ops []) /\ (length (stack_run ops []) <= length ops)%nat
  /\ Rabs (sediment (stack_run ops []) - column_total 0 (laid_amounts ops)) <= INR (length ops) * ((INR N + 1) * (ulp53 * (4 * D))).
Proof.
  intros HN HD Dp. set (C := 4 * D). assert (Cp : 0 <= C) by (unfold C; lra).
  assert (Ct : C <= bpow radix2 1023).
  { unfold C. apply Rle_trans with (bpow radix2 2 * bpow radix2 1000).
    - change (bpow radix2 2) with 4. lra.
    - rewrite <- bpow_plus. apply bpow_le. lia. }
  assert (Up : 0 <= ulp53 * C) by (apply Rmult_le_pos; [apply bpow_ge_0|exact Cp]).
  assert (Nr : INR N <= 33554432).
  { replace 33554432 with (INR (Pos.to_nat (2 ^ 25))) by (rewrite INR_IPR; reflexivity). apply le_INR. exact HN. }
  assert (Total : INR N * ((INR N + 1) * (ulp53 * C)) <= D).
  { unfold C. change ulp53 with (/ 9007199254740992).
    assert (INR N * (INR N + 1) <= 33554432 * 33554433) by (pose proof (pos_INR N); apply Rmult_le_compat; lra).
    apply Rle_trans with (33554432 * 33554433 * (/ 9007199254740992 * (4 * D))).
    - rewrite <- Rmult_assoc. apply Rmult_le_compat_r; [|assumption]. lra.
    - lra. }
  induction ops as [|op ops IH] using rev_ind; intros HL HP HT.
  - cbn. split; [constructor|]. split; [lia|]. rewrite Rminus_eq_0, Rabs_R0. lra.
  - rewrite app_length in HL. cbn [length] in HL.
    unfold turnover, laid_amounts in HT. rewrite flat_map_app, map_app, rsum_app in HT.
    fold (laid_amounts ops) in HT. fold (turnover ops) in HT.
    destruct IH as [S [L E]]; [lia|intros o Ho; apply HP, in_or_app; left; exact Ho| |].
    { clear -HT. revert HT. cbn. destruct op; cbn; [pose proof (Rabs_pos (value dz))|]; lra. }
    unfold stack_run. rewrite fold_left_app. cbn [fold_left]. fold (stack_run ops []). set (st := stack_run ops []) in *.
    rewrite app_length. cbn [length]. rewrite plus_INR. change (INR 1) with 1.
    assert (Lst : INR (length st) <= INR N) by (apply le_INR; lia).
    assert (Lop : INR (length ops) + 1 <= INR N).
    { change 1 with (INR 1). rewrite <- plus_INR. apply le_INR. lia. }
    pose proof (pos_INR (length ops)) as Po. pose proof (pos_INR (length st)) as Pst.
    assert (Unit : 0 <= (INR N + 1) * (ulp53 * C)) by (apply Rmult_le_pos; lra).
    assert (Eb : INR (length ops) * ((INR N + 1) * (ulp53 * C)) <= D).
    { apply Rle_trans with (2 := Total). apply Rmult_le_compat_r; [exact Unit|lra]. }
    assert (Ts : 0 <= turnover ops) by (pose proof (column_total_bound (laid_amounts ops)); unfold turnover; lra).
    assert (Step : (INR (length st) + 1) * (ulp53 * C) <= (INR N + 1) * (ulp53 * C)) by (apply Rmult_le_compat_r; lra).
    pose proof (column_total_bound (laid_amounts ops)) as Ib. fold (turnover ops) in Ib.
    apply Rabs_le_inv in E.
    assert (Small : INR (length st) * (ulp53 * C) <= D).
    { apply Rle_trans with (INR N * ((INR N + 1) * (ulp53 * C))); [|exact Total].
      apply Rle_trans with (INR N * (ulp53 * C)); [apply Rmult_le_compat_r; assumption|].
      apply Rmult_le_compat_l; [lra|]. rewrite <- (Rmult_1_l (ulp53 * C)) at 1. apply Rmult_le_compat_r; [exact Up|lra]. }
    assert (HPo := HP op ltac:(apply in_or_app; right; left; reflexivity)).
    unfold laid_amounts. rewrite flat_map_app. fold (laid_amounts ops).
    destruct op as [dz p|start stop red]; cbn [flat_map app stack_exec] in *.
    + cbn [map] in HT. change (rsum [Rabs (value dz)]) with (Rabs (value dz) + 0) in HT. pose proof (Rabs_pos (value dz)) as Pd.
      destruct (add_stack_error C Cp Ct dz p st HPo ltac:(unfold C; lra) S ltac:(unfold C; lra)) as [S1 [L1 E1]].
      split; [exact S1|]. split; [lia|]. rewrite column_total_snoc.
      pose proof (max_diff (sediment st + value dz) (column_total 0 (laid_amounts ops) + value dz)) as M.
      replace (sediment st + value dz - (column_total 0 (laid_amounts ops) + value dz))
        with (sediment st - column_total 0 (laid_amounts ops)) in M by ring.
      replace (sediment (add_stack dz p st) - Rmax 0 (column_total 0 (laid_amounts ops) + value dz))
        with ((sediment (add_stack dz p st) - Rmax 0 (sediment st + value dz))
              + (Rmax 0 (sediment st + value dz) - Rmax 0 (column_total 0 (laid_amounts ops) + value dz))) by ring.
      apply Rle_trans with (1 := Rabs_triang _ _).
      assert (Rabs (sediment st - column_total 0 (laid_amounts ops)) <= INR (length ops) * ((INR N + 1) * (ulp53 * C))) by (apply Rabs_le; lra).
      lra.
    + rewrite app_nil_r. cbn in HT.
      destruct (reduce_error C Cp Ct start stop red st HPo S ltac:(unfold C in *; lra)) as [S1 [L1 E1]].
      split; [exact S1|]. split; [lia|]. apply Rabs_le_inv in E1. apply Rabs_le. lra.
Qed.
