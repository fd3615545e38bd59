(** Concrete columns in doubles. *)
From Coq Require Import String List ZArith QArith Qreals Reals Lra Lia Bool Floats.SpecFloat.
From Flocq Require Import Core.
From Verif.Base Require Import Num Py Arr.
From Verif.Model Require Import Layers Archive Grid Sequence SequenceModel.
From Verif.Spec Require Import Strata Column Laid Doubles DoubleLayers.
From Verif.Proofs Require Import DoubleP DoublesP DoublesEx DoubleLayersP DoubleMassP DoubleAgesP SequenceEx SequenceModelEx LaidEx.
Import ListNotations.
Local Open Scope R_scope.

(* 0.1 and 0.2 are laid and merged *)
Definition ex_pair : list (stack_op b64) := [Lay (nlit (1 # 10)) []; Lay (nlit (2 # 10)) []; Merge 0 2 []].
Lemma fifth_value : value (nlit (2 # 10)) = 7205759403792794 / 36028797018963968.
Proof.
  replace (nlit (2 # 10) : b64) with (S754_finite false 7205759403792794 (-55)) by (vm_compute; reflexivity).
  rewrite value_SF2R. unfold Flocq.IEEE754.BinarySingleNaN.SF2R, F2R. cbn [Fnum Fexp cond_Zopp].
  change (bpow radix2 (-55)) with (/ 36028797018963968). reflexivity.
Qed.
Lemma pair_run : map c_dz (stack_run ex_pair []) = [S754_finite false 5404319552844596 (-54)].
Proof. vm_compute. reflexivity. Qed.
Lemma pair_proper : proper_ops ex_pair.
Proof.
  intros op H. destruct H as [<-|[<-|[<-|[]]]]; [split; vm_compute; [reflexivity|exact I]..|lia].
Qed.
Lemma pair_sediment : sediment (stack_run ex_pair []) = 5404319552844596 / 18014398509481984.
Proof.
  unfold sediment. rewrite <- (map_map c_dz value), pair_run. unfold rsum. cbn [map fold_right].
  rewrite value_SF2R. unfold Flocq.IEEE754.BinarySingleNaN.SF2R, F2R. cbn [Fnum Fexp cond_Zopp].
  change (bpow radix2 (-54)) with (/ 18014398509481984). lra.
Qed.
Lemma pair_total : column_total 0 (laid_amounts ex_pair) = 7205759403792794 / 72057594037927936 + 7205759403792794 / 36028797018963968.
Proof.
  unfold ex_pair, laid_amounts. cbn [flat_map app]. rewrite tenth_value, fifth_value. unfold column_total. cbn [fold_left].
  rewrite !Rmax_right; [ring|lra|]. rewrite Rmax_right by lra. lra.
Qed.
Theorem exact_refuted : ~ (forall ops : list (stack_op b64), proper_ops ops ->
  sediment (stack_run ops []) = column_total 0 (laid_amounts ops)).
Proof. intros S. specialize (S ex_pair pair_proper). rewrite pair_sediment, pair_total in S. lra. Qed.

Theorem balance ops : proper_ops ops -> INR (length ops) <= 2 ^ 25 -> turnover ops <= powerRZ 2 1000 ->
  Rabs (sediment (stack_run ops []) - column_total 0 (laid_amounts ops))
    <= INR (length ops) * (INR (length ops) + 1) * 4 * turnover ops / 2 ^ 53.
Proof.
  intros P N T.
  assert (T0 : 0 <= turnover ops).
  { unfold turnover. induction (laid_amounts ops) as [|x l IH]; unfold rsum in *; cbn [map fold_right]; [lra|]. assert (Q := Rabs_pos x). lra. }
  destruct (run_error (length ops) (turnover ops) ops) as [_ [_ E]]; try assumption; [| |lia|apply Rle_refl|].
  - apply INR_le. rewrite INR_IZR_INZ with (n := Pos.to_nat _), positive_nat_Z. replace 2 with (IZR 2) in N by reflexivity. rewrite pow_IZR in N. exact N.
  - rewrite bpow_powerRZ. exact T.
  - eapply Rle_trans; [exact E|]. right. rewrite (bpow_powerRZ radix2). change (powerRZ (IZR radix2) (-53)) with (/ 2 ^ 53). unfold Rdiv. ring.
Qed.
Lemma pair_fits : INR (length ex_pair) <= 2 ^ 25 /\ 0 < turnover ex_pair <= powerRZ 2 1000.
Proof.
  split; [change (INR (length ex_pair)) with (2 + 1); simpl; lra|].
  unfold turnover, ex_pair, laid_amounts. cbn [flat_map app]. rewrite tenth_value, fifth_value. unfold rsum. cbn [map fold_right].
  rewrite !Rabs_pos_eq by lra. split; [lra|].
  apply Rle_trans with (powerRZ 2 1); [rewrite <- (bpow_powerRZ radix2); change (bpow radix2 1) with 2; lra|].
  rewrite <- !(bpow_powerRZ radix2). apply bpow_le. lia.
Qed.
Theorem stack_not_below (ops : list (stack_op b64)) c : In c (stack_run ops []) -> nltb (c_dz c) n0 = false.
Proof.
  intros H. assert (F := run_below ops [] (Forall_nil _)). rewrite Forall_forall in F. specialize (F c H).
  rewrite n0_b64. exact F.
Qed.
(* 0.3 is laid, then 0.1 eroded three times: what is left is not the zero of
   exact arithmetic, but it is not below zero either *)
Definition ex_thirds : list (stack_op b64) := Lay (nlit (3 # 10)) [] :: repeat (Lay (nopp (nlit (1 # 10))) []) 3.
Lemma thirds_run : map c_dz (stack_run ex_thirds []) = [S754_zero false; S754_zero false; S754_zero false; S754_zero false]
  /\ map c_dz (stack_run (removelast ex_thirds) []) = [S754_finite false 7205759403792792 (-56); S754_zero false; S754_zero false].
Proof. split; vm_compute; reflexivity. Qed.

(* the ages of one column after run() on a beach *)
Definition ex_ages (fuel : nat) (start stop step : b64) : option (list (option b64)) :=
  match model_init (ex_processes [ex_lay (nlit (1 # 2)); ex_lay (nlit (1 # 4))]) tt (ex_coast (A:=b64)) (clock_init start (Some stop) step) with
  | Ok m => match model_run fuel (ex_processes [ex_lay (nlit (1 # 2)); ex_lay (nlit (1 # 4))]) m with
            | Some (Ok m') => Some (ages (at2 [] (el_stacks (layers (sm_grid m'))) 0 0))
            | _ => None
            end
  | Err _ => None
  end.
Lemma ex_dated : ex_ages 5 (nlit 0) (nlit (35 # 100)) (nlit (1 # 10))
  = Some (map Some [nlit 0; nlit (1 # 10); nlit (2 # 10); S754_finite false 5404319552844596 (-54)]).
Proof. vm_compute. reflexivity. Qed.
Lemma ex_keeps : whole_grid (ex_coast (A:=b64)) /\ layers (ex_coast (A:=b64)) = el_empty (g_rows (ex_coast (A:=b64))) (g_cols (ex_coast (A:=b64)) - 2)
  /\ Forall keeps_whole (pr_components ex_two) /\ Forall keeps_layers (pr_components ex_two)
  /\ a_number (nlit 0) /\ a_number (nlit (35 # 100)) /\ a_number (nlit (1 # 10)) /\ 0 < value (nlit (1 # 10)).
Proof.
  split; [apply ex_coast_whole|]. split; [reflexivity|].
  split; [constructor; [apply ex_lay_keeps|constructor; [apply ex_lay_keeps|constructor]]|].
  split; [constructor; [apply ex_lay_layers|constructor; [apply ex_lay_layers|constructor]]|].
  do 3 (split; [split; vm_compute; [reflexivity|exact I]|]). rewrite tenth_value. lra.
Qed.
