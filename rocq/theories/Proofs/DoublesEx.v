(** Concrete clocks in doubles. *)
From Coq Require Import List ZArith QArith Qreals Reals Lra Lia Bool Floats.SpecFloat.
From Flocq Require Import Core.
From Verif.Base Require Import Num Py Arr.
From Verif.Model Require Import Grid SequenceModel.
From Verif.Spec Require Import Column Doubles.
From Verif.Proofs Require Import SequenceModelP ClockP DoubleP DoublesP SequenceModelEx StartsP.
Import ListNotations.
Local Open Scope R_scope.

(* run() of two components on a beach: the calls and the clock *)
Definition ex_ran (fuel : nat) (start stop step : b64) : option (list nat * b64) :=
  match model_init (ex_processes [ex_lay (nlit (1 # 2)); ex_lay (nlit (1 # 4))]) tt (ex_coast (A:=b64)) (clock_init start (Some stop) step) with
  | Ok m => match model_run fuel (logged_processes (ex_processes [ex_lay (nlit (1 # 2)); ex_lay (nlit (1 # 4))])) (with_log m []) with
            | Some (Ok ml) => Some (map fst (snd (sm_world ml)), ck_time (sm_clock ml))
            | _ => None
            end
  | Err _ => None
  end.
(* start: 0, stop: 0.3, step: 0.1 *)
Lemma ex_tenths : ex_ran 4 (nlit 0) (nlit (3 # 10)) (nlit (1 # 10))
  = Some ([0; 1; 0; 1]%nat, S754_finite false 5404319552844596 (-54)).
Proof. vm_compute. reflexivity. Qed.
(* start: 0, stop: 0.3, step: 0.15 *)
Lemma ex_fifteen : ex_ran 4 (nlit 0) (nlit (3 # 10)) (nlit (15 # 100))
  = Some ([0; 1; 0; 1]%nat, S754_finite false 8106479329266892 (-54)).
Proof. vm_compute. reflexivity. Qed.

Lemma tenths_steps n : full_steps (Q2R 0) (Q2R (3 # 10)) (Q2R (1 # 10)) n -> n = 3%nat.
Proof.
  unfold full_steps, Q2R. cbn [Qnum Qden]. intros [F1 F2].
  assert (G : (2 < n < 4)%nat); [|lia]. split.
  - apply INR_lt. change (INR 2) with 2. lra.
  - apply INR_lt. change (INR 4) with (INR 3 + 1). change (INR 3) with (2 + 1). destruct F1 as [->|F1]; [cbn; lra|]. lra.
Qed.
Notation ex_two := (ex_processes [ex_lay (nlit (1 # 2)); ex_lay (nlit (1 # 4))]).
Lemma ran_rounds fuel start stop step calls t : ex_ran fuel start stop step = Some (calls, t) ->
  exists m : smodel b64 unit, sm_clock m = clock_init start (Some stop) step
    /\ forall n time, (n < fuel)%nat -> makes_rounds ex_two m n time -> length calls = (n * 2)%nat.
Proof.
  unfold ex_ran. generalize (@nlit b64 _ (1 # 2)) (@nlit b64 _ (1 # 4)). intros h q X.
  destruct (model_init _ _ _ _) as [m|] eqn:E; [|discriminate X].
  exists m. split; [exact (StartsP.model_init_clock _ _ _ _ _ E)|]. intros n time Hf M. specialize (M fuel Hf).
  destruct (model_run fuel (logged_processes _) (with_log m [])) as [[ml|]|]; try discriminate X.
  destruct (model_run fuel _ m) as [[m'|]|]; [|contradiction..]. destruct M as [-> _]. injection X as X _. rewrite <- X, map_length.
  cbn [with_log sm_world snd]. rewrite <- (Nat.mul_comm 2). generalize (ck_step (sm_clock m)). intros s. clear. induction n as [|n IH]; [reflexivity|].
  cbn [repeat concat]. rewrite app_length, IH. cbn. lia.
Qed.
Theorem decimal_refuted : ~ (forall W (pr : processes b64 W) (m : smodel b64 W) (start stop step : Q), (0 < step)%Q ->
    ck_time (sm_clock m) = nlit start -> ck_stop (sm_clock m) = Some (nlit stop) -> ck_step (sm_clock m) = nlit step ->
    exists n time, full_steps (Q2R start) (Q2R stop) (Q2R step) n /\ makes_rounds pr m n time).
Proof.
  intros S. destruct (ran_rounds _ _ _ _ _ _ ex_tenths) as [m [C L]].
  destruct (S unit ex_two m 0%Q (3 # 10)%Q (1 # 10)%Q) as [n [time [F M]]].
  - reflexivity.
  - exact (f_equal ck_time C).
  - exact (f_equal ck_stop C).
  - exact (f_equal ck_step C).
  - apply tenths_steps in F. subst n. specialize (L 3%nat time (Nat.lt_succ_diag_r 3) M). discriminate L.
Qed.

(* a step of 1 at 2^53 is lost *)
Lemma ex_lost : nadd (b64_of (2 ^ 53) 0) (b64_of 1 0) = b64_of (2 ^ 53) 0
  /\ nltb (b64_of (2 ^ 53 + 2) 0) (b64_of (2 ^ 53) 0) = false.
Proof. split; vm_compute; reflexivity. Qed.

(** ** the theorems in the words of the specification *)
Theorem drift {W} (pr : processes b64 W) (m : smodel b64 W) stop M :
  let start := ck_time (sm_clock m) in let step := ck_step (sm_clock m) in
  let d := (M + value step) / 2 ^ 53 in
  a_number start -> a_number stop -> a_number step -> ck_stop (sm_clock m) = Some stop ->
  0 < value step -> Rabs (value start) <= M -> Rabs (value stop) <= M -> M + value step <= powerRZ 2 1023 -> d < value step ->
  exists n time, makes_rounds pr m n time
    /\ (n = 0%nat \/ value start + INR n * (value step - d) <= value stop)
    /\ value stop < value start + (INR n + 1) * (value step + d)
    /\ a_number time /\ Rabs (value time - (value start + (INR n + 1) * value step)) <= (INR n + 1) * d.
Proof.
  intros start step d N0 Nt Ns Cs Ps B0 Bt Top Small.
  assert (D : d = (M + value step) * bpow radix2 (-53)).
  { unfold d, Rdiv. f_equal. rewrite bpow_powerRZ. cbn [powerRZ]. f_equal. }
  rewrite D in *. rewrite <- (bpow_powerRZ radix2) in Top.
  exact (drift_rounds start step stop M N0 Ns Nt Ps B0 Bt Top Small pr m eq_refl Cs eq_refl).
Qed.
(* well inside a step, rounding cannot change the number of rounds *)
Theorem drift_same {W} (pr : processes b64 W) (m : smodel b64 W) stop M n :
  let start := ck_time (sm_clock m) in let step := ck_step (sm_clock m) in
  let d := (M + value step) / 2 ^ 53 in
  a_number start -> a_number stop -> a_number step -> ck_stop (sm_clock m) = Some stop ->
  0 < value step -> Rabs (value start) <= M -> Rabs (value stop) <= M -> M + value step <= powerRZ 2 1023 -> d < value step ->
  value start + INR n * (value step + d) <= value stop < value start + (INR n + 1) * (value step - d) ->
  exists time, makes_rounds pr m n time /\ a_number time
    /\ Rabs (value time - (value start + (INR n + 1) * value step)) <= (INR n + 1) * d.
Proof.
  intros start step d N0 Nt Ns Cs Ps B0 Bt Top Small [L U].
  destruct (drift pr m stop M N0 Nt Ns Cs Ps B0 Bt Top Small) as [k [time [R1 [R2 [R3 [R4 R5]]]]]]. fold start step d in R2, R3, R4, R5.
  assert (Dp : 0 <= d).
  { apply Rmult_le_pos; [assert (P := Rle_trans _ _ _ (Rabs_pos _) B0); lra|]. apply Rlt_le, Rinv_0_lt_compat, pow_lt. lra. }
  assert (K : k = n).
  { assert (K1 : (n < k + 1)%nat).
    { apply INR_lt. rewrite plus_INR. change (INR 1) with 1. apply Rmult_lt_reg_r with (value step + d); lra. }
    assert (K2 : (k < n + 1)%nat).
    { destruct R2 as [->|R2]; [lia|]. apply INR_lt. rewrite plus_INR. change (INR 1) with 1. apply Rmult_lt_reg_r with (value step - d); lra. }
    lia. }
  subst k. exists time. split; [exact R1|]. split; assumption.
Qed.
Theorem later_or_same x s : a_number x -> a_number s -> 0 <= value s -> nltb (nadd x s) x = false.
Proof.
  intros X S P. change nltb with SFltb. change nadd with (SFadd prec64 emax64). apply add_not_less; assumption.
Qed.

(* numbers as written that are exact in binary *)
Lemma fits_value k z q : (0 <= k <= 1074)%Z -> fits k z q -> Q2R q = IZR z * bpow radix2 (- k).
Proof.
  intros K [_ [_ [_ Q4]]]. unfold Q2R. assert (Pd : 0 < IZR (Zpos (Qden q))) by (apply IZR_lt; reflexivity).
  assert (Pk : bpow radix2 (- k) * IZR (2 ^ k) = 1).
  { change (IZR (2 ^ k)) with (IZR (radix2 ^ k)). rewrite (IZR_Zpower radix2 k) by lia. rewrite <- bpow_plus, Z.add_opp_diag_l. reflexivity. }
  apply Rmult_eq_reg_r with (IZR (Zpos (Qden q))); [|lra]. rewrite Rmult_assoc, Rinv_l by lra.
  rewrite Rmult_1_r. apply (f_equal IZR) in Q4. rewrite !mult_IZR in Q4.
  transitivity (IZR (Qnum q) * IZR (2 ^ k) * bpow radix2 (- k)); [rewrite Rmult_assoc, (Rmult_comm (IZR (2 ^ k))), Pk; ring|].
  rewrite Q4. ring.
Qed.
Theorem exact_rounds {W} (pr : processes b64 W) (m : smodel b64 W) (start stop step : Q) k z0 z1 z2 :
  (0 <= k <= 1074)%Z -> fits k z0 start -> fits k z1 stop -> fits k z2 step -> (0 < step)%Q ->
  (z0 + z2 <= 2 ^ 53)%Z -> (z1 + z2 <= 2 ^ 53)%Z ->
  ck_time (sm_clock m) = nlit start -> ck_stop (sm_clock m) = Some (nlit stop) -> ck_step (sm_clock m) = nlit step ->
  exists n time, full_steps (Q2R start) (Q2R stop) (Q2R step) n /\ makes_rounds pr m n time
    /\ a_number time /\ value time = Q2R start + (INR n + 1) * Q2R step.
Proof.
  intros K F0 F1 F2 Ps U0 U1 Ct Cs Cp.
  assert (V0 := fits_value k z0 start K F0). assert (V1 := fits_value k z1 stop K F1). assert (V2 := fits_value k z2 step K F2).
  rewrite (lit_of start z0 k K F0) in Ct. rewrite (lit_of stop z1 k K F1) in Cs. rewrite (lit_of step z2 k K F2) in Cp.
  assert (Bp := bpow_gt_0 radix2 (- k)).
  assert (P2 : (0 < z2)%Z).
  { apply Qlt_Rlt in Ps. rewrite V2 in Ps. change (Q2R 0) with (0 * / 1) in Ps. apply lt_IZR. apply Rmult_lt_reg_r with (bpow radix2 (- k)); lra. }
  destruct F0 as [_ [_ [A0 _]]]. destruct F1 as [_ [_ [A1 _]]]. destruct F2 as [_ [_ [A2 _]]].
  destruct (whole_steps_exist z0 z1 z2 P2) as [n Hn]. exists n, (b64_of (z0 + (Z.of_nat n + 1) * z2) (- k)).
  assert (Top : (- 2 ^ 53 <= z0 + (Z.of_nat n + 1) * z2 <= 2 ^ 53)%Z) by (destruct Hn as [[->|H1] _]; nia).
  split; [|split; [|]].
  - destruct Hn as [H1 H2]. unfold full_steps. rewrite V0, V1, V2, INR_IZR_INZ. split.
    + destruct H1 as [H1|H1]; [left; exact H1|right]. apply IZR_le in H1. rewrite plus_IZR, mult_IZR in H1.
      apply (Rmult_le_compat_r (bpow radix2 (- k))) in H1; lra.
    + apply IZR_lt in H2. rewrite plus_IZR, mult_IZR, plus_IZR in H2.
      apply (Rmult_lt_compat_r (bpow radix2 (- k))) in H2; lra.
  - apply (whole_rounds pr m (- k) z0 z1 z2 n); try assumption; lia.
  - destruct (of_number (z0 + (Z.of_nat n + 1) * z2) (- k) ltac:(lia) ltac:(lia)) as [N V]. split; [exact N|]. rewrite V, V0, V2.
    rewrite plus_IZR, mult_IZR, plus_IZR, INR_IZR_INZ. ring.
Qed.

(* the default clock, and quarters *)
Lemma ex_fits : fits 0 0 0 /\ fits 0 600000 600000 /\ fits 0 100 100
  /\ fits 2 0 0 /\ fits 2 4 1 /\ fits 2 1 (25 # 100).
Proof. unfold fits. cbn. lia. Qed.
Lemma ex_quarters : ex_ran 5 (nlit 0) (nlit 1) (nlit (25 # 100)) = Some ([0; 1; 0; 1; 0; 1; 0; 1]%nat, nlit (125 # 100)).
Proof. vm_compute. reflexivity. Qed.

(* 0.1 and 0.35, as doubles *)
Lemma tenth_value : value (nlit (1 # 10)) = 7205759403792794 / 72057594037927936.
Proof.
  replace (nlit (1 # 10) : b64) with (S754_finite false 7205759403792794 (-56)) by (vm_compute; reflexivity).
  rewrite value_SF2R. unfold Flocq.IEEE754.BinarySingleNaN.SF2R, F2R. cbn [Fnum Fexp cond_Zopp].
  change (bpow radix2 (-56)) with (/ 72057594037927936). reflexivity.
Qed.
Lemma third_value : value (nlit (35 # 100)) = 6305039478318694 / 18014398509481984.
Proof.
  replace (nlit (35 # 100) : b64) with (S754_finite false 6305039478318694 (-54)) by (vm_compute; reflexivity).
  rewrite value_SF2R. unfold Flocq.IEEE754.BinarySingleNaN.SF2R, F2R. cbn [Fnum Fexp cond_Zopp].
  change (bpow radix2 (-54)) with (/ 18014398509481984). reflexivity.
Qed.
Lemma zero_value : value (nlit 0) = 0.
Proof. replace (nlit 0 : b64) with (S754_zero false) by (vm_compute; reflexivity). reflexivity. Qed.
Lemma ex_thirty_five : ex_ran 5 (nlit 0) (nlit (35 # 100)) (nlit (1 # 10))
  = Some ([0; 1; 0; 1; 0; 1]%nat, nlit (4 # 10)).
Proof. vm_compute. reflexivity. Qed.
Lemma ex_drift : exists (m : smodel b64 unit) stop,
  let start := ck_time (sm_clock m) in let step := ck_step (sm_clock m) in
  let d := (1 + value step) / 2 ^ 53 in
  a_number start /\ a_number stop /\ a_number step /\ ck_stop (sm_clock m) = Some stop
  /\ 0 < value step /\ Rabs (value start) <= 1 /\ Rabs (value stop) <= 1 /\ 1 + value step <= powerRZ 2 1023 /\ d < value step
  /\ value start + INR 3 * (value step + d) <= value stop < value start + (INR 3 + 1) * (value step - d).
Proof.
  destruct (ran_rounds _ _ _ _ _ _ ex_thirty_five) as [m [C _]]. exists m, (nlit (35 # 100)). cbv zeta. rewrite C.
  unfold clock_init. cbn [ck_time ck_step ck_stop].
  assert (N0 : a_number (nlit 0)) by (split; vm_compute; [reflexivity|exact I]).
  assert (N1 : a_number (nlit (1 # 10))) by (split; vm_compute; [reflexivity|exact I]).
  assert (N3 : a_number (nlit (35 # 100))) by (split; vm_compute; [reflexivity|exact I]).
  rewrite zero_value, tenth_value, third_value.
  replace (2 ^ 53) with 9007199254740992.
  2: { replace 2 with (IZR 2) by reflexivity. rewrite pow_IZR. reflexivity. }
  change (INR 3) with (2 + 1). rewrite Rabs_R0, Rabs_pos_eq by lra.
  repeat (split; [first [assumption|reflexivity|lra]|]). split.
  - apply Rle_trans with (powerRZ 2 1); [rewrite <- (bpow_powerRZ radix2); change (bpow radix2 1) with 2; lra|]. rewrite <- !(bpow_powerRZ radix2). apply bpow_le. lia.
  - split; [lra|]. lra.
Qed.
