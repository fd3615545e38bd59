(** Runs whose clock is kept in doubles. *)
From Coq Require Import List ZArith QArith Reals Lra Lia Bool Floats.SpecFloat.
From Flocq Require Import Core.
From Verif.Base Require Import Num Py Arr.
From Verif.Model Require Import Grid SequenceModel.
From Verif.Spec Require Import Column Doubles.
From Verif.Proofs Require Import SequenceP SequenceModelP ClockP DoubleP.
Import ListNotations.
Local Open Scope R_scope.

Section Any.
  Context {A : Type} `{Num A}.
  Definition atick {W} (m : smodel A W) : smodel A W :=
    mkModel (sm_world m) (sm_grid m)
      (mkClock (ck_start (sm_clock m)) (ck_stop (sm_clock m)) (ck_step (sm_clock m))
               (nadd (ck_time (sm_clock m)) (ck_step (sm_clock m)))) (sm_archived m).
  Fixpoint asteps {W} (n : nat) (pr : processes A W) (m : smodel A W) : result (smodel A W) :=
    match n with
    | O => Ok m
    | S n' => let* m1 := advance_components pr (ck_step (sm_clock m)) (atick m) in asteps n' pr m1
    end.

  Lemma one_step_any {W} (pr : processes A W) m stop : ck_stop (sm_clock m) = Some stop ->
    run_one_step pr None m
    = if nltb stop (nadd (ck_time (sm_clock m)) (ck_step (sm_clock m))) then ClockStop (atick m)
      else match advance_components pr (ck_step (sm_clock m)) (atick m) with
           | Ok m => Stepped m | Err e => Raised e end.
  Proof. intros Hs. unfold run_one_step, clock_advance, atick. rewrite Hs. reflexivity. Qed.

  Lemma run_steps_any {W} (pr : processes A W) stop step n : forall m fuel,
    ck_stop (sm_clock m) = Some stop -> ck_step (sm_clock m) = step ->
    (forall k, (1 <= k <= n)%nat -> nltb stop (added k (ck_time (sm_clock m)) step) = false) ->
    nltb stop (added (S n) (ck_time (sm_clock m)) step) = true -> (n < fuel)%nat ->
    model_run fuel pr m = Some (let* m' := asteps n pr m in Ok (atick m')).
  Proof.
    induction n as [|n IH]; intros m fuel Hs Hst F1 F2 Hf; destruct fuel as [|fuel]; try lia;
      cbn [model_run]; rewrite (one_step_any pr m stop Hs), Hst; cbn [asteps].
    - cbn [added] in F2. rewrite F2. reflexivity.
    - assert (L := F1 1%nat ltac:(lia)). cbn [added] in L. rewrite L, Hst.
      destruct (advance_components pr step (atick m)) as [m1|e] eqn:E; [|reflexivity]. cbn [bind].
      assert (Ec := advance_clock _ _ _ _ E). apply IH; [| | | |lia]; rewrite Ec; cbn [atick sm_clock ck_stop ck_step ck_time]; try assumption.
      + intros k Hk. rewrite Hst. exact (F1 (S k) ltac:(lia)).
      + rewrite Hst. exact F2.
  Qed.
  Lemma added_tail k : forall t s : A, added (S k) t s = nadd (added k t s) s.
  Proof. induction k as [|k IH]; intros t s; [reflexivity|]. cbn [added]. apply (IH (nadd t s) s). Qed.
  Lemma asteps_clock {W} (pr : processes A W) n : forall m m', asteps n pr m = Ok m' ->
    sm_clock m' = mkClock (ck_start (sm_clock m)) (ck_stop (sm_clock m)) (ck_step (sm_clock m))
                    (added n (ck_time (sm_clock m)) (ck_step (sm_clock m))).
  Proof.
    induction n as [|n IH]; intros m m' E.
    - injection E as <-. destruct (sm_clock m). reflexivity.
    - cbn [asteps] in E. okinv E Ea. rewrite (IH _ _ E), (advance_clock _ _ _ _ Ea). reflexivity.
  Qed.
  Lemma logged_asteps {W} (pr : processes A W) n : forall m log,
    asteps n (logged_processes pr) (with_log m log)
    = match asteps n pr m with
      | Ok m' => Ok (with_log m' (log ++ concat (repeat (map (fun i => (i, ck_step (sm_clock m)))
                                                    (seq 0 (length (pr_components pr)))) n)))
      | Err e => Err e
      end.
  Proof.
    induction n as [|n IH]; intros m log.
    - cbn. rewrite app_nil_r. reflexivity.
    - cbn [asteps repeat concat]. change (atick (with_log m log)) with (with_log (atick m) log).
      change (sm_clock (with_log m log)) with (sm_clock m). rewrite logged_advance.
      destruct (advance_components pr (ck_step (sm_clock m)) (atick m)) as [m1|] eqn:E; [|reflexivity]. cbn [bind].
      rewrite IH, (advance_clock _ _ _ _ E). cbn [atick sm_clock ck_step].
      destruct (asteps n pr m1); [|reflexivity]. rewrite <- app_assoc. reflexivity.
  Qed.

  Theorem rounds_any {W} (pr : processes A W) (m : smodel A W) stop n :
    ck_stop (sm_clock m) = Some stop ->
    (forall k, (1 <= k <= n)%nat -> nltb stop (added k (ck_time (sm_clock m)) (ck_step (sm_clock m))) = false) ->
    nltb stop (added (S n) (ck_time (sm_clock m)) (ck_step (sm_clock m))) = true ->
    makes_rounds pr m n (added (S n) (ck_time (sm_clock m)) (ck_step (sm_clock m))).
  Proof.
    intros Hs F1 F2 fuel Hf.
    rewrite (run_steps_any pr stop _ n m fuel Hs eq_refl F1 F2 Hf).
    rewrite (run_steps_any (logged_processes pr) stop _ n (with_log m []) fuel Hs eq_refl F1 F2 Hf).
    rewrite logged_asteps. destruct (asteps n pr m) as [m1|e] eqn:E; [|reflexivity]. cbn [bind]. split; [reflexivity|].
    cbn [atick sm_clock ck_time]. rewrite (asteps_clock _ _ _ _ E). cbn [ck_time ck_step]. symmetry. apply added_tail.
  Qed.

  (* a step that the addition loses *)
  Theorem stuck {W} (pr : processes A W) fuel : forall (m m' : smodel A W) stop,
    ck_stop (sm_clock m) = Some stop -> nadd (ck_time (sm_clock m)) (ck_step (sm_clock m)) = ck_time (sm_clock m) ->
    nltb stop (ck_time (sm_clock m)) = false -> model_run fuel pr m <> Some (Ok m').
  Proof.
    induction fuel as [|fuel IH]; intros m m' stop H1 H2 H3; [discriminate|]. cbn [model_run].
    rewrite (one_step_any pr m stop H1), H2, H3.
    destruct (advance_components _ _ _) as [m1|] eqn:E; [|discriminate].
    assert (Ec := advance_clock _ _ _ _ E). apply (IH m1 m' stop); rewrite Ec; cbn [atick sm_clock ck_stop ck_step ck_time];
      rewrite ?H2; try assumption; reflexivity.
  Qed.
End Any.

(** ** whole multiples of a power of two: nothing is lost *)
Lemma added_of e z2 : (-1074 <= e <= 970)%Z -> (0 < z2 <= 2 ^ 53)%Z -> forall k z0, (- 2 ^ 53 <= z0)%Z -> (z0 + Z.of_nat k * z2 <= 2 ^ 53)%Z ->
  added k (b64_of z0 e) (b64_of z2 e) = b64_of (z0 + Z.of_nat k * z2) e.
Proof.
  intros E Z2. induction k as [|k IH]; intros z0 L U.
  - cbn [added]. f_equal. lia.
  - cbn [added]. change (nadd (b64_of z0 e) (b64_of z2 e)) with (SFadd prec64 emax64 (b64_of z0 e) (b64_of z2 e)).
    assert (0 <= Z.of_nat k * z2)%Z by nia.
    rewrite of_add by (try assumption; nia). rewrite IH by nia. f_equal. nia.
Qed.
Theorem whole_rounds {W} (pr : processes b64 W) (m : smodel b64 W) e z0 z1 z2 n : (-1074 <= e <= 970)%Z ->
  (- 2 ^ 53 <= z0)%Z -> (- 2 ^ 53 <= z1)%Z -> (0 < z2)%Z -> (z0 + z2 <= 2 ^ 53)%Z -> (z1 + z2 <= 2 ^ 53)%Z -> (z2 <= 2 ^ 53)%Z ->
  ck_time (sm_clock m) = b64_of z0 e -> ck_stop (sm_clock m) = Some (b64_of z1 e) -> ck_step (sm_clock m) = b64_of z2 e ->
  whole_steps z0 z1 z2 n ->
  makes_rounds pr m n (b64_of (z0 + (Z.of_nat n + 1) * z2) e).
Proof.
  intros E L0 L1 P2 U0 U1 U2 Ct Cs Cp [F1 F2].
  assert (Sn : (Z.of_nat (S n) * z2 = Z.of_nat n * z2 + z2)%Z) by lia. rewrite Z.mul_add_distr_r, Z.mul_1_l in F2.
  assert (Pn : (0 <= Z.of_nat n * z2)%Z) by nia.
  assert (Top : (z0 + Z.of_nat (S n) * z2 <= 2 ^ 53)%Z) by (rewrite Sn; destruct F1 as [->|F1]; lia).
  assert (T := rounds_any pr m _ n Cs). rewrite Ct, Cp in T.
  rewrite (added_of e z2 E (conj P2 U2) (S n) z0 L0 Top) in T.
  replace (z0 + (Z.of_nat n + 1) * z2)%Z with (z0 + Z.of_nat (S n) * z2)%Z by lia. apply T.
  - intros k Hk. assert (Kn : (0 <= Z.of_nat k * z2 <= Z.of_nat n * z2)%Z) by nia.
    assert (Fn : (z0 + Z.of_nat n * z2 <= z1)%Z) by (destruct F1 as [->|F1]; lia).
    rewrite (added_of e z2 E (conj P2 U2) k z0 L0) by lia.
    change nltb with SFltb. rewrite of_ltb by lia. apply Z.ltb_ge. lia.
  - change nltb with SFltb. rewrite of_ltb by lia. apply Z.ltb_lt. lia.
Qed.
Lemma whole_steps_exist z0 z1 z2 : (0 < z2)%Z -> exists n, whole_steps z0 z1 z2 n.
Proof.
  intros P. exists (Z.to_nat ((z1 - z0) / z2)). unfold whole_steps.
  assert (D := Z.div_mod (z1 - z0) z2 ltac:(lia)). assert (M := Z.mod_pos_bound (z1 - z0) z2 P).
  destruct (Z_le_gt_dec 0 ((z1 - z0) / z2)) as [L|L].
  - rewrite Z2Nat.id by exact L. split; [right|]; nia.
  - replace (Z.to_nat ((z1 - z0) / z2)) with 0%nat by lia. split; [left; reflexivity|].
    assert (z2 * ((z1 - z0) / z2) <= z2 * -1)%Z by (apply Z.mul_le_mono_nonneg_l; lia). lia.
Qed.

(** ** any doubles: the clock drifts by no more than a rounding each step *)
Section Drift.
  Context (x0 s t : b64) (M : R).
  Hypothesis N0 : a_number x0. Hypothesis Ns : a_number s. Hypothesis Nt : a_number t.
  Hypothesis Ps : 0 < value s. Hypothesis B0 : Rabs (value x0) <= M. Hypothesis Bt : Rabs (value t) <= M.
  Hypothesis Top : M + value s <= bpow radix2 1023.
  Let d := (M + value s) * bpow radix2 (-53).
  Hypothesis Small : d < value s.

  Lemma d_pos : 0 < d.
  Proof.
    assert (0 <= M) by (apply Rle_trans with (2 := B0); apply Rabs_pos).
    apply Rmult_lt_0_compat; [lra|apply bpow_gt_0].
  Qed.
  (* while it is not past the stop, the time is a number and goes up *)
  Lemma added_drift k : (forall j, (1 <= j <= k)%nat -> nltb t (added j x0 s) = false) ->
    a_number (added k x0 s) /\ value x0 <= value (added k x0 s) /\ (k = 0%nat \/ value (added k x0 s) <= value t)
    /\ Rabs (value (added k x0 s) - (value x0 + INR k * value s)) <= INR k * d.
  Proof.
    pose proof d_pos as Dp.
    induction k as [|k IH]; intros F.
    - cbn [added INR]. repeat split; try apply N0; try lra; try (left; reflexivity).
      replace (value x0 - (value x0 + 0 * value s)) with 0 by ring. rewrite Rabs_R0. lra.
    - destruct IH as [Nk [Lk [Uk Ek]]]; [intros j Hj; apply F; lia|].
      assert (Fk := F (S k) ltac:(lia)). rewrite added_tail in *. change nadd with (SFadd prec64 emax64) in *.
      set (x := added k x0 s) in *.
      assert (Bx : Rabs (value x) <= M).
      { destruct Uk as [->|Uk]; [exact B0|]. apply Rabs_le. apply Rabs_le_inv in B0. apply Rabs_le_inv in Bt. lra. }
      assert (Bs : Rabs (value x + value s) <= M + value s).
      { apply Rle_trans with (1 := Rabs_triang _ _). rewrite (Rabs_pos_eq (value s)) by lra. lra. }
      destruct (add_error x s Nk Ns) as [N' E']; [lra|].
      assert (Ed : Rabs (value (SFadd prec64 emax64 x s) - (value x + value s)) <= d).
      { apply Rle_trans with (1 := E'). apply Rmult_le_compat_r; [apply bpow_ge_0|exact Bs]. }
      apply Rabs_le_inv in Ed. apply Rabs_le_inv in Ek.
      split; [exact N'|]. split; [lra|]. split.
      + right. apply (ltb_value_false t _ Nt N'). exact Fk.
      + rewrite S_INR. apply Rabs_le. lra.
  Qed.
  Lemma added_next k : (forall j, (1 <= j <= k)%nat -> nltb t (added j x0 s) = false) ->
    a_number (added (S k) x0 s)
    /\ Rabs (value (added (S k) x0 s) - (value x0 + (INR k + 1) * value s)) <= (INR k + 1) * d.
  Proof.
    intros F. destruct (added_drift k F) as [Nk [Lk [Uk Ek]]]. rewrite added_tail. change nadd with (SFadd prec64 emax64).
    set (x := added k x0 s) in *.
    assert (Bx : Rabs (value x) <= M).
    { destruct Uk as [->|Uk]; [exact B0|]. apply Rabs_le. apply Rabs_le_inv in B0. apply Rabs_le_inv in Bt. lra. }
    assert (Bs : Rabs (value x + value s) <= M + value s).
    { apply Rle_trans with (1 := Rabs_triang _ _). rewrite (Rabs_pos_eq (value s)) by lra. lra. }
    destruct (add_error x s Nk Ns) as [N' E']; [lra|]. split; [exact N'|].
    assert (Ed : Rabs (value (SFadd prec64 emax64 x s) - (value x + value s)) <= d).
    { apply Rle_trans with (1 := E'). apply Rmult_le_compat_r; [apply bpow_ge_0|exact Bs]. }
    apply Rabs_le_inv in Ed. apply Rabs_le_inv in Ek. apply Rabs_le. lra.
  Qed.
  (* the first time past the stop *)
  Lemma first_past : exists n, (forall k, (1 <= k <= n)%nat -> nltb t (added k x0 s) = false) /\ nltb t (added (S n) x0 s) = true.
  Proof.
    assert (P : forall n, (exists k, (k < n)%nat /\ (forall j, (1 <= j <= k)%nat -> nltb t (added j x0 s) = false) /\ nltb t (added (S k) x0 s) = true)
                 \/ forall j, (1 <= j <= n)%nat -> nltb t (added j x0 s) = false).
    { induction n as [|n [[k [K1 K2]]|IH]].
      - right. intros j Hj. lia.
      - left. exists k. split; [lia|exact K2].
      - destruct (nltb t (added (S n) x0 s)) eqn:E.
        + left. exists n. split; [lia|]. split; assumption.
        + right. intros j Hj. destruct (Nat.eq_dec j (S n)) as [->|]; [exact E|]. apply IH. lia. }
    destruct (archimed ((value t - value x0) / (value s - d))) as [A1 _].
    set (N := S (Z.to_nat (up ((value t - value x0) / (value s - d))))).
    destruct (P N) as [[k [_ K]]|F]; [exists k; exact K|]. exfalso.
    destruct (added_drift N F) as [_ [_ [U E]]]. destruct U as [U|U]; [discriminate U|]. apply Rabs_le_inv in E.
    assert (G : value t - value x0 < INR N * (value s - d)).
    { replace (value t - value x0) with ((value t - value x0) / (value s - d) * (value s - d)) by (field; lra).
      apply Rmult_lt_compat_r; [lra|]. apply Rlt_le_trans with (1 := A1). rewrite INR_IZR_INZ. apply IZR_le. unfold N. lia. }
    lra.
  Qed.
  Lemma drift_rounds {W} (pr : processes b64 W) (m : smodel b64 W) :
    ck_time (sm_clock m) = x0 -> ck_stop (sm_clock m) = Some t -> ck_step (sm_clock m) = s ->
    exists n time, makes_rounds pr m n time
      /\ (n = 0%nat \/ value x0 + INR n * (value s - d) <= value t)
      /\ value t < value x0 + (INR n + 1) * (value s + d)
      /\ a_number time /\ Rabs (value time - (value x0 + (INR n + 1) * value s)) <= (INR n + 1) * d.
  Proof.
    intros Ct Cs Cp. destruct first_past as [n [F1 F2]]. exists n, (added (S n) x0 s).
    destruct (added_next n F1) as [N' E']. split; [|split; [|split; [|split; assumption]]].
    - rewrite <- Ct, <- Cp. apply (rounds_any pr m t n Cs); rewrite Ct, Cp; assumption.
    - destruct (added_drift n F1) as [_ [_ [[U|U] E]]]; [left; exact U|right]. apply Rabs_le_inv in E. lra.
    - apply (ltb_value t _ Nt N') in F2. apply Rabs_le_inv in E'. lra.
  Qed.
End Drift.
