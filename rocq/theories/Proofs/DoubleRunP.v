(** Sequence.run in doubles. *)
From Coq Require Import List ZArith QArith Reals Lra Lia Bool Floats.SpecFloat.
From Flocq Require Import Core Round BinarySingleNaN.
From Verif.Base Require Import Num Py Arr.
From Verif.Model Require Import Grid Sequence.
From Verif.Spec Require Import Column Doubles DoubleRun.
From Verif.Proofs Require Import SequenceP StartP DoubleP DoubleLayersP DoubleMassP DoubleDivP.
Import ListNotations.
Local Open Scope R_scope.

#[local] Existing Instances Hprec Hmax.
#[local] Notation fexp64 := (SpecFloat.fexp prec64 emax64).
#[local] Notation rnd := (round radix2 fexp64 ZnearestE).

(** ** the steps of a run, in any arithmetic *)
Section Any.
  Context {A : Type} `{Num A} {W : Type}.
  Fixpoint plan (n : nat) (T d t : A) : list A :=
    match n with
    | O => []
    | S n' => let e := nmin d (nsub T t) in e :: plan n' T d (nadd t e)
    end.
  Lemma run_plan (components : list (component A W)) T d n : forall s,
    run_steps components T d n s = foldM (fun s e => sequence_update components e s) (plan n T d (sq_time s)) s.
  Proof.
    induction n as [|n IH]; intros s; [reflexivity|]. cbn [run_steps plan foldM].
    destruct (sequence_update components (nmin d (nsub T (sq_time s))) s) as [s1|] eqn:E; [|reflexivity]. cbn [bind].
    destruct (update_records _ _ _ _ E) as [ge [re [Et _]]]. rewrite IH, Et. reflexivity.
  Qed.
  Lemma updates_time (components : list (component A W)) ds : forall s s',
    foldM (fun s e => sequence_update components e s) ds s = Ok s' -> sq_time s' = fold_left nadd ds (sq_time s).
  Proof.
    induction ds as [|e ds IH]; intros s s' E; [injection E as <-; reflexivity|]. cbn [foldM] in E.
    destruct (sequence_update components e s) as [s1|] eqn:E1; [|discriminate E]. cbn [bind] in E.
    destruct (update_records _ _ _ _ E1) as [ge [re [Et _]]]. rewrite (IH _ _ E), Et. reflexivity.
  Qed.
  Lemma plan_length n (T d : A) : forall t, length (plan n T d t) = n.
  Proof. induction n as [|n IH]; intros t; [reflexivity|]. cbn [plan length]. rewrite IH. reflexivity. Qed.
End Any.

Lemma min_value a b : a_number a -> a_number b -> a_number (nmin a b) /\ value (nmin a b) = Rmin (value a) (value b).
Proof.
  intros X Y. unfold nmin. change nltb with SFltb. destruct (SFltb b a) eqn:E.
  - apply (ltb_value b a Y X) in E. split; [exact Y|]. rewrite Rmin_right by lra. reflexivity.
  - apply (ltb_value_false b a Y X) in E. split; [exact X|]. rewrite Rmin_left by lra. reflexivity.
Qed.
Lemma not_zero d : a_number d -> 0 < value d -> neqb d (n0 : b64) = false.
Proof.
  intros [V F] P. rewrite n0_b64. change neqb with SFeqb. destruct d as [s|s| |s m e]; try destruct F; [cbn in P; lra|].
  unfold SFeqb. destruct s; reflexivity.
Qed.
Lemma run_by {W} (components : list (component b64 W)) until dt s :
  a_number (longest dt s) -> 0 < value (longest dt s) ->
  let ds := plan (Z.to_nat (n_steps (goal until s) (longest dt s) (sq_time s))) (goal until s) (longest dt s) (sq_time s) in
  runs_by components until dt s ds
  /\ forall s', sequence_run components until dt s = Ok s' -> sq_time s' = fold_left nadd ds (sq_time s).
Proof.
  intros N P ds.
  assert (E : forall V (cs : list (component b64 V)) (x : sequence b64 V), sq_time x = sq_time s -> sq_time_step x = sq_time_step s ->
            sequence_run cs until dt x = foldM (fun s e => sequence_update cs e s) ds x).
  { intros V cs x E1 E2. unfold sequence_run. cbv zeta. rewrite E1, E2. fold (longest dt s). fold (goal until s). rewrite (not_zero _ N P).
    rewrite run_plan, E1. reflexivity. }
  split.
  - unfold runs_by. rewrite (E W components s eq_refl eq_refl), (E _ (mapi logged components) (seq_log s []) eq_refl eq_refl).
    rewrite logged_updates. destruct (foldM _ ds s) as [s'|]; reflexivity.
  - intros s' Es. rewrite (E W components s eq_refl eq_refl) in Es. exact (updates_time components ds s s' Es).
Qed.

(** ** how many *)
Lemma steps_count T d t : a_number (nsub T t) -> a_number d -> 0 <= value (nsub T t) <= bpow radix2 970 -> 0 < value d ->
  value (nsub T t) <= bpow radix2 50 * value d ->
  exists n : nat, Z.to_nat (n_steps T d t) = n /\ (INR n - 1) * value d < value (nsub T t) <= INR n * value d.
Proof.
  intros X D Bx Pd Bq. destruct (divmod_exact _ _ X D Bx Pd Bq) as [q [Q [Qi [Nm [Vm Rm]]]]].
  unfold n_steps. change nint with b64_int. change (nfloordiv (nsub T t) d) with (fst (b64_divmod (nsub T t) d)).
  change (nmod (nsub T t) d) with (snd (b64_divmod (nsub T t) d)). rewrite Qi, n0_b64. change nltb with SFltb.
  set (x := nsub T t) in *.
  assert (Z0 : a_number (S754_zero false)) by (split; [reflexivity|exact I]).
  eexists. split; [reflexivity|]. rewrite INR_IZR_INZ.
  destruct (SFltb (S754_zero false) (snd (b64_divmod x d))) eqn:L.
  - apply (ltb_value _ _ Z0 Nm) in L. change (value (S754_zero false)) with 0 in L. rewrite Z2Nat.id by lia. rewrite plus_IZR. lra.
  - apply (ltb_value_false _ _ Z0 Nm) in L. change (value (S754_zero false)) with 0 in L. rewrite Z2Nat.id by lia. lra.
Qed.

(** ** numbers that are exact in binary *)
Section Exact.
  Variable k : Z.
  Hypothesis K : (0 <= k <= 1074)%Z.
  Definition grid_value (z : Z) (x : b64) : Prop := a_number x /\ value x = IZR z * bpow radix2 (- k).
  Lemma grid_lt a b x y : grid_value a x -> grid_value b y -> (value x < value y <-> (a < b)%Z).
  Proof.
    intros [_ X] [_ Y]. rewrite X, Y. assert (B := bpow_gt_0 radix2 (- k)). split; intros L.
    - apply lt_IZR. apply Rmult_lt_reg_r with (1 := B). exact L.
    - apply Rmult_lt_compat_r; [exact B|]. apply IZR_lt. exact L.
  Qed.
  Lemma grid_sub a b x y : grid_value a x -> grid_value b y -> (Z.abs (a - b) <= 2 ^ 53)%Z -> grid_value (a - b) (nsub x y).
  Proof.
    intros [X Vx] [Y Vy] B. change nsub with (SFsub prec64 emax64).
    assert (S : value x - value y = IZR (a - b) * bpow radix2 (- k)) by (rewrite Vx, Vy, minus_IZR; ring).
    destruct (sub_value x y X Y) as [N V]; rewrite S, rnd_small in * by lia; [apply small_bound; lia|]. split; [exact N|exact V].
  Qed.
  Lemma grid_add a b x y : grid_value a x -> grid_value b y -> (Z.abs (a + b) <= 2 ^ 53)%Z -> grid_value (a + b) (nadd x y).
  Proof.
    intros [X Vx] [Y Vy] B. change nadd with (SFadd prec64 emax64).
    assert (S : value x + value y = IZR (a + b) * bpow radix2 (- k)) by (rewrite Vx, Vy, plus_IZR; ring).
    destruct (add_value x y X Y) as [N V]; rewrite S, rnd_small in * by lia; [apply small_bound; lia|]. split; [exact N|exact V].
  Qed.
  Lemma grid_min a b x y : grid_value a x -> grid_value b y -> grid_value (Z.min a b) (nmin x y).
  Proof.
    intros X Y. destruct (min_value x y (proj1 X) (proj1 Y)) as [N V]. split; [exact N|]. rewrite V.
    destruct (Z.min_spec a b) as [[L ->]|[L ->]].
    - rewrite Rmin_left; [exact (proj2 X)|]. apply (grid_lt _ _ _ _ X Y) in L. lra.
    - rewrite Rmin_right; [exact (proj2 Y)|]. destruct (Rle_or_lt (value y) (value x)) as [Q|Q]; [exact Q|].
      apply (grid_lt _ _ _ _ X Y) in Q. lia.
  Qed.
  Lemma exact_plan T d z1 z2 : grid_value z1 T -> grid_value z2 d -> (0 < z2 <= 2 ^ 52)%Z -> (Z.abs z1 <= 2 ^ 52)%Z ->
    forall n t z, grid_value z t -> (Z.abs z <= 2 ^ 52)%Z -> (Z.of_nat n * z2 < z1 - z <= (Z.of_nat n + 1) * z2)%Z ->
    (forall e, In e (plan (S n) T d t) -> a_number e /\ 0 < value e <= value d)
    /\ grid_value z1 (fold_left nadd (plan (S n) T d t) t).
  Proof.
    intros GT Gd Z2 Z1. assert (Zero : grid_value 0 (S754_zero false)) by (split; [split; [reflexivity|exact I]|cbn; ring]).
    induction n as [|n IH]; intros t z Gt Zt R.
    - cbn [plan fold_left]. assert (Ge := grid_min _ _ _ _ Gd (grid_sub _ _ _ _ GT Gt ltac:(lia))).
      rewrite Z.min_r in Ge by lia. split.
      + intros e [<-|[]]. split; [exact (proj1 Ge)|]. split.
        * change 0 with (value (S754_zero false)). apply (grid_lt _ _ _ _ Zero Ge). lia.
        * destruct (min_value d (nsub T t) (proj1 Gd) (proj1 (grid_sub _ _ _ _ GT Gt ltac:(lia)))) as [_ ->]. apply Rmin_l.
      + replace z1 with (z + (z1 - z))%Z by lia. apply grid_add; [exact Gt|exact Ge|lia].
    - cbn [plan fold_left]. assert (Ge := grid_min _ _ _ _ Gd (grid_sub _ _ _ _ GT Gt ltac:(lia))).
      rewrite Z.min_l in Ge by lia. set (e0 := nmin d (nsub T t)) in *.
      assert (Gt' := grid_add _ _ _ _ Gt Ge ltac:(lia)).
      destruct (IH (nadd t e0) (z + z2)%Z Gt' ltac:(lia) ltac:(lia)) as [I1 I2]. split.
      + intros e [<-|He].
        * split; [exact (proj1 Ge)|]. split; [change 0 with (value (S754_zero false)); apply (grid_lt _ _ _ _ Zero Ge); lia|].
          unfold e0. destruct (min_value d (nsub T t) (proj1 Gd) (proj1 (grid_sub _ _ _ _ GT Gt ltac:(lia)))) as [_ ->]. apply Rmin_l.
        * exact (I1 e He).
      + exact I2.
  Qed.
End Exact.

Theorem exact_run {W} (components : list (component b64 W)) until dt s k z0 z1 z2 :
  (0 <= k <= 1074)%Z -> parts k z0 (sq_time s) -> parts k z1 (goal until s) -> parts k z2 (longest dt s) ->
  (0 < z2)%Z -> (z0 < z1)%Z -> (z1 - z0 <= 2 ^ 50 * z2)%Z ->
  exists ds, runs_by components until dt s ds
    /\ (forall e, In e ds -> a_number e /\ 0 < value e <= value (longest dt s))
    /\ ((Z.of_nat (length ds) - 1) * z2 < z1 - z0 <= Z.of_nat (length ds) * z2)%Z
    /\ forall s', sequence_run components until dt s = Ok s' ->
         a_number (sq_time s') /\ value (sq_time s') = value (goal until s).
Proof.
  intros K [N0 [B0 V0]] [N1 [B1 V1]] [N2 [B2 V2]] P2 L Q.
  set (T := goal until s) in *. set (d := longest dt s) in *. set (t := sq_time s) in *.
  assert (G0 : grid_value k z0 t) by (split; [exact N0|]; rewrite bpow_powerRZ; exact V0).
  assert (G1 : grid_value k z1 T) by (split; [exact N1|]; rewrite bpow_powerRZ; exact V1).
  assert (G2 : grid_value k z2 d) by (split; [exact N2|]; rewrite bpow_powerRZ; exact V2).
  assert (Gx := grid_sub k K _ _ _ _ G1 G0 ltac:(lia)).
  assert (Bp := bpow_gt_0 radix2 (- k)).
  assert (Pd : 0 < value d) by (rewrite (proj2 G2); apply Rmult_lt_0_compat; [apply IZR_lt; lia|exact Bp]).
  destruct (steps_count T d t (proj1 Gx) N2) as [n [En [C1 C2]]].
  - rewrite (proj2 Gx). split; [apply Rmult_le_pos; [apply IZR_le; lia|lra]|].
    apply Rle_trans with (bpow radix2 53 * bpow radix2 (- k)).
    + apply Rmult_le_compat_r; [lra|]. change (bpow radix2 53) with (IZR (2 ^ 53)). apply IZR_le. lia.
    + rewrite <- bpow_plus. apply bpow_le. lia.
  - exact Pd.
  - rewrite (proj2 Gx), (proj2 G2). change (bpow radix2 50) with (IZR (2 ^ 50)). rewrite <- Rmult_assoc, <- mult_IZR.
    apply Rmult_le_compat_r; [lra|]. apply IZR_le. lia.
  - rewrite (proj2 Gx), (proj2 G2), INR_IZR_INZ, <- Rmult_assoc in C1, C2.
    apply Rmult_lt_reg_r in C1; [|exact Bp]. apply Rmult_le_reg_r in C2; [|exact Bp].
    rewrite <- minus_IZR, <- mult_IZR in C1. rewrite <- mult_IZR in C2. apply lt_IZR in C1. apply le_IZR in C2.
    destruct n as [|n]; [exfalso; cbn in C2; lia|].
    destruct (run_by components until dt s N2 Pd) as [R1 R2]. fold T d t in R1, R2. rewrite En in R1, R2.
    destruct (exact_plan k K T d z1 z2 G1 G2 ltac:(lia) B1 n t z0 G0 B0 ltac:(lia)) as [I1 I2].
    exists (plan (S n) T d t). split; [exact R1|]. split; [exact I1|]. rewrite plan_length. split; [lia|].
    intros s' Es. rewrite (R2 s' Es). split; [exact (proj1 I2)|]. rewrite (proj2 I2), (proj2 G1). reflexivity.
Qed.

(** ** any doubles *)
Notation u := (bpow radix2 (-53)).
Lemma u_pos : 0 < u. Proof. apply bpow_gt_0. Qed.
Lemma u_small : u * 9007199254740992 = 1.
Proof. change 9007199254740992 with (bpow radix2 53). rewrite <- bpow_plus. reflexivity. Qed.
Section Drift.
  Variables (T d : b64) (t0 M : R).
  Hypotheses (NT : a_number T) (Nd : a_number d) (Pd : 0 < value d) (L0 : t0 <= value T)
    (B0 : Rabs t0 <= M) (BT : Rabs (value T) <= M) (Top : M <= bpow radix2 1000).
  Definition ideal (k : nat) : R := Rmin (t0 + INR k * value d) (value T).
  Lemma ideal_step k : Rmin (ideal k + value d) (value T) = ideal (S k).
  Proof.
    unfold ideal. rewrite S_INR, Rmult_plus_distr_r, Rmult_1_l. set (a := INR k * value d). unfold Rmin.
    destruct (Rle_dec (t0 + a) (value T)); repeat match goal with |- context [Rle_dec ?x ?y] => destruct (Rle_dec x y) end; lra.
  Qed.
  Lemma drift_step t k : a_number t -> INR k <= 1125899906842624 -> Rabs (value t - ideal k) <= 6 * (INR k * (M * u)) ->
    a_number (nmin d (nsub T t)) /\ - (6 * ((INR k + 1) * (M * u))) <= value (nmin d (nsub T t)) <= value d
    /\ a_number (nadd t (nmin d (nsub T t)))
    /\ Rabs (value (nadd t (nmin d (nsub T t))) - ideal (S k)) <= 6 * (INR (S k) * (M * u)).
  Proof.
    intros Nt Kk Ht. assert (U := u_pos). assert (Us := u_small).
    assert (M0 : 0 <= M) by (apply Rle_trans with (2 := B0); apply Rabs_pos).
    assert (Kp : 0 <= INR k) by apply pos_INR.
    set (w := M * u) in *. assert (W0 : 0 <= w) by (apply Rmult_le_pos; lra).
    assert (Wm : w * 9007199254740992 = M) by (unfold w; rewrite Rmult_assoc, Us; ring).
    set (c := INR k * w) in *. assert (C0 : 0 <= c) by (apply Rmult_le_pos; assumption).
    assert (C1 : c <= 1125899906842624 * w) by (apply Rmult_le_compat_r; assumption).
    assert (Ik : t0 <= ideal k <= value T).
    { unfold ideal. split; [apply Rmin_glb; [|exact L0]|apply Rmin_r]. assert (0 <= INR k * value d) by (apply Rmult_le_pos; lra). lra. }
    apply Rabs_le_inv in B0 as B0'. apply Rabs_le_inv in BT as BT'. apply Rabs_le_inv in Ht as Ht'.
    assert (M1023 : 4 * M <= bpow radix2 1023).
    { apply Rle_trans with (bpow radix2 2 * bpow radix2 1000); [change (bpow radix2 2) with 4; lra|]. rewrite <- bpow_plus. apply bpow_le. lia. }
    assert (Bs : Rabs (value T - value t) <= 3 * M) by (apply Rabs_le; lra).
    destruct (sub_error T t NT Nt ltac:(lra)) as [Ns Es]. change (SFsub prec64 emax64) with (@nsub b64 _) in Ns, Es.
    assert (Es' : Rabs (value (nsub T t) - (value T - value t)) <= 3 * w).
    { apply Rle_trans with (1 := Es). unfold w. rewrite <- Rmult_assoc. apply Rmult_le_compat_r; lra. }
    apply Rabs_le_inv in Es'. destruct (min_value d (nsub T t) Nd Ns) as [Ne Ve]. set (e := nmin d (nsub T t)) in *.
    split; [exact Ne|]. split; [|].
    { rewrite Ve. split; [|apply Rmin_l]. replace ((INR k + 1) * w) with (c + w) by (unfold c; ring). apply Rmin_glb; lra. }
    assert (Se : value t + value e = Rmin (value t + value d) (value T + (value (nsub T t) - (value T - value t)))).
    { rewrite Ve. unfold Rmin. destruct (Rle_dec (value d) (value (nsub T t))); destruct (Rle_dec _ _); lra. }
    assert (Bse : Rabs (value t + value e) <= 3 * M).
    { apply Rabs_le. rewrite Se. split; [apply Rmin_glb; lra|]. apply Rle_trans with (1 := Rmin_r _ _). lra. }
    destruct (add_error t e Nt Ne ltac:(lra)) as [Na Ea]. change (SFadd prec64 emax64) with (@nadd b64 _) in Na, Ea.
    assert (Ea' : Rabs (value (nadd t e) - (value t + value e)) <= 3 * w).
    { apply Rle_trans with (1 := Ea). unfold w. rewrite <- Rmult_assoc. apply Rmult_le_compat_r; lra. }
    apply Rabs_le_inv in Ea'. split; [exact Na|].
    rewrite <- ideal_step, S_INR. replace ((INR k + 1) * w) with (c + w) by (unfold c; ring).
    apply Rabs_le. destruct Ea' as [Ea1 Ea2]. rewrite Se in Ea1, Ea2. revert Ea1 Ea2.
    set (v := value (nadd t e)). set (dl := value (nsub T t) - (value T - value t)) in *.
    unfold Rmin. destruct (Rle_dec (value t + value d) (value T + dl)); destruct (Rle_dec (ideal k + value d) (value T)); intros; split; lra.
  Qed.
  Lemma drift_plan n : forall k t, a_number t -> INR k + INR n <= 1125899906842624 -> Rabs (value t - ideal k) <= 6 * (INR k * (M * u)) ->
    (forall e, In e (plan n T d t) -> a_number e /\ - (6 * ((INR k + INR n) * (M * u))) <= value e <= value d)
    /\ a_number (fold_left nadd (plan n T d t) t)
    /\ Rabs (value (fold_left nadd (plan n T d t) t) - ideal (k + n)) <= 6 * (INR (k + n) * (M * u)).
  Proof.
    assert (M0 : 0 <= M) by (apply Rle_trans with (2 := B0); apply Rabs_pos).
    assert (W0 : 0 <= M * u) by (apply Rmult_le_pos; [exact M0|apply Rlt_le, u_pos]).
    induction n as [|n IH]; intros k t Nt Kk Ht.
    - cbn [plan fold_left]. rewrite Nat.add_0_r. split; [intros e []|]. split; assumption.
    - rewrite S_INR in Kk. assert (Np := pos_INR n).
      destruct (drift_step t k Nt ltac:(lra) Ht) as [S1 [S2 [S3 S4]]]. cbn [plan fold_left].
      destruct (IH (S k) _ S3 ltac:(rewrite S_INR; lra) S4) as [I1 [I2 I3]]. rewrite Nat.add_succ_r. split; [|split; assumption].
      intros e [<-|He]; [|rewrite S_INR; rewrite S_INR in I1; replace (INR k + (INR n + 1)) with (INR k + 1 + INR n) by ring; exact (I1 e He)].
      split; [exact S1|]. split; [|exact (proj2 S2)]. apply Rle_trans with (2 := proj1 S2). rewrite S_INR.
      assert (0 <= INR n * (M * u)) by (apply Rmult_le_pos; assumption).
      replace ((INR k + (INR n + 1)) * (M * u)) with ((INR k + 1) * (M * u) + INR n * (M * u)) by ring. lra.
  Qed.
End Drift.

Theorem drift_run {W} (components : list (component b64 W)) until dt s M :
  let T := goal until s in let d := longest dt s in let t := sq_time s in
  a_number T -> a_number d -> a_number t -> 0 < value d -> value t < value T ->
  Rabs (value t) <= M -> Rabs (value T) <= M -> M <= bpow radix2 960 -> value T - value t <= bpow radix2 49 * value d ->
  exists ds, runs_by components until dt s ds
    /\ (INR (length ds) - 1) * value d < (value T - value t) * (1 + u)
    /\ (value T - value t) * (1 - u) <= INR (length ds) * value d
    /\ (forall e, In e ds -> a_number e /\ - (6 * ((INR (length ds) + 1) * (M * u))) <= value e <= value d)
    /\ forall s', sequence_run components until dt s = Ok s' ->
         a_number (sq_time s') /\ Rabs (value (sq_time s') - value T) <= 6 * ((INR (length ds) + 1) * (M * u)).
Proof.
  intros T d t NT Nd Nt Pd L Bt BT Top Few. assert (U := u_pos). assert (Us := u_small).
  assert (M0 : 0 <= M) by (apply Rle_trans with (2 := Bt); apply Rabs_pos).
  apply Rabs_le_inv in Bt as Bt'. apply Rabs_le_inv in BT as BT'.
  assert (M970 : 4 * M <= bpow radix2 970).
  { apply Rle_trans with (bpow radix2 2 * bpow radix2 960); [change (bpow radix2 2) with 4; lra|]. rewrite <- bpow_plus. apply bpow_le. lia. }
  assert (M1023 : bpow radix2 970 <= bpow radix2 1023) by (apply bpow_le; lia).
  assert (M1000 : M <= bpow radix2 1000) by (apply Rle_trans with (1 := Top); apply bpow_le; lia).
  destruct (sub_error T t NT Nt) as [Ns Es]; [rewrite Rabs_pos_eq; lra|]. change (SFsub prec64 emax64) with (@nsub b64 _) in Ns, Es.
  rewrite (Rabs_pos_eq (value T - value t)) in Es by lra. apply Rabs_le_inv in Es.
  set (g := value T - value t) in *. assert (G0 : 0 < g) by (unfold g; lra).
  assert (Gu : g * u <= g * / 4) by (apply Rmult_le_compat_l; lra).
  assert (Gu0 : 0 <= g * u) by (apply Rmult_le_pos; lra).
  destruct (steps_count T d t Ns Nd) as [n [En [C1 C2]]].
  - split; [lra|]. unfold g in *. lra.
  - exact Pd.
  - assert (E50 : bpow radix2 50 = 2 * bpow radix2 49) by (change (bpow radix2 50) with (IZR (2 * 2 ^ 49)); rewrite mult_IZR; reflexivity).
    rewrite E50, Rmult_assoc. lra.
  - destruct (run_by components until dt s Nd Pd) as [R1 R2]. fold T d t in R1, R2. rewrite En in R1, R2.
    assert (Nn : INR n <= 1125899906842624).
    { apply Rmult_le_reg_r with (value d); [exact Pd|]. change (bpow radix2 49) with 562949953421312 in Few. lra. }
    assert (W0 : 0 <= M * u) by (apply Rmult_le_pos; lra).
    assert (I0 : Rabs (value t - ideal T d (value t) 0) <= 6 * (INR 0 * (M * u))).
    { unfold ideal. cbn [INR]. rewrite Rmult_0_l, Rplus_0_r, Rmin_left by lra. rewrite Rminus_diag_eq by reflexivity. rewrite Rabs_R0. lra. }
    destruct (drift_plan T d (value t) M NT Nd Pd (Rlt_le _ _ L) Bt BT M1000 n 0 t Nt ltac:(cbn [INR]; lra) I0) as [P1 [P2 P3]].
    cbn [INR] in P1. rewrite Nat.add_0_l in P3. rewrite Rplus_0_l in P1.
    exists (plan n T d t). split; [exact R1|]. rewrite plan_length. split; [rewrite Rmult_plus_distr_l, Rmult_1_r; lra|].
    split; [rewrite Rmult_minus_distr_l, Rmult_1_r; lra|]. split.
    + intros e He. destruct (P1 e He) as [E1 E2]. split; [exact E1|]. rewrite Rmult_plus_distr_r, Rmult_1_l. lra.
    + intros s' Es'. rewrite (R2 s' Es'). split; [exact P2|].
      assert (Gm : g * u <= 2 * (M * u)) by (rewrite <- Rmult_assoc; apply Rmult_le_compat_r; [lra|unfold g; lra]).
      assert (In1 : value T - 2 * (M * u) <= ideal T d (value t) n <= value T).
      { unfold ideal. split; [|apply Rmin_r]. apply Rmin_glb; [|lra]. unfold g in *. lra. }
      apply Rabs_le_inv in P3. apply Rabs_le. rewrite Rmult_plus_distr_r, Rmult_1_l. lra.
Qed.
