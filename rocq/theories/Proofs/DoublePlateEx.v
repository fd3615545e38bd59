(** A plate in doubles. *)
From Coq Require Import List ZArith QArith Reals Lra Lia Bool Arith Floats.SpecFloat.
From Flocq Require Import Core.
From Verif.Base Require Import Num Py Arr.
From Verif.Model Require Import Flexure.
From Verif.Spec Require Import History Doubles DoublePlate.
From Verif.Proofs Require Import DoubleP DoubleSeaEx DoublePlateP.
Import ListNotations.
Local Open Scope R_scope.

(* a function that is between 0 and 1 *)
Definition half_exp : Trans b64 :=
  {| nexp := fun _ => nlit (1 # 2); nsin := fun x => x; ncos := fun x => x; nsqrt := fun x => x; npi := nlit 3 |}.
Definition ex_plate : result (dyn_flexure b64) := dyn_init (Some (nlit 7000)) 1 1.
Definition ex_plate_hist : list (field b64 * b64) := [([[nlit 1]], nlit 100); ([[nlit (1 # 10)]], nlit 100)].
Definition ex_owed : b64 := S754_finite false 5404319552844595 (-54).
Lemma ex_half_exp : @exp_like half_exp.
Proof.
  intros x _ _. cbn [nexp half_exp]. replace (nlit (1 # 2) : b64) with (S754_finite false 4503599627370496 (-53)) by (vm_compute; reflexivity).
  split; [split; [reflexivity|exact I]|]. cbn [value]. rewrite <- (bpow_powerRZ radix2). change (bpow radix2 (-53)) with (/ IZR 9007199254740992). lra.
Qed.
Lemma ex_plate_run : match ex_plate with
  | Ok c => let '(c', outs) := @plate_run half_exp c ex_plate_hist in df_pool c' = [[ex_owed]] /\ outs = [[[nlit (1 # 2)]]; [[ex_owed]]]
  | Err _ => False
  end.
Proof. vm_compute. split; reflexivity. Qed.
Lemma ex_plate_values : value ex_owed = IZR 5404319552844595 / IZR 18014398509481984 /\ value (nlit (1 # 2)) = / 2 /\ value (nlit 1) = 1
  /\ value (nlit (1 # 10)) = IZR 7205759403792794 / IZR 72057594037927936 /\ value (nlit 100) = 100.
Proof.
  destruct ex_tenths as [V1 [V2 _]]. unfold ex_owed.
  replace (nlit (1 # 2) : b64) with (S754_finite false 4503599627370496 (-53)) by (vm_compute; reflexivity).
  replace (nlit 100 : b64) with (S754_finite false 7036874417766400 (-46)) by (vm_compute; reflexivity).
  rewrite V1, V2. cbn [value]. rewrite <- !(bpow_powerRZ radix2). change (bpow radix2 (-54)) with (/ IZR 18014398509481984).
  change (bpow radix2 (-53)) with (/ IZR 9007199254740992). change (bpow radix2 (-46)) with (/ IZR 70368744177664). repeat split; lra.
Qed.
Lemma ex_plate_fits : a_number (nlit 7000) /\ (exists c, dyn_init (Some (nlit 7000)) 1 1 = Ok c)
  /\ (forall d dt, In (d, dt) ex_plate_hist -> shaped 1 1 d /\ a_number (at2 n0 d 0 0) /\ a_number dt /\ 0 <= value dt <= 2 ^ 900)
  /\ INR (length ex_plate_hist) <= 2 ^ 50 /\ size_at 0 0 (map fst ex_plate_hist) <= 2 ^ 1000.
Proof.
  destruct ex_plate_values as (_ & _ & V1 & V2 & V3).
  split; [apply ex_numbers; vm_compute; reflexivity|]. split; [pose proof ex_plate_run as H; unfold ex_plate in H; destruct (dyn_init _ _ _) as [c|]; [exists c; reflexivity|contradiction]|].
  assert (B : 128 <= 2 ^ 50) by (replace 128 with (2 ^ 7) by ring; apply Rle_pow; [lra|lia]).
  assert (B9 : 2 ^ 50 <= 2 ^ 900) by (apply Rle_pow; [lra|lia]). assert (B10 : 2 ^ 50 <= 2 ^ 1000) by (apply Rle_pow; [lra|lia]).
  split; [|split].
  - assert (D : a_number (nlit 100) /\ 0 <= value (nlit 100) <= 2 ^ 900) by (split; [apply ex_numbers; vm_compute; reflexivity|rewrite V3; lra]). destruct D as [D1 D2].
    assert (Sh : forall v : b64, shaped 1 1 [[v]]) by (intros v; split; [reflexivity|intros r [<-|[]]; reflexivity]).
    intros d dt [H|[H|[]]]; injection H as <- <-; (split; [apply Sh|]); (split; [apply ex_numbers; vm_compute; reflexivity|]); (split; [exact D1|exact D2]).
  - cbn [length ex_plate_hist INR]. lra.
  - unfold size_at, ex_plate_hist. cbn [map fst at2 nth rsum]. unfold at2. cbn [nth]. rewrite V1, V2, !Rabs_right by lra. lra.
Qed.
Theorem all_delivered_refuted : ~ (forall (tr : Trans b64) (isostasytime : option b64) n m hist c i j c' delivered, exp_like ->
  match isostasytime with Some t => a_number t | None => True end ->
  (0 < n)%nat -> (Z.of_nat n <= 2 ^ 53)%Z -> dyn_init isostasytime n m = Ok c -> (i < n)%nat -> (j < m)%nat ->
  (forall d dt, In (d, dt) hist -> shaped n m d /\ a_number (at2 n0 d i j) /\ a_number dt /\ 0 <= value dt <= 2 ^ 900) ->
  INR (length hist) <= 2 ^ 50 -> size_at i j (map fst hist) <= 2 ^ 1000 -> plate_run c hist = (c', delivered) ->
  total_at i j delivered + value (at2 n0 (df_pool c') i j) = total_at i j (map fst hist)).
Proof.
  intros S. destruct ex_plate_fits as (F1 & [c F2] & F3 & F4 & F5). pose proof ex_plate_run as H. unfold ex_plate in H. rewrite F2 in H.
  destruct (@plate_run half_exp c ex_plate_hist) as [c' outs] eqn:E. destruct H as [H1 H2].
  pose proof (S half_exp (Some (nlit 7000)) 1%nat 1%nat ex_plate_hist c 0%nat 0%nat c' outs ex_half_exp F1 Nat.lt_0_1 ltac:(lia) F2 Nat.lt_0_1 Nat.lt_0_1 F3 F4 F5 E) as T.
  rewrite H1, H2 in T. unfold total_at, ex_plate_hist in T. cbn [map fst rsum] in T. unfold at2 in T. cbn [nth] in T.
  destruct ex_plate_values as (V0 & Vh & V1 & V2 & _). rewrite V0, Vh, V1, V2 in T. clear - T. lra.
Qed.
