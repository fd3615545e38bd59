(** The plate in doubles. *)
From Coq Require Import String List ZArith QArith Reals Lra Lia Bool Arith Floats.SpecFloat.
From Flocq Require Import Core Round BinarySingleNaN.
From Verif.Base Require Import Num Py Arr.
From Verif.Model Require Import Flexure.
From Verif.Spec Require Import History Doubles DoublePlate.
From Verif.Proofs Require Import DoubleP DoubleMassP DoubleDivP DoubleTableP DoubleSinkP.
Import ListNotations.
Local Open Scope R_scope.

#[local] Existing Instances Hprec Hmax.
#[local] Notation fexp64 := (SpecFloat.fexp prec64 emax64).
#[local] Notation rnd := (round radix2 fexp64 ZnearestE).
#[local] Notation add := (SFadd prec64 emax64).
#[local] Notation sub := (SFsub prec64 emax64).
#[local] Notation mul := (SFmul prec64 emax64).
#[local] Notation div := (SFdiv prec64 emax64).

Lemma rnd_same x : a_number x -> rnd (value x) = value x.
Proof. intros N. apply round_generic; [apply valid_rnd_N|apply format_value, N]. Qed.
Lemma rnd_zero : rnd 0 = 0.
Proof. apply round_0, valid_rnd_N. Qed.
(* rounding keeps what is between nothing and a double there *)
Lemma rnd_part x y : a_number x -> (0 <= y <= value x \/ value x <= y <= 0) -> 0 <= rnd y <= value x \/ value x <= rnd y <= 0.
Proof. intros N [[A B]|[A B]]; [left|right]; rewrite <- (rnd_same x N), <- rnd_zero; split; apply rnd_le; assumption. Qed.
Lemma part_abs x y : (0 <= y <= x \/ x <= y <= 0) -> Rabs y <= Rabs x /\ Rabs (x - y) <= Rabs x /\ (0 <= x - y <= x \/ x <= x - y <= 0).
Proof.
  intros [[A B]|[A B]].
  - rewrite !Rabs_right by lra. repeat split; try lra.
  - rewrite !(Rabs_left1) by lra. repeat split; try lra.
Qed.
Lemma number_bound x : a_number x -> Rabs (value x) < bpow radix2 emax64.
Proof. intros P. apply number_B in P. destruct P as [b [-> _]]. rewrite value_B. apply abs_B2R_lt_emax. Qed.

Lemma leb_value x y : a_number x -> a_number y -> SFleb x y = true <-> value x <= value y.
Proof.
  intros [b [-> F]]%number_B [c [-> G]]%number_B. rewrite !value_B.
  change (SFleb (B2SF b) (B2SF c)) with (Bleb b c). rewrite (Bleb_correct prec64 emax64 b c F G). destruct (Rle_bool_spec (B2R b) (B2R c)); split; intros; try easy; lra.
Qed.
(* one step at a node *)
Lemma plate_step p i f : a_number p -> a_number i -> a_number f -> 0 <= value f <= 1 -> Rabs (value p) + Rabs (value i) <= bpow radix2 1001 ->
  let P := add p i in let d := mul P f in let p' := sub P d in
  a_number P /\ a_number d /\ a_number p'
  /\ (0 <= value d <= value P \/ value P <= value d <= 0) /\ (0 <= value p' <= value P \/ value P <= value p' <= 0)
  /\ Rabs (value p') <= (Rabs (value p) + Rabs (value i)) * (1 + uu)
  /\ Rabs (value d + value p' - (value p + value i)) <= ((1 + uu) * (1 + uu) - 1) * (Rabs (value p) + Rabs (value i)).
Proof.
  intros Np Ni Nf F Hb P d p'. pose proof uu_small as U. pose proof (Rabs_triang (value p) (value i)) as Tr. set (M := Rabs (value p) + Rabs (value i)) in *.
  assert (B3 : bpow radix2 1001 <= bpow radix2 1023) by (apply bpow_le; lia).
  destruct (add_error p i Np Ni) as [NP EP]; [lra|]. fold P in NP, EP. change (bpow radix2 (-53)) with uu in EP.
  assert (EP' : Rabs (value P - (value p + value i)) <= M * uu) by (apply Rle_trans with (1 := EP); apply Rmult_le_compat_r; lra).
  assert (AP : Rabs (value P) <= M * (1 + uu)).
  { replace (value P) with ((value P - (value p + value i)) + (value p + value i)) by ring. eapply Rle_trans; [apply Rabs_triang|]. lra. }
  assert (Sf : 0 <= value P * value f <= value P \/ value P <= value P * value f <= 0).
  { destruct (Rle_dec 0 (value P)) as [G|G]; [left|right].
    - split; [apply Rmult_le_pos; lra|]. rewrite <- (Rmult_1_r (value P)) at 2. apply Rmult_le_compat_l; lra.
    - split; [|nra]. rewrite <- (Rmult_1_r (value P)) at 1. apply Rmult_le_compat_neg_l; lra. }
  pose proof (rnd_part P _ NP Sf) as Sd. pose proof (number_bound P NP) as PB.
  destruct (mul_value P f NP Nf) as [Nd Vd]; [apply Rle_lt_trans with (2 := PB); apply part_abs, Sd|]. fold d in Nd, Vd. rewrite <- Vd in Sd.
  destruct (part_abs _ _ Sd) as (_ & A2 & A3). pose proof (rnd_part P _ NP A3) as Sp.
  destruct (sub_value P d NP Nd) as [Np' Vp']; [apply Rle_lt_trans with (2 := PB); apply part_abs, Sp|]. fold p' in Np', Vp'. rewrite <- Vp' in Sp.
  assert (M1 : M * (1 + uu) <= bpow radix2 1023).
  { apply Rle_trans with (bpow radix2 1001 * 2); [apply Rmult_le_compat; try lra; unfold M; pose proof (Rabs_pos (value p)); pose proof (Rabs_pos (value i)); lra|].
    replace (bpow radix2 1001 * 2) with (bpow radix2 (1001 + 1)) by (rewrite bpow_plus; reflexivity). apply bpow_le. lia. }
  destruct (DoubleDivP.sub_error P d NP Nd) as [_ Ed]; [lra|]. fold p' in Ed. change (bpow radix2 (-53)) with uu in Ed.
  assert (Ed' : Rabs (value p' - (value P - value d)) <= M * (1 + uu) * uu) by (apply Rle_trans with (1 := Ed); apply Rmult_le_compat_r; lra).
  split; [exact NP|]. split; [exact Nd|]. split; [exact Np'|]. split; [exact Sd|]. split; [exact Sp|]. split.
  - apply Rle_trans with (2 := AP). apply (part_abs _ _ Sp).
  - replace (value d + value p' - (value p + value i)) with ((value p' - (value P - value d)) + (value P - (value p + value i))) by ring.
    eapply Rle_trans; [apply Rabs_triang|]. replace (((1 + uu) * (1 + uu) - 1) * M) with (M * (1 + uu) * uu + M * uu) by ring. lra.
Qed.

(* the steps at a node: the deflections and the fractions *)
Fixpoint node_run (p : b64) (hist : list (b64 * b64)) : b64 * list b64 :=
  match hist with
  | [] => (p, [])
  | (i, f) :: hist => let P := add p i in let d := mul P f in let '(p', ds) := node_run (sub P d) hist in (p', d :: ds)
  end.
Definition inputs (hist : list (b64 * b64)) : R := rsum (map (fun h => value (fst h)) hist).
Definition sizes (hist : list (b64 * b64)) : R := rsum (map (fun h => Rabs (value (fst h))) hist).
Lemma sizes_pos hist : 0 <= sizes hist.
Proof. unfold sizes. induction hist as [|h hist IH]; cbn [map rsum]; [lra|]. pose proof (Rabs_pos (value (fst h))). lra. Qed.
Lemma node_error hist : forall p k D G M, Forall (fun h => a_number (fst h) /\ a_number (snd h) /\ 0 <= value (snd h) <= 1) hist ->
  INR (k + length hist) * 4 * uu <= / 2 -> a_number p -> 0 <= M -> M + sizes hist <= bpow radix2 1000 ->
  Rabs (value p) <= (1 + uu) ^ (2 * k) * M -> Rabs (D + value p - G) <= ((1 + uu) ^ (2 * k) - 1) * M ->
  let '(p', ds) := node_run p hist in
  a_number p' /\ Forall a_number ds
  /\ Rabs (D + rsum (map value ds) + value p' - (G + inputs hist)) <= ((1 + uu) ^ (2 * (k + length hist)) - 1) * (M + sizes hist).
Proof.
  pose proof uu_small as U. induction hist as [|[i f] hist IH]; intros p k D G M F Hn Np M0 Hb Hp He; cbn [node_run].
  - split; [exact Np|]. split; [constructor|]. unfold sizes, inputs. cbn [map rsum length]. rewrite Nat.add_0_r, !Rplus_0_r. exact He.
  - inversion F as [|? ? (Ni & Nf & Hf) F']; subst. cbn [fst snd] in *. unfold sizes, inputs in *. cbn [map rsum fst length] in *. fold (sizes hist) in *. fold (inputs hist) in *.
    pose proof (sizes_pos hist) as Sp. pose proof (Rabs_pos (value i)) as Ip.
    assert (Hk : INR k * 4 * uu <= / 2).
    { apply Rle_trans with (2 := Hn). apply Rmult_le_compat_r; [lra|]. apply Rmult_le_compat_r; [lra|]. apply le_INR. lia. }
    destruct (grows k Hk) as [G1 G2]. set (h := (1 + uu) ^ (2 * k)) in *.
    assert (HM : h * M <= 3 / 2 * M) by (apply Rmult_le_compat_r; lra).
    assert (B1 : Rabs (value p) + Rabs (value i) <= bpow radix2 1001).
    { replace (bpow radix2 1001) with (2 * bpow radix2 1000) by (change 1001%Z with (1 + 1000)%Z; rewrite bpow_plus; reflexivity). lra. }
    destruct (plate_step p i f Np Ni Nf Hf B1) as (NP & Nd & Np' & _ & _ & Ap & Ep). cbv zeta in *. set (d := mul (add p i) f) in *. set (p' := sub (add p i) d) in *.
    assert (Gk : (1 + uu) ^ (2 * (k + 1)) = h * ((1 + uu) * (1 + uu))) by (replace (2 * (k + 1))%nat with (2 * k + 2)%nat by lia; rewrite pow_add; fold h; cbn [pow]; ring).
    set (q := (1 + uu) * (1 + uu)) in *. assert (Q : q = 1 + 2 * uu + uu * uu) by (unfold q; ring). assert (Uu : 0 <= uu * uu) by (apply Rmult_le_pos; lra).
    assert (Hq : q <= h * q) by (rewrite <- (Rmult_1_l q) at 1; apply Rmult_le_compat_r; lra).
    assert (Iq : (q - 1) * Rabs (value i) <= (h * q - 1) * Rabs (value i)) by (apply Rmult_le_compat_r; lra).
    assert (Pq : (q - 1) * Rabs (value p) <= (q - 1) * (h * M)) by (apply Rmult_le_compat_l; lra).
    specialize (IH p' (k + 1)%nat (D + value d) (G + value i) (M + Rabs (value i)) F'). replace (k + 1 + length hist)%nat with (k + S (length hist))%nat in IH by lia.
    specialize (IH Hn Np' ltac:(lra) ltac:(lra)). rewrite Gk in IH.
    assert (I1 : Rabs (value p') <= h * q * (M + Rabs (value i))).
    { apply Rle_trans with (1 := Ap). apply Rle_trans with ((h * M + Rabs (value i)) * (1 + uu)); [apply Rmult_le_compat_r; lra|].
      assert (X : Rabs (value i) * (1 + uu) <= (h * q) * Rabs (value i)) by (rewrite Rmult_comm; apply Rmult_le_compat_r; lra).
      assert (Y : h * M * (1 + uu) <= h * M * q) by (apply Rmult_le_compat_l; [apply Rmult_le_pos; lra|lra]). lra. }
    assert (I2 : Rabs (D + value d + value p' - (G + value i)) <= (h * q - 1) * (M + Rabs (value i))).
    { replace (D + value d + value p' - (G + value i)) with ((D + value p - G) + (value d + value p' - (value p + value i))) by ring.
      eapply Rle_trans; [apply Rabs_triang|]. lra. }
    specialize (IH I1 I2). destruct (node_run p' hist) as [pe ds]. destruct IH as (N1 & N2 & N3). split; [exact N1|]. split; [constructor; assumption|]. cbn [map rsum].
    replace (D + (value d + rsum (map value ds)) + value pe - (G + (value i + inputs hist))) with (D + value d + rsum (map value ds) + value pe - (G + value i + inputs hist)) by ring.
    replace (M + (Rabs (value i) + sizes hist)) with (M + Rabs (value i) + sizes hist) by ring. exact N3.
Qed.

(* the fraction of a step *)
Section Plate.
  Context {tr : Trans b64}.
  Lemma rows_value n : (0 < n)%nat -> (Z.of_nat n <= 2 ^ 53)%Z -> a_number (nofnat n : b64) /\ value (nofnat n : b64) = INR n.
  Proof.
    intros H B. unfold nofnat, nofZ. rewrite (lit_of (inject_Z (Z.of_nat n)) (Z.of_nat n) 0); [|lia|unfold fits; cbn [inject_Z Qnum Qden]; lia].
    destruct (of_number (Z.of_nat n) (- 0)) as [N V]; [lia|lia|]. split; [exact N|]. rewrite V, INR_IZR_INZ. cbn [Z.opp bpow]. ring.
  Qed.
  Lemma one_value : a_number (n1 : b64) /\ value (n1 : b64) = 1.
  Proof.
    change (n1 : b64) with (b64_lit 1). change (b64_lit 1) with (nlit 1 : b64). rewrite (lit_of 1 1 0); [|lia|unfold fits; cbn; lia].
    destruct (of_number 1 (- 0)) as [N V]; [lia|lia|]. split; [exact N|]. rewrite V. cbn. ring.
  Qed.
  Lemma part_of_one y : 0 <= y <= 1 -> 0 <= rnd y <= 1 /\ Rabs (rnd y) < bpow radix2 emax64.
  Proof.
    intros H. destruct one_value as [N V]. assert (R : 0 <= rnd y <= 1).
    { rewrite <- V, <- (rnd_same _ N), V, <- rnd_zero at 1. split; [apply rnd_le; lra|]. apply rnd_le. lra. }
    split; [exact R|]. rewrite Rabs_right by lra. apply Rle_lt_trans with 1; [lra|]. change 1 with (bpow radix2 0). apply bpow_lt. unfold emax64. lia.
  Qed.
  Lemma neg_value x : a_number x -> a_number (nopp x : b64) /\ value (nopp x) = - value x.
  Proof. exact (opp_number x). Qed.
  Lemma fraction_ok (isostasytime : option b64) n m c dt : exp_like -> match isostasytime with Some t => a_number t | None => True end ->
    (0 < n)%nat -> (Z.of_nat n <= 2 ^ 53)%Z -> dyn_init isostasytime n m = Ok c -> a_number dt -> 0 <= value dt <= 2 ^ 900 ->
    let f := ndiv (calc_isostasy_fraction (df_time c) dt) (nofnat n) in a_number f /\ 0 <= value f <= 1.
  Proof.
    intros X Nt Hn Bn Hc Nd Hd f. destruct (rows_value n Hn Bn) as [Nr Vr]. destruct one_value as [N1 V1].
    assert (Ln : 1 <= INR n) by (apply (le_INR 1); lia).
    assert (T : a_number (calc_isostasy_fraction (df_time c) dt) /\ 0 <= value (calc_isostasy_fraction (df_time c) dt) <= 1).
    { unfold dyn_init in Hc. destruct isostasytime as [t|]; cbn [bind] in Hc; [|injection Hc as <-; cbn [df_time calc_isostasy_fraction]; split; [exact N1|lra]].
      destruct (isclose0 t) eqn:Ec; cbn [bind] in Hc; [injection Hc as <-; cbn [df_time calc_isostasy_fraction]; split; [exact N1|lra]|].
      unfold validate_isostasy_time in Hc. destruct (nltb t n0) eqn:El; cbn [bind] in Hc; [discriminate|]. injection Hc as <-. cbn [df_time calc_isostasy_fraction].
      assert (Tp : bpow radix2 (-27) <= value t).
      { destruct zero_number as [Nz Vz]. assert (T0 : 0 <= value t).
        { destruct (Rle_dec 0 (value t)) as [G|G]; [exact G|]. exfalso. assert (L : SFltb t (n0 : b64) = true) by (apply ltb_value; [assumption..|]; rewrite Vz; lra). change (nltb t n0) with (SFltb t (n0 : b64)) in El. congruence. }
        destruct (Rle_dec (bpow radix2 (-27)) (value t)) as [G|G]; [exact G|exfalso].
        assert (Nl : a_number (nlit (1 # 100000000) : b64)) by (split; [vm_compute; reflexivity|vm_compute; exact I]).
        assert (Vl : bpow radix2 (-27) <= value (nlit (1 # 100000000))).
        { replace (nlit (1 # 100000000) : b64) with (S754_finite false 6044629098073146 (-79)) by (vm_compute; reflexivity). cbn [value]. rewrite <- (bpow_powerRZ radix2).
          change (-27)%Z with (52 + -79)%Z. rewrite bpow_plus. apply Rmult_le_compat_r; [apply bpow_ge_0|]. cbn [bpow]. apply IZR_le. vm_compute. discriminate. }
        assert (Ab : nabs t = t \/ nabs t = nopp t) by (unfold nabs; match goal with |- context [if ?b then _ else _] => destruct b end; auto).
        assert (Bd : a_number (nabs t) /\ value (nabs t) < value (nlit (1 # 100000000))).
        { destruct Ab as [->| ->]; [split; [exact Nt|lra]|]. destruct (neg_value t Nt) as [Nn Vn]. split; [exact Nn|]. rewrite Vn. lra. }
        destruct Bd as [Na La]. unfold isclose0 in Ec. change (SFleb (nabs t) (nlit (1 # 100000000) : b64) = false) in Ec.
        rewrite (proj2 (leb_value _ _ Na Nl)) in Ec; [discriminate|lra]. }
      destruct (neg_value dt Nd) as [No Vo]. assert (P0 : 0 < bpow radix2 (-27)) by apply bpow_gt_0.
      assert (Bq : Rabs (value (nopp dt) / value t) <= bpow radix2 927).
      { rewrite Vo. unfold Rdiv. rewrite Rabs_mult, Rabs_Ropp, (Rabs_right (value dt)) by lra. rewrite Rabs_right by (left; apply Rinv_0_lt_compat; lra).
        change 927%Z with (900 + 27)%Z. rewrite bpow_plus. apply Rmult_le_compat; [lra|left; apply Rinv_0_lt_compat; lra| |].
        - rewrite pow_bpow in Hd. exact (proj2 Hd).
        - change 27%Z with (- (-27))%Z. rewrite bpow_opp. apply Rinv_le; lra. }
      destruct (div_value (nopp dt) t No Nt ltac:(lra)) as [Nq Vq]; [apply (bounded_no_overflow _ 927); [lia|exact Bq]|].
      assert (Q0 : value (div (nopp dt) t) <= 0).
      { rewrite Vq, <- rnd_zero. apply rnd_le. rewrite Vo. unfold Rdiv. assert (0 < / value t) by (apply Rinv_0_lt_compat; lra). nra. }
      destruct (X (div (nopp dt) t) Nq Q0) as [Ne Ve].
      set (e := @nexp b64 tr (div (nopp dt) t)) in *.
      destruct (part_of_one (value (n1 : b64) - value e)) as [R1 R2]; [rewrite V1; lra|].

      destruct (sub_value n1 e N1 Ne R2) as [Ns Vs].
      change (nsub n1 (nexp (ndiv (nopp dt) t))) with (sub (n1 : b64) e). split; [exact Ns|]. rewrite Vs. exact R1. }
    destruct T as [T1 T2]. set (s := calc_isostasy_fraction (df_time c) dt) in *.
    destruct (part_of_one (value s / value (nofnat n : b64))) as [R1 R2].
    { rewrite Vr. assert (0 < / INR n <= 1) by (split; [apply Rinv_0_lt_compat; lra|rewrite <- Rinv_1; apply Rinv_le; lra]). unfold Rdiv. split; [apply Rmult_le_pos; lra|]. apply Rle_trans with (1 * 1); [apply Rmult_le_compat; lra|lra]. }
    destruct (div_value s (nofnat n) T1 Nr ltac:(lra) R2) as [Nf Vf]. split; [exact Nf|].
    assert (Vf' : value f = rnd (value s / value (nofnat n : b64))) by exact Vf. rewrite Vf'. exact R1.
  Qed.

  Lemma run_at n m i j (hist : list (field b64 * b64)) : (i < n)%nat -> (j < m)%nat -> forall c, df_rows c = n -> shaped n m (df_pool c) -> (forall d dt, In (d, dt) hist -> shaped n m d) ->
    let '(c', outs) := plate_run c hist in
    node_run (at2 n0 (df_pool c) i j) (map (fun h => (at2 n0 (fst h) i j, ndiv (calc_isostasy_fraction (df_time c) (snd h)) (nofnat n))) hist)
    = (at2 n0 (df_pool c') i j, map (fun f => at2 n0 f i j) outs).
  Proof.
    intros Hi Hj. induction hist as [|[d dt] hist IH]; intros c Hn Sp Hs; cbn [plate_run map node_run fst snd]; [reflexivity|].
    assert (Sd : shaped n m d) by (apply (Hs d dt); left; reflexivity). unfold calc_dynamic_deflection. rewrite Hn. set (f := ndiv _ _).
    set (pool := fmap2 nadd (df_pool c) d). assert (S1 : shaped n m pool) by (apply shaped_fmap2; assumption). set (out := fmap (fun p => nmul p f) pool).
    assert (S2 : shaped n m out) by (apply shaped_fmap; assumption). set (c1 := mkDyn (df_time c) n (fmap2 nsub pool out)).
    assert (S3 : shaped n m (df_pool c1)) by (apply shaped_fmap2; assumption).
    specialize (IH c1 eq_refl S3 ltac:(intros; eapply Hs; right; eassumption)). destruct (plate_run c1 hist) as [c2 outs].
    assert (E1 : at2 n0 pool i j = add (at2 n0 (df_pool c) i j) (at2 n0 d i j)) by exact (at2_fmap2 nadd n m _ _ n0 n0 n0 i j Sp Sd Hi Hj).
    assert (E2 : at2 n0 out i j = mul (at2 n0 pool i j) f) by exact (at2_fmap (fun p => nmul p f) n m pool n0 n0 i j S1 Hi Hj).
    assert (E3 : at2 n0 (df_pool c1) i j = sub (at2 n0 pool i j) (at2 n0 out i j)) by exact (at2_fmap2 nsub n m _ _ n0 n0 n0 i j S1 S2 Hi Hj).
    rewrite <- E1, <- E2, <- E3. change (df_time c1) with (df_time c) in IH. rewrite IH. reflexivity.
  Qed.
  Theorem plate_no_more (isostasytime : option b64) n m c0 pool d dt i j : exp_like -> match isostasytime with Some t => a_number t | None => True end ->
    (0 < n)%nat -> (Z.of_nat n <= 2 ^ 53)%Z -> dyn_init isostasytime n m = Ok c0 -> (i < n)%nat -> (j < m)%nat ->
    shaped n m pool -> shaped n m d -> a_number (at2 n0 pool i j) -> a_number (at2 n0 d i j) ->
    Rabs (value (at2 n0 pool i j)) + Rabs (value (at2 n0 d i j)) <= 2 ^ 1000 -> a_number dt -> 0 <= value dt <= 2 ^ 900 ->
    let '(c', out) := calc_dynamic_deflection (mkDyn (df_time c0) n pool) d dt in
    let all := value (nadd (at2 n0 pool i j) (at2 n0 d i j)) in
    (0 <= value (at2 n0 out i j) <= all \/ all <= value (at2 n0 out i j) <= 0)
    /\ (0 <= value (at2 n0 (df_pool c') i j) <= all \/ all <= value (at2 n0 (df_pool c') i j) <= 0).
  Proof.
    intros X Nt Hn Bn Hc Hi Hj Sp Sd Np Nd Hb Nt' Ht. destruct (fraction_ok isostasytime n m c0 dt X Nt Hn Bn Hc Nt' Ht) as [Nf Hf]. unfold calc_dynamic_deflection. cbn [df_time df_rows df_pool].
    set (f := ndiv _ _) in *. set (pl := fmap2 nadd pool d). assert (S1 : shaped n m pl) by (apply shaped_fmap2; assumption). set (out := fmap (fun p => nmul p f) pl).
    assert (S2 : shaped n m out) by (apply shaped_fmap; assumption).
    assert (E1 : at2 n0 pl i j = add (at2 n0 pool i j) (at2 n0 d i j)) by exact (at2_fmap2 nadd n m _ _ n0 n0 n0 i j Sp Sd Hi Hj).
    assert (E2 : at2 n0 out i j = mul (at2 n0 pl i j) f) by exact (at2_fmap (fun p => nmul p f) n m pl n0 n0 i j S1 Hi Hj).
    assert (E3 : at2 n0 (fmap2 nsub pl out) i j = sub (at2 n0 pl i j) (at2 n0 out i j)) by exact (at2_fmap2 nsub n m _ _ n0 n0 n0 i j S1 S2 Hi Hj).
    rewrite E3, E2, E1. rewrite pow_bpow in Hb. change (Z.of_nat 1000) with 1000%Z in Hb. assert (B3 : bpow radix2 1000 <= bpow radix2 1001) by (apply bpow_le; lia).
    destruct (plate_step _ _ f Np Nd Nf Hf (Rle_trans _ _ _ Hb B3)) as (_ & _ & _ & A1 & A2 & _). exact (conj A1 A2).
  Qed.
  Theorem plate_delivers (isostasytime : option b64) n m hist c i j : exp_like -> match isostasytime with Some t => a_number t | None => True end ->
    (0 < n)%nat -> (Z.of_nat n <= 2 ^ 53)%Z -> dyn_init isostasytime n m = Ok c -> (i < n)%nat -> (j < m)%nat ->
    (forall d dt, In (d, dt) hist -> shaped n m d /\ a_number (at2 n0 d i j) /\ a_number dt /\ 0 <= value dt <= 2 ^ 900) ->
    INR (length hist) <= 2 ^ 50 -> size_at i j (map fst hist) <= 2 ^ 1000 ->
    let '(c', delivered) := plate_run c hist in
    a_number (at2 n0 (df_pool c') i j) /\ Forall (fun f => a_number (at2 n0 f i j)) delivered
    /\ Rabs (total_at i j delivered + value (at2 n0 (df_pool c') i j) - total_at i j (map fst hist)) <= INR (length hist) / 2 ^ 51 * size_at i j (map fst hist).
  Proof.
    intros X Nt Hn Bn Hc Hi Hj Hh Hl Hb. pose proof uu_small as U.
    assert (C : df_rows c = n /\ df_pool c = full n m n0).
    { unfold dyn_init in Hc. match type of Hc with bind ?e _ = _ => destruct e end; cbn [bind] in Hc; [|discriminate]. injection Hc as <-. auto. }
    destruct C as [C1 C2]. assert (Sp : shaped n m (df_pool c)) by (rewrite C2; apply shaped_full).
    pose proof (run_at n m i j hist Hi Hj c C1 Sp (fun d dt H => proj1 (Hh d dt H))) as Rn. destruct (plate_run c hist) as [c' outs].
    set (nh := map _ hist) in Rn. destruct zero_number as [Nz Vz]. rewrite C2, at2_full in Rn by assumption.
    assert (Ei : inputs nh = total_at i j (map fst hist)) by (unfold inputs, nh, total_at; rewrite !map_map; reflexivity).
    assert (Es : sizes nh = size_at i j (map fst hist)) by (unfold sizes, nh, size_at; rewrite !map_map; reflexivity).
    assert (En : length nh = length hist) by apply map_length.
    rewrite pow_bpow in Hb. change (Z.of_nat 1000) with 1000%Z in Hb. rewrite pow_bpow in Hl. change (Z.of_nat 50) with 50%Z in Hl. rewrite pow_bpow. change (Z.of_nat 51) with 51%Z.
    assert (H4 : INR (0 + length nh) * 4 * uu <= / 2).
    { cbn [Nat.add]. rewrite En. apply Rle_trans with (bpow radix2 50 * 4 * uu); [apply Rmult_le_compat_r; [lra|]; apply Rmult_le_compat_r; lra|].
      unfold uu. replace 4 with (bpow radix2 2) by (cbn; lra). rewrite <- !bpow_plus. change (50 + 2 + -53)%Z with (-1)%Z. cbn. lra. }
    assert (Fa : Forall (fun h => a_number (fst h) /\ a_number (snd h) /\ 0 <= value (snd h) <= 1) nh).
    { apply Forall_forall. intros h Hin. unfold nh in Hin. apply in_map_iff in Hin. destruct Hin as [[d dt] [<- Hin]]. cbn [fst snd]. destruct (Hh d dt Hin) as (_ & A1 & A2 & A3).
      split; [exact A1|]. exact (fraction_ok isostasytime n m c dt X Nt Hn Bn Hc A2 A3). }
    pose proof (node_error nh n0 0%nat 0 0 0 Fa H4 Nz (Rle_refl 0) ltac:(rewrite Es, Rplus_0_l; exact Hb)) as K. rewrite Rn in K.
    destruct K as (K1 & K2 & K3).
    - rewrite Vz, Rabs_R0. cbn. lra.
    - rewrite Vz. replace (0 + 0 - 0) with 0 by ring. rewrite Rabs_R0. cbn. lra.
    - split; [exact K1|]. split; [exact (proj1 (Forall_map _ _ _) K2)|].
      rewrite Es, Ei, !Rplus_0_l, map_map in K3. fold (total_at i j outs) in K3. apply Rle_trans with (1 := K3). destruct (grows _ H4) as [_ G2]. cbn [Nat.add] in *. rewrite En in *.
      assert (I51 : / bpow radix2 51 = 4 * uu).
      { rewrite <- bpow_opp. unfold uu. replace 4 with (bpow radix2 2) by (cbn; lra). rewrite <- bpow_plus. reflexivity. }
      unfold Rdiv. rewrite I51. apply Rmult_le_compat_r; [rewrite <- Es; apply sizes_pos|]. lra.
  Qed.
End Plate.
