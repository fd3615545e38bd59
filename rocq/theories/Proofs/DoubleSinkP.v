(** The bedrock in doubles. *)
From Coq Require Import String List ZArith QArith Reals Lra Lia Bool Arith Floats.SpecFloat.
From Flocq Require Import Core Round BinarySingleNaN.
From Verif.Base Require Import Num Py Arr.
From Verif.Model Require Import Layers Grid Interp SeaLevel Csv SequenceModel Setattr Processes Whole.
From Verif.Spec Require Import Session Configured Doubles DoubleTables Followed DoubleSinking.
From Verif.Proofs Require Import SinkP DoubleP DoubleMassP DoubleDivP DoubleTableP DoubleSeaP.
Import ListNotations.
Local Open Scope R_scope.

#[local] Existing Instances Hprec Hmax.
#[local] Notation fexp64 := (SpecFloat.fexp prec64 emax64).
#[local] Notation rnd := (round radix2 fexp64 ZnearestE).
#[local] Notation add := (SFadd prec64 emax64).
#[local] Notation mul := (SFmul prec64 emax64).

Lemma uu_small : 0 < uu <= / 8.
Proof. split; [apply bpow_gt_0|]. apply Rle_trans with (bpow radix2 (-3)); [apply bpow_le; lia|]. cbn. lra. Qed.
Lemma ee_small : 0 < ee.
Proof. apply bpow_gt_0. Qed.
Definition tt' : R := bpow radix2 (-1021).
Lemma tt_ee : ee * (1 + uu) <= 2 * uu * tt'.
Proof.
  pose proof uu_small. pose proof ee_small. apply Rle_trans with (ee * 2); [apply Rmult_le_compat_l; lra|]. unfold ee, uu, tt'.
  replace (2 * bpow radix2 (-53) * bpow radix2 (-1021)) with (bpow radix2 1 * (bpow radix2 (-53) * bpow radix2 (-1021))) by (change (bpow radix2 1) with 2; ring).
  rewrite <- !bpow_plus. replace (bpow radix2 (-1075) * 2) with (bpow radix2 (-1075 + 1)) by (rewrite bpow_plus; reflexivity). apply bpow_le. lia.
Qed.
Lemma add_zero p : a_number p -> a_number (add (n0 : b64) p) /\ value (add (n0 : b64) p) = value p.
Proof.
  intros P. destruct zero_number as [Z V].
  assert (F : rnd (value (n0 : b64) + value p) = value p) by (rewrite V, Rplus_0_l; apply round_generic; [apply valid_rnd_N|apply format_value, P]).
  assert (L : Rabs (value p) < bpow radix2 emax64).
  { apply number_B in P. destruct P as [b [-> _]]. rewrite value_B. apply abs_B2R_lt_emax. }
  destruct (add_value n0 p Z P) as [N E]; [rewrite F; exact L|]. split; [exact N|]. rewrite E. exact F.
Qed.
Lemma grows N : INR N * 4 * uu <= / 2 -> 1 <= (1 + uu) ^ (2 * N) <= 1 + INR N * 4 * uu.
Proof.
  pose proof uu_small as U. induction N as [|N IH]; [cbn; lra|]. rewrite S_INR. intros H. pose proof (pos_INR N) as Hn.
  assert (H' : INR N * 4 * uu <= / 2) by nra. specialize (IH H'). replace (2 * S N)%nat with (2 * N + 2)%nat by lia. rewrite pow_add.
  set (g := (1 + uu) ^ (2 * N)) in *. cbn [pow]. rewrite Rmult_1_r. assert (Q : (1 + uu) * (1 + uu) = 1 + 2 * uu + uu * uu) by ring. rewrite Q.
  assert (Uu : 0 <= uu * uu <= uu * / 8) by (split; [apply Rmult_le_pos; lra|apply Rmult_le_compat_l; lra]). split.
  - assert (1 * 1 <= g * (1 + 2 * uu + uu * uu)) by (apply Rmult_le_compat; lra). lra.
  - assert (g * (1 + 2 * uu + uu * uu) <= (1 + INR N * 4 * uu) * (1 + 2 * uu + uu * uu)) by (apply Rmult_le_compat_r; lra).
    assert ((INR N * 4 * uu) * (2 * uu + uu * uu) <= / 2 * (2 * uu + uu * uu)) by (apply Rmult_le_compat_r; lra). lra.
Qed.
Lemma travelled_pos rs : 0 <= travelled rs.
Proof. induction rs as [|[r d] rs IH]; cbn [travelled]; [lra|]. pose proof (Rabs_pos (value r * value d)). lra. Qed.

Lemma sinking_error l : forall x rs k z b S P, rates_at l x = Ok rs -> Forall (fun rd => a_number (fst rd) /\ a_number (snd rd)) rs ->
  INR (k + length l) * 4 * uu <= / 2 -> a_number z -> lowered l x z = Ok b ->
  Rabs (value z - S) <= ((1 + uu) ^ (2 * k) - 1) * P -> Rabs S <= P -> P + travelled rs + INR (length l) * tt' <= bpow radix2 1001 ->
  a_number b /\ Rabs (value b - (S + sinkage rs)) <= ((1 + uu) ^ (2 * (k + length l)) - 1) * (P + travelled rs + INR (length l) * tt').
Proof.
  pose proof uu_small as U. pose proof ee_small as Ee. assert (Tt : 0 < tt') by apply bpow_gt_0. pose proof tt_ee as Te.
  induction l as [|[f d] l IH]; intros x rs k z b S P Er Fr Hn Nz El Hz Hs Hb.
  - cbn in Er, El. assert (rs = []) by congruence. assert (b = z) by congruence. subst. cbn [sinkage travelled length]. rewrite Nat.add_0_r. split; [exact Nz|]. cbn [INR].
    replace (value z - (S + 0)) with (value z - S) by ring. replace (P + 0 + 0 * tt') with P by ring. exact Hz.
  - unfold rates_at in Er. cbn [mapM fst snd] in Er. unfold lowered in El. cbn [foldM fst snd] in El. destruct (f x) as [r|]; cbn [bind] in Er, El; [|discriminate].
    fold (rates_at l x) in Er. destruct (rates_at l x) as [rs'|] eqn:Er'; cbn [bind] in Er; [|discriminate]. assert (rs = (r, d) :: rs') by congruence. subst rs. clear Er.
    change (lowered l x (add z (add (n0 : b64) (mul r d))) = Ok b) in El. inversion Fr as [|? ? [Nr Nd] Fr']; subst. cbn [fst snd] in Nr, Nd.
    cbn [sinkage travelled length] in *. rewrite S_INR in Hb. set (q := value r * value d) in *. pose proof (travelled_pos rs') as Mp. pose proof (pos_INR (length l)) as Lp. pose proof (Rabs_pos q) as Qp. pose proof (Rabs_pos S) as Sp.
    assert (Hk : INR k * 4 * uu <= / 2).
    { apply Rle_trans with (2 := Hn). apply Rmult_le_compat_r; [lra|]. apply Rmult_le_compat_r; [lra|]. apply le_INR. lia. }
    destruct (grows k Hk) as [G1 G2]. set (g := (1 + uu) ^ (2 * k)) in *.
    assert (LP : 0 <= INR (length l) * tt') by (apply Rmult_le_pos; lra).
    assert (Bq : Rabs q <= bpow radix2 1001) by lra.
    destruct (mul_value r d Nr Nd) as [Nm Vm]; [apply (bounded_no_overflow _ 1001); [lia|exact Bq]|]. fold q in Vm.
    destruct (rnd_error q) as (a & e & Ha & He & Ve). rewrite Ve in Vm. destruct (add_zero _ Nm) as [Np Vp]. set (p := add (n0 : b64) (mul r d)) in *. rewrite Vm in Vp.
    assert (Dp : Rabs (value p - q) <= Rabs q * uu + ee).
    { rewrite Vp. replace (q * (1 + a) + e - q) with (q * a + e) by ring. eapply Rle_trans; [apply Rabs_triang|]. rewrite Rabs_mult. apply Rplus_le_compat; [apply Rmult_le_compat_l; assumption|exact He]. }
    assert (Sz : Rabs (value z + value p) <= g * P + Rabs q * (1 + uu) + ee).
    { replace (value z + value p) with ((value z - S) + (S + ((value p - q) + q))) by ring. eapply Rle_trans; [apply Rabs_triang|].
      assert (Rabs (S + (value p - q + q)) <= Rabs S + (Rabs (value p - q) + Rabs q)) by (eapply Rle_trans; [apply Rabs_triang|]; apply Rplus_le_compat_l, Rabs_triang). lra. }
    assert (Gh : g <= 3 / 2) by lra.
    assert (Bz : Rabs (value z + value p) <= bpow radix2 1023).
    { apply Rle_trans with (1 := Sz). assert (g * P <= 3 / 2 * P) by (apply Rmult_le_compat_r; lra). assert (Rabs q * (1 + uu) <= Rabs q * 2) by (apply Rmult_le_compat_l; lra).
      assert (ee <= bpow radix2 1001) by (apply bpow_le; lia).
      assert (F4 : 4 * bpow radix2 1001 = bpow radix2 1003) by (replace 4 with (bpow radix2 2) by (cbn; lra); rewrite <- bpow_plus; reflexivity).
      assert (bpow radix2 1003 <= bpow radix2 1023) by (apply bpow_le; lia). lra. }
    destruct (add_error z p Nz Np Bz) as [Nz' Ez]. change (bpow radix2 (-53)) with uu in Ez.
    assert (Gk : (1 + uu) ^ (2 * (k + 1)) = g * ((1 + uu) * (1 + uu))) by (replace (2 * (k + 1))%nat with (2 * k + 2)%nat by lia; rewrite pow_add; fold g; cbn [pow]; ring).
    set (h := (1 + uu) * (1 + uu)) in *. assert (Hh : h = 1 + 2 * uu + uu * uu) by (unfold h; ring). assert (Uu : 0 <= uu * uu) by (apply Rmult_le_pos; lra).
    assert (Gg : h <= g * h) by (rewrite <- (Rmult_1_l h) at 1; apply Rmult_le_compat_r; lra).
    assert (E' : Rabs (value (add z p) - (S + q)) <= ((1 + uu) ^ (2 * (k + 1)) - 1) * (P + Rabs q + tt')).
    { rewrite Gk. replace (value (add z p) - (S + q)) with ((value (add z p) - (value z + value p)) + ((value z - S) + (value p - q))) by ring.
      eapply Rle_trans; [apply Rabs_triang|]. assert (Rabs (value z - S + (value p - q)) <= (g - 1) * P + (Rabs q * uu + ee)) by (eapply Rle_trans; [apply Rabs_triang|]; lra).
      assert (Rabs (value z + value p) * uu <= (g * P + Rabs q * (1 + uu) + ee) * uu) by (apply Rmult_le_compat_r; lra).
      apply Rle_trans with (P * (g * (1 + uu) - 1) + Rabs q * (h - 1) + ee * (1 + uu)); [rewrite Hh; lra|].
      assert (P * (g * (1 + uu) - 1) <= P * (g * h - 1)).
      { apply Rmult_le_compat_l; [lra|]. assert (g * (1 + uu) <= g * h) by (apply Rmult_le_compat_l; lra). lra. }
      assert (Rabs q * (h - 1) <= Rabs q * (g * h - 1)) by (apply Rmult_le_compat_l; lra).
      assert (2 * uu * tt' <= (g * h - 1) * tt') by (apply Rmult_le_compat_r; lra). lra. }
    assert (S' : Rabs (S + q) <= P + Rabs q + tt') by (eapply Rle_trans; [apply Rabs_triang|]; lra).
    replace (k + Datatypes.S (length l))%nat with ((k + 1) + length l)%nat in * by lia.
    destruct (IH x rs' (k + 1)%nat (add z p) b (S + q) (P + Rabs q + tt') Er' Fr' Hn Nz' El E' S') as [Nb Hb']; [lra|].
    split; [exact Nb|]. rewrite S_INR. replace (S + (q + sinkage rs')) with (S + q + sinkage rs') by ring.
    replace (P + (Rabs q + travelled rs') + (INR (length l) + 1) * tt') with (P + Rabs q + tt' + travelled rs' + INR (length l) * tt') by ring. exact Hb'.
Qed.
Theorem lowered_near l x rs z b : rates_at l x = Ok rs -> Forall (fun rd => a_number (fst rd) /\ a_number (snd rd)) rs ->
  INR (length l) <= 2 ^ 50 -> a_number z -> Rabs (value z) + travelled rs <= 2 ^ 1000 -> lowered l x z = Ok b ->
  a_number b /\ Rabs (value b - (value z + sinkage rs)) <= INR (length l) * ((Rabs (value z) + travelled rs) / 2 ^ 51 + / 2 ^ 1000).
Proof.
  intros Er Fr Hn Nz Hb El. pose proof uu_small as U. pose proof (travelled_pos rs) as Mp. pose proof (Rabs_pos (value z)) as Zp. pose proof (pos_INR (length l)) as Lp.
  assert (Tt : 0 < tt') by apply bpow_gt_0. rewrite pow_bpow in *. change (Z.of_nat 50) with 50%Z in *. change (Z.of_nat 1000) with 1000%Z in *. rewrite pow_bpow. change (Z.of_nat 51) with 51%Z.
  assert (H4 : INR (0 + length l) * 4 * uu <= / 2).
  { cbn [Nat.add]. apply Rle_trans with (bpow radix2 50 * 4 * uu); [apply Rmult_le_compat_r; [lra|]; apply Rmult_le_compat_r; lra|].
    unfold uu. replace 4 with (bpow radix2 2) by (cbn; lra). rewrite <- !bpow_plus. change (50 + 2 + -53)%Z with (-1)%Z. cbn. lra. }
  assert (L50 : INR (length l) * tt' <= bpow radix2 (-971)).
  { change (-971)%Z with (50 + -1021)%Z. rewrite bpow_plus. apply Rmult_le_compat_r; [apply bpow_ge_0|exact Hn]. }
  assert (Bd : Rabs (value z) + travelled rs + INR (length l) * tt' <= bpow radix2 1001).
  { change 1001%Z with (1000 + 1)%Z. rewrite bpow_plus. change (bpow radix2 1) with 2. assert (bpow radix2 (-971) <= bpow radix2 1000) by (apply bpow_le; lia). lra. }
  destruct (sinking_error l x rs 0%nat z b (value z) (Rabs (value z)) Er Fr H4 Nz El) as [Nb E].
  - rewrite Rminus_diag_eq, Rabs_R0 by reflexivity. cbn. lra.
  - lra.
  - exact Bd.
  - split; [exact Nb|]. apply Rle_trans with (1 := E). cbn [Nat.add] in *. destruct (grows _ H4) as [G1 G2].
    assert (I51 : / bpow radix2 51 = 4 * uu).
    { rewrite <- bpow_opp. unfold uu. replace 4 with (bpow radix2 2) by (cbn; lra). rewrite <- bpow_plus. reflexivity. }
    unfold Rdiv. rewrite I51, <- bpow_opp.
    set (Q := Rabs (value z) + travelled rs) in *. apply Rle_trans with ((INR (length l) * 4 * uu) * (Q + INR (length l) * tt')).
    + apply Rmult_le_compat_r; [|lra]. assert (0 <= INR (length l) * tt') by (apply Rmult_le_pos; lra). unfold Q. lra.
    + assert (T : 4 * uu * (INR (length l) * tt') <= bpow radix2 (-1000)).
      { apply Rle_trans with (4 * uu * bpow radix2 (-971)); [apply Rmult_le_compat_l; lra|]. unfold uu. replace 4 with (bpow radix2 2) by (cbn; lra). rewrite <- !bpow_plus. apply bpow_le. lia. }
      replace (INR (length l) * 4 * uu * (Q + INR (length l) * tt')) with (INR (length l) * (Q * (4 * uu) + 4 * uu * (INR (length l) * tt'))) by ring.
      apply Rmult_le_compat_l; [lra|]. apply Rplus_le_compat_l. exact T.
Qed.
Lemma lowered_rates l : forall x z b, lowered l x z = Ok b -> exists rs, rates_at l x = Ok rs /\ length rs = length l.
Proof.
  induction l as [|[f d] l IH]; intros x z b H; [exists []; split; reflexivity|]. unfold lowered in H. cbn [foldM fst snd] in H. unfold rates_at. cbn [mapM fst snd].
  destruct (f x) as [r|]; cbn [bind] in *; [|discriminate]. destruct (IH _ _ _ H) as (rs & E & L). unfold rates_at in E. rewrite E. cbn [bind]. exists ((r, d) :: rs). cbn [length]. auto.
Qed.
(* tables of doubles give rates that are numbers *)
Lemma rates_numbers l : forall x rs, Forall (fun fd => (exists xs ys, double_table xs ys /\ fst fd = interp_linear xs ys) /\ a_number (snd fd)) l ->
  a_number x -> rates_at l x = Ok rs -> Forall (fun rd => a_number (fst rd) /\ a_number (snd rd)) rs.
Proof.
  induction l as [|[f d] l IH]; intros x rs F Nx E; [cbn in E; injection E as <-; constructor|].
  inversion F as [|? ? [(xs & ys & T & Ef) Nd] F']; subst. cbn [fst snd] in *. unfold rates_at in E. cbn [mapM fst snd] in E. destruct (f x) as [r|] eqn:Er; cbn [bind] in E; [|discriminate].
  fold (rates_at l x) in E. destruct (rates_at l x) as [rs'|] eqn:Er'; cbn [bind] in E; [|discriminate]. injection E as <-. constructor; [|exact (IH x rs' F' Nx Er')]. cbn [fst snd]. split; [|exact Nd].
  subst f. refine (proj1 (table_sound xs ys T x r _ Er)). split; [exact (proj1 Nx)|]. destruct Nx as [_ Nx]. intros ->. exact Nx.
Qed.
Lemma add_zero_right z : a_number z -> a_number (add z (n0 : b64)) /\ value (add z (n0 : b64)) = value z.
Proof.
  intros P. destruct zero_number as [Z V].
  assert (F : rnd (value z + value (n0 : b64)) = value z) by (rewrite V, Rplus_0_r; apply round_generic; [apply valid_rnd_N|apply format_value, P]).
  assert (L : Rabs (value z) < bpow radix2 emax64).
  { apply number_B in P. destruct P as [b [-> _]]. rewrite value_B. apply abs_B2R_lt_emax. }
  destruct (add_value z n0 P Z) as [N E]; [rewrite F; exact L|]. split; [exact N|]. rewrite E. exact F.
Qed.
Lemma edges_stay {B} (l : list B) : forall z : b64, a_number z -> value (fold_left (fun z _ => nadd z n0) l z) = value z.
Proof.
  induction l as [|d l IH]; intros z N; [reflexivity|]. cbn [fold_left]. destruct (add_zero_right z N) as [N' V]. rewrite IH; [exact V|exact N'].
Qed.
Theorem bedrock_near {X} {tr : Trans b64} (E : externals b64 X) : leaves_bedrock E ->
  forall params text names ctx c names' m0 m f l,
  load_model E params (read_bathymetry text) names ctx c = Ok (names', m0) -> In "subsidence"%string names' -> ~ In "flexure"%string names' ->
  sinking E names' m0 (described_rate (section_of ctx "subsidence")) m f l -> INR (length l) <= 2 ^ 50 ->
  exists x y b, file_table text = Ok (x, y) /\ node (sm_grid m) "bedrock_surface__elevation" = Some b
    /\ forall j, (j < g_cols (sm_grid m))%nat -> let here := nmul (nofnat j) (g_dx (sm_grid m)) in
         exists z, interp_linear x y here = Ok z /\ let start := nsub z (nlit 100) in
           (a_number start -> value (at2 n0 b 0 j) = value start /\ value (at2 n0 b (g_rows (sm_grid m) + 1) j) = value start)
           /\ forall i, (1 <= i <= g_rows (sm_grid m))%nat -> exists rs, rates_at l here = Ok rs /\ length rs = length l
                /\ (Forall (fun rd => a_number (fst rd) /\ a_number (snd rd)) rs -> a_number start -> Rabs (value start) + travelled rs <= 2 ^ 1000 ->
                    a_number (at2 n0 b i j) /\ Rabs (value (at2 n0 b i j) - (value start + sinkage rs)) <= INR (length l) * ((Rabs (value start) + travelled rs) / 2 ^ 51 + / 2 ^ 1000)).
Proof.
  intros LB params text names ctx c names' m0 m f l H Hs Hf Hk Hn. destruct (sinks_by E LB _ _ _ _ _ _ _ _ _ _ H Hs Hf Hk) as (x & y & b & Ef & Nb & _ & V).
  exists x, y, b. split; [exact Ef|]. split; [exact Nb|]. intros j Hj here. destruct (V j Hj) as (z & Ez & W). exists z. split; [exact Ez|]. intros start. split.
  - intros Ns. pose proof (W 0%nat ltac:(lia)) as W0. pose proof (W (g_rows (sm_grid m) + 1)%nat ltac:(lia)) as W1. cbn [Nat.leb andb] in W0.
    rewrite (proj2 (Nat.leb_gt (g_rows (sm_grid m) + 1) (g_rows (sm_grid m)))), andb_false_r in W1 by lia. rewrite W0, W1. split; apply edges_stay; exact Ns.
  - intros i Hi. pose proof (W i ltac:(lia)) as Wi. rewrite (proj2 (Nat.leb_le 1 i)), (proj2 (Nat.leb_le i (g_rows (sm_grid m)))) in Wi by lia. cbn [andb] in Wi. fold here in Wi. fold start in Wi.
    destruct (lowered_rates _ _ _ _ Wi) as (rs & Er & Lr). exists rs. split; [exact Er|]. split; [exact Lr|]. intros Fr Ns Hb. exact (lowered_near l here rs start _ Er Fr Hn Ns Hb Wi).
Qed.
