(** Subtraction, division, // and int() of doubles. *)
From Coq Require Import ZArith QArith Reals Lra Lia Bool Floats.SpecFloat.
From Flocq Require Import Core Round Plus_error Relative BinarySingleNaN.
From Verif.Base Require Import Num.
From Verif.Spec Require Import Doubles.
From Verif.Proofs Require Import DoubleP DoubleMassP.
Local Open Scope R_scope.

#[local] Existing Instances Hprec Hmax.
#[local] Notation fexp64 := (SpecFloat.fexp prec64 emax64).
#[local] Notation rnd := (round radix2 fexp64 ZnearestE).
#[local] Notation bfloat := (binary_float prec64 emax64).
#[local] Notation sub := (SFsub prec64 emax64).
#[local] Notation add := (SFadd prec64 emax64).
#[local] Notation div := (SFdiv prec64 emax64).

Lemma sub_value x y : a_number x -> a_number y -> Rabs (rnd (value x - value y)) < bpow radix2 emax64 ->
  a_number (sub x y) /\ value (sub x y) = rnd (value x - value y).
Proof.
  intros [b [-> F]]%number_B [c [-> G]]%number_B. rewrite !value_B. intros L.
  pose proof (Bminus_correct prec64 emax64 Hprec Hmax mode_NE b c F G) as C. cbn [round_mode] in C. rewrite Rlt_bool_true in C by exact L.
  destruct C as [C1 [C2 _]]. rewrite sub_equiv, value_B. split; [|exact C1].
  apply number_B. eexists. split; [reflexivity|exact C2].
Qed.
Lemma div_value x y : a_number x -> a_number y -> value y <> 0 -> Rabs (rnd (value x / value y)) < bpow radix2 emax64 ->
  a_number (div x y) /\ value (div x y) = rnd (value x / value y).
Proof.
  intros [b [-> F]]%number_B [c [-> G]]%number_B. rewrite !value_B. intros Z L.
  pose proof (Bdiv_correct prec64 emax64 Hprec Hmax mode_NE b c Z) as C. cbn [round_mode] in C. rewrite Rlt_bool_true in C by exact L.
  destruct C as [C1 [C2 _]]. rewrite div_equiv, value_B. split; [|exact C1].
  apply number_B. eexists. split; [reflexivity|]. rewrite C2. exact F.
Qed.
Lemma rnd_le x y : x <= y -> rnd x <= rnd y.
Proof. apply round_le; [apply (fexp_correct prec64 emax64 Hprec)|apply valid_rnd_N]. Qed.
Lemma rnd_small z e : (Z.abs z <= 2 ^ 53)%Z -> (-1074 <= e)%Z -> rnd (IZR z * bpow radix2 e) = IZR z * bpow radix2 e.
Proof. intros Z1 E1. apply round_generic; [apply valid_rnd_N|apply small_format; assumption]. Qed.
(* rounding keeps what is between two doubles there *)
Lemma rnd_between a b ea eb x : (Z.abs a <= 2 ^ 53)%Z -> (Z.abs b <= 2 ^ 53)%Z -> (-1074 <= ea)%Z -> (-1074 <= eb)%Z ->
  IZR a * bpow radix2 ea <= x <= IZR b * bpow radix2 eb -> IZR a * bpow radix2 ea <= rnd x <= IZR b * bpow radix2 eb.
Proof.
  intros A B Ea Eb [L U]. rewrite <- (rnd_small a ea A Ea), <- (rnd_small b eb B Eb). split; apply rnd_le; assumption.
Qed.
Lemma bounded_no_overflow x e : (-1074 <= e < 1024)%Z -> Rabs x <= bpow radix2 e -> Rabs (rnd x) < bpow radix2 emax64.
Proof.
  intros E L. apply Rle_lt_trans with (bpow radix2 e).
  - apply abs_round_le_generic; [apply (fexp_correct prec64 emax64 Hprec)|apply valid_rnd_N| |exact L].
    rewrite <- (Rmult_1_l (bpow radix2 e)). apply (small_format 1 e); lia.
  - apply bpow_lt. unfold emax64. lia.
Qed.
Lemma sub_error x y : a_number x -> a_number y -> Rabs (value x - value y) <= bpow radix2 1023 ->
  a_number (sub x y) /\ Rabs (value (sub x y) - (value x - value y)) <= Rabs (value x - value y) * bpow radix2 (-53).
Proof.
  intros X Y L.
  destruct (sub_value x y X Y) as [N V]; [apply (bounded_no_overflow _ 1023); [lia|exact L]|]. split; [exact N|]. rewrite V.
  assert (Y' : a_number (SFopp y) /\ value (SFopp y) = - value y).
  { apply number_B in Y. destruct Y as [c [-> G]]. change (SFopp (B2SF c)) with (SFopp (B2SF c)).
    assert (E : SFopp (B2SF c) = B2SF (Bopp c)) by (destruct c; reflexivity). rewrite E, !value_B, B2R_Bopp. split; [|reflexivity].
    apply number_B. exists (Bopp c). split; [reflexivity|]. rewrite is_finite_Bopp. exact G. }
  destruct Y' as [Ny Vy]. destruct (add_error x (SFopp y) X Ny) as [Na Ea]; [rewrite Vy; exact L|].
  destruct (add_value x (SFopp y) X Ny) as [_ Va]; [rewrite Vy; apply (bounded_no_overflow _ 1023); [lia|exact L]|].
  rewrite Va, Vy in Ea. exact Ea.
Qed.

Lemma two_power k : (0 <= k)%Z -> IZR (2 ^ k) = bpow radix2 k.
Proof. intros K. apply (IZR_Zpower radix2 k K). Qed.
(* a number as a whole multiple of a power of two *)
Lemma parts_number x : a_number x -> exists m e, b64_parts x = Some (m, e) /\ value x = IZR m * bpow radix2 e
  /\ (Z.abs m < 2 ^ 53)%Z /\ (-1074 <= e)%Z.
Proof.
  intros [V F]. destruct x as [s|s| |s m e]; try destruct F.
  - exists 0%Z, 0%Z. split; [reflexivity|]. split; [cbn; ring|]. lia.
  - exists (if s then Zneg m else Zpos m), e. split; [reflexivity|]. split; [rewrite value_SF2R; unfold SF2R, F2R; destruct s; reflexivity|].
    cbn [valid_binary] in V. unfold SpecFloat.bounded in V. apply andb_prop in V. destruct V as [V1 V2].
    unfold canonical_mantissa in V1. apply Zeq_bool_eq in V1. unfold SpecFloat.fexp, SpecFloat.emin, prec64, emax64 in V1.
    split; [|lia].
    assert (D : (Zpos (digits2_pos m) <= 53)%Z) by lia.
    assert (B := Digits.Zdigits2_Zdigits). assert (Q : (Zpos m < 2 ^ 53)%Z).
    { apply Z.lt_le_trans with (2 ^ Zpos (digits2_pos m))%Z; [|apply Z.pow_le_mono_r; lia].
      rewrite Digits.Zpos_digits2_pos. apply (Digits.Zdigits_correct radix2 (Zpos m)). }
    destruct s; exact Q.
Qed.

(* fmod is exact *)
Lemma fmod_exact x y : a_number x -> a_number y -> 0 <= value x <= bpow radix2 970 -> 0 < value y ->
  exists q, (0 <= q)%Z /\ a_number (b64_fmod x y) /\ value (b64_fmod x y) = value x - IZR q * value y
    /\ 0 <= value (b64_fmod x y) < value y.
Proof.
  intros X Y [Px Bx] Py. destruct (parts_number x X) as [mx [ex [Ex [Vx [Mx Lx]]]]]. destruct (parts_number y Y) as [my [ey [Ey [Vy [My Ly]]]]].
  unfold b64_fmod. rewrite Ex, Ey. set (e := Z.min ex ey). set (ax := (mx * 2 ^ (ex - e))%Z). set (ay := (my * 2 ^ (ey - e))%Z).
  assert (Bpx := bpow_gt_0 radix2 ex). assert (Bpy := bpow_gt_0 radix2 ey). assert (Bpe := bpow_gt_0 radix2 e).
  assert (Pw : forall k, (0 <= k)%Z -> IZR (2 ^ k) = bpow radix2 k) by (intros k K; apply (IZR_Zpower radix2 k K)).
  assert (Ax : value x = IZR ax * bpow radix2 e).
  { unfold ax. rewrite mult_IZR, Pw by lia. rewrite Rmult_assoc, <- bpow_plus. replace (ex - e + e)%Z with ex by lia. exact Vx. }
  assert (Ay : value y = IZR ay * bpow radix2 e).
  { unfold ay. rewrite mult_IZR, Pw by lia. rewrite Rmult_assoc, <- bpow_plus. replace (ey - e + e)%Z with ey by lia. exact Vy. }
  assert (Ax0 : (0 <= ax)%Z) by (apply le_IZR; apply Rmult_le_reg_r with (bpow radix2 e); lra).
  assert (Ay0 : (0 < ay)%Z) by (apply lt_IZR; apply Rmult_lt_reg_r with (bpow radix2 e); lra).
  rewrite (proj2 (Z.eqb_neq ay 0)) by lia. set (r := Z.rem ax ay).
  assert (Er : r = (ax mod ay)%Z) by (apply Z.rem_mod_nonneg; lia).
  assert (R0 : (0 <= r < ay)%Z) by (rewrite Er; apply Z.mod_pos_bound; lia).
  assert (Rx : (r <= ax)%Z) by (rewrite Er; apply Z.mod_le; lia).
  assert (Eq := Z.div_mod ax ay ltac:(lia)). rewrite <- Er in Eq.
  assert (Sm : (Z.abs r <= 2 ^ 53)%Z).
  { destruct (Z.min_spec ex ey) as [[_ M]|[_ M]]; fold e in M.
    - assert (ax = mx) by (unfold ax; rewrite M, Z.sub_diag; cbn; lia). lia.
    - assert (ay = my) by (unfold ay; rewrite M, Z.sub_diag; cbn; lia). lia. }
  assert (Top : r = 0%Z \/ (e <= 970)%Z).
  { destruct (Z.eq_dec r 0) as [Z0|Z0]; [left; exact Z0|right]. apply (le_bpow radix2). apply Rle_trans with (2 := Bx). rewrite Ax.
    rewrite <- (Rmult_1_l (bpow radix2 e)) at 1. apply Rmult_le_compat_r; [lra|]. apply IZR_le. lia. }
  assert (Nr : a_number (b64_of r e) /\ value (b64_of r e) = IZR r * bpow radix2 e).
  { destruct Top as [Z0|Z0]; [rewrite Z0; split; [split; [reflexivity|exact I]|cbn; ring]|apply of_number; [exact Sm|lia]]. }
  exists (ax / ay)%Z. split; [apply Z.div_pos; lia|]. destruct Nr as [N1 N2]. split; [exact N1|]. rewrite N2.
  split; [rewrite Ax, Ay; apply (f_equal IZR) in Eq; rewrite plus_IZR, mult_IZR in Eq; rewrite Eq; ring|].
  split; [apply Rmult_le_pos; [apply IZR_le; lia|lra]|]. rewrite Ay. apply Rmult_lt_compat_r; [exact Bpe|apply IZR_lt; lia].
Qed.

Lemma floor_value x : a_number x -> Rabs (value x) <= bpow radix2 52 ->
  exists z, a_number (b64_floor x) /\ value (b64_floor x) = IZR z /\ IZR z <= value x < IZR z + 1.
Proof.
  intros X B. destruct (parts_number x X) as [m [e [E [V [M L]]]]]. unfold b64_floor. rewrite E.
  destruct (Z.leb_spec 0 e) as [P|P].
  - exists (m * 2 ^ e)%Z. assert (Q : value x = IZR (m * 2 ^ e)) by (rewrite V, mult_IZR; f_equal; symmetry; apply (IZR_Zpower radix2 e P)).
    split; [exact X|]. split; [exact Q|]. lra.
  - set (k := (2 ^ (- e))%Z). assert (K : (0 < k)%Z) by (apply Z.pow_pos_nonneg; lia).
    assert (Kb : IZR k * bpow radix2 e = 1).
    { unfold k. rewrite two_power by lia. rewrite <- bpow_plus, Z.add_opp_diag_l. reflexivity. }
    assert (Bp := bpow_gt_0 radix2 e).
    assert (D := Z.div_mod m k ltac:(lia)). assert (Dm := Z.mod_pos_bound m k K).
    assert (Q : IZR (m / k) <= value x < IZR (m / k) + 1).
    { rewrite V. apply (f_equal IZR) in D. rewrite plus_IZR, mult_IZR in D. destruct Dm as [D1 D2]. apply IZR_le in D1. apply IZR_lt in D2.
      rewrite D. rewrite Rmult_plus_distr_r. replace (IZR k * IZR (m / k) * bpow radix2 e) with (IZR (m / k) * (IZR k * bpow radix2 e)) by ring.
      rewrite Kb, Rmult_1_r. assert (0 <= IZR (m mod k) * bpow radix2 e) by (apply Rmult_le_pos; lra).
      assert (IZR (m mod k) * bpow radix2 e < IZR k * bpow radix2 e) by (apply Rmult_lt_compat_r; lra). lra. }
    assert (Sm : (Z.abs (m / k) <= 2 ^ 53)%Z).
    { assert (A1 : IZR (m / k) <= IZR (2 ^ 52)) by (change (IZR (2 ^ 52)) with (bpow radix2 52); assert (A := Rle_abs (value x)); lra).
      assert (A2 : - IZR (2 ^ 52) - 1 < IZR (m / k)).
      { change (IZR (2 ^ 52)) with (bpow radix2 52). assert (A := Rle_abs (- value x)). rewrite Rabs_Ropp in A. lra. }
      apply le_IZR in A1. rewrite <- opp_IZR, <- minus_IZR in A2. apply lt_IZR in A2. lia. }
    destruct (of_number (m / k) 0 Sm ltac:(lia)) as [N1 N2]. rewrite Rmult_1_r in N2.
    exists (m / k)%Z. split; [exact N1|]. split; [exact N2|exact Q].
Qed.
Lemma int_value x z : a_number x -> value x = IZR z -> b64_int x = z.
Proof.
  intros X Q. destruct (parts_number x X) as [m [e [E [V [M L]]]]]. unfold b64_int. rewrite E. rewrite V in Q.
  destruct (Z.leb_spec 0 e) as [P|P].
  - apply eq_IZR. rewrite <- Q, mult_IZR. f_equal. apply (IZR_Zpower radix2 e P).
  - assert (K : (0 < 2 ^ (- e))%Z) by (apply Z.pow_pos_nonneg; lia).
    assert (Em : m = (z * 2 ^ (- e))%Z).
    { apply eq_IZR. rewrite mult_IZR, <- Q, two_power by lia. rewrite Rmult_assoc, <- bpow_plus, Z.add_opp_diag_r. cbn. ring. }
    rewrite Em. apply Z.quot_mul. lia.
Qed.

(* // and %: exact for a quotient below 2^50 *)
Lemma divmod_exact x y : a_number x -> a_number y -> 0 <= value x <= bpow radix2 970 -> 0 < value y ->
  value x <= bpow radix2 50 * value y ->
  exists q, (0 <= q <= 2 ^ 50)%Z /\ b64_int (fst (b64_divmod x y)) = q
    /\ a_number (snd (b64_divmod x y)) /\ value (snd (b64_divmod x y)) = value x - IZR q * value y
    /\ 0 <= value (snd (b64_divmod x y)) < value y.
Proof.
  intros X Y Bx Py Bq. destruct (fmod_exact x y X Y Bx Py) as [q [Q0 [Nm [Vm Rm]]]].
  assert (Q1 : (q <= 2 ^ 50)%Z).
  { apply le_IZR. change (IZR (2 ^ 50)) with (bpow radix2 50). apply Rmult_le_reg_r with (value y); [exact Py|]. lra. }
  assert (Z0 : a_number (S754_zero false)) by (split; [reflexivity|exact I]).
  assert (V0 : value (S754_zero false) = 0) by reflexivity.
  unfold b64_divmod. set (md := b64_fmod x y) in *.
  assert (W1 : SFltb y (S754_zero false) = false) by (apply (ltb_value_false y _ Y Z0); rewrite V0; lra).
  assert (W2 : SFltb md (S754_zero false) = false) by (apply (ltb_value_false md _ Nm Z0); rewrite V0; lra).
  rewrite W1, W2. cbn [xorb]. rewrite andb_false_r. cbn [fst snd].
  exists q. split; [lia|]. split; [|split; [exact Nm|split; [exact Vm|exact Rm]]].
  assert (Qr0 : 0 <= IZR q) by (apply IZR_le; exact Q0).
  assert (Qr1 : IZR q <= bpow radix2 50) by (change (bpow radix2 50) with (IZR (2 ^ 50)); apply IZR_le; exact Q1).
  assert (Yq : value x - value md = IZR q * value y) by lra.
  assert (Yq0 : 0 <= IZR q * value y) by (apply Rmult_le_pos; lra).
  destruct (sub_error x md X Nm) as [Ns Es].
  { rewrite Yq, Rabs_pos_eq by exact Yq0. apply Rle_trans with (value x); [lra|]. apply Rle_trans with (1 := proj2 Bx). apply bpow_le. lia. }
  rewrite Yq, (Rabs_pos_eq (IZR q * value y)) in Es by exact Yq0. set (xm := sub x md) in *.
  assert (U : IZR q * bpow radix2 (-53) <= / 8).
  { apply Rle_trans with (bpow radix2 50 * bpow radix2 (-53)); [apply Rmult_le_compat_r; [apply bpow_ge_0|exact Qr1]|].
    rewrite <- bpow_plus. change (bpow radix2 (50 + -53)) with (/ 8). lra. }
  assert (Wq : IZR q - / 4 <= value xm / value y <= IZR q + / 4).
  { apply Rabs_le_inv in Es. replace (IZR q * value y * bpow radix2 (-53)) with (IZR q * bpow radix2 (-53) * value y) in Es by ring.
    assert (A : IZR q * bpow radix2 (-53) * value y <= / 8 * value y) by (apply Rmult_le_compat_r; lra).
    split; apply Rmult_le_reg_r with (value y); try exact Py; unfold Rdiv; rewrite Rmult_assoc, Rinv_l by lra; lra. }
  assert (F4 : forall z, IZR z * bpow radix2 (-2) = IZR z / 4) by (intros z; change (bpow radix2 (-2)) with (/ 4); reflexivity).
  assert (Wd := rnd_between (4 * q - 1) (4 * q + 1) (-2) (-2) (value xm / value y) ltac:(lia) ltac:(lia) ltac:(lia) ltac:(lia)).
  rewrite !F4, minus_IZR, plus_IZR, mult_IZR in Wd. change (IZR 4) with 4 in Wd. change (IZR 1) with 1 in Wd.
  specialize (Wd ltac:(lra)).
  assert (B50 : bpow radix2 50 = 1125899906842624) by reflexivity.
  destruct (div_value xm y Ns Y ltac:(lra)) as [Nd Vd].
  { apply Rle_lt_trans with (bpow radix2 51); [|apply bpow_lt; reflexivity]. apply Rabs_le. change (bpow radix2 51) with 2251799813685248. lra. }
  set (dv := div xm y) in *. rewrite <- Vd in Wd.
  destruct (floor_value dv Nd) as [z [Nf [Vf Rf]]].
  { apply Rabs_le. change (bpow radix2 52) with 4503599627370496. lra. }
  assert (Cz : z = q \/ z = (q - 1)%Z).
  { assert (A1 : (z < q + 1)%Z) by (apply lt_IZR; rewrite plus_IZR; lra).
    assert (A2 : (q - 2 < z)%Z) by (apply lt_IZR; rewrite minus_IZR; lra). lia. }
  destruct (of_number 1 (-1) ltac:(lia) ltac:(lia)) as [Nh Vh].
  change (bpow radix2 (-1)) with (/ 2) in Vh.
  destruct (of_number 1 0 ltac:(lia) ltac:(lia)) as [No Vo]. change (bpow radix2 0) with 1 in Vo.
  assert (Df : 0 <= value dv - value (b64_floor dv) <= 1) by (rewrite Vf; lra).
  destruct (sub_value dv (b64_floor dv) Nd Nf) as [Nr Vr].
  { apply (bounded_no_overflow _ 0); [lia|]. change (bpow radix2 0) with 1. rewrite Rabs_pos_eq; lra. }
  destruct Cz as [-> | ->].
  - assert (Wr := rnd_between 0 1 (-2) (-2) (value dv - value (b64_floor dv)) ltac:(lia) ltac:(lia) ltac:(lia) ltac:(lia)).
    rewrite !F4 in Wr. specialize (Wr ltac:(rewrite Vf; lra)).
    rewrite (proj2 (ltb_value_false _ _ Nh Nr)) by (rewrite Vh, Vr; lra). apply int_value; [exact Nf|exact Vf].
  - rewrite minus_IZR in *. assert (Wr := rnd_between 3 4 (-2) (-2) (value dv - value (b64_floor dv)) ltac:(lia) ltac:(lia) ltac:(lia) ltac:(lia)).
    rewrite !F4 in Wr. specialize (Wr ltac:(rewrite Vf; lra)).
    rewrite (proj2 (ltb_value _ _ Nh Nr)) by (rewrite Vh, Vr; lra).
    assert (Sx : value (b64_floor dv) + value (b64_of 1 0) = IZR q * bpow radix2 0) by (rewrite Vf, Vo; cbn; ring).
    destruct (add_value (b64_floor dv) (b64_of 1 0) Nf No) as [Na Va].
    { rewrite Sx, rnd_small by lia. apply small_bound; lia. }
    apply int_value; [exact Na|]. rewrite Va, Sx, rnd_small by lia. cbn. ring.
Qed.
