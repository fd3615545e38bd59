(** Doubles: the executable arithmetic of the standard library against Flocq. *)
From Coq Require Import ZArith QArith Reals Lra Lia Bool Floats.SpecFloat.
From Flocq Require Import Core Round Plus_error Relative BinarySingleNaN.
From Verif.Base Require Import Num.
From Verif.Spec Require Import Doubles.
Local Open Scope R_scope.

#[local] Instance Hprec : Prec_gt_0 prec64 := eq_refl _.
#[local] Instance Hmax : Prec_lt_emax prec64 emax64 := eq_refl _.
#[local] Notation fexp64 := (SpecFloat.fexp prec64 emax64).
#[local] Notation rnd := (round radix2 fexp64 ZnearestE).
#[local] Notation bfloat := (binary_float prec64 emax64).

Lemma round_nearest_even_equiv s m l : round_nearest_even m l = choice_mode mode_NE s m l.
Proof. case l; [reflexivity|intro c]. case c; [|reflexivity..]. now simpl; unfold Round.cond_incr; case Z.even. Qed.
Lemma binary_round_aux_equiv sx mx ex lx :
  SpecFloat.binary_round_aux prec64 emax64 sx mx ex lx = binary_round_aux prec64 emax64 mode_NE sx mx ex lx.
Proof.
  unfold SpecFloat.binary_round_aux, binary_round_aux. set (mrse' := shr_fexp _ _ _).
  case mrse'; intros mrs' e'; simpl. now rewrite (round_nearest_even_equiv sx).
Qed.
Lemma binary_round_equiv s m e :
  SpecFloat.binary_round prec64 emax64 s m e = binary_round prec64 emax64 mode_NE s m e.
Proof.
  unfold SpecFloat.binary_round, binary_round, shl_align_fexp.
  set (mez := shl_align _ _ _); case mez as [mz ez]. apply binary_round_aux_equiv.
Qed.
Lemma binary_normalize_equiv m e szero :
  SpecFloat.binary_normalize prec64 emax64 m e szero
  = B2SF (binary_normalize prec64 emax64 Hprec Hmax mode_NE m e szero).
Proof.
  case m as [ | p | p].
  - now simpl.
  - simpl; rewrite B2SF_SF2B; apply binary_round_equiv.
  - simpl; rewrite B2SF_SF2B; apply binary_round_equiv.
Qed.
Lemma add_equiv (x y : bfloat) : SFadd prec64 emax64 (B2SF x) (B2SF y) = B2SF (Bplus mode_NE x y).
Proof.
  case x as [sx|sx| |sx mx ex Bx]; case y as [sy|sy| |sy my ey By];
    [now (trivial || simpl; case Bool.eqb).. | ]. apply binary_normalize_equiv.
Qed.
Lemma sub_equiv (x y : bfloat) : SFsub prec64 emax64 (B2SF x) (B2SF y) = B2SF (Bminus mode_NE x y).
Proof.
  case x as [sx|sx| |sx mx ex Bx]; case y as [sy|sy| |sy my ey By];
    [now (trivial || simpl; case Bool.eqb).. | ].
  simpl. unfold Zminus. rewrite <- cond_Zopp_negb. apply binary_normalize_equiv.
Qed.
Lemma div_equiv (x y : bfloat) : SFdiv prec64 emax64 (B2SF x) (B2SF y) = B2SF (Bdiv mode_NE x y).
Proof.
  case x as [sx|sx| |sx mx ex Bx]; case y as [sy|sy| |sy my ey By];
    [now (trivial || simpl; case Bool.eqb).. | ].
  simpl. rewrite B2SF_SF2B. set (melz := SFdiv_core_binary _ _ _ _ _ _).
  case melz as [[mz ez] lz]. apply binary_round_aux_equiv.
Qed.

(** a double that is a number *)
Lemma value_SF2R x : value x = SF2R radix2 x.
Proof.
  destruct x as [s|s| |s m e]; try reflexivity. cbn [value SF2R]. unfold F2R. cbn [Fnum Fexp].
  rewrite bpow_powerRZ. destruct s; reflexivity.
Qed.
Lemma number_B x : a_number x <-> exists b : bfloat, x = B2SF b /\ is_finite b = true.
Proof.
  split.
  - intros [V F]. exists (SF2B _ V). rewrite B2SF_SF2B. split; [reflexivity|]. destruct x; easy.
  - intros [b [-> F]]. split; [apply valid_binary_B2SF|]. destruct b; easy.
Qed.
Lemma value_B (b : bfloat) : value (B2SF b) = B2R b.
Proof. rewrite value_SF2R. apply SF2R_B2SF. Qed.
Lemma ltb_value x y : a_number x -> a_number y -> SFltb x y = true <-> value x < value y.
Proof.
  intros [b [-> F]]%number_B [c [-> G]]%number_B. rewrite !value_B.
  change (SFltb (B2SF b) (B2SF c)) with (Bltb b c). rewrite Bltb_correct by assumption.
  case Rlt_bool_spec; intros L; split; intros M; try easy; lra.
Qed.
Lemma ltb_value_false x y : a_number x -> a_number y -> SFltb x y = false <-> value y <= value x.
Proof.
  intros X Y. pose proof (ltb_value x y X Y) as [P Q]. destruct (SFltb x y).
  - split; [discriminate|]. intros L. specialize (P eq_refl). lra.
  - split; [|reflexivity]. intros _. destruct (Rle_or_lt (value y) (value x)) as [L|L]; [exact L|]. specialize (Q L). discriminate.
Qed.
Lemma format_value x : a_number x -> generic_format radix2 fexp64 (value x).
Proof. intros [b [-> F]]%number_B. rewrite value_B. apply generic_format_B2R. Qed.

(* adding two numbers without overflow *)
Lemma add_value x y : a_number x -> a_number y -> Rabs (rnd (value x + value y)) < bpow radix2 emax64 ->
  a_number (SFadd prec64 emax64 x y) /\ value (SFadd prec64 emax64 x y) = rnd (value x + value y).
Proof.
  intros [b [-> F]]%number_B [c [-> G]]%number_B. rewrite !value_B. intros L.
  pose proof (Bplus_correct prec64 emax64 Hprec Hmax mode_NE b c F G) as C. cbn [round_mode] in C. rewrite Rlt_bool_true in C by exact L.
  destruct C as [C1 [C2 _]]. rewrite add_equiv, value_B. split; [|exact C1].
  apply number_B. eexists. split; [reflexivity|exact C2].
Qed.

(** ** whole multiples of a power of two *)
Lemma small_format z e : (Z.abs z <= 2 ^ 53)%Z -> (-1074 <= e)%Z -> generic_format radix2 fexp64 (IZR z * bpow radix2 e).
Proof.
  intros Z1 E1. change fexp64 with (FLT_exp (-1074) 53).
  destruct (Z.eq_dec (Z.abs z) (2 ^ 53)) as [Q|Q].
  - assert (S : exists s : Z, (z = s * 2 ^ 53 /\ (s = 1 \/ s = -1))%Z) by (exists (Z.sgn z); lia).
    destruct S as [s [-> S]]. rewrite mult_IZR.
    replace (IZR s * IZR (2 ^ 53) * bpow radix2 e) with (IZR s * bpow radix2 (e + 53))
      by (rewrite bpow_plus; change (bpow radix2 53) with (IZR (2 ^ 53)); ring).
    apply generic_format_FLT. exists (Float radix2 s (e + 53)).
    + reflexivity.
    + cbn. lia.
    + cbn. lia.
  - apply generic_format_FLT. exists (Float radix2 z e); [reflexivity| |exact E1]. cbn. lia.
Qed.
Lemma small_bound z e : (Z.abs z <= 2 ^ 53)%Z -> (e <= 970)%Z -> Rabs (IZR z * bpow radix2 e) < bpow radix2 emax64.
Proof.
  intros Z1 E1. rewrite Rabs_mult, (Rabs_pos_eq (bpow radix2 e)) by apply bpow_ge_0. rewrite <- abs_IZR.
  apply Rle_lt_trans with (bpow radix2 53 * bpow radix2 e).
  - apply Rmult_le_compat_r; [apply bpow_ge_0|]. change (bpow radix2 53) with (IZR (2 ^ 53)). apply IZR_le. exact Z1.
  - rewrite <- bpow_plus. apply bpow_lt. unfold emax64. lia.
Qed.
Lemma of_B z e : (Z.abs z <= 2 ^ 53)%Z -> (-1074 <= e <= 970)%Z ->
  exists b : bfloat, b64_of z e = B2SF b /\ is_finite b = true /\ B2R b = IZR z * bpow radix2 e
    /\ Bsign b = (z <? 0)%Z.
Proof.
  intros Z1 E1. destruct (Z.eq_dec z 0) as [->|N].
  - exists (B754_zero false). repeat split. cbn. ring.
  - assert (E : b64_of z e = SpecFloat.binary_normalize prec64 emax64 z e (z <? 0)%Z) by (destruct z; [easy|reflexivity..]).
    rewrite binary_normalize_equiv in E. eexists. split; [exact E|].
    pose proof (binary_normalize_correct prec64 emax64 Hprec Hmax mode_NE z e (z <? 0)%Z) as C.
    cbn zeta in C. cbn [round_mode] in C. unfold F2R in C. cbn [Fnum Fexp] in C.
    rewrite round_generic in C; [|apply valid_rnd_N|apply small_format; lia].
    rewrite Rlt_bool_true in C by (apply small_bound; lia). destruct C as [C1 [C2 C3]]. split; [exact C2|]. split; [exact C1|].
    rewrite C3. case Rcompare_spec; intros L.
    + symmetry. apply Z.ltb_lt. apply lt_IZR. apply Rmult_lt_reg_r with (bpow radix2 e); [apply bpow_gt_0|]. lra.
    + reflexivity.
    + symmetry. apply Z.ltb_ge. apply le_IZR. apply Rmult_le_reg_r with (bpow radix2 e); [apply bpow_gt_0|]. lra.
Qed.
Lemma of_number z e : (Z.abs z <= 2 ^ 53)%Z -> (-1074 <= e <= 970)%Z ->
  a_number (b64_of z e) /\ value (b64_of z e) = IZR z * bpow radix2 e.
Proof.
  intros Z1 E1. destruct (of_B z e Z1 E1) as [b [-> [F [V _]]]]. rewrite value_B. split; [|exact V].
  apply number_B. exists b. easy.
Qed.
Lemma of_add a b e : (Z.abs a <= 2 ^ 53)%Z -> (Z.abs b <= 2 ^ 53)%Z -> (Z.abs (a + b) <= 2 ^ 53)%Z -> (-1074 <= e <= 970)%Z ->
  SFadd prec64 emax64 (b64_of a e) (b64_of b e) = b64_of (a + b) e.
Proof.
  intros A B AB E. destruct (of_B a e A E) as [x [-> [Fx [Vx Sx]]]]. destruct (of_B b e B E) as [y [-> [Fy [Vy Sy]]]].
  destruct (of_B (a + b) e AB E) as [w [-> [Fw [Vw Sw]]]]. rewrite add_equiv. f_equal.
  pose proof (Bplus_correct prec64 emax64 Hprec Hmax mode_NE x y Fx Fy) as C. cbn [round_mode] in C. rewrite Vx, Vy in C.
  replace (IZR a * bpow radix2 e + IZR b * bpow radix2 e) with (IZR (a + b) * bpow radix2 e) in C by (rewrite plus_IZR; ring).
  rewrite round_generic in C; [|apply valid_rnd_N|apply small_format; lia].
  rewrite Rlt_bool_true in C by (apply small_bound; lia). destruct C as [C1 [C2 C3]].
  apply B2R_Bsign_inj; [exact C2|exact Fw|congruence|]. rewrite C3, Sw, Sx, Sy.
  case Rcompare_spec; intros L.
  - symmetry. apply Z.ltb_lt. apply lt_IZR. apply Rmult_lt_reg_r with (bpow radix2 e); [apply bpow_gt_0|]. lra.
  - assert (Q : (a + b = 0)%Z).
    { apply eq_IZR. apply Rmult_eq_reg_r with (bpow radix2 e); [lra|]. pose proof (bpow_gt_0 radix2 e). lra. }
    rewrite Q. destruct (Z.ltb_spec a 0), (Z.ltb_spec b 0); try reflexivity. lia.
  - symmetry. apply Z.ltb_ge. apply le_IZR. apply Rmult_le_reg_r with (bpow radix2 e); [apply bpow_gt_0|]. lra.
Qed.
Lemma of_ltb a b e : (Z.abs a <= 2 ^ 53)%Z -> (Z.abs b <= 2 ^ 53)%Z -> (-1074 <= e <= 970)%Z ->
  SFltb (b64_of a e) (b64_of b e) = (a <? b)%Z.
Proof.
  intros A B E. destruct (of_number a e A E) as [Na Va]. destruct (of_number b e B E) as [Nb Vb].
  pose proof (bpow_gt_0 radix2 e). destruct (Z.ltb_spec a b) as [L|L].
  - apply ltb_value; [assumption..|]. rewrite Va, Vb. apply Rmult_lt_compat_r; [assumption|]. apply IZR_lt. exact L.
  - apply ltb_value_false; [assumption..|]. rewrite Va, Vb. apply Rmult_le_compat_r; [lra|]. apply IZR_le. exact L.
Qed.

(* a literal that is a whole multiple of 2^-k is the double of that multiple *)
Lemma lit_of q z k : (0 <= k <= 1074)%Z -> fits k z q -> nlit q = b64_of z (- k).
Proof.
  intros K [Q1 [Q2 [Q3 Q4]]]. change (nlit q) with (SFdiv prec64 emax64 (b64_of (Qnum q) 0) (b64_of (Zpos (Qden q)) 0)).
  destruct (of_B (Qnum q) 0 ltac:(lia) ltac:(lia)) as [x [-> [Fx [Vx Sx]]]].
  destruct (of_B (Zpos (Qden q)) 0 ltac:(lia) ltac:(lia)) as [y [-> [Fy [Vy Sy]]]].
  destruct (of_B z (- k) ltac:(lia) ltac:(lia)) as [w [-> [Fw [Vw Sw]]]]. rewrite div_equiv. f_equal.
  cbn [bpow] in Vx, Vy. rewrite Rmult_1_r in Vx, Vy.
  assert (Pd : 0 < IZR (Zpos (Qden q))) by (apply IZR_lt; reflexivity).
  assert (NZ : B2R y <> 0) by lra.
  assert (Pk : bpow radix2 (- k) * IZR (2 ^ k) = 1).
  { change (IZR (2 ^ k)) with (IZR (radix2 ^ k)). rewrite (IZR_Zpower radix2 k) by lia. rewrite <- bpow_plus, Z.add_opp_diag_l. reflexivity. }
  assert (V : B2R x / B2R y = IZR z * bpow radix2 (- k)).
  { rewrite Vx, Vy. apply Rmult_eq_reg_r with (IZR (Zpos (Qden q))); [|lra]. unfold Rdiv. rewrite Rmult_assoc, Rinv_l by lra.
    rewrite Rmult_1_r. apply (f_equal IZR) in Q4. rewrite !mult_IZR in Q4.
    transitivity (IZR (Qnum q) * IZR (2 ^ k) * bpow radix2 (- k)); [rewrite Rmult_assoc, (Rmult_comm (IZR (2 ^ k))), Pk; ring|].
    rewrite Q4. ring. }
  pose proof (Bdiv_correct prec64 emax64 Hprec Hmax mode_NE x y NZ) as C. cbn [round_mode] in C. rewrite V in C.
  rewrite round_generic in C; [|apply valid_rnd_N|apply small_format; lia].
  rewrite Rlt_bool_true in C by (apply small_bound; lia). destruct C as [C1 [C2 C3]]. rewrite Fx in C2.
  apply B2R_Bsign_inj; [exact C2|exact Fw|congruence|].
  rewrite C3 by (destruct (Bdiv mode_NE x y); easy). rewrite Sx, Sy, Sw.
  assert (P2 : (0 < 2 ^ k)%Z) by (apply Z.pow_pos_nonneg; lia).
  destruct (Z.ltb_spec (Qnum q) 0), (Z.ltb_spec z 0); try reflexivity; exfalso; nia.
Qed.

(** ** the error of an addition *)
Lemma add_error x y : a_number x -> a_number y -> Rabs (value x + value y) <= bpow radix2 1023 ->
  a_number (SFadd prec64 emax64 x y)
  /\ Rabs (value (SFadd prec64 emax64 x y) - (value x + value y)) <= Rabs (value x + value y) * bpow radix2 (-53).
Proof.
  intros X Y L.
  assert (R1 : Rabs (rnd (value x + value y)) <= bpow radix2 1023).
  { apply abs_round_le_generic; [apply (fexp_correct prec64 emax64 Hprec)|apply valid_rnd_N| |exact L].
    rewrite <- (Rmult_1_l (bpow radix2 1023)). replace (1 * bpow radix2 1023) with (IZR (2 ^ 53) * bpow radix2 970).
    - apply small_format; lia.
    - rewrite Rmult_1_l. change (IZR (2 ^ 53)) with (bpow radix2 53). rewrite <- bpow_plus. reflexivity. }
  assert (R2 : Rabs (rnd (value x + value y)) < bpow radix2 emax64).
  { apply Rle_lt_trans with (1 := R1). apply bpow_lt. reflexivity. }
  destruct (add_value x y X Y R2) as [N V]. split; [exact N|]. rewrite V.
  destruct (FLT_plus_error_N_ex radix2 (-1074) 53 (fun z => negb (Z.even z)) (value x) (value y) (format_value x X) (format_value y Y))
    as [eps [H1 H2]].
  change (rnd (value x + value y)) with (round radix2 (FLT_exp (-1074) 53) ZnearestE (value x + value y)). rewrite H2.
  replace ((value x + value y) * (1 + eps) - (value x + value y)) with ((value x + value y) * eps) by ring.
  rewrite Rabs_mult. apply Rmult_le_compat_l; [apply Rabs_pos|]. apply Rle_trans with (1 := H1).
  unfold u_ro. replace (/ 2 * bpow radix2 (- (53) + 1)) with (bpow radix2 (-53)).
  2: { change (- (53) + 1)%Z with (-53 + 1)%Z. rewrite bpow_plus. change (bpow radix2 1) with 2. lra. }
  pose proof (bpow_gt_0 radix2 (-53)) as B. apply Rmult_le_reg_r with (1 + bpow radix2 (-53)); [lra|].
  unfold Rdiv. rewrite Rmult_assoc, Rinv_l by lra. rewrite Rmult_1_r, Rmult_plus_distr_l, Rmult_1_r.
  assert (0 <= bpow radix2 (-53) * bpow radix2 (-53)) by (apply Rmult_le_pos; lra). lra.
Qed.

(* adding what is not negative does not go down, even when it overflows *)
Lemma add_not_less x y : a_number x -> a_number y -> 0 <= value y -> SFltb (SFadd prec64 emax64 x y) x = false.
Proof.
  intros X Y P. destruct (Rlt_or_le (Rabs (rnd (value x + value y))) (bpow radix2 emax64)) as [L|L].
  - destruct (add_value x y X Y L) as [N V]. apply ltb_value_false; [exact N|exact X|]. rewrite V.
    rewrite <- (round_generic radix2 fexp64 ZnearestE (value x) (format_value x X)) at 1.
    apply round_le; [apply (fexp_correct prec64 emax64 Hprec)|apply valid_rnd_N|lra].
  - apply number_B in X. destruct X as [b [-> F]]. apply number_B in Y. destruct Y as [c [-> G]]. rewrite !value_B in *.
    pose proof (Bplus_correct prec64 emax64 Hprec Hmax mode_NE b c F G) as C. cbn [round_mode] in C.
    rewrite Rlt_bool_false in C by exact L. destruct C as [C1 C2]. rewrite add_equiv, C1. cbn.
    assert (S : Bsign b = false).
    { destruct c as [s|s| |s mc ec Hc]; try discriminate G.
      - exfalso. cbn [B2R] in L. rewrite Rplus_0_r, round_generic in L; [|apply valid_rnd_N|apply generic_format_B2R].
        pose proof (abs_B2R_lt_emax prec64 emax64 b). lra.
      - cbn [Bsign] in C2. rewrite C2. destruct s; [|reflexivity]. exfalso. cbn [B2R cond_Zopp] in P.
        assert (F2R (Float radix2 (Z.neg mc) ec) < 0) by (apply F2R_lt_0; reflexivity). cbn in P. lra. }
    rewrite S. destruct b as [s|s| |s mb eb Hb]; try discriminate F; cbn; destruct s; reflexivity.
Qed.
Lemma add_not_more x y : a_number x -> a_number y -> value y <= 0 -> a_number (SFadd prec64 emax64 x y) ->
  value (SFadd prec64 emax64 x y) <= value x.
Proof.
  intros X Y P N. assert (X0 := X). assert (Y0 := Y). destruct (Rlt_or_le (Rabs (rnd (value x + value y))) (bpow radix2 emax64)) as [L|L].
  - destruct (add_value x y X Y L) as [_ V]. rewrite V.
    rewrite <- (round_generic radix2 fexp64 ZnearestE (value x) (format_value x X)) at 2.
    apply round_le; [apply (fexp_correct prec64 emax64 Hprec)|apply valid_rnd_N|lra].
  - exfalso. apply number_B in X. destruct X as [b [-> F]]. apply number_B in Y. destruct Y as [c [-> G]]. rewrite !value_B in *.
    pose proof (Bplus_correct prec64 emax64 Hprec Hmax mode_NE b c F G) as C. cbn [round_mode] in C.
    rewrite Rlt_bool_false in C by exact L. destruct C as [C1 C2]. rewrite add_equiv, C1 in N. destruct N as [_ []].
Qed.
Lemma add_not_past x y t : a_number x -> a_number y -> a_number t -> 0 <= value y -> SFltb t (SFadd prec64 emax64 x y) = false ->
  a_number (SFadd prec64 emax64 x y).
Proof.
  intros X Y T P Q. destruct (Rlt_or_le (Rabs (rnd (value x + value y))) (bpow radix2 emax64)) as [L|L].
  - exact (proj1 (add_value x y X Y L)).
  - exfalso. apply number_B in X. destruct X as [b [-> F]]. apply number_B in Y. destruct Y as [c [-> G]]. rewrite !value_B in *.
    pose proof (Bplus_correct prec64 emax64 Hprec Hmax mode_NE b c F G) as C. cbn [round_mode] in C.
    rewrite Rlt_bool_false in C by exact L. destruct C as [C1 C2].
    assert (S : Bsign b = false).
    { destruct c as [s|s| |s mc ec Hc]; try discriminate G.
      - exfalso. cbn [B2R] in L. rewrite Rplus_0_r, round_generic in L; [|apply valid_rnd_N|apply generic_format_B2R].
        pose proof (abs_B2R_lt_emax prec64 emax64 b). lra.
      - cbn [Bsign] in C2. rewrite C2. destruct s; [|reflexivity]. exfalso. cbn [B2R cond_Zopp] in P.
        assert (F2R (Float radix2 (Z.neg mc) ec) < 0) by (apply F2R_lt_0; reflexivity). cbn in P. lra. }
    rewrite add_equiv, C1, S in Q. destruct T as [_ T]. destruct t as [st|st| |st mt et]; try destruct T; try destruct st; discriminate Q.
Qed.
Lemma add_same x y : a_number x -> a_number y -> 0 < value y -> a_number (SFadd prec64 emax64 x y) ->
  value (SFadd prec64 emax64 x y) = value x -> SFadd prec64 emax64 x y = x.
Proof.
  intros X Y P N E. destruct (Req_dec (value x) 0) as [Z|Z].
  - exfalso. destruct (Rlt_or_le (Rabs (rnd (value x + value y))) (bpow radix2 emax64)) as [L|L].
    + destruct (add_value x y X Y L) as [_ V]. rewrite V, Z, Rplus_0_l in E. apply number_B in Y. destruct Y as [c [-> G]].
      rewrite value_B in *. rewrite round_generic in E; [lra|apply valid_rnd_N|apply generic_format_B2R].
    + apply number_B in Y. destruct Y as [c [-> G]]. rewrite value_B in *. rewrite Z, Rplus_0_l, round_generic in L; [|apply valid_rnd_N|apply generic_format_B2R].
      pose proof (abs_B2R_lt_emax prec64 emax64 c). lra.
  - apply number_B in X. destruct X as [b [-> F]]. apply number_B in N. destruct N as [n [Hn G]]. rewrite Hn in *. rewrite !value_B in *.
    f_equal. apply B2R_inj; [| |exact E].
    + destruct n; try discriminate G; [|reflexivity]. cbn [B2R] in E. lra.
    + destruct b; try discriminate F; [|reflexivity]. cbn [B2R] in Z. lra.
Qed.
