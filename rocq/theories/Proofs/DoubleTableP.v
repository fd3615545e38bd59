(** Linear interpolation in doubles. *)
From Coq Require Import List ZArith QArith Reals Lra Lia Bool Arith Floats.SpecFloat.
From Flocq Require Import Core Round Plus_error Relative BinarySingleNaN.
From Verif.Base Require Import Num Py.
From Verif.Model Require Import Interp.
From Verif.Spec Require Import Doubles DoubleTables.
From Verif.Proofs Require Import DoubleP DoubleMassP DoubleDivP.
Import ListNotations.
Local Open Scope R_scope.

#[local] Existing Instances Hprec Hmax.
#[local] Notation fexp64 := (SpecFloat.fexp prec64 emax64).
#[local] Notation rnd := (round radix2 fexp64 ZnearestE).
#[local] Notation bfloat := (binary_float prec64 emax64).
#[local] Notation sub := (SFsub prec64 emax64).
#[local] Notation add := (SFadd prec64 emax64).
#[local] Notation div := (SFdiv prec64 emax64).
#[local] Notation mul := (SFmul prec64 emax64).

Lemma mul_equiv (x y : bfloat) : mul (B2SF x) (B2SF y) = B2SF (Bmult mode_NE x y).
Proof.
  destruct x as [sx|sx| |sx mx ex Bx]; destruct y as [sy|sy| |sy my ey By]; try reflexivity.
  cbn [Bmult B2SF SFmul]. rewrite B2SF_SF2B. apply binary_round_aux_equiv.
Qed.
Lemma mul_value x y : a_number x -> a_number y -> Rabs (rnd (value x * value y)) < bpow radix2 emax64 ->
  a_number (mul x y) /\ value (mul x y) = rnd (value x * value y).
Proof.
  intros [b [-> F]]%number_B [c [-> G]]%number_B. rewrite !value_B. intros L.
  pose proof (Bmult_correct prec64 emax64 Hprec Hmax mode_NE b c) as C. cbn [round_mode] in C. rewrite Rlt_bool_true in C by exact L.
  destruct C as [C1 [C2 _]]. rewrite mul_equiv, value_B. split; [|exact C1].
  apply number_B. eexists. split; [reflexivity|]. rewrite C2, F, G. reflexivity.
Qed.
Lemma eqb_value x y : a_number x -> a_number y -> SFeqb x y = true <-> value x = value y.
Proof.
  intros [b [-> F]]%number_B [c [-> G]]%number_B. rewrite !value_B.
  change (SFeqb (B2SF b) (B2SF c)) with (Beqb b c). rewrite Beqb_correct by assumption.
  case Req_bool_spec; intros L; split; intros M; easy.
Qed.

(* the error of rounding *)
Definition uu : R := bpow radix2 (-53).
Definition ee : R := bpow radix2 (-1075).
Lemma rnd_error x : exists a b, Rabs a <= uu /\ Rabs b <= ee /\ rnd x = x * (1 + a) + b.
Proof.
  destruct (error_N_FLT radix2 (-1074) 53 ltac:(lia) (fun z => negb (Z.even z)) x) as [a [b [A [B [_ E]]]]].
  exists a, b. split; [|split; [|exact E]].
  - apply Rle_trans with (1 := A). unfold u_ro, uu. change (- (53) + 1)%Z with (-53 + 1)%Z. rewrite bpow_plus. change (bpow radix2 1) with 2. lra.
  - apply Rle_trans with (1 := B). unfold ee. change (-1074)%Z with (-1075 + 1)%Z. rewrite bpow_plus. change (bpow radix2 1) with 2. lra.
Qed.
Lemma sub_rel x y : a_number x -> a_number y -> Rabs (value x - value y) <= bpow radix2 1023 ->
  exists a, Rabs a <= uu /\ a_number (sub x y) /\ value (sub x y) = (value x - value y) * (1 + a).
Proof.
  intros X Y L. destruct (DoubleDivP.sub_error x y X Y L) as [N E]. set (d := value x - value y) in *.
  destruct (Req_dec d 0) as [Z|Z].
  - exists 0. rewrite Z in *. rewrite Rabs_R0, Rmult_0_l in E. rewrite Rabs_R0. split; [apply bpow_ge_0|]. split; [exact N|].
    destruct (Req_dec (value (sub x y) - 0) 0) as [|W]; [lra|]. apply Rabs_pos_lt in W. lra.
  - exists ((value (sub x y) - d) / d). split; [|split; [exact N|field; exact Z]].
    unfold Rdiv. rewrite Rabs_mult, Rabs_inv. apply Rmult_le_reg_r with (Rabs d); [apply Rabs_pos_lt; exact Z|].
    rewrite Rmult_assoc, Rinv_l by (apply Rabs_no_R0; exact Z). rewrite Rmult_1_r. unfold uu. lra.
Qed.

(** ** one piece *)
Lemma times_error u x t X : 0 < u <= / 1000 -> Rabs (x - 1) <= X * u -> X <= 9 -> Rabs t <= u -> Rabs (x * (1 + t) - 1) <= (X + 101 / 100) * u.
Proof.
  intros U HX X9 T. replace (x * (1 + t) - 1) with ((x - 1) + t + (x - 1) * t) by ring.
  pose proof (Rabs_triang (x - 1 + t) ((x - 1) * t)). pose proof (Rabs_triang (x - 1) t). rewrite Rabs_mult in *.
  assert (Rabs (x - 1) * Rabs t <= (X * u) * u) by (apply Rmult_le_compat; try apply Rabs_pos; assumption).
  assert (u * u <= u * / 1000) by (apply Rmult_le_compat_l; lra).
  assert (0 <= X * u) by (pose proof (Rabs_pos (x - 1)); lra).
  assert ((X * u) * u <= 9 * (u * u)) by (rewrite Rmult_assoc; apply Rmult_le_compat_r; [apply Rmult_le_pos; lra|exact X9]).
  lra.
Qed.
Lemma over_error u x b X : 0 < u <= / 1000 -> Rabs (x - 1) <= X * u -> X <= 9 -> Rabs b <= u -> Rabs (x / (1 + b) - 1) <= (X + 103 / 100) * u.
Proof.
  intros U HX X9 B. assert (L : - u <= b <= u) by (apply Rabs_le_inv; exact B).
  replace (x / (1 + b) - 1) with ((x - 1 - b) * / (1 + b)) by (field; lra). rewrite Rabs_mult.
  assert (I : 0 < / (1 + b) <= 1001 / 1000 + 2 / 1000000).
  { split; [apply Rinv_0_lt_compat; lra|]. apply Rmult_le_reg_r with (1 + b); [lra|]. rewrite Rinv_l by lra. nra. }
  rewrite (Rabs_right (/ (1 + b))) by lra.
  assert (Rabs (x - 1 - b) <= (X + 1) * u).
  { pose proof (Rabs_triang (x - 1) (- b)) as T. rewrite Rabs_Ropp in T. unfold Rminus at 1. lra. }
  apply Rle_trans with ((X + 1) * u * (1001 / 1000 + 2 / 1000000)).
  - apply Rmult_le_compat; try apply Rabs_pos; lra.
  - assert (0 <= X * u) by (pose proof (Rabs_pos (x - 1)); lra). assert (X * u <= 9 * u) by (apply Rmult_le_compat_r; lra). lra.
Qed.

Lemma piece_error u e K M a b c f k t g l xl yl xh yh w :
  0 < u <= / 1000 -> 0 <= e -> Rabs a <= u -> Rabs b <= u -> Rabs c <= u -> Rabs f <= u -> Rabs k <= u -> Rabs t <= u ->
  Rabs g <= e -> Rabs l <= e -> xl < xh -> xl <= w <= xh -> xh - xl <= K -> Rabs yl <= M -> Rabs yh <= M ->
  let s := (yh - yl) * (1 + c) / ((xh - xl) * (1 + b)) * (1 + f) + g in
  let p := s * ((w - xl) * (1 + a)) * (1 + k) + l in
  Rabs ((p + yl) * (1 + t) - line xl yl xh yh w) <= 12 * u * M + 2 * e * (K + 1).
Proof.
  intros U E A B C F Kk T G L X W HK YL YH. cbn zeta. unfold line.
  set (q := (w - xl) / (xh - xl)). set (D := yh - yl).
  assert (Q : 0 <= q <= 1).
  { unfold q. split; [apply Rmult_le_pos; [lra|left; apply Rinv_0_lt_compat; lra]|].
    apply Rmult_le_reg_r with (xh - xl); [lra|]. unfold Rdiv. rewrite Rmult_assoc, Rinv_l by lra. lra. }
  assert (Bp : - u <= b <= u) by (apply Rabs_le_inv; exact B).
  set (V := (1 + c) * (1 + f) * (1 + a) * (1 + k) / (1 + b)).
  set (N := g * ((w - xl) * (1 + a)) * (1 + k) + l).
  assert (P : (D * (1 + c) / ((xh - xl) * (1 + b)) * (1 + f) + g) * ((w - xl) * (1 + a)) * (1 + k) + l = D * q * V + N).
  { unfold V, N, q. field. lra. }
  rewrite P.
  assert (V1 : Rabs (V - 1) <= (507 / 100) * u).
  { unfold V. assert (H1 : Rabs (1 + c - 1) <= 1 * u) by (replace (1 + c - 1) with c by ring; lra).
    pose proof (times_error u (1 + c) f 1 U H1 ltac:(lra) F) as H2.
    pose proof (times_error u _ a _ U H2 ltac:(lra) A) as H3. pose proof (times_error u _ k _ U H3 ltac:(lra) Kk) as H4.
    pose proof (over_error u _ b _ U H4 ltac:(lra) B) as H5. lra. }
  assert (M0 : 0 <= M) by (pose proof (Rabs_pos yl); lra).
  assert (Dm : Rabs D <= 2 * M).
  { unfold D. pose proof (Rabs_triang yh (- yl)) as Z. rewrite Rabs_Ropp in Z. unfold Rminus. lra. }
  assert (Kp : 0 <= K) by lra.
  assert (Ea : Rabs (1 + a) <= 1001 / 1000) by (pose proof (Rabs_triang 1 a) as Z; rewrite Rabs_R1 in Z; lra).
  assert (Ek : Rabs (1 + k) <= 1001 / 1000) by (pose proof (Rabs_triang 1 k) as Z; rewrite Rabs_R1 in Z; lra).
  assert (N1 : Rabs N <= (11 / 10) * e * (K + 1)).
  { unfold N. pose proof (Rabs_triang (g * ((w - xl) * (1 + a)) * (1 + k)) l) as Z. rewrite !Rabs_mult in Z.
    assert (Rabs (w - xl) <= K) by (rewrite Rabs_right; lra).
    assert (S1 : Rabs (w - xl) * Rabs (1 + a) <= K * (1001 / 1000)) by (apply Rmult_le_compat; try apply Rabs_pos; assumption).
    assert (S2 : Rabs g * (Rabs (w - xl) * Rabs (1 + a)) <= e * (K * (1001 / 1000))).
    { apply Rmult_le_compat; try assumption; [apply Rabs_pos|]. apply Rmult_le_pos; apply Rabs_pos. }
    assert (S3 : Rabs g * (Rabs (w - xl) * Rabs (1 + a)) * Rabs (1 + k) <= e * (K * (1001 / 1000)) * (1001 / 1000)).
    { apply Rmult_le_compat; try assumption; [|apply Rabs_pos]. repeat apply Rmult_le_pos; apply Rabs_pos. }
    assert (0 <= e * K) by (apply Rmult_le_pos; lra). lra. }
  assert (D1 : Rabs (D * q * (V - 1)) <= 2 * M * (507 / 100 * u)).
  { rewrite !Rabs_mult. apply Rmult_le_compat; try apply Rabs_pos; [apply Rmult_le_pos; apply Rabs_pos| |exact V1].
    rewrite (Rabs_right q) by lra. apply Rle_trans with (Rabs D * 1); [apply Rmult_le_compat_l; [apply Rabs_pos|lra]|lra]. }
  assert (L1 : Rabs (yl + D * q) <= M).
  { unfold D. replace (yl + (yh - yl) * q) with ((1 - q) * yl + q * yh) by ring.
    pose proof (Rabs_triang ((1 - q) * yl) (q * yh)) as Z. rewrite !Rabs_mult, (Rabs_right (1 - q)), (Rabs_right q) in Z by lra.
    assert ((1 - q) * Rabs yl <= (1 - q) * M) by (apply Rmult_le_compat_l; lra). assert (q * Rabs yh <= q * M) by (apply Rmult_le_compat_l; lra). lra. }
  set (R1 := D * q * (V - 1) + N).
  assert (B1 : Rabs R1 <= 2 * M * (507 / 100 * u) + (11 / 10) * e * (K + 1)) by (pose proof (Rabs_triang (D * q * (V - 1)) N); unfold R1; lra).
  replace ((D * q * V + N + yl) * (1 + t) - (yl + D * q)) with (R1 * (1 + t) + (yl + D * q) * t) by (unfold R1; ring).
  pose proof (Rabs_triang (R1 * (1 + t)) ((yl + D * q) * t)) as Z. rewrite !Rabs_mult in Z.
  assert (Et : Rabs (1 + t) <= 1001 / 1000) by (pose proof (Rabs_triang 1 t) as Y; rewrite Rabs_R1 in Y; lra).
  assert (Rabs R1 * Rabs (1 + t) <= (2 * M * (507 / 100 * u) + (11 / 10) * e * (K + 1)) * (1001 / 1000)) by (apply Rmult_le_compat; try apply Rabs_pos; assumption).
  assert (Rabs (yl + D * q) * Rabs t <= M * u) by (apply Rmult_le_compat; try apply Rabs_pos; assumption).
  assert (0 <= M * u) by (apply Rmult_le_pos; lra). assert (0 <= e * (K + 1)) by (apply Rmult_le_pos; lra). lra.
Qed.

Lemma rnd_bound x e : (-1074 <= e)%Z -> Rabs x <= bpow radix2 e -> Rabs (rnd x) <= bpow radix2 e.
Proof.
  intros E L. apply abs_round_le_generic; [apply (fexp_correct prec64 emax64 Hprec)|apply valid_rnd_N| |exact L].
  rewrite <- (Rmult_1_l (bpow radix2 e)). apply (small_format 1 e); lia.
Qed.
Lemma rnd_self x : a_number x -> rnd (value x) = value x.
Proof. intros X. apply round_generic; [apply valid_rnd_N|apply format_value; exact X]. Qed.
Lemma rnd_0' : rnd 0 = 0.
Proof. apply round_0. apply valid_rnd_N. Qed.
Lemma bpow_double e : bpow radix2 e + bpow radix2 e = bpow radix2 (e + 1).
Proof. rewrite bpow_plus. change (bpow radix2 1) with 2. lra. Qed.
Lemma Rabs_sub_le x y B : Rabs x <= B -> Rabs y <= B -> Rabs (x - y) <= B + B.
Proof. intros X Y. pose proof (Rabs_triang x (- y)) as Z. rewrite Rabs_Ropp in Z. unfold Rminus. lra. Qed.

Lemma piece xl yl xh yh u : a_number xl -> a_number yl -> a_number xh -> a_number yh -> a_number u ->
  Rabs (value xl) <= bpow radix2 100 -> Rabs (value yl) <= bpow radix2 100 -> Rabs (value xh) <= bpow radix2 100 -> Rabs (value yh) <= bpow radix2 100 ->
  value xl + bpow radix2 (-100) <= value xh -> value xl <= value u <= value xh ->
  let v := add (mul (div (sub yh yl) (sub xh xl)) (sub u xl)) yl in
  a_number v /\ Rabs (value v - line (value xl) (value yl) (value xh) (value yh) (value u))
                <= Rmax (Rabs (value yl)) (Rabs (value yh)) * bpow radix2 (-49) + bpow radix2 (-950)
  /\ (value yl <= value yh -> value yl <= value v) /\ (value yh <= value yl -> value v <= value yl).
Proof.
  intros Xl Yl Xh Yh Un Bxl Byl Bxh Byh Gap In. cbn zeta.
  assert (Up : 0 < uu <= / 1000).
  { split; [apply bpow_gt_0|]. apply Rle_trans with (bpow radix2 (-10)); [apply bpow_le; lia|]. cbn. lra. }
  assert (G0 : 0 < bpow radix2 (-100)) by apply bpow_gt_0.
  assert (Big : bpow radix2 101 <= bpow radix2 1023) by (apply bpow_le; lia).
  assert (DD : Rabs (value yh - value yl) <= bpow radix2 101) by (change 101%Z with (100 + 1)%Z; rewrite <- bpow_double; apply Rabs_sub_le; assumption).
  assert (HH : Rabs (value xh - value xl) <= bpow radix2 101) by (change 101%Z with (100 + 1)%Z; rewrite <- bpow_double; apply Rabs_sub_le; assumption).
  assert (hh : Rabs (value u - value xl) <= bpow radix2 101) by (rewrite Rabs_right in * by lra; lra).
  destruct (sub_rel yh yl Yh Yl ltac:(lra)) as [c [Hc [Nd Vd]]].
  destruct (sub_rel xh xl Xh Xl ltac:(lra)) as [b [Hb [NH VH]]].
  destruct (sub_rel u xl Un Xl ltac:(lra)) as [a [Ha [Nh Vh]]].
  assert (Cc := Hc). assert (Bb := Hb). assert (Aa := Ha). apply Rabs_le_inv in Cc, Bb, Aa.
  assert (Vd' : Rabs (value (sub yh yl)) <= bpow radix2 102).
  { rewrite Vd, Rabs_mult. apply Rle_trans with (bpow radix2 101 * 2); [apply Rmult_le_compat; try apply Rabs_pos; [exact DD|rewrite Rabs_right; lra]|].
    change 102%Z with (101 + 1)%Z. rewrite bpow_plus. change (bpow radix2 1) with 2. lra. }
  assert (VH' : bpow radix2 (-101) <= value (sub xh xl)).
  { rewrite VH. replace (bpow radix2 (-101)) with (bpow radix2 (-100) * / 2).
    - apply Rmult_le_compat; lra.
    - change (-100)%Z with (-101 + 1)%Z. rewrite bpow_plus. change (bpow radix2 1) with 2. lra. }
  assert (G1 : 0 < bpow radix2 (-101)) by apply bpow_gt_0.
  assert (Vh' : 0 <= value (sub u xl) <= bpow radix2 102).
  { rewrite Vh. split; [apply Rmult_le_pos; lra|]. rewrite Rabs_right in hh by lra.
    apply Rle_trans with (bpow radix2 101 * 2); [apply Rmult_le_compat; lra|].
    change 102%Z with (101 + 1)%Z. rewrite bpow_plus. change (bpow radix2 1) with 2. lra. }
  set (d := sub yh yl) in *. set (Hh := sub xh xl) in *. set (h := sub u xl) in *.
  assert (Sb : Rabs (value d / value Hh) <= bpow radix2 203).
  { unfold Rdiv. rewrite Rabs_mult, Rabs_inv, (Rabs_right (value Hh)) by lra.
    change 203%Z with (102 + - -101)%Z. rewrite bpow_plus, bpow_opp. apply Rmult_le_compat; [apply Rabs_pos|left; apply Rinv_0_lt_compat; lra|exact Vd'|].
    apply Rinv_le; lra. }
  destruct (div_value d Hh Nd NH ltac:(lra) (bounded_no_overflow _ 203 ltac:(lia) Sb)) as [Ns Vs].
  pose proof (rnd_bound _ 203 ltac:(lia) Sb) as Sb'. rewrite <- Vs in Sb'. set (s := div d Hh) in *.
  assert (Pb : Rabs (value s * value h) <= bpow radix2 305).
  { rewrite Rabs_mult, (Rabs_right (value h)) by lra. change 305%Z with (203 + 102)%Z. rewrite bpow_plus.
    apply Rmult_le_compat; try apply Rabs_pos; lra. }
  destruct (mul_value s h Ns Nh (bounded_no_overflow _ 305 ltac:(lia) Pb)) as [Np Vp].
  pose proof (rnd_bound _ 305 ltac:(lia) Pb) as Pb'. rewrite <- Vp in Pb'. set (p := mul s h) in *.
  assert (Fb : Rabs (value p + value yl) <= bpow radix2 306).
  { change 306%Z with (305 + 1)%Z. rewrite <- bpow_double. pose proof (Rabs_triang (value p) (value yl)).
    assert (bpow radix2 100 <= bpow radix2 305) by (apply bpow_le; lia). lra. }
  destruct (add_value p yl Np Yl (bounded_no_overflow _ 306 ltac:(lia) Fb)) as [Nv Vv].
  split; [exact Nv|].
  split.
  - destruct (rnd_error (value d / value Hh)) as [f [g [Hf [Hg Ef]]]]. destruct (rnd_error (value s * value h)) as [k [l [Hk [Hl Ek]]]].
    assert (T : exists t, Rabs t <= uu /\ value (add p yl) = (value p + value yl) * (1 + t)).
    { pose proof (opp_number yl Yl) as [Ny Vy].
      destruct (sub_rel p (SFopp yl) Np Ny) as [t [Ht [_ Et]]].
      - rewrite Vy. replace (value p - - value yl) with (value p + value yl) by ring. apply Rle_trans with (1 := Fb). apply bpow_le. lia.
      - exists t. split; [exact Ht|]. rewrite Vy in Et. replace (value p - - value yl) with (value p + value yl) in Et by ring. rewrite <- Et.
        f_equal. rewrite sub_as_add. f_equal. destruct yl as [z|z| |z m ex]; cbn; rewrite ?Bool.negb_involutive; reflexivity. }
    destruct T as [t [Ht Et]]. rewrite Et, Vp, Ek, Vs, Ef, Vd, VH, Vh.
    set (M := Rmax (Rabs (value yl)) (Rabs (value yh))).
    pose proof (piece_error uu ee (bpow radix2 101) M a b c f k t g l (value xl) (value yl) (value xh) (value yh) (value u)
                  Up (bpow_ge_0 _ _) Ha Hb Hc Hf Hk Ht Hg Hl ltac:(lra) In ltac:(rewrite Rabs_right in HH; lra) (Rmax_l _ _) (Rmax_r _ _)) as Err.
    cbn zeta in Err. apply Rle_trans with (1 := Err). apply Rplus_le_compat.
    + rewrite Rmult_comm, <- Rmult_assoc, Rmult_assoc. rewrite (Rmult_comm M). 
      replace (bpow radix2 (-49)) with (16 * uu).
      * assert (0 <= M) by (apply Rle_trans with (2 := Rmax_l _ _); apply Rabs_pos). nra.
      * unfold uu. change (-49)%Z with (4 + -53)%Z. rewrite bpow_plus. reflexivity.
    + assert (bpow radix2 101 + 1 <= bpow radix2 102).
      { change 102%Z with (101 + 1)%Z. rewrite <- bpow_double. pose proof (bpow_le radix2 0 101 ltac:(lia)) as Z. change (bpow radix2 0) with 1 in Z. lra. }
      apply Rle_trans with (2 * ee * bpow radix2 102); [apply Rmult_le_compat_l; [pose proof (bpow_ge_0 radix2 (-1075)); unfold ee; lra|assumption]|].
      unfold ee. change 2 with (bpow radix2 1). rewrite <- !bpow_plus. apply bpow_le. lia.
  - rewrite Vv. split; intros O; [rewrite <- (rnd_self yl Yl) at 1|rewrite <- (rnd_self yl Yl) at 2]; apply rnd_le.
    + assert (0 <= value s) by (rewrite Vs, <- rnd_0'; apply rnd_le; rewrite Vd; apply Rmult_le_pos; [apply Rmult_le_pos; lra|left; apply Rinv_0_lt_compat; lra]).
      assert (0 <= value p) by (rewrite Vp, <- rnd_0'; apply rnd_le; apply Rmult_le_pos; lra). lra.
    + assert (value s <= 0).
      { rewrite Vs, <- rnd_0'. apply rnd_le. assert (value d <= 0) by (rewrite Vd; nra). assert (0 < / value Hh) by (apply Rinv_0_lt_compat; lra). unfold Rdiv. nra. }
      assert (value p <= 0) by (rewrite Vp, <- rnd_0'; apply rnd_le; nra). lra.
Qed.

(** ** the table *)
Lemma pow_bpow k : 2 ^ k = bpow radix2 (Z.of_nat k).
Proof. rewrite bpow_powerRZ, pow_powerRZ. reflexivity. Qed.
Section Table.
  Variables x y : list b64.
  Hypothesis T : double_table x y.

  Lemma rises i j : (i < j < length x)%nat -> number_at x i < number_at x j.
  Proof.
    destruct T as [_ [_ [_ G]]]. intros [L U]. induction j as [|j IH]; [lia|].
    assert (0 < / 2 ^ 100) by (apply Rinv_0_lt_compat, pow_lt; lra). specialize (G j U).
    destruct (Nat.eq_dec i j) as [->|N]; [lra|]. specialize (IH ltac:(lia) ltac:(lia)). lra.
  Qed.
  Lemma rises_le i j : (i <= j < length x)%nat -> number_at x i <= number_at x j.
  Proof. intros H. destruct (Nat.eq_dec i j) as [->|N]; [lra|]. left. apply rises. lia. Qed.
  Lemma x_number i : (i < length x)%nat -> a_number (nth i x n0).
  Proof. intros I. apply T. exact I. Qed.

  (* the tests of the program on a number *)
  Lemma inside u : a_number u ->
    SFltb u (nth 0 x n0) = false -> SFltb (nth (length x - 1) x n0) u = false ->
    number_at x 0 <= value u <= number_at x (length x - 1).
  Proof.
    intros U A B. pose proof T as [L _]. split; apply ltb_value_false; try assumption; apply x_number; lia.
  Qed.
  Lemma reached_double : forall (l : list b64) u i, a_number u -> (forall k, (k < length l)%nat -> a_number (nth k l n0)) ->
    (i <= length l)%nat -> (forall k, (k < i)%nat -> value (nth k l n0) <= value u) ->
    ((i < length l)%nat -> value u < value (nth i l n0)) -> reached l u = i.
  Proof.
    induction l as [|a l IH]; intros u i U N I B A; [cbn in I; cbn; lia|]. cbn [reached].
    change (nltb u a) with (SFltb u a). pose proof (N 0%nat ltac:(cbn; lia)) as Na. cbn [nth] in Na.
    destruct i as [|i].
    - assert (V : SFltb u a = true) by (apply ltb_value; [exact U|exact Na|apply A; cbn; lia]). rewrite V. reflexivity.
    - assert (V : SFltb u a = false) by (apply ltb_value_false; [exact U|exact Na|apply (B 0%nat); lia]). rewrite V. f_equal.
      apply IH; [exact U| | | |].
      + intros k K. apply (N (S k)). cbn. lia.
      + cbn in I. lia.
      + intros k K. apply (B (S k)). lia.
      + intros K. apply A. cbn. lia.
  Qed.
  Lemma outside u : a_number u -> ~ (number_at x 0 <= value u <= number_at x (length x - 1)) -> interp_linear x y u = Err ValueError.
  Proof.
    intros U N. unfold interp_linear. change (nltb u (nth 0 x n0)) with (SFltb u (nth 0 x n0)).
    change (nltb (nth (length x - 1) x n0) u) with (SFltb (nth (length x - 1) x n0) u).
    destruct (SFltb u (nth 0 x n0)) eqn:E1; [reflexivity|]. destruct (SFltb (nth (length x - 1) x n0) u) eqn:E2; [reflexivity|].
    exfalso. apply N. apply inside; assumption.
  Qed.
  (* what is computed at or after the line [i] and before the next *)
  Lemma computed u i : a_number u -> (i < length x)%nat -> number_at x i <= value u -> value u <= number_at x (length x - 1) ->
    ((S i < length x)%nat -> value u < number_at x (S i)) ->
    interp_linear x y u = Ok (if (Nat.eqb i (length x - 1) || SFeqb (nth i x n0) u)%bool then nth i y n0
      else add (mul (div (sub (nth (S i) y n0) (nth i y n0)) (sub (nth (S i) x n0) (nth i x n0))) (sub u (nth i x n0))) (nth i y n0)).
  Proof.
    intros U I L H N. unfold interp_linear. change (nltb u (nth 0 x n0)) with (SFltb u (nth 0 x n0)).
    change (nltb (nth (length x - 1) x n0) u) with (SFltb (nth (length x - 1) x n0) u).
    assert (E1 : SFltb u (nth 0 x n0) = false).
    { apply ltb_value_false; [exact U|apply x_number; lia|]. apply Rle_trans with (2 := L). apply (rises_le 0 i). lia. }
    assert (E2 : SFltb (nth (length x - 1) x n0) u = false) by (apply ltb_value_false; [apply x_number; lia|exact U|exact H]).
    rewrite E1, E2. change (neqb u u) with (SFeqb u u). assert (E3 : SFeqb u u = true) by (apply eqb_value; auto). rewrite E3. cbn [negb].
    assert (R : reached x u = S i).
    { apply reached_double; [exact U|exact x_number|lia| |exact N].
      intros k K. apply Rle_trans with (2 := L). apply (rises_le k i). lia. }
    rewrite R. replace (S i - 1)%nat with i by lia. change (neqb (nth i x n0) u) with (SFeqb (nth i x n0) u).
    destruct (Nat.eqb i (length x - 1) || SFeqb (nth i x n0) u)%bool; reflexivity.
  Qed.
  (* at a line of the table *)
  Lemma at_line u i : a_number u -> (i < length x)%nat -> value u = number_at x i -> interp_linear x y u = Ok (nth i y n0).
  Proof.
    intros U I V. rewrite (computed u i); [|exact U|exact I|lra| |].
    - assert (E : SFeqb (nth i x n0) u = true) by (apply eqb_value; [apply x_number; exact I|exact U|symmetry; exact V]).
      rewrite E, orb_true_r. reflexivity.
    - rewrite V. apply rises_le. lia.
    - intros J. rewrite V. apply rises. lia.
  Qed.
  Lemma line_end x0 y0 x1 y1 : x0 < x1 -> line x0 y0 x1 y1 x1 = y1.
  Proof. intros H. unfold line. field. lra. Qed.
  Lemma rounding_pos a b : 0 <= rounding a b.
  Proof.
    unfold rounding. assert (0 <= Rmax (Rabs a) (Rabs b)) by (apply Rle_trans with (2 := Rmax_l _ _); apply Rabs_pos).
    assert (0 < / 2 ^ 49) by (apply Rinv_0_lt_compat, pow_lt; lra). assert (0 < / 2 ^ 950) by (apply Rinv_0_lt_compat, pow_lt; lra).
    assert (0 <= Rmax (Rabs a) (Rabs b) * / 2 ^ 49) by (apply Rmult_le_pos; lra). unfold Rdiv. lra.
  Qed.
  (* between two lines *)
  Lemma between u i : a_number u -> (S i < length x)%nat -> number_at x i <= value u <= number_at x (S i) ->
    exists v, interp_linear x y u = Ok v /\ a_number v
      /\ Rabs (value v - line (number_at x i) (number_at y i) (number_at x (S i)) (number_at y (S i)) (value u)) <= rounding (number_at y i) (number_at y (S i))
      /\ (number_at y i <= number_at y (S i) -> number_at y i <= value v)
      /\ (number_at y (S i) <= number_at y i -> value v <= number_at y i).
  Proof.
    intros U I [L H]. pose proof T as [_ [_ [N G]]]. destruct (N i ltac:(lia)) as [Xl [Bxl [Yl Byl]]]. destruct (N (S i) I) as [Xh [Bxh [Yh Byh]]].
    pose proof (rises i (S i) ltac:(lia)) as Up.
    destruct (Req_dec (value u) (number_at x (S i))) as [E|E].
    - exists (nth (S i) y n0). rewrite (at_line u (S i) U I E), E, line_end by exact Up. split; [reflexivity|]. split; [exact Yh|].
      split; [|split; intros O; exact O]. unfold number_at. rewrite Rminus_diag_eq, Rabs_R0 by reflexivity. apply rounding_pos.
    - assert (Hl : value u <= number_at x (length x - 1)) by (apply Rle_trans with (1 := H); apply rises_le; lia).
      rewrite (computed u i U ltac:(lia) L Hl ltac:(intros _; lra)). rewrite (proj2 (Nat.eqb_neq i (length x - 1))) by lia. cbn [orb].
      destruct (SFeqb (nth i x n0) u) eqn:Q.
      + apply eqb_value in Q; [|exact Xl|exact U]. exists (nth i y n0). split; [reflexivity|]. split; [exact Yl|].
        split; [|unfold number_at; split; intros _; lra]. rewrite <- Q. fold (number_at x i). unfold line.
        replace (number_at x i - number_at x i) with 0 by ring. unfold Rdiv. rewrite Rmult_0_l, Rmult_0_r, Rplus_0_r. unfold number_at.
        rewrite Rminus_diag_eq, Rabs_R0 by reflexivity. apply rounding_pos.
      + eexists. split; [reflexivity|]. rewrite !pow_bpow in *. change (Z.of_nat 100) with 100%Z in *.
        destruct (piece (nth i x n0) (nth i y n0) (nth (S i) x n0) (nth (S i) y n0) u Xl Yl Xh Yh U Bxl Byl Bxh Byh) as [P1 [P2 P3]].
        * specialize (G i I). change (-100)%Z with (- (100))%Z. rewrite bpow_opp. exact G.
        * split; [exact L|exact H].
        * split; [exact P1|]. split; [|exact P3]. apply Rle_trans with (1 := P2). apply Req_le. unfold rounding. rewrite !pow_bpow.
          change (Z.of_nat 49) with 49%Z. change (Z.of_nat 950) with 950%Z. change (-49)%Z with (- (49))%Z. change (-950)%Z with (- (950))%Z. rewrite !bpow_opp. reflexivity.
  Qed.
  Lemma which u : number_at x 0 <= value u <= number_at x (length x - 1) -> (2 <= length x)%nat ->
    exists i, (S i < length x)%nat /\ number_at x i <= value u <= number_at x (S i).
  Proof.
    intros [L H] N. assert (X : forall k, (S k < length x)%nat -> value u <= number_at x (S k) ->
      exists i, (S i < length x)%nat /\ number_at x i <= value u <= number_at x (S i)).
    { induction k as [|k IH]; intros K B; [exists 0%nat; auto|].
      destruct (Rle_or_lt (value u) (number_at x (S k))) as [C|C]; [apply IH; [lia|exact C]|]. exists (S k). repeat split; [exact K|lra|exact B]. }
    apply (X (length x - 2)%nat); [lia|]. replace (S (length x - 2)) with (length x - 1)%nat by lia. exact H.
  Qed.
  Lemma in_range u : a_number u -> (exists v, interp_linear x y u = Ok v) <-> number_at x 0 <= value u <= number_at x (length x - 1).
  Proof.
    intros U. split.
    - intros [v V]. destruct (Rle_or_lt (number_at x 0) (value u)) as [A|A]; [|rewrite outside in V by (exact U || lra); discriminate].
      destruct (Rle_or_lt (value u) (number_at x (length x - 1))) as [B|B]; [lra|rewrite outside in V by (exact U || lra); discriminate].
    - intros H. pose proof T as [L _]. destruct (le_lt_dec 2 (length x)) as [N|N].
      + destruct (which u H N) as [i [I V]]. destruct (between u i U I V) as [v [E _]]. exists v. exact E.
      + exists (nth 0 y n0). apply at_line; [exact U|lia|]. replace (length x - 1)%nat with 0%nat in H by lia. lra.
  Qed.
End Table.
