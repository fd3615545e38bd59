(** The sea level in doubles. *)
From Coq Require Import String List ZArith QArith Reals Lra Lia Bool Arith Floats.SpecFloat.
From Flocq Require Import Core Round BinarySingleNaN.
From Verif.Base Require Import Num Py.
From Verif.Model Require Import Layers Grid Interp SeaLevel.
From Verif.Spec Require Import History Doubles DoubleTables.
From Verif.Proofs Require Import GridP DoubleP DoubleMassP DoubleDivP DoubleTableP.
Import ListNotations.
Local Open Scope R_scope.

#[local] Existing Instances Hprec Hmax.
#[local] Notation bfloat := (binary_float prec64 emax64).
#[local] Notation sub := (SFsub prec64 emax64).
#[local] Notation add := (SFadd prec64 emax64).

Lemma number_not_nan x : a_number x -> not_nan x.
Proof. intros [V F]. split; [exact V|]. intros ->. exact F. Qed.
Lemma finite_not_nan (b : bfloat) : is_finite b = true -> B2SF b <> S754_nan.
Proof. destruct b; easy. Qed.
Lemma add_not_nan t d : not_nan t -> a_number d -> not_nan (add t d).
Proof.
  intros [V N] D. apply number_B in D. destruct D as [c [-> G]].
  assert (X : exists b : bfloat, t = B2SF b) by (exists (SF2B t V); symmetry; apply B2SF_SF2B). destruct X as [b ->].
  rewrite add_equiv. split; [apply valid_binary_B2SF|].
  destruct (is_finite b) eqn:F.
  - pose proof (Bplus_correct prec64 emax64 Hprec Hmax mode_NE b c F G) as C.
    destruct (Rlt_bool _ _) in C.
    + destruct C as [_ [C _]]. apply finite_not_nan. exact C.
    + destruct C as [C _]. rewrite C. unfold binary_overflow. destruct (overflow_to_inf _ _); discriminate.
  - destruct b as [s|s| |s m e Hb]; try discriminate F; [|exfalso; apply N; reflexivity]. destruct c; try discriminate G; discriminate.
Qed.
(* a table refuses an infinite time *)
Lemma table_sound x y : double_table x y -> sound_curve (sea_level_interpolator x y).
Proof.
  intros T t v [V N] E. unfold sea_level_interpolator in E. pose proof T as [L [Ly [Nx G]]].
  assert (Tn : a_number t).
  { split; [exact V|]. destruct t as [s|s| |s m e]; try exact I; [|congruence]. exfalso. unfold interp_linear in E.
    change (nltb (S754_infinity s) (nth 0 x n0)) with (SFltb (S754_infinity s) (nth 0 x n0)) in E.
    change (nltb (nth (length x - 1) x n0) (S754_infinity s)) with (SFltb (nth (length x - 1) x n0) (S754_infinity s)) in E.
    destruct (Nx 0%nat ltac:(lia)) as [[_ F0] _]. destruct (Nx (length x - 1)%nat ltac:(lia)) as [[_ F1] _].
    destruct s.
    - destruct (nth 0 x n0) as [z|z| |z m e]; try contradiction; discriminate E.
    - destruct (SFltb (S754_infinity false) (nth 0 x n0)); [discriminate E|].
      destruct (nth (length x - 1) x n0) as [z|z| |z m e]; try contradiction; [|destruct z]; discriminate E. }
  assert (Big : 2 ^ 100 <= 2 ^ 1000) by (apply Rle_pow; [lra|lia]).
  pose proof (proj1 (in_range x y T t Tn) (ex_intro _ v E)) as R.
  destruct (le_lt_dec 2 (length x)) as [N2|N2].
  - destruct (which x t R N2) as [i [I W]]. destruct (between x y T t i Tn I W) as [v' [E' [Nv [Er _]]]].
    rewrite E in E'. injection E' as <-. split; [exact Nv|].
    destruct (Nx i ltac:(lia)) as [_ [_ [_ B0]]]. destruct (Nx (S i) I) as [_ [_ [_ B1]]].
    pose proof (rises x y T i (S i) ltac:(lia)) as Up.
    set (y0 := number_at y i) in *. set (y1 := number_at y (S i)) in *.
    assert (Q : 0 <= (value t - number_at x i) / (number_at x (S i) - number_at x i) <= 1).
    { split; [apply Rmult_le_pos; [lra|left; apply Rinv_0_lt_compat; lra]|].
      apply Rmult_le_reg_r with (number_at x (S i) - number_at x i); [lra|]. unfold Rdiv. rewrite Rmult_assoc, Rinv_l by lra. lra. }
    unfold line in Er. set (q := (value t - number_at x i) / (number_at x (S i) - number_at x i)) in *.
    assert (L1 : Rabs (y0 + (y1 - y0) * q) <= 2 ^ 100).
    { apply Rabs_le_inv in B0, B1. apply Rabs_le. nra. }
    assert (Rd : rounding y0 y1 <= 2 ^ 100 + 1).
    { unfold rounding. assert (Rmax (Rabs y0) (Rabs y1) <= 2 ^ 100) by (apply Rmax_lub; assumption).
      assert (0 <= Rmax (Rabs y0) (Rabs y1)) by (apply Rle_trans with (2 := Rmax_l _ _); apply Rabs_pos).
      assert (0 < / 2 ^ 49 <= 1).
      { split; [apply Rinv_0_lt_compat, pow_lt; lra|]. rewrite <- Rinv_1. apply Rinv_le; [lra|]. apply pow_R1_Rle. lra. }
      assert (/ 2 ^ 950 <= 1) by (rewrite <- Rinv_1; apply Rinv_le; [lra|apply pow_R1_Rle; lra]).
      unfold Rdiv. assert (Rmax (Rabs y0) (Rabs y1) * / 2 ^ 49 <= Rmax (Rabs y0) (Rabs y1) * 1) by (apply Rmult_le_compat_l; lra). lra. }
    assert (P : 1 <= 2 ^ 100) by (apply pow_R1_Rle; lra).
    assert (P2 : 4 * 2 ^ 100 <= 2 ^ 1000) by (replace 4 with (2 ^ 2) by ring; rewrite <- pow_add; apply Rle_pow; [lra|lia]).
    pose proof (Rabs_triang (value v - (y0 + (y1 - y0) * q)) (y0 + (y1 - y0) * q)) as Z.
    replace (value v - (y0 + (y1 - y0) * q) + (y0 + (y1 - y0) * q)) with (value v) in Z by ring. lra.
  - assert (V0 : value t = number_at x 0) by (replace (length x - 1)%nat with 0%nat in R by lia; lra).
    rewrite (at_line x y T t 0 Tn ltac:(lia) V0) in E. injection E as <-.
    destruct (Nx 0%nat ltac:(lia)) as [_ [_ [Ny B]]]. split; [exact Ny|]. unfold number_at in B. lra.
Qed.

(* an increment that is added up again *)
Lemma increment_error new old : a_number new -> a_number old -> Rabs (value new) <= 2 ^ 1000 -> Rabs (value old) <= 2 ^ 1000 ->
  a_number (sub new old) /\ Rabs (value new - (value old + value (sub new old))) <= Rabs (value (sub new old)) / 2 ^ 52.
Proof.
  intros N O BN BO. rewrite pow_bpow in BN, BO. change (Z.of_nat 1000) with 1000%Z in BN, BO.
  assert (L : Rabs (value new - value old) <= bpow radix2 1023).
  { apply Rle_trans with (bpow radix2 1001); [|apply bpow_le; lia]. change 1001%Z with (1000 + 1)%Z. rewrite <- bpow_double. apply Rabs_sub_le; assumption. }
  destruct (sub_rel new old N O L) as [a [A [Ns V]]]. split; [exact Ns|]. rewrite V. set (d := value new - value old).
  replace (value new - (value old + d * (1 + a))) with (- (d * a)) by (unfold d; ring). rewrite Rabs_Ropp, !Rabs_mult.
  assert (U : 0 < uu <= / 2).
  { split; [apply bpow_gt_0|]. apply Rle_trans with (bpow radix2 (-1)); [apply bpow_le; lia|]. cbn. lra. }
  assert (U2 : / 2 ^ 52 = 2 * uu).
  { rewrite pow_bpow. change (Z.of_nat 52) with 52%Z. rewrite <- bpow_opp. unfold uu. change (- (52))%Z with (1 + -53)%Z. rewrite bpow_plus. reflexivity. }
  unfold Rdiv. rewrite U2. assert (Aa := A). apply Rabs_le_inv in Aa. rewrite (Rabs_right (1 + a)) by lra.
  pose proof (Rabs_pos d). assert (Rabs d * Rabs a <= Rabs d * uu) by (apply Rmult_le_compat_l; assumption).
  assert (Rabs d * (/ 2) <= Rabs d * (1 + a)) by (apply Rmult_le_compat_l; lra).
  assert (Rabs d * (/ 2) * (2 * uu) <= Rabs d * (1 + a) * (2 * uu)) by (apply Rmult_le_compat_r; lra). lra.
Qed.

Theorem increments ops : forall curve start (g : grid b64) old,
  sound_curve curve -> not_nan start -> gval g "sea_level__elevation" = Some old -> a_number old -> Rabs (value old) <= 2 ^ 1000 ->
  Forall sound_op ops ->
  let '(_, g', incs) := sea_run ops (mkSeaLevel curve start) g in
  exists new, gval g' "sea_level__elevation" = Some new /\ a_number new /\ Forall a_number incs
    /\ Rabs (value new - (value old + rsum (map value incs))) <= rsum (map (fun i => Rabs (value i)) incs) / 2 ^ 52.
Proof.
  induction ops as [|op ops IH]; intros curve start g old Sc St Eg No Bo So.
  - cbn [sea_run]. exists old. split; [exact Eg|]. split; [exact No|]. split; [constructor|]. cbn [map rsum].
    rewrite Rplus_0_r, Rminus_diag_eq, Rabs_R0 by reflexivity. unfold Rdiv. lra.
  - inversion So as [|? ? S1 S2]; subst. destruct op as [dt|t|x y]; cbn [sound_op] in S1; cbn [sea_run].
    + unfold sea_level_step. cbn [slc_curve slc_time]. rewrite Eg. change (nadd start dt) with (add start dt).
      pose proof (add_not_nan start dt St S1) as St'.
      destruct (curve (add start dt)) as [new|e] eqn:Ec.
      * destruct (Sc _ _ St' Ec) as [Nn Bn]. change (nsub new old) with (sub new old). destruct (increment_error new old Nn No Bn Bo) as [Ni Ei].
        set (g1 := put_gval (put_gval g "sea_level__elevation" new) "sea_level__increment_of_elevation" (sub new old)).
        assert (G1 : gval g1 "sea_level__elevation" = Some new) by (unfold g1; rewrite !gval_put_gval; reflexivity).
        assert (G2 : gval g1 "sea_level__increment_of_elevation" = Some (sub new old)) by (unfold g1; rewrite gval_put_gval; reflexivity).
        specialize (IH curve (add start dt) g1 new Sc St' G1 Nn Bn S2). rewrite G2.
        destruct (sea_run ops _ g1) as [[c' g'] incs]. destruct IH as [v [V1 [V2 [V3 V4]]]]. exists v. split; [exact V1|]. split; [exact V2|].
        split; [constructor; assumption|]. cbn [map rsum].
        set (S := rsum (map value incs)) in *. set (Z := rsum (map (fun i => Rabs (value i)) incs)) in *.
        replace (value v - (value old + (value (sub new old) + S)))
          with ((value v - (value new + S)) + (value new - (value old + value (sub new old)))) by ring.
        eapply Rle_trans; [apply Rabs_triang|]. unfold Rdiv in *. rewrite Rmult_plus_distr_r. lra.
      * apply (IH curve (add start dt) g old); assumption.
    + apply (IH curve t g old); try assumption. apply number_not_nan. exact S1.
    + apply (IH (sea_level_interpolator x y) start g old); try assumption. apply table_sound. exact S1.
Qed.
