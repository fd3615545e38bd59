(** Concrete tables of doubles. *)
From Coq Require Import String List ZArith QArith Reals Lra Lia Bool Arith Floats.SpecFloat.
From Flocq Require Import Core Round BinarySingleNaN.
From Verif.Base Require Import Num Py.
From Verif.Model Require Import Layers Grid Interp SeaLevel.
From Verif.Spec Require Import History Doubles DoubleTables.
From Verif.Proofs Require Import DoubleP DoubleMassP DoubleDivP DoubleTableP DoubleSeaP.
Import ListNotations.
Local Open Scope R_scope.

(* a table of two lines, at 0 and 3 *)
Definition ex_times : list b64 := [nlit 0; nlit 3].
Definition ex_rise : list b64 := [nlit (-5 # 1); nlit (-8 # 10)].
Definition ex_sea : grid b64 := put_gval (mkGrid 1 3 n1 n1 [] [] [] (el_empty 1 1)) "sea_level__elevation" (nlit (-5 # 1)).
Lemma ex_values : value (nlit 0) = 0 /\ value (nlit 3) = 3 /\ value (nlit (-5 # 1)) = -5
  /\ Rabs (value (nlit (-8 # 10)) + 8 / 10) <= / 1000 /\ value (nlit (-8 # 10)) = - IZR 7205759403792794 / IZR 9007199254740992.
Proof.
  assert (X : value (nlit (-8 # 10)) = - IZR 7205759403792794 / IZR 9007199254740992).
  { replace (nlit (-8 # 10) : b64) with (S754_finite true 7205759403792794 (-53)) by (vm_compute; reflexivity).
    cbn [value]. rewrite <- (bpow_powerRZ radix2). change (bpow radix2 (-53)) with (/ IZR 9007199254740992).
    change (IZR (Z.neg 7205759403792794)) with (- IZR 7205759403792794). reflexivity. }
  split; [reflexivity|]. split.
  { replace (nlit 3 : b64) with (S754_finite false 6755399441055744 (-51)) by (vm_compute; reflexivity).
    cbn [value]. rewrite <- (bpow_powerRZ radix2). change (bpow radix2 (-51)) with (/ IZR 2251799813685248). lra. }
  split.
  { replace (nlit (-5 # 1) : b64) with (S754_finite true 5629499534213120 (-50)) by (vm_compute; reflexivity).
    cbn [value]. rewrite <- (bpow_powerRZ radix2). change (bpow radix2 (-50)) with (/ IZR 1125899906842624).
    change (IZR (Z.neg 5629499534213120)) with (- IZR 5629499534213120). lra. }
  split; [|exact X]. rewrite X. apply Rabs_le. lra.
Qed.
Lemma ex_numbers q : valid_binary 53 1024 (nlit q : b64) = true -> match (nlit q : b64) with S754_zero _ | S754_finite _ _ _ => true | _ => false end = true -> a_number (nlit q).
Proof. intros V F. split; [exact V|]. destruct (nlit q : b64); easy. Qed.
Lemma ex_double_table : double_table ex_times ex_rise.
Proof.
  destruct ex_values as [V0 [V3 [V5 [V8 _]]]]. assert (P : 64 <= 2 ^ 100) by (replace 64 with (2 ^ 6) by ring; apply Rle_pow; [lra|lia]).
  apply Rabs_le_inv in V8. split; [cbn; lia|]. split; [reflexivity|]. split.
  - intros [|[|i]] I; [| |cbn in I; lia]; unfold number_at, ex_times, ex_rise; cbn [nth]; rewrite ?V0, ?V3, ?V5.
    + split; [apply ex_numbers; vm_compute; reflexivity|]. split; [rewrite Rabs_R0; lra|].
      split; [apply ex_numbers; vm_compute; reflexivity|]. rewrite Rabs_left; lra.
    + split; [apply ex_numbers; vm_compute; reflexivity|]. split; [rewrite Rabs_right; lra|].
      split; [apply ex_numbers; vm_compute; reflexivity|]. apply Rabs_le. lra.
  - intros [|i] I; [|cbn in I; lia]. unfold number_at, ex_times. cbn [nth]. rewrite V0, V3.
    assert (/ 2 ^ 100 <= / 64) by (apply Rinv_le; lra). lra.
Qed.
(* ten steps of 0.3 end just before 3, and above the highest level of the table *)
Definition ex_late : b64 := S754_finite false 6755399441055743 (-51).
Definition ex_above : b64 := S754_finite true 7205759403792792 (-53).
Lemma ex_late_level : interp_linear ex_times ex_rise ex_late = Ok ex_above.
Proof. vm_compute. reflexivity. Qed.
Lemma ex_ten_steps :
  match sea_run (repeat (SeaStep (nlit (3 # 10))) 10) (mkSeaLevel (sea_level_interpolator ex_times ex_rise) (nlit 0)) ex_sea with
  | (c, g, incs) => slc_time c = ex_late /\ gval g "sea_level__elevation" = Some ex_above /\ length incs = 10%nat
  end.
Proof. vm_compute. repeat split. Qed.
Lemma ex_late_number : a_number ex_late /\ 0 <= value ex_late <= 3 /\ a_number ex_above /\ value (nlit (-8 # 10)) < value ex_above.
Proof.
  destruct ex_values as [_ [_ [_ [_ V8]]]]. split; [split; [reflexivity|exact I]|]. split; [|split; [split; [reflexivity|exact I]|]].
  - unfold ex_late. cbn [value]. rewrite <- (bpow_powerRZ radix2). change (bpow radix2 (-51)) with (/ IZR 2251799813685248). lra.
  - rewrite V8. unfold ex_above. cbn [value]. rewrite <- (bpow_powerRZ radix2). change (bpow radix2 (-53)) with (/ IZR 9007199254740992).
    change (IZR (Z.neg 7205759403792792)) with (- IZR 7205759403792792). lra.
Qed.
Theorem overshoot_refuted : ~ (forall x y u i v, double_table x y -> a_number u -> (S i < length x)%nat ->
  number_at x i <= value u <= number_at x (S i) -> interp_linear x y u = Ok v ->
  Rmin (number_at y i) (number_at y (S i)) <= value v <= Rmax (number_at y i) (number_at y (S i))).
Proof.
  intros S. destruct ex_late_number as [N [B [_ A]]]. destruct ex_values as [V0 [V3 [V5 [V8 _]]]]. apply Rabs_le_inv in V8.
  assert (I : number_at ex_times 0 <= value ex_late <= number_at ex_times 1) by (unfold number_at, ex_times; cbn [nth]; rewrite V0, V3; exact B).
  destruct (S ex_times ex_rise ex_late 0%nat ex_above ex_double_table N ltac:(cbn; lia) I ex_late_level) as [_ U].
  unfold number_at, ex_rise in U. cbn [nth] in U. rewrite V5, Rmax_right in U by lra. lra.
Qed.

(* the increment from 0.1 to 1 is not their difference *)
Definition ex_tenth : grid b64 := put_gval ex_sea "sea_level__elevation" (nlit (1 # 10)).
Definition ex_inc : b64 := S754_finite false 8106479329266893 (-53).
Lemma ex_increment : sea_run [SeaStep (nlit 1)] (mkSeaLevel (fun _ => Ok (nlit 1)) (nlit 0)) ex_tenth
  = (mkSeaLevel (fun _ => Ok (nlit 1)) (nlit 1), put_gval (put_gval ex_tenth "sea_level__elevation" (nlit 1)) "sea_level__increment_of_elevation" ex_inc, [ex_inc]).
Proof. vm_compute. reflexivity. Qed.
Lemma ex_tenths : value (nlit (1 # 10)) = IZR 7205759403792794 / IZR 72057594037927936 /\ value (nlit 1) = 1
  /\ value ex_inc = IZR 8106479329266893 / IZR 9007199254740992.
Proof.
  replace (nlit (1 # 10) : b64) with (S754_finite false 7205759403792794 (-56)) by (vm_compute; reflexivity).
  replace (nlit 1 : b64) with (S754_finite false 4503599627370496 (-52)) by (vm_compute; reflexivity).
  unfold ex_inc. cbn [value]. rewrite <- !(bpow_powerRZ radix2). split; [reflexivity|]. split; [|reflexivity].
  change (bpow radix2 (-52)) with (/ IZR 4503599627370496). lra.
Qed.
Theorem adding_refuted : ~ (forall curve start (g : grid b64) old ops c' g' incs new,
  sound_curve curve -> not_nan start -> gval g "sea_level__elevation" = Some old -> a_number old -> Rabs (value old) <= 2 ^ 1000 ->
  Forall sound_op ops -> sea_run ops (mkSeaLevel curve start) g = (c', g', incs) -> gval g' "sea_level__elevation" = Some new ->
  value new = value old + rsum (map value incs)).
Proof.
  intros S. destruct ex_tenths as [V1 [V3 Vi]].
  assert (P : 1 <= 2 ^ 1000) by (apply pow_R1_Rle; lra).
  assert (B1 : Rabs (value (nlit (1 # 10))) <= 2 ^ 1000) by (rewrite V1; apply Rabs_le; lra).
  assert (B3 : Rabs (value (nlit 1)) <= 2 ^ 1000) by (rewrite V3; apply Rabs_le; lra).
  assert (E : value (nlit 1) = value (nlit (1 # 10)) + rsum (map value [ex_inc])).
  { refine (S _ _ _ _ _ _ _ _ _ _ _ _ _ B1 _ ex_increment _).
    - intros t v _ H. injection H as <-. split; [apply ex_numbers; vm_compute; reflexivity|exact B3].
    - split; [reflexivity|discriminate].
    - reflexivity.
    - apply ex_numbers; vm_compute; reflexivity.
    - constructor; [|constructor]. apply ex_numbers; vm_compute; reflexivity.
    - reflexivity. }
  cbn [map rsum] in E. rewrite V1, V3, Vi in E. lra.
Qed.
(* a history with a table that is changed and a time that is set *)
Definition ex_ops : list (sea_op b64) :=
  [SeaStep (nlit (3 # 10)); SeaFile ex_times ex_rise; SeaStep (nlit (3 # 10)); SeaStep (nlit 4); SeaTime (nlit 0); SeaStep (nlit 3)].
Lemma ex_history : sound_curve (sea_level_interpolator ex_times ex_rise) /\ not_nan (nlit 0) /\ a_number (nlit (-5 # 1))
  /\ Rabs (value (nlit (-5 # 1))) <= 2 ^ 1000 /\ gval ex_sea "sea_level__elevation" = Some (nlit (-5 # 1)) /\ Forall sound_op ex_ops
  /\ (let '(_, g, incs) := sea_run ex_ops (mkSeaLevel (sea_level_interpolator ex_times ex_rise) (nlit 0)) ex_sea in
      length incs = 3%nat /\ gval g "sea_level__elevation" = Some (nlit (-8 # 10))).
Proof.
  destruct ex_values as [_ [_ [V5 _]]].
  split; [exact (table_sound _ _ ex_double_table)|]. split; [split; [reflexivity|discriminate]|].
  split; [apply ex_numbers; vm_compute; reflexivity|]. split.
  { rewrite V5, Rabs_left by lra. apply Rle_trans with (2 ^ 3); [lra|]. apply Rle_pow; [lra|lia]. }
  split; [reflexivity|]. split; [|vm_compute; split; reflexivity].
  unfold ex_ops. repeat (apply Forall_cons; [cbn [sound_op]; first [exact ex_double_table|apply ex_numbers; vm_compute; reflexivity]|]). apply Forall_nil.
Qed.

(** ** in the words of the specification *)
Theorem table_values x y : double_table x y ->
  (forall u i, a_number u -> (i < length x)%nat -> value u = number_at x i -> interp_linear x y u = Ok (nth i y n0))
  /\ (forall u i, a_number u -> (S i < length x)%nat -> number_at x i <= value u <= number_at x (S i) ->
        exists v, interp_linear x y u = Ok v /\ a_number v
          /\ Rabs (value v - line (number_at x i) (number_at y i) (number_at x (S i)) (number_at y (S i)) (value u)) <= rounding (number_at y i) (number_at y (S i))
          /\ (number_at y i <= number_at y (S i) -> number_at y i <= value v <= number_at y (S i) + rounding (number_at y i) (number_at y (S i)))
          /\ (number_at y (S i) <= number_at y i -> number_at y (S i) - rounding (number_at y i) (number_at y (S i)) <= value v <= number_at y i))
  /\ (forall u, a_number u -> number_at x 0 <= value u <= number_at x (length x - 1) -> exists v, interp_linear x y u = Ok v)
  /\ (forall u, a_number u -> ~ (number_at x 0 <= value u <= number_at x (length x - 1)) -> interp_linear x y u = Err ValueError).
Proof.
  intros T. split; [exact (at_line x y T)|]. split; [|split; [intros u U; apply (in_range x y T u U)|exact (outside x y T)]].
  intros u i U I B. destruct (between x y T u i U I B) as [v [E [N [Er [A C]]]]]. exists v. split; [exact E|]. split; [exact N|]. split; [exact Er|].
  pose proof (rises x y T i (S i) ltac:(lia)) as Up. apply Rabs_le_inv in Er. unfold line in Er.
  set (q := (value u - number_at x i) / (number_at x (S i) - number_at x i)) in *.
  assert (Q : 0 <= q <= 1).
  { unfold q. split; [apply Rmult_le_pos; [lra|left; apply Rinv_0_lt_compat; lra]|].
    apply Rmult_le_reg_r with (number_at x (S i) - number_at x i); [lra|]. unfold Rdiv. rewrite Rmult_assoc, Rinv_l by lra. lra. }
  split; intros O; [specialize (A O)|specialize (C O)]; (split; [nra|nra] || idtac).
Qed.
