From Coq Require Import List ZArith QArith Reals Lra Lia Arith.
From Verif.Base Require Import Num Py.
From Verif.Model Require Import Interp.
From Verif.Spec Require Import Profile.
Import ListNotations.
Local Open Scope R_scope.

Lemma searchsorted_spec (x : list R) v :
  (searchsorted x v <= length x)%nat
  /\ (forall i, (i < searchsorted x v)%nat -> nth i x 0 < v)
  /\ ((searchsorted x v < length x)%nat -> v <= nth (searchsorted x v) x 0).
Proof.
  induction x as [|a x IH]; simpl.
  - repeat split; intros; lia.
  - destruct IH as [H1 [H2 H3]]. numR. rcase; simpl.
    + split; [lia|]. split.
      * intros [|i] Hi; [assumption|]. apply H2; lia.
      * intros Hl. apply H3; lia.
    + split; [lia|]. split; [intros; lia|]. intros _. assumption.
Qed.

Lemma increasing_lt_inv x i j : increasing x -> (i < length x)%nat -> (j < length x)%nat ->
  nth i x 0 < nth j x 0 -> (i < j)%nat.
Proof.
  intros Hx Hi Hj Hlt. destruct (lt_dec i j) as [|Hn]; [assumption|exfalso].
  destruct (Nat.eq_dec i j) as [->|]; [lra|].
  assert (nth j x 0 < nth i x 0) by (apply Hx; lia). lra.
Qed.

Lemma increasing_le' x i j : increasing x -> (i <= j < length x)%nat -> nth i x 0 <= nth j x 0.
Proof.
  intros Hx Hij. destruct (Nat.eq_dec i j) as [->|]; [lra|]. left; apply Hx; lia.
Qed.

Lemma lerp_left x0 y0 x1 y1 : x0 < x1 -> lerp x0 y0 x1 y1 x0 = y0.
Proof. intros. unfold lerp. field. lra. Qed.
Lemma lerp_right x0 y0 x1 y1 : x0 < x1 -> lerp x0 y0 x1 y1 x1 = y1.
Proof. intros. unfold lerp. field. lra. Qed.

Lemma Reqb_true a b : Reqb a b = true -> a = b.
Proof. unfold Reqb. destruct (Req_EM_T a b); [auto|discriminate]. Qed.
Lemma Reqb_refl' a : Reqb a a = true.
Proof. unfold Reqb. destruct (Req_EM_T a a); [reflexivity|contradiction]. Qed.
Lemma reached_at (x : list R) v i : increasing x -> (S i < length x)%nat -> nth i x 0 <= v < nth (S i) x 0 -> reached x v = S i.
Proof.
  revert i. induction x as [|a x IH]; intros i Hx Hl Hv; [cbn in Hl; lia|]. cbn [reached]. numR.
  destruct (Rltb v a) eqn:E.
  - apply Rltb_true in E. pose proof (increasing_le' (a :: x) 0 i Hx ltac:(lia)) as X. change (nth 0 (a :: x) 0) with a in X. lra.
  - f_equal. destruct i as [|i].
    + destruct x as [|b x]; [cbn in Hl; lia|]. cbn [reached]. numR. cbn in Hv. rewrite (proj2 (Rltb_true v b)) by lra. reflexivity.
    + apply IH; [|cbn in Hl; lia|exact Hv]. intros k l Hkl. apply (Hx (S k) (S l)). cbn. lia.
Qed.
Lemma reached_all (x : list R) v : (forall i, (i < length x)%nat -> nth i x 0 <= v) -> reached x v = length x.
Proof.
  induction x as [|a x IH]; intros Hx; [reflexivity|]. cbn [reached length]. numR.
  destruct (Rltb v a) eqn:E; [apply Rltb_true in E; specialize (Hx 0%nat ltac:(cbn; lia)); cbn in Hx; lra|].
  f_equal. apply IH. intros i Hi. apply (Hx (S i)). cbn. lia.
Qed.

Theorem interp_linear_spec (x y : list R) v i :
  increasing x -> length y = length x -> (S i < length x)%nat ->
  nth i x 0 <= v <= nth (S i) x 0 ->
  interp_linear x y v = Ok (lerp (nth i x 0) (nth i y 0) (nth (S i) x 0) (nth (S i) y 0) v).
Proof.
  intros Hx Hl Hi [Hv1 Hv2]. unfold interp_linear. numR. rewrite !n0_R.
  assert (H0 : nth 0 x 0 <= nth i x 0) by (apply increasing_le'; [assumption|lia]).
  assert (Hn : nth (S i) x 0 <= nth (length x - 1) x 0) by (apply increasing_le'; [assumption|lia]).
  destruct (Rltb v (nth 0 x 0)) eqn:E1; [apply Rltb_true in E1; lra|].
  destruct (Rltb (nth (length x - 1) x 0) v) eqn:E2; [apply Rltb_true in E2; lra|].
  rewrite Reqb_refl'. cbn [negb]. assert (Hii : nth i x 0 < nth (S i) x 0) by (apply Hx; lia).
  destruct (Rle_lt_or_eq_dec _ _ Hv2) as [Lt|Eq].
  - rewrite (reached_at x v i) by (assumption || lia || (split; assumption)). cbn [Nat.sub]. rewrite Nat.sub_0_r.
    rewrite (proj2 (Nat.eqb_neq _ _)) by lia. cbn [orb].
    destruct (Reqb (nth i x 0) v) eqn:E.
    + apply Reqb_true in E. rewrite <- E, lerp_left by assumption. reflexivity.
    + f_equal. unfold lerp. field. lra.
  - subst v. rewrite lerp_right by assumption.
    destruct (Nat.eq_dec (S (S i)) (length x)) as [El|Nl].
    + rewrite (reached_all x (nth (S i) x 0)).
      * rewrite <- El. cbn [Nat.sub]. rewrite Nat.eqb_refl. reflexivity.
      * intros k Hk. apply increasing_le'; [assumption|lia].
    + rewrite (reached_at x _ (S i)); [|assumption|lia|split; [lra|apply Hx; lia]]. cbn [Nat.sub].
      rewrite Reqb_refl'. rewrite Bool.orb_true_r. reflexivity.
Qed.

(* every position inside the table lies in one of its intervals *)
Lemma find_interval (x : list R) v : (2 <= length x)%nat -> increasing x ->
  nth 0 x 0 <= v <= nth (length x - 1) x 0 ->
  exists i, (S i < length x)%nat /\ nth i x 0 <= v <= nth (S i) x 0.
Proof.
  intros Hl Hx [H0 Hn].
  assert (Hk : forall k, (k < length x)%nat -> v <= nth k x 0 -> (0 < k)%nat ->
            exists i, (S i < length x)%nat /\ nth i x 0 <= v <= nth (S i) x 0).
  { induction k as [|k IH]; intros Hk Hv Hp; [lia|].
    destruct (Rle_dec (nth k x 0) v) as [L|L].
    - exists k. split; [assumption|]. split; assumption.
    - destruct k as [|k]; [lra|]. apply IH; [lia|lra|lia]. }
  apply (Hk (length x - 1)%nat); [lia|assumption|lia].
Qed.

Theorem interp_linear_ok_iff (x y : list R) v : (2 <= length x)%nat -> increasing x -> length y = length x ->
  (nth 0 x 0 <= v <= nth (length x - 1) x 0 -> exists r, interp_linear x y v = Ok r)
  /\ (~ (nth 0 x 0 <= v <= nth (length x - 1) x 0) -> interp_linear x y v = Err ValueError).
Proof.
  intros Hl Hx Hy. split.
  - intros Hv. destruct (find_interval x v Hl Hx Hv) as [i [Hi Hvi]].
    rewrite (interp_linear_spec x y v i) by assumption. eexists; reflexivity.
  - intros Hv. unfold interp_linear. numR. rewrite !n0_R.
    rcase; [reflexivity|]. rcase; [reflexivity|]. exfalso; lra.
Qed.

Theorem interp_linear_node (x y : list R) i : (2 <= length x)%nat -> increasing x -> length y = length x ->
  (i < length x)%nat -> interp_linear x y (nth i x 0) = Ok (nth i y 0).
Proof.
  intros Hl Hx Hy Hi. destruct (Nat.eq_dec (S i) (length x)) as [E|E].
  - destruct i as [|i]; [lia|].
    assert (nth i x 0 < nth (S i) x 0) by (apply Hx; lia).
    rewrite (interp_linear_spec x y _ i) by (try assumption; try lia; lra).
    f_equal. apply lerp_right; assumption.
  - assert (nth i x 0 < nth (S i) x 0) by (apply Hx; lia).
    rewrite (interp_linear_spec x y _ i) by (try assumption; try lia; lra).
    f_equal. apply lerp_left; assumption.
Qed.

Lemma lerp_bounds x0 y0 x1 y1 v : x0 < x1 -> x0 <= v <= x1 ->
  Rmin y0 y1 <= lerp x0 y0 x1 y1 v <= Rmax y0 y1.
Proof.
  intros Hx Hv. unfold lerp.
  set (t := (v - x0) / (x1 - x0)).
  assert (Ht : 0 <= t <= 1).
  { unfold t. split.
    - apply Rmult_le_pos; [lra|]. left. apply Rinv_0_lt_compat. lra.
    - apply (Rmult_le_reg_r (x1 - x0)); [lra|]. unfold Rdiv. rewrite Rmult_assoc, Rinv_l by lra. lra. }
  unfold Rmin, Rmax. destruct (Rle_dec y0 y1).
  - assert (0 <= (y1 - y0) * t) by (apply Rmult_le_pos; lra).
    assert ((y1 - y0) * t <= (y1 - y0) * 1) by (apply Rmult_le_compat_l; lra). lra.
  - assert (0 <= (y0 - y1) * t) by (apply Rmult_le_pos; lra).
    assert ((y0 - y1) * t <= (y0 - y1) * 1) by (apply Rmult_le_compat_l; lra). lra.
Qed.

Theorem interp_linear_between (x y : list R) v i r :
  increasing x -> length y = length x -> (S i < length x)%nat ->
  nth i x 0 <= v <= nth (S i) x 0 -> interp_linear x y v = Ok r ->
  Rmin (nth i y 0) (nth (S i) y 0) <= r <= Rmax (nth i y 0) (nth (S i) y 0).
Proof.
  intros Hx Hl Hi Hv E. rewrite (interp_linear_spec x y v i) in E by assumption.
  inversion E; subst. apply lerp_bounds; [apply Hx; lia|assumption].
Qed.

Definition linear_fun (x y : list R) : R -> R :=
  fun v => match interp_linear x y v with Ok r => r | Err _ => n0 end.

Lemma interp1d_linear_fun x y : interp1d_linear x y = Ok (linear_fun x y).
Proof. reflexivity. Qed.

Lemma linear_fun_interpolates x y : (2 <= length x)%nat -> increasing x -> length y = length x ->
  interpolates (linear_fun x y) x y.
Proof.
  intros Hl Hx Hy. split; [assumption|]. intros i Hi. unfold linear_fun.
  rewrite interp_linear_node by assumption. reflexivity.
Qed.

Lemma continuity_affine a b : continuity (fun v => a * v + b).
Proof.
  intros v. apply continuity_pt_plus with (f1 := fun v => a * v) (f2 := fun _ => b).
  - apply continuity_pt_scal with (f := fun v => v). apply derivable_continuous_pt, derivable_pt_id.
  - apply continuity_pt_const. intros c d; reflexivity.
Qed.

Lemma lerp_affine x0 y0 x1 y1 v :
  lerp x0 y0 x1 y1 v = (y1 - y0) / (x1 - x0) * v + (y0 - (y1 - y0) / (x1 - x0) * x0).
Proof. unfold lerp, Rdiv. ring. Qed.

Lemma linear_fun_continuous x y i : increasing x -> length y = length x -> (S i < length x)%nat ->
  continuous_between (linear_fun x y) (nth i x 0) (nth (S i) x 0).
Proof.
  intros Hx Hy Hi. eexists. split; [apply continuity_affine|].
  intros v Hv. unfold linear_fun. rewrite (interp_linear_spec x y v i) by assumption.
  symmetry. apply lerp_affine.
Qed.
