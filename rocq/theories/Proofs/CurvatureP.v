(** find_shelf_edge_by_curvature, and the constructor of ShorelineFinder. *)
From Coq Require Import String List ZArith QArith Reals Lra Lia Arith Bool.
From Verif.Base Require Import Num Py Arr.
From Verif.Model Require Import Layers Grid Shoreline.
From Verif.Spec Require Import Profile Curvature.
From Verif.Proofs Require Import GridP ShorelineP.
Import ListNotations.
Local Open Scope R_scope.

Lemma argmin_loop_spec (l : list R) : forall pre best vbest,
  (best < length pre)%nat -> nth best pre 0 = vbest ->
  (forall j, (j < length pre)%nat -> vbest <= nth j pre 0) ->
  (forall j, (j < best)%nat -> vbest < nth j pre 0) ->
  first_smallest (pre ++ l) (argmin_loop (length pre) best vbest l).
Proof.
  induction l as [|a l IH]; intros pre best vbest Hb Hv Hge Hlt; cbn [argmin_loop].
  - rewrite app_nil_r. subst vbest. repeat split; assumption.
  - assert (Happ : pre ++ a :: l = (pre ++ [a]) ++ l) by (rewrite <- app_assoc; reflexivity).
    assert (Hlen : length (pre ++ [a]) = S (length pre)) by (rewrite app_length; simpl; lia).
    rewrite Happ, <- Hlen. destruct (nltb a vbest) eqn:E; numR; cbn in E.
    + apply Rltb_true in E. apply IH.
      * lia.
      * rewrite app_nth2, Nat.sub_diag by lia. reflexivity.
      * intros j Hj. destruct (Nat.eq_dec j (length pre)) as [->|].
        -- rewrite app_nth2, Nat.sub_diag by lia. apply Rle_refl.
        -- rewrite app_nth1 by lia. specialize (Hge j ltac:(lia)). lra.
      * intros j Hj. rewrite app_nth1 by lia. specialize (Hge j ltac:(lia)). lra.
    + apply Rltb_false in E. apply IH.
      * lia.
      * rewrite app_nth1 by lia. assumption.
      * intros j Hj. destruct (Nat.eq_dec j (length pre)) as [->|].
        -- rewrite app_nth2, Nat.sub_diag by lia. exact E.
        -- rewrite app_nth1 by lia. apply Hge; lia.
      * intros j Hj. rewrite app_nth1 by lia. apply Hlt; assumption.
Qed.
Lemma argmin_spec (l : list R) : l <> [] -> first_smallest l (argmin l).
Proof.
  destruct l as [|a l]; [congruence|]. intros _. apply (argmin_loop_spec l [a] 0 a); cbn.
  - lia.
  - reflexivity.
  - intros j Hj. destruct j; [apply Rle_refl|lia].
  - intros j Hj. lia.
Qed.
Lemma first_smallest_unique l i j : first_smallest l i -> first_smallest l j -> i = j.
Proof.
  intros [I1 [I2 I3]] [J1 [J2 J3]]. destruct (Nat.lt_trichotomy i j) as [L|[L|L]]; [|exact L|].
  - specialize (J3 i L). specialize (I2 j J1). lra.
  - specialize (I3 j L). specialize (J2 i I1). lra.
Qed.

Lemma increasing_step x i : increasing x -> (S i < length x)%nat -> 0 < nth (S i) x 0 - nth i x 0.
Proof. intros I L. specialize (I i (S i) ltac:(lia)). lra. Qed.

(* the slopes are what the code computes *)
Lemma slopes_value x f s i : increasing x -> (2 <= length x)%nat -> length f = length x -> slopes x f s -> (i < length x)%nat ->
  nth i s 0 = gradient_at f x i.
Proof.
  intros Ix L2 Lf [Ls Sl] Li. destruct (Sl i Li) as [q [Q0 Qe]]. unfold gradient_at. cbv zeta. numR. rewrite ?n0_R.
  destruct (Nat.eqb_spec i 0) as [->|Ni].
  - specialize (Qe (or_introl eq_refl)). subst q. specialize (Q0 1%nat ltac:(lia) ltac:(lia)).
    assert (D := increasing_step x 0 Ix ltac:(lia)). rewrite Q0. field. lra.
  - destruct i as [|i]; [lia|]. replace (S i - 1)%nat with i in * by lia.
    assert (D1 := increasing_step x i Ix ltac:(lia)). assert (Ql := Q0 i ltac:(lia) (or_introl eq_refl)).
    destruct (Nat.eqb_spec (S i) (length f - 1)) as [E|E].
    + assert (q = 0) by (apply Qe; right; lia). subst q. rewrite Ql. field. lra.
    + assert (D2 := increasing_step x (S i) Ix ltac:(lia)). assert (Qr := Q0 (S (S i)) ltac:(lia) (or_intror eq_refl)).
      rewrite Ql, Qr. field. lra.
Qed.
Lemma gradient_slopes x f : increasing x -> (2 <= length x)%nat -> length f = length x ->
  exists s, gradient f x = Ok s /\ slopes x f s.
Proof.
  intros Ix L2 Lf. unfold gradient. destruct (Nat.ltb_spec (length f) 2); [lia|].
  replace (Nat.eqb (length x) (length f)) with true by (symmetry; apply Nat.eqb_eq; lia). cbn [negb].
  eexists. split; [reflexivity|]. split; [rewrite map_length, seq_length; exact Lf|]. intros i Li.
  assert (V : nth i (map (gradient_at f x) (seq 0 (length f))) 0 = gradient_at f x i).
  { rewrite (nth_indep _ 0 (gradient_at f x 0)) by (rewrite map_length, seq_length; lia).
    rewrite map_nth, seq_nth by lia. reflexivity. }
  rewrite V. unfold gradient_at. cbv zeta. numR. rewrite ?n0_R.
  destruct (Nat.eqb_spec i 0) as [->|Ni].
  - exists 0. split; [|reflexivity]. intros k Lk [->| ->]; cbn; [ring|].
    assert (D := increasing_step x 0 Ix ltac:(lia)). field. lra.
  - destruct i as [|i]; [lia|]. replace (S i - 1)%nat with i in * by lia.
    assert (D1 := increasing_step x i Ix ltac:(lia)).
    destruct (Nat.eqb_spec (S i) (length f - 1)) as [E|E].
    + exists 0. split; [|reflexivity]. intros k Lk [->| ->]; [|lia]. field. lra.
    + assert (D2 := increasing_step x (S i) Ix ltac:(lia)).
      set (h1 := nth (S i) x 0 - nth i x 0) in *. set (h2 := nth (S (S i)) x 0 - nth (S i) x 0) in *.
      exists ((h1 * (nth (S (S i)) f 0 - nth (S i) f 0) - h2 * (nth (S i) f 0 - nth i f 0)) / (h1 * h2 * (h1 + h2))).
      split; [|lia]. intros k Lk [->| ->].
      * replace (nth i x 0 - nth (S i) x 0) with (- h1) by (unfold h1; ring). field. lra.
      * fold h2. field. lra.
Qed.
Lemma slopes_unique x f s s' : increasing x -> (2 <= length x)%nat -> length f = length x ->
  slopes x f s -> slopes x f s' -> s = s'.
Proof.
  intros Ix L2 Lf S1 S2. apply (nth_ext _ _ 0 0); [destruct S1, S2; congruence|]. intros i Li.
  rewrite (slopes_value x f s i), (slopes_value x f s' i); auto; destruct S1; lia.
Qed.

Theorem curvature_exists x z : increasing x -> (2 <= length x)%nat -> length z = length x ->
  exists c j, curvature x z c /\ length c = length x /\ first_smallest c j.
Proof.
  intros Ix L2 Lz. destruct (gradient_slopes x z Ix L2 Lz) as [s [_ Ss]].
  destruct (gradient_slopes x s Ix L2 (proj1 Ss)) as [c [_ Sc]]. exists c, (argmin c).
  split; [exists s; split; assumption|]. split; [exact (proj1 Sc)|].
  apply argmin_spec. destruct Sc as [Lc _]. destruct c; [cbn in Lc; lia|discriminate].
Qed.
Theorem edge_least_curvature x z sea_level c j : increasing x -> (2 <= length x)%nat -> length z = length x ->
  curvature x z c -> first_smallest c j -> find_shelf_edge_by_curvature x z sea_level = Ok (nth j x 0).
Proof.
  intros Ix L2 Lz [s [Ss Sc]] F. unfold find_shelf_edge_by_curvature.
  destruct (gradient_slopes x z Ix L2 Lz) as [s' [-> Ss']]. assert (s' = s) by (eapply slopes_unique; eauto). subst s'. cbn [bind].
  destruct (gradient_slopes x s Ix L2 (proj1 Ss)) as [c' [-> Sc']].
  assert (c' = c) by (apply (slopes_unique x s); auto; apply Ss). subst c'. cbn [bind].
  assert (argmin c = j).
  { eapply first_smallest_unique; [|exact F]. apply argmin_spec. destruct F as [F _]. destruct c; [cbn in F; lia|discriminate]. }
  rewrite n0_R. congruence.
Qed.
Theorem edge_needs_two x z sea_level : (length z < 2)%nat \/ length z <> length x ->
  find_shelf_edge_by_curvature x z sea_level = Err ValueError.
Proof.
  intros D. unfold find_shelf_edge_by_curvature, gradient. destruct (Nat.ltb_spec (length z) 2); [reflexivity|].
  destruct (Nat.eqb_spec (length x) (length z)); [lia|reflexivity].
Qed.

(* a plane added to the profile moves no shelf edge *)
Theorem edge_detrended x z z' sea_level sea_level' p q : increasing x -> (2 <= length x)%nat -> length z = length x -> length z' = length x ->
  (forall i, (i < length x)%nat -> nth i z' 0 = nth i z 0 + p + q * nth i x 0) ->
  find_shelf_edge_by_curvature x z' sea_level' = find_shelf_edge_by_curvature x z sea_level.
Proof.
  intros Ix L2 Lz Lz' P. destruct (curvature_exists x z Ix L2 Lz) as [c [j [[s [Ss Sc]] [Lc F]]]].
  rewrite (edge_least_curvature x z sea_level c j Ix L2 Lz (ex_intro _ s (conj Ss Sc)) F).
  apply (edge_least_curvature x z' sea_level' c j Ix L2 Lz'); [|exact F].
  assert (N : forall i, (i < length x)%nat -> nth i (map (fun v => v + q) s) 0 = nth i s 0 + q).
  { intros i Li. rewrite (nth_indep _ 0 (0 + q)) by (rewrite map_length; destruct Ss; lia). rewrite (map_nth (fun v => v + q)). reflexivity. }
  exists (map (fun v => v + q) s). split.
  - destruct Ss as [Ls Sl]. split; [rewrite map_length; exact Ls|]. intros i Li. destruct (Sl i Li) as [r [R0 Re]].
    exists r. split; [|exact Re]. intros k Lk Dk. rewrite !P, N, (R0 k Lk Dk) by assumption. ring.
  - destruct Sc as [Lc' Sl]. split; [exact Lc'|]. intros i Li. destruct (Sl i Li) as [r [R0 Re]].
    exists r. split; [|exact Re]. intros k Lk Dk. rewrite !N, (R0 k Lk Dk) by assumption. ring.
Qed.

(* the curvature of a profile with one bend *)
Section Bend.
  Variables (x z : list R) (b : nat) (s1 s2 : R).
  Hypothesis Ix : increasing x.
  Hypothesis Hz : bends_at x z b s1 s2.
  Hypothesis Hb : (1 <= b)%nat.
  Hypothesis Hn : (S b < length x)%nat.
  Let h1 := nth b x 0 - nth (b - 1) x 0.
  Let h2 := nth (S b) x 0 - nth b x 0.
  Lemma h1_pos : 0 < h1.
  Proof. unfold h1. specialize (Ix (b - 1)%nat b ltac:(lia)). lra. Qed.
  Lemma h2_pos : 0 < h2.
  Proof. unfold h2. specialize (Ix b (S b) ltac:(lia)). lra. Qed.

  Let slope i := if Nat.ltb i b then s1 else if Nat.eqb i b then (s1 * h2 + s2 * h1) / (h1 + h2) else s2.
  Lemma bend_at i : (i < length x)%nat -> nth i (map slope (seq 0 (length x))) 0 = slope i.
  Proof. intros Li. rewrite (nth_indep _ 0 (slope 0)) by (rewrite map_length, seq_length; lia). rewrite map_nth, seq_nth by lia. reflexivity. Qed.
  Lemma bend_slopes : slopes x z (map slope (seq 0 (length x))).
  Proof.
    pose proof h1_pos as P1. pose proof h2_pos as P2. destruct Hz as [Lz [_ [Z1 Z2]]].
    split; [rewrite map_length, seq_length; reflexivity|]. intros i Li.
    rewrite bend_at by exact Li. unfold slope. destruct (Nat.ltb_spec i b).
    - exists 0. split; [|reflexivity]. intros k Lk Dk. rewrite (Z1 k), (Z1 i) by lia. ring.
    - destruct (Nat.eqb_spec i b) as [->|N].
      + exists ((s2 - s1) / (h1 + h2)). split; [|lia]. intros k Lk [->| ->].
        * rewrite (Z1 (b - 1)%nat) by lia. replace (nth (b - 1) x 0 - nth b x 0) with (- h1) by (unfold h1; ring). field. lra.
        * rewrite (Z2 (S b)) by lia. fold h2. field. lra.
      + exists 0. split; [|reflexivity]. intros k Lk Dk. rewrite (Z2 k), (Z2 i) by lia. ring.
  Qed.

  Lemma bend_curvature c : curvature x z c -> s2 < s1 ->
    length c = length x /\ nth b c 0 = (s2 - s1) / (h1 + h2)
    /\ (forall i, (i < length x)%nat -> nth b c 0 <= nth i c 0)
    /\ (forall i, (i < b)%nat -> (1 <= i)%nat \/ (2 <= b)%nat -> nth b c 0 < nth i c 0)
    /\ (b = 1%nat -> nth 0 c 0 = nth b c 0).
  Proof.
    intros [s [Ss Sc]] Lt. pose proof h1_pos as P1. pose proof h2_pos as P2.
    assert (L2 : (2 <= length x)%nat) by lia.
    assert (Es : s = map slope (seq 0 (length x))) by (apply (slopes_unique x z); auto; [apply Hz|apply bend_slopes]).
    assert (C : forall i, (i < length x)%nat -> nth i c 0 = gradient_at s x i).
    { intros i Li. apply slopes_value; auto. apply Ss. }
    assert (Ls : length s = length x) by apply Ss.
    assert (V : forall i, (i < length x)%nat -> nth i s 0 = slope i) by (intros i Li; rewrite Es; apply bend_at, Li).
    assert (Sb : slope b = (s1 * h2 + s2 * h1) / (h1 + h2)).
    { unfold slope. destruct (Nat.ltb_spec b b); [lia|]. rewrite Nat.eqb_refl. reflexivity. }
    assert (Sl : forall i, (i < b)%nat -> slope i = s1) by (intros i L; unfold slope; destruct (Nat.ltb_spec i b); [reflexivity|lia]).
    assert (Sr : forall i, (b < i)%nat -> slope i = s2).
    { intros i L; unfold slope; destruct (Nat.ltb_spec i b); [lia|]. destruct (Nat.eqb_spec i b); [lia|reflexivity]. }
    assert (Kneg : (s2 - s1) / (h1 + h2) < 0).
    { apply Ropp_lt_cancel. rewrite Ropp_0. replace (- ((s2 - s1) / (h1 + h2))) with ((s1 - s2) / (h1 + h2)) by (field; lra).
      apply Rdiv_lt_0_compat; lra. }
    set (K := (s2 - s1) / (h1 + h2)) in *.
    assert (D1 : slope b - s1 = K * h1) by (rewrite Sb; unfold K; field; lra).
    assert (D2 : s2 - slope b = K * h2) by (rewrite Sb; unfold K; field; lra).
    assert (Fr : forall p q, 0 < p -> 0 < q -> K < K * (p / (p + q)) < 0).
    { intros p q Pp Pq. assert (0 < p / (p + q)) by (apply Rdiv_lt_0_compat; lra).
      assert (p / (p + q) < 1). { apply Rmult_lt_reg_r with (p + q); [lra|]. replace (p / (p + q) * (p + q)) with p by (field; lra). lra. }
      split; nra. }
    (* the curvature at each column *)
    assert (Cb : nth b c 0 = K).
    { rewrite C by lia. unfold gradient_at. cbv zeta. numR. rewrite ?n0_R. destruct (Nat.eqb_spec b 0); [lia|]. destruct (Nat.eqb_spec b (length s - 1)); [lia|].
      replace (S (b - 1)) with b by lia. rewrite !V by lia. rewrite (Sl (b - 1)%nat), (Sr (S b)) by lia. fold h1 h2.
      replace (slope b) with (s1 + K * h1) by lra. replace s2 with (s1 + K * (h1 + h2)) by (unfold K; field; lra). field. lra. }
    assert (Cfl : forall i, (S i < b)%nat -> nth i c 0 = 0).
    { intros i Li. rewrite C by lia. unfold gradient_at. cbv zeta. numR. rewrite ?n0_R. destruct (Nat.eqb_spec i 0) as [->|].
      - rewrite !V, !Sl by lia. assert (D := increasing_step x 0 Ix ltac:(lia)). field. lra.
      - destruct (Nat.eqb_spec i (length s - 1)); [lia|]. rewrite !V, !Sl by lia. replace (S (i - 1)) with i by lia.
        assert (D := increasing_step x i Ix ltac:(lia)). assert (D' := Ix (i - 1)%nat i ltac:(lia)). field. lra. }
    assert (Cl : (2 <= b)%nat -> K < nth (b - 1) c 0 < 0).
    { intros B2. rewrite C by lia. unfold gradient_at. cbv zeta. numR. rewrite ?n0_R. destruct (Nat.eqb_spec (b - 1) 0); [lia|].
      destruct (Nat.eqb_spec (b - 1) (length s - 1)); [lia|]. replace (S (b - 1)) with b by lia. replace (S (b - 1 - 1)) with (b - 1)%nat by lia.
      rewrite !V by lia. rewrite (Sl (b - 1)%nat), (Sl (b - 1 - 1)%nat) by lia. fold h1.
      assert (P0 := Ix (b - 1 - 1)%nat (b - 1)%nat ltac:(lia)). set (h0 := nth (b - 1) x 0 - nth (b - 1 - 1) x 0) in *.
      assert (0 < h0) by (unfold h0; lra).
      replace (slope b) with (s1 + K * h1) by lra.
      match goal with |- K < ?e < 0 => replace e with (K * (h0 / (h0 + h1))) by (field; lra) end. apply Fr; lra. }
    assert (Cr : K <= nth (S b) c 0).
    { rewrite C by lia. unfold gradient_at. cbv zeta. numR. rewrite ?n0_R. destruct (Nat.eqb_spec (S b) 0) as [E0|_]; [lia|].
      replace (S b - 1)%nat with b by lia. destruct (Nat.eqb_spec (S b) (length s - 1)) as [E|E].
      - rewrite !V, (Sr (S b)) by lia. fold h2. rewrite D2. apply Req_le. field. lra.
      - rewrite !V by lia. rewrite (Sr (S b)), (Sr (S (S b))) by lia. fold h2.
        assert (P3 := increasing_step x (S b) Ix ltac:(lia)). set (h3 := nth (S (S b)) x 0 - nth (S b) x 0) in *.
        replace (slope b) with (s2 - K * h2) by lra.
        match goal with |- K <= ?e => replace e with (K * (h3 / (h3 + h2))) by (field; lra) end. left. apply Fr; lra. }
    assert (Cfr : forall i, (S b < i < length x)%nat -> nth i c 0 = 0).
    { intros i Li. rewrite C by lia. unfold gradient_at. cbv zeta. numR. rewrite ?n0_R. destruct (Nat.eqb_spec i 0); [lia|]. replace (S (i - 1)) with i by lia.
      assert (D' := Ix (i - 1)%nat i ltac:(lia)). destruct (Nat.eqb_spec i (length s - 1)).
      - rewrite !V, !Sr by lia. field. lra.
      - rewrite !V, !Sr by lia. assert (D := increasing_step x i Ix ltac:(lia)). field. lra. }
    assert (C1 : b = 1%nat -> nth 0 c 0 = K).
    { intros B1. rewrite C by lia. unfold gradient_at. cbv zeta. numR. rewrite ?n0_R. cbn [Nat.eqb]. rewrite !V by lia. rewrite <- B1, (Sl 0%nat) by lia.
      rewrite D1. unfold h1. rewrite B1. cbn [Nat.sub]. fold K. field.
      assert (D := increasing_step x 0 Ix ltac:(lia)). lra. }
    split; [exact (proj1 Sc)|]. split; [exact Cb|]. rewrite Cb. split; [|split; [|exact C1]].
    - intros i Li. destruct (Nat.lt_trichotomy i b) as [L|[->|L]]; [|rewrite Cb; apply Rle_refl|].
      + destruct (Nat.eq_dec (S i) b) as [E|E]; [|rewrite Cfl by lia; lra].
        destruct (Nat.eq_dec b 1) as [B|B]; [replace i with 0%nat by lia; rewrite C1 by exact B; apply Rle_refl|].
        replace i with (b - 1)%nat by lia. left. apply Cl. lia.
      + destruct (Nat.eq_dec i (S b)) as [->|E]; [exact Cr|]. rewrite Cfr by lia. lra.
    - intros i Li Di. destruct (Nat.eq_dec (S i) b) as [E|E]; [|rewrite Cfl by lia; lra].
      replace i with (b - 1)%nat by lia. apply Cl. lia.
  Qed.
End Bend.

Theorem edge_of_bend x z sea_level b s1 s2 : increasing x -> bends_at x z b s1 s2 -> s2 < s1 ->
  (2 <= b)%nat -> (S b < length x)%nat -> find_shelf_edge_by_curvature x z sea_level = Ok (nth b x 0).
Proof.
  intros Ix Hz Lt B N. destruct (curvature_exists x z Ix ltac:(lia) (proj1 Hz)) as [c [j [Cc _]]].
  destruct (bend_curvature x z b s1 s2 Ix Hz ltac:(lia) N c Cc Lt) as [Lc [_ [M [St _]]]].
  apply (edge_least_curvature x z sea_level c b Ix ltac:(lia) (proj1 Hz) Cc). split; [lia|]. split.
  - intros k Lk. apply M. lia.
  - intros k Lk. apply St; lia.
Qed.
Theorem edge_of_first_bend x z sea_level s1 s2 : increasing x -> bends_at x z 1 s1 s2 -> s2 < s1 ->
  (2 < length x)%nat -> find_shelf_edge_by_curvature x z sea_level = Ok (nth 0 x 0).
Proof.
  intros Ix Hz Lt N. destruct (curvature_exists x z Ix ltac:(lia) (proj1 Hz)) as [c [j [Cc _]]].
  destruct (bend_curvature x z 1 s1 s2 Ix Hz ltac:(lia) N c Cc Lt) as [Lc [_ [M [_ F]]]].
  apply (edge_least_curvature x z sea_level c 0 Ix ltac:(lia) (proj1 Hz) Cc). split; [lia|]. split; [|lia].
  intros k Lk. rewrite F by reflexivity. apply M. lia.
Qed.

(* a cliff on land, above a shelf with its edge *)
Definition ex_bx : list R := [0; 1; 2; 3; 4; 5; 6].
Definition ex_bz : list R := [8; 7; 6; 3; 0; -3; -6].
Lemma ex_bx_increasing : increasing ex_bx.
Proof.
  intros i j [L1 L2]. cbn in L2. destruct i as [|[|[|[|[|[|[|i]]]]]]], j as [|[|[|[|[|[|[|j]]]]]]]; cbn; try lia; lra.
Qed.
Lemma ex_bends : bends_at ex_bx ex_bz 2 (-1) (-3).
Proof.
  split; [reflexivity|]. split; [cbn; lia|]. split; intros i Li.
  - destruct i as [|[|[|i]]]; cbn; try lia; lra.
  - cbn in Li. destruct i as [|[|[|[|[|[|[|i]]]]]]]; cbn; try lia; lra.
Qed.
Lemma ex_edge_on_land : find_shelf_edge_by_curvature ex_bx ex_bz 0 = Ok 2.
Proof. exact (edge_of_bend ex_bx ex_bz 0 2 (-1) (-3) ex_bx_increasing ex_bends ltac:(lra) ltac:(lia) ltac:(cbn; lia)). Qed.

(** * The constructor of ShorelineFinder *)

Lemma row_init_update interp1d alpha (x : list R) sl zr dzr p :
  0 < alpha -> sorted x -> length dzr = length x ->
  shoreline_row_init interp1d alpha x sl (zr, dzr) = Ok p <-> shoreline_row interp1d alpha x sl (zr, dzr) = Ok p.
Proof.
  intros Ha Hx Hl. unfold shoreline_row_init, shoreline_row. destruct (find_shoreline interp1d x zr sl) as [s|e]; cbn [bind]; [|reflexivity].
  destruct (find_shelf_edge_spec x dzr s alpha) as [[k [[Hk1 Hk2] [Hk3 _]]]|[_ He]]; try assumption; try lra.
  - rewrite Hk3. numR. assert (Hlt : s < nth k x 0). { assert (0 < 3 / alpha) by (apply Rdiv_lt_0_compat; lra). lra. }
    pose proof (proj2 (Rltb_true s (nth k x 0)) Hlt) as E. rewrite E. reflexivity.
  - rewrite He. reflexivity.
Qed.
Lemma mapM_ok_ext {A B} (f g : A -> result B) l : (forall a b, In a l -> f a = Ok b <-> g a = Ok b) ->
  forall bs, mapM f l = Ok bs -> mapM g l = Ok bs.
Proof.
  induction l as [|a l IH]; intros H bs E; cbn [mapM] in *; [exact E|].
  destruct (f a) as [v|] eqn:Ef; [|discriminate E]. apply (H a v (or_introl eq_refl)) in Ef. rewrite Ef. cbn [bind] in *.
  destruct (mapM f l) as [vs|] eqn:Em; [|discriminate E].
  rewrite (IH (fun a' b' Hi => H a' b' (or_intror Hi)) vs eq_refl). exact E.
Qed.
Lemma dset_back {V} (d : list (string * V)) k1 k2 (a0 b0 a : V) : k1 <> k2 ->
  dset String.eqb (dset String.eqb (dset String.eqb d k1 a0) k2 b0) k1 a = dset String.eqb (dset String.eqb d k1 a) k2 b0.
Proof.
  intros N. assert (N' : String.eqb k2 k1 = false) by (apply String.eqb_neq; congruence).
  induction d as [|[k v] d IH]; cbn [dset].
  - rewrite N'. cbn [dset]. rewrite String.eqb_refl. reflexivity.
  - destruct (String.eqb k1 k) eqn:E1; cbn [dset].
    + destruct (String.eqb k2 k) eqn:E2; cbn [dset]; rewrite E1; [|reflexivity].
      apply String.eqb_eq in E1. apply String.eqb_eq in E2. congruence.
    + destruct (String.eqb k2 k) eqn:E2; cbn [dset]; rewrite ?E1; [|rewrite IH; reflexivity].
      f_equal. apply dset_dset.
Qed.
Lemma put_same (g : grid R) a b a0 b0 :
  put_rowf (put_rowf (put_rowf (put_rowf g "x_of_shore" a0) "x_of_shelf_edge" b0) "x_of_shore" a) "x_of_shelf_edge" b
  = put_rowf (put_rowf g "x_of_shore" a) "x_of_shelf_edge" b.
Proof.
  destruct g as [nr nc dx dy nd gr rw ly]. unfold put_rowf, set_at_row. cbn [at_row at_node at_grid g_rows g_cols g_dx g_dy layers].
  rewrite dset_back by discriminate. rewrite dset_back by discriminate. reflexivity.
Qed.
Lemma init_update interp1d alpha (g g' : grid R) : 0 < alpha -> 0 < g_dx g ->
  (forall f, node g "sediment_deposit__thickness" = Some f -> shaped (g_rows g + 2) (g_cols g) f) ->
  shoreline_init interp1d alpha g = Ok g' <-> shoreline_update interp1d alpha g = Ok g'.
Proof.
  intros Ha Hd Hs. unfold shoreline_init, shoreline_update.
  set (g0 := put_rowf (put_rowf g _ _) _ _).
  change (get_profile g0 "topographic__elevation") with (get_profile g "topographic__elevation").
  change (get_profile g0 "sediment_deposit__thickness") with (get_profile g "sediment_deposit__thickness").
  change (gval_r g0 "sea_level__elevation") with (gval_r g "sea_level__elevation").
  change (x_of_column g0) with (x_of_column g).
  destruct (get_profile g "topographic__elevation") as [z|]; cbn [bind]; [|reflexivity].
  destruct (get_profile g "sediment_deposit__thickness") as [dz|] eqn:Ed; cbn [bind]; [|reflexivity].
  destruct (gval_r g "sea_level__elevation") as [sl|]; cbn [bind]; [|reflexivity].
  assert (Rw : forall a b, In a (combine z dz) ->
     shoreline_row_init interp1d alpha (x_of_column g) sl a = Ok b <-> shoreline_row interp1d alpha (x_of_column g) sl a = Ok b).
  { intros [zr dzr] b Hin. apply row_init_update; [exact Ha|apply sorted_x, Hd|].
    unfold get_profile, node_r in Ed. destruct (node g "sediment_deposit__thickness") as [f|]; cbn in Ed; [|discriminate Ed].
    specialize (Hs f eq_refl). apply shaped_inner in Hs. assert (X : inner f = dz) by congruence.
    apply in_combine_r in Hin. rewrite <- X in Hin. rewrite (proj2 Hs _ Hin), x_of_column_length. reflexivity. }
  split; intros E.
  - destruct (mapM (shoreline_row_init _ _ _ _) _) as [rows|] eqn:Em; [|discriminate E].
    rewrite (mapM_ok_ext _ _ _ Rw rows Em). cbn [bind] in *. unfold g0 in E. rewrite put_same in E. exact E.
  - destruct (mapM (shoreline_row interp1d _ _ _) _) as [rows|] eqn:Em; [|discriminate E].
    rewrite (mapM_ok_ext _ _ _ (fun a b H => iff_sym (Rw a b H)) rows Em). cbn [bind] in *. unfold g0. rewrite put_same. exact E.
Qed.
Lemma update_twice interp1d alpha (g g' : grid R) :
  shoreline_update interp1d alpha g = Ok g' -> shoreline_update interp1d alpha g' = Ok g'.
Proof.
  unfold shoreline_update. intros E.
  destruct (get_profile g "topographic__elevation") as [z|] eqn:Ez; cbn [bind] in E; [|discriminate E].
  destruct (get_profile g "sediment_deposit__thickness") as [dz|] eqn:Ed; cbn [bind] in E; [|discriminate E].
  destruct (gval_r g "sea_level__elevation") as [sl|] eqn:El; cbn [bind] in E; [|discriminate E].
  destruct (mapM _ _) as [rows|] eqn:Em; cbn [bind] in E; [|discriminate E].
  match type of E with Ok ?a = _ => assert (X : g' = a) by congruence end.
  assert (Nz : forall n, get_profile g' n = get_profile g n) by (intros n; rewrite X; reflexivity).
  assert (Ng : forall n, gval_r g' n = gval_r g n) by (intros n; rewrite X; reflexivity).
  assert (Nx : x_of_column g' = x_of_column g) by (rewrite X; reflexivity).
  rewrite !Nz, Ng, Nx, Ez, Ed, El. cbn [bind]. rewrite Em. cbn [bind]. f_equal. rewrite X at 1. rewrite put_same. congruence.
Qed.
Theorem finder_starts interp1d alpha (g g' : grid R) : 0 < alpha -> 0 < g_dx g ->
  (forall f, node g "sediment_deposit__thickness" = Some f -> shaped (g_rows g + 2) (g_cols g) f) ->
  (shoreline_init interp1d alpha g = Ok g' <-> shoreline_update interp1d alpha g = Ok g')
  /\ (shoreline_init interp1d alpha g = Ok g' -> shoreline_update interp1d alpha g' = Ok g').
Proof.
  intros Ha Hd Hs. split; [apply init_update; assumption|]. intros E. eapply update_twice. apply (init_update interp1d alpha g g'); eassumption.
Qed.

Lemma sea_floor_refuted : ~ (forall x z sea_level v, increasing x -> (2 <= length x)%nat -> length z = length x ->
  (exists i, submerged z sea_level i) ->
  find_shelf_edge_by_curvature x z sea_level = Ok v ->
  exists i, submerged z sea_level i /\ nth i x 0 = v).
Proof.
  intros C. destruct (C ex_bx ex_bz 0 2 ex_bx_increasing ltac:(cbn; lia) eq_refl) as [i [[Li Si] Ei]].
  - exists 5%nat. split; [cbn; lia|]. cbn. apply Rltb_true. lra.
  - exact ex_edge_on_land.
  - cbn in Li. destruct i as [|[|[|[|[|[|[|i]]]]]]]; cbn in Ei; try lra; try lia.
    cbn in Si. apply Rltb_true in Si. lra.
Qed.
