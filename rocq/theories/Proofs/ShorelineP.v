From Coq Require Import String List ZArith QArith Reals Lra Lia Arith Bool.
From Verif.Base Require Import Num Py Arr.
From Verif.Model Require Import Layers Grid Shoreline.
From Verif.Spec Require Import Profile.
Import ListNotations.

(** * find_shoreline_index, for every number type *)
Section Any.
  Context {A : Type} `{Num A}.

  Lemma where_below_In z sl k i :
    In i (where_below k z sl) <-> exists j, i = (k + j)%nat /\ submerged z sl j.
  Proof.
    unfold submerged. revert k; induction z as [|a z IH]; simpl; intros k.
    - split; [intros []|]. intros [j [_ [Hj _]]]. lia.
    - destruct (nltb a sl) eqn:E; simpl; rewrite IH; split.
      + intros [<-|[j [-> [Hj Hb]]]].
        * exists 0%nat. repeat split; auto; try lia.
        * exists (S j). repeat split; auto; try lia.
      + intros [[|j] [-> [Hj Hb]]]; [left; lia|right].
        exists j. repeat split; auto; lia.
      + intros [j [-> [Hj Hb]]]. exists (S j). repeat split; auto; lia.
      + intros [[|j] [-> [Hj Hb]]]; [simpl in Hb; congruence|].
        exists j. repeat split; auto; lia.
  Qed.

  Lemma where_below_head z sl k i l :
    where_below k z sl = i :: l -> exists j, i = (k + j)%nat /\ first_submerged z sl j.
  Proof.
    unfold first_submerged, submerged. revert k; induction z as [|a z IH]; simpl; intros k E; [discriminate|].
    destruct (nltb a sl) eqn:Ea.
    - inversion E; subst. exists 0%nat. repeat split; auto; try lia.
    - apply IH in E. destruct E as [j [-> [[Hj Hb] Hf]]].
      exists (S j). repeat split; auto; try lia.
      intros [|j'] Hj' [Hl Hb']; [simpl in Hb'; congruence|].
      apply (Hf j'); [lia|]. split; [lia|exact Hb'].
  Qed.

  Lemma where_below_length z sl k : (length (where_below k z sl) <= length z)%nat.
  Proof.
    revert k; induction z as [|a z IH]; simpl; intros k; [lia|].
    destruct (nltb a sl); simpl; specialize (IH (S k)); lia.
  Qed.

  Lemma where_below_all z sl k :
    length (where_below k z sl) = length z <-> forall j, (j < length z)%nat -> submerged z sl j.
  Proof.
    unfold submerged. revert k; induction z as [|a z IH]; simpl; intros k.
    - split; [intros; lia|reflexivity].
    - destruct (nltb a sl) eqn:E; simpl.
      + split.
        * intros E1 [|j] Hj; split; auto. apply (IH (S k)); lia.
        * intros Hall. f_equal. apply IH. intros j Hj. destruct (Hall (S j)); [lia|]. split; auto.
      + split.
        * intros E1. pose proof (where_below_length z sl (S k)). lia.
        * intros Hall. destruct (Hall 0%nat) as [_ Hb]; [lia|]. simpl in Hb. congruence.
  Qed.

  Lemma where_below_none z sl k :
    length (where_below k z sl) = 0%nat <-> forall j, ~ submerged z sl j.
  Proof.
    split.
    - intros E j Hj. apply length_zero_iff_nil in E.
      assert (Hin : In (k + j)%nat (where_below k z sl)) by (apply where_below_In; eauto).
      rewrite E in Hin; destruct Hin.
    - intros Hn. destruct (where_below k z sl) as [|i l] eqn:E; [reflexivity|].
      apply where_below_head in E. destruct E as [j [_ [Hs _]]]. exfalso; eapply Hn; eauto.
  Qed.

  Lemma first_submerged_unique z sl i j :
    first_submerged z sl i -> first_submerged z sl j -> i = j.
  Proof.
    intros [Hi Hi'] [Hj Hj']. destruct (Nat.lt_trichotomy i j) as [L|[E|L]]; [|assumption|].
    - exfalso; apply (Hj' i L Hi).
    - exfalso; apply (Hi' j L Hj).
  Qed.

  Lemma index_cases (x z : list A) sl : length z = length x ->
    (find_shoreline_index x z sl = Err (ShorelineError false) /\ (forall j, ~ submerged z sl j))
    \/ (find_shoreline_index x z sl = Err (ShorelineError true)
        /\ z <> [] /\ (forall j, (j < length z)%nat -> submerged z sl j))
    \/ (exists i, find_shoreline_index x z sl = Ok i /\ first_submerged z sl i
        /\ exists j, (j < length z)%nat /\ ~ submerged z sl j).
  Proof.
    intros Hl. unfold find_shoreline_index.
    destruct (Nat.eqb_spec (length (where_below 0 z sl)) 0) as [E|E].
    - left. split; [reflexivity|]. apply (where_below_none z sl 0); assumption.
    - destruct (Nat.eqb_spec (length (where_below 0 z sl)) (length x)) as [E1|E1].
      + right; left. split; [reflexivity|]. split.
        * intros ->; simpl in *; congruence.
        * apply (where_below_all z sl 0). congruence.
      + right; right. destruct (where_below 0 z sl) as [|i l] eqn:E2; [simpl in E; congruence|].
        exists i. split; [reflexivity|].
        destruct (where_below_head _ _ _ _ _ E2) as [j [Hj Hf]]. simpl in Hj; subst j.
        split; [assumption|].
        assert (Hn : ~ forall j, (j < length z)%nat -> submerged z sl j).
        { intros Hall. apply (where_below_all z sl 0) in Hall. rewrite E2 in Hall. congruence. }
        clear - Hn.
        assert (Hdec : forall n, (forall j, (j < n)%nat -> submerged z sl j)
                        \/ exists j, (j < n)%nat /\ ~ submerged z sl j).
        { induction n as [|n IH]; [left; intros; lia|].
          destruct IH as [IH|[j [Hj Hs]]]; [|right; exists j; split; auto].
          assert (Hd : submerged z sl n \/ ~ submerged z sl n).
          { unfold submerged. destruct (lt_dec n (length z)); [|right; intros [? _]; lia].
            destruct (nltb (nth n z n0) sl); [left; auto|right; intros [_ ?]; congruence]. }
          destruct Hd as [Hd|Hd].
          - left. intros j Hj. destruct (Nat.eq_dec j n) as [->|]; [assumption|apply IH; lia].
          - right; exists n; split; auto. }
        destruct (Hdec (length z)) as [Hd|Hd]; [contradiction|assumption].
  Qed.

  Theorem find_shoreline_index_spec (x z : list A) sl : length z = length x ->
    (forall i, find_shoreline_index x z sl = Ok i <->
       first_submerged z sl i /\ exists j, (j < length z)%nat /\ ~ submerged z sl j)
    /\ (find_shoreline_index x z sl = Err (ShorelineError false) <-> forall j, ~ submerged z sl j)
    /\ (find_shoreline_index x z sl = Err (ShorelineError true) <->
          z <> [] /\ forall j, (j < length z)%nat -> submerged z sl j)
    /\ (forall e, find_shoreline_index x z sl = Err e -> exists b, e = ShorelineError b).
  Proof.
    intros Hl.
    destruct (index_cases x z sl Hl) as [[E P]|[[E [P1 P2]]|[i [E [P1 P2]]]]]; rewrite E;
      (split; [intros i'; split|split; [split|split; [split|]]]).
    - discriminate.
    - intros [[Hs _] _]; exfalso; eapply P; eauto.
    - auto.
    - auto.
    - discriminate.
    - intros [Hne Hall]. exfalso. apply (P 0%nat). apply Hall. destruct z; [congruence|simpl; lia].
    - intros e He; inversion He; eauto.
    - discriminate.
    - intros [_ [j [Hj Hs]]]. exfalso; apply Hs, P2, Hj.
    - discriminate.
    - intros Hn. exfalso. apply (Hn 0%nat). apply P2. destruct z; [congruence|simpl; lia].
    - auto.
    - auto.
    - intros e He; inversion He; eauto.
    - intros H0; inversion H0; subst; auto.
    - intros [Hf _]. f_equal. eapply first_submerged_unique; eauto.
    - discriminate.
    - intros Hn. exfalso; eapply Hn. apply P1.
    - discriminate.
    - intros [_ Hall]. destruct P2 as [j [Hj Hs]]. exfalso; apply Hs, Hall, Hj.
    - discriminate.
  Qed.

  (** ** Python's bisect on a list sorted with respect to one value *)
  Lemma bisect_right_loop_spec (a : list A) v fuel lo hi :
    (forall i j, (i <= j < length a)%nat -> nltb v (nth i a n0) = true -> nltb v (nth j a n0) = true) ->
    (lo <= hi <= length a)%nat -> (hi - lo < fuel)%nat ->
    (forall i, (i < lo)%nat -> nltb v (nth i a n0) = false) ->
    (forall i, (hi <= i < length a)%nat -> nltb v (nth i a n0) = true) ->
    let p := bisect_right_loop fuel a v lo hi in
    (p <= length a)%nat
    /\ (forall i, (i < p)%nat -> nltb v (nth i a n0) = false)
    /\ (forall i, (p <= i < length a)%nat -> nltb v (nth i a n0) = true).
  Proof.
    intros Hs. revert lo hi; induction fuel as [|fuel IH]; intros lo hi Hb Hf Hlo Hhi; [lia|].
    simpl. destruct (Nat.ltb_spec lo hi) as [L|L].
    - assert (Hm : (lo <= Nat.div2 (lo + hi) < hi)%nat).
      { rewrite Nat.div2_div. split.
        - apply Nat.div_le_lower_bound; lia.
        - apply Nat.div_lt_upper_bound; lia. }
      destruct (nltb v (nth (Nat.div2 (lo + hi)) a n0)) eqn:E.
      + apply IH; try lia; auto. intros i Hi. eapply Hs; [|exact E]. lia.
      + apply IH; try lia; auto. intros i Hi.
        destruct (nltb v (nth i a n0)) eqn:E1; [|reflexivity].
        rewrite (Hs i (Nat.div2 (lo + hi))) in E; [discriminate|lia|assumption].
    - repeat split; auto; try lia. intros i Hi. apply Hhi; lia.
  Qed.

  (** ** np.argmax, for comparisons that are a strict weak order *)
  Lemma argmax_loop_spec (l : list A)
    (irr : forall a, nltb a a = false)
    (tr : forall a b c : A, nltb a b = true -> nltb b c = true -> nltb a c = true)
    (ntr : forall a b c : A, nltb a b = false -> nltb b c = false -> nltb a c = false)
    pre best vbest :
    (best < length pre)%nat -> nth best pre n0 = vbest ->
    (forall j, (j < length pre)%nat -> nltb vbest (nth j pre n0) = false) ->
    (forall j, (j < best)%nat -> nltb (nth j pre n0) vbest = true) ->
    let k := argmax_loop (length pre) best vbest l in
    (k < length (pre ++ l))%nat
    /\ (forall j, (j < length (pre ++ l))%nat -> nltb (nth k (pre ++ l) n0) (nth j (pre ++ l) n0) = false)
    /\ (forall j, (j < k)%nat -> nltb (nth j (pre ++ l) n0) (nth k (pre ++ l) n0) = true).
  Proof.
    revert pre best vbest; induction l as [|a l IH]; intros pre best vbest Hb Hv Hge Hlt; simpl.
    - rewrite app_nil_r. subst vbest. auto.
    - assert (Happ : pre ++ a :: l = (pre ++ [a]) ++ l) by (rewrite <- app_assoc; reflexivity).
      assert (Hlen : length (pre ++ [a]) = S (length pre)) by (rewrite app_length; simpl; lia).
      destruct (nltb vbest a) eqn:E.
      + rewrite Happ. rewrite <- Hlen. apply IH.
        * lia.
        * rewrite app_nth2, Nat.sub_diag by lia. reflexivity.
        * intros j Hj. destruct (Nat.eq_dec j (length pre)) as [->|].
          -- rewrite app_nth2, Nat.sub_diag by lia. apply irr.
          -- rewrite app_nth1 by lia.
             destruct (nltb a (nth j pre n0)) eqn:E1; [|reflexivity].
             assert (nltb vbest (nth j pre n0) = true) by (eapply tr; eauto).
             rewrite Hge in H0 by lia. discriminate.
        * intros j Hj. rewrite app_nth1 by lia.
          destruct (nltb (nth j pre n0) a) eqn:E1; [reflexivity|].
          rewrite (ntr vbest (nth j pre n0) a) in E; [discriminate|apply Hge; lia|assumption].
      + rewrite Happ. rewrite <- Hlen. apply IH.
        * lia.
        * rewrite app_nth1 by lia. assumption.
        * intros j Hj. destruct (Nat.eq_dec j (length pre)) as [->|].
          -- rewrite app_nth2, Nat.sub_diag by lia. assumption.
          -- rewrite app_nth1 by lia. apply Hge; lia.
        * intros j Hj. rewrite app_nth1 by lia. apply Hlt; assumption.
  Qed.
End Any.

(** * Real numbers *)
Local Open Scope R_scope.

Lemma n0R : (@n0 R Num_R) = 0.
Proof. exact n0_R. Qed.

Lemma submergedR z sl i : submerged z sl i <-> (i < length z)%nat /\ nth i z 0 < sl.
Proof.
  unfold submerged; numR. rewrite Rltb_true, n0R. reflexivity.
Qed.

Lemma xtolR : (@xtol R Num_R) = 2 / 1000000000000.
Proof. unfold xtol; numR. unfold Q2R; simpl; lra. Qed.
Lemma rtolR : (@rtol R Num_R) = 1 / 1125899906842624.
Proof. unfold rtol; numR. unfold Q2R; simpl; lra. Qed.
Lemma halfR : Q2R (1 # 2) = / 2.
Proof. unfold Q2R; simpl; lra. Qed.

Definition between (a b v : R) : Prop := Rmin a b <= v <= Rmax a b.

Lemma IVT_down (f : R -> R) a b : continuity f -> a <= b -> 0 <= f a -> f b <= 0 ->
  exists c, a <= c <= b /\ f c = 0.
Proof.
  intros Hc Hab Ha Hb.
  destruct (Req_dec (f a) 0) as [E|Na]; [exists a; split; [lra|assumption]|].
  destruct (Req_dec (f b) 0) as [E|Nb]; [exists b; split; [lra|assumption]|].
  destruct (Req_dec a b) as [->|Nab]; [lra|].
  destruct (IVT (fun v => - f v) a b) as [c [Hc1 Hc2]]; try lra.
  - apply continuity_opp; assumption.
  - exists c. split; [assumption|lra].
Qed.

Lemma IVT_up (f : R -> R) a b : continuity f -> a <= b -> f a <= 0 -> 0 <= f b ->
  exists c, a <= c <= b /\ f c = 0.
Proof.
  intros Hc Hab Ha Hb.
  destruct (IVT_down (fun v => - f v) a b) as [c [H1 H2]]; try lra.
  - apply continuity_opp; assumption.
  - exists c; split; [assumption|lra].
Qed.

(* the bisection loop: start positive at xa, nonpositive at xa + dm *)
Lemma bisect_loop_ok f fa n : 0 < fa -> forall xa dm, Rabs dm < xtol * 2 ^ n -> (0 < n)%nat ->
  0 <= f xa -> f (xa + dm) <= 0 ->
  exists s, bisect_loop n f fa xa dm = Ok s /\ between xa (xa + dm) s
    /\ ((exists g, continuity g /\ forall v, between xa (xa + dm) v -> g v = f v) ->
        exists c, between xa (xa + dm) c /\ f c = 0 /\ Rabs (s - c) <= xtol + rtol * Rabs s).
Proof.
  intros Hfa. rewrite xtolR, rtolR.
  induction n as [|n IH]; intros xa dm Hdm Hn Hxa Hxb; [lia|]. clear Hn.
  cbn [bisect_loop]. numR. rewrite halfR, n0R, nabs_R, nabs_R, xtolR, rtolR.
  set (dm' := dm * / 2). set (xm := xa + dm').
  assert (Hdm2 : dm = 2 * dm') by (unfold dm'; lra).
  assert (Habs : Rabs dm = 2 * Rabs dm') by (rewrite Hdm2, Rabs_mult, (Rabs_right 2); lra).
  assert (Hbm : between xa (xa + dm) xm).
  { unfold between, xm. rewrite Hdm2. unfold Rmin, Rmax.
    destruct (Rle_dec xa (xa + 2 * dm')); lra. }
  assert (Htolpos : 0 <= 1 / 1125899906842624 * Rabs xm)
    by (apply Rmult_le_pos; [lra|apply Rabs_pos]).
  destruct (Reqb (f xm) 0) eqn:E0.
  { apply Reqb_true in E0. simpl. exists xm. split; [reflexivity|]. split; [assumption|].
    intros _. exists xm. split; [assumption|]. split; [assumption|].
    replace (xm - xm) with 0 by lra. rewrite Rabs_R0. lra. }
  apply Reqb_false in E0. cbn [orb].
  assert (Efa : Rltb fa 0 = false) by (apply Rltb_false; lra). rewrite Efa.
  (* new bracket *)
  set (xa' := if Bool.eqb (Rltb (f xm) 0) false then xm else xa).
  assert (Hnew : 0 <= f xa' /\ f (xa' + dm') <= 0
                 /\ (forall v, between xa' (xa' + dm') v -> between xa (xa + dm) v)
                 /\ between xa' (xa' + dm') xm).
  { unfold xa'. destruct (Rltb (f xm) 0) eqn:Em; cbn [Bool.eqb];
      [apply Rltb_true in Em | apply Rltb_false in Em].
    - repeat split.
      + assumption.
      + fold xm. lra.
      + revert H; unfold between, xm, Rmin, Rmax; rewrite Hdm2;
        destruct (Rle_dec xa (xa + dm')), (Rle_dec xa (xa + 2 * dm')); lra.
      + revert H; unfold between, xm, Rmin, Rmax; rewrite Hdm2;
        destruct (Rle_dec xa (xa + dm')), (Rle_dec xa (xa + 2 * dm')); lra.
      + unfold xm, Rmin; destruct (Rle_dec xa (xa + dm')); lra.
      + unfold xm, Rmax; destruct (Rle_dec xa (xa + dm')); lra.
    - repeat split.
      + assumption.
      + replace (xm + dm') with (xa + dm) by (unfold xm; lra). assumption.
      + revert H; unfold between, xm, Rmin, Rmax; rewrite Hdm2;
        destruct (Rle_dec (xa + dm') (xa + dm' + dm')), (Rle_dec xa (xa + 2 * dm')); lra.
      + revert H; unfold between, xm, Rmin, Rmax; rewrite Hdm2;
        destruct (Rle_dec (xa + dm') (xa + dm' + dm')), (Rle_dec xa (xa + 2 * dm')); lra.
      + unfold Rmin; destruct (Rle_dec xm (xm + dm')); lra.
      + unfold Rmax; destruct (Rle_dec xm (xm + dm')); lra. }
  destruct Hnew as [Hf1 [Hf2 [Hsub Hmem]]].
  destruct (Rltb (Rabs dm') (2 / 1000000000000 + 1 / 1125899906842624 * Rabs xm)) eqn:Et.
  - apply Rltb_true in Et. exists xm. split; [reflexivity|]. split; [assumption|].
    intros [g [Hcont Hg]].
    assert (Hga : g xa' = f xa').
    { apply Hg, Hsub. unfold between, Rmin, Rmax; destruct (Rle_dec xa' (xa' + dm')); lra. }
    assert (Hgb : g (xa' + dm') = f (xa' + dm')).
    { apply Hg, Hsub. unfold between, Rmin, Rmax; destruct (Rle_dec xa' (xa' + dm')); lra. }
    assert (Hroot : exists c, between xa' (xa' + dm') c /\ f c = 0).
    { assert (Hr : exists c, between xa' (xa' + dm') c /\ g c = 0).
      { destruct (Rle_dec 0 dm') as [Hp|Hp].
        - destruct (IVT_down g xa' (xa' + dm')) as [c [Hc1 Hc2]]; try assumption; try lra.
          exists c; split; [|assumption].
          unfold between, Rmin, Rmax; destruct (Rle_dec xa' (xa' + dm')); lra.
        - destruct (IVT_up g (xa' + dm') xa') as [c [Hc1 Hc2]]; try assumption; try lra.
          exists c; split; [|assumption].
          unfold between, Rmin, Rmax; destruct (Rle_dec xa' (xa' + dm')); lra. }
      destruct Hr as [c [Hc1 Hc2]]. exists c. split; [assumption|].
      rewrite <- Hg by (apply Hsub; assumption). assumption. }
    destruct Hroot as [c [Hc1 Hc2]]. exists c. split; [apply Hsub; assumption|].
    split; [assumption|].
    apply Rle_trans with (Rabs dm'); [|lra].
    revert Hc1 Hmem. unfold between, Rmin, Rmax.
    destruct (Rle_dec xa' (xa' + dm')); unfold Rabs;
      destruct (Rcase_abs (xm - c)), (Rcase_abs dm'); lra.
  - apply Rltb_false in Et.
    assert (Hdm'' : Rabs dm' < 2 / 1000000000000 * 2 ^ n).
    { simpl in Hdm. rewrite Habs in Hdm. lra. }
    destruct n as [|n]; [simpl in Hdm''; lra|].
    destruct (IH xa' dm' Hdm'' ltac:(lia) Hf1 Hf2) as [s [Hs1 [Hs2 Hs3]]].
    exists s. split; [exact Hs1|]. split; [apply Hsub; assumption|].
    intros [g [Hcont Hg]].
    destruct Hs3 as [c [Hc1 [Hc2 Hc3]]].
    { exists g. split; [assumption|]. intros v Hv. apply Hg, Hsub, Hv. }
    exists c. split; [apply Hsub; assumption|]. split; assumption.
Qed.

Lemma width_ok : 1000000000000000000 < 2 / 1000000000000 * 2 ^ 100.
Proof.
  rewrite (pow_IZR 2 100). cbv [Z.of_nat Pos.of_succ_nat Pos.succ].
  replace (2 ^ 100)%Z with 1267650600228229401496703205376%Z by (vm_compute; reflexivity).
  lra.
Qed.

Lemma scipy_bisect_ok f a b : 0 <= f a -> f b < 0 -> Rabs (b - a) <= 1000000000000000000 ->
  exists s, scipy_bisect f a b = Ok s /\ between a b s
    /\ ((exists g, continuity g /\ forall v, between a b v -> g v = f v) ->
        exists c, between a b c /\ f c = 0 /\ Rabs (s - c) <= xtol + rtol * Rabs s).
Proof.
  intros Ha Hb Hw. unfold scipy_bisect; numR. rewrite n0R.
  assert (Htol : forall s, 0 <= @xtol R Num_R + @rtol R Num_R * Rabs s).
  { intros s. rewrite xtolR, rtolR. pose proof (Rabs_pos s). lra. }
  assert (Hself : between a b a).
  { unfold between, Rmin, Rmax; destruct (Rle_dec a b); lra. }
  destruct (Reqb (f a) 0) eqn:Ea.
  { apply Reqb_true in Ea. exists a. split; [reflexivity|]. split; [assumption|].
    intros _. exists a. split; [assumption|]. split; [assumption|].
    replace (a - a) with 0 by lra. rewrite Rabs_R0. apply Htol. }
  apply Reqb_false in Ea.
  destruct (Reqb (f b) 0) eqn:Eb; [apply Reqb_true in Eb; lra|].
  assert (E1 : Rltb (f a) 0 = false) by (apply Rltb_false; lra).
  assert (E2 : Rltb (f b) 0 = true) by (apply Rltb_true; lra).
  rewrite E1, E2. cbn [Bool.eqb].
  destruct (bisect_loop_ok f (f a) 100) with (xa := a) (dm := b - a) as [s Hs].
  - lra.
  - rewrite xtolR. pose proof width_ok. lra.
  - lia.
  - lra.
  - replace (a + (b - a)) with b by lra. lra.
  - replace (a + (b - a)) with b in Hs by lra. exists s; exact Hs.
Qed.

Lemma scipy_bisect_same_sign f a b : f a < 0 -> f b < 0 -> scipy_bisect f a b = Err ValueError.
Proof.
  intros Ha Hb. unfold scipy_bisect; numR. rewrite n0R.
  destruct (Reqb (f a) 0) eqn:Ea; [apply Reqb_true in Ea; lra|].
  destruct (Reqb (f b) 0) eqn:Eb; [apply Reqb_true in Eb; lra|].
  assert (E1 : Rltb (f a) 0 = true) by (apply Rltb_true; lra).
  assert (E2 : Rltb (f b) 0 = true) by (apply Rltb_true; lra).
  rewrite E1, E2. reflexivity.
Qed.

Lemma increasing_le x i j : increasing x -> (i <= j < length x)%nat -> nth i x 0 <= nth j x 0.
Proof.
  intros Hx Hij. destruct (Nat.eq_dec i j) as [->|]; [lra|].
  left. apply Hx. lia.
Qed.

Lemma pynth_nat {A} (l : list A) i d : (i < length l)%nat -> pynth l (Z.of_nat i) = Some (nth i l d).
Proof.
  intros Hi. unfold pynth, pyindex.
  destruct (Z.leb_spec 0 (Z.of_nat i)); [|lia].
  destruct (Z.ltb_spec (Z.of_nat i) (Z.of_nat (length l))); [|lia].
  rewrite Nat2Z.id. apply nth_error_nth'; assumption.
Qed.

Lemma pynth_pred {A} (l : list A) i d : (0 < i <= length l)%nat ->
  pynth l (Z.of_nat i - 1) = Some (nth (i - 1) l d).
Proof.
  intros Hi. replace (Z.of_nat i - 1)%Z with (Z.of_nat (i - 1)) by lia. apply pynth_nat; lia.
Qed.

Lemma pynth_last {A} (l : list A) d : l <> [] -> pynth l (-1)%Z = Some (nth (length l - 1) l d).
Proof.
  intros Hne. assert (Hl : (0 < length l)%nat) by (destruct l; [congruence|simpl; lia]).
  unfold pynth, pyindex. simpl.
  destruct (Z.leb_spec 0 (Z.of_nat (length l) + -1)); [|lia].
  replace (Z.to_nat (Z.of_nat (length l) + -1)) with (length l - 1)%nat by lia.
  apply nth_error_nth'; lia.
Qed.

Lemma nth_shift z sl i : (i < length z)%nat -> nth i (map (fun a => a - sl) z) 0 = nth i z 0 - sl.
Proof. intros. rewrite nth_map' with (da := 0) by assumption. reflexivity. Qed.

Lemma tol_eq s : @xtol R Num_R + @rtol R Num_R * Rabs s = 2 / 10 ^ 12 + 1 / 2 ^ 50 * Rabs s.
Proof.
  rewrite xtolR, rtolR. rewrite !pow_IZR.
  replace (10 ^ Z.of_nat 12)%Z with 1000000000000%Z by (vm_compute; reflexivity).
  replace (2 ^ Z.of_nat 50)%Z with 1125899906842624%Z by (vm_compute; reflexivity).
  reflexivity.
Qed.

Theorem find_shoreline_bracket interp1d f (x z : list R) sl :
  x <> [] -> increasing x -> length z = length x ->
  nth (length x - 1) x 0 - nth 0 x 0 <= 1000000000000000000 ->
  interp1d x (map (fun a => a - sl) z) = Ok f ->
  interpolates f x (map (fun a => a - sl) z) ->
  sl <= nth 0 z 0 ->
  exists s, find_shoreline interp1d x z sl = Ok s
    /\ ((forall i, ~ submerged z sl i) -> s = nth (length x - 1) x 0)
    /\ (forall i, first_submerged z sl i ->
          (0 < i)%nat /\ nth (i - 1) x 0 <= s <= nth i x 0
          /\ (continuous_between f (nth (i - 1) x 0) (nth i x 0) -> near_root f (nth (i - 1) x 0) (nth i x 0) s)).
Proof.
  intros Hne Hx Hl Hw Hi [_ Hf] Hdry.
  assert (Hlen : (0 < length x)%nat) by (destruct x; [congruence|simpl; lia]).
  unfold find_shoreline.
  destruct (index_cases x z sl Hl) as [[E P]|[[E [P1 P2]]|[i [E [P1 P2]]]]]; rewrite E.
  - destruct z as [|z0 z']; [simpl in Hl; lia|]. destruct x as [|x0 x']; [congruence|].
    numR. simpl in Hdry.
    destruct (Rltb z0 sl) eqn:Ez; [apply Rltb_true in Ez; lra|].
    exists (lastn (x0 :: x') n0). split; [reflexivity|]. split.
    + intros _. unfold lastn. rewrite n0R. reflexivity.
    + intros i [Hs _]. exfalso; eapply P; eauto.
  - exfalso. assert (Hs : submerged z sl 0) by (apply P2; lia).
    apply submergedR in Hs. lra.
  - numR. rewrite Hi. cbn [bind].
    pose proof P1 as [Hsub Hfirst]. apply submergedR in Hsub. destruct Hsub as [Hi1 Hi2].
    assert (Hi0 : (0 < i)%nat).
    { destruct i; [|lia]. lra. }
    rewrite (pynth_nat x i 0), (pynth_pred x i 0) by lia.
    assert (Hprev : sl <= nth (i - 1) z 0).
    { destruct (Rle_dec sl (nth (i - 1) z 0)); [assumption|]. exfalso.
      apply (Hfirst (i - 1)%nat); [lia|]. apply submergedR. split; [lia|lra]. }
    assert (Hlt : nth (i - 1) x 0 < nth i x 0) by (apply Hx; lia).
    assert (H0i : nth 0 x 0 <= nth (i - 1) x 0) by (apply increasing_le; [assumption|lia]).
    assert (Hil : nth i x 0 <= nth (length x - 1) x 0) by (apply increasing_le; [assumption|lia]).
    assert (Hfa : f (nth (i - 1) x 0) = nth (i - 1) z 0 - sl)
      by (rewrite Hf by lia; apply nth_shift; lia).
    assert (Hfb : f (nth i x 0) = nth i z 0 - sl)
      by (rewrite Hf by lia; apply nth_shift; lia).
    destruct (scipy_bisect_ok f (nth (i - 1) x 0) (nth i x 0)) as [s [Hs1 [Hs2 Hs3]]].
    { rewrite Hfa; lra. }
    { rewrite Hfb; lra. }
    { rewrite Rabs_right; lra. }
    exists s. split; [exact Hs1|]. split.
    + intros Hn. exfalso; eapply Hn. apply P1.
    + intros i' Hi'. assert (Eii : i' = i) by exact (first_submerged_unique z sl i' i Hi' P1). subst i'.
      assert (Hbt : forall v, between (nth (i - 1) x 0) (nth i x 0) v ->
                 nth (i - 1) x 0 <= v <= nth i x 0).
      { intros v. unfold between. rewrite Rmin_left, Rmax_right by lra. auto. }
      split; [assumption|]. split; [apply Hbt; assumption|].
      intros [g [Hc Hg]].
      destruct Hs3 as [c [Hc1 [Hc2 Hc3]]].
      { exists g. split; [assumption|]. intros v Hv. apply Hg, Hbt, Hv. }
      exists c. split; [apply Hbt; assumption|]. split; [assumption|].
      rewrite <- tol_eq. assumption.
Qed.

Theorem find_shoreline_all_below interp1d (x z : list R) sl :
  x <> [] -> length z = length x -> (forall i, (i < length z)%nat -> nth i z 0 < sl) ->
  find_shoreline interp1d x z sl = Ok (nth 0 x 0).
Proof.
  intros Hne Hl Hb. unfold find_shoreline.
  assert (Hlen : (0 < length x)%nat) by (destruct x; [congruence|simpl; lia]).
  destruct (index_cases x z sl Hl) as [[E P]|[[E [P1 P2]]|[i [E [P1 [j [Hj Hs]]]]]]]; rewrite E.
  - exfalso. apply (P 0%nat). apply submergedR. split; [lia|]. apply Hb; lia.
  - destruct z as [|z0 z']; [congruence|]. destruct x as [|x0 x']; [congruence|].
    numR. specialize (Hb 0%nat ltac:(simpl; lia)). simpl in Hb.
    apply Rltb_true in Hb. rewrite Hb. reflexivity.
  - exfalso. apply Hs. apply submergedR. split; [lia|]. apply Hb; lia.
Qed.

(* a drowned first column: the search interval is the whole profile *)
Theorem find_shoreline_drowned interp1d f (x z : list R) sl :
  x <> [] -> increasing x -> length z = length x ->
  nth (length x - 1) x 0 - nth 0 x 0 <= 1000000000000000000 ->
  interp1d x (map (fun a => a - sl) z) = Ok f ->
  interpolates f x (map (fun a => a - sl) z) ->
  nth 0 z 0 < sl ->
  (exists j, (j < length z)%nat /\ sl <= nth j z 0) ->
  (sl <= nth (length z - 1) z 0 ->
     exists s, find_shoreline interp1d x z sl = Ok s /\ nth 0 x 0 <= s <= nth (length x - 1) x 0)
  /\ (nth (length z - 1) z 0 < sl -> find_shoreline interp1d x z sl = Err ValueError).
Proof.
  intros Hne Hx Hl Hw Hi [_ Hf] Hwet [j [Hj Hdry]].
  assert (Hlen : (0 < length x)%nat) by (destruct x; [congruence|simpl; lia]).
  unfold find_shoreline.
  destruct (index_cases x z sl Hl) as [[E P]|[[E [P1 P2]]|[i [E [P1 P2]]]]]; rewrite E.
  - exfalso. apply (P 0%nat). apply submergedR. split; [lia|assumption].
  - exfalso. specialize (P2 j Hj). apply submergedR in P2. lra.
  - assert (i = 0%nat).
    { apply (first_submerged_unique z sl i 0 P1). split; [apply submergedR; split; [lia|assumption]|].
      intros; lia. } subst i.
    numR. rewrite Hi. cbn [bind].
    rewrite (pynth_nat x 0 0) by lia. change (Z.of_nat 0 - 1)%Z with (-1)%Z. rewrite (pynth_last x 0) by assumption.
    assert (Hfa : f (nth (length x - 1) x 0) = nth (length z - 1) z 0 - sl).
    { rewrite Hf by lia. rewrite Hl. apply nth_shift. lia. }
    assert (Hfb : f (nth 0 x 0) = nth 0 z 0 - sl).
    { rewrite Hf by lia. apply nth_shift. lia. }
    assert (H0l : nth 0 x 0 <= nth (length x - 1) x 0) by (apply increasing_le; [assumption|lia]).
    split; intros Hlast.
    + destruct (scipy_bisect_ok f (nth (length x - 1) x 0) (nth 0 x 0)) as [s [Hs1 [Hs2 _]]].
      * rewrite Hfa; lra.
      * rewrite Hfb; lra.
      * rewrite Rabs_minus_sym, Rabs_right; lra.
      * exists s. split; [exact Hs1|]. revert Hs2. unfold between.
        rewrite Rmin_right, Rmax_left by lra. auto.
    + apply scipy_bisect_same_sign; lra.
Qed.

(** ** shelf edge *)

Lemma bisect_right_spec (x : list R) v : sorted x ->
  (bisect_right x v <= length x)%nat
  /\ (forall i, (i < bisect_right x v)%nat -> nth i x 0 <= v)
  /\ (forall i, (bisect_right x v <= i < length x)%nat -> v < nth i x 0).
Proof.
  intros Hs. unfold bisect_right.
  destruct (bisect_right_loop_spec x v (S (length x)) 0 (length x)) as [H1 [H2 H3]].
  - intros i j Hij. numR. rewrite !Rltb_true, n0R. intros Hv.
    specialize (Hs i j Hij). lra.
  - lia.
  - lia.
  - intros; lia.
  - intros; lia.
  - repeat split.
    + assumption.
    + intros i Hi. specialize (H2 i Hi). numR. apply Rltb_false in H2. rewrite n0R in H2. assumption.
    + intros i Hi. specialize (H3 i Hi). numR. apply Rltb_true in H3. rewrite n0R in H3. assumption.
Qed.

Lemma argmax_spec (l : list R) : l <> [] ->
  (argmax l < length l)%nat
  /\ (forall j, (j < length l)%nat -> nth j l 0 <= nth (argmax l) l 0)
  /\ (forall j, (j < argmax l)%nat -> nth j l 0 < nth (argmax l) l 0).
Proof.
  intros Hne. destruct l as [|a l]; [congruence|].
  destruct (argmax_loop_spec l) with (pre := [a]) (best := 0%nat) (vbest := a) as [H1 [H2 H3]]; numR.
  - intros b. apply Rltb_false; lra.
  - intros b c d. rewrite !Rltb_true. lra.
  - intros b c d. rewrite !Rltb_false. lra.
  - simpl; lia.
  - reflexivity.
  - intros [|j] Hj; simpl in *; [apply Rltb_false; lra|lia].
  - intros; lia.
  - change (argmax (a :: l)) with (argmax_loop (length [a]) 0 a l).
    change ([a] ++ l) with (a :: l) in *. rewrite n0R in *.
    repeat split.
    + assumption.
    + intros j Hj. specialize (H2 j Hj). apply Rltb_false in H2. assumption.
    + intros j Hj. specialize (H3 j Hj). apply Rltb_true in H3. assumption.
Qed.

Lemma lit3R : Q2R 3 = 3.
Proof. unfold Q2R; simpl; lra. Qed.

Theorem find_shelf_edge_spec (x dz : list R) shore alpha :
  alpha <> 0 -> sorted x -> length dz = length x ->
  let seaward j := (j < length x)%nat /\ shore + 3 / alpha < nth j x 0 in
  ((exists k, seaward k
     /\ find_shelf_edge x dz shore alpha = Ok (nth k x 0)
     /\ (forall j, seaward j -> nth j dz 0 <= nth k dz 0)
     /\ (forall j, seaward j -> (j < k)%nat -> nth j dz 0 < nth k dz 0))
   \/ ((forall j, ~ seaward j) /\ find_shelf_edge x dz shore alpha = Err ShelfEdgeError)).
Proof.
  intros Ha Hs Hl seaward. unfold find_shelf_edge. numR. rewrite n0R.
  destruct (Reqb alpha 0) eqn:E; [apply Reqb_true in E; congruence|]. clear E.
  rewrite lit3R. set (v := shore + 3 / alpha).
  destruct (bisect_right_spec x v Hs) as [H1 [H2 H3]].
  set (p := bisect_right x v) in *.
  destruct (Nat.leb_spec (length dz) p) as [L|L].
  - right. split; [|reflexivity]. intros j [Hj1 Hj2]. fold v in Hj2.
    specialize (H2 j ltac:(lia)). lra.
  - left.
    assert (Hk : skipn p dz <> []).
    { intros E. apply (f_equal (@length R)) in E. rewrite skipn_length in E. simpl in E. lia. }
    destruct (argmax_spec _ Hk) as [A1 [A2 A3]]. rewrite skipn_length in A1, A2.
    set (k := argmax (skipn p dz)) in *.
    assert (Hnth : forall j, nth j (skipn p dz) 0 = nth (p + j) dz 0) by (intros; apply nth_skipn').
    assert (Hge : forall j, seaward j -> (p <= j)%nat).
    { intros j [Hj1 Hj2]. destruct (le_lt_dec p j); [assumption|].
      specialize (H2 j ltac:(lia)). fold v in Hj2. lra. }
    exists (k + p)%nat. split; [|split; [|split]].
    + split; [lia|]. fold v. apply H3. lia.
    + rewrite (nth_error_nth' x 0) by lia. reflexivity.
    + intros j Hj. pose proof (Hge j Hj). destruct Hj as [Hj1 Hj2].
      specialize (A2 (j - p)%nat ltac:(lia)). rewrite !Hnth in A2.
      replace (p + (j - p))%nat with j in A2 by lia. rewrite (Nat.add_comm k). exact A2.
    + intros j Hj Hjk. pose proof (Hge j Hj). destruct Hj as [Hj1 Hj2].
      specialize (A3 (j - p)%nat ltac:(lia)). rewrite !Hnth in A3.
      replace (p + (j - p))%nat with j in A3 by lia. rewrite (Nat.add_comm k). exact A3.
Qed.

Lemma find_shelf_edge_zero (x dz : list R) shore :
  find_shelf_edge x dz shore 0 = Err ZeroDivisionError.
Proof.
  unfold find_shelf_edge. numR. rewrite n0R.
  destruct (Reqb 0 0) eqn:E; [reflexivity|]. apply Reqb_false in E. congruence.
Qed.

(** ** ShorelineFinder.update *)

Lemma x_of_column_length (g : grid R) : length (x_of_column g) = g_cols g.
Proof. unfold x_of_column. rewrite map_length, seq_length. reflexivity. Qed.

Lemma x_of_column_nth (g : grid R) j : (j < g_cols g)%nat -> nth j (x_of_column g) 0 = INR j * g_dx g.
Proof.
  intros Hj. unfold x_of_column.
  rewrite nth_map' with (da := 0%nat) by (rewrite seq_length; assumption).
  rewrite seq_nth by assumption. simpl. rewrite nofnat_R. reflexivity.
Qed.

Lemma x_of_column_increasing (g : grid R) : 0 < g_dx g -> increasing (x_of_column g).
Proof.
  intros Hd i j Hij. rewrite x_of_column_length in Hij.
  rewrite !x_of_column_nth by lia. apply Rmult_lt_compat_r; [assumption|]. apply lt_INR; lia.
Qed.

Lemma increasing_sorted x : increasing x -> sorted x.
Proof. intros H i j Hij. apply increasing_le; assumption. Qed.

Lemma shoreline_row_ok interp1d f alpha (x z dz : list R) sl :
  0 < alpha -> x <> [] -> increasing x -> length z = length x -> length dz = length x ->
  nth (length x - 1) x 0 - nth 0 x 0 <= 1000000000000000000 ->
  interp1d x (map (fun a => a - sl) z) = Ok f ->
  interpolates f x (map (fun a => a - sl) z) ->
  sl <= nth 0 z 0 ->
  exists s e, shoreline_row interp1d alpha x sl (z, dz) = Ok (s, e)
    /\ find_shoreline interp1d x z sl = Ok s
    /\ match e with
       | Some v => find_shelf_edge x dz s alpha = Ok v /\ s < v
       | None => find_shelf_edge x dz s alpha = Err ShelfEdgeError
       end.
Proof.
  intros Ha Hne Hx Hl Hdl Hw Hi Hf Hdry.
  destruct (find_shoreline_bracket interp1d f x z sl) as [s [Hs _]]; try assumption.
  unfold shoreline_row. rewrite Hs. cbn [bind].
  destruct (find_shelf_edge_spec x dz s alpha) as [[k [[Hk1 Hk2] [Hk3 _]]]|[_ He]];
    try assumption; try lra.
  - apply increasing_sorted; assumption.
  - rewrite Hk3. numR.
    assert (Hlt : s < nth k x 0).
    { assert (0 < 3 / alpha) by (apply Rdiv_lt_0_compat; lra). lra. }
    pose proof (proj2 (Rltb_true s (nth k x 0)) Hlt) as E. rewrite E.
    exists s, (Some (nth k x 0)). auto.
  - rewrite He. exists s, None. auto.
Qed.

Lemma find_shoreline_no_assert interp1d (x z : list R) sl :
  (forall y, interp1d x y <> Err AssertionError) ->
  find_shoreline interp1d x z sl <> Err AssertionError.
Proof.
  intros Hi. unfold find_shoreline.
  destruct (find_shoreline_index x z sl) as [i|e] eqn:E.
  - specialize (Hi (map (fun a => nsub a sl) z)).
    destruct (interp1d x (map (fun a => nsub a sl) z)) as [f|e]; simpl; [|congruence].
    destruct (pynth x (Z.of_nat i - 1)), (pynth x (Z.of_nat i)); try discriminate.
    unfold scipy_bisect.
    repeat match goal with |- context [if ?b then _ else _] => destruct b end; try discriminate.
    assert (Hb : forall n fa xa dm, bisect_loop n f fa xa dm <> Err AssertionError).
    { induction n; intros; simpl; [discriminate|].
      match goal with |- context [if ?b then Ok _ else _] => destruct b end; [discriminate|].
      apply IHn. }
    apply Hb.
  - unfold find_shoreline_index in E.
    destruct (Nat.eqb (length (where_below 0 z sl)) 0) eqn:E1; [|].
    + inversion E; subst. destruct z, x; try discriminate. destruct (nltb r sl); discriminate.
    + destruct (Nat.eqb (length (where_below 0 z sl)) (length x)).
      * inversion E; subst. destruct z, x; try discriminate. destruct (nltb r sl); discriminate.
      * destruct (where_below 0 z sl); inversion E; subst; discriminate.
Qed.

Lemma shoreline_row_no_assert interp1d alpha (x z dz : list R) sl :
  0 < alpha -> sorted x -> length dz = length x ->
  (forall y, interp1d x y <> Err AssertionError) ->
  shoreline_row interp1d alpha x sl (z, dz) <> Err AssertionError.
Proof.
  intros Ha Hx Hdl Hi. unfold shoreline_row.
  pose proof (find_shoreline_no_assert interp1d x z sl Hi) as Hn.
  destruct (find_shoreline interp1d x z sl) as [s|e]; simpl; [|congruence].
  destruct (find_shelf_edge_spec x dz s alpha) as [[k [[Hk1 Hk2] [Hk3 _]]]|[_ He]];
    try assumption; try lra.
  - rewrite Hk3. numR.
    assert (Hlt : s < nth k x 0).
    { assert (0 < 3 / alpha) by (apply Rdiv_lt_0_compat; lra). lra. }
    pose proof (proj2 (Rltb_true s (nth k x 0)) Hlt) as E. rewrite E. discriminate.
  - rewrite He. discriminate.
Qed.

Lemma mapM_no_err {A B} (f : A -> result B) l e :
  (forall a, In a l -> f a <> Err e) -> mapM f l <> Err e.
Proof.
  induction l as [|a l IH]; simpl; intros H; [discriminate|].
  pose proof (H a (or_introl eq_refl)) as Ha.
  destruct (f a) as [b|e']; simpl; [|congruence].
  specialize (IH (fun a' Ha' => H a' (or_intror Ha'))).
  destruct (mapM f l) as [bs|e']; simpl; congruence.
Qed.

Lemma sorted_x (g : grid R) : 0 < g_dx g -> sorted (x_of_column g).
Proof. intros. apply increasing_sorted, x_of_column_increasing; assumption. Qed.

Theorem shoreline_update_no_assert interp1d alpha (g : grid R) :
  0 < alpha -> 0 < g_dx g ->
  (forall f, node g "sediment_deposit__thickness" = Some f -> shaped (g_rows g + 2) (g_cols g) f) ->
  (forall x y, interp1d x y <> Err AssertionError) ->
  shoreline_update interp1d alpha g <> Err AssertionError.
Proof.
  intros Ha Hd Hsh Hi. unfold shoreline_update, get_profile, node_r, gval_r.
  destruct (node g "topographic__elevation") as [z|]; simpl; [|discriminate].
  destruct (node g "sediment_deposit__thickness") as [dz|]; simpl; [|discriminate].
  destruct (gval g "sea_level__elevation") as [sl|]; simpl; [|discriminate].
  specialize (Hsh dz eq_refl).
  match goal with |- bind ?m _ <> _ => assert (Hm : m <> Err AssertionError) end.
  { apply mapM_no_err. intros [zr dzr] Hin.
    apply shoreline_row_no_assert; auto.
    - apply sorted_x; assumption.
    - apply in_combine_r in Hin. apply shaped_inner in Hsh. destruct Hsh as [_ H2].
      rewrite (H2 _ Hin), x_of_column_length. reflexivity. }
  match goal with |- bind ?m _ <> _ => destruct m as [rows|e]; simpl end; congruence.
Qed.

Lemma rowf_put2 (g : grid R) a b : 
  let g' := put_rowf (put_rowf g "x_of_shore" a) "x_of_shelf_edge" b in
  rowf g' "x_of_shore" = Some a /\ rowf g' "x_of_shelf_edge" = Some b
  /\ at_node g' = at_node g /\ at_grid g' = at_grid g /\ layers g' = layers g.
Proof.
  unfold rowf, put_rowf; cbn [at_row set_at_row at_node at_grid layers].
  repeat split.
  - rewrite !(dget_dset _ String.eqb_eq). reflexivity.
  - rewrite !(dget_dset _ String.eqb_eq). reflexivity.
Qed.

Theorem shoreline_update_ok interp1d alpha (g : grid R) zf dzf sl :
  0 < alpha -> 0 < g_dx g -> (0 < g_cols g)%nat ->
  INR (g_cols g) * g_dx g <= 1000000000000000000 ->
  node g "topographic__elevation" = Some zf -> shaped (g_rows g + 2) (g_cols g) zf ->
  node g "sediment_deposit__thickness" = Some dzf -> shaped (g_rows g + 2) (g_cols g) dzf ->
  gval g "sea_level__elevation" = Some sl ->
  (forall y, length y = g_cols g ->
     exists f, interp1d (x_of_column g) y = Ok f /\ interpolates f (x_of_column g) y) ->
  (forall r, (1 <= r <= g_rows g)%nat -> sl <= at2 0 zf r 0) ->
  exists g' shores edges,
    shoreline_update interp1d alpha g = Ok g'
    /\ rowf g' "x_of_shore" = Some (map Some shores)
    /\ rowf g' "x_of_shelf_edge" = Some edges
    /\ length shores = g_rows g /\ length edges = g_rows g
    /\ (forall r, (r < g_rows g)%nat ->
          find_shoreline interp1d (x_of_column g) (nth (S r) zf []) sl = Ok (nth r shores 0)
          /\ match nth r edges None with
             | Some e => find_shelf_edge (x_of_column g) (nth (S r) dzf []) (nth r shores 0) alpha = Ok e
                         /\ nth r shores 0 < e
             | None => find_shelf_edge (x_of_column g) (nth (S r) dzf []) (nth r shores 0) alpha
                         = Err ShelfEdgeError
             end)
    /\ at_node g' = at_node g /\ at_grid g' = at_grid g /\ layers g' = layers g.
Proof.
  intros Ha Hd Hc Hw Hz Hzs Hdz Hdzs Hsl Hi Hdry.
  unfold shoreline_update, get_profile, node_r, gval_r. rewrite Hz, Hdz, Hsl. cbn [bind].
  pose proof (shaped_inner _ _ _ Hzs) as Hz1. pose proof (shaped_inner _ _ _ Hdzs) as Hd1.
  set (x := x_of_column g).
  assert (Hxl : length x = g_cols g) by apply x_of_column_length.
  assert (Hrow : forall zr dzr, In (zr, dzr) (combine (inner zf) (inner dzf)) ->
     exists s e, shoreline_row interp1d alpha x sl (zr, dzr) = Ok (s, e)
    /\ find_shoreline interp1d x zr sl = Ok s
    /\ match e with
       | Some v => find_shelf_edge x dzr s alpha = Ok v /\ s < v
       | None => find_shelf_edge x dzr s alpha = Err ShelfEdgeError
       end).
  { intros zr dzr Hin.
    pose proof (in_combine_l _ _ _ _ Hin) as Hin1. pose proof (in_combine_r _ _ _ _ Hin) as Hin2.
    assert (Lz : length zr = g_cols g) by (apply Hz1; assumption).
    assert (Ld : length dzr = g_cols g) by (apply Hd1; assumption).
    destruct (Hi (map (fun a => a - sl) zr)) as [f [Hf1 Hf2]]; [rewrite map_length; assumption|].
    apply (shoreline_row_ok interp1d f alpha x zr dzr sl); try assumption.
    - intros E. rewrite E in Hxl. simpl in Hxl. lia.
    - apply x_of_column_increasing; assumption.
    - congruence.
    - congruence.
    - unfold x. rewrite x_of_column_length, !x_of_column_nth by lia. simpl INR.
      assert (INR (g_cols g - 1) <= INR (g_cols g)) by (apply le_INR; lia).
      assert (INR (g_cols g - 1) * g_dx g <= INR (g_cols g) * g_dx g)
        by (apply Rmult_le_compat_r; lra).
      lra.
    - apply In_nth with (d := []) in Hin1. destruct Hin1 as [i [Hi1 <-]].
      rewrite (shaped_len _ _ _ Hz1) in Hi1.
      specialize (Hdry (S i) ltac:(lia)). unfold at2 in Hdry.
      rewrite nth_inner by (rewrite (shaped_len _ _ _ Hzs); lia). exact Hdry. }
  destruct (mapM_ok (shoreline_row interp1d alpha x sl) (combine (inner zf) (inner dzf)))
    as [rows Hrows].
  { intros [zr dzr] Hin. destruct (Hrow zr dzr Hin) as [s [e [E _]]]. eauto. }
  rewrite Hrows. cbn [bind].
  assert (Hcl : length (combine (inner zf) (inner dzf)) = g_rows g).
  { rewrite combine_length, (shaped_len _ _ _ Hz1), (shaped_len _ _ _ Hd1). lia. }
  assert (Hrl : length rows = g_rows g) by (rewrite (mapM_length _ _ _ Hrows); assumption).
  destruct (rowf_put2 g (map (fun p : R * option R => Some (fst p)) rows) (map snd rows))
    as [E1 [E2 [E3 [E4 E5]]]].
  eexists _, (map fst rows), (map snd rows).
  split; [reflexivity|]. split; [rewrite map_map; exact E1|]. split; [exact E2|].
  split; [rewrite map_length; assumption|]. split; [rewrite map_length; assumption|].
  split; [|auto].
  intros r Hr.
  pose proof (mapM_nth _ _ _ ([], []) (0, None) Hrows r ltac:(lia)) as Hn.
  assert (Hcn : nth r (combine (inner zf) (inner dzf)) ([], []) = (nth (S r) zf [], nth (S r) dzf [])).
  { rewrite combine_nth by (rewrite (shaped_len _ _ _ Hz1), (shaped_len _ _ _ Hd1); reflexivity).
    rewrite !nth_inner by (rewrite ?(shaped_len _ _ _ Hzs), ?(shaped_len _ _ _ Hdzs); lia). reflexivity. }
  assert (Hin : In (nth (S r) zf [], nth (S r) dzf []) (combine (inner zf) (inner dzf))).
  { rewrite <- Hcn. apply nth_In. lia. }
  destruct (Hrow _ _ Hin) as [s [e [F1 [F2 F3]]]].
  rewrite Hcn, F1 in Hn. inversion Hn as [Hn'].
  assert (Hs : nth r (map fst rows) 0 = s).
  { rewrite nth_map' with (da := (0, None)) by lia. rewrite <- Hn'. reflexivity. }
  assert (He : nth r (map snd rows) None = e).
  { rewrite nth_map' with (da := (0, None)) by lia. rewrite <- Hn'. reflexivity. }
  rewrite Hs, He. auto.
Qed.
