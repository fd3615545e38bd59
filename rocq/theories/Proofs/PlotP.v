(** Outlines of layers. *)
From Coq Require Import String List ZArith Reals Lra Lia Arith Bool.
From Verif.Base Require Import Num Py Arr.
From Verif.Model Require Import Layers Interp Plot.
From Verif.Spec Require Import Profile Polygon.
From Verif.Proofs Require Import InterpP.
Import ListNotations.

(** ** Walks *)

Inductive leads : nat -> list nat -> nat -> Prop :=
| leads_nil a : leads a [] a
| leads_cons a c l b : neighbours a c -> leads c l b -> leads a (a :: l) b.

Lemma leads_app a l1 b l2 c : leads a l1 b -> leads b l2 c -> leads a (l1 ++ l2) c.
Proof. induction 1; intros; cbn; [assumption|econstructor; eauto]. Qed.
Lemma leads_nth a l b : leads a l b -> nth 0 l b = a /\ forall i, i < length l -> neighbours (nth i l b) (nth (S i) l b).
Proof.
  induction 1 as [a|a c l b Hn Hl [IH0 IH]]; [split; [reflexivity|cbn; intros; lia]|]. split; [reflexivity|].
  intros [|i] Hi; cbn [nth].
  - rewrite IH0. exact Hn.
  - apply IH. cbn in Hi. lia.
Qed.
Lemma leads_closed a l : leads a l a -> closed_walk l.
Proof.
  intros HL i Hi. destruct (leads_nth _ _ _ HL) as [H0 H1]. specialize (H1 i Hi).
  rewrite (nth_indep l 0 a Hi).
  assert (Hm : S i mod length l < length l) by (apply Nat.mod_upper_bound; lia).
  rewrite (nth_indep l 0 a Hm). destruct (Nat.eq_dec (S i) (length l)) as [E|E].
  - rewrite E, Nat.mod_same by lia. rewrite H0. rewrite E in H1. rewrite (nth_overflow l a (le_n (length l))) in H1. exact H1.
  - rewrite Nat.mod_small by lia. exact H1.
Qed.

(* from a towards b, without b *)
Definition path (a b : nat) : list nat := if Nat.leb a b then seq a (b - a) else rev (seq (S b) (a - b)).

Lemma leads_up a k : leads a (seq a k) (a + k).
Proof.
  revert a. induction k as [|k IH]; intros a; cbn [seq]; [rewrite Nat.add_0_r; constructor|].
  apply leads_cons with (S a); [right; right; reflexivity|]. replace (a + S k) with (S a + k) by lia. apply IH.
Qed.
Lemma leads_down b k : leads (b + k) (rev (seq (S b) k)) b.
Proof.
  induction k as [|k IH]; [cbn; rewrite Nat.add_0_r; constructor|].
  rewrite seq_S, rev_app_distr. cbn [rev app]. replace (S b + k) with (b + S k) by lia.
  apply leads_cons with (b + k); [right; left; lia|exact IH].
Qed.
Lemma leads_path a b : leads a (path a b) b.
Proof.
  unfold path. destruct (Nat.leb a b) eqn:E.
  - apply Nat.leb_le in E. replace b with (a + (b - a)) at 2 by lia. apply leads_up.
  - apply Nat.leb_gt in E. replace a with (b + (a - b)) at 1 by lia. apply leads_down.
Qed.
Lemma path_In a b c : In c (path a b) <-> between a b c /\ c <> b.
Proof.
  unfold path, between. destruct (Nat.leb a b) eqn:E; [apply Nat.leb_le in E|apply Nat.leb_gt in E; rewrite <- in_rev]; rewrite in_seq; lia.
Qed.

(** ** Slices *)

Lemma slice_map {B C} (f : B -> C) a b l : slice a b (map f l) = map f (slice a b l).
Proof. unfold slice. rewrite skipn_map, firstn_map. reflexivity. Qed.
Lemma skipn_seq a s n : skipn a (seq s n) = seq (s + a) (n - a).
Proof.
  revert a s. induction n as [|n IH]; intros [|a] s; try reflexivity.
  - rewrite Nat.add_0_r. reflexivity.
  - cbn [skipn seq]. rewrite IH. f_equal; lia.
Qed.
Lemma firstn_seq a s n : firstn a (seq s n) = seq s (Nat.min a n).
Proof. revert s n. induction a as [|a IH]; intros s [|n]; cbn; try reflexivity. rewrite IH. reflexivity. Qed.
Lemma slice_seq a b n : slice a b (seq 0 n) = seq a (Nat.min b n - a).
Proof. unfold slice. rewrite skipn_seq, firstn_seq. f_equal. lia. Qed.
Lemma removelast_map {B C} (f : B -> C) l : removelast (map f l) = map f (removelast l).
Proof. induction l as [|b [|b' l] IH]; [reflexivity..|]. cbn [map] in *. cbn [removelast]. cbn [removelast] in IH. rewrite IH. reflexivity. Qed.
Lemma removelast_seq a k : removelast (seq a k) = seq a (k - 1).
Proof.
  destruct k as [|k]; [reflexivity|]. rewrite seq_S, removelast_last. f_equal. lia.
Qed.
Lemma removelast_rev_seq a k : removelast (rev (seq a k)) = rev (seq (S a) (k - 1)).
Proof.
  destruct k as [|k]; [reflexivity|]. cbn [seq rev]. rewrite removelast_last. f_equal. f_equal. lia.
Qed.
Lemma list_columns {B} (d : B) l : l = map (fun i => nth i l d) (seq 0 (length l)).
Proof.
  apply nth_ext with d d; [rewrite map_length, seq_length; reflexivity|].
  intros i Hi. rewrite (nth_indep (map _ _) d (nth 0 l d)) by (rewrite map_length, seq_length; exact Hi).
  rewrite (map_nth (fun i => nth i l d)). rewrite seq_nth by exact Hi. reflexivity.
Qed.

Definition clip (n a : nat) : nat := Nat.min a (n - 1).

(* the columns of the part of a side *)
Definition part (n from to_ : nat) : list nat :=
  if Nat.ltb to_ from then rev (slice to_ (S from) (seq 0 n)) else slice from (S to_) (seq 0 n).
Lemma part_path n from to_ : from <= n -> to_ <= n -> removelast (part n from to_) = path (clip n from) (clip n to_).
Proof.
  intros H1 H2. unfold part, path, clip. rewrite !slice_seq.
  destruct (Nat.ltb to_ from) eqn:E; [apply Nat.ltb_lt in E|apply Nat.ltb_ge in E].
  - rewrite removelast_rev_seq. destruct (Nat.leb (Nat.min from (n - 1)) (Nat.min to_ (n - 1))) eqn:L; [apply Nat.leb_le in L|apply Nat.leb_gt in L].
    + replace (Nat.min (S from) n - to_ - 1) with 0 by lia. replace (Nat.min to_ (n - 1) - Nat.min from (n - 1)) with 0 by lia. reflexivity.
    + f_equal. f_equal; lia.
  - rewrite removelast_seq. destruct (Nat.leb (Nat.min from (n - 1)) (Nat.min to_ (n - 1))) eqn:L; [apply Nat.leb_le in L|apply Nat.leb_gt in L; lia].
    destruct (Nat.eq_dec from n) as [->|].
    + replace (Nat.min (S to_) n - n - 1) with 0 by lia. replace (Nat.min to_ (n - 1) - Nat.min n (n - 1)) with 0 by lia. reflexivity.
    + f_equal; lia.
Qed.
Lemma part_ends n from to_ : from <= n -> to_ <= n -> part n from to_ <> [] ->
  hd 0 (part n from to_) = clip n from /\ last (part n from to_) 0 = clip n to_.
Proof.
  intros H1 H2. unfold part, clip. rewrite !slice_seq.
  assert (L : forall a k, k <> 0 -> last (seq a k) 0 = a + k - 1).
  { intros a [|k] Hk; [lia|]. rewrite seq_S, last_last. lia. }
  assert (Rh : forall l : list nat, hd 0 (rev l) = last l 0).
  { intros l. induction l using rev_ind; [reflexivity|]. rewrite rev_app_distr, last_last. reflexivity. }
  assert (Rl : forall l : list nat, last (rev l) 0 = hd 0 l).
  { intros [|a l]; [reflexivity|]. cbn [rev]. rewrite last_last. reflexivity. }
  destruct (Nat.ltb to_ from) eqn:E; [apply Nat.ltb_lt in E|apply Nat.ltb_ge in E]; intros Hne.
  - destruct (Nat.min (S from) n - to_) as [|k] eqn:K; [elim Hne; reflexivity|].
    rewrite Rh, Rl, L by lia. cbn [seq hd]. lia.
  - destruct (Nat.min (S to_) n - from) as [|k] eqn:K; [elim Hne; reflexivity|].
    rewrite L by lia. cbn [seq hd]. lia.
Qed.
Lemma part_In n from to_ c : from <= n -> to_ <= n -> In c (part n from to_) -> between (clip n from) (clip n to_) c /\ c < n.
Proof.
  intros H1 H2. unfold part, clip, between. rewrite !slice_seq.
  destruct (Nat.ltb to_ from) eqn:E; [apply Nat.ltb_lt in E; rewrite <- in_rev|apply Nat.ltb_ge in E]; rewrite in_seq; lia.
Qed.

(** ** Sides *)

Local Open Scope R_scope.

Lemma fraction_spec a b v : a <> b -> Rmin a b <= v <= Rmax a b -> fraction a b v = Ok ((v - a) / (b - a)).
Proof.
  intros Hab Hv. unfold fraction. cbn [nltb Num_R]. destruct (Rltb b a) eqn:E.
  - apply Rltb_true in E. rewrite Rmin_right, Rmax_left in Hv by lra.
    rewrite (interp_linear_spec [b; a] [n1; n0] v 0).
    + cbn [nth]. f_equal. unfold lerp. rewrite n0_R, n1_R. field. lra.
    + intros i j Hij. cbn in Hij. assert (i = 0%nat /\ j = 1%nat) as [-> ->] by lia. exact E.
    + reflexivity.
    + cbn. lia.
    + cbn [nth]. lra.
  - apply Rltb_false in E. assert (a < b) by lra. rewrite Rmin_left, Rmax_right in Hv by lra.
    rewrite (interp_linear_spec [a; b] [n0; n1] v 0).
    + cbn [nth]. f_equal. unfold lerp. rewrite n0_R, n1_R. field. lra.
    + intros i j Hij. cbn in Hij. assert (i = 0%nat /\ j = 1%nat) as [-> ->] by lia. assumption.
    + reflexivity.
    + cbn. lia.
    + cbn [nth]. lra.
Qed.

(* the height of a side at column c *)
Definition mix (x y_from y_to : list R) (from to_ c : nat) : R :=
  nth c y_from 0 + (nth c y_to 0 - nth c y_from 0) * ((nth c x 0 - nth from x 0) / (nth to_ x 0 - nth from x 0)).

Lemma increasing_inj x i j : increasing x -> (i < length x)%nat -> (j < length x)%nat -> nth i x 0 = nth j x 0 -> i = j.
Proof.
  intros Hx Hi Hj E. destruct (lt_eq_lt_dec i j) as [[L|]|L]; [|assumption|]; exfalso.
  - assert (nth i x 0 < nth j x 0) by (apply Hx; lia). lra.
  - assert (nth j x 0 < nth i x 0) by (apply Hx; lia). lra.
Qed.

Lemma between_x x a b c : increasing x -> (a < length x)%nat -> (b < length x)%nat -> between a b c ->
  Rmin (nth a x 0) (nth b x 0) <= nth c x 0 <= Rmax (nth a x 0) (nth b x 0).
Proof.
  intros Hx Ha Hb [H1 H2]. destruct (le_dec a b) as [L|L].
  - rewrite Nat.min_l in H1 by lia. rewrite Nat.max_r in H2 by lia.
    pose proof (increasing_le' x a b Hx ltac:(lia)). pose proof (increasing_le' x a c Hx ltac:(lia)). pose proof (increasing_le' x c b Hx ltac:(lia)).
    rewrite Rmin_left, Rmax_right by lra. lra.
  - rewrite Nat.min_r in H1 by lia. rewrite Nat.max_l in H2 by lia.
    pose proof (increasing_le' x b a Hx ltac:(lia)). pose proof (increasing_le' x b c Hx ltac:(lia)). pose proof (increasing_le' x c a Hx ltac:(lia)).
    rewrite Rmin_right, Rmax_left by lra. lra.
Qed.

Lemma mix_bounds x y_from y_to a b c : increasing x -> (a < length x)%nat -> (b < length x)%nat -> a <> b -> between a b c ->
  Rmin (nth c y_from 0) (nth c y_to 0) <= mix x y_from y_to a b c <= Rmax (nth c y_from 0) (nth c y_to 0).
Proof.
  intros Hx Ha Hb Hab Hc. pose proof (between_x x a b c Hx Ha Hb Hc) as Hv.
  assert (Hne : nth a x 0 <> nth b x 0) by (intros E; apply Hab; apply (increasing_inj x); assumption).
  unfold mix. set (t := (nth c x 0 - nth a x 0) / (nth b x 0 - nth a x 0)).
  assert (Ht : 0 <= t <= 1).
  { unfold t. destruct (Rlt_le_dec (nth a x 0) (nth b x 0)) as [L|L].
    - rewrite Rmin_left, Rmax_right in Hv by lra. split.
      + apply Rmult_le_reg_r with (nth b x 0 - nth a x 0); [lra|]. unfold Rdiv. rewrite Rmult_assoc, Rinv_l by lra. lra.
      + apply Rmult_le_reg_r with (nth b x 0 - nth a x 0); [lra|]. unfold Rdiv. rewrite Rmult_assoc, Rinv_l by lra. lra.
    - rewrite Rmin_right, Rmax_left in Hv by lra.
      replace ((nth c x 0 - nth a x 0) / (nth b x 0 - nth a x 0)) with ((nth a x 0 - nth c x 0) / (nth a x 0 - nth b x 0)) by (field; lra).
      split.
      + apply Rmult_le_reg_r with (nth a x 0 - nth b x 0); [lra|]. unfold Rdiv. rewrite Rmult_assoc, Rinv_l by lra. lra.
      + apply Rmult_le_reg_r with (nth a x 0 - nth b x 0); [lra|]. unfold Rdiv. rewrite Rmult_assoc, Rinv_l by lra. lra. }
  clearbody t. set (p := nth c y_from 0). set (q := nth c y_to 0).
  unfold Rmin, Rmax. destruct (Rle_dec p q); nra.
Qed.

Lemma mapM_all {B C} (f : B -> result C) (g : B -> C) l : (forall b, In b l -> f b = Ok (g b)) -> mapM f l = Ok (map g l).
Proof.
  induction l as [|b l IH]; intros Hl; [reflexivity|]. cbn. rewrite (Hl b) by (left; reflexivity). cbn.
  rewrite IH by (intros; apply Hl; right; assumption). reflexivity.
Qed.

Lemma combine_map {B C D} (f : B -> C) (g : B -> D) l : combine (map f l) (map g l) = map (fun b => (f b, g b)) l.
Proof. induction l; cbn; [reflexivity|f_equal; assumption]. Qed.

Lemma side_spec x y_from y_to from to_ : increasing x -> length y_from = length x -> length y_to = length x ->
  (from <= length x)%nat -> (to_ <= length x)%nat ->
  let n := length x in
  let cs := path (clip n from) (clip n to_) in
  side x y_from y_to from to_ = Ok (map (fun c => nth c x 0) cs, map (mix x y_from y_to (clip n from) (clip n to_)) cs).
Proof.
  intros Hx Hf Ht H1 H2 n cs. unfold side.
  set (pt := fun l : list R => if Nat.ltb to_ from then rev (slice to_ (S from) l) else slice from (S to_) l).
  assert (Hp : forall l, length l = n -> pt l = map (fun c => nth c l 0) (part n from to_)).
  { intros l Hl. pose proof (list_columns 0 l) as E. rewrite Hl in E.
    transitivity (pt (map (fun c => nth c l 0) (seq 0 n))); [rewrite <- E; reflexivity|].
    unfold pt, part. destruct (Nat.ltb to_ from); rewrite slice_map; [rewrite map_rev|]; reflexivity. }
  change ((let* y := interp_between (pt x) (pt y_from) (pt y_to) in Ok (removelast (pt x), removelast y))
    = Ok (map (fun c => nth c x 0) cs, map (mix x y_from y_to (clip n from) (clip n to_)) cs)).
  rewrite (Hp x eq_refl), (Hp y_from Hf), (Hp y_to Ht).
  pose proof (part_path n from to_ H1 H2) as Ep. pose proof (part_ends n from to_ H1 H2) as Ee.
  pose proof (fun c => part_In n from to_ c H1 H2) as Ei.
  fold n in cs. fold cs in Ep. set (P := part n from to_) in *. clearbody P.
  unfold interp_between. destruct P as [|c0 [|c1 P]].
  - cbn. cbn in Ep. rewrite <- Ep. reflexivity.
  - cbn in *. rewrite <- Ep. reflexivity.
  - destruct (Ee ltac:(discriminate)) as [Ehd Elast].
    assert (Hl : lastn (map (fun c => nth c x 0) (c0 :: c1 :: P)) n0 = nth (clip n to_) x 0).
    { rewrite <- Elast. unfold lastn. rewrite map_length. rewrite (nth_indep _ n0 (nth 0%nat x 0)) by (rewrite map_length; cbn; lia).
      rewrite (map_nth (fun c => nth c x 0)). f_equal.
      clear. generalize (c1 :: P). intros l. cbn [length]. rewrite Nat.sub_succ, Nat.sub_0_r. revert c0.
      induction l as [|a l IH]; intros c0; [reflexivity|]. change (last (c0 :: a :: l) 0%nat) with (last (a :: l) 0%nat). rewrite <- IH. reflexivity. }
    assert (Hc0 : c0 = clip n from) by exact Ehd.
    assert (Hn : (1 <= n)%nat) by (pose proof (proj2 (Ei c0 (or_introl eq_refl))); lia).
    assert (Hne : clip n from <> clip n to_).
    { intros E. assert (In c0 cs) by (rewrite <- Ep; left; reflexivity). unfold cs in H. apply path_In in H.
      unfold between in H. rewrite E in H. rewrite E in Hc0. lia. }
    assert (Hm : mapM (fun xy : R * (R * R) => let* w := fraction (nth c0 x 0) (lastn (map (fun c => nth c x 0) (c0 :: c1 :: P)) n0) (fst xy) in
                        Ok (fst (snd xy) + (snd (snd xy) - fst (snd xy)) * w)%num)
          (combine (map (fun c => nth c x 0) (c0 :: c1 :: P))
             (combine (map (fun c => nth c y_from 0) (c0 :: c1 :: P)) (map (fun c => nth c y_to 0) (c0 :: c1 :: P))))
        = Ok (map (mix x y_from y_to (clip n from) (clip n to_)) (c0 :: c1 :: P))).
    { rewrite !combine_map. rewrite Hl, Hc0. rewrite <- Hc0 at 2.
      rewrite (mapM_all _ (fun xy => fst (snd xy) + (snd (snd xy) - fst (snd xy)) * ((fst xy - nth (clip n from) x 0) / (nth (clip n to_) x 0 - nth (clip n from) x 0)))).
      - rewrite map_map. rewrite Hc0. reflexivity.
      - intros b Hb. apply in_map_iff in Hb. destruct Hb as [c [<- Hc]]. cbn [fst snd].
        rewrite <- Hc0 in Hc. destruct (Ei c Hc) as [Hbt Hcn].
        rewrite fraction_spec.
        + reflexivity.
        + intros E. apply Hne. apply (increasing_inj x); [assumption|unfold clip; fold n; lia..|assumption].
        + apply between_x; [assumption|unfold clip; fold n; lia..|assumption]. }
    cbn [map]. cbn [map] in Hm. rewrite Hm. cbn [bind].
    change (nth c0 x 0 :: nth c1 x 0 :: map (fun c => nth c x 0) P) with (map (fun c => nth c x 0) (c0 :: c1 :: P)).
    change (mix x y_from y_to (clip n from) (clip n to_) c0 :: mix x y_from y_to (clip n from) (clip n to_) c1 :: map (mix x y_from y_to (clip n from) (clip n to_)) P)
      with (map (mix x y_from y_to (clip n from) (clip n to_)) (c0 :: c1 :: P)).
    rewrite !removelast_map, Ep. reflexivity.
Qed.

(** ** The whole outline *)


Definition vertices (x bottom top : list R) (b0 b1 t0 t1 : nat) : list (nat * R) :=
  let n := length x in
  map (fun c => (c, nth c top 0)) (path (clip n t1) (clip n t0))
  ++ map (fun c => (c, mix x top bottom (clip n t0) (clip n b0) c)) (path (clip n t0) (clip n b0))
  ++ map (fun c => (c, nth c bottom 0)) (seq b0 (Nat.min b1 n - b0))
  ++ map (fun c => (c, mix x bottom top (clip n b1) (clip n t1) c)) (path (clip n b1) (clip n t1)).

Lemma outline_vertices x bottom top b0 b1 t0 t1 : increasing x -> length bottom = length x -> length top = length x ->
  ordered (length x) b0 b1 -> ordered (length x) t0 t1 ->
  outline_layer x bottom top (Some (Some b0, Some b1)) (Some (Some t0, Some t1))
  = Ok (map (fun v => nth (fst v) x 0) (vertices x bottom top b0 b1 t0 t1), map snd (vertices x bottom top b0 b1 t0 t1)).
Proof.
  intros Hx Hb Ht H1 H2. unfold ordered in *. unfold outline_layer. cbn [limits].
  rewrite (side_spec x top bottom t0 b0), (side_spec x bottom top b1 t1) by (assumption || lia). cbn [bind fst snd].
  assert (Hd : forall l, length l = length x -> slice_down t1 t0 l = map (fun c => nth c l 0) (path (clip (length x) t1) (clip (length x) t0))).
  { intros l Hl. unfold slice_down. rewrite (list_columns 0 l) at 1. rewrite Hl, slice_map, <- map_rev, slice_seq. f_equal.
    unfold path, clip. destruct (Nat.leb (Nat.min t1 (length x - 1)) (Nat.min t0 (length x - 1))) eqn:L; [apply Nat.leb_le in L|apply Nat.leb_gt in L].
    - replace (Nat.min (S t1) (length x) - S t0)%nat with 0%nat by lia.
      replace (Nat.min t0 (length x - 1) - Nat.min t1 (length x - 1))%nat with 0%nat by lia. reflexivity.
    - f_equal. f_equal; lia. }
  assert (Hs : forall l, length l = length x -> slice b0 b1 l = map (fun c => nth c l 0) (seq b0 (Nat.min b1 (length x) - b0))).
  { intros l Hl. rewrite (list_columns 0 l) at 1. rewrite Hl, slice_map, slice_seq. reflexivity. }
  rewrite !Hd, !Hs by (assumption || reflexivity).
  unfold vertices. rewrite !map_app, !map_map. cbn [fst snd]. reflexivity.
Qed.

Lemma vertices_closed x bottom top b0 b1 t0 t1 : ordered (length x) b0 b1 -> ordered (length x) t0 t1 ->
  closed_walk (map fst (vertices x bottom top b0 b1 t0 t1)).
Proof.
  intros H1 H2. unfold ordered in *. apply leads_closed with (clip (length x) t1). unfold vertices. rewrite !map_app, !map_map. cbn [fst].
  rewrite !map_id. apply leads_app with (clip (length x) t0); [apply leads_path|].
  apply leads_app with (clip (length x) b0); [apply leads_path|].
  apply leads_app with (clip (length x) b1); [|apply leads_path].
  set (n := length x) in *. destruct (Nat.eq_dec b0 n) as [->|Hb0].
  - replace (Nat.min b1 n - n)%nat with 0%nat by lia. replace (clip n b1) with (clip n n) by (unfold clip; lia). constructor.
  - unfold clip at 1. rewrite Nat.min_l by lia. destruct (Nat.eq_dec b1 n) as [->|Hb1].
    + rewrite Nat.min_id. replace (n - b0)%nat with (S (n - 1 - b0)) by lia. rewrite seq_S.
      apply leads_app with (n - 1)%nat; [replace (n - 1)%nat with (b0 + (n - 1 - b0))%nat at 2 by lia; apply leads_up|].
      replace (b0 + (n - 1 - b0))%nat with (n - 1)%nat by lia. unfold clip. rewrite Nat.min_r by lia.
      apply leads_cons with (n - 1)%nat; [left; reflexivity|constructor].
    + unfold clip. rewrite !Nat.min_l by lia. replace b1 with (b0 + (b1 - b0))%nat at 2 by lia. apply leads_up.
Qed.

Theorem outline_spec x bottom top b0 b1 t0 t1 : increasing x -> length bottom = length x -> length top = length x ->
  ordered (length x) b0 b1 -> ordered (length x) t0 t1 ->
  exists xs ys, outline_layer x bottom top (Some (Some b0, Some b1)) (Some (Some t0, Some t1)) = Ok (xs, ys)
  /\ outlines x bottom top b0 b1 t0 t1 xs ys.
Proof.
  intros Hx Hb Ht H1 H2. rewrite outline_vertices by assumption. unfold ordered in H1, H2. set (vs := vertices x bottom top b0 b1 t0 t1).
  do 2 eexists. split; [reflexivity|]. exists (map fst vs). rewrite !map_length.
  assert (Hc : combine (map (fun v : nat * R => nth (fst v) x 0) vs) (map snd vs) = map (fun v => (nth (fst v) x 0, snd v)) vs) by apply combine_map.
  rewrite Hc. do 2 (split; [reflexivity|]). split; [apply vertices_closed; unfold ordered; assumption|].
  assert (Hin : forall c y, In (c, y) vs -> In (nth c x 0, y) (map (fun v => (nth (fst v) x 0, snd v)) vs)).
  { intros c y Hv. apply in_map_iff. exists (c, y). split; [reflexivity|exact Hv]. }
  split; [|split; [|split; [|split]]].
  - intros i Hi c.
    assert (E0 : nth i (map fst vs) 0%nat = fst (nth i vs (0%nat, 0))) by (change 0%nat with (fst (0%nat, 0)) at 1; apply map_nth).
    assert (E1 : nth i (map (fun v : nat * R => nth (fst v) x 0) vs) 0 = nth c x 0).
    { rewrite (nth_indep _ 0 ((fun v : nat * R => nth (fst v) x 0) (0%nat, 0))) by (rewrite map_length; exact Hi).
      rewrite (map_nth (fun v : nat * R => nth (fst v) x 0)). unfold c. rewrite E0. reflexivity. }
    assert (E2 : nth i (map snd vs) 0 = snd (nth i vs (0%nat, 0))) by (change 0 with (snd (0%nat, 0)) at 1; apply map_nth).
    assert (Hv : In (c, nth i (map snd vs) 0) vs).
    { unfold c. rewrite E0, E2, <- surjective_pairing. apply nth_In. exact Hi. }
    rewrite E1. clear E0 E1 E2. set (y := nth i (map snd vs) 0) in *. clearbody y. clearbody c. set (n := length x) in *.
    unfold vs, vertices in Hv. fold n in Hv.
    assert (Hself : forall a b : R, Rmin a b <= a <= Rmax a b /\ Rmin a b <= b <= Rmax a b).
    { intros a b. pose proof (Rmin_l a b). pose proof (Rmin_r a b). pose proof (Rmax_l a b). pose proof (Rmax_r a b). lra. }
    rewrite !in_app_iff, !in_map_iff in Hv. destruct Hv as [[c' [E Hv]]|[[c' [E Hv]]|[[c' [E Hv]]|[c' [E Hv]]]]]; injection E as -> <-.
    + apply path_In in Hv. unfold between, clip in Hv. split; [lia|]. split; [lia|]. split; [reflexivity|]. apply Hself.
    + apply path_In in Hv. assert (Hv' := Hv). unfold between, clip in Hv'. split; [lia|]. split; [lia|]. split; [reflexivity|].
      rewrite (Rmin_comm (nth c bottom 0)), (Rmax_comm (nth c bottom 0)).
      apply mix_bounds; [assumption|unfold clip; fold n; lia..|apply Hv].
    + apply in_seq in Hv. split; [lia|]. split; [lia|]. split; [reflexivity|]. apply Hself.
    + apply path_In in Hv. assert (Hv' := Hv). unfold between, clip in Hv'. split; [lia|]. split; [lia|]. split; [reflexivity|].
      apply mix_bounds; [assumption|unfold clip; fold n; lia..|apply Hv].
  - intros c Hc1 Hc2. apply Hin. unfold vs, vertices. rewrite !in_app_iff. left. apply in_map_iff. exists c. split; [reflexivity|].
    apply path_In. unfold between, clip. lia.
  - intros c Hc1 Hc2. apply Hin. unfold vs, vertices. rewrite !in_app_iff. right. right. left. apply in_map_iff. exists c. split; [reflexivity|].
    apply in_seq. lia.
  - intros c Hc1 Hc2 Hc3 Hc4. apply Hin. unfold vs, vertices. rewrite !in_app_iff. right. left. apply in_map_iff. exists c.
    unfold clip. rewrite !(Nat.min_l _ (length x - 1)) by lia. split; [reflexivity|]. apply path_In. split; assumption.
  - intros c Hc1 Hc2 Hc3 Hc4. apply Hin. unfold vs, vertices. rewrite !in_app_iff. right. right. right. apply in_map_iff. exists c.
    unfold clip. rewrite !(Nat.min_l _ (length x - 1)) by lia. split; [reflexivity|]. apply path_In. split; assumption.
Qed.

Lemma outline_defaults (x bottom top : list R) a b l :
  let last := (length x - 1)%nat in
  outline_layer x bottom top None l = outline_layer x bottom top (Some (Some 0%nat, Some last)) l
  /\ outline_layer x bottom top l None = outline_layer x bottom top l (Some (Some 0%nat, Some last))
  /\ outline_layer x bottom top (Some (None, b)) l = outline_layer x bottom top (Some (Some 0%nat, b)) l
  /\ outline_layer x bottom top l (Some (None, b)) = outline_layer x bottom top l (Some (Some 0%nat, b))
  /\ outline_layer x bottom top (Some (a, None)) l = outline_layer x bottom top (Some (a, Some last)) l
  /\ outline_layer x bottom top l (Some (a, None)) = outline_layer x bottom top l (Some (a, Some last)).
Proof. repeat split. Qed.
