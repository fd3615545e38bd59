(** Which layers are drawn, and the regions of plot_layers. *)
From Coq Require Import String List ZArith Reals Lra Lia Arith Bool FinFun.
From Verif.Base Require Import Num Py Arr.
From Verif.Model Require Import Layers Interp Plot.
From Verif.Spec Require Import Profile Polygon Drawn.
From Verif.Proofs Require Import InterpP PlotP SequenceP.
Import ListNotations.
Local Open Scope nat_scope.

Lemma trunc_div a b : (0 <= a)%Z -> (0 < b)%Z -> Rtrunc (IZR a / IZR b) = (a / b)%Z.
Proof.
  intros Ha Hb. assert (Hb' : (0 < IZR b)%R) by (apply IZR_lt; exact Hb). assert (Ha' : (0 <= IZR a)%R) by (apply IZR_le; exact Ha).
  unfold Rtrunc. destruct (Rle_dec 0 (IZR a / IZR b)) as [_|N].
  - apply Int_part_unique. pose proof (Z.div_mod a b ltac:(lia)) as E. pose proof (Z.mod_pos_bound a b Hb) as M.
    assert (E' : IZR a = (IZR b * IZR (a / b) + IZR (a mod b))%R) by (rewrite <- mult_IZR, <- plus_IZR; f_equal; exact E).
    assert (M1 : (0 <= IZR (a mod b))%R) by (apply IZR_le; lia). assert (M2 : (IZR (a mod b) < IZR b)%R) by (apply IZR_lt; lia).
    assert (F : (IZR a / IZR b = IZR (a / b) + IZR (a mod b) / IZR b)%R) by (rewrite E'; field; lra).
    assert (D : (0 <= IZR (a mod b) / IZR b < 1)%R).
    { split.
      - apply Rmult_le_reg_r with (IZR b); [lra|]. unfold Rdiv. rewrite Rmult_assoc, Rinv_l by lra. lra.
      - apply Rmult_lt_reg_r with (IZR b); [lra|]. unfold Rdiv. rewrite Rmult_assoc, Rinv_l by lra. lra. }
    lra.
  - exfalso. apply N. apply Rmult_le_reg_r with (IZR b); [lra|]. unfold Rdiv. rewrite Rmult_assoc, Rinv_l by lra. lra.
Qed.
Lemma nofZ_R z : (nofZ z : R) = IZR z.
Proof. unfold nofZ. cbn [nlit Num_R]. unfold Q2R. cbn. lra. Qed.

Lemma slice_indices_spec n start stop step : (0 <= start <= stop)%Z -> (stop <= Z.of_nat n)%Z -> (1 <= step)%Z ->
  let sel := slice_indices n (start, stop, step) in
  (forall i, In i sel <-> (start <= Z.of_nat i < stop)%Z /\ (step | Z.of_nat i - start)%Z)
  /\ NoDup sel
  /\ (Z.of_nat (length sel) = (stop - start + step - 1) / step)%Z.
Proof.
  intros Hs Hn Hst. unfold slice_indices, slice_index.
  rewrite (proj2 (Z.ltb_ge start 0)), (proj2 (Z.ltb_ge stop 0)) by lia.
  rewrite !Nat.min_l by lia.
  set (a := Z.to_nat start). set (b := Z.to_nat stop). set (k := Z.to_nat step).
  assert (Ha : Z.of_nat a = start) by (unfold a; lia). assert (Hb : Z.of_nat b = stop) by (unfold b; lia).
  assert (Hk : Z.of_nat k = step) by (unfold k; lia). assert (Hk1 : 1 <= k) by (unfold k; lia).
  rewrite <- Ha, <- Hb, <- Hk. cbv zeta. rewrite map_length, seq_length.
  assert (Ediv : (Z.of_nat ((b - a + k - 1) / k) = (Z.of_nat b - Z.of_nat a + Z.of_nat k - 1) / Z.of_nat k)%Z).
  { rewrite Nat2Z.inj_div. f_equal. lia. }
  split; [|split; [|exact Ediv]].
  - intros i. rewrite in_map_iff. split.
    + intros [q [<- Hq]]. apply in_seq in Hq. split.
      * assert (Hq' : S q <= (b - a + k - 1) / k) by lia.
        assert ((S q) * k <= b - a + k - 1).
        { apply Nat.le_trans with (((b - a + k - 1) / k) * k); [apply Nat.mul_le_mono_r; exact Hq'|].
          rewrite Nat.mul_comm. apply Nat.mul_div_le. lia. }
        nia.
      * exists (Z.of_nat q). lia.
    + intros [H1 [q Hq]]. assert (0 <= q)%Z by nia. exists (Z.to_nat q). split; [nia|]. apply in_seq. split; [lia|].
      cbn [Nat.add]. apply Nat.div_le_lower_bound with (a := b - a + k - 1) (q := S (Z.to_nat q)); [lia|]. nia.
  - apply Injective_map_NoDup; [|apply seq_NoDup]. intros p q E. nia.
Qed.

Theorem layers_to_plot start stop num : (0 <= start <= stop)%Z ->
  exists r, get_layers_to_plot (A := R) start stop num = Ok r
  /\ (num = 0%Z -> r = None)
  /\ (num <> 0%Z -> exists step, r = Some (start, stop, step) /\ (1 <= step)%Z
        /\ ((num < 0 \/ stop - start + 1 < num)%Z -> step = 1%Z)
        /\ forall n, (stop <= Z.of_nat n)%Z ->
             let sel := slice_indices n (start, stop, step) in
             (forall i, In i sel <-> (start <= Z.of_nat i < stop)%Z /\ (step | Z.of_nat i - start)%Z)
             /\ NoDup sel
             /\ ((0 < num <= stop - start + 1)%Z -> (num - 1 <= Z.of_nat (length sel) < 2 * num)%Z)).
Proof.
  intros Hs. unfold get_layers_to_plot. destruct (Z.eqb_spec num 0) as [E|E].
  { exists None. split; [reflexivity|]. split; [reflexivity|]. intros N. contradiction. }
  set (num' := if ((num <? 0) || (num >? stop - start + 1))%Z%bool then (stop - start + 1)%Z else num).
  assert (Hn : (1 <= num' <= stop - start + 1)%Z /\ ((num < 0 \/ stop - start + 1 < num)%Z -> num' = (stop - start + 1)%Z)
               /\ ((0 < num <= stop - start + 1)%Z -> num' = num)).
  { unfold num'. destruct (Z.ltb_spec num 0), (Z.gtb_spec num (stop - start + 1)); cbn [orb]; lia. }
  destruct Hn as [Hn [Hn1 Hn2]]. clearbody num'. destruct (Z.eqb_spec num' 0) as [E'|_]; [lia|].
  cbn [ndiv nint Num_R]. rewrite !nofZ_R, trunc_div by lia.
  eexists. split; [reflexivity|]. split; [intros; contradiction|]. intros _.
  set (L := (stop - start)%Z) in *. set (step := ((L + 1) / num')%Z).
  pose proof (Z.div_mod (L + 1) num' ltac:(lia)) as Dm. pose proof (Z.mod_pos_bound (L + 1) num' ltac:(lia)) as Mb. fold step in Dm.
  assert (Hst : (1 <= step)%Z) by (apply Z.div_le_lower_bound; lia).
  exists step. split; [reflexivity|]. split; [exact Hst|]. split.
  { intros Hc. unfold step. rewrite (Hn1 Hc). apply Z.div_same. lia. }
  intros n Hl. destruct (slice_indices_spec n start stop step Hs Hl Hst) as [S1 [S2 S3]].
  split; [exact S1|]. split; [exact S2|]. intros Hc. pose proof (Hn2 Hc) as En. rewrite S3. fold L. clearbody step. subst num'.
  split.
  - apply Z.div_le_lower_bound; nia.
  - apply Z.div_lt_upper_bound; nia.
Qed.

(** ** plot_layers *)

Local Open Scope R_scope.

(* facts about stack_of at R *)
Lemma stack_of_R (x : list R) v : stack_of x v = searchsorted x v.
Proof. unfold stack_of. cbn [neqb Num_R]. unfold Reqb. destruct (Req_EM_T v v); [reflexivity|contradiction]. Qed.

Lemma searchsorted_mono (x : list R) u v : u <= v -> (searchsorted x u <= searchsorted x v)%nat.
Proof.
  intros Huv. induction x as [|a x IH]; cbn; [lia|]. cbn [nltb Num_R].
  destruct (Rltb a u) eqn:E1; [|lia]. apply Rltb_true in E1.
  destruct (Rltb a v) eqn:E2; [lia|]. apply Rltb_false in E2. lra.
Qed.

(* the limits of a region in layer k: first and last column *)
Definition region_limits (n : nat) (shore edge : list nat) (r : region) (k : nat) : nat * nat :=
  match r with
  | Land => (0, nth k shore 0)
  | Shoreface => (nth k shore 0, nth k edge 0)
  | Shelf => (nth k edge 0, n - 1)
  end%nat.

Lemma nth_repeat_any {B} (a d : B) n k : (k < n)%nat -> nth k (repeat a n) d = a.
Proof. intros Hk. apply repeat_spec with n. apply nth_In. rewrite repeat_length. exact Hk. Qed.

Lemma mapM_exists {B C} (f : B -> result C) (P : B -> C -> Prop) l :
  (forall b, In b l -> exists c, f b = Ok c /\ P b c) -> exists cs, mapM f l = Ok cs /\ Forall2 P l cs.
Proof.
  induction l as [|b l IH]; intros Hl; [exists []; split; [reflexivity|constructor]|].
  destruct (Hl b (or_introl eq_refl)) as [c [E1 P1]]. destruct IH as [cs [E2 P2]]; [intros; apply Hl; right; assumption|].
  exists (c :: cs). cbn. rewrite E1. cbn. rewrite E2. cbn. split; [reflexivity|]. constructor; assumption.
Qed.

Lemma fill_spec x y shore edge r :
  increasing x -> (forall l, In l y -> length l = length x) ->
  length shore = length y -> length edge = length y ->
  (forall k, (k < length y)%nat -> (nth k shore 0 <= nth k edge 0 <= length x)%nat) ->
  exists ps, fill_between_layers x y (match r with Land => None | Shoreface => Some shore | Shelf => Some edge end)
                (match r with Land => Some shore | Shoreface => Some edge | Shelf => None end) = Ok ps
  /\ Forall2 (fun k p => outlines x (nth k y []) (nth (S k) y [])
        (fst (region_limits (length x) shore edge r k)) (snd (region_limits (length x) shore edge r k))
        (fst (region_limits (length x) shore edge r (S k))) (snd (region_limits (length x) shore edge r (S k)))
        (fst p) (snd p)) (seq 0 (length y - 1)) ps.
Proof.
  intros Hx Hy Hs He Hse. unfold fill_between_layers. apply mapM_exists. intros k Hk. apply in_seq in Hk.
  assert (L1 : length (nth k y []) = length x) by (apply Hy, nth_In; lia).
  assert (L2 : length (nth (S k) y []) = length x) by (apply Hy, nth_In; lia).
  pose proof (Hse k ltac:(lia)) as B1. pose proof (Hse (S k) ltac:(lia)) as B2.
  destruct r; cbn [region_limits fst snd].
  - rewrite !nth_repeat_any by lia.
    destruct (outline_spec x (nth k y []) (nth (S k) y []) 0 (nth k shore 0%nat) 0 (nth (S k) shore 0%nat)) as [xs [ys [E O]]]; try assumption; try (unfold ordered; lia).
    exists (xs, ys). split; assumption.
  - destruct (outline_spec x (nth k y []) (nth (S k) y []) (nth k shore 0%nat) (nth k edge 0%nat) (nth (S k) shore 0%nat) (nth (S k) edge 0%nat))
      as [xs [ys [E O]]]; try assumption; try (unfold ordered; lia).
    exists (xs, ys). split; assumption.
  - rewrite !nth_repeat_any by lia.
    destruct (outline_spec x (nth k y []) (nth (S k) y []) (nth k edge 0%nat) (length x - 1) (nth (S k) edge 0%nat) (length x - 1))
      as [xs [ys [E O]]]; try assumption; try (unfold ordered; lia).
    exists (xs, ys). split; assumption.
Qed.

(** What plot_layers draws: the water, one polygon per region and pair of
    neighbouring layers, the selected layers and the topmost one. *)
Definition region_on (st : plot_style) (r : region) : bool :=
  match r with Land => ps_land st | Shoreface => ps_shoreface st | Shelf => ps_shelf st end.
Definition layer_stop (st : plot_style) (n : nat) : Z :=
  if (ps_stop st <? 0)%Z then (Z.of_nat n + ps_stop st + 1)%Z else ps_stop st.

Lemma Forall2_impl' {B C} (P Q : B -> C -> Prop) l l' : (forall b c, P b c -> Q b c) -> Forall2 P l l' -> Forall2 Q l l'.
Proof. intros HPQ. induction 1; constructor; auto. Qed.
Lemma map_nth_eq {B C} (f : B -> C) l k d e : (k < length l)%nat -> nth k (map f l) d = f (nth k l e).
Proof. intros Hk. rewrite (nth_indep _ d (f e)) by (rewrite map_length; exact Hk). apply map_nth. Qed.

(** ** Columns and water *)

Lemma first_column_searchsorted (x : list R) v : increasing x -> first_column x v (searchsorted x v).
Proof.
  intros Hx. destruct (searchsorted_spec x v) as [S1 [S2 S3]]. split; [exact S1|]. split; [exact S2|].
  intros i Hi. destruct (Nat.eq_dec i (searchsorted x v)) as [->|N]; [apply S3; lia|].
  apply Rle_trans with (nth (searchsorted x v) x 0); [apply S3; lia|]. apply Rlt_le, Hx. lia.
Qed.

Lemma masked_suffix {B} (x : list R) (l : list B) (t : R) k : length l = length x ->
  (forall i, (i < k)%nat -> (i < length x)%nat -> nth i x 0 <= t) -> (forall i, (k <= i < length x)%nat -> t < nth i x 0) ->
  masked (map (fun v => nltb t v) x) l = skipn k l.
Proof.
  revert l k. induction x as [|a x IH]; intros [|b l] k E H1 H2; try discriminate E; [destruct k; reflexivity|].
  destruct k as [|k].
  - unfold masked in *. cbn [map combine filter fst]. assert (Ha : nltb t a = true) by (apply Rltb_true, (H2 0%nat); cbn; lia).
    rewrite Ha. cbn [map snd]. f_equal. rewrite (IH l 0%nat); [reflexivity|now injection E|intros; lia|].
    intros i Hi. apply (H2 (S i)). cbn. lia.
  - unfold masked in *. cbn [map combine filter fst]. assert (Ha : nltb t a = false).
    { apply Rltb_false. apply (H1 0%nat); cbn; lia. }
    rewrite Ha. rewrite (IH l k); [reflexivity|now injection E| |].
    + intros i Hi Hl. apply (H1 (S i)); cbn; lia.
    + intros i Hi. apply (H2 (S i)). cbn. lia.
Qed.

Lemma seq_shift_from a n : map (fun k => (a + k)%nat) (seq 0 n) = seq a n.
Proof. revert a. induction n as [|n IH]; intros a; [reflexivity|]. cbn [seq map]. rewrite Nat.add_0_r. f_equal. rewrite <- seq_shift, map_map, <- (IH (S a)). apply map_ext. intros. lia. Qed.
Lemma nth_skipn' {B} (l : list B) k i d : nth i (skipn k l) d = nth (k + i) l d.
Proof. revert l. induction k as [|k IH]; intros l; [reflexivity|]. destruct l; [destruct i; reflexivity|apply IH]. Qed.
Lemma lastn_skipn (l : list R) k d : (k < length l)%nat -> lastn (skipn k l) d = lastn l d.
Proof. intros Hk. unfold lastn. rewrite nth_skipn', skipn_length. f_equal. lia. Qed.

(* the water: over the columns beyond the shore of the newest layer *)
Lemma water_suffix (x top : list R) t k (on : bool) : length top = length x -> (k <= length x)%nat ->
  (forall i, (i < k)%nat -> nth i x 0 <= t) -> (forall i, (k <= i < length x)%nat -> t < nth i x 0) ->
  (let water := map (fun v => nltb t v) x in
   if existsb (fun b => b) water then
     (if on then [Water (masked water x) (masked water top) (nth 0 (masked water top) n0)] else [])
     ++ [WaterLine (nth 0 (masked water x) n0) (lastn (masked water x) n0) (nth 0 (masked water top) n0)]
   else [])
  = if (k <? length x)%nat then
      (if on then [Water (skipn k x) (skipn k top) (nth k top 0)] else []) ++ [WaterLine (nth k x 0) (lastn x 0) (nth k top 0)]
    else [].
Proof.
  intros Lt Hk H1 H2. cbv zeta. rewrite !(masked_suffix x _ t k) by (intros; auto).
  rewrite !nth_skipn', !Nat.add_0_r. destruct (Nat.ltb_spec k (length x)) as [Hl|Hl].
  - replace (existsb (fun b => b) (map (fun v => nltb t v) x)) with true.
    + rewrite n0_R, lastn_skipn by exact Hl. reflexivity.
    + symmetry. apply existsb_exists. exists true. split; [|reflexivity]. apply in_map_iff. exists (nth k x 0).
      split; [apply Rltb_true, H2; lia|apply nth_In; exact Hl].
  - replace (existsb (fun b => b) (map (fun v => nltb t v) x)) with false; [reflexivity|]. symmetry.
    apply not_true_is_false. intros X. apply existsb_exists in X. destruct X as [b [Hb ->]]. apply in_map_iff in Hb.
    destruct Hb as [v [Ev Hv]]. apply Rltb_true in Ev. apply (In_nth _ _ 0) in Hv. destruct Hv as [i [Hi <-]].
    specialize (H1 i ltac:(lia)). lra.
Qed.

Theorem plot_layers_spec (st : plot_style) (p : plot_args R) sel :
  increasing (pa_x p) -> pa_elevation p <> [] -> (forall l, In l (pa_elevation p) -> length l = length (pa_x p)) ->
  length (pa_shore p) = length (pa_elevation p) -> length (pa_shelf_edge p) = length (pa_elevation p) ->
  (forall k, (k < length (pa_elevation p))%nat -> nth k (pa_shore p) 0 <= nth k (pa_shelf_edge p) 0) ->
  get_layers_to_plot (A := R) (ps_start st) (layer_stop st (length (pa_elevation p))) (ps_n_layers st) = Ok sel ->
  let x := pa_x p in let y := pa_elevation p in let n := length y in
  exists (column : R -> nat) water land shoreface shelf,
    plot_layers st p = Ok (water ++ map (fun o => Fill Land (fst o) (snd o)) land
      ++ map (fun o => Fill Shoreface (fst o) (snd o)) shoreface ++ map (fun o => Fill Shelf (fst o) (snd o)) shelf
      ++ map (fun k => Line x (nth k y [])) (match sel with Some s => slice_indices n s | None => [] end)
      ++ [Line x (lastn y [])])
    /\ (forall v, first_column x v (column v))
    /\ (forall k, (k <= length x)%nat -> (forall i, (i < k)%nat -> nth i x 0 <= lastn (pa_shore p) 0) ->
          (forall i, (k <= i < length x)%nat -> lastn (pa_shore p) 0 < nth i x 0) ->
          water = if (k <? length x)%nat then
                    (if ps_water st then [Water (skipn k x) (skipn k (lastn y [])) (nth k (lastn y []) 0)] else [])
                    ++ [WaterLine (nth k x 0) (lastn x 0) (nth k (lastn y []) 0)]
                  else [])
    /\ (if ps_land st then Forall2 (fun k o => outlines x (nth k y []) (nth (S k) y []) 0 (column (nth k (pa_shore p) 0))
              0 (column (nth (S k) (pa_shore p) 0)) (fst o) (snd o)) (seq 0 (n - 1)) land else land = [])
    /\ (if ps_shoreface st then Forall2 (fun k o => outlines x (nth k y []) (nth (S k) y [])
              (column (nth k (pa_shore p) 0)) (column (nth k (pa_shelf_edge p) 0))
              (column (nth (S k) (pa_shore p) 0)) (column (nth (S k) (pa_shelf_edge p) 0)) (fst o) (snd o)) (seq 0 (n - 1)) shoreface
        else shoreface = [])
    /\ (if ps_shelf st then Forall2 (fun k o => outlines x (nth k y []) (nth (S k) y [])
              (column (nth k (pa_shelf_edge p) 0)) (length x - 1)
              (column (nth (S k) (pa_shelf_edge p) 0)) (length x - 1) (fst o) (snd o)) (seq 0 (n - 1)) shelf
        else shelf = []).
Proof.
  intros Hx Hne Hy Hs He Hse Hsel x y n. set (column := searchsorted x).
  assert (Ey : exists y0 ys, y = y0 :: ys) by (unfold y; destruct (pa_elevation p); [contradiction|eauto]). destruct Ey as [y0 [ys Ey]].
  assert (Em : forall B (a b : B), match pa_shore p, y with [], _ | _, [] => a | _, _ => b end = b).
  { intros B a b. rewrite Ey. destruct (pa_shore p) eqn:E; [|reflexivity]. exfalso. apply Hne. destruct (pa_elevation p); [reflexivity|discriminate Hs]. }
  unfold plot_layers. fold x y. fold x in Hx. rewrite Em. cbv zeta.
  fold (layer_stop st (length y)). fold y in Hsel. rewrite Hsel. cbn [bind].
  set (stack_of_shore := map (stack_of x) (pa_shore p)). set (stack_of_shelf_edge := map (stack_of x) (pa_shelf_edge p)).
  assert (Ns : forall k, (k < n)%nat -> nth k stack_of_shore 0%nat = column (nth k (pa_shore p) 0)).
  { intros k Hk. unfold stack_of_shore. rewrite (map_nth_eq _ _ _ _ 0) by (unfold n, y in Hk; lia). apply stack_of_R. }
  assert (Ne : forall k, (k < n)%nat -> nth k stack_of_shelf_edge 0%nat = column (nth k (pa_shelf_edge p) 0)).
  { intros k Hk. unfold stack_of_shelf_edge. rewrite (map_nth_eq _ _ _ _ 0) by (unfold n, y in Hk; lia). apply stack_of_R. }
  assert (F : forall r, exists ps, fill_between_layers x y (match r with Land => None | Shoreface => Some stack_of_shore | Shelf => Some stack_of_shelf_edge end)
                (match r with Land => Some stack_of_shore | Shoreface => Some stack_of_shelf_edge | Shelf => None end) = Ok ps
    /\ Forall2 (fun k p => outlines x (nth k y []) (nth (S k) y [])
        (fst (region_limits (length x) stack_of_shore stack_of_shelf_edge r k)) (snd (region_limits (length x) stack_of_shore stack_of_shelf_edge r k))
        (fst (region_limits (length x) stack_of_shore stack_of_shelf_edge r (S k))) (snd (region_limits (length x) stack_of_shore stack_of_shelf_edge r (S k)))
        (fst p) (snd p)) (seq 0 (length y - 1)) ps).
  { intros r. apply fill_spec; try assumption.
    - unfold stack_of_shore. rewrite map_length. exact Hs.
    - unfold stack_of_shelf_edge. rewrite map_length. exact He.
    - intros k Hk. rewrite Ns, Ne by exact Hk. split; [apply searchsorted_mono, Hse, Hk|].
      apply (proj1 (searchsorted_spec x (nth k (pa_shelf_edge p) 0))). }
  assert (F2 : forall r ps, Forall2 (fun k p => outlines x (nth k y []) (nth (S k) y [])
        (fst (region_limits (length x) stack_of_shore stack_of_shelf_edge r k)) (snd (region_limits (length x) stack_of_shore stack_of_shelf_edge r k))
        (fst (region_limits (length x) stack_of_shore stack_of_shelf_edge r (S k))) (snd (region_limits (length x) stack_of_shore stack_of_shelf_edge r (S k)))
        (fst p) (snd p)) (seq 0 (length y - 1)) ps ->
     Forall2 (fun k o => (k < n - 1)%nat /\ outlines x (nth k y []) (nth (S k) y [])
        (fst (region_limits (length x) stack_of_shore stack_of_shelf_edge r k)) (snd (region_limits (length x) stack_of_shore stack_of_shelf_edge r k))
        (fst (region_limits (length x) stack_of_shore stack_of_shelf_edge r (S k))) (snd (region_limits (length x) stack_of_shore stack_of_shelf_edge r (S k)))
        (fst o) (snd o)) (seq 0 (n - 1)) ps).
  { intros r ps. fold n. assert (Hi : forall k, In k (seq 0 (n - 1)) -> (k < n - 1)%nat) by (intros k Hk; apply in_seq in Hk; lia).
    revert Hi. generalize (seq 0 (n - 1)). intros l Hi HF. revert Hi. induction HF; intros Hi; constructor.
    - split; [apply Hi; left; reflexivity|assumption].
    - apply IHHF. intros k Hk. apply Hi. right. exact Hk. }
  destruct (F Land) as [land [El Fl]]. destruct (F Shoreface) as [shoreface [Ef Ff]]. destruct (F Shelf) as [shelf [Eh Fh]].
  cbv beta iota in El, Ef, Eh. apply F2 in Fl, Ff, Fh. cbn [region_limits fst snd] in Fl, Ff, Fh.
  rewrite El, Ef, Eh. cbn [bind].
  match goal with |- exists cc w l sf sh, (let* a := _ in let* b := _ in let* c := _ in Ok (?w0 ++ _)) = _ /\ _ => set (water := w0) end.
  exists column, water, (if ps_land st then land else []), (if ps_shoreface st then shoreface else []), (if ps_shelf st then shelf else []).
  split; [|split; [|split; [|split; [|split]]]].
  - destruct (ps_land st), (ps_shoreface st), (ps_shelf st), sel; reflexivity.
  - intros v. apply first_column_searchsorted. exact Hx.
  - intros k Hk H1 H2. unfold water.
    assert (Lt : length (lastn y []) = length x).
    { apply Hy. unfold lastn. apply nth_In. fold y. rewrite Ey. cbn. lia. }
    pose proof (water_suffix x (lastn y []) (lastn (pa_shore p) 0) k (ps_water st) Lt Hk H1 H2) as X. cbv zeta in X.
    rewrite !n0_R in X. rewrite !n0_R. exact X.
  - destruct (ps_land st); [|reflexivity]. eapply Forall2_impl'; [|exact Fl]. intros k o [Hk O]. rewrite !Ns in O by lia. exact O.
  - destruct (ps_shoreface st); [|reflexivity]. eapply Forall2_impl'; [|exact Ff]. intros k o [Hk O]. rewrite !Ns, !Ne in O by lia. exact O.
  - destruct (ps_shelf st); [|reflexivity]. eapply Forall2_impl'; [|exact Fh]. intros k o [Hk O]. rewrite !Ne in O by lia. exact O.
Qed.

(* without a limit on their number, the layers that are outlined *)
Theorem plot_layers_lines (st : plot_style) (p : plot_args R) ds a len :
  (ps_n_layers st < 0)%Z ->
  ps_start st = Z.of_nat a \/ ((a < length (pa_elevation p))%nat /\ ps_start st = (Z.of_nat a - Z.of_nat (length (pa_elevation p)))%Z) ->
  layer_stop st (length (pa_elevation p)) = Z.of_nat (a + len) ->
  (a + len <= length (pa_elevation p))%nat ->
  plot_layers st p = Ok ds ->
  exists before, (forall xs ys, ~ In (Line xs ys) before)
  /\ ds = before ++ map (fun k => Line (pa_x p) (nth k (pa_elevation p) [])) (seq a len) ++ [Line (pa_x p) (lastn (pa_elevation p) [])].
Proof.
  intros Hn Ha Hst Hl E. unfold plot_layers in E. cbv zeta in E. fold (layer_stop st (length (pa_elevation p))) in E. rewrite Hst in E.
  assert (Hs : (ps_start st <= Z.of_nat (a + len))%Z) by lia.
  assert (L : get_layers_to_plot (A := R) (ps_start st) (Z.of_nat (a + len)) (ps_n_layers st) = Ok (Some (ps_start st, Z.of_nat (a + len), 1%Z))).
  { unfold get_layers_to_plot. destruct (Z.eqb_spec (ps_n_layers st) 0); [lia|]. destruct (Z.ltb_spec (ps_n_layers st) 0); [|lia]. cbn [orb].
    destruct (Z.eqb_spec (Z.of_nat (a + len) - ps_start st + 1) 0); [lia|]. cbn [ndiv nint Num_R]. rewrite !nofZ_R, trunc_div by lia.
    rewrite Z.div_same by lia. reflexivity. }
  rewrite L in E. cbn [bind] in E.
  assert (Sl : slice_indices (length (pa_elevation p)) (ps_start st, Z.of_nat (a + len), 1%Z) = seq a len).
  { assert (Ia : slice_index (length (pa_elevation p)) (ps_start st) = a).
    { unfold slice_index. destruct Ha as [->|[La ->]].
      - destruct (Z.ltb_spec (Z.of_nat a) 0); lia.
      - destruct (Z.ltb_spec (Z.of_nat a - Z.of_nat (length (pa_elevation p))) 0); lia. }
    unfold slice_indices. rewrite Ia. unfold slice_index. change (Z.to_nat 1) with 1%nat.
    destruct (Z.ltb_spec (Z.of_nat (a + len)) 0); [lia|].
    rewrite !Nat2Z.id, !Nat.min_l by lia. replace (a + len - a + 1 - 1)%nat with len by lia. rewrite Nat.div_1_r.
    rewrite <- (seq_shift_from a len). apply map_ext. intros. lia. }
  rewrite Sl in E. destruct (pa_shore p); [discriminate E|]. destruct (pa_elevation p) as [|y0 ys] eqn:Ey; [discriminate E|].
  repeat match type of E with
  | bind ?r _ = Ok _ => let F := fresh "F" in destruct r eqn:F; cbn [bind] in E; [|discriminate E]
  end.
  assert (Inj : forall B (x y : B), Ok x = Ok y -> x = y) by (intros B u v X; injection X; auto). apply Inj in E. subst ds.
  match goal with |- exists w, _ /\ ?a ++ ?b ++ ?c ++ ?d ++ _ = _ => exists (a ++ b ++ c ++ d); split; [|rewrite <- !app_assoc; reflexivity] end.
  assert (NF : forall (on : bool) r q lo up, (if on then let* ps := fill_between_layers (pa_x p) (y0 :: ys) lo up in
                     Ok (map (fun o => Fill r (fst o) (snd o)) ps) else Ok []) = Ok q -> forall xs ls, ~ In (Line xs ls) q).
  { intros on rg q lo up F' xs ls Hi. destruct on; [|injection F' as <-; exact Hi]. destruct (fill_between_layers (pa_x p) (y0 :: ys) lo up); cbn [bind] in F'; [|discriminate F'].
    apply Inj in F'. subst q. apply in_map_iff in Hi. destruct Hi as [o [X _]]. discriminate X. }
  intros xs ls Hi. rewrite !in_app_iff in Hi. destruct Hi as [Hi|[Hi|[Hi|Hi]]]; try (revert Hi; eapply NF; eassumption).
  destruct (existsb _ _); [|exact Hi]. apply in_app_or in Hi. destruct (ps_water st); destruct Hi as [Hi|Hi]; cbn in Hi; intuition discriminate.
Qed.

Lemma layer_stop_start (st : plot_style) (p : plot_args R) ds a stop :
  (ps_n_layers st < 0)%Z ->
  ps_start st = Z.of_nat a \/ ((a < length (pa_elevation p))%nat /\ ps_start st = (Z.of_nat a - Z.of_nat (length (pa_elevation p)))%Z) ->
  ps_stop st = Z.of_nat stop ->
  (a <= stop)%nat -> (stop <= length (pa_elevation p))%nat ->
  plot_layers st p = Ok ds ->
  exists before, (forall xs ys, ~ In (Line xs ys) before)
  /\ ds = before ++ map (fun k => Line (pa_x p) (nth k (pa_elevation p) [])) (seq a (stop - a)) ++ [Line (pa_x p) (lastn (pa_elevation p) [])].
Proof.
  intros Hn Ha Hs H1 H2. apply plot_layers_lines; try assumption; [|lia]. unfold layer_stop. rewrite Hs.
  destruct (Z.ltb_spec (Z.of_nat stop) 0); lia.
Qed.
Lemma layer_stop_end (st : plot_style) (p : plot_args R) ds a k :
  (ps_n_layers st < 0)%Z ->
  ps_start st = Z.of_nat a \/ ((a < length (pa_elevation p))%nat /\ ps_start st = (Z.of_nat a - Z.of_nat (length (pa_elevation p)))%Z) ->
  ps_stop st = (Z.of_nat k - Z.of_nat (length (pa_elevation p)))%Z ->
  (a <= S k)%nat -> (k < length (pa_elevation p))%nat ->
  plot_layers st p = Ok ds ->
  exists before, (forall xs ys, ~ In (Line xs ys) before)
  /\ ds = before ++ map (fun k => Line (pa_x p) (nth k (pa_elevation p) [])) (seq a (S k - a)) ++ [Line (pa_x p) (lastn (pa_elevation p) [])].
Proof.
  intros Hn Ha Hs H1 H2. apply plot_layers_lines; try assumption; [|lia]. unfold layer_stop. rewrite Hs.
  destruct (Z.ltb_spec (Z.of_nat k - Z.of_nat (length (pa_elevation p))) 0); lia.
Qed.

(** ** Shores that are not known *)
Lemma searchsorted_beyond (x : list (option R)) beyond :
  Forall (fun v => exists a, v = Some a /\ (a < beyond)%R) x -> searchsorted x (Some beyond) = length x.
Proof.
  induction 1 as [|v x [a [-> L]] _ IH]; [reflexivity|]. cbn [searchsorted length]. change (nltb (Some a) (Some beyond)) with (nltb a beyond).
  assert (E : nltb a beyond = true) by (apply Rltb_true; exact L). rewrite E, IH. reflexivity.
Qed.
Lemma stack_of_known (x : list (option R)) beyond v :
  Forall (fun v => exists a, v = Some a /\ (a < beyond)%R) x -> stack_of x (known_or beyond v) = stack_of x v.
Proof.
  intros Hx. destruct v as [a|]; [reflexivity|]. unfold known_or, stack_of. rewrite searchsorted_beyond by exact Hx.
  change (neqb (Some beyond) (Some beyond)) with (neqb beyond beyond). assert (E : neqb beyond beyond = true) by (apply (proj2 (Num.Reqb_true beyond beyond)); reflexivity). rewrite E. reflexivity.
Qed.
Lemma unknown_shores (st : plot_style) (p : plot_args (option R)) beyond :
  Forall (fun v => exists a, v = Some a /\ (a < beyond)%R) (pa_x p) ->
  plot_layers st p = plot_layers st (mkPlotArgs (pa_elevation p) (pa_x p)
    (map (known_or beyond) (pa_shore p)) (map (known_or beyond) (pa_shelf_edge p))).
Proof.
  intros Hx. unfold plot_layers. cbn [pa_elevation pa_x pa_shore pa_shelf_edge].
  assert (M : forall l, map (stack_of (pa_x p)) (map (known_or beyond) l) = map (stack_of (pa_x p)) l).
  { intros l. rewrite map_map. apply map_ext. intros v. apply stack_of_known. exact Hx. }
  rewrite !M.
  assert (W : map (fun v => nltb (lastn (pa_shore p) n0) v) (pa_x p) = map (fun v => nltb (lastn (map (known_or beyond) (pa_shore p)) n0) v) (pa_x p)).
  { apply map_ext_in. intros v Hv. rewrite Forall_forall in Hx. destruct (Hx v Hv) as [a [-> L]].
    unfold lastn. rewrite map_length. assert (N0 : known_or beyond n0 = n0) by reflexivity. rewrite <- N0 at 2. rewrite map_nth.
    destruct (nth (length (pa_shore p) - 1) (pa_shore p) n0) as [s|]; [reflexivity|].
    cbn [known_or]. change (nltb None (Some a)) with false. change (nltb (Some beyond) (Some a)) with (nltb beyond a).
    symmetry. apply Rltb_false. lra. }
  rewrite W. destruct (pa_shore p); reflexivity.
Qed.
