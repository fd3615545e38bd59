(** Property-level facts about fluvial deposition. *)
From Coq Require Import String List ZArith QArith Reals Lra Lia Arith Bool.
From Verif.Base Require Import Num Py Arr.
From Verif.Model Require Import Layers Grid Shoreline Flexure Submarine Fluvial.
From Verif.Spec Require Import Profile Deposition.
From Verif.Proofs Require Import GridP ShorelineP SubmarineP FluvialP.
Import ListNotations.

Lemma foldM_each {A S} (f : S -> A -> result S) (P : S -> Prop) l :
  (forall s a s', P s -> f s a = Ok s' -> P s') ->
  forall s s', P s -> foldM f l s = Ok s' -> forall a, In a l -> exists s1 s2, P s1 /\ f s1 a = Ok s2.
Proof.
  intros HP. induction l as [|a l IH]; intros s s' Hs E b Hb; [destruct Hb|].
  cbn [foldM] in E. destruct (f s a) as [s1|e] eqn:Ef; [|discriminate]. cbn [bind] in E.
  destruct Hb as [Hb|Hb].
  - subst b. exists s, s1. auto.
  - eapply IH; [eapply HP; eassumption|eassumption|assumption].
Qed.

Ltac unpack D :=
  let Hn := fresh "Hn" in let Hm := fresh "Hm" in
  destruct D as [Hn [Hm [[Ez Sz] [[Ed Sd] [[Es Ss] [[inc [Ei Si]] El]]]]]];
  change "topographic__elevation"%string with TOPO in Ez;
  change "sediment_deposit__thickness"%string with DEPOSIT in Ed;
  change "delta_sediment_sand__volume_fraction"%string with SAND in Es;
  change "bedrock_surface__increment_of_elevation"%string with BEDROCK_INC in Ei;
  change "sea_level__elevation"%string with SEALEVEL in El.

Section Any.
  Context {A : Type} `{Num A} `{Trans A}.
  Local Open Scope num_scope.

  Lemma walk_in_bounds cw depth r_cb r_b dz dx dt qw (land : nat -> bool) m mud conc ps s :
    length conc = m ->
    foldM (walk_node cw depth r_cb r_b dz dx dt qw) (filter land (seq 0 m)) (mud, conc, ps) = Ok s ->
    forall j, (j < m)%nat -> land j = true -> (j + 1 < m)%nat.
  Proof.
    intros Lc E j Hj Lj.
    assert (W : forall st i st', walk_node cw depth r_cb r_b dz dx dt qw st i = Ok st' ->
              (i + 1 < length (snd (fst st)))%nat /\ length (snd (fst st')) = length (snd (fst st))).
    { intros [[mv cc] pp] i st' E'. unfold walk_node in E'. cbn [fst snd].
      destruct (n0 <? nth i dz n0);
        [destruct (nth_error dz (i + 1)); [|discriminate]|];
        cbn [bind] in E'; destruct (Nat.ltb (i + 1) (length cc)) eqn:B; try discriminate;
        apply Nat.ltb_lt in B; inversion E'; cbn [fst snd]; rewrite lset_length; auto. }
    destruct (foldM_each _ (fun st => length (snd (fst st)) = m) _
                (fun st i st' P E' => eq_trans (proj2 (W st i st' E')) P) (mud, conc, ps) _ Lc E j) as [s1 [s2 [P E']]].
    - apply filter_In. split; [apply in_seq; lia|assumption].
    - apply W in E'. rewrite P in E'. tauto.
  Qed.

  Lemma fluvial_step_inv interp1d dt (c : fluvial A) (g : grid A) z deposit sand sl g' :
    delta_grid g z deposit sand sl -> fluvial_step interp1d dt c g = Ok g' ->
    (fl_sand_frac c =? n0) = false /\ (fl_plain_slope c =? n0) = false /\ (discharge_of c =? n0) = false
    /\ exists shore, find_shoreline interp1d (x_of_column g) (nth (channel_row g) z []) sl = Ok shore
       /\ forall j, (j < g_cols g)%nat -> (nth j (x_of_column g) n0 <? shore) = true -> (j + 1 < g_cols g)%nat.
  Proof.
    intros D E. unpack D.
    unfold fluvial_step in E.
    destruct (fl_sand_frac c =? n0); [discriminate|]. destruct (fl_plain_slope c =? n0); [discriminate|].
    fold (discharge_of c) in E. destruct (discharge_of c =? n0); [discriminate|].
    split; [reflexivity|]. split; [reflexivity|]. split; [reflexivity|].
    rewrite (get_profile_ok _ _ _ Ez), (get_profile_ok _ _ _ Ed), (get_profile_ok _ _ _ Ei),
      (get_profile_ok _ _ _ Es) in E. cbn [bind] in E.
    rewrite (shaped_len _ _ _ (shaped_inner _ _ _ Sz)) in E.
    rewrite (nth_inner z) in E by (rewrite (shaped_len _ _ _ Sz);
      pose proof (Nat.lt_div2 (g_rows g) Hn); lia).
    unfold channel_row. rewrite Nat.add_1_r.
    unfold gval_r in E. rewrite El in E. cbn [bind] in E.
    destruct (find_shoreline interp1d (x_of_column g) (nth (S (Nat.div2 (g_rows g))) z []) sl)
      as [shore|e]; [|discriminate].
    exists shore. split; [reflexivity|]. cbn [bind] in E.
    destruct (np_gradient _) as [gr|e]; [|discriminate]. cbn [bind] in E.
    match type of E with bind ?f _ = _ => destruct f as [w|e] eqn:W; [|discriminate] end.
    rewrite where_from_filter0, SubmarineP.x_of_column_length in W.
    apply (walk_in_bounds _ _ _ _ _ _ _ _ (fun i => nth i (x_of_column g) n0 <? shore) _ _ _ _ _) with (2 := W).
    rewrite lset_length. apply repeat_length.
  Qed.

  Lemma sand_never_outside interp1d dt (c : fluvial A) (g : grid A) z deposit sand sl g' :
    (n1 <? n0) = false -> (n0 <? n0) = false -> (n1 <? n1) = false ->
    delta_grid g z deposit sand sl -> fluvial_step interp1d dt c g = Ok g' ->
    exists sand', node g' SAND = Some sand' /\ shaped (g_rows g + 2) (g_cols g) sand'
      /\ forall j, (j < g_cols g)%nat ->
           (at2 n0 sand' (channel_row g) j <? n0) = false /\ (n1 <? at2 n0 sand' (channel_row g) j) = false.
  Proof.
    intros H10 H00 H11 D E.
    destruct (fluvial_step_inv _ _ _ _ _ _ _ _ _ D E) as [Hs [Hp [Hq [shore [Hsh Hl]]]]].
    unpack D.
    destruct (fluvial_step_ok interp1d dt c g z deposit inc sand sl shore (g_rows g) (g_cols g)
                eq_refl eq_refl Hn Hm Ez Sz Ed Sd Ei Si Es Ss El Hs Hp Hq Hsh Hl)
      as [g1 [sand' [dep' [E1 [Es' [Ss' [_ [_ [_ [_ [_ [_ [_ [F1 [F2 _]]]]]]]]]]]]]]].
    rewrite E in E1. inversion E1; subst g1.
    exists sand'. split; [exact Es'|]. split; [exact Ss'|]. intros j Hj. unfold channel_row.
    destruct (nth j (x_of_column g) n0 <? shore) eqn:L.
    - destruct (F2 j Hj L) as [cc Ec]. rewrite Ec.
      destruct (sand_node_range (width_of c) (depth_of c g shore (nth (Nat.div2 (g_rows g) + 1) z []) j) cc
        (at2 n0 deposit (Nat.div2 (g_rows g) + 1) j *
         channel_epsilon (width_of c) (depth_of c g shore (nth (Nat.div2 (g_rows g) + 1) z []) 0))
        (at2 n0 deposit (Nat.div2 (g_rows g) + 1) j) H10 H00 H11). auto.
    - rewrite (F1 j Hj L). auto.
  Qed.
End Any.

Local Open Scope R_scope.

(** the shoreline is on the grid *)
Lemma bisect_loop_between f fa n : forall xa dm s, bisect_loop n f fa xa dm = Ok s ->
  Rmin xa (xa + dm) <= s <= Rmax xa (xa + dm).
Proof.
  induction n as [|n IH]; intros xa dm s E; [discriminate|].
  cbn [bisect_loop] in E. numR. rewrite halfR in E.
  assert (Hm : Rmin xa (xa + dm) <= xa + dm * / 2 <= Rmax xa (xa + dm)).
  { unfold Rmin, Rmax. destruct (Rle_dec xa (xa + dm)); lra. }
  match type of E with (if ?b then _ else _) = _ => destruct b end.
  - inversion E; subst. exact Hm.
  - apply IH in E.
    match type of E with context [if ?b then _ else _] => destruct b end; revert E; unfold Rmin, Rmax;
      repeat match goal with |- context [Rle_dec ?a ?b] => destruct (Rle_dec a b) end; lra.
Qed.

Lemma scipy_bisect_between f a b s : scipy_bisect f a b = Ok s -> Rmin a b <= s <= Rmax a b.
Proof.
  unfold scipy_bisect. numR. intros E.
  assert (Rmin a b <= a <= Rmax a b /\ Rmin a b <= b <= Rmax a b) as [Ha Hb].
  { unfold Rmin, Rmax. destruct (Rle_dec a b); lra. }
  destruct (Reqb (f a) n0); [injection E as <-; exact Ha|].
  destruct (Reqb (f b) n0); [injection E as <-; exact Hb|].
  match type of E with (if ?b then _ else _) = _ => destruct b; [discriminate|] end.
  apply bisect_loop_between in E. replace (a + (b - a)) with b in E by lra. exact E.
Qed.

Lemma lastn_nth (x : list R) : x <> [] -> lastn x 0 = nth (length x - 1) x 0.
Proof.
  reflexivity.
Qed.

Lemma find_shoreline_on_grid interp1d (x z : list R) sl s :
  sorted x -> length z = length x -> find_shoreline interp1d x z sl = Ok s ->
  nth 0 x 0 <= s <= nth (length x - 1) x 0.
Proof.
  intros Hx Hl E. unfold find_shoreline in E.
  assert (Hb : x <> [] -> forall i, (i < length x)%nat -> nth 0 x 0 <= nth i x 0 <= nth (length x - 1) x 0).
  { intros Hne i Hi. split; apply Hx; lia. }
  destruct (index_cases x z sl Hl) as [[Ei P]|[[Ei [P1 P2]]|[i [Ei [[[P1 _] _] _]]]]]; rewrite Ei in E.
  - destruct z as [|z0 z'], x as [|x0 x']; try discriminate.
    destruct (nltb z0 sl); inversion E; subst.
    + specialize (Hb ltac:(discriminate) 0%nat ltac:(simpl; lia)). exact Hb.
    + rewrite n0_R, lastn_nth by discriminate. apply Hb; [discriminate|simpl; lia].
  - destruct z as [|z0 z'], x as [|x0 x']; try discriminate.
    destruct (nltb z0 sl); inversion E; subst.
    + specialize (Hb ltac:(discriminate) 0%nat ltac:(simpl; lia)). exact Hb.
    + rewrite n0_R, lastn_nth by discriminate. apply Hb; [discriminate|simpl; lia].
  - destruct (interp1d x _) as [f|e]; [|discriminate]. cbn [bind] in E.
    assert (Hne : x <> []) by (intros ->; simpl in Hl; lia).
    rewrite (pynth_nat x i 0) in E by lia.
    assert (Hp : exists k, (k < length x)%nat /\ pynth x (Z.of_nat i - 1) = Some (nth k x 0)).
    { destruct i as [|i].
      - exists (length x - 1)%nat. split; [lia|]. apply (pynth_last x 0 Hne).
      - exists i. split; [lia|]. rewrite (pynth_pred x (S i) 0) by lia. do 2 f_equal. lia. }
    destruct Hp as [k [Hk Ek]]. rewrite Ek in E. apply scipy_bisect_between in E.
    pose proof (Hb Hne k Hk). pose proof (Hb Hne i ltac:(lia)). revert E. unfold Rmin, Rmax.
    destruct (Rle_dec (nth k x 0) (nth i x 0)); lra.
Qed.

(* every submerged column is at or beyond the shore, unless the profile starts
   under water and comes up later *)
Lemma submerged_beyond_shore interp1d (x z : list R) sl s j :
  sorted x -> length z = length x -> find_shoreline interp1d x z sl = Ok s ->
  sl <= nth 0 z 0 \/ (forall i, (i < length z)%nat -> nth i z 0 < sl) ->
  (j < length z)%nat -> nth j z 0 < sl -> s <= nth j x 0.
Proof.
  intros Hx Hl E Hs Hj Hsub.
  destruct Hs as [Hs|Hs].
  - unfold find_shoreline in E.
    destruct (index_cases x z sl Hl) as [[Ei P]|[[Ei [P1 P2]]|[i [Ei [[P1 P3] _]]]]]; rewrite Ei in E.
    + exfalso. apply (P j). apply submergedR. auto.
    + exfalso. specialize (P2 0%nat ltac:(lia)). apply submergedR in P2. lra.
    + apply submergedR in P1.
      assert (i <> 0)%nat by (intros ->; lra).
      assert (Hij : (i <= j)%nat).
      { destruct (Nat.le_gt_cases i j) as [L|L]; [exact L|]. exfalso. apply (P3 j L). apply submergedR. auto. }
      destruct (interp1d x _) as [f|e]; [|discriminate]. cbn [bind] in E.
      rewrite (pynth_nat x i 0), (pynth_pred x i 0) in E by lia.
      apply scipy_bisect_between in E.
      assert (nth (i - 1) x 0 <= nth i x 0) by (apply Hx; lia).
      assert (nth i x 0 <= nth j x 0) by (apply Hx; lia).
      revert E. unfold Rmax. destruct (Rle_dec (nth (i - 1) x 0) (nth i x 0)); lra.
  - assert (x <> []) by (intros ->; simpl in Hl; lia).
    rewrite (find_shoreline_all_below interp1d x z sl) in E by assumption.
    inversion E; subst. apply Hx. lia.
Qed.

Lemma last_not_land (g : grid R) s j :
  0 < g_dx g -> s <= nth (g_cols g - 1) (x_of_column g) 0 -> (j < g_cols g)%nat ->
  nltb (nth j (x_of_column g) n0) s = true -> (j + 1 < g_cols g)%nat.
Proof.
  intros Hdx Hs Hj L. numR. rewrite n0_R in L. apply Rltb_true in L.
  destruct (Nat.eq_dec j (g_cols g - 1)) as [E|E]; [|lia]. rewrite E in L. lra.
Qed.

Lemma discharge_zero (c : fluvial R) : fl_plain_slope c <> 0 ->
  discharge_of c = 0 <-> fl_sediment_load c = 0.
Proof.
  intros Hp. unfold discharge_of. numR.
  assert (H61 : Q2R (61 # 100) = 61 / 100) by (unfold Q2R; simpl; lra). rewrite H61.
  split; intros E.
  - apply (Rmult_eq_compat_r (61 / 100 * fl_plain_slope c)) in E.
    replace (fl_sediment_load c / fl_plain_slope c / (61 / 100) * (61 / 100 * fl_plain_slope c))
      with (fl_sediment_load c) in E by (field; exact Hp). lra.
  - rewrite E. field. exact Hp.
Qed.

Lemma channel_profile (g : grid R) z deposit sand sl : delta_grid g z deposit sand sl ->
  length (nth (channel_row g) z []) = g_cols g.
Proof.
  intros [Hn [Hm [[Ez Sz] _]]]. apply (shaped_nth _ _ _ _ Sz). unfold channel_row.
  pose proof (Nat.lt_div2 (g_rows g) Hn). lia.
Qed.

Theorem step_succeeds interp1d dt (c : fluvial R) (g : grid R) z deposit sand sl :
  delta_grid g z deposit sand sl -> 0 < g_dx g ->
  match fluvial_step interp1d dt c g with
  | Ok _ => True
  | Err e => (e = ZeroDivisionError
              /\ (fl_sand_frac c = 0 \/ fl_plain_slope c = 0 \/ fl_sediment_load c = 0))
             \/ find_shoreline interp1d (x_of_column g) (nth (channel_row g) z []) sl = Err e
  end.
Proof.
  intros D Hdx. pose proof (channel_profile _ _ _ _ _ D) as Lp.
  assert (Z : forall a : R, (a =? n0)%num = false <-> a <> 0).
  { intros a. numR. rewrite n0_R. apply Reqb_false. }
  assert (ZT : forall a : R, (a =? n0)%num = true <-> a = 0).
  { intros a. numR. rewrite n0_R. apply Reqb_true. }
  destruct (fl_sand_frac c =? n0)%num eqn:Hs.
  { unfold fluvial_step. rewrite Hs. apply ZT in Hs. auto. }
  destruct (fl_plain_slope c =? n0)%num eqn:Hp.
  { unfold fluvial_step. rewrite Hs, Hp. apply ZT in Hp. auto. }
  destruct (discharge_of c =? n0)%num eqn:Hq.
  { unfold fluvial_step. rewrite Hs, Hp. fold (discharge_of c). rewrite Hq.
    apply ZT in Hq. apply discharge_zero in Hq; [auto|]. apply Z. exact Hp. }
  destruct (find_shoreline interp1d (x_of_column g) (nth (channel_row g) z []) sl) as [shore|e] eqn:Hsh.
  - assert (Hl : forall j, (j < g_cols g)%nat -> (nth j (x_of_column g) n0 <? shore)%num = true ->
                  (j + 1 < g_cols g)%nat).
    { intros j Hj L. eapply last_not_land; try eassumption.
      apply find_shoreline_on_grid in Hsh.
      - rewrite SubmarineP.x_of_column_length in Hsh. tauto.
      - apply sorted_x. exact Hdx.
      - rewrite SubmarineP.x_of_column_length. exact Lp. }
    unpack D.
    destruct (fluvial_step_ok interp1d dt c g z deposit inc sand sl shore (g_rows g) (g_cols g)
                eq_refl eq_refl Hn Hm Ez Sz Ed Sd Ei Si Es Ss El Hs Hp Hq Hsh Hl) as [g1 [_ [_ [E1 _]]]].
    rewrite E1. exact I.
  - unpack D.
    unfold fluvial_step. rewrite Hs, Hp. fold (discharge_of c). rewrite Hq.
    rewrite (get_profile_ok _ _ _ Ez). cbn [bind].
    rewrite (shaped_len _ _ _ (shaped_inner _ _ _ Sz)).
    rewrite (nth_inner z) by (rewrite (shaped_len _ _ _ Sz); pose proof (Nat.lt_div2 (g_rows g) Hn); lia).
    unfold channel_row in Hsh. rewrite Nat.add_1_r in Hsh.
    unfold gval_r. rewrite El. cbn [bind]. rewrite Hsh. cbn [bind]. right. reflexivity.
Qed.

Theorem sand_fraction_range interp1d dt (c : fluvial R) (g : grid R) z deposit sand sl g' :
  delta_grid g z deposit sand sl -> fluvial_step interp1d dt c g = Ok g' ->
  exists sand', node g' SAND = Some sand'
    /\ forall j, (j < g_cols g)%nat -> 0 <= at2 0 sand' (channel_row g) j <= 1.
Proof.
  intros D E.
  destruct (sand_never_outside interp1d dt c g z deposit sand sl g') as [sand' [Es [_ Hr]]]; try assumption;
    try (numR; rewrite ?n0_R, ?n1_R; apply Rltb_false; lra).
  exists sand'. split; [exact Es|]. intros j Hj. destruct (Hr j Hj) as [H1 H2]. numR.
  rewrite n0_R, n1_R in *. apply Rltb_false in H1, H2. lra.
Qed.

(** hemipelagic mud, exactly *)
Theorem mud_exact interp1d dt (c : fluvial R) (g : grid R) z deposit sand sl g' :
  delta_grid g z deposit sand sl -> fluvial_step interp1d dt c g = Ok g' ->
  exists shore sand' deposit',
    find_shoreline interp1d (x_of_column g) (nth (channel_row g) z []) sl = Ok shore
    /\ node g' SAND = Some sand' /\ shaped (g_rows g + 2) (g_cols g) sand'
    /\ node g' DEPOSIT = Some deposit' /\ shaped (g_rows g + 2) (g_cols g) deposit'
    /\ (forall name, name <> SAND -> name <> DEPOSIT -> node g' name = node g name)
    /\ at_grid g' = at_grid g /\ at_row g' = at_row g /\ layers g' = layers g
    /\ (forall i j, (i < g_rows g + 2)%nat -> (j < g_cols g)%nat -> i <> channel_row g ->
          at2 0 sand' i j = at2 0 sand i j /\ at2 0 deposit' i j = at2 0 deposit i j)
    /\ (forall j, (j < g_cols g)%nat ->
          let x := INR j * g_dx g in
          let depth k := sl - at2 0 z (channel_row g) k in
          let wb := fl_wave_base c in
          let rate := fl_hemi c * dt in
          let old := at2 0 deposit (channel_row g) j in
          let new := at2 0 deposit' (channel_row g) j in
          (x < shore -> new = old)
          /\ (shore <= x -> at2 0 sand' (channel_row g) j = 0)
          /\ (shore <= x -> depth j <= wb -> depth j < 2 * wb -> new = old)
          /\ (shore <= x -> on_ramp wb (depth j) -> new = old + (depth j - wb) / wb * rate)
          /\ (shore <= x -> 2 * wb <= depth j ->
                exists t, taper_start (fun i => shore <= INR i * g_dx g /\ on_ramp wb (depth i)) j t
                  /\ new = old + Rmax 0 (rate * (1 - (INR j * g_dx g - INR t * g_dx g) / 100000)))).
Proof.
  intros D E. pose proof (channel_profile _ _ _ _ _ D) as Lp.
  destruct (fluvial_step_inv _ _ _ _ _ _ _ _ _ D E) as [Hs [Hp [Hq [shore [Hsh Hl]]]]].
  unpack D.
  destruct (fluvial_step_ok interp1d dt c g z deposit inc sand sl shore (g_rows g) (g_cols g)
              eq_refl eq_refl Hn Hm Ez Sz Ed Sd Ei Si Es Ss El Hs Hp Hq Hsh Hl)
    as [g1 [sand' [dep' [E1 [Es' [Ss' [Ed' [Sd' [Fo [Fg [Fr [Fl [Foth [F1 [_ [_ [F3 F4]]]]]]]]]]]]]]]]].
  rewrite E in E1. inversion E1; subst g1. clear E1.
  exists shore, sand', dep'.
  split; [exact Hsh|]. split; [exact Es'|]. split; [exact Ss'|]. split; [exact Ed'|]. split; [exact Sd'|].
  split; [exact Fo|]. split; [exact Fg|]. split; [exact Fr|]. split; [exact Fl|].
  change (Nat.div2 (g_rows g) + 1)%nat with (channel_row g) in *. rewrite n0_R in *.
  split; [exact Foth|].
  assert (Nx : forall k, (k < g_cols g)%nat -> nth k (x_of_column g) 0 = INR k * g_dx g)
    by (intros; apply nth_x_of_column; assumption).
  assert (Nd : forall k, (k < g_cols g)%nat ->
     nth k (map (fun v => nsub sl v) (nth (channel_row g) z [])) 0 = sl - at2 0 z (channel_row g) k).
  { intros k Hk. rewrite (nth_map' _ _ _ 0) by (rewrite Lp; exact Hk). reflexivity. }
  intros j Hj x depth wb rate old new.
  assert (Wj : shore <= x -> (shore <=? nth j (x_of_column g) 0)%num = true).
  { intros L. numR. rewrite Nx by assumption. apply Rleb_true. exact L. }
  assert (T2 : Q2R 2 = 2) by (unfold Q2R; simpl; lra).
  assert (Tr : forall k, (k < g_cols g)%nat ->
     in_transition (fl_wave_base c) (map (fun v => nsub sl v) (nth (channel_row g) z [])) k = true
     <-> on_ramp wb (depth k)).
  { intros k Hk. unfold in_transition, on_ramp. rewrite n0_R, Nd by assumption. fold (depth k).
    rewrite andb_true_iff. numR. rewrite !Rltb_true, T2. unfold wb. tauto. }
  assert (Val : shore <= x -> exists t,
     taper_start (fun i => shore <= INR i * g_dx g /\ on_ramp wb (depth i)) j t
     /\ new = old + mud_value (fl_wave_base c) (nmul (fl_hemi c) dt) (x_of_column g)
           (map (fun v => nsub sl v) (nth (channel_row g) z [])) t j
     /\ (t < g_cols g)%nat).
  { intros L. destruct (F4 j Hj (Wj L)) as [t [Ht Et]]. exists t.
    assert (Q : forall i, (i < g_cols g)%nat ->
      ((shore <=? nth i (x_of_column g) 0)%num
         && in_transition (fl_wave_base c) (map (fun v => nsub sl v) (nth (channel_row g) z [])) i) = true
      <-> (shore <= INR i * g_dx g /\ on_ramp wb (depth i))).
    { intros i Hi. rewrite andb_true_iff, Tr by assumption. numR. rewrite Rleb_true, Nx by assumption. tauto. }
    split; [|split].
    - destruct Ht as [[Ht N]|[Ht [T N]]].
      + left. split; [exact Ht|]. intros i Hi R0. apply Q in R0; [|lia]. rewrite (N i Hi) in R0. discriminate.
      + right. split; [exact Ht|]. split; [apply Q; [lia|exact T]|].
        intros i Hi R0. apply Q in R0; [|lia]. rewrite (N i Hi) in R0. discriminate.
    - exact Et.
    - destruct Ht as [[Ht _]|[Ht _]]; lia. }
  split. { intros L. apply F3; [exact Hj|]. numR. rewrite Nx by assumption. apply Rleb_false. exact L. }
  split. { intros L. apply F1; [exact Hj|]. numR. rewrite Nx by assumption. apply Rltb_false. exact L. }
  split.
  { intros L D1 D2. destruct (Val L) as [t [_ [Et _]]]. rewrite Et. unfold mud_value.
    destruct (in_transition _ _ j) eqn:T.
    - apply Tr in T; [|exact Hj]. unfold on_ramp in T. lra.
    - rewrite n0_R, Nd by assumption. fold (depth j). numR. rewrite T2.
      replace (Rleb (2 * fl_wave_base c) (depth j)) with false
        by (symmetry; apply Rleb_false; exact D2). lra. }
  split.
  { intros L R0. destruct (Val L) as [t [_ [Et _]]]. rewrite Et. unfold mud_value.
    rewrite (proj2 (Tr j Hj) R0). rewrite n0_R, Nd by assumption. reflexivity. }
  intros L D1. destruct (Val L) as [t [Ht [Et Lt]]]. exists t. split; [exact Ht|].
  rewrite Et. unfold mud_value.
  destruct (in_transition _ _ j) eqn:T.
  { apply Tr in T; [|exact Hj]. unfold on_ramp in T. lra. }
  rewrite n0_R, n1_R, Nd by assumption. fold (depth j). numR. rewrite T2.
  replace (Rleb (2 * fl_wave_base c) (depth j)) with true
    by (symmetry; apply Rleb_true; exact D1).
  rewrite !Nx by assumption. unfold hemi_taper. numR.
  assert (T5 : Q2R 100000 = 100000) by (unfold Q2R; simpl; lra). rewrite T5. fold rate.
  f_equal. unfold Rmax. rcase; destruct (Rle_dec 0 (rate * (1 - (INR j * g_dx g - INR t * g_dx g) / 100000))); lra.
Qed.

Lemma mud_bounded rate dx j t : 0 < dx -> 0 <= rate -> (t <= j)%nat ->
  0 <= Rmax 0 (rate * (1 - (INR j * dx - INR t * dx) / 100000)) <= rate.
Proof.
  intros Hdx Hr Ht. apply le_INR in Ht.
  assert (0 <= INR j * dx - INR t * dx) by nra.
  split; [apply Rmax_l|]. apply Rmax_lub; [exact Hr|].
  assert (0 <= (INR j * dx - INR t * dx) / 100000) by lra. nra.
Qed.

Theorem mud_range interp1d dt (c : fluvial R) (g : grid R) z deposit sand sl g' :
  delta_grid g z deposit sand sl -> fluvial_step interp1d dt c g = Ok g' ->
  0 < g_dx g -> 0 < fl_wave_base c -> 0 <= fl_hemi c -> 0 <= dt ->
  exists shore deposit',
    find_shoreline interp1d (x_of_column g) (nth (channel_row g) z []) sl = Ok shore
    /\ node g' DEPOSIT = Some deposit'
    /\ (forall i j, (i < g_rows g + 2)%nat -> (j < g_cols g)%nat -> i <> channel_row g ->
          at2 0 deposit' i j = at2 0 deposit i j)
    /\ (forall j, (j < g_cols g)%nat ->
          let depth := sl - at2 0 z (channel_row g) j in
          let mud := at2 0 deposit' (channel_row g) j - at2 0 deposit (channel_row g) j in
          let rate := fl_hemi c * dt in
          (INR j * g_dx g < shore \/ depth <= fl_wave_base c -> mud = 0)
          /\ (shore <= INR j * g_dx g -> on_ramp (fl_wave_base c) depth ->
                mud = rate * ((depth - fl_wave_base c) / fl_wave_base c))
          /\ (2 * fl_wave_base c <= depth -> (1 <= j)%nat -> 0 <= mud <= rate)
          /\ (j = 0%nat -> 0 <= mud <= rate * (1 + g_dx g / 100000))).
Proof.
  intros D E Hdx Hwb Hh Hdt.
  destruct (mud_exact interp1d dt c g z deposit sand sl g' D E)
    as [shore [sand' [dep' [Hsh [_ [_ [Ed [_ [_ [_ [_ [_ [Fo F]]]]]]]]]]]]].
  exists shore, dep'. split; [exact Hsh|]. split; [exact Ed|].
  split. { intros i j Hi Hj Hne. apply Fo; assumption. }
  intros j Hj depth mud rate. destruct (F j Hj) as [F1 [_ [F2 [F3 F4]]]]. clear F.
  fold depth in F2, F3, F4. fold rate in F3, F4.
  assert (Hr : 0 <= rate) by (unfold rate; nra).
  assert (Hland : INR j * g_dx g < shore \/ depth <= fl_wave_base c -> mud = 0).
  { intros HH. unfold mud. destruct (Rlt_le_dec (INR j * g_dx g) shore) as [L|L].
    - rewrite F1 by exact L. lra.
    - destruct HH as [HH|HH]; [lra|]. rewrite F2 by lra. lra. }
  assert (Hramp : shore <= INR j * g_dx g -> on_ramp (fl_wave_base c) depth ->
                mud = rate * ((depth - fl_wave_base c) / fl_wave_base c)).
  { intros L R0. unfold mud. rewrite F3 by assumption. fold depth. fold rate. lra. }
  split; [exact Hland|]. split; [exact Hramp|]. split.
  - intros HH Hj1. destruct (Rlt_le_dec (INR j * g_dx g) shore) as [L|L].
    + rewrite Hland by (left; exact L). lra.
    + destruct (F4 L HH) as [t [Ht Et]]. unfold mud. rewrite Et.
      assert (t <= j)%nat by (destruct Ht as [[Ht _]|[Ht _]]; lia).
      pose proof (mud_bounded rate (g_dx g) j t Hdx Hr ltac:(assumption)). lra.
  - intros Ej. destruct (Rlt_le_dec (INR j * g_dx g) shore) as [L|L].
    { rewrite Hland by (left; exact L). split; [lra|]. apply Rmult_le_pos; [exact Hr|]. lra. }
    destruct (Rle_lt_dec depth (fl_wave_base c)) as [D1|D1].
    { rewrite Hland by (right; exact D1). split; [lra|]. apply Rmult_le_pos; [exact Hr|]. lra. }
    destruct (Rlt_le_dec depth (2 * fl_wave_base c)) as [D2|D2].
    { rewrite Hramp by (try exact L; split; assumption).
      assert (P0 : 0 <= (depth - fl_wave_base c) / fl_wave_base c).
      { apply Rmult_le_pos; [lra|]. apply Rlt_le, Rinv_0_lt_compat. exact Hwb. }
      assert (P1 : (depth - fl_wave_base c) / fl_wave_base c <= 1).
      { apply (Rmult_le_reg_r (fl_wave_base c)); [exact Hwb|]. unfold Rdiv. rewrite Rmult_assoc, Rinv_l by lra. lra. }
      split; [nra|]. assert (0 <= g_dx g / 100000) by lra. nra. }
    destruct (F4 L D2) as [t [Ht Et]]. unfold mud. rewrite Et.
    assert (Et1 : t = 1%nat) by (destruct Ht as [[Ht _]|[Ht _]]; lia).
    rewrite Et1, Ej. simpl INR.
    replace (0 * g_dx g - 1 * g_dx g) with (- g_dx g) by lra.
    assert (P : 0 <= rate * (1 - - g_dx g / 100000)).
    { apply Rmult_le_pos; [exact Hr|]. lra. }
    rewrite Rmax_right by exact P. split; [lra|]. right. unfold Rdiv. ring.
Qed.
