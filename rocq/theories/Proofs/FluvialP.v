(** Facts about one step of fluvial deposition. *)
From Coq Require Import String List ZArith QArith Reals Lra Lia Arith Bool.
From Verif.Base Require Import Num Py Arr.
From Verif.Model Require Import Layers Grid Shoreline Flexure Submarine Fluvial.
From Verif.Proofs Require Import GridP ShorelineP SubmarineP.
From Verif.Spec Require Import Profile.
Import ListNotations.

Lemma filter_seq_S (p : nat -> bool) n :
  filter p (seq 0 (S n)) = filter p (seq 0 n) ++ (if p n then [n] else []).
Proof. rewrite seq_S, filter_app. simpl. destruct (p n); reflexivity. Qed.

Lemma at2_row {A} (d : A) f i j : at2 d f i j = nth j (nth i f []) d.
Proof. reflexivity. Qed.

Section Any.
  Context {A : Type} `{Num A} `{Trans A}.
  Local Open Scope num_scope.

  Lemma where_from_filter p (l : list A) k :
    where_from k p l = map (Nat.add k) (filter (fun i => p (nth i l n0)) (seq 0 (length l))).
  Proof.
    revert k. induction l as [|a l IH]; intros k; cbn [where_from length]; [reflexivity|].
    cbn [seq filter]. rewrite <- seq_shift.
    assert (E : forall l', filter (fun i => p (nth i (a :: l) n0)) (map S l')
                = map S (filter (fun i => p (nth i l n0)) l')).
    { induction l' as [|b l' IH']; [reflexivity|]. cbn [map filter].
      change (nth (S b) (a :: l) n0) with (nth b l n0). destruct (p (nth b l n0)); cbn [map]; rewrite IH'; reflexivity. }
    rewrite E, (IH (S k)). change (nth 0 (a :: l) n0) with a. destruct (p a); cbn [map].
    - rewrite Nat.add_0_r, map_map. f_equal. apply map_ext. intros; lia.
    - rewrite map_map. apply map_ext. intros; lia.
  Qed.
  Lemma where_from_filter0 p (l : list A) :
    where_from 0 p l = filter (fun i => p (nth i l n0)) (seq 0 (length l)).
  Proof. rewrite where_from_filter. rewrite <- map_id. apply map_ext. intros; reflexivity. Qed.

  (** the downstream walk *)
  Lemma walk_ok cw depth r_cb r_b dz dx dt qw (land : nat -> bool) m :
    length dz = m ->
    (forall j, (j < m)%nat -> land j = true -> (j + 1 < m)%nat) ->
    forall k mud conc ps0, (k <= m)%nat -> length conc = m -> length ps0 = m ->
    exists mud' conc' ps',
      foldM (walk_node cw depth r_cb r_b dz dx dt qw) (filter land (seq 0 k)) (mud, conc, ps0)
        = Ok (mud', conc', ps')
      /\ length conc' = m /\ length ps' = m
      /\ (forall j, (k <= j)%nat -> nth j ps' n0 = nth j ps0 n0)
      /\ (forall j, (j < k)%nat -> land j = false -> nth j ps' n0 = nth j ps0 n0)
      /\ (forall j, (j < k)%nat -> land j = true ->
            exists c, nth j ps' n0 = sand_node cw (nth j depth n0) c (nth j r_cb n0) (nth j r_b n0))
      /\ (land 0%nat = true -> (0 < k)%nat -> nth 0 ps' n0 =
            sand_node cw (nth 0 depth n0) (nth 0 conc n0) (nth 0 r_cb n0) (nth 0 r_b n0)).
  Proof.
    intros Ldz Hland k mud conc ps0 Hk Lc Lp. induction k as [|k IH].
    - exists mud, conc, ps0. cbn. repeat split; auto; intros; lia.
    - destruct IH as [mud1 [conc1 [ps1 [E [Lc1 [Lp1 [I1 [I2 [I3 I4]]]]]]]]]; [lia|].
      rewrite filter_seq_S, foldM_app, E. destruct (land k) eqn:Lk.
      + cbn [bind foldM]. unfold walk_node at 1.
        specialize (Hland k ltac:(lia) Lk).
        destruct (nth_error dz (k + 1)) as [dz1|] eqn:En.
        2:{ apply nth_error_None in En. lia. }
        set (ps := sand_node cw (nth k depth n0) (nth k conc1 n0) (nth k r_cb n0) (nth k r_b n0)).
        assert (G : forall mv,
          exists mud' conc' ps',
          bind (bind (Ok mv) (fun mud_vol =>
             if Nat.ltb (k + 1) (length conc1)
             then Ok (mud_vol, lset conc1 (k + 1) (mud_vol / qw), lset ps1 k ps) else Err IndexError))
             (fun s => Ok s) = Ok (mud', conc', ps')
      /\ length conc' = m /\ length ps' = m
      /\ (forall j, (S k <= j)%nat -> nth j ps' n0 = nth j ps0 n0)
      /\ (forall j, (j < S k)%nat -> land j = false -> nth j ps' n0 = nth j ps0 n0)
      /\ (forall j, (j < S k)%nat -> land j = true ->
            exists c, nth j ps' n0 = sand_node cw (nth j depth n0) c (nth j r_cb n0) (nth j r_b n0))
      /\ (land 0%nat = true -> (0 < S k)%nat -> nth 0 ps' n0 =
            sand_node cw (nth 0 depth n0) (nth 0 conc n0) (nth 0 r_cb n0) (nth 0 r_b n0))).
        { intros mv. cbn [bind]. rewrite (proj2 (Nat.ltb_lt _ _)) by lia. cbn [bind].
          eexists _, _, _. split; [reflexivity|]. rewrite !lset_length.
          repeat split; try assumption.
          - intros j Hj. rewrite nth_lset_neq by lia. apply I1. lia.
          - intros j Hj Hl. assert (j <> k) by (intros ->; congruence).
            rewrite nth_lset_neq by lia. apply I2; [lia|assumption].
          - intros j Hj Hl. destruct (Nat.eq_dec j k) as [Ejk|Ejk].
            + rewrite Ejk. exists (nth k conc1 n0). rewrite nth_lset_eq by lia. reflexivity.
            + rewrite nth_lset_neq by lia. apply I3; [lia|assumption].
          - intros H0' _. destruct k as [|k].
            + rewrite nth_lset_eq by lia. unfold ps. cbn in E. inversion E. reflexivity.
            + rewrite nth_lset_neq by lia. apply I4; [assumption|lia]. }
        destruct (n0 <? nth k dz n0); apply G.
      + cbn [bind foldM].
        exists mud1, conc1, ps1. repeat split; try assumption.
        * intros j Hj. apply I1. lia.
        * intros j Hj Hl. destruct (Nat.eq_dec j k) as [Ejk|Ejk]; [rewrite Ejk; apply I1; lia|].
          apply I2; [lia|assumption].
        * intros j Hj Hl. assert (j <> k) by (intros Ejk; rewrite Ejk in Hl; congruence).
          apply I3; [lia|assumption].
        * intros Hl _. assert (k <> 0%nat) by (intros Ek; rewrite Ek in Lk; congruence). apply I4; [assumption|lia].
  Qed.

  (** hemipelagic mud *)
  Definition in_transition (wb : A) (wd : list A) (j : nat) : bool :=
    (wb <? nth j wd n0) && (nth j wd n0 <? nlit 2 * wb).
  Definition taper_of (trans : nat -> bool) (k t : nat) : Prop :=
    (t = 1%nat /\ forall i, (i < k)%nat -> trans i = false)
    \/ ((t < k)%nat /\ trans t = true /\ forall i, (t < i < k)%nat -> trans i = false).
  Definition mud_value (wb hd : A) (x wd : list A) (t j : nat) : A :=
    if in_transition wb wd j then (nth j wd n0 - wb) / wb * hd
    else if nlit 2 * wb <=? nth j wd n0 then
      let v := hd * (n1 - (nth j x n0 - nth t x n0) / hemi_taper) in if v <? n0 then n0 else v
    else n0.

  Lemma mud_ok wb hd (x wd : list A) (water : nat -> bool) m : forall k, (k <= m)%nat ->
    exists t mud,
      fold_left (mud_node wb hd x wd) (filter water (seq 0 k)) (1%nat, repeat n0 m) = (t, mud)
      /\ length mud = m
      /\ taper_of (fun i => water i && in_transition wb wd i) k t
      /\ (forall j, (k <= j)%nat \/ water j = false -> nth j mud n0 = n0)
      /\ (forall j, (j < k)%nat -> water j = true -> exists u,
            taper_of (fun i => water i && in_transition wb wd i) j u
            /\ nth j mud n0 = mud_value wb hd x wd u j).
  Proof.
    intros k Hk. set (trans := fun i => water i && in_transition wb wd i).
    induction k as [|k IH].
    - exists 1%nat, (repeat n0 m). cbn. rewrite repeat_length. repeat split.
      + left. split; [reflexivity|]. intros; lia.
      + intros j _. apply nth_repeat.
      + intros; lia.
    - destruct IH as [t [mud [E [L [Ht [Z V]]]]]]; [lia|].
      rewrite filter_seq_S, fold_left_app, E.
      assert (Same : trans k = false -> taper_of trans (S k) t).
      { intros F. destruct Ht as [[-> N]|[Lt [T N]]].
        - left. split; [reflexivity|]. intros i Hi.
          destruct (Nat.eq_dec i k) as [Ei|Ei]; [rewrite Ei; exact F|]. apply N. lia.
        - right. split; [lia|]. split; [exact T|]. intros i Hi.
          destruct (Nat.eq_dec i k) as [Ei|Ei]; [rewrite Ei; exact F|]. apply N. lia. }
      destruct (water k) eqn:W; cbn [fold_left].
      + assert (Key : exists t' v, mud_node wb hd x wd (t, mud) k
                 = (t', if nth k wd n0 <? wb then lset (lset mud k n0) k v else lset mud k v)
                 /\ v = mud_value wb hd x wd t k
                 /\ taper_of trans (S k) t'
                 \/ mud_node wb hd x wd (t, mud) k
                 = (t', if nth k wd n0 <? wb then lset mud k n0 else mud)
                 /\ mud_value wb hd x wd t k = n0 /\ taper_of trans (S k) t').
        { unfold mud_node, mud_value.
          change ((wb <? nth k wd n0) && (nth k wd n0 <? nlit 2 * wb)) with (in_transition wb wd k).
          destruct (in_transition wb wd k) eqn:T.
          - exists k. eexists. left. split; [|split; [reflexivity|]].
            + destruct (nth k wd n0 <? wb); reflexivity.
            + right. split; [lia|]. split; [unfold trans; rewrite W, T; reflexivity|intros; lia].
          - assert (F : trans k = false) by (unfold trans; rewrite W, T; reflexivity).
            destruct (nlit 2 * wb <=? nth k wd n0).
            + exists t. eexists. left. split; [|split; [reflexivity|apply Same; exact F]].
              destruct (nth k wd n0 <? wb); reflexivity.
            + exists t, n0. right. split; [reflexivity|]. split; [reflexivity|apply Same; exact F]. }
        assert (Dbl : forall v, lset (lset mud k n0) k v = lset mud k v).
        { intros v. apply nth_ext with (d := n0) (d' := n0); rewrite !lset_length; [reflexivity|].
          intros i Hi. destruct (Nat.eq_dec k i) as [Ei|Ei].
          - rewrite <- Ei. rewrite !nth_lset_eq by (rewrite ?lset_length; lia). reflexivity.
          - rewrite !nth_lset_neq by assumption. reflexivity. }
        assert (Idem : lset mud k n0 = mud).
        { apply nth_ext with (d := n0) (d' := n0); rewrite !lset_length; [reflexivity|].
          intros i Hi. destruct (Nat.eq_dec k i) as [Ei|Ei].
          - rewrite <- Ei. rewrite nth_lset_eq by lia. symmetry. apply Z. left; lia.
          - rewrite !nth_lset_neq by assumption. reflexivity. }
        assert (Fin : forall mud', mud' = lset mud k (mud_value wb hd x wd t k) ->
          length mud' = m
          /\ (forall j, (S k <= j)%nat \/ water j = false -> nth j mud' n0 = n0)
          /\ (forall j, (j < S k)%nat -> water j = true -> exists u, taper_of trans j u
                /\ nth j mud' n0 = mud_value wb hd x wd u j)).
        { intros mud' ->. rewrite lset_length. split; [assumption|]. split.
          - intros j [Hj|Hj].
            + rewrite nth_lset_neq by lia. apply Z. left; lia.
            + assert (k <> j) by congruence. rewrite nth_lset_neq by assumption. apply Z. right; assumption.
          - intros j Hj Wj. destruct (Nat.eq_dec j k) as [Ej|Ej].
            + subst j. exists t. rewrite nth_lset_eq by lia. split; [assumption|reflexivity].
            + rewrite nth_lset_neq by lia. apply V; [lia|assumption]. }
        destruct Key as [t' [v [[E' [Ev Ht']]|[E' [Ev Ht']]]]]; rewrite E'.
        * exists t'. eexists. split; [reflexivity|].
          destruct (Fin (if nth k wd n0 <? wb then lset (lset mud k n0) k v else lset mud k v)) as [F1 [F2 F3]].
          { rewrite Dbl, Ev. destruct (nth k wd n0 <? wb); reflexivity. }
          repeat split; assumption.
        * exists t'. eexists. split; [reflexivity|].
          destruct (Fin (if nth k wd n0 <? wb then lset mud k n0 else mud)) as [F1 [F2 F3]].
          { rewrite Ev, Idem. destruct (nth k wd n0 <? wb); reflexivity. }
          repeat split; assumption.
      + exists t, mud. split; [reflexivity|]. split; [assumption|]. split; [|split].
        * apply Same. unfold trans. rewrite W. reflexivity.
        * intros j [Hj|Hj]; apply Z; [left; lia|right; assumption].
        * intros j Hj Wj. assert (j <> k) by congruence. apply V; [lia|assumption].
  Qed.

  Lemma np_gradient_ok (l : list A) : (2 <= length l)%nat ->
    exists gr, np_gradient l = Ok gr /\ length gr = length l.
  Proof.
    intros Hl. unfold np_gradient. rewrite (proj2 (Nat.ltb_ge _ _)) by lia.
    eexists. split; [reflexivity|]. rewrite map_length, seq_length. reflexivity.
  Qed.

  Definition depth_of (c : fluvial A) (g : grid A) (shore : A) (z : list A) (j : nat) : A :=
    if nth j (x_of_column g) n0 <? shore then
      (fl_sand_density c - nlit 1000) / nlit 1000 * sand_grain
      / (match np_gradient z with Ok gr => nth j gr n0 | Err _ => n0 end / g_dx g)
    else n0.
  Definition width_of (c : fluvial A) : A :=
    fl_sediment_load c / (nlit 10 * nsqrt (nlit (98 # 10) * (fl_sand_density c / nlit 1000 - n1)) * sand_grain).
  Definition discharge_of (c : fluvial A) : A :=
    fl_sediment_load c / fl_plain_slope c / nlit (61 # 100).

  (** One step, for any arithmetic in which the last column is not land. *)
  Lemma fluvial_step_walk interp1d dt (c : fluvial A) (g : grid A) z deposit inc sand sl shore n m :
    g_rows g = n -> g_cols g = m -> (0 < n)%nat -> (2 <= m)%nat ->
    node g TOPO = Some z -> shaped (n + 2) m z ->
    node g DEPOSIT = Some deposit -> shaped (n + 2) m deposit ->
    node g BEDROCK_INC = Some inc -> shaped (n + 2) m inc ->
    node g SAND = Some sand -> shaped (n + 2) m sand ->
    gval g SEALEVEL = Some sl ->
    (fl_sand_frac c =? n0) = false -> (fl_plain_slope c =? n0) = false -> (discharge_of c =? n0) = false ->
    let mid := Nat.div2 n in
    let x := x_of_column g in
    let profile := nth (mid + 1) z [] in
    let wd := map (fun v => sl - v) profile in
    let land j := nth j x n0 <? shore in
    let water j := shore <=? nth j x n0 in
    let trans j := water j && in_transition (fl_wave_base c) wd j in
    let eps := channel_epsilon (width_of c) (depth_of c g shore profile 0) in
    let r_b j := at2 n0 deposit (mid + 1) j in
    find_shoreline interp1d x profile sl = Ok shore ->
    (forall j, (j < m)%nat -> land j = true -> (j + 1 < m)%nat) ->
    exists g' sand' deposit',
      fluvial_step interp1d dt c g = Ok g'
      /\ (exists depths mud' conc' ps',
            (forall j, (j < m)%nat -> nth j depths n0 = depth_of c g shore profile j)
            /\ foldM (walk_node (width_of c) depths (map (fun v => v * eps) (nth (mid + 1) deposit [])) (nth (mid + 1) deposit [])
                 (nth (mid + 1) inc []) (g_dx g) dt (discharge_of c)) (filter land (seq 0 m))
                 (fl_sediment_load c * (n1 - fl_sand_frac c) / fl_sand_frac c,
                  lset (repeat n0 m) 0 (fl_sediment_load c * (n1 - fl_sand_frac c) / fl_sand_frac c / discharge_of c), repeat n0 m)
               = Ok (mud', conc', ps')
            /\ forall j, (j < m)%nat -> at2 n0 sand' (mid + 1) j = nth j ps' n0)
      /\ node g' SAND = Some sand' /\ shaped (n + 2) m sand'
      /\ node g' DEPOSIT = Some deposit' /\ shaped (n + 2) m deposit'
      /\ (forall name, name <> SAND -> name <> DEPOSIT -> node g' name = node g name)
      /\ at_grid g' = at_grid g /\ at_row g' = at_row g /\ layers g' = layers g
      /\ (forall i j, (i < n + 2)%nat -> (j < m)%nat -> i <> (mid + 1)%nat ->
            at2 n0 sand' i j = at2 n0 sand i j /\ at2 n0 deposit' i j = at2 n0 deposit i j)
      /\ (forall j, (j < m)%nat -> land j = false -> at2 n0 sand' (mid + 1) j = n0)
      /\ (forall j, (j < m)%nat -> land j = true -> exists conc,
            at2 n0 sand' (mid + 1) j
            = sand_node (width_of c) (depth_of c g shore profile j) conc (r_b j * eps) (r_b j))
      /\ (land 0%nat = true ->
            at2 n0 sand' (mid + 1) 0
            = sand_node (width_of c) (depth_of c g shore profile 0)
                (fl_sediment_load c * (n1 - fl_sand_frac c) / fl_sand_frac c / discharge_of c)
                (r_b 0%nat * eps) (r_b 0%nat))
      /\ (forall j, (j < m)%nat -> water j = false ->
            at2 n0 deposit' (mid + 1) j = at2 n0 deposit (mid + 1) j)
      /\ (forall j, (j < m)%nat -> water j = true -> exists t, taper_of trans j t
            /\ at2 n0 deposit' (mid + 1) j
               = at2 n0 deposit (mid + 1) j + mud_value (fl_wave_base c) (fl_hemi c * dt) x wd t j).
  Proof.
    intros Hn Hm Hn0 Hm2 Ez Sz Ed Sd Ei Si Es Ss El Hsf Hps Hqw.
    intros mid x profile wd land water trans eps r_b Hshore Hland.
    unfold fluvial_step. rewrite Hsf, Hps. fold (discharge_of c). rewrite Hqw. fold (width_of c).
    rewrite (get_profile_ok _ _ _ Ez), (get_profile_ok _ _ _ Ed), (get_profile_ok _ _ _ Ei),
      (get_profile_ok _ _ _ Es). cbn [bind]. fold x.
    pose proof (shaped_inner _ _ _ Sz) as Sz'. pose proof (shaped_inner _ _ _ Sd) as Sd'.
    pose proof (shaped_inner _ _ _ Si) as Si'. pose proof (shaped_inner _ _ _ Ss) as Ss'.
    rewrite (shaped_len _ _ _ Sz').
    assert (Hmid : (mid < n)%nat) by (apply Nat.lt_div2; assumption).
    assert (Hin : forall f : field A, shaped (n + 2) m f -> nth mid (inner f) [] = nth (mid + 1) f []).
    { intros f Sf. rewrite nth_inner. { f_equal. lia. } rewrite (shaped_len _ _ _ Sf). lia. }
    fold mid. rewrite (Hin z Sz), (Hin deposit Sd), (Hin inc Si), (Hin sand Ss). fold profile.
    assert (Lx : length x = m) by (unfold x; rewrite SubmarineP.x_of_column_length; exact Hm).
    assert (Lz : length profile = m) by (apply (shaped_nth _ _ _ _ Sz); lia).
    assert (Ld : length (nth (mid + 1) deposit []) = m) by (apply (shaped_nth _ _ _ _ Sd); lia).
    assert (Li : length (nth (mid + 1) inc []) = m) by (apply (shaped_nth _ _ _ _ Si); lia).
    assert (Ls : length (nth (mid + 1) sand []) = m) by (apply (shaped_nth _ _ _ _ Ss); lia).
    unfold gval_r. rewrite El. cbn [bind]. rewrite Hshore. cbn [bind].
    destruct (np_gradient_ok profile ltac:(lia)) as [gr [Eg Lg]]. rewrite Eg. cbn [bind].
    set (cd := zipw _ x _).
    assert (Ncd : forall j, (j < m)%nat -> nth j cd n0 = depth_of c g shore profile j).
    { intros j Hj. unfold cd, depth_of. rewrite (nth_zipw _ _ _ n0 n0) by (rewrite ?map_length; lia).
      rewrite (nth_map' _ _ _ n0) by lia. rewrite Eg. reflexivity. }
    rewrite (Ncd 0%nat) by lia. fold eps.
    rewrite !where_from_filter0, Lx. rewrite Ls.
    change (filter (fun i => nth i x n0 <? shore) (seq 0 m)) with (filter land (seq 0 m)).
    change (filter (fun i => shore <=? nth i x n0) (seq 0 m)) with (filter water (seq 0 m)).
    rewrite Hm.
    edestruct (walk_ok (width_of c) cd (map (fun v => v * eps) (nth (mid + 1) deposit []))
                (nth (mid + 1) deposit []) (nth (mid + 1) inc []) (g_dx g) dt (discharge_of c) land m Li Hland m)
      as [mud' [conc' [ps' [Ew [_ [Lps [_ [P2 [P3 P4]]]]]]]]]; [lia| | |].
    3:{ rewrite Ew. cbn [bind].
    destruct (mud_ok (fl_wave_base c) (fl_hemi c * dt) x wd water m m (le_n m)) as [t [mud [Em [Lmud [_ [M1 M2]]]]]].
    fold wd. rewrite Em.
    rewrite (set_profile_ok _ _ _ _ Es). cbn [bind].
    assert (Ed1 : forall v, node (put_node g SAND v) DEPOSIT = Some deposit).
    { intros v. rewrite node_put_node. unfold SAND, DEPOSIT in *. eqb_lit. exact Ed. }
    rewrite (set_profile_ok _ _ _ _ (Ed1 _)).
    set (th := zipw _ x _).
    assert (Lth : length th = m).
    { unfold th. rewrite zipw_length, combine_length. lia. }
    assert (Lset : forall (f : field A) v, shaped (n + 2) m f -> length v = m ->
              shaped n m (lset (inner f) mid v)).
    { intros f v Sf Lv. apply shaped_of_nth.
      - rewrite lset_length. apply (shaped_len _ _ _ (shaped_inner _ _ _ Sf)).
      - intros i Hi. destruct (Nat.eq_dec mid i) as [Emi|Emi].
        + rewrite <- Emi. rewrite nth_lset_eq by (rewrite (shaped_len _ _ _ (shaped_inner _ _ _ Sf)); exact Hmid).
          exact Lv.
        + rewrite nth_lset_neq by assumption. apply (shaped_nth _ _ _ _ (shaped_inner _ _ _ Sf) Hi). }
    assert (Row : forall (f : field A) v, shaped (n + 2) m f -> length v = m ->
       (forall j, (j < m)%nat -> at2 n0 (set_inner f (lset (inner f) mid v)) (mid + 1) j = nth j v n0)
       /\ forall i j, (i < n + 2)%nat -> (j < m)%nat -> i <> (mid + 1)%nat ->
            at2 n0 (set_inner f (lset (inner f) mid v)) i j = at2 n0 f i j).
    { intros f v Sf Lv. pose proof (shaped_inner _ _ _ Sf) as Sf'. split.
      - intros j Hj. rewrite (at2_set_inner n m) by (auto; try lia).
        rewrite (proj2 (Nat.leb_le 1 (mid + 1))) by lia. rewrite (proj2 (Nat.leb_le (mid + 1) n)) by lia.
        cbn [andb]. unfold at2. replace (mid + 1 - 1)%nat with mid by lia.
        rewrite nth_lset_eq by (rewrite (shaped_len _ _ _ Sf'); exact Hmid). reflexivity.
      - intros i j Hi Hj Hne. rewrite (at2_set_inner n m) by (auto; try lia).
        destruct (Nat.leb 1 i && Nat.leb i n) eqn:B; [|reflexivity].
        apply andb_true_iff in B. destruct B as [B1 B2]. apply Nat.leb_le in B1, B2.
        unfold at2. rewrite nth_lset_neq by lia. rewrite nth_inner by (rewrite (shaped_len _ _ _ Sf); lia).
        replace (S (i - 1)) with i by lia. reflexivity. }
    eexists _, _, _. split; [reflexivity|].
    destruct (Row sand ps' Ss Lps) as [Rs1 Rs2]. destruct (Row deposit th Sd Lth) as [Rd1 Rd2].
    split. { exists cd, mud', conc', ps'. split; [exact Ncd|]. split; [exact Ew|]. exact Rs1. }
    split. { rewrite node_put_node. unfold SAND, DEPOSIT. eqb_lit. apply node_put_same. }
    split. { apply shaped_set_inner; auto. }
    split. { apply node_put_same. }
    split. { apply shaped_set_inner; auto. }
    split. { intros name N1 N2. rewrite !node_put_node.
      rewrite (proj2 (String.eqb_neq _ _) N1), (proj2 (String.eqb_neq _ _) N2). reflexivity. }
    split; [reflexivity|]. split; [reflexivity|]. split; [reflexivity|].
    split. { intros i j Hi Hj Hne. split; [apply Rs2|apply Rd2]; assumption. }
    split. { intros j Hj Lj. rewrite Rs1 by assumption. rewrite P2 by assumption. apply nth_repeat. }
    split. { intros j Hj Lj. rewrite Rs1 by assumption. destruct (P3 j Hj Lj) as [cc Ec]. exists cc.
      rewrite Ec, Ncd by assumption. rewrite (nth_map' _ _ _ n0) by lia. reflexivity. }
    split. { intros L0. rewrite Rs1 by lia. rewrite (P4 L0) by lia. rewrite Ncd by lia.
      rewrite (nth_map' _ _ _ n0) by lia. rewrite nth_lset_eq by (rewrite repeat_length; lia). reflexivity. }
    assert (Nth : forall j, (j < m)%nat -> nth j th n0
       = if water j then at2 n0 deposit (mid + 1) j + nth j mud n0 else at2 n0 deposit (mid + 1) j).
    { intros j Hj. unfold th. rewrite (nth_zipw _ _ _ n0 (n0, n0)) by (rewrite ?combine_length; lia).
      rewrite combine_nth by lia. cbn [fst snd]. unfold water. reflexivity. }
    split. { intros j Hj Wj. rewrite Rd1, Nth by assumption. rewrite Wj. reflexivity. }
    intros j Hj Wj. destruct (M2 j Hj Wj) as [u [Hu Eu]]. exists u. split; [exact Hu|].
    rewrite Rd1, Nth by assumption. rewrite Wj, Eu. reflexivity. }
    - rewrite lset_length, repeat_length. reflexivity.
    - apply repeat_length.
  Qed.
  Lemma fluvial_step_ok interp1d dt (c : fluvial A) (g : grid A) z deposit inc sand sl shore n m :
    g_rows g = n -> g_cols g = m -> (0 < n)%nat -> (2 <= m)%nat ->
    node g TOPO = Some z -> shaped (n + 2) m z ->
    node g DEPOSIT = Some deposit -> shaped (n + 2) m deposit ->
    node g BEDROCK_INC = Some inc -> shaped (n + 2) m inc ->
    node g SAND = Some sand -> shaped (n + 2) m sand ->
    gval g SEALEVEL = Some sl ->
    (fl_sand_frac c =? n0) = false -> (fl_plain_slope c =? n0) = false -> (discharge_of c =? n0) = false ->
    let mid := Nat.div2 n in
    let x := x_of_column g in
    let profile := nth (mid + 1) z [] in
    let wd := map (fun v => sl - v) profile in
    let land j := nth j x n0 <? shore in
    let water j := shore <=? nth j x n0 in
    let trans j := water j && in_transition (fl_wave_base c) wd j in
    let eps := channel_epsilon (width_of c) (depth_of c g shore profile 0) in
    let r_b j := at2 n0 deposit (mid + 1) j in
    find_shoreline interp1d x profile sl = Ok shore ->
    (forall j, (j < m)%nat -> land j = true -> (j + 1 < m)%nat) ->
    exists g' sand' deposit',
      fluvial_step interp1d dt c g = Ok g'
      /\ node g' SAND = Some sand' /\ shaped (n + 2) m sand'
      /\ node g' DEPOSIT = Some deposit' /\ shaped (n + 2) m deposit'
      /\ (forall name, name <> SAND -> name <> DEPOSIT -> node g' name = node g name)
      /\ at_grid g' = at_grid g /\ at_row g' = at_row g /\ layers g' = layers g
      /\ (forall i j, (i < n + 2)%nat -> (j < m)%nat -> i <> (mid + 1)%nat ->
            at2 n0 sand' i j = at2 n0 sand i j /\ at2 n0 deposit' i j = at2 n0 deposit i j)
      /\ (forall j, (j < m)%nat -> land j = false -> at2 n0 sand' (mid + 1) j = n0)
      /\ (forall j, (j < m)%nat -> land j = true -> exists conc,
            at2 n0 sand' (mid + 1) j
            = sand_node (width_of c) (depth_of c g shore profile j) conc (r_b j * eps) (r_b j))
      /\ (land 0%nat = true ->
            at2 n0 sand' (mid + 1) 0
            = sand_node (width_of c) (depth_of c g shore profile 0)
                (fl_sediment_load c * (n1 - fl_sand_frac c) / fl_sand_frac c / discharge_of c)
                (r_b 0%nat * eps) (r_b 0%nat))
      /\ (forall j, (j < m)%nat -> water j = false ->
            at2 n0 deposit' (mid + 1) j = at2 n0 deposit (mid + 1) j)
      /\ (forall j, (j < m)%nat -> water j = true -> exists t, taper_of trans j t
            /\ at2 n0 deposit' (mid + 1) j
               = at2 n0 deposit (mid + 1) j + mud_value (fl_wave_base c) (fl_hemi c * dt) x wd t j).
  Proof.
    intros Hn Hm Hn0 Hm2 Ez Sz Ed Sd Ei Si Es Ss El Hsf Hps Hqw mid x profile wd land water trans eps r_b Hshore Hland.
    destruct (fluvial_step_walk interp1d dt c g z deposit inc sand sl shore n m Hn Hm Hn0 Hm2 Ez Sz Ed Sd Ei Si Es Ss El Hsf Hps Hqw Hshore Hland)
      as [g' [sand' [deposit' [E [_ R]]]]].
    exists g', sand', deposit'. split; [exact E|]. exact R.
  Qed.

  (** never above one, never below zero, in any arithmetic *)
  Lemma sand_node_range cw d conc r_cb r_b :
    (n1 <? n0) = false -> (n0 <? n0) = false -> (n1 <? n1) = false ->
    (n1 <? sand_node cw d conc r_cb r_b) = false /\ (sand_node cw d conc r_cb r_b <? n0) = false.
  Proof.
    intros H10 H00 H11. unfold sand_node.
    destruct (n0 <? r_b); [|split; assumption].
    match goal with |- context [if n1 <? ?v then n1 else ?v] => generalize v end. intros v.
    destruct (n1 <? v) eqn:E1.
    - rewrite H10. split; assumption.
    - destruct (v <? n0) eqn:E2; split; assumption.
  Qed.
End Any.
