(** Facts about submarine diffusion. *)
From Coq Require Import String List Reals Lra Lia Arith QArith.
From Verif.Base Require Import Num Py Arr.
From Verif.Model Require Import Layers Grid Shoreline Flexure Submarine Clients.
From Verif.Spec Require Import Diffusion.
From Verif.Proofs Require Import GridP.
Import ListNotations.
Local Open Scope R_scope.

Lemma half_R : Q2R (1 # 2) = 1 / 2.
Proof. unfold Q2R; simpl; lra. Qed.

Lemma kd_node_rule (c : submarine R) load load_land dx shore ch x wd k :
  kd_node c load (load_land / sb_plain_slope c) dx shore ch x wd k
  = diffusion_rule load load_land dx (sb_plain_slope c) (sb_wave_base c) (sb_shoreface_height c)
      (sb_alpha c) (sb_shelf_slope c) (sb_basin_width c) x shore wd ch.
Proof.
  unfold kd_node, diffusion_rule, land_value, shelf_value. numR. transR. rewrite ?n0_R, half_R.
  destruct (Rle_dec wd 0) as [H0|H0].
  - replace (Rltb 0 wd) with false by (symmetry; apply Rltb_false; lra). cbv iota.
    rewrite Bool.andb_true_r.
    destruct (Rlt_dec 0 (sb_basin_width c)) as [H1|H1].
    + replace (Rltb 0 (sb_basin_width c)) with true by (symmetry; apply Rltb_true; lra).
      destruct ch; simpl; lra.
    + replace (Rltb 0 (sb_basin_width c)) with false by (symmetry; apply Rltb_false; lra).
      destruct ch; simpl; lra.
  - replace (Rltb 0 wd) with true by (symmetry; apply Rltb_true; lra). cbv iota.
    rewrite Bool.andb_false_r.
    destruct (Rle_dec wd (sb_wave_base c)) as [H1|H1].
    + replace (Rltb (sb_wave_base c) wd) with false by (symmetry; apply Rltb_false; lra). lra.
    + replace (Rltb (sb_wave_base c) wd) with true by (symmetry; apply Rltb_true; lra). reflexivity.
Qed.

Section Rows.
  Context {A : Type} `{Num A} `{Trans A}.

  Lemma refresh_refresh (s : A) c : refresh_load s (refresh_load s c) = refresh_load s c.
  Proof. reflexivity. Qed.

  Lemma kd_rows_spec (sl dx : A) x n shores : forall zs ks c row c' ks',
    length zs = length shores -> length ks = length shores ->
    kd_rows c sl dx x n row shores zs ks = (c', ks') ->
    length ks' = length shores
    /\ c' = (if Nat.eqb (length shores) 0 then c else refresh_load sl c)
    /\ forall i, (i < length shores)%nat ->
       nth i ks' [] = zipw (fun xj zk =>
           kd_node c (if Nat.eqb i 0 then sb_load c else sb_load (refresh_load sl c))
             (sb_ksh (refresh_load sl c)) dx (nth i shores n0)
             (Nat.eqb (row + i) (Nat.div2 n)) xj (nsub sl (fst zk)) (snd zk))
         x (combine (nth i zs []) (nth i ks [])).
  Proof.
    induction shores as [|s shores IH]; intros [|z zs] [|k ks] c row c' ks' Hz Hk E;
      try discriminate; simpl in Hz, Hk.
    - inversion E; subst. repeat split. intros i Hi; simpl in Hi; lia.
    - cbn [kd_rows] in E.
      destruct (kd_rows (refresh_load sl c) sl dx x n (S row) shores zs ks) as [c1 rest] eqn:E1.
      inversion E; subst; clear E.
      destruct (IH zs ks _ _ _ _ (eq_add_S _ _ Hz) (eq_add_S _ _ Hk) E1) as [Hl [Hc Hn]].
      split; [simpl; lia|]. split.
      + rewrite Hc. simpl. destruct (Nat.eqb (length shores) 0); reflexivity.
      + intros i Hi. destruct i as [|i].
        * cbn [nth]. rewrite Nat.add_0_r. reflexivity.
        * cbn [nth]. rewrite Hn by (simpl in Hi; lia).
          replace (S row + i)%nat with (row + S i)%nat by lia.
          destruct i; reflexivity.
  Qed.
End Rows.

Lemma nth_x_of_column (g : grid R) j : (j < g_cols g)%nat -> nth j (x_of_column g) 0 = INR j * g_dx g.
Proof.
  intros Hj. unfold x_of_column. rewrite nth_map' with (da := 0%nat) by (rewrite seq_length; lia).
  rewrite seq_nth by assumption. rewrite nofnat_R. reflexivity.
Qed.
Lemma x_of_column_length {A} `{Num A} (g : grid A) : length (x_of_column g) = g_cols g.
Proof. unfold x_of_column. rewrite map_length, seq_length. reflexivity. Qed.

Lemma mirror_boundary_eq {A} (k : field A) : (2 <= length k)%nat ->
  mirror_boundary k = lset k 0 (nth 1 k []).
Proof.
  intros Hk. unfold mirror_boundary. set (k1 := lset k 0 (nth 1 k [])).
  assert (Hl : length k1 = length k) by apply lset_length.
  apply nth_ext' with (d := []); [rewrite lset_length; reflexivity|].
  intros i Hi. rewrite lset_length in Hi.
  destruct (Nat.eq_dec i (length k1 - 1)) as [->|Hn].
  - rewrite nth_lset_eq by lia. reflexivity.
  - rewrite nth_lset_neq by lia. reflexivity.
Qed.

(** the whole calculation *)
Lemma calc_diffusion_spec (c : submarine R) (g : grid R) z kd sl shores n m :
  g_rows g = n -> g_cols g = m -> (0 < n)%nat ->
  node g TOPO = Some z -> shaped (n + 2) m z ->
  node g KD = Some kd -> shaped (n + 2) m kd ->
  gval g SEALEVEL = Some sl -> length shores = n ->
  exists kd', calc_diffusion_coef shores c g = Ok (refresh_load sl c, put_node g KD kd')
    /\ shaped (n + 2) m kd'
    /\ (forall i j, (i < n)%nat -> (j < m)%nat ->
          at2 0 kd' (i + 1) j
          = diffusion_rule (if Nat.eqb i 0 then sb_load c else sb_load0 c * (1 + sl * sb_load_sl c))
              (sb_load0 c * (1 + sl * sb_load_sl c)) (g_dx g) (sb_plain_slope c) (sb_wave_base c)
              (sb_shoreface_height c) (sb_alpha c) (sb_shelf_slope c) (sb_basin_width c)
              (INR j * g_dx g) (nth i shores 0) (sl - at2 0 z (i + 1) j)
              (Nat.eqb i (Nat.div2 n)))
    /\ nth 0 kd' [] = nth 1 kd' []
    /\ nth (n + 1) kd' [] = nth (n + 1) kd [].
Proof.
  intros Hr Hc Hn Ez Sz Ek Sk Es Hsh.
  unfold calc_diffusion_coef, gval_r. rewrite Es. cbn [bind].
  rewrite (get_profile_ok _ _ _ Ez), (get_profile_ok _ _ _ Ek). cbn [bind].
  pose proof (shaped_inner _ _ _ Sz) as Siz. pose proof (shaped_inner _ _ _ Sk) as Sik.
  rewrite (shaped_len _ _ _ Sik), Hsh, Nat.eqb_refl. cbn [negb].
  destruct (kd_rows c sl (g_dx g) (x_of_column g) n 0 shores (inner z) (inner kd)) as [c1 k1] eqn:E1.
  assert (Hlz : length (inner z) = length shores) by (rewrite (shaped_len _ _ _ Siz); lia).
  assert (Hlk : length (inner kd) = length shores) by (rewrite (shaped_len _ _ _ Sik); lia).
  destruct (kd_rows_spec _ _ _ _ _ _ _ _ _ _ _ Hlz Hlk E1)
    as [Hl [Hc1 Hk1]].
  rewrite Hsh in Hl, Hk1.
  destruct (Nat.eqb (length shores) 0) eqn:E0; [apply Nat.eqb_eq in E0; lia|]. subst c1.
  rewrite (set_profile_ok _ _ _ _ Ek). cbn [bind]. unfold node_r. rewrite node_put_same. cbn [bind].
  rewrite put_node_put_node.
  assert (Sk1 : shaped n m k1).
  { apply shaped_of_nth; [assumption|]. intros i Hi. rewrite Hk1 by assumption.
    rewrite zipw_length, x_of_column_length, combine_length,
      (shaped_nth _ _ _ _ Siz Hi), (shaped_nth _ _ _ _ Sik Hi). lia. }
  set (k2 := set_inner kd k1).
  assert (Sk2 : shaped (n + 2) m k2) by (apply shaped_set_inner; assumption).
  assert (Hk2 : length k2 = (n + 2)%nat) by apply (shaped_len _ _ _ Sk2).
  rewrite mirror_boundary_eq by lia.
  exists (lset k2 0 (nth 1 k2 [])). split; [reflexivity|].
  assert (Hmid : forall i, (1 <= i)%nat -> nth i (lset k2 0 (nth 1 k2 [])) [] = nth i k2 [])
    by (intros; apply nth_lset_neq; lia).
  repeat split.
  - rewrite lset_length. assumption.
  - intros r Hin. apply In_nth with (d := []) in Hin. destruct Hin as [i [Hi <-]].
    rewrite lset_length in Hi. destruct i.
    + rewrite nth_lset_eq by lia. apply (shaped_nth _ _ _ _ Sk2); lia.
    + rewrite Hmid by lia. apply (shaped_nth _ _ _ _ Sk2); lia.
  - intros i j Hi Hj. unfold at2 at 1. rewrite Hmid by lia.
    change (nth j (nth (i + 1) k2 []) 0) with (at2 0 k2 (i + 1) j). unfold k2.
    rewrite (at2_set_inner n m) by (try assumption; lia).
    destruct (Nat.leb_spec 1 (i + 1)); [|lia]. destruct (Nat.leb_spec (i + 1) n); [|lia]. cbn [andb].
    replace (i + 1 - 1)%nat with i by lia. unfold at2 at 1. rewrite Hk1 by assumption.
    rewrite nth_zipw with (da := 0) (db := (0, 0))
      by (rewrite ?x_of_column_length, ?combine_length, ?(shaped_nth _ _ _ _ Siz Hi), ?(shaped_nth _ _ _ _ Sik Hi); lia).
    rewrite combine_nth by (rewrite (shaped_nth _ _ _ _ Siz Hi), (shaped_nth _ _ _ _ Sik Hi); reflexivity).
    cbn [fst snd]. rewrite nth_x_of_column by lia.
    replace (sb_ksh (refresh_load sl c)) with (sb_load0 c * (1 + sl * sb_load_sl c) / sb_plain_slope c)
      by (unfold refresh_load, sb_with; cbn [sb_ksh sb_plain_slope]; numR; rewrite n1_R; reflexivity).
    rewrite kd_node_rule. cbn [plus]. rewrite n0_R.
    unfold refresh_load, sb_with. cbn [sb_load]. numR. rewrite n1_R.
    replace (i + 1)%nat with (S i) by lia.
    rewrite <- (at2_inner n m z) by assumption. reflexivity.
  - rewrite nth_lset_eq by lia. rewrite Hmid by lia. reflexivity.
  - rewrite Hmid by lia. unfold k2.
    rewrite nth_set_inner by (rewrite (shaped_len _ _ _ Sk), ?Hl; lia).
    rewrite (shaped_len _ _ _ Sk). destruct (Nat.eqb_spec (n + 1) 0); [lia|].
    destruct (Nat.eqb_spec (n + 1) (n + 2 - 1)); [reflexivity|lia].
Qed.

Lemma shelf_value_pos load dx h al s x shore depth :
  0 < load -> 0 < dx -> 0 <= h * al + s -> shore <= x -> 0 < depth ->
  0 < shelf_value load dx h al s x shore depth.
Proof.
  intros. unfold shelf_value. apply Rdiv_lt_0_compat.
  - apply Rmult_lt_0_compat; lra.
  - assert (0 <= (h * al + s) * dx) by (apply Rmult_le_pos; lra). lra.
Qed.

Lemma land_value_pos load ps bw x : 0 < load -> 0 < ps -> 0 <= x -> 0 < land_value load ps bw x.
Proof.
  intros. unfold land_value. assert (0 < load / ps) by (apply Rdiv_lt_0_compat; lra).
  destruct (Rlt_dec 0 bw); [|assumption].
  apply Rdiv_lt_0_compat; [|assumption]. apply Rmult_lt_0_compat; lra.
Qed.

Lemma diffusion_rule_pos ls ll dx ps wb h al s bw x shore depth ch :
  0 < ls -> 0 < ll -> 0 < dx -> 0 < ps -> 0 <= h * al + s -> 0 <= x ->
  (0 < depth -> shore <= x) ->
  0 < diffusion_rule ls ll dx ps wb h al s bw x shore depth ch.
Proof.
  intros. unfold diffusion_rule. destruct (Rle_dec depth 0) as [Hd|Hd].
  - apply Rmult_lt_0_compat; [apply land_value_pos; assumption|]. destruct ch; lra.
  - apply Rmult_lt_0_compat.
    + apply shelf_value_pos; try assumption; [apply H5|]; lra.
    + destruct (Rle_dec depth wb); [lra|apply exp_pos].
Qed.

(** ** histories *)

Definition diff_start (p : sub_params R) : diff_now :=
  mkNow (p_plain_slope p) (p_sediment_load p) (p_wave_base p) (p_shoreface_height p)
    (p_alpha p) (p_shelf_slope p) (p_sea_level p).

Record diff_inv (p : sub_params R) (g0 : grid R) (top : list R) (now : diff_now) (used : R)
    (c : submarine R) (g : grid R) : Prop := mkInv {
  di_ps : sb_plain_slope c = now_plain_slope now;
  di_l0 : sb_load0 c = now_sediment_load now;
  di_wb : sb_wave_base c = now_wave_base now;
  di_sh : sb_shoreface_height c = now_shoreface_height now;
  di_al : sb_alpha c = now_alpha now;
  di_ss : sb_shelf_slope c = now_shelf_slope now;
  di_sl : gval g SEALEVEL = Some (now_sea_level now);
  di_lsl : sb_load_sl c = p_load_sealevel p;
  di_bw : sb_basin_width c = p_basin_width p;
  di_init : sb_init_sea_level c = p_sea_level p;
  di_load : sb_load c = now_sediment_load now * (1 + used * p_load_sealevel p);
  di_ksh : sb_ksh c = sb_load c / sb_plain_slope c;
  di_rows : g_rows g = g_rows g0;
  di_cols : g_cols g = g_cols g0;
  di_dx : g_dx g = g_dx g0;
  di_topo : exists z, node g TOPO = Some z /\ shaped (g_rows g0 + 2) (g_cols g0) z;
  di_kd : exists k, node g KD = Some k /\ shaped (g_rows g0 + 2) (g_cols g0) k
            /\ nth (g_rows g0 + 1) k [] = top
}.

Ltac sbn := cbn [sb_plain_slope sb_load0 sb_wave_base sb_shoreface_height sb_alpha sb_shelf_slope
    sb_load_sl sb_basin_width sb_init_sea_level sb_load sb_ksh diff_start now_plain_slope now_sediment_load
    now_wave_base now_shoreface_height now_alpha now_shelf_slope now_sea_level
    set_plain_slope set_wave_base set_shoreface_height set_alpha set_shelf_slope sb_with refresh_load
    ].

Lemma diff_step_inv p g0 top now used c g op :
  (0 < g_rows g0)%nat ->
  diff_inv p g0 top now used c g -> diff_ok (g_rows g0) (g_cols g0) op ->
  let '(c', g') := diff_exec (c, g) op in
  diff_inv p g0 top (diff_track now op) (level_used (p_sea_level p) used (now_sea_level now) [op]) c' g'.
Proof.
  intros Hn Hi Hok. pose proof Hi as Hi0. destruct Hi. destruct now as [ps sl wb sh al ss w].
  cbn [now_plain_slope now_sediment_load now_wave_base now_shoreface_height now_alpha now_shelf_slope
       now_sea_level] in *.
  destruct op; cbn [diff_exec diff_track level_used].
  - constructor; sbn; auto.
  - unfold set_sediment_load, sb_with. constructor; sbn; numR; rewrite ?n1_R; auto; try congruence.
    + rewrite <- di_sl0, gval_put_gval. eqb_lit. reflexivity.
  - constructor; sbn; auto.
  - constructor; sbn; auto.
  - constructor; sbn; auto.
  - constructor; sbn; auto.
  - constructor; sbn; auto. unfold set_sea_level; rewrite gval_put_gval, String.eqb_refl; reflexivity.
  - cbn [diff_ok] in Hok. constructor; sbn; auto.
    + exists z. split; [apply node_put_same|assumption].
    + destruct di_kd0 as [k [Ek Sk]]. exists k. rewrite node_put_node. eqb_lit. auto.
  - cbn [diff_ok] in Hok.
    destruct di_topo0 as [z [Ez Sz]]. destruct di_kd0 as [k [Ek [Sk Hk]]].
    destruct (calc_diffusion_spec c g z k w shores _ _ di_rows0 di_cols0 Hn Ez Sz Ek Sk di_sl0 Hok)
      as [k' [E [Sk' [_ [_ Htop]]]]].
    rewrite E. constructor; sbn; auto; numR; rewrite ?n1_R; try congruence.
    + exists z. rewrite node_put_node. eqb_lit. auto.
    + exists k'. rewrite node_put_same. repeat split; auto; try apply Sk'. congruence.
Qed.

Lemma level_used_app initial used now ops1 ops2 :
  forall d, now_sea_level d = now ->
  level_used initial used now (ops1 ++ ops2)
  = level_used initial (level_used initial used now ops1) (now_sea_level (diff_tracked d ops1)) ops2.
Proof.
  revert used now; induction ops1 as [|op ops1 IH]; intros used now d Hd.
  - cbn. rewrite Hd. reflexivity.
  - unfold diff_tracked. cbn [fold_left app]. fold (diff_tracked (diff_track d op) ops1).
    destruct d as [ps sl wb sh al ss w]; cbn in Hd; subst w.
    destruct op; cbn [level_used diff_track]; apply IH; reflexivity.
Qed.

Lemma diff_run_inv p g0 top ops : (0 < g_rows g0)%nat ->
  (forall op, In op ops -> diff_ok (g_rows g0) (g_cols g0) op) ->
  forall now used c g, diff_inv p g0 top now used c g ->
  let '(c', g') := diff_run ops (c, g) in
  diff_inv p g0 top (diff_tracked now ops) (level_used (p_sea_level p) used (now_sea_level now) ops) c' g'.
Proof.
  intros Hn. induction ops as [|op ops IH]; intros Hok now used c g Hi; [assumption|].
  unfold diff_run, diff_tracked. cbn [fold_left]. fold (diff_tracked (diff_track now op) ops).
  pose proof (diff_step_inv p g0 top now used c g op Hn Hi (Hok _ (or_introl eq_refl))) as H1.
  destruct (diff_exec (c, g) op) as [c1 g1]. fold (diff_run ops (c1, g1)).
  specialize (IH (fun o Ho => Hok o (or_intror Ho)) _ _ c1 g1 H1).
  destruct (diff_run ops (c1, g1)) as [c2 g2].
  replace (level_used (p_sea_level p) used (now_sea_level now) (op :: ops))
    with (level_used (p_sea_level p) (level_used (p_sea_level p) used (now_sea_level now) [op])
            (now_sea_level (diff_track now op)) ops); [assumption|].
  destruct now as [ps sl wb sh al ss w]. destruct op; reflexivity.
Qed.

Lemma submarine_init_inv p (g c0 : _) g1 z :
  node g TOPO = Some z -> shaped (g_rows g + 2) (g_cols g) z ->
  node g KD = None ->
  submarine_init p g = Ok (c0, g1) ->
  diff_inv p g (repeat 0 (g_cols g)) (diff_start p) (p_sea_level p) c0 g1.
Proof.
  intros Ez Sz Ek E. unfold submarine_init in E.
  destruct (p_plain_slope p =? n0)%num; [discriminate|].
  injection E as <- <-.
  set (g2 := put_gval (put_gval g SEALEVEL (p_sea_level p)) "sediment_load" _).
  assert (Hkd : ensure_node g2 KD = put_node g2 KD (full (g_rows g + 2) (g_cols g) n0)).
  { unfold ensure_node. replace (has_node g2 KD) with false; [reflexivity|].
    unfold has_node, din. change (dget String.eqb (at_node g2) KD) with (node g KD). rewrite Ek. reflexivity. }
  rewrite Hkd.
  assert (Hn : forall n f, n <> DEPOSIT -> node (put_node g2 KD (full (g_rows g + 2) (g_cols g) n0)) n = Some f ->
     node (ensure_node (put_node g2 KD (full (g_rows g + 2) (g_cols g) n0)) DEPOSIT) n = Some f).
  { intros n f Hne Hf. unfold ensure_node. destruct (has_node _ DEPOSIT); [assumption|].
    rewrite node_put_node. destruct (String.eqb_spec n DEPOSIT); [contradiction|assumption]. }
  assert (Hg : forall h : grid R, at_grid (ensure_node h DEPOSIT) = at_grid h
    /\ g_rows (ensure_node h DEPOSIT) = g_rows h /\ g_cols (ensure_node h DEPOSIT) = g_cols h
    /\ g_dx (ensure_node h DEPOSIT) = g_dx h)
    by (intros h; unfold ensure_node; destruct (has_node h DEPOSIT); auto).
  destruct (Hg (put_node g2 KD (full (g_rows g + 2) (g_cols g) n0))) as [Ha [Hb [Hc Hd]]].
  constructor; cbn [sb_plain_slope sb_load0 sb_wave_base sb_shoreface_height sb_alpha sb_shelf_slope
    sb_load_sl sb_basin_width sb_init_sea_level sb_load sb_ksh diff_start now_plain_slope now_sediment_load
    now_wave_base now_shoreface_height now_alpha now_shelf_slope now_sea_level];
    numR; rewrite ?n1_R; auto.
  - unfold gval. rewrite Ha. change (at_grid (put_node g2 KD (full (g_rows g + 2) (g_cols g) n0))) with (at_grid g2).
    change (gval g2 SEALEVEL = Some (p_sea_level p)). unfold g2.
    rewrite gval_put_gval. eqb_lit. rewrite gval_put_gval, String.eqb_refl. reflexivity.
  - exists z. split; [|assumption]. apply Hn; [discriminate|]. rewrite node_put_node. eqb_lit. assumption.
  - exists (full (g_rows g + 2) (g_cols g) n0). split; [apply Hn; [discriminate|apply node_put_same]|].
    split; [apply shaped_full|]. unfold full. rewrite nth_repeat' by lia. rewrite n0_R. reflexivity.
Qed.

Lemma diff_run_topo ops : forall c g z, node g TOPO = Some z ->
  node (snd (diff_run ops (c, g))) TOPO = Some (last_topography z ops).
Proof.
  induction ops as [|op ops IH]; intros c g z Ez; [assumption|].
  unfold diff_run. cbn [fold_left]. destruct (diff_exec (c, g) op) as [c1 g1] eqn:E.
  fold (diff_run ops (c1, g1)).
  destruct op; cbn [diff_exec] in E; cbn [last_topography];
    try (injection E as <- <-; apply IH; try assumption; apply node_put_same).
  apply IH. unfold calc_diffusion_coef in E.
  destruct (gval_r g SEALEVEL) as [w|]; cbn [bind] in E; [|congruence].
  destruct (get_profile g TOPO) as [zz|]; cbn [bind] in E; [|congruence].
  destruct (get_profile g KD) as [kk|]; cbn [bind] in E; [|congruence].
  destruct (negb _) in E; [congruence|].
  destruct (kd_rows _ _ _ _ _ _ _ _ _) as [c2 k2].
  unfold set_profile, node_r in E. destruct (node g KD) as [k|]; cbn [bind] in E; [|congruence].
  rewrite node_put_same in E. cbn [bind] in E. injection E as <- <-.
  rewrite !node_put_node. eqb_lit. assumption.
Qed.

(** the coefficients calculated after any history *)
Lemma diff_history ps0 load0 wb0 sh0 al0 ss0 w0 lsl bw (g : grid R) z0 c0 g0 ops shores :
  (0 < g_rows g)%nat -> node g TOPO = Some z0 -> shaped (g_rows g + 2) (g_cols g) z0 ->
  node g KD = None ->
  submarine_init (mkSubParams w0 ps0 wb0 sh0 al0 ss0 load0 lsl bw) g = Ok (c0, g0) ->
  (forall op, In op ops -> diff_ok (g_rows g) (g_cols g) op) -> length shores = g_rows g ->
  let z := last_topography z0 ops in
  let now := diff_tracked (mkNow ps0 load0 wb0 sh0 al0 ss0 w0) ops in
  let load_at level := now_sediment_load now * (1 + level * lsl) in
  exists kd, node (snd (diff_run (ops ++ [Calc shores]) (c0, g0))) KD = Some kd
    /\ shaped (g_rows g + 2) (g_cols g) kd
    /\ (forall i j, (i < g_rows g)%nat -> (j < g_cols g)%nat ->
          at2 0 kd (i + 1) j
          = diffusion_rule
              (load_at (if Nat.eqb i 0 then level_used w0 w0 w0 ops else now_sea_level now))
              (load_at (now_sea_level now)) (g_dx g)
              (now_plain_slope now) (now_wave_base now) (now_shoreface_height now) (now_alpha now)
              (now_shelf_slope now) bw
              (INR j * g_dx g) (nth i shores 0) (now_sea_level now - at2 0 z (i + 1) j)
              (Nat.eqb i (Nat.div2 (g_rows g))))
    /\ (forall j, (j < g_cols g)%nat -> at2 0 kd 0 j = at2 0 kd 1 j)
    /\ (forall j, (j < g_cols g)%nat -> at2 0 kd (g_rows g + 1) j = 0).
Proof.
  intros Hn Ez Sz Ek Ei Hok Hsh z now load_at.
  set (p := mkSubParams w0 ps0 wb0 sh0 al0 ss0 load0 lsl bw) in *.
  pose proof (submarine_init_inv p g c0 g0 z0 Ez Sz Ek Ei) as I0.
  pose proof (diff_run_inv p g _ ops Hn Hok _ _ _ _ I0) as I1.
  assert (Ez0 : node g0 TOPO = Some z0).
  { destruct I0. clear - Ei Ez. unfold submarine_init in Ei.
    destruct (p_plain_slope p =? n0)%num; [discriminate|]. injection Ei as _ <-.
    unfold ensure_node.
    repeat match goal with |- context [if ?b then _ else _] => destruct b end;
      rewrite ?node_put_node; eqb_lit; exact Ez. }
  pose proof (diff_run_topo ops c0 g0 z0 Ez0) as Ez1. fold z in Ez1.
  unfold diff_run. rewrite fold_left_app. fold (diff_run ops (c0, g0)).
  destruct (diff_run ops (c0, g0)) as [c1 g1]. cbn [snd] in Ez1.
  destruct I1. destruct di_topo0 as [z1 [Ez1' Sz1]]. rewrite Ez1 in Ez1'. injection Ez1' as <-.
  destruct di_kd0 as [k [Ek1 [Sk1 Htop]]].
  destruct (calc_diffusion_spec c1 g1 z k _ shores _ _ di_rows0 di_cols0 Hn Ez1 Sz1 Ek1 Sk1 di_sl0 Hsh)
    as [k' [E [Sk' [Hk' [Hb Ht]]]]].
  cbn [fold_left diff_exec]. rewrite E. cbn [snd]. exists k'. rewrite node_put_same.
  split; [reflexivity|]. split; [assumption|]. split; [|split].
  - intros i j Hi Hj. rewrite Hk' by assumption.
    rewrite di_load0, di_l1, di_lsl0, di_ps0, di_wb0, di_sh0, di_al0, di_ss0, di_bw0, di_dx0.
    cbn [p_load_sealevel p p_sea_level p_basin_width].
    change (now_sea_level (diff_start p)) with w0.
    fold now. unfold load_at. change (diff_tracked (diff_start p) ops) with now.
    destruct (Nat.eqb i 0); reflexivity.
  - intros j Hj. unfold at2. rewrite Hb. reflexivity.
  - intros j Hj. unfold at2. rewrite Ht, Htop. apply nth_repeat'. assumption.
Qed.

Lemma level_used_snoc_calc w0 used ops s d :
  level_used w0 used (now_sea_level d) (ops ++ [Calc s]) = now_sea_level (diff_tracked d ops).
Proof. rewrite (level_used_app w0 used (now_sea_level d) ops [Calc s] d eq_refl). reflexivity. Qed.

Lemma diff_tracked_app d ops1 ops2 : diff_tracked d (ops1 ++ ops2) = diff_tracked (diff_tracked d ops1) ops2.
Proof. apply fold_left_app. Qed.
