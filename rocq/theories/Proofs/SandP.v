(** The sand fraction of land columns (C97). *)
From Coq Require Import String List ZArith QArith Reals Lra Lia Arith Bool.
From Verif.Base Require Import Num Py Arr.
From Verif.Model Require Import Layers Grid Shoreline Flexure Submarine Fluvial.
From Verif.Spec Require Import Profile Deposition Sand.
From Verif.Proofs Require Import GridP ShorelineP SubmarineP FluvialP FluvialR.
Import ListNotations.
Local Open Scope R_scope.

Ltac lits := repeat match goal with
  | |- context [@nlit R Num_R ?q] => let v := eval cbv in (Qnum q) in let d := eval cbv in (Qden q) in
      replace (@nlit R Num_R q) with (IZR v / IZR (Zpos d)) by (cbn; unfold Q2R; cbn [Qnum Qden]; lra)
  end.

Lemma mud_carried_ext supply dx dt rise s s' : forall j, (forall i, (i < j)%nat -> s i = s' i) ->
  mud_carried supply dx dt rise s j = mud_carried supply dx dt rise s' j.
Proof.
  induction j as [|j IH]; intros E; [reflexivity|]. cbn [mud_carried]. rewrite IH by (intros; apply E; lia). rewrite (E j) by lia. reflexivity.
Qed.

Lemma walk_budget cw cd r_cb r_b dz dx dt qw m mud0 conc ps0 :
  length dz = m -> length conc = m -> length ps0 = m -> nth 0 conc 0 = mud0 / qw ->
  forall k, (k < m)%nat -> forall mud' conc' ps',
  foldM (walk_node cw cd r_cb r_b dz dx dt qw) (seq 0 k) (mud0, conc, ps0) = Ok (mud', conc', ps') ->
  let carried := mud_carried mud0 dx dt (fun i => nth i dz 0) (fun i => nth i ps' 0) in
  length conc' = m /\ length ps' = m /\ mud' = carried k /\ nth k conc' 0 = mud' / qw
  /\ (forall j, (j < k)%nat -> nth j ps' 0 = sand_node cw (nth j cd 0) (carried j / qw) (nth j r_cb 0) (nth j r_b 0))
  /\ (forall j, (k <= j)%nat -> nth j ps' 0 = nth j ps0 0).
Proof.
  intros Ld Lc Lp H0. induction k as [|k IH]; intros Hk mud' conc' ps' E.
  - cbn in E. inversion E; subst. cbn [mud_carried]. repeat split; auto. intros; lia.
  - rewrite seq_S, foldM_app in E. cbn [Nat.add] in E.
    destruct (foldM _ (seq 0 k) _) as [[[mud1 conc1] ps1]|] eqn:E1; [|discriminate E]. cbn [bind foldM] in E.
    destruct (IH ltac:(lia) _ _ _ eq_refl) as [L1 [L2 [Em [Ec [Es Eo]]]]]. clear IH.
    unfold walk_node in E. rewrite !n0_R in E.
    set (ps := sand_node cw (nth k cd 0) (nth k conc1 0) (nth k r_cb 0) (nth k r_b 0)) in E.
    destruct (nth_error dz (k + 1)) as [dz1|] eqn:En; [|apply nth_error_None in En; lia].
    assert (Edz : nth (S k) dz 0 = dz1) by (rewrite Nat.add_1_r in En; apply nth_error_nth with (d := 0) in En; exact En).
    rewrite L1, (proj2 (Nat.ltb_lt _ _)) in E by lia.
    set (mv := if Rlt_dec 0 (nth k dz 0) then mud1 - (1 - ps) * dx * (nth k dz 0 + dz1) / 2 / dt else mud1).
    assert (E' : mud' = mv /\ conc' = lset conc1 (k + 1) (mv / qw) /\ ps' = lset ps1 k ps).
    { unfold mv. destruct (Rlt_dec 0 (nth k dz 0)) as [L|L].
      - assert (B : nltb 0 (nth k dz 0) = true) by (apply Rltb_true; exact L). rewrite B in E. cbn [bind] in E.
        assert (T : @nlit R Num_R 2 = 2) by (cbn; unfold Q2R; cbn; lra). rewrite T, n1_R in E.
        assert (X : forall a b c a' b' c' : _, @Ok (R * list R * list R) (a, b, c) = Ok (a', b', c') -> a' = a /\ b' = b /\ c' = c)
          by (intros a b c a' b' c' X; injection X; auto).
        apply X in E. exact E.
      - assert (B : nltb 0 (nth k dz 0) = false) by (apply Rltb_false; lra). rewrite B in E. cbn [bind] in E. inversion E. auto. }
    destruct E' as [-> [-> ->]].
    assert (X : forall j, (j <= k)%nat -> mud_carried mud0 dx dt (fun i => nth i dz 0) (fun i => nth i (lset ps1 k ps) 0) j
                = mud_carried mud0 dx dt (fun i => nth i dz 0) (fun i => nth i ps1 0) j).
    { intros j Hj. apply mud_carried_ext. intros i Hi. rewrite nth_lset_neq by lia. reflexivity. }
    rewrite !lset_length. split; [exact L1|]. split; [exact L2|]. cbn [mud_carried]. rewrite X by lia.
    rewrite nth_lset_eq by lia. rewrite <- Em, Edz. split; [|split; [|split]].
    + unfold mv. destruct (Rlt_dec _ _); [reflexivity|lra].
    + rewrite Nat.add_1_r. rewrite nth_lset_eq by lia. reflexivity.
    + intros j Hj. rewrite X by lia. destruct (Nat.eq_dec j k) as [->|N].
      * rewrite nth_lset_eq by lia. unfold ps. rewrite Ec, <- Em. reflexivity.
      * rewrite nth_lset_neq by lia. apply Es. lia.
    + intros j Hj. rewrite nth_lset_neq by lia. apply Eo. lia.
Qed.

Lemma filter_prefix (p : nat -> bool) : forall m, (forall j, (S j < m)%nat -> p (S j) = true -> p j = true) ->
  exists L, (L <= m)%nat /\ filter p (seq 0 m) = seq 0 L /\ forall j, (j < m)%nat -> p j = (j <? L)%nat.
Proof.
  induction m as [|m IHm]; intros Hp.
  - exists 0%nat. repeat split; auto. intros; lia.
  - destruct IHm as [L [H1 [H2 H3]]]; [intros; apply Hp; [lia|assumption]|]. rewrite filter_seq_S, H2. destruct (p m) eqn:E.
    + assert (L = m).
      { destruct (Nat.eq_dec L m) as [|N]; [assumption|]. exfalso.
        assert (B : forall d, (d <= m)%nat -> p (m - d)%nat = true).
        { induction d as [|d IHd]; intros Hd; [rewrite Nat.sub_0_r; exact E|]. apply Hp; [lia|]. replace (S (m - S d)) with (m - d)%nat by lia. apply IHd. lia. }
        specialize (B (m - L)%nat ltac:(lia)). replace (m - (m - L))%nat with L in B by lia.
        rewrite H3 in B by lia. apply Nat.ltb_lt in B. lia. }
      subst L. exists (S m). split; [lia|]. split; [rewrite seq_S; reflexivity|].
      intros j Hj. destruct (Nat.eq_dec j m) as [->|N]; [rewrite E; symmetry; apply Nat.ltb_lt; lia|].
      rewrite H3 by lia. rewrite (proj2 (Nat.ltb_lt j m)), (proj2 (Nat.ltb_lt j (S m))) by lia. reflexivity.
    + exists L. split; [lia|]. split; [apply app_nil_r|]. intros j Hj. destruct (Nat.eq_dec j m) as [->|N]; [|apply H3; lia].
      rewrite E. symmetry. apply Nat.ltb_ge. exact H1.
Qed.

Lemma belt_share_bounds w d : 0 < belt_share w d <= 4 / 10.
Proof. unfold belt_share. destruct (Rlt_dec _ _); lra. Qed.
Lemma epsilon_share w d : channel_epsilon w d = belt_share w d.
Proof.
  unfold channel_epsilon, belt_share. lits. destruct (Rlt_dec 75 (w / d)) as [L|L].
  - assert (B : nltb (75 / 1) (w / d) = true) by (apply Rltb_true; lra). change (ndiv w d) with (w / d). rewrite B. reflexivity.
  - assert (B : nltb (75 / 1) (w / d) = false) by (apply Rltb_false; lra). change (ndiv w d) with (w / d). rewrite B. reflexivity.
Qed.

(* no clipping is needed: the formula is already a fraction *)
Lemma sand_node_land w d0 d conc dep : 0 <= w ->
  sand_node w d conc (dep * belt_share w d0) dep = land_sand w d0 d conc dep.
Proof.
  intros Hw. unfold sand_node, land_sand. rewrite epsilon_share. unfold fl_beta, flood_period, fl_alpha, fl_basin_width.
  numR. rewrite !n0_R, !n1_R. lits.
  destruct (belt_share_bounds w d0) as [B1 B2]. destruct (belt_share_bounds w d) as [B3 B4].
  set (e0 := belt_share w d0) in *. set (e := belt_share w d) in *.
  destruct (Rlt_dec 0 dep) as [Ld|Ld].
  2:{ assert (F : Rltb 0 dep = false) by (apply Rltb_false; lra). rewrite F. reflexivity. }
  rewrite (proj2 (Rltb_true 0 dep) Ld).
  assert (Pe : 0 < dep * e0) by (apply Rmult_lt_0_compat; lra).
  rewrite (proj2 (Rltb_false (dep * e0) 0)) by lra.
  set (f := 1 / 10 * d / (10 / 1) * conc).
  set (r := if Rltb (dep * e0) f then dep * e0 else f).
  assert (Er : r = dep * Rmin e0 (1 / 10 * d / 10 * conc / dep)).
  { unfold r. assert (Ef : f = dep * (1 / 10 * d / 10 * conc / dep)) by (unfold f; field; lra).
    set (q := 1 / 10 * d / 10 * conc / dep) in *. rewrite Ef. unfold Rmin. destruct (Rle_dec e0 q) as [L|L].
    - destruct (Rltb (dep * e0) (dep * q)) eqn:T; [reflexivity|]. apply Rltb_false in T. apply Rmult_le_reg_l in T; [|exact Ld].
      assert (e0 = q) by lra. rewrite H. reflexivity.
    - rewrite (proj2 (Rltb_false _ _)); [reflexivity|]. apply Rmult_le_compat_l; lra. }
  set (plain := Rmin e0 _) in *. assert (Hp : plain <= e0) by apply Rmin_l.
  assert (EN : forall b, 10 / 1 * (dep * b - r) / dep = 10 * (b - plain)) by (intros b; rewrite Er; field; lra).
  rewrite EN.
  set (rc := if Rltb 1 (10 * (e0 - plain)) then dep * e0 * (10 * (e0 - plain)) else dep * e0).
  set (rw := if Rlt_dec 1 (10 * (e0 - plain)) then e0 * (10 * (e0 - plain)) else e0).
  assert (Erc : rc = dep * rw).
  { unfold rc, rw. destruct (Rlt_dec 1 _) as [L|L].
    - rewrite (proj2 (Rltb_true _ _) L). ring.
    - rewrite (proj2 (Rltb_false _ _)) by lra. reflexivity. }
  assert (Hrw : e0 <= rw).
  { unfold rw. destruct (Rlt_dec 1 _) as [L|L]; [|lra]. rewrite <- (Rmult_1_r e0) at 1. apply Rmult_le_compat_l; lra. }
  assert (Prc : 0 < rc) by (rewrite Erc; apply Rmult_lt_0_compat; lra).
  assert (Fle : Rleb rc 0 = false) by (apply Rleb_false; lra).
  rewrite Fle, Erc, EN.
  match goal with |- (if Rltb (if Rltb 1 ?u then _ else _) _ then _ else _) = _ => set (v := u) end.
  assert (Ev : v = 1 - exp (- (w / e / 10000 * (10 * (rw - plain))))).
  { unfold v. apply f_equal. apply f_equal. replace (Q2R 10000) with 10000 by (unfold Q2R; cbn; lra). field. lra. }
  assert (Hexp : 0 <= v <= 1).
  { rewrite Ev. assert (P := exp_pos (- (w / e / 10000 * (10 * (rw - plain))))). split; [|lra].
    assert (Hneg : - (w / e / 10000 * (10 * (rw - plain))) <= 0).
    { assert (0 <= w / e / 10000 * (10 * (rw - plain))); [|lra]. apply Rmult_le_pos; [|lra].
      unfold Rdiv. rewrite Rmult_assoc. apply Rmult_le_pos; [exact Hw|]. apply Rlt_le, Rmult_lt_0_compat; [apply Rinv_0_lt_compat; lra|lra]. }
    assert (exp (- (w / e / 10000 * (10 * (rw - plain)))) <= 1); [|lra]. rewrite <- exp_0. destruct Hneg as [N|N]; [left; apply exp_increasing; exact N|rewrite N; lra]. }
  rewrite (proj2 (Rltb_false 1 v)) by lra. rewrite (proj2 (Rltb_false v 0)) by lra. exact Ev.
Qed.

Lemma gradient_slope dx (z : list R) gr j : (2 <= length z)%nat -> np_gradient z = Ok gr -> (j < length z)%nat ->
  nth j gr 0 / dx = slope dx (length z) (fun k => nth k z 0) j.
Proof.
  intros L E Hj. unfold np_gradient in E. rewrite (proj2 (Nat.ltb_ge _ _)) in E by lia.
  match type of E with Ok ?l = _ => assert (X : gr = l) by congruence end. rewrite X. clear E X.
  rewrite (nth_map' _ _ _ 0%nat) by (rewrite seq_length; lia). rewrite seq_nth by lia. cbn [Nat.add].
  unfold slope. rewrite !n0_R. destruct (Nat.eqb j 0); [reflexivity|]. destruct (Nat.eqb j _); [reflexivity|].
  assert (T : @nlit R Num_R 2 = 2) by (cbn; unfold Q2R; cbn; lra). rewrite T. reflexivity.
Qed.

Lemma width_spec (c : fluvial R) : width_of c = channel_width (fl_sediment_load c) (fl_sand_density c).
Proof.
  unfold width_of, channel_width, sand_grain. lits. rewrite n1_R. numR. change (@nsqrt R Trans_R) with sqrt.
  replace (10 / 1) with 10 by lra. replace (1000 / 1) with 1000 by lra. reflexivity.
Qed.
Lemma width_nonneg load density : 0 <= load -> 1000 < density -> 0 <= channel_width load density.
Proof.
  intros Hl Hd. unfold channel_width. assert (P : 0 < 98 / 10 * (density / 1000 - 1)) by lra. apply sqrt_lt_R0 in P.
  apply Rmult_le_pos; [exact Hl|]. apply Rlt_le, Rinv_0_lt_compat. lra.
Qed.

Section Exact.
  Variables (interp1d : list R -> list R -> result (R -> R)) (dt : R) (c : fluvial R) (g : grid R) (z deposit sand rise : field R) (sl : R) (g' : grid R).
  Theorem land_sand_exact : delta_grid g z deposit sand sl -> node g "bedrock_surface__increment_of_elevation" = Some rise ->
    fluvial_step interp1d dt c g = Ok g' -> 0 < g_dx g -> 0 <= fl_sediment_load c -> 1000 < fl_sand_density c ->
    exists shore sand', find_shoreline interp1d (x_of_column g) (nth (channel_row g) z []) sl = Ok shore
    /\ node g' "delta_sediment_sand__volume_fraction" = Some sand'
    /\ let width := channel_width (fl_sediment_load c) (fl_sand_density c) in
       let depth k := channel_depth (fl_sand_density c) (slope (g_dx g) (g_cols g) (at2 0 z (channel_row g)) k) in
       let supply := fl_sediment_load c * (1 - fl_sand_frac c) / fl_sand_frac c in
       let water := fl_sediment_load c / fl_plain_slope c / (61 / 100) in
       let mud k := mud_carried supply (g_dx g) dt (at2 0 rise (channel_row g)) (at2 0 sand' (channel_row g)) k in
       forall j, (j < g_cols g)%nat -> INR j * g_dx g < shore ->
         at2 0 sand' (channel_row g) j = land_sand width (depth 0%nat) (depth j) (mud j / water) (at2 0 deposit (channel_row g) j).
  Proof.
    intros D Ei' E Hdx Hload Hden. destruct (fluvial_step_inv _ _ _ _ _ _ _ _ _ D E) as [Hs [Hp [Hq [shore [Hsh Hl]]]]].
    pose proof (channel_profile _ _ _ _ _ D) as Lp. unpack D.
    assert (inc = rise) by (change BEDROCK_INC with "bedrock_surface__increment_of_elevation"%string in Ei; congruence). subst inc.
    destruct (fluvial_step_walk interp1d dt c g z deposit rise sand sl shore (g_rows g) (g_cols g)
                eq_refl eq_refl Hn Hm Ez Sz Ed Sd Ei Si Es Ss El Hs Hp Hq Hsh Hl)
      as [g1 [sand' [dep' [E1 [[cd [mud' [conc' [ps' [Ncd [Ew Nps]]]]]] [Es' [Ss' _]]]]]]].
    rewrite E in E1. assert (Eg : g1 = g') by congruence. subst g1. clear E1.
    exists shore, sand'. split; [exact Hsh|]. split; [exact Es'|]. intros width depth supply water mud j Hj Lj.
    set (m := g_cols g) in *. rewrite n0_R, n1_R in *. fold (channel_row g) in *.
    set (land := fun j => (nth j (x_of_column g) 0 <? shore)%num) in *.
    assert (Hland : forall k, (k < m)%nat -> land k = true <-> INR k * g_dx g < shore).
    { intros k Hk. unfold land. rewrite nth_x_of_column by exact Hk. apply Rltb_true. }
    destruct (filter_prefix land m) as [L [HL [EL BL]]].
    { intros k Hk Hk'. apply Hland; [lia|]. apply Hland in Hk'; [|exact Hk]. rewrite S_INR in Hk'. lra. }
    rewrite EL in Ew. assert (HjL : (j < L)%nat) by (apply Nat.ltb_lt; rewrite <- BL by exact Hj; apply Hland; assumption).
    assert (HLm : (L < m)%nat).
    { assert (X : land (L - 1)%nat = true -> (L - 1 + 1 < m)%nat) by (intros B; apply Hl; [lia|rewrite ?n0_R; exact B]).
      rewrite BL in X by lia. rewrite (proj2 (Nat.ltb_lt _ _)) in X by lia. specialize (X eq_refl). lia. }
    assert (Hcr : (channel_row g < g_rows g + 2)%nat) by (unfold channel_row; pose proof (Nat.lt_div2 (g_rows g) Hn); lia).
    destruct (walk_budget _ _ _ _ _ _ _ _ m _ _ _ (shaped_nth _ _ _ _ Si Hcr) ltac:(rewrite lset_length; apply repeat_length)
      (repeat_length _ _) ltac:(rewrite nth_lset_eq by (rewrite repeat_length; lia); reflexivity) L HLm _ _ _ Ew) as [_ [_ [_ [_ [Es1 _]]]]].
    change (Nat.div2 (g_rows g) + 1)%nat with (channel_row g) in *.
    assert (Hdepth : forall k, (k < L)%nat -> depth_of c g shore (nth (channel_row g) z []) k = depth k).
    { intros k Hk. unfold depth_of, depth, channel_depth. rewrite n0_R.
      assert (B : land k = true) by (rewrite BL by lia; apply Nat.ltb_lt; exact Hk). unfold land in B. rewrite B.
      destruct (np_gradient_ok (nth (channel_row g) z []) ltac:(lia)) as [gr [Eg _]]. rewrite Eg.
      change (ndiv (nth k gr 0) (g_dx g)) with (nth k gr 0 / g_dx g).
      rewrite (gradient_slope (g_dx g) (nth (channel_row g) z []) gr k ltac:(lia) Eg ltac:(lia)), Lp. unfold sand_grain. lits. numR.
      replace (1000 / 1) with 1000 by lra. reflexivity. }
    rewrite Nps by exact Hj. rewrite (Es1 j HjL). rewrite (Ncd j Hj), (Hdepth j HjL).
    rewrite (nth_map' _ _ _ 0) by (rewrite (shaped_nth _ _ _ _ Sd Hcr); exact Hj).
    rewrite (Hdepth 0%nat) by lia. rewrite epsilon_share. rewrite width_spec. fold width.
    rewrite sand_node_land by (apply width_nonneg; assumption).
    assert (Ec : mud_carried supply (g_dx g) dt (fun i => nth i (nth (channel_row g) rise []) 0) (fun i => nth i ps' 0) j = mud j).
    { unfold mud. apply mud_carried_ext. intros i Hi. symmetry. apply Nps. lia. }
    assert (Eq : discharge_of c = water).
    { unfold discharge_of, water. lits. reflexivity. }
    rewrite Eq. unfold supply in Ec. 
    match goal with |- land_sand _ _ _ (?a / _) _ = _ => replace a with (mud j) end; reflexivity.
  Qed.
End Exact.

Lemma find_shoreline_dry interp1d (x z : list R) sl :
  x <> [] -> length z = length x -> (forall i, (i < length z)%nat -> sl <= nth i z 0) ->
  find_shoreline interp1d x z sl = Ok (lastn x 0).
Proof.
  intros Hne Hl Hb. unfold find_shoreline.
  assert (Hlen : (0 < length x)%nat) by (destruct x; [congruence|simpl; lia]).
  destruct (index_cases x z sl Hl) as [[E P]|[[E [P1 P2]]|[i [E [P1 _]]]]]; rewrite E.
  - destruct z as [|z0 z']; [simpl in *; lia|]. destruct x as [|x0 x']; [congruence|].
    numR. specialize (Hb 0%nat ltac:(simpl; lia)). simpl in Hb. rewrite (proj2 (Rltb_false z0 sl)) by exact Hb. rewrite n0_R. reflexivity.
  - exfalso. assert (S0 : submerged z sl 0) by (apply P2; lia). apply submergedR in S0. specialize (Hb 0%nat ltac:(lia)). lra.
  - exfalso. destruct P1 as [S0 _]. apply submergedR in S0. destruct S0 as [L S0]. specialize (Hb i L). lra.
Qed.

(* a plain that falls by 1 per column, above the sea *)
Definition plain_grid : grid R :=
  let rows := fun v : list R => [v; v; v] in
  mkGrid 1 3 1 1
    [(TOPO, rows [3; 2; 1]); (DEPOSIT, rows [1; 1; 1]); (SAND, rows [0; 0; 0]); (BEDROCK_INC, rows [0; 0; 0])]
    [(SEALEVEL, 0)] [] (el_empty 1 1).
Definition plain_river : fluvial R := mkFluvial 1 1 2650 1 10 1.
Ltac sh := split; [reflexivity|]; intros r H; cbn in H; intuition (subst; reflexivity).
Lemma plain_delta : delta_grid plain_grid [[3; 2; 1]; [3; 2; 1]; [3; 2; 1]] [[1; 1; 1]; [1; 1; 1]; [1; 1; 1]] [[0; 0; 0]; [0; 0; 0]; [0; 0; 0]] 0.
Proof.
  unfold delta_grid. cbn [plain_grid g_rows g_cols]. split; [lia|]. split; [lia|].
  split; [split; [reflexivity|sh]|]. split; [split; [reflexivity|sh]|]. split; [split; [reflexivity|sh]|].
  split; [exists [[0; 0; 0]; [0; 0; 0]; [0; 0; 0]]; split; [reflexivity|sh]|reflexivity].
Qed.
Lemma plain_shore interp1d : find_shoreline interp1d (x_of_column plain_grid) [3; 2; 1] 0 = Ok 2.
Proof.
  rewrite find_shoreline_dry; [| |reflexivity|].
  - unfold lastn. rewrite x_of_column_length. cbn [plain_grid g_cols]. rewrite nth_x_of_column by (cbn; lia). cbn. f_equal. lra.
  - intros E. apply (f_equal (@length R)) in E. rewrite x_of_column_length in E. discriminate E.
  - intros i Hi. cbn in Hi. destruct i as [|[|[|]]]; cbn; lra || lia.
Qed.
Lemma plain_step interp1d : exists g', fluvial_step interp1d 1 plain_river plain_grid = Ok g'.
Proof.
  pose proof (step_succeeds interp1d 1 plain_river plain_grid _ _ _ _ plain_delta ltac:(cbn; lra)) as S.
  destruct (fluvial_step interp1d 1 plain_river plain_grid) as [g'|e]; [eauto|].
  exfalso. destruct S as [[_ S]|S].
  - cbn in S. lra.
  - change (nth (channel_row plain_grid) _ []) with [3; 2; 1] in S. rewrite plain_shore in S. discriminate S.
Qed.

Definition sand_by_steepness : Prop :=
  forall interp1d dt (c : fluvial R) (g : grid R) z deposit sand rise sl g' shore sand',
  delta_grid g z deposit sand sl -> node g "bedrock_surface__increment_of_elevation" = Some rise ->
  fluvial_step interp1d dt c g = Ok g' -> 0 < g_dx g -> 0 < dt -> 0 < fl_sand_frac c <= 1 -> 0 < fl_plain_slope c ->
  0 < fl_sediment_load c -> 1000 < fl_sand_density c ->
  find_shoreline interp1d (x_of_column g) (nth (channel_row g) z []) sl = Ok shore ->
  node g' "delta_sediment_sand__volume_fraction" = Some sand' ->
  let width := channel_width (fl_sediment_load c) (fl_sand_density c) in
  let depth k := channel_depth (fl_sand_density c) (Rabs (slope (g_dx g) (g_cols g) (at2 0 z (channel_row g)) k)) in
  let supply := fl_sediment_load c * (1 - fl_sand_frac c) / fl_sand_frac c in
  let water := fl_sediment_load c / fl_plain_slope c / (61 / 100) in
  let mud k := mud_carried supply (g_dx g) dt (at2 0 rise (channel_row g)) (at2 0 sand' (channel_row g)) k in
  forall j, (j < g_cols g)%nat -> INR j * g_dx g < shore ->
    slope (g_dx g) (g_cols g) (at2 0 z (channel_row g)) 0 <> 0 -> slope (g_dx g) (g_cols g) (at2 0 z (channel_row g)) j <> 0 ->
    at2 0 sand' (channel_row g) j = land_sand width (depth 0%nat) (depth j) (mud j / water) (at2 0 deposit (channel_row g) j).

Lemma plain_width : 20 < channel_width 1 2650.
Proof.
  unfold channel_width. assert (E : 98 / 10 * (2650 / 1000 - 1) = 1617 / 100) by lra. rewrite E.
  assert (P : 0 < sqrt (1617 / 100)) by (apply sqrt_lt_R0; lra).
  assert (U : sqrt (1617 / 100) < 5) by (rewrite <- (sqrt_square 5) by lra; apply sqrt_lt_1; lra).
  apply Rmult_lt_reg_r with (10 * sqrt (1617 / 100) * (1 / 1000)); [lra|]. set (q := sqrt (1617 / 100)) in *.
  replace (1 / (10 * q * (1 / 1000)) * (10 * q * (1 / 1000))) with 1 by (field; lra). lra.
Qed.
Lemma sand_by_steepness_refuted : ~ sand_by_steepness.
Proof.
  intros C. pose (interp1d := fun _ _ : list R => Ok (fun v : R => v)).
  destruct (plain_step interp1d) as [g' E].
  destruct (land_sand_exact interp1d 1 plain_river plain_grid _ _ _ _ 0 g' plain_delta eq_refl E ltac:(cbn; lra) ltac:(cbn; lra) ltac:(cbn; lra))
    as [shore [sand' [Hsh [Es X]]]].
  specialize (C interp1d 1 plain_river plain_grid _ _ _ _ 0 g' shore sand' plain_delta eq_refl E ltac:(cbn; lra) ltac:(lra) ltac:(cbn; lra) ltac:(cbn; lra)
    ltac:(cbn; lra) ltac:(cbn; lra) Hsh Es).
  change (nth (channel_row plain_grid) _ []) with [3; 2; 1] in Hsh. rewrite plain_shore in Hsh.
  assert (shore = 2) by congruence. subst shore.
  cbv beta zeta in X, C. specialize (X 0%nat ltac:(cbn; lia) ltac:(cbn; lra)). specialize (C 0%nat ltac:(cbn; lia) ltac:(cbn; lra)).
  assert (Sl : slope (g_dx plain_grid) (g_cols plain_grid) (at2 0 [[3; 2; 1]; [3; 2; 1]; [3; 2; 1]] (channel_row plain_grid)) 0 = -1)
    by (unfold slope; cbn; lra).
  rewrite Sl in X, C. specialize (C ltac:(lra) ltac:(lra)). rewrite X in C. clear X. cbn [mud_carried] in C.
  cbn [plain_river fl_sediment_load fl_sand_density fl_sand_frac fl_plain_slope] in C.
  replace (1 * (1 - 1) / 1 / (1 / 1 / (61 / 100))) with 0 in C by field.
  change (at2 0 _ (channel_row plain_grid) 0) with 1 in C.
  rewrite Rabs_left in C by lra. assert (W := plain_width). set (w := channel_width 1 2650) in *.
  assert (D1 : channel_depth 2650 (-1) = -165 / 100000) by (unfold channel_depth; lra).
  assert (D2 : channel_depth 2650 (- -1) = 165 / 100000) by (unfold channel_depth; field).
  rewrite D1, D2 in C.
  assert (B1 : belt_share w (-165 / 100000) = 125 / 1000) by (unfold belt_share; destruct (Rlt_dec _ _); lra).
  assert (B2 : belt_share w (165 / 100000) = 4 / 10) by (unfold belt_share; destruct (Rlt_dec _ _); lra).
  unfold land_sand in C. rewrite B1, B2 in C. destruct (Rlt_dec 0 1) as [_|N]; [|lra].
  replace (1 / 10 * (-165 / 100000) / 10 * 0 / 1) with 0 in C by lra. replace (1 / 10 * (165 / 100000) / 10 * 0 / 1) with 0 in C by lra.
  rewrite !Rmin_right in C by lra.
  destruct (Rlt_dec 1 (10 * (125 / 1000 - 0))) as [_|N]; [|lra]. destruct (Rlt_dec 1 (10 * (4 / 10 - 0))) as [_|N]; [|lra].
  assert (Ex : exp (- (w / (125 / 1000) / 10000 * (10 * (125 / 1000 * (10 * (125 / 1000 - 0)) - 0))))
             = exp (- (w / (4 / 10) / 10000 * (10 * (4 / 10 * (10 * (4 / 10 - 0)) - 0))))) by lra.
  apply exp_inv in Ex. lra.
Qed.
