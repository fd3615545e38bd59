(** Why a process can raise in a step. *)
From Coq Require Import String List ZArith QArith Bool Arith Reals Lra Lia.
From Verif.Base Require Import Num Py Arr.
From Verif.Model Require Import Layers Grid Interp Shoreline SeaLevel Subsidence Flexure Submarine Fluvial Sequence SequenceModel Setattr Processes Whole.
From Verif.Spec Require Import Column Profile Configured.
From Verif.Proofs Require Import GridP SequenceP SequenceModelP ShorelineP FluvialP ScriptP ShapesP.
Import ListNotations.
Local Open Scope string_scope.
Local Open Scope list_scope.
Local Open Scope R_scope.

Lemma mapM_err {X Y} (f : X -> result Y) l e : mapM f l = Err e -> exists x, In x l /\ f x = Err e.
Proof.
  induction l as [|x l IH]; cbn; [discriminate|]. destruct (f x) as [y|e'] eqn:Ex; cbn; [|intros E; injection E as ->; eauto].
  destruct (mapM f l) as [ys|e']; cbn; [discriminate|]. intros E. injection E as ->. destruct IH as [x' [? ?]]; [reflexivity|]. eauto.
Qed.

Lemma bisect_loop_below M n : forall f fa xa dm r, xa <= M -> xa + dm <= M -> bisect_loop n f fa xa dm = Ok r -> r <= M.
Proof.
  induction n as [|n IH]; intros f fa xa dm r H1 H2; cbn [bisect_loop]; [discriminate|]. cbv zeta. numR. rewrite halfR.
  match goal with |- context [if ?b then Ok _ else _] => destruct b end.
  - intros E. assert (Y : xa + dm * / 2 = r) by congruence. lra.
  - intros E. revert E. apply IH; destruct (Bool.eqb _ _); lra.
Qed.
Lemma scipy_bisect_below M f a b r : a <= M -> b <= M -> scipy_bisect f a b = Ok r -> r <= M.
Proof.
  intros Ha Hb. unfold scipy_bisect. cbv zeta. destruct (neqb (f a) n0); [intros E; assert (a = r) by congruence; lra|].
  destruct (neqb (f b) n0); [intros E; assert (b = r) by congruence; lra|]. destruct (Bool.eqb _ _); [discriminate|].
  apply bisect_loop_below; [exact Ha|]. numR. lra.
Qed.
Lemma pynth_in {B} (l : list B) i v : pynth l i = Some v -> In v l.
Proof. unfold pynth. destruct (pyindex _ _); [apply nth_error_In|discriminate]. Qed.
(* the shoreline is never beyond the last column *)
Lemma find_shoreline_le i1 (x z : list R) s v : increasing x -> find_shoreline i1 x z s = Ok v -> v <= nth (length x - 1) x 0.
Proof.
  intros Hx E.
  assert (Hm : forall a, In a x -> a <= nth (length x - 1) x 0).
  { intros a Ha. destruct (In_nth _ _ 0 Ha) as [i [Hi <-]]. apply increasing_le; [exact Hx|lia]. }
  assert (Hl : forall a x', x = a :: x' -> lastn x n0 = nth (length x - 1) x 0).
  { intros a x' ->. unfold lastn. rewrite n0R. reflexivity. }
  unfold find_shoreline in E. destruct (find_shoreline_index x z s) as [i|e].
  - destruct (i1 _ _) as [f|]; [|discriminate]. cbn [bind] in E.
    destruct (pynth x (Z.of_nat i - 1)) as [a|] eqn:Ea; [|discriminate]. destruct (pynth x (Z.of_nat i)) as [b|] eqn:Eb; [|discriminate].
    apply (scipy_bisect_below _ _ _ _ _ (Hm _ (pynth_in _ _ _ Ea)) (Hm _ (pynth_in _ _ _ Eb)) E).
  - destruct e; try discriminate. destruct z as [|z0 z]; [discriminate|]. destruct x as [|x0 x]; [discriminate|].
    destruct (nltb z0 s).
    + assert (Y : x0 = v) by congruence. subst v. apply Hm. left. reflexivity.
    + assert (Y : lastn (x0 :: x) n0 = v) by congruence. subst v. rewrite (Hl x0 x eq_refl). lra.
Qed.

Section P.
  Context {X : Type} {tr : Trans R} (E : externals R X).
  Context (WB : well_behaved E).

  Definition steady (p : process R) : Prop := match p with PSinusoid c => forall t, exists v, slc_curve c t = Ok v | _ => True end.

  Lemma profile_of (g : grid R) n : has g n -> exists f, node g n = Some f /\ get_profile g n = Ok (inner f) /\ node_r g n = Ok f
    /\ forall v, set_profile g n v = Ok (put_node g n (set_inner f v)).
  Proof. intros [f Hf]. exists f. unfold get_profile, set_profile, node_r. rewrite Hf. auto. Qed.
  Lemma inner_row (g : grid R) (f : field R) k : shaped (g_rows g + 2) (g_cols g) f -> (k < g_rows g)%nat -> nth k (inner f) [] = nth (S k) f [].
  Proof.
    intros S Hk. apply nth_inner. rewrite (shaped_len _ _ _ S). lia.
  Qed.

  Lemma row_fails (g : grid R) z sea row e : whole_grid g -> node g TOPO = Some z -> gval g SEALEVEL = Some sea -> In row (inner z) ->
    find_shoreline (ex_interp1d E) (x_of_column g) row sea = Err e -> no_shoreline E g e.
  Proof.
    intros W Hz Hs Hin Ee. pose proof (proj2 W _ _ Hz) as S. destruct (In_nth _ _ [] Hin) as [k [Hk Hr]].
    assert (L : (k < g_rows g)%nat) by (rewrite (shaped_len _ _ _ (shaped_inner _ _ _ S)) in Hk; exact Hk).
    rewrite (inner_row g z k S L) in Hr. exists z, sea, (Datatypes.S k). split; [exact Hz|]. split; [exact Hs|]. split; [lia|]. rewrite Hr. exact Ee.
  Qed.

  Lemma gval_of (g : grid R) n : hasv g n -> exists v, gval g n = Some v /\ gval_r g n = Ok v.
  Proof. intros [v Hv]. exists v. unfold gval_r. rewrite Hv. auto. Qed.

  Lemma coef_ok shore c (g : grid R) : whole_grid g -> base g -> has g KD -> length shore = g_rows g ->
    exists c' g', calc_diffusion_coef shore c g = Ok (c', g').
  Proof.
    intros W (Ht & _ & Hs) Hk L. destruct (profile_of _ _ Ht) as [z [Hz [Pz _]]]. destruct (profile_of _ _ Hk) as [k [Hkd [Pk [_ Sk]]]].
    destruct (gval_of _ _ Hs) as [sea [_ Es]]. unfold calc_diffusion_coef. rewrite Es. cbn [bind]. rewrite Pz. cbn [bind]. rewrite Pk. cbn [bind].
    rewrite L, (shaped_len _ _ _ (shaped_inner _ _ _ (proj2 W _ _ Hkd))), Nat.eqb_refl. cbn [negb].
    destruct (kd_rows _ _ _ _ _ _ _ _ _) as [c1 k1]. rewrite Sk. cbn [bind]. unfold node_r. rewrite node_put_same. cbn [bind]. eauto.
  Qed.

  Lemma process_cause d p (g : grid R) e : whole_grid g -> base g -> serves g p -> fits g p -> steady p -> (0 < g_rows g)%nat -> 0 < g_dx g ->
    process_step (ex_interp1d E) (ex_diffuse E) (ex_flexure E) (ex_gravity E) d (p, g) = Err e -> cause E d p g e.
  Proof.
    intros W B Sv Ft St Hr Hdx Er. pose proof B as (Ht & Hd & Hs). destruct (gval_of _ _ Hs) as [sea [Hsea Esea]].
    pose proof (proj1 (proj1 W)) as Hc.
    destruct (profile_of _ _ Ht) as [z [Hz [Pz [Nz _]]]]. destruct (profile_of _ _ Hd) as [dz [Hdz [Pd [_ Sd]]]].
    unfold process_step in Er. destruct p; cbn [cause].
    - unfold sea_level_step in Er. cbv zeta in Er. change SEALEVEL with "sea_level__elevation" in Hsea. rewrite Hsea in Er. cbn [slc_curve slc_time] in Er.
      change (slc_time c + d) with (nadd (slc_time c) d).
      destruct (slc_curve c _) as [v|e'] eqn:Ec; [discriminate|]. congruence.
    - unfold sea_level_step in Er. cbv zeta in Er. change SEALEVEL with "sea_level__elevation" in Hsea. rewrite Hsea in Er. cbn [slc_curve slc_time] in Er.
      destruct (St (nadd (slc_time c) d)) as [v Ev]. rewrite Ev in Er. discriminate.
    - cbn in Sv. destruct (profile_of _ _ Sv) as [f [Hf [Pf [_ Sf]]]]. unfold subsidence_step in Er. rewrite Pf in Er. cbn [bind] in Er.
      cbv zeta in Er. rewrite Sf in Er. discriminate.
    - cbn in Sv. unfold submarine_step in Er. rewrite Pz in Er. cbn [bind] in Er. rewrite Esea in Er. cbn [bind] in Er.
      destruct (mapM _ (inner z)) as [shore|e'] eqn:Em.
      + exfalso. cbn [bind] in Er. pose proof (mapM_length _ _ _ Em) as L. rewrite (shaped_len _ _ _ (shaped_inner _ _ _ (proj2 W _ _ Hz))) in L.
        destruct (coef_ok shore c g W B Sv L) as [c1 [g1 Ec]]. rewrite Ec in Er. cbn [bind] in Er.
        pose proof (coef_alike _ _ _ _ _ W Ec) as (W1 & R1 & C1 & _). pose proof (coef_grows _ _ _ _ _ Ec) as G1.
        destruct (profile_of _ _ (proj1 G1 _ Ht)) as [z1 [Hz1 [_ [Nz1 _]]]]. destruct (profile_of _ _ (proj1 G1 _ Sv)) as [k1 [_ [_ [Nk _]]]].
        destruct (profile_of _ _ (proj1 G1 _ Hd)) as [d1 [Hd1 _]].
        rewrite Nz1 in Er. cbn [bind] in Er. cbv zeta in Er. destruct (Nat.ltb_spec (g_cols g1) 2); [lia|]. rewrite Nk in Er. cbn [bind] in Er.
        assert (X1 : forall f, node_r (put_node g1 TOPO f) DEPOSIT = Ok d1).
        { intros f. unfold node_r. rewrite node_put_node. change (String.eqb DEPOSIT TOPO) with false. cbv iota. rewrite Hd1. reflexivity. }
        rewrite X1 in Er. discriminate.
      + cbn [bind] in Er. assert (e' = e) by congruence. subst e'. destruct (mapM_err _ _ _ Em) as [row [Hin Hrow]].
        exact (row_fails g z sea row e W Hz Hsea Hin Hrow).
    - destruct (Req_dec (fl_sand_frac c) 0) as [Y|N1].
      { right. split; [|auto]. unfold fluvial_step in Er. rewrite Y in Er. numR. rewrite n0_R in Er.
        replace (Reqb 0 0) with true in Er by (symmetry; apply Num.Reqb_true; reflexivity). cbn [bind] in Er. congruence. }
      assert (Z : forall v : R, v <> 0 -> neqb v n0 = false).
      { intros v Hv. numR. rewrite n0_R. apply Num.Reqb_false. exact Hv. }
      destruct (Req_dec (fl_plain_slope c) 0) as [Y|N2].
      { right. split; [|auto]. unfold fluvial_step in Er. rewrite (Z _ N1) in Er. cbv zeta in Er. rewrite Y in Er.
        replace (neqb 0 n0) with true in Er by (symmetry; numR; rewrite n0_R; apply Num.Reqb_true; reflexivity). cbn [bind] in Er. congruence. }
      destruct (Req_dec (fl_sediment_load c) 0) as [Y|N3].
      { right. split; [|auto]. unfold fluvial_step in Er. rewrite (Z _ N1) in Er. cbv zeta in Er. rewrite (Z _ N2) in Er. rewrite Y in Er.
        match type of Er with context [neqb ?q n0] => replace (neqb q n0) with true in Er end; [cbn [bind] in Er; congruence|].
        symmetry. numR. rewrite n0_R. apply Num.Reqb_true. unfold Rdiv. ring. }
      assert (nz : ndiv (ndiv (fl_sediment_load c) (fl_plain_slope c)) (nlit (61 # 100)) <> 0).
      { numR. unfold Rdiv. assert (K : Q2R (61 # 100) <> 0) by (unfold Q2R; cbn; lra).
        apply Rmult_integral_contrapositive_currified; [apply Rmult_integral_contrapositive_currified; [exact N3|]|]; apply Rinv_neq_0_compat; assumption. }
      left. destruct Sv as [Si Ss]. destruct (profile_of _ _ Si) as [inc [Hi _]]. destruct (profile_of _ _ Ss) as [sand [Hsd _]].
      destruct (find_shoreline (ex_interp1d E) (x_of_column g) (nth (Nat.div2 (g_rows g) + 1) z []) sea) as [shore|e'] eqn:Ef.
      + exfalso. assert (Hq : neqb (discharge_of c) n0 = false).
        { apply Z. unfold discharge_of. apply nz. }
        destruct (fluvial_step_ok (ex_interp1d E) d c g z dz inc sand sea shore (g_rows g) (g_cols g)) as [g' [? [? [Ok' _]]]]; auto;
          try (match goal with Hn : node g _ = Some ?f |- shaped _ _ ?f => exact (proj2 W _ _ Hn) end).
        * intros j Hj Hl. assert (Hx := find_shoreline_le _ _ _ _ _ (x_of_column_increasing g Hdx) Ef). rewrite x_of_column_length in Hx.
          destruct (Nat.eq_dec j (g_cols g - 1)) as [->|]; [|lia]. exfalso. revert Hl. numR. rewrite n0_R. intros Hl. apply Rltb_true in Hl. lra.
        * rewrite Ok' in Er. discriminate.
      + assert (Em : fluvial_step (ex_interp1d E) d c g = Err e').
        { unfold fluvial_step. rewrite (Z _ N1). cbv zeta. rewrite (Z _ N2).
          assert (Hq : neqb (ndiv (ndiv (fl_sediment_load c) (fl_plain_slope c)) (nlit (61 # 100))) n0 = false).
          { apply Z. apply nz. }
          rewrite Hq, Pz. cbn [bind]. rewrite Esea. cbn [bind].
          rewrite (shaped_len _ _ _ (shaped_inner _ _ _ (proj2 W _ _ Hz))).
          assert (Hm : (Nat.div2 (g_rows g) < g_rows g)%nat) by (apply Nat.lt_div2; exact Hr).
          rewrite (inner_row g z _ (proj2 W _ _ Hz) Hm). rewrite Nat.add_1_r in Ef. rewrite Ef. reflexivity. }
        rewrite Em in Er. cbn [bind] in Er. assert (e' = e) by congruence. subst e'.
        exists z, sea, (Nat.div2 (g_rows g) + 1)%nat. split; [exact Hz|]. split; [exact Hsea|]. split; [|exact Ef].
        pose proof (Nat.lt_div2 (g_rows g) Hr). lia.
    - destruct Sv as (S1 & S2 & S3 & S4). unfold sed_flexure_step in Er. cbv zeta in Er.
      assert (Sp : forall (h : grid R) n v, has h n -> exists h', set_profile h n v = Ok h' /\ grows h h').
      { intros h n v Hn. destruct (profile_of _ _ Hn) as [f [_ [_ [_ Sf]]]]. rewrite Sf. eexists. split; [reflexivity|]. apply grows_put. }
      assert (Gp : forall (h : grid R) n, has h n -> exists v, get_profile h n = Ok v).
      { intros h n Hn. destruct (profile_of _ _ Hn) as [f [_ [Pf _]]]. eauto. }
      destruct (Gp _ _ S1) as [l Pl]. rewrite Pl in Er. cbn [bind] in Er.
      destruct (Sp g LITHO (fmap (fun _ => n0) l) S1) as [g1 [E1 G1]]. rewrite E1 in Er. cbn [bind] in Er.
      destruct (Gp g1 TOTAL_LOAD (proj1 G1 _ S2)) as [tl Ptl]. rewrite Ptl in Er. cbn [bind] in Er.
      match type of Er with context [set_profile g1 PRESSURE ?v] => destruct (Sp g1 PRESSURE v (proj1 G1 _ S3)) as [g2 [E2 G2]] end.
      rewrite E2 in Er. cbn [bind] in Er. assert (G02 := grows_trans _ _ _ G1 G2).
      destruct (Gp g2 PRESSURE (proj1 G02 _ S3)) as [pr Ppr]. rewrite Ppr in Er. cbn [bind] in Er.
      destruct (Sp g2 LITHO (ex_flexure E k pr) (proj1 G02 _ S1)) as [g3 [E3 G3]]. rewrite E3 in Er. cbn [bind] in Er.
      assert (G03 := grows_trans _ _ _ G02 G3).
      destruct (Gp g3 LITHO (proj1 G03 _ S1)) as [il Pil]. rewrite Pil in Er. cbn [bind] in Er.
      destruct (calc_dynamic_deflection _ _ _) as [dyn defl]. destruct (Gp g3 BEDROCK_INC (proj1 G03 _ S4)) as [td Ptd]. rewrite Ptd in Er. cbn [bind] in Er.
      match type of Er with context [set_profile g3 BEDROCK_INC ?v] => destruct (Sp g3 BEDROCK_INC v (proj1 G03 _ S4)) as [g4 [E4 G4]] end.
      rewrite E4 in Er. discriminate.
    - unfold shoreline_update in Er. change "topographic__elevation" with TOPO in Er. change "sediment_deposit__thickness" with DEPOSIT in Er.
      change "sea_level__elevation" with SEALEVEL in Er. rewrite Pz in Er. cbn [bind] in Er. rewrite Pd in Er. cbn [bind] in Er. rewrite Esea in Er. cbn [bind] in Er.
      destruct (mapM _ (combine (inner z) (inner dz))) as [rows|e'] eqn:Em; [discriminate|]. cbn [bind] in Er. assert (e' = e) by congruence. subst e'.
      destruct (mapM_err _ _ _ Em) as [[row drow] [Hin Hrow]]. pose proof (in_combine_l _ _ _ _ Hin) as Hin1. pose proof (in_combine_r _ _ _ _ Hin) as Hin2.
      unfold shoreline_row in Hrow.
      destruct (find_shoreline (ex_interp1d E) (x_of_column g) row sea) as [shore|e'] eqn:Ef.
      2:{ left. cbn [bind] in Hrow. assert (e' = e) by congruence. subst e'. exact (row_fails g z sea row e W Hz Hsea Hin1 Ef). }
      right. cbn [bind] in Hrow. destruct (Req_dec alpha 0) as [->|Na].
      { left. rewrite find_shelf_edge_zero in Hrow. split; [congruence|reflexivity]. }
      right. assert (Ld : length drow = g_cols g).
      { exact (proj2 (shaped_inner _ _ _ (proj2 W _ _ Hdz)) _ Hin2). }
      destruct (find_shelf_edge_spec (x_of_column g) drow shore alpha Na (sorted_x g Hdx)) as [[k [[Hk1 Hk2] [Hk3 _]]]|[_ He]].
      { rewrite x_of_column_length. exact Ld. }
      + rewrite Hk3 in Hrow. destruct (nltb shore _) eqn:El; [discriminate|]. split; [congruence|].
        destruct (Rlt_dec alpha 0) as [|Hn]; [assumption|]. exfalso. revert El. numR. intros El. apply Rltb_false in El.
        assert (0 < 3 / alpha) by (apply Rdiv_lt_0_compat; lra). lra.
      + rewrite He in Hrow. discriminate.
  Qed.
End P.
