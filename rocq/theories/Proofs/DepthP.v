(** The change in water depth that a configured model keeps. *)
From Coq Require Import String List ZArith QArith Bool Arith Reals Lra Lia.
From Verif.Base Require Import Num Py Arr.
From Verif.Model Require Import Layers Grid Csv Flexure Submarine Fluvial Sequence SequenceModel Setattr Info Processes Whole Water.
From Verif.Spec Require Import Column Configured Declared Followed Turns Watered.
From Verif.Proofs Require Import OrderP GridP DeclaredP SequenceP SequenceModelP ScriptP ClockP SubmarineEx ShapesP WholeP LoadP FollowP TurnsP WaterP.
Import ListNotations.
Local Open Scope string_scope.
Local Open Scope list_scope.
Local Open Scope R_scope.

(* the elevation is the same but for the first column *)
Definition same_columns (g g' : grid R) : Prop :=
  g_rows g' = g_rows g /\ g_cols g' = g_cols g /\ forall z, node g TOPO = Some z -> exists z', node g' TOPO = Some z'
    /\ forall i j, (i < g_rows g + 2)%nat -> (1 <= j < g_cols g)%nat -> at2 0 z' i j = at2 0 z i j.
Lemma columns_refl g : same_columns g g.
Proof. split; [reflexivity|]. split; [reflexivity|]. intros z Hz. exists z. auto. Qed.
Lemma columns_trans g1 g2 g3 : same_columns g1 g2 -> same_columns g2 g3 -> same_columns g1 g3.
Proof.
  intros (R1 & C1 & H1) (R2 & C2 & H2). split; [congruence|]. split; [congruence|]. intros z Hz. destruct (H1 z Hz) as (z1 & Hz1 & Y1).
  destruct (H2 z1 Hz1) as (z2 & Hz2 & Y2). exists z2. split; [exact Hz2|]. intros i j Hi Hj. rewrite Y2, Y1; rewrite ?R1, ?C1; auto.
Qed.
Lemma columns_same g g' : g_rows g' = g_rows g -> g_cols g' = g_cols g -> node g' TOPO = node g TOPO -> same_columns g g'.
Proof. intros R1 C1 N. split; [exact R1|]. split; [exact C1|]. intros z Hz. exists z. rewrite N. auto. Qed.

Section P.
  Context {X : Type} {tr : Trans R} (E : externals R X) (WB : well_behaved E) (LE : leaves_elevation E).

  Lemma process_columns d q (g : grid R) q' g' : whole_grid g ->
    process_step (ex_interp1d E) (ex_diffuse E) (ex_flexure E) (ex_gravity E) d (q, g) = Ok (q', g') -> same_columns g g'.
  Proof.
    intros W Es. destruct (step_writes _ _ _ _ d q g q' g' Es) as [_ ((Rr & Rc & _) & _ & Ch)].
    assert (N : ~ In (TOPO, AtNode) (declared_output (class_of q) ++ undeclared_output (class_of q)) -> same_columns g g').
    { intros Nt. specialize (Ch _ Nt). apply columns_same; [symmetry; exact Rr|symmetry; exact Rc|symmetry; exact Ch]. }
    destruct q; try (apply N; cbn; intros Y; repeat (destruct Y as [Y|Y]; [discriminate Y|]); exact Y).
    clear N Ch. split; [symmetry; exact Rr|]. split; [symmetry; exact Rc|]. intros z Hz.
    unfold process_step in Es. match type of Es with bind ?r _ = _ => destruct r as [[c2 g2]|] eqn:K; [|discriminate Es] end. cbn [bind] in Es.
    assert (Y : g2 = g') by congruence. subst g2. clear Es. unfold submarine_step in K. steps K.
    match type of K with (let (_, _) := ?q in _) = _ => destruct q as [c1 g1] end. steps K. cbv zeta in K.
    destruct (Nat.ltb _ _) eqn:Lc; [discriminate|]. steps K.
    match goal with H : calc_diffusion_coef _ _ _ = Ok _ |- _ => rename H into Kd end.
    assert (N1 : node g1 TOPO = node g TOPO).
    { unfold calc_diffusion_coef in Kd. steps Kd. match type of Kd with (if ?b then _ else _) = _ => destruct b; [discriminate Kd|] end.
      destruct (kd_rows _ _ _ _ _ _ _ _ _) as [c3 k3]. steps Kd.
      match goal with H : set_profile _ KD _ = Ok ?h |- _ => destruct (set_profile_inv _ _ _ _ H) as [? [_ ->]] end.
      match type of Kd with Ok (_, ?h) = _ => assert (Y : h = g1) by congruence end. rewrite <- Y. rewrite !node_put_node. reflexivity. }
    match goal with H : node_r g1 TOPO = Ok ?zz |- _ => apply node_r_ok in H; rewrite N1, Hz in H; assert (Z1 : zz = z) by congruence; subst zz end.
    pose proof (coef_alike _ _ _ _ _ W Kd) as (W1 & R1 & C1 & _).
    match type of K with Ok (_, ?h) = _ => assert (Yg : h = g') by congruence end. rewrite <- Yg. rewrite node_put_node. eqb_lit. rewrite node_put_same.
    eexists. split; [reflexivity|]. intros i j Hi Hj. apply Nat.ltb_ge in Lc.
    rewrite (upstream_spec (g_rows g) (g_cols g)) by (rewrite ?C1 in *; auto; try lia; exact (proj2 W _ _ Hz)).
    destruct (Nat.eqb_spec j 0); [lia|]. rewrite andb_false_r. reflexivity.
  Qed.
  Lemma part_columns d p (g : grid R) p' g' : solid g -> part_step E d (p, g) = Ok (p', g') -> same_columns g g'.
  Proof.
    intros S Es. unfold part_step in Es. cbn [fst snd] in Es. destruct p as [q|x].
    - destruct (process_step _ _ _ _ d (q, g)) as [[q' h]|] eqn:K; cbn [bind] in Es; [|discriminate]. assert (h = g') by congruence. subst h. exact (process_columns _ _ _ _ _ (proj1 S) K).
    - destruct (ex_step E d (x, g)) as [[x' h]|] eqn:K; cbn [bind] in Es; [|discriminate]. assert (h = g') by congruence. subst h.
      destruct (wb_step E WB _ _ _ _ _ (proj1 S) K) as (_ & R1 & C1 & _). apply columns_same; [exact R1|exact C1|]. exact (LE _ _ _ _ _ K).
  Qed.
  Lemma run_columns all d : forall names ps g ps' g', incl names all -> sound all ps g ->
    run_components (map (step_of E) names) d (ps, g) = Ok (ps', g') -> same_columns g g'.
  Proof.
    induction names as [|n names IH]; intros ps g ps' g' Hin Sd H.
    - cbn in H. assert (g' = g) by congruence. subst. apply columns_refl.
    - cbn [map] in H. rewrite run_cons in H. unfold step_of at 1 in H. cbn [fst snd] in H.
      destruct (dget String.eqb ps n) as [p|] eqn:Ep; cbn [bind] in H; [|discriminate].
      destruct (part_step E d (p, g)) as [[p' g1]|] eqn:Es; cbn [bind] in H; [|discriminate].
      pose proof (proj2 (proj2 Sd) n p Ep) as Gp. destruct (part_stepped E WB _ _ _ _ _ (proj1 Sd) Gp Es) as [Ad Gp'].
      eapply columns_trans; [exact (part_columns _ _ _ _ _ (proj1 Sd) Es)|].
      exact (IH _ _ _ _ (fun x Hx => Hin x (or_intror Hx)) (sound_put _ _ _ _ _ _ Sd Ad Gp') H).
  Qed.

  Theorem recorded names dt m m' i j d : inv names m -> run_one_step (named_processes E names) dt m = Stepped m' ->
    (1 <= i <= g_rows (sm_grid m))%nat -> (1 <= j < g_cols (sm_grid m))%nat -> recorded_change (sm_grid m') i j d ->
    exists sea before after, gval (sm_grid m') "sea_level__elevation" = Some sea /\ depth_under sea (sm_grid m) i j before
      /\ depth_under sea (sm_grid m') i j after /\ d = after - before.
  Proof.
    intros Hi Es Hr Hc (w & Hw & Hd). destruct (stepped _ _ _ _ _ Es) as (_ & g0 & ps & g & el & h' & Ec & Er & Ew & _).
    assert (Er0 : run_components (pr_components (named_processes E names)) (step_used dt m) (sm_world m, g0) = Ok (ps, g)) by exact Er.
    set (m1 := mkModel (sm_world m) (sm_grid m) (fst (clock_advance (sm_clock m))) (sm_archived m)).
    assert (H1 : inv names m1) by exact Hi.
    destruct (once_step (named_processes E names) (step_used dt m) m1 (fun g0 w g => ran_whole E WB names (step_used dt m) m1 g0 w g H1))
      as (pr' & K & _ & _ & Ea & Kr).
    assert (Es' : advance_components pr' (step_used dt m) m1 = Ok m').
    { rewrite Ea. unfold run_one_step in Es. fold (step_used dt m) in Es. unfold m1. destruct (clock_advance (sm_clock m)) as [c [|]]; [discriminate|]. cbn [fst].
      cbv zeta in Es. destruct (advance_components _ _ _); congruence. }
    assert (Af : after_components pr' (step_used dt m) m1 g) by (exists g0, ps; split; [exact Ec|]; rewrite <- Er0; exact (Kr g0 Ec)).
    destruct (water_depth_change pr' (step_used dt m) m1 m' g w K (proj1 (proj1 H1)) Es' Af Hw) as (sea & z & z' & V1 & V2 & Z1 & Z2 & Y).
    pose proof (clear_adds _ _ (proj1 (proj1 Hi)) Ec) as A0.
    pose proof (run_columns names (step_used dt m) names _ _ _ _ (incl_refl _) (sound_adds _ _ _ _ (proj2 Hi) A0) Er) as (R1 & C1 & Cz).
    destruct A0 as (_ & R0 & C0 & _). destruct (proj1 (proj1 (proj1 Hi))) as (_ & (zm & Hzm & _) & _).
    assert (Hz0 : node g0 TOPO = Some zm) by (rewrite <- Hzm; apply (proj1 (proj2 (proj2 (proj2 (proj2 (cleared_any _ _ Ec)))))); discriminate).
    destruct (Cz zm Hz0) as (z1 & Hz1 & Yz). assert (Ez : z1 = z) by (change TOPO with "topographic__elevation" in Hz1; congruence). subst z1.
    exists sea. do 2 eexists. split; [exact V2|]. split; [exists zm; split; [exact Hzm|reflexivity]|]. split; [exists z'; split; [exact Z2|reflexivity]|].
    specialize (Y (i - 1)%nat j ltac:(cbn; lia) ltac:(cbn; lia)). replace (S (i - 1)) with i in Y by lia.
    rewrite <- Hd, Y. specialize (Yz i j ltac:(lia) ltac:(lia)). rewrite n0_R in *. rewrite Yz. reflexivity.
  Qed.
End P.
