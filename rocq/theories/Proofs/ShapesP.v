(** Creating, changing and running a process keep the shapes of all arrays. *)
From Coq Require Import String List ZArith QArith Bool Arith Lia.
From Verif.Base Require Import Num Py Arr.
From Verif.Model Require Import Layers Grid Interp Shoreline SeaLevel Subsidence Flexure Submarine Fluvial Sequence SequenceModel Setattr.
From Verif.Spec Require Import Column.
From Verif.Proofs Require Import GridP SequenceP SequenceModelP ScriptP.
Import ListNotations.
Local Open Scope string_scope.
Local Open Scope list_scope.

Section P.
  Context {A : Type} {num : Num A} {tr : Trans A}.

  (* of the same size, with the same layers *)
  Definition alike (g g' : grid A) : Prop :=
    whole_grid g' /\ g_rows g' = g_rows g /\ g_cols g' = g_cols g /\ g_dx g' = g_dx g /\ layers g' = layers g.
  Lemma alike_refl g : whole_grid g -> alike g g.
  Proof. intros W. split; [exact W|]. auto. Qed.
  Lemma alike_trans g1 g2 g3 : alike g1 g2 -> alike g2 g3 -> alike g1 g3.
  Proof. intros (_ & A1 & A2 & A3 & A4) (W & B1 & B2 & B3 & B4). split; [exact W|]. repeat split; congruence. Qed.
  Lemma alike_put g n f : whole_grid g -> shaped (g_rows g + 2) (g_cols g) f -> alike g (put_node g n f).
  Proof. intros W S. split; [apply whole_put; assumption|]. repeat split. Qed.
  Lemma alike_gval g n v : whole_grid g -> alike g (put_gval g n v).
  Proof. intros W. split; [exact W|]. repeat split. Qed.
  Lemma alike_rowf g n v : whole_grid g -> alike g (put_rowf g n v).
  Proof. intros W. split; [exact W|]. repeat split. Qed.
  Lemma alike_ensure g n : whole_grid g -> alike g (ensure_node g n).
  Proof. intros W. unfold ensure_node. destruct (has_node g n); [apply alike_refl, W|]. apply alike_put; [exact W|]. apply shaped_full. Qed.
  Lemma alike_profile (g : grid A) n v g' : whole_grid g -> shaped (g_rows g) (g_cols g) v -> set_profile g n v = Ok g' -> alike g g'.
  Proof.
    intros W S E. destruct (set_profile_inv _ _ _ _ E) as [f [Ef ->]]. apply alike_put; [exact W|].
    apply shaped_set_inner; [exact (proj2 W _ _ Ef)|exact S].
  Qed.
  Lemma profile_shaped (g : grid A) n v : whole_grid g -> get_profile g n = Ok v -> shaped (g_rows g) (g_cols g) v.
  Proof. intros W E. destruct (get_profile_inv _ _ _ E) as [f [Ef ->]]. apply shaped_inner. exact (proj2 W _ _ Ef). Qed.
  Lemma node_shaped (g : grid A) n v : whole_grid g -> node_r g n = Ok v -> shaped (g_rows g + 2) (g_cols g) v.
  Proof. intros W E. apply node_r_ok in E. exact (proj2 W _ _ E). Qed.
  Lemma x_length (g : grid A) : length (x_of_column g) = g_cols g.
  Proof. unfold x_of_column. rewrite map_length, seq_length. reflexivity. Qed.
  Lemma shaped_lset n m (f : field A) i r : shaped n m f -> length r = m -> shaped n m (lset f i r).
  Proof.
    intros S L. apply shaped_of_nth; [rewrite lset_length; apply (shaped_len _ _ _ S)|]. intros k Hk.
    destruct (Nat.eq_dec i k) as [->|N]; [rewrite nth_lset_eq by (rewrite (shaped_len _ _ _ S); exact Hk); exact L|].
    rewrite nth_lset_neq by exact N. apply (shaped_nth _ _ _ _ S Hk).
  Qed.
  Lemma shaped_rows n m (f : field A) (h : list A -> list A) : shaped n m f -> (forall r, length r = m -> length (h r) = m) -> shaped n m (map h f).
  Proof.
    intros S Hh. apply shaped_of_nth; [rewrite map_length; apply (shaped_len _ _ _ S)|]. intros k Hk.
    rewrite nth_map' with (da := []) by (rewrite (shaped_len _ _ _ S); exact Hk). apply Hh, (shaped_nth _ _ _ _ S Hk).
  Qed.
  Lemma shaped_upstream n m (z : field A) slope x : shaped (n + 2) m z -> shaped (n + 2) m (set_upstream slope x z).
  Proof.
    intros Sz. unfold set_upstream. apply shaped_set_inner; [exact Sz|]. apply shaped_rows; [apply shaped_inner, Sz|].
    intros r Hr. rewrite lset_length. exact Hr.
  Qed.
  Lemma shaped_mirror n m (k : field A) : shaped (n + 2) m k -> shaped (n + 2) m (mirror_boundary k).
  Proof.
    intros S. unfold mirror_boundary. assert (S1 : shaped (n + 2) m (lset k 0 (nth 1 k []))).
    { apply shaped_lset; [exact S|]. destruct n as [|n]; apply (shaped_nth _ _ _ _ S); lia. }
    apply shaped_lset; [exact S1|]. apply (shaped_nth _ _ _ _ S1). rewrite lset_length. rewrite (shaped_len _ _ _ S). lia.
  Qed.
  Lemma kd_rows_length (sl dx : A) x n m : length x = m -> forall shores zs ks c row c' k',
    length shores = length ks -> length zs = length ks -> Forall (fun r => length r = m) zs -> Forall (fun r => length r = m) ks ->
    kd_rows c sl dx x n row shores zs ks = (c', k') -> length k' = length ks /\ Forall (fun r => length r = m) k'.
  Proof.
    intros Hx. induction shores as [|s shores IH]; intros zs ks c row c' k' L1 L2 F1 F2 E.
    - destruct ks; [|discriminate]. cbn in E. injection E as <- <-. split; [reflexivity|constructor].
    - destruct ks as [|k ks]; [discriminate|]. destruct zs as [|z zs]; [discriminate|]. cbn [kd_rows] in E.
      destruct (kd_rows (refresh_load sl c) sl dx x n (S row) shores zs ks) as [c1 rest] eqn:E1. injection E as <- <-.
      inversion F1; inversion F2; subst. injection L1 as L1. injection L2 as L2.
      destruct (IH zs ks _ _ _ _ L1 L2 ltac:(assumption) ltac:(assumption) E1) as [H1' H2']. split; [cbn; rewrite H1'; reflexivity|].
      constructor; [|exact H2']. rewrite zipw_length, combine_length. lia.
  Qed.

  Ltac steps E := repeat (cbn [bind] in E; match type of E with
    | bind ?r _ = Ok _ => let H := fresh "K" in destruct r eqn:H; [|discriminate E]
    end); cbn [bind] in E.
  Ltac pairE E c g := cbn [bind] in E; match type of E with (let (_, _) := ?q in _) = _ => destruct q as [c g] end; cbn [bind] in E.

  Lemma coef_alike shore c (g : grid A) c' g' : whole_grid g -> calc_diffusion_coef shore c g = Ok (c', g') -> alike g g'.
  Proof.
    intros W E. unfold calc_diffusion_coef in E. steps E.
    match type of E with (if ?b then _ else _) = _ => destruct b eqn:B; [discriminate E|] end.
    destruct (kd_rows _ _ _ _ _ _ _ _ _) as [c1 k1] eqn:Ek. steps E.
    assert (Y : g' = put_node a2 KD (mirror_boundary a3)) by congruence. subst g'.
    pose proof (profile_shaped _ _ _ W K0) as S0. pose proof (profile_shaped _ _ _ W K1) as S1.
    assert (Al : alike g a2).
    { apply (alike_profile g KD k1); [exact W| |exact K2].
      apply Bool.negb_false_iff, Nat.eqb_eq in B.
      destruct (kd_rows_length a (g_dx g) (x_of_column g) (length a1) (g_cols g) (x_length g) shore a0 a1 c 0 c1 k1 B) as [L F]; [| | |exact Ek|].
      - rewrite (shaped_len _ _ _ S0), (shaped_len _ _ _ S1). reflexivity.
      - apply Forall_forall. apply S0.
      - apply Forall_forall. apply S1.
      - split; [rewrite L; apply (shaped_len _ _ _ S1)|]. apply Forall_forall. exact F. }
    eapply alike_trans; [exact Al|]. apply alike_put; [apply Al|]. apply shaped_mirror. eapply node_shaped; [apply Al|exact K3].
  Qed.

  (* the arrays of a process fit the grid *)
  Definition fits (g : grid A) (p : process A) : Prop :=
    match p with
    | PSubsidence c => length (sub_rate c) = g_cols g
    | PFlexure _ _ c => shaped (g_rows g) (g_cols g) (df_pool (sf_dyn c)) /\ shaped (g_rows g) (g_cols g) (sf_last_load c)
    | _ => True
    end.
  Lemma fits_alike g g' p : alike g g' -> fits g p -> fits g' p.
  Proof. intros (_ & R1 & C1 & _). destruct p; cbn; rewrite ?R1, ?C1; auto. Qed.
  Lemma fits_size g g' p : g_rows g' = g_rows g -> g_cols g' = g_cols g -> fits g p -> fits g' p.
  Proof. intros R1 C1. destruct p; cbn; rewrite ?R1, ?C1; auto. Qed.

  Definition shape_kept (f : field A -> field A) : Prop := forall n m z, shaped n m z -> shaped n m (f z).
  Section Step.
  Context (interp1d : list A -> list A -> result (A -> A)) (diffuse : A -> field A -> field A -> field A)
    (flexure : kwds A -> field A -> field A) (gravity : kwds A -> A).
  Context (Hd : forall dt kd, shape_kept (diffuse dt kd)) (Hf : forall k, shape_kept (flexure k)).

  Lemma walk_length cw depth r_cb r_b dz dx dt qw is : forall mv cm (ps : list A) mv' cm' ps',
    foldM (walk_node cw depth r_cb r_b dz dx dt qw) is (mv, cm, ps) = Ok (mv', cm', ps') -> length ps' = length ps.
  Proof.
    induction is as [|i is IH]; intros mv cm ps mv' cm' ps' E; [cbn in E; congruence|].
    cbn [foldM] in E. destruct (walk_node _ _ _ _ _ _ _ _ (mv, cm, ps) i) as [[[mv1 cm1] ps1]|] eqn:W; [|discriminate]. cbn [bind] in E.
    rewrite (IH _ _ _ _ _ _ E). unfold walk_node in W. cbv zeta in W.
    match type of W with bind ?r _ = _ => destruct r; [|discriminate W] end. cbn [bind] in W. destruct (Nat.ltb _ _); [|discriminate].
    injection W as _ _ <-. apply lset_length.
  Qed.
  Lemma mud_length wb hd x wd is : forall tp (am : list A), length (snd (fold_left (mud_node wb hd x wd) is (tp, am))) = length am.
  Proof.
    induction is as [|i is IH]; intros tp am; [reflexivity|]. cbn [fold_left].
    destruct (mud_node wb hd x wd (tp, am) i) as [tp1 am1] eqn:M. rewrite IH.
    unfold mud_node in M. cbv zeta in M.
    destruct (nltb _ wb), (nltb wb _ && nltb _ _)%bool; [| destruct (nleb _ _) | |destruct (nleb _ _)];
      injection M as <- <-; rewrite ?lset_length; reflexivity.
  Qed.

  Lemma process_alike dt p (g : grid A) p' g' : whole_grid g -> fits g p ->
    process_step interp1d diffuse flexure gravity dt (p, g) = Ok (p', g') -> alike g g' /\ fits g' p'.
  Proof.
    intros W F E. unfold process_step in E. destruct p.
    1-2: unfold sea_level_step in E; cbv zeta in E; destruct (gval g _); [|discriminate]; destruct (slc_curve _ _); [|discriminate];
         injection E as <- <-; split; [|exact I]; eapply alike_trans; [apply alike_gval; exact W|]; apply alike_gval; exact W.
    - steps E. pairE E c1 g1. injection E as <- <-. unfold subsidence_step in K. steps K. cbv zeta in K. steps K. injection K as <- <-.
      assert (Al : alike g a0).
      { eapply alike_profile; [exact W| |eassumption].
        match goal with K : get_profile g _ = Ok _ |- _ => pose proof (profile_shaped _ _ _ W K) as S end.
        apply shaped_rows; [exact S|]. intros r Hr. cbn in F. rewrite zipw_length, map_length, F, Hr. lia. }
      split; [exact Al|]. apply (fits_alike _ _ (PSubsidence c) Al F).
    - steps E. pairE E c2 g2. injection E as <- <-. unfold submarine_step in K. steps K. pairE K c1 g1. steps K. cbv zeta in K.
      destruct (Nat.ltb _ _); [discriminate|]. steps K. injection K as <- <-.
      match goal with S : calc_diffusion_coef _ _ _ = Ok _ |- _ => pose proof (coef_alike _ _ _ _ _ W S) as G end.
      pose proof (proj1 G) as W1.
      match goal with S : node_r g1 TOPO = Ok ?z |- _ => pose proof (shaped_upstream _ _ z (sb_plain_slope c1) (x_of_column g1) (node_shaped _ _ _ W1 S)) as Sz end.
      match goal with |- alike g (put_node ?h _ _) /\ _ => assert (G2 : alike g1 h) by (apply alike_put; assumption) end.
      split; [|exact I]. eapply alike_trans; [exact G|]. eapply alike_trans; [exact G2|]. apply alike_put; [apply G2|].
      match goal with S : node_r (put_node g1 _ _) DEPOSIT = Ok ?z |- _ => pose proof (node_shaped _ _ _ (proj1 G2) S) as Sd end.
      apply shaped_fmap2; [exact Sd|]. apply shaped_fmap2; [apply Hd|]; exact Sz.
    - steps E. injection E as <- <-. unfold fluvial_step in K. destruct (neqb _ _); [discriminate|]. cbv zeta in K. destruct (neqb _ _); [discriminate|].
      destruct (neqb _ _); [discriminate|]. steps K. cbn [bind] in K. match type of K with (let (_, _) := ?q in _) = _ => destruct q as [[u1 u2] u3] end.
      destruct (fold_left _ _ _) as [tp am] eqn:Efl. steps K. split; [|exact I].
      match goal with S : foldM _ _ _ = Ok _ |- _ => pose proof (walk_length _ _ _ _ _ _ _ _ _ _ _ _ _ _ _ S) as Lw end. rewrite repeat_length in Lw.
      match type of Efl with fold_left (mud_node ?a ?b ?c ?d) ?e (?f, ?h) = _ => pose proof (mud_length a b c d e f h) as Lm end.
      rewrite Efl in Lm. cbn [snd] in Lm. rewrite repeat_length in Lm.
      match goal with S : get_profile g DEPOSIT = Ok ?z |- _ => pose proof (profile_shaped _ _ _ W S) as Sd end.
      match goal with S : get_profile g SAND = Ok ?z |- _ => pose proof (profile_shaped _ _ _ W S) as Ss end.
      match goal with S : get_profile g TOPO = Ok ?z |- _ => pose proof (profile_shaped _ _ _ W S) as Sz end.
      match goal with S : set_profile g SAND (lset ?s ?k _) = Ok _ |- _ => set (mid := k) in *; set (sand := s) in *; rename S into ES end.
      assert (Mid : forall (f : field A) (r : list A), shaped (g_rows g) (g_cols g) f -> ((mid < g_rows g)%nat -> length r = g_cols g) -> shaped (g_rows g) (g_cols g) (lset f mid r)).
      { intros f r Sf Hr. destruct (Nat.lt_ge_cases mid (g_rows g)) as [L|L]; [apply shaped_lset; auto|].
        replace (lset f mid r) with f; [exact Sf|]. unfold lset. rewrite firstn_all2, skipn_all2 by (rewrite (shaped_len _ _ _ Sf); exact L).
        rewrite app_nil_r. reflexivity. }
      match type of ES with _ = Ok ?h => assert (G1 : alike g h) end.
      { eapply alike_profile; [exact W| |exact ES]. apply Mid; [exact Ss|]. intros L. rewrite Lw. apply (shaped_nth _ _ _ _ Ss L). }
      eapply alike_trans; [exact G1|]. eapply alike_profile; [apply G1| |exact K]. destruct G1 as (_ & -> & -> & _).
      apply Mid; [exact Sd|]. intros L. rewrite zipw_length, combine_length, x_length, Lm.
      rewrite (shaped_nth _ _ _ _ Sd L). lia.
    - steps E. pairE E c1 g1. injection E as <- <-. unfold sed_flexure_step in K. cbv zeta in K. steps K. cbn in F. destruct F as [Fp Fl].
      destruct (calc_dynamic_deflection _ _ _) as [dyn defl] eqn:Ed. steps K.
      match type of K with Ok (?a, ?b) = Ok (?c, ?d) => assert (Y1 : a = c) by congruence; assert (Y2 : b = d) by congruence end. subst c1 g1. clear K.
      assert (G1 : alike g a0) by (eapply alike_profile; [exact W| |exact K1]; apply shaped_fmap, (profile_shaped _ _ _ W K0)).
      pose proof (proj1 G1) as W1. pose proof (profile_shaped _ _ _ W1 K2) as S1.
      assert (Sz : forall h, alike g h -> g_rows h = g_rows g /\ g_cols h = g_cols g) by (intros h (_ & ? & ? & _); auto).
      destruct (Sz _ G1) as [R1 C1].
      assert (G2 : alike a0 a2).
      { eapply alike_profile; [exact W1| |exact K3]. apply shaped_fmap, shaped_fmap2; [exact S1|]. rewrite R1, C1. exact Fl. }
      pose proof (proj1 G2) as W2. assert (G3 : alike a2 a4) by (eapply alike_profile; [exact W2| |exact K5]; apply Hf, (profile_shaped _ _ _ W2 K4)).
      pose proof (proj1 G3) as W3. pose proof (profile_shaped _ _ _ W3 K6) as S3.
      assert (G : alike g a4) by (eapply alike_trans; [exact G1|eapply alike_trans; eassumption]). destruct (Sz _ G) as [R3 C3]. rewrite R3, C3 in S3.
      unfold calc_dynamic_deflection in Ed. cbv zeta in Ed.
      assert (Sdef : shaped (g_rows g) (g_cols g) defl /\ shaped (g_rows g) (g_cols g) (df_pool dyn)).
      { injection Ed as <- <-. cbn [df_pool]. assert (P : shaped (g_rows g) (g_cols g) (fmap2 nadd (df_pool (sf_dyn c)) a5)) by (apply shaped_fmap2; assumption).
        split; [apply shaped_fmap; exact P|]. apply shaped_fmap2; [exact P|]. apply shaped_fmap; exact P. }
      assert (G4 : alike a4 a7).
      { eapply alike_profile; [exact W3| |eassumption]. rewrite R3, C3. apply shaped_fmap2; [|apply Sdef].
        match goal with S : get_profile a4 BEDROCK_INC = Ok _ |- _ => pose proof (profile_shaped _ _ _ W3 S) as Sb end. rewrite R3, C3 in Sb. exact Sb. }
      assert (GG : alike g a7) by (eapply alike_trans; eassumption). split; [exact GG|]. cbn [fits sf_dyn sf_last_load]. destruct (Sz _ GG) as [-> ->].
      split; [apply Sdef|]. rewrite R1, C1 in S1. exact S1.
    - steps E. injection E as <- <-. unfold shoreline_update in K. steps K. injection K as <-. split; [|exact I].
      eapply alike_trans; [apply alike_rowf; exact W|]. apply alike_rowf. exact W.
  Qed.

  Lemma construct_alike cls p (g : grid A) o g' : whole_grid g -> construct interp1d cls p g = Ok (o, g') -> alike g g' /\ fits g' o.
  Proof.
    intros W E. unfold construct in E. destruct (negb _); [discriminate|].
    assert (En : forall h n, alike g h -> alike g (ensure_node h n)).
    { intros h n G. eapply alike_trans; [exact G|]. apply alike_ensure, G. }
    assert (Ev : forall h n v, alike g h -> alike g (put_gval h n v)).
    { intros h n v G. eapply alike_trans; [exact G|]. apply alike_gval, G. }
    assert (Er : forall h n v, alike g h -> alike g (put_rowf h n v)).
    { intros h n v G. eapply alike_trans; [exact G|]. apply alike_rowf, G. }
    pose proof (alike_refl g W) as G0. destruct cls.
    - steps E. injection E as <- <-. split; [exact G0|exact I].
    - steps E. injection E as <- <-. split; [exact G0|exact I].
    - steps E. unfold subsidence_init in E. cbv zeta in E. steps E. injection E as <- <-. match goal with K : bind _ _ = Ok _ |- _ => steps K; injection K as <- end.
      change (if has_node g INCREMENT then g else put_node g INCREMENT (full (g_rows g + 2) (g_cols g) n0)) with (ensure_node g INCREMENT) in *.
      split; [auto|]. cbn [fits sub_rate].
      match goal with K : calc_subsidence_rate _ _ _ = Ok _ |- _ => unfold calc_subsidence_rate in K; rewrite (mapM_length _ _ _ K) end. apply x_length.
    - steps E. pairE E c0 gg. injection E as <- <-. unfold submarine_init in *. cbv zeta in *.
      match goal with K : (if ?b then _ else _) = Ok _ |- _ => destruct b; [discriminate K|]; injection K as <- <- end. split; [auto 8|exact I].
    - steps E. injection E as <- <-. split; [auto|exact I].
    - steps E. pairE E c0 gg. injection E as <- <-. unfold sed_flexure_init in *. cbv zeta in *.
      match goal with K : bind _ _ = Ok (c0, gg) |- _ => steps K; injection K as <- <- end.
      match goal with |- alike g ?h /\ _ => assert (G : alike g h) by auto 8 end. split; [exact G|]. cbn [fits sf_dyn sf_last_load].
      split; [|eapply profile_shaped; [apply G|eassumption]].
      match goal with K : dyn_init _ _ _ = Ok _ |- _ => unfold dyn_init in K; steps K; injection K as <- end. cbn [df_pool].
      assert (G1 : alike g (ensure_node g TOTAL_LOAD)) by auto. destruct G1 as (_ & R1 & C1 & _). destruct G as (_ & R2 & C2 & _). rewrite R2, C2, R1, C1. apply shaped_full.
    - steps E. injection E as <- <-. unfold shoreline_init in *. cbv zeta in *.
      match goal with K : bind _ _ = Ok _ |- _ => steps K; injection K as <- end. split; [auto 8|exact I].
  Qed.

  Lemma set_alike name v p (g : grid A) p' g' : whole_grid g -> fits g p -> set_attribute name v (p, g) = Ok (p', g') -> alike g g' /\ fits g' p'.
  Proof.
    intros W F E. pose proof (alike_refl g W) as G0.
    destruct p; unfold set_attribute in E; cbv zeta in E.
    - repeat match type of E with (if ?b then _ else _) = _ => destruct b end; steps E; injection E as <- <-; split; auto; exact I.
    - repeat match type of E with (if ?b then _ else _) = _ => destruct b end; steps E; try discriminate; injection E as <- <-; split; auto; exact I.
    - destruct (String.eqb name "filepath").
      + steps E. unfold subsidence_set_file in E. destruct (calc_subsidence_rate _ _ g) as [r|] eqn:K1; [|discriminate]. injection E as <- <-.
        split; [exact G0|]. cbn [fits sub_rate]. unfold calc_subsidence_rate in K1. rewrite (mapM_length _ _ _ K1). apply x_length.
      + destruct (existsb _ _); [discriminate|]. injection E as <- <-. auto.
    - repeat match type of E with (if ?b then _ else _) = _ => destruct b end; try discriminate; steps E; injection E as <- <-; (split; [|exact I]);
        try exact G0; apply alike_gval; exact W.
    - destruct c. repeat match type of E with (if ?b then _ else _) = _ => destruct b end; steps E; injection E as <- <-; (split; [|exact I]); exact G0.
    - repeat match type of E with (if ?b then _ else _) = _ => destruct b end; try discriminate; steps E; injection E as <- <-; auto.
    - repeat match type of E with (if ?b then _ else _) = _ => destruct b end; try discriminate. injection E as <- <-. split; [exact G0|exact I].
  Qed.
  End Step.
End P.
