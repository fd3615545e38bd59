(** The bedrock of a model with a SedimentFlexure. *)
From Coq Require Import String List ZArith QArith Bool Arith Lia Reals Lra.
From Verif.Base Require Import Num Py Arr.
From Verif.Model Require Import Layers Grid Archive Interp Shoreline SeaLevel Subsidence Bathymetry Csv Flexure Submarine Fluvial Sequence SequenceModel Setattr Info Processes Whole.
From Verif.Spec Require Import Column Declared Ordering Session Configured Parameters Followed Bending.
From Verif.Proofs Require Import OrderP ProcessesP DeclaredP FollowP SinkP FlexureP GridP SequenceP SequenceModelP ScriptP ShapesP WholeP LoadP.
Import ListNotations.
Local Open Scope string_scope.
Local Open Scope list_scope.
Local Open Scope R_scope.

Section B.
  Context {X : Type} (E : externals R X) (WB : well_behaved E) (LB : leaves_bedrock E) (LL : leaves_load E) (LP : linear_plate E).
  Notation BED := "bedrock_surface__elevation".
  Notation step := (process_step (ex_interp1d E) (ex_diffuse E) (ex_flexure E) (ex_gravity E)).

  Lemma at2_sub n m (p q : field R) i j : shaped n m p -> shaped n m q -> (i < n)%nat -> (j < m)%nat -> at2 0 (fmap2 nsub p q) i j = at2 0 p i j - at2 0 q i j.
  Proof. intros. rewrite (at2_fmap2 nsub n m _ _ 0 0 0) by assumption. reflexivity. Qed.
  Lemma bent_more n m k dx w w' w0 i j : shaped n m w -> shaped n m w' -> shaped n m w0 -> (i < n)%nat -> (j < m)%nat ->
    at2 0 (deflection E k dx (fmap2 nsub w' w0)) i j = at2 0 (deflection E k dx (fmap2 nsub w w0)) i j + at2 0 (deflection E k dx (fmap2 nsub w' w)) i j.
  Proof.
    intros S1 S2 S0 Hi Hj. unfold deflection. set (F := fun l : R => nmul (nmul l (ex_gravity E k)) dx).
    pose proof (shaped_fmap2 nsub n m _ _ S1 S0) as D1. pose proof (shaped_fmap2 nsub n m _ _ S2 S1) as D2. pose proof (shaped_fmap2 nsub n m _ _ S2 S0) as D3.
    pose proof (LP k n m (fmap F (fmap2 nsub w w0)) (fmap F (fmap2 nsub w' w)) i j (shaped_fmap _ _ _ _ D1) (shaped_fmap _ _ _ _ D2) Hi Hj) as Y.
    rewrite n0_R in Y. change (nadd ?a ?b) with (a + b) in Y. rewrite <- Y. f_equal. f_equal.
    apply (field_ext n m _ _ 0); [apply shaped_fmap; assumption|apply shaped_fmap2; apply shaped_fmap; assumption|]. intros a b Ha Hb.
    rewrite (at2_fmap2 nadd n m _ _ 0 0 0) by (try apply shaped_fmap; assumption). rewrite !(at2_fmap F n m _ 0 0) by assumption.
    rewrite !(at2_sub n m) by assumption. unfold F. numR. ring.
  Qed.
  Lemma bent_none n m k dx w i j : shaped n m w -> (i < n)%nat -> (j < m)%nat -> at2 0 (deflection E k dx (fmap2 nsub w w)) i j = 0.
  Proof. intros S Hi Hj. pose proof (bent_more n m k dx w w w i j S S S Hi Hj). lra. Qed.

  (* who moves the bedrock *)
  Definition roles (rate : list R) (ps : parts R X) : Prop :=
    (forall k q, k <> "subsidence" -> k <> "flexure" -> dget String.eqb ps k = Some q -> sinks q = false)
    /\ (forall q, dget String.eqb ps "subsidence" = Some q -> exists c, q = Ours (PSubsidence c) /\ sub_rate c = rate).
  Definition K (n m : nat) (dx : R) (k0 : kwds R) (T : option R) (b0 w0 tl : field R) (s : nat -> R) (pl : nat -> nat -> R) (lst : field R) (ps : parts R X) (g : grid R) : Prop :=
    exists b inc d c, node g BED = Some b /\ node g INCREMENT = Some inc /\ node g TOTAL_LOAD = Some tl
      /\ dget String.eqb ps "flexure" = Some (Ours (PFlexure d k0 c)) /\ df_rows (sf_dyn c) = n /\ df_time (sf_dyn c) = T /\ sf_last_load c = lst
      /\ g_rows g = n /\ g_cols g = m /\ g_dx g = dx
      /\ (forall i j, (i < n)%nat -> (j < m)%nat ->
           at2 0 b (S i) j + at2 0 inc (S i) j = at2 0 b0 (S i) j + s j - (at2 0 (deflection E k0 dx (fmap2 nsub lst w0)) i j - at2 0 (df_pool (sf_dyn c)) i j))
      /\ (forall i j, (i < n)%nat -> (j < m)%nat -> at2 0 (df_pool (sf_dyn c)) i j = pl i j).
  (* what the plate owes after a step: some of what it owed and of what it was given *)
  Definition next (n : nat) (T : option R) (dt : R) (pl : nat -> nat -> R) (d : field R) (i j : nat) : R := (pl i j + at2 0 d i j) * (1 - calc_isostasy_fraction T dt / INR n).

  Lemma other_load dt p g p' g' : sinks p = false -> part_step E dt (p, g) = Ok (p', g') -> node g' TOTAL_LOAD = node g TOTAL_LOAD.
  Proof.
    intros O S. unfold part_step in S. cbn [fst snd] in S. destruct p as [q|x].
    - destruct (step dt (q, g)) as [[q1 g1]|] eqn:S1; cbn [bind] in S; [|discriminate]. assert (g1 = g') by congruence. subst g1.
      apply step_writes in S1. destruct S1 as (_ & _ & _ & C). pose proof (C (TOTAL_LOAD, AtNode)) as C1. unfold same_field in C1. cbn [fst snd] in C1.
      symmetry. apply C1. destruct q; try discriminate O; cbn; unfold TOTAL_LOAD; intuition discriminate.
    - destruct (ex_step E dt (x, g)) as [[q1 g1]|] eqn:S1; cbn [bind] in S; [|discriminate]. assert (g1 = g') by congruence. subst g1. exact (LL _ _ _ _ _ S1).
  Qed.
  Definition is (a b : string) : bool := String.eqb a b.
  Lemma one n m dx k0 T b0 w0 tl s pl lst rate all dt a p ps g p' g' : shaped n m w0 -> length rate = m ->
    sound all ps g -> roles rate ps -> K n m dx k0 T b0 w0 tl s pl lst ps g ->
    dget String.eqb ps a = Some p -> part_step E dt (p, g) = Ok (p', g') ->
    roles rate (dset String.eqb ps a p')
    /\ K n m dx k0 T b0 w0 tl (if is "subsidence" a then fun j => s j + nth j rate 0 * dt else s) (if is "flexure" a then next n T dt pl (deflection E k0 dx (fmap2 nsub (inner tl) lst)) else pl) (if is "flexure" a then inner tl else lst) (dset String.eqb ps a p') g'.
  Proof.
    intros S0 Lr Sd [O Os] (b & inc & d & c & Nb & Ni & Nt & Df & Dr & Dt & Dl & Gr & Gc & Gd & V & V0) Da Es.
    pose proof (part_step_kind _ _ _ _ _ _ Es) as Kd. pose proof (proj2 (proj2 Sd) _ _ Da) as Gp. pose proof (proj1 (proj1 Sd)) as Wg.
    assert (R' : a <> "subsidence" -> roles rate (dset String.eqb ps a p')).
    { intros Na. split.
      - intros k q N1 N2. rewrite (dget_dset _ String.eqb_eq). destruct (String.eqb_spec k a) as [->|]; [|apply O; assumption].
        intros Y. assert (p' = q) by congruence. subst q. rewrite (sinks_kind _ _ Kd). exact (O _ _ N1 N2 Da).
      - intros q. rewrite (dget_dset _ String.eqb_eq). destruct (String.eqb_spec "subsidence" a) as [<-|]; [congruence|]. apply Os. }
    unfold is. destruct (String.eqb_spec "subsidence" a) as [<-|Ns].
    - change (String.eqb "flexure" "subsidence") with false. cbv iota. destruct (Os _ Da) as (cs & -> & Rc).
      unfold part_step, process_step, subsidence_step in Es. cbn [fst snd] in Es. unfold get_profile, set_profile, node_r in Es. rewrite Ni in Es. cbn [bind] in Es.
      set (row := map (fun r => zipw nadd r (map (fun r0 => nmul r0 dt) (sub_rate cs))) (inner inc)) in Es.
      assert (Y : p' = Ours (PSubsidence (mkSubsidence (sub_rate cs) (nadd (sub_time cs) dt))) /\ g' = put_node g INCREMENT (set_inner inc row)) by (split; congruence).
      destruct Y as [-> ->]. split.
      + split.
        * intros k q N1 N2. rewrite (dget_dset _ String.eqb_eq). destruct (String.eqb_spec k "subsidence"); [congruence|]. apply O; assumption.
        * intros q. rewrite (dget_dset _ String.eqb_eq), String.eqb_refl. intros Y. match type of Y with Some ?u = _ => assert (u = q) by congruence end. subst q. eexists. split; [reflexivity|exact Rc].
      + assert (Si : shaped (n + 2) m inc) by (rewrite <- Gr, <- Gc; exact (proj2 Wg _ _ Ni)). pose proof (shaped_inner _ _ _ Si) as Sii.
        assert (Sr : shaped n m row).
        { split; [unfold row; rewrite map_length; apply Sii|]. intros r Hr. apply in_map_iff in Hr as (r0 & <- & Hr0). rewrite zipw_length, (proj2 Sii _ Hr0), map_length, Rc, Lr. apply Nat.min_id. }
        exists b, (set_inner inc row), d, c. rewrite !node_put, (dget_dset _ String.eqb_eq). cbn [String.eqb Ascii.eqb Bool.eqb INCREMENT TOTAL_LOAD].
        split; [exact Nb|]. split; [reflexivity|]. split; [exact Nt|]. split; [exact Df|]. repeat (split; [assumption|]). split; [|exact V0].
        intros i j Hi Hj. specialize (V i j Hi Hj). rewrite (at2_set_inner n m) by (assumption || lia).
        destruct (Nat.leb_spec 1 (S i)); [|lia]. destruct (Nat.leb_spec (S i) n); [|lia]. cbn [andb]. replace (S i - 1)%nat with i by lia.
        assert (Y : at2 0 row i j = at2 0 inc (S i) j + nth j rate 0 * dt).
        { unfold at2 at 1, row. rewrite nth_map' with (da := []) by (rewrite (shaped_len _ _ _ Sii); exact Hi). rewrite nth_zipw with (da := 0) (db := 0).
          - rewrite nth_map' with (da := 0) by (rewrite Rc, Lr; exact Hj). rewrite Rc. fold (at2 0 (inner inc) i j). rewrite (at2_inner n m) by assumption. reflexivity.
          - rewrite (shaped_nth _ _ _ _ Sii) by exact Hi. exact Hj.
          - rewrite map_length, Rc, Lr. exact Hj. }
        rewrite Y. lra.
    - specialize (R' (not_eq_sym Ns)). split; [exact R'|]. destruct (String.eqb_spec "flexure" a) as [<-|Nf].
      + rewrite Df in Da. assert (p = Ours (PFlexure d k0 c)) by congruence. subst p. destruct Gp as (Sv & (F1 & F2) & _). rewrite Gr, Gc in F1, F2.
        assert (FO : flex_ok n m c g).
        { constructor; try assumption. intros nm Hn. assert (Hh : has g nm) by (cbn [serves] in Sv; cbn [In] in Hn; intuition (subst; assumption)).
          destruct Hh as [f Hf]. exists f. split; [exact Hf|]. rewrite <- Gr, <- Gc. exact (proj2 Wg _ _ Hf). }
        destruct (proj1 (proj2 (proj2 Sv))) as [pr Hpr].
        destruct (sed_flexure_step_spec n m (ex_flexure E k0) (ex_gravity E k0) dt c g tl pr inc FO (fun z Hz => wb_flexure E WB k0 n m z Hz) Nt Hpr Ni)
          as (c' & h & Eh & L1 & D1 & _ & N1 & No & _ & _ & _ & X1 & FO').
        unfold part_step, process_step in Es. cbn [fst snd] in Es. rewrite Eh in Es. cbn [bind] in Es.
        assert (Y : p' = Ours (PFlexure d k0 c') /\ g' = h) by (split; congruence). destruct Y as [-> ->]. clear Es.
        assert (Stl : shaped (n + 2) m tl) by (rewrite <- Gr, <- Gc; exact (proj2 Wg _ _ Nt)). assert (Si : shaped (n + 2) m inc) by (rewrite <- Gr, <- Gc; exact (proj2 Wg _ _ Ni)).
        pose proof (shaped_inner _ _ _ Stl) as Stl'. pose proof (shaped_inner _ _ _ Si) as Sii.
        set (P := fmap _ _) in *. assert (SP : shaped n m P) by (apply shaped_fmap, shaped_fmap2; assumption).
        pose proof (dyn_step_spec n m (sf_dyn c) (ex_flexure E k0 P) dt Dr F1 (wb_flexure E WB k0 n m P SP)) as HD.
        destruct (calc_dynamic_deflection (sf_dyn c) (ex_flexure E k0 P) dt) as [dy out]. cbn [fst snd] in *. destruct HD as (T1 & R1 & P1 & O1 & V1).
        exists b, (set_inner inc (fmap2 nsub (inner inc) out)), d, c'. rewrite (dget_dset _ String.eqb_eq), String.eqb_refl.
        split; [rewrite No by (cbn; unfold LITHO, PRESSURE, BEDROCK_INC; intuition discriminate); exact Nb|]. split; [exact N1|].
        split; [rewrite No by (cbn; unfold LITHO, PRESSURE, BEDROCK_INC, TOTAL_LOAD; intuition discriminate); exact Nt|].
        split; [reflexivity|]. rewrite D1. split; [exact R1|]. split; [congruence|]. split; [exact L1|]. split; [apply FO'|]. split; [apply FO'|]. split; [congruence|].
        assert (Y : deflection E k0 dx (fmap2 nsub (inner tl) lst) = ex_flexure E k0 P) by (unfold deflection, P; rewrite Gd, Dl; reflexivity).
        split; [|intros i j Hi Hj; destruct (V1 i j Hi Hj) as [V2 V3]; unfold next; rewrite V3, V2, Dt, V0, Y by assumption; ring].
        intros i j Hi Hj. specialize (V i j Hi Hj). destruct (V1 i j Hi Hj) as [_ V2]. rewrite V2, (at2_set_inner n m) by (try apply shaped_fmap2; assumption || lia).
        destruct (Nat.leb_spec 1 (S i)); [|lia]. destruct (Nat.leb_spec (S i) n); [|lia]. cbn [andb]. replace (S i - 1)%nat with i by lia.
        rewrite (at2_sub n m), (at2_inner n m) by assumption.
        rewrite (bent_more n m k0 dx lst (inner tl) w0 i j) by (congruence || assumption).
        rewrite Y. lra.
      + assert (Sp : sinks p = false) by (apply (O a); congruence). destruct (other_sinks E LB _ _ _ _ _ Sp Es) as [_ Sn]. apply seen_same in Sn as (Z1 & Z2 & Z3 & Z4 & Z5).
        pose proof (other_load _ _ _ _ _ Sp Es) as Z6. exists b, inc, d, c. unfold INCREMENT in *. rewrite Z4, Z5, Z6, (dget_dset _ String.eqb_eq).
        destruct (String.eqb_spec "flexure" a); [congruence|]. repeat (split; [congruence|]). exact (conj V V0).
  Qed.
  Definition among (a : string) (names : list string) : bool := existsb (String.eqb a) names.
  Lemma among_in a names : among a names = true <-> In a names.
  Proof. unfold among. rewrite existsb_exists. split; [intros (k & Hk & Y); apply String.eqb_eq in Y; congruence|intros H; exists a; split; [exact H|apply String.eqb_refl]]. Qed.
  Lemma run n m dx k0 T b0 w0 tl rate all dt : shaped n m w0 -> length rate = m ->
    forall names ps g s pl lst ps' g', NoDup names -> incl names all -> sound all ps g -> roles rate ps -> K n m dx k0 T b0 w0 tl s pl lst ps g ->
    run_components (map (step_of E) names) dt (ps, g) = Ok (ps', g') ->
    roles rate ps' /\ K n m dx k0 T b0 w0 tl (if among "subsidence" names then fun j => s j + nth j rate 0 * dt else s) (if among "flexure" names then next n T dt pl (deflection E k0 dx (fmap2 nsub (inner tl) lst)) else pl) (if among "flexure" names then inner tl else lst) ps' g'.
  Proof.
    intros S0 Lr. induction names as [|a names IH]; intros ps g s pl lst ps' g' Nd Hin Sd Ro Hk H.
    - cbn in H. assert (ps' = ps /\ g' = g) as [-> ->] by (split; congruence). auto.
    - cbn [map] in H. rewrite run_cons in H. unfold step_of at 1 in H. cbn [fst snd] in H.
      destruct (dget String.eqb ps a) as [p|] eqn:Ep; cbn [bind] in H; [|discriminate].
      destruct (part_step E dt (p, g)) as [[p' g1]|] eqn:Es; cbn [bind] in H; [|discriminate].
      destruct (one _ _ _ _ _ _ _ _ _ _ _ _ _ _ _ _ _ _ _ _ S0 Lr Sd Ro Hk Ep Es) as [Ro1 K1].
      pose proof (proj2 (proj2 Sd) a p Ep) as Gp. destruct (part_stepped E WB _ _ _ _ _ (proj1 Sd) Gp Es) as [Ad Gp'].
      inversion Nd as [|? ? Na Nd']; subst.
      destruct (IH _ _ _ _ _ _ _ Nd' (fun x Hx => Hin x (or_intror Hx)) (sound_put _ _ _ _ _ _ Sd Ad Gp') Ro1 K1 H) as [Ro2 K2]. split; [exact Ro2|].
      cbn [among existsb]. fold (among "subsidence" names) (among "flexure" names). unfold is in K2.
      assert (B1 : String.eqb "subsidence" a = true -> among "subsidence" names = false).
      { intros Y. apply String.eqb_eq in Y. subst a. destruct (among "subsidence" names) eqn:Z0; [|reflexivity]. apply among_in in Z0. contradiction. }
      assert (B2 : String.eqb "flexure" a = true -> among "flexure" names = false).
      { intros Y. apply String.eqb_eq in Y. subst a. destruct (among "flexure" names) eqn:Z0; [|reflexivity]. apply among_in in Z0. contradiction. }
      unfold among at 1 2 3. cbn [existsb]. fold (among "subsidence" names) (among "flexure" names).
      destruct (String.eqb "subsidence" a), (String.eqb "flexure" a); cbn [orb]; rewrite ?B1, ?B2 in K2 by reflexivity; exact K2.
  Qed.

  (** ** the invariant *)
  Definition I (n m : nat) (dx : R) (k0 : kwds R) (T : option R) (b0 w0 : field R) (names : list string) (md : smodel R (parts R X)) (f : R -> result R) (s : nat -> R) (pl : nat -> nat -> R) (w : field R) : Prop :=
    inv names md /\ NoDup names /\ In "flexure" names
    /\ (exists rate, length rate = m /\ roles rate (sm_world md) /\ (dget String.eqb (sm_world md) "subsidence" <> None -> mapM f (x_of_column (sm_grid md)) = Ok rate))
    /\ (exists tl, K n m dx k0 T b0 w0 tl s pl w (sm_world md) (sm_grid md))
    /\ forall inc, node (sm_grid md) INCREMENT = Some inc -> forall i j, (i < n)%nat -> (j < m)%nat -> at2 0 inc (S i) j = 0.
  Lemma step_bend n m dx k0 T b0 w0 names dt md md' f s pl w : shaped n m w0 -> I n m dx k0 T b0 w0 names md f s pl w ->
    run_one_step (named_processes E names) dt md = Stepped md' ->
    exists s', I n m dx k0 T b0 w0 names md' f s' (next n T (step_used dt md) pl (deflection E k0 dx (fmap2 nsub (load_of md) w))) (load_of md)
      /\ if among "subsidence" names then exists rate, mapM f (x_of_column (sm_grid md)) = Ok rate /\ length rate = m /\ s' = (fun j => s j + nth j rate 0 * step_used dt md) else s' = s.
  Proof.
    intros S0 (Hi & Nd & Hf & (rate & Lr & Ro & Mf) & (tl & Hk) & Zi) Es.
    pose proof (stepped_inv E WB names dt md Hi) as Hi'. rewrite Es in Hi'.
    destruct (stepped _ _ _ _ _ Es) as (_ & g & ps & h & el & h' & E1 & E2 & E0 & E3 & E4).
    pose proof (clear_adds _ _ (proj1 (proj1 Hi)) E1) as A0. pose proof (sound_adds _ _ _ _ (proj2 Hi) A0) as Sd.
    assert (Kg : K n m dx k0 T b0 w0 tl s pl w (sm_world md) g).
    { destruct Hk as (b & inc & d & c & Nb & Ni & Nt & Df & Dr & Dt & Dl & Gr & Gc & Gd & V & V0). exists b, inc, d, c.
      pose proof (seen_clear _ _ E1) as Y. apply seen_same in Y as (Z1 & Z2 & Z3 & Z4 & Z5). unfold INCREMENT in *.
      assert (Z6 : node g TOTAL_LOAD = node (sm_grid md) TOTAL_LOAD).
      { unfold clear_deposit in E1. destruct (node_r _ _); cbn [bind] in E1; [|discriminate]. match type of E1 with Ok ?a = _ => assert (Y : g = a) by congruence end. rewrite Y, node_put. reflexivity. }
      rewrite Z4, Z5, Z6. repeat (split; [congruence|]). exact (conj V V0). }
    assert (Lo : load_of md = inner tl).
    { destruct Hk as (b & inc & d & c & Nb & Ni & Nt & _). unfold load_of. change "sediment__total_of_loading" with TOTAL_LOAD. rewrite Nt. reflexivity. }
    destruct (run n m dx k0 T b0 w0 tl rate names (step_used dt md) S0 Lr names _ _ _ _ _ _ _ Nd (incl_refl _) Sd Ro Kg E2) as [Ro1 K1].
    rewrite (proj2 (among_in "flexure" names) Hf) in K1. set (s' := if among "subsidence" names then _ else s) in *. exists s'. split.
    - rewrite Lo. pose proof Hi' as Hi2. destruct K1 as (b & inc & d & c & Nb & Ni & Nt & Df & Dr & Dt & Dl & Gr & Gc & Gd & V & V0).
      pose proof (update_bedrock (set_layers h el) h' b inc Nb Ni E3) as U. change (g_rows (set_layers h el)) with (g_rows h) in U. change (g_cols (set_layers h el)) with (g_cols h) in U.
      change (g_dx (set_layers h el)) with (g_dx h) in U. rewrite Gr, Gc, Gd in U. assert (V' : seen (sm_grid md') = seen h') by (rewrite E4; reflexivity). rewrite <- V' in U. clear V'.
      apply seen_is in U as (U1 & U2 & U3 & U4 & U5). subst ps.
      assert (Wh : whole_grid h).
      { pose proof (components_run E WB names (step_used dt md) names (sm_world md) g (incl_refl _) Sd) as C. rewrite E2 in C. apply C. }
      assert (Sb : shaped (n + 2) m b) by (rewrite <- Gr, <- Gc; exact (proj2 Wh _ _ Nb)). assert (Si : shaped (n + 2) m inc) by (rewrite <- Gr, <- Gc; exact (proj2 Wh _ _ Ni)).
      split; [exact Hi'|]. split; [exact Nd|]. split; [exact Hf|]. split; [|split].
      + exists rate. split; [exact Lr|]. split; [exact Ro1|]. intros Y. rewrite (columns_seen (sm_grid md) (sm_grid md')).
        * apply Mf. destruct (in_dec string_dec "subsidence" names) as [Y1|Y1]; [exact (proj1 (proj2 (proj2 Hi)) _ Y1)|].
          intros Y2. apply Y. clear - E2 Y1 Y2. revert E2 Y2. generalize (sm_world md) g. induction names as [|a l IH]; intros ps0 g0 H Y2.
          -- cbn in H. congruence.
          -- cbn [map] in H. rewrite run_cons in H. unfold step_of at 1 in H. cbn [fst snd] in H. destruct (dget String.eqb ps0 a) as [p|]; cbn [bind] in H; [|discriminate].
             destruct (part_step E _ (p, g0)) as [[p' g1]|]; cbn [bind] in H; [|discriminate]. refine (IH _ _ _ H _); [intros Y; apply Y1; right; exact Y|].
             rewrite (dget_dset _ String.eqb_eq). destruct (String.eqb_spec "subsidence" a) as [<-|]; [exfalso; apply Y1; left; reflexivity|exact Y2].
        * rewrite U2. destruct Hk as (? & ? & ? & ? & _ & _ & _ & _ & _ & _ & _ & _ & -> & _). reflexivity.
        * rewrite U3. destruct Hk as (? & ? & ? & ? & _ & _ & _ & _ & _ & _ & _ & _ & _ & -> & _). reflexivity.
      + assert (Ht : has (sm_grid md') TOTAL_LOAD) by (exact (proj1 (proj2 (proj1 (proj2 (proj2 (proj2 Hi')) _ _ Df))))). destruct Ht as [tl' Ht]. exists tl'.
        exists (fmap2 nadd b inc), (fmap (fun _ => n0) inc), d, c. repeat (split; [assumption|]). split; [|exact V0]. intros i j Hi0 Hj. specialize (V i j Hi0 Hj).
        rewrite (at2_fmap2 nadd (n + 2) m _ _ 0 0 0), (at2_fmap _ (n + 2) m _ 0 0) by (assumption || lia). rewrite n0_R. change (nadd ?a ?b) with (a + b). lra.
      + intros inc' Y i j Hi0 Hj. rewrite U5 in Y. assert (Y1 : inc' = fmap (fun _ => n0) inc) by congruence. rewrite Y1, (at2_fmap _ (n + 2) m _ 0 0) by (assumption || lia). apply n0_R.
    - unfold s'. destruct (among "subsidence" names) eqn:Am; [|reflexivity]. exists rate. split; [|auto]. apply Mf. apply among_in in Am. exact (proj1 (proj2 (proj2 Hi)) _ Am).
  Qed.

  Lemma sets_part params : forall ps g ps' g' f rate m, ~ In "flexure" (map fst params) -> length rate = m -> roles rate ps -> length (x_of_column g) = m ->
    (dget String.eqb ps "subsidence" <> None -> mapM f (x_of_column g) = Ok rate) -> foldM (set_one E) params (ps, g) = Ok (ps', g') ->
    seen g' = seen g /\ dget String.eqb ps' "flexure" = dget String.eqb ps "flexure"
    /\ exists rate', length rate' = m /\ roles rate' ps' /\ (dget String.eqb ps' "subsidence" <> None -> mapM (newest "subsidence" params f) (x_of_column g') = Ok rate').
  Proof.
    intros ps g ps' g' f rate m Hf Lr Ro Lx Mf H.
    enough (G : seen g' = seen g /\ dget String.eqb ps' "flexure" = dget String.eqb ps "flexure" /\ Forall is_table (assigned "subsidence" "filepath" params)
      /\ exists rate', length rate' = m /\ roles rate' ps' /\ (dget String.eqb ps' "subsidence" <> None -> mapM (fold_left tabled (assigned "subsidence" "filepath" params) f) (x_of_column g') = Ok rate')).
    { destruct G as (G1 & G2 & G3 & G4). split; [exact G1|]. split; [exact G2|]. rewrite (newest_fold _ _ _ G3). exact G4. }
    revert ps g f rate Hf Lr Ro Lx Mf H. induction params as [|[n kvs] params IH]; intros ps g f rate Hf Lr Ro Lx Mf; cbn [foldM].
    - intros H. assert (Y : ps' = ps /\ g' = g) by (split; congruence). destruct Y as [-> ->]. split; [reflexivity|]. split; [reflexivity|]. split; [constructor|]. exists rate. auto.
    - rewrite assigned_cons. unfold set_one at 1. cbn [fst snd]. destruct (dget String.eqb ps n) as [q|] eqn:D; [|discriminate].
      destruct (foldM _ kvs (q, g)) as [[q1 g1]|] eqn:S; cbn [bind]; [|discriminate]. intros H. pose proof (sets_seen E LB _ _ _ _ _ S) as V.
      cbn [map fst In] in Hf. assert (Nf : n <> "flexure") by tauto. assert (Hf' : ~ In "flexure" (map fst params)) by tauto.
      pose proof (seen_columns _ _ V) as Vx.
      destruct (String.eqb n "subsidence") eqn:Kn.
      + apply String.eqb_eq in Kn. subst n. destruct (proj2 Ro _ D) as (c & -> & Rc).
        assert (Mf' : mapM f (x_of_column g) = Ok (sub_rate c)) by (rewrite Rc; apply Mf; congruence).
        destruct (sub_sets E _ _ _ _ _ _ Mf' S) as [F (c1 & -> & C2)].
        refine (_ (IH _ _ (fold_left tabled (given "filepath" kvs) f) (sub_rate c1) Hf' _ _ _ _ H)).
        * intros (V' & D' & F' & rate' & L' & R' & M'). split; [congruence|]. split; [rewrite D', (dget_dset _ String.eqb_eq); reflexivity|]. split; [apply Forall_app; auto|].
          exists rate'. rewrite fold_left_app. auto.
        * rewrite (mapM_len _ _ _ C2), Vx. exact Lx.
        * split.
          -- intros k r N1 N2. rewrite (dget_dset _ String.eqb_eq). destruct (String.eqb_spec k "subsidence"); [congruence|]. apply (proj1 Ro); assumption.
          -- intros r. rewrite (dget_dset _ String.eqb_eq), String.eqb_refl. intros Y. assert (r = Ours (PSubsidence c1)) by congruence. subst r. eauto.
        * rewrite Vx. exact Lx.
        * intros _. exact C2.
      + cbn [app]. assert (Nn : n <> "subsidence") by (apply String.eqb_neq, Kn).
        refine (_ (IH _ _ f rate Hf' Lr _ _ _ H)).
        * intros (V' & D' & F' & R'). split; [congruence|]. split; [rewrite D', (dget_dset _ String.eqb_eq); destruct (String.eqb_spec "flexure" n); [congruence|reflexivity]|]. auto.
        * split.
          -- intros k r N1 N2. rewrite (dget_dset _ String.eqb_eq). destruct (String.eqb k n) eqn:Kk; [|apply (proj1 Ro); assumption]. intros Y. assert (q1 = r) by congruence. subst r.
             rewrite (sinks_kind _ _ (sets_kind _ _ _ _ _ _ S)). exact (proj1 Ro n q Nn Nf D).
          -- intros r. rewrite (dget_dset _ String.eqb_eq). destruct (String.eqb_spec "subsidence" n); [congruence|]. apply (proj2 Ro).
        * rewrite Vx. exact Lx.
        * rewrite (dget_dset _ String.eqb_eq), Vx. destruct (String.eqb_spec "subsidence" n); [congruence|]. exact Mf.
  Qed.
  Lemma set_bend n m dx k0 T b0 w0 names params md md' f s pl w : I n m dx k0 T b0 w0 names md f s pl w -> ~ In "flexure" (map fst params) ->
    set_model_params E params md = Ok md' -> I n m dx k0 T b0 w0 names md' (newest "subsidence" params f) s pl w.
  Proof.
    intros (Hi & Nd & Hf & (rate & Lr & Ro & Mf) & (tl & Hk) & Zi) Np Es.
    destruct (set_inv E WB names params md md' Hi Es) as (Hi' & _ & _ & _ & Nn).
    rewrite set_model_is in Es. destruct (foldM (set_one E) params (sm_world md, sm_grid md)) as [[ps g]|] eqn:S; cbn [bind] in Es; [|discriminate].
    assert (Y : md' = mkModel ps g (sm_clock md) (sm_archived md)) by congruence. subst md'. cbn [sm_world sm_grid] in *.
    destruct Hk as (b & inc & d & c & Nb & Ni & Nt & Df & Dr & Dt & Dl & Gr & Gc & Gd & V & V0).
    destruct (sets_part params _ _ _ _ f rate m Np Lr Ro (eq_trans (columns_length _) Gc) Mf S) as (Vs & Dn & rate' & L' & R' & M').
    split; [exact Hi'|]. split; [exact Nd|]. split; [exact Hf|]. split; [exists rate'; auto|]. cbn [sm_world sm_grid]. split.
    - exists tl, b, inc, d, c. rewrite !Nn, Dn. apply seen_same in Vs as (Z1 & Z2 & Z3 & _). repeat (split; [congruence|]). exact (conj V V0).
    - intros inc'. rewrite Nn. apply Zi.
  Qed.
  (** ** a loaded model *)
  Definition newborn (g : grid R) (p : part R X) : Prop := forall d k c, p = Ours (PFlexure d k c) ->
    exists tl, node g TOTAL_LOAD = Some tl /\ sf_last_load c = inner tl /\ df_rows (sf_dyn c) = g_rows g
      /\ forall i j, (i < g_rows g)%nat -> (j < g_cols g)%nat -> at2 0 (df_pool (sf_dyn c)) i j = 0.
  Lemma newborn_kept g g' p : g_rows g' = g_rows g -> g_cols g' = g_cols g -> (forall n f, node g n = Some f -> node g' n = Some f) -> newborn g p -> newborn g' p.
  Proof. intros Hr Hc Hn H d k c Y. destruct (H d k c Y) as (tl & H1 & H2). exists tl. rewrite Hr, Hc. split; [apply Hn, H1|exact H2]. Qed.
  Lemma newborn_made cls s g p g' : whole_grid g -> make E cls s g = Ok (p, g') -> newborn g' p.
  Proof.
    intros Wg Hm d k c ->. assert (Hk : Some SedimentFlexure = class_named cls) by exact (made_kind E _ _ _ _ _ Hm). unfold make in Hm. rewrite <- Hk in Hm.
    destruct (construct _ _ s g) as [[q h]|] eqn:Ec; cbn [bind] in Hm; [|discriminate]. assert (Y : q = PFlexure d k c /\ h = g') by (split; congruence). destruct Y as [-> ->]. clear Hm.
    unfold construct in Ec. destruct (negb _); [discriminate|]. steps Ec. match type of Ec with (let (_, _) := ?r in _) = _ => destruct r as [c1 g1] end. cbn [bind] in Ec.
    assert (Y : c1 = c /\ g1 = g') by (split; congruence). destruct Y as [-> ->].
    match goal with H : sed_flexure_init (Some ?t) g = _ |- _ => set (it := Some t) in H; rename H into Hi end.
    destruct (sed_flexure_init_ok it g c g' (fun f nm Hf => proj2 Wg nm f Hf) Hi) as (FO & _ & (tl & Nt & Lt & _) & _). exists tl. split; [exact Nt|]. split; [exact Lt|].
    rewrite (fo_grows _ _ _ _ FO), (fo_gcols _ _ _ _ FO). unfold sed_flexure_init in Hi. cbv zeta in Hi. destruct (dyn_init it _ _) as [dyn|] eqn:Ed; [|discriminate]. cbn [bind] in Hi.
    destruct (get_profile _ TOTAL_LOAD); [|discriminate]. cbn [bind] in Hi. match type of Hi with Ok (?u, _) = _ => assert (Y : c = u) by congruence end. rewrite Y. cbn [sf_dyn].
    assert (Z1 : g_rows (ensure_node g TOTAL_LOAD) = g_rows g) by (unfold ensure_node; destruct (has_node _ _); reflexivity).
    assert (Z2 : g_cols (ensure_node g TOTAL_LOAD) = g_cols g) by (unfold ensure_node; destruct (has_node _ _); reflexivity). rewrite Z1, Z2 in Ed.
    destruct (dyn_init_state _ _ _ _ Ed) as (Hw & _ & Hz & _). split; [exact Hw|exact Hz].
  Qed.
  Lemma newborn_fold params : forall names objs (g : grid R) objs' g', solid g -> (forall n p, In (n, p) objs -> newborn g p) ->
    load_fold E params names (objs, g) = Ok (objs', g') -> forall n p, In (n, p) objs' -> newborn g' p.
  Proof.
    induction names as [|n names IH]; intros objs g objs' g' S F Ef.
    - cbn in Ef. assert (objs' = objs /\ g' = g) as [-> ->] by (split; congruence). exact F.
    - unfold load_fold in Ef. cbn [foldM fst snd] in Ef. destruct (process_class params n) as [cls|] eqn:Ec; [|discriminate]. cbn [bind] in Ef.
      destruct (make E cls _ g) as [[p g1]|] eqn:Em; [|discriminate]. cbn [bind] in Ef. fold (load_fold E params names (objs ++ [(n, p)], g1)) in Ef.
      destruct (made E WB _ _ _ _ _ S Em) as (A1 & _ & _ & _ & _ & _ & Kp). refine (IH _ _ _ _ (solid_adds _ _ S A1) _ Ef).
      intros k q Hk. apply in_app_or in Hk. destruct Hk as [Hk|[Hk|[]]].
      + refine (newborn_kept g g1 q _ _ Kp (F _ _ Hk)); apply A1.
      + assert (p = q) by congruence. subst q. exact (newborn_made _ _ _ _ _ (proj1 S) Em).
  Qed.
  Lemma world_roles t rate (ps : parts R X) : roles rate ps -> roles rate (set_sea_time t ps)
    /\ dget String.eqb (set_sea_time t ps) "subsidence" = dget String.eqb ps "subsidence" /\ dget String.eqb (set_sea_time t ps) "flexure" = dget String.eqb ps "flexure".
  Proof.
    intros [O Os]. unfold set_sea_time.
    destruct (dget String.eqb ps "sea_level") as [[[]|]|]; try (split; [exact (conj O Os)|split; reflexivity]);
      (split; [|rewrite !(dget_dset _ String.eqb_eq); split; reflexivity]); (split; [|intros q; rewrite (dget_dset _ String.eqb_eq); apply Os]);
      intros k q Hk Hf; rewrite (dget_dset _ String.eqb_eq);
      (destruct (String.eqb k "sea_level"); [|apply O; assumption]); intros Y; match type of Y with Some ?a = _ => assert (V : q = a) by congruence end; rewrite V; reflexivity.
  Qed.
  Lemma made_flexure cls s h p h' (params : list (string * kwds R)) : process_class params "flexure" = Ok cls -> make E cls s h = Ok (p, h') -> exists d k c, p = Ours (PFlexure d k c).
  Proof.
    intros Hc Hm. change (process_class params "flexure") with (@Ok string "SedimentFlexure") in Hc. assert (cls = "SedimentFlexure") by congruence. subst cls.
    apply made_kind in Hm. destruct p as [[]|]; try (cbn in Hm; discriminate Hm). eauto.
  Qed.
  Lemma loaded_bend params text names ctx c g0 names' md : load_grid params (Some (read_bathymetry text)) = Ok g0 ->
    (2 <= g_cols g0)%nat -> (0 < g_rows g0)%nat -> 0 < g_dx g0 ->
    load_model E params (read_bathymetry text) names ctx c = Ok (names', md) -> In "flexure" names' ->
    exists b0, node g0 BED = Some b0 /\ shaped (g_rows g0) (g_cols g0) (load_of md)
      /\ I (g_rows g0) (g_cols g0) (g_dx g0) (plate_of md) (isostasy_of md) b0 (load_of md) names' md (described_rate (section_of ctx "subsidence")) (fun _ => 0) (fun _ _ => 0) (load_of md).
  Proof.
    intros El Hc Hr Hd Em Hf. destruct (grid_read _ _ _ El) as (x & y & b0 & Ef & F0 & S0 & V0). exists b0.
    pose proof (load_inv E WB params text names ctx c g0 El Hc Hr Hd) as Hi. rewrite Em in Hi.
    destruct (load_parts _ _ _ _ _ _ _ _ Em) as (g1 & ps & g & El' & Ep & Ei & ->). rewrite El in El'. assert (g1 = g0) by congruence. subst g1.
    split; [apply F0|].
    destruct (load_made E (fresh (g_rows g0) (g_cols g0) (g_dx g0) b0) (fun cls s h p h' Hh Hm => fresh_make E LB _ _ _ _ cls s h p h' Hh Hm) _ _ _ _ _ F0 Ep) as (Fg & N & M).
    destruct (init_world _ _ _ _ _ Ei) as [Ew _]. pose proof (init_seen _ _ _ _ _ Ei) as Sn.
    destruct (loaded_whole _ _ _ El Hc) as (W & _ & B). assert (S : solid g0) by (split; [exact W|]; auto).
    destruct (loaded_parts E WB _ _ _ _ _ S Ep) as (A1 & _).
    destruct (init_spec _ _ _ _ _ (proj1 (solid_adds _ _ S A1)) Ei) as (Wm & _ & _ & _ & _ & _ & Nm & _).
    destruct (dkeys_dget ps "flexure" Hf) as [p Dp]. destruct (M _ _ Dp) as (_ & cls & h & h' & _ & Hcl & Hm). destruct (made_flexure _ _ _ _ _ _ Hcl Hm) as (d & k & cf & ->).
    assert (NB : newborn g (Ours (PFlexure d k cf))).
    { unfold load_processes in Ep. cbv zeta in Ep.
      change (foldM _ (with_required names) ([], g0)) with (load_fold E (fst (match_params same_value (own_params ctx (with_required names)))) (with_required names) ([], g0)) in Ep.
      destruct (load_fold E _ _ ([], g0)) as [[objs g1]|] eqn:Eo; [|discriminate]. cbn [bind] in Ep. assert (ps = dupdate String.eqb [] objs /\ g1 = g) as [-> ->] by (split; congruence).
      destruct (dupdate_in _ _ _ _ Dp) as [Hd'|Hd']; [|discriminate]. exact (newborn_fold _ _ _ _ _ _ S (fun n p (Y : In (n, p) []) => match Y with end) Eo _ _ Hd'). }
    destruct (NB _ _ _ eq_refl) as (tl & Nt & Lt & Rw & Zp). destruct Fg as (G1 & G2 & G3 & G4 & G5). rewrite G1, G2 in *.
    (* the roles *)
    assert (RO : exists rate, length rate = g_cols g0 /\ roles rate ps /\ (dget String.eqb ps "subsidence" <> None -> mapM (described_rate (section_of ctx "subsidence")) (x_of_column g) = Ok rate)).
    { assert (O : forall k q, k <> "subsidence" -> k <> "flexure" -> dget String.eqb ps k = Some q -> sinks q = false).
      { intros k1 q N1 N2 Dq. destruct (M _ _ Dq) as (_ & cls1 & h1 & h1' & _ & Hc1 & Hm1). exact (other_not_sinks E _ _ _ _ _ _ N1 N2 Hc1 Hm1). }
      destruct (dget String.eqb ps "subsidence") as [q|] eqn:Dq.
      - destruct (M _ _ Dq) as (In1 & cls1 & h1 & h1' & (C1 & C2 & C3 & _) & Hc1 & Hm1). destruct (made_rate E _ _ _ _ _ Hc1 Hm1) as (cc & -> & Rc).
        rewrite (matched_other same_value ctx _ _ subsidence_unmatched In1) in Rc. rewrite <- (columns_seen h1 g) in Rc by congruence. exists (sub_rate cc).
        split; [rewrite (mapM_len _ _ _ Rc), columns_length; exact G2|]. split; [|intros _; exact Rc]. split; [exact O|]. intros q Y. assert (q = Ours (PSubsidence cc)) by congruence. subst q. eauto.
      - exists (repeat 0 (g_cols g0)). split; [apply repeat_length|]. split; [|contradiction]. split; [exact O|]. intros q Y. congruence. }
    destruct RO as (rate & Lr & Ro & Mr). destruct (world_roles (ck_time c) rate ps Ro) as (Ro' & Ds & Dfl). cbn [named_processes pr_set_sea_time] in Ew. rewrite <- Ew in Ro', Ds, Dfl. rewrite Dp in Dfl.
    apply seen_same in Sn. destruct Sn as (Z1 & Z2 & Z3 & Z4 & Z5).
    assert (Nt' : node (sm_grid md) TOTAL_LOAD = Some tl) by (rewrite Nm by discriminate; exact Nt).
    assert (Lo : load_of md = inner tl) by (unfold load_of; change "sediment__total_of_loading" with TOTAL_LOAD; rewrite Nt'; reflexivity).
    assert (Pl : plate_of md = k) by (unfold plate_of; rewrite Dfl; reflexivity). assert (Is : isostasy_of md = df_time (sf_dyn cf)) by (unfold isostasy_of; rewrite Dfl; reflexivity).
    assert (St : shaped (g_rows g0 + 2) (g_cols g0) tl) by (rewrite <- G1, <- G2, <- Z1, <- Z2; exact (proj2 Wm _ _ Nt')).
    rewrite Lo, Pl, Is. split; [apply shaped_inner, St|].
    assert (HI : has (sm_grid md) INCREMENT) by exact (proj2 (proj2 (proj2 (proj1 (proj2 (proj2 (proj2 Hi)) _ _ Dfl))))). destruct HI as [inc Ni].
    assert (Zi : inc = full (g_rows g0 + 2) (g_cols g0) n0).
    { unfold INCREMENT in *. rewrite Z5 in Ni. destruct G5 as [G5|G5]; [congruence|]. rewrite G5 in Ni. assert (Y : forall (u v : field R), Some u = Some v -> u = v) by congruence. apply Y in Ni. exact (eq_sym Ni). }
    split; [exact Hi|]. split; [exact N|]. split; [exact Hf|]. split; [|split].
    - exists rate. split; [exact Lr|]. split; [exact Ro'|]. rewrite Ds. intros Y. rewrite (columns_seen g (sm_grid md)) by congruence. exact (Mr Y).
    - exists tl, b0, inc, d, cf. split; [congruence|]. split; [exact Ni|]. split; [exact Nt'|]. split; [exact Dfl|]. split; [congruence|]. split; [reflexivity|]. split; [exact Lt|].
      split; [congruence|]. split; [congruence|]. split; [congruence|]. split.
      + intros i j Hi0 Hj. rewrite Zi, at2_full, (bent_none (g_rows g0) (g_cols g0)) by (try apply shaped_inner; assumption || lia). rewrite Zp, n0_R by assumption. lra.
      + exact Zp.
    - intros inc' Y i j Hi0 Hj. assert (inc' = inc) by congruence. subst inc'. rewrite Zi, at2_full by lia. apply n0_R.
  Qed.

  Lemma bending_inv n m dx k0 T b0 w0 names m0 f0 md f l w : shaped n m w0 -> I n m dx k0 T b0 w0 names m0 f0 (fun _ => 0) (fun _ _ => 0) (load_of m0) ->
    bending E names m0 f0 md f l w ->
    exists s pl, I n m dx k0 T b0 w0 names md f s pl w /\ (T = None -> n = 1%nat -> forall i j, pl i j = 0)
      /\ forall j, (j < m)%nat -> if among "subsidence" names then subsided l (nth j (x_of_column (sm_grid md)) 0) = Ok (s j) else s j = 0.
  Proof.
    intros S0 I0 H. induction H as [|md f l w dt md' _ IH Hs|md f l w dt md' _ IH Hs|md f l w params md' _ IH Hn Hs].
    - exists (fun _ => 0), (fun _ _ => 0). split; [exact I0|]. split; [reflexivity|]. intros j Hj. destruct (among _ _); [unfold subsided; cbn [foldM]; rewrite n0_R|]; reflexivity.
    - destruct IH as (s & pl & I1 & Z0 & Vs). destruct (step_bend _ _ _ _ _ _ _ _ _ _ _ _ _ _ _ S0 I1 Hs) as (s' & I2 & Y). eexists s', _. split; [exact I2|].
      split; [intros -> -> i j; unfold next; cbn [calc_isostasy_fraction INR]; rewrite n1_R; field|]. intros j Hj. specialize (Vs j Hj).
      assert (Xe : x_of_column (sm_grid md') = x_of_column (sm_grid md)).
      { destruct I1 as (_ & _ & _ & _ & (t1 & k1) & _). destruct I2 as (_ & _ & _ & _ & (t2 & k2) & _).
        destruct k1 as (? & ? & ? & ? & _ & _ & _ & _ & _ & _ & _ & _ & C1 & D1 & _). destruct k2 as (? & ? & ? & ? & _ & _ & _ & _ & _ & _ & _ & _ & C2 & D2 & _). apply columns_seen; congruence. }
      rewrite Xe. destruct (among "subsidence" names); [|subst s'; exact Vs]. destruct Y as (rate & Mr & Lr & ->).
      unfold subsided in *. rewrite foldM_app, Vs. cbn [bind foldM fst snd].
      assert (Lx : length (x_of_column (sm_grid md)) = m) by (rewrite <- (mapM_len _ _ _ Mr); exact Lr).
      pose proof (mapM_at f (x_of_column (sm_grid md)) rate j Mr) as Y. rewrite n0_R in Y. rewrite Y by lia. reflexivity.
    - destruct IH as (s & pl & I1 & Z0 & Vs). exists s, pl. destruct (stop_sink _ _ _ _ _ Hs) as [G W]. pose proof (stepped_inv E WB names dt md (proj1 I1)) as Hi. rewrite Hs in Hi.
      rewrite G. split; [|exact (conj Z0 Vs)]. destruct I1 as (_ & I1). split; [exact Hi|]. rewrite G, W. exact I1.
    - destruct IH as (s & pl & I1 & Z0 & Vs). exists s, pl. split; [exact (set_bend _ _ _ _ _ _ _ _ _ _ _ _ _ _ _ I1 Hn Hs)|]. split; [exact Z0|].
      destruct (set_inv E WB names params md md' (proj1 I1) Hs) as (_ & _ & (_ & _ & A2 & A3 & _) & _). rewrite (columns_seen (sm_grid md) (sm_grid md')) by congruence. exact Vs.
  Qed.
  Theorem bends params text names ctx c g0 names' m0 m f l w : load_grid params (Some (read_bathymetry text)) = Ok g0 ->
    (2 <= g_cols g0)%nat -> (0 < g_rows g0)%nat -> 0 < g_dx g0 ->
    load_model E params (read_bathymetry text) names ctx c = Ok (names', m0) -> In "flexure" names' ->
    bending E names' m0 (described_rate (section_of ctx "subsidence")) m f l w ->
    exists x y b, file_table text = Ok (x, y) /\ node (sm_grid m) "bedrock_surface__elevation" = Some b
      /\ forall i j, (i < g_rows g0)%nat -> (j < g_cols g0)%nat -> exists z s, interp_linear x y (INR j * g_dx g0) = Ok z
           /\ (In "subsidence" names' -> subsided l (INR j * g_dx g0) = Ok s) /\ (~ In "subsidence" names' -> s = 0)
           /\ at2 0 b (S i) j = z - 100 + s - (at2 0 (deflection E (plate_of m0) (g_dx g0) (fmap2 nsub w (load_of m0))) i j - at2 0 (owed m) i j)
           /\ (isostasy_of m0 = None -> g_rows g0 = 1%nat -> at2 0 (owed m) i j = 0).
  Proof.
    intros El Hc Hr Hd Em Hf Hb. destruct (loaded_bend _ _ _ _ _ _ _ _ El Hc Hr Hd Em Hf) as (b0 & Nb0 & S0 & I0).
    destruct (bending_inv _ _ _ _ _ _ _ _ _ _ _ _ _ _ S0 I0 Hb) as (s & pl & (_ & _ & _ & _ & (tl & Hk) & Zi) & Z9 & Vs).
    destruct Hk as (b & inc & d & cf & Nb & Ni & Nt & Df & Dr & Dt & Dl & Gr & Gc & Gd & V & V0).
    destruct (grid_read _ _ _ El) as (x & y & b0' & Ef & F0 & Sb0 & V1). assert (b0' = b0) by (assert (Y : node g0 BED = Some b0') by apply F0; congruence). subst b0'.
    exists x, y, b. split; [exact Ef|]. split; [exact Nb|]. intros i j Hi Hj. destruct (V1 j Hj) as (z & Ez & Hz). exists z, (s j).
    assert (P : forall g1 : grid R, g_cols g1 = g_cols g0 -> g_dx g1 = g_dx g0 -> nth j (x_of_column g1) 0 = INR j * g_dx g0).
    { intros g1 Y1 Y2. unfold x_of_column. rewrite nth_map' with (da := 0%nat) by (rewrite seq_length, Y1; exact Hj). rewrite seq_nth by (rewrite Y1; exact Hj). rewrite Y2. numR. rewrite nofnat_R. reflexivity. }
    rewrite n0_R, P in Ez by reflexivity. split; [exact Ez|]. specialize (Vs j Hj). rewrite P in Vs by assumption.
    split; [intros Y; apply among_in in Y; rewrite Y in Vs; exact Vs|]. split; [intros Y; destruct (among "subsidence" names') eqn:Z0; [apply among_in in Z0; contradiction|exact Vs]|].
    assert (Ow : owed m = df_pool (sf_dyn cf)) by (unfold owed; rewrite Df; reflexivity). rewrite Ow. split.
    - specialize (V i j Hi Hj). rewrite (Zi inc Ni i j Hi Hj) in V. pose proof (Hz (S i) ltac:(lia)) as Y. rewrite n0_R in Y. rewrite Y in V.
      assert (H100 : @nlit R _ 100 = 100) by (cbn; unfold Q2R; simpl; lra). rewrite H100 in V. change (nsub ?a ?b) with (a - b) in V. lra.
    - intros Y1 Y2. rewrite V0 by assumption. apply Z9; assumption.
  Qed.
  (* what is owed after a step *)
  Theorem owes params text names ctx c g0 names' m0 m f l w dt m' : load_grid params (Some (read_bathymetry text)) = Ok g0 ->
    (2 <= g_cols g0)%nat -> (0 < g_rows g0)%nat -> 0 < g_dx g0 ->
    load_model E params (read_bathymetry text) names ctx c = Ok (names', m0) -> In "flexure" names' ->
    bending E names' m0 (described_rate (section_of ctx "subsidence")) m f l w ->
    run_one_step (named_processes E names') dt m = Stepped m' ->
    forall i j, (i < g_rows g0)%nat -> (j < g_cols g0)%nat ->
      at2 0 (owed m0) i j = 0
      /\ at2 0 (owed m') i j = (at2 0 (owed m) i j + at2 0 (deflection E (plate_of m0) (g_dx g0) (fmap2 nsub (load_of m) w)) i j)
           * (1 - match isostasy_of m0 with None => 1 | Some t => 1 - exp (- step_used dt m / t) end / INR (g_rows g0)).
  Proof.
    intros El Hc Hr Hd Em Hf Hb Hs i j Hi Hj. destruct (loaded_bend _ _ _ _ _ _ _ _ El Hc Hr Hd Em Hf) as (b0 & Nb0 & S0 & I0).
    destruct (bending_inv _ _ _ _ _ _ _ _ _ _ _ _ _ _ S0 I0 Hb) as (s & pl & I1 & _). destruct (step_bend _ _ _ _ _ _ _ _ _ _ _ _ _ _ _ S0 I1 Hs) as (s' & I2 & _).
    assert (P : forall md f0 s0 pl0 w1, I (g_rows g0) (g_cols g0) (g_dx g0) (plate_of m0) (isostasy_of m0) b0 (load_of m0) names' md f0 s0 pl0 w1 -> at2 0 (owed md) i j = pl0 i j).
    { intros md f0 s0 pl0 w1 (_ & _ & _ & _ & (tl & b & inc & d & cf & _ & _ & _ & Df & _ & _ & _ & _ & _ & _ & _ & V0) & _). unfold owed. rewrite Df. apply V0; assumption. }
    rewrite (P _ _ _ _ _ I0), (P _ _ _ _ _ I1), (P _ _ _ _ _ I2). split; [reflexivity|]. unfold next. f_equal. f_equal. f_equal.
    unfold calc_isostasy_fraction. destruct (isostasy_of m0); [|apply n1_R]. rewrite n1_R. numR. reflexivity.
  Qed.
  Lemma bending_reached names m0 f0 m f l w : bending E names m0 f0 m f l w -> reached E names m0 m.
  Proof. induction 1; [constructor|eapply reached_step; eassumption|eapply reached_stop; eassumption|eapply reached_set; eassumption]. Qed.
  (* and the surface *)
  Theorem surface params text names ctx c g0 names' m0 m f l w topo : load_grid params (Some (read_bathymetry text)) = Ok g0 ->
    (2 <= g_cols g0)%nat -> (0 < g_rows g0)%nat -> 0 < g_dx g0 ->
    load_model E params (read_bathymetry text) names ctx c = Ok (names', m0) -> In "flexure" names' ->
    bending E names' m0 (described_rate (section_of ctx "subsidence")) m f l w ->
    node (sm_grid m) "topographic__elevation" = Some topo ->
    exists x y, file_table text = Ok (x, y)
      /\ forall i j, (i < g_rows g0)%nat -> (j < g_cols g0 - 2)%nat -> exists z s, interp_linear x y (INR (S j) * g_dx g0) = Ok z
           /\ (In "subsidence" names' -> subsided l (INR (S j) * g_dx g0) = Ok s) /\ (~ In "subsidence" names' -> s = 0)
           /\ at2 0 topo (S i) (S j) = z - 100 + s + stack_thickness (at2 [] (el_stacks (layers (sm_grid m))) i j)
                - (at2 0 (deflection E (plate_of m0) (g_dx g0) (fmap2 nsub w (load_of m0))) i (S j) - at2 0 (owed m) i (S j)).
  Proof.
    intros El Hc Hr Hd Em Hf Hb Ht. destruct (bends _ _ _ _ _ _ _ _ _ _ _ _ El Hc Hr Hd Em Hf Hb) as (x & y & b & Ef & Nb & V). exists x, y. split; [exact Ef|].
    pose proof (configured_balanced E WB _ _ _ _ _ _ _ _ _ El Hc Hr Hd Em (bending_reached _ _ _ _ _ _ _ Hb)) as B.
    destruct (loaded_bend _ _ _ _ _ _ _ _ El Hc Hr Hd Em Hf) as (b0 & _ & S0 & I0). destruct (bending_inv _ _ _ _ _ _ _ _ _ _ _ _ _ _ S0 I0 Hb) as (s0 & pl & (_ & _ & _ & _ & (tl & Hk) & _) & _).
    destruct Hk as (? & ? & ? & ? & _ & _ & _ & _ & _ & _ & _ & Gr & Gc & _). intros i j Hi Hj.
    destruct (V i (S j) Hi ltac:(lia)) as (z & s & Ez & S1 & S2 & Y & _). exists z, s. split; [exact Ez|]. split; [exact S1|]. split; [exact S2|].
    pose proof (B topo b i j Ht Nb ltac:(lia) ltac:(lia)) as Z. rewrite n0_R in Z. change (nadd ?a ?b) with (a + b) in Z. rewrite Z, Y. lra.
  Qed.
End B.
