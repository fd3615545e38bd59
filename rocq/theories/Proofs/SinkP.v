(** The bedrock of a model with subsidence. *)
From Coq Require Import String List ZArith QArith Bool Arith Lia Reals Lra.
From Verif.Base Require Import Num Py Arr.
From Verif.Model Require Import Layers Grid Archive Interp Shoreline SeaLevel Subsidence Bathymetry Csv Flexure Submarine Fluvial Sequence SequenceModel Setattr Info Processes Whole.
From Verif.Spec Require Import Declared Ordering Session Configured Followed.
From Verif.Proofs Require Import ProcessesP DeclaredP OrderP FollowP.
Import ListNotations.
Local Open Scope string_scope.
Local Open Scope list_scope.

Section S.
  Context {A X : Type} {num : Num A} {tr : Trans A} (E : externals A X) (LB : leaves_bedrock E).
  Notation step := (process_step (ex_interp1d E) (ex_diffuse E) (ex_flexure E) (ex_gravity E)).
  Notation BED := "bedrock_surface__elevation".
  Ltac head r := lazymatch r with bind ?s _ => head s | _ => r end.
  Ltac dr H := match type of H with ?r = _ => let s := head r in destruct s eqn:?; cbn [bind] in H; [|discriminate H] end.
  Ltac okinj H := let Z := fresh in assert (Z : forall T (a b : T), Ok a = Ok b -> a = b) by congruence; apply Z in H; clear Z.

  Lemma node_put (g : grid A) n v k : node (put_node g n v) k = if String.eqb k n then Some v else node g k.
  Proof. apply node_dset. Qed.
  (* the size, the bedrock and its pending increment *)
  Definition seen (g : grid A) := (g_rows g, g_cols g, g_dx g, node g BED, node g INCREMENT).
  Lemma seen_same g g' : seen g' = seen g <-> same_bedrock g g'.
  Proof.
    unfold seen, same_bedrock, INCREMENT. split.
    - intros H. repeat split; congruence.
    - intros (-> & -> & -> & -> & ->). reflexivity.
  Qed.
  Lemma seen_put g n v : n <> BED -> n <> INCREMENT -> seen (put_node g n v) = seen g.
  Proof.
    intros N1 N2. unfold seen. rewrite !node_put. destruct (String.eqb_spec BED n); [congruence|]. destruct (String.eqb_spec INCREMENT n); [congruence|]. reflexivity.
  Qed.
  Lemma seen_profile g n v g' : n <> BED -> n <> INCREMENT -> set_profile g n v = Ok g' -> seen g' = seen g.
  Proof. intros N1 N2. unfold set_profile. intros H. dr H. okinj H. subst g'. apply seen_put; assumption. Qed.
  Lemma seen_clear g g' : clear_deposit g = Ok g' -> seen g' = seen g.
  Proof. unfold clear_deposit. intros H. dr H. okinj H. subst g'. apply seen_put; discriminate. Qed.
  Lemma seen_layers g el : seen (set_layers g el) = seen g. Proof. reflexivity. Qed.
  Lemma seen_load g g' : update_load g = Ok g' -> seen g' = seen g.
  Proof.
    unfold update_load. intros H. destruct (has_node g _); [|congruence]. do 6 dr H. eapply seen_profile; [| |exact H]; discriminate.
  Qed.
  (* the rest of a step adds the increment to the bedrock *)
  Lemma update_bedrock g g' b i : node g BED = Some b -> node g INCREMENT = Some i -> update_fields g = Ok g' ->
    seen g' = (g_rows g, g_cols g, g_dx g, Some (fmap2 nadd b i), Some (fmap (fun _ => n0) i)).
  Proof.
    unfold update_fields. intros Hb Hi H. dr H. destruct (update_load g) as [g1|] eqn:E1; cbn [bind] in H; [|discriminate].
    destruct (apply_increment g1) as [g2|] eqn:E2; cbn [bind] in H; [|discriminate]. destruct (settle g2) as [g3|] eqn:E3; cbn [bind] in H; [|discriminate]. dr H.
    apply seen_load in E1. apply seen_same in E1. destruct E1 as (R1 & R2 & R3 & R4 & R5). rewrite Hb in R4. change (node g1 INCREMENT = node g INCREMENT) in R5. rewrite Hi in R5. unfold INCREMENT in R5.
    assert (S2 : seen g2 = (g_rows g, g_cols g, g_dx g, Some (fmap2 nadd b i), Some (fmap (fun _ => n0) i))).
    { unfold apply_increment in E2. change "bedrock_surface__increment_of_elevation" with BEDROCK_INC in R5.
      assert (Hn : has_node g1 BEDROCK_INC = true) by (unfold has_node, din; unfold node in R5; rewrite R5; reflexivity). rewrite Hn in E2.
      unfold node_r in E2. rewrite R4, R5 in E2. cbn [bind] in E2. okinj E2. subst g2.
      unfold seen. rewrite !node_put. cbn [String.eqb Ascii.eqb Bool.eqb BEDROCK_INC INCREMENT]. cbn [g_rows g_cols g_dx put_node set_at_node].
      rewrite R1, R2, R3. reflexivity. }
    rewrite <- S2. transitivity (seen g3).
    - destruct (has_node g3 _); [eapply seen_profile; [| |exact H]; discriminate|congruence].
    - unfold settle in E3. do 2 dr E3. okinj E3. subst g3. apply seen_put; discriminate.
  Qed.

  (** ** the parts *)
  Definition sinks (p : part A X) : bool := match p with Ours (PSubsidence _) | Ours (PFlexure _ _ _) => true | _ => false end.
  Lemma sinks_kind p p' : part_kind p' = part_kind p -> sinks p' = sinks p.
  Proof. destruct p as [[]|], p' as [[]|]; cbn; congruence. Qed.
  Lemma other_sinks dt p g p' g' : sinks p = false -> part_step E dt (p, g) = Ok (p', g') -> sinks p' = false /\ seen g' = seen g.
  Proof.
    intros O S. split; [rewrite (sinks_kind _ _ (part_step_kind _ _ _ _ _ _ S)); exact O|].
    unfold part_step in S. cbn [fst snd] in S. destruct p as [q|x].
    - destruct (step dt (q, g)) as [[q1 g1]|] eqn:S1; cbn [bind] in S; [|discriminate]. assert (g1 = g') by congruence. subst g1.
      apply step_writes in S1. destruct S1 as (_ & (Z1 & Z2 & Z3 & Z4) & _ & C).
      pose proof (C (BED, AtNode)) as C1. pose proof (C (INCREMENT, AtNode)) as C2. unfold same_field in C1, C2. cbn [fst snd] in C1, C2.
      unfold seen. rewrite <- C1, <- C2, Z1, Z2, Z4; [reflexivity| |]; destruct q; try discriminate O; cbn; unfold INCREMENT; intuition discriminate.
    - destruct (ex_step E dt (x, g)) as [[q1 g1]|] eqn:S1; cbn [bind] in S; [|discriminate]. assert (g1 = g') by congruence. subst g1.
      apply seen_same. exact (proj1 (proj2 LB) _ _ _ _ _ S1).
  Qed.
  Lemma seen_is g r c d b i : seen g = (r, c, d, b, i) <-> g_rows g = r /\ g_cols g = c /\ g_dx g = d /\ node g BED = b /\ node g INCREMENT = i.
  Proof.
    unfold seen. split.
    - intros H. apply pair_equal_spec in H as [H H5]. apply pair_equal_spec in H as [H H4]. apply pair_equal_spec in H as [H H3]. apply pair_equal_spec in H as [H1 H2]. auto.
    - intros (-> & -> & -> & -> & ->). reflexivity.
  Qed.
  Definition Z (n m : nat) : field A := full (n + 2) m n0.
  Definition change (rate : list A) (dt : A) : list A := map (fun r => nmul r dt) rate.
  Definition sunk (n m : nat) (rate : list A) (dt : A) : field A :=
    set_inner (Z n m) (map (fun row => zipw nadd row (change rate dt)) (inner (Z n m))).
  Lemma sub_stepped dt c g p' g' b n m d : seen g = (n, m, d, Some b, Some (Z n m)) ->
    part_step E dt (Ours (PSubsidence c), g) = Ok (p', g') ->
    (exists c', p' = Ours (PSubsidence c') /\ sub_rate c' = sub_rate c)
    /\ seen g' = (n, m, d, Some b, Some (sunk n m (sub_rate c) dt)).
  Proof.
    intros Hs S. apply seen_is in Hs as (S1 & S2 & S3 & S4 & S5). unfold part_step, process_step, subsidence_step in S. cbn [fst snd] in S.
    unfold get_profile, set_profile, node_r in S. rewrite S5 in S. cbn [bind] in S. okinj S.
    pose proof (f_equal fst S) as Y1. pose proof (f_equal snd S) as Y2. cbn [fst snd] in Y1, Y2. subst p' g'. split; [eexists; split; reflexivity|].
    apply seen_is. split; [exact S1|]. split; [exact S2|]. split; [exact S3|]. rewrite !node_put. split; [exact S4|reflexivity].
  Qed.
  Lemma zipw_len {B C D} (f : B -> C -> D) l l' : length (zipw f l l') = Nat.min (length l) (length l').
  Proof. apply zipw_length. Qed.
  Lemma shaped_sunk n m rate dt : length rate = m -> shaped (n + 2) m (sunk n m rate dt).
  Proof.
    intros L. assert (HZ : shaped (n + 2) m (Z n m)) by apply shaped_full. pose proof (shaped_inner _ _ _ HZ) as Hi. apply shaped_set_inner; [exact HZ|]. split.
    - rewrite map_length. apply Hi.
    - intros r Hr. apply in_map_iff in Hr as (r0 & <- & Hr0). rewrite zipw_len, (proj2 Hi _ Hr0). unfold change. rewrite map_length. lia.
  Qed.
  Lemma cleared n m (f : field A) : shaped (n + 2) m f -> fmap (fun _ => n0) f = Z n m.
  Proof.
    intros H. apply (field_ext (n + 2) m _ _ n0); [apply shaped_fmap, H|apply shaped_full|]. intros i j Hi Hj. unfold Z.
    rewrite (at2_fmap _ (n + 2) m f n0 n0), at2_full by assumption. reflexivity.
  Qed.

  (** ** the invariant *)
  Definition sink_inv (n m : nat) (d : A) (xs : list A) (names : list string) (md : smodel A (parts A X)) (f : A -> result A) (b : field A) : Prop :=
    NoDup names /\ In "subsidence" names /\ (forall k q, k <> "subsidence" -> dget String.eqb (sm_world md) k = Some q -> sinks q = false)
    /\ x_of_column (sm_grid md) = xs /\ length xs = m
    /\ (exists i, seen (sm_grid md) = (n, m, d, Some b, i) /\ (i = None \/ i = Some (Z n m)))
    /\ exists c, dget String.eqb (sm_world md) "subsidence" = Some (Ours (PSubsidence c)) /\ mapM f xs = Ok (sub_rate c).
  Lemma columns_seen (g g' : grid A) : g_cols g' = g_cols g -> g_dx g' = g_dx g -> x_of_column g' = x_of_column g.
  Proof. intros H1 H2. unfold x_of_column. rewrite H1, H2. reflexivity. Qed.
  Lemma mapM_len {B C} (f : B -> result C) l : forall r, mapM f l = Ok r -> length r = length l.
  Proof.
    induction l as [|a l IH]; cbn [mapM]; intros r H; [assert (r = []) by congruence; subst; reflexivity|].
    destruct (f a) as [c|]; cbn [bind] in H; [|discriminate]. destruct (mapM f l) as [r'|]; cbn [bind] in H; [|discriminate]. assert (Y : r = c :: r') by congruence. subst r. cbn. f_equal. apply IH. reflexivity.
  Qed.
  Lemma step_sink n m d xs names dt md md' f b : sink_inv n m d xs names md f b -> run_one_step (named_processes E names) dt md = Stepped md' ->
    exists rate, mapM f xs = Ok rate /\ sink_inv n m d xs names md' f (fmap2 nadd b (sunk n m rate (step_used dt md))).
  Proof.
    intros (N & I & O & Xs & Lx & (i & Sn & Si) & c & Dc & Mc) H. destruct (stepped _ _ _ _ _ H) as (Ck & g & ps & h & el & h' & E1 & E2 & E0 & E3 & E4).
    destruct (run_one E seen (fun p => sinks p = false) (step_used dt md) "subsidence" (other_sinks _) _ _ _ _ _ N I O E2)
      as (p0 & p' & k & k' & Dp0 & Sp & P1 & P2 & Dp' & O'). rewrite Dc in Dp0. assert (p0 = Ours (PSubsidence c)) by congruence. subst p0.
    rewrite (seen_clear _ _ E1), Sn in P1.
    destruct Si as [->| ->].
    { exfalso. apply seen_is in P1 as (_ & _ & _ & _ & P1). unfold part_step, process_step, subsidence_step, get_profile, node_r in Sp. cbn [fst snd] in Sp. rewrite P1 in Sp. discriminate Sp. }
    destruct (sub_stepped _ _ _ _ _ _ _ _ _ P1 Sp) as [(c' & -> & Rc) S']. rewrite S' in P2. clear S'.
    exists (sub_rate c). split; [exact Mc|]. pose proof P2 as P3. apply seen_is in P3 as (Q1 & Q2 & Q3 & Q4 & Q5).
    pose proof (update_bedrock (set_layers h el) h' b _ Q4 Q5 E3) as U. change (g_rows (set_layers h el)) with (g_rows h) in U. change (g_cols (set_layers h el)) with (g_cols h) in U.
    change (g_dx (set_layers h el)) with (g_dx h) in U. rewrite Q1, Q2, Q3 in U.
    rewrite (cleared n m) in U by (apply shaped_sunk; rewrite <- Lx; apply (mapM_len _ _ _ Mc)).
    assert (V : seen (sm_grid md') = seen h') by (rewrite E4; reflexivity). rewrite <- V in U. subst ps.
    split; [exact N|]. split; [exact I|]. split; [exact O'|]. split.
    - rewrite <- Xs. apply seen_is in U as (U1 & U2 & U3 & _). apply seen_is in Sn as (T1 & T2 & T3 & _). apply columns_seen; congruence.
    - split; [exact Lx|]. split; [eexists; split; [exact U|right; reflexivity]|]. exists c'. split; [exact Dp'|]. rewrite Rc. exact Mc.
  Qed.
  Lemma stop_sink names dt md md' : run_one_step (named_processes E names) dt md = ClockStop md' -> sm_grid md' = sm_grid md /\ sm_world md' = sm_world md.
  Proof.
    unfold run_one_step. destruct (clock_advance (sm_clock md)) as [c stop]. destruct stop.
    - intros H. match type of H with ClockStop ?a = _ => assert (Y : a = md') by congruence end. subst md'. split; reflexivity.
    - destruct (advance_components _ _ _); discriminate.
  Qed.

  (** assigning *)
  Lemma set_seen name v p (g : grid A) p' g' : set_attribute name v (p, g) = Ok (p', g') -> seen g' = seen g.
  Proof.
    unfold set_attribute. intros H. destruct p;
      repeat (cbn [bind] in H; match type of H with
        | (let '(mkFluvial _ _ _ _ _ _) := ?c in _) = _ => destruct c
        | (if ?b then _ else _) = _ => destruct b
        | bind ?r _ = _ => destruct r eqn:?; [|discriminate H]
        | (match ?r with _ => _ end) = _ => destruct r eqn:?
        end); cbn [bind] in H; try discriminate H;
      try (match type of H with Ok (_, ?a) = _ => assert (Y : g' = a) by congruence; rewrite Y; try reflexivity end).
    unfold set_sediment_load in *. match goal with K : (_, ?a) = (_, ?b) |- seen ?b = _ => assert (W : b = a) by congruence; rewrite W; reflexivity end.
  Qed.
  Lemma part_set_seen name v p g p' g' : part_set E name v (p, g) = Ok (p', g') -> seen g' = seen g.
  Proof.
    unfold part_set. cbn [fst snd]. destruct p as [q|x]; intros H.
    - destruct (set_attribute name v (q, g)) as [[q1 g1]|] eqn:S; cbn [bind] in H; [|discriminate]. assert (g1 = g') by congruence. subst. eapply set_seen, S.
    - destruct (ex_set E name v (x, g)) as [[q1 g1]|] eqn:S; cbn [bind] in H; [|discriminate]. assert (g1 = g') by congruence. subst. apply seen_same. exact (proj2 (proj2 LB) _ _ _ _ _ _ S).
  Qed.
  Lemma sets_seen kvs : forall p g p' g', foldM (fun pg kv => part_set E (fst kv) (snd kv) pg) kvs (p, g) = Ok (p', g') -> seen g' = seen g.
  Proof.
    induction kvs as [|[k v] kvs IH]; intros p g p' g'; cbn [foldM fst snd].
    - intros H. assert (g = g') by congruence. subst. reflexivity.
    - destruct (part_set E k v (p, g)) as [[p1 g1]|] eqn:S; cbn [bind]; [|discriminate]. intros H. rewrite (IH _ _ _ _ H). eapply part_set_seen, S.
  Qed.
  Lemma seen_columns (g g' : grid A) : seen g' = seen g -> x_of_column g' = x_of_column g.
  Proof. intros H. apply seen_same in H as (_ & H1 & H2 & _). apply columns_seen; assumption. Qed.
  Lemma sub_sets kvs : forall c g p' g' f, mapM f (x_of_column g) = Ok (sub_rate c) ->
    foldM (fun pg kv => part_set E (fst kv) (snd kv) pg) kvs (Ours (PSubsidence c), g) = Ok (p', g') ->
    Forall is_table (given "filepath" kvs) /\ exists c', p' = Ours (PSubsidence c') /\ mapM (fold_left tabled (given "filepath" kvs) f) (x_of_column g') = Ok (sub_rate c').
  Proof.
    induction kvs as [|[k v] kvs IH]; intros c g p' g' f Hc; cbn [foldM fst snd].
    - intros H. assert (Y : p' = Ours (PSubsidence c) /\ g' = g) by (split; congruence). destruct Y as [-> ->]. split; [constructor|]. exists c. split; [reflexivity|exact Hc].
    - intros H. destruct (part_set E k v (Ours (PSubsidence c), g)) as [[p1 g1]|] eqn:S; cbn [bind] in H; [|discriminate].
      unfold given. cbn [filter fst map]. unfold part_set, set_attribute in S. cbn [fst snd] in S. destruct (String.eqb k "filepath") eqn:Kf.
      + destruct v as [v|x y]; cbn [as_file bind fst snd] in S; [discriminate|]. unfold subsidence_set_file in S.
        destruct (calc_subsidence_rate x y g) as [rate|] eqn:Er; cbn [bind] in S; [|discriminate].
        assert (Y : p1 = Ours (PSubsidence (mkSubsidence rate (sub_time c))) /\ g1 = g) by (split; congruence). destruct Y as [-> ->].
        destruct (IH (mkSubsidence rate (sub_time c)) _ _ _ (interp_linear x y) Er H) as [F G]. cbn [map snd fold_left tabled]. split; [constructor; [exact Logic.I|exact F]|exact G].
      + destruct (existsb _ _); cbn [bind] in S; [discriminate|]. assert (Y : p1 = Ours (PSubsidence c) /\ g1 = g) by (split; congruence). destruct Y as [-> ->]. exact (IH c _ _ _ f Hc H).
  Qed.
  Lemma sub_set_all params : forall ps g ps' g' c f,
    (forall k q, k <> "subsidence" -> dget String.eqb ps k = Some q -> sinks q = false) ->
    dget String.eqb ps "subsidence" = Some (Ours (PSubsidence c)) -> mapM f (x_of_column g) = Ok (sub_rate c) -> foldM (set_one E) params (ps, g) = Ok (ps', g') ->
    seen g' = seen g /\ Forall is_table (assigned "subsidence" "filepath" params) /\ (forall k q, k <> "subsidence" -> dget String.eqb ps' k = Some q -> sinks q = false)
    /\ exists c', dget String.eqb ps' "subsidence" = Some (Ours (PSubsidence c')) /\ mapM (fold_left tabled (assigned "subsidence" "filepath" params) f) (x_of_column g') = Ok (sub_rate c').
  Proof.
    induction params as [|[n kvs] params IH]; intros ps g ps' g' c f O Dp Cp; cbn [foldM].
    - intros H. assert (Y : ps' = ps /\ g' = g) by (split; congruence). destruct Y as [-> ->]. split; [reflexivity|]. split; [constructor|]. split; [exact O|]. exists c. auto.
    - rewrite assigned_cons. unfold set_one at 1. cbn [fst snd]. destruct (dget String.eqb ps n) as [q|] eqn:D; [|discriminate].
      destruct (foldM _ kvs (q, g)) as [[q1 g1]|] eqn:S; cbn [bind]; [|discriminate]. intros H. pose proof (sets_seen _ _ _ _ _ S) as V.
      destruct (String.eqb n "subsidence") eqn:Kn.
      + apply String.eqb_eq in Kn. subst n. rewrite Dp in D. assert (q = Ours (PSubsidence c)) by congruence. subst q.
        destruct (sub_sets _ _ _ _ _ _ Cp S) as [F (c1 & -> & C2)].
        refine (_ (IH _ _ _ _ c1 _ _ _ C2 H)).
        * intros (V' & F' & O' & c' & D' & X1). split; [congruence|]. split; [apply Forall_app; auto|]. split; [exact O'|]. exists c'.
          rewrite fold_left_app. split; [exact D'|exact X1].
        * intros k r Hk. rewrite (dget_dset _ String.eqb_eq). destruct (String.eqb_spec k "subsidence"); [congruence|]. apply O, Hk.
        * rewrite (dget_dset _ String.eqb_eq), String.eqb_refl. reflexivity.
      + cbn [app]. assert (Nn : n <> "subsidence") by (apply String.eqb_neq, Kn). rewrite <- V.
        refine (IH _ _ _ _ c f _ _ _ H).
        * intros k r Hk. rewrite (dget_dset _ String.eqb_eq). destruct (String.eqb k n) eqn:Kk; [|apply O, Hk]. intros Y. assert (q1 = r) by congruence. subst r.
          rewrite (sinks_kind _ _ (sets_kind _ _ _ _ _ _ S)). exact (O n q Nn D).
        * rewrite (dget_dset _ String.eqb_eq). destruct (String.eqb_spec "subsidence" n); [congruence|]. exact Dp.
        * rewrite (seen_columns _ _ V). exact Cp.
  Qed.
  Lemma set_sink n m d xs names params md md' f b : sink_inv n m d xs names md f b -> set_model_params E params md = Ok md' ->
    sink_inv n m d xs names md' (newest "subsidence" params f) b.
  Proof.
    intros (N & I & O & Xs & Lx & (i & Sn & Si) & c & Dc & Mc) H. rewrite set_model_is in H.
    destruct (foldM (set_one E) params (sm_world md, sm_grid md)) as [[ps g]|] eqn:S; cbn [bind] in H; [|discriminate].
    assert (Y : md' = mkModel ps g (sm_clock md) (sm_archived md)) by congruence. subst md'. rewrite <- Xs in Mc.
    destruct (sub_set_all _ _ _ _ _ _ _ O Dc Mc S) as (V & F & O' & c' & D' & M'). pose proof (seen_columns _ _ V) as V2.
    split; [exact N|]. split; [exact I|]. split; [exact O'|]. cbn [sm_grid sm_world]. split; [congruence|]. split; [exact Lx|]. split; [exists i; split; [congruence|exact Si]|].
    exists c'. split; [exact D'|]. rewrite (newest_fold _ _ _ F). rewrite <- Xs, <- V2. exact M'.
  Qed.

  (** ** a loaded model *)
  Definition fresh (n m : nat) (d : A) (b : field A) (g : grid A) : Prop :=
    g_rows g = n /\ g_cols g = m /\ g_dx g = d /\ node g BED = Some b /\ (node g INCREMENT = None \/ node g INCREMENT = Some (Z n m)).
  Lemma fresh_ensure n m d b g k : fresh n m d b g -> fresh n m d b (ensure_node g k).
  Proof.
    intros (H1 & H2 & H3 & H4 & H5). unfold ensure_node. destruct (has_node g k) eqn:Hk; [repeat split; assumption|].
    split; [exact H1|]. split; [exact H2|]. split; [exact H3|]. rewrite !node_put. unfold has_node, din in Hk. fold (node g k) in Hk. split.
    - destruct (String.eqb_spec BED k) as [<-|]; [|exact H4]. rewrite H4 in Hk. discriminate.
    - destruct (String.eqb_spec INCREMENT k) as [<-|]; [|exact H5]. right. unfold Z. rewrite H1, H2. reflexivity.
  Qed.
  Lemma fresh_gval n m d b g k v : fresh n m d b g -> fresh n m d b (put_gval g k v). Proof. exact (fun H => H). Qed.
  Lemma fresh_rowf n m d b g k v : fresh n m d b g -> fresh n m d b (put_rowf g k v). Proof. exact (fun H => H). Qed.
  Ltac fr := repeat first [assumption | apply fresh_ensure | apply fresh_gval | apply fresh_rowf].
  Ltac steps E := repeat (cbn [bind] in E; match type of E with
    | bind ?r _ = Ok _ => let H := fresh "K" in destruct r eqn:H; [|discriminate E]
    end); cbn [bind] in E.
  Ltac pairE E c g := cbn [bind] in E; match type of E with (let (_, _) := ?q in _) = _ => destruct q as [c g] end; cbn [bind] in E.
  Lemma fresh_construct n m d b cls s g p g' : fresh n m d b g -> construct (ex_interp1d E) cls s g = Ok (p, g') -> fresh n m d b g'.
  Proof.
    intros Hf H. unfold construct in H. destruct (negb _); [discriminate|]. destruct cls.
    - steps H. assert (Y : g' = g) by congruence. subst. exact Hf.
    - steps H. assert (Y : g' = g) by congruence. subst. exact Hf.
    - steps H. unfold subsidence_init in H. cbv zeta in H. steps H. match type of H with Ok (_, ?a) = _ => assert (Y : g' = a) by congruence end. subst g'. apply (fresh_ensure _ _ _ _ g INCREMENT Hf).
    - steps H. pairE H cc gg. assert (Y : g' = gg) by congruence. subst gg. unfold submarine_init in *. cbv zeta in *.
      match goal with K : (if ?b then _ else _) = Ok _ |- _ => destruct b; [discriminate K|]; match type of K with Ok (_, ?a) = _ => assert (Y : g' = a) by congruence end end. rewrite Y. fr.
    - steps H. unfold fluvial_init in H. cbv zeta in H. match type of H with Ok (_, ?a) = _ => assert (Y : g' = a) by congruence end. rewrite Y. fr.
    - steps H. pairE H cc gg. assert (Y : g' = gg) by congruence. subst gg. unfold sed_flexure_init in *. cbv zeta in *.
      match goal with K : bind _ _ = Ok (cc, g') |- _ => steps K; match type of K with Ok (_, ?a) = _ => assert (Y : g' = a) by congruence end end. rewrite Y. fr.
    - steps H. match type of H with Ok (_, ?a) = _ => assert (Y : g' = a) by congruence end. subst g'. unfold shoreline_init in *. cbv zeta in *.
      match goal with K : bind _ _ = Ok ?a |- _ => steps K; match type of K with Ok ?b = _ => assert (Y : a = b) by congruence end end. rewrite Y. fr.
  Qed.
  Lemma fresh_make n m d b cls s g p g' : fresh n m d b g -> make E cls s g = Ok (p, g') -> fresh n m d b g'.
  Proof.
    intros Hf H. unfold make in H. destruct (class_named cls) as [k|].
    - destruct (construct _ k s g) as [[q h]|] eqn:Ec; cbn [bind] in H; [|discriminate]. assert (h = g') by congruence. subst h. eapply fresh_construct; eassumption.
    - destruct (ex_make E cls s g) as [[q h]|] eqn:Ec; cbn [bind] in H; [|discriminate]. assert (h = g') by congruence. subst h.
      destruct (proj1 LB _ _ _ _ _ Ec) as (H1 & H2 & H3 & H4 & H5). destruct Hf as (F1 & F2 & F3 & F4 & F5).
      split; [congruence|]. split; [congruence|]. split; [congruence|]. split; [congruence|]. unfold INCREMENT in *.
      destruct H5 as [H5|[_ H5]]; [rewrite H5; exact F5|right]. rewrite H5, F1, F2. reflexivity.
  Qed.
  Lemma made_kind cls s h p h' : make E cls s h = Ok (p, h') -> part_kind p = class_named cls.
  Proof.
    unfold make. destruct (class_named cls) as [k|]; intros H.
    - destruct (construct _ k s h) as [[q g]|] eqn:Hk; cbn [bind] in H; [|discriminate]. assert (Y : p = Ours q) by congruence. subst p. cbn. f_equal. clear H.
      unfold construct in Hk. destruct (negb _); [discriminate|].
      destruct k;
        repeat match type of Hk with
        | context [kwd s ?k ?d] => destruct (kwd s k d); cbn [bind] in Hk; [|discriminate]
        | context [kwd_file s ?k] => destruct (kwd_file s k); cbn [bind] in Hk; [|discriminate]
        | bind ?r _ = _ => destruct r as [?|]; cbn [bind] in Hk; [|discriminate]
        | (let (_, _) := ?r in _) = _ => destruct r; cbn [bind] in Hk
        end; try discriminate;
        match type of Hk with Ok (?a, _) = _ => assert (Y : q = a) by congruence; rewrite Y; reflexivity end.
    - destruct (ex_make E cls s h) as [[q g]|]; cbn [bind] in H; [|discriminate]. assert (Y : p = Extra q) by congruence. subst. reflexivity.
  Qed.
  Lemma other_not_sinks params n h p h' cls : n <> "subsidence" -> n <> "flexure" -> process_class params n = Ok cls -> make E cls (params_of params n) h = Ok (p, h') -> sinks p = false.
  Proof.
    intros N1 N2 Hc Hm. apply made_kind in Hm. unfold process_class in Hc. cbn [dget] in Hc.
    repeat match type of Hc with (if String.eqb n ?k then _ else _) = _ => destruct (String.eqb_spec n k) as [->|?] | (match (if String.eqb n ?k then _ else _) with _ => _ end) = _ => destruct (String.eqb_spec n k) as [->|?] end; try congruence;
      okinj Hc; subst cls.
    all: try (destruct p as [[]|]; [..|reflexivity]; try reflexivity; exfalso; revert Hm; cbn; try discriminate).
    all: try (destruct (din _ _ _); cbn; discriminate).
  Qed.
  Lemma subsidence_unmatched : unmatched "subsidence". Proof. repeat constructor; discriminate. Qed.
  Lemma made_rate params h p h' cls : process_class params "subsidence" = Ok cls -> make E cls (params_of params "subsidence") h = Ok (p, h') ->
    exists c, p = Ours (PSubsidence c) /\ mapM (described_rate (params_of params "subsidence")) (x_of_column h) = Ok (sub_rate c).
  Proof.
    intros Hc Hm. change (process_class params "subsidence") with (@Ok string "SubsidenceTimeSeries") in Hc. okinj Hc. subst cls. set (s := params_of params "subsidence") in *. unfold make in Hm.
    change (class_named "SubsidenceTimeSeries") with (Some SubsidenceTimeSeries) in Hm. cbv iota in Hm. unfold construct in Hm. destruct (negb _); [discriminate|].
    unfold kwd_file in Hm. unfold described_rate. destruct (dget String.eqb s "filepath") as [[v|x y]|]; cbn [bind fst snd] in Hm; try discriminate.
    unfold subsidence_init in Hm. cbv zeta in Hm. unfold calc_subsidence_rate in Hm.
    destruct (mapM _ _) as [rate|] eqn:Er in Hm; cbn [bind] in Hm; [|discriminate].
    exists (mkSubsidence rate n0). split; [congruence|]. cbn [sub_rate]. rewrite <- Er. destruct (has_node h INCREMENT); reflexivity.
  Qed.
  Lemma init_seen {W} (pr : processes A W) w (g : grid A) c m : model_init pr w g c = Ok m -> seen (sm_grid m) = seen g.
  Proof.
    unfold model_init. intros H. destruct (rowf g "x_of_shore"); cbn [bind] in H; [|discriminate].
    match type of H with bind (match ?r with _ => _ end) _ = _ => destruct r; cbn [bind] in H; [|discriminate] end. dr H. dr H.
    match type of H with context [if has_node ?h WATER_LOAD then _ else _] => set (h0 := h) in *; destruct (has_node h0 WATER_LOAD) end.
    - dr H. dr H. match type of H with bind ?r _ = _ => destruct r as [k|] eqn:Ek; cbn [bind] in H; [|discriminate] end.
      assert (Y : sm_grid m = k) by (okinj H; subst m; reflexivity). apply seen_profile in Ek; [|discriminate|discriminate]. rewrite Y, Ek. reflexivity.
    - cbn [bind] in H. okinj H. subst m. reflexivity.
  Qed.
  Lemma world_sinks t (ps : parts A X) : (forall k q, k <> "subsidence" -> dget String.eqb ps k = Some q -> sinks q = false) ->
    (forall k q, k <> "subsidence" -> dget String.eqb (set_sea_time t ps) k = Some q -> sinks q = false)
    /\ dget String.eqb (set_sea_time t ps) "subsidence" = dget String.eqb ps "subsidence".
  Proof.
    intros O. unfold set_sea_time.
    destruct (dget String.eqb ps "sea_level") as [[[]|]|]; try (split; [exact O|reflexivity]);
      (split; [|rewrite (dget_dset _ String.eqb_eq); reflexivity]); intros k q Hk; rewrite (dget_dset _ String.eqb_eq);
      (destruct (String.eqb k "sea_level"); [|apply O, Hk]); intros Y; match type of Y with Some ?a = _ => assert (V : q = a) by congruence end; rewrite V; reflexivity.
  Qed.
  Lemma loaded_sink n m d b params read names ctx c names' md : load_model E params read names ctx c = Ok (names', md) ->
    (forall g0, load_grid params (Some read) = Ok g0 -> fresh n m d b g0 /\ length (x_of_column g0) = m) ->
    In "subsidence" names' -> ~ In "flexure" names' ->
    sink_inv n m d (x_of_column (sm_grid md)) names' md (described_rate (section_of ctx "subsidence")) b.
  Proof.
    intros H G Hs Hf. destruct (load_parts _ _ _ _ _ _ _ _ H) as (g0 & ps & g & E0 & El & Em & ->). destruct (G _ E0) as [F0 L0]. clear G.
    destruct (load_made E (fresh n m d b) (fun cls s h p h' Hh Hm => fresh_make n m d b cls s h p h' Hh Hm) _ _ _ _ _ F0 El) as (Fg & N & M).
    destruct (init_world _ _ _ _ _ Em) as [Ew Ec]. pose proof (init_seen _ _ _ _ _ Em) as Sn. pose proof (seen_columns _ _ Sn) as Xs.
    assert (O : forall k q, k <> "subsidence" -> dget String.eqb ps k = Some q -> sinks q = false).
    { intros k q Hk Dq. destruct (M _ _ Dq) as (_ & cls1 & h1 & h1' & _ & Hc1 & Hm1). refine (other_not_sinks _ _ _ _ _ _ Hk _ Hc1 Hm1).
      intros ->. apply Hf. destruct (in_dec string_dec "flexure" (map fst ps)) as [Y|Y]; [exact Y|]. apply (dget_none_iff _ String.eqb_eq) in Y. congruence. }
    destruct (world_sinks (ck_time c) ps O) as [O2 D2]. cbn [named_processes pr_set_sea_time] in Ew. rewrite <- Ew in O2, D2.
    destruct (dkeys_dget ps "subsidence" Hs) as [p Dp]. destruct (M _ _ Dp) as (In1 & cls & h & h' & Fh & Hc & Hm).
    destruct (made_rate _ _ _ _ _ Hc Hm) as (cc & -> & Rc). rewrite (matched_other same_value ctx _ _ subsidence_unmatched In1) in Rc.
    destruct F0 as (a1 & a2 & a3 & _). destruct Fg as (b1 & b2 & b3 & b4 & b5). destruct Fh as (c1 & c2 & c3 & _).
    split; [exact N|]. split; [exact Hs|]. split; [exact O2|]. split; [reflexivity|].
    split; [rewrite Xs, (columns_seen g0 g) by congruence; exact L0|]. split.
    - exists (node g INCREMENT). split; [|exact b5]. rewrite Sn. apply seen_is. auto.
    - exists cc. split; [congruence|]. rewrite Xs, (columns_seen h g) by congruence. exact Rc.
  Qed.

  Lemma at2_sunk n m rate dt i j : length rate = m -> (i < n + 2)%nat -> (j < m)%nat ->
    at2 n0 (sunk n m rate dt) i j = if (Nat.leb 1 i && Nat.leb i n)%bool then nadd n0 (nmul (nth j rate n0) dt) else n0.
  Proof.
    intros L Hi Hj. assert (HZ : shaped (n + 2) m (Z n m)) by apply shaped_full. pose proof (shaped_inner _ _ _ HZ) as Hin.
    unfold sunk. rewrite (at2_set_inner n m); [| exact HZ | | exact Hi].
    2:{ split; [rewrite map_length; apply Hin|]. intros r Hr. apply in_map_iff in Hr as (r0 & <- & Hr0). rewrite zipw_length, (proj2 Hin _ Hr0). unfold change. rewrite map_length. lia. }
    destruct (Nat.leb_spec 1 i), (Nat.leb_spec i n); cbn [andb]; try (unfold Z; rewrite at2_full by assumption; reflexivity).
    unfold at2. rewrite nth_map' with (da := []) by (rewrite (shaped_len _ _ _ Hin); lia).
    rewrite nth_zipw with (da := n0) (db := n0).
    - unfold change. rewrite nth_map' with (da := n0) by lia. fold (at2 n0 (inner (Z n m)) (i - 1) j). rewrite (at2_inner n m) by (assumption || lia).
      unfold Z. rewrite at2_full by lia. reflexivity.
    - rewrite (shaped_nth _ _ _ _ Hin) by lia. assumption.
    - unfold change. rewrite map_length. lia.
  Qed.
  (* the bedrock after the steps of a history *)
  Definition low (n m : nat) (xs : list A) (b0 b : field A) (l : list ((A -> result A) * A)) : Prop :=
    shaped (n + 2) m b /\ forall i j, (i < n + 2)%nat -> (j < m)%nat ->
      if (Nat.leb 1 i && Nat.leb i n)%bool then lowered l (nth j xs n0) (at2 n0 b0 i j) = Ok (at2 n0 b i j)
      else at2 n0 b i j = fold_left (fun z _ => nadd z n0) l (at2 n0 b0 i j).
  Lemma mapM_at (f : A -> result A) : forall l r j, mapM f l = Ok r -> (j < length l)%nat -> f (nth j l n0) = Ok (nth j r n0).
  Proof.
    induction l as [|a l IH]; intros r j H Hj; [cbn in Hj; lia|]. cbn [mapM] in H. destruct (f a) as [c|] eqn:Ea; cbn [bind] in H; [|discriminate].
    destruct (mapM f l) as [r'|]; cbn [bind] in H; [|discriminate]. assert (Y : r = c :: r') by congruence. subst r. destruct j; [exact Ea|]. cbn in Hj |- *. apply IH; [reflexivity|lia].
  Qed.
  Lemma sinking_inv n m d names m0 f0 md f l b0 : (exists xs, sink_inv n m d xs names m0 f0 b0) -> shaped (n + 2) m b0 -> sinking E names m0 f0 md f l ->
    exists xs b, xs = x_of_column (sm_grid md) /\ sink_inv n m d xs names md f b /\ low n m xs b0 b l.
  Proof.
    intros (xs0 & I0) S0 H. induction H as [|md f l dt md' _ IH Hs|md f l dt md' _ IH Hs|md f l params md' _ IH Hs].
    - exists (x_of_column (sm_grid m0)), b0. assert (Y : xs0 = x_of_column (sm_grid m0)) by (symmetry; apply I0). subst xs0. split; [reflexivity|]. split; [exact I0|]. split; [exact S0|]. intros i j Hi Hj.
      destruct (_ && _)%bool; reflexivity.
    - destruct IH as (xs & b & -> & I1 & Sb & Lb). destruct (step_sink _ _ _ _ _ _ _ _ _ _ I1 Hs) as (rate & Er & I2).
      assert (Y : x_of_column (sm_grid md') = x_of_column (sm_grid md)) by apply I2. set (xs := x_of_column (sm_grid md)) in *. rewrite Y.
      exists xs, (fmap2 nadd b (sunk n m rate (step_used dt md))). split; [reflexivity|]. split; [exact I2|].
      assert (Lx : length xs = m) by apply I2. assert (Lr : length rate = m) by (rewrite <- Lx; eapply mapM_len, Er). pose proof (shaped_sunk n m rate (step_used dt md) Lr) as Su.
      split; [apply shaped_fmap2; assumption|]. intros i j Hi Hj. specialize (Lb i j Hi Hj).
      rewrite (at2_fmap2 nadd (n + 2) m b _ n0 n0 n0), at2_sunk by assumption. destruct (_ && _)%bool.
      + unfold lowered in *. rewrite foldM_app, Lb. cbn [bind foldM fst snd]. rewrite (mapM_at f xs rate j Er) by lia. reflexivity.
      + rewrite fold_left_app, <- Lb. reflexivity.
    - destruct IH as (xs & b & -> & I1 & L1). destruct (stop_sink _ _ _ _ Hs) as [G W]. exists (x_of_column (sm_grid md)), b. rewrite G. split; [reflexivity|]. split; [|exact L1].
      unfold sink_inv in *. rewrite G, W. exact I1.
    - destruct IH as (xs & b & -> & I1 & L1). pose proof (set_sink _ _ _ _ _ _ _ _ _ _ I1 Hs) as I2. exists (x_of_column (sm_grid md)), b.
      assert (Y : x_of_column (sm_grid md') = x_of_column (sm_grid md)) by apply I2. rewrite Y. auto.
  Qed.
  Lemma columns_length (g : grid A) : length (x_of_column g) = g_cols g.
  Proof. unfold x_of_column. rewrite map_length, seq_length. reflexivity. Qed.
  Lemma grid_nodes params (g : grid A) : grid_from_dict params = Ok g -> at_node g = [("sediment_deposit__thickness", full (g_rows g + 2) (g_cols g) n0)].
  Proof.
    unfold grid_from_dict. intros H. match type of H with bind ?r _ = _ => destruct r as [sh|]; cbn [bind] in H; [|discriminate] end.
    match type of H with bind ?r _ = _ => destruct r as [sp|]; cbn [bind] in H; [|discriminate] end. unfold grid_init in H. destruct (_ || _)%bool; [discriminate|].
    destruct sh as [|a [|b [|]]]; try discriminate; destruct sp as [|u [|v [|]]]; try discriminate; okinj H; subst g; reflexivity.
  Qed.
  Lemma grid_read params text g0 : load_grid params (Some (read_bathymetry text)) = Ok g0 ->
    exists x y b, file_table text = Ok (x, y) /\ fresh (g_rows g0) (g_cols g0) (g_dx g0) b g0 /\ shaped (g_rows g0 + 2) (g_cols g0) b
      /\ forall j, (j < g_cols g0)%nat -> exists z, interp_linear x y (nth j (x_of_column g0) n0) = Ok z /\ forall i, (i < g_rows g0 + 2)%nat -> at2 n0 b i j = nsub z (nlit 100).
  Proof.
    unfold load_grid. intros H. destruct (grid_from_dict params) as [g|] eqn:Eg; cbn [bind] in H; [|discriminate]. apply grid_nodes in Eg.
    unfold read_bathymetry in H. destruct (file_table text) as [[x y]|] eqn:Ef; cbn [bind fst snd] in H; [|discriminate]. exists x, y.
    assert (B : bathymetry_init g = put_node g "topographic__elevation" (full (g_rows g + 2) (g_cols g) n0)) by (unfold bathymetry_init, has_node; rewrite Eg; reflexivity).
    rewrite B in H. unfold bathymetry_step, node_r in H. rewrite node_put, String.eqb_refl in H. cbn [bind] in H.
    change (x_of_column (put_node g _ _)) with (x_of_column g) in H. destruct (mapM (interp_linear x y) (x_of_column g)) as [pr|] eqn:Ep; cbn [bind] in H; [|discriminate].
    rewrite node_put, String.eqb_refl in H. cbn [bind] in H. okinj H. subst g0. cbn [g_rows g_cols g_dx put_node set_at_node].
    pose proof (mapM_len _ _ _ Ep) as Lp. rewrite columns_length in Lp.
    assert (S1 : shaped (g_rows g + 2) (g_cols g) (map (fun _ => pr) (full (g_rows g + 2) (g_cols g) (@n0 A _)))).
    { split; [rewrite map_length; apply (proj1 (shaped_full _ _ _))|]. intros r Hr. apply in_map_iff in Hr as (_ & <- & _). exact Lp. }
    eexists. split; [reflexivity|]. split; [|split].
    - split; [reflexivity|]. split; [reflexivity|]. split; [reflexivity|]. rewrite !node_put. split; [reflexivity|]. left. unfold node. rewrite Eg. reflexivity.
    - apply shaped_fmap, S1.
    - intros j Hj. exists (nth j pr n0). split.
      + change (interp_linear x y (nth j (x_of_column g) n0) = Ok (nth j pr n0)). apply mapM_at; [exact Ep|rewrite columns_length; exact Hj].
      + intros i Hi. rewrite (at2_fmap _ _ _ _ n0 n0 i j S1 Hi Hj). unfold at2. rewrite nth_map' with (da := []) by (rewrite (proj1 (shaped_full _ _ _)); exact Hi).
        reflexivity.
  Qed.
  Theorem sinks_by params text names ctx c names' m0 m f l :
    load_model E params (read_bathymetry text) names ctx c = Ok (names', m0) -> In "subsidence" names' -> ~ In "flexure" names' ->
    sinking E names' m0 (described_rate (section_of ctx "subsidence")) m f l ->
    exists x y b, file_table text = Ok (x, y) /\ node (sm_grid m) "bedrock_surface__elevation" = Some b
      /\ shaped (g_rows (sm_grid m) + 2) (g_cols (sm_grid m)) b
      /\ forall j, (j < g_cols (sm_grid m))%nat -> exists z, interp_linear x y (nmul (nofnat j) (g_dx (sm_grid m))) = Ok z
           /\ forall i, (i < g_rows (sm_grid m) + 2)%nat ->
                if (Nat.leb 1 i && Nat.leb i (g_rows (sm_grid m)))%bool
                then lowered l (nmul (nofnat j) (g_dx (sm_grid m))) (nsub z (nlit 100)) = Ok (at2 n0 b i j)
                else at2 n0 b i j = fold_left (fun z _ => nadd z n0) l (nsub z (nlit 100)).
  Proof.
    intros H Hs Hf Hk. destruct (load_parts _ _ _ _ _ _ _ _ H) as (g0 & ps & g & E0 & _).
    destruct (grid_read _ _ _ E0) as (x & y & b0 & Ef & F0 & S0 & V0).
    assert (I0 := loaded_sink (g_rows g0) (g_cols g0) (g_dx g0) b0 _ _ _ _ _ _ _ H
                    ltac:(intros g1 E1; assert (g1 = g0) by congruence; subst g1; split; [exact F0|apply columns_length]) Hs Hf).
    assert (I1 : exists xs, sink_inv (g_rows g0) (g_cols g0) (g_dx g0) xs names' m0 (described_rate (section_of ctx "subsidence")) b0) by (exists (x_of_column (sm_grid m0)); exact I0).
    destruct (sinking_inv _ _ _ _ _ _ _ _ _ _ I1 S0 Hk) as (xs & b & -> & I2 & Sb & Lb).
    destruct I2 as (_ & _ & _ & _ & _ & (i & Sn & _) & _). apply seen_is in Sn as (Q1 & Q2 & Q3 & Q4 & _).
    exists x, y, b. split; [exact Ef|]. split; [exact Q4|]. rewrite Q1, Q2. split; [exact Sb|]. intros j Hj.
    destruct (V0 j Hj) as (z & Ez & Hz). exists z.
    rewrite (columns_seen (sm_grid m) g0) in Ez by congruence.
    assert (P : nth j (x_of_column (sm_grid m)) n0 = nmul (nofnat j) (g_dx (sm_grid m))).
    { unfold x_of_column. rewrite nth_map' with (da := O) by (rewrite seq_length, Q2; exact Hj). rewrite seq_nth by (rewrite Q2; exact Hj). reflexivity. }
    rewrite P in Ez. split; [exact Ez|]. intros k Hk'. pose proof (Lb k j Hk' Hj) as Y. rewrite P, Hz in Y by assumption. exact Y.
  Qed.
End S.

(** ** over the reals *)
Section Reals.
  Context {X : Type} {tr : Trans R} (E : externals R X) (LB : leaves_bedrock E).
  Local Open Scope R_scope.
  Lemma lowered_sum l x : forall z s, lowered l x z = Ok s -> exists t, (forall u, foldM (fun sum fd => let* rate := fst fd x in Ok (sum + rate * snd fd)) l u = Ok (u + t)) /\ s = z + t.
  Proof.
    unfold lowered. induction l as [|[f dt] l IH]; intros z s; cbn [foldM fst snd].
    - intros H. exists 0. split; [intros u; f_equal; lra|]. assert (z = s) by congruence. lra.
    - destruct (f x) as [r|]; cbn [bind]; [|discriminate]. intros H. destruct (IH _ _ H) as (t & Ht & ->). exists (r * dt + t). split.
      + intros u. rewrite Ht. f_equal. lra.
      + numR. rewrite n0_R. lra.
  Qed.
  Lemma still {B} (l : list B) : forall z : R, fold_left (fun z _ => nadd z n0) l z = z.
  Proof. induction l as [|a l IH]; intros z; cbn [fold_left]; [reflexivity|]. rewrite IH. numR. rewrite n0_R. lra. Qed.
  Theorem sinks_by_sum params text names ctx c names' m0 m f l :
    load_model E params (read_bathymetry text) names ctx c = Ok (names', m0) -> In "subsidence" names' -> ~ In "flexure" names' ->
    sinking E names' m0 (described_rate (section_of ctx "subsidence")) m f l ->
    exists x y b, file_table text = Ok (x, y) /\ node (sm_grid m) "bedrock_surface__elevation" = Some b
      /\ forall j, (j < g_cols (sm_grid m))%nat -> exists z, interp_linear x y (INR j * g_dx (sm_grid m)) = Ok z
           /\ forall i, (i < g_rows (sm_grid m) + 2)%nat ->
                if (Nat.leb 1 i && Nat.leb i (g_rows (sm_grid m)))%bool
                then exists s, subsided l (INR j * g_dx (sm_grid m)) = Ok s /\ at2 0 b i j = z - 100 + s
                else at2 0 b i j = z - 100.
  Proof.
    intros H Hs Hf Hk. destruct (sinks_by E LB _ _ _ _ _ _ _ _ _ _ H Hs Hf Hk) as (x & y & b & Ef & Nb & _ & V). exists x, y, b. split; [exact Ef|]. split; [exact Nb|].
    assert (H100 : @nlit R _ 100 = 100) by (cbn; unfold Q2R; simpl; lra).
    intros j Hj. destruct (V j Hj) as (z & Ez & W). rewrite nofnat_R in Ez, W. exists z. split; [exact Ez|]. intros i Hi. specialize (W i Hi). rewrite H100 in W.
    destruct (_ && _)%bool.
    - rewrite n0_R in W. destruct (lowered_sum _ _ _ _ W) as (t & Ht & Es). exists t. split; [unfold subsided; etransitivity; [apply Ht|rewrite n0_R; f_equal; lra]|]. exact Es.
    - rewrite still in W. rewrite <- n0_R. exact W.
  Qed.
End Reals.
