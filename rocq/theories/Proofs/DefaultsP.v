(** Defaults of parameters (C117). *)
From Coq Require Import String List ZArith QArith Bool Arith.
From Verif.Base Require Import Num Py Arr.
From Verif.Model Require Import Layers Grid Sequence SequenceModel Setattr Processes Whole.
From Verif.Spec Require Import Parameters Session Defaults.
From Verif.Proofs Require Import ProcessesP.
Import ListNotations.
Local Open Scope string_scope.
Local Open Scope list_scope.

Section D.
  Context {A : Type} {num : Num A} {tr : Trans A}.

  Lemma known_default c k (v : pvalue A) : dget String.eqb (defaults c) k = Some v -> existsb (String.eqb k) (parameters c) = true.
  Proof.
    intros H. assert (Y : forall l, forallb (fun kv => existsb (String.eqb (fst kv)) (parameters c)) l = true ->
      dget String.eqb l k = Some v -> existsb (String.eqb k) (parameters c) = true).
    { induction l as [|[a x] l IH]; cbn [forallb dget fst]; [discriminate|]. rewrite andb_true_iff. intros [H1 H2].
      destruct (String.eqb k a) eqn:E; [|auto]. apply String.eqb_eq in E. subst a. auto. }
    apply (Y (defaults c)); [|exact H]. destruct c; reflexivity.
  Qed.
  Lemma keys_known (f : string -> bool) (s : section (pvalue A)) :
    forallb (fun kv => f (fst kv)) s = true <-> forall k v, dget String.eqb s k = Some v -> f k = true.
  Proof.
    induction s as [|[a x] s IH]; cbn [forallb dget fst]; [split; [discriminate|reflexivity]|].
    rewrite andb_true_iff, IH. split.
    - intros [H1 H2] k v. destruct (String.eqb k a) eqn:E; [apply String.eqb_eq in E; subst; auto|apply H2].
    - intros H. split; [apply (H a x); rewrite String.eqb_refl; reflexivity|]. intros k v Hk.
      destruct (String.eqb k a) eqn:E; [apply (H k x)|apply (H k v)]; rewrite E; [reflexivity|exact Hk].
  Qed.
  Lemma known_said c (s s' : section (pvalue A)) : (forall k, says c s k = says c s' k) ->
    forallb (fun kv => existsb (String.eqb (fst kv)) (parameters c)) s = true -> forallb (fun kv => existsb (String.eqb (fst kv)) (parameters c)) s' = true.
  Proof.
    intros H K. rewrite (keys_known (fun k => existsb (String.eqb k) (parameters c))) in *. intros k v Hk.
    specialize (H k). unfold says in H. rewrite Hk in H. destruct (dget String.eqb s k) as [w|] eqn:E; [exact (K k w E)|]. exact (known_default _ _ _ H).
  Qed.
  Lemma kwd_said c (s s' : section (pvalue A)) k d : (forall k, says c s k = says c s' k) -> dget String.eqb (defaults c) k = Some (Number d) -> kwd s k d = kwd s' k d.
  Proof.
    intros H D. specialize (H k). unfold says in H. rewrite D in H. unfold kwd.
    destruct (dget String.eqb s k) as [v|], (dget String.eqb s' k) as [v'|]; inversion H; subst; reflexivity.
  Qed.
  Lemma get_said c (s s' : section (pvalue A)) k : (forall k, says c s k = says c s' k) -> dget String.eqb (defaults c) k = None -> dget String.eqb s k = dget String.eqb s' k.
  Proof.
    intros H D. specialize (H k). unfold says in H. rewrite D in H. destruct (dget String.eqb s k), (dget String.eqb s' k); congruence.
  Qed.
  Lemma file_said c (s s' : section (pvalue A)) k : (forall k, says c s k = says c s' k) -> dget String.eqb (defaults c) k = None -> kwd_file s k = kwd_file s' k.
  Proof. intros H D. unfold kwd_file. rewrite (get_said _ _ _ _ H D). reflexivity. Qed.
  Theorem construct_said interp1d c (s s' : section (pvalue A)) g : (forall k, says c s k = says c s' k) -> construct interp1d c s g = construct interp1d c s' g.
  Proof.
    intros H. unfold construct.
    assert (K : forallb (fun kv => existsb (String.eqb (fst kv)) (parameters c)) s = forallb (fun kv => existsb (String.eqb (fst kv)) (parameters c)) s').
    { pose proof (known_said c s s' H) as K1. pose proof (known_said c s' s (fun k => eq_sym (H k))) as K2.
      destruct (forallb _ s), (forallb _ s'); auto; [symmetry; auto]. }
    rewrite K. destruct (negb _); [reflexivity|]. assert (P : c = SedimentFlexure -> passed_on s = passed_on s').
    { intros ->. unfold passed_on, those_of, flexure1d. cbn [flat_map]. rewrite !(get_said _ _ _ _ H) by reflexivity. reflexivity. }
    destruct c; repeat match goal with
      | |- context [kwd s ?k ?d] => rewrite (kwd_said _ _ _ k d H) by reflexivity
      | |- context [kwd_file s ?k] => rewrite (file_said _ _ _ k H) by reflexivity
      end; try reflexivity.
    rewrite (P eq_refl). reflexivity.
  Qed.
End D.

Lemma outcome_dec {V} veqb (b : string -> string -> option V) p1 p2 keys :
  {exists k v1 v2, In k keys /\ b p1 k = Some v1 /\ b p2 k = Some v2 /\ veqb v2 v1 = false} + {~ exists k v1 v2, In k keys /\ b p1 k = Some v1 /\ b p2 k = Some v2 /\ veqb v2 v1 = false}.
Proof.
  induction keys as [|a keys IH]; [right; intros (k & _ & _ & [] & _)|].
  destruct IH as [IH|IH]; [left; destruct IH as (k & v1 & v2 & H & R); exists k, v1, v2; split; [right; exact H|exact R]|].
  destruct (b p1 a) as [v1|] eqn:E1; [destruct (b p2 a) as [v2|] eqn:E2; [destruct (veqb v2 v1) eqn:E3|]|].
  2: left; exists a, v1, v2; cbn; auto.
  all: right; intros (k & w1 & w2 & [<-|H] & H1 & H2 & H3); [congruence|apply IH; eauto 8].
Qed.
Lemma outcome_same {V} veqb (b a b' a' : string -> string -> option V) p1 p2 keys :
  pair_outcome veqb b a (p1, p2, keys) -> pair_outcome veqb b' a' (p1, p2, keys) ->
  (forall k, In k keys -> b p1 k = b' p1 k /\ b p2 k = b' p2 k) -> forall k, In k keys -> a p1 k = a' p1 k /\ a p2 k = a' p2 k.
Proof.
  intros [H1 H2] [H1' H2'] Hb k Hk. destruct (Hb k Hk) as [B1 B2]. destruct (outcome_dec veqb b p1 p2 keys) as [Y|N].
  - assert (Y' : exists k v1 v2, In k keys /\ b' p1 k = Some v1 /\ b' p2 k = Some v2 /\ veqb v2 v1 = false).
    { destruct Y as (q & v1 & v2 & Hq & E1 & E2 & E3). destruct (Hb q Hq) as [Q1 Q2]. exists q, v1, v2. rewrite <- Q1, <- Q2. auto. }
    destruct (H1 Y k Hk) as [-> ->]. destruct (H1' Y' k Hk) as [-> ->]. auto.
  - assert (N' : ~ exists k v1 v2, In k keys /\ b' p1 k = Some v1 /\ b' p2 k = Some v2 /\ veqb v2 v1 = false).
    { intros (q & v1 & v2 & Hq & E1 & E2 & E3). apply N. destruct (Hb q Hq) as [Q1 Q2]. exists q, v1, v2. rewrite Q1, Q2. auto. }
    destruct (H2 N k Hk) as [X1 X2]. destruct (H2' N' k Hk) as [X1' X2']. rewrite <- X1, <- X1', X2, X2', B1, B2. auto.
Qed.
Lemma outcome_first {V} veqb (b a : string -> string -> option V) p1 p2 keys : pair_outcome veqb b a (p1, p2, keys) ->
  (forall k, b p2 k = None) -> forall k, In k keys -> a p1 k = b p1 k.
Proof.
  intros [_ H] N k Hk. destruct H with (k := k) as [_ E]; [intros (q & v1 & v2 & _ & _ & E2 & _); rewrite N in E2; discriminate|exact Hk|].
  rewrite E, N. reflexivity.
Qed.
Lemma outcome_second {V} veqb (b a : string -> string -> option V) p1 p2 keys : pair_outcome veqb b a (p1, p2, keys) ->
  (forall k, b p1 k = None) -> forall k, In k keys -> a p2 k = b p2 k.
Proof.
  intros [_ H] N k Hk. destruct H with (k := k) as [E0 E]; [intros (q & v1 & v2 & _ & E1 & _); rewrite N in E1; discriminate|exact Hk|].
  rewrite <- E0, E, N. destruct (b p2 k); reflexivity.
Qed.

Section Load.
  Context {A : Type} {num : Num A} {tr : Trans A} {X : Type} (E : externals A X).
  Context (refl : forall a : A, neqb a a = true).
  Lemma same_refl (v : pvalue A) : same_value v v = true.
  Proof.
    assert (L : forall l : list A, same_list l l = true).
    { intros l. unfold same_list. rewrite Nat.eqb_refl. cbn [andb]. induction l as [|a l IH]; [reflexivity|]. cbn [combine forallb fst snd]. rewrite refl. exact IH. }
    destruct v as [a|x y]; cbn [same_value]; [apply refl|]. rewrite !L. reflexivity.
  Qed.

  Lemma matched_others (ps : context (pvalue A)) n : ~ In n ["fluvial"; "submarine_diffusion"; "sediments"; "shoreline"; "water_flexure"; "flexure"] ->
    params_of (fst (match_params same_value ps)) n = params_of ps n.
  Proof.
    intros N. assert (Y : forall d1 d2 keys st, n <> d1 -> n <> d2 -> params_of (fst (match_pair same_value st (d1, d2, keys))) n = params_of (fst st) n).
    { intros d1 d2 keys st N1 N2. unfold match_pair. destruct (match_values _ _ _ _); [|reflexivity]. cbn [fst].
      rewrite !params_of_dset. rewrite (proj2 (String.eqb_neq n d1) N1), (proj2 (String.eqb_neq n d2) N2). reflexivity. }
    unfold match_params, params_to_match. cbn [fold_left]. rewrite !Y; [reflexivity|..]; intros ->; apply N; cbn; tauto.
  Qed.

  Lemma matched_said ctx ctx' names n k :
    ~ In "water_flexure" (with_required names) -> ~ In "sediments" (with_required names) -> In n (with_required names) ->
    (In "submarine_diffusion" (with_required names) -> forall n k, In (n, k) shared -> dget String.eqb (section_of ctx n) k = dget String.eqb (section_of ctx' n) k) ->
    let L := lookup (fst (match_params (@same_value A _) (own_params ctx (with_required names)))) in
    let L' := lookup (fst (match_params (@same_value A _) (own_params ctx' (with_required names)))) in
    L n k = L' n k \/ (L n k = dget String.eqb (section_of ctx n) k /\ L' n k = dget String.eqb (section_of ctx' n) k).
  Proof.
    set (ns := with_required names). intros Nw Ns Hn Hs L L'.
    pose proof (match_params_spec (@same_value A _) same_refl (own_params ctx ns)) as (U & O & _). pose proof (match_params_spec (@same_value A _) same_refl (own_params ctx' ns)) as (U' & O' & _).
    fold L in U, O. fold L' in U', O'.
    assert (B : forall c p q, lookup (own_params c ns) p q = if existsb (String.eqb p) ns then dget String.eqb (@section_of (pvalue A) c p) q else None).
    { intros c p q. rewrite own_lookup. unfold value, section_of. destruct (dget String.eqb c p); reflexivity. }
    assert (Bin : forall c q, lookup (own_params c ns) n q = dget String.eqb (@section_of (pvalue A) c n) q).
    { intros c q. rewrite B, (proj2 (existsb_In n ns) Hn). reflexivity. }
    assert (Bout : forall c p q, ~ In p ns -> lookup (own_params c ns) p q = @None (pvalue A)).
    { intros c p q Np. rewrite B, (proj2 (existsb_notIn p ns) Np). reflexivity. }
    assert (I1 : In ("fluvial", "submarine_diffusion", ["sediment_load"; "plain_slope"]) params_to_match) by (cbn; tauto).
    assert (I2 : In ("fluvial", "sediments", ["hemipelagic"]) params_to_match) by (cbn; tauto).
    assert (I3 : In ("shoreline", "submarine_diffusion", ["alpha"]) params_to_match) by (cbn; tauto).
    assert (I4 : In ("water_flexure", "flexure", ["isostasytime"; "eet"]) params_to_match) by (cbn; tauto).
    assert (Sub : forall d keys, In (d, "submarine_diffusion", keys) params_to_match -> (forall q, In q keys -> In (d, q) shared /\ In ("submarine_diffusion", q) shared) ->
      In "submarine_diffusion" ns -> In k keys -> L d k = L' d k /\ L "submarine_diffusion" k = L' "submarine_diffusion" k).
    { intros d keys Ip Sh Hsub Hk. refine (outcome_same _ _ _ _ _ _ _ _ (O _ Ip) (O' _ Ip) _ k Hk).
      intros q Hq. destruct (Sh q Hq) as [S1 S2]. rewrite !B, (Hs Hsub _ _ S1), (Hs Hsub _ _ S2). auto. }
    assert (Sh1 : forall q, In q ["sediment_load"; "plain_slope"] -> In ("fluvial", q) shared /\ In ("submarine_diffusion", q) shared) by (cbn; intros q [<-|[<-|[]]]; tauto).
    assert (Sh3 : forall q, In q ["alpha"] -> In ("shoreline", q) shared /\ In ("submarine_diffusion", q) shared) by (cbn; intros q [<-|[]]; tauto).
    destruct (in_dec string_dec k (if String.eqb n "fluvial" then ["sediment_load"; "plain_slope"] else [])) as [K1|K1];
      [destruct (String.eqb_spec n "fluvial") as [->|]; [|destruct K1]|].
    { destruct (in_dec string_dec "submarine_diffusion" ns) as [Hsub|Nsub]; [left; apply (Sub _ _ I1 Sh1 Hsub K1)|right].
      rewrite (outcome_first _ _ _ _ _ _ (O _ I1) (fun q => Bout _ _ q Nsub) k K1), (outcome_first _ _ _ _ _ _ (O' _ I1) (fun q => Bout _ _ q Nsub) k K1), !Bin. auto. }
    destruct (in_dec string_dec k (if String.eqb n "fluvial" then ["hemipelagic"] else [])) as [K2|K2];
      [destruct (String.eqb_spec n "fluvial") as [->|]; [|destruct K2]|].
    { right. rewrite (outcome_first _ _ _ _ _ _ (O _ I2) (fun q => Bout _ _ q Ns) k K2), (outcome_first _ _ _ _ _ _ (O' _ I2) (fun q => Bout _ _ q Ns) k K2), !Bin. auto. }
    destruct (in_dec string_dec k (if String.eqb n "shoreline" then ["alpha"] else [])) as [K3|K3];
      [destruct (String.eqb_spec n "shoreline") as [->|]; [|destruct K3]|].
    { destruct (in_dec string_dec "submarine_diffusion" ns) as [Hsub|Nsub]; [left; apply (Sub _ _ I3 Sh3 Hsub K3)|right].
      rewrite (outcome_first _ _ _ _ _ _ (O _ I3) (fun q => Bout _ _ q Nsub) k K3), (outcome_first _ _ _ _ _ _ (O' _ I3) (fun q => Bout _ _ q Nsub) k K3), !Bin. auto. }
    destruct (in_dec string_dec k (if String.eqb n "flexure" then ["isostasytime"; "eet"] else [])) as [K4|K4];
      [destruct (String.eqb_spec n "flexure") as [->|]; [|destruct K4]|].
    { right. rewrite (outcome_second _ _ _ _ _ _ (O _ I4) (fun q => Bout _ _ q Nw) k K4), (outcome_second _ _ _ _ _ _ (O' _ I4) (fun q => Bout _ _ q Nw) k K4), !Bin. auto. }
    destruct (in_dec string_dec k (if String.eqb n "submarine_diffusion" then ["sediment_load"; "plain_slope"] else [])) as [K5|K5];
      [destruct (String.eqb_spec n "submarine_diffusion") as [->|]; [|destruct K5]|]; [left; apply (Sub _ _ I1 Sh1 Hn K5)|].
    destruct (in_dec string_dec k (if String.eqb n "submarine_diffusion" then ["alpha"] else [])) as [K6|K6];
      [destruct (String.eqb_spec n "submarine_diffusion") as [->|]; [|destruct K6]|]; [left; apply (Sub _ _ I3 Sh3 Hn K6)|].
    right. assert (T : forall pair, In pair params_to_match -> ~ touches pair n k).
    { intros pair Hp [T1 T2]. unfold params_to_match in Hp.
      repeat (destruct Hp as [<-|Hp]; [cbn [fst snd] in T1, T2; destruct T1 as [->| ->]; cbn [String.eqb Ascii.eqb Bool.eqb] in *; tauto|]). destruct Hp. }
    rewrite (U _ _ T), (U' _ _ T), !Bin. auto.
  Qed.

  Lemma class_is (ps : context (pvalue A)) n cls : process_class ps n = Ok cls -> ~ In n ["compaction"; "water_flexure"] ->
    class_named cls = class_at n (params_of ps n) /\ class_named cls <> None.
  Proof.
    intros H N. assert (K : is_known n) by (apply (class_known ps); eauto). destruct K as [->|K].
    - apply class_sea in H. subst cls. unfold class_at. cbn [String.eqb Ascii.eqb Bool.eqb]. unfold lookup. destruct (dget _ _ "filepath"); split; (reflexivity || discriminate).
    - cbn in K, N. destruct K as [<-|[<-|[<-|[<-|[<-|[<-|[<-|[]]]]]]]]; try (exfalso; tauto);
        cbn in H; injection H as <-; split; (reflexivity || discriminate).
  Qed.
  Lemma class_extra (ps ps' : context (pvalue A)) n : n <> "sea_level" -> process_class ps n = process_class ps' n.
  Proof.
    intros N. unfold process_class. cbn [dget]. repeat match goal with |- context [String.eqb n ?s] => destruct (String.eqb_spec n s); [try reflexivity|] end; [congruence|reflexivity].
  Qed.

  Definition touched : list string := ["fluvial"; "submarine_diffusion"; "sediments"; "shoreline"; "water_flexure"; "flexure"].
  Lemma made_said (ps ps' ctx ctx' : context (pvalue A)) n g : n <> "water_flexure" -> same_section n (section_of ctx n) (section_of ctx' n) ->
    (forall k, lookup ps n k = lookup ps' n k \/ (lookup ps n k = dget String.eqb (section_of ctx n) k /\ lookup ps' n k = dget String.eqb (section_of ctx' n) k)) ->
    (~ In n touched -> params_of ps n = section_of ctx n /\ params_of ps' n = section_of ctx' n) ->
    (let* cls := process_class ps n in make E cls (params_of ps n) g) = (let* cls := process_class ps' n in make E cls (params_of ps' n) g).
  Proof.
    intros Nw Hsame Hl Mo.
      destruct (String.eqb_spec n "compaction") as [->|Nc].
    - rewrite (class_extra ps ps') by discriminate. unfold same_section in Hsame. cbn in Hsame.
      destruct Mo as [-> ->]; [cbn; intuition discriminate|]. rewrite Hsame. reflexivity.
    - assert (Nn : ~ In n ["compaction"; "water_flexure"]) by (cbn; intros [<-|[<-|[]]]; [congruence|congruence]).
      assert (Hc : process_class ps n = process_class ps' n).
      { destruct (String.eqb_spec n "sea_level") as [->|N]; [|apply class_extra, N]. unfold same_section in Hsame. cbn [class_at String.eqb Ascii.eqb Bool.eqb] in Hsame.
        unfold process_class. assert (Z : din String.eqb (params_of ps "sea_level") "filepath" = din String.eqb (params_of ps' "sea_level") "filepath"); [|rewrite Z; reflexivity].
        unfold din. destruct Mo as [-> ->]; [cbn; intuition discriminate|].
        destruct Hsame as [Hcl _]. destruct (dget String.eqb (section_of ctx "sea_level") "filepath"), (dget String.eqb (section_of ctx' "sea_level") "filepath"); congruence. }
      rewrite <- Hc. destruct (process_class ps n) as [cls|] eqn:Ec; [|reflexivity]. cbn [bind].
      destruct (class_is _ _ _ Ec Nn) as [C1 C2]. assert (Ec' : process_class ps' n = Ok cls) by congruence. destruct (class_is _ _ _ Ec' Nn) as [C1' _].
      unfold make. destruct (class_named cls) as [pc|]; [|congruence].
      assert (Hcl : class_at n (section_of ctx n) = Some pc).
      { rewrite C1. unfold class_at. destruct (String.eqb_spec n "sea_level") as [->|N]; [|reflexivity].
        destruct Mo as [-> _]; [cbn; intuition discriminate|reflexivity]. }
      unfold same_section in Hsame. rewrite Hcl in Hsame. destruct Hsame as [_ Hsay].
      rewrite (construct_said _ pc (params_of ps n) (params_of ps' n)); [reflexivity|].
      intros k. specialize (Hsay k). unfold says in *. change (dget String.eqb (params_of ps n) k) with (lookup ps n k). change (dget String.eqb (params_of ps' n) k) with (lookup ps' n k).
      destruct (Hl k) as [->|[-> ->]]; [reflexivity|exact Hsay].
  Qed.
  Lemma folded_said (ps ps' : context (pvalue A)) names :
    (forall n, In n names -> forall g, (let* cls := process_class ps n in make E cls (params_of ps n) g) = (let* cls := process_class ps' n in make E cls (params_of ps' n) g)) ->
    forall st, foldM (fun st name => let* cls := process_class ps name in let* (p, g) := make E cls (params_of ps name) (snd st) in Ok (fst st ++ [(name, p)], g)) names st
      = foldM (fun (st : list (string * part A X) * grid A) name => let* cls := process_class ps' name in let* (p, g) := make E cls (params_of ps' name) (snd st) in Ok (fst st ++ [(name, p)], g)) names st.
  Proof.
    induction names as [|n l IH]; intros M st; [reflexivity|]. cbn [foldM]. pose proof (M n (or_introl eq_refl) (snd st)) as Mn.
    assert (M' : forall n, In n l -> forall g, (let* cls := process_class ps n in make E cls (params_of ps n) g) = (let* cls := process_class ps' n in make E cls (params_of ps' n) g)) by (intros q Hq; apply M; right; exact Hq).
    destruct (process_class ps n) as [cls|], (process_class ps' n) as [cls'|]; cbn [bind] in *.
    - rewrite Mn. destruct (make E cls' _ _) as [[p g]|]; cbn [bind]; [|reflexivity]. apply IH, M'.
    - rewrite Mn. reflexivity.
    - rewrite <- Mn. reflexivity.
    - congruence.
  Qed.
  Theorem loaded_said params read names ctx ctx' c :
    ~ In "water_flexure" names -> ~ In "sediments" names ->
    (forall n, In n (names ++ ["fluvial"; "shoreline"]) -> same_section n (section_of ctx n) (section_of ctx' n)) ->
    (In "submarine_diffusion" names -> forall n k, In (n, k) shared -> dget String.eqb (section_of ctx n) k = dget String.eqb (section_of ctx' n) k) ->
    load_model E params read names ctx c = load_model E params read names ctx' c.
  Proof.
    intros Nw Ns Hsame Hsh. unfold load_model. destruct (load_grid params (Some read)) as [g0|]; cbn [bind]; [|reflexivity].
    assert (Y : load_processes same_value (make E) g0 names ctx = load_processes same_value (make E) g0 names ctx'); [|rewrite Y; reflexivity].
    assert (Nw' : ~ In "water_flexure" (with_required names)) by (rewrite with_required_In; intuition discriminate).
    assert (Ns' : ~ In "sediments" (with_required names)) by (rewrite with_required_In; intuition discriminate).
    assert (Hsh' : In "submarine_diffusion" (with_required names) -> forall n k, In (n, k) shared -> dget String.eqb (section_of ctx n) k = dget String.eqb (section_of ctx' n) k).
    { rewrite with_required_In. intros [H|[H|H]]; [exact (Hsh H)|discriminate|discriminate]. }
    unfold load_processes. cbv zeta. rewrite (folded_said _ (fst (match_params same_value (own_params ctx' (with_required names))))); [reflexivity|].
    intros n Hn g. apply (made_said _ _ ctx ctx').
    - intros ->. exact (Nw' Hn).
    - apply Hsame. apply with_required_In in Hn. rewrite in_app_iff. cbn. intuition auto.
    - intros k. exact (matched_said ctx ctx' names n k Nw' Ns' Hn Hsh').
    - intros N. rewrite !matched_others by exact N. rewrite !own_params_of, (proj2 (existsb_In _ _) Hn). auto.
  Qed.

  Lemma dget_line (s : section (pvalue A)) k v q : dget String.eqb s k = None -> dget String.eqb (s ++ [(k, v)]) q = if String.eqb q k then Some v else dget String.eqb s q.
  Proof.
    induction s as [|[a x] s IH]; cbn [app dget]; [destruct (String.eqb q k); reflexivity|].
    destruct (String.eqb_spec k a); [discriminate|]. intros H. rewrite (IH H). destruct (String.eqb_spec q a); [|reflexivity].
    subst. destruct (String.eqb_spec a k); [congruence|reflexivity].
  Qed.
  Lemma section_line ctx n k (v : pvalue A) q : section_of (with_line ctx n k v) q = if String.eqb q n then section_of ctx n ++ [(k, v)] else section_of ctx q.
  Proof. unfold with_line, section_of. rewrite (dget_dset _ String.eqb_eq). destruct (String.eqb q n); reflexivity. Qed.
  Lemma default_get c k (v : pvalue A) : In (k, v) (defaults c) -> dget String.eqb (defaults c) k = Some v.
  Proof.
    intros I. apply (dget_in_nodup _ String.eqb_eq); [|exact I]. destruct c; cbn; repeat constructor; cbn; intuition discriminate.
  Qed.
  Theorem line_default params read names ctx c n cls k v :
    ~ In "water_flexure" names -> ~ In "sediments" names ->
    class_at n (section_of ctx n) = Some cls -> In (k, v) (defaults cls) -> dget String.eqb (section_of ctx n) k = None ->
    (In "submarine_diffusion" names -> ~ In (n, k) shared) ->
    load_model E params read names ctx c = load_model E params read names (with_line ctx n k v) c.
  Proof.
    intros Nw Ns Hc Hd Hk Hsh. apply default_get in Hd. apply loaded_said; auto.
    - intros q _. rewrite section_line. destruct (String.eqb_spec q n) as [->|]; [|unfold same_section; destruct (class_at q (section_of ctx q)); auto].
      unfold same_section. rewrite Hc. split.
      + revert Hc. unfold class_at. destruct (String.eqb n "sea_level"); [|auto]. intros Hc. rewrite dget_line by exact Hk.
        destruct (String.eqb_spec "filepath" k) as [<-|]; [|exact Hc]. injection Hc as <-. destruct (dget String.eqb (section_of ctx n) "filepath"); discriminate Hd.
      + intros q. unfold says. rewrite dget_line by exact Hk. destruct (String.eqb_spec q k) as [->|]; [|reflexivity]. rewrite Hk. exact Hd.
    - intros Hs q j Hq. rewrite section_line. destruct (String.eqb_spec q n) as [->|]; [|reflexivity]. rewrite dget_line by exact Hk.
      destruct (String.eqb_spec j k) as [->|]; [|reflexivity]. exfalso. exact (Hsh Hs Hq).
  Qed.
End Load.
