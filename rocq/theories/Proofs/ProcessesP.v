(** Proofs about load_processes and _match_values. *)
From Coq Require Import String List Bool Permutation.
From Verif.Base Require Import Py.
From Verif.Model Require Import Processes.
From Verif.Spec Require Import Parameters.
Import ListNotations.
Local Open Scope string_scope.
Local Open Scope list_scope.

Lemma seqb_spec : forall a b, String.eqb a b = true <-> a = b.
Proof. intros a b. apply String.eqb_eq. Qed.
Lemma existsb_In x l : existsb (String.eqb x) l = true <-> In x l.
Proof.
  rewrite existsb_exists. split.
  - intros [y [Hy E]]. apply String.eqb_eq in E. subst. exact Hy.
  - intros Hx. exists x. split; [exact Hx|apply String.eqb_refl].
Qed.
Lemma existsb_notIn x l : existsb (String.eqb x) l = false <-> ~ In x l.
Proof. rewrite <- existsb_In. destruct (existsb _ _); split; congruence. Qed.

Section P.
  Context {V : Type} (veqb : V -> V -> bool).
  Hypothesis veqb_refl : forall v, veqb v v = true.

  Lemma match_fold (d1 d2 : section V) : forall keys done (st : section V * list string),
    (forall k, dget String.eqb (fst st) k = if existsb (String.eqb k) done then either d1 d2 k else None) ->
    snd st = filter (conflict veqb d1 d2) done -> NoDup (dkeys (fst st)) ->
    let st' := fold_left (match_key veqb d1 d2) keys st in
    (forall k, dget String.eqb (fst st') k = if existsb (String.eqb k) (done ++ keys) then either d1 d2 k else None)
    /\ snd st' = filter (conflict veqb d1 d2) (done ++ keys) /\ NoDup (dkeys (fst st')).
  Proof.
    induction keys as [|key keys IH]; intros dn st H1 H2 H3; cbv zeta.
    - rewrite app_nil_r. cbn [fold_left]. auto.
    - cbn [fold_left]. replace (dn ++ key :: keys) with ((dn ++ [key]) ++ keys) by (rewrite <- app_assoc; reflexivity).
      assert (Hs : (forall k, dget String.eqb (fst (match_key veqb d1 d2 st key)) k
                     = if existsb (String.eqb k) (dn ++ [key]) then either d1 d2 k else None)
                   /\ snd (match_key veqb d1 d2 st key) = filter (conflict veqb d1 d2) (dn ++ [key])
                   /\ NoDup (dkeys (fst (match_key veqb d1 d2 st key)))).
      2:{ destruct Hs as [S1 [S2 S3]]. apply IH; assumption. }
      rewrite filter_app. cbn [filter].
      assert (Hex : forall k, existsb (String.eqb k) (dn ++ [key]) = existsb (String.eqb k) dn || String.eqb k key).
      { intros k. rewrite existsb_app. cbn. rewrite orb_false_r. reflexivity. }
      unfold match_key; cbv zeta. destruct (dget String.eqb d2 key) as [v2|] eqn:E2.
      + destruct (dget String.eqb d1 key) as [v1|] eqn:E1.
        * assert (Hin : dget String.eqb (dset String.eqb (fst st) key v2) key = Some v2)
            by (rewrite (dget_dset _ seqb_spec), String.eqb_refl; reflexivity).
          unfold din. rewrite !Hin.
          assert (Hg : forall k, dget String.eqb (dset String.eqb (fst st) key v2) k
                       = if existsb (String.eqb k) (dn ++ [key]) then either d1 d2 k else None).
          { intros k. rewrite (dget_dset _ seqb_spec), Hex, H1. destruct (String.eqb_spec k key) as [->|N].
            - rewrite orb_true_r. unfold either. rewrite E2. reflexivity.
            - rewrite orb_false_r. reflexivity. }
          assert (Hn : NoDup (dkeys (dset String.eqb (fst st) key v2))) by (apply (NoDup_dset _ seqb_spec); exact H3).
          unfold conflict at 2. rewrite E1, E2. rewrite H2.
          destruct (veqb v2 v1) eqn:Ev; cbn [fst snd]; (split; [exact Hg|]); (split; [|exact Hn]).
          -- rewrite app_nil_r. reflexivity.
          -- reflexivity.
        * cbn [fst snd]. split; [|split].
          -- intros k. rewrite (dget_dset _ seqb_spec), Hex, H1. destruct (String.eqb_spec k key) as [->|N].
             ++ rewrite orb_true_r. unfold either. rewrite E2. reflexivity.
             ++ rewrite orb_false_r. reflexivity.
          -- unfold conflict at 2. rewrite E1. rewrite app_nil_r. exact H2.
          -- apply (NoDup_dset _ seqb_spec). exact H3.
      + destruct (dget String.eqb d1 key) as [v1|] eqn:E1.
        * unfold conflict at 2. rewrite E1, E2, app_nil_r. unfold din.
          destruct (dget String.eqb (fst st) key) as [v|] eqn:Ev.
          -- rewrite Ev. rewrite H1 in Ev. destruct (existsb (String.eqb key) dn) eqn:Ed; [|discriminate].
             unfold either in Ev. rewrite E2, E1 in Ev. injection Ev as <-. rewrite veqb_refl. cbn [fst snd].
             split; [|split; assumption]. intros k. rewrite H1, Hex. destruct (String.eqb_spec k key) as [->|N].
             ++ rewrite Ed. reflexivity.
             ++ rewrite orb_false_r. reflexivity.
          -- rewrite (dget_dset _ seqb_spec), String.eqb_refl, veqb_refl. cbn [fst snd]. split; [|split].
             ++ intros k. rewrite (dget_dset _ seqb_spec), Hex, H1. destruct (String.eqb_spec k key) as [->|N].
                ** rewrite orb_true_r. unfold either. rewrite E2, E1. reflexivity.
                ** rewrite orb_false_r. reflexivity.
             ++ exact H2.
             ++ apply (NoDup_dset _ seqb_spec). exact H3.
        * unfold conflict at 2. rewrite E1, app_nil_r. cbn [fst snd]. split; [|split; assumption].
          intros k. rewrite H1, Hex. destruct (String.eqb_spec k key) as [->|N].
          -- rewrite orb_true_r. unfold either. rewrite E2, E1. destruct (existsb _ dn); reflexivity.
          -- rewrite orb_false_r. reflexivity.
  Qed.

  Theorem match_values_spec d1 d2 keys :
    match match_values veqb d1 d2 keys with
    | Mismatch ks => ks = filter (conflict veqb d1 d2) keys /\ ks <> []
    | Matched m =>
        filter (conflict veqb d1 d2) keys = [] /\ NoDup (dkeys m)
        /\ (forall k, In k keys -> dget String.eqb m k = either d1 d2 k)
        /\ (forall k, ~ In k keys -> dget String.eqb m k = None)
        /\ forall k, In k keys ->
             dget String.eqb (dupdate String.eqb d1 m) k = dget String.eqb (dupdate String.eqb d2 m) k
    end.
  Proof.
    unfold match_values. destruct (match_fold d1 d2 keys [] ([], [])) as [H1 [H2 H3]]; [reflexivity|reflexivity|constructor|].
    cbn [app] in *. set (st := fold_left _ keys _) in *. rewrite H2. destruct (filter _ keys) as [|c cs] eqn:Ef.
    - split; [reflexivity|]. split; [exact H3|]. split; [|split].
      + intros k Hk. rewrite H1. apply existsb_In in Hk. rewrite Hk. reflexivity.
      + intros k Hk. rewrite H1. apply existsb_notIn in Hk. rewrite Hk. reflexivity.
      + intros k Hk. rewrite !(dget_dupdate _ seqb_spec) by exact H3. rewrite H1. apply existsb_In in Hk. rewrite Hk.
        unfold either. destruct (dget String.eqb d2 k); [reflexivity|]. destruct (dget String.eqb d1 k); reflexivity.
    - split; [reflexivity|discriminate].
  Qed.

  (** ** all pairs *)
  Definition lookup (ps : context V) (p k : string) : option V := dget String.eqb (params_of ps p) k.
  Lemma lookup_value ps p k : lookup ps p k = value ps p k.
  Proof. unfold lookup, params_of, value. destruct (dget String.eqb ps p); reflexivity. Qed.

  Definition touches (pair : string * string * list string) (p k : string) : Prop :=
    (p = fst (fst pair) \/ p = snd (fst pair)) /\ In k (snd pair).
  Definition reports (ps : context V) (pair : string * string * list string) : list (string * string * list string) :=
    match filter (conflict veqb (params_of ps (fst (fst pair))) (params_of ps (snd (fst pair)))) (snd pair) with
    | [] => []
    | ks => [(fst pair, ks)]
    end.

  Lemma params_of_dset (ps : context V) p (d : section V) p' : params_of (dset String.eqb ps p d) p' = if String.eqb p' p then d else params_of ps p'.
  Proof. unfold params_of. rewrite (dget_dset _ seqb_spec). destruct (String.eqb p' p); reflexivity. Qed.

  Lemma filter_conflict (d1 d2 : section V) keys : filter (conflict veqb d1 d2) keys = [] <->
    ~ (exists k v1 v2, In k keys /\ dget String.eqb d1 k = Some v1 /\ dget String.eqb d2 k = Some v2 /\ veqb v2 v1 = false).
  Proof.
    split.
    - intros E [k [v1 [v2 [Hk [E1 [E2 E3]]]]]]. assert (X : In k (filter (conflict veqb d1 d2) keys)).
      { apply filter_In. split; [exact Hk|]. unfold conflict. rewrite E1, E2, E3. reflexivity. }
      rewrite E in X. destruct X.
    - intros H. destruct (filter _ keys) as [|k ks] eqn:E; [reflexivity|]. exfalso. apply H.
      assert (X : In k (filter (conflict veqb d1 d2) keys)) by (rewrite E; left; reflexivity).
      apply filter_In in X. destruct X as [Hk Hc]. unfold conflict in Hc.
      destruct (dget String.eqb d1 k) as [v1|] eqn:E1; [|discriminate].
      destruct (dget String.eqb d2 k) as [v2|] eqn:E2; [|discriminate].
      exists k, v1, v2. repeat split; try assumption. destruct (veqb v2 v1); [discriminate|reflexivity].
  Qed.

  Lemma match_pair_spec ps rep pair : fst (fst pair) <> snd (fst pair) ->
    let st := match_pair veqb (ps, rep) pair in
    (forall p k, ~ touches pair p k -> lookup (fst st) p k = lookup ps p k)
    /\ pair_outcome veqb (lookup ps) (lookup (fst st)) pair
    /\ snd st = rep ++ reports ps pair.
  Proof.
    destruct pair as [[p1 p2] keys]. cbn [fst snd]. intros Hne. cbv zeta. unfold match_pair. cbn [fst snd].
    pose proof (match_values_spec (params_of ps p1) (params_of ps p2) keys) as Hm.
    unfold reports. cbn [fst snd].
    destruct (match_values veqb _ _ keys) as [m|ks].
    - destruct Hm as [Hf [Hn [H1 [H2 H3]]]]. cbn [fst snd]. rewrite Hf, app_nil_r.
      rewrite params_of_dset. assert (Ene : String.eqb p2 p1 = false) by (apply String.eqb_neq; congruence). rewrite Ene.
      assert (L : forall p k, lookup (dset String.eqb (dset String.eqb ps p1 (dupdate String.eqb (params_of ps p1) m)) p2
                        (dupdate String.eqb (params_of ps p2) m)) p k
                  = if String.eqb p p2 || String.eqb p p1
                    then match dget String.eqb m k with Some v => Some v | None => lookup ps p k end
                    else lookup ps p k).
      { intros p k. unfold lookup. rewrite !params_of_dset.
        destruct (String.eqb_spec p p2) as [->|N2].
        - cbn [orb]. rewrite (dget_dupdate _ seqb_spec) by exact Hn. reflexivity.
        - cbn [orb]. destruct (String.eqb_spec p p1) as [->|N1]; [|reflexivity].
          rewrite (dget_dupdate _ seqb_spec) by exact Hn. reflexivity. }
      split; [|split; [|reflexivity]].
      + intros p k Ht. rewrite L. unfold touches in Ht. cbn [fst snd] in Ht.
        destruct (String.eqb_spec p p2) as [->|N2]; [|destruct (String.eqb_spec p p1) as [->|N1]; [|reflexivity]];
          cbn [orb]; rewrite H2; try reflexivity; intros Hk; apply Ht; auto.
      + unfold pair_outcome. split.
        * intros Hc. exfalso. apply filter_conflict in Hf. apply Hf. exact Hc.
        * intros _ k Hk. rewrite !L, !String.eqb_refl. rewrite orb_true_r. cbn [orb]. rewrite H1 by exact Hk.
          unfold either. fold (lookup ps p2 k). fold (lookup ps p1 k).
          destruct (lookup ps p2 k) eqn:E2; [split; reflexivity|]. destruct (lookup ps p1 k) eqn:E1; split; reflexivity.
    - destruct Hm as [-> Hne']. cbn [fst snd]. destruct (filter _ keys) as [|c cs] eqn:Ef; [congruence|].
      split; [reflexivity|]. split; [|reflexivity]. split; [auto|]. intros X. apply filter_conflict in X. congruence.
  Qed.

  Lemma outcome_ext before before' after pair :
    (forall p k, touches pair p k -> before' p k = before p k) ->
    pair_outcome veqb before' after pair -> pair_outcome veqb before after pair.
  Proof.
    destruct pair as [[p1 p2] keys]. unfold touches, pair_outcome. cbn [fst snd]. intros He [H1 H2].
    assert (Hiff : (exists k v1 v2, In k keys /\ before p1 k = Some v1 /\ before p2 k = Some v2 /\ veqb v2 v1 = false)
                   <-> (exists k v1 v2, In k keys /\ before' p1 k = Some v1 /\ before' p2 k = Some v2 /\ veqb v2 v1 = false)).
    { split; intros [k [v1 [v2 [Hk X]]]]; exists k, v1, v2; (split; [exact Hk|]);
        [rewrite !He by auto; exact X|rewrite !He in X by auto; exact X]. }
    split.
    - intros Hc k Hk. rewrite <- !He by auto. apply H1; [apply Hiff; exact Hc|exact Hk].
    - intros Hc k Hk. rewrite <- !He by auto. apply H2; [rewrite <- Hiff; exact Hc|exact Hk].
  Qed.
  Lemma outcome_ext_after before after after' pair :
    (forall p k, touches pair p k -> after' p k = after p k) ->
    pair_outcome veqb before after' pair -> pair_outcome veqb before after pair.
  Proof.
    destruct pair as [[p1 p2] keys]. unfold touches, pair_outcome. cbn [fst snd]. intros He [H1 H2].
    split; intros Hc k Hk; rewrite <- !He by auto; auto.
  Qed.

  Definition apart (a b : string * string * list string) : Prop := forall p k, ~ (touches a p k /\ touches b p k).
  Lemma reports_ext ps ps' pair : (forall p k, touches pair p k -> lookup ps' p k = lookup ps p k) ->
    reports ps' pair = reports ps pair.
  Proof.
    destruct pair as [[p1 p2] keys]. unfold touches, reports. cbn [fst snd]. intros He.
    replace (filter (conflict veqb (params_of ps' p1) (params_of ps' p2)) keys)
      with (filter (conflict veqb (params_of ps p1) (params_of ps p2)) keys); [reflexivity|].
    apply filter_ext_in. intros k Hk. unfold conflict.
    change (dget String.eqb (params_of ?a ?b) k) with (lookup a b k). rewrite !He by auto. reflexivity.
  Qed.

  Lemma match_all l : ForallOrdPairs apart l -> Forall (fun pair => fst (fst pair) <> snd (fst pair)) l ->
    forall ps rep, let st := fold_left (match_pair veqb) l (ps, rep) in
    (forall p k, (forall pair, In pair l -> ~ touches pair p k) -> lookup (fst st) p k = lookup ps p k)
    /\ (forall pair, In pair l -> pair_outcome veqb (lookup ps) (lookup (fst st)) pair)
    /\ snd st = rep ++ flat_map (reports ps) l.
  Proof.
    induction 1 as [|a l Ha Hl IH]; intros Hd ps rep; cbv zeta; cbn [fold_left].
    - split; [reflexivity|]. split; [intros ? []|]. cbn. rewrite app_nil_r. reflexivity.
    - inversion Hd as [|? ? Hd1 Hd2]; subst. destruct (match_pair_spec ps rep a Hd1) as [A1 [A2 A3]].
      destruct (match_pair veqb (ps, rep) a) as [ps1 rep1]. cbn [fst snd] in *.
      destruct (IH Hd2 ps1 rep1) as [B1 [B2 B3]]. rewrite Forall_forall in Ha.
      assert (Un : forall pair, In pair l -> forall p k, touches pair p k -> lookup ps1 p k = lookup ps p k).
      { intros pair Hp p k Ht. apply A1. intros X. exact (Ha pair Hp p k (conj X Ht)). }
      split; [|split].
      + intros p k Hu. rewrite B1; [apply A1; apply Hu; left; reflexivity|]. intros pair Hp. apply Hu. right. exact Hp.
      + intros pair [<-|Hp].
        * apply (outcome_ext_after _ _ (lookup ps1)); [|exact A2]. intros p k Ht. symmetry. apply B1.
          intros pair Hp X. exact (Ha pair Hp p k (conj Ht X)).
        * apply (outcome_ext _ (lookup ps1)); [|apply B2; exact Hp]. intros p k Ht. exact (Un pair Hp p k Ht).
      + rewrite B3, A3, <- app_assoc. cbn [flat_map]. do 2 f_equal. rewrite !flat_map_concat_map. f_equal.
        apply map_ext_in. intros pair Hp. apply reports_ext. exact (Un pair Hp).
  Qed.

  Lemma pairs_apart : ForallOrdPairs apart params_to_match.
  Proof.
    unfold params_to_match. repeat constructor; intros p k [[H1 H2] [H3 H4]]; cbn in *;
      repeat match goal with H : _ \/ _ |- _ => destruct H | H : False |- _ => destruct H end; congruence.
  Qed.
  Lemma pairs_two : Forall (fun pair => fst (fst pair) <> snd (fst pair)) params_to_match.
  Proof. repeat constructor; cbn; discriminate. Qed.

  Theorem match_params_spec ps :
    (forall p k, (forall pair, In pair params_to_match -> ~ touches pair p k) ->
       lookup (fst (match_params veqb ps)) p k = lookup ps p k)
    /\ (forall pair, In pair params_to_match ->
          pair_outcome veqb (lookup ps) (lookup (fst (match_params veqb ps))) pair)
    /\ snd (match_params veqb ps) = flat_map (reports ps) params_to_match.
  Proof. exact (match_all params_to_match pairs_apart pairs_two ps []). Qed.

  (** ** own parameters *)
  Lemma own_params_fold (ctx : context V) : forall names (acc : context V) p, params_of
     (fold_left (fun acc p => dset String.eqb acc p match dget String.eqb ctx p with Some d => d | None => [] end) names acc) p
     = if existsb (String.eqb p) names then params_of ctx p else params_of acc p.
  Proof.
    induction names as [|n names IH]; intros acc p; cbn [fold_left existsb]; [reflexivity|].
    rewrite IH, params_of_dset. destruct (String.eqb_spec p n) as [->|N]; cbn [orb].
    - destruct (existsb _ names); reflexivity.
    - reflexivity.
  Qed.
  Lemma own_params_of (ctx : context V) names p :
    params_of (own_params ctx names) p = if existsb (String.eqb p) names then params_of ctx p else [].
  Proof. unfold own_params. rewrite own_params_fold. reflexivity. Qed.
  Lemma own_lookup ctx names p k :
    lookup (own_params ctx names) p k = if existsb (String.eqb p) names then value ctx p k else None.
  Proof.
    rewrite <- lookup_value. unfold lookup. rewrite own_params_of. destruct (existsb _ names); reflexivity.
  Qed.

  (** ** the calls *)
  Definition class_of (params : context V) (name : string) : option string :=
    match process_class params name with Ok c => Some c | Err _ => None end.
  Lemma class_known (params : context V) name : is_known name <-> exists c, process_class params name = Ok c.
  Proof.
    unfold is_known, process_class, known_processes. cbn [dget map fst In].
    split.
    - intros [->|X]; [cbn; eauto|]. repeat (destruct X as [<-|X]; [cbn; eauto|]). destruct X.
    - intros [c E]. repeat match type of E with context [String.eqb name ?x] =>
        destruct (String.eqb_spec name x) as [->|?]; [tauto|] end. discriminate.
  Qed.
  Lemma class_sea (params : context V) cls : process_class params "sea_level" = Ok cls ->
    cls = match lookup params "sea_level" "filepath" with Some _ => "SeaLevelTimeSeries" | None => "SinusoidalSeaLevel" end.
  Proof.
    unfold process_class. change (dget String.eqb (params_of params "sea_level") "filepath") with (lookup params "sea_level" "filepath").
    cbn [dget String.eqb Ascii.eqb Bool.eqb]. unfold din.
    change (dget String.eqb (params_of params "sea_level") "filepath") with (lookup params "sea_level" "filepath").
    destruct (lookup params "sea_level" "filepath"); intros E; congruence.
  Qed.
  Lemma class_table (params : context V) name cls : In (name, cls) known_processes -> process_class params name = Ok cls.
  Proof.
    unfold known_processes. intros X. repeat (destruct X as [X|X]; [injection X as <- <-; reflexivity|]). destruct X.
  Qed.

  Lemma with_required_In ps p : In p (with_required ps) <-> In p ps \/ p = "fluvial" \/ p = "shoreline".
  Proof.
    unfold with_required.
    destruct (existsb (String.eqb "fluvial") ps) eqn:E1.
    - apply existsb_In in E1. destruct (existsb (String.eqb "shoreline") ps) eqn:E2.
      + apply existsb_In in E2. split; [tauto|]. intros [X|[->| ->]]; assumption.
      + rewrite in_app_iff. cbn. split; [intros [X|[X|[]]]; auto|]. intros [X|[->| ->]]; auto.
    - destruct (existsb (String.eqb "shoreline") (ps ++ ["fluvial"])) eqn:E2.
      + apply existsb_In in E2. rewrite in_app_iff in *. cbn in *. split; [intros [X|[X|[]]]; auto|].
        intros [X|[->| ->]]; auto.
      + rewrite !in_app_iff. cbn. split; [intros [[X|[X|[]]]|[X|[]]]; auto|]. intros [X|[->| ->]]; auto.
  Qed.
  Lemma with_required_app ps : exists extra, with_required ps = ps ++ extra
    /\ incl extra ["fluvial"; "shoreline"]
    /\ extra = (if existsb (String.eqb "fluvial") ps then [] else ["fluvial"])
               ++ (if existsb (String.eqb "shoreline") ps then [] else ["shoreline"]).
  Proof.
    unfold with_required. destruct (existsb (String.eqb "fluvial") ps) eqn:E1.
    - destruct (existsb (String.eqb "shoreline") ps) eqn:E2.
      + exists []. rewrite app_nil_r. repeat split. intros x [].
      + exists ["shoreline"]. repeat split. intros x [<-|[]]. right. left. reflexivity.
    - rewrite existsb_app. cbn [existsb]. replace (String.eqb "shoreline" "fluvial" || false) with false by reflexivity.
      rewrite orb_false_r. destruct (existsb (String.eqb "shoreline") ps) eqn:E2.
      + exists ["fluvial"]. repeat split. intros x [<-|[]]. left. reflexivity.
      + exists ["fluvial"; "shoreline"]. rewrite <- app_assoc. repeat split. intros x X. exact X.
  Qed.

  Lemma known_calls {G P} (make : string -> section V -> G -> result (P * G)) params names calls :
    Forall2 (fun name c => process_class params name = Ok (fst (snd c)) /\ c = (name, (fst (snd c), params_of params name)))
      names calls -> forall st,
    foldM (fun st name => let* cls := process_class params name in
                          let* (p, g) := make cls (params_of params name) (snd st) in
                          Ok (fst st ++ [(name, p)], g)) names st
    = call_all make calls st.
  Proof.
    induction 1 as [|n c ns cs [E1 E2] _ IH]; intros st; [reflexivity|]. unfold call_all. cbn [foldM]. rewrite E1. cbn [bind].
    rewrite E2. cbn [fst snd]. destruct (make _ _ _) as [[p g]|]; [|reflexivity]. cbn [bind]. apply IH.
  Qed.
  Lemma calls_exist (params : context V) names : Forall is_known names ->
    exists calls, Forall2 (fun name c => process_class params name = Ok (fst (snd c))
                                         /\ c = (name, (fst (snd c), params_of params name))) names calls.
  Proof.
    induction 1 as [|n ns Hn _ [cs IH]]; [exists []; constructor|].
    destruct (proj1 (class_known params n) Hn) as [c E]. exists ((n, (c, params_of params n)) :: cs).
    constructor; [|exact IH]. split; [exact E|reflexivity].
  Qed.
  Lemma call_all_keys {G P} (make : string -> section V -> G -> result (P * G)) calls : forall st st',
    call_all make calls st = Ok st' -> map fst (fst st') = map fst (fst st) ++ map fst calls.
  Proof.
    induction calls as [|c calls IH]; intros st st' E.
    - injection E as <-. cbn. rewrite app_nil_r. reflexivity.
    - unfold call_all in E. cbn [foldM] in E. destruct (make _ _ _) as [[p g]|]; [|discriminate]. cbn [bind] in E.
      rewrite (IH _ _ E). cbn [fst map]. rewrite map_app, <- app_assoc. reflexivity.
  Qed.

  Lemma dupdate_keys {P} : forall (e d : list (string * P)),
    dkeys (dupdate String.eqb d e) = dkeys d ++ once (dkeys d) (map fst e).
  Proof.
    unfold dupdate. induction e as [|[k v] e IH]; intros d; cbn [fold_left map fst once]; [rewrite app_nil_r; reflexivity|].
    rewrite IH, dset_keys. unfold din.
    destruct (dget String.eqb d k) eqn:E.
    - replace (existsb (String.eqb k) (dkeys d)) with true; [reflexivity|]. symmetry. apply existsb_In.
      destruct (in_dec string_dec k (dkeys d)) as [X|X]; [exact X|]. apply (dget_none_iff _ seqb_spec) in X. congruence.
    - apply (dget_none_iff _ seqb_spec) in E. apply existsb_notIn in E. rewrite E. rewrite <- app_assoc. reflexivity.
  Qed.

  Theorem load_processes_names {G P} (make : string -> section V -> G -> result (P * G)) g processes ctx objs g' :
    load_processes veqb make g processes ctx = Ok (objs, g') ->
    dkeys objs = once [] (processes ++ (if existsb (String.eqb "fluvial") processes then [] else ["fluvial"])
                                    ++ (if existsb (String.eqb "shoreline") processes then [] else ["shoreline"]))
    /\ Forall is_known processes.
  Proof.
    unfold load_processes. set (params := fst (match_params veqb _)). intros E.
    assert (K : Forall is_known (with_required processes)).
    { apply Forall_forall. intros p Hp. destruct (foldM _ _ _) as [st|] eqn:Ef; [|discriminate].
      clear E. revert Ef Hp. generalize (@nil (string * P), g). generalize (with_required processes).
      induction l as [|n l IH]; intros s E [].
      - subst n. cbn [foldM] in E. apply (class_known params). destruct (process_class params p); [eauto|discriminate].
      - cbn [foldM] in E. destruct (process_class params n) as [cls|]; [|discriminate]. cbn [bind] in E.
        destruct (make _ _ _) as [[q g1]|]; [|discriminate]. cbn [bind] in E. eapply IH; eassumption. }
    destruct (calls_exist params _ K) as [calls Hc]. rewrite (known_calls make params _ _ Hc) in E.
    destruct (call_all make calls _) as [[os g1]|] eqn:Ec; [|discriminate]. cbn [bind] in E. injection E as <- <-.
    split.
    - rewrite dupdate_keys. cbn [dkeys map app]. apply call_all_keys in Ec. cbn [fst map app] in Ec. rewrite Ec.
      destruct (with_required_app processes) as [extra [Ew [_ Ex]]].
      replace (map fst calls) with (with_required processes); [rewrite Ew, Ex; reflexivity|].
      clear - Hc. induction Hc as [|n c ns cs [_ E] _ IH]; [reflexivity|]. cbn. rewrite IH, E. reflexivity.
    - apply Forall_forall. intros p Hp. rewrite Forall_forall in K. apply K. apply with_required_In. left. exact Hp.
  Qed.

  Theorem load_processes_unknown {G P} (make : string -> section V -> G -> result (P * G)) g processes ctx p :
    In p processes -> ~ is_known p -> exists e, load_processes veqb make g processes ctx = Err e.
  Proof.
    intros Hp Hn. destruct (load_processes veqb make g processes ctx) as [[objs g']|e] eqn:E; [|eauto].
    destruct (load_processes_names _ _ _ _ _ _ E) as [_ K]. rewrite Forall_forall in K. destruct (Hn (K p Hp)).
  Qed.

  (* every process is made by one call, with its class and parameters *)
  Theorem load_processes_calls processes ctx : Forall is_known processes ->
    exists calls : list (string * (string * section V)),
      map fst calls = with_required processes
      /\ (forall name cls params, In (name, (cls, params)) calls ->
            ((name = "sea_level" /\ cls = match value ctx "sea_level" "filepath" with
                                          | Some _ => "SeaLevelTimeSeries" | None => "SinusoidalSeaLevel" end)
             \/ In (name, cls) known_processes)
            /\ params = params_of (fst (match_params veqb (own_params ctx (with_required processes)))) name)
      /\ forall G P (make : string -> section V -> G -> result (P * G)) g,
           load_processes veqb make g processes ctx
           = let* (objs, g) := call_all make calls ([], g) in Ok (dupdate String.eqb [] objs, g).
  Proof.
    intros K0. assert (K : Forall is_known (with_required processes)).
    { apply Forall_forall. intros p Hp. apply with_required_In in Hp. rewrite Forall_forall in K0.
      destruct Hp as [Hp|[->| ->]]; [exact (K0 p Hp)| |]; right; cbn; tauto. }
    set (params := fst (match_params veqb (own_params ctx (with_required processes)))).
    destruct (calls_exist params _ K) as [calls Hc]. exists calls. split; [|split].
    - clear - Hc. induction Hc as [|n c ns cs [_ E] _ IH]; [reflexivity|]. cbn. rewrite IH, E. reflexivity.
    - intros name cls ps Hin.
      assert (X : In name (with_required processes) /\ process_class params name = Ok cls /\ ps = params_of params name).
      { clearbody params. clear - Hc Hin. induction Hc as [|n c ns cs [E1 E2] _ IH]; [destruct Hin|]. destruct Hin as [->|Hin].
        - cbn [fst snd] in *. injection E2 as E2 E3. subst. split; [left; reflexivity|]. split; [exact E1|reflexivity].
        - destruct (IH Hin) as [A B]. split; [right; exact A|exact B]. }
      destruct X as [Hn [E1 E2]]. split; [|exact E2].
      rewrite Forall_forall in K. destruct (K name Hn) as [->|Hk].
      + left. split; [reflexivity|]. apply class_sea in E1. rewrite E1.
        replace (lookup params "sea_level" "filepath") with (value ctx "sea_level" "filepath").
        * destruct (value ctx "sea_level" "filepath"); reflexivity.
        * symmetry. unfold params. destruct (match_params_spec (own_params ctx (with_required processes))) as [A _]. rewrite A.
          -- rewrite own_lookup. apply existsb_In in Hn. rewrite Hn. reflexivity.
          -- intros pair Hp [Ht _]. unfold params_to_match in Hp. cbn [In] in Hp.
             repeat (destruct Hp as [Hp|Hp]; [subst pair; cbn in Ht; destruct Ht; discriminate|]). destruct Hp.
      + right. apply in_map_iff in Hk. destruct Hk as [[n c] [En Hin']]. cbn in En. subst n.
        rewrite (class_table params name c Hin') in E1.
        assert (X : c = cls) by congruence. rewrite <- X. exact Hin'.
    - intros G P make g. unfold load_processes. fold params. rewrite (known_calls make params _ _ Hc). reflexivity.
  Qed.

  (* the parameters in those calls *)
  Theorem load_processes_params processes ctx :
    let before := fun p k => if existsb (String.eqb p) (with_required processes) then value ctx p k else None in
    let after := lookup (fst (match_params veqb (own_params ctx (with_required processes)))) in
    (forall pair, In pair params_to_match -> pair_outcome veqb before after pair)
    /\ forall p k, (forall pair, In pair params_to_match -> ~ touches pair p k) -> after p k = before p k.
  Proof.
    cbv zeta. destruct (match_params_spec (own_params ctx (with_required processes))) as [A [B _]]. split.
    - intros pair Hp. apply (outcome_ext _ (lookup (own_params ctx (with_required processes)))); [|exact (B pair Hp)].
      intros p k _. apply own_lookup.
    - intros p k Hu. rewrite A by exact Hu. apply own_lookup.
  Qed.
End P.

Section Created.
  Context {V : Type} (veqb : V -> V -> bool).
  Hypothesis veqb_refl : forall v, veqb v v = true.

  Lemma dget_dupdate_fun {P} (f : string -> P) names : forall d k,
    dget String.eqb (dupdate String.eqb d (map (fun n => (n, f n)) names)) k
    = if existsb (String.eqb k) names then Some (f k) else dget String.eqb d k.
  Proof.
    unfold dupdate. induction names as [|n names IH]; intros d k; cbn [map fold_left existsb fst snd]; [reflexivity|].
    rewrite IH, (dget_dset _ seqb_spec). destruct (String.eqb_spec k n) as [->|N]; cbn [orb]; [|reflexivity].
    destruct (existsb _ names); reflexivity.
  Qed.

  Lemma record_calls {G} (calls : list (string * (string * section V))) : forall os (g : G),
    call_all record_call calls (os, g) = Ok (os ++ calls, g).
  Proof.
    induction calls as [|[n [c ps]] calls IH]; intros os g; [rewrite app_nil_r; reflexivity|].
    unfold call_all. cbn [foldM record_call fst snd bind]. change (foldM _ calls ?s) with (call_all record_call calls s).
    rewrite IH, <- app_assoc. reflexivity.
  Qed.

  (* a process has one class *)
  Definition the_class (ctx : context V) (name : string) : option string :=
    if String.eqb name "sea_level"
    then Some match value ctx "sea_level" "filepath" with Some _ => "SeaLevelTimeSeries" | None => "SinusoidalSeaLevel" end
    else dget String.eqb known_processes name.
  Lemma class_of_call ctx name cls :
    ((name = "sea_level" /\ cls = match value ctx "sea_level" "filepath" with
                                  | Some _ => "SeaLevelTimeSeries" | None => "SinusoidalSeaLevel" end)
     \/ In (name, cls) known_processes) -> the_class ctx name = Some cls.
  Proof.
    unfold the_class. intros [[-> ->]|H]; [reflexivity|]. unfold known_processes in H.
    repeat (destruct H as [H|H]; [injection H as <- <-; reflexivity|]). destruct H.
  Qed.

  Lemma created_after {G} (g g' : G) processes ctx objs : load_processes veqb record_call g processes ctx = Ok (objs, g') ->
    forall p k, enabled processes p ->
    (exists cls params, dget String.eqb objs p = Some (cls, params))
    /\ created objs p k = lookup (fst (match_params veqb (own_params ctx (with_required processes)))) p k.
  Proof.
    intros E p k Hp. destruct (load_processes_names _ _ _ _ _ _ _ E) as [_ K].
    destruct (load_processes_calls veqb veqb_refl processes ctx K) as [calls [Hn [Hc Hl]]].
    rewrite Hl, record_calls in E. clear Hl. cbn [bind app] in E.
    generalize dependent (fst (match_params veqb (own_params ctx (with_required processes)))). intros params Hc.
    assert (Eo : objs = dupdate String.eqb [] calls) by congruence. rewrite Eo. clear E Eo objs.
    apply with_required_In in Hp. rewrite <- Hn in Hp.
    assert (X : exists cls, dget String.eqb (dupdate String.eqb [] calls) p = Some (cls, params_of params p)).
    2:{ destruct X as [cls X]. split; [exists cls; eexists; exact X|]. unfold created. rewrite X. reflexivity. }
    clear K Hn.
    assert (Y : forall d, (forall c ps, dget String.eqb d p = Some (c, ps) -> ps = params_of params p) ->
       (In p (map fst calls) \/ exists x, dget String.eqb d p = Some x) ->
       exists cls, dget String.eqb (dupdate String.eqb d calls) p = Some (cls, params_of params p)).
    { clear Hp. unfold dupdate. induction calls as [|[n [c ps]] calls IH]; intros d Hd Hin.
      - destruct Hin as [[]|[[c ps] X]]. exists c. cbn. rewrite X. do 2 f_equal. eapply Hd. exact X.
      - cbn [fold_left fst snd]. apply IH.
        + intros nm cl pr Hin'. apply Hc. right. exact Hin'.
        + intros c' ps'. rewrite (dget_dset _ seqb_spec). destruct (String.eqb_spec p n) as [->|N]; [|apply Hd].
          intros X. injection X as <- <-. apply (Hc n c ps). left. reflexivity.
        + cbn [map fst In] in Hin. rewrite (dget_dset _ seqb_spec). destruct (String.eqb_spec p n) as [->|N]; [right; eauto|].
          destruct Hin as [[X|X]|X]; [congruence|left; exact X|right; exact X]. }
    apply Y; [discriminate|]. left. exact Hp.
  Qed.

  Theorem one_call_each processes ctx : Forall is_known processes ->
    exists calls : list (string * (string * section V)),
      map fst calls = processes ++ (if existsb (String.eqb "fluvial") processes then [] else ["fluvial"])
                                ++ (if existsb (String.eqb "shoreline") processes then [] else ["shoreline"])
      /\ (forall name cls params, In (name, (cls, params)) calls ->
            (name = "sea_level" /\ cls = match value ctx "sea_level" "filepath" with
                                         | Some _ => "SeaLevelTimeSeries" | None => "SinusoidalSeaLevel" end)
            \/ In (name, cls) known_processes)
      /\ (exists objs, load_processes veqb record_call tt processes ctx = Ok (objs, tt)
            /\ forall call, In call calls -> dget String.eqb objs (fst call) = Some (snd call))
      /\ forall G P (make : string -> section V -> G -> result (P * G)) g,
           load_processes veqb make g processes ctx
           = let* (objs, g) := call_all make calls ([], g) in Ok (dupdate String.eqb [] objs, g).
  Proof.
    intros K. destruct (load_processes_calls veqb veqb_refl processes ctx K) as [calls [Hn [Hc Hl]]].
    generalize dependent (fst (match_params veqb (own_params ctx (with_required processes)))). intros params Hc.
    exists calls. split; [|split; [|split; [|exact Hl]]].
    - rewrite Hn. destruct (with_required_app processes) as [extra [-> [_ ->]]]. reflexivity.
    - intros name cls ps Hin. exact (proj1 (Hc name cls ps Hin)).
    - exists (dupdate String.eqb [] calls). split; [rewrite Hl, record_calls; reflexivity|].
      assert (U : forall n x y, In (n, x) calls -> In (n, y) calls -> x = y).
      { intros n [c1 p1] [c2 p2] H1 H2. destruct (Hc _ _ _ H1) as [A1 ->]. destruct (Hc _ _ _ H2) as [A2 ->]. f_equal.
        assert (P1 := class_of_call ctx n c1 A1). assert (P2 := class_of_call ctx n c2 A2). congruence. }
      intros [n x] Hin. cbn [fst snd]. clear - U Hin. revert U Hin. unfold dupdate.
      assert (G : forall d : list (string * (string * section V)), (forall n x y, In (n, x) calls -> In (n, y) calls -> x = y) ->
                (In (n, x) calls \/ (~ In n (map fst calls) /\ dget String.eqb d n = Some x)) ->
                dget String.eqb (fold_left (fun a kv => dset String.eqb a (fst kv) (snd kv)) calls d) n = Some x).
      { induction calls as [|[m y] l IH]; intros d U H.
        - destruct H as [[]|[_ H]]. exact H.
        - cbn [fold_left fst snd]. apply IH; [intros a b c A B; apply (U a b c); right; assumption|].
          destruct (in_dec string_dec n (map fst l)) as [I|I].
          + left. destruct H as [H|[H _]]; [|destruct H; right; exact I].
            apply in_map_iff in I. destruct I as [[m' z] [Em I]]. cbn in Em. subst m'.
            rewrite (U n x z); [exact I|exact H|right; exact I].
          + right. split; [exact I|]. rewrite (dget_dset _ seqb_spec). destruct H as [[H|H]|[H1 H2]].
            * assert (X : m = n /\ y = x) by (split; congruence). destruct X as [-> ->]. rewrite String.eqb_refl. reflexivity.
            * destruct I. apply in_map_iff. exists (n, x). split; [reflexivity|exact H].
            * destruct (String.eqb_spec n m) as [->|_]; [|exact H2]. destruct H1. left. reflexivity. }
      intros U Hin. apply G; [exact U|left; exact Hin].
  Qed.

  Theorem created_parameters {G} (g g' : G) processes ctx objs :
    load_processes veqb record_call g processes ctx = Ok (objs, g') ->
    (forall p1 p2 keys, In (p1, p2, keys) shared_parameters -> enabled processes p1 -> enabled processes p2 ->
       pair_outcome veqb (value ctx) (created objs) (p1, p2, keys))
    /\ (forall p k, enabled processes p ->
          (forall p1 p2 keys, In (p1, p2, keys) shared_parameters -> enabled processes p1 -> enabled processes p2 ->
             ~ ((p = p1 \/ p = p2) /\ In k keys)) ->
          created objs p k = value ctx p k).
  Proof.
    intros E. assert (C := created_after g g' processes ctx objs E).
    destruct (load_processes_params veqb veqb_refl processes ctx) as [O U].
    assert (B : forall p k, enabled processes p ->
       (if existsb (String.eqb p) (with_required processes) then value ctx p k else None) = value ctx p k).
    { intros p k Hp. apply with_required_In, existsb_In in Hp. rewrite Hp. reflexivity. }
    change shared_parameters with params_to_match. split.
    - intros p1 p2 keys Hin H1 H2. assert (X := O _ Hin).
      eapply (outcome_ext veqb); [|eapply (outcome_ext_after veqb); [|exact X]].
      + intros p k [[->| ->] _]; apply B; assumption.
      + intros p k [[->| ->] _]; symmetry; apply C; assumption.
    - intros p k Hp Hu. rewrite (proj2 (C p k Hp)).
      destruct (existsb (fun pair => (String.eqb p (fst (fst pair)) || String.eqb p (snd (fst pair)))
                                     && existsb (String.eqb k) (snd pair)) params_to_match) eqn:Ex.
      + apply existsb_exists in Ex. destruct Ex as [[[p1 p2] keys] [Hin Ht]]. cbn [fst snd] in Ht.
        apply andb_prop in Ht. destruct Ht as [Ht Hk]. apply existsb_In in Hk.
        assert (Hpp : p = p1 \/ p = p2).
        { apply orb_prop in Ht. destruct Ht as [X|X]; apply String.eqb_eq in X; auto. }
        specialize (Hu p1 p2 keys Hin).
        assert (X := O _ Hin). unfold pair_outcome in X. destruct X as [_ X].
        assert (N : existsb (String.eqb p1) (with_required processes) = false \/ existsb (String.eqb p2) (with_required processes) = false).
        { destruct (existsb (String.eqb p1) (with_required processes)) eqn:E1; [|auto].
          destruct (existsb (String.eqb p2) (with_required processes)) eqn:E2; [|auto]. exfalso.
          apply existsb_In, with_required_In in E1. apply existsb_In, with_required_In in E2. exact (Hu E1 E2 (conj Hpp Hk)). }
        destruct (X) with (k := k) as [X1 X2]; [|exact Hk|].
        { intros [k' [v1 [v2 [_ [A1 [A2 _]]]]]]. destruct N as [N|N]; rewrite N in *; discriminate. }
        assert (Y : forall q, q = p1 \/ q = p2 -> q = p ->
                  lookup (fst (match_params veqb (own_params ctx (with_required processes)))) q k = value ctx q k).
        { intros q Hq ->. assert (Bp := B p k Hp). destruct Hpp as [->| ->].
          - rewrite X2. assert (N2 : existsb (String.eqb p2) (with_required processes) = false).
            { destruct N as [N|N]; [|exact N]. apply existsb_notIn in N. destruct N. apply with_required_In. exact Hp. }
            rewrite N2. exact Bp.
          - rewrite <- X1, X2. rewrite Bp. destruct (value ctx p2 k); [reflexivity|].
            assert (N1 : existsb (String.eqb p1) (with_required processes) = false).
            { destruct N as [N|N]; [exact N|]. apply existsb_notIn in N. destruct N. apply with_required_In. exact Hp. }
            rewrite N1. reflexivity. }
        apply Y; auto.
      + rewrite U; [apply B; exact Hp|]. intros pair Hin [Ht Hk].
        assert (X : existsb (fun pair => (String.eqb p (fst (fst pair)) || String.eqb p (snd (fst pair)))
                                     && existsb (String.eqb k) (snd pair)) params_to_match = true); [|congruence].
        apply existsb_exists. exists pair. split; [exact Hin|]. apply andb_true_intro. split; [|apply existsb_In; exact Hk].
        destruct Ht as [->| ->]; rewrite String.eqb_refl; [reflexivity|apply orb_true_r].
  Qed.

  Theorem conflicts_reported processes ctx p1 p2 ks :
    In (p1, p2, ks) (snd (match_params veqb (own_params ctx (with_required processes))))
    <-> exists keys, In (p1, p2, keys) shared_parameters /\ enabled processes p1 /\ enabled processes p2
        /\ ks = filter (fun k => match value ctx p1 k, value ctx p2 k with
                                 | Some v1, Some v2 => negb (veqb v2 v1) | _, _ => false end) keys
        /\ ks <> [].
  Proof.
    destruct (match_params_spec veqb veqb_refl (own_params ctx (with_required processes))) as [_ [_ R]]. rewrite R.
    rewrite in_flat_map. change shared_parameters with params_to_match.
    assert (B : forall a b keys, 
       filter (conflict veqb (params_of (own_params ctx (with_required processes)) a) (params_of (own_params ctx (with_required processes)) b)) keys
       = filter (fun k => match lookup (own_params ctx (with_required processes)) a k, lookup (own_params ctx (with_required processes)) b k with
                          | Some v1, Some v2 => negb (veqb v2 v1) | _, _ => false end) keys).
    { intros a b keys. apply filter_ext. intros k. reflexivity. }
    assert (F : forall (keys : list string), filter (fun _ => false) keys = []) by (induction keys; [reflexivity|assumption]).
    assert (N : forall a k, ~ enabled processes a -> lookup (own_params ctx (with_required processes)) a k = None).
    { intros a k H. rewrite own_lookup. unfold enabled in H. rewrite <- with_required_In in H. apply existsb_notIn in H.
      rewrite H. reflexivity. }
    assert (Y : forall a k, enabled processes a -> lookup (own_params ctx (with_required processes)) a k = value ctx a k).
    { intros a k H. rewrite own_lookup. apply with_required_In, existsb_In in H. rewrite H. reflexivity. }
    assert (D : forall a, enabled processes a \/ ~ enabled processes a).
    { intros a. unfold enabled. rewrite <- with_required_In. destruct (in_dec string_dec a (with_required processes)); auto. }
    split.
    - intros [[[a b] keys] [Hin Hr]]. unfold reports in Hr. cbn [fst snd] in Hr. rewrite B in Hr.
      destruct (D a) as [Ha|Ha].
      2:{ rewrite (filter_ext _ (fun _ => false)) in Hr by (intros k; rewrite N by exact Ha; reflexivity). rewrite F in Hr. destruct Hr. }
      destruct (D b) as [Hb|Hb].
      2:{ rewrite (filter_ext _ (fun _ => false)) in Hr by (intros k; rewrite (N b) by exact Hb; destruct (lookup _ a k); reflexivity).
          rewrite F in Hr. destruct Hr. }
      rewrite (filter_ext _ (fun k => match value ctx a k, value ctx b k with
                                 | Some v1, Some v2 => negb (veqb v2 v1) | _, _ => false end)) in Hr
        by (intros k; rewrite !Y by assumption; reflexivity).
      destruct (filter _ keys) as [|c cs] eqn:Ef; [destruct Hr|]. destruct Hr as [Hr|[]].
      assert (X : a = p1 /\ b = p2 /\ c :: cs = ks) by (repeat split; congruence). destruct X as [-> [-> <-]].
      exists keys. rewrite Ef. repeat split; try assumption. discriminate.
    - intros [keys [Hin [Ha [Hb [Hk Hne]]]]]. exists (p1, p2, keys). split; [exact Hin|]. unfold reports. cbn [fst snd]. rewrite B.
      rewrite (filter_ext _ (fun k => match value ctx p1 k, value ctx p2 k with
                                 | Some v1, Some v2 => negb (veqb v2 v1) | _, _ => false end))
        by (intros k; rewrite !Y by assumption; reflexivity).
      rewrite <- Hk. destruct ks; [congruence|]. left. reflexivity.
  Qed.

  Theorem fluvial_hemipelagic {G} (g g' : G) processes ctx objs :
    load_processes veqb record_call g processes ctx = Ok (objs, g') ->
    created objs "fluvial" "hemipelagic" = value ctx "fluvial" "hemipelagic".
  Proof.
    intros E. destruct (created_parameters g g' processes ctx objs E) as [_ U]. apply U; [right; left; reflexivity|].
    destruct (load_processes_names _ _ _ _ _ _ _ E) as [_ K]. rewrite Forall_forall in K.
    intros p1 p2 keys Hin H1 H2 [Hp Hk].
    repeat (destruct Hin as [Hin|Hin]; [injection Hin as <- <- <-|]); try destruct Hin.
    - cbn in Hk. repeat destruct Hk as [Hk|Hk]; try discriminate; destruct Hk.
    - destruct H2 as [H2|[H2|H2]]; try discriminate. apply K in H2. destruct H2 as [H2|H2]; [discriminate|].
      cbn in H2. repeat destruct H2 as [H2|H2]; try discriminate; destruct H2.
    - destruct Hp; discriminate.
    - destruct Hp; discriminate.
  Qed.
End Created.

(** * set_params *)
Section SetParams.
  Context {V : Type}.

  Lemma store_all (vals : section V) : forall c, foldM (fun c kv => store c (fst kv) (snd kv)) vals c = Ok (dupdate String.eqb c vals).
  Proof.
    unfold dupdate. induction vals as [|[k v] vals IH]; intros c; [reflexivity|]. cbn [foldM fst snd store bind fold_left]. apply IH.
  Qed.

  Theorem set_params_ok (params : context V) : NoDup (dkeys params) -> Forall (fun nv => NoDup (dkeys (snd nv))) params ->
    forall components : context V, (forall p, In p (dkeys params) -> In p (dkeys components)) ->
    exists cs, set_params store components params = Ok cs /\ dkeys cs = dkeys components
      /\ forall p k, value cs p k = match value params p k with Some v => Some v | None => value components p k end.
  Proof.
    induction params as [|[p vals] params IH]; intros Hn Hv components Hi.
    - exists components. split; [reflexivity|]. split; [reflexivity|]. intros p k. reflexivity.
    - cbn [dkeys map fst] in Hn. inversion Hn as [|? ? Hn1 Hn2]; subst. inversion Hv as [|? ? Hv1 Hv2]; subst. cbn [snd] in Hv1.
      destruct (dget String.eqb components p) as [c|] eqn:Ec.
      2:{ apply (dget_none_iff _ seqb_spec) in Ec. destruct Ec. apply Hi. left. reflexivity. }
      assert (K : dkeys (dset String.eqb components p (dupdate String.eqb c vals)) = dkeys components).
      { rewrite dset_keys. unfold din. rewrite Ec. reflexivity. }
      destruct (IH Hn2 Hv2 (dset String.eqb components p (dupdate String.eqb c vals))) as [cs [E1 [E2 E3]]].
      { intros q Hq. rewrite K. apply Hi. right. exact Hq. }
      exists cs. split; [|split; [rewrite E2; exact K|]].
      + unfold set_params. cbn [foldM fst snd]. rewrite Ec, store_all. cbn [bind]. exact E1.
      + intros q k. rewrite E3. unfold value. rewrite (dget_dset _ seqb_spec). cbn [dget].
        destruct (String.eqb_spec q p) as [->|N]; [|reflexivity].
        apply (dget_none_iff _ seqb_spec) in Hn1. unfold dkeys in Hn1. rewrite Hn1, Ec.
        apply (dget_dupdate _ seqb_spec). exact Hv1.
  Qed.
  Theorem set_params_unknown {P} (setattr : P -> string -> V -> result P) (params : context V) p :
    In p (dkeys params) -> forall components : list (string * P), ~ In p (dkeys components) ->
    exists e, set_params setattr components params = Err e.
  Proof.
    unfold set_params. induction params as [|[q vals] params IH]; intros Hp components Hc; [destruct Hp|].
    cbn [foldM fst snd]. destruct (dget String.eqb components q) as [c|] eqn:Ec; [|eexists; reflexivity].
    destruct (foldM _ vals c) as [c'|e]; [|eexists; reflexivity]. cbn [bind]. apply IH.
    - destruct Hp as [Hp|Hp]; [|exact Hp]. cbn in Hp. subst q. apply (dget_none_iff _ seqb_spec) in Hc. congruence.
    - rewrite dset_keys. unfold din. rewrite Ec. exact Hc.
  Qed.
End SetParams.

(** Concrete cases *)
Definition ex_context : context nat :=
  [("sediments", [("hemipelagic", 3)]); ("fluvial", [("sediment_load", 1); ("plain_slope", 2)]);
   ("submarine_diffusion", [("sediment_load", 4); ("alpha", 5)]); ("shoreline", []); ("clock", [("step", 100)])].
Lemma ex_load : load_processes Nat.eqb record_call tt ["submarine_diffusion"; "fluvial"] ex_context
  = Ok ([("submarine_diffusion", ("SubmarineDiffuser", [("sediment_load", 4); ("alpha", 5)]));
         ("fluvial", ("Fluvial", [("sediment_load", 1); ("plain_slope", 2)]));
         ("shoreline", ("ShorelineFinder", [("alpha", 5)]))], tt).
Proof. reflexivity. Qed.
Lemma ex_load_agreeing : load_processes Nat.eqb record_call tt ["submarine_diffusion"]
    [("fluvial", [("sediment_load", 1)]); ("submarine_diffusion", [("plain_slope", 4)])]
  = Ok ([("submarine_diffusion", ("SubmarineDiffuser", [("plain_slope", 4); ("sediment_load", 1)]));
         ("fluvial", ("Fluvial", [("sediment_load", 1); ("plain_slope", 4)]));
         ("shoreline", ("ShorelineFinder", []))], tt).
Proof. reflexivity. Qed.
Lemma hemipelagic_refuted : ~ (forall (V : Type) (veqb : V -> V -> bool) processes ctx objs v,
  (forall v, veqb v v = true) -> load_processes veqb record_call tt processes ctx = Ok (objs, tt) ->
  value ctx "sediments" "hemipelagic" = Some v -> value ctx "fluvial" "hemipelagic" = None ->
  created objs "fluvial" "hemipelagic" = Some v).
Proof.
  intros C. assert (X := C nat Nat.eqb _ _ _ 3 PeanoNat.Nat.eqb_refl ex_load eq_refl eq_refl). discriminate X.
Qed.
