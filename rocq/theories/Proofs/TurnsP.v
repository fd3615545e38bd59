(** Processes take their turns in the configured order (C115, C116). *)
From Coq Require Import String List ZArith QArith Bool Arith Reals Lra Lia.
From Verif.Base Require Import Num Py Arr.
From Verif.Model Require Import Layers Grid Archive Interp Shoreline SeaLevel Subsidence Bathymetry Csv Flexure Submarine Fluvial Sequence SequenceModel Setattr Processes Whole.
From Verif.Spec Require Import Column Laid Configured Session Ordering Turns.
From Verif.Proofs Require Import GridP LayersP LaidP SequenceModelP DeclaredP OrderP WholeP LoadP FollowP SinkP.
Import ListNotations.
Local Open Scope string_scope.
Local Open Scope list_scope.

Lemma once_in l n : In n (once_each l) <-> In n l.
Proof.
  induction l as [|a l IH]; cbn [once_each]; [tauto|]. cbn [In]. rewrite filter_In, IH, negb_true_iff.
  destruct (String.eqb_spec n a) as [->|N]; [tauto|]. split; intros [H|H]; auto; right; tauto.
Qed.
Lemma once_NoDup l : NoDup (once_each l).
Proof.
  induction l as [|a l IH]; cbn [once_each]; constructor.
  - rewrite filter_In, String.eqb_refl. intros [_ H]. discriminate.
  - apply NoDup_filter, IH.
Qed.
Lemma once_app l l' : once_each (l ++ l') = once_each l ++ filter (fun k => negb (existsb (String.eqb k) l)) (once_each l').
Proof.
  induction l as [|a l IH]; cbn [once_each app].
  - symmetry. rewrite (filter_ext _ (fun _ => true)); [|reflexivity]. induction (once_each l') as [|? ? I]; cbn; [reflexivity|f_equal; exact I].
  - f_equal. rewrite IH, filter_app. f_equal. clear. induction (once_each l') as [|b k I]; cbn [filter]; [reflexivity|].
    cbn [existsb]. destruct (existsb (String.eqb b) l); cbn [negb orb filter]; rewrite ?orb_true_r; cbn [negb]; [exact I|].
    rewrite orb_false_r. destruct (String.eqb b a); cbn [negb]; [exact I|f_equal; exact I].
Qed.
Lemma required_listed names : once_each (with_required names) = once_each (names ++ ["fluvial"; "shoreline"]).
Proof.
  unfold with_required. cbv zeta. rewrite (once_app names ["fluvial"; "shoreline"]).
  change (once_each ["fluvial"; "shoreline"]) with ["fluvial"; "shoreline"]. cbn [filter].
  assert (S : forall k, existsb (String.eqb k) names = existsb (String.eqb k) names) by reflexivity.
  destruct (existsb (String.eqb "fluvial") names) eqn:F.
  - destruct (existsb (String.eqb "shoreline") names) eqn:G; cbn [negb]; [rewrite app_nil_r; reflexivity|].
    rewrite once_app. change (once_each ["shoreline"]) with ["shoreline"]. cbn [filter]. rewrite G. reflexivity.
  - rewrite existsb_app. cbn [existsb]. change (String.eqb "shoreline" "fluvial") with false. cbn [orb]. rewrite orb_false_r.
    destruct (existsb (String.eqb "shoreline") names) eqn:G; cbn [negb].
    + rewrite once_app. change (once_each ["fluvial"]) with ["fluvial"]. cbn [filter]. rewrite F. reflexivity.
    + rewrite <- app_assoc. cbn [app]. rewrite once_app. change (once_each ["fluvial"; "shoreline"]) with ["fluvial"; "shoreline"].
      cbn [filter]. rewrite F, G. reflexivity.
Qed.
Lemma keys_dset {B} (d : list (string * B)) k v : map fst (dset String.eqb d k v) = if existsb (String.eqb k) (map fst d) then map fst d else map fst d ++ [k].
Proof.
  induction d as [|[a b] d IH]; cbn [dset map fst existsb]; [reflexivity|]. 
  destruct (String.eqb k a) eqn:K.
  - apply String.eqb_eq in K. subst. cbn [orb map fst]. reflexivity.
  - cbn [orb map fst]. rewrite IH. destruct (existsb _ _); reflexivity.
Qed.
Lemma existsb_In k l : existsb (String.eqb k) l = true <-> In k l.
Proof.
  rewrite existsb_exists. split; [intros (x & H & Y); apply String.eqb_eq in Y; subst; exact H|]. intros H. exists k. split; [exact H|apply String.eqb_refl].
Qed.
Lemma existsb_once k l : existsb (String.eqb k) (once_each l) = existsb (String.eqb k) l.
Proof.
  destruct (existsb (String.eqb k) l) eqn:K.
  - apply existsb_In, once_in, existsb_In, K.
  - destruct (existsb _ (once_each l)) eqn:Y; [|reflexivity]. apply existsb_In in Y. apply (proj1 (once_in l k)) in Y. apply existsb_In in Y. congruence.
Qed.
Lemma keys_dupdate {B} (e : list (string * B)) : forall d l, map fst d = once_each l -> map fst (dupdate String.eqb d e) = once_each (l ++ map fst e).
Proof.
  induction e as [|[k v] e IH]; intros d l H; [cbn; rewrite app_nil_r; exact H|].
  unfold dupdate. cbn [fold_left fst snd map]. change (k :: map fst e) with ([k] ++ map fst e). rewrite app_assoc. apply IH.
  rewrite keys_dset, H, once_app, existsb_once. change (once_each [k]) with [k]. cbn [filter]. destruct (existsb _ _); cbn [negb]; [rewrite app_nil_r|]; reflexivity.
Qed.

Lemma last_any {B} (l : list B) : forall a d d', last (a :: l) d = last (a :: l) d'.
Proof. induction l as [|b l IH]; intros a d d'; [reflexivity|]. change (last (b :: l) d = last (b :: l) d'). apply IH. Qed.

Section T.
  Context {A X : Type} {num : Num A} {tr : Trans A} (E : externals A X).

  Lemma fold_names params : forall names objs g objs' g',
    foldM (fun st name =>
             let* cls := process_class params name in
             let* (p, g) := make E cls (params_of params name) (snd st) in
             Ok (fst st ++ [(name, p)], g)) names (objs, g) = Ok (objs', g') -> map fst objs' = map fst objs ++ names.
  Proof.
    induction names as [|n names IH]; intros objs g objs' g' H; cbn [foldM] in H.
    - assert (objs' = objs) by congruence. subst. rewrite app_nil_r. reflexivity.
    - cbn [fst snd] in H. destruct (process_class params n); cbn [bind] in H; [|discriminate].
      destruct (make E _ _ g) as [[p g1]|]; cbn [bind] in H; [|discriminate].
      rewrite (IH _ _ _ _ H), map_app, <- app_assoc. reflexivity.
  Qed.
  Lemma loaded_names params read names ctx c names' m : load_model E params read names ctx c = Ok (names', m) ->
    names' = once_each (names ++ ["fluvial"; "shoreline"]).
  Proof.
    intros H. destruct (load_parts _ _ _ _ _ _ _ _ H) as (g0 & ps & g & _ & El & _ & ->). unfold load_processes in El. cbv zeta in El.
    destruct (foldM _ _ _) as [[objs g1]|] eqn:Ef; cbn [bind] in El; [|discriminate].
    assert (Y : ps = dupdate String.eqb [] objs) by congruence. rewrite Y, (keys_dupdate objs [] [] eq_refl), (fold_names _ _ _ _ _ _ Ef).
    cbn [map app]. apply required_listed.
  Qed.

  Lemma part_turn d p g p' g' : part_step E d (p, g) = Ok (p', g') -> takes_step E d p g p' g'.
  Proof.
    unfold part_step. cbn [fst snd]. destruct p as [q|x]; intros H.
    - destruct (process_step _ _ _ _ d (q, g)) as [[q' h]|] eqn:Q; cbn [bind] in H; [|discriminate].
      assert (p' = Ours q' /\ g' = h) as [-> ->] by (split; congruence). constructor. exact Q.
    - destruct (ex_step E d (x, g)) as [[x' h]|] eqn:Q; cbn [bind] in H; [|discriminate].
      assert (p' = Extra x' /\ g' = h) as [-> ->] by (split; congruence). constructor. exact Q.
  Qed.
  Lemma part_assignment k v p g p' g' : part_set E k v (p, g) = Ok (p', g') -> assignment E k v p g p' g'.
  Proof.
    unfold part_set. cbn [fst snd]. destruct p as [q|x]; intros H.
    - destruct (set_attribute k v (q, g)) as [[q' h]|] eqn:Q; cbn [bind] in H; [|discriminate].
      assert (p' = Ours q' /\ g' = h) as [-> ->] by (split; congruence). constructor. exact Q.
    - destruct (ex_set E k v (x, g)) as [[x' h]|] eqn:Q; cbn [bind] in H; [|discriminate].
      assert (p' = Extra x' /\ g' = h) as [-> ->] by (split; congruence). constructor. exact Q.
  Qed.

  Lemma run_turns d : forall names ps g ps' g', NoDup names -> run_components (map (step_of E) names) d (ps, g) = Ok (ps', g') ->
    (forall n, ~ In n names -> dget String.eqb ps' n = dget String.eqb ps n)
    /\ exists gs, length gs = S (length names) /\ nth_error gs 0 = Some g /\ last gs g = g'
         /\ forall k n, nth_error names k = Some n -> exists p p' h h', dget String.eqb ps n = Some p /\ dget String.eqb ps' n = Some p'
              /\ nth_error gs k = Some h /\ nth_error gs (S k) = Some h' /\ takes_step E d p h p' h'.
  Proof.
    induction names as [|n names IH]; intros ps g ps' g' N H.
    - cbn in H. assert (ps' = ps /\ g' = g) as [-> ->] by (split; congruence). split; [reflexivity|]. exists [g]. repeat split. intros [|k] n Y; discriminate Y.
    - cbn [map] in H. unfold run_components in H. cbn [foldM] in H. fold (run_components (map (step_of E) names) d) in H. unfold step_of at 1 in H. cbn [fst snd] in H.
      destruct (dget String.eqb ps n) as [p|] eqn:Ep; cbn [bind] in H; [|discriminate].
      destruct (part_step E d (p, g)) as [[p' g1]|] eqn:Es; cbn [bind] in H; [|discriminate].
      inversion N as [|? ? N1 N2]; subst. destruct (IH _ _ _ _ N2 H) as (O & gs & L & H0 & Hl & K).
      assert (Dn : dget String.eqb ps' n = Some p') by (rewrite (O n N1), (dget_dset _ String.eqb_eq), String.eqb_refl; reflexivity).
      split.
      { intros k Hk. rewrite O by (intros Y; apply Hk; right; exact Y). rewrite (dget_dset _ String.eqb_eq).
        destruct (String.eqb_spec k n) as [->|]; [exfalso; apply Hk; left; reflexivity|reflexivity]. }
      exists (g :: gs). split; [cbn [length]; congruence|]. split; [reflexivity|]. split.
      { destruct gs as [|a gs]; [discriminate|]. cbn [nth_error] in H0. assert (a = g1) by congruence. subst a. rewrite <- Hl. change (last (g :: g1 :: gs) g) with (last (g1 :: gs) g). apply last_any. }
      intros [|k] q Hq; cbn [nth_error] in Hq.
      + assert (q = n) by congruence. subst q. exists p, p', g, g1. split; [exact Ep|]. split; [exact Dn|]. split; [reflexivity|]. split; [exact H0|exact (part_turn _ _ _ _ _ Es)].
      + destruct (K _ _ Hq) as (a & a' & h & h' & K1 & K2 & K3 & K4 & K5). exists a, a', h, h'.
        rewrite (dget_dset _ String.eqb_eq) in K1. destruct (String.eqb_spec q n) as [->|_]; [exfalso; apply N1; exact (nth_error_In _ _ Hq)|]. auto.
  Qed.

  Lemma cleared_any (g g' : grid A) : clear_deposit g = Ok g' -> Configured.cleared g g'.
  Proof.
    unfold clear_deposit, node_r. destruct (node g "sediment_deposit__thickness") as [dz|] eqn:D; cbn [bind]; [|discriminate]. intros H.
    assert (Y : g' = put_node g "sediment_deposit__thickness" (fmap (fun _ => n0) dz)) by congruence. subst g'. clear H.
    split; [reflexivity|]. split; [reflexivity|]. split; [reflexivity|]. split.
    { intros dz' i j H _ _. rewrite node_put_same in H. assert (dz' = fmap (fun _ => n0) dz) by congruence. subst dz'. unfold at2, fmap.
      set (r := nth i (map (map (fun _ : A => n0)) dz) []). assert (R : Forall (fun v => v = n0) r).
      { unfold r. destruct (nth_in_or_default i (map (map (fun _ : A => n0)) dz) []) as [I|Y]; [|rewrite Y; constructor].
        apply in_map_iff in I as (x & <- & _). apply Forall_forall. intros v Hv. apply in_map_iff in Hv as (? & <- & _). reflexivity. }
      clearbody r. revert j. induction R as [|v r Hv R IH]; intros [|j]; cbn [nth]; auto. }
    split.
    { intros n Hn. rewrite node_put_node. destruct (String.eqb_spec n "sediment_deposit__thickness"); [contradiction|reflexivity]. }
    repeat split.
  Qed.

  (** ** the objects of a model *)
  Lemma sea_time_key t (ps : parts A X) n : dget String.eqb (set_sea_time t ps) n <> None <-> dget String.eqb ps n <> None.
  Proof.
    unfold set_sea_time. destruct (dget String.eqb ps "sea_level") as [[[]|]|] eqn:D; try reflexivity; rewrite (dget_dset _ String.eqb_eq);
      destruct (String.eqb_spec n "sea_level") as [->|_]; try reflexivity; rewrite D; split; discriminate.
  Qed.
  Lemma run_keys d : forall names ps g ps' g' n, run_components (map (step_of E) names) d (ps, g) = Ok (ps', g') ->
    dget String.eqb ps' n <> None <-> dget String.eqb ps n <> None.
  Proof.
    induction names as [|a names IH]; intros ps g ps' g' n H.
    - cbn in H. assert (ps' = ps) by congruence. subst. reflexivity.
    - cbn [map] in H. unfold run_components in H. cbn [foldM] in H. fold (run_components (map (step_of E) names) d) in H. unfold step_of at 1 in H. cbn [fst snd] in H.
      destruct (dget String.eqb ps a) as [p|] eqn:Ep; cbn [bind] in H; [|discriminate].
      destruct (part_step E d (p, g)) as [[p' g1]|] eqn:Es; cbn [bind] in H; [|discriminate].
      rewrite (IH _ _ _ _ n H), (dget_dset _ String.eqb_eq). destruct (String.eqb_spec n a) as [->|_]; [rewrite Ep; split; discriminate|reflexivity].
  Qed.
  Lemma assigns_ext l : forall o1 o2 g o' g', (forall n, o1 n = o2 n) -> assigns E l o1 g o' g' -> assigns E l o2 g o' g'.
  Proof.
    induction l as [|[[n k] v] l IH]; intros o1 o2 g o' g' H R; inversion R; subst.
    - constructor. intros n. rewrite <- H. auto.
    - eapply assigns_one; [rewrite <- H; eassumption|eassumption|]. eapply IH; [|eassumption]. intros q. cbn beta. destruct (String.eqb q n); [reflexivity|apply H].
  Qed.
  Lemma assigns_app l1 : forall l2 o g o1 g1 o2 g2, assigns E l1 o g o1 g1 -> assigns E l2 o1 g1 o2 g2 -> assigns E (l1 ++ l2) o g o2 g2.
  Proof.
    induction l1 as [|[[n k] v] l1 IH]; intros l2 o g o1 g1 o2 g2 R1 R2; inversion R1; subst.
    - eapply assigns_ext; [|exact R2]. assumption.
    - cbn [app]. eapply assigns_one; [eassumption..|]. eapply IH; eassumption.
  Qed.
  Lemma section_assigns n : forall kvs p g p' g' o, o n = Some p ->
    foldM (fun pg kv => part_set E (fst kv) (snd kv) pg) kvs (p, g) = Ok (p', g') ->
    assigns E (map (fun kv => (n, fst kv, snd kv)) kvs) o g (fun q => if String.eqb q n then Some p' else o q) g'.
  Proof.
    induction kvs as [|[k v] kvs IH]; intros p g p' g' o Ho H; cbn [foldM map fst snd] in *.
    - assert (p' = p /\ g' = g) as [-> ->] by (split; congruence). constructor. intros q. destruct (String.eqb_spec q n) as [->|_]; congruence.
    - destruct (part_set E k v (p, g)) as [[p1 g1]|] eqn:Es; cbn [bind] in H; [|discriminate].
      eapply assigns_one; [exact Ho|exact (part_assignment _ _ _ _ _ _ Es)|].
      assert (O1 : (fun q => if String.eqb q n then Some p1 else o q) n = Some p1) by (cbn beta; rewrite String.eqb_refl; reflexivity).
      pose proof (IH _ _ _ _ _ O1 H) as R. clear -R.
      assert (X1 : forall l o g o1 o2 g', (forall q, o1 q = o2 q) -> assigns E l o g o1 g' -> assigns E l o g o2 g').
      { induction l as [|[[a b] c] l IHl]; intros o2 g2 o3 o4 g3 H R2; inversion R2; subst; [constructor; intros; rewrite <- H; auto|]. eapply assigns_one; [eassumption..|]. eapply IHl; eassumption. }
      eapply X1; [|exact R]. intros q. cbn beta. destruct (String.eqb q n); reflexivity.
  Qed.
  Lemma sets_assigns params : forall st st', foldM (set_one E) params st = Ok st' ->
    (forall n, dget String.eqb (fst st') n <> None <-> dget String.eqb (fst st) n <> None)
    /\ (forall n, In n (map fst params) -> dget String.eqb (fst st) n <> None)
    /\ assigns E (assignments params) (fun n => dget String.eqb (fst st) n) (snd st) (fun n => dget String.eqb (fst st') n) (snd st').
  Proof.
    induction params as [|[n kvs] params IH]; intros [ps g] [ps' g'] H; cbn [foldM] in H.
    - assert (ps' = ps /\ g' = g) as [-> ->] by (split; congruence). split; [reflexivity|]. split; [intros ? []|]. constructor. reflexivity.
    - unfold set_one at 1 in H. cbn [fst snd] in H. destruct (dget String.eqb ps n) as [p|] eqn:D; cbn [bind] in H; [|discriminate].
      destruct (foldM _ kvs (p, g)) as [[p1 g1]|] eqn:Ef; cbn [bind] in H; [|discriminate].
      destruct (IH _ _ H) as (K1 & K2 & R). cbn [fst snd] in *.
      assert (Y : forall k, dget String.eqb (dset String.eqb ps n p1) k <> None <-> dget String.eqb ps k <> None).
      { intros k. rewrite (dget_dset _ String.eqb_eq). destruct (String.eqb_spec k n) as [->|_]; [rewrite D; split; discriminate|reflexivity]. }
      split; [intros k; rewrite K1; apply Y|]. split.
      { intros k [<-|Hk]; [cbn [fst]; rewrite D; discriminate|]. apply Y, K2, Hk. }
      cbn [assignments flat_map fst snd]. eapply assigns_app; [eapply section_assigns; [exact D|exact Ef]|].
      eapply assigns_ext; [|exact R]. intros q. cbn beta. rewrite (dget_dset _ String.eqb_eq). reflexivity.
  Qed.

  Definition keyed (names : list string) (m : smodel A (parts A X)) : Prop := forall n, object m n <> None <-> In n names.
  Lemma load_keyed params read names ctx c names' m : load_model E params read names ctx c = Ok (names', m) -> keyed names' m.
  Proof.
    intros H. destruct (load_parts _ _ _ _ _ _ _ _ H) as (g0 & ps & g & _ & _ & Em & ->). destruct (init_world _ _ _ _ _ Em) as [Ew _].
    intros n. unfold object. rewrite Ew. cbn [pr_set_sea_time named_processes]. rewrite sea_time_key. split; intros Y.
    - destruct (in_dec string_dec n (map fst ps)) as [I|I]; [exact I|]. apply (dget_none_iff _ String.eqb_eq) in I. contradiction.
    - intros N. apply (dget_none_iff _ String.eqb_eq) in N. contradiction.
  Qed.
  Lemma stepped_world names dt m m' : run_one_step (named_processes E names) dt m = Stepped m' -> keyed names m -> keyed names m'.
  Proof.
    intros H K n. destruct (stepped _ _ _ _ _ H) as (_ & g & ps & h & el & h' & _ & Er & Ew & _). unfold object. rewrite Ew, (run_keys _ _ _ _ _ _ n Er). apply K.
  Qed.
  Lemma stop_world names dt m m' : run_one_step (named_processes E names) dt m = ClockStop m' ->
    sm_world m' = sm_world m /\ sm_grid m' = sm_grid m /\ sm_archived m' = sm_archived m.
  Proof.
    unfold run_one_step. destruct (clock_advance (sm_clock m)) as [c [|]].
    - intros H. assert (m' = mkModel (sm_world m) (sm_grid m) c (sm_archived m)) by congruence. subst. auto.
    - destruct (advance_components _ _ _); discriminate.
  Qed.
  Theorem set_in_order params (m m' : smodel A (parts A X)) : set_model_params E params m = Ok m' ->
    sm_clock m' = sm_clock m /\ sm_archived m' = sm_archived m /\ assigns E (assignments params) (object m) (sm_grid m) (object m') (sm_grid m')
    /\ (forall n, object m' n <> None <-> object m n <> None) /\ forall n, In n (map fst params) -> object m n <> None.
  Proof.
    rewrite set_model_is. destruct (foldM _ params _) as [[ps g]|] eqn:Ef; cbn [bind]; [|discriminate]. intros H.
    assert (m' = mkModel ps g (sm_clock m) (sm_archived m)) by congruence. subst m'. destruct (sets_assigns _ _ _ Ef) as (K1 & K2 & R). cbn [fst snd] in *.
    split; [reflexivity|]. split; [reflexivity|]. split; [exact R|]. split; [exact K1|exact K2].
  Qed.
  Lemma reached_keyed names m0 m : keyed names m0 -> reached E names m0 m -> keyed names m.
  Proof.
    intros K H. induction H as [|m dt m' _ IH Es|m dt m' _ IH Es|m params m' _ IH Es]; [exact K|eapply stepped_world; eassumption| |].
    - destruct (stop_world _ _ _ _ Es) as [W _]. intros n. unfold object. rewrite W. apply IH.
    - intros n. destruct (set_in_order _ _ _ Es) as (_ & _ & _ & Y & _). rewrite Y. apply IH.
  Qed.

  Theorem runs_in_order params read names ctx c names' m0 m dt m' : load_model E params read names ctx c = Ok (names', m0) -> reached E names' m0 m ->
    run_one_step (named_processes E names') dt m = Stepped m' -> exists gs, in_order E (step_used dt m) names' m m' gs.
  Proof.
    intros Hl Hr Es. pose proof (loaded_names _ _ _ _ _ _ _ Hl) as Hn. destruct (stepped _ _ _ _ _ Es) as (_ & g & ps & h & el & h' & Ec & Er & Ew & _).
    assert (N : NoDup names') by (rewrite Hn; apply once_NoDup). destruct (run_turns _ _ _ _ _ _ N Er) as (_ & gs & L & H0 & _ & K).
    exists gs. split; [exact L|]. split; [exists g; split; [exact H0|apply cleared_any, Ec]|]. unfold object. rewrite Ew. exact K.
  Qed.
  Theorem objects_listed params read names ctx c names' m0 m : load_model E params read names ctx c = Ok (names', m0) -> reached E names' m0 m ->
    names' = once_each (names ++ ["fluvial"; "shoreline"]) /\ forall n, object m n <> None <-> In n names'.
  Proof.
    intros Hl Hr. split; [exact (loaded_names _ _ _ _ _ _ _ Hl)|]. exact (reached_keyed _ _ _ (load_keyed _ _ _ _ _ _ _ Hl) Hr).
  Qed.
  Theorem unlisted_raises params read names ctx c names' m0 m changes n : load_model E params read names ctx c = Ok (names', m0) -> reached E names' m0 m ->
    In n (map fst changes) -> ~ In n names' -> exists e, set_model_params E changes m = Err e.
  Proof.
    intros Hl Hr Hi Hn. destruct (set_model_params E changes m) as [m'|e] eqn:Es; [exfalso|eauto].
    destruct (set_in_order _ _ _ Es) as (_ & _ & _ & _ & Y). apply Hn. apply (proj2 (objects_listed _ _ _ _ _ _ _ _ Hl Hr)), Y, Hi.
  Qed.
  Theorem unlisted_first params read names ctx c names' m0 m n kvs changes : load_model E params read names ctx c = Ok (names', m0) -> reached E names' m0 m ->
    ~ In n names' -> set_model_params E ((n, kvs) :: changes) m = Err KeyError.
  Proof.
    intros Hl Hr Hn. assert (Y : object m n = None).
    { destruct (object m n) eqn:O; [exfalso|reflexivity]. apply Hn, (proj2 (objects_listed _ _ _ _ _ _ _ _ Hl Hr)). rewrite O. discriminate. }
    unfold object in Y. unfold set_model_params. cbn [foldM fst snd]. rewrite Y. reflexivity.
  Qed.
  Theorem unlisted params read names ctx c names' m0 m n : load_model E params read names ctx c = Ok (names', m0) -> reached E names' m0 m ->
    ~ In n (names ++ ["fluvial"; "shoreline"]) ->
    (forall changes, In n (map fst changes) -> exists e, set_model_params E changes m = Err e)
    /\ forall kvs changes, set_model_params E ((n, kvs) :: changes) m = Err KeyError.
  Proof.
    intros Hl Hr Hn. assert (N : ~ In n names') by (rewrite (loaded_names _ _ _ _ _ _ _ Hl), once_in; exact Hn).
    split; intros; [eapply unlisted_raises|eapply unlisted_first]; eassumption.
  Qed.
End T.

(** ** the layer that a step lays *)
Lemma last_skip {B} n : forall (l : list B) c, (n < length l)%nat -> last (skipn n l) c = last l c.
Proof.
  induction n as [|n IH]; intros l c H; [reflexivity|]. destruct l as [|a [|b l]]; cbn [length] in H; [lia|lia|].
  change (skipn (S n) (a :: b :: l)) with (skipn n (b :: l)). rewrite IH by (cbn [length]; lia). reflexivity.
Qed.
Lemma laid_newest (h : field R * list (string * field R)) a el a' el' n m : shaped n m (el_stacks el) -> (a <= el_number el)%nat ->
  (forall i j, (i < n)%nat -> (j < m)%nat -> length (at2 [] (el_stacks el) i j) = el_number el) ->
  add_and_archive (fst h) (snd h) (a, el) = Ok (a', el') ->
  (a' <= el_number el')%nat /\ forall i j, (i < n)%nat -> (j < m)%nat -> length (at2 [] (el_stacks el') i j) = el_number el'
    /\ forall c, last (at2 [] (el_stacks el') i j) c = mkCell (Rmax (fst (cell_of i j h)) 0) (snd (cell_of i j h)).
Proof.
  intros Sh Ha Hl H. unfold add_and_archive in H. cbn [fst snd] in H. destruct (el_add (fst h) (snd h) el) as [el1|] eqn:Ea; cbn [bind] in H; [|discriminate].
  destruct (el_add_inv _ _ _ _ Ea) as (N1 & _ & S1). assert (Sh1 : shaped n m (el_stacks el1)) by (rewrite S1; apply shaped_fmapi; exact Sh).
  assert (G : forall i j, (i < n)%nat -> (j < m)%nat -> length (at2 [] (el_stacks el1) i j) = el_number el1
    /\ forall c, last (at2 [] (el_stacks el1) i j) c = mkCell (Rmax (fst (cell_of i j h)) 0) (snd (cell_of i j h))).
  { intros i j Hi Hj.
    assert (Y : at2 [] (el_stacks el1) i j = add_stack (at2 n0 (fst h) i j) (map (fun kv => (fst kv, at2 n0 (snd kv) i j)) (snd h)) (at2 [] (el_stacks el) i j))
      by (rewrite S1; exact (at2_fmapi _ _ _ _ [] [] _ _ Sh Hi Hj)).
    rewrite Y, add_stack_length, N1, Hl by assumption. split; [reflexivity|]. intros c. apply last_add_stack. }
  unfold archive in H. destruct (_ =? 0)%Z eqn:Z.
  - apply Z.eqb_eq, Z.mod_divide in Z; [|lia]. destruct Z as [q Z]. rewrite N1 in Z.
    assert (B : (a + 20 <= el_number el1)%nat) by lia.
    set (rs := layer_reducers (el_tracking el1)) in H.
    assert (Y : a' = S a /\ el' = el_reduce a (a + 10) rs el1) by (split; congruence). destruct Y as [-> ->]. unfold el_reduce. cbn [el_number el_stacks].
    split; [lia|]. intros i j Hi Hj. destruct (G i j Hi Hj) as [G1 G2].
    assert (Y : at2 [] (fmap (reduce_stack a (a + 10) rs) (el_stacks el1)) i j = reduce_stack a (a + 10) rs (at2 [] (el_stacks el1) i j))
      by exact (at2_fmap _ _ _ _ [] [] _ _ Sh1 Hi Hj).
    rewrite Y. split; [rewrite reduce_length by lia; lia|]. intros c. rewrite <- (G2 c). unfold reduce_stack.
    change (merge_cells rs (slice a (a + 10) (at2 [] (el_stacks el1) i j)) :: skipn (a + 10) (at2 [] (el_stacks el1) i j))
      with ([merge_cells rs (slice a (a + 10) (at2 [] (el_stacks el1) i j))] ++ skipn (a + 10) (at2 [] (el_stacks el1) i j)).
    rewrite app_assoc. rewrite last_app_cons.
    + apply last_skip. lia.
    + intros Y0. apply (f_equal (@length _)) in Y0. rewrite skipn_length in Y0. cbn in Y0. lia.
  - assert (Y : a' = a /\ el' = el1) by (split; congruence). destruct Y as [-> ->]. split; [lia|exact G].
Qed.

Section L.
  Context {X : Type} {tr : Trans R} (E : externals R X) (WB : well_behaved E) (LC : leaves_counts E).

  Lemma part_counts d p (g : grid R) p' g' : solid g -> good g p -> part_step E d (p, g) = Ok (p', g') -> forall i j, counts g' i j = counts g i j.
  Proof.
    intros (W & B & _) Hg Es. unfold part_step in Es. cbn [fst snd] in Es. destruct p as [q|x].
    - destruct (process_step _ _ _ _ d (q, g)) as [[q' h]|] eqn:K; cbn [bind] in Es; [|discriminate]. assert (h = g') by congruence. subst h. destruct Hg as (H1 & H2 & H3).
      destruct (ShapesP.process_alike _ _ _ _ (fun dt kd n m z S => wb_diffuse E WB dt kd n m z S) (fun k n m z S => wb_flexure E WB k n m z S) d q g q' g' W H2 K) as [(_ & _ & _ & _ & L) _].
      intros i j. unfold counts. rewrite L. reflexivity.
    - destruct (ex_step E d (x, g)) as [[x' h]|] eqn:K; cbn [bind] in Es; [|discriminate]. assert (h = g') by congruence. subst h. exact (LC _ _ _ _ _ K).
  Qed.
  Lemma run_counts d all : forall names ps g ps' g', incl names all -> sound all ps g -> run_components (map (step_of E) names) d (ps, g) = Ok (ps', g') ->
    el_number (layers g') = el_number (layers g) /\ forall i j, counts g' i j = counts g i j.
  Proof.
    induction names as [|n names IH]; intros ps g ps' g' Hin Sd H.
    - cbn in H. assert (g' = g) by congruence. subst. auto.
    - cbn [map] in H. rewrite run_cons in H. unfold step_of at 1 in H. cbn [fst snd] in H.
      destruct (dget String.eqb ps n) as [p|] eqn:Ep; cbn [bind] in H; [|discriminate].
      destruct (part_step E d (p, g)) as [[p' g1]|] eqn:Es; cbn [bind] in H; [|discriminate].
      pose proof (proj2 (proj2 Sd) n p Ep) as Gp. destruct (part_stepped E WB _ _ _ _ _ (proj1 Sd) Gp Es) as [Ad Gp'].
      destruct (IH _ _ _ _ (fun x Hx => Hin x (or_intror Hx)) (sound_put _ _ _ _ _ _ Sd Ad Gp') H) as [N C].
      destruct Ad as (_ & _ & _ & _ & _ & N1 & _). split; [congruence|]. intros i j. rewrite C. exact (part_counts _ _ _ _ _ (proj1 Sd) Gp Es i j).
  Qed.

  Definition counted (m : smodel R (parts R X)) : Prop :=
    (sm_archived m <= el_number (layers (sm_grid m)))%nat
    /\ forall i j, (i < g_rows (sm_grid m))%nat -> (j < g_cols (sm_grid m) - 2)%nat -> counts (sm_grid m) i j = el_number (layers (sm_grid m)).
  Lemma step_newest names dt m m' : NoDup names -> inv names m -> counted m -> run_one_step (named_processes E names) dt m = Stepped m' ->
    counted m' /\ exists gs, in_order E (step_used dt m) names m m' gs
      /\ forall i j, (i < g_rows (sm_grid m))%nat -> (j < g_cols (sm_grid m) - 2)%nat ->
         exists l, step_lays i j (ck_time (sm_clock m'), new_porosity E (sm_world m'), last gs (sm_grid m)) l
           /\ newest_layer (sm_grid m') i j = mkCell (Rmax (fst l) 0) (snd l).
  Proof.
    intros Nd Hi (Ha & Hc) Es. destruct (stepped _ _ _ _ _ Es) as (_ & g0 & ps & g & el & h' & Ec & Er & Ew & _).
    assert (Er0 : run_components (pr_components (named_processes E names)) (step_used dt m) (sm_world m, g0) = Ok (ps, g)) by exact Er.
    destruct (once_step (named_processes E names) (step_used dt m) (mkModel (sm_world m) (sm_grid m) (fst (clock_advance (sm_clock m))) (sm_archived m))
      (fun g0 w g => ran_whole E WB names (step_used dt m) (mkModel (sm_world m) (sm_grid m) (fst (clock_advance (sm_clock m))) (sm_archived m)) g0 w g Hi))
      as (pr' & K & Kp & _ & Ea & Kr).
    assert (Es' : run_one_step pr' dt m = Stepped m').
    { rewrite <- Es. unfold run_one_step. fold (step_used dt m). destruct (clock_advance (sm_clock m)) as [c stop]. cbn [fst] in Ea. rewrite Ea. reflexivity. }
    assert (Af : after_components pr' (step_used dt m) m g) by (exists g0, ps; split; [exact Ec|]; rewrite <- Er0; exact (Kr g0 Ec)).
    assert (Du : step_used dt m = match dt with Some d => if neqb d n0 then ck_step (sm_clock m) else d | None => ck_step (sm_clock m) end) by reflexivity.
    destruct (step_laid pr' dt (step_used dt m) m m' g K (proj1 (proj1 Hi)) Es' Du Af) as (W' & R' & C' & h & Eh & Hl).
    pose proof (clear_adds _ _ (proj1 (proj1 Hi)) Ec) as A0. 
    destruct (run_counts _ names names _ _ _ _ (incl_refl _) (sound_adds _ _ _ _ (proj2 Hi) A0) Er) as [N1 C1].
    assert (L0 : layers g0 = layers (sm_grid m)) by exact (proj2 (proj2 (proj2 (proj2 (proj2 (proj2 (proj2 (cleared_any _ _ Ec)))))))).
    destruct (ran_whole E WB names (step_used dt m) m g0 ps g Hi Ec Er) as ((M1 & _) & R1 & Cc1).
    destruct A0 as (_ & R0 & C0 & _).
    assert (Sh : shaped (g_rows (sm_grid m)) (g_cols (sm_grid m) - 2) (el_stacks (layers g))).
    { destruct M1 as (_ & _ & _ & _ & S). rewrite R1, Cc1, R0, C0 in S. exact S. }
    assert (B1 : (sm_archived m <= el_number (layers g))%nat) by (rewrite N1, L0; exact Ha).
    assert (B2 : forall i j, (i < g_rows (sm_grid m))%nat -> (j < g_cols (sm_grid m) - 2)%nat -> length (at2 [] (el_stacks (layers g)) i j) = el_number (layers g)).
    { intros i j Hi' Hj'. rewrite N1, L0. rewrite <- (Hc i j Hi' Hj'). specialize (C1 i j). unfold counts in *. rewrite C1, L0. reflexivity. }
    destruct (laid_newest h (sm_archived m) (layers g) _ _ _ _ Sh B1 B2 Eh) as [Ha' Hn'].
    split.
    { split; [exact Ha'|]. rewrite R', C'. intros i j Hi' Hj'. exact (proj1 (Hn' i j Hi' Hj')). }
    destruct (run_turns E _ _ _ _ _ _ Nd Er) as (_ & gs & L & H0 & Hlast & Kt).
    exists gs. split.
    { split; [exact L|]. split; [exists g0; split; [exact H0|apply cleared_any, Ec]|]. unfold object. rewrite Ew. exact Kt. }
    intros i j Hi' Hj'. exists (cell_of i j h). split.
    - assert (Lg : last gs (sm_grid m) = g). { rewrite <- Hlast. destruct gs; [discriminate|]. apply last_any. }
      rewrite Lg. specialize (Hl i j Hi' Hj'). rewrite Kp in Hl. exact Hl.
    - unfold newest_layer. apply Hn'; assumption.
  Qed.

  Lemma load_counted params text names ctx c (g0 : grid R) names' m : load_grid params (Some (read_bathymetry text)) = Ok g0 ->
    (2 <= g_cols g0)%nat -> (0 < g_rows g0)%nat -> (0 < g_dx g0)%R ->
    load_model E params (read_bathymetry text) names ctx c = Ok (names', m) -> counted m.
  Proof.
    intros El Hc Hr Hd Em. destruct (load_parts _ _ _ _ _ _ _ _ Em) as (g1 & ps & g & El' & Ep & Ei & _). rewrite El in El'. assert (g1 = g0) by congruence. subst g1.
    destruct (loaded_whole _ _ _ El Hc) as (W & L & B). assert (S : solid g0) by (split; [exact W|]; auto).
    destruct (loaded_parts E WB _ _ _ _ _ S Ep) as (A1 & L1 & _). destruct A1 as (W1 & R1 & C1 & _).
    assert (L2 : layers g = el_empty (g_rows g) (g_cols g - 2)) by congruence.
    destruct (model_init_laid _ _ _ _ _ W1 L2 Ei) as (_ & R2 & C2 & h & Eh & _). unfold layer_run in Eh. cbn [foldM] in Eh.
    destruct (add_and_archive (fst h) (snd h) _) as [[a el]|] eqn:Ea; cbn [bind] in Eh; [|discriminate].
    assert (Y : a = sm_archived m /\ el = layers (sm_grid m)) by (split; congruence). destruct Y as [-> ->].
    assert (B2 : forall i j, (i < g_rows g)%nat -> (j < g_cols g - 2)%nat ->
      length (at2 [] (el_stacks (el_empty (A := R) (g_rows g) (g_cols g - 2))) i j) = el_number (el_empty (A := R) (g_rows g) (g_cols g - 2))).
    { intros i j Hi Hj. cbn [el_empty el_stacks el_number]. rewrite at2_full by assumption. reflexivity. }
    destruct (laid_newest h 0 (el_empty (g_rows g) (g_cols g - 2)) _ _ (g_rows g) (g_cols g - 2) (shaped_full _ _ _) (le_n 0) B2 Ea) as [H1 H2].
    split; [exact H1|]. rewrite R2, C2. intros i j Hi Hj. apply H2; assumption.
  Qed.
  Lemma reached_counted names m0 m : NoDup names -> inv names m0 -> counted m0 -> reached E names m0 m -> inv names m /\ counted m.
  Proof.
    intros Nd H0 C0 Hr. induction Hr as [|m dt m' Hr IH Es|m dt m' Hr IH Es|m params m' Hr IH Es]; [auto| | |]; destruct IH as [Hi Hb].
    - pose proof (stepped_inv E WB names dt m Hi) as S. rewrite Es in S. split; [exact S|]. exact (proj1 (step_newest names dt m m' Nd Hi Hb Es)).
    - pose proof (stepped_inv E WB names dt m Hi) as S. rewrite Es in S. split; [exact S|]. destruct (stop_world _ _ _ _ _ Es) as (_ & Eg & Ea). unfold counted. rewrite Eg, Ea. exact Hb.
    - destruct (set_inv E WB names params m m' Hi Es) as (S & L & Ad & _ & N). split; [exact S|].
      destruct (set_in_order _ _ _ _ Es) as (_ & Ea & _). destruct Ad as (_ & R1 & C1 & _). destruct Hb as [B1 B2].
      unfold counted, counts. rewrite Ea, L, R1, C1. split; [exact B1|exact B2].
  Qed.

  (* the compaction is one of the classes that are not modelled *)
  Definition compacts (m : smodel R (parts R X)) : Prop := forall p, object m "compaction" = Some p -> exists x, p = Extra x.
  Lemma kind_compacts m m' : compacts m -> (forall p', object m' "compaction" = Some p' -> exists p, object m "compaction" = Some p /\ part_kind p' = part_kind p) -> compacts m'.
  Proof.
    intros C H p' Hp. destruct (H p' Hp) as (p & Ho & Hk). destruct (C p Ho) as [x ->]. destruct p' as [q|y]; [discriminate|eauto].
  Qed.
  Lemma load_compacts params read names ctx c names' m : load_model E params read names ctx c = Ok (names', m) -> compacts m.
  Proof.
    intros H p Hp. destruct (load_parts _ _ _ _ _ _ _ _ H) as (g0 & ps & g & _ & El & Em & ->). destruct (init_world _ _ _ _ _ Em) as [Ew _].
    unfold object in Hp. rewrite Ew in Hp. cbn [pr_set_sea_time named_processes] in Hp.
    assert (Hp' : dget String.eqb ps "compaction" = Some p).
    { revert Hp. unfold set_sea_time. destruct (dget String.eqb ps "sea_level") as [[[]|]|]; auto; rewrite (dget_dset _ String.eqb_eq);
        change (String.eqb "compaction" "sea_level") with false; auto. }
    destruct (load_made E (fun _ => True) (fun _ _ _ _ _ _ _ => Logic.I) _ _ _ _ _ Logic.I El) as (_ & _ & M). destruct (M _ _ Hp') as (_ & cls & h & h' & _ & Hc & Hm).
    assert (Ok cls = Ok "Compact"). { rewrite <- Hc. unfold process_class. reflexivity. }
    assert (cls = "Compact") by congruence. subst cls. apply made_kind in Hm. destruct p as [q|x]; [|eauto]. discriminate Hm.
  Qed.
  Lemma kind_object (m : smodel R (parts R X)) n : kind (sm_world m) n = match object m n with Some p => part_kind p | None => None end.
  Proof. apply kind_is. Qed.
  Lemma reached_compacts names m0 m : keyed names m0 -> compacts m0 -> reached E names m0 m -> compacts m.
  Proof.
    intros K0 C0 Hr. assert (Y : forall n, kind (sm_world m) n = kind (sm_world m0) n /\ (object m n <> None <-> object m0 n <> None)).
    { induction Hr as [|m dt m' Hr IH Es|m dt m' Hr IH Es|m params m' Hr IH Es]; intros n; [split; reflexivity| | |]; destruct (IH n) as [I1 I2].
      - destruct (stepped _ _ _ _ _ Es) as (_ & g & ps & h & el & h' & _ & Er & Ew & _). unfold object. rewrite Ew.
        rewrite (run_kind E _ _ _ _ _ _ n Er), (run_keys E _ _ _ _ _ _ n Er). auto.
      - destruct (stop_world _ _ _ _ _ Es) as [W _]. unfold object. rewrite W. auto.
      - destruct (set_in_order _ _ _ _ Es) as (_ & _ & _ & Y & _). rewrite Y. split; [|exact I2]. rewrite set_model_is in Es.
        destruct (foldM _ params _) as [[ps g]|] eqn:Ef; cbn [bind] in Es; [|discriminate]. assert (Z : sm_world m' = ps) by (injection Es; intros <-; reflexivity). 
        rewrite Z, (set_all_kind E _ n _ _ _ _ Ef). exact I1. }
    intros p Hp. destruct (Y "compaction") as [Y1 Y2]. rewrite !kind_object, Hp in Y1.
    destruct (object m0 "compaction") as [p0|] eqn:O; [|exfalso; assert (Z : object m "compaction" <> None) by (rewrite Hp; discriminate); apply (proj1 Y2 Z); reflexivity].
    destruct (C0 p0 O) as [x ->]. destruct p as [q|y]; [discriminate|eauto].
  Qed.

  Theorem lays_layer params text names ctx c (g0 : grid R) names' m0 m dt m' : load_grid params (Some (read_bathymetry text)) = Ok g0 ->
    (2 <= g_cols g0)%nat -> (0 < g_rows g0)%nat -> (0 < g_dx g0)%R ->
    load_model E params (read_bathymetry text) names ctx c = Ok (names', m0) -> reached E names' m0 m ->
    run_one_step (named_processes E names') dt m = Stepped m' ->
    exists gs porosity, in_order E (step_used dt m) names' m m' gs /\ porosity_is E names' m' porosity
      /\ forall i j, (i < g_rows (sm_grid m))%nat -> (j < g_cols (sm_grid m) - 2)%nat ->
         exists l, step_lays i j (ck_time (sm_clock m'), porosity, last gs (sm_grid m)) l
           /\ newest_layer (sm_grid m') i j = mkCell (Rmax (fst l) 0) (snd l).
  Proof.
    intros El Hc Hr Hd Em Hre Es. pose proof (proj1 (load_fine E WB _ _ _ _ _ _ _ _ El Hc Hr Hd Em)) as I0.
    pose proof (load_counted _ _ _ _ _ _ _ _ El Hc Hr Hd Em) as C0. assert (Nd : NoDup names') by (rewrite (loaded_names _ _ _ _ _ _ _ _ Em); apply once_NoDup).
    destruct (reached_counted _ _ _ Nd I0 C0 Hre) as [Hi Hct]. destruct (step_newest _ _ _ _ Nd Hi Hct Es) as (_ & gs & Ho & Hl).
    exists gs, (new_porosity E (sm_world m')). split; [exact Ho|]. split; [|exact Hl].
    pose proof (reached_step E names' m0 m dt m' Hre Es) as Hre'.
    pose proof (proj2 (objects_listed E _ _ _ _ _ _ _ _ Em Hre') "compaction") as Kc.
    pose proof (reached_compacts _ _ _ (load_keyed E _ _ _ _ _ _ _ Em) (load_compacts _ _ _ _ _ _ _ Em) Hre') as Cm.
    unfold new_porosity. fold (object m' "compaction"). split.
    - intros N. destruct (object m' "compaction") as [p|] eqn:O; [|reflexivity]. exfalso. apply N, Kc. discriminate.
    - intros Y. apply Kc in Y. destruct (object m' "compaction") as [p|] eqn:O; [|contradiction]. destruct (Cm p O) as [x ->]. exists x. split; reflexivity.
  Qed.
End L.
