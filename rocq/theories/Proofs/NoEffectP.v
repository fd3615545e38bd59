(** Parameters that have no effect. *)
From Coq Require Import String List ZArith QArith Bool Arith Lia.
From Verif.Base Require Import Num Py Arr.
From Verif.Model Require Import Layers Grid Interp Shoreline SeaLevel Subsidence Flexure Submarine Fluvial Sequence SequenceModel Setattr Processes Whole.
From Verif.Spec Require Import Session.
From Verif.Proofs Require Import ProcessesP.
Import ListNotations.
Local Open Scope string_scope.
Local Open Scope list_scope.

Section Sections.
  Context {V : Type} (veqb : V -> V -> bool).
  Notation agree := (@agree_but V).
  Lemma agree_refl keys s : agree keys s s.
  Proof. induction s as [|a s IH]; constructor; auto. Qed.
  Lemma agree_dset keys s s' k v : agree keys s s' -> agree keys (dset String.eqb s k v) (dset String.eqb s' k v).
  Proof.
    intros H. induction H as [|[a x] [b y] l l' [H1 H2] H IH]; [constructor; [auto|constructor]|].
    cbn [dset fst snd] in *. subst b. destruct (String.eqb k a); constructor; auto.
  Qed.
  Lemma agree_get keys s s' k : agree keys s s' -> ~ In k keys -> dget String.eqb s k = dget String.eqb s' k.
  Proof.
    intros H N. induction H as [|[a x] [b y] l l' [H1 H2] H IH]; [reflexivity|]. cbn [dget fst snd] in *. subst b.
    destruct (String.eqb k a) eqn:Y; [|exact IH]. apply String.eqb_eq in Y. subst a. destruct H2 as [H2| ->]; [contradiction|reflexivity].
  Qed.
  Lemma agree_nil s s' : agree [] s s' -> s = s'.
  Proof. induction 1 as [|[a x] [b y] l l' [H1 [[]|H2]] H IH]; [reflexivity|]. cbn in *. congruence. Qed.
  Lemma agree_dupdate keys (m : section V) : forall s s', agree keys s s' -> agree keys (dupdate String.eqb s m) (dupdate String.eqb s' m).
  Proof. induction m as [|[k v] m IH]; intros s s' H; [exact H|]. unfold dupdate. cbn [fold_left fst snd]. apply IH, agree_dset, H. Qed.

  Definition pair_free (but : string -> list string) (pair : string * string * list string) : Prop :=
    forall k, In k (snd pair) -> ~ In k (but (fst (fst pair))) /\ ~ In k (but (snd (fst pair))).
  Definition agrees (but : string -> list string) (ps ps' : context V) : Prop := forall n, agree (but n) (params_of ps n) (params_of ps' n).
  Lemma match_values_same d1 d2 d1' d2' keys : (forall k, In k keys -> dget String.eqb d1 k = dget String.eqb d1' k /\ dget String.eqb d2 k = dget String.eqb d2' k) ->
    match_values veqb d1 d2 keys = match_values veqb d1' d2' keys.
  Proof.
    intros H. unfold match_values. assert (Y : forall st, fold_left (match_key veqb d1 d2) keys st = fold_left (match_key veqb d1' d2') keys st).
    { induction keys as [|k keys IH]; intros st; [reflexivity|]. cbn [fold_left]. rewrite IH by (intros k' Hk'; apply H; right; exact Hk').
      f_equal. unfold match_key. destruct (H k (or_introl eq_refl)) as [-> ->]. reflexivity. }
    rewrite Y. reflexivity.
  Qed.
  Lemma match_pair_agrees but pair st st' : pair_free but pair -> agrees but (fst st) (fst st') ->
    agrees but (fst (match_pair veqb st pair)) (fst (match_pair veqb st' pair)).
  Proof.
    intros F H. destruct pair as [[d1 d2] keys]. unfold match_pair.
    rewrite (match_values_same (params_of (fst st) d1) (params_of (fst st) d2) (params_of (fst st') d1) (params_of (fst st') d2)).
    2:{ intros k Hk. destruct (F k Hk) as [F1 F2]. split; [exact (agree_get _ _ _ _ (H d1) F1)|exact (agree_get _ _ _ _ (H d2) F2)]. }
    destruct (match_values _ _ _ _) as [m|ks]; [|exact H]. cbn [fst]. intros n. rewrite !params_of_dset.
    destruct (String.eqb n d2) eqn:N2.
    - apply String.eqb_eq in N2. subst n. apply agree_dupdate. destruct (String.eqb d2 d1) eqn:N1; [|apply H].
      apply String.eqb_eq in N1. subst d2. apply agree_dupdate, H.
    - destruct (String.eqb n d1) eqn:N1; [|apply H]. apply String.eqb_eq in N1. subst n. apply agree_dupdate, H.
  Qed.
  Lemma matched_agrees but ctx ctx' names : Forall (pair_free but) params_to_match -> agrees but ctx ctx' ->
    agrees but (fst (match_params veqb (own_params ctx names))) (fst (match_params veqb (own_params ctx' names))).
  Proof.
    intros F H. unfold match_params.
    assert (Y : forall st st', agrees but (fst st) (fst st') -> agrees but (fst (fold_left (match_pair veqb) params_to_match st)) (fst (fold_left (match_pair veqb) params_to_match st'))).
    { induction F as [|p l Hp F IH]; intros st st' Hs; [exact Hs|]. cbn [fold_left]. apply IH, match_pair_agrees; assumption. }
    apply Y. cbn [fst]. intros n. rewrite !own_params_of. destruct (existsb _ names); [apply H|apply agree_refl].
  Qed.
End Sections.

Section P.
  Context {A X : Type} {num : Num A} {tr : Trans A} (E : externals A X).

  Definition twin (p p' : part A X) : Prop :=
    p = p' \/ exists d d' k c, p = Ours (PFlexure d k c) /\ p' = Ours (PFlexure d' k c).
  Definition twins (ps ps' : parts A X) : Prop := Forall2 (fun a b => fst a = fst b /\ twin (snd a) (snd b)) ps ps'.

  Lemma twins_get ps ps' n : twins ps ps' ->
    match dget String.eqb ps n, dget String.eqb ps' n with Some p, Some p' => twin p p' | None, None => True | _, _ => False end.
  Proof.
    intros H. induction H as [|[a p] [b q] l l' [H1 H2] _ IH]; [exact I|]. cbn [dget fst snd] in *. subst b. destruct (String.eqb n a); [exact H2|exact IH].
  Qed.
  Lemma twins_put ps ps' n p p' : twins ps ps' -> twin p p' -> twins (dset String.eqb ps n p) (dset String.eqb ps' n p').
  Proof.
    intros H T. induction H as [|[a q] [b q'] l l' [H1 H2] H IH]; [constructor; [split; [reflexivity|exact T]|constructor]|].
    cbn [dset fst snd] in *. subst b. destruct (String.eqb n a); [constructor; [split; [reflexivity|exact T]|exact H]|].
    constructor; [split; [reflexivity|exact H2]|exact IH].
  Qed.
  Lemma twins_names ps ps' : twins ps ps' -> map fst ps = map fst ps'.
  Proof. induction 1 as [|? ? ? ? [H _] _ IH]; [reflexivity|]. cbn. rewrite H, IH. reflexivity. Qed.

  Definition twin_result (r r' : result (part A X * grid A)) : Prop :=
    match r, r' with Ok (p, g), Ok (p', g') => twin p p' /\ g = g' | Err e, Err e' => e = e' | _, _ => False end.
  Lemma twin_refl r : twin_result r r.
  Proof. destruct r as [[p g]|e]; [split; [left|]|]; reflexivity. Qed.
  Lemma twin_step dt p p' g : twin p p' -> twin_result (part_step E dt (p, g)) (part_step E dt (p', g)).
  Proof.
    intros [->|(d & d' & k0 & c & -> & ->)]; [apply twin_refl|]. unfold part_step. cbn [fst snd process_step].
    destruct (sed_flexure_step _ _ dt c g) as [[c1 g1]|]; cbn [bind]; [|reflexivity]. split; [|reflexivity]. right. eauto 8.
  Qed.
  Lemma twin_set n v p p' g : twin p p' -> twin_result (part_set E n v (p, g)) (part_set E n v (p', g)).
  Proof.
    intros [->|(d & d' & k0 & c & -> & ->)]; [apply twin_refl|]. unfold part_set. cbn [fst snd set_attribute].
    assert (T : forall e e' l, twin (Ours (PFlexure e l c)) (Ours (PFlexure e' l c))) by (intros e e' l; right; eauto 8).
    repeat match goal with |- context [if ?b then _ else _] => destruct b end;
      try (cbn [bind]; split; [apply T|reflexivity]); try reflexivity;
      destruct (as_number v) as [x|]; cbn [bind]; try reflexivity;
      unfold set_sand_density, set_mud_density, set_water_density; destruct (validate_density x); cbn [bind]; [split; [apply T|]| | split; [apply T|] | | split; [apply T|] |]; reflexivity.
  Qed.

  Definition twin_world (r r' : result (parts A X * grid A)) : Prop :=
    match r, r' with Ok (p, g), Ok (p', g') => twins p p' /\ g = g' | Err e, Err e' => e = e' | _, _ => False end.
  Lemma twin_run dt : forall names ps ps' g, twins ps ps' ->
    twin_world (run_components (map (step_of E) names) dt (ps, g)) (run_components (map (step_of E) names) dt (ps', g)).
  Proof.
    unfold run_components. induction names as [|n names IH]; intros ps ps' g H; [split; [exact H|reflexivity]|]. cbn [map foldM]. unfold step_of at 1 3. cbn [fst snd].
    pose proof (twins_get ps ps' n H) as G. destruct (dget String.eqb ps n) as [p|], (dget String.eqb ps' n) as [p'|]; try contradiction; [|reflexivity].
    pose proof (twin_step dt p p' g G) as S. destruct (part_step E dt (p, g)) as [[q h]|], (part_step E dt (p', g)) as [[q' h']|]; try contradiction; cbn [bind].
    - destruct S as [S <-]. apply IH, twins_put; assumption.
    - exact S.
  Qed.
  Lemma twin_porosity ps ps' : twins ps ps' -> new_porosity E ps = new_porosity E ps'.
  Proof.
    intros H. unfold new_porosity. pose proof (twins_get ps ps' "compaction" H) as G.
    destruct (dget String.eqb ps "compaction") as [p|], (dget String.eqb ps' "compaction") as [p'|]; try contradiction; [|reflexivity].
    destruct G as [->|(d & d' & k0 & c & -> & ->)]; reflexivity.
  Qed.
  Lemma twin_time t ps ps' : twins ps ps' -> twins (set_sea_time t ps) (set_sea_time t ps').
  Proof.
    intros H. unfold set_sea_time. pose proof (twins_get ps ps' "sea_level" H) as G.
    destruct (dget String.eqb ps "sea_level") as [p|], (dget String.eqb ps' "sea_level") as [p'|]; try contradiction; [|exact H].
    destruct G as [->|(d & d' & k0 & c & -> & ->)]; [|exact H].
    destruct p' as [[]|]; try exact H; apply twins_put; try exact H; left; reflexivity.
  Qed.

  Definition twin_model (m m' : smodel A (parts A X)) : Prop :=
    twins (sm_world m) (sm_world m') /\ sm_grid m = sm_grid m' /\ sm_clock m = sm_clock m' /\ sm_archived m = sm_archived m'.
  Lemma twin_advance names dt m m' : twin_model m m' ->
    match advance_components (named_processes E names) dt m, advance_components (named_processes E names) dt m' with
    | Ok a, Ok b => twin_model a b | Err e, Err e' => e = e' | _, _ => False end.
  Proof.
    intros (Hw & Hg & Hc & Ha). unfold advance_components. rewrite <- Hg. destruct (clear_deposit (sm_grid m)) as [g|]; cbn [bind]; [|reflexivity].
    cbn [pr_components pr_porosity named_processes]. pose proof (twin_run dt names (sm_world m) (sm_world m') g Hw) as R.
    destruct (run_components _ dt (sm_world m, g)) as [[w h]|], (run_components _ dt (sm_world m', g)) as [[w' h']|]; try contradiction; cbn [bind]; [|exact R].
    destruct R as [Rw <-]. rewrite <- (twin_porosity _ _ Rw), <- Hc, <- Ha.
    destruct (node_r h _) as [dz|]; cbn [bind]; [|reflexivity]. destruct (layer_properties _ _ _) as [lp|]; cbn [bind]; [|reflexivity].
    destruct (el_add _ _ _) as [el|]; cbn [bind]; [|reflexivity]. destruct (update_fields _) as [gg|]; cbn [bind]; [|reflexivity].
    destruct (Archive.archive _) as [na el']. split; [exact Rw|]. auto.
  Qed.
  Lemma twin_one names dt m m' : twin_model m m' ->
    match run_one_step (named_processes E names) dt m, run_one_step (named_processes E names) dt m' with
    | Stepped a, Stepped b | ClockStop a, ClockStop b => twin_model a b | Raised e, Raised e' => e = e' | _, _ => False end.
  Proof.
    intros (Hw & Hg & Hc & Ha). unfold run_one_step. cbv zeta. rewrite <- Hc. destruct (clock_advance (sm_clock m)) as [c stop].
    set (m1 := mkModel (sm_world m) (sm_grid m) c (sm_archived m)). set (m1' := mkModel (sm_world m') (sm_grid m') c (sm_archived m')).
    assert (T : twin_model m1 m1') by (split; [exact Hw|]; auto). destruct stop; [exact T|].
    match goal with |- context [advance_components _ ?d m1] => pose proof (twin_advance names d m1 m1' T) as Y end.
    destruct (advance_components _ _ m1), (advance_components _ _ m1'); try contradiction; exact Y.
  Qed.
  Lemma twin_sets kvs : forall p p' g, twin p p' ->
    twin_result (foldM (fun pg kv => part_set E (fst kv) (snd kv) pg) kvs (p, g)) (foldM (fun pg kv => part_set E (fst kv) (snd kv) pg) kvs (p', g)).
  Proof.
    induction kvs as [|[k v] kvs IH]; intros p p' g T; [split; [exact T|reflexivity]|]. cbn [foldM fst snd].
    pose proof (twin_set k v p p' g T) as S. destruct (part_set E k v (p, g)) as [[q h]|], (part_set E k v (p', g)) as [[q' h']|]; try contradiction; cbn [bind]; [|exact S].
    destruct S as [S <-]. apply IH, S.
  Qed.
  Lemma twin_params params m m' : twin_model m m' ->
    match set_model_params E params m, set_model_params E params m' with Ok a, Ok b => twin_model a b | Err e, Err e' => e = e' | _, _ => False end.
  Proof.
    intros (Hw & Hg & Hc & Ha). unfold set_model_params. rewrite <- Hg, <- Hc, <- Ha.
    match goal with |- context [foldM ?f params (sm_world m, sm_grid m)] => set (F := f) end.
    assert (Y : forall l ps ps' g, twins ps ps' -> twin_world (foldM F l (ps, g)) (foldM F l (ps', g))).
    { induction l as [|[n kvs] l IH]; intros ps ps' g H; [split; [exact H|reflexivity]|]. cbn [foldM]. unfold F at 1 3. cbn [fst snd].
      pose proof (twins_get ps ps' n H) as G. destruct (dget String.eqb ps n) as [p|], (dget String.eqb ps' n) as [p'|]; try contradiction; [|reflexivity].
      pose proof (twin_sets kvs p p' g G) as S. destruct (foldM _ kvs (p, g)) as [[q h]|], (foldM _ kvs (p', g)) as [[q' h']|]; try contradiction; cbn [bind]; [|exact S].
      destruct S as [S <-]. apply IH, twins_put; assumption. }
    specialize (Y params (sm_world m) (sm_world m') (sm_grid m) Hw).
    destruct (foldM F params (sm_world m, sm_grid m)) as [[w h]|], (foldM F params (sm_world m', sm_grid m)) as [[w' h']|]; try contradiction; cbn [bind]; [|exact Y].
    destruct Y as [Y <-]. split; [exact Y|]. auto.
  Qed.
  Lemma twin_session names : forall calls m m', twin_model m m' -> session E names calls m = session E names calls m'.
  Proof.
    induction calls as [|[dt|params] calls IH]; intros m m' T; [reflexivity| |]; cbn [session].
    - pose proof (twin_one names dt m m' T) as Y. destruct (run_one_step _ dt m) as [a|a|e], (run_one_step _ dt m') as [b|b|e']; try contradiction.
      + rewrite (IH a b Y). destruct Y as (_ & -> & -> & _). reflexivity.
      + rewrite (IH a b Y). reflexivity.
      + rewrite Y. reflexivity.
    - pose proof (twin_params params m m' T) as Y. destruct (set_model_params E params m) as [a|e], (set_model_params E params m') as [b|e']; try contradiction.
      + rewrite (IH a b Y). destruct Y as (_ & -> & -> & _). reflexivity.
      + rewrite Y. reflexivity.
  Qed.

  (** ** creating *)
  Lemma kwd_same but (s s' : section (pvalue A)) k d : agree_but but s s' -> ~ In k but -> kwd s k d = kwd s' k d.
  Proof. intros H N. unfold kwd. rewrite (agree_get _ _ _ _ H N). reflexivity. Qed.
  Lemma keys_same but (s s' : section (pvalue A)) (f : string -> bool) : agree_but but s s' -> forallb (fun kv => f (fst kv)) s = forallb (fun kv => f (fst kv)) s'.
  Proof. induction 1 as [|[a x] [b y] l l' [H1 _] H IH]; [reflexivity|]. cbn [forallb fst] in *. subst b. rewrite IH. reflexivity. Qed.

  Lemma passed_same but (s s' : section (pvalue A)) : agree_but but s s' -> (forall k, In k flexure1d -> ~ In k but) -> passed_on s = passed_on s'.
  Proof.
    intros H F. unfold passed_on, those_of, flexure1d in *. cbn [flat_map]. rewrite !(agree_get _ _ _ _ H) by (apply F; cbn; auto 8). reflexivity.
  Qed.
  Definition known_class (params : context (pvalue A)) (n cls : string) := process_class params n = Ok cls.
  Lemma made_twin params params' n cls (g : grid A) p h p' h' : agrees without_effect params params' -> process_class params n = Ok cls ->
    make E cls (params_of params n) g = Ok (p, h) -> make E cls (params_of params' n) g = Ok (p', h') -> twin p p' /\ h = h'.
  Proof.
    intros H Hc Hm Hm'. specialize (H n).
    destruct (String.eqb n "flexure") eqn:N1; [|destruct (String.eqb n "fluvial") eqn:N2].
    - apply String.eqb_eq in N1. subst n. assert (Y : cls = "SedimentFlexure") by (cbn in Hc; congruence). subst cls.
      change (without_effect "flexure") with ["sand_density"; "mud_density"; "water_density"] in H.
      unfold make in Hm, Hm'. change (class_named "SedimentFlexure") with (Some SedimentFlexure) in *. cbv iota in Hm, Hm'.
      unfold construct in Hm, Hm'. rewrite (keys_same _ _ _ (fun k => existsb (String.eqb k) (parameters SedimentFlexure)) H) in Hm.
      destruct (negb _); [discriminate|]. rewrite (kwd_same _ _ _ "isostasytime" _ H) in Hm by (cbn; intuition discriminate).
      repeat match type of Hm with context [kwd ?a ?b ?c] => destruct (kwd a b c); cbn [bind] in Hm; [|discriminate] end.
      repeat match type of Hm' with context [kwd ?a ?b ?c] => destruct (kwd a b c); cbn [bind] in Hm'; [|discriminate] end.
      match type of Hm with context [densities_init ?a ?b ?c] => destruct (densities_init a b c) as [d|]; cbn [bind] in Hm; [|discriminate] end.
      match type of Hm' with context [densities_init ?a ?b ?c] => destruct (densities_init a b c) as [d'|]; cbn [bind] in Hm'; [|discriminate] end.
      match type of Hm with context [sed_flexure_init ?a ?b] => destruct (sed_flexure_init a b) as [[c k]|]; cbn [bind] in Hm, Hm'; [|discriminate] end.
      rewrite (passed_same _ _ _ H) in Hm by (intros k0 Hk; cbn in Hk |- *; intuition (subst; discriminate)).
      injection Hm as <- <-. injection Hm' as <- <-. split; [right; eauto 8|reflexivity].
    - apply String.eqb_eq in N2. subst n. assert (Y : cls = "Fluvial") by (cbn in Hc; congruence). subst cls.
      change (without_effect "fluvial") with ["sea_level"] in H.
      unfold make in Hm, Hm'. change (class_named "Fluvial") with (Some Fluvial) in *. cbv iota in Hm, Hm'.
      unfold construct in Hm, Hm'. rewrite (keys_same _ _ _ (fun k => existsb (String.eqb k) (parameters Fluvial)) H) in Hm.
      destruct (negb _); [discriminate|].
      rewrite (kwd_same _ _ _ "sand_frac" _ H), (kwd_same _ _ _ "wave_base" _ H), (kwd_same _ _ _ "sediment_load" _ H), (kwd_same _ _ _ "sand_density" _ H),
        (kwd_same _ _ _ "plain_slope" _ H), (kwd_same _ _ _ "hemipelagic" _ H) in Hm by (cbn; intuition discriminate).
      repeat match type of Hm' with context [kwd ?a ?b ?c] => destruct (kwd a b c); cbn [bind] in Hm, Hm'; [|discriminate] end.
      repeat match type of Hm with context [kwd ?a ?b ?c] => destruct (kwd a b c); cbn [bind] in Hm; [|discriminate] end.
      unfold fluvial_init in Hm, Hm'. cbn [bind] in Hm, Hm'. injection Hm as <- <-. injection Hm' as <- <-. split; [left; reflexivity|reflexivity].
    - unfold without_effect in H. rewrite N1, N2 in H. apply agree_nil in H. rewrite H in Hm. rewrite Hm in Hm'. injection Hm' as <- <-. split; [left; reflexivity|reflexivity].
  Qed.

  Lemma class_same params params' n : agrees without_effect params params' -> @process_class (pvalue A) params n = process_class params' n.
  Proof.
    intros H. unfold process_class. assert (Y : din String.eqb (params_of params "sea_level") "filepath" = din String.eqb (params_of params' "sea_level") "filepath").
    { rewrite (agree_nil _ _ (H "sea_level")). reflexivity. }
    rewrite Y. reflexivity.
  Qed.

  Lemma loaded_twins params params' : agrees without_effect params params' ->
    let f params := fun (st : list (string * part A X) * grid A) name =>
      let* cls := process_class params name in
      let* (p, g) := make E cls (params_of params name) (snd st) in
      Ok (fst st ++ [(name, p)], g) in
    forall names objs objs' g r h r' h', twins objs objs' ->
    foldM (f params) names (objs, g) = Ok (r, h) -> foldM (f params') names (objs', g) = Ok (r', h') -> twins r r' /\ h = h'.
  Proof.
    intros H f. induction names as [|n names IH]; intros objs objs' g r h r' h' T Hf Hf'.
    - cbn in Hf, Hf'. injection Hf as <- <-. injection Hf' as <- <-. auto.
    - cbn [foldM] in Hf, Hf'. unfold f at 1 in Hf. unfold f at 1 in Hf'. cbn [fst snd] in Hf, Hf'.
      rewrite <- (class_same _ _ n H) in Hf'. destruct (process_class params n) as [cls|] eqn:Ec; [|discriminate]. cbn [bind] in Hf, Hf'.
      destruct (make E cls (params_of params n) g) as [[p k]|] eqn:Em; [|discriminate]. destruct (make E cls (params_of params' n) g) as [[p' k']|] eqn:Em'; [|discriminate].
      cbn [bind] in Hf, Hf'. destruct (made_twin _ _ _ _ _ _ _ _ _ H Ec Em Em') as [Tp <-].
      refine (IH _ _ _ _ _ _ _ _ Hf Hf'). apply Forall2_app; [exact T|]. constructor; [|constructor]. split; [reflexivity|exact Tp].
  Qed.
  Lemma dupdate_twins : forall (r r' : list (string * part A X)) d d', twins r r' -> twins d d' -> twins (dupdate String.eqb d r) (dupdate String.eqb d' r').
  Proof.
    intros r r' d d' T. revert d d'. induction T as [|[a p] [b q] l l' [H1 H2] _ IH]; intros d d' D; [exact D|].
    unfold dupdate. cbn [fold_left fst snd] in *. subst b. apply IH, twins_put; assumption.
  Qed.

  Lemma pairs_free : Forall (pair_free without_effect) params_to_match.
  Proof. unfold params_to_match. repeat apply Forall_cons; try apply Forall_nil; intros k Hk; cbn in Hk; intuition (subst; cbn in *; intuition discriminate). Qed.

  Theorem no_effect params read names ctx ctx' c names1 m names1' m' calls :
    (forall n, agree_but (without_effect n) (section_of ctx n) (section_of ctx' n)) ->
    load_model E params read names ctx c = Ok (names1, m) -> load_model E params read names ctx' c = Ok (names1', m') ->
    names1 = names1' /\ sm_grid m = sm_grid m' /\ session E names1 calls m = session E names1' calls m'.
  Proof.
    intros H Hl Hl'. unfold load_model in Hl, Hl'. destruct (load_grid params (Some read)) as [g|]; [|discriminate]. cbn [bind] in Hl, Hl'.
    destruct (load_processes same_value (make E) g names ctx) as [[ps g1]|] eqn:Ep; [|discriminate].
    destruct (load_processes same_value (make E) g names ctx') as [[ps' g1']|] eqn:Ep'; [|discriminate]. cbn [bind] in Hl, Hl'.
    assert (T : twins ps ps' /\ g1 = g1').
    { unfold load_processes in Ep, Ep'. cbv zeta in Ep, Ep'.
      match type of Ep with bind ?r _ = _ => destruct r as [[o k]|] eqn:Ef; [|discriminate] end.
      match type of Ep' with bind ?r _ = _ => destruct r as [[o' k']|] eqn:Ef'; [|discriminate] end.
      cbn [bind] in Ep, Ep'. injection Ep as <- <-. injection Ep' as <- <-.
      pose proof (matched_agrees same_value without_effect ctx ctx' (with_required names) pairs_free H) as Ha.
      destruct (loaded_twins _ _ Ha _ _ _ _ _ _ _ _ (Forall2_nil _) Ef Ef') as [T <-]. split; [|reflexivity].
      apply dupdate_twins; [exact T|constructor]. }
    destruct T as [T <-]. pose proof (twins_names _ _ T) as Hn. rewrite <- Hn in Hl'.
    set (pr := named_processes E (map fst ps)) in *.
    assert (Y : match model_init pr ps g1 c, model_init pr ps' g1 c with Ok a, Ok b => twin_model a b | Err e, Err e' => e = e' | _, _ => False end).
    { unfold model_init. repeat (match goal with |- context [bind ?r _] => destruct r; cbn [bind]; [|reflexivity] end).
      split; [exact (twin_time _ _ _ T)|]. auto. }
    destruct (model_init pr ps g1 c) as [a|]; [|discriminate]. destruct (model_init pr ps' g1 c) as [b|]; [|discriminate]. cbn [bind] in Hl, Hl'.
    injection Hl as <- <-. injection Hl' as <- <-. split; [reflexivity|]. split; [apply Y|]. apply twin_session, Y.
  Qed.

  (** ** sections that are not those of the processes *)
  Theorem only_listed params read names ctx ctx' c :
    (forall n, In n (with_required names) -> section_of ctx n = section_of ctx' n) ->
    load_model E params read names ctx c = load_model E params read names ctx' c.
  Proof.
    intros H. unfold load_model. destruct (load_grid params (Some read)) as [g|]; cbn [bind]; [|reflexivity].
    assert (Y : load_processes same_value (make E) g names ctx = load_processes same_value (make E) g names ctx'); [|rewrite Y; reflexivity].
    unfold load_processes. cbv zeta. assert (Y : own_params ctx (with_required names) = own_params ctx' (with_required names)); [|rewrite Y; reflexivity].
    unfold own_params. revert H. generalize (with_required names). intros l. generalize (@nil (string * section (pvalue A))).
    induction l as [|n l IH]; intros acc H; [reflexivity|]. cbn [fold_left]. fold (section_of ctx n) (section_of ctx' n).
    rewrite (H n (or_introl eq_refl)). apply IH. intros k Hk. apply H. right. exact Hk.
  Qed.
End P.
