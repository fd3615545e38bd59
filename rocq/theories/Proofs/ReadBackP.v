(** Parameters read back (C119). *)
From Coq Require Import String List ZArith QArith Bool Reals Lra.
From Verif.Base Require Import Num Py Arr.
From Verif.Model Require Import Layers Grid Interp Shoreline SeaLevel Subsidence Flexure Submarine Fluvial Sequence SequenceModel Setattr Getattr Processes Whole.
From Verif.Spec Require Import Setting Session Configured Followed Parameters Defaults Accepts ReadBack.
From Verif.Proofs Require Import GridP ProcessesP LoadP OrderP FollowP DefaultsP AcceptsP.
Import ListNotations.
Local Open Scope string_scope.
Local Open Scope list_scope.

Section P.
  Context {A : Type} {num : Num A} {tr : Trans A}.

  Lemma kwd_float c (s : kwds A) k d v : dget String.eqb (defaults c) k = Some (Number d) -> kwd s k d = Ok v -> as_float (says c s k) = Some v.
  Proof. intros D. unfold kwd, says. rewrite D. destruct (dget String.eqb s k) as [[w|x y]|]; cbn; congruence. Qed.

  Ltac keywords H s := repeat match type of H with
      | bind (kwd s ?k ?d) _ = _ => let K := fresh "K" in destruct (kwd s k d) eqn:K; cbn [bind] in H; [|discriminate H]
      end.
  Ltac listed I c s := repeat (destruct I as [I|I]; [injection I as <- <-; symmetry; match goal with Kq : kwd s ?q ?d = Ok _ |- as_float (says _ s ?q) = _ => exact (kwd_float c s q d _ eq_refl Kq) end|]); destruct I.
  Lemma density_same (a b : A) : validate_density a = Ok b -> b = a.
  Proof. unfold validate_density. destruct (nleb _ _); congruence. Qed.
  Theorem created_reads i1 c (s : section (pvalue A)) (g g' : grid A) o k a : construct i1 c s g = Ok (o, g') -> In (k, a) (reads c) ->
    Setting.class_of o = c /\ get_attribute a o = as_float (says c s k).
  Proof.
    intros H I. unfold construct in H. destruct (negb _); [discriminate|].
    destruct c; try (exfalso; exact I); keywords H s.
    - destruct (submarine_init _ g) as [[c1 g1]|] eqn:Ei; cbn [bind] in H; [|discriminate]. assert (o = PSubmarine c1) by congruence. subst o. split; [reflexivity|].
      unfold submarine_init in Ei. destruct (neqb _ _); cbn [bind] in Ei; [discriminate|].
      match type of Ei with Ok (?x, _) = _ => assert (Y : c1 = x) by congruence; subst c1 end. listed I SubmarineDiffuser s.
    - cbn [fluvial_init] in H. match type of H with Ok (?x, _) = _ => assert (Y : o = x) by congruence; subst o end. split; [reflexivity|]. listed I Fluvial s.
    - unfold densities_init in H.
      repeat match type of H with context [validate_density ?a] => let V := fresh "V" in destruct (validate_density a) eqn:V; cbn [bind] in H; [apply density_same in V; subst|discriminate H] end.
      destruct (sed_flexure_init _ g) as [[? ?]|] eqn:Ei; cbn [bind] in H; [|discriminate].
      match type of H with Ok (?x, _) = _ => assert (Y : o = x) by congruence; subst o end. split; [reflexivity|]. listed I SedimentFlexure s.
    - destruct (shoreline_init _ _ g) as [h|] eqn:Es; cbn [bind] in H; [|discriminate].
      match type of H with Ok (?x, _) = _ => assert (Y : o = x) by congruence; subst o end. split; [reflexivity|]. listed I ShorelineFinder s.
  Qed.
  Theorem created_time i1 (s : section (pvalue A)) (g g' : grid A) o t : construct i1 SedimentFlexure s g = Ok (o, g') ->
    says SedimentFlexure s "isostasytime" = Some (Number t) ->
    get_attribute "isostasy_time" o = if isclose0 t then None else Some t.
  Proof.
    intros H T. unfold construct in H. destruct (negb _); [discriminate|]. keywords H s. destruct (densities_init _ _ _) as [d|]; cbn [bind] in H; [|discriminate].
    destruct (sed_flexure_init _ g) as [[c ?]|] eqn:Ei; cbn [bind] in H; [|discriminate].
    match type of H with Ok (?x, _) = _ => assert (Y : o = x) by congruence; subst o end.
    match goal with K : kwd s "isostasytime" ?d = Ok _ |- _ => pose proof (kwd_float SedimentFlexure s "isostasytime" d _ eq_refl K) as F end.
    rewrite T in F. cbn in F. injection F as ->.
    unfold sed_flexure_init in Ei. cbv zeta in Ei. unfold dyn_init, validate_isostasy_time in Ei.
    change (get_attribute "isostasy_time" (PFlexure d (passed_on s) c)) with (df_time (sf_dyn c)).
    destruct (isclose0 _); cbn [bind] in Ei; [|destruct (nltb _ _); cbn [bind] in Ei; [discriminate|]];
      destruct (get_profile _ _); cbn [bind] in Ei; try discriminate;
      match type of Ei with Ok (?x, _) = _ => assert (Y : c = x) by congruence; subst c end; reflexivity.
  Qed.

  (** no setter *)
  Theorem read_only_raises (o : process A) (g : grid A) a v : In a (read_only (Setting.class_of o)) -> set_attribute a v (o, g) = Err AttributeError.
  Proof.
    intros I. destruct o; cbn in I; repeat (destruct I as [<-|I]; [reflexivity|]); destruct I.
  Qed.

  (** what the events of a history do *)
  Definition kept_names (c : pclass) : list string := map snd (reads c) ++ match c with SedimentFlexure => ["isostasy_time"] | _ => [] end.
  Section H.
  Context (i1 : list A -> list A -> result (A -> A)) (df : A -> field A -> field A -> field A) (fx : kwds A -> field A -> field A) (gv : kwds A -> A).
  Lemma kd_rows_same n_rows sea dx (x : list A) : forall shores zs ks row c c' k', kd_rows c sea dx x n_rows row shores zs ks = (c', k') ->
    forall a, In a (kept_names SubmarineDiffuser) -> get_attribute a (PSubmarine c') = get_attribute a (PSubmarine c).
  Proof.
    induction shores as [|s shores IH]; intros zs ks row c c' k' H a I; [cbn in H; congruence|].
    destruct zs as [|z zs]; [cbn in H; congruence|]. destruct ks as [|k ks]; [cbn in H; congruence|].
    cbn [kd_rows] in H. cbv zeta in H. destruct (kd_rows _ sea dx x n_rows _ shores zs ks) as [c2 rest] eqn:Er. assert (c2 = c') by congruence. subst c2.
    rewrite (IH _ _ _ _ _ _ Er a I). cbn in I. repeat (destruct I as [<-|I]; [reflexivity|]). destruct I.
  Qed.
  Lemma step_same dt o g o' g' : process_step i1 df fx gv dt (o, g) = Ok (o', g') ->
    Setting.class_of o' = Setting.class_of o /\ forall a, In a (kept_names (Setting.class_of o)) -> get_attribute a o' = get_attribute a o.
  Proof.
    intros H. unfold process_step in H. destruct o as [c|c|c|c|c|d k c|al]; cbn [Setting.class_of].
    - destruct (sea_level_step dt c g) as [[c1 g1] [e|]]; [discriminate|]. assert (o' = PSeaLevel c1) by congruence. subst. split; [reflexivity|intros a []].
    - destruct (sea_level_step dt c g) as [[c1 g1] [e|]]; [discriminate|]. assert (o' = PSinusoid c1) by congruence. subst. split; [reflexivity|intros a []].
    - destruct (subsidence_step dt c g) as [[c1 g1]|]; cbn [bind] in H; [|discriminate]. assert (o' = PSubsidence c1) by congruence. subst. split; [reflexivity|intros a []].
    - destruct (submarine_step i1 df dt c g) as [[c1 g1]|] eqn:S; cbn [bind] in H; [|discriminate]. assert (o' = PSubmarine c1) by congruence. subst. split; [reflexivity|].
      unfold submarine_step in S.
      repeat (match type of S with bind ?r _ = _ => destruct r as [?x|] eqn:?; cbn [bind] in S; [|discriminate] end).
      match goal with Q : calc_diffusion_coef _ c g = Ok ?x |- _ => destruct x as [c2 g2]; rename Q into Qc end.
      repeat (match type of S with bind ?r _ = _ => destruct r as [?x|] eqn:?; cbn [bind] in S; [|discriminate] | (if ?b then _ else _) = _ => destruct b; [discriminate|] end).
      assert (K : forall a, In a (kept_names SubmarineDiffuser) -> get_attribute a (PSubmarine c2) = get_attribute a (PSubmarine c)).
      { unfold calc_diffusion_coef in Qc. repeat (match type of Qc with bind ?r _ = _ => destruct r as [?x|]; cbn [bind] in Qc; [|discriminate] end).
        destruct (negb _); [discriminate|]. destruct (kd_rows _ _ _ _ _ _ _ _ _) as [c3 k3] eqn:Er. repeat (match type of Qc with bind ?r _ = _ => destruct r as [?x|]; cbn [bind] in Qc; [|discriminate] end).
        assert (c3 = c2) by congruence. subst c3. exact (kd_rows_same _ _ _ _ _ _ _ _ _ _ _ Er). }
      match type of S with Ok (?x, _) = _ => assert (Y : c1 = x) by congruence; subst c1 end.
      intros a I. rewrite <- (K a I). cbn in I. repeat (destruct I as [<-|I]; [reflexivity|]). destruct I.
    - destruct (fluvial_step i1 dt c g) as [g1|]; cbn [bind] in H; [|discriminate]. assert (o' = PFluvial c) by congruence. subst. auto.
    - destruct (sed_flexure_step _ _ dt c g) as [[c1 g1]|] eqn:S; cbn [bind] in H; [|discriminate]. assert (o' = PFlexure d k c1) by congruence. subst. split; [reflexivity|].
      assert (T : df_time (sf_dyn c1) = df_time (sf_dyn c)).
      { unfold sed_flexure_step in S. repeat (match type of S with bind ?r _ = _ => destruct r as [?x|]; cbn [bind] in S; [|discriminate] end).
        unfold calc_dynamic_deflection in S. cbv zeta in S. repeat (match type of S with bind ?r _ = _ => destruct r as [?x|]; cbn [bind] in S; [|discriminate] end).
        match type of S with Ok (?x, _) = _ => assert (Y : c1 = x) by congruence; subst c1 end. reflexivity. }
      intros a I. cbn in I. repeat (destruct I as [<-|I]; [first [reflexivity|exact T]|]). destruct I.
    - destruct (shoreline_update i1 al g) as [g1|]; cbn [bind] in H; [|discriminate]. assert (o' = PShoreline al) by congruence. subst. auto.
  Qed.
  Lemma set_same n v (o : process A) (g : grid A) o' g' : set_attribute n v (o, g) = Ok (o', g') ->
    Setting.class_of o' = Setting.class_of o /\ forall a, In a (kept_names (Setting.class_of o)) ->
      get_attribute a o' = if String.eqb n a then match v with Number x => Some x | _ => get_attribute a o end else get_attribute a o.
  Proof.
    intros H. unfold set_attribute in H. destruct o as [c|c|c|c|[sf sl sd ps wb he]|d k c|al]; cbn [Setting.class_of].
    all: repeat match type of H with
      | (if String.eqb ?m ?k then _ else _) = _ => is_var m; destruct (String.eqb_spec m k) as [->|?]
      | (if existsb (String.eqb ?m) ?l then _ else _) = _ => is_var m; destruct (existsb (String.eqb m) l) eqn:?
      end; try discriminate H.
    all: try (destruct v as [x|x y]; cbn [as_number as_file bind fst snd] in H; try discriminate H).
    all: try (destruct (subsidence_set_file _ _ _ _) as [? [?|]]; [discriminate|]).
    all: unfold set_sand_density, set_mud_density, set_water_density, set_sediment_load in H; cbv zeta in H;
      try (destruct (validate_density x) eqn:V; cbn [bind] in H; [apply density_same in V; subst|discriminate H]).
    all: match type of H with Ok (?q, _) = _ => assert (Y : o' = q) by congruence; subst o' end; split; [reflexivity|].
    all: intros a I; cbn in I; repeat (destruct I as [<-|I]; [first [reflexivity|idtac]|]); try (destruct I; fail).
    all: try (match goal with |- context [String.eqb ?n ?k] => destruct (String.eqb_spec n k); [congruence|reflexivity] end).
    all: match goal with |- context [String.eqb ?n ?k] => destruct (String.eqb_spec n k); [subst; discriminate|reflexivity] end.
  Qed.
  Lemma latest_app (l l' : list (pvalue A)) v : latest (l ++ l') v = latest l' (latest l v).
  Proof. apply fold_left_app. Qed.
  Theorem history_reads h : forall (o : process A) (g : grid A) o' g', foldM (happen i1 df fx gv) h (o, g) = Ok (o', g') ->
    Setting.class_of o' = Setting.class_of o /\ forall a, In a (kept_names (Setting.class_of o)) -> get_attribute a o' = latest (assignments a h) (get_attribute a o).
  Proof.
    induction h as [|e h IH]; intros o g o' g' H; cbn [foldM] in H; [assert (o = o') by congruence; subst; auto|].
    destruct (happen i1 df fx gv (o, g) e) as [[o1 g1]|] eqn:Ee; cbn [bind] in H; [|discriminate]. destruct (IH _ _ _ _ H) as [C R].
    destruct e as [dt|n v]; cbn [happen] in Ee.
    - destruct (step_same _ _ _ _ _ Ee) as [C1 R1]. split; [congruence|]. intros a I. rewrite R by (rewrite C1; exact I). rewrite (R1 a I). reflexivity.
    - destruct (set_same _ _ _ _ _ _ Ee) as [C1 R1]. split; [congruence|]. intros a I. rewrite R by (rewrite C1; exact I). rewrite (R1 a I).
      unfold assignments at 2. cbn [flat_map]. rewrite latest_app. destruct (String.eqb n a); reflexivity.
  Qed.
  Theorem process_reads c (s : section (pvalue A)) (g0 g1 : grid A) o0 h o g k a : construct i1 c s g0 = Ok (o0, g1) ->
    foldM (happen i1 df fx gv) h (o0, g1) = Ok (o, g) -> In (k, a) (reads c) -> get_attribute a o = latest (assignments a h) (as_float (says c s k)).
  Proof.
    intros Ec Eh I. destruct (created_reads _ _ _ _ _ _ _ _ Ec I) as [Co Ro]. destruct (history_reads _ _ _ _ _ Eh) as [_ R]. rewrite <- Ro. apply R.
    rewrite Co. apply in_or_app. left. apply in_map_iff. exists (k, a). auto.
  Qed.
  End H.

  (** ** models *)
  Section M.
  Context {X : Type} (E : externals A X).
  Definition ours (ps : parts A X) n c a v : Prop := exists o, dget String.eqb ps n = Some (Ours o) /\ Setting.class_of o = c /\ get_attribute a o = v.
  Lemma run_ours n c a v : In a (kept_names c) -> forall names dt ps g ps' g', run_components (map (step_of E) names) dt (ps, g) = Ok (ps', g') ->
    ours ps n c a v -> ours ps' n c a v.
  Proof.
    intros Ia. unfold run_components. induction names as [|k names IH]; intros dt ps g ps' g'; cbn [map foldM].
    - intros H. assert (ps = ps') by congruence. subst. auto.
    - unfold step_of at 1. cbn [fst snd]. destruct (dget String.eqb ps k) as [q|] eqn:D; [|discriminate].
      destruct (part_step E dt (q, g)) as [[q1 g1]|] eqn:S; cbn [bind]; [|discriminate]. intros H (o & O1 & O2 & O3). apply (IH _ _ _ _ _ H).
      unfold ours. rewrite (dget_dset _ String.eqb_eq). destruct (String.eqb_spec n k) as [->|]; [|exists o; auto].
      rewrite O1 in D. assert (q = Ours o) by congruence. subst q. unfold part_step in S. cbn [fst snd] in S.
      destruct (process_step _ _ _ _ dt (o, g)) as [[o1 g2]|] eqn:So; cbn [bind] in S; [|discriminate]. assert (q1 = Ours o1) by congruence. subst q1.
      destruct (step_same _ _ _ _ _ _ _ _ _ So) as [C R]. exists o1. split; [reflexivity|]. split; [congruence|]. rewrite R; [exact O3|]. rewrite O2. exact Ia.
  Qed.
  Lemma sets_ours c a kvs : In a (kept_names c) -> forall o g p' g', foldM (fun pg kv => part_set E (fst kv) (snd kv) pg) kvs (Ours o, g) = Ok (p', g') ->
    Setting.class_of o = c -> exists o', p' = Ours o' /\ Setting.class_of o' = c /\ get_attribute a o' = latest (FollowP.given a kvs) (get_attribute a o).
  Proof.
    intros Ia. induction kvs as [|[k v] kvs IH]; intros o g p' g'; cbn [foldM fst snd].
    - intros H C. assert (p' = Ours o) by congruence. subst. exists o. auto.
    - unfold part_set at 1. cbn [fst snd]. destruct (set_attribute k v (o, g)) as [[o1 g1]|] eqn:S; cbn [bind]; [|discriminate]. intros H C.
      destruct (set_same _ _ _ _ _ _ S) as [C1 R1]. rewrite C in C1, R1. destruct (IH _ _ _ _ H C1) as (o' & P1 & P2 & P3). exists o'. split; [exact P1|]. split; [exact P2|].
      rewrite P3, (R1 a Ia). unfold FollowP.given. cbn [filter fst]. destruct (String.eqb k a); reflexivity.
  Qed.
  Lemma set_ours n c a params : In a (kept_names c) -> forall ps g ps' g' v, foldM (set_one E) params (ps, g) = Ok (ps', g') ->
    ours ps n c a v -> ours ps' n c a (latest (Followed.assigned n a params) v).
  Proof.
    intros Ia. induction params as [|[k kvs] params IH]; intros ps g ps' g' v; cbn [foldM].
    - intros H. assert (ps = ps') by congruence. subst. auto.
    - rewrite assigned_cons, latest_app. unfold set_one at 1. cbn [fst snd]. destruct (dget String.eqb ps k) as [q|] eqn:D; [|discriminate].
      destruct (foldM _ kvs (q, g)) as [[q1 g1]|] eqn:S; cbn [bind]; [|discriminate]. intros H (o & O1 & O2 & O3). apply (IH _ _ _ _ _ H).
      unfold ours. rewrite (dget_dset _ String.eqb_eq). destruct (String.eqb_spec k n) as [->|Nk].
      + rewrite String.eqb_refl. rewrite O1 in D. assert (q = Ours o) by congruence. subst q. destruct (sets_ours c a kvs Ia _ _ _ _ S O2) as (o' & -> & P2 & P3).
        exists o'. split; [reflexivity|]. split; [exact P2|]. rewrite P3, O3. reflexivity.
      + destruct (String.eqb_spec n k) as [->|]; [congruence|]. exists o. cbn. auto.
  Qed.
  Theorem went_ours names n a m0 m l c v : In a (kept_names c) -> ours (sm_world m0) n c a v -> went E names n a m0 m l -> ours (sm_world m) n c a (latest l v).
  Proof.
    intros Ia O H. induction H as [|m l dt m' _ IH Hs|m l dt m' _ IH Hs|m l params m' _ IH Hs].
    - exact O.
    - destruct (stepped E _ _ _ _ Hs) as (_ & g & ps & h & el & h' & _ & Er & -> & _). exact (run_ours n c a _ Ia _ _ _ _ _ _ Er IH).
    - unfold run_one_step in Hs. destruct (clock_advance _) as [ck stop]. destruct stop; [|destruct (advance_components _ _ _); discriminate].
      match type of Hs with ClockStop ?x = _ => assert (Y : m' = x) by congruence; subst m' end. exact IH.
    - rewrite set_model_is in Hs. destruct (foldM (set_one E) params (sm_world m, sm_grid m)) as [[ps g]|] eqn:S; cbn [bind] in Hs; [|discriminate].
      assert (Z : m' = mkModel ps g (sm_clock m) (sm_archived m)) by congruence. subst m'. rewrite latest_app. exact (set_ours n c a _ Ia _ _ _ _ _ S IH).
  Qed.
  End M.
End P.

Lemma reads_kept c k a : In (k, a) (reads c) -> In a (kept_names c).
Proof. intros I. apply in_or_app. left. apply in_map_iff. exists (k, a). auto. Qed.
Section R.
  Context {X : Type} {tr : Trans R} (E : externals R X).
  Lemma loaded_made params read names ctx ck names' m n : load_model E params read names ctx ck = Ok (names', m) -> In n names' -> n <> "sea_level" ->
    exists p cls h h' s, dget String.eqb (sm_world m) n = Some p /\ handed ctx names n s
      /\ match class_named cls with Some c => class_at n s = Some c | None => class_at n s = None end
      /\ make E cls s h = Ok (p, h').
  Proof.
    intros H I Ns. destruct (load_parts E _ _ _ _ _ _ _ H) as (g0 & ps & g & _ & El & Em & ->).
    destruct (load_made E (fun _ => True) (fun _ _ _ _ _ _ _ => Logic.I) _ _ _ _ _ Logic.I El) as (_ & N & M). destruct (init_world _ _ _ _ _ Em) as [Ew Ec].
    destruct (dkeys_dget ps n I) as [p Dp]. destruct (M _ _ Dp) as (In1 & cls & h & h' & _ & Hc & Hm).
    pose proof (matched_handed ctx names n) as Hh. pose proof (class_at_class _ _ _ Hc) as Hk. revert Hm Hh Hk.
    generalize (params_of (fst (match_params same_value (own_params ctx (with_required names)))) n). intros s Hm Hh Hk.
    exists p, cls, h, h', s. split; [|split; [exact Hh|split; [destruct (class_named cls); [exact Hk|apply Hk]|exact Hm]]].
    rewrite Ew. cbn [named_processes pr_set_sea_time]. unfold set_sea_time.
    destruct (dget String.eqb ps "sea_level") as [[[]|]|] eqn:D; try exact Dp; rewrite (dget_dset _ String.eqb_eq);
      (destruct (String.eqb_spec n "sea_level"); [congruence|exact Dp]).
  Qed.
  Lemma loaded_ours params read names ctx ck names' m n s c : load_model E params read names ctx ck = Ok (names', m) -> In n names' ->
    handed ctx names n s -> class_at n s = Some c -> c <> SeaLevelTimeSeries -> c <> SinusoidalSeaLevel ->
    exists o h h', dget String.eqb (sm_world m) n = Some (Ours o) /\ construct (ex_interp1d E) c s h = Ok (o, h').
  Proof.
    intros H I Hs Cs N1 N2.
    assert (Ns : n <> "sea_level") by (intros ->; unfold class_at in Cs; cbn in Cs; destruct (dget _ s _); congruence).
    destruct (loaded_made _ _ _ _ _ _ _ n H I Ns) as (p & cls & h & h' & s' & Dp & Hh & Hc & Hm).
    pose proof (handed_one ctx names n s s' Hs Hh) as Es.
    assert (Cs' : class_at n s' = Some c) by (rewrite <- Cs; unfold class_at; rewrite Es; reflexivity).
    unfold make in Hm. destruct (class_named cls) as [c'|]; [|congruence]. assert (c' = c) by congruence. subst c'.
    destruct (construct _ c s' h) as [[o g1]|] eqn:Eq; cbn [bind] in Hm; [|discriminate]. exists o, h, g1. split; [rewrite Dp; congruence|].
    rewrite (DefaultsP.construct_said (ex_interp1d E) c s s' h); [exact Eq|]. intros k. unfold says. rewrite Es. reflexivity.
  Qed.
  Theorem model_reads params read names ctx ck names' m0 n s c k a m l : load_model E params read names ctx ck = Ok (names', m0) -> In n names' ->
    handed ctx names n s -> class_at n s = Some c -> In (k, a) (reads c) -> went E names' n a m0 m l ->
    attribute m n a = latest l (as_float (says c s k)).
  Proof.
    intros H I Hs Cs Ik W.
    destruct (loaded_ours _ _ _ _ _ _ _ n s c H I Hs Cs) as (o & h & h' & Dp & Eq); [intros ->; exact Ik|intros ->; exact Ik|].
    destruct (created_reads _ _ _ _ _ _ _ _ Eq Ik) as [Co Ro].
    assert (O : ours (sm_world m0) n c a (as_float (says c s k))) by (exists o; auto).
    destruct (went_ours E _ _ _ _ _ _ c _ (reads_kept _ _ _ Ik) O W) as (o' & D' & _ & R'). unfold attribute. rewrite D'. exact R'.
  Qed.
  Theorem model_time params read names ctx ck names' m0 s t m l : load_model E params read names ctx ck = Ok (names', m0) -> In "flexure" names' ->
    handed ctx names "flexure" s -> says SedimentFlexure s "isostasytime" = Some (Number t) -> went E names' "flexure" "isostasy_time" m0 m l ->
    attribute m "flexure" "isostasy_time" = if Rle_dec (Rabs t) (1 / 100000000) then None else Some t.
  Proof.
    intros H I Hs T W. destruct (loaded_ours _ _ _ _ _ _ _ "flexure" s SedimentFlexure H I Hs eq_refl) as (o & h & h' & Dp & Eq); [discriminate|discriminate|].
    pose proof (created_time _ _ _ _ _ _ Eq T) as Ro.
    assert (Co : Setting.class_of o = SedimentFlexure).
    { exact (proj1 (created_reads _ _ _ _ _ _ "sand_density" "sand_density" Eq (or_introl eq_refl))). }
    assert (V : (if isclose0 t then None else Some t) = if Rle_dec (Rabs t) (1 / 100000000) then None else Some t).
    { unfold isclose0. numR. rewrite nabs_R. destruct (Rle_dec _ _) as [L|L].
      - rewrite (proj2 (Rleb_true _ _)); [reflexivity|]. unfold Q2R. cbn. lra.
      - rewrite (proj2 (Rleb_false _ _)); [reflexivity|]. unfold Q2R. cbn. lra. }
    assert (Ia : In "isostasy_time" (kept_names SedimentFlexure)) by (cbn; tauto).
    assert (O : ours (sm_world m0) "flexure" SedimentFlexure "isostasy_time" (if isclose0 t then None else Some t)) by (exists o; auto).
    assert (L : l = []).
    { clear - W O. revert O. induction W as [|m l dt m' _ IH Hs|m l dt m' _ IH Hs|m l params m' W IH Hs]; intros O; auto.
      rewrite (IH O). cbn [app]. pose proof (went_ours E _ _ _ _ _ _ SedimentFlexure _ (or_intror (or_intror (or_intror (or_introl eq_refl)))) O W) as (o' & D' & C' & _).
      rewrite set_model_is in Hs. destruct (foldM (set_one E) params (sm_world m, sm_grid m)) as [[ps g]|] eqn:S; cbn [bind] in Hs; [|discriminate]. clear Hs.
      revert S D' C'. generalize (sm_world m) (sm_grid m). intros ps0 g0. revert ps0 g0 o'. induction params as [|[q kvs] params IHp]; intros ps0 g0 o' S D' C'; [reflexivity|].
      rewrite assigned_cons. cbn [foldM] in S. unfold set_one at 1 in S. cbn [fst snd] in S. destruct (dget String.eqb ps0 q) as [p|] eqn:D; [|discriminate].
      destruct (foldM _ kvs (p, g0)) as [[q1 g1]|] eqn:Sk; cbn [bind] in S; [|discriminate].
      destruct (String.eqb_spec q "flexure") as [->|Nq].
      - assert (p = Ours o') by congruence. subst p.
        destruct (sets_ours E SedimentFlexure "sand_density" kvs (or_introl eq_refl) _ _ _ _ Sk C') as (o2 & -> & C2 & _).
        rewrite (IHp _ _ o2 S); [|rewrite (dget_dset _ String.eqb_eq), String.eqb_refl; reflexivity|exact C2]. rewrite app_nil_r.
        clear - Sk C'. revert o' g0 Sk C'. induction kvs as [|[k v] kvs IHk]; intros o' g0 Sk C'; [reflexivity|].
        cbn [foldM fst snd] in Sk. unfold part_set at 1 in Sk. cbn [fst snd] in Sk. destruct (set_attribute k v (o', g0)) as [[o1 g2]|] eqn:S1; cbn [bind] in Sk; [|discriminate].
        unfold FollowP.given. cbn [filter fst]. destruct (String.eqb_spec k "isostasy_time") as [->|].
        + rewrite read_only_raises in S1; [discriminate|]. rewrite C'. left. reflexivity.
        + exact (IHk o1 g2 Sk (eq_trans (proj1 (set_same _ _ _ _ _ _ S1)) C')).
      - cbn [app]. apply (IHp _ _ o' S); [|exact C']. rewrite (dget_dset _ String.eqb_eq). destruct (String.eqb_spec "flexure" q); [congruence|exact D']. }
    subst l. destruct (went_ours E _ _ _ _ _ _ _ _ Ia O W) as (o' & D' & _ & R'). unfold attribute. rewrite D', R', <- V. reflexivity.
  Qed.
End R.
