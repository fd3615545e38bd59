(** Which sections make a WaterFlexure (C135). *)
From Coq Require Import String List ZArith QArith Reals Bool Arith Lra Lia.
From Verif.Base Require Import Num Py Arr.
From Verif.Model Require Import Layers Grid Csv Flexure SequenceModel Setattr Processes Whole Water.
From Verif.Spec Require Import Column Configured Session Defaults Accepts WaterAccepts.
From Verif.Proofs Require Import FlexureP ProcessesP WholeP LoadP AcceptsP.
Import ListNotations.
Local Open Scope string_scope.
Local Open Scope list_scope.
Local Open Scope R_scope.

Section W.
  Context {tr : Trans R}.
  Lemma takes_water k : In k water_takes <-> existsb (String.eqb k) water_parameters = true.
  Proof. rewrite existsb_exists. split; [intros H; exists k; split; [exact H|apply String.eqb_refl]|]. intros (a & H & E). apply String.eqb_eq in E. subst. exact H. Qed.
  Lemma hundred_millionth : Q2R (1 # 100000000) = 1 / 100000000.
  Proof. unfold Q2R. simpl. lra. Qed.
  Lemma dyn_error (t : R) n m e : dyn_init (Some t) n m = Err e -> e = ValueError.
  Proof.
    unfold dyn_init. destruct (isclose0 t); cbn [bind]; [discriminate|]. unfold validate_isostasy_time.
    match goal with |- context [if ?b then _ else _] => destruct b end; cbn [bind]; [|discriminate]. intros [= <-]. reflexivity.
  Qed.
  Theorem water_class (s : section (pvalue R)) (g : grid R) e : water_make s g = Err e -> water_refused s e.
  Proof.
    unfold water_make. destruct (forallb _ s) eqn:F; cbn [negb].
    - destruct (kwd s "isostasytime" (nlit 7000)) as [t|e1] eqn:K; cbn [bind].
      + unfold water_init. cbv zeta. match goal with |- context [dyn_init (Some t) ?n ?m] => destruct (dyn_init (Some t) n m) as [d|e1] eqn:D end; cbn [bind]; [discriminate|].
        intros [= <-]. right. right. split; [exact (dyn_error _ _ _ _ D)|].
        destruct (proj1 (dyn_init_errors _ _ _) (ex_intro _ e1 D)) as (t' & [= <-] & L). rewrite hundred_millionth in L.
        unfold kwd in K. destruct (dget String.eqb s "isostasytime") as [[v|x y]|] eqn:G; [|discriminate|].
        * injection K as <-. exists v. auto.
        * exfalso. assert (t = nlit 7000) by congruence. subst t. revert L. numR. unfold Q2R. simpl. lra.
      + intros [= <-]. destruct (kwd_err _ _ _ _ K) as [-> H]. right. left. auto.
    - intros [= <-]. left. split; [reflexivity|]. destruct (unknown_key (fun k => existsb (String.eqb k) water_parameters) s F) as (k & v & D & U).
      exists k, v. split; [exact D|]. intros T. apply takes_water in T. congruence.
  Qed.
  Theorem water_refuses (s : section (pvalue R)) (g : grid R) e : water_refused s e -> exists e', water_make s g = Err e'.
  Proof.
    unfold water_make. destruct (forallb _ s) eqn:F; cbn [negb]; [|eauto]. intros [(_ & k & v & D & T)|[(_ & x & y & D)|(_ & t & D & L)]].
    - exfalso. apply T, takes_water. rewrite forallb_forall in F. exact (F (k, v) (dget_in _ String.eqb_eq _ _ _ D)).
    - unfold kwd. rewrite D. cbn [bind]. eauto.
    - unfold kwd. rewrite D. cbn [bind]. unfold water_init. cbv zeta. match goal with |- context [dyn_init (Some t) ?n ?m] => destruct (proj2 (dyn_init_errors (Some t) n m)) as [e' E'] end.
      + exists t. rewrite hundred_millionth. auto.
      + rewrite E'. cbn [bind]. eauto.
  Qed.
  Theorem documented_refuted : ~ (forall (g : grid R) k v, In k documented -> 0 < v -> exists r, water_make [(k, Number v)] g = Ok r).
  Proof.
    intros H. destruct (H (mkGrid 1 2 1 1 [] [] [] (el_empty 1 2)) "water_density" 1030 ltac:(right; left; reflexivity) ltac:(lra)) as [r E]. discriminate E.
  Qed.
  (* the ones that it takes *)
  Theorem taken (g : grid R) k v : In k water_takes -> 0 < v -> exists r, water_make [(k, Number v)] g = Ok r.
  Proof.
    intros T V. destruct (water_make [(k, Number v)] g) as [r|e] eqn:E; [eauto|exfalso].
    destruct (water_class _ _ _ E) as [(_ & k' & v' & D & N)|[(_ & x & y & D)|(_ & t & D & L)]]; cbn [dget] in D.
    - destruct (String.eqb_spec k' k) as [->|]; [contradiction|discriminate].
    - destruct (String.eqb "isostasytime" k); discriminate.
    - destruct (String.eqb "isostasytime" k); [|discriminate]. assert (t = v) by congruence. subst. lra.
  Qed.
  Theorem documented_taken (g : grid R) k v : In k documented -> k <> "water_density" -> 0 < v -> exists r, water_make [(k, Number v)] g = Ok r.
  Proof. intros D N. apply taken. destruct D as [D|[D|D]]; [left; exact D|congruence|right; exact D]. Qed.

  Context {X : Type} (P : plate R) (E : externals R X).
  Lemma fold_water ctx names (params : context (pvalue R)) : (forall n, handed ctx names n (params_of params n)) ->
    forall l objs (g : grid R) r, load_fold (with_water P E) params l (objs, g) = Ok r -> In "water_flexure" l ->
    forall s e, handed ctx names "water_flexure" s -> ~ water_refused s e.
  Proof.
    intros H. induction l as [|a l IH]; intros objs g r Ef I; [destruct I|].
    unfold load_fold in Ef. cbn [foldM fst snd] in Ef. destruct (process_class params a) as [cls|e1] eqn:Ec; cbn [bind] in Ef; [|discriminate].
    destruct (make (with_water P E) cls (params_of params a) g) as [[p g1]|e1] eqn:Em; cbn [bind] in Ef; [|discriminate].
    fold (load_fold (with_water P E) params l (objs ++ [(a, p)], g1)) in Ef. destruct I as [->|I]; [|exact (IH _ _ _ Ef I)].
    intros s e Hs Hr. assert (cls = "WaterFlexure") by (cbv in Ec; congruence). subst cls. unfold make in Em. change (class_named "WaterFlexure") with (@None pclass) in Em. cbv iota in Em.
    cbn [with_water ex_make] in Em. change (String.eqb "WaterFlexure" "WaterFlexure") with true in Em. cbv iota in Em.
    assert (Hr' : water_refused (params_of params "water_flexure") e).
    { pose proof (proj2 (handed_exists ctx names "water_flexure") s _ Hs (H "water_flexure")) as Eq. unfold water_refused in *. rewrite <- Eq.
      destruct Hr as [(He & k & v & D & T)|Hr]; [left; split; [exact He|]; exists k, v; rewrite <- Eq; auto|right; exact Hr]. }
    destruct (water_refuses _ g e Hr') as [e' Ee]. rewrite Ee in Em. discriminate.
  Qed.
  Theorem water_loads params read names ctx c r : load_model (with_water P E) params read names ctx c = Ok r -> In "water_flexure" names ->
    forall s e, handed ctx names "water_flexure" s -> ~ water_refused s e.
  Proof.
    intros Em I. unfold load_model in Em. destruct (load_grid params (Some read)) as [g0|] eqn:El; cbn [bind] in Em; [|discriminate]. unfold load_processes in Em. cbv zeta in Em.
    match type of Em with context [foldM ?f ?l ?st] => destruct (foldM f l st) as [[objs g]|e'] eqn:Ef end; cbn [bind] in Em; [|discriminate].
    apply (fold_water ctx names _ (matched_handed ctx names) _ _ _ _ Ef). apply with_required_In. auto.
  Qed.
  Theorem water_typo params read names ctx c k v : In "water_flexure" names -> dget String.eqb (section_of ctx "water_flexure") k = Some v -> ~ In k water_takes ->
    exists e, load_model (with_water P E) params read names ctx c = Err e.
  Proof.
    intros I D T. destruct (load_model (with_water P E) params read names ctx c) as [r|e] eqn:Em; [exfalso|eauto].
    destruct (proj1 (handed_exists ctx names "water_flexure")) as [s Hs]. apply (water_loads _ _ _ _ _ _ Em I s TypeError Hs).
    left. split; [reflexivity|]. exists k, v. split; [|exact T]. apply (Hs k). unfold given.
    assert (J : existsb (String.eqb "water_flexure") (names ++ ["fluvial"; "shoreline"]) = true) by (apply existsb_In, in_or_app; left; exact I). rewrite J.
    unfold Parameters.value. unfold section_of in D. destruct (dget String.eqb ctx "water_flexure"); [exact D|discriminate].
  Qed.
End W.

Lemma ex_water_refused {tr : Trans R} : water_refused [("water_density", Number 1030)] TypeError /\ water_refused [("isostasytime", Table [0] [7000])] TypeError
  /\ water_refused [("isostasytime", Number (-1))] ValueError /\ (forall e, ~ water_refused [("isostasytime", Number 0); ("eet", Number 5000)] e).
Proof.
  split; [left; split; [reflexivity|]; exists "water_density", (Number 1030); split; [reflexivity|]; cbn; intuition discriminate|].
  split; [right; left; split; [reflexivity|]; exists [0], [7000]; reflexivity|].
  split; [right; right; split; [reflexivity|]; exists (-1); split; [reflexivity|lra]|].
  intros e [(_ & k & v & D & N)|[(_ & x & y & D)|(_ & t & D & L)]].
  - cbn [dget] in D. apply N. destruct (String.eqb_spec k "isostasytime") as [->|]; [left; reflexivity|]. destruct (String.eqb_spec k "eet") as [->|]; [right; left; reflexivity|discriminate].
  - discriminate D.
  - assert (t = 0) by (cbn in D; congruence). subst. lra.
Qed.
