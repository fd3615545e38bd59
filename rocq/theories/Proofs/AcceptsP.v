(** Which sections make a process (C118). *)
From Coq Require Import String List ZArith QArith Reals Bool Arith Lra Lia.
From Verif.Base Require Import Num Py Arr.
From Verif.Model Require Import Layers Grid Csv Interp Shoreline SeaLevel Subsidence Flexure Submarine Fluvial Sequence SequenceModel Setattr Processes Whole.
From Verif.Spec Require Import Column Parameters Configured Session Defaults Accepts.
From Verif.Proofs Require Import GridP ShorelineP ProcessesP ScriptP ShapesP CausesP WholeP LoadP DefaultsP.
Import ListNotations.
Local Open Scope string_scope.
Local Open Scope list_scope.
Local Open Scope R_scope.

Lemma takes_iff c k : takes c k <-> In k (not_modelled c) \/ existsb (String.eqb k) (parameters c) = true.
Proof.
  rewrite existsb_In. unfold takes, needs_file. destruct c; cbn; intuition (subst; try discriminate; auto 20).
Qed.
Lemma unknown_key (f : string -> bool) (s : section (pvalue R)) : forallb (fun kv => f (fst kv)) s = false -> exists k v, dget String.eqb s k = Some v /\ f k = false.
Proof.
  induction s as [|[a x] s IH]; cbn [forallb dget fst]; [discriminate|]. destruct (f a) eqn:F; cbn [andb].
  - intros H. destruct (IH H) as (k & v & H1 & H2). exists k. destruct (String.eqb_spec k a) as [->|]; [congruence|]. eauto.
  - intros _. exists a, x. rewrite String.eqb_refl. auto.
Qed.
Lemma kwd_err (s : kwds R) k d e : kwd s k d = Err e -> e = TypeError /\ exists x y, dget String.eqb s k = Some (Table x y).
Proof. unfold kwd. destruct (dget String.eqb s k) as [[v|x y]|]; try discriminate. intros [= <-]. eauto. Qed.
Lemma kwd_table (s : kwds R) k x y d v : dget String.eqb s k = Some (Table x y) -> kwd s k d = Ok v -> False.
Proof. intros Hk. unfold kwd. rewrite Hk. discriminate. Qed.
Lemma file_err (s : kwds R) k e : kwd_file s k = Err e -> (e = TypeError /\ dget String.eqb s k = None) \/ (e = FileError /\ exists v, dget String.eqb s k = Some (Number v)).
Proof. unfold kwd_file. destruct (dget String.eqb s k) as [[v|x y]|]; try discriminate; intros [= <-]; eauto. Qed.
Lemma kwd_says c (s : kwds R) k d v : dget String.eqb (defaults c) k = Some (Number d) -> kwd s k d = Ok v <-> says c s k = Some (Number v).
Proof.
  intros D. unfold kwd, says. rewrite D. destruct (dget String.eqb s k) as [[w|x y]|]; split; congruence.
Qed.
Lemma file_ok (s : kwds R) k x y : kwd_file s k = Ok (x, y) <-> dget String.eqb s k = Some (Table x y).
Proof. unfold kwd_file. destruct (dget String.eqb s k) as [[w|x' y']|]; split; congruence. Qed.

Lemma mapM_fails {B C} (f : B -> result C) l x e : In x l -> f x = Err e -> exists e', mapM f l = Err e'.
Proof.
  induction l as [|a l IH]; intros I Hx; [destruct I|]. cbn [mapM]. destruct (f a) eqn:Fa; cbn [bind]; [|eauto].
  destruct I as [->|I]; [congruence|]. destruct (IH I Hx) as [e' ->]. cbn [bind]. eauto.
Qed.

Lemma RLS a b : {Rltb a b = true /\ a < b} + {Rltb a b = false /\ b <= a}.
Proof. destruct (Rltb a b) eqn:H; [left|right]; split; auto; [apply Rltb_true|apply Rltb_false]; exact H. Qed.
Section C.
  Context {X : Type} {tr : Trans R} (E : externals R X).

  Lemma rate_err x y (g : grid R) e : calc_subsidence_rate x y g = Err e ->
    e = ValueError /\ exists j, (j < g_cols g)%nat /\ (INR j * g_dx g < nth 0 x 0 \/ nth (length x - 1) x 0 < INR j * g_dx g).
  Proof.
    intros H. apply mapM_err in H. destruct H as (v & Hv & He). unfold x_of_column in Hv. apply in_map_iff in Hv. destruct Hv as (j & <- & Hj). apply in_seq in Hj.
    rewrite nofnat_R in He. unfold interp_linear in He. revert He. numR. rewrite !n0_R.
    destruct (RLS (INR j * g_dx g) (nth 0 x 0)) as [[-> L]|[-> L]].
    - intros [= <-]. split; [reflexivity|]. exists j. split; [lia|auto].
    - destruct (RLS (nth (length x - 1) x 0) (INR j * g_dx g)) as [[-> L']|[-> L']].
      + intros [= <-]. split; [reflexivity|]. exists j. split; [lia|auto].
      + intros He. exfalso. revert He. cbv zeta. repeat match goal with |- context [if ?b then _ else _] => destruct b end; discriminate.
  Qed.
  Lemma rate_fails x y (g : grid R) j : (j < g_cols g)%nat -> INR j * g_dx g < nth 0 x 0 \/ nth (length x - 1) x 0 < INR j * g_dx g ->
    exists e, calc_subsidence_rate x y g = Err e.
  Proof.
    intros Hj H. apply (mapM_fails _ _ (INR j * g_dx g) ValueError).
    - unfold x_of_column. apply in_map_iff. exists j. rewrite nofnat_R. split; [reflexivity|]. apply in_seq. lia.
    - unfold interp_linear. numR. rewrite !n0_R. destruct (RLS (INR j * g_dx g) (nth 0 x 0)) as [[-> L]|[-> L]]; [reflexivity|].
      destruct (RLS (nth (length x - 1) x 0) (INR j * g_dx g)) as [[-> L']|[-> L']]; [reflexivity|]. lra.
  Qed.

  Lemma shore_err alpha (g : grid R) e : solid g -> shoreline_init (ex_interp1d E) alpha g = Err e ->
    no_shoreline E g e \/ (e = ZeroDivisionError /\ alpha = 0).
  Proof.
    intros (W & B & Hr & Hdx) Er. pose proof B as (Ht & Hd & Hs). destruct (gval_of _ _ Hs) as [sea [Hsea Esea]].
    destruct (profile_of _ _ Ht) as [z [Hz [Pz [Nz _]]]]. destruct (profile_of _ _ Hd) as [dz [Hdz [Pd [_ Sd]]]].
    unfold shoreline_init in Er. cbv zeta in Er. set (h := put_rowf (put_rowf g _ _) _ _) in Er.
    change (get_profile h "topographic__elevation") with (get_profile g TOPO) in Er. change (get_profile h "sediment_deposit__thickness") with (get_profile g DEPOSIT) in Er.
    change (gval_r h "sea_level__elevation") with (gval_r g SEALEVEL) in Er. change (x_of_column h) with (x_of_column g) in Er.
    rewrite Pz in Er. cbn [bind] in Er. rewrite Pd in Er. cbn [bind] in Er. rewrite Esea in Er. cbn [bind] in Er.
    destruct (mapM _ (combine (inner z) (inner dz))) as [rows|e'] eqn:Em; [discriminate|]. cbn [bind] in Er. assert (e' = e) by congruence. subst e'.
    destruct (mapM_err _ _ _ Em) as [[row drow] [Hin Hrow]]. pose proof (in_combine_l _ _ _ _ Hin) as Hin1. pose proof (in_combine_r _ _ _ _ Hin) as Hin2.
    unfold shoreline_row_init in Hrow.
    destruct (find_shoreline (ex_interp1d E) (x_of_column g) row sea) as [shore|e'] eqn:Ef.
    2:{ left. cbn [bind] in Hrow. assert (e' = e) by congruence. subst e'. exact (row_fails E g z sea row e W Hz Hsea Hin1 Ef). }
    right. cbn [bind] in Hrow. destruct (Req_dec alpha 0) as [->|Na].
    { rewrite find_shelf_edge_zero in Hrow. split; [congruence|reflexivity]. }
    exfalso. assert (Ld : length drow = g_cols g).
    { exact (proj2 (shaped_inner _ _ _ (proj2 W _ _ Hdz)) _ Hin2). }
    destruct (find_shelf_edge_spec (x_of_column g) drow shore alpha Na (sorted_x g Hdx)) as [[k [[Hk1 Hk2] [Hk3 _]]]|[_ He]].
    { rewrite x_of_column_length. exact Ld. }
    - rewrite Hk3 in Hrow. discriminate.
    - rewrite He in Hrow. discriminate.
  Qed.
  Lemma shore_fails alpha (g : grid R) e : solid g -> no_shoreline E g e \/ (e = ZeroDivisionError /\ alpha = 0) ->
    exists e', shoreline_init (ex_interp1d E) alpha g = Err e'.
  Proof.
    intros (W & B & Hr & Hdx) H. pose proof B as (Ht & Hd & Hs). destruct (gval_of _ _ Hs) as [sea [Hsea Esea]].
    destruct (profile_of _ _ Ht) as [z [Hz [Pz [Nz _]]]]. destruct (profile_of _ _ Hd) as [dz [Hdz [Pd [_ Sd]]]].
    unfold shoreline_init. cbv zeta. set (h := put_rowf (put_rowf g _ _) _ _).
    change (get_profile h "topographic__elevation") with (get_profile g TOPO). change (get_profile h "sediment_deposit__thickness") with (get_profile g DEPOSIT).
    change (gval_r h "sea_level__elevation") with (gval_r g SEALEVEL). change (x_of_column h) with (x_of_column g).
    rewrite Pz. cbn [bind]. rewrite Pd. cbn [bind]. rewrite Esea. cbn [bind].
    pose proof (shaped_inner _ _ _ (proj2 W _ _ Hz)) as Sz. pose proof (shaped_inner _ _ _ (proj2 W _ _ Hdz)) as Sdz.
    assert (Q : exists p e', In p (combine (inner z) (inner dz)) /\ shoreline_row_init (ex_interp1d E) alpha (x_of_column g) sea p = Err e').
    { destruct H as [(z' & sea' & i & Hz' & Hs' & Hi & Hf)|[-> ->]].
      - change "topographic__elevation" with TOPO in Hz'. change "sea_level__elevation" with SEALEVEL in Hs'. rewrite Hz in Hz'. rewrite Hsea in Hs'. injection Hz' as <-. injection Hs' as <-.
        exists (nth (i - 1) (combine (inner z) (inner dz)) ([], [])). exists e. split.
        + apply nth_In. rewrite combine_length, (shaped_len _ _ _ Sz), (shaped_len _ _ _ Sdz). lia.
        + rewrite combine_nth by (rewrite (shaped_len _ _ _ Sz), (shaped_len _ _ _ Sdz); reflexivity). unfold shoreline_row_init.
          rewrite (inner_row g z (i - 1) (proj2 W _ _ Hz)) by lia. replace (Datatypes.S (i - 1)) with i by lia. rewrite Hf. reflexivity.
      - exists (nth 0 (combine (inner z) (inner dz)) ([], [])).
        assert (I0 : In (nth 0 (combine (inner z) (inner dz)) ([], [])) (combine (inner z) (inner dz))).
        { apply nth_In. rewrite combine_length, (shaped_len _ _ _ Sz), (shaped_len _ _ _ Sdz). lia. }
        destruct (nth 0 (combine (inner z) (inner dz)) ([], [])) as [row drow]. unfold shoreline_row_init.
        destruct (find_shoreline (ex_interp1d E) (x_of_column g) row sea); cbn [bind]; [|eauto]. rewrite find_shelf_edge_zero. eauto. }
    destruct Q as (p & e' & I & F). destruct (mapM_fails _ _ _ _ I F) as [e'' ->]. cbn [bind]. eauto.
  Qed.

  Lemma neqb_zero (a : R) : neqb a n0 = true <-> a = 0.
  Proof. numR. rewrite n0_R. apply Num.Reqb_true. Qed.
  Lemma density_err (a : R) e : validate_density a = Err e -> e = ValueError /\ a <= 0.
  Proof. unfold validate_density. numR. rewrite n0_R. destruct (Rleb a 0) eqn:L; [|discriminate]. intros [= <-]. split; [reflexivity|]. apply Rleb_true, L. Qed.
  Lemma density_ok (a b : R) : validate_density a = Ok b -> 0 < a.
  Proof. unfold validate_density. numR. rewrite n0_R. destruct (Rleb a 0) eqn:L; [discriminate|]. intros _. apply Rleb_false, L. Qed.
  Lemma isostasy_err (t : R) rows cols e : dyn_init (Some t) rows cols = Err e -> e = ValueError /\ t < - (1 / 100000000).
  Proof.
    unfold dyn_init, isclose0, validate_isostasy_time. numR. rewrite nabs_R, n0_R.
    assert (L8 : Q2R (1 # 100000000) = 1 / 100000000) by (unfold Q2R; cbn; lra). rewrite L8.
    destruct (Rleb (Rabs t) (1 / 100000000)) eqn:L; [cbn [bind]; discriminate|]. apply Rleb_false in L.
    destruct (Rltb t 0) eqn:N; [|cbn [bind]; discriminate]. apply Rltb_true in N. cbn [bind]. intros H. injection H as <-. split; [reflexivity|]. rewrite Rabs_left in L by exact N. lra.
  Qed.
  Lemma isostasy_ok (t : R) rows cols d : dyn_init (Some t) rows cols = Ok d -> - (1 / 100000000) <= t.
  Proof.
    unfold dyn_init, isclose0, validate_isostasy_time. numR. rewrite nabs_R, n0_R.
    assert (L8 : Q2R (1 # 100000000) = 1 / 100000000) by (unfold Q2R; cbn; lra). rewrite L8.
    destruct (Rleb (Rabs t) (1 / 100000000)) eqn:L; [apply Rleb_true in L; intros _; revert L; unfold Rabs; destruct (Rcase_abs t); lra|].
    destruct (Rltb t 0) eqn:N; [cbn [bind]; discriminate|]. apply Rltb_false in N. intros _. lra.
  Qed.
  Lemma flexure_init_err t (g : grid R) e : sed_flexure_init (Some t) g = Err e -> exists rows cols, dyn_init (Some t) rows cols = Err e.
  Proof.
    unfold sed_flexure_init. cbv zeta. destruct (dyn_init _ _ _) eqn:D; cbn [bind]; [|intros [= <-]; eauto].
    assert (G : forall h n, has h n -> exists v, get_profile h n = Ok (v : field R)).
    { intros h n Hn. destruct (profile_of _ _ Hn) as [f [_ [Pf _]]]. eauto. }
    match goal with |- context [get_profile ?h TOTAL_LOAD] => destruct (G h TOTAL_LOAD) as [v ->] end; [|discriminate].
    do 3 (eapply has_grows; [apply grows_ensure|]). apply has_ensure.
  Qed.

  Theorem construct_refused c (s : kwds R) (g : grid R) e : solid g -> plain c s -> construct (ex_interp1d E) c s g = Err e -> refused E c s g e.
  Proof.
    intros S PL H. unfold construct in H. destruct (forallb _ s) eqn:K; cbn [negb] in H.
    2:{ injection H as <-. left. split; [reflexivity|]. destruct (unknown_key (fun k => existsb (String.eqb k) (parameters c)) s K) as (k & v & H1 & H2).
        exists k, v. split; [exact H1|]. rewrite takes_iff, H2. intros [I|I]; [|discriminate]. rewrite (PL k I) in H1. discriminate. }
    right. assert (N : forall k d e', In k (numbers c) -> kwd s k d = Err e' -> e' = TypeError /\ exists k x y, dget String.eqb s k = Some (Table x y) /\ In k (numbers c)).
    { intros k d e' I Hk. apply kwd_err in Hk. destruct Hk as [-> (x & y & Hk)]. split; [reflexivity|]. exists k, x, y. auto. }
    destruct c; repeat match type of H with
      | bind (kwd s ?k ?d) _ = _ =>
          let K := fresh "K" in destruct (kwd s k d) eqn:K; cbn [bind] in H;
            [|left; injection H as <-; apply (N k d); [cbn; tauto|exact K]]
      | bind (kwd_file s ?k) _ = _ =>
          let K := fresh "K" in destruct (kwd_file s k) as [[x y]|] eqn:K; cbn [bind] in H;
            [|injection H as <-; right; apply file_err in K; unfold needs_file; destruct K as [[-> K]|[-> K]]; [left|right; left]; auto]
      end; right; right; right; try discriminate H.
    - cbn [fst snd] in H. unfold subsidence_init in H. cbv zeta in H. set (h := if has_node g INCREMENT then g else _) in H.
      destruct (calc_subsidence_rate x y h) eqn:Ec; cbn [bind] in H; [discriminate|]. injection H as <-.
      apply rate_err in Ec. destruct Ec as [-> (j & Hj & Hx)]. split; [reflexivity|]. exists x, y, j. split; [apply file_ok, K0|].
      unfold h in *. destruct (has_node g INCREMENT); auto.
    - unfold submarine_init in H. cbn [p_plain_slope p_sea_level p_sediment_load p_load_sealevel] in H.
      match type of H with context [neqb ?a n0] => destruct (neqb a n0) eqn:Z end; cbn [bind] in H; [|discriminate]. injection H as <-.
      split; [reflexivity|]. apply neqb_zero in Z. subst. apply (kwd_says SubmarineDiffuser _ _ (nlit (8 # 10000))); [reflexivity|assumption].
    - unfold densities_init in H.
      repeat match type of H with
      | context [validate_density ?a] =>
          let V := fresh "V" in destruct (validate_density a) eqn:V; cbn [bind] in H;
            [|injection H as <-; apply density_err in V; destruct V as [-> V]; split; [reflexivity|]; left;
              match goal with Ka : kwd s ?k ?d = Ok a |- _ => exists k, a; split; [cbn; tauto|]; split; [|exact V]; apply (kwd_says SedimentFlexure _ _ d); [reflexivity|exact Ka] end]
      end.
      destruct (sed_flexure_init _ g) as [[? ?]|] eqn:Ei; cbn [bind] in H; [discriminate|]. injection H as <-.
      apply flexure_init_err in Ei. destruct Ei as (rows & cols & Ei). apply isostasy_err in Ei. destruct Ei as [-> Ei]. split; [reflexivity|]. right.
      match goal with Ka : kwd s "isostasytime" ?d = Ok ?a |- _ => exists a; split; [|exact Ei]; apply (kwd_says SedimentFlexure _ _ d); [reflexivity|exact Ka] end.
    - destruct (shoreline_init _ _ g) as [h|] eqn:Es; cbn [bind] in H; [discriminate|]. injection H as <-.
      apply (shore_err _ _ _ S) in Es. destruct Es as [Es|[-> ->]]; [left; exact Es|right]. split; [reflexivity|].
      apply (kwd_says ShorelineFinder _ _ (nlit (5 # 10000))); [reflexivity|assumption].
  Qed.
  Theorem refused_fails c (s : kwds R) (g : grid R) e : solid g -> refused E c s g e -> exists e', construct (ex_interp1d E) c s g = Err e'.
  Proof.
    intros S R. destruct (construct (ex_interp1d E) c s g) as [[o g']|e'] eqn:H; [exfalso|eauto].
    unfold construct in H. destruct (forallb _ s) eqn:K; cbn [negb] in H; [|discriminate].
    destruct R as [[_ (k & v & H1 & H2)]|R].
    { apply H2, takes_iff. right. exact (proj1 (keys_known (fun k => existsb (String.eqb k) (parameters c)) s) K k v H1). }
    destruct c; repeat match type of H with
      | bind (kwd s ?k ?d) _ = _ => let K := fresh "K" in destruct (kwd s k d) eqn:K; cbn [bind] in H; [|discriminate H]
      | bind (kwd_file s ?k) _ = _ => let K := fresh "Kf" in destruct (kwd_file s k) as [[xf yf]|] eqn:K; cbn [bind] in H; [apply file_ok in K|discriminate H]
      end.
    all: destruct R as [[_ (k & x & y & H1 & H2)]|R];
      [cbn in H2; repeat (destruct H2 as [<-|H2]; [match goal with Hq : _ = Some (Table _ _), Kk : kwd _ _ _ = Ok _ |- _ => exact (kwd_table _ _ _ _ _ _ Hq Kk) end|]); exact H2|].
    all: destruct R as [(_ & Hf & H1)|R]; [destruct Hf as [Hf|Hf]; try discriminate Hf; congruence|].
    all: destruct R as [(_ & Hf & v & H1)|R]; [destruct Hf as [Hf|Hf]; try discriminate Hf; congruence|].
    all: try exact R.
    - destruct R as [_ (x & y & j & Hx & Hj & Hb)]. assert (xf = x /\ yf = y) as [-> ->] by (split; congruence).
      cbn [fst snd] in H. unfold subsidence_init in H. cbv zeta in H. set (h := if has_node g INCREMENT then g else _) in H.
      destruct (rate_fails x y h j) as [e' Ee]; [unfold h; destruct (has_node g INCREMENT); exact Hj|unfold h; destruct (has_node g INCREMENT); exact Hb|].
      rewrite Ee in H. discriminate.
    - destruct R as [_ R]. rewrite <- (kwd_says SubmarineDiffuser _ _ (nlit (8 # 10000))) in R by reflexivity.
      match goal with Ka : kwd s "plain_slope" _ = Ok _ |- _ => rewrite R in Ka; injection Ka as <- end.
      unfold submarine_init in H. cbn [p_plain_slope p_sea_level p_sediment_load p_load_sealevel] in H. rewrite (proj2 (neqb_zero 0) eq_refl) in H. discriminate.
    - unfold densities_init in H.
      repeat match type of H with
      | context [validate_density ?a] => let V := fresh "V" in destruct (validate_density a) eqn:V; cbn [bind] in H; [apply density_ok in V|discriminate H]
      end.
      destruct (sed_flexure_init _ g) as [[? ?]|] eqn:Ei; cbn [bind] in H; [|discriminate].
      destruct R as [_ [(k & v & Hk & Hs & Hv)|(v & Hs & Hv)]].
      + cbn in Hk. destruct Hk as [<-|[<-|[<-|[]]]];
          match type of Hs with says _ _ ?k = _ => match goal with Ka : kwd s k ?d = Ok _ |- _ => rewrite <- (kwd_says SedimentFlexure _ _ d) in Hs by reflexivity; rewrite Hs in Ka; injection Ka as <- end end; lra.
      + rewrite <- (kwd_says SedimentFlexure _ _ (nlit 7000)) in Hs by reflexivity.
        match goal with Ka : kwd s "isostasytime" _ = Ok _ |- _ => rewrite Hs in Ka; injection Ka as <- end.
        unfold sed_flexure_init in Ei. cbv zeta in Ei. destruct (dyn_init _ _ _) eqn:D in Ei; [|discriminate]. apply isostasy_ok in D. lra.
    - assert (Z : no_shoreline E g e \/ (e = ZeroDivisionError /\ a = 0)).
      { destruct R as [R|[-> R]]; [left; exact R|right; split; [reflexivity|]]. rewrite <- (kwd_says ShorelineFinder _ _ (nlit (5 # 10000))) in R by reflexivity.
        congruence. }
      destruct (shore_fails _ _ _ S Z) as [e' Ee]. rewrite Ee in H. discriminate.
  Qed.
End C.

(** ** the section that load_processes hands to a process *)
Lemma same_list_R (l l' : list R) : same_list l l' = true <-> l = l'.
Proof.
  unfold same_list. revert l'. induction l as [|a l IH]; intros [|b l']; cbn [length Nat.eqb combine forallb andb fst snd]; try (split; [discriminate || reflexivity|discriminate || reflexivity]).
  specialize (IH l'). destruct (Nat.eqb _ _); cbn [andb] in *.
  - split.
    + intros H. apply andb_prop in H. destruct H as [H1 H2]. apply Num.Reqb_true in H1. subst. f_equal. apply IH, H2.
    + intros [= -> H]. apply andb_true_intro. split; [apply Num.Reqb_true; reflexivity|apply IH, H].
  - split; [discriminate|]. intros [= -> H]. discriminate (proj2 IH H).
Qed.
Lemma same_value_R (v w : pvalue R) : same_value v w = true <-> v = w.
Proof.
  destruct v as [a|x y], w as [b|x' y']; cbn [same_value]; try (split; discriminate).
  - split; [intros H; apply Num.Reqb_true in H; congruence|intros [= ->]; apply Num.Reqb_true; reflexivity].
  - split; [intros H; apply andb_prop in H; destruct H as [H1 H2]; apply same_list_R in H1; apply same_list_R in H2; congruence|].
    intros [= -> ->]. apply andb_true_intro. split; apply same_list_R; reflexivity.
Qed.
Lemma same_value_neq (v w : pvalue R) : same_value w v = false <-> v <> w.
Proof.
  split.
  - intros H ->. rewrite (proj2 (same_value_R w w) eq_refl) in H. discriminate.
  - intros H. destruct (same_value w v) eqn:Es; [|reflexivity]. apply same_value_R in Es. congruence.
Qed.

Section H.
  Context (ctx : context (pvalue R)) (names : list string) (L : string -> string -> option (pvalue R)).
  Hypothesis out : forall pair, In pair shared_parameters -> pair_outcome same_value (given ctx names) L pair.
  Hypothesis same : forall n k, (forall pair, In pair shared_parameters -> ~ touches pair n k) -> L n k = given ctx names n k.

  Lemma clash_dec n p keys : clash ctx names n p keys \/ ~ clash ctx names n p keys.
  Proof.
    unfold clash. induction keys as [|k keys IH].
    - right. intros (k & v & w & [] & _).
    - destruct IH as [(k' & v & w & H)|IH]; [left; exists k', v, w; cbn [In]; tauto|].
      destruct (given ctx names n k) as [v|] eqn:Gv, (given ctx names p k) as [w|] eqn:Gw.
      1:{ destruct (same_value w v) eqn:Es.
          - apply same_value_R in Es. right. intros (k' & v' & w' & [<-|I] & H1 & H2 & H3); [congruence|]. apply IH. exists k', v', w'. auto.
          - apply same_value_neq in Es. left. exists k, v, w. cbn [In]. auto. }
      all: right; intros (k' & v' & w' & [<-|I] & H1 & H2 & H3); [congruence|]; apply IH; exists k', v', w'; auto.
  Qed.
  Lemma clash_sym n p keys : clash ctx names n p keys -> clash ctx names p n keys.
  Proof. intros (k & v & w & H1 & H2 & H3 & H4). exists k, w, v. auto. Qed.
  Lemma partner_handed n p keys k : partners n p keys -> In k keys ->
    (forall v, given ctx names n k = Some v -> L n k = Some v)
    /\ (given ctx names n k = None -> (clash ctx names n p keys -> L n k = None) /\ (~ clash ctx names n p keys -> L n k = given ctx names p k)).
  Proof.
    intros P I.
    assert (Q : (clash ctx names n p keys -> L n k = given ctx names n k)
             /\ (~ clash ctx names n p keys -> L n k = match given ctx names n k with Some v => Some v | None => given ctx names p k end)).
    { assert (N : ~ clash ctx names n p keys -> forall v w, given ctx names n k = Some v -> given ctx names p k = Some w -> v = w).
      { intros C v w H1 H2. destruct (same_value w v) eqn:Es; [symmetry; apply same_value_R, Es|]. exfalso. apply C. apply same_value_neq in Es. exists k, v, w. auto. }
      destruct P as [P|P]; destruct (out _ P) as [O1 O2]; split; intros C.
      - apply O1; [|exact I]. destruct C as (q & v & w & H1 & H2 & H3 & H4). exists q, v, w. rewrite same_value_neq. auto.
      - destruct (O2) with (k := k) as [_ Oe]; [|exact I|].
        + intros (q & v & w & H1 & H2 & H3 & H4). apply C. exists q, v, w. rewrite <- same_value_neq. auto.
        + rewrite Oe. destruct (given ctx names n k) as [v|] eqn:Gv, (given ctx names p k) as [w|] eqn:Gw; try reflexivity. rewrite (N C v w eq_refl eq_refl). reflexivity.
      - apply O1; [|exact I]. apply clash_sym in C. destruct C as (q & v & w & H1 & H2 & H3 & H4). exists q, v, w. rewrite same_value_neq. auto.
      - destruct (O2) with (k := k) as [Oq Oe]; [|exact I|].
        + intros (q & v & w & H1 & H2 & H3 & H4). apply C, clash_sym. exists q, v, w. rewrite <- same_value_neq. auto.
        + rewrite <- Oq, Oe. reflexivity. }
    destruct Q as [Q1 Q2]. split.
    - intros v Hv. destruct (clash_dec n p keys) as [C|C]; [rewrite (Q1 C); exact Hv|rewrite (Q2 C), Hv; reflexivity].
    - intros Hn. split; intros C; [rewrite (Q1 C); exact Hn|rewrite (Q2 C), Hn; reflexivity].
  Qed.
  Lemma partner_dec n k : (exists p keys, partners n p keys /\ In k keys) \/ (forall p keys, partners n p keys -> ~ In k keys).
  Proof.
    unfold partners. generalize shared_parameters. intros l. induction l as [|[[a b] ks] l IH].
    - right. intros p keys [[]|[]].
    - destruct (existsb (String.eqb k) ks) eqn:Ek.
      + apply existsb_In in Ek. destruct (String.string_dec n a) as [->|Na]; [left; exists b, ks; cbn; tauto|].
        destruct (String.string_dec n b) as [->|Nb]; [left; exists a, ks; cbn; tauto|].
        destruct IH as [(p & keys & H1 & H2)|IH]; [left; exists p, keys; cbn [In]; tauto|].
        right. intros p keys [[H|H]|[H|H]]; [congruence|apply (IH p keys); auto|congruence|apply (IH p keys); auto].
      + destruct IH as [(p & keys & H1 & H2)|IH]; [left; exists p, keys; cbn [In]; tauto|].
        assert (Nk : ~ In k ks) by (rewrite <- existsb_In, Ek; discriminate).
        right. intros p keys [[H|H]|[H|H]]; [injection H as <- <- <-; exact Nk|apply (IH p keys); auto|injection H as <- <- <-; exact Nk|apply (IH p keys); auto].
  Qed.
  Lemma apart_handed n k : (forall p keys, partners n p keys -> ~ In k keys) -> L n k = given ctx names n k.
  Proof.
    intros H. apply same. intros [[a b] keys] I [[T|T] Ik]; cbn [fst snd] in *; subst n; [apply (H b keys)|apply (H a keys)]; try exact Ik; [left|right]; exact I.
  Qed.
  Lemma handed_L n (s : section (pvalue R)) : (forall k, dget String.eqb s k = L n k) -> handed ctx names n s.
  Proof.
    intros Es k. rewrite Es. split.
    - intros v Hv. destruct (partner_dec n k) as [(p & keys & P & I)|N]; [exact (proj1 (partner_handed n p keys k P I) v Hv)|]. rewrite (apart_handed n k N). exact Hv.
    - intros Hn. split; [|split].
      + intros p keys P I. exact (proj1 (proj2 (partner_handed n p keys k P I) Hn)).
      + intros p keys P I. exact (proj2 (proj2 (partner_handed n p keys k P I) Hn)).
      + intros N. rewrite (apart_handed n k N). exact Hn.
  Qed.
  Lemma handed_one n s s' : handed ctx names n s -> handed ctx names n s' -> forall k, dget String.eqb s k = dget String.eqb s' k.
  Proof.
    intros H H' k. destruct (H k) as [A1 A2], (H' k) as [B1 B2]. destruct (given ctx names n k) as [v|]; [rewrite (A1 v), (B1 v); reflexivity|].
    destruct (A2 eq_refl) as (A3 & A4 & A5), (B2 eq_refl) as (B3 & B4 & B5). destruct (partner_dec n k) as [(p & keys & P & I)|N].
    - destruct (clash_dec n p keys) as [C|C]; [rewrite (A3 p keys), (B3 p keys)|rewrite (A4 p keys), (B4 p keys)]; auto.
    - rewrite A5, B5; auto.
  Qed.
End H.

Lemma required_given ctx names n k :
  (if existsb (String.eqb n) (with_required names) then value ctx n k else None) = given ctx names n k.
Proof.
  unfold given. replace (existsb (String.eqb n) (with_required names)) with (existsb (String.eqb n) (names ++ ["fluvial"; "shoreline"])); [reflexivity|].
  apply eq_true_iff_eq. rewrite !existsb_In, with_required_In, in_app_iff. cbn. split; intuition.
Qed.
Lemma lookup_dget (ps : context (pvalue R)) n k : dget String.eqb (params_of ps n) k = lookup ps n k.
Proof. reflexivity. Qed.
Lemma matched_handed ctx names n : handed ctx names n (params_of (fst (match_params same_value (own_params ctx (with_required names)))) n).
Proof.
  destruct (load_processes_params same_value (fun v => proj2 (same_value_R v v) eq_refl) names ctx) as [O S].
  apply (handed_L ctx names (lookup (fst (match_params same_value (own_params ctx (with_required names)))))).
  - intros pair I. apply (outcome_ext same_value) with (2 := O pair I). intros p k _. apply required_given.
  - intros p k T. rewrite (S p k T). apply required_given.
  - intros k. apply lookup_dget.
Qed.
Lemma refused_ext {X} (E : externals R X) c s s' g e : (forall k, dget String.eqb s k = dget String.eqb s' k) -> refused E c s g e -> refused E c s' g e.
Proof.
  intros Q. assert (Y : forall k, says c s k = says c s' k) by (intros k; unfold says; rewrite Q; reflexivity).
  unfold refused. destruct c; setoid_rewrite Q; setoid_rewrite Y || idtac; auto.
Qed.

Lemma handed_class ctx names n s : In n (names ++ ["fluvial"; "shoreline"]) -> handed ctx names n s -> class_at n s = class_at n (section_of ctx n).
Proof.
  intros I H. unfold class_at. destruct (String.eqb_spec n "sea_level") as [->|]; [|reflexivity].
  apply existsb_In in I. destruct (H "filepath") as [H1 H2]. unfold given in *. rewrite I in *. unfold value, section_of in *.
  destruct (dget String.eqb ctx "sea_level") as [d|]; [destruct (dget String.eqb d "filepath") as [v|]; [rewrite (H1 v eq_refl); reflexivity|]|];
    (destruct (H2 eq_refl) as (_ & _ & H3); rewrite H3; [reflexivity|];
     intros p keys [P|P]; cbn in P; repeat (destruct P as [P|P]; [discriminate P|]); destruct P).
Qed.
Lemma handed_plain ctx names n s c : In n (names ++ ["fluvial"; "shoreline"]) -> plain c (section_of ctx n) -> handed ctx names n s -> plain c s.
Proof.
  intros I PL H k Hk. destruct (H k) as [_ H2]. apply H2.
  - unfold given, value. specialize (PL k Hk). unfold section_of in PL. destruct (existsb _ _); [|reflexivity]. destruct (dget String.eqb ctx n); [exact PL|reflexivity].
  - intros p keys P Ik. assert (Q : In k ["sediment_load"; "plain_slope"; "hemipelagic"; "alpha"; "isostasytime"; "eet"]).
    { destruct P as [P|P]; cbn in P; repeat (destruct P as [P|P]; [injection P as _ _ <-; cbn in Ik |- *; tauto|]); destruct P. }
    cbn in Q. destruct c; cbn in Hk; repeat (destruct Hk as [<-|Hk]; [repeat (destruct Q as [Q|Q]; [discriminate Q|]); exact Q|]); destruct Hk.
Qed.

Lemma matched_plain ctx names :
  (forall n cls, In n (names ++ ["fluvial"; "shoreline"]) -> class_at n (section_of ctx n) = Some cls -> plain cls (section_of ctx n)) ->
  forall n c, In n (with_required names) -> class_at n (params_of (fst (match_params same_value (own_params ctx (with_required names)))) n) = Some c ->
  plain c (params_of (fst (match_params same_value (own_params ctx (with_required names)))) n).
Proof.
  intros PL n c I. pose proof (matched_handed ctx names n) as M. revert M. generalize (params_of (fst (match_params same_value (own_params ctx (with_required names)))) n).
  intros s M Cl. assert (I' : In n (names ++ ["fluvial"; "shoreline"])) by (apply with_required_In in I; apply in_or_app; cbn; intuition).
  rewrite (handed_class ctx names n s I' M) in Cl. exact (handed_plain ctx names n s c I' (PL n c I' Cl) M).
Qed.

(** ** the whole configuration *)
Section W.
  Context {X : Type} {tr : Trans R} (E : externals R X).
  Hypothesis WB : well_behaved E.

  Lemma from_adds (g g' : grid R) : adds g g' -> layers g' = layers g -> (forall k f, node g k = Some f -> node g' k = Some f) -> made_from g g'.
  Proof.
    intros (W & A1 & A2 & A3 & A4 & _) L K. split; [exact W|]. repeat (split; [assumption|]). split; [|exact L].
    intros n Hn. destruct (gval g n) as [v|] eqn:Ev; [|congruence]. destruct (proj2 A4 n (ex_intro _ v Ev)) as [w ->]. discriminate.
  Qed.
  Lemma from_trans (g1 g2 g3 : grid R) : made_from g1 g2 -> made_from g2 g3 -> made_from g1 g3.
  Proof.
    intros (_ & A1 & A2 & A3 & A4 & A5 & A6) (W & B1 & B2 & B3 & B4 & B5 & B6). split; [exact W|].
    repeat (split; [congruence|]). split; [auto|]. split; [auto|congruence].
  Qed.
  Lemma from_refl (g : grid R) : solid g -> made_from g g.
  Proof. intros (W & _). split; [exact W|]. auto 10. Qed.

  (* a class of its own, or one of the two that are not modelled *)
  Lemma class_at_class (params : context (pvalue R)) n cls : process_class params n = Ok cls ->
    match class_named cls with
    | Some c => class_at n (params_of params n) = Some c
    | None => In n ["compaction"; "water_flexure"] /\ class_at n (params_of params n) = None
    end.
  Proof.
    unfold process_class. cbn [dget].
    repeat match goal with |- context [if String.eqb n ?a then _ else _] => destruct (String.eqb_spec n a) as [->|] end;
      try (intros [= <-]; cbn; auto; fail).
    unfold class_at. cbn [String.eqb Ascii.eqb Bool.eqb]. unfold din.
    destruct (dget String.eqb (params_of params "sea_level") "filepath"); intros [= <-]; reflexivity.
  Qed.
  Lemma class_unknown (params : context (pvalue R)) n e : process_class params n = Err e -> ~ is_known n /\ e = KeyError.
  Proof.
    intros H. split; [intros K; apply (class_known params) in K; destruct K as [c K]; congruence|].
    unfold process_class in H. destruct (dget _ _ n); congruence.
  Qed.

  Lemma fold_fails ctx names (params : context (pvalue R)) : (forall n, handed ctx names n (params_of params n)) ->
    forall l objs (g : grid R) e, solid g -> (forall n c, In n l -> class_at n (params_of params n) = Some c -> plain c (params_of params n)) -> load_fold E params l (objs, g) = Err e ->
    exists n h, In n l /\ made_from g h /\ unmade E ctx names n h e.
  Proof.
    intros P. induction l as [|n l IH]; intros objs g e S PL Ef; [discriminate Ef|].
    unfold load_fold in Ef. cbn [foldM fst snd] in Ef. destruct (process_class params n) as [cls|e1] eqn:Ec; cbn [bind] in Ef.
    - destruct (make E cls _ g) as [[p g1]|e1] eqn:Em; cbn [bind] in Ef.
      + fold (load_fold E params l (objs ++ [(n, p)], g1)) in Ef. destruct (made E WB _ _ _ _ _ S Em) as (A1 & _ & L1 & _ & _ & _ & K1).
        destruct (IH _ _ _ (solid_adds _ _ S A1) (fun n c I => PL n c (or_intror I)) Ef) as (q & h & I & A2 & U). exists q, h. split; [right; exact I|].
        split; [exact (from_trans _ _ _ (from_adds _ _ A1 L1 K1) A2)|exact U].
      + injection Ef as <-. exists n, g. split; [left; reflexivity|]. split; [apply from_refl, S|].
        unfold make in Em. pose proof (class_at_class _ _ _ Ec) as Hc. destruct (class_named cls) as [c|].
        * destruct (construct _ c _ g) as [[q h]|e2] eqn:Eq; cbn [bind] in Em; [discriminate|]. injection Em as <-.
          right. left. exists c, (params_of params n). split; [exact Hc|]. split; [apply P|]. exact (construct_refused E c _ g e2 S (PL n c (or_introl eq_refl) Hc) Eq).
        * destruct (ex_make E cls _ g) as [[q h]|e2] eqn:Eq; cbn [bind] in Em; [discriminate|]. injection Em as <-.
          right. right. split; [apply Hc|]. exists cls, (params_of params n). split; [apply P|exact Eq].
    - injection Ef as <-. exists n, g. split; [left; reflexivity|]. split; [apply from_refl, S|]. left. exact (class_unknown _ _ _ Ec).
  Qed.
  Lemma fold_makes ctx names (params : context (pvalue R)) : (forall n, handed ctx names n (params_of params n)) ->
    forall l objs (g : grid R) r, solid g -> load_fold E params l (objs, g) = Ok r ->
    forall n, In n l -> is_known n /\ exists h, made_from g h
      /\ forall c s e, class_at n s = Some c -> handed ctx names n s -> ~ refused E c s h e.
  Proof.
    intros P. induction l as [|a l IH]; intros objs g r S Ef n I; [destruct I|].
    unfold load_fold in Ef. cbn [foldM fst snd] in Ef. destruct (process_class params a) as [cls|e1] eqn:Ec; cbn [bind] in Ef; [|discriminate].
    destruct (make E cls _ g) as [[p g1]|e1] eqn:Em; cbn [bind] in Ef; [|discriminate].
    fold (load_fold E params l (objs ++ [(a, p)], g1)) in Ef. destruct (made E WB _ _ _ _ _ S Em) as (A1 & _ & L1 & _ & _ & _ & K1).
    destruct I as [->|I].
    - split; [apply (class_known params); eauto|]. exists g. split; [apply from_refl, S|]. intros c s e Hc Hs Hr.
      apply (refused_ext E c s _ g e (handed_one ctx names n s _ Hs (P n))) in Hr.
      pose proof (class_at_class _ _ _ Ec) as Hd.
      assert (Hq : class_at n (params_of params n) = Some c).
      { rewrite <- Hc. unfold class_at. rewrite (handed_one ctx names n s _ Hs (P n)). reflexivity. }
      unfold make in Em. destruct (class_named cls) as [c'|]; [|destruct Hd; congruence].
      assert (c' = c) by congruence. subst c'. destruct (refused_fails E c _ g e S Hr) as [e' Ee]. rewrite Ee in Em. discriminate.
    - destruct (IH _ _ _ (solid_adds _ _ S A1) Ef n I) as (Hk & h & A2 & U). split; [exact Hk|]. exists h.
      split; [exact (from_trans _ _ _ (from_adds _ _ A1 L1 K1) A2)|exact U].
  Qed.

  Theorem load_fails params text names ctx c g0 e : load_grid params (Some (read_bathymetry text)) = Ok g0 ->
    (2 <= g_cols g0)%nat -> (0 < g_rows g0)%nat -> 0 < g_dx g0 ->
    (forall n cls, In n (names ++ ["fluvial"; "shoreline"]) -> class_at n (section_of ctx n) = Some cls -> plain cls (section_of ctx n)) ->
    load_model E params (read_bathymetry text) names ctx c = Err e ->
    exists n h, In n (names ++ ["fluvial"; "shoreline"]) /\ made_from g0 h /\ unmade E ctx names n h e.
  Proof.
    intros El Hc Hr Hd PL Em. apply (configured_loads E WB _ _ _ _ _ _ _ El Hc Hr Hd) in Em.
    destruct (loaded_whole _ _ _ El Hc) as (W & L & B). assert (S : solid g0) by (split; [exact W|]; auto).
    unfold load_processes in Em. cbv zeta in Em.
    match type of Em with bind ?f _ = _ => destruct f as [[objs g]|e'] eqn:Ef; cbn [bind] in Em; [discriminate|] end. injection Em as <-.
    destruct (fold_fails ctx names _ (matched_handed ctx names) _ _ _ _ S (matched_plain ctx names PL) Ef) as (n & h & I & A & U). exists n, h.
    split; [apply with_required_In in I; apply in_or_app; cbn; intuition|]. split; [exact A|exact U].
  Qed.
  Theorem load_makes params text names ctx c g0 r : load_grid params (Some (read_bathymetry text)) = Ok g0 ->
    (2 <= g_cols g0)%nat -> (0 < g_rows g0)%nat -> 0 < g_dx g0 ->
    load_model E params (read_bathymetry text) names ctx c = Ok r ->
    forall n, In n (names ++ ["fluvial"; "shoreline"]) -> is_known n /\ exists h, made_from g0 h
      /\ forall c s e, class_at n s = Some c -> handed ctx names n s -> ~ refused E c s h e.
  Proof.
    intros El Hc Hr Hd Em n I. destruct (loaded_whole _ _ _ El Hc) as (W & L & B). assert (S : solid g0) by (split; [exact W|]; auto).
    unfold load_model in Em. rewrite El in Em. cbn [bind] in Em. unfold load_processes in Em. cbv zeta in Em.
    match type of Em with context [foldM ?f ?l ?st] => destruct (foldM f l st) as [[objs g]|e'] eqn:Ef end; cbn [bind] in Em; [|discriminate].
    destruct (fold_makes ctx names _ (matched_handed ctx names) _ _ _ _ S Ef n) as (Hk & h & A & U).
    { apply with_required_In. apply in_app_or in I. cbn in I. intuition. }
    split; [exact Hk|]. exists h. split; [exact A|exact U].
  Qed.
End W.

(** ** in the terms of the statements *)
Lemma solid_of (g : grid R) : whole_grid g -> node g "topographic__elevation" <> None -> node g "sediment_deposit__thickness" <> None ->
  gval g "sea_level__elevation" <> None -> (0 < g_rows g)%nat -> 0 < g_dx g -> solid g.
Proof.
  intros W T D V Hr Hd. split; [exact W|]. split; [|auto]. split; [apply has_iff, T|]. split; [apply has_iff, D|apply hasv_iff, V].
Qed.
Theorem class_accepts {X} {tr : Trans R} (E : externals R X) c (s : section (pvalue R)) (g : grid R) e :
  whole_grid g -> node g "topographic__elevation" <> None -> node g "sediment_deposit__thickness" <> None ->
  gval g "sea_level__elevation" <> None -> (0 < g_rows g)%nat -> 0 < g_dx g -> plain c s ->
  construct (ex_interp1d E) c s g = Err e -> refused E c s g e.
Proof. intros W T D V Hr Hd. apply construct_refused, (solid_of g W T D V Hr Hd). Qed.
Theorem class_refuses {X} {tr : Trans R} (E : externals R X) c (s : section (pvalue R)) (g : grid R) e :
  whole_grid g -> node g "topographic__elevation" <> None -> node g "sediment_deposit__thickness" <> None ->
  gval g "sea_level__elevation" <> None -> (0 < g_rows g)%nat -> 0 < g_dx g ->
  refused E c s g e -> exists e', construct (ex_interp1d E) c s g = Err e'.
Proof. intros W T D V Hr Hd. apply refused_fails, (solid_of g W T D V Hr Hd). Qed.
Theorem handed_exists ctx names n : (exists s, handed ctx names n s)
  /\ forall s s', handed ctx names n s -> handed ctx names n s' -> forall k, dget String.eqb s k = dget String.eqb s' k.
Proof. split; [eexists; apply matched_handed|apply handed_one]. Qed.
Theorem load_typo {X} {tr : Trans R} (E : externals R X) : well_behaved E -> forall params text names ctx c g0 n cls k v,
  load_grid params (Some (read_bathymetry text)) = Ok g0 -> (2 <= g_cols g0)%nat -> (0 < g_rows g0)%nat -> 0 < g_dx g0 ->
  In n (names ++ ["fluvial"; "shoreline"]) -> class_at n (section_of ctx n) = Some cls -> dget String.eqb (section_of ctx n) k = Some v -> ~ takes cls k ->
  exists e, load_model E params (read_bathymetry text) names ctx c = Err e.
Proof.
  intros WB params text names ctx c g0 n cls k v El Hc Hr Hd I Cl Dk T.
  destruct (load_model E params (read_bathymetry text) names ctx c) as [r|e] eqn:Em; [exfalso|eauto].
  destruct (load_makes E WB _ _ _ _ _ _ _ El Hc Hr Hd Em n I) as (_ & h & _ & U).
  destruct (proj1 (handed_exists ctx names n)) as [s Hs].
  apply (U cls s TypeError); [rewrite (handed_class ctx names n _ I Hs); exact Cl|exact Hs|].
  left. split; [reflexivity|]. exists k, v. split; [|exact T]. apply (Hs k). unfold given. apply existsb_In in I. rewrite I.
  unfold value. unfold section_of in Dk. destruct (dget String.eqb ctx n); [exact Dk|discriminate].
Qed.
