(** Models follow the curves that their parameters describe. *)
From Coq Require Import String List ZArith QArith Bool Arith Lia.
From Verif.Base Require Import Num Py Arr.
From Verif.Model Require Import Layers Grid Archive Interp Shoreline SeaLevel Subsidence Flexure Submarine Fluvial Sequence SequenceModel Setattr Info Processes Whole.
From Verif.Spec Require Import Declared Ordering Session Configured Followed.
From Verif.Proofs Require Import ProcessesP DeclaredP OrderP.
Import ListNotations.
Local Open Scope string_scope.
Local Open Scope list_scope.

(** ** what the parameters of a process are *)
Section Load.
  Context {V : Type} (veqb : V -> V -> bool).
  Lemma match_pair_other st d1 d2 keys n : n <> d1 -> n <> d2 -> params_of (fst (match_pair veqb st (d1, d2, keys))) n = params_of (fst st) n.
  Proof.
    intros N1 N2. apply String.eqb_neq in N1, N2. unfold match_pair. destruct (match_values _ _ _ _); cbn [fst]; [|reflexivity].
    rewrite !params_of_dset, N2, N1. reflexivity.
  Qed.
  Definition unmatched (n : string) : Prop := Forall (fun p => n <> fst (fst p) /\ n <> snd (fst p)) params_to_match.
  Lemma matched_other ctx names n : unmatched n -> In n names ->
    params_of (fst (match_params veqb (own_params ctx names))) n = section_of ctx n.
  Proof.
    intros U I. unfold match_params.
    assert (G : forall l st, Forall (fun p => n <> fst (fst p) /\ n <> snd (fst p)) l -> params_of (fst (fold_left (match_pair veqb) l st)) n = params_of (fst st) n).
    { induction l as [|[[d1 d2] ks] l IH]; intros st F; [reflexivity|]. inversion F; subst. cbn [fold_left]. rewrite IH by assumption.
      apply match_pair_other; apply H1. }
    rewrite (G _ _ U). cbn [fst]. rewrite own_params_of. unfold section_of, params_of.
    assert (Y : existsb (String.eqb n) names = true) by (apply existsb_exists; exists n; split; [exact I|apply String.eqb_refl]). rewrite ?Y. reflexivity.
  Qed.
End Load.

Section F.
  Context {A X : Type} {num : Num A} {tr : Trans A} (E : externals A X).
  Notation step := (process_step (ex_interp1d E) (ex_diffuse E) (ex_flexure E) (ex_gravity E)).

  (** ** what the parts of a loaded model are; [I] is kept by making them *)
  Section Made.
    Context (I : grid A -> Prop) (KI : forall cls s g p g', I g -> make E cls s g = Ok (p, g') -> I g').
    Lemma fold_made params : forall names objs g objs' g', I g ->
      foldM (fun st name => let* cls := process_class params name in let* (p, g) := make E cls (params_of params name) (snd st) in
                            Ok (fst st ++ [(name, p)], g)) names (objs, g) = Ok (objs', g') ->
      I g' /\ forall n p, In (n, p) objs' -> In (n, p) objs \/ (In n names /\ exists cls h h', I h /\ process_class params n = Ok cls /\ make E cls (params_of params n) h = Ok (p, h')).
    Proof.
      induction names as [|n names IH]; intros objs g objs' g' Hg; cbn [foldM].
      - intros H. assert (objs = objs' /\ g = g') as [<- <-] by (split; congruence). auto.
      - cbn [fst snd]. destruct (process_class params n) as [cls|] eqn:Ec; cbn [bind]; [|discriminate].
        destruct (make E cls _ g) as [[p g1]|] eqn:Em; cbn [bind]; [|discriminate]. intros H.
        destruct (IH _ _ _ _ (KI _ _ _ _ _ Hg Em) H) as [Ig R]. split; [exact Ig|]. intros k q Hk. destruct (R k q Hk) as [Hi|[Hi He]].
        + apply in_app_or in Hi as [Hi|[Hi|[]]]; [auto|]. right. assert (n = k /\ p = q) as [<- <-] by (split; congruence).
          split; [left; reflexivity|]. exists cls, g, g1. auto.
        + right. split; [right; exact Hi|exact He].
    Qed.
    Lemma dupdate_in {B} (objs : list (string * B)) : forall d n p, dget String.eqb (dupdate String.eqb d objs) n = Some p ->
      In (n, p) objs \/ dget String.eqb d n = Some p.
    Proof.
      induction objs as [|[k v] objs IH]; intros d n p Hd; [right; exact Hd|]. unfold dupdate in Hd. cbn [fold_left fst snd] in Hd.
      destruct (IH _ _ _ Hd) as [H|H]; [left; right; exact H|]. rewrite (dget_dset _ String.eqb_eq) in H.
      destruct (String.eqb n k) eqn:N; [|auto]. apply String.eqb_eq in N. left. left. congruence.
    Qed.
    Lemma load_made g names ctx ps g' : I g -> load_processes same_value (make E) g names ctx = Ok (ps, g') ->
      I g' /\ NoDup (map fst ps) /\ forall n p, dget String.eqb ps n = Some p -> In n (with_required names) /\ exists cls h h', I h
        /\ process_class (fst (match_params same_value (own_params ctx (with_required names)))) n = Ok cls
        /\ make E cls (params_of (fst (match_params same_value (own_params ctx (with_required names)))) n) h = Ok (p, h').
    Proof.
      intros Hg. unfold load_processes. cbv zeta. set (params := fst _). destruct (foldM _ _ _) as [[objs g1]|] eqn:Ef; cbn [bind]; [|discriminate].
      intros H. assert (ps = dupdate String.eqb [] objs /\ g1 = g') as [-> <-] by (split; congruence).
      destruct (fold_made params _ _ _ _ _ Hg Ef) as [Ig R]. split; [exact Ig|]. split; [apply (NoDup_dupdate _ String.eqb_eq); constructor|].
      intros n p Hd. apply dupdate_in in Hd as [Hd|Hd]; [|discriminate]. destruct (R _ _ Hd) as [[]|Y]. exact Y.
    Qed.
  End Made.

  (** ** the component of a name in a step *)
  Lemma part_step_kind dt p g p' g' : part_step E dt (p, g) = Ok (p', g') -> part_kind p' = part_kind p.
  Proof.
    unfold part_step. cbn [fst snd]. destruct p as [q|x].
    - destruct (step dt (q, g)) as [[q1 g1]|] eqn:S; cbn [bind]; [|discriminate]. intros H. assert (Z : p' = Ours q1) by congruence. subst p'. cbn. f_equal.
      exact (proj1 (step_writes _ _ _ _ _ _ _ _ _ S)).
    - destruct (ex_step E dt (x, g)) as [[q1 g1]|]; cbn [bind]; [|discriminate]. intros H. assert (Z : p' = Extra q1) by congruence. subst p'. reflexivity.
  Qed.
  (* the run of all the components, seen from one of them *)
  Lemma run_one {B} (P : grid A -> B) (ok : part A X -> Prop) dt n : 
    (forall p g p' g', ok p -> part_step E dt (p, g) = Ok (p', g') -> ok p' /\ P g' = P g) ->
    forall names ps g ps' g', NoDup names -> In n names ->
    (forall k q, k <> n -> dget String.eqb ps k = Some q -> ok q) ->
    run_components (map (step_of E) names) dt (ps, g) = Ok (ps', g') ->
    exists p p' h h', dget String.eqb ps n = Some p /\ part_step E dt (p, h) = Ok (p', h') /\ P h = P g /\ P g' = P h' /\ dget String.eqb ps' n = Some p'
      /\ forall k q, k <> n -> dget String.eqb ps' k = Some q -> ok q.
  Proof.
    intros OK. unfold run_components.
    assert (G : forall names ps g ps' g', ~ In n names -> (forall k q, k <> n -> dget String.eqb ps k = Some q -> ok q) ->
      foldM (fun (wg : parts A X * grid A) (c : component A (parts A X)) => c dt wg) (map (step_of E) names) (ps, g) = Ok (ps', g') ->
      P g' = P g /\ dget String.eqb ps' n = dget String.eqb ps n /\ forall k q, k <> n -> dget String.eqb ps' k = Some q -> ok q).
    { induction names as [|a names IH]; intros ps g ps' g' N O; cbn [map foldM].
      - intros H. assert (ps = ps' /\ g = g') as [<- <-] by (split; congruence). auto.
      - unfold step_of at 1. cbn [fst snd]. destruct (dget String.eqb ps a) as [q|] eqn:D; [|discriminate].
        destruct (part_step E dt (q, g)) as [[q1 g1]|] eqn:S; cbn [bind]; [|discriminate]. intros H.
        assert (Na : a <> n) by (intros ->; apply N; left; reflexivity). destruct (OK _ _ _ _ (O a q Na D) S) as [O1 P1].
        apply IH in H; [|intros Y; apply N; right; exact Y|].
        + destruct H as (HP & HD & HO). rewrite HP, P1, HD, (dget_dset _ String.eqb_eq).
          assert (F : String.eqb n a = false) by (apply String.eqb_neq; congruence). rewrite F. auto.
        + intros k r Hk. rewrite (dget_dset _ String.eqb_eq). destruct (String.eqb k a) eqn:Ka; [|apply O, Hk]. intros Y. assert (q1 = r) by congruence. subst. exact O1. }
    induction names as [|a names IH]; intros ps g ps' g' N I O; [destruct I|]. cbn [map foldM]. unfold step_of at 1. cbn [fst snd].
    destruct (dget String.eqb ps a) as [q|] eqn:D; [|discriminate]. destruct (part_step E dt (q, g)) as [[q1 g1]|] eqn:S; cbn [bind]; [|discriminate]. intros H.
    inversion N as [|? ? Na N']; subst. destruct (string_dec a n) as [->|Nan].
    - apply G in H; [|exact Na|].
      + destruct H as (HP & HD & HO). exists q, q1, g, g1. rewrite (dget_dset _ String.eqb_eq), String.eqb_refl in HD. auto 10.
      + intros k r Hk. rewrite (dget_dset _ String.eqb_eq). destruct (String.eqb_spec k n) as [->|]; [congruence|]. apply O, Hk.
    - destruct I as [I|I]; [congruence|]. destruct (OK _ _ _ _ (O a q Nan D) S) as [O1 P1]. apply IH in H; [|exact N'|exact I|].
      + destruct H as (p & p' & h & h' & Dp & Sp & P2 & P3 & Dp' & O'). exists p, p', h, h'. rewrite (dget_dset _ String.eqb_eq) in Dp.
        assert (F : String.eqb n a = false) by (apply String.eqb_neq; congruence). rewrite F in Dp. rewrite P2. auto 10.
      + intros k r Hk. rewrite (dget_dset _ String.eqb_eq). destruct (String.eqb k a) eqn:Ka; [|apply O, Hk]. intros Y. assert (q1 = r) by congruence. subst. exact O1.
  Qed.

  (** ** the rest of a step leaves the values of the grid alone *)
  Ltac head r := lazymatch r with bind ?s _ => head s | _ => r end.
  Ltac dr H := match type of H with ?r = _ => let s := head r in destruct s eqn:?; cbn [bind] in H; [|discriminate H] end.
  Lemma set_profile_gval (g : grid A) n v g' k : set_profile g n v = Ok g' -> gval g' k = gval g k.
  Proof. unfold set_profile. intros H. dr H. injection H as <-. reflexivity. Qed.
  Lemma clear_gval (g : grid A) g' k : clear_deposit g = Ok g' -> gval g' k = gval g k.
  Proof. unfold clear_deposit. intros H. dr H. injection H as <-. reflexivity. Qed.
  Lemma update_gval (g : grid A) g' k : update_fields g = Ok g' -> gval g' k = gval g k.
  Proof.
    unfold update_fields. intros H. dr H. destruct (update_load g) as [g1|] eqn:E1; cbn [bind] in H; [|discriminate].
    destruct (apply_increment g1) as [g2|] eqn:E2; cbn [bind] in H; [|discriminate]. destruct (settle g2) as [g3|] eqn:E3; cbn [bind] in H; [|discriminate]. dr H.
    assert (H1 : gval g1 k = gval g k).
    { unfold update_load in E1. destruct (has_node g _); [|congruence]. do 6 dr E1. eapply set_profile_gval, E1. }
    assert (H2 : gval g2 k = gval g1 k).
    { unfold apply_increment in E2. destruct (has_node g1 _); [|congruence]. do 2 dr E2. injection E2 as <-. reflexivity. }
    assert (H3 : gval g3 k = gval g2 k).
    { unfold settle in E3. do 2 dr E3. injection E3 as <-. reflexivity. }
    rewrite <- H1, <- H2, <- H3. destruct (has_node g3 _); [eapply set_profile_gval, H|congruence].
  Qed.
  (* what a step of the model does *)
  Lemma stepped names dt m m' : run_one_step (named_processes E names) dt m = Stepped m' ->
    sm_clock m' = fst (clock_advance (sm_clock m)) /\ exists g ps h el h', clear_deposit (sm_grid m) = Ok g
      /\ run_components (map (step_of E) names) (step_used dt m) (sm_world m, g) = Ok (ps, h)
      /\ sm_world m' = ps /\ update_fields (set_layers h el) = Ok h' /\ sm_grid m' = set_layers h' (layers (sm_grid m')).
  Proof.
    unfold run_one_step. fold (step_used dt m). destruct (clock_advance (sm_clock m)) as [c stop]. destruct stop; [discriminate|].
    destruct (advance_components _ _ _) as [m1|] eqn:Ea; [|discriminate]. intros H. assert (m1 = m') by congruence. subst m1. clear H.
    unfold advance_components, named_processes, pr_components, pr_porosity in Ea. cbn [sm_grid sm_world sm_clock sm_archived] in Ea.
    destruct (clear_deposit (sm_grid m)) as [g|] eqn:E1; cbn [bind] in Ea; [|discriminate].
    destruct (run_components _ _ _) as [[ps h]|] eqn:E2; cbn [bind] in Ea; [|discriminate]. do 3 dr Ea.
    destruct (update_fields _) as [h'|] eqn:E3; cbn [bind] in Ea; [|discriminate]. destruct (archive _) as [na el]. cbn [bind] in Ea.
    assert (Z : m' = mkModel ps (set_layers h' el) c na) by congruence. subst m'. split; [reflexivity|]. eauto 12.
  Qed.

  (** ** the sea level *)
  Definition is_sea (p : part A X) : bool := match p with Ours (PSeaLevel _) | Ours (PSinusoid _) => true | _ => false end.
  Definition sea_comp (p : part A X) : option (sea_level_comp A) := match p with Ours (PSeaLevel c) | Ours (PSinusoid c) => Some c | _ => None end.
  Lemma is_sea_kind p p' : part_kind p' = part_kind p -> is_sea p' = is_sea p.
  Proof. destruct p as [[]|], p' as [[]|]; cbn; congruence. Qed.
  Definition sea_values (g : grid A) := (gval g "sea_level__elevation", gval g "sea_level__increment_of_elevation").
  Lemma other_leaves : leaves_sea E -> forall dt p g p' g', is_sea p = false -> part_step E dt (p, g) = Ok (p', g') -> is_sea p' = false /\ sea_values g' = sea_values g.
  Proof.
    intros L dt p g p' g' O S. split; [rewrite (is_sea_kind _ _ (part_step_kind _ _ _ _ _ S)); exact O|].
    unfold part_step in S. cbn [fst snd] in S. unfold sea_values. destruct p as [q|x].
    - destruct (step dt (q, g)) as [[q1 g1]|] eqn:S1; cbn [bind] in S; [|discriminate]. assert (g1 = g') by congruence. subst g1.
      apply step_writes in S1. destruct S1 as (_ & _ & _ & C).
      pose proof (C ("sea_level__elevation", AtGrid)) as C1. pose proof (C ("sea_level__increment_of_elevation", AtGrid)) as C2. cbn [same_field fst snd] in C1, C2.
      unfold same_field in C1, C2. cbn [fst snd] in C1, C2.
      rewrite <- C1, <- C2; [reflexivity| |]; destruct q; try discriminate O; cbn; intuition discriminate.
    - destruct (ex_step E dt (x, g)) as [[q1 g1]|] eqn:S1; cbn [bind] in S; [|discriminate]. assert (g1 = g') by congruence. subst g1.
      destruct (L _ _ _ _ _ S1) as [-> ->]. reflexivity.
  Qed.
  Lemma sea_stepped dt p g p' g' c : sea_comp p = Some c -> part_step E dt (p, g) = Ok (p', g') ->
    exists v old, sea_comp p' = Some (mkSeaLevel (slc_curve c) (nadd (slc_time c) dt)) /\ slc_curve c (nadd (slc_time c) dt) = Ok v
      /\ gval g "sea_level__elevation" = Some old /\ sea_values g' = (Some v, Some (nsub v old)).
  Proof.
    intros Hc S. unfold part_step in S. cbn [fst snd] in S. destruct p as [[]|]; try discriminate Hc; cbn in Hc; assert (c0 = c) by congruence; subst c0;
      unfold process_step, sea_level_step in S; cbv zeta in S; destruct (gval g "sea_level__elevation") as [old|] eqn:Eo; try discriminate S; cbn [slc_curve slc_time] in S;
      destruct (slc_curve c (nadd (slc_time c) dt)) as [v|] eqn:Ev; try discriminate S; cbn [bind] in S; exists v, old;
      (assert (Z : forall T (a b : T), Ok a = Ok b -> a = b) by congruence); apply Z in S; pose proof (f_equal fst S) as S1; pose proof (f_equal snd S) as S2; cbn [fst snd] in S1, S2; subst p' g';
      (split; [reflexivity|]; split; [reflexivity|]; split; [reflexivity|]); unfold sea_values; rewrite !gval_dset; reflexivity.
  Qed.

  Definition sea_inv (names : list string) (m : smodel A (parts A X)) (f : A -> result A) : Prop :=
    NoDup names /\ In "sea_level" names /\ (forall k q, k <> "sea_level" -> dget String.eqb (sm_world m) k = Some q -> is_sea q = false)
    /\ exists p c, dget String.eqb (sm_world m) "sea_level" = Some p /\ sea_comp p = Some c /\ slc_curve c = f /\ slc_time c = ck_time (sm_clock m).
  Lemma step_sea names dt m m' f : leaves_sea E -> sea_inv names m f -> step_used dt m = ck_step (sm_clock m) ->
    run_one_step (named_processes E names) dt m = Stepped m' ->
    sea_inv names m' f /\ exists v old, f (ck_time (sm_clock m')) = Ok v /\ gval (sm_grid m) "sea_level__elevation" = Some old
      /\ gval (sm_grid m') "sea_level__elevation" = Some v /\ gval (sm_grid m') "sea_level__increment_of_elevation" = Some (nsub v old).
  Proof.
    intros L (N & I & O & p & c & Dp & Cp & Fc & Tc) Hd H. destruct (stepped _ _ _ _ H) as (Ck & g & ps & h & el & h' & E1 & E2 & <- & E3 & E4). rewrite Hd in E2.
    destruct (run_one sea_values (fun p => is_sea p = false) (ck_step (sm_clock m)) "sea_level" (other_leaves L _) _ _ _ _ _ N I O E2)
      as (p0 & p' & k & k' & Dp0 & Sp & P1 & P2 & Dp' & O'). rewrite Dp in Dp0. assert (p0 = p) by congruence. subst p0.
    destruct (sea_stepped _ _ _ _ _ _ Cp Sp) as (v & old & Cp' & Ev & Eo & Es).
    assert (T : ck_time (sm_clock m') = nadd (ck_time (sm_clock m)) (ck_step (sm_clock m))) by (rewrite Ck; reflexivity).
    split.
    - split; [exact N|]. split; [exact I|]. split; [exact O'|]. exists p', (mkSeaLevel (slc_curve c) (nadd (slc_time c) (ck_step (sm_clock m)))).
      split; [exact Dp'|]. split; [exact Cp'|]. split; [exact Fc|]. cbn [slc_time]. rewrite T, Tc. reflexivity.
    - exists v, old. rewrite T, <- Fc, <- Tc. split; [exact Ev|].
      assert (Z : forall n, gval (sm_grid m') n = gval h n) by (intros n; rewrite E4; change (gval h' n = gval (set_layers h el) n); eapply update_gval, E3).
      rewrite !Z. rewrite Es in P2. unfold sea_values in P1, P2. split; [|split; congruence].
      rewrite <- (clear_gval _ _ "sea_level__elevation" E1). congruence.
  Qed.

  (** assigning *)
  Definition tabled (f : A -> result A) (v : pvalue A) : A -> result A := match v with Table x y => interp_linear x y | _ => f end.
  Definition is_table (v : pvalue A) : Prop := match v with Table _ _ => True | _ => False end.
  Lemma newest_fold process params f : Forall is_table (assigned process "filepath" params) ->
    newest process params f = fold_left tabled (assigned process "filepath" params) f.
  Proof.
    unfold newest. generalize (assigned process "filepath" params) as l. intros l. destruct l as [|v l _] using rev_ind; intros F; [reflexivity|].
    rewrite rev_app_distr, fold_left_app. cbn. apply Forall_app in F as [_ F]. inversion F; subst. destruct v; [contradiction|reflexivity].
  Qed.
  Definition given (key : string) (kvs : section (pvalue A)) : list (pvalue A) := map snd (filter (fun kv => String.eqb (fst kv) key) kvs).
  Lemma sea_sets kvs : forall p g p' g' c, sea_comp p = Some c -> given "time" kvs = [] ->
    foldM (fun pg kv => part_set E (fst kv) (snd kv) pg) kvs (p, g) = Ok (p', g') ->
    Forall is_table (given "filepath" kvs) /\ exists c', sea_comp p' = Some c' /\ slc_time c' = slc_time c /\ slc_curve c' = fold_left tabled (given "filepath" kvs) (slc_curve c).
  Proof.
    induction kvs as [|[k v] kvs IH]; intros p g p' g' c Hc Ht; cbn [foldM fst snd].
    - intros H. assert (p = p') by congruence. subst. split; [constructor|]. exists c. auto.
    - intros H. destruct (part_set E k v (p, g)) as [[p1 g1]|] eqn:S; cbn [bind] in H; [|discriminate].
      unfold given in Ht |- *. cbn [filter fst map] in Ht |- *. destruct (String.eqb k "time") eqn:Kt; [discriminate|].
      unfold part_set in S. cbn [fst snd] in S. destruct p as [[]|]; try discriminate Hc; cbn in Hc; assert (c0 = c) by congruence; subst c0;
        unfold set_attribute in S; rewrite Kt in S.
      + destruct (String.eqb k "filepath") eqn:Kf.
        * destruct v as [v|x y]; cbn [as_file bind fst snd] in S; [discriminate|]. assert (Y : p1 = Ours (PSeaLevel (sea_level_set_file x y c)) /\ g1 = g) by (split; congruence).
          destruct Y as [-> ->]. destruct (IH (Ours (PSeaLevel (sea_level_set_file x y c))) _ _ _ (sea_level_set_file x y c) eq_refl Ht H) as [F (c' & C1 & C2 & C3)]. cbn [map snd fold_left tabled]. split; [constructor; [exact Logic.I|exact F]|].
          exists c'. split; [exact C1|]. split; [exact C2|]. exact C3.
        * cbn [bind] in S. assert (Y : p1 = Ours (PSeaLevel c)) by congruence. subst p1. exact (IH (Ours (PSeaLevel c)) _ _ _ c eq_refl Ht H).
      + destruct (String.eqb k "filepath") eqn:Kf; [destruct v; cbn [as_file bind] in S; discriminate|].
        cbn [bind] in S. assert (Y : p1 = Ours (PSinusoid c)) by congruence. subst p1. exact (IH (Ours (PSinusoid c)) _ _ _ c eq_refl Ht H).
  Qed.
  Lemma assigned_cons process key n kvs params : assigned process key ((n, kvs) :: params) = (if String.eqb n process then given key kvs else []) ++ assigned process key params.
  Proof. reflexivity. Qed.
  Lemma sea_set_all params : forall ps g ps' g' p c, assigned "sea_level" "time" params = [] ->
    (forall k q, k <> "sea_level" -> dget String.eqb ps k = Some q -> is_sea q = false) ->
    dget String.eqb ps "sea_level" = Some p -> sea_comp p = Some c -> foldM (set_one E) params (ps, g) = Ok (ps', g') ->
    Forall is_table (assigned "sea_level" "filepath" params) /\ (forall k q, k <> "sea_level" -> dget String.eqb ps' k = Some q -> is_sea q = false)
    /\ exists p' c', dget String.eqb ps' "sea_level" = Some p' /\ sea_comp p' = Some c' /\ slc_time c' = slc_time c
       /\ slc_curve c' = fold_left tabled (assigned "sea_level" "filepath" params) (slc_curve c).
  Proof.
    induction params as [|[n kvs] params IH]; intros ps g ps' g' p c Ht O Dp Cp; cbn [foldM].
    - intros H. assert (ps = ps') by congruence. subst. split; [constructor|]. split; [exact O|]. exists p, c. auto.
    - rewrite assigned_cons in Ht |- *. unfold set_one at 1. cbn [fst snd]. destruct (dget String.eqb ps n) as [q|] eqn:D; [|discriminate].
      destruct (foldM _ kvs (q, g)) as [[q1 g1]|] eqn:S; cbn [bind]; [|discriminate]. intros H. apply app_eq_nil in Ht as [Ht1 Ht2].
      destruct (String.eqb n "sea_level") eqn:Kn.
      + apply String.eqb_eq in Kn. subst n. rewrite Dp in D. assert (p = q) by congruence. subst q.
        destruct (sea_sets _ _ _ _ _ _ Cp Ht1 S) as [F (c1 & C1 & C2 & C3)].
        refine (_ (IH _ _ _ _ q1 c1 Ht2 _ _ C1 H)).
        * intros (F' & O' & p' & c' & D' & X1 & X2 & X3). split; [apply Forall_app; auto|]. split; [exact O'|]. exists p', c'.
          rewrite fold_left_app, <- C3. split; [exact D'|]. split; [exact X1|]. split; [congruence|exact X3].
        * intros k r Hk. rewrite (dget_dset _ String.eqb_eq). destruct (String.eqb_spec k "sea_level"); [congruence|]. apply O, Hk.
        * rewrite (dget_dset _ String.eqb_eq), String.eqb_refl. reflexivity.
      + cbn [app]. assert (Nn : n <> "sea_level") by (apply String.eqb_neq, Kn).
        refine (IH _ _ _ _ p c Ht2 _ _ Cp H).
        * intros k r Hk. rewrite (dget_dset _ String.eqb_eq). destruct (String.eqb k n) eqn:Kk; [|apply O, Hk]. intros Y. assert (q1 = r) by congruence. subst r.
          rewrite (is_sea_kind _ _ (sets_kind _ _ _ _ _ _ S)). exact (O n q Nn D).
        * rewrite (dget_dset _ String.eqb_eq). destruct (String.eqb_spec "sea_level" n); [congruence|]. exact Dp.
  Qed.
  Lemma set_sea names params m m' f : sea_inv names m f -> assigned "sea_level" "time" params = [] -> set_model_params E params m = Ok m' ->
    sea_inv names m' (newest "sea_level" params f).
  Proof.
    intros (N & I & O & p & c & Dp & Cp & Fc & Tc) Ht H. rewrite set_model_is in H.
    destruct (foldM (set_one E) params (sm_world m, sm_grid m)) as [[ps g]|] eqn:S; cbn [bind] in H; [|discriminate].
    assert (Z : m' = mkModel ps g (sm_clock m) (sm_archived m)) by congruence. subst m'.
    destruct (sea_set_all _ _ _ _ _ _ _ Ht O Dp Cp S) as (F & O' & p' & c' & D' & C' & T' & F').
    split; [exact N|]. split; [exact I|]. split; [exact O'|]. exists p', c'. split; [exact D'|]. split; [exact C'|].
    split; [rewrite (newest_fold _ _ _ F), F', Fc; reflexivity|]. cbn [sm_clock]. congruence.
  Qed.
  Lemma followed_inv names m0 f0 m f : leaves_sea E -> sea_inv names m0 f0 -> followed E names "sea_level" m0 f0 m f -> sea_inv names m f.
  Proof.
    intros L I0 H. induction H as [|m f dt m' _ IH Hd Hs|m f params m' _ IH Ht Hs]; [exact I0| |].
    - exact (proj1 (step_sea _ _ _ _ _ L IH Hd Hs)).
    - exact (set_sea _ _ _ _ _ IH Ht Hs).
  Qed.

  (** ** a loaded model *)
  Lemma sea_unmatched : unmatched "sea_level". Proof. repeat constructor; discriminate. Qed.
  Lemma kwd_number (s : section (pvalue A)) k d v : kwd s k d = Ok v -> v = number s k d.
  Proof. unfold kwd, number. destruct (dget String.eqb s k) as [[]|]; congruence. Qed.
  Lemma made_curve params h p h' cls : process_class params "sea_level" = Ok cls -> make E cls (params_of params "sea_level") h = Ok (p, h') ->
    exists c, sea_comp p = Some c /\ slc_curve c = described_curve (params_of params "sea_level").
  Proof.
    intros Hc Hm. apply class_sea in Hc. unfold lookup in Hc. set (s := params_of params "sea_level") in *. unfold described_curve.
    destruct (dget String.eqb s "filepath") as [v|] eqn:Ef; subst cls; unfold make in Hm.
    - change (class_named "SeaLevelTimeSeries") with (Some SeaLevelTimeSeries) in Hm. cbv iota in Hm. unfold construct in Hm. destruct (negb _); [discriminate|].
      unfold kwd_file in Hm. rewrite Ef in Hm. destruct v as [v|x y]; cbn [bind] in Hm; [discriminate|].
      destruct (kwd s "start" n0) as [t|]; cbn [bind fst snd] in Hm; [|discriminate]. exists (mkSeaLevel (sea_level_interpolator x y) t).
      assert (Y : p = Ours (PSeaLevel (mkSeaLevel (sea_level_interpolator x y) t))) by congruence. rewrite Y. split; reflexivity.
    - change (class_named "SinusoidalSeaLevel") with (Some SinusoidalSeaLevel) in Hm. cbv iota in Hm. unfold construct in Hm. destruct (negb _); [discriminate|].
      repeat match type of Hm with context [kwd s ?k ?d] => destruct (kwd s k d) eqn:?; cbn [bind] in Hm; [|discriminate] end.
      repeat match goal with H : kwd _ _ _ = Ok _ |- _ => apply kwd_number in H; subst end.
      match type of Hm with Ok (Ours (PSinusoid ?q), _) = _ => assert (Y : p = Ours (PSinusoid q)) by congruence; exists q end. rewrite Y. split; reflexivity.
  Qed.
  Lemma other_not_sea params n h p h' cls : n <> "sea_level" -> process_class params n = Ok cls -> make E cls (params_of params n) h = Ok (p, h') -> is_sea p = false.
  Proof.
    intros N Hc Hm. unfold process_class in Hc. cbn [dget] in Hc.
    assert (K : forall c s, construct (ex_interp1d E) c s h = Ok (match p with Ours q => q | Extra _ => PShoreline n0 end, h') -> class_named cls = Some c -> c <> SeaLevelTimeSeries -> c <> SinusoidalSeaLevel -> is_sea p = false).
    { intros c s Hk _ N1 N2. destruct p as [q|]; [|reflexivity]. cbn. unfold construct in Hk. destruct (negb _); [discriminate|].
      destruct c; try congruence;
        repeat match type of Hk with
        | context [kwd s ?k ?d] => destruct (kwd s k d); cbn [bind] in Hk; [|discriminate]
        | context [kwd_file s ?k] => destruct (kwd_file s k); cbn [bind] in Hk; [|discriminate]
        | bind ?r _ = _ => destruct r as [?|]; cbn [bind] in Hk; [|discriminate]
        | (let (_, _) := ?r in _) = _ => destruct r; cbn [bind] in Hk
        end; try discriminate;
        match type of Hk with Ok (?a, _) = _ => assert (Y : q = a) by congruence; rewrite Y; reflexivity end. }
    unfold make in Hm.
    repeat match type of Hc with (if String.eqb n ?k then _ else _) = _ => destruct (String.eqb_spec n k) as [->|?] | (match (if String.eqb n ?k then _ else _) with _ => _ end) = _ => destruct (String.eqb_spec n k) as [->|?] end; try congruence;
      (assert (Z : forall T (a b : T), Ok a = Ok b -> a = b) by congruence); apply Z in Hc; subst cls; cbn [class_named dget String.eqb Ascii.eqb Bool.eqb] in Hm;
      match type of Hm with
      | context [construct _ ?c ?s h] => destruct (construct (ex_interp1d E) c s h) as [[q k]|] eqn:Eq; cbn [bind] in Hm; [|discriminate];
          assert (Y : p = Ours q /\ h' = k) by (split; congruence); destruct Y as [-> ->]; apply (K c s Eq); [reflexivity|discriminate|discriminate]
      | context [ex_make E ?c ?s h] => destruct (ex_make E c s h) as [[q k]|]; cbn [bind] in Hm; [|discriminate]; assert (Y : p = Extra q) by congruence; subst p; reflexivity
      end.
  Qed.
  Lemma init_world {W} (pr : processes A W) w (g : grid A) c m : model_init pr w g c = Ok m -> sm_world m = pr_set_sea_time pr (ck_time c) w /\ sm_clock m = c.
  Proof.
    unfold model_init. intros H. dr H. dr H. dr H. dr H. match type of H with bind ?r _ = _ => destruct r; cbn [bind] in H; [|discriminate] end.
    injection H as <-. split; reflexivity.
  Qed.
  Lemma load_parts params read names ctx c names' m : load_model E params read names ctx c = Ok (names', m) ->
    exists g0 ps g, load_grid params (Some read) = Ok g0 /\ load_processes same_value (make E) g0 names ctx = Ok (ps, g)
      /\ model_init (named_processes E (map fst ps)) ps g c = Ok m /\ names' = map fst ps.
  Proof.
    unfold load_model. destruct (load_grid _ _) as [g0|]; cbn [bind]; [|discriminate]. destruct (load_processes _ _ _ _ _) as [[ps g]|] eqn:El; cbn [bind]; [|discriminate].
    destruct (model_init _ _ _ _) as [m1|] eqn:Em; cbn [bind]; [|discriminate]. intros H. exists g0, ps, g. assert (m1 = m) by congruence. subst m1. split; [reflexivity|]. split; [exact El|]. split; [exact Em|congruence].
  Qed.
  Lemma dkeys_dget {B} (d : list (string * B)) n : In n (map fst d) -> exists v, dget String.eqb d n = Some v.
  Proof. intros H. destruct (dget String.eqb d n) eqn:D; [eauto|]. apply (dget_none_iff _ String.eqb_eq) in D. contradiction. Qed.
  Lemma loaded_sea params read names ctx c names' m : load_model E params read names ctx c = Ok (names', m) -> In "sea_level" names' ->
    sea_inv names' m (described_curve (section_of ctx "sea_level")).
  Proof.
    intros H Hs. destruct (load_parts _ _ _ _ _ _ _ H) as (g0 & ps & g & _ & El & Em & ->).
    destruct (load_made (fun _ => True) (fun _ _ _ _ _ _ _ => Logic.I) _ _ _ _ _ Logic.I El) as (_ & N & M). destruct (init_world _ _ _ _ _ Em) as [Ew Ec].
    destruct (dkeys_dget ps "sea_level" Hs) as [p Dp]. destruct (M _ _ Dp) as (In1 & cls & h & h' & _ & Hc & Hm).
    destruct (made_curve _ _ _ _ _ Hc Hm) as (cc & Cc & Fc). rewrite (matched_other same_value ctx _ _ sea_unmatched In1) in Fc.
    assert (W : sm_world m = dset String.eqb ps "sea_level" (match p with Ours (PSinusoid _) => Ours (PSinusoid (sea_level_set_time (ck_time c) cc)) | _ => Ours (PSeaLevel (sea_level_set_time (ck_time c) cc)) end)).
    { rewrite Ew. cbn [named_processes pr_set_sea_time]. unfold set_sea_time. rewrite Dp. destruct p as [[]|]; try discriminate Cc; cbn in Cc; assert (c0 = cc) by congruence; subst c0; reflexivity. }
    split; [exact N|]. split; [exact Hs|]. split.
    - intros k q Hk. rewrite W, (dget_dset _ String.eqb_eq). destruct (String.eqb_spec k "sea_level"); [congruence|]. intros Dq.
      destruct (M _ _ Dq) as (_ & cls1 & h1 & h1' & _ & Hc1 & Hm1). exact (other_not_sea _ _ _ _ _ _ Hk Hc1 Hm1).
    - eexists. exists (sea_level_set_time (ck_time c) cc). rewrite W, (dget_dset _ String.eqb_eq), String.eqb_refl. split; [reflexivity|].
      split; [destruct p as [[]|]; reflexivity|]. split; [exact Fc|]. rewrite Ec. reflexivity.
  Qed.
  Theorem follows_curve params read names ctx c names' m0 m f dt m' : leaves_sea E ->
    load_model E params read names ctx c = Ok (names', m0) -> In "sea_level" names' ->
    followed E names' "sea_level" m0 (described_curve (section_of ctx "sea_level")) m f ->
    step_used dt m = ck_step (sm_clock m) -> run_one_step (named_processes E names') dt m = Stepped m' ->
    exists v old, f (ck_time (sm_clock m')) = Ok v /\ gval (sm_grid m) "sea_level__elevation" = Some old
      /\ gval (sm_grid m') "sea_level__elevation" = Some v /\ gval (sm_grid m') "sea_level__increment_of_elevation" = Some (nsub v old).
  Proof.
    intros L H Hs F Hd St. exact (proj2 (step_sea _ _ _ _ _ L (followed_inv _ _ _ _ _ L (loaded_sea _ _ _ _ _ _ _ H Hs) F) Hd St)).
  Qed.
End F.
