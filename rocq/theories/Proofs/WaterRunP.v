(** Models made from parameters with a WaterFlexure: it never raises. *)
From Coq Require Import String List ZArith QArith Bool Arith Reals Lra Lia.
From Verif.Base Require Import Num Py Arr.
From Verif.Model Require Import Layers Grid Csv Flexure Submarine Fluvial Sequence SequenceModel Setattr Processes Whole Water.
From Verif.Spec Require Import Column Configured Parameters Followed Turns Watered.
From Verif.Proofs Require Import OrderP GridP SequenceP SequenceModelP ScriptP ClockP ShapesP WholeP LoadP FollowP TurnsP WaterP.
Import ListNotations.
Local Open Scope string_scope.
Local Open Scope list_scope.
Local Open Scope R_scope.

(* something that holds of every unmodelled process of a model and its grid *)
Section Q.
  Context {X : Type} {tr : Trans R} (E : externals R X) (WB : well_behaved E) (Q : grid R -> X -> Prop).
  Hypothesis Qa : forall g g' x, g_rows g' = g_rows g -> g_cols g' = g_cols g -> grows g g' -> Q g x -> Q g' x.
  Hypothesis Qs : forall d g x x' g', whole_grid g -> Q g x -> ex_step E d (x, g) = Ok (x', g') -> Q g' x'.
  Hypothesis Qt : forall k v g x x' g', whole_grid g -> Q g x -> ex_set E k v (x, g) = Ok (x', g') -> Q g' x'.
  Hypothesis Qm : forall cls ps g x g', whole_grid g -> ex_make E cls ps g = Ok (x, g') -> Q g' x.

  Definition fine (ps : parts R X) (g : grid R) : Prop := forall n x, dget String.eqb ps n = Some (Extra x) -> Q g x.
  Lemma adds_Q g g' x : adds g g' -> Q g x -> Q g' x.
  Proof. intros (_ & R1 & C1 & _ & G & _). exact (Qa g g' x R1 C1 G). Qed.
  Lemma fine_adds ps g g' : adds g g' -> fine ps g -> fine ps g'.
  Proof. intros Ad F n x Hn. exact (adds_Q _ _ _ Ad (F n x Hn)). Qed.
  Lemma fine_put ps n p g g' : adds g g' -> fine ps g -> (forall x, p = Extra x -> Q g' x) -> fine (dset String.eqb ps n p) g'.
  Proof.
    intros Ad F Hp k x. rewrite (dget_dset _ String.eqb_eq). destruct (String.eqb k n).
    - intros Y. apply Hp. congruence.
    - intros Y. exact (adds_Q _ _ _ Ad (F k x Y)).
  Qed.
  Lemma stepped_Q d p g p' g' : whole_grid g -> (forall x, p = Extra x -> Q g x) -> part_step E d (p, g) = Ok (p', g') -> forall x, p' = Extra x -> Q g' x.
  Proof.
    intros W Hq Es x ->. unfold part_step in Es. cbn [fst snd] in Es. destruct p as [q|y].
    - destruct (process_step _ _ _ _ d (q, g)) as [[q' h]|]; cbn [bind] in Es; [|discriminate]. congruence.
    - destruct (ex_step E d (y, g)) as [[y' h]|] eqn:K; cbn [bind] in Es; [|discriminate]. assert (y' = x /\ h = g') as [-> ->] by (split; congruence).
      exact (Qs _ _ _ _ _ W (Hq y eq_refl) K).
  Qed.
  Lemma set_Q k v p g p' g' : whole_grid g -> (forall x, p = Extra x -> Q g x) -> part_set E k v (p, g) = Ok (p', g') -> forall x, p' = Extra x -> Q g' x.
  Proof.
    intros W Hq Es x ->. unfold part_set in Es. cbn [fst snd] in Es. destruct p as [q|y].
    - destruct (set_attribute k v (q, g)) as [[q' h]|]; cbn [bind] in Es; [|discriminate]. congruence.
    - destruct (ex_set E k v (y, g)) as [[y' h]|] eqn:K; cbn [bind] in Es; [|discriminate]. assert (y' = x /\ h = g') as [-> ->] by (split; congruence).
      exact (Qt _ _ _ _ _ _ W (Hq y eq_refl) K).
  Qed.

  Lemma run_fine all d : forall names ps g ps' g', incl names all -> sound all ps g -> fine ps g ->
    run_components (map (step_of E) names) d (ps, g) = Ok (ps', g') -> fine ps' g'.
  Proof.
    induction names as [|n names IH]; intros ps g ps' g' Hin Sd F H.
    - cbn in H. assert (ps' = ps /\ g' = g) as [-> ->] by (split; congruence). exact F.
    - cbn [map] in H. rewrite run_cons in H. unfold step_of at 1 in H. cbn [fst snd] in H.
      destruct (dget String.eqb ps n) as [p|] eqn:Ep; cbn [bind] in H; [|discriminate].
      destruct (part_step E d (p, g)) as [[p' g1]|] eqn:Es; cbn [bind] in H; [|discriminate].
      pose proof (proj2 (proj2 Sd) n p Ep) as Gp. destruct (part_stepped E WB _ _ _ _ _ (proj1 Sd) Gp Es) as [Ad Gp'].
      refine (IH _ _ _ _ (fun x Hx => Hin x (or_intror Hx)) (sound_put _ _ _ _ _ _ Sd Ad Gp') _ H).
      apply (fine_put _ _ _ _ _ Ad F). apply (stepped_Q d p g p' g1 (proj1 (proj1 Sd))); [|exact Es]. intros x ->. exact (F n x Ep).
  Qed.
  Lemma turn_fine all d names ps g p h : turn E d names ps g p h -> incl names all -> sound all ps g -> fine ps g ->
    whole_grid h /\ forall x, p = Extra x -> Q h x.
  Proof.
    intros T. induction T as [name rest ps g p Ep|name rest ps g p p' g' q h Ep Es T IH]; intros Hin Sd F.
    - split; [apply Sd|]. intros x ->. exact (F name x Ep).
    - pose proof (proj2 (proj2 Sd) name p Ep) as Gp. destruct (part_stepped E WB _ _ _ _ _ (proj1 Sd) Gp Es) as [Ad Gp'].
      apply IH; [exact (fun x Hx => Hin x (or_intror Hx))|exact (sound_put _ _ _ _ _ _ Sd Ad Gp')|].
      apply (fine_put _ _ _ _ _ Ad F). apply (stepped_Q d p g p' g' (proj1 (proj1 Sd))); [|exact Es]. intros x ->. exact (F name x Ep).
  Qed.

  Lemma step_ends names dt m m' : inv names m -> fine (sm_world m) (sm_grid m) -> run_one_step (named_processes E names) dt m = Stepped m' ->
    fine (sm_world m') (sm_grid m').
  Proof.
    intros [Hr Hs] F Es. unfold run_one_step in Es. destruct (clock_advance (sm_clock m)) as [c [|]]; [discriminate|].
    set (m1 := mkModel (sm_world m) (sm_grid m) c (sm_archived m)) in Es. cbv zeta in Es. fold (step_used dt m) in Es.
    destruct (advance_components _ (step_used dt m) m1) as [m2|] eqn:Ea; [|discriminate]. assert (m2 = m') by congruence. subst m2.
    unfold advance_components in Ea. destruct (clear_deposit (sm_grid m1)) as [g0|] eqn:Ec; cbn [bind] in Ea; [|discriminate].
    pose proof (clear_adds _ _ (proj1 Hr) Ec) as A0. cbn [pr_components named_processes] in Ea.
    pose proof (components_run E WB names (step_used dt m) names (sm_world m) g0 (incl_refl _) (sound_adds _ _ _ _ Hs A0)) as C.
    change (sm_world m1) with (sm_world m) in Ea. destruct (run_components _ (step_used dt m) (sm_world m, g0)) as [[w1 g1]|] eqn:Er; cbn [bind] in Ea; [|discriminate].
    destruct C as [S1 A1].
    assert (R1 : ready [SAND] g1) by (apply (ready_adds _ g0); [left; reflexivity| |exact A1]; apply (ready_adds _ (sm_grid m)); [left; reflexivity|exact Hr|exact A0]).
    destruct (after_ok [SAND] (named_processes E names) (sm_clock m1) (sm_archived m1) w1 g1 R1) as [m3 [E' [R' [Ew [Rr [Rc [Rd [Rn Rv]]]]]]]].
    unfold after_step in E'. rewrite E' in Ea. assert (m3 = m') by congruence. subst m3. rewrite Ew.
    pose proof (run_fine names (step_used dt m) names _ _ _ _ (incl_refl _) (sound_adds _ _ _ _ Hs A0) (fine_adds _ _ _ A0 F) Er) as F1.
    intros n x Hn. refine (Qa _ _ _ Rr Rc _ (F1 n x Hn)). split; intros k; rewrite ?has_iff, ?hasv_iff; [apply Rn|rewrite Rv; auto].
  Qed.
  Lemma sets_fine : forall (kvs : section (pvalue R)) p (g : grid R) p' g', solid g -> good g p -> (forall x, p = Extra x -> Q g x) ->
    foldM (fun pg kv => part_set E (fst kv) (snd kv) pg) kvs (p, g) = Ok (p', g') -> forall x, p' = Extra x -> Q g' x.
  Proof.
    induction kvs as [|[k v] kvs IH]; intros p g p' g' S G Hq Ef.
    - cbn in Ef. assert (p' = p /\ g' = g) as [-> ->] by (split; congruence). exact Hq.
    - cbn [foldM fst snd] in Ef. destruct (part_set E k v (p, g)) as [[p1 g1]|] eqn:Es; [|discriminate]. cbn [bind] in Ef.
      destruct (part_changed E WB _ _ _ _ _ _ S G Es) as (A1 & G1 & _). refine (IH p1 g1 p' g' (solid_adds _ _ S A1) G1 _ Ef).
      exact (set_Q _ _ _ _ _ _ (proj1 S) Hq Es).
  Qed.
  Lemma set_ends names params m m' : inv names m -> fine (sm_world m) (sm_grid m) -> set_model_params E params m = Ok m' -> fine (sm_world m') (sm_grid m').
  Proof.
    intros [_ Hs] F Es. unfold set_model_params in Es.
    match type of Es with bind ?r _ = _ => destruct r as [[ps g]|] eqn:K; [|discriminate Es] end. cbn [bind] in Es.
    assert (Y : m' = mkModel ps g (sm_clock m) (sm_archived m)) by congruence. subst m'. cbn [sm_world sm_grid].
    revert Hs F K. generalize (sm_world m) (sm_grid m). induction params as [|[n kvs] l IH]; intros ps0 g0 S F Ef.
    - cbn in Ef. assert (ps = ps0 /\ g = g0) as [-> ->] by (split; congruence). exact F.
    - cbn [foldM fst snd] in Ef. destruct (dget String.eqb ps0 n) as [p|] eqn:Ep; [|discriminate].
      destruct (foldM _ kvs (p, g0)) as [[p1 g1]|] eqn:E1; [|discriminate]. cbn [bind] in Ef.
      destruct (sets_inv E WB p1 kvs p g0 p1 g1 (proj1 S) (proj2 (proj2 S) _ _ Ep) E1 eq_refl) as (A1 & G1 & _).
      refine (IH _ _ (sound_put _ _ _ n _ _ S A1 G1) _ Ef).
      apply (fine_put _ _ _ _ _ A1 F). apply (sets_fine kvs p g0 p1 g1 (proj1 S) (proj2 (proj2 S) _ _ Ep)); [|exact E1]. intros x ->. exact (F n x Ep).
  Qed.
  Lemma folded_fine params : forall names objs (g : grid R) objs' g', solid g -> (forall n x, In (n, Extra x) objs -> Q g x) ->
    load_fold E params names (objs, g) = Ok (objs', g') -> forall n x, In (n, Extra x) objs' -> Q g' x.
  Proof.
    induction names as [|n names IH]; intros objs g objs' g' S F Ef.
    - cbn in Ef. assert (objs' = objs /\ g' = g) as [-> ->] by (split; congruence). exact F.
    - unfold load_fold in Ef. cbn [foldM fst snd] in Ef. destruct (process_class params n) as [cls|] eqn:Ec; [|discriminate]. cbn [bind] in Ef.
      destruct (make E cls _ g) as [[p g1]|] eqn:Em; [|discriminate]. cbn [bind] in Ef. fold (load_fold E params names (objs ++ [(n, p)], g1)) in Ef.
      destruct (made E WB _ _ _ _ _ S Em) as (A1 & _). refine (IH _ _ _ _ (solid_adds _ _ S A1) _ Ef).
      intros k x Hk. apply in_app_or in Hk. destruct Hk as [Hk|[Hk|[]]]; [exact (adds_Q _ _ _ A1 (F _ _ Hk))|].
      assert (p = Extra x) by congruence. subst p. unfold make in Em. destruct (class_named cls).
      + destruct (construct _ _ _ _) as [[? ?]|]; cbn [bind] in Em; [congruence|discriminate].
      + destruct (ex_make E cls _ g) as [[y h]|] eqn:K; cbn [bind] in Em; [|discriminate]. assert (y = x /\ h = g1) as [-> ->] by (split; congruence).
        exact (Qm _ _ _ _ _ (proj1 S) K).
  Qed.
  Lemma load_ends params text names ctx c g0 names' m : load_grid params (Some (read_bathymetry text)) = Ok g0 ->
    (2 <= g_cols g0)%nat -> (0 < g_rows g0)%nat -> 0 < g_dx g0 ->
    load_model E params (read_bathymetry text) names ctx c = Ok (names', m) -> fine (sm_world m) (sm_grid m).
  Proof.
    intros El Hc Hr Hd Em. destruct (load_parts _ _ _ _ _ _ _ _ Em) as (g1 & ps & g & El' & Ep & Ei & _). rewrite El in El'. assert (g1 = g0) by congruence. subst g1.
    destruct (loaded_whole _ _ _ El Hc) as (W & L & B). assert (S : solid g0) by (split; [exact W|]; auto).
    destruct (loaded_parts E WB _ _ _ _ _ S Ep) as (A1 & _). destruct (init_spec _ _ _ _ _ (proj1 (solid_adds _ _ S A1)) Ei) as (_ & Rr & Rc & _ & _ & Ew & _).
    unfold load_processes in Ep. cbv zeta in Ep.
    change (foldM _ (with_required names) ([], g0)) with (load_fold E (fst (match_params same_value (own_params ctx (with_required names)))) (with_required names) ([], g0)) in Ep.
    destruct (load_fold E _ _ ([], g0)) as [[objs g1]|] eqn:Ef; [|discriminate]. cbn [bind] in Ep. assert (ps = dupdate String.eqb [] objs /\ g1 = g) as [-> ->] by (split; congruence).
    pose proof (folded_fine _ _ _ _ _ _ S (fun n x (Y : In (n, Extra x) []) => match Y with end) Ef) as F.
    intros n x Hn. rewrite Ew in Hn. refine (Qa _ _ _ Rr Rc (init_grows _ _ _ _ _ Ei) (F n x _)).
    assert (Hn' : dget String.eqb (dupdate String.eqb [] objs) n = Some (Extra x)).
    { revert Hn. cbn [pr_set_sea_time named_processes]. unfold set_sea_time. destruct (dget String.eqb _ "sea_level") as [[[]|]|]; auto; rewrite (dget_dset _ String.eqb_eq);
        (destruct (String.eqb n "sea_level"); [discriminate|auto]). }
    destruct (dget_dupdate_in _ _ _ _ Hn') as [Hi|Hi]; [exact Hi|discriminate].
  Qed.
  Lemma reached_ends names m0 m : inv names m0 -> fine (sm_world m0) (sm_grid m0) -> reached E names m0 m -> inv names m /\ fine (sm_world m) (sm_grid m).
  Proof.
    intros H0 F0 Hr. induction Hr as [|m dt m' _ [Hi F] Es|m dt m' _ [Hi F] Es|m params m' _ [Hi F] Es]; [auto| | |].
    - pose proof (stepped_inv E WB names dt m Hi) as S. rewrite Es in S. split; [exact S|]. exact (step_ends names dt m m' Hi F Es).
    - pose proof (stepped_inv E WB names dt m Hi) as S. rewrite Es in S. split; [exact S|]. destruct (stop_world _ _ _ _ _ Es) as (-> & -> & _). exact F.
    - split; [exact (proj1 (set_inv E WB names params m m' Hi Es))|]. exact (set_ends names params m m' Hi F Es).
  Qed.
End Q.

Section W.
  Context {X : Type} {tr : Trans R} (P : plate R) (HP : keeps_shape P) (E : externals R X) (WB : well_behaved E).

  Definition served_extra (g : grid R) (x : water R + X) : Prop := match x with inl w => served g w | inr _ => True end.
  Ltac cut Y := match type of Y with bind ?r _ = Ok _ => let K := fresh "K" in destruct r as [[? ?]|] eqn:K; cbn [bind] in Y; [|discriminate Y] end.
  Lemma served_kept d g x x' g' : whole_grid g -> served_extra g x -> ex_step (with_water P E) d (x, g) = Ok (x', g') -> served_extra g' x'.
  Proof.
    intros W S Y. cbn [with_water ex_step fst snd] in Y. destruct x as [w|x]; cut Y.
    - assert (x' = inl w0 /\ g' = g0) as [-> ->] by (split; congruence). destruct (step_more P HP _ _ _ _ _ W K) as [M Sh].
      destruct (more_size _ _ M) as (R1 & C1 & _). destruct (served_grows _ _ _ R1 C1 (proj1 (proj2 M)) S) as (_ & S'). split; [exact Sh|exact S'].
    - assert (x' = inr x0) by congruence. subst x'. exact I.
  Qed.
  Lemma served_set k v g x x' g' : whole_grid g -> served_extra g x -> ex_set (with_water P E) k v (x, g) = Ok (x', g') -> served_extra g' x'.
  Proof.
    intros W S Y. cbn [with_water ex_set fst snd] in Y. destruct x as [w|x]; cut Y.
    - assert (x' = inl w0 /\ g' = g0) as [-> ->] by (split; congruence). destruct (set_grid _ _ _ _ _ _ K) as [-> D].
      unfold served_extra, served. rewrite D. exact S.
    - assert (x' = inr x0) by congruence. subst x'. exact I.
  Qed.
  Lemma served_made cls ps g x g' : whole_grid g -> ex_make (with_water P E) cls ps g = Ok (x, g') -> served_extra g' x.
  Proof.
    intros W Y. cbn [with_water ex_make] in Y. destruct (String.eqb cls "WaterFlexure"); cut Y.
    - assert (x = inl w /\ g' = g0) as [-> ->] by (split; congruence). unfold water_make in K. destruct (negb _); [discriminate|].
      match type of K with bind ?r _ = _ => destruct r; cbn [bind] in K; [|discriminate] end. cut K. assert (w = mkWater (passed_on ps) d /\ g0 = g1) as [-> ->] by (split; congruence).
      destruct (init_more _ _ _ _ W K0) as (_ & _ & S & _). apply S.
    - assert (x = inr x0) by congruence. subst x. exact I.
  Qed.
  Lemma served_adds g g' x : g_rows g' = g_rows g -> g_cols g' = g_cols g -> grows g g' -> served_extra g x -> served_extra g' x.
  Proof. intros R1 C1 G. destruct x; [apply served_grows; assumption|auto]. Qed.

  Let WE := with_water P E.
  Let WW : well_behaved WE := water_behaved P HP E WB.

  Theorem water_reached params text names ctx c g0 names' m0 m : load_grid params (Some (read_bathymetry text)) = Ok g0 ->
    (2 <= g_cols g0)%nat -> (0 < g_rows g0)%nat -> 0 < g_dx g0 ->
    load_model WE params (read_bathymetry text) names ctx c = Ok (names', m0) -> reached WE names' m0 m ->
    inv names' m /\ fine served_extra (sm_world m) (sm_grid m).
  Proof.
    intros El Hc Hr Hd Em Hm. destruct (load_fine WE WW _ _ _ _ _ _ _ _ El Hc Hr Hd Em) as [H0 _].
    apply (reached_ends WE WW served_extra served_adds served_kept served_set names' m0 m H0); [|exact Hm].
    exact (load_ends WE WW served_extra served_adds served_made _ _ _ _ _ _ _ _ El Hc Hr Hd Em).
  Qed.
  Theorem water_raises params text names ctx c g0 names' m0 m dt e : load_grid params (Some (read_bathymetry text)) = Ok g0 ->
    (2 <= g_cols g0)%nat -> (0 < g_rows g0)%nat -> 0 < g_dx g0 ->
    load_model WE params (read_bathymetry text) names ctx c = Ok (names', m0) -> reached WE names' m0 m ->
    run_one_step (named_processes WE names') dt m = Raised e ->
    exists g p h, cleared (sm_grid m) g /\ turn WE (step_used dt m) names' (sm_world m) g p h
      /\ part_step WE (step_used dt m) (p, h) = Err e
      /\ match p with
         | Ours q => cause WE (step_used dt m) q h e /\ e <> KeyError
         | Extra (inl _) => False
         | Extra (inr x) => ex_step E (step_used dt m) (x, h) = Err e
         end.
  Proof.
    intros El Hc Hr Hd Em Hm Es. destruct (water_reached _ _ _ _ _ _ _ _ _ El Hc Hr Hd Em Hm) as [Hi F].
    pose proof (stepped_inv WE WW names' dt m Hi) as S. rewrite Es in S. destruct S as (g & p & h & Ec & T & Ep & Hq).
    exists g, p, h. split; [exact (clear_cleared _ _ (proj1 (proj1 Hi)) Ec)|]. split; [exact T|]. split; [exact Ep|].
    pose proof (clear_adds _ _ (proj1 (proj1 Hi)) Ec) as A0.
    destruct (turn_fine WE WW served_extra served_adds served_kept names' _ _ _ _ _ _ T (incl_refl _) (sound_adds _ _ _ _ (proj2 Hi) A0) (fine_adds served_extra served_adds _ _ _ A0 F)) as [Wh Sv].
    destruct p as [q|[w|x]].
    - apply Hq. reflexivity.
    - destruct (step_total P (step_used dt m) w h (Sv _ eq_refl)) as (w' & h' & Ew). unfold part_step, WE in Ep. cbn [fst snd with_water ex_step] in Ep. rewrite Ew in Ep. discriminate Ep.
    - unfold part_step, WE in Ep. cbn [fst snd with_water ex_step] in Ep. destruct (ex_step E _ (x, h)) as [[? ?]|e']; cbn [bind] in Ep; [discriminate Ep|]. congruence.
  Qed.
End W.
