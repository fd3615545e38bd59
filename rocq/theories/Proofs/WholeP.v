(** Models made from parameters: what every reachable state keeps. *)
From Coq Require Import String List ZArith QArith Bool Arith Reals Lra Lia.
From Verif.Base Require Import Num Py Arr.
From Verif.Model Require Import Layers Grid Archive Interp Shoreline SeaLevel Subsidence Bathymetry Csv Flexure Submarine Fluvial Sequence SequenceModel Setattr Processes Whole.
From Verif.Spec Require Import Column Configured Parameters.
From Verif.Proofs Require Import GridP SequenceP SequenceModelP ClockP ProcessesP ScriptP ScriptEx CreateP ShapesP CausesP.
Import ListNotations.
Local Open Scope string_scope.
Local Open Scope list_scope.
Local Open Scope R_scope.

Ltac steps E := repeat (cbn [bind] in E; match type of E with
  | bind ?r _ = Ok _ => let H := fresh "K" in destruct r eqn:H; [|discriminate E]
  end); cbn [bind] in E.
Ltac pairE E c g := cbn [bind] in E; match type of E with (let (_, _) := ?q in _) = _ => destruct q as [c g] end; cbn [bind] in E.

Lemma some_iff {B} (o : option B) : o <> None <-> exists v, o = Some v.
Proof. destruct o; split; [eauto|discriminate|contradiction|intros [? ?]; discriminate]. Qed.
Lemma has_iff (g : grid R) n : has g n <-> node g n <> None.
Proof. symmetry. apply some_iff. Qed.
Lemma hasv_iff (g : grid R) n : hasv g n <-> gval g n <> None.
Proof. symmetry. apply some_iff. Qed.

(* adds_only without the row fields *)
Definition adds (g g' : grid R) : Prop :=
  whole_grid g' /\ g_rows g' = g_rows g /\ g_cols g' = g_cols g /\ g_dx g' = g_dx g /\ grows g g'
  /\ el_number (layers g') = el_number (layers g) /\ el_tracking (layers g') = el_tracking (layers g).
Lemma adds_refl g : whole_grid g -> adds g g.
Proof. intros W. split; [exact W|]. repeat split; auto. Qed.
Lemma adds_trans g1 g2 g3 : adds g1 g2 -> adds g2 g3 -> adds g1 g3.
Proof.
  intros (_ & A1 & A2 & A3 & A4 & A5 & A6) (W & B1 & B2 & B3 & B4 & B5 & B6). split; [exact W|].
  split; [congruence|]. split; [congruence|]. split; [congruence|]. split; [eapply grows_trans; eassumption|]. split; congruence.
Qed.
Lemma adds_of g g' : adds_only g g' -> adds g g'.
Proof.
  intros (W & A1 & A2 & A3 & A4 & A5 & _ & A7 & A8). split; [exact W|]. split; [exact A1|]. split; [exact A2|]. split; [exact A3|].
  split; [|auto]. split; intros n; rewrite ?has_iff, ?hasv_iff; auto.
Qed.
Lemma adds_alike g g' : alike g g' -> grows g g' -> adds g g'.
Proof. intros (W & A1 & A2 & A3 & A4) G. split; [exact W|]. rewrite A4. auto 8. Qed.

(* a grid with what every process needs *)
Definition solid (g : grid R) : Prop := whole_grid g /\ base g /\ (0 < g_rows g)%nat /\ 0 < g_dx g.
Lemma solid_adds g g' : solid g -> adds g g' -> solid g'.
Proof.
  intros (W & B & H1 & H2) (W' & A1 & A2 & A3 & A4 & _). split; [exact W'|]. split; [exact (base_grows _ _ A4 B)|]. rewrite A1, A3. auto.
Qed.
Lemma ready_adds names (g g' : grid R) : In SAND names -> ready names g -> adds g g' -> ready names g'.
Proof.
  intros Hin (W & Hs & Hl & Hn & Ht & Hk) (W' & A1 & A2 & A3 & A4 & A5 & A6). split; [exact W'|].
  assert (K : forall n, In n names -> node g' n <> None) by (intros n X; apply has_iff, A4, has_iff, Hk, X).
  split; [apply hasv_iff, A4, hasv_iff, Hs|]. split; [intros _; apply K, Hin|]. split; [rewrite A5; exact Hn|]. split; [rewrite A6; exact Ht|exact K].
Qed.
Lemma ready_base names (g : grid R) : ready names g -> base g.
Proof.
  intros (W & Hs & _). destruct W as [(_ & (z & Hz & _) & _ & (d & Hd & _) & _) _].
  split; [exists z; exact Hz|]. split; [exists d; exact Hd|]. apply hasv_iff, Hs.
Qed.

Section P.
  Context {X : Type} {tr : Trans R} (E : externals R X) (WB : well_behaved E).

  Definition good (g : grid R) (p : part R X) : Prop :=
    match p with Ours q => serves g q /\ fits g q /\ steady q | Extra _ => True end.
  Lemma good_adds g g' p : adds g g' -> good g p -> good g' p.
  Proof.
    intros (_ & A1 & A2 & _ & A4 & _) Hg. destruct p as [q|]; [|exact I]. destruct Hg as (H1 & H2 & H3).
    split; [exact (serves_grows _ _ _ A4 H1)|]. split; [exact (fits_size _ _ _ A1 A2 H2)|exact H3].
  Qed.

  Lemma steady_step d p (g : grid R) p' g' : steady p ->
    process_step (ex_interp1d E) (ex_diffuse E) (ex_flexure E) (ex_gravity E) d (p, g) = Ok (p', g') -> steady p'.
  Proof.
    intros St Es. unfold process_step in Es. destruct p.
    - unfold sea_level_step in Es. cbv zeta in Es. destruct (gval _ _); [|discriminate]. destruct (slc_curve _ _); [|discriminate]. injection Es as <- <-. exact I.
    - unfold sea_level_step in Es. cbv zeta in Es. destruct (gval _ _); [|discriminate].
      destruct (slc_curve (mkSeaLevel (slc_curve c) _) _); [|discriminate]. injection Es as <- <-. exact St.
    - steps Es. destruct a; injection Es as <- <-; exact I.
    - steps Es. destruct a; injection Es as <- <-; exact I.
    - steps Es. injection Es as <- <-; exact I.
    - steps Es. destruct a; injection Es as <- <-; exact I.
    - steps Es. injection Es as <- <-; exact I.
  Qed.
  Lemma steady_set name v p (g : grid R) p' g' : steady p -> set_attribute name v (p, g) = Ok (p', g') -> steady p'.
  Proof.
    intros St Es. unfold set_attribute in Es. destruct p; cbv zeta in Es.
    - destruct (String.eqb _ _); [steps Es; injection Es as <- <-; exact I|]. destruct (String.eqb _ _); [steps Es|]; injection Es as <- <-; exact I.
    - destruct (String.eqb _ _); [steps Es; discriminate|]. destruct (String.eqb _ _); [steps Es|]; injection Es as <- <-; exact St.
    - destruct (String.eqb _ _).
      + steps Es. destruct (subsidence_set_file _ _ _ _) as [c1 [e|]]; [discriminate|]. injection Es as <- <-. exact I.
      + destruct (existsb _ _); [discriminate|]. injection Es as <- <-. exact I.
    - repeat match type of Es with (if ?b then _ else _) = _ => destruct b end; try discriminate; steps Es; injection Es as <- <-; exact I.
    - destruct c. repeat match type of Es with (if ?b then _ else _) = _ => destruct b end; steps Es; injection Es as <- <-; exact I.
    - repeat match type of Es with (if ?b then _ else _) = _ => destruct b end; try discriminate; steps Es; injection Es as <- <-; exact I.
    - repeat match type of Es with (if ?b then _ else _) = _ => destruct b end; try discriminate. injection Es as <- <-; exact I.
  Qed.
  Lemma set_nodes name v p (g : grid R) p' g' : set_attribute name v (p, g) = Ok (p', g') -> forall n, node g' n = node g n.
  Proof.
    intros Es. assert (Y : g' = g \/ exists k w, g' = put_gval g k w).
    2:{ destruct Y as [->|(k & w & ->)]; reflexivity. }
    unfold set_attribute in Es. destruct p; cbv zeta in Es.
    - destruct (String.eqb _ _); [steps Es; injection Es as <- <-; auto|]. destruct (String.eqb _ _); [steps Es|]; injection Es as <- <-; auto.
    - destruct (String.eqb _ _); [steps Es; discriminate|]. destruct (String.eqb _ _); [steps Es|]; injection Es as <- <-; auto.
    - destruct (String.eqb _ _).
      + steps Es. destruct (subsidence_set_file _ _ _ _) as [c1 [e|]]; [discriminate|]. injection Es as <- <-. auto.
      + destruct (existsb _ _); [discriminate|]. injection Es as <- <-. auto.
    - repeat match type of Es with (if ?b then _ else _) = _ => destruct b end; try discriminate; steps Es; injection Es as <- <-; auto; right; eauto.
      unfold set_sea_level. eauto.
    - destruct c. repeat match type of Es with (if ?b then _ else _) = _ => destruct b end; steps Es; injection Es as <- <-; auto.
    - repeat match type of Es with (if ?b then _ else _) = _ => destruct b end; try discriminate; steps Es; injection Es as <- <-; auto.
    - repeat match type of Es with (if ?b then _ else _) = _ => destruct b end; try discriminate. injection Es as <- <-; auto.
  Qed.
  Lemma steady_make i1 cls ps (g : grid R) p' g' : construct i1 cls ps g = Ok (p', g') -> steady p'.
  Proof.
    intros Es. unfold construct in Es. destruct (negb _); [discriminate|]. destruct cls.
    - steps Es. injection Es as <- <-. exact I.
    - steps Es. injection Es as <- <-. intros t. cbn [slc_curve sinusoidal_init]. eauto.
    - steps Es. unfold subsidence_init in Es. cbv zeta in Es. steps Es. injection Es as <- <-. exact I.
    - steps Es. pairE Es c0 g0. injection Es as <- <-. exact I.
    - steps Es. injection Es as <- <-. exact I.
    - steps Es. pairE Es c0 g0. injection Es as <- <-. exact I.
    - steps Es. injection Es as <- <-. exact I.
  Qed.

  Lemma part_stepped d p (g : grid R) p' g' : solid g -> good g p -> part_step E d (p, g) = Ok (p', g') -> adds g g' /\ good g' p'.
  Proof.
    intros (W & B & _) Hg Es. unfold part_step in Es. cbn [fst snd] in Es. destruct p as [q|x]; steps Es.
    - destruct a as [q' h]. injection Es as <- <-. destruct Hg as (H1 & H2 & H3).
      destruct (process_alike _ _ _ _ (fun dt kd n m z S => wb_diffuse E WB dt kd n m z S) (fun k n m z S => wb_flexure E WB k n m z S) d q g q' h W H2 K) as [Al Fi].
      destruct (advanced _ (wb_interp1d E WB) (ex_diffuse E) (ex_flexure E) (ex_gravity E) q g d B H1) as [_ Ad].
      destruct (Ad _ _ K) as [Gr Sv]. split; [apply adds_alike; assumption|]. split; [exact Sv|]. split; [exact Fi|]. exact (steady_step _ _ _ _ _ H3 K).
    - destruct a as [x' h]. injection Es as <- <-. split; [|exact I]. apply adds_of. exact (wb_step E WB _ _ _ _ _ W K).
  Qed.
  Lemma part_changed name v p (g : grid R) p' g' : solid g -> good g p -> part_set E name v (p, g) = Ok (p', g') ->
    adds g g' /\ good g' p' /\ layers g' = layers g /\ forall n, node g' n = node g n.
  Proof.
    intros (W & B & _) Hg Es. unfold part_set in Es. cbn [fst snd] in Es. destruct p as [q|x]; steps Es.
    - destruct a as [q' h]. injection Es as <- <-. destruct Hg as (H1 & H2 & H3).
      destruct (set_alike name v q g q' h W H2 K) as [Al Fi]. destruct (changed q g name v H1) as [_ Ad]. destruct (Ad _ _ K) as [Gr Sv].
      split; [apply adds_alike; assumption|]. split; [|split; [apply Al|exact (set_nodes _ _ _ _ _ _ K)]].
      split; [exact Sv|]. split; [exact Fi|]. exact (steady_set _ _ _ _ _ _ H3 K).
    - destruct a as [x' h]. injection Es as <- <-. destruct (wb_set E WB _ _ _ _ _ _ W K) as (Ad & L & N). split; [apply adds_of; exact Ad|]. split; [exact I|]. split; [exact L|exact N].
  Qed.

  (* the components of a model on its grid *)
  Definition sound (names : list string) (ps : parts R X) (g : grid R) : Prop :=
    solid g /\ (forall n, In n names -> dget String.eqb ps n <> None) /\ forall n p, dget String.eqb ps n = Some p -> good g p.
  Lemma sound_put names ps g n p g' : sound names ps g -> adds g g' -> good g' p -> sound names (dset String.eqb ps n p) g'.
  Proof.
    intros (S & H1 & H2) A G. split; [exact (solid_adds _ _ S A)|]. split.
    - intros k Hk. rewrite (dget_dset _ String.eqb_eq). destruct (String.eqb k n); [discriminate|]. apply H1, Hk.
    - intros k q Hk. rewrite (dget_dset _ String.eqb_eq) in Hk. destruct (String.eqb k n); [injection Hk as <-; exact G|].
      exact (good_adds _ _ _ A (H2 _ _ Hk)).
  Qed.
  Lemma sound_adds names ps g g' : sound names ps g -> adds g g' -> sound names ps g'.
  Proof.
    intros (S & H1 & H2) A. split; [exact (solid_adds _ _ S A)|]. split; [exact H1|]. intros k q Hk. exact (good_adds _ _ _ A (H2 _ _ Hk)).
  Qed.

  Lemma part_cause d p (g : grid R) e : solid g -> good g p -> part_step E d (p, g) = Err e ->
    forall q, p = Ours q -> cause E d q g e /\ e <> KeyError.
  Proof.
    intros (W & B & Hr & Hd) Hg Es q ->. destruct Hg as (H1 & H2 & H3). unfold part_step in Es. cbn [fst snd] in Es.
    destruct (process_step _ _ _ _ d (q, g)) as [[q' h]|e'] eqn:K; [discriminate|]. cbn [bind] in Es. assert (e' = e) by congruence. subst e'. split.
    - exact (process_cause E d q g e W B H1 H2 H3 Hr Hd K).
    - intros ->. destruct (advanced _ (wb_interp1d E WB) (ex_diffuse E) (ex_flexure E) (ex_gravity E) q g d B H1) as [N _]. exact (N K).
  Qed.

  Lemma run_cons (c : component R (parts R X)) cs d wg : run_components (c :: cs) d wg = (let* wg := c d wg in run_components cs d wg).
  Proof. reflexivity. Qed.
  Lemma components_run all d : forall names ps g, incl names all -> sound all ps g ->
    match run_components (map (step_of E) names) d (ps, g) with
    | Ok (ps', g') => sound all ps' g' /\ adds g g'
    | Err e => exists p h, turn E d names ps g p h /\ part_step E d (p, h) = Err e /\ forall q, p = Ours q -> cause E d q h e /\ e <> KeyError
    end.
  Proof.
    induction names as [|n names IH]; intros ps g Hin Sd.
    - cbn. split; [exact Sd|]. apply adds_refl, Sd.
    - cbn [map]. rewrite run_cons. unfold step_of at 1. cbn [fst snd].
      destruct (dget String.eqb ps n) as [p|] eqn:Ep; [|exfalso; exact (proj1 (proj2 Sd) n (Hin n (or_introl eq_refl)) Ep)].
      pose proof (proj2 (proj2 Sd) n p Ep) as Gp. destruct (part_step E d (p, g)) as [[p' g']|e] eqn:Es.
      + cbn [bind]. destruct (part_stepped _ _ _ _ _ (proj1 Sd) Gp Es) as [Ad Gp'].
        pose proof (IH (dset String.eqb ps n p') g' (fun x Hx => Hin x (or_intror Hx)) (sound_put _ _ _ _ _ _ Sd Ad Gp')) as IH'.
        assert (F : forall r : result (parts R X * grid R),
          match r with
          | Ok (ps2, g2) => sound all ps2 g2 /\ adds g' g2
          | Err e => exists q h, turn E d names (dset String.eqb ps n p') g' q h /\ part_step E d (q, h) = Err e
                       /\ forall q', q = Ours q' -> cause E d q' h e /\ e <> KeyError
          end ->
          match r with
          | Ok (ps2, g2) => sound all ps2 g2 /\ adds g g2
          | Err e => exists q h, turn E d (n :: names) ps g q h /\ part_step E d (q, h) = Err e
                       /\ forall q', q = Ours q' -> cause E d q' h e /\ e <> KeyError
          end).
        { intros [[ps2 g2]|e].
          - intros [S2 A2]. split; [exact S2|]. exact (adds_trans _ _ _ Ad A2).
          - intros (q & h & T & R1). exists q, h. split; [eapply turn_later; eassumption|exact R1]. }
        exact (F _ IH').
      + cbn [bind]. exists p, g. split; [constructor; exact Ep|]. split; [exact Es|]. exact (part_cause d p g e (proj1 Sd) Gp Es).
  Qed.

  Definition inv (names : list string) (m : smodel R (parts R X)) : Prop :=
    ready [SAND] (sm_grid m) /\ sound names (sm_world m) (sm_grid m).

  Lemma clear_adds (g g' : grid R) : whole_grid g -> clear_deposit g = Ok g' -> adds g g'.
  Proof.
    intros W Ec. destruct (clear_spec _ _ Ec) as [dz [Ed ->]]. apply adds_alike; [|apply grows_put].
    apply alike_put; [exact W|]. apply shaped_fmap. exact (proj2 W _ _ Ed).
  Qed.
  Lemma clear_total (g : grid R) : whole_grid g -> exists g', clear_deposit g = Ok g'.
  Proof. intros [(_ & _ & _ & (d & Hd & _) & _) _]. unfold clear_deposit, node_r. rewrite Hd. cbn. eauto. Qed.

  Lemma advanced_inv names d m : inv names m ->
    match advance_components (named_processes E names) d m with
    | Ok m' => inv names m'
    | Err e => exists g p h, clear_deposit (sm_grid m) = Ok g /\ turn E d names (sm_world m) g p h /\ part_step E d (p, h) = Err e
        /\ forall q, p = Ours q -> cause E d q h e /\ e <> KeyError
    end.
  Proof.
    intros [Hr Hs]. destruct (clear_total _ (proj1 Hr)) as [g0 Ec]. pose proof (clear_adds _ _ (proj1 Hr) Ec) as A0.
    unfold advance_components. rewrite Ec. cbn [bind pr_components named_processes].
    pose proof (components_run names d names (sm_world m) g0 (incl_refl _) (sound_adds _ _ _ _ Hs A0)) as C.
    destruct (run_components _ d (sm_world m, g0)) as [[w1 g1]|e].
    - destruct C as [S1 A1]. cbn [bind].
      assert (R1 : ready [SAND] g1) by (apply (ready_adds _ g0); [left; reflexivity| |exact A1]; apply (ready_adds _ (sm_grid m)); [left; reflexivity|exact Hr|exact A0]).
      destruct (after_ok [SAND] (named_processes E names) (sm_clock m) (sm_archived m) w1 g1 R1)
        as [m' [E' [R' [Ew [Rr [Rc [Rd [Rn Rv]]]]]]]].
      unfold after_step in E'. rewrite E'. split; [exact R'|]. rewrite Ew.
      destruct S1 as (So & H1 & H2). assert (Gr : grows g1 (sm_grid m')).
      { split; intros n; rewrite ?has_iff, ?hasv_iff; [apply Rn|rewrite Rv; auto]. }
      split; [|split].
      + destruct So as (_ & B & Hrow & Hdx). split; [apply R'|]. split; [exact (base_grows _ _ Gr B)|]. rewrite Rr, Rd. auto.
      + exact H1.
      + intros n p Hp. pose proof (H2 n p Hp) as G. destruct p as [q|]; [|exact I]. destruct G as (G1 & G2 & G3).
        split; [exact (serves_grows _ _ _ Gr G1)|]. split; [exact (fits_size _ _ _ Rr Rc G2)|exact G3].
    - cbn [bind]. destruct C as (p & h & T & R1). exists g0, p, h. auto.
  Qed.
  Lemma stepped_inv names dt m : inv names m ->
    match run_one_step (named_processes E names) dt m with
    | Stepped m' | ClockStop m' => inv names m'
    | Raised e => exists g p h, clear_deposit (sm_grid m) = Ok g /\ turn E (step_used dt m) names (sm_world m) g p h
        /\ part_step E (step_used dt m) (p, h) = Err e /\ forall q, p = Ours q -> cause E (step_used dt m) q h e /\ e <> KeyError
    end.
  Proof.
    intros Hi. unfold run_one_step. cbv zeta. destruct (clock_advance (sm_clock m)) as [c stop] eqn:Ec.
    set (m1 := mkModel (sm_world m) (sm_grid m) c (sm_archived m)). assert (H1 : inv names m1) by exact Hi.
    destruct stop; [exact H1|]. fold (step_used dt m). pose proof (advanced_inv names (step_used dt m) m1 H1) as A.
    destruct (advance_components _ _ m1); exact A.
  Qed.

  Lemma sets_inv p0 : forall (kvs : section (pvalue R)) p (g : grid R) p' g', solid g -> good g p ->
    foldM (fun pg kv => part_set E (fst kv) (snd kv) pg) kvs (p, g) = Ok (p', g') -> p0 = p' -> adds g g' /\ good g' p' /\ layers g' = layers g /\ forall n, node g' n = node g n.
  Proof.
    induction kvs as [|[k v] kvs IH]; intros p g p' g' S G Ef Y.
    - cbn in Ef. injection Ef as <- <-. split; [apply adds_refl, S|]. auto.
    - cbn [foldM fst snd] in Ef. destruct (part_set E k v (p, g)) as [[p1 g1]|] eqn:Es; [|discriminate]. cbn [bind] in Ef.
      destruct (part_changed _ _ _ _ _ _ S G Es) as (A1 & G1 & L1 & N1). destruct (IH p1 g1 p' g' (solid_adds _ _ S A1) G1 Ef Y) as (A2 & G2 & L2 & N2).
      split; [exact (adds_trans _ _ _ A1 A2)|]. split; [exact G2|]. split; [congruence|]. intros n. rewrite N2. apply N1.
  Qed.
  Lemma set_inv names params m m' : inv names m -> set_model_params E params m = Ok m' ->
    inv names m' /\ layers (sm_grid m') = layers (sm_grid m) /\ adds (sm_grid m) (sm_grid m') /\ sm_clock m' = sm_clock m
    /\ forall n, node (sm_grid m') n = node (sm_grid m) n.
  Proof.
    intros [Hr Hs] Es. unfold set_model_params in Es. steps Es. destruct a as [ps g]. injection Es as <-. cbn [sm_world sm_grid sm_clock].
    assert (C : forall l ps0 g0, sound names ps0 g0 ->
      foldM (fun st nv => match dget String.eqb (fst st) (fst nv) with
                       | None => Err KeyError
                       | Some p =>
                           let* (p, g) := foldM (fun pg kv => part_set E (fst kv) (snd kv) pg) (snd nv) (p, snd st) in
                           Ok (dset String.eqb (fst st) (fst nv) p, g)
                       end) l (ps0, g0) = Ok (ps, g) -> sound names ps g /\ adds g0 g /\ layers g = layers g0 /\ forall n, node g n = node g0 n).
    { clear - WB tr. induction l as [|[n kvs] l IH]; intros ps0 g0 S Ef.
      - cbn in Ef. injection Ef as <- <-. split; [exact S|]. split; [apply adds_refl, S|]. auto.
      - cbn [foldM fst snd] in Ef. destruct (dget String.eqb ps0 n) as [p|] eqn:Ep; [|discriminate].
        destruct (foldM _ kvs (p, g0)) as [[p1 g1]|] eqn:E1; [|discriminate]. cbn [bind] in Ef.
        destruct (sets_inv p1 kvs p g0 p1 g1 (proj1 S) (proj2 (proj2 S) _ _ Ep) E1 eq_refl) as (A1 & G1 & L1 & N1).
        destruct (IH _ _ (sound_put _ _ _ n _ _ S A1 G1) Ef) as (S2 & A2 & L2 & N2).
        split; [exact S2|]. split; [exact (adds_trans _ _ _ A1 A2)|]. split; [congruence|]. intros k. rewrite N2. apply N1. }
    destruct (C params _ _ Hs K) as (S2 & A2 & L2 & N2). split; [|auto]. split; [|exact S2].
    apply (ready_adds _ (sm_grid m)); [left; reflexivity|exact Hr|exact A2].
  Qed.

  Theorem reached_inv names m0 m : inv names m0 -> reached E names m0 m -> inv names m.
  Proof.
    intros H0 Hr. induction Hr as [|m dt m' _ IH Es|m dt m' _ IH Es|m params m' _ IH Es]; [exact H0| | |].
    - pose proof (stepped_inv names dt m IH) as S. rewrite Es in S. exact S.
    - pose proof (stepped_inv names dt m IH) as S. rewrite Es in S. exact S.
    - exact (proj1 (set_inv names params m m' IH Es)).
  Qed.

  (** ** loading *)
  Lemma construct_rows i1 cls ps (g : grid R) o g' : construct i1 cls ps g = Ok (o, g') ->
    (forall n, rowf g n <> None -> rowf g' n <> None)
    /\ (cls = ShorelineFinder -> rowf g' "x_of_shore" <> None /\ rowf g' "x_of_shelf_edge" <> None)
    /\ (cls = Fluvial -> exists c, o = PFluvial c).
  Proof.
    intros Es.
    assert (En : forall (h : grid R) k n, rowf (ensure_node h k) n = rowf h n).
    { intros h k n. unfold ensure_node. destruct (has_node h k); reflexivity. }
    assert (Pr : forall (h : grid R) k v n, rowf h n <> None -> rowf (put_rowf h k v) n <> None).
    { intros h k v n Hn. rewrite rowf_put_rowf. destruct (String.eqb n k); [discriminate|exact Hn]. }
    unfold construct in Es. destruct (negb _); [discriminate|]. destruct cls.
    - steps Es. injection Es as <- <-. split; [auto|]. split; intros; discriminate.
    - steps Es. injection Es as <- <-. split; [auto|]. split; intros; discriminate.
    - steps Es. unfold subsidence_init in Es. cbv zeta in Es. steps Es. injection Es as <- <-. split; [|split; intros; discriminate].
      intros n Hn. destruct (has_node _ _); exact Hn.
    - steps Es. pairE Es c0 gg. injection Es as <- <-. unfold submarine_init in *. cbv zeta in *.
      match goal with K : (if ?b then _ else _) = Ok _ |- _ => destruct b; [discriminate K|]; injection K as <- <- end.
      split; [|split; intros; discriminate]. intros n Hn. rewrite !En. exact Hn.
    - steps Es. unfold fluvial_init in Es. injection Es as <- <-. split; [|split; [discriminate|eauto]]. intros n Hn. rewrite !En. exact Hn.
    - steps Es. pairE Es c0 gg. injection Es as <- <-. unfold sed_flexure_init in *. cbv zeta in *.
      match goal with K : bind _ _ = Ok (c0, gg) |- _ => steps K; injection K as <- <- end.
      split; [|split; intros; discriminate]. intros n Hn. rewrite !En. exact Hn.
    - steps Es. injection Es as <- <-. unfold shoreline_init in *. cbv zeta in *.
      match goal with K : bind _ _ = Ok _ |- _ => steps K; injection K as <- end.
      split; [intros n Hn; auto 8|]. split; [|discriminate]. intros _. rewrite !rowf_put_rowf. split; cbn; discriminate.
  Qed.

  Lemma made cls ps (g : grid R) p g' : solid g -> make E cls ps g = Ok (p, g') ->
    adds g g' /\ good g' p /\ layers g' = layers g /\ (forall n, rowf g n <> None -> rowf g' n <> None)
    /\ (cls = "ShorelineFinder" -> rowf g' "x_of_shore" <> None /\ rowf g' "x_of_shelf_edge" <> None)
    /\ (cls = "Fluvial" -> has g' SAND) /\ (forall n f, node g n = Some f -> node g' n = Some f).
  Proof.
    intros (W & B & _) Em. unfold make in Em. destruct (class_named cls) as [k|] eqn:Ek.
    - destruct (construct _ k ps g) as [[q h]|] eqn:Ec; [|discriminate]. cbn [bind] in Em. injection Em as <- <-.
      destruct (construct_alike _ _ _ _ _ _ W Ec) as [Al Fi].
      destruct (constructed _ (wb_interp1d E WB) k ps g B) as [_ Cn]. destruct (Cn _ _ Ec) as [Gr Sv].
      destruct (construct_rows _ _ _ _ _ _ Ec) as (R1 & R2 & R3).
      split; [apply adds_alike; assumption|]. split; [split; [exact Sv|split; [exact Fi|exact (steady_make _ _ _ _ _ _ Ec)]]|].
      split; [apply Al|]. split; [exact R1|]. split.
      + intros ->. cbn in Ek. apply R2. congruence.
      + split; [|exact (proj1 (created _ _ _ _ _ _ Ec))]. intros ->. cbn in Ek. destruct R3 as [c ->]; [congruence|]. exact (proj2 Sv).
    - destruct (ex_make E cls ps g) as [[x h]|] eqn:Ec; [|discriminate]. cbn [bind] in Em. injection Em as <- <-.
      destruct (wb_make E WB _ _ _ _ _ W Ec) as (Ad & L & N). split; [apply adds_of; exact Ad|]. split; [exact I|]. split; [exact L|].
      split; [apply Ad|]. split; [|split; [|exact N]]; intros ->; discriminate Ek.
  Qed.

  Definition load_fold (params : context (pvalue R)) (names : list string) (st : list (string * part R X) * grid R) :=
    foldM (fun st name => let* cls := process_class params name in
                          let* (p, g) := make E cls (params_of params name) (snd st) in
                          Ok (fst st ++ [(name, p)], g)) names st.
  Lemma load_folded params : forall names objs (g : grid R) objs' g', solid g -> (forall n p, In (n, p) objs -> good g p) ->
    load_fold params names (objs, g) = Ok (objs', g') ->
    adds g g' /\ layers g' = layers g /\ (forall n p, In (n, p) objs' -> good g' p) /\ map fst objs' = map fst objs ++ names
    /\ (forall n, rowf g n <> None -> rowf g' n <> None)
    /\ (In "shoreline" names -> rowf g' "x_of_shore" <> None /\ rowf g' "x_of_shelf_edge" <> None)
    /\ (In "fluvial" names -> has g' SAND) /\ (forall n f, node g n = Some f -> node g' n = Some f).
  Proof.
    induction names as [|n names IH]; intros objs g objs' g' S G Ef.
    - cbn in Ef. injection Ef as <- <-. rewrite app_nil_r. split; [apply adds_refl, S|]. split; [reflexivity|]. split; [exact G|]. split; [reflexivity|].
      split; [auto|]. split; [intros []|]. split; [intros []|auto].
    - unfold load_fold in Ef. cbn [foldM fst snd] in Ef. destruct (process_class params n) as [cls|] eqn:Ec; [|discriminate]. cbn [bind] in Ef.
      destruct (make E cls _ g) as [[p g1]|] eqn:Em; [|discriminate]. cbn [bind] in Ef. fold (load_fold params names (objs ++ [(n, p)], g1)) in Ef.
      destruct (made _ _ _ _ _ S Em) as (A1 & G1 & L1 & R1 & R2 & R3 & R4).
      destruct (IH (objs ++ [(n, p)]) g1 objs' g' (solid_adds _ _ S A1)) as (A2 & L2 & G2 & N2 & Q1 & Q2 & Q3 & Q4); [|exact Ef|].
      { intros k q Hk. apply in_app_or in Hk. destruct Hk as [Hk|[Hk|[]]]; [exact (good_adds _ _ _ A1 (G _ _ Hk))|]. injection Hk as <- <-. exact G1. }
      split; [exact (adds_trans _ _ _ A1 A2)|]. split; [congruence|]. split; [exact G2|].
      split; [rewrite N2, map_app, <- app_assoc; reflexivity|]. split; [auto|]. split.
      + intros [->|Hk]; [|auto]. assert (Y : cls = "ShorelineFinder") by (cbn in Ec; congruence). destruct (R2 Y). auto.
      + split; [|auto]. intros [->|Hk]; [|auto]. assert (Y : cls = "Fluvial") by (cbn in Ec; congruence). destruct A2 as (_ & _ & _ & _ & Gr & _). apply (proj1 Gr), R3, Y.
  Qed.

  Lemma dget_dupdate_in {B} (objs : list (string * B)) : forall d n p, dget String.eqb (dupdate String.eqb d objs) n = Some p ->
    In (n, p) objs \/ dget String.eqb d n = Some p.
  Proof.
    induction objs as [|[k v] objs IH]; intros d n p Hd; [right; exact Hd|]. unfold dupdate in Hd. cbn [fold_left fst snd] in Hd.
    destruct (IH _ _ _ Hd) as [H|H]; [left; right; exact H|]. rewrite (dget_dset _ String.eqb_eq) in H.
    destruct (String.eqb n k) eqn:N; [|auto]. apply String.eqb_eq in N. injection H as <-. subst. left. left. reflexivity.
  Qed.

End P.
