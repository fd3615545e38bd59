(** Concrete configurations. *)
From Coq Require Import String List Bool Reals Lra Lia Permutation.
From Verif.Base Require Import Num Py.
From Verif.Model Require Import Shoreline Config.
From Verif.Spec Require Import Profile Sections.
From Verif.Proofs Require Import ShorelineP ProcessesP ConfigP TimeVaryingP.
Import ListNotations.
Local Open Scope R_scope.
Local Open Scope string_scope.
Local Open Scope list_scope.

Lemma sorted_1 a : sorted [a].
Proof. intros i j H. cbn in H. assert (i = 0 /\ j = 0)%nat as [-> ->] by lia. lra. Qed.
Lemma sorted_2 a b : a <= b -> sorted [a; b].
Proof.
  intros L i j H. cbn in H. destruct i as [|[|i]], j as [|[|j]]; try lia; cbn; lra.
Qed.
Lemma bisect_1 a t : bisect_right [a] t = if Rle_dec a t then 1%nat else 0%nat.
Proof.
  destruct (bisect_right_spec [a] t (sorted_1 a)) as [B1 [B2 B3]]. cbn [length] in *.
  destruct (bisect_right [a] t) as [|[|n]]; [| |lia].
  - assert (X := B3 0%nat ltac:(lia)). cbn in X. destruct (Rle_dec a t); [lra|reflexivity].
  - assert (X := B2 0%nat ltac:(lia)). cbn in X. destruct (Rle_dec a t); [reflexivity|lra].
Qed.
Lemma bisect_2 a b t : a <= b -> bisect_right [a; b] t = if Rle_dec b t then 2%nat else if Rle_dec a t then 1%nat else 0%nat.
Proof.
  intros L. destruct (bisect_right_spec [a; b] t (sorted_2 a b L)) as [B1 [B2 B3]]. cbn [length] in *.
  destruct (bisect_right [a; b] t) as [|[|[|n]]]; [| | |lia].
  - assert (X := B3 0%nat ltac:(lia)). cbn in X. destruct (Rle_dec b t); [lra|]. destruct (Rle_dec a t); [lra|reflexivity].
  - assert (X := B2 0%nat ltac:(lia)). assert (Y := B3 1%nat ltac:(lia)). cbn in X, Y. destruct (Rle_dec b t); [lra|]. destruct (Rle_dec a t); [reflexivity|lra].
  - assert (X := B2 1%nat ltac:(lia)). cbn in X. destruct (Rle_dec b t); [reflexivity|lra].
Qed.

Definition num1 (n : nat) : pyval nat := Scalar n.
Definition ex_first : dict nat := [("foo", num1 0); ("bar", PyDict [("baz", PyList [num1 1; num1 2])])].
Definition ex_second : dict nat := [("foo", num1 1); ("bar", PyDict [("baz", PyTuple [num1 1; num1 2])])].

Ltac paths := repeat match goal with
  | H : leaf_at _ ?p = Some _ |- _ => is_var p; destruct p; [discriminate H|]
  end.

Lemma leaf_paths (d : dict nat) path v : proper (PyDict d) -> leaf_at d path = Some v -> In (path, v) (walk_dict d).
Proof.
  intros P E. rewrite <- (dget_flatten d path P), (flatten_walk d P) in E. apply (dget_in _ path_eqb_spec) in E. exact E.
Qed.
Lemma ex_proper : proper (PyDict ex_first) /\ proper (PyDict ex_second).
Proof. cbn. repeat split; repeat constructor; cbn; intuition discriminate. Qed.
Lemma ex_plain : plain_sections [ex_first; ex_second].
Proof.
  destruct ex_proper as [P1 P2].
  assert (L : forall d path v, In d [ex_first; ex_second] -> leaf_at d path = Some v ->
              (path = ["foo"] \/ path = ["bar"; "baz"]) /\ simple v).
  { intros d path v [<-|[<-|[]]] E; apply leaf_paths in E; try assumption; cbn in E;
      destruct E as [E|[E|[]]]; assert (X := f_equal fst E); assert (Y := f_equal snd E); cbn in X, Y; subst; cbn; auto. }
  split.
  - intros d Hd. split; [destruct Hd as [<-|[<-|[]]]; assumption|]. intros path v E. apply (L d path v Hd E).
  - intros d d' path k rest v v' Hd Hd' E E'. destruct (L d path v Hd E) as [A _]. destruct (L d' _ v' Hd' E') as [B _].
    destruct A as [->| ->], B as [B|B]; cbn in B; discriminate B.
Qed.
Lemma ex_init (t0 t1 : R) : exists c, config_init [t0; t1] [ex_first; ex_second] = Ok c.
Proof. eexists. reflexivity. Qed.

Ltac rle := repeat match goal with |- context [Rle_dec ?a ?b] => destruct (Rle_dec a b); try lra end.

(* the example of the class: update(1) returns what changed *)
Lemma ex_update : exists c c', config_init [0; 1] [ex_first; ex_second] = Ok c
  /\ update Nat.eqb (fun l => l) 1 c = Ok ([("foo", num1 1)], c').
Proof.
  eexists. eexists. split; [reflexivity|]. unfold update, bisect_times. cbn [tv_times tv_time]. numR.
  unfold diff, config_at, bisect_times. cbn [tv_times tv_time tv_dicts]. rewrite !bisect_2 by lra. rewrite n0_R. rle. cbn. reflexivity.
Qed.

(* C49 *)
Lemma late_first_refuted : ~ (forall (S : Type) (seqb : S -> S -> bool) (set_order : flat S -> flat S) times dicts c inc d c',
  (forall a b, seqb a b = true <-> a = b) -> (forall l, Permutation (set_order l) l) -> plain_sections dicts -> sorted times ->
  config_init times dicts = Ok c -> 0 <= inc -> update seqb set_order inc c = Ok (d, c') ->
  forall path, dget path_eqb (tv_current c) path = dget path_eqb (tv_current c') path -> leaf_at d path = None).
Proof.
  intros C. set (ds := [[("foo", num1 0)]] : list (dict nat)).
  assert (Pl : plain_sections ds).
  { assert (P : proper (PyDict [("foo", num1 0)])) by (cbn; repeat split; repeat constructor; intros []).
    assert (L : forall d path v, In d ds -> leaf_at d path = Some v -> path = ["foo"] /\ simple v).
    { intros d path v [<-|[]] E. apply leaf_paths in E; [|exact P]. destruct E as [E|[]].
      assert (X := f_equal fst E); assert (Y := f_equal snd E); cbn in X, Y; subst; cbn; auto. }
    split.
    - intros d Hd. split; [destruct Hd as [<-|[]]; exact P|]. intros path v E. apply (L d path v Hd E).
    - intros d d' path k rest v v' Hd Hd' E E'. destruct (L d path v Hd E) as [-> _]. destruct (L d' _ v' Hd' E') as [B _]. discriminate B. }
  assert (E : exists c, config_init [1] ds = Ok c /\ tv_current c = [(["foo"], num1 0)]
              /\ exists c', update Nat.eqb (fun l => l) 1 c = Ok ([("foo", num1 0)], c') /\ tv_current c' = tv_current c).
  { eexists. split; [reflexivity|]. split; [reflexivity|]. eexists. unfold update, bisect_times. cbn [tv_times tv_time]. numR.
    unfold diff, config_at, bisect_times. cbn [tv_times tv_time tv_dicts]. rewrite !bisect_1, n0_R. rle. cbn. split; reflexivity. }
  destruct E as [c [Ei [Ec [c' [Eu Ec']]]]].
  assert (X := C nat Nat.eqb (fun l => l) [1] ds c 1 _ c' PeanoNat.Nat.eqb_eq (fun l => Permutation_refl l) Pl (sorted_1 1) Ei ltac:(lra) Eu ["foo"]).
  rewrite Ec' in X. specialize (X eq_refl). discriminate X.
Qed.

(* C72: two sections at the start *)
Lemma two_at_start_refuted : ~ (forall (S : Type) times dicts (c : config S R) path,
  plain_sections dicts -> sorted times -> config_init times dicts = Ok c ->
  option_map as_list (dget path_eqb (tv_current c) path) = in_force (combine times dicts) 0 path).
Proof.
  intros C. destruct (ex_init 0 0) as [c Ei].
  assert (X := C nat [0; 0] [ex_first; ex_second] c ["foo"] ex_plain (sorted_2 0 0 ltac:(lra)) Ei).
  assert (Y : tv_current c = flatc ex_first) by (destruct (init_made _ _ _ Ei) as [_ [_ [d0 [rest [Ed Ec]]]]]; rewrite Ec; congruence).
  rewrite Y in X. unfold in_force in X. cbn [combine fold_left fst snd] in X. revert X. rle. cbn. discriminate.
Qed.

(* C73: a list of lists *)
Definition ex_nested (n : nat) : dict nat := [("foo", num1 n); ("box", PyList [PyList [num1 1]; PyList [num1 2]])].
Lemma nested_raises : exists c, config_init [0; 1] [ex_nested 0; ex_nested 1] = Ok c
  /\ update Nat.eqb (fun l => l) 1 c = Err TypeError /\ dump Nat.eqb (fun l => l) c = Err TypeError.
Proof.
  eexists. split; [reflexivity|]. split.
  - unfold update, bisect_times. cbn [tv_times tv_time]. numR.
    unfold diff, config_at, bisect_times. cbn [tv_times tv_time tv_dicts]. rewrite !bisect_2 by lra. rewrite n0_R. rle. cbn. reflexivity.
  - unfold dump. cbn [tv_dicts tv_times removelast tl combine mapM fst snd].
    unfold diff, config_at, bisect_times. cbn [tv_times tv_time tv_dicts]. rewrite !bisect_2 by lra. rle. cbn. reflexivity.
Qed.

(* equal times: the second section is lost by dump *)
Lemma dump_equal_times_refuted : ~ (forall (S : Type) (seqb : S -> S -> bool) (set_order : flat S -> flat S) times dicts c,
  (forall a b, seqb a b = true <-> a = b) -> (forall l, Permutation (set_order l) l) -> plain_sections dicts -> sorted times ->
  length times = length dicts -> config_init times dicts = Ok c ->
  exists docs c', dump seqb set_order c = Ok docs /\ from_file docs = Ok c'
    /\ forall t path, dget path_eqb (config_at c' t) path = dget path_eqb (config_at c t) path).
Proof.
  intros C. destruct (ex_init 0 0) as [c Ei].
  destruct (C nat Nat.eqb (fun l => l) [0; 0] [ex_first; ex_second] c PeanoNat.Nat.eqb_eq (fun l => Permutation_refl l) ex_plain
              (sorted_2 0 0 ltac:(lra)) eq_refl Ei) as [docs [c' [Ed [El H]]]].
  destruct (init_made _ _ _ Ei) as [M _].
  assert (Hb : forall x y : R, x = 0 -> y = 0 -> bisect_right [0; 0] x = 2%nat) by (intros x y -> _; rewrite bisect_2 by lra; rle; reflexivity).
  assert (Edump : dump Nat.eqb (fun l => l) c = Ok [(Some 0, [("foo", num1 0); ("bar", PyDict [("baz", PyList [num1 1; num1 2])])]); (Some 0, [])]).
  { destruct M as [Mt Md]. unfold dump. rewrite Mt, Md. cbn [map removelast tl combine mapM fst snd].
    unfold diff, config_at, bisect_times. rewrite Mt, Md, !(Hb 0 0 eq_refl eq_refl). cbn. reflexivity. }
  rewrite Edump in Ed. assert (X : docs = [(Some 0, [("foo", num1 0); ("bar", PyDict [("baz", PyList [num1 1; num1 2])])]); (Some 0, [])]) by congruence.
  subst docs. specialize (H 0 ["foo"]). destruct M as [Mt Md].
  assert (Mt' : tv_times c' = [0; 0] /\ tv_dicts c' = [flatc ex_first; []]).
  { unfold from_file, load_sections in El. cbn in El. assert (Y : forall a b : config nat R, Ok a = Ok b -> b = a) by (intros a b Q; congruence).
    apply Y in El. subst c'. split; reflexivity. }
  destruct Mt' as [Mt' Md']. unfold config_at, bisect_times in H. rewrite Mt, Md, Mt', Md', (Hb 0 0 eq_refl eq_refl) in H. cbn in H. discriminate H.
Qed.

Lemma nested_refuted : ~ (forall (S : Type) (seqb : S -> S -> bool) (set_order : flat S -> flat S) times dicts (c : config S R) inc,
  (forall a b, seqb a b = true <-> a = b) -> (forall l, Permutation (set_order l) l) ->
  (forall d, In d dicts -> proper (PyDict d)) -> compatible dicts -> sorted times -> 0 <= inc ->
  config_init times dicts = Ok c -> exists r, update seqb set_order inc c = Ok r).
Proof.
  intros C. destruct nested_raises as [c [Ei [Eu _]]].
  assert (P : forall d, In d [ex_nested 0; ex_nested 1] -> proper (PyDict d)).
  { intros d [<-|[<-|[]]]; cbn; repeat split; repeat constructor; cbn; intuition discriminate. }
  assert (L : forall d path v, In d [ex_nested 0; ex_nested 1] -> leaf_at d path = Some v -> path = ["foo"] \/ path = ["box"]).
  { intros d path v Hd E. apply leaf_paths in E; [|apply (P d Hd)]. destruct Hd as [<-|[<-|[]]]; cbn in E;
      destruct E as [E|[E|[]]]; assert (X := f_equal fst E); cbn in X; subst; auto. }
  destruct (C nat Nat.eqb (fun l => l) [0; 1] [ex_nested 0; ex_nested 1] c 1 PeanoNat.Nat.eqb_eq (fun l => Permutation_refl l) P) as [r Er].
  - intros d d' path k rest v v' Hd Hd' E E'. destruct (L _ _ _ Hd E) as [->| ->], (L _ _ _ Hd' E') as [B|B]; discriminate B.
  - apply sorted_2. lra.
  - lra.
  - exact Ei.
  - rewrite Eu in Er. discriminate Er.
Qed.

Lemma ex_in_force : exists c, config_init [0; 1] [ex_first; ex_second] = Ok c
  /\ (forall d, In d [ex_first; ex_second] -> proper (PyDict d)) /\ sorted [0; 1]
  /\ in_force (combine [0; 1] [ex_first; ex_second]) (1/2) ["foo"] = Some (num1 0)
  /\ in_force (combine [0; 1] [ex_first; ex_second]) 1 ["foo"] = Some (num1 1)
  /\ in_force (combine [0; 1] [ex_first; ex_second]) 1 ["bar"; "baz"] = Some (PyList [num1 1; num1 2])
  /\ in_force (combine [0; 1] [ex_first; ex_second]) (-1) ["foo"] = None.
Proof.
  destruct (ex_init 0 1) as [c E]. exists c. split; [exact E|]. split; [apply plain_proper, ex_plain|]. split; [apply sorted_2; lra|].
  unfold in_force. cbn [combine fold_left fst snd]. repeat split; rle; reflexivity.
Qed.
Lemma ex_solid : proper (PyDict ex_first) /\ Forall (fun kv => solid (snd kv)) ex_first
  /\ without_empty (PyDict [("a", PyDict [("b", PyDict [])]); ("c", PyTuple [num1 1])]) = PyDict [("c", PyList [num1 1])].
Proof. split; [exact (proj1 ex_proper)|]. split; [repeat constructor; discriminate|reflexivity]. Qed.
Lemma ex_increasing : plain_sections [ex_first; ex_second] /\ increasing [0; 1]
  /\ exists c, config_init [0; 1] [ex_first; ex_second] = Ok c.
Proof.
  split; [exact ex_plain|]. split; [|apply ex_init]. intros i j H. cbn in H. assert (i = 0 /\ j = 1)%nat as [-> ->] by lia. cbn. lra.
Qed.

Section Init.
  Context {S : Type} (seqb : S -> S -> bool) (set_order : flat S -> flat S).
  Implicit Types dicts : list (dict S).
  Lemma config_at_init times dicts c : (forall d, In d dicts -> proper (PyDict d)) -> sorted times -> config_init times dicts = Ok c ->
    forall t path, option_map as_list (dget path_eqb (config_at c t) path) = in_force (combine times dicts) t path.
  Proof. intros P Hs E t path. apply config_at_in_force; [apply (init_made _ _ _ E)|exact P|exact Hs]. Qed.

  Lemma updates_init t0 times dicts c incs :
    (forall a b, seqb a b = true <-> a = b) -> (forall l, Permutation (set_order l) l) ->
    plain_sections dicts -> t0 <= 0 -> Forall (fun t => 0 < t) times -> sorted (t0 :: times) ->
    Forall (fun inc => 0 <= inc) incs -> config_init (t0 :: times) dicts = Ok c ->
    let at_time := in_force (combine (t0 :: times) dicts) in
    exists ds c' e, updates seqb set_order incs c = Ok (ds, c') /\ as_dict c' = Ok e
      /\ (forall path, leaf_at e path = at_time (total incs) path)
      /\ length ds = length incs
      /\ forall i, (i < length incs)%nat ->
           reports_change (at_time (total (firstn i incs))) (at_time (total (firstn (Datatypes.S i) incs))) (nth i ds []).
  Proof.
    intros Hq Ho Hp H0 Hr Hs Hi E at_time. destruct (init_made _ _ _ E) as [M [T _]].
    destruct (init_at t0 times dicts c E (plain_proper _ Hp) H0 Hr Hs) as [I1 I2].
    destruct (updates_spec seqb Hq set_order Ho _ _ Hp Hs incs c Hi M I1 I2) as [ds [c' [e [E1 [_ [E2 [E3 [E4 E5]]]]]]]].
    exists ds, c', e. rewrite T in E3, E5. subst at_time. split; [exact E1|]. split; [exact E2|]. split; [|split; [exact E4|]].
    - intros path. rewrite E3, Rplus_0_l. reflexivity.
    - intros i Hl. specialize (E5 i Hl). rewrite !Rplus_0_l in E5. exact E5.
  Qed.

  Lemma only_changes_init t0 times dicts c incs ds c1 inc d c2 :
    (forall a b, seqb a b = true <-> a = b) -> (forall l, Permutation (set_order l) l) ->
    plain_sections dicts -> t0 <= 0 -> Forall (fun t => 0 < t) times -> sorted (t0 :: times) ->
    config_init (t0 :: times) dicts = Ok c ->
    Forall (fun inc => 0 <= inc) incs -> updates seqb set_order incs c = Ok (ds, c1) ->
    0 <= inc -> update seqb set_order inc c1 = Ok (d, c2) ->
    forall path, dget path_eqb (tv_current c1) path = dget path_eqb (tv_current c2) path -> leaf_at d path = None.
  Proof.
    intros Hq Ho Hp H0 Hr Hs E Hi Eu Hinc E2. destruct (init_made _ _ _ E) as [M _].
    destruct (init_at t0 times dicts c E (plain_proper _ Hp) H0 Hr Hs) as [I1 I2].
    exact (update_only_changes seqb Hq set_order Ho _ _ Hp Hs incs c Hi M I1 I2 ds c1 inc d c2 Eu Hinc E2).
  Qed.

  Lemma dump_load_init times dicts c :
    (forall a b, seqb a b = true <-> a = b) -> (forall l, Permutation (set_order l) l) ->
    plain_sections dicts -> increasing times -> length times = length dicts -> config_init times dicts = Ok c ->
    exists docs c', dump seqb set_order c = Ok docs /\ from_file docs = Ok c'
      /\ forall t path, dget path_eqb (config_at c' t) path = dget path_eqb (config_at c t) path.
  Proof. intros Hq Ho Hp Hi Hl E. exact (dump_load seqb Hq set_order Ho times dicts c Hp Hi Hl E). Qed.

  Lemma initial_init t0 times dicts c path :
    plain_sections dicts -> t0 <= 0 -> Forall (fun t => 0 < t) times -> sorted (t0 :: times) -> config_init (t0 :: times) dicts = Ok c ->
    option_map as_list (dget path_eqb (tv_current c) path) = in_force (combine (t0 :: times) dicts) 0 path.
  Proof.
    intros Hp H0 Hr Hs E. destruct (init_made _ _ _ E) as [M [T _]].
    destruct (init_at t0 times dicts c E (plain_proper _ Hp) H0 Hr Hs) as [I1 I2].
    rewrite I1, T. apply config_at_in_force; [exact M|apply plain_proper, Hp|exact Hs].
  Qed.

  Lemma updates_never_raise t0 times dicts c incs :
    (forall a b, seqb a b = true <-> a = b) -> (forall l, Permutation (set_order l) l) ->
    plain_sections dicts -> t0 <= 0 -> Forall (fun t => 0 < t) times -> sorted (t0 :: times) ->
    Forall (fun inc => 0 <= inc) incs -> config_init (t0 :: times) dicts = Ok c ->
    exists r, updates seqb set_order incs c = Ok r.
  Proof.
    intros Hq Ho Hp H0 Hr Hs Hi E. destruct (updates_init t0 times dicts c incs Hq Ho Hp H0 Hr Hs Hi E) as [ds [c' [e [Eu _]]]].
    eexists. exact Eu.
  Qed.
End Init.
