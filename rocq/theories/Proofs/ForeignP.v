(** Later changes of sections that are not those of a component. *)
From Coq Require Import String Ascii List ZArith QArith Reals Lra Lia Arith Bool Permutation.
From Verif.Base Require Import Num Py Arr.
From Verif.Model Require Import Config Cli Layers Grid Archive Flexure Sequence SequenceModel Commands.
From Verif.Model Require Processes.
From Verif.Spec Require Import Profile Sections Parameters CommandLine Column Run.
From Verif.Proofs Require Import GridP SequenceP ShorelineP ConfigP TimeVaryingP ConfigEx RunLoopP CliP CliEx SequenceModelEx CommandsP CommandsEx.
Import ListNotations.
Local Open Scope R_scope.
Local Open Scope list_scope.

Lemma set_params_known {S} (d : dict S) : forall (components cs : Processes.context (pyval S)),
  set_params store components d = Ok cs -> forall p, In p (dkeys d) -> In p (dkeys components).
Proof.
  unfold set_params. induction d as [|[p v] d IH]; intros components cs E q; cbn [foldM fst snd] in E; [intros []|].
  destruct (dget String.eqb components p) as [c|] eqn:Ec; [|discriminate E]. destruct v as [| | |vals]; try discriminate E.
  destruct (foldM _ vals c) as [c1|]; [|discriminate E]. cbn [bind] in E.
  assert (Ip : In p (dkeys components)).
  { apply (dget_in _ String.eqb_eq) in Ec. apply (in_map fst) in Ec. exact Ec. }
  cbn [dkeys map fst]. intros [<-|Iq]; [exact Ip|].
  apply (IH _ _ E) in Iq. rewrite dset_keys in Iq. unfold din in Iq. rewrite Ec in Iq. exact Iq.
Qed.

Lemma leaf_key {S} (d : dict S) p rest v : leaf_at d (p :: rest) = Some v -> In p (dkeys d).
Proof.
  cbn. destruct (dget String.eqb d p) as [x|] eqn:E; [|discriminate]. intros _.
  apply (dget_in _ String.eqb_eq) in E. apply (in_map fst) in E. exact E.
Qed.

Lemma rounds_known {S X} (pr : processes R (Processes.context (pyval S) * X)) : Forall only_reads (pr_components pr) ->
  forall ds m mk, rounds pr set_world ds m mk ->
  forall d p, In d ds -> In p (dkeys d) -> In p (dkeys (fst (sm_world m))).
Proof.
  intros Rd ds m mk R. induction R as [m|d ds m m1 w m' E Ew R IH]; intros d0 p Id Ip; [destruct Id|].
  assert (W1 := step_reads pr Rd _ _ E). unfold set_world in Ew.
  destruct (set_params store (fst (sm_world m1)) d) as [cs|] eqn:Es; [|discriminate Ew]. cbn [bind] in Ew.
  assert (w = (cs, snd (sm_world m1))) by congruence. subst w. destruct Id as [<-|Id].
  - rewrite <- W1. apply (set_params_known _ _ _ Es _ Ip).
  - specialize (IH d0 p Id Ip). cbn [with_world sm_world fst] in IH. rewrite (set_params_keys _ _ _ Es), W1 in IH. exact IH.
Qed.

Section Foreign.
  Context {S X : Type} (seqb : S -> S -> bool) (set_order : flat S -> flat S).
  Hypothesis seqb_ok : forall a b, seqb a b = true <-> a = b.
  Hypothesis set_ok : forall l, Permutation (set_order l) l.
  Variables (times : list nat) (dicts : list (dict S)) (ts : list (option R)) (c : config S R).
  Hypothesis Hplain : plain_sections dicts.
  Hypothesis Hlen : length ts = length dicts.
  Hypothesis Hhd : hd 1%nat times = 0%nat.
  Hypothesis Htl : Forall (fun t => (0 < t)%nat) (tl times).
  Hypothesis Hsort : forall i j, (i < j < length times)%nat -> (nth i times 0 <= nth j times 0)%nat.
  Hypothesis Hc : run_config times (map (fun td => [td]) (combine ts dicts)) = Ok c.
  Context (pr : processes R (Processes.context (pyval S) * X)).
  Hypothesis Hreads : Forall only_reads (pr_components pr).
  Variable m : smodel R (Processes.context (pyval S) * X).

  (* every change that is due before the end is of a section of a component,
     or the run does not complete *)
  Theorem foreign_stops stop k p rest v : 0 < ck_step (sm_clock m) -> ck_stop (sm_clock m) = Some stop ->
    in_force (combine (map INR times) dicts) (INR k) (p :: rest) <> Some v ->
    in_force (combine (map INR times) dicts) (INR (Datatypes.S k)) (p :: rest) = Some v ->
    ck_time (sm_clock m) + INR (Datatypes.S k) * ck_step (sm_clock m) <= stop -> ~ In p (dkeys (fst (sm_world m))) ->
    exists n, forall fuel, (n < fuel)%nat -> exists e, run_command seqb set_order pr set_world fuel m c = Some (Err e).
  Proof.
    intros Hp Hs D V Lk Np.
    destruct (run_rounds seqb set_order seqb_ok set_ok times dicts ts c Hplain Hlen Hhd Htl Hsort Hc pr set_world m stop Hp Hs)
      as [n [ds [Hn [Ld [Rc F]]]]].
    exists n. intros fuel Hf. specialize (F fuel Hf). destruct (run_command _ _ _ _ _ _ _) as [[[m' cc]|e]|]; [|exists e; reflexivity|destruct F].
    exfalso. destruct F as [mn [Rn _]].
    assert (Kn : (k < n)%nat).
    { destruct (Nat.lt_ge_cases k n) as [L|L]; [exact L|]. exfalso.
      assert (Hn' : full_steps (ck_time (sm_clock m)) stop (ck_step (sm_clock m)) n) by exact Hn.
      unfold full_steps in Hn'. assert (I : INR (Datatypes.S n) <= INR (Datatypes.S k)) by (apply le_INR; lia).
      rewrite S_INR in I. nra. }
    destruct (Rc k Kn (p :: rest)) as [[Q _]|[_ Q]]; [congruence|]. rewrite V in Q.
    apply Np. apply (rounds_known pr Hreads ds m mn Rn (nth k ds []) p); [apply nth_In; lia|].
    eapply leaf_key. exact Q.
  Qed.
End Foreign.

(* a change of the plot section at the first step *)
Definition ex_plot0 : dict nat := [("fluvial", PyDict [("mud", num1 5)]); ("plot", PyDict [("n_layers", num1 3)])]%string.
Definition ex_plot1 : dict nat := [("plot", PyDict [("n_layers", num1 7)])]%string.
Lemma ex_plot_config : exists c : config nat R,
  run_config [0; 1]%nat (map (fun td => [td]) (combine [None; None] [ex_plot0; ex_plot1])) = Ok c
  /\ plain_sections [ex_plot0; ex_plot1]
  /\ agrees (in_force (combine (map INR [0; 1]%nat) [ex_plot0; ex_plot1]) 0) (fst ex_params)
  /\ in_force (combine (map INR [0; 1]%nat) [ex_plot0; ex_plot1]) (INR 0) ["plot"; "n_layers"]%string = Some (num1 3)
  /\ in_force (combine (map INR [0; 1]%nat) [ex_plot0; ex_plot1]) (INR 1) ["plot"; "n_layers"]%string = Some (num1 7).
Proof.
  assert (P : forall d, In d [ex_plot0; ex_plot1] -> proper (PyDict d)).
  { intros d [<-|[<-|[]]]; cbn; repeat split; repeat constructor; cbn; intuition discriminate. }
  assert (L : forall d path v, In d [ex_plot0; ex_plot1] -> leaf_at d path = Some v ->
     (path = ["fluvial"; "mud"]%string \/ path = ["plot"; "n_layers"]%string) /\ simple v).
  { intros d path v Hd E. apply leaf_paths in E; [|apply P, Hd]. destruct Hd as [<-|[<-|[]]]; cbn in E; [destruct E as [E|[E|[]]]|destruct E as [E|[]]];
      assert (X := f_equal fst E); assert (Y := f_equal snd E); cbn in X, Y; subst; cbn; auto. }
  assert (I : forall t p, 0 <= t -> in_force (combine (map INR [0; 1]%nat) [ex_plot0; ex_plot1]) t p
                = match (if Rle_dec 1 t then says ex_plot1 p else None) with Some v => Some v | None => says ex_plot0 p end).
  { intros t p Ht. unfold in_force. cbn [map combine fold_left fst snd]. change (INR 0) with 0. change (INR 1) with 1.
    destruct (Rle_dec 0 t); [|lra]. destruct (Rle_dec 1 t); destruct (says ex_plot0 p), (says ex_plot1 p); reflexivity. }
  eexists. split; [reflexivity|]. split; [|split; [|split]].
  - split.
    + intros d Hd. split; [apply P, Hd|]. intros path v E. apply (L d path v Hd E).
    + intros d d' path k rest v v' Hd Hd' E E'. destruct (L _ _ _ Hd E) as [Q _], (L _ _ _ Hd' E') as [Q' _].
      destruct Q as [->| ->], Q' as [Q'|Q']; discriminate Q'.
  - intros p k [<-|[]]. rewrite (I 0 _ (Rle_refl 0)). destruct (Rle_dec 1 0); [lra|]. unfold says, value. cbn. destruct (String.eqb k "mud"); [reflexivity|].
    intros H. destruct (H eq_refl).
  - rewrite I by (change (INR 0) with 0; lra). change (INR 0) with 0. destruct (Rle_dec 1 0); [lra|]. reflexivity.
  - rewrite I by (change (INR 1) with 1; lra). change (INR 1) with 1. destruct (Rle_dec 1 1); [|lra]. reflexivity.
Qed.

Definition any_section_claim : Prop :=
  forall (S X : Type) (seqb : S -> S -> bool) (set_order : flat S -> flat S) (times : list nat) (dicts : list (dict S)) (ts : list (option R)) c
         (pr : processes R (Processes.context (pyval S) * X)) m stop,
  (forall a b, seqb a b = true <-> a = b) -> (forall l, Permutation (set_order l) l) ->
  plain_sections dicts -> length ts = length dicts -> hd 1%nat times = 0%nat -> Forall (fun t => (0 < t)%nat) (tl times) ->
  (forall i j, (i < j < length times)%nat -> (nth i times 0 <= nth j times 0)%nat) ->
  run_config times (map (fun td => [td]) (combine ts dicts)) = Ok c ->
  Forall only_reads (pr_components pr) ->
  agrees (in_force (combine (map INR times) dicts) 0) (fst (sm_world m)) ->
  0 < ck_step (sm_clock m) -> ck_stop (sm_clock m) = Some stop ->
  (forall k mk e, reached seqb set_order pr set_world c k m mk -> run_one_step pr None mk <> Raised e) ->
  exists fuel m' c', run_command seqb set_order pr set_world fuel m c = Some (Ok (m', c')).

Lemma run_more_fuel {S W} (seqb : S -> S -> bool) (set_order : flat S -> flat S) (pr : processes R W) (setp : W -> dict S -> result W) r fuel : forall m c k,
  run_until_stop seqb set_order pr setp fuel m c = Some r -> run_until_stop seqb set_order pr setp (fuel + k) m c = Some r.
Proof.
  induction fuel as [|fuel IH]; intros m c k E; [discriminate E|]. cbn [run_until_stop Nat.add] in *.
  destruct (run_one_step pr None m); [|exact E|exact E].
  destruct (let* (d, c0) := _ in _) as [[w c1]|]; [apply IH, E|exact E].
Qed.
Lemma command_more_fuel {S W} (seqb : S -> S -> bool) (set_order : flat S -> flat S) (pr : processes R W) (setp : W -> dict S -> result W) r fuel m c k :
  run_command seqb set_order pr setp fuel m c = Some r -> run_command seqb set_order pr setp (fuel + k) m c = Some r.
Proof. unfold run_command. destruct (progress_total _); [apply run_more_fuel|intros E; exact E]. Qed.

Lemma any_section_refuted : ~ any_section_claim.
Proof.
  intros C. destruct ex_plot_config as [c [E [P [G [V0 V1]]]]]. destruct (ex_params_init 1) as [m [Em [Hr Hc]]].
  assert (Hw : sm_world m = ex_params).
  { unfold model_init in Em. okinv Em E1. okinv Em E2. okinv Em E3. okinv Em E4. okinv Em E5. inversion Em. reflexivity. }
  assert (Hs : forall i j, (i < j < length [0; 1]%nat)%nat -> (nth i [0; 1] 0 <= nth j [0; 1] 0)%nat)
    by (intros i j L; cbn in L; destruct i, j as [|[|]]; cbn; lia).
  assert (N : ~ In "plot"%string (dkeys (fst (sm_world m)))) by (rewrite Hw; cbn; intuition discriminate).
  assert (St : 0 < ck_step (sm_clock m)) by (rewrite Hc; cbn; lra).
  assert (Sp : ck_stop (sm_clock m) = Some 100) by (rewrite Hc; reflexivity).
  assert (Lk : ck_time (sm_clock m) + INR 1 * ck_step (sm_clock m) <= 100) by (rewrite Hc; cbn; lra).
  destruct (foreign_stops Nat.eqb (fun l => l) Nat.eqb_eq (fun l => Permutation_refl l) [0; 1]%nat [ex_plot0; ex_plot1] [None; None] c
              P eq_refl eq_refl ltac:(repeat constructor) Hs E ex_empty ltac:(constructor) m 100 0%nat _ _ (num1 7) St Sp
              ltac:(rewrite V0; discriminate) V1 Lk N) as [n F].
  destruct (C nat unit Nat.eqb (fun l => l) [0; 1]%nat [ex_plot0; ex_plot1] [None; None] c ex_empty m 100 Nat.eqb_eq (fun l => Permutation_refl l)
              P eq_refl eq_refl ltac:(repeat constructor) Hs E ltac:(constructor)) as [fuel [m' [c' R]]]; [rewrite Hw; exact G|exact St|exact Sp| |].
  - intros k mk e [ds [c' [Eu Rk]]] Er.
    destruct (config_changes Nat.eqb (fun l => l) Nat.eqb_eq (fun l => Permutation_refl l) [0; 1]%nat [ex_plot0; ex_plot1] [None; None] c
              P eq_refl eq_refl ltac:(repeat constructor) Hs E k) as [ds2 [c2 [E2 [L2 R2]]]].
    assert (ds2 = ds) by congruence. subst ds2.
    destruct k as [|k].
    + destruct ds; [|discriminate L2]. inversion Rk; subst. destruct (ex_params_step mk 100 Hr) as [m1 [E1 _]]; [exact Sp|rewrite Hc; cbn; lra|congruence].
    + destruct (R2 0%nat ltac:(lia) ["plot"; "n_layers"]%string) as [[Q _]|[_ Q]]; [rewrite V0, V1 in Q; discriminate Q|].
      rewrite V1 in Q. apply N. apply (rounds_known ex_empty ltac:(constructor) ds m mk Rk (nth 0 ds [])); [apply nth_In; lia|].
      eapply leaf_key. exact Q.
  - destruct (F (fuel + Datatypes.S n)%nat ltac:(lia)) as [e Ee]. apply (command_more_fuel _ _ _ _ _ _ _ _ (Datatypes.S n)) in R. congruence.
Qed.

Section Fitting.
  Context {S X : Type} (seqb : S -> S -> bool) (set_order : flat S -> flat S).
  Theorem fitting_completes (times : list nat) (dicts : list (dict S)) (ts : list (option R)) c
         (pr : processes R (Processes.context (pyval S) * X)) m stop :
    (forall a b, seqb a b = true <-> a = b) -> (forall l, Permutation (set_order l) l) ->
    plain_sections dicts -> length ts = length dicts -> hd 1%nat times = 0%nat -> Forall (fun t => (0 < t)%nat) (tl times) ->
    (forall i j, (i < j < length times)%nat -> (nth i times 0 <= nth j times 0)%nat) ->
    run_config times (map (fun td => [td]) (combine ts dicts)) = Ok c ->
    Forall only_reads (pr_components pr) -> later_sections_fit (dkeys (fst (sm_world m))) dicts ->
    agrees (in_force (combine (map INR times) dicts) 0) (fst (sm_world m)) ->
    0 < ck_step (sm_clock m) -> ck_stop (sm_clock m) = Some stop ->
    (forall k mk e, reached seqb set_order pr set_world c k m mk -> run_one_step pr None mk <> Raised e) ->
    exists fuel m' c', run_command seqb set_order pr set_world fuel m c = Some (Ok (m', c')).
  Proof.
    intros Sq So Pl Le Hd Tl Srt Rc Re Fi Ag St Sp Nr.
    destruct (run_with_parameters seqb set_order Sq So times dicts ts c Pl Le Hd Tl Srt Rc pr Re m Fi Ag stop St Sp) as [n [_ F]].
    exists (Datatypes.S n). specialize (F (Datatypes.S n) (le_n _)).
    destruct (run_command _ _ _ _ _ _ _) as [[[m' cc]|e]|]; [exists m', cc; reflexivity| |destruct F].
    destruct F as [k [mk [_ [Rk Er]]]]. destruct (Nr k mk e Rk Er).
  Qed.
End Fitting.
