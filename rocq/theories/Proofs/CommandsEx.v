(** The run command with parameters, examples and what is refuted. *)
From Coq Require Import String Ascii List ZArith QArith Reals Lra Lia Arith Bool Permutation.
From Verif.Base Require Import Num Py Arr.
From Verif.Model Require Import Shoreline Config Cli Layers Grid Archive Flexure Sequence SequenceModel Commands.
From Verif.Model Require Processes.
From Verif.Spec Require Import Profile Sections Parameters CommandLine Column Run.
From Verif.Proofs Require Import GridP SequenceP ShorelineP ProcessesP ConfigP TimeVaryingP ConfigEx RunLoopP ClockP CliP CliEx SequenceModelEx CommandsP.
Import ListNotations.
Local Open Scope R_scope.
Local Open Scope list_scope.

Section Reached.
  Context {S : Type} (seqb : S -> S -> bool) (set_order : flat S -> flat S).

  Lemma updates_prefix n : forall k c ds c', (k <= n)%nat -> updates seqb set_order (repeat 1 n) c = Ok (ds, c') ->
    exists ck, updates seqb set_order (repeat 1 k) c = Ok (firstn k ds, ck).
  Proof.
    induction n as [|n IH]; intros k c ds c' L E.
    - assert (k = 0%nat) by lia. subst k. exists c. reflexivity.
    - destruct k as [|k]; [exists c; reflexivity|]. cbn [repeat updates] in *.
      destruct (update seqb set_order 1 c) as [[d c1]|e]; [|discriminate E]. cbn [bind] in *.
      destruct (updates seqb set_order (repeat 1 n) c1) as [[ds1 c2]|e] eqn:E1; [|discriminate E]. cbn [bind] in E.
      assert (Q : ds = d :: ds1) by congruence. subst ds. destruct (IH k c1 ds1 c2 ltac:(lia) E1) as [ck Ek]. rewrite Ek. exists ck. reflexivity.
  Qed.

  Hypothesis seqb_ok : forall a b, seqb a b = true <-> a = b.
  Hypothesis set_ok : forall l, Permutation (set_order l) l.
  Variables (times : list nat) (dicts : list (dict S)) (ts : list (option R)) (c : config S R).
  Hypothesis Hplain : plain_sections dicts.
  Hypothesis Hlen : length ts = length dicts.
  Hypothesis Hhd : hd 1%nat times = 0%nat.
  Hypothesis Htl : Forall (fun t => (0 < t)%nat) (tl times).
  Hypothesis Hsort : forall i j, (i < j < length times)%nat -> (nth i times 0 <= nth j times 0)%nat.
  Hypothesis Hc : run_config times (map (fun td => [td]) (combine ts dicts)) = Ok c.

  Lemma reached_updates {W} (pr : processes R W) (setp : W -> dict S -> result W) k m mk : reached seqb set_order pr setp c k m mk ->
    exists ds c', updates seqb set_order (repeat 1 k) c = Ok (ds, c') /\ length ds = k /\ rounds pr setp (firstn k ds) m mk.
  Proof.
    intros [ds [c' [E R]]]. exists ds, c'. split; [exact E|].
    destruct (config_changes seqb set_order seqb_ok set_ok times dicts ts c Hplain Hlen Hhd Htl Hsort Hc k) as [ds2 [c2 [E2 [L _]]]].
    assert (Q : ds2 = ds) by congruence. subst ds2. split; [exact L|]. rewrite <- L, firstn_all. exact R.
  Qed.

  Lemma reached_clock {W} (pr : processes R W) (setp : W -> dict S -> result W) k m mk : reached seqb set_order pr setp c k m mk ->
    sm_clock mk = mkClock (ck_start (sm_clock m)) (ck_stop (sm_clock m)) (ck_step (sm_clock m))
                    (ck_time (sm_clock m) + INR k * ck_step (sm_clock m)).
  Proof.
    intros Rk. destruct (reached_updates pr setp k m mk Rk) as [ds [c' [E [L R]]]]. rewrite (rounds_clock _ _ _ _ _ R).
    rewrite firstn_length, L, Nat.min_id. reflexivity.
  Qed.

  Context {X : Type} (pr : processes R (Processes.context (pyval S) * X)).
  Hypothesis Hreads : Forall only_reads (pr_components pr).
  Variable m : smodel R (Processes.context (pyval S) * X).
  Hypothesis Hfit : later_sections_fit (dkeys (fst (sm_world m))) dicts.
  Hypothesis Hag : agrees (in_force (combine (map INR times) dicts) 0) (fst (sm_world m)).

  Theorem reached_agree k mk : reached seqb set_order pr set_world c k m mk ->
    agrees (in_force (combine (map INR times) dicts) (INR k)) (fst (sm_world mk)).
  Proof.
    intros Rk. destruct (reached_updates pr set_world k m mk Rk) as [ds [c' [E [L R]]]].
    destruct (rounds_agree seqb set_order seqb_ok set_ok times dicts ts c Hplain Hlen Hhd Htl Hsort Hc pr Hreads m k ds c' E Hfit Hag k mk (le_n k) R) as [A _].
    exact A.
  Qed.

  Theorem run_with_parameters stop : 0 < ck_step (sm_clock m) -> ck_stop (sm_clock m) = Some stop ->
    exists n, full_steps (ck_time (sm_clock m)) stop (ck_step (sm_clock m)) n /\
    forall fuel, (n < fuel)%nat ->
      match run_command seqb set_order pr set_world fuel m c with
      | Some (Ok (m', _)) => exists mn, reached seqb set_order pr set_world c n m mn /\ run_one_step pr None mn = ClockStop m'
      | Some (Err e) => exists k mk, (k < n)%nat /\ reached seqb set_order pr set_world c k m mk /\ run_one_step pr None mk = Raised e
      | None => False
      end.
  Proof.
    intros Hp Hs. destruct (full_steps_exists (ck_time (sm_clock m)) stop _ Hp) as [n Hn]. exists n. split; [exact Hn|]. intros fuel Hf.
    destruct (config_changes seqb set_order seqb_ok set_ok times dicts ts c Hplain Hlen Hhd Htl Hsort Hc n) as [ds [c' [Eu [Ld _]]]].
    unfold run_command. rewrite (progress_ok m stop Hp Hs).
    assert (R := run_loop_rounds seqb set_order pr set_world stop _ n Hp ds c c' m fuel Eu Hs eq_refl Hn Hf).
    destruct (run_until_stop _ _ _ _ _ _ _) as [[[m' cc]|e]|]; [| |exact R].
    - destruct R as [m1 [R1 R2]]. exists m1. split; [|exact R2]. exists ds, c'. split; [exact Eu|exact R1].
    - destruct R as [k [m1 [L [R1 R2]]]]. exists k, m1. split; [exact L|].
      assert (Rk : reached seqb set_order pr set_world c k m m1).
      { destruct (updates_prefix n k c ds c' ltac:(lia) Eu) as [ck Ek]. exists (firstn k ds), ck. split; [exact Ek|exact R1]. }
      split; [exact Rk|]. destruct R2 as [R2|[m2 [R2 R3]]]; [exact R2|].
      destruct (rounds_agree seqb set_order seqb_ok set_ok times dicts ts c Hplain Hlen Hhd Htl Hsort Hc pr Hreads m n ds c' Eu Hfit Hag k m1 ltac:(lia) R1)
        as [_ B]. destruct (B L m2 R2) as [w Ew]. congruence.
  Qed.

  (* steps of 1 from time 0: the times of the sections are the times of the model *)
  Theorem parameters_in_time k mk : ck_time (sm_clock m) = 0 -> ck_step (sm_clock m) = 1 ->
    reached seqb set_order pr set_world c k m mk ->
    agrees (in_force (combine (map INR times) dicts) (ck_time (sm_clock mk))) (fst (sm_world mk)).
  Proof.
    intros H0 H1 Rk. rewrite (reached_clock _ _ _ _ _ Rk). cbn [ck_time]. rewrite H0, H1, Rplus_0_l, Rmult_1_r. apply reached_agree, Rk.
  Qed.
End Reached.

Definition ex_params : Processes.context (pyval nat) * unit := ([("fluvial", [("mud", num1 5)])]%string, tt).
Definition ex_empty : processes R (Processes.context (pyval nat) * unit) := mkProcesses [] (fun _ => nlit (1 # 2)) (fun _ w => w).
Lemma ex_params_init step : exists m, model_init ex_empty ex_params ex_coast (clock_init 0 (Some 100) step) = Ok m
  /\ ready [BEDROCK_INC] (sm_grid m) /\ sm_clock m = clock_init 0 (Some 100) step.
Proof.
  apply init_ready; try discriminate; try reflexivity.
  - apply ex_coast_whole.
  - intros n [<-|[]]. discriminate.
Qed.
Lemma ex_params_step (m : smodel R (Processes.context (pyval nat) * unit)) stop : ready [BEDROCK_INC] (sm_grid m) ->
  ck_stop (sm_clock m) = Some stop -> ck_time (sm_clock m) + ck_step (sm_clock m) <= stop ->
  exists m', run_one_step ex_empty None m = Stepped m' /\ ready [BEDROCK_INC] (sm_grid m') /\ sm_world m' = sm_world m.
Proof.
  intros Hr Hs L. assert (E := run_one_step_R ex_empty None m stop Hs). destruct (Rlt_dec stop _); [lra|].
  destruct (advance_ok [BEDROCK_INC] ex_empty (ck_step (sm_clock m)) (tick m) ltac:(constructor) Hr) as [m' [Ea [Hr' _]]].
  rewrite Ea in E. exists m'. split; [exact E|]. split; [exact Hr'|].
  unfold advance_components in Ea. okinv Ea E0. cbn [ex_empty pr_components run_components foldM bind] in Ea.
  okinv Ea E1. okinv Ea E2. okinv Ea E3. okinv Ea E4. destruct (archive _). inversion Ea. reflexivity.
Qed.

Definition in_time_claim : Prop :=
  forall (S X : Type) (seqb : S -> S -> bool) (set_order : flat S -> flat S) (times : list nat) (dicts : list (dict S)) (ts : list (option R)) c
         (pr : processes R (Processes.context (pyval S) * X)) m k mk,
  (forall a b, seqb a b = true <-> a = b) -> (forall l, Permutation (set_order l) l) ->
  plain_sections dicts -> length ts = length dicts -> hd 1%nat times = 0%nat -> Forall (fun t => (0 < t)%nat) (tl times) ->
  (forall i j, (i < j < length times)%nat -> (nth i times 0 <= nth j times 0)%nat) ->
  run_config times (map (fun td => [td]) (combine ts dicts)) = Ok c ->
  Forall only_reads (pr_components pr) -> later_sections_fit (dkeys (fst (sm_world m))) dicts ->
  agrees (in_force (combine (map INR times) dicts) 0) (fst (sm_world m)) ->
  ck_time (sm_clock m) = 0 -> 0 < ck_step (sm_clock m) -> reached seqb set_order pr set_world c k m mk ->
  agrees (in_force (combine (map INR times) dicts) (ck_time (sm_clock mk))) (fst (sm_world mk)).

Lemma set_params_keys {S} (d : dict S) : forall (components cs : Processes.context (pyval S)),
  set_params store components d = Ok cs -> dkeys cs = dkeys components.
Proof.
  unfold set_params. induction d as [|[p v] d IH]; intros components cs E; cbn [foldM fst snd] in E; [congruence|].
  destruct (dget String.eqb components p) as [c|] eqn:Ec; [|discriminate E]. destruct v as [| | |vals]; try discriminate E.
  destruct (foldM _ vals c) as [c1|]; [|discriminate E]. cbn [bind] in E. rewrite (IH _ _ E), dset_keys. unfold din. rewrite Ec. reflexivity.
Qed.

Lemma ex_reached step : 0 < step <= 100 -> exists c m m1,
  run_config [0; 2]%nat (map (fun td => [td]) (combine [None; None] [ex_base; ex_mud])) = Ok c
  /\ sm_clock m = clock_init 0 (Some 100) step /\ sm_world m = ex_params
  /\ reached Nat.eqb (fun l => l) ex_empty set_world c 1 m m1 /\ ck_time (sm_clock m1) = step
  /\ dkeys (fst (sm_world m1)) = ["fluvial"%string].
Proof.
  intros Hs. destruct CliEx.ex_run as [c [E [P [F [G _]]]]]. destruct (ex_params_init step) as [m [Em [Hr Hc]]].
  assert (Hw : sm_world m = ex_params).
  { unfold model_init in Em. okinv Em E1. okinv Em E2. okinv Em E3. okinv Em E4. okinv Em E5. inversion Em. reflexivity. }
  destruct (ex_params_step m 100 Hr) as [m1 [E1 [_ W1]]]; [rewrite Hc; reflexivity|rewrite Hc; cbn; lra|].
  destruct (config_changes Nat.eqb (fun l => l) Nat.eqb_eq (fun l => Permutation_refl l) [0; 2]%nat [ex_base; ex_mud] [None; None] c P eq_refl eq_refl
              ltac:(repeat constructor) ltac:(intros i j L; cbn in L; destruct i, j as [|[|]]; cbn; lia) E 1) as [ds [c' [Eu [Ld _]]]].
  assert (K : forall m2, run_one_step ex_empty None m = Stepped m2 -> exists w, set_world (sm_world m2) (nth 0 ds []) = Ok w).
  { apply (rounds_agree Nat.eqb (fun l => l) Nat.eqb_eq (fun l => Permutation_refl l) [0; 2]%nat [ex_base; ex_mud] [None; None] c P eq_refl eq_refl
              ltac:(repeat constructor) ltac:(intros i j L; cbn in L; destruct i, j as [|[|]]; cbn; lia) E ex_empty ltac:(constructor) m 1 ds c' Eu)
      with (k := 0%nat) (mk := m); [rewrite Hw; exact F|rewrite Hw; exact G|lia|constructor|lia]. }
  destruct (K m1 E1) as [w Ew]. destruct ds as [|d [|]]; try discriminate Ld. cbn [nth] in Ew.
  exists c, m, (with_world m1 w). split; [exact E|]. split; [exact Hc|]. split; [exact Hw|].
  assert (Rd : rounds ex_empty set_world [d] m (with_world m1 w)) by (eapply rounds_cons; [exact E1|exact Ew|constructor]).
  split; [exists [d], c'; split; [exact Eu|exact Rd]|].
  split; [rewrite (rounds_clock _ _ _ _ _ Rd), Hc; cbn; lra|]. cbn [with_world sm_world]. unfold set_world in Ew. okinv Ew X. inversion Ew. cbn [fst].
  rewrite (set_params_keys _ _ _ X), W1, Hw. reflexivity.
Qed.

Lemma in_time_refuted : ~ in_time_claim.
Proof.
  intros C. destruct (ex_reached 2 ltac:(lra)) as [c [m [m1 [E [Hc [Hw [Rk [Ht Hk]]]]]]]]. destruct CliEx.ex_run as [c2 [E2 [P [F [G [G0 G2]]]]]].
  assert (Hs : forall i j, (i < j < length [0; 2]%nat)%nat -> (nth i [0; 2] 0 <= nth j [0; 2] 0)%nat)
    by (intros i j L; cbn in L; destruct i, j as [|[|]]; cbn; lia).
  assert (A := C nat unit Nat.eqb (fun l => l) [0; 2]%nat [ex_base; ex_mud] [None; None] c ex_empty m 1%nat m1 Nat.eqb_eq (fun l => Permutation_refl l)
    P eq_refl eq_refl ltac:(repeat constructor) Hs E ltac:(constructor)).
  assert (F' : later_sections_fit (dkeys (fst (sm_world m))) [ex_base; ex_mud]) by (rewrite Hw; exact F).
  assert (G' : agrees (in_force (combine (map INR [0; 2]%nat) [ex_base; ex_mud]) 0) (fst (sm_world m))) by (rewrite Hw; exact G).
  assert (T' : ck_time (sm_clock m) = 0) by (rewrite Hc; reflexivity). assert (S' : 0 < ck_step (sm_clock m)) by (rewrite Hc; cbn; lra).
  specialize (A F' G' T' S' Rk). 
  assert (A' : agrees (in_force (combine (map INR [0; 2]%nat) [ex_base; ex_mud]) 2) (fst (sm_world m1))) by (rewrite <- Ht; exact A). clear A.
  assert (B := reached_agree Nat.eqb (fun l => l) Nat.eqb_eq (fun l => Permutation_refl l) [0; 2]%nat [ex_base; ex_mud] [None; None] c P eq_refl eq_refl
     ltac:(repeat constructor) Hs E ex_empty ltac:(constructor) m F' G' 1%nat m1 Rk).
  change (INR 2) with (1 + 1) in G2. replace 2 with (1 + 1) in A' by lra.
  assert (I : In "fluvial"%string (dkeys (fst (sm_world m1)))) by (rewrite Hk; left; reflexivity).
  assert (A1 := A' "fluvial"%string "mud"%string I). assert (B1 := B "fluvial"%string "mud"%string I). rewrite G2 in A1. 
  assert (G1 : in_force (combine (map INR [0; 2]%nat) [ex_base; ex_mud]) (INR 1) ["fluvial"; "mud"]%string = Some (num1 5)).
  { unfold in_force. cbn [map combine fold_left fst snd]. change (INR 0) with 0. change (INR 1) with 1. change (INR 2) with (1 + 1).
    destruct (Rle_dec 0 1); [|lra]. destruct (Rle_dec (1 + 1) 1); [lra|]. reflexivity. }
  rewrite G1 in B1. specialize (A1 ltac:(discriminate)). specialize (B1 ltac:(discriminate)). rewrite A1 in B1. discriminate B1.
Qed.

Lemma run_without_a_stop {S W} (seqb : S -> S -> bool) (set_order : flat S -> flat S) (pr : processes R W) (setp : W -> dict S -> result W) fuel m c :
  ck_stop (sm_clock m) = None -> run_command seqb set_order pr setp fuel m c = Some (Err TypeError).
Proof. intros H. unfold run_command, progress_total. rewrite H. reflexivity. Qed.

Lemma ex_reached_all step : 0 < step <= 100 -> exists (c : config nat R) m m1,
  run_config [0; 2]%nat (map (fun td => [td]) (combine [None; None] [ex_base; ex_mud])) = Ok c
  /\ plain_sections [ex_base; ex_mud] /\ later_sections_fit (dkeys (fst (sm_world m))) [ex_base; ex_mud]
  /\ agrees (in_force (combine (map INR [0; 2]%nat) [ex_base; ex_mud]) 0) (fst (sm_world m))
  /\ sm_clock m = clock_init 0 (Some 100) step
  /\ reached Nat.eqb (fun l => l) ex_empty set_world c 1 m m1 /\ ck_time (sm_clock m1) = step.
Proof.
  intros Hs. destruct (ex_reached step Hs) as [c [m [m1 [E [Hc [Hw [Rk [Ht Hk]]]]]]]]. destruct CliEx.ex_run as [c2 [E2 [P [F [G _]]]]].
  assert (F' : later_sections_fit (dkeys (fst (sm_world m))) [ex_base; ex_mud]) by (rewrite Hw; exact F).
  assert (G' : agrees (in_force (combine (map INR [0; 2]%nat) [ex_base; ex_mud]) 0) (fst (sm_world m))) by (rewrite Hw; exact G).
  exists c, m, m1. split; [exact E|]. split; [exact P|]. split; [exact F'|]. split; [exact G'|].
  split; [exact Hc|]. split; [exact Rk|exact Ht].
Qed.
