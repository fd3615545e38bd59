(** The run command. *)
From Coq Require Import String Ascii List ZArith QArith Reals Lra Lia Arith Bool Permutation.
From Verif.Base Require Import Num Py Arr.
From Verif.Model Require Import Shoreline Config Cli Layers Grid Archive Flexure Sequence SequenceModel Commands.
From Verif.Model Require Processes.
From Verif.Spec Require Import Profile Sections Parameters CommandLine Column Run.
From Verif.Proofs Require Import GridP SequenceP ShorelineP ProcessesP ConfigP TimeVaryingP ConfigEx RunLoopP ClockP.
Import ListNotations.
Local Open Scope R_scope.
Local Open Scope list_scope.

Section Rounds.
  Context {S W : Type} (seqb : S -> S -> bool) (set_order : flat S -> flat S).
  Context (pr : processes R W) (setp : W -> dict S -> result W).

  Lemma stepped_clock (m m1 : smodel R W) : run_one_step pr None m = Stepped m1 -> sm_clock m1 = sm_clock (tick m).
  Proof.
    unfold run_one_step, clock_advance. destruct (match ck_stop (sm_clock m) with Some s => _ | None => _ end); [discriminate|].
    destruct (advance_components _ _ _) as [m2|] eqn:E; [|discriminate]. intros X. assert (Y : m2 = m1) by congruence. subst m2.
    rewrite (advance_clock _ _ _ _ E). reflexivity.
  Qed.

  Lemma rounds_clock ds m m' : rounds pr setp ds m m' ->
    sm_clock m' = mkClock (ck_start (sm_clock m)) (ck_stop (sm_clock m)) (ck_step (sm_clock m))
                    (ck_time (sm_clock m) + INR (length ds) * ck_step (sm_clock m)).
  Proof.
    induction 1 as [m|d ds m m1 w m' E _ _ IH].
    - destruct (sm_clock m). cbn. f_equal. lra.
    - rewrite IH. cbn [with_world sm_clock]. rewrite (stepped_clock _ _ E). cbn [tick sm_clock ck_start ck_stop ck_step ck_time].
      cbn [length]. rewrite S_INR. f_equal. lra.
  Qed.

  Lemma run_loop_rounds stop step n : 0 < step -> forall ds c c' m fuel,
    updates seqb set_order (repeat 1 n) c = Ok (ds, c') ->
    ck_stop (sm_clock m) = Some stop -> ck_step (sm_clock m) = step ->
    full_steps (ck_time (sm_clock m)) stop step n -> (n < fuel)%nat ->
    match run_until_stop seqb set_order pr setp fuel m c with
    | Some (Ok (m', _)) => exists m1, rounds pr setp ds m m1 /\ run_one_step pr None m1 = ClockStop m'
    | Some (Err e) => exists k m1, (k < n)%nat /\ rounds pr setp (firstn k ds) m m1
        /\ (run_one_step pr None m1 = Raised e
            \/ exists m2, run_one_step pr None m1 = Stepped m2 /\ setp (sm_world m2) (nth k ds []) = Err e)
    | None => False
    end.
  Proof.
    intros Hp. induction n as [|n IH]; intros ds c c' m fuel Eu Hs Hst F Hf; (destruct fuel as [|fuel]; [lia|]); cbn [run_until_stop];
      assert (Er := run_one_step_R pr None m stop Hs); rewrite Hst in Er; destruct F as [F1 F2].
    - cbn [INR] in F2. destruct (Rlt_dec stop (ck_time (sm_clock m) + step)) as [L|L]; [|exfalso; lra].
      rewrite Er. exists m. cbn in Eu. assert (X : ds = []) by congruence. subst ds. split; [constructor|exact Er].
    - rewrite S_INR in F1, F2. assert (Hm := Rmult_le_pos _ _ (pos_INR n) (Rlt_le _ _ Hp)). destruct F1 as [F1|F1]; [discriminate|].
      destruct (Rlt_dec stop (ck_time (sm_clock m) + step)) as [L|L]; [exfalso; lra|]. clear L.
      cbn [repeat updates] in Eu. destruct (update seqb set_order 1 c) as [[d c1]|e] eqn:E1; [|discriminate Eu]. cbn [bind] in Eu.
      destruct (updates seqb set_order (repeat 1 n) c1) as [[ds1 c2]|e] eqn:E2; [|discriminate Eu]. cbn [bind] in Eu.
      assert (X : ds = d :: ds1) by congruence. subst ds. clear Eu.
      destruct (run_one_step pr None m) as [m1|m1|e] eqn:Es.
      + rewrite n1_R, E1. cbn [bind]. destruct (setp (sm_world m1) d) as [w|e] eqn:Ew; cbn [bind].
        * assert (Ec := stepped_clock _ _ Es).
          assert (R := IH ds1 c1 c2 (with_world m1 w) fuel E2). cbn [with_world sm_clock] in R. rewrite Ec in R.
          cbn [tick sm_clock ck_stop ck_step ck_time] in R.
          specialize (R Hs Hst ltac:(rewrite Hst; split; [right|]; lra) ltac:(lia)). change (mkModel w _ _ _) with (with_world m1 w) in R.
          destruct (run_until_stop seqb set_order pr setp fuel (with_world m1 w) c1) as [[[m' cc]|e]|]; [| |exact R].
          -- destruct R as [m2 [R1 R2]]. exists m2. split; [|exact R2]. exact (rounds_cons pr setp d ds1 m m1 w m2 Es Ew R1).
          -- destruct R as [k [m2 [Lk [R1 R2]]]]. exists (Datatypes.S k), m2. split; [lia|]. split; [|exact R2].
             cbn [firstn]. exact (rounds_cons pr setp d (firstn k ds1) m m1 w m2 Es Ew R1).
        * exists 0%nat, m. split; [lia|]. split; [constructor|]. right. exists m1. split; [exact Es|exact Ew].
      + destruct (advance_components pr step (tick m)); discriminate Er.
      + exists 0%nat, m. split; [lia|]. split; [constructor|]. left. exact Es.
  Qed.
End Rounds.

Section Command.
  Context {S : Type} (seqb : S -> S -> bool) (set_order : flat S -> flat S).
  Hypothesis seqb_ok : forall a b, seqb a b = true <-> a = b.
  Hypothesis set_ok : forall l, Permutation (set_order l) l.

  Lemma progress_ok {W} (m : smodel R W) stop : 0 < ck_step (sm_clock m) -> ck_stop (sm_clock m) = Some stop -> progress_total (sm_clock m) = Ok tt.
  Proof.
    intros Hp Hs. unfold progress_total. rewrite Hs. numR. rewrite n0_R. destruct (Reqb _ 0) eqn:E; [|reflexivity]. apply Reqb_true in E. lra.
  Qed.

  Section Configured.
  Variables (times : list nat) (dicts : list (dict S)) (ts : list (option R)) (c : config S R).
  Hypothesis Hplain : plain_sections dicts.
  Hypothesis Hlen : length ts = length dicts.
  Hypothesis Hhd : hd 1%nat times = 0%nat.
  Hypothesis Htl : Forall (fun t => (0 < t)%nat) (tl times).
  Hypothesis Hsort : forall i j, (i < j < length times)%nat -> (nth i times 0 <= nth j times 0)%nat.
  Hypothesis Hc : run_config times (map (fun td => [td]) (combine ts dicts)) = Ok c.
  Let at_step k := in_force (combine (map INR times) dicts) (INR k).

  Lemma config_changes n : exists ds c', updates seqb set_order (repeat 1 n) c = Ok (ds, c') /\ length ds = n
    /\ forall k, (k < n)%nat -> reports_change (at_step k) (at_step (Datatypes.S k)) (nth k ds []).
  Proof.
    destruct times as [|t0 rest] eqn:Et; [discriminate Hc|]. cbn [hd tl] in *. subst t0.
    assert (E := run_config_single _ _ _ _ Hlen Hc).
    assert (Hs' := sorted_INR _ Hsort). cbn [map] in *. change (INR 0) with 0 in *.
    assert (Fi : Forall (fun inc => 0 <= inc) (repeat 1 n)) by (apply Forall_forall; intros x I; apply repeat_spec in I; lra).
    assert (Fr : Forall (fun t => 0 < t) (map INR rest)).
    { apply Forall_map. revert Htl. apply Forall_impl. intros t L. apply lt_0_INR, L. }
    destruct (updates_init seqb set_order 0 (map INR rest) dicts c (repeat 1 n) seqb_ok set_ok Hplain (Rle_refl 0) Fr Hs' Fi E)
      as [ds [c' [e [Eu [_ [_ [Ld R]]]]]]].
    rewrite repeat_length in Ld. exists ds, c'. split; [exact Eu|]. split; [exact Ld|].
    intros k L. specialize (R k). rewrite repeat_length, !firstn_repeat, !total_repeat in R by lia. apply (R L).
  Qed.

  Theorem run_rounds {W} (pr : processes R W) (setp : W -> dict S -> result W) (m : smodel R W) stop :
    0 < ck_step (sm_clock m) -> ck_stop (sm_clock m) = Some stop ->
    exists n ds, full_steps (ck_time (sm_clock m)) stop (ck_step (sm_clock m)) n /\ length ds = n
      /\ (forall k, (k < n)%nat -> reports_change (at_step k) (at_step (Datatypes.S k)) (nth k ds []))
      /\ forall fuel, (n < fuel)%nat ->
         match run_command seqb set_order pr setp fuel m c with
         | Some (Ok (m', _)) => exists m1, rounds pr setp ds m m1 /\ run_one_step pr None m1 = ClockStop m'
         | Some (Err e) => exists k m1, (k < n)%nat /\ rounds pr setp (firstn k ds) m m1
             /\ (run_one_step pr None m1 = Raised e
                 \/ exists m2, run_one_step pr None m1 = Stepped m2 /\ setp (sm_world m2) (nth k ds []) = Err e)
         | None => False
         end.
  Proof.
    intros Hp Hs. destruct (full_steps_exists (ck_time (sm_clock m)) stop _ Hp) as [n Hn].
    destruct (config_changes n) as [ds [c' [Eu [Ld R]]]]. exists n, ds. split; [exact Hn|]. split; [exact Ld|]. split; [exact R|].
    intros fuel Hf. unfold run_command. rewrite (progress_ok m stop Hp Hs).
    exact (run_loop_rounds seqb set_order pr setp stop _ n Hp ds c c' m fuel Eu Hs eq_refl Hn Hf).
  Qed.

  Section Parameters.
  Context {X : Type} (pr : processes R (Processes.context (pyval S) * X)).
  Hypothesis Hreads : Forall only_reads (pr_components pr).

  Lemma step_reads m m1 : run_one_step pr None m = Stepped m1 -> fst (sm_world m1) = fst (sm_world m).
  Proof.
    unfold run_one_step, clock_advance. destruct (match ck_stop (sm_clock m) with Some s => _ | None => _ end); [discriminate|].
    destruct (advance_components _ _ _) as [m2|] eqn:E; [|discriminate]. intros Q. assert (Y : m2 = m1) by congruence. subst m2. clear Q.
    unfold advance_components in E. okinv E E0. cbn [sm_world sm_grid] in *.
    destruct (run_components (pr_components pr) (ck_step (sm_clock m)) (sm_world m, a)) as [[w g1]|] eqn:Er; [|discriminate E]. cbn [bind] in E.
    okinv E E1. okinv E E2. okinv E E3. okinv E E4. destruct (archive _) as [na el]. assert (Y : sm_world m1 = w) by (inversion E; reflexivity).
    rewrite Y. assert (Hr := Hreads). clear -Er Hr. revert Er. generalize (sm_world m) a. unfold run_components.
    induction Hr as [|cm cs Hc _ IH]; intros w0 g0; cbn [foldM]; [intros Q; inversion Q; reflexivity|].
    destruct (cm _ (w0, g0)) as [[w2 g2]|] eqn:Ec; [|discriminate]. cbn [bind]. intros Q. rewrite (IH _ _ Q). exact (Hc _ _ _ _ _ Ec).
  Qed.

  Theorem rounds_agree (m : smodel R (Processes.context (pyval S) * X)) n ds c' :
    updates seqb set_order (repeat 1 n) c = Ok (ds, c') ->
    later_sections_fit (dkeys (fst (sm_world m))) dicts -> agrees (at_step 0%nat) (fst (sm_world m)) ->
    forall k mk, (k <= n)%nat -> rounds pr set_world (firstn k ds) m mk ->
      agrees (at_step k) (fst (sm_world mk))
      /\ ((k < n)%nat -> forall m2, run_one_step pr None mk = Stepped m2 -> exists w, set_world (sm_world m2) (nth k ds []) = Ok w).
  Proof.
    unfold at_step. clear at_step. intros Eu Fit Ag. destruct times as [|t0 rest] eqn:Et; [discriminate Hc|]. cbn [hd tl] in *. subst t0.
    assert (E := run_config_single _ _ _ _ Hlen Hc).
    assert (Hs' := sorted_INR _ Hsort). cbn [map] in *. change (INR 0) with 0 in *.
    assert (Fr : Forall (fun t => 0 < t) (map INR rest)).
    { apply Forall_map. revert Htl. apply Forall_impl. intros t L. apply lt_0_INR, L. }
    destruct (init_made _ _ _ E) as [M [T [d0 [others [Ed _]]]]].
    destruct (init_at 0 _ _ _ E (plain_proper _ Hplain) (Rle_refl 0) Fr Hs') as [I1 I2]. clear E.
    assert (G : forall n i c ds c' m, made c (0 :: map INR rest) dicts -> tv_time c = INR i ->
       (forall path, dget path_eqb (tv_current c) path = dget path_eqb (config_at c (tv_time c)) path) -> drawn dicts (tv_current c) ->
       updates seqb set_order (repeat 1 n) c = Ok (ds, c') ->
       later_sections_fit (dkeys (fst (sm_world m))) dicts -> agrees (in_force (combine (0 :: map INR rest) dicts) (INR i)) (fst (sm_world m)) ->
       forall k mk, (k <= n)%nat -> rounds pr set_world (firstn k ds) m mk ->
         agrees (in_force (combine (0 :: map INR rest) dicts) (INR (i + k))) (fst (sm_world mk))
         /\ ((k < n)%nat -> forall m2, run_one_step pr None mk = Stepped m2 -> exists w, set_world (sm_world m2) (nth k ds []) = Ok w)).
    2:{ exact (G n 0%nat c ds c' m M T I1 I2 Eu Fit Ag). }
    clear c Hc M T I1 I2 Eu Fit Ag m n ds c'. induction n as [|n IH]; intros i c ds c' m M T I1 I2 Eu Fit Ag k mk Lk R.
    - assert (k = 0%nat) by lia. subst k. cbn in R. inversion R; subst. rewrite Nat.add_0_r. split; [exact Ag|lia].
    - cbn [repeat updates] in Eu.
      destruct (update_spec seqb seqb_ok set_order set_ok c _ _ 1 M Hplain Hs' ltac:(lra) I1 I2) as [d [c1 [E1 [M1 [T1 [J1 [J2 [Pd Rc]]]]]]]].
      assert (So := update_solid seqb set_order seqb_ok set_ok _ _ _ _ _ _ Hplain M E1). rewrite E1 in Eu. cbn [bind] in Eu.
      destruct (updates seqb set_order (repeat 1 n) c1) as [[ds1 c2]|e] eqn:E2; [|discriminate Eu]. cbn [bind] in Eu.
      assert (Q : ds = d :: ds1) by congruence. subst ds. clear Eu.
      rewrite T in Rc, T1. replace (INR i + 1) with (INR (Datatypes.S i)) in Rc, T1 by (rewrite S_INR; reflexivity).
      assert (K : forall m2, run_one_step pr None m = Stepped m2 -> exists ctx, set_world (sm_world m2) d = Ok (ctx, snd (sm_world m2))
                  /\ dkeys ctx = dkeys (fst (sm_world m)) /\ agrees (in_force (combine (0 :: map INR rest) dicts) (INR (Datatypes.S i))) ctx).
      { intros m2 Em. unfold set_world. rewrite (step_reads _ _ Em). rewrite Ed in Rc, Fit, Ag |- *. 
        destruct (set_params_difference 0 (map INR rest) d0 others (INR i) (INR (Datatypes.S i)) (fst (sm_world m)) d) as [ctx [Es [Ek [Ag1 _]]]];
          [apply pos_INR|apply pos_INR|exact Pd|exact So|exact Fit|exact Rc|exact Ag|].
        exists ctx. split; [exact (f_equal (fun r => let* x := r in Ok (x, snd (sm_world m2))) Es)|]. split; [exact Ek|exact Ag1]. }
      destruct k as [|k].
      + cbn in R. inversion R; subst. rewrite Nat.add_0_r. split; [exact Ag|]. intros _ m2 Em. destruct (K m2 Em) as [ctx [Q _]]. eexists. exact Q.
      + cbn [firstn] in R. inversion R as [|d' ds' m' m1 w mk' Es Ew R1]; subst. destruct (K m1 Es) as [ctx [Q [Qk Qa]]].
        assert (Y : w = (ctx, snd (sm_world m1))) by congruence. subst w. cbn [nth].
        destruct (IH (Datatypes.S i) c1 ds1 c2 (with_world m1 (ctx, snd (sm_world m1))) M1 T1 J1 J2 E2) with (k := k) (mk := mk) as [A B].
        * cbn [with_world sm_world fst]. rewrite Qk. exact Fit.
        * exact Qa.
        * lia.
        * exact R1.
        * rewrite Nat.add_succ_r. split; [exact A|]. intros L. apply B. lia.
  Qed.
  End Parameters.
  End Configured.
End Command.
