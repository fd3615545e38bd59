(** The clock, the bedrock increments and the loads of SequenceModel. *)
From Coq Require Import String List ZArith QArith Reals Lra Lia Arith Bool Permutation.
From Verif.Base Require Import Num Py Arr.
From Verif.Model Require Import Layers Grid Archive Flexure Sequence SequenceModel.
From Verif.Spec Require Import Profile History Strata Column.
From Verif.Proofs Require Import GridP LayersP FlexureP SequenceP SequenceModelP.
Import ListNotations.
Local Open Scope R_scope.

(** ** run() *)
Section Run.
  Context {W : Type}.

  Definition tick (m : smodel R W) : smodel R W :=
    mkModel (sm_world m) (sm_grid m)
      (mkClock (ck_start (sm_clock m)) (ck_stop (sm_clock m)) (ck_step (sm_clock m))
               (ck_time (sm_clock m) + ck_step (sm_clock m))) (sm_archived m).

  (* n calls of run_one_step() that all complete, and the first that does not *)
  Fixpoint steps (n : nat) (pr : processes R W) (m : smodel R W) : result (smodel R W) :=
    match n with
    | O => Ok m
    | S n' => let* m1 := advance_components pr (ck_step (sm_clock m)) (tick m) in steps n' pr m1
    end.

  Lemma advance_clock {A} `{Num A} (pr : processes A W) dt m m' : advance_components pr dt m = Ok m' -> sm_clock m' = sm_clock m.
  Proof.
    intros E. unfold advance_components in E. okinv E E0.
    destruct (run_components (pr_components pr) dt (sm_world m, a)) as [[w g1]|] eqn:Er; [|discriminate E]. cbn [bind] in E.
    okinv E E1. okinv E E2. okinv E E3. okinv E E4.
    destruct (archive (sm_archived m, layers a3)). injection E as <-. reflexivity.
  Qed.

  Lemma run_one_step_R (pr : processes R W) dt m stop : ck_stop (sm_clock m) = Some stop ->
    run_one_step pr dt m
    = if Rlt_dec stop (ck_time (sm_clock m) + ck_step (sm_clock m)) then ClockStop (tick m)
      else match advance_components pr (match dt with Some d => if Reqb d 0 then ck_step (sm_clock m) else d
                                        | None => ck_step (sm_clock m) end) (tick m) with
           | Ok m => Stepped m | Err e => Raised e end.
  Proof.
    intros Hs. unfold run_one_step, clock_advance. rewrite Hs. numR. rewrite n0_R.
    destruct (Rlt_dec stop (ck_time (sm_clock m) + ck_step (sm_clock m))) as [L|L].
    - replace (Rltb stop _) with true by (symmetry; apply Rltb_true; exact L). unfold tick. rewrite Hs. reflexivity.
    - replace (Rltb stop (ck_time (sm_clock m) + ck_step (sm_clock m))) with false by (symmetry; apply Rltb_false; lra).
      unfold tick. rewrite Hs. reflexivity.
  Qed.

  Lemma full_steps_exists start stop step : 0 < step -> exists n, full_steps start stop step n.
  Proof.
    intros Hp. exists (Z.to_nat (Int_part ((stop - start) / step))).
    set (x := (stop - start) / step). assert (Ex : stop - start = x * step) by (unfold x; field; lra).
    pose proof (Int_part_spec x) as B. unfold full_steps.
    destruct (Z_le_gt_dec 0 (Int_part x)) as [L|L].
    - rewrite INR_IZR_INZ, Z2Nat.id by exact L. split; [right|].
      + assert (IZR (Int_part x) * step <= x * step) by (apply Rmult_le_compat_r; lra). lra.
      + assert (x * step < (IZR (Int_part x) + 1) * step) by (apply Rmult_lt_compat_r; lra). lra.
    - replace (Z.to_nat (Int_part x)) with 0%nat by lia. split; [left; reflexivity|]. cbn [INR].
      assert (IZR (Int_part x) + 1 <= 0) by (replace 1 with (IZR 1) by reflexivity; rewrite <- plus_IZR; apply IZR_le; lia).
      assert (x * step < 0 * step) by (apply Rmult_lt_compat_r; lra). lra.
  Qed.

  Lemma run_steps_model (pr : processes R W) stop step n : 0 < step -> forall m fuel,
    ck_stop (sm_clock m) = Some stop -> ck_step (sm_clock m) = step ->
    full_steps (ck_time (sm_clock m)) stop step n -> (n < fuel)%nat ->
    model_run fuel pr m = Some (let* m' := steps n pr m in Ok (tick m')).
  Proof.
    intros Hp. induction n as [|n IH]; intros m fuel Hs Hst [F1 F2] Hf; destruct fuel as [|fuel]; try lia;
      cbn [model_run]; rewrite (run_one_step_R pr None m stop Hs); rewrite Hst; cbn [steps].
    - cbn [INR] in F2. destruct (Rlt_dec _ _) as [L|L]; [reflexivity|]. exfalso. lra.
    - rewrite S_INR in F1, F2. pose proof (pos_INR n) as Pn.
      assert (Hm := Rmult_le_pos _ _ Pn (Rlt_le _ _ Hp)).
      destruct F1 as [F1|F1]; [discriminate|].
      destruct (Rlt_dec _ _) as [L|L]; [exfalso; lra|]. rewrite Hst.
      destruct (advance_components pr step (tick m)) as [m1|e] eqn:E; [|reflexivity]. cbn [bind].
      assert (Ec := advance_clock _ _ _ _ E). apply IH; [| | |lia]; rewrite Ec; cbn [tick sm_clock ck_stop ck_step ck_time].
      + exact Hs.
      + exact Hst.
      + rewrite Hst. split; [right|]; lra.
  Qed.

  Lemma steps_clock (pr : processes R W) n : forall m m', steps n pr m = Ok m' ->
    sm_clock m' = mkClock (ck_start (sm_clock m)) (ck_stop (sm_clock m)) (ck_step (sm_clock m))
                    (ck_time (sm_clock m) + INR n * ck_step (sm_clock m)).
  Proof.
    induction n as [|n IH]; intros m m' E.
    - injection E as <-. destruct (sm_clock m). cbn. f_equal. lra.
    - cbn [steps] in E. okinv E Ea. rewrite (IH _ _ E), (advance_clock _ _ _ _ Ea).
      cbn [tick sm_clock ck_start ck_stop ck_step ck_time]. f_equal. rewrite S_INR. lra.
  Qed.

  Theorem run_all_steps (pr : processes R W) (m : smodel R W) stop : 0 < ck_step (sm_clock m) ->
    ck_stop (sm_clock m) = Some stop ->
    exists n, full_steps (ck_time (sm_clock m)) stop (ck_step (sm_clock m)) n
      /\ forall fuel, (n < fuel)%nat ->
         model_run fuel pr m = Some (let* m' := steps n pr m in Ok (tick m'))
         /\ forall m', model_run fuel pr m = Some (Ok m') ->
              ck_time (sm_clock m') = ck_time (sm_clock m) + (INR n + 1) * ck_step (sm_clock m).
  Proof.
    intros Hp Hs. destruct (full_steps_exists (ck_time (sm_clock m)) stop _ Hp) as [n Hn]. exists n.
    split; [exact Hn|]. intros fuel Hf.
    assert (E := run_steps_model pr stop _ n Hp m fuel Hs eq_refl Hn Hf). split; [exact E|].
    intros m' E'. rewrite E in E'. injection E' as E'. okinv E' E1. injection E' as <-.
    cbn [tick sm_clock ck_time]. rewrite (steps_clock _ _ _ _ E1). cbn [ck_time ck_step]. lra.
  Qed.

  (* with a step that is not positive run() does not end before stop *)
  Theorem run_never_ends (pr : processes R W) fuel : forall (m m' : smodel R W) stop,
    ck_step (sm_clock m) <= 0 -> ck_stop (sm_clock m) = Some stop -> ck_time (sm_clock m) <= stop ->
    model_run fuel pr m <> Some (Ok m').
  Proof.
    induction fuel as [|fuel IH]; intros m m' stop H1 H2 H3; [discriminate|]. cbn [model_run].
    rewrite (run_one_step_R pr None m stop H2). destruct (Rlt_dec _ _) as [L|L]; [exfalso; lra|].
    destruct (advance_components _ _ _) as [m1|] eqn:E; [|discriminate].
    assert (Ec := advance_clock _ _ _ _ E).
    apply (IH m1 m' stop); rewrite Ec; cbn [tick sm_clock ck_stop ck_step ck_time]; try assumption. lra.
  Qed.
  Theorem run_without_stop (pr : processes R W) fuel : forall (m m' : smodel R W),
    ck_stop (sm_clock m) = None -> model_run fuel pr m <> Some (Ok m').
  Proof.
    induction fuel as [|fuel IH]; intros m m' H2; [discriminate|]. cbn [model_run].
    unfold run_one_step, clock_advance. rewrite H2.
    destruct (advance_components _ _ _) as [m1|] eqn:E; [|discriminate].
    apply IH. rewrite (advance_clock _ _ _ _ E). reflexivity.
  Qed.
End Run.

(** ** the log of calls *)
Section Log.
  Context {A : Type} `{Num A} {W : Type}.

  Lemma logged_components (cs : list (component A W)) dt : forall k w log g,
    run_components (mapi_from k logged cs) dt ((w, log), g)
    = match run_components cs dt (w, g) with
      | Ok (w', g') => Ok ((w', log ++ map (fun i => (i, dt)) (seq k (length cs))), g')
      | Err e => Err e
      end.
  Proof.
    unfold run_components. induction cs as [|c cs IH]; intros k w log g.
    - cbn. rewrite app_nil_r. reflexivity.
    - cbn [mapi_from foldM length seq map]. unfold logged at 1. cbn [fst snd].
      destruct (c dt (w, g)) as [[w1 g1]|]; [|reflexivity]. cbn [bind]. rewrite IH.
      destruct (foldM (fun wg c => c dt wg) cs (w1, g1)) as [[w2 g2]|]; [|reflexivity]. rewrite <- app_assoc. reflexivity.
  Qed.

  Lemma logged_advance (pr : processes A W) dt m log :
    advance_components (logged_processes pr) dt (with_log m log)
    = match advance_components pr dt m with
      | Ok m' => Ok (with_log m' (log ++ map (fun i => (i, dt)) (seq 0 (length (pr_components pr)))))
      | Err e => Err e
      end.
  Proof.
    unfold advance_components. cbn [with_log sm_grid sm_world sm_clock sm_archived logged_processes pr_components pr_porosity].
    destruct (clear_deposit (sm_grid m)) as [g|]; [|reflexivity]. cbn [bind]. unfold mapi.
    rewrite logged_components. destruct (run_components (pr_components pr) dt (sm_world m, g)) as [[w1 g1]|]; [|reflexivity].
    cbn [bind fst]. destruct (node_r g1 _) as [dz|]; [|reflexivity]. cbn [bind].
    destruct (layer_properties _ _ _) as [props|]; [|reflexivity]. cbn [bind].
    destruct (el_add _ _ _) as [el|]; [|reflexivity]. cbn [bind].
    destruct (update_fields _) as [g2|]; [|reflexivity]. cbn [bind].
    destruct (archive _) as [a el']. reflexivity.
  Qed.
End Log.

Section LogRun.
  Context {W : Type}.

  Lemma logged_steps (pr : processes R W) n : forall m log,
    steps n (logged_processes pr) (with_log m log)
    = match steps n pr m with
      | Ok m' => Ok (with_log m' (log ++ concat (repeat (map (fun i => (i, ck_step (sm_clock m)))
                                                    (seq 0 (length (pr_components pr)))) n)))
      | Err e => Err e
      end.
  Proof.
    induction n as [|n IH]; intros m log.
    - cbn. rewrite app_nil_r. reflexivity.
    - cbn [steps repeat concat]. change (tick (with_log m log)) with (with_log (tick m) log).
      change (sm_clock (with_log m log)) with (sm_clock m). rewrite logged_advance.
      destruct (advance_components pr (ck_step (sm_clock m)) (tick m)) as [m1|] eqn:E; [|reflexivity]. cbn [bind].
      rewrite IH, (advance_clock _ _ _ _ E). cbn [tick sm_clock ck_step].
      destruct (steps n pr m1); [|reflexivity]. rewrite <- app_assoc. reflexivity.
  Qed.

  Theorem run_log (pr : processes R W) (m : smodel R W) stop : 0 < ck_step (sm_clock m) ->
    ck_stop (sm_clock m) = Some stop ->
    exists n, full_steps (ck_time (sm_clock m)) stop (ck_step (sm_clock m)) n
      /\ forall fuel, (n < fuel)%nat ->
         match model_run fuel pr m, model_run fuel (logged_processes pr) (with_log m []) with
         | Some (Ok m'), Some (Ok ml) =>
             ml = with_log m' (concat (repeat (map (fun i => (i, ck_step (sm_clock m)))
                                                (seq 0 (length (pr_components pr)))) n))
             /\ ck_time (sm_clock m') = ck_time (sm_clock m) + (INR n + 1) * ck_step (sm_clock m)
         | Some (Err e), Some (Err e') => e' = e
         | _, _ => False
         end.
  Proof.
    intros Hp Hs. destruct (run_all_steps pr m stop Hp Hs) as [n [Hn Hr]]. exists n. split; [exact Hn|].
    intros fuel Hf. destruct (Hr fuel Hf) as [E T].
    assert (E' := run_steps_model (logged_processes pr) stop _ n Hp (with_log m []) fuel Hs eq_refl Hn Hf).
    rewrite E'. rewrite E in T. rewrite E. rewrite logged_steps.
    destruct (steps n pr m) as [m1|e]; [|reflexivity]. cbn [bind]. split; [reflexivity|]. apply T. reflexivity.
  Qed.
End LogRun.

(** ** pending bedrock increments *)
Section Increment.
  Context {W : Type}.
  Definition BED : string := "bedrock_surface__elevation".
  Definition fsum (ds : list (field R)) (i j : nat) : R := rsum (map (fun d => at2 0 d i j) ds).

  Lemma step_stepped {A} `{Num A} (pr : processes A W) dt m m' : run_one_step pr dt m = Stepped m' ->
    exists dt', (match dt with Some d => if (d =? n0)%num then dt' = ck_step (sm_clock m) else dt' = d
                 | None => dt' = ck_step (sm_clock m) end)
      /\ advance_components pr dt' (mkModel (sm_world m) (sm_grid m) (fst (clock_advance (sm_clock m))) (sm_archived m)) = Ok m'.
  Proof.
    unfold run_one_step. destruct (clock_advance (sm_clock m)) as [c stop]. destruct stop; [discriminate|].
    destruct (advance_components _ _ _) as [m1|] eqn:E; [|discriminate]. intros X. injection X as <-.
    eexists. split; [|exact E]. destruct dt as [d|]; [|reflexivity]. destruct (d =? n0)%num; reflexivity.
  Qed.

  (* what a step does to bedrock and increment *)
  Lemma advance_increment {A} `{Num A} (pr : processes A W) dt (m m' : smodel A W) g0 w1 g1 inc :
    Forall keeps_whole (pr_components pr) -> whole_grid (sm_grid m) -> advance_components pr dt m = Ok m' ->
    clear_deposit (sm_grid m) = Ok g0 -> run_components (pr_components pr) dt (sm_world m, g0) = Ok (w1, g1) ->
    node g1 BEDROCK_INC = Some inc ->
    exists z0 z0' inc', node g1 BED = Some z0 /\ node (sm_grid m') BED = Some z0'
      /\ node (sm_grid m') BEDROCK_INC = Some inc'
      /\ forall i j, (i < g_rows (sm_grid m) + 2)%nat -> (j < g_cols (sm_grid m))%nat ->
           at2 n0 z0' i j = nadd (at2 n0 z0 i j) (at2 n0 inc i j) /\ at2 n0 inc' i j = n0.
  Proof.
    intros Hk Hw E E0 Er Ei.
    destruct (advance_stages pr dt m m' Hk Hw E)
      as [g0' [g1' [dz [props [el [g2 [E0' [_ [Er' [Hw1 [R1 [C1 [_ [_ [_ [Hwl [Eu [Hw2 [S2 [B2 [Hw' [Eg _]]]]]]]]]]]]]]]]]]]]]].
    rewrite E0 in E0'. injection E0' as <-. rewrite Er in Er'. injection Er' as _ <-.
    destruct (update_fields_stages _ _ Hwl Eu) as [h1 [h2 [h3 [old [new [U1 [U2 [U3 [U4 [U5 [[H1 [H2 H3]] [_ [_ S4]]]]]]]]]]]]].
    destruct (update_load_spec _ _ Hwl U2) as [_ [L1 [L2 [_ [_ L5]]]]].
    destruct (apply_increment_spec _ _ H1 U3) as [_ [_ [_ AI]]].
    destruct (settle_whole _ _ H2 U4) as [_ [[_ [_ [_ [_ T5]]]] _]].
    destruct S4 as [_ [_ [_ [_ F5]]]].
    assert (Ei1 : node h1 BEDROCK_INC = Some inc).
    { rewrite L5; [exact Ei|]. intros [X|[]]; discriminate X. }
    destruct (AI inc Ei1) as [z0 [z0' [inc' [A1 [A2 [A3 A4]]]]]].
    exists z0, z0', inc'. split; [|split; [|split]].
    - rewrite L5 in A1; [exact A1|]. intros [X|[]]; discriminate X.
    - rewrite Eg. cbn [set_layers]. change (node (set_layers g2 ?e)) with (node g2).
      rewrite F5, T5; [exact A2| |]; intros [X|[]]; discriminate X.
    - rewrite Eg. change (node (set_layers g2 ?e)) with (node g2).
      rewrite F5, T5; [exact A3| |]; intros [X|[]]; discriminate X.
    - intros i j Hi Hj. apply A4; [rewrite L1|rewrite L2]; cbn [set_layers g_rows g_cols]; congruence.
  Qed.

  Lemma adds_up_run (cs : list (component R W)) dt wg ds wg' : adds_up cs dt wg ds wg' ->
    Forall keeps_whole cs -> whole_grid (snd wg) ->
    run_components cs dt wg = Ok wg'
    /\ node (snd wg') BED = node (snd wg) BED
    /\ forall inc, node (snd wg) BEDROCK_INC = Some inc -> exists inc', node (snd wg') BEDROCK_INC = Some inc'
       /\ forall i j, (i < g_rows (snd wg) + 2)%nat -> (j < g_cols (snd wg))%nat ->
            at2 0 inc' i j = at2 0 inc i j + fsum ds i j.
  Proof.
    induction 1 as [dt wg|c cs dt w g w1 g1 d ds wg' inc inc1 Ec Eb Ei Ei1 Hadd Hrest IH]; intros Hk Hw.
    - split; [reflexivity|]. split; [reflexivity|]. intros inc Ei. exists inc. split; [exact Ei|].
      intros i j _ _. unfold fsum. cbn. lra.
    - inversion Hk as [|c' cs' Hc Hk']; subst. destruct (Hc _ _ _ _ _ Hw Ec) as [Hw1 [R1 C1]].
      destruct (IH Hk' Hw1) as [Er [Eb' Hi]]. cbn [snd] in *.
      split; [unfold run_components; cbn [foldM]; rewrite Ec; exact Er|]. split; [unfold BED in *; congruence|].
      intros inc0 Ei0. assert (inc0 = inc) by (unfold BEDROCK_INC in *; congruence). subst inc0.
      destruct (Hi inc1 Ei1) as [inc' [Ei' Hij]]. exists inc'. split; [exact Ei'|]. intros i j Hi' Hj.
      rewrite Hij by congruence. rewrite Hadd by assumption. unfold fsum. cbn [map].
      change (rsum (?a :: ?l)) with (a + rsum l). lra.
  Qed.

  Theorem increments_applied_once (pr : processes R W) dts m dss m' : adds_up_steps pr dts m dss m' ->
    Forall keeps_whole (pr_components pr) -> whole_grid (sm_grid m) ->
    forall z0 inc, node (sm_grid m) BED = Some z0 -> node (sm_grid m) BEDROCK_INC = Some inc ->
    exists z0' inc', node (sm_grid m') BED = Some z0' /\ node (sm_grid m') BEDROCK_INC = Some inc'
      /\ forall i j, (i < g_rows (sm_grid m) + 2)%nat -> (j < g_cols (sm_grid m))%nat ->
           at2 0 z0' i j + at2 0 inc' i j = at2 0 z0 i j + at2 0 inc i j + rsum (map (fun ds => fsum ds i j) dss)
           /\ (dts <> [] \/ at2 0 inc i j = 0 -> at2 0 inc' i j = 0).
  Proof.
    induction 1 as [pr m|pr dt dts m g0 ds wg dss m1 m' Hnz Ecl Ha Es Hrest IH]; intros Hk Hw z0 inc E0 Ei.
    - exists z0, inc. split; [exact E0|]. split; [exact Ei|]. intros i j _ _. cbn. split; [lra|].
      intros [X|X]; [congruence|exact X].
    - destruct (step_stepped _ _ _ _ Es) as [dt' [Edt Eadv]]. numR. rewrite n0_R in Edt.
      assert (dt' = dt) by (change (@neqb R _ dt 0) with (Reqb dt 0) in Edt; destruct (Reqb dt 0) eqn:X;
        [apply Reqb_true in X; contradiction|exact Edt]).
      subst dt'. destruct (clear_whole _ _ Hw Ecl) as [Hw0 [R0 [C0 [_ [_ N0]]]]].
      destruct (adds_up_run _ _ _ _ _ Ha Hk Hw0) as [Er [Eb Hi]]. cbn [snd] in *.
      assert (Ei0 : node g0 BEDROCK_INC = Some inc) by (rewrite N0; [exact Ei|intros [X|[]]; discriminate X]).
      destruct (Hi inc Ei0) as [inc1 [Ei1 Hij]]. destruct wg as [w1 g1]. cbn [snd] in *.
      pose proof (fun H => advance_increment pr dt _ m1 g0 w1 g1 inc1 Hk H Eadv Ecl Er Ei1) as X.
      destruct (X Hw) as [z1 [z1' [inc1' [B1 [B2 [B3 B4]]]]]]. clear X.
      cbn [sm_grid] in B4.
      assert (z1 = z0).
      { rewrite Eb, N0 in B1; [congruence|]. intros [X|[]]; discriminate X. }
      subst z1.
      pose proof (fun H => advance_balanced pr dt _ m1 Hk H Eadv) as X. destruct (X Hw) as [Hw1 [_ [R1 C1]]]. clear X.
      cbn [sm_grid] in R1, C1.
      destruct (IH Hk Hw1 z1' inc1' B2 B3) as [z0' [inc' [D1 [D2 D3]]]].
      exists z0', inc'. split; [exact D1|]. split; [exact D2|]. intros i j Hi' Hj'.
      destruct (B4 i j Hi' Hj') as [F1 F2]. rewrite n0_R in F1, F2. numR.
      destruct (D3 i j) as [G1 G2]; [congruence|congruence|].
      assert (Hij' := Hij i j). rewrite R0, C0 in Hij'. specialize (Hij' Hi' Hj').
      cbn [map]. change (rsum (?a :: ?l)) with (a + rsum l). split.
      + rewrite G1, F1, F2, Hij'. lra.
      + intros _. apply G2. right. exact F2.
  Qed.

  (* fixed contributions, any order *)
  Lemma contributes_adds (l : list (component R W * field R)) dt : Forall (fun p => contributes (fst p) (snd p)) l ->
    Forall keeps_whole (map fst l) -> forall w g w' g', whole_grid g -> node g BEDROCK_INC <> None ->
    run_components (map fst l) dt (w, g) = Ok (w', g') ->
    adds_up (map fst l) dt (w, g) (map snd l) (w', g').
  Proof.
    induction l as [|[c d] l IH]; intros Hc Hk w g w' g' Hw Hi E.
    - injection E as <- <-. constructor.
    - cbn [map fst snd] in *. unfold run_components in E. cbn [foldM] in E.
      destruct (c dt (w, g)) as [[w1 g1]|] eqn:Ec; [|discriminate]. cbn [bind] in E.
      inversion Hc as [|? ? Hc1 Hc2]; subst. inversion Hk as [|? ? Hk1 Hk2]; subst. cbn [fst snd] in *.
      destruct (node g BEDROCK_INC) as [inc|] eqn:Ei; [|congruence].
      destruct (Hc1 dt w g w1 g1 inc Hw Ei Ec) as [Eb [inc1 [Ei1 Hij]]].
      destruct (Hk1 _ _ _ _ _ Hw Ec) as [Hw1 _].
      econstructor; [exact Ec|exact Eb|exact Ei|exact Ei1|exact Hij|].
      apply IH; [exact Hc2|exact Hk2|exact Hw1| |exact E]. change (node g1 BEDROCK_INC <> None).
      unfold BEDROCK_INC. rewrite Ei1. discriminate.
  Qed.

  Lemma complete_sum (pr : processes R W) l dts : pr_components pr = map fst l ->
    Forall (fun p => contributes (fst p) (snd p)) l -> Forall keeps_whole (pr_components pr) ->
    forall m m' z0 inc, whole_grid (sm_grid m) -> complete_steps pr dts m = Some m' ->
    node (sm_grid m) BED = Some z0 -> node (sm_grid m) BEDROCK_INC = Some inc ->
    exists z0' inc', node (sm_grid m') BED = Some z0' /\ node (sm_grid m') BEDROCK_INC = Some inc'
      /\ forall i j, (i < g_rows (sm_grid m) + 2)%nat -> (j < g_cols (sm_grid m))%nat ->
           at2 0 z0' i j + at2 0 inc' i j
           = at2 0 z0 i j + at2 0 inc i j + INR (length dts) * rsum (map (fun p => at2 0 (snd p) i j) l)
           /\ (dts <> [] -> at2 0 inc' i j = 0).
  Proof.
    intros El Hc Hk. induction dts as [|dt dts IH]; intros m m' z0 inc Hw E E0 Ei.
    - injection E as <-. exists z0, inc. split; [exact E0|]. split; [exact Ei|]. intros i j _ _. cbn. split; [lra|congruence].
    - cbn [complete_steps] in E. destruct (run_one_step pr (Some dt) m) as [m1| |] eqn:Es; try discriminate.
      destruct (step_stepped _ _ _ _ Es) as [dt' [_ Eadv]].
      pose proof (fun H => advance_stages pr dt' _ m1 Hk H Eadv) as X.
      destruct (X Hw) as [g0 [g1 [_ [_ [_ [_ [Ecl [Hw0 [Er _]]]]]]]]]. clear X. cbn [sm_grid sm_world] in *.
      destruct (clear_whole _ _ Hw Ecl) as [_ [R0 [C0 [_ [_ N0]]]]].
      assert (Ei0 : node g0 BEDROCK_INC = Some inc) by (rewrite N0; [exact Ei|intros [X|[]]; discriminate X]).
      assert (Ha : adds_up (pr_components pr) dt' (sm_world m, g0) (map snd l) (sm_world m1, g1)).
      { rewrite El in *. apply contributes_adds; try assumption. rewrite Ei0. discriminate. }
      destruct (adds_up_run _ _ _ _ _ Ha Hk Hw0) as [_ [Eb Hi]]. cbn [snd] in *.
      destruct (Hi inc Ei0) as [inc1 [Ei1 Hij]].
      pose proof (fun H => advance_increment pr dt' _ m1 g0 (sm_world m1) g1 inc1 Hk H Eadv Ecl Er Ei1) as X.
      destruct (X Hw) as [z1 [z1' [inc1' [B1 [B2 [B3 B4]]]]]]. clear X. cbn [sm_grid] in B4.
      assert (z1 = z0).
      { rewrite Eb, N0 in B1; [congruence|]. intros [X|[]]; discriminate X. }
      subst z1.
      pose proof (fun H => advance_balanced pr dt' _ m1 Hk H Eadv) as X. destruct (X Hw) as [Hw1 [_ [R1 C1]]]. clear X.
      cbn [sm_grid] in R1, C1.
      destruct (IH m1 m' z1' inc1' Hw1 E B2 B3) as [z0' [inc' [D1 [D2 D3]]]].
      exists z0', inc'. split; [exact D1|]. split; [exact D2|]. intros i j Hi' Hj'.
      destruct (B4 i j Hi' Hj') as [F1 F2]. rewrite n0_R in F1, F2. numR.
      destruct (D3 i j) as [G1 G2]; [congruence|congruence|].
      assert (Hij' := Hij i j). rewrite R0, C0 in Hij'. specialize (Hij' Hi' Hj').
      unfold fsum in Hij'. rewrite map_map in Hij'. cbn [length]. rewrite S_INR. split.
      + rewrite G1, F1, F2, Hij'. lra.
      + intros _. destruct dts as [|d2 dts]; [|apply G2; discriminate]. injection E as <-.
        rewrite B3 in D2. injection D2 as <-. exact F2.
  Qed.

  Lemma rsum_perm l l' : Permutation l l' -> rsum l = rsum l'.
  Proof.
    induction 1; [reflexivity| | |congruence].
    - change (rsum (?a :: ?l)) with (a + rsum l). lra.
    - change (rsum (?a :: ?l)) with (a + rsum l). change (rsum (?a :: ?l)) with (a + rsum l). lra.
  Qed.

  Theorem increments_any_order (pr pr' : processes R W) l l' dts m m1 m2 :
    pr_components pr = map fst l -> pr_components pr' = map fst l' -> Permutation l l' ->
    Forall (fun p => contributes (fst p) (snd p)) l -> Forall keeps_whole (map fst l) ->
    whole_grid (sm_grid m) -> node (sm_grid m) BEDROCK_INC <> None -> dts <> [] ->
    complete_steps pr dts m = Some m1 -> complete_steps pr' dts m = Some m2 ->
    exists z1 z2, node (sm_grid m1) BED = Some z1 /\ node (sm_grid m2) BED = Some z2
      /\ forall i j, (i < g_rows (sm_grid m) + 2)%nat -> (j < g_cols (sm_grid m))%nat -> at2 0 z1 i j = at2 0 z2 i j.
  Proof.
    intros E1 E2 P Hc Hk Hw Hi Hn C1 C2.
    destruct (node (sm_grid m) BEDROCK_INC) as [inc|] eqn:Ei; [|congruence].
    assert (Hb := proj1 (proj2 (proj2 (proj1 Hw)))). destruct Hb as [z0 [E0 _]].
    assert (Hc' : Forall (fun p => contributes (fst p) (snd p)) l') by (eapply Permutation_Forall; eassumption).
    assert (Hk' : Forall keeps_whole (map fst l')).
    { eapply Permutation_Forall; [apply Permutation_map; exact P|exact Hk]. }
    destruct (complete_sum pr l dts E1 Hc ltac:(rewrite E1; exact Hk) m m1 z0 inc Hw C1 E0 Ei) as [z1 [i1 [A1 [_ A3]]]].
    destruct (complete_sum pr' l' dts E2 Hc' ltac:(rewrite E2; exact Hk') m m2 z0 inc Hw C2 E0 Ei) as [z2 [i2 [B1 [_ B3]]]].
    exists z1, z2. split; [exact A1|]. split; [exact B1|]. intros i j Hi' Hj.
    destruct (A3 i j Hi' Hj) as [A4 A5]. destruct (B3 i j Hi' Hj) as [B4 B5].
    rewrite (A5 Hn) in A4. rewrite (B5 Hn) in B4.
    rewrite (rsum_perm _ _ (Permutation_map (fun p => at2 0 (snd p) i j) P)) in A4. lra.
  Qed.
End Increment.

(** ** water-depth increments *)
Section Water.
  Context {A : Type} `{Num A} {W : Type}.

  Theorem water_depth_change (pr : processes A W) dt (m m' : smodel A W) g1 w :
    Forall keeps_whole (pr_components pr) -> whole_grid (sm_grid m) ->
    advance_components pr dt m = Ok m' -> after_components pr dt m g1 ->
    node (sm_grid m') "water__increment_of_depth" = Some w ->
    exists sea z z', gval g1 "sea_level__elevation" = Some sea /\ gval (sm_grid m') "sea_level__elevation" = Some sea
      /\ node g1 "topographic__elevation" = Some z /\ node (sm_grid m') "topographic__elevation" = Some z'
      /\ forall i j, (i < g_rows (sm_grid m))%nat -> (j < g_cols (sm_grid m))%nat ->
           at2 n0 w (S i) j = nsub (nmax (nsub sea (at2 n0 z' (S i) j)) n0) (nmax (nsub sea (at2 n0 z (S i) j)) n0).
  Proof.
    intros Hk Hw E [g0 [w1 [E0 Er]]] Ew.
    destruct (advance_stages pr dt m m' Hk Hw E)
      as [g0' [g1' [dz [props [el [g2 [E0' [_ [Er' [Hw1 [R1 [C1 [_ [_ [_ [Hwl [Eu [Hw2 [S2 [B2 [Hw' [Eg _]]]]]]]]]]]]]]]]]]]]]].
    rewrite E0 in E0'. injection E0' as <-. rewrite Er in Er'. injection Er' as _ <-.
    destruct (update_fields_stages _ _ Hwl Eu) as [h1 [h2 [h3 [old [new [U1 [U2 [U3 [U4 [U5 [[H1 [H2 H3]] [Ul [_ S4]]]]]]]]]]]]].
    destruct (profile_depth_spec _ _ Hwl U1) as [sea [z [Es [Ez [Sh1 P1]]]]].
    destruct (profile_depth_spec _ _ H3 U5) as [sea' [z' [Es' [Ez' [Sh3 P3]]]]].
    destruct (update_load_spec _ _ Hwl U2) as [_ [L1 [L2 [_ [L4 L5]]]]].
    destruct (apply_increment_spec _ _ H1 U3) as [_ [[I1 [I2 [_ [I4 I5]]]] _]].
    destruct (settle_whole _ _ H2 U4) as [_ [[T1 [T2 [_ [T4 T5]]]] _]].
    assert (S4' := S4). destruct S4' as [F1 [F2 [_ [F4 F5]]]].
    assert (Esea : sea' = sea).
    { rewrite T4, I4, L4, Es in Es'. injection Es' as <-. reflexivity. }
    subst sea'. exists sea, z, z'. split; [exact Es|]. split; [rewrite Eg; change (gval (set_layers g2 ?e)) with (gval g2); rewrite F4; exact Es'|].
    split; [exact Ez|]. split.
    { rewrite Eg. change (node (set_layers g2 ?e)) with (node g2). rewrite F5; [exact Ez'|]. intros [X|[]]; discriminate X. }
    rewrite Eg in Ew. change (node (set_layers g2 ?e)) with (node g2) in Ew.
    intros i j Hi Hj.
    assert (Rr : g_rows h3 = g_rows (sm_grid m)) by (rewrite T1, I1, L1; exact R1).
    assert (Cc : g_cols h3 = g_cols (sm_grid m)) by (rewrite T2, I2, L2; exact C1).
    cbn [set_layers g_rows g_cols] in Sh1, P1. rewrite R1, C1 in Sh1, P1. rewrite Rr, Cc in Sh3, P3.
    destruct (has_node h3 WATER_DEPTH_INC) eqn:Hn.
    - assert (X : shaped (g_rows h3) (g_cols h3) (fmap2 nsub new old)) by (rewrite Rr, Cc; apply shaped_fmap2; assumption).
      destruct (whole_set_profile _ _ _ _ H3 X Ul) as [_ [_ [_ Y]]].
      unfold has_node, din in Hn. fold (node h3 WATER_DEPTH_INC) in Hn.
      destruct (node h3 WATER_DEPTH_INC) as [f|] eqn:Ef; [|discriminate].
      rewrite (Y f w i j eq_refl Ew) by congruence.
      rewrite (at2_fmap2 _ (g_rows (sm_grid m)) (g_cols (sm_grid m)) _ _ n0 n0 n0) by assumption.
      rewrite P1, P3 by assumption. reflexivity.
    - subst g2. unfold has_node, din in Hn. fold (node h3 WATER_DEPTH_INC) in Hn. unfold WATER_DEPTH_INC in Hn. rewrite Ew in Hn. discriminate.
  Qed.
End Water.

(** ** sediment load *)
Section Load.
  Context {W : Type}.

  Lemma update_load_R (g g' : grid R) t : whole_grid g -> update_load g = Ok g' -> node g TOTAL_LOAD = Some t ->
    exists t' dz z sand sea, node g' TOTAL_LOAD = Some t' /\ node g "sediment_deposit__thickness" = Some dz
      /\ node g "topographic__elevation" = Some z /\ node g "delta_sediment_sand__volume_fraction" = Some sand
      /\ gval g "sea_level__elevation" = Some sea
      /\ forall i j, (i < g_rows g)%nat -> (j < g_cols g)%nat ->
           at2 0 t' (S i) j = at2 0 t (S i) j
             + sediment_weight (at2 0 sand (S i) j) (at2 0 z (S i) j - sea) (at2 0 dz (S i) j).
  Proof.
    intros Hw E Et. assert (E' := E). unfold update_load in E'.
    unfold has_node, din in E'. fold (node g TOTAL_LOAD) in E'. rewrite Et in E'.
    okinv E' E1. okinv E' E2. okinv E' E3. okinv E' E4. okinv E' E5. okinv E' E6.
    destruct (get_profile_inv _ _ _ E1) as [dz [Ed ->]]. destruct (get_profile_inv _ _ _ E2) as [z [Ez ->]].
    destruct (get_profile_inv _ _ _ E4) as [sand [Es ->]]. destruct (get_profile_inv _ _ _ E6) as [t0 [Et0 ->]].
    rewrite Et in Et0. injection Et0 as <-. apply gval_r_ok in E3.
    assert (P := fun n f X => shaped_inner _ _ _ (proj2 Hw n f X)).
    assert (Hdz := P _ _ Ed). assert (Hz := P _ _ Ez). assert (Hs := P _ _ Es). assert (Ht := P _ _ Et).
    assert (Hrow : forall i, (i < g_rows g)%nat -> length (nth i a3 []) = g_cols g
      /\ forall j, (j < g_cols g)%nat -> nth j (nth i a3 []) 0
         = sediment_weight (at2 0 sand (S i) j) (at2 0 z (S i) j - a1) (at2 0 dz (S i) j)).
    { intros i Hi.
      pose proof (mapM_nth _ _ _ (([], []), []) [] E5 i) as Hn. cbv beta in Hn.
      rewrite !combine_length, (shaped_len _ _ _ Hdz), (shaped_len _ _ _ Hz), (shaped_len _ _ _ Hs) in Hn.
      specialize (Hn ltac:(lia)).
      rewrite !combine_nth in Hn
        by (rewrite ?combine_length, ?(shaped_len _ _ _ Hdz), ?(shaped_len _ _ _ Hz), ?(shaped_len _ _ _ Hs); lia).
      cbn [fst snd] in Hn.
      match type of Hn with calc_loading ?d ?zz ?p ?r ?ww = _ =>
        destruct (calc_loading_spec d zz p r ww) as [loads [El [Ll Hl]]] end.
      - rewrite map_length, (shaped_nth _ _ _ _ Hz Hi), (shaped_nth _ _ _ _ Hdz Hi). reflexivity.
      - rewrite map_length, (shaped_nth _ _ _ _ Hs Hi), (shaped_nth _ _ _ _ Hdz Hi). reflexivity.
      - rewrite Hn in El. injection El as ->. rewrite (shaped_nth _ _ _ _ Hdz Hi) in Ll, Hl.
        split; [exact Ll|]. intros j Hj. rewrite (Hl j Hj).
        rewrite (nth_map' _ (nth i (inner z) []) j 0 0) by (rewrite (shaped_nth _ _ _ _ Hz Hi); exact Hj).
        rewrite (nth_map' _ (nth i (inner sand) []) j 0 0) by (rewrite (shaped_nth _ _ _ _ Hs Hi); exact Hj).
        change (nth j (nth i (inner z) []) 0) with (at2 0 (inner z) i j).
        change (nth j (nth i (inner sand) []) 0) with (at2 0 (inner sand) i j).
        change (nth j (nth i (inner dz) []) 0) with (at2 0 (inner dz) i j).
        rewrite !(at2_inner (g_rows g) (g_cols g)) by first [exact Hi | exact (proj2 Hw _ _ Ez) | exact (proj2 Hw _ _ Es) | exact (proj2 Hw _ _ Ed)].
        unfold sediment_weight, submerged_part, calc_density. numR. rewrite n1_R, !nmin_R, n0_R.
        replace (Q2R (1 # 2)) with (1 / 2) by (unfold Q2R; simpl; lra). lra. }
    assert (Sl : shaped (g_rows g) (g_cols g) a3).
    { apply shaped_of_nth; [|intros i Hi; apply (Hrow i Hi)].
      rewrite (mapM_length _ _ _ E5), !combine_length, (shaped_len _ _ _ Hdz), (shaped_len _ _ _ Hz), (shaped_len _ _ _ Hs). lia. }
    assert (X : shaped (g_rows g) (g_cols g) (fmap2 nadd (inner t) a3)) by (apply shaped_fmap2; assumption).
    destruct (whole_set_profile _ _ _ _ Hw X E') as [_ [_ [Hne Y]]].
    destruct (node g' TOTAL_LOAD) as [t'|] eqn:Et'; [|congruence].
    exists t', dz, z, sand, a1. do 5 (split; [assumption || reflexivity|]). intros i j Hi Hj.
    specialize (Y t t' i j Et eq_refl Hi Hj). rewrite n0_R in Y. rewrite Y.
    rewrite (at2_fmap2 _ (g_rows g) (g_cols g) _ _ 0 0 0) by assumption. numR.
    rewrite (at2_inner (g_rows g) (g_cols g)) by (exact Hi || exact (proj2 Hw _ _ Et)).
    f_equal. apply (Hrow i Hi). exact Hj.
  Qed.

  Theorem load_of_step (pr : processes R W) dt (m m' : smodel R W) g1 t :
    Forall keeps_whole (pr_components pr) -> whole_grid (sm_grid m) ->
    advance_components pr dt m = Ok m' -> after_components pr dt m g1 ->
    node g1 TOTAL_LOAD = Some t ->
    exists t' dz z sand sea, node (sm_grid m') TOTAL_LOAD = Some t'
      /\ node g1 "sediment_deposit__thickness" = Some dz
      /\ node g1 "topographic__elevation" = Some z /\ node g1 "delta_sediment_sand__volume_fraction" = Some sand
      /\ gval g1 "sea_level__elevation" = Some sea
      /\ (forall i j, (i < g_rows (sm_grid m))%nat -> (j < g_cols (sm_grid m))%nat ->
           at2 0 t' (S i) j = at2 0 t (S i) j
             + sediment_weight (at2 0 sand (S i) j) (at2 0 z (S i) j - sea) (at2 0 dz (S i) j))
      /\ (forall i j, (i < g_rows (sm_grid m))%nat -> (j < g_cols (sm_grid m) - 2)%nat ->
           nonneg (at2 [] (el_stacks (layers g1)) i j) ->
           stack_thickness (at2 [] (el_stacks (layers (sm_grid m'))) i j)
           = Rmax 0 (stack_thickness (at2 [] (el_stacks (layers g1)) i j) + at2 0 dz (S i) (S j))).
  Proof.
    intros Hk Hw E [g0 [w1 [E0 Er]]] Et.
    destruct (advance_stages pr dt m m' Hk Hw E)
      as [g0' [g1' [dz [props [el [g2 [E0' [_ [Er' [Hw1 [R1 [C1 [Edz [_ [Eel [Hwl [Eu [Hw2 [S2 [B2 [Hw' [Eg _]]]]]]]]]]]]]]]]]]]]]].
    rewrite E0 in E0'. injection E0' as <-. rewrite Er in Er'. injection Er' as _ <-.
    destruct (update_fields_stages _ _ Hwl Eu) as [h1 [h2 [h3 [old [new [U1 [U2 [U3 [U4 [U5 [[H1 [H2 H3]] [Ul [_ S4]]]]]]]]]]]]].
    destruct (update_load_R _ _ t Hwl U2 Et) as [t' [dz' [z [sand [sea [Et' [Ed' [Ez [Es [Esea Hij]]]]]]]]]].
    change (node (set_layers g1 el)) with (node g1) in *. change (gval (set_layers g1 el)) with (gval g1) in *.
    rewrite Edz in Ed'. injection Ed' as <-.
    destruct (apply_increment_spec _ _ H1 U3) as [_ [[_ [_ [_ [_ I5]]]] _]].
    destruct (settle_whole _ _ H2 U4) as [_ [[_ [_ [_ [_ T5]]]] _]].
    destruct S4 as [_ [_ [_ [_ F5]]]].
    exists t', dz, z, sand, sea. split.
    { rewrite Eg. change (node (set_layers g2 ?e)) with (node g2).
      rewrite F5, T5, I5; [exact Et'| | |]; intros X; repeat destruct X as [X|X]; try discriminate X; destruct X. }
    do 4 (split; [assumption|]). cbn [set_layers g_rows g_cols] in Hij. rewrite R1, C1 in Hij. split; [exact Hij|].
    intros i j Hi Hj Hnn. rewrite Eg. cbn [set_layers layers].
    assert (Hs : shaped (g_rows (sm_grid m)) (g_cols (sm_grid m) - 2) (el_stacks (layers g1))).
    { rewrite <- R1, <- C1. apply Hw1. }
    assert (Hse : shaped (g_rows (sm_grid m)) (g_cols (sm_grid m) - 2) (el_stacks el)).
    { eapply el_add_shaped; [exact Eel|exact Hs]. }
    rewrite (archive_thick (sm_archived m, el) _ _ i j Hse Hi Hj). cbn [snd].
    unfold el_add in Eel. destruct (forallb _ _); [|discriminate]. injection Eel as <-. cbn [el_stacks].
    etransitivity; [apply f_equal; apply (at2_fmapi (A:=stack R) (B:=stack R) _ (g_rows (sm_grid m)) (g_cols (sm_grid m) - 2) _ []); assumption|].
    rewrite !thickness_R, add_stack_thick by exact Hnn. f_equal. f_equal.
    assert (Hdz : shaped (g_rows (sm_grid m) + 2) (g_cols (sm_grid m)) dz) by (rewrite <- R1, <- C1; exact (proj2 Hw1 _ _ Edz)).
    rewrite n0_R. rewrite (at2_cells' (g_rows (sm_grid m)) (g_cols (sm_grid m))); try assumption; [reflexivity|].
    apply Hw.
  Qed.
End Load.

(** ** steps that cannot fail *)
Section Total.
  Context {W : Type}.
  Context (names : list string).

  Lemma update_load_ok (g : grid R) : ready names g -> exists g', update_load g = Ok g'.
  Proof.
    intros [Hw [Hsea [Hld _]]]. unfold update_load, has_node, din. fold (node g TOTAL_LOAD).
    destruct (node g TOTAL_LOAD) as [t|] eqn:Et; [|eauto].
    destruct (proj1 (proj2 (proj1 Hw))) as [z [Ez Hz]]. destruct (proj1 (proj2 (proj2 (proj2 (proj1 Hw))))) as [dz [Ed Hd]].
    destruct (node g "delta_sediment_sand__volume_fraction") as [sand|] eqn:Es; [|exfalso; apply Hld; [unfold TOTAL_LOAD in Et; congruence|reflexivity]].
    destruct (gval g "sea_level__elevation") as [sea|] eqn:Esea; [|congruence].
    rewrite (get_profile_ok _ _ _ Ed), (get_profile_ok _ _ _ Ez), (get_profile_ok _ _ _ Es), (get_profile_ok _ _ _ Et).
    unfold gval_r. rewrite Esea. cbn [bind].
    match goal with |- context [mapM ?f ?l] => destruct (mapM_ok f l) as [ls El] end.
    { intros [[a b] c] Hin. cbn [fst snd]. unfold calc_loading. apply mapM_ok. intros p _. eexists. apply calc_loading_at_spec. }
    rewrite El. cbn [bind]. unfold set_profile, node_r. rewrite Et. cbn [bind]. eauto.
  Qed.

  Lemma profile_depth_ok (g : grid R) : whole_grid g -> gval g "sea_level__elevation" <> None ->
    exists d, profile_depth g = Ok d.
  Proof.
    intros Hw Hs. destruct (proj1 (proj2 (proj1 Hw))) as [z [Ez Hz]]. unfold profile_depth, gval_r.
    destruct (gval g _); [|congruence]. rewrite (get_profile_ok _ _ _ Ez). cbn. eauto.
  Qed.

  Lemma update_fields_ok (g : grid R) : ready names g -> exists g', update_fields g = Ok g'.
  Proof.
    intros Hr. assert (Hr' := Hr). destruct Hr' as [Hw [Hsea _]]. unfold update_fields.
    destruct (profile_depth_ok g Hw Hsea) as [old E1]. rewrite E1. cbn [bind].
    destruct (update_load_ok g Hr) as [g1 E2]. rewrite E2. cbn [bind].
    destruct (update_load_spec _ _ Hw E2) as [Hw1 [_ [_ [_ [G1 _]]]]].
    assert (E3 : exists g2, apply_increment g1 = Ok g2).
    { unfold apply_increment, has_node, din. fold (node g1 BEDROCK_INC).
      destruct (node g1 BEDROCK_INC) as [inc|] eqn:Ei; [|eauto].
      destruct (proj1 (proj2 (proj2 (proj1 Hw1)))) as [z0 [E0 _]]. unfold node_r. rewrite E0. cbn [bind].
      rewrite Ei. cbn [bind]. eauto. }
    destruct E3 as [g2 E3]. rewrite E3. cbn [bind].
    destruct (apply_increment_spec _ _ Hw1 E3) as [Hw2 [[_ [_ [_ [G2 _]]]] _]].
    destruct (settle_ok g2 (proj1 Hw2)) as [g3 [E4 _]]. rewrite E4. cbn [bind].
    destruct (settle_whole _ _ Hw2 E4) as [Hw3 [[_ [_ [_ [G3 _]]]] _]].
    destruct (profile_depth_ok g3 Hw3) as [new E5]; [rewrite G3, G2, G1; exact Hsea|]. rewrite E5. cbn [bind].
    unfold has_node, din. fold (node g3 WATER_DEPTH_INC). destruct (node g3 WATER_DEPTH_INC) as [f|] eqn:Ef; [|eauto].
    unfold set_profile, node_r. rewrite Ef. cbn [bind]. eauto.
  Qed.

  Lemma same_but_nodes touched' (g g' : grid R) : same_but touched' g g' -> whole_grid g' ->
    (forall n, In n touched' -> node g n <> None -> node g' n <> None) ->
    forall n, node g n <> None -> node g' n <> None.
  Proof.
    intros [_ [_ [_ [_ N]]]] _ Ht n Hn. destruct (in_dec string_dec n touched') as [I|I]; [auto|].
    rewrite N by exact I. exact Hn.
  Qed.

  (* no field disappears *)
  Lemma put_keeps (g : grid R) n f n' : node g n' <> None -> node (put_node g n f) n' <> None.
  Proof. rewrite node_put_node. destruct (String.eqb n' n); [discriminate|auto]. Qed.
  Lemma set_profile_keeps (g g' : grid R) n v n' : set_profile g n v = Ok g' -> node g n' <> None -> node g' n' <> None.
  Proof. intros E. destruct (set_profile_inv _ _ _ _ E) as [f [_ ->]]. apply put_keeps. Qed.
  Lemma update_fields_keeps (g g' : grid R) n : update_fields g = Ok g' -> node g n <> None -> node g' n <> None.
  Proof.
    intros E Hn. unfold update_fields in E. okinv E E1. okinv E E2. okinv E E3. okinv E E4. okinv E E5.
    assert (N1 : node a0 n <> None).
    { unfold update_load in E2. destruct (has_node g TOTAL_LOAD); [|injection E2 as <-; exact Hn].
      okinv E2 X1. okinv E2 X2. okinv E2 X3. okinv E2 X4. okinv E2 X5. okinv E2 X6.
      eapply set_profile_keeps; eassumption. }
    assert (N2 : node a1 n <> None).
    { unfold apply_increment in E3. destruct (has_node a0 BEDROCK_INC); [|injection E3 as <-; exact N1].
      okinv E3 X1. okinv E3 X2. injection E3 as <-. apply put_keeps, put_keeps, N1. }
    assert (N3 : node a2 n <> None).
    { destruct (settle_spec _ _ E4) as [z [z0 [_ [_ ->]]]]. apply put_keeps, N2. }
    destruct (has_node a2 WATER_DEPTH_INC); [|injection E as <-; exact N3]. eapply set_profile_keeps; eassumption.
  Qed.
  (* and no load appears *)
  Lemma update_fields_load (g g' : grid R) : update_fields g = Ok g' -> whole_grid g ->
    node g' TOTAL_LOAD <> None -> node g TOTAL_LOAD <> None.
  Proof.
    intros E Hw. destruct (update_fields_stages _ _ Hw E) as [h1 [h2 [h3 [old [new [U1 [U2 [U3 [U4 [U5 [[H1 [H2 H3]] [_ [_ S4]]]]]]]]]]]]].
    destruct (apply_increment_spec _ _ H1 U3) as [_ [[_ [_ [_ [_ I5]]]] _]].
    destruct (settle_whole _ _ H2 U4) as [_ [[_ [_ [_ [_ T5]]]] _]].
    destruct S4 as [_ [_ [_ [_ F5]]]].
    rewrite F5, T5, I5; try (intros X; repeat destruct X as [X|X]; try discriminate X; destruct X; fail).
    intros Hn Hc. apply Hn. unfold update_load, has_node, din in U2. fold (node g TOTAL_LOAD) in U2.
    rewrite Hc in U2. injection U2 as <-. exact Hc.
  Qed.

  Lemma update_fields_dx (g g' : grid R) : update_fields g = Ok g' -> g_dx g' = g_dx g.
  Proof.
    intros E. unfold update_fields in E. okinv E E1. okinv E E2. okinv E E3. okinv E E4. okinv E E5.
    assert (P : forall (h h' : grid R) n v, set_profile h n v = Ok h' -> g_dx h' = g_dx h).
    { intros h h' n v X. destruct (set_profile_inv _ _ _ _ X) as [f [_ ->]]. reflexivity. }
    assert (N1 : g_dx a0 = g_dx g).
    { unfold update_load in E2. destruct (has_node g TOTAL_LOAD); [|injection E2 as <-; reflexivity].
      okinv E2 X1. okinv E2 X2. okinv E2 X3. okinv E2 X4. okinv E2 X5. okinv E2 X6. eapply P; eassumption. }
    assert (N2 : g_dx a1 = g_dx g).
    { unfold apply_increment in E3. destruct (has_node a0 BEDROCK_INC); [|injection E3 as <-; exact N1].
      okinv E3 X1. okinv E3 X2. injection E3 as <-. exact N1. }
    assert (N3 : g_dx a2 = g_dx g).
    { destruct (settle_spec _ _ E4) as [z [z0 [_ [_ ->]]]]. exact N2. }
    destruct (has_node a2 WATER_DEPTH_INC); [|injection E as <-; exact N3]. rewrite <- N3. eapply P; eassumption.
  Qed.

  (* what follows the components *)
  Definition after_step (pr : processes R W) (c : clock R) (archived : nat) (w : W) (g : grid R) : result (smodel R W) :=
    let* dz := node_r g "sediment_deposit__thickness" in
    let* properties := layer_properties (ck_time c) (pr_porosity pr w) g in
    let* el := el_add (cells dz) properties (layers g) in
    let* g := update_fields (set_layers g el) in
    let (n_archived, el) := archive (archived, layers g) in
    Ok (mkModel w (set_layers g el) c n_archived).
  Lemma after_ok (pr : processes R W) c archived w1 g1 : ready names g1 ->
    exists m', after_step pr c archived w1 g1 = Ok m' /\ ready names (sm_grid m') /\ sm_world m' = w1
      /\ g_rows (sm_grid m') = g_rows g1 /\ g_cols (sm_grid m') = g_cols g1 /\ g_dx (sm_grid m') = g_dx g1
      /\ (forall n, node g1 n <> None -> node (sm_grid m') n <> None) /\ (forall n, gval (sm_grid m') n = gval g1 n).
  Proof.
    intros Hr1. assert (Hr1' := Hr1). destruct Hr1' as [Hw1 [Hsea1 [Hld1 [Hnum1 [Htr1 Hnm1]]]]].
    destruct (proj1 (proj2 (proj2 (proj2 (proj1 Hw1))))) as [dz1 [Ed1 Hd1]].
    destruct (proj1 (proj2 (proj1 Hw1))) as [z1 [Ez1 Hz1]].
    unfold after_step, node_r at 1. rewrite Ed1. cbn [bind].
    assert (Ep : exists props, layer_properties (ck_time c) (pr_porosity pr w1) g1 = Ok props
                   /\ forall kv, In kv props -> In (fst kv) ["age"; "water_depth"; "t0"; "percent_sand"; "porosity"]%string).
    { unfold layer_properties, node_r, gval_r. rewrite Ed1, Ez1. destruct (gval g1 "sea_level__elevation"); [|congruence].
      cbn [bind]. eexists. split; [reflexivity|]. intros kv.
      destruct (node g1 "delta_sediment_sand__volume_fraction"); cbn; intros X;
        repeat destruct X as [X|X]; try (subst kv; cbn; tauto); destruct X. }
    destruct Ep as [props [Ep Hp]]. rewrite Ep. cbn [bind].
    assert (Ea : exists el, el_add (cells dz1) props (layers g1) = Ok el /\ el_number el <> 0%nat
                   /\ el_tracking el = el_tracking (layers g1)).
    { unfold el_add. destruct (Nat.eqb_spec (el_number (layers g1)) 0) as [X|X]; [contradiction|].
      replace (forallb _ props) with true.
      - eexists. split; [reflexivity|]. split; [discriminate|reflexivity].
      - symmetry. apply forallb_forall. intros kv Hkv. apply existsb_exists. exists (fst kv).
        split; [apply Htr1, Hp, Hkv|apply String.eqb_refl]. }
    destruct Ea as [el [Ea [Hel Tel]]]. rewrite Ea. cbn [bind].
    assert (Hrl : ready names (set_layers g1 el)).
    { split; [apply whole_layers; [|exact Hw1]; eapply el_add_shaped; [exact Ea|apply Hw1]|].
      split; [exact Hsea1|]. split; [exact Hld1|]. split; [exact Hel|]. split; [cbn [set_layers layers]; rewrite Tel; exact Htr1|exact Hnm1]. }
    destruct (update_fields_ok _ Hrl) as [g2 Eu]. rewrite Eu. cbn [bind].
    destruct (update_fields_whole _ _ (proj1 Hrl) Eu) as [Hw2 [[R2 [C2 [L2 [V2 N2]]]] _]].
    destruct (archive (archived, layers g2)) as [na el'] eqn:Earch. eexists. split; [reflexivity|].
    cbn [sm_grid sm_world]. assert (Hshape : shaped (g_rows g2) (g_cols g2 - 2) (el_stacks el')).
    { change el' with (snd (na, el')). rewrite <- Earch. apply archive_shaped. apply Hw2. }
    assert (Hel' : el_number el' <> 0%nat /\ el_tracking el' = el_tracking el).
    { unfold archive in Earch. rewrite L2 in Earch. cbn [set_layers layers] in Earch.
      destruct (_ =? 0)%Z; injection Earch as <- <-; [|auto]. unfold el_reduce. cbn [el_number el_tracking]. split; [lia|reflexivity]. }
    assert (Hdx : g_dx g2 = g_dx g1).
    { exact (update_fields_dx _ _ Eu). }
    split; [|split; [reflexivity|]; split; [exact R2|]; split; [exact C2|]; split; [exact Hdx|];
             split; [intros n Hn; exact (update_fields_keeps _ _ n Eu Hn)|intros n; exact (V2 n)]].
    split; [apply whole_layers; assumption|].
    split; [change (gval (set_layers g2 el')) with (gval g2); rewrite V2; exact Hsea1|].
    change (node (set_layers g2 el')) with (node g2). split.
    { intros X. eapply update_fields_keeps; [exact Eu|]. apply Hld1.
      exact (update_fields_load _ _ Eu (proj1 Hrl) X). }
    split; [apply Hel'|]. split; [cbn [set_layers layers]; rewrite (proj2 Hel'), Tel; exact Htr1|].
    intros n Hn. eapply update_fields_keeps; [exact Eu|]. apply Hnm1, Hn.
  Qed.

  Lemma advance_ok (pr : processes R W) dt (m : smodel R W) :
    Forall (reliable names) (pr_components pr) -> ready names (sm_grid m) ->
    exists m', advance_components pr dt m = Ok m' /\ ready names (sm_grid m') /\ sm_clock m' = sm_clock m.
  Proof.
    intros Hrel Hr. assert (Hr' := Hr). destruct Hr' as [Hw [Hsea [Hld [Hnum [Htr Hnm]]]]].
    assert (Hex : exists m', advance_components pr dt m = Ok m' /\ ready names (sm_grid m')).
    2:{ destruct Hex as [m' [E R']]. exists m'. split; [exact E|]. split; [exact R'|]. exact (advance_clock _ _ _ _ E). }
    unfold advance_components.
    destruct (proj1 (proj2 (proj2 (proj2 (proj1 Hw))))) as [dz [Ed Hd]].
    assert (E0 : clear_deposit (sm_grid m) = Ok (put_node (sm_grid m) "sediment_deposit__thickness" (fmap (fun _ => n0) dz))).
    { unfold clear_deposit, node_r. rewrite Ed. reflexivity. }
    rewrite E0. cbn [bind]. set (g0 := put_node _ _ _) in *.
    destruct (clear_whole _ _ Hw E0) as [Hw0 [R0 [C0 [L0 [V0 N0]]]]].
    assert (Hr0 : ready names g0).
    { split; [exact Hw0|]. split; [rewrite V0; exact Hsea|]. split.
      - intros X. rewrite N0; [apply Hld|]; [rewrite N0 in X; [exact X|]|]; intros [Y|[]]; discriminate Y.
      - rewrite L0. split; [exact Hnum|]. split; [exact Htr|]. intros n Hn. unfold g0. apply put_keeps, Hnm, Hn. }
    assert (Hrun : exists w1 g1, run_components (pr_components pr) dt (sm_world m, g0) = Ok (w1, g1) /\ ready names g1).
    { clear - Hrel Hr0. revert Hr0. generalize (sm_world m) g0. induction Hrel as [|c cs Hc Hcs IH]; intros w g Hg.
      - exists w, g. split; [reflexivity|exact Hg].
      - destruct (Hc dt w g Hg) as [w1 [g1 [E1 [R1 _]]]]. destruct (IH w1 g1 R1) as [w2 [g2 [E2 R2]]].
        exists w2, g2. split; [|exact R2]. unfold run_components. cbn [foldM]. rewrite E1. exact E2. }
    destruct Hrun as [w1 [g1 [Er Hr1]]]. rewrite Er. cbn [bind].
    destruct (after_ok pr (sm_clock m) (sm_archived m) w1 g1 Hr1) as [m' [E' [R' _]]]. exists m'. split; [exact E'|exact R'].
  Qed.

  Lemma steps_ok (pr : processes R W) n : Forall (reliable names) (pr_components pr) -> forall m,
    ready names (sm_grid m) -> exists m', steps n pr m = Ok m' /\ ready names (sm_grid m').
  Proof.
    intros Hrel. induction n as [|n IH]; intros m Hr; [exists m; split; [reflexivity|exact Hr]|].
    cbn [steps]. destruct (advance_ok pr (ck_step (sm_clock m)) (tick m) Hrel Hr) as [m1 [E [R1 _]]].
    rewrite E. cbn [bind]. apply IH. exact R1.
  Qed.

  Theorem run_succeeds (pr : processes R W) (m : smodel R W) stop :
    Forall (reliable names) (pr_components pr) -> ready names (sm_grid m) ->
    0 < ck_step (sm_clock m) -> ck_stop (sm_clock m) = Some stop ->
    exists n, full_steps (ck_time (sm_clock m)) stop (ck_step (sm_clock m)) n
      /\ forall fuel, (n < fuel)%nat -> exists m', model_run fuel pr m = Some (Ok m') /\ ready names (sm_grid m').
  Proof.
    intros Hrel Hr Hp Hs. destruct (run_all_steps pr m stop Hp Hs) as [n [Hn H]]. exists n. split; [exact Hn|].
    intros fuel Hf. destruct (H fuel Hf) as [E _]. destruct (steps_ok pr n Hrel m Hr) as [m' [E' R']].
    rewrite E, E'. cbn [bind]. exists (tick m'). split; [reflexivity|exact R'].
  Qed.

  Lemma complete_ok (pr : processes R W) dts : Forall (reliable names) (pr_components pr) -> forall m,
    ready names (sm_grid m) -> ck_stop (sm_clock m) = None ->
    exists m', complete_steps pr dts m = Some m' /\ ready names (sm_grid m').
  Proof.
    intros Hrel. induction dts as [|dt dts IH]; intros m Hr Hs; [exists m; split; [reflexivity|exact Hr]|].
    cbn [complete_steps]. unfold run_one_step, clock_advance. rewrite Hs.
    match goal with |- context [advance_components pr ?d ?mm] =>
      destruct (advance_ok pr d mm Hrel Hr) as [m1 [E [R1 Ec]]] end.
    rewrite E. apply IH; [exact R1|]. rewrite Ec. reflexivity.
  Qed.

  Theorem init_ready (pr : processes R W) w (g : grid R) c : whole_grid g -> el_number (layers g) = 0%nat ->
    rowf g "x_of_shore" <> None -> rowf g "x_of_shelf_edge" <> None ->
    (node g TOTAL_LOAD <> None -> node g "delta_sediment_sand__volume_fraction" <> None) ->
    (forall n, In n names -> node g n <> None) ->
    exists m, model_init pr w g c = Ok m /\ ready names (sm_grid m) /\ sm_clock m = c.
  Proof.
    intros Hw Hn H1 H2 Hld Hnm.
    assert (X : exists m, model_init pr w g c = Ok m).
    { unfold model_init. destruct (rowf g "x_of_shore") as [v1|]; [|congruence]. cbn [bind].
      rewrite rowf_put_rowf. eqb_lit. destruct (rowf g "x_of_shelf_edge") as [v2|]; [|congruence]. cbn [bind].
      set (g1 := put_gval _ _ _). destruct (proj1 (proj2 (proj2 (proj1 Hw)))) as [z0 [E0 _]].
      unfold node_r. change (node g1 "bedrock_surface__elevation") with (node g "bedrock_surface__elevation"). rewrite E0. cbn [bind].
      unfold el_add. change (layers g1) with (layers g). rewrite Hn. cbn [Nat.eqb map fst forallb existsb].
      rewrite !String.eqb_refl. eqb_lit. cbn [orb andb bind].
      destruct (has_node _ WATER_LOAD) eqn:Ew; [|cbn [bind]; eauto]. set (g2 := set_layers g1 _) in *.
      destruct (proj1 (proj2 (proj1 Hw))) as [z [Ez _]].
      rewrite (get_profile_ok g2 _ z Ez). cbn [bind]. unfold gval_r.
      replace (gval g2 "sea_level__elevation") with (Some (@n0 R _))
        by (symmetry; unfold g2, g1; change (gval (set_layers ?a ?b)) with (gval a); rewrite gval_put_gval; eqb_lit; reflexivity).
      cbn [bind]. unfold has_node, din in Ew. fold (node g2 WATER_LOAD) in Ew.
      destruct (node g2 WATER_LOAD) as [f|] eqn:Ef; [|discriminate].
      rewrite (set_profile_ok _ _ f) by exact Ef. cbn [bind]. eauto. }
    destruct X as [m E]. exists m. split; [exact E|].
    destruct (init_spec pr w g c m Hw E) as [Hw' [_ [_ [Ec [_ [_ [Hnode [Hsea [props Ea]]]]]]]]].
    split; [|exact Ec].
    assert (Keep : forall n, node g n <> None -> node (sm_grid m) n <> None).
    { intros n Hn'. destruct (string_dec n WATER_LOAD) as [->|X]; [|rewrite Hnode by exact X; exact Hn'].
      clear - E Hn'. unfold model_init in E. okinv E E1. okinv E E2. okinv E E3. okinv E E4. okinv E E5. injection E as <-.
      destruct (rowf g "x_of_shore") as [v1|]; [injection E1 as <-|discriminate].
      destruct (rowf _ "x_of_shelf_edge") as [v2|]; [injection E2 as <-|discriminate].
      cbn [sm_grid]. destruct (has_node _ WATER_LOAD); [|injection E5 as <-; exact Hn'].
      okinv E5 X1. okinv E5 X2. eapply set_profile_keeps; [exact E5|exact Hn']. }
    split; [exact Hw'|]. split; [rewrite Hsea; discriminate|].
    split; [intros Y; apply Keep, Hld; rewrite Hnode in Y by discriminate; exact Y|].
    clear H1 H2. unfold model_init in E. okinv E E1. okinv E E2. okinv E E3. okinv E E4. okinv E E5. injection E as <-.
    destruct (rowf g "x_of_shore") as [v1|]; [injection E1 as <-|discriminate].
    destruct (rowf _ "x_of_shelf_edge") as [v2|]; [injection E2 as <-|discriminate].
    cbn [sm_grid] in *.
    assert (L : layers a3 = a2).
    { destruct (has_node _ WATER_LOAD); [|injection E5 as <-; reflexivity].
      okinv E5 X1. okinv E5 X2. destruct (set_profile_inv _ _ _ _ E5) as [f [_ ->]]. reflexivity. }
    rewrite L. unfold el_add in E4. change (layers (put_gval ?x ?y ?z)) with (layers x) in E4.
    change (layers (put_rowf ?x ?y ?z)) with (layers x) in E4.
    change (layers (put_rowf ?x ?y ?z)) with (layers x) in E4. rewrite Hn in E4.
    destruct (forallb _ _); [|discriminate]. injection E4 as <-. cbn [el_number el_tracking].
    split; [lia|]. split; [intros x Hx; exact Hx|]. intros n Hn'. apply Keep, Hnm, Hn'.
  Qed.
End Total.
