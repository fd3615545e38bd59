From Coq Require Import String List ZArith QArith Reals Lra Lia Arith.
From Verif.Base Require Import Num Py Arr.
From Verif.Model Require Import Layers Grid Interp Flexure Clients.
From Verif.Spec Require Import Profile History.
From Verif.Proofs Require Import GridP.
Import ListNotations.
Local Open Scope R_scope.

(** ** loading *)

Theorem calc_loading_at_spec d z phi rho w :
  calc_loading_at d z phi rho w = Ok ((1 - phi) * rho * d + phi * w * submerged_part z d).
Proof.
  unfold calc_loading_at, calc_bulk_density, submerged_part. numR. rewrite !n0_R, !n1_R.
  set (b1 := Rleb 0 z). set (b2 := Rleb 0 (z + d)). set (b3 := Rleb z 0). set (b4 := Rleb (z + d) 0).
  assert (E1 : b1 = true <-> 0 <= z) by apply Rleb_true.
  assert (E2 : b2 = true <-> 0 <= z + d) by apply Rleb_true.
  assert (E3 : b3 = true <-> z <= 0) by apply Rleb_true.
  assert (E4 : b4 = true <-> z + d <= 0) by apply Rleb_true.
  assert (F1 : b1 = false <-> z < 0) by apply Rleb_false.
  assert (F2 : b2 = false <-> z + d < 0) by apply Rleb_false.
  assert (F3 : b3 = false <-> 0 < z) by apply Rleb_false.
  assert (F4 : b4 = false <-> 0 < z + d) by apply Rleb_false.
  clearbody b1 b2 b3 b4.
  destruct b1, b2, b3, b4; cbn [andb negb];
    repeat match goal with
    | H : true = true <-> _ |- _ => apply proj1 in H; specialize (H eq_refl)
    | H : false = false <-> _ |- _ => apply proj1 in H; specialize (H eq_refl)
    | H : true = false <-> _ |- _ => clear H
    | H : false = true <-> _ |- _ => clear H
    end; try (exfalso; lra);
    try (rcase; [exfalso; lra|]); cbn [bind]; f_equal;
    unfold Rmin; repeat destruct (Rle_dec _ _); try (exfalso; lra);
    try (replace z with 0 by lra); try (replace d with 0 by lra); try lra;
    try (assert (Ez : z = 0) by lra; rewrite Ez; lra);
    try (assert (Ez : d = - z) by lra; rewrite Ez; lra);
    rewrite nabs_R, nmax_R; unfold Rmax; destruct (Rle_dec (z + d) z); try (exfalso; lra).
  - replace (Rabs (z / d)) with (- (z / d)).
    + field. assumption.
    + rewrite Rabs_left; [reflexivity|].
      unfold Rdiv. assert (Hz : 0 < z * / - d) by (apply Rmult_lt_0_compat; [lra|apply Rinv_0_lt_compat; lra]).
      rewrite Rinv_opp in Hz. lra.
  - replace (Rabs ((z + d) / d)) with ((z + d) / d).
    + field. assumption.
    + rewrite Rabs_right; [reflexivity|].
      unfold Rdiv. apply Rle_ge, Rmult_le_pos; [lra|left; apply Rinv_0_lt_compat; lra].
Qed.

Theorem calc_loading_spec (ds zs : list R) phi (rhos : list R) w :
  length zs = length ds -> length rhos = length ds ->
  exists loads, calc_loading ds zs phi rhos w = Ok loads /\ length loads = length ds
    /\ forall i, (i < length ds)%nat ->
         nth i loads 0 = (1 - phi) * nth i rhos 0 * nth i ds 0
                         + phi * w * submerged_part (nth i zs 0) (nth i ds 0).
Proof.
  intros Hz Hr. unfold calc_loading.
  set (l := combine (combine ds zs) rhos).
  assert (Hl : length l = length ds) by (unfold l; rewrite !combine_length; lia).
  destruct (mapM_ok (fun p => calc_loading_at (fst (fst p)) (snd (fst p)) phi (snd p) w) l) as [ls E].
  { intros p _. eexists. apply calc_loading_at_spec. }
  exists ls. split; [exact E|]. split; [rewrite (mapM_length _ _ _ E); exact Hl|].
  intros i Hi. pose proof (mapM_nth _ _ _ ((0, 0), 0) 0 E i ltac:(lia)) as Hn.
  cbv beta in Hn.
  rewrite calc_loading_at_spec in Hn. inversion Hn as [Hn']. clear Hn.
  unfold l in *. rewrite combine_nth in * by (rewrite combine_length; lia).
  rewrite combine_nth in * by lia. cbn [fst snd] in *. reflexivity.
Qed.

Theorem loading_additive z d1 d2 phi rho w a b c :
  calc_loading_at d1 z phi rho w = Ok a ->
  calc_loading_at d2 (z + d1) phi rho w = Ok b ->
  calc_loading_at (d1 + d2) z phi rho w = Ok c ->
  a + b = c.
Proof.
  rewrite !calc_loading_at_spec. intros Ea Eb Ec. inversion Ea; inversion Eb; inversion Ec; subst.
  unfold submerged_part. replace (z + d1 + d2) with (z + (d1 + d2)) by lra. lra.
Qed.

Theorem loading_undo z d phi rho w a b :
  calc_loading_at d z phi rho w = Ok a -> calc_loading_at (- d) (z + d) phi rho w = Ok b -> a + b = 0.
Proof.
  rewrite !calc_loading_at_spec. intros Ea Eb. inversion Ea; inversion Eb; subst.
  unfold submerged_part. replace (z + d + - d) with z by lra. lra.
Qed.

(** ** dynamic deflection *)

Lemma dyn_step_spec n m c d dt :
  df_rows c = n -> shaped n m (df_pool c) -> shaped n m d ->
  let '(c', out) := calc_dynamic_deflection c d dt in
  df_time c' = df_time c /\ df_rows c' = n /\ shaped n m (df_pool c') /\ shaped n m out
  /\ (forall i j, (i < n)%nat -> (j < m)%nat ->
        at2 0 out i j = (at2 0 (df_pool c) i j + at2 0 d i j) * (calc_isostasy_fraction (df_time c) dt / INR n)
        /\ at2 0 (df_pool c') i j = at2 0 (df_pool c) i j + at2 0 d i j - at2 0 out i j).
Proof.
  intros Hn Hp Hd. unfold calc_dynamic_deflection. cbn [df_time df_rows df_pool].
  set (pool := fmap2 nadd (df_pool c) d).
  assert (Hpool : shaped n m pool) by (apply shaped_fmap2; assumption).
  set (k := ndiv (calc_isostasy_fraction (df_time c) dt) (nofnat (df_rows c))).
  assert (Hout : shaped n m (fmap (fun p => nmul p k) pool)) by (apply shaped_fmap; assumption).
  split; [reflexivity|]. split; [assumption|]. split; [apply shaped_fmap2; assumption|].
  split; [assumption|]. intros i j Hi Hj.
  assert (Ep : at2 0 pool i j = at2 0 (df_pool c) i j + at2 0 d i j).
  { unfold pool. rewrite (at2_fmap2 (@nadd R _) n m _ _ 0 0) by assumption. reflexivity. }
  assert (Eo : at2 0 (fmap (fun p => nmul p k) pool) i j = at2 0 pool i j * k).
  { rewrite (at2_fmap _ n m _ 0 0) by assumption. reflexivity. }
  rewrite Eo, Ep. split.
  - unfold k. rewrite nofnat_R, Hn. reflexivity.
  - rewrite (at2_fmap2 (@nsub R _) n m _ _ 0 0) by assumption. rewrite Eo, Ep. reflexivity.
Qed.

Theorem dyn_run_conserves n m hist : forall c,
  df_rows c = n -> shaped n m (df_pool c) -> (forall d dt, In (d, dt) hist -> shaped n m d) ->
  let '(c', outs) := dyn_run c hist in
  df_time c' = df_time c /\ df_rows c' = n /\ shaped n m (df_pool c')
  /\ (forall i j, (i < n)%nat -> (j < m)%nat ->
        nsum_at i j outs + at2 0 (df_pool c') i j
        = at2 0 (df_pool c) i j + nsum_at i j (map fst hist)).
Proof.
  induction hist as [|[d dt] hist IH]; intros c Hn Hp Hs; cbn [dyn_run].
  - repeat split; auto; try apply Hp. intros. unfold nsum_at; cbn. lra.
  - assert (Hd : shaped n m d) by (apply (Hs d dt); left; reflexivity).
    pose proof (dyn_step_spec n m c d dt Hn Hp Hd) as H1.
    destruct (calc_dynamic_deflection c d dt) as [c1 out].
    destruct H1 as [T1 [R1 [P1 [O1 V1]]]].
    specialize (IH c1 R1 P1 ltac:(intros; eapply Hs; right; eassumption)).
    destruct (dyn_run c1 hist) as [c2 outs]. destruct IH as [T2 [R2 [P2 V2]]].
    split; [congruence|]. split; [assumption|]. split; [assumption|].
    intros i j Hi Hj. specialize (V1 i j Hi Hj). specialize (V2 i j Hi Hj).
    unfold nsum_at in *. cbn [map rsum fst]. lra.
Qed.

Lemma exp_unit u : u <= 0 -> 0 < exp u <= 1.
Proof.
  intros Hu. split; [apply exp_pos|].
  rewrite <- exp_0. destruct (Req_dec u 0) as [->|]; [lra|]. left; apply exp_increasing; lra.
Qed.

Lemma div_nonpos dt t : 0 < t -> 0 <= dt -> - dt / t <= 0.
Proof.
  intros Ht Hd. unfold Rdiv. rewrite Ropp_mult_distr_l_reverse.
  assert (0 <= dt * / t) by (apply Rmult_le_pos; [lra|left; apply Rinv_0_lt_compat; lra]). lra.
Qed.

Lemma fraction_bounds tau dt n : (0 < n)%nat ->
  match tau with None => True | Some t => 0 < t /\ 0 <= dt end ->
  0 <= calc_isostasy_fraction tau dt / INR n <= 1.
Proof.
  intros Hn Ht.
  assert (Hr : 0 <= calc_isostasy_fraction tau dt <= 1).
  { unfold calc_isostasy_fraction. destruct tau as [t|]; numR; transR; rewrite ?n1_R; [|lra].
    pose proof (exp_unit _ (div_nonpos dt t (proj1 Ht) (proj2 Ht))). lra. }
  assert (Hi : 1 <= INR n) by (change 1 with (INR 1); apply le_INR; lia).
  split.
  - apply Rmult_le_pos; [lra|left; apply Rinv_0_lt_compat; lra].
  - apply (Rmult_le_reg_r (INR n)); [lra|]. unfold Rdiv. rewrite Rmult_assoc, Rinv_l by lra. lra.
Qed.

Lemma isclose0_false_pos t : isclose0 t = false -> t < 0 = False -> 0 < t.
Proof.
  unfold isclose0. numR. rewrite nabs_R. intros E F. apply Rleb_false in E.
  assert (0 < Q2R (1 # 100000000)) by (unfold Q2R; simpl; lra).
  destruct (Rtotal_order t 0) as [L|[L|L]]; [rewrite F in L; contradiction| |assumption].
  subst. rewrite Rabs_R0 in E. lra.
Qed.

(* a constructed component has no isostasy time or a positive one *)
Theorem dyn_init_time it n m c : dyn_init it n m = Ok c ->
  df_rows c = n /\ df_pool c = full n m 0 /\
  match df_time c with None => True | Some t => 0 < t /\ it = Some t end.
Proof.
  unfold dyn_init. destruct it as [t|]; cbn [bind].
  - destruct (isclose0 t) eqn:E; cbn [bind].
    + intros Eq; inversion Eq; cbn. rewrite n0_R. auto.
    + unfold validate_isostasy_time. numR. rewrite n0_R.
      destruct (Rltb t 0) eqn:L; cbn [bind]; [discriminate|].
      intros Eq; inversion Eq; cbn. rewrite ?n0_R. repeat split; auto.
      apply Rltb_false in L. unfold isclose0 in E. numR. rewrite nabs_R in E. apply Rleb_false in E.
      assert (0 < Q2R (1 # 100000000)) by (unfold Q2R; simpl; lra).
      rewrite Rabs_right in E; lra.
  - intros Eq; inversion Eq; cbn. rewrite n0_R. auto.
Qed.

Theorem dyn_init_errors it n m :
  (exists e, dyn_init it n m = Err e) <-> exists t, it = Some t /\ t < - Q2R (1 # 100000000).
Proof.
  assert (Hq : 0 < Q2R (1 # 100000000)) by (unfold Q2R; simpl; lra).
  unfold dyn_init. destruct it as [t|]; cbn [bind].
  - unfold isclose0, validate_isostasy_time. numR. rewrite nabs_R, n0_R.
    destruct (Rleb (Rabs t) (Q2R (1 # 100000000))) eqn:E; cbn [bind].
    + apply Rleb_true in E. split; [intros [e Ee]; discriminate|].
      intros [t' [Et Hlt]]; inversion Et; subst. rewrite Rabs_left in E by lra. lra.
    + apply Rleb_false in E. rcase; cbn [bind].
      * split; [|eauto]. intros _. exists t. split; [reflexivity|]. rewrite Rabs_left in E by lra. lra.
      * split; [intros [e Ee]; discriminate|]. intros [t' [Et Hlt]]; inversion Et; subst. lra.
  - split; [intros [e Ee]; discriminate|intros [t [Et _]]; discriminate].
Qed.

(* relaxation without further loading *)
Definition step_factor (tau : option R) (n : nat) (dt : R) : R :=
  1 - calc_isostasy_fraction tau dt / INR n.

Theorem dyn_relax n m dts : forall c,
  df_rows c = n -> shaped n m (df_pool c) ->
  let '(c', _) := dyn_run c (unloaded n m dts) in
  forall i j, (i < n)%nat -> (j < m)%nat ->
    at2 0 (df_pool c') i j = at2 0 (df_pool c) i j * rprod (map (step_factor (df_time c) n) dts).
Proof.
  induction dts as [|dt dts IH]; intros c Hn Hp; cbn [unloaded dyn_run].
  - intros; cbn; lra.
  - pose proof (dyn_step_spec n m c (full n m 0) dt Hn Hp (shaped_full n m 0)) as H1.
    destruct (calc_dynamic_deflection c (full n m 0) dt) as [c1 out].
    destruct H1 as [T1 [R1 [P1 [_ V1]]]]. specialize (IH c1 R1 P1).
    destruct (dyn_run c1 (unloaded n m dts)) as [c2 outs].
    intros i j Hi Hj. destruct (V1 i j Hi Hj) as [Va Vb]. rewrite (IH i j Hi Hj), Vb, Va, T1.
    rewrite at2_full by assumption. cbn [map rprod]. unfold step_factor at 2. lra.
Qed.

Lemma rprod_exp tau dts : 0 < tau ->
  rprod (map (step_factor (Some tau) 1) dts) = exp (- rsum dts / tau).
Proof.
  intros Ht. induction dts as [|dt dts IH]; cbn [map rprod rsum].
  - replace (- 0 / tau) with 0 by (field; lra). rewrite exp_0. reflexivity.
  - rewrite IH. unfold step_factor, calc_isostasy_fraction. numR. transR. rewrite n1_R. simpl INR.
    replace (1 - (1 - exp (- dt / tau)) / 1) with (exp (- dt / tau)) by field.
    rewrite <- exp_plus. f_equal. field. lra.
Qed.

Theorem dyn_relax_one_row m dts tau pool :
  0 < tau -> shaped 1 m pool ->
  let '(c', _) := dyn_run (mkDyn (Some tau) 1 pool) (unloaded 1 m dts) in
  forall j, (j < m)%nat ->
    at2 0 (df_pool c') 0 j = at2 0 pool 0 j * exp (- rsum dts / tau).
Proof.
  intros Ht Hp. pose proof (dyn_relax 1 m dts (mkDyn (Some tau) 1 pool) eq_refl Hp) as H.
  destruct (dyn_run _ _) as [c' outs]. intros j Hj. rewrite (H 0%nat j) by lia.
  cbn [df_time df_pool]. rewrite rprod_exp by assumption. reflexivity.
Qed.

Theorem dyn_instant_one_row m d dt pool :
  shaped 1 m pool -> shaped 1 m d ->
  let '(c', out) := calc_dynamic_deflection (mkDyn None 1 pool) d dt in
  forall j, (j < m)%nat ->
    at2 0 out 0 j = at2 0 pool 0 j + at2 0 d 0 j /\ at2 0 (df_pool c') 0 j = 0.
Proof.
  intros Hp Hd. pose proof (dyn_step_spec 1 m (mkDyn None 1 pool) d dt eq_refl Hp Hd) as H.
  destruct (calc_dynamic_deflection _ _ _) as [c' out]. destruct H as [_ [_ [_ [_ V]]]].
  intros j Hj. destruct (V 0%nat j ltac:(lia) Hj) as [Va Vb]. cbn [df_pool df_time] in *.
  unfold calc_isostasy_fraction in Va. rewrite n1_R in Va. simpl INR in Va.
  assert (E : at2 0 out 0 j = at2 0 pool 0 j + at2 0 d 0 j) by (rewrite Va; field).
  split; [exact E|rewrite Vb, E; lra].
Qed.

(* from construction, through any history *)
Lemma dyn_init_state T n m c : dyn_init (A:=R) T n m = Ok c ->
  df_rows c = n /\ shaped n m (df_pool c) /\ (forall i j, (i < n)%nat -> (j < m)%nat -> at2 0 (df_pool c) i j = 0)
  /\ df_time c = match T with Some t => if isclose0 t then None else Some t | None => None end.
Proof.
  intros E. unfold dyn_init in E.
  assert (X : c = mkDyn match T with Some t => if isclose0 t then None else Some t | None => None end n (full n m n0)).
  { destruct T as [t|]; [|cbn [bind] in E; congruence]. destruct (isclose0 t); [cbn [bind] in E; congruence|].
    unfold validate_isostasy_time in E. destruct (t <? n0)%num; cbn [bind] in E; [discriminate|congruence]. }
  subst c. cbn [df_rows df_pool df_time].
  split; [reflexivity|]. split; [apply shaped_full|]. split; [|reflexivity].
  intros i j Hi Hj. rewrite at2_full by assumption. apply n0_R.
Qed.
Lemma isclose0_R (t : R) : isclose0 t = true <-> Rabs t <= Q2R (1 # 100000000).
Proof.
  unfold isclose0. numR. rewrite nabs_R. apply Rleb_true.
Qed.

Theorem dyn_instant_history m T hist c d dt :
  (T = None \/ exists t, T = Some t /\ Rabs t <= Q2R (1 # 100000000)) -> dyn_init T 1 m = Ok c ->
  (forall d dt, In (d, dt) hist -> shaped 1 m d) -> shaped 1 m d ->
  let '(c1, _) := dyn_run c hist in
  let '(c2, out) := calc_dynamic_deflection c1 d dt in
  forall j, (j < m)%nat -> at2 0 out 0 j = at2 0 d 0 j /\ at2 0 (df_pool c2) 0 j = 0.
Proof.
  intros HT Hi. destruct (dyn_init_state _ _ _ _ Hi) as [H1 [H2 [H3 H4]]].
  assert (H5 : df_time c = None).
  { rewrite H4. destruct HT as [->|[t [-> Ht]]]; [reflexivity|]. apply isclose0_R in Ht. rewrite Ht. reflexivity. }
  clear HT Hi H4. assert (H6 : forall j, (j < m)%nat -> at2 0 (df_pool c) 0 j = 0) by (intros; apply H3; lia). clear H3.
  revert c H1 H2 H5 H6. induction hist as [|[d0 dt0] hist IH]; intros c H1 H2 H5 H6 Hs Hd; cbn [dyn_run].
  - pose proof (dyn_instant_one_row m d dt (df_pool c) H2 Hd) as X. destruct c as [T' n' pool]. cbn [df_rows df_time df_pool] in *. subst n' T'.
    destruct (calc_dynamic_deflection _ _ _) as [c2 out]. intros j Hj. destruct (X j Hj) as [X1 X2].
    split; [rewrite X1, H6 by exact Hj; lra|exact X2].
  - pose proof (dyn_instant_one_row m d0 dt0 (df_pool c) H2 (Hs _ _ (or_introl eq_refl))) as X.
    pose proof (dyn_step_spec 1 m c d0 dt0 H1 H2 (Hs _ _ (or_introl eq_refl))) as Y.
    destruct c as [T' n' pool]. cbn [df_rows df_time df_pool] in *. subst n' T'.
    destruct (calc_dynamic_deflection _ _ _) as [c1 out1]. destruct Y as [Y1 [Y2 [Y3 [Y4 _]]]].
    specialize (IH c1). destruct (dyn_run c1 hist) as [c2 outs].
    apply IH; [congruence|assumption|congruence| |intros d1 dt1 X1; apply (Hs d1 dt1); right; exact X1|exact Hd].
    intros j Hj. apply X. exact Hj.
Qed.

Theorem dyn_relax_history m t hist dts c :
  Q2R (1 # 100000000) < t -> dyn_init (Some t) 1 m = Ok c -> (forall d dt, In (d, dt) hist -> shaped 1 m d) ->
  let '(c1, _) := dyn_run c hist in
  let '(c2, _) := dyn_run c1 (unloaded 1 m dts) in
  forall j, (j < m)%nat -> at2 0 (df_pool c2) 0 j = at2 0 (df_pool c1) 0 j * exp (- rsum dts / t).
Proof.
  intros Ht Hi Hs. destruct (dyn_init_state _ _ _ _ Hi) as [H1 [H2 [_ H4]]].
  assert (0 < Q2R (1 # 100000000)) by (unfold Q2R; simpl; lra).
  replace (isclose0 t) with false in H4.
  2:{ symmetry. destruct (isclose0 t) eqn:E; [|reflexivity]. apply isclose0_R in E. rewrite Rabs_right in E by lra. lra. }
  pose proof (dyn_run_conserves 1 m hist c H1 H2 Hs) as X. destruct (dyn_run c hist) as [c1 outs].
  destruct X as [X1 [X2 [X3 _]]].
  pose proof (dyn_relax_one_row m dts t (df_pool c1)) as Y. destruct c1 as [T' n' pool]. cbn [df_time df_rows df_pool] in *.
  replace T' with (Some t) by congruence. replace n' with 1%nat by congruence.
  destruct (dyn_run _ (unloaded 1 m dts)) as [c2 outs2]. apply Y; [lra|assumption].
Qed.

(* any number of rows: slower than the e-folding time says *)
Lemma step_factor_ge tau n dt : (0 < n)%nat -> 0 < tau -> 0 <= dt ->
  exp (- dt / tau) <= step_factor (Some tau) n dt <= 1.
Proof.
  intros Hn Ht Hd. unfold step_factor, calc_isostasy_fraction. numR. transR. rewrite n1_R.
  pose proof (exp_unit _ (div_nonpos dt tau Ht Hd)) as He. set (e := exp (- dt / tau)) in *.
  assert (Hi : 1 <= INR n) by (change 1 with (INR 1); apply le_INR; lia).
  assert (H0 : 0 <= (1 - e) / INR n)
    by (apply Rmult_le_pos; [lra|left; apply Rinv_0_lt_compat; lra]).
  assert (H1 : (1 - e) / INR n <= 1 - e).
  { apply (Rmult_le_reg_r (INR n)); [lra|]. unfold Rdiv. rewrite Rmult_assoc, Rinv_l by lra.
    rewrite Rmult_1_r. rewrite <- (Rmult_1_r (1 - e)) at 1. apply Rmult_le_compat_l; lra. }
  lra.
Qed.

Lemma rprod_ge tau n dts : (0 < n)%nat -> 0 < tau -> (forall dt, In dt dts -> 0 <= dt) ->
  exp (- rsum dts / tau) <= rprod (map (step_factor (Some tau) n) dts) <= 1.
Proof.
  intros Hn Ht. induction dts as [|dt dts IH]; intros Hd; cbn [map rprod rsum].
  - replace (- 0 / tau) with 0 by (field; lra). rewrite exp_0. lra.
  - specialize (IH ltac:(intros; apply Hd; right; assumption)).
    pose proof (step_factor_ge tau n dt Hn Ht (Hd dt (or_introl eq_refl))) as Hs.
    pose proof (exp_pos (- dt / tau)). pose proof (exp_pos (- rsum dts / tau)).
    replace (- (dt + rsum dts) / tau) with (- dt / tau + - rsum dts / tau) by (field; lra).
    rewrite exp_plus. split.
    + apply Rmult_le_compat; lra.
    + replace 1 with (1 * 1) by lra. apply Rmult_le_compat; lra.
Qed.

(** ** densities *)

Definition densities_agree (d : densities R) : Prop :=
  0 < water_density d /\ 0 < sand_density d /\ 0 < mud_density d
  /\ sand_bulk d = 6 / 10 * sand_density d + 4 / 10 * water_density d
  /\ mud_bulk d = 35 / 100 * mud_density d + 65 / 100 * water_density d.

Lemma lit25 : Q2R (2 # 5) = 4 / 10. Proof. unfold Q2R; simpl; lra. Qed.
Lemma lit1320 : Q2R (13 # 20) = 65 / 100. Proof. unfold Q2R; simpl; lra. Qed.

Ltac dens := unfold SAND_POROSITY, MUD_POROSITY, calc_bulk_density in *; numR;
  rewrite ?lit25, ?lit1320 in *.

Lemma validate_density_spec (v : R) :
  (0 < v /\ validate_density v = Ok v) \/ (v <= 0 /\ validate_density v = Err ValueError).
Proof. unfold validate_density. numR. rewrite n0_R. rcase; [right|left]; split; auto; lra. Qed.

Lemma densities_init_agree s m w d : densities_init s m w = Ok d ->
  densities_agree d /\ water_density d = w /\ sand_density d = s /\ mud_density d = m.
Proof.
  unfold densities_init.
  destruct (validate_density_spec w) as [[Hw ->]|[Hw ->]]; cbn [bind]; [|discriminate].
  destruct (validate_density_spec s) as [[Hs ->]|[Hs ->]]; cbn [bind]; [|discriminate].
  destruct (validate_density_spec m) as [[Hm ->]|[Hm ->]]; cbn [bind]; [|discriminate].
  intros E; inversion E; subst. unfold densities_agree; cbn. dens. repeat split; auto; lra.
Qed.

Theorem densities_init_ok s m w :
  (exists d, densities_init s m w = Ok d) <-> 0 < s /\ 0 < m /\ 0 < w.
Proof.
  unfold densities_init.
  destruct (validate_density_spec w) as [[Hw ->]|[Hw ->]]; cbn [bind];
  [|split; [intros [d E]; discriminate|lra]].
  destruct (validate_density_spec s) as [[Hs ->]|[Hs ->]]; cbn [bind];
  [|split; [intros [d E]; discriminate|lra]].
  destruct (validate_density_spec m) as [[Hm ->]|[Hm ->]]; cbn [bind];
  [|split; [intros [d E]; discriminate|lra]].
  split; [tauto|eauto].
Qed.

Lemma density_exec_agree op d : densities_agree d ->
  densities_agree (density_exec op d)
  /\ (water_density (density_exec op d), sand_density (density_exec op d), mud_density (density_exec op d))
     = density_spec op (water_density d) (sand_density d) (mud_density d).
Proof.
  intros [Hw [Hs [Hm [Es Em]]]]. unfold density_exec, density_spec.
  destruct op as [v|v|v]; [unfold set_sand_density|unfold set_mud_density|unfold set_water_density];
  (destruct (validate_density_spec v) as [[Hv ->]|[Hv ->]]; cbn [bind];
   destruct (Rlt_dec 0 v); try lra; split; try reflexivity;
   unfold densities_agree; cbn; dens; repeat split; auto; lra).
Qed.

(* a rejected assignment changes nothing, and is rejected exactly for
   non-positive values *)
Lemma density_exec_rejected op d v :
  (op = SetSand v \/ op = SetMud v \/ op = SetWater v) -> v <= 0 -> density_exec op d = d.
Proof.
  intros Hop Hv. unfold density_exec.
  destruct Hop as [->|[->| ->]]; [unfold set_sand_density|unfold set_mud_density|unfold set_water_density];
  destruct (validate_density_spec v) as [[Hv' ->]|[Hv' ->]]; cbn [bind]; try lra; reflexivity.
Qed.

Theorem density_run_agree ops : forall d, densities_agree d ->
  densities_agree (density_run ops d)
  /\ (water_density (density_run ops d), sand_density (density_run ops d), mud_density (density_run ops d))
     = density_trace ops (water_density d) (sand_density d) (mud_density d).
Proof.
  induction ops as [|op ops IH]; intros d Hd; cbn; [auto|].
  destruct (density_exec_agree op d Hd) as [H1 H2].
  destruct (IH _ H1) as [H3 H4]. split; [exact H3|].
  unfold density_run in H4. rewrite H4. rewrite <- H2. reflexivity.
Qed.

(** ** stepping SedimentFlexure *)

Record flex_ok (n m : nat) (c : sed_flexure R) (g : grid R) : Prop := {
  fo_rows : df_rows (sf_dyn c) = n;
  fo_grows : g_rows g = n;
  fo_gcols : g_cols g = m;
  fo_pool : shaped n m (df_pool (sf_dyn c));
  fo_last : shaped n m (sf_last_load c);
  fo_fields : forall name, In name [LITHO; TOTAL_LOAD; PRESSURE; BEDROCK_INC] ->
                exists f, node g name = Some f /\ shaped (n + 2) m f
}.

Lemma sed_flexure_step_spec n m flexure gravity dt c g tl pr bi :
  flex_ok n m c g ->
  (forall p, shaped n m p -> shaped n m (flexure p)) ->
  node g TOTAL_LOAD = Some tl -> node g PRESSURE = Some pr -> node g BEDROCK_INC = Some bi ->
  let P := fmap (fun l => nmul (nmul l gravity) (g_dx g)) (fmap2 nsub (inner tl) (sf_last_load c)) in
  let D := calc_dynamic_deflection (sf_dyn c) (flexure P) dt in
  exists c' g', sed_flexure_step flexure gravity dt c g = Ok (c', g')
    /\ sf_last_load c' = inner tl /\ sf_dyn c' = fst D
    /\ node g' PRESSURE = Some (set_inner pr P)
    /\ node g' BEDROCK_INC = Some (set_inner bi (fmap2 nsub (inner bi) (snd D)))
    /\ (forall name, ~ In name [LITHO; PRESSURE; BEDROCK_INC] -> node g' name = node g name)
    /\ at_grid g' = at_grid g /\ at_row g' = at_row g /\ layers g' = layers g /\ g_dx g' = g_dx g
    /\ flex_ok n m c' g'.
Proof.
  intros Hok Hflex Htl Hpr Hbi P D.
  destruct (fo_fields _ _ _ _ Hok LITHO) as [li [Hli Sli]]; [cbn; tauto|].
  assert (Stl : shaped (n + 2) m tl).
  { destruct (fo_fields _ _ _ _ Hok TOTAL_LOAD) as [f [E S]]; [cbn; tauto|]. congruence. }
  assert (Spr : shaped (n + 2) m pr).
  { destruct (fo_fields _ _ _ _ Hok PRESSURE) as [f [E S]]; [cbn; tauto|]. congruence. }
  assert (Sbi : shaped (n + 2) m bi).
  { destruct (fo_fields _ _ _ _ Hok BEDROCK_INC) as [f [E S]]; [cbn; tauto|]. congruence. }
  assert (SP : shaped n m P).
  { apply shaped_fmap, shaped_fmap2; [apply shaped_inner; assumption|apply (fo_last _ _ _ _ Hok)]. }
  assert (SL0 : shaped n m (fmap (fun _ : R => (n0 : R)) (inner li))).
  { apply shaped_fmap, shaped_inner; assumption. }
  assert (SFP : shaped n m (flexure P)) by (apply Hflex; assumption).
  unfold sed_flexure_step.
  rewrite (get_profile_ok g LITHO li Hli). cbn [bind].
  rewrite (set_profile_ok g LITHO li _ Hli). cbn [bind].
  set (g1 := put_node g LITHO _).
  assert (E1t : node g1 TOTAL_LOAD = Some tl) by (unfold g1; node_simp; assumption).
  rewrite (get_profile_ok g1 TOTAL_LOAD tl E1t). cbn [bind].
  assert (E1p : node g1 PRESSURE = Some pr) by (unfold g1; node_simp; assumption).
  rewrite (set_profile_ok g1 PRESSURE pr _ E1p). cbn [bind].
  change (g_dx g1) with (g_dx g). fold P.
  set (g2 := put_node g1 PRESSURE _).
  assert (E2p : node g2 PRESSURE = Some (set_inner pr P)) by (unfold g2; node_simp; reflexivity).
  rewrite (get_profile_ok g2 PRESSURE _ E2p). cbn [bind].
  rewrite inner_set_inner by (rewrite ?(shaped_len _ _ _ Spr), ?(shaped_len _ _ _ SP); lia).
  assert (E2l : exists l2, node g2 LITHO = Some l2 /\ shaped (n + 2) m l2).
  { eexists. split; [unfold g2, g1; node_simp; reflexivity|]. apply shaped_set_inner; assumption. }
  destruct E2l as [l2 [E2l S2l]].
  rewrite (set_profile_ok g2 LITHO l2 _ E2l). cbn [bind].
  set (g3 := put_node g2 LITHO _).
  assert (E3l : node g3 LITHO = Some (set_inner l2 (flexure P))) by (unfold g3; node_simp; reflexivity).
  rewrite (get_profile_ok g3 LITHO _ E3l). cbn [bind].
  rewrite inner_set_inner by (rewrite ?(shaped_len _ _ _ S2l), ?(shaped_len _ _ _ SFP); lia).
  fold D. pose proof (dyn_step_spec n m (sf_dyn c) (flexure P) dt (fo_rows _ _ _ _ Hok) (fo_pool _ _ _ _ Hok) SFP) as HD.
  fold D in HD. destruct D as [dyn defl] eqn:ED. destruct HD as [HDt [HDr [HDp [HDo _]]]].
  assert (E3b : node g3 BEDROCK_INC = Some bi) by (unfold g3, g2, g1; node_simp; assumption).
  rewrite (get_profile_ok g3 BEDROCK_INC bi E3b). cbn [bind].
  rewrite (set_profile_ok g3 BEDROCK_INC bi _ E3b). cbn [bind].
  set (g4 := put_node g3 BEDROCK_INC _).
  eexists. exists g4. split; [reflexivity|]. cbn [sf_last_load sf_dyn fst snd].
  assert (Sb4 : shaped (n + 2) m (set_inner bi (fmap2 nsub (inner bi) defl))).
  { apply shaped_set_inner; [assumption|]. apply shaped_fmap2; [apply shaped_inner; assumption|assumption]. }
  assert (N4p : node g4 PRESSURE = Some (set_inner pr P)) by (unfold g4, g3; node_simp; exact E2p).
  assert (N4b : node g4 BEDROCK_INC = Some (set_inner bi (fmap2 nsub (inner bi) defl)))
    by (unfold g4; node_simp; reflexivity).
  assert (N4o : forall name, ~ In name [LITHO; PRESSURE; BEDROCK_INC] -> node g4 name = node g name).
  { intros name Hn. unfold g4, g3, g2, g1. rewrite !node_put_node.
    cbn [In] in Hn.
    destruct (String.eqb_spec name BEDROCK_INC); [subst; tauto|].
    destruct (String.eqb_spec name LITHO); [subst; tauto|].
    destruct (String.eqb_spec name PRESSURE); [subst; tauto|]. reflexivity. }
  repeat (split; [first [reflexivity|assumption]|]).
  constructor; cbn [sf_dyn sf_last_load]; auto.
  - exact (fo_grows _ _ _ _ Hok).
  - exact (fo_gcols _ _ _ _ Hok).
  - apply shaped_inner; assumption.
  - intros name [<-|[<-|[<-|[<-|[]]]]].
    + exists (set_inner l2 (flexure P)). split; [unfold g4; node_simp; exact E3l|].
      apply shaped_set_inner; assumption.
    + exists tl. split; [|assumption]. unfold g4, g3, g2. node_simp. exact E1t.
    + exists (set_inner pr P). split; [assumption|]. apply shaped_set_inner; assumption.
    + eexists. split; [exact N4b|assumption].
Qed.

Lemma flex_ok_put_load n m c g load : flex_ok n m c g -> shaped (n + 2) m load ->
  flex_ok n m c (put_node g TOTAL_LOAD load).
Proof.
  intros [H1 H2 H3 H4 H5 H6] Hs. constructor; auto.
  intros name Hin. destruct (H6 name Hin) as [f [E S]].
  rewrite node_put_node. destruct (String.eqb_spec name TOTAL_LOAD); eauto.
Qed.

Theorem sed_flexure_run_spec n m flexure gravity hist : forall c g,
  flex_ok n m c g ->
  (forall p, shaped n m p -> shaped n m (flexure p)) ->
  (forall load dt, In (load, dt) hist -> shaped (n + 2) m load) ->
  exists c' g' ps, sed_flexure_run flexure gravity hist c g = Ok (c', g', ps)
    /\ length ps = length hist /\ flex_ok n m c' g'
    /\ (forall i j, (i < n)%nat -> (j < m)%nat ->
          nsum_at (S i) j ps
          = (at2 0 (sf_last_load c') i j - at2 0 (sf_last_load c) i j) * gravity * g_dx g
          /\ at2 0 (sf_last_load c') i j = match rev hist with
                                      | [] => at2 0 (sf_last_load c) i j
                                      | (load, _) :: _ => at2 0 load (S i) j
                                      end)
    /\ (forall bi bi', node g BEDROCK_INC = Some bi -> node g' BEDROCK_INC = Some bi' ->
          forall j, (j < m)%nat -> at2 0 bi' 0 j = at2 0 bi 0 j /\ at2 0 bi' (n + 1) j = at2 0 bi (n + 1) j
            /\ (forall i, (i < n)%nat ->
                  at2 0 bi (S i) j - at2 0 bi' (S i) j + at2 0 (df_pool (sf_dyn c')) i j
                  = at2 0 (df_pool (sf_dyn c)) i j + nsum_at i j (map (fun p => flexure (inner p)) ps)))
    /\ (forall name, ~ In name [LITHO; PRESSURE; BEDROCK_INC; TOTAL_LOAD] -> node g' name = node g name)
    /\ at_grid g' = at_grid g /\ at_row g' = at_row g /\ layers g' = layers g.
Proof.
  induction hist as [|[load dt] hist IH]; intros c g Hok Hflex Hh; cbn [sed_flexure_run].
  - exists c, g, []. split; [reflexivity|]. split; [reflexivity|]. split; [assumption|].
    split; [|split; [|split; [|split; [|split]]]]; auto.
    + intros. split; [unfold nsum_at; cbn; lra|reflexivity].
    + intros b b' Hb Hb'. rewrite Hb in Hb'. inversion Hb'. repeat split; auto.
      intros. unfold nsum_at; cbn. lra.
  - assert (Sl : shaped (n + 2) m load) by (apply (Hh load dt); left; reflexivity).
    pose proof (flex_ok_put_load n m c g load Hok Sl) as Hok1.
    set (g0 := put_node g TOTAL_LOAD load) in *.
    destruct (fo_fields _ _ _ _ Hok1 PRESSURE) as [pr [Epr Spr]]; [cbn; tauto|].
    destruct (fo_fields _ _ _ _ Hok1 BEDROCK_INC) as [bi [Ebi Sbi]]; [cbn; tauto|].
    assert (Etl : node g0 TOTAL_LOAD = Some load) by (unfold g0; node_simp; reflexivity).
    destruct (sed_flexure_step_spec n m flexure gravity dt c g0 load pr bi Hok1 Hflex Etl Epr Ebi)
      as [c1 [g1 [E1 [L1 [D1 [P1 [B1 [O1 [G1 [R1 [Y1 [X1 Hok2]]]]]]]]]]]].
    rewrite E1. cbn [bind fst snd]. unfold node_r at 1. rewrite P1. cbn [bind].
    destruct (IH c1 g1 Hok2 Hflex ltac:(intros; eapply Hh; right; eassumption))
      as [c' [g' [ps [E [Lp [Hok' [V [Bd [Oth [Ga [Ra La]]]]]]]]]]].
    rewrite E. cbn [bind]. eexists c', g', _. split; [reflexivity|].
    split; [cbn; lia|]. split; [assumption|]. split; [|split; [|split]].
    + intros i j Hi Hj. destruct (V i j Hi Hj) as [Va Vb].
      pose proof (fo_last _ _ _ _ Hok) as Sla.
      assert (SP : shaped n m (fmap2 nsub (inner load) (sf_last_load c))).
      { apply shaped_fmap2; [apply shaped_inner|]; assumption. }
      assert (El : at2 0 (sf_last_load c1) i j = at2 0 load (S i) j).
      { rewrite L1. apply (at2_inner n m); assumption. }
      split.
      * unfold nsum_at in *. cbn [map rsum]. rewrite Va, El, X1.
        rewrite (at2_set_inner n m) by (try assumption; try (apply shaped_fmap; assumption); lia).
        destruct (Nat.leb_spec 1 (S i)), (Nat.leb_spec (S i) n); try lia. cbn [andb].
        replace (S i - 1)%nat with i by lia.
        rewrite (at2_fmap _ n m _ 0 0) by assumption.
        rewrite (at2_fmap2 (@nsub R _) n m _ _ 0 0) by (try assumption; apply shaped_inner; assumption).
        numR. rewrite (at2_inner n m) by assumption. change (g_dx g0) with (g_dx g). lra.
      * rewrite Vb. cbn [rev]. destruct (rev hist) as [|[ld dd] rest]; cbn [app]; [exact El|reflexivity].
    + intros b b' Hb Hb' j Hj.
      assert (b = bi).
      { unfold g0 in Ebi. rewrite node_put_node in Ebi. change (String.eqb BEDROCK_INC TOTAL_LOAD) with false in Ebi.
        cbv iota in Ebi. congruence. }
      subst b. destruct (Bd _ b' B1 Hb' j Hj) as [U1 [U2 U3]]. rewrite U1, U2.
      set (P := fmap (fun l => nmul (nmul l gravity) (g_dx g0)) (fmap2 nsub (inner load) (sf_last_load c))) in *.
      assert (SP : shaped n m P).
      { apply shaped_fmap, shaped_fmap2; [apply shaped_inner; assumption|apply (fo_last _ _ _ _ Hok)]. }
      pose proof (dyn_step_spec n m (sf_dyn c) (flexure P) dt (fo_rows _ _ _ _ Hok) (fo_pool _ _ _ _ Hok) (Hflex _ SP)) as HD.
      destruct (calc_dynamic_deflection (sf_dyn c) (flexure P) dt) as [dd oo].
      destruct HD as [_ [_ [_ [So HV]]]]. cbn [fst snd] in *.
      assert (Sd : shaped n m (fmap2 nsub (inner bi) oo))
        by (apply shaped_fmap2; [apply shaped_inner|]; assumption).
      rewrite !(at2_set_inner n m) by (assumption || lia).
      destruct (Nat.leb_spec (n + 1) n); [lia|]. rewrite Bool.andb_false_r.
      split; [reflexivity|]. split; [reflexivity|].
      intros i Hi. specialize (U3 i Hi). rewrite D1 in U3.
      rewrite (at2_set_inner n m) in U3 by (assumption || lia).
      destruct (Nat.leb_spec 1 (S i)), (Nat.leb_spec (S i) n); try lia. cbn [andb] in U3.
      replace (S i - 1)%nat with i in U3 by lia.
      rewrite (at2_fmap2 (@nsub R _) n m _ _ 0 0) in U3 by (assumption || (apply shaped_inner; assumption)).
      rewrite (at2_inner n m) in U3 by assumption. numR.
      destruct (HV i j Hi Hj) as [_ HVb]. rewrite HVb in U3.
      unfold nsum_at in *. cbn [map rsum].
      rewrite inner_set_inner by (rewrite ?(shaped_len _ _ _ Spr), ?(shaped_len _ _ _ SP); lia). lra.
    + intros name Hn. cbn [In] in Hn. rewrite Oth by (cbn [In]; tauto). rewrite O1 by (cbn [In]; tauto).
      unfold g0. rewrite node_put_node. destruct (String.eqb_spec name TOTAL_LOAD); [subst; tauto|reflexivity].
    + change (at_grid g0) with (at_grid g) in G1; change (at_row g0) with (at_row g) in R1; change (layers g0) with (layers g) in Y1; repeat split; congruence.
Qed.

Theorem sed_flexure_init_ok it (g : grid R) c g' :
  (forall f name, node g name = Some f -> shaped (g_rows g + 2) (g_cols g) f) ->
  sed_flexure_init it g = Ok (c, g') ->
  flex_ok (g_rows g) (g_cols g) c g' /\ g_dx g' = g_dx g
  /\ (exists tl, node g' TOTAL_LOAD = Some tl /\ sf_last_load c = inner tl
       /\ match node g TOTAL_LOAD with
          | Some f => tl = f | None => tl = full (g_rows g + 2) (g_cols g) 0 end)
  /\ (forall name f, node g name = Some f -> node g' name = Some f)
  /\ at_grid g' = at_grid g /\ at_row g' = at_row g /\ layers g' = layers g.
Proof.
  intros Hsh Hi.
  assert (He : forall (g : grid R) nm,
    (forall f name, node g name = Some f -> shaped (g_rows g + 2) (g_cols g) f) ->
    (forall f name, node (ensure_node g nm) name = Some f -> shaped (g_rows g + 2) (g_cols g) f)
    /\ (forall name f, node g name = Some f -> node (ensure_node g nm) name = Some f)
    /\ (exists f, node (ensure_node g nm) nm = Some f)
    /\ (node g nm = None -> node (ensure_node g nm) nm = Some (full (g_rows g + 2) (g_cols g) 0))
    /\ g_rows (ensure_node g nm) = g_rows g /\ g_cols (ensure_node g nm) = g_cols g
    /\ g_dx (ensure_node g nm) = g_dx g /\ at_grid (ensure_node g nm) = at_grid g
    /\ at_row (ensure_node g nm) = at_row g /\ layers (ensure_node g nm) = layers g).
  { clear. intros g nm Hs. unfold ensure_node, has_node, din.
    change (dget String.eqb (at_node g) nm) with (node g nm).
    destruct (node g nm) as [f0|] eqn:E.
    - repeat split; eauto. + apply (Hs _ _ H). + intros r Hr. apply (Hs _ _ H); assumption. + discriminate.
    - assert (X : forall name f, node (put_node g nm (full (g_rows g + 2) (g_cols g) n0)) name = Some f ->
          (name = nm /\ f = full (g_rows g + 2) (g_cols g) 0) \/ node g name = Some f).
      { intros name f. rewrite node_put_node. destruct (String.eqb_spec name nm); [|auto].
        intros Eq; inversion Eq. left. rewrite n0_R. auto. }
      split; [|split; [|split; [|split]]].
      + intros f name Hf. destruct (X _ _ Hf) as [[-> ->]|Hf']; [apply shaped_full|eapply Hs; eauto].
      + intros name f Hf. rewrite node_put_node. destruct (String.eqb_spec name nm); [congruence|assumption].
      + eexists. rewrite node_put_node, String.eqb_refl. reflexivity.
      + intros _. rewrite node_put_node, String.eqb_refl, n0_R. reflexivity.
      + repeat split. }
  unfold sed_flexure_init in Hi.
  destruct (He g TOTAL_LOAD Hsh) as [S1 [K1 [[f1 F1] [Z1 [R1 [C1 [D1 [G1 [W1 L1]]]]]]]]].
  set (g1 := ensure_node g TOTAL_LOAD) in *. rewrite R1, C1 in *.
  destruct (dyn_init it (g_rows g) (g_cols g)) as [dyn|e] eqn:Ed; [|discriminate]. cbn [bind] in Hi.
  rewrite <- R1, <- C1 in S1.
  destruct (He g1 PRESSURE S1) as [S2 [K2 [[f2 F2] [_ [R2 [C2 [D2 [G2 [W2 L2]]]]]]]]].
  set (g2 := ensure_node g1 PRESSURE) in *. rewrite <- R2, <- C2 in S2.
  destruct (He g2 LITHO S2) as [S3 [K3 [[f3 F3] [_ [R3 [C3 [D3 [G3 [W3 L3]]]]]]]]].
  set (g3 := ensure_node g2 LITHO) in *. rewrite <- R3, <- C3 in S3.
  destruct (He g3 BEDROCK_INC S3) as [S4 [K4 [[f4 F4] [_ [R4 [C4 [D4 [G4 [W4 L4]]]]]]]]].
  set (g4 := ensure_node g3 BEDROCK_INC) in *.
  assert (Ftl : node g4 TOTAL_LOAD = Some f1) by auto.
  rewrite (get_profile_ok g4 TOTAL_LOAD f1 Ftl) in Hi. cbn [bind] in Hi. inversion Hi; subst c g'. clear Hi.
  rewrite R3, R2, R1, C3, C2, C1 in S4. rewrite R3, R2, R1 in R4. rewrite C3, C2, C1 in C4.
  apply dyn_init_time in Ed. destruct Ed as [Er [Ep _]].
  split; [|split; [|split; [|split; [|split; [|split]]]]]; try congruence; auto 6.
  - constructor; cbn [sf_dyn sf_last_load]; auto.
    + rewrite Ep. apply shaped_full.
    + apply shaped_inner. eauto.
    + intros name [<-|[<-|[<-|[<-|[]]]]]; eauto 8.
  - exists f1. repeat split; auto. destruct (node g TOTAL_LOAD) eqn:E; [|specialize (Z1 eq_refl) || specialize (Z1 E); rewrite R1, C1 in *; congruence].
    apply K1 in E. congruence.
Qed.

(** ** water *)

Theorem water_loading_spec (z : list R) rho i : (i < length z)%nat -> 0 <= rho ->
  let l := nth i (calc_water_loading z rho) 0 in
  0 <= l /\ (0 <= nth i z 0 -> l = 0) /\ (nth i z 0 <= 0 -> l = rho * - nth i z 0).
Proof.
  intros Hi Hr l. unfold l, calc_water_loading. rewrite nth_map' with (da := 0) by assumption.
  numR. rewrite nmax_R, n0_R. unfold Rmax. destruct (Rle_dec (- nth i z 0) 0).
  - repeat split; intros; try (rewrite Rmult_0_r; lra).
    replace (nth i z 0) with 0 by lra. lra.
  - repeat split; intros; try lra. apply Rmult_le_pos; lra.
Qed.

Theorem half_plane_spec (x : list R) alpha gamma load :
  0 < alpha -> 0 < gamma -> (0 < length x)%nat -> sorted x ->
  let w := calc_half_plane_deflection x alpha gamma load in
  length w = length x
  /\ nth (length x - 1) w 0 = load / (2 * gamma)
  /\ (forall i, (i < length x)%nat -> Rabs (nth i w 0) <= Rabs load / (2 * gamma))
  /\ (forall i, (i < length x)%nat ->
        let r := (nth (length x - 1) x 0 - nth i x 0) / alpha in
        nth i w 0 = load / (2 * gamma) * exp (- r) * cos r).
Proof.
  intros Ha Hg Hl Hx w.
  assert (Hw : forall i, (i < length x)%nat ->
        nth i w 0 = load / (2 * gamma) * exp (- ((nth (length x - 1) x 0 - nth i x 0) / alpha))
                    * cos ((nth (length x - 1) x 0 - nth i x 0) / alpha)).
  { intros i Hi. unfold w, calc_half_plane_deflection. rewrite nth_map' with (da := 0) by assumption.
    unfold lastn. numR. transR. rewrite !n0_R.
    replace (Q2R 2) with 2 by (unfold Q2R; simpl; lra). reflexivity. }
  split; [unfold w, calc_half_plane_deflection; apply map_length|].
  split; [|split; [|exact Hw]].
  - rewrite Hw by lia. replace ((nth (length x - 1) x 0 - nth (length x - 1) x 0) / alpha) with 0 by (field; lra).
    rewrite Ropp_0, exp_0, cos_0. lra.
  - intros i Hi. rewrite Hw by assumption.
    set (r := (nth (length x - 1) x 0 - nth i x 0) / alpha).
    assert (Hr : 0 <= r).
    { unfold r. apply Rmult_le_pos; [|left; apply Rinv_0_lt_compat; assumption].
      pose proof (Hx i (length x - 1)%nat ltac:(lia)). lra. }
    rewrite !Rabs_mult. rewrite (Rabs_right (exp (- r))) by (left; apply exp_pos).
    assert (He : 0 < exp (- r) <= 1) by (apply exp_unit; lra).
    assert (Hc : Rabs (cos r) <= 1) by (apply Rabs_le; pose proof (COS_bound r); lra).
    replace (Rabs load / (2 * gamma)) with (Rabs (load / (2 * gamma))).
    + pose proof (Rabs_pos (load / (2 * gamma))). pose proof (Rabs_pos (cos r)).
      rewrite <- (Rmult_1_r (Rabs (load / (2 * gamma)))) at 2. rewrite Rmult_assoc.
      apply Rmult_le_compat_l; [assumption|].
      rewrite <- (Rmult_1_r 1). apply Rmult_le_compat; lra.
    + unfold Rdiv. rewrite Rabs_mult. f_equal. apply Rabs_right.
      left. apply Rinv_0_lt_compat. lra.
Qed.

Theorem half_plane_linear (x : list R) alpha gamma a b p q i :
  gamma <> 0 -> (i < length x)%nat ->
  nth i (calc_half_plane_deflection x alpha gamma (a * p + b * q)) 0
  = a * nth i (calc_half_plane_deflection x alpha gamma p) 0
    + b * nth i (calc_half_plane_deflection x alpha gamma q) 0.
Proof.
  intros Hg Hi. unfold calc_half_plane_deflection. rewrite !nth_map' with (da := 0) by assumption.
  numR. transR. unfold Rdiv. ring.
Qed.

(** ** stepping WaterFlexure *)

Theorem water_flexure_step_spec n m calc_flexure alpha gamma rho gravity dt (c : dyn_flexure R) (g : grid R)
    li wd bi dsl :
  df_rows c = n -> g_cols g = m -> shaped n m (df_pool c) ->
  node g LITHO = Some li -> shaped (n + 2) m li ->
  node g "water__increment_of_depth" = Some wd -> shaped (n + 2) m wd ->
  node g BEDROCK_INC = Some bi -> shaped (n + 2) m bi ->
  gval g "sea_level__increment_of_elevation" = Some dsl ->
  (forall p, shaped n m p -> shaped n m (calc_flexure p)) ->
  exists c' g' bi' iso,
    water_flexure_step calc_flexure alpha gamma rho gravity dt c g = Ok (c', g')
    /\ calc_dynamic_deflection c iso dt = (c', snd (calc_dynamic_deflection c iso dt))
    /\ shaped n m iso
    /\ (forall i j, (i < n)%nat -> (j < m)%nat ->
          at2 0 iso i j = at2 0 (calc_flexure (fmap (fun d => d * rho * gravity * g_dx g) (inner wd))) i j
            + nth j (calc_half_plane_deflection (x_of_column g) alpha gamma (dsl * rho * gravity)) 0)
    /\ node g' BEDROCK_INC = Some bi' /\ shaped (n + 2) m bi'
    /\ (forall i j, (i < n + 2)%nat -> (j < m)%nat ->
          at2 0 bi' i j = if (Nat.leb 1 i && Nat.leb i n)%bool
                          then at2 0 bi i j - at2 0 (snd (calc_dynamic_deflection c iso dt)) (i - 1) j
                          else at2 0 bi i j)
    /\ (forall name, name <> LITHO -> name <> BEDROCK_INC -> node g' name = node g name)
    /\ at_grid g' = at_grid g /\ at_row g' = at_row g /\ layers g' = layers g.
Proof.
  intros Hn Hm Hp Hli Sli Hwd Swd Hbi Sbi Hsl Hflex. unfold water_flexure_step.
  rewrite (get_profile_ok g LITHO li Hli). cbn [bind].
  rewrite (set_profile_ok g LITHO li _ Hli). cbn [bind].
  set (g1 := put_node g LITHO _).
  unfold gval_r. change (gval g1 "sea_level__increment_of_elevation") with (gval g "sea_level__increment_of_elevation").
  rewrite Hsl. cbn [bind].
  assert (E1w : node g1 "water__increment_of_depth" = Some wd) by (unfold g1; node_simp; assumption).
  rewrite (get_profile_ok g1 _ wd E1w). cbn [bind].
  set (iso := calc_flexure_due_to_water calc_flexure (x_of_column g1) alpha gamma rho gravity (g_dx g1) (inner wd) dsl).
  set (half := calc_half_plane_deflection (x_of_column g) alpha gamma (dsl * rho * gravity)).
  assert (Hhl : length half = m).
  { unfold half, calc_half_plane_deflection. rewrite map_length. unfold x_of_column.
    rewrite map_length, seq_length. assumption. }
  set (F := calc_flexure (fmap (fun d => d * rho * gravity * g_dx g) (inner wd))).
  assert (SF : shaped n m F) by (apply Hflex, shaped_fmap, shaped_inner; assumption).
  assert (Eiso : iso = map (fun row => zipw Rplus row half) F) by reflexivity.
  assert (Siso : shaped n m iso).
  { rewrite Eiso. split; [rewrite map_length; apply SF|].
    intros r Hr. apply in_map_iff in Hr. destruct Hr as [r0 [<- Hr0]].
    rewrite zipw_length, (proj2 SF _ Hr0). lia. }
  pose proof (dyn_step_spec n m c iso dt Hn Hp Siso) as HD.
  destruct (calc_dynamic_deflection c iso dt) as [c' out] eqn:ED.
  destruct HD as [_ [_ [_ [So _]]]].
  assert (E1b : node g1 BEDROCK_INC = Some bi) by (unfold g1; node_simp; assumption).
  rewrite (get_profile_ok g1 _ bi E1b). cbn [bind].
  rewrite (set_profile_ok g1 _ bi _ E1b). cbn [bind].
  assert (Sd : shaped n m (fmap2 (@nsub R _) (inner bi) out))
    by (apply shaped_fmap2; [apply shaped_inner|]; assumption).
  eexists c', _, _, iso. split; [reflexivity|]. rewrite ED. cbn [snd].
  split; [reflexivity|]. split; [assumption|]. split; [|split; [|split; [|split; [|split]]]].
  - intros i j Hi Hj. rewrite Eiso. unfold at2 at 1.
    rewrite nth_map' with (da := []) by (rewrite (shaped_len _ _ _ SF); assumption).
    rewrite nth_zipw with (da := 0) (db := 0) by (rewrite ?(shaped_nth _ _ _ _ SF Hi); lia).
    reflexivity.
  - apply node_put_same.
  - apply shaped_set_inner; assumption.
  - intros i j Hi Hj. rewrite (at2_set_inner n m) by assumption.
    destruct (Nat.leb_spec 1 i), (Nat.leb_spec i n); cbn [andb]; try reflexivity.
    rewrite (at2_fmap2 (@nsub R _) n m _ _ 0 0) by (assumption || (apply shaped_inner; assumption) || lia).
    numR. rewrite (at2_inner n m) by (assumption || lia). replace (S (i - 1)) with i by lia. reflexivity.
  - intros name H1 H2. unfold g1. rewrite !node_put_node.
    destruct (String.eqb_spec name BEDROCK_INC); [contradiction|].
    destruct (String.eqb_spec name LITHO); [contradiction|]. reflexivity.
  - repeat split.
Qed.
