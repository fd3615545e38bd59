(** Construction of a SequenceModel, and the calls a Sequence makes. *)
From Coq Require Import String List ZArith QArith Reals Lia Lra.
From Verif.Base Require Import Num Py Arr.
From Verif.Model Require Import Layers Grid Archive Flexure Sequence SequenceModel.
From Verif.Spec Require Import Strata Column.
From Verif.Proofs Require Import GridP LayersP SequenceP SequenceModelP ClockP.
Import ListNotations.

Section Log.
  Context {A : Type} `{Num A} {W : Type}.

  Lemma logged_add_layer dz (s : sequence A W) log :
    add_layer dz (seq_log s log) = match add_layer dz s with Ok s' => Ok (seq_log s' log) | Err e => Err e end.
  Proof.
    unfold add_layer. cbn [seq_log sq_grid sq_time sq_world sq_time_step sq_archived sq_at_layer_grid sq_at_layer_row].
    destruct (node_r (sq_grid s) _) as [z|]; [|reflexivity]. cbn [bind].
    destruct (layer_properties _ _ _) as [props|]; [|reflexivity]. cbn [bind].
    destruct (el_add _ _ _) as [el|]; [|reflexivity]. cbn [bind].
    destruct (gval_r _ _) as [sea|]; [|reflexivity]. cbn [bind].
    destruct (broadcast _ _) as [v1|]; [|reflexivity]. cbn [bind].
    destruct (broadcast _ _) as [v2|]; [|reflexivity]. cbn [bind].
    destruct (archive _) as [a el']. reflexivity.
  Qed.

  Theorem logged_update (components : list (component A W)) dt (s : sequence A W) log :
    sequence_update (mapi logged components) dt (seq_log s log)
    = match sequence_update components dt s with
      | Ok s' => Ok (seq_log s' (log ++ map (fun i => (i, dt)) (seq 0 (length components))))
      | Err e => Err e
      end.
  Proof.
    unfold sequence_update. cbn [seq_log sq_grid sq_time sq_world sq_time_step sq_archived sq_at_layer_grid sq_at_layer_row].
    unfold mapi. rewrite logged_components.
    destruct (run_components components dt (sq_world s, sq_grid s)) as [[w1 g1]|]; [|reflexivity]. cbn [bind].
    destruct (node_r g1 _) as [dz|]; [|reflexivity]. cbn [bind].
    set (s1 := mkSequence w1 g1 _ _ _ _ _).
    match goal with |- context [add_layer (cells dz) ?x] =>
      change x with (seq_log s1 (log ++ map (fun i => (i, dt)) (seq 0 (length components)))) end.
    rewrite logged_add_layer. destruct (add_layer (cells dz) s1) as [s2|]; [|reflexivity]. cbn [bind seq_log sq_grid].
    destruct (settle _) as [g2|]; [|reflexivity]. cbn [bind]. destruct (clear_deposit _) as [g3|]; reflexivity.
  Qed.

  Lemma logged_updates (components : list (component A W)) ds : forall (s : sequence A W) log,
    foldM (fun s d => sequence_update (mapi logged components) d s) ds (seq_log s log)
    = match foldM (fun s d => sequence_update components d s) ds s with
      | Ok s' => Ok (seq_log s' (log ++ calls_of (length components) ds))
      | Err e => Err e
      end.
  Proof.
    induction ds as [|d ds IH]; intros s log; cbn [foldM].
    - cbn. rewrite app_nil_r. reflexivity.
    - rewrite logged_update. destruct (sequence_update components d s) as [s1|]; [|reflexivity]. cbn [bind].
      rewrite IH. destruct (foldM _ ds s1) as [s2|]; [|reflexivity]. cbn [calls_of flat_map]. rewrite <- app_assoc. reflexivity.
  Qed.

  (* update(dt) and update() *)
  Theorem update_calls (components : list (component A W)) dt (s : sequence A W) :
    let d := match dt with Some d => d | None => sq_time_step s end in
    match seq_exec components s (Update dt), seq_exec (mapi logged components) (seq_log s []) (Update dt) with
    | Ok s', Ok sl => sl = seq_log s' (map (fun i => (i, d)) (seq 0 (length components)))
                      /\ sq_time s' = nadd (sq_time s) d
    | Err e, Err e' => e' = e
    | _, _ => False
    end.
  Proof.
    intros d. assert (E : forall cs (x : sequence A W), sq_time_step x = sq_time_step s ->
       seq_exec cs x (Update dt) = sequence_update cs d x).
    { intros cs x Hx. unfold d. destruct dt; [reflexivity|]. cbn [seq_exec]. unfold sequence_update_default. rewrite Hx. reflexivity. }
    rewrite E by reflexivity.
    assert (E' : seq_exec (mapi logged components) (seq_log s []) (Update dt) = sequence_update (mapi logged components) d (seq_log s [])).
    { unfold d. destruct dt; reflexivity. }
    rewrite E', logged_update. destruct (sequence_update components d s) as [s'|] eqn:Es; [|reflexivity].
    split; [reflexivity|]. destruct (update_records _ _ _ _ Es) as [ge [re [Et _]]]. exact Et.
  Qed.
End Log.

Local Open Scope R_scope.

Lemma logged_run_steps {W} (components : list (component R W)) until dt n : forall s log,
  run_steps (mapi logged components) until dt n (seq_log s log)
  = match run_steps components until dt n s with
    | Ok s' => Ok (seq_log s' (log ++ calls_of (length components) (schedule n dt (until - sq_time s))))
    | Err e => Err e
    end.
Proof.
  intros s log. rewrite !run_steps_schedule. apply logged_updates.
Qed.

(* run(): the lengths of C33 *)
Theorem run_calls {W} (components : list (component R W)) until dt (s : sequence R W) :
  let T := match until with Some u => u | None => sq_time s + sq_time_step s end in
  let d := match dt with Some d => d | None => sq_time_step s end in
  0 < d ->
  exists ds, (forall e, In e ds -> 0 < e <= d) /\ rsum ds = Rmax 0 (T - sq_time s)
    /\ match sequence_run components until dt s, sequence_run (mapi logged components) until dt (seq_log s []) with
       | Ok s', Ok sl => sl = seq_log s' (calls_of (length components) ds)
       | Err e, Err e' => e' = e
       | _, _ => False
       end.
Proof.
  intros T d Hd.
  assert (X : forall V (cs : list (component R V)) (x : sequence R V), sq_time x = sq_time s -> sq_time_step x = sq_time_step s ->
    sequence_run cs until dt x = run_steps cs T d (Z.to_nat (n_steps T d (sq_time s))) x).
  { intros V cs x Hx Hy. unfold sequence_run. rewrite Hx, Hy. fold T. fold d. numR. rewrite n0_R.
    destruct (Reqb d 0) eqn:Hc; [apply Reqb_true in Hc; lra|]. reflexivity. }
  rewrite (X W components s eq_refl eq_refl), (X _ (mapi logged components) (seq_log s []) eq_refl eq_refl).
  pose proof (n_steps_R T d (sq_time s) Hd) as [N1 N2]. set (n := Z.to_nat _) in *.
  set (x := (T - sq_time s) / d) in *.
  assert (Ex : T - sq_time s = x * d) by (unfold x; field; lra).
  assert (P1 : 0 < T - sq_time s -> 0 < x).
  { intros P. unfold x. apply Rdiv_lt_0_compat; assumption. }
  assert (P2 : T - sq_time s <= 0 -> x <= 0).
  { intros P. destruct (Rle_dec x 0) as [L|L]; [exact L|].
    assert (0 < x * d) by (apply Rmult_lt_0_compat; lra). lra. }
  destruct (schedule_ok n d Hd (T - sq_time s)) as [S1 S2].
  { intros P. specialize (N1 (P1 P)). rewrite Ex. split.
    - apply Rmult_le_compat_r; lra.
    - replace (x * d + d) with ((x + 1) * d) by ring. apply Rmult_lt_compat_r; lra. }
  { intros P. apply N2, P2, P. }
  exists (schedule n d (T - sq_time s)). split; [exact S1|]. split; [exact S2|].
  rewrite logged_run_steps. cbn [app]. destruct (run_steps components T d n s); reflexivity.
Qed.

(** ** a SequenceModel starts clean (C89) *)
Theorem init_clean {W} (pr : processes R W) w (g : grid R) c m : whole_grid g -> model_init pr w g c = Ok m ->
  sm_clock m = c /\ sm_archived m = 0%nat /\ gval (sm_grid m) "sea_level__elevation" = Some 0
  /\ (exists v, rowf g "x_of_shore" = Some v /\ rowf (sm_grid m) "x_of_shore" = Some (repeat None (length v)))
  /\ (exists v, rowf g "x_of_shelf_edge" = Some v /\ rowf (sm_grid m) "x_of_shelf_edge" = Some (repeat None (length v)))
  /\ (forall n, n <> "water__total_of_loading"%string -> node (sm_grid m) n = node g n)
  /\ (forall load z i j, node (sm_grid m) "water__total_of_loading" = Some load -> node g "topographic__elevation" = Some z ->
        (i < g_rows g)%nat -> (j < g_cols g)%nat -> at2 0 load (S i) j = 1030 * Rmax (- at2 0 z (S i) j) 0).
Proof.
  intros Hw E. destruct (init_spec pr w g c m Hw E) as [_ [_ [_ [Ec [Ear [_ [Hnode [Hsea _]]]]]]]].
  split; [exact Ec|]. split; [exact Ear|]. split; [exact Hsea|].
  unfold model_init in E. okinv E E1. okinv E E2. okinv E E3. okinv E E4. okinv E E5. injection E as <-.
  destruct (rowf g "x_of_shore") as [v1|] eqn:V1; [injection E1 as <-|discriminate].
  rewrite rowf_put_rowf in E2. cbn [String.eqb Ascii.eqb Bool.eqb] in E2.
  destruct (rowf g "x_of_shelf_edge") as [v2|] eqn:V2; [injection E2 as <-|discriminate].
  set (g1 := put_gval _ _ _) in *. cbn [sm_grid] in *.
  assert (MR : forall v : list (option R), map (fun _ => @None R) v = repeat None (length v))
    by (induction v as [|? ? IHv]; cbn; congruence).
  assert (R1 : forall n, rowf g1 n = rowf (put_rowf (put_rowf g "x_of_shore" (map (fun _ => None) v1)) "x_of_shelf_edge" (map (fun _ => None) v2)) n) by reflexivity.
  assert (Hrow : forall n, rowf a3 n = rowf g1 n).
  { intros n. destruct (has_node (set_layers g1 a2) WATER_LOAD); [|injection E5 as <-; reflexivity].
    okinv E5 X1. okinv E5 X2. destruct (set_profile_inv _ _ _ _ E5) as [f [_ ->]]. reflexivity. }
  split; [exists v1; split; [reflexivity|]; rewrite Hrow, R1, !rowf_put_rowf; eqb_lit; rewrite MR; reflexivity|].
  split; [exists v2; split; [reflexivity|]; rewrite Hrow, R1, !rowf_put_rowf; eqb_lit; rewrite MR; reflexivity|].
  split; [exact Hnode|].
  intros load z i j Nl Nz Hi Hj. destruct (has_node (set_layers g1 a2) WATER_LOAD) eqn:Hn.
  - okinv E5 E6. okinv E5 E7. destruct (get_profile_inv _ _ _ E6) as [z' [Ez ->]].
    change (node (set_layers g1 a2) "topographic__elevation") with (node g "topographic__elevation") in Ez.
    rewrite Nz in Ez. injection Ez as <-. assert (Hz := proj2 Hw _ _ Nz).
    assert (Hg2 : whole_grid (set_layers g1 a2)).
    { apply whole_layers; [|exact Hw]. eapply el_add_shaped; [exact E4|]. apply Hw. }
    unfold gval_r in E7. replace (gval (set_layers g1 a2) "sea_level__elevation") with (Some (@n0 R _)) in E7
      by (symmetry; change (gval (set_layers g1 a2)) with (gval g1); unfold g1; rewrite gval_put_gval; eqb_lit; reflexivity).
    injection E7 as <-. destruct (set_profile_inv _ _ _ _ E5) as [f [Ef Eg]].
    pose proof (fun Y => whole_set_profile _ _ _ _ Hg2 Y E5) as X. match type of X with ?T -> _ => assert (Y : T) end.
    { apply shaped_of_nth.
      - rewrite map_length. apply shaped_len with (m := g_cols g). apply shaped_inner. exact Hz.
      - intros k Hk. rewrite nth_map' with (da := []) by (rewrite (shaped_len _ _ _ (shaped_inner _ _ _ Hz)); exact Hk).
        unfold calc_water_loading. rewrite !map_length. apply (shaped_nth (g_rows g) (g_cols g) _ k); [|exact Hk].
        apply shaped_inner. exact Hz. }
    destruct (X Y) as [_ [_ [_ V]]]. rewrite <- (n0_R). rewrite (V f load i j Ef Nl Hi Hj). unfold at2.
    rewrite nth_map' with (da := []) by (rewrite (shaped_len _ _ _ (shaped_inner _ _ _ Hz)); exact Hi).
    unfold calc_water_loading.
    assert (Lr : length (nth i (inner z) []) = g_cols g) by (apply (shaped_nth (g_rows g) (g_cols g)); [apply shaped_inner; exact Hz|exact Hi]).
    rewrite nth_map' with (da := 0) by (rewrite map_length, Lr; exact Hj).
    rewrite nth_map' with (da := 0) by (rewrite Lr; exact Hj).
    rewrite nth_inner by (rewrite (shaped_len _ _ _ Hz); lia). numR. rewrite nmax_R. rewrite n0_R.
    replace (Q2R 1030) with 1030 by (unfold Q2R; simpl; lra). rewrite Rminus_0_r. reflexivity.
  - injection E5 as <-. unfold has_node, din in Hn.
    change (node (set_layers g1 a2) "water__total_of_loading") with (node g "water__total_of_loading") in Nl.
    change (match node g "water__total_of_loading" with Some _ => true | None => false end = false) in Hn.
    rewrite Nl in Hn. discriminate Hn.
Qed.
