(** Concrete SequenceModels. *)
From Coq Require Import String List ZArith QArith Reals Lia Lra.
From Verif.Base Require Import Num Py Arr.
From Verif.Model Require Import Layers Grid Archive Flexure Sequence SequenceModel.
From Verif.Spec Require Import Strata Column.
From Verif.Proofs Require Import GridP LayersP SequenceP SequenceModelP ClockP SequenceEx.
Import ListNotations.

Section Any.
  Context {A : Type} `{Num A}.
  (* one row of a beach over 100 of sediment, with every field a model can have *)
  Definition ex_coast : grid A :=
    mkGrid 1 4 n1 n1
      [("topographic__elevation"%string, repeat [nofZ 2; nofZ 1; nofZ (-1); nofZ (-2)] 3);
       ("bedrock_surface__elevation"%string, fmap (fun v => nsub v (nlit 100)) (repeat [nofZ 2; nofZ 1; nofZ (-1); nofZ (-2)] 3));
       ("sediment_deposit__thickness"%string, full 3 4 n0);
       ("bedrock_surface__increment_of_elevation"%string, full 3 4 n0);
       ("water__increment_of_depth"%string, full 3 4 n0);
       ("delta_sediment_sand__volume_fraction"%string, full 3 4 (nlit (1 # 2)));
       ("sediment__total_of_loading"%string, full 3 4 n0)]
      [("sea_level__elevation"%string, n0)]
      [("x_of_shore"%string, [None]); ("x_of_shelf_edge"%string, [None])] (el_empty 1 2).

  Lemma ex_coast_whole : whole_grid ex_coast.
  Proof.
    assert (S1 : shaped 3 4 (repeat [nofZ 2; nofZ 1; nofZ (-1); nofZ (-2)] 3 : field A)).
    { split; [reflexivity|]. intros r Hr. apply repeat_spec in Hr. subst r. reflexivity. }
    split.
    - split; [cbn; lia|]. split; [eexists; split; [reflexivity|exact S1]|].
      split; [eexists; split; [reflexivity|apply shaped_fmap; exact S1]|].
      split; [eexists; split; [reflexivity|apply shaped_full]|]. apply shaped_full.
    - intros name f E. unfold node, ex_coast in E. cbn [at_node dget] in E.
      change (shaped 3 4 f). assert (X : forall a b : field A, Some a = Some b -> a = b) by congruence.
      repeat (match type of E with (if ?b then _ else _) = _ => destruct b end;
              [apply X in E; rewrite <- E; first [exact S1|apply shaped_fmap; exact S1|apply shaped_full]|]).
      discriminate E.
  Qed.

  (* adds the field d to the pending increment of the bedrock *)
  Definition ex_push {W} (d : field A) : component A W :=
    fun _ wg =>
      let* inc := node_r (snd wg) BEDROCK_INC in
      Ok (fst wg, put_node (snd wg) BEDROCK_INC (fmapi (fun i j v => nadd v (at2 n0 d i j)) inc)).
  (* lays the thickness t everywhere *)
  Definition ex_lay {W} (t : A) : component A W :=
    fun _ wg => Ok (fst wg, put_node (snd wg) "sediment_deposit__thickness"
                              (full (g_rows (snd wg) + 2) (g_cols (snd wg)) t)).

  Lemma ex_push_keeps {W} d : keeps_whole (@ex_push W d).
  Proof.
    intros dt w g w' g' Hg E. unfold ex_push in E. cbn [snd fst] in E. okinv E Ez. apply node_r_ok in Ez.
    injection E as <- <-. split; [|split; reflexivity]. apply whole_put; [|exact Hg].
    apply shaped_fmapi. exact (proj2 Hg _ _ Ez).
  Qed.
  Lemma ex_lay_keeps {W} t : keeps_whole (@ex_lay W t).
  Proof.
    intros dt w g w' g' Hg E. injection E as <- <-. cbn [snd fst].
    split; [|split; reflexivity]. apply whole_put; [|exact Hg]. apply shaped_full.
  Qed.

  Lemma ready_put names (g : grid A) n f : n <> "sediment__total_of_loading"%string ->
    shaped (g_rows g + 2) (g_cols g) f -> ready names g -> ready names (put_node g n f).
  Proof.
    intros Hn Hf [Hw [Hs [Hl [Hnum [Ht Hnm]]]]].
    split; [apply whole_put; assumption|]. split; [exact Hs|]. rewrite !node_put_node.
    split; [|split; [exact Hnum|split; [exact Ht|]]].
    - replace (String.eqb "sediment__total_of_loading" n) with false by (symmetry; apply String.eqb_neq; congruence).
      intros X. destruct (String.eqb _ n); [discriminate|auto].
    - intros k Hk. rewrite node_put_node. destruct (String.eqb k n); [discriminate|auto].
  Qed.
  Lemma ex_push_reliable {W} d : reliable [BEDROCK_INC] (@ex_push W d).
  Proof.
    intros dt w g Hr. assert (Hr' := Hr). destruct Hr' as [Hw [_ [_ [_ [_ Hnm]]]]].
    specialize (Hnm BEDROCK_INC (or_introl eq_refl)). destruct (node g BEDROCK_INC) as [inc|] eqn:E; [|congruence].
    unfold ex_push, node_r. cbn [snd fst]. rewrite E. cbn [bind]. do 2 eexists. split; [reflexivity|].
    split; [|split; reflexivity]. apply ready_put; [discriminate| |exact Hr]. apply shaped_fmapi. exact (proj2 Hw _ _ E).
  Qed.
  Lemma ex_lay_reliable {W} t : reliable [BEDROCK_INC] (@ex_lay W t).
  Proof.
    intros dt w g Hr. do 2 eexists. split; [reflexivity|]. cbn [snd].
    split; [|split; reflexivity]. apply ready_put; [discriminate| |exact Hr]. apply shaped_full.
  Qed.
End Any.

Definition ex_processes {A} `{Num A} cs : processes A unit := mkProcesses cs (fun _ => nlit (1 # 2)) (fun _ w => w).

Local Open Scope R_scope.
Lemma ex_push_contributes {W} (d : field R) : contributes (@ex_push R _ W d) d.
Proof.
  intros dt w g w1 g1 inc Hw Ei E. unfold ex_push, node_r in E. cbn [snd fst] in E. unfold BEDROCK_INC in E.
  rewrite Ei in E. cbn [bind] in E. injection E as <- <-. split; [rewrite node_put_node; eqb_lit; reflexivity|].
  eexists. split; [rewrite node_put_node; reflexivity|]. intros i j Hi Hj.
  rewrite (at2_fmapi _ _ _ _ 0 0 i j (proj2 Hw _ _ Ei) Hi Hj). rewrite n0_R. reflexivity.
Qed.
Lemma ex_lay_contributes {W} (t : R) : contributes (@ex_lay R W t) [].
Proof.
  intros dt w g w1 g1 inc Hw Ei E. injection E as <- <-. cbn [snd]. rewrite !node_put_node. eqb_lit. split; [reflexivity|].
  exists inc. split; [exact Ei|]. intros i j _ _. replace (at2 0 [] i j) with 0; [lra|].
  unfold at2. destruct i, j; reflexivity.
Qed.

(* every component list made of these can be built and stepped *)
Lemma ex_coast_init (cs : list (component R unit)) start stop step :
  exists m, model_init (ex_processes cs) tt ex_coast (clock_init start stop step) = Ok m
    /\ ready [BEDROCK_INC] (sm_grid m) /\ sm_clock m = clock_init start stop step.
Proof.
  apply init_ready; try discriminate; try reflexivity.
  - apply ex_coast_whole.
  - intros n [<-|[]]. discriminate.
Qed.

(** ** the clock (C39), Q *)
Definition ex_ticking : smodel Q unit := mkModel tt ex_coast (clock_init 0 (Some 10) 1)%Q 0.
Definition ex_step_log dt : option (list (nat * Q) * Q) :=
  match model_init (logged_processes (ex_processes [ex_lay 1%Q; ex_lay 2%Q])) (tt, []) ex_coast
          (clock_init 0 (Some 10) 1)%Q with
  | Ok m => match run_one_step (logged_processes (ex_processes [ex_lay 1%Q; ex_lay 2%Q])) dt m with
            | Stepped m => Some (snd (sm_world m), ck_time (sm_clock m))
            | _ => None
            end
  | Err _ => None
  end.
Lemma ex_step_log_ok :
  ex_step_log (Some 5%Q) = Some ([(0%nat, 5%Q); (1%nat, 5%Q)], 1%Q)
  /\ ex_step_log (Some 0%Q) = Some ([(0%nat, 1%Q); (1%nat, 1%Q)], 1%Q)
  /\ ex_step_log None = Some ([(0%nat, 1%Q); (1%nat, 1%Q)], 1%Q).
Proof. vm_compute. repeat split. Qed.

(* one step of a logged model, any arithmetic *)
Theorem one_step_log {A} `{Num A} {W} (pr : processes A W) dt (m : smodel A W) :
  let given := match dt with Some d => if (d =? n0)%num then ck_step (sm_clock m) else d | None => ck_step (sm_clock m) end in
  match run_one_step pr dt m, run_one_step (logged_processes pr) dt (with_log m []) with
  | Stepped m', Stepped ml =>
      ml = with_log m' (map (fun i => (i, given)) (seq 0 (length (pr_components pr))))
      /\ ck_time (sm_clock m') = nadd (ck_time (sm_clock m)) (ck_step (sm_clock m))
  | ClockStop m', ClockStop ml => ml = with_log m' []
      /\ ck_time (sm_clock m') = nadd (ck_time (sm_clock m)) (ck_step (sm_clock m))
  | Raised e, Raised e' => e' = e
  | _, _ => False
  end.
Proof.
  cbv zeta. unfold run_one_step, clock_advance. cbn [with_log sm_clock sm_world sm_grid sm_archived].
  destruct (match ck_stop _ with Some s => _ | None => _ end).
  - split; reflexivity.
  - set (d := match dt with Some d => _ | None => _ end).
    match goal with |- context [advance_components pr d ?mm] => set (m1 := mm) end.
    change (mkModel (sm_world m, []) (sm_grid m) _ (sm_archived m)) with (with_log (A:=A) m1 []).
    rewrite logged_advance. destruct (advance_components pr d m1) as [m2|] eqn:E; [|reflexivity].
    split; [reflexivity|]. rewrite (advance_clock _ _ _ _ E). reflexivity.
Qed.

Lemma step_dt_refuted : ~ (forall W (pr : processes R W) dt (m : smodel R W) ml,
  run_one_step (logged_processes pr) (Some dt) (with_log m []) = Stepped ml ->
  snd (sm_world ml) = map (fun i => (i, dt)) (seq 0 (length (pr_components pr)))
  /\ ck_time (sm_clock ml) = ck_time (sm_clock m) + dt).
Proof.
  intros C. destruct (ex_coast_init [ex_lay 1] 0 None 1) as [m [_ [Hr Hc]]].
  destruct (complete_ok [BEDROCK_INC] (ex_processes [ex_lay 1]) [2]
              (Forall_cons _ (ex_lay_reliable 1) (Forall_nil _)) m Hr) as [m' [E _]]; [rewrite Hc; reflexivity|].
  cbn [complete_steps] in E. destruct (run_one_step _ (Some 2) m) as [m1| |] eqn:Es; try discriminate.
  assert (L := one_step_log (ex_processes [ex_lay 1]) (Some 2) m). cbv zeta in L. rewrite Es in L.
  destruct (run_one_step (logged_processes _) _ _) as [ml| |] eqn:El; try contradiction.
  destruct (C _ _ _ _ _ El) as [_ X]. destruct L as [-> T]. change (ck_time (sm_clock (with_log m1 ?l))) with (ck_time (sm_clock m1)) in X.
  rewrite Hc in *. cbn [clock_init ck_time ck_step] in *. numR. lra.
Qed.

Lemma zero_dt_refuted : ~ (forall W (pr : processes R W) (m : smodel R W) ml,
  run_one_step (logged_processes pr) (Some 0) (with_log m []) = Stepped ml ->
  snd (sm_world ml) = map (fun i => (i, 0)) (seq 0 (length (pr_components pr)))).
Proof.
  intros C. destruct (ex_coast_init [ex_lay 1] 0 None 1) as [m [_ [Hr Hc]]].
  destruct (complete_ok [BEDROCK_INC] (ex_processes [ex_lay 1]) [0]
              (Forall_cons _ (ex_lay_reliable 1) (Forall_nil _)) m Hr) as [m' [E _]]; [rewrite Hc; reflexivity|].
  cbn [complete_steps] in E. destruct (run_one_step _ (Some 0) m) as [m1| |] eqn:Es; try discriminate.
  assert (L := one_step_log (ex_processes [ex_lay 1]) (Some 0) m). cbv zeta in L. rewrite Es in L.
  destruct (run_one_step (logged_processes _) _ _) as [ml| |] eqn:El; try contradiction.
  assert (X := C _ _ _ _ El). destruct L as [-> T]. cbn [with_log sm_world snd] in X.
  rewrite Hc in *. cbn [clock_init ck_time ck_step] in *.
  replace (0 =? n0)%num with true in X by (symmetry; rewrite n0_R; apply Reqb_true; reflexivity).
  cbn in X. injection X as X. lra.
Qed.

(** ** sediment load (C42) *)
(* the weighed deposit is what the components hand over; the layers take what
   they can *)
Theorem load_matches_deposits {W} (pr : processes R W) dt (m m' : smodel R W) g1 :
  Forall keeps_whole (pr_components pr) -> whole_grid (sm_grid m) ->
  advance_components pr dt m = Ok m' -> after_components pr dt m g1 ->
  (forall dz i j, node g1 "sediment_deposit__thickness" = Some dz ->
     (i < g_rows (sm_grid m))%nat -> (j < g_cols (sm_grid m) - 2)%nat ->
     nonneg (at2 [] (el_stacks (layers g1)) i j)
     /\ 0 <= stack_thickness (at2 [] (el_stacks (layers g1)) i j) + at2 0 dz (S i) (S j)) ->
  load_matches pr dt m m' g1.
Proof.
  intros Hk Hw E Ha Hdz t t' z sand sea i j Et Et' Ez Es Esea Hi Hj.
  destruct (load_of_step pr dt m m' g1 t Hk Hw E Ha Et)
    as [t1 [dz [z1 [sand1 [sea1 [A1 [A2 [A3 [A4 [A5 [A6 A7]]]]]]]]]]].
  unfold TOTAL_LOAD in A1. rewrite Et' in A1. injection A1 as <-. rewrite Ez in A3. injection A3 as <-.
  rewrite Es in A4. injection A4 as <-. rewrite Esea in A5. injection A5 as <-.
  destruct (Hdz dz i j A2 Hi Hj) as [N1 N2]. rewrite A6 by lia. rewrite A7 by assumption.
  rewrite Rmax_right by exact N2. do 2 f_equal. lra.
Qed.

(* 200 is eroded from a column of 100 *)
Lemma ex_erode_state : exists m m' g1,
  model_init (ex_processes [ex_lay (-200)]) tt ex_coast (clock_init 0 None 1) = Ok m
  /\ advance_components (ex_processes [ex_lay (-200)]) 1 m = Ok m'
  /\ after_components (ex_processes [ex_lay (-200)]) 1 m g1
  /\ g1 = put_node (sm_grid m) "sediment_deposit__thickness" (full 3 4 (-200)).
Proof.
  destruct (ex_coast_init [ex_lay (-200)] 0 None 1) as [m [E [Hr Hc]]]. exists m.
  destruct (advance_ok [BEDROCK_INC] (ex_processes [ex_lay (-200)]) 1 m
              (Forall_cons _ (ex_lay_reliable (-200)) (Forall_nil _)) Hr) as [m' [E' _]]. exists m'.
  eexists. split; [exact E|]. split; [exact E'|].
  destruct (init_spec _ _ _ _ _ ex_coast_whole E) as [Hw' [R' [C' _]]].
  split.
  - destruct (proj1 (proj2 (proj2 (proj2 (proj1 Hw'))))) as [dz [Ed Hd]].
    unfold after_components, clear_deposit, node_r. rewrite Ed. cbn [bind].
    do 2 eexists. split; [reflexivity|]. cbn [ex_processes pr_components run_components foldM ex_lay bind fst snd].
    rewrite put_node_put_node. cbn [put_node set_at_node g_rows g_cols]. rewrite R', C'. reflexivity.
  - reflexivity.
Qed.

Lemma load_refuted : ~ (forall W (pr : processes R W) dt (m m' : smodel R W) g1,
  Forall keeps_whole (pr_components pr) -> whole_grid (sm_grid m) ->
  advance_components pr dt m = Ok m' -> after_components pr dt m g1 ->
  (forall i j, (i < g_rows (sm_grid m))%nat -> (j < g_cols (sm_grid m) - 2)%nat ->
     nonneg (at2 [] (el_stacks (layers g1)) i j)) ->
  load_matches pr dt m m' g1).
Proof.
  intros C. destruct ex_erode_state as [m [m' [g1 [E [E' [Ha Eg]]]]]].
  set (pr := ex_processes [ex_lay (-200)]) in *.
  assert (Hk : Forall keeps_whole (pr_components pr)) by exact (Forall_cons _ (ex_lay_keeps (-200)) (Forall_nil _)).
  destruct (init_spec _ _ _ _ _ ex_coast_whole E) as [Hw [Hr [Hc [_ [_ [_ [Hnode [Hsea [props Hel]]]]]]]]].
  assert (Hst : forall i j, (i < 1)%nat -> (j < 2)%nat ->
            exists p, at2 [] (el_stacks (layers (sm_grid m))) i j = [mkCell 100 p]).
  { intros i j Hi Hj. unfold el_add in Hel. destruct (forallb _ _); [|discriminate]. injection Hel as <-. cbn [el_stacks].
    eexists. etransitivity.
    - apply (at2_fmapi (A:=stack R) (B:=stack R) _ 1 2 _ [] [] i j); [apply shaped_full|exact Hi|exact Hj].
    - change (el_stacks (layers ex_coast)) with (full 1 2 (@nil (lcell R))). rewrite !at2_full by assumption.
      rewrite add_stack_R. destruct (Rlt_dec 100 0); [lra|]. reflexivity. }
  assert (Hl : layers g1 = layers (sm_grid m)) by (rewrite Eg; reflexivity).
  change (g_rows ex_coast) with 1%nat in *. change (g_cols ex_coast) with 4%nat in *.
  assert (Hn : forall i j, (i < 1)%nat -> (j < 4 - 2)%nat -> nonneg (at2 [] (el_stacks (layers g1)) i j)).
  { intros i j Hi Hj. rewrite Hl. destruct (Hst i j Hi Hj) as [p ->]. intros c [<-|[]]. cbn. lra. }
  assert (M := C _ pr 1 m m' g1 Hk Hw E' Ha). rewrite Hr, Hc in M. specialize (M Hn).
  assert (Nt : forall n, n <> WATER_LOAD -> n <> "sediment_deposit__thickness"%string -> node g1 n = node ex_coast n).
  { intros n H1 H2. rewrite Eg, node_put_node. apply String.eqb_neq in H2. rewrite H2. apply Hnode, H1. }
  assert (Et : node g1 TOTAL_LOAD = Some (full 3 4 0)) by (rewrite Nt by discriminate; unfold node, ex_coast; cbn; rewrite n0_R; reflexivity).
  destruct (load_of_step pr 1 m m' g1 _ Hk Hw E' Ha Et)
    as [t1 [dz [z1 [sand1 [sea1 [A1 [A2 [A3 [A4 [A5 [A6 A7]]]]]]]]]]].
  specialize (M _ t1 z1 sand1 sea1 0%nat 0%nat Et A1 A3 A4 A5). rewrite Hr, Hc in M, A6, A7.
  specialize (M ltac:(lia) ltac:(lia)). rewrite A6 in M by lia. rewrite A7 in M by (first [lia|apply Hn; lia]).
  rewrite Hl in M. destruct (Hst 0%nat 0%nat ltac:(lia) ltac:(lia)) as [p Ep].
  assert (Th : stack_thickness (at2 [] (el_stacks (layers (sm_grid m))) 0 0) = 100).
  { etransitivity; [apply (f_equal stack_thickness); exact Ep|]. unfold stack_thickness, nsum. cbn. numR. rewrite n0_R. lra. }
  rewrite Th in M.
  rewrite Eg, node_put_node, String.eqb_refl in A2. injection A2 as A2.
  rewrite Nt in A4 by discriminate. unfold node, ex_coast in A4. cbn in A4. injection A4 as A4.
  rewrite Nt in A3 by discriminate. unfold node, ex_coast in A3. cbn in A3. injection A3 as A3.
  assert (sea1 = 0) by (rewrite Eg in A5; change (gval (put_node ?a ?b ?c)) with (gval a) in A5; congruence). subst sea1.
  revert M. rewrite <- A2, <- A3, <- A4. unfold sediment_weight, stack_thickness. cbn [at2 nth map c_dz nsum fold_right].
  rewrite !(at2_full 0) by lia. rewrite !nmin_R, n0_R, n1_R.
  change (@nofZ R _ 1) with (Q2R (inject_Z 1)). change (@nlit R _) with Q2R. numR. unfold Q2R, inject_Z; cbn [Qnum Qden].
  rewrite (Rmax_left 0 (100 + -200)) by lra. unfold Rmin. repeat destruct (Rle_dec _ _); lra.
Qed.

(** ** water depth (C41) *)
Theorem dry_nodes {W} (pr : processes R W) dt (m m' : smodel R W) g1 w sea z z' i j :
  Forall keeps_whole (pr_components pr) -> whole_grid (sm_grid m) ->
  advance_components pr dt m = Ok m' -> after_components pr dt m g1 ->
  node (sm_grid m') "water__increment_of_depth" = Some w ->
  gval g1 "sea_level__elevation" = Some sea -> node g1 "topographic__elevation" = Some z ->
  node (sm_grid m') "topographic__elevation" = Some z' ->
  (i < g_rows (sm_grid m))%nat -> (j < g_cols (sm_grid m))%nat ->
  sea <= at2 0 z (S i) j -> sea <= at2 0 z' (S i) j -> at2 0 w (S i) j = 0.
Proof.
  intros Hk Hw E Ha Ew Es Ez Ez' Hi Hj H1 H2.
  destruct (water_depth_change pr dt m m' g1 w Hk Hw E Ha Ew) as [sea1 [z1 [z1' [A1 [_ [A2 [A3 A4]]]]]]].
  rewrite Es in A1. injection A1 as <-. rewrite Ez in A2. injection A2 as <-. rewrite Ez' in A3. injection A3 as <-.
  rewrite n0_R in A4. rewrite (A4 i j Hi Hj). rewrite !nmax_R. numR. rewrite !Rmax_right by lra. lra.
Qed.

(* recorded depth increments, elevations and load of the profile after laying 3 *)
Definition ex_fields_run : option (list (list Q)) :=
  match (let* m := model_init (ex_processes [ex_lay 3%Q; ex_push [[1; 1; 1; 1]; [0; -1; -2; -3]; [1; 1; 1; 1]]%Q]) tt ex_coast
                     (clock_init 0 None 1)%Q in Ok m) with
  | Ok m => match run_one_step (ex_processes [ex_lay 3%Q; ex_push [[1; 1; 1; 1]; [0; -1; -2; -3]; [1; 1; 1; 1]]%Q]) None m with
            | Stepped m =>
                let row name := match node (sm_grid m) name with Some z => map Qred (nth 1 z []) | None => [] end in
                Some [row "water__increment_of_depth"; row "topographic__elevation"; row "bedrock_surface__elevation";
                      row "sediment__total_of_loading"]%string
            | _ => None
            end
  | Err _ => None
  end.
Lemma ex_fields_ok : ex_fields_run
  = Some [[0; 0; -1 # 1; 0]; [2; 3; 0; -2 # 1]; [-98 # 1; -100 # 1; -103 # 1; -105 # 1]; [8055 # 2; 8055 # 2; 9085 # 2; 10115 # 2]]%Q.
Proof. vm_compute. reflexivity. Qed.

(* the same two components in either order, any number of steps *)
Lemma ex_orders n : exists m m1 m2,
  let a := ex_push (W:=unit) [[1; 1; 1; 1]; [0; -1; -2; -3]] in let b := ex_push (full 3 4 5) in
  model_init (ex_processes [a; b]) tt ex_coast (clock_init 0 None 1) = Ok m
  /\ whole_grid (sm_grid m) /\ node (sm_grid m) "bedrock_surface__increment_of_elevation" <> None
  /\ complete_steps (ex_processes [a; b]) (repeat 1 n) m = Some m1
  /\ complete_steps (ex_processes [b; a]) (repeat 1 n) m = Some m2.
Proof.
  destruct (ex_coast_init [ex_push [[1; 1; 1; 1]; [0; -1; -2; -3]]; ex_push (full 3 4 5)] 0 None 1) as [m [E [Hr Hc]]].
  destruct (complete_ok [BEDROCK_INC] (ex_processes [ex_push [[1; 1; 1; 1]; [0; -1; -2; -3]]; ex_push (full 3 4 5)]) (repeat 1 n)
     (Forall_cons _ (ex_push_reliable _) (Forall_cons _ (ex_push_reliable _) (Forall_nil _))) m Hr) as [m1 [E1 _]];
     [rewrite Hc; reflexivity|].
  destruct (complete_ok [BEDROCK_INC] (ex_processes [ex_push (full 3 4 5); ex_push [[1; 1; 1; 1]; [0; -1; -2; -3]]]) (repeat 1 n)
     (Forall_cons _ (ex_push_reliable _) (Forall_cons _ (ex_push_reliable _) (Forall_nil _))) m Hr) as [m2 [E2 _]];
     [rewrite Hc; reflexivity|].
  exists m, m1, m2. cbv zeta. split; [exact E|]. split; [apply Hr|]. split; [|split; assumption].
  apply (proj2 (proj2 (proj2 (proj2 (proj2 Hr)))) BEDROCK_INC). left. reflexivity.
Qed.

(* and the increments they add *)
Lemma contributes_steps {W} (pr : processes R W) l dts : pr_components pr = map fst l ->
  Forall (fun p => contributes (fst p) (snd p)) l -> Forall keeps_whole (pr_components pr) -> Forall (fun dt => dt <> 0) dts ->
  forall m m', whole_grid (sm_grid m) -> node (sm_grid m) BEDROCK_INC <> None -> complete_steps pr dts m = Some m' ->
  adds_up_steps pr dts m (map (fun _ => map snd l) dts) m'.
Proof.
  intros El Hc Hk Hd. induction Hd as [|dt dts Hdt Hdts IH]; intros m m' Hw Hi E.
  - injection E as <-. constructor.
  - cbn [complete_steps] in E. destruct (run_one_step pr (Some dt) m) as [m1| |] eqn:Es; try discriminate.
    destruct (step_stepped _ _ _ _ Es) as [dt' [Edt Eadv]]. rewrite n0_R in Edt.
    assert (dt' = dt) by (change (@neqb R _ dt 0) with (Reqb dt 0) in Edt; destruct (Reqb dt 0) eqn:X;
        [apply Reqb_true in X; contradiction|exact Edt]). subst dt'.
    pose proof (fun H => advance_stages pr dt _ m1 Hk H Eadv) as X.
    destruct (X Hw) as [g0 [g1 [_ [_ [_ [_ [Ecl [Hw0 [Er _]]]]]]]]]. clear X. cbn [sm_grid sm_world] in *.
    destruct (clear_whole _ _ Hw Ecl) as [_ [R0 [C0 [_ [_ N0]]]]].
    destruct (node (sm_grid m) BEDROCK_INC) as [inc|] eqn:Ei; [|congruence].
    assert (Ei0 : node g0 BEDROCK_INC = Some inc) by (rewrite N0; [exact Ei|intros [X|[]]; discriminate X]).
    assert (Ha : adds_up (pr_components pr) dt (sm_world m, g0) (map snd l) (sm_world m1, g1)).
    { rewrite El in *. apply contributes_adds; try assumption. rewrite Ei0. discriminate. }
    cbn [map]. econstructor; [exact Hdt|exact Ecl|exact Ha|exact Es|].
    destruct (adds_up_run _ _ _ _ _ Ha Hk Hw0) as [_ [Eb Hi']]. cbn [snd] in *.
    destruct (Hi' inc Ei0) as [inc1 [Ei1 _]].
    pose proof (fun H => advance_increment pr dt _ m1 g0 (sm_world m1) g1 inc1 Hk H Eadv Ecl Er Ei1) as X.
    destruct (X Hw) as [z1 [z1' [inc1' [_ [_ [B3 _]]]]]]. clear X.
    pose proof (fun H => advance_balanced pr dt _ m1 Hk H Eadv) as X. destruct (X Hw) as [Hw1 _]. clear X.
    apply IH; [exact Hw1| |exact E]. rewrite B3. discriminate.
Qed.

Lemma ex_run : exists m,
  model_init (ex_processes [ex_lay 1; ex_push (full 3 4 5)]) tt ex_coast (clock_init 0 (Some 10) 3) = Ok m
  /\ exists n, full_steps 0 10 3 n /\ forall fuel, (n < fuel)%nat ->
     exists m', model_run fuel (ex_processes [ex_lay 1; ex_push (full 3 4 5)]) m = Some (Ok m').
Proof.
  destruct (ex_coast_init [ex_lay 1; ex_push (full 3 4 5)] 0 (Some 10) 3) as [m [E [Hr Hc]]]. exists m. split; [exact E|].
  destruct (run_succeeds [BEDROCK_INC] (ex_processes [ex_lay 1; ex_push (full 3 4 5)]) m 10
     (Forall_cons _ (ex_lay_reliable _) (Forall_cons _ (ex_push_reliable _) (Forall_nil _))) Hr) as [n [Hn H]];
    [rewrite Hc; cbn; lra|rewrite Hc; reflexivity|].
  exists n. rewrite Hc in Hn. split; [exact Hn|]. intros fuel Hf. destruct (H fuel Hf) as [m' [E' _]]. exists m'. exact E'.
Qed.
