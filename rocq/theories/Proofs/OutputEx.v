(** Concrete output files. *)
From Coq Require Import String List ZArith QArith Reals Arith Lia Lra Bool.
From Verif.Base Require Import Num Py Arr.
From Verif.Model Require Import Layers Grid Archive Sequence SequenceModel Netcdf OutputWriter.
From Verif.Spec Require Import Strata Column Recording.
From Verif.Proofs Require Import GridP LayersP SequenceP SequenceModelP NetcdfP OutputP OutputLayersP ModelOutputP ModelFileP OutputRunsP SequenceModelEx.
Import ListNotations.
Local Open Scope nat_scope.

Definition no_files {A} : filesystem A := fun _ => None.

Section Any.
  Context {A : Type} `{Num A}.
  Lemma ex_coast_fresh : fresh_grid (@ex_coast A _).
  Proof.
    split; [apply ex_coast_whole|]. split; [reflexivity|]. intros i j Hi Hj.
    change (el_stacks (layers (@ex_coast A _))) with (full 1 2 (@nil (lcell A))). apply (at2_full (A := list (lcell A))); assumption.
  Qed.
  Lemma ex_coast_recordable : recordable (@ex_coast A _).
  Proof.
    split; [apply ex_coast_whole|]. intros name l [<-|[<-|[]]] E; injection E as <-; reflexivity.
  Qed.
  Lemma ex_lay_ages {W} t : keeps_ages (@ex_lay A W t).
  Proof. intros dt w g w' g' E. injection E as <- <-. split; [reflexivity|split; reflexivity]. Qed.
  Lemma ex_keeps {W} t : Forall keeps_whole [@ex_lay A W t] /\ Forall keeps_ages [@ex_lay A W t].
  Proof. split; constructor; [apply ex_lay_keeps|constructor|apply ex_lay_ages|constructor]. Qed.
End Any.

(* a coast that gets 1 of sediment per step, written every k steps *)
Definition ex_written (start : Q) (k n : nat) : option (smodel Q (unit * (writer Q * filesystem Q))) :=
  match writer_init (view ex_coast) "out.nc" (IntInterval (Z.of_nat k)) None false None no_files with
  | (fs1, Ok wr) =>
      match model_init (with_output (ex_processes [ex_lay 1%Q])) (tt, (wr, fs1)) ex_coast (clock_init start None 1%Q) with
      | Ok m => default_steps n (with_output (ex_processes [ex_lay 1%Q])) m
      | Err _ => None
      end
  | _ => None
  end.
Lemma ex_written_run start k n m : ex_written start k n = Some m ->
  output_run (ex_processes [ex_lay 1%Q]) tt ex_coast start None 1%Q "out.nc" k None false no_files n m.
Proof.
  unfold ex_written. destruct (writer_init _ _ _ _ _ _ _) as [fs1 [wr|]] eqn:E1; [|discriminate].
  destruct (model_init _ _ _ _) as [m0|] eqn:E2; [|discriminate]. intros E. exists fs1, wr, m0.
  split; [exact E1|]. split; [exact E2|exact E].
Qed.
Lemma default_steps_last {A} `{Num A} {W} (pr : processes A W) : forall n m m', default_steps (S n) pr m = Some m' ->
  exists m1, default_steps n pr m = Some m1 /\ run_one_step pr None m1 = Stepped m'.
Proof.
  induction n as [|n IH]; intros m m' E.
  - cbn [default_steps] in *. exists m. split; [reflexivity|]. destruct (run_one_step pr None m); congruence.
  - cbn [default_steps] in E |- *. destruct (run_one_step pr None m) as [m1| |] eqn:E1; try discriminate E.
    change (default_steps (S n) pr m1 = Some m') in E. apply IH in E. exact E.
Qed.
(* n steps and one more that writes *)
Lemma ex_written_last start k n : (match ex_written start k (S n) with Some _ => true | None => false end) = true ->
  exists m m', ex_written start k n = Some m /\ run_one_step (with_output (ex_processes [ex_lay 1%Q])) None m = Stepped m'.
Proof.
  destruct (ex_written start k (S n)) as [m'|] eqn:E; [|discriminate]. intros _.
  unfold ex_written in *. destruct (writer_init _ _ _ _ _ _ _) as [fs1 [wr|]]; [|discriminate].
  destruct (model_init _ _ _ _) as [m0|]; [|discriminate]. apply default_steps_last in E. destruct E as [m1 [E1 E2]].
  exists m1, m'. split; [exact E1|exact E2].
Qed.

(* records, times, layers in the file and layers of the grid then *)
Definition ex_summary (start : Q) (k n : nat) : option (list Q * nat * list (option Q)) :=
  match ex_written start k n with
  | Some m => match file_at (files m) "out.nc" with
              | Some d => Some (map Qred (ds_time d), length (layer_var d "thickness"),
                                map (fun f => match f with Some f => option_map Qred (at2 None f 0 0) | None => None end) (layer_var d "age"))
              | None => None
              end
  | None => None
  end.
Example ex_summary_1 : ex_summary 0 1 2 = Some ([0; 1]%Q, 2, [Some 0; Some 1]%Q).
Proof. vm_compute. reflexivity. Qed.
Example ex_summary_2 : ex_summary 5 2 4 = Some ([0; 2]%Q, 3, [Some 5; Some 6; Some 7]%Q).
Proof. vm_compute. reflexivity. Qed.
(* 20 steps: 11 layers on the grid, 19 in the file: the last 8 are from the
   write before *)
Example ex_summary_stale : ex_summary 0 1 20
  = Some (map inject_Z (map Z.of_nat (seq 0 20)), 19,
      map (fun i => Some (inject_Z (Z.of_nat i))) (seq 9 11 ++ seq 11 8)).
Proof. vm_compute. reflexivity. Qed.

(** C57 *)
Lemma records_file {A} `{Num A} (g0 : gview A) path interval fields clobber rows fs fs1 w N calls w' fs' :
  writer_init g0 path interval fields clobber rows fs = (fs1, Ok w) ->
  Forall (fun c => with_nodes N (fst c)) calls ->
  run_writer calls (w, fs1) = Ok (w', fs') -> calls <> [] ->
  exists k d, interval = IntInterval (Z.of_nat k) /\ 1 <= k /\ file_at fs' path = Some d
    /\ ds_time d = map (fun j => elapsed (firstn (j * k) calls)) (seq 0 (records (length calls) k))
    /\ forall j, j < records (length calls) k ->
         exists g dt, nth_error calls (j * k) = Some (g, dt)
         /\ forall name l, match fields with Some (f :: fl) => In name (f :: fl) | _ => True end ->
              field_at g "node" name = Some (Vector l) -> record_of d ("at_node:" ++ name)%string j = Some l.
Proof.
  intros Ei Hn E Hne. destruct (init_clears _ _ _ _ _ _ _ _ _ Ei) as [_ [_ [_ [_ [_ [[z [Ez [Ez' _]]] _]]]]]].
  destruct (writer_records _ _ _ _ _ _ _ _ _ N calls w' fs' Ei Hn E Hne) as [k [d [Ek [Hk [Hd [Ht Hg]]]]]].
  exists k, d. split; [congruence|]. split; [exact Hk|]. split; [unfold file_at; rewrite Hd; reflexivity|]. split; [exact Ht|].
  intros j Hj. destruct (Hg j Hj) as [g [dt [E1 G]]]. exists g, dt. split; [exact E1|].
  intros name l Hf. apply G. destruct fields as [[|f fl]|]; auto.
Qed.

(** C58 *)
Section Files.
  Context {A : Type} `{Num A}.
  Lemma clear_without_clobber path (fs : filesystem A) fs' r : clear_path false path fs = (fs', r) ->
    fs' = fs /\ (is_file fs path = true -> exists e, r = Err e).
  Proof.
    unfold clear_path. destruct (is_file fs path) eqn:Ef; cbn [andb negb].
    - intros E. injection E as <- <-. eauto.
    - unfold is_file in Ef. destruct (fs path) as [[| |]|]; try discriminate Ef; intros E; injection E as <- <-; split; auto; discriminate.
  Qed.
  Lemma clear_with_clobber path (fs : filesystem A) fs' u : clear_path true path fs = (fs', Ok u) -> fs' path = None.
  Proof.
    unfold clear_path. rewrite andb_false_r. destruct (fs path) as [[d| |]|] eqn:Ep; intros E; try discriminate E;
      injection E as <- <-; try exact Ep; unfold fs_set; rewrite String.eqb_refl; reflexivity.
  Qed.
  Lemma clear_others clobber path (fs : filesystem A) fs' r p : clear_path clobber path fs = (fs', r) -> p <> path -> fs' p = fs p.
  Proof.
    unfold clear_path. destruct (is_file fs path && negb clobber)%bool; [intros E; injection E as <- <-; reflexivity|].
    intros E Hp. destruct (fs path) as [[d| |]|] eqn:Ep; injection E as <- <-; try reflexivity;
      unfold fs_set; destruct (String.eqb_spec p path); try contradiction; reflexivity.
  Qed.
  Lemma init_files (g : gview A) path interval fields clobber rows fs fs' r :
    writer_init g path interval fields clobber rows fs = (fs', r) ->
    (clobber = false -> fs' = fs /\ (is_file fs path = true -> exists e, r = Err e))
    /\ (clobber = true -> (exists w, r = Ok w) -> fs' path = None)
    /\ (forall p, p <> path -> fs' p = fs p).
  Proof.
    unfold writer_init. destruct (check_interval interval) as [k|e].
    - destruct (clear_path clobber path fs) as [f1 [u|e]] eqn:Ec; intros E; injection E as <- <-.
      + split; [intros ->; destruct (clear_without_clobber _ _ _ _ Ec) as [a b]; split; [exact a|intros X; destruct (b X); discriminate]|].
        split; [intros -> _; exact (clear_with_clobber _ _ _ _ Ec)|intros p; apply (clear_others _ _ _ _ _ _ Ec)].
      + split; [intros ->; destruct (clear_without_clobber _ _ _ _ Ec) as [a b]; split; [exact a|eauto]|].
        split; [intros _ [w X]; discriminate X|intros p; apply (clear_others _ _ _ _ _ _ Ec)].
    - intros E. injection E as <- <-. split; [eauto|]. split; [intros _ [w X]; discriminate X|reflexivity].
  Qed.
  Lemma setter_files path (w w' : writer A) fs fs' r : set_filepath path w fs = (w', fs', r) ->
    (ow_clobber w = false -> fs' = fs /\ (is_file fs path = true -> w' = w /\ exists e, r = Err e))
    /\ (ow_clobber w = true -> r = Ok tt -> fs' path = None /\ ow_path w' = path)
    /\ (forall p, p <> path -> fs' p = fs p).
  Proof.
    unfold set_filepath. destruct (clear_path (ow_clobber w) path fs) as [f1 r1] eqn:Ec. intros E. injection E as <- <- <-.
    split; [|split].
    - intros Hc. rewrite Hc in *. destruct (clear_without_clobber _ _ _ _ Ec) as [a b]. split; [exact a|]. intros Hf.
      rewrite Hf. cbn. split; [reflexivity|auto].
    - intros Hc Hr. rewrite Hc in *. subst r1. split; [exact (clear_with_clobber _ _ _ _ Ec)|]. rewrite andb_false_r. reflexivity.
    - intros p. apply (clear_others _ _ _ _ _ _ Ec).
  Qed.
  (* C59 *)
  Lemma interval_works k (g : grid A) path fields clobber fs fs1 w : recordable g -> (1 <= k)%Z ->
    writer_init (view g) path (IntInterval k) fields clobber None fs = (fs1, Ok w) ->
    forall calls : list (grid A * option A),
      Forall (fun c => recordable (fst c) /\ g_rows (fst c) = g_rows g /\ g_cols (fst c) = g_cols g) calls ->
      exists wf, run_writer (map (fun c => (view (fst c), snd c)) calls) (w, fs1) = Ok wf.
  Proof.
    intros Hg Hk Ei calls Hall. destruct (init_clears _ _ _ _ _ _ _ _ _ Ei) as [Hn [Hp [Hc [_ [_ [[k' [Ek [Ek' _]]] Hr]]]]]].
    injection Ek as <-.
    destruct (run_ok (g_rows g) (g_cols g) w fs1) with (calls := calls) as [w' [fs' [E _]]].
    - rewrite Ek'. exact Hk.
    - rewrite Hp. exact Hn.
    - rewrite Hr, map_length, seq_length. reflexivity.
    - rewrite Hr. apply rows_all.
    - exact Hc.
    - exact Hall.
    - eauto.
  Qed.
End Files.

Definition C59_claim : Prop :=
  forall k (g : grid Q) path fields clobber fs fs1 w, recordable g ->
    writer_init (view g) path (IntInterval k) fields clobber None fs = (fs1, Ok w) ->
    forall calls : list (grid Q * option Q),
      Forall (fun c => recordable (fst c) /\ g_rows (fst c) = g_rows g /\ g_cols (fst c) = g_cols g) calls ->
      exists wf, run_writer (map (fun c => (view (fst c), snd c)) calls) (w, fs1) = Ok wf.
Lemma interval_refuted : ~ C59_claim.
Proof.
  intros C. destruct (C 0%Z ex_coast "out.nc"%string None false no_files no_files _ ex_coast_recordable eq_refl [(ex_coast, None)]) as [wf E].
  - constructor; [|constructor]. split; [apply ex_coast_recordable|split; reflexivity].
  - discriminate E.
Qed.

(** C60 and C61 *)
Definition C60_claim : Prop :=
  forall (pr : processes Q unit) g0 start stop step path k fields clobber fs n m m' g1,
  fresh_grid g0 -> Forall keeps_whole (pr_components pr) -> Forall keeps_ages (pr_components pr) -> 1 <= k ->
  output_run pr tt g0 start stop step path k fields clobber fs n m -> n mod k = 0 ->
  run_one_step (with_output pr) None m = Stepped m' -> after_components (with_output pr) step m g1 ->
  exists d, file_at (files m') path = Some d
    /\ forall name, In name (layer_names (layers g1)) -> layer_var d name = map Some (layer_values (layers g1) name).
Section Layers.
  Context {A : Type} `{Num A} {W : Type}.
  Lemma file_layers (pr : processes A W) w0 g0 start stop step path k fields clobber fs n m m' g1 :
    fresh_grid g0 -> Forall keeps_whole (pr_components pr) -> Forall keeps_ages (pr_components pr) -> 1 <= k ->
    output_run pr w0 g0 start stop step path k fields clobber fs n m -> n mod k = 0 ->
    run_one_step (with_output pr) None m = Stepped m' -> after_components (with_output pr) step m g1 ->
    exists d, file_at (files m') path = Some d
      /\ forall name, In name (layer_names (layers g1)) ->
           exists stale, layer_var d name = map Some (layer_values (layers g1) name) ++ stale
           /\ (steady_interval k = true -> stale = []).
  Proof.
    intros Hf Hw Ha Hk Hr Hn E Hac. pose proof (Nat.div_mod n k ltac:(lia)) as D. rewrite Hn, Nat.add_0_r, Nat.mul_comm in D.
    rewrite D in Hr. destruct (model_file _ _ _ _ _ _ _ _ _ _ _ _ _ _ Hf Hw Ha Hk Hr E) as [g [d [Hg [Hd [_ [_ [_ [_ [Hl _]]]]]]]]].
    assert (g = g1) by (eapply after_components_fun; eassumption). subst g. exists d. split; [exact Hd|].
    intros name I. rewrite <- layer_data_values. exact (Hl name I).
  Qed.
  Lemma file_stale k : 1 <= k -> steady_interval k = false -> exists n, n mod k = 0 /\
    forall (pr : processes A W) w0 g0 start stop step path fields clobber fs m m' g1,
    fresh_grid g0 -> Forall keeps_whole (pr_components pr) -> Forall keeps_ages (pr_components pr) ->
    output_run pr w0 g0 start stop step path k fields clobber fs n m ->
    run_one_step (with_output pr) None m = Stepped m' -> after_components (with_output pr) step m g1 ->
    exists d, file_at (files m') path = Some d /\ el_number (layers g1) < length (layer_var d "thickness").
  Proof.
    intros Hk Hs. destruct (unsteady k Hs) as [j Hj]. exists (S j * k). split; [apply Nat.mod_mul; lia|].
    intros pr w0 g0 start stop step path fields clobber fs m m' g1 Hf Hw Ha Hr E Hac.
    destruct (model_file _ _ _ _ _ _ _ _ _ _ _ _ _ _ Hf Hw Ha Hk Hr E) as [g [d [Hg [Hd [_ [En [_ [_ [_ [_ Hl]]]]]]]]]].
    assert (g = g1) by (eapply after_components_fun; eassumption). subst g. exists d. split; [exact Hd|].
    rewrite En. specialize (Hl j ltac:(lia)). lia.
  Qed.
  (* the newest layer *)
  Lemma file_age (pr : processes A W) w0 g0 start stop step path k fields clobber fs n m m' g1 :
    fresh_grid g0 -> Forall keeps_whole (pr_components pr) -> Forall keeps_ages (pr_components pr) -> 1 <= k ->
    output_run pr w0 g0 start stop step path k fields clobber fs n m -> n mod k = 0 ->
    run_one_step (with_output pr) None m = Stepped m' -> after_components (with_output pr) step m g1 ->
    exists d, file_at (files m') path = Some d
      /\ nth_error (ds_time d) (length (ds_time d) - 1) = Some (after_steps n0 step n)
      /\ nth_error (layer_var d "age") (el_number (layers g1) - 1)
         = Some (Some (full (g_rows g0) (g_cols g0 - 2) (Some (after_steps start step n)))).
  Proof.
    intros Hf Hw Ha Hk Hr Hn E Hac. pose proof (Nat.div_mod n k ltac:(lia)) as D. rewrite Hn, Nat.add_0_r, Nat.mul_comm in D.
    rewrite D in Hr. destruct (model_file _ _ _ _ _ _ _ _ _ _ _ _ _ _ Hf Hw Ha Hk Hr E)
      as [g [d [Hg [Hd [Ht [_ [_ [Htop [Hl [Hage _]]]]]]]]]]. rewrite <- D in Htop.
    assert (g = g1) by (eapply after_components_fun; eassumption). subst g. exists d. split; [exact Hd|]. split.
    - rewrite Ht, map_length, seq_length. replace (S (n / k) - 1) with (n / k) by lia. rewrite nth_error_map.
      rewrite (nth_error_nth' _ 0) by (rewrite seq_length; lia). rewrite seq_nth by lia. cbn [option_map plus]. rewrite <- D. reflexivity.
    - destruct (Hl "age"%string) as [rest [-> _]]; [apply in_or_app; left; exact Hage|].
      rewrite nth_error_app1; [|apply nth_error_Some; rewrite nth_error_map, Htop; discriminate].
      rewrite nth_error_map, Htop. reflexivity.
  Qed.
End Layers.

Lemma layers_refuted : ~ C60_claim.
Proof.
  intros C. destruct (ex_written_last 0 1 19) as [m [m' [E1 E2]]]; [vm_compute; reflexivity|].
  apply ex_written_run in E1. destruct (@ex_keeps Q unit 1%Q) as [K1 K2].
  destruct (model_file (ex_processes [ex_lay 1%Q]) tt ex_coast 0%Q None 1%Q "out.nc" 1 None false no_files 19 m m'
              ex_coast_fresh K1 K2 ltac:(lia) E1 E2) as [g1 [d [Hg [Hd [_ [En [_ [_ [_ [_ Hl]]]]]]]]]].
  destruct (C (ex_processes [ex_lay 1%Q]) _ _ _ _ _ _ _ _ _ _ _ _ g1 ex_coast_fresh K1 K2 (le_n 1) E1 eq_refl E2 Hg) as [d' [Hd' X]].
  assert (d' = d) by congruence. subst d'.
  specialize (X "thickness"%string ltac:(apply in_or_app; right; left; reflexivity)).
  specialize (Hl 18 ltac:(lia)). rewrite X, map_length, <- layer_data_values, layer_data_length, En in Hl. vm_compute in Hl. lia.
Qed.

Definition C61_claim : Prop :=
  forall (pr : processes Q unit) g0 start stop step path k fields clobber fs n m m' g1,
  fresh_grid g0 -> Forall keeps_whole (pr_components pr) -> Forall keeps_ages (pr_components pr) -> 1 <= k ->
  output_run pr tt g0 start stop step path k fields clobber fs n m -> n mod k = 0 ->
  run_one_step (with_output pr) None m = Stepped m' -> after_components (with_output pr) step m g1 ->
  exists d t, file_at (files m') path = Some d
    /\ nth_error (ds_time d) (length (ds_time d) - 1) = Some t
    /\ nth_error (layer_var d "age") (el_number (layers g1) - 1) = Some (Some (full (g_rows g0) (g_cols g0 - 2) (Some t))).
Lemma age_refuted : ~ C61_claim.
Proof.
  intros C. destruct (ex_written_last 5 1 0) as [m [m' [E1 E2]]]; [vm_compute; reflexivity|].
  apply ex_written_run in E1. destruct (@ex_keeps Q unit 1%Q) as [K1 K2].
  destruct (model_file (ex_processes [ex_lay 1%Q]) tt ex_coast 5%Q None 1%Q "out.nc" 1 None false no_files 0 m m'
              ex_coast_fresh K1 K2 ltac:(lia) E1 E2) as [g1 [_ [Hg _]]].
  destruct (file_age (ex_processes [ex_lay 1%Q]) _ _ _ _ _ _ _ _ _ _ _ _ _ g1 ex_coast_fresh K1 K2 (le_n 1) E1 eq_refl E2 Hg) as [d [Hd [Ht Ha]]].
  destruct (C (ex_processes [ex_lay 1%Q]) _ _ _ _ _ _ _ _ _ _ _ _ g1 ex_coast_fresh K1 K2 (le_n 1) E1 eq_refl E2 Hg) as [d' [t [Hd' [Ht' Ha']]]].
  assert (d' = d) by congruence. subst d'. rewrite Ht in Ht'. injection Ht' as <-. rewrite Ha in Ha'.
  vm_compute in Ha'. discriminate Ha'.
Qed.

(** C62 *)
Definition C62_claim : Prop :=
  forall (g : gview Q) path time at_ ids names wl fs fs' d loc l,
  to_netcdf g path false time at_ ids names wl fs = Ok fs' -> file_at fs' path = Some d ->
  NoDup at_ -> ~ In "row"%string at_ -> In loc at_ -> requested names loc l ->
  forall name, has_variable d loc name -> In name l.
Local Notation ex_selected names :=
  (to_netcdf (view ex_coast) "out.nc" false 0%Q ["node"; "grid"]%string (SameIds All) names false no_files).
Lemma names_refuted : ~ C62_claim.
Proof.
  intros C. destruct (ex_selected (NamesAt [("node"%string, Names [])])) as [fs|] eqn:E; [|vm_compute in E; discriminate E].
  destruct (file_at fs "out.nc") as [d|] eqn:Ed; [|vm_compute in E; injection E as <-; vm_compute in Ed; discriminate Ed].
  assert (P1 : NoDup ["node"; "grid"]%string) by (repeat constructor; cbn; intuition discriminate).
  assert (P2 : ~ In "row"%string ["node"; "grid"]%string) by (cbn; intuition discriminate).
  assert (X := C (view ex_coast) "out.nc"%string 0%Q ["node"; "grid"]%string (SameIds All) (NamesAt [("node"%string, Names [])]) false no_files
           fs d "node"%string [] E Ed P1 P2 (or_introl eq_refl) eq_refl "topographic__elevation"%string).
  apply X. clear X C P1 P2.
  assert (Y : match ex_selected (NamesAt [("node"%string, Names [])]) with
              | Ok fs => match file_at fs "out.nc" with
                         | Some d => dget String.eqb (ds_fields d) (var_name "topographic__elevation" "node") <> None
                         | None => True
                         end
              | Err _ => True
              end) by (vm_compute; discriminate).
  rewrite E, Ed in Y. exact Y.
Qed.
(* a name that is a field somewhere else *)
Example ex_wrong_location : match ex_selected (SameNames (Name "topographic__elevation")) with
  | Ok fs => option_map (fun d => map fst (ds_fields d)) (file_at fs "out.nc") | Err _ => None end
  = Some ["at_node:topographic__elevation"; "at_grid:sea_level__elevation"; "at_row:x_of_shore"; "at_row:x_of_shelf_edge"]%string.
Proof. vm_compute. reflexivity. Qed.
Example ex_right_names : match ex_selected (NamesAt [("node", Name "topographic__elevation"); ("grid", Names ["sea_level__elevation"; "other"])])%string with
  | Ok fs => option_map (fun d => map fst (ds_fields d)) (file_at fs "out.nc") | Err _ => None end
  = Some ["at_node:topographic__elevation"; "at_grid:sea_level__elevation"; "at_row:x_of_shore"; "at_row:x_of_shelf_edge"]%string.
Proof. vm_compute. reflexivity. Qed.

(** C77 *)
Section Rows.
  Context {A : Type} `{Num A}.
  Lemma rows_subset_fails (g : grid A) path interval fields clobber rows fs fs1 w dt calls wf : whole_grid g ->
    2 <= g_rows g -> 3 <= g_cols g -> 1 <= el_number (layers g) -> length rows <> g_rows g ->
    writer_init (view g) path interval fields clobber (Some rows) fs = (fs1, Ok w) ->
    run_writer ((view g, dt) :: calls) (w, fs1) <> Ok wf.
  Proof.
    intros Hw HR HC Hn Hl Ei E. destruct (init_clears _ _ _ _ _ _ _ _ _ Ei) as [Hnone [Hp [Hc [_ [_ [_ Hrows]]]]]].
    unfold run_writer in E. cbn [foldM fst snd] in E. destruct (writer_step (view g) dt (w, fs1)) as [[w1 fs2]|] eqn:E1; [|discriminate E].
    destruct (writer_step_spec _ _ _ _ _ _ E1) as [Hk [_ [D1 _]]].
    assert (Hdue : due w) by (unfold due; rewrite Hc; apply Z.mod_0_l; exact Hk).
    destruct (D1 Hdue) as [d [Hwr _]]. rewrite Hp, Hnone in Hwr. revert Hwr. apply rows_subset; try assumption.
    - rewrite Hrows, map_length. intros X. apply Hl. symmetry. exact X.
    - apply (proj1 Hw).
    - exact I.
  Qed.
  Lemma rows_all_work (g : grid A) k path fields clobber rows fs fs1 w : recordable g -> (1 <= k)%Z ->
    length rows = g_rows g -> Forall (fun i => (1 <= i <= Z.of_nat (g_rows g))%Z) rows ->
    writer_init (view g) path (IntInterval k) fields clobber (Some rows) fs = (fs1, Ok w) ->
    forall calls : list (grid A * option A),
      Forall (fun c => recordable (fst c) /\ g_rows (fst c) = g_rows g /\ g_cols (fst c) = g_cols g) calls ->
      exists wf, run_writer (map (fun c => (view (fst c), snd c)) calls) (w, fs1) = Ok wf.
  Proof.
    intros Hg Hk Hl Hv Ei calls Hall. destruct (init_clears _ _ _ _ _ _ _ _ _ Ei) as [Hn [Hp [Hc [_ [_ [[k' [Ek [Ek' _]]] Hr]]]]]].
    injection Ek as <-.
    destruct (run_ok (g_rows g) (g_cols g) w fs1) with (calls := calls) as [w' [fs' [E _]]].
    - rewrite Ek'. exact Hk.
    - rewrite Hp. exact Hn.
    - rewrite Hr, map_length. exact Hl.
    - rewrite Hr. apply Forall_map. eapply Forall_impl; [|exact Hv]. cbn. intros i Hi. lia.
    - exact Hc.
    - exact Hall.
    - eauto.
  Qed.
  (* two rows, one layer *)
  Definition ex_two : grid A :=
    mkGrid 2 3 n1 n1
      [("topographic__elevation"%string, full 4 3 n0); ("bedrock_surface__elevation"%string, full 4 3 (nofZ (-1)));
       ("sediment_deposit__thickness"%string, full 4 3 n0)]
      [("sea_level__elevation"%string, n0)]
      [("x_of_shore"%string, [Some n0; Some n1]); ("x_of_shelf_edge"%string, [None; None])]
      (mkLayers 1 ["age"%string] (full 2 1 [mkCell n1 [("age"%string, n0)]])).
  Lemma ex_two_recordable : recordable ex_two.
  Proof.
    split.
    - split.
      + split; [cbn; lia|]. do 3 (split; [eexists; split; [reflexivity|apply shaped_full]|]). apply shaped_full.
      + intros name f E. unfold node, ex_two in E. cbn [at_node dget] in E. change (shaped 4 3 f).
        assert (X : forall a b : field A, Some a = Some b -> a = b) by congruence.
        repeat (match type of E with (if ?b then _ else _) = _ => destruct b end; [apply X in E; rewrite <- E; apply shaped_full|]).
        discriminate E.
    - intros name l [<-|[<-|[]]] E; injection E as <-; reflexivity.
  Qed.
End Rows.
Definition C77_claim : Prop :=
  forall k (g : grid Q) path fields clobber rows fs fs1 w, recordable g -> (1 <= k)%Z ->
    rows <> [] -> NoDup rows -> Forall (fun i => (1 <= i <= Z.of_nat (g_rows g))%Z) rows ->
    writer_init (view g) path (IntInterval k) fields clobber (Some rows) fs = (fs1, Ok w) ->
    forall calls : list (grid Q * option Q),
      Forall (fun c => recordable (fst c) /\ g_rows (fst c) = g_rows g /\ g_cols (fst c) = g_cols g) calls ->
      exists wf, run_writer (map (fun c => (view (fst c), snd c)) calls) (w, fs1) = Ok wf.
Lemma rows_refuted : ~ C77_claim.
Proof.
  intros C.
  destruct (writer_init (view (@ex_two Q _)) "out.nc" (IntInterval 1) None false (Some [1%Z]) no_files) as [fs1 [w|]] eqn:Ei; [|discriminate Ei].
  assert (P1 : Forall (fun i => (1 <= i <= Z.of_nat (g_rows (@ex_two Q _)))%Z) [1%Z]) by (constructor; [cbn; lia|constructor]).
  assert (P2 : NoDup [1%Z]) by (repeat constructor; intros []).
  destruct (C 1%Z ex_two "out.nc"%string None false [1%Z] no_files fs1 w ex_two_recordable (Z.le_refl 1) ltac:(discriminate) P2 P1 Ei
              [(ex_two, None)]) as [wf E].
  - constructor; [|constructor]. split; [apply ex_two_recordable|split; reflexivity].
  - revert E. cbn [map fst snd].
    apply (rows_subset_fails ex_two "out.nc" (IntInterval 1) None false [1%Z] no_files); try (cbn; lia);
      [apply (proj1 ex_two_recordable)|exact Ei].
Qed.

(** C78 *)
Definition C78_claim : Prop :=
  forall (g : grid R) path interval fields clobber fs fs1 w dt w' fs' d,
  writer_init (view g) path interval fields clobber None fs = (fs1, Ok w) -> 2 <= g_cols g ->
  writer_step (view g) dt (w, fs1) = Ok (w', fs') -> file_at fs' path = Some d ->
  exists xs xc, dget String.eqb (ds_coords d) "x_of_column"%string = Some xs
    /\ dget String.eqb (ds_coords d) "x_of_cell"%string = Some xc
    /\ forall i j, i < g_rows g -> j < g_cols g - 2 -> nth j xs None = nth (i * (g_cols g - 2) + j) xc None.
Lemma nth_concat {B} n m (f : field B) (d : B) i j : shaped n m f -> i < n -> j < m ->
  nth (i * m + j) (concat f) d = at2 d f i j.
Proof.
  intros [Hn Hf]. subst n. revert i. induction f as [|r f IH]; intros i Hi Hj; cbn in Hi; [lia|].
  assert (Lr : length r = m) by (apply Hf; left; reflexivity). destruct i as [|i]; cbn [concat].
  - rewrite app_nth1 by (cbn; lia). reflexivity.
  - rewrite app_nth2 by (rewrite Lr; cbn; lia). replace (S i * m + j - length r) with (i * m + j) by (cbn; lia).
    rewrite IH; [reflexivity| |lia|lia]. intros r' Hr. apply Hf. right. exact Hr.
Qed.
Section Coords.
  Context {A : Type} `{Num A}.
  Lemma coordinates_file (g : grid A) path interval fields clobber fs fs1 w dt w' fs' :
    writer_init (view g) path interval fields clobber None fs = (fs1, Ok w) -> 2 <= g_cols g ->
    writer_step (view g) dt (w, fs1) = Ok (w', fs') ->
    exists d xcol yrow xcell ycell, file_at fs' path = Some d
    /\ dget String.eqb (ds_coords d) "x_of_column"%string = Some xcol
    /\ dget String.eqb (ds_coords d) "y_of_row"%string = Some yrow
    /\ dget String.eqb (ds_coords d) "x_of_cell"%string = Some xcell
    /\ dget String.eqb (ds_coords d) "y_of_cell"%string = Some ycell
    /\ length xcol = g_cols g - 2 /\ length yrow = g_rows g
    /\ forall i j, i < g_rows g -> j < g_cols g - 2 ->
         nth j xcol None = Some (nofnat j * g_dx g)%num /\ nth i yrow None = Some (nofnat i * g_dy g)%num
         /\ nth (i * (g_cols g - 2) + j) xcell None = Some (nofnat (S j) * g_dx g)%num
         /\ nth (i * (g_cols g - 2) + j) ycell None = Some (nofnat (S i) * g_dy g)%num.
  Proof.
    intros Ei HC E. destruct (coordinates_written g g _ _ _ _ _ _ _ _ _ _ Ei eq_refl HC E) as [d [Hd [a [b [c e]]]]].
    exists d. do 4 eexists. split; [exact Hd|]. split; [exact a|]. split; [exact b|]. split; [exact c|]. split; [exact e|].
    rewrite !map_length, !seq_length. split; [reflexivity|]. split; [reflexivity|]. intros i j Hi Hj.
    assert (N1 : forall (f : nat -> option A) n k, k < n -> nth k (map f (seq 0 n)) None = f k).
    { intros f n k Hk. rewrite nth_map' with (da := 0) by (rewrite seq_length; exact Hk). rewrite seq_nth by exact Hk. reflexivity. }
    assert (N2 : forall (f : nat -> nat -> option A),
      nth (i * (g_cols g - 2) + j) (concat (map (fun i => map (f i) (seq 0 (g_cols g - 2))) (seq 0 (g_rows g)))) None = f i j).
    { intros f. rewrite (nth_concat (g_rows g)); [|split|exact Hi|exact Hj].
      - unfold at2. rewrite nth_map' with (da := 0) by (rewrite seq_length; exact Hi). rewrite seq_nth by exact Hi. apply N1. exact Hj.
      - rewrite map_length, seq_length. reflexivity.
      - intros r Hr. apply in_map_iff in Hr. destruct Hr as [x [<- _]]. rewrite map_length, seq_length. reflexivity. }
    split; [apply N1; exact Hj|]. split; [apply N1; exact Hi|].
    split; [apply (N2 (fun _ j => Some (nofnat (S j) * g_dx g)%num))|apply (N2 (fun i _ => Some (nofnat (S i) * g_dy g)%num))].
  Qed.
End Coords.
Lemma coordinates_refuted : ~ C78_claim.
Proof.
  intros C. set (g := @ex_coast R _).
  destruct (writer_init (view g) "out.nc" (IntInterval 1) None false None no_files) as [fs1 [w|]] eqn:Ei; [|discriminate Ei].
  destruct (interval_works 1 g "out.nc" None false no_files fs1 w ex_coast_recordable (Z.le_refl 1) Ei [(g, None)]) as [[w' fs'] E].
  { constructor; [|constructor]. split; [apply ex_coast_recordable|split; reflexivity]. }
  unfold run_writer in E. cbn [map foldM fst snd] in E.
  destruct (writer_step (view g) None (w, fs1)) as [[w2 fs2]|] eqn:E1; [|discriminate E]. clear E.
  assert (HC : 2 <= g_cols g) by (cbn; lia).
  destruct (coordinates_file g _ _ _ _ _ _ _ _ _ _ Ei HC E1) as [d [xcol [yrow [xcell [ycell [Hd [a [b [c [e [_ [_ f]]]]]]]]]]]].
  destruct (C g _ _ _ _ _ _ _ _ _ _ d Ei HC E1 Hd) as [xs [xc [a' [c' F]]]].
  rewrite a in a'. rewrite c in c'. injection a' as <-. injection c' as <-.
  assert (h1 : 0 < g_rows g) by (cbn; lia). assert (h2 : 0 < g_cols g - 2) by (cbn; lia).
  specialize (F 0 0 h1 h2). destruct (f 0 0 h1 h2) as [f1 [_ [f3 _]]]. rewrite f1, f3 in F. injection F as F.
  unfold g, ex_coast in F. cbn [g_dx] in F. rewrite !nofnat_R in F. cbn in F. rewrite n1_R in F. cbn in F. lra.
Qed.

(** C79 *)
Definition C79_claim : Prop :=
  forall (g : grid Q) path time fs, recordable g -> is_file fs path = false -> fs path <> Some Directory ->
  exists fs', to_netcdf (view g) path false time default_at (SameIds All) (SameNames NoNames) true fs = Ok fs'.
Definition ex_layered : grid Q := set_layers ex_coast (mkLayers 1 ["age"%string] (full 1 2 [mkCell 1%Q [("age"%string, 0%Q)]])).
Lemma ex_layered_recordable : recordable ex_layered.
Proof.
  destruct (@ex_coast_recordable Q _) as [Hw Hr]. split; [|exact Hr]. apply whole_layers; [|exact Hw]. apply shaped_full.
Qed.
Lemma default_refuted : ~ C79_claim.
Proof.
  intros C. destruct (C ex_layered "out.nc"%string 0%Q no_files ex_layered_recordable eq_refl ltac:(discriminate)) as [fs' E].
  revert E. apply default_layers; [apply ex_layered_recordable|cbn; lia|cbn; lia|cbn; lia|left; reflexivity].
Qed.
