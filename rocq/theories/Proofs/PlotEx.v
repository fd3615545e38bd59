(** Concrete plots. *)
From Coq Require Import String List ZArith QArith Reals Arith Lia Lra Bool.
From Verif.Base Require Import Num Py Arr.
From Verif.Model Require Import Layers Grid Archive Sequence SequenceModel Netcdf OutputWriter Plot.
From Verif.Spec Require Import Strata Column Recording Drawn.
From Verif.Proofs Require Import GridP LayersP SequenceP SequenceModelP NetcdfP OutputP OutputLayersP ModelOutputP ModelFileP OutputRunsP
  SequenceModelEx SequenceEx OutputEx PlotFileP PlotRunsP.
Import ListNotations.
Local Open Scope nat_scope.

(* a coast with the given components, written every k steps *)
Definition ex_file_run {A} `{Num A} (cs : list (component A unit)) (start step : A) (k n : nat) : option (smodel A (unit * (writer A * filesystem A))) :=
  match writer_init (view ex_coast) "out.nc" (IntInterval (Z.of_nat k)) None false None no_files with
  | (fs1, Ok wr) =>
      match model_init (with_output (ex_processes cs)) (tt, (wr, fs1)) ex_coast (clock_init start None step) with
      | Ok m => default_steps n (with_output (ex_processes cs)) m
      | Err _ => None
      end
  | _ => None
  end.
Lemma ex_file_run_run {A} `{Num A} cs start step k n m : ex_file_run cs start step k n = Some m ->
  output_run (ex_processes cs) tt ex_coast start None step "out.nc" k None false no_files n m.
Proof.
  unfold ex_file_run. destruct (writer_init _ _ _ _ _ _ _) as [fs1 [wr|]] eqn:E1; [|discriminate].
  destruct (model_init _ _ _ _) as [m0|] eqn:E2; [|discriminate]. intros E. exists fs1, wr, m0.
  split; [exact E1|]. split; [exact E2|exact E].
Qed.

(* the deposit sinks the cells of the profile, as flexure does, but not the
   boundary of the grid *)
Definition ex_sag : field Q := [[0; 0; 0; 0]; [0; -1 # 1; -1 # 1; 0]; [0; 0; 0; 0]]%Q.
Definition ex_sagging : list (component Q unit) := [ex_lay 1%Q; ex_push ex_sag].
Lemma ex_push_ages {A} `{Num A} {W} d : keeps_ages (@ex_push A _ W d).
Proof.
  intros dt w g w' g' E. unfold ex_push in E. cbn [snd fst] in E. okstep E z Ez. injection E as <- <-. repeat split.
Qed.
Lemma ex_sagging_keeps : Forall keeps_whole ex_sagging /\ Forall keeps_ages ex_sagging.
Proof.
  split; (constructor; [|constructor; [|constructor]]); [apply ex_lay_keeps|apply ex_push_keeps|apply ex_lay_ages|apply ex_push_ages].
Qed.

(* what plot_file shows, and the grid that was written *)
Definition ex_plotted (cs : list (component Q unit)) (start : Q) (k n : nat) (row : option Z)
  : option (result (list (list (option Q))) * list (list (option Q))) :=
  match ex_file_run cs start 1%Q k n with
  | Some m =>
      match run_one_step (with_output (ex_processes cs)) None m,
            (let* g := clear_deposit (sm_grid m) in run_components (pr_components (with_output (ex_processes cs))) 1%Q (sm_world m, g)) with
      | Stepped m', Ok (_, g1) =>
          match file_at (files m') "out.nc", node g1 "bedrock_surface__elevation", rowf g1 "x_of_shore", rowf g1 "x_of_shelf_edge" with
          | Some d, Some b, Some _, Some _ =>
              Some (let* p := plot_file_args d row in Ok (map (map (option_map Qred)) (pa_elevation p)),
                    map (fun k => map (fun j => Some (Qred (top_of_layer b g1 0 j k))) (seq 0 2)) (seq 0 (el_number (layers g1))))
          | _, _, _, _ => None
          end
      | _, _ => None
      end
  | None => None
  end.
(* the cells sank by 2, the plot shows them as if they had not *)
Example ex_plot_sagging : ex_plotted ex_sagging 0 1 2 None
  = Some (Ok [[Some 1; Some (-1 # 1)]; [Some 2; Some 0]; [Some 3; Some 1]]%Q,
          [[Some (-1 # 1); Some (-3 # 1)]; [Some 0; Some (-2 # 1)]; [Some 1; Some (-1 # 1)]]%Q).
Proof. vm_compute. reflexivity. Qed.
Example ex_plot_level : ex_plotted [ex_lay 1%Q] 0 1 2 None
  = Some (Ok [[Some 1; Some (-1 # 1)]; [Some 2; Some 0]; [Some 3; Some 1]]%Q,
          [[Some 1; Some (-1 # 1)]; [Some 2; Some 0]; [Some 3; Some 1]]%Q).
Proof. vm_compute. reflexivity. Qed.
Example ex_plot_one_record : option_map fst (ex_plotted [ex_lay 1%Q] 0 1 0 None) = Some (Err IndexError).
Proof. vm_compute. reflexivity. Qed.
Example ex_plot_late : option_map fst (ex_plotted [ex_lay 1%Q] 5 1 2 None) = Some (Err ValueError).
Proof. vm_compute. reflexivity. Qed.

Definition C65_claim : Prop :=
  forall (pr : processes Q unit) w0 g0 start stop step path k fields clobber fs n m m' g1 b d row i p,
    fresh_grid g0 -> Forall keeps_whole (pr_components pr) -> Forall keeps_ages (pr_components pr) -> 1 <= k ->
    output_run pr w0 g0 start stop step path k fields clobber fs n m -> n mod k = 0 ->
    run_one_step (with_output pr) None m = Stepped m' -> after_components (with_output pr) step m g1 ->
    node g1 "bedrock_surface__elevation" = Some b ->
    file_at (files m') path = Some d -> chosen_row (g_rows g0) row i -> plot_file_args d row = Ok p ->
    forall kk jj, kk < el_number (layers g1) -> jj < g_cols g0 - 2 ->
    exists z, nth jj (nth kk (pa_elevation p) []) None = Some z /\ (z == top_of_layer b g1 i jj kk)%Q.

Lemma ex_plotted_split cs start k n row r : ex_plotted cs start k n row = Some r ->
  exists m m' g1 b d, output_run (ex_processes cs) tt ex_coast start None 1%Q "out.nc" k None false no_files n m
    /\ run_one_step (with_output (ex_processes cs)) None m = Stepped m' /\ after_components (with_output (ex_processes cs)) 1%Q m g1
    /\ node g1 "bedrock_surface__elevation" = Some b /\ file_at (files m') "out.nc" = Some d
    /\ rowf g1 "x_of_shore" <> None /\ rowf g1 "x_of_shelf_edge" <> None
    /\ fst r = (let* p := plot_file_args d row in Ok (map (map (option_map Qred)) (pa_elevation p)))
    /\ snd r = map (fun k => map (fun j => Some (Qred (top_of_layer b g1 0 j k))) (seq 0 2)) (seq 0 (el_number (layers g1))).
Proof.
  unfold ex_plotted. destruct (ex_file_run cs start 1%Q k n) as [m|] eqn:Em; [|discriminate].
  destruct (run_one_step _ None m) as [m'| |] eqn:E1; try discriminate.
  destruct (clear_deposit (sm_grid m)) as [g|] eqn:Eg; [|discriminate]. cbn [bind].
  destruct (run_components _ 1%Q (sm_world m, g)) as [[w1 g1]|] eqn:Ec; [|discriminate].
  destruct (file_at (files m') "out.nc") as [d|] eqn:Ed; [|discriminate].
  destruct (node g1 _) as [b|] eqn:Eb; [|discriminate]. destruct (rowf g1 "x_of_shore") eqn:Es; [|discriminate].
  destruct (rowf g1 "x_of_shelf_edge") eqn:Ee; [|discriminate]. intros E. injection E as <-.
  exists m, m', g1, b, d. split; [apply ex_file_run_run; exact Em|]. split; [exact E1|].
  split; [exists g, w1; split; assumption|]. split; [exact Eb|]. split; [exact Ed|]. rewrite Es, Ee. repeat split; discriminate.
Qed.

Lemma plot_file_refuted : ~ C65_claim.
Proof.
  intros C. destruct (ex_plotted_split _ _ _ _ _ _ ex_plot_sagging) as [m [m' [g1 [b [d [H1 [H2 [H3 [H4 [H5 [_ [_ [H6 H7]]]]]]]]]]]]].
  cbn [fst snd] in H6, H7. destruct (plot_file_args d None) as [p|] eqn:Ep; [|discriminate H6]. cbn [bind] in H6.
  destruct ex_sagging_keeps as [K1 K2].
  assert (Nl : el_number (layers g1) = 3).
  { apply (f_equal (@length _)) in H7. rewrite map_length, seq_length in H7. symmetry. exact H7. }
  destruct (C (ex_processes ex_sagging) tt ex_coast 0%Q None 1%Q "out.nc"%string 1 None false no_files 2 m m' g1 b d None 0 p
       ex_coast_fresh K1 K2 (le_n 1) H1 eq_refl H2 H3 H4 H5) with (kk := 0) (jj := 0) as [z [Z1 Z2]]; try exact Ep; try (cbn; lia).
  { split; [cbn; lia|left; reflexivity]. }
  assert (Inj : forall x y : Q, Some x = Some y -> x = y) by (intros x y X; injection X; auto).
  rewrite Nl in H7. apply (f_equal (fun l => nth 0 (nth 0 l []) None)) in H7. cbn [seq map nth] in H7. apply Inj in H7. rename H7 into T.
  injection H6 as H6. destruct (pa_elevation p) as [|r0 rs]; [discriminate H6|]. cbn [map nth] in H6, Z1.
  destruct r0 as [|z0 r0]; [discriminate H6|]. cbn [map nth] in H6, Z1. subst z0. cbn [option_map] in H6.
  assert (X : Qred z = 1%Q) by congruence. apply Qred_complete in Z2. rewrite X, <- T in Z2. discriminate Z2.
Qed.

Definition C82_claim : Prop :=
  forall (pr : processes Q unit) w0 g0 start stop step path k fields clobber fs n m m' g1 b d row i,
    fresh_grid g0 -> Forall keeps_whole (pr_components pr) -> Forall keeps_ages (pr_components pr) -> 1 <= k -> (0 < step)%Q ->
    output_run pr w0 g0 start stop step path k fields clobber fs n m -> n mod k = 0 ->
    run_one_step (with_output pr) None m = Stepped m' -> after_components (with_output pr) step m g1 ->
    3 <= g_cols g0 ->
    match fields with Some (f :: fl) => In "bedrock_surface__elevation"%string (f :: fl) | _ => True end ->
    node g1 "bedrock_surface__elevation" = Some b ->
    rowf g1 "x_of_shore" <> None -> rowf g1 "x_of_shelf_edge" <> None ->
    file_at (files m') path = Some d -> chosen_row (g_rows g0) row i ->
    exists p, plot_file_args d row = Ok p.
Lemma plot_fails start k n e : option_map fst (ex_plotted [ex_lay 1%Q] start k n None) = Some (Err e) -> 1 <= k -> n mod k = 0 -> ~ C82_claim.
Proof.
  intros E Hk Hn C. destruct (ex_plotted _ _ _ _ _) as [[r1 r2]|] eqn:Ep; [|discriminate E]. cbn [option_map fst] in E.
  destruct (ex_plotted_split _ _ _ _ _ _ Ep) as [m [m' [g1 [b [d [H1 [H2 [H3 [H4 [H5 [H6 [H7 [H8 _]]]]]]]]]]]]].
  destruct (C (ex_processes [ex_lay 1%Q]) tt ex_coast start None 1%Q "out.nc"%string k None false no_files n m m' g1 b d None 0) as [p Hp];
    try assumption; try (cbn; lia).
  - apply ex_coast_fresh.
  - constructor; [apply ex_lay_keeps|constructor].
  - constructor; [apply ex_lay_ages|constructor].
  - reflexivity.
  - split; [cbn; lia|left; reflexivity].
  - cbn [fst] in H8. rewrite Hp in H8. cbn [bind] in H8. congruence.
Qed.
Lemma plot_one_record_refuted : ~ C82_claim.
Proof. apply (plot_fails 0 1 0 IndexError ex_plot_one_record); [lia|reflexivity]. Qed.
Lemma plot_late_refuted : ~ C82_claim.
Proof. apply (plot_fails 5 1 2 ValueError ex_plot_late); [lia|reflexivity]. Qed.

(** ** Plots of grids *)

(* the shore moves by dt each step, the shelf edge stays a column ahead *)
Definition ex_walk : component Q unit :=
  fun dt wg =>
    let x := match rowf (snd wg) "x_of_shore" with Some [Some x] => x | _ => 0%Q end in
    Ok (fst wg, put_rowf (put_rowf (snd wg) "x_of_shore" [Some (x + dt)%Q]) "x_of_shelf_edge" [Some (x + dt + 1)%Q]).
Definition ex_grid_plot (rows : nat) : option (sequence Q unit) :=
  match (let* s := sequence_init tt (ex_beach rows) (1 # 2)%Q in
         seq_calls [ex_rain; ex_sink; ex_walk] [Update None; Run (Some 2%Q) (Some (1 # 2)%Q)] s) with
  | Ok s => Some s
  | Err _ => None
  end.
Definition ex_grid_shown (rows : nat) : option (result (list (list (option Q)) * list (option Q) * list (option Q) * list (option Q))) :=
  option_map (fun s => let* p := plot_grid_args s None in
     Ok (map (map (option_map Qred)) (pa_elevation p), map (option_map Qred) (pa_x p), map (option_map Qred) (pa_shore p), map (option_map Qred) (pa_shelf_edge p)))
    (ex_grid_plot rows).
Definition ex_grid_recorded (rows : nat) :=
  option_map (fun s => (map ge_age (sq_at_layer_grid s), map re_shore (sq_at_layer_row s))) (ex_grid_plot rows).
Example ex_grid_shown_1 : ex_grid_shown 1
  = Some (Ok ([[Some (-1 # 1); Some (-3 # 1)]; [Some (-1 # 2); Some (-5 # 2)]; [Some 0; Some (-2 # 1)];
               [Some (1 # 2); Some (-3 # 2)]; [Some 1; Some (-1 # 1)]],
              [Some 1; Some 2],
              [None; Some (1 # 2); Some 1; Some (3 # 2); Some 2],
              [None; Some (3 # 2); Some 2; Some (5 # 2); Some 3]))%Q.
Proof. vm_compute. reflexivity. Qed.
Example ex_grid_recorded_1 : option_map (fun r => (fst r, map (map (option_map Qred)) (snd r))) (ex_grid_recorded 1)
  = Some ([0; 1 # 2; 1; 3 # 2; 2], map (fun v => repeat v 3) [None; Some (1 # 2); Some 1; Some (3 # 2); Some 2])%Q.
Proof. vm_compute. reflexivity. Qed.
Example ex_grid_shown_2 : ex_grid_shown 2 = Some (Err ValueError).
Proof. vm_compute. reflexivity. Qed.

Definition stages {B C} (init : result B) (run : B -> result C) (test : C -> bool) : bool :=
  match (let* b := init in run b) with Ok c => test c | Err _ => false end.
Lemma stages_ok {B C} (init : result B) (run : B -> result C) (test : C -> bool) : stages init run test = true ->
  exists b c, init = Ok b /\ run b = Ok c /\ test c = true.
Proof. unfold stages. destruct init as [b|]; [|discriminate]. cbn [bind]. destruct (run b) as [c|] eqn:E; [|discriminate]. intros T. exists b, c. auto. Qed.
Definition ex_unplotted (s : sequence Q unit) : bool :=
  match plot_grid_args s None with Err _ => true | Ok _ => false end && negb (Nat.eqb (length (sq_at_layer_row s)) 0).
Definition ex_two_rows_run := seq_calls [ex_rain; ex_sink; ex_walk] [Update None; Run (Some 2%Q) (Some (1 # 2)%Q)].
Lemma ex_two_rows_unplotted :
  stages (sequence_init tt (ex_beach 2) (1 # 2)%Q) ex_two_rows_run ex_unplotted = true.
Proof. vm_compute. reflexivity. Qed.

Lemma plot_grid_refuted : ~ (forall (components : list (component Q unit)) w g step s calls s',
  sequence_init w g step = Ok s -> seq_calls components calls s = Ok s' -> sq_at_layer_row s' <> [] ->
  exists p, plot_grid_args s' None = Ok p).
Proof.
  intros C. destruct (stages_ok _ ex_two_rows_run ex_unplotted ex_two_rows_unplotted) as [s [s' [E0 [E1 T]]]].
  unfold ex_unplotted in T. apply andb_prop in T. destruct T as [T1 T2]. destruct (C _ _ _ _ _ _ _ E0 E1) as [p Ep].
  - intros X. rewrite X in T2. discriminate T2.
  - rewrite Ep in T1. discriminate T1.
Qed.

(** ** Layers *)

Definition ex_layers : plot_args Q := mkPlotArgs [[0; 0]; [1; 1]; [2; 2]; [3; 3]]%Q [0; 1]%Q [1; 1; 1; 1]%Q [1; 1; 1; 1]%Q.
Definition ex_stop (stop : Z) : result (list (drawing Q)) :=
  plot_layers (mkPlotStyle false false false false 0 stop (-1)) ex_layers.
Example ex_stop_2 : ex_stop 2 = Ok [Line [0; 1] [0; 0]; Line [0; 1] [1; 1]; Line [0; 1] [3; 3]]%Q.
Proof. vm_compute. reflexivity. Qed.
Example ex_stop_end : ex_stop (-2) = Ok [Line [0; 1] [0; 0]; Line [0; 1] [1; 1]; Line [0; 1] [2; 2]; Line [0; 1] [3; 3]]%Q.
Proof. vm_compute. reflexivity. Qed.
Lemma layer_stop_refuted : ~ (forall (st : plot_style) (p : plot_args Q) ds k,
  (ps_n_layers st < 0)%Z -> (0 <= ps_start st <= ps_stop st)%Z -> ps_stop st = Z.of_nat k -> k < length (pa_elevation p) ->
  plot_layers st p = Ok ds -> In (Line (pa_x p) (nth k (pa_elevation p) [])) ds).
Proof.
  intros C. pose proof (C (mkPlotStyle false false false false 0 2 (-1)) ex_layers _ 2 ltac:(cbn; lia) ltac:(cbn; lia) eq_refl ltac:(cbn; lia) ex_stop_2) as X. cbn in X.
  intuition discriminate.
Qed.

(* an outline: top seen from column 1 to 2, bottom from 0 to 3 *)
Example ex_outline : (let* o := outline_layer [0; 1; 2; 3]%Q [0; 0; 0; 0]%Q [1; 1; 1; 1]%Q (Some (Some 0, None)) (Some (Some 1, Some 2)) in
   Ok (map Qred (fst o), map Qred (snd o))) = Ok ([2; 1; 0; 1; 2; 3]%Q, [1; 1; 0; 0; 0; 0]%Q).
Proof. vm_compute. reflexivity. Qed.
