(** A model in doubles. *)
From Coq Require Import String List ZArith QArith Reals Lra Lia Bool Arith Floats.SpecFloat.
From Flocq Require Import Core.
From Verif.Base Require Import Num Py Arr.
From Verif.Model Require Import Layers Grid Interp SeaLevel Subsidence Csv SequenceModel Setattr Processes Whole.
From Verif.Spec Require Import Doubles Session Configured Followed DoubleSinking.
From Verif.Proofs Require Import ScriptEx WholeEx SinkP DoubleP DoubleSeaEx DoubleSinkP.
Import ListNotations.
Local Open Scope string_scope.

(* stand-ins for the functions of the library in doubles *)
Definition double_trans : Trans b64 :=
  {| nexp := fun _ => nlit (1 # 2); nsin := fun x => x; ncos := fun x => x; nsqrt := fun x => x; npi := nlit 3 |}.
Definition ex_double_linear (_ _ : list b64) : result (b64 -> b64) :=
  Ok (fun v => if neqb v (nlit 1500) then n0 else if nleb v (nlit 1500) then n1 else nlit (-1 # 1)).
Definition ex_doubles : externals b64 unit := ex_ext ex_double_linear.
Definition ex_double_grid : grid_params b64 := mkGridParams (Some [1; 6]%nat) None (Some [nlit 1; nlit 1000]) None.
Definition ex_double_context : context (pvalue b64) :=
  [("subsidence", [("filepath", Table [nlit 0; nlit 5000] [nlit 0; nlit (-1 # 1)])]);
   ("fluvial", [("wave_base", Number (nlit 10)); ("hemipelagic", Number (nlit (1 # 2)))])].
Notation ex_double_load := (@load_model b64 _ double_trans unit ex_doubles ex_double_grid (read_bathymetry ex_bath) ["subsidence"] ex_double_context
  (clock_init (nlit 0) (Some (nlit 10)) (nlit (1 # 10)))).
Notation ex_double_run names dt m := (@run_one_step b64 _ (parts b64 unit) (@named_processes b64 _ double_trans unit ex_doubles names) dt m).
Definition ex_double_rate : b64 -> result b64 := described_rate (section_of ex_double_context "subsidence").
Definition ex_tenth_step : b64 := nlit (1 # 10).
(* the lowest column after a step *)
Definition ex_low : b64 := S754_finite true 4753408669201203 (-45).
Definition ex_double_ok (r : result (list string * smodel b64 (parts b64 unit))) : Prop :=
  match r with
  | Ok (names, m0) =>
      names = ["subsidence"; "fluvial"; "shoreline"] /\ step_used None m0 = ex_tenth_step
      /\ match ex_double_run names None m0 with
         | Stepped m1 => g_rows (sm_grid m1) = 1%nat /\ g_cols (sm_grid m1) = 6%nat /\ g_dx (sm_grid m1) = nlit 1000
                         /\ option_map (fun b => at2 n0 b 1 5) (node (sm_grid m1) "bedrock_surface__elevation") = Some ex_low
         | _ => False
         end
  | Err _ => False
  end.
Lemma ex_double_is : ex_double_ok ex_double_load.
Proof. vm_compute. repeat split. Qed.
Lemma ex_double_history : exists m0 m1, ex_double_load = Ok (["subsidence"; "fluvial"; "shoreline"], m0)
  /\ @sinking b64 unit _ double_trans ex_doubles ["subsidence"; "fluvial"; "shoreline"] m0 ex_double_rate m1 ex_double_rate [(ex_double_rate, ex_tenth_step)]
  /\ g_rows (sm_grid m1) = 1%nat /\ g_cols (sm_grid m1) = 6%nat /\ g_dx (sm_grid m1) = nlit 1000
  /\ option_map (fun b => at2 n0 b 1 5) (node (sm_grid m1) "bedrock_surface__elevation") = Some ex_low.
Proof.
  pose proof ex_double_is as H. destruct ex_double_load as [[names m0]|e]; cbn [ex_double_ok] in H; [|contradiction]. destruct H as (-> & Hd & H).
  destruct (ex_double_run ["subsidence"; "fluvial"; "shoreline"] None m0) as [m1|m1|e] eqn:Er; try contradiction. exists m0, m1. split; [reflexivity|]. split; [|exact H].
  rewrite <- Hd.
  apply (@sinking_step b64 unit _ double_trans ex_doubles ["subsidence"; "fluvial"; "shoreline"] m0 ex_double_rate m0 ex_double_rate [] None m1); [apply sinking_start|exact Er].
Qed.
Lemma ex_doubles_leave : leaves_bedrock ex_doubles.
Proof.
  split; [|split].
  - intros cls s g x g' H. cbn in H. unfold kept in H. assert (g' = g) by congruence. subst. auto 10.
  - intros dt x g x' g' H. cbn in H. unfold kept in H. assert (g' = g) by congruence. subst. repeat split.
  - intros n v x g x' g' H. cbn in H. unfold kept in H. assert (g' = g) by congruence. subst. repeat split.
Qed.
(* where it was, and the rate *)
Definition ex_was : b64 := S754_finite true 4749890231992320 (-45).
Definition ex_sinks : list (b64 * b64) := [(nlit (-1 # 1), ex_tenth_step)].
Definition ex_file : list b64 * list b64 := (map nlit [0; 1000; 2000; 5000]%Q, map nlit [20; 10; -5 # 1; -35 # 1]%Q).
Lemma ex_file_is : file_table ex_bath = Ok ex_file.
Proof. vm_compute. reflexivity. Qed.
Lemma ex_bathymetry : interp_linear (fst ex_file) (snd ex_file) (nmul (nofnat 5) (nlit 1000)) = Ok (nlit (-35 # 1)).
Proof. vm_compute. reflexivity. Qed.
Lemma ex_was_is : nsub (nlit (-35 # 1)) (nlit 100) = ex_was.
Proof. vm_compute. reflexivity. Qed.
Lemma ex_sinks_are : rates_at [(ex_double_rate, ex_tenth_step)] (nmul (nofnat 5) (nlit 1000)) = Ok ex_sinks.
Proof. vm_compute. reflexivity. Qed.
Local Open Scope R_scope.
Lemma ex_sink_values : value ex_was = -135 /\ value (nlit (-1 # 1)) = -1 /\ value ex_tenth_step = IZR 7205759403792794 / IZR 72057594037927936
  /\ value ex_low = - IZR 4753408669201203 / IZR 35184372088832.
Proof.
  unfold ex_tenth_step. replace (nlit (1 # 10) : b64) with (S754_finite false 7205759403792794 (-56)) by (vm_compute; reflexivity).
  replace (nlit (-1 # 1) : b64) with (S754_finite true 4503599627370496 (-52)) by (vm_compute; reflexivity).
  unfold ex_was, ex_low. cbn [value]. rewrite <- !(bpow_powerRZ radix2). change (bpow radix2 (-45)) with (/ IZR 35184372088832).
  change (bpow radix2 (-52)) with (/ IZR 4503599627370496). change (bpow radix2 (-56)) with (/ IZR 72057594037927936).
  change (IZR (Z.neg 4749890231992320)) with (- IZR 4749890231992320). change (IZR (Z.neg 4753408669201203)) with (- IZR 4753408669201203).
  change (IZR (Z.neg 4503599627370496)) with (- IZR 4503599627370496). repeat split; lra.
Qed.
Lemma ex_sink_fits : Forall (fun rd => a_number (fst rd) /\ a_number (snd rd)) ex_sinks /\ a_number ex_was /\ Rabs (value ex_was) + travelled ex_sinks <= 2 ^ 1000.
Proof.
  destruct ex_sink_values as (V1 & V2 & V3 & _). split; [|split].
  - constructor; [|constructor]. cbn [fst snd ex_sinks]. split; apply ex_numbers; vm_compute; reflexivity.
  - split; [vm_compute; reflexivity|exact I].
  - unfold ex_sinks. cbn [travelled]. rewrite V1, V2, V3. apply Rle_trans with (2 ^ 8); [|apply Rle_pow; [lra|lia]].
    rewrite Rabs_left by lra. rewrite Rabs_left by lra. lra.
Qed.
Theorem exactly_refuted : ~ (forall (tr : Trans b64) (E : externals b64 unit) params text names ctx c names' m0 m f l x y b i j z rs,
  leaves_bedrock E -> load_model E params (read_bathymetry text) names ctx c = Ok (names', m0) -> In "subsidence"%string names' -> ~ In "flexure"%string names' ->
  sinking E names' m0 (described_rate (section_of ctx "subsidence")) m f l ->
  file_table text = Ok (x, y) -> node (sm_grid m) "bedrock_surface__elevation" = Some b -> (1 <= i <= g_rows (sm_grid m))%nat -> (j < g_cols (sm_grid m))%nat ->
  interp_linear x y (nmul (nofnat j) (g_dx (sm_grid m))) = Ok z -> rates_at l (nmul (nofnat j) (g_dx (sm_grid m))) = Ok rs ->
  Forall (fun rd => a_number (fst rd) /\ a_number (snd rd)) rs -> a_number (nsub z (nlit 100)) -> Rabs (value (nsub z (nlit 100))) + travelled rs <= 2 ^ 1000 ->
  value (at2 n0 b i j) = value (nsub z (nlit 100)) + sinkage rs).
Proof.
  intros S. destruct ex_double_history as (m0 & m1 & El & Hk & Hr & Hc & Hd & Hb). destruct ex_sink_fits as (F1 & F2 & F3).
  destruct (node (sm_grid m1) "bedrock_surface__elevation") as [b|] eqn:Eb; cbn [option_map] in Hb; [|discriminate].
  assert (Hb' : at2 n0 b 1 5 = ex_low) by (injection Hb; exact (fun e => e)). clear Hb.
  assert (Hi : (1 <= 1 <= g_rows (sm_grid m1))%nat) by (rewrite Hr; split; constructor).
  assert (Hj : (5 < g_cols (sm_grid m1))%nat) by (rewrite Hc; constructor).
  pose proof (S double_trans ex_doubles ex_double_grid ex_bath ["subsidence"]%string ex_double_context (clock_init (nlit 0) (Some (nlit 10)) (nlit (1 # 10)))
    ["subsidence"; "fluvial"; "shoreline"]%string m0 m1 ex_double_rate [(ex_double_rate, ex_tenth_step)] (fst ex_file) (snd ex_file) b 1%nat 5%nat (nlit (-35 # 1)) ex_sinks
    ex_doubles_leave El (or_introl eq_refl)) as T.
  rewrite Hd, ex_was_is, Hb' in T.
  specialize (T ltac:(intros [Y|[Y|[Y|Y]]]; [discriminate Y|discriminate Y|discriminate Y|exact Y]) Hk ex_file_is Eb Hi Hj ex_bathymetry ex_sinks_are F1 F2 F3).
  destruct ex_sink_values as (V1 & V2 & V3 & V4). unfold ex_sinks in T. cbn [sinkage] in T. rewrite V1, V2, V3, V4 in T. clear - T. lra.
Qed.
