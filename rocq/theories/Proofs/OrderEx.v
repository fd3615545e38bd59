(** Examples of models with their processes in other orders. *)
From Coq Require Import String List ZArith QArith Bool Arith.
From Verif.Base Require Import Num Py Arr.
From Verif.Model Require Import Layers Grid Archive SequenceModel Setattr Info Bathymetry Csv Processes Whole.
From Verif.Spec Require Import Declared Ordering Session.
From Verif.Proofs Require Import FluvialEx ScriptEx WholeEx.
Import ListNotations.
Local Open Scope string_scope.
Local Open Scope list_scope.

Lemma ex_uses_values : uses_values ex_whole.
Proof. split; cbn; unfold kept; auto. Qed.
Definition ex_order : list string := ["sea_level"; "subsidence"; "compaction"; "submarine_diffusion"; "flexure"; "fluvial"; "shoreline"].
Definition ex_reorder : list string := ["subsidence"; "sea_level"; "compaction"; "flexure"; "submarine_diffusion"; "fluvial"; "shoreline"].
(* the sea level after the shoreline *)
Definition ex_disorder : list string := ["subsidence"; "compaction"; "submarine_diffusion"; "flexure"; "fluvial"; "shoreline"; "sea_level"].
Definition ex_ordered_model : option (smodel Q (parts Q unit)) := 
  match @load_model Q _ half_trans unit ex_whole ex_grid6 (read_bathymetry ex_bath) ex_names ex_context (clock_init 0 (Some 10) 1)%Q with Ok (_, m) => Some m | Err _ => None end.
(* after some calls: the elevation of the cells *)
Definition ex_orders (names : list string) : option (list (option (list Q))) :=
  match ex_ordered_model with
  | None => None
  | Some m => Some (map (fun r => match r with Ok (_, g) => match node g "topographic__elevation" with Some z => Some (map Qred (nth 0 (cells z) [])) | None => None end | Err _ => None end)
     (@session Q unit _ half_trans ex_whole names [CallStep None; CallSet [("fluvial", [("hemipelagic", Number 2%Q)])]; CallStep (Some 2%Q)] m))
  end.
Definition field_eqb (f f' : string * place) : bool := String.eqb (fst f) (fst f') && place_eqb (snd f) (snd f').
Definition independentb (c c' : pclass) : bool :=
  forallb (fun f => negb (existsb (field_eqb f) (uses c'))) (writes c) && forallb (fun f => negb (existsb (field_eqb f) (uses c))) (writes c').
Lemma field_eqb_refl f : field_eqb f f = true.
Proof. unfold field_eqb. rewrite String.eqb_refl. destruct (snd f); reflexivity. Qed.
Lemma apart F F' : forallb (fun f => negb (existsb (field_eqb f) F')) F = true -> forall f, In f F -> ~ In f F'.
Proof.
  intros H f I J. rewrite forallb_forall in H. apply H in I. apply negb_true_iff in I.
  assert (Y : existsb (field_eqb f) F' = true) by (apply existsb_exists; exists f; split; [exact J|apply field_eqb_refl]). congruence.
Qed.
Lemma independentb_ok c c' : independentb c c' = true -> independent c c'.
Proof. unfold independentb. intros H. apply andb_true_iff in H as [H1 H2]. split; [apply apart, H1|apply apart, H2]. Qed.
(* the pairs that are independent *)
Lemma ex_pairs : independent SeaLevelTimeSeries SubsidenceTimeSeries /\ independent SeaLevelTimeSeries SedimentFlexure
  /\ independent SubsidenceTimeSeries SubmarineDiffuser /\ independent SubsidenceTimeSeries ShorelineFinder
  /\ independent SubmarineDiffuser SedimentFlexure /\ independent SedimentFlexure ShorelineFinder.
Proof. repeat split; apply apart; reflexivity. Qed.
Lemma ex_reordered : exists m, ex_ordered_model = Some m /\ reordered (kind (sm_world m)) ex_order ex_reorder.
Proof.
  assert (S : match ex_ordered_model with Some _ => true | None => false end = true) by (vm_compute; reflexivity).
  destruct ex_ordered_model as [m|] eqn:E; [|discriminate S]. exists m. split; [reflexivity|].
  assert (K : forall n, match ex_ordered_model with Some m => kind (sm_world m) n | None => None end = kind (sm_world m) n) by (rewrite E; reflexivity).
  destruct ex_pairs as (I1 & _ & _ & _ & I2 & _).
  apply reordered_trans with (l2 := ["subsidence"; "sea_level"; "compaction"; "submarine_diffusion"; "flexure"; "fluvial"; "shoreline"]).
  - apply (reordered_swap _ [] "sea_level" "subsidence" _ SeaLevelTimeSeries SubsidenceTimeSeries); [discriminate| | |exact I1]; rewrite <- K; vm_compute; reflexivity.
  - apply (reordered_swap _ ["subsidence"; "sea_level"; "compaction"] "submarine_diffusion" "flexure" _ SubmarineDiffuser SedimentFlexure); [discriminate| | |exact I2]; rewrite <- K; vm_compute; reflexivity.
Qed.
Definition ex_first (r : option (list (option (list Q)))) : option (list Q) := match r with Some (r :: _) => r | _ => None end.
Definition ex_all_return (r : option (list (option (list Q)))) : bool := match r with Some [Some _; Some _; Some _] => true | _ => false end.
Lemma ex_same_order : ex_orders ex_order = ex_orders ex_reorder /\ ex_all_return (ex_orders ex_order) = true.
Proof. split; vm_compute; reflexivity. Qed.
Lemma ex_other_order : ex_first (ex_orders ex_order) = Some [49 # 5; -27 # 5; -3069 # 200; -5061 # 200]%Q
  /\ ex_first (ex_orders ex_disorder) = Some [49 # 5; -27 # 5; -307 # 20; -5061 # 200]%Q.
Proof. split; vm_compute; reflexivity. Qed.
