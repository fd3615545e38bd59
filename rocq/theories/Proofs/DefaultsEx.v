(** Lines of a configuration that are left out. *)
From Coq Require Import String List ZArith QArith Bool.
From Verif.Base Require Import Num Py Arr.
From Verif.Model Require Import Layers Grid Csv SequenceModel Fluvial Setattr Processes Whole.
From Verif.Spec Require Import Session Defaults.
From Verif.Proofs Require Import FluvialEx ScriptEx WholeEx FollowEx.
Import ListNotations.
Local Open Scope string_scope.
Local Open Scope list_scope.

Definition written_is_default : Prop := forall (E : externals Q unit) params read names ctx c n lines k v,
  In (n, lines) written -> In (k, v) lines -> In n names -> dget String.eqb (section_of ctx n) k = None ->
  @load_model Q _ half_trans unit E params read names ctx c = @load_model Q _ half_trans unit E params read names (with_line ctx n k v) c.
Definition own_is_default : Prop := forall (E : externals Q unit) params read names ctx c n cls k v,
  class_at n (section_of ctx n) = Some cls -> In (k, v) (defaults cls) -> In n names -> dget String.eqb (section_of ctx n) k = None ->
  @load_model Q _ half_trans unit E params read names ctx c = @load_model Q _ half_trans unit E params read names (with_line ctx n k v) c.

Notation ex_load names ctx := (@load_model Q _ half_trans unit ex_whole ex_grid6 (read_bathymetry ex_bath) names ctx (clock_init 0 (Some 10) 1)%Q).
(* the elevation of a node after each of two steps; the sediment load of the
   fluvial process *)
Definition ex_seen (r : result (list string * smodel Q (parts Q unit))) : option (list (option Q) * option Q) :=
  match r with
  | Ok (names, m) =>
      Some (map (fun r => match r with Ok (_, g) => option_map (fun z => Qred (at2 0%Q z 1 3)) (node g "topographic__elevation") | Err _ => None end)
                (@session Q unit _ half_trans ex_whole names [CallStep None; CallStep None] m),
            match dget String.eqb (sm_world m) "fluvial" with Some (Ours (PFluvial c)) => Some (fl_sediment_load c) | _ => None end)
  | Err _ => None
  end.
Lemma ex_seen_ok :
  ex_seen (ex_load ex_names ex_context) <> ex_seen (ex_load ex_names (with_line ex_context "flexure" "isostasytime" (Number 0%Q)))
  /\ ex_seen (ex_load ex_names ex_context) = ex_seen (ex_load ex_names (with_line ex_context "flexure" "isostasytime" (Number 7000%Q)))
  /\ ex_seen (ex_load ex_names ex_context) <> None.
Proof. split; [vm_compute; discriminate|]. split; [vm_compute; reflexivity|vm_compute; discriminate]. Qed.
Lemma written_refuted : ~ written_is_default.
Proof.
  intros H. apply (proj1 ex_seen_ok). apply (f_equal ex_seen).
  apply (H ex_whole ex_grid6 (read_bathymetry ex_bath) ex_names ex_context (clock_init 0 (Some 10) 1)%Q "flexure" [("rho_mantle", Number (nlit 3300)); ("isostasytime", Number (nlit 0))] "isostasytime" (Number 0%Q)).
  - right. right. left. reflexivity.
  - right. left. reflexivity.
  - cbn. tauto.
  - reflexivity.
Qed.
Definition ex_loaded5 : context (pvalue Q) := [("submarine_diffusion", [("sediment_load", Number 5%Q)])].
Lemma ex_own_ok :
  ex_seen (ex_load ["submarine_diffusion"; "fluvial"] ex_loaded5) <> ex_seen (ex_load ["submarine_diffusion"; "fluvial"] (with_line ex_loaded5 "fluvial" "sediment_load" (Number 3%Q))).
Proof. vm_compute. discriminate. Qed.
Lemma own_refuted : ~ own_is_default.
Proof.
  intros H. apply ex_own_ok. apply (f_equal ex_seen).
  apply (H ex_whole ex_grid6 (read_bathymetry ex_bath) ["submarine_diffusion"; "fluvial"] ex_loaded5 (clock_init 0 (Some 10) 1)%Q "fluvial" Fluvial "sediment_load" (Number 3%Q)).
  - reflexivity.
  - right. right. left. reflexivity.
  - cbn. tauto.
  - reflexivity.
Qed.

(* two configurations that say the same: other order, defaults written *)
Definition ex_terse : context (pvalue Q) := [("submarine_diffusion", [("wave_base", Number 10%Q); ("alpha", Number (1 # 2000)%Q)]); ("compaction", [("c", Number 1%Q)])].
Definition ex_full : context (pvalue Q) :=
  [("fluvial", [("wave_base", Number 60%Q); ("hemipelagic", Number 0%Q)]); ("compaction", [("c", Number 1%Q)]); ("flexure", [("isostasytime", Number 7000%Q)]);
   ("submarine_diffusion", [("load_sealevel", Number 0%Q); ("alpha", Number (1 # 2000)%Q); ("wave_base", Number 10%Q)])].
Lemma ex_terse_full : let names := ["compaction"; "submarine_diffusion"; "flexure"] in
  (forall n, In n (names ++ ["fluvial"; "shoreline"]) -> same_section n (section_of ex_terse n) (section_of ex_full n))
  /\ (forall n k, In (n, k) shared -> dget String.eqb (section_of ex_terse n) k = dget String.eqb (section_of ex_full n) k)
  /\ ex_seen (ex_load names ex_terse) <> None.
Proof.
  cbv zeta. split; [|split].
  - assert (S : forall (a b d : list (string * pvalue Q)) k, (forall q, In q (map fst (a ++ b ++ d)) -> 
      match dget String.eqb a q with Some v => Some v | None => dget String.eqb d q end = match dget String.eqb b q with Some v => Some v | None => dget String.eqb d q end) ->
      match dget String.eqb a k with Some v => Some v | None => dget String.eqb d k end = match dget String.eqb b k with Some v => Some v | None => dget String.eqb d k end).
    { intros a b d k Hq. destruct (in_dec string_dec k (map fst (a ++ b ++ d))) as [I|N]; [exact (Hq k I)|].
      rewrite !map_app, !in_app_iff in N.
      assert (G : forall l : list (string * pvalue Q), ~ In k (map fst l) -> dget String.eqb l k = None).
      { induction l as [|[x y] l IH]; cbn; [reflexivity|]. intros Nl. destruct (String.eqb_spec k x); [subst; tauto|]. apply IH. tauto. }
      rewrite (G a), (G b) by tauto. reflexivity. }
    intros n Hn. cbn in Hn. destruct Hn as [<-|[<-|[<-|[<-|[<-|[]]]]]]; [reflexivity|..]; (split; [reflexivity|]); intros k; unfold says; apply S; intros q Hq; cbn in Hq.
    all: repeat (destruct Hq as [<-|Hq]; [reflexivity|]); destruct Hq.
  - intros n k I. unfold shared in I. repeat (destruct I as [I|I]; [injection I as <- <-; reflexivity|]). destruct I.
  - vm_compute. discriminate.
Qed.
Lemma ex_Qrefl (a : Q) : neqb a a = true. Proof. apply Qeq_bool_iff, Qeq_refl. Qed.
