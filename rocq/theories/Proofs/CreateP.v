(** What creating a process leaves as it was. *)
From Coq Require Import String List ZArith QArith Reals Bool Arith Lra.
From Verif.Base Require Import Num Py Arr.
From Verif.Model Require Import Layers Grid Interp Shoreline SeaLevel Subsidence Flexure Submarine Fluvial Setattr.
Import ListNotations.
Local Open Scope string_scope.
Local Open Scope list_scope.

Section P.
  Context {A : Type} {num : Num A} {tr : Trans A}.
  (* fields and layers as they were, values but these *)
  Definition keeps (but : list string) (g g' : grid A) : Prop :=
    (forall n f, node g n = Some f -> node g' n = Some f)
    /\ (forall n, ~ In n but -> gval g' n = gval g n)
    /\ layers g' = layers g.
  Lemma keeps_refl but g : keeps but g g.
  Proof. repeat split; auto. Qed.
  Lemma keeps_trans but gg g2 g3 : keeps but gg g2 -> keeps but g2 g3 -> keeps but gg g3.
  Proof.
    intros (A1 & B1 & C1) (A2 & B2 & C2). split; [|split].
    - auto.
    - intros n H. rewrite B2, B1 by assumption. reflexivity.
    - congruence.
  Qed.
  Lemma keeps_ensure but g n : keeps but g (ensure_node g n).
  Proof.
    unfold ensure_node, has_node. destruct (din _ _ n) eqn:E; [apply keeps_refl|]. repeat split.
    intros k f Hk. unfold node, put_node; cbn. rewrite (dget_dset _ String.eqb_eq). destruct (String.eqb k n) eqn:N; [|exact Hk].
    apply String.eqb_eq in N. subst k. unfold din in E. unfold node in Hk. rewrite Hk in E. discriminate.
  Qed.
  Lemma keeps_gval (but : list string) g n v : In n but -> keeps but g (put_gval g n v).
  Proof.
    intros Hn. repeat split; [auto|]. intros k Hk. unfold gval, put_gval; cbn. rewrite (dget_dset _ String.eqb_eq).
    destruct (String.eqb k n) eqn:N; [|reflexivity]. apply String.eqb_eq in N. subst k. contradiction.
  Qed.
  Lemma keeps_rowf but g n v : keeps but g (put_rowf g n v).
  Proof. repeat split; auto. Qed.
  Ltac keep := first [ apply keeps_refl
    | eapply keeps_trans; [|apply keeps_ensure]; keep
    | eapply keeps_trans; [|apply keeps_rowf]; keep
    | eapply keeps_trans; [|apply keeps_gval; cbn; tauto]; keep ].
  Ltac steps E := repeat (cbn [bind] in E; match type of E with
    | bind ?r _ = Ok _ => let H := fresh "K" in destruct r eqn:H; [|discriminate E]
    end); cbn [bind] in E.
  Ltac pairE E c g := cbn [bind] in E; match type of E with (let (_, _) := ?q in _) = _ => destruct q as [c g] end; cbn [bind] in E.

  Lemma created interp1d cls p (g : grid A) o g' : construct interp1d cls p g = Ok (o, g') ->
    keeps (match cls with SubmarineDiffuser => ["sea_level__elevation"; "sediment_load"] | _ => [] end) g g'.
  Proof.
    unfold construct. destruct (negb _); [discriminate|]. intros E. destruct cls.
    - steps E. injection E as <- <-. keep.
    - steps E. injection E as <- <-. keep.
    - steps E. unfold subsidence_init in E. cbv zeta in E. steps E. injection E as <- <-. apply (keeps_ensure _ g INCREMENT).
    - steps E. pairE E cc gg. injection E as <- <-. unfold submarine_init in *. cbv zeta in *.
      match goal with K : (if ?b then _ else _) = Ok _ |- _ => destruct b; [discriminate K|]; injection K as <- <- end. keep.
    - steps E. injection E as <- <-. keep.
    - steps E. pairE E cc gg. injection E as <- <-. unfold sed_flexure_init in *. cbv zeta in *.
      match goal with K : bind _ _ = Ok (cc, gg) |- _ => steps K; injection K as <- <- end. keep.
    - steps E. injection E as <- <-. unfold shoreline_init in *. cbv zeta in *.
      match goal with K : bind _ _ = Ok _ |- _ => steps K; injection K as <- end. keep.
  Qed.
  Lemma created_submarine interp1d p (g : grid A) o g' : construct interp1d SubmarineDiffuser p g = Ok (o, g') ->
    exists s, kwd p "sea_level" n0 = Ok s /\ gval g' "sea_level__elevation" = Some s.
  Proof.
    unfold construct. destruct (negb _); [discriminate|]. intros E. steps E. pairE E cc gg. injection E as <- <-. unfold submarine_init in *. cbv zeta in *.
    match goal with K : (if ?b then _ else _) = Ok _ |- _ => destruct b; [discriminate K|]; injection K as <- <- end.
    eexists; split; [reflexivity|]. assert (X : forall (h : grid A) n, gval (ensure_node h n) "sea_level__elevation" = gval h "sea_level__elevation").
    { intros h n. unfold ensure_node. destruct (has_node h n); reflexivity. }
    rewrite !X. unfold gval, put_gval. cbn [at_grid set_at_grid p_sea_level]. rewrite !(dget_dset _ String.eqb_eq). reflexivity.
  Qed.
End P.

Definition ex_high : grid R := mkGrid 1 2 1%R 1%R [] [("sea_level__elevation", 5%R)] [] (el_empty 1 0).
Definition ex_high_ok interp1d : exists o g', construct interp1d SubmarineDiffuser [] ex_high = Ok (o, g')
  /\ gval ex_high "sea_level__elevation" = Some 5%R /\ gval g' "sea_level__elevation" = Some 0%R.
Proof.
  destruct (construct interp1d SubmarineDiffuser [] ex_high) as [[o g']|e] eqn:E.
  - exists o, g'. split; [reflexivity|]. split; [reflexivity|]. destruct (created_submarine interp1d [] ex_high o g' E) as (s & K & G).
    cbn in K. assert (s = (n0 : R)) by congruence. subst s. rewrite G. f_equal. apply n0_R.
  - exfalso. unfold construct in E. cbn [forallb negb] in E. repeat (unfold kwd in E at 1; cbn [dget bind] in E).
    unfold submarine_init in E. cbn [p_plain_slope] in E.
    destruct (neqb (nlit (8 # 10000)) n0) eqn:Z; [|discriminate]. apply Num.Reqb_true in Z. revert Z. numR. rewrite ?n0_R.
    unfold Q2R. cbn. lra.
Qed.
Lemma created_refuted : ~ (forall interp1d cls p (g : grid R) o g',
  construct interp1d cls p g = Ok (o, g') ->
  (forall n f, node g n = Some f -> node g' n = Some f)
  /\ (forall n v, gval g n = Some v -> gval g' n = Some v) /\ layers g' = layers g).
Proof.
  intros C. destruct (ex_high_ok (fun _ _ => Err ValueError)) as (o & g' & E & V & V'). destruct (C _ _ _ _ _ _ E) as (_ & X & _).
  apply X in V. rewrite V in V'. injection V' as V'. lra.
Qed.
