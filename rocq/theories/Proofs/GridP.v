(** Basic facts about grids and their fields. *)
From Coq Require Import String List Reals Lra Lia Arith.
From Verif.Base Require Import Num Py Arr.
From Verif.Model Require Import Layers Grid.
Import ListNotations.

Section Any.
  Context {A : Type} `{Num A}.

  Lemma node_put_node (g : grid A) n f n' :
    node (put_node g n f) n' = if String.eqb n' n then Some f else node g n'.
  Proof. unfold node, put_node. cbn [at_node set_at_node]. apply (dget_dset _ String.eqb_eq). Qed.

  Lemma node_put_same (g : grid A) n f : node (put_node g n f) n = Some f.
  Proof. rewrite node_put_node, String.eqb_refl. reflexivity. Qed.

  Lemma gval_put_gval (g : grid A) n v n' :
    gval (put_gval g n v) n' = if String.eqb n' n then Some v else gval g n'.
  Proof. unfold gval, put_gval. cbn [at_grid set_at_grid]. apply (dget_dset _ String.eqb_eq). Qed.

  Lemma rowf_put_rowf (g : grid A) n v n' :
    rowf (put_rowf g n v) n' = if String.eqb n' n then Some v else rowf g n'.
  Proof. unfold rowf, put_rowf. cbn [at_row set_at_row]. apply (dget_dset _ String.eqb_eq). Qed.

  Lemma node_put_gval (g : grid A) n v n' : node (put_gval g n v) n' = node g n'.
  Proof. reflexivity. Qed.
  Lemma gval_put_node (g : grid A) n f n' : gval (put_node g n f) n' = gval g n'.
  Proof. reflexivity. Qed.

  Lemma x_of_column_put_node (g : grid A) n f : x_of_column (put_node g n f) = x_of_column g.
  Proof. reflexivity. Qed.

  Lemma set_profile_ok (g : grid A) n f v :
    node g n = Some f -> set_profile g n v = Ok (put_node g n (set_inner f v)).
  Proof. intros E. unfold set_profile, node_r. rewrite E. reflexivity. Qed.

  Lemma get_profile_ok (g : grid A) n f :
    node g n = Some f -> get_profile g n = Ok (inner f).
  Proof. intros E. unfold get_profile, node_r. rewrite E. reflexivity. Qed.
  Lemma dset_dset {V} (d : list (string * V)) n f f' :
    dset String.eqb (dset String.eqb d n f) n f' = dset String.eqb d n f'.
  Proof.
    induction d as [|[k v] d IH]; cbn [dset].
    - rewrite String.eqb_refl. reflexivity.
    - destruct (String.eqb n k) eqn:E; cbn [dset]; rewrite E; [reflexivity|]. f_equal. assumption.
  Qed.

  Lemma dset_id {V} (d : list (string * V)) n f :
    dget String.eqb d n = Some f -> dset String.eqb d n f = d.
  Proof.
    induction d as [|[k v] d IH]; cbn [dset dget]; intros Hf; [discriminate|].
    destruct (String.eqb n k) eqn:E.
    - inversion Hf; reflexivity.
    - f_equal. apply IH; assumption.
  Qed.

  Lemma put_node_put_node (g : grid A) n f f' : put_node (put_node g n f) n f' = put_node g n f'.
  Proof. unfold put_node. cbn [at_node set_at_node]. rewrite dset_dset. reflexivity. Qed.

  Lemma put_node_id (g : grid A) n f : node g n = Some f -> put_node g n f = g.
  Proof. unfold put_node, node. intros Hf. rewrite (dset_id _ _ _ Hf). destruct g; reflexivity. Qed.
End Any.

(* decide field-name comparisons between literals *)
Ltac eqb_lit :=
  repeat match goal with
  | |- context [String.eqb ?a ?b] =>
      let r := eval vm_compute in (String.eqb a b) in
      match r with
      | true => change (String.eqb a b) with true
      | false => change (String.eqb a b) with false
      end; cbv iota
  end.
Ltac node_simp := repeat (rewrite node_put_node; eqb_lit).
