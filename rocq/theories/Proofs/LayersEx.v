(** Concrete layer histories. *)
From Coq Require Import String List ZArith QArith Reals Lia.
From Verif.Base Require Import Num Py Arr.
From Verif.Model Require Import Layers Archive.
From Verif.Spec Require Import Strata.
From Verif.Proofs Require Import LayersP.
Import ListNotations.

Definition ex_names : list string := ["age"; "water_depth"; "t0"; "porosity"; "percent_sand"]%string.

(* layer k: thickness dz k, age k, one cell *)
Definition ex_layer {A} `{Num A} (dz : nat -> A) (k : nat) : field A * list (string * field A) :=
  ([[dz k]], map (fun name => (name, [[nofnat k]])) ex_names).
Definition ex_hist {A} `{Num A} (dz : nat -> A) (n : nat) := map (ex_layer dz) (seq 0 n).

Lemma ex_hist_tracked {A} `{Num A} (dz : nat -> A) n : tracked ex_names (ex_hist dz n).
Proof. intros h Hh. apply in_map_iff in Hh. destruct Hh as [k [<- _]]. reflexivity. Qed.

(* 32 layers, the last one eroding 15: thicknesses and ages *)
Definition ex_dz (k : nat) : Q := if Nat.eqb k 31 then -15 # 1 else 1.
Definition ex_archive_run : option (nat * nat * list Q * list Q) :=
  match layer_run (ex_hist ex_dz 32) (0%nat, el_empty 1 1) with
  | Ok (a, el) =>
      let st := at2 [] (el_stacks el) 0 0 in
      Some (a, el_number el, map (fun c => Qred (c_dz c)) st,
            map (fun c => match dget String.eqb (c_props c) "age"%string with Some v => Qred v | None => 0%Q end) st)
  | Err _ => None
  end.
Lemma ex_archive_ok : ex_archive_run
  = Some (2%nat, 14%nat, [10; 6; 0; 0; 0; 0; 0; 0; 0; 0; 0; 0; 0; 0]%Q,
          [9; 19; 20; 21; 22; 23; 24; 25; 26; 27; 28; 29; 30; 31]%Q).
Proof. vm_compute. reflexivity. Qed.

Lemma ex_merge_hyps :
  let st := raw_stack 0 0 (ex_hist (fun _ => 1%R) 20) in
  (0 < 10 <= length st)%nat
  /\ forall c name, In c st -> In name ["age"; "water_depth"; "t0"; "porosity"]%string -> has_prop name c.
Proof.
  intros st. split; [unfold st; rewrite raw_length; cbn; lia|].
  assert (G : forall n c, In c (raw_stack 0 0 (ex_hist (fun _ => 1%R) n)) ->
                forall name, In name ex_names -> has_prop name c).
  { clear. induction n as [|n IH]; [intros c []|].
    unfold ex_hist. rewrite seq_S, map_app. cbn [map Nat.add]. rewrite raw_snoc.
    intros c Hc. apply (in_map c_props) in Hc. rewrite add_stack_props in Hc. apply in_app_or in Hc.
    destruct Hc as [Hc|[Hc|[]]].
    - apply in_map_iff in Hc. destruct Hc as [c' [E Hc']]. specialize (IH c' Hc').
      intros name Hn. unfold has_prop. rewrite <- E. apply IH. exact Hn.
    - intros name Hn. unfold has_prop. rewrite <- Hc.
      destruct Hn as [<-|[<-|[<-|[<-|[<-|[]]]]]]; discriminate. }
  intros c name Hc Hn. apply (G 20%nat c Hc). 
  destruct Hn as [<-|[<-|[<-|[<-|[]]]]]; cbn; auto 10.
Qed.

Lemma ex_merges_ok : merges_ok [Lay 2%R []; Lay 3%R []; Merge 0 2 []; Lay 1%R []; Lay (-2)%R []].
Proof. intros s e r [E|[E|[E|[E|[E|[]]]]]]; try discriminate. injection E as <- <- _. lia. Qed.
