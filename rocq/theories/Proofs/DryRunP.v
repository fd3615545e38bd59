(** What starting the run command does to the files. *)
From Coq Require Import String List ZArith QArith Bool.
From Verif.Base Require Import Num Py Arr.
From Verif.Model Require Import Layers Grid Netcdf OutputWriter Config Sequence SequenceModel DryRun.
From Verif.Proofs Require Import OutputEx SequenceModelEx.
Import ListNotations.

Section Any.
  Context {A S W : Type} `{Num A}.
  Implicit Types load : dict S -> result (processes A (W * option (writer A * filesystem A)) * W * grid A * clock A).
  Implicit Types output_of : dict S -> result (option output_args).

  Lemma clear_effect clobber path (fs : filesystem A) p :
    fst (clear_path clobber path fs) p = fs p
    \/ (p = path /\ clobber = true /\ is_file fs p = true /\ fst (clear_path clobber path fs) p = None).
  Proof.
    unfold clear_path. destruct (is_file fs path && negb clobber)%bool eqn:B; [left; reflexivity|].
    destruct (fs path) as [[d| |]|] eqn:E; try (left; reflexivity).
    - cbn [fst]. unfold fs_set. destruct (String.eqb_spec p path) as [->|N]; [right|left; reflexivity].
      unfold is_file in *. rewrite E in *. destruct clobber; [repeat split|discriminate B].
    - cbn [fst]. unfold fs_set. destruct (String.eqb_spec p path) as [->|N]; [right|left; reflexivity].
      unfold is_file in *. rewrite E in *. destruct clobber; [repeat split|discriminate B].
  Qed.

  Lemma writer_init_files (g : gview A) path interval fields clobber rows fs :
    fst (writer_init g path interval fields clobber rows fs) = fs
    \/ fst (writer_init g path interval fields clobber rows fs) = fst (clear_path clobber path fs).
  Proof.
    unfold writer_init. destruct (check_interval interval); [|left; reflexivity]. right.
    destruct (clear_path clobber path fs) as [fs' [u|e]]; reflexivity.
  Qed.

  Lemma start_files load output_of params fs :
    fst (start_model load output_of params fs) = fs
    \/ exists a, output_of params = Ok (Some a)
         /\ fst (start_model load output_of params fs) = fst (clear_path (oa_clobber a) (oa_path a) fs).
  Proof.
    unfold start_model. destruct (load params) as [[[[pr w] g] c]|]; [|left; reflexivity].
    destruct (output_of params) as [[a|]|]; try (left; reflexivity).
    pose proof (writer_init_files (view g) (oa_path a) (oa_interval a) (oa_fields a) (oa_clobber a) (oa_rows a) fs) as D.
    destruct (writer_init _ _ _ _ _ _ _) as [fs' [wr|e]]; cbn [fst] in D |- *;
      (destruct D as [D|D]; [left; exact D|right; exists a; split; [reflexivity|exact D]]).
  Qed.
  Lemma dry_files load output_of params fs : fst (dry_run load output_of params fs) = fst (start_model load output_of params fs).
  Proof. unfold dry_run. destruct (start_model _ _ _ _). reflexivity. Qed.

  Theorem dry_run_effect load output_of params fs p :
    fst (dry_run load output_of params fs) p = fs p
    \/ exists a, output_of params = Ok (Some a) /\ p = oa_path a /\ oa_clobber a = true
         /\ is_file fs p = true /\ fst (dry_run load output_of params fs) p = None.
  Proof.
    rewrite dry_files. destruct (start_files load output_of params fs) as [->|[a [E ->]]]; [left; reflexivity|].
    destruct (clear_effect (oa_clobber a) (oa_path a) fs p) as [D|[D1 [D2 [D3 D4]]]]; [left; exact D|].
    right. exists a. repeat split; assumption.
  Qed.

  Theorem dry_run_removes load output_of params fs a :
    output_of params = Ok (Some a) -> oa_clobber a = true -> snd (dry_run load output_of params fs) = Ok tt ->
    fst (dry_run load output_of params fs) (oa_path a) = None.
  Proof.
    unfold dry_run, start_model. intros E C. destruct (load params) as [[[[pr w] g] c]|]; [|discriminate]. rewrite E.
    unfold writer_init. destruct (check_interval _); [|discriminate].
    destruct (clear_path (oa_clobber a) (oa_path a) fs) as [fs' [u|e]] eqn:K; [|discriminate].
    intros _. cbn [fst]. rewrite C in K. apply clear_with_clobber in K. exact K.
  Qed.

  Theorem dry_run_refuses load output_of params fs a :
    output_of params = Ok (Some a) -> oa_clobber a = false -> is_file fs (oa_path a) = true ->
    exists e, snd (dry_run load output_of params fs) = Err e.
  Proof.
    unfold dry_run, start_model. intros E C F. destruct (load params) as [[[[pr w] g] c]|]; [|eexists; reflexivity]. rewrite E.
    unfold writer_init. destruct (check_interval _); [|eexists; reflexivity].
    unfold clear_path. rewrite C, F. cbn. eexists. reflexivity.
  Qed.
End Any.

(* the run command on a coast, with its output in "sequence.nc" *)
Definition ex_load (params : dict Q) : result (processes Q (unit * option (writer Q * filesystem Q)) * unit * grid Q * clock Q) :=
  Ok (mkProcesses [] (fun _ => (1 # 2)%Q) (fun _ w => w), tt, ex_coast, clock_init 0%Q (Some 600000%Q) 100%Q).
Definition ex_output (clobber : bool) (params : dict Q) : result (option output_args) :=
  Ok (Some (mkOutputArgs "sequence.nc" (IntInterval 10) (Some ["bedrock_surface__elevation"%string]) clobber None)).

Lemma ex_dry_run clobber :
  snd (dry_run ex_load (ex_output clobber) [] (fun _ => None)) = Ok tt.
Proof. destruct clobber; vm_compute; reflexivity. Qed.
Lemma ex_dry_removed :
  let fs := fs_set (fun _ => None) "sequence.nc" (Some OtherFile) in
  snd (dry_run ex_load (ex_output true) [] fs) = Ok tt
  /\ fst (dry_run ex_load (ex_output true) [] fs) "sequence.nc"%string = None.
Proof. split; vm_compute; reflexivity. Qed.
