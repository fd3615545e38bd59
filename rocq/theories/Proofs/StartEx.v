(** Concrete constructions and logs. *)
From Coq Require Import String List ZArith QArith Reals.
From Verif.Base Require Import Num Py Arr.
From Verif.Model Require Import Layers Grid Flexure Sequence SequenceModel.
From Verif.Spec Require Import Strata Column.
From Verif.Proofs Require Import SequenceEx SequenceModelEx StartP.
Import ListNotations.

Lemma ex_start : whole_grid (A:=R) ex_coast
  /\ exists m, model_init (ex_processes [ex_lay 1%R]) tt (ex_coast (A:=R)) (clock_init 0 None 1)%R = Ok m.
Proof.
  split; [exact ex_coast_whole|]. destruct (ex_coast_init [ex_lay 1%R] 0%R None 1%R) as [m [E _]]. exists m. exact E.
Qed.

Definition ex_used : option (Q * list (option Q) * list Q) :=
  let g := put_node (put_rowf (put_gval ex_coast "sea_level__elevation" 7%Q) "x_of_shore" [Some 3%Q])
             "water__total_of_loading" (full 3 4 9%Q) in
  match model_init (ex_processes [ex_lay 1%Q]) tt g (clock_init 0 None 1)%Q with
  | Ok m => match gval (sm_grid m) "sea_level__elevation", rowf (sm_grid m) "x_of_shore", node (sm_grid m) "water__total_of_loading" with
            | Some sea, Some x, Some l => Some (Qred sea, x, map Qred (nth 1 l []))
            | _, _, _ => None
            end
  | Err _ => None
  end.
Lemma ex_used_ok : ex_used = Some (0%Q, [None], [0; 0; 1030; 2060]%Q).
Proof. vm_compute. reflexivity. Qed.

Definition ex_called : option (list (nat * Q)) :=
  match (let* s := sequence_init tt (ex_beach 1) (1 # 2)%Q in
         sequence_run (mapi logged [ex_rain; ex_sink]) (Some 3%Q) (Some 2%Q) (seq_log s [])) with
  | Ok s => Some (map (fun c => (fst c, Qred (snd c))) (snd (sq_world s)))
  | Err _ => None
  end.
Lemma ex_called_ok : ex_called = Some [(0%nat, 2%Q); (1%nat, 2%Q); (0%nat, 1%Q); (1%nat, 1%Q)].
Proof. vm_compute. reflexivity. Qed.
