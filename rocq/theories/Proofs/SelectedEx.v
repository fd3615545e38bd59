(** An example for Props/SelectedProps.v *)
From Coq Require Import String List ZArith QArith.
From Verif.Base Require Import Num Py Arr.
From Verif.Model Require Import Layers Grid Netcdf OutputWriter.
From Verif.Spec Require Import Recording.
From Verif.Proofs Require Import SequenceModelEx.
Import ListNotations.

(* no file yet *)
Definition no_file : filesystem Q := fun _ => None.
Lemma ex_picked :
  match to_netcdf (view ex_coast) "out.nc" false 7%Q ["grid"; "node"]%string (IdsAt [("node"%string, Ids [4; -12; 6]%Z)])
          (SameNames NoNames) false no_file with
  | Ok fs => match file_at fs "out.nc" with
             | Some d => Some (ds_time d, record_of d "at_node:topographic__elevation" 0,
                               dget String.eqb (ds_coords d) "x_of_node"%string, dget String.eqb (ds_coords d) "y_of_node"%string)
             | None => None
             end
  | Err _ => None
  end = Some ([7%Q], Some [Some 2; Some 2; Some (-1)]%Q, Some [Some 0; Some 0; Some 2]%Q, Some [Some 1; Some 0; Some 1]%Q).
Proof. vm_compute. reflexivity. Qed.
