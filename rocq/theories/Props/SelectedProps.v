(** C106: the elements that are written.

    [asked] and [picked] are in Spec/Selecting.v. *)
From Coq Require Import String List ZArith QArith.
From Verif.Base Require Import Num Py Arr.
From Verif.Model Require Import Layers Grid Netcdf OutputWriter.
From Verif.Spec Require Import Recording Selecting.
From Verif.Proofs Require Import SelectedP SelectedEx SequenceModelEx.
Import ListNotations.

(** C106 *)
Theorem C106_selected_elements {A} `{Num A} (g : gview A) path time at_ ids names wl fs fs' d loc name vs :
  to_netcdf g path false time at_ ids names wl fs = Ok fs' -> file_at fs' path = Some d ->
  NoDup at_ -> ~ In "row"%string at_ -> In loc at_ -> In loc ["node"; "link"; "patch"; "corner"; "face"; "cell"]%string ->
  has_variable d loc name -> field_at g loc name = Some (Vector vs) -> length vs = length (gv_xy g loc) ->
  ds_time d = [time]
  /\ (exists l, record_of d (var_name name loc) 0 = Some l /\ picked (asked ids loc) vs l)
  /\ exists ps, picked (asked ids loc) (gv_xy g loc) ps
     /\ dget String.eqb (ds_coords d) ("x_of_" ++ loc)%string = Some (map (fun p => Some (fst p)) ps)
     /\ dget String.eqb (ds_coords d) ("y_of_" ++ loc)%string = Some (map (fun p => Some (snd p)) ps).
Proof. exact (selected_written g path time at_ ids names wl fs fs' d loc name vs). Qed.
Print Assumptions C106_selected_elements.
(* nodes 4, 0 (as -12) and 6 of a 3 by 4 grid *)
Example C106_nonvacuous :
  match to_netcdf (view ex_coast) "out.nc" false 7%Q ["grid"; "node"]%string (IdsAt [("node"%string, Ids [4; -12; 6]%Z)])
          (SameNames NoNames) false no_file with
  | Ok fs => match file_at fs "out.nc" with
             | Some d => Some (ds_time d, record_of d "at_node:topographic__elevation" 0,
                               dget String.eqb (ds_coords d) "x_of_node"%string, dget String.eqb (ds_coords d) "y_of_node"%string)
             | None => None
             end
  | Err _ => None
  end = Some ([7%Q], Some [Some 2; Some 2; Some (-1)]%Q, Some [Some 0; Some 0; Some 2]%Q, Some [Some 1; Some 0; Some 1]%Q).
Proof. exact ex_picked. Qed.
