(** Specification vocabulary for histories of operations, independent of the
    model. *)
From Coq Require Import List Reals.
From Verif.Base Require Import Arr.
From Verif.Spec Require Import Profile.
Import ListNotations.
Local Open Scope R_scope.

Fixpoint rsum (l : list R) : R :=
  match l with [] => 0 | a :: l' => a + rsum l' end.

(** A user of the sea-level component can step it, set its time, or give it
    another table. *)
Inductive sl_op : Type :=
| SlStep (dt : R)
| SlSetTime (t : R)
| SlSetFile (times levels : list R).

(** A user of the subsidence component can step it or give it another table. *)
Inductive sub_op : Type :=
| SubStep (dt : R)
| SubSetFile (x y : list R).

(* v is the value at position u of the piecewise-linear curve through the
   table (x, y) *)
Definition on_curve (x y : list R) (u v : R) : Prop :=
  exists i, (S i < length x)%nat /\ nth i x 0 <= u <= nth (S i) x 0
    /\ v = lerp (nth i x 0) (nth i y 0) (nth (S i) x 0) (nth (S i) y 0) u.

(* [uplift x y ops u total]: with the table (x, y) in force at the start, the
   bedrock at position u has been moved by [total] in total by [ops], when
   every new table covers the grid ([lo, hi]); a table that does not is
   rejected and the old one stays in force *)
Inductive uplift (lo hi : R) : list R -> list R -> list sub_op -> R -> R -> Prop :=
| up_nil x y u : uplift lo hi x y [] u 0
| up_step x y dt ops u rate total :
    on_curve x y u rate -> uplift lo hi x y ops u total ->
    uplift lo hi x y (SubStep dt :: ops) u (rate * dt + total)
| up_file x y x' y' ops u total :
    nth 0 x' 0 <= lo -> hi <= nth (length x' - 1) x' 0 ->
    uplift lo hi x' y' ops u total ->
    uplift lo hi x y (SubSetFile x' y' :: ops) u total
| up_file_rejected x y x' y' ops u total :
    ~ (nth 0 x' 0 <= lo /\ hi <= nth (length x' - 1) x' 0) ->
    uplift lo hi x y ops u total ->
    uplift lo hi x y (SubSetFile x' y' :: ops) u total.

(* the component's own time after a history *)
Fixpoint time_after (t : R) (ops : list sl_op) : R :=
  match ops with
  | [] => t
  | SlStep dt :: ops' => time_after (t + dt) ops'
  | SlSetTime t' :: ops' => time_after t' ops'
  | SlSetFile _ _ :: ops' => time_after t ops'
  end.

(* the table given last, if any *)
Fixpoint last_file (file : option (list R * list R)) (ops : list sl_op) : option (list R * list R) :=
  match ops with
  | [] => file
  | SlSetFile x y :: ops' => last_file (Some (x, y)) ops'
  | _ :: ops' => last_file file ops'
  end.

(* a usable table: at least two rows, positions strictly increasing *)
Definition good_table (x y : list R) : Prop :=
  (2 <= length x)%nat /\ increasing x /\ length y = length x.

(** A user of the sediment-flexure component assigns densities. *)
Inductive density_op : Type :=
| SetSand (v : R)
| SetMud (v : R)
| SetWater (v : R).

(* what an assignment does to (water, sand, mud): a non-positive value is
   rejected *)
Definition density_spec (op : density_op) (w s m : R) : R * R * R :=
  match op with
  | SetSand v => if Rlt_dec 0 v then (w, v, m) else (w, s, m)
  | SetMud v => if Rlt_dec 0 v then (w, s, v) else (w, s, m)
  | SetWater v => if Rlt_dec 0 v then (v, s, m) else (w, s, m)
  end.

Fixpoint density_trace (ops : list density_op) (w s m : R) : R * R * R :=
  match ops with
  | [] => (w, s, m)
  | op :: ops' => let '(w, s, m) := density_spec op w s m in density_trace ops' w s m
  end.


(* signed part of [z, z + d] that is below sea level (z = 0) *)
Definition submerged_part (z d : R) : R := Rmin (z + d) 0 - Rmin z 0.

Fixpoint rprod (l : list R) : R := match l with [] => 1 | a :: l' => a * rprod l' end.

(* the sum of the values of several fields at node (i, j) *)
Definition nsum_at (i j : nat) (fs : list (field R)) : R := rsum (map (fun f => at2 0 f i j) fs).


(* steps without any new deflection, on n rows and m columns *)
Fixpoint unloaded (n m : nat) (dts : list R) : list (field R * R) :=
  match dts with [] => [] | dt :: dts' => (full n m 0, dt) :: unloaded n m dts' end.

