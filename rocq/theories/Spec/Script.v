(** Programs that create processes on a grid and use them. *)
From Coq Require Import String List Arith.
From Verif.Base Require Import Num Py Arr.
From Verif.Model Require Import Layers Grid Setattr.
Import ListNotations.

Section Script.
  Context {A : Type} {num : Num A} {tr : Trans A}.

  (* create one more process; assign an attribute of the i-th; run it one step *)
  Inductive act : Type :=
  | Create (cls : pclass) (params : kwds A)
  | Change (i : nat) (name : string) (v : pvalue A)
  | Advance (i : nat) (dt : A).

  Context (interp1d : list A -> list A -> result (A -> A)) (diffuse : A -> field A -> field A -> field A)
    (flexure : kwds A -> field A -> field A) (gravity : kwds A -> A).

  (* the processes, in the order of their creation, and the grid they share *)
  Definition replaced (ps : list (process A)) (i : nat) (p : process A) : list (process A) := firstn i ps ++ p :: skipn (S i) ps.
  Definition play_act (s : list (process A) * grid A) (a : act) : result (list (process A) * grid A) :=
    let (ps, g) := s in
    let on i (f : process A * grid A -> result (process A * grid A)) :=
      match nth_error ps i with
      | None => Err IndexError
      | Some p => match f (p, g) with Ok (p', g') => Ok (replaced ps i p', g') | Err e => Err e end
      end in
    match a with
    | Create cls params => match construct interp1d cls params g with Ok (p, g') => Ok (ps ++ [p], g') | Err e => Err e end
    | Change i name v => on i (set_attribute name v)
    | Advance i dt => on i (process_step interp1d diffuse flexure gravity dt)
    end.
  Definition play (script : list act) (g : grid A) : result (list (process A) * grid A) := foldM play_act script ([], g).
End Script.
Arguments act : clear implicits. Arguments Create {A}. Arguments Change {A}. Arguments Advance {A}.
