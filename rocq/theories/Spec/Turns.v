(** The order in which the processes of a configured model take their turns in a
    step, and in which parameters are assigned (C115, C116). *)
From Coq Require Import String List QArith Arith.
From Verif.Base Require Import Num Py Arr.
From Verif.Model Require Import Layers Grid SequenceModel Setattr Processes Whole.
From Verif.Spec Require Import Configured.
Import ListNotations.
Local Open Scope string_scope.

(* the names without repetition, in the order of their first occurrence *)
Fixpoint once_each (l : list string) : list string :=
  match l with
  | [] => []
  | n :: l => n :: filter (fun k => negb (String.eqb k n)) (once_each l)
  end.

Section Turns.
  Context {A X : Type} {num : Num A} {tr : Trans A} (E : externals A X).

  (* a step of one object, and an assignment to it: on the grid g, with what
     becomes of both *)
  Inductive takes_step (d : A) : part A X -> grid A -> part A X -> grid A -> Prop :=
  | step_ours p g p' g' : process_step (ex_interp1d E) (ex_diffuse E) (ex_flexure E) (ex_gravity E) d (p, g) = Ok (p', g') ->
      takes_step d (Ours p) g (Ours p') g'
  | step_extra x g x' g' : ex_step E d (x, g) = Ok (x', g') -> takes_step d (Extra x) g (Extra x') g'.
  Inductive assignment (k : string) (v : pvalue A) : part A X -> grid A -> part A X -> grid A -> Prop :=
  | assignment_ours p g p' g' : set_attribute k v (p, g) = Ok (p', g') -> assignment k v (Ours p) g (Ours p') g'
  | assignment_extra x g x' g' : ex_set E k v (x, g) = Ok (x', g') -> assignment k v (Extra x) g (Extra x') g'.

  (* the object of a process *)
  Definition object (m : smodel A (parts A X)) (n : string) : option (part A X) := dget String.eqb (sm_world m) n.

  (* a step of length d from m to m': on the grids gs, one after another, each
     process in turn runs once, from what it held in m to what it holds in m';
     the first grid is that of m with nothing waiting to be deposited *)
  Definition in_order (d : A) (names : list string) (m m' : smodel A (parts A X)) (gs : list (grid A)) : Prop :=
    length gs = S (length names)
    /\ (exists g, nth_error gs 0 = Some g /\ cleared (sm_grid m) g)
    /\ forall k n, nth_error names k = Some n -> exists p p' g g',
         object m n = Some p /\ object m' n = Some p' /\ nth_error gs k = Some g /\ nth_error gs (S k) = Some g'
         /\ takes_step d p g p' g'.

  (* a step of the classes that are not modelled keeps the number of layers
     in every cell *)
  Definition counts (g : grid A) (i j : nat) : nat := length (at2 [] (el_stacks (layers g)) i j).
  Definition leaves_counts : Prop :=
    forall d x g x' g', ex_step E d (x, g) = Ok (x', g') -> forall i j, counts g' i j = counts g i j.
  (* the porosity of a new layer: one half, or what the compaction says *)
  Definition porosity_is (names : list string) (m : smodel A (parts A X)) (v : A) : Prop :=
    (~ In "compaction" names -> v = nlit (1 # 2))
    /\ (In "compaction" names -> exists x, object m "compaction" = Some (Extra x) /\ v = ex_porosity_max E x).

  (* the assignments of set_params(params) *)
  Definition assignments (params : context (pvalue A)) : list (string * string * pvalue A) :=
    flat_map (fun nv => map (fun kv => (fst nv, fst kv, snd kv)) (snd nv)) params.
  (* the assignments take the objects o and the grid g to o' and g' *)
  Inductive assigns : list (string * string * pvalue A) -> (string -> option (part A X)) -> grid A
      -> (string -> option (part A X)) -> grid A -> Prop :=
  | assigns_none o o' g : (forall n, o' n = o n) -> assigns [] o g o' g
  | assigns_one n k v l o g p p' g' o' g'' : o n = Some p -> assignment k v p g p' g' ->
      assigns l (fun q => if String.eqb q n then Some p' else o q) g' o' g'' -> assigns ((n, k, v) :: l) o g o' g''.
End Turns.
