(** The bedrock under a load: what SequenceModel is expected to do with it
    (C132). *)
From Coq Require Import String List.
From Verif.Base Require Import Num Py Arr.
From Verif.Model Require Import Layers Grid Flexure SequenceModel Setattr Processes Whole.
From Verif.Spec Require Import Configured Followed.
Import ListNotations.
Local Open Scope string_scope.

Section Bending.
  Context {A X : Type} {num : Num A} {tr : Trans A} (E : externals A X).
  (* the total load on the profile rows *)
  Definition load_of (m : smodel A (parts A X)) : field A :=
    match node (sm_grid m) "sediment__total_of_loading" with Some f => inner f | None => [] end.
  (* what the plate of the model was made with, and the part of its deflection
     that it still owes *)
  Definition plate_of (m : smodel A (parts A X)) : kwds A :=
    match dget String.eqb (sm_world m) "flexure" with Some (Ours (PFlexure _ k _)) => k | _ => [] end.
  Definition owed (m : smodel A (parts A X)) : field A :=
    match dget String.eqb (sm_world m) "flexure" with Some (Ours (PFlexure _ _ c)) => df_pool (sf_dyn c) | _ => [] end.
  (* the time in which it bends, None if it does so at once *)
  Definition isostasy_of (m : smodel A (parts A X)) : option A :=
    match dget String.eqb (sm_world m) "flexure" with Some (Ours (PFlexure _ _ c)) => df_time (sf_dyn c) | _ => None end.
  (* the deflection of the plate under a change of load, in mass per area, of
     cells of the length dx *)
  Definition deflection (k : kwds A) (dx : A) (change : field A) : field A :=
    ex_flexure E k (fmap (fun l => nmul (nmul l (ex_gravity E k)) dx) change).
  (* a model after steps and changes of parameters, other than those of the
     plate, all of which returned; the newest table of the subsidence; with
     every step the table and the length of the step; and the load when the
     last step began *)
  Inductive bending (names : list string) (m0 : smodel A (parts A X)) (f0 : A -> result A)
    : smodel A (parts A X) -> (A -> result A) -> list ((A -> result A) * A) -> field A -> Prop :=
  | bending_start : bending names m0 f0 m0 f0 [] (load_of m0)
  | bending_step m f l w dt m' : bending names m0 f0 m f l w -> run_one_step (named_processes E names) dt m = Stepped m' ->
      bending names m0 f0 m' f (l ++ [(f, step_used dt m)]) (load_of m)
  | bending_stop m f l w dt m' : bending names m0 f0 m f l w -> run_one_step (named_processes E names) dt m = ClockStop m' ->
      bending names m0 f0 m' f l w
  | bending_set m f l w params m' : bending names m0 f0 m f l w -> ~ In "flexure" (map fst params) ->
      set_model_params E params m = Ok m' -> bending names m0 f0 m' (newest "subsidence" params f) l w.
  (* the plate bends under two loads as under each of them *)
  Definition linear_plate : Prop := forall k n m p q i j, shaped n m p -> shaped n m q -> (i < n)%nat -> (j < m)%nat ->
    at2 n0 (ex_flexure E k (fmap2 nadd p q)) i j = nadd (at2 n0 (ex_flexure E k p) i j) (at2 n0 (ex_flexure E k q) i j).
  (* the classes that are not modelled leave the load alone *)
  Definition leaves_load : Prop := forall dt x g x' g', ex_step E dt (x, g) = Ok (x', g') ->
    node g' "sediment__total_of_loading" = node g "sediment__total_of_loading".
End Bending.
