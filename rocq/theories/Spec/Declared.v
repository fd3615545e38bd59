(** Fields that a process reads and writes (C111). *)
From Coq Require Import String List.
From Verif.Base Require Import Num Py Arr.
From Verif.Model Require Import Layers Grid Setattr Info.
Import ListNotations.
Local Open Scope string_scope.

Definition declared (c : pclass) : list (string * place) := map fst (info c).
Definition declared_output (c : pclass) : list (string * place) :=
  map fst (filter (fun d => match snd d with ToRead => false | _ => true end) (info c)).
(* fields that are used or written without being declared *)
Definition undeclared (c : pclass) : list (string * place) :=
  match c with
  | SubmarineDiffuser => [("kd", AtNode)]
  | Fluvial => [("bedrock_surface__increment_of_elevation", AtNode)]
  | SedimentFlexure => [("lithosphere__increment_of_overlying_pressure", AtNode); ("lithosphere_surface__increment_of_elevation", AtNode)]
  | ShorelineFinder => [("sediment_deposit__thickness", AtNode)]
  | _ => []
  end.
Definition undeclared_output (c : pclass) : list (string * place) :=
  match c with SubmarineDiffuser | SedimentFlexure => undeclared c | _ => [] end.

Section Declared.
  Context {A : Type}.
  Definition class_of (p : process A) : pclass :=
    match p with
    | PSeaLevel _ => SeaLevelTimeSeries | PSinusoid _ => SinusoidalSeaLevel | PSubsidence _ => SubsidenceTimeSeries
    | PSubmarine _ => SubmarineDiffuser | PFluvial _ => Fluvial | PFlexure _ _ _ => SedimentFlexure | PShoreline _ => ShorelineFinder
    end.
  (* the field has the same values in both grids, or is in neither *)
  Definition same_field (g g' : grid A) (f : string * place) : Prop :=
    match snd f with
    | AtNode => node g (fst f) = node g' (fst f)
    | AtGrid => gval g (fst f) = gval g' (fst f)
    | AtRow => rowf g (fst f) = rowf g' (fst f)
    end.
  Definition same_size (g g' : grid A) : Prop :=
    g_rows g = g_rows g' /\ g_cols g = g_cols g' /\ g_dy g = g_dy g' /\ g_dx g = g_dx g'.
  Definition agree_on (fields : list (string * place)) (g g' : grid A) : Prop :=
    same_size g g' /\ forall f, In f fields -> same_field g g' f.
  (* only these fields differ *)
  Definition changes_only (fields : list (string * place)) (g g' : grid A) : Prop :=
    same_size g g' /\ layers g = layers g' /\ forall f, ~ In f fields -> same_field g g' f.
  (* both raise the same, or both leave the same process, and these fields alike *)
  Definition alike_on (fields : list (string * place)) (r r' : result (process A * grid A)) : Prop :=
    match r, r' with
    | Ok (p, g), Ok (p', g') => p = p' /\ agree_on fields g g'
    | Err e, Err e' => e = e'
    | _, _ => False
    end.
End Declared.
