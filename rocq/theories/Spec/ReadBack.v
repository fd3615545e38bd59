(** Reading the parameters of a process back (C119). *)
From Coq Require Import String List.
From Verif.Base Require Import Num Py Arr.
From Verif.Model Require Import Layers Grid SequenceModel Setattr Getattr Processes Whole.
From Verif.Spec Require Import Setting Followed.
Import ListNotations.
Local Open Scope string_scope.

Section ReadBack.
  Context {A X : Type} {num : Num A} {tr : Trans A} (E : externals A X).

  (* the keywords of a class, and the attributes in which they can be read *)
  Definition reads (c : pclass) : list (string * string) :=
    match c with
    | SeaLevelTimeSeries | SinusoidalSeaLevel | SubsidenceTimeSeries => []
    | SubmarineDiffuser => [("plain_slope", "plain_slope"); ("wave_base", "wave_base"); ("shoreface_height", "shoreface_height"); ("alpha", "alpha");
                            ("shelf_slope", "shelf_slope"); ("sediment_load", "sediment_load")]
    | Fluvial => [("sand_frac", "sand_frac"); ("wave_base", "wave_base"); ("sediment_load", "sediment_load"); ("sand_density", "sand_density");
                  ("plain_slope", "plain_slope"); ("hemipelagic", "hemi")]
    | SedimentFlexure => [("sand_density", "sand_density"); ("mud_density", "mud_density"); ("water_density", "water_density")]
    | ShorelineFinder => [("alpha", "alpha")]
    end.
  (* attributes of which there is no setter *)
  Definition read_only (c : pclass) : list string :=
    match c with
    | SeaLevelTimeSeries | SinusoidalSeaLevel | Fluvial => []
    | SubsidenceTimeSeries => ["subsidence_rate"; "time"]
    | SubmarineDiffuser => ["load0"; "k_land"; "time"]
    | SedimentFlexure => ["isostasy_time"; "sand_bulk_density"; "mud_bulk_density"]
    | ShorelineFinder => ["alpha"]
    end.
  Definition as_float (v : option (pvalue A)) : option A := match v with Some (Number v) => Some v | _ => None end.

  (* the last of some values, or the one before *)
  Definition latest (l : list (pvalue A)) (v : option A) : option A := fold_left (fun v x => match x with Number y => Some y | _ => v end) l v.
  (* those that a history of a process assigns to an attribute *)
  Definition assignments (a : string) (h : list (event A)) : list (pvalue A) :=
    flat_map (fun e => match e with Assign n v => if String.eqb n a then [v] else [] | Step _ => [] end) h.

  (* the attribute of a process of a model *)
  Definition attribute (m : smodel A (parts A X)) (n a : string) : option A :=
    match dget String.eqb (sm_world m) n with Some (Ours o) => get_attribute a o | _ => None end.
  (* a model after calls that returned, or stopped at the end; and the values
     that set_params gave to the attribute a of the process n *)
  Inductive went (names : list string) (n a : string) (m0 : smodel A (parts A X)) : smodel A (parts A X) -> list (pvalue A) -> Prop :=
  | went_start : went names n a m0 m0 []
  | went_step m l dt m' : went names n a m0 m l -> run_one_step (named_processes E names) dt m = Stepped m' -> went names n a m0 m' l
  | went_stop m l dt m' : went names n a m0 m l -> run_one_step (named_processes E names) dt m = ClockStop m' -> went names n a m0 m' l
  | went_set m l params m' : went names n a m0 m l -> set_model_params E params m = Ok m' -> went names n a m0 m' (l ++ Followed.assigned n a params).
End ReadBack.
