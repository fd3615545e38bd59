(** The curves that the parameters of a model describe, and the calls under
    which it follows them (C113, C114). *)
From Coq Require Import String List ZArith QArith.
From Verif.Base Require Import Num Py Arr.
From Verif.Model Require Import Layers Grid Interp SeaLevel SequenceModel Setattr Processes Whole.
From Verif.Spec Require Import Session Configured.
Import ListNotations.
Local Open Scope string_scope.

Section Followed.
  Context {A X : Type} {num : Num A} {tr : Trans A} (E : externals A X).

  (* a number in a section, or its default *)
  Definition number (s : section (pvalue A)) (key : string) (default : A) : A :=
    match dget String.eqb s key with Some (Number v) => v | _ => default end.
  (* the sea level against time that a section [sea_level] describes: the table
     in a file, or a sinusoid *)
  Definition described_curve (s : section (pvalue A)) : A -> result A :=
    match dget String.eqb s "filepath" with
    | Some (Table x y) => interp_linear x y
    | _ => fun t => Ok (sinusoid (number s "wave_length" n1) (number s "amplitude" n1) (number s "phase" n0)
                          (number s "mean" n0) (number s "linear" n0) t)
    end.
  (* the rate against position that a section [subsidence] describes *)
  Definition described_rate (s : section (pvalue A)) : A -> result A :=
    match dget String.eqb s "filepath" with Some (Table x y) => interp_linear x y | _ => fun _ => Err TypeError end.
  (* the values that set_params(params) assigns to a parameter of a process, in
     order *)
  Definition assigned (process key : string) (params : context (pvalue A)) : list (pvalue A) :=
    flat_map (fun nv => if String.eqb (fst nv) process then map snd (filter (fun kv => String.eqb (fst kv) key) (snd nv)) else []) params.
  (* the table given last *)
  Definition newest (process : string) (params : context (pvalue A)) (f : A -> result A) : A -> result A :=
    match rev (assigned process "filepath" params) with Table x y :: _ => interp_linear x y | _ => f end.

  (* a model after steps of the length of its clock and changes of parameters,
     other than the time of the sea level, all of which returned; and the
     newest curve of a process *)
  Inductive followed (names : list string) (process : string) (m0 : smodel A (parts A X)) (f0 : A -> result A)
    : smodel A (parts A X) -> (A -> result A) -> Prop :=
  | followed_start : followed names process m0 f0 m0 f0
  | followed_step m f dt m' : followed names process m0 f0 m f -> step_used dt m = ck_step (sm_clock m) ->
      run_one_step (named_processes E names) dt m = Stepped m' -> followed names process m0 f0 m' f
  | followed_set m f params m' : followed names process m0 f0 m f -> assigned "sea_level" "time" params = [] ->
      set_model_params E params m = Ok m' -> followed names process m0 f0 m' (newest process params f).
  (* the classes that are not modelled leave the sea level alone *)
  Definition leaves_sea : Prop := forall dt x g x' g', ex_step E dt (x, g) = Ok (x', g') ->
    gval g' "sea_level__elevation" = gval g "sea_level__elevation"
    /\ gval g' "sea_level__increment_of_elevation" = gval g "sea_level__increment_of_elevation".

  (* the same for the subsidence, with steps of any length; with every step,
     the table and the length of the step *)
  Inductive sinking (names : list string) (m0 : smodel A (parts A X)) (f0 : A -> result A)
    : smodel A (parts A X) -> (A -> result A) -> list ((A -> result A) * A) -> Prop :=
  | sinking_start : sinking names m0 f0 m0 f0 []
  | sinking_step m f l dt m' : sinking names m0 f0 m f l -> run_one_step (named_processes E names) dt m = Stepped m' ->
      sinking names m0 f0 m' f (l ++ [(f, step_used dt m)])
  | sinking_stop m f l dt m' : sinking names m0 f0 m f l -> run_one_step (named_processes E names) dt m = ClockStop m' ->
      sinking names m0 f0 m' f l
  | sinking_set m f l params m' : sinking names m0 f0 m f l -> set_model_params E params m = Ok m' ->
      sinking names m0 f0 m' (newest "subsidence" params f) l.
  (* the elevation z at the position x, lowered step by step, in the order in
     which the program adds *)
  Definition lowered (l : list ((A -> result A) * A)) (x z : A) : result A :=
    foldM (fun z fd => let* rate := fst fd x in Ok (nadd z (nadd n0 (nmul rate (snd fd))))) l z.
  (* the sum of rate times length of step at the position x *)
  Definition subsided (l : list ((A -> result A) * A)) (x : A) : result A :=
    foldM (fun sum fd => let* rate := fst fd x in Ok (nadd sum (nmul rate (snd fd)))) l n0.
  (* the classes that are not modelled leave the bedrock alone; creating one
     may add the field of its increment, with zeros *)
  Definition same_bedrock (g g' : grid A) : Prop :=
    g_rows g' = g_rows g /\ g_cols g' = g_cols g /\ g_dx g' = g_dx g
    /\ node g' "bedrock_surface__elevation" = node g "bedrock_surface__elevation"
    /\ node g' "bedrock_surface__increment_of_elevation" = node g "bedrock_surface__increment_of_elevation".
  Definition leaves_bedrock : Prop :=
    (forall cls s g x g', ex_make E cls s g = Ok (x, g') ->
       g_rows g' = g_rows g /\ g_cols g' = g_cols g /\ g_dx g' = g_dx g
       /\ node g' "bedrock_surface__elevation" = node g "bedrock_surface__elevation"
       /\ (node g' "bedrock_surface__increment_of_elevation" = node g "bedrock_surface__increment_of_elevation"
           \/ node g "bedrock_surface__increment_of_elevation" = None
              /\ node g' "bedrock_surface__increment_of_elevation" = Some (full (g_rows g + 2) (g_cols g) n0)))
    /\ (forall dt x g x' g', ex_step E dt (x, g) = Ok (x', g') -> same_bedrock g g')
    /\ (forall n v x g x' g', ex_set E n v (x, g) = Ok (x', g') -> same_bedrock g g').
End Followed.
