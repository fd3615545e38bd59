(** The components of the repository as steps on (component states, grid), the
    form in which Sequence and SequenceModel run them
    (sequence/sequence.py:123-124, sequence/sequence_model.py:323-325). *)
From Coq Require Import String List ZArith QArith.
From Verif.Base Require Import Num Py Arr.
From Verif.Model Require Import Layers Grid Shoreline SeaLevel Subsidence Flexure Sequence.
Import ListNotations.

Section Components.
  Context {A : Type} `{Num A} {W : Type}.

  (* a step on one part of the joint state *)
  Definition on_part {S} (get : W -> S) (put : S -> W -> W)
      (step : A -> S -> grid A -> result (S * grid A)) : component A W :=
    fun dt wg => let* (c, g) := step dt (get (fst wg)) (snd wg) in Ok (put c (fst wg), g).

  (* sequence/shoreline.py:134-143 run_one_step of a ShorelineFinder; dt unused *)
  Definition shoreline_component interp1d alpha : component A W :=
    fun _ wg => let* g := shoreline_update interp1d alpha (snd wg) in Ok (fst wg, g).

  (* sequence/subsidence.py:106-118 *)
  Definition subsidence_component (get : W -> subsidence_comp A) put : component A W :=
    on_part get put subsidence_step.

  (* sequence/sea_level.py:113-127: an exception of the curve is raised *)
  Definition sea_level_component (get : W -> sea_level_comp A) put : component A W :=
    on_part get put (fun dt c g =>
      match sea_level_step dt c g with
      | (c', g', None) => Ok (c', g')
      | (_, _, Some e) => Err e
      end).

  (* sequence/sediment_flexure.py:545-584 *)
  Definition sed_flexure_component `{!Trans A} (flexure : field A -> field A) gravity (get : W -> sed_flexure A) put
    : component A W := on_part get put (sed_flexure_step flexure gravity).
End Components.
