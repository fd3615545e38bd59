(** A model whose processes take their turns. *)
From Coq Require Import String List ZArith QArith Bool Reals.
From Verif.Base Require Import Num Py Arr.
From Verif.Model Require Import Layers Grid Interp Subsidence Csv SequenceModel Setattr Processes Whole.
From Verif.Spec Require Import Laid Session Configured Turns.
From Verif.Proofs Require Import FluvialEx ScriptEx WholeP WholeEx FollowEx.
Import ListNotations.
Local Open Scope string_scope.

Lemma ex_counts {A} `{Num A} (i1 : list A -> list A -> result (A -> A)) : leaves_counts (ex_ext i1).
Proof. intros d x g x' g' Y i j. cbn in Y. unfold kept in Y. assert (g' = g) by congruence. subst. reflexivity. Qed.

(* the newest layer of the second cell after a step: thickness, age, porosity *)
Notation ex_listed_load names := (@load_model Q _ half_trans unit ex_whole ex_grid6 (read_bathymetry ex_bath) names ex_context (clock_init 0 (Some 10) 1)%Q).
Definition ex_laid (names : list string) : option (list string * list (option Q)) :=
  match ex_listed_load names with
  | Ok (names', m) =>
      match ex_run names' None m with
      | Stepped m' => Some (names', Some (Qred (newest_thickness (sm_grid m') 0 2)) :: map (fun k => option_map Qred (newest_record k (sm_grid m') 0 2)) ["age"; "porosity"])
      | _ => None
      end
  | Err _ => None
  end.
Lemma ex_laid_ok :
  ex_laid ["submarine_diffusion"; "shoreline"; "subsidence"; "submarine_diffusion"]
    = Some (["submarine_diffusion"; "shoreline"; "subsidence"; "fluvial"], [Some (1 # 4); Some 1; Some (1 # 2)]%Q)
  /\ ex_laid ["compaction"; "fluvial"; "sea_level"]
    = Some (["compaction"; "fluvial"; "sea_level"; "shoreline"], [Some (1 # 4); Some 1; Some (1 # 4)]%Q).
Proof. split; vm_compute; reflexivity. Qed.

(* set_params on a model with two processes: the rates of its subsidence, and
   the sea level *)
Definition ex_assigning (changes : context (pvalue Q)) : result (list Q * option Q) :=
  match ex_listed_load ["subsidence"; "submarine_diffusion"] with
  | Ok (_, m) =>
      match set_model_params ex_whole changes m with
      | Ok m' => Ok (match object m' "subsidence" with Some (Ours (PSubsidence s)) => map Qred (sub_rate s) | _ => [] end, option_map Qred (gval (sm_grid m') "sea_level__elevation"))
      | Err e => Err e
      end
  | Err e => Err e
  end.
Definition ex_sinks (v : Q) : string * pvalue Q := ("filepath", Table [0; 5000]%Q [v; v]).
Lemma ex_assigning_ok :
  ex_assigning [("subsidence", [ex_sinks 2]); ("flexure", [("isostasytime", Number 1%Q)])] = Err KeyError
  /\ ex_assigning [] = Ok ([0; -1 # 5; -2 # 5; -3 # 5; -4 # 5; -1 # 1]%Q, Some 0%Q)
  /\ ex_assigning [("submarine_diffusion", [("sea_level", Number 8%Q)]); ("subsidence", [ex_sinks 7; ex_sinks 2]); ("submarine_diffusion", [("sea_level", Number 9%Q)])]
     = Ok ([2; 2; 2; 2; 2; 2]%Q, Some 9%Q).
Proof. repeat split; vm_compute; reflexivity. Qed.
