(** Parameters that are read back. *)
From Coq Require Import String List ZArith QArith Reals Lra Lia.
From Verif.Base Require Import Num Py Arr.
From Verif.Model Require Import Layers Grid Csv Fluvial Sequence SequenceModel Setattr Getattr Processes Whole.
From Verif.Spec Require Import Configured Session Followed Parameters Defaults Accepts ReadBack.
From Verif.Proofs Require Import FluvialEx ScriptEx WholeP LoadP FollowP OrderP TurnsP WholeEx AcceptsP ReadBackP.
Import ListNotations.
Local Open Scope string_scope.
Local Open Scope list_scope.

(* some attributes of a model: as it is loaded, after a step and set_params *)
Definition ex_read (names : list (string * string)) : option (list (option Q) * list (option Q)) :=
  match @load_model Q _ half_trans unit ex_whole ex_grid6 (read_bathymetry ex_bath) ex_names
          (ex_context ++ [("flexure", [("isostasytime", Number 7000%Q); ("sand_density", Number 2500%Q)]); ("shoreline", [("alpha", Number (1 # 1000)%Q)])]) (clock_init 0 (Some 10) 1)%Q with
  | Err _ => None
  | Ok (order, m) =>
      match @run_one_step Q _ (parts Q unit) (@named_processes Q _ half_trans unit ex_whole order) None m with
      | Stepped m' =>
          match set_model_params ex_whole [("fluvial", [("hemi", Number 5%Q); ("sand_frac", Number (1 # 4)%Q); ("sand_frac", Number (3 # 4)%Q)]);
                                           ("flexure", [("sand_density", Number 2600%Q)])] m' with
          | Ok m'' => Some (map (fun na => option_map Qred (attribute m (fst na) (snd na))) names, map (fun na => option_map Qred (attribute m'' (fst na) (snd na))) names)
          | Err _ => None
          end
      | _ => None
      end
  end.
Lemma ex_read_ok : ex_read [("fluvial", "sand_frac"); ("fluvial", "wave_base"); ("fluvial", "hemi"); ("fluvial", "sand_density");
                            ("submarine_diffusion", "wave_base"); ("submarine_diffusion", "sediment_load");
                            ("flexure", "sand_density"); ("flexure", "isostasy_time"); ("shoreline", "alpha")]
  = Some ([Some (1 # 2); Some 10; Some (1 # 2); Some 2650; Some 10; Some 3; Some 2500; Some 7000; Some (1 # 1000)],
          [Some (3 # 4); Some 10; Some 5; Some 2650; Some 10; Some 3; Some 2600; Some 7000; Some (1 # 1000)])%Q.
Proof. vm_compute. reflexivity. Qed.

Local Open Scope R_scope.
Section Ex.
  Context {tr : Trans R}.
  Notation ext := (ex_ext (@ex_level R _)).
  Lemma ex_model_reads : exists names m0 m, load_model ext ex_grid4 (read_bathymetry ex_flat) [] [] (clock_init 0 (Some 10) 1) = Ok (names, m0)
    /\ In "fluvial" names /\ handed [] [] "fluvial" [] /\ class_at "fluvial" (@nil (string * pvalue R)) = Some Fluvial /\ In ("hemipelagic", "hemi") (reads Fluvial)
    /\ went ext names "fluvial" "hemi" m0 m [Number 1; Number 5]
    /\ as_float (says Fluvial (@nil (string * pvalue R)) "hemipelagic") = Some 0.
  Proof.
    destruct ex_two_load as (g & names & m0 & El & Hc & Hr & Hd & Em).
    assert (Hh : handed [] [] "fluvial" []).
    { assert (N : forall p k, Accepts.given [] [] p k = None) by (intros p k; unfold Accepts.given; destruct (existsb _ _); reflexivity).
      intros k. split; [intros v; rewrite N; discriminate|]. intros _. split; [reflexivity|]. split; [|reflexivity]. intros. rewrite N. reflexivity. }
    assert (I : In "fluvial" names).
    { rewrite (proj1 (objects_listed ext _ _ _ _ _ _ _ m0 Em (reached_start _ _ _))). cbn. auto. }
    destruct (loaded_ours ext _ _ _ _ _ _ _ "fluvial" [] Fluvial Em I Hh eq_refl) as (o & h & h' & Do & Eo); [discriminate|discriminate|].
    destruct (created_reads _ _ _ _ _ _ "hemipelagic" "hemi" Eo) as [Co Ro]; [cbn; tauto|].
    assert (S : exists m, set_model_params ext [("fluvial", [("hemi", Number 1); ("hemi", Number 5)])] m0 = Ok m).
    { rewrite set_model_is. cbn [foldM]. unfold set_one. cbn [fst snd]. rewrite Do. destruct o as [| | | |[]| |]; try discriminate Co. eexists. reflexivity. }
    destruct S as [m S]. exists names, m0, m. split; [exact Em|]. split; [exact I|]. split; [exact Hh|]. split; [reflexivity|]. split; [cbn; tauto|].
    split; [exact (went_set ext names "fluvial" "hemi" m0 m0 [] _ m (went_start _ _ _ _ _) S)|]. unfold says. cbn. f_equal. numR. unfold Q2R; cbn; lra.
  Qed.
End Ex.
