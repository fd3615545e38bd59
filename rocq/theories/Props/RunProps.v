(** C99 and C100: dry runs, and changes of any section during a run. *)
From Coq Require Import String List ZArith QArith Reals Permutation.
From Verif.Base Require Import Num Py Arr.
From Verif.Model Require Import Config Cli Layers Grid Netcdf OutputWriter Sequence SequenceModel Commands DryRun.
From Verif.Model Require Processes.
From Verif.Spec Require Import Profile Sections Parameters CommandLine Column Run.
From Verif.Proofs Require Import SequenceModelEx CommandsEx ConfigEx CliEx ForeignP DryRunP.
Import ListNotations.

(** C99: what a dry run does to the files.  [load] makes the grid, the
    processes and the clock of a model from its parameters, [output_of] reads
    the output section: both are arbitrary. *)
Definition C99_statement : Prop :=
  forall (A S W : Type) (N : Num A)
    (load : dict S -> result (processes A (W * option (writer A * filesystem A)) * W * grid A * clock A))
    (output_of : dict S -> result (option output_args)) params fs p,
  fst (dry_run load output_of params fs) p = fs p.
Theorem C99_refuted : ~ C99_statement.
Proof.
  intros C. destruct ex_dry_removed as [_ E]. rewrite (C Q Q unit _ ex_load (ex_output true)) in E. discriminate E.
Qed.
Print Assumptions C99_refuted.
(* only the output file can change, only if clobber is true, and then it is gone *)
Theorem C99_partial {A S W} `{Num A}
    (load : dict S -> result (processes A (W * option (writer A * filesystem A)) * W * grid A * clock A))
    (output_of : dict S -> result (option output_args)) params fs p :
  fst (dry_run load output_of params fs) p = fs p
  \/ exists a, output_of params = Ok (Some a) /\ p = oa_path a /\ oa_clobber a = true
       /\ is_file fs p = true /\ fst (dry_run load output_of params fs) p = None.
Proof. exact (dry_run_effect load output_of params fs p). Qed.
Print Assumptions C99_partial.
Theorem C99_removes_partial {A S W} `{Num A}
    (load : dict S -> result (processes A (W * option (writer A * filesystem A)) * W * grid A * clock A))
    (output_of : dict S -> result (option output_args)) params fs a :
  output_of params = Ok (Some a) -> oa_clobber a = true -> snd (dry_run load output_of params fs) = Ok tt ->
  fst (dry_run load output_of params fs) (oa_path a) = None.
Proof. exact (dry_run_removes load output_of params fs a). Qed.
Print Assumptions C99_removes_partial.
Theorem C99_keeps_partial {A S W} `{Num A}
    (load : dict S -> result (processes A (W * option (writer A * filesystem A)) * W * grid A * clock A))
    (output_of : dict S -> result (option output_args)) params fs a :
  output_of params = Ok (Some a) -> oa_clobber a = false -> is_file fs (oa_path a) = true ->
  exists e, snd (dry_run load output_of params fs) = Err e.
Proof. exact (dry_run_refuses load output_of params fs a). Qed.
Print Assumptions C99_keeps_partial.
(* with the output options of the default parameters *)
Example C99_nonvacuous :
  let fs := fs_set (fun _ => None) "sequence.nc" (Some OtherFile) in
  snd (dry_run ex_load (ex_output true) [] fs) = Ok tt
  /\ fst (dry_run ex_load (ex_output true) [] fs) "sequence.nc"%string = None.
Proof. exact ex_dry_removed. Qed.

(** C100: a configuration may change any section at any time.  [reached] and
    the hypotheses on the files are those of C92: the components only read
    their parameters and no step raises. *)
Definition C100_statement : Prop :=
  forall (S X : Type) (seqb : S -> S -> bool) (set_order : flat S -> flat S) (times : list nat) (dicts : list (dict S)) (ts : list (option R)) c
         (pr : processes R (Processes.context (pyval S) * X)) m stop,
  (forall a b, seqb a b = true <-> a = b) -> (forall l, Permutation (set_order l) l) ->
  plain_sections dicts -> length ts = length dicts -> hd 1%nat times = 0%nat -> Forall (fun t => (0 < t)%nat) (tl times) ->
  (forall i j, (i < j < length times)%nat -> (nth i times 0 <= nth j times 0)%nat) ->
  run_config times (map (fun td => [td]) (combine ts dicts)) = Ok c ->
  Forall only_reads (pr_components pr) ->
  agrees (in_force (combine (map INR times) dicts) 0) (fst (sm_world m)) ->
  (0 < ck_step (sm_clock m))%R -> ck_stop (sm_clock m) = Some stop ->
  (forall k mk e, reached seqb set_order pr set_world c k m mk -> run_one_step pr None mk <> Raised e) ->
  exists fuel m' c', run_command seqb set_order pr set_world fuel m c = Some (Ok (m', c')).
Theorem C100_refuted : ~ C100_statement.
Proof. exact any_section_refuted. Qed.
Print Assumptions C100_refuted.
(* it holds if the sections of the later files are those of components *)
Theorem C100_partial {S X} (seqb : S -> S -> bool) (set_order : flat S -> flat S)
    (times : list nat) (dicts : list (dict S)) (ts : list (option R)) c
    (pr : processes R (Processes.context (pyval S) * X)) m stop :
  (forall a b, seqb a b = true <-> a = b) -> (forall l, Permutation (set_order l) l) ->
  plain_sections dicts -> length ts = length dicts -> hd 1%nat times = 0%nat -> Forall (fun t => (0 < t)%nat) (tl times) ->
  (forall i j, (i < j < length times)%nat -> (nth i times 0 <= nth j times 0)%nat) ->
  run_config times (map (fun td => [td]) (combine ts dicts)) = Ok c ->
  Forall only_reads (pr_components pr) -> later_sections_fit (dkeys (fst (sm_world m))) dicts ->
  agrees (in_force (combine (map INR times) dicts) 0) (fst (sm_world m)) ->
  (0 < ck_step (sm_clock m))%R -> ck_stop (sm_clock m) = Some stop ->
  (forall k mk e, reached seqb set_order pr set_world c k m mk -> run_one_step pr None mk <> Raised e) ->
  exists fuel m' c', run_command seqb set_order pr set_world fuel m c = Some (Ok (m', c')).
Proof. exact (fitting_completes seqb set_order times dicts ts c pr m stop). Qed.
Print Assumptions C100_partial.
(* a change of another section that is due before the clock stops ends the run
   with an exception *)
Theorem C100_stops_partial {S X} (seqb : S -> S -> bool) (set_order : flat S -> flat S)
    (times : list nat) (dicts : list (dict S)) (ts : list (option R)) c
    (pr : processes R (Processes.context (pyval S) * X)) m stop k p rest v :
  (forall a b, seqb a b = true <-> a = b) -> (forall l, Permutation (set_order l) l) ->
  plain_sections dicts -> length ts = length dicts -> hd 1%nat times = 0%nat -> Forall (fun t => (0 < t)%nat) (tl times) ->
  (forall i j, (i < j < length times)%nat -> (nth i times 0 <= nth j times 0)%nat) ->
  run_config times (map (fun td => [td]) (combine ts dicts)) = Ok c ->
  Forall only_reads (pr_components pr) ->
  (0 < ck_step (sm_clock m))%R -> ck_stop (sm_clock m) = Some stop ->
  in_force (combine (map INR times) dicts) (INR k) (p :: rest) <> Some v ->
  in_force (combine (map INR times) dicts) (INR (Datatypes.S k)) (p :: rest) = Some v ->
  (ck_time (sm_clock m) + INR (Datatypes.S k) * ck_step (sm_clock m) <= stop)%R -> ~ In p (dkeys (fst (sm_world m))) ->
  exists n, forall fuel, (n < fuel)%nat -> exists e, run_command seqb set_order pr set_world fuel m c = Some (Err e).
Proof.
  intros. eapply foreign_stops; eassumption.
Qed.
Print Assumptions C100_stops_partial.
(* a change of the number of layers to plot at the first step *)
Example C100_nonvacuous : exists c : config nat R,
  run_config [0; 1]%nat (map (fun td => [td]) (combine [None; None] [ex_plot0; ex_plot1])) = Ok c
  /\ plain_sections [ex_plot0; ex_plot1]
  /\ agrees (in_force (combine (map INR [0; 1]%nat) [ex_plot0; ex_plot1]) 0) (fst ex_params)
  /\ in_force (combine (map INR [0; 1]%nat) [ex_plot0; ex_plot1]) (INR 0) ["plot"; "n_layers"]%string = Some (num1 3)
  /\ in_force (combine (map INR [0; 1]%nat) [ex_plot0; ex_plot1]) (INR 1) ["plot"; "n_layers"]%string = Some (num1 7).
Proof. exact ex_plot_config. Qed.
