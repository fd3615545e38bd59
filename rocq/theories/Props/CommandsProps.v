(** C91-C95: the commands as a whole.

    [run_command pr setp fuel m c] is the loop of `sequence run` on a model
    [m] with configuration [c].  The vocabulary is in Spec/Run.v: [reached c k
    m mk] says that the loop is in the state [mk] after [k] rounds, [set_world]
    is set_params on components whose parameters are the first part of the
    world, and [only_reads] components do not change their own parameters.
    [in_force] and [agrees] are in Spec/Sections.v and Spec/CommandLine.v. *)
From Coq Require Import String Ascii List Bool Arith QArith Reals Lra Permutation.
From Verif.Base Require Import Num Py Arr.
From Verif.Model Require Import Config Cli Layers Grid Sequence SequenceModel Commands.
From Verif.Model Require Processes.
From Verif.Spec Require Import Profile Sections Parameters CommandLine Column Run.
From Verif.Proofs Require Import ConfigEx DotsP CliEx SequenceModelEx CommandsP CommandsEx FolderP.
Import ListNotations.
Local Open Scope R_scope.
Local Open Scope string_scope.
Local Open Scope list_scope.

(** C91 *)
(* whatever set_params does: every full step up to the clock's stop is taken,
   and followed by a set_params with the changes of the configuration *)
Theorem C91_rounds {S W} (seqb : S -> S -> bool) (set_order : flat S -> flat S) times (dicts : list (dict S)) (ts : list (option R)) c
    (pr : processes R W) (setp : W -> dict S -> result W) (m : smodel R W) stop :
  (forall a b, seqb a b = true <-> a = b) -> (forall l, Permutation (set_order l) l) ->
  plain_sections dicts -> length ts = length dicts ->
  hd 1%nat times = 0%nat -> Forall (fun t => (0 < t)%nat) (tl times) ->
  (forall i j, (i < j < length times)%nat -> (nth i times 0 <= nth j times 0)%nat) ->
  run_config times (map (fun td => [td]) (combine ts dicts)) = Ok c ->
  0 < ck_step (sm_clock m) -> ck_stop (sm_clock m) = Some stop ->
  let at_step k := in_force (combine (map INR times) dicts) (INR k) in
  exists n ds, full_steps (ck_time (sm_clock m)) stop (ck_step (sm_clock m)) n /\ length ds = n
    /\ (forall k, (k < n)%nat -> reports_change (at_step k) (at_step (Datatypes.S k)) (nth k ds []))
    /\ forall fuel, (n < fuel)%nat ->
       match run_command seqb set_order pr setp fuel m c with
       | Some (Ok (m', _)) => exists mn, rounds pr setp ds m mn /\ run_one_step pr None mn = ClockStop m'
       | Some (Err e) => exists k mk, (k < n)%nat /\ rounds pr setp (firstn k ds) m mk
           /\ (run_one_step pr None mk = Raised e
               \/ exists m2, run_one_step pr None mk = Stepped m2 /\ setp (sm_world m2) (nth k ds []) = Err e)
       | None => False
       end.
Proof.
  exact (fun sq so pl le hd tl so' rc => run_rounds seqb set_order sq so times dicts ts c pl le hd tl so' rc pr setp m stop).
Qed.
Print Assumptions C91_rounds.
(* with set_params: only a component can make the run fail *)
Theorem C91_run {S X} (seqb : S -> S -> bool) (set_order : flat S -> flat S) times (dicts : list (dict S)) (ts : list (option R)) c
    (pr : processes R (Processes.context (pyval S) * X)) m stop :
  (forall a b, seqb a b = true <-> a = b) -> (forall l, Permutation (set_order l) l) ->
  plain_sections dicts -> length ts = length dicts ->
  hd 1%nat times = 0%nat -> Forall (fun t => (0 < t)%nat) (tl times) ->
  (forall i j, (i < j < length times)%nat -> (nth i times 0 <= nth j times 0)%nat) ->
  run_config times (map (fun td => [td]) (combine ts dicts)) = Ok c ->
  Forall only_reads (pr_components pr) -> later_sections_fit (dkeys (fst (sm_world m))) dicts ->
  agrees (in_force (combine (map INR times) dicts) 0) (fst (sm_world m)) ->
  0 < ck_step (sm_clock m) -> ck_stop (sm_clock m) = Some stop ->
  exists n, full_steps (ck_time (sm_clock m)) stop (ck_step (sm_clock m)) n /\
  forall fuel, (n < fuel)%nat ->
    match run_command seqb set_order pr set_world fuel m c with
    | Some (Ok (m', _)) => exists mn, reached seqb set_order pr set_world c n m mn /\ run_one_step pr None mn = ClockStop m'
    | Some (Err e) => exists k mk, (k < n)%nat /\ reached seqb set_order pr set_world c k m mk /\ run_one_step pr None mk = Raised e
    | None => False
    end.
Proof.
  exact (fun sq so pl le hd tl so' rc re fi ag =>
    run_with_parameters seqb set_order sq so times dicts ts c pl le hd tl so' rc pr re m fi ag stop).
Qed.
Print Assumptions C91_run.
(* and the parameters that round k+1 runs with are those of step k *)
Theorem C91_parameters {S X} (seqb : S -> S -> bool) (set_order : flat S -> flat S) times (dicts : list (dict S)) (ts : list (option R)) c
    (pr : processes R (Processes.context (pyval S) * X)) m k mk :
  (forall a b, seqb a b = true <-> a = b) -> (forall l, Permutation (set_order l) l) ->
  plain_sections dicts -> length ts = length dicts ->
  hd 1%nat times = 0%nat -> Forall (fun t => (0 < t)%nat) (tl times) ->
  (forall i j, (i < j < length times)%nat -> (nth i times 0 <= nth j times 0)%nat) ->
  run_config times (map (fun td => [td]) (combine ts dicts)) = Ok c ->
  Forall only_reads (pr_components pr) -> later_sections_fit (dkeys (fst (sm_world m))) dicts ->
  agrees (in_force (combine (map INR times) dicts) 0) (fst (sm_world m)) ->
  reached seqb set_order pr set_world c k m mk ->
  agrees (in_force (combine (map INR times) dicts) (INR k)) (fst (sm_world mk)).
Proof.
  exact (fun sq so pl le hd tl so' rc re fi ag =>
    reached_agree seqb set_order sq so times dicts ts c pl le hd tl so' rc pr re m fi ag k mk).
Qed.
Print Assumptions C91_parameters.
(* a clock without a stop: an error at once, before any step *)
Theorem C91_no_stop {S W} (seqb : S -> S -> bool) (set_order : flat S -> flat S) (pr : processes R W) (setp : W -> dict S -> result W) fuel m c :
  ck_stop (sm_clock m) = None -> run_command seqb set_order pr setp fuel m c = Some (Err TypeError).
Proof. exact (run_without_a_stop seqb set_order pr setp fuel m c). Qed.
Print Assumptions C91_no_stop.
Example C91_nonvacuous : exists (c : config nat R) m m1,
  run_config [0; 2]%nat (map (fun td => [td]) (combine [None; None] [ex_base; ex_mud])) = Ok c
  /\ plain_sections [ex_base; ex_mud] /\ later_sections_fit (dkeys (fst (sm_world m))) [ex_base; ex_mud]
  /\ agrees (in_force (combine (map INR [0; 2]%nat) [ex_base; ex_mud]) 0) (fst (sm_world m))
  /\ sm_clock m = clock_init 0 (Some 100) 1
  /\ reached Nat.eqb (fun l => l) ex_empty set_world c 1 m m1 /\ ck_time (sm_clock m1) = 1.
Proof. exact (ex_reached_all 1 ltac:(lra)). Qed.

(** C92: the times of the configuration are compared with the number of steps,
    not with the time of the clock *)
Definition C92_statement : Prop :=
  forall (S X : Type) (seqb : S -> S -> bool) (set_order : flat S -> flat S) (times : list nat) (dicts : list (dict S)) (ts : list (option R)) c
         (pr : processes R (Processes.context (pyval S) * X)) m k mk,
  (forall a b, seqb a b = true <-> a = b) -> (forall l, Permutation (set_order l) l) ->
  plain_sections dicts -> length ts = length dicts -> hd 1%nat times = 0%nat -> Forall (fun t => (0 < t)%nat) (tl times) ->
  (forall i j, (i < j < length times)%nat -> (nth i times 0 <= nth j times 0)%nat) ->
  run_config times (map (fun td => [td]) (combine ts dicts)) = Ok c ->
  Forall only_reads (pr_components pr) -> later_sections_fit (dkeys (fst (sm_world m))) dicts ->
  agrees (in_force (combine (map INR times) dicts) 0) (fst (sm_world m)) ->
  ck_time (sm_clock m) = 0 -> 0 < ck_step (sm_clock m) -> reached seqb set_order pr set_world c k m mk ->
  agrees (in_force (combine (map INR times) dicts) (ck_time (sm_clock mk))) (fst (sm_world mk)).
Theorem C92_in_time_refuted : ~ C92_statement.
Proof. exact in_time_refuted. Qed.
Print Assumptions C92_in_time_refuted.
(* proved for steps of 1 *)
Theorem C92_in_time_partial {S X} (seqb : S -> S -> bool) (set_order : flat S -> flat S) times (dicts : list (dict S)) (ts : list (option R)) c
    (pr : processes R (Processes.context (pyval S) * X)) m k mk :
  (forall a b, seqb a b = true <-> a = b) -> (forall l, Permutation (set_order l) l) ->
  plain_sections dicts -> length ts = length dicts ->
  hd 1%nat times = 0%nat -> Forall (fun t => (0 < t)%nat) (tl times) ->
  (forall i j, (i < j < length times)%nat -> (nth i times 0 <= nth j times 0)%nat) ->
  run_config times (map (fun td => [td]) (combine ts dicts)) = Ok c ->
  Forall only_reads (pr_components pr) -> later_sections_fit (dkeys (fst (sm_world m))) dicts ->
  agrees (in_force (combine (map INR times) dicts) 0) (fst (sm_world m)) ->
  ck_time (sm_clock m) = 0 -> ck_step (sm_clock m) = 1 -> reached seqb set_order pr set_world c k m mk ->
  agrees (in_force (combine (map INR times) dicts) (ck_time (sm_clock mk))) (fst (sm_world mk)).
Proof.
  exact (fun sq so pl le hd tl so' rc re fi ag =>
    parameters_in_time seqb set_order sq so times dicts ts c pl le hd tl so' rc pr re m fi ag k mk).
Qed.
Print Assumptions C92_in_time_partial.
Example C92_nonvacuous : exists (c : config nat R) m m1,
  run_config [0; 2]%nat (map (fun td => [td]) (combine [None; None] [ex_base; ex_mud])) = Ok c
  /\ plain_sections [ex_base; ex_mud] /\ later_sections_fit (dkeys (fst (sm_world m))) [ex_base; ex_mud]
  /\ agrees (in_force (combine (map INR [0; 2]%nat) [ex_base; ex_mud]) 0) (fst (sm_world m))
  /\ sm_clock m = clock_init 0 (Some 100) 1
  /\ reached Nat.eqb (fun l => l) ex_empty set_world c 1 m m1 /\ ck_time (sm_clock m1) = 1.
Proof. exact (ex_reached_all 1 ltac:(lra)). Qed.

(** C93: set_params gives a shared parameter to one of the two processes *)
Definition C93_statement : Prop :=
  forall (V G : Type) (veqb : V -> V -> bool) (g g' : G) processes ctx objs params cs,
  (forall v, veqb v v = true) -> Processes.load_processes veqb record_call g processes ctx = Ok (objs, g') ->
  NoDup (dkeys params) -> Forall (fun nv => NoDup (dkeys (snd nv))) params ->
  Processes.set_params store (attributes objs) params = Ok cs ->
  forall p1 p2 keys, In (p1, p2, keys) shared_parameters -> enabled processes p1 -> enabled processes p2 ->
    (forall k v1 v2, In k keys -> value ctx p1 k = Some v1 -> value ctx p2 k = Some v2 -> veqb v2 v1 = true) ->
    forall k, In k keys -> (forall v1 v2, value params p1 k = Some v1 -> value params p2 k = Some v2 -> v1 = v2) ->
    value cs p1 k = value cs p2 k.
Theorem C93_shared_refuted : ~ C93_statement.
Proof. exact still_shared_refuted. Qed.
Print Assumptions C93_shared_refuted.
(* proved when the parameter is given to both or to neither *)
Theorem C93_shared_partial {V G} (veqb : V -> V -> bool) (g g' : G) processes ctx objs params cs :
  (forall v, veqb v v = true) -> Processes.load_processes veqb record_call g processes ctx = Ok (objs, g') ->
  NoDup (dkeys params) -> Forall (fun nv => NoDup (dkeys (snd nv))) params ->
  Processes.set_params store (attributes objs) params = Ok cs ->
  forall p1 p2 keys, In (p1, p2, keys) shared_parameters -> enabled processes p1 -> enabled processes p2 ->
    (forall k v1 v2, In k keys -> value ctx p1 k = Some v1 -> value ctx p2 k = Some v2 -> veqb v2 v1 = true) ->
    forall k, In k keys -> value params p1 k = value params p2 k -> value cs p1 k = value cs p2 k.
Proof. exact (fun r => still_shared veqb r g g' processes ctx objs params cs). Qed.
Print Assumptions C93_shared_partial.
Example C93_nonvacuous : exists objs cs,
  Processes.load_processes Nat.eqb record_call tt ["submarine_diffusion"] [("fluvial", [("sediment_load", 1%nat)])] = Ok (objs, tt)
  /\ Processes.set_params store (attributes objs) [("fluvial", [("sediment_load", 2%nat)]); ("submarine_diffusion", [("sediment_load", 2%nat)])] = Ok cs
  /\ value cs "fluvial" "sediment_load" = Some 2%nat /\ value cs "submarine_diffusion" "sediment_load" = Some 2%nat.
Proof. eexists. eexists. repeat split; reflexivity. Qed.

(** C94 *)
Theorem C94_setup_then_run {S} (parse : string -> result (pyval S)) render (read : string -> string -> result (list (option R * dict S)))
    os (w : @world S) ps :
  Forall (valid_option parse) os -> Forall (fun o => proper (op_value o)) os ->
  Forall (fun gd => exists sub, snd gd = PyDict sub) (w_defaults w) -> proper (PyDict (w_defaults w)) ->
  ~ In "processes" (dkeys (w_defaults w)) -> proper ps -> (forall sub, ps <> PyDict sub) ->
  NoDup (dkeys (w_files w)) ->
  (forall f t, file w f = Some t -> ~ In f input_files /\ ~ exists middle, f = ("sequence" ++ middle ++ ".toml")%string) ->
  (forall f d, In f input_files -> exists t, render f d = Ok t) ->
  (forall d t, load_model_params parse (w_defaults w) (map written os) = Ok d -> render "sequence.toml" d = Ok t ->
     read "sequence.toml" (t ++ newline)%string = Ok [(Some 0, ("processes", ps) :: d)]) ->
  exists w' c e, setup parse render (map written os) w = (w', Ok tt) /\ run_read read w' = Ok c /\ as_dict c = Ok e
    /\ leaf_at e ["processes"] = Some (as_list ps)
    /\ (forall before o after sub, os = before ++ o :: after -> dget String.eqb (w_defaults w) (group_of o) = Some (PyDict sub) ->
          (forall o', In o' after -> group_of o' <> group_of o) -> (forall sub, op_value o <> PyDict sub) ->
          leaf_at e (op_names o) = Some (as_list (op_value o)))
    /\ (forall g k rest sub, dget String.eqb (w_defaults w) g = Some (PyDict sub) ->
          (forall o names, In o os -> op_names o <> g :: k :: names) ->
          leaf_at e (g :: k :: rest) = says (w_defaults w) (g :: k :: rest)).
Proof. exact (setup_then_run parse render read os w ps). Qed.
Print Assumptions C94_setup_then_run.
Example C94_nonvacuous : Forall (valid_option parse_text) ex_options /\ Forall (fun o => proper (op_value o)) ex_options
  /\ Forall (fun gd => exists sub, snd gd = PyDict sub) (w_defaults ex_folder) /\ proper (PyDict (w_defaults ex_folder))
  /\ (forall f t, file ex_folder f = Some t -> ~ In f input_files /\ ~ exists middle, f = ("sequence" ++ middle ++ ".toml")%string)
  /\ (forall d t, load_model_params parse_text (w_defaults ex_folder) (map written ex_options) = Ok d -> Ok "text" = Ok t ->
       ex_read "sequence.toml" (t ++ newline)%string = Ok [(Some 0, ("processes", PyList []) :: d)])
  /\ match run_read (A := R) ex_read (fst (setup parse_text (fun _ _ => Ok "text") (map written ex_options) ex_folder)) with
     | Ok c => as_dict c = Ok (("processes", PyList []) :: ex_written)
     | Err _ => False
     end.
Proof. exact ex_setup_run. Qed.

(** C95 *)
Theorem C95_plot_settings {S} (parse : string -> result (pyval S)) (defaults : dict S) (toml : option (list (option R * dict S))) os :
  Forall (valid_setting parse) os ->
  (forall sections, toml = Some sections -> exists t d0 rest, sections = (t, d0) :: rest /\ proper (PyDict d0)
     /\ forall v, dget String.eqb d0 "plot" = Some v -> exists p, v = PyDict p) ->
  exists config, plot_config parse defaults toml (map written os) = Ok config
    /\ forall k,
       (forall v, last_setting os k = Some v -> dget String.eqb config k = Some v)
       /\ (last_setting os k = None ->
           forall t d0 rest v, toml = Some ((t, d0) :: rest) -> says d0 ["plot"; k] = Some v -> dget String.eqb config k = Some v)
       /\ (last_setting os k = None ->
           (forall t d0 rest, toml = Some ((t, d0) :: rest) -> value_at d0 ["plot"; k] = None) ->
           dget String.eqb config k = dget String.eqb defaults k).
Proof. exact (plot_settings parse defaults toml os). Qed.
Print Assumptions C95_plot_settings.
Example C95_nonvacuous : Forall (valid_setting parse_text) [mkOption ["n_layers"] "7" (text "7")]
  /\ proper (PyDict [("plot", PyDict [("title", text "a"); ("n_layers", text "3")])])
  /\ plot_config (A := R) parse_text (plot_keywords (fun s => s) (fun _ => "0")) (Some [(None, [("plot", PyDict [("title", text "a"); ("n_layers", text "3")])])])
       (map written [mkOption ["n_layers"] "7" (text "7")])
     = Ok (dset String.eqb (dset String.eqb (plot_keywords (fun s => s) (fun _ => "0")) "title" (text "a")) "n_layers" (text "7")).
Proof. exact ex_plot. Qed.

(** C96: the default title of plot_file never shows *)
Definition C96_statement : Prop :=
  forall (S : Type) (parse : string -> result (pyval S)) (str : string -> S) (num : Q -> S) (toml : option (list (option R * dict S))) os config filename,
  Forall (valid_setting parse) os -> last_setting os "title" = None ->
  (forall sections t d, toml = Some sections -> In (t, d) sections -> value_at d ["plot"; "title"] = None) ->
  plot_config parse (plot_keywords str num) toml (map written os) = Ok config ->
  plot_title config filename = filename.
Theorem C96_title_refuted : ~ C96_statement.
Proof. exact title_refuted. Qed.
Print Assumptions C96_title_refuted.
(* a title that is set is the one that shows *)
Theorem C96_title_partial {S} (parse : string -> result (pyval S)) (defaults : dict S) (toml : option (list (option R * dict S))) os config filename v :
  Forall (valid_setting parse) os -> plot_config parse defaults toml (map written os) = Ok config ->
  last_setting os "title" = Some v -> plot_title config filename = v.
Proof. exact (title_set parse defaults toml os config filename v). Qed.
Print Assumptions C96_title_partial.
Example C96_nonvacuous : Forall (valid_setting parse_text) [mkOption ["title"] "b" (text "b")]
  /\ exists config, plot_config (A := R) parse_text (plot_keywords (fun s => s) (fun _ => "0")) None (map written [mkOption ["title"] "b" (text "b")]) = Ok config
     /\ plot_title config (text "out.nc") = text "b".
Proof. exact ex_title. Qed.
