(** C52-C56 and C74-C76: the commands.

    [time_of_file], [valid_option], [written], [value_at], [file], [agrees]
    and [later_sections_fit] are in Spec/CommandLine.v; [in_force] and
    [reports_change] in Spec/Sections.v.  yaml.safe_load is [parse] and the
    text of a generated file is [render], both arbitrary. *)
From Coq Require Import String Ascii List Bool Reals Permutation.
From Verif.Base Require Import Num Py.
From Verif.Model Require Import Config Cli.
From Verif.Model Require Processes.
From Verif.Spec Require Import Sections Parameters CommandLine Run.
From Verif.Proofs Require Import ConfigEx CliP DotsP RunP RunLoopP CliEx.
Import ListNotations.
Local Open Scope string_scope.
Local Open Scope list_scope.

(** C52: the sections of one file, sequence.toml, are not applied: only the
    first is used *)
Definition C52_statement : Prop :=
  forall (S : Type) (seqb : S -> S -> bool) (set_order : flat S -> flat S) (sections : list (option R * dict S)) c n ds c',
  (forall a b, seqb a b = true <-> a = b) -> (forall l, Permutation (set_order l) l) ->
  plain_sections (map snd sections) -> increasing (map fst (load_sections sections)) -> hd 1%R (map fst (load_sections sections)) = 0%R ->
  run_config (fst (find_config_files ["sequence.toml"] [])) [sections] = Ok c ->
  updates seqb set_order (repeat 1%R n) c = Ok (ds, c') ->
  forall k, k < n -> reports_change (in_force (load_sections sections) (INR k)) (in_force (load_sections sections) (INR (Datatypes.S k))) (nth k ds []).
Theorem C52_sections_refuted : ~ C52_statement.
Proof. exact sections_refuted. Qed.
Print Assumptions C52_sections_refuted.
(* proved for several files of one section each: [n] rounds of the loop pass
   the changes of each step to set_params, for any model ... *)
Theorem C52_files_partial {S} (seqb : S -> S -> bool) (set_order : flat S -> flat S) times (dicts : list (dict S)) c (ts : list (option R)) n
    {M} (step : M -> result M) (setp : M -> dict S -> result M) m :
  (forall a b, seqb a b = true <-> a = b) -> (forall l, Permutation (set_order l) l) ->
  plain_sections dicts -> length ts = length dicts ->
  hd 1 times = 0 -> Forall (fun t => 0 < t) (tl times) -> (forall i j, i < j < length times -> nth i times 0 <= nth j times 0) ->
  run_config times (map (fun td => [td]) (combine ts dicts)) = Ok c ->
  let at_step k := in_force (combine (map INR times) dicts) (INR k) in
  exists ds c', length ds = n
    /\ (forall k, k < n -> reports_change (at_step k) (at_step (Datatypes.S k)) (nth k ds []))
    /\ run_loop seqb set_order step setp n (m, c) = let* m := foldM (fun m d => let* m := step m in setp m d) ds m in Ok (m, c').
Proof. exact (fun q o => run_differences seqb set_order q o times dicts c ts n step setp m). Qed.
Print Assumptions C52_files_partial.
(* ... and with components that store their attributes, the attributes follow
   the configuration and no others change *)
Theorem C52_parameters_partial {S} (seqb : S -> S -> bool) (set_order : flat S -> flat S) times (dicts : list (dict S)) c (ts : list (option R)) n
    (m : Processes.context (pyval S)) :
  (forall a b, seqb a b = true <-> a = b) -> (forall l, Permutation (set_order l) l) ->
  plain_sections dicts -> length ts = length dicts ->
  hd 1 times = 0 -> Forall (fun t => 0 < t) (tl times) -> (forall i j, i < j < length times -> nth i times 0 <= nth j times 0) ->
  run_config times (map (fun td => [td]) (combine ts dicts)) = Ok c ->
  later_sections_fit (dkeys m) dicts ->
  let at_step k := in_force (combine (map INR times) dicts) (INR k) in
  agrees (at_step 0) m ->
  exists m' c', run_loop seqb set_order (fun m => Ok m) (set_params store) n (m, c) = Ok (m', c') /\ dkeys m' = dkeys m
    /\ agrees (at_step n) m'
    /\ forall p k, (forall d, In d (tl dicts) -> leaf_at d [p; k] = None) -> value m' p k = value m p k.
Proof.
  exact (fun q o pl lt h r s e f => run_parameters seqb set_order q o times dicts c ts n (fun m => Ok m) m pl lt h r s e f (fun m => eq_refl)).
Qed.
Print Assumptions C52_parameters_partial.
Example C52_nonvacuous : exists c : config nat R,
  run_config [0; 2] (map (fun td => [td]) (combine [None; None] [ex_base; ex_mud])) = Ok c
  /\ plain_sections [ex_base; ex_mud] /\ later_sections_fit ["fluvial"] [ex_base; ex_mud]
  /\ agrees (in_force (combine (map INR [0; 2]) [ex_base; ex_mud]) (INR 0)) [("fluvial", [("mud", num1 5)])]
  /\ in_force (combine (map INR [0; 2]) [ex_base; ex_mud]) (INR 0) ["fluvial"; "mud"] = Some (num1 5)
  /\ in_force (combine (map INR [0; 2]) [ex_base; ex_mud]) (INR 2) ["fluvial"; "mud"] = Some (num1 7).
Proof. exact ex_run. Qed.

(** C53 *)
Theorem C53_config_files toml yaml times names :
  let files := match toml with [] => yaml | _ => toml end in
  NoDup files -> find_config_files toml yaml = (times, names) ->
  Permutation names files /\ length times = length names
  /\ (forall i j, i < j < length times ->
        nth i times 0 < nth j times 0 \/ (nth i times 0 = nth j times 0 /\ String.ltb (nth i names "") (nth j names "") = true))
  /\ forall i, i < length names -> time_of_file files (nth i names "") (nth i times 0).
Proof. exact (find_config_files_spec toml yaml times names). Qed.
Print Assumptions C53_config_files.
(* a file has one time *)
Theorem C53_time_unique files name t t' : time_of_file files name t -> time_of_file files name t' -> t = t'.
Proof. exact (time_of_file_unique files name t t'). Qed.
Print Assumptions C53_time_unique.
Example C53_nonvacuous :
  find_config_files ["sequence-0100.toml"; "sequence.toml"; "sequence-20.toml"] ["sequence.yaml"]
  = ([2; 20; 100], ["sequence.toml"; "sequence-20.toml"; "sequence-0100.toml"]).
Proof. reflexivity. Qed.

(** C54: of several options of one group only the last has an effect *)
Definition C54_statement : Prop :=
  forall (S : Type) (parse : string -> result (pyval S)) defaults before o after params sub,
  Forall (valid_option parse) (before ++ o :: after) -> Forall (fun gd => exists sub, snd gd = PyDict sub) defaults ->
  dget String.eqb defaults (group_of o) = Some (PyDict sub) ->
  (forall o', In o' after -> op_names o' <> op_names o) ->
  load_model_params parse defaults (map written (before ++ o :: after)) = Ok params ->
  value_at params (op_names o) = Some (op_value o).
Theorem C54_options_refuted : ~ C54_statement.
Proof. exact two_options_refuted. Qed.
Print Assumptions C54_options_refuted.
(* proved for an option that no later option of its group follows; options
   never fail, and parameters that no option names keep their values *)
Theorem C54_options_partial {S} (parse : string -> result (pyval S)) defaults before o after params sub :
  Forall (valid_option parse) (before ++ o :: after) -> Forall (fun gd => exists sub, snd gd = PyDict sub) defaults ->
  dget String.eqb defaults (group_of o) = Some (PyDict sub) ->
  (forall o', In o' after -> group_of o' <> group_of o) ->
  load_model_params parse defaults (map written (before ++ o :: after)) = Ok params ->
  value_at params (op_names o) = Some (op_value o).
Proof. exact (option_takes_effect parse defaults before o after params sub). Qed.
Print Assumptions C54_options_partial.
Theorem C54_others_partial {S} (parse : string -> result (pyval S)) defaults os params g k sub :
  Forall (valid_option parse) os -> Forall (fun gd => exists sub, snd gd = PyDict sub) defaults ->
  dget String.eqb defaults g = Some (PyDict sub) ->
  (forall o rest, In o os -> op_names o <> g :: k :: rest) ->
  load_model_params parse defaults (map written os) = Ok params ->
  value_at params [g; k] = dget String.eqb sub k.
Proof. exact (option_changes_nothing_else parse defaults os params g k sub). Qed.
Print Assumptions C54_others_partial.
Theorem C54_never_fail_partial {S} (parse : string -> result (pyval S)) defaults os :
  Forall (valid_option parse) os -> Forall (fun gd => exists sub, snd gd = PyDict sub) defaults ->
  exists params, load_model_params parse defaults (map written os) = Ok params.
Proof. exact (options_never_fail parse defaults os). Qed.
Print Assumptions C54_never_fail_partial.
Example C54_nonvacuous :
  Forall (valid_option parse_text) [mkOption ["clock"; "stop"] "5" (text "5"); mkOption ["grid"; "shape"] "3" (text "3")]
  /\ load_model_params parse_text [("grid", PyDict [("shape", text "1")]); ("clock", PyDict [("stop", text "9"); ("step", text "3")])]
       ["clock.stop=5"; "grid.shape=3"]
     = Ok [("grid", PyDict [("shape", text "3")]); ("clock", PyDict [("stop", text "5"); ("step", text "3")])].
Proof. exact ex_option. Qed.

(** C55: at depth three the names are out of order *)
Definition C55_statement : Prop :=
  forall (S : Type) (parse : string -> result (pyval S)) (show : pyval S -> string) (d : dict S) path v,
  proper (PyDict d) -> leaf_at d path = Some v ->
  Forall (fun k => lacks "." k /\ lacks "=" k) path -> lacks "=" (show v) -> parse (show v) = Ok v ->
  exists s e, In s (dict_to_dots show d) /\ load_params_from_strings parse [s] = Ok e /\ value_at e path = Some v.
Theorem C55_dots_refuted : ~ C55_statement.
Proof. exact dots_deep_refuted. Qed.
Print Assumptions C55_dots_refuted.
Theorem C55_dots_partial {S} (parse : string -> result (pyval S)) (show : pyval S -> string) (d : dict S) path v :
  proper (PyDict d) -> leaf_at d path = Some v -> length path <= 2 ->
  Forall (fun k => lacks "." k /\ lacks "=" k) path -> lacks "=" (show v) -> parse (show v) = Ok v ->
  exists s e, In s (dict_to_dots show d) /\ load_params_from_strings parse [s] = Ok e /\ value_at e path = Some v.
Proof. exact (dots_short parse show d path v). Qed.
Print Assumptions C55_dots_partial.
(* and all the assignments together lose values already at depth two *)
Definition C55_together_statement : Prop :=
  forall (S : Type) (parse : string -> result (pyval S)) (show : pyval S -> string) (d e : dict S) path v,
  proper (PyDict d) -> leaf_at d path = Some v -> length path <= 2 ->
  (forall p x, leaf_at d p = Some x -> Forall (fun k => lacks "." k /\ lacks "=" k) p /\ lacks "=" (show x) /\ parse (show x) = Ok x) ->
  load_params_from_strings parse (dict_to_dots show d) = Ok e -> value_at e path = Some v.
Theorem C55_together_refuted : ~ C55_together_statement.
Proof. exact dots_together_refuted. Qed.
Print Assumptions C55_together_refuted.

(** C56 *)
Theorem C56_existing {S} (parse : string -> result (pyval S)) render set w f :
  In f input_files -> file w f <> None -> setup parse render set w = (w, Err ClickAbort).
Proof. exact (setup_existing parse render set w f). Qed.
Print Assumptions C56_existing.
Theorem C56_never_overwrites {S} (parse : string -> result (pyval S)) render set w w' r f t :
  setup parse render set w = (w', r) -> file w f = Some t -> file w' f = Some t.
Proof. exact (setup_keeps_files parse render set w w' r f t). Qed.
Print Assumptions C56_never_overwrites.
Theorem C56_creates {S} (parse : string -> result (pyval S)) render os (w : @world S) :
  Forall (valid_option parse) os -> Forall (fun gd => exists sub, snd gd = PyDict sub) (w_defaults w) ->
  (forall f d, In f input_files -> exists t, render f d = Ok t) ->
  (forall f, In f input_files -> file w f = None) ->
  exists w' params, setup parse render (map written os) w = (w', Ok tt)
    /\ load_model_params parse (w_defaults w) (map written os) = Ok params
    /\ forall f, match In_dec string_dec f input_files with
                 | left _ => exists t, render f params = Ok t /\ file w' f = Some (t ++ newline)%string
                 | right _ => file w' f = file w f
                 end.
Proof. exact (setup_creates parse render os w). Qed.
Print Assumptions C56_creates.
Example C56_nonvacuous :
  setup parse_any (fun _ _ => Ok "text") ["grid.shape=3"] (mkWorld [("notes", "mine")] [("grid", PyDict [])])
  = (mkWorld [("notes", "mine"); ("bathymetry.csv", ("text" ++ newline)%string); ("sequence.toml", ("text" ++ newline)%string);
              ("sealevel.csv", ("text" ++ newline)%string); ("subsidence.csv", ("text" ++ newline)%string)]
       [("grid", PyDict [("shape", Scalar 0)])], Ok tt).
Proof. reflexivity. Qed.

(** C74: a run whose first configuration file has a time after 0 stops with
    KeyError when it reaches that time *)
Definition C74_statement : Prop :=
  forall (S : Type) (seqb : S -> S -> bool) (set_order : flat S -> flat S) (found : list string) dicts (ts : list (option R)) c n
    (m : Processes.context (pyval S)),
  (forall a b, seqb a b = true <-> a = b) -> (forall l, Permutation (set_order l) l) ->
  plain_sections dicts -> NoDup found -> length found = length dicts -> length ts = length dicts ->
  later_sections_fit (dkeys m) dicts ->
  run_config (fst (find_config_files found [])) (map (fun td => [td]) (combine ts dicts)) = Ok c ->
  exists r, run_loop seqb set_order (fun m => Ok m) (set_params store) n (m, c) = Ok r.
Theorem C74_run_refuted : ~ C74_statement.
Proof. exact late_file_refuted. Qed.
Print Assumptions C74_run_refuted.
(* this is so for the pair of names that comes first to mind *)
Example C74_two_files : find_config_files ["sequence.toml"; "sequence-100.toml"] [] = ([1; 100], ["sequence.toml"; "sequence-100.toml"]).
Proof. exact two_files. Qed.
(* proved when the first file, and no other, has time 0 *)
Theorem C74_run_partial {S} (seqb : S -> S -> bool) (set_order : flat S -> flat S) times (dicts : list (dict S)) c (ts : list (option R)) n
    (m : Processes.context (pyval S)) :
  (forall a b, seqb a b = true <-> a = b) -> (forall l, Permutation (set_order l) l) ->
  plain_sections dicts -> length ts = length dicts ->
  hd 1 times = 0 -> Forall (fun t => 0 < t) (tl times) -> (forall i j, i < j < length times -> nth i times 0 <= nth j times 0) ->
  run_config times (map (fun td => [td]) (combine ts dicts)) = Ok c ->
  later_sections_fit (dkeys m) dicts ->
  agrees (in_force (combine (map INR times) dicts) 0%R) m ->
  exists r, run_loop seqb set_order (fun m => Ok m) (set_params store) n (m, c) = Ok r.
Proof. exact (run_never_raises seqb set_order times dicts c ts n m). Qed.
Print Assumptions C74_run_partial.

(** C75: an option that cannot be read leaves an empty file behind *)
Definition C75_statement : Prop :=
  forall (S : Type) (parse : string -> result (pyval S)) render set (w w' : @world S) e f,
  setup parse render set w = (w', Err e) -> file w' f = file w f.
Theorem C75_failed_setup_refuted : ~ C75_statement.
Proof. exact failed_setup_refuted. Qed.
Print Assumptions C75_failed_setup_refuted.
Theorem C75_failed_setup_partial {S} (parse : string -> result (pyval S)) render os (w w' : @world S) e f :
  Forall (valid_option parse) os -> Forall (fun gd => exists sub, snd gd = PyDict sub) (w_defaults w) ->
  (forall f d, In f setup_files -> exists t, render f d = Ok t) ->
  setup parse render (map written os) w = (w', Err e) -> file w' f = file w f.
Proof. exact (failed_setup parse render os w w' e f). Qed.
Print Assumptions C75_failed_setup_partial.

(** C76: options change the defaults of the class, so that commands of one
    command line share them *)
Definition C76_statement : Prop :=
  forall (S : Type) (parse : string -> result (pyval S)) render (w w1 w2 : @world S) f1 set1 r1 f2 set2 r2 w' r,
  contents_of_input_file parse render w f1 set1 = (w1, r1) -> contents_of_input_file parse render w1 f2 set2 = (w2, r2) ->
  contents_of_input_file parse render w f2 set2 = (w', r) -> r2 = r.
Theorem C76_independent_refuted : ~ C76_statement.
Proof. exact leak_refuted. Qed.
Print Assumptions C76_independent_refuted.
Theorem C76_independent_partial {S} (parse : string -> result (pyval S)) render (w w1 : @world S) f1 r1 f2 set2 :
  Forall (fun gd => exists sub, snd gd = PyDict sub) (w_defaults w) ->
  contents_of_input_file parse render w f1 [] = (w1, r1) ->
  contents_of_input_file parse render w1 f2 set2 = contents_of_input_file parse render w f2 set2.
Proof. exact (no_leak parse render w w1 f1 r1 f2 set2). Qed.
Print Assumptions C76_independent_partial.
