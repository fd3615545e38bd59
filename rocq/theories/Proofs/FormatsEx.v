(** Files in different formats, examples and what is refuted. *)
From Coq Require Import String Ascii List Bool Arith QArith Reals Lra.
From Verif.Base Require Import Num Py.
From Verif.Model Require Import Config Cli Commands Reader.
From Verif.Spec Require Import Sections CommandLine Formats.
From Verif.Proofs Require Import ConfigP TimeVaryingP CliP DotsP CliEx FormatsP.
Import ListNotations.
Local Open Scope nat_scope.
Local Open Scope string_scope.
Local Open Scope list_scope.

(* tuples become lists *)
Fixpoint listed (v : pyval string) : pyval string :=
  match v with
  | PyTuple l => PyList l
  | PyDict d => PyDict (map (fun kv => (fst kv, listed (snd kv))) d)
  | v => v
  end.
Notation listed_dict := (map (fun kv => (fst kv, listed (snd kv)))).
Lemma listed_get d k : dget String.eqb (listed_dict d) k = option_map listed (dget String.eqb d k).
Proof. induction d as [|[k0 v] d IH]; [reflexivity|]. cbn [map dget fst snd]. destruct (String.eqb k k0); [reflexivity|exact IH]. Qed.
Lemma listed_says path : forall d, says (listed_dict d) path = says d path.
Proof.
  induction path as [|k path IH]; intros d; [reflexivity|]. unfold says. rewrite !leaf_get, listed_get.
  destruct (dget String.eqb d k) as [[x|l|l|sub]|]; cbn [option_map listed]; try reflexivity; try (destruct path; reflexivity).
  destruct path as [|k2 path]; [reflexivity|]. exact (IH sub).
Qed.
Lemma listed_keys (d : dict string) : dkeys (listed_dict d) = dkeys d.
Proof. unfold dkeys. rewrite map_map. reflexivity. Qed.

Notation a_line s := (s ++ newline)%string.
(* a library that knows a few texts *)
Definition ex_two : list (pyval string) := [PyDict [("_time", text "5"); ("clock", PyDict [("step", text "1")])]; PyList [PyDict [("clock", PyDict [("step", text "2")])]]].
Definition ex_two_toml : dict string :=
  [("title", text "two"); ("sequence", PyList [PyDict [("_time", text "5"); ("clock", PyDict [("step", text "1")])]; PyDict [("clock", PyDict [("step", text "2")])]])].
Definition ex_parse_toml (defaults : dict string) (t : string) : result (dict string) :=
  if String.eqb t (a_line "defaults") then
    Ok [("sequence", PyDict (listed_dict (("_time", text "0.0") :: ("processes", PyTuple (map text all_processes)) :: defaults)))]
  else if String.eqb t "two" then Ok ex_two_toml
  else Err ValueError.
Definition ex_formats (defaults : dict string) : formats string R := {|
  yaml_load_all := fun t => if String.eqb t "two" then Ok ex_two
                            else if String.eqb t (a_line "no tuple") then Ok [PyDict [("grid", PyDict [("shape", PyList [text "1"; text "9"])])]]
                            else Err ValueError;
  yaml_dump := fun v => if has_tuple v then Ok "tuple" else Ok "no tuple";
  toml_parse := ex_parse_toml defaults;
  toml_dumps := fun _ => Ok "defaults";
  time_value := fun v => match v with Scalar s => if String.eqb s "5" then Ok 5%R else if String.eqb s "0.0" then Ok 0%R else Err ValueError | _ => Err TypeError end;
  text_value := fun s => s;
  zero_value := "0.0" |}.
Definition ex_num (q : Q) : string := match Qcompare q 1 with Eq => "1" | Lt => "less" | Gt => "more" end.
Definition ex_defaults : dict string := default_params (ex_formats []) ex_num "true".
Definition ex_lib : formats string R := ex_formats ex_defaults.
Definition ex_world : @world string := mkWorld [] ex_defaults.
Definition ex_folder (f t : string) : @world string := mkWorld [("bathymetry.csv", "0.0,20.0"); (f, t)] ex_defaults.

Lemma ex_only f t : f = "sequence.yaml" \/ f = "sequence.toml" -> only_config (ex_folder f t) f t.
Proof.
  intros Hf. split; [|split].
  - cbn [ex_folder w_files dkeys map fst]. repeat constructor; cbn [In]; [|tauto]. intros [H|[]]. destruct Hf; subst; discriminate.
  - unfold file. cbn [ex_folder w_files dget]. destruct Hf as [->| ->]; reflexivity.
  - intros f' I [m Hm]. unfold file in I. cbn [ex_folder w_files dget] in I. destruct (String.eqb_spec f' "bathymetry.csv") as [Eb|_].
    + rewrite Eb in Hm. destruct Hm as [Hm|Hm]; discriminate Hm.
    + destruct (String.eqb_spec f' f) as [Ef|_]; [exact Ef|]. destruct I. reflexivity.
Qed.
Lemma ex_refuses d : has_tuple (PyDict d) = true -> yaml_refuses ex_lib ValueError d.
Proof. intros H t E. cbn [ex_lib ex_formats yaml_dump] in E. rewrite H in E. assert (t = "tuple") by congruence. subst t. reflexivity. Qed.
Lemma ex_keeps : toml_keeps ex_lib (sequence_table ex_lib ex_defaults).
Proof.
  intros t E. assert (t = "defaults") by (cbn [ex_lib ex_formats toml_dumps] in E; congruence). subst t.
  eexists. split; [reflexivity|]. split; [|split].
  - apply proper_dict. split; [repeat constructor; cbn; tauto|]. constructor; [|constructor]. cbn [snd].
    vm_compute. repeat (split || constructor); cbn; intros H; repeat (destruct H as [H|H]; [discriminate H|]); exact H.
  - intros path. exact (listed_says path (sequence_table ex_lib ex_defaults)).
  - intros k. change (In k (dkeys (listed_dict (sequence_table ex_lib ex_defaults))) <-> In k (dkeys (sequence_table ex_lib ex_defaults))). rewrite listed_keys. reflexivity.
Qed.
Lemma ex_generates f : f = "sequence.yaml" \/ f = "sequence.toml" -> exists text, generate ex_lib parse_text f [] ex_world = (ex_world, Ok text).
Proof. intros [->| ->]; eexists; vm_compute; reflexivity. Qed.

(** ** refuted: the YAML file that generate prints *)
Theorem generated_yaml_never : ~ (forall (S : Type) (F : formats S R) (parse : string -> result (pyval S)) num yes f os (w w' : @world S) text params w2 e t0,
  f = "sequence.yaml" \/ f = "sequence.toml" -> w_defaults w = default_params F num yes -> load_model_params parse (w_defaults w) os = Ok params ->
  (forall d, has_tuple (PyDict d) = true -> yaml_refuses F e d) -> (has_tuple (PyDict params) = false -> yaml_keeps F params) ->
  time_value F (Scalar (zero_value F)) = Ok t0 -> toml_keeps F (sequence_table F params) ->
  generate F parse f os w = (w', Ok text) -> only_config w2 f text -> exists c, run_read (read_sections F) w2 = Ok c).
Proof.
  intros C. destruct (ex_generates "sequence.yaml" (or_introl eq_refl)) as [t G].
  destruct (C string ex_lib parse_text ex_num "true" "sequence.yaml" [] ex_world ex_world t ex_defaults (ex_folder "sequence.yaml" t) ValueError 0%R (or_introl eq_refl))
    as [c Hc]; try reflexivity; [exact ex_refuses|intros H; vm_compute in H; discriminate|exact ex_keeps|exact G|exact (ex_only _ _ (or_introl eq_refl))|].
  rewrite (generated_yaml_refused ex_lib parse_text ex_num "true" [] ex_world ex_world t ValueError (ex_folder "sequence.yaml" t)) in Hc;
    [discriminate|reflexivity|constructor|exact ex_refuses|exact G|exact (ex_only _ _ (or_introl eq_refl))].
Qed.

(** ** refuted: from_toml of a file with several sections *)
Theorem from_toml_refuted : ~ (forall (S : Type) (F : formats S R) (G : Type) (from_dict : pyval S -> result G) text d ds params g,
  holds F "toml" text (d :: ds) -> dget String.eqb d "grid" = Some params -> from_dict params = Ok g -> grid_from_toml F from_dict text = Ok g).
Proof.
  intros C. set (F := {| yaml_load_all := fun _ => Err ValueError; yaml_dump := fun _ => Err ValueError;
    toml_parse := fun _ => Ok [("sequence", PyList [PyDict [("grid", PyDict [("shape", text "3")])]])]; toml_dumps := fun _ => Err ValueError;
    time_value := fun _ => Err ValueError; text_value := fun s => s; zero_value := "0" |} : formats string R).
  assert (X := C string F unit (fun _ => Ok tt) "" [("grid", PyDict [("shape", text "3")])] [] _ tt
    (or_intror (conj eq_refl (ex_intro _ _ (conj eq_refl (toml_array [("sequence", PyList [PyDict [("grid", PyDict [("shape", text "3")])]])] [_] eq_refl)))))
    eq_refl eq_refl). discriminate X.
Qed.

(* two texts with the same two sections *)
Definition ex_sections : list (dict string) := [[("_time", text "5"); ("clock", PyDict [("step", text "1")])]; [("clock", PyDict [("step", text "2")])]].
Lemma ex_holds : holds ex_lib "yaml" "two" ex_sections /\ holds ex_lib "toml" "two" ex_sections.
Proof.
  split.
  - left. split; [reflexivity|]. exists ex_two. split; [reflexivity|]. unfold ex_two, ex_sections. apply yaml_section.
    exact (yaml_list [[("clock", PyDict [("step", text "2")])]] [] [] yaml_end).
  - right. split; [reflexivity|]. exists ex_two_toml. split; [reflexivity|]. apply toml_array. reflexivity.
Qed.
Lemma ex_named : named_format "runs/case.2.yaml" None "yaml" /\ named_format "notes.txt" (Some "toml") "toml".
Proof.
  assert (L : forall c s, forallb (fun a => negb (Ascii.eqb a c)) (list_ascii_of_string s) = true -> lacks c s).
  { intros c s H I. rewrite forallb_forall in H. specialize (H _ I). rewrite Ascii.eqb_refl in H. discriminate. }
  split; [right|left; reflexivity]. split; [reflexivity|]. exists "runs/", "case.2".
  split; [reflexivity|]. split; [discriminate|]. split; [apply L; reflexivity|]. split; [right; exists "runs"; reflexivity|].
  split; [discriminate|]. split; apply L; reflexivity.
Qed.
Lemma ex_loaded : load_config_path ex_lib [("runs/case.2.yaml", "two")] "runs/case.2.yaml" None
    = Ok (inl [(5%R, [("clock", PyDict [("step", text "1")])]); (nofnat 1, [("clock", PyDict [("step", text "2")])])])
  /\ load_config_path ex_lib [("notes.txt", "two")] "notes.txt" (Some "toml") = load_config_path ex_lib [("runs/case.2.yaml", "two")] "runs/case.2.yaml" None
  /\ load_config_path ex_lib [("notes.txt", "two")] "notes.txt" None = Err ValueError.
Proof. split; [|split]; reflexivity. Qed.
(* defaults without tuples *)
Definition ex_lists : dict string := [("grid", PyDict [("shape", PyList [text "1"; text "9"])])].
Lemma ex_lists_kept : yaml_keeps ex_lib ex_lists /\ exists t, generate ex_lib parse_text "sequence.yaml" [] (mkWorld [] ex_lists) = (mkWorld [] ex_lists, Ok t).
Proof.
  split; [|eexists; vm_compute; reflexivity]. intros t E. assert (t = "no tuple") by (vm_compute in E; congruence). subst t. exists ex_lists. split; [reflexivity|].
  split; [|split; [reflexivity|reflexivity]]. vm_compute. repeat (split || constructor); cbn; intros H; repeat (destruct H as [H|H]; [discriminate H|]); exact H.
Qed.
