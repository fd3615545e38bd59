(** Concrete command lines. *)
From Coq Require Import String Ascii List Bool Arith Lia Reals Lra Permutation.
From Verif.Base Require Import Num Py.
From Verif.Model Require Import Shoreline Config Cli.
From Verif.Model Require Processes.
From Verif.Spec Require Import Profile Sections Parameters CommandLine.
From Verif.Proofs Require Import ShorelineP ProcessesP ConfigP TimeVaryingP ConfigEx CliP DotsP RunP RunLoopP.
Import ListNotations.
Local Open Scope R_scope.
Local Open Scope string_scope.
Local Open Scope list_scope.

Lemma times_0 : map nofnat (fst (find_config_files ["sequence.toml"] [])) = [0].
Proof. change (fst (find_config_files ["sequence.toml"] [])) with [0%nat]. cbn [map]. rewrite nofnat_R. reflexivity. Qed.
Lemma times_1 : map nofnat (fst (find_config_files ["sequence-1.toml"] [])) = [1].
Proof. change (fst (find_config_files ["sequence-1.toml"] [])) with [1%nat]. cbn [map]. rewrite nofnat_R. reflexivity. Qed.

(* C52 *)
Lemma sections_refuted : ~ (forall (S : Type) (seqb : S -> S -> bool) (set_order : flat S -> flat S) (sections : list (option R * dict S)) c n ds c',
  (forall a b, seqb a b = true <-> a = b) -> (forall l, Permutation (set_order l) l) ->
  plain_sections (map snd sections) -> increasing (map fst (load_sections sections)) -> hd 1 (map fst (load_sections sections)) = 0 ->
  run_config (fst (find_config_files ["sequence.toml"] [])) [sections] = Ok c ->
  updates seqb set_order (repeat 1 n) c = Ok (ds, c') ->
  forall k, (k < n)%nat -> reports_change (in_force (load_sections sections) (INR k)) (in_force (load_sections sections) (INR (Datatypes.S k))) (nth k ds [])).
Proof.
  intros C. set (sections := [(Some 0, ex_first); (Some 1, ex_second)] : list (option R * dict nat)).
  assert (Ec : exists c, run_config (fst (find_config_files ["sequence.toml"] [])) [sections] = Ok c
               /\ exists c', update Nat.eqb (fun l => l) 1 c = Ok ([], c')).
  { eexists. split; [reflexivity|]. eexists. unfold update, bisect_times. cbn [tv_times tv_time]. rewrite times_0, n0_R. numR.
    rewrite !bisect_1. rle. cbn. reflexivity. }
  destruct Ec as [c [Ei [c' Eu]]].
  assert (Inc : increasing (map fst (load_sections sections))).
  { intros i j H. cbn in H. assert (i = 0 /\ j = 1)%nat as [-> ->] by lia. cbn. lra. }
  assert (X := C nat Nat.eqb (fun l => l) sections c 1%nat [[]] c' PeanoNat.Nat.eqb_eq (fun l => Permutation_refl l) ex_plain Inc eq_refl Ei
    ltac:(cbn [repeat updates]; rewrite Eu; reflexivity) 0%nat ltac:(lia) ["foo"]).
  cbn [nth] in X. unfold in_force, sections, load_sections in X. cbn [map combine seq length fold_left fst snd] in X. change (INR 0) with 0 in X. change (INR 1) with 1 in X.
  revert X. rle. cbn. intros [[X _]|[_ X]]; discriminate X.
Qed.

(* C74 *)
Definition ex_grid : dict nat := [("grid", PyDict [("shape", num1 3)])].
Lemma late_file_refuted : ~ (forall (S : Type) (seqb : S -> S -> bool) (set_order : flat S -> flat S) (found : list string) dicts (ts : list (option R)) c n
    (m : Processes.context (pyval S)),
  (forall a b, seqb a b = true <-> a = b) -> (forall l, Permutation (set_order l) l) ->
  plain_sections dicts -> NoDup found -> length found = length dicts -> length ts = length dicts ->
  later_sections_fit (dkeys m) dicts ->
  run_config (fst (find_config_files found [])) (map (fun td => [td]) (combine ts dicts)) = Ok c ->
  exists r, run_loop seqb set_order (fun m => Ok m) (set_params store) n (m, c) = Ok r).
Proof.
  intros C.
  assert (Pl : plain_sections [ex_grid]).
  { assert (P : proper (PyDict ex_grid)) by (cbn; repeat split; repeat constructor; intros []).
    assert (L : forall d path v, In d [ex_grid] -> leaf_at d path = Some v -> path = ["grid"; "shape"] /\ simple v).
    { intros d path v [<-|[]] E. apply leaf_paths in E; [|exact P]. destruct E as [E|[]].
      assert (X := f_equal fst E); assert (Y := f_equal snd E); cbn in X, Y; subst; cbn; auto. }
    split.
    - intros d Hd. split; [destruct Hd as [<-|[]]; exact P|]. intros path v E. apply (L d path v Hd E).
    - intros d d' path k rest v v' Hd Hd' E E'. destruct (L d path v Hd E) as [-> _]. destruct (L d' _ v' Hd' E') as [B _]. discriminate B. }
  assert (Ec : exists c, run_config (fst (find_config_files ["sequence-1.toml"] [])) (map (fun td => [td]) (combine [Some 0] [ex_grid])) = Ok c
               /\ run_loop Nat.eqb (fun l => l) (fun m => Ok m) (set_params store) 1 ([("fluvial", [])], c) = Err KeyError).
  { eexists. split; [reflexivity|]. cbn [run_loop fst snd bind]. rewrite n1_R. unfold update, bisect_times. cbn [tv_times tv_time]. 
    unfold diff, config_at, bisect_times. cbn [tv_times tv_time tv_dicts]. rewrite times_1, n0_R. numR.
    rewrite !bisect_1. rle. cbn. reflexivity. }
  destruct Ec as [c [Ei Er]].
  destruct (C nat Nat.eqb (fun l => l) ["sequence-1.toml"] [ex_grid] [Some 0] c 1%nat [("fluvial", [])] PeanoNat.Nat.eqb_eq (fun l => Permutation_refl l)
    Pl ltac:(repeat constructor; intros []) eq_refl eq_refl ltac:(intros d path v []) Ei) as [r Err].
  discriminate (eq_trans (eq_sym Er) Err).
Qed.
Lemma two_files : find_config_files ["sequence.toml"; "sequence-100.toml"] [] = ([1; 100]%nat, ["sequence.toml"; "sequence-100.toml"]).
Proof. reflexivity. Qed.

Section Partial.
  Context {S : Type} (seqb : S -> S -> bool) (set_order : flat S -> flat S).
  Lemma run_never_raises times (dicts : list (dict S)) c (ts : list (option R)) n (m : Processes.context (pyval S)) :
    (forall a b, seqb a b = true <-> a = b) -> (forall l, Permutation (set_order l) l) ->
    plain_sections dicts -> length ts = length dicts ->
    hd 1%nat times = 0%nat -> Forall (fun t => (0 < t)%nat) (tl times) -> (forall i j, (i < j < length times)%nat -> (nth i times 0 <= nth j times 0)%nat) ->
    run_config times (map (fun td => [td]) (combine ts dicts)) = Ok c ->
    later_sections_fit (dkeys m) dicts ->
    agrees (in_force (combine (map INR times) dicts) 0) m ->
    exists r, run_loop seqb set_order (fun m => Ok m) (set_params store) n (m, c) = Ok r.
  Proof.
    intros Hq Ho Hp Lt H0 Hr Hs E Fit Ag.
    destruct (run_parameters seqb set_order Hq Ho times dicts c ts n (fun m => Ok m) m Hp Lt H0 Hr Hs E Fit (fun m => eq_refl) Ag) as [m' [c' [Er _]]].
    eexists. exact Er.
  Qed.
End Partial.

(* C54: two options of one group *)
Lemma two_options_refuted : ~ (forall (S : Type) (parse : string -> result (pyval S)) defaults before o after params sub,
  Forall (valid_option parse) (before ++ o :: after) -> Forall (fun gd => exists sub, snd gd = PyDict sub) defaults ->
  dget String.eqb defaults (group_of o) = Some (PyDict sub) ->
  (forall o', In o' after -> op_names o' <> op_names o) ->
  load_model_params parse defaults (map written (before ++ o :: after)) = Ok params ->
  value_at params (op_names o) = Some (op_value o)).
Proof.
  intros C. set (o1 := mkOption ["clock"; "stop"] "5" (text "5")). set (o2 := mkOption ["clock"; "step"] "1" (text "1")).
  assert (V : Forall (valid_option parse_text) [o1; o2]).
  { repeat constructor; cbn; try lia; unfold lacks; cbn; intuition discriminate. }
  set (defaults := [("clock", PyDict [("stop", text "9"); ("step", text "3")])] : dict string).
  assert (X := C string parse_text defaults [] o1 [o2] [("clock", PyDict [("stop", text "9"); ("step", text "1")])]
    [("stop", text "9"); ("step", text "3")] V ltac:(repeat constructor; eexists; reflexivity) eq_refl
    ltac:(intros o' [<-|[]]; discriminate) eq_refl). discriminate X.
Qed.
Lemma ex_option : Forall (valid_option parse_text) [mkOption ["clock"; "stop"] "5" (text "5"); mkOption ["grid"; "shape"] "3" (text "3")]
  /\ load_model_params parse_text [("grid", PyDict [("shape", text "1")]); ("clock", PyDict [("stop", text "9"); ("step", text "3")])]
       ["clock.stop=5"; "grid.shape=3"]
     = Ok [("grid", PyDict [("shape", text "3")]); ("clock", PyDict [("stop", text "5"); ("step", text "3")])].
Proof. split; [|reflexivity]. repeat constructor; cbn; try lia; unfold lacks; cbn; intuition discriminate. Qed.

(* C75 *)
Lemma failed_setup_refuted : ~ (forall (S : Type) (parse : string -> result (pyval S)) render set (w w' : @world S) e f,
  setup parse render set w = (w', Err e) -> file w' f = file w f).
Proof.
  intros C. destruct setup_leaves_file as [w' [E [F _]]]. assert (X := C _ _ _ _ _ _ _ "bathymetry.csv" E). unfold file in X. rewrite F in X. discriminate X.
Qed.
Lemma failed_setup {S} (parse : string -> result (pyval S)) render os (w w' : @world S) e f : Forall (valid_option parse) os ->
  Forall (fun gd => exists sub, snd gd = PyDict sub) (w_defaults w) -> (forall f d, In f setup_files -> exists t, render f d = Ok t) ->
  setup parse render (map written os) w = (w', Err e) -> file w' f = file w f.
Proof.
  intros F D R E. destruct (existsb (fun f => din String.eqb (w_files w) f) setup_files) eqn:X.
  - unfold setup in E. rewrite X in E. inversion E. reflexivity.
  - destruct (setup_creates parse render os w F D R) as [w1 [params [E1 _]]]; [|congruence].
    intros f' I. unfold file. destruct (dget String.eqb (w_files w) f') eqn:G; [|reflexivity]. exfalso. apply Bool.not_true_iff_false in X. apply X, existsb_exists.
    exists f'. split; [exact I|]. unfold din. rewrite G. reflexivity.
Qed.

(* C76 *)
Lemma leak_refuted : ~ (forall (S : Type) (parse : string -> result (pyval S)) render (w w1 w2 : @world S) f1 set1 r1 f2 set2 r2 w' r,
  contents_of_input_file parse render w f1 set1 = (w1, r1) -> contents_of_input_file parse render w1 f2 set2 = (w2, r2) ->
  contents_of_input_file parse render w f2 set2 = (w', r) -> r2 = r).
Proof.
  intros C. set (render := fun (_ : string) (d : dict string) => match value_at d ["clock"; "stop"] with Some (Scalar s) => Ok s | _ => Err KeyError end).
  assert (X := C string parse_text render (mkWorld [] [("clock", PyDict [("stop", text "9")])]) _ _ "sequence.toml" ["clock.stop=5"] _ "sequence.toml" [] _ _ _
    eq_refl eq_refl eq_refl). discriminate X.
Qed.
Lemma no_leak {S} (parse : string -> result (pyval S)) render (w w1 : @world S) f1 r1 f2 set2 :
  Forall (fun gd => exists sub, snd gd = PyDict sub) (w_defaults w) ->
  contents_of_input_file parse render w f1 [] = (w1, r1) ->
  contents_of_input_file parse render w1 f2 set2 = contents_of_input_file parse render w f2 set2.
Proof.
  intros D E. assert (X : w1 = w); [|rewrite X; reflexivity]. unfold contents_of_input_file in E.
  assert (L : load_model_params parse (w_defaults w) [] = Ok (w_defaults w)).
  { unfold load_model_params. cbn [load_params_from_strings foldM bind]. clear E. induction D as [|[g v] l [sub Es] _ IH]; [reflexivity|].
    cbn in Es. subst v. cbn [mapM]. rewrite IH. reflexivity. }
  rewrite L in E. inversion E. destruct w; reflexivity.
Qed.

Definition ex_base : dict nat := [("grid", PyDict [("shape", num1 3)]); ("fluvial", PyDict [("mud", num1 5)])].
Definition ex_mud : dict nat := [("fluvial", PyDict [("mud", num1 7)])].
Lemma ex_run : exists c : config nat R,
  run_config [0; 2]%nat (map (fun td => [td]) (combine [None; None] [ex_base; ex_mud])) = Ok c
  /\ plain_sections [ex_base; ex_mud] /\ later_sections_fit ["fluvial"] [ex_base; ex_mud]
  /\ agrees (in_force (combine (map INR [0; 2]%nat) [ex_base; ex_mud]) (INR 0)) [("fluvial", [("mud", num1 5)])]
  /\ in_force (combine (map INR [0; 2]%nat) [ex_base; ex_mud]) (INR 0) ["fluvial"; "mud"] = Some (num1 5)
  /\ in_force (combine (map INR [0; 2]%nat) [ex_base; ex_mud]) (INR 2) ["fluvial"; "mud"] = Some (num1 7).
Proof.
  assert (P : forall d, In d [ex_base; ex_mud] -> proper (PyDict d)).
  { intros d [<-|[<-|[]]]; cbn; repeat split; repeat constructor; cbn; intuition discriminate. }
  assert (L : forall d path v, In d [ex_base; ex_mud] -> leaf_at d path = Some v -> (path = ["grid"; "shape"] \/ path = ["fluvial"; "mud"]) /\ simple v).
  { intros d path v Hd E. apply leaf_paths in E; [|apply P, Hd]. destruct Hd as [<-|[<-|[]]]; cbn in E; [destruct E as [E|[E|[]]]|destruct E as [E|[]]];
      assert (X := f_equal fst E); assert (Y := f_equal snd E); cbn in X, Y; subst; cbn; auto. }
  assert (I : forall t p, 0 <= t -> in_force (combine (map INR [0; 2]%nat) [ex_base; ex_mud]) t p
                = match (if Rle_dec 2 t then says ex_mud p else None) with Some v => Some v | None => says ex_base p end).
  { intros t p Ht. unfold in_force. cbn [map combine fold_left fst snd]. change (INR 0) with 0. change (INR 2) with (1 + 1).
    destruct (Rle_dec 0 t); [|lra]. destruct (Rle_dec (1 + 1) t), (Rle_dec 2 t); try lra; destruct (says ex_base p), (says ex_mud p); reflexivity. }
  eexists. split; [reflexivity|]. split; [|split; [|split; [|split]]].
  - split.
    + intros d Hd. split; [apply P, Hd|]. intros path v E. apply (L d path v Hd E).
    + intros d d' path k rest v v' Hd Hd' E E'. destruct (L d path v Hd E) as [[->| ->] _]; destruct (L d' _ v' Hd' E') as [[B|B] _]; discriminate B.
  - intros d path v [<-|[]] E. apply leaf_paths in E; [|apply P; right; left; reflexivity]. destruct E as [E|[]].
    assert (X := f_equal fst E); cbn in X; subst. exists "fluvial", "mud". split; [reflexivity|left; reflexivity].
  - intros p k [<-|[]]. change (INR 0) with 0. rewrite I by lra. rle. unfold says, value. cbn. destruct (String.eqb k "mud"); [reflexivity|].
    intros H. destruct (H eq_refl).
  - change (INR 0) with 0. rewrite I by lra. rle. reflexivity.
  - change (INR 2) with (1 + 1). rewrite I by lra. rle. reflexivity.
Qed.
