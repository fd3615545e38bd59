(** Proofs about dotted names. *)
From Coq Require Import String Ascii List Bool Arith Lia.
From Verif.Base Require Import Py.
From Verif.Model Require Import Config Cli.
From Verif.Spec Require Import CommandLine Sections.
From Verif.Proofs Require Import ProcessesP ConfigP CliP.
Import ListNotations.
Local Open Scope string_scope.
Local Open Scope list_scope.

Section Dots.
  Context {S : Type} (parse : string -> result (pyval S)) (show : pyval S -> string).
  Implicit Types d : dict S.

  Lemma walk_dots_cons prev k (v : pyval S) d :
    walk_dots prev (PyDict ((k, v) :: d))
    = match v with PyDict _ => walk_dots (k :: prev) v | _ => [(prev ++ [k], v)] end ++ walk_dots prev (PyDict d).
  Proof. reflexivity. Qed.

  (* the names a path gets: all but the last are reversed *)
  Definition dotted (prev path : list string) : list string := rev (removelast path) ++ prev ++ [last path ""].

  Lemma leaf_cons k v d path : NoDup (dkeys ((k, v) :: d)) ->
    forall x, leaf_at ((k, v) :: d) path = Some x ->
      (exists rest, path = k :: rest /\ match v with PyDict sub => leaf_at sub rest = Some x | _ => rest = [] /\ x = v end)
      \/ leaf_at d path = Some x.
  Proof.
    intros N x. destruct path as [|k' rest]; [discriminate|]. cbn. destruct (String.eqb_spec k' k) as [->|_]; [|auto].
    intros E. left. exists rest. split; [reflexivity|]. destruct v; try exact E; destruct rest; try discriminate E; split; congruence.
  Qed.

  Lemma walk_dots_leaf (v : pyval S) : proper v -> forall d, v = PyDict d -> forall path x prev, leaf_at d path = Some x ->
    In (dotted prev path, x) (walk_dots prev (PyDict d)).
  Proof.
    induction v as [s|l|l|d IH] using pyval_ind'; intros P d' Ed path x prev E; try discriminate Ed.
    assert (X : d = d') by congruence. subst d'. clear Ed.
    revert path E. induction d as [|[k v] d IHd]; intros path E; [destruct path; discriminate E|].
    cbn in P. destruct P as [N [Pv Pd]]. inversion IH as [|? ? IHv IHr]; subst. cbn [snd] in IHv.
    rewrite walk_dots_cons. apply in_app_iff.
    apply (leaf_cons k v d path N) in E. destruct E as [[rest [-> E]]|E].
    - left. destruct v as [s|l|l|sub]; try (destruct E as [E1 E2]; subst; left; reflexivity).
      assert (Y := IHv Pv sub eq_refl rest x (k :: prev) E). destruct rest as [|k' rest]; [discriminate E|].
      revert Y. unfold dotted. change (removelast (k :: k' :: rest)) with (k :: removelast (k' :: rest)).
      change (last (k :: k' :: rest) "") with (last (k' :: rest) ""). cbn [rev]. rewrite <- !app_assoc. cbn [app]. auto.
    - right. apply IHd; [exact IHr| |exact E]. cbn. split; [inversion N; assumption|exact Pd].
  Qed.

  (* C55 for paths of one or two names *)
  Theorem dots_short d path v : proper (PyDict d) -> leaf_at d path = Some v -> length path <= 2 ->
    Forall (fun k => lacks "." k /\ lacks "=" k) path -> lacks "=" (show v) -> parse (show v) = Ok v ->
    exists s e, In s (dict_to_dots show d) /\ load_params_from_strings parse [s] = Ok e /\ value_at e path = Some v.
  Proof.
    intros P E L F Q Hp. assert (I := walk_dots_leaf _ P d eq_refl path v [] E).
    assert (Ep : dotted [] path = path).
    { destruct path as [|a [|b [|c path]]]; [discriminate E|reflexivity|reflexivity|cbn in L; lia]. }
    rewrite Ep in I. assert (Np : path <> []) by (intros ->; discriminate E).
    exists (String.concat "." path ++ "=" ++ show v)%string, (nest path v). split.
    - unfold dict_to_dots. apply in_map_iff. exists (path, v). split; [reflexivity|exact I].
    - split; [|apply value_nest, Np]. unfold load_params_from_strings. cbn [foldM append].
      rewrite split_on_app by (apply lacks_concat; revert F; apply Forall_impl; tauto).
      rewrite split_on_lacks by exact Q. rewrite Hp. cbn [bind]. unfold dots_to_dict.
      rewrite split_concat; [|exact Np|revert F; apply Forall_impl; tauto].
      destruct path as [|k path]; [congruence|]. destruct (nest_single k path v) as [x ->]. reflexivity.
  Qed.
End Dots.

Definition text (s : string) : pyval string := Scalar s.
Definition parse_text (s : string) : result (pyval string) := Ok (Scalar s).
Definition show_text (v : pyval string) : string := match v with Scalar s => s | _ => "" end.

Lemma dots_deep_refuted : ~ (forall (S : Type) (parse : string -> result (pyval S)) (show : pyval S -> string) (d : dict S) path v,
  proper (PyDict d) -> leaf_at d path = Some v ->
  Forall (fun k => lacks "." k /\ lacks "=" k) path -> lacks "=" (show v) -> parse (show v) = Ok v ->
  exists s e, In s (dict_to_dots show d) /\ load_params_from_strings parse [s] = Ok e /\ value_at e path = Some v).
Proof.
  intros C. assert (P : proper (PyDict [("a", PyDict [("b", PyDict [("c", text "1")])])])).
  { cbn. repeat split; repeat constructor; intros []. }
  destruct (C string parse_text show_text _ ["a"; "b"; "c"] (text "1") P eq_refl) as [s [e [I [E V]]]].
  - repeat constructor; intros [H|[]]; discriminate H.
  - intros [H|[]]; discriminate H.
  - reflexivity.
  - cbn in I. destruct I as [<-|[]]. cbn in E. inversion E; subst. discriminate V.
Qed.
(* all the assignments together lose values at depth two *)
Lemma dots_together_refuted : ~ (forall (S : Type) (parse : string -> result (pyval S)) (show : pyval S -> string) (d e : dict S) path v,
  proper (PyDict d) -> leaf_at d path = Some v -> length path <= 2 ->
  (forall p x, leaf_at d p = Some x -> Forall (fun k => lacks "." k /\ lacks "=" k) p /\ lacks "=" (show x) /\ parse (show x) = Ok x) ->
  load_params_from_strings parse (dict_to_dots show d) = Ok e -> value_at e path = Some v).
Proof.
  intros C. set (d := [("a", PyDict [("b", text "1"); ("c", text "2")])] : dict string).
  assert (P : proper (PyDict d)). { cbn. repeat split; repeat constructor; cbn; intuition discriminate. }
  assert (X := C string parse_text show_text d [("a", PyDict [("c", text "2")])] ["a"; "b"] (text "1") P eq_refl ltac:(cbn; lia)).
  cut (value_at ([("a", PyDict [("c", text "2")])] : dict string) ["a"; "b"] = Some (text "1")); [discriminate|]. apply X; [|reflexivity].
  intros p x E. destruct p as [|k p]; [discriminate E|]. cbn in E. destruct (String.eqb_spec k "a") as [->|_]; [|discriminate E].
  destruct p as [|k p]; [discriminate E|]. cbn in E.
  destruct (String.eqb_spec k "b") as [->|_]; [|destruct (String.eqb_spec k "c") as [->|_]; [|discriminate E]];
    (destruct p; [|discriminate E]); inversion E; subst; (split; [|split; [|reflexivity]]).
  1,3: repeat constructor; intros [H|[]]; discriminate H.
  all: intros [H|[]]; discriminate H.
Qed.
