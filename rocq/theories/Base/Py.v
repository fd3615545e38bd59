(** Python vocabulary: exceptions as values, dictionaries, list helpers.
    Nothing here models repository code. *)
From Coq Require Import String List Arith ZArith Lia Bool.
Import ListNotations.

(** ** Exceptions *)

Inductive exn : Type :=
| KeyError | ValueError | TypeError | IndexError | ZeroDivisionError
| AssertionError | StopIteration | RuntimeError | AttributeError
| ShorelineError (all_below : bool)
| ShelfEdgeError
| MissingRequiredKey
| ParameterMismatchError (keys : list string)
| ClickAbort
| FileError
| MissingRequiredVariable
| InvalidRowError.

Inductive result (A : Type) : Type :=
| Ok (a : A)
| Err (e : exn).
Arguments Ok {A} a.
Arguments Err {A} e.

Definition bind {A B} (r : result A) (f : A -> result B) : result B :=
  match r with Ok a => f a | Err e => Err e end.
Notation "'let*' x ':=' r 'in' k" := (bind r (fun x => k))
  (at level 200, x pattern, r at level 100, k at level 200, right associativity).

Definition is_ok {A} (r : result A) : bool :=
  match r with Ok _ => true | Err _ => false end.

(* evaluate a list of computations left to right, stopping at the first error *)
Fixpoint mapM {A B} (f : A -> result B) (l : list A) : result (list B) :=
  match l with
  | [] => Ok []
  | a :: l' => let* b := f a in let* bs := mapM f l' in Ok (b :: bs)
  end.

Fixpoint foldM {A S} (f : S -> A -> result S) (l : list A) (s : S) : result S :=
  match l with
  | [] => Ok s
  | a :: l' => let* s' := f s a in foldM f l' s'
  end.

Lemma mapM_length {A B} (f : A -> result B) l bs : mapM f l = Ok bs -> length bs = length l.
Proof.
  revert bs; induction l as [|a l IH]; simpl; intros bs H.
  - inversion H; reflexivity.
  - destruct (f a); simpl in H; [|discriminate].
    destruct (mapM f l); simpl in H; [|discriminate].
    inversion H; simpl. f_equal; apply IH; reflexivity.
Qed.

Lemma mapM_nth {A B} (f : A -> result B) l bs (da : A) (db : B) :
  mapM f l = Ok bs -> forall i, i < length l -> f (nth i l da) = Ok (nth i bs db).
Proof.
  revert bs; induction l as [|a l IH]; simpl; intros bs H i Hi; [lia|].
  destruct (f a) as [b|] eqn:Ha; simpl in H; [|discriminate].
  destruct (mapM f l) as [bs'|] eqn:Hl; simpl in H; [|discriminate].
  inversion H; subst; clear H. destruct i; simpl; [exact Ha|].
  apply IH; [reflexivity|lia].
Qed.

Lemma mapM_ok {A B} (f : A -> result B) l :
  (forall a, In a l -> exists b, f a = Ok b) -> exists bs, mapM f l = Ok bs.
Proof.
  induction l as [|a l IH]; intros H; simpl.
  - eexists; reflexivity.
  - destruct (H a (or_introl eq_refl)) as [b Hb]. rewrite Hb; simpl.
    destruct IH as [bs Hbs]; [intros; apply H; right; assumption|].
    rewrite Hbs; simpl. eexists; reflexivity.
Qed.

Lemma mapM_Forall2 {A B} (f : A -> result B) l bs :
  mapM f l = Ok bs <-> Forall2 (fun a b => f a = Ok b) l bs.
Proof.
  revert bs; induction l as [|a l IH]; simpl; intros bs; split; intros H.
  - inversion H; constructor.
  - inversion H; reflexivity.
  - destruct (f a) as [b|] eqn:Ha; simpl in H; [|discriminate].
    destruct (mapM f l) as [bs'|] eqn:Hl; simpl in H; [|discriminate].
    inversion H; subst. constructor; [assumption|]. apply IH; reflexivity.
  - inversion H as [|? b ? bs' Ha Hl]; subst. rewrite Ha; simpl.
    apply IH in Hl. rewrite Hl. reflexivity.
Qed.

Lemma foldM_app {A S} (f : S -> A -> result S) l1 l2 s :
  foldM f (l1 ++ l2) s = bind (foldM f l1 s) (foldM f l2).
Proof.
  revert s; induction l1 as [|a l1 IH]; simpl; intros s; [reflexivity|].
  destruct (f s a); simpl; [apply IH|reflexivity].
Qed.

(** ** Dictionaries: insertion-ordered association lists *)

Section Dict.
  Context {K V : Type} (keqb : K -> K -> bool).

  Fixpoint dget (d : list (K * V)) (k : K) : option V :=
    match d with
    | [] => None
    | (k', v) :: d' => if keqb k k' then Some v else dget d' k
    end.

  (* d[k] = v : replaces in place, appends a new key at the end *)
  Fixpoint dset (d : list (K * V)) (k : K) (v : V) : list (K * V) :=
    match d with
    | [] => [(k, v)]
    | (k', v') :: d' => if keqb k k' then (k', v) :: d' else (k', v') :: dset d' k v
    end.

  (* d.update(e) *)
  Definition dupdate (d e : list (K * V)) : list (K * V) :=
    fold_left (fun acc kv => dset acc (fst kv) (snd kv)) e d.

  Definition din (d : list (K * V)) (k : K) : bool :=
    match dget d k with Some _ => true | None => false end.

  Definition dkeys (d : list (K * V)) : list K := map fst d.

  Hypothesis keqb_spec : forall a b, keqb a b = true <-> a = b.

  Lemma keqb_refl k : keqb k k = true.
  Proof. apply keqb_spec; reflexivity. Qed.

  Lemma dget_dset d k v k' :
    dget (dset d k v) k' = if keqb k' k then Some v else dget d k'.
  Proof.
    induction d as [|[k0 v0] d IH]; simpl.
    - destruct (keqb k' k) eqn:E; reflexivity.
    - destruct (keqb k k0) eqn:E; simpl.
      + apply keqb_spec in E; subst. destruct (keqb k' k0); reflexivity.
      + rewrite IH. destruct (keqb k' k0) eqn:E1; [|reflexivity].
        apply keqb_spec in E1; subst.
        destruct (keqb k0 k) eqn:E2; [|reflexivity].
        apply keqb_spec in E2; subst. rewrite keqb_refl in E; discriminate.
  Qed.

  Lemma dset_keys d k v :
    dkeys (dset d k v) = if din d k then dkeys d else dkeys d ++ [k].
  Proof.
    unfold din. induction d as [|[k0 v0] d IH]; simpl; [reflexivity|].
    destruct (keqb k k0) eqn:E; simpl; [reflexivity|].
    unfold dkeys in *. rewrite IH. destruct (dget d k); reflexivity.
  Qed.

  Lemma dget_in d k v : dget d k = Some v -> In (k, v) d.
  Proof.
    induction d as [|[k0 v0] d IH]; simpl; [discriminate|].
    destruct (keqb k k0) eqn:E; intros H.
    - apply keqb_spec in E; inversion H; subst; left; reflexivity.
    - right; apply IH; assumption.
  Qed.

  Lemma dget_none_iff d k : dget d k = None <-> ~ In k (dkeys d).
  Proof.
    induction d as [|[k0 v0] d IH]; simpl; [split; auto|].
    destruct (keqb k k0) eqn:E.
    - apply keqb_spec in E; subst. split; [discriminate|]. intros H; exfalso; apply H; left; reflexivity.
    - rewrite IH. split; intros H.
      + intros [H1|H1]; [subst; rewrite keqb_refl in E; discriminate|contradiction].
      + intros H1; apply H; right; assumption.
  Qed.

  Lemma dget_in_nodup d k v : NoDup (dkeys d) -> In (k, v) d -> dget d k = Some v.
  Proof.
    induction d as [|[k0 v0] d IH]; simpl; [intros _ []|].
    intros Hn [H|H].
    - inversion H; subst. rewrite keqb_refl; reflexivity.
    - inversion Hn as [|? ? Hni Hnd]; subst.
      destruct (keqb k k0) eqn:E.
      + apply keqb_spec in E; subst. exfalso; apply Hni.
        apply in_map_iff. exists (k0, v); auto.
      + apply IH; assumption.
  Qed.

  Lemma NoDup_dset d k v : NoDup (dkeys d) -> NoDup (dkeys (dset d k v)).
  Proof.
    intros H. rewrite dset_keys. unfold din. destruct (dget d k) eqn:E; [assumption|].
    apply dget_none_iff in E.
    rewrite <- (rev_involutive (dkeys d ++ [k])). apply NoDup_rev.
    rewrite rev_app_distr; simpl. constructor.
    - rewrite <- in_rev; assumption.
    - apply NoDup_rev; assumption.
  Qed.

  Lemma NoDup_dupdate e : forall d, NoDup (dkeys d) -> NoDup (dkeys (dupdate d e)).
  Proof.
    unfold dupdate. induction e as [|[k v] e IH]; simpl; intros d H; [assumption|].
    apply IH, NoDup_dset, H.
  Qed.

  Lemma dget_dupdate e : NoDup (dkeys e) -> forall d k,
    dget (dupdate d e) k = match dget e k with Some v => Some v | None => dget d k end.
  Proof.
    unfold dupdate. induction e as [|[k0 v0] e IH]; simpl; intros Hn d k; [reflexivity|].
    inversion Hn as [|? ? Hni Hnd]; subst.
    rewrite IH by assumption. rewrite dget_dset.
    destruct (keqb k k0) eqn:E.
    - apply keqb_spec in E; subst. apply dget_none_iff in Hni. rewrite Hni. reflexivity.
    - reflexivity.
  Qed.
End Dict.

(** ** Lists *)

Definition lset {A} (l : list A) (i : nat) (a : A) : list A :=
  firstn i l ++ match skipn i l with [] => [] | _ :: t => a :: t end.

Lemma lset_length {A} (l : list A) i a : length (lset l i a) = length l.
Proof.
  unfold lset. rewrite app_length.
  transitivity (length (firstn i l) + length (skipn i l)).
  - f_equal. destruct (skipn i l); reflexivity.
  - rewrite <- app_length, firstn_skipn. reflexivity.
Qed.

Lemma lset_nil {A} i (a : A) : lset [] i a = [].
Proof. unfold lset. rewrite firstn_nil, skipn_nil. reflexivity. Qed.

Lemma lset_cons_0 {A} (x : A) l a : lset (x :: l) 0 a = a :: l.
Proof. reflexivity. Qed.

Lemma lset_cons_S {A} (x : A) l i a : lset (x :: l) (S i) a = x :: lset l i a.
Proof. reflexivity. Qed.

Lemma nth_lset_eq {A} (l : list A) i a d : i < length l -> nth i (lset l i a) d = a.
Proof.
  revert i; induction l as [|x l IH]; intros i Hi; simpl in Hi; [lia|].
  destruct i; [reflexivity|]. rewrite lset_cons_S. simpl. apply IH; lia.
Qed.

Lemma nth_lset_neq {A} (l : list A) i j a d : i <> j -> nth j (lset l i a) d = nth j l d.
Proof.
  revert i j; induction l as [|x l IH]; intros i j Hij.
  - rewrite lset_nil; reflexivity.
  - destruct i.
    + rewrite lset_cons_0. destruct j; [congruence|reflexivity].
    + rewrite lset_cons_S. destruct j; [reflexivity|]. simpl. apply IH; lia.
Qed.

Fixpoint zipw {A B C} (f : A -> B -> C) (l1 : list A) (l2 : list B) : list C :=
  match l1, l2 with
  | a :: l1', b :: l2' => f a b :: zipw f l1' l2'
  | _, _ => []
  end.

Lemma zipw_length {A B C} (f : A -> B -> C) l1 l2 :
  length (zipw f l1 l2) = Nat.min (length l1) (length l2).
Proof. revert l2; induction l1; intros [|b l2]; simpl; auto. Qed.

Lemma nth_zipw {A B C} (f : A -> B -> C) l1 l2 da db dc i :
  i < length l1 -> i < length l2 -> nth i (zipw f l1 l2) dc = f (nth i l1 da) (nth i l2 db).
Proof.
  revert l2 i; induction l1; intros [|b l2] i H1 H2; simpl in *; try lia.
  destruct i; [reflexivity|]. apply IHl1; lia.
Qed.

Lemma nth_map' {A B} (f : A -> B) l i da db : i < length l -> nth i (map f l) db = f (nth i l da).
Proof.
  intros H. rewrite nth_indep with (d' := f da) by (rewrite map_length; assumption).
  apply map_nth.
Qed.

Lemma nth_ext' {A} (l l' : list A) d :
  length l = length l' -> (forall i, i < length l -> nth i l d = nth i l' d) -> l = l'.
Proof. intros; eapply nth_ext with (d := d) (d' := d); assumption. Qed.

Lemma nth_skipn' {A} (l : list A) k i d : nth i (skipn k l) d = nth (k + i) l d.
Proof.
  revert l; induction k as [|k IH]; intros [|a l]; simpl; auto.
  - destruct i; reflexivity.
Qed.

Lemma nth_firstn' {A} (l : list A) k i d : i < k -> nth i (firstn k l) d = nth i l d.
Proof.
  revert l i; induction k as [|k IH]; intros [|a l] i H; simpl; try lia; auto.
  destruct i; [reflexivity|]. apply IH; lia.
Qed.

(* Python's l[1:-1] *)
Definition inner {A} (l : list A) : list A := removelast (tl l).

Lemma removelast_length {A} (l : list A) : length (removelast l) = length l - 1.
Proof.
  induction l as [|a l IH]; simpl; [reflexivity|].
  destruct l; [reflexivity|]. simpl in *. rewrite IH. lia.
Qed.

Lemma inner_length {A} (l : list A) : length (inner l) = length l - 2.
Proof. unfold inner. rewrite removelast_length. destruct l; simpl; lia. Qed.

Lemma nth_removelast {A} (l : list A) i d : i < length l - 1 -> nth i (removelast l) d = nth i l d.
Proof.
  revert i; induction l as [|a l IH]; simpl; intros i H; [lia|].
  destruct l as [|b l]; simpl in *; [lia|].
  destruct i; [reflexivity|]. apply IH. lia.
Qed.

Lemma nth_inner {A} (l : list A) i d : i < length l - 2 -> nth i (inner l) d = nth (S i) l d.
Proof.
  intros H. unfold inner. destruct l as [|a l]; simpl in *; [lia|].
  rewrite nth_removelast by lia. reflexivity.
Qed.

(* Python's l[-1] on a nonempty list *)
Definition lastn {A} (l : list A) (d : A) : A := nth (length l - 1) l d.

(* l[i] with Python's negative indices *)
Definition pyindex (n : nat) (i : Z) : option nat :=
  if (0 <=? i)%Z then (if (i <? Z.of_nat n)%Z then Some (Z.to_nat i) else None)
  else if (0 <=? Z.of_nat n + i)%Z then Some (Z.to_nat (Z.of_nat n + i)) else None.

Definition pynth {A} (l : list A) (i : Z) : option A :=
  match pyindex (length l) i with Some k => nth_error l k | None => None end.

Lemma fold_left_map {A B C} (f : A -> B -> A) (g : C -> B) l a :
  fold_left f (map g l) a = fold_left (fun x c => f x (g c)) l a.
Proof. revert a; induction l; simpl; auto. Qed.
