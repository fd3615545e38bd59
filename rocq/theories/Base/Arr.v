(** Two-dimensional arrays (node fields) as lists of rows, and the slices
    [1:-1] used throughout the code.  numpy vocabulary only. *)
From Coq Require Import List Arith Lia.
From Verif.Base Require Import Py.
Import ListNotations.

Definition field (A : Type) := list (list A).

(* a[1:-1] = v for one axis: keeps the first and last entry *)
Definition set_inner {A} (l v : list A) : list A :=
  firstn 1 l ++ v ++ skipn (length l - 1) l.

(* field[node_at_cell]: interior nodes (rows 1..n, columns 1..m).  landlab
   numbers cells row-major in one flat array; the model keeps the rows apart. *)
Definition cells {A} (f : field A) : field A := map inner (inner f).
(* field[node_at_cell] = v *)
Definition set_cells {A} (f v : field A) : field A :=
  set_inner f (zipw set_inner (inner f) v).

(* elementwise operations *)
Definition fmap {A B} (f : A -> B) (m : field A) : field B := map (map f) m.
Definition fmap2 {A B C} (f : A -> B -> C) (m1 : field A) (m2 : field B) : field C :=
  zipw (zipw f) m1 m2.
Definition full {A} (n m : nat) (a : A) : field A := repeat (repeat a m) n.

Definition shaped {A} (n m : nat) (f : field A) : Prop :=
  length f = n /\ forall r, In r f -> length r = m.

(* entry (i, j) *)
Definition at2 {A} (d : A) (f : field A) (i j : nat) : A := nth j (nth i f []) d.

Fixpoint mapi_from {A B} (k : nat) (f : nat -> A -> B) (l : list A) : list B :=
  match l with [] => [] | a :: l' => f k a :: mapi_from (S k) f l' end.
Definition mapi {A B} (f : nat -> A -> B) (l : list A) : list B := mapi_from 0 f l.
Definition fmapi {A B} (f : nat -> nat -> A -> B) (m : field A) : field B :=
  mapi (fun i row => mapi (f i) row) m.

Lemma mapi_from_length {A B} (f : nat -> A -> B) l k : length (mapi_from k f l) = length l.
Proof. revert k; induction l; simpl; intros; auto. Qed.
Lemma mapi_length {A B} (f : nat -> A -> B) l : length (mapi f l) = length l.
Proof. apply mapi_from_length. Qed.
Lemma nth_mapi_from {A B} (f : nat -> A -> B) l k i da db :
  i < length l -> nth i (mapi_from k f l) db = f (k + i) (nth i l da).
Proof.
  revert k i; induction l as [|a l IH]; simpl; intros k i Hi; [lia|].
  destruct i; [f_equal; lia|]. rewrite IH by lia. f_equal; lia.
Qed.
Lemma nth_mapi {A B} (f : nat -> A -> B) l i da db :
  i < length l -> nth i (mapi f l) db = f i (nth i l da).
Proof. intros; unfold mapi; rewrite nth_mapi_from with (da := da); auto. Qed.

Lemma shaped_nth {A} n m (f : field A) i : shaped n m f -> i < n -> length (nth i f []) = m.
Proof. intros [H1 H2] Hi. apply H2, nth_In. lia. Qed.

Lemma shaped_len {A} n m (f : field A) : shaped n m f -> length f = n.
Proof. intros [H _]; exact H. Qed.

Lemma shaped_of_nth {A} n m (f : field A) :
  length f = n -> (forall i, i < n -> length (nth i f []) = m) -> shaped n m f.
Proof.
  intros H1 H2; split; [assumption|]. intros r Hr.
  apply In_nth with (d := []) in Hr. destruct Hr as [i [Hi <-]]. apply H2; lia.
Qed.

Lemma field_ext {A} n m (f g : field A) d :
  shaped n m f -> shaped n m g ->
  (forall i j, i < n -> j < m -> at2 d f i j = at2 d g i j) -> f = g.
Proof.
  intros Hf Hg H. apply nth_ext' with (d := []).
  - rewrite (shaped_len _ _ _ Hf), (shaped_len _ _ _ Hg); reflexivity.
  - intros i Hi. rewrite (shaped_len _ _ _ Hf) in Hi.
    apply nth_ext' with (d := d).
    + rewrite (shaped_nth _ _ _ _ Hf Hi), (shaped_nth _ _ _ _ Hg Hi); reflexivity.
    + intros j Hj. rewrite (shaped_nth _ _ _ _ Hf Hi) in Hj. apply H; assumption.
Qed.

Lemma shaped_full {A} n m (a : A) : shaped n m (full n m a).
Proof.
  split; [apply repeat_length|]. intros r Hr. apply repeat_spec in Hr; subst. apply repeat_length.
Qed.

Lemma nth_repeat' {A} (a d : A) n i : i < n -> nth i (repeat a n) d = a.
Proof. revert i; induction n; simpl; intros i Hi; [lia|]. destruct i; auto. apply IHn; lia. Qed.

Lemma at2_full {A} (d a : A) n m i j : i < n -> j < m -> at2 d (full n m a) i j = a.
Proof. intros. unfold at2, full. rewrite nth_repeat' by assumption. apply nth_repeat'; assumption. Qed.

Lemma shaped_fmap {A B} (f : A -> B) n m x : shaped n m x -> shaped n m (fmap f x).
Proof.
  intros [H1 H2]; split; unfold fmap.
  - rewrite map_length; assumption.
  - intros r Hr. apply in_map_iff in Hr. destruct Hr as [r' [<- Hr']].
    rewrite map_length. apply H2; assumption.
Qed.

Lemma at2_fmap {A B} (f : A -> B) n m x da db i j :
  shaped n m x -> i < n -> j < m -> at2 db (fmap f x) i j = f (at2 da x i j).
Proof.
  intros Hx Hi Hj. unfold at2, fmap.
  rewrite nth_map' with (da := []) by (rewrite (shaped_len _ _ _ Hx); assumption).
  apply nth_map'. rewrite (shaped_nth _ _ _ _ Hx Hi); assumption.
Qed.

Lemma shaped_fmap2 {A B C} (f : A -> B -> C) n m x y :
  shaped n m x -> shaped n m y -> shaped n m (fmap2 f x y).
Proof.
  intros Hx Hy. apply shaped_of_nth; unfold fmap2.
  - rewrite zipw_length, (shaped_len _ _ _ Hx), (shaped_len _ _ _ Hy); lia.
  - intros i Hi. rewrite nth_zipw with (da := []) (db := [])
      by (rewrite ?(shaped_len _ _ _ Hx), ?(shaped_len _ _ _ Hy); assumption).
    rewrite zipw_length, (shaped_nth _ _ _ _ Hx Hi), (shaped_nth _ _ _ _ Hy Hi); lia.
Qed.

Lemma at2_fmap2 {A B C} (f : A -> B -> C) n m x y da db dc i j :
  shaped n m x -> shaped n m y -> i < n -> j < m ->
  at2 dc (fmap2 f x y) i j = f (at2 da x i j) (at2 db y i j).
Proof.
  intros Hx Hy Hi Hj. unfold at2, fmap2.
  rewrite nth_zipw with (da := []) (db := [])
      by (rewrite ?(shaped_len _ _ _ Hx), ?(shaped_len _ _ _ Hy); assumption).
  apply nth_zipw.
  - rewrite (shaped_nth _ _ _ _ Hx Hi); assumption.
  - rewrite (shaped_nth _ _ _ _ Hy Hi); assumption.
Qed.

Lemma shaped_fmapi {A B} (f : nat -> nat -> A -> B) n m x : shaped n m x -> shaped n m (fmapi f x).
Proof.
  intros Hx. apply shaped_of_nth; unfold fmapi.
  - rewrite mapi_length. apply (shaped_len _ _ _ Hx).
  - intros i Hi. rewrite nth_mapi with (da := []) by (rewrite (shaped_len _ _ _ Hx); assumption).
    rewrite mapi_length. apply (shaped_nth _ _ _ _ Hx Hi).
Qed.

Lemma at2_fmapi {A B} (f : nat -> nat -> A -> B) n m x da db i j :
  shaped n m x -> i < n -> j < m -> at2 db (fmapi f x) i j = f i j (at2 da x i j).
Proof.
  intros Hx Hi Hj. unfold at2, fmapi.
  rewrite nth_mapi with (da := []) by (rewrite (shaped_len _ _ _ Hx); assumption).
  rewrite nth_mapi with (da := da) by (rewrite (shaped_nth _ _ _ _ Hx Hi); assumption).
  reflexivity.
Qed.

(** ** set_inner *)

Lemma set_inner_length {A} (l v : list A) :
  2 <= length l -> length v = length l - 2 -> length (set_inner l v) = length l.
Proof.
  intros Hl Hv. unfold set_inner. rewrite !app_length, firstn_length, skipn_length. lia.
Qed.

Lemma nth_set_inner {A} (l v : list A) i d :
  2 <= length l -> length v = length l - 2 -> i < length l ->
  nth i (set_inner l v) d =
  if Nat.eqb i 0 then nth 0 l d
  else if Nat.eqb i (length l - 1) then nth i l d else nth (i - 1) v d.
Proof.
  intros Hl Hv Hi. unfold set_inner.
  destruct l as [|a l]; [simpl in Hl; lia|].
  change (firstn 1 (a :: l)) with [a].
  destruct (Nat.eqb_spec i 0) as [->|Hi0]; [reflexivity|].
  destruct i as [|i]; [lia|]. change (nth (S i) ([a] ++ ?r) d) with (nth i r d).
  destruct (Nat.eqb_spec (S i) (length (a :: l) - 1)) as [E|E].
  - rewrite app_nth2 by (simpl in *; lia).
    rewrite nth_skipn'. f_equal. simpl in *; lia.
  - rewrite app_nth1 by (simpl in *; lia). f_equal; lia.
Qed.

Lemma inner_set_inner {A} (l v : list A) :
  2 <= length l -> length v = length l - 2 -> inner (set_inner l v) = v.
Proof.
  intros Hl Hv. destruct l as [|d l']; [simpl in Hl; lia|].
  apply nth_ext' with (d := d).
  - rewrite inner_length, set_inner_length by assumption. lia.
  - intros i Hi. rewrite inner_length, set_inner_length in Hi by assumption.
    rewrite nth_inner by (rewrite set_inner_length; assumption).
    rewrite nth_set_inner by (assumption || lia).
    destruct (Nat.eqb_spec (S i) (length (d :: l') - 1)); [lia|].
    simpl. f_equal; lia.
Qed.

Lemma set_inner_inner {A} (l : list A) : 2 <= length l -> set_inner l (inner l) = l.
Proof.
  intros Hl. destruct l as [|d l']; [simpl in Hl; lia|].
  apply nth_ext' with (d := d).
  - apply set_inner_length; [assumption|apply inner_length].
  - intros i Hi. rewrite set_inner_length in Hi by (assumption || apply inner_length).
    rewrite nth_set_inner by (assumption || apply inner_length).
    destruct (Nat.eqb_spec i 0) as [->|]; [reflexivity|].
    destruct (Nat.eqb_spec i (length (d :: l') - 1)); [reflexivity|].
    rewrite nth_inner by (simpl in *; lia). f_equal. lia.
Qed.

Lemma set_inner_set_inner {A} (l v w : list A) :
  2 <= length l -> length v = length l - 2 -> set_inner (set_inner l v) w = set_inner l w.
Proof.
  intros Hl Hv. unfold set_inner at 1 3.
  rewrite set_inner_length by assumption.
  f_equal; [|f_equal].
  - unfold set_inner. destruct l; [simpl in Hl; lia|]. reflexivity.
  - unfold set_inner. rewrite app_assoc.
    rewrite skipn_app.
    rewrite skipn_all2 by (rewrite app_length, firstn_length; lia).
    rewrite app_length, firstn_length. replace (length l - 1 - (Nat.min 1 (length l) + length v)) with 0 by lia.
    reflexivity.
Qed.

Lemma In_set_inner {A} (l v : list A) x : In x (set_inner l v) -> In x l \/ In x v.
Proof.
  unfold set_inner. rewrite !in_app_iff. intros [H|[H|H]]; auto.
  - left. rewrite <- (firstn_skipn 1 l). apply in_or_app; auto.
  - left. rewrite <- (firstn_skipn (length l - 1) l). apply in_or_app; auto.
Qed.

Lemma In_inner {A} (l : list A) x : In x (inner l) -> In x l.
Proof.
  unfold inner. destruct l as [|a l]; simpl; [tauto|]. intros H. right.
  destruct l as [|b l]; [destruct H|].
  rewrite (app_removelast_last b) by discriminate. apply in_or_app; auto.
Qed.

(** ** profiles and cells of a field *)

Lemma shaped_inner {A} n m (f : field A) : shaped (n + 2) m f -> shaped n m (inner f).
Proof.
  intros [H1 H2]; split.
  - rewrite inner_length; lia.
  - intros r Hr. apply H2, In_inner, Hr.
Qed.

Lemma shaped_set_inner {A} n m (f v : field A) :
  shaped (n + 2) m f -> shaped n m v -> shaped (n + 2) m (set_inner f v).
Proof.
  intros [H1 H2] [H3 H4]; split.
  - rewrite set_inner_length; lia.
  - intros r Hr. apply In_set_inner in Hr. destruct Hr; auto.
Qed.

Lemma shaped_cells {A} n m (f : field A) : shaped (n + 2) (m + 2) f -> shaped n m (cells f).
Proof.
  intros Hf. apply shaped_inner in Hf. destruct Hf as [H1 H2]. unfold cells; split.
  - rewrite map_length; assumption.
  - intros r Hr. apply in_map_iff in Hr. destruct Hr as [r' [<- Hr']].
    rewrite inner_length, (H2 _ Hr'). lia.
Qed.

Lemma at2_inner {A} n m (f : field A) d i j :
  shaped (n + 2) m f -> i < n -> at2 d (inner f) i j = at2 d f (S i) j.
Proof.
  intros [H1 H2] Hi. unfold at2. rewrite nth_inner by lia. reflexivity.
Qed.

Lemma at2_cells {A} n m (f : field A) d i j :
  shaped (n + 2) (m + 2) f -> i < n -> j < m -> at2 d (cells f) i j = at2 d f (S i) (S j).
Proof.
  intros Hf Hi Hj. unfold at2, cells.
  pose proof (shaped_inner _ _ _ Hf) as Hin.
  rewrite nth_map' with (da := []) by (rewrite (shaped_len _ _ _ Hin); assumption).
  rewrite nth_inner by (rewrite (shaped_nth _ _ _ _ Hin Hi); lia).
  rewrite nth_inner by (rewrite (shaped_len _ _ _ Hf); lia). reflexivity.
Qed.

Lemma at2_set_inner {A} n m (f v : field A) d i j :
  shaped (n + 2) m f -> shaped n m v -> i < n + 2 ->
  at2 d (set_inner f v) i j =
  if (Nat.leb 1 i && Nat.leb i n)%bool then at2 d v (i - 1) j else at2 d f i j.
Proof.
  intros [H1 H2] [H3 H4] Hi. unfold at2.
  rewrite nth_set_inner by lia.
  destruct (Nat.eqb_spec i 0) as [->|Hi0]; [reflexivity|].
  destruct (Nat.eqb_spec i (length f - 1)) as [E|E].
  - destruct (Nat.leb_spec 1 i), (Nat.leb_spec i n); simpl; try reflexivity; lia.
  - destruct (Nat.leb_spec 1 i), (Nat.leb_spec i n); simpl; try reflexivity; lia.
Qed.

Lemma shaped_zip_set_inner {A} n m (f v : field A) :
  shaped n (m + 2) f -> shaped n m v -> shaped n (m + 2) (zipw set_inner f v).
Proof.
  intros Hf Hv. apply shaped_of_nth.
  - rewrite zipw_length, (shaped_len _ _ _ Hf), (shaped_len _ _ _ Hv); lia.
  - intros i Hi. rewrite nth_zipw with (da := []) (db := [])
      by (rewrite ?(shaped_len _ _ _ Hf), ?(shaped_len _ _ _ Hv); assumption).
    rewrite set_inner_length; rewrite ?(shaped_nth _ _ _ _ Hf Hi), ?(shaped_nth _ _ _ _ Hv Hi); lia.
Qed.

Lemma shaped_set_cells {A} n m (f v : field A) :
  shaped (n + 2) (m + 2) f -> shaped n m v -> shaped (n + 2) (m + 2) (set_cells f v).
Proof.
  intros Hf Hv. unfold set_cells. apply shaped_set_inner; [assumption|].
  apply shaped_zip_set_inner; [apply shaped_inner|]; assumption.
Qed.

Lemma at2_set_cells {A} n m (f v : field A) d i j :
  shaped (n + 2) (m + 2) f -> shaped n m v -> i < n + 2 -> j < m + 2 ->
  at2 d (set_cells f v) i j =
  if (Nat.leb 1 i && Nat.leb i n && Nat.leb 1 j && Nat.leb j m)%bool
  then at2 d v (i - 1) (j - 1) else at2 d f i j.
Proof.
  intros Hf Hv Hi Hj. unfold set_cells.
  pose proof (shaped_inner _ _ _ Hf) as Hin.
  rewrite (at2_set_inner n (m + 2)) by (try assumption; apply shaped_zip_set_inner; assumption).
  destruct (Nat.leb_spec 1 i); simpl; [|reflexivity].
  destruct (Nat.leb_spec i n); simpl; [|reflexivity].
  unfold at2 at 1. rewrite nth_zipw with (da := []) (db := [])
      by (rewrite ?(shaped_len _ _ _ Hin), ?(shaped_len _ _ _ Hv); lia).
  assert (Hr : length (nth (i - 1) (inner f) []) = m + 2) by (apply (shaped_nth _ _ _ _ Hin); lia).
  assert (Hw : length (nth (i - 1) v []) = m) by (apply (shaped_nth _ _ _ _ Hv); lia).
  rewrite nth_set_inner by lia.
  assert (Hfi : nth (i - 1) (inner f) [] = nth i f []).
  { rewrite nth_inner by (rewrite (shaped_len _ _ _ Hf); lia). f_equal; lia. }
  destruct (Nat.eqb_spec j 0) as [->|]; simpl.
  - unfold at2. rewrite Hfi. reflexivity.
  - destruct (Nat.leb_spec 1 j); [|lia].
    destruct (Nat.eqb_spec j (length (nth (i - 1) (inner f) []) - 1)) as [E|E]; rewrite Hr in E.
    + destruct (Nat.leb_spec j m); [lia|]. unfold at2. rewrite Hfi. destruct j; reflexivity.
    + destruct (Nat.leb_spec j m); [|lia]. destruct j; [lia|]. reflexivity.
Qed.

Lemma cells_set_cells {A} n m (f v : field A) :
  shaped (n + 2) (m + 2) f -> shaped n m v -> cells (set_cells f v) = v.
Proof.
  intros Hf Hv. unfold cells, set_cells.
  pose proof (shaped_inner _ _ _ Hf) as Hin.
  pose proof (shaped_zip_set_inner _ _ _ _ Hin Hv) as Hz.
  rewrite inner_set_inner by (rewrite ?(shaped_len _ _ _ Hf), ?(shaped_len _ _ _ Hz); lia).
  apply nth_ext' with (d := []).
  - rewrite map_length, (shaped_len _ _ _ Hz), (shaped_len _ _ _ Hv); reflexivity.
  - intros i Hi. rewrite map_length, (shaped_len _ _ _ Hz) in Hi.
    rewrite nth_map' with (da := []) by (rewrite (shaped_len _ _ _ Hz); assumption).
    rewrite nth_zipw with (da := []) (db := [])
      by (rewrite ?(shaped_len _ _ _ Hin), ?(shaped_len _ _ _ Hv); lia).
    apply inner_set_inner; rewrite ?(shaped_nth _ _ _ _ Hin Hi), ?(shaped_nth _ _ _ _ Hv Hi); lia.
Qed.
