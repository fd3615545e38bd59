(** Proofs about file names and options. *)
From Coq Require Import String Ascii List Bool Arith Lia Permutation NArith.
From Verif.Base Require Import Py.
From Verif.Model Require Import Config Cli.
From Verif.Spec Require Import CommandLine Sections.
From Verif.Proofs Require Import ProcessesP ConfigP.
Import ListNotations.
Local Open Scope string_scope.
Local Open Scope list_scope.

(** ** Order of strings *)

Lemma ascii_compare_trans c a b d : Ascii.compare a b = c -> Ascii.compare b d = c -> Ascii.compare a d = c.
Proof.
  unfold Ascii.compare. destruct c; intros H1 H2.
  - apply N.compare_eq_iff in H1, H2. apply N.compare_eq_iff. congruence.
  - apply N.compare_lt_iff in H1, H2. apply N.compare_lt_iff. exact (N.lt_trans _ _ _ H1 H2).
  - apply N.compare_gt_iff in H1, H2. apply N.compare_gt_iff. exact (N.lt_trans _ _ _ H2 H1).
Qed.
Lemma string_compare_refl s : String.compare s s = Eq.
Proof.
  induction s as [|a s IH]; [reflexivity|]. cbn. assert (E : Ascii.compare a a = Eq) by apply N.compare_refl. rewrite E. exact IH.
Qed.
Lemma leb_trans a b c : String.leb a b = true -> String.leb b c = true -> String.leb a c = true.
Proof.
  revert b c. induction a as [|x a IH]; intros [|y b] [|z c]; unfold String.leb; cbn; try discriminate; try reflexivity.
  destruct (Ascii.compare x y) eqn:E1; try discriminate; destruct (Ascii.compare y z) eqn:E2; try discriminate; intros H1 H2.
  - rewrite (ascii_compare_trans Eq _ _ _ E1 E2). apply (IH b c H1 H2).
  - apply Ascii.compare_eq_iff in E1. subst y. rewrite E2. reflexivity.
  - apply Ascii.compare_eq_iff in E2. subst y. rewrite E1. reflexivity.
  - rewrite (ascii_compare_trans Lt _ _ _ E1 E2). reflexivity.
Qed.
Lemma ltb_leb a b : String.ltb a b = negb (String.leb b a).
Proof. unfold String.ltb, String.leb. rewrite (String.compare_antisym b a). destruct (String.compare a b); reflexivity. Qed.
Lemma leb_refl a : String.leb a a = true.
Proof. unfold String.leb. rewrite string_compare_refl. reflexivity. Qed.

(** ** sorted *)
Section Sorting.
  Context {X : Type} (leb : X -> X -> bool).
  Hypothesis total : forall a b, leb a b = true \/ leb b a = true.
  Hypothesis trans : forall a b c, leb a b = true -> leb b c = true -> leb a c = true.

  Fixpoint ordered (l : list X) : Prop :=
    match l with
    | [] => True
    | x :: l => (forall y, In y l -> leb x y = true) /\ ordered l
    end.
  Lemma insert_perm x l : Permutation (insert leb x l) (x :: l).
  Proof.
    induction l as [|y l IH]; cbn; [reflexivity|]. destruct (leb x y); [reflexivity|].
    rewrite IH. apply perm_swap.
  Qed.
  Lemma sorted_list_perm l : Permutation (sorted_list leb l) l.
  Proof. induction l as [|x l IH]; cbn; [reflexivity|]. rewrite insert_perm, IH. reflexivity. Qed.
  Lemma insert_ordered x l : ordered l -> ordered (insert leb x l).
  Proof.
    induction l as [|y l IH]; cbn; [intros _; split; [intros y []|exact I]|]. intros [Hy Hl].
    destruct (leb x y) eqn:E; cbn.
    - split; [|auto]. intros z [<-|Hz]; [exact E|]. apply (trans x y z E (Hy z Hz)).
    - split; [|auto]. intros z Hz. apply (Permutation_in _ (insert_perm x l)) in Hz. destruct Hz as [<-|Hz]; [|auto].
      destruct (total x y) as [C|C]; congruence.
  Qed.
  Lemma sorted_list_ordered l : ordered (sorted_list leb l).
  Proof. induction l as [|x l IH]; cbn; [exact I|]. apply insert_ordered, IH. Qed.
  Lemma ordered_nth d l : ordered l -> forall i j, (i < j < length l) -> leb (nth i l d) (nth j l d) = true.
  Proof.
    induction l as [|x l IH]; cbn; intros H i j L; [lia|]. destruct H as [Hx Hl]. destruct j as [|j]; [lia|].
    destruct i as [|i]; [apply Hx, nth_In; lia|]. apply IH; [exact Hl|lia].
  Qed.
  Hypothesis antisym : forall a b, leb a b = true -> leb b a = true -> a = b.
  Lemma ordered_unique l l' : ordered l -> ordered l' -> Permutation l l' -> l = l'.
  Proof.
    revert l'. induction l as [|x l IH]; intros l' H H' P; [symmetry; apply Permutation_nil, P|].
    destruct l' as [|x' l']; [apply Permutation_sym, Permutation_nil in P; discriminate P|].
    destruct H as [Hx Hl], H' as [Hx' Hl'].
    assert (E : x = x').
    { assert (I1 : In x (x' :: l')) by (apply (Permutation_in _ P); left; reflexivity).
      assert (I2 : In x' (x :: l)) by (apply (Permutation_in _ (Permutation_sym P)); left; reflexivity).
      destruct I1 as [->|I1]; [reflexivity|]. destruct I2 as [->|I2]; [reflexivity|]. apply antisym; auto. }
    subst x'. f_equal. apply IH; [exact Hl|exact Hl'|]. apply (Permutation_cons_inv P).
  Qed.
End Sorting.

Lemma nat_total a b : Nat.leb a b = true \/ Nat.leb b a = true.
Proof. destruct (Nat.leb_spec a b); [left; reflexivity|right; apply Nat.leb_le; lia]. Qed.
Lemma nat_trans a b c : Nat.leb a b = true -> Nat.leb b c = true -> Nat.leb a c = true.
Proof. rewrite !Nat.leb_le. lia. Qed.
Lemma nat_antisym a b : Nat.leb a b = true -> Nat.leb b a = true -> a = b.
Proof. rewrite !Nat.leb_le. lia. Qed.
Lemma pair_leb_iff a b : pair_leb a b = true <-> fst a < fst b \/ (fst a = fst b /\ String.leb (snd a) (snd b) = true).
Proof.
  unfold pair_leb. destruct (Nat.ltb_spec (fst a) (fst b)) as [L|L]; [split; [left; exact L|reflexivity]|].
  destruct (Nat.ltb_spec (fst b) (fst a)) as [L'|L']; split.
  - discriminate.
  - intros [X|[X _]]; lia.
  - intros X. right. split; [lia|exact X].
  - intros [X|[_ X]]; [lia|exact X].
Qed.
Lemma pair_total a b : pair_leb a b = true \/ pair_leb b a = true.
Proof.
  rewrite !pair_leb_iff. destruct (lt_eq_lt_dec (fst a) (fst b)) as [[L|E]|L]; [left; left; exact L| |right; left; exact L].
  destruct (String.leb_total (snd a) (snd b)); [left; right; auto|right; right; auto].
Qed.
Lemma pair_trans a b c : pair_leb a b = true -> pair_leb b c = true -> pair_leb a c = true.
Proof.
  rewrite !pair_leb_iff. intros [L1|[E1 S1]] [L2|[E2 S2]]; [left; lia|left; lia|left; lia|].
  right. split; [lia|]. apply (leb_trans _ _ _ S1 S2).
Qed.

(** ** Times of files *)

Lemma is_digit_value a : is_digit a = true <-> digit_value a = Some (nat_of_ascii a - 48).
Proof. destruct a as [[] [] [] [] [] [] [] []]; vm_compute; split; intros H; try discriminate H; reflexivity. Qed.
Lemma digit_value_is a d : digit_value a = Some d -> is_digit a = true /\ d = nat_of_ascii a - 48.
Proof.
  intros H. assert (X : is_digit a = true).
  { revert d H. destruct a as [[] [] [] [] [] [] [] []]; vm_compute; intros d H; try discriminate H; reflexivity. }
  split; [exact X|]. apply is_digit_value in X. congruence.
Qed.
Lemma digit_value_none a : digit_value a = None <-> is_digit a = false.
Proof.
  split; intros H.
  - destruct (is_digit a) eqn:E; [|reflexivity]. apply is_digit_value in E. congruence.
  - destruct (digit_value a) as [d|] eqn:E; [|reflexivity]. apply digit_value_is in E. destruct E; congruence.
Qed.

Lemma append_nil s : (s ++ "")%string = s.
Proof. induction s as [|a s IH]; cbn; [reflexivity|]. f_equal. exact IH. Qed.
Lemma append_assoc a b c : ((a ++ b) ++ c)%string = (a ++ (b ++ c))%string.
Proof. induction a as [|x a IH]; cbn; [reflexivity|]. f_equal. exact IH. Qed.

Lemma take_digits_spec s : forall acc pre, decimal pre acc ->
  exists digits after, s = (digits ++ after)%string /\ decimal (pre ++ digits) (take_digits acc s) /\ ~ starts_with_digit after.
Proof.
  induction s as [|a s IH]; cbn; intros acc pre D.
  - exists "", "". rewrite (append_nil pre). split; [reflexivity|]. split; [exact D|]. intros [].
  - destruct (is_digit a) eqn:E.
    + destruct (IH (10 * acc + (nat_of_ascii a - 48)) (pre ++ String a "")%string) as [ds [af [E1 [E2 E3]]]].
      { constructor; [exact D|]. apply is_digit_value, E. }
      exists (String a ds), af. split; [cbn; f_equal; exact E1|]. split; [|exact E3].
      rewrite append_assoc in E2. exact E2.
    + exists "", (String a s). split; [reflexivity|]. rewrite (append_nil pre). split; [exact D|]. cbn. apply digit_value_none in E. congruence.
Qed.
Lemma time_from_filename_spec name :
  match time_from_filename name with Some t => first_number name t | None => without_digits name end.
Proof.
  induction name as [|a s IH]; [constructor|]. cbn [time_from_filename]. destruct (is_digit a) eqn:E.
  - destruct (take_digits_spec (String a s) 0 "" decimal_none) as [ds [af [E1 [E2 E3]]]].
    exists "", ds, af. split; [exact E1|]. split; [constructor|]. split; [|split; [exact E2|exact E3]].
    intros ->. cbn in E1. subst af. apply E3. cbn. apply is_digit_value in E. congruence.
  - apply digit_value_none in E. destruct (time_from_filename s) as [t|].
    + destruct IH as [be [ds [af [E1 [W R]]]]]. exists (String a be), ds, af. split; [cbn; f_equal; exact E1|].
      split; [constructor; assumption|exact R].
    + constructor; assumption.
Qed.
(* the number of a name is only one *)
Lemma decimal_digits s n : decimal s n -> Forall (fun a => digit_value a <> None) (list_ascii_of_string s).
Proof.
  induction 1 as [|s n a d _ IH E]; [constructor|].
  assert (X : list_ascii_of_string (s ++ String a "") = list_ascii_of_string s ++ [a]).
  { clear. induction s as [|x s IH]; cbn; [reflexivity|]. f_equal. exact IH. }
  rewrite X. apply Forall_app. split; [exact IH|]. constructor; [congruence|constructor].
Qed.

Lemma filter_perm {X} (f : X -> bool) l l' : Permutation l l' -> length (filter f l) = length (filter f l').
Proof.
  induction 1 as [|x l l' _ IH|x y l|l1 l2 l3 _ IH1 _ IH2]; cbn; [reflexivity| | |congruence].
  - destruct (f x); cbn; congruence.
  - destruct (f x), (f y); reflexivity.
Qed.
Lemma position_nth l : ordered String.leb l -> NoDup l -> forall i, i < length l -> position l (nth i l "") = i.
Proof.
  unfold position. induction l as [|x l IH]; intros O N i L; [cbn in L; lia|]. destruct O as [Hx Ol].
  inversion N as [|? ? N1 N2]; subst. destruct i as [|i]; cbn [nth filter].
  - rewrite ltb_leb, leb_refl. cbn [negb].
    assert (Z : forall m : list string, (forall y, In y m -> String.leb x y = true) -> length (filter (fun f => String.ltb f x) m) = 0).
    { induction m as [|y m IHm]; cbn; [reflexivity|]. intros H. rewrite ltb_leb, (H y (or_introl eq_refl)). cbn. apply IHm. auto. }
    apply Z, Hx.
  - cbn in L. assert (I := nth_In l "" (n := i) ltac:(lia)). rewrite ltb_leb.
    assert (F : String.leb (nth i l "") x = false).
    { destruct (String.leb (nth i l "") x) eqn:E; [|reflexivity]. exfalso. apply N1.
      rewrite (String.leb_antisym _ _ (Hx _ I) E). exact I. }
    rewrite F. cbn [negb length]. f_equal. apply IH; [exact Ol|exact N2|lia].
Qed.

Lemma ordered_map_fst (l : list (nat * string)) : ordered pair_leb l -> ordered Nat.leb (map fst l).
Proof.
  induction l as [|x l IH]; cbn; [auto|]. intros [Hx Hl]. split; [|auto]. intros y Hy. apply in_map_iff in Hy.
  destruct Hy as [z [<- Hz]]. apply Nat.leb_le. apply Hx, pair_leb_iff in Hz. lia.
Qed.
Lemma map_fst_comb {X Y} (a : list X) (b : list Y) : length a = length b -> map fst (combine a b) = a.
Proof. revert b. induction a as [|x a IH]; intros [|y b] H; cbn in *; try lia; [reflexivity|]. f_equal. apply IH. lia. Qed.
Lemma map_snd_comb {X Y} (a : list X) (b : list Y) : length a = length b -> map snd (combine a b) = b.
Proof. revert b. induction a as [|x a IH]; intros [|y b] H; cbn in *; try lia; [reflexivity|]. f_equal. apply IH. lia. Qed.

Theorem find_config_files_spec toml yaml times names :
  let files := match toml with [] => yaml | _ => toml end in
  NoDup files -> find_config_files toml yaml = (times, names) ->
  Permutation names files /\ length times = length names
  /\ (forall i j, i < j < length times ->
        nth i times 0 < nth j times 0 \/ (nth i times 0 = nth j times 0 /\ String.ltb (nth i names "") (nth j names "") = true))
  /\ forall i, i < length names -> time_of_file files (nth i names "") (nth i times 0).
Proof.
  intros files N. unfold find_config_files. fold files. set (cf := sorted_list String.leb files).
  set (ts := map _ (combine (seq 0 (length cf)) cf)). intros E. assert (Et := f_equal fst E). assert (En := f_equal snd E). cbn in Et, En. clear E.
  assert (Pcf : Permutation cf files) by apply sorted_list_perm.
  assert (Ocf : ordered String.leb cf) by (apply sorted_list_ordered; [apply String.leb_total|exact leb_trans]).
  assert (Ncf : NoDup cf) by (apply (Permutation_NoDup (Permutation_sym Pcf)), N).
  assert (Lts : length ts = length cf) by (unfold ts; rewrite map_length, combine_length, seq_length; lia).
  set (ps := sorted_list pair_leb (combine ts cf)) in *.
  assert (Pps : Permutation ps (combine ts cf)) by apply sorted_list_perm.
  assert (Ops : ordered pair_leb ps) by (apply sorted_list_ordered; [exact pair_total|exact pair_trans]).
  assert (E1 : map fst ps = times).
  { subst times. apply (ordered_unique Nat.leb nat_antisym).
    - apply ordered_map_fst, Ops.
    - apply sorted_list_ordered; [exact nat_total|exact nat_trans].
    - rewrite sorted_list_perm. rewrite Pps. rewrite map_fst_comb by exact Lts. reflexivity. }
  assert (Pn : Permutation names cf) by (subst names; rewrite Pps, map_snd_comb by exact Lts; reflexivity).
  assert (Lps : length times = length names) by (subst names; rewrite <- E1, !map_length; reflexivity).
  assert (Nn : NoDup names) by (apply (Permutation_NoDup (Permutation_sym Pn)), Ncf).
  assert (Hnth : forall i, i < length ps -> nth i ps (0, "") = (nth i times 0, nth i names "")).
  { intros i _. rewrite <- E1, <- En. assert (A : nth i (map fst ps) 0 = fst (nth i ps (0, ""))) by exact (map_nth fst ps (0, "") i).
    assert (B : nth i (map snd ps) "" = snd (nth i ps (0, ""))) by exact (map_nth snd ps (0, "") i).
    rewrite A, B. destruct (nth i ps (0, "")); reflexivity. }
  assert (Lp : length ps = length times) by (rewrite <- E1, map_length; reflexivity).
  split; [rewrite Pn; exact Pcf|]. split; [exact Lps|]. split.
  - intros i j L. assert (H := ordered_nth pair_leb (0, "") ps Ops i j ltac:(lia)). rewrite !Hnth in H by lia.
    apply pair_leb_iff in H. cbn in H. destruct H as [H|[H1 H2]]; [left; exact H|]. right. split; [exact H1|].
    rewrite ltb_leb. destruct (String.leb (nth j names "") (nth i names "")) eqn:E; [|reflexivity]. exfalso.
    assert (Eq := String.leb_antisym _ _ H2 E). apply (NoDup_nth names "") in Eq; [lia|exact Nn|lia|lia].
  - intros i L. assert (I : In (nth i ps (0, "")) ps) by (apply nth_In; lia). rewrite Hnth in I by lia.
    apply (Permutation_in _ Pps) in I.
    destruct (In_nth _ _ (0, "") I) as [k [Lk Ek]]. rewrite combine_length in Lk. rewrite combine_nth in Ek by exact Lts.
    assert (Eki := f_equal fst Ek). assert (Ekn := f_equal snd Ek). cbn in Eki, Ekn. rewrite <- Eki, <- Ekn.
    assert (Ets : nth k ts 0 = match time_from_filename (nth k cf "") with Some t => t | None => k end).
    { unfold ts. set (f := fun ic : nat * string => match time_from_filename (snd ic) with Some t => t | None => fst ic end).
      rewrite (nth_indep (map f (combine (seq 0 (length cf)) cf)) 0 (f (0, ""))) by (rewrite map_length, combine_length, seq_length; lia).
      rewrite (map_nth f), combine_nth by apply seq_length. unfold f. cbn [fst snd]. rewrite seq_nth by lia. reflexivity. }
    rewrite Ets. assert (T := time_from_filename_spec (nth k cf "")). destruct (time_from_filename (nth k cf "")) as [t|].
    + left. exact T.
    + right. split; [exact T|]. unfold position. rewrite <- (filter_perm _ _ _ Pcf). symmetry. apply position_nth; [exact Ocf|exact Ncf|lia].
Qed.

Lemma take_digits_decimal s n rest : decimal s n -> take_digits 0 (s ++ rest) = take_digits n rest.
Proof.
  intros D. revert rest. induction D as [|s n a d D IH E]; intros rest; [reflexivity|].
  rewrite append_assoc, IH. cbn. apply digit_value_is in E. destruct E as [-> ->]. reflexivity.
Qed.
Lemma time_of_file_unique files name t t' : time_of_file files name t -> time_of_file files name t' -> t = t'.
Proof.
  assert (F : forall t, first_number name t -> time_from_filename name = Some t).
  { intros x [be [ds [af [-> [W [N [D A]]]]]]]. induction be as [|a be IH].
    - cbn [append]. destruct ds as [|a ds]; [congruence|]. cbn [append time_from_filename].
      assert (Da := decimal_digits _ _ D). apply Forall_inv in Da. destruct (is_digit a) eqn:E; [|apply digit_value_none in E; congruence].
      f_equal. change (String a (ds ++ af)) with (String a ds ++ af)%string. rewrite (take_digits_decimal _ _ _ D).
      destruct af as [|b af]; [reflexivity|]. cbn. destruct (is_digit b) eqn:E'; [|reflexivity]. exfalso. apply A. cbn.
      apply is_digit_value in E'. congruence.
    - inversion W as [|? ? W1 W2]; subst. cbn. apply digit_value_none in W1. rewrite W1. apply IH, W2. }
  assert (G : without_digits name -> time_from_filename name = None).
  { clear F. induction name as [|a s IH]; intros W; [reflexivity|]. inversion W as [|? ? W1 W2]; subst. cbn. apply digit_value_none in W1.
    rewrite W1. apply IH, W2. }
  intros [H|[H ->]] [H'|[H' ->]].
  - apply F in H, H'. congruence.
  - apply F in H. apply G in H'. congruence.
  - apply G in H. apply F in H'. congruence.
  - reflexivity.
Qed.

(** ** Options *)

Lemma lacks_cons c a s : lacks c (String a s) <-> a <> c /\ lacks c s.
Proof. unfold lacks. cbn. tauto. Qed.
Lemma split_on_lacks c s : lacks c s -> split_on c s = [s].
Proof.
  induction s as [|a s IH]; intros L; [reflexivity|]. apply lacks_cons in L. destruct L as [N L]. cbn.
  destruct (Ascii.eqb_spec a c) as [->|_]; [congruence|]. rewrite (IH L). reflexivity.
Qed.
Lemma split_on_app c a s : lacks c a -> split_on c (a ++ String c s) = a :: split_on c s.
Proof.
  induction a as [|x a IH]; intros L.
  - cbn. rewrite Ascii.eqb_refl. reflexivity.
  - apply lacks_cons in L. destruct L as [N L]. cbn. destruct (Ascii.eqb_spec x c) as [->|_]; [congruence|]. rewrite (IH L). reflexivity.
Qed.
Lemma lacks_app c a b : lacks c (a ++ b) <-> lacks c a /\ lacks c b.
Proof.
  induction a as [|x a IH]; [cbn; unfold lacks; cbn; tauto|]. cbn [append]. rewrite !lacks_cons, IH. tauto.
Qed.
Lemma concat_cons k k' names : String.concat "." (k :: k' :: names) = (k ++ String "." (String.concat "." (k' :: names)))%string.
Proof. reflexivity. Qed.
Lemma split_concat names : names <> [] -> Forall (lacks ".") names -> split_on "." (String.concat "." names) = names.
Proof.
  induction names as [|k names IH]; [congruence|]. intros _ F. inversion F as [|? ? F1 F2]; subst. destruct names as [|k' names].
  - apply split_on_lacks, F1.
  - rewrite concat_cons, split_on_app by exact F1. f_equal. apply IH; [discriminate|exact F2].
Qed.
Lemma lacks_concat names : Forall (lacks "=") names -> lacks "=" (String.concat "." names).
Proof.
  induction names as [|k names IH]; intros F; [intros []|]. inversion F as [|? ? F1 F2]; subst. destruct names as [|k' names]; [exact F1|].
  rewrite concat_cons. apply lacks_app. split; [exact F1|]. apply lacks_cons. split; [discriminate|]. apply IH, F2.
Qed.

Section Options.
  Context {S : Type} (parse : string -> result (pyval S)).
  Implicit Types (o : option_string S) (d : dict S).

  Lemma split_written o : valid_option parse o ->
    split_on "=" (written o) = [String.concat "." (op_names o); op_text o] /\ split_on "." (String.concat "." (op_names o)) = op_names o.
  Proof.
    intros [L [F [T _]]]. split.
    - unfold written. cbn [append]. rewrite split_on_app; [rewrite split_on_lacks by exact T; reflexivity|].
      apply lacks_concat. revert F. apply Forall_impl. tauto.
    - apply split_concat; [intros E; rewrite E in L; cbn in L; lia|]. revert F. apply Forall_impl. tauto.
  Qed.

  Definition matches g o : bool := String.eqb (group_of o) g.
  Definition from_options (os : list (option_string S)) (g : string) : option (pyval S) :=
    option_map (fun o => PyDict (nest (tl (op_names o)) (op_value o))) (find (matches g) (rev os)).

  Lemma load_options os : Forall (valid_option parse) os ->
    exists params, load_params_from_strings parse (map written os) = Ok params
      /\ forall g, dget String.eqb params g = from_options os g.
  Proof.
    induction os as [|o os IH] using rev_ind; intros F; [exists []; split; [reflexivity|intros g; reflexivity]|].
    apply Forall_app in F. destruct F as [F Fo]. apply Forall_inv in Fo. destruct (IH F) as [params [E H]].
    unfold load_params_from_strings in *. rewrite map_app, foldM_app, E. cbn [bind map foldM].
    destruct (split_written o Fo) as [E1 E2]. rewrite E1. destruct Fo as [L [_ [_ P]]]. rewrite P. cbn [bind].
    eexists. split; [reflexivity|]. intros g. unfold dots_to_dict. rewrite E2. unfold from_options. rewrite rev_app_distr. cbn [app rev find].
    unfold matches at 1, group_of. destruct (op_names o) as [|k [|k' names]] eqn:En; [cbn in L; lia|cbn in L; lia|].
    cbn [nest hd tl]. change (dupdate String.eqb params [(k, ?v)]) with (dset String.eqb params k v).
    unfold dupdate. cbn [fold_left fst snd]. rewrite (dget_dset _ seqb_spec). rewrite (String.eqb_sym k g).
    destruct (String.eqb g k); [cbn; rewrite En; reflexivity|]. apply H.
  Qed.

  Lemma find_none os g : (forall o, In o os -> group_of o <> g) -> find (matches g) (rev os) = None.
  Proof.
    intros H. destruct (find (matches g) (rev os)) as [o|] eqn:E; [|reflexivity]. apply find_some in E. destruct E as [I E].
    apply in_rev in I. apply String.eqb_eq in E. destruct (H o I E).
  Qed.
  Lemma find_app {X} (f : X -> bool) a b : find f (a ++ b) = match find f a with Some x => Some x | None => find f b end.
  Proof. induction a as [|x a IH]; cbn; [reflexivity|]. destruct (f x); [reflexivity|exact IH]. Qed.

  Lemma mapM_keys {X Y} (f : string * X -> result (string * Y)) (l : list (string * X)) l' :
    (forall kv kv', f kv = Ok kv' -> fst kv' = fst kv) -> mapM f l = Ok l' ->
    forall g, match dget String.eqb l g with
              | Some v => exists v', f (g, v) = Ok (g, v') /\ dget String.eqb l' g = Some v'
              | None => dget String.eqb l' g = None
              end.
  Proof.
    intros K. revert l'. induction l as [|[k v] l IH]; cbn; intros l' E g.
    - inversion E. reflexivity.
    - destruct (f (k, v)) as [[k' v']|e] eqn:Ef; [|discriminate E]. cbn in E.
      destruct (mapM f l) as [m|e] eqn:Em; [|discriminate E]. cbn in E. inversion E; subst. assert (Q := K _ _ Ef). cbn in Q. subst k'.
      cbn. destruct (String.eqb_spec g k) as [->|N]; [exists v'; auto|]. apply IH. reflexivity.
  Qed.
  Lemma value_at_two d g path sub : path <> [] -> dget String.eqb d g = Some (PyDict sub) -> value_at d (g :: path) = value_at sub path.
  Proof. intros N E. destruct path as [|k path]; [congruence|]. cbn [value_at]. rewrite E. reflexivity. Qed.
  Lemma value_nest names (v : pyval S) : names <> [] -> value_at (nest names v) names = Some v.
  Proof.
    induction names as [|k names IH]; [congruence|]. intros _. destruct names as [|k' names].
    - cbn. rewrite String.eqb_refl. reflexivity.
    - change (nest (k :: k' :: names) v) with [(k, PyDict (nest (k' :: names) v))].
      rewrite (value_at_two _ k (k' :: names) (nest (k' :: names) v)); [apply IH; discriminate|discriminate|].
      cbn. rewrite String.eqb_refl. reflexivity.
  Qed.
  Lemma nest_single k names (v : pyval S) : exists x, nest (k :: names) v = [(k, x)].
  Proof. destruct names; eexists; reflexivity. Qed.

  (* what load_model_params does to each group *)
  Lemma load_model_params_spec defaults os : Forall (valid_option parse) os ->
    Forall (fun gd => exists sub, snd gd = PyDict sub) defaults ->
    exists params, load_model_params parse defaults (map written os) = Ok params
      /\ forall g, dget String.eqb params g
           = match dget String.eqb defaults g with
             | Some (PyDict sub) => Some (PyDict (match find (matches g) (rev os) with
                                                  | Some o => dupdate String.eqb sub (nest (tl (op_names o)) (op_value o))
                                                  | None => sub
                                                  end))
             | _ => None
             end.
  Proof.
    intros F D. destruct (load_options os F) as [cl [E H]]. unfold load_model_params. rewrite E. cbn [bind].
    set (f := fun gd : string * pyval S => _).
    assert (M : exists params, mapM f defaults = Ok params).
    { clear -D H. induction D as [|[g v] l [sub Es] _ IH]; [exists []; reflexivity|]. cbn in Es. subst v. destruct IH as [m Em].
      cbn [mapM]. rewrite Em. unfold f at 1. cbn [fst snd]. rewrite H. unfold from_options.
      destruct (find (matches g) (rev os)) as [o|]; eexists; reflexivity. }
    destruct M as [params M]. exists params. split; [exact M|]. intros g.
    assert (K : forall kv kv', f kv = Ok kv' -> fst kv' = fst kv).
    { intros kv kv' Q. unfold f in Q. destruct (update_with (snd kv) _) eqn:U; [|discriminate Q]. cbn in Q. inversion Q. reflexivity. }
    assert (R := mapM_keys f defaults params K M g).
    destruct (dget String.eqb defaults g) as [v|] eqn:Eg; [|exact R]. destruct R as [v' [R1 R2]]. rewrite R2.
    assert (Ig := dget_in _ seqb_spec _ _ _ Eg). rewrite Forall_forall in D. destruct (D _ Ig) as [sub Es]. cbn in Es. subst v.
    unfold f in R1. cbn [fst snd] in R1. rewrite H in R1. unfold from_options in R1.
    destruct (find (matches g) (rev os)) as [o|]; cbn in R1; assert (X := f_equal (fun r => match r with Ok x => snd x | Err _ => PyDict [] end) R1);
      cbn in X; rewrite <- X; reflexivity.
  Qed.

  (* C54 for an option followed by none of its group *)
  Theorem option_takes_effect defaults before o after params sub : Forall (valid_option parse) (before ++ o :: after) ->
    Forall (fun gd => exists sub, snd gd = PyDict sub) defaults ->
    dget String.eqb defaults (group_of o) = Some (PyDict sub) ->
    (forall o', In o' after -> group_of o' <> group_of o) ->
    load_model_params parse defaults (map written (before ++ o :: after)) = Ok params ->
    value_at params (op_names o) = Some (op_value o).
  Proof.
    intros F D E N L. destruct (load_model_params_spec defaults _ F D) as [params' [L' H]].
    assert (X : params' = params) by congruence. subst params'. specialize (H (group_of o)). rewrite E in H.
    rewrite rev_app_distr in H. cbn [rev] in H. rewrite <- app_assoc, find_app, (find_none after _ N) in H. cbn [app find] in H.
    assert (Mo : matches (group_of o) o = true) by (unfold matches; apply String.eqb_refl). rewrite Mo in H.
    apply Forall_app in F. destruct F as [_ F]. apply Forall_inv in F. destruct F as [Lo _].
    unfold group_of in H. destruct (op_names o) as [|g [|k names]] eqn:En; [cbn in Lo; lia|cbn in Lo; lia|]. cbn [hd tl] in H.
    rewrite (value_at_two params g (k :: names) _ ltac:(discriminate) H).
    destruct (nest_single k names (op_value o)) as [x Ex].
    assert (V := value_nest (k :: names) (op_value o) ltac:(discriminate)). rewrite Ex in V |- *.
    unfold dupdate. cbn [fold_left fst snd]. destruct names as [|k' names].
    - cbn [value_at] in *. rewrite (dget_dset _ seqb_spec), String.eqb_refl. cbn in V. rewrite String.eqb_refl in V. exact V.
    - cbn [value_at] in *. rewrite (dget_dset _ seqb_spec), String.eqb_refl. cbn in V. rewrite String.eqb_refl in V. exact V.
  Qed.

  (* and changes nothing else *)
  Theorem option_changes_nothing_else defaults os params g k sub : Forall (valid_option parse) os ->
    Forall (fun gd => exists sub, snd gd = PyDict sub) defaults ->
    dget String.eqb defaults g = Some (PyDict sub) ->
    (forall o rest, In o os -> op_names o <> g :: k :: rest) ->
    load_model_params parse defaults (map written os) = Ok params ->
    value_at params [g; k] = dget String.eqb sub k.
  Proof.
    intros F D E N L. destruct (load_model_params_spec defaults _ F D) as [params' [L' H]].
    assert (X : params' = params) by congruence. subst params'. specialize (H g). rewrite E in H.
    rewrite (value_at_two params g [k] _ ltac:(discriminate) H). cbn [value_at].
    destruct (find (matches g) (rev os)) as [o|] eqn:Ef; [|reflexivity]. apply find_some in Ef. destruct Ef as [I M].
    apply in_rev in I. apply String.eqb_eq in M. rewrite Forall_forall in F. destruct (F o I) as [Lo _]. unfold group_of in M.
    destruct (op_names o) as [|g' [|k' names]] eqn:En; [cbn in Lo; lia|cbn in Lo; lia|]. cbn [hd] in M. subst g'. cbn [tl].
    destruct (nest_single k' names (op_value o)) as [x Ex]. rewrite Ex. unfold dupdate. cbn [fold_left fst snd].
    rewrite (dget_dset _ seqb_spec). destruct (String.eqb_spec k k') as [->|_]; [|reflexivity]. destruct (N o names I En).
  Qed.
  Theorem options_never_fail defaults os : Forall (valid_option parse) os ->
    Forall (fun gd => exists sub, snd gd = PyDict sub) defaults ->
    exists params, load_model_params parse defaults (map written os) = Ok params.
  Proof. intros F D. destruct (load_model_params_spec defaults os F D) as [p [L _]]. exists p. exact L. Qed.
End Options.
