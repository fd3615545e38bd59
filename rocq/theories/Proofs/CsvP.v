(** csv tables read back. *)
From Coq Require Import String Ascii List ZArith NArith QArith Qround Qabs Lia Lqa Bool DecimalString DecimalPos DecimalN.
From Verif.Base Require Import Num Py.
From Verif.Model Require Import Cli Csv.
From Verif.Spec Require Import CommandLine.
From Verif.Proofs Require Import CliP.
Import ListNotations.
Local Open Scope string_scope.
Local Open Scope list_scope.

(** * Digits *)

Fixpoint all_chars (P : ascii -> Prop) (s : string) : Prop :=
  match s with EmptyString => True | String a s => P a /\ all_chars P s end.
Lemma all_app P a b : all_chars P (a ++ b)%string <-> all_chars P a /\ all_chars P b.
Proof. induction a as [|x a IH]; cbn; [tauto|]. rewrite IH. tauto. Qed.
Lemma all_impl (P Q : ascii -> Prop) s : (forall a, P a -> Q a) -> all_chars P s -> all_chars Q s.
Proof. intros I. induction s as [|a s IH]; cbn; [tauto|]. intros [A B]. split; auto. Qed.
Lemma all_lacks c s : all_chars (fun a => a <> c) s -> lacks c s.
Proof. induction s as [|a s IH]; [intros _ []|]. intros [A B]. apply lacks_cons. split; auto. Qed.

Definition digit (a : ascii) : Prop := is_digit a = true.
Lemma uint_digits d : all_chars digit (NilEmpty.string_of_uint d).
Proof. induction d; cbn; auto; split; auto; reflexivity. Qed.
Lemma show_digits n : all_chars digit (show_nat n).
Proof.
  unfold show_nat, NilZero.string_of_uint. destruct (N.to_uint n); try apply uint_digits. cbn. split; [reflexivity|exact I].
Qed.
Lemma show_nonempty n : exists a s, show_nat n = String a s /\ digit a.
Proof.
  pose proof (show_digits n) as D. assert (show_nat n <> "").
  { unfold show_nat, NilZero.string_of_uint. destruct (N.to_uint n); discriminate. }
  destruct (show_nat n) as [|a s]; [congruence|]. exists a, s. split; [reflexivity|]. apply D.
Qed.
Lemma digit_not a c : is_digit c = false -> digit a -> a <> c.
Proof. unfold digit. intros N D ->. congruence. Qed.
Lemma to_uint_nonnil n : N.to_uint n <> Decimal.Nil.
Proof. destruct n as [|p]; [discriminate|]. apply DecimalPos.Unsigned.to_uint_nonnil. Qed.
Lemma read_show n : read_digits (show_nat n) = Some n.
Proof.
  unfold read_digits, show_nat. rewrite NilZero.usu by apply to_uint_nonnil. rewrite DecimalN.Unsigned.of_to. reflexivity.
Qed.
Lemma show_small n : (n < 10)%N -> String.length (show_nat n) = 1%nat.
Proof.
  intros L. assert (C : (n = 0 \/ n = 1 \/ n = 2 \/ n = 3 \/ n = 4 \/ n = 5 \/ n = 6 \/ n = 7 \/ n = 8 \/ n = 9)%N) by lia.
  repeat (destruct C as [->|C]; [reflexivity|]). subst n. reflexivity.
Qed.

(** * Numbers *)

Definition rounded (q : Q) : Q := if Qle_bool 0 q then Z.of_N (tenths q) # 10 else - (Z.of_N (tenths q) # 10).

Lemma read_fixed a b : (b < 10)%N -> read_unsigned (show_nat a ++ "." ++ show_nat b) = Some (Z.of_N (a * 10 + b) # 10).
Proof.
  intros L. unfold read_unsigned. change ("." ++ show_nat b)%string with (String "." (show_nat b)).
  assert (Lk : forall n, lacks "." (show_nat n)).
  { intros n. apply all_lacks. eapply all_impl; [|apply show_digits]. intros c D. apply (digit_not c "."); [reflexivity|exact D]. }
  rewrite split_on_app by apply Lk. rewrite split_on_lacks by apply Lk.
  assert (E : forall n, String.eqb (show_nat n) "" = false).
  { intros n. destruct (show_nonempty n) as [c [s [-> _]]]. reflexivity. }
  rewrite !E, !read_show, show_small by exact L. reflexivity.
Qed.

Lemma lstrip_none s : all_chars (fun a => is_blank a = false) s -> lstrip s = s.
Proof. destruct s as [|a s]; [reflexivity|]. intros [E _]. cbn. rewrite E. reflexivity. Qed.
Lemma rstrip_none s : all_chars (fun a => is_blank a = false) s -> rstrip s = s.
Proof.
  induction s as [|a s IH]; [reflexivity|]. intros [E L]. cbn. rewrite (IH L), E. destruct s; reflexivity.
Qed.
Lemma strip_none s : all_chars (fun a => is_blank a = false) s -> strip s = s.
Proof. intros L. unfold strip. rewrite lstrip_none by exact L. apply rstrip_none, L. Qed.
Lemma digit_blank a : digit a -> is_blank a = false.
Proof. destruct a as [[] [] [] [] [] [] [] []]; cbv; congruence. Qed.

(* the characters of a number *)
Definition plain_char (a : ascii) : Prop := digit a \/ a = "."%char \/ a = "-"%char.
Lemma fixed_plain q : all_chars plain_char (show_fixed q).
Proof.
  unfold show_fixed. rewrite !all_app. assert (D : forall n, all_chars plain_char (show_nat n)).
  { intros n. eapply all_impl; [|apply show_digits]. intros a A. left. exact A. }
  split; [destruct (Qle_bool 0 q); cbn; [exact I|split; [right; right; reflexivity|exact I]]|].
  split; [apply D|]. split; [|apply D]. split; [right; left; reflexivity|exact I].
Qed.
Lemma fixed_lacks q c : is_digit c = false -> c <> "."%char -> c <> "-"%char -> lacks c (show_fixed q).
Proof.
  intros D P M. apply all_lacks. eapply all_impl; [|apply fixed_plain]. intros a [A|[->| ->]]; congruence.
Qed.
Lemma fixed_nonempty q : show_fixed q <> "".
Proof.
  unfold show_fixed. destruct (show_nonempty (tenths q / 10)) as [a [s [-> _]]]. destruct (Qle_bool 0 q); discriminate.
Qed.

Lemma fixed_blank q : all_chars (fun a => is_blank a = false) (show_fixed q).
Proof. eapply all_impl; [|apply fixed_plain]. intros a [A|[->| ->]]; [apply digit_blank, A|reflexivity|reflexivity]. Qed.
Definition no_exponent (a : ascii) : Prop := a <> "e"%char /\ a <> "E"%char.
Lemma cut_none s : all_chars no_exponent s -> cut_exponent s = (s, None).
Proof.
  induction s as [|a s IH]; [reflexivity|]. intros [[N1 N2] L]. cbn. rewrite (IH L). destruct (Ascii.eqb_spec a "e"); [congruence|]. destruct (Ascii.eqb_spec a "E"); [congruence|]. reflexivity.
Qed.
Lemma digit_exponent a : digit a -> no_exponent a.
Proof. intros D. split; intros ->; discriminate D. Qed.
Lemma signed_none {N} (read : string -> option N) opp s : match s with String a _ => a <> "-"%char /\ a <> "+"%char | _ => True end -> read_signed read opp s = read s.
Proof. destruct s as [|a s]; [reflexivity|]. intros [N1 N2]. destruct a as [[] [] [] [] [] [] [] []]; try congruence; reflexivity. Qed.
Lemma read_shown q : read_number (show_fixed q) = Ok (rounded q).
Proof.
  unfold read_number. rewrite strip_none by apply fixed_blank.
  assert (R := read_fixed (tenths q / 10) (tenths q mod 10) (N.mod_lt _ 10 ltac:(discriminate))).
  replace (tenths q / 10 * 10 + tenths q mod 10)%N with (tenths q) in R by (rewrite N.mul_comm; apply N.div_mod'; discriminate).
  set (t := (show_nat (tenths q / 10) ++ "." ++ show_nat (tenths q mod 10))%string) in *.
  assert (P : read_power t = Some (Z.of_N (tenths q) # 10)).
  { unfold read_power. rewrite cut_none; [exact R|]. unfold t. rewrite !all_app.
    assert (D : forall n, all_chars no_exponent (show_nat n)) by (intros n; eapply all_impl; [apply digit_exponent|apply show_digits]).
    split; [apply D|]. split; [|apply D]. split; [split; discriminate|exact I]. }
  unfold show_fixed, rounded. fold t. destruct (Qle_bool 0 q).
  - change ("" ++ t)%string with t. rewrite signed_none, P; [reflexivity|]. unfold t. destruct (show_nonempty (tenths q / 10)) as [a [s [-> D]]]. cbn.
    split; apply digit_not; auto.
  - change ("-" ++ t)%string with (String "-" t). cbn [read_signed]. rewrite P. reflexivity.
Qed.

(* a number is read back to a tenth, and exactly if it is a number of tenths *)
Lemma tenths_near q : Qabs (Qabs q - (Z.of_N (tenths q) # 10)) <= 1 # 20.
Proof.
  unfold tenths. set (v := Qabs q * 10). pose proof (Qfloor_le v) as F1. pose proof (Qlt_floor v) as F2.
  assert (Z0 : (0 <= Qfloor v)%Z).
  { change 0%Z with (Qfloor 0). apply Qfloor_resp_le. unfold v. pose proof (Qabs_nonneg q). lra. }
  set (f := Qfloor v) in *. rewrite inject_Z_plus in F2.
  assert (K : forall z, (0 <= z)%Z -> Qabs (v - inject_Z z) <= 1 # 2 -> Qabs (Qabs q - (Z.of_N (Z.to_N z) # 10)) <= 1 # 20).
  { intros z Hz B. rewrite Z2N.id by exact Hz. apply Qabs_Qle_condition in B. apply Qabs_Qle_condition.
    assert (E : z # 10 == inject_Z z * (1 # 10)) by (unfold Qeq, inject_Z; cbn; lia). rewrite E. unfold v in B. lra. }
  destruct (Qcompare_spec (v - inject_Z f) (1 # 2)) as [E|E|E].
  - destruct (Z.even f); apply K; try lia; apply Qabs_Qle_condition; rewrite ?inject_Z_plus; change (inject_Z 1) with 1 in *; lra.
  - apply K; [exact Z0|]. apply Qabs_Qle_condition. lra.
  - apply K; [lia|]. apply Qabs_Qle_condition. rewrite inject_Z_plus. change (inject_Z 1) with 1 in *. lra.
Qed.
Lemma tenths_even q : Qabs (Qabs q - (Z.of_N (tenths q) # 10)) == 1 # 20 -> Z.even (Z.of_N (tenths q)) = true.
Proof.
  unfold tenths. set (v := Qabs q * 10). pose proof (Qfloor_le v) as F1. pose proof (Qlt_floor v) as F2.
  assert (Z0 : (0 <= Qfloor v)%Z).
  { change 0%Z with (Qfloor 0). apply Qfloor_resp_le. unfold v. pose proof (Qabs_nonneg q). lra. }
  set (f := Qfloor v) in *. rewrite inject_Z_plus in F2. change (inject_Z 1) with 1 in F2.
  assert (K : forall z, (0 <= z)%Z -> Qabs (Qabs q - (Z.of_N (Z.to_N z) # 10)) == 1 # 20 -> v - inject_Z z == 1 # 2 \/ v - inject_Z z == - (1 # 2)).
  { intros z Hz B. rewrite Z2N.id in B by exact Hz.
    assert (E : z # 10 == inject_Z z * (1 # 10)) by (unfold Qeq, inject_Z; cbn; lia). rewrite E in B. unfold v.
    destruct (Qlt_le_dec (Qabs q - inject_Z z * (1 # 10)) 0) as [L|L]; [rewrite Qabs_neg in B by lra|rewrite Qabs_pos in B by exact L]; [right|left]; lra. }
  destruct (Qcompare_spec (v - inject_Z f) (1 # 2)) as [E|E|E]; intros B.
  - destruct (Z.even f) eqn:Ev; rewrite Z2N.id by lia; [exact Ev|]. rewrite Z.even_add, Ev. reflexivity.
  - destruct (K _ Z0 B); lra.
  - destruct (K (f + 1)%Z ltac:(lia) B) as [C|C]; rewrite inject_Z_plus in C; change (inject_Z 1) with 1 in C; lra.
Qed.
Theorem rounded_tie q : exists z, rounded q == z # 10 /\ (Qabs (q - rounded q) == 1 # 20 -> Z.even z = true).
Proof.
  pose proof (tenths_even q) as T. unfold rounded. destruct (Qle_bool 0 q) eqn:E.
  - exists (Z.of_N (tenths q)). split; [reflexivity|]. apply Qle_bool_iff in E. rewrite (Qabs_pos q E) in T. exact T.
  - exists (- Z.of_N (tenths q))%Z. split; [reflexivity|]. rewrite Z.even_opp.
    assert (L : q <= 0). { apply Qnot_lt_le. intros L. apply Qlt_le_weak, Qle_bool_iff in L. congruence. }
    intros B. apply T. rewrite (Qabs_neg q L). rewrite <- Qabs_opp. setoid_replace (- (- q - (Z.of_N (tenths q) # 10))) with (q - - (Z.of_N (tenths q) # 10)) by ring. exact B.
Qed.
Theorem rounded_near q : Qabs (q - rounded q) <= 1 # 20.
Proof.
  pose proof (tenths_near q) as T. unfold rounded. destruct (Qle_bool 0 q) eqn:E.
  - apply Qle_bool_iff in E. rewrite (Qabs_pos q E) in T. exact T.
  - assert (L : q <= 0). { apply Qnot_lt_le. intros L. apply Qlt_le_weak, Qle_bool_iff in L. congruence. }
    rewrite (Qabs_neg q L) in T. rewrite <- Qabs_opp. setoid_replace (- (q - - (Z.of_N (tenths q) # 10))) with (- q - (Z.of_N (tenths q) # 10)) by ring. exact T.
Qed.
Theorem rounded_exact q (z : Z) : q * 10 == inject_Z z -> rounded q == q.
Proof.
  intros E. assert (V : Qabs q * 10 == inject_Z (Z.abs z)).
  { change 10 with (Qabs 10). rewrite <- Qabs_Qmult, E. unfold Qabs, inject_Z, Qeq. cbn. lia. }
  assert (T : Z.of_N (tenths q) = Z.abs z).
  { unfold tenths. assert (F : Qfloor (Qabs q * 10) = Z.abs z) by (rewrite V; apply Qfloor_Z). rewrite F.
    assert (C : (Qabs q * 10 - inject_Z (Z.abs z) ?= 1 # 2)%Q = Lt) by (apply Qlt_alt; setoid_replace (Qabs q * 10 - inject_Z (Z.abs z)) with 0 by (rewrite V; ring); reflexivity). rewrite C. apply Z2N.id. lia. }
  unfold rounded. rewrite T.
  assert (W : Z.abs z # 10 == Qabs q).
  { assert (X : Z.abs z # 10 == inject_Z (Z.abs z) * (1 # 10)) by (unfold Qeq, inject_Z; cbn; lia). rewrite X, <- V. ring. }
  destruct (Qle_bool 0 q) eqn:B; rewrite W.
  - apply Qle_bool_iff in B. apply Qabs_pos, B.
  - assert (L : q <= 0). { apply Qnot_lt_le. intros L. apply Qlt_le_weak, Qle_bool_iff in L. congruence. }
    rewrite (Qabs_neg q L). ring.
Qed.

(** * Tables *)

Definition row_text (row : list Q) : string := String.concat "," (map show_fixed row).
Lemma comma_cons a b l : String.concat "," (a :: b :: l) = (a ++ String "," (String.concat "," (b :: l)))%string.
Proof. reflexivity. Qed.
Lemma row_lacks row c : is_digit c = false -> c <> "."%char -> c <> "-"%char -> c <> ","%char -> lacks c (row_text row).
Proof.
  intros D P M K. unfold row_text. induction row as [|q row IH]; [intros []|]. destruct row as [|q' row].
  - cbn. apply fixed_lacks; assumption.
  - cbn [map] in *. rewrite comma_cons. apply lacks_app. split; [apply fixed_lacks; assumption|]. apply lacks_cons. split; [congruence|exact IH].
Qed.
Lemma row_split row : row <> [] -> split_on "," (row_text row) = map show_fixed row.
Proof.
  unfold row_text. induction row as [|q row IH]; [congruence|]. intros _.
  assert (L : lacks "," (show_fixed q)) by (apply fixed_lacks; [reflexivity|discriminate|discriminate]).
  destruct row as [|q' row]; [cbn; apply split_on_lacks, L|]. cbn [map] in *. rewrite comma_cons, split_on_app by exact L. f_equal. apply IH. discriminate.
Qed.
Lemma row_nonempty row : row <> [] -> row_text row <> "".
Proof.
  destruct row as [|q row]; [congruence|]. intros _ E. destruct row as [|q' row].
  - apply (fixed_nonempty q E).
  - unfold row_text in E. cbn [map] in E. rewrite comma_cons in E. destruct (show_fixed q); discriminate E.
Qed.
Lemma read_row row : row <> [] -> read_line (row_text row) = Ok (map rounded row).
Proof.
  intros N. unfold read_line. rewrite row_split by exact N. clear N. induction row as [|q row IH]; [reflexivity|].
  cbn [map mapM]. rewrite read_shown. cbn [bind]. rewrite IH. reflexivity.
Qed.

Lemma before_lacks c s : lacks c s -> before c s = s.
Proof.
  induction s as [|a s IH]; [reflexivity|]. intros L. apply lacks_cons in L. cbn. destruct (Ascii.eqb_spec a c); [tauto|]. rewrite IH by tauto. reflexivity.
Qed.
Lemma append_assoc (a b c : string) : ((a ++ b) ++ c = a ++ (b ++ c))%string.
Proof. induction a as [|x a IH]; [reflexivity|]. cbn. rewrite IH. reflexivity. Qed.
Lemma concat_nil_cons a l : String.concat "" (a :: l) = (a ++ String.concat "" l)%string.
Proof. destruct l; [cbn; clear; induction a as [|x a IH]; [reflexivity|cbn; congruence]|reflexivity]. Qed.
Lemma lines_split data : split_on "010" (String.concat "" (map (fun row => String.concat "," (map show_fixed row) ++ newline) data)%string)
  = map row_text data ++ [""].
Proof.
  induction data as [|row data IH]; [reflexivity|]. cbn [map]. rewrite concat_nil_cons, append_assoc.
  change (newline ++ ?s)%string with (String "010" s). 
  change (String.concat "," (map show_fixed row)) with (row_text row).
  rewrite split_on_app by (apply row_lacks; [reflexivity|discriminate|discriminate|discriminate]). rewrite IH. reflexivity.
Qed.

Lemma feeds_app a b : line_feeds (a ++ b) = (line_feeds a ++ line_feeds b)%string.
Proof. induction a as [|x a IH]; [reflexivity|]. cbn. rewrite IH. reflexivity. Qed.
Lemma feeds_lacks s : lacks "013" s -> line_feeds s = s.
Proof.
  induction s as [|a s IH]; [reflexivity|]. intros L. apply lacks_cons in L as [N L]. cbn. rewrite (IH L). destruct (Ascii.eqb_spec a "013"); [congruence|reflexivity].
Qed.
Lemma body_feeds data : lacks "013" (String.concat "" (map (fun row => String.concat "," (map show_fixed row) ++ newline) data)%string).
Proof.
  induction data as [|row data IH]; [intros []|]. cbn [map]. rewrite concat_nil_cons. apply lacks_app. split; [|exact IH].
  apply lacks_app. split; [apply row_lacks; [reflexivity|discriminate|discriminate|discriminate]|]. apply lacks_cons. split; [discriminate|intros []].
Qed.
Theorem loadtxt_as_csv data header n : lacks "010" header -> lacks "013" header -> (1 <= n)%nat -> Forall (fun row => length row = n) data ->
  loadtxt (as_csv data header) = Ok (map (map rounded) data).
Proof.
  intros Lh Lr Hn F. unfold loadtxt, as_csv. pose proof (body_feeds data) as Lb. revert Lb.
  set (body := String.concat "" _). intros Lb. change ("# " ++ header ++ newline ++ body)%string with (String "#" (String " " (header ++ String "010" body))).
  rewrite feeds_lacks.
  2: { apply lacks_cons. split; [discriminate|]. apply lacks_cons. split; [discriminate|]. apply lacks_app. split; [exact Lr|]. apply lacks_cons. split; [discriminate|exact Lb]. }
  assert (S1 : split_on "010" (String "#" (String " " (header ++ String "010" body)%string)) = String "#" (String " " header) :: split_on "010" body).
  { apply (split_on_app "010" (String "#" (String " " header)) body). apply lacks_cons. split; [discriminate|]. apply lacks_cons. split; [discriminate|exact Lh]. }
  rewrite S1. unfold body. rewrite lines_split. clear S1 Lb body.
  cbn [map before]. change (Ascii.eqb "#" "#") with true. cbn [filter]. change (negb (String.eqb "" "")) with false. cbn iota.
  assert (B : filter (fun s => negb (String.eqb s "")) (map (before "#") (map row_text data ++ [""])) = map row_text data).
  { induction data as [|row data IH]; [reflexivity|]. inversion F as [|? ? F1 F2]; subst. cbn [map app filter].
    assert (N : row <> []) by (destruct row; [cbn in Hn; lia|discriminate]).
    rewrite before_lacks by (apply row_lacks; [reflexivity|discriminate|discriminate|discriminate]).
    destruct (String.eqb_spec (row_text row) "") as [E|_]; [destruct (row_nonempty row N E)|]. cbn [negb]. f_equal. apply IH. exact F2. }
  rewrite B. clear B.
  assert (M : mapM read_line (map row_text data) = Ok (map (map rounded) data)).
  { induction data as [|row data IH]; [reflexivity|]. inversion F as [|? ? F1 F2]; subst. cbn [map mapM].
    rewrite read_row by (destruct row; [cbn in Hn; lia|discriminate]). cbn [bind]. rewrite (IH F2). reflexivity. }
  rewrite M. cbn [bind]. destruct data as [|row data]; [reflexivity|]. cbn [map].
  match goal with |- (if ?b then _ else _) = _ => replace b with true; [reflexivity|] end.
  symmetry. apply forallb_forall. intros r Hr. apply Nat.eqb_eq. inversion F as [|? ? F1 F2]; subst.
  change (In r (map (map rounded) (row :: data))) in Hr. apply in_map_iff in Hr. destruct Hr as [r0 [<- Hr]].
  rewrite !map_length. rewrite Forall_forall in F. rewrite (F r0 Hr). reflexivity.
Qed.

Theorem table_as_csv data header n : lacks "010" header -> lacks "013" header -> (2 <= n)%nat -> (2 <= length data)%nat ->
  Forall (fun row => length row = n) data ->
  read_table (as_csv data header) = Ok (map (fun row => rounded (nth 0 row 0)) data, map (fun row => rounded (nth 1 row 0)) data).
Proof.
  intros Lh Lr Hn Hd F. unfold read_table. rewrite (loadtxt_as_csv data header n) by (assumption || lia). cbn [bind].
  destruct data as [|r1 [|r2 data]]; cbn [length] in Hd; try lia. unfold columns. cbn [map].
  inversion F as [|? ? F1 F2]; subst. rewrite map_length. destruct (Nat.ltb_spec (length r1) 2); [lia|].
  assert (N : forall k row, (k < length row)%nat -> nth k (map rounded row) 0 = rounded (nth k row 0)).
  { intros k row L. rewrite (nth_indep _ 0 (rounded 0)) by (rewrite map_length; exact L). apply map_nth. }
  assert (M : forall k, (k < 2)%nat -> map (fun r => nth k r 0) (map (map rounded) (r1 :: r2 :: data)) = map (fun row => rounded (nth k row 0)) (r1 :: r2 :: data)).
  { intros k Lk. rewrite map_map. apply map_ext_in. intros row Hr. apply N. rewrite Forall_forall in F. rewrite (F row Hr). lia. }
  f_equal. f_equal; [apply (M 0%nat); lia|apply (M 1%nat); lia].
Qed.

Theorem csv_round_trip data header : lacks "010" header -> lacks "013" header -> Forall (fun row => length row = 2%nat) data ->
  ((2 <= length data)%nat ->
   exists xs ys, read_table (as_csv data header) = Ok (xs, ys)
    /\ length xs = length data /\ length ys = length data
    /\ forall i, (i < length data)%nat ->
       let near q q' := (Qabs (q - q') <= 1 # 20)%Q /\ (exists z : Z, (q' == z # 10)%Q /\ ((Qabs (q - q') == 1 # 20)%Q -> Z.even z = true)) /\ forall z : Z, (q * 10 == inject_Z z)%Q -> (q' == q)%Q in
       near (nth 0 (nth i data []) 0%Q) (nth i xs 0%Q) /\ near (nth 1 (nth i data []) 0%Q) (nth i ys 0%Q))
  /\ ((length data < 2)%nat -> read_table (as_csv data header) = Err IndexError).
Proof.
  intros Lh Lr F. split.
  - intros L. eexists _, _. split; [exact (table_as_csv data header 2 Lh Lr ltac:(lia) L F)|].
    rewrite !map_length. split; [reflexivity|]. split; [reflexivity|]. intros i Li near.
    assert (N : forall k, near (nth k (nth i data []) 0%Q) (nth i (map (fun row => rounded (nth k row 0)) data) 0%Q)).
    { intros k. set (f := fun row => rounded (nth k row 0)).
      assert (E : nth i (map f data) 0 = f (nth i data [])).
      { rewrite <- (map_nth f). apply nth_indep. rewrite map_length. exact Li. }
      rewrite E. unfold f.
      split; [apply rounded_near|]. split; [apply rounded_tie|]. intros z. apply rounded_exact. }
    split; apply N.
  - intros L. unfold read_table. rewrite (loadtxt_as_csv data header 2) by (assumption || lia). cbn [bind]. destruct data as [|r [|]]; [reflexivity|reflexivity|cbn in L; lia].
Qed.
Lemma ex_rounds : read_table (as_csv [[0; 1 # 4]; [1 # 3; -5 # 2]]%Q "a, b") = Ok ([0 # 10; 3 # 10], [2 # 10; -25 # 10])%Q.
Proof. vm_compute. reflexivity. Qed.
