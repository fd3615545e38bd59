(** Tables written as text (C120). *)
From Coq Require Import String Ascii List ZArith NArith QArith Qpower Qround Lia Lqa Bool Reals Qreals DecimalString Decimal.
From Verif.Base Require Import Num Py.
From Verif.Model Require Import Cli Grid Csv.
From Verif.Spec Require Import CommandLine Written.
From Verif.Proofs Require Import CliP CsvP.
Import ListNotations.
Local Open Scope string_scope.
Local Open Scope list_scope.

(** ** characters *)
Lemma only_all P s : only P s <-> all_chars P s.
Proof.
  unfold only. induction s as [|a s IH]; cbn; [split; tauto|]. rewrite <- IH. split; [intros H; split; [apply H; auto|intros b I; apply H; auto]|].
  intros [H1 H2] b [<-|I]; auto.
Qed.
Lemma lacks_only c s : lacks c s <-> only (fun a => a <> c) s.
Proof. unfold lacks, only. split; [intros H a I ->; exact (H I)|intros H I; exact (H c I eq_refl)]. Qed.
Lemma only_app P a b : only P (a ++ b)%string <-> only P a /\ only P b.
Proof. rewrite !only_all. apply all_app. Qed.
Lemma only_cons P a s : only P (String a s) <-> P a /\ only P s.
Proof. rewrite !only_all. reflexivity. Qed.
Lemma only_impl (P Q : ascii -> Prop) s : (forall a, P a -> Q a) -> only P s -> only Q s.
Proof. intros H O a I. apply H, O, I. Qed.
Lemma only_nil P : only P "".
Proof. intros a []. Qed.
Lemma app_nil_string s : (s ++ "" = s)%string.
Proof. induction s as [|a s IH]; [reflexivity|]. cbn. rewrite IH. reflexivity. Qed.
Lemma figure_digit a : is_figure a <-> is_digit a = true.
Proof. unfold is_figure, is_digit. rewrite andb_true_iff, !Nat.leb_le. reflexivity. Qed.

(** ** figures *)
Definition from_acc (d : uint) (acc : N) : N := match acc with N0 => N.of_uint d | Npos p => Npos (Pos.of_uint_acc d p) end.
Definition denoted_from (acc : Z) (s : string) : Z := fold_left (fun n a => (10 * n + (Z.of_nat (nat_of_ascii a) - 48))%Z) (list_ascii_of_string s) acc.
Lemma uint_denoted s : forall d acc, NilEmpty.uint_of_string s = Some d -> Z.of_N (from_acc d acc) = denoted_from (Z.of_N acc) s /\ only is_figure s.
Proof.
  induction s as [|a s IH]; intros d acc H; [cbn in H; injection H as <-; split; [destruct acc; reflexivity|apply only_nil]|].
  cbn [NilEmpty.uint_of_string] in H. destruct (NilEmpty.uint_of_string s) as [d'|]; [|destruct a as [[] [] [] [] [] [] [] []]; discriminate H].
  assert (K : exists k, (k < 10)%N /\ nat_of_ascii a = (48 + N.to_nat k)%nat /\ Z.of_N (from_acc d acc) = Z.of_N (from_acc d' (k + 10 * acc))).
  { destruct a as [[] [] [] [] [] [] [] []]; try discriminate H; injection H as <-;
    [exists 7%N|exists 3%N|exists 5%N|exists 9%N|exists 1%N|exists 6%N|exists 2%N|exists 4%N|exists 8%N|exists 0%N]; (split; [lia|]; split; [reflexivity|]; destruct acc; reflexivity). }
  destruct K as (k & K1 & K2 & K3). rewrite K3. destruct (IH _ (k + 10 * acc)%N eq_refl) as [E O]. rewrite E. split.
  - unfold denoted_from. cbn [list_ascii_of_string fold_left]. f_equal. rewrite K2, Nat2Z.inj_add, N_nat_Z. lia.
  - apply only_cons. split; [unfold is_figure; rewrite K2; lia|exact O].
Qed.
Lemma figures_uint s : only is_figure s -> exists d, NilEmpty.uint_of_string s = Some d.
Proof.
  induction s as [|a s IH]; intros O; [eexists; reflexivity|]. apply only_cons in O as [F O]. destruct (IH O) as [d E]. cbn. rewrite E.
  unfold is_figure in F. destruct a as [[] [] [] [] [] [] [] []]; cbv in F; try (exfalso; lia); eexists; reflexivity.
Qed.
Lemma read_figures s : only is_figure s -> s <> "" -> exists n, read_digits s = Some n /\ Z.of_N n = denoted s.
Proof.
  intros O N. destruct (figures_uint s O) as [d E]. unfold read_digits, NilZero.uint_of_string. destruct s as [|a s]; [congruence|]. rewrite E. eexists. split; [reflexivity|].
  exact (proj1 (uint_denoted _ d 0%N E)).
Qed.
Lemma figures_read s n : read_digits s = Some n -> only is_figure s /\ s <> "" /\ Z.of_N n = denoted s.
Proof.
  unfold read_digits, NilZero.uint_of_string. destruct s as [|a s]; [discriminate|]. destruct (NilEmpty.uint_of_string (String a s)) as [d|] eqn:E; [|discriminate].
  intros H. injection H as <-. destruct (uint_denoted _ d 0%N E) as [D O]. split; [exact O|]. split; [discriminate|exact D].
Qed.
Lemma denoted_app a b : denoted (a ++ b) = (denoted a * 10 ^ Z.of_nat (String.length b) + denoted b)%Z.
Proof.
  unfold denoted. assert (L : list_ascii_of_string (a ++ b)%string = list_ascii_of_string a ++ list_ascii_of_string b) by (induction a as [|x a IH]; cbn; [reflexivity|rewrite IH; reflexivity]).
  rewrite L, fold_left_app. generalize (fold_left (fun n a0 => (10 * n + (Z.of_nat (nat_of_ascii a0) - 48))%Z) (list_ascii_of_string a) 0%Z). clear L a.
  assert (G : forall b z w, fold_left (fun n a0 => (10 * n + (Z.of_nat (nat_of_ascii a0) - 48))%Z) (list_ascii_of_string b) (z + w)%Z
     = (z * 10 ^ Z.of_nat (String.length b) + fold_left (fun n a0 => (10 * n + (Z.of_nat (nat_of_ascii a0) - 48))%Z) (list_ascii_of_string b) w)%Z).
  { clear b. induction b as [|x b IH]; intros z w; [cbn [String.length list_ascii_of_string fold_left]; change (Z.of_nat 0) with 0%Z; rewrite Z.pow_0_r; lia|]. cbn [list_ascii_of_string fold_left String.length].
    replace (10 * (z + w) + (Z.of_nat (nat_of_ascii x) - 48))%Z with ((10 * z) + (10 * w + (Z.of_nat (nat_of_ascii x) - 48)))%Z by lia. rewrite IH.
    rewrite Nat2Z.inj_succ, Z.pow_succ_r by lia. lia. }
  intros z. rewrite <- (G b z 0%Z). f_equal. lia.
Qed.

(** ** numerals *)
Lemma figures_lack s c : only is_figure s -> is_digit c = false -> lacks c s.
Proof. intros O D. apply lacks_only. eapply only_impl; [|exact O]. intros a F ->. apply figure_digit in F. congruence. Qed.
Definition mantissa (n : numeral) : string := (nu_whole n ++ match nu_part n with Some f => "." ++ f | None => "" end)%string.
Definition mantissa_worth (n : numeral) : Q := inject_Z (denoted (nu_whole n ++ part_figures n)) * Qpower 10 (- Z.of_nat (String.length (part_figures n))).
Lemma scaled (w : string) f : String.eqb f "" = false ->
  inject_Z (denoted (w ++ f)) * Qpower 10 (- Z.of_nat (String.length f)) == ((denoted w * Z.pos (Pos.pow 10 (Pos.of_nat (String.length f))) + denoted f)%Z # Pos.pow 10 (Pos.of_nat (String.length f)))%Q.
Proof.
  intros N. rewrite denoted_app. destruct f as [|a f]; [discriminate|]. set (k := String.length (String a f)).
  assert (E : Z.pos (Pos.pow 10 (Pos.of_nat k)) = (10 ^ Z.of_nat k)%Z).
  { rewrite Pos2Z.inj_pow. f_equal. unfold k. cbn [String.length]. lia. }
  rewrite <- E. rewrite Qpower_opp. assert (P : Qpower 10 (Z.of_nat k) == inject_Z (Z.pos (10 ^ Pos.of_nat k))) by (rewrite E; change 10 with (inject_Z 10); symmetry; apply Zpower_Qpower; lia).
  rewrite P. set (d := (10 ^ Pos.of_nat k)%positive). rewrite (Qmake_Qdiv (denoted w * Z.pos d + denoted (String a f)) d). reflexivity.
Qed.
Lemma read_mantissa n : only is_figure (nu_whole n) -> only is_figure (part_figures n) -> (nu_whole n ++ part_figures n)%string <> "" ->
  exists q, read_unsigned (mantissa n) = Some q /\ q == mantissa_worth n.
Proof.
  unfold mantissa, mantissa_worth, part_figures. intros O1 O2 N. pose proof (figures_lack _ "."%char O1 eq_refl) as L1. unfold read_unsigned. destruct (nu_part n) as [f|].
  - pose proof (figures_lack _ "."%char O2 eq_refl) as L2. change ("." ++ f)%string with (String "." f). rewrite split_on_app by exact L1. rewrite split_on_lacks by exact L2.
    set (w := nu_whole n) in *.
    assert (A : exists m, (if String.eqb w "" then Some 0%N else read_digits w) = Some m /\ Z.of_N m = denoted w).
    { destruct (String.eqb_spec w "") as [->|Nw]; [exists 0%N; auto|apply read_figures; assumption]. }
    assert (B : exists m, (if String.eqb f "" then Some 0%N else read_digits f) = Some m /\ Z.of_N m = denoted f).
    { destruct (String.eqb_spec f "") as [->|Nw]; [exists 0%N; auto|apply read_figures; assumption]. }
    destruct A as (x & -> & Ex), B as (y & -> & Ey).
    destruct (String.eqb_spec w "") as [Ew|Nw], (String.eqb f "") eqn:Ef; cbn [andb]; try (apply String.eqb_eq in Ef; subst f).
    + subst w. exfalso. apply N. rewrite Ew. reflexivity.
    + eexists. split; [reflexivity|]. rewrite scaled by exact Ef. rewrite N2Z.inj_add, N2Z.inj_mul, Ex, Ey. reflexivity.
    + eexists. split; [reflexivity|]. rewrite app_nil_string, Ex. cbn. ring.
    + eexists. split; [reflexivity|]. rewrite scaled by exact Ef. rewrite N2Z.inj_add, N2Z.inj_mul, Ex, Ey. reflexivity.
  - rewrite app_nil_string in *. rewrite split_on_lacks by exact L1. destruct (read_figures _ O1 N) as (x & -> & Ex). eexists. split; [reflexivity|]. rewrite Ex. cbn. ring.
Qed.
Lemma cut_at m c x : all_chars no_exponent m -> c = "e"%char \/ c = "E"%char -> cut_exponent (m ++ String c x) = (m, Some x).
Proof.
  intros A C. induction m as [|a m IH]; [cbn; destruct C as [->| ->]; reflexivity|]. destruct A as [[N1 N2] A]. cbn. rewrite (IH A).
  destruct (Ascii.eqb_spec a "e"); [congruence|]. destruct (Ascii.eqb_spec a "E"); [congruence|]. reflexivity.
Qed.
Lemma figures_exponent s : only is_figure s -> all_chars no_exponent s.
Proof. intros O. apply only_all. eapply only_impl; [|exact O]. intros a F. apply digit_exponent, figure_digit, F. Qed.
Lemma mantissa_exponent n : only is_figure (nu_whole n) -> only is_figure (part_figures n) -> all_chars no_exponent (mantissa n).
Proof.
  unfold mantissa, part_figures. intros O1 O2. apply all_app. split; [apply figures_exponent, O1|]. destruct (nu_part n); [|exact I]. split; [split; discriminate|apply figures_exponent, O2].
Qed.
Lemma figures_start s : only is_figure s -> match s with String a _ => a <> "-"%char /\ a <> "+"%char | _ => True end.
Proof. destruct s as [|a s]; [auto|]. intros O. apply only_cons in O as [F _]. apply figure_digit in F. split; intros ->; discriminate F. Qed.
Lemma mantissa_start n r : only is_figure (nu_whole n) -> only is_figure (part_figures n) -> (nu_whole n ++ part_figures n)%string <> "" ->
  match (mantissa n ++ r)%string with String a _ => a <> "-"%char /\ a <> "+"%char | _ => True end.
Proof.
  unfold mantissa, part_figures. intros O1 O2 N. destruct (nu_whole n) as [|a w]; [destruct (nu_part n); [split; discriminate|destruct (N eq_refl)]|].
  apply (figures_start (String a w) O1).
Qed.
Lemma signed_text {N} (read : string -> option N) opp s t v : read t = Some v -> match t with String a _ => a <> "-"%char /\ a <> "+"%char | _ => True end ->
  read_signed read opp (sign_text s ++ t) = Some (match s with Minus => opp v | _ => v end).
Proof. intros R T. destruct s; cbn [sign_text append]; [rewrite signed_none by exact T; exact R|exact R|cbn; rewrite R; reflexivity]. Qed.
Theorem read_numeral n : wellformed n -> exists q, read_signed read_power Qopp (spelled n) = Some q /\ q == worth n.
Proof.
  intros (O1 & O2 & N & X). destruct (read_mantissa n O1 O2 N) as (q & Rq & Eq). pose proof (mantissa_exponent n O1 O2) as M.
  assert (P : exists q', read_power (mantissa n ++ match nu_exponent n with Some (c, s, x) => String c "" ++ sign_text s ++ x | None => "" end) = Some q'
     /\ q' == inject_Z (denoted (nu_whole n ++ part_figures n)) * Qpower 10 (exponent n - Z.of_nat (String.length (part_figures n)))).
  { unfold read_power, exponent. destruct (nu_exponent n) as [[[c s] x]|].
    - destruct X as (C & Ox & Nx). change (String c "" ++ sign_text s ++ x)%string with (String c (sign_text s ++ x)). rewrite (cut_at _ c _ M C), Rq.
      destruct (read_figures x Ox Nx) as (k & Rk & Ek).
      rewrite (signed_text _ Z.opp s x (Z.of_N k)); [|rewrite Rk; reflexivity|apply figures_start, Ox]. eexists. split; [reflexivity|].
      rewrite Eq. unfold mantissa_worth. replace (match s with Minus => - Z.of_N k | _ => Z.of_N k end)%Z with (signed s (denoted x)) by (rewrite <- Ek; destruct s; reflexivity).
      unfold Z.sub. rewrite Qpower_plus by discriminate. ring.
    - rewrite app_nil_string, (cut_none _ M). exists q. split; [exact Rq|]. rewrite Eq. unfold mantissa_worth. cbn [Z.sub]. reflexivity. }
  destruct P as (q' & R' & E').
  assert (Sp : spelled n = (sign_text (nu_sign n) ++ mantissa n ++ match nu_exponent n with Some (c, s, x) => String c "" ++ sign_text s ++ x | None => "" end)%string).
  { unfold spelled, mantissa. rewrite append_assoc. reflexivity. }
  rewrite Sp. rewrite (signed_text _ Qopp (nu_sign n) _ q' R' (mantissa_start n _ O1 O2 N)). eexists. split; [reflexivity|].
  unfold worth. destruct (nu_sign n); cbn [signed]; rewrite ?E'; [reflexivity|reflexivity|]. rewrite inject_Z_opp. ring.
Qed.

(** ** fields *)
Definition inner (a : ascii) : Prop := is_blank a = false /\ a <> ","%char /\ a <> "#"%char /\ a <> "010"%char /\ a <> "013"%char.
Lemma figure_inner a : is_figure a -> inner a.
Proof. intros F. apply figure_digit in F. split; [apply digit_blank, F|]. repeat split; intros ->; discriminate F. Qed.
Lemma sign_inner s : only inner (sign_text s).
Proof. apply only_all. destruct s; cbn; repeat split; try discriminate. Qed.
Lemma spelled_inner n : wellformed n -> only inner (spelled n).
Proof.
  intros (O1 & O2 & _ & X). unfold spelled, part_figures in *. rewrite !only_app. split; [apply sign_inner|]. split; [exact (only_impl _ _ _ figure_inner O1)|]. split.
  - destruct (nu_part n) as [f|]; [|apply only_nil]. apply only_cons. split; [repeat split; discriminate|exact (only_impl _ _ _ figure_inner O2)].
  - destruct (nu_exponent n) as [[[c s] x]|]; [|apply only_nil]. destruct X as (C & Ox & _). change (String c "" ++ sign_text s ++ x)%string with (String c (sign_text s ++ x)). apply only_cons.
    split; [destruct C as [->| ->]; repeat split; discriminate|]. apply only_app. split; [apply sign_inner|exact (only_impl _ _ _ figure_inner Ox)].
Qed.
Lemma spelled_nonempty n : wellformed n -> spelled n <> "".
Proof.
  intros (_ & _ & N & _) E. apply N. unfold spelled, part_figures in *. destruct (sign_text (nu_sign n)); [|discriminate E]. destruct (nu_whole n); [|discriminate E].
  destruct (nu_part n); [discriminate E|reflexivity].
Qed.
Lemma blank_iff a : In a [" "; "009"; "011"; "012"]%char <-> is_blank a = true.
Proof.
  unfold is_blank. rewrite !orb_true_iff, !Ascii.eqb_eq. cbn. intuition congruence.
Qed.
Lemma lstrip_blanks l t : blanks l -> lstrip (l ++ t) = lstrip t.
Proof. induction l as [|a l IH]; [reflexivity|]. intros B. apply only_cons in B as [B1 B2]. apply blank_iff in B1. cbn. rewrite B1. apply IH, B2. Qed.
Lemma rstrip_blanks r : blanks r -> rstrip r = "".
Proof. induction r as [|a r IH]; [reflexivity|]. intros B. apply only_cons in B as [B1 B2]. apply blank_iff in B1. cbn. rewrite (IH B2), B1. reflexivity. Qed.
Lemma strip_around l s r : blanks l -> blanks r -> only (fun a => is_blank a = false) s -> s <> "" -> strip (l ++ s ++ r) = s.
Proof.
  intros Bl Br Os N. unfold strip. rewrite lstrip_blanks by exact Bl.
  assert (E : lstrip (s ++ r) = (s ++ r)%string) by (destruct s as [|a s]; [congruence|]; apply only_cons in Os as [O _]; cbn; rewrite O; reflexivity).
  rewrite E. clear N E. induction s as [|a s IH]; [apply rstrip_blanks, Br|]. apply only_cons in Os as [O1 O2]. cbn. rewrite (IH O2), O1. destruct s; reflexivity.
Qed.
Lemma read_field f n : field_of f n -> exists q, read_number f = Ok q /\ q == worth n.
Proof.
  intros (W & l & r & Bl & Br & ->). unfold read_number.
  rewrite strip_around; [|exact Bl|exact Br|exact (only_impl _ _ _ (fun a H => proj1 H) (spelled_inner n W))|exact (spelled_nonempty n W)].
  destruct (read_numeral n W) as (q & -> & E). exists q. auto.
Qed.
Lemma strip_parts s : exists l r, blanks l /\ blanks r /\ s = (l ++ strip s ++ r)%string.
Proof.
  assert (A : exists l, blanks l /\ s = (l ++ lstrip s)%string).
  { induction s as [|a s IH]; [exists ""; split; [apply only_nil|reflexivity]|]. cbn. destruct (is_blank a) eqn:E.
    - destruct IH as (l & B & ->). exists (String a l). split; [apply only_cons; split; [apply blank_iff, E|exact B]|]. cbn. f_equal.
      assert (X : lstrip (l ++ lstrip s) = lstrip s).
      { rewrite lstrip_blanks by exact B. clear. induction s as [|a s IH]; [reflexivity|]. cbn. destruct (is_blank a) eqn:E; [exact IH|]. cbn. rewrite E. reflexivity. }
      rewrite X. reflexivity.
    - exists "". split; [apply only_nil|reflexivity]. }
  destruct A as (l & Bl & El). assert (B : forall t, exists r, blanks r /\ t = (rstrip t ++ r)%string).
  { induction t as [|a t IH]; [exists ""; split; [apply only_nil|reflexivity]|]. destruct IH as (r & Br & Et). cbn. destruct (rstrip t) as [|b t'] eqn:E.
    - destruct (is_blank a) eqn:Ea; [|exists r; split; [exact Br|cbn; f_equal; exact Et]]. exists (String a r). split; [apply only_cons; split; [apply blank_iff, Ea|exact Br]|]. cbn. f_equal. exact Et.
    - exists r. split; [exact Br|]. cbn [append]. f_equal. exact Et. }
  destruct (B (lstrip s)) as (r & Br & Er). exists l, r. split; [exact Bl|]. split; [exact Br|]. unfold strip. rewrite El at 1. f_equal. exact Er.
Qed.
Lemma split_some c s : split_on c s <> [].
Proof. destruct s as [|a s]; [discriminate|]. cbn. destruct (Ascii.eqb a c); [discriminate|]. destruct (split_on c s); discriminate. Qed.
Lemma join_cons c ps : forall x p, fold_left (fun a b => (a ++ String c b)%string) ps (String x p) = String x (fold_left (fun a b => (a ++ String c b)%string) ps p).
Proof. induction ps as [|q ps IH]; intros x p; [reflexivity|]. cbn. apply IH. Qed.
Lemma split_join c s : s = match split_on c s with p :: ps => fold_left (fun a b => a ++ String c b)%string ps p | [] => "" end.
Proof.
  induction s as [|a s IH]; [reflexivity|]. cbn. pose proof (split_some c s) as N. destruct (split_on c s) as [|p ps]; [congruence|]. destruct (Ascii.eqb_spec a c) as [->|].
  - cbn [fold_left]. change (("" ++ String c p)%string) with (String c p). rewrite join_cons. f_equal. exact IH.
  - rewrite join_cons. f_equal. exact IH.
Qed.
Lemma cut_parts s : match cut_exponent s with (m, None) => s = m | (m, Some x) => exists c, (c = "e"%char \/ c = "E"%char) /\ s = (m ++ String c x)%string end.
Proof.
  induction s as [|a s IH]; [reflexivity|]. cbn. destruct (Ascii.eqb_spec a "e") as [->|]; [exists "e"%char; auto|]. destruct (Ascii.eqb_spec a "E") as [->|]; [exists "E"%char; auto|]. cbn [orb].
  destruct (cut_exponent s) as [m [x|]]; [|congruence]. destruct IH as (c & C & ->). exists c. auto.
Qed.
Lemma signed_parts {N} (read : string -> option N) opp s v : read_signed read opp s = Some v -> exists sg t w, s = (sign_text sg ++ t)%string /\ read t = Some w.
Proof.
  intros H. destruct s as [|a s]; [exists NoSign, "", v; auto|].
  assert (D : a = "-"%char \/ a = "+"%char \/ (a <> "-"%char /\ a <> "+"%char)).
  { destruct (Ascii.eqb_spec a "-"); [auto|]. destruct (Ascii.eqb_spec a "+"); auto. }
  destruct D as [->|[->|D]].
  - cbn in H. destruct (read s) as [w|] eqn:E; [|discriminate]. exists Minus, s, w. auto.
  - exists Plus, s, v. auto.
  - rewrite signed_none in H by exact D. exists NoSign, (String a s), v. auto.
Qed.
Lemma unsigned_parts s v : read_unsigned s = Some v -> exists w f, s = (w ++ match f with Some f => "." ++ f | None => "" end)%string
  /\ only is_figure w /\ only is_figure (match f with Some f => f | None => "" end) /\ (w ++ match f with Some f => f | None => "" end)%string <> "".
Proof.
  unfold read_unsigned. pose proof (split_join "." s) as J. destruct (split_on "." s) as [|i [|f [|]]]; try discriminate; cbn [fold_left] in J.
  - destruct (read_digits i) as [n|] eqn:E; [|discriminate]. intros _. destruct (figures_read _ _ E) as (O & N & _). exists i, None. rewrite !app_nil_string. split; [exact J|]. split; [exact O|]. split; [apply only_nil|exact N].
  - destruct (if String.eqb i "" then _ else _) as [n|] eqn:E1; [|discriminate]. destruct (if String.eqb f "" then _ else _) as [m|] eqn:E2; [|discriminate].
    destruct (String.eqb i "" && String.eqb f "") eqn:B; [discriminate|]. intros _. exists i, (Some f). split; [exact J|].
    assert (O : forall t k, (if String.eqb t "" then Some 0%N else read_digits t) = Some k -> only is_figure t).
    { intros t k. destruct (String.eqb_spec t "") as [->|]; [intros _; apply only_nil|]. intros H. apply (figures_read _ _ H). }
    split; [exact (O _ _ E1)|]. split; [exact (O _ _ E2)|]. intros E. destruct i; [|discriminate E]. cbn in E. subst f. discriminate B.
Qed.
Theorem field_read f q : read_number f = Ok q -> exists n, field_of f n.
Proof.
  unfold read_number. destruct (read_signed _ _ _) as [v|] eqn:E; [|discriminate]. intros _. destruct (strip_parts f) as (l & r & Bl & Br & Ef).
  destruct (signed_parts _ _ _ _ E) as (sg & t & w & Et & Rt). unfold read_power in Rt. pose proof (cut_parts t) as C. destruct (cut_exponent t) as [m [x|]].
  - destruct C as (c & Cc & Ec). destruct (read_unsigned m) as [u|] eqn:Eu; [|discriminate]. destruct (read_signed _ Z.opp x) as [e|] eqn:Ex; [|discriminate].
    destruct (unsigned_parts _ _ Eu) as (wh & fr & Em & O1 & O2 & N). destruct (signed_parts _ _ _ _ Ex) as (sx & tx & wx & Etx & Rx). destruct (read_digits tx) as [k|] eqn:Ek; [|discriminate].
    destruct (figures_read _ _ Ek) as (Ox & Nx & _). exists (mkNumeral sg wh fr (Some (c, sx, tx))). split; [exact (conj O1 (conj O2 (conj N (conj Cc (conj Ox Nx)))))|]. exists l, r. split; [exact Bl|]. split; [exact Br|].
    rewrite Ef. f_equal. f_equal. rewrite Et, Ec, Em, Etx. unfold spelled. cbn [nu_sign nu_whole nu_part nu_exponent]. rewrite append_assoc. reflexivity.
  - subst m. destruct (unsigned_parts _ _ Rt) as (wh & fr & Em & O1 & O2 & N). exists (mkNumeral sg wh fr None). split; [exact (conj O1 (conj O2 (conj N I)))|]. exists l, r. split; [exact Bl|]. split; [exact Br|].
    rewrite Ef. f_equal. f_equal. rewrite Et, Em. unfold spelled. cbn [nu_sign nu_whole nu_part nu_exponent]. rewrite app_nil_string. reflexivity.
Qed.
Lemma number_error f e : read_number f = Err e -> e = ValueError.
Proof. unfold read_number. destruct (read_signed _ _ _); congruence. Qed.
Lemma mapM_error {X Y} (f : X -> result Y) l : (forall x e, f x = Err e -> e = ValueError) -> forall e, mapM f l = Err e -> e = ValueError.
Proof.
  intros H. induction l as [|x l IH]; cbn [mapM]; [discriminate|]. intros e. destruct (f x) eqn:E; cbn [bind]; [|intros K; assert (e0 = e) by congruence; subst; exact (H _ _ E)].
  destruct (mapM f l); cbn [bind]; [discriminate|]. intros K. apply IH. congruence.
Qed.
Lemma mapM_none {X Y} (f : X -> result Y) l : Exists (fun x => forall y, f x <> Ok y) l -> forall ys, mapM f l <> Ok ys.
Proof.
  intros H. induction H as [x l Hx|x l H IH]; intros ys; cbn [mapM].
  - destruct (f x) as [y|] eqn:E; [destruct (Hx y eq_refl)|discriminate].
  - destruct (f x); cbn [bind]; [|discriminate]. destruct (mapM f l) as [zs|] eqn:E; cbn [bind]; [destruct (IH zs eq_refl)|discriminate].
Qed.
Lemma mapM_some {X Y Z} (f : X -> result Y) (P : Y -> Z -> Prop) l zs : Forall2 (fun x z => exists y, f x = Ok y /\ P y z) l zs -> exists ys, mapM f l = Ok ys /\ Forall2 P ys zs.
Proof.
  induction 1 as [|x z l zs (y & E & Hp) _ (ys & Es & Hs)]; [exists []; auto|]. cbn [mapM]. rewrite E. cbn [bind]. rewrite Es. exists (y :: ys). auto.
Qed.

(** ** rows *)
Lemma split_concat c fields : fields <> [] -> Forall (lacks c) fields -> split_on c (String.concat (String c "") fields) = fields.
Proof.
  intros N F. induction F as [|f fields L F IH]; [congruence|]. destruct fields as [|f' fields]; [apply split_on_lacks, L|].
  change (String.concat (String c "") (f :: f' :: fields)) with (f ++ String c (String.concat (String c "") (f' :: fields)))%string. rewrite split_on_app by exact L. f_equal. apply IH. discriminate.
Qed.
Lemma blanks_inner s c : blanks s -> is_blank c = false -> only (fun a => a <> c) s.
Proof. intros B N. eapply only_impl; [|exact B]. intros a I ->. apply blank_iff in I. congruence. Qed.
Lemma field_lacks f n c : field_of f n -> In c [","; "#"; "010"; "013"]%char -> lacks c f.
Proof.
  intros (W & l & r & Bl & Br & ->) I. apply lacks_only. assert (Nb : is_blank c = false) by (cbn in I; repeat (destruct I as [<-|I]; [reflexivity|]); destruct I).
  rewrite !only_app. split; [exact (blanks_inner _ _ Bl Nb)|]. split; [|exact (blanks_inner _ _ Br Nb)]. eapply only_impl; [|exact (spelled_inner n W)].
  intros a (_ & A1 & A2 & A3 & A4). cbn in I. destruct I as [<-|[<-|[<-|[<-|[]]]]]; assumption.
Qed.
Lemma field_nonempty f n : field_of f n -> f <> "".
Proof.
  intros (W & l & r & _ & _ & ->) E. apply (spelled_nonempty n W). destruct l; [|discriminate E]. destruct (spelled n); [reflexivity|discriminate E].
Qed.
Lemma concat_lacks c fields : c <> ","%char -> Forall (lacks c) fields -> lacks c (String.concat "," fields).
Proof.
  intros N F. induction F as [|f fields L F IH]; [intros []|]. destruct fields as [|f' fields]; [exact L|].
  change (String.concat "," (f :: f' :: fields)) with (f ++ String "," (String.concat "," (f' :: fields)))%string. apply lacks_app. split; [exact L|]. apply lacks_cons. split; [congruence|exact IH].
Qed.
Lemma Forall2_left {X Y} (P : X -> Y -> Prop) (Q : X -> Prop) l l' : (forall x y, P x y -> Q x) -> Forall2 P l l' -> Forall Q l.
Proof. intros H. induction 1; constructor; eauto. Qed.
Lemma row_read line ns : row_of line ns -> exists qs, read_line line = Ok qs /\ Forall2 (fun q n => q == worth n) qs ns.
Proof.
  intros (N & fields & -> & F). unfold read_line. rewrite (split_concat "," fields).
  - apply mapM_some. clear N. induction F as [|f n fields ns H F IH]; constructor; [exact (read_field f n H)|exact IH].
  - intros ->. inversion F. congruence.
  - apply (Forall2_left _ _ _ _ (fun f n H => field_lacks f n ","%char H ltac:(cbn; auto)) F).
Qed.
Lemma row_line line ns : row_of line ns -> line <> "" /\ lacks "#" line /\ lacks "010" line /\ lacks "013" line.
Proof.
  intros (N & fields & -> & F). split.
  - destruct F as [|f n [|f' fields] ns H F]; [congruence|exact (field_nonempty _ _ H)|]. change (String.concat "," (f :: f' :: fields)) with (f ++ String "," (String.concat "," (f' :: fields)))%string. destruct f; discriminate.
  - assert (K : forall c, In c [","; "#"; "010"; "013"]%char -> c <> ","%char -> lacks c (String.concat "," fields)).
    { intros c I Nc. apply concat_lacks; [exact Nc|]. exact (Forall2_left _ _ _ _ (fun f n H => field_lacks f n c H I) F). }
    split; [apply K; [cbn; auto|discriminate]|]. split; apply K; try discriminate; cbn; auto.
Qed.

(** ** texts *)
Definition keep (s : string) : list string := if String.eqb s "" then [] else [s].
Definition lines_in (text : string) : list string := filter (fun s => negb (String.eqb s "")) (map (before "#") (split_on "010" (line_feeds text))).
Lemma lines_cons s l : filter (fun s => negb (String.eqb s "")) (s :: l) = keep s ++ filter (fun s => negb (String.eqb s "")) l.
Proof. unfold keep. cbn [filter]. destruct (String.eqb s ""); reflexivity. Qed.
Lemma split_app_any c a s : split_on c (a ++ String c s) = split_on c a ++ split_on c s.
Proof.
  induction a as [|x a IH]; [cbn; rewrite Ascii.eqb_refl; reflexivity|]. cbn. rewrite IH. destruct (Ascii.eqb x c); [reflexivity|].
  destruct (split_on c a) as [|p ps] eqn:E; [|reflexivity]. exfalso. destruct a as [|y a]; [discriminate|]. cbn in E. destruct (Ascii.eqb y c); [discriminate|]. destruct (split_on c a); discriminate.
Qed.
Lemma lines_after a c t : c = "010"%char \/ c = "013"%char -> lines_in (a ++ String c t) = lines_in a ++ lines_in t.
Proof.
  intros C. unfold lines_in. rewrite feeds_app. assert (E : line_feeds (String c t) = String "010" (line_feeds t)) by (destruct C as [->| ->]; reflexivity).
  rewrite E, split_app_any, map_app, filter_app. reflexivity.
Qed.
Lemma lines_one s : lacks "010" s -> lacks "013" s -> lines_in s = keep (before "#" s).
Proof. intros L1 L2. unfold lines_in. rewrite feeds_lacks by exact L2. rewrite split_on_lacks by exact L1. cbn [map]. rewrite lines_cons. apply app_nil_r. Qed.
Lemma before_app s t : lacks "#" s -> before "#" (s ++ t) = (s ++ before "#" t)%string.
Proof. induction s as [|a s IH]; [reflexivity|]. intros L. apply lacks_cons in L as [N L]. cbn. destruct (Ascii.eqb_spec a "#"); [congruence|]. rewrite (IH L). reflexivity. Qed.
Lemma comment_line note : comment note -> before "#" note = "" /\ lacks "010" note /\ lacks "013" note.
Proof.
  intros [->|(c & I & ->)]; [repeat split; intros []|]. split; [reflexivity|]. change ("#" ++ c)%string with (String "#" c).
  split; apply lacks_cons; (split; [discriminate|]); apply lacks_only; eapply only_impl; try exact I; cbn; tauto.
Qed.
Lemma lines_end a eol t : line_end eol -> lines_in (a ++ eol ++ t) = lines_in a ++ lines_in t.
Proof.
  intros [<-|[<-|[<-|[]]]].
  - apply (lines_after a "010"%char t). auto.
  - apply (lines_after a "013"%char t). auto.
  - change (String "013" (String "010" "") ++ t)%string with (String "013" ("" ++ String "010" t)). rewrite (lines_after a "013"%char) by auto. rewrite (lines_after "" "010"%char t) by auto. reflexivity.
Qed.
Lemma append_assoc4 (a b c d : string) : (a ++ b ++ c ++ d = (a ++ b) ++ c ++ d)%string.
Proof. rewrite !append_assoc. reflexivity. Qed.
Lemma lines_of_row line note ns : row_of line ns -> comment note -> lines_in (line ++ note) = [line].
Proof.
  intros R C. destruct (row_line _ _ R) as (N & L1 & L2 & L3), (comment_line _ C) as (B & L4 & L5).
  rewrite lines_one by (apply lacks_app; auto). rewrite before_app, B, app_nil_string by exact L1. unfold keep. destruct (String.eqb_spec line ""); [congruence|reflexivity].
Qed.
Theorem written_lines text rows : written text rows -> Forall2 row_of (lines_in text) rows.
Proof.
  induction 1 as [line note eol rest ns rows R C E W IH|note eol rest rows C E W IH|line note ns R C|note C].
  - rewrite append_assoc4, lines_end by exact E. rewrite (lines_of_row _ _ _ R C). constructor; assumption.
  - rewrite lines_end by exact E. destruct (comment_line _ C) as (B & L4 & L5). rewrite lines_one by assumption. rewrite B. exact IH.
  - rewrite (lines_of_row _ _ _ R C). constructor; [exact R|constructor].
  - destruct (comment_line _ C) as (B & L4 & L5). rewrite lines_one by assumption. rewrite B. constructor.
Qed.
Lemma loadtxt_lines text : loadtxt text = let* rows := mapM read_line (lines_in text) in
  match rows with [] => Ok [] | row :: _ => if forallb (fun r => Nat.eqb (length r) (length row)) rows then Ok rows else Err ValueError end.
Proof. reflexivity. Qed.
Theorem written_rows text rows : written text rows -> exists qs, mapM read_line (lines_in text) = Ok qs /\ Forall2 (Forall2 (fun q n => q == worth n)) qs rows.
Proof.
  intros W. apply mapM_some. pose proof (written_lines _ _ W) as F. induction F as [|l ns ls rows R F IH]; [constructor|]. constructor; [exact (row_read _ _ R)|].
  clear -F. induction F; constructor; [apply row_read; assumption|assumption].
Qed.

Lemma nth_worth k (qs : list Q) ns : Forall2 (fun q n => q == worth n) qs ns -> nth k qs 0 == nth k (map worth ns) 0.
Proof. intros F. revert k. induction F as [|q n qs ns E F IH]; intros [|k]; cbn; try reflexivity; auto. Qed.
Lemma F2_length {X Y} (P : X -> Y -> Prop) l l' : Forall2 P l l' -> length l = length l'.
Proof. induction 1; cbn; congruence. Qed.
Lemma column_read k qs rows : Forall2 (Forall2 (fun q n => q == worth n)) qs rows -> Forall2 Qeq (map (fun r => nth k r 0) qs) (column k rows).
Proof. induction 1 as [|q n qs rows E F IH]; cbn; constructor; [apply nth_worth, E|exact IH]. Qed.
Lemma same_lengths qs rows n : Forall2 (Forall2 (fun q n => q == worth n)) qs rows -> Forall (fun ns => length ns = n) rows -> Forall (fun r => length r = n) qs.
Proof. induction 1 as [|q ns qs rows E F IH]; intros H; constructor; inversion H; subst; [exact (F2_length _ _ _ E)|auto]. Qed.
Theorem written_loads text rows n : written text rows -> Forall (fun ns => length ns = n) rows -> exists qs, loadtxt text = Ok qs /\ Forall2 (Forall2 (fun q n => q == worth n)) qs rows.
Proof.
  intros W H. destruct (written_rows _ _ W) as (qs & E & F). exists qs. split; [|exact F]. rewrite loadtxt_lines, E. cbn [bind]. pose proof (same_lengths _ _ _ F H) as L.
  destruct qs as [|q qs]; [reflexivity|]. rewrite (proj2 (forallb_forall _ _)); [reflexivity|]. intros r I. rewrite Forall_forall in L. rewrite (L r I), (L q (or_introl eq_refl)). apply Nat.eqb_refl.
Qed.
Theorem written_table text rows n : written text rows -> Forall (fun ns => length ns = n) rows ->
  ((2 <= n)%nat -> (2 <= length rows)%nat -> exists xs ys, read_table text = Ok (xs, ys) /\ Forall2 Qeq xs (column 0 rows) /\ Forall2 Qeq ys (column 1 rows))
  /\ ((n < 2)%nat \/ (length rows < 2)%nat -> read_table text = Err IndexError).
Proof.
  intros W H. destruct (written_loads _ _ _ W H) as (qs & E & F). pose proof (same_lengths _ _ _ F H) as L. pose proof (F2_length _ _ _ F) as Lq. unfold read_table. rewrite E. cbn [bind].
  split.
  - intros Hn Hr. exists (map (fun r => nth 0 r 0) qs), (map (fun r => nth 1 r 0) qs). split; [|split; apply column_read, F].
    destruct qs as [|q [|q' qs]]; cbn [length] in Lq; try lia. unfold columns. inversion L as [|? ? L1 _]; subst. destruct (Nat.ltb_spec (length q) 2); [lia|reflexivity].
  - intros [Hn|Hr].
    + destruct qs as [|q [|q' qs]]; [reflexivity|reflexivity|]. unfold columns. inversion L as [|? ? L1 _]; subst. destruct (Nat.ltb_spec (length q) 2); [reflexivity|lia].
    + destruct qs as [|q [|q' qs]]; [reflexivity|reflexivity|cbn [length] in Lq; lia].
Qed.
Theorem written_ragged text rows : written text rows -> (exists ns ns', In ns rows /\ In ns' rows /\ length ns <> length ns') -> read_table text = Err ValueError.
Proof.
  intros W (ns & ns' & I & I' & N). destruct (written_rows _ _ W) as (qs & E & F). unfold read_table. rewrite loadtxt_lines, E. cbn [bind].
  destruct qs as [|q qs]; [inversion F; subst; destruct I|]. destruct (forallb _ _) eqn:B; [|reflexivity]. exfalso. rewrite forallb_forall in B.
  assert (K : forall m, In m rows -> length m = length q).
  { intros m Im. assert (X : exists r, In r (q :: qs) /\ Forall2 (fun q n => q == worth n) r m).
    { clear -F Im. revert Im. induction F as [|r0 m0 qs0 rows E F IH]; intros Im; [destruct Im|]. destruct Im as [->|Im]; [exists r0; cbn; auto|]. destruct (IH Im) as (r & Ir & Er). exists r. cbn; auto. }
    destruct X as (r & Ir & Er). rewrite <- (F2_length _ _ _ Er). apply Nat.eqb_eq, B, Ir. }
  apply N. rewrite (K _ I), (K _ I'). reflexivity.
Qed.
Lemma line_error s e : read_line s = Err e -> e = ValueError.
Proof. apply mapM_error, number_error. Qed.
Theorem bad_line_refused text : bad_line text -> read_table text = Err ValueError.
Proof.
  intros (a & fields & b & -> & Ha & Hb & Hf & Hx & Nb).
  set (line := String.concat "," fields) in *.
  assert (Nf : fields <> []) by (intros ->; inversion Hx).
  assert (Lk : forall c, In c ["#"; "010"; "013"]%char -> lacks c line).
  { intros c Ic. apply concat_lacks; [intros ->; cbn in Ic; repeat (destruct Ic as [Ic|Ic]; [discriminate|]); exact Ic|]. eapply Forall_impl; [|exact Hf].
    intros f [F1 F2]. apply lacks_only. intros x Ix ->. destruct (F1 _ Ix), (F2 _ Ix). cbn in Ic. destruct Ic as [<-|[<-|[<-|[]]]]; congruence. }
  assert (I : In line (lines_in (a ++ line ++ b))).
  { assert (T : In line (lines_in (line ++ b))).
    { assert (Nl : line <> "") by (intros E; apply Nb; rewrite E; apply only_nil).
      assert (K : forall t, before "#" t = "" -> lacks "010" t -> lacks "013" t -> lines_in (line ++ t) = [line]).
      { intros t Bt L1 L2. rewrite lines_one; [|apply lacks_app; split; [apply Lk; cbn; auto|exact L1]|apply lacks_app; split; [apply Lk; cbn; auto|exact L2]].
        rewrite before_app, Bt, app_nil_string by (apply Lk; cbn; auto). unfold keep. destruct (String.eqb_spec line ""); [congruence|reflexivity]. }
      destruct Hb as [->|(c & b' & -> & [<-|Ic])]; [rewrite (K ""); [left; reflexivity|reflexivity|intros []|intros []]| |].
      - assert (S : forall t, (lacks "010" t /\ lacks "013" t) \/ exists u c r, t = (u ++ String c r)%string /\ lacks "010" u /\ lacks "013" u /\ (c = "010"%char \/ c = "013"%char)).
        { induction t as [|x t IH]; [left; split; intros []|]. destruct (Ascii.eqb_spec x "010") as [->|N1]; [right; exists "", "010"%char, t; split; [reflexivity|]; split; [intros []|]; split; [intros []|auto]|].
          destruct (Ascii.eqb_spec x "013") as [->|N2]; [right; exists "", "013"%char, t; split; [reflexivity|]; split; [intros []|]; split; [intros []|auto]|].
          destruct IH as [[I1 I2]|(u & c & r & -> & U1 & U2 & C)]; [left; split; apply lacks_cons; auto|]. right. exists (String x u), c, r. split; [reflexivity|]. split; [apply lacks_cons; auto|]. split; [apply lacks_cons; auto|exact C]. }
        destruct (S b') as [[I1 I2]|(u & c & r & -> & U1 & U2 & C)].
        + rewrite (K (String "#" b')); [left; reflexivity|reflexivity|apply lacks_cons; split; [discriminate|exact I1]|apply lacks_cons; split; [discriminate|exact I2]].
        + change (String "#" (u ++ String c r)) with (String "#" u ++ String c r)%string. rewrite <- append_assoc, (lines_after _ c r C).
          rewrite (K (String "#" u)); [left; reflexivity|reflexivity|apply lacks_cons; split; [discriminate|exact U1]|apply lacks_cons; split; [discriminate|exact U2]].
      - rewrite (lines_after line c b') by (cbn in Ic; destruct Ic as [<-|[<-|[]]]; auto). rewrite <- (app_nil_string line) at 2. rewrite (K ""); [left; reflexivity|reflexivity|intros []|intros []]. }
    destruct Ha as [->|(a' & [->| ->])]; [exact T| |].
    - rewrite append_assoc. cbn [append]. rewrite (lines_after a' "010"%char) by auto. apply in_or_app. auto.
    - rewrite append_assoc. cbn [append]. rewrite (lines_after a' "013"%char) by auto. apply in_or_app. auto. }
  assert (B : forall y, read_line line <> Ok y).
  { unfold read_line, line. rewrite (split_concat "," fields Nf).
    - apply mapM_none. eapply Exists_impl; [|exact Hx]. intros f [Bf _] y E. destruct (field_read _ _ E) as [n Fn]. exact (Bf n Fn).
    - eapply Forall_impl; [|exact Hf]. intros f [_ F2]. apply lacks_only. intros x Ix. apply (F2 x Ix). }
  unfold read_table. rewrite loadtxt_lines. destruct (mapM read_line (lines_in (a ++ line ++ b))) as [rs|e] eqn:E.
  - exfalso. apply (mapM_none read_line (lines_in (a ++ line ++ b))) in E; [exact E|]. apply Exists_exists. exists line. auto.
  - cbn [bind]. rewrite (mapM_error _ _ line_error e E). reflexivity.
Qed.

(** ** over the reals *)
Lemma lits xs ys : Forall2 Qeq xs ys -> map (@nlit R _) xs = map Q2R ys.
Proof. induction 1 as [|x y xs ys E F IH]; [reflexivity|]. cbn [map]. rewrite IH. f_equal. exact (Qeq_eqR _ _ E). Qed.
Theorem written_file text rows n : written text rows -> Forall (fun ns => length ns = n) rows -> (2 <= n)%nat -> (2 <= length rows)%nat ->
  file_table (A := R) text = Ok (map Q2R (column 0 rows), map Q2R (column 1 rows)).
Proof.
  intros W H Hn Hr. destruct (proj1 (written_table _ _ _ W H) Hn Hr) as (xs & ys & E & Ex & Ey). unfold file_table. rewrite E. cbn [bind fst snd]. rewrite (lits _ _ Ex), (lits _ _ Ey). reflexivity.
Qed.
Lemma lengths_dec {X} (rows : list (list X)) : (exists n, Forall (fun r => length r = n) rows) \/ exists r r', In r rows /\ In r' rows /\ length r <> length r'.
Proof.
  destruct rows as [|r rows]; [left; exists 0%nat; constructor|].
  destruct (Forall_Exists_dec (fun r' => length r' = length r) (fun r' => Nat.eq_dec (length r') (length r)) (r :: rows)) as [F|F]; [left; eauto|right].
  apply Exists_exists in F as (r' & I & N). exists r', r. cbn in *. auto.
Qed.
Lemma F2_sym {X} (P : X -> X -> Prop) l l' : (forall x y, P x y -> P y x) -> Forall2 P l l' -> Forall2 P l' l.
Proof. intros H. induction 1; constructor; auto. Qed.
Lemma same_worth_lengths rows rows' : same_worth rows rows' -> map (@length _) rows = map (@length _) rows'.
Proof. induction 1 as [|r r' rows rows' E F IH]; [reflexivity|]. cbn. rewrite IH, (F2_length _ _ _ E). reflexivity. Qed.
Lemma same_worth_column k rows rows' : same_worth rows rows' -> Forall2 Qeq (column k rows) (column k rows').
Proof.
  induction 1 as [|r r' rows rows' E F IH]; [constructor|]. constructor; [|exact IH]. clear -E. revert k. induction E as [|n n' r r' E _ IH]; intros [|k]; cbn; try reflexivity; auto.
Qed.
Theorem same_file text rows text' rows' : written text rows -> written text' rows' -> same_worth rows rows' -> file_table (A := R) text = file_table (A := R) text'.
Proof.
  intros W W' S. pose proof (same_worth_lengths _ _ S) as L. pose proof (F2_length _ _ _ S) as Lr.
  destruct (lengths_dec rows) as [[n H]|(r & r' & I & I' & N)].
  - assert (H' : Forall (fun ns => length ns = n) rows').
    { apply Forall_forall. intros m Im. rewrite Forall_forall in H. assert (X : In (length m) (map (@length _) rows)) by (rewrite L; apply in_map, Im).
      apply in_map_iff in X as (r & <- & Ir). apply H, Ir. }
    destruct (le_lt_dec 2 n) as [Hn|Hn]; [destruct (le_lt_dec 2 (length rows)) as [Hr|Hr]|].
    + rewrite (written_file _ _ _ W H Hn Hr), (written_file _ _ _ W' H' Hn ltac:(lia)). f_equal.
      assert (K : forall k, map Q2R (column k rows) = map Q2R (column k rows')).
      { intros k. pose proof (same_worth_column k _ _ S) as F. induction F as [|x y l l' E F IH]; [reflexivity|]. cbn. rewrite IH, (Qeq_eqR _ _ E). reflexivity. }
      rewrite !K. reflexivity.
    + unfold file_table. rewrite (proj2 (written_table _ _ _ W H)), (proj2 (written_table _ _ _ W' H')) by (right; lia). reflexivity.
    + unfold file_table. rewrite (proj2 (written_table _ _ _ W H)), (proj2 (written_table _ _ _ W' H')) by (left; lia). reflexivity.
  - unfold file_table. rewrite (written_ragged _ _ W), (written_ragged _ _ W'); [reflexivity| |exists r, r'; auto].
    assert (Y : forall rows rows' r, same_worth rows rows' -> In r rows -> exists m, In m rows' /\ length m = length r).
    { clear. intros rows rows' r S I. assert (X : In (length r) (map (@length _) rows')) by (rewrite <- (same_worth_lengths _ _ S); apply in_map, I).
      apply in_map_iff in X as (m & E & Im). eauto. }
    destruct (Y _ _ _ S I) as (m & Im & Em), (Y _ _ _ S I') as (m' & Im' & Em'). exists m, m'. split; [exact Im|]. split; [exact Im'|congruence].
Qed.
Theorem same_layout text rows text' rows' : written text rows -> written text' rows' -> same_worth rows rows' ->
  (forall g : grid R, read_bathymetry text g = read_bathymetry text' g /\ read_subsidence text g = read_subsidence text' g) /\ read_sea_level (A := R) text = read_sea_level text'.
Proof. intros W W' S. unfold read_bathymetry, read_subsidence, read_sea_level. rewrite (same_file _ _ _ _ W W' S). split; [split|]; reflexivity. Qed.
