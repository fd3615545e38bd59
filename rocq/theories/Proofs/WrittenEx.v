(** A table laid out in several ways, and lines that are not read. *)
From Coq Require Import String Ascii List ZArith QArith.
From Verif.Base Require Import Num Py.
From Verif.Model Require Import Csv.
From Verif.Spec Require Import Written.
From Verif.Proofs Require Import CsvP WrittenP.
Import ListNotations.
Local Open Scope string_scope.
Local Open Scope list_scope.

Definition crlf : string := String "013" (String "010" "").
Definition lf : string := String "010" "".
(* with a header, blanks, an empty line, comments, signs and exponents, and no
   line end after the last line *)
Definition ex_wild : string := "# X [m], Elevation [m]" ++ crlf ++ "0, +20." ++ crlf ++ crlf ++ " 1.0e5 ,-80 # deep" ++ lf ++ ".2E+6,-8000e-2".
Definition ex_wild_rows : list (list numeral) :=
  [[mkNumeral NoSign "0" None None; mkNumeral Plus "20" (Some "") None];
   [mkNumeral NoSign "1" (Some "0") (Some ("e"%char, NoSign, "5")); mkNumeral Minus "80" None None];
   [mkNumeral NoSign "" (Some "2") (Some ("E"%char, Plus, "6")); mkNumeral Minus "8000" None (Some ("e"%char, Minus, "2"))]].
Definition ex_tidy : string := "0,20" ++ lf ++ "100000,-80" ++ lf ++ "200000,-80" ++ lf.
Definition ex_tidy_rows : list (list numeral) :=
  [[mkNumeral NoSign "0" None None; mkNumeral NoSign "20" None None];
   [mkNumeral NoSign "100000" None None; mkNumeral Minus "80" None None]; [mkNumeral NoSign "200000" None None; mkNumeral Minus "80" None None]].
Fixpoint allb (f : ascii -> bool) (s : string) : bool := match s with EmptyString => true | String a s => (f a && allb f s)%bool end.
Lemma allb_only (f : ascii -> bool) (P : ascii -> Prop) s : (forall a, f a = true -> P a) -> allb f s = true -> only P s.
Proof.
  intros H. induction s as [|a s IH]; [intros _; apply only_nil|]. cbn. intros E. apply andb_prop in E as [E1 E2]. apply only_cons. auto.
Qed.
Lemma figures_ok s : allb Cli.is_digit s = true -> only is_figure s.
Proof. apply allb_only. intros a. apply figure_digit. Qed.
Lemma blanks_ok s : allb is_blank s = true -> blanks s.
Proof. apply allb_only. intros a. apply blank_iff. Qed.
Ltac figures := apply figures_ok; reflexivity.
Ltac good := split; [figures|]; split; [figures|]; split; [discriminate|]; first [exact I | split; [auto|]; split; [figures|discriminate]].
Lemma comment_none : comment "".
Proof. left. reflexivity. Qed.
Lemma field_ok l r n : wellformed n -> allb is_blank l = true -> allb is_blank r = true -> field_of (l ++ spelled n ++ r) n.
Proof. intros W L R. split; [exact W|]. exists l, r. split; [apply blanks_ok, L|]. split; [apply blanks_ok, R|reflexivity]. Qed.
Lemma row_ok l1 n1 r1 l2 n2 r2 : wellformed n1 -> wellformed n2 -> allb is_blank l1 = true -> allb is_blank r1 = true -> allb is_blank l2 = true -> allb is_blank r2 = true ->
  row_of (String.concat "," [l1 ++ spelled n1 ++ r1; l2 ++ spelled n2 ++ r2])%string [n1; n2].
Proof.
  intros. split; [discriminate|]. eexists. split; [reflexivity|]. constructor; [apply field_ok; assumption|]. constructor; [apply field_ok; assumption|constructor].
Qed.
Lemma in_line_ok s : allb (fun a => negb (Ascii.eqb a "010") && negb (Ascii.eqb a "013"))%bool s = true -> in_line s.
Proof.
  apply allb_only. intros a E. apply andb_prop in E as [E1 E2]. split; intros ->; discriminate.
Qed.
Lemma ex_wild_written : written ex_wild ex_wild_rows.
Proof.
  apply (written_skip "# X [m], Elevation [m]" crlf (("0, +20." ++ crlf ++ crlf ++ " 1.0e5 ,-80 # deep" ++ lf ++ ".2E+6,-8000e-2")%string)).
  { right. exists " X [m], Elevation [m]". split; [apply in_line_ok; reflexivity|reflexivity]. }
  { cbn. auto. }
  apply (written_row "0, +20." "" crlf _ _ _).
  { apply (row_ok "" (mkNumeral NoSign "0" None None) "" " " (mkNumeral Plus "20" (Some "") None) ""); try reflexivity; good. }
  { apply comment_none. } { cbn. auto. }
  apply (written_skip "" crlf _). { apply comment_none. } { cbn. auto. }
  apply (written_row " 1.0e5 ,-80 " "# deep" lf ".2E+6,-8000e-2").
  { apply (row_ok " " (mkNumeral NoSign "1" (Some "0") (Some ("e"%char, NoSign, "5"))) " " "" (mkNumeral Minus "80" None None) " "); try reflexivity; good. }
  { right. exists " deep". split; [apply in_line_ok; reflexivity|reflexivity]. } { cbn. auto. }
  apply (written_last ".2E+6,-8000e-2" "").
  { apply (row_ok "" (mkNumeral NoSign "" (Some "2") (Some ("E"%char, Plus, "6"))) "" "" (mkNumeral Minus "8000" None (Some ("e"%char, Minus, "2"))) ""); try reflexivity; good. }
  apply comment_none.
Qed.
Lemma ex_tidy_written : written ex_tidy ex_tidy_rows.
Proof.
  apply (written_row "0,20" "" lf (("100000,-80" ++ lf ++ "200000,-80" ++ lf)%string)).
  { apply (row_ok "" (mkNumeral NoSign "0" None None) "" "" (mkNumeral NoSign "20" None None) ""); try reflexivity; good. } { apply comment_none. } { cbn. auto. }
  apply (written_row "100000,-80" "" lf).
  { apply (row_ok "" (mkNumeral NoSign "100000" None None) "" "" (mkNumeral Minus "80" None None) ""); try reflexivity; good. } { apply comment_none. } { cbn. auto. }
  apply (written_row "200000,-80" "" lf "").
  { apply (row_ok "" (mkNumeral NoSign "200000" None None) "" "" (mkNumeral Minus "80" None None) ""); try reflexivity; good. } { apply comment_none. } { cbn. auto. }
  apply written_end, comment_none.
Qed.
Lemma ex_same : same_worth ex_wild_rows ex_tidy_rows.
Proof. repeat constructor. Qed.
Lemma ex_columns : map Qred (column 0 ex_wild_rows) = [0; 100000; 200000]%Q /\ map Qred (column 1 ex_wild_rows) = [20; -80 # 1; -80 # 1]%Q.
Proof. split; reflexivity. Qed.
Lemma ex_bad : bad_line ("0,1" ++ lf ++ "1;2,3 # x").
Proof.
  exists ("0,1" ++ lf)%string, ["1;2"; "3 "], "# x". split; [reflexivity|]. split; [right; exists "0,1"; left; reflexivity|]. split; [right; exists "#"%char, " x"; split; [reflexivity|cbn; auto]|].
  assert (O : forall f, allb (fun a => negb (Ascii.eqb a "#") && negb (Ascii.eqb a ","))%bool f = true -> only (fun a => a <> "#"%char /\ a <> ","%char) f).
  { intros f. apply allb_only. intros a E. apply andb_prop in E as [E1 E2]. split; intros ->; discriminate. }
  split; [constructor; [split; [apply in_line_ok|apply O]; reflexivity|]; constructor; [split; [apply in_line_ok|apply O]; reflexivity|constructor]|]. split.
  - left. split.
    + intros n H. destruct (read_field _ _ H) as (q & E & _). discriminate E.
    + apply (allb_only (fun a => negb (Ascii.eqb a "n") && negb (Ascii.eqb a "N"))%bool); [|reflexivity]. intros a E. apply andb_prop in E as [E1 E2]. split; intros ->; discriminate.
  - intros B. specialize (B "1"%char). cbn in B. assert (X : In "1"%char ["1"; ";"; "2"; ","; "3"; " "]%char) by (cbn; auto). specialize (B X).
    repeat (destruct B as [B|B]; [discriminate B|]). exact B.
Qed.
