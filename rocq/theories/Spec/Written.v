(** Tables written as text (C120): what the numbers of a file are, however it is
    laid out. *)
From Coq Require Import String Ascii List ZArith QArith.
Import ListNotations.
Local Open Scope string_scope.

Definition only (P : ascii -> Prop) (s : string) : Prop := forall a, In a (list_ascii_of_string s) -> P a.

(** Decimal numerals. *)
Definition is_figure (a : ascii) : Prop := (48 <= nat_of_ascii a <= 57)%nat.
(* the number that figures denote *)
Definition denoted (s : string) : Z := fold_left (fun n a => (10 * n + (Z.of_nat (nat_of_ascii a) - 48))%Z) (list_ascii_of_string s) 0%Z.
Inductive sign := NoSign | Plus | Minus.
Definition sign_text (s : sign) : string := match s with NoSign => "" | Plus => "+" | Minus => "-" end.
Definition signed (s : sign) (z : Z) : Z := match s with Minus => - z | _ => z end.
(* a sign, figures, a point with figures, and an exponent: its letter, its sign
   and its figures *)
Record numeral := mkNumeral { nu_sign : sign; nu_whole : string; nu_part : option string; nu_exponent : option (ascii * sign * string) }.
Definition part_figures (n : numeral) : string := match nu_part n with Some f => f | None => "" end.
Definition spelled (n : numeral) : string :=
  sign_text (nu_sign n) ++ nu_whole n ++ match nu_part n with Some f => "." ++ f | None => "" end
  ++ match nu_exponent n with Some (c, s, x) => String c "" ++ sign_text s ++ x | None => "" end.
Definition wellformed (n : numeral) : Prop :=
  only is_figure (nu_whole n) /\ only is_figure (part_figures n) /\ nu_whole n ++ part_figures n <> ""
  /\ match nu_exponent n with Some (c, s, x) => (c = "e"%char \/ c = "E"%char) /\ only is_figure x /\ x <> "" | None => True end.
Definition exponent (n : numeral) : Z := match nu_exponent n with Some (_, s, x) => signed s (denoted x) | None => 0 end.
Definition worth (n : numeral) : Q :=
  inject_Z (signed (nu_sign n) (denoted (nu_whole n ++ part_figures n))) * Qpower 10 (exponent n - Z.of_nat (String.length (part_figures n))).

(** Tables. *)
(* space, tab, vertical tab and form feed *)
Definition blanks (s : string) : Prop := only (fun a => In a [" "; "009"; "011"; "012"]%char) s.
Definition field_of (s : string) (n : numeral) : Prop := wellformed n /\ exists l r, blanks l /\ blanks r /\ s = l ++ spelled n ++ r.
Definition row_of (s : string) (ns : list numeral) : Prop := ns <> [] /\ exists fields, s = String.concat "," fields /\ Forall2 field_of fields ns.
Definition in_line (s : string) : Prop := only (fun a => a <> "010"%char /\ a <> "013"%char) s.
Definition comment (s : string) : Prop := s = "" \/ exists c, in_line c /\ s = "#" ++ c.
Definition line_end (s : string) : Prop := In s [String "010" ""; String "013" ""; String "013" (String "010" "")].
(* a text and the rows of numbers in it *)
Inductive written : string -> list (list numeral) -> Prop :=
| written_row line note eol rest ns rows : row_of line ns -> comment note -> line_end eol -> written rest rows -> written (line ++ note ++ eol ++ rest) (ns :: rows)
| written_skip note eol rest rows : comment note -> line_end eol -> written rest rows -> written (note ++ eol ++ rest) rows
| written_last line note ns : row_of line ns -> comment note -> written (line ++ note) [ns]
| written_end note : comment note -> written note [].

(* the numbers of a column; and two tables of the same numbers *)
Definition column (k : nat) (rows : list (list numeral)) : list Q := map (fun ns => nth k (map worth ns) 0) rows.
Definition same_worth : list (list numeral) -> list (list numeral) -> Prop := Forall2 (Forall2 (fun n n' => worth n == worth n')).

(* a line of a text that has a field which is not a number; lines of blanks only,
   and fields with an n, as in inf and nan, are not considered *)
Definition bad_field (f : string) : Prop := (forall n, ~ field_of f n) /\ only (fun a => a <> "n"%char /\ a <> "N"%char) f.
Definition bad_line (text : string) : Prop :=
  exists a fields b, text = a ++ String.concat "," fields ++ b
    /\ (a = "" \/ exists a', a = a' ++ String "010" "" \/ a = a' ++ String "013" "")
    /\ (b = "" \/ exists c b', b = String c b' /\ In c ["#"; "010"; "013"]%char)
    /\ Forall (fun f => in_line f /\ only (fun a => a <> "#"%char /\ a <> ","%char) f) fields
    /\ Exists bad_field fields /\ ~ blanks (String.concat "," fields).
