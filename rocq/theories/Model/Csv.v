(** csv tables: the example tables of sequence/cli.py and how bathymetry.py,
    subsidence.py and sea_level.py read such files. *)
From Coq Require Import String Ascii List ZArith QArith Qround Bool DecimalString.
From Verif.Base Require Import Num Py Arr.
From Verif.Model Require Import Cli Layers Grid Interp Bathymetry Subsidence SeaLevel.
Import ListNotations.
Local Open Scope string_scope.
Local Open Scope list_scope.

Definition show_nat (n : N) : string := NilZero.string_of_uint (N.to_uint n).

(* the number of tenths nearest to |q|, the even one of two *)
Definition tenths (q : Q) : N :=
  let v := (Qabs.Qabs q * 10)%Q in
  let f := Qfloor v in
  let r := (v - inject_Z f)%Q in
  Z.to_N (match (r ?= 1 # 2)%Q with
          | Lt => f
          | Gt => (f + 1)%Z
          | Eq => if Z.even f then f else (f + 1)%Z
          end).
(* "%.1f" % q *)
Definition show_fixed (q : Q) : string :=
  ((if Qle_bool 0 q then "" else "-") ++ show_nat (tenths q / 10) ++ "." ++ show_nat (tenths q mod 10))%string.

(* sequence/cli.py:91-95 as_csv: numpy.savetxt with delimiter "," and format
   "%.1f"; the header is one line *)
Definition as_csv (data : list (list Q)) (header : string) : string :=
  ("# " ++ header ++ newline
   ++ String.concat "" (map (fun row => String.concat "," (map show_fixed row) ++ newline) data))%string.

(** numpy.loadtxt(file, delimiter=",") of numpy 1.23 and later: lines, which end
    with a line feed, a carriage return or both, without what follows a "#";
    empty ones skipped; all with the same number of fields.  A field is a number
    with blanks around it.  inf and nan are not modelled, and are a ValueError
    here; numbers are exact and not rounded to doubles. *)
Fixpoint before (c : ascii) (s : string) : string :=
  match s with
  | EmptyString => EmptyString
  | String a s => if Ascii.eqb a c then EmptyString else String a (before c s)
  end.
(* the blanks: tab, vertical tab, form feed and space *)
Definition is_blank (a : ascii) : bool := (Ascii.eqb a " " || Ascii.eqb a "009" || Ascii.eqb a "011" || Ascii.eqb a "012")%bool.
Fixpoint lstrip (s : string) : string :=
  match s with
  | String a s' => if is_blank a then lstrip s' else s
  | EmptyString => EmptyString
  end.
Fixpoint rstrip (s : string) : string :=
  match s with
  | EmptyString => EmptyString
  | String a s => match rstrip s with
                  | EmptyString => if is_blank a then EmptyString else String a EmptyString
                  | s => String a s
                  end
  end.
Definition strip (s : string) : string := rstrip (lstrip s).

Definition read_digits (s : string) : option N :=
  match NilZero.uint_of_string s with Some d => Some (N.of_uint d) | None => None end.
Definition read_unsigned (s : string) : option Q :=
  match split_on "." s with
  | [i] => match read_digits i with Some n => Some (inject_Z (Z.of_N n)) | None => None end
  | [i; f] =>
      let scale := Pos.pow 10 (Pos.of_nat (String.length f)) in
      match (if String.eqb i "" then Some 0%N else read_digits i), (if String.eqb f "" then Some 0%N else read_digits f) with
      | Some n, Some m =>
          if (String.eqb i "" && String.eqb f "")%bool then None
          else Some (if String.eqb f "" then inject_Z (Z.of_N n) else (Z.of_N (n * N.pos scale + m) # scale)%Q)
      | _, _ => None
      end
  | _ => None
  end.
(* what is before the first "e" or "E", and what is after it *)
Fixpoint cut_exponent (s : string) : string * option string :=
  match s with
  | EmptyString => (EmptyString, None)
  | String a s => if (Ascii.eqb a "e" || Ascii.eqb a "E")%bool then (EmptyString, Some s)
                  else let (m, x) := cut_exponent s in (String a m, x)
  end.
(* with a sign, or without one *)
Definition read_signed {N} (read : string -> option N) (opp : N -> N) (s : string) : option N :=
  match s with
  | String "-" s => match read s with Some q => Some (opp q) | None => None end
  | String "+" s => read s
  | s => read s
  end.
Definition read_power (s : string) : option Q :=
  match cut_exponent s with
  | (m, None) => read_unsigned m
  | (m, Some x) =>
      match read_unsigned m, read_signed (fun s => match read_digits s with Some n => Some (Z.of_N n) | None => None end) Z.opp x with
      | Some q, Some e => Some (q * Qpower 10 e)%Q
      | _, _ => None
      end
  end.
Definition read_number (s : string) : result Q :=
  match read_signed read_power Qopp (strip s) with
  | Some q => Ok q
  | None => Err ValueError
  end.
Definition read_line (s : string) : result (list Q) := mapM read_number (split_on "," s).
(* both line ends as one; that of "\r\n" leaves an empty line, which is skipped *)
Fixpoint line_feeds (s : string) : string :=
  match s with
  | EmptyString => EmptyString
  | String a s => String (if Ascii.eqb a "013" then "010"%char else a) (line_feeds s)
  end.
Definition loadtxt (text : string) : result (list (list Q)) :=
  let lines := map (before "#") (split_on "010" (line_feeds text)) in
  let lines := filter (fun s => negb (String.eqb s "")) lines in
  let* rows := mapM read_line lines in
  match rows with
  | [] => Ok []
  | row :: _ => if forallb (fun r => Nat.eqb (length r) (length row)) rows then Ok rows else Err ValueError
  end.

(* data[:, 0] and data[:, 1] (sequence/bathymetry.py:57-60, sea_level.py:84-85,
   subsidence.py:76-77): loadtxt returns an array of one dimension for a single
   row or column, for which this is an IndexError *)
Definition columns (rows : list (list Q)) : result (list Q * list Q) :=
  match rows with
  | [] | [_] => Err IndexError
  | row :: _ => if Nat.ltb (length row) 2 then Err IndexError
                else Ok (map (fun r => nth 0 r 0%Q) rows, map (fun r => nth 1 r 0%Q) rows)
  end.
Definition read_table (text : string) : result (list Q * list Q) := let* rows := loadtxt text in columns rows.

(* sequence/cli.py:108-123 the tables among the contents *)
Definition example_bathymetry : string :=
  as_csv [[0; 20]; [100000; -80 # 1]]%Q "X [m], Elevation [m]".
Definition example_sealevel : string :=
  as_csv [[0; 0]; [200000; -10 # 1]]%Q "Time [y], Sea-Level Elevation [m]".
Definition example_subsidence : string :=
  as_csv [[0; 0]; [30000; 0]; [35000; 0]; [50000; 0]; [100000; 0]]%Q "X [x], Subsidence Rate [m / y]".

(** Components made from the text of a file. *)
Section Files.
  Context {A : Type} `{Num A}.
  Definition file_table (text : string) : result (list A * list A) :=
    let* xy := read_table text in Ok (map nlit (fst xy), map nlit (snd xy)).
  (* sequence/bathymetry.py:36-92 BathymetryReader(grid, filepath).run_one_step() *)
  Definition read_bathymetry (text : string) (g : grid A) : result (grid A) :=
    let* xy := file_table text in
    bathymetry_step (fst xy) (snd xy) (bathymetry_init g).
  (* sequence/subsidence.py:33-64 SubsidenceTimeSeries(grid, filepath); the
     grid is not returned (an increment field is added to it) *)
  Definition read_subsidence (text : string) (g : grid A) : result (subsidence_comp A) :=
    let* xy := file_table text in
    snd (subsidence_init (fst xy) (snd xy) g).
  (* sequence/sea_level.py:45-90 SeaLevelTimeSeries(grid, filepath) *)
  Definition read_sea_level (text : string) : result (sea_level_comp A) :=
    let* xy := file_table text in
    Ok (mkSeaLevel (sea_level_interpolator (fst xy) (snd xy)) n0).
End Files.
