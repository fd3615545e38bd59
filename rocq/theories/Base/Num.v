(** Numbers used by the model.

    The Python code computes with IEEE doubles.  The model is written once,
    over an operations-only class [Num A] (no laws), and instantiated at
    - [R]          : exact reals, used for arithmetic theorems;
    - [Q]          : exact rationals, executable, used for examples;
    - [spec_float] : IEEE binary64, executable, used for rounding claims.
    Theorems about comparisons, indexing and bookkeeping are stated for every
    [Num A], so that they hold for doubles (including NaN) as well.

    Nothing in this file models repository code; it is the arithmetic
    vocabulary of Python that the model needs. *)
From Coq Require Import ZArith QArith Qround Reals Lra Lia Floats.SpecFloat.

Class Num (A : Type) : Type := {
  nadd : A -> A -> A;
  nsub : A -> A -> A;
  nmul : A -> A -> A;
  ndiv : A -> A -> A;          (* only meaningful for a nonzero divisor *)
  nopp : A -> A;
  nltb : A -> A -> bool;
  nleb : A -> A -> bool;
  neqb : A -> A -> bool;
  nlit : Q -> A;               (* a literal of the source text *)
  nfloordiv : A -> A -> A;     (* Python's // on floats, nonzero divisor *)
  nmod : A -> A -> A;          (* Python's % on floats, nonzero divisor *)
  nint : A -> Z                (* Python's int(): truncation toward zero *)
}.

Declare Scope num_scope.
Delimit Scope num_scope with num.
Infix "+" := nadd : num_scope.
Infix "-" := nsub : num_scope.
Infix "*" := nmul : num_scope.
Infix "/" := ndiv : num_scope.
Notation "- x" := (nopp x) : num_scope.
Infix "<?" := nltb : num_scope.
Infix "<=?" := nleb : num_scope.
Infix "=?" := neqb : num_scope.

Definition n0 {A} `{Num A} : A := nlit 0%Q.
Definition n1 {A} `{Num A} : A := nlit 1%Q.
Definition nofZ {A} `{Num A} (z : Z) : A := nlit (inject_Z z).
Definition nofnat {A} `{Num A} (n : nat) : A := nofZ (Z.of_nat n).

(* Python's min(a, b) and max(a, b): the first argument wins ties. *)
Definition nmin {A} `{Num A} (a b : A) : A := if (b <? a)%num then b else a.
Definition nmax {A} `{Num A} (a b : A) : A := if (a <? b)%num then b else a.
Definition nabs {A} `{Num A} (a : A) : A := if (a <? n0)%num then nopp a else a.

(* np.clip(x, lo, hi) = minimum(maximum(x, lo), hi) *)
Definition nclip {A} `{Num A} (x lo hi : A) : A := nmin (nmax x lo) hi.

#[global] Arguments n0 {A _} : simpl never.
#[global] Arguments n1 {A _} : simpl never.
#[global] Arguments nofZ {A _} z : simpl never.
#[global] Arguments nofnat {A _} n : simpl never.

(** ** Reals *)

Definition Rltb (x y : R) : bool := if Rlt_dec x y then true else false.
Definition Rleb (x y : R) : bool := if Rle_dec x y then true else false.
Definition Reqb (x y : R) : bool := if Req_EM_T x y then true else false.
Definition Rtrunc (x : R) : Z := if Rle_dec 0 x then Int_part x else (- Int_part (- x))%Z.

#[global] Instance Num_R : Num R := {
  nadd := Rplus; nsub := Rminus; nmul := Rmult; ndiv := Rdiv; nopp := Ropp;
  nltb := Rltb; nleb := Rleb; neqb := Reqb;
  nlit := Q2R;
  nfloordiv x y := IZR (Int_part (x / y));
  nmod x y := (x - y * IZR (Int_part (x / y)))%R;
  nint := Rtrunc
}.

Lemma Rltb_true x y : Rltb x y = true <-> (x < y)%R.
Proof. unfold Rltb; destruct (Rlt_dec x y); split; intros; try easy; lra. Qed.
Lemma Rltb_false x y : Rltb x y = false <-> (y <= x)%R.
Proof. unfold Rltb; destruct (Rlt_dec x y); split; intros; try easy; lra. Qed.
Lemma Rleb_true x y : Rleb x y = true <-> (x <= y)%R.
Proof. unfold Rleb; destruct (Rle_dec x y); split; intros; try easy; lra. Qed.
Lemma Rleb_false x y : Rleb x y = false <-> (y < x)%R.
Proof. unfold Rleb; destruct (Rle_dec x y); split; intros; try easy; lra. Qed.
Lemma Reqb_true x y : Reqb x y = true <-> x = y.
Proof. unfold Reqb; destruct (Req_EM_T x y); split; intros; easy. Qed.
Lemma Reqb_false x y : Reqb x y = false <-> x <> y.
Proof. unfold Reqb; destruct (Req_EM_T x y); split; intros; easy. Qed.

(** Case analysis on a real comparison, leaving a real (in)equality. *)
Ltac rcase :=
  match goal with
  | |- context [Rltb ?a ?b] =>
      let H := fresh "Hc" in
      destruct (Rltb a b) eqn:H; [apply Rltb_true in H | apply Rltb_false in H]
  | |- context [Rleb ?a ?b] =>
      let H := fresh "Hc" in
      destruct (Rleb a b) eqn:H; [apply Rleb_true in H | apply Rleb_false in H]
  | |- context [Reqb ?a ?b] =>
      let H := fresh "Hc" in
      destruct (Reqb a b) eqn:H; [apply Reqb_true in H | apply Reqb_false in H]
  end.

Ltac rcase_in X :=
  match type of X with
  | context [Rltb ?a ?b] =>
      let H := fresh "Hc" in
      destruct (Rltb a b) eqn:H; [apply Rltb_true in H | apply Rltb_false in H]
  | context [Rleb ?a ?b] =>
      let H := fresh "Hc" in
      destruct (Rleb a b) eqn:H; [apply Rleb_true in H | apply Rleb_false in H]
  | context [Reqb ?a ?b] =>
      let H := fresh "Hc" in
      destruct (Reqb a b) eqn:H; [apply Reqb_true in H | apply Reqb_false in H]
  end.

(** Unfold the class operations at [R]. *)
Ltac numR :=
  cbn [nadd nsub nmul ndiv nopp nltb nleb neqb nlit nfloordiv nmod nint Num_R] in *.

Lemma Q2R_0 : Q2R 0 = 0%R.
Proof. unfold Q2R; simpl; lra. Qed.
Lemma Q2R_1 : Q2R 1 = 1%R.
Proof. unfold Q2R; simpl; lra. Qed.
Lemma Q2R_inject z : Q2R (inject_Z z) = IZR z.
Proof. unfold Q2R, inject_Z; simpl; lra. Qed.
Lemma n0_R : (n0 : R) = 0%R.
Proof. exact Q2R_0. Qed.
Lemma n1_R : (n1 : R) = 1%R.
Proof. exact Q2R_1. Qed.
Lemma nofnat_R n : (nofnat n : R) = INR n.
Proof. unfold nofnat, nofZ; numR. rewrite Q2R_inject, INR_IZR_INZ. reflexivity. Qed.
Lemma nmin_R (a b : R) : nmin a b = Rmin a b.
Proof. unfold nmin, Rmin; numR. rcase; destruct (Rle_dec a b); lra. Qed.
Lemma nmax_R (a b : R) : nmax a b = Rmax a b.
Proof. unfold nmax, Rmax; numR. rcase; destruct (Rle_dec a b); lra. Qed.
Lemma nabs_R (a : R) : nabs a = Rabs a.
Proof. unfold nabs; numR. rewrite n0_R. rcase.
  - rewrite Rabs_left; lra.
  - rewrite Rabs_right; lra. Qed.

(** ** Rationals *)

Definition Qtrunc (x : Q) : Z := if Qle_bool 0 x then Qfloor x else (- Qfloor (- x))%Z.

#[global] Instance Num_Q : Num Q := {
  nadd x y := Qred (Qplus x y); nsub x y := Qred (Qminus x y);
  nmul x y := Qred (Qmult x y); ndiv x y := Qred (Qdiv x y);
  nopp := Qopp;
  nltb x y := negb (Qle_bool y x); nleb := Qle_bool; neqb := Qeq_bool;
  nlit q := Qred q;
  nfloordiv x y := inject_Z (Qfloor (x / y));
  nmod x y := Qred (x - y * inject_Z (Qfloor (x / y)));
  nint := Qtrunc
}.

(** ** IEEE binary64 *)

Definition b64 : Type := spec_float.
Definition prec64 : Z := 53%Z.
Definition emax64 : Z := 1024%Z.

(* nearest double to z * 2^e *)
Definition b64_of (z e : Z) : b64 :=
  match z with
  | Z0 => S754_zero false
  | Zpos _ => binary_normalize prec64 emax64 z e false
  | Zneg _ => binary_normalize prec64 emax64 z e true
  end.

(* A decimal literal of the source, rounded to nearest even: the quotient of
   two integers that are themselves exact doubles is correctly rounded, which
   is what float("0.1") is. *)
Definition b64_lit (q : Q) : b64 :=
  SFdiv prec64 emax64 (b64_of (Qnum q) 0) (b64_of (Zpos (Qden q)) 0).

(* finite doubles as m * 2^e *)
Definition b64_parts (x : b64) : option (Z * Z) :=
  match x with
  | S754_zero _ => Some (0, 0)%Z
  | S754_finite s m e => Some ((if s then Zneg m else Zpos m), e)
  | _ => None
  end.

(* CPython's float_divmod: mod = fmod(vx, wx) is exact; div = (vx - mod) / wx;
   if mod has the wrong sign, mod += wx and div -= 1; floordiv is then
   floor(div), plus one if div - floor(div) > 0.5. Infinite and NaN operands
   give NaN here. *)
Definition b64_fmod (x y : b64) : b64 :=
  match b64_parts x, b64_parts y with
  | Some (mx, ex), Some (my, ey) =>
      let e := Z.min ex ey in
      let ax := (mx * 2 ^ (ex - e))%Z in
      let ay := (my * 2 ^ (ey - e))%Z in
      if (ay =? 0)%Z then S754_nan else b64_of (Z.rem ax ay) e
  | _, _ => S754_nan
  end.

Definition b64_floor (x : b64) : b64 :=
  match b64_parts x with
  | Some (m, e) =>
      if (0 <=? e)%Z then x else b64_of (Z.div m (2 ^ (- e))) 0
  | None => x
  end.

Definition b64_divmod (x y : b64) : b64 * b64 :=
  let md := b64_fmod x y in
  let dv := SFdiv prec64 emax64 (SFsub prec64 emax64 x md) y in
  let z0 := S754_zero false in
  let wrong := andb (negb (SFeqb md z0)) (xorb (SFltb y z0) (SFltb md z0)) in
  let md' := if wrong then SFadd prec64 emax64 md y else md in
  let dv' := if wrong then SFsub prec64 emax64 dv (b64_of 1 0) else dv in
  let fl := b64_floor dv' in
  let fl' := if SFltb (b64_of 1 (-1)) (SFsub prec64 emax64 dv' fl)
             then SFadd prec64 emax64 fl (b64_of 1 0) else fl in
  (fl', md').

Definition b64_int (x : b64) : Z :=
  match b64_parts x with
  | Some (m, e) => if (0 <=? e)%Z then (m * 2 ^ e)%Z else Z.quot m (2 ^ (- e))
  | None => 0%Z
  end.

#[global] Instance Num_b64 : Num b64 := {
  nadd := SFadd prec64 emax64; nsub := SFsub prec64 emax64;
  nmul := SFmul prec64 emax64; ndiv := SFdiv prec64 emax64; nopp := SFopp;
  nltb := SFltb; nleb := SFleb; neqb := SFeqb;
  nlit := b64_lit;
  nfloordiv x y := fst (b64_divmod x y);
  nmod x y := snd (b64_divmod x y);
  nint := b64_int
}.

(** ** Transcendental functions (only at [R]) *)

Class Trans (A : Type) : Type := {
  nexp : A -> A; nsin : A -> A; ncos : A -> A; nsqrt : A -> A; npi : A
}.

#[global] Instance Trans_R : Trans R := {
  nexp := exp; nsin := sin; ncos := cos; nsqrt := sqrt; npi := PI
}.
Ltac transR := cbn [nexp nsin ncos nsqrt npi Trans_R] in *.
