(** scipy.interpolate.interp1d(x, y, kind="linear", bounds_error=True), the
    interpolator built in sequence/sea_level.py:80-90, sequence/subsidence.py:72-82
    and sequence/bathymetry.py:58-65.  scipy is not part of /repo; this models
    its algorithm: the bounds check, then, for 1-D arrays of floats, numpy.interp
    (the last point that is not beyond v; exactly its value at the point, the
    straight line to the next point elsewhere; NaN at NaN).  numpy's second
    attempt when infinite values make the result NaN is not modelled. *)
From Coq Require Import List ZArith Arith Lia.
From Verif.Base Require Import Num Py.
Import ListNotations.
Local Open Scope num_scope.

Section Interp.
  Context {A : Type} `{Num A}.

  (* np.searchsorted(x, v) on an increasing x: the number of leading entries < v
     (numpy finds the same position by bisection) *)
  Fixpoint searchsorted (x : list A) (v : A) : nat :=
    match x with
    | [] => 0
    | a :: x' => if a <? v then S (searchsorted x' v) else 0
    end.

  (* the number of leading entries that are not beyond v *)
  Fixpoint reached (x : list A) (v : A) : nat :=
    match x with
    | [] => 0
    | a :: x' => if v <? a then 0 else S (reached x' v)
    end.

  Definition interp_linear (x y : list A) (v : A) : result A :=
    if (v <? nth 0 x n0)%bool then Err ValueError
    else if (nth (length x - 1) x n0 <? v)%bool then Err ValueError
    else if negb (v =? v) then Ok v
    else
      let j := (reached x v - 1)%nat in
      let x_lo := nth j x n0 in
      let x_hi := nth (S j) x n0 in
      let y_lo := nth j y n0 in
      let y_hi := nth (S j) y n0 in
      if (Nat.eqb j (length x - 1) || (x_lo =? v))%bool then Ok y_lo
      else
        let slope := (y_hi - y_lo) / (x_hi - x_lo) in
        Ok (slope * (v - x_lo) + y_lo).

  (* interp1d(x, y, kind="linear") as the function object that
     sequence/shoreline.py:300 hands to the root finder; the root finder only
     evaluates it inside the table, so the value outside is immaterial *)
  Definition interp1d_linear (x y : list A) : result (A -> A) :=
    Ok (fun v => match interp_linear x y v with Ok r => r | Err _ => n0 end).
End Interp.
