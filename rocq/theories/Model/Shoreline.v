(** sequence/shoreline.py *)
From Coq Require Import String List ZArith QArith Arith Lia.
From Verif.Base Require Import Num Py Arr.
From Verif.Model Require Import Layers Grid.
Import ListNotations.
Local Open Scope num_scope.

Section Shoreline.
  Context {A : Type} `{Num A}.

  (* np.where(z < sea_level)  (sequence/shoreline.py:413) *)
  Fixpoint where_below (k : nat) (z : list A) (sea_level : A) : list nat :=
    match z with
    | [] => []
    | a :: z' => if a <? sea_level then k :: where_below (S k) z' sea_level
                 else where_below (S k) z' sea_level
    end.

  (* sequence/shoreline.py:355-429 find_shoreline_index for one profile row *)
  Definition find_shoreline_index (x z : list A) (sea_level : A) : result nat :=
    let below_water := where_below 0 z sea_level in
    if Nat.eqb (length below_water) 0 then Err (ShorelineError false)
    else if Nat.eqb (length below_water) (length x) then Err (ShorelineError true)
    else match below_water with
         | i :: _ => Ok i
         | [] => Err IndexError
         end.

  (* the same for a 2-D z: rows in order, the first failing row raises *)
  Definition find_shoreline_index_rows (x : list A) (z : list (list A)) (sea_level : A)
    : result (list nat) := mapM (fun row => find_shoreline_index x row sea_level) z.

  (** scipy.optimize.bisect (not part of /repo): the loop of scipy's
      Zeros/bisect.c with the default xtol=2e-12, rtol=4*eps, maxiter=100.
      signbit is modelled as "< 0"; a function value NaN is not modelled. *)
  Definition xtol : A := nlit (2 # 1000000000000).
  Definition rtol : A := nlit (1 # 1125899906842624).
  Fixpoint bisect_loop (n : nat) (f : A -> A) (fa xa dm : A) : result A :=
    match n with
    | O => Err RuntimeError
    | S n' =>
        let dm' := dm * nlit (1 # 2) in
        let xm := xa + dm' in
        let fm := f xm in
        let xa' := if Bool.eqb (fm <? n0) (fa <? n0) then xm else xa in
        if ((fm =? n0) || (nabs dm' <? xtol + rtol * nabs xm))%bool then Ok xm
        else bisect_loop n' f fa xa' dm'
    end.
  Definition scipy_bisect (f : A -> A) (xa xb : A) : result A :=
    let fa := f xa in
    let fb := f xb in
    if fa =? n0 then Ok xa
    else if fb =? n0 then Ok xb
    else if Bool.eqb (fa <? n0) (fb <? n0) then Err ValueError
    else bisect_loop 100 f fa xa (xb - xa).

  (* sequence/shoreline.py:231-306 find_shoreline for one profile row.
     [interp1d] stands for scipy.interpolate.interp1d(x, y, kind=kind); its
     construction may raise (e.g. too few points for a cubic).
     x[index_at_shore - 1] uses Python's negative index when index_at_shore = 0. *)
  Definition find_shoreline (interp1d : list A -> list A -> result (A -> A))
      (x z : list A) (sea_level : A) : result A :=
    match find_shoreline_index x z sea_level with
    | Err (ShorelineError _) =>
        match z, x with
        | z0 :: _, x0 :: _ => if z0 <? sea_level then Ok x0 else Ok (lastn x n0)
        | _, _ => Err IndexError
        end
    | Err e => Err e
    | Ok index_at_shore =>
        let* func := interp1d x (map (fun a => a - sea_level) z) in
        match pynth x (Z.of_nat index_at_shore - 1), pynth x (Z.of_nat index_at_shore) with
        | Some a, Some b => scipy_bisect func a b
        | _, _ => Err IndexError
        end
    end.

  (* Python's bisect.bisect (bisect_right), used at sequence/shoreline.py:224 *)
  Fixpoint bisect_right_loop (fuel : nat) (a : list A) (v : A) (lo hi : nat) : nat :=
    match fuel with
    | O => lo
    | S fuel' =>
        if Nat.ltb lo hi then
          let mid := Nat.div2 (lo + hi) in
          if v <? nth mid a n0 then bisect_right_loop fuel' a v lo mid
          else bisect_right_loop fuel' a v (S mid) hi
        else lo
    end.
  Definition bisect_right (a : list A) (v : A) : nat :=
    bisect_right_loop (S (length a)) a v 0 (length a).

  (* np.argmax: index of the first largest entry (NaN not modelled) *)
  Fixpoint argmax_loop (k best : nat) (vbest : A) (l : list A) : nat :=
    match l with
    | [] => best
    | a :: l' => if vbest <? a then argmax_loop (S k) k a l' else argmax_loop (S k) best vbest l'
    end.
  Definition argmax (l : list A) : nat :=
    match l with [] => 0 | a :: l' => argmax_loop 1 0 a l' end.

  (* sequence/shoreline.py:182-228 find_shelf_edge; 3.0 / alpha raises
     ZeroDivisionError for a Python float alpha equal to zero *)
  Definition find_shelf_edge (x dz : list A) (x_of_shore alpha : A) : result A :=
    if alpha =? n0 then Err ZeroDivisionError
    else
      let ind_of_shore := bisect_right x (x_of_shore + nlit 3 / alpha) in
      if Nat.leb (length dz) ind_of_shore then Err ShelfEdgeError
      else
        match nth_error x (argmax (skipn ind_of_shore dz) + ind_of_shore) with
        | Some v => Ok v
        | None => Err IndexError
        end.

  (* body of the row loop of ShorelineFinder.update, sequence/shoreline.py:112-129.
     None stands for NaN. *)
  Definition shoreline_row (interp1d : list A -> list A -> result (A -> A)) (alpha : A)
      (x : list A) (sea_level : A) (zdz : list A * list A) : result (A * option A) :=
    let (z, dz) := zdz in
    let* x_of_shore := find_shoreline interp1d x z sea_level in
    match find_shelf_edge x dz x_of_shore alpha with
    | Err ShelfEdgeError => Ok (x_of_shore, None)
    | Err e => Err e
    | Ok x_of_shelf_edge =>
        if x_of_shore <? x_of_shelf_edge then Ok (x_of_shore, Some x_of_shelf_edge)
        else Err AssertionError
    end.

  (* sequence/shoreline.py:103-132 ShorelineFinder.update.  The two at_row
     fields were created by __init__ (lines 76-77). *)
  Definition shoreline_update (interp1d : list A -> list A -> result (A -> A)) (alpha : A)
      (g : grid A) : result (grid A) :=
    let* z := get_profile g "topographic__elevation" in
    let* dz := get_profile g "sediment_deposit__thickness" in
    let* sea_level := gval_r g "sea_level__elevation" in
    let* rows := mapM (shoreline_row interp1d alpha (x_of_column g) sea_level) (combine z dz) in
    Ok (put_rowf (put_rowf g "x_of_shore" (map (fun p => Some (fst p)) rows))
                 "x_of_shelf_edge" (map snd rows)).

  (* sequence/shoreline.py:62-100 ShorelineFinder.__init__: as update, without
     the check of line 126 *)
  Definition shoreline_row_init (interp1d : list A -> list A -> result (A -> A)) (alpha : A)
      (x : list A) (sea_level : A) (zdz : list A * list A) : result (A * option A) :=
    let (z, dz) := zdz in
    let* x_of_shore := find_shoreline interp1d x z sea_level in
    match find_shelf_edge x dz x_of_shore alpha with
    | Err ShelfEdgeError => Ok (x_of_shore, None)
    | Err e => Err e
    | Ok x_of_shelf_edge => Ok (x_of_shore, Some x_of_shelf_edge)
    end.
  Definition shoreline_init (interp1d : list A -> list A -> result (A -> A)) (alpha : A)
      (g : grid A) : result (grid A) :=
    let g := put_rowf (put_rowf g "x_of_shore" (repeat (Some n0) (g_rows g)))
                      "x_of_shelf_edge" (repeat (Some n0) (g_rows g)) in
    let* z := get_profile g "topographic__elevation" in
    let* dz := get_profile g "sediment_deposit__thickness" in
    let* sea_level := gval_r g "sea_level__elevation" in
    let* rows := mapM (shoreline_row_init interp1d alpha (x_of_column g) sea_level) (combine z dz) in
    Ok (put_rowf (put_rowf g "x_of_shore" (map (fun p => Some (fst p)) rows))
                 "x_of_shelf_edge" (map snd rows)).

  (** ** find_shelf_edge_by_curvature *)

  (* numpy.gradient(f, x): one-sided at the ends, the second-order formula for
     unequal spacing inside *)
  Definition gradient_at (f x : list A) (i : nat) : A :=
    let d k := nth k f n0 in
    let s k := nth (S k) x n0 - nth k x n0 in
    if Nat.eqb i 0 then (d 1%nat - d 0%nat) / s 0%nat
    else if Nat.eqb i (length f - 1) then (d i - d (i - 1)%nat) / s (i - 1)%nat
    else
      let dx1 := s (i - 1)%nat in
      let dx2 := s i in
      let a := (- dx2) / (dx1 * (dx1 + dx2)) in
      let b := (dx2 - dx1) / (dx1 * dx2) in
      let c := dx1 / (dx2 * (dx1 + dx2)) in
      (a * d (i - 1)%nat + b * d i) + c * d (S i).
  Definition gradient (f x : list A) : result (list A) :=
    if Nat.ltb (length f) 2 then Err ValueError
    else if negb (Nat.eqb (length x) (length f)) then Err ValueError
    else Ok (map (gradient_at f x) (seq 0 (length f))).

  (* np.argmin: the first smallest entry *)
  Fixpoint argmin_loop (k best : nat) (vbest : A) (l : list A) : nat :=
    match l with
    | [] => best
    | a :: l' => if a <? vbest then argmin_loop (S k) k a l' else argmin_loop (S k) best vbest l'
    end.
  Definition argmin (l : list A) : nat :=
    match l with [] => 0 | a :: l' => argmin_loop 1 0 a l' end.

  (* sequence/shoreline.py:146-179; sea_level is not used *)
  Definition find_shelf_edge_by_curvature (x z : list A) (sea_level : A) : result A :=
    let* slope := gradient z x in
    let* curvature := gradient slope x in
    Ok (nth (argmin curvature) x n0).
End Shoreline.
