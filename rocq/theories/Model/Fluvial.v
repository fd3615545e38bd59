(** sequence/fluvial.py *)
From Coq Require Import String List ZArith QArith Arith Lia.
From Verif.Base Require Import Num Py Arr.
From Verif.Model Require Import Layers Grid Shoreline Flexure Submarine.
Import ListNotations.
Local Open Scope num_scope.

Section Fluvial.
  Context {A : Type} `{Num A} `{Trans A}.

  Definition SAND : string := "delta_sediment_sand__volume_fraction".

  (* sequence/fluvial.py:94-105, the fixed parameters *)
  Definition sand_grain : A := nlit (1 # 1000).
  Definition fl_alpha : A := nlit 10.
  Definition fl_beta : A := nlit (1 # 10).
  Definition flood_period : A := nlit 10.
  Definition fl_basin_width : A := nlit 10000.
  Definition hemi_taper : A := nlit 100000.

  (* sequence/fluvial.py:107-112, the settable ones *)
  Record fluvial : Type := mkFluvial {
    fl_sand_frac : A;
    fl_sediment_load : A;
    fl_sand_density : A;
    fl_plain_slope : A;
    fl_wave_base : A;
    fl_hemi : A
  }.

  (* sequence/fluvial.py:114-117, the rest of __init__ *)
  Definition fluvial_init (c : fluvial) (g : grid A) : fluvial * grid A :=
    (c, ensure_node (ensure_node g SAND) BEDROCK_INC).

  (* numpy.gradient of a 1-D array with unit spacing; fewer than two entries
     raise ValueError *)
  Definition np_gradient (l : list A) : result (list A) :=
    if Nat.ltb (length l) 2 then Err ValueError
    else Ok (map (fun i =>
           if Nat.eqb i 0 then nth 1 l n0 - nth 0 l n0
           else if Nat.eqb i (length l - 1) then nth i l n0 - nth (i - 1) l n0
           else (nth (i + 1) l n0 - nth (i - 1) l n0) / nlit 2) (seq 0 (length l))).

  (* np.where(mask)[0] for mask = [p a | a in l] *)
  Fixpoint where_from (k : nat) (p : A -> bool) (l : list A) : list nat :=
    match l with
    | [] => []
    | a :: l' => if p a then k :: where_from (S k) p l' else where_from (S k) p l'
    end.

  (* sequence/fluvial.py:179-182 and 202-207: braided or meandering.  The
     division is numpy's, so a zero depth gives an infinity. *)
  Definition channel_epsilon (channel_width channel_depth : A) : A :=
    if nlit 75 <? channel_width / channel_depth then nlit (4 # 10) else nlit (125 # 1000).

  (* sequence/fluvial.py:202-250: the sand fraction of one land column *)
  Definition sand_node (channel_width channel_depth conc_mud r_cb r_b : A) : A :=
    let width_cb := channel_width / channel_epsilon channel_width channel_depth in
    let r_cb := if r_cb <? n0 then n0 else r_cb in
    let r_fp := fl_beta * channel_depth / flood_period * conc_mud in
    let r_fp := if r_cb <? r_fp then r_cb else r_fp in
    if n0 <? r_b then
      let bigN := fl_alpha * (r_cb - r_fp) / r_b in
      let r_cb := if n1 <? bigN then r_cb * bigN else r_cb in
      let percent_sand :=
        if r_cb <=? n0 then n1
        else
          let bigN := fl_alpha * (r_cb - r_fp) / r_b in
          n1 - nexp (nopp n1 * width_cb / fl_basin_width * bigN) in
      let percent_sand := if n1 <? percent_sand then n1 else percent_sand in
      if percent_sand <? n0 then n0 else percent_sand
    else n0.

  (* sequence/fluvial.py:201-273: one column of the downstream walk.  The state
     is mud_vol, conc_mud and percent_sand.  An index past the last column
     raises IndexError.  sand_vol (line 254) and the recomputation of
     channel_depth[i] (line 271, same value) have no effect and are left out. *)
  Definition walk_node (channel_width : A) (channel_depth r_cb r_b dz : list A) (dx dt qw : A)
      (st : A * list A * list A) (i : nat) : result (A * list A * list A) :=
    let '(mud_vol, conc_mud, percent_sand) := st in
    let ps := sand_node channel_width (nth i channel_depth n0) (nth i conc_mud n0)
                (nth i r_cb n0) (nth i r_b n0) in
    let percent_sand := lset percent_sand i ps in
    let* mud_vol :=
      if n0 <? nth i dz n0 then
        match nth_error dz (i + 1) with
        | None => Err IndexError
        | Some dz1 => Ok (mud_vol - (n1 - ps) * dx * (nth i dz n0 + dz1) / nlit 2 / dt)
        end
      else Ok mud_vol in
    if Nat.ltb (i + 1) (length conc_mud)
    then Ok (mud_vol, lset conc_mud (i + 1) (mud_vol / qw), percent_sand)
    else Err IndexError.

  (* sequence/fluvial.py:285-300: one column of the hemipelagic loop; the state
     is taper and add_mud *)
  Definition mud_node (wave_base hemi_dt : A) (x water_depth : list A)
      (st : nat * list A) (i : nat) : nat * list A :=
    let '(taper, add_mud) := st in
    let d := nth i water_depth n0 in
    let add_mud := if d <? wave_base then lset add_mud i n0 else add_mud in
    if ((wave_base <? d) && (d <? nlit 2 * wave_base))%bool then
      (i, lset add_mud i ((d - wave_base) / wave_base * hemi_dt))
    else if nlit 2 * wave_base <=? d then
      let v := hemi_dt * (n1 - (nth i x n0 - nth taper x n0) / hemi_taper) in
      (taper, lset add_mud i (if v <? n0 then n0 else v))
    else (taper, add_mud).

  (* sequence/fluvial.py:119-313 run_one_step.  [interp1d] as in
     find_shoreline.  Divisions between Python floats raise for a zero divisor
     (lines 127, 138, 141); the others are numpy divisions.
     Lines 307-313 compute the sand fraction of the water columns into
     percent_sand[water]; indexing with a boolean mask makes a copy, so the
     result never reaches the field and the columns keep the 0 of line 199. *)
  Definition fluvial_step (interp1d : list A -> list A -> result (A -> A)) (dt : A)
      (c : fluvial) (g : grid A) : result (grid A) :=
    if fl_sand_frac c =? n0 then Err ZeroDivisionError else
    let mud_vol := fl_sediment_load c * (n1 - fl_sand_frac c) / fl_sand_frac c in
    let qs := nlit 10 * nsqrt (nlit (98 # 10) * (fl_sand_density c / nlit 1000 - n1)) * sand_grain in
    if fl_plain_slope c =? n0 then Err ZeroDivisionError else
    let qw := fl_sediment_load c / fl_plain_slope c / nlit (61 # 100) in
    if qw =? n0 then Err ZeroDivisionError else
    let conc_mud := lset (repeat n0 (g_cols g)) 0 (mud_vol / qw) in
    let channel_width := fl_sediment_load c / qs in
    let x := x_of_column g in
    let* elevation := get_profile g TOPO in
    let middle_row := Nat.div2 (length elevation) in
    let z := nth middle_row elevation [] in
    let* sea_level := gval_r g SEALEVEL in
    let* shore := find_shoreline interp1d x z sea_level in
    let* gradient := np_gradient z in
    let slope := map (fun v => v / g_dx g) gradient in
    let channel_depth := zipw (fun xj s =>
        if xj <? shore then (fl_sand_density c - nlit 1000) / nlit 1000 * sand_grain / s else n0)
        x slope in
    let epsilon := channel_epsilon channel_width (nth 0 channel_depth n0) in
    let* deposit := get_profile g DEPOSIT in
    let* inc := get_profile g BEDROCK_INC in
    let* sand := get_profile g SAND in
    let r_b := nth middle_row deposit [] in
    let r_cb := map (fun v => v * epsilon) r_b in
    let dz := nth middle_row inc [] in
    let percent_sand := repeat n0 (length (nth middle_row sand [])) in
    let* walked := foldM (walk_node channel_width channel_depth r_cb r_b dz (g_dx g) dt qw)
                     (where_from 0 (fun v => v <? shore) x) (mud_vol, conc_mud, percent_sand) in
    let '(_, _, percent_sand) := walked in
    let water_depth := map (fun v => sea_level - v) z in
    let '(_, add_mud) := fold_left (mud_node (fl_wave_base c) (fl_hemi c * dt) x water_depth)
                           (where_from 0 (fun v => shore <=? v) x) (1%nat, repeat n0 (g_cols g)) in
    let thickness := zipw (fun xj va => if shore <=? xj then fst va + snd va else fst va)
                       x (combine r_b add_mud) in
    let* g1 := set_profile g SAND (lset sand middle_row percent_sand) in
    set_profile g1 DEPOSIT (lset deposit middle_row thickness).
End Fluvial.
Arguments fluvial : clear implicits.
