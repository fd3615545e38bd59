(** sequence/plot.py: what is handed to matplotlib.

    matplotlib itself (colours, line widths, legends, labels) is not modelled:
    a plot is the list of its polygons and lines. *)
From Coq Require Import String List ZArith QArith Arith Bool.
From Verif.Base Require Import Num Py Arr.
From Verif.Model Require Import Layers Grid Interp Sequence Netcdf.
Import ListNotations.
Local Open Scope string_scope.

(** Numbers with NaN ([None]): every operation on NaN gives NaN and every
    comparison with NaN is false. *)
Definition lift2 {A B} (f : A -> A -> B) (x y : option A) : option B :=
  match x, y with Some a, Some b => Some (f a b) | _, _ => None end.
Definition test2 {A} (f : A -> A -> bool) (x y : option A) : bool :=
  match x, y with Some a, Some b => f a b | _, _ => false end.
#[global] Instance Num_nan {A} `{Num A} : Num (option A) | 100 := {|
  nadd := lift2 nadd; nsub := lift2 nsub; nmul := lift2 nmul; ndiv := lift2 ndiv;
  nopp := option_map nopp;
  nltb := test2 nltb; nleb := test2 nleb; neqb := test2 neqb;
  nlit q := Some (nlit q);
  nfloordiv := lift2 nfloordiv; nmod := lift2 nmod;
  nint x := match x with Some a => nint a | None => 0%Z end
|}.

Inductive region : Type := Land | Shoreface | Shelf.

Section Plot.
  Context {A : Type} `{Num A}.
  Local Open Scope num_scope.

  (* l[a:b:-1] for 0 <= a, b *)
  Definition slice_down {B} (a b : nat) (l : list B) : list B := rev (slice (S b) (S a) l).

  (** ** Outlines *)

  (* interp1d((a, b), (0.0, 1.0))(v), kind="linear": scipy sorts the two points *)
  Definition fraction (a b v : A) : result A :=
    if b <? a then interp_linear [b; a] [n1; n0] v else interp_linear [a; b] [n0; n1] v.
  (* sequence/plot.py:396-414 _interp_between_layers; three lists of the same
     length, as the assertion demands *)
  Definition interp_between (x y_of_bottom y_of_top : list A) : result (list A) :=
    match x with
    | [] => Ok []
    | [_] => Ok y_of_bottom
    | x0 :: _ =>
        mapM (fun xy => let* w := fraction x0 (lastn x n0) (fst xy) in
                        Ok (fst (snd xy) + (snd (snd xy) - fst (snd xy)) * w))
          (combine x (combine y_of_bottom y_of_top))
    end.
  (* sequence/plot.py:358-374 (from the top at [from] to the bottom at [to_]) and
     376-389 (from the bottom to the top), the same lines twice *)
  Definition side (x y_from y_to : list A) (from to_ : nat) : result (list A * list A) :=
    let part := fun l : list A => if Nat.ltb to_ from then rev (slice to_ (S from) l) else slice from (S to_) l in
    let* y := interp_between (part x) (part y_from) (part y_to) in
    Ok (removelast (part x), removelast y).
  (* sequence/plot.py:330-393 _outline_layer; a limit is a column or None *)
  Definition limits (n : nat) (l : option (option nat * option nat)) : nat * nat :=
    match l with
    | None => (0, n - 1)
    | Some (a, b) => (match a with Some a => a | None => 0 end, match b with Some b => b | None => n - 1 end)
    end%nat.
  Definition outline_layer (x y_bottom y_top : list A) (bottom_limits top_limits : option (option nat * option nat))
    : result (list A * list A) :=
    let (b0, b1) := limits (length x) bottom_limits in
    let (t0, t1) := limits (length x) top_limits in
    let* of_left := side x y_top y_bottom t0 b0 in
    let* of_right := side x y_bottom y_top b1 t1 in
    Ok (slice_down t1 t0 x ++ fst of_left ++ slice b0 b1 x ++ fst of_right,
        slice_down t1 t0 y_top ++ snd of_left ++ slice b0 b1 y_bottom ++ snd of_right)%list.

  (* sequence/plot.py:304-327 _fill_between_layers: one polygon per pair of
     neighbouring layers *)
  Definition fill_between_layers (x : list A) (y : list (list A)) (lower upper : option (list nat))
    : result (list (list A * list A)) :=
    let n := length y in
    let lower := match lower with Some l => l | None => repeat 0%nat n end in
    let upper := match upper with Some l => l | None => repeat (length x - 1)%nat n end in
    mapM (fun k => outline_layer x (nth k y []) (nth (S k) y [])
                     (Some (Some (nth k lower 0%nat), Some (nth k upper 0%nat)))
                     (Some (Some (nth (S k) lower 0%nat), Some (nth (S k) upper 0%nat))))
      (seq 0 (n - 1)).

  (** ** Which layers *)

  (* sequence/plot.py:295-301 _get_layers_to_plot: start, stop and step of the
     slice.  int(a / b) is computed in [A]. *)
  Definition get_layers_to_plot (start stop num : Z) : result (option (Z * Z * Z)) :=
    if (num =? 0)%Z then Ok None
    else
      let num := if ((num <? 0) || (num >? stop - start + 1))%Z%bool then (stop - start + 1)%Z else num in
      if (num =? 0)%Z then Err ZeroDivisionError
      else Ok (Some (start, stop, nint (nofZ (stop - start + 1) / nofZ num : A))).
  (* the entries that l[start:stop:step] selects from n, step > 0 *)
  Definition slice_index (n : nat) (i : Z) : nat :=
    if (i <? 0)%Z then Z.to_nat (i + Z.of_nat n) else Nat.min (Z.to_nat i) n.
  Definition slice_indices (n : nat) (s : Z * Z * Z) : list nat :=
    let '(start, stop, step) := s in
    let step := Z.to_nat step in
    let a := slice_index n start in
    let b := slice_index n stop in
    map (fun k => (a + k * step)%nat) (seq 0 ((b - a + step - 1) / step)).

  (** ** Plots *)

  (* a plot: polygons and lines, in drawing order *)
  Inductive drawing : Type :=
  | Water (x y : list A) (level : A)                 (* fill_between, down to y *)
  | WaterLine (x0 x1 level : A)
  | Fill (r : region) (x y : list A)
  | Line (x y : list A).

  (* the arguments of plot_layers that plot_file and plot_grid compute *)
  Record plot_args : Type := mkPlotArgs {
    pa_elevation : list (list A);        (* one list per layer *)
    pa_x : list A;
    pa_shore : list A;
    pa_shelf_edge : list A
  }.
  (* the other ones: whether there is a colour, and the layers to outline *)
  Record plot_style : Type := mkPlotStyle {
    ps_water : bool; ps_land : bool; ps_shoreface : bool; ps_shelf : bool;
    ps_start : Z; ps_stop : Z; ps_n_layers : Z
  }.

  (* np.searchsorted(x, v): NaN goes to the end *)
  Definition stack_of (x : list A) (v : A) : nat := if v =? v then searchsorted x v else length x.

  (* x[mask] *)
  Definition masked {B} (mask : list bool) (l : list B) : list B :=
    map snd (filter fst (combine mask l)).

  (* sequence/plot.py:20-174 plot_layers, with x_of_stack and the positions of
     shore and shelf edge given.  Indexing [-1] without a layer is an
     IndexError. *)
  Definition plot_layers (st : plot_style) (p : plot_args) : result (list drawing) :=
    let x := pa_x p in
    let y := pa_elevation p in
    match pa_shore p, y with
    | [], _ | _, [] => Err IndexError
    | _, _ =>
        let top := lastn y [] in
        let stack_of_shore := map (stack_of x) (pa_shore p) in
        let stack_of_shelf_edge := map (stack_of x) (pa_shelf_edge p) in
        let water := map (fun v => lastn (pa_shore p) n0 <? v) x in
        let x_water := masked water x in
        let y_water := masked water top in
        let level := nth 0 y_water n0 in
        let stop := if (ps_stop st <? 0)%Z then (Z.of_nat (length y) + ps_stop st + 1)%Z else ps_stop st in
        let* layers_to_plot := get_layers_to_plot (ps_start st) stop (ps_n_layers st) in
        let fill := fun (on : bool) r lower upper =>
          if on then let* ps := fill_between_layers x y lower upper in
                     Ok (map (fun o => Fill r (fst o) (snd o)) ps)
          else Ok [] in
        let* land := fill (ps_land st) Land None (Some stack_of_shore) in
        let* shoreface := fill (ps_shoreface st) Shoreface (Some stack_of_shore) (Some stack_of_shelf_edge) in
        let* shelf := fill (ps_shelf st) Shelf (Some stack_of_shelf_edge) None in
        let lines := match layers_to_plot with
                     | Some s => map (fun k => Line x (nth k y [])) (slice_indices (length y) s)
                     | None => []
                     end in
        Ok ((if existsb (fun b => b) water then
               (if ps_water st then [Water x_water y_water level] else [])
               ++ [WaterLine (nth 0 x_water n0) (lastn x_water n0) level]
             else [])
            ++ land ++ shoreface ++ shelf ++ lines ++ [Line x top])%list
    end.
End Plot.
Arguments drawing : clear implicits.
Arguments plot_args : clear implicits.

Section Sources.
  Context {A : Type} `{Num A}.
  Local Open Scope num_scope.
  Notation value := (option A).

  (* numpy's a + b along the last axis *)
  Definition broadcast_add (a b : list value) : result (list value) :=
    if Nat.eqb (length a) (length b) then Ok (zipw nadd a b)
    else match a, b with
         | [v], _ => Ok (map (fun w => v + w) b)
         | _, [w] => Ok (map (fun v => v + w) a)
         | _, _ => Err ValueError
         end.
  (* np.cumsum along the layers *)
  Fixpoint cumsum (acc : list value) (l : list (list value)) : list (list value) :=
    match l with
    | [] => []
    | r :: l' => let s := zipw nadd acc r in s :: cumsum s l'
    end.
  (* grid.event_layers.z: the thickness up to the top of each layer; one list
     of all the cells per layer *)
  Definition layer_z (el : event_layers A) (n_cells : nat) : list (list value) :=
    cumsum (repeat n0 n_cells) (map (@concat _) (layer_data el "thickness")).

  Definition interp_all (x : list A) (y ages : list value) : result (list value) :=
    mapM (interp_linear (map Some x) y) ages.

  (* sequence/plot.py:177-224 plot_grid, on the grid of a Sequence.
     grid.at_layer_row is only there after a layer was added (KeyError). *)
  Definition plot_grid_args {W} (s : sequence A W) (row : option Z) : result (plot_args value) :=
    let g := sq_grid s in
    let row := match row with Some r => r | None => Z.of_nat ((number_of_rows g - 2) / 2)%nat end in
    let m := (g_cols g - 2)%nat in
    let* z0 := get_profile g "bedrock_surface__elevation" in
    let* bedrock := py_nth z0 row in
    let bedrock := map Some (inner bedrock) in
    (* the shapes have to match also when there are no layers *)
    let* _ := broadcast_add bedrock (repeat (Some n0) (g_rows g * m)) in
    let* elevation := mapM (broadcast_add bedrock) (layer_z (layers g) (g_rows g * m)) in
    match sq_at_layer_row s with
    | [] => Err KeyError
    | _ =>
        let* shore := mapM (fun e => py_nth (re_shore e) row) (sq_at_layer_row s) in
        let* shelf_edge := mapM (fun e => py_nth (re_shelf_edge e) row) (sq_at_layer_row s) in
        let times := map ge_age (sq_at_layer_grid s) in
        let* age := mapM (fun l => py_nth (concat l) 0) (layer_data (layers g) "age") in
        let* shore := interp_all times shore age in
        let* shelf_edge := interp_all times shelf_edge age in
        Ok (mkPlotArgs elevation (map Some (inner (x_of_column g))) shore shelf_edge)
    end.
  Definition plot_grid {W} (st : plot_style) (s : sequence A W) (row : option Z) : result (list (drawing value)) :=
    let* p := plot_grid_args s row in plot_layers st p.

  (* a layer variable as an array; a layer that was never written is NaN *)
  Definition layer_array (r c : nat) (l : list (option (field value))) : list (field value) :=
    map (fun o => match o with Some f => f | None => full r c None end) l.

  (* sequence/plot.py:227-292 plot_file, on the contents of a file.  A NaN
     thickness, which xarray's cumsum would skip, does not occur in files
     written with layers.  A dimension that is missing is a KeyError, which
     within the try is turned into a MissingRequiredVariable. *)
  Definition plot_file_args (d : dataset A) (row : option Z) : result (plot_args value) :=
    match dget String.eqb (ds_dims d) "row" with
    | None => Err MissingRequiredVariable
    | Some r =>
        let* row := match row with
                    | None => Ok (Z.of_nat (r / 2))
                    | Some k => if ((k >=? Z.of_nat r) || (k <? - Z.of_nat r))%Z%bool then Err InvalidRowError else Ok k
                    end in
        match dget String.eqb (ds_layers d) "at_layer:thickness", dget String.eqb (ds_fields d) "at_row:x_of_shore",
              dget String.eqb (ds_fields d) "at_row:x_of_shelf_edge",
              dget String.eqb (ds_fields d) "at_node:bedrock_surface__elevation", dget String.eqb (ds_dims d) "node",
              dget String.eqb (ds_dims d) "column" with
        | Some thickness, Some x_of_shore, Some x_of_shelf_edge, Some bedrock, Some nodes, Some c =>
            let* thickness := mapM (fun f => py_nth f row) (layer_array r c thickness) in
            let record := fun n (o : option (list value)) => match o with Some l => l | None => repeat None n end in
            (* .data.reshape((-1, r + 2, c + 2)).squeeze() and [-1, row, 1:-1] *)
            let values := concat (map (record nodes) bedrock) in
            let size := ((r + 2) * (c + 2))%nat in
            if negb (Nat.eqb (length values mod size) 0) then Err ValueError
            else
              match dget String.eqb (ds_layers d) "at_layer:age" with
              | None => Err MissingRequiredVariable
              | Some age =>
                  let* x_of_stack :=
                    match dget String.eqb (ds_coords d) "x_of_cell" with
                    | Some xs => if Nat.eqb (length xs) (r * c) then py_nth (in_rows r c xs) row else Err ValueError
                    | None => match dget String.eqb (ds_dims d) "cell" with
                              | Some n => Ok (map (fun i => Some (nofnat i)) (seq 0 n))
                              | None => Err KeyError
                              end
                    end in
                  if Nat.leb (length values / size) 1 then Err IndexError
                  else
                    let* z0 := py_nth (in_rows (r + 2) (c + 2) (skipn ((length values / size - 1) * size) values)) row in
                    let* elevation := mapM (broadcast_add (inner z0)) (cumsum (repeat (Some n0) c) thickness) in
                    let* shore := mapM (fun o => py_nth (record r o) row) x_of_shore in
                    let* shelf_edge := mapM (fun o => py_nth (record r o) row) x_of_shelf_edge in
                    let* age := mapM (fun f => let* l := py_nth f row in py_nth l 0) (layer_array r c age) in
                    let* shore := interp_all (ds_time d) shore age in
                    let* shelf_edge := interp_all (ds_time d) shelf_edge age in
                    Ok (mkPlotArgs elevation x_of_stack shore shelf_edge)
              end
        | _, _, _, _, _, _ => Err MissingRequiredVariable
        end
    end.
  Definition plot_file (st : plot_style) (fs : filesystem A) (path : string) (row : option Z)
    : result (list (drawing value)) :=
    match fs path with
    | Some (Nc d) => let* p := plot_file_args d row in plot_layers st p
    | _ => Err FileError
    end.
End Sources.
