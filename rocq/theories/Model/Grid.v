(** sequence/grid.py: SequenceModelGrid. *)
From Coq Require Import String List ZArith QArith Arith Lia.
From Verif.Base Require Import Num Py Arr.
From Verif.Model Require Import Layers.
Import ListNotations.
Local Open Scope num_scope.

Section Grid.
  Context {A : Type} `{Num A}.

  (** A SequenceModelGrid (sequence/grid.py:17): its shape and spacing, the
      node fields (dictionary of (rows+2) x cols arrays, landlab's at_node), the
      grid fields (at_grid), the row fields (at_row, None is NaN) and
      landlab's event_layers. *)
  Record grid : Type := mkGrid {
    g_rows : nat;                          (* profile rows: shape[0] - 2 *)
    g_cols : nat;                          (* shape[1] *)
    g_dy : A;
    g_dx : A;
    at_node : list (string * field A);
    at_grid : list (string * A);
    at_row : list (string * list (option A));
    layers : event_layers A
  }.

  Definition set_at_node (g : grid) v := mkGrid (g_rows g) (g_cols g) (g_dy g) (g_dx g) v (at_grid g) (at_row g) (layers g).
  Definition set_at_grid (g : grid) v := mkGrid (g_rows g) (g_cols g) (g_dy g) (g_dx g) (at_node g) v (at_row g) (layers g).
  Definition set_at_row (g : grid) v := mkGrid (g_rows g) (g_cols g) (g_dy g) (g_dx g) (at_node g) (at_grid g) v (layers g).
  Definition set_layers (g : grid) v := mkGrid (g_rows g) (g_cols g) (g_dy g) (g_dx g) (at_node g) (at_grid g) (at_row g) v.

  (* grid.at_node[name], grid.at_node[name] = v; a missing field is a KeyError *)
  Definition node (g : grid) (name : string) : option (field A) := dget String.eqb (at_node g) name.
  Definition node_r (g : grid) (name : string) : result (field A) :=
    match node g name with Some f => Ok f | None => Err KeyError end.
  Definition put_node (g : grid) (name : string) (f : field A) : grid :=
    set_at_node g (dset String.eqb (at_node g) name f).
  Definition has_node (g : grid) (name : string) : bool := din String.eqb (at_node g) name.

  (* grid.at_grid[name] *)
  Definition gval (g : grid) (name : string) : option A := dget String.eqb (at_grid g) name.
  Definition gval_r (g : grid) (name : string) : result A :=
    match gval g name with Some v => Ok v | None => Err KeyError end.
  Definition put_gval (g : grid) (name : string) (v : A) : grid :=
    set_at_grid g (dset String.eqb (at_grid g) name v).

  (* grid.at_row[name] *)
  Definition rowf (g : grid) (name : string) : option (list (option A)) := dget String.eqb (at_row g) name.
  Definition put_rowf (g : grid) (name : string) (v : list (option A)) : grid :=
    set_at_row g (dset String.eqb (at_row g) name v).

  (* sequence/grid.py:87-89 x_of_column: landlab's x_of_node along one row *)
  Definition x_of_column (g : grid) : list A :=
    map (fun j => nofnat j * g_dx g) (seq 0 (g_cols g)).
  (* sequence/grid.py:103-105 y_of_row *)
  Definition y_of_row (g : grid) : list A :=
    map (fun i => nofnat i * g_dy g) (seq 0 (g_rows g + 2)).
  (* sequence/grid.py:92-95 number_of_rows (boundary rows included) *)
  Definition number_of_rows (g : grid) : nat := g_rows g + 2.
  (* sequence/grid.py:98-100 *)
  Definition number_of_columns (g : grid) : nat := g_cols g.

  (* sequence/grid.py:107-120 get_profile(name): rows [1:-1] of the field.  It
     is a view; assigning through it is [set_profile]. *)
  Definition get_profile (g : grid) (name : string) : result (field A) :=
    let* f := node_r g name in Ok (inner f).
  Definition set_profile (g : grid) (name : string) (v : field A) : result grid :=
    let* f := node_r g name in Ok (put_node g name (set_inner f v)).

  (* sequence/grid.py:20-84 __init__.  shape and spacing are given after
     np.atleast_1d, as lists.  landlab's own limits on sizes and the node
     status flags (lines 77-78) are not modelled. *)
  Definition grid_init (shape : list nat) (spacing : list A) : result grid :=
    if (Nat.eqb (length shape) 1 && negb (Nat.eqb (length spacing) 1)
        || negb (Nat.eqb (length shape) 1) && negb (Nat.eqb (length spacing) (length shape)))%bool
    then Err ValueError
    else
      match shape, spacing with
      | [n_cols], [s] =>
          Ok (mkGrid 1 n_cols n1 s
                [("sediment_deposit__thickness"%string, full (1 + 2) n_cols n0)]
                [("sea_level__elevation"%string, n0)] [] (el_empty 1 (n_cols - 2)))
      | [n_rows; n_cols], [row_spacing; col_spacing] =>
          Ok (mkGrid n_rows n_cols row_spacing col_spacing
                [("sediment_deposit__thickness"%string, full (n_rows + 2) n_cols n0)]
                [("sea_level__elevation"%string, n0)] [] (el_empty n_rows (n_cols - 2)))
      | _, _ => Err ValueError
      end.

  (* sequence/grid.py:136-183 from_dict.  Only the four keys that the method
     looks at are represented; None is an absent key. *)
  Record grid_params : Type := mkGridParams {
    gp_shape : option (list nat);
    gp_n_cols : option (list nat);
    gp_spacing : option (list A);
    gp_xy_spacing : option (list A)
  }.
  Definition grid_from_dict (p : grid_params) : result grid :=
    let* shape := match gp_shape p with
                  | Some s => Ok s
                  | None => match gp_n_cols p with Some s => Ok s | None => Err KeyError end
                  end in
    let* spacing := match gp_spacing p with
                    | Some s => Ok s
                    | None => match gp_xy_spacing p with Some s => Ok (rev s) | None => Err KeyError end
                    end in
    grid_init shape spacing.
End Grid.
Arguments grid : clear implicits.
Arguments grid_params : clear implicits.
