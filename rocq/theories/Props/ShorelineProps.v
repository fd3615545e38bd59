(** C01-C05: shoreline and shelf edge. *)
From Coq Require Import String List ZArith QArith Reals Lra Lia.
From Verif.Base Require Import Num Py Arr.
From Verif.Model Require Import Layers Grid Interp Shoreline.
From Verif.Spec Require Import Profile.
From Verif.Proofs Require Import ShorelineP InterpP.
From Verif.Proofs Require Import ShorelineEx CurvatureP StartsP.
Import ListNotations.

(** C01.  For every number type (hence also doubles and NaN). *)
Theorem C01_shoreline_index {A} `{Num A} (x z : list A) (sea_level : A) :
  length z = length x ->
  (forall i, find_shoreline_index x z sea_level = Ok i <->
     first_submerged z sea_level i /\ exists j, (j < length z)%nat /\ ~ submerged z sea_level j)
  /\ (find_shoreline_index x z sea_level = Err (ShorelineError false) <->
        forall j, ~ submerged z sea_level j)
  /\ (find_shoreline_index x z sea_level = Err (ShorelineError true) <->
        z <> [] /\ forall j, (j < length z)%nat -> submerged z sea_level j)
  /\ (forall e, find_shoreline_index x z sea_level = Err e -> exists b, e = ShorelineError b).
Proof. exact (find_shoreline_index_spec x z sea_level). Qed.
Print Assumptions C01_shoreline_index.
(* several rows: every row's index, or the error of the first row without one *)
Theorem C01_rows {A} `{Num A} (x : list A) zs sea_level : Forall (fun z => length z = length x) zs ->
  (forall l, find_shoreline_index_rows x zs sea_level = Ok l <->
     Forall2 (fun z i => first_submerged z sea_level i /\ exists j, (j < length z)%nat /\ ~ submerged z sea_level j) zs l)
  /\ (forall e, find_shoreline_index_rows x zs sea_level = Err e <->
     exists before z after, zs = before ++ z :: after
       /\ Forall (fun z => (exists j, submerged z sea_level j) /\ exists j, (j < length z)%nat /\ ~ submerged z sea_level j) before
       /\ ((e = ShorelineError false /\ forall j, ~ submerged z sea_level j)
           \/ (e = ShorelineError true /\ z <> [] /\ forall j, (j < length z)%nat -> submerged z sea_level j))).
Proof. exact (index_rows x zs sea_level). Qed.
Print Assumptions C01_rows.
Example C01_two_rows :
  find_shoreline_index_rows (map inject_Z [0;1;2]%Z) (map (map inject_Z) [[2;-1;-3]; [3;2;-1]]%Z) 0%Q = Ok [1; 2]%nat
  /\ find_shoreline_index_rows (map inject_Z [0;1;2]%Z) (map (map inject_Z) [[2;-1;-3]; [3;2;1]; [-1;-2;-3]]%Z) 0%Q = Err (ShorelineError false).
Proof. exact ex_index_rows. Qed.

(* the repository's doctest *)
Example C01_doctest :
  find_shoreline_index (map inject_Z [0;1;2;3;4;5;6;7;8;9]%Z)
    (map inject_Z [5;4;3;2;1;0;-1;-2;-3;-4]%Z) 0%Q = Ok 6%nat.
Proof. exact ex_index_doctest. Qed.
(* several crossings: an island and a lagoon *)
Example C01_island :
  find_shoreline_index (map inject_Z [0;1;2;3;4]%Z) (map inject_Z [2;-1;3;0;-5]%Z) 0%Q = Ok 1%nat.
Proof. exact ex_index_island. Qed.
Example C01_all_below :
  find_shoreline_index (map inject_Z [0;1]%Z) (map inject_Z [-2;-1]%Z) 0%Q = Err (ShorelineError true).
Proof. exact ex_index_below. Qed.

Local Open Scope R_scope.

(** C02.  [interp1d] is any interpolation method; [f] is what it returned for
    this profile, which only has to pass through the data.  Accuracy holds when
    [f] is continuous on the bracketing interval.  The width bound is the
    largest interval the 100 halvings of the root finder are guaranteed to
    resolve. *)
Theorem C02_shoreline_between_dry_and_wet interp1d f (x z : list R) sea_level :
  x <> [] -> increasing x -> length z = length x ->
  nth (length x - 1) x 0 - nth 0 x 0 <= 1000000000000000000 ->
  interp1d x (map (fun a => a - sea_level) z) = Ok f ->
  interpolates f x (map (fun a => a - sea_level) z) ->
  sea_level <= nth 0 z 0 ->
  exists s, find_shoreline interp1d x z sea_level = Ok s
    /\ ((forall i, ~ submerged z sea_level i) -> s = nth (length x - 1) x 0)
    /\ (forall i, first_submerged z sea_level i ->
          (0 < i)%nat /\ nth (i - 1) x 0 <= s <= nth i x 0
          /\ (continuous_between f (nth (i - 1) x 0) (nth i x 0) ->
              near_root f (nth (i - 1) x 0) (nth i x 0) s)).
Proof. exact (find_shoreline_bracket interp1d f x z sea_level). Qed.
Print Assumptions C02_shoreline_between_dry_and_wet.

Theorem C02_shoreline_all_submerged interp1d (x z : list R) sea_level :
  x <> [] -> length z = length x -> (forall i, (i < length z)%nat -> nth i z 0 < sea_level) ->
  find_shoreline interp1d x z sea_level = Ok (nth 0 x 0).
Proof. exact (find_shoreline_all_below interp1d x z sea_level). Qed.
Print Assumptions C02_shoreline_all_submerged.

(** With kind="linear" every hypothesis about the interpolant is met. *)
Theorem C02_shoreline_linear (x z : list R) sea_level :
  (2 <= length x)%nat -> increasing x -> length z = length x ->
  nth (length x - 1) x 0 - nth 0 x 0 <= 1000000000000000000 ->
  sea_level <= nth 0 z 0 ->
  exists s, find_shoreline interp1d_linear x z sea_level = Ok s
    /\ ((forall i, ~ submerged z sea_level i) -> s = nth (length x - 1) x 0)
    /\ (forall i, first_submerged z sea_level i ->
          (0 < i)%nat /\ nth (i - 1) x 0 <= s <= nth i x 0
          /\ near_root (lerp (nth (i - 1) x 0) (nth (i - 1) z 0 - sea_level)
                             (nth i x 0) (nth i z 0 - sea_level))
               (nth (i - 1) x 0) (nth i x 0) s).
Proof. exact (find_shoreline_linear x z sea_level). Qed.
Print Assumptions C02_shoreline_linear.

Example C02_doctest :
  find_shoreline interp1d_linear (map inject_Z [0;1;2;3;4;5;6;7;8;9]%Z)
    (map inject_Z [5;4;3;2;1;0;-1;-2;-3;-4]%Z) (1 # 4)%Q = Ok (19 # 4)%Q.
Proof. exact ex_shoreline_doctest. Qed.
Example C02_nonvacuous :
  let x := [0; 10; 20; 30] in let z := [5; 1; -1; -2] in
  (2 <= length x)%nat /\ increasing x /\ length z = length x
  /\ nth (length x - 1) x 0 - nth 0 x 0 <= 1000000000000000000
  /\ 0 <= nth 0 z 0 /\ first_submerged z 0 2.
Proof. exact ex_shoreline_nonvacuous. Qed.

(** C03.  Full statement, for the linear interpolant: *)
Definition C03_statement : Prop :=
  forall (x z : list R) sea_level,
    (2 <= length x)%nat -> increasing x -> length z = length x ->
    nth (length x - 1) x 0 - nth 0 x 0 <= 1000000000000000000 ->
    (exists i, submerged z sea_level i) ->
    (exists j, (j < length z)%nat /\ sea_level <= nth j z 0) ->
    exists s, find_shoreline interp1d_linear x z sea_level = Ok s.

(** The code violates it: a submerged first column makes the search start at
    x[-1] (the last column), and the root finder rejects the interval. *)
Theorem C03_no_failure_refuted : ~ C03_statement.
Proof. exact shoreline_drowned_refuted. Qed.
Print Assumptions C03_no_failure_refuted.

(** What holds: exactly the profiles whose first and last column are both
    submerged fail. *)
Theorem C03_no_failure_partial (x z : list R) sea_level :
  (2 <= length x)%nat -> increasing x -> length z = length x ->
  nth (length x - 1) x 0 - nth 0 x 0 <= 1000000000000000000 ->
  (exists i, submerged z sea_level i) ->
  (exists j, (j < length z)%nat /\ sea_level <= nth j z 0) ->
  ((exists s, find_shoreline interp1d_linear x z sea_level = Ok s
      /\ nth 0 x 0 <= s <= nth (length x - 1) x 0)
   <-> ~ (nth 0 z 0 < sea_level /\ nth (length z - 1) z 0 < sea_level))
  /\ (nth 0 z 0 < sea_level /\ nth (length z - 1) z 0 < sea_level ->
      find_shoreline interp1d_linear x z sea_level = Err ValueError).
Proof. exact (find_shoreline_fails_iff x z sea_level). Qed.
Print Assumptions C03_no_failure_partial.

Example C03_witness :
  find_shoreline interp1d_linear (map inject_Z [0;1;2]%Z) (map inject_Z [-1;1;-1]%Z) 0%Q = Err ValueError.
Proof. exact ex_shoreline_island. Qed.
Example C03_partial_nonvacuous :
  let x := [0; 1; 2] in let z := [-1; -1; 1] in
  (2 <= length x)%nat /\ increasing x /\ length z = length x
  /\ nth (length x - 1) x 0 - nth 0 x 0 <= 1000000000000000000
  /\ (exists i, submerged z 0 i) /\ (exists j, (j < length z)%nat /\ 0 <= nth j z 0).
Proof. exact ex_shoreline_partial_nonvacuous. Qed.

(** C04 *)
Theorem C04_shelf_edge (x dz : list R) x_of_shore alpha :
  alpha <> 0 -> sorted x -> length dz = length x ->
  let seaward j := (j < length x)%nat /\ x_of_shore + 3 / alpha < nth j x 0 in
  (exists k, seaward k
     /\ find_shelf_edge x dz x_of_shore alpha = Ok (nth k x 0)
     /\ (forall j, seaward j -> nth j dz 0 <= nth k dz 0)
     /\ (forall j, seaward j -> (j < k)%nat -> nth j dz 0 < nth k dz 0))
  \/ ((forall j, ~ seaward j) /\ find_shelf_edge x dz x_of_shore alpha = Err ShelfEdgeError).
Proof. exact (find_shelf_edge_spec x dz x_of_shore alpha). Qed.
Print Assumptions C04_shelf_edge.

Theorem C04_shelf_edge_zero_alpha (x dz : list R) x_of_shore :
  find_shelf_edge x dz x_of_shore 0 = Err ZeroDivisionError.
Proof. exact (find_shelf_edge_zero x dz x_of_shore). Qed.
Print Assumptions C04_shelf_edge_zero_alpha.

Example C04_tie :  (* the first of two equal maxima; the larger value at x=1 is landward *)
  find_shelf_edge (map inject_Z [0;1;2;3;4]%Z) (map inject_Z [0;9;5;7;7]%Z) 0%Q (3 # 1)%Q = Ok 3%Q.
Proof. exact ex_shelf_tie. Qed.
Example C04_none :
  find_shelf_edge (map inject_Z [0;1;2;3;4]%Z) (map inject_Z [0;9;5;7;7]%Z) 1%Q (1 # 1)%Q = Err ShelfEdgeError.
Proof. exact ex_shelf_none. Qed.

(** C05.  The assertion never fires, whatever the topography. *)
Theorem C05_assertion_never_fires interp1d alpha (g : grid R) :
  0 < alpha -> 0 < g_dx g ->
  (forall f, node g "sediment_deposit__thickness" = Some f -> shaped (g_rows g + 2) (g_cols g) f) ->
  (forall x y, interp1d x y <> Err AssertionError) ->
  shoreline_update interp1d alpha g <> Err AssertionError.
Proof. exact (shoreline_update_no_assert interp1d alpha g). Qed.
Print Assumptions C05_assertion_never_fires.

Theorem C05_shoreline_finder interp1d alpha (g : grid R) zf dzf sea_level :
  0 < alpha -> 0 < g_dx g -> (0 < g_cols g)%nat ->
  INR (g_cols g) * g_dx g <= 1000000000000000000 ->
  node g "topographic__elevation" = Some zf -> shaped (g_rows g + 2) (g_cols g) zf ->
  node g "sediment_deposit__thickness" = Some dzf -> shaped (g_rows g + 2) (g_cols g) dzf ->
  gval g "sea_level__elevation" = Some sea_level ->
  (forall y, length y = g_cols g ->
     exists f, interp1d (x_of_column g) y = Ok f /\ interpolates f (x_of_column g) y) ->
  (forall r, (1 <= r <= g_rows g)%nat -> sea_level <= at2 0 zf r 0) ->
  exists g' shores edges,
    shoreline_update interp1d alpha g = Ok g'
    /\ rowf g' "x_of_shore" = Some (map Some shores)
    /\ rowf g' "x_of_shelf_edge" = Some edges
    /\ length shores = g_rows g /\ length edges = g_rows g
    /\ (forall r, (r < g_rows g)%nat ->
          find_shoreline interp1d (x_of_column g) (nth (S r) zf []) sea_level = Ok (nth r shores 0)
          /\ match nth r edges None with
             | Some e => find_shelf_edge (x_of_column g) (nth (S r) dzf []) (nth r shores 0) alpha = Ok e
                         /\ nth r shores 0 < e
             | None => find_shelf_edge (x_of_column g) (nth (S r) dzf []) (nth r shores 0) alpha
                         = Err ShelfEdgeError
             end)
    /\ at_node g' = at_node g /\ at_grid g' = at_grid g /\ layers g' = layers g.
Proof. exact (shoreline_update_ok interp1d alpha g zf dzf sea_level). Qed.
Print Assumptions C05_shoreline_finder.

(** Making the component does what its step does, and a step after that
    changes nothing. *)
Theorem C05_constructor interp1d alpha (g g' : grid R) : 0 < alpha -> 0 < g_dx g ->
  (forall f, node g "sediment_deposit__thickness" = Some f -> shaped (g_rows g + 2) (g_cols g) f) ->
  (shoreline_init interp1d alpha g = Ok g' <-> shoreline_update interp1d alpha g = Ok g')
  /\ (shoreline_init interp1d alpha g = Ok g' -> shoreline_update interp1d alpha g' = Ok g').
Proof. exact (finder_starts interp1d alpha g g'). Qed.
Print Assumptions C05_constructor.

(* a two-row grid, executed: rows have different shores; the second row has no shelf edge *)
Example C05_run : 
  match shoreline_update interp1d_linear (3 # 1)%Q ex_grid2 with
  | Ok g' => (rowf g' "x_of_shore", rowf g' "x_of_shelf_edge")
  | Err _ => (None, None)
  end = (Some [Some (1 # 1)%Q; Some (5 # 2)%Q], Some [Some (3 # 1)%Q; None]).
Proof. exact ex_shoreline_run. Qed.
Example C05_nonvacuous : exists (g : grid R) zf dzf,
  g_rows g = 2%nat /\ 0 < g_dx g /\ (2 <= g_cols g)%nat
  /\ node g "topographic__elevation" = Some zf /\ shaped (g_rows g + 2) (g_cols g) zf
  /\ node g "sediment_deposit__thickness" = Some dzf /\ shaped (g_rows g + 2) (g_cols g) dzf
  /\ gval g "sea_level__elevation" = Some 0
  /\ INR (g_cols g) * g_dx g <= 1000000000000000000
  /\ (forall y, length y = g_cols g ->
        exists f, interp1d_linear (x_of_column g) y = Ok f /\ interpolates f (x_of_column g) y)
  /\ (forall r, (1 <= r <= g_rows g)%nat -> 0 <= at2 0 zf r 0).
Proof. exact ex_C05_nonvacuous. Qed.
