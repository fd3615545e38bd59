(** C66, C67 and C84: creating grids, and their profiles.

    A shape or spacing is given as a list: a number is a list of one. *)
From Coq Require Import String List ZArith QArith Arith.
From Verif.Base Require Import Num Py Arr.
From Verif.Model Require Import Layers Grid.
From Verif.Proofs Require Import GridInitP SequenceModelEx.
Import ListNotations.
Local Open Scope nat_scope.

(** C66 *)
Theorem C66_accepted {A} `{Num A} (shape : list nat) (spacing : list A) :
  ((exists g, grid_init shape spacing = Ok g)
   <-> (length shape = 1 \/ length shape = 2) /\ length spacing = length shape)
  /\ (~ ((length shape = 1 \/ length shape = 2) /\ length spacing = length shape) -> grid_init shape spacing = Err ValueError).
Proof. exact (init_accepts shape spacing). Qed.
Print Assumptions C66_accepted.
Theorem C66_pair {A} `{Num A} rows cols (dy dx : A) :
  exists g, grid_init [rows; cols] [dy; dx] = Ok g
  /\ number_of_rows g = rows + 2 /\ number_of_columns g = cols
  /\ length (x_of_column g) = cols /\ (forall j, j < cols -> nth j (x_of_column g) n0 = nmul (nofnat j) dx)
  /\ length (y_of_row g) = rows + 2 /\ (forall i, i < rows + 2 -> nth i (y_of_row g) n0 = nmul (nofnat i) dy)
  /\ node g "sediment_deposit__thickness" = Some (full (rows + 2) cols n0)
  /\ gval g "sea_level__elevation" = Some n0
  /\ el_number (layers g) = 0 /\ el_stacks (layers g) = full rows (cols - 2) [].
Proof. exact (init_pair rows cols dy dx). Qed.
Print Assumptions C66_pair.
Theorem C66_number {A} `{Num A} n (s : A) : grid_init [n] [s] = grid_init [1; n] [n1; s].
Proof. exact (init_one n s). Qed.
Print Assumptions C66_number.
Theorem C66_dictionary_shape {A} `{Num A} shape n_cols (spacing xy_spacing : option (list A)) :
  (forall s, shape = Some s -> grid_from_dict (mkGridParams shape n_cols spacing xy_spacing) = grid_from_dict (mkGridParams (Some s) None spacing xy_spacing))
  /\ (forall s, shape = None -> n_cols = Some s -> grid_from_dict (mkGridParams shape n_cols spacing xy_spacing) = grid_from_dict (mkGridParams (Some s) None spacing xy_spacing))
  /\ (shape = None -> n_cols = None -> grid_from_dict (mkGridParams shape n_cols spacing xy_spacing) = Err KeyError).
Proof. exact (from_dict_shape shape n_cols spacing xy_spacing). Qed.
Print Assumptions C66_dictionary_shape.
Theorem C66_dictionary_spacing {A} `{Num A} s (spacing xy_spacing : option (list A)) :
  (forall d, spacing = Some d -> grid_from_dict (mkGridParams (Some s) None spacing xy_spacing) = grid_init s d)
  /\ (forall d, spacing = None -> xy_spacing = Some [d] -> grid_from_dict (mkGridParams (Some s) None spacing xy_spacing) = grid_init s [d])
  /\ (forall dx dy, spacing = None -> xy_spacing = Some [dx; dy] -> grid_from_dict (mkGridParams (Some s) None spacing xy_spacing) = grid_init s [dy; dx])
  /\ (spacing = None -> xy_spacing = None -> grid_from_dict (mkGridParams (Some s) None spacing xy_spacing) = Err KeyError).
Proof. exact (from_dict_spacing s spacing xy_spacing). Qed.
Print Assumptions C66_dictionary_spacing.
Example C66_nonvacuous :
  (let* g := grid_from_dict (mkGridParams (Some [3; 5]) None None (Some [10; 10000]%Q)) in
   Ok (number_of_rows g, map Qred (x_of_column g), map Qred (y_of_row g)))
  = Ok (5, [0; 10; 20; 30; 40]%Q, [0; 10000; 20000; 30000; 40000]%Q).
Proof. vm_compute. reflexivity. Qed.

(** C67 *)
Theorem C67_read {A} `{Num A} (g : grid A) name f p : node g name = Some f -> shaped (g_rows g + 2) (g_cols g) f ->
  get_profile g name = Ok p ->
  shaped (g_rows g) (g_cols g) p /\ forall i j, i < g_rows g -> j < g_cols g -> at2 n0 p i j = at2 n0 f (S i) j.
Proof. exact (profile_rows g name f p). Qed.
Print Assumptions C67_read.
Theorem C67_write {A} `{Num A} (g g' : grid A) name f v : node g name = Some f -> shaped (g_rows g + 2) (g_cols g) f ->
  shaped (g_rows g) (g_cols g) v -> set_profile g name v = Ok g' ->
  get_profile g' name = Ok v
  /\ (exists f', node g' name = Some f' /\ shaped (g_rows g + 2) (g_cols g) f'
        /\ forall i j, i < g_rows g + 2 -> j < g_cols g ->
           at2 n0 f' i j = if ((1 <=? i) && (i <=? g_rows g))%bool then at2 n0 v (i - 1) j else at2 n0 f i j)
  /\ (forall other, other <> name -> node g' other = node g other)
  /\ at_grid g' = at_grid g /\ at_row g' = at_row g /\ layers g' = layers g /\ g_rows g' = g_rows g /\ g_cols g' = g_cols g.
Proof. exact (profile_written g g' name f v). Qed.
Print Assumptions C67_write.
Example C67_nonvacuous :
  (let* g := grid_init [2; 3] [1; 1]%Q in
   let* g' := set_profile g "sediment_deposit__thickness" [[1; 2; 3]; [4; 5; 6]]%Q in
   let* p := get_profile g' "sediment_deposit__thickness" in Ok (p, node g' "sediment_deposit__thickness"))
  = Ok ([[1; 2; 3]; [4; 5; 6]]%Q, Some [[0; 0; 0]; [1; 2; 3]; [4; 5; 6]; [0; 0; 0]]%Q).
Proof. vm_compute. reflexivity. Qed.

(** C84 *)
Definition C84_statement : Prop := forall (rows cols : nat) (xy : option (list Q)),
  xy = None \/ (exists d, xy = Some [d]) \/ (exists a b, xy = Some [a; b]) ->
  exists g, grid_from_dict (mkGridParams (Some [rows; cols]) None None xy) = Ok g.
Theorem C84_refuted : ~ C84_statement.
Proof. exact raster_dict_refuted. Qed.
Print Assumptions C84_refuted.
(* missing: a single number, and the default of xy_spacing *)
Theorem C84_partial {A} `{Num A} rows cols (a b : A) :
  exists g, grid_from_dict (mkGridParams (Some [rows; cols]) None None (Some [a; b])) = Ok g
  /\ (forall j, j < cols -> nth j (x_of_column g) n0 = nmul (nofnat j) a)
  /\ (forall i, i < rows + 2 -> nth i (y_of_row g) n0 = nmul (nofnat i) b).
Proof. exact (raster_dict rows cols a b). Qed.
Print Assumptions C84_partial.
