(** Creation of grids, and their profiles. *)
From Coq Require Import String List ZArith QArith Arith Lia Bool.
From Verif.Base Require Import Num Py Arr.
From Verif.Model Require Import Layers Grid.
From Verif.Proofs Require Import GridP.
Import ListNotations.
Local Open Scope nat_scope.

Section Any.
  Context {A : Type} `{Num A}.

  Lemma init_pair rows cols (dy dx : A) : exists g, grid_init [rows; cols] [dy; dx] = Ok g
    /\ number_of_rows g = rows + 2 /\ number_of_columns g = cols
    /\ length (x_of_column g) = cols /\ (forall j, j < cols -> nth j (x_of_column g) n0 = nmul (nofnat j) dx)
    /\ length (y_of_row g) = rows + 2 /\ (forall i, i < rows + 2 -> nth i (y_of_row g) n0 = nmul (nofnat i) dy)
    /\ node g "sediment_deposit__thickness" = Some (full (rows + 2) cols n0)
    /\ gval g "sea_level__elevation" = Some n0
    /\ el_number (layers g) = 0 /\ el_stacks (layers g) = full rows (cols - 2) [].
  Proof.
    eexists. split; [reflexivity|]. unfold x_of_column, y_of_row, number_of_rows, number_of_columns. cbn [g_rows g_cols g_dx g_dy layers].
    rewrite !map_length, !seq_length. do 3 (split; [reflexivity|]).
    split; [intros j Hj; rewrite nth_map' with (da := 0) by (rewrite seq_length; exact Hj); rewrite seq_nth by exact Hj; reflexivity|].
    split; [reflexivity|].
    split; [intros j Hj; rewrite nth_map' with (da := 0) by (rewrite seq_length; exact Hj); rewrite seq_nth by exact Hj; reflexivity|].
    repeat split.
  Qed.

  Theorem init_accepts (shape : list nat) (spacing : list A) :
    ((exists g, grid_init shape spacing = Ok g)
     <-> (length shape = 1 \/ length shape = 2) /\ length spacing = length shape)
    /\ (~ ((length shape = 1 \/ length shape = 2) /\ length spacing = length shape) -> grid_init shape spacing = Err ValueError).
  Proof.
    unfold grid_init.
    destruct shape as [|a [|b [|c shape]]], spacing as [|x [|y [|z spacing]]]; cbn [length Nat.eqb negb andb orb].
    all: try (split; [split; [intros [g X]; (discriminate X || (split; [lia|reflexivity]))|intros [X1 X2]; (lia || (eexists; reflexivity))]|]).
    all: try (intros X; (reflexivity || (exfalso; apply X; split; [lia|reflexivity]))).
    all: destruct (negb _); (split; [split; [intros [g X]; discriminate X|intros; lia]|reflexivity]).
  Qed.

  Theorem init_one n (s : A) : grid_init [n] [s] = grid_init [1; n] [n1; s].
  Proof. reflexivity. Qed.

  Theorem from_dict_shape shape n_cols (spacing xy_spacing : option (list A)) :
    (* the shape, n_cols if there is none; an error without both *)
    (forall s, shape = Some s -> grid_from_dict (mkGridParams shape n_cols spacing xy_spacing) = grid_from_dict (mkGridParams (Some s) None spacing xy_spacing))
    /\ (forall s, shape = None -> n_cols = Some s -> grid_from_dict (mkGridParams shape n_cols spacing xy_spacing) = grid_from_dict (mkGridParams (Some s) None spacing xy_spacing))
    /\ (shape = None -> n_cols = None -> grid_from_dict (mkGridParams shape n_cols spacing xy_spacing) = Err KeyError).
  Proof. split; [|split]; intros; subst; reflexivity. Qed.
  Theorem from_dict_spacing s (spacing xy_spacing : option (list A)) :
    (forall d, spacing = Some d -> grid_from_dict (mkGridParams (Some s) None spacing xy_spacing) = grid_init s d)
    /\ (forall d, spacing = None -> xy_spacing = Some [d] -> grid_from_dict (mkGridParams (Some s) None spacing xy_spacing) = grid_init s [d])
    /\ (forall dx dy, spacing = None -> xy_spacing = Some [dx; dy] -> grid_from_dict (mkGridParams (Some s) None spacing xy_spacing) = grid_init s [dy; dx])
    /\ (spacing = None -> xy_spacing = None -> grid_from_dict (mkGridParams (Some s) None spacing xy_spacing) = Err KeyError).
  Proof. repeat split; intros; subst; reflexivity. Qed.

  (** ** Profiles *)

  Theorem profile_rows (g : grid A) name f p : node g name = Some f -> shaped (g_rows g + 2) (g_cols g) f ->
    get_profile g name = Ok p ->
    shaped (g_rows g) (g_cols g) p /\ forall i j, i < g_rows g -> j < g_cols g -> at2 n0 p i j = at2 n0 f (S i) j.
  Proof.
    intros Hn Hs E. unfold get_profile, node_r in E. rewrite Hn in E. injection E as <-.
    split; [apply shaped_inner; exact Hs|]. intros i j Hi Hj. unfold at2. f_equal. apply nth_inner. destruct Hs. lia.
  Qed.

  Theorem profile_written (g g' : grid A) name f v : node g name = Some f -> shaped (g_rows g + 2) (g_cols g) f ->
    shaped (g_rows g) (g_cols g) v -> set_profile g name v = Ok g' ->
    get_profile g' name = Ok v
    /\ (exists f', node g' name = Some f' /\ shaped (g_rows g + 2) (g_cols g) f'
          /\ forall i j, i < g_rows g + 2 -> j < g_cols g ->
             at2 n0 f' i j = if ((1 <=? i) && (i <=? g_rows g))%bool then at2 n0 v (i - 1) j else at2 n0 f i j)
    /\ (forall other, other <> name -> node g' other = node g other)
    /\ at_grid g' = at_grid g /\ at_row g' = at_row g /\ layers g' = layers g /\ g_rows g' = g_rows g /\ g_cols g' = g_cols g.
  Proof.
    intros Hn [Hl Hs] [Hvl Hvs] E. unfold set_profile, node_r in E. rewrite Hn in E. cbn [bind] in E. injection E as <-.
    assert (Lv : length v = length f - 2) by lia. assert (L2 : 2 <= length f) by lia.
    assert (Hput : node (put_node g name (set_inner f v)) name = Some (set_inner f v)).
    { apply node_put_same. }
    split; [unfold get_profile, node_r; rewrite Hput; cbn [bind]; f_equal; apply inner_set_inner; assumption|].
    split; [|split; [intros other Ho; rewrite node_put_node; destruct (String.eqb_spec other name); [congruence|reflexivity]|repeat split]].
    exists (set_inner f v). split; [exact Hput|]. split.
    - split; [rewrite set_inner_length by assumption; exact Hl|]. intros r Hr. unfold set_inner in Hr.
      apply in_app_or in Hr. destruct Hr as [Hr|Hr].
      + apply Hs. rewrite <- (firstn_skipn 1 f); apply in_or_app; left; exact Hr.
      + apply in_app_or in Hr. destruct Hr as [Hr|Hr]; [apply Hvs; exact Hr|apply Hs; rewrite <- (firstn_skipn (length f - 1) f); apply in_or_app; right; exact Hr].
    - intros i j Hi Hj. unfold at2. rewrite nth_set_inner by lia.
      destruct (Nat.eqb_spec i 0) as [->|N0]; [reflexivity|].
      destruct (Nat.eqb_spec i (length f - 1)) as [E1|N1].
      + destruct (Nat.leb_spec 1 i), (Nat.leb_spec i (g_rows g)); cbn [andb]; try reflexivity; lia.
      + destruct (Nat.leb_spec 1 i), (Nat.leb_spec i (g_rows g)); cbn [andb]; try reflexivity; lia.
  Qed.
End Any.

(* a dictionary of a general raster grid: shape (rows, columns); xy_spacing
   absent, a number or a pair *)
Lemma raster_dict_refuted : ~ (forall (rows cols : nat) (xy : option (list Q)),
  xy = None \/ (exists d, xy = Some [d]) \/ (exists a b, xy = Some [a; b]) ->
  exists g, grid_from_dict (mkGridParams (Some [rows; cols]) None None xy) = Ok g).
Proof.
  intros C. destruct (C 3 5 (Some [10%Q])) as [g E]; [right; left; eexists; reflexivity|]. discriminate E.
Qed.
Lemma raster_dict {A} `{Num A} rows cols (a b : A) :
  exists g, grid_from_dict (mkGridParams (Some [rows; cols]) None None (Some [a; b])) = Ok g
  /\ (forall j, j < cols -> nth j (x_of_column g) n0 = nmul (nofnat j) a)
  /\ (forall i, i < rows + 2 -> nth i (y_of_row g) n0 = nmul (nofnat i) b).
Proof.
  destruct (init_pair rows cols b a) as [g [E [_ [_ [_ [X [_ [Y _]]]]]]]]. exists g. split; [exact E|]. split; assumption.
Qed.
