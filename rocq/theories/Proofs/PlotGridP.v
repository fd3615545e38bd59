(** What plot_grid plots. *)
From Coq Require Import String List ZArith Reals Arith Lia Lra Bool.
From Verif.Base Require Import Num Py Arr.
From Verif.Model Require Import Layers Grid Netcdf Sequence SequenceModel Interp Plot.
From Verif.Spec Require Import Profile Column Drawn.
From Verif.Proofs Require Import GridP InterpP NetcdfP OutputP OutputLayersP OutputRunsP PlotFileP.
Import ListNotations.
Local Open Scope nat_scope.

Section Any.
  Context {A : Type} `{Num A} {W : Type}.

  Lemma broadcast_wide (b c : list (option A)) : 2 <= length b -> length b < length c -> broadcast_add b c = Err ValueError.
  Proof.
    intros Hb Hc. unfold broadcast_add. destruct (Nat.eqb_spec (length b) (length c)) as [E|_]; [lia|].
    destruct b as [|? [|? ?]]; cbn in Hb; try lia. destruct c as [|? [|? ?]]; cbn in Hb, Hc; try lia; reflexivity.
  Qed.
  Lemma inner_len (l : list A) : length (inner l) = length l - 2.
  Proof. apply inner_length. Qed.

  (* a grid of several rows cannot be plotted *)
  Theorem several_rows_fail (s : sequence A W) st row : 2 <= g_rows (sq_grid s) -> 4 <= g_cols (sq_grid s) ->
    (forall b, node (sq_grid s) "bedrock_surface__elevation" = Some b ->
       shaped (g_rows (sq_grid s) + 2) (g_cols (sq_grid s)) b) ->
    exists e, plot_grid st s row = Err e.
  Proof.
    intros HR HC Hsh. unfold plot_grid, plot_grid_args. set (g := sq_grid s) in *.
    unfold get_profile, node_r. destruct (node g "bedrock_surface__elevation") as [b|] eqn:Eb; [|eexists; reflexivity].
    cbn [bind]. destruct (py_nth _ _) as [r|e] eqn:Er; [|eexists; reflexivity]. cbn [bind].
    assert (Lr : length r = g_cols g).
    { apply (proj2 (shaped_inner _ _ _ (Hsh b eq_refl))). apply py_nth_place in Er. destruct Er as [k0 [_ Er]]. apply nth_error_In in Er. exact Er. }
    rewrite broadcast_wide; [eexists; reflexivity| |].
    - rewrite map_length, inner_len. lia.
    - rewrite map_length, inner_len, repeat_length. nia.
  Qed.

  Lemma bind_ok {B C} (r : result B) (f : B -> result C) c : bind r f = Ok c -> exists b, r = Ok b /\ f b = Ok c.
  Proof. destruct r; cbn; [eauto|discriminate]. Qed.

  (* one row *)
  Theorem one_row_plotted (s : sequence A W) row p b shores edges : g_rows (sq_grid s) = 1 -> 3 <= g_cols (sq_grid s) ->
    shaped 1 (g_cols (sq_grid s) - 2) (el_stacks (layers (sq_grid s))) -> full_stacks (sq_grid s) ->
    node (sq_grid s) "bedrock_surface__elevation" = Some b -> shaped 3 (g_cols (sq_grid s)) b ->
    map re_shore (sq_at_layer_row s) = map (fun v => repeat v 3) shores ->
    map re_shelf_edge (sq_at_layer_row s) = map (fun v => repeat v 3) edges ->
    plot_grid_args s row = Ok p ->
    length (pa_elevation p) = el_number (layers (sq_grid s))
    /\ (forall k j, k < el_number (layers (sq_grid s)) -> j < g_cols (sq_grid s) - 2 ->
          nth j (nth k (pa_elevation p) []) None = Some (top_of_layer b (sq_grid s) 0 j k))
    /\ pa_x p = map (fun j => Some (nmul (nofnat (S j)) (g_dx (sq_grid s)))) (seq 0 (g_cols (sq_grid s) - 2))
    /\ interp_all (map ge_age (sq_at_layer_grid s)) shores
         (map (fun f => at2 None f 0 0) (layer_data (layers (sq_grid s)) "age")) = Ok (pa_shore p)
    /\ interp_all (map ge_age (sq_at_layer_grid s)) edges
         (map (fun f => at2 None f 0 0) (layer_data (layers (sq_grid s)) "age")) = Ok (pa_shelf_edge p).
  Proof.
    intros HR HC Sh Hfull Hb Sb Hrs Hre E. unfold plot_grid_args in E. set (g := sq_grid s) in *. rewrite HR in E.
    set (r := match row with Some r => r | None => _ end) in E.
    unfold get_profile, node_r in E. rewrite Hb in E. cbn [bind] in E.
    okstep E br Ebr. okstep E u Eu. clear u Eu. okstep E elev Eel.
    assert (Li : length (inner b) = 1) by (rewrite inner_length, (proj1 Sb); reflexivity).
    destruct (py_nth_place _ _ _ Ebr) as [k0 [Hpl Hk0]]. rewrite Li in Hpl.
    assert (Ek0 : k0 = 0) by (destruct Hpl; lia). subst k0.
    assert (Hbr : br = nth 1 b []).
    { apply (nth_error_nth _ _ []) in Hk0. rewrite <- Hk0. rewrite nth_inner by (rewrite (proj1 Sb); lia). reflexivity. }
    assert (Lbr : length br = g_cols g).
    { rewrite Hbr. apply (shaped_nth 3 (g_cols g)); [exact Sb|lia]. }
    rewrite Nat.mul_1_l in Eel.
    set (th := map (@concat _) (layer_data (layers g) "thickness")) in *.
    assert (Hth : forall x, In x th -> length x = g_cols g - 2).
    { intros x Hx. apply in_map_iff in Hx. destruct Hx as [f [<- Hf]].
      rewrite (concat_len 1 (g_cols g - 2)); [lia|]. eapply layer_data_shaped; [exact Sh|exact Hf]. }
    unfold layer_z in Eel. fold th in Eel. rewrite (cumsum_spec (g_cols g - 2)) in Eel; [|apply repeat_length|exact Hth].
    rewrite (add_bedrock (g_cols g - 2)) in Eel; [|rewrite map_length, inner_length; lia|].
    2:{ intros x Hx. apply in_map_iff in Hx. destruct Hx as [? [<- _]]. rewrite map_length, seq_length. reflexivity. }
    assert (Inj : forall B (x y : B), Ok x = Ok y -> x = y) by (intros B x y X; injection X; auto).
    apply Inj in Eel. rewrite map_map in Eel.
    assert (Lth : length th = el_number (layers g)) by (unfold th; rewrite map_length; apply layer_data_length).
    destruct (sq_at_layer_row s) as [|e0 es] eqn:Erows; [discriminate E|]. rewrite <- Erows in *.
    assert (Hrep : forall (v : option A), py_nth (repeat v 3) r = Ok v).
    { intros v. destruct Hpl as [_ [->| ->]]; reflexivity. }
    assert (Hmap : forall (f : row_entry A -> list (option A)) es vs, map f es = map (fun v => repeat v 3) vs ->
      mapM (fun e => py_nth (f e) r) es = Ok vs).
    { intros f. induction es0 as [|e es' IH]; intros [|v vs] X; try discriminate X; [reflexivity|]. cbn [map] in X.
      injection X as X1 X2. cbn [mapM]. rewrite X1. change [v; v; v] with (repeat v 3). rewrite Hrep. cbn [bind]. rewrite (IH vs X2). reflexivity. }
    assert (Hsh : mapM (fun e => py_nth (re_shore e) r) (sq_at_layer_row s) = Ok shores) by (apply Hmap; exact Hrs).
    assert (Hse : mapM (fun e => py_nth (re_shelf_edge e) r) (sq_at_layer_row s) = Ok edges) by (apply Hmap; exact Hre).
    rewrite Hsh, Hse in E. cbn [bind] in E.
    assert (Hage : mapM (fun l => py_nth (concat l) 0) (layer_data (layers g) "age") = Ok (map (fun f => at2 None f 0 0) (layer_data (layers g) "age"))).
    { apply mapM_map. intros f Hf. assert (Sf := layer_data_shaped _ _ _ _ _ Sh Hf).
      destruct f as [|x [|? ?]]; try (destruct Sf as [X _]; discriminate X). cbn [concat]. rewrite app_nil_r.
      assert (Lx : length x = g_cols g - 2) by (apply (proj2 Sf); left; reflexivity).
      destruct (py_nth_at x 0 0) as [v [Ev Nv]]; [split; [lia|left; reflexivity]|]. rewrite Ev. f_equal. symmetry.
      apply nth_error_nth. exact Nv. }
    rewrite Hage in E. cbn [bind] in E. okstep E sh Es. okstep E ed Ee. injection E as <-. cbn [pa_elevation pa_x pa_shore pa_shelf_edge].
    split; [rewrite <- Eel, map_length, seq_length; exact Lth|].
    split; [|split; [|split; reflexivity]].
    - intros k j Hk Hj. rewrite <- Eel. rewrite nth_map' with (da := 0) by (rewrite seq_length, Lth; exact Hk).
      rewrite seq_nth by (rewrite Lth; exact Hk). change (0 + k) with k.
      rewrite nth_map' with (da := 0) by (rewrite seq_length; exact Hj). rewrite seq_nth by exact Hj. change (0 + j) with j.
      rewrite nth_map' with (da := 0) by (rewrite seq_length; exact Hj). rewrite seq_nth by exact Hj. change (0 + j) with j.
      rewrite nth_repeat' by exact Hj.
      rewrite nth_map' with (da := n0) by (rewrite inner_length; lia). rewrite nth_inner by lia.
      unfold top_of_layer.
      assert (X : map (fun x => nth j x None) (firstn (S k) th) = map (fun f => at2 None f 0 j) (firstn (S k) (layer_data (layers g) "thickness"))).
      { unfold th. rewrite firstn_map, map_map. apply map_ext_in. intros f Hf.
        assert (Sf : shaped 1 (g_cols g - 2) f).
        { eapply layer_data_shaped; [exact Sh|]. rewrite <- (firstn_skipn (S k) (layer_data (layers g) "thickness")).
          apply in_or_app. left. exact Hf. }
        destruct f as [|x [|? ?]]; try (destruct Sf as [Y _]; discriminate Y). cbn [concat]. rewrite app_nil_r. reflexivity. }
      rewrite X.
      assert (T := thickness_layers g 0 j ltac:(rewrite HR; exact Sh) Hfull ltac:(rewrite HR; lia) Hj k Hk).
      change (@n0 (option A) _) with (Some (@n0 A _)). rewrite T, Hbr. reflexivity.
    - unfold x_of_column. rewrite inner_seq by lia. rewrite map_map. reflexivity.
  Qed.
End Any.

(** ** interpolation at a recorded time *)
Lemma reached_lift {A} `{Num A} (x : list A) v : reached (map Some x) (Some v) = reached x v.
Proof.
  induction x as [|a x IH]; [reflexivity|]. cbn [map reached nltb Num_nan test2]. destruct (nltb v a); [reflexivity|].
  f_equal. exact IH.
Qed.

Lemma mapM_nth {B C} (f : B -> result C) l l' d d' k : mapM f l = Ok l' -> k < length l -> f (nth k l d) = Ok (nth k l' d').
Proof.
  revert l' k. induction l as [|b l IH]; intros l' k E Hk; [cbn in Hk; lia|]. cbn [mapM] in E.
  okstep E c Ec. okstep E cs Ecs. injection E as <-. destruct k as [|k]; [exact Ec|]. cbn in Hk |- *. apply IH; [reflexivity|lia].
Qed.

(* at a recorded time the recorded value, NaN or not *)
Theorem interp_all_recorded (times : list R) (y ages l : list (option R)) k m :
  increasing times -> length y = length times ->
  interp_all times y ages = Ok l -> k < length ages -> m < length times -> nth k ages None = Some (nth m times 0%R) ->
  nth k l None = nth m y None.
Proof.
  intros Hinc Ly E Hk Hm Ha.
  unfold interp_all in E. apply (mapM_nth _ _ _ None None k) in E; [|exact Hk]. rewrite Ha in E.
  unfold interp_linear in E. rewrite map_length, reached_lift in E.
  rewrite !(nth_map' Some times) with (da := 0%R) in E by lia.
  assert (Hr : reached times (nth m times 0%R) = S m).
  { destruct (Nat.eq_dec (S m) (length times)) as [El|Nl].
    - rewrite reached_all; [symmetry; exact El|]. intros i Hi. apply increasing_le'; [exact Hinc|lia].
    - apply reached_at; [exact Hinc|lia|]. split; [lra|apply Hinc; lia]. }
  rewrite Hr in E. cbn [Nat.sub] in E. rewrite Nat.sub_0_r in E. cbn [nltb neqb Num_nan test2 Num_R] in E.
  assert (L0 : (nth 0 times 0 <= nth m times 0)%R) by (apply increasing_le'; [exact Hinc|lia]).
  assert (L1 : (nth m times 0 <= nth (length times - 1) times 0)%R) by (apply increasing_le'; [exact Hinc|lia]).
  rewrite (proj2 (Rltb_false _ _) L0), (proj2 (Rltb_false _ _) L1), !Reqb_refl' in E. cbn [negb] in E.
  rewrite (nth_map' Some times) with (da := 0%R) in E by lia. cbn [test2] in E. rewrite Reqb_refl', orb_true_r in E.
  injection E as <-. apply nth_indep. lia.
Qed.
