(** Facts about writing files. *)
From Coq Require Import String List ZArith Arith Lia Bool.
From Verif.Base Require Import Num Py Arr.
From Verif.Model Require Import Layers Grid Netcdf OutputWriter.
From Verif.Spec Require Import Recording.
Import ListNotations.

(* take an Ok apart *)
Ltac okstep E x H :=
  match type of E with
  | bind ?r _ = Ok _ => destruct r as [x|] eqn:H; cbn [bind] in E; [|discriminate E]
  end.

Lemma nth_put_record {B} i (v : B) var k :
  nth k (put_record i v var) None = if Nat.eqb k i then Some v else nth k var None.
Proof.
  unfold put_record.
  assert (L : length (firstn i (var ++ repeat None (i - length var))) = i).
  { rewrite firstn_length, app_length, repeat_length. lia. }
  destruct (Nat.eqb_spec k i) as [->|Hk].
  - rewrite app_nth2 by lia. rewrite L, Nat.sub_diag. reflexivity.
  - destruct (Nat.lt_ge_cases k i) as [Hl|Hl].
    + rewrite app_nth1 by lia. rewrite nth_firstn' by lia.
      destruct (Nat.lt_ge_cases k (length var)) as [Hv|Hv].
      * apply app_nth1. exact Hv.
      * rewrite app_nth2 by lia. rewrite (nth_overflow var) by lia.
        destruct (Nat.lt_ge_cases (k - length var) (i - length var)); [apply nth_repeat'; assumption|].
        apply nth_overflow. rewrite repeat_length. assumption.
    + rewrite app_nth2 by lia. rewrite L. destruct (k - i) as [|j] eqn:Ej; [lia|].
      change (nth (S j) (Some v :: ?r) None) with (nth j r (@None B)). rewrite nth_skipn'. f_equal. lia.
Qed.

(** names of variables *)
Lemma append_inj a : forall b c, (a ++ b = a ++ c)%string -> b = c.
Proof. induction a as [|x a IH]; intros b c E; [exact E|]. injection E as E. apply IH, E. Qed.
Lemma var_name_inj loc n1 n2 : var_name n1 loc = var_name n2 loc -> n1 = n2.
Proof.
  unfold var_name. intros E. apply append_inj in E. apply append_inj in E. apply append_inj in E. exact E.
Qed.
Definition written_locations : list string := ["node"; "link"; "patch"; "corner"; "face"; "cell"; "grid"; "row"; "column"]%string.
Lemma var_name_loc l1 l2 n1 n2 : In l1 written_locations -> In l2 written_locations ->
  var_name n1 l1 = var_name n2 l2 -> l1 = l2 /\ n1 = n2.
Proof.
  intros H1 H2 E. assert (X : l1 = l2).
  { unfold written_locations in *. cbn [In] in H1, H2.
    repeat (destruct H1 as [H1|H1]; [subst l1; repeat (destruct H2 as [H2|H2]; [subst l2; first [reflexivity|discriminate E]|]); destruct H2|]).
    destruct H1. }
  split; [exact X|]. subst l2. exact (var_name_inj _ _ _ E).
Qed.

Lemma mem_In x l : mem x l = true <-> In x l.
Proof.
  unfold mem. rewrite existsb_exists. split.
  - intros [y [Hy E]]. apply String.eqb_eq in E. subst. exact Hy.
  - intros Hx. exists x. split; [exact Hx|apply String.eqb_refl].
Qed.

Section Any.
  Context {A : Type} `{Num A}.

  Lemma dget_dset_s {V} (d : list (string * V)) k v k' :
    dget String.eqb (dset String.eqb d k v) k' = if String.eqb k' k then Some v else dget String.eqb d k'.
  Proof. apply dget_dset. intros a b. apply String.eqb_eq. Qed.

  (* the values of a field that are written *)
  Definition selected (ids : selection) (v : values A) : result (list (option A)) :=
    match v with Vector l => take ids l | Scalar v => Ok [v] end.

  Lemma record_put (d : dataset A) var i v var' k :
    record_of (set_fields d (dset String.eqb (ds_fields d) var (put_record i v (var_of d var)))) var' k
    = if (String.eqb var' var && Nat.eqb k i)%bool then Some v else record_of d var' k.
  Proof.
    unfold record_of, var_of at 1. cbn [set_fields ds_fields]. rewrite dget_dset_s.
    destruct (String.eqb_spec var' var) as [->|E]; cbn [andb]; [|reflexivity].
    apply nth_put_record.
  Qed.

  (* the same file up to field variables *)
  Definition same_rest (d d' : dataset A) : Prop :=
    ds_time d' = ds_time d /\ ds_dims d' = ds_dims d /\ ds_coords d' = ds_coords d /\ ds_layers d' = ds_layers d.
  Lemma same_rest_refl d : same_rest d d.
  Proof. repeat split. Qed.
  Lemma same_rest_trans d1 d2 d3 : same_rest d1 d2 -> same_rest d2 d3 -> same_rest d1 d3.
  Proof. intros [a [b [c e]]] [a' [b' [c' e']]]. repeat split; congruence. Qed.

  Definition writes (g : gview A) (loc : string) (ids : selection) (names : list string) (d d' : dataset A) : Prop :=
    same_rest d d'
    /\ (forall v, (forall name, In name names -> v <> var_name name loc) ->
          dget String.eqb (ds_fields d') v = dget String.eqb (ds_fields d) v)
    /\ (forall v i, i <> length (ds_time d) - 1 -> record_of d' v i = record_of d v i)
    /\ (forall name, In name names -> exists n x vals l,
          dget String.eqb (ds_dims d) loc = Some n /\ field_at g loc name = Some x /\ selected ids x = Ok vals
          /\ fit n vals = Ok l /\ record_of d' (var_name name loc) (length (ds_time d) - 1) = Some l
          /\ din String.eqb (ds_fields d') (var_name name loc) = true).

  Lemma set_field_writes g loc ids names d d' : set_field g loc ids names d = Ok d' ->
    exists fs, fields_at g loc = Ok fs /\ writes g loc ids (fields_to_write loc names fs) d d'.
  Proof.
    unfold set_field. intros E. okstep E fs E0. exists fs. split; [reflexivity|].
    assert (Hf : forall name, field_at g loc name = dget String.eqb fs name).
    { intros name. unfold field_at. unfold fields_at in E0. destruct (dget String.eqb (gv_fields g) loc); congruence. }
    clear E0. revert E. generalize (fields_to_write loc names fs) as ns. intros ns. revert d.
    induction ns as [|name ns IH]; intros d E; cbn [foldM] in E.
    - injection E as <-. split; [apply same_rest_refl|]. split; [reflexivity|]. split; [reflexivity|]. intros name [].
    - okstep E d1 E1.
      destruct (dget String.eqb (ds_dims d) loc) as [n|] eqn:En; [|discriminate E1].
      okstep E1 vals E0. okstep E1 v E2. injection E1 as <-.
      apply IH in E. destruct E as [Hs [Hv [Hr Hn]]]. clear IH.
      set (d1 := set_fields d _) in *.
      assert (Hd1 : forall v' k, record_of d1 v' k
                = if (String.eqb v' (var_name name loc) && Nat.eqb k (length (ds_time d) - 1))%bool then Some v else record_of d v' k)
        by (intros v' k; apply record_put).
      assert (S1 : same_rest d d1) by (repeat split).
      split; [exact (same_rest_trans _ _ _ S1 Hs)|].
      change (ds_time d1) with (ds_time d) in *. change (ds_dims d1) with (ds_dims d) in *. split; [|split].
      + intros v' Hv'. rewrite (Hv v') by (intros nm Hnm; apply Hv'; right; exact Hnm).
        unfold d1. cbn [set_fields ds_fields]. rewrite dget_dset_s.
        destruct (String.eqb_spec v' (var_name name loc)) as [->|]; [|reflexivity].
        exfalso. apply (Hv' name); [left; reflexivity|reflexivity].
      + intros v' i Hi. rewrite (Hr v' i Hi), Hd1.
        destruct (Nat.eqb_spec i (length (ds_time d) - 1)); [contradiction|]. rewrite andb_false_r. reflexivity.
      + intros nm Hnm. destruct (in_dec string_dec nm ns) as [Hin|Hnin].
        * destruct (Hn nm Hin) as [n' [x [vals' [l' R]]]]. exists n', x, vals', l'. exact R.
        * destruct Hnm as [<-|Hnm]; [|contradiction].
          destruct (dget String.eqb fs name) as [x|] eqn:Ex; [|discriminate E0].
          exists n, x, vals, v. split; [exact En|]. split; [rewrite Hf; exact Ex|].
          split; [destruct x; exact E0|]. split; [exact E2|].
          assert (X : dget String.eqb (ds_fields d') (var_name name loc) = dget String.eqb (ds_fields d1) (var_name name loc)).
          { apply Hv. intros nm' Hin' E'. apply var_name_inj in E'. subst nm'. contradiction. }
          split.
          -- unfold record_of, var_of. rewrite X.
             change (record_of d1 (var_name name loc) (length (ds_time d) - 1) = Some v).
             rewrite Hd1, String.eqb_refl, Nat.eqb_refl. reflexivity.
          -- unfold din. rewrite X. unfold d1. cbn [set_fields ds_fields]. rewrite dget_dset_s, String.eqb_refl. reflexivity.
  Qed.

  (** layers *)
  Definition same_fields (d d' : dataset A) : Prop :=
    ds_time d' = ds_time d /\ ds_dims d' = ds_dims d /\ ds_coords d' = ds_coords d /\ ds_fields d' = ds_fields d.

  Lemma layer_var_put (d : dataset A) name x name' :
    layer_var (set_lays d (dset String.eqb (ds_layers d) (var_name name "layer") x)) name'
    = if String.eqb name' name then x else layer_var d name'.
  Proof.
    unfold layer_var. cbn [set_lays ds_layers]. rewrite dget_dset_s.
    destruct (String.eqb_spec name' name) as [->|E]; [rewrite String.eqb_refl; reflexivity|].
    destruct (String.eqb_spec (var_name name' "layer") (var_name name "layer")) as [E'|]; [|reflexivity].
    apply var_name_inj in E'. contradiction.
  Qed.

  Lemma put_first_again {B} (l : list B) var : put_first l (put_first l var) = put_first l var.
  Proof.
    unfold put_first. f_equal. rewrite skipn_app, map_length, Nat.sub_diag.
    rewrite skipn_all2 by (rewrite map_length; lia). reflexivity.
  Qed.

  Lemma set_layers_writes g (d d' : dataset A) : set_layers_vars g d = Ok d' ->
    same_fields d d'
    /\ exists r c, dget String.eqb (ds_dims d) "row"%string = Some r /\ dget String.eqb (ds_dims d) "column"%string = Some c
       /\ (forall name, ~ In name (el_tracking (gv_layers g) ++ ["thickness"%string]) -> layer_var d' name = layer_var d name)
       /\ forall name, In name (el_tracking (gv_layers g) ++ ["thickness"%string]) ->
            exists l, fit_layers r c (gv_rows g) (gv_cols g - 2) (layer_data (gv_layers g) name) = Ok l
              /\ layer_var d' name = put_first l (layer_var d name).
  Proof.
    unfold set_layers_vars. destruct (dget _ (ds_dims d) "row"%string) as [r|] eqn:Er; [|discriminate].
    destruct (dget _ (ds_dims d) "column"%string) as [c|] eqn:Ec; [|discriminate].
    intros E. cut (same_fields d d' /\
       ((forall name, ~ In name (el_tracking (gv_layers g) ++ ["thickness"%string]) -> layer_var d' name = layer_var d name)
       /\ forall name, In name (el_tracking (gv_layers g) ++ ["thickness"%string]) ->
            exists l, fit_layers r c (gv_rows g) (gv_cols g - 2) (layer_data (gv_layers g) name) = Ok l
              /\ layer_var d' name = put_first l (layer_var d name))).
    { intros [S [a b]]. split; [exact S|]. exists r, c. auto. }
    clear Er Ec. revert E. generalize (el_tracking (gv_layers g) ++ ["thickness"%string])%list as ns. intros ns. revert d.
    induction ns as [|name ns IH]; intros d E; cbn [foldM] in E.
    - injection E as <-. split; [repeat split|]. split; [reflexivity|]. intros name [].
    - okstep E d1 E0. okstep E0 x Ex. injection E0 as <-.
      apply IH in E. destruct E as [Hs [Hn Hw]]. clear IH. set (d1 := set_lays d _) in *.
      assert (H1 : forall nm, layer_var d1 nm = if String.eqb nm name then put_first x (layer_var d name) else layer_var d nm)
        by (intros nm; apply layer_var_put).
      split; [exact Hs|]. split.
      + intros nm Hnm. rewrite Hn by (intros X; apply Hnm; right; exact X). rewrite H1.
        destruct (String.eqb_spec nm name) as [->|]; [|reflexivity]. exfalso. apply Hnm. left. reflexivity.
      + intros nm Hnm. destruct (in_dec string_dec nm ns) as [Hin|Hnin].
        * destruct (Hw nm Hin) as [l [E1 E2]]. exists l. split; [exact E1|]. rewrite E2, H1.
          destruct (String.eqb_spec nm name) as [->|]; [|reflexivity].
          assert (l = x) by congruence. subst l. apply put_first_again.
        * destruct Hnm as [<-|Hnm]; [|contradiction]. exists x. split; [exact Ex|].
          rewrite (Hn name Hnin), H1, String.eqb_refl. reflexivity.
  Qed.

  Lemma put_first_cases {B} (l : list B) var :
    put_first l var = map Some l ++ skipn (length l) var /\ (length var <= length l -> put_first l var = map Some l).
  Proof.
    split; [reflexivity|]. intros Hl. unfold put_first. rewrite skipn_all2 by exact Hl. apply app_nil_r.
  Qed.

  (** all the locations of one write *)
  Lemma field_list_writes g (ids : string -> selection) names_at : NoDup (map fst names_at) ->
    incl (map fst names_at) written_locations -> forall d d',
    foldM (fun d ln => set_field g (fst ln) (ids (fst ln)) (snd ln) d) names_at d = Ok d' ->
    same_rest d d'
    /\ (forall v, (forall loc ns fs name, In (loc, ns) names_at -> fields_at g loc = Ok fs ->
                     In name (fields_to_write loc ns fs) -> v <> var_name name loc) ->
          dget String.eqb (ds_fields d') v = dget String.eqb (ds_fields d) v)
    /\ (forall v i, i <> length (ds_time d) - 1 -> record_of d' v i = record_of d v i)
    /\ (forall loc ns, In (loc, ns) names_at -> exists fs, fields_at g loc = Ok fs
          /\ forall name, In name (fields_to_write loc ns fs) -> exists n x vals l,
          dget String.eqb (ds_dims d) loc = Some n /\ field_at g loc name = Some x /\ selected (ids loc) x = Ok vals
          /\ fit n vals = Ok l /\ record_of d' (var_name name loc) (length (ds_time d) - 1) = Some l
          /\ din String.eqb (ds_fields d') (var_name name loc) = true).
  Proof.
    induction names_at as [|[loc ns] rest IH]; intros Hnd Hincl d d' E; cbn [foldM] in E.
    - injection E as <-. split; [apply same_rest_refl|]. split; [reflexivity|]. split; [reflexivity|]. intros loc ns [].
    - okstep E d1 E1. cbn [fst snd] in E1. cbn [map fst] in Hnd. inversion Hnd as [|? ? Hnin Hnd']; subst.
      assert (Hincl' : incl (map fst rest) written_locations) by (intros x Hx; apply Hincl; right; exact Hx).
      assert (Hloc : In loc written_locations) by (apply Hincl; left; reflexivity).
      apply set_field_writes in E1. destruct E1 as [fs [Efs [S1 [V1 [R1 N1]]]]].
      destruct (IH Hnd' Hincl' _ _ E) as [S2 [V2 [R2 N2]]]. clear IH.
      assert (T1 : ds_time d1 = ds_time d) by apply S1. assert (D1 : ds_dims d1 = ds_dims d) by apply S1.
      rewrite T1, ?D1 in *. split; [exact (same_rest_trans _ _ _ S1 S2)|]. split; [|split].
      + intros v Hv. rewrite V2, V1; [reflexivity| |].
        * intros name Hn. apply (Hv loc ns fs name); [left; reflexivity|exact Efs|exact Hn].
        * intros l' n' f' nm Hin. apply (Hv l' n' f' nm). right. exact Hin.
      + intros v i Hi. rewrite R2, R1 by exact Hi. reflexivity.
      + intros l' n' [X|Hin].
        * injection X as <- <-. exists fs. split; [exact Efs|]. intros name Hname.
          destruct (N1 name Hname) as [n [x [vals [l [a [b [c [e [f g']]]]]]]]].
          exists n, x, vals, l. do 4 (split; [assumption|]).
          assert (X : dget String.eqb (ds_fields d') (var_name name loc) = dget String.eqb (ds_fields d1) (var_name name loc)).
          { apply V2. intros l2 n2 f2 nm2 Hin2 _ _ X. apply var_name_loc in X; [|exact Hloc|].
            - destruct X as [<- _]. apply Hnin. apply in_map_iff. exists (loc, n2). split; [reflexivity|exact Hin2].
            - apply Hincl'. apply in_map_iff. exists (l2, n2). split; [reflexivity|exact Hin2]. }
          unfold record_of, var_of, din. rewrite X. split; [exact f|exact g'].
        * destruct (N2 l' n' Hin) as [f2 [Ef2 N2']]. exists f2. split; [exact Ef2|]. intros name Hname.
          destruct (N2' name Hname) as [n [x [vals [l Rr]]]]. exists n, x, vals, l. exact Rr.
  Qed.

  (* a new file has no variables yet *)
  Lemma coordinates_empty (g : gview A) ids locs : forall d d', foldM (fun d loc => set_grid_coordinates g loc (ids loc) d) locs d = Ok d' ->
    ds_time d' = ds_time d /\ ds_fields d' = ds_fields d /\ ds_layers d' = ds_layers d
    /\ incl locs written_locations.
  Proof.
    induction locs as [|loc locs IH]; intros d d' E; cbn [foldM] in E.
    - injection E as <-. repeat split. intros x [].
    - okstep E d1 E1. apply IH in E. destruct E as [a [b [c e]]].
      unfold set_grid_coordinates in E1. destruct (mem loc known_locations) eqn:Em; [|discriminate E1].
      assert (X : ds_time d1 = ds_time d /\ ds_fields d1 = ds_fields d /\ ds_layers d1 = ds_layers d).
      { destruct (String.eqb loc "grid").
        - injection E1 as <-. destruct (din _ _ _); repeat split.
        - okstep E1 xy Exy. destruct (din _ _ _); [discriminate E1|]. injection E1 as <-. repeat split. }
      destruct X as [a' [b' c']]. do 3 (split; [congruence|]).
      intros x [<-|Hx]; [apply mem_In in Em; exact Em|exact (e x Hx)].
  Qed.

  Lemma fit_same {B} n (l l' : list B) : length l = n -> fit n l = Ok l' -> l' = l.
  Proof. intros Hl. unfold fit. rewrite Hl, Nat.eqb_refl. congruence. Qed.

  (** One write by an OutputWriter. *)
  Definition writer_ids (rows : list Z) (g : gview A) : ids_arg :=
    IdsAt [("row"%string, Ids rows); ("column"%string, Ids (map Z.of_nat (seq 0 (gv_cols g - 2))))].
  Definition writer_write (g : gview A) (t : A) (rows : list Z) (fields : list string) (d : option (dataset A)) : result (dataset A) :=
    write_dataset g t default_at (writer_ids rows g) (NamesAt [("node"%string, Names fields)]) true d.

  (* the file before its first record *)
  Definition is_header (g : gview A) (rows : list Z) (d0 : dataset A) : Prop :=
    ds_time d0 = [] /\ ds_fields d0 = [] /\ ds_layers d0 = []
    /\ exists ys xs, take (Ids rows) (gv_y_of_row g) = Ok ys
       /\ take (Ids (map Z.of_nat (seq 0 (gv_cols g - 2)))) (gv_x_of_column g) = Ok xs
       /\ ds_dims d0 = [("row", length ys); ("column", length xs); ("node", length (gv_xy g "node"));
                        ("link", length (gv_xy g "link")); ("face", length (gv_xy g "face"));
                        ("cell", length (gv_xy g "cell")); ("grid", 1)]%string
       /\ ds_coords d0 = flat_map (fun l => [("x_of_" ++ fst l, map fst (snd l)); ("y_of_" ++ fst l, map snd (snd l))]%string)
            ([("row", map (fun y => (None, Some y)) ys); ("column", map (fun x => (Some x, None)) xs)]%string
             ++ map (fun loc => (loc, map (fun p => (Some (fst p), Some (snd p))) (gv_xy g loc))) ["node"; "link"; "face"; "cell"]%string).

  Lemma header_spec g rows d0 :
    foldM (fun d loc => set_grid_coordinates g loc (ids_of default_at (writer_ids rows g) loc) d)
      ("row" :: "column" :: default_at)%string ds_empty = Ok d0 -> is_header g rows d0.
  Proof.
    intros E. destruct (coordinates_empty _ _ _ _ _ E) as [a [b [c _]]].
    split; [exact a|]. split; [exact b|]. split; [exact c|]. clear a b c.
    unfold default_at, writer_ids, ids_of in E. cbn -[take map] in E.
    okstep E d1 E1. okstep E1 xy E0. okstep E0 ys Ey. injection E0 as <-. injection E1 as <-. exists ys.
    okstep E d2 E2. okstep E2 xy E0. okstep E0 xs Ex. injection E0 as <-. cbn -[take map seq Nat.sub length] in E2. injection E2 as <-. exists xs.
    split; [reflexivity|]. split; [first [exact Ex|reflexivity]|].
    cbn -[map seq Nat.sub length] in E. injection E as <-. cbn -[map length flat_map]. rewrite !map_length.
    split; [reflexivity|]. cbn [flat_map map app fst snd]. reflexivity.
  Qed.

  Definition written_names (fields : list string) (g : gview A) (loc : string) : list string :=
    match fields_at g loc with
    | Ok fs => fields_to_write loc
                 (if String.eqb loc "node" then fields else if String.eqb loc "row" then ["x_of_shore"; "x_of_shelf_edge"]%string else []) fs
    | Err _ => []
    end.

  Lemma writer_write_spec g t rows fields d d' : writer_write g t rows fields d = Ok d' ->
    exists d0, (match d with Some d => d0 = d | None => is_header g rows d0 end)
    /\ ds_time d' = ds_time d0 ++ [t] /\ ds_dims d' = ds_dims d0 /\ ds_coords d' = ds_coords d0
    /\ (forall v i, i < length (ds_time d0) -> record_of d' v i = record_of d0 v i)
    /\ (forall v, (forall loc name, In loc ("row"%string :: default_at) -> In name (written_names fields g loc) -> v <> var_name name loc) ->
          dget String.eqb (ds_fields d') v = dget String.eqb (ds_fields d0) v)
    /\ (forall loc name, In loc ("row"%string :: default_at) -> In name (written_names fields g loc) -> exists n x vals l,
          dget String.eqb (ds_dims d0) loc = Some n /\ field_at g loc name = Some x
          /\ selected (if String.eqb loc "row" then Ids rows else All) x = Ok vals /\ fit n vals = Ok l
          /\ record_of d' (var_name name loc) (length (ds_time d0)) = Some l)
    /\ exists r c, dget String.eqb (ds_dims d0) "row"%string = Some r /\ dget String.eqb (ds_dims d0) "column"%string = Some c
       /\ (forall name, ~ In name (el_tracking (gv_layers g) ++ ["thickness"%string]) -> layer_var d' name = layer_var d0 name)
       /\ forall name, In name (el_tracking (gv_layers g) ++ ["thickness"%string]) ->
            exists l, fit_layers r c (gv_rows g) (gv_cols g - 2) (layer_data (gv_layers g) name) = Ok l
              /\ layer_var d' name = put_first l (layer_var d0 name).
  Proof.
    unfold writer_write, write_dataset. intros E. okstep E names_at En.
    assert (Hn : names_at = [("node", fields); ("link", []); ("face", []); ("cell", []); ("grid", [])]%string).
    { unfold default_at in En. cbn in En. congruence. }
    subst names_at. clear En.
    okstep E d0 E0. exists d0. split.
    { destruct d as [d|]; [congruence|]. apply header_spec. exact E0. }
    clear E0. set (d1 := set_times d0 (ds_time d0 ++ [t])) in E. okstep E d2 E2. okstep E d3 E3.
    assert (Hl : length (ds_time d1) - 1 = length (ds_time d0)) by (cbn; rewrite app_length; cbn; lia).
    set (names_at := [("node", fields); ("link", []); ("face", []); ("cell", []); ("grid", [])]%string) in E2.
    assert (P1 : NoDup (map fst names_at)) by (repeat constructor; cbn; intuition discriminate).
    assert (P2 : incl (map fst names_at) written_locations) by (intros x; unfold written_locations; cbn [names_at map fst In]; tauto).
    destruct (field_list_writes g (ids_of default_at (writer_ids rows g)) names_at P1 P2 _ _ E2) as [S2 [V2 [R2 N2]]].
    apply set_field_writes in E3. destruct E3 as [fsr [Er [S3 [V3 [R3 N3]]]]].
    apply set_layers_writes in E. destruct E as [S4 [r [c [Dr [Dc [L0 L1]]]]]].
    assert (S23 := same_rest_trans _ _ _ S2 S3).
    assert (T2 : ds_time d2 = ds_time d1) by apply S2. rewrite T2, Hl in R3, N3. rewrite Hl in R2, N2.
    assert (Df : ds_fields d' = ds_fields d3) by apply S4.
    assert (Rf : forall v i, record_of d' v i = record_of d3 v i) by (intros v i; unfold record_of, var_of; rewrite Df; reflexivity).
    assert (D2 : ds_dims d2 = ds_dims d0) by apply S2.
    assert (D3 : ds_dims d3 = ds_dims d0) by apply S23.
    assert (Lv : forall name, layer_var d3 name = layer_var d0 name).
    { intros name. unfold layer_var. replace (ds_layers d3) with (ds_layers d0); [reflexivity|]. symmetry. apply S23. }
    split; [transitivity (ds_time d3); [apply S4|apply S23]|].
    split; [transitivity (ds_dims d3); [apply S4|apply S23]|].
    split; [transitivity (ds_coords d3); [apply S4|apply S23]|].
    split; [intros v i Hi; rewrite Rf, R3, R2 by lia; reflexivity|].
    split.
    { intros v Hv. rewrite Df, V3, V2; [reflexivity| |].
      - intros loc ns fs name Hin Efs Hname. apply (Hv loc name).
        + right. cbn in Hin. unfold default_at. cbn [In]. intuition congruence.
        + unfold written_names. rewrite Efs. cbn in Hin.
          repeat (destruct Hin as [Hin|Hin]; [injection Hin as <- <-; exact Hname|]). destruct Hin.
      - intros name Hname. apply (Hv "row"%string name); [left; reflexivity|]. unfold written_names. rewrite Er. exact Hname. }
    split.
    { intros loc name Hloc Hname. rewrite Rf. destruct Hloc as [<-|Hloc].
      - unfold written_names in Hname. rewrite Er in Hname. destruct (N3 name Hname) as [n [x [vals [l [a [b [cc [e [f _]]]]]]]]].
        exists n, x, vals, l. rewrite D2 in a. do 4 (split; [assumption|]). exact f.
      - assert (Hin : In (loc, if String.eqb loc "node" then fields else []) [("node", fields); ("link", []); ("face", []); ("cell", []); ("grid", [])]%string).
        { unfold default_at in Hloc. cbn [In] in Hloc.
          repeat (destruct Hloc as [<-|Hloc]; [cbn; tauto|]). destruct Hloc. }
        assert (Hlr : String.eqb loc "row" = false).
        { unfold default_at in Hloc. cbn [In] in Hloc. repeat (destruct Hloc as [<-|Hloc]; [reflexivity|]). destruct Hloc. }
        destruct (N2 loc _ Hin) as [fs [Efs N2']]. unfold written_names in Hname. rewrite Efs, Hlr in Hname.
        destruct (N2' name Hname) as [n [x [vals [l [a [b [cc [e [f gg]]]]]]]]].
        exists n, x, vals, l. rewrite Hlr. split; [exact a|]. split; [exact b|]. split.
        { revert cc. unfold writer_ids, ids_of. unfold default_at in Hloc. cbn [In] in Hloc.
          repeat (destruct Hloc as [<-|Hloc]; [exact (fun h => h)|]). destruct Hloc. }
        split; [exact e|]. etransitivity; [|exact f]. unfold record_of, var_of. rewrite (V3 (var_name name loc)); [reflexivity|].
        intros nm _ X. apply var_name_loc in X; [destruct X as [-> _]; discriminate Hlr| |cbn; tauto].
        unfold default_at in Hloc. unfold written_locations. cbn [In] in *. tauto. }
    exists r, c. rewrite D3 in Dr, Dc. split; [exact Dr|]. split; [exact Dc|]. split.
    - intros name Hname. rewrite L0 by exact Hname. apply Lv.
    - intros name Hname. destruct (L1 name Hname) as [l [a b]]. exists l. split; [exact a|]. rewrite b, Lv. reflexivity.
  Qed.
End Any.
