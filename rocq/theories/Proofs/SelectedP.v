(** What to_netcdf writes for selected elements. *)
From Coq Require Import String List ZArith Arith Lia Bool.
From Verif.Base Require Import Num Py Arr.
From Verif.Model Require Import Layers Grid Netcdf OutputWriter.
From Verif.Spec Require Import Recording Selecting.
From Verif.Proofs Require Import NetcdfP OutputRunsP.
Import ListNotations.

Lemma py_nth_spec {B} (l : list B) i b : py_nth l i = Ok b ->
  exists j, (Z.of_nat j = i \/ (i < 0 /\ Z.of_nat j = i + Z.of_nat (length l)))%Z /\ (j < length l)%nat /\ nth_error l j = Some b.
Proof.
  unfold py_nth. cbv zeta. intros E.
  set (i' := if (i <? 0)%Z then (i + Z.of_nat (length l))%Z else i) in E.
  destruct (i' <? 0)%Z eqn:N; [discriminate|]. apply Z.ltb_ge in N.
  destruct (nth_error l (Z.to_nat i')) as [b'|] eqn:H; [|discriminate]. injection E as <-.
  exists (Z.to_nat i'). rewrite Z2Nat.id by exact N. split; [|split; [apply nth_error_Some; congruence|exact H]].
  unfold i'. destruct (i <? 0)%Z eqn:M; [right|left; reflexivity]. apply Z.ltb_lt in M. split; [exact M|reflexivity].
Qed.
Lemma take_picked {B} s (vs l : list B) : take s vs = Ok l -> picked s vs l.
Proof.
  destruct s as [|is]; cbn; intros E; [congruence|]. split; [exact (mapM_length _ _ _ E)|].
  apply mapM_Forall2 in E. induction E as [|i b is l Hb _ IH]; intros k i' Hk; [destruct k; discriminate|].
  destruct k as [|k]; cbn in Hk.
  - injection Hk as ->. destruct (py_nth_spec vs i' b Hb) as (j & Hj & Hl & Hn). exists j. split; [exact Hj|]. split; [exact Hl|]. rewrite Hn. reflexivity.
  - apply IH. exact Hk.
Qed.
Lemma take_length {B C} s (vs : list B) (ws : list C) l l' : length vs = length ws -> take s vs = Ok l -> take s ws = Ok l' -> length l = length l'.
Proof.
  intros H. destruct s as [|is]; cbn; intros E E'; [congruence|]. rewrite (mapM_length _ _ _ E), (mapM_length _ _ _ E'). reflexivity.
Qed.
Lemma ok_is {B} (a b : B) : Ok a = Ok b -> b = a.
Proof. congruence. Qed.

Section P.
  Context {A : Type} `{Num A}.

  (* the coordinates of the elements of a location *)
  Definition placed (g : gview A) (s : selection) (loc : string) (d : dataset A) : Prop :=
    exists ps, take s (gv_xy g loc) = Ok ps /\ dget String.eqb (ds_dims d) loc = Some (length ps)
      /\ dget String.eqb (ds_coords d) ("x_of_" ++ loc)%string = Some (map (fun p => Some (fst p)) ps)
      /\ dget String.eqb (ds_coords d) ("y_of_" ++ loc)%string = Some (map (fun p => Some (snd p)) ps).
  Lemma placed_there g s loc d : placed g s loc d -> din String.eqb (ds_coords d) ("x_of_" ++ loc)%string = true.
  Proof. intros (ps & _ & _ & X & _). unfold din. rewrite X. reflexivity. Qed.
  Lemma coordinates_kept g s loc loc' s' d d' : placed g s loc d -> set_grid_coordinates g loc' s' d = Ok d' -> loc <> "grid"%string -> placed g s loc d'.
  Proof.
    intros P E Hg. pose proof (placed_there _ _ _ _ P) as Hd. unfold set_grid_coordinates in E. destruct (mem loc' known_locations); [|discriminate].
    destruct P as (ps & T & D & X & Y).
    destruct (String.eqb loc' "grid") eqn:G.
    - apply String.eqb_eq in G. subst loc'. injection E as <-. exists ps. split; [exact T|]. destruct (din _ (ds_dims d) _); cbn [ds_dims ds_coords set_dims]; [repeat split; assumption|].
      rewrite dget_dset_s. destruct (String.eqb_spec loc "grid"); [contradiction|]. repeat split; assumption.
    - okstep E xy E0. destruct (din String.eqb (ds_coords d) ("x_of_" ++ loc')%string) eqn:N; [discriminate|]. apply ok_is in E. subst d'.
      assert (Hl : loc <> loc') by (intros ->; congruence).
      exists ps. split; [exact T|]. cbn [ds_dims ds_coords]. rewrite !dget_dset_s.
      assert (X1 : forall c : string, String.eqb (c ++ loc) (c ++ loc') = false).
      { intros c. apply String.eqb_neq. intros X1. apply append_inj in X1. contradiction. }
      assert (X2 : String.eqb ("x_of_" ++ loc)%string ("y_of_" ++ loc')%string = false) by reflexivity.
      assert (X3 : String.eqb ("y_of_" ++ loc)%string ("x_of_" ++ loc')%string = false) by reflexivity.
      destruct (String.eqb_spec loc loc'); [contradiction|].
      rewrite !X1, X2, X3. repeat split; assumption.
  Qed.
  Lemma coordinates_placed g ids loc : In loc ["node"; "link"; "patch"; "corner"; "face"; "cell"]%string -> forall locs d d',
    In loc locs -> foldM (fun d loc => set_grid_coordinates g loc (ids loc) d) locs d = Ok d' -> placed g (ids loc) loc d'.
  Proof.
    intros Hk. assert (Hg : loc <> "grid"%string) by (intros ->; cbn in Hk; intuition discriminate).
    assert (Hr : loc <> "row"%string) by (intros ->; cbn in Hk; intuition discriminate).
    assert (Hc : loc <> "column"%string) by (intros ->; cbn in Hk; intuition discriminate).
    assert (K : forall locs d d', placed g (ids loc) loc d -> foldM (fun d loc => set_grid_coordinates g loc (ids loc) d) locs d = Ok d' -> placed g (ids loc) loc d').
    { induction locs as [|l locs IH]; intros d d' P E; cbn [foldM] in E; [congruence|]. okstep E d1 E1.
      eapply IH; [|exact E]. eapply coordinates_kept; eassumption. }
    induction locs as [|l locs IH]; intros d d' Hin E; [destruct Hin|]. cbn [foldM] in E. okstep E d1 E1.
    destruct (string_dec l loc) as [->|N]; [|destruct Hin; [contradiction|eapply IH; eassumption]].
    eapply K; [|exact E]. unfold set_grid_coordinates in E1. destruct (mem loc known_locations); [|discriminate].
    destruct (String.eqb_spec loc "grid"); [contradiction|]. destruct (String.eqb_spec loc "row"); [contradiction|]. destruct (String.eqb_spec loc "column"); [contradiction|].
    okstep E1 xy Exy. okstep Exy ps Eps. injection Exy as <-. destruct (din _ _ _); [discriminate|]. apply ok_is in E1. subst d1.
    exists ps. split; [exact Eps|]. cbn [ds_dims ds_coords]. rewrite !dget_dset_s, !String.eqb_refl, !map_map, !map_length. cbn.
    split; [reflexivity|]. destruct (String.eqb_spec loc loc); [|congruence]. split; [|reflexivity].
    reflexivity.
  Qed.

  Theorem selected_written (g : gview A) path time at_ ids names wl fs fs' d loc name vs :
    to_netcdf g path false time at_ ids names wl fs = Ok fs' -> file_at fs' path = Some d ->
    NoDup at_ -> ~ In "row"%string at_ -> In loc at_ -> In loc ["node"; "link"; "patch"; "corner"; "face"; "cell"]%string ->
    has_variable d loc name -> field_at g loc name = Some (Vector vs) -> length vs = length (gv_xy g loc) ->
    ds_time d = [time]
    /\ (exists l, record_of d (var_name name loc) 0 = Some l /\ picked (asked ids loc) vs l)
    /\ exists ps, picked (asked ids loc) (gv_xy g loc) ps
       /\ dget String.eqb (ds_coords d) ("x_of_" ++ loc)%string = Some (map (fun p => Some (fst p)) ps)
       /\ dget String.eqb (ds_coords d) ("y_of_" ++ loc)%string = Some (map (fun p => Some (snd p)) ps).
  Proof.
    intros E Hd Hnd Hrow Hloc Hk Hv Hf Hlen.
    unfold to_netcdf in E. okstep E od Eo. assert (od = None) by (destruct (fs path) as [[| |]|]; congruence). subst od. clear Eo.
    okstep E d1' E1. injection E as <-. unfold file_at, fs_set in Hd. rewrite String.eqb_refl in Hd. injection Hd as ->.
    destruct (write_fields g time at_ ids names wl d Hnd Hrow E1 loc Hloc) as [ns [fs0 [En [Ef Hiff]]]]. apply Hiff in Hv. clear Hiff.
    unfold write_dataset in E1. okstep E1 names_at En'. okstep E1 d0 E0.
    destruct (coordinates_empty _ _ _ _ _ E0) as [T0 [F0 [_ Hincl]]].
    assert (P : placed g (ids_of at_ ids loc) loc d0) by (eapply (coordinates_placed g (ids_of at_ ids)); [exact Hk| |exact E0]; right; right; exact Hloc).
    destruct (mapM_pairs _ _ _ En') as [Hfst Hnames]. rewrite <- Hfst in Hnd.
    assert (Hin : exists ns, In (loc, ns) names_at).
    { pose proof Hloc as X. rewrite <- Hfst in X. apply in_map_iff in X. destruct X as [[l n] [<- X]]. exists n. exact X. }
    destruct Hin as [ns' Hin]. assert (ns' = ns) by (specialize (Hnames _ _ Hin); congruence). subst ns'.
    set (dt := set_times d0 _) in E1. okstep E1 d2 E2. okstep E1 d3 E3.
    assert (Hincl' : incl (map fst names_at) written_locations).
    { rewrite Hfst. intros x Hx. apply Hincl. right. right. exact Hx. }
    destruct (field_list_writes g (ids_of at_ ids) names_at Hnd Hincl' _ _ E2) as [S2 [V2 [R2 N2]]].
    apply set_field_writes in E3. destruct E3 as [fsr [_ [S3 [V3 _]]]].
    destruct (N2 loc ns Hin) as [fs1 [Ef1 N2']]. assert (fs1 = fs0) by congruence. subst fs1.
    destruct (N2' name Hv) as (n & x & vals & l & Dn & Fx & Sx & Fit & Rec & Din).
    assert (x = Vector vs) by congruence. subst x. cbn [selected] in Sx.
    assert (Ha : ids_of at_ ids loc = asked ids loc).
    { unfold ids_of, asked. destruct ids as [s|dd]; [|reflexivity].
      destruct (mem loc at_) eqn:M; [reflexivity|]. assert (mem loc at_ = true) by (apply mem_In; exact Hloc). congruence. }
    rewrite Ha in *. destruct P as (ps & T & D & X & Y).
    assert (Dn' : n = length ps) by (unfold dt in Dn; cbn in Dn; congruence).
    assert (l = vals).
    { apply (fit_same n); [|exact Fit]. rewrite Dn'. eapply take_length; eassumption. }
    subst l.
    assert (S4 : same_rest d3 d \/ (ds_time d = ds_time d3 /\ ds_coords d = ds_coords d3)).
    { right. destruct wl; [apply set_layers_writes in E1; destruct E1 as [(a & _ & b & _) _]; split; assumption|].
      injection E1 as <-. split; reflexivity. }
    assert (Hd' : ds_fields d = ds_fields d3).
    { destruct wl; [apply set_layers_writes in E1; apply E1|congruence]. }
    assert (TC : ds_time d = ds_time dt /\ ds_coords d = ds_coords dt).
    { destruct S2 as (a2 & _ & c2 & _), S3 as (a3 & _ & c3 & _). destruct S4 as [(a4 & _ & c4 & _)|[a4 c4]]; split; congruence. }
    destruct TC as [Td Cd]. assert (Tt : ds_time dt = [time]) by (unfold dt; cbn; rewrite T0; reflexivity).
    split; [congruence|]. split.
    - exists vals. split; [|apply take_picked; exact Sx].
      assert (Hf3 : dget String.eqb (ds_fields d3) (var_name name loc) = dget String.eqb (ds_fields d2) (var_name name loc)).
      { apply V3. intros nm _ Z. apply var_name_loc in Z.
        - destruct Z as [-> _]. contradiction.
        - apply Hincl. right. right. exact Hloc.
        - cbn. tauto. }
      unfold record_of, var_of. rewrite Hd', Hf3. rewrite Tt in Rec. exact Rec.
    - exists ps. split; [apply take_picked; exact T|]. rewrite Cd. unfold dt. cbn. split; assumption.
  Qed.
End P.
