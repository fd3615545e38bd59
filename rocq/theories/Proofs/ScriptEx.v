(** A program that uses every process. *)
From Coq Require Import String List ZArith QArith Bool Arith.
From Verif.Base Require Import Num Py Arr.
From Verif.Model Require Import Layers Grid Bathymetry Csv SequenceModel Setattr.
From Verif.Spec Require Import Script.
From Verif.Proofs Require Import FluvialEx ScriptP.
Import ListNotations.
Local Open Scope string_scope.
Local Open Scope list_scope.

Section P.
  Context {A : Type} {num : Num A} {tr : Trans A}.
  Lemma loaded params text (g : grid A) : load_grid params (Some (read_bathymetry text)) = Ok g ->
    node g "topographic__elevation" <> None /\ node g "sediment_deposit__thickness" <> None /\ gval g "sea_level__elevation" <> None.
  Proof.
    unfold load_grid. destruct (grid_from_dict params) as [g0|] eqn:E0; [|discriminate]. cbn [bind].
    assert (B : node g0 "sediment_deposit__thickness" <> None /\ gval g0 "sea_level__elevation" <> None).
    { unfold grid_from_dict in E0.
      destruct (match gp_shape params with Some s => Ok s | None => match gp_n_cols params with Some s => Ok s | None => Err KeyError end end) as [sh|]; [|discriminate].
      cbn [bind] in E0.
      destruct (match gp_spacing params with Some s => Ok s | None => match gp_xy_spacing params with Some s => Ok (rev s) | None => Err KeyError end end) as [sp|]; [|discriminate].
      cbn [bind] in E0. unfold grid_init in E0. destruct (_ || _)%bool; [discriminate|].
      destruct sh as [|r [|c [|]]]; try discriminate; destruct sp as [|dy [|dx [|]]]; try discriminate;
        injection E0 as <-; split; discriminate. }
    destruct (read_bathymetry text g0) as [g1|] eqn:E1; [|discriminate]. cbn [bind].
    destruct (node_r g1 "topographic__elevation") as [z|] eqn:E2; [|discriminate]. cbn [bind]. intros E.
    assert (X : g = put_node g1 "bedrock_surface__elevation" (fmap (fun v => nsub v (nlit 100)) z)) by congruence. clear E. subst g.
    assert (G : grows g0 g1).
    { unfold read_bathymetry in E1. destruct (file_table text) as [xy|]; [|discriminate]. cbn [bind] in E1. unfold bathymetry_step in E1.
      destruct (node_r _ _) as [z0|]; [|discriminate]. cbn [bind] in E1. destruct (mapM _ _) as [pr|]; [|discriminate]. cbn [bind] in E1.
      injection E1 as <-. eapply grows_trans; [|apply grows_put]. apply (grows_ensure g0 "topographic__elevation"). }
    assert (G' := grows_trans _ _ _ G (grows_put g1 "bedrock_surface__elevation" (fmap (fun v => nsub v (nlit 100)) z))).
    assert (S : forall X (o : option X), o <> None <-> exists v, o = Some v) by (intros X [v|]; split; [eauto|discriminate|contradiction|intros [? ?]; discriminate]).
    rewrite !S in *. destruct B as [B1 B2]. split; [|split].
    - apply (has_grows g1); [apply grows_put|]. unfold node_r in E2. unfold has. destruct (node g1 _); [eauto|discriminate].
    - apply (has_grows g0); assumption.
    - apply (hasv_grows g0); assumption.
  Qed.
  Lemma played_loaded interp1d diffuse flexure gravity params text (g : grid A) script :
    (forall x y, interp1d x y <> Err KeyError) -> load_grid params (Some (read_bathymetry text)) = Ok g ->
    play interp1d diffuse flexure gravity script g <> Err KeyError.
  Proof. intros Hi E. destruct (loaded params text g E) as (? & ? & ?). apply played; assumption. Qed.
End P.

Definition ex_bath : string := "0.0, 20.0
1000.0, 10.0
2000.0, -5.0
5000.0, -35.0
".
Definition ex_script : list (act Q) :=
  [Create Fluvial [("wave_base", Number 10%Q)]; Create SedimentFlexure []; Create SubmarineDiffuser []; Create ShorelineFinder [];
   Create SinusoidalSeaLevel []; Create SubsidenceTimeSeries [("filepath", Table [0; 5000]%Q [0; 1]%Q)];
   Create SeaLevelTimeSeries [("filepath", Table [0; 10]%Q [0; 1]%Q)];
   Advance 0 1%Q; Advance 1 1%Q; Advance 2 1%Q; Change 2 "sediment_load" (Number 2%Q); Advance 3 1%Q; Advance 4 1%Q; Advance 5 1%Q; Advance 6 1%Q].
Lemma ex_played_ok :
  match load_grid (mkGridParams (Some [1; 6]%nat) None (Some [1; 1000]%Q) None) (Some (read_bathymetry ex_bath)) with
  | Ok g => match @play Q _ half_trans ex_linear (fun _ _ z => z) (fun _ f => f) (fun _ => 9%Q) ex_script g with
            | Ok (ps, g) => Some (length ps, map fst (at_node g))
            | Err _ => None end
  | Err _ => None end
  = Some (7%nat,
  ["sediment_deposit__thickness"; "topographic__elevation"; "bedrock_surface__elevation"; "delta_sediment_sand__volume_fraction";
   "bedrock_surface__increment_of_elevation"; "sediment__total_of_loading"; "lithosphere__increment_of_overlying_pressure";
   "lithosphere_surface__increment_of_elevation"; "kd"]).
Proof. vm_compute. reflexivity. Qed.
