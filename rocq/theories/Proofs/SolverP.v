(** The keywords that the flexure hands to its solver, and the file of a
    sinusoidal sea level (C98). *)
From Coq Require Import String List ZArith QArith Bool.
From Verif.Base Require Import Num Py Arr.
From Verif.Model Require Import Layers Grid Flexure Components Setattr.
From Verif.Spec Require Import Setting.
From Verif.Proofs Require Import ProcessesP SequenceModelEx SetattrP.
Import ListNotations.
Local Open Scope string_scope.
Local Open Scope list_scope.

Section Solver.
  Context {A : Type} {num : Num A} {tr : Trans A}.
  Context (interp1d : list A -> list A -> result (A -> A)) (diffuse : A -> field A -> field A -> field A)
    (flexure : kwds A -> field A -> field A) (gravity : kwds A -> A).

  Lemma those_get names (p : kwds A) n : dget String.eqb (those_of names p) n = if existsb (String.eqb n) names then dget String.eqb p n else None.
  Proof.
    unfold those_of. induction names as [|m names IH]; [reflexivity|]. cbn [flat_map existsb]. destruct (String.eqb_spec n m) as [->|N]; cbn [orb].
    - destruct (dget String.eqb p m) as [v|] eqn:E; cbn [app dget].
      + rewrite String.eqb_refl. reflexivity.
      + rewrite IH. destruct (existsb (String.eqb m) names); [assumption || reflexivity|reflexivity].
    - apply String.eqb_neq in N. destruct (dget String.eqb p m) as [v|]; cbn [app dget]; [rewrite N|]; exact IH.
  Qed.
  Lemma assigned_get (h : list (event A)) n : forall p p', dget String.eqb p n = dget String.eqb p' n ->
    dget String.eqb (assigned p h) n = dget String.eqb (assigned p' h) n.
  Proof.
    induction h as [|[dt|m v] h IH]; intros p p' E; [exact E| |]; unfold assigned; cbn [fold_left]; apply IH; [exact E|].
    rewrite !(dget_dset _ seqb_spec). destruct (String.eqb n m); [reflexivity|exact E].
  Qed.

  Lemma flexure_history (h : list (event A)) : forall d k c g o g', foldM (happen interp1d diffuse flexure gravity) h (PFlexure d k c, g) = Ok (o, g') ->
    exists d' k' c', o = PFlexure d' k' c' /\ forall n, In n flexure1d -> dget String.eqb k' n = dget String.eqb (assigned k h) n.
  Proof.
    induction h as [|e h IH]; intros d k c g o g' E.
    - cbn in E. assert (o = PFlexure d k c) by congruence. subst o. exists d, k, c. split; reflexivity.
    - cbn [foldM] in E. destruct (happen interp1d diffuse flexure gravity (PFlexure d k c, g) e) as [[o1 g1]|] eqn:H; cbn [bind] in E; [|discriminate].
      assert (S : exists d1 k1 c1, o1 = PFlexure d1 k1 c1
        /\ forall n, In n flexure1d -> dget String.eqb k1 n = dget String.eqb (match e with Step _ => k | Assign m v => dset String.eqb k m v end) n).
      { destruct e as [dt|m v]; cbn [happen] in H.
        - cbn [process_step] in H. destruct (sed_flexure_step _ _ dt c g) as [[c1 g2]|]; cbn [bind] in H; [|discriminate]. exists d, k, c1. split; [congruence|reflexivity].
        - cbn [set_attribute] in H.
          assert (K : forall n, In n flexure1d -> existsb (String.eqb m) ("method" :: flexure1d) = false -> dget String.eqb k n = dget String.eqb (dset String.eqb k m v) n).
          { intros n I F. rewrite (dget_dset _ seqb_spec). destruct (String.eqb_spec n m) as [->|]; [|reflexivity]. exfalso.
            assert (T : existsb (String.eqb m) ("method" :: flexure1d) = true) by (apply existsb_exists; exists m; split; [right; exact I|apply String.eqb_refl]). congruence. }
          destruct (String.eqb_spec m "sand_density") as [->|]; [|destruct (String.eqb_spec m "mud_density") as [->|]; [|destruct (String.eqb_spec m "water_density") as [->|]]].
          1-3: destruct (as_number v) as [x|]; cbn [bind] in H; [|discriminate];
               match type of H with context [bind ?y] => destruct y as [d1|]; cbn [bind] in H; [|discriminate] end;
               exists d1, k, c; (split; [congruence|]); intros n' I; apply K; [exact I|reflexivity].
          destruct (existsb (String.eqb m) ["isostasy_time"; "sand_bulk_density"; "mud_bulk_density"]); [discriminate|].
          destruct (existsb (String.eqb m) ("method" :: flexure1d)) eqn:F.
          + exists d, (those_of (flexure1d ++ ["method"]) (dset String.eqb k m v)), c. split; [congruence|]. intros n' I. rewrite those_get.
            assert (T : existsb (String.eqb n') (flexure1d ++ ["method"]) = true) by (apply existsb_exists; exists n'; split; [apply in_app_iff; left; exact I|apply String.eqb_refl]).
            rewrite T. reflexivity.
          + exists d, k, c. split; [congruence|]. intros n' I. apply K; [exact I|reflexivity]. }
      destruct S as (d1 & k1 & c1 & -> & Hk). destruct (IH _ _ _ _ _ _ E) as (d' & k' & c' & -> & Hk'). exists d', k', c'. split; [reflexivity|].
      intros n I. rewrite Hk' by exact I. destruct e as [dt|m v]; unfold assigned; cbn [fold_left]; apply assigned_get, Hk, I.
  Qed.

  (* only the solver for the keywords that were given last is used *)
  Theorem solver_used i1 p (g g0 g1 : grid A) o0 h o (flexure' : kwds A -> field A -> field A) (gravity' : kwds A -> A) : construct i1 SedimentFlexure p g = Ok (o0, g0) ->
    foldM (happen interp1d diffuse flexure gravity) h (o0, g0) = Ok (o, g1) ->
    (forall k, (forall n, In n ["eet"; "youngs"; "rho_mantle"; "rho_water"; "gravity"] -> dget String.eqb k n = dget String.eqb (assigned p h) n) ->
       flexure k = flexure' k /\ gravity k = gravity' k) ->
    forall dt, process_step interp1d diffuse flexure gravity dt (o, g1) = process_step interp1d diffuse flexure' gravity' dt (o, g1).
  Proof.
    intros C H Hf dt. unfold construct in C. cbv iota in C. destruct (negb _); [discriminate C|].
    repeat match type of C with bind ?y _ = _ => destruct y as [?|]; cbn [bind] in C; [|discriminate C] end.
    match goal with y : (_ * grid A)%type |- _ => destruct y as [c gc] end.
    match type of C with Ok (?x, _) = _ => assert (E : o0 = x) by congruence; subst o0 end. destruct (flexure_history _ _ _ _ _ _ _ H) as (d' & k' & c' & -> & Hk).
    destruct (Hf k') as [E1 E2]; [|cbn [process_step]; rewrite E1, E2; reflexivity].
    intros n I. rewrite (Hk n I). apply assigned_get. unfold passed_on. rewrite those_get.
    assert (T : existsb (String.eqb n) flexure1d = true) by (apply existsb_exists; exists n; split; [exact I|apply String.eqb_refl]). rewrite T. reflexivity.
  Qed.

  (* a sinusoidal sea level cannot be given a file *)
  Theorem sine_file i1 p (g g0 g1 : grid A) o0 h o x y : construct i1 SinusoidalSeaLevel p g = Ok (o0, g0) ->
    foldM (happen interp1d diffuse flexure gravity) h (o0, g0) = Ok (o, g1) -> set_attribute "filepath" (Table x y) (o, g1) = Err AttributeError.
  Proof.
    intros C H. apply construct_class in C. assert (K : Setting.class_of o = SinusoidalSeaLevel).
    { revert o0 g0 C H. induction h as [|e h IH]; intros o0 g0 C H; [cbn in H; congruence|]. cbn [foldM] in H.
      destruct (happen interp1d diffuse flexure gravity (o0, g0) e) as [[o2 g2]|] eqn:E; cbn [bind] in H; [|discriminate]. refine (IH _ _ _ H).
      destruct e as [dt|m v]; cbn [happen] in E; [apply step_class in E|apply set_class in E]; congruence. }
    destruct o; try discriminate K. reflexivity.
  Qed.
End Solver.

Lemma ex_solver {tr : Trans Q} i1 :
  exists o g1 o1, construct i1 SedimentFlexure [("eet", Number 5000)]%Q (ex_coast (A:=Q)) = Ok (o, g1)
    /\ set_attribute "gravity" (Number 10)%Q (o, g1) = Ok (o1, g1)
    /\ exists o2 g2, construct i1 SinusoidalSeaLevel [] (ex_coast (A:=Q)) = Ok (o2, g2).
Proof. do 3 eexists. split; [vm_compute; reflexivity|]. split; [reflexivity|]. do 2 eexists. reflexivity. Qed.
