(** Parameters changed while a model runs. *)
From Coq Require Import String List ZArith QArith Bool.
From Verif.Base Require Import Num Py Arr.
From Verif.Model Require Import Layers Grid Interp Shoreline SeaLevel Subsidence Flexure Submarine Fluvial Setattr.
From Verif.Spec Require Import Setting.
Import ListNotations.
Local Open Scope string_scope.

Section P.
  Context {A : Type} {num : Num A} {tr : Trans A}.

  Lemma dset_dset {V} (d : list (string * V)) k v v' :
    dset String.eqb (dset String.eqb d k v) k v' = dset String.eqb d k v'.
  Proof.
    induction d as [|[k0 v0] d IH]; simpl.
    - rewrite String.eqb_refl. reflexivity.
    - destruct (String.eqb k k0) eqn:E; simpl; rewrite E; [reflexivity|]. rewrite IH. reflexivity.
  Qed.

  Lemma kwd_set (p : kwds A) k v n d :
    kwd (dset String.eqb p k v) n d = if String.eqb n k then as_number v else kwd p n d.
  Proof.
    unfold kwd. rewrite (dget_dset _ String.eqb_eq). destruct (String.eqb n k); [|reflexivity].
    destruct v; reflexivity.
  Qed.
  Lemma kwd_file_set (p : kwds A) k v n :
    kwd_file (dset String.eqb p k v) n = if String.eqb n k then as_file v else kwd_file p n.
  Proof.
    unfold kwd_file. rewrite (dget_dset _ String.eqb_eq). destruct (String.eqb n k); [|reflexivity].
    destruct v; reflexivity.
  Qed.

  Lemma put_gval_ensure (g : grid A) n k v : put_gval (ensure_node g n) k v = ensure_node (put_gval g k v) n.
  Proof. unfold ensure_node, has_node, put_gval, put_node, set_at_grid, set_at_node. cbn. destruct (din _ _ _); reflexivity. Qed.

  Ltac ok E := match type of E with
    | context [negb ?b] => destruct (negb b) eqn:?; [discriminate|]
    end.
  Ltac steps E := repeat (cbn [bind] in E; match type of E with
    | bind ?r _ = Ok _ => let H := fresh "K" in destruct r eqn:H; [|discriminate E]
    end).

  Lemma passed_dset (p : kwds A) k v : existsb (String.eqb k) flexure1d = false -> passed_on (dset String.eqb p k v) = passed_on p.
  Proof.
    unfold passed_on, those_of, flexure1d. cbn [existsb flat_map]. intros F. rewrite !(dget_dset _ String.eqb_eq).
    rewrite !(String.eqb_sym _ k). repeat (apply orb_false_iff in F as [-> F]). reflexivity.
  Qed.
  Lemma passed_later (p : kwds A) k v : In k flexure1d ->
    those_of (flexure1d ++ ["method"]) (dset String.eqb (passed_on p) k v) = passed_on (dset String.eqb p k v).
  Proof.
    intros I. unfold passed_on, those_of, flexure1d. cbn [flat_map app].
    rewrite !(dget_dset _ String.eqb_eq).
    destruct (dget String.eqb p "eet"), (dget String.eqb p "youngs"), (dget String.eqb p "rho_mantle"), (dget String.eqb p "rho_water"), (dget String.eqb p "gravity");
      cbn in I; destruct I as [<-|[<-|[<-|[<-|[<-|[]]]]]]; reflexivity.
  Qed.
  Lemma kwd_other (p : kwds A) k v n d : String.eqb n k = false -> kwd (dset String.eqb p k v) n d = kwd p n d.
  Proof. intros N. unfold kwd. rewrite (dget_dset _ String.eqb_eq), N. reflexivity. Qed.
  Lemma set_passed interp1d p (g : grid A) name v o g1 o' g1' : In name flexure1d ->
    construct interp1d SedimentFlexure p g = Ok (o, g1) -> construct interp1d SedimentFlexure (dset String.eqb p name v) g = Ok (o', g1') ->
    set_attribute name v (o, g1) = Ok (o', g1').
  Proof.
    intros I E E'. unfold construct in E, E'. ok E. ok E'.
    rewrite !kwd_other in E' by (cbn in I; destruct I as [<-|[<-|[<-|[<-|[<-|[]]]]]]; reflexivity).
    steps E. cbn [bind] in E'. repeat match goal with q : sed_flexure A * grid A |- _ => destruct q end. cbn [bind] in E, E'. injection E as <- <-. rewrite K3 in E'. cbn [bind] in E'. rewrite K4 in E'. cbn [bind] in E'. injection E' as <- <-.
    rewrite <- (passed_later _ _ _ I). cbn in I. destruct I as [<-|[<-|[<-|[<-|[<-|[]]]]]]; reflexivity.
  Qed.
  Lemma set_as_construct interp1d cls p (g : grid A) name v o g1 o' g1' :
    In name (settable cls) ->
    construct interp1d cls p g = Ok (o, g1) -> construct interp1d cls (dset String.eqb p name v) g = Ok (o', g1') ->
    set_attribute name v (o, g1) = Ok (o', g1').
  Proof.
    intros Hin E E'. assert (D : {cls = SedimentFlexure /\ In name flexure1d} + {~ (cls = SedimentFlexure /\ In name flexure1d)}).
    { destruct cls; try (right; intros [Y _]; discriminate). destruct (in_dec string_dec name flexure1d); [left|right; intros [_ Y]]; auto. }
    destruct D as [[-> Hf]|Hf]; [exact (set_passed _ _ _ _ _ _ _ _ _ Hf E E')|]. unfold construct in E, E'. ok E. ok E'.
    destruct cls; cbn [settable] in Hin; repeat (destruct Hin as [<-|Hin]); try contradiction; try (exfalso; apply Hf; split; [reflexivity|cbn; tauto]); clear Hf;
      repeat (rewrite kwd_set in E' || rewrite kwd_file_set in E'); cbn [String.eqb Ascii.eqb Bool.eqb] in E';
      destruct v as [v|xs ys]; cbn [as_number as_file] in E'; steps E; cbn [bind] in E'; try discriminate E';
      steps E'; cbn [bind] in E, E'.
    { injection E as <- <-. injection E' as <- <-. reflexivity. }
    { (* subsidence *)
      repeat match goal with q : list A * list A |- _ => destruct q as [x0 y0] end. cbn [fst snd] in *. unfold subsidence_init in E, E'. cbv zeta in E, E'.
      set (g' := if has_node g INCREMENT then _ else _) in *.
      destruct (calc_subsidence_rate x0 y0 g'); [|discriminate E]. destruct (calc_subsidence_rate xs ys g') eqn:C; [|discriminate E'].
      injection E as <- <-. injection E' as <- <-. cbn. unfold subsidence_set_file. rewrite C. reflexivity. }
    1-6: unfold submarine_init in *; cbn [p_sea_level p_plain_slope p_wave_base p_shoreface_height p_alpha p_shelf_slope p_sediment_load
            p_load_sealevel p_basin_width] in *;
         repeat match goal with K : (if ?b then _ else _) = Ok _ |- _ => destruct b; [discriminate K|] end;
         repeat match goal with p : submarine A * grid A |- _ => destruct p end;
         injection E as <- <-; injection E' as <- <-; injection K8 as <- <-; injection K9 as <- <-.
    1-5: reflexivity.
    { cbn [set_attribute String.eqb Ascii.eqb Bool.eqb as_number bind]. unfold set_sediment_load, sb_with.
      cbn [sb_init_sea_level sb_load_sl sb_plain_slope sb_wave_base sb_shoreface_height sb_alpha sb_shelf_slope sb_basin_width sb_time].
      rewrite !put_gval_ensure. unfold put_gval at 1, set_at_grid.
      cbn [put_gval set_at_grid at_grid g_rows g_cols g_dy g_dx at_node at_row layers].
      rewrite dset_dset. reflexivity. }
    1-6: injection E as <- <-; injection E' as <- <-; reflexivity.
    all: unfold densities_init in *;
      repeat (cbn [bind] in *; match goal with K : bind ?r _ = Ok _ |- _ => let L := fresh "L" in destruct r eqn:L; [|discriminate K] end);
      cbn [bind] in *;
      repeat match goal with q : sed_flexure A * grid A |- _ => destruct q end.
    all: rewrite passed_dset in E' by reflexivity; injection E as <- <-; injection E' as <- <-; injection K3 as <-; injection K4 as <- <-; injection K5 as <-;
      cbn [set_attribute String.eqb Ascii.eqb Bool.eqb as_number bind];
      unfold set_sand_density, set_mud_density, set_water_density;
      repeat match goal with L : validate_density _ = Ok _ |- _ => try rewrite L; clear L end; reflexivity.
  Qed.

  (** ** Histories of steps and assignments *)

  Section History.
  Context (interp1d : list A -> list A -> result (A -> A)) (diffuse : A -> field A -> field A -> field A)
    (flexure : kwds A -> field A -> field A) (gravity : kwds A -> A).

  Lemma assigns_cons names (e : event A) h : assigns names (e :: h) -> assigns names h.
  Proof. intros H n v I. apply (H n v). right. exact I. Qed.

  Lemma ignored_set o g n v : In n (ignored (class_of o)) -> set_attribute n v (o, g) = Ok (o, g).
  Proof.
    destruct o; cbn [class_of ignored]; intros I; repeat (destruct I as [<-|I]); try contradiction; try reflexivity;
      destruct c; reflexivity.
  Qed.

  Lemma construct_class i1 cls p g o g1 : construct i1 cls p g = Ok (o, g1) -> class_of o = cls.
  Proof.
    unfold construct. intros E. ok E. destruct cls; steps E; cbn [bind] in E;
      repeat match goal with q : _ * _ |- _ => destruct q end;
      try (destruct (subsidence_init _ _ _) as [? [?|]]; cbn [bind] in E; [|discriminate E]);
      try (destruct (fluvial_init _ _));
      try (assert (X : forall a b : process A * grid A, Ok a = Ok b -> a = b) by congruence; apply X in E);
      inversion E; reflexivity.
  Qed.
  Lemma step_class dt o g o1 g1 : process_step interp1d diffuse flexure gravity dt (o, g) = Ok (o1, g1) -> class_of o1 = class_of o.
  Proof.
    unfold process_step. intros E. destruct o; cbn [bind] in E.
    1-2: destruct (sea_level_step dt c g) as [[c' g'] [e|]]; [discriminate E|]; injection E as <- _; reflexivity.
    all: steps E; cbn [bind] in E; repeat match goal with q : _ * _ |- _ => destruct q end; injection E as <- _; reflexivity.
  Qed.
  Lemma set_class n v o g o1 g1 : set_attribute n v (o, g) = Ok (o1, g1) -> class_of o1 = class_of o.
  Proof.
    unfold set_attribute. intros E.
    destruct o as [c|c|c|c|[]|d c|a];
      repeat match type of E with (if ?b then _ else _) = _ => destruct b end;
      repeat (cbn [bind] in E; match type of E with bind ?r _ = Ok _ => destruct r; [|discriminate E] end); cbn [bind] in E;
      try discriminate E;
      try (destruct (subsidence_set_file _ _ _ _) as [? [?|]]; [discriminate E|]);
      try (destruct (set_sediment_load _ _ _));
      injection E as <- _; reflexivity.
  Qed.

  Lemma ignored_history cls (h : list (event A)) : forall o g, class_of o = cls ->
    assigns (ignored cls) h ->
    foldM (happen interp1d diffuse flexure gravity) h (o, g) = foldM (happen interp1d diffuse flexure gravity) (filter (fun e => match e with Step _ => true | _ => false end) h) (o, g).
  Proof.
    induction h as [|e h IH]; intros o g C As; [reflexivity|]. destruct e as [dt|n v].
    - cbn [filter foldM happen]. destruct (process_step _ _ _ _ dt (o, g)) as [[o1 g1]|x] eqn:E; [|reflexivity].
      cbn [bind]. apply IH; [rewrite (step_class _ _ _ _ _ E); exact C|exact (assigns_cons _ _ _ As)].
    - cbn [filter foldM happen]. rewrite ignored_set by (rewrite C; apply (As n v); left; reflexivity).
      cbn [bind]. apply IH; [exact C|exact (assigns_cons _ _ _ As)].
  Qed.

  Lemma sea_level_history (h : list (event A)) : assigns (settable SeaLevelTimeSeries) h ->
    forall p t x y (g : grid A), kwd_file p "filepath" = Ok (x, y) -> forall o g1,
    foldM (happen interp1d diffuse flexure gravity) h (PSeaLevel (mkSeaLevel (sea_level_interpolator x y) t), g) = Ok (o, g1) ->
    exists x' y', kwd_file (assigned p h) "filepath" = Ok (x', y')
      /\ o = PSeaLevel (mkSeaLevel (sea_level_interpolator x' y') (elapsed t h)).
  Proof.
    induction h as [|e h IH]; intros As p t x y g F o g1 E.
    - injection E as <- <-. exists x, y. split; [exact F|reflexivity].
    - destruct e as [dt|n v]; cbn [foldM happen] in E.
      + cbn [process_step] in E. unfold sea_level_step in E. cbn [slc_curve slc_time] in E.
        destruct (gval g "sea_level__elevation"); cbn [bind] in E; [|discriminate E].
        destruct (sea_level_interpolator x y (nadd t dt)); cbn [bind] in E; [|discriminate E].
        apply (IH (assigns_cons _ _ _ As) p (nadd t dt) x y _ F o g1 E).
      + assert (N : n = "filepath"). { destruct (As n v (or_introl eq_refl)) as [<-|[]]. reflexivity. } subst n.
        cbn [set_attribute String.eqb Ascii.eqb Bool.eqb] in E. destruct v as [v|x' y']; [discriminate E|].
        cbn [as_file bind fst snd] in E. unfold sea_level_set_file in E. cbn [slc_time] in E.
        assert (F' : kwd_file (dset String.eqb p "filepath" (Table x' y')) "filepath" = Ok (x', y')).
        { rewrite kwd_file_set. reflexivity. }
        apply (IH (assigns_cons _ _ _ As) _ t x' y' _ F' o g1 E).
  Qed.

  Lemma construct_sea_level i1 p (g : grid A) o g1 : construct i1 SeaLevelTimeSeries p g = Ok (o, g1) ->
    exists x y t, kwd_file p "filepath" = Ok (x, y) /\ kwd p "start" n0 = Ok t /\ g1 = g
      /\ o = PSeaLevel (mkSeaLevel (sea_level_interpolator x y) t).
  Proof.
    unfold construct. intros E. ok E. steps E. repeat match goal with q : list A * list A |- _ => destruct q as [x y] end. cbn [bind fst snd] in E.
    injection E as <- <-. eexists x, y, _. auto.
  Qed.

  Lemma sea_level_later i1 p (g g1 g1' : grid A) o0 h o o' g0 : assigns (settable SeaLevelTimeSeries) h ->
    construct i1 SeaLevelTimeSeries p g = Ok (o0, g0) -> foldM (happen interp1d diffuse flexure gravity) h (o0, g0) = Ok (o, g1) ->
    (forall t, kwd p "start" n0 = Ok t ->
       construct i1 SeaLevelTimeSeries (dset String.eqb (assigned p h) "start" (Number (elapsed t h))) g1 = Ok (o', g1')) ->
    o' = o /\ g1' = g1.
  Proof.
    intros As C E C'. destruct (construct_sea_level _ _ _ _ _ C) as [x [y [t [F [S [-> ->]]]]]].
    destruct (sea_level_history h As p t x y g F o g1 E) as [x' [y' [F' ->]]].
    destruct (construct_sea_level _ _ _ _ _ (C' t S)) as [x2 [y2 [t2 [F2 [S2 [-> ->]]]]]].
    rewrite kwd_set, String.eqb_refl in S2. cbn in S2. injection S2 as <-.
    rewrite kwd_file_set in F2. cbn [String.eqb Ascii.eqb Bool.eqb] in F2.
    assert (X : (x', y') = (x2, y2)) by congruence. injection X as <- <-. auto.
  Qed.

  (** Fluvial *)
  Definition fluvial_params (p : kwds A) : result (fluvial A) :=
    let* sand_frac := kwd p "sand_frac" (nlit (1 # 2)) in
    let* wave_base := kwd p "wave_base" (nlit 60) in
    let* sediment_load := kwd p "sediment_load" (nlit 3) in
    let* sand_density := kwd p "sand_density" (nlit 2650) in
    let* plain_slope := kwd p "plain_slope" (nlit (8 # 10000)) in
    let* hemipelagic := kwd p "hemipelagic" n0 in
    let* _ := kwd p "sea_level" n0 in
    Ok (mkFluvial sand_frac sediment_load sand_density plain_slope wave_base hemipelagic).

  Lemma construct_fluvial i1 p (g : grid A) o g1 : construct i1 Fluvial p g = Ok (o, g1) ->
    exists c, fluvial_params p = Ok c /\ o = PFluvial c /\ g1 = ensure_node (ensure_node g SAND) BEDROCK_INC.
  Proof.
    unfold construct, fluvial_params. intros E. ok E. steps E. cbn [bind fluvial_init] in E. unfold fluvial_init in E.
    injection E as <- <-. cbn [bind]. eexists. auto.
  Qed.

  Lemma has_set_profile (g g1 : grid A) n f m : set_profile g n f = Ok g1 -> has_node g m = true -> has_node g1 m = true.
  Proof.
    unfold set_profile, node_r, node. destruct (dget _ (at_node g) n) eqn:E; [|discriminate]. cbn [bind]. intros X.
    injection X as <-. unfold has_node, put_node, set_at_node, din. cbn [at_node]. rewrite (dget_dset _ String.eqb_eq).
    destruct (String.eqb m n); [reflexivity|exact (fun H => H)].
  Qed.
  Lemma ensure_has (g : grid A) n : has_node g n = true -> ensure_node g n = g.
  Proof. unfold ensure_node. intros ->. reflexivity. Qed.
  Lemma has_ensure (g : grid A) n : has_node (ensure_node g n) n = true.
  Proof.
    unfold ensure_node. destruct (has_node g n) eqn:E; [exact E|]. unfold has_node, put_node, set_at_node, din. cbn [at_node].
    rewrite (dget_dset _ String.eqb_eq), String.eqb_refl. reflexivity.
  Qed.
  Lemma has_ensure_other (g : grid A) n m : has_node g m = true -> has_node (ensure_node g n) m = true.
  Proof.
    intros H. unfold ensure_node. destruct (has_node g n) eqn:E; [exact H|]. unfold has_node, put_node, set_at_node, din in *. cbn [at_node].
    rewrite (dget_dset _ String.eqb_eq). destruct (String.eqb m n); [reflexivity|exact H].
  Qed.
  Lemma fluvial_has i1 dt c (g g1 : grid A) m : fluvial_step i1 dt c g = Ok g1 -> has_node g m = true -> has_node g1 m = true.
  Proof.
    unfold fluvial_step. intros E.
    repeat match type of E with (if ?b then _ else _) = _ => destruct b; [discriminate E|] end. cbv zeta in E.
    steps E. cbn [bind] in E.
    repeat match goal with q : _ * _ |- _ => destruct q end.
    destruct (fold_left _ _ _). cbn [bind] in E. steps E. intros Hm.
    eapply has_set_profile; [exact E|]. eapply has_set_profile; eassumption.
  Qed.

  Lemma fluvial_set_params n v p (c : fluvial A) (g : grid A) o1 g1 : In n fluvial_names ->
    fluvial_params p = Ok c -> set_attribute n v (PFluvial c, g) = Ok (o1, g1) ->
    g1 = g /\ exists c1, o1 = PFluvial c1 /\ fluvial_params (dset String.eqb p n v) = Ok c1.
  Proof.
    intros I F E. unfold fluvial_params in F. steps F. cbn [bind] in F. injection F as <-.
    cbn [fluvial_names] in I; repeat (destruct I as [<-|I]); try contradiction;
      cbn [set_attribute String.eqb Ascii.eqb Bool.eqb] in E; destruct v as [v|xs ys]; cbn [as_number bind] in E; try discriminate E;
      injection E as <- <-; (split; [reflexivity|]).
    all: eexists; split; [reflexivity|]; unfold fluvial_params; rewrite !kwd_set;
      cbn [String.eqb Ascii.eqb Bool.eqb as_number]; rewrite ?K, ?K0, ?K1, ?K2, ?K3, ?K4, ?K5; reflexivity.
  Qed.

  Lemma fluvial_history (h : list (event A)) : assigns fluvial_names h ->
    forall p c (g : grid A), fluvial_params p = Ok c -> has_node g SAND = true -> has_node g BEDROCK_INC = true -> forall o g1,
    foldM (happen interp1d diffuse flexure gravity) h (PFluvial c, g) = Ok (o, g1) ->
    (exists c1, fluvial_params (assigned p h) = Ok c1 /\ o = PFluvial c1) /\ has_node g1 SAND = true /\ has_node g1 BEDROCK_INC = true.
  Proof.
    induction h as [|e h IH]; intros As p c g F H1 H2 o g1 E.
    - injection E as <- <-. split; [exists c; auto|auto].
    - destruct e as [dt|n v]; cbn [foldM happen] in E.
      + cbn [process_step] in E. destruct (fluvial_step interp1d dt c g) as [g'|] eqn:S; [|discriminate E]. cbn [bind] in E.
        apply (IH (assigns_cons _ _ _ As) p c g' F); [eapply fluvial_has; eassumption|eapply fluvial_has; eassumption|exact E].
      + destruct (set_attribute n v (PFluvial c, g)) as [[o' g']|] eqn:S; [|discriminate E]. cbn [bind] in E.
        destruct (fluvial_set_params n v p c g o' g' (As n v (or_introl eq_refl)) F S) as [-> [c1 [-> F1]]].
        apply (IH (assigns_cons _ _ _ As) _ c1 g F1 H1 H2 o g1 E).
  Qed.

  Lemma fluvial_later i1 p (g g0 g1 g1' : grid A) o0 h o o' : assigns fluvial_names h ->
    construct i1 Fluvial p g = Ok (o0, g0) -> foldM (happen interp1d diffuse flexure gravity) h (o0, g0) = Ok (o, g1) ->
    construct i1 Fluvial (assigned p h) g1 = Ok (o', g1') ->
    o' = o /\ g1' = g1.
  Proof.
    intros As C E C'. destruct (construct_fluvial _ _ _ _ _ C) as [c [F [-> ->]]].
    destruct (fluvial_history h As p c _ F (has_ensure_other _ _ _ (has_ensure _ _)) (has_ensure _ _) o g1 E) as [[c1 [F1 ->]] [H1 H2]].
    destruct (construct_fluvial _ _ _ _ _ C') as [c2 [F2 [-> ->]]].
    rewrite (ensure_has g1 SAND H1), (ensure_has g1 BEDROCK_INC H2). split; congruence.
  Qed.

  (** Subsidence *)
  Lemma construct_subsidence i1 p (g : grid A) o g1 : construct i1 SubsidenceTimeSeries p g = Ok (o, g1) ->
    exists x y r, kwd_file p "filepath" = Ok (x, y) /\ calc_subsidence_rate x y g1 = Ok r
      /\ g1 = ensure_node g BEDROCK_INC /\ o = PSubsidence (mkSubsidence r n0).
  Proof.
    unfold construct. intros E. ok E. steps E. repeat match goal with q : list A * list A |- _ => destruct q as [x y] end. cbn [fst snd] in E. unfold subsidence_init in E. cbv zeta in E.
    change (if has_node g INCREMENT then g else put_node g INCREMENT (full (g_rows g + 2) (g_cols g) n0))
      with (ensure_node g BEDROCK_INC) in E.
    cbn [bind fst snd] in E.
    destruct (calc_subsidence_rate x y (ensure_node g BEDROCK_INC)) as [r|] eqn:R; cbn [bind] in E; [|discriminate E]. cbn [bind] in E.
    injection E as <- <-. exists x, y, r. auto.
  Qed.
  Lemma set_profile_shape (g g1 : grid A) n f : set_profile g n f = Ok g1 -> g_cols g1 = g_cols g /\ g_dx g1 = g_dx g.
  Proof. unfold set_profile. destruct (node_r g n); [|discriminate]. cbn [bind]. intros E. injection E as <-. split; reflexivity. Qed.
  Lemma rate_shape x y (g g1 : grid A) : g_cols g1 = g_cols g /\ g_dx g1 = g_dx g -> calc_subsidence_rate x y g1 = calc_subsidence_rate x y g.
  Proof. intros [E1 E2]. unfold calc_subsidence_rate, x_of_column. rewrite E1, E2. reflexivity. Qed.

  Lemma subsidence_history (h : list (event A)) : assigns ["filepath"] h ->
    forall p x y r t (g : grid A), kwd_file p "filepath" = Ok (x, y) -> calc_subsidence_rate x y g = Ok r ->
    has_node g BEDROCK_INC = true -> forall o g1,
    foldM (happen interp1d diffuse flexure gravity) h (PSubsidence (mkSubsidence r t), g) = Ok (o, g1) ->
    has_node g1 BEDROCK_INC = true /\
    exists x' y' r' t', kwd_file (assigned p h) "filepath" = Ok (x', y') /\ calc_subsidence_rate x' y' g1 = Ok r'
      /\ o = PSubsidence (mkSubsidence r' t').
  Proof.
    induction h as [|e h IH]; intros As p x y r t g F R H o g1 E.
    - injection E as <- <-. split; [exact H|]. exists x, y, r, t. auto.
    - destruct e as [dt|n v]; cbn [foldM happen] in E.
      + cbn [process_step] in E. unfold subsidence_step in E. cbn [sub_rate sub_time] in E.
        destruct (get_profile g INCREMENT) as [inc|]; [|discriminate E]. cbn [bind] in E.
        destruct (set_profile g INCREMENT _) as [g'|] eqn:S; [|discriminate E]. cbn [bind] in E.
        apply (IH (assigns_cons _ _ _ As) p x y r (nadd t dt) g' F); [|eapply has_set_profile; eassumption|exact E].
        rewrite (rate_shape x y g g' (set_profile_shape _ _ _ _ S)). exact R.
      + assert (N : n = "filepath"). { destruct (As n v (or_introl eq_refl)) as [<-|[]]. reflexivity. } subst n.
        cbn [set_attribute String.eqb Ascii.eqb Bool.eqb] in E. destruct v as [v|x' y']; [discriminate E|].
        cbn [as_file bind fst snd] in E. unfold subsidence_set_file in E. cbn [sub_time] in E.
        destruct (calc_subsidence_rate x' y' g) as [r'|] eqn:R'; cbn [bind] in E; [|discriminate E]. cbn [bind] in E.
        assert (F' : kwd_file (dset String.eqb p "filepath" (Table x' y')) "filepath" = Ok (x', y')).
        { rewrite kwd_file_set. reflexivity. }
        apply (IH (assigns_cons _ _ _ As) _ x' y' r' t g F' R' H o g1 E).
  Qed.

  Lemma subsidence_time_free dts : forall r t t' (g : grid A),
    process_run interp1d diffuse flexure gravity dts (PSubsidence (mkSubsidence r t), g)
    = process_run interp1d diffuse flexure gravity dts (PSubsidence (mkSubsidence r t'), g).
  Proof.
    unfold process_run. induction dts as [|dt dts IH]; intros r t t' g; [reflexivity|].
    cbn [foldM process_step]. unfold subsidence_step. cbn [sub_rate sub_time].
    destruct (get_profile g INCREMENT) as [inc|]; [|reflexivity]. cbn [bind].
    destruct (set_profile g INCREMENT _) as [g'|]; [|reflexivity]. cbn [bind]. apply IH.
  Qed.

  Lemma subsidence_later i1 p (g g0 g1 g1' : grid A) o0 h o o' : assigns ["filepath"] h ->
    construct i1 SubsidenceTimeSeries p g = Ok (o0, g0) -> foldM (happen interp1d diffuse flexure gravity) h (o0, g0) = Ok (o, g1) ->
    construct i1 SubsidenceTimeSeries (assigned p h) g1 = Ok (o', g1') ->
    g1' = g1 /\ forall dts, process_run interp1d diffuse flexure gravity dts (o, g1) = process_run interp1d diffuse flexure gravity dts (o', g1').
  Proof.
    intros As C E C'. destruct (construct_subsidence _ _ _ _ _ C) as [x [y [r [F [R [G ->]]]]]].
    assert (H0 : has_node g0 BEDROCK_INC = true) by (rewrite G; apply has_ensure).
    destruct (subsidence_history h As p x y r n0 g0 F R H0 o g1 E) as [H1 [x' [y' [r' [t' [F' [R' ->]]]]]]].
    destruct (construct_subsidence _ _ _ _ _ C') as [x2 [y2 [r2 [F2 [R2 [G2 ->]]]]]].
    rewrite (ensure_has g1 BEDROCK_INC H1) in G2. subst g1'.
    assert (X : (x', y') = (x2, y2)) by congruence. injection X as <- <-.
    assert (r' = r2) by congruence. subst r2. split; [reflexivity|]. intros dts. apply subsidence_time_free.
  Qed.
  End History.
End P.
