(** The order of independent processes does not matter. *)
From Coq Require Import String List ZArith QArith Bool Arith Lia.
From Verif.Base Require Import Num Py Arr.
From Verif.Model Require Import Layers Grid Archive Interp Shoreline SeaLevel Subsidence Flexure Submarine Fluvial Sequence SequenceModel Setattr Info Processes Whole.
From Verif.Spec Require Import Declared Ordering Session.
From Verif.Proofs Require Import DeclaredP.
Import ListNotations.
Local Open Scope string_scope.
Local Open Scope list_scope.

Section G.
  Context {A : Type} {num : Num A}.
  Implicit Types g h : grid A.

  Lemma same_field_refl g f : same_field g g f. Proof. destruct f as [n []]; reflexivity. Qed.
  Lemma same_field_sym g h f : same_field g h f -> same_field h g f.
  Proof. destruct f as [n []]; unfold same_field; cbn [fst snd]; congruence. Qed.
  Lemma same_field_trans g h k f : same_field g h f -> same_field h k f -> same_field g k f.
  Proof. destruct f as [n []]; unfold same_field; cbn [fst snd]; congruence. Qed.
  Lemma same_grid_refl g : same_grid g g.
  Proof. split; [repeat split|]. split; [reflexivity|]. intros f. apply same_field_refl. Qed.
  Lemma same_grid_sym g h : same_grid g h -> same_grid h g.
  Proof. intros ((H1 & H2 & H3 & H4) & L & F). split; [repeat split; congruence|]. split; [congruence|]. intros f. apply same_field_sym, F. Qed.
  Lemma same_grid_trans g h k : same_grid g h -> same_grid h k -> same_grid g k.
  Proof.
    intros ((A1 & A2 & A3 & A4) & L & F) ((B1 & B2 & B3 & B4) & L' & F'). split; [repeat split; congruence|]. split; [congruence|].
    intros f. eapply same_field_trans; [apply F|apply F'].
  Qed.
  Lemma same_agree F g h : same_grid g h -> agree_on F g h.
  Proof. intros (S & _ & H). split; [exact S|]. intros f _. apply H. Qed.

  Lemma sg_node g h n : same_grid g h -> node h n = node g n.
  Proof. intros (_ & _ & H). symmetry. exact (H (n, AtNode)). Qed.
  Lemma sg_gval g h n : same_grid g h -> gval h n = gval g n.
  Proof. intros (_ & _ & H). symmetry. exact (H (n, AtGrid)). Qed.
  Lemma sg_node_r g h n : same_grid g h -> node_r h n = node_r g n.
  Proof. intros H. unfold node_r. rewrite (sg_node _ _ _ H). reflexivity. Qed.
  Lemma sg_profile g h n : same_grid g h -> get_profile h n = get_profile g n.
  Proof. intros H. unfold get_profile. rewrite (sg_node_r _ _ _ H). reflexivity. Qed.
  Lemma sg_gval_r g h n : same_grid g h -> gval_r h n = gval_r g n.
  Proof. intros H. unfold gval_r. rewrite (sg_gval _ _ _ H). reflexivity. Qed.
  Lemma sg_has g h n : same_grid g h -> has_node h n = has_node g n.
  Proof. intros H. pose proof (sg_node _ _ n H) as Y. unfold node in Y. unfold has_node, din. rewrite Y. reflexivity. Qed.
  Lemma sg_put g h n v : same_grid g h -> same_grid (put_node g n v) (put_node h n v).
  Proof.
    intros (S & L & F). split; [exact S|]. split; [exact L|]. intros [k p]. specialize (F (k, p)). destruct p; unfold same_field in *; cbn [fst snd] in *; try exact F.
    rewrite !node_dset. destruct (String.eqb k n); [reflexivity|exact F].
  Qed.
  Lemma sg_put_gval g h n v : same_grid g h -> same_grid (put_gval g n v) (put_gval h n v).
  Proof.
    intros (S & L & F). split; [exact S|]. split; [exact L|]. intros [k p]. specialize (F (k, p)). destruct p; unfold same_field in *; cbn [fst snd] in *; try exact F.
    rewrite !gval_dset. destruct (String.eqb k n); [reflexivity|exact F].
  Qed.
  Lemma sg_columns g h : same_grid g h -> x_of_column h = x_of_column g.
  Proof. intros ((_ & C & _ & D) & _). unfold x_of_column. rewrite C, D. reflexivity. Qed.
  Lemma sg_layers g h el : same_grid g h -> same_grid (set_layers g el) (set_layers h el).
  Proof. intros (S & _ & F). split; [exact S|]. split; [reflexivity|]. intros [k p]. exact (F (k, p)). Qed.

  Definition same_result (r r' : result (grid A)) : Prop :=
    match r, r' with Ok g, Ok g' => same_grid g g' | Err e, Err e' => e = e' | _, _ => False end.
  Lemma sg_set g h n v : same_grid g h -> same_result (set_profile g n v) (set_profile h n v).
  Proof. intros H. unfold set_profile. rewrite (sg_node_r _ _ _ H). destruct (node_r g n); cbn [bind]; [|reflexivity]. apply sg_put, H. Qed.

  Ltac wg H := match type of H with same_grid ?g ?h =>
    repeat match goal with
    | |- context [get_profile h ?n] => rewrite (sg_profile g h n H)
    | |- context [node_r h ?n] => rewrite (sg_node_r g h n H)
    | |- context [node h ?n] => rewrite (sg_node g h n H)
    | |- context [gval_r h ?n] => rewrite (sg_gval_r g h n H)
    | |- context [gval h ?n] => rewrite (sg_gval g h n H)
    | |- context [has_node h ?n] => rewrite (sg_has g h n H)
    | |- context [layers h] => rewrite <- (proj1 (proj2 H))
    | |- context [g_rows h] => rewrite <- (proj1 (proj1 H))
    | |- context [g_cols h] => rewrite <- (proj1 (proj2 (proj1 H)))
    end end.
  Ltac head r := lazymatch r with bind ?s _ => head s | _ => r end.
  Ltac dr := cbn [bind]; match goal with |- same_result ?r _ => let s := head r in destruct s eqn:?; cbn [bind]; [|reflexivity] end.

  Lemma sg_clear g h : same_grid g h -> same_result (clear_deposit g) (clear_deposit h).
  Proof. intros H. unfold clear_deposit. wg H. dr. apply sg_put, H. Qed.
  Lemma sg_properties t p g h : same_grid g h -> layer_properties t p h = layer_properties t p g.
  Proof. intros H. unfold layer_properties. wg H. reflexivity. Qed.
  Lemma sg_depth g h : same_grid g h -> profile_depth h = profile_depth g.
  Proof. intros H. unfold profile_depth. wg H. reflexivity. Qed.
  Lemma sg_load g h : same_grid g h -> same_result (update_load g) (update_load h).
  Proof.
    intros H. unfold update_load. wg H. destruct (has_node g _); [|exact H]. dr. dr. dr. dr. dr. dr. apply sg_set, H.
  Qed.
  Lemma sg_apply g h : same_grid g h -> same_result (apply_increment g) (apply_increment h).
  Proof. intros H. unfold apply_increment. wg H. destruct (has_node g _); [|exact H]. dr. dr. apply sg_put, sg_put, H. Qed.
  Lemma sg_settle g h : same_grid g h -> same_result (settle g) (settle h).
  Proof. intros H. unfold settle. wg H. dr. dr. apply sg_put, H. Qed.
  Lemma same_bind r r' f f' : same_result r r' -> (forall g h, same_grid g h -> same_result (f g) (f' h)) -> same_result (bind r f) (bind r' f').
  Proof. intros H F. destruct r, r'; try contradiction; cbn [bind]; [apply F, H|exact H]. Qed.
  Lemma sg_update g h : same_grid g h -> same_result (update_fields g) (update_fields h).
  Proof.
    intros H. unfold update_fields. rewrite (sg_depth _ _ H). dr. apply same_bind; [apply sg_load, H|]. intros g1 h1 H1.
    apply same_bind; [apply sg_apply, H1|]. intros g2 h2 H2. apply same_bind; [apply sg_settle, H2|]. intros g3 h3 H3.
    rewrite (sg_depth _ _ H3). dr. wg H3. destruct (has_node g3 _); [|exact H3]. apply sg_set, H3.
  Qed.
End G.

Section P.
  Context {A X : Type} {num : Num A} {tr : Trans A} (E : externals A X) (UV : uses_values E).
  Notation step := (process_step (ex_interp1d E) (ex_diffuse E) (ex_flexure E) (ex_gravity E)).

  Definition same_pair {P} (r r' : result (P * grid A)) : Prop :=
    match r, r' with Ok (p, g), Ok (p', g') => p = p' /\ same_grid g g' | Err e, Err e' => e = e' | _, _ => False end.

  Lemma In_dec_field (f : string * place) F : {In f F} + {~ In f F}.
  Proof. apply in_dec. intros [a p] [b q]. destruct (string_dec a b); [|right; congruence]. destruct p, q; try (left; congruence); right; congruence. Qed.
  Lemma writes_used c f : In f (writes c) -> In f (uses c).
  Proof. unfold writes, uses. destruct c; cbn; tauto. Qed.
  Lemma sg_process dt p g h : same_grid g h -> same_pair (step dt (p, g)) (step dt (p, h)).
  Proof.
    intros H. pose proof (step_reads (ex_interp1d E) (ex_diffuse E) (ex_flexure E) (ex_gravity E) dt p g h (same_agree _ _ _ H)) as S.
    unfold alike_on in S. destruct (step dt (p, g)) as [[p1 g1]|e] eqn:E1, (step dt (p, h)) as [[p2 h1]|e'] eqn:E2; try contradiction; [|exact S].
    destruct S as [-> [Sz S]]. split; [reflexivity|]. apply step_writes in E1. apply step_writes in E2. destruct E1 as (_ & _ & L1 & C1), E2 as (_ & _ & L2 & C2).
    split; [exact Sz|]. split; [rewrite <- L1, <- L2; apply H|]. intros f.
    destruct (In_dec_field f (writes (class_of p))) as [I|N].
    - apply S. apply writes_used, I.
    - eapply same_field_trans; [apply same_field_sym, C1, N|]. eapply same_field_trans; [apply H|]. apply C2, N.
  Qed.
  Lemma sg_part dt p g h : same_grid g h -> same_pair (part_step E dt (p, g)) (part_step E dt (p, h)).
  Proof.
    intros H. unfold part_step. cbn [fst snd]. destruct p as [q|x].
    - pose proof (sg_process dt q g h H) as S. destruct (step dt (q, g)) as [[p1 g1]|], (step dt (q, h)) as [[p2 h1]|]; try contradiction; cbn [bind]; [|exact S].
      destruct S as [-> S]. split; [reflexivity|exact S].
    - pose proof (proj1 UV dt x g h H) as S. destruct (ex_step E dt (x, g)) as [[p1 g1]|], (ex_step E dt (x, h)) as [[p2 h1]|]; try contradiction; cbn [bind]; [|exact S].
      destruct S as [-> S]. split; [reflexivity|exact S].
  Qed.
  Lemma sg_run dt names : forall ps g h, same_grid g h ->
    same_pair (run_components (map (step_of E) names) dt (ps, g)) (run_components (map (step_of E) names) dt (ps, h)).
  Proof.
    unfold run_components. induction names as [|n names IH]; intros ps g h H; [split; [reflexivity|exact H]|]. cbn [map foldM]. unfold step_of at 1 3. cbn [fst snd].
    destruct (dget String.eqb ps n) as [p|]; [|reflexivity]. pose proof (sg_part dt p g h H) as S.
    destruct (part_step E dt (p, g)) as [[p1 g1]|], (part_step E dt (p, h)) as [[p2 h1]|]; try contradiction; cbn [bind]; [|exact S].
    destruct S as [-> S]. apply IH, S.
  Qed.

  (** two independent processes *)
  Lemma swapped dt p q g p' g1 q' g2 : independent (class_of p) (class_of q) ->
    step dt (p, g) = Ok (p', g1) -> step dt (q, g1) = Ok (q', g2) ->
    exists h1 h2, step dt (q, g) = Ok (q', h1) /\ step dt (p, h1) = Ok (p', h2) /\ same_grid g2 h2.
  Proof.
    intros [I1 I2] E1 E2. pose proof (step_writes _ _ _ _ _ _ _ _ _ E1) as (_ & Z1 & L1 & C1). pose proof (step_writes _ _ _ _ _ _ _ _ _ E2) as (_ & Z2 & L2 & C2).
    assert (Aq : agree_on (uses (class_of q)) g1 g).
    { split; [destruct Z1 as (? & ? & ? & ?); repeat split; congruence|]. intros f Hf. apply same_field_sym, C1. intros Y. exact (I1 f Y Hf). }
    pose proof (step_reads (ex_interp1d E) (ex_diffuse E) (ex_flexure E) (ex_gravity E) dt q g1 g Aq) as S. rewrite E2 in S. unfold alike_on in S.
    destruct (step dt (q, g)) as [[q1 h1]|] eqn:F1; [|contradiction]. destruct S as [<- S1]. exists h1.
    pose proof (step_writes _ _ _ _ _ _ _ _ _ F1) as (_ & Y1 & M1 & D1).
    assert (Ap : agree_on (uses (class_of p)) g h1).
    { split; [exact Y1|]. intros f Hf. apply D1. intros Y. exact (I2 f Y Hf). }
    pose proof (step_reads (ex_interp1d E) (ex_diffuse E) (ex_flexure E) (ex_gravity E) dt p g h1 Ap) as S. rewrite E1 in S. unfold alike_on in S.
    destruct (step dt (p, h1)) as [[p1 h2]|] eqn:F2; [|contradiction]. destruct S as [<- S2]. exists h2.
    pose proof (step_writes _ _ _ _ _ _ _ _ _ F2) as (_ & Y2 & M2 & D2).
    split; [reflexivity|]. split; [reflexivity|]. split; [|split].
    - destruct Z1 as (? & ? & ? & ?), Z2 as (? & ? & ? & ?), Y1 as (? & ? & ? & ?), Y2 as (? & ? & ? & ?). repeat split; congruence.
    - congruence.
    - intros f. destruct (In_dec_field f (writes (class_of p))) as [J|N].
      + eapply same_field_trans; [apply same_field_sym, C2; intros Y; exact (I2 f Y (writes_used _ _ J))|]. apply S2, writes_used, J.
      + destruct (In_dec_field f (writes (class_of q))) as [J'|N'].
        * eapply same_field_trans; [apply S1, writes_used, J'|]. apply D2, N.
        * eapply same_field_trans; [apply same_field_sym, C2, N'|]. eapply same_field_trans; [apply same_field_sym, C1, N|].
          eapply same_field_trans; [apply D1, N'|]. apply D2, N.
  Qed.

  (** all the components, in an order *)
  Notation run names dt st := (run_components (map (step_of E) names) dt st).

  Lemma dset_swap (ps : parts A X) a b p q : dget String.eqb ps a <> None -> dget String.eqb ps b <> None -> a <> b ->
    dset String.eqb (dset String.eqb ps a p) b q = dset String.eqb (dset String.eqb ps b q) a p.
  Proof.
    induction ps as [|[k v] ps IH]; cbn [dget]; intros Ha Hb N; [congruence|]. cbn [dset].
    destruct (String.eqb a k) eqn:Ka, (String.eqb b k) eqn:Kb; cbn [dset]; rewrite ?Ka, ?Kb; try reflexivity.
    - apply String.eqb_eq in Ka, Kb. congruence.
    - f_equal. apply IH; assumption.
  Qed.
  Lemma kind_dset (ps : parts A X) a p q n : dget String.eqb ps a = Some (Ours p) -> class_of q = class_of p ->
    kind (dset String.eqb ps a (Ours q)) n = kind ps n.
  Proof.
    intros D C. unfold kind. rewrite (dget_dset _ String.eqb_eq). destruct (String.eqb n a) eqn:K; [|reflexivity].
    apply String.eqb_eq in K as ->. rewrite D, C. reflexivity.
  Qed.
  Lemma kind_extra (ps : parts A X) a x y n : dget String.eqb ps a = Some (Extra x) ->
    kind (dset String.eqb ps a (Extra y)) n = kind ps n.
  Proof.
    intros D. unfold kind. rewrite (dget_dset _ String.eqb_eq). destruct (String.eqb n a) eqn:K; [|reflexivity].
    apply String.eqb_eq in K as ->. rewrite D. reflexivity.
  Qed.

  Definition near {P} (r r' : result (P * grid A)) : Prop :=
    match r, r' with Ok (p, g), Ok (p', g') => p = p' /\ same_grid g g' | Err _, Err _ => True | _, _ => False end.
  Lemma near_trans {P} (r1 r2 r3 : result (P * grid A)) : near r1 r2 -> near r2 r3 -> near r1 r3.
  Proof.
    unfold near. destruct r1 as [[p g]|], r2 as [[p' g']|], r3 as [[p'' g'']|]; try tauto. intros [-> H] [-> H']. split; [reflexivity|].
    eapply same_grid_trans; [apply H|apply H'].
  Qed.
  Lemma same_near {P} (r r' : result (P * grid A)) : same_pair r r' -> near r r'.
  Proof. unfold same_pair, near. destruct r as [[p g]|], r' as [[p' g']|]; tauto. Qed.

  Lemma kind_part (ps : parts A X) a c : kind ps a = Some c -> exists p, dget String.eqb ps a = Some (Ours p) /\ class_of p = c.
  Proof. unfold kind. destruct (dget String.eqb ps a) as [[p|x]|]; [|discriminate|discriminate]. intros H. exists p. split; [reflexivity|congruence]. Qed.
  Lemma two_steps dt a b (ps : parts A X) g p q : a <> b -> dget String.eqb ps a = Some (Ours p) -> dget String.eqb ps b = Some (Ours q) ->
    run [a; b] dt (ps, g) =
    (let* (p', g1) := step dt (p, g) in let* (q', g2) := step dt (q, g1) in
     Ok (dset String.eqb (dset String.eqb ps a (Ours p')) b (Ours q'), g2)).
  Proof.
    intros N Da Db. cbn [map]. unfold run_components. cbn [foldM]. unfold step_of. cbn [fst snd]. rewrite Da. cbn [bind]. unfold part_step at 1. cbn [fst snd].
    destruct (step dt (p, g)) as [[p' g1]|]; cbn [bind]; [|reflexivity]. cbn [fst snd]. rewrite (dget_dset _ String.eqb_eq).
    assert (F : String.eqb b a = false) by (apply String.eqb_neq; congruence). rewrite F, Db. unfold part_step. cbn [fst snd].
    destruct (step dt (q, g1)) as [[q' g2]|]; reflexivity.
  Qed.
  Lemma independent_sym c c' : independent c c' -> independent c' c. Proof. unfold independent. tauto. Qed.
  Lemma run_swap dt a b (ps : parts A X) g c c' : a <> b -> kind ps a = Some c -> kind ps b = Some c' -> independent c c' ->
    near (run [a; b] dt (ps, g)) (run [b; a] dt (ps, g)).
  Proof.
    intros N Ka Kb I. apply kind_part in Ka as (p & Dp & <-). apply kind_part in Kb as (q & Dq & <-).
    rewrite (two_steps dt a b ps g p q N Dp Dq), (two_steps dt b a ps g q p (not_eq_sym N) Dq Dp).
    destruct (step dt (p, g)) as [[p' g1]|] eqn:E1; cbn [bind].
    - destruct (step dt (q, g1)) as [[q' g2]|] eqn:E2; cbn [bind].
      + destruct (swapped dt p q g p' g1 q' g2 I E1 E2) as (h1 & h2 & F1 & F2 & S). rewrite F1. cbn [bind]. rewrite F2. cbn [bind]. split; [|exact S].
        apply dset_swap; congruence.
      + destruct (step dt (q, g)) as [[q' h1]|] eqn:F1; cbn [bind]; [|exact Logic.I].
        destruct (step dt (p, h1)) as [[p'' h2]|] eqn:F2; cbn [bind]; [|exact Logic.I].
        destruct (swapped dt q p g q' h1 p'' h2 (independent_sym _ _ I) F1 F2) as (k1 & k2 & G1 & G2 & _). congruence.
    - destruct (step dt (q, g)) as [[q' h1]|] eqn:F1; cbn [bind]; [|exact Logic.I].
      destruct (step dt (p, h1)) as [[p'' h2]|] eqn:F2; cbn [bind]; [|exact Logic.I].
      destruct (swapped dt q p g q' h1 p'' h2 (independent_sym _ _ I) F1 F2) as (k1 & k2 & G1 & G2 & _). congruence.
  Qed.

  (** the classes of the components stay *)
  Lemma step_of_kind dt n ps g ps' g' k : step_of E n dt (ps, g) = Ok (ps', g') -> kind ps' k = kind ps k.
  Proof.
    unfold step_of. cbn [fst snd]. destruct (dget String.eqb ps n) as [[p|x]|] eqn:D; [| |discriminate]; unfold part_step; cbn [fst snd].
    - destruct (step dt (p, g)) as [[p1 g1]|] eqn:E1; cbn [bind]; [|discriminate]. intros H.
      assert (Z : ps' = dset String.eqb ps n (Ours p1)) by congruence. subst ps'. eapply kind_dset; [exact D|].
      exact (proj1 (step_writes _ _ _ _ _ _ _ _ _ E1)).
    - destruct (ex_step E dt (x, g)) as [[x1 g1]|] eqn:E1; cbn [bind]; [|discriminate]. intros H.
      assert (Z : ps' = dset String.eqb ps n (Extra x1)) by congruence. subst ps'. eapply kind_extra. exact D.
  Qed.
  Lemma run_kind dt names : forall ps g ps' g' k, run names dt (ps, g) = Ok (ps', g') -> kind ps' k = kind ps k.
  Proof.
    unfold run_components. induction names as [|n names IH]; intros ps g ps' g' k; cbn [map foldM]; [congruence|].
    destruct (step_of E n dt (ps, g)) as [[ps1 g1]|] eqn:S; cbn [bind]; [|discriminate]. intros H. apply IH with (k := k) in H. rewrite H.
    eapply step_of_kind, S.
  Qed.

  Lemma run_app dt l l' st : run (l ++ l') dt st = bind (run l dt st) (fun st => run l' dt st).
  Proof. rewrite map_app. unfold run_components. rewrite foldM_app. reflexivity. Qed.
  Lemma near_run dt l r r' : near r r' -> near (bind r (fun st => run l dt st)) (bind r' (fun st => run l dt st)).
  Proof.
    unfold near at 1. destruct r as [[ps g]|], r' as [[ps' g']|]; try contradiction; cbn [bind]; [|intros _; exact Logic.I].
    intros [-> H]. apply same_near, sg_run, H.
  Qed.
  Lemma run_reordered (K : string -> option pclass) dt l l' : reordered K l l' -> forall ps g g', (forall n, kind ps n = K n) -> same_grid g g' ->
    near (run l dt (ps, g)) (run l' dt (ps, g')).
  Proof.
    induction 1 as [l|before a b after c c' N Ka Kb I|l1 l2 l3 _ IH1 _ IH2]; intros ps g g' HK S.
    - apply same_near, sg_run, S.
    - eapply near_trans; [|apply same_near, sg_run, S].
      rewrite !run_app. destruct (run before dt (ps, g)) as [[ps1 g1]|] eqn:R; cbn [bind]; [|exact Logic.I].
      change (a :: b :: after) with ([a; b] ++ after). change (b :: a :: after) with ([b; a] ++ after). rewrite !run_app.
      apply near_run. eapply run_swap; [exact N| | |exact I].
      + rewrite (run_kind _ _ _ _ _ _ a R), HK. exact Ka.
      + rewrite (run_kind _ _ _ _ _ _ b R), HK. exact Kb.
    - eapply near_trans; [apply IH1; [exact HK|exact S]|]. apply IH2; [exact HK|apply same_grid_refl].
  Qed.

  (** a whole model *)
  Definition alike (m m' : smodel A (parts A X)) : Prop :=
    sm_world m = sm_world m' /\ same_grid (sm_grid m) (sm_grid m') /\ sm_clock m = sm_clock m' /\ sm_archived m = sm_archived m'.
  Lemma advance_alike (K : string -> option pclass) l l' dt m m' : reordered K l l' -> (forall n, kind (sm_world m) n = K n) -> alike m m' ->
    match advance_components (named_processes E l) dt m, advance_components (named_processes E l') dt m' with
    | Ok m1, Ok m1' => alike m1 m1' /\ forall n, kind (sm_world m1) n = K n
    | Err _, Err _ => True
    | _, _ => False
    end.
  Proof.
    intros R HK (HW & HG & HC & HA). unfold advance_components, named_processes, pr_components, pr_porosity.
    pose proof (sg_clear _ _ HG) as C. unfold same_result in C. destruct (clear_deposit (sm_grid m)) as [g1|], (clear_deposit (sm_grid m')) as [g1'|]; try contradiction; cbn [bind]; [|exact Logic.I].
    rewrite <- HW. pose proof (run_reordered K dt l l' R (sm_world m) g1 g1' HK C) as N. unfold near in N.
    destruct (run_components (map (step_of E) l) dt (sm_world m, g1)) as [[ps g2]|] eqn:RC, (run_components (map (step_of E) l') dt (sm_world m, g1')) as [[ps' g2']|]; try contradiction; cbn [bind]; [|exact Logic.I].
    destruct N as [<- S]. rewrite (sg_node_r g2 g2' _ S), <- HC, (sg_properties _ _ g2 g2' S). rewrite <- (proj1 (proj2 S)).
    destruct (node_r g2 _) as [dz|]; cbn [bind]; [|exact Logic.I]. destruct (layer_properties _ _ g2) as [pr|]; cbn [bind]; [|exact Logic.I].
    destruct (el_add _ _ _) as [el|]; cbn [bind]; [|exact Logic.I].
    pose proof (sg_update _ _ (sg_layers g2 g2' el S)) as U. unfold same_result in U.
    destruct (update_fields (set_layers g2 el)) as [g3|], (update_fields (set_layers g2' el)) as [g3'|]; try contradiction; cbn [bind]; [|exact Logic.I].
    rewrite <- (proj1 (proj2 U)), <- HA. destruct (archive (sm_archived m, layers g3)) as [na el'].
    split; [|intros n; cbn [sm_world]; rewrite (run_kind _ _ _ _ _ _ n RC); apply HK].
    split; [reflexivity|]. split; [apply sg_layers, U|]. split; reflexivity.
  Qed.
  Lemma one_step_alike (K : string -> option pclass) l l' dt m m' : reordered K l l' -> (forall n, kind (sm_world m) n = K n) -> alike m m' ->
    match run_one_step (named_processes E l) dt m, run_one_step (named_processes E l') dt m' with
    | Stepped m1, Stepped m1' | ClockStop m1, ClockStop m1' => alike m1 m1' /\ forall n, kind (sm_world m1) n = K n
    | Raised _, Raised _ => True
    | _, _ => False
    end.
  Proof.
    intros R HK H. pose proof H as (HW & HG & HC & HA). unfold run_one_step. rewrite <- HC.
    destruct (clock_advance (sm_clock m)) as [c stop]. destruct stop; [split; [exact (conj HW (conj HG (conj eq_refl HA)))|exact HK]|].
    set (d := match dt with None => _ | Some _ => _ end). 
    assert (H' : alike (mkModel (sm_world m) (sm_grid m) c (sm_archived m)) (mkModel (sm_world m') (sm_grid m') c (sm_archived m'))) by exact (conj HW (conj HG (conj eq_refl HA))).
    pose proof (advance_alike K l l' d (mkModel (sm_world m) (sm_grid m) c (sm_archived m)) _ R HK H') as Y. destruct (advance_components _ _ _) as [m1|], (advance_components _ _ _) as [m1'|]; try contradiction; exact Y.
  Qed.

  (** assigning *)
  Lemma sg_attribute n v p g h : same_grid g h -> same_pair (set_attribute n v (p, g)) (set_attribute n v (p, h)).
  Proof.
    intros H. unfold set_attribute. destruct p as [c|c|c|c|c|d c|al]; try (destruct c);
      repeat match goal with |- context [if ?b then _ else _] => destruct b end;
      destruct v; cbn [as_number as_file bind fst snd]; try reflexivity; try (split; [reflexivity|exact H]);
      try (split; [reflexivity|apply sg_put_gval, H]).
    all: try (unfold subsidence_set_file, calc_subsidence_rate; rewrite (sg_columns _ _ H); destruct (mapM _ _); [split; [reflexivity|exact H]|reflexivity]).
    all: match goal with |- same_pair (bind ?r _) _ => destruct r; cbn [bind]; [split; [reflexivity|exact H]|reflexivity] end.
  Qed.
  Lemma sg_part_set n v p g h : same_grid g h -> same_pair (part_set E n v (p, g)) (part_set E n v (p, h)).
  Proof.
    intros H. unfold part_set. cbn [fst snd]. destruct p as [q|x].
    - pose proof (sg_attribute n v q g h H) as S. destruct (set_attribute n v (q, g)) as [[p1 g1]|], (set_attribute n v (q, h)) as [[p2 h1]|]; try contradiction; cbn [bind]; [|exact S].
      destruct S as [-> S]. split; [reflexivity|exact S].
    - pose proof (proj2 UV n v x g h H) as S. destruct (ex_set E n v (x, g)) as [[p1 g1]|], (ex_set E n v (x, h)) as [[p2 h1]|]; try contradiction; cbn [bind]; [|exact S].
      destruct S as [-> S]. split; [reflexivity|exact S].
  Qed.
  Definition part_kind (p : part A X) : option pclass := match p with Ours p => Some (class_of p) | Extra _ => None end.
  Lemma attribute_class n v p g p' g' : set_attribute n v (p, g) = Ok (p', g') -> class_of p' = class_of p.
  Proof.
    unfold set_attribute. destruct p as [c|c|c|c|c|d c|al]; try (destruct c);
      repeat match goal with |- context [if ?b then _ else _] => destruct b end;
      destruct v; cbn [as_number as_file bind fst snd]; try (unfold subsidence_set_file, calc_subsidence_rate; destruct (mapM _ _)); intros H;
      try discriminate H; try (assert (Z : forall T (a b : T), Ok a = Ok b -> a = b) by congruence; apply Z in H; assert (Y := f_equal fst H); cbn [fst] in Y; subst p'; reflexivity).
    all: match type of H with bind ?r _ = _ => destruct r end; cbn [bind] in H; try discriminate H; assert (Z : forall T (a b : T), Ok a = Ok b -> a = b) by congruence; apply Z in H; assert (Y := f_equal fst H); cbn [fst] in Y; subst p'; reflexivity.
  Qed.
  Lemma part_set_kind n v p g p' g' : part_set E n v (p, g) = Ok (p', g') -> part_kind p' = part_kind p.
  Proof.
    unfold part_set. cbn [fst snd]. destruct p as [q|x].
    - destruct (set_attribute n v (q, g)) as [[q1 g1]|] eqn:S; cbn [bind]; [|discriminate]. intros H. assert (Z : p' = Ours q1) by congruence. subst p'. cbn. f_equal. eapply attribute_class, S.
    - destruct (ex_set E n v (x, g)) as [[q1 g1]|] eqn:S; cbn [bind]; [|discriminate]. intros H. assert (Z : p' = Extra q1) by congruence. subst p'. reflexivity.
  Qed.
  Lemma sets_alike kvs : forall p g h, same_grid g h ->
    same_pair (foldM (fun pg kv => part_set E (fst kv) (snd kv) pg) kvs (p, g)) (foldM (fun pg kv => part_set E (fst kv) (snd kv) pg) kvs (p, h)).
  Proof.
    induction kvs as [|[n v] kvs IH]; intros p g h H; cbn [foldM fst snd]; [split; [reflexivity|exact H]|].
    pose proof (sg_part_set n v p g h H) as S. destruct (part_set E n v (p, g)) as [[p1 g1]|], (part_set E n v (p, h)) as [[p2 h1]|]; try contradiction; cbn [bind]; [|exact S].
    destruct S as [-> S]. apply IH, S.
  Qed.
  Lemma sets_kind kvs : forall p g p' g', foldM (fun pg kv => part_set E (fst kv) (snd kv) pg) kvs (p, g) = Ok (p', g') -> part_kind p' = part_kind p.
  Proof.
    induction kvs as [|[n v] kvs IH]; intros p g p' g'; cbn [foldM fst snd]; [congruence|].
    destruct (part_set E n v (p, g)) as [[p1 g1]|] eqn:S; cbn [bind]; [|discriminate]. intros H. apply IH in H. rewrite H. eapply part_set_kind, S.
  Qed.
  Lemma kind_is (ps : parts A X) n : kind ps n = match dget String.eqb ps n with Some p => part_kind p | None => None end.
  Proof. unfold kind. destruct (dget String.eqb ps n) as [[p|x]|]; reflexivity. Qed.
  Definition set_one (st : parts A X * grid A) (nv : string * section (pvalue A)) : result (parts A X * grid A) :=
    match dget String.eqb (fst st) (fst nv) with
    | None => Err KeyError
    | Some p => let* (p, g) := foldM (fun pg kv => part_set E (fst kv) (snd kv) pg) (snd nv) (p, snd st) in Ok (dset String.eqb (fst st) (fst nv) p, g)
    end.
  Lemma set_all_alike params : forall ps g h, same_grid g h -> same_pair (foldM set_one params (ps, g)) (foldM set_one params (ps, h)).
  Proof.
    induction params as [|[n kvs] params IH]; intros ps g h H; cbn [foldM]; [split; [reflexivity|exact H]|]. unfold set_one at 1 3. cbn [fst snd].
    destruct (dget String.eqb ps n) as [p|]; [|reflexivity]. pose proof (sets_alike kvs p g h H) as S.
    destruct (foldM _ kvs (p, g)) as [[p1 g1]|], (foldM _ kvs (p, h)) as [[p2 h1]|]; try contradiction; cbn [bind]; [|exact S]. destruct S as [-> S]. apply IH, S.
  Qed.
  Lemma set_all_kind params k : forall ps g ps' g', foldM set_one params (ps, g) = Ok (ps', g') -> kind ps' k = kind ps k.
  Proof.
    induction params as [|[n kvs] params IH]; intros ps g ps' g'; cbn [foldM]; [congruence|]. unfold set_one at 1. cbn [fst snd].
    destruct (dget String.eqb ps n) as [p|] eqn:D; [|discriminate].
    destruct (foldM _ kvs (p, g)) as [[p1 g1]|] eqn:S; cbn [bind]; [|discriminate]. intros H. apply IH in H. rewrite H.
    rewrite !kind_is, (dget_dset _ String.eqb_eq). destruct (String.eqb k n) eqn:Kn; [|reflexivity]. apply String.eqb_eq in Kn as ->. rewrite D. eapply sets_kind, S.
  Qed.
  Lemma set_model_is params m : set_model_params E params m =
    (let* (ps, g) := foldM set_one params (sm_world m, sm_grid m) in Ok (mkModel ps g (sm_clock m) (sm_archived m))).
  Proof. reflexivity. Qed.
  Lemma set_alike (K : string -> option pclass) params m m' : (forall n, kind (sm_world m) n = K n) -> alike m m' ->
    match set_model_params E params m, set_model_params E params m' with
    | Ok m1, Ok m1' => alike m1 m1' /\ forall n, kind (sm_world m1) n = K n
    | Err e, Err e' => e = e'
    | _, _ => False
    end.
  Proof.
    intros HK (HW & HG & HC & HA). rewrite !set_model_is, <- HW, <- HC, <- HA.
    pose proof (set_all_alike params (sm_world m) _ _ HG) as S.
    destruct (foldM set_one params (sm_world m, sm_grid m)) as [[ps g]|] eqn:R, (foldM set_one params (sm_world m, sm_grid m')) as [[ps' g']|]; try contradiction; cbn [bind]; [|exact S].
    destruct S as [-> S]. split; [exact (conj eq_refl (conj S (conj eq_refl eq_refl)))|]. intros n. cbn [sm_world]. rewrite (set_all_kind _ n _ _ _ _ R). apply HK.
  Qed.

  Theorem order_irrelevant names names' m calls : reordered (kind (sm_world m)) names names' ->
    Forall2 same_outcome (session E names calls m) (session E names' calls m).
  Proof.
    intros R. set (K := kind (sm_world m)) in *.
    assert (G : forall calls m m', (forall n, kind (sm_world m) n = K n) -> alike m m' -> Forall2 same_outcome (session E names calls m) (session E names' calls m')).
    { clear calls. intros calls. clearbody K. clear m. induction calls as [|[dt|params] calls IH]; intros m m' HK H; cbn [session]; [constructor| |].
      - pose proof (one_step_alike K _ _ dt m m' R HK H) as S.
        destruct (run_one_step (named_processes E names) dt m) as [m1|m1|e], (run_one_step (named_processes E names') dt m') as [m1'|m1'|e']; try contradiction.
        + destruct S as [S K']. constructor; [|apply IH; assumption]. destruct S as (_ & S & C & _). split; [rewrite C; reflexivity|exact S].
        + destruct S as [S K']. constructor; [exact Logic.I|apply IH; assumption].
        + repeat constructor.
      - pose proof (set_alike K params m m' HK H) as S.
        destruct (set_model_params E params m) as [m1|e], (set_model_params E params m') as [m1'|e']; try contradiction.
        + destruct S as [S K']. constructor; [|apply IH; assumption]. destruct S as (_ & S & C & _). split; [rewrite C; reflexivity|exact S].
        + repeat constructor. }
    apply G; [reflexivity|]. exact (conj eq_refl (conj (same_grid_refl _) (conj eq_refl eq_refl))).
  Qed.
End P.
