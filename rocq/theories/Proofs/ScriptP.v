(** Fields, once there, stay; processes create those they need. *)
From Coq Require Import String List ZArith QArith Bool Arith.
From Verif.Base Require Import Num Py Arr.
From Verif.Model Require Import Layers Grid Interp Shoreline SeaLevel Subsidence Bathymetry Flexure Submarine Fluvial SequenceModel Setattr.
From Verif.Spec Require Import Script.
Import ListNotations.
Local Open Scope string_scope.
Local Open Scope list_scope.

Definition nokey {X} (r : result X) : Prop := r <> Err KeyError.
Lemma nokey_ok {X} (x : X) : nokey (Ok x).
Proof. discriminate. Qed.
Lemma nokey_bind {X Y} (r : result X) (f : X -> result Y) :
  nokey r -> (forall x, r = Ok x -> nokey (f x)) -> nokey (bind r f).
Proof. unfold nokey. destruct r as [x|e]; cbn; intros Hr Hf; [apply Hf; reflexivity|congruence]. Qed.
Lemma nokey_mapM {X Y} (f : X -> result Y) l : (forall x, nokey (f x)) -> nokey (mapM f l).
Proof.
  intros Hf. induction l as [|x l IH]; cbn; [apply nokey_ok|].
  apply nokey_bind; [apply Hf|]. intros y _. apply nokey_bind; [exact IH|]. intros. apply nokey_ok.
Qed.
Lemma nokey_foldM {X S} (f : S -> X -> result S) l : (forall s x, nokey (f s x)) -> forall s, nokey (foldM f l s).
Proof.
  intros Hf. induction l as [|x l IH]; intros s; cbn; [apply nokey_ok|].
  apply nokey_bind; [apply Hf|]. intros y _. apply IH.
Qed.

Section P.
  Context {A : Type} {num : Num A} {tr : Trans A}.

  Definition has (g : grid A) (n : string) : Prop := exists f, node g n = Some f.
  Definition hasv (g : grid A) (n : string) : Prop := exists f, gval g n = Some f.
  Definition grows (g g' : grid A) : Prop := (forall n, has g n -> has g' n) /\ (forall n, hasv g n -> hasv g' n).
  Lemma grows_refl g : grows g g.
  Proof. split; auto. Qed.
  Lemma grows_trans g1 g2 g3 : grows g1 g2 -> grows g2 g3 -> grows g1 g3.
  Proof. intros [] []; split; auto. Qed.
  Lemma grows_put g n f : grows g (put_node g n f).
  Proof.
    split; [|auto]. intros k [v Hv]. unfold has, node, put_node; cbn. rewrite (dget_dset _ String.eqb_eq).
    destruct (String.eqb k n); eauto.
  Qed.
  Lemma has_put g n f : has (put_node g n f) n.
  Proof. unfold has, node, put_node; cbn. rewrite (dget_dset _ String.eqb_eq), String.eqb_refl. eauto. Qed.
  Lemma grows_gval g n f : grows g (put_gval g n f).
  Proof.
    split; [auto|]. intros k [v Hv]. unfold hasv, gval, put_gval; cbn. rewrite (dget_dset _ String.eqb_eq).
    destruct (String.eqb k n); eauto.
  Qed.
  Lemma hasv_put g n f : hasv (put_gval g n f) n.
  Proof. unfold hasv, gval, put_gval; cbn. rewrite (dget_dset _ String.eqb_eq), String.eqb_refl. eauto. Qed.
  Lemma grows_rowf g n f : grows g (put_rowf g n f).
  Proof. split; auto. Qed.
  Lemma ensured g n : grows g (ensure_node g n) /\ has (ensure_node g n) n.
  Proof.
    unfold ensure_node. destruct (has_node g n) eqn:E.
    - split; [apply grows_refl|]. unfold has_node, din in E. unfold has, node. destruct (dget _ _ _); [eauto|discriminate].
    - split; [apply grows_put|apply has_put].
  Qed.
  Lemma grows_ensure g n : grows g (ensure_node g n). Proof. apply ensured. Qed.
  Lemma has_ensure g n : has (ensure_node g n) n. Proof. apply ensured. Qed.
  Lemma nokey_node g n : has g n -> nokey (node_r g n).
  Proof. intros [f E]. unfold node_r. rewrite E. apply nokey_ok. Qed.
  Lemma nokey_gval g n : hasv g n -> nokey (gval_r g n).
  Proof. intros [f E]. unfold gval_r. rewrite E. apply nokey_ok. Qed.
  Lemma nokey_profile g n : has g n -> nokey (get_profile g n).
  Proof. intros E. apply nokey_bind; [apply nokey_node, E|]. intros. apply nokey_ok. Qed.
  Lemma nokey_set g n v : has g n -> nokey (set_profile g n v).
  Proof. intros E. apply nokey_bind; [apply nokey_node, E|]. intros. apply nokey_ok. Qed.
  Lemma set_grows g n v g' : set_profile g n v = Ok g' -> grows g g'.
  Proof.
    unfold set_profile. destruct (node_r g n); [|discriminate]. cbn. intros E. injection E as <-. apply grows_put.
  Qed.
  Lemma has_grows g g' n : grows g g' -> has g n -> has g' n. Proof. intros []; auto. Qed.
  Lemma hasv_grows g g' n : grows g g' -> hasv g n -> hasv g' n. Proof. intros []; auto. Qed.

  Lemma nokey_linear (x y : list A) v : nokey (interp_linear x y v).
  Proof. unfold nokey, interp_linear. cbv zeta. repeat match goal with |- context [if ?b then _ else _] => destruct b end; discriminate. Qed.
  Lemma nokey_loop n : forall f (fa xa dm : A), nokey (bisect_loop n f fa xa dm).
  Proof.
    induction n as [|n IH]; intros; cbn [bisect_loop]; [discriminate|]. cbv zeta.
    match goal with |- context [if (?a || ?b)%bool then _ else _] => destruct (a || b)%bool end; [apply nokey_ok|apply IH].
  Qed.
  Lemma nokey_bisect f (a b : A) : nokey (scipy_bisect f a b).
  Proof.
    unfold scipy_bisect. cbv zeta. repeat match goal with |- nokey (if ?b then _ else _) => destruct b end; try discriminate. apply nokey_loop.
  Qed.

  Section Interp.
  Context (interp1d : list A -> list A -> result (A -> A)) (Hi : forall x y, interp1d x y <> Err KeyError).
  Lemma nokey_shoreline x z (s : A) : nokey (find_shoreline interp1d x z s).
  Proof.
    unfold find_shoreline. destruct (find_shoreline_index x z s) as [i|e] eqn:E.
    - apply nokey_bind; [apply Hi|]. intros f _. destruct (pynth x _); [|discriminate]. destruct (pynth x _); [|discriminate]. apply nokey_bisect.
    - assert (D : e <> KeyError).
      { unfold find_shoreline_index in E. cbv zeta in E. destruct (Nat.eqb _ 0); [congruence|]. destruct (Nat.eqb _ _); [congruence|].
        destruct (where_below _ _ _); congruence. }
      destruct e; try (intros C; apply D; congruence). destruct z; [discriminate|]. destruct x; [discriminate|]. destruct (nltb a s); discriminate.
  Qed.
  Lemma nokey_edge x dz (s a : A) : nokey (find_shelf_edge x dz s a).
  Proof.
    unfold find_shelf_edge. cbv zeta. destruct (neqb a n0); [discriminate|]. destruct (Nat.leb _ _); [discriminate|].
    destruct (nth_error _ _); discriminate.
  Qed.
  Lemma nokey_row alpha x (s : A) zdz : nokey (shoreline_row interp1d alpha x s zdz).
  Proof.
    destruct zdz as [z dz]. cbn. apply nokey_bind; [apply nokey_shoreline|]. intros v _.
    pose proof (nokey_edge x dz v alpha) as D. destruct (find_shelf_edge _ _ _ _) as [w|e].
    - destruct (nltb v w); discriminate.
    - destruct e; try discriminate. exfalso. apply D. reflexivity.
  Qed.
  Lemma nokey_row_init alpha x (s : A) zdz : nokey (shoreline_row_init interp1d alpha x s zdz).
  Proof.
    destruct zdz as [z dz]. cbn. apply nokey_bind; [apply nokey_shoreline|]. intros v _.
    pose proof (nokey_edge x dz v alpha) as D. destruct (find_shelf_edge _ _ _ _) as [w|e]; [discriminate|].
    destruct e; try discriminate. exfalso. apply D. reflexivity.
  Qed.

  (* what a process needs *)
  Definition base (g : grid A) : Prop := has g TOPO /\ has g DEPOSIT /\ hasv g SEALEVEL.
  Definition serves (g : grid A) (p : process A) : Prop :=
    match p with
    | PSeaLevel c | PSinusoid c => forall t, nokey (slc_curve c t)
    | PSubsidence _ => has g INCREMENT
    | PSubmarine _ => has g KD
    | PFluvial _ => has g BEDROCK_INC /\ has g SAND
    | PFlexure _ _ _ => has g LITHO /\ has g TOTAL_LOAD /\ has g PRESSURE /\ has g BEDROCK_INC
    | PShoreline _ => True
    end.
  Lemma serves_grows g g' p : grows g g' -> serves g p -> serves g' p.
  Proof. intros []. destruct p; cbn; firstorder. Qed.
  Lemma base_grows g g' : grows g g' -> base g -> base g'.
  Proof. intros []. unfold base. firstorder. Qed.

  Ltac grow := first [ assumption | apply grows_refl
    | eapply grows_trans; [|apply grows_ensure]; grow
    | eapply grows_trans; [|apply grows_gval]; grow
    | eapply grows_trans; [|apply grows_rowf]; grow
    | eapply grows_trans; [|apply grows_put]; grow ].
  Ltac there := first [ assumption | apply has_ensure | apply has_put | apply hasv_put
    | eapply has_grows; [apply grows_ensure|]; there
    | eapply has_grows; [apply grows_put|]; there
    | eapply has_grows; [apply grows_gval|]; there
    | eapply hasv_grows; [apply grows_ensure|]; there
    | eapply hasv_grows; [apply grows_put|]; there
    | eapply hasv_grows; [apply grows_gval|]; there
    | match goal with E : set_profile ?g _ _ = Ok ?g' |- has ?g' _ => eapply has_grows; [exact (set_grows _ _ _ _ E)|]; there end
    | match goal with E : set_profile ?g _ _ = Ok ?g' |- hasv ?g' _ => eapply hasv_grows; [exact (set_grows _ _ _ _ E)|]; there end
    | match goal with E : grows ?g ?g' |- has ?g' _ => eapply has_grows; [exact E|]; there end
    | match goal with E : grows ?g ?g' |- hasv ?g' _ => eapply hasv_grows; [exact E|]; there end ].
  Ltac nk := cbv beta iota zeta; first
    [ apply nokey_ok
    | apply nokey_profile; there | apply nokey_node; there | apply nokey_gval; there | apply nokey_set; there
    | apply nokey_shoreline
    | apply nokey_mapM; intros; first [apply nokey_shoreline | apply nokey_row | apply nokey_row_init | apply nokey_linear]
    | discriminate
    | apply nokey_bind; [nk|]; let x := fresh "x" in let E := fresh "E" in intros x E; try destruct x as [? ?]; nk
    | match goal with |- nokey (if ?b then _ else _) => destruct b; nk end
    | match goal with |- nokey (let '(_, _) := ?e in _) => destruct e eqn:?; nk end
    | idtac ].

  Lemma nokey_kwd p n (d : A) : nokey (kwd p n d).
  Proof. unfold kwd. destruct (dget _ _ _) as [[]|]; discriminate. Qed.
  Lemma nokey_kwd_file (p : kwds A) n : nokey (kwd_file p n).
  Proof. unfold kwd_file. destruct (dget _ _ _) as [[]|]; discriminate. Qed.

  Lemma coef_grows shore c (g : grid A) c' g' : calc_diffusion_coef shore c g = Ok (c', g') -> grows g g'.
  Proof.
    unfold calc_diffusion_coef. destruct (gval_r g SEALEVEL) as [s|]; [|discriminate]. cbn [bind]. destruct (get_profile g TOPO) as [z|]; [|discriminate]. cbn [bind].
    destruct (get_profile g KD) as [k|]; [|discriminate]. cbn [bind]. destruct (negb _); [discriminate|].
    destruct (kd_rows _ _ _ _ _ _ _ _ _) as [c1 k1]. destruct (set_profile g KD k1) as [g1|] eqn:E; [|discriminate]. cbn [bind].
    destruct (node_r g1 KD) as [f|]; [|discriminate]. cbn [bind]. intros X. assert (Y : g' = put_node g1 KD (mirror_boundary f)) by congruence. subst g'.
    eapply grows_trans; [exact (set_grows _ _ _ _ E)|apply grows_put].
  Qed.
  Lemma nokey_coef shore c (g : grid A) : base g -> has g KD -> nokey (calc_diffusion_coef shore c g).
  Proof. intros (Ht & Hd & Hs) Hk. unfold calc_diffusion_coef. nk. Qed.

  Ltac steps E := repeat (cbn [bind] in E; match type of E with
    | bind ?r _ = Ok _ => let H := fresh "K" in destruct r eqn:H; [|discriminate E]
    end); cbn [bind] in E.
  Ltac pairE E c g := cbn [bind] in E; match type of E with (let (_, _) := ?q in _) = _ => destruct q as [c g] end; cbn [bind] in E.
  Lemma constructed cls p (g : grid A) : base g ->
    nokey (construct interp1d cls p g) /\ forall o g', construct interp1d cls p g = Ok (o, g') -> grows g g' /\ serves g' o.
  Proof.
    intros (Ht & Hd & Hs). unfold construct. destruct (negb _); [split; [discriminate|intros; discriminate]|].
    destruct cls.
    - split.
      + apply nokey_bind; [apply nokey_kwd_file|]. intros. apply nokey_bind; [apply nokey_kwd|]. intros. apply nokey_ok.
      + intros o g' E. steps E. injection E as <- <-. split; [apply grows_refl|]. intros t. apply nokey_linear.
    - split.
      + repeat (apply nokey_bind; [apply nokey_kwd|intros]). apply nokey_ok.
      + intros o g' E. steps E. injection E as <- <-. split; [apply grows_refl|]. intros t. apply nokey_ok.
    - split.
      + apply nokey_bind; [apply nokey_kwd_file|]. intros. unfold subsidence_init. cbv zeta.
        apply nokey_bind; [|intros; apply nokey_ok]. apply nokey_bind; [|intros; apply nokey_ok]. apply nokey_mapM. intros; apply nokey_linear.
      + intros o g' E. steps E. unfold subsidence_init in E. cbv zeta in E. steps E. injection E as <- <-.
        change (if has_node g INCREMENT then g else put_node g INCREMENT (full (g_rows g + 2) (g_cols g) n0)) with (ensure_node g INCREMENT).
        split; [apply grows_ensure|apply has_ensure].
    - split.
      + repeat (apply nokey_bind; [apply nokey_kwd|intros]). unfold submarine_init. cbv zeta. cbn [p_plain_slope].
        match goal with |- context [if ?b then _ else _] => destruct b end; discriminate.
      + intros o g' E. steps E. unfold submarine_init in *. cbv zeta in *. 
        match goal with K : (if ?b then _ else _) = Ok _ |- _ => destruct b; [discriminate K|]; injection K as <- end.
        cbn [bind] in E. injection E as <- <-. split; [grow|]. cbn. there.
    - split.
      + repeat (apply nokey_bind; [apply nokey_kwd|intros]). apply nokey_ok.
      + intros o g' E. steps E. injection E as <- <-. split; [grow|]. split; there.
    - split.
      + repeat (apply nokey_bind; [apply nokey_kwd|intros]). apply nokey_bind.
        * unfold densities_init, validate_density. repeat (apply nokey_bind; [match goal with |- context [if ?b then _ else _] => destruct b end; discriminate|intros]).
          apply nokey_ok.
        * intros d _. apply nokey_bind; [|intros [] _; apply nokey_ok]. unfold sed_flexure_init. cbv zeta.
          apply nokey_bind; [|intros; apply nokey_bind; [apply nokey_profile; there|intros; apply nokey_ok]].
          unfold dyn_init. apply nokey_bind; [|intros; apply nokey_ok]. destruct (isclose0 _); [discriminate|].
          unfold validate_isostasy_time. match goal with |- context [if ?b then _ else _] => destruct b end; discriminate.
      + intros o g' E. steps E. pairE E c0 g0. injection E as <- <-. unfold sed_flexure_init in *. cbv zeta in *.
        match goal with K : bind _ _ = Ok (c0, g0) |- _ => steps K; injection K as <- <- end.
        split; [grow|]. repeat split; there.
    - split.
      + apply nokey_bind; [apply nokey_kwd|intros alpha _]. apply nokey_bind; [|intros; apply nokey_ok]. unfold shoreline_init. cbv zeta.
        assert (B : forall n, has g n -> forall v w, has (put_rowf (put_rowf g "x_of_shore" v) "x_of_shelf_edge" w) n) by (intros; assumption).
        assert (B' : forall n, hasv g n -> forall v w, hasv (put_rowf (put_rowf g "x_of_shore" v) "x_of_shelf_edge" w) n) by (intros; assumption).
        apply nokey_bind; [apply nokey_profile, B, Ht|intros]. apply nokey_bind; [apply nokey_profile, B, Hd|intros].
        apply nokey_bind; [apply nokey_gval, B', Hs|intros]. apply nokey_bind; [|intros; apply nokey_ok].
        apply nokey_mapM. intros. apply nokey_row_init.
      + intros o g' E. steps E. injection E as <- <-. unfold shoreline_init in *. cbv zeta in *.
        match goal with K : bind _ _ = Ok _ |- _ => steps K; injection K as <- end. split; [grow|exact I].
  Qed.

  Lemma changed p (g : grid A) name v : serves g p ->
    nokey (set_attribute name v (p, g)) /\ forall p' g', set_attribute name v (p, g) = Ok (p', g') -> grows g g' /\ serves g' p'.
  Proof.
    intros Hp.
    assert (N : forall v : pvalue A, nokey (as_number v)) by (intros []; discriminate).
    assert (F : forall v : pvalue A, nokey (as_file v)) by (intros []; discriminate).
    destruct p; unfold set_attribute; cbv zeta.
    - destruct (String.eqb name "filepath").
      { split; [apply nokey_bind; [apply F|intros; apply nokey_ok]|]. intros p' g' E. steps E. injection E as <- <-. split; [apply grows_refl|].
        intros t. apply nokey_linear. }
      destruct (String.eqb name "time").
      { split; [apply nokey_bind; [apply N|intros; apply nokey_ok]|]. intros p' g' E. steps E. injection E as <- <-. split; [apply grows_refl|]. exact Hp. }
      split; [apply nokey_ok|]. intros p' g' E. injection E as <- <-. split; [apply grows_refl|]. exact Hp.
    - destruct (String.eqb name "filepath").
      { split; [apply nokey_bind; [apply F|intros; discriminate]|]. intros p' g' E. steps E. discriminate. }
      destruct (String.eqb name "time").
      { split; [apply nokey_bind; [apply N|intros; apply nokey_ok]|]. intros p' g' E. steps E. injection E as <- <-. split; [apply grows_refl|]. exact Hp. }
      split; [apply nokey_ok|]. intros p' g' E. injection E as <- <-. split; [apply grows_refl|]. exact Hp.
    - destruct (String.eqb name "filepath").
      { assert (R : forall x y, nokey (calc_subsidence_rate x y g)) by (intros; apply nokey_mapM; intros; apply nokey_linear).
        split.
        - apply nokey_bind; [apply F|intros [x y] _]. cbn [fst snd]. unfold subsidence_set_file. specialize (R x y).
          destruct (calc_subsidence_rate x y g); [discriminate|]. intros C. apply R. congruence.
        - intros p' g' E. steps E. unfold subsidence_set_file in E. destruct (calc_subsidence_rate _ _ g); [|discriminate]. injection E as <- <-.
          split; [apply grows_refl|]. exact Hp. }
      destruct (existsb _ _); [split; [discriminate|intros; discriminate]|].
      split; [apply nokey_ok|]. intros p' g' E. injection E as <- <-. split; [apply grows_refl|]. exact Hp.
    - repeat match goal with |- context [if String.eqb name ?n then _ else _] => destruct (String.eqb name n);
        [ split; [apply nokey_bind; [apply N|intros; apply nokey_ok]|]; intros p' g' E; steps E; injection E as <- <-; split; [grow|]; cbn in *; there |] end.
      destruct (existsb _ _); [split; [discriminate|intros; discriminate]|].
      split; [apply nokey_ok|]. intros p' g' E. injection E as <- <-. split; [apply grows_refl|]. exact Hp.
    - destruct c as [sf sl sd ps wb he].
      repeat match goal with |- context [if String.eqb name ?n then _ else _] => destruct (String.eqb name n);
        [ split; [apply nokey_bind; [apply N|intros; apply nokey_ok]|]; intros p' g' E; steps E; injection E as <- <-; split; [grow|]; exact Hp |] end.
      split; [apply nokey_ok|]. intros p' g' E. injection E as <- <-. split; [apply grows_refl|]. exact Hp.
    - repeat match goal with |- context [if String.eqb name ?n then _ else _] => destruct (String.eqb name n);
        [ split; [apply nokey_bind; [apply N|intros; apply nokey_bind; [|intros; apply nokey_ok]];
                  unfold set_sand_density, set_mud_density, set_water_density, validate_density;
                  apply nokey_bind; [match goal with |- context [if ?b then _ else _] => destruct b end; discriminate|intros; apply nokey_ok]|];
          intros p' g' E; steps E; injection E as <- <-; split; [grow|]; exact Hp |] end.
      destruct (existsb _ _); [split; [discriminate|intros; discriminate]|].
      destruct (existsb _ _); (split; [apply nokey_ok|]); intros p' g' E; injection E as <- <-; (split; [apply grows_refl|]); exact Hp.
    - destruct (String.eqb name "alpha"); [split; [discriminate|intros; discriminate]|].
      split; [apply nokey_ok|]. intros p' g' E. injection E as <- <-. split; [apply grows_refl|]. exact Hp.
  Qed.

  Context (diffuse : A -> field A -> field A -> field A) (flexure : kwds A -> field A -> field A) (gravity : kwds A -> A).
  Lemma sea_level_stepped dt c (g : grid A) : hasv g SEALEVEL -> (forall t, nokey (slc_curve c t)) ->
    match sea_level_step dt c g with
    | (c', g', None) => grows g g' /\ slc_curve c' = slc_curve c
    | (_, _, Some e) => e <> KeyError
    end.
  Proof.
    intros [v Hv] Hc. unfold sea_level_step. cbv zeta. change (gval g "sea_level__elevation") with (gval g SEALEVEL). rewrite Hv. cbn [slc_curve slc_time].
    pose proof (Hc (nadd (slc_time c) dt)) as N. destruct (slc_curve c _) as [w|e].
    - split; [grow|reflexivity].
    - intros ->. apply N. reflexivity.
  Qed.
  Lemma advanced p (g : grid A) dt : base g -> serves g p ->
    nokey (process_step interp1d diffuse flexure gravity dt (p, g))
    /\ forall p' g', process_step interp1d diffuse flexure gravity dt (p, g) = Ok (p', g') -> grows g g' /\ serves g' p'.
  Proof.
    intros B Hp. pose proof B as (Ht & Hd & Hs). unfold process_step. destruct p.
    1-2: pose proof (sea_level_stepped dt c g Hs Hp) as X; destruct (sea_level_step dt c g) as [[c' g'] [e|]];
         [split; [intros C; apply X; congruence|intros; discriminate]|];
         destruct X as [G C]; split; [discriminate|]; intros p' g1 E; injection E as <- <-; split; [exact G|]; cbn; rewrite C; exact Hp.
    - cbn [serves] in Hp. split.
      + apply nokey_bind; [|intros []; intros; apply nokey_ok]. unfold subsidence_step.
        apply nokey_bind; [apply nokey_profile, Hp|intros]. cbv zeta. apply nokey_bind; [apply nokey_set, Hp|intros; apply nokey_ok].
      + intros p' g' E. steps E. pairE E c1 g1. injection E as <- <-. unfold subsidence_step in K. steps K. cbv zeta in K. steps K. injection K as <- <-.
        match goal with S : set_profile g _ _ = Ok _ |- _ => pose proof (set_grows _ _ _ _ S) as G end. split; [exact G|]. cbn. apply G, Hp.
    - cbn [serves] in Hp. split.
      + apply nokey_bind; [|intros []; intros; apply nokey_ok]. unfold submarine_step.
        apply nokey_bind; [apply nokey_profile, Ht|intros]. apply nokey_bind; [apply nokey_gval, Hs|intros].
        apply nokey_bind; [apply nokey_mapM; intros; apply nokey_shoreline|intros shore _].
        apply nokey_bind; [apply nokey_coef; assumption|intros [c1 g1] E]. pose proof (coef_grows _ _ _ _ _ E) as G.
        apply nokey_bind; [apply nokey_node, G, Ht|intros z1 _]. cbv zeta. destruct (Nat.ltb _ _); [discriminate|].
        apply nokey_bind; [apply nokey_node, G, Hp|intros kd _]. apply nokey_bind; [apply nokey_node; apply grows_put, G, Hd|intros; apply nokey_ok].
      + intros p' g' E. steps E. pairE E c2 g2. injection E as <- <-. unfold submarine_step in K. steps K. pairE K c1 g1. steps K. cbv zeta in K.
        destruct (Nat.ltb _ _); [discriminate|]. steps K. injection K as <- <-.
        match goal with S : calc_diffusion_coef _ _ _ = Ok _ |- _ => pose proof (coef_grows _ _ _ _ _ S) as G end.
        split; [grow|]. cbn. there.
    - cbn [serves] in Hp. destruct Hp as [Hb Hsa]. split.
      + apply nokey_bind; [|intros; apply nokey_ok]. unfold fluvial_step. destruct (neqb _ _); [discriminate|]. cbv zeta. destruct (neqb _ _); [discriminate|].
        destruct (neqb _ _); [discriminate|].
        apply nokey_bind; [apply nokey_profile, Ht|intros z _]. apply nokey_bind; [apply nokey_gval, Hs|intros sl _].
        apply nokey_bind; [apply nokey_shoreline|intros]. apply nokey_bind; [unfold np_gradient; destruct (Nat.ltb _ _); discriminate|intros].
        apply nokey_bind; [apply nokey_profile, Hd|intros]. apply nokey_bind; [apply nokey_profile, Hb|intros]. apply nokey_bind; [apply nokey_profile, Hsa|intros].
        apply nokey_bind.
        { apply nokey_foldM. intros [[a b] c0] i. unfold walk_node. cbv zeta. apply nokey_bind.
          - destruct (nltb _ _); [|discriminate]. destruct (nth_error _ _); discriminate.
          - intros. destruct (Nat.ltb _ _); discriminate. }
        intros [[a b] c0] _. destruct (fold_left _ _ _) as [tp am]. apply nokey_bind; [apply nokey_set, Hsa|intros g1 E]. apply nokey_set. there.
      + intros p' g' E. steps E. injection E as <- <-. unfold fluvial_step in K. destruct (neqb _ _); [discriminate|]. cbv zeta in K. destruct (neqb _ _); [discriminate|].
        destruct (neqb _ _); [discriminate|]. steps K. cbn [bind] in K. match type of K with (let (_, _) := ?q in _) = _ => destruct q as [[u1 u2] u3] end. destruct (fold_left _ _ _) as [tp am]. steps K.
        match goal with S : set_profile g _ _ = Ok _ |- _ => pose proof (set_grows _ _ _ _ S) as G1 end. pose proof (set_grows _ _ _ _ K) as G2.
        pose proof (grows_trans _ _ _ G1 G2) as G. split; [exact G|]. split; apply G; assumption.
    - cbn [serves] in Hp. destruct Hp as (H1 & H2 & H3 & H4). split.
      + apply nokey_bind; [|intros []; intros; apply nokey_ok]. unfold sed_flexure_step.
        apply nokey_bind; [apply nokey_profile, H1|intros]. apply nokey_bind; [apply nokey_set, H1|intros g1 E1].
        apply nokey_bind; [apply nokey_profile; there|intros]. cbv zeta. apply nokey_bind; [apply nokey_set; there|intros g2 E2].
        apply nokey_bind; [apply nokey_profile; there|intros]. apply nokey_bind; [apply nokey_set; there|intros g3 E3].
        apply nokey_bind; [apply nokey_profile; there|intros]. destruct (calc_dynamic_deflection _ _ _).
        apply nokey_bind; [apply nokey_profile; there|intros]. apply nokey_bind; [apply nokey_set; there|intros; apply nokey_ok].
      + intros p' g' E. steps E. pairE E c1 g1. injection E as <- <-. unfold sed_flexure_step in K. cbv zeta in K. steps K.
        destruct (calc_dynamic_deflection _ _ _). steps K. injection K as _ K.
        assert (G : grows g g1).
        { rewrite <- K. repeat match goal with S : set_profile _ _ _ = Ok _ |- _ => apply set_grows in S end. eauto using grows_trans. }
        split; [exact G|]. repeat split; apply G; assumption.
    - split.
      + apply nokey_bind; [|intros; apply nokey_ok]. unfold shoreline_update.
        apply nokey_bind; [apply nokey_profile, Ht|intros]. apply nokey_bind; [apply nokey_profile, Hd|intros].
        apply nokey_bind; [apply nokey_gval, Hs|intros]. apply nokey_bind; [|intros; apply nokey_ok].
        apply nokey_mapM. intros. apply nokey_row.
      + intros p' g' E. steps E. injection E as <- <-. unfold shoreline_update in K. steps K. injection K as <-. split; [grow|exact I].
  Qed.

  Lemma played_one ps (g : grid A) a : base g -> Forall (serves g) ps ->
    nokey (play_act interp1d diffuse flexure gravity (ps, g) a)
    /\ forall ps' g', play_act interp1d diffuse flexure gravity (ps, g) a = Ok (ps', g') -> base g' /\ Forall (serves g') ps'.
  Proof.
    intros B F. assert (R : forall g' i p', grows g g' -> serves g' p' -> Forall (serves g') (replaced ps i p')).
    { intros g' i p' G Hp. assert (F' : Forall (serves g') ps) by (eapply Forall_impl; [intros p; apply serves_grows; exact G|exact F]).
      unfold replaced. apply Forall_app. split; [|constructor; [exact Hp|]].
      - rewrite <- (firstn_skipn i ps) in F'. apply Forall_app in F'. apply F'.
      - rewrite <- (firstn_skipn (S i) ps) in F'. apply Forall_app in F'. apply F'. }
    destruct a as [cls params|i name v|i dt]; cbn [play_act].
    - destruct (constructed cls params g B) as [N C]. destruct (construct interp1d cls params g) as [[p g1]|e].
      + split; [discriminate|]. intros ps' g' E. injection E as <- <-. destruct (C p g1 eq_refl) as [G Hp].
        split; [eapply base_grows; eassumption|]. apply Forall_app. split; [|repeat constructor; exact Hp].
        eapply Forall_impl; [intros q; apply serves_grows; exact G|exact F].
      + split; [|intros; discriminate]. intros X. apply N. congruence.
    - destruct (nth_error ps i) as [p|] eqn:Hi'; [|split; [discriminate|intros; discriminate]].
      assert (Hp : serves g p) by (rewrite Forall_forall in F; apply F, (nth_error_In _ _ Hi')).
      destruct (changed p g name v Hp) as [N C]. destruct (set_attribute name v (p, g)) as [[p1 g1]|e].
      + split; [discriminate|]. intros ps' g' E. injection E as <- <-. destruct (C p1 g1 eq_refl) as [G Hp1].
        split; [eapply base_grows; eassumption|]. apply R; assumption.
      + split; [|intros; discriminate]. intros X. apply N. congruence.
    - destruct (nth_error ps i) as [p|] eqn:Hi'; [|split; [discriminate|intros; discriminate]].
      assert (Hp : serves g p) by (rewrite Forall_forall in F; apply F, (nth_error_In _ _ Hi')).
      destruct (advanced p g dt B Hp) as [N C]. destruct (process_step interp1d diffuse flexure gravity dt (p, g)) as [[p1 g1]|e].
      + split; [discriminate|]. intros ps' g' E. injection E as <- <-. destruct (C p1 g1 eq_refl) as [G Hp1].
        split; [eapply base_grows; eassumption|]. apply R; assumption.
      + split; [|intros; discriminate]. intros X. apply N. congruence.
  Qed.
  Lemma played_from script : forall ps (g : grid A), base g -> Forall (serves g) ps ->
    foldM (play_act interp1d diffuse flexure gravity) script (ps, g) <> Err KeyError.
  Proof.
    induction script as [|a script IH]; intros ps g B F; cbn [foldM]; [discriminate|].
    destruct (played_one ps g a B F) as [N C]. apply nokey_bind; [exact N|]. intros [ps' g'] E. destruct (C ps' g' E) as [B' F'].
    apply IH; assumption.
  Qed.
  Lemma played_diffuser (g : grid A) params script : node g "topographic__elevation" <> None ->
    play interp1d diffuse flexure gravity (Create SubmarineDiffuser params :: script) g <> Err KeyError.
  Proof.
    intros Ht0. assert (Ht : has g TOPO).
    { change (exists f, node g "topographic__elevation" = Some f). destruct (node g "topographic__elevation"); [eauto|contradiction]. }
    unfold play. cbn [foldM]. apply nokey_bind.
    - cbn [play_act].
      assert (N : nokey (construct interp1d SubmarineDiffuser params g)).
      { unfold construct. destruct (negb _); [discriminate|]. repeat (apply nokey_bind; [apply nokey_kwd|intros]). unfold submarine_init. cbv zeta. cbn [p_plain_slope].
        match goal with |- context [if ?b then _ else _] => destruct b end; discriminate. }
      destruct (construct interp1d SubmarineDiffuser params g) as [[p g1]|e]; [discriminate|].
      intros C. apply N. congruence.
    - intros [ps g1] E. apply played_from.
      + cbn [play_act] in E. destruct (construct interp1d SubmarineDiffuser params g) as [[p g2]|] eqn:K; [|discriminate]. injection E as <- <-.
        unfold construct in K. destruct (negb _); [discriminate|]. steps K. pairE K c0 g0. injection K as <- <-.
        match goal with K : submarine_init _ _ = Ok _ |- _ => unfold submarine_init in K; cbv zeta in K;
          match type of K with (if ?b then _ else _) = _ => destruct b; [discriminate K|] end; injection K as _ <- end.
        split; [|split]; there.
      + cbn [play_act] in E. destruct (construct interp1d SubmarineDiffuser params g) as [[p g2]|] eqn:K; [|discriminate]. injection E as <- <-.
        unfold construct in K. destruct (negb _); [discriminate|]. steps K. pairE K c0 g0. injection K as <- <-.
        match goal with K : submarine_init _ _ = Ok _ |- _ => unfold submarine_init in K; cbv zeta in K;
          match type of K with (if ?b then _ else _) = _ => destruct b; [discriminate K|] end; injection K as _ <- end.
        repeat constructor. cbn. there.
  Qed.
  Lemma played (g : grid A) script : node g "topographic__elevation" <> None -> node g "sediment_deposit__thickness" <> None ->
    gval g "sea_level__elevation" <> None -> play interp1d diffuse flexure gravity script g <> Err KeyError.
  Proof.
    intros Ht Hd Hs. assert (B : base g).
    { split; [|split].
      - change (exists f, node g "topographic__elevation" = Some f). destruct (node g "topographic__elevation"); [eauto|contradiction].
      - change (exists f, node g "sediment_deposit__thickness" = Some f). destruct (node g "sediment_deposit__thickness"); [eauto|contradiction].
      - change (exists f, gval g "sea_level__elevation" = Some f). destruct (gval g "sea_level__elevation"); [eauto|contradiction]. }
    clear Ht Hd Hs.
    unfold play. assert (F : Forall (serves g) []) by constructor. revert g B F. generalize (@nil (process A)).
    induction script as [|a script IH]; intros ps g B F; cbn [foldM]; [discriminate|].
    destruct (played_one ps g a B F) as [N C]. apply nokey_bind; [exact N|]. intros [ps' g'] E. destruct (C ps' g' E) as [B' F'].
    apply IH; assumption.
  Qed.
  End Interp.
End P.
