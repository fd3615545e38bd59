(** Models with a SedimentFlexure. *)
From Coq Require Import String List ZArith QArith Bool Arith Reals Lra Lia.
From Verif.Base Require Import Num Py Arr.
From Verif.Model Require Import Layers Grid Csv Flexure Sequence SequenceModel Setattr Processes Whole.
From Verif.Spec Require Import Column Session Configured Parameters Followed Bending.
From Verif.Proofs Require Import GridP SequenceModelP FluvialEx ScriptP ScriptEx ShapesP WholeP LoadP FollowP SinkP WholeEx BendP.
Import ListNotations.
Local Open Scope string_scope.
Local Open Scope list_scope.

(* a plate that sinks by some of what is put on it *)
Definition ex_bent {A} `{Num A} (interp1d : list A -> list A -> result (A -> A)) : externals A unit :=
  mkExternals _ _ interp1d (fun _ _ z => z) (fun _ f => fmap (nmul (nlit (1 # 1000000))) f) (fun _ => nlit 10) (fun _ _ g => kept g) (fun _ xg => kept (snd xg)) (fun _ _ xg => kept (snd xg))
    (fun _ => nlit (1 # 4)).
Lemma ex_bent_behaved {A} `{Num A} (i1 : list A -> list A -> result (A -> A)) : (forall x y, i1 x y <> Err KeyError) -> well_behaved (ex_bent i1).
Proof.
  intros Hi. assert (K : forall g : grid A, whole_grid g -> adds_only g g) by (intros g W; split; [exact W|]; auto 10).
  constructor; cbn.
  - exact Hi.
  - auto.
  - intros k n m f S. apply shaped_fmap. exact S.
  - intros cls ps g x g' W Y. unfold kept in Y. assert (g' = g) by congruence. subst. auto.
  - intros dt x g x' g' W Y. unfold kept in Y. assert (g' = g) by congruence. subst. auto.
  - intros n v x g x' g' W Y. unfold kept in Y. assert (g' = g) by congruence. subst. auto.
Qed.
Lemma ex_bent_bedrock {A} `{Num A} (i1 : list A -> list A -> result (A -> A)) : leaves_bedrock (ex_bent i1).
Proof.
  assert (K : forall g : grid A, same_bedrock g g) by (intros g; repeat split).
  split; [|split]; intros; cbn in *; unfold kept in *; match goal with H : Ok _ = Ok (?x, ?g') |- _ => match type of H with Ok (_, ?h) = _ => assert (g' = h) by congruence; subst g' end end; auto 10.
  all: destruct (K g) as (? & ? & ? & ? & ?); auto 10.
Qed.
Lemma ex_bent_load {A} `{Num A} (i1 : list A -> list A -> result (A -> A)) : leaves_load (ex_bent i1).
Proof. intros dt x g x' g' Y. cbn in Y. unfold kept in Y. assert (g' = g) by congruence. subst. reflexivity. Qed.

Section Loads.
  Local Open Scope R_scope.
  Lemma ex_bent_linear (i1 : list R -> list R -> result (R -> R)) : linear_plate (ex_bent i1).
  Proof.
    intros k n m p q i j Sp Sq Hi Hj. cbn [ex_bent ex_flexure]. rewrite n0_R. rewrite !(at2_fmap _ n m _ 0 0) by (try apply shaped_fmap2; assumption).
    rewrite (at2_fmap2 nadd n m _ _ 0 0 0) by assumption. numR. ring.
  Qed.
  (* a plate that bends at once *)
  Definition ex_at_once {A} (zero : A) : context (pvalue A) := [("flexure", [("isostasytime", Number zero)])].
  Lemma flexure_makes i1 (g : grid R) : exists d c g', construct i1 SedimentFlexure [("isostasytime", Number 0)] g = Ok (PFlexure d [] c, g') /\ df_time (sf_dyn c) = None.
  Proof.
    unfold construct. cbn -[nlit n0 densities_init sed_flexure_init]. unfold kwd. cbn -[nlit n0 densities_init sed_flexure_init].
    assert (D : exists d : densities R, densities_init (nlit 2650) (nlit 2720) (nlit 1030) = Ok d).
    { apply FlexureP.densities_init_ok. cbn. unfold Q2R. simpl. lra. }
    destruct D as [d ->]. cbn [bind]. unfold sed_flexure_init. cbv zeta.
    set (g1 := ensure_node g TOTAL_LOAD). unfold dyn_init. assert (Y : @isclose0 R _ 0 = true) by (apply FlexureP.isclose0_R; rewrite Rabs_R0; unfold Q2R; simpl; lra).
    rewrite Y. cbn [bind].
    assert (N : exists f, node g1 TOTAL_LOAD = Some f).
    { unfold g1, ensure_node. destruct (has_node g TOTAL_LOAD) eqn:Hn; [|rewrite node_put_same; eauto]. unfold has_node, din in Hn. fold (node g TOTAL_LOAD) in Hn. destruct (node g TOTAL_LOAD); [eauto|discriminate]. }
    destruct N as [f N]. set (g4 := ensure_node (ensure_node (ensure_node g1 PRESSURE) LITHO) BEDROCK_INC).
    assert (N4 : node g4 TOTAL_LOAD = Some f).
    { assert (P : forall (h : grid R) k, k <> TOTAL_LOAD -> node h TOTAL_LOAD = Some f -> node (ensure_node h k) TOTAL_LOAD = Some f).
      { intros h k Hk Hh. unfold ensure_node. destruct (has_node h k); [exact Hh|]. rewrite node_put. destruct (String.eqb_spec TOTAL_LOAD k); [congruence|exact Hh]. }
      unfold g4. repeat (apply P; [discriminate|]). exact N. }
    unfold get_profile, node_r. rewrite N4. cbn [bind]. eauto 8.
  Qed.
  Lemma ex_bent_loads : exists (g : grid R) names m, load_grid ex_grid4 (Some (read_bathymetry ex_flat)) = Ok g
    /\ (2 <= g_cols g)%nat /\ g_rows g = 1%nat /\ 0 < g_dx g
    /\ load_model (ex_bent ex_level) ex_grid4 (read_bathymetry ex_flat) ["flexure"] (ex_at_once 0) (clock_init 0 (Some 10) 1) = Ok (names, m)
    /\ In "flexure" names /\ ~ In "subsidence" names /\ isostasy_of m = None.
  Proof.
    destruct ex_grid4_loads as (g & El & Hr & Hc & Hd). exists g.
    assert (G : (2 <= g_cols g)%nat /\ (0 < g_rows g)%nat /\ 0 < g_dx g) by (rewrite Hr, Hc, Hd; split; [lia|]; split; [lia|lra]).
    destruct G as (G1 & G2 & G3). destruct (loaded_whole _ _ _ El G1) as (W & L & B).
    set (WE := ex_bent (@ex_level R _)). assert (WB : well_behaved WE) by (apply ex_bent_behaved; discriminate).
    pose proof (load_inv WE WB _ _ ["flexure"] (ex_at_once 0) (clock_init 0 (Some 10) 1) _ El G1 G2 G3) as I.
    assert (S0 : solid g) by (split; [exact W|]; auto).
    destruct (flexure_makes ex_level g) as (d & c & h & Ec & Tc). assert (Em : make WE "SedimentFlexure" [("isostasytime", Number 0)] g = Ok (Ours (PFlexure d [] c), h)).
    { unfold make. change (class_named "SedimentFlexure") with (Some SedimentFlexure). cbv iota. change (ex_interp1d WE) with (@ex_level R _). rewrite Ec. reflexivity. }
    destruct (made WE WB _ _ _ _ _ S0 Em) as (A1 & _). pose proof (solid_adds _ _ S0 A1) as (W1 & B1 & _ & G4).
    destruct (fluvial_makes ex_level h) as (c2 & g1 & Ec2). assert (Ef : make WE "Fluvial" [] h = Ok (Ours (PFluvial c2), g1)).
    { unfold make. change (class_named "Fluvial") with (Some Fluvial). cbv iota. change (ex_interp1d WE) with (@ex_level R _). rewrite Ec2. reflexivity. }
    destruct (made WE WB _ _ _ _ _ (solid_adds _ _ S0 A1) Ef) as (A2 & _). pose proof (solid_adds _ _ (solid_adds _ _ S0 A1) A2) as (W2 & B2 & _ & G5).
    destruct (shoreline_makes g1 W2 B2 G5) as (o & g2 & Eo). assert (Es : make WE "ShorelineFinder" [] g1 = Ok (Ours o, g2)).
    { unfold make. change (class_named "ShorelineFinder") with (Some ShorelineFinder). cbv iota. change (ex_interp1d WE) with (@ex_level R _). rewrite Eo. reflexivity. }
    assert (P : load_processes same_value (make WE) g ["flexure"] (ex_at_once 0) = Ok ([("flexure", Ours (PFlexure d [] c)); ("fluvial", Ours (PFluvial c2)); ("shoreline", Ours o)], g2)).
    { unfold load_processes. cbv zeta. change (with_required ["flexure"]) with ["flexure"; "fluvial"; "shoreline"]. cbn [foldM fst snd].
      change (process_class _ "flexure") with (Ok "SedimentFlexure"). change (process_class _ "fluvial") with (Ok "Fluvial"). change (process_class _ "shoreline") with (Ok "ShorelineFinder").
      change (params_of _ "flexure") with [("isostasytime", Number 0)].
      change (params_of _ "fluvial") with (@nil (string * pvalue R)). change (params_of _ "shoreline") with (@nil (string * pvalue R)).
      cbn [bind]. rewrite Em. cbn [bind fst snd]. rewrite Ef. cbn [bind fst snd]. rewrite Es. reflexivity. }
    destruct (load_model _ _ _ _ _ _) as [[names m]|e] eqn:Hl; [|congruence]. exists names, m.
    destruct (load_parts _ _ _ _ _ _ _ _ Hl) as (g' & ps & g3 & El' & P' & Ei & ->). assert (g' = g) by congruence. subst g'. rewrite P in P'.
    assert (Y : forall (u v : parts R unit) (a b : grid R), Ok (u, a) = Ok (v, b) -> u = v) by congruence. apply Y in P'. subst ps. destruct (init_world _ _ _ _ _ Ei) as [Ew _].
    split; [exact El|]. split; [exact G1|]. split; [exact Hr|]. split; [exact G3|]. split; [first [exact Hl|reflexivity]|]. split; [left; reflexivity|].
    split; [intros [Y1|[Y1|[Y1|[]]]]; discriminate|]. unfold isostasy_of. rewrite Ew. exact Tc.
  Qed.
End Loads.

(* over the rationals *)
Definition ex_bend : externals Q unit := ex_bent ex_linear.
Definition ex_bend_names : list string := ["sea_level"; "submarine_diffusion"; "flexure"].
Notation ex_bend_run names m := (@run_one_step Q _ (parts Q unit) (@named_processes Q _ half_trans unit ex_bend names) None m).
Definition ex_bend_go : option (list string * smodel Q (parts Q unit) * smodel Q (parts Q unit) * smodel Q (parts Q unit)) :=
  match @load_model Q _ half_trans _ ex_bend ex_grid6 (read_bathymetry ex_bath) ex_bend_names (ex_context ++ ex_at_once 0%Q) (clock_init 0 (Some 10) 1)%Q with
  | Ok (names, m0) => match ex_bend_run names m0 with
                      | Stepped m1 => match ex_bend_run names m1 with Stepped m2 => Some (names, m0, m1, m2) | _ => None end
                      | _ => None
                      end
  | Err _ => None
  end.
(* the load, how far the bedrock has moved from where it started, and what the
   plate owes, in the row of cells *)
Definition ex_bend_seen : option (list string * list (list Q * option (list Q) * list Q)) :=
  match ex_bend_go with
  | Some (names, m0, m1, m2) => Some (names, map (fun m => (map Qred (nth 0 (load_of m) []),
        match node (sm_grid m0) "bedrock_surface__elevation", node (sm_grid m) "bedrock_surface__elevation" with
        | Some b0, Some b => Some (map Qred (zipw nsub (nth 1 b0 []) (nth 1 b [])))
        | _, _ => None
        end, map Qred (nth 0 (owed m) []))) [m0; m1; m2])
  | None => None
  end.
Lemma ex_bend_is : ex_bend_seen = Some
  (["sea_level"; "submarine_diffusion"; "flexure"; "fluvial"; "shoreline"],
   [([0; 0; 0; 0; 0; 0], Some [0; 0; 0; 0; 0; 0], [0; 0; 0; 0; 0; 0]);
    ([0; 0; 0; 3825 # 8; 7425 # 8; 3675 # 4], Some [0; 0; 0; 0; 0; 0], [0; 0; 0; 0; 0; 0]);
    ([0; 0; 0; 30135 # 32; 7425 # 4; 3675 # 2], Some [0; 0; 0; 153 # 32; 297 # 32; 147 # 16], [0; 0; 0; 0; 0; 0])]%Q).
Proof. vm_compute. reflexivity. Qed.

(* expected of a plate that bends at once: the bedrock has moved by the
   deflection under the load that the model has now *)
Definition in_balance : Prop := forall (E : externals Q unit) params text names ctx c names' m0 m f l w i j b0 b,
  well_behaved E -> leaves_bedrock E -> leaves_load E -> 
  (forall k n m p q i j, shaped n m p -> shaped n m q -> (i < n)%nat -> (j < m)%nat ->
     (at2 0 (ex_flexure E k (fmap2 nadd p q)) i j == at2 0 (ex_flexure E k p) i j + at2 0 (ex_flexure E k q) i j)%Q) ->
  @load_model Q _ half_trans _ E params (read_bathymetry text) names ctx c = Ok (names', m0) ->
  In "flexure" names' -> ~ In "subsidence" names' -> g_rows (sm_grid m0) = 1%nat -> isostasy_of m0 = None ->
  @bending Q unit _ half_trans E names' m0 (described_rate (section_of ctx "subsidence")) m f l w ->
  (i < g_rows (sm_grid m0))%nat -> (j < g_cols (sm_grid m0))%nat ->
  node (sm_grid m0) "bedrock_surface__elevation" = Some b0 -> node (sm_grid m) "bedrock_surface__elevation" = Some b ->
  (at2 0 b0 (S i) j - at2 0 b (S i) j == at2 0 (deflection E (plate_of m0) (g_dx (sm_grid m0)) (fmap2 nsub (load_of m) (load_of m0))) i j)%Q.
Definition ex_bend_off : bool :=
  match ex_bend_go with
  | Some (names, m0, m1, _) =>
      match node (sm_grid m0) "bedrock_surface__elevation", node (sm_grid m1) "bedrock_surface__elevation" with
      | Some b0, Some b => existsb (String.eqb "flexure") names && negb (existsb (String.eqb "subsidence") names)
          && Nat.eqb (g_rows (sm_grid m0)) 1 && Nat.ltb 3 (g_cols (sm_grid m0)) && match isostasy_of m0 with None => true | Some _ => false end
          && negb (Qeq_bool (at2 0%Q b0 1 3 - at2 0%Q b 1 3) (at2 0%Q (deflection ex_bend (plate_of m0) (g_dx (sm_grid m0)) (fmap2 nsub (load_of m1) (load_of m0))) 0 3))
      | _, _ => false
      end
  | None => false
  end.
Lemma ex_bend_off_ok : ex_bend_off = true. Proof. vm_compute. reflexivity. Qed.
Lemma ex_linear_fine x y : @ex_linear x y <> Err KeyError. Proof. discriminate. Qed.
Lemma in_balance_refuted : ~ in_balance.
Proof.
  intros H. pose proof ex_bend_off_ok as Y. unfold ex_bend_off, ex_bend_go in Y.
  destruct (load_model ex_bend ex_grid6 (read_bathymetry ex_bath) ex_bend_names (ex_context ++ ex_at_once 0%Q) (clock_init 0 (Some 10) 1)%Q) as [[names m0]|] eqn:Hl; [|discriminate].
  destruct (ex_bend_run names m0) as [m1| |] eqn:H1; [|discriminate|discriminate]. destruct (ex_bend_run names m1) as [m2| |]; [|discriminate|discriminate].
  destruct (node (sm_grid m0) _) as [b0|] eqn:Hb0; [|discriminate]. destruct (node (sm_grid m1) _) as [b|] eqn:Hb; [|discriminate].
  apply andb_prop in Y as [Y Hq]. apply andb_prop in Y as [Y Is]. apply andb_prop in Y as [Y Hc]. apply andb_prop in Y as [Y Hr]. apply andb_prop in Y as [Y Hn].
  assert (Is' : isostasy_of m0 = None) by (destruct (isostasy_of m0); [discriminate|reflexivity]).
  apply Nat.eqb_eq in Hr. apply Nat.ltb_lt in Hc. apply negb_true_iff, Qeq_bool_neq in Hq. apply negb_true_iff in Hn.
  assert (B : bending ex_bend names m0 (described_rate (section_of (ex_context ++ ex_at_once 0%Q) "subsidence")) m1 (described_rate (section_of (ex_context ++ ex_at_once 0%Q) "subsidence"))
     ([] ++ [(described_rate (section_of (ex_context ++ ex_at_once 0%Q) "subsidence"), step_used None m0)]) (load_of m0))
    by exact (bending_step ex_bend names m0 _ _ _ _ _ None _ (bending_start _ _ _ _) H1).
  apply Hq. clear Hq.
  refine (H ex_bend ex_grid6 ex_bath ex_bend_names (ex_context ++ ex_at_once 0%Q) (clock_init 0 (Some 10) 1)%Q names m0 m1 _ _ _ 0%nat 3%nat b0 b
            (ex_bent_behaved _ ex_linear_fine) (ex_bent_bedrock _) (ex_bent_load _) _ Hl _ _ Hr Is' B _ Hc Hb0 Hb).
  - intros k n m p q i j Sp Sq Hi Hj. unfold ex_bend. cbn [ex_bent ex_flexure]. rewrite !(at2_fmap _ n m _ 0%Q 0%Q) by (try apply shaped_fmap2; assumption).
    rewrite (at2_fmap2 nadd n m _ _ 0%Q 0%Q 0%Q) by assumption. cbn [nmul nadd nlit Num_Q]. rewrite !Qred_correct. apply Qmult_plus_distr_r.
  - apply existsb_exists in Y. destruct Y as (k & Hk & Ek). apply String.eqb_eq in Ek. subst k. exact Hk.
  - intros Hin.
    assert (Z : existsb (String.eqb "subsidence") names = true) by (apply existsb_exists; exists "subsidence"; split; [exact Hin|apply String.eqb_refl]). rewrite Z in Hn. discriminate.
  - rewrite Hr. apply Nat.lt_0_1.
Qed.
