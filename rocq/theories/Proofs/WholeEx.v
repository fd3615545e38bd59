(** Examples of models made from parameters. *)
From Coq Require Import String List ZArith QArith Bool Arith Reals Lra Lia.
From Verif.Base Require Import Num Py Arr.
From Verif.Model Require Import Layers Grid Archive Interp Shoreline SeaLevel Subsidence Bathymetry Csv Flexure Submarine Fluvial Sequence SequenceModel Setattr Processes Whole.
From Verif.Spec Require Import Column Profile Configured Parameters.
From Verif.Proofs Require Import GridP SequenceP SequenceModelP ShorelineP ClockP ProcessesP FluvialEx ScriptP ScriptEx CreateP ShapesP CausesP WholeP LoadP.
Import ListNotations.
Local Open Scope string_scope.
Local Open Scope list_scope.
Local Open Scope R_scope.

Definition kept {A} (g : grid A) : result (unit * grid A) := Ok (tt, g).
Definition ex_ext {A} `{Num A} (interp1d : list A -> list A -> result (A -> A)) : externals A unit :=
  mkExternals _ _ interp1d (fun _ _ z => z) (fun _ f => f) (fun _ => nlit 9) (fun _ _ g => kept g) (fun _ xg => kept (snd xg)) (fun _ _ xg => kept (snd xg))
    (fun _ => nlit (1 # 4)).
Definition ex_level {A} `{Num A} (_ _ : list A) : result (A -> A) := Ok (fun _ => n0).
Lemma ex_behaved (i1 : list R -> list R -> result (R -> R)) : (forall x y, i1 x y <> Err KeyError) -> well_behaved (ex_ext i1).
Proof.
  intros H. assert (K : forall g : grid R, whole_grid g -> adds_only g g) by (intros g W; split; [exact W|]; auto 10).
  constructor; cbn.
  - exact H.
  - auto.
  - auto.
  - intros cls ps g x g' W Y. unfold kept in Y. injection Y as <- <-. auto.
  - intros dt x g x' g' W Y. unfold kept in Y. injection Y as <- <-. auto.
  - intros n v x g x' g' W Y. unfold kept in Y. injection Y as <- <-. auto.
Qed.

Lemma level_shore (x z : list R) s : x <> [] -> length z = length x -> exists v, find_shoreline ex_level x z s = Ok v.
Proof.
  intros Hx L. unfold find_shoreline. destruct (find_shoreline_index x z s) as [i|e] eqn:Ei.
  - cbn [ex_level bind]. assert (Hi : (i < length x)%nat).
    { unfold find_shoreline_index in Ei. cbv zeta in Ei. destruct (Nat.eqb _ 0); [discriminate|]. destruct (Nat.eqb _ _); [discriminate|].
      assert (Hw : forall z k, Forall (fun j => (k <= j < k + length z)%nat) (where_below k z s)).
      { clear. induction z as [|a z IH]; intros k; cbn [where_below]; [constructor|].
        assert (Y : Forall (fun j => (k <= j < k + length (a :: z))%nat) (where_below (Datatypes.S k) z s)) by (eapply Forall_impl; [|apply IH]; cbn; lia).
        destruct (nltb a s); [constructor; [cbn; lia|exact Y]|exact Y]. }
      specialize (Hw z 0%nat). destruct (where_below 0 z s); [discriminate|]. inversion Hw; subst. injection Ei as <-. lia. }
    assert (P : forall k, (- Z.of_nat (length x) <= k < Z.of_nat (length x))%Z -> exists a, pynth x k = Some a).
    { intros k Hk. unfold pynth. destruct (pyindex (length x) k) as [n|] eqn:En.
      - destruct (nth_error x n) as [a|] eqn:Ea; [eauto|]. apply nth_error_None in Ea. unfold pyindex in En.
        repeat match type of En with (if ?b then _ else _) = _ => destruct b eqn:? end; try discriminate; injection En as <-; lia.
      - unfold pyindex in En. repeat match type of En with (if ?b then _ else _) = _ => destruct b eqn:? end; try discriminate; lia. }
    destruct (P (Z.of_nat i - 1)%Z) as [a Ha]; [lia|]. destruct (P (Z.of_nat i)) as [b Hb]; [lia|]. rewrite Ha, Hb.
    unfold scipy_bisect. cbv zeta. numR. rewrite (proj2 (Num.Reqb_true _ _) eq_refl). eauto.
  - assert (Y : exists b, e = ShorelineError b).
    { unfold find_shoreline_index in Ei. cbv zeta in Ei. destruct (where_below 0 z s) as [|j w]; cbn [length Nat.eqb] in Ei; [exists false; congruence|].
      destruct (length x); [|destruct (Nat.eqb _ _)]; [discriminate|exists true; congruence|discriminate]. }
    destruct Y as [b ->]. destruct z; [destruct x; [congruence|discriminate]|]. destruct x; [congruence|]. destruct (nltb _ _); eauto.
Qed.

(* a model with only the two processes that are always there: it is made
   whatever the bathymetry *)
Definition ex_flat : string := "0, -5
8, -7
".
Definition ex_grid4 {A} `{Num A} : grid_params A := mkGridParams (Some [1; 4]%nat) None (Some [n1; nlit 2]) None.
Lemma ex_flat_read : read_table ex_flat = Ok ([0; 8]%Q, [-5 # 1; -7 # 1]%Q).
Proof. vm_compute. reflexivity. Qed.
Lemma ex_grid4_loads : exists g : grid R, load_grid ex_grid4 (Some (read_bathymetry ex_flat)) = Ok g /\ g_rows g = 1%nat /\ g_cols g = 4%nat /\ g_dx g = 2.
Proof.
  assert (H2 : @nlit R _ 2 = 2) by (cbn; unfold Q2R; simpl; lra).
  unfold load_grid, ex_grid4, grid_from_dict, grid_init. cbn [gp_shape gp_n_cols gp_spacing gp_xy_spacing bind length Nat.eqb andb negb orb].
  unfold read_bathymetry, file_table. rewrite ex_flat_read. cbn [bind fst snd map]. unfold bathymetry_step.
  set (g0 := mkGrid _ _ _ _ _ _ _ _ : grid R).
  assert (B : bathymetry_init g0 = put_node g0 "topographic__elevation" (full (g_rows g0 + 2) (g_cols g0) n0)) by reflexivity.
  rewrite B. unfold node_r at 1. rewrite node_put_same. cbn [bind].
  assert (P : forall l, (forall v, In v l -> 0 <= v <= 8) -> exists p, mapM (interp_linear [nlit 0; nlit 8] [nlit (-5 # 1); nlit (-7 # 1)]) l = Ok p).
  { induction l as [|v l IH]; intros H; [exists []; reflexivity|]. cbn [mapM]. destruct IH as [p Hp]; [intros; apply H; right; assumption|].
    assert (Y : exists w, interp_linear [nlit 0; nlit 8] [nlit (-5 # 1); nlit (-7 # 1)] v = Ok w).
    { specialize (H v (or_introl eq_refl)). unfold interp_linear. cbn [nth length Nat.sub]. numR. replace (Q2R 0) with 0 by (unfold Q2R; simpl; lra). replace (Q2R 8) with 8 by (unfold Q2R; simpl; lra).
      rewrite (proj2 (Rltb_false v 0)) by lra. rewrite (proj2 (Rltb_false 8 v)) by lra. destruct (negb _); [eauto|]. cbv zeta. destruct (_ || _)%bool; eauto. }
    destruct Y as [w ->]. cbn [bind]. rewrite Hp. cbn [bind]. eauto. }
  match goal with |- context [mapM _ ?l] => destruct (P l) as [p Hp] end.
  { intros v Hv. unfold x_of_column in Hv. apply in_map_iff in Hv. destruct Hv as [k [<- Hk]]. apply in_seq in Hk. cbn [g_cols put_node set_at_node g_dx g0] in *.
    numR. rewrite H2. assert (Hk' : (k <= 3)%nat) by (cbn in Hk; lia). pose proof (pos_INR k). apply le_INR in Hk'. cbn in Hk'. rewrite nofnat_R. lra. }
  rewrite Hp. cbn [bind]. unfold node_r. rewrite node_put_same. cbn [bind]. eexists. split; [reflexivity|]. split; [reflexivity|]. split; [reflexivity|exact H2].
Qed.

Section Loads.
  Context {tr : Trans R}.
  Lemma fluvial_makes i1 (g : grid R) : exists c g', construct i1 Fluvial [] g = Ok (PFluvial c, g').
  Proof. unfold construct. cbn [negb existsb forallb map fst]. unfold kwd. cbn [dget bind]. unfold fluvial_init. eauto. Qed.
  Lemma shoreline_makes (g : grid R) : whole_grid g -> base g -> 0 < g_dx g -> exists o g', construct ex_level ShorelineFinder [] g = Ok (o, g').
  Proof.
    intros W (Ht & Hd & Hs) Hx. unfold construct. cbn [negb existsb forallb map fst]. unfold kwd. cbn [dget bind].
    unfold shoreline_init. cbv zeta. set (g1 := put_rowf _ _ _).
    destruct (profile_of g1 "topographic__elevation" Ht) as (z & Hz & Pz & _). destruct (profile_of g1 "sediment_deposit__thickness" Hd) as (dz & Hdz & Pd & _).
    destruct (gval_of g1 "sea_level__elevation" Hs) as (s & _ & Es). rewrite Pz, Pd, Es. cbn [bind].
    destruct (mapM _ _) as [rows|e] eqn:Em; [cbn [bind]; eauto|exfalso].
    destruct (mapM_err _ _ _ Em) as [[zr dr] [Hin Hr]]. unfold shoreline_row_init in Hr.
    pose proof (shaped_inner _ _ _ (proj2 W _ _ Hz)) as Sz. pose proof (shaped_inner _ _ _ (proj2 W _ _ Hdz)) as Sd.
    assert (Lz : length zr = g_cols g) by (apply Sz, (in_combine_l _ _ _ _ Hin)). assert (Ld : length dr = g_cols g) by (apply Sd, (in_combine_r _ _ _ _ Hin)).
    assert (Lx : length (x_of_column g1) = g_cols g) by exact (x_length g1).
    assert (Hc : (2 <= g_cols g)%nat) by apply W.
    destruct (level_shore (x_of_column g1) zr s) as [v Hv]; [intros Y; rewrite Y in Lx; cbn in Lx; lia|congruence|]. rewrite Hv in Hr. cbn [bind] in Hr.
    assert (Na : @nlit R _ (5 # 10000) <> 0) by (cbn; unfold Q2R; simpl; lra).
    destruct (find_shelf_edge_spec (x_of_column g1) dr v (nlit (5 # 10000)) Na (sorted_x g1 Hx)) as [[k [_ [Hk _]]]|[_ He]]; [congruence| |];
      [rewrite Hk in Hr|rewrite He in Hr]; discriminate.
  Qed.
  Lemma ex_two_load : exists (g : grid R) names m, load_grid ex_grid4 (Some (read_bathymetry ex_flat)) = Ok g
    /\ (2 <= g_cols g)%nat /\ (0 < g_rows g)%nat /\ 0 < g_dx g
    /\ load_model (ex_ext ex_level) ex_grid4 (read_bathymetry ex_flat) [] [] (clock_init 0 (Some 10) 1) = Ok (names, m).
  Proof.
    destruct ex_grid4_loads as (g & El & Hr & Hc & Hd). exists g.
    assert (G : (2 <= g_cols g)%nat /\ (0 < g_rows g)%nat /\ 0 < g_dx g) by (rewrite Hr, Hc, Hd; split; [lia|]; split; [lia|lra]).
    destruct G as (G1 & G2 & G3). destruct (loaded_whole _ _ _ El G1) as (W & L & B).
    assert (WB : well_behaved (ex_ext (@ex_level R _))) by (apply ex_behaved; discriminate).
    pose proof (load_inv (ex_ext ex_level) WB _ _ [] [] (clock_init 0 (Some 10) 1) _ El G1 G2 G3) as I.
    destruct (load_model _ _ _ _ _ _) as [[names m]|e]; [exists names, m; auto 8|exfalso].
    unfold load_processes in I. cbv zeta in I. change (with_required []) with ["fluvial"; "shoreline"] in I. cbn [foldM fst snd] in I.
    change (process_class _ "fluvial") with (Ok "Fluvial") in I. change (process_class _ "shoreline") with (Ok "ShorelineFinder") in I.
    change (params_of _ "fluvial") with (@nil (string * pvalue R)) in I. change (params_of _ "shoreline") with (@nil (string * pvalue R)) in I.
    cbn [bind] in I. unfold make in I.
    change (class_named "Fluvial") with (Some Fluvial) in I. change (class_named "ShorelineFinder") with (Some ShorelineFinder) in I. cbv iota in I.
    destruct (fluvial_makes ex_level g) as (c & g1 & Ec).
    change (ex_interp1d (ex_ext ex_level)) with (@ex_level R _) in I. rewrite Ec in I. cbn [bind fst snd] in I.
    destruct (construct_alike _ _ _ _ _ _ W Ec) as [(W1 & R1 & C1 & D1 & L1) _].
    destruct (constructed _ (wb_interp1d _ WB) Fluvial [] g B) as [_ Cn]. destruct (Cn _ _ Ec) as [Gr _].
    destruct (shoreline_makes g1 W1 (base_grows _ _ Gr B)) as (o & g2 & Eo); [rewrite D1; exact G3|]. rewrite Eo in I. discriminate I.
  Qed.
End Loads.

(* every process, over the rationals: names; then for some steps, with
   set_params in between: time, elevation of the cells, bedrock plus layers *)
Definition ex_names : list string := ["sea_level"; "subsidence"; "compaction"; "submarine_diffusion"; "flexure"].
Definition ex_context : context (pvalue Q) :=
  [("sea_level", [("filepath", Table [0; 10]%Q [0; 1]%Q)]); ("subsidence", [("filepath", Table [0; 5000]%Q [0; -1 # 1]%Q)]);
   ("submarine_diffusion", [("wave_base", Number 10%Q); ("sea_level", Number 3%Q)]);
   ("fluvial", [("wave_base", Number 10%Q); ("hemipelagic", Number (1 # 2)%Q)])].
Definition ex_grid6 : grid_params Q := mkGridParams (Some [1; 6]%nat) None (Some [1; 1000]%Q) None.
Definition ex_whole : externals Q unit := ex_ext ex_linear.
Definition ex_loaded_model := @load_model Q _ half_trans unit ex_whole ex_grid6 (read_bathymetry ex_bath) ex_names ex_context (clock_init 0 (Some 10) 1)%Q.
Definition ex_row (m : smodel Q (parts Q unit)) : option (Q * list Q * list Q) :=
  match node (sm_grid m) "topographic__elevation", node (sm_grid m) "bedrock_surface__elevation" with
  | Some z, Some z0 => Some (ck_time (sm_clock m), map Qred (nth 0 (cells z) []),
      map Qred (zipw (fun a st => (a + stack_thickness st)%Q) (nth 0 (cells z0) []) (nth 0 (el_stacks (layers (sm_grid m))) [])))
  | _, _ => None
  end.
Definition ex_three : option (list string * list (option (Q * list Q * list Q))) :=
  match ex_loaded_model with
  | Err _ => None
  | Ok (names, m) =>
      let run m dt := @run_one_step Q _ (parts Q unit) (@named_processes Q _ half_trans unit ex_whole names) dt m in
      match run m None with
      | Stepped m1 =>
          match set_model_params ex_whole [("fluvial", [("hemipelagic", Number 2%Q)]); ("submarine_diffusion", [("sediment_load", Number 2%Q)])] m1 with
          | Ok m2 => match run m2 (Some 2%Q) with Stepped m3 => Some (names, [ex_row m; ex_row m1; ex_row m2; ex_row m3]) | _ => None end
          | Err _ => None
          end
      | _ => None
      end
  end.
Lemma ex_three_ok : ex_three = Some
  (["sea_level"; "subsidence"; "compaction"; "submarine_diffusion"; "flexure"; "fluvial"; "shoreline"],
   [Some (0, [10; -5 # 1; -15 # 1; -25 # 1], [10; -5 # 1; -15 # 1; -25 # 1])%Q;
    Some (1, [49 # 5; -27 # 5; -3069 # 200; -5061 # 200], [49 # 5; -27 # 5; -3069 # 200; -5061 # 200])%Q;
    Some (1, [49 # 5; -27 # 5; -3069 # 200; -5061 # 200], [49 # 5; -27 # 5; -3069 # 200; -5061 # 200])%Q;
    Some (2, [47 # 5; -31 # 5; -4303156961 # 2000; -835317683 # 200], [47 # 5; -31 # 5; -4303156961 # 2000; -835317683 # 200])%Q]).
Proof. vm_compute. reflexivity. Qed.
(* a model that is created and then raises *)
Lemma ex_raises :
  match @load_model Q _ half_trans unit ex_whole ex_grid6 (read_bathymetry ex_bath) ex_names (ex_context ++ [("flexure", [])]) (clock_init 0 (Some 10) 1)%Q with
  | Ok (names, m) =>
      match set_model_params ex_whole [("fluvial", [("sand_frac", Number 0%Q)])] m with
      | Ok m => match @run_one_step Q _ (parts Q unit) (@named_processes Q _ half_trans unit ex_whole names) None m with Raised e => Some e | _ => None end
      | Err _ => None
      end
  | Err _ => None
  end = Some ZeroDivisionError.
Proof. vm_compute. reflexivity. Qed.

(** ** parameters without effect *)
From Verif.Spec Require Import Session.
From Verif.Proofs Require Import NoEffectP.
Definition with_flexure {A} (ctx : context (pvalue A)) (kvs : section (pvalue A)) : context (pvalue A) := dset String.eqb ctx "flexure" kvs.
Definition every_parameter_matters : Prop := forall k, In k (parameters SedimentFlexure) ->
  exists (E : externals Q unit) params read names ctx s s' c names1 m names1' m' calls,
    agree_but [k] s s'
    /\ @load_model Q _ half_trans unit E params read names (with_flexure ctx s) c = Ok (names1, m)
    /\ @load_model Q _ half_trans unit E params read names (with_flexure ctx s') c = Ok (names1', m')
    /\ @session Q unit _ half_trans E names1 calls m <> @session Q unit _ half_trans E names1' calls m'.
Lemma agree_more {V} k keys (s s' : section V) : In k keys -> agree_but [k] s s' -> agree_but keys s s'.
Proof.
  intros Hk H. induction H as [|a b l l' [H1 H2] _ IH]; constructor; [|exact IH]. split; [exact H1|]. destruct H2 as [[<-|[]]|H2]; auto.
Qed.
Lemma matters_refuted : ~ every_parameter_matters.
Proof.
  intros H. destruct (H "mud_density") as (E & params & read & names & ctx & s & s' & c & n1 & m & n1' & m' & calls & Ha & H1 & H2 & Hd); [cbn; auto|].
  apply Hd. refine (proj2 (proj2 (@no_effect Q unit _ half_trans E params read names _ _ c n1 m n1' m' calls _ H1 H2))).
  intros n. unfold section_of, with_flexure. rewrite !(dget_dset _ String.eqb_eq). destruct (String.eqb n "flexure") eqn:N; [|apply agree_refl].
  apply String.eqb_eq in N. subst n. apply (agree_more "mud_density"); [cbn; auto|exact Ha].
Qed.
Definition ex_densities (a b c : Q) : section (pvalue Q) := [("sand_density", Number a); ("mud_density", Number b); ("water_density", Number c)].
(* both load, and the third cell has sunk by the flexure after a step *)
Definition ex_dense (s : section (pvalue Q)) : option (list (option Q)) :=
  match @load_model Q _ half_trans unit ex_whole ex_grid6 (read_bathymetry ex_bath) ex_names (with_flexure ex_context s) (clock_init 0 (Some 10) 1)%Q with
  | Ok (names, m) => Some (map (fun r => match r with Ok (_, g) => match node g "topographic__elevation" with Some z => Some (Qred (at2 0%Q z 1 3)) | None => None end | Err _ => None end)
                               (@session Q unit _ half_trans ex_whole names [CallStep None; CallStep None] m))
  | Err _ => None
  end.
Lemma ex_dense_ok : ex_dense (ex_densities 2650 2720 1030) = ex_dense (ex_densities 1 1 5000)
  /\ ex_dense (ex_densities 1 1 5000) <> None
  /\ agree_but (without_effect "flexure") (ex_densities 2650 2720 1030) (ex_densities 1 1 5000)
  /\ ex_dense [("isostasytime", Number 0%Q)] <> ex_dense [("isostasytime", Number 7000%Q)].
Proof.
  split; [vm_compute; reflexivity|]. split; [vm_compute; discriminate|]. split; [|vm_compute; discriminate].
  do 3 (apply Forall2_cons; [split; [reflexivity|left; cbn; auto]|]). apply Forall2_nil.
Qed.
(* what the configuration says of the sediment in the sea is not used *)
Definition ex_hemi (ctx : context (pvalue Q)) : option Q :=
  match @load_model Q _ half_trans unit ex_whole ex_grid6 (read_bathymetry ex_bath) ["submarine_diffusion"] ctx (clock_init 0 (Some 10) 1)%Q with
  | Ok (_, m) => match dget String.eqb (sm_world m) "fluvial" with Some (Ours (PFluvial c)) => Some (fl_hemi c) | _ => None end
  | Err _ => None
  end.
Lemma ex_hemi_ok : ex_hemi [("sediments", [("hemipelagic", Number 2%Q)])] = Some 0%Q /\ ex_hemi [("fluvial", [("hemipelagic", Number 2%Q)])] = Some 2%Q
  /\ In ("fluvial", "sediments", ["hemipelagic"]) params_to_match.
Proof. split; [vm_compute; reflexivity|]. split; [vm_compute; reflexivity|]. cbn. auto. Qed.
Definition shared_sections_reach : Prop := forall d1 d2 keys k (E : externals Q unit) params read names ctx v c names1 m,
  In (d1, d2, keys) params_to_match -> In k keys -> In d1 names ->
  dget String.eqb (section_of ctx d1) k = None -> dget String.eqb (section_of ctx d2) k = Some v ->
  @load_model Q _ half_trans unit E params read names ctx c = Ok (names1, m) ->
  forall m', @load_model Q _ half_trans unit E params read names (dset String.eqb ctx d1 (dset String.eqb (section_of ctx d1) k v)) c = Ok (names1, m') -> sm_world m = sm_world m'.
Lemma shared_refuted : ~ shared_sections_reach.
Proof.
  intros H.
  pose (run := fun ctx => @load_model Q _ half_trans unit ex_whole ex_grid6 (read_bathymetry ex_bath) ["fluvial"] ctx (clock_init 0 (Some 10) 1)%Q).
  pose (ctx := [("sediments", [("hemipelagic", Number 2%Q)])] : context (pvalue Q)).
  destruct (run ctx) as [[n1 m]|] eqn:E1; [|vm_compute in E1; discriminate E1].
  destruct (run (dset String.eqb ctx "fluvial" (dset String.eqb (section_of ctx "fluvial") "hemipelagic" (Number 2%Q)))) as [[n2 m']|] eqn:E2; [|vm_compute in E2; discriminate E2].
  assert (n1 = ["fluvial"; "shoreline"]) by (vm_compute in E1; injection E1 as <- _; reflexivity).
  assert (n2 = ["fluvial"; "shoreline"]) by (vm_compute in E2; injection E2 as <- _; reflexivity). subst.
  pose proof (H "fluvial" "sediments" ["hemipelagic"] "hemipelagic" ex_whole ex_grid6 (read_bathymetry ex_bath) ["fluvial"] ctx (Number 2%Q) (clock_init 0 (Some 10) 1)%Q _ m
    (or_intror (or_introl eq_refl)) (or_introl eq_refl) (or_introl eq_refl) eq_refl eq_refl E1 m' E2) as Y.
  assert (Z : forall a b : smodel Q (parts Q unit), sm_world a = sm_world b -> 
    match dget String.eqb (sm_world a) "fluvial", dget String.eqb (sm_world b) "fluvial" with Some (Ours (PFluvial c)), Some (Ours (PFluvial d)) => Qeq_bool (fl_hemi c) (fl_hemi d) | _, _ => true end = true).
  { intros a b ->. destruct (dget String.eqb (sm_world b) "fluvial") as [[[]|]|]; try reflexivity. apply Qeq_bool_refl. }
  specialize (Z _ _ Y).
  vm_compute in E1. vm_compute in E2. injection E1 as <-. injection E2 as <-. vm_compute in Z. discriminate Z.
Qed.
