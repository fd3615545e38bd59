(** Examples and consequences used by Props/FlexureProps.v *)
From Coq Require Import String List ZArith QArith Reals Lra Lia Arith.
From Verif.Base Require Import Num Py Arr.
From Verif.Model Require Import Layers Grid Flexure Clients.
From Verif.Spec Require Import Profile History.
From Verif.Proofs Require Import GridP FlexureP ShorelineEx.
Import ListNotations.
Local Open Scope R_scope.

(* C15 in one statement *)
Theorem isostasy_conserved it n m hist c :
  (0 < n)%nat -> dyn_init it n m = Ok c ->
  (forall d dt, In (d, dt) hist -> shaped n m d) ->
  let '(c', delivered) := dyn_run c hist in
  forall i j, (i < n)%nat -> (j < m)%nat ->
    nsum_at i j delivered + at2 0 (df_pool c') i j = nsum_at i j (map fst hist).
Proof.
  intros Hn Hi Hh. destruct (dyn_init_time _ _ _ _ Hi) as [Hr [Hp _]].
  assert (Sp : shaped n m (df_pool c)) by (rewrite Hp; apply shaped_full).
  pose proof (dyn_run_conserves n m hist c Hr Sp Hh) as H.
  destruct (dyn_run c hist) as [c' outs]. destruct H as [_ [_ [_ V]]].
  intros i j Hii Hj. rewrite (V i j Hii Hj), Hp, at2_full by assumption. lra.
Qed.

Theorem isostasy_fraction_step it n m hist c d dt :
  (0 < n)%nat -> dyn_init it n m = Ok c ->
  (forall d dt, In (d, dt) hist -> shaped n m d) -> shaped n m d -> 0 <= dt ->
  let '(c1, _) := dyn_run c hist in
  let '(c2, out) := calc_dynamic_deflection c1 d dt in
  exists fraction, 0 <= fraction <= 1 /\
    forall i j, (i < n)%nat -> (j < m)%nat ->
      at2 0 out i j = fraction * (at2 0 (df_pool c1) i j + at2 0 d i j)
      /\ at2 0 (df_pool c2) i j = (1 - fraction) * (at2 0 (df_pool c1) i j + at2 0 d i j).
Proof.
  intros Hn Hi Hh Hd Hdt. destruct (dyn_init_time _ _ _ _ Hi) as [Hr [Hp Ht]].
  assert (Sp : shaped n m (df_pool c)) by (rewrite Hp; apply shaped_full).
  pose proof (dyn_run_conserves n m hist c Hr Sp Hh) as H.
  destruct (dyn_run c hist) as [c1 outs]. destruct H as [T1 [R1 [S1 _]]].
  pose proof (dyn_step_spec n m c1 d dt R1 S1 Hd) as H2.
  destruct (calc_dynamic_deflection c1 d dt) as [c2 out]. destruct H2 as [_ [_ [_ [_ V]]]].
  exists (calc_isostasy_fraction (df_time c1) dt / INR n). split.
  - apply fraction_bounds; [assumption|]. rewrite T1. destruct (df_time c); [|exact I]. tauto.
  - intros i j Hii Hj. destruct (V i j Hii Hj) as [Va Vb]. rewrite Vb, Va. split; lra.
Qed.

Lemma ex_dyn_init : exists c, dyn_init (Some 7000) 2 3 = Ok c /\ df_time c = Some 7000.
Proof.
  unfold dyn_init, isclose0, validate_isostasy_time. numR. rewrite nabs_R, n0_R.
  rewrite (proj2 (Rleb_false (Rabs 7000) _)).
  - rewrite (proj2 (Rltb_false 7000 0)) by lra. eexists. split; reflexivity.
  - rewrite Rabs_right by lra. unfold Q2R; simpl; lra.
Qed.

(* C16 *)
Definition efolding : Prop :=
  forall n m tau dts pool, (0 < n)%nat -> 0 < tau -> (forall dt, In dt dts -> 0 <= dt) ->
    shaped n m pool ->
    let '(c', _) := dyn_run (mkDyn (Some tau) n pool) (unloaded n m dts) in
    forall i j, (i < n)%nat -> (j < m)%nat ->
      at2 0 (df_pool c') i j = at2 0 pool i j * exp (- rsum dts / tau).

Lemma exp_neg1 : exp (-1) < 1.
Proof. rewrite <- exp_0. apply exp_increasing. lra. Qed.

Lemma efolding_refuted : ~ efolding.
Proof.
  intros H. specialize (H 2%nat 1%nat 1 [1] (full 2 1 1) ltac:(lia) ltac:(lra)).
  specialize (H ltac:(intros dt [<-|[]]; lra) (shaped_full 2 1 1)).
  pose proof (dyn_relax 2 1 [1] (mkDyn (Some 1) 2 (full 2 1 1)) eq_refl (shaped_full 2 1 1)) as H2.
  destruct (dyn_run (mkDyn (Some 1) 2 (full 2 1 1)) (unloaded 2 1 [1])) as [c' outs].
  specialize (H 0%nat 0%nat ltac:(lia) ltac:(lia)). specialize (H2 0%nat 0%nat ltac:(lia) ltac:(lia)).
  rewrite H in H2. cbn [df_pool df_time] in H2. rewrite at2_full in H2 by lia.
  cbn [map rprod rsum] in H2. unfold step_factor, calc_isostasy_fraction in H2. numR. transR.
  rewrite n1_R in H2. simpl INR in H2.
  replace (- (1 + 0) / 1) with (-1) in H2 by field. replace (- (1) / 1) with (-1) in H2 by field.
  pose proof exp_neg1. lra.
Qed.

Definition instant : Prop :=
  forall n m d dt pool, (0 < n)%nat -> shaped n m pool -> shaped n m d ->
    let '(c', out) := calc_dynamic_deflection (mkDyn None n pool) d dt in
    forall i j, (i < n)%nat -> (j < m)%nat ->
      at2 0 out i j = at2 0 pool i j + at2 0 d i j /\ at2 0 (df_pool c') i j = 0.
Lemma instant_refuted : ~ instant.
Proof.
  intros H. specialize (H 2%nat 1%nat (full 2 1 1) 1 (full 2 1 0) ltac:(lia) (shaped_full 2 1 0) (shaped_full 2 1 1)).
  pose proof (dyn_step_spec 2 1 (mkDyn None 2 (full 2 1 0)) (full 2 1 1) 1 eq_refl (shaped_full 2 1 0) (shaped_full 2 1 1)) as H2.
  destruct (calc_dynamic_deflection _ _ _) as [c' out]. destruct H2 as [_ [_ [_ [_ V]]]].
  destruct (V 0%nat 0%nat ltac:(lia) ltac:(lia)) as [Va _].
  destruct (H 0%nat 0%nat ltac:(lia) ltac:(lia)) as [Hb _]. rewrite Hb in Va.
  cbn [df_pool df_time calc_isostasy_fraction] in Va. rewrite !at2_full in Va by lia.
  rewrite n1_R in Va. simpl INR in Va. lra.
Qed.

Theorem relax_bounds n m tau dts pool : (0 < n)%nat -> 0 < tau -> (forall dt, In dt dts -> 0 <= dt) ->
  shaped n m pool ->
  let '(c', _) := dyn_run (mkDyn (Some tau) n pool) (unloaded n m dts) in
  exists k, exp (- rsum dts / tau) <= k <= 1 /\
    forall i j, (i < n)%nat -> (j < m)%nat -> at2 0 (df_pool c') i j = at2 0 pool i j * k.
Proof.
  intros Hn Ht Hd Hp. pose proof (dyn_relax n m dts (mkDyn (Some tau) n pool) eq_refl Hp) as H.
  destruct (dyn_run _ _) as [c' outs]. cbn [df_pool df_time] in H.
  exists (rprod (map (step_factor (Some tau) n) dts)). split; [apply rprod_ge; assumption|assumption].
Qed.

(* C17 *)
Theorem densities_history s m w ops d :
  densities_init s m w = Ok d ->
  let d' := density_run ops d in
  let '(w', s', m') := density_trace ops w s m in
  water_density d' = w' /\ sand_density d' = s' /\ mud_density d' = m'
  /\ 0 < w' /\ 0 < s' /\ 0 < m'
  /\ sand_bulk d' = 6 / 10 * s' + 4 / 10 * w'
  /\ mud_bulk d' = 35 / 100 * m' + 65 / 100 * w'.
Proof.
  intros Hi d'. destruct (densities_init_agree _ _ _ _ Hi) as [Ha [<- [<- <-]]].
  destruct (density_run_agree ops d Ha) as [[H1 [H2 [H3 [H4 H5]]]] Ht]. fold d' in H1, H2, H3, H4, H5, Ht.
  rewrite <- Ht. repeat split; assumption.
Qed.
Lemma ex_densities : exists d, densities_init 2650 2720 1030 = Ok d.
Proof. apply densities_init_ok. lra. Qed.
Lemma ex_density_trace :
  density_trace [SetWater 1000; SetSand (-5); SetMud 2700; SetSand 0] 1030 2650 2720 = (1000, 2650, 2700).
Proof.
  cbn. destruct (Rlt_dec 0 1000); [|lra]. cbn. destruct (Rlt_dec 0 (-5)); [lra|]. cbn.
  destruct (Rlt_dec 0 2700); [|lra]. cbn. destruct (Rlt_dec 0 0); [lra|]. reflexivity.
Qed.

(* C18 *)
Theorem sed_flexure_history it (g : grid R) flexure gravity hist c g0 tl0 bi0 :
  (forall f name, node g name = Some f -> shaped (g_rows g + 2) (g_cols g) f) ->
  sed_flexure_init it g = Ok (c, g0) ->
  node g0 TOTAL_LOAD = Some tl0 -> node g0 BEDROCK_INC = Some bi0 ->
  (forall p, shaped (g_rows g) (g_cols g) p -> shaped (g_rows g) (g_cols g) (flexure p)) ->
  (forall load dt, In (load, dt) hist -> shaped (g_rows g + 2) (g_cols g) load) ->
  let last_load := match rev hist with [] => tl0 | (load, _) :: _ => load end in
  exists c' g' ps bi', sed_flexure_run flexure gravity hist c g0 = Ok (c', g', ps)
    /\ length ps = length hist
    /\ node g' BEDROCK_INC = Some bi'
    /\ (forall i j, (1 <= i <= g_rows g)%nat -> (j < g_cols g)%nat ->
          nsum_at i j ps = (at2 0 last_load i j - at2 0 tl0 i j) * gravity * g_dx g
          /\ at2 0 bi0 i j - at2 0 bi' i j + at2 0 (df_pool (sf_dyn c')) (i - 1) j
             = nsum_at (i - 1) j (map (fun p => flexure (inner p)) ps))
    /\ (forall j, (j < g_cols g)%nat ->
          at2 0 bi' 0 j = at2 0 bi0 0 j /\ at2 0 bi' (g_rows g + 1) j = at2 0 bi0 (g_rows g + 1) j)
    /\ (forall name, ~ In name [LITHO; PRESSURE; BEDROCK_INC; TOTAL_LOAD] -> node g' name = node g0 name).
Proof.
  intros Hs Hi Htl Hbi Hflex Hh last_load.
  destruct (sed_flexure_init_ok it g c g0 Hs Hi) as [Hok [Hdx [[tl [Etl [Elast _]]] [_ _]]]].
  rewrite Htl in Etl. inversion Etl; subst tl; clear Etl.
  assert (Stl : shaped (g_rows g + 2) (g_cols g) tl0).
  { destruct (fo_fields _ _ _ _ Hok TOTAL_LOAD) as [f [E S]]; [cbn; tauto|]. congruence. }
  assert (Hpool : df_pool (sf_dyn c) = full (g_rows g) (g_cols g) 0).
  { unfold sed_flexure_init in Hi.
    destruct (dyn_init it _ _) as [dyn|e] eqn:Ed; [|discriminate]. cbn [bind] in Hi.
    apply dyn_init_time in Ed. destruct Ed as [_ [Ep _]].
    destruct (get_profile _ TOTAL_LOAD); [|discriminate]. cbn [bind] in Hi. inversion Hi; subst. cbn [sf_dyn].
    rewrite Ep. unfold ensure_node. destruct (has_node g TOTAL_LOAD); reflexivity. }
  destruct (sed_flexure_run_spec (g_rows g) (g_cols g) flexure gravity hist c g0 Hok Hflex Hh)
    as [c' [g' [ps [E [Lp [Hok' [V [Bd [Oth _]]]]]]]]].
  destruct (fo_fields _ _ _ _ Hok' BEDROCK_INC) as [bi' [Ebi' Sbi']]; [cbn; tauto|].
  exists c', g', ps, bi'. split; [assumption|]. split; [assumption|]. split; [assumption|].
  split; [|split; [|assumption]].
  - intros i j Hi' Hj. destruct i as [|i]; [lia|]. replace (S i - 1)%nat with i by lia.
    destruct (V i j ltac:(lia) Hj) as [Va Vb]. split.
    + rewrite Va, Vb, Hdx, Elast. rewrite (at2_inner (g_rows g) (g_cols g)) by (assumption || lia).
      unfold last_load. destruct (rev hist) as [|[ld dd] r]; reflexivity.
    + destruct (Bd _ _ Hbi Ebi' j Hj) as [_ [_ B3]]. rewrite (B3 i ltac:(lia)), Hpool, at2_full by lia. lra.
  - intros j Hj. destruct (Bd _ _ Hbi Ebi' j Hj) as [B1 [B2 _]]. auto.
Qed.

Theorem sed_flexure_unchanged it (g : grid R) flexure gravity hist c g0 load dt dt' c1 g1 ps1 c2 g2 ps2 :
  (forall f name, node g name = Some f -> shaped (g_rows g + 2) (g_cols g) f) ->
  sed_flexure_init it g = Ok (c, g0) ->
  (forall p, shaped (g_rows g) (g_cols g) p -> shaped (g_rows g) (g_cols g) (flexure p)) ->
  (forall l d, In (l, d) (hist ++ [(load, dt)]) -> shaped (g_rows g + 2) (g_cols g) l) ->
  sed_flexure_run flexure gravity (hist ++ [(load, dt)]) c g0 = Ok (c1, g1, ps1) ->
  sed_flexure_run flexure gravity [(load, dt')] c1 g1 = Ok (c2, g2, ps2) ->
  forall i j, (1 <= i <= g_rows g)%nat -> (j < g_cols g)%nat -> nsum_at i j ps2 = 0.
Proof.
  intros Hs Hi Hflex Hh E1 E2 i j Hi' Hj.
  assert (Sl : shaped (g_rows g + 2) (g_cols g) load) by (apply (Hh load dt); apply in_or_app; right; left; reflexivity).
  destruct (sed_flexure_init_ok it g c g0 Hs Hi) as [Hok [Hdx _]].
  destruct (sed_flexure_run_spec (g_rows g) (g_cols g) flexure gravity _ c g0 Hok Hflex Hh)
    as [c1' [g1' [ps1' [E1' [_ [Hok1 [V1 _]]]]]]].
  rewrite E1 in E1'. inversion E1'; subst c1' g1' ps1'; clear E1'.
  destruct (sed_flexure_run_spec (g_rows g) (g_cols g) flexure gravity [(load, dt')] c1 g1 Hok1 Hflex)
    as [c2' [g2' [ps2' [E2' [_ [_ [V2 _]]]]]]].
  { intros l d [Eq|[]]. inversion Eq; subst; assumption. }
  rewrite E2 in E2'. inversion E2'; subst c2' g2' ps2'; clear E2'.
  destruct i as [|i]; [lia|].
  destruct (V1 i j ltac:(lia) Hj) as [_ L1]. destruct (V2 i j ltac:(lia) Hj) as [S2 L2].
  rewrite rev_unit in L1. cbn in L2. rewrite S2, L2, L1. lra.
Qed.

Definition ex_flex_gridQ : grid Q :=
  mkGrid 2 3 1%Q 10%Q [(TOTAL_LOAD, full 4 3 1%Q)] [] [] (el_empty 2 1).
(* rational exponential does not exist: use the isostatic component (None) *)
#[local] Instance Trans_Q_stub : Trans Q :=
  { nexp := fun x => x; nsin := fun x => x; ncos := fun x => x; nsqrt := fun x => x; npi := 3%Q }.
Definition ex_flex_run : option (field Q * field Q) :=
  match sed_flexure_init None ex_flex_gridQ with
  | Ok (c, g0) =>
      let g1 := put_node g0 TOTAL_LOAD (full 4 3 5%Q) in
      match sed_flexure_step (fmap (fun p => (p / (10#1))%num)) (2#1)%Q 1%Q c g1 with
      | Ok (_, g2) => match node g2 PRESSURE, node g2 BEDROCK_INC with
                      | Some p, Some b => Some (fmap Qred p, fmap Qred b) | _, _ => None end
      | Err _ => None end
  | Err _ => None end.
Lemma ex_flex_run_ok :
  ex_flex_run = Some (map (map inject_Z) [[0;0;0]; [80;80;80]; [80;80;80]; [0;0;0]]%Z,
                      map (map inject_Z) [[0;0;0]; [-4;-4;-4]; [-4;-4;-4]; [0;0;0]]%Z).
Proof. vm_compute. reflexivity. Qed.

Definition ex_flex_grid : grid R :=
  mkGrid 2 3 1 10 [(TOTAL_LOAD, full 4 3 1)] [] [] (el_empty 2 1).
Lemma ex_flex_nonvacuous :
  (forall f name, node ex_flex_grid name = Some f -> shaped (g_rows ex_flex_grid + 2) (g_cols ex_flex_grid) f)
  /\ exists c g0, sed_flexure_init (Some 7000) ex_flex_grid = Ok (c, g0)
       /\ node g0 TOTAL_LOAD = Some (full 4 3 1) /\ node g0 BEDROCK_INC = Some (full 4 3 0).
Proof.
  split.
  - intros f name. unfold node, ex_flex_grid. cbn [at_node dget].
    destruct (String.eqb name TOTAL_LOAD); [|discriminate]. intros E; inversion E. apply (shaped_full 4 3).
  - destruct ex_dyn_init as [c [Ec _]].
    unfold sed_flexure_init. change (g_rows (ensure_node ex_flex_grid TOTAL_LOAD)) with 2%nat.
    change (g_cols (ensure_node ex_flex_grid TOTAL_LOAD)) with 3%nat. rewrite Ec. cbn [bind].
    eexists. eexists. split; [reflexivity|]. split; [reflexivity|].
    rewrite <- n0_R. reflexivity.
Qed.

(* C69 *)
Theorem water_flexure_idle n m calc_flexure alpha gamma rho gravity dt it (c : dyn_flexure R) (g : grid R) li wd bi :
  dyn_init it n m = Ok c -> g_cols g = m -> gamma <> 0 ->
  node g LITHO = Some li -> shaped (n + 2) m li ->
  node g "water__increment_of_depth" = Some wd -> shaped (n + 2) m wd ->
  (forall i j, (1 <= i <= n)%nat -> (j < m)%nat -> at2 0 wd i j = 0) ->
  node g BEDROCK_INC = Some bi -> shaped (n + 2) m bi ->
  gval g "sea_level__increment_of_elevation" = Some 0 ->
  (forall p, shaped n m p -> shaped n m (calc_flexure p)) ->
  calc_flexure (full n m 0) = full n m 0 ->
  exists c' g', water_flexure_step calc_flexure alpha gamma rho gravity dt c g = Ok (c', g')
    /\ node g' BEDROCK_INC = Some bi.
Proof.
  intros Hi Hm Hg Hli Sli Hwd Swd Hz Hbi Sbi Hsl Hf H0.
  destruct (dyn_init_time _ _ _ _ Hi) as [Hr [Hp _]].
  assert (Sp : shaped n m (df_pool c)) by (rewrite Hp; apply shaped_full).
  destruct (water_flexure_step_spec n m calc_flexure alpha gamma rho gravity dt c g li wd bi 0
              Hr Hm Sp Hli Sli Hwd Swd Hbi Sbi Hsl Hf)
    as [c' [g' [bi' [iso [E [_ [Siso [Viso [Ebi [Sbi' [Vb _]]]]]]]]]]].
  exists c', g'. split; [assumption|]. rewrite Ebi. f_equal.
  assert (Ez : fmap (fun d => d * rho * gravity * g_dx g) (inner wd) = full n m 0).
  { apply (field_ext n m) with (d := 0).
    - apply shaped_fmap, shaped_inner; assumption.
    - apply shaped_full.
    - intros i j Hi' Hj. rewrite (at2_fmap _ n m _ 0 0) by (try (apply shaped_inner); assumption).
      rewrite (at2_inner n m) by assumption. rewrite Hz by lia. rewrite at2_full by assumption. lra. }
  assert (Hiso : forall i j, (i < n)%nat -> (j < m)%nat -> at2 0 iso i j = 0).
  { intros i j Hi' Hj. rewrite (Viso i j Hi' Hj), Ez, H0, at2_full by assumption.
    unfold calc_half_plane_deflection. rewrite nth_map' with (da := 0)
      by (unfold x_of_column; rewrite map_length, seq_length; lia).
    numR. transR. replace (0 * rho * gravity) with 0 by lra. unfold Rdiv. lra. }
  pose proof (dyn_step_spec n m c iso dt Hr Sp Siso) as HD.
  destruct (calc_dynamic_deflection c iso dt) as [c2 out]. destruct HD as [_ [_ [_ [_ V]]]]. cbn [snd] in Vb.
  apply (field_ext (n + 2) m) with (d := 0); try assumption.
  intros i j Hi' Hj. rewrite (Vb i j Hi' Hj).
  destruct (Nat.leb_spec 1 i), (Nat.leb_spec i n); cbn [andb]; try reflexivity.
  destruct (V (i - 1)%nat j ltac:(lia) Hj) as [Vo _]. rewrite Vo, Hiso by lia.
  rewrite Hp, at2_full by lia. lra.
Qed.

Lemma ex_load_mixed :
  calc_loading (map inject_Z [2;2;2;-3;0]%Z) (map inject_Z [1;-1;-4;1;0]%Z) (1#2)%Q
               (map inject_Z [2;2;2;2;2]%Z) 1%Q
  = Ok (map Qred [2; 5#2; 3; -4; 0]%Q).
Proof. vm_compute. reflexivity. Qed.
Lemma ex_half_plane : 0 < 3 /\ 0 < 2 /\ (0 < length [0; 10; 30])%nat /\ sorted [0; 10; 30].
Proof.
  repeat split; try lra; try (simpl; lia). apply ShorelineP.increasing_sorted. inc.
Qed.
Lemma ex_water_nonvacuous : exists (c : dyn_flexure R) (g : grid R) li wd bi,
  dyn_init (Some 7000) 2 3 = Ok c /\ g_cols g = 3%nat
  /\ node g LITHO = Some li /\ shaped (2 + 2) 3 li
  /\ node g "water__increment_of_depth" = Some wd /\ shaped (2 + 2) 3 wd
  /\ (forall i j, (1 <= i <= 2)%nat -> (j < 3)%nat -> at2 0 wd i j = 0)
  /\ node g BEDROCK_INC = Some bi /\ shaped (2 + 2) 3 bi
  /\ gval g "sea_level__increment_of_elevation" = Some 0.
Proof.
  destruct ex_dyn_init as [c [Ec _]].
  exists c, (mkGrid 2 3 1 10 [(LITHO, full 4 3 5); ("water__increment_of_depth"%string, full 4 3 0);
                              (BEDROCK_INC, full 4 3 7)]
               [("sea_level__increment_of_elevation"%string, 0)] [] (el_empty 2 1)),
    (full 4 3 5), (full 4 3 0), (full 4 3 7).
  repeat (split; [first [assumption|reflexivity|apply (shaped_full 4 3)]|]).
  split; [|repeat (split; [first [reflexivity|apply (shaped_full 4 3)]|]); reflexivity].
  intros i j Hi Hj. apply at2_full; lia.
Qed.
