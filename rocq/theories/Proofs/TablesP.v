(** The example tables. *)
From Coq Require Import String List ZArith QArith Reals Qreals Lra Lia Arith.
From Verif.Base Require Import Num Py Arr.
From Verif.Model Require Import Layers Grid Interp Bathymetry Subsidence SeaLevel SequenceModel Csv.
From Verif.Spec Require Import Profile History.
From Verif.Proofs Require Import GridP SequenceP ShorelineP InterpP SubsidenceP.
Import ListNotations.
Local Open Scope R_scope.

Ltac q2r := repeat match goal with |- context [@nlit R Num_R ?q] => change (@nlit R Num_R q) with (Q2R q) end; unfold Q2R; cbn [Qnum Qden].

Lemma table2 (a b c d : R) (a' b' c' d' : R) : a = a' -> b = b' -> c = c' -> d = d' -> @Ok (list R * list R) ([a; b], [c; d]) = Ok ([a'; b'], [c'; d']).
Proof. intros -> -> -> ->. reflexivity. Qed.
Lemma bathymetry_table : file_table example_bathymetry = Ok ([0; 100000], [20; -80]).
Proof.
  unfold file_table. assert (E : read_table example_bathymetry = Ok ([0 # 10; 1000000 # 10], [200 # 10; -800 # 10])%Q) by (vm_compute; reflexivity).
  rewrite E. cbn [bind fst snd map]. apply table2; q2r; lra.
Qed.
Lemma sealevel_table : file_table example_sealevel = Ok ([0; 200000], [0; -10]).
Proof.
  unfold file_table. assert (E : read_table example_sealevel = Ok ([0 # 10; 2000000 # 10], [0 # 10; -100 # 10])%Q) by (vm_compute; reflexivity).
  rewrite E. cbn [bind fst snd map]. apply table2; q2r; lra.
Qed.
Lemma subsidence_table : file_table example_subsidence = Ok ([0; 30000; 35000; 50000; 100000], [0; 0; 0; 0; 0]).
Proof.
  unfold file_table. assert (E : read_table example_subsidence = Ok ([0 # 10; 300000 # 10; 350000 # 10; 500000 # 10; 1000000 # 10], [0 # 10; 0 # 10; 0 # 10; 0 # 10; 0 # 10])%Q)
    by (vm_compute; reflexivity).
  rewrite E. cbn [bind fst snd map]. f_equal. f_equal; repeat (f_equal; [q2r; lra|]); try reflexivity; repeat (apply f_equal2; [q2r; lra|]); reflexivity.
Qed.

Lemma inc2 (a b : R) : a < b -> increasing [a; b].
Proof. intros L i j [H1 H2]. cbn in H2. destruct i as [|[|i]], j as [|[|j]]; cbn; try lia. exact L. Qed.
Lemma inc5 : increasing [0; 30000; 35000; 50000; 100000].
Proof. intros i j [H1 H2]. cbn in H2. destruct i as [|[|[|[|[|i]]]]], j as [|[|[|[|[|j]]]]]; cbn; try lia; lra. Qed.

Lemma interp2 (x0 x1 y0 y1 v : R) : x0 < x1 ->
  (x0 <= v <= x1 -> interp_linear [x0; x1] [y0; y1] v = Ok (lerp x0 y0 x1 y1 v))
  /\ (~ (x0 <= v <= x1) -> interp_linear [x0; x1] [y0; y1] v = Err ValueError).
Proof.
  intros L. split; intros V.
  - exact (interp_linear_spec [x0; x1] [y0; y1] v 0 (inc2 _ _ L) eq_refl ltac:(cbn; lia) V).
  - apply (interp_linear_ok_iff [x0; x1] [y0; y1] v ltac:(cbn; lia) (inc2 _ _ L) eq_refl). exact V.
Qed.
Lemma zero_table v : 0 <= v <= 100000 -> interp_linear [0; 30000; 35000; 50000; 100000] [0; 0; 0; 0; 0] v = Ok 0.
Proof.
  intros V. destruct (find_interval [0; 30000; 35000; 50000; 100000] v ltac:(cbn; lia) inc5 V) as [i [Li Vi]].
  rewrite (interp_linear_spec _ [0; 0; 0; 0; 0] v i inc5 eq_refl Li Vi).
  assert (Z : forall k, nth k [0; 0; 0; 0; 0] 0 = 0) by (intros k; destruct k as [|[|[|[|[|[|k]]]]]]; reflexivity).
  rewrite !Z. unfold lerp. f_equal. ring.
Qed.

(** * Bathymetry *)

(* a new model's grid *)
Definition grid_params_of (rows cols : nat) (dy dx : R) : grid_params R := mkGridParams (Some [rows; cols]) None (Some [dy; dx]) None.

Lemma in_columns (g : grid R) v : In v (x_of_column g) -> exists j, (j < g_cols g)%nat /\ v = INR j * g_dx g.
Proof.
  intros I. apply (In_nth _ _ 0) in I. destruct I as [j [Lj <-]]. rewrite x_of_column_length in Lj. exists j. split; [exact Lj|]. apply x_of_column_nth, Lj.
Qed.
Lemma mapM_fn {B C} (f : B -> result C) (h : B -> C) l : (forall b, In b l -> f b = Ok (h b)) -> mapM f l = Ok (map h l).
Proof.
  induction l as [|a l IH]; intros E; [reflexivity|]. cbn [mapM map]. rewrite (E a (or_introl eq_refl)). cbn [bind].
  rewrite (IH (fun b Hb => E b (or_intror Hb))). reflexivity.
Qed.
Lemma mapM_fails {B C} (f : B -> result C) l b e : In b l -> (forall c, f c = Err e \/ exists v, f c = Ok v) -> f b = Err e -> mapM f l = Err e.
Proof.
  induction l as [|a l IH]; intros I D E; [destruct I|]. cbn [mapM]. destruct (D a) as [Ea|[v Ea]]; rewrite Ea; cbn [bind]; [reflexivity|].
  destruct I as [->|I]; [congruence|]. rewrite (IH I D E). reflexivity.
Qed.

Theorem example_start rows cols dy dx : 0 < dx -> (1 <= cols)%nat ->
  (INR (cols - 1) * dx <= 100000 ->
     exists g z, load_grid (grid_params_of rows cols dy dx) (Some (read_bathymetry example_bathymetry)) = Ok g
       /\ g_rows g = rows /\ g_cols g = cols /\ g_dx g = dx
       /\ node g "topographic__elevation" = Some z /\ shaped (rows + 2) cols z
       /\ (forall i j, (i < rows + 2)%nat -> (j < cols)%nat -> at2 0 z i j = 20 - INR j * dx / 1000)
       /\ node g "bedrock_surface__elevation" = Some (fmap (fun v => v - 100) z))
  /\ (100000 < INR (cols - 1) * dx ->
     load_grid (grid_params_of rows cols dy dx) (Some (read_bathymetry example_bathymetry)) = Err ValueError).
Proof.
  intros Hd Hc. unfold load_grid, grid_from_dict, grid_params_of. cbn [gp_shape gp_n_cols gp_spacing gp_xy_spacing bind].
  unfold grid_init. cbn [length Nat.eqb negb andb orb bind]. unfold read_bathymetry. rewrite bathymetry_table. cbn [bind fst snd].
  set (g0 := mkGrid _ _ _ _ _ _ _ _). 
  assert (B0 : bathymetry_init g0 = put_node g0 "topographic__elevation" (full (rows + 2) cols (n0 : R))) by reflexivity.
  rewrite B0. unfold bathymetry_step.
  assert (N0 : node_r (put_node g0 "topographic__elevation" (full (rows + 2) cols (n0 : R))) "topographic__elevation" = Ok (full (rows + 2) cols (n0 : R))) by reflexivity.
  rewrite N0. cbn [bind]. rewrite x_of_column_put_node.
  assert (L : 0 < 100000) by lra.
  split; intros Hx.
  - assert (P : mapM (interp_linear [0; 100000] [20; -80]) (x_of_column g0) = Ok (map (fun v => 20 - v / 1000) (x_of_column g0))).
    { apply mapM_fn. intros v I. destruct (in_columns _ _ I) as [j [Lj ->]]. cbn [g0 g_cols g_dx] in *.
      rewrite (proj1 (interp2 0 100000 20 (-80) _ L)).
      - f_equal. unfold lerp. field.
      - assert (INR j <= INR (cols - 1)) by (apply le_INR; lia). pose proof (pos_INR j). nra. }
    rewrite P. cbn [bind]. set (row := map (fun v => 20 - v / 1000) (x_of_column g0)).
    assert (Lr : length row = cols) by (unfold row; rewrite map_length, x_of_column_length; reflexivity).
    eexists. exists (map (fun _ => row) (full (rows + 2) cols (n0 : R))). split; [reflexivity|]. repeat split.
    + rewrite map_length. unfold full. apply repeat_length.
    + intros r Hr. apply in_map_iff in Hr. destruct Hr as [? [<- _]]. exact Lr.
    + intros i j Hi Hj. unfold at2. rewrite (nth_indep _ [] row) by (rewrite map_length; unfold full; rewrite repeat_length; exact Hi).
      rewrite (map_nth (fun _ => row) _ (repeat n0 cols)). unfold row.
      rewrite (nth_indep _ 0 (20 - 0 / 1000)) by (rewrite map_length, x_of_column_length; exact Hj).
      rewrite (map_nth (fun v => 20 - v / 1000)), x_of_column_nth by exact Hj. reflexivity.
    + cbn. f_equal. apply map_ext. intros r. apply map_ext. intros v. unfold Q2R. cbn. lra.
  - assert (P : mapM (interp_linear [0; 100000] [20; -80]) (x_of_column g0) = Err ValueError).
    { apply (mapM_fails _ _ (nth (cols - 1) (x_of_column g0) 0)).
      - apply nth_In. rewrite x_of_column_length. cbn. lia.
      - intros v. destruct (Rle_dec 0 v) as [A1|A1], (Rle_dec v 100000) as [A2|A2].
        + right. eexists. apply (interp2 0 100000 20 (-80) v L). lra.
        + left. apply (interp2 0 100000 20 (-80) v L). lra.
        + left. apply (interp2 0 100000 20 (-80) v L). lra.
        + left. apply (interp2 0 100000 20 (-80) v L). lra.
      - apply (interp2 0 100000 20 (-80) _ L). rewrite x_of_column_nth by (cbn; lia). cbn [g0 g_dx]. lra. }
    rewrite P. reflexivity.
Qed.

(** * Subsidence *)

Theorem example_subsides (g : grid R) : 0 < g_dx g -> INR (g_cols g - 1) * g_dx g <= 100000 ->
  exists c, read_subsidence example_subsidence g = Ok c /\ sub_rate c = repeat 0 (g_cols g).
Proof.
  intros Hd Hx. unfold read_subsidence. rewrite subsidence_table. cbn [bind fst snd]. unfold subsidence_init. cbn [snd]. unfold calc_subsidence_rate.
  set (g' := if has_node g INCREMENT then g else _).
  assert (X : x_of_column g' = x_of_column g) by (unfold g'; destruct (has_node g INCREMENT); [reflexivity|apply x_of_column_put_node]).
  rewrite X. assert (P : mapM (interp_linear [0; 30000; 35000; 50000; 100000] [0; 0; 0; 0; 0]) (x_of_column g) = Ok (map (fun _ => 0) (x_of_column g))).
  { apply mapM_fn. intros v I. destruct (in_columns _ _ I) as [j [Lj ->]]. apply zero_table.
    assert (INR j <= INR (g_cols g - 1)) by (apply le_INR; lia). pose proof (pos_INR j). nra. }
  rewrite P. cbn [bind]. eexists. split; [reflexivity|]. cbn [sub_rate].
  rewrite <- (x_of_column_length g). clear. induction (x_of_column g) as [|a l IH]; [reflexivity|]. cbn. rewrite IH. reflexivity.
Qed.

(** * Sea level *)

Theorem example_sea : exists c, read_sea_level example_sealevel = Ok c /\ slc_time c = 0
  /\ (forall t, 0 <= t <= 200000 -> slc_curve c t = Ok (- t / 20000))
  /\ (forall t, t < 0 \/ 200000 < t -> slc_curve c t = Err ValueError).
Proof.
  unfold read_sea_level. rewrite sealevel_table. cbn [bind fst snd]. eexists. split; [reflexivity|]. split; [exact n0_R|]. cbn [slc_curve].
  unfold sea_level_interpolator. assert (L : 0 < 200000) by lra. split; intros t Ht.
  - rewrite (proj1 (interp2 0 200000 0 (-10) t L) Ht). f_equal. unfold lerp. field.
  - apply (interp2 0 200000 0 (-10) t L). lra.
Qed.

(** * All three with the default parameters *)

Definition tables_suit : Prop :=
  forall g : grid R, load_grid (grid_params_of 1 100 1 1000) (Some (read_bathymetry example_bathymetry)) = Ok g ->
  (exists c, read_subsidence example_subsidence g = Ok c)
  /\ exists c, read_sea_level example_sealevel = Ok c /\ forall t, 0 <= t <= 600000 -> exists level, slc_curve c t = Ok level.
Lemma default_start : exists g z, load_grid (grid_params_of 1 100 1 1000) (Some (read_bathymetry example_bathymetry)) = Ok g
  /\ node g "topographic__elevation" = Some z /\ at2 0 z 1 0 = 20 /\ at2 0 z 1 99 = -79
  /\ g_dx g = 1000 /\ INR (g_cols g - 1) * g_dx g <= 100000.
Proof.
  assert (I : INR 99 = 99) by (rewrite INR_IZR_INZ; reflexivity).
  destruct (example_start 1 100 1 1000 ltac:(lra) ltac:(lia)) as [A _]. destruct A as [g [z [E [H1 [H2 [H3 [H4 [H5 [H6 _]]]]]]]]].
  { change (100 - 1)%nat with 99%nat. rewrite I. lra. }
  exists g, z. split; [exact E|]. split; [exact H4|]. rewrite !H6 by lia. rewrite I. change (INR 0) with 0.
  split; [lra|]. split; [lra|]. split; [exact H3|]. rewrite H2, H3. change (100 - 1)%nat with 99%nat. rewrite I. lra.
Qed.
Lemma tables_refuted : ~ tables_suit.
Proof.
  intros C. destruct default_start as [g [z [E _]]]. destruct (C g E) as [_ [c [Ec F]]].
  destruct example_sea as [c' [Ec' [_ [_ G]]]]. assert (c' = c) by congruence. subst c'.
  destruct (F 600000 ltac:(lra)) as [l El]. rewrite (G 600000) in El by lra. discriminate El.
Qed.
