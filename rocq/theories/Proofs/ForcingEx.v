(** Examples and consequences used by Props/ForcingProps.v *)
From Coq Require Import String List ZArith QArith Reals Lra Lia Arith.
From Verif.Base Require Import Num Py Arr.
From Verif.Model Require Import Layers Grid Interp SeaLevel Subsidence Bathymetry Clients.
From Verif.Spec Require Import Profile History.
From Verif.Proofs Require Import GridP InterpP ShorelineP ShorelineEx SeaLevelP SubsidenceP.
Import ListNotations.
Local Open Scope R_scope.

(* C08 *)
Theorem interp_table (x y : list R) :
  good_table x y ->
  (forall i, (i < length x)%nat -> interp_linear x y (nth i x 0) = Ok (nth i y 0))
  /\ (forall i u, (S i < length x)%nat -> nth i x 0 <= u <= nth (S i) x 0 ->
        exists v, interp_linear x y u = Ok v
          /\ v = lerp (nth i x 0) (nth i y 0) (nth (S i) x 0) (nth (S i) y 0) u
          /\ Rmin (nth i y 0) (nth (S i) y 0) <= v <= Rmax (nth i y 0) (nth (S i) y 0))
  /\ (forall u, (exists v, interp_linear x y u = Ok v) <->
                nth 0 x 0 <= u <= nth (length x - 1) x 0)
  /\ (forall u, interp_linear x y u = Err ValueError <->
                ~ (nth 0 x 0 <= u <= nth (length x - 1) x 0)).
Proof.
  intros [H2 [Hx Hy]].
  assert (Hdec : forall u, (nth 0 x 0 <= u <= nth (length x - 1) x 0)
                  \/ ~ (nth 0 x 0 <= u <= nth (length x - 1) x 0)).
  { intros u. destruct (Rle_dec (nth 0 x 0) u), (Rle_dec u (nth (length x - 1) x 0));
      [left; split; assumption| | | ]; right; intros []; contradiction. }
  split; [|split; [|split]].
  - intros i Hi. apply interp_linear_node; assumption.
  - intros i u Hi Hu. eexists. split; [apply (interp_linear_spec x y u i); assumption|].
    split; [reflexivity|]. apply lerp_bounds; [apply Hx; lia|assumption].
  - intros u. destruct (interp_linear_ok_iff x y u H2 Hx Hy) as [Ha Hb]. split; [|exact Ha].
    intros [v E]. destruct (Hdec u) as [D|D]; [assumption|]. rewrite Hb in E by assumption. discriminate.
  - intros u. destruct (interp_linear_ok_iff x y u H2 Hx Hy) as [Ha Hb]. split; [|exact Hb].
    intros E D. destruct (Ha D) as [v Ev]. congruence.
Qed.

Lemma ex_table : good_table [0; 10; 30] [5; 1; 2].
Proof. repeat split; simpl; try lia. inc. Qed.

(* C09 *)
Definition nearest_extrapolation : Prop :=
  forall (x y : list R) u, good_table x y ->
    (u < nth 0 x 0 -> sea_level_interpolator x y u = Ok (nth 0 y 0))
    /\ (nth (length x - 1) x 0 < u -> sea_level_interpolator x y u = Ok (nth (length y - 1) y 0)).

Lemma nearest_refuted : ~ nearest_extrapolation.
Proof.
  intros H. destruct (H [0; 10; 30] [5; 1; 2] (-1) ex_table) as [H1 _].
  specialize (H1 ltac:(simpl; lra)).
  assert (E : sea_level_interpolator [0; 10; 30] [5; 1; 2] (-1) = Err ValueError).
  { apply (proj2 (proj2 (proj2 (interp_table _ _ ex_table)))). simpl. lra. }
  congruence.
Qed.

Theorem outside_table (x y : list R) dt t (g : grid R) old :
  good_table x y -> gval g "sea_level__elevation" = Some old ->
  ~ (nth 0 x 0 <= t + dt <= nth (length x - 1) x 0) ->
  sea_level_step dt (mkSeaLevel (sea_level_interpolator x y) t) g
  = (mkSeaLevel (sea_level_interpolator x y) (t + dt), g, Some ValueError).
Proof.
  intros Hg Ho Hout. unfold sea_level_step. rewrite Ho. cbn [slc_curve slc_time]. numR.
  unfold sea_level_interpolator at 1.
  rewrite (proj2 (proj2 (proj2 (proj2 (interp_table x y Hg))) (t + dt)) Hout). reflexivity.
Qed.

(* C10: the whole property in terms of one construction and a history *)
Theorem subsidence_history ops (g : grid R) f x y :
  0 < g_dx g -> (0 < g_cols g)%nat ->
  node g INCREMENT = Some f -> shaped (g_rows g + 2) (g_cols g) f ->
  good_table x y -> nth 0 x 0 <= 0 -> INR (g_cols g - 1) * g_dx g <= nth (length x - 1) x 0 ->
  (forall x' y', In (SubSetFile x' y') ops -> good_table x' y') ->
  exists c f', snd (subsidence_init x y g) = Ok c /\ fst (subsidence_init x y g) = g
    /\ snd (sub_run ops c g) = put_node g INCREMENT f'
    /\ (forall j, (j < g_cols g)%nat -> exists total,
          uplift 0 (INR (g_cols g - 1) * g_dx g) x y ops (INR j * g_dx g) total
          /\ (forall i, (1 <= i <= g_rows g)%nat -> at2 0 f' i j = at2 0 f i j + total)
          /\ at2 0 f' 0 j = at2 0 f 0 j /\ at2 0 f' (g_rows g + 1) j = at2 0 f (g_rows g + 1) j).
Proof.
  intros Hd Hc Hf Hs Ht H0 Hn Hops.
  destruct (calc_rate_ok g Hd Hc x y Ht (conj H0 Hn)) as [rate Er].
  destruct (sub_run_spec ops g f x y (mkSubsidence rate 0) Hd Hc Hf Hs Ht Er Hops) as [f' [F1 [F2 F3]]].
  exists (mkSubsidence rate 0), f'. unfold subsidence_init, has_node, din.
  unfold node in Hf. rewrite Hf. cbn [fst snd]. rewrite Er. cbn [bind].
  split; [rewrite n0_R; reflexivity|]. split; [reflexivity|]. split; [assumption|].
  intros j Hj. destruct (F3 j Hj) as [total [U [V1 V2]]]. exists total. repeat split; auto.
Qed.

(* the total is determined by the history *)
Lemma on_curve_fun x y u v w : good_table x y -> on_curve x y u v -> on_curve x y u w -> v = w.
Proof.
  intros Ht Hv Hw. apply on_curve_interp in Hv; [|assumption]. apply on_curve_interp in Hw; [|assumption].
  congruence.
Qed.

Theorem uplift_fun lo hi ops : forall x y u a b,
  good_table x y -> (forall x' y', In (SubSetFile x' y') ops -> good_table x' y') ->
  uplift lo hi x y ops u a -> uplift lo hi x y ops u b -> a = b.
Proof.
  induction ops as [|op ops IH]; intros x y u a b Ht Hops Ha Hb.
  - inversion Ha; inversion Hb; congruence.
  - assert (Hops' : forall x' y', In (SubSetFile x' y') ops -> good_table x' y')
      by (intros; apply Hops; right; assumption).
    inversion Ha; subst; inversion Hb; subst; try contradiction.
    + rewrite (on_curve_fun x y u rate rate0) by assumption. f_equal. eapply IH; eauto.
    + eapply IH; [| |eassumption|eassumption]; auto. apply Hops; left; reflexivity.
    + tauto.
    + tauto.
    + eapply IH; eauto.
Qed.

Definition ex_sub_grid : grid R :=
  mkGrid 2 3 1 10 [(INCREMENT, full 4 3 1)] [] [] (el_empty 2 1).
Lemma ex_sub_nonvacuous :
  0 < g_dx ex_sub_grid /\ (0 < g_cols ex_sub_grid)%nat
  /\ node ex_sub_grid INCREMENT = Some (full 4 3 1) /\ shaped (g_rows ex_sub_grid + 2) (g_cols ex_sub_grid) (full 4 3 1)
  /\ good_table [0; 10; 30] [5; 1; 2] /\ nth 0 [0; 10; 30] 0 <= 0
  /\ INR (g_cols ex_sub_grid - 1) * g_dx ex_sub_grid <= nth 2 [0; 10; 30] 0.
Proof.
  repeat match goal with |- _ /\ _ => split end; try (cbn; lra); try (cbn; lia); try reflexivity.
  - apply (shaped_full 4 3).
  - apply ex_table.
Qed.

Definition ex_sub_gridQ : grid Q :=
  mkGrid 2 3 1%Q 10%Q [(INCREMENT, full 4 3 1%Q)] [] [] (el_empty 2 1).
Lemma ex_sub_run :
  match snd (subsidence_init (map inject_Z [0;10;30]%Z) (map inject_Z [5;1;2]%Z) ex_sub_gridQ) with
  | Ok c => match subsidence_step 2%Q c ex_sub_gridQ with
            | Ok (_, g') => match node g' INCREMENT with Some f => map (map Qred) f | None => [] end
            | Err _ => [] end
  | Err _ => [] end
  = map (map inject_Z) [[1;1;1]; [11;3;4]; [11;3;4]; [1;1;1]]%Z.
Proof. vm_compute. reflexivity. Qed.

(* C11: rows, failure, idempotence *)
Theorem bathymetry_all x y (g : grid R) z :
  good_table x y -> 0 < g_dx g -> (0 < g_cols g)%nat ->
  node g "topographic__elevation" = Some z -> shaped (g_rows g + 2) (g_cols g) z ->
  (nth 0 x 0 <= 0 /\ INR (g_cols g - 1) * g_dx g <= nth (length x - 1) x 0 ->
     exists z', bathymetry_step x y g = Ok (put_node g "topographic__elevation" z')
       /\ shaped (g_rows g + 2) (g_cols g) z'
       /\ (forall i j, (i < g_rows g + 2)%nat -> (j < g_cols g)%nat ->
             on_curve x y (INR j * g_dx g) (at2 0 z' i j))
       /\ bathymetry_step x y (put_node g "topographic__elevation" z')
          = Ok (put_node g "topographic__elevation" z'))
  /\ (~ (nth 0 x 0 <= 0 /\ INR (g_cols g - 1) * g_dx g <= nth (length x - 1) x 0) ->
     exists e, bathymetry_step x y g = Err e).
Proof.
  intros Ht Hd Hc Hz Hs. destruct (bathymetry_step_spec x y g z Ht Hd Hc Hz Hs) as [Ha Hb].
  split; [|exact Hb]. intros Hcov. destruct (Ha Hcov) as [z' [E [S V]]].
  exists z'. repeat split; auto; try apply S. apply (bathymetry_idempotent _ _ _ _ E).
Qed.

Definition ex_bath_gridQ : grid Q :=
  mkGrid 1 4 1%Q 5%Q [("topographic__elevation"%string, full 3 4 7%Q)] [] [] (el_empty 1 2).
Lemma ex_bath_run :
  match bathymetry_step (map inject_Z [0;10;30]%Z) (map inject_Z [5;1;2]%Z) ex_bath_gridQ with
  | Ok g' => match node g' "topographic__elevation" with Some f => map (map Qred) f | None => [] end
  | Err _ => [] end
  = let r := [5; 3; 1; 5 # 4]%Q in [r; r; r].
Proof. vm_compute. reflexivity. Qed.
Lemma ex_bath_fail :
  bathymetry_step (map inject_Z [0;10;14]%Z) (map inject_Z [5;1;2]%Z) ex_bath_gridQ = Err ValueError.
Proof. vm_compute. reflexivity. Qed.
Lemma ex_bath_nonvacuous : exists (g : grid R) z,
  good_table [0; 10; 30] [5; 1; 2] /\ 0 < g_dx g /\ (0 < g_cols g)%nat
  /\ node g "topographic__elevation" = Some z /\ shaped (g_rows g + 2) (g_cols g) z
  /\ nth 0 [0; 10; 30] 0 <= 0 /\ INR (g_cols g - 1) * g_dx g <= nth 2 [0; 10; 30] 0.
Proof.
  exists (mkGrid 2 3 1 10 [("topographic__elevation"%string, full 4 3 1)] [] [] (el_empty 2 1)), (full 4 3 1).
  repeat match goal with |- _ /\ _ => split end; try (cbn; lra); try (cbn; lia); try reflexivity.
  - apply ex_table.
  - apply (shaped_full 4 3).
Qed.

(* C12 *)
Lemma ex_profile_nonvacuous : increasing [0; 10; 30] /\ 15 <= nth (length [0; 10; 30] - 1) [0; 10; 30] 0.
Proof. split; [inc|simpl; lra]. Qed.

(* C68 *)
Definition shore_recentred : Prop :=
  forall (x : list R) sp s h a ss,
    (2 <= length x)%nat -> increasing x -> 0 < sp -> 0 < ss -> 0 <= h -> 0 <= a ->
    ~ (nth 0 x 0 <= s <= nth (length x - 1) x 0) ->
    let z := create_initial_profile x sp s h a ss in
    0 <= nth 0 z 0 /\ nth (length x - 1) z 0 <= 0.

Lemma shore_recentred_refuted : ~ shore_recentred.
Proof.
  intros H. specialize (H [0; 10; 30] 1 (-5) 0 0 1 ltac:(simpl; lia) ltac:(inc) ltac:(lra) ltac:(lra) ltac:(lra) ltac:(lra)).
  specialize (H ltac:(simpl; lra)). cbn zeta in H. destruct H as [H _].
  destruct (initial_profile_spec [0; 10; 30] 1 (-5) 0 0 1) as [sh [H1 [_ [_ [_ H5]]]]];
    try lra; try (simpl; lia); try inc.
  specialize (H1 ltac:(simpl; lra)). subst sh.
  destruct (H5 0%nat ltac:(simpl; lia)) as [_ [_ H6]]. specialize (H6 ltac:(simpl; lra)). lra.
Qed.

Theorem shore_recentred_seaward (x : list R) sp s h a ss :
  (2 <= length x)%nat -> increasing x -> 0 < sp -> 0 < ss -> 0 <= h -> 0 <= a ->
  nth (length x - 1) x 0 < s ->
  let z := create_initial_profile x sp s h a ss in
  0 < nth 0 z 0 /\ nth (length x - 1) z 0 < 0.
Proof.
  intros Hl Hx Hsp Hss Hh Ha Hs z.
  destruct (initial_profile_spec x sp s h a ss ltac:(lia) Hx Hsp Hss Hh Ha) as [sh [_ [H2 [_ [_ H5]]]]].
  destruct (H2 Hs) as [E _].
  assert (nth 0 x 0 < nth (length x - 1) x 0) by (apply Hx; lia).
  split; [apply (H5 0%nat); [lia|lra]|apply (H5 (length x - 1)%nat); [lia|lra]].
Qed.

Lemma ex_profile_seaward : increasing [0; 10; 30] /\ nth 2 [0; 10; 30] 0 < 31.
Proof. split; [inc|simpl; lra]. Qed.
Lemma ex_outside : good_table [0; 10; 30] [5; 1; 2] /\ ~ (0 <= 29 + 2 <= 30).
Proof. split; [apply ex_table|lra]. Qed.
Lemma ex_sinusoid : (1 : R) <> 0 /\ sinusoid 1 2 0 3 0 (0 + 1 / 4) = 3 + 2 + 0 * (0 + 1 / 4).
Proof. split; [lra|]. apply sinusoid_quarter. lra. Qed.
Theorem sinusoid_all (L a ph m l : R) :
  L <> 0 ->
  let level t := sinusoid L a ph m l t in
  (forall t, level (t + L) = level t + l * L)
  /\ level ph = m + l * ph
  /\ level (ph + L / 4) = m + a + l * (ph + L / 4)
  /\ (forall t, Rabs (level t - (m + l * t)) <= 13 / 10 * Rabs a).
Proof.
  intros HL level. unfold level. split; [|split; [|split]].
  - intros; apply sinusoid_period; assumption.
  - apply sinusoid_at_phase; assumption.
  - apply sinusoid_quarter; assumption.
  - intros; apply sinusoid_band; assumption.
Qed.
Theorem sinusoidal_step (L a ph m s l dt : R) g old :
  gval g "sea_level__elevation" = Some old ->
  let '(c, g', e) := sea_level_step dt (sinusoidal_init L a ph m s l) g in
  e = None
  /\ gval g' "sea_level__elevation" = Some (sinusoid L a ph m l (s + dt))
  /\ slc_time c = s + dt.
Proof.
  intros Ho. unfold sea_level_step, sinusoidal_init. rewrite Ho. cbn [slc_curve slc_time].
  split; [reflexivity|]. split; [|reflexivity].
  rewrite !gval_put_gval. reflexivity.
Qed.
