(** Property-level facts about submarine diffusion, with example states. *)
From Coq Require Import String List Reals Lra Lia Arith QArith.
From Verif.Base Require Import Num Py Arr.
From Verif.Model Require Import Layers Grid Shoreline Flexure Submarine Clients.
From Verif.Spec Require Import Diffusion.
From Verif.Proofs Require Import GridP SubmarineP.
Import ListNotations.
Local Open Scope R_scope.

Lemma coefficients_positive ps0 load0 wb0 sh0 al0 ss0 w0 lsl bw (g : grid R) z0 c0 g0 ops shores :
  (0 < g_rows g)%nat -> node g TOPO = Some z0 -> shaped (g_rows g + 2) (g_cols g) z0 ->
  node g KD = None ->
  submarine_init (mkSubParams w0 ps0 wb0 sh0 al0 ss0 load0 lsl bw) g = Ok (c0, g0) ->
  (forall op, In op ops -> diff_ok (g_rows g) (g_cols g) op) -> length shores = g_rows g ->
  let z := last_topography z0 ops in
  let now := diff_tracked (mkNow ps0 load0 wb0 sh0 al0 ss0 w0) ops in
  let load_at level := now_sediment_load now * (1 + level * lsl) in
  0 < g_dx g -> 0 < now_plain_slope now ->
  0 < load_at (now_sea_level now) -> 0 < load_at (level_used w0 w0 w0 ops) ->
  0 <= now_shoreface_height now * now_alpha now + now_shelf_slope now ->
  (forall i j, (i < g_rows g)%nat -> (j < g_cols g)%nat ->
     at2 0 z (i + 1) j < now_sea_level now -> nth i shores 0 <= INR j * g_dx g) ->
  exists kd, node (snd (diff_run (ops ++ [Calc shores]) (c0, g0))) KD = Some kd
    /\ forall i j, (i < g_rows g)%nat -> (j < g_cols g)%nat -> 0 < at2 0 kd (i + 1) j.
Proof.
  intros Hn Ez Sz Ek Ei Hok Hsh z now load_at Hdx Hps Hl1 Hl2 Hb Hx.
  destruct (diff_history ps0 load0 wb0 sh0 al0 ss0 w0 lsl bw g z0 c0 g0 ops shores
              Hn Ez Sz Ek Ei Hok Hsh) as [kd [E [_ [Hk _]]]].
  exists kd. split; [exact E|]. intros i j Hi Hj. rewrite Hk by assumption.
  fold z now. apply diffusion_rule_pos; try assumption.
  - destruct (Nat.eqb i 0); assumption.
  - apply Rmult_le_pos; [apply pos_INR|lra].
  - intros Hd. apply Hx; try assumption. lra.
Qed.

(** ** independence of history *)

Definition same_coefficient_twice : Prop :=
  forall p (g : grid R) z c0 g0 ops shores,
    (0 < g_rows g)%nat -> node g "topographic__elevation" = Some z ->
    shaped (g_rows g + 2) (g_cols g) z -> node g "kd" = None ->
    submarine_init p g = Ok (c0, g0) ->
    (forall op, In op ops -> diff_ok (g_rows g) (g_cols g) op) -> length shores = g_rows g ->
    node (snd (diff_run (ops ++ [Calc shores]) (c0, g0))) "kd"
    = node (snd (diff_run (ops ++ [Calc shores; Calc shores]) (c0, g0))) "kd".

Definition ex_sub_grid (n : nat) : grid R :=
  mkGrid n 1 1 1 [("topographic__elevation"%string, full (n + 2) 1 0)] [] [] (el_empty n 0).
Definition ex_sub_params : sub_params R := mkSubParams 0 1 10 0 0 0 1 1 0.
Lemma ex_sub_init n : exists c0 g0, submarine_init ex_sub_params (ex_sub_grid n) = Ok (c0, g0).
Proof.
  unfold submarine_init, ex_sub_params. cbn [p_plain_slope]. numR. rewrite n0_R.
  replace (Reqb 1 0) with false by (symmetry; apply Reqb_false; lra). eexists; eexists; reflexivity.
Qed.

Lemma ex_rule load : diffusion_rule load 2 1 1 10 0 0 0 0 (INR 0 * 1) 0 (1 - 0) true = load
  /\ diffusion_rule load 2 1 1 10 0 0 0 0 (INR 0 * 1) 0 (1 - 0) false = load.
Proof.
  unfold diffusion_rule, shelf_value. simpl INR.
  destruct (Rle_dec (1 - 0) 0); [lra|]. destruct (Rle_dec (1 - 0) 10); [|lra]. split; field.
Qed.

Lemma same_coefficient_twice_refuted : ~ same_coefficient_twice.
Proof.
  intros H. destruct (ex_sub_init 1) as [c0 [g0 Ei]].
  assert (Sz : shaped 3 1 (full 3 1 0)) by apply shaped_full.
  pose (ops := [SetSeaLevel 1]).
  assert (Hok : forall op, In op ops -> diff_ok 1 1 op) by (intros op [<-|[]]; exact I).
  assert (Hok2 : forall op, In op (ops ++ [Calc [0]]) -> diff_ok 1 1 op)
    by (intros op [<-|[<-|[]]]; simpl; auto).
  pose proof (H ex_sub_params (ex_sub_grid 1) (full 3 1 0) c0 g0 ops [0] (le_n 1) eq_refl Sz eq_refl Ei
                Hok eq_refl) as E.
  replace (ops ++ [Calc [0]; Calc [0]]) with ((ops ++ [Calc [0]]) ++ [Calc [0]]) in E by reflexivity.
  destruct (diff_history 1 1 10 0 0 0 0 1 0 (ex_sub_grid 1) (full 3 1 0) c0 g0 ops [0]
              (le_n 1) eq_refl Sz eq_refl Ei Hok eq_refl) as [k1 [E1 [_ [H1 _]]]].
  destruct (diff_history 1 1 10 0 0 0 0 1 0 (ex_sub_grid 1) (full 3 1 0) c0 g0 (ops ++ [Calc [0]]) [0]
              (le_n 1) eq_refl Sz eq_refl Ei Hok2 eq_refl) as [k2 [E2 [_ [H2 _]]]].
  unfold KD in *. rewrite E1, E2 in E. injection E as ->.
  specialize (H1 0%nat 0%nat (le_n 1) (le_n 1)). specialize (H2 0%nat 0%nat (le_n 1) (le_n 1)).
  cbn in H1, H2. rewrite H1 in H2. revert H2.
  replace (1 * (1 + 0 * 1)) with 1 by ring. replace (1 * (1 + 1 * 1)) with 2 by ring.
  destruct (ex_rule 1) as [R1 _]. destruct (ex_rule 2) as [R2 _]. cbn in R1, R2. rewrite R1, R2. lra.
Qed.

(* rows with the same submerged profile and shore *)
Definition same_rows_same_coefficients : Prop :=
  forall p (g : grid R) z c0 g0 ops shores kd i1 i2,
    (0 < g_rows g)%nat -> node g "topographic__elevation" = Some z ->
    shaped (g_rows g + 2) (g_cols g) z -> node g "kd" = None ->
    submarine_init p g = Ok (c0, g0) ->
    (forall op, In op ops -> diff_ok (g_rows g) (g_cols g) op) -> length shores = g_rows g ->
    let g' := snd (diff_run (ops ++ [Calc shores]) (c0, g0)) in
    node g' "kd" = Some kd ->
    (i1 < g_rows g)%nat -> (i2 < g_rows g)%nat -> nth i1 shores 0 = nth i2 shores 0 ->
    (forall j, (j < g_cols g)%nat -> at2 0 (last_topography z ops) (i1 + 1) j = at2 0 (last_topography z ops) (i2 + 1) j) ->
    (forall j, (j < g_cols g)%nat -> at2 0 (last_topography z ops) (i1 + 1) j
        < now_sea_level (diff_tracked (mkNow (p_plain_slope p) (p_sediment_load p) (p_wave_base p)
             (p_shoreface_height p) (p_alpha p) (p_shelf_slope p) (p_sea_level p)) ops)) ->
    forall j, (j < g_cols g)%nat -> at2 0 kd (i1 + 1) j = at2 0 kd (i2 + 1) j.

Lemma same_rows_refuted : ~ same_rows_same_coefficients.
Proof.
  intros H. destruct (ex_sub_init 2) as [c0 [g0 Ei]].
  assert (Sz : shaped 4 1 (full 4 1 0)) by apply shaped_full.
  pose (ops := [SetSeaLevel 1]).
  assert (Hok : forall op, In op ops -> diff_ok 2 1 op) by (intros op [<-|[]]; exact I).
  destruct (diff_history 1 1 10 0 0 0 0 1 0 (ex_sub_grid 2) (full 4 1 0) c0 g0 ops [0; 0]
              (le_S _ _ (le_n 1)) eq_refl Sz eq_refl Ei Hok eq_refl) as [k1 [E1 [_ [H1 _]]]].
  specialize (H ex_sub_params (ex_sub_grid 2) (full 4 1 0) c0 g0 ops [0; 0] k1 0%nat 1%nat
                (le_S _ _ (le_n 1)) eq_refl Sz eq_refl Ei Hok eq_refl E1
                (le_S _ _ (le_n 1)) (le_n 2) eq_refl).
  assert (E : at2 0 k1 (0 + 1) 0 = at2 0 k1 (1 + 1) 0).
  { apply H.
    - intros j Hj. cbn in Hj. assert (j = 0)%nat by lia; subst. reflexivity.
    - intros j Hj. cbn in Hj. assert (j = 0)%nat by lia; subst. cbn. lra.
    - cbn. lia. }
  pose proof (H1 0%nat 0%nat (le_S _ _ (le_n 1)) (le_n 1)) as A1.
  pose proof (H1 1%nat 0%nat (le_n 2) (le_n 1)) as A2.
  rewrite E in A1. rewrite A1 in A2. cbn in A2. revert A2.
  replace (1 * (1 + 0 * 1)) with 1 by ring. replace (1 * (1 + 1 * 1)) with 2 by ring.
  destruct (ex_rule 1) as [_ R1]. destruct (ex_rule 2) as [R2 _]. cbn in R1, R2. rewrite R1, R2. lra.
Qed.

Section Two.
  (* two diffusers with possibly different pasts but the same present *)
  Variables (ps0 load0 wb0 sh0 al0 ss0 w0 ps0' load0' wb0' sh0' al0' ss0' w0' lsl bw : R).
  Variables (g g' : grid R) (z0 z0' : field R) (c0 c0' : submarine R) (g0 g0' : grid R).
  Variables (ops ops' : list diff_op) (shores : list R).
  Hypothesis Hn : (0 < g_rows g)%nat.
  Hypothesis Ez : node g TOPO = Some z0.
  Hypothesis Sz : shaped (g_rows g + 2) (g_cols g) z0.
  Hypothesis Ek : node g KD = None.
  Hypothesis Ei : submarine_init (mkSubParams w0 ps0 wb0 sh0 al0 ss0 load0 lsl bw) g = Ok (c0, g0).
  Hypothesis Hok : forall op, In op ops -> diff_ok (g_rows g) (g_cols g) op.
  Hypothesis Ez' : node g' TOPO = Some z0'.
  Hypothesis Sz' : shaped (g_rows g' + 2) (g_cols g') z0'.
  Hypothesis Ek' : node g' KD = None.
  Hypothesis Ei' : submarine_init (mkSubParams w0' ps0' wb0' sh0' al0' ss0' load0' lsl bw) g' = Ok (c0', g0').
  Hypothesis Hok' : forall op, In op ops' -> diff_ok (g_rows g') (g_cols g') op.
  Hypothesis Hr : g_rows g' = g_rows g.
  Hypothesis Hc : g_cols g' = g_cols g.
  Hypothesis Hdx : g_dx g' = g_dx g.
  Hypothesis Hsh : length shores = g_rows g.
  Hypothesis Hnow : diff_tracked (mkNow ps0 load0 wb0 sh0 al0 ss0 w0) ops
                    = diff_tracked (mkNow ps0' load0' wb0' sh0' al0' ss0' w0') ops'.
  Hypothesis Htopo : last_topography z0 ops = last_topography z0' ops'.

  Lemma two_histories :
    exists kd kd', node (snd (diff_run (ops ++ [Calc shores]) (c0, g0))) KD = Some kd
      /\ node (snd (diff_run (ops' ++ [Calc shores]) (c0', g0'))) KD = Some kd'
      /\ (forall i j, (1 <= i < g_rows g)%nat -> (j < g_cols g)%nat ->
            at2 0 kd (i + 1) j = at2 0 kd' (i + 1) j)
      /\ (lsl = 0 \/ level_used w0 w0 w0 ops = level_used w0' w0' w0' ops' ->
          forall i j, (i < g_rows g)%nat -> (j < g_cols g)%nat ->
            at2 0 kd (i + 1) j = at2 0 kd' (i + 1) j)
      /\ (forall i j, (i < g_rows g)%nat -> (j < g_cols g)%nat ->
            now_sea_level (diff_tracked (mkNow ps0 load0 wb0 sh0 al0 ss0 w0) ops)
              <= at2 0 (last_topography z0 ops) (i + 1) j ->
            at2 0 kd (i + 1) j = at2 0 kd' (i + 1) j).
  Proof.
    destruct (diff_history ps0 load0 wb0 sh0 al0 ss0 w0 lsl bw g z0 c0 g0 ops shores
                Hn Ez Sz Ek Ei Hok Hsh) as [kd [E [_ [Hk _]]]].
    destruct (diff_history ps0' load0' wb0' sh0' al0' ss0' w0' lsl bw g' z0' c0' g0' ops' shores
                ltac:(lia) Ez' Sz' Ek' Ei' Hok' ltac:(lia)) as [kd' [E' [_ [Hk' _]]]].
    exists kd, kd'. split; [assumption|]. split; [assumption|].
    rewrite <- Hnow, <- Htopo, Hr, Hc, Hdx in Hk'.
    split; [|split].
    - intros i j Hi Hj. rewrite Hk, Hk' by (try assumption; lia).
      destruct (Nat.eqb_spec i 0); [lia|]. reflexivity.
    - intros Hlu i j Hi Hj. rewrite Hk, Hk' by assumption.
      destruct (Nat.eqb_spec i 0); [|reflexivity]. f_equal.
      destruct Hlu as [E0|E0]; rewrite E0; [ring|reflexivity].
    - intros i j Hi Hj Hland. rewrite Hk, Hk' by assumption.
      unfold diffusion_rule. destruct (Rle_dec _ 0) as [|Hc0]; [reflexivity|]. exfalso; apply Hc0; lra.
  Qed.
End Two.

Lemma second_calculation ps0 load0 wb0 sh0 al0 ss0 w0 ps0' load0' wb0' sh0' al0' ss0' w0' lsl bw
    (g g' : grid R) z0 z0' c0 c0' g0 g0' ops ops' first first' shores :
  (0 < g_rows g)%nat -> g_rows g' = g_rows g -> g_cols g' = g_cols g -> g_dx g' = g_dx g ->
  node g TOPO = Some z0 -> shaped (g_rows g + 2) (g_cols g) z0 -> node g KD = None ->
  submarine_init (mkSubParams w0 ps0 wb0 sh0 al0 ss0 load0 lsl bw) g = Ok (c0, g0) ->
  (forall op, In op ops -> diff_ok (g_rows g) (g_cols g) op) ->
  node g' TOPO = Some z0' -> shaped (g_rows g' + 2) (g_cols g') z0' -> node g' KD = None ->
  submarine_init (mkSubParams w0' ps0' wb0' sh0' al0' ss0' load0' lsl bw) g' = Ok (c0', g0') ->
  (forall op, In op ops' -> diff_ok (g_rows g') (g_cols g') op) ->
  length first = g_rows g -> length first' = g_rows g -> length shores = g_rows g ->
  diff_tracked (mkNow ps0 load0 wb0 sh0 al0 ss0 w0) ops
    = diff_tracked (mkNow ps0' load0' wb0' sh0' al0' ss0' w0') ops' ->
  last_topography z0 ops = last_topography z0' ops' ->
  exists kd kd',
    node (snd (diff_run (ops ++ [Calc first; Calc shores]) (c0, g0))) KD = Some kd
    /\ node (snd (diff_run (ops' ++ [Calc first'; Calc shores]) (c0', g0'))) KD = Some kd'
    /\ forall i j, (i < g_rows g)%nat -> (j < g_cols g)%nat -> at2 0 kd (i + 1) j = at2 0 kd' (i + 1) j.
Proof.
  intros Hn Hr Hc Hdx Ez Sz Ek Ei Hok Ez' Sz' Ek' Ei' Hok' Hf Hf' Hsh Hnow Htopo.
  assert (L : forall z ops s, last_topography z (ops ++ [Calc s]) = last_topography z ops).
  { clear. intros z ops s. revert z; induction ops as [|[] ops IH]; intros; simpl; auto. }
  destruct (two_histories ps0 load0 wb0 sh0 al0 ss0 w0 ps0' load0' wb0' sh0' al0' ss0' w0' lsl bw
              g g' z0 z0' c0 c0' g0 g0' (ops ++ [Calc first]) (ops' ++ [Calc first']) shores)
    as [kd [kd' [E [E' [_ [Hk _]]]]]]; try assumption.
  - intros op Hop. apply in_app_or in Hop. destruct Hop as [Hop|[<-|[]]]; [auto|exact Hf].
  - intros op Hop. apply in_app_or in Hop. destruct Hop as [Hop|[<-|[]]]; [auto|simpl; lia].
  - rewrite !diff_tracked_app, Hnow. reflexivity.
  - rewrite !L. assumption.
  - exists kd, kd'. rewrite <- app_assoc in E, E'. split; [exact E|]. split; [exact E'|].
    intros i j Hi Hj. apply Hk; try assumption. right.
    change w0 with (now_sea_level (mkNow ps0 load0 wb0 sh0 al0 ss0 w0)) at 3.
    change w0' with (now_sea_level (mkNow ps0' load0' wb0' sh0' al0' ss0' w0')) at 3.
    rewrite !level_used_snoc_calc, Hnow. reflexivity.
Qed.

(** ** boundary rows *)

Definition both_boundaries_mirrored : Prop :=
  forall p (g : grid R) z c0 g0 ops shores kd,
    (0 < g_rows g)%nat -> node g "topographic__elevation" = Some z ->
    shaped (g_rows g + 2) (g_cols g) z -> node g "kd" = None ->
    submarine_init p g = Ok (c0, g0) ->
    (forall op, In op ops -> diff_ok (g_rows g) (g_cols g) op) -> length shores = g_rows g ->
    node (snd (diff_run (ops ++ [Calc shores]) (c0, g0))) "kd" = Some kd ->
    forall j, (j < g_cols g)%nat ->
      at2 0 kd 0 j = at2 0 kd 1 j /\ at2 0 kd (g_rows g + 1) j = at2 0 kd (g_rows g) j.

Lemma both_boundaries_refuted : ~ both_boundaries_mirrored.
Proof.
  intros H. destruct (ex_sub_init 1) as [c0 [g0 Ei]].
  assert (Sz : shaped 3 1 (full 3 1 0)) by apply shaped_full.
  assert (Hok : forall op, In op [] -> diff_ok 1 1 op) by (intros op []).
  destruct (diff_history 1 1 10 0 0 0 0 1 0 (ex_sub_grid 1) (full 3 1 0) c0 g0 [] [0]
              (le_n 1) eq_refl Sz eq_refl Ei Hok eq_refl) as [k1 [E1 [_ [H1 [_ H2]]]]].
  destruct (H ex_sub_params (ex_sub_grid 1) (full 3 1 0) c0 g0 [] [0] k1 (le_n 1) eq_refl Sz eq_refl Ei
              Hok eq_refl E1 0%nat (le_n 1)) as [_ E].
  specialize (H1 0%nat 0%nat (le_n 1) (le_n 1)). specialize (H2 0%nat (le_n 1)).
  cbn in H1, H2, E. rewrite H2, H1 in E. revert E.
  unfold diffusion_rule, land_value. destruct (Rle_dec (0 - 0) 0); [|lra].
  destruct (Rlt_dec 0 0); [lra|]. lra.
Qed.

(** ** one step *)

Lemma upstream_spec n m (z : field R) slope (g : grid R) i j :
  g_cols g = m -> (2 <= m)%nat -> shaped (n + 2) m z -> (i < n + 2)%nat -> (j < m)%nat ->
  at2 0 (set_upstream slope (x_of_column g) z) i j =
  if (Nat.leb 1 i && Nat.leb i n && Nat.eqb j 0)%bool
  then at2 0 z i 1 + slope * g_dx g else at2 0 z i j.
Proof.
  intros Hc Hm Sz Hi Hj. unfold set_upstream.
  set (f := fun row => lset row 0 _).
  pose proof (shaped_inner _ _ _ Sz) as Siz.
  assert (Sm : shaped n m (map f (inner z))).
  { apply shaped_of_nth; [rewrite map_length; apply (shaped_len _ _ _ Siz)|].
    intros k Hk. rewrite nth_map' with (da := []) by (rewrite (shaped_len _ _ _ Siz); lia).
    unfold f. rewrite lset_length. apply (shaped_nth _ _ _ _ Siz Hk). }
  rewrite (at2_set_inner n m) by assumption.
  destruct (Nat.leb_spec 1 i); [|reflexivity]. destruct (Nat.leb_spec i n); [|reflexivity]. cbn [andb].
  unfold at2 at 1. rewrite nth_map' with (da := []) by (rewrite (shaped_len _ _ _ Siz); lia).
  assert (Hrow : nth (i - 1) (inner z) [] = nth i z []).
  { rewrite nth_inner by (rewrite (shaped_len _ _ _ Sz); lia). f_equal; lia. }
  rewrite Hrow. unfold f. numR. rewrite n0_R.
  destruct (Nat.eqb_spec j 0) as [->|Hj0].
  - rewrite nth_lset_eq by (rewrite (shaped_nth _ _ _ _ Sz); lia).
    rewrite !nth_x_of_column by lia. simpl INR. unfold at2. f_equal. f_equal. ring.
  - rewrite nth_lset_neq by lia. reflexivity.
Qed.

Lemma upstream_shaped n m (z : field R) slope x :
  shaped (n + 2) m z -> shaped (n + 2) m (set_upstream slope x z).
Proof.
  intros Sz. unfold set_upstream. apply shaped_set_inner; [assumption|].
  pose proof (shaped_inner _ _ _ Sz) as Siz.
  apply shaped_of_nth; [rewrite map_length; apply (shaped_len _ _ _ Siz)|].
  intros k Hk. rewrite nth_map' with (da := []) by (rewrite (shaped_len _ _ _ Siz); lia).
  rewrite lset_length. apply (shaped_nth _ _ _ _ Siz Hk).
Qed.

Lemma submarine_step_spec interp1d diffuse dt (c : submarine R) (g : grid R) z kd deposit sl shores n m :
  g_rows g = n -> g_cols g = m -> (0 < n)%nat -> (2 <= m)%nat ->
  node g TOPO = Some z -> shaped (n + 2) m z ->
  node g KD = Some kd -> shaped (n + 2) m kd ->
  node g DEPOSIT = Some deposit -> shaped (n + 2) m deposit ->
  gval g SEALEVEL = Some sl ->
  (forall i, (i < n)%nat ->
     find_shoreline interp1d (x_of_column g) (nth (i + 1) z []) sl = Ok (nth i shores 0)) ->
  length shores = n ->
  (forall k u, shaped (n + 2) m k -> shaped (n + 2) m u -> shaped (n + 2) m (diffuse dt k u)) ->
  exists c' g' z' kd' deposit' c1 g1,
    submarine_step interp1d diffuse dt c g = Ok (c', g')
    /\ calc_diffusion_coef shores c g = Ok (c1, g1) /\ node g1 KD = Some kd'
    /\ node g' KD = Some kd'
    /\ node g' TOPO = Some z' /\ node g' DEPOSIT = Some deposit'
    /\ (forall i j, (i < n + 2)%nat -> (j < m)%nat ->
          at2 0 z' i j = if (Nat.leb 1 i && Nat.leb i n && Nat.eqb j 0)%bool
                         then at2 0 z i 1 + sb_plain_slope c * g_dx g else at2 0 z i j)
    /\ (forall i j, (i < n + 2)%nat -> (j < m)%nat ->
          at2 0 deposit' i j = at2 0 deposit i j + (at2 0 (diffuse dt kd' z') i j - at2 0 z' i j))
    /\ (forall name, name <> TOPO -> name <> KD -> name <> DEPOSIT -> node g' name = node g name)
    /\ at_grid g' = at_grid g /\ at_row g' = at_row g /\ layers g' = layers g
    /\ sb_time c' = sb_time c + dt.
Proof.
  intros Hr Hc Hn Hm Ez Sz Ek Sk Ed Sd Es Hsh Hls Hdiff.
  unfold submarine_step. rewrite (get_profile_ok _ _ _ Ez). cbn [bind].
  unfold gval_r at 1. rewrite Es. cbn [bind].
  pose proof (shaped_inner _ _ _ Sz) as Siz.
  assert (Em : mapM (fun row => find_shoreline interp1d (x_of_column g) row sl) (inner z) = Ok shores).
  { apply mapM_Forall2.
    assert (Hl : length (inner z) = length shores) by (rewrite (shaped_len _ _ _ Siz); lia).
    assert (Hall : forall i, (i < length shores)%nat ->
      find_shoreline interp1d (x_of_column g) (nth i (inner z) []) sl = Ok (nth i shores 0)).
    { intros i Hi. rewrite nth_inner by (rewrite (shaped_len _ _ _ Sz); lia).
      replace (S i) with (i + 1)%nat by lia. apply Hsh. lia. }
    clear - Hl Hall. revert shores Hl Hall. generalize (inner z) as l.
    induction l as [|a l IH]; intros [|s shores] Hl Hall; try discriminate; constructor.
    - apply (Hall 0%nat). simpl; lia.
    - apply IH; [simpl in Hl; lia|]. intros i Hi. apply (Hall (S i)). simpl; lia. }
  rewrite Em. cbn [bind].
  destruct (calc_diffusion_spec c g z kd sl shores n m Hr Hc Hn Ez Sz Ek Sk Es Hls)
    as [kd' [Ecalc [Skd' _]]].
  rewrite Ecalc. cbn [bind]. unfold node_r at 1. rewrite node_put_node. eqb_lit. rewrite Ez. cbn [bind].
  change (g_cols (put_node g KD kd')) with (g_cols g). rewrite Hc.
  destruct (Nat.ltb_spec m 2); [lia|].
  unfold node_r at 1. rewrite node_put_same. cbn [bind].
  change (x_of_column (put_node g KD kd')) with (x_of_column g).
  change (sb_plain_slope (refresh_load sl c)) with (sb_plain_slope c).
  set (z' := set_upstream (sb_plain_slope c) (x_of_column g) z).
  assert (Sz' : shaped (n + 2) m z') by (apply upstream_shaped; assumption).
  unfold node_r. rewrite !node_put_node. eqb_lit. rewrite Ed. cbn [bind].
  do 7 eexists. split; [reflexivity|]. split; [reflexivity|].
  split; [apply node_put_same|].
  split; [rewrite !node_put_node; eqb_lit; reflexivity|].
  split; [rewrite !node_put_node; eqb_lit; reflexivity|].
  split; [apply node_put_same|].
  split; [intros i j Hi Hj; apply (upstream_spec n m); assumption|].
  split.
  { intros i j Hi Hj. specialize (Hdiff kd' z' Skd' Sz').
    rewrite (at2_fmap2 (@nadd R _) (n + 2) m _ _ 0 0)
      by (try assumption; apply shaped_fmap2; assumption).
    rewrite (at2_fmap2 (@nsub R _) (n + 2) m _ _ 0 0) by assumption. reflexivity. }
  split.
  { intros name N1 N2 N3. rewrite !node_put_node.
    destruct (String.eqb_spec name DEPOSIT); [contradiction|].
    destruct (String.eqb_spec name TOPO); [contradiction|].
    destruct (String.eqb_spec name KD); [contradiction|]. reflexivity. }
  repeat split.
Qed.

(** ** land coefficient *)

Lemma land_coefficient ps0 load0 wb0 sh0 al0 ss0 w0 lsl bw (g : grid R) z0 c0 g0 ops :
  (0 < g_rows g)%nat -> node g TOPO = Some z0 -> shaped (g_rows g + 2) (g_cols g) z0 ->
  node g KD = None ->
  submarine_init (mkSubParams w0 ps0 wb0 sh0 al0 ss0 load0 lsl bw) g = Ok (c0, g0) ->
  (forall op, In op ops -> diff_ok (g_rows g) (g_cols g) op) ->
  let now := diff_tracked (mkNow ps0 load0 wb0 sh0 al0 ss0 w0) ops in
  let c := fst (diff_run ops (c0, g0)) in
  sb_plain_slope c = now_plain_slope now /\ sb_load0 c = now_sediment_load now
  /\ sb_ksh c = sb_load c / sb_plain_slope c
  /\ sb_load c = now_sediment_load now * (1 + level_used w0 w0 w0 ops * lsl).
Proof.
  intros Hn Ez Sz Ek Ei Hok now c.
  pose proof (submarine_init_inv _ g c0 g0 z0 Ez Sz Ek Ei) as I0.
  pose proof (diff_run_inv _ g _ ops Hn Hok _ _ _ _ I0) as I1.
  unfold c. destruct (diff_run ops (c0, g0)) as [c1 g1]. destruct I1. cbn [fst]. auto.
Qed.

(* the load follows the current sea level whenever it has just been computed *)
Definition load_follows_sea_level : Prop :=
  forall ps0 load0 wb0 sh0 al0 ss0 w0 lsl bw (g : grid R) z0 c0 g0 ops last,
    (0 < g_rows g)%nat -> node g "topographic__elevation" = Some z0 ->
    shaped (g_rows g + 2) (g_cols g) z0 -> node g "kd" = None ->
    submarine_init (mkSubParams w0 ps0 wb0 sh0 al0 ss0 load0 lsl bw) g = Ok (c0, g0) ->
    (forall op, In op (ops ++ [last]) -> diff_ok (g_rows g) (g_cols g) op) ->
    (exists v, last = SetSedimentLoad v) \/ (exists s, last = Calc s) ->
    let now := diff_tracked (mkNow ps0 load0 wb0 sh0 al0 ss0 w0) (ops ++ [last]) in
    sb_load (fst (diff_run (ops ++ [last]) (c0, g0)))
    = now_sediment_load now * (1 + now_sea_level now * lsl).

Lemma load_follows_refuted : ~ load_follows_sea_level.
Proof.
  intros H. destruct (ex_sub_init 1) as [c0 [g0 Ei]].
  assert (Sz : shaped 3 1 (full 3 1 0)) by apply shaped_full.
  assert (Hok : forall op, In op ([SetSeaLevel 1] ++ [SetSedimentLoad 5]) -> diff_ok 1 1 op)
    by (intros op [<-|[<-|[]]]; exact I).
  pose proof (H 1 1 10 0 0 0 0 1 0 (ex_sub_grid 1) (full 3 1 0) c0 g0 [SetSeaLevel 1] (SetSedimentLoad 5)
                (le_n 1) eq_refl Sz eq_refl Ei Hok (or_introl (ex_intro _ 5 eq_refl))) as E.
  destruct (land_coefficient 1 1 10 0 0 0 0 1 0 (ex_sub_grid 1) (full 3 1 0) c0 g0 _
              (le_n 1) eq_refl Sz eq_refl Ei Hok) as [_ [_ [_ L]]].
  cbv zeta in E. rewrite L in E. cbn in E. lra.
Qed.

Lemma load_after_calc ps0 load0 wb0 sh0 al0 ss0 w0 lsl bw (g : grid R) z0 c0 g0 ops shores :
  (0 < g_rows g)%nat -> node g TOPO = Some z0 -> shaped (g_rows g + 2) (g_cols g) z0 ->
  node g KD = None ->
  submarine_init (mkSubParams w0 ps0 wb0 sh0 al0 ss0 load0 lsl bw) g = Ok (c0, g0) ->
  (forall op, In op ops -> diff_ok (g_rows g) (g_cols g) op) -> length shores = g_rows g ->
  let now := diff_tracked (mkNow ps0 load0 wb0 sh0 al0 ss0 w0) ops in
  sb_load (fst (diff_run (ops ++ [Calc shores]) (c0, g0)))
  = now_sediment_load now * (1 + now_sea_level now * lsl).
Proof.
  intros Hn Ez Sz Ek Ei Hok Hsh now.
  destruct (land_coefficient ps0 load0 wb0 sh0 al0 ss0 w0 lsl bw g z0 c0 g0 (ops ++ [Calc shores])
              Hn Ez Sz Ek Ei) as [_ [_ [_ L]]].
  { intros op Hop. apply in_app_or in Hop. destruct Hop as [|[<-|[]]]; auto. }
  rewrite L. change (level_used w0 w0 w0 (ops ++ [Calc shores]))
    with (level_used w0 w0 (now_sea_level (mkNow ps0 load0 wb0 sh0 al0 ss0 w0)) (ops ++ [Calc shores])).
  rewrite level_used_snoc_calc, diff_tracked_app. unfold now. destruct (diff_tracked _ ops). reflexivity.
Qed.

(** ** example: the docstring of calc_diffusion_coef, shallow part *)

Definition stub_trans : Trans Q := {| nexp := fun _ => 0; nsin := fun _ => 0; ncos := fun _ => 0;
                                      nsqrt := fun x => x; npi := 0 |}%Q.
Definition ex_docstring : option (list Q) :=
  let z := [[0;0;0;0]; [3;3;1;-1]; [0;0;0;0]]%Q in
  let g := @mkGrid Q 1 4 1%Q 200%Q [("topographic__elevation"%string, z)] [] [] (el_empty 1 2) in
  match submarine_init (mkSubParams 0 (8#10000) 60 15 (5#10000) (1#1000) 3 0 0)%Q g with
  | Ok (c, g) => match @calc_diffusion_coef Q _ stub_trans [500%Q] c g with
                 | Ok (_, g') => option_map (fun k => map Qred (nth 1 k [])) (node g' "kd")
                 | Err _ => None
                 end
  | Err _ => None
  end.
Lemma ex_docstring_ok : ex_docstring = Some [3750; 3750; 3750; 1000 # 3]%Q.
Proof. vm_compute. reflexivity. Qed.

Lemma ex_sub_nonvacuous :
  (0 < g_rows (ex_sub_grid 2))%nat
  /\ node (ex_sub_grid 2) "topographic__elevation" = Some (full 4 1 0)
  /\ shaped (g_rows (ex_sub_grid 2) + 2) (g_cols (ex_sub_grid 2)) (full 4 1 0)
  /\ node (ex_sub_grid 2) "kd" = None
  /\ exists c0 g0, submarine_init (mkSubParams 0 1 10 0 0 0 1 1 0) (ex_sub_grid 2) = Ok (c0, g0).
Proof.
  split; [cbn; lia|]. split; [reflexivity|]. split; [apply (shaped_full 4 1)|].
  split; [reflexivity|]. apply ex_sub_init.
Qed.

(* a step on a flat dry profile: the shore is the last column *)
Definition ex_step_grid : grid R :=
  mkGrid 1 3 1 10 [("topographic__elevation"%string, full 3 3 0); ("kd"%string, full 3 3 0);
                   ("sediment_deposit__thickness"%string, full 3 3 0)]
    [("sea_level__elevation"%string, 0)] [] (el_empty 1 1).
Lemma ex_step_nonvacuous :
  (2 <= g_cols ex_step_grid)%nat
  /\ node ex_step_grid "topographic__elevation" = Some (full 3 3 0)
  /\ node ex_step_grid "kd" = Some (full 3 3 0)
  /\ node ex_step_grid "sediment_deposit__thickness" = Some (full 3 3 0)
  /\ gval ex_step_grid "sea_level__elevation" = Some 0
  /\ forall interp1d i, (i < 1)%nat ->
       find_shoreline interp1d (x_of_column ex_step_grid) (nth (i + 1) (full 3 3 0) []) 0 = Ok (nth i [20] 0).
Proof.
  repeat (split; [first [reflexivity|cbn; lia]|]).
  intros interp1d i Hi. assert (i = 0)%nat by lia. subst i.
  unfold find_shoreline, find_shoreline_index. cbn [plus full nth repeat where_below].
  numR. replace (Rltb 0 0) with false by (symmetry; apply Rltb_false; lra). cbn [length Nat.eqb].
  unfold x_of_column. cbn [g_cols ex_step_grid seq map]. unfold lastn. cbn [length nth minus].
  unfold nofnat, nofZ. cbn [g_dx]. numR. rewrite Q2R_inject. f_equal.
Qed.

Definition ex_sub_step : option (list Q * list Q * Q) :=
  let z := [[0;0;0;0]; [3;1;-1;-3]; [0;0;0;0]]%Q in
  let g := @mkGrid Q 1 4 1%Q 10%Q [("topographic__elevation"%string, z)] [] [] (el_empty 1 2) in
  match submarine_init (mkSubParams 0 (1#10) 60 15 (5#10000) (1#1000) 3 0 0)%Q g with
  | Ok (c, g) =>
      match @submarine_step Q _ stub_trans (fun _ _ => Ok (fun u => 15 - u)%Q)
              (fun dt _ z => fmap (fun v => nadd v dt) z) 2%Q c g with
      | Ok (c', g') => match node g' "topographic__elevation", node g' "sediment_deposit__thickness" with
                       | Some z', Some d' => Some (map Qred (nth 1 z' []), map Qred (nth 1 d' []), sb_time c')
                       | _, _ => None
                       end
      | Err _ => None
      end
  | Err _ => None
  end.
Lemma ex_sub_step_ok : ex_sub_step = Some ([2; 1; -1; -3], [2; 2; 2; 2], 2)%Q.
Proof. vm_compute. reflexivity. Qed.

Lemma boundary_rows ps0 load0 wb0 sh0 al0 ss0 w0 lsl bw (g : grid R) z0 c0 g0 ops shores :
  (0 < g_rows g)%nat -> node g TOPO = Some z0 -> shaped (g_rows g + 2) (g_cols g) z0 ->
  node g KD = None ->
  submarine_init (mkSubParams w0 ps0 wb0 sh0 al0 ss0 load0 lsl bw) g = Ok (c0, g0) ->
  (forall op, In op ops -> diff_ok (g_rows g) (g_cols g) op) -> length shores = g_rows g ->
  exists kd, node (snd (diff_run (ops ++ [Calc shores]) (c0, g0))) KD = Some kd
    /\ (forall j, (j < g_cols g)%nat -> at2 0 kd 0 j = at2 0 kd 1 j)
    /\ (forall j, (j < g_cols g)%nat -> at2 0 kd (g_rows g + 1) j = 0).
Proof.
  intros Hn Ez Sz Ek Ei Hok Hsh.
  destruct (diff_history ps0 load0 wb0 sh0 al0 ss0 w0 lsl bw g z0 c0 g0 ops shores
              Hn Ez Sz Ek Ei Hok Hsh) as [kd [E [_ [_ H]]]].
  exists kd. split; [exact E|exact H].
Qed.
