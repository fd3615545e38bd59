(** Refutations and example states for fluvial deposition. *)
From Coq Require Import String List ZArith QArith Reals Lra Lia Arith Bool Floats.SpecFloat FunctionalExtensionality.
From Verif.Base Require Import Num Py Arr.
From Verif.Model Require Import Layers Grid Shoreline Flexure Submarine Fluvial.
From Verif.Spec Require Import Profile Deposition.
From Verif.Proofs Require Import GridP ShorelineP SubmarineP FluvialP FluvialR.
Import ListNotations.
Local Open Scope R_scope.

(* one profile row, two columns, all of it at elevation z *)
Definition ex_delta {A} `{Num A} (m : nat) (z dep dx : A) : grid A :=
  mkGrid 1 m n1 dx
    [(TOPO, full 3 m z); (DEPOSIT, full 3 m dep); (SAND, full 3 m n0); (BEDROCK_INC, full 3 m n0)]
    [(SEALEVEL, n0)] [] (el_empty 1 (m - 2)).

Lemma ex_delta_grid {A} `{Num A} m (z dep dx : A) : (2 <= m)%nat ->
  delta_grid (ex_delta m z dep dx) (full 3 m z) (full 3 m dep) (full 3 m n0) n0.
Proof.
  intros Hm. unfold delta_grid, ex_delta. cbn [g_rows g_cols].
  split; [lia|]. split; [exact Hm|].
  split; [split; [reflexivity|apply shaped_full]|]. split; [split; [reflexivity|apply shaped_full]|].
  split; [split; [reflexivity|apply shaped_full]|].
  split; [exists (full 3 m n0); split; [reflexivity|apply shaped_full]|]. reflexivity.
Qed.

Definition ex_fluvial : fluvial R := mkFluvial (1 / 2) 1 2650 1 10 1.

Lemma ex_shore interp1d m z dep dx : (2 <= m)%nat -> z < 0 ->
  find_shoreline interp1d (x_of_column (ex_delta m z dep dx))
    (nth (channel_row (ex_delta m z dep dx)) (full 3 m z) []) 0 = Ok (nth 0 (x_of_column (ex_delta m z dep dx)) 0).
Proof.
  intros Hm Hz. change (nth (channel_row (ex_delta m z dep dx)) (full 3 m z) []) with (repeat z m).
  apply find_shoreline_all_below.
  - intros E. apply (f_equal (@length R)) in E. rewrite SubmarineP.x_of_column_length in E. cbn in E. lia.
  - rewrite SubmarineP.x_of_column_length, repeat_length. reflexivity.
  - intros i Hi. rewrite repeat_length in Hi. rewrite nth_repeat' by exact Hi. exact Hz.
Qed.

Lemma ex_step interp1d dt m z dep dx : (2 <= m)%nat -> z < 0 -> 0 < dx ->
  exists g', fluvial_step interp1d dt ex_fluvial (ex_delta m z dep dx) = Ok g'.
Proof.
  intros Hm Hz Hdx.
  pose proof (step_succeeds interp1d dt ex_fluvial (ex_delta m z dep dx) _ _ _ _
                (ex_delta_grid m z dep dx Hm) Hdx) as S.
  destruct (fluvial_step interp1d dt ex_fluvial (ex_delta m z dep dx)) as [g'|e]; [eauto|].
  exfalso. destruct S as [[_ S]|S].
  - cbn in S. lra.
  - rewrite n0_R in S. rewrite ex_shore in S by assumption. discriminate.
Qed.

(** ** C26 *)
Definition water_sand_formula : Prop :=
  forall interp1d dt (c : fluvial R) (g : grid R) z deposit sand sl g' shore sand' deposit' j,
    delta_grid g z deposit sand sl -> 0 < g_dx g -> 0 < fl_wave_base c -> 0 <= fl_hemi c -> 0 <= dt ->
    fluvial_step interp1d dt c g = Ok g' ->
    find_shoreline interp1d (x_of_column g) (nth (channel_row g) z []) sl = Ok shore ->
    node g' "delta_sediment_sand__volume_fraction" = Some sand' ->
    node g' "sediment_deposit__thickness" = Some deposit' ->
    (j < g_cols g)%nat -> shore <= INR j * g_dx g ->
    let new := at2 0 deposit' (channel_row g) j in
    let mud := new - at2 0 deposit (channel_row g) j in
    0 < new -> at2 0 sand' (channel_row g) j = Rmin 1 (Rmax 0 ((new - mud) / new)).

Lemma water_sand_formula_refuted : ~ water_sand_formula.
Proof.
  intros H. pose (interp1d := fun (_ _ : list R) => @Err (R -> R) ValueError).
  pose (g := ex_delta 2 (-1) 1 1 : grid R).
  destruct (ex_step interp1d 1 2 (-1) 1 1) as [g' E]; [lia|lra|lra|].
  pose proof (ex_delta_grid 2 (-1) 1 1 (le_n 2)) as D.
  destruct (mud_exact interp1d 1 ex_fluvial g _ _ _ _ g' D E)
    as [shore [sand' [dep' [Hsh [Es [_ [Ed [_ [_ [_ [_ [_ [_ F]]]]]]]]]]]]].
  assert (Hs : shore <= INR 1 * g_dx g).
  { unfold g in Hsh. rewrite n0_R, ex_shore in Hsh by (try lia; lra). 
    assert (Es0 : shore = nth 0 (x_of_column g) 0) by (unfold g; congruence).
    rewrite Es0, nth_x_of_column by (cbn; lia). unfold g, ex_delta. cbn [g_dx]. simpl INR. lra. }
  destruct (F 1%nat (le_n 2)) as [_ [F1 [F2 _]]]. rewrite n0_R in *.
  change (at2 0 (full 3 2 (-1)) (channel_row g) 1) with (-1) in *.
  change (at2 0 (full 3 2 1) (channel_row g) 1) with 1 in *.
  change (fl_wave_base ex_fluvial) with 10 in *.
  specialize (F1 Hs). specialize (F2 Hs ltac:(lra) ltac:(lra)).
  specialize (H interp1d 1 ex_fluvial g _ _ _ _ g' shore sand' dep' 1%nat D).
  cbv zeta in H. rewrite ?n0_R in H.
  change (at2 0 (full 3 2 1) (channel_row g) 1) with 1 in H. rewrite F1, F2 in H.
  change (g_dx g) with 1 in *. change (fl_wave_base ex_fluvial) with 10 in *. change (fl_hemi ex_fluvial) with 1 in *.
  specialize (H ltac:(lra) ltac:(lra) ltac:(lra) ltac:(lra) E Hsh Es Ed (le_n 2) Hs ltac:(lra)).
  replace ((1 - (1 - 1)) / 1) with 1 in H by field. rewrite Rmax_right, Rmin_left in H by lra. lra.
Qed.

Lemma water_sand_zero interp1d dt (c : fluvial R) (g : grid R) z deposit sand sl g' :
  delta_grid g z deposit sand sl -> fluvial_step interp1d dt c g = Ok g' ->
  exists shore sand' deposit',
    find_shoreline interp1d (x_of_column g) (nth (channel_row g) z []) sl = Ok shore
    /\ node g' "delta_sediment_sand__volume_fraction" = Some sand'
    /\ node g' "sediment_deposit__thickness" = Some deposit'
    /\ forall j, (j < g_cols g)%nat -> shore <= INR j * g_dx g ->
       let new := at2 0 deposit' (channel_row g) j in
       let mud := new - at2 0 deposit (channel_row g) j in
       at2 0 sand' (channel_row g) j = 0
       /\ (0 < new -> at2 0 deposit (channel_row g) j <= 0 ->
           at2 0 sand' (channel_row g) j = Rmin 1 (Rmax 0 ((new - mud) / new))).
Proof.
  intros D E. destruct (mud_exact interp1d dt c g z deposit sand sl g' D E)
    as [shore [sand' [dep' [Hsh [Es [_ [Ed [_ [_ [_ [_ [_ [_ F]]]]]]]]]]]]].
  exists shore, sand', dep'. split; [exact Hsh|]. split; [exact Es|]. split; [exact Ed|].
  intros j Hj Hs new mud. destruct (F j Hj) as [_ [F1 _]]. split; [apply F1; exact Hs|].
  intros Hp Hd. rewrite F1 by exact Hs. replace (new - mud) with (at2 0 deposit (channel_row g) j) by (unfold mud; ring).
  rewrite Rmax_left, Rmin_right; [reflexivity|lra|].
  apply (Rmult_le_reg_r new); [exact Hp|]. unfold Rdiv. rewrite Rmult_assoc, Rinv_l by lra. lra.
Qed.

(** ** C27 *)
Definition mud_within_rate : Prop :=
  forall interp1d dt (c : fluvial R) (g : grid R) z deposit sand sl g' deposit' j,
    delta_grid g z deposit sand sl -> 0 < g_dx g -> 0 < fl_wave_base c -> 0 <= fl_hemi c -> 0 <= dt ->
    fluvial_step interp1d dt c g = Ok g' ->
    node g' "sediment_deposit__thickness" = Some deposit' ->
    (j < g_cols g)%nat -> 2 * fl_wave_base c <= sl - at2 0 z (channel_row g) j ->
    at2 0 deposit' (channel_row g) j - at2 0 deposit (channel_row g) j <= fl_hemi c * dt.

Lemma mud_within_rate_refuted : ~ mud_within_rate.
Proof.
  intros H. pose (interp1d := fun (_ _ : list R) => @Err (R -> R) ValueError).
  pose (g := ex_delta 2 (-100) 1 1 : grid R).
  destruct (ex_step interp1d 1 2 (-100) 1 1) as [g' E]; [lia|lra|lra|].
  pose proof (ex_delta_grid 2 (-100) 1 1 (le_n 2)) as D.
  destruct (mud_exact interp1d 1 ex_fluvial g _ _ _ _ g' D E)
    as [shore [sand' [dep' [Hsh [Es [_ [Ed [_ [_ [_ [_ [_ [_ F]]]]]]]]]]]]].
  assert (Hs : shore <= INR 0 * g_dx g).
  { unfold g in Hsh. rewrite n0_R, ex_shore in Hsh by (try lia; lra). 
    assert (Es0 : shore = nth 0 (x_of_column g) 0) by (unfold g; congruence).
    rewrite Es0, nth_x_of_column by (cbn; lia). unfold g, ex_delta. cbn [g_dx]. simpl INR. lra. }
  destruct (F 0%nat (le_S _ _ (le_n 1))) as [_ [_ [_ [_ F4]]]]. rewrite n0_R in *.
  change (at2 0 (full 3 2 (-100)) (channel_row g) 0) with (-100) in *.
  change (at2 0 (full 3 2 1) (channel_row g) 0) with 1 in *.
  specialize (H interp1d 1 ex_fluvial g _ _ _ _ g' dep' 0%nat D).
  rewrite ?n0_R in H. change (at2 0 (full 3 2 (-100)) (channel_row g) 0) with (-100) in *.
  change (at2 0 (full 3 2 1) (channel_row g) 0) with 1 in *.
  change (g_dx g) with 1 in *. change (fl_wave_base ex_fluvial) with 10 in *. change (fl_hemi ex_fluvial) with 1 in *.
  specialize (F4 Hs ltac:(lra)). destruct F4 as [t [Ht Et]].
  specialize (H ltac:(lra) ltac:(lra) ltac:(lra) ltac:(lra) E Ed (le_S _ _ (le_n 1)) ltac:(lra)).
  rewrite Et in H. assert (t = 1%nat) as -> by (destruct Ht as [[Ht _]|[Ht _]]; lia).
  simpl INR in H. rewrite Rmax_right in H by lra. lra.
Qed.

(** ** C25 in binary64 *)
Definition b64_fns (e : b64 -> b64) : Trans b64 :=
  {| nexp := e; nsin := fun x => x; ncos := fun x => x; nsqrt := SFsqrt prec64 emax64; npi := b64_lit 3 |}.

Definition sand_in_range (e : b64 -> b64) : Prop :=
  forall interp1d dt (c : fluvial b64) (g : grid b64) z deposit sand sl g' sand' j,
    delta_grid g z deposit sand sl ->
    @fluvial_step b64 _ (b64_fns e) interp1d dt c g = Ok g' ->
    node g' "delta_sediment_sand__volume_fraction" = Some sand' -> (j < g_cols g)%nat ->
    (n0 <=? at2 n0 sand' (channel_row g) j)%num = true /\ (at2 n0 sand' (channel_row g) j <=? n1)%num = true.

Definition b1 : b64 := b64_lit 1.
(* a flat delta plain above the sea, with a river that carries sand only *)
Definition ex_flat : grid b64 := ex_delta 3 b1 b1 b1.
Definition ex_sandy : fluvial b64 := mkFluvial b1 b1 (b64_lit 2650) b1 b1 b1.

Definition ex_sandy_sand (e : b64 -> b64) : option (list b64) :=
  match @fluvial_step b64 _ (b64_fns e) (fun _ _ => Err ValueError) b1 ex_sandy ex_flat with
  | Ok g' => match node g' SAND with Some f => Some (nth 1 f []) | None => None end
  | Err _ => None
  end.

Lemma ex_sandy_step e : e S754_nan = S754_nan ->
  ex_sandy_sand e = Some [S754_nan; S754_nan; S754_zero false].
Proof.
  intros He.
  assert (Ee : e = fun x => match x with S754_nan => S754_nan | _ => e x end).
  { apply FunctionalExtensionality.functional_extensionality. intros x. destruct x; auto. }
  rewrite Ee. generalize e. intros e0. vm_compute. reflexivity.
Qed.

Lemma sand_in_range_refuted e : e S754_nan = S754_nan -> ~ sand_in_range e.
Proof.
  intros He H. pose proof (ex_sandy_step e He) as E. unfold ex_sandy_sand in E.
  destruct (fluvial_step _ b1 ex_sandy ex_flat) as [g'|] eqn:Es; [|discriminate].
  destruct (node g' SAND) as [f|] eqn:En; [|discriminate].
  destruct (H _ b1 ex_sandy ex_flat _ _ _ _ g' f 0%nat
              (ex_delta_grid 3 b1 b1 b1 (le_S _ _ (le_n 2))) Es En) as [F _].
  { cbn. lia. }
  injection E as E. change (at2 n0 f (channel_row ex_flat) 0) with (nth 0 (nth 1 f []) n0) in F.
  rewrite E in F. discriminate.
Qed.

Lemma b64_order : (@n1 b64 _ <? n0)%num = false /\ (@n0 b64 _ <? n0)%num = false /\ (@n1 b64 _ <? n1)%num = false.
Proof. repeat split; vm_compute; reflexivity. Qed.

(** ** an executable run with land and water *)
Definition half_trans : Trans Q :=
  {| nexp := fun _ => (1 # 2)%Q; nsin := fun x => x; ncos := fun x => x; nsqrt := fun x => x; npi := 3%Q |}.
Definition ex_coast : grid Q :=
  let rows v := [v; v; v] in
  mkGrid 1 6 1%Q 1000%Q
    [(TOPO, rows [20; 10; -5; -15; -30; -30]%Q); (DEPOSIT, rows [1; 1; 1; 1; 1; 1]%Q);
     (SAND, full 3 6 0%Q); (BEDROCK_INC, full 3 6 0%Q)]
    [(SEALEVEL, 0%Q)] [] (el_empty 1 4).
(* bisection on a function that is zero at the middle of the bracket *)
Definition ex_linear (_ _ : list Q) : result (Q -> Q) :=
  Ok (fun v => if Qeq_bool v 1500 then 0%Q else if Qle_bool v 1500 then 1%Q else (-1)%Q).
Definition ex_coast_run : option (list Q * list Q) :=
  match @fluvial_step Q _ half_trans ex_linear 2%Q (mkFluvial (1 # 2) 3 2650 (1 # 1000) 10 1)%Q ex_coast with
  | Ok g' => match node g' SAND, node g' DEPOSIT with
             | Some s, Some d => Some (nth 1 s [], nth 1 d [])
             | _, _ => None end
  | Err _ => None
  end.
Lemma ex_coast_ok : ex_coast_run = Some ([1 # 2; 1 # 2; 0; 0; 0; 0]%Q, [1; 1; 1; 2; 149 # 50; 74 # 25]%Q).
Proof. vm_compute. reflexivity. Qed.
