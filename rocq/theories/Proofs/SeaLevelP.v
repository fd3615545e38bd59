From Coq Require Import String List ZArith QArith Reals Lra Lia.
From Verif.Base Require Import Num Py Arr.
From Verif.Model Require Import Layers Grid Interp SeaLevel Clients.
From Verif.Spec Require Import Profile History.
From Verif.Proofs Require Import GridP InterpP SubsidenceP.
Import ListNotations.
Local Open Scope R_scope.

Definition SL : string := "sea_level__elevation".
Definition DSL : string := "sea_level__increment_of_elevation".

Theorem sea_level_step_spec dt (c : sea_level_comp R) (g : grid R) old :
  gval g SL = Some old ->
  let '(c', g', e) := sea_level_step dt c g in
  slc_time c' = slc_time c + dt
  /\ (forall t, slc_curve c' t = slc_curve c t)
  /\ at_node g' = at_node g /\ at_row g' = at_row g /\ layers g' = layers g
  /\ match e with
     | None => exists new, slc_curve c (slc_time c + dt) = Ok new
                /\ gval g' SL = Some new /\ gval g' DSL = Some (new - old)
     | Some e => slc_curve c (slc_time c + dt) = Err e /\ g' = g
     end.
Proof.
  intros Hold. unfold sea_level_step. unfold SL in Hold. rewrite Hold. numR. cbn [slc_curve slc_time].
  destruct (slc_curve c (slc_time c + dt)) as [new|e] eqn:E; cbn [slc_time slc_curve].
  - repeat split. exists new. split; [reflexivity|].
    unfold SL, DSL. rewrite !gval_put_gval. cbn. split; reflexivity.
  - repeat split.
Qed.

Theorem sl_run_telescopes ops : forall c g old,
  gval g SL = Some old ->
  let '(c', g', incs) := sl_run ops c g in
  gval g' SL = Some (old + rsum incs)
  /\ at_node g' = at_node g /\ at_row g' = at_row g /\ layers g' = layers g.
Proof.
  induction ops as [|op ops IH]; intros c g old Hold; cbn [sl_run].
  - cbn. rewrite Rplus_0_r. auto.
  - destruct op as [dt|t|ts ls]; cbn [sl_exec].
    + pose proof (sea_level_step_spec dt c g old Hold) as Hs.
      destruct (sea_level_step dt c g) as [[c1 g1] e].
      destruct Hs as [_ [_ [Hn [Hr [Hl He]]]]].
      destruct e as [e|].
      * destruct He as [_ ->]. specialize (IH c1 g old Hold).
        destruct (sl_run ops c1 g) as [[c2 g2] incs]. exact IH.
      * destruct He as [new [_ [H1 H2]]]. specialize (IH c1 g1 new H1).
        destruct (sl_run ops c1 g1) as [[c2 g2] incs].
        unfold DSL in H2. rewrite H2. cbn [app rsum].
        destruct IH as [I1 [I2 [I3 I4]]]. rewrite I1, I2, I3, I4.
        repeat split; try congruence. f_equal. lra.
    + specialize (IH (sea_level_set_time t c) g old Hold).
      destruct (sl_run ops (sea_level_set_time t c) g) as [[c2 g2] incs]. exact IH.
    + specialize (IH (sea_level_set_file ts ls c) g old Hold).
      destruct (sl_run ops (sea_level_set_file ts ls c) g) as [[c2 g2] incs]. exact IH.
Qed.

Lemma sea_level_step_comp dt (c : sea_level_comp R) g :
  fst (fst (sea_level_step dt c g)) = mkSeaLevel (slc_curve c) (slc_time c + dt).
Proof.
  unfold sea_level_step. destruct (gval g _); [|reflexivity]. cbn [slc_curve slc_time].
  destruct (slc_curve c _); reflexivity.
Qed.

Lemma sl_run_time ops : forall c g, slc_time (fst (fst (sl_run ops c g))) = time_after (slc_time c) ops.
Proof.
  induction ops as [|op ops IH]; intros c g; [reflexivity|]. cbn [sl_run time_after].
  pose proof (sea_level_step_comp) as Hc.
  destruct op as [dt|t|ts ls]; cbn [sl_exec].
  - specialize (Hc dt c g). destruct (sea_level_step dt c g) as [[c1 g1] e]. cbn in Hc. subst c1.
    specialize (IH (mkSeaLevel (slc_curve c) (slc_time c + dt)) g1).
    destruct (sl_run ops _ g1) as [[c2 g2] incs]. exact IH.
  - specialize (IH (sea_level_set_time t c) g). destruct (sl_run ops _ g) as [[c2 g2] incs]. exact IH.
  - specialize (IH (sea_level_set_file ts ls c) g). destruct (sl_run ops _ g) as [[c2 g2] incs]. exact IH.
Qed.

Definition curve_of (curve : R -> result R) (file : option (list R * list R)) : R -> result R :=
  match file with None => curve | Some (x, y) => interp_linear x y end.

Lemma sl_run_curve ops : forall curve file t g,
  slc_curve (fst (fst (sl_run ops (mkSeaLevel (curve_of curve file) t) g)))
  = curve_of curve (last_file file ops).
Proof.
  induction ops as [|op ops IH]; intros curve file t g; [reflexivity|]. cbn [sl_run last_file].
  destruct op as [dt|t'|ts ls]; cbn [sl_exec].
  - pose proof (sea_level_step_comp dt (mkSeaLevel (curve_of curve file) t) g) as Hc.
    destruct (sea_level_step _ _ g) as [[c1 g1] e]. cbn in Hc. subst c1.
    specialize (IH curve file (t + dt) g1).
    destruct (sl_run ops _ g1) as [[c2 g2] incs]. exact IH.
  - unfold sea_level_set_time. cbn [slc_curve]. specialize (IH curve file t' g).
    destruct (sl_run ops _ g) as [[c2 g2] incs]. exact IH.
  - specialize (IH curve (Some (ts, ls)) t g).
    unfold sea_level_set_file, sea_level_interpolator. cbn [slc_time].
    change (interp_linear ts ls) with (curve_of curve (Some (ts, ls))).
    destruct (sl_run ops _ g) as [[c2 g2] incs]. exact IH.
Qed.

Theorem sl_history (curve : R -> result R) start (g : grid R) old ops dt :
  gval g SL = Some old ->
  let '(c1, g1, incs) := sl_run ops (mkSeaLevel curve start) g in
  let '(c2, g2, e) := sea_level_step dt c1 g1 in
  let t := time_after start ops + dt in
  let at_curve v := match last_file None ops with
                    | None => curve t = Ok v
                    | Some (x, y) => good_table x y -> on_curve x y t v
                    end in
  gval g1 SL = Some (old + rsum incs)
  /\ slc_time c2 = t
  /\ at_node g2 = at_node g /\ at_row g2 = at_row g /\ layers g2 = layers g
  /\ match e with
     | None => exists new, gval g2 SL = Some new /\ at_curve new
                 /\ gval g2 DSL = Some (new - (old + rsum incs))
     | Some _ => g2 = g1 /\ (forall v, match last_file None ops with
                               | None => curve t <> Ok v
                               | Some (x, y) => good_table x y -> ~ on_curve x y t v
                               end)
     end.
Proof.
  intros Hold.
  pose proof (sl_run_telescopes ops (mkSeaLevel curve start) g old Hold) as H1.
  pose proof (sl_run_time ops (mkSeaLevel curve start) g) as H2.
  pose proof (sl_run_curve ops curve None start g) as H3. cbn [curve_of] in H3.
  destruct (sl_run ops (mkSeaLevel curve start) g) as [[c1 g1] incs]. cbn [fst slc_time] in *.
  destruct H1 as [Hg [Hn [Hr Hl]]].
  pose proof (sea_level_step_spec dt c1 g1 _ Hg) as Hs.
  destruct (sea_level_step dt c1 g1) as [[c2 g2] e]. cbn zeta.
  destruct Hs as [T [_ [N [R' [L E]]]]]. rewrite H2 in *. rewrite H3 in E.
  split; [assumption|]. split; [assumption|].
  split; [congruence|]. split; [congruence|]. split; [congruence|].
  destruct e as [e|].
  - destruct E as [E1 E2]. split; [assumption|]. intros v.
    destruct (last_file None ops) as [[x y]|]; cbn [curve_of] in E1; [|congruence].
    intros Ht Hc. apply on_curve_interp in Hc; [congruence|assumption].
  - destruct E as [new [E1 [E2 E3]]]. exists new. repeat split; try assumption.
    destruct (last_file None ops) as [[x y]|]; cbn [curve_of] in E1; [|assumption].
    intros Ht. apply interp_on_curve; assumption.
Qed.

(** ** Sinusoid *)

Lemma lit2 : Q2R 2 = 2.
Proof. unfold Q2R; simpl; lra. Qed.
Lemma lit310 : Q2R (3 # 10) = 3 / 10.
Proof. unfold Q2R; simpl; lra. Qed.

Lemma sinusoid_eq L a ph m l t : L <> 0 ->
  sinusoid L a ph m l t =
  (sin (2 * PI * ((t - ph) / L)) + 3 / 10 * sin (4 * PI * ((t - ph) / L))) * a + m + l * t.
Proof.
  intros HL. unfold sinusoid. numR. transR. rewrite lit2, lit310.
  pose proof PI_RGT_0 as Hpi.
  replace ((t - ph) / (L / (2 * PI))) with (2 * PI * ((t - ph) / L)) by (field; lra).
  replace (2 * (t - ph) / (L / (2 * PI))) with (4 * PI * ((t - ph) / L)) by (field; lra).
  reflexivity.
Qed.

Theorem sinusoid_period L a ph m l t : L <> 0 ->
  sinusoid L a ph m l (t + L) = sinusoid L a ph m l t + l * L.
Proof.
  intros HL. rewrite !sinusoid_eq by assumption.
  replace (2 * PI * ((t + L - ph) / L)) with (2 * PI * ((t - ph) / L) + 2 * INR 1 * PI)
    by (simpl; field; assumption).
  replace (4 * PI * ((t + L - ph) / L)) with (4 * PI * ((t - ph) / L) + 2 * INR 2 * PI)
    by (simpl; field; assumption).
  rewrite !sin_period. lra.
Qed.

Theorem sinusoid_at_phase L a ph m l : L <> 0 -> sinusoid L a ph m l ph = m + l * ph.
Proof.
  intros HL. rewrite sinusoid_eq by assumption.
  replace ((ph - ph) / L) with 0 by (field; assumption).
  rewrite !Rmult_0_r, sin_0. lra.
Qed.

Theorem sinusoid_band L a ph m l t : L <> 0 ->
  Rabs (sinusoid L a ph m l t - (m + l * t)) <= 13 / 10 * Rabs a.
Proof.
  intros HL. rewrite sinusoid_eq by assumption.
  set (u := sin (2 * PI * ((t - ph) / L))). set (v := sin (4 * PI * ((t - ph) / L))).
  replace ((u + 3 / 10 * v) * a + m + l * t - (m + l * t)) with ((u + 3 / 10 * v) * a) by lra.
  rewrite Rabs_mult. apply Rmult_le_compat_r; [apply Rabs_pos|].
  pose proof (SIN_bound (2 * PI * ((t - ph) / L))) as Hu.
  pose proof (SIN_bound (4 * PI * ((t - ph) / L))) as Hv. fold u in Hu. fold v in Hv.
  apply Rabs_le. lra.
Qed.

(* a quarter wave length after the phase the curve is at mean + amplitude *)
Theorem sinusoid_quarter L a ph m l : L <> 0 ->
  sinusoid L a ph m l (ph + L / 4) = m + a + l * (ph + L / 4).
Proof.
  intros HL. rewrite sinusoid_eq by assumption.
  replace (2 * PI * ((ph + L / 4 - ph) / L)) with (PI / 2) by (field; assumption).
  replace (4 * PI * ((ph + L / 4 - ph) / L)) with PI by (field; assumption).
  rewrite sin_PI2, sin_PI. lra.
Qed.
