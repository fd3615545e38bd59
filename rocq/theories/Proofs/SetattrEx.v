(** Assigned parameters: counterexamples and concrete cases. *)
From Coq Require Import String List ZArith QArith Reals Lra.
From Verif.Base Require Import Num Py Arr.
From Verif.Model Require Import Layers Grid Interp Shoreline SeaLevel Subsidence Flexure Submarine Fluvial Setattr.
From Verif.Spec Require Import Setting.
From Verif.Proofs Require Import SequenceModelEx SetattrP.
Import ListNotations.
Local Open Scope R_scope.

(* a sea of level 0 *)
Definition ex_sea : grid R := put_gval (ex_coast (A:=R)) "sea_level__elevation" 0.

Lemma sine_step i1 df fl gr wl am ph me st li dt :
  exists g, process_run i1 df fl gr [dt] (PSinusoid (sinusoidal_init wl am ph me st li), ex_sea) = Ok g
    /\ gval g "sea_level__elevation" = Some (sinusoid wl am ph me li (st + dt)).
Proof.
  eexists. split; [reflexivity|]. reflexivity.
Qed.

Lemma sine_quarter wl am ph me li t k :
  2 * PI * (t - ph) / wl = k -> wl <> 0 ->
  sinusoid wl am ph me li t = (sin k + 3 / 10 * sin (2 * k)) * am + me + li * t.
Proof.
  intros E Hw. unfold sinusoid. transR. numR. pose proof PI_RGT_0 as P.
  replace ((t - ph) / (wl / (Q2R 2 * PI))) with k
    by (rewrite <- E; unfold Q2R; cbn; field; repeat split; lra).
  replace (Q2R 2 * (t - ph) / (wl / (Q2R 2 * PI))) with (2 * k)
    by (rewrite <- E; unfold Q2R; cbn; field; repeat split; lra).
  replace (Q2R (3 # 10)) with (3 / 10) by (unfold Q2R; cbn; lra). reflexivity.
Qed.

(* the level after a quarter of a period, by the value of one parameter *)
Lemma sine_values :
  sinusoid 1 1 0 0 0 (0 + 1 / 4) = 1 /\ sinusoid (1 / 2) 1 0 0 0 (0 + 1 / 4) = 0 /\ sinusoid 1 2 0 0 0 (0 + 1 / 4) = 2
  /\ sinusoid 1 1 (1 / 4) 0 0 (0 + 1 / 4) = 0 /\ sinusoid 1 1 0 1 0 (0 + 1 / 4) = 2
  /\ sinusoid 1 1 0 0 0 (1 / 4 + 1 / 4) = 0 /\ sinusoid 1 1 0 0 4 (0 + 1 / 4) = 2.
Proof.
  assert (S2 : sin (2 * PI) = 0) by exact sin_2PI. assert (S1 := sin_PI). assert (Sh := sin_PI2).
  repeat split.
  - rewrite (sine_quarter _ _ _ _ _ _ (PI / 2)) by lra. replace (2 * (PI / 2)) with PI by lra. rewrite Sh, S1. lra.
  - rewrite (sine_quarter _ _ _ _ _ _ PI) by lra. rewrite S1, S2. lra.
  - rewrite (sine_quarter _ _ _ _ _ _ (PI / 2)) by lra. replace (2 * (PI / 2)) with PI by lra. rewrite Sh, S1. lra.
  - rewrite (sine_quarter _ _ _ _ _ _ 0) by lra. rewrite Rmult_0_r, sin_0. lra.
  - rewrite (sine_quarter _ _ _ _ _ _ (PI / 2)) by lra. replace (2 * (PI / 2)) with PI by lra. rewrite Sh, S1. lra.
  - rewrite (sine_quarter _ _ _ _ _ _ PI) by lra. rewrite S1, S2. lra.
  - rewrite (sine_quarter _ _ _ _ _ _ (PI / 2)) by lra. replace (2 * (PI / 2)) with PI by lra. rewrite Sh, S1. lra.
Qed.

Lemma sine_ignored i1 df fl gr n : In n (parameters SinusoidalSeaLevel) ->
  exists v o g o' g', construct i1 SinusoidalSeaLevel [] ex_sea = Ok (o, g)
    /\ construct i1 SinusoidalSeaLevel (dset String.eqb [] n (Number v)) ex_sea = Ok (o', g')
    /\ set_attribute n (Number v) (o, g) = Ok (o, g)
    /\ ~ behave_alike i1 df fl gr (o, g) (o', g').
Proof.
  destruct sine_values as [V0 [V1 [V2 [V3 [V4 [V5 V6]]]]]].
  assert (D : forall wl am ph me st li, sinusoid wl am ph me li (st + 1 / 4) <> 1 ->
     ~ behave_alike i1 df fl gr (PSinusoid (sinusoidal_init 1 1 0 0 0 0), ex_sea)
         (PSinusoid (sinusoidal_init wl am ph me st li), ex_sea)).
  { intros wl am ph me st li Hne B. specialize (B [1 / 4]).
    destruct (sine_step i1 df fl gr 1 1 0 0 0 0 (1 / 4)) as [a [Ea Ga]].
    destruct (sine_step i1 df fl gr wl am ph me st li (1 / 4)) as [b [Eb Gb]].
    assert (a = b) by congruence. subst b. apply Hne. rewrite V0 in Ga. congruence. }
  assert (One : nlit 1%Q = 1) by exact n1_R. assert (Zero : nlit 0%Q = 0) by exact n0_R.
  intros I. cbn [parameters] in I.
  assert (Base : construct i1 SinusoidalSeaLevel [] ex_sea = Ok (PSinusoid (sinusoidal_init 1 1 0 0 0 0), ex_sea)).
  { cbn [construct forallb negb kwd dget bind]. rewrite n1_R, n0_R. reflexivity. }
  repeat (destruct I as [<-|I]); try contradiction.
  - exists (1 / 2), (PSinusoid (sinusoidal_init 1 1 0 0 0 0)), ex_sea, (PSinusoid (sinusoidal_init (1 / 2) 1 0 0 0 0)), ex_sea.
    split; [exact Base|]. split; [cbn; rewrite ?n1_R, ?n0_R; reflexivity|]. split; [reflexivity|]. apply D. rewrite V1. lra.
  - exists 2, (PSinusoid (sinusoidal_init 1 1 0 0 0 0)), ex_sea, (PSinusoid (sinusoidal_init 1 2 0 0 0 0)), ex_sea.
    split; [exact Base|]. split; [cbn; rewrite ?n1_R, ?n0_R; reflexivity|]. split; [reflexivity|]. apply D. rewrite V2. lra.
  - exists (1 / 4), (PSinusoid (sinusoidal_init 1 1 0 0 0 0)), ex_sea, (PSinusoid (sinusoidal_init 1 1 (1 / 4) 0 0 0)), ex_sea.
    split; [exact Base|]. split; [cbn; rewrite ?n1_R, ?n0_R; reflexivity|]. split; [reflexivity|]. apply D. rewrite V3. lra.
  - exists 1, (PSinusoid (sinusoidal_init 1 1 0 0 0 0)), ex_sea, (PSinusoid (sinusoidal_init 1 1 0 1 0 0)), ex_sea.
    split; [exact Base|]. split; [cbn; rewrite ?n1_R, ?n0_R; reflexivity|]. split; [reflexivity|]. apply D. rewrite V4. lra.
  - exists (1 / 4), (PSinusoid (sinusoidal_init 1 1 0 0 0 0)), ex_sea, (PSinusoid (sinusoidal_init 1 1 0 0 (1 / 4) 0)), ex_sea.
    split; [exact Base|]. split; [cbn; rewrite ?n1_R, ?n0_R; reflexivity|]. split; [reflexivity|]. apply D. rewrite V5. lra.
  - exists 4, (PSinusoid (sinusoidal_init 1 1 0 0 0 0)), ex_sea, (PSinusoid (sinusoidal_init 1 1 0 0 0 4)), ex_sea.
    split; [exact Base|]. split; [cbn; rewrite ?n1_R, ?n0_R; reflexivity|]. split; [reflexivity|]. apply D. rewrite V6. lra.
Qed.

Lemma alpha_fixed {A} {num : Num A} {tr : Trans A} i1 p (g g1 : grid A) o v :
  construct i1 ShorelineFinder p g = Ok (o, g1) -> set_attribute "alpha" v (o, g1) = Err AttributeError.
Proof.
  intros E. assert (C := construct_class _ _ _ _ _ _ E). destruct o; try discriminate C. reflexivity.
Qed.

(* the middle of a history: a Fluvial whose wave base is changed twice *)
Definition ex_history : list (event R) :=
  [Assign "wave_base" (Number 30); Assign "plain_slope" (Number (1 / 100)); Assign "wave_base" (Number 20)].
Lemma ex_later i1 df fl gr :
  assigns fluvial_names ex_history /\
  exists o0 g0 o g1 o' g1',
    construct i1 Fluvial [("wave_base"%string, Number 60)] (ex_coast (A:=R)) = Ok (o0, g0)
    /\ foldM (happen i1 df fl gr) ex_history (o0, g0) = Ok (o, g1)
    /\ construct i1 Fluvial (assigned [("wave_base"%string, Number 60)] ex_history) g1 = Ok (o', g1')
    /\ assigned [("wave_base"%string, Number 60)] ex_history = [("wave_base"%string, Number 20); ("plain_slope"%string, Number (1 / 100))].
Proof.
  split.
  - intros n v [E|[E|[E|[]]]]; injection E as <- <-; cbn; auto 10.
  - do 6 eexists. repeat split; cbn; reflexivity.
Qed.

(* a sea level table that is replaced after a step *)
Definition ex_tables_level : option (list Q) :=
  let g := put_gval (ex_coast (A:=Q)) "sea_level__elevation" 0%Q in
  match sea_level_step 1%Q (mkSeaLevel (sea_level_interpolator [0; 10]%Q [0; 10]%Q) 0%Q) g with
  | (c, g1, None) =>
      match sea_level_step 1%Q (sea_level_set_file [0; 10]%Q [5; 5]%Q c) g1 with
      | (c2, g2, None) => match gval g1 "sea_level__elevation", gval g2 "sea_level__elevation" with
                          | Some a, Some b => Some [Qred a; Qred b; Qred (slc_time c2)] | _, _ => None end
      | _ => None
      end
  | _ => None
  end.
Lemma ex_tables_level_ok : ex_tables_level = Some [1; 5; 2]%Q.
Proof. vm_compute. reflexivity. Qed.

Lemma ex_settable i1 :
  exists o g1 o' g1', construct i1 SubmarineDiffuser [] (ex_coast (A:=R)) = Ok (o, g1)
    /\ construct i1 SubmarineDiffuser (dset String.eqb [] "wave_base"%string (Number 30)) (ex_coast (A:=R)) = Ok (o', g1')
    /\ o <> o'.
Proof.
  do 4 eexists. cbn [construct forallb existsb parameters fst negb String.eqb Ascii.eqb Bool.eqb orb andb dset kwd dget bind].
  unfold submarine_init. cbn [p_plain_slope].
  assert (Z : neqb (Num:=Num_R) (nlit (8 # 10000)) n0 = false).
  { rewrite n0_R. numR. apply Num.Reqb_false. unfold Q2R. cbn. lra. }
  rewrite Z. cbn [bind]. split; [reflexivity|]. split; [reflexivity|].
  intros E. assert (W := f_equal (fun o => match o with PSubmarine c => sb_wave_base c | _ => 0 end) E).
  cbn [sb_wave_base p_wave_base] in W. numR. unfold Q2R in W. cbn in W. lra.
Qed.

Lemma statement_refuted : ~ (forall interp1d diffuse flexure gravity cls p (g : grid R) name v o g1 o' g1',
  In name (parameters cls) ->
  construct interp1d cls p g = Ok (o, g1) -> construct interp1d cls (dset String.eqb p name v) g = Ok (o', g1') ->
  exists o2 g2, set_attribute name v (o, g1) = Ok (o2, g2)
    /\ behave_alike interp1d diffuse flexure gravity (o2, g2) (o', g1')).
Proof.
  intros S. set (i1 := (fun _ _ => Err ValueError) : list R -> list R -> result (R -> R)).
  destruct (sine_ignored i1 (fun _ _ z => z) (fun _ z => z) (fun _ => 0) "mean"%string) as [v [o [g [o' [g' [C [C' [Se N]]]]]]]].
  { cbn. auto 10. }
  assert (I : In "mean"%string (parameters SinusoidalSeaLevel)) by (cbn; auto 10).
  destruct (S i1 (fun _ _ z => z) (fun _ z => z) (fun _ => 0) _ _ _ "mean"%string _ _ _ _ _ I C C') as [o2 [g2 [Se2 B]]].
  apply N. rewrite Se in Se2. injection Se2 as <- <-. exact B.
Qed.
Lemma ignored_later {A} {num : Num A} {tr : Trans A} interp1d diffuse flexure gravity cls p (g g1 : grid A) o h :
  construct interp1d cls p g = Ok (o, g1) -> assigns (ignored cls) h ->
  foldM (happen interp1d diffuse flexure gravity) h (o, g1)
  = foldM (happen interp1d diffuse flexure gravity) (filter (fun e => match e with Step _ => true | Assign _ _ => false end) h) (o, g1).
Proof.
  intros C As. apply (ignored_history interp1d diffuse flexure gravity cls h o g1 (construct_class _ _ _ _ _ _ C) As).
Qed.
