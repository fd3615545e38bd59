(** Configurations that make a model, and some that make none. *)
From Coq Require Import String List ZArith QArith Reals Lra Lia.
From Verif.Base Require Import Num Py Arr.
From Verif.Model Require Import Layers Grid Csv Fluvial SequenceModel Setattr Processes Whole.
From Verif.Spec Require Import Column Parameters Configured Session Defaults Accepts.
From Verif.Proofs Require Import WholeP ScriptP LoadP WholeEx AcceptsP.
Import ListNotations.
Local Open Scope string_scope.
Local Open Scope list_scope.
Local Open Scope R_scope.

Section Ex.
  Context {tr : Trans R}.
  Notation ext := (ex_ext (@ex_level R _)).
  Lemma ext_wb : well_behaved ext.
  Proof. apply ex_behaved. discriminate. Qed.
  (* a grid on which processes are made, and sections that each class refuses *)
  Lemma ex_refused : exists g : grid R,
    (whole_grid g /\ node g "topographic__elevation" <> None /\ node g "sediment_deposit__thickness" <> None
     /\ gval g "sea_level__elevation" <> None /\ (0 < g_rows g)%nat /\ 0 < g_dx g)
    /\ refused ext SinusoidalSeaLevel [("amplitud", Number 3)] g TypeError
    /\ refused ext Fluvial [("wave_base", Table [] [])] g TypeError
    /\ refused ext SubsidenceTimeSeries [] g TypeError
    /\ refused ext SubsidenceTimeSeries [("filepath", Number 3)] g FileError
    /\ refused ext SubsidenceTimeSeries [("filepath", Table [0; 1] [5; 5])] g ValueError
    /\ refused ext SubmarineDiffuser [("plain_slope", Number 0)] g ZeroDivisionError
    /\ refused ext SedimentFlexure [("sand_density", Number (-1))] g ValueError
    /\ refused ext SedimentFlexure [("isostasytime", Number (-1))] g ValueError
    /\ refused ext ShorelineFinder [("alpha", Number 0)] g ZeroDivisionError
    (* and a class that takes its section *)
    /\ forall e, ~ refused ext Fluvial [("sand_frac", Number 2)] g e.
  Proof.
    destruct ex_grid4_loads as (g & El & Hr & Hc & Hd). exists g.
    destruct (loaded_whole _ _ _ El) as (W & _ & B1 & B2 & B3); [rewrite Hc; lia|].
    split. { split; [exact W|]. split; [apply has_iff, B1|]. split; [apply has_iff, B2|]. split; [apply hasv_iff, B3|]. rewrite Hr, Hd. split; [lia|lra]. }
    split. { left. split; [reflexivity|]. exists "amplitud", (Number 3). split; [reflexivity|]. rewrite takes_iff. cbn. intros [[]|H]; discriminate. }
    split. { right. left. split; [reflexivity|]. exists "wave_base", [], []. split; [reflexivity|]. cbn. tauto. }
    split. { right. right. left. split; [reflexivity|]. split; [right; reflexivity|reflexivity]. }
    split. { right. right. right. left. split; [reflexivity|]. split; [right; reflexivity|]. exists 3. reflexivity. }
    split. { right. right. right. right. split; [reflexivity|]. exists [0; 1], [5; 5], 2%nat. split; [reflexivity|]. split; [rewrite Hc; lia|]. right. rewrite Hd. cbn. lra. }
    split. { right. right. right. right. split; reflexivity. }
    split. { right. right. right. right. split; [reflexivity|]. left. exists "sand_density", (-1). split; [cbn; tauto|]. split; [reflexivity|lra]. }
    split. { right. right. right. right. split; [reflexivity|]. right. exists (-1). split; [reflexivity|lra]. }
    split. { right. right. right. right. right. split; reflexivity. }
    intros e [[_ (k & v & H1 & H2)]|[[_ (k & x & y & H1 & H2)]|[(_ & [H|H] & _)|[(_ & [H|H] & _)|[]]]]]; try discriminate H.
    - apply H2. cbn [dget] in H1. destruct (String.eqb_spec k "sand_frac") as [->|]; [right; left; cbn; tauto|discriminate].
    - cbn [dget] in H1. destruct (String.eqb k "sand_frac"); discriminate.
  Qed.
  (* a model, and the same with a name that is not known, a parameter that is not
     known, a missing file *)
  Lemma ex_unmade : exists g : grid R, load_grid ex_grid4 (Some (read_bathymetry ex_flat)) = Ok g
    /\ (2 <= g_cols g)%nat /\ (0 < g_rows g)%nat /\ 0 < g_dx g
    /\ (exists r, load_model ext ex_grid4 (read_bathymetry ex_flat) [] [] (clock_init 0 (Some 10) 1) = Ok r)
    /\ (exists e, load_model ext ex_grid4 (read_bathymetry ex_flat) ["flux"] [] (clock_init 0 (Some 10) 1) = Err e)
    /\ (exists e, load_model ext ex_grid4 (read_bathymetry ex_flat) [] [("fluvial", [("sandfrac", Number 1)])] (clock_init 0 (Some 10) 1) = Err e)
    /\ (exists e, load_model ext ex_grid4 (read_bathymetry ex_flat) ["subsidence"] [] (clock_init 0 (Some 10) 1) = Err e).
  Proof.
    destruct ex_two_load as (g & names & m & El & Hc & Hr & Hd & Em). exists g. do 4 (split; [assumption|]). split; [eexists; exact Em|].
    assert (F : forall names ctx n, In n (names ++ ["fluvial"; "shoreline"]) ->
       (is_known n -> exists c s e, class_at n s = Some c /\ handed ctx names n s /\ forall h, refused ext c s h e) ->
       exists e, load_model ext ex_grid4 (read_bathymetry ex_flat) names ctx (clock_init 0 (Some 10) 1) = Err e).
    { intros names' ctx n I H. destruct (load_model ext ex_grid4 (read_bathymetry ex_flat) names' ctx (clock_init 0 (Some 10) 1)) as [r|e] eqn:E'; [exfalso|eauto].
      destruct (load_makes ext ext_wb _ _ _ _ _ _ _ El Hc Hr Hd E' n I) as (K & h & _ & U). destruct (H K) as (c & s & e & H1 & H2 & H3). exact (U c s e H1 H2 (H3 h)). }
    split. { apply (F ["flux"] [] "flux"); [cbn; tauto|]. unfold is_known. cbn. intros K. decompose [or] K; try discriminate; contradiction. }
    split. { apply (load_typo ext ext_wb _ _ _ _ _ g "fluvial" Fluvial "sandfrac" (Number 1) El Hc Hr Hd); [cbn; tauto|reflexivity|reflexivity|]. rewrite takes_iff. cbn. intros [[]|H]; discriminate. }
    apply (F ["subsidence"] [] "subsidence"); [cbn; tauto|]. intros _. exists SubsidenceTimeSeries, [], TypeError. split; [reflexivity|].
    split.
    - intros k. split; [intros v; cbn; discriminate|]. intros _. split; [reflexivity|]. split; [|reflexivity].
      intros p keys [P|P]; cbn in P; repeat (destruct P as [P|P]; [discriminate P|]); destruct P.
    - intros h. right. right. left. split; [reflexivity|]. split; [right; reflexivity|reflexivity].
  Qed.
End Ex.
