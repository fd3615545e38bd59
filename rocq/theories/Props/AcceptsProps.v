(** C118: which sections of a configuration make a process, and which
    configurations make a model.  [refused], [handed], [unmade] and [made_from]
    are in Spec/Accepts.v. *)
From Coq Require Import String List ZArith QArith Reals.
From Verif.Base Require Import Num Py Arr.
From Verif.Model Require Import Layers Grid Csv Fluvial SequenceModel Setattr Processes Whole.
From Verif.Spec Require Import Column Parameters Configured Session Defaults Accepts.
From Verif.Proofs Require Import WholeEx AcceptsP AcceptsEx.
Import ListNotations.
Local Open Scope string_scope.
Local Open Scope list_scope.
Local Open Scope R_scope.

(** A class makes no process only if it refuses its section, and the exception is
    one of the reasons.  Missing: sections with the kind of an interpolation, or
    with what landlab's LinearDiffuser takes ([plain]). *)
Theorem C118_class_partial {X} {tr : Trans R} (E : externals R X) c (s : section (pvalue R)) (g : grid R) e :
  whole_grid g -> node g "topographic__elevation" <> None -> node g "sediment_deposit__thickness" <> None ->
  gval g "sea_level__elevation" <> None -> (0 < g_rows g)%nat -> 0 < g_dx g -> plain c s ->
  construct (ex_interp1d E) c s g = Err e -> refused E c s g e.
Proof. exact (class_accepts E c s g e). Qed.
Print Assumptions C118_class_partial.
(** And if it refuses its section, it makes none. *)
Theorem C118_refuses {X} {tr : Trans R} (E : externals R X) c (s : section (pvalue R)) (g : grid R) e :
  whole_grid g -> node g "topographic__elevation" <> None -> node g "sediment_deposit__thickness" <> None ->
  gval g "sea_level__elevation" <> None -> (0 < g_rows g)%nat -> 0 < g_dx g ->
  refused E c s g e -> exists e', construct (ex_interp1d E) c s g = Err e'.
Proof. exact (class_refuses E c s g e). Qed.
Print Assumptions C118_refuses.
Example C118_class_nonvacuous {tr : Trans R} : exists g : grid R,
  (whole_grid g /\ node g "topographic__elevation" <> None /\ node g "sediment_deposit__thickness" <> None
   /\ gval g "sea_level__elevation" <> None /\ (0 < g_rows g)%nat /\ 0 < g_dx g)
  /\ refused (ex_ext ex_level) SinusoidalSeaLevel [("amplitud", Number 3)] g TypeError
  /\ refused (ex_ext ex_level) Fluvial [("wave_base", Table [] [])] g TypeError
  /\ refused (ex_ext ex_level) SubsidenceTimeSeries [] g TypeError
  /\ refused (ex_ext ex_level) SubsidenceTimeSeries [("filepath", Number 3)] g FileError
  /\ refused (ex_ext ex_level) SubsidenceTimeSeries [("filepath", Table [0; 1] [5; 5])] g ValueError
  /\ refused (ex_ext ex_level) SubmarineDiffuser [("plain_slope", Number 0)] g ZeroDivisionError
  /\ refused (ex_ext ex_level) SedimentFlexure [("sand_density", Number (-1))] g ValueError
  /\ refused (ex_ext ex_level) SedimentFlexure [("isostasytime", Number (-1))] g ValueError
  /\ refused (ex_ext ex_level) ShorelineFinder [("alpha", Number 0)] g ZeroDivisionError
  /\ forall e, ~ refused (ex_ext ex_level) Fluvial [("sand_frac", Number 2)] g e.
Proof. exact ex_refused. Qed.

(** The section that a process is handed is determined by the configuration. *)
Theorem C118_handed ctx names n : (exists s, handed ctx names n s)
  /\ forall s s', handed ctx names n s -> handed ctx names n s' -> forall k, dget String.eqb s k = dget String.eqb s' k.
Proof. exact (handed_exists ctx names n). Qed.
Print Assumptions C118_handed.

(** If there is no model, it is because of one of the processes: its name is not
    known, or its class refuses what it is handed.  Missing: as above. *)
Theorem C118_fails_partial {X} {tr : Trans R} (E : externals R X) : well_behaved E -> forall params text names ctx c g0 e,
  load_grid params (Some (read_bathymetry text)) = Ok g0 -> (2 <= g_cols g0)%nat -> (0 < g_rows g0)%nat -> 0 < g_dx g0 ->
  (forall n cls, In n (names ++ ["fluvial"; "shoreline"]) -> class_at n (section_of ctx n) = Some cls -> plain cls (section_of ctx n)) ->
  load_model E params (read_bathymetry text) names ctx c = Err e ->
  exists n h, In n (names ++ ["fluvial"; "shoreline"]) /\ made_from g0 h /\ unmade E ctx names n h e.
Proof. exact (load_fails E). Qed.
Print Assumptions C118_fails_partial.

(** If there is a model, every name is known and no class refuses what it is
    handed. *)
Theorem C118_makes {X} {tr : Trans R} (E : externals R X) : well_behaved E -> forall params text names ctx c g0 r,
  load_grid params (Some (read_bathymetry text)) = Ok g0 -> (2 <= g_cols g0)%nat -> (0 < g_rows g0)%nat -> 0 < g_dx g0 ->
  load_model E params (read_bathymetry text) names ctx c = Ok r ->
  forall n, In n (names ++ ["fluvial"; "shoreline"]) -> is_known n /\ exists h, made_from g0 h
    /\ forall c s e, class_at n s = Some c -> handed ctx names n s -> ~ refused E c s h e.
Proof. exact (load_makes E). Qed.
Print Assumptions C118_makes.

(** So a parameter that the class does not have, such as one that is misspelled,
    is never ignored. *)
Theorem C118_typo {X} {tr : Trans R} (E : externals R X) : well_behaved E -> forall params text names ctx c g0 n cls k v,
  load_grid params (Some (read_bathymetry text)) = Ok g0 -> (2 <= g_cols g0)%nat -> (0 < g_rows g0)%nat -> 0 < g_dx g0 ->
  In n (names ++ ["fluvial"; "shoreline"]) -> class_at n (section_of ctx n) = Some cls -> dget String.eqb (section_of ctx n) k = Some v -> ~ takes cls k ->
  exists e, load_model E params (read_bathymetry text) names ctx c = Err e.
Proof. exact (load_typo E). Qed.
Print Assumptions C118_typo.
(* a model, and the same with a name, a parameter and a file that do not fit *)
Example C118_nonvacuous {tr : Trans R} : well_behaved (ex_ext (@ex_level R _)) /\ exists g : grid R,
  load_grid ex_grid4 (Some (read_bathymetry ex_flat)) = Ok g /\ (2 <= g_cols g)%nat /\ (0 < g_rows g)%nat /\ 0 < g_dx g
  /\ (exists r, load_model (ex_ext ex_level) ex_grid4 (read_bathymetry ex_flat) [] [] (clock_init 0 (Some 10) 1) = Ok r)
  /\ (exists e, load_model (ex_ext ex_level) ex_grid4 (read_bathymetry ex_flat) ["flux"] [] (clock_init 0 (Some 10) 1) = Err e)
  /\ (exists e, load_model (ex_ext ex_level) ex_grid4 (read_bathymetry ex_flat) [] [("fluvial", [("sandfrac", Number 1)])] (clock_init 0 (Some 10) 1) = Err e)
  /\ (exists e, load_model (ex_ext ex_level) ex_grid4 (read_bathymetry ex_flat) ["subsidence"] [] (clock_init 0 (Some 10) 1) = Err e).
Proof. split; [exact ext_wb|exact ex_unmade]. Qed.
