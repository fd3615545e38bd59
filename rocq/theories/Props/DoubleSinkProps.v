(** The bedrock of a configured model in doubles (C133). *)
From Coq Require Import String List ZArith QArith Reals Floats.SpecFloat.
From Verif.Base Require Import Num Py Arr.
From Verif.Model Require Import Layers Grid Interp SeaLevel Csv SequenceModel Setattr Processes Whole.
From Verif.Spec Require Import Session Configured Doubles DoubleTables Followed DoubleSinking.
From Verif.Proofs Require Import ScriptEx WholeEx DoubleSeaEx DoubleSinkP DoubleSinkEx.
Import ListNotations.
Local Open Scope R_scope.

(** C133.  In doubles, and without flexure, the bedrock of a profile row is
    where the bathymetry put it plus what the steps sink by: for each step the
    rate of the newest table at the position of the column times the length of
    the step.  It is not exactly there, although all of these are numbers of
    moderate size: *)
Definition C133_statement : Prop := forall (tr : Trans b64) (E : externals b64 unit) params text names ctx c names' m0 m f l x y b i j z rs,
  leaves_bedrock E -> load_model E params (read_bathymetry text) names ctx c = Ok (names', m0) -> In "subsidence"%string names' -> ~ In "flexure"%string names' ->
  sinking E names' m0 (described_rate (section_of ctx "subsidence")) m f l ->
  file_table text = Ok (x, y) -> node (sm_grid m) "bedrock_surface__elevation" = Some b -> (1 <= i <= g_rows (sm_grid m))%nat -> (j < g_cols (sm_grid m))%nat ->
  interp_linear x y (nmul (nofnat j) (g_dx (sm_grid m))) = Ok z -> rates_at l (nmul (nofnat j) (g_dx (sm_grid m))) = Ok rs ->
  Forall (fun rd => a_number (fst rd) /\ a_number (snd rd)) rs -> a_number (nsub z (nlit 100)) -> Rabs (value (nsub z (nlit 100))) + travelled rs <= 2 ^ 1000 ->
  value (at2 n0 b i j) = value (nsub z (nlit 100)) + sinkage rs.
Theorem C133_refuted : ~ C133_statement.
Proof. exact exactly_refuted. Qed.
Print Assumptions C133_refuted.
(** After any steps, failed steps at the end of the clock and changes of
    parameters it is a number, and within [steps * 2^-51] of the distance
    travelled, up to a term below 2^-1000 per step; the first and the last row
    stay exactly where they were.  No infinity and no NaN comes up on the way.
    [leaves_bedrock]: the classes that are not modelled do not touch it. *)
Theorem C133_partial {X} {tr : Trans b64} (E : externals b64 X) : leaves_bedrock E ->
  forall params text names ctx c names' m0 m f l,
  load_model E params (read_bathymetry text) names ctx c = Ok (names', m0) -> In "subsidence"%string names' -> ~ In "flexure"%string names' ->
  sinking E names' m0 (described_rate (section_of ctx "subsidence")) m f l -> INR (length l) <= 2 ^ 50 ->
  exists x y b, file_table text = Ok (x, y) /\ node (sm_grid m) "bedrock_surface__elevation" = Some b
    /\ forall j, (j < g_cols (sm_grid m))%nat -> let here := nmul (nofnat j) (g_dx (sm_grid m)) in
         exists z, interp_linear x y here = Ok z /\ let start := nsub z (nlit 100) in
           (a_number start -> value (at2 n0 b 0 j) = value start /\ value (at2 n0 b (g_rows (sm_grid m) + 1) j) = value start)
           /\ forall i, (1 <= i <= g_rows (sm_grid m))%nat -> exists rs, rates_at l here = Ok rs /\ length rs = length l
                /\ (Forall (fun rd => a_number (fst rd) /\ a_number (snd rd)) rs -> a_number start -> Rabs (value start) + travelled rs <= 2 ^ 1000 ->
                    a_number (at2 n0 b i j) /\ Rabs (value (at2 n0 b i j) - (value start + sinkage rs)) <= INR (length l) * ((Rabs (value start) + travelled rs) / 2 ^ 51 + / 2 ^ 1000)).
Proof. exact (bedrock_near E). Qed.
Print Assumptions C133_partial.
(** The rates of tables of doubles are numbers at every position. *)
Theorem C133_tables l x rs :
  Forall (fun fd => (exists xs ys, double_table xs ys /\ fst fd = interp_linear xs ys) /\ a_number (snd fd)) l ->
  a_number x -> rates_at l x = Ok rs -> Forall (fun rd => a_number (fst rd) /\ a_number (snd rd)) rs.
Proof. exact (rates_numbers l x rs). Qed.
Print Assumptions C133_tables.
(* a model with a step of 0.1, and its last column, where the rate is -1 *)
Example C133_nonvacuous : leaves_bedrock ex_doubles
  /\ (exists m0 m1, ex_double_load = Ok (["subsidence"; "fluvial"; "shoreline"]%string, m0)
      /\ @sinking b64 unit _ double_trans ex_doubles ["subsidence"; "fluvial"; "shoreline"]%string m0 ex_double_rate m1 ex_double_rate [(ex_double_rate, ex_tenth_step)]
      /\ g_rows (sm_grid m1) = 1%nat /\ g_cols (sm_grid m1) = 6%nat /\ g_dx (sm_grid m1) = nlit 1000
      /\ option_map (fun b => at2 n0 b 1 5) (node (sm_grid m1) "bedrock_surface__elevation") = Some ex_low)
  /\ rates_at [(ex_double_rate, ex_tenth_step)] (nmul (nofnat 5) (nlit 1000)) = Ok ex_sinks
  /\ Forall (fun rd => a_number (fst rd) /\ a_number (snd rd)) ex_sinks /\ a_number ex_was /\ Rabs (value ex_was) + travelled ex_sinks <= 2 ^ 1000.
Proof. exact (conj ex_doubles_leave (conj ex_double_history (conj ex_sinks_are ex_sink_fits))). Qed.
Example C133_numbers : value ex_was = -135 /\ value (nlit (-1 # 1)) = -1 /\ value ex_tenth_step = IZR 7205759403792794 / IZR 72057594037927936
  /\ value ex_low = - IZR 4753408669201203 / IZR 35184372088832.
Proof. exact ex_sink_values. Qed.
(* tables of doubles exist *)
Example C133_table : double_table ex_times ex_rise.
Proof. exact ex_double_table. Qed.
