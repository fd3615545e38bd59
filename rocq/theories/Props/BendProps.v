(** C132: the bedrock of models made from parameters with a SedimentFlexure.

    [deflection E k dx change] (Spec/Bending.v) is what landlab's solver, made
    with the keywords k, answers for a change of load; [owed m] is the part of
    the deflection that the plate has still to make, [isostasy_of m] its time. *)
From Coq Require Import String List ZArith QArith Reals.
From Verif.Base Require Import Num Py Arr.
From Verif.Model Require Import Layers Grid Csv Interp SequenceModel Setattr Processes Whole.
From Verif.Spec Require Import Session Configured Parameters Followed Bending.
From Verif.Proofs Require Import ShapesP FluvialEx ScriptEx WholeEx BendP BendEx.
Import ListNotations.
Local Open Scope string_scope.

(** C132.  When the plate bends at once, the bedrock is always in balance with
    the load: it has moved from where it started by the deflection under what
    the load has changed by.  This is false: it is in balance with the load of
    the step before. *)
Definition C132_statement : Prop := forall (E : externals Q unit) params text names ctx c names' m0 m f l w i j b0 b,
  well_behaved E -> leaves_bedrock E -> leaves_load E ->
  (forall k n m p q i j, shaped n m p -> shaped n m q -> (i < n)%nat -> (j < m)%nat ->
     (at2 0 (ex_flexure E k (fmap2 nadd p q)) i j == at2 0 (ex_flexure E k p) i j + at2 0 (ex_flexure E k q) i j)%Q) ->
  @load_model Q _ half_trans _ E params (read_bathymetry text) names ctx c = Ok (names', m0) ->
  In "flexure" names' -> ~ In "subsidence" names' -> g_rows (sm_grid m0) = 1%nat -> isostasy_of m0 = None ->
  @bending Q unit _ half_trans E names' m0 (described_rate (section_of ctx "subsidence")) m f l w ->
  (i < g_rows (sm_grid m0))%nat -> (j < g_cols (sm_grid m0))%nat ->
  node (sm_grid m0) "bedrock_surface__elevation" = Some b0 -> node (sm_grid m) "bedrock_surface__elevation" = Some b ->
  (at2 0 b0 (S i) j - at2 0 b (S i) j == at2 0 (deflection E (plate_of m0) (g_dx (sm_grid m0)) (fmap2 nsub (load_of m) (load_of m0))) i j)%Q.
Theorem C132_refuted : ~ C132_statement.
Proof. exact in_balance_refuted. Qed.
Print Assumptions C132_refuted.

(** After any steps and changes of parameters other than those of the plate,
    the bedrock is where the bathymetry put it, lowered by what it subsided,
    and by the deflection under what the load had changed by when the last step
    began, less what the plate still owes.  A plate that bends at once owes
    nothing on a grid of one row.  Missing from the property: the load of the
    last step. *)
Theorem C132_partial {X} (E : externals R X) : well_behaved E -> leaves_bedrock E -> leaves_load E -> linear_plate E ->
  forall params text names ctx c g0 names' m0 m f l w,
  load_grid params (Some (read_bathymetry text)) = Ok g0 -> (2 <= g_cols g0)%nat -> (0 < g_rows g0)%nat -> (0 < g_dx g0)%R ->
  load_model E params (read_bathymetry text) names ctx c = Ok (names', m0) -> In "flexure" names' ->
  bending E names' m0 (described_rate (section_of ctx "subsidence")) m f l w ->
  exists x y b, file_table text = Ok (x, y) /\ node (sm_grid m) "bedrock_surface__elevation" = Some b
    /\ forall i j, (i < g_rows g0)%nat -> (j < g_cols g0)%nat -> exists z s, interp_linear x y (INR j * g_dx g0)%R = Ok z
         /\ (In "subsidence" names' -> subsided l (INR j * g_dx g0)%R = Ok s) /\ (~ In "subsidence" names' -> s = 0%R)
         /\ (at2 0 b (S i) j = z - 100 + s - (at2 0 (deflection E (plate_of m0) (g_dx g0) (fmap2 nsub w (load_of m0))) i j - at2 0 (owed m) i j))%R
         /\ (isostasy_of m0 = None -> g_rows g0 = 1%nat -> at2 0%R (owed m) i j = 0%R).
Proof. exact (bends E). Qed.
Print Assumptions C132_partial.
(** What is owed: nothing at the start; and after each step, of what was owed
    before it and the deflection under what the load changed by in the step
    before, all but the fraction of that step, divided by the number of rows. *)
Theorem C132_owed {X} (E : externals R X) : well_behaved E -> leaves_bedrock E -> leaves_load E -> linear_plate E ->
  forall params text names ctx c g0 names' m0 m f l w dt m',
  load_grid params (Some (read_bathymetry text)) = Ok g0 -> (2 <= g_cols g0)%nat -> (0 < g_rows g0)%nat -> (0 < g_dx g0)%R ->
  load_model E params (read_bathymetry text) names ctx c = Ok (names', m0) -> In "flexure" names' ->
  bending E names' m0 (described_rate (section_of ctx "subsidence")) m f l w ->
  run_one_step (named_processes E names') dt m = Stepped m' ->
  forall i j, (i < g_rows g0)%nat -> (j < g_cols g0)%nat ->
    at2 0%R (owed m0) i j = 0%R
    /\ (at2 0 (owed m') i j = (at2 0 (owed m) i j + at2 0 (deflection E (plate_of m0) (g_dx g0) (fmap2 nsub (load_of m) w)) i j)
          * (1 - match isostasy_of m0 with None => 1 | Some t => 1 - exp (- step_used dt m / t) end / INR (g_rows g0)))%R.
Proof. exact (owes E). Qed.
Print Assumptions C132_owed.
(** The surface: bedrock and layers together. *)
Theorem C132_surface {X} (E : externals R X) : well_behaved E -> leaves_bedrock E -> leaves_load E -> linear_plate E ->
  forall params text names ctx c g0 names' m0 m f l w topo,
  load_grid params (Some (read_bathymetry text)) = Ok g0 -> (2 <= g_cols g0)%nat -> (0 < g_rows g0)%nat -> (0 < g_dx g0)%R ->
  load_model E params (read_bathymetry text) names ctx c = Ok (names', m0) -> In "flexure" names' ->
  bending E names' m0 (described_rate (section_of ctx "subsidence")) m f l w ->
  node (sm_grid m) "topographic__elevation" = Some topo ->
  exists x y, file_table text = Ok (x, y)
    /\ forall i j, (i < g_rows g0)%nat -> (j < g_cols g0 - 2)%nat -> exists z s, interp_linear x y (INR (S j) * g_dx g0)%R = Ok z
         /\ (In "subsidence" names' -> subsided l (INR (S j) * g_dx g0)%R = Ok s) /\ (~ In "subsidence" names' -> s = 0%R)
         /\ (at2 0 topo (S i) (S j) = z - 100 + s + stack_thickness (at2 [] (el_stacks (layers (sm_grid m))) i j)
              - (at2 0 (deflection E (plate_of m0) (g_dx g0) (fmap2 nsub w (load_of m0))) i (S j) - at2 0 (owed m) i (S j)))%R.
Proof. exact (surface E). Qed.
Print Assumptions C132_surface.
(* a model that meets the hypotheses, over the reals; and, over the rationals,
   at the start and after each of two steps, the load, how far the bedrock has
   gone down, and what is owed *)
Example C132_nonvacuous : well_behaved (ex_bent (@ex_level R _)) /\ leaves_bedrock (ex_bent (@ex_level R _)) /\ leaves_load (ex_bent (@ex_level R _)) /\ linear_plate (ex_bent (@ex_level R _))
  /\ exists (g : grid R) names m, load_grid ex_grid4 (Some (read_bathymetry ex_flat)) = Ok g
       /\ (2 <= g_cols g)%nat /\ g_rows g = 1%nat /\ (0 < g_dx g)%R
       /\ load_model (ex_bent ex_level) ex_grid4 (read_bathymetry ex_flat) ["flexure"] (ex_at_once 0%R) (clock_init 0%R (Some 10%R) 1%R) = Ok (names, m)
       /\ In "flexure" names /\ ~ In "subsidence" names /\ isostasy_of m = None.
Proof. split; [apply ex_bent_behaved; discriminate|]. split; [apply ex_bent_bedrock|]. split; [apply ex_bent_load|]. split; [apply ex_bent_linear|exact ex_bent_loads]. Qed.
Example C132_run : ex_bend_seen = Some
  (["sea_level"; "submarine_diffusion"; "flexure"; "fluvial"; "shoreline"],
   [([0; 0; 0; 0; 0; 0], Some [0; 0; 0; 0; 0; 0], [0; 0; 0; 0; 0; 0]);
    ([0; 0; 0; 3825 # 8; 7425 # 8; 3675 # 4], Some [0; 0; 0; 0; 0; 0], [0; 0; 0; 0; 0; 0]);
    ([0; 0; 0; 30135 # 32; 7425 # 4; 3675 # 2], Some [0; 0; 0; 153 # 32; 297 # 32; 147 # 16], [0; 0; 0; 0; 0; 0])]%Q).
Proof. exact ex_bend_is. Qed.
