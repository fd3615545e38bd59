(** What the sea level and the subsidence of a configured model do over its
    whole life (C113, C114). *)
From Coq Require Import String List ZArith QArith Reals Bool Arith.
From Verif.Base Require Import Num Py Arr.
From Verif.Model Require Import Layers Grid Interp SeaLevel Subsidence Csv SequenceModel Setattr Processes Whole.
From Verif.Spec Require Import Session Configured Followed.
From Verif.Proofs Require Import FluvialEx ScriptEx WholeEx FollowP SinkP FollowEx.
Import ListNotations.
Local Open Scope string_scope.

(** C113.  After every step the sea level is that of the curve of the
    parameters, or of the newest file given with set_params, at the time of the
    model.  This is false: a step of another length than the clock's moves the
    sea level by that length and the clock by its own. *)
Definition C113_statement : Prop := forall (E : externals Q unit) params read names ctx c names' m0 m f dt m',
  leaves_sea E -> @load_model Q _ half_trans unit E params read names ctx c = Ok (names', m0) -> In "sea_level" names' ->
  @followed Q unit _ half_trans E names' "sea_level" m0 (@described_curve Q _ half_trans (section_of ctx "sea_level")) m f ->
  @run_one_step Q _ (parts Q unit) (@named_processes Q _ half_trans unit E names') dt m = Stepped m' ->
  exists v, f (ck_time (sm_clock m')) = Ok v /\ gval (sm_grid m') "sea_level__elevation" = Some v.
Theorem C113_refuted : ~ C113_statement.
Proof. exact follows_refuted. Qed.
Print Assumptions C113_refuted.
(** It is true of steps of the length of the clock's, in any arithmetic, and
    the increment is the difference from the sea level before.  [leaves_sea]:
    the classes that are not modelled do not touch the sea level. *)
Theorem C113_partial {A X} {num : Num A} {tr : Trans A} (E : externals A X) params read names ctx c names' m0 m f dt m' :
  leaves_sea E -> load_model E params read names ctx c = Ok (names', m0) -> In "sea_level" names' ->
  followed E names' "sea_level" m0 (described_curve (section_of ctx "sea_level")) m f ->
  step_used dt m = ck_step (sm_clock m) -> run_one_step (named_processes E names') dt m = Stepped m' ->
  exists v old, f (ck_time (sm_clock m')) = Ok v /\ gval (sm_grid m) "sea_level__elevation" = Some old
    /\ gval (sm_grid m') "sea_level__elevation" = Some v /\ gval (sm_grid m') "sea_level__increment_of_elevation" = Some (nsub v old).
Proof. exact (follows_curve E params read names ctx c names' m0 m f dt m'). Qed.
Print Assumptions C113_partial.
(* a model that makes a step, gets new files, and makes another *)
Example C113_nonvacuous : leaves_sea ex_whole
  /\ (exists names m0 m1 m2 m3, ex_go None = Some (names, m0, m1, m2, m3) /\ ex_sinking_load = Ok (names, m0) /\ In "sea_level" names /\ In "subsidence" names /\ ~ In "flexure" names
    /\ @followed Q unit _ half_trans ex_whole names "sea_level" m0 (@described_curve Q _ half_trans (section_of ex_context "sea_level")) m2 (interp_linear [0; 10] [3; 4])%Q
    /\ ex_run names None m2 = Stepped m3
    /\ @sinking Q unit _ half_trans ex_whole names m0 (described_rate (section_of ex_context "subsidence")) m3 (interp_linear [0; 5000] [-2 # 1; -2 # 1])%Q
         [(interp_linear [0; 5000] [0; -1 # 1], step_used None m0); (interp_linear [0; 5000] [-2 # 1; -2 # 1], step_used None m2)]%Q).
Proof. exact (conj ex_leaves_sea (ex_history None ex_going_one (proj1 ex_named))). Qed.
Example C113_level : option_map (fun r => nth 3 (snd (fst r)) None) (ex_levels None) = Some (Some (16 # 5)%Q).
Proof. exact ex_level_now. Qed.

(** C114.  Without flexure, after any steps of any lengths and any changes of
    parameters, the bedrock of every profile row is the bathymetry file at the
    position of the column, less 100, lowered by each step by the rate of the
    file that was the newest then, times the length of the step; the first and
    the last row are where they were.  In any arithmetic; [l] lists the steps.
    [leaves_bedrock]: the classes that are not modelled do not touch it. *)
Theorem C114_steps {A X} {num : Num A} {tr : Trans A} (E : externals A X) : leaves_bedrock E ->
  forall params text names ctx c names' m0 m f l,
  load_model E params (read_bathymetry text) names ctx c = Ok (names', m0) -> In "subsidence" names' -> ~ In "flexure" names' ->
  sinking E names' m0 (described_rate (section_of ctx "subsidence")) m f l ->
  exists x y b, file_table text = Ok (x, y) /\ node (sm_grid m) "bedrock_surface__elevation" = Some b
    /\ shaped (g_rows (sm_grid m) + 2) (g_cols (sm_grid m)) b
    /\ forall j, (j < g_cols (sm_grid m))%nat -> exists z, interp_linear x y (nmul (nofnat j) (g_dx (sm_grid m))) = Ok z
         /\ forall i, (i < g_rows (sm_grid m) + 2)%nat ->
              if (Nat.leb 1 i && Nat.leb i (g_rows (sm_grid m)))%bool
              then lowered l (nmul (nofnat j) (g_dx (sm_grid m))) (nsub z (nlit 100)) = Ok (at2 n0 b i j)
              else at2 n0 b i j = fold_left (fun z _ => nadd z n0) l (nsub z (nlit 100)).
Proof. exact (sinks_by E). Qed.
Print Assumptions C114_steps.
(** Over the reals: less 100, plus the sum over the steps of rate times
    length. *)
Theorem C114_sum {X} {tr : Trans R} (E : externals R X) : leaves_bedrock E ->
  forall params text names ctx c names' m0 m f l,
  load_model E params (read_bathymetry text) names ctx c = Ok (names', m0) -> In "subsidence" names' -> ~ In "flexure" names' ->
  sinking E names' m0 (described_rate (section_of ctx "subsidence")) m f l ->
  exists x y b, file_table text = Ok (x, y) /\ node (sm_grid m) "bedrock_surface__elevation" = Some b
    /\ forall j, (j < g_cols (sm_grid m))%nat -> exists z, interp_linear x y (INR j * g_dx (sm_grid m))%R = Ok z
         /\ forall i, (i < g_rows (sm_grid m) + 2)%nat ->
              if (Nat.leb 1 i && Nat.leb i (g_rows (sm_grid m)))%bool
              then exists s, subsided l (INR j * g_dx (sm_grid m))%R = Ok s /\ at2 0%R b i j = (z - 100 + s)%R
              else at2 0%R b i j = (z - 100)%R.
Proof. exact (sinks_by_sum E). Qed.
Print Assumptions C114_sum.
(* with a second step of another length *)
Example C114_nonvacuous : leaves_bedrock ex_whole
  /\ exists names m0 m1 m2 m3, ex_go (Some 2%Q) = Some (names, m0, m1, m2, m3) /\ ex_sinking_load = Ok (names, m0) /\ In "sea_level" names /\ In "subsidence" names /\ ~ In "flexure" names
    /\ @followed Q unit _ half_trans ex_whole names "sea_level" m0 (@described_curve Q _ half_trans (section_of ex_context "sea_level")) m2 (interp_linear [0; 10] [3; 4])%Q
    /\ ex_run names (Some 2%Q) m2 = Stepped m3
    /\ @sinking Q unit _ half_trans ex_whole names m0 (described_rate (section_of ex_context "subsidence")) m3 (interp_linear [0; 5000] [-2 # 1; -2 # 1])%Q
         [(interp_linear [0; 5000] [0; -1 # 1], step_used None m0); (interp_linear [0; 5000] [-2 # 1; -2 # 1], step_used (Some 2%Q) m2)]%Q.
Proof. exact (conj ex_leaves_bedrock (ex_history (Some 2%Q) ex_going_two (proj2 ex_named))). Qed.
Example C114_bedrock : ex_levels (Some 2%Q) = Some
  (["sea_level"; "subsidence"; "compaction"; "submarine_diffusion"; "fluvial"; "shoreline"],
   [Some 0; Some (1 # 10); Some (1 # 10); Some (33 # 10)]%Q,
   let edge := [-80 # 1; -90 # 1; -105 # 1; -115 # 1; -125 # 1; -135 # 1]%Q in
   let one := [-80 # 1; -451 # 5; -527 # 5; -578 # 5; -629 # 5; -136 # 1]%Q in
   [Some [edge; edge; edge]; Some [edge; one; edge]; Some [edge; one; edge];
    Some [edge; [-84 # 1; -471 # 5; -547 # 5; -598 # 5; -649 # 5; -140 # 1]%Q; edge]]).
Proof. exact ex_levels_are. Qed.
