(** C89, C90: how a SequenceModel starts, and the calls a Sequence makes.

    The log of calls [logged], [seq_log], [calls_of] and the user's calls are in
    Spec/Column.v. *)
From Coq Require Import String List ZArith QArith Reals.
From Verif.Base Require Import Num Py Arr.
From Verif.Model Require Import Layers Grid Flexure Sequence SequenceModel.
From Verif.Spec Require Import Strata Column.
From Verif.Proofs Require Import SequenceEx SequenceModelEx StartP StartEx.
Import ListNotations.
Local Open Scope R_scope.

(** C89 *)
Theorem C89_clean_start {W} (pr : processes R W) w (g : grid R) c m : whole_grid g -> model_init pr w g c = Ok m ->
  sm_clock m = c /\ sm_archived m = 0%nat /\ gval (sm_grid m) "sea_level__elevation" = Some 0
  /\ (exists v, rowf g "x_of_shore" = Some v /\ rowf (sm_grid m) "x_of_shore" = Some (repeat None (length v)))
  /\ (exists v, rowf g "x_of_shelf_edge" = Some v /\ rowf (sm_grid m) "x_of_shelf_edge" = Some (repeat None (length v)))
  /\ (forall n, n <> "water__total_of_loading"%string -> node (sm_grid m) n = node g n)
  /\ (forall load z i j, node (sm_grid m) "water__total_of_loading" = Some load -> node g "topographic__elevation" = Some z ->
        (i < g_rows g)%nat -> (j < g_cols g)%nat -> at2 0 load (S i) j = 1030 * Rmax (- at2 0 z (S i) j) 0).
Proof. exact (init_clean pr w g c m). Qed.
Print Assumptions C89_clean_start.
Example C89_nonvacuous : whole_grid (A:=R) ex_coast
  /\ exists m, model_init (ex_processes [ex_lay 1]) tt (ex_coast (A:=R)) (clock_init 0 None 1) = Ok m.
Proof. exact ex_start. Qed.
(* a used grid with a water load: sea level, shores, load *)
Example C89_run : ex_used = Some (0%Q, [None], [0; 0; 1030; 2060]%Q).
Proof. exact ex_used_ok. Qed.

(** C90 for update(), in any arithmetic *)
Theorem C90_update_calls {A} {num : Num A} {W} (components : list (component A W)) dt (s : sequence A W) :
  let d := match dt with Some d => d | None => sq_time_step s end in
  match seq_exec components s (Update dt), seq_exec (mapi logged components) (seq_log s []) (Update dt) with
  | Ok s', Ok sl => sl = seq_log s' (map (fun i => (i, d)) (seq 0 (length components)))
                    /\ sq_time s' = nadd (sq_time s) d
  | Err e, Err e' => e' = e
  | _, _ => False
  end.
Proof. exact (update_calls components dt s). Qed.
Print Assumptions C90_update_calls.
(** and for run() *)
Theorem C90_run_calls {W} (components : list (component R W)) until dt (s : sequence R W) :
  let T := match until with Some u => u | None => sq_time s + sq_time_step s end in
  let d := match dt with Some d => d | None => sq_time_step s end in
  0 < d ->
  exists ds, (forall e, In e ds -> 0 < e <= d) /\ rsum ds = Rmax 0 (T - sq_time s)
    /\ match sequence_run components until dt s, sequence_run (mapi logged components) until dt (seq_log s []) with
       | Ok s', Ok sl => sl = seq_log s' (calls_of (length components) ds)
       | Err e, Err e' => e' = e
       | _, _ => False
       end.
Proof. exact (run_calls components until dt s). Qed.
Print Assumptions C90_run_calls.
(* run(until=3, dt=2) with two components *)
Example C90_run : ex_called = Some [(0%nat, 2%Q); (1%nat, 2%Q); (0%nat, 1%Q); (1%nat, 1%Q)].
Proof. exact ex_called_ok. Qed.
