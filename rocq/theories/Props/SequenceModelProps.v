(** C32, C38-C42 and C70: the SequenceModel class.

    A component is any function on (component states, grid).  The grids
    [whole_grid], the user's calls [model_calls], the log of component calls
    [logged_processes], [adds_up_steps], [contributes], [after_components],
    [sediment_weight] and [load_matches] are in Spec/Column.v. *)
From Coq Require Import String List ZArith QArith Reals Permutation.
From Verif.Base Require Import Num Py Arr.
From Verif.Model Require Import Layers Grid Archive Flexure Sequence SequenceModel.
From Verif.Spec Require Import Strata Column.
From Verif.Proofs Require Import SequenceModelP ClockP SequenceModelEx StartsP.
Import ListNotations.
Local Open Scope R_scope.

(** C32 for SequenceModel: construct over 100 of sediment (what load_grid
    builds), then any calls. *)
Theorem C32_model_balanced {W} (pr : processes R W) w (g : grid R) c calls m m' z z0 :
  Forall keeps_whole (pr_components pr) -> whole_grid g ->
  node g "topographic__elevation" = Some z -> node g "bedrock_surface__elevation" = Some z0 ->
  (forall i j, (i < g_rows g)%nat -> (j < g_cols g - 2)%nat -> at2 0 z (S i) (S j) = at2 0 z0 (S i) (S j) + 100) ->
  (forall i j, (i < g_rows g)%nat -> (j < g_cols g - 2)%nat -> at2 [] (el_stacks (layers g)) i j = []) ->
  model_init pr w g c = Ok m -> model_calls pr calls m = Some m' -> balanced (sm_grid m').
Proof. exact (model_balanced pr w g c calls m m' z z0). Qed.
Print Assumptions C32_model_balanced.
(* load_grid meets the hypothesis on the bedrock *)
Theorem C32_load_grid_hundred params (read : grid R -> result (grid R)) g i j :
  load_grid params (Some read) = Ok g -> whole_grid g -> (i < g_rows g + 2)%nat -> (j < g_cols g)%nat ->
  exists z z0, node g "topographic__elevation" = Some z /\ node g "bedrock_surface__elevation" = Some z0
    /\ at2 0 z i j = at2 0 z0 i j + 100.
Proof. exact (load_grid_hundred params read g i j). Qed.
Print Assumptions C32_load_grid_hundred.
Example C32_model_nonvacuous :
  whole_grid (A:=R) ex_coast
  /\ Forall (keeps_whole (A:=R) (W:=unit)) [ex_lay 1; ex_push (full 3 4 5)]
  /\ exists m, model_init (ex_processes [ex_lay 1; ex_push (full 3 4 5)]) tt (ex_coast (A:=R)) (clock_init 0 None 1) = Ok m.
Proof.
  split; [exact ex_coast_whole|]. split.
  - exact (Forall_cons _ (ex_lay_keeps 1) (Forall_cons _ (ex_push_keeps _) (Forall_nil _))).
  - destruct (ex_coast_init [ex_lay 1; ex_push (full 3 4 5)] 0 None 1) as [m [E _]]. exact (ex_intro _ m E).
Qed.

(** C32, any arithmetic: what waits to be deposited when a step begins has no
    effect on it. *)
Theorem C32_deposits_not_carried {A} {num : Num A} {W} (pr : processes A W) dt w (g : grid A) c a f' : whole_grid g ->
  shaped (g_rows g + 2) (g_cols g) f' ->
  run_one_step pr dt (mkModel w (put_node g "sediment_deposit__thickness" f') c a)
  = run_one_step pr dt (mkModel w g c a)
  \/ exists m m', run_one_step pr dt (mkModel w (put_node g "sediment_deposit__thickness" f') c a) = ClockStop m
     /\ run_one_step pr dt (mkModel w g c a) = ClockStop m'.
Proof. exact (deposits_not_carried pr dt w g c a f'). Qed.
Print Assumptions C32_deposits_not_carried.

(** C38: the log of component calls of a run. *)
Theorem C38_run_takes_every_full_step {W} (pr : processes R W) (m : smodel R W) stop : 0 < ck_step (sm_clock m) ->
  ck_stop (sm_clock m) = Some stop ->
  exists n, full_steps (ck_time (sm_clock m)) stop (ck_step (sm_clock m)) n
    /\ forall fuel, (n < fuel)%nat ->
       match model_run fuel pr m, model_run fuel (logged_processes pr) (with_log m []) with
       | Some (Ok m'), Some (Ok ml) =>
           ml = with_log m' (concat (repeat (map (fun i => (i, ck_step (sm_clock m)))
                                              (seq 0 (length (pr_components pr)))) n))
           /\ ck_time (sm_clock m') = ck_time (sm_clock m) + (INR n + 1) * ck_step (sm_clock m)
       | Some (Err e), Some (Err e') => e' = e
       | _, _ => False
       end.
Proof. exact (run_log pr m stop). Qed.
Print Assumptions C38_run_takes_every_full_step.
(* a new model's run, from the clock's start *)
Theorem C38_from_start {W} (pr : processes R W) w g start stop step m : 0 < step ->
  model_init pr w g (clock_init start (Some stop) step) = Ok m ->
  exists n, full_steps start stop step n
    /\ forall fuel, (n < fuel)%nat ->
       match model_run fuel pr m, model_run fuel (logged_processes pr) (with_log m []) with
       | Some (Ok m'), Some (Ok ml) =>
           ml = with_log m' (concat (repeat (map (fun i => (i, step)) (seq 0 (length (pr_components pr)))) n))
           /\ ck_time (sm_clock m') = start + (INR n + 1) * step
       | Some (Err e), Some (Err e') => e' = e
       | _, _ => False
       end.
Proof. exact (run_from_start pr w g start stop step m). Qed.
Print Assumptions C38_from_start.
(* a run in which every component succeeds ends without an exception *)
Example C38_nonvacuous : exists m,
  model_init (ex_processes [ex_lay 1; ex_push (full 3 4 5)]) tt ex_coast (clock_init 0 (Some 10) 3) = Ok m
  /\ exists n, full_steps 0 10 3 n /\ forall fuel, (n < fuel)%nat ->
     exists m', model_run fuel (ex_processes [ex_lay 1; ex_push (full 3 4 5)]) m = Some (Ok m').
Proof. exact ex_run. Qed.

(** C38: the hypothesis step > 0 is needed, and so is a stop. *)
Theorem C38_never_ends {W} (pr : processes R W) fuel (m m' : smodel R W) stop :
  ck_step (sm_clock m) <= 0 -> ck_stop (sm_clock m) = Some stop -> ck_time (sm_clock m) <= stop ->
  model_run fuel pr m <> Some (Ok m').
Proof. exact (run_never_ends pr fuel m m' stop). Qed.
Print Assumptions C38_never_ends.
Theorem C38_never_ends_without_stop {W} (pr : processes R W) fuel (m m' : smodel R W) :
  ck_stop (sm_clock m) = None -> model_run fuel pr m <> Some (Ok m').
Proof. exact (run_without_stop pr fuel m m'). Qed.
Print Assumptions C38_never_ends_without_stop.

(** C39: a step with a given dt. *)
Definition C39_statement : Prop :=
  forall W (pr : processes R W) dt (m : smodel R W) ml,
    run_one_step (logged_processes pr) (Some dt) (with_log m []) = Stepped ml ->
    snd (sm_world ml) = map (fun i => (i, dt)) (seq 0 (length (pr_components pr)))
    /\ ck_time (sm_clock ml) = ck_time (sm_clock m) + dt.
Theorem C39_same_dt_refuted : ~ C39_statement.
Proof. exact step_dt_refuted. Qed.
Print Assumptions C39_same_dt_refuted.
(* dt = 0 runs the components by a full step *)
Theorem C39_zero_dt_refuted : ~ (forall W (pr : processes R W) (m : smodel R W) ml,
  run_one_step (logged_processes pr) (Some 0) (with_log m []) = Stepped ml ->
  snd (sm_world ml) = map (fun i => (i, 0)) (seq 0 (length (pr_components pr)))).
Proof. exact zero_dt_refuted. Qed.
Print Assumptions C39_zero_dt_refuted.
(* components 0 and 1 and the clock (step 1) with dt = 5, dt = 0 and without dt *)
Example C39_cases :
  ex_step_log (Some 5%Q) = Some ([(0%nat, 5%Q); (1%nat, 5%Q)], 1%Q)
  /\ ex_step_log (Some 0%Q) = Some ([(0%nat, 1%Q); (1%nat, 1%Q)], 1%Q)
  /\ ex_step_log None = Some ([(0%nat, 1%Q); (1%nat, 1%Q)], 1%Q).
Proof. exact ex_step_log_ok. Qed.

(** C39, what holds in any arithmetic: every component runs once, in order, by
    dt (by the clock's step if dt is 0 or not given); the clock always moves by
    its step.  Clock and components agree exactly when dt is the step, 0 or not
    given. *)
Theorem C39_clock_moves_by_step_partial {A} {num : Num A} {W} (pr : processes A W) dt (m : smodel A W) :
  let given := match dt with Some d => if (d =? n0)%num then ck_step (sm_clock m) else d | None => ck_step (sm_clock m) end in
  match run_one_step pr dt m, run_one_step (logged_processes pr) dt (with_log m []) with
  | Stepped m', Stepped ml =>
      ml = with_log m' (map (fun i => (i, given)) (seq 0 (length (pr_components pr))))
      /\ ck_time (sm_clock m') = nadd (ck_time (sm_clock m)) (ck_step (sm_clock m))
  | ClockStop m', ClockStop ml => ml = with_log m' []
      /\ ck_time (sm_clock m') = nadd (ck_time (sm_clock m)) (ck_step (sm_clock m))
  | Raised e, Raised e' => e' = e
  | _, _ => False
  end.
Proof. exact (one_step_log pr dt m). Qed.
Print Assumptions C39_clock_moves_by_step_partial.

(** C40: what the bedrock has moved by after any number of steps. *)
Theorem C40_increments_applied_once {W} (pr : processes R W) dts m dss m' : adds_up_steps pr dts m dss m' ->
  Forall keeps_whole (pr_components pr) -> whole_grid (sm_grid m) ->
  forall z0 inc, node (sm_grid m) "bedrock_surface__elevation" = Some z0 ->
  node (sm_grid m) "bedrock_surface__increment_of_elevation" = Some inc ->
  exists z0' inc', node (sm_grid m') "bedrock_surface__elevation" = Some z0'
    /\ node (sm_grid m') "bedrock_surface__increment_of_elevation" = Some inc'
    /\ forall i j, (i < g_rows (sm_grid m) + 2)%nat -> (j < g_cols (sm_grid m))%nat ->
         at2 0 z0' i j + at2 0 inc' i j
         = at2 0 z0 i j + at2 0 inc i j + rsum (map (fun ds => rsum (map (fun d => at2 0 d i j) ds)) dss)
         /\ (dts <> [] \/ at2 0 inc i j = 0 -> at2 0 inc' i j = 0).
Proof. exact (increments_applied_once pr dts m dss m'). Qed.
Print Assumptions C40_increments_applied_once.
Theorem C40_any_order {W} (pr pr' : processes R W) l l' dts m m1 m2 :
  pr_components pr = map fst l -> pr_components pr' = map fst l' -> Permutation l l' ->
  Forall (fun p => contributes (fst p) (snd p)) l -> Forall keeps_whole (map fst l) ->
  whole_grid (sm_grid m) -> node (sm_grid m) "bedrock_surface__increment_of_elevation" <> None -> dts <> [] ->
  complete_steps pr dts m = Some m1 -> complete_steps pr' dts m = Some m2 ->
  exists z1 z2, node (sm_grid m1) "bedrock_surface__elevation" = Some z1
    /\ node (sm_grid m2) "bedrock_surface__elevation" = Some z2
    /\ forall i j, (i < g_rows (sm_grid m) + 2)%nat -> (j < g_cols (sm_grid m))%nat -> at2 0 z1 i j = at2 0 z2 i j.
Proof. exact (increments_any_order pr pr' l l' dts m m1 m2). Qed.
Print Assumptions C40_any_order.
(* two components that add different fields, in either order, for n steps *)
Example C40_nonvacuous n : exists m m1 m2,
  let a := ex_push (W:=unit) [[1; 1; 1; 1]; [0; -1; -2; -3]] in let b := ex_push (full 3 4 5) in
  model_init (ex_processes [a; b]) tt ex_coast (clock_init 0 None 1) = Ok m
  /\ whole_grid (sm_grid m) /\ node (sm_grid m) "bedrock_surface__increment_of_elevation" <> None
  /\ complete_steps (ex_processes [a; b]) (repeat 1 n) m = Some m1
  /\ complete_steps (ex_processes [b; a]) (repeat 1 n) m = Some m2.
Proof. exact (ex_orders n). Qed.
Example C40_contributes (d : field R) : contributes (ex_push (W:=unit) d) d /\ keeps_whole (ex_push (W:=unit) d).
Proof. exact (conj (ex_push_contributes d) (ex_push_keeps d)). Qed.
(* such steps are [adds_up_steps] *)
Example C40_steps_nonvacuous {W} (pr : processes R W) l dts : pr_components pr = map fst l ->
  Forall (fun p => contributes (fst p) (snd p)) l -> Forall keeps_whole (pr_components pr) -> Forall (fun dt => dt <> 0) dts ->
  forall m m', whole_grid (sm_grid m) -> node (sm_grid m) "bedrock_surface__increment_of_elevation" <> None ->
  complete_steps pr dts m = Some m' -> adds_up_steps pr dts m (map (fun _ => map snd l) dts) m'.
Proof. exact (contributes_steps pr l dts). Qed.

(** C41, any arithmetic. *)
Theorem C41_water_depth_change {A} {num : Num A} {W} (pr : processes A W) dt (m m' : smodel A W) g1 w :
  Forall keeps_whole (pr_components pr) -> whole_grid (sm_grid m) ->
  advance_components pr dt m = Ok m' -> after_components pr dt m g1 ->
  node (sm_grid m') "water__increment_of_depth" = Some w ->
  exists sea z z', gval g1 "sea_level__elevation" = Some sea /\ gval (sm_grid m') "sea_level__elevation" = Some sea
    /\ node g1 "topographic__elevation" = Some z /\ node (sm_grid m') "topographic__elevation" = Some z'
    /\ forall i j, (i < g_rows (sm_grid m))%nat -> (j < g_cols (sm_grid m))%nat ->
         at2 n0 w (S i) j = nsub (nmax (nsub sea (at2 n0 z' (S i) j)) n0) (nmax (nsub sea (at2 n0 z (S i) j)) n0).
Proof. exact (water_depth_change pr dt m m' g1 w). Qed.
Print Assumptions C41_water_depth_change.
Theorem C41_zero_where_dry {W} (pr : processes R W) dt (m m' : smodel R W) g1 w sea z z' i j :
  Forall keeps_whole (pr_components pr) -> whole_grid (sm_grid m) ->
  advance_components pr dt m = Ok m' -> after_components pr dt m g1 ->
  node (sm_grid m') "water__increment_of_depth" = Some w ->
  gval g1 "sea_level__elevation" = Some sea -> node g1 "topographic__elevation" = Some z ->
  node (sm_grid m') "topographic__elevation" = Some z' ->
  (i < g_rows (sm_grid m))%nat -> (j < g_cols (sm_grid m))%nat ->
  sea <= at2 0 z (S i) j -> sea <= at2 0 z' (S i) j -> at2 0 w (S i) j = 0.
Proof. exact (dry_nodes pr dt m m' g1 w sea z z' i j). Qed.
Print Assumptions C41_zero_where_dry.
(* depth increments, elevations, bedrock and load of the profile after a step
   that lays 3 and lowers the bedrock by 0 1 2 3 *)
Example C41_run : ex_fields_run
  = Some [[0; 0; -1 # 1; 0]; [2; 3; 0; -2 # 1]; [-98 # 1; -100 # 1; -103 # 1; -105 # 1]; [8055 # 2; 8055 # 2; 9085 # 2; 10115 # 2]]%Q.
Proof. exact ex_fields_ok. Qed.

(** C42: [load_matches] for one step of any history; [g1] is the grid as the
    components leave it. *)
Definition C42_statement : Prop :=
  forall W (pr : processes R W) dt (m m' : smodel R W) g1,
    Forall keeps_whole (pr_components pr) -> whole_grid (sm_grid m) ->
    advance_components pr dt m = Ok m' -> after_components pr dt m g1 ->
    (forall i j, (i < g_rows (sm_grid m))%nat -> (j < g_cols (sm_grid m) - 2)%nat ->
       forall c, In c (at2 [] (el_stacks (layers g1)) i j) -> 0 <= c_dz c) ->
    load_matches pr dt m m' g1.
Theorem C42_load_matches_refuted : ~ C42_statement.
Proof. exact load_refuted. Qed.
Print Assumptions C42_load_matches_refuted.
(* it holds when no cell is eroded by more than its sediment *)
Theorem C42_load_matches_partial {W} (pr : processes R W) dt (m m' : smodel R W) g1 :
  Forall keeps_whole (pr_components pr) -> whole_grid (sm_grid m) ->
  advance_components pr dt m = Ok m' -> after_components pr dt m g1 ->
  (forall dz i j, node g1 "sediment_deposit__thickness" = Some dz ->
     (i < g_rows (sm_grid m))%nat -> (j < g_cols (sm_grid m) - 2)%nat ->
     (forall c, In c (at2 [] (el_stacks (layers g1)) i j) -> 0 <= c_dz c)
     /\ 0 <= stack_thickness (at2 [] (el_stacks (layers g1)) i j) + at2 0 dz (S i) (S j)) ->
  load_matches pr dt m m' g1.
Proof. exact (load_matches_deposits pr dt m m' g1). Qed.
Print Assumptions C42_load_matches_partial.
(* without that condition: the load of every profile node takes the weight of
   the requested deposit, the layers what they can *)
Theorem C42_requested_weight_partial {W} (pr : processes R W) dt (m m' : smodel R W) g1 t :
  Forall keeps_whole (pr_components pr) -> whole_grid (sm_grid m) ->
  advance_components pr dt m = Ok m' -> after_components pr dt m g1 ->
  node g1 "sediment__total_of_loading" = Some t ->
  exists t' dz z sand sea, node (sm_grid m') "sediment__total_of_loading" = Some t'
    /\ node g1 "sediment_deposit__thickness" = Some dz
    /\ node g1 "topographic__elevation" = Some z /\ node g1 "delta_sediment_sand__volume_fraction" = Some sand
    /\ gval g1 "sea_level__elevation" = Some sea
    /\ (forall i j, (i < g_rows (sm_grid m))%nat -> (j < g_cols (sm_grid m))%nat ->
         at2 0 t' (S i) j = at2 0 t (S i) j
           + sediment_weight (at2 0 sand (S i) j) (at2 0 z (S i) j - sea) (at2 0 dz (S i) j))
    /\ (forall i j, (i < g_rows (sm_grid m))%nat -> (j < g_cols (sm_grid m) - 2)%nat ->
         (forall c, In c (at2 [] (el_stacks (layers g1)) i j) -> 0 <= c_dz c) ->
         stack_thickness (at2 [] (el_stacks (layers (sm_grid m'))) i j)
         = Rmax 0 (stack_thickness (at2 [] (el_stacks (layers g1)) i j) + at2 0 dz (S i) (S j))).
Proof. exact (load_of_step pr dt m m' g1 t). Qed.
Print Assumptions C42_requested_weight_partial.
(* a step that erodes 200 from columns of 100 *)
Example C42_nonvacuous : exists m m' g1,
  model_init (ex_processes [ex_lay (-200)]) tt ex_coast (clock_init 0 None 1) = Ok m
  /\ advance_components (ex_processes [ex_lay (-200)]) 1 m = Ok m'
  /\ after_components (ex_processes [ex_lay (-200)]) 1 m g1
  /\ g1 = put_node (sm_grid m) "sediment_deposit__thickness" (full 3 4 (-200)).
Proof. exact ex_erode_state. Qed.

(** C70: a run raises nothing that a component does not raise. *)
Theorem C70_run_succeeds {W} names (pr : processes R W) (m : smodel R W) stop :
  Forall (reliable names) (pr_components pr) -> ready names (sm_grid m) ->
  0 < ck_step (sm_clock m) -> ck_stop (sm_clock m) = Some stop ->
  exists n, full_steps (ck_time (sm_clock m)) stop (ck_step (sm_clock m)) n
    /\ forall fuel, (n < fuel)%nat -> exists m', model_run fuel pr m = Some (Ok m') /\ ready names (sm_grid m').
Proof. exact (run_succeeds names pr m stop). Qed.
Print Assumptions C70_run_succeeds.
Theorem C70_init_ready {W} names (pr : processes R W) w (g : grid R) c :
  whole_grid g -> el_number (layers g) = 0%nat ->
  rowf g "x_of_shore" <> None -> rowf g "x_of_shelf_edge" <> None ->
  (node g "sediment__total_of_loading" <> None -> node g "delta_sediment_sand__volume_fraction" <> None) ->
  (forall n, In n names -> node g n <> None) ->
  exists m, model_init pr w g c = Ok m /\ ready names (sm_grid m) /\ sm_clock m = c.
Proof. exact (init_ready names pr w g c). Qed.
Print Assumptions C70_init_ready.
Example C70_nonvacuous : Forall (reliable (W:=unit) ["bedrock_surface__increment_of_elevation"%string])
  [ex_lay 1; ex_push (full 3 4 5)].
Proof. exact (Forall_cons _ (ex_lay_reliable 1) (Forall_cons _ (ex_push_reliable _) (Forall_nil _))). Qed.
