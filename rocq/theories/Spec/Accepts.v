(** Which sections of a configuration make a process (C118). *)
From Coq Require Import String List ZArith QArith Reals.
From Verif.Base Require Import Num Py Arr.
From Verif.Model Require Import Layers Grid Setattr Processes Whole.
From Verif.Spec Require Import Column Parameters Configured Defaults.
Import ListNotations.
Local Open Scope string_scope.
Local Open Scope list_scope.
Local Open Scope R_scope.

(* the parameters that have to be numbers *)
Definition numbers (c : pclass) : list string :=
  match c with
  | SeaLevelTimeSeries => ["start"]
  | SinusoidalSeaLevel => ["wave_length"; "amplitude"; "phase"; "mean"; "start"; "linear"]
  | SubsidenceTimeSeries => []
  | SubmarineDiffuser => ["sea_level"; "plain_slope"; "wave_base"; "shoreface_height"; "alpha"; "shelf_slope"; "sediment_load"; "load_sealevel"; "basin_width"]
  | Fluvial => ["sand_frac"; "wave_base"; "sediment_load"; "sand_density"; "plain_slope"; "hemipelagic"; "sea_level"]
  | SedimentFlexure => ["sand_density"; "mud_density"; "isostasytime"; "water_density"]
  | ShorelineFinder => ["alpha"]
  end.
(* the others: files, which are required, and what landlab's Flexure1D takes *)
Definition needs_file (c : pclass) : Prop := c = SeaLevelTimeSeries \/ c = SubsidenceTimeSeries.
(* parameters that the classes also take, and whose use is not modelled: the kind
   of interpolation and what landlab's LinearDiffuser takes *)
Definition not_modelled (c : pclass) : list string :=
  match c with
  | SeaLevelTimeSeries | SubsidenceTimeSeries => ["kind"]
  | SubmarineDiffuser => ["linear_diffusivity"; "method"; "deposit"]
  | _ => []
  end.
Definition plain (c : pclass) (s : section (pvalue R)) : Prop := forall k, In k (not_modelled c) -> dget String.eqb s k = None.
Definition takes (c : pclass) (k : string) : Prop :=
  In k (not_modelled c) \/ In k (numbers c) \/ (needs_file c /\ k = "filepath") \/ (c = SedimentFlexure /\ In k ["method"; "eet"; "youngs"; "rho_mantle"; "rho_water"; "gravity"]).

(* why the section s makes no process of class c on the grid g *)
Definition refused {X} (E : externals R X) (c : pclass) (s : section (pvalue R)) (g : grid R) (e : exn) : Prop :=
  (e = TypeError /\ exists k v, dget String.eqb s k = Some v /\ ~ takes c k)
  \/ (e = TypeError /\ exists k x y, dget String.eqb s k = Some (Table x y) /\ In k (numbers c))
  \/ (e = TypeError /\ needs_file c /\ dget String.eqb s "filepath" = None)
  \/ (e = FileError /\ needs_file c /\ exists v, dget String.eqb s "filepath" = Some (Number v))
  \/ match c with
     | SeaLevelTimeSeries | SinusoidalSeaLevel | Fluvial => False
     | SubsidenceTimeSeries =>
         (* a column beyond the ends of the file *)
         e = ValueError /\ exists x y j, dget String.eqb s "filepath" = Some (Table x y) /\ (j < g_cols g)%nat
           /\ (INR j * g_dx g < nth 0 x 0 \/ nth (length x - 1) x 0 < INR j * g_dx g)
     | SubmarineDiffuser => e = ZeroDivisionError /\ says c s "plain_slope" = Some (Number 0)
     | SedimentFlexure =>
         e = ValueError /\ ((exists k v, In k ["sand_density"; "mud_density"; "water_density"] /\ says c s k = Some (Number v) /\ v <= 0)
                            \/ exists v, says c s "isostasytime" = Some (Number v) /\ v < - (1 / 100000000))
     | ShorelineFinder => no_shoreline E g e \/ (e = ZeroDivisionError /\ says c s "alpha" = Some (Number 0))
     end.

(** The section that load_processes hands to a process. *)
(* what the configuration gives to a process that is there *)
Definition given (ctx : context (pvalue R)) (names : list string) (n k : string) : option (pvalue R) :=
  if existsb (String.eqb n) (names ++ ["fluvial"; "shoreline"]) then value ctx n k else None.
Definition partners (n p : string) (keys : list string) : Prop := In (n, p, keys) shared_parameters \/ In (p, n, keys) shared_parameters.
Definition clash ctx names n p (keys : list string) : Prop :=
  exists k v w, In k keys /\ given ctx names n k = Some v /\ given ctx names p k = Some w /\ v <> w.
(* its own values; and the shared ones that it does not have, from its partner,
   unless the two differ in one of them *)
Definition handed ctx names n (s : section (pvalue R)) : Prop :=
  forall k,
    (forall v, given ctx names n k = Some v -> dget String.eqb s k = Some v)
    /\ (given ctx names n k = None ->
        (forall p keys, partners n p keys -> In k keys -> clash ctx names n p keys -> dget String.eqb s k = None)
        /\ (forall p keys, partners n p keys -> In k keys -> ~ clash ctx names n p keys -> dget String.eqb s k = given ctx names p k)
        /\ ((forall p keys, partners n p keys -> ~ In k keys) -> dget String.eqb s k = None)).

(** The process n of a configuration is not made on the grid g. *)
Definition unmade {X} (E : externals R X) ctx names n (g : grid R) (e : exn) : Prop :=
  (~ is_known n /\ e = KeyError)
  \/ (exists c s, class_at n s = Some c /\ handed ctx names n s /\ refused E c s g e)
  (* the two classes that are not modelled *)
  \/ (In n ["compaction"; "water_flexure"] /\ exists cls s, handed ctx names n s /\ ex_make E cls s g = Err e).
(* the grid when a process is made: of the same size, with the same values in the
   fields that were there, and with the same layers *)
Definition made_from (g h : grid R) : Prop :=
  whole_grid h /\ g_rows h = g_rows g /\ g_cols h = g_cols g /\ g_dx h = g_dx g
  /\ (forall k f, node g k = Some f -> node h k = Some f) /\ (forall k, gval g k <> None -> gval h k <> None) /\ layers h = layers g.
