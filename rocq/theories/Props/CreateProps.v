(** C104 and C105: creating processes on a grid.

    A script (Spec/Script.v) creates processes, assigns their attributes and
    runs their steps, in any order. *)
From Coq Require Import String List ZArith QArith Reals.
From Verif.Base Require Import Num Py Arr.
From Verif.Model Require Import Layers Grid Csv SequenceModel Setattr.
From Verif.Spec Require Import Script.
From Verif.Proofs Require Import FluvialEx ScriptP ScriptEx CreateP.
Import ListNotations.
Local Open Scope string_scope.

(** C104.  The interpolator, the diffuser and the flexure are arbitrary. *)
Theorem C104_fields_found {A} {num : Num A} {tr : Trans A} interp1d diffuse flexure gravity params text (g : grid A) script :
  (forall x y, interp1d x y <> Err KeyError) ->
  load_grid params (Some (read_bathymetry text)) = Ok g ->
  play interp1d diffuse flexure gravity script g <> Err KeyError.
Proof. exact (played_loaded interp1d diffuse flexure gravity params text g script). Qed.
Print Assumptions C104_fields_found.
(* any other grid will do that has these three *)
Theorem C104_any_grid {A} {num : Num A} {tr : Trans A} interp1d diffuse flexure gravity (g : grid A) script :
  (forall x y, interp1d x y <> Err KeyError) ->
  node g "topographic__elevation" <> None -> node g "sediment_deposit__thickness" <> None -> gval g "sea_level__elevation" <> None ->
  play interp1d diffuse flexure gravity script g <> Err KeyError.
Proof. exact (fun Hi => played interp1d Hi diffuse flexure gravity g script). Qed.
Print Assumptions C104_any_grid.
(* a diffuser created first needs the topography only *)
Theorem C104_diffuser_first {A} {num : Num A} {tr : Trans A} interp1d diffuse flexure gravity (g : grid A) params script :
  (forall x y, interp1d x y <> Err KeyError) -> node g "topographic__elevation" <> None ->
  play interp1d diffuse flexure gravity (Create SubmarineDiffuser params :: script) g <> Err KeyError.
Proof. exact (fun Hi => played_diffuser interp1d Hi diffuse flexure gravity g params script). Qed.
Print Assumptions C104_diffuser_first.
(* every class is created and runs; the fields at the end *)
Example C104_nonvacuous :
  match load_grid (mkGridParams (Some [1; 6]%nat) None (Some [1; 1000]%Q) None) (Some (read_bathymetry ex_bath)) with
  | Ok g => match @play Q _ half_trans ex_linear (fun _ _ z => z) (fun _ f => f) (fun _ => 9%Q) ex_script g with
            | Ok (ps, g) => Some (length ps, map fst (at_node g))
            | Err _ => None end
  | Err _ => None end
  = Some (7%nat,
  ["sediment_deposit__thickness"; "topographic__elevation"; "bedrock_surface__elevation"; "delta_sediment_sand__volume_fraction";
   "bedrock_surface__increment_of_elevation"; "sediment__total_of_loading"; "lithosphere__increment_of_overlying_pressure";
   "lithosphere_surface__increment_of_elevation"; "kd"]).
Proof. exact ex_played_ok. Qed.

(** C105 in full *)
Definition C105_statement : Prop := forall interp1d cls p (g : grid R) o g',
  construct interp1d cls p g = Ok (o, g') ->
  (forall n f, node g n = Some f -> node g' n = Some f)
  /\ (forall n v, gval g n = Some v -> gval g' n = Some v) /\ layers g' = layers g.
(** The diffuser sets the sea level (to 0 when it is not told otherwise). *)
Theorem C105_refuted : ~ C105_statement.
Proof. exact created_refuted. Qed.
Print Assumptions C105_refuted.
Theorem C105_sea_level_refuted {A} {num : Num A} {tr : Trans A} interp1d p (g g' : grid A) o :
  construct interp1d SubmarineDiffuser p g = Ok (o, g') ->
  exists s, kwd p "sea_level" n0 = Ok s /\ gval g' "sea_level__elevation" = Some s.
Proof. exact (created_submarine interp1d p g o g'). Qed.
Print Assumptions C105_sea_level_refuted.
(** Everything else is kept. *)
Theorem C105_partial {A} {num : Num A} {tr : Trans A} interp1d cls p (g : grid A) o g' :
  construct interp1d cls p g = Ok (o, g') ->
  (forall n f, node g n = Some f -> node g' n = Some f)
  /\ (forall n, ~ In n (match cls with SubmarineDiffuser => ["sea_level__elevation"; "sediment_load"] | _ => [] end) -> gval g' n = gval g n)
  /\ layers g' = layers g.
Proof. exact (created interp1d cls p g o g'). Qed.
Print Assumptions C105_partial.
Example C105_nonvacuous interp1d : exists o g', construct interp1d SubmarineDiffuser [] ex_high = Ok (o, g')
  /\ gval ex_high "sea_level__elevation" = Some 5%R /\ gval g' "sea_level__elevation" = Some 0%R.
Proof. exact (ex_high_ok interp1d). Qed.
