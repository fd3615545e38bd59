(** Specification vocabulary for submarine diffusion, independent of the model. *)
From Coq Require Import List Reals.
From Verif.Base Require Import Arr.
Import ListNotations.
Local Open Scope R_scope.

(* coefficient in water no deeper than wave base *)
Definition shelf_value (load dx shoreface_height alpha shelf_slope x x_of_shore depth : R) : R :=
  load * ((x - x_of_shore) + dx) / (depth + (shoreface_height * alpha + shelf_slope) * dx).

(* coefficient on land in the channel row *)
Definition land_value (load plain_slope basin_width x : R) : R :=
  if Rlt_dec 0 basin_width then load / plain_slope * (basin_width + x) / basin_width
  else load / plain_slope.

(* what a node gets, given the value of the load used for its row *)
Definition diffusion_rule (load_submarine load_land dx plain_slope wave_base shoreface_height alpha
    shelf_slope basin_width x x_of_shore depth : R) (in_channel : bool) : R :=
  if Rle_dec depth 0 then
    land_value load_land plain_slope basin_width x * (if in_channel then 1 else 1 / 2)
  else
    shelf_value load_submarine dx shoreface_height alpha shelf_slope x x_of_shore depth
    * (if Rle_dec depth wave_base then 1 else exp (- (depth - wave_base) / wave_base)).

(** What a user does with the diffuser between two looks at it.  [Calc shores]
    computes the coefficients for the given shorelines. *)
Inductive diff_op : Type :=
| SetPlainSlope (v : R)
| SetSedimentLoad (v : R)
| SetWaveBase (v : R)
| SetShorefaceHeight (v : R)
| SetAlpha (v : R)
| SetShelfSlope (v : R)
| SetSeaLevel (v : R)
| SetTopography (z : field R)
| Calc (shores : list R).

(* the current value of each parameter *)
Record diff_now : Type := mkNow {
  now_plain_slope : R; now_sediment_load : R; now_wave_base : R;
  now_shoreface_height : R; now_alpha : R; now_shelf_slope : R; now_sea_level : R
}.
Definition diff_track (d : diff_now) (op : diff_op) : diff_now :=
  let '(mkNow ps sl wb sh al ss w) := d in
  match op with
  | SetPlainSlope v => mkNow v sl wb sh al ss w
  | SetSedimentLoad v => mkNow ps v wb sh al ss w
  | SetWaveBase v => mkNow ps sl v sh al ss w
  | SetShorefaceHeight v => mkNow ps sl wb v al ss w
  | SetAlpha v => mkNow ps sl wb sh v ss w
  | SetShelfSlope v => mkNow ps sl wb sh al v w
  | SetSeaLevel v => mkNow ps sl wb sh al ss v
  | SetTopography _ | Calc _ => d
  end.
Definition diff_tracked (d : diff_now) (ops : list diff_op) : diff_now := fold_left diff_track ops d.

(* the sea level behind the current load: the one at construction until a
   calculation; a calculation uses the current one; an assignment of the
   sediment load goes back to the one at construction *)
Fixpoint level_used (initial used now : R) (ops : list diff_op) : R :=
  match ops with
  | [] => used
  | SetSeaLevel v :: ops' => level_used initial used v ops'
  | SetSedimentLoad _ :: ops' => level_used initial initial now ops'
  | Calc _ :: ops' => level_used initial now now ops'
  | _ :: ops' => level_used initial used now ops'
  end.

(* an operation that fits a grid of n rows and m columns *)
Definition diff_ok (n m : nat) (op : diff_op) : Prop :=
  match op with
  | SetTopography z => shaped (n + 2) m z
  | Calc shores => length shores = n
  | _ => True
  end.

(* the topography set last *)
Fixpoint last_topography (z : field R) (ops : list diff_op) : field R :=
  match ops with
  | [] => z
  | SetTopography z' :: ops' => last_topography z' ops'
  | _ :: ops' => last_topography z ops'
  end.
