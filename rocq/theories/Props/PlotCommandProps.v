(** C95 and C103: the plot command as a whole.

    [plot_command] is `sequence plot` on a file with contents [d]: its
    arguments are how scalars of the configuration count as true and as
    integers, how texts are parsed and how Python's own texts and numbers are
    written as scalars.  [plot_layers] and [plot_file_args] (what is drawn, and
    what is read from the file) have their own theorems: C63-C65 and C80-C83.
    [in_effect], [not_given], [valid_setting] are in Spec/Run.v. *)
From Coq Require Import String Ascii List Bool Arith ZArith QArith Reals.
From Verif.Base Require Import Num Py Arr.
From Verif.Model Require Import Layers Grid Netcdf Plot Config Cli Commands PlotCommand.
From Verif.Spec Require Import Sections Parameters CommandLine Run.
From Verif.Proofs Require Import PlotCommandP.
Import ListNotations.
Local Open Scope string_scope.
Local Open Scope list_scope.

(** C95.  Every setting in effect shows in the figure. *)
Theorem C95_figure {S} (scalar_true : S -> bool) (scalar_int : S -> option Z) (parse : string -> result (pyval S)) (str : string -> S) (num : Q -> S)
    (toml : option (list (option R * dict S))) os (d : dataset R) row p ds
    water land shoreface shelf start stop n zstart zstop zn legend_at x_label y_label title x0 xs :
  Forall (valid_setting parse) os ->
  (forall sections, toml = Some sections -> exists t d0 rest, sections = (t, d0) :: rest /\ proper (PyDict d0)
     /\ forall v, dget String.eqb d0 "plot" = Some v -> exists p, v = PyDict p) ->
  (forall k, ~ In k ["row"; "color_water"; "color_land"; "color_shoreface"; "color_shelf"; "layer_line_width"; "layer_line_color";
                     "layer_start"; "layer_stop"; "n_layers"; "title"; "x_label"; "y_label"; "legend_location"] -> not_given os toml k) ->
  let set_to k v := in_effect os toml (dget String.eqb (plot_keywords str num) k) k v in
  set_to "color_water" water -> set_to "color_land" land -> set_to "color_shoreface" shoreface -> set_to "color_shelf" shelf ->
  set_to "layer_start" (Scalar start) -> scalar_int start = Some zstart ->
  set_to "layer_stop" (Scalar stop) -> scalar_int stop = Some zstop ->
  set_to "n_layers" (Scalar n) -> scalar_int n = Some zn ->
  set_to "legend_location" legend_at -> set_to "x_label" x_label -> set_to "y_label" y_label -> set_to "title" title ->
  match row with
  | None => not_given os toml "row"
  | Some z => exists s, set_to "row" (Scalar s) /\ scalar_int s = Some z
  end ->
  plot_file_args d row = Ok p -> pa_x p = x0 :: xs ->
  let true_of := truthy scalar_true in
  plot_layers (mkPlotStyle (true_of water) (true_of land) (true_of shoreface) (true_of shelf) zstart zstop zn) p = Ok ds ->
  exists fig, plot_command scalar_true scalar_int parse str num toml (map written os) d = Ok fig
    /\ fig_drawings fig = ds /\ fig_x_label fig = x_label /\ fig_y_label fig = y_label
    /\ fig_title fig = (if true_of title then Some title else None)
    /\ fig_x_limits fig = (x0, last xs x0)
    /\ fig_legend fig =
         (let items := filter (fun rc => true_of (snd rc)) [(Land, land); (Shoreface, shoreface); (Shelf, shelf)] in
          if (true_of legend_at && negb (Nat.eqb (length items) 0))%bool then Some (items, legend_at) else None).
Proof.
  exact (plot_drawn scalar_true scalar_int parse str num toml os d row p ds
    water land shoreface shelf start stop n zstart zstop zn legend_at x_label y_label title x0 xs).
Qed.
Print Assumptions C95_figure.
(** Without any setting: water, land, shoreface and shelf in the documented
    colours, about 5 outlines, a legend at the lower left, no title. *)
Theorem C95_default_figure {S} (scalar_true : S -> bool) (scalar_int : S -> option Z) (parse : string -> result (pyval S)) (str : string -> S) (num : Q -> S)
    (d : dataset R) p ds x0 xs :
  (forall s, scalar_true (str s) = negb (String.eqb s "")) -> (forall z, scalar_int (num (inject_Z z)) = Some z) ->
  plot_file_args d None = Ok p -> pa_x p = x0 :: xs ->
  plot_layers (mkPlotStyle true true true true 0 (-1) 5) p = Ok ds ->
  let rgb r g b := PyTuple [Scalar (num r); Scalar (num g); Scalar (num b)] in
  plot_command scalar_true scalar_int parse str num None [] d
  = Ok (mkFigure ds
      (Some ([(Land, rgb (8 # 10) 1 (8 # 10)); (Shoreface, rgb (8 # 10) (8 # 10) 0); (Shelf, rgb (75 # 100) (1 # 2) (1 # 2))],
             Scalar (str "lower left")))
      (Scalar (str "Distance (m)")) (Scalar (str "Elevation (m)")) None (x0, lastn (pa_x p) None))%Q.
Proof. exact (plot_default scalar_true scalar_int parse str num d p ds x0 xs). Qed.
Print Assumptions C95_default_figure.
(* the output of a run, without land and without outlines *)
Example C95_figure_nonvacuous :
  Forall (valid_setting ex_parse) [mkOption ["color_land"] "" (Scalar (inl "")); mkOption ["n_layers"] "0" (Scalar (inr 0%Q))]
  /\ option_map (fun r => match r with
       | Ok f => Some (map (fun d => match d with Fill r _ _ => Some r | _ => None end) (fig_drawings f),
                       option_map (fun l => map fst (fst l)) (fig_legend f), fig_title f)
       | Err _ => None end) (ex_figure 2 ["color_land="; "n_layers=0"])
     = Some (Some ([Some Shoreface; Some Shoreface; Some Shelf; Some Shelf; None], Some [Shoreface; Shelf], None)).
Proof. exact (conj (proj1 ex_settings) ex_figure_ok). Qed.

(** C103 in full: without settings, a file is drawn or the command aborts with
    a message. *)
Definition C103_statement : Prop := forall (d : dataset R), exists r,
  plot_command ex_true ex_int ex_parse ex_str ex_num None [] d = r /\ (r = Err ClickAbort \/ exists fig, r = Ok fig).
Theorem C103_refuted : ~ C103_statement.
Proof. exact plot_reports_refuted. Qed.
Print Assumptions C103_refuted.
(** Whatever goes wrong with reading a file ends the command: only missing
    variables and rows that do not exist are reported. *)
Theorem C103_partial {S} (scalar_true : S -> bool) (scalar_int : S -> option Z) (parse : string -> result (pyval S)) (str : string -> S) (num : Q -> S)
    (toml : option (list (option R * dict S))) os (d : dataset R) row e :
  Forall (valid_setting parse) os ->
  (forall sections, toml = Some sections -> exists t d0 rest, sections = (t, d0) :: rest /\ proper (PyDict d0)
     /\ forall v, dget String.eqb d0 "plot" = Some v -> exists p, v = PyDict p) ->
  (forall k, ~ In k ["row"; "color_water"; "color_land"; "color_shoreface"; "color_shelf"; "layer_line_width"; "layer_line_color";
                     "layer_start"; "layer_stop"; "n_layers"; "title"; "x_label"; "y_label"; "legend_location"] -> not_given os toml k) ->
  match row with
  | None => not_given os toml "row"
  | Some z => exists s, in_effect os toml None "row" (Scalar s) /\ scalar_int s = Some z
  end ->
  plot_file_args d row = Err e ->
  plot_command scalar_true scalar_int parse str num toml (map written os) d
  = Err (match e with MissingRequiredVariable | InvalidRowError => ClickAbort | e => e end).
Proof. exact (plot_command_fails scalar_true scalar_int parse str num toml os d row e). Qed.
Print Assumptions C103_partial.
(* files without rows, with fewer rows, or without one of these variables *)
Theorem C103_reported_partial {A} `{Num A} (d : dataset A) row :
  dget String.eqb (ds_dims d) "row" = None
  \/ (exists r z, dget String.eqb (ds_dims d) "row" = Some r /\ row = Some z /\ (Z.of_nat r <= z \/ z < - Z.of_nat r)%Z)
  \/ ((forall r z, dget String.eqb (ds_dims d) "row" = Some r -> row = Some z -> (- Z.of_nat r <= z < Z.of_nat r)%Z)
      /\ (dget String.eqb (ds_layers d) "at_layer:thickness" = None \/ dget String.eqb (ds_fields d) "at_row:x_of_shore" = None
          \/ dget String.eqb (ds_fields d) "at_row:x_of_shelf_edge" = None \/ dget String.eqb (ds_fields d) "at_node:bedrock_surface__elevation" = None)) ->
  plot_file_args d row = Err MissingRequiredVariable \/ plot_file_args d row = Err InvalidRowError.
Proof. exact (file_missing d row). Qed.
Print Assumptions C103_reported_partial.
(* a setting that does not exist is an error of the program, not a message *)
Theorem C103_unknown_setting_refuted {S} (scalar_true : S -> bool) (scalar_int : S -> option Z) (parse : string -> result (pyval S)) (str : string -> S) (num : Q -> S)
    (toml : option (list (option R * dict S))) os (d : dataset R) k v p :
  Forall (valid_setting parse) os ->
  (forall sections, toml = Some sections -> exists t d0 rest, sections = (t, d0) :: rest /\ proper (PyDict d0)
     /\ forall v, dget String.eqb d0 "plot" = Some v -> exists p, v = PyDict p) ->
  ~ In k ["row"; "filename"; "color_water"; "color_land"; "color_shoreface"; "color_shelf"; "layer_line_width"; "layer_line_color";
          "layer_start"; "layer_stop"; "n_layers"; "title"; "x_label"; "y_label"; "legend_location"] ->
  in_effect os toml None k v -> not_given os toml "filename" -> not_given os toml "row" -> plot_file_args d None = Ok p ->
  plot_command scalar_true scalar_int parse str num toml (map written os) d = Err TypeError.
Proof. exact (plot_unknown scalar_true scalar_int parse str num toml os d k v p). Qed.
Print Assumptions C103_unknown_setting_refuted.
(* the output of a run of one step; and one without rows *)
Example C103_nonvacuous : ex_figure 0 [] = Some (Err IndexError)
  /\ plot_command ex_true ex_int ex_parse ex_str ex_num None [] (@ds_empty Q) = Err ClickAbort.
Proof. exact (conj ex_figure_one eq_refl). Qed.
