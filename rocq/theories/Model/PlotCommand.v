(** sequence/cli.py: the plot command as a whole, and the parts of a figure of
    sequence/plot.py that are not drawn on layers.  Line widths and colours are
    not modelled. *)
From Coq Require Import String Ascii List Bool Arith ZArith QArith.
From Verif.Base Require Import Num Py Arr.
From Verif.Model Require Import Layers Grid Netcdf Plot Config Cli Commands.
Import ListNotations.
Local Open Scope string_scope.
Local Open Scope list_scope.

Section PlotCommand.
  Context {S A : Type} {NA : Num A}.
  (* bool(s) and, for an integer, its value *)
  Context (scalar_true : S -> bool) (scalar_int : S -> option Z).

  Definition truthy (v : pyval S) : bool :=
    match v with
    | Scalar s => scalar_true s
    | PyList [] | PyTuple [] | PyDict [] => false
    | _ => true
    end.
  (* a value that has to be an integer.  Python also takes floats in some
     places: here they are a TypeError. *)
  Definition as_int (v : pyval S) : result Z :=
    match v with
    | Scalar s => match scalar_int s with Some z => Ok z | None => Err TypeError end
    | _ => Err TypeError
    end.

  Record figure : Type := mkFigure {
    fig_drawings : list (drawing (option A));
    fig_legend : option (list (region * pyval S) * pyval S);      (* its entries, with colours, and its place *)
    fig_x_label : pyval S; fig_y_label : pyval S;
    fig_title : option (pyval S);
    fig_x_limits : option A * option A
  }.

  (* sequence/plot.py:20-37: the value of a keyword of plot_layers *)
  Definition keyword (kwds : dict S) (k : string) : result (pyval S) :=
    match dget String.eqb kwds k with Some v => Ok v | None => Err TypeError end.
  Definition style_of (kwds : dict S) : result plot_style :=
    let* water := keyword kwds "color_water" in
    let* land := keyword kwds "color_land" in
    let* shoreface := keyword kwds "color_shoreface" in
    let* shelf := keyword kwds "color_shelf" in
    let* start := let* v := keyword kwds "layer_start" in as_int v in
    let* stop := let* v := keyword kwds "layer_stop" in as_int v in
    let* n := let* v := keyword kwds "n_layers" in as_int v in
    Ok (mkPlotStyle (truthy water) (truthy land) (truthy shoreface) (truthy shelf) start stop n).

  (* sequence/plot.py:159-172: legend, labels, title and limits *)
  Definition legend_of (kwds : dict S) : result (option (list (region * pyval S) * pyval S)) :=
    let* place := keyword kwds "legend_location" in
    let* land := keyword kwds "color_land" in
    let* shoreface := keyword kwds "color_shoreface" in
    let* shelf := keyword kwds "color_shelf" in
    let items := filter (fun rc => truthy (snd rc)) [(Land, land); (Shoreface, shoreface); (Shelf, shelf)] in
    Ok (match truthy place, items with true, _ :: _ => Some (items, place) | _, _ => None end).
  Definition figure_of (kwds : dict S) (p : plot_args (option A)) : result figure :=
    let* st := style_of kwds in
    let* drawings := plot_layers st p in
    let* legend := legend_of kwds in
    let* x_label := keyword kwds "x_label" in
    let* y_label := keyword kwds "y_label" in
    let* title := keyword kwds "title" in
    match pa_x p with
    | [] => Err IndexError
    | x0 :: _ => Ok (mkFigure drawings legend x_label y_label (if truthy title then Some title else None) (x0, lastn (pa_x p) None))
    end.

  (* the keywords that plot_layers takes (sequence/plot.py:20-37) *)
  Definition plot_layers_keywords : list string :=
    ["color_water"; "color_land"; "color_shoreface"; "color_shelf"; "layer_line_width"; "layer_line_color";
     "layer_start"; "layer_stop"; "n_layers"; "title"; "x_label"; "y_label"; "legend_location"].

  (* sequence/plot.py:227-292 plot_file(filename, **config): a keyword of it
     that is given twice (filename) is a TypeError, row is its own, the others
     are for plot_layers, which is called once the file was read *)
  Definition plot_file_with (config : dict S) (d : dataset A) : result figure :=
    if din String.eqb config "filename" then Err TypeError
    else
      let* row := match dget String.eqb config "row" with
                  | None => Ok None
                  | Some v => let* z := as_int v in Ok (Some z)
                  end in
      let* p := plot_file_args d row in
      if forallb (fun k => String.eqb k "row" || mem k plot_layers_keywords)%bool (dkeys config)
      then figure_of config p else Err TypeError.

  (* sequence/cli.py:385-428 plot, for a file that exists: errors of the file
     end the command with a message *)
  Definition plot_command (parse : string -> result (pyval S)) (str : string -> S) (num : Q -> S)
      (toml : option (list (option A * dict S))) (set : list string) (d : dataset A) : result figure :=
    let* config := plot_config parse (plot_keywords str num) toml set in
    match plot_file_with config d with
    | Err MissingRequiredVariable | Err InvalidRowError => Err ClickAbort
    | r => r
    end.
End PlotCommand.
