(** Clients: programs that perform a list of operations on a component, one
    after the other, catching exceptions.  Used to state properties about
    histories; no repository code here. *)
From Coq Require Import String List Reals.
From Verif.Base Require Import Num Py Arr.
From Verif.Model Require Import Layers Grid Interp SeaLevel Subsidence Flexure Submarine.
From Verif.Spec Require Import History Diffusion.
Import ListNotations.

(* one operation on a sea-level component; the result also says whether a step
   raised *)
Definition sl_exec (op : sl_op) (c : sea_level_comp R) (g : grid R)
  : sea_level_comp R * grid R * option exn :=
  match op with
  | SlStep dt => sea_level_step dt c g
  | SlSetTime t => (sea_level_set_time t c, g, None)
  | SlSetFile times levels => (sea_level_set_file times levels c, g, None)
  end.

(* run the operations; collect the increment recorded on the grid after every
   step that did not raise *)
Fixpoint sl_run (ops : list sl_op) (c : sea_level_comp R) (g : grid R)
  : sea_level_comp R * grid R * list R :=
  match ops with
  | [] => (c, g, [])
  | op :: ops' =>
      let '(c1, g1, e) := sl_exec op c g in
      let '(c2, g2, incs) := sl_run ops' c1 g1 in
      let new := match op, e with
                 | SlStep _, None =>
                     match gval g1 "sea_level__increment_of_elevation" with
                     | Some v => [v] | None => [] end
                 | _, _ => []
                 end in
      (c2, g2, new ++ incs)
  end.

Definition sub_exec (op : sub_op) (c : subsidence_comp R) (g : grid R)
  : subsidence_comp R * grid R :=
  match op with
  | SubStep dt => match subsidence_step dt c g with Ok cg => cg | Err _ => (c, g) end
  | SubSetFile x y => (fst (subsidence_set_file x y g c), g)
  end.

Definition sub_run (ops : list sub_op) (c : subsidence_comp R) (g : grid R)
  : subsidence_comp R * grid R :=
  fold_left (fun cg op => sub_exec op (fst cg) (snd cg)) ops (c, g).

(* supply deflections to a DynamicFlexure, one (deflection, dt) pair after the
   other; the results are the deflections delivered *)
Fixpoint dyn_run (c : dyn_flexure R) (hist : list (field R * R)) : dyn_flexure R * list (field R) :=
  match hist with
  | [] => (c, [])
  | (d, dt) :: hist' =>
      let '(c1, out) := calc_dynamic_deflection c d dt in
      let '(c2, outs) := dyn_run c1 hist' in
      (c2, out :: outs)
  end.

(* assign densities; a rejected assignment raises and is caught *)
Definition density_exec (op : density_op) (d : densities R) : densities R :=
  let r := match op with
           | SetSand v => set_sand_density v d
           | SetMud v => set_mud_density v d
           | SetWater v => set_water_density v d
           end in
  match r with Ok d' => d' | Err _ => d end.
Definition density_run (ops : list density_op) (d : densities R) : densities R :=
  fold_left (fun d op => density_exec op d) ops d.

(* set the total load field to each given value in turn and step; collect the
   pressure field after every step *)
Fixpoint sed_flexure_run (flexure : field R -> field R) (gravity : R)
    (hist : list (field R * R)) (c : sed_flexure R) (g : grid R)
  : result (sed_flexure R * grid R * list (field R)) :=
  match hist with
  | [] => Ok (c, g, [])
  | (load, dt) :: hist' =>
      let* cg := sed_flexure_step flexure gravity dt c (put_node g TOTAL_LOAD load) in
      let* pressure := node_r (snd cg) PRESSURE in
      let* r := sed_flexure_run flexure gravity hist' (fst cg) (snd cg) in
      let '(c', g', ps) := r in
      Ok (c', g', pressure :: ps)
  end.

(* one operation on a submarine diffuser and its grid; a calculation that
   raises (wrong number of shorelines) does so before anything changes *)
Definition diff_exec (cg : submarine R * grid R) (op : diff_op) : submarine R * grid R :=
  let (c, g) := cg in
  match op with
  | SetPlainSlope v => (set_plain_slope v c, g)
  | SetSedimentLoad v => set_sediment_load v c g
  | SetWaveBase v => (set_wave_base v c, g)
  | SetShorefaceHeight v => (set_shoreface_height v c, g)
  | SetAlpha v => (set_alpha v c, g)
  | SetShelfSlope v => (set_shelf_slope v c, g)
  | SetSeaLevel v => (c, set_sea_level v g)
  | SetTopography z => (c, put_node g TOPO z)
  | Calc shores => match calc_diffusion_coef shores c g with Ok cg' => cg' | Err _ => (c, g) end
  end.
Definition diff_run (ops : list diff_op) (cg : submarine R * grid R) : submarine R * grid R :=
  fold_left diff_exec ops cg.
