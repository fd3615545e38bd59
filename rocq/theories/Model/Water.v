(** WaterFlexure as a process of a model made from parameters:
    sequence/sediment_flexure.py:126-264 and its base class (:16-123), created
    by sequence/sequence_model.py:257,262-264 and assigned to by :286-297. *)
From Coq Require Import String List ZArith QArith Bool.
From Verif.Base Require Import Num Py Arr.
From Verif.Model Require Import Layers Grid Flexure Setattr Processes SequenceModel Whole.
Import ListNotations.
Local Open Scope string_scope.

(* landlab's Flexure1D, as WaterFlexure uses it: calc_flexure(x, load, alpha,
   rigidity), and its attributes alpha, gamma_mantle, rho_water and gravity.
   They depend on the keywords that it was given. *)
Record plate (A : Type) : Type := mkPlate {
  pt_flexure : kwds A -> list A -> field A -> field A;
  pt_alpha : kwds A -> A; pt_gamma_mantle : kwds A -> A; pt_rho_water : kwds A -> A; pt_gravity : kwds A -> A
}.
Arguments pt_flexure {A}. Arguments pt_alpha {A}. Arguments pt_gamma_mantle {A}. Arguments pt_rho_water {A}. Arguments pt_gravity {A}.

Section Water.
  Context {A : Type} {num : Num A} {tr : Trans A}.

  (* the keywords that Flexure1D was given, and the rest *)
  Record water : Type := mkWater { wf_kwds : kwds A; wf_dyn : dyn_flexure A }.

  (* sequence/sediment_flexure.py:129-134,41: method and rows are given already, so
     that giving them again is a TypeError *)
  Definition water_parameters : list string := "isostasytime" :: flexure1d.
  (* sequence/sediment_flexure.py:148-160.  The increment of the lithosphere is a
     field that Flexure1D declares and makes; WaterFlexure has no declaration
     of its own. *)
  Definition water_init (isostasytime : A) (g : grid A) : result (dyn_flexure A * grid A) :=
    let g := ensure_node g PRESSURE in
    let g := ensure_node g WATER_DEPTH_INC in
    let g := match gval g "sea_level__increment_of_elevation" with
             | Some _ => g
             | None => put_gval g "sea_level__increment_of_elevation" n0
             end in
    let* dyn := dyn_init (Some isostasytime) (g_rows g) (g_cols g) in
    let g := ensure_node g LITHO in
    let g := ensure_node g BEDROCK_INC in
    Ok (dyn, g).
  Definition water_make (p : kwds A) (g : grid A) : result (water * grid A) :=
    if negb (forallb (fun kv => existsb (String.eqb (fst kv)) water_parameters) p) then Err TypeError
    else
      let* isostasytime := kwd p "isostasytime" (nlit 7000) in
      let* (dyn, g) := water_init isostasytime g in
      Ok (mkWater (passed_on p) dyn, g).

  (* an array of that many rows and columns *)
  Definition is_shaped (n m : nat) (f : field A) : bool :=
    Nat.eqb (length f) n && forallb (fun r => Nat.eqb (length r) m) f.
  (* sequence/sediment_flexure.py:229-264; numpy adds arrays of the same shape *)
  Definition water_step (P : plate A) (dt : A) (wg : water * grid A) : result (water * grid A) :=
    let (w, g) := wg in
    let k := wf_kwds w in
    if negb (is_shaped (g_rows g) (g_cols g) (df_pool (wf_dyn w))) then Err ValueError
    else
      let* (dyn, g) := water_flexure_step (pt_flexure P k (x_of_column g)) (pt_alpha P k) (pt_gamma_mantle P k)
                         (pt_rho_water P k) (pt_gravity P k) dt (wf_dyn w) g in
      Ok (mkWater k dyn, g).

  (* setattr: sequence/sediment_flexure.py:71-74; the others are properties of
     Flexure1D, as in Model/Setattr.v *)
  Definition water_set (name : string) (v : pvalue A) (wg : water * grid A) : result (water * grid A) :=
    let (w, g) := wg in
    if String.eqb name "isostasy_time" then Err AttributeError
    else if existsb (String.eqb name) ("method" :: flexure1d) then
      Ok (mkWater (those_of (flexure1d ++ ["method"]) (dset String.eqb (wf_kwds w) name v)) (wf_dyn w), g)
    else Ok wg.

  (* the externals of Model/Whole.v, with WaterFlexure no longer one of them:
     what remains is Compact *)
  Definition with_water {X} (P : plate A) (E : externals A X) : externals A (water + X) :=
    mkExternals A (water + X) (ex_interp1d E) (ex_diffuse E) (ex_flexure E) (ex_gravity E)
      (fun cls p g =>
         if String.eqb cls "WaterFlexure" then let* (w, g) := water_make p g in Ok (inl w, g)
         else let* (x, g) := ex_make E cls p g in Ok (inr x, g))
      (fun dt xg => match fst xg with
                    | inl w => let* (w, g) := water_step P dt (w, snd xg) in Ok (inl w, g)
                    | inr x => let* (x, g) := ex_step E dt (x, snd xg) in Ok (inr x, g)
                    end)
      (fun n v xg => match fst xg with
                     | inl w => let* (w, g) := water_set n v (w, snd xg) in Ok (inl w, g)
                     | inr x => let* (x, g) := ex_set E n v (x, snd xg) in Ok (inr x, g)
                     end)
      (fun x => match x with inl _ => nlit (1 # 2) | inr x => ex_porosity_max E x end).
End Water.
Arguments water : clear implicits.
