(** sequence/submarine.py *)
From Coq Require Import String List ZArith QArith Arith Lia.
From Verif.Base Require Import Num Py Arr.
From Verif.Model Require Import Layers Grid Shoreline Flexure.
Import ListNotations.
Local Open Scope num_scope.

Section Submarine.
  Context {A : Type} `{Num A} `{Trans A}.

  Definition KD : string := "kd".
  Definition TOPO : string := "topographic__elevation".
  Definition DEPOSIT : string := "sediment_deposit__thickness".
  Definition SEALEVEL : string := "sea_level__elevation".

  (** The attributes of a SubmarineDiffuser (sequence/submarine.py:92-112).
      [sb_init_sea_level] is self._sea_level, the value read back from the grid
      at construction (line 104); landlab replaces the stored value on every
      later assignment, so the attribute keeps the value of that moment. *)
  Record submarine : Type := mkSub {
    sb_plain_slope : A;
    sb_wave_base : A;
    sb_shoreface_height : A;
    sb_alpha : A;
    sb_shelf_slope : A;
    sb_load0 : A;
    sb_load_sl : A;
    sb_init_sea_level : A;
    sb_load : A;
    sb_ksh : A;
    sb_basin_width : A;
    sb_time : A
  }.

  (* the keyword arguments of __init__ (sequence/submarine.py:48-61) *)
  Record sub_params : Type := mkSubParams {
    p_sea_level : A; p_plain_slope : A; p_wave_base : A; p_shoreface_height : A;
    p_alpha : A; p_shelf_slope : A; p_sediment_load : A; p_load_sealevel : A; p_basin_width : A
  }.

  (* sequence/submarine.py:92-115 __init__.  The division by plain_slope is
     between Python floats, so zero raises.  The construction of the parent
     LinearDiffuser (line 115) is not modelled. *)
  Definition submarine_init (p : sub_params) (g : grid A) : result (submarine * grid A) :=
    let load := p_sediment_load p * (n1 + p_sea_level p * p_load_sealevel p) in
    if p_plain_slope p =? n0 then Err ZeroDivisionError
    else
      let c := mkSub (p_plain_slope p) (p_wave_base p) (p_shoreface_height p) (p_alpha p)
                 (p_shelf_slope p) (p_sediment_load p) (p_load_sealevel p) (p_sea_level p)
                 load (load / p_plain_slope p) (p_basin_width p) n0 in
      let g1 := put_gval (put_gval g SEALEVEL (p_sea_level p)) "sediment_load" load in
      let g2 := ensure_node g1 KD in
      Ok (c, ensure_node g2 DEPOSIT).

  (* helper: replace the fields that the setters touch *)
  Definition sb_with (c : submarine) (plain_slope load0 load ksh : A) : submarine :=
    mkSub plain_slope (sb_wave_base c) (sb_shoreface_height c) (sb_alpha c) (sb_shelf_slope c)
      load0 (sb_load_sl c) (sb_init_sea_level c) load ksh (sb_basin_width c) (sb_time c).

  (* sequence/submarine.py:122-125.  The current load may be a numpy scalar, in
     which case a zero slope gives an infinity instead of an exception; the
     model's division is only meaningful for a nonzero slope. *)
  Definition set_plain_slope (v : A) (c : submarine) : submarine :=
    sb_with c v (sb_load0 c) (sb_load c) (sb_load c / v).
  (* sequence/submarine.py:132-134 *)
  Definition set_wave_base (v : A) (c : submarine) : submarine :=
    mkSub (sb_plain_slope c) v (sb_shoreface_height c) (sb_alpha c) (sb_shelf_slope c)
      (sb_load0 c) (sb_load_sl c) (sb_init_sea_level c) (sb_load c) (sb_ksh c) (sb_basin_width c) (sb_time c).
  (* sequence/submarine.py:141-143 *)
  Definition set_shoreface_height (v : A) (c : submarine) : submarine :=
    mkSub (sb_plain_slope c) (sb_wave_base c) v (sb_alpha c) (sb_shelf_slope c)
      (sb_load0 c) (sb_load_sl c) (sb_init_sea_level c) (sb_load c) (sb_ksh c) (sb_basin_width c) (sb_time c).
  (* sequence/submarine.py:150-152 *)
  Definition set_alpha (v : A) (c : submarine) : submarine :=
    mkSub (sb_plain_slope c) (sb_wave_base c) (sb_shoreface_height c) v (sb_shelf_slope c)
      (sb_load0 c) (sb_load_sl c) (sb_init_sea_level c) (sb_load c) (sb_ksh c) (sb_basin_width c) (sb_time c).
  (* sequence/submarine.py:159-161 *)
  Definition set_shelf_slope (v : A) (c : submarine) : submarine :=
    mkSub (sb_plain_slope c) (sb_wave_base c) (sb_shoreface_height c) (sb_alpha c) v
      (sb_load0 c) (sb_load_sl c) (sb_init_sea_level c) (sb_load c) (sb_ksh c) (sb_basin_width c) (sb_time c).
  (* sequence/submarine.py:168-173 *)
  Definition set_sediment_load (v : A) (c : submarine) (g : grid A) : submarine * grid A :=
    let load := v * (n1 + sb_init_sea_level c * sb_load_sl c) in
    (sb_with c (sb_plain_slope c) v load (load / sb_plain_slope c), put_gval g "sediment_load" load).
  (* sequence/submarine.py:195-197 *)
  Definition set_sea_level (v : A) (g : grid A) : grid A := put_gval g SEALEVEL v.

  (* sequence/submarine.py:268-269: the load and the land coefficient are
     refreshed inside the row loop *)
  Definition refresh_load (sea_level : A) (c : submarine) : submarine :=
    let load := sb_load0 c * (n1 + sea_level * sb_load_sl c) in
    sb_with c (sb_plain_slope c) (sb_load0 c) load (load / sb_plain_slope c).

  (* sequence/submarine.py:250-280 for one node of one row.  [load] is
     self._load as the row starts, [ksh] the refreshed self._ksh. *)
  Definition kd_node (c : submarine) (load ksh dx x_of_shore : A) (in_channel : bool)
      (x water_depth k : A) : A :=
    let under_water := n0 <? water_depth in
    let deep_water := sb_wave_base c <? water_depth in
    let b := (sb_shoreface_height c * sb_alpha c + sb_shelf_slope c) * dx in
    let k := if under_water then load * ((x - x_of_shore) + dx) / (water_depth + b) else k in
    let k := if deep_water
             then k * nexp (- (water_depth - sb_wave_base c) / sb_wave_base c) else k in
    let k := if under_water then k
             else if n0 <? sb_basin_width c then ksh * (sb_basin_width c + x) / sb_basin_width c
             else ksh in
    if (negb in_channel && negb under_water)%bool then k * nlit (1 # 2) else k.

  (* sequence/submarine.py:249-280, the row loop *)
  Fixpoint kd_rows (c : submarine) (sea_level dx : A) (x : list A) (n_rows row : nat)
      (shores : list A) (zs ks : field A) : submarine * field A :=
    match shores, zs, ks with
    | shore :: shores', z :: zs', k :: ks' =>
        let c' := refresh_load sea_level c in
        let k' := zipw (fun xj zk => kd_node c (sb_load c) (sb_ksh c') dx shore
                                       (Nat.eqb row (Nat.div2 n_rows)) xj (sea_level - fst zk) (snd zk))
                    x (combine z k) in
        let '(c'', rest) := kd_rows c' sea_level dx x n_rows (S row) shores' zs' ks' in
        (c'', k' :: rest)
    | _, _, _ => (c, [])
    end.

  (* k[0, :] = k[1, :]; k[-1, :] = k[-1, :]  (sequence/submarine.py:300-302) *)
  Definition mirror_boundary (k : field A) : field A :=
    let k := lset k 0 (nth 1 k []) in
    lset k (length k - 1) (nth (length k - 1) k []).

  (* sequence/submarine.py:199-304 calc_diffusion_coef *)
  Definition calc_diffusion_coef (x_of_shore : list A) (c : submarine) (g : grid A)
    : result (submarine * grid A) :=
    let* sea_level := gval_r g SEALEVEL in
    let* z := get_profile g TOPO in
    let* k := get_profile g KD in
    if negb (Nat.eqb (length x_of_shore) (length k)) then Err AssertionError
    else
      let '(c', k') := kd_rows c sea_level (g_dx g) (x_of_column g) (length k) 0 x_of_shore z k in
      let* g' := set_profile g KD k' in
      let* kd := node_r g' KD in
      Ok (c', put_node g' KD (mirror_boundary kd)).

  (* sequence/submarine.py:323-330: the upstream boundary column.  z[1, 0] is
     assigned twice with the same value (lines 328 and 330). *)
  Definition set_upstream (slope : A) (x : list A) (z : field A) : field A :=
    set_inner z (map (fun row => lset row 0 (nth 1 row n0 + slope * (nth 1 x n0 - nth 0 x n0))) (inner z)).

  (* sequence/submarine.py:306-341 run_one_step.  [interp1d] as in
     find_shoreline; [diffuse dt kd z] is the topography that landlab's
     LinearDiffuser.run_one_step (line 334) leaves, an arbitrary function. *)
  Definition submarine_step (interp1d : list A -> list A -> result (A -> A))
      (diffuse : A -> field A -> field A -> field A) (dt : A) (c : submarine) (g : grid A)
    : result (submarine * grid A) :=
    let* z := get_profile g TOPO in
    let* sea_level := gval_r g SEALEVEL in
    let* shore := mapM (fun row => find_shoreline interp1d (x_of_column g) row sea_level) z in
    let* cg := calc_diffusion_coef shore c g in
    let (c1, g1) := cg in
    let* z1 := node_r g1 TOPO in
    let x := x_of_column g1 in
    if Nat.ltb (g_cols g1) 2 then Err IndexError
    else
      let z_before := set_upstream (sb_plain_slope c1) x z1 in
      let* kd := node_r g1 KD in
      let z_after := diffuse dt kd z_before in
      let dz := fmap2 nsub z_after z_before in
      let g2 := put_node g1 TOPO z_before in
      let* deposit := node_r g2 DEPOSIT in
      let c2 := mkSub (sb_plain_slope c1) (sb_wave_base c1) (sb_shoreface_height c1) (sb_alpha c1)
                  (sb_shelf_slope c1) (sb_load0 c1) (sb_load_sl c1) (sb_init_sea_level c1)
                  (sb_load c1) (sb_ksh c1) (sb_basin_width c1) (sb_time c1 + dt) in
      Ok (c2, put_node g2 DEPOSIT (fmap2 nadd deposit dz)).
End Submarine.
Arguments submarine : clear implicits.
Arguments sub_params : clear implicits.
