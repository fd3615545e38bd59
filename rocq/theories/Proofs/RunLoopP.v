(** Proofs about the configuration of sequence run. *)
From Coq Require Import String Ascii List Bool Arith Lia Reals Lra Permutation.
From Verif.Base Require Import Num Py.
From Verif.Model Require Import Shoreline Config Cli.
From Verif.Model Require Processes.
From Verif.Spec Require Import Profile Sections Parameters CommandLine.
From Verif.Proofs Require Import ShorelineP ProcessesP ConfigP TimeVaryingP ConfigEx CliP.
Import ListNotations.
Local Open Scope R_scope.
Local Open Scope string_scope.
Local Open Scope list_scope.

Section Solid.
  Context {S : Type}.
  Implicit Types d : dict S.

  Lemma solid_dict d : solid (PyDict d) <-> d <> [] /\ Forall (fun kv => solid (snd kv)) d.
  Proof.
    assert (X : (fix all d := match d with [] => True | kv :: d => solid (snd kv) /\ all d end) d <-> Forall (fun kv => solid (snd kv)) d).
    { induction d as [|kv d IH]; [split; [constructor|exact (fun _ => I)]|]. rewrite IH. split.
      - intros [H1 H2]. constructor; assumption.
      - intros H. split; [exact (Forall_inv H)|exact (Forall_inv_tail H)]. }
    cbn. rewrite <- X. reflexivity.
  Qed.
  Lemma dset_solid d k v : Forall (fun kv => solid (snd kv)) d -> solid v -> Forall (fun kv => solid (snd kv)) (dset String.eqb d k v).
  Proof.
    intros F Hv. induction d as [|[k' v'] d IH]; cbn; [constructor; [exact Hv|constructor]|]. inversion F; subst.
    destruct (String.eqb k k'); constructor; auto.
  Qed.
  Definition no_dict (v : pyval S) : Prop := match v with PyDict _ => False | _ => True end.
  Lemma add_item_solid p v d e : no_dict v -> Forall (fun kv => solid (snd kv)) d -> add_item p v d = Ok e -> Forall (fun kv => solid (snd kv)) e /\ e <> [].
  Proof.
    intros Nv. revert d e. induction p as [|k [|k1 p] IH]; intros d e F E; [discriminate E| |].
    - cbn in E. assert (X : e = dset String.eqb d k (as_list v)) by congruence. subst e. split; [|apply dset_ne].
      apply dset_solid; [exact F|]. destruct v; cbn; try exact I. destruct Nv.
    - rewrite add_item_cons in E.
      destruct (dget String.eqb d k) as [[s|l|l|sub]|] eqn:Eg; try discriminate E.
      + destruct (add_item (k1 :: p) v sub) as [s|] eqn:Ea; [|discriminate E]. cbn [bind] in E.
        assert (X : e = dset String.eqb d k (PyDict s)) by congruence. subst e. split; [|apply dset_ne].
        assert (Ig := dget_in _ seqb_spec _ _ _ Eg). rewrite Forall_forall in F. assert (Fs := F _ Ig). cbn [snd] in Fs. apply solid_dict in Fs.
        destruct (IH sub s (proj2 Fs) Ea) as [Q1 Q2]. apply dset_solid; [apply Forall_forall, F|]. apply solid_dict. auto.
      + destruct (add_item (k1 :: p) v []) as [s|] eqn:Ea; [|discriminate E]. cbn [bind] in E.
        assert (X : e = dset String.eqb d k (PyDict s)) by congruence. subst e. split; [|apply dset_ne].
        destruct (IH [] s (Forall_nil _) Ea) as [Q1 Q2]. apply dset_solid; [exact F|]. apply solid_dict. auto.
  Qed.
  Lemma expand_solid (m : flat S) e : Forall (fun kv => no_dict (snd kv)) m -> expand_dict m = Ok e -> Forall (fun kv => solid (snd kv)) e.
  Proof.
    unfold expand_dict. assert (G : forall l d, Forall (fun kv => no_dict (snd kv)) l -> Forall (fun kv => solid (snd kv)) d ->
      forall e, foldM (fun d kv => add_item (fst kv) (snd kv) d) l d = Ok e -> Forall (fun kv => solid (snd kv)) e).
    { induction l as [|[p v] l IH]; intros d N F x E; cbn in E; [inversion E; subst; exact F|]. inversion N; subst. cbn [fst snd] in *.
      destruct (add_item p v d) as [d1|] eqn:Ea; [|discriminate E]. apply (IH d1); [assumption| |exact E].
      apply (add_item_solid p v d d1); assumption. }
    intros N E. exact (G m [] N (Forall_nil _) e E).
  Qed.

  Lemma solid_leaf (v : pyval S) : solid v -> forall d, v = PyDict d -> exists path x, leaf_at d path = Some x.
  Proof.
    induction v as [s|l|l|d IH] using pyval_ind'; intros So d' E; try discriminate E. assert (X : d = d') by congruence. subst d'.
    apply solid_dict in So. destruct So as [N F]. destruct d as [|[k v] d]; [congruence|]. inversion F as [|? ? F1 _]; subst. inversion IH as [|? ? I1 _]; subst.
    cbn [snd] in *. destruct v as [s|l|l|sub].
    1-3: eexists [k], _; cbn; rewrite String.eqb_refl; reflexivity.
    destruct (I1 F1 sub eq_refl) as [path [x Ex]]. exists (k :: path), x. cbn. rewrite String.eqb_refl. exact Ex.
  Qed.

  Lemma leaf_under d k sub path : dget String.eqb d k = Some (PyDict sub) -> leaf_at d (k :: path) = leaf_at sub path.
  Proof. intros E. cbn. rewrite E. reflexivity. Qed.

  (* a dictionary of values two deep is a context *)
  Lemma two_deep (ok : string -> Prop) d : proper (PyDict d) -> Forall (fun kv => solid (snd kv)) d ->
    (forall path v, leaf_at d path = Some v -> exists p k, path = [p; k] /\ ok p) ->
    exists ctx : Processes.context (pyval S), d = map (fun pc => (fst pc, PyDict (snd pc))) ctx
      /\ NoDup (dkeys ctx) /\ Forall (fun nv => NoDup (dkeys (snd nv))) ctx /\ (forall p, In p (dkeys ctx) -> ok p)
      /\ forall p k, value ctx p k = leaf_at d [p; k].
  Proof.
    intros P F L. assert (Pd := P). apply proper_dict in P. destruct P as [N P].
    assert (G : forall k v, In (k, v) d -> exists sub, v = PyDict sub /\ ok k /\ NoDup (dkeys sub) /\ Forall (fun kw => no_dict (snd kw)) sub).
    { intros k v I. assert (E := dget_in_nodup _ seqb_spec _ _ _ N I). rewrite Forall_forall in F, P. assert (Fv := F _ I). assert (Pv := P _ I). cbn [snd] in Fv, Pv.
      destruct v as [s|l|l|sub].
      1-3: destruct (L [k] _ ltac:(cbn; rewrite E; reflexivity)) as [p [k' [Q _]]]; discriminate Q.
      exists sub. split; [reflexivity|]. destruct (solid_leaf _ Fv sub eq_refl) as [path [x Ex]].
      destruct (L (k :: path) x ltac:(rewrite (leaf_under d k sub path E); exact Ex)) as [p [k' [Q O]]]. assert (X : k = p) by congruence. subst p.
      split; [exact O|]. apply proper_dict in Pv. destruct Pv as [Nv Pv]. split; [exact Nv|]. apply Forall_forall. intros [k2 w] I2. cbn [snd].
      destruct w as [s|l|l|w]; try exact Logic.I. apply solid_dict in Fv. destruct Fv as [_ Fv]. rewrite Forall_forall in Fv. assert (Fw := Fv _ I2).
      destruct (solid_leaf _ Fw w eq_refl) as [path2 [y Ey]]. assert (E2 := dget_in_nodup _ seqb_spec _ _ _ Nv I2).
      destruct (L (k :: k2 :: path2) y) as [p [k3 [Q3 _]]]; [rewrite (leaf_under d k sub _ E), (leaf_under sub k2 w _ E2); exact Ey|].
      assert (Z : path2 = []) by congruence. subst path2. discriminate Ey. }
    clear F P L. exists (map (fun kv => (fst kv, match snd kv with PyDict sub => sub | _ => [] end)) d).
    assert (K : forall {X} (f : string * pyval S -> X), dkeys (map (fun kv => (fst kv, f kv)) d) = dkeys d).
    { intros X f. unfold dkeys. rewrite map_map. reflexivity. }
    split; [|split; [rewrite K; exact N|split; [|split]]].
    - rewrite map_map. rewrite <- (map_id d) at 1. apply map_ext_in. intros [k v] I. cbn. destruct (G k v I) as [sub [-> _]]. reflexivity.
    - apply Forall_map, Forall_forall. intros [k v] I. cbn. destruct (G k v I) as [sub [-> [_ [H _]]]]. exact H.
    - intros p I. rewrite K in I. unfold dkeys in I. apply in_map_iff in I. destruct I as [[k v] [<- I]]. destruct (G k v I) as [sub [_ [O _]]]. exact O.
    - intros p k. unfold value.
      assert (Z : dget String.eqb (map (fun kv => (fst kv, match snd kv with PyDict sub => sub | _ => [] end)) d) p
                  = option_map (fun v => match v with PyDict sub => sub | _ => [] end) (dget String.eqb d p)).
      { clear. induction d as [|[k' v] d IH]; cbn; [reflexivity|]. destruct (String.eqb p k'); [reflexivity|exact IH]. }
      etransitivity; [exact (f_equal (fun o => match o with Some x => dget String.eqb x k | None => None end) Z)|]. clear Z. cbn [leaf_at]. destruct (dget String.eqb d p) as [v|] eqn:E; [|reflexivity]. cbn [option_map].
      destruct (G p v (dget_in _ seqb_spec _ _ _ E)) as [sub [-> [_ [_ Hs]]]]. destruct (dget String.eqb sub k) as [w|] eqn:Ew; [|reflexivity].
      apply (dget_in _ seqb_spec) in Ew. rewrite Forall_forall in Hs. apply Hs in Ew. destruct w; try reflexivity. destruct Ew.
  Qed.

  Lemma set_params_context {P} (setattr : P -> string -> pyval S -> result P) (ctx : Processes.context (pyval S)) components :
    set_params setattr components (map (fun pc => (fst pc, PyDict (snd pc))) ctx) = Processes.set_params setattr components ctx.
  Proof.
    unfold set_params, Processes.set_params. revert components. induction ctx as [|[p vals] ctx IH]; intros cs; [reflexivity|]. cbn [map foldM fst snd].
    destruct (dget String.eqb cs p); [|reflexivity]. destruct (foldM _ vals p0); [|reflexivity]. cbn [bind]. apply IH.
  Qed.

  (** in_force changes only because of a later section *)
  Lemma in_force_tail (t0 a b : R) (d0 : dict S) times ds path : t0 <= a -> t0 <= b ->
    (forall d, In d ds -> says d path = None) ->
    in_force (combine (t0 :: times) (d0 :: ds)) a path = in_force (combine (t0 :: times) (d0 :: ds)) b path.
  Proof.
    intros Ha Hb H. unfold in_force. cbn [combine fold_left fst snd].
    destruct (Rle_dec t0 a); [|lra]. destruct (Rle_dec t0 b); [|lra]. generalize (match says d0 path with Some v' => Some v' | None => None end).
    revert ds H. induction times as [|t times IH]; intros ds H x; [reflexivity|]. destruct ds as [|d ds]; [reflexivity|].
    cbn [combine fold_left fst snd]. rewrite (H d (or_introl eq_refl)). destruct (Rle_dec t a), (Rle_dec t b); apply IH; intros d' I; apply H; right; exact I.
  Qed.
  Lemma says_dec (ds : list (dict S)) path : (forall d, In d ds -> says d path = None) \/ exists d v, In d ds /\ leaf_at d path = Some v.
  Proof.
    induction ds as [|d ds IH]; [left; intros d []|]. destruct (leaf_at d path) as [v|] eqn:E; [right; exists d, v; split; [left; reflexivity|exact E]|].
    destruct IH as [IH|[d' [v [I Ev]]]]; [left|right; exists d', v; split; [right; exact I|exact Ev]].
    intros d' [<-|I]; [unfold says; rewrite E; reflexivity|apply IH, I].
  Qed.
End Solid.

Section Run.
  Context {S : Type} (seqb : S -> S -> bool) (set_order : flat S -> flat S).
  Hypothesis seqb_ok : forall a b, seqb a b = true <-> a = b.
  Hypothesis set_ok : forall l, Permutation (set_order l) l.
  Implicit Types (dicts : list (dict S)) (c : config S R).

  Lemma run_loop_updates {M} (step : M -> result M) (setp : M -> dict S -> result M) n m c ds c' :
    updates seqb set_order (repeat 1 n) c = Ok (ds, c') ->
    run_loop seqb set_order step setp n (m, c) = let* m := foldM (fun m d => let* m := step m in setp m d) ds m in Ok (m, c').
  Proof.
    revert m c ds c'. induction n as [|n IH]; cbn [repeat updates run_loop]; intros m c ds c' E; [inversion E; reflexivity|].
    cbn [fst snd]. rewrite n1_R. destruct (update seqb set_order 1 c) as [[d c1]|e]; [|discriminate E]. cbn [bind] in E.
    destruct (updates seqb set_order (repeat 1 n) c1) as [[ds1 c2]|e] eqn:E1; [|discriminate E]. cbn [bind fst snd] in E.
    assert (X : ds = d :: ds1) by congruence. assert (Y : c' = c2) by congruence. subst. cbn [foldM].
    destruct (step m) as [m1|e]; [|reflexivity]. cbn [bind fst snd]. destruct (setp m1 d) as [m2|e]; [|reflexivity]. cbn [bind].
    apply (IH m2 c1 ds1 c2 E1).
  Qed.

  Lemma total_repeat n : total (repeat 1 n) = INR n.
  Proof.
    induction n as [|n IH]; [reflexivity|]. change (total (repeat 1 (Datatypes.S n))) with (1 + total (repeat 1 n)). rewrite IH, S_INR. lra.
  Qed.
  Lemma firstn_repeat {X} (x : X) n k : (k <= n)%nat -> firstn k (repeat x n) = repeat x k.
  Proof. revert k. induction n as [|n IH]; intros [|k] L; cbn; try reflexivity; try lia. f_equal. apply IH. lia. Qed.

  (* one section in each file *)
  Lemma run_config_single times dicts c (ts : list (option R)) : length ts = length dicts ->
    run_config times (map (fun td => [td]) (combine ts dicts)) = Ok c -> config_init (map INR times) dicts = Ok c.
  Proof.
    intros L. unfold run_config, from_files. destruct times as [|t times]; [discriminate|].
    assert (X : flat_map (fun f => map snd (load_sections f)) (map (fun td => [td]) (combine ts dicts)) = dicts).
    { revert ts L. induction dicts as [|d dicts IH]; intros [|x ts] L; cbn in L |- *; try lia; [reflexivity|]. f_equal. apply IH. lia. }
    rewrite X. intros E. rewrite <- E. f_equal. apply map_ext. intros n. symmetry. apply nofnat_R.
  Qed.

  Lemma sorted_INR times : (forall i j, (i < j < length times)%nat -> (nth i times 0 <= nth j times 0)%nat) -> sorted (map INR times).
  Proof.
    intros H i j L. rewrite map_length in L.
    assert (E : forall k, nth k (map INR times) 0 = INR (nth k times 0%nat)) by (intros k; exact (map_nth INR times 0%nat k)).
    rewrite !E. apply le_INR. destruct (Nat.eq_dec i j) as [->|N]; [lia|]. apply H. lia.
  Qed.

  (* C52 for files with one section *)
  Theorem run_differences times dicts c (ts : list (option R)) n {M} (step : M -> result M) (setp : M -> dict S -> result M) m :
    plain_sections dicts -> length ts = length dicts ->
    hd 1%nat times = 0%nat -> Forall (fun t => (0 < t)%nat) (tl times) -> (forall i j, (i < j < length times)%nat -> (nth i times 0 <= nth j times 0)%nat) ->
    run_config times (map (fun td => [td]) (combine ts dicts)) = Ok c ->
    let at_step k := in_force (combine (map INR times) dicts) (INR k) in
    exists ds c', length ds = n
      /\ (forall k, (k < n)%nat -> reports_change (at_step k) (at_step (Datatypes.S k)) (nth k ds []))
      /\ run_loop seqb set_order step setp n (m, c) = let* m := foldM (fun m d => let* m := step m in setp m d) ds m in Ok (m, c').
  Proof.
    intros Hp Lt H0 Hr Hs E at_step. destruct times as [|t0 times]; [discriminate E|]. cbn [hd tl] in *. subst t0.
    apply run_config_single in E; [|exact Lt].
    assert (Hs' := sorted_INR _ Hs). cbn [map] in *. change (INR 0) with 0 in *.
    assert (Fi : Forall (fun inc => 0 <= inc) (repeat 1 n)) by (apply Forall_forall; intros x I; apply repeat_spec in I; lra).
    assert (Fr : Forall (fun t => 0 < t) (map INR times)).
    { apply Forall_map. revert Hr. apply Forall_impl. intros t L. apply lt_0_INR, L. }
    destruct (updates_init seqb set_order 0 (map INR times) dicts c (repeat 1 n) seqb_ok set_ok Hp (Rle_refl 0) Fr Hs' Fi E)
      as [ds [c' [e [Eu [_ [_ [Ld R]]]]]]].
    rewrite repeat_length in Ld. exists ds, c'. split; [exact Ld|]. split; [|apply run_loop_updates, Eu].
    intros k L. specialize (R k). rewrite repeat_length, !firstn_repeat, !total_repeat in R by lia. apply (R L).
  Qed.

  Lemma update_solid times dicts c inc d c' : plain_sections dicts -> made c times dicts ->
    update seqb set_order inc c = Ok (d, c') -> Forall (fun kv => solid (snd kv)) d.
  Proof.
    intros Hp M. unfold update. destruct (Nat.ltb _ _); [|intros E; inversion E; constructor].
    destruct (diff_spec seqb seqb_ok set_order set_ok c times dicts (tv_time c) (nadd (tv_time c) inc) M Hp) as [items [E1 [[Ni D] _]]].
    rewrite E1. cbn [bind].
    destruct (expand_dict items) as [e|] eqn:Ee; [|discriminate]. cbn [bind]. intros E. assert (X : d = e) by congruence. subst e.
    apply (expand_solid items d); [|exact Ee]. apply Forall_forall. intros [k v] I. cbn [snd].
    apply (dget_in_nodup _ path_eqb_spec) in I; [|exact Ni]. destruct (D k v I) as [d1 [v0 [_ [El ->]]]].
    assert (Fv : forall w, leaf_at d1 k = Some w -> no_dict w).
    { clear. revert d1. induction k as [|a k IH]; intros d1 w; [discriminate|]. cbn. destruct (dget String.eqb d1 a) as [[s|l|l|sub]|]; try discriminate.
      1-3: destruct k; [intros E; inversion E; exact Logic.I|discriminate].
      apply IH. }
    apply Fv in El. destruct v0; try exact Logic.I. destruct El.
  Qed.

  Lemma set_params_difference t0 times d0 ds a b (m : Processes.context (pyval S)) d :
    t0 <= a -> t0 <= b -> proper (PyDict d) -> Forall (fun kv => solid (snd kv)) d ->
    later_sections_fit (dkeys m) (d0 :: ds) ->
    reports_change (in_force (combine (t0 :: times) (d0 :: ds)) a) (in_force (combine (t0 :: times) (d0 :: ds)) b) d ->
    agrees (in_force (combine (t0 :: times) (d0 :: ds)) a) m ->
    exists m', set_params store m d = Ok m' /\ dkeys m' = dkeys m /\ agrees (in_force (combine (t0 :: times) (d0 :: ds)) b) m'
      /\ forall p k, (forall d1, In d1 ds -> leaf_at d1 [p; k] = None) -> value m' p k = value m p k.
  Proof.
    intros Ha Hb P So Fit R Ag.
    assert (L : forall path v, leaf_at d path = Some v -> exists p k, path = [p; k] /\ In p (dkeys m)).
    { intros path v E. destruct (R path) as [[_ Q]|[Q _]]; [congruence|]. destruct (says_dec ds path) as [N|[d1 [v1 [I E1]]]].
      - destruct Q. apply in_force_tail; assumption.
      - exact (Fit d1 path v1 I E1). }
    destruct (two_deep (fun p => In p (dkeys m)) d P So L) as [ctx [-> [N [F [K V]]]]].
    rewrite set_params_context. destruct (set_params_ok ctx N F m K) as [m' [E [Ek Ev]]]. exists m'. split; [exact E|]. split; [exact Ek|]. split.
    - intros p k I Ne. rewrite Ek in I. rewrite Ev, V. destruct (R [p; k]) as [[Q1 Q2]|[Q1 Q2]]; rewrite Q2.
      + rewrite <- Q1 in Ne |- *. apply Ag; assumption.
      + destruct (in_force (combine (t0 :: times) (d0 :: ds)) b [p; k]); [reflexivity|congruence].
    - intros p k H. rewrite Ev, V. destruct (R [p; k]) as [[_ ->]|[Q _]]; [reflexivity|]. destruct Q. apply in_force_tail; [exact Ha|exact Hb|].
      intros d1 I. unfold says. rewrite (H d1 I). reflexivity.
  Qed.

  Theorem run_parameters times dicts c (ts : list (option R)) n (step : Processes.context (pyval S) -> result (Processes.context (pyval S))) m :
    plain_sections dicts -> length ts = length dicts ->
    hd 1%nat times = 0%nat -> Forall (fun t => (0 < t)%nat) (tl times) -> (forall i j, (i < j < length times)%nat -> (nth i times 0 <= nth j times 0)%nat) ->
    run_config times (map (fun td => [td]) (combine ts dicts)) = Ok c ->
    later_sections_fit (dkeys m) dicts -> (forall m, step m = Ok m) ->
    let at_step k := in_force (combine (map INR times) dicts) (INR k) in
    agrees (at_step 0%nat) m ->
    exists m' c', run_loop seqb set_order step (set_params store) n (m, c) = Ok (m', c') /\ dkeys m' = dkeys m
      /\ agrees (at_step n) m'
      /\ forall p k, (forall d, In d (tl dicts) -> leaf_at d [p; k] = None) -> value m' p k = value m p k.
  Proof.
    intros Hp Lt H0 Hr Hs E Fit Hstep at_step Ag. destruct times as [|t0 times]; [discriminate E|]. cbn [hd tl] in *. subst t0.
    apply run_config_single in E; [|exact Lt]. assert (Hs' := sorted_INR _ Hs). cbn [map] in *. change (INR 0) with 0 in *.
    assert (Fr : Forall (fun t => 0 < t) (map INR times)).
    { apply Forall_map. revert Hr. apply Forall_impl. intros t L. apply lt_0_INR, L. }
    destruct (init_made _ _ _ E) as [M [T [d0 [rest [Ed _]]]]]. subst dicts.
    destruct (init_at 0 _ _ _ E (plain_proper _ Hp) (Rle_refl 0) Fr Hs') as [I1 I2].
    clear E. cbn [tl] in *.
    assert (G : forall n i m c, made c (0 :: map INR times) (d0 :: rest) -> tv_time c = INR i ->
       (forall path, dget path_eqb (tv_current c) path = dget path_eqb (config_at c (tv_time c)) path) -> drawn (d0 :: rest) (tv_current c) ->
       later_sections_fit (dkeys m) (d0 :: rest) -> agrees (at_step i) m ->
       exists m' c', run_loop seqb set_order step (set_params store) n (m, c) = Ok (m', c') /\ dkeys m' = dkeys m /\ agrees (at_step (i + n)%nat) m'
         /\ forall p k, (forall d, In d rest -> leaf_at d [p; k] = None) -> value m' p k = value m p k).
    { clear c M T I1 I2 Ag Fit m n. induction n as [|n IH]; intros i m c M T I1 I2 Fit Ag.
      - exists m, c. split; [reflexivity|]. split; [reflexivity|]. rewrite Nat.add_0_r. auto.
      - cbn [run_loop fst snd]. rewrite Hstep. cbn [bind]. rewrite n1_R.
        destruct (update_spec seqb seqb_ok set_order set_ok c _ _ 1 M Hp Hs' ltac:(lra) I1 I2) as [d [c1 [Eu [M1 [T1 [J1 [J2 [Pd R]]]]]]]].
        assert (So := update_solid _ _ _ _ _ _ Hp M Eu). rewrite Eu. cbn [bind fst snd]. rewrite T in R, T1.
        replace (INR i + 1) with (INR (Datatypes.S i)) in R, T1 by (rewrite S_INR; reflexivity).
        destruct (set_params_difference 0 (map INR times) d0 rest (INR i) (INR (Datatypes.S i)) m d) as [m1 [Es [Ek [Ag1 Un]]]];
          [apply pos_INR|apply pos_INR|exact Pd|exact So|exact Fit|exact R|exact Ag|].
        rewrite Es. cbn [bind].
        destruct (IH (Datatypes.S i) m1 c1 M1 T1 J1 J2) as [m2 [c2 [Er [Ek2 [Ag2 Un2]]]]]; [rewrite Ek; exact Fit|exact Ag1|].
        exists m2, c2. split; [exact Er|]. split; [congruence|]. rewrite Nat.add_succ_r. split; [exact Ag2|].
        intros p k H. rewrite (Un2 p k H). apply Un, H. }
    destruct (G n 0%nat m c M T I1 I2 Fit Ag) as [m' [c' [Er [Ek [Ag' Un]]]]]. exists m', c'. auto.
  Qed.
End Run.
