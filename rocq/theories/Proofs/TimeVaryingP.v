(** Proofs about TimeVaryingConfig. *)
From Coq Require Import String List Bool Reals Lra Lia Permutation.
From Verif.Base Require Import Num Py.
From Verif.Model Require Import Shoreline Config.
From Verif.Spec Require Import Profile Sections.
From Verif.Proofs Require Import ShorelineP ProcessesP ConfigP.
Import ListNotations.
Local Open Scope list_scope.

Section Flat.
  Context {S : Type} (seqb : S -> S -> bool).
  Hypothesis seqb_ok : forall a b, seqb a b = true <-> a = b.

  (** ** values *)
  Definition flat_value (v : pyval S) : Prop := match v with Scalar _ | PyTuple _ => True | _ => False end.
  Lemma as_list_inj (v w : pyval S) : flat_value v -> flat_value w -> as_list v = as_list w -> v = w.
  Proof. destruct v, w; cbn; intros A B E; try destruct A; try destruct B; congruence. Qed.
  Lemma as_list_tuple (v : pyval S) : as_list (as_tuple v) = as_list v.
  Proof. destruct v; reflexivity. Qed.

  Lemma pyeqb_spec (v : pyval S) : hashable v = true -> forall w, hashable w = true -> (pyeqb seqb v w = true <-> v = w).
  Proof.
    induction v as [s|l _|l IH|d _] using pyval_ind'; intros Hv w Hw; try discriminate Hv.
    - destruct w as [s'|l'|l'|d']; cbn; try (split; discriminate). rewrite seqb_ok. split; [intros ->; reflexivity|congruence].
    - destruct w as [s'|l'|m|d']; cbn [pyeqb]; try (split; discriminate).
      cbn in Hv, Hw. assert (X : (fix go l m := match l, m with
                       | [], [] => true
                       | a :: l, b :: m => pyeqb seqb a b && go l m
                       | _, _ => false
                       end) l m = true <-> l = m); [|rewrite X; split; congruence].
      revert m Hv Hw. induction IH as [|a l Ha _ IHl]; intros [|b m] Hv Hw; try (split; [discriminate|discriminate]); [tauto|].
      cbn [forallb] in Hv, Hw. apply andb_prop in Hv. apply andb_prop in Hw.
      rewrite andb_true_iff, (Ha (proj1 Hv) b (proj1 Hw)), (IHl m (proj2 Hv) (proj2 Hw)). split; [intros [-> ->]; reflexivity|].
      intros E. split; congruence.
  Qed.

  Lemma leaf_at_leaf (path : list string) : forall (d : dict S) v, leaf_at d path = Some v -> match v with PyDict _ => False | _ => True end.
  Proof.
    induction path as [|k rest IH]; intros d v; [discriminate|]. cbn. destruct (dget String.eqb d k) as [[s|l|l|sub]|]; try discriminate;
      try (destruct rest; [|discriminate]; intros E; assert (X := f_equal (fun o => match o with Some v => v | None => v end) E);
           cbn in X; rewrite <- X; exact I).
    apply IH.
  Qed.

  (** ** dictionaries of paths *)
  Lemma dget_map_value {V W} (f : V -> W) (m : list (list string * V)) k :
    dget path_eqb (map (fun kv => (fst kv, f (snd kv))) m) k = option_map f (dget path_eqb m k).
  Proof. induction m as [|[k0 v0] m IH]; [reflexivity|]. cbn. destruct (path_eqb k k0); [reflexivity|exact IH]. Qed.
  Lemma dkeys_map_value {V W} (f : V -> W) (m : list (list string * V)) :
    dkeys (map (fun kv => (fst kv, f (snd kv))) m) = dkeys m.
  Proof. unfold dkeys. rewrite map_map. reflexivity. Qed.
  Lemma dget_perm {V} (m m' : list (list string * V)) k : Permutation m m' -> NoDup (dkeys m) -> dget path_eqb m k = dget path_eqb m' k.
  Proof.
    intros P N. assert (N' : NoDup (dkeys m')) by (apply (Permutation_NoDup (l := dkeys m)); [apply Permutation_map; exact P|exact N]).
    destruct (dget path_eqb m k) as [v|] eqn:E.
    - symmetry. apply (dget_in_nodup _ path_eqb_spec); [exact N'|]. apply (Permutation_in _ P). apply (dget_in _ path_eqb_spec). exact E.
    - symmetry. apply (dget_none_iff _ path_eqb_spec). apply (dget_none_iff _ path_eqb_spec) in E. intros X. apply E.
      apply (Permutation_in (l := dkeys m')); [apply Permutation_map, Permutation_sym; exact P|exact X].
  Qed.
  Lemma dget_filter {V} (f : list string * V -> bool) m k : NoDup (dkeys m) ->
    dget path_eqb (filter f m) k = match dget path_eqb m k with Some v => if f (k, v) then Some v else None | None => None end.
  Proof.
    induction m as [|[k0 v0] m IH]; intros N; [reflexivity|]. inversion N as [|? ? N1 N2]; subst. cbn [filter dget].
    destruct (path_eqb k k0) eqn:E.
    - apply path_eqb_spec in E. subst k0. destruct (f (k, v0)); [cbn; rewrite path_eqb_refl; reflexivity|].
      rewrite IH by exact N2. apply (dget_none_iff _ path_eqb_spec) in N1. unfold dkeys in N1. rewrite N1. reflexivity.
    - destruct (f (k0, v0)); [cbn; rewrite E|]; apply IH; exact N2.
  Qed.
  Lemma filter_NoDup {V} (f : list string * V -> bool) m : NoDup (dkeys m) -> NoDup (dkeys (filter f m)).
  Proof.
    induction m as [|[k0 v0] m IH]; intros N; [constructor|]. inversion N as [|? ? N1 N2]; subst. cbn [filter].
    destruct (f (k0, v0)); [|apply IH; exact N2]. constructor; [|apply IH; exact N2]. intros X. apply N1.
    apply in_map_iff in X. destruct X as [[k v] [E X]]. apply filter_In in X. apply in_map_iff. exists (k, v). tauto.
  Qed.

  (** ** expanding a flat dictionary *)
  Definition is_prefix (p q : list string) : Prop := exists k rest, q = p ++ k :: rest.
  Lemma is_prefix_cons k p q : is_prefix p q -> is_prefix (k :: p) (k :: q).
  Proof. intros [k1 [rest ->]]. exists k1, rest. reflexivity. Qed.
  Lemma proper_dset (d : dict S) k v : proper (PyDict d) -> proper v -> proper (PyDict (dset String.eqb d k v)).
  Proof.
    rewrite !proper_dict. intros [N P] Hv. split; [apply (NoDup_dset _ seqb_spec); exact N|].
    clear N. induction P as [|[k0 v0] d P0 P1 IH]; cbn; [repeat constructor; exact Hv|].
    destruct (String.eqb k k0); constructor; assumption.
  Qed.
  Lemma proper_get (d : dict S) k v : proper (PyDict d) -> dget String.eqb d k = Some v -> proper v.
  Proof.
    rewrite proper_dict. intros [_ P] E. apply (dget_in _ seqb_spec) in E. rewrite Forall_forall in P. exact (P _ E).
  Qed.
  Lemma leaf_dset (d : dict S) k v path : leaf_at (dset String.eqb d k v) path
    = match path with
      | [] => None
      | k' :: rest => if String.eqb k' k then value_leaf v rest else leaf_at d path
      end.
  Proof.
    destruct path as [|k' rest]; [reflexivity|]. cbn [leaf_at]. rewrite (dget_dset _ seqb_spec).
    destruct (String.eqb k' k); [destruct v; reflexivity|]. reflexivity.
  Qed.
  Lemma leaf_get (d : dict S) k rest : leaf_at d (k :: rest)
    = match dget String.eqb d k with Some v => value_leaf v rest | None => None end.
  Proof. cbn. destruct (dget String.eqb d k) as [[?|?|?|?]|]; reflexivity. Qed.

  Lemma add_item_spec k v : flat_value v -> k <> [] -> forall d : dict S, proper (PyDict d) ->
    (forall p x, leaf_at d p = Some x -> ~ is_prefix p k /\ ~ is_prefix k p) ->
    exists d', add_item k v d = Ok d' /\ proper (PyDict d')
      /\ forall p, leaf_at d' p = if path_eqb p k then Some (as_list v) else leaf_at d p.
  Proof.
    intros Hv. assert (Vl : match as_list v with PyDict _ => False | _ => True end) by (destruct v; exact Hv || exact I).
    assert (Vp : proper (as_list v)) by (destruct v; try destruct Hv; exact I).
    assert (Vleaf : forall rest, value_leaf (as_list v) rest = match rest with [] => Some (as_list v) | _ => None end)
      by (intros rest; destruct v; try destruct Hv; reflexivity).
    induction k as [|k0 k IH]; [congruence|]. intros _ d Pd Hd. destruct k as [|k1 k].
    - exists (dset String.eqb d k0 (as_list v)). split; [reflexivity|]. split; [apply proper_dset; assumption|].
      intros [|k' rest]; rewrite leaf_dset; [reflexivity|]. cbn [path_eqb]. destruct (String.eqb_spec k' k0) as [->|N]; [|reflexivity].
      cbn [andb]. rewrite Vleaf. destruct rest as [|k2 rest]; [reflexivity|]. cbn [path_eqb].
      destruct (leaf_at d (k0 :: k2 :: rest)) as [x|] eqn:E; [|reflexivity]. exfalso. apply (proj2 (Hd _ _ E)).
      exists k2, rest. reflexivity.
    - rewrite add_item_cons.
      assert (Y : forall w, dget String.eqb d k0 = Some w -> value_leaf w [] = None).
      { intros w Eg. destruct (value_leaf w []) as [x|] eqn:E; [|reflexivity]. exfalso.
        destruct (Hd [k0] x) as [A _]; [rewrite leaf_get, Eg; exact E|]. apply A. exists k1, k. reflexivity. }
      assert (X : forall sub : dict S, proper (PyDict sub) ->
                (forall rest, leaf_at d (k0 :: rest) = leaf_at sub rest) ->
                exists d', (let* sub0 := add_item (k1 :: k) v sub in Ok (dset String.eqb d k0 (PyDict sub0))) = Ok d' /\ proper (PyDict d')
                  /\ forall p, leaf_at d' p = if path_eqb p (k0 :: k1 :: k) then Some (as_list v) else leaf_at d p).
      { intros sub Ps Hsub. destruct (IH ltac:(discriminate) sub Ps) as [s' [Es [Ps' Hs']]].
        - intros p x E. rewrite <- Hsub in E. destruct (Hd _ _ E) as [A B].
          split; intros C; [apply A|apply B]; apply is_prefix_cons; exact C.
        - rewrite Es. cbn [bind]. eexists. split; [reflexivity|]. split; [apply proper_dset; assumption|].
          intros [|k' rest]; rewrite leaf_dset; [reflexivity|]. cbn [path_eqb]. destruct (String.eqb_spec k' k0) as [->|N]; [|reflexivity].
          cbn [andb value_leaf]. rewrite Hs'. rewrite <- Hsub. reflexivity. }
      destruct (dget String.eqb d k0) as [w|] eqn:Eg.
      + specialize (Y _ eq_refl). destruct w as [s|l|l|sub]; try discriminate Y.
        apply X; [exact (proper_get d k0 _ Pd Eg)|]. intros rest. rewrite leaf_get, Eg. reflexivity.
      + apply X; [split; [constructor|exact I]|]. intros rest. rewrite leaf_get, Eg. symmetry. apply leaf_at_nil_dict.
  Qed.

  Theorem expand_spec (m : flat S) : NoDup (dkeys m) -> Forall (fun kv => fst kv <> [] /\ flat_value (snd kv)) m ->
    (forall p q v w, In (p, v) m -> In (q, w) m -> ~ is_prefix p q) ->
    exists e, expand_dict m = Ok e /\ proper (PyDict e) /\ forall p, leaf_at e p = option_map as_list (dget path_eqb m p).
  Proof.
    intros N F P. unfold expand_dict.
    assert (G : forall l done (d : dict S), m = done ++ l -> proper (PyDict d) ->
       (forall p, leaf_at d p = option_map as_list (dget path_eqb done p)) ->
       exists e, foldM (fun d kv => add_item (fst kv) (snd kv) d) l d = Ok e /\ proper (PyDict e)
         /\ forall p, leaf_at e p = option_map as_list (dget path_eqb m p)).
    2:{ apply (G m []); [reflexivity|split; [constructor|exact I]|intros p; apply leaf_at_nil_dict]. }
    induction l as [|[k v] l IH]; intros dn d E Pd Hd.
    - exists d. rewrite app_nil_r in E. subst m. split; [reflexivity|]. split; assumption.
    - assert (Hin : In (k, v) m) by (rewrite E; apply in_or_app; right; left; reflexivity).
      rewrite Forall_forall in F. destruct (F _ Hin) as [Fk Fv]. cbn [fst snd] in Fk, Fv.
      destruct (add_item_spec k v Fv Fk d Pd) as [d' [Ea [Pd' Hd']]].
      + intros p x Ep. rewrite Hd in Ep. destruct (dget path_eqb dn p) as [y|] eqn:Ey; [|discriminate].
        apply (dget_in _ path_eqb_spec) in Ey. assert (Hp : In (p, y) m) by (rewrite E; apply in_or_app; left; exact Ey).
        split; eapply P; eassumption.
      + cbn [foldM fst snd]. rewrite Ea. cbn [bind]. apply (IH (dn ++ [(k, v)])); [rewrite <- app_assoc; exact E|exact Pd'|].
        intros p. rewrite Hd', dget_app, Hd. cbn [dget].
        destruct (path_eqb p k) eqn:Ek; [|destruct (dget path_eqb dn p); reflexivity].
        apply path_eqb_spec in Ek. subst p. destruct (dget path_eqb dn k) as [y|] eqn:Ey; [|reflexivity]. exfalso.
        rewrite E in N. unfold dkeys in N. rewrite map_app in N. cbn in N. apply NoDup_remove in N. destruct N as [_ N]. apply N.
        apply in_or_app. left. apply in_map_iff. exists (k, y). split; [reflexivity|]. apply (dget_in _ path_eqb_spec). exact Ey.
  Qed.
End Flat.

Section Times.
  Context {S : Type} (seqb : S -> S -> bool).
  Hypothesis seqb_ok : forall a b, seqb a b = true <-> a = b.
  Variable set_order : flat S -> flat S.
  Hypothesis set_ok : forall l, Permutation (set_order l) l.
  Local Open Scope R_scope.

  Definition flatc (d : dict S) : flat S := map (fun kv => (fst kv, as_tuple (snd kv))) (flatten_dict d).
  Lemma dget_flatc d path : proper (PyDict d) -> dget path_eqb (flatc d) path = option_map as_tuple (leaf_at d path).
  Proof. intros H. unfold flatc. rewrite dget_map_value, dget_flatten by exact H. reflexivity. Qed.
  Lemma NoDup_flatc d : proper (PyDict d) -> NoDup (dkeys (flatc d)).
  Proof. intros H. unfold flatc. rewrite dkeys_map_value. apply flatten_NoDup. exact H. Qed.

  Definition pick {V} (v : option V) (v' : option V) : option V := match v' with Some _ => v' | None => v end.
  Lemma fold_dupdate (ds : list (flat S)) : Forall (fun d => NoDup (dkeys d)) ds -> forall acc path,
    dget path_eqb (fold_left (fun d next => dupdate path_eqb d next) ds acc) path
    = fold_left (fun v d => pick v (dget path_eqb d path)) ds (dget path_eqb acc path).
  Proof.
    induction 1 as [|d ds Hd _ IH]; intros acc path; [reflexivity|]. cbn [fold_left]. rewrite IH.
    rewrite (dget_dupdate _ path_eqb_spec) by exact Hd. unfold pick at 3. destruct (dget path_eqb d path); reflexivity.
  Qed.
  Lemma fold_dupdate_NoDup (ds : list (flat S)) : forall acc, NoDup (dkeys acc) ->
    NoDup (dkeys (fold_left (fun d next => dupdate path_eqb d next) ds acc)).
  Proof. induction ds as [|d ds IH]; intros acc H; [exact H|]. cbn. apply IH. apply (NoDup_dupdate _ path_eqb_spec). exact H. Qed.

  Definition made (c : config S R) (times : list R) (dicts : list (dict S)) : Prop :=
    tv_times c = times /\ tv_dicts c = map flatc dicts.
  Definition all_proper (dicts : list (dict S)) : Prop := forall d, In d dicts -> proper (PyDict d).

  Lemma firstn_fold {X} (f : X -> R * dict S -> X) (g : X -> dict S -> X) t times : forall n dicts v,
    (forall v ti d, ti <= t -> f v (ti, d) = g v d) -> (forall v ti d, t < ti -> f v (ti, d) = v) ->
    (n <= length times)%nat ->
    (forall i, (i < n)%nat -> nth i times 0 <= t) -> (forall i, (n <= i < length times)%nat -> t < nth i times 0) ->
    fold_left g (firstn n dicts) v = fold_left f (combine times dicts) v.
  Proof.
    intros n dicts v Hf Hf' Hn H1 H2. revert n dicts v Hn H1 H2.
    induction times as [|ti times IH]; intros n dicts v Hn H1 H2.
    - cbn in Hn. assert (n = 0)%nat by lia. subst n. reflexivity.
    - destruct dicts as [|d dicts]; [rewrite firstn_nil; reflexivity|]. destruct n as [|n].
      + cbn [firstn fold_left combine]. rewrite Hf' by (apply (H2 0%nat); cbn; lia).
        apply (IH 0%nat dicts v); [lia|intros; lia|]. intros i Hi. apply (H2 (Datatypes.S i)). cbn. lia.
      + cbn [firstn fold_left combine]. rewrite Hf by (apply (H1 0%nat); lia).
        apply IH; [cbn in Hn; lia| |]; intros i Hi; [apply (H1 (Datatypes.S i)); lia|apply (H2 (Datatypes.S i)); cbn; lia].
  Qed.

  Lemma in_force_firstn times (dicts : list (dict S)) t path : sorted times ->
    in_force (combine times dicts) t path
    = fold_left (fun v d => pick v (says d path)) (firstn (bisect_right times t) dicts) None.
  Proof.
    intros Hs. destruct (bisect_right_spec times t Hs) as [H1 [H2 H3]]. unfold in_force. symmetry.
    apply (firstn_fold _ _ t); try assumption; intros v ti d Ht; cbn [fst snd].
    - destruct (Rle_dec ti t) as [_|X]; [|lra]. unfold pick. destruct (says d path); reflexivity.
    - destruct (Rle_dec ti t) as [X|_]; [lra|reflexivity].
  Qed.

  Lemma config_at_get (c : config S R) times dicts t path : made c times dicts -> all_proper dicts ->
    dget path_eqb (config_at c t) path
    = fold_left (fun v d => pick v (option_map as_tuple (leaf_at d path))) (firstn (bisect_right times t) dicts) None.
  Proof.
    intros [Et Ed] Hp. unfold config_at, bisect_times. rewrite Et, Ed, firstn_map. rewrite fold_dupdate.
    - rewrite fold_left_map. change (dget path_eqb [] path) with (@None (pyval S)). generalize (@None (pyval S)).
      assert (X : forall d, In d (firstn (bisect_right times t) dicts) -> proper (PyDict d)).
      { intros d H. apply Hp. rewrite <- (firstn_skipn (bisect_right times t) dicts). apply in_or_app. left. exact H. }
      induction (firstn (bisect_right times t) dicts) as [|d l IH]; intros v; [reflexivity|]. cbn [fold_left].
      rewrite dget_flatc by (apply X; left; reflexivity). apply IH. intros d' H. apply X. right. exact H.
    - apply Forall_forall. intros f H. apply in_map_iff in H. destruct H as [d [<- H]]. apply NoDup_flatc, Hp.
      rewrite <- (firstn_skipn (bisect_right times t) dicts). apply in_or_app. left. exact H.
  Qed.
  Lemma config_at_NoDup c t : NoDup (dkeys (@config_at S R _ c t)).
  Proof. apply fold_dupdate_NoDup. constructor. Qed.

  (* C47 *)
  Lemma config_at_in_force (c : config S R) times dicts t path : made c times dicts -> all_proper dicts -> sorted times ->
    option_map as_list (dget path_eqb (config_at c t) path) = in_force (combine times dicts) t path.
  Proof.
    intros M Hp Hs. rewrite (config_at_get c times dicts) by assumption. rewrite in_force_firstn by exact Hs.
    change (@None (pyval S)) with (option_map as_list (@None (pyval S))) at 2. generalize (@None (pyval S)).
    induction (firstn (bisect_right times t) dicts) as [|d l IH]; intros v; [reflexivity|]. cbn [fold_left]. rewrite IH.
    f_equal. unfold pick, says. destruct (leaf_at d path) as [x|]; cbn; [rewrite as_list_tuple|]; reflexivity.
  Qed.

  Lemma config_at_from (c : config S R) times dicts t path v : made c times dicts -> all_proper dicts ->
    dget path_eqb (config_at c t) path = Some v -> exists d v0, In d dicts /\ leaf_at d path = Some v0 /\ v = as_tuple v0.
  Proof.
    intros M Hp. rewrite (config_at_get c times dicts) by assumption.
    assert (X : forall d, In d (firstn (bisect_right times t) dicts) -> In d dicts).
    { intros d H. rewrite <- (firstn_skipn (bisect_right times t) dicts). apply in_or_app. left. exact H. }
    assert (G : forall l v0, (forall d, In d l -> In d dicts) ->
              fold_left (fun v d => pick v (option_map as_tuple (leaf_at d path))) l v0 = Some v ->
              v0 = Some v \/ exists d v0, In d dicts /\ leaf_at d path = Some v0 /\ v = as_tuple v0).
    { induction l as [|d l IH]; intros v0 Hl E; [left; exact E|]. cbn [fold_left] in E. apply IH in E; [|intros d' H; apply Hl; right; exact H].
      destruct E as [E|E]; [|right; exact E]. unfold pick in E. destruct (leaf_at d path) as [x|] eqn:Ex; cbn in E; [|left; exact E].
      right. exists d, x. split; [apply Hl; left; reflexivity|]. split; [exact Ex|congruence]. }
    intros E. apply G in E; [|exact X]. destruct E as [E|E]; [discriminate|exact E].
  Qed.

  Lemma as_tuple_flat (d : dict S) path v : leaf_at d path = Some v -> flat_value (as_tuple v).
  Proof. intros E. apply leaf_at_leaf in E. destruct v; exact I || destruct E. Qed.
  Lemma as_tuple_hashable (v : pyval S) : simple v -> hashable (as_tuple v) = true.
  Proof.
    assert (X : forall l : list (pyval S), forallb is_scalar l = true -> forallb hashable l = true).
    { induction l as [|a l IH]; [reflexivity|]. cbn. intros H. apply andb_prop in H. destruct H as [Ha Hl].
      destruct a; try discriminate Ha. exact (IH Hl). }
    destruct v; cbn; intros H; try reflexivity; try (apply X; exact H); destruct H.
  Qed.
  Lemma leaf_path_ne (d : dict S) path v : leaf_at d path = Some v -> path <> [].
  Proof. destruct path; [discriminate|intros _; discriminate]. Qed.

  (* a flat dictionary whose items come from the sections can be expanded *)
  Definition drawn (dicts : list (dict S)) (m : flat S) : Prop :=
    NoDup (dkeys m) /\ forall k v, dget path_eqb m k = Some v -> exists d v0, In d dicts /\ leaf_at d k = Some v0 /\ v = as_tuple v0.
  Lemma drawn_expand dicts m : compatible dicts -> drawn dicts m ->
    exists e, expand_dict m = Ok e /\ proper (PyDict e) /\ forall p, leaf_at e p = option_map as_list (dget path_eqb m p).
  Proof.
    intros C [N D]. apply expand_spec; [exact N| |].
    - apply Forall_forall. intros [k v] H. cbn [fst snd]. apply (dget_in_nodup _ path_eqb_spec) in H; [|exact N].
      destruct (D k v H) as [d [v0 [_ [E ->]]]]. split; [exact (leaf_path_ne d k v0 E)|exact (as_tuple_flat d k v0 E)].
    - intros p q v w Hp Hq [k [rest ->]]. apply (dget_in_nodup _ path_eqb_spec) in Hp; [|exact N].
      apply (dget_in_nodup _ path_eqb_spec) in Hq; [|exact N].
      destruct (D _ _ Hp) as [d [v0 [Hd [E _]]]]. destruct (D _ _ Hq) as [d' [v0' [Hd' [E' _]]]].
      exact (C d d' p k rest v0 v0' Hd Hd' E E').
  Qed.
  Lemma config_at_drawn c times dicts t : made c times dicts -> all_proper dicts -> drawn dicts (config_at c t).
  Proof. intros M Hp. split; [apply config_at_NoDup|]. intros k v. apply (config_at_from c times dicts t k v M Hp). Qed.

  Lemma plain_proper dicts : plain_sections dicts -> all_proper dicts.
  Proof. intros [H _] d Hd. apply H. exact Hd. Qed.
  Lemma config_at_hashable c times dicts t : made c times dicts -> plain_sections dicts ->
    forall k v, dget path_eqb (config_at c t) k = Some v -> hashable v = true.
  Proof.
    intros M Hp k v E. destruct (config_at_from c times dicts t k v M (plain_proper _ Hp) E) as [d [v0 [Hd [El ->]]]].
    apply as_tuple_hashable. destruct Hp as [Hp _]. destruct (Hp d Hd) as [_ X]. exact (X k v0 El).
  Qed.

  Lemma diff_spec c times dicts a b : made c times dicts -> plain_sections dicts ->
    exists items, diff seqb set_order c a b = Ok items /\ drawn dicts items
      /\ forall k, (dget path_eqb (config_at c a) k = dget path_eqb (config_at c b) k /\ dget path_eqb items k = None)
                   \/ (dget path_eqb (config_at c a) k <> dget path_eqb (config_at c b) k
                       /\ dget path_eqb items k = dget path_eqb (config_at c b) k).
  Proof.
    intros M Hp.
    assert (Ha := config_at_hashable c times dicts a M Hp). assert (Hb := config_at_hashable c times dicts b M Hp).
    assert (Na := config_at_NoDup c a). assert (Nb := config_at_NoDup c b).
    assert (Db := config_at_drawn c times dicts b M (plain_proper _ Hp)).
    unfold diff. set (A := config_at c a) in *. set (B := config_at c b) in *. clearbody A B.
    assert (Hall : forall m : flat S, NoDup (dkeys m) -> (forall k v, dget path_eqb m k = Some v -> hashable v = true) ->
                   forallb (fun kv => hashable (snd kv)) m = true).
    { intros m Nm Hm. apply forallb_forall. intros [k v] H. apply (Hm k v). apply (dget_in_nodup _ path_eqb_spec); assumption. }
    rewrite !Hall by assumption. cbn [andb negb].
    set (keep := fun kv : list string * pyval S => negb (existsb (fun kv' => path_eqb (fst kv) (fst kv') && pyeqb seqb (snd kv) (snd kv')) A)).
    assert (G : forall k, dget path_eqb (set_order (filter keep B)) k
                 = match dget path_eqb B k with Some v => if keep (k, v) then Some v else None | None => None end).
    { intros k. rewrite <- (dget_filter keep) by exact Nb. apply dget_perm; [apply set_ok|].
      apply (Permutation_NoDup (l := dkeys (filter keep B))); [apply Permutation_map, Permutation_sym, set_ok|].
      apply filter_NoDup. exact Nb. }
    assert (K : forall k v, dget path_eqb B k = Some v -> (keep (k, v) = false <-> dget path_eqb A k = Some v)).
    { intros k v Ev. unfold keep. rewrite negb_false_iff. rewrite existsb_exists. split.
      - intros [[k' v'] [Hin E]]. apply andb_prop in E. cbn [fst snd] in E. destruct E as [E1 E2]. apply path_eqb_spec in E1. subst k'.
        apply (dget_in_nodup _ path_eqb_spec) in Hin; [|exact Na]. apply (pyeqb_spec seqb seqb_ok) in E2; [|exact (Hb k v Ev)|exact (Ha k v' Hin)].
        subst v'. exact Hin.
      - intros E. exists (k, v). split; [apply (dget_in _ path_eqb_spec); exact E|]. cbn [fst snd]. rewrite path_eqb_refl. cbn [andb].
        apply (pyeqb_spec seqb seqb_ok); [exact (Hb k v Ev)|exact (Hb k v Ev)|reflexivity]. }
    exists (set_order (filter keep B)). split; [reflexivity|]. split; [split|].
    - apply (Permutation_NoDup (l := dkeys (filter keep B))); [apply Permutation_map, Permutation_sym, set_ok|].
      apply filter_NoDup. exact Nb.
    - intros k v E. rewrite G in E. destruct (dget path_eqb B k) as [w|] eqn:Ew; [|discriminate]. destruct (keep (k, w)); [|discriminate].
      apply Db. rewrite Ew. exact E.
    - intros k. rewrite G. destruct (dget path_eqb B k) as [w|] eqn:Ew.
      + specialize (K k w Ew). destruct (keep (k, w)) eqn:Ek.
        * right. split; [|reflexivity]. intros E. apply K in E. congruence.
        * left. split; [apply K; reflexivity|reflexivity].
      + destruct (dget path_eqb A k) eqn:Ea; [right; split; [discriminate|reflexivity]|left; split; reflexivity].
  Qed.

  (* equal values, equal lists *)
  Lemma at_inj c times dicts a b k : made c times dicts -> all_proper dicts ->
    option_map as_list (dget path_eqb (config_at c a) k) = option_map as_list (dget path_eqb (config_at c b) k) ->
    dget path_eqb (config_at c a) k = dget path_eqb (config_at c b) k.
  Proof.
    intros M Hp. assert (Fa := config_at_from c times dicts a k). assert (Fb := config_at_from c times dicts b k).
    destruct (dget path_eqb (config_at c a) k) as [v|]; destruct (dget path_eqb (config_at c b) k) as [w|]; cbn; intros E; try congruence.
    destruct (Fa v M Hp eq_refl) as [d1 [v1 [_ [E1 ->]]]]. destruct (Fb w M Hp eq_refl) as [d2 [v2 [_ [E2 ->]]]].
    f_equal. apply as_list_inj; [exact (as_tuple_flat _ _ _ E1)|exact (as_tuple_flat _ _ _ E2)|congruence].
  Qed.

  Lemma bisect_mono times a b : sorted times -> a <= b -> (bisect_right times a <= bisect_right times b)%nat.
  Proof.
    intros Hs H. destruct (bisect_right_spec times a Hs) as [A1 [A2 A3]]. destruct (bisect_right_spec times b Hs) as [B1 [B2 B3]].
    destruct (Nat.le_gt_cases (bisect_right times a) (bisect_right times b)) as [L|L]; [exact L|].
    assert (X := A2 _ L). assert (Y := B3 (bisect_right times b) ltac:(lia)). lra.
  Qed.

  (* what update(inc) returns and leaves *)
  Lemma update_spec c times dicts inc : made c times dicts -> plain_sections dicts -> sorted times -> 0 <= inc ->
    (forall path, dget path_eqb (tv_current c) path = dget path_eqb (config_at c (tv_time c)) path) -> drawn dicts (tv_current c) ->
    exists d c', update seqb set_order inc c = Ok (d, c') /\ made c' times dicts /\ tv_time c' = tv_time c + inc
      /\ (forall path, dget path_eqb (tv_current c') path = dget path_eqb (config_at c' (tv_time c')) path) /\ drawn dicts (tv_current c')
      /\ proper (PyDict d)
      /\ reports_change (in_force (combine times dicts) (tv_time c)) (in_force (combine times dicts) (tv_time c + inc)) d.
  Proof.
    intros M Hp Hs Hi Hc Hd. unfold update. numR. assert (P := plain_proper _ Hp).
    assert (Eb : forall t, bisect_times c t = bisect_right times t) by (intros t; unfold bisect_times; rewrite (proj1 M); reflexivity).
    rewrite !Eb. assert (Bm := bisect_mono times (tv_time c) (tv_time c + inc) Hs ltac:(lra)).
    destruct (Nat.ltb_spec (bisect_right times (tv_time c)) (bisect_right times (tv_time c + inc))) as [L|L].
    - destruct (diff_spec c times dicts (tv_time c) (tv_time c + inc) M Hp) as [items [-> [Di Hi']]]. cbn [bind].
      destruct (drawn_expand dicts items (proj2 Hp) Di) as [e [-> [Pe He]]]. cbn [bind].
      exists e, (mkConfig (tv_times c) (tv_dicts c) (tv_time c + inc) (config_at c (tv_time c + inc))).
      split; [reflexivity|]. split; [exact M|]. cbn [tv_time tv_current]. split; [reflexivity|]. split; [reflexivity|].
      split; [exact (config_at_drawn c times dicts _ M P)|]. split; [exact Pe|].
      intros path. rewrite He. rewrite <- !(config_at_in_force c times dicts _ path M P Hs). destruct (Hi' path) as [[H1 H2]|[H1 H2]]; rewrite H2.
      + left. rewrite H1. split; reflexivity.
      + right. split; [|reflexivity]. intros X. exact (H1 (at_inj c times dicts _ _ path M P X)).
    - assert (Eq : bisect_right times (tv_time c) = bisect_right times (tv_time c + inc)) by lia.
      assert (Ec : config_at c (tv_time c + inc) = config_at c (tv_time c)) by (unfold config_at; rewrite !Eb, Eq; reflexivity).
      exists [], (mkConfig (tv_times c) (tv_dicts c) (tv_time c + inc) (tv_current c)).
      split; [reflexivity|]. split; [exact M|]. cbn [tv_time tv_current]. split; [reflexivity|]. split.
      { intros path. rewrite Hc, <- Ec. reflexivity. }
      split; [exact Hd|]. split; [split; [constructor|exact I]|].
      intros path. rewrite leaf_at_nil_dict. rewrite <- !(config_at_in_force c times dicts _ path M P Hs), Ec.
      left. split; reflexivity.
  Qed.

  Theorem updates_spec times dicts : plain_sections dicts -> sorted times -> forall incs c, Forall (fun i => 0 <= i) incs ->
    made c times dicts ->
    (forall path, dget path_eqb (tv_current c) path = dget path_eqb (config_at c (tv_time c)) path) -> drawn dicts (tv_current c) ->
    exists ds c' e, updates seqb set_order incs c = Ok (ds, c') /\
      (made c' times dicts /\ (forall path, dget path_eqb (tv_current c') path = dget path_eqb (config_at c' (tv_time c')) path)
       /\ drawn dicts (tv_current c')) /\ as_dict c' = Ok e
      /\ (forall path, leaf_at e path = in_force (combine times dicts) (tv_time c + total incs) path)
      /\ length ds = length incs
      /\ forall i, (i < length incs)%nat ->
           reports_change (in_force (combine times dicts) (tv_time c + total (firstn i incs)))
             (in_force (combine times dicts) (tv_time c + total (firstn (Datatypes.S i) incs))) (nth i ds []).
  Proof.
    intros Hp Hs. assert (P := plain_proper _ Hp). induction incs as [|inc incs IH]; intros c Hi M Hc Hd.
    - exists [], c. destruct (drawn_expand dicts (tv_current c) (proj2 Hp) Hd) as [e [Ee [_ He]]]. exists e.
      split; [reflexivity|]. split; [exact (conj M (conj Hc Hd))|]. split; [exact Ee|]. split; [|split; [reflexivity|cbn; intros; lia]].
      intros path. cbn [total fold_right]. rewrite Rplus_0_r, He, Hc. apply (config_at_in_force c times dicts _ path M P Hs).
    - inversion Hi as [|? ? Hi1 Hi2]; subst.
      destruct (update_spec c times dicts inc M Hp Hs Hi1 Hc Hd) as [d [c1 [E1 [M1 [T1 [C1 [D1 [_ R1]]]]]]]].
      destruct (IH c1 Hi2 M1 C1 D1) as [ds [c2 [e [E2 [M2 [A2 [L2 [N2 R2]]]]]]]]. exists (d :: ds), c2, e.
      split; [cbn [updates]; rewrite E1; cbn [bind]; rewrite E2; reflexivity|]. split; [exact M2|]. split; [exact A2|].
      split; [|split; [cbn; rewrite N2; reflexivity|]].
      + intros path. rewrite L2, T1. cbn [total fold_right]. rewrite Rplus_assoc. reflexivity.
      + intros [|i] Hlt.
        * cbn [firstn total fold_right nth]. rewrite !Rplus_0_r. exact R1.
        * cbn [nth]. change (firstn (Datatypes.S i) (inc :: incs)) with (inc :: firstn i incs).
          change (firstn (Datatypes.S (Datatypes.S i)) (inc :: incs)) with (inc :: firstn (Datatypes.S i) incs).
          cbn [total fold_right]. change (fold_right Rplus 0) with (total). rewrite <- !Rplus_assoc, <- T1. apply R2. cbn in Hlt. lia.
  Qed.

  (* C49, when it holds *)
  Lemma update_only_changes times dicts : plain_sections dicts -> sorted times -> forall incs c, Forall (fun i => 0 <= i) incs ->
    made c times dicts ->
    (forall path, dget path_eqb (tv_current c) path = dget path_eqb (config_at c (tv_time c)) path) -> drawn dicts (tv_current c) ->
    forall ds c1 inc d c2, updates seqb set_order incs c = Ok (ds, c1) -> 0 <= inc -> update seqb set_order inc c1 = Ok (d, c2) ->
    forall path, dget path_eqb (tv_current c1) path = dget path_eqb (tv_current c2) path -> leaf_at d path = None.
  Proof.
    intros Hp Hs incs c Hi M Hc Hd ds c1 inc d c2 Eu Hinc E2 path Ep. assert (P := plain_proper _ Hp).
    destruct (updates_spec times dicts Hp Hs incs c Hi M Hc Hd) as [ds' [c1' [e [Eu' [[M1 [C1 D1]] _]]]]].
    assert (X : c1' = c1) by congruence. subst c1'.
    destruct (update_spec c1 times dicts inc M1 Hp Hs Hinc C1 D1) as [d' [c2' [E2' [M2 [T2 [C2 [D2 [_ R2]]]]]]]].
    assert (X : c2' = c2 /\ d' = d) by (split; congruence). destruct X as [-> ->].
    destruct (R2 path) as [[_ R]|[R _]]; [exact R|]. exfalso. apply R.
    rewrite <- (config_at_in_force c1 times dicts _ path M1 P Hs), <- T2, <- (config_at_in_force c2 times dicts _ path M2 P Hs).
    rewrite <- C1, <- C2, Ep. reflexivity.
  Qed.

  Lemma init_made times dicts c : config_init times dicts = Ok c -> made c times dicts /\ tv_time c = 0
    /\ exists d0 rest, dicts = d0 :: rest /\ tv_current c = flatc d0.
  Proof.
    unfold config_init. destruct dicts as [|d0 rest]; [discriminate|]. cbn [map]. intros E.
    assert (X : c = mkConfig times (flatc d0 :: map flatc rest) n0 (flatc d0)) by (change (Ok (mkConfig times (flatc d0 :: map flatc rest) n0 (flatc d0)) = Ok c) in E; congruence). rewrite X.
    split; [split; reflexivity|]. split; [exact n0_R|]. exists d0, rest. split; reflexivity.
  Qed.

  Lemma init_at t0 times dicts c : config_init (t0 :: times) dicts = Ok c -> all_proper dicts -> t0 <= 0 -> Forall (fun t => 0 < t) times ->
    sorted (t0 :: times) ->
    (forall path, dget path_eqb (tv_current c) path = dget path_eqb (config_at c (tv_time c)) path) /\ drawn dicts (tv_current c).
  Proof.
    intros E P H0 Hpos Hs. destruct (init_made _ _ _ E) as [M [T [d0 [rest [Ed Ec]]]]].
    assert (Pd : proper (PyDict d0)) by (apply P; rewrite Ed; left; reflexivity). split.
    - intros path. rewrite (config_at_get c (t0 :: times) dicts) by assumption. rewrite T.
      assert (B : bisect_right (t0 :: times) 0 = 1%nat).
      { destruct (bisect_right_spec (t0 :: times) 0 Hs) as [B1 [B2 B3]].
        destruct (bisect_right (t0 :: times) 0) as [|[|n]] eqn:Eb; [|reflexivity|].
        - assert (X := B3 0%nat). cbn in X. lra || (specialize (X ltac:(lia)); lra).
        - assert (X := B2 1%nat ltac:(lia)). cbn [nth] in X. cbn [length] in B1. destruct times as [|t1 times]; [cbn in B1; lia|].
          inversion Hpos; subst. cbn in X. lra. }
      rewrite B, Ed. cbn [firstn fold_left]. rewrite Ec, dget_flatc by exact Pd. unfold pick.
      destruct (option_map as_tuple (leaf_at d0 path)); reflexivity.
    - rewrite Ec. split; [apply NoDup_flatc; exact Pd|]. intros k v Ek. rewrite dget_flatc in Ek by exact Pd.
      destruct (leaf_at d0 k) as [v0|] eqn:E0; [|discriminate]. exists d0, v0. rewrite Ed. split; [left; reflexivity|].
      split; [exact E0|]. cbn in Ek. congruence.
  Qed.
End Times.

(** ** C51: dump and load *)
Section Dump.
  Context {S : Type} (seqb : S -> S -> bool).
  Hypothesis seqb_ok : forall a b, seqb a b = true <-> a = b.
  Variable set_order : flat S -> flat S.
  Hypothesis set_ok : forall l, Permutation (set_order l) l.
  Local Open Scope R_scope.

  Lemma increasing_sorted times : increasing times -> sorted times.
  Proof.
    intros H i j Hij. destruct (Nat.eq_dec i j) as [->|N]; [lra|]. specialize (H i j ltac:(lia)). lra.
  Qed.
  Lemma bisect_increasing times i : increasing times -> (i < length times)%nat -> bisect_right times (nth i times 0) = Datatypes.S i.
  Proof.
    intros H Hi. destruct (bisect_right_spec times (nth i times 0) (increasing_sorted _ H)) as [B1 [B2 B3]].
    set (b := bisect_right _ _) in *. destruct (Nat.lt_trichotomy b (Datatypes.S i)) as [L|[E|L]]; [|exact E|].
    - assert (X := B3 i ltac:(lia)). lra.
    - assert (X := B2 (Datatypes.S i) L). assert (Y := H i (Datatypes.S i) ltac:(lia)). lra.
  Qed.

  (* the sections 0..k-1 together *)
  Definition upto (dicts : list (dict S)) (k : nat) (path : list string) : option (pyval S) :=
    fold_left (fun v d => pick v (says d path)) (firstn k dicts) None.
  Lemma upto_S dicts k path : (k < length dicts)%nat -> upto dicts (Datatypes.S k) path = pick (upto dicts k path) (says (nth k dicts []) path).
  Proof.
    intros H. unfold upto. assert (X : firstn (Datatypes.S k) dicts = firstn k dicts ++ [nth k dicts []]).
    { clear - H. revert dicts H; induction k as [|k IH]; intros [|d dicts] H; cbn in *; try lia; [reflexivity|]. f_equal. apply IH. lia. }
    rewrite X, fold_left_app. reflexivity.
  Qed.
  Lemma as_list_idem (v : pyval S) : as_list (as_list v) = as_list v.
  Proof. destruct v; reflexivity. Qed.

  Lemma upto_norm dicts k path : option_map as_list (upto dicts k path) = upto dicts k path.
  Proof.
    unfold upto. generalize (firstn k dicts) as l. assert (X : option_map as_list (@None (pyval S)) = None) by reflexivity. revert X.
    generalize (@None (pyval S)). intros v Hv l. revert v Hv. induction l as [|d l IH]; intros v Hv; [exact Hv|]. cbn. apply IH.
    unfold pick, says. destruct (leaf_at d path); cbn; [rewrite as_list_idem; reflexivity|exact Hv].
  Qed.

  Lemma load_sections_combine (ts : list R) (ds : list (dict S)) : length ts = length ds ->
    load_sections (combine (map Some ts) ds) = combine ts ds.
  Proof.
    intros H. unfold load_sections. rewrite combine_length, map_length, H, Nat.min_id. generalize 0%nat as k.
    revert ds H; induction ts as [|t ts IH]; intros [|d ds] H k; try discriminate; [reflexivity|].
    cbn [length seq combine map fst snd]. f_equal. apply IH. cbn in H. lia.
  Qed.
  Lemma map_fst_combine {X Y} (a : list X) (b : list Y) : length a = length b -> map fst (combine a b) = a.
  Proof. revert b; induction a as [|x a IH]; intros [|y b] H; try discriminate; [reflexivity|]. cbn. rewrite IH by (cbn in H; lia). reflexivity. Qed.
  Lemma map_snd_combine {X Y} (a : list X) (b : list Y) : length a = length b -> map snd (combine a b) = b.
  Proof. revert b; induction a as [|x a IH]; intros [|y b] H; try discriminate; [reflexivity|]. cbn. rewrite IH by (cbn in H; lia). reflexivity. Qed.

  Theorem dump_load times dicts c : plain_sections dicts -> increasing times -> length times = length dicts ->
    config_init times dicts = Ok c ->
    exists docs c', dump seqb set_order c = Ok docs /\ from_file docs = Ok c'
      /\ forall t path, dget path_eqb (config_at c' t) path = dget path_eqb (config_at c t) path.
  Proof.
    intros Hp Hi Hl E. assert (P := plain_proper _ Hp). assert (Hs := increasing_sorted _ Hi).
    destruct (init_made _ _ _ E) as [M [_ [d0 [rest [Ed Ec]]]]].
    assert (P0 : proper (PyDict d0)) by (apply P; rewrite Ed; left; reflexivity).
    destruct (drawn_expand dicts (flatc d0) (proj2 Hp)) as [e0 [Ee0 [Pe0 He0]]].
    { split; [apply NoDup_flatc; exact P0|]. intros k v Ek. rewrite dget_flatc in Ek by exact P0.
      destruct (leaf_at d0 k) as [v0|] eqn:E0; [|discriminate]. exists d0, v0. rewrite Ed. split; [left; reflexivity|].
      split; [exact E0|]. cbn in Ek. congruence. }
    destruct times as [|t0 times]; [rewrite Ed in Hl; discriminate|].
    set (pairs := combine (removelast (t0 :: times)) times).
    assert (Lp : length pairs = length times).
    { unfold pairs. rewrite combine_length, removelast_length. cbn. lia. }
    assert (Np : forall i, (i < length times)%nat -> nth i pairs (0, 0) = (nth i (t0 :: times) 0, nth i times 0)).
    { intros i H. unfold pairs. rewrite combine_nth by (rewrite removelast_length; cbn; lia).
      rewrite nth_removelast by (cbn; lia). reflexivity. }
    assert (Each : forall pn, exists e, (let* items := diff seqb set_order c (fst pn) (snd pn) in expand_dict items) = Ok e /\ proper (PyDict e)
               /\ reports_change (in_force (combine (t0 :: times) dicts) (fst pn)) (in_force (combine (t0 :: times) dicts) (snd pn)) e).
    { intros [a b]. cbn [fst snd]. destruct (diff_spec seqb seqb_ok set_order set_ok c _ dicts a b M Hp) as [items [-> [Di Hitems]]]. cbn [bind].
      destruct (drawn_expand dicts items (proj2 Hp) Di) as [e [-> [Pe He]]]. exists e. split; [reflexivity|]. split; [exact Pe|].
      intros path. rewrite He. rewrite <- !(config_at_in_force c _ dicts _ path M P Hs). destruct (Hitems path) as [[H1 H2]|[H1 H2]]; rewrite H2.
      - left. rewrite H1. split; reflexivity.
      - right. split; [|reflexivity]. intros X. exact (H1 (at_inj c _ dicts _ _ path M P X)). }
    destruct (mapM_ok (fun pn : R * R => let* items := diff seqb set_order c (fst pn) (snd pn) in expand_dict items) pairs) as [es Ees].
    { intros pn _. destruct (Each pn) as [e [Ee _]]. exists e. exact Ee. }
    assert (Les := mapM_length _ _ _ Ees). assert (Nes := mapM_nth _ _ _ (0, 0) [] Ees). cbv beta in Nes.
    exists (combine (map Some (t0 :: times)) (e0 :: es)).
    assert (Ll : length (t0 :: times) = length (e0 :: es)) by (cbn; lia).
    assert (Ef : from_file (combine (map Some (t0 :: times)) (e0 :: es)) = config_init (t0 :: times) (e0 :: es)).
    { unfold from_file. rewrite load_sections_combine by exact Ll. rewrite map_fst_combine, map_snd_combine by exact Ll. reflexivity. }
    assert (Ex : exists c', config_init (t0 :: times) (e0 :: es) = Ok c') by (eexists; reflexivity). destruct Ex as [c' Ec'].
    exists c'. split.
    { unfold dump. destruct M as [-> ->]. rewrite Ed. cbn [map tl]. rewrite Ee0. cbn [bind]. fold pairs. rewrite Ees. reflexivity. }
    split; [rewrite Ef; exact Ec'|]. intros t path.
    destruct (init_made _ _ _ Ec') as [M' _].
    assert (P' : all_proper (e0 :: es)).
    { intros d [<-|Hd]; [exact Pe0|]. destruct (In_nth _ _ [] Hd) as [i [Hi' <-]]. assert (Hi2 : (i < length pairs)%nat) by (rewrite <- Les; exact Hi'). clear Hi'.
      specialize (Nes i Hi2). destruct (Each (nth i pairs (0, 0))) as [e [Ee [Pe _]]]. rewrite Ee in Nes.
      assert (X : e = nth i es []) by exact (f_equal (fun r => match r with Ok x => x | Err _ => e end) Nes). exact (eq_ind e (fun x => proper (PyDict x)) Pe _ X). }
    assert (Up : forall k, (k <= length dicts)%nat -> forall p, upto (e0 :: es) k p = upto dicts k p).
    { induction k as [|k IH]; intros Hk p; [reflexivity|]. rewrite !upto_S by (cbn in *; lia). rewrite (IH ltac:(lia)).
      destruct k as [|k].
      - cbn [nth upto firstn fold_left]. unfold says at 1. rewrite He0, dget_flatc by exact P0. rewrite Ed. cbn [nth]. unfold says.
        destruct (leaf_at d0 p) as [v|]; cbn; [rewrite as_list_idem, as_list_tuple|]; reflexivity.
      - cbn [nth]. assert (Hk' : (k < length times)%nat) by (cbn in Hl; lia).
        destruct (Each (nth k pairs (0, 0))) as [e [Ee [_ Re]]]. rewrite (Nes k) in Ee by lia.
        assert (X : nth k es [] = e) by exact (f_equal (fun r => match r with Ok x => x | Err _ => e end) Ee). rewrite X. rewrite Np in Re by exact Hk'. cbn [fst snd] in Re.
        specialize (Re p). rewrite !in_force_firstn in Re by exact Hs.
        rewrite (bisect_increasing (t0 :: times) k Hi) in Re by (cbn; lia).
        assert (Bk := bisect_increasing (t0 :: times) (Datatypes.S k) Hi ltac:(cbn; lia)). cbn [nth] in Bk. rewrite Bk in Re.
        fold (upto dicts (Datatypes.S k) p) in Re. fold (upto dicts (Datatypes.S (Datatypes.S k)) p) in Re.
        rewrite (upto_S dicts (Datatypes.S k)) in Re by lia. unfold says at 1.
        destruct Re as [[R1 R2]|[R1 R2]]; rewrite R2; [exact R1|].
        assert (Norm := upto_norm dicts (Datatypes.S (Datatypes.S k)) p). rewrite upto_S in Norm by lia.
        rewrite Norm. unfold pick in *. destruct (says (nth (Datatypes.S k) dicts []) p); [reflexivity|].
        destruct (upto dicts (Datatypes.S k) p); reflexivity. }
    assert (K : forall cc ds, made cc (t0 :: times) ds -> all_proper ds ->
              option_map as_list (dget path_eqb (config_at cc t) path) = upto ds (bisect_right (t0 :: times) t) path).
    { intros cc ds Mc Pc. rewrite (config_at_in_force cc _ ds t path Mc Pc Hs). apply in_force_firstn. exact Hs. }
    assert (Eq : option_map as_list (dget path_eqb (config_at c' t) path) = option_map as_list (dget path_eqb (config_at c t) path)).
    { rewrite (K c' _ M' P'), (K c _ M P). apply Up. rewrite <- Hl. apply (bisect_right_spec (t0 :: times) t Hs). }
    assert (F' := fun v => config_at_from c' _ _ t path v M' P'). assert (F := fun v => config_at_from c _ _ t path v M P).
    destruct (dget path_eqb (config_at c' t) path) as [v|]; destruct (dget path_eqb (config_at c t) path) as [w|]; cbn in Eq; try congruence.
    destruct (F' v eq_refl) as [d1 [v1 [_ [E1 ->]]]]. destruct (F w eq_refl) as [d2 [v2 [_ [E2 ->]]]].
    f_equal. apply as_list_inj; [exact (as_tuple_flat _ _ _ E1)|exact (as_tuple_flat _ _ _ E2)|congruence].
  Qed.
End Dump.
