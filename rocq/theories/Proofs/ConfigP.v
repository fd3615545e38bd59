(** Proofs about configurations. *)
From Coq Require Import String List Bool Reals Lra Lia Permutation.
From Verif.Base Require Import Num Py.
From Verif.Model Require Import Shoreline Config.
From Verif.Spec Require Import Profile Sections.
From Verif.Proofs Require Import ShorelineP ProcessesP.
Import ListNotations.
Local Open Scope list_scope.

Section Values.
  Context {S : Type} (seqb : S -> S -> bool).
  Hypothesis seqb_ok : forall a b, seqb a b = true <-> a = b.

  Fixpoint pyval_ind' (P : pyval S -> Prop) (Hs : forall s, P (Scalar s)) (Hl : forall l, Forall P l -> P (PyList l))
      (Ht : forall l, Forall P l -> P (PyTuple l)) (Hd : forall d, Forall (fun kv => P (snd kv)) d -> P (PyDict d)) v : P v :=
    let all := fix all l := match l return Forall P l with [] => Forall_nil _ | a :: l => Forall_cons _ (pyval_ind' P Hs Hl Ht Hd a) (all l) end in
    match v with
    | Scalar s => Hs s
    | PyList l => Hl l (all l)
    | PyTuple l => Ht l (all l)
    | PyDict d => Hd d ((fix go d := match d return Forall (fun kv => P (snd kv)) d with
                                     | [] => Forall_nil _
                                     | kv :: d => Forall_cons _ (pyval_ind' P Hs Hl Ht Hd (snd kv)) (go d) end) d)
    end.

  Lemma path_eqb_spec a b : path_eqb a b = true <-> a = b.
  Proof.
    revert b; induction a as [|x a IH]; intros [|y b]; cbn; try (split; [discriminate|discriminate]); [tauto|].
    rewrite andb_true_iff, String.eqb_eq, IH. split; [intros [-> ->]; reflexivity|intros E; injection E; auto].
  Qed.
  Lemma path_eqb_refl a : path_eqb a a = true.
  Proof. apply path_eqb_spec. reflexivity. Qed.

  Lemma dget_app {K V} (eqb : K -> K -> bool) (a b : list (K * V)) k :
    dget eqb (a ++ b) k = match dget eqb a k with Some v => Some v | None => dget eqb b k end.
  Proof. induction a as [|[k0 v0] a IH]; [reflexivity|]. cbn. destruct (eqb k k0); [reflexivity|exact IH]. Qed.
  Lemma dset_new {K V} (eqb : K -> K -> bool) (a : list (K * V)) k v : dget eqb a k = None -> dset eqb a k v = a ++ [(k, v)].
  Proof. induction a as [|[k0 v0] a IH]; [reflexivity|]. cbn. destruct (eqb k k0); [discriminate|]. intros E. rewrite IH by exact E. reflexivity. Qed.
  Lemma dset_last {K V} (eqb : K -> K -> bool) (a : list (K * V)) k v v' : dget eqb a k = None -> eqb k k = true ->
    dset eqb (a ++ [(k, v)]) k v' = a ++ [(k, v')].
  Proof.
    intros E R. induction a as [|[k0 v0] a IH]; cbn; [rewrite R; reflexivity|]. cbn in E. destruct (eqb k k0); [discriminate|].
    rewrite IH by exact E. reflexivity.
  Qed.
  Lemma dupdate_fresh {V} (e d : list (list string * V)) : NoDup (dkeys (d ++ e)) -> dupdate path_eqb d e = d ++ e.
  Proof.
    unfold dupdate. revert d; induction e as [|[k v] e IH]; intros d H; [rewrite app_nil_r; reflexivity|].
    cbn [fold_left fst snd]. rewrite dset_new.
    - rewrite IH, <- app_assoc; [reflexivity|]. rewrite <- app_assoc. exact H.
    - apply (dget_none_iff _ path_eqb_spec). unfold dkeys in H. rewrite map_app in H. cbn in H. apply NoDup_remove in H.
      destruct H as [_ H]. intros X. apply H. apply in_or_app. left. exact X.
  Qed.

  Lemma NoDup_app' {T} (a b : list T) : NoDup a -> NoDup b -> (forall x, In x a -> ~ In x b) -> NoDup (a ++ b).
  Proof.
    intros Ha Hb H. induction Ha as [|x a Hx Ha IH]; [exact Hb|]. cbn. constructor.
    - rewrite in_app_iff. intros [X|X]; [exact (Hx X)|]. exact (H x (or_introl eq_refl) X).
    - apply IH. intros y Hy. apply H. right. exact Hy.
  Qed.

  (** ** walking *)
  Definition under (k : string) (kv : list string * pyval S) : list string * pyval S := (k :: fst kv, snd kv).
  Lemma walk_prefix (v : pyval S) : forall prev, walk_value prev v = map (fun kv => (prev ++ fst kv, snd kv)) (walk_value [] v).
  Proof.
    induction v as [s|l _|l _|d IH] using pyval_ind'; intros prev; cbn; try (rewrite app_nil_r; reflexivity).
    induction IH as [|[k v] d Hv _ IHd]; [reflexivity|]. cbn [flat_map fst snd app]. rewrite map_app, <- IHd. f_equal.
    cbn [snd] in Hv. rewrite Hv, (Hv [k]), map_map. apply map_ext. intros [p x]. cbn. rewrite <- app_assoc. reflexivity.
  Qed.
  Lemma walk_dict_eq (d : dict S) : walk_dict d = flat_map (fun kv => map (under (fst kv)) (walk_value [] (snd kv))) d.
  Proof.
    unfold walk_dict. cbn. apply flat_map_ext. intros [k v]. cbn. rewrite walk_prefix. apply map_ext. intros [p x]. reflexivity.
  Qed.

  Definition value_leaf (v : pyval S) (path : list string) : option (pyval S) :=
    match v with PyDict d => leaf_at d path | v => match path with [] => Some v | _ => None end end.
  Lemma leaf_at_cons k v (d : dict S) k' rest :
    leaf_at ((k, v) :: d) (k' :: rest) = if String.eqb k' k then value_leaf v rest else leaf_at d (k' :: rest).
  Proof. cbn. destruct (String.eqb k' k); [|reflexivity]. destruct v; reflexivity. Qed.
  Lemma leaf_at_nil_dict path : leaf_at (@nil (string * pyval S)) path = None.
  Proof. destruct path; reflexivity. Qed.
  Lemma leaf_at_absent (d : dict S) k rest : ~ In k (dkeys d) -> leaf_at d (k :: rest) = None.
  Proof. intros H. cbn. apply (dget_none_iff _ seqb_spec) in H. rewrite H. reflexivity. Qed.

  Definition properd (d : dict S) : Prop := NoDup (dkeys d) /\ Forall (fun kv => proper (snd kv)) d.
  Lemma proper_dict (d : dict S) : proper (PyDict d) <-> properd d.
  Proof.
    cbn. unfold properd. apply and_iff_compat_l. induction d as [|kv d IH]; [split; [constructor|tauto]|].
    rewrite IH. split; [intros [A B]; constructor; assumption|intros H; inversion H; auto].
  Qed.

  Lemma dget_under k items path : dget path_eqb (map (under k) items) path
    = match path with [] => None | k' :: rest => if String.eqb k' k then dget path_eqb items rest else None end.
  Proof.
    induction items as [|[p x] items IH].
    - cbn. destruct path as [|k' rest]; [reflexivity|]. destruct (String.eqb k' k); reflexivity.
    - cbn [map under fst snd dget]. destruct path as [|k' rest]; [exact IH|]. cbn [path_eqb].
      destruct (String.eqb k' k); cbn [andb]; [|exact IH]. cbn [dget]. destruct (path_eqb rest p); [reflexivity|exact IH].
  Qed.

  Lemma dget_walk_value (v : pyval S) : proper v -> forall path, dget path_eqb (walk_value [] v) path = value_leaf v path.
  Proof.
    induction v as [s|l _|l _|d IH] using pyval_ind'; intros Hp path; try (cbn; destruct path; reflexivity).
    apply proper_dict in Hp. destruct Hp as [Hn Hp]. change (walk_value [] (PyDict d)) with (walk_dict d). rewrite walk_dict_eq.
    cbn [value_leaf]. revert Hn Hp. induction IH as [|[k v] d Hv _ IHd]; intros Hn Hp; [symmetry; apply leaf_at_nil_dict|].
    inversion Hn as [|? ? Hn1 Hn2]; subst. inversion Hp as [|? ? Hp1 Hp2]; subst. cbn [snd fst] in *.
    cbn [flat_map fst snd]. rewrite dget_app, dget_under. destruct path as [|k' rest]; [apply IHd; assumption|].
    rewrite leaf_at_cons, Hv by exact Hp1. rewrite (IHd Hn2 Hp2). destruct (String.eqb_spec k' k) as [->|N]; [|reflexivity].
    rewrite leaf_at_absent by exact Hn1. destruct (value_leaf v rest); reflexivity.
  Qed.

  Lemma NoDup_under k items : NoDup (dkeys items) -> NoDup (dkeys (map (under k) items)).
  Proof.
    intros H. unfold dkeys. rewrite map_map. cbn. rewrite <- (map_map fst (cons k)). apply FinFun.Injective_map_NoDup; [|exact H].
    intros a b E. injection E. auto.
  Qed.
  Lemma walk_NoDup (v : pyval S) : proper v -> NoDup (dkeys (walk_value [] v)).
  Proof.
    induction v as [s|l _|l _|d IH] using pyval_ind'; intros Hp; try (cbn; repeat constructor; intros []).
    apply proper_dict in Hp. destruct Hp as [Hn Hp]. change (walk_value [] (PyDict d)) with (walk_dict d). rewrite walk_dict_eq.
    revert Hn Hp. induction IH as [|[k v] d Hv _ IHd]; intros Hn Hp; [constructor|].
    inversion Hn as [|? ? Hn1 Hn2]; subst. inversion Hp as [|? ? Hp1 Hp2]; subst. cbn [snd fst] in *.
    cbn [flat_map fst snd]. unfold dkeys. rewrite map_app. apply NoDup_app'; [apply NoDup_under; auto|apply IHd; assumption|].
    intros path H1 H2. apply in_map_iff in H1. destruct H1 as [x1 [E1 H1]]. apply in_map_iff in H1. destruct H1 as [y1 [E1' H1]].
    apply in_map_iff in H2. destruct H2 as [x2 [E2 H2]]. apply in_flat_map in H2. destruct H2 as [[k2 v2] [H2 H3]].
    apply in_map_iff in H3. destruct H3 as [y2 [E3 H3]]. subst x1 x2 path. cbn in E2. injection E2 as E2 _. subst k2.
    apply Hn1. apply in_map_iff. exists (k, v2). split; [reflexivity|exact H2].
  Qed.
  Lemma flatten_walk (d : dict S) : proper (PyDict d) -> flatten_dict d = walk_dict d.
  Proof. intros H. unfold flatten_dict. apply dupdate_fresh. cbn [app]. apply walk_NoDup. exact H. Qed.
  Lemma flatten_NoDup (d : dict S) : proper (PyDict d) -> NoDup (dkeys (flatten_dict d)).
  Proof. intros H. rewrite flatten_walk by exact H. apply walk_NoDup. exact H. Qed.
  Lemma dget_flatten (d : dict S) path : proper (PyDict d) -> dget path_eqb (flatten_dict d) path = leaf_at d path.
  Proof. intros H. rewrite flatten_walk by exact H. exact (dget_walk_value (PyDict d) H path). Qed.

  (** ** C50: expanding what was flattened *)
  Lemma add_item_cons k k1 p (x : pyval S) d : add_item (k :: k1 :: p) x d
    = match dget String.eqb d k with
      | None => let* sub := add_item (k1 :: p) x [] in Ok (dset String.eqb d k (PyDict sub))
      | Some (PyDict sub) => let* sub := add_item (k1 :: p) x sub in Ok (dset String.eqb d k (PyDict sub))
      | Some _ => Err TypeError
      end.
  Proof. reflexivity. Qed.
  Lemma dset_ne {K V} (eqb : K -> K -> bool) (d : list (K * V)) k v : dset eqb d k v <> [].
  Proof. destruct d as [|[a b] d]; cbn; [discriminate|]. destruct (eqb k a); discriminate. Qed.
  Lemma add_item_ne q (y : pyval S) s s2 : add_item q y s = Ok s2 -> s2 <> [].
  Proof.
    destruct q as [|q1 [|q2 q]]; [discriminate| |].
    - cbn. intros E. assert (X : s2 = dset String.eqb s q1 (as_list y)) by congruence. rewrite X. apply dset_ne.
    - rewrite add_item_cons. destruct (dget String.eqb s q1) as [[?|?|?|sd]|]; try discriminate;
        (match goal with |- context [add_item ?a ?b ?c] => destruct (add_item a b c) as [r|] end); cbn [bind]; try discriminate;
        intros E; (match type of E with Ok ?x = _ => assert (X : s2 = x) by congruence end); rewrite X; apply dset_ne.
  Qed.
  Lemma expand_under k (items : flat S) (acc s : dict S) : dget String.eqb acc k = None ->
    Forall (fun kv => fst kv <> []) items ->
    foldM (fun d kv => add_item (fst kv) (snd kv) d) (map (under k) items) (acc ++ [(k, PyDict s)])
    = let* s' := foldM (fun d kv => add_item (fst kv) (snd kv) d) items s in Ok (acc ++ [(k, PyDict s')]).
  Proof.
    intros Ha Hne. revert s. induction Hne as [|[p x] items Hp _ IH]; intros s; [reflexivity|].
    cbn [map under fst snd foldM]. cbn [fst] in Hp. destruct p as [|k1 p]; [congruence|].
    rewrite add_item_cons, dget_app, Ha. cbn [dget]. rewrite String.eqb_refl.
    destruct (add_item (k1 :: p) x s) as [s1|e]; [|reflexivity]. cbn [bind]. rewrite dset_last by (auto; apply String.eqb_refl).
    apply IH.
  Qed.
  Lemma walk_dict_ne (d : dict S) : Forall (fun kv => fst kv <> []) (walk_dict d).
  Proof.
    rewrite walk_dict_eq. apply Forall_forall. intros [p x] H. apply in_flat_map in H. destruct H as [[k v] [_ H]].
    apply in_map_iff in H. destruct H as [y [E _]]. cbn. injection E as E _. rewrite <- E. discriminate.
  Qed.

  Lemma without_empty_dict (d : dict S) : without_empty (PyDict d)
    = PyDict (flat_map (fun kv => match without_empty (snd kv) with PyDict [] => [] | v => [(fst kv, v)] end) d).
  Proof. reflexivity. Qed.
  Definition pruned (d : dict S) : dict S :=
    flat_map (fun kv => match without_empty (snd kv) with PyDict [] => [] | v => [(fst kv, v)] end) d.

  Lemma expand_walk (v : pyval S) : proper v -> forall d, v = PyDict d -> forall acc : dict S,
    (forall k, In k (dkeys d) -> dget String.eqb acc k = None) ->
    foldM (fun d kv => add_item (fst kv) (snd kv) d) (walk_dict d) acc = Ok (acc ++ pruned d).
  Proof.
    induction v as [s|l _|l _|d0 IH] using pyval_ind'; intros Hp d E; try discriminate.
    injection E as <-. apply proper_dict in Hp. destruct Hp as [Hn Hp]. rewrite walk_dict_eq.
    revert Hn Hp. induction IH as [|[k v] d Hv _ IHd]; intros Hn Hp acc Hk; [cbn; rewrite app_nil_r; reflexivity|].
    inversion Hn as [|? ? Hn1 Hn2]; subst. inversion Hp as [|? ? Hp1 Hp2]; subst. cbn [snd fst] in *.
    cbn [flat_map fst snd]. rewrite foldM_app.
    assert (Ka : dget String.eqb acc k = None) by (apply Hk; left; reflexivity).
    assert (Step : foldM (fun d kv => add_item (fst kv) (snd kv) d) (map (under k) (walk_value [] v)) acc
                   = Ok (acc ++ match without_empty v with PyDict [] => [] | w => [(k, w)] end)).
    { destruct v as [s|l|l|sub]; try (cbn; rewrite dset_new by exact Ka; reflexivity).
      specialize (Hv Hp1 sub eq_refl [] (fun _ _ => eq_refl)). cbn [app] in Hv.
      change (walk_value [] (PyDict sub)) with (walk_dict sub). rewrite without_empty_dict. fold (pruned sub).
      assert (N := walk_dict_ne sub). destruct (walk_dict sub) as [|[p x] items].
      - cbn in Hv. assert (X : pruned sub = []) by congruence. rewrite X. cbn. rewrite app_nil_r. reflexivity.
      - inversion N as [|? ? N1 N2]; subst. cbn [fst] in N1. cbn [map under fst snd foldM].
        destruct p as [|k1 p]; [congruence|]. cbn [foldM fst snd] in Hv. rewrite add_item_cons, Ka.
        destruct (add_item (k1 :: p) x []) as [s1|e] eqn:Ea; [|discriminate].
        cbn [bind] in *. rewrite dset_new by exact Ka. rewrite expand_under by assumption. rewrite Hv. cbn [bind].
        destruct (pruned sub) eqn:Ep; [exfalso|reflexivity].
        clear - Hv Ea. apply add_item_ne in Ea. revert s1 Hv Ea.
        induction items as [|[q y] items IH]; intros s1 Hv Hs; cbn [foldM fst snd] in Hv; [congruence|].
        destruct (add_item q y s1) as [s2|] eqn:E2; [|discriminate]. cbn [bind] in Hv. apply (IH s2 Hv).
        exact (add_item_ne _ _ _ _ E2). }
    rewrite Step. cbn [bind]. rewrite IHd; [|assumption|assumption|].
    - unfold pruned at 2. cbn [flat_map fst snd]. rewrite <- app_assoc. reflexivity.
    - intros k' Hin. rewrite dget_app, Hk by (right; exact Hin). destruct (without_empty v) as [?|?|?|[|? ?]]; cbn [dget];
        try reflexivity; destruct (String.eqb_spec k' k) as [->|]; try reflexivity; destruct (Hn1 Hin).
  Qed.

  Theorem expand_flatten (d : dict S) : proper (PyDict d) ->
    exists d', expand_dict (flatten_dict d) = Ok d' /\ without_empty (PyDict d) = PyDict d'.
  Proof.
    intros H. exists (pruned d). split; [|reflexivity]. rewrite flatten_walk by exact H. unfold expand_dict.
    rewrite (expand_walk (PyDict d) H d eq_refl []); reflexivity.
  Qed.

  Definition solidd (d : dict S) : Prop := d <> [] /\ Forall (fun kv => solid (snd kv)) d.
  Lemma solid_dict (d : dict S) : solid (PyDict d) <-> solidd d.
  Proof.
    cbn. unfold solidd. apply and_iff_compat_l. induction d as [|kv d IH]; [split; [constructor|tauto]|].
    rewrite IH. split; [intros [A B]; constructor; assumption|intros H; inversion H; auto].
  Qed.
  Lemma solid_same (v : pyval S) : solid v -> without_empty v = v.
  Proof.
    induction v as [s|l _|l _|d IH] using pyval_ind'; intros H; try reflexivity; [destruct H|].
    apply solid_dict in H. destruct H as [_ H]. rewrite without_empty_dict. f_equal.
    induction IH as [|[k v] d Hv _ IHd]; [reflexivity|]. inversion H as [|? ? H1 H2]; subst. cbn [flat_map fst snd] in *.
    rewrite Hv by exact H1. rewrite (IHd H2). destruct v as [?|?|?|[|? ?]]; try reflexivity. apply solid_dict in H1. destruct H1. congruence.
  Qed.
  Theorem expand_flatten_solid (d : dict S) : proper (PyDict d) -> Forall (fun kv => solid (snd kv)) d ->
    expand_dict (flatten_dict d) = Ok d.
  Proof.
    intros H Hs. destruct (expand_flatten d H) as [d' [-> E]]. f_equal. destruct d as [|kv d].
    - cbn in E. congruence.
    - assert (X : solid (PyDict (kv :: d))) by (apply solid_dict; split; [discriminate|exact Hs]).
      rewrite (solid_same _ X) in E. congruence.
  Qed.
End Values.
