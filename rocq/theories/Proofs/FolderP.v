(** What is read from a folder: setup then run, the settings of a plot, the
    parameters that processes share. *)
From Coq Require Import String Ascii List ZArith QArith Reals Lra Lia Arith Bool Permutation.
From Verif.Base Require Import Num Py Arr.
From Verif.Model Require Import Config Cli Commands.
From Verif.Model Require Processes.
From Verif.Spec Require Import Profile Sections Parameters CommandLine Run.
From Verif.Proofs Require Import ProcessesP ConfigP TimeVaryingP ConfigEx CliP RunP DotsP.
Import ListNotations.
Local Open Scope string_scope.
Local Open Scope list_scope.

(** ** as_dict *)
Section AsDict.
  Context {S : Type}.

  Lemma as_list_tuple (v : pyval S) : as_list (as_tuple v) = as_list v.
  Proof. destruct v; reflexivity. Qed.
  Lemma add_item_tuple path (v : pyval S) : forall d, add_item path (as_tuple v) d = add_item path v d.
  Proof.
    induction path as [|k path IH]; intros d; [reflexivity|]. destruct path as [|k' path].
    - cbn. rewrite as_list_tuple. reflexivity.
    - rewrite !add_item_cons. destruct (dget String.eqb d k) as [[| | |sub]|]; try reflexivity; rewrite IH; reflexivity.
  Qed.
  Lemma expand_flatc (d : dict S) : expand_dict (flatc d) = expand_dict (flatten_dict d).
  Proof.
    unfold expand_dict, flatc. generalize (flatten_dict d) (@nil (string * pyval S)). induction f as [|[p v] f IH]; intros acc; [reflexivity|].
    cbn [map foldM fst snd]. rewrite add_item_tuple. destruct (add_item p v acc); [apply IH|reflexivity].
  Qed.
  Lemma as_dict_init (times : list R) (d0 : dict S) rest c : proper (PyDict d0) -> config_init times (d0 :: rest) = Ok c -> as_dict c = Ok (pruned d0).
  Proof.
    intros P E. destruct (init_made _ _ _ E) as [_ [_ [d [r [Ed Ec]]]]]. unfold as_dict. rewrite Ec, expand_flatc.
    assert (d = d0) by congruence. subst d. destruct (expand_flatten d0 P) as [d' [E1 E2]]. rewrite E1. f_equal.
    change (without_empty (PyDict d0)) with (PyDict (pruned d0)) in E2. congruence.
  Qed.

  Lemma dget_pruned (d : dict S) k : NoDup (dkeys d) -> dget String.eqb (pruned d) k
    = match dget String.eqb d k with
      | Some v => match without_empty v with PyDict [] => None | v => Some v end
      | None => None
      end.
  Proof.
    induction d as [|[k0 v] d IH]; intros N; [reflexivity|]. cbn [dkeys map fst] in N. inversion N as [|? ? N1 N2]; subst.
    unfold pruned in *. cbn [flat_map fst snd dget]. rewrite dget_app, (IH N2). destruct (String.eqb_spec k k0) as [->|Hk].
    - destruct (dget String.eqb d k0) eqn:E; [apply (dget_in _ seqb_spec) in E; destruct N1; apply (in_map fst) in E; exact E|].
      destruct (without_empty v) as [| | |[|]]; cbn [dget]; rewrite ?String.eqb_refl; reflexivity.
    - apply String.eqb_neq in Hk. destruct (without_empty v) as [| | |[|]]; cbn [dget]; rewrite ?Hk; reflexivity.
  Qed.

  Lemma leaf_empty path : leaf_at (@nil (string * pyval S)) path = None.
  Proof. destruct path; reflexivity. Qed.
  Lemma leaf_pruned_value (v : pyval S) : proper v -> forall d, v = PyDict d -> forall path, leaf_at (pruned d) path = says d path.
  Proof.
    induction v as [s|l _|l _|d0 IH] using pyval_ind'; intros P d E path; try discriminate E. injection E as <-.
    apply proper_dict in P. destruct P as [N P]. unfold says. destruct path as [|k path]; [reflexivity|]. cbn [leaf_at]. rewrite dget_pruned by exact N.
    destruct (dget String.eqb d0 k) as [v|] eqn:Ek; [|reflexivity]. assert (I := dget_in _ seqb_spec _ _ _ Ek).
    rewrite Forall_forall in IH, P. specialize (IH _ I (P _ I)). cbn [snd] in IH. clear P I Ek.
    destruct v as [s|l|l|sub].
    - cbn. destruct path; reflexivity.
    - cbn. destruct path; reflexivity.
    - cbn. destruct path; reflexivity.
    - specialize (IH sub eq_refl path). change (without_empty (PyDict sub)) with (PyDict (pruned sub)). unfold says in IH.
      destruct (pruned sub) as [|kv l] eqn:Ep; [rewrite <- IH, leaf_empty; reflexivity|]. exact IH.
  Qed.
  Lemma leaf_pruned (d : dict S) path : proper (PyDict d) -> leaf_at (pruned d) path = says d path.
  Proof. intros P. exact (leaf_pruned_value (PyDict d) P d eq_refl path). Qed.

  Lemma value_leaf_at (d : dict S) path v : value_at d path = Some v -> (forall sub, v <> PyDict sub) -> leaf_at d path = Some v.
  Proof.
    intros E Nv. revert d E. induction path as [|k path IH]; intros d E; [discriminate E|]. destruct path as [|k' path].
    - cbn in E |- *. rewrite E. destruct v; try reflexivity. destruct (Nv d0 eq_refl).
    - change (value_at d (k :: k' :: path)) with (match dget String.eqb d k with Some (PyDict sub) => value_at sub (k' :: path) | _ => None end) in E.
      cbn [leaf_at]. destruct (dget String.eqb d k) as [[| | |sub]|]; try discriminate E. apply IH, E.
  Qed.
End AsDict.

(** ** setup, then run *)
Section SetupRun.
  Context {S : Type} (parse : string -> result (pyval S)).

  Lemma proper_update (d e : dict S) : proper (PyDict d) -> proper (PyDict e) -> proper (PyDict (dupdate String.eqb d e)).
  Proof.
    rewrite !proper_dict. intros [N P] [_ Q]. unfold dupdate. revert d N P. induction Q as [|[k v] e Hv _ IH]; intros d N P; [split; assumption|].
    cbn [fold_left fst snd] in *. apply IH; [apply (NoDup_dset _ seqb_spec), N|].
    clear -P Hv. induction P as [|[k0 v0] d H Hd IHd]; cbn [dset]; [constructor; [exact Hv|constructor]|].
    destruct (String.eqb k k0); constructor; cbn [snd] in *; auto.
  Qed.
  Lemma proper_nest names (v : pyval S) : proper v -> proper (PyDict (nest names v)).
  Proof.
    intros P. induction names as [|k names IH]; [cbn; split; [constructor|exact I]|]. destruct names as [|k' names].
    - cbn. split; [repeat constructor; intros []|]. split; [exact P|exact I].
    - change (nest (k :: k' :: names) v) with [(k, PyDict (nest (k' :: names) v))].
      apply proper_dict. split; [cbn; repeat constructor; intros []|]. constructor; [exact IH|constructor].
  Qed.

  Lemma load_proper defaults os params : Forall (valid_option parse) os -> Forall (fun o => proper (op_value o)) os ->
    Forall (fun gd => exists sub, snd gd = PyDict sub) defaults -> proper (PyDict defaults) ->
    load_model_params parse defaults (map written os) = Ok params -> proper (PyDict params) /\ dkeys params = dkeys defaults.
  Proof.
    intros F Fp D P E. destruct (load_options parse os F) as [cl [E1 H]]. unfold load_model_params in E. rewrite E1 in E. cbn [bind] in E.
    rewrite proper_dict in P. destruct P as [N P].
    assert (K : forall l m, mapM (fun gd => let* d := update_with (snd gd) (match dget String.eqb cl (fst gd) with
                                                     | Some v => v | None => PyDict [] end) in Ok (fst gd, d)) l = Ok m ->
      Forall (fun kv => proper (snd kv)) l -> dkeys m = dkeys l /\ Forall (fun kv => proper (snd kv)) m).
    { induction l as [|[g v] l IH]; intros m Em Pl; [inversion Em; split; [reflexivity|constructor]|]. inversion Pl as [|? ? P1 P2]; subst.
      cbn [mapM fst snd] in Em. destruct (update_with v _) as [v'|] eqn:Ev; [|discriminate Em]. cbn [bind] in Em.
      destruct (mapM _ l) as [m1|] eqn:Em1; [|discriminate Em]. cbn [bind] in Em. assert (X : m = (g, v') :: m1) by congruence. subst m.
      destruct (IH m1 eq_refl P2) as [K1 K2]. split; [change (g :: dkeys m1 = g :: dkeys l); rewrite K1; reflexivity|]. constructor; [|exact K2]. cbn [snd] in *.
      rewrite H in Ev. unfold from_options in Ev. destruct v as [| | |sub]; try discriminate Ev.
      destruct (find (matches g) (rev os)) as [o|] eqn:Ef; cbn [option_map update_with] in Ev.
      - assert (X : v' = PyDict (dupdate String.eqb sub (nest (tl (op_names o)) (op_value o)))) by congruence. subst v'.
        apply proper_update; [exact P1|]. apply proper_nest. apply find_some in Ef. destruct Ef as [I _]. apply in_rev in I.
        rewrite Forall_forall in Fp. apply Fp, I.
      - change (dupdate String.eqb sub []) with sub in Ev. assert (X : v' = PyDict sub) by congruence. subst v'. exact P1. }
    destruct (K _ _ E P) as [K1 K2]. split; [|exact K1]. apply proper_dict. split; [|exact K2]. rewrite K1. exact N.
  Qed.

  Lemma write_files_NoDup render files set : forall (w w' : @world S) r, NoDup (dkeys (w_files w)) -> write_files parse render files set w = (w', r) ->
    NoDup (dkeys (w_files w')).
  Proof.
    induction files as [|f files IH]; intros w w' r N E; cbn [write_files] in E; [inversion E; subst; exact N|].
    unfold contents_of_input_file in E. cbn [set_file w_defaults w_files] in E.
    destruct (load_model_params parse (w_defaults w) set) as [params|e].
    - destruct (render f params) as [text|e].
      + eapply IH; [|exact E]. cbn. apply (NoDup_dset _ seqb_spec), (NoDup_dset _ seqb_spec), N.
      + inversion E. cbn. apply (NoDup_dset _ seqb_spec), N.
    - inversion E. cbn. apply (NoDup_dset _ seqb_spec), N.
  Qed.

  Lemma filter_single (f : string -> bool) l x : NoDup l -> In x l -> f x = true -> (forall y, In y l -> f y = true -> y = x) -> filter f l = [x].
  Proof.
    induction l as [|a l IH]; intros N I Fx U; [destruct I|]. inversion N as [|? ? N1 N2]; subst. cbn [filter]. destruct I as [->|I].
    - rewrite Fx. f_equal. assert (G : forall m, incl m l -> filter f m = []).
      { induction m as [|b m IHm]; intros L; [reflexivity|]. cbn [filter]. destruct (f b) eqn:Eb.
        - assert (b = x) by (apply U; [right; apply L; left; reflexivity|exact Eb]). subst b. destruct N1. apply L. left. reflexivity.
        - apply IHm. intros y Hy. apply L. right. exact Hy. }
      apply G. intros y Hy. exact Hy.
    - destruct (f a) eqn:Ea.
      + assert (a = x) by (apply U; [left; reflexivity|exact Ea]). subst a. contradiction.
      + apply IH; auto. intros y Hy. apply U. right. exact Hy.
  Qed.

  Lemma after_prefix_spec p s rest : after_prefix p s = Some rest -> s = (p ++ rest)%string.
  Proof.
    revert s. induction p as [|a p IH]; intros s E; [cbn in E; inversion E; reflexivity|]. destruct s as [|b s]; [discriminate E|]. cbn in E.
    destruct (Ascii.eqb_spec a b) as [->|]; [|discriminate E]. rewrite (IH s E). reflexivity.
  Qed.
  Lemma ends_with_spec suffix s : ends_with suffix s = true -> exists m, s = (m ++ suffix)%string.
  Proof.
    induction s as [|a s IH]; cbn [ends_with]; intros E; apply orb_prop in E; destruct E as [E|E].
    - apply String.eqb_eq in E. exists "". exact E.
    - discriminate E.
    - apply String.eqb_eq in E. exists "". exact E.
    - destruct (IH E) as [m ->]. exists (String a m). reflexivity.
  Qed.
  Lemma in_glob_spec suffix name : in_glob suffix name = true -> exists m, name = ("sequence" ++ m ++ suffix)%string.
  Proof.
    unfold in_glob. destruct (after_prefix "sequence" name) as [rest|] eqn:E; [|discriminate]. intros H. apply after_prefix_spec in E.
    destruct (ends_with_spec _ _ H) as [m ->]. exists m. exact E.
  Qed.
  Lemma file_keys (w : @world S) f : In f (dkeys (w_files w)) <-> file w f <> None.
  Proof.
    unfold file. destruct (dget String.eqb (w_files w) f) as [t|] eqn:E.
    - apply (dget_in _ seqb_spec) in E. split; [discriminate|]. intros _. apply (in_map fst) in E. exact E.
    - apply (dget_none_iff _ seqb_spec) in E. split; [contradiction|congruence].
  Qed.

  Theorem setup_then_run render (read : string -> string -> result (list (option R * dict S))) os (w : @world S) ps :
    Forall (valid_option parse) os -> Forall (fun o => proper (op_value o)) os ->
    Forall (fun gd => exists sub, snd gd = PyDict sub) (w_defaults w) -> proper (PyDict (w_defaults w)) ->
    ~ In "processes" (dkeys (w_defaults w)) -> proper ps -> (forall sub, ps <> PyDict sub) ->
    NoDup (dkeys (w_files w)) ->
    (forall f t, file w f = Some t -> ~ In f input_files /\ ~ exists middle, f = ("sequence" ++ middle ++ ".toml")%string) ->
    (forall f d, In f input_files -> exists t, render f d = Ok t) ->
    (forall d t, load_model_params parse (w_defaults w) (map written os) = Ok d -> render "sequence.toml" d = Ok t ->
       read "sequence.toml" (t ++ newline)%string = Ok [(Some 0%R, ("processes", ps) :: d)]) ->
    exists w' c e, setup parse render (map written os) w = (w', Ok tt) /\ run_read read w' = Ok c /\ as_dict c = Ok e
      /\ leaf_at e ["processes"] = Some (as_list ps)
      /\ (forall before o after sub, os = before ++ o :: after -> dget String.eqb (w_defaults w) (group_of o) = Some (PyDict sub) ->
            (forall o', In o' after -> group_of o' <> group_of o) -> (forall sub, op_value o <> PyDict sub) ->
            leaf_at e (op_names o) = Some (as_list (op_value o)))
      /\ (forall g k rest sub, dget String.eqb (w_defaults w) g = Some (PyDict sub) ->
            (forall o names, In o os -> op_names o <> g :: k :: names) ->
            leaf_at e (g :: k :: rest) = says (w_defaults w) (g :: k :: rest)).
  Proof.
    intros F Fp D P Np Pp Dp N Hw Hr Hread.
    destruct (setup_creates parse render os w F D Hr) as [w' [params [Es [El Hf]]]].
    { intros f I. destruct (file w f) as [t|] eqn:E; [|reflexivity]. destruct (Hw f t E) as [X _]. contradiction. }
    destruct (load_proper _ _ _ F Fp D P El) as [Q Kp].
    assert (N' : NoDup (dkeys (w_files w'))).
    { assert (E := Es). unfold setup in E. destruct (existsb _ setup_files); [discriminate E|]. exact (write_files_NoDup _ _ _ _ _ _ N E). }
    assert (Hs := Hf "sequence.toml"). destruct (In_dec string_dec "sequence.toml" setup_files) as [I|X]; [|destruct X; right; left; reflexivity].
    destruct Hs as [t [Et Ft]].
    assert (Eg : filter (in_glob ".toml") (dkeys (w_files w')) = ["sequence.toml"]).
    { apply filter_single; [exact N'| |reflexivity|].
      - apply file_keys. rewrite Ft. discriminate.
      - intros f If Gf. apply file_keys in If. specialize (Hf f). destruct (In_dec string_dec f setup_files) as [J|J].
        + repeat destruct J as [<-|J]; try discriminate Gf; [reflexivity|destruct J].
        + rewrite Hf in If. destruct (file w f) as [tf|] eqn:Ef; [|congruence]. destruct (Hw f tf Ef) as [_ X]. destruct X. apply in_glob_spec, Gf. }
    assert (Pb : proper (PyDict (("processes", ps) :: params))).
    { apply proper_dict in Q. apply proper_dict. destruct Q as [Q1 Q2]. split; [|constructor; [exact Pp|exact Q2]].
      cbn. constructor; [|exact Q1]. change (map fst params) with (dkeys params). rewrite Kp. exact Np. }
    assert (Er : exists c, run_read read w' = Ok c /\ config_init [nofnat 0] [("processes", ps) :: params] = Ok c).
    { unfold run_read. rewrite Eg. change (find_config_files ["sequence.toml"] ?y) with ([0%nat], ["sequence.toml"]). cbn [mapM].
      unfold file in Ft. rewrite Ft, (Hread _ _ El Et). cbn [bind]. eexists. split; reflexivity. }
    destruct Er as [c [Er Ec]]. exists w', c, (pruned (("processes", ps) :: params)). split; [exact Es|]. split; [exact Er|].
    split; [exact (as_dict_init _ _ _ _ Pb Ec)|]. rewrite !leaf_pruned by exact Pb.
    assert (Skip : forall g rest sub, dget String.eqb (w_defaults w) g = Some (PyDict sub) ->
              leaf_at (("processes", ps) :: params) (g :: rest) = leaf_at params (g :: rest)).
    { intros g rest sub Eg'. cbn [leaf_at dget]. destruct (String.eqb_spec g "processes") as [->|]; [|reflexivity].
      destruct Np. apply (dget_in _ seqb_spec) in Eg'. apply (in_map fst) in Eg'. exact Eg'. }
    split; [|split].
    - unfold says. cbn [leaf_at dget]. rewrite String.eqb_refl. destruct ps; try reflexivity. destruct (Dp d eq_refl).
    - intros before o after sub Eo Eg' Ha Nv. rewrite leaf_pruned by exact Pb. subst os.
      assert (V := option_takes_effect parse _ _ _ _ _ _ F D Eg' Ha El). apply value_leaf_at in V; [|exact Nv].
      unfold says. unfold group_of in Eg'. destruct (op_names o) as [|g rest] eqn:En; [discriminate V|]. cbn [hd] in Eg'.
      rewrite (Skip g rest sub Eg'), V. reflexivity.
    - intros g k rest sub Eg' Hn. rewrite leaf_pruned by exact Pb. unfold says. f_equal. rewrite (Skip g (k :: rest) sub Eg').
      assert (V := option_changes_nothing_else parse _ _ _ g k sub F D Eg' Hn El). cbn [value_at] in V.
      cbn [leaf_at]. rewrite Eg'. destruct (dget String.eqb params g) as [[| | |s]|]; try rewrite <- V; reflexivity.
  Qed.
End SetupRun.

(** ** the settings of a plot *)
Section PlotSettings.
  Context {S : Type} (parse : string -> result (pyval S)).

  Lemma dget_settings os : Forall (valid_setting parse) os ->
    exists e, load_params_from_strings parse (map written os) = Ok e /\ NoDup (dkeys e) /\ forall k, dget String.eqb e k = last_setting os k.
  Proof.
    induction os as [|o os IH] using rev_ind; intros F; [exists []; split; [reflexivity|split; [constructor|reflexivity]]|].
    apply Forall_app in F. destruct F as [F Fo]. apply Forall_inv in Fo. destruct (IH F) as [e [E [N H]]].
    destruct Fo as [[k0 [En [L1 L2]]] [L3 P]].
    unfold load_params_from_strings in *. rewrite map_app, foldM_app, E. cbn [bind map foldM].
    unfold written. rewrite En. cbn [String.concat]. change (k0 ++ "=" ++ op_text o)%string with (k0 ++ String "=" (op_text o))%string.
    rewrite split_on_app by exact L2. rewrite split_on_lacks by exact L3. rewrite P. cbn [bind]. unfold dots_to_dict. rewrite split_on_lacks by exact L1.
    cbn [nest]. eexists. split; [reflexivity|]. change (dupdate String.eqb e [(k0, op_value o)]) with (dset String.eqb e k0 (op_value o)).
    split; [apply (NoDup_dset _ seqb_spec), N|]. intros k. rewrite (dget_dset _ seqb_spec). unfold last_setting. rewrite fold_left_app. cbn [fold_left].
    unfold group_of. rewrite En. cbn [hd]. destruct (String.eqb k k0); [reflexivity|]. apply H.
  Qed.

  Theorem plot_settings (defaults : dict S) (toml : option (list (option R * dict S))) os :
    Forall (valid_setting parse) os ->
    (forall sections, toml = Some sections -> exists t d0 rest, sections = (t, d0) :: rest /\ proper (PyDict d0)
       /\ forall v, dget String.eqb d0 "plot" = Some v -> exists p, v = PyDict p) ->
    exists config, plot_config parse defaults toml (map written os) = Ok config
      /\ forall k,
         (forall v, last_setting os k = Some v -> dget String.eqb config k = Some v)
         /\ (last_setting os k = None ->
             forall t d0 rest v, toml = Some ((t, d0) :: rest) -> says d0 ["plot"; k] = Some v -> dget String.eqb config k = Some v)
         /\ (last_setting os k = None ->
             (forall t d0 rest, toml = Some ((t, d0) :: rest) -> value_at d0 ["plot"; k] = None) ->
             dget String.eqb config k = dget String.eqb defaults k).
  Proof.
    intros F Ht. destruct (dget_settings os F) as [e [E [N H]]]. unfold plot_config.
    assert (K : exists base, (match toml with
                   | None => Ok defaults
                   | Some sections =>
                       let* c := from_file sections in
                       let* d := as_dict c in
                       match dget String.eqb d "plot" with
                       | None => Ok defaults
                       | Some (PyDict p) => Ok (dupdate String.eqb defaults p)
                       | Some _ => Err TypeError
                       end
                   end) = Ok base
      /\ (forall k t d0 rest v, toml = Some ((t, d0) :: rest) -> says d0 ["plot"; k] = Some v -> dget String.eqb base k = Some v)
      /\ (forall k, (forall t d0 rest, toml = Some ((t, d0) :: rest) -> value_at d0 ["plot"; k] = None) -> dget String.eqb base k = dget String.eqb defaults k)).
    { destruct toml as [sections|]; [|exists defaults; split; [reflexivity|split; [intros; discriminate|reflexivity]]].
      destruct (Ht sections eq_refl) as [t [d0 [rest [Es [P Hp]]]]]. subst sections.
      assert (Ei : exists c, from_file ((t, d0) :: rest) = Ok c /\ as_dict c = Ok (pruned d0)).
      { unfold from_file, load_sections. cbn [length seq combine map fst snd]. eexists. split; [reflexivity|].
        eapply as_dict_init; [exact P|reflexivity]. }
      destruct Ei as [c [E1 E2]]. rewrite E1. cbn [bind]. rewrite E2. cbn [bind].
      assert (P' := P). apply proper_dict in P'. destruct P' as [Nd Pd]. rewrite dget_pruned by exact Nd.
      destruct (dget String.eqb d0 "plot") as [v|] eqn:Ep.
      - destruct (Hp v eq_refl) as [p Ev]. subst v. change (without_empty (PyDict p)) with (PyDict (pruned p)).
        assert (Pp : proper (PyDict p)) by (rewrite Forall_forall in Pd; exact (Pd _ (dget_in _ seqb_spec _ _ _ Ep))).
        assert (Np := Pp). apply proper_dict in Np. destruct Np as [Np _].
        assert (Nq : NoDup (dkeys (pruned p))).
        { clear -Np. unfold pruned. induction p as [|[k v] p IH]; [constructor|]. cbn [dkeys map fst] in Np. inversion Np as [|? ? N1 N2]; subst.
          assert (I : forall x, In x (dkeys (flat_map (fun kv => match without_empty (snd kv) with PyDict [] => [] | v0 => [(fst kv, v0)] end) p)) -> In x (dkeys p)).
          { intros x Ix. apply in_map_iff in Ix. destruct Ix as [[a b] [<- Ix]]. apply in_flat_map in Ix. destruct Ix as [[a' b'] [I1 I2]].
            apply in_map_iff. exists (a', b'). split; [|exact I1]. cbn in I2 |- *.
            destruct (without_empty b') as [| | |[|]]; cbn in I2; destruct I2 as [I2|[]] || destruct I2; congruence. }
          cbn [flat_map fst snd]. destruct (without_empty v) as [| | |[|]]; cbn [app]; try (constructor; [intros J; apply N1, I, J|apply IH, N2]). apply IH, N2. }
        assert (V1 : forall k v, says d0 ["plot"; k] = Some v -> dget String.eqb (pruned p) k = Some v).
        { intros k v Sv. unfold says in Sv. cbn [leaf_at] in Sv. rewrite Ep in Sv. fold (leaf_at p [k]) in Sv. change (says p [k] = Some v) in Sv.
          rewrite <- leaf_pruned in Sv by exact Pp. cbn [leaf_at] in Sv. destruct (dget String.eqb (pruned p) k) as [[| | |s]|]; try exact Sv; destruct s; discriminate Sv. }
        assert (V2 : forall k, value_at d0 ["plot"; k] = None -> dget String.eqb (pruned p) k = None).
        { intros k Vk. cbn [value_at] in Vk. rewrite Ep in Vk. rewrite dget_pruned by exact Np. rewrite Vk. reflexivity. }
        destruct (pruned p) as [|kv q] eqn:Eq.
        + exists defaults. split; [reflexivity|]. split; [intros k t' d' r' v X Sv; assert (d' = d0) by congruence; subst d'; discriminate (V1 k v Sv)|reflexivity].
        + exists (dupdate String.eqb defaults (kv :: q)). split; [reflexivity|]. split.
          * intros k t' d' r' v X Sv. assert (d' = d0) by congruence. subst d'. rewrite (dget_dupdate _ seqb_spec) by exact Nq. rewrite (V1 k v Sv). reflexivity.
          * intros k X. rewrite (dget_dupdate _ seqb_spec) by exact Nq. rewrite (V2 k (X t d0 rest eq_refl)). reflexivity.
      - exists defaults. split; [reflexivity|]. split; [|reflexivity]. intros k t' d' r' v X Sv. assert (d' = d0) by congruence. subst d'.
        unfold says in Sv. cbn [leaf_at] in Sv. rewrite Ep in Sv. discriminate Sv. }
    destruct K as [base [Eb [K1 K2]]]. rewrite Eb. cbn [bind]. rewrite E. cbn [bind]. eexists. split; [reflexivity|].
    intros k. rewrite (dget_dupdate _ seqb_spec) by exact N. rewrite H. split; [|split].
    - intros v Lv. rewrite Lv. reflexivity.
    - intros Ln t d0 rest v Et Sv. rewrite Ln. exact (K1 k t d0 rest v Et Sv).
    - intros Ln X. rewrite Ln. exact (K2 k X).
  Qed.
End PlotSettings.

(* the command always gives a title to plot_file *)
Definition title_claim : Prop :=
  forall (S : Type) (parse : string -> result (pyval S)) (str : string -> S) (num : Q -> S) (toml : option (list (option R * dict S))) os config filename,
  Forall (valid_setting parse) os -> last_setting os "title" = None ->
  (forall sections t d, toml = Some sections -> In (t, d) sections -> value_at d ["plot"; "title"] = None) ->
  plot_config parse (plot_keywords str num) toml (map written os) = Ok config ->
  plot_title config filename = filename.
Lemma title_refuted : ~ title_claim.
Proof.
  intros C. assert (X := C string (fun s => Ok (Scalar s)) (fun s => s) (fun _ => "0") None [] _ (Scalar "sequence.nc") (Forall_nil _) eq_refl
    ltac:(intros; discriminate) eq_refl). discriminate X.
Qed.

(** ** shared parameters *)
Section Shared.
  Context {V : Type} (veqb : V -> V -> bool).
  Hypothesis veqb_refl : forall v, veqb v v = true.

  Lemma attributes_value (objs : list (string * (string * Processes.section V))) p k : value (attributes objs) p k = created objs p k.
  Proof.
    unfold value, created, attributes. induction objs as [|[n [cls ps]] objs IH]; [reflexivity|]. cbn [map dget fst snd].
    destruct (String.eqb p n); [reflexivity|exact IH].
  Qed.

  Theorem still_shared {G} (g g' : G) processes ctx objs params cs :
    Processes.load_processes veqb record_call g processes ctx = Ok (objs, g') ->
    NoDup (dkeys params) -> Forall (fun nv => NoDup (dkeys (snd nv))) params ->
    Processes.set_params store (attributes objs) params = Ok cs ->
    forall p1 p2 keys, In (p1, p2, keys) shared_parameters -> enabled processes p1 -> enabled processes p2 ->
      (forall k v1 v2, In k keys -> value ctx p1 k = Some v1 -> value ctx p2 k = Some v2 -> veqb v2 v1 = true) ->
      forall k, In k keys -> value params p1 k = value params p2 k -> value cs p1 k = value cs p2 k.
  Proof.
    intros El Np Nv Es p1 p2 keys I E1 E2 Hc k Ik Ep.
    assert (Hin : forall p, In p (dkeys params) -> In p (dkeys (attributes objs))).
    { clear -Es. revert Es. generalize (attributes objs). unfold Processes.set_params.
      induction params as [|[q vals] ps IH]; intros comps Es p I; [destruct I|]. cbn [foldM fst snd] in Es.
      destruct (dget String.eqb comps q) as [c|] eqn:Ec; [|discriminate Es]. destruct (foldM _ vals c) as [c1|]; [|discriminate Es]. cbn [bind] in Es.
      destruct I as [<-|I]; [apply (dget_in _ seqb_spec) in Ec; apply (in_map fst) in Ec; exact Ec|].
      apply (IH _ Es) in I. rewrite dset_keys in I. unfold din in I. rewrite Ec in I. exact I. }
    destruct (set_params_ok params Np Nv (attributes objs) Hin) as [cs' [Es' [_ Hv]]]. assert (X : cs' = cs) by congruence. subst cs'.
    rewrite !Hv, !attributes_value, Ep. destruct (created_parameters veqb veqb_refl g g' processes ctx objs El) as [O _].
    destruct (O p1 p2 keys I E1 E2) as [_ O2]. destruct (O2 ltac:(intros [k0 [v1 [v2 [J [A1 [A2 A3]]]]]]; rewrite (Hc k0 v1 v2 J A1 A2) in A3; discriminate A3) k Ik)
      as [Q _]. rewrite Q. reflexivity.
  Qed.
End Shared.

Definition still_shared_claim : Prop :=
  forall (V G : Type) (veqb : V -> V -> bool) (g g' : G) processes ctx objs params cs,
  (forall v, veqb v v = true) -> Processes.load_processes veqb record_call g processes ctx = Ok (objs, g') ->
  NoDup (dkeys params) -> Forall (fun nv => NoDup (dkeys (snd nv))) params ->
  Processes.set_params store (attributes objs) params = Ok cs ->
  forall p1 p2 keys, In (p1, p2, keys) shared_parameters -> enabled processes p1 -> enabled processes p2 ->
    (forall k v1 v2, In k keys -> value ctx p1 k = Some v1 -> value ctx p2 k = Some v2 -> veqb v2 v1 = true) ->
    forall k, In k keys -> (forall v1 v2, value params p1 k = Some v1 -> value params p2 k = Some v2 -> v1 = v2) ->
    value cs p1 k = value cs p2 k.
Lemma still_shared_refuted : ~ still_shared_claim.
Proof.
  intros C. assert (X := C nat unit Nat.eqb tt tt ["submarine_diffusion"] [("fluvial", [("sediment_load", 1%nat)])] _
    [("fluvial", [("sediment_load", 2%nat)])] _ Nat.eqb_refl eq_refl ltac:(repeat constructor; intros []) ltac:(repeat constructor; intros []) eq_refl
    "fluvial" "submarine_diffusion" ["sediment_load"; "plain_slope"] ltac:(left; reflexivity) ltac:(right; left; reflexivity)
    ltac:(left; left; reflexivity)).
  specialize (X ltac:(intros k v1 v2 I E1 E2; discriminate E2) "sediment_load" ltac:(left; reflexivity) ltac:(intros v1 v2 E1 E2; discriminate E2)).
  discriminate X.
Qed.

(** ** the sections of a file *)
Section FileSections.
  Context {S : Type}.
  Lemma load_sections_spec (sections : list (option R * dict S)) : load_sections sections
    = combine (map (section_time sections) (seq 0 (length sections))) (map snd sections).
  Proof.
    unfold load_sections. set (f := fun ts : nat * (option R * dict S) => _). apply nth_ext with (d := f (0%nat, (None, []))) (d' := (0%R, [])).
    - rewrite map_length, !combine_length, !map_length, seq_length. reflexivity.
    - intros i L. rewrite map_length, combine_length, seq_length, Nat.min_id in L.
      rewrite combine_nth by (rewrite !map_length, seq_length; reflexivity).
      rewrite map_nth, combine_nth by (rewrite seq_length; reflexivity). rewrite seq_nth by exact L. unfold f. cbn [fst snd plus]. f_equal.
      + rewrite (nth_indep _ 0%R (section_time sections 0%nat)) by (rewrite map_length, seq_length; exact L). rewrite map_nth, seq_nth by exact L.
        unfold section_time. cbn [plus].
        assert (X : nth i (map fst sections) None = fst (nth i sections (None, []))) by (apply (map_nth fst sections (None, []))). rewrite X.
        match goal with |- context [match ?x with Some _ => _ | None => nofnat i end] => change x with (fst (nth i sections (None, []))) end.
        destruct (fst (nth i sections (None, []))); [reflexivity|apply nofnat_R].
      + symmetry. apply (map_nth snd sections (None, [])).
  Qed.

  Theorem file_config (sections : list (option R * dict S)) c : from_file sections = Ok c ->
    (forall t d, In (t, d) sections -> proper (PyDict d)) ->
    (forall i j, (i <= j < length sections)%nat -> (section_time sections i <= section_time sections j)%R) ->
    forall t path, option_map as_list (dget path_eqb (config_at c t) path)
      = in_force (combine (map (section_time sections) (seq 0 (length sections))) (map snd sections)) t path.
  Proof.
    intros E P Hs. unfold from_file in E. destruct sections as [|s0 rest] eqn:Ese; [discriminate E|]. rewrite <- Ese in *. clear Ese.
    rewrite load_sections_spec in E. set (ts := map (section_time sections) (seq 0 (length sections))) in *.
    assert (L : length ts = length (map snd sections)) by (unfold ts; rewrite !map_length, seq_length; reflexivity).
    rewrite map_fst_comb, map_snd_comb in E by exact L. apply (config_at_init ts (map snd sections) c); [| |exact E].
    - intros d I. apply in_map_iff in I. destruct I as [[t d'] [<- I]]. exact (P t d' I).
    - intros i j Hij. unfold ts in *. rewrite map_length, seq_length in Hij.
      rewrite !(nth_indep (map _ _) 0%R (section_time sections 0%nat)) by (rewrite map_length, seq_length; lia). rewrite !map_nth, !seq_nth by lia.
      apply Hs. exact Hij.
  Qed.
  Theorem loaded (sections : list (option R * dict S)) :
    load_config sections = match sections with
                           | [(_, d)] => inr d
                           | _ => inl (combine (map (section_time sections) (seq 0 (length sections))) (map snd sections))
                           end.
  Proof.
    unfold load_config. rewrite load_sections_spec. destruct sections as [|[t d] [|s rest]]; reflexivity.
  Qed.
End FileSections.

(** ** examples *)
Definition ex_folder : @world string :=
  mkWorld [("notes.txt", "mine"); ("sequence.yaml", "old")]
    [("grid", PyDict [("shape", Scalar "3"); ("spacing", Scalar "10")]); ("clock", PyDict [("stop", Scalar "9"); ("step", Scalar "3")])].
Definition ex_options : list (option_string string) := [mkOption ["clock"; "stop"] "5" (text "5")].
Definition ex_written : dict string :=
  [("grid", PyDict [("shape", Scalar "3"); ("spacing", Scalar "10")]); ("clock", PyDict [("stop", Scalar "5"); ("step", Scalar "3")])].
Definition ex_read (name contents : string) : result (list (option R * dict string)) := Ok [(Some 0%R, ("processes", PyList []) :: ex_written)].
Lemma ex_setup_run : Forall (valid_option parse_text) ex_options /\ Forall (fun o => proper (op_value o)) ex_options
  /\ Forall (fun gd => exists sub, snd gd = PyDict sub) (w_defaults ex_folder) /\ proper (PyDict (w_defaults ex_folder))
  /\ (forall f t, file ex_folder f = Some t -> ~ In f input_files /\ ~ exists middle, f = ("sequence" ++ middle ++ ".toml")%string)
  /\ (forall d t, load_model_params parse_text (w_defaults ex_folder) (map written ex_options) = Ok d -> Ok "text" = Ok t ->
       ex_read "sequence.toml" (t ++ newline)%string = Ok [(Some 0%R, ("processes", PyList []) :: d)])
  /\ match run_read (A := R) ex_read (fst (setup parse_text (fun _ _ => Ok "text") (map written ex_options) ex_folder)) with
     | Ok c => as_dict c = Ok (("processes", PyList []) :: ex_written)
     | Err _ => False
     end.
Proof.
  split; [|split; [|split; [|split; [|split; [|split]]]]].
  - constructor; [|constructor]. split; [cbn; lia|]. split; [repeat constructor; unfold lacks; cbn; intuition discriminate|].
    split; [unfold lacks; cbn; intuition discriminate|reflexivity].
  - repeat constructor.
  - repeat constructor; eexists; reflexivity.
  - cbn. repeat split; repeat constructor; cbn; intuition discriminate.
  - intros f t E. apply (dget_in _ seqb_spec) in E. destruct E as [E|[E|[]]]; assert (X := f_equal fst E); cbn in X; subst f; split.
    + cbn. intuition discriminate.
    + intros [m X]. discriminate X.
    + cbn. intuition discriminate.
    + intros [m X]. cbn in X. assert (Y := f_equal (fun s => ends_with ".toml" s) X). cbn [append] in Y.
      assert (Z : forall m, ends_with ".toml" (m ++ ".toml") = true).
      { induction m0 as [|a m0 IH]; [reflexivity|]. cbn [append ends_with]. rewrite IH. apply orb_true_r. }
      assert (W := Z ("sequence" ++ m)%string). cbn [append] in W. rewrite W in Y. discriminate Y.
  - intros d t E _. assert (X : load_model_params parse_text (w_defaults ex_folder) (map written ex_options) = Ok ex_written) by (vm_compute; reflexivity).
    assert (Y : d = ex_written) by congruence. subst d. reflexivity.
  - vm_compute. reflexivity.
Qed.

Lemma ex_plot : Forall (valid_setting parse_text) [mkOption ["n_layers"] "7" (text "7")]
  /\ proper (PyDict [("plot", PyDict [("title", text "a"); ("n_layers", text "3")])])
  /\ plot_config (A := R) parse_text (plot_keywords (fun s => s) (fun _ => "0")) (Some [(None, [("plot", PyDict [("title", text "a"); ("n_layers", text "3")])])])
       (map written [mkOption ["n_layers"] "7" (text "7")])
     = Ok (dset String.eqb (dset String.eqb (plot_keywords (fun s => s) (fun _ => "0")) "title" (text "a")) "n_layers" (text "7")).
Proof.
  split; [|split].
  - constructor; [|constructor]. split; [exists "n_layers"; split; [reflexivity|]; unfold lacks; cbn; intuition discriminate|].
    split; [unfold lacks; cbn; intuition discriminate|reflexivity].
  - cbn. repeat split; repeat constructor; cbn; intuition discriminate.
  - vm_compute. reflexivity.
Qed.

Lemma title_set {S} (parse : string -> result (pyval S)) (defaults : dict S) (toml : option (list (option R * dict S))) os config filename v :
  Forall (valid_setting parse) os -> plot_config parse defaults toml (map written os) = Ok config ->
  last_setting os "title" = Some v -> plot_title config filename = v.
Proof.
  intros F E L. destruct (dget_settings parse os F) as [e [E1 [N H]]]. unfold plot_config in E.
  match type of E with (let* c := ?r in _) = _ => destruct r as [base|]; [|discriminate E] end. cbn [bind] in E. rewrite E1 in E. cbn [bind] in E.
  assert (X : config = dupdate String.eqb base e) by congruence. unfold plot_title. rewrite X, (dget_dupdate _ seqb_spec) by exact N. rewrite H, L. reflexivity.
Qed.
Lemma ex_title : Forall (valid_setting parse_text) [mkOption ["title"] "b" (text "b")]
  /\ exists config, plot_config (A := R) parse_text (plot_keywords (fun s => s) (fun _ => "0")) None (map written [mkOption ["title"] "b" (text "b")]) = Ok config
     /\ plot_title config (text "out.nc") = text "b".
Proof.
  split; [|eexists; split; reflexivity].
  constructor; [|constructor]. split; [exists "title"; split; [reflexivity|]; unfold lacks; cbn; intuition discriminate|].
  split; [unfold lacks; cbn; intuition discriminate|reflexivity].
Qed.

Lemma ex_sections : exists c, from_file [(None, ex_first); (Some (5 / 2)%R, ex_second)] = Ok c
  /\ (forall t d, In (t, d) [(None, ex_first); (Some (5 / 2)%R, ex_second)] -> proper (PyDict d))
  /\ (forall i j, (i <= j < 2)%nat -> (section_time [(None, ex_first); (Some (5 / 2), ex_second)] i
                                     <= section_time [(None, ex_first); (Some (5 / 2), ex_second)] j)%R)
  /\ (let timed := combine (map (section_time [(None, ex_first); (Some (5 / 2)%R, ex_second)]) (seq 0 2)) [ex_first; ex_second] in
      in_force timed 2 ["foo"] = Some (num1 0) /\ in_force timed 3 ["foo"] = Some (num1 1)).
Proof.
  destruct (ex_init (nofnat 0) (5 / 2)%R) as [c E]. exists c. split; [exact E|]. split.
  - intros t d [H|[H|[]]]; inversion H; subst; apply ex_proper.
  - split.
    + intros i j L. destruct i as [|[|]], j as [|[|]]; try lia; unfold section_time; cbn; lra.
    + cbn zeta. unfold in_force, section_time. cbn [combine map seq nth fst snd fold_left INR]. split; rle; reflexivity.
Qed.
