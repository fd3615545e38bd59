(** Proofs about sequence setup and sequence run. *)
From Coq Require Import String Ascii List Bool Arith Lia Reals Lra Permutation.
From Verif.Base Require Import Num Py.
From Verif.Model Require Import Shoreline Config Cli.
From Verif.Model Require Processes.
From Verif.Spec Require Import Profile Sections Parameters CommandLine.
From Verif.Proofs Require Import ShorelineP ProcessesP ConfigP TimeVaryingP ConfigEx CliP.
Import ListNotations.
Local Open Scope string_scope.
Local Open Scope list_scope.

(** ** setup *)
Section Setup.
  Context {S : Type} (parse : string -> result (pyval S)) (render : string -> dict S -> result string).
  Implicit Types w : @world S.

  Lemma file_set w f t f' : file (set_file w f t) f' = if String.eqb f' f then Some t else file w f'.
  Proof. unfold file, set_file. cbn. apply (dget_dset _ seqb_spec). Qed.

  Lemma contents_files w f set w' r : contents_of_input_file parse render w f set = (w', r) -> forall f', file w' f' = file w f'.
  Proof.
    unfold contents_of_input_file. destruct (load_model_params parse (w_defaults w) set); intros E; inversion E; subst; reflexivity.
  Qed.
  Lemma write_files_others files set w w' r : write_files parse render files set w = (w', r) ->
    forall f, ~ In f files -> file w' f = file w f.
  Proof.
    revert w. induction files as [|f0 files IH]; cbn; intros w E f N; [inversion E; reflexivity|].
    destruct (contents_of_input_file parse render (set_file w f0 "") f0 set) as [w1 [t|e]] eqn:Ec; assert (C := contents_files _ _ _ _ _ Ec f).
    - rewrite (IH _ E f) by tauto. rewrite file_set. destruct (String.eqb_spec f f0) as [->|_]; [tauto|]. rewrite C, file_set.
      destruct (String.eqb_spec f f0) as [->|_]; [tauto|reflexivity].
    - inversion E; subst. rewrite C, file_set. destruct (String.eqb_spec f f0) as [->|_]; [tauto|reflexivity].
  Qed.

  (* whatever happens, no file that was there is changed *)
  Theorem setup_keeps_files set w w' r f t : setup parse render set w = (w', r) -> file w f = Some t -> file w' f = Some t.
  Proof.
    unfold setup. destruct (existsb (fun f => din String.eqb (w_files w) f) setup_files) eqn:E; intros H F; [inversion H; subst; exact F|].
    rewrite (write_files_others _ _ _ _ _ H); [exact F|]. intros I. apply Bool.not_true_iff_false in E. apply E, existsb_exists. exists f.
    split; [exact I|]. unfold din. unfold file in F. rewrite F. reflexivity.
  Qed.
  Theorem setup_existing set w f : In f setup_files -> file w f <> None -> setup parse render set w = (w, Err ClickAbort).
  Proof.
    intros I F. unfold setup.
    assert (X : existsb (fun f => din String.eqb (w_files w) f) setup_files = true).
    { apply existsb_exists. exists f. split; [exact I|]. unfold din. unfold file in F. destruct (dget String.eqb (w_files w) f); [reflexivity|congruence]. }
    rewrite X. reflexivity.
  Qed.

  (* updating the defaults again with the same options changes nothing *)
  Lemma dupdate_idem d (e : dict S) : NoDup (dkeys e) -> dupdate String.eqb (dupdate String.eqb d e) e = dupdate String.eqb d e.
  Proof.
    intros N. assert (Q : forall (l : dict S) m, (forall k v, In (k, v) l -> dget String.eqb m k = Some v) -> dupdate String.eqb m l = m).
    { induction l as [|[k v] l IH]; intros m H; [reflexivity|]. unfold dupdate. cbn [fold_left fst snd].
      assert (D : dset String.eqb m k v = m).
      { assert (Z := H k v (or_introl eq_refl)). clear -Z. induction m as [|[k' v'] m IHm]; [discriminate Z|]. cbn in *.
        destruct (String.eqb_spec k k') as [->|_]; [congruence|]. f_equal. apply IHm, Z. }
      rewrite D. apply IH. intros k' v' I. apply H. right. exact I. }
    apply Q. intros k v I. rewrite (dget_dupdate _ seqb_spec) by exact N. rewrite (dget_in_nodup _ seqb_spec _ _ _ N I). reflexivity.
  Qed.

  Theorem setup_fresh set w params : (forall f, In f setup_files -> file w f = None) ->
    load_model_params parse (w_defaults w) set = Ok params -> load_model_params parse params set = Ok params ->
    (forall f, In f setup_files -> exists t, render f params = Ok t) ->
    exists w', setup parse render set w = (w', Ok tt) /\ w_defaults w' = params
      /\ forall f, match In_dec string_dec f setup_files with
                   | left _ => exists t, render f params = Ok t /\ file w' f = Some (t ++ newline)%string
                   | right _ => file w' f = file w f
                   end.
  Proof.
    intros F L L2 R. unfold setup.
    assert (X : existsb (fun f => din String.eqb (w_files w) f) setup_files = false).
    { apply Bool.not_true_iff_false. intros H. apply existsb_exists in H. destruct H as [f [I D]]. apply F in I. unfold din in D. unfold file in I.
      rewrite I in D. discriminate D. }
    rewrite X. clear X F.
    assert (G : forall files w, NoDup files -> load_model_params parse (w_defaults w) set = Ok params ->
       (forall f, In f files -> exists t, render f params = Ok t) -> 
       exists w', write_files parse render files set w = (w', Ok tt) /\ (files <> [] -> w_defaults w' = params) /\ (files = [] -> w' = w)
         /\ forall f, In f files -> exists t, render f params = Ok t /\ file w' f = Some (t ++ newline)%string).
    { clear w L R. induction files as [|f files IH]; intros w N L R; [exists w; repeat split; [congruence|intros f []]|].
      cbn [write_files]. unfold contents_of_input_file. cbn [set_file w_defaults w_files]. rewrite L.
      destruct (R f (or_introl eq_refl)) as [t Et]. rewrite Et. inversion N as [|? ? N1 N2]; subst.
      destruct (IH (set_file (mkWorld (dset String.eqb (w_files w) f "") params) f (t ++ newline)%string) N2) as [w' [E [D [D0 H]]]];
        [exact L2|intros f' I; apply R; right; exact I|].
      exists w'. split; [exact E|]. split.
      - intros _. destruct files; [rewrite (D0 eq_refl); reflexivity|apply D; discriminate].
      - split; [discriminate|]. intros f' [<-|I]; [|apply H, I]. exists t. split; [exact Et|].
        rewrite (write_files_others _ _ _ _ _ E f N1), file_set, String.eqb_refl. reflexivity. }
    destruct (G setup_files w) as [w' [E [D [_ H]]]]; [|exact L|exact R|].
    { repeat constructor; cbn; intuition discriminate. }
    exists w'. split; [exact E|]. split; [apply D; discriminate|]. intros f. destruct (In_dec string_dec f setup_files) as [I|I]; [apply H, I|].
    apply (write_files_others _ _ _ _ _ E f I).
  Qed.
End Setup.

Section SetupOptions.
  Context {S : Type} (parse : string -> result (pyval S)) (render : string -> dict S -> result string).

  Lemma mapM_idem {X} (f : X -> result X) l l' : (forall x y, f x = Ok y -> f y = Ok y) -> mapM f l = Ok l' -> mapM f l' = Ok l'.
  Proof.
    intros H. revert l'. induction l as [|x l IH]; cbn; intros l' E; [inversion E; reflexivity|].
    destruct (f x) as [y|e] eqn:Ex; [|discriminate E]. cbn in E. destruct (mapM f l) as [m|e] eqn:Em; [|discriminate E]. cbn in E.
    inversion E; subst. cbn. rewrite (H x y Ex), (IH m eq_refl). reflexivity.
  Qed.
  Lemma load_model_params_idem defaults os params : Forall (valid_option parse) os ->
    load_model_params parse defaults (map written os) = Ok params -> load_model_params parse params (map written os) = Ok params.
  Proof.
    intros F. destruct (load_options parse os F) as [cl [E H]]. unfold load_model_params. rewrite E. cbn [bind].
    apply mapM_idem. intros [g v] [g' v']. cbn [fst snd]. rewrite H. unfold from_options.
    assert (N : forall o, find (matches g) (rev os) = Some o -> NoDup (dkeys (nest (tl (op_names o)) (op_value o)))).
    { intros o Ef. apply find_some in Ef. destruct Ef as [I _]. apply in_rev in I. rewrite Forall_forall in F. destruct (F o I) as [L _].
      destruct (op_names o) as [|a [|b names]]; [cbn in L; lia|cbn in L; lia|]. cbn [tl]. destruct (nest_single b names (op_value o)) as [x ->].
      repeat constructor. intros []. }
    destruct v as [s|l|l|d]; try (destruct (find (matches g) (rev os)); discriminate).
    destruct (find (matches g) (rev os)) as [o|] eqn:Ef; cbn; intros Q.
    - assert (Q1 := f_equal (fun r => match r with Ok x => fst x | _ => "" end) Q).
      assert (Q2 := f_equal (fun r => match r with Ok x => snd x | _ => v' end) Q). cbn in Q1, Q2. subst g' v'. rewrite H. unfold from_options. rewrite Ef.
      cbn. rewrite dupdate_idem by exact (N o eq_refl). reflexivity.
    - assert (Q1 := f_equal (fun r => match r with Ok x => fst x | _ => "" end) Q).
      assert (Q2 := f_equal (fun r => match r with Ok x => snd x | _ => v' end) Q). cbn in Q1, Q2. subst g' v'. rewrite H. unfold from_options. rewrite Ef.
      reflexivity.
  Qed.

  (* C56, the other half *)
  Theorem setup_creates os (w : @world S) : Forall (valid_option parse) os ->
    Forall (fun gd => exists sub, snd gd = PyDict sub) (w_defaults w) ->
    (forall f d, In f setup_files -> exists t, render f d = Ok t) ->
    (forall f, In f setup_files -> file w f = None) ->
    exists w' params, setup parse render (map written os) w = (w', Ok tt)
      /\ load_model_params parse (w_defaults w) (map written os) = Ok params
      /\ forall f, match In_dec string_dec f setup_files with
                   | left _ => exists t, render f params = Ok t /\ file w' f = Some (t ++ newline)%string
                   | right _ => file w' f = file w f
                   end.
  Proof.
    intros F D R N. destruct (options_never_fail parse (w_defaults w) os F D) as [params L].
    destruct (setup_fresh parse render (map written os) w params N L (load_model_params_idem _ _ _ F L)) as [w' [E [_ H]]];
      [intros f I; apply (R f params I)|].
    exists w', params. split; [exact E|]. split; [exact L|exact H].
  Qed.
End SetupOptions.

Definition parse_any (s : string) : result (pyval nat) := Ok (Scalar 0).
(** A malformed option: the first file is left behind, empty, and the next
    attempt refuses to run *)
Lemma setup_leaves_file : exists w', setup parse_any (fun _ _ => Ok "text") ["oops"] (mkWorld [] [("grid", PyDict [])] : @world nat) = (w', Err ValueError)
  /\ w_files w' = [("bathymetry.csv", "")]
  /\ setup parse_any (fun _ _ => Ok "text") [] w' = (w', Err ClickAbort).
Proof. eexists. split; [reflexivity|]. split; reflexivity. Qed.
