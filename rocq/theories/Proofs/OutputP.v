(** OutputWriter over any number of calls. *)
From Coq Require Import String List ZArith Arith Lia Bool.
From Verif.Base Require Import Num Py Arr.
From Verif.Model Require Import Layers Grid Netcdf OutputWriter.
From Verif.Spec Require Import Recording.
From Verif.Proofs Require Import NetcdfP.
Import ListNotations.

Lemma records_S n k : 1 <= k -> records (S n) k = if Nat.eqb (n mod k) 0 then S (records n k) else records n k.
Proof.
  intros Hk. unfold records.
  pose proof (Nat.div_mod n k ltac:(lia)) as D. pose proof (Nat.mod_upper_bound n k ltac:(lia)) as B.
  set (q := n / k) in *. set (r := n mod k) in *.
  assert (E1 : (S n + k - 1) / k = S q).
  { symmetry. apply (Nat.div_unique _ _ _ r); lia. }
  rewrite E1. destruct (Nat.eqb_spec r 0) as [E|E].
  - f_equal. apply (Nat.div_unique _ _ _ (k - 1)); lia.
  - apply (Nat.div_unique _ _ _ (r - 1)); lia.
Qed.
Lemma records_due n k : 1 <= k -> n mod k = 0 -> records n k * k = n.
Proof.
  intros Hk E. unfold records. pose proof (Nat.div_mod n k ltac:(lia)) as D.
  replace ((n + k - 1) / k) with (n / k); [lia|]. apply (Nat.div_unique _ _ _ (k - 1)); lia.
Qed.
Lemma records_bound n k j : 1 <= k -> j < records n k -> j * k < n.
Proof.
  intros Hk. unfold records. intros Hj. pose proof (Nat.div_mod (n + k - 1) k ltac:(lia)) as D.
  pose proof (Nat.mod_upper_bound (n + k - 1) k ltac:(lia)). nia.
Qed.
Lemma records_reach n k j : 1 <= k -> j * k < n -> j < records n k.
Proof.
  intros Hk Hj. unfold records. apply (Nat.div_le_lower_bound (n + k - 1) k (S j)); nia.
Qed.

Section Any.
  Context {A : Type} `{Num A}.
  Implicit Types (w : writer A) (fs : filesystem A) (g : gview A).

  Definition next w (dt : option A) : writer A :=
    mkWriter (ow_clobber w) (ow_interval w) (ow_fields w) (ow_path w) (ow_rows w)
      (nadd (ow_time w) (match dt with Some d => d | None => n1 end)) (S (ow_count w)).

  Lemma writer_step_spec g dt w fs w' fs' : writer_step g dt (w, fs) = Ok (w', fs') ->
    ow_interval w <> 0%Z /\ w' = next w dt
    /\ (due w -> exists d', (match fs (ow_path w) with
                             | None => writer_write g (ow_time w) (ow_rows w) (ow_fields w) None = Ok d'
                             | Some (Nc d) => writer_write g (ow_time w) (ow_rows w) (ow_fields w) (Some d) = Ok d'
                             | _ => False
                             end) /\ fs' = fs_set fs (ow_path w) (Some (Nc d')))
    /\ (~ due w -> fs' = fs).
  Proof.
    unfold writer_step. destruct (Z.eqb_spec (ow_interval w) 0) as [|Hk]; [discriminate|].
    intros E. okstep E f Ef. injection E as <- <-. split; [exact Hk|]. split; [reflexivity|]. unfold due.
    destruct (Z.eqb_spec (Z.of_nat (ow_count w) mod ow_interval w) 0) as [Ed|Ed].
    - split; [intros _|contradiction]. unfold to_netcdf in Ef. okstep Ef od Eo. okstep Ef d' Ed'. injection Ef as <-.
      exists d'. split; [|reflexivity].
      destruct (fs (ow_path w)) as [[d| |]|]; try discriminate Eo; injection Eo as <-; exact Ed'.
    - split; [contradiction|]. congruence.
  Qed.

  Lemma run_writer_snoc calls c (wf : writer A * filesystem A) :
    run_writer (calls ++ [c]) wf = bind (run_writer calls wf) (writer_step (fst c) (snd c)).
  Proof.
    unfold run_writer. rewrite foldM_app. destruct (foldM _ calls wf) as [s|]; [|reflexivity].
    cbn [bind foldM]. destruct (writer_step (fst c) (snd c) s); reflexivity.
  Qed.

  (* the writer's own state *)
  Lemma run_writer_state calls : forall w fs w' fs', run_writer calls (w, fs) = Ok (w', fs') ->
    w' = mkWriter (ow_clobber w) (ow_interval w) (ow_fields w) (ow_path w) (ow_rows w)
           (fold_left nadd (map (fun c => match snd c with Some dt => dt | None => n1 end) calls) (ow_time w))
           (length calls + ow_count w)
    /\ forall p, p <> ow_path w -> fs' p = fs p.
  Proof.
    induction calls as [|c calls IH] using rev_ind; intros w fs w' fs' E.
    - injection E as <- <-. split; [destruct w; reflexivity|reflexivity].
    - rewrite run_writer_snoc in E. destruct (run_writer calls (w, fs)) as [[w1 fs1]|] eqn:E1; [|discriminate E].
      cbn [bind] in E. destruct (IH _ _ _ _ E1) as [Ew Ef]. destruct (writer_step_spec _ _ _ _ _ _ E) as [_ [Ew' [D1 D2]]].
      rewrite Ew', Ew. unfold next. cbn [ow_clobber ow_interval ow_fields ow_path ow_rows ow_time ow_count].
      rewrite map_app, fold_left_app, app_length, Nat.add_1_r. split; [reflexivity|].
      intros p Hp. rewrite <- (Ef p Hp). assert (Hp1 : p <> ow_path w1) by (rewrite Ew; exact Hp).
      destruct (Z.eq_dec (Z.of_nat (ow_count w1) mod ow_interval w1) 0) as [Hd|Hd].
      + destruct (D1 Hd) as [d' [_ ->]]. unfold fs_set. destruct (String.eqb_spec p (ow_path w1)); [contradiction|reflexivity].
      + rewrite (D2 Hd). reflexivity.
  Qed.

  Lemma due_nat w k : ow_interval w = Z.of_nat k -> 1 <= k -> due w <-> ow_count w mod k = 0.
  Proof.
    intros E Hk. unfold due. rewrite E, <- Nat2Z.inj_mod. split; intros X; [apply Nat2Z.inj; exact X|rewrite X; reflexivity].
  Qed.

  (* what record j of a file is *)
  Definition good_record (fields : list string) (d : dataset A) (calls : list (gview A * option A)) (k j : nat) : Prop :=
    exists g dt, nth_error calls (j * k) = Some (g, dt)
    /\ forall name l, fields = [] \/ In name fields -> field_at g "node" name = Some (Vector l) ->
         record_of d ("at_node:" ++ name)%string j = Some l.

  Lemma written_node fields g name x : field_at g "node" name = Some x -> fields = [] \/ In name fields ->
    In name (written_names fields g "node").
  Proof.
    unfold field_at, written_names, fields_at. destruct (dget String.eqb (gv_fields g) "node"%string) as [fs|]; [|discriminate].
    intros Ex Hf. change (String.eqb "node" "node") with true. cbn iota.
    assert (Hin : In name (map fst fs)).
    { apply dget_in in Ex; [|intros a b; apply String.eqb_eq]. apply (in_map fst) in Ex. exact Ex. }
    unfold fields_to_write. change (String.eqb "node" "grid") with false. cbn iota.
    apply filter_In. split; [|apply mem_In; exact Hin].
    destruct fields as [|f fl]; [exact Hin|]. destruct Hf as [X|X]; [discriminate X|exact X].
  Qed.

  Theorem writer_records g0 path interval fields clobber rows fs fs1 w N calls w' fs' :
    writer_init g0 path interval fields clobber rows fs = (fs1, Ok w) ->
    Forall (fun c => with_nodes N (fst c)) calls ->
    run_writer calls (w, fs1) = Ok (w', fs') -> calls <> [] ->
    exists k d, ow_interval w = Z.of_nat k /\ 1 <= k /\ fs' path = Some (Nc d)
      /\ ds_time d = map (fun j => elapsed (firstn (j * k) calls)) (seq 0 (records (length calls) k))
      /\ forall j, j < records (length calls) k ->
           good_record (match fields with Some l => l | None => [] end) d calls k j.
  Proof.
    intros Hi Hs. unfold writer_init in Hi.
    destruct (check_interval interval) as [z|] eqn:Ez; [|discriminate Hi].
    destruct (clear_path clobber path fs) as [f1 [u|]] eqn:Ec; [|discriminate Hi]. injection Hi as <- Ew.
    assert (Hnone : f1 path = None).
    { unfold clear_path in Ec. destruct (is_file fs path && negb clobber)%bool; [discriminate Ec|].
      destruct (fs path) as [[d| |]|] eqn:Ep; try discriminate Ec; injection Ec as <-; [| |exact Ep];
        unfold fs_set; rewrite String.eqb_refl; reflexivity. }
    assert (Hz : (0 <= z)%Z).
    { unfold check_interval in Ez. destruct interval as [z'|[]]; try discriminate Ez.
      destruct (Z.ltb_spec z' 0); [discriminate Ez|]. injection Ez as <-. assumption. }
    clear Ez Ec. intros E Hne.
    assert (Hk0 : z <> 0%Z).
    { destruct calls as [|c calls]; [contradiction|]. unfold run_writer in E. cbn [foldM] in E.
      intros ->. subst w. cbn in E. discriminate E. }
    set (k := Z.to_nat z). assert (Hk : 1 <= k) by (unfold k; lia).
    assert (Ek : ow_interval w = Z.of_nat k) by (subst w; cbn; unfold k; lia).
    set (fl := match fields with Some l => l | None => [] end) in *.
    cut (calls <> [] -> exists d, fs' path = Some (Nc d)
      /\ dget String.eqb (ds_dims d) "node"%string = Some N
      /\ ds_time d = map (fun j => elapsed (firstn (j * k) calls)) (seq 0 (records (length calls) k))
      /\ forall j, j < records (length calls) k -> good_record fl d calls k j).
    { intros X. destruct (X Hne) as [d [a [_ b]]]. exists k, d. auto. }
    clear Hne. revert w' fs' E. induction calls as [|c calls IH] using rev_ind; intros w' fs' E Hne; [contradiction|].
    apply Forall_app in Hs. destruct Hs as [Hs Hc]. inversion Hc as [|? ? Hc1 _]; subst. clear Hc. rename Hc1 into Hc.
    rewrite run_writer_snoc in E. set (w := mkWriter _ _ _ _ _ _ _) in *.
    destruct (run_writer calls (w, f1)) as [[w1 fs1]|] eqn:E1; [|discriminate E]. cbn [bind] in E.
    destruct (run_writer_state _ _ _ _ _ E1) as [Ew1 _].
    assert (Et : ow_time w1 = elapsed calls) by (rewrite Ew1; reflexivity).
    assert (En : ow_count w1 = length calls) by (rewrite Ew1; cbn; lia).
    assert (Ei : ow_interval w1 = Z.of_nat k) by (rewrite Ew1; exact Ek).
    assert (Ep : ow_path w1 = path) by (rewrite Ew1; reflexivity).
    assert (Ef : ow_fields w1 = fl) by (rewrite Ew1; reflexivity).
    destruct (writer_step_spec _ _ _ _ _ _ E) as [_ [_ [D1 D2]]].
    pose proof (due_nat w1 k Ei Hk) as Hdue. rewrite En in Hdue.
    rewrite app_length. cbn [length]. rewrite Nat.add_1_r, records_S by exact Hk.
    assert (Hfirst : forall j, j < records (length calls) k -> firstn (j * k) (calls ++ [c]) = firstn (j * k) calls).
    { intros j Hj. apply records_bound in Hj; [|exact Hk]. rewrite firstn_app.
      replace (j * k - length calls) with 0 by lia. cbn [firstn]. apply app_nil_r. }
    assert (Hold : forall d, forall j, j < records (length calls) k -> good_record fl d calls k j -> good_record fl d (calls ++ [c]) k j).
    { intros d j Hj [g [dt [En' G]]]. exists g, dt. split; [|exact G]. apply records_bound in Hj; [|exact Hk].
      rewrite nth_error_app1 by exact Hj. exact En'. }
    destruct (Nat.eqb_spec (length calls mod k) 0) as [Hm|Hm].
    - destruct (D1 (proj2 Hdue Hm)) as [d' [Hw Efs]]. rewrite Ep in Hw, Efs. rewrite Ef, Et in Hw.
      exists d'. split; [rewrite Efs; unfold fs_set; rewrite String.eqb_refl; reflexivity|].
      pose proof (records_due _ _ Hk Hm) as Hrk.
      assert (Hlast : firstn (records (length calls) k * k) (calls ++ [c]) = calls).
      { rewrite Hrk, firstn_app, firstn_all, Nat.sub_diag. cbn [firstn]. apply app_nil_r. }
      assert (Hnew : forall d, (forall name l, fl = [] \/ In name fl -> field_at (fst c) "node" name = Some (Vector l) ->
          record_of d ("at_node:" ++ name)%string (records (length calls) k) = Some l) ->
          good_record fl d (calls ++ [c]) k (records (length calls) k)).
      { intros d G. exists (fst c), (snd c). split; [|exact G].
        rewrite Hrk, nth_error_app2, Nat.sub_diag by lia. destruct c; reflexivity. }
      rewrite seq_S, map_app. cbn [map plus]. rewrite Hlast.
      destruct calls as [|c0 calls'].
      + (* the first record *)
        injection E1 as <- <-. rewrite Hnone in Hw.
        destruct (writer_write_spec _ _ _ _ _ _ Hw) as [d0 [Hh [T [D [_ [_ [_ [Rn _]]]]]]]].
        assert (Hr0 : records (length (@nil (gview A * option A))) k = 0).
        { unfold records. cbn [length]. apply Nat.div_small. lia. }
        destruct Hh as [T0 [_ [_ [ys [xs [_ [_ [Dd _]]]]]]]].
        assert (HN : dget String.eqb (ds_dims d0) "node"%string = Some N).
        { rewrite Dd. cbn. rewrite (proj1 Hc). reflexivity. }
        split; [rewrite D; exact HN|]. rewrite Hr0 in *. split; [rewrite T, T0; reflexivity|].
        intros j Hj. assert (j = 0) by lia. subst j. rewrite Nat.mul_0_l in *. apply Hnew.
        intros name l Hn Hl. destruct (Rn "node"%string name) as [n [x [vals [l' [a [b [cc [e f]]]]]]]].
        { cbn. tauto. } { eapply written_node; eassumption. }
        rewrite Hl in b. injection b as <-. cbn in cc. injection cc as <-. rewrite HN in a. injection a as <-.
        apply fit_same in e; [|destruct (proj2 Hc _ _ Hl) as [l2 [X1 X2]]; congruence]. subst l'. rewrite T0 in f. exact f.
      + destruct (IH Hs _ _ eq_refl ltac:(discriminate)) as [d [Hd [HN [T Hg]]]]. rewrite Hd in Hw.
        destruct (writer_write_spec _ _ _ _ _ _ Hw) as [d0 [-> [T' [D [_ [Ro [_ [Rn _]]]]]]]].
        assert (Hlen : length (ds_time d) = records (length (c0 :: calls')) k) by (rewrite T, map_length, seq_length; reflexivity).
        split; [rewrite D; exact HN|]. split.
        * rewrite T', T. f_equal. apply map_ext_in. intros j Hj. apply in_seq in Hj. f_equal. symmetry. apply Hfirst. lia.
        * intros j Hj. destruct (Nat.eq_dec j (records (length (c0 :: calls')) k)) as [->|Hj'].
          -- apply Hnew. intros name l Hn Hl. destruct (Rn "node"%string name) as [n [x [vals [l' [a [b [cc [e f]]]]]]]].
             { cbn. tauto. } { eapply written_node; eassumption. }
             rewrite Hl in b. injection b as <-. cbn in cc. injection cc as <-. rewrite HN in a. injection a as <-.
             apply fit_same in e; [|destruct (proj2 Hc _ _ Hl) as [l2 [X1 X2]]; congruence]. subst l'. rewrite Hlen in f. exact f.
          -- assert (Hj2 : j < records (length (c0 :: calls')) k) by lia. apply Hold; [exact Hj2|].
             destruct (Hg j Hj2) as [g [dt [G1 G2]]]. exists g, dt. split; [exact G1|].
             intros name l Hn Hl. rewrite Ro by lia. apply G2; assumption.
    - assert (Hne' : calls <> []).
      { intros ->. cbn in Hm. rewrite Nat.mod_0_l in Hm by lia. contradiction. }
      rewrite (D2 (fun X => Hm (proj1 Hdue X))). destruct (IH Hs _ _ eq_refl Hne') as [d [Hd [HN [T Hg]]]].
      exists d. split; [exact Hd|]. split; [exact HN|]. split.
      + rewrite T. apply map_ext_in. intros j Hj. apply in_seq in Hj. f_equal. symmetry. apply Hfirst. lia.
      + intros j Hj. apply Hold; [exact Hj|]. apply Hg. exact Hj.
  Qed.

  (* earlier records are never changed *)
  Theorem records_kept calls w fs w' fs' d : run_writer calls (w, fs) = Ok (w', fs') -> file_at fs (ow_path w) = Some d ->
    exists d', file_at fs' (ow_path w) = Some d' /\ ds_coords d' = ds_coords d
    /\ (exists ts, ds_time d' = ds_time d ++ ts)
    /\ forall v i, i < length (ds_time d) -> record_of d' v i = record_of d v i.
  Proof.
    revert w' fs'. induction calls as [|c calls IH] using rev_ind; intros w' fs' E Hd.
    - injection E as <- <-. exists d. split; [exact Hd|]. split; [reflexivity|]. split; [exists []; symmetry; apply app_nil_r|]. reflexivity.
    - rewrite run_writer_snoc in E. destruct (run_writer calls (w, fs)) as [[w1 fs1]|] eqn:E1; [|discriminate E].
      cbn [bind] in E. destruct (IH _ _ eq_refl Hd) as [d1 [H1 [C1 [[ts T1] R1]]]].
      destruct (run_writer_state _ _ _ _ _ E1) as [Ew1 _].
      assert (Ep : ow_path w1 = ow_path w) by (rewrite Ew1; reflexivity).
      destruct (writer_step_spec _ _ _ _ _ _ E) as [_ [_ [D1 D2]]].
      destruct (Z.eq_dec (Z.of_nat (ow_count w1) mod ow_interval w1) 0) as [Hdue|Hdue].
      + destruct (D1 Hdue) as [d' [Hw Efs]]. rewrite Ep in Hw, Efs. exists d'. unfold file_at in *.
        split; [rewrite Efs; unfold fs_set; rewrite String.eqb_refl; reflexivity|].
        destruct (fs1 (ow_path w)) as [[d2| |]|]; try discriminate H1. injection H1 as ->.
        destruct (writer_write_spec _ _ _ _ _ _ Hw) as [d0 [-> [T' [D [Cc [Ro _]]]]]].
        split; [congruence|]. split.
        * exists (ts ++ [ow_time w1]). rewrite T', T1, app_assoc. reflexivity.
        * intros v i Hi. rewrite Ro by (rewrite T1, app_length; lia). apply R1. exact Hi.
      + rewrite (D2 Hdue). exists d1. split; [exact H1|]. split; [exact C1|]. split; [exists ts; exact T1|exact R1].
  Qed.
End Any.
