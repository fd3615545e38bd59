(** The layer variables of an output file over any number of calls. *)
From Coq Require Import String List ZArith Arith Lia Bool.
From Verif.Base Require Import Num Py Arr.
From Verif.Model Require Import Layers Grid Netcdf OutputWriter.
From Verif.Spec Require Import Recording.
From Verif.Proofs Require Import NetcdfP OutputP.
Import ListNotations.

Section Any.
  Context {A : Type} `{Num A}.
  Implicit Types (w : writer A) (fs : filesystem A) (g : gview A).

  Lemma layer_data_values (el : event_layers A) name : layer_data el name = layer_values el name.
  Proof. unfold layer_data, layer_values, layers_of, fmap. destruct (String.eqb name "thickness"); reflexivity. Qed.
  Lemma layer_data_length (el : event_layers A) name : length (layer_data el name) = el_number el.
  Proof. unfold layer_data, layers_of. destruct (String.eqb name "thickness"); rewrite map_length, seq_length; reflexivity. Qed.

  Lemma fit_layers_same {B} r c (l : list (field B)) : fit_layers r c r c l = Ok l.
  Proof. unfold fit_layers. rewrite !Nat.eqb_refl. reflexivity. Qed.

  (* a file whose layers are as wide as the grid's *)
  Definition sized (R C : nat) g : Prop := gv_rows g = R /\ gv_cols g = C.

  (* the calls that write *)
  Definition writes_at (calls : list (gview A * option A)) (k j : nat) g : Prop :=
    exists dt, nth_error calls (j * k) = Some (g, dt).

  Theorem layer_file R C k path w fs calls w' fs' :
    ow_interval w = Z.of_nat k -> 1 <= k -> ow_count w = 0 -> ow_path w = path -> fs path = None ->
    length (ow_rows w) = R -> Forall (fun c => sized R C (fst c)) calls ->
    run_writer calls (w, fs) = Ok (w', fs') -> calls <> [] ->
    exists d, fs' path = Some (Nc d)
    /\ (forall M, (forall j g, writes_at calls k j g -> el_number (gv_layers g) <= M) ->
          forall name, length (layer_var d name) <= M)
    /\ (forall j g, writes_at calls k j g -> forall name, In name (el_tracking (gv_layers g) ++ ["thickness"%string]) ->
          el_number (gv_layers g) <= length (layer_var d name))
    /\ (forall j g, writes_at calls k j g -> length calls <= S j * k ->
          forall name, In name (el_tracking (gv_layers g) ++ ["thickness"%string]) ->
          exists rest, layer_var d name = map Some (layer_data (gv_layers g) name) ++ rest).
  Proof.
    intros Ek Hk Hc0 Hp Hnone Hrows Hs E Hne.
    cut (calls <> [] -> exists d, fs' path = Some (Nc d)
      /\ dget String.eqb (ds_dims d) "row"%string = Some R /\ dget String.eqb (ds_dims d) "column"%string = Some (C - 2)
      /\ (forall M, (forall j g, writes_at calls k j g -> el_number (gv_layers g) <= M) ->
          forall name, length (layer_var d name) <= M)
      /\ (forall j g, writes_at calls k j g -> forall name, In name (el_tracking (gv_layers g) ++ ["thickness"%string]) ->
          el_number (gv_layers g) <= length (layer_var d name))
      /\ (forall j g, writes_at calls k j g -> length calls <= S j * k ->
          forall name, In name (el_tracking (gv_layers g) ++ ["thickness"%string]) ->
          exists rest, layer_var d name = map Some (layer_data (gv_layers g) name) ++ rest)).
    { intros X. destruct (X Hne) as [d [a [_ [_ [b [e f]]]]]]. exists d. auto. }
    clear Hne. revert w' fs' E. induction calls as [|c calls IH] using rev_ind; intros w' fs' E Hne; [contradiction|].
    apply Forall_app in Hs. destruct Hs as [Hs Hc]. inversion Hc as [|? ? Hc1 _]; subst x l. clear Hc. destruct Hc1 as [HR HC].
    rewrite run_writer_snoc in E. destruct (run_writer calls (w, fs)) as [[w1 fs1]|] eqn:E1; [|discriminate E]. cbn [bind] in E.
    destruct (run_writer_state _ _ _ _ _ E1) as [Ew1 _].
    assert (En : ow_count w1 = length calls) by (rewrite Ew1; cbn; lia).
    assert (Ei : ow_interval w1 = Z.of_nat k) by (rewrite Ew1; exact Ek).
    assert (Ep : ow_path w1 = path) by (rewrite Ew1; exact Hp).
    assert (Er : ow_rows w1 = ow_rows w) by (rewrite Ew1; reflexivity).
    destruct (writer_step_spec _ _ _ _ _ _ E) as [_ [_ [D1 D2]]].
    pose proof (due_nat w1 k Ei Hk) as Hdue. rewrite En in Hdue.
    assert (Hin : forall j g, writes_at calls k j g -> writes_at (calls ++ [c]) k j g).
    { intros j g [dt X]. exists dt. rewrite nth_error_app1; [exact X|]. apply nth_error_Some. congruence. }
    assert (Hback : forall j g, writes_at (calls ++ [c]) k j g -> writes_at calls k j g \/ (j * k = length calls /\ g = fst c)).
    { intros j g [dt X]. destruct (Nat.lt_ge_cases (j * k) (length calls)) as [Hj|Hj].
      - left. exists dt. rewrite nth_error_app1 in X by exact Hj. exact X.
      - right. assert (X' : nth_error (calls ++ [c]) (j * k) <> None) by congruence. apply nth_error_Some in X'.
        rewrite app_length in X'. cbn [length] in X'. assert (Hjk : j * k = length calls) by lia. split; [exact Hjk|].
        rewrite Hjk, nth_error_app2, Nat.sub_diag in X by lia. cbn in X. injection X as ->. reflexivity. }
    rewrite app_length. cbn [length].
    destruct (Nat.eq_dec (length calls mod k) 0) as [Hm|Hm].
    - destruct (D1 (proj2 Hdue Hm)) as [d' [Hw Efs]]. rewrite Ep in Hw, Efs. rewrite Er in Hw.
      exists d'. split; [rewrite Efs; unfold fs_set; rewrite String.eqb_refl; reflexivity|].
      assert (Hlast : forall j g, writes_at (calls ++ [c]) k j g -> length calls + 1 <= S j * k -> j * k = length calls /\ g = fst c).
      { intros j g X Hj. destruct (Hback j g X) as [[dt Y]|Y]; [|exact Y]. exfalso.
        assert (Y' : nth_error calls (j * k) <> None) by congruence. apply nth_error_Some in Y'.
        pose proof (Nat.div_mod (length calls) k ltac:(lia)) as Dv. rewrite Hm, Nat.add_0_r in Dv.
        set (q := length calls / k) in *. assert (j < q) by nia. assert (S j * k <= q * k) by (apply Nat.mul_le_mono_r; lia). lia. }
      assert (Hself : writes_at (calls ++ [c]) k (length calls / k) (fst c)).
      { exists (snd c). pose proof (Nat.div_mod (length calls) k ltac:(lia)) as Dv.
        replace (length calls / k * k) with (length calls) by lia. rewrite nth_error_app2, Nat.sub_diag by lia. destruct c; reflexivity. }
      assert (Hgen : forall d0, dget String.eqb (ds_dims d0) "row"%string = Some R ->
        dget String.eqb (ds_dims d0) "column"%string = Some (C - 2) ->
        (exists r c0, dget String.eqb (ds_dims d0) "row"%string = Some r /\ dget String.eqb (ds_dims d0) "column"%string = Some c0
          /\ (forall name, ~ In name (el_tracking (gv_layers (fst c)) ++ ["thickness"%string]) -> layer_var d' name = layer_var d0 name)
          /\ forall name, In name (el_tracking (gv_layers (fst c)) ++ ["thickness"%string]) ->
            exists l, fit_layers r c0 (gv_rows (fst c)) (gv_cols (fst c) - 2) (layer_data (gv_layers (fst c)) name) = Ok l
              /\ layer_var d' name = put_first l (layer_var d0 name)) ->
        (forall name, ~ In name (el_tracking (gv_layers (fst c)) ++ ["thickness"%string]) -> layer_var d' name = layer_var d0 name)
        /\ (forall name, In name (el_tracking (gv_layers (fst c)) ++ ["thickness"%string]) ->
              layer_var d' name = map Some (layer_data (gv_layers (fst c)) name)
                ++ skipn (el_number (gv_layers (fst c))) (layer_var d0 name))).
      { intros d0 h1 h2 [r [c0 [k1 [k2 [k3 k4]]]]]. split; [exact k3|]. intros name Hn. destruct (k4 name Hn) as [l [Hl ->]].
        rewrite h1 in k1. rewrite h2 in k2. injection k1 as <-. injection k2 as <-. rewrite HR, HC, fit_layers_same in Hl.
        injection Hl as <-. unfold put_first. rewrite layer_data_length. reflexivity. }
      destruct calls as [|c0 calls'].
      + injection E1 as <- <-. rewrite Hnone in Hw.
        destruct (writer_write_spec _ _ _ _ _ _ Hw) as [d0 [Hh [_ [D [_ [_ [_ [_ Hl]]]]]]]].
        destruct Hh as [_ [_ [HL [ys [xs [Hys [Hxs [Dd _]]]]]]]].
        assert (Hx1 : dget String.eqb (ds_dims d0) "row"%string = Some R).
        { rewrite Dd. cbn. f_equal. unfold take in Hys. apply mapM_length in Hys. lia. }
        assert (Hx2 : dget String.eqb (ds_dims d0) "column"%string = Some (C - 2)).
        { rewrite Dd. cbn. f_equal. unfold take in Hxs. apply mapM_length in Hxs. rewrite map_length, seq_length in Hxs. lia. }
        destruct (Hgen d0 Hx1 Hx2 Hl) as [G1 G2].
        assert (HL0 : forall name, layer_var d0 name = []) by (intros name; unfold layer_var; rewrite HL; reflexivity).
        split; [rewrite D; exact Hx1|]. split; [rewrite D; exact Hx2|].
        split; [|split].
        * intros M HM name. destruct (in_dec string_dec name (el_tracking (gv_layers (fst c)) ++ ["thickness"%string])) as [Hn|Hn].
          -- rewrite (G2 name Hn), HL0, skipn_nil, app_nil_r, map_length, layer_data_length. eapply HM. exact Hself.
          -- rewrite (G1 name Hn), HL0. cbn. lia.
        * intros j g Hj name Hn. destruct (Hback j g Hj) as [[dt X]|[_ ->]]; [destruct (j * k); discriminate X|].
          rewrite (G2 name Hn), app_length, map_length, layer_data_length. lia.
        * intros j g Hj _ name Hn. destruct (Hback j g Hj) as [[dt X]|[_ ->]]; [destruct (j * k); discriminate X|].
          rewrite (G2 name Hn). eexists. reflexivity.
      + destruct (IH Hs _ _ eq_refl ltac:(discriminate)) as [d [Hd [Hx1 [Hx2 [U [Lo _]]]]]]. rewrite Hd in Hw.
        destruct (writer_write_spec _ _ _ _ _ _ Hw) as [d0 [-> [_ [D [_ [_ [_ [_ Hl]]]]]]]].
        destruct (Hgen d Hx1 Hx2 Hl) as [G1 G2].
        split; [rewrite D; exact Hx1|]. split; [rewrite D; exact Hx2|]. split; [|split].
        * intros M HM name. assert (U' := U M (fun j g X => HM j g (Hin j g X)) name). assert (Hcm := HM _ _ Hself).
          destruct (in_dec string_dec name (el_tracking (gv_layers (fst c)) ++ ["thickness"%string])) as [Hn|Hn].
          -- rewrite (G2 name Hn), app_length, map_length, layer_data_length, skipn_length. lia.
          -- rewrite (G1 name Hn). exact U'.
        * intros j g Hj name Hn. destruct (Hback j g Hj) as [X|[_ ->]].
          -- assert (Y := Lo j g X name Hn).
             destruct (in_dec string_dec name (el_tracking (gv_layers (fst c)) ++ ["thickness"%string])) as [Hn'|Hn'].
             ++ rewrite (G2 name Hn'), app_length, map_length, layer_data_length, skipn_length. lia.
             ++ rewrite (G1 name Hn'). exact Y.
          -- rewrite (G2 name Hn), app_length, map_length, layer_data_length. lia.
        * intros j g Hj Hlen name Hn. destruct (Hlast j g Hj Hlen) as [_ ->]. rewrite (G2 name Hn). eexists. reflexivity.
    - assert (Hne' : calls <> []).
      { intros ->. cbn in Hm. rewrite Nat.mod_0_l in Hm by lia. contradiction. }
      rewrite (D2 (fun X => Hm (proj1 Hdue X))). destruct (IH Hs _ _ eq_refl Hne') as [d [Hd [Hx1 [Hx2 [U [Lo La]]]]]].
      assert (Hb2 : forall j g, writes_at (calls ++ [c]) k j g -> writes_at calls k j g).
      { intros j g X. destruct (Hback j g X) as [Y|[Y _]]; [exact Y|]. rewrite <- Y, Nat.mod_mul in Hm by lia. contradiction. }
      exists d. split; [exact Hd|]. split; [exact Hx1|]. split; [exact Hx2|]. split; [|split].
      + intros M HM. apply U. intros j g X. eapply HM, Hin. exact X.
      + intros j g X. apply Lo with (j := j), Hb2. exact X.
      + intros j g X Hl. apply La with (j := j); [apply Hb2; exact X|lia].
  Qed.
End Any.
