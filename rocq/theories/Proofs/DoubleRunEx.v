(** Concrete runs of a Sequence in doubles. *)
From Coq Require Import List ZArith QArith Qreals Reals Lra Lia Bool Floats.SpecFloat.
From Flocq Require Import Core.
From Verif.Base Require Import Num Py Arr.
From Verif.Model Require Import Grid Sequence.
From Verif.Spec Require Import Column Doubles DoubleRun.
From Verif.Proofs Require Import SequenceP DoubleP DoublesEx DoubleDivP DoubleRunP SequenceEx SequenceModelEx StartP.
Import ListNotations.
Local Open Scope R_scope.

(* run(until, dt) of one component on a beach: the number of calls, the last
   one, and the time at the end *)
Definition ex_calls (until dt : b64) : option (nat * (nat * b64) * b64) :=
  match sequence_init (W := unit) tt (ex_beach 1) dt with
  | Ok s => match sequence_run (mapi logged [ex_lay n1]) (Some until) (Some dt) (seq_log s []) with
            | Ok sl => Some (length (snd (sq_world sl)), last (snd (sq_world sl)) (0%nat, n0), sq_time sl)
            | Err _ => None
            end
  | Err _ => None
  end.
(* run(until=2.2, dt=0.1) makes 23 updates, the last of length 0 *)
Lemma ex_idle : ex_calls (nlit (22 # 10)) (nlit (1 # 10)) = Some (23%nat, (0%nat, S754_zero false), nlit (22 # 10)).
Proof. vm_compute. reflexivity. Qed.
(* run(until=1, dt=0.1) makes 10, the last of length 0.1, and ends before 1 *)
Lemma ex_short : ex_calls (nlit 1) (nlit (1 # 10)) = Some (10%nat, (0%nat, nlit (1 # 10)), S754_finite false 9007199254740991 (-53)).
Proof. vm_compute. reflexivity. Qed.
(* run(until=1, dt=0.375) *)
Lemma ex_eighths : ex_calls (nlit 1) (nlit (375 # 1000)) = Some (3%nat, (0%nat, nlit (25 # 100)), nlit 1).
Proof. vm_compute. reflexivity. Qed.

Lemma start_time {A} {num : Num A} {W} (w : W) (g : grid A) step s : sequence_init w g step = Ok s -> sq_time s = n0.
Proof.
  intros E. unfold sequence_init in E. okinv E Ez. okinv E Eb. okinv E Es. okinv E E1. okinv E E2. injection E as <-. cbn [set_sq_grid sq_time].
  match type of Es with (if ?c then _ else _) = _ => destruct c end; [|injection Es as <-; reflexivity].
  destruct (add_layer_spec _ _ _ Es) as [z [el1 [ge [re [_ [_ [_ [Et _]]]]]]]]. exact Et.
Qed.
(* what a run that was computed says about every list of calls *)
Lemma ran_by until dt n k e t : ex_calls until dt = Some (n, (k, e), t) ->
  exists s : sequence b64 unit, sq_time s = n0 /\
    forall ds, runs_by [ex_lay n1] (Some until) (Some dt) s ds -> length ds = n /\ (ds <> [] -> last ds n0 = e).
Proof.
  unfold ex_calls, runs_by. generalize (@n1 b64 _). intros h X.
  destruct (sequence_init _ _ _) as [s|] eqn:Ei; [|discriminate X]. exists s. split; [exact (start_time _ _ _ _ Ei)|]. intros ds R.
  destruct (sequence_run (mapi logged [ex_lay h]) (Some until) (Some dt) (seq_log s [])) as [sl|]; [|discriminate X].
  destruct (sequence_run [ex_lay h] (Some until) (Some dt) s) as [s'|]; [|contradiction]. rewrite R in X.
  cbn [seq_log sq_world snd length] in X. injection X as X1 X2 _.
  assert (C : calls_of 1 ds = map (fun d => (0%nat, d)) ds) by (clear; induction ds as [|d ds IH]; [reflexivity|]; cbn; f_equal; exact IH).
  rewrite C in X1, X2. rewrite map_length in X1. split; [exact X1|]. intros Hn.
  clear -X2 Hn. induction ds as [|d ds IH]; [contradiction|]. destruct ds as [|d' ds]; [cbn in X2; injection X2 as _ ->; reflexivity|].
  apply IH; [exact X2|discriminate].
Qed.
Definition forward_run : Prop :=
  forall W (components : list (component b64 W)) T d s, a_number T -> a_number d -> a_number (sq_time s) ->
    0 < value d -> value (sq_time s) < value T ->
    exists ds, runs_by components (Some T) (Some d) s ds
      /\ (forall e, In e ds -> 0 < value e <= value d)
      /\ (INR (length ds) - 1) * value d < value T - value (sq_time s) <= INR (length ds) * value d.
Lemma last_in {A} (l : list A) x : l <> [] -> In (last l x) l.
Proof. induction l as [|a l IH]; [contradiction|]. intros _. destruct l as [|b l]; [left; reflexivity|right; apply IH; discriminate]. Qed.
Lemma long_value : value (nlit (22 # 10)) = 4953959590107546 / 2251799813685248.
Proof.
  replace (nlit (22 # 10) : b64) with (S754_finite false 4953959590107546 (-51)) by (vm_compute; reflexivity).
  rewrite value_SF2R. unfold Flocq.IEEE754.BinarySingleNaN.SF2R, F2R. cbn [Fnum Fexp cond_Zopp].
  change (bpow radix2 (-51)) with (/ 2251799813685248). reflexivity.
Qed.
Lemma n0_value : value (n0 : b64) = 0.
Proof. rewrite DoubleLayersP.n0_b64. reflexivity. Qed.
Lemma n0_number : a_number (n0 : b64).
Proof. rewrite DoubleLayersP.n0_b64. split; [reflexivity|exact I]. Qed.
Lemma long_number : a_number (nlit (22 # 10)) /\ a_number (nlit (1 # 10)).
Proof. split; (split; vm_compute; [reflexivity|exact I]). Qed.
Theorem forward_refuted : ~ forward_run.
Proof.
  intros S. destruct (ran_by _ _ _ _ _ _ ex_idle) as [s [E R]]. destruct long_number as [N1 N2].
  destruct (S unit [ex_lay n1] (nlit (22 # 10)) (nlit (1 # 10)) s N1 N2) as [ds [D1 [D2 _]]].
  - rewrite E. exact n0_number.
  - rewrite tenth_value. lra.
  - rewrite E, n0_value, long_value. lra.
  - destruct (R ds D1) as [L1 L2]. assert (Hn : ds <> []) by (intros C; rewrite C in L1; discriminate L1).
    assert (Q := D2 _ (last_in ds n0 Hn)). rewrite (L2 Hn) in Q. cbn in Q. lra.
Qed.
Lemma ex_run_drift : exists s : sequence b64 unit,
  a_number (nlit (22 # 10)) /\ a_number (nlit (1 # 10)) /\ a_number (sq_time s) /\ 0 < value (nlit (1 # 10))
  /\ value (sq_time s) < value (nlit (22 # 10)) /\ Rabs (value (sq_time s)) <= 3 /\ Rabs (value (nlit (22 # 10))) <= 3
  /\ 3 <= powerRZ 2 960 /\ value (nlit (22 # 10)) - value (sq_time s) <= 2 ^ 49 * value (nlit (1 # 10)).
Proof.
  destruct (ran_by _ _ _ _ _ _ ex_idle) as [s [E _]]. exists s. destruct long_number as [N1 N2]. rewrite E, n0_value, long_value, tenth_value.
  split; [exact N1|]. split; [exact N2|]. split; [exact n0_number|]. do 2 (split; [lra|]). rewrite Rabs_R0, Rabs_pos_eq by lra.
  do 2 (split; [lra|]). split.
  - apply Rle_trans with (powerRZ 2 2); [rewrite <- (bpow_powerRZ radix2); change (bpow radix2 2) with 4; lra|]. rewrite <- !(bpow_powerRZ radix2). apply bpow_le. lia.
  - replace (2 ^ 49) with 562949953421312; [lra|]. replace 2 with (IZR 2) by reflexivity. rewrite pow_IZR. reflexivity.
Qed.
Lemma ex_run_exact : exists s : sequence b64 unit, parts 3 0 (sq_time s) /\ parts 3 8 (nlit 1) /\ parts 3 3 (nlit (375 # 1000)).
Proof.
  destruct (ran_by _ _ _ _ _ _ ex_eighths) as [s [E _]]. exists s. rewrite E.
  assert (P : forall z x, (Z.abs z <= 2 ^ 52)%Z -> x = b64_of z (-3) -> parts 3 z x).
  { intros z x Z ->. destruct (of_number z (-3) ltac:(lia) ltac:(lia)) as [N V]. split; [exact N|]. split; [exact Z|]. rewrite V, bpow_powerRZ. reflexivity. }
  repeat split; try (vm_compute; reflexivity); try lia; try (apply P; [lia|vm_compute; reflexivity]); apply P; try lia; vm_compute; reflexivity.
Qed.

(** ** the theorem in the words of the specification *)
Theorem drift_words {W} (components : list (component b64 W)) until dt s M :
  let T := goal until s in let d := longest dt s in let t := sq_time s in
  a_number T -> a_number d -> a_number t -> 0 < value d -> value t < value T ->
  Rabs (value t) <= M -> Rabs (value T) <= M -> M <= powerRZ 2 960 -> value T - value t <= 2 ^ 49 * value d ->
  exists ds, runs_by components until dt s ds
    /\ (INR (length ds) - 1) * value d < (value T - value t) * (1 + / 2 ^ 53)
    /\ (value T - value t) * (1 - / 2 ^ 53) <= INR (length ds) * value d
    /\ (forall e, In e ds -> a_number e /\ - (6 * (INR (length ds) + 1) * M / 2 ^ 53) <= value e <= value d)
    /\ forall s', sequence_run components until dt s = Ok s' ->
         a_number (sq_time s') /\ Rabs (value (sq_time s') - value T) <= 6 * (INR (length ds) + 1) * M / 2 ^ 53.
Proof.
  intros T d t H1 H2 H3 H4 H5 H6 H7 H8 H9.
  assert (U : bpow radix2 (-53) = / 2 ^ 53) by (rewrite bpow_powerRZ; reflexivity).
  rewrite <- (bpow_powerRZ radix2) in H8.
  assert (U49 : 2 ^ 49 = bpow radix2 49) by (replace 2 with (IZR 2) by reflexivity; rewrite pow_IZR; reflexivity). rewrite U49 in H9.
  destruct (drift_run components until dt s M H1 H2 H3 H4 H5 H6 H7 H8 H9) as [ds [D1 [D2 [D3 [D4 D5]]]]]. rewrite U in *.
  exists ds. split; [exact D1|]. split; [exact D2|]. split; [exact D3|].
  replace (6 * (INR (length ds) + 1) * M / 2 ^ 53) with (6 * ((INR (length ds) + 1) * (M * / 2 ^ 53))) by (unfold Rdiv; ring).
  split; [exact D4|exact D5].
Qed.
Corollary exact_time {W} (components : list (component b64 W)) until dt s s' k z0 z1 z2 :
  (0 <= k <= 1074)%Z -> parts k z0 (sq_time s) -> parts k z1 (goal until s) -> parts k z2 (longest dt s) ->
  (0 < z2)%Z -> (z0 < z1)%Z -> (z1 - z0 <= 2 ^ 50 * z2)%Z -> sequence_run components until dt s = Ok s' ->
  a_number (sq_time s') /\ value (sq_time s') = value (goal until s).
Proof.
  intros H1 H2 H3 H4 H5 H6 H7. destruct (exact_run components until dt s k z0 z1 z2 H1 H2 H3 H4 H5 H6 H7) as [ds [_ [_ [_ R]]]]. exact (R s').
Qed.
Corollary drift_time {W} (components : list (component b64 W)) until dt s s' M :
  let T := goal until s in let d := longest dt s in let t := sq_time s in
  a_number T -> a_number d -> a_number t -> 0 < value d -> value t < value T ->
  Rabs (value t) <= M -> Rabs (value T) <= M -> M <= powerRZ 2 960 -> value T - value t <= 2 ^ 49 * value d ->
  sequence_run components until dt s = Ok s' ->
  a_number (sq_time s') /\ Rabs (value (sq_time s') - value T) <= 6 * ((value T - value t) / value d + 3) * M / 2 ^ 53.
Proof.
  intros T d t H1 H2 H3 H4 H5 H6 H7 H8 H9 E.
  destruct (drift_words components until dt s M H1 H2 H3 H4 H5 H6 H7 H8 H9) as [ds [_ [D2 [_ [_ D5]]]]]. fold T d t in D2, D5.
  destruct (D5 s' E) as [N B]. split; [exact N|]. apply Rle_trans with (1 := B).
  assert (P53 : 2 ^ 53 = 9007199254740992) by (replace 2 with (IZR 2) by reflexivity; rewrite pow_IZR; reflexivity).
  assert (P49 : 2 ^ 49 = 562949953421312) by (replace 2 with (IZR 2) by reflexivity; rewrite pow_IZR; reflexivity).
  assert (M0 : 0 <= M) by (apply Rle_trans with (2 := H6); apply Rabs_pos). rewrite P53 in *. rewrite P49 in H9.
  assert (C : INR (length ds) + 1 <= (value T - value t) / value d + 3).
  { apply Rmult_le_reg_r with (value d); [exact H4|]. unfold Rdiv. rewrite !Rmult_plus_distr_r, Rmult_assoc, Rinv_l by lra. lra. }
  apply Rmult_le_compat_r; [lra|]. apply Rmult_le_compat_r; [exact M0|]. lra.
Qed.
