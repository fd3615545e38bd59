From Coq Require Import String List ZArith QArith Reals Lra Lia Arith.
From Verif.Base Require Import Num Py Arr.
From Verif.Model Require Import Layers Grid Interp Subsidence Bathymetry Clients.
From Verif.Spec Require Import Profile History.
From Verif.Proofs Require Import GridP InterpP ShorelineP.
Import ListNotations.
Local Open Scope R_scope.

Lemma interp_on_curve x y u v : good_table x y -> interp_linear x y u = Ok v -> on_curve x y u v.
Proof.
  intros [H2 [Hx Hy]] E.
  destruct (interp_linear_ok_iff x y u H2 Hx Hy) as [_ Hbad].
  assert (Hin : nth 0 x 0 <= u <= nth (length x - 1) x 0).
  { destruct (Rle_dec (nth 0 x 0) u), (Rle_dec u (nth (length x - 1) x 0));
      try (split; assumption); rewrite Hbad in E by lra; discriminate. }
  destruct (find_interval x u H2 Hx Hin) as [i [Hi Hv]].
  exists i. split; [assumption|]. split; [assumption|].
  rewrite (interp_linear_spec x y u i) in E by assumption. inversion E; reflexivity.
Qed.

Lemma on_curve_interp x y u v : good_table x y -> on_curve x y u v -> interp_linear x y u = Ok v.
Proof.
  intros [H2 [Hx Hy]] [i [Hi [Hu ->]]]. apply interp_linear_spec; assumption.
Qed.

Section Rate.
  Variable g : grid R.
  Hypothesis Hdx : 0 < g_dx g.
  Hypothesis Hcols : (0 < g_cols g)%nat.

  Lemma col_range j : (j < g_cols g)%nat ->
    0 <= nth j (x_of_column g) 0 <= INR (g_cols g - 1) * g_dx g.
  Proof.
    intros Hj. rewrite x_of_column_nth by assumption.
    assert (0 <= INR j) by apply pos_INR. assert (INR j <= INR (g_cols g - 1)) by (apply le_INR; lia).
    split; [apply Rmult_le_pos; lra|apply Rmult_le_compat_r; lra].
  Qed.

  Lemma calc_rate_ok x y : good_table x y ->
    nth 0 x 0 <= 0 /\ INR (g_cols g - 1) * g_dx g <= nth (length x - 1) x 0 ->
    exists rate, calc_subsidence_rate x y g = Ok rate.
  Proof.
    intros [H2 [Hx Hy]] [Hlo Hhi]. apply mapM_ok. intros u Hu.
    apply In_nth with (d := 0) in Hu. destruct Hu as [j [Hj <-]].
    rewrite x_of_column_length in Hj.
    apply (interp_linear_ok_iff x y _ H2 Hx Hy). pose proof (col_range j Hj). lra.
  Qed.

  Lemma calc_rate_err x y : good_table x y ->
    ~ (nth 0 x 0 <= 0 /\ INR (g_cols g - 1) * g_dx g <= nth (length x - 1) x 0) ->
    exists e, calc_subsidence_rate x y g = Err e.
  Proof.
    intros [H2 [Hx Hy]] Hn. destruct (calc_subsidence_rate x y g) as [rate|e] eqn:E; [|eauto].
    exfalso. unfold calc_subsidence_rate in E.
    pose proof (mapM_nth _ _ _ 0 0 E) as Hm. rewrite x_of_column_length in Hm.
    assert (Hin : forall j, (j < g_cols g)%nat ->
        nth 0 x 0 <= nth j (x_of_column g) 0 <= nth (length x - 1) x 0).
    { intros j Hj. specialize (Hm j Hj).
      destruct (interp_linear_ok_iff x y (nth j (x_of_column g) 0) H2 Hx Hy) as [_ Hbad].
      destruct (Rle_dec (nth 0 x 0) (nth j (x_of_column g) 0)),
               (Rle_dec (nth j (x_of_column g) 0) (nth (length x - 1) x 0));
        try (split; assumption); rewrite Hbad in Hm by lra; discriminate. }
    apply Hn. split.
    - specialize (Hin 0%nat Hcols). rewrite x_of_column_nth in Hin by assumption. simpl in Hin. lra.
    - specialize (Hin (g_cols g - 1)%nat ltac:(lia)). rewrite x_of_column_nth in Hin by lia. lra.
  Qed.

  Lemma calc_rate_on_curve x y rate : good_table x y -> calc_subsidence_rate x y g = Ok rate ->
    length rate = g_cols g /\
    forall j, (j < g_cols g)%nat -> on_curve x y (nth j (x_of_column g) 0) (nth j rate 0).
  Proof.
    intros Hg E. unfold calc_subsidence_rate in E. split.
    - rewrite (mapM_length _ _ _ E). apply x_of_column_length.
    - intros j Hj. apply interp_on_curve; [assumption|].
      apply (mapM_nth _ _ _ 0 0 E). rewrite x_of_column_length; assumption.
  Qed.
End Rate.

Lemma subsidence_step_spec dt c (g : grid R) f :
  node g INCREMENT = Some f -> shaped (g_rows g + 2) (g_cols g) f ->
  length (sub_rate c) = g_cols g ->
  exists f', subsidence_step dt c g = Ok (mkSubsidence (sub_rate c) (sub_time c + dt), put_node g INCREMENT f')
    /\ shaped (g_rows g + 2) (g_cols g) f'
    /\ (forall i j, (i < g_rows g + 2)%nat -> (j < g_cols g)%nat ->
          at2 0 f' i j = if (Nat.leb 1 i && Nat.leb i (g_rows g))%bool
                         then at2 0 f i j + nth j (sub_rate c) 0 * dt else at2 0 f i j).
Proof.
  intros Hf Hs Hr. unfold subsidence_step.
  rewrite (get_profile_ok g _ f Hf). cbn [bind]. rewrite (set_profile_ok g _ f _ Hf). cbn [bind].
  eexists. split; [reflexivity|].
  pose proof (shaped_inner _ _ _ Hs) as Hi.
  set (ch := map (fun r => nmul r dt) (sub_rate c)).
  assert (Hcl : length ch = g_cols g) by (unfold ch; rewrite map_length; assumption).
  assert (Hv : shaped (g_rows g) (g_cols g) (map (fun row => zipw nadd row ch) (inner f))).
  { split.
    - rewrite map_length. apply (shaped_len _ _ _ Hi).
    - intros r Hr'. apply in_map_iff in Hr'. destruct Hr' as [r0 [<- Hr0]].
      rewrite zipw_length, (proj2 Hi _ Hr0). lia. }
  split; [apply shaped_set_inner; assumption|].
  intros i j Hi' Hj. rewrite (at2_set_inner (g_rows g) (g_cols g)) by assumption.
  destruct (Nat.leb_spec 1 i), (Nat.leb_spec i (g_rows g)); cbn [andb]; try reflexivity.
  unfold at2. rewrite nth_map' with (da := []) by (rewrite (shaped_len _ _ _ Hi); lia).
  rewrite nth_zipw with (da := 0) (db := 0).
  - numR. unfold ch. rewrite nth_map' with (da := 0) by lia. numR.
    rewrite nth_inner by (rewrite (shaped_len _ _ _ Hs); lia).
    replace (S (i - 1)) with i by lia. reflexivity.
  - rewrite (shaped_nth _ _ _ _ Hi) by lia. assumption.
  - lia.
Qed.

(* every history of steps and file changes *)
Theorem sub_run_spec ops : forall (g : grid R) f x y c,
  0 < g_dx g -> (0 < g_cols g)%nat ->
  node g INCREMENT = Some f -> shaped (g_rows g + 2) (g_cols g) f ->
  good_table x y -> calc_subsidence_rate x y g = Ok (sub_rate c) ->
  (forall x' y', In (SubSetFile x' y') ops -> good_table x' y') ->
  exists f', snd (sub_run ops c g) = put_node g INCREMENT f'
    /\ shaped (g_rows g + 2) (g_cols g) f'
    /\ (forall j, (j < g_cols g)%nat -> exists total,
          uplift 0 (INR (g_cols g - 1) * g_dx g) x y ops (INR j * g_dx g) total
          /\ (forall i, (1 <= i <= g_rows g)%nat -> at2 0 f' i j = at2 0 f i j + total)
          /\ (forall i, (i = 0 \/ i = g_rows g + 1)%nat -> at2 0 f' i j = at2 0 f i j)).
Proof.
  induction ops as [|op ops IH]; intros g f x y c Hd Hc Hf Hs Ht Hr Hops.
  - exists f. cbn. split; [symmetry; apply put_node_id; assumption|]. split; [assumption|].
    intros j Hj. exists 0. split; [constructor|]. split; intros; [lra|reflexivity].
  - unfold sub_run. cbn [fold_left fst snd].
    change (fold_left (fun cg op => sub_exec op (fst cg) (snd cg)) ops ?p) with
           (sub_run ops (fst p) (snd p)) || idtac.
    destruct op as [dt|x' y'].
    + destruct (calc_rate_on_curve g x y _ Ht Hr) as [Hrl Hrc].
      destruct (subsidence_step_spec dt c g f Hf Hs Hrl) as [f1 [E1 [Hs1 Hv1]]].
      cbn [sub_exec]. rewrite E1.
      set (g1 := put_node g INCREMENT f1).
      set (c1 := mkSubsidence (sub_rate c) (sub_time c + dt)).
      destruct (IH g1 f1 x y c1) as [f' [F1 [F2 F3]]]; try assumption.
      * apply node_put_same.
      * intros; apply Hops; right; assumption.
      * unfold sub_run in F1. rewrite F1. exists f'.
        split; [apply put_node_put_node|]. split; [exact F2|].
        intros j Hj. destruct (F3 j Hj) as [total [U [V1 V2]]].
        exists (nth j (sub_rate c) 0 * dt + total). split; [|split].
        -- apply up_step; [|exact U]. rewrite <- (x_of_column_nth g j Hj). apply Hrc; assumption.
        -- intros i Hi. rewrite V1 by exact Hi. rewrite Hv1 by (cbn in *; lia).
           destruct (Nat.leb_spec 1 i), (Nat.leb_spec i (g_rows g)); cbn [andb]; try lia. lra.
        -- intros i Hi. rewrite V2 by exact Hi. rewrite Hv1 by (cbn in *; lia).
           destruct (Nat.leb_spec 1 i), (Nat.leb_spec i (g_rows g)); cbn [andb]; try lia; reflexivity.
    + assert (Hg' : good_table x' y') by (apply Hops; left; reflexivity).
      cbn [sub_exec]. unfold subsidence_set_file.
      assert (Hdec : (nth 0 x' 0 <= 0 /\ INR (g_cols g - 1) * g_dx g <= nth (length x' - 1) x' 0)
                  \/ ~ (nth 0 x' 0 <= 0 /\ INR (g_cols g - 1) * g_dx g <= nth (length x' - 1) x' 0)).
      { destruct (Rle_dec (nth 0 x' 0) 0), (Rle_dec (INR (g_cols g - 1) * g_dx g) (nth (length x' - 1) x' 0));
          [left; split; assumption| | | ]; right; intros []; contradiction. }
      destruct Hdec as [Hcov|Hcov].
      * destruct (calc_rate_ok g Hd Hc x' y' Hg' Hcov) as [rate Erate]. rewrite Erate. cbn [fst].
        destruct (IH g f x' y' (mkSubsidence rate (sub_time c))) as [f' [F1 [F2 F3]]]; try assumption.
        { intros; apply Hops; right; assumption. }
        unfold sub_run in F1. rewrite F1. exists f'. split; [reflexivity|]. split; [assumption|].
        intros j Hj. destruct (F3 j Hj) as [total [U V]]. exists total. split; [|exact V].
        apply up_file; tauto.
      * destruct (calc_rate_err g Hc x' y' Hg' Hcov) as [e Ee]. rewrite Ee. cbn [fst].
        destruct (IH g f x y c) as [f' [F1 [F2 F3]]]; try assumption.
        { intros; apply Hops; right; assumption. }
        unfold sub_run in F1. rewrite F1. exists f'. split; [reflexivity|]. split; [assumption|].
        intros j Hj. destruct (F3 j Hj) as [total [U V]]. exists total. split; [|exact V].
        apply up_file_rejected; assumption.
Qed.

(* splitting a step in two makes no difference *)
Theorem subsidence_split dt1 dt2 c (g : grid R) f :
  node g INCREMENT = Some f -> shaped (g_rows g + 2) (g_cols g) f ->
  length (sub_rate c) = g_cols g ->
  (let* cg := subsidence_step dt1 c g in subsidence_step dt2 (fst cg) (snd cg))
  = subsidence_step (dt1 + dt2) c g.
Proof.
  intros Hf Hs Hr.
  destruct (subsidence_step_spec dt1 c g f Hf Hs Hr) as [f1 [E1 [S1 V1]]].
  rewrite E1. cbn [bind fst snd].
  destruct (subsidence_step_spec dt2 (mkSubsidence (sub_rate c) (sub_time c + dt1))
              (put_node g INCREMENT f1) f1) as [f2 [E2 [S2 V2]]]; auto.
  { apply node_put_same. }
  rewrite E2.
  destruct (subsidence_step_spec (dt1 + dt2) c g f Hf Hs Hr) as [f3 [E3 [S3 V3]]].
  rewrite E3. cbn [sub_rate sub_time]. rewrite put_node_put_node.
  assert (Eff : f2 = f3).
  { apply (field_ext (g_rows g + 2) (g_cols g)) with (d := 0); try assumption.
    intros i j Hi Hj. rewrite V3, V2, V1 by (cbn in *; lia). cbn [g_rows put_node set_at_node sub_rate].
    destruct (Nat.leb 1 i && Nat.leb i (g_rows g))%bool; lra. }
  rewrite Eff. do 3 f_equal. lra.
Qed.

(** ** Bathymetry *)

Theorem bathymetry_step_spec x y (g : grid R) z :
  good_table x y -> 0 < g_dx g -> (0 < g_cols g)%nat ->
  node g "topographic__elevation" = Some z -> shaped (g_rows g + 2) (g_cols g) z ->
  (nth 0 x 0 <= 0 /\ INR (g_cols g - 1) * g_dx g <= nth (length x - 1) x 0 ->
     exists z', bathymetry_step x y g = Ok (put_node g "topographic__elevation" z')
       /\ shaped (g_rows g + 2) (g_cols g) z'
       /\ (forall i j, (i < g_rows g + 2)%nat -> (j < g_cols g)%nat ->
             on_curve x y (INR j * g_dx g) (at2 0 z' i j)))
  /\ (~ (nth 0 x 0 <= 0 /\ INR (g_cols g - 1) * g_dx g <= nth (length x - 1) x 0) ->
     exists e, bathymetry_step x y g = Err e).
Proof.
  intros Ht Hd Hc Hz Hs. unfold bathymetry_step, node_r. rewrite Hz. cbn [bind].
  fold (calc_subsidence_rate x y g). split.
  - intros Hcov. destruct (calc_rate_ok g Hd Hc x y Ht Hcov) as [p Ep]. rewrite Ep. cbn [bind].
    destruct (calc_rate_on_curve g x y p Ht Ep) as [Hpl Hpc].
    eexists. split; [reflexivity|].
    assert (Hn : forall i, (i < g_rows g + 2)%nat -> nth i (map (fun _ : list R => p) z) [] = p).
    { intros i Hi. rewrite nth_map' with (da := []) by (rewrite (shaped_len _ _ _ Hs); assumption). reflexivity. }
    split.
    + split; [rewrite map_length; apply (shaped_len _ _ _ Hs)|].
      intros r Hr. apply in_map_iff in Hr. destruct Hr as [_ [<- _]]. assumption.
    + intros i j Hi Hj. unfold at2. rewrite Hn by assumption.
      rewrite <- (x_of_column_nth g j Hj). apply Hpc; assumption.
  - intros Hcov. destruct (calc_rate_err g Hc x y Ht Hcov) as [e Ee]. rewrite Ee. cbn [bind]. eauto.
Qed.

Theorem bathymetry_idempotent x y (g g' : grid R) :
  bathymetry_step x y g = Ok g' -> bathymetry_step x y g' = Ok g'.
Proof.
  unfold bathymetry_step, node_r. destruct (node g "topographic__elevation") as [z|] eqn:Hz; [|discriminate].
  cbn [bind]. destruct (mapM (interp_linear x y) (x_of_column g)) as [p|] eqn:E; [|discriminate].
  cbn [bind]. intros Eq; inversion Eq; subst. clear Eq.
  rewrite node_put_same. cbn [bind]. rewrite x_of_column_put_node, E. cbn [bind].
  rewrite put_node_put_node, map_map. reflexivity.
Qed.

(** ** the synthetic initial profile *)

Lemma lit2' : Q2R 2 = 2.
Proof. unfold Q2R; simpl; lra. Qed.

Lemma initial_profile_length x sp s h a ss : length (create_initial_profile x sp s h a ss) = length x.
Proof. unfold create_initial_profile. apply map_length. Qed.

Definition ramp (s sp h a ss u : R) : R :=
  if Rltb u s then (s - u) * sp else (s - u) * ss - h * (1 - exp ((s - u) * a)).

Lemma initial_profile_nth x sp s h a ss i : (i < length x)%nat ->
  nth i (create_initial_profile x sp s h a ss) 0 = ramp (shore_in_profile x s) sp h a ss (nth i x 0).
Proof.
  intros Hi. unfold create_initial_profile. rewrite nth_map' with (da := 0) by assumption.
  unfold ramp. numR. transR. rewrite n1_R. reflexivity.
Qed.

Lemma exp_le_1 u : u <= 0 -> exp u <= 1.
Proof.
  intros Hu. rewrite <- exp_0. destruct (Req_dec u 0) as [->|]; [lra|].
  left. apply exp_increasing. lra.
Qed.

Lemma ramp_sign s sp h a ss u : 0 < sp -> 0 < ss -> 0 <= h -> 0 <= a ->
  (u < s -> 0 < ramp s sp h a ss u) /\ (u = s -> ramp s sp h a ss u = 0)
  /\ (s < u -> ramp s sp h a ss u < 0).
Proof.
  intros Hsp Hss Hh Ha. unfold ramp. repeat split; intros Hu; rcase; try lra.
  - apply Rmult_lt_0_compat; lra.
  - subst u. replace ((s - s) * a) with 0 by lra. rewrite exp_0. lra.
  - assert ((s - u) * a <= 0).
    { replace ((s - u) * a) with (- ((u - s) * a)) by lra.
      assert (0 <= (u - s) * a) by (apply Rmult_le_pos; lra). lra. }
    pose proof (exp_le_1 _ H). 
    assert (0 <= h * (1 - exp ((s - u) * a))) by (apply Rmult_le_pos; lra).
    assert (0 < (u - s) * ss) by (apply Rmult_lt_0_compat; lra). lra.
Qed.

Lemma ramp_decreasing s sp h a ss u v : 0 < sp -> 0 < ss -> 0 <= h -> 0 <= a -> u < v ->
  ramp s sp h a ss v < ramp s sp h a ss u.
Proof.
  intros Hsp Hss Hh Ha Huv.
  destruct (ramp_sign s sp h a ss u Hsp Hss Hh Ha) as [Hu1 [Hu2 Hu3]].
  destruct (ramp_sign s sp h a ss v Hsp Hss Hh Ha) as [Hv1 [Hv2 Hv3]].
  destruct (Rlt_le_dec u s) as [Lu|Lu].
  - destruct (Rlt_le_dec v s) as [Lv|Lv].
    + unfold ramp. rewrite (proj2 (Rltb_true u s) Lu), (proj2 (Rltb_true v s) Lv).
      apply Rmult_lt_compat_r; lra.
    + destruct (Req_dec v s); [rewrite (Hv2 H); auto|].
      specialize (Hu1 Lu). assert (ramp s sp h a ss v < 0) by (apply Hv3; lra). lra.
  - unfold ramp. rewrite (proj2 (Rltb_false u s) Lu). rewrite (proj2 (Rltb_false v s)) by lra.
    assert (exp ((s - v) * a) <= exp ((s - u) * a)).
    { destruct (Req_dec a 0) as [->|]; [rewrite !Rmult_0_r; lra|].
      left. apply exp_increasing. apply Rmult_lt_compat_r; lra. }
    assert (h * (1 - exp ((s - u) * a)) <= h * (1 - exp ((s - v) * a)))
      by (apply Rmult_le_compat_l; lra).
    assert ((s - v) * ss < (s - u) * ss) by (apply Rmult_lt_compat_r; lra). lra.
Qed.

Lemma shore_in_profile_spec (x : list R) s : (0 < length x)%nat -> sorted x ->
  (s <= nth (length x - 1) x 0 -> shore_in_profile x s = s)
  /\ (nth (length x - 1) x 0 < s ->
      shore_in_profile x s = (nth 0 x 0 + nth (length x - 1) x 0) / 2
      /\ nth 0 x 0 <= shore_in_profile x s <= nth (length x - 1) x 0).
Proof.
  intros Hl Hs. unfold shore_in_profile, lastn. numR. rewrite !n0_R, lit2'.
  pose proof (Hs 0%nat (length x - 1)%nat ltac:(lia)) as H0.
  split; intros H; rcase; try lra.
Qed.

Theorem initial_profile_spec (x : list R) sp s h a ss :
  (0 < length x)%nat -> increasing x -> 0 < sp -> 0 < ss -> 0 <= h -> 0 <= a ->
  let z := create_initial_profile x sp s h a ss in
  exists shore,
    (s <= nth (length x - 1) x 0 -> shore = s)
    /\ (nth (length x - 1) x 0 < s ->
          shore = (nth 0 x 0 + nth (length x - 1) x 0) / 2
          /\ nth 0 x 0 <= shore <= nth (length x - 1) x 0)
    /\ length z = length x
    /\ (forall i j, (i < j < length x)%nat -> nth j z 0 < nth i z 0)
    /\ (forall i, (i < length x)%nat ->
          (nth i x 0 < shore -> 0 < nth i z 0)
          /\ (nth i x 0 = shore -> nth i z 0 = 0)
          /\ (shore < nth i x 0 -> nth i z 0 < 0)).
Proof.
  intros Hl Hx Hsp Hss Hh Ha z. exists (shore_in_profile x s).
  destruct (shore_in_profile_spec x s Hl (increasing_sorted x Hx)) as [H1 H2].
  split; [exact H1|]. split; [exact H2|]. split; [apply initial_profile_length|]. split.
  - intros i j Hij. unfold z. rewrite !initial_profile_nth by lia.
    apply ramp_decreasing; try assumption. apply Hx; assumption.
  - intros i Hi. unfold z. rewrite !initial_profile_nth by assumption.
    apply ramp_sign; assumption.
Qed.
