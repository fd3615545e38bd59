(** Layers of sediment in doubles. *)
From Coq Require Import String List ZArith QArith Reals Lra Lia Bool Floats.SpecFloat.
From Flocq Require Import Core.
From Verif.Base Require Import Num Py Arr.
From Verif.Model Require Import Layers Grid Archive Sequence SequenceModel.
From Verif.Spec Require Import Strata Column Laid Doubles DoubleLayers.
From Verif.Proofs Require Import LaidP DoubleP.
Import ListNotations.
Local Open Scope R_scope.

Lemma n0_b64 : (n0 : b64) = S754_zero false.
Proof. vm_compute. reflexivity. Qed.
Notation below x := (SFltb x (S754_zero false)).

(** ** never below zero, whatever the doubles *)
Lemma opp_below x : below (SFopp x) = SFltb (S754_zero false) x.
Proof. destruct x as [s|s| |s m e]; try destruct s; reflexivity. Qed.
Lemma round_aux_below m e l : below (SpecFloat.binary_round_aux prec64 emax64 false m e l) = false.
Proof.
  unfold SpecFloat.binary_round_aux. destruct (shr_fexp _ _ _ _ _) as [r1 e1]. destruct (shr_fexp _ _ _ _ _) as [r2 e2].
  destruct (shr_m r2) as [|p|p]; try reflexivity. destruct (_ <=? _)%Z; reflexivity.
Qed.
Lemma add_below x y : below x = false -> below y = false -> below (SFadd prec64 emax64 x y) = false.
Proof.
  destruct x as [sx|sx| |sx mx ex]; destruct y as [sy|sy| |sy my ey]; try destruct sx; try destruct sy; try easy.
  intros _ _. unfold SFadd. cbn [cond_Zopp]. set (e := Z.min ex ey).
  destruct (fst (shl_align mx ex e)) as [p|p|] eqn:E1; destruct (fst (shl_align my ey e)) as [q|q|] eqn:E2;
    cbn [Z.add Pos.add SpecFloat.binary_normalize]; unfold SpecFloat.binary_round;
    match goal with |- context [shl_align ?a ?b ?c] => destruct (shl_align a b c) end; apply round_aux_below.
Qed.
Lemma sum_below (l : list b64) : Forall (fun x : b64 => below x = false) l -> below (nsum l) = false.
Proof.
  unfold nsum. rewrite n0_b64.
  assert (G : forall acc : b64, below acc = false -> Forall (fun x : b64 => below x = false) l -> below (fold_left nadd l acc) = false).
  { induction l as [|x l IH]; intros acc A F; [exact A|].
    inversion F; subst. cbn [fold_left]. apply IH; [|assumption]. apply add_below; assumption. }
  apply G. reflexivity.
Qed.
#[local] Notation okst st := (Forall (fun c : lcell b64 => below (c_dz c) = false) st).
Lemma erode_below l : okst l -> forall a : b64, okst (erode a l).
Proof.
  induction 1 as [|c l Hc Hl IH]; intros a; [constructor|]. cbn [erode]. rewrite n0_b64.
  change nltb with SFltb. destruct (SFltb (S754_zero false) (nsub a (c_dz c))) eqn:E.
  - constructor; [reflexivity|apply IH].
  - constructor; [|exact Hl]. cbn [c_dz]. change nopp with SFopp. rewrite opp_below. exact E.
Qed.
Lemma add_stack_below dz p (st : stack b64) : okst st -> okst (add_stack dz p st).
Proof.
  intros F. unfold add_stack. rewrite n0_b64. change nltb with SFltb. destruct (below dz) eqn:E.
  - apply Forall_rev, erode_below. constructor; [reflexivity|apply Forall_rev; exact F].
  - apply Forall_app. split; [exact F|]. constructor; [exact E|constructor].
Qed.
Lemma Forall_firstn {B} (P : B -> Prop) n l : Forall P l -> Forall P (firstn n l).
Proof. intros F. revert n. induction F; intros [|n]; cbn; constructor; auto. Qed.
Lemma Forall_skipn {B} (P : B -> Prop) n l : Forall P l -> Forall P (skipn n l).
Proof. intros F. revert n. induction F as [|x l Hx F IH]; intros [|n]; cbn; try constructor; auto. Qed.
Lemma reduce_stack_below start stop red (st : stack b64) : okst st -> okst (reduce_stack start stop red st).
Proof.
  intros F. unfold reduce_stack. apply Forall_app. split; [apply Forall_firstn; exact F|]. constructor; [|apply Forall_skipn; exact F].
  cbn [merge_cells c_dz]. apply sum_below. rewrite Forall_map. apply Forall_firstn, Forall_skipn. exact F.
Qed.
Theorem run_below ops : forall st : stack b64, okst st -> okst (stack_run ops st).
Proof.
  unfold stack_run. induction ops as [|[dz p|a b r] ops IH]; intros st F; [exact F| |]; cbn [fold_left stack_exec]; apply IH.
  - apply add_stack_below. exact F.
  - apply reduce_stack_below. exact F.
Qed.

Lemma mapi_from_in {B C} (f : nat -> B -> C) l : forall k y, In y (mapi_from k f l) -> exists i x, In x l /\ y = f i x.
Proof.
  induction l as [|x l IH]; intros k y H; [destruct H|]. destruct H as [<-|H]; [exists k, x; split; [left|]; reflexivity|].
  destruct (IH _ _ H) as [i [x' [H1 H2]]]. exists i, x'. split; [right|]; assumption.
Qed.
Lemma below_iff (el : event_layers b64) : none_below_zero el <-> forall row st, In row (el_stacks el) -> In st row -> okst st.
Proof.
  unfold none_below_zero. rewrite n0_b64. change nltb with SFltb. split.
  - intros F row st H1 H2. apply Forall_forall. intros c H3. exact (F row st c H1 H2 H3).
  - intros F row st c H1 H2 H3. specialize (F row st H1 H2). rewrite Forall_forall in F. exact (F c H3).
Qed.
Lemma el_add_below dz props (el el' : event_layers b64) : none_below_zero el -> el_add dz props el = Ok el' -> none_below_zero el'.
Proof.
  rewrite !below_iff. intros F E. unfold el_add in E. cbv zeta in E.
  destruct (forallb _ _) in E; [|discriminate E]. injection E as <-. cbn [el_stacks].
  intros row st H1 H2. unfold fmapi, mapi in H1. apply mapi_from_in in H1. destruct H1 as [i [row0 [R1 ->]]].
  apply mapi_from_in in H2. destruct H2 as [j [st0 [S1 ->]]]. apply add_stack_below. exact (F row0 st0 R1 S1).
Qed.
Lemma archive_below a (el : event_layers b64) : none_below_zero el -> none_below_zero (snd (archive (a, el))).
Proof.
  intros F. unfold archive. destruct (_ =? 0)%Z; [|exact F]. cbn [snd]. rewrite !below_iff in *.
  intros row st H1 H2. unfold el_reduce, fmap in H1. cbn [el_stacks] in H1. apply in_map_iff in H1. destruct H1 as [row0 [<- R1]].
  apply in_map_iff in H2. destruct H2 as [st0 [<- S1]]. apply reduce_stack_below. exact (F row0 st0 R1 S1).
Qed.
Theorem layers_below hist : forall a (el : event_layers b64) a' el', none_below_zero el ->
  layer_run hist (a, el) = Ok (a', el') -> none_below_zero el'.
Proof.
  unfold layer_run. induction hist as [|h hist IH]; intros a el a' el' F E.
  - injection E as _ <-. exact F.
  - cbn [foldM] in E. unfold add_and_archive in E at 1. cbn [fst snd] in E.
    destruct (el_add (fst h) (snd h) el) as [el1|] eqn:E1; [|discriminate E]. cbn [bind] in E.
    destruct (archive (a, el1)) as [a2 el2] eqn:E2. apply IH in E; [exact E|].
    change el2 with (snd (a2, el2)). rewrite <- E2. apply archive_below. exact (el_add_below _ _ _ _ F E1).
Qed.
Lemma empty_below n m : none_below_zero (el_empty n m).
Proof.
  intros row st c H1 H2 H3. exfalso. unfold el_empty, full in H1. cbn [el_stacks] in H1. apply repeat_spec in H1. subst row.
  apply repeat_spec in H2. subst st. destruct H3.
Qed.
Theorem model_below {W} (pr : processes b64 W) w (g : grid b64) c calls m m' :
  whole_grid g -> layers g = el_empty (g_rows g) (g_cols g - 2) ->
  Forall keeps_whole (pr_components pr) -> Forall keeps_layers (pr_components pr) ->
  model_init pr w g c = Ok m -> model_calls pr calls m = Some m' -> none_below_zero (layers (sm_grid m')).
Proof.
  intros Hw Hl0 Hk Hl Ei Ec. destruct (model_init_laid _ _ _ _ _ Hw Hl0 Ei) as [Hw1 [R1 [C1 [h0 [E0 D0]]]]].
  destruct (model_calls_history _ _ _ _ Ec) as [gs Hh].
  destruct (model_history_laid _ _ _ _ Hk Hl Hh Hw1) as [Hw' [R2 [C2 [hist [E1 [Lh F]]]]]].
  apply (layers_below _ _ _ _ _ (empty_below (g_rows g) (g_cols g - 2))) in E0. exact (layers_below _ _ _ _ _ E0 E1).
Qed.
Theorem sequence_below {W} (components : list (component b64 W)) calls w g step s s' :
  fresh_grid g -> Forall keeps_whole components -> Forall keeps_layers components ->
  sequence_init w g step = Ok s -> seq_calls components calls s = Ok s' -> none_below_zero (layers (sq_grid s')).
Proof.
  intros Hf Hk Hl Ei Ec. destruct (init_laid _ _ _ _ Hf Ei) as [Hw [R1 [C1 [_ [h0 [E0 [L0 _]]]]]]].
  destruct (calls_history _ _ _ _ Ec) as [gs Hh].
  destruct (history_laid _ _ _ _ Hk Hl Hh Hw) as [Hw' [R2 [C2 [hist [E1 [Lh F]]]]]].
  apply (layers_below _ _ _ _ _ (empty_below (g_rows g) (g_cols g - 2))) in E0. exact (layers_below _ _ _ _ _ E0 E1).
Qed.
