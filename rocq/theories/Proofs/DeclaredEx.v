(** Fields that are read or written without being declared. *)
From Coq Require Import String List ZArith QArith Bool.
From Verif.Base Require Import Num Py Arr.
From Verif.Model Require Import Layers Grid Interp Shoreline SeaLevel Subsidence Csv Flexure Submarine Fluvial Setattr Info.
From Verif.Spec Require Import Declared.
From Verif.Proofs Require Import FluvialEx DeclaredP.
Import ListNotations.
Local Open Scope string_scope.
Local Open Scope list_scope.

(* an exponential that is not constant *)
Definition slow_trans : Trans Q :=
  {| nexp := fun x => (/ (1 - x))%Q; nsin := fun x => x; ncos := fun x => x; nsqrt := fun x => x; npi := 3%Q |}.
Definition ex_step (dt : Q) (p : process Q) (g : grid Q) : result (process Q * grid Q) :=
  @process_step Q _ slow_trans ex_linear (fun _ kd z => fmap2 Qplus z kd) (fun _ z => z) (fun _ => 9%Q) dt (p, g).
(* the coast of FluvialEx with every field, and with another value of one *)
Definition ex_fields : grid Q :=
  put_node (put_node (put_node (put_node ex_coast "kd" (full 3 6 0%Q)) "sediment__total_of_loading" (full 3 6 1%Q))
    "lithosphere__increment_of_overlying_pressure" (full 3 6 0%Q)) "lithosphere_surface__increment_of_elevation" (full 3 6 0%Q).
Definition ex_other (n : string) : grid Q := put_node ex_fields n ([1; 1; 1; 1; 1; 1] :: [1; 0; 0; 0; 4; 0] :: [[2; 2; 2; 2; 2; 2]])%Q.
Definition ex_made (cls : pclass) : process Q :=
  match @construct Q _ slow_trans ex_linear cls [] ex_fields with Ok (p, _) => p | Err _ => PShoreline 0%Q end.
(* a shoreface of 300 *)
Definition ex_finder : process Q := PShoreline (1 # 100)%Q.
Definition values (r : result (process Q * grid Q)) (n : string) : option (field Q) :=
  match r with Ok (_, g) => match node g n with Some f => Some (map (map Qred) f) | None => None end | Err _ => None end.
Definition values_at_row (r : result (process Q * grid Q)) (n : string) : option (list (option Q)) :=
  match r with Ok (_, g) => rowf g n | Err _ => None end.

Lemma ex_other_agree n F : ~ In (n, AtNode) F -> agree_on F ex_fields (ex_other n).
Proof.
  intros H. split; [repeat split|]. intros [k p] Hk. destruct p; unfold same_field, ex_other; cbn [fst snd]; try reflexivity.
  rewrite node_dset. destruct (String.eqb k n) eqn:N; [|reflexivity]. apply String.eqb_eq in N. subst k. contradiction.
Qed.
Lemma alike_values F r r' n : alike_on F r r' -> In (n, AtNode) F -> values r n = values r' n.
Proof.
  unfold alike_on, values. destruct r as [[p g]|], r' as [[p' g']|]; try contradiction; [|reflexivity]. intros [_ [_ H]] Hn.
  specialize (H _ Hn). unfold same_field in H. cbn [fst snd] in H. rewrite H. reflexivity.
Qed.
Lemma alike_rows F r r' n : alike_on F r r' -> In (n, AtRow) F -> values_at_row r n = values_at_row r' n.
Proof.
  unfold alike_on, values_at_row. destruct r as [[p g]|], r' as [[p' g']|]; try contradiction; [|reflexivity]. intros [_ [_ H]] Hn. exact (H _ Hn).
Qed.
Lemma changes_values F p g r n : (match r with Ok (p', g') => changes_only F g g' | Err _ => True end) -> ~ In (n, AtNode) F ->
  values r n <> None -> values r n = values (Ok (p, g)) n.
Proof.
  unfold values. destruct r as [[p' g']|]; [|congruence]. intros (_ & _ & H) Hn _. specialize (H _ Hn). unfold same_field in H. cbn [fst snd] in H. rewrite H. reflexivity.
Qed.

Ltac absent := let Y := fresh in intros Y; cbn in Y; repeat (destruct Y as [Y|Y]; [discriminate Y|]); exact Y.
Definition reads_declared (cls : pclass) : Prop := forall interp1d diffuse flexure gravity dt (p : process Q) g g', class_of p = cls ->
  agree_on (declared cls) g g' ->
  alike_on (declared cls) (@process_step Q _ slow_trans interp1d diffuse flexure gravity dt (p, g)) (@process_step Q _ slow_trans interp1d diffuse flexure gravity dt (p, g')).
Definition writes_declared (cls : pclass) : Prop := forall interp1d diffuse flexure gravity dt (p : process Q) g p' g', class_of p = cls ->
  @process_step Q _ slow_trans interp1d diffuse flexure gravity dt (p, g) = Ok (p', g') -> changes_only (declared_output cls) g g'.

Lemma diffuser_reads : ~ reads_declared SubmarineDiffuser.
Proof.
  intros H. specialize (H ex_linear (fun _ kd z => fmap2 Qplus z kd) (fun _ z => z) (fun _ => 9%Q) 1%Q (ex_made SubmarineDiffuser) ex_fields (ex_other "kd") eq_refl).
  pose proof (alike_values (declared SubmarineDiffuser) _ _ "sediment_deposit__thickness" (H (ex_other_agree "kd" (declared SubmarineDiffuser) ltac:(absent))) ltac:(cbn; tauto)) as Y. vm_compute in Y. discriminate Y.
Qed.
Lemma fluvial_reads : ~ reads_declared Fluvial.
Proof.
  intros H. specialize (H ex_linear (fun _ kd z => fmap2 Qplus z kd) (fun _ z => z) (fun _ => 9%Q) 1%Q (ex_made Fluvial) ex_fields (ex_other "bedrock_surface__increment_of_elevation") eq_refl).
  pose proof (alike_values (declared Fluvial) _ _ "delta_sediment_sand__volume_fraction" (H (ex_other_agree "bedrock_surface__increment_of_elevation" (declared Fluvial) ltac:(absent))) ltac:(cbn; tauto)) as Y. vm_compute in Y. discriminate Y.
Qed.
Lemma finder_reads : ~ reads_declared ShorelineFinder.
Proof.
  intros H. specialize (H ex_linear (fun _ kd z => fmap2 Qplus z kd) (fun _ z => z) (fun _ => 9%Q) 1%Q ex_finder ex_fields (ex_other "sediment_deposit__thickness") eq_refl).
  pose proof (alike_rows (declared ShorelineFinder) _ _ "x_of_shelf_edge" (H (ex_other_agree "sediment_deposit__thickness" (declared ShorelineFinder) ltac:(absent))) ltac:(cbn; tauto)) as Y. vm_compute in Y. discriminate Y.
Qed.
Lemma diffuser_writes : ~ writes_declared SubmarineDiffuser.
Proof.
  intros H. specialize (H ex_linear (fun _ kd z => fmap2 Qplus z kd) (fun _ z => z) (fun _ => 9%Q) 1%Q (ex_made SubmarineDiffuser) ex_fields).
  pose proof (changes_values (declared_output SubmarineDiffuser) (ex_made SubmarineDiffuser) ex_fields (ex_step 1 (ex_made SubmarineDiffuser) ex_fields) "kd") as Y.
  assert (Z : values (ex_step 1 (ex_made SubmarineDiffuser) ex_fields) "kd" = values (Ok (ex_made SubmarineDiffuser, ex_fields)) "kd").
  { apply Y; [|absent|vm_compute; discriminate]. unfold ex_step. destruct (process_step _ _ _ _ _ _) as [[p' g']|] eqn:E; [|exact I]. exact (H p' g' eq_refl eq_refl). }
  vm_compute in Z. discriminate Z.
Qed.
Lemma flexure_writes : ~ writes_declared SedimentFlexure.
Proof.
  intros H. set (p := ex_made SedimentFlexure). set (g := put_node ex_fields "sediment__total_of_loading" (full 3 6 2%Q)).
  specialize (H ex_linear (fun _ kd z => fmap2 Qplus z kd) (fun _ z => z) (fun _ => 9%Q) 1%Q p g).
  pose proof (changes_values (declared_output SedimentFlexure) p g (ex_step 1 p g) "lithosphere__increment_of_overlying_pressure") as Y.
  assert (Z : values (ex_step 1 p g) "lithosphere__increment_of_overlying_pressure" = values (Ok (p, g)) "lithosphere__increment_of_overlying_pressure").
  { apply Y; [|absent|vm_compute; discriminate]. unfold ex_step. destruct (process_step _ _ _ _ _ _) as [[p' g']|] eqn:E; [|exact I]. exact (H p' g' eq_refl eq_refl). }
  vm_compute in Z. discriminate Z.
Qed.
Lemma flexure_reads : ~ reads_declared SedimentFlexure.
Proof.
  intros H. set (g' := put_node ex_coast "sediment__total_of_loading" (full 3 6 1%Q)).
  specialize (H ex_linear (fun _ kd z => fmap2 Qplus z kd) (fun _ z => z) (fun _ => 9%Q) 1%Q (ex_made SedimentFlexure) ex_fields g' eq_refl).
  assert (S : agree_on (declared SedimentFlexure) ex_fields g').
  { split; [repeat split|]. intros f [<-|[<-|[]]]; reflexivity. }
  pose proof (alike_values (declared SedimentFlexure) _ _ "sediment__total_of_loading" (H S) ltac:(cbn; tauto)) as Y. vm_compute in Y. discriminate Y.
Qed.
(* exactly these classes *)
Theorem undeclared_reads cls : reads_declared cls <-> undeclared cls = [].
Proof.
  split.
  - intros H. destruct cls; try reflexivity; exfalso; [exact (diffuser_reads H)|exact (fluvial_reads H)|exact (flexure_reads H)|exact (finder_reads H)].
  - intros N i1 d f gr dt p g g' Hp Ha. pose proof (@step_reads Q _ slow_trans i1 d f gr dt p g g') as S. rewrite Hp, N, app_nil_r in S. exact (S Ha).
Qed.
Theorem undeclared_writes cls : writes_declared cls <-> undeclared_output cls = [].
Proof.
  split.
  - intros H. destruct cls; try reflexivity; exfalso; [exact (diffuser_writes H)|exact (flexure_writes H)].
  - intros N i1 d f gr dt p g p' g' Hp E. destruct (@step_writes Q _ slow_trans i1 d f gr dt p g p' g' E) as [_ S]. rewrite Hp, N, app_nil_r in S. exact S.
Qed.
