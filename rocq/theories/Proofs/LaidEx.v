(** Concrete layers laid by whole models. *)
From Coq Require Import String List ZArith QArith Reals Lia Lra.
From Verif.Base Require Import Num Py Arr.
From Verif.Model Require Import Layers Grid Archive SeaLevel Sequence Flexure Components SequenceModel.
From Verif.Spec Require Import Strata Column Laid.
From Verif.Proofs Require Import GridP LayersP SequenceP SequenceModelP ClockP SequenceEx SequenceModelEx LaidP.
Import ListNotations.

Section Any.
  Context {A : Type} `{Num A}.
  Lemma ex_beach_fresh rows : fresh_grid (A:=A) (ex_beach rows).
  Proof.
    destruct (ex_beach_fields (A:=A) rows) as [H1 [H2 [_ [H3 _]]]].
    split; [exact H1|]. split; [exact H2|]. split; [exact H3|]. split; [|reflexivity].
    intros name f E. unfold node, ex_beach in E. cbn [at_node dget] in E. cbn [g_rows g_cols ex_beach].
    assert (X : forall a b : field A, Some a = Some b -> a = b) by congruence.
    destruct (String.eqb name _).
    - apply X in E. subst f. destruct H2 as [f [E2 S2]]. injection E2 as <-. exact S2.
    - destruct (String.eqb name _); [|discriminate E]. apply X in E. subst f. apply shaped_full.
  Qed.
  Lemma ex_rain_whole {W} : keeps_whole (@ex_rain A W).
  Proof.
    intros dt w g w' g' Hg E. injection E as <- <-. cbn [snd fst].
    split; [apply whole_put; [apply shaped_full|exact Hg]|split; reflexivity].
  Qed.
  Lemma ex_rain_layers {W} : keeps_layers (@ex_rain A W).
  Proof. intros dt w g w' g' E. injection E as <- <-. reflexivity. Qed.
  Lemma ex_lay_layers {W} t : keeps_layers (@ex_lay A W t).
  Proof. intros dt w g w' g' E. injection E as <- <-. reflexivity. Qed.
  Lemma ex_push_layers {W} d : keeps_layers (@ex_push A _ W d).
  Proof.
    intros dt w g w' g' E. unfold ex_push in E. cbn [fst snd] in E. okinv E Ez. injection E as <- <-. reflexivity.
  Qed.
End Any.

(** ** C85: 25 updates of 1 *)
Definition ex_laid_run : option (nat * list (Q * Q)) :=
  match (let* s := sequence_init tt (ex_beach 1) 1%Q in
         seq_calls [ex_rain] [Run (Some 25%Q) None] s) with
  | Ok s => Some (el_number (layers (sq_grid s)),
                  map (fun c => (Qred (c_dz c), match dget String.eqb (c_props c) "age"%string with Some a => Qred a | None => 0%Q end))
                    (firstn 4 (at2 [] (el_stacks (layers (sq_grid s))) 0 1)))
  | Err _ => None
  end.
Lemma ex_laid_ok : ex_laid_run = Some (17%nat, [(109, 9); (1, 10); (1, 11); (1, 12)]%Q).
Proof. vm_compute. reflexivity. Qed.

(** ** C86, C87: what the newest layer of cell (0, 0) says: thickness, depth, t0,
    and the depth over the surface *)
Definition newest_says (g : grid Q) : option (Q * Q * Q * Q) :=
  let c := last (at2 [] (el_stacks (layers g)) 0 0) (mkCell 0%Q []) in
  match dget String.eqb (c_props c) "water_depth"%string, dget String.eqb (c_props c) "t0"%string,
        node g "topographic__elevation", gval g "sea_level__elevation" with
  | Some d, Some t, Some z, Some sea => Some (Qred (c_dz c), Qred d, Qred t, Qred (sea - in_cell z 0 0))
  | _, _, _, _ => None
  end.
Definition ex_seq_start : result (sequence Q unit) := sequence_init tt (ex_beach 1) 1%Q.
Definition ex_model_start : result (smodel Q unit) :=
  model_init (ex_processes [ex_lay 3%Q]) tt ex_coast (clock_init 0 None 1)%Q.
(* Sequence: surface at 1, 100 of sediment *)
Lemma ex_seq_says : two_stages ex_seq_start (fun s => Ok s)
  (fun s _ => match newest_says (sq_grid s) with
              | Some (dz, d, t, w) => Qeq_bool dz 100 && Qeq_bool d (-101) && Qeq_bool t 0 && Qeq_bool w (-1)
              | None => false end)%bool = true.
Proof. vm_compute. reflexivity. Qed.
Lemma ex_model_says : two_stages ex_model_start (fun s => Ok s)
  (fun m _ => match newest_says (sm_grid m) with
              | Some (dz, d, t, w) => Qeq_bool dz 100 && Qeq_bool d 99 && Qeq_bool t 10 && Qeq_bool w (-1)
              | None => false end)%bool = true.
Proof. vm_compute. reflexivity. Qed.
(* laying 3 on a surface at 1 *)
Definition ex_model_step (m : smodel Q unit) : result (smodel Q unit) :=
  match run_one_step (ex_processes [ex_lay 3%Q]) None m with Stepped m' => Ok m' | ClockStop _ => Err TypeError | Raised e => Err e end.
Lemma ex_model_step_says : two_stages ex_model_start ex_model_step
  (fun _ m => match newest_says (sm_grid m) with
              | Some (dz, d, t, w) => Qeq_bool dz 3 && Qeq_bool d (-1) && Qeq_bool t 3 && Qeq_bool w (-4)
              | None => false end)%bool = true.
Proof. vm_compute. reflexivity. Qed.

Ltac says H := repeat (apply andb_prop in H; let H' := fresh H in destruct H as [H H']).

Lemma newest_says_inv g dz d t w : newest_says g = Some (dz, d, t, w) ->
  exists d' t' z sea, newest_record "water_depth" g 0 0 = Some d' /\ newest_record "t0" g 0 0 = Some t'
    /\ node g "topographic__elevation" = Some z /\ gval g "sea_level__elevation" = Some sea
    /\ (newest_thickness g 0 0 == dz /\ d' == d /\ t' == t /\ (sea - in_cell z 0 0) == w)%Q.
Proof.
  unfold newest_says, newest_record, newest_thickness, newest_layer. change (@n0 Q _) with 0%Q. destruct (dget _ _ "water_depth"%string) as [d'|]; [|discriminate].
  destruct (dget _ _ "t0"%string) as [t'|]; [|discriminate].
  destruct (node g _) as [z|]; [|discriminate]. destruct (gval g _) as [sea|]; [|discriminate].
  intros X.
  assert (K : forall a b : Q * Q * Q * Q, Some a = Some b -> a = b) by congruence. apply K in X. clear K.
  assert (X1 := f_equal fst X). assert (w = snd (dz, d, t, w)) as -> by reflexivity. rewrite <- X. cbn [fst snd] in *.
  assert (X2 := f_equal fst X1). assert (X3 := f_equal snd X1). cbn [fst snd] in *. subst t.
  assert (X4 := f_equal fst X2). assert (X5 := f_equal snd X2). cbn [fst snd] in *. subst dz d.
  exists d', t', z, sea.
  split; [reflexivity|]. split; [reflexivity|]. split; [reflexivity|]. split; [reflexivity|].
  rewrite !Qred_correct. repeat split; reflexivity.
Qed.

Lemma seq_depth_refuted : ~ (forall W (w : W) (g : grid Q) step s z sea i j d, fresh_grid g ->
  sequence_init w g step = Ok s -> (i < g_rows g)%nat -> (j < g_cols g - 2)%nat ->
  node (sq_grid s) "topographic__elevation" = Some z -> gval (sq_grid s) "sea_level__elevation" = Some sea ->
  newest_record "water_depth" (sq_grid s) i j = Some d -> (d == sea - in_cell z i j)%Q).
Proof.
  intros C. destruct (two_stages_ok _ _ _ ex_seq_says) as [s [s' [E [_ X]]]].
  destruct (newest_says (sq_grid s)) as [[[[dz d] t] w]|] eqn:S; [|discriminate X].
  destruct (newest_says_inv _ _ _ _ _ S) as [d' [t' [z [sea [N1 [N2 [N3 [N4 [Q1 [Q2 [Q3 Q4]]]]]]]]]]].
  assert (K := C _ _ _ _ _ z sea 0%nat 0%nat d' (ex_beach_fresh 1) E (le_n 1) (le_S _ _ (le_n 1)) N3 N4 N1).
  says X. apply Qeq_bool_iff in X2, X0. rewrite Q2, Q4, X2, X0 in K. discriminate K.
Qed.

Lemma seq_t0_refuted : ~ (forall W (w : W) (g : grid Q) step s i j t, fresh_grid g ->
  sequence_init w g step = Ok s -> (i < g_rows g)%nat -> (j < g_cols g - 2)%nat ->
  newest_record "t0" (sq_grid s) i j = Some t -> (t == newest_thickness (sq_grid s) i j)%Q).
Proof.
  intros C. destruct (two_stages_ok _ _ _ ex_seq_says) as [s [s' [E [_ X]]]].
  destruct (newest_says (sq_grid s)) as [[[[dz d] t] w]|] eqn:S; [|discriminate X].
  destruct (newest_says_inv _ _ _ _ _ S) as [d' [t' [z [sea [N1 [N2 [N3 [N4 [Q1 [Q2 [Q3 Q4]]]]]]]]]]].
  assert (K := C _ _ _ _ _ 0%nat 0%nat t' (ex_beach_fresh 1) E (le_n 1) (le_S _ _ (le_n 1)) N2).
  says X. apply Qeq_bool_iff in X, X1, X2, X0. rewrite Q1, Q3, X in K. rewrite X1 in K. discriminate K.
Qed.

Lemma model_t0_refuted : ~ (forall W (pr : processes Q W) w (g : grid Q) c m i j t, whole_grid g ->
  model_init pr w g c = Ok m -> (i < g_rows g)%nat -> (j < g_cols g - 2)%nat ->
  newest_record "t0" (sm_grid m) i j = Some t -> (t == newest_thickness (sm_grid m) i j)%Q).
Proof.
  intros C. destruct (two_stages_ok _ _ _ ex_model_says) as [s [s' [E [_ X]]]].
  destruct (newest_says (sm_grid s)) as [[[[dz d] t] w]|] eqn:S; [|discriminate X].
  destruct (newest_says_inv _ _ _ _ _ S) as [d' [t' [z [sea [N1 [N2 [N3 [N4 [Q1 [Q2 [Q3 Q4]]]]]]]]]]].
  assert (K := C _ _ _ _ _ _ 0%nat 0%nat t' ex_coast_whole E (le_n 1) (le_S _ _ (le_n 1)) N2).
  says X. apply Qeq_bool_iff in X, X1. rewrite Q1, Q3, X, X1 in K. discriminate K.
Qed.

Lemma model_depth_refuted : ~ (forall W (pr : processes Q W) w (g : grid Q) c m dt m' z sea i j d, whole_grid g ->
  Forall keeps_whole (pr_components pr) ->
  model_init pr w g c = Ok m -> run_one_step pr dt m = Stepped m' -> (i < g_rows g)%nat -> (j < g_cols g - 2)%nat ->
  node (sm_grid m') "topographic__elevation" = Some z -> gval (sm_grid m') "sea_level__elevation" = Some sea ->
  newest_record "water_depth" (sm_grid m') i j = Some d -> (d == sea - in_cell z i j)%Q).
Proof.
  intros C. destruct (two_stages_ok _ _ _ ex_model_step_says) as [s [s' [E [E' X]]]].
  unfold ex_model_step in E'. destruct (run_one_step _ None s) as [m'| |] eqn:Es; try discriminate E'. injection E' as <-.
  destruct (newest_says (sm_grid m')) as [[[[dz d] t] w]|] eqn:S; [|discriminate X].
  destruct (newest_says_inv _ _ _ _ _ S) as [d' [t' [z [sea [N1 [N2 [N3 [N4 [Q1 [Q2 [Q3 Q4]]]]]]]]]]].
  assert (K := C _ (ex_processes [ex_lay 3%Q]) _ _ _ _ _ _ z sea 0%nat 0%nat d' ex_coast_whole (Forall_cons _ (ex_lay_keeps 3%Q) (Forall_nil _))
                 E Es (le_n 1) (le_S _ _ (le_n 1)) N3 N4 N1).
  says X. apply Qeq_bool_iff in X1, X2, X0. rewrite Q2, Q4 in K. rewrite X2, X0 in K. discriminate K.
Qed.

(** ** C88: the sea rises by twice the time *)
Definition ex_tide : sea_level_comp Q := mkSeaLevel (fun t => Ok (2 * t)%Q) 0%Q.
Definition ex_tidal : processes Q (sea_level_comp Q) :=
  mkProcesses [ex_lay 1%Q; sea_level_component (fun w => w) (fun c _ => c); ex_lay 2%Q] (fun _ => (1 # 2)%Q)
    (fun t w => sea_level_set_time t w).
Lemma ex_lay_sea {A} `{Num A} {W} (get : W -> sea_level_comp A) t : keeps_sea get (ex_lay t).
Proof. intros dt w g w' g' E. injection E as <- <-. split; reflexivity. Qed.
Lemma sea_level_keeps {A} `{Num A} {W} (get : W -> sea_level_comp A) put : keeps_whole (sea_level_component get put).
Proof.
  intros dt w g w' g' Hg E. unfold sea_level_component, on_part, sea_level_step in E. cbn [fst snd] in E.
  destruct (gval g "sea_level__elevation"); [|discriminate E]. destruct (slc_curve _ _) as [v|]; [|discriminate E].
  cbn [bind] in E. injection E as <- <-. split; [exact Hg|split; reflexivity].
Qed.
Definition ex_tidal_start : result (smodel Q (sea_level_comp Q)) := model_init ex_tidal ex_tide ex_coast (clock_init 5 None 3)%Q.
Definition tide_says (m : smodel Q (sea_level_comp Q)) : Q * Q * Q :=
  (Qred (ck_time (sm_clock m)), Qred (slc_time (sm_world m)),
   match gval (sm_grid m) "sea_level__elevation" with Some v => Qred v | None => 0 end)%Q.
Definition ex_tidal_run : option (Q * Q * Q) :=
  match ex_tidal_start with
  | Ok m => match steps_of_run 2 ex_tidal m with Some m' => Some (tide_says m') | None => None end
  | Err _ => None
  end.
Lemma ex_tidal_ok : ex_tidal_run = Some (11, 11, 22)%Q.
Proof. vm_compute. reflexivity. Qed.
Lemma ex_tidal_hyps :
  pr_components ex_tidal = [ex_lay 1%Q] ++ sea_level_component (fun w => w) (fun c _ => c) :: [ex_lay 2%Q]
  /\ Forall (keeps_sea (fun w => w)) [@ex_lay Q (sea_level_comp Q) 1%Q]
  /\ Forall (keeps_sea (fun w => w)) [@ex_lay Q (sea_level_comp Q) 2%Q]
  /\ (forall t w, pr_set_sea_time ex_tidal t w = sea_level_set_time t w)
  /\ Forall keeps_whole (pr_components ex_tidal) /\ whole_grid (A:=Q) ex_coast.
Proof.
  split; [reflexivity|]. split; [constructor; [apply ex_lay_sea|constructor]|].
  split; [constructor; [apply ex_lay_sea|constructor]|]. split; [reflexivity|]. split; [|apply ex_coast_whole].
  repeat (constructor; [first [apply ex_lay_keeps|apply sea_level_keeps]|]). constructor.
Qed.

(* a step of 7 by a clock whose step is 3 *)
Definition ex_tidal_step (m : smodel Q (sea_level_comp Q)) : result (smodel Q (sea_level_comp Q)) :=
  match run_one_step ex_tidal (Some 7%Q) m with Stepped m' => Ok m' | ClockStop _ => Err TypeError | Raised e => Err e end.
Lemma ex_tidal_differs : two_stages ex_tidal_start ex_tidal_step
  (fun _ m => let '(t, t', _) := tide_says m in Qeq_bool t 8 && Qeq_bool t' 12)%bool = true.
Proof. vm_compute. reflexivity. Qed.
Lemma sea_clock_refuted : ~ (forall W (get : W -> sea_level_comp Q) put (pr : processes Q W) before after w g c m dt m',
  (forall c w, get (put c w) = c) ->
  pr_components pr = before ++ sea_level_component get put :: after ->
  Forall (keeps_sea get) before -> Forall (keeps_sea get) after ->
  (forall t w, pr_set_sea_time pr t w = put (sea_level_set_time t (get w)) w) ->
  Forall keeps_whole (pr_components pr) -> whole_grid g ->
  model_init pr w g c = Ok m -> run_one_step pr dt m = Stepped m' ->
  (slc_time (get (sm_world m')) == ck_time (sm_clock m'))%Q).
Proof.
  intros C. destruct (two_stages_ok _ _ _ ex_tidal_differs) as [m [m' [E [E' X]]]].
  unfold ex_tidal_step in E'. destruct (run_one_step ex_tidal (Some 7%Q) m) as [m1| |] eqn:Es; try discriminate E'. injection E' as <-.
  destruct ex_tidal_hyps as [H1 [H2 [H3 [H4 [H5 H6]]]]].
  assert (K := C _ (fun w => w) (fun c _ => c) ex_tidal _ _ _ _ _ _ _ _ (fun c w => eq_refl) H1 H2 H3 H4 H5 H6 E Es).
  unfold tide_says in X. apply andb_prop in X. destruct X as [X1 X2]. apply Qeq_bool_iff in X1, X2.
  rewrite Qred_correct in X1, X2. rewrite X1, X2 in K. discriminate K.
Qed.
