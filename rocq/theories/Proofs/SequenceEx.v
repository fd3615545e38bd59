(** Concrete Sequence models. *)
From Coq Require Import String List ZArith QArith Reals Lia Lra Floats.SpecFloat.
From Verif.Base Require Import Num Py Arr.
From Verif.Model Require Import Layers Grid Archive Interp Shoreline Subsidence Sequence Components.
From Verif.Spec Require Import Strata Column.
From Verif.Proofs Require Import GridP LayersP SequenceP.
Import ListNotations.

Section Any.
  Context {A : Type} `{Num A}.
  (* [rows] rows of a beach: elevations 2 1 -1 -2 *)
  Definition ex_beach (rows : nat) : grid A :=
    mkGrid rows 4 n1 n1
      [("topographic__elevation"%string, repeat [nofZ 2; nofZ 1; nofZ (-1); nofZ (-2)] (rows + 2));
       ("sediment_deposit__thickness"%string, full (rows + 2) 4 n0)]
      [("sea_level__elevation"%string, n0)] [] (el_empty rows 2).

  (* deposits dt everywhere *)
  Definition ex_rain {W} : component A W :=
    fun dt wg => Ok (fst wg, put_node (snd wg) "sediment_deposit__thickness"
                              (full (g_rows (snd wg) + 2) (g_cols (snd wg)) dt)).
  (* lowers the bedrock by dt *)
  Definition ex_sink {W} : component A W :=
    fun dt wg =>
      let* z0 := node_r (snd wg) "bedrock_surface__elevation" in
      Ok (fst wg, put_node (snd wg) "bedrock_surface__elevation" (fmap (fun v => nsub v dt) z0)).

  Lemma ex_rain_keeps {W} : keeps_grid (@ex_rain W).
  Proof.
    intros dt w g w' g' Hg E. injection E as <- <-. cbn [snd fst].
    split; [apply model_grid_put; [apply shaped_full|exact Hg]|]. split; reflexivity.
  Qed.
  Lemma ex_sink_keeps {W} : keeps_grid (@ex_sink W).
  Proof.
    intros dt w g w' g' Hg E. unfold ex_sink in E. cbn [snd fst] in E. okinv E Ez. apply node_r_ok in Ez.
    injection E as <- <-. assert (Hg' := Hg). destruct Hg' as [_ [_ [[f [Ef Hf]] _]]]. rewrite Ez in Ef. injection Ef as <-.
    split; [apply model_grid_put; [apply shaped_fmap; exact Hf|exact Hg]|]. split; reflexivity.
  Qed.

  Lemma ex_beach_fields rows :
    (2 <= g_cols (ex_beach rows))%nat /\ has_field (ex_beach rows) "topographic__elevation"
    /\ (forall f, node (ex_beach rows) "bedrock_surface__elevation" = Some f ->
          shaped (g_rows (ex_beach rows) + 2) (g_cols (ex_beach rows)) f)
    /\ has_field (ex_beach rows) "sediment_deposit__thickness"
    /\ shaped (g_rows (ex_beach rows)) (g_cols (ex_beach rows) - 2) (el_stacks (layers (ex_beach rows))).
  Proof.
    split; [cbn; lia|]. split.
    { eexists. split; [reflexivity|]. split; [apply repeat_length|]. intros r Hr. apply repeat_spec in Hr. subst r. reflexivity. }
    split; [intros f X; discriminate X|]. split.
    { eexists. split; [reflexivity|]. apply shaped_full. }
    apply shaped_full.
  Qed.
End Any.

(* construct, update, run to 3: elevations of the middle row *)
Definition ex_sequence_run : option (list Q * Q * list Q) :=
  match (let* s := sequence_init tt (ex_beach 1) (1 # 2)%Q in
         seq_calls [ex_rain; ex_sink; ex_rain] [Update None; Run (Some 3%Q) (Some 2%Q)] s) with
  | Ok s => Some (match node (sq_grid s) "topographic__elevation" with Some z => nth 1 z [] | None => [] end,
                  sq_time s, map ge_age (sq_at_layer_grid s))
  | Err _ => None
  end.
Lemma ex_sequence_ok : ex_sequence_run = Some ([2; 1; -1 # 1; -2 # 1]%Q, 3%Q, [0; 1 # 2; 5 # 2; 3]%Q).
Proof. vm_compute. reflexivity. Qed.

(* a computation in two stages and tests of both results *)
Definition two_stages {S T} (i : result S) (r : S -> result T) (P : S -> T -> bool) : bool :=
  match i with Ok s => match r s with Ok t => P s t | Err _ => false end | Err _ => false end.
Lemma two_stages_ok {S T} (i : result S) (r : S -> result T) (P : S -> T -> bool) :
  two_stages i r P = true -> exists s t, i = Ok s /\ r s = Ok t /\ P s t = true.
Proof.
  unfold two_stages. destruct i as [s|]; [|discriminate]. destruct (r s) as [t|] eqn:E; [|discriminate].
  intros X. exists s, t. auto.
Qed.

(** ** rounding (C34) *)
Definition ex_tenth : b64 := nlit (1 # 10).
Definition ex_rounding : option b64 :=
  match (let* s := sequence_init tt (ex_beach 1) ex_tenth in
         sequence_run [] (Some (nlit 1)) (Some ex_tenth) s) with
  | Ok s => Some (sq_time s)
  | Err _ => None
  end.
(* 0.9999999999999999 = (2^53 - 1) / 2^53 *)
Lemma ex_rounding_ok : ex_rounding = Some (S754_finite false 9007199254740991 (-53)).
Proof. vm_compute. reflexivity. Qed.

Lemma ex_rounding_stages :
  two_stages (sequence_init tt (ex_beach 1) ex_tenth) (sequence_run [] (Some (nlit 1)) (Some ex_tenth))
    (fun s s' => (n0 <? ex_tenth)%num && (sq_time s <? nlit 1)%num && negb (sq_time s' =? nlit 1)%num) = true.
Proof. vm_compute. reflexivity. Qed.
Lemma ex_rounding_eqb : (@nlit b64 _ 1 =? nlit 1)%num = true.
Proof. vm_compute. reflexivity. Qed.

Lemma run_rounding_refuted : ~ (forall (components : list (component b64 unit)) T d s s',
  (n0 <? d)%num = true -> (sq_time s <? T)%num = true ->
  sequence_run components (Some T) (Some d) s = Ok s' -> sq_time s' = T).
Proof.
  intros C. destruct (two_stages_ok _ _ _ ex_rounding_stages) as [s [s' [_ [E X]]]].
  apply andb_prop in X. destruct X as [X X3]. apply andb_prop in X. destruct X as [X1 X2].
  rewrite (C [] (nlit 1) ex_tenth s s' X1 X2 E), ex_rounding_eqb in X3. discriminate X3.
Qed.

(** ** pending subsidence (C35) *)
(* a beach with a pending increment and a subsidence component *)
Definition ex_subsiding : grid Q :=
  put_node (ex_beach 1) "bedrock_surface__increment_of_elevation" (full 3 4 0%Q).
Definition ex_subsidence : component Q (subsidence_comp Q) :=
  subsidence_component (fun w => w) (fun c _ => c).
Definition ex_subsidence_run : option (list Q * list Q * list Q) :=
  match (let* s := sequence_init (mkSubsidence [1; 1; 1; 1]%Q 0%Q) ex_subsiding 1%Q in
         let* s' := sequence_update [ex_subsidence] 1%Q s in Ok (s, s')) with
  | Ok (s, s') =>
      let row s name := match node (sq_grid s) name with Some z => nth 1 z [] | None => [] end in
      Some (row s "bedrock_surface__elevation"%string, row s' "bedrock_surface__elevation"%string,
            row s' "bedrock_surface__increment_of_elevation"%string)
  | Err _ => None
  end.
Lemma ex_subsidence_ok : ex_subsidence_run
  = Some ([-98 # 1; -99 # 1; -101 # 1; -102 # 1]%Q, [-98 # 1; -99 # 1; -101 # 1; -102 # 1]%Q, [1; 1; 1; 1]%Q).
Proof. vm_compute. reflexivity. Qed.

Definition ex_subsidence_differs (g : grid Q) (s' : sequence Q (subsidence_comp Q)) : bool :=
  match node g "bedrock_surface__elevation", node g "bedrock_surface__increment_of_elevation",
        node (sq_grid s') "bedrock_surface__elevation" with
  | Some z0, Some inc, Some z0' => negb (Qeq_bool (at2 0%Q z0' 1 1) (at2 0%Q (fmap2 nadd z0 inc) 1 1))
  | _, _, _ => false
  end.
Lemma ex_subsidence_steps :
  two_stages (sequence_init (mkSubsidence [1; 1; 1; 1]%Q 0%Q) ex_subsiding 1%Q)
    (fun s => let* wg := run_components [ex_subsidence] 1%Q (sq_world s, sq_grid s) in
              let* s' := sequence_update [ex_subsidence] 1%Q s in Ok (wg, s'))
    (fun _ r => ex_subsidence_differs (snd (fst r)) (snd r)) = true.
Proof. vm_compute. reflexivity. Qed.

Lemma bedrock_moves_refuted : ~ (forall W (components : list (component Q W)) dt s s' w g z0 inc,
  run_components components dt (sq_world s, sq_grid s) = Ok (w, g) ->
  node g "bedrock_surface__elevation" = Some z0 ->
  node g "bedrock_surface__increment_of_elevation" = Some inc ->
  sequence_update components dt s = Ok s' ->
  node (sq_grid s') "bedrock_surface__elevation" = Some (fmap2 nadd z0 inc)).
Proof.
  intros C. destruct (two_stages_ok _ _ _ ex_subsidence_steps) as [s [[[w g] s'] [_ [E X]]]].
  cbn [fst snd] in X. okinv E Er. okinv E Eu. injection E as E E'. subst. unfold ex_subsidence_differs in X.
  destruct (node g "bedrock_surface__elevation") as [z0|] eqn:E0; [|discriminate X].
  destruct (node g "bedrock_surface__increment_of_elevation") as [inc|] eqn:E1; [|discriminate X].
  rewrite (C _ [ex_subsidence] 1%Q s s' w g z0 inc Er E0 E1 Eu) in X.
  rewrite Qeq_bool_refl in X. discriminate X.
Qed.

(** ** several rows (C36), in doubles *)
Definition ex_shore : component b64 unit := shoreline_component interp1d_linear (nlit (1 # 2)).
Definition ex_two_rows (rows : nat) : result (sequence b64 unit) :=
  sequence_init tt (ex_beach rows) (nlit 1).
Lemma ex_rows_runs :
  (match ex_two_rows 1 with Ok s => is_ok (sequence_update [ex_shore] n1 s) | Err _ => false end = true)
  /\ (match ex_two_rows 2 with
      | Ok s => match shoreline_update interp1d_linear (nlit (1 # 2)) (sq_grid s) with
                | Ok _ => match sequence_update [ex_shore] n1 s with Err ValueError => true | _ => false end
                | Err _ => false
                end
      | Err _ => false end = true).
Proof. split; vm_compute; reflexivity. Qed.

Lemma ex_beach_ok rows s : sequence_init tt (@ex_beach b64 _ rows) (nlit 1) = Ok s ->
  model_grid (sq_grid s) /\ g_rows (sq_grid s) = rows.
Proof.
  intros E. destruct (@ex_beach_fields b64 _ rows) as [H1 [H2 [H3 [H4 H5]]]].
  destruct (init_good tt _ _ _ H1 H2 H3 H4 H5 E) as [[G _] [R _]]. split; [exact G|exact R].
Qed.

Lemma ex_two_rows_stages :
  two_stages (sequence_init tt (@ex_beach b64 _ 2) (nlit 1))
    (fun s => shoreline_update interp1d_linear (nlit (1 # 2)) (sq_grid s))
    (fun s _ => match gval (sq_grid s) "sea_level__elevation" with Some _ => true | None => false end
                && (if list_eq_dec string_dec (el_tracking (layers (sq_grid s))) (layer_names (sq_grid s)) then true else false)
                && negb (is_ok (sequence_update [ex_shore] n1 s))) = true.
Proof. vm_compute. reflexivity. Qed.

Lemma several_rows_refuted : ~ (forall interp1d alpha dt (s : sequence b64 unit) g1,
  model_grid (sq_grid s) -> gval (sq_grid s) "sea_level__elevation" <> None -> tracks (sq_grid s) ->
  shoreline_update interp1d alpha (sq_grid s) = Ok g1 ->
  exists s', sequence_update [shoreline_component interp1d alpha] dt s = Ok s').
Proof.
  intros C. destruct (two_stages_ok _ _ _ ex_two_rows_stages) as [s [g1 [E [Eu X]]]].
  apply andb_prop in X. destruct X as [X X3]. apply andb_prop in X. destruct X as [X1 X2].
  destruct (ex_beach_ok 2 s E) as [G R].
  destruct (C interp1d_linear (nlit (1 # 2)) n1 s g1 G) as [s' Es]; [| |exact Eu|].
  - destruct (gval (sq_grid s) "sea_level__elevation"); [intros Y; discriminate Y|discriminate X1].
  - right. destruct (list_eq_dec string_dec _ _) as [Y|]; [exact Y|discriminate X2].
  - unfold ex_shore in X3. rewrite Es in X3. discriminate X3.
Qed.
