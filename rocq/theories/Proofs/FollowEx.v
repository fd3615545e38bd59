(** A model that follows its curves. *)
From Coq Require Import String List ZArith QArith Bool.
From Verif.Base Require Import Num Py Arr.
From Verif.Model Require Import Layers Grid Interp SeaLevel Subsidence Csv SequenceModel Setattr Processes Whole.
From Verif.Spec Require Import Session Configured Followed.
From Verif.Proofs Require Import FluvialEx ScriptEx WholeEx.
Import ListNotations.
Local Open Scope string_scope.

Definition ex_sinking_names : list string := ["sea_level"; "subsidence"; "compaction"; "submarine_diffusion"].
Notation ex_sinking_load := (@load_model Q _ half_trans unit ex_whole ex_grid6 (read_bathymetry ex_bath) ex_sinking_names ex_context (clock_init 0 (Some 10) 1)%Q).
Definition ex_new_tables : context (pvalue Q) :=
  [("sea_level", [("filepath", Table [0; 10]%Q [3; 4]%Q)]); ("subsidence", [("filepath", Table [0; 5000]%Q [-2 # 1; -2 # 1]%Q)])].
Notation ex_run names dt m := (@run_one_step Q _ (parts Q unit) (@named_processes Q _ half_trans unit ex_whole names) dt m).
(* a step, new tables, a step of another length *)
Definition ex_go (dt : option Q) : option (list string * smodel Q (parts Q unit) * smodel Q (parts Q unit) * smodel Q (parts Q unit) * smodel Q (parts Q unit)) :=
  match ex_sinking_load with
  | Ok (names, m0) =>
      match ex_run names None m0 with
      | Stepped m1 => match set_model_params ex_whole ex_new_tables m1 with
                      | Ok m2 => match ex_run names dt m2 with Stepped m3 => Some (names, m0, m1, m2, m3) | _ => None end
                      | Err _ => None
                      end
      | _ => None
      end
  | Err _ => None
  end.
Definition ex_levels (dt : option Q) : option (list string * list (option Q) * list (option (list (list Q)))) :=
  match ex_go dt with
  | Some (names, m0, m1, m2, m3) =>
      Some (names, map (fun m => option_map Qred (gval (sm_grid m) "sea_level__elevation")) [m0; m1; m2; m3],
            map (fun m => option_map (map (map Qred)) (node (sm_grid m) "bedrock_surface__elevation")) [m0; m1; m2; m3])
  | None => None
  end.
Lemma ex_levels_are : ex_levels (Some 2%Q) = Some
  (["sea_level"; "subsidence"; "compaction"; "submarine_diffusion"; "fluvial"; "shoreline"],
   [Some 0; Some (1 # 10); Some (1 # 10); Some (33 # 10)]%Q,
   let edge := [-80 # 1; -90 # 1; -105 # 1; -115 # 1; -125 # 1; -135 # 1]%Q in
   let one := [-80 # 1; -451 # 5; -527 # 5; -578 # 5; -629 # 5; -136 # 1]%Q in
   [Some [edge; edge; edge]; Some [edge; one; edge]; Some [edge; one; edge];
    Some [edge; [-84 # 1; -471 # 5; -547 # 5; -598 # 5; -649 # 5; -140 # 1]%Q; edge]]).
Proof. vm_compute. reflexivity. Qed.
Lemma ex_level_now : option_map (fun r => nth 3 (snd (fst r)) None) (ex_levels None) = Some (Some (16 # 5)%Q).
Proof. vm_compute. reflexivity. Qed.
Definition ex_going (dt : option Q) : bool := match ex_go dt with Some _ => true | None => false end.
Lemma ex_goes dt : ex_going dt = true -> exists names m0 m1 m2 m3, ex_go dt = Some (names, m0, m1, m2, m3) /\ ex_sinking_load = Ok (names, m0)
  /\ ex_run names None m0 = Stepped m1 /\ set_model_params ex_whole ex_new_tables m1 = Ok m2 /\ ex_run names dt m2 = Stepped m3.
Proof.
  unfold ex_going, ex_go. destruct ex_sinking_load as [[names m0]|]; [|discriminate]. destruct (ex_run names None m0) as [m1|m1|e] eqn:E1; try discriminate.
  destruct (set_model_params ex_whole ex_new_tables m1) as [m2|] eqn:E2; [|discriminate]. destruct (ex_run names dt m2) as [m3|m3|e] eqn:E3; try discriminate.
  intros _. exists names, m0, m1, m2, m3. auto 6.
Qed.
Lemma ex_leaves_sea : leaves_sea ex_whole.
Proof. intros dt x g x' g' H. cbn in H. unfold kept in H. assert (g' = g) by (cbn in H; congruence). subst. auto. Qed.
Lemma ex_leaves_bedrock : leaves_bedrock ex_whole.
Proof.
  split; [|split].
  - intros cls s g x g' H. cbn in H. unfold kept in H. assert (g' = g) by congruence. subst. auto 10.
  - intros dt x g x' g' H. cbn in H. unfold kept in H. assert (g' = g) by congruence. subst. repeat split.
  - intros n v x g x' g' H. cbn in H. unfold kept in H. assert (g' = g) by congruence. subst. repeat split.
Qed.
(* facts about the names and clocks of the run *)
Definition ex_facts (dt : option Q) : bool :=
  match ex_go dt with
  | Some (names, m0, m1, m2, m3) => existsb (String.eqb "sea_level") names && existsb (String.eqb "subsidence") names && negb (existsb (String.eqb "flexure") names)
  | None => false
  end.
Lemma ex_named : ex_facts None = true /\ ex_facts (Some 2%Q) = true. Proof. split; vm_compute; reflexivity. Qed.
Lemma existsb_in n l : existsb (String.eqb n) l = true <-> In n l.
Proof. rewrite existsb_exists. split; [intros (k & Hk & E); apply String.eqb_eq in E; congruence|intros H; exists n; split; [exact H|apply String.eqb_refl]]. Qed.
Lemma ex_names_in dt names m0 m1 m2 m3 : ex_go dt = Some (names, m0, m1, m2, m3) -> ex_facts dt = true ->
  In "sea_level" names /\ In "subsidence" names /\ ~ In "flexure" names.
Proof.
  unfold ex_facts. intros ->. intros F. apply andb_true_iff in F as [F F3]. apply andb_true_iff in F as [F1 F2]. apply negb_true_iff in F3.
  split; [apply existsb_in, F1|]. split; [apply existsb_in, F2|]. intros Y; apply existsb_in in Y; congruence.
Qed.
Lemma ex_followed names m0 m1 m2 : ex_run names None m0 = Stepped m1 -> set_model_params ex_whole ex_new_tables m1 = Ok m2 ->
  @followed Q unit _ half_trans ex_whole names "sea_level" m0 (@described_curve Q _ half_trans (section_of ex_context "sea_level")) m2 (interp_linear [0; 10] [3; 4])%Q.
Proof.
  intros E1 E2. apply (@followed_set Q unit _ half_trans ex_whole names "sea_level" m0 (@described_curve Q _ half_trans (section_of ex_context "sea_level")) m1 (@described_curve Q _ half_trans (section_of ex_context "sea_level")) ex_new_tables m2); [|reflexivity|exact E2].
  apply (@followed_step Q unit _ half_trans ex_whole names "sea_level" m0 _ m0 _ None m1); [apply followed_start|reflexivity|exact E1].
Qed.
Lemma ex_sunk dt names m0 m1 m2 m3 : ex_run names None m0 = Stepped m1 -> set_model_params ex_whole ex_new_tables m1 = Ok m2 -> ex_run names dt m2 = Stepped m3 ->
  @sinking Q unit _ half_trans ex_whole names m0 (described_rate (section_of ex_context "subsidence")) m3 (interp_linear [0; 5000] [-2 # 1; -2 # 1])%Q
         [(interp_linear [0; 5000] [0; -1 # 1], step_used None m0); (interp_linear [0; 5000] [-2 # 1; -2 # 1], step_used dt m2)]%Q.
Proof.
  intros E1 E2 E3. apply (@sinking_step Q unit _ half_trans ex_whole names m0 (described_rate (section_of ex_context "subsidence")) m2 (interp_linear [0; 5000] [-2 # 1; -2 # 1])%Q [(interp_linear [0; 5000] [0; -1 # 1], step_used None m0)]%Q dt m3); [|exact E3].
  apply (@sinking_set Q unit _ half_trans ex_whole names m0 (described_rate (section_of ex_context "subsidence")) m1 (described_rate (section_of ex_context "subsidence")) [(interp_linear [0; 5000] [0; -1 # 1], step_used None m0)]%Q ex_new_tables m2); [|exact E2].
  apply (@sinking_step Q unit _ half_trans ex_whole names m0 (described_rate (section_of ex_context "subsidence")) m0 (described_rate (section_of ex_context "subsidence")) [] None m1); [apply sinking_start|exact E1].
Qed.
Lemma ex_history dt : ex_going dt = true -> ex_facts dt = true ->
  exists names m0 m1 m2 m3, ex_go dt = Some (names, m0, m1, m2, m3) /\ ex_sinking_load = Ok (names, m0) /\ In "sea_level" names /\ In "subsidence" names /\ ~ In "flexure" names
    /\ @followed Q unit _ half_trans ex_whole names "sea_level" m0 (@described_curve Q _ half_trans (section_of ex_context "sea_level")) m2 (interp_linear [0; 10] [3; 4])%Q
    /\ ex_run names dt m2 = Stepped m3
    /\ @sinking Q unit _ half_trans ex_whole names m0 (described_rate (section_of ex_context "subsidence")) m3 (interp_linear [0; 5000] [-2 # 1; -2 # 1])%Q
         [(interp_linear [0; 5000] [0; -1 # 1], step_used None m0); (interp_linear [0; 5000] [-2 # 1; -2 # 1], step_used dt m2)]%Q.
Proof.
  intros G F. destruct (ex_goes dt G) as (names & m0 & m1 & m2 & m3 & Eg & E0 & E1 & E2 & E3). exists names, m0, m1, m2, m3.
  destruct (ex_names_in _ _ _ _ _ _ Eg F) as (N1 & N2 & N3). pose proof (ex_followed _ _ _ _ E1 E2). pose proof (ex_sunk _ _ _ _ _ _ E1 E2 E3). auto 10.
Qed.
(* with another length of a step the sea level is not that of the time of the
   model *)
Definition ex_off : bool :=
  match ex_go (Some 2%Q) with
  | Some (_, _, _, _, m3) =>
      match gval (sm_grid m3) "sea_level__elevation", interp_linear [0; 10]%Q [3; 4]%Q (ck_time (sm_clock m3)) with
      | Some v, Ok w => negb (Qeq_bool v w)
      | _, _ => false
      end
  | None => false
  end.
Lemma ex_is_off : ex_off = true. Proof. vm_compute. reflexivity. Qed.
Lemma ex_off_means names m0 m1 m2 m3 v : ex_go (Some 2%Q) = Some (names, m0, m1, m2, m3) -> ex_off = true ->
  interp_linear [0; 10]%Q [3; 4]%Q (ck_time (sm_clock m3)) = Ok v -> gval (sm_grid m3) "sea_level__elevation" = Some v -> False.
Proof.
  unfold ex_off. intros ->. intros X Ev Gv. rewrite Gv, Ev in X. rewrite (proj2 (Qeq_bool_iff v v) (Qeq_refl v)) in X. discriminate.
Qed.
Lemma ex_going_two : ex_going (Some 2%Q) = true. Proof. vm_compute. reflexivity. Qed.
Lemma ex_going_one : ex_going None = true. Proof. vm_compute. reflexivity. Qed.
Definition follows_statement : Prop := forall (E : externals Q unit) params read names ctx c names' m0 m f dt m',
  leaves_sea E -> @load_model Q _ half_trans unit E params read names ctx c = Ok (names', m0) -> In "sea_level" names' ->
  @followed Q unit _ half_trans E names' "sea_level" m0 (@described_curve Q _ half_trans (section_of ctx "sea_level")) m f ->
  @run_one_step Q _ (parts Q unit) (@named_processes Q _ half_trans unit E names') dt m = Stepped m' ->
  exists v, f (ck_time (sm_clock m')) = Ok v /\ gval (sm_grid m') "sea_level__elevation" = Some v.
Lemma follows_refuted : ~ follows_statement.
Proof.
  intros H. destruct (ex_history (Some 2%Q) ex_going_two (proj2 ex_named)) as (names & m0 & m1 & m2 & m3 & Eg & E0 & Is & _ & _ & Fo & Es & _).
  destruct (H _ _ _ _ _ _ _ _ _ _ _ _ ex_leaves_sea E0 Is Fo Es) as (v & Ev & Gv). exact (ex_off_means _ _ _ _ _ _ Eg ex_is_off Ev Gv).
Qed.
