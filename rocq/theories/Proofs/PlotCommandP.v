(** The plot command. *)
From Coq Require Import String Ascii List Bool Arith ZArith QArith Reals.
From Verif.Base Require Import Num Py Arr.
From Verif.Model Require Import Layers Grid Netcdf Plot Config Cli Commands PlotCommand.
From Verif.Spec Require Import Profile Sections Parameters CommandLine Run.
From Verif.Proofs Require Import DotsP FolderP.
Import ListNotations.
Local Open Scope string_scope.
Local Open Scope list_scope.

Lemma lastn_cons {B} (a : B) l d : lastn (a :: l) d = last l a.
Proof.
  unfold lastn. cbn [length]. rewrite Nat.sub_succ, Nat.sub_0_r. revert a. induction l as [|b l IH]; intros a; [reflexivity|].
  cbn [length]. change (nth (Datatypes.S (length l)) (a :: b :: l) d) with (nth (length l) (b :: l) d). rewrite IH.
  change (last (b :: l) a) with (match l with [] => b | _ => last l a end). clear. destruct l as [|c l]; [reflexivity|].
  revert c. induction l as [|e l IH]; intros c; [reflexivity|]. exact (IH e).
Qed.

Section Command.
  Context {S : Type} (scalar_true : S -> bool) (scalar_int : S -> option Z).
  Context (parse : string -> result (pyval S)) (str : string -> S) (num : Q -> S).
  Let defaults := plot_keywords str num.
  Implicit Types (toml : option (list (option R * dict S))) (os : list (option_string S)).

  (* a sequence.toml that can be read *)
  Definition good_toml toml : Prop :=
    forall sections, toml = Some sections -> exists t d0 rest, sections = (t, d0) :: rest /\ proper (PyDict d0)
      /\ forall v, dget String.eqb d0 "plot" = Some v -> exists p, v = PyDict p.
  Definition all_known toml os : Prop :=
    forall k, ~ In k ("row" :: plot_layers_keywords) -> not_given os toml k.

  Lemma settings_of toml os : Forall (valid_setting parse) os -> good_toml toml ->
    exists config, plot_config parse defaults toml (map written os) = Ok config
    /\ (forall k v, in_effect os toml (dget String.eqb defaults k) k v -> dget String.eqb config k = Some v)
    /\ (forall k, not_given os toml k -> dget String.eqb config k = dget String.eqb defaults k).
  Proof.
    intros F G. destruct (plot_settings parse defaults toml os F G) as [config [E C]]. exists config. split; [exact E|]. split.
    - intros k v [H|[N [[t [d0 [rest [Et Hs]]]]|[Hn Hd]]]].
      + apply C. exact H.
      + destruct (C k) as [_ [C2 _]]. eapply C2; eassumption.
      + destruct (C k) as [_ [_ C3]]. rewrite C3 by assumption. exact Hd.
    - intros k [N Hn]. apply C; assumption.
  Qed.

  Lemma known_keys toml os config : all_known toml os -> (forall k, not_given os toml k -> dget String.eqb config k = dget String.eqb defaults k) ->
    forallb (fun k => String.eqb k "row" || mem k plot_layers_keywords)%bool (dkeys config) = true
    /\ din String.eqb config "filename" = false.
  Proof.
    intros K H. assert (D : forall k, ~ In k ("row" :: plot_layers_keywords) -> dget String.eqb config k = None).
    { intros k Nk. rewrite H by (apply K, Nk). destruct (dget String.eqb defaults k) eqn:E; [|reflexivity].
      exfalso. apply Nk. right. apply (dget_in _ String.eqb_eq) in E. apply (in_map fst) in E. exact E. }
    split.
    - apply forallb_forall. intros k Ik. destruct (String.eqb k "row" || mem k plot_layers_keywords)%bool eqn:E; [reflexivity|].
      apply orb_false_iff in E. destruct E as [E1 E2]. exfalso.
      assert (N : ~ In k ("row" :: plot_layers_keywords)).
      { intros [X|X]; [subst k; discriminate E1|]. unfold mem in E2. rewrite <- not_true_iff_false in E2. apply E2. apply existsb_exists. exists k. split; [exact X|apply String.eqb_refl]. }
      specialize (D k N). clear -Ik D. induction config as [|[a v] config IH]; [destruct Ik|]. cbn in D. destruct (String.eqb_spec k a); [discriminate D|].
      destruct Ik as [X|X]; [cbn in X; congruence|]. exact (IH D X).
    - unfold din. rewrite D; [reflexivity|]. cbn. intuition discriminate.
  Qed.

  Theorem plot_drawn toml os (d : dataset R) row p ds
      water land shoreface shelf start stop n zstart zstop zn legend_at x_label y_label title x0 xs :
    Forall (valid_setting parse) os -> good_toml toml -> all_known toml os ->
    let set_to k v := in_effect os toml (dget String.eqb defaults k) k v in
    set_to "color_water" water -> set_to "color_land" land -> set_to "color_shoreface" shoreface -> set_to "color_shelf" shelf ->
    set_to "layer_start" (Scalar start) -> scalar_int start = Some zstart ->
    set_to "layer_stop" (Scalar stop) -> scalar_int stop = Some zstop ->
    set_to "n_layers" (Scalar n) -> scalar_int n = Some zn ->
    set_to "legend_location" legend_at -> set_to "x_label" x_label -> set_to "y_label" y_label -> set_to "title" title ->
    match row with
    | None => not_given os toml "row"
    | Some z => exists s, set_to "row" (Scalar s) /\ scalar_int s = Some z
    end ->
    plot_file_args d row = Ok p -> pa_x p = x0 :: xs ->
    plot_layers (mkPlotStyle (truthy scalar_true water) (truthy scalar_true land) (truthy scalar_true shoreface) (truthy scalar_true shelf) zstart zstop zn) p = Ok ds ->
    exists fig, plot_command scalar_true scalar_int parse str num toml (map written os) d = Ok fig
      /\ fig_drawings fig = ds /\ fig_x_label fig = x_label /\ fig_y_label fig = y_label
      /\ fig_title fig = (if truthy scalar_true title then Some title else None)
      /\ fig_x_limits fig = (x0, last xs x0)
      /\ fig_legend fig =
           (let items := filter (fun rc => truthy scalar_true (snd rc)) [(Land, land); (Shoreface, shoreface); (Shelf, shelf)] in
            if (truthy scalar_true legend_at && negb (Nat.eqb (length items) 0))%bool then Some (items, legend_at) else None).
  Proof.
    intros F G K set_to Hw Hl Hf Hs Ha Ia Hb Ib Hn In_ Hg Hx Hy Ht Hr Ep Ex Ed.
    destruct (settings_of toml os F G) as [config [E [C D]]]. destruct (known_keys toml os config K D) as [K1 K2].
    assert (W : forall k v, set_to k v -> keyword config k = Ok v) by (intros k v Hv; unfold keyword; rewrite (C k v Hv); reflexivity).
    unfold plot_command. fold defaults. rewrite E. cbn [bind]. unfold plot_file_with. rewrite K2.
    assert (R : match dget String.eqb config "row" with None => Ok None | Some v => let* z := as_int scalar_int v in Ok (Some z) end = Ok row).
    { destruct row as [z|].
      - destruct Hr as [s [Hs1 Hs2]]. rewrite (C _ _ Hs1). cbn [as_int]. rewrite Hs2. reflexivity.
      - rewrite (D _ Hr). reflexivity. }
    rewrite R. cbn [bind]. rewrite Ep. cbn [bind]. rewrite K1. unfold figure_of, style_of, legend_of.
    rewrite (W _ _ Hw), (W _ _ Hl), (W _ _ Hf), (W _ _ Hs), (W _ _ Ha), (W _ _ Hb), (W _ _ Hn). cbn [bind as_int]. rewrite Ia, Ib, In_. cbn [bind].
    rewrite Ed. cbn [bind]. rewrite (W _ _ Hg), (W _ _ Hx), (W _ _ Hy), (W _ _ Ht). cbn [bind]. rewrite Ex.
    eexists. split; [reflexivity|]. cbn [fig_drawings fig_x_label fig_y_label fig_title fig_x_limits fig_legend].
    split; [reflexivity|]. split; [reflexivity|]. split; [reflexivity|]. split; [reflexivity|]. split.
    - f_equal. apply lastn_cons.
    - cbv zeta. destruct (truthy scalar_true legend_at); [|reflexivity]. destruct (filter _ _); reflexivity.
  Qed.

  Theorem plot_default (d : dataset R) p ds x0 xs :
    (forall s, scalar_true (str s) = negb (String.eqb s "")) -> (forall z, scalar_int (num (inject_Z z)) = Some z) ->
    plot_file_args d None = Ok p -> pa_x p = x0 :: xs ->
    plot_layers (mkPlotStyle true true true true 0 (-1) 5) p = Ok ds ->
    let rgb r g b := PyTuple [Scalar (num r); Scalar (num g); Scalar (num b)] in
    plot_command scalar_true scalar_int parse str num None [] d
    = Ok (mkFigure ds
        (Some ([(Land, rgb (8 # 10) 1 (8 # 10)); (Shoreface, rgb (8 # 10) (8 # 10) 0); (Shelf, rgb (75 # 100) (1 # 2) (1 # 2))],
               Scalar (str "lower left")))
        (Scalar (str "Distance (m)")) (Scalar (str "Elevation (m)")) None (x0, lastn (pa_x p) None))%Q.
  Proof.
    intros Ht Hi Ep Ex Ed rgb. unfold plot_command, plot_config. cbn [bind load_params_from_strings foldM].
    unfold plot_file_with. 
    assert (F0 : din String.eqb (dupdate String.eqb (plot_keywords str num) []) "filename" = false) by reflexivity.
    change (load_params_from_strings parse []) with (@Ok (dict S) []). cbn [bind]. rewrite F0.
    change (dget String.eqb (dupdate String.eqb (plot_keywords str num) []) "row") with (@None (pyval S)). cbn [bind]. rewrite Ep. cbn [bind].
    change (forallb _ _) with true. cbn [dupdate fold_left]. unfold figure_of, style_of, legend_of, keyword, plot_keywords. fold rgb.
    cbn [dget String.eqb Ascii.eqb Bool.eqb bind as_int truthy].
    assert (I0 : scalar_int (num 0%Q) = Some 0%Z) by (rewrite <- (Hi 0%Z); reflexivity).
    assert (I1 : scalar_int (num (-1)%Q) = Some (-1)%Z) by (rewrite <- (Hi (-1)%Z); reflexivity).
    assert (I5 : scalar_int (num 5%Q) = Some 5%Z) by (rewrite <- (Hi 5%Z); reflexivity).
    rewrite I0, I1, I5. cbn [bind]. rewrite Ed. cbn [bind filter snd truthy]. rewrite !Ht. rewrite Ex. reflexivity.
  Qed.

  (** Files that cannot be drawn. *)
  Theorem plot_command_fails toml os (d : dataset R) row e : Forall (valid_setting parse) os -> good_toml toml -> all_known toml os ->
    match row with
    | None => not_given os toml "row"
    | Some z => exists s, in_effect os toml None "row" (Scalar s) /\ scalar_int s = Some z
    end ->
    plot_file_args d row = Err e ->
    plot_command scalar_true scalar_int parse str num toml (map written os) d
    = Err (match e with MissingRequiredVariable | InvalidRowError => ClickAbort | e => e end).
  Proof.
    intros F G K Hr Ep. destruct (settings_of toml os F G) as [config [E [C D]]]. destruct (known_keys toml os config K D) as [K1 K2].
    unfold plot_command. fold defaults. rewrite E. cbn [bind]. unfold plot_file_with. rewrite K2.
    assert (R : match dget String.eqb config "row" with None => Ok None | Some v => let* z := as_int scalar_int v in Ok (Some z) end = Ok row).
    { destruct row as [z|].
      - destruct Hr as [s [Hs1 Hs2]]. rewrite (C "row" (Scalar s) Hs1). cbn [as_int]. rewrite Hs2. reflexivity.
      - rewrite (D _ Hr). reflexivity. }
    rewrite R. cbn [bind]. rewrite Ep. cbn [bind]. destruct e; reflexivity.
  Qed.
  Theorem plot_unknown toml os (d : dataset R) k v p : Forall (valid_setting parse) os -> good_toml toml ->
    ~ In k ("row" :: "filename" :: plot_layers_keywords) -> in_effect os toml None k v ->
    not_given os toml "filename" -> not_given os toml "row" -> plot_file_args d None = Ok p ->
    plot_command scalar_true scalar_int parse str num toml (map written os) d = Err TypeError.
  Proof.
    intros F G Nk Hk Hf Hr Ep. destruct (settings_of toml os F G) as [config [E [C D]]].
    unfold plot_command. fold defaults. rewrite E. cbn [bind]. unfold plot_file_with. unfold din. rewrite (D _ Hf).
    change (dget String.eqb defaults "filename") with (@None (pyval S)). cbv iota. rewrite (D _ Hr). change (dget String.eqb defaults "row") with (@None (pyval S)). cbn [bind].
    rewrite Ep. cbn [bind].
    assert (Dk : dget String.eqb config k = Some v).
    { apply C. destruct Hk as [Hk|[N [Hk|[_ Hk]]]]; [left; exact Hk|right; split; [exact N|left; exact Hk]|discriminate Hk]. }
    assert (A : forallb (fun k => String.eqb k "row" || mem k plot_layers_keywords)%bool (dkeys config) = false).
    { apply not_true_iff_false. intros X. rewrite forallb_forall in X. assert (Ik : In k (dkeys config)).
      { apply (dget_in _ String.eqb_eq) in Dk. apply (in_map fst) in Dk. exact Dk. }
      specialize (X k Ik). apply orb_true_iff in X. apply Nk. destruct X as [X|X].
      - apply String.eqb_eq in X. left. congruence.
      - apply existsb_exists in X. destruct X as [k' [I X]]. apply String.eqb_eq in X. subst k'. right. right. exact I. }
    rewrite A. reflexivity.
  Qed.
End Command.

(* what is missing from a file *)
Lemma file_missing {A} `{Num A} (d : dataset A) row :
  dget String.eqb (ds_dims d) "row" = None
  \/ (exists r z, dget String.eqb (ds_dims d) "row" = Some r /\ row = Some z /\ (Z.of_nat r <= z \/ z < - Z.of_nat r)%Z)
  \/ ((forall r z, dget String.eqb (ds_dims d) "row" = Some r -> row = Some z -> (- Z.of_nat r <= z < Z.of_nat r)%Z)
      /\ (dget String.eqb (ds_layers d) "at_layer:thickness" = None \/ dget String.eqb (ds_fields d) "at_row:x_of_shore" = None
          \/ dget String.eqb (ds_fields d) "at_row:x_of_shelf_edge" = None \/ dget String.eqb (ds_fields d) "at_node:bedrock_surface__elevation" = None)) ->
  plot_file_args d row = Err MissingRequiredVariable \/ plot_file_args d row = Err InvalidRowError.
Proof.
  unfold plot_file_args. intros [E|[[r [z [E [-> Hz]]]]|[Hz M]]].
  - rewrite E. left. reflexivity.
  - rewrite E. right. destruct (Z.geb_spec z (Z.of_nat r)), (Z.ltb_spec z (- Z.of_nat r)); cbn; try reflexivity. exfalso. Lia.lia.
  - destruct (dget String.eqb (ds_dims d) "row") as [r|] eqn:E; [|left; reflexivity].
    assert (R : exists row', match row with
                    | None => Ok (Z.of_nat (r / 2))
                    | Some k => if ((k >=? Z.of_nat r) || (k <? - Z.of_nat r))%Z%bool then Err InvalidRowError else Ok k
                    end = Ok row').
    { destruct row as [z|]; [|eexists; reflexivity]. specialize (Hz r z eq_refl eq_refl).
      destruct (Z.geb_spec z (Z.of_nat r)), (Z.ltb_spec z (- Z.of_nat r)); cbn; try (exfalso; Lia.lia); eexists; reflexivity. }
    destruct R as [row' R]. rewrite R. cbn [bind].
    destruct (dget String.eqb (ds_layers d) "at_layer:thickness"), (dget String.eqb (ds_fields d) "at_row:x_of_shore"),
      (dget String.eqb (ds_fields d) "at_row:x_of_shelf_edge"), (dget String.eqb (ds_fields d) "at_node:bedrock_surface__elevation");
      try (left; reflexivity). exfalso. intuition discriminate.
Qed.

(** Examples *)
From Verif.Model Require Import Sequence SequenceModel OutputWriter.
From Verif.Spec Require Import Recording.
From Verif.Proofs Require Import SequenceModelEx OutputEx PlotEx.

(* scalars: text or numbers; the text "0" is a number *)
Definition ex_str (s : string) : string + Q := inl s.
Definition ex_num (q : Q) : string + Q := inr q.
Definition ex_parse (s : string) : result (pyval (string + Q)) := Ok (Scalar (if String.eqb s "0" then inr 0%Q else inl s)).
Definition ex_true (s : string + Q) : bool := match s with inl s => negb (String.eqb s "") | inr q => negb (Qeq_bool q 0) end.
Definition ex_int (s : string + Q) : option Z := match s with inr (z # 1)%Q => Some z | _ => None end.
Lemma ex_scalars : (forall s, ex_true (ex_str s) = negb (String.eqb s "")) /\ (forall z, ex_int (ex_num (inject_Z z)) = Some z).
Proof. split; reflexivity. Qed.

Definition ex_nc (n : nat) : option (dataset Q) :=
  match ex_file_run [ex_lay 1%Q] 0 1%Q 1 n with
  | Some m => match run_one_step (with_output (ex_processes [ex_lay 1%Q])) None m with
              | Stepped m' => file_at (files m') "out.nc"
              | _ => None
              end
  | None => None
  end.
Definition ex_figure (n : nat) (set : list string) :=
  option_map (plot_command ex_true ex_int ex_parse ex_str ex_num None set) (ex_nc n).
Lemma ex_settings : Forall (valid_setting ex_parse) [mkOption ["color_land"] "" (Scalar (inl "")); mkOption ["n_layers"] "0" (Scalar (inr 0%Q))]
  /\ map written [mkOption ["color_land"] "" (Scalar (inl "" : string + Q)); mkOption ["n_layers"] "0" (Scalar (inr 0%Q))] = ["color_land="; "n_layers=0"].
Proof.
  split; [|reflexivity]. assert (L : forall c s, ~ In c (list_ascii_of_string s) -> lacks c s) by (intros; assumption).
  constructor; [|constructor; [|constructor]]; (split; [eexists; split; [reflexivity|split]|split; [|reflexivity]]); apply L; cbn; intuition discriminate.
Qed.
Lemma ex_figure_ok : option_map (fun r => match r with
    | Ok f => Some (map (fun d => match d with Fill r _ _ => Some r | _ => None end) (fig_drawings f), option_map (fun l => map fst (fst l)) (fig_legend f), fig_title f)
    | Err _ => None end)
  (ex_figure 2 ["color_land="; "n_layers=0"]) = Some (Some ([Some Shoreface; Some Shoreface; Some Shelf; Some Shelf; None], Some [Shoreface; Shelf], None)).
Proof. vm_compute. reflexivity. Qed.
Lemma ex_figure_one : ex_figure 0 [] = Some (Err IndexError).
Proof. vm_compute. reflexivity. Qed.

(* a file of one record *)
Definition ex_one : dataset R :=
  mkDataset [("row", 1%nat); ("column", 1%nat); ("node", 9%nat); ("cell", 1%nat)] [0%R] []
    [("at_row:x_of_shore", [Some [Some 0%R]]); ("at_row:x_of_shelf_edge", [Some [Some 0%R]]);
     ("at_node:bedrock_surface__elevation", [Some (repeat (Some 0%R) 9)])]
    [("at_layer:thickness", [Some [[Some 0%R]]]); ("at_layer:age", [Some [[Some 0%R]]])].
Lemma ex_one_fails : plot_file_args ex_one None = Err IndexError.
Proof. cbn. reflexivity. Qed.
Lemma ex_nothing {S} : good_toml (S := S) None /\ all_known (S := S) None [] /\ forall k, not_given (S := S) [] None k.
Proof.
  split; [intros s X; discriminate X|]. split; [|intros k; split; [reflexivity|intros; discriminate]]. intros k _. split; [reflexivity|intros; discriminate].
Qed.
Lemma plot_reports_refuted : ~ (forall (d : dataset R), exists r,
   plot_command ex_true ex_int ex_parse ex_str ex_num None [] d = r /\ (r = Err ClickAbort \/ exists fig, r = Ok fig)).
Proof.
  intros C. destruct (C ex_one) as [r [E H]]. destruct (@ex_nothing (string + Q)) as [G [K N]].
  assert (X := plot_command_fails ex_true ex_int ex_parse ex_str ex_num None [] ex_one None IndexError (Forall_nil _) G K (N "row") ex_one_fails). cbn [map] in X. rewrite X in E.
  subst r. destruct H as [H|[fig H]]; discriminate H.
Qed.
