(** Plots of the files that models write. *)
From Coq Require Import String List ZArith Reals Arith Lia Lra Bool.
From Verif.Base Require Import Num Py Arr.
From Verif.Model Require Import Layers Grid Netcdf OutputWriter Sequence SequenceModel Interp Plot.
From Verif.Spec Require Import Column Recording Drawn.
From Verif.Proofs Require Import GridP NetcdfP OutputP OutputLayersP ModelOutputP ModelFileP OutputRunsP PlotFileP.
Import ListNotations.
Local Open Scope nat_scope.

Lemma place_node n row i : place n row i -> exists brow, place (n + 2) row brow /\ (brow = i \/ brow = i + 2).
Proof.
  intros [H1 [->| ->]]; [exists i|exists (i + 2)]; unfold place; lia.
Qed.

Section Any.
  Context {A : Type} `{Num A} {W : Type}.

  Lemma age_values (el : event_layers A) r c f i j (P : A -> Prop) : shaped r c (el_stacks el) -> i < r -> j < c ->
    Forall (fun a => exists t, P t /\ a = Some t) (map age_of (at2 [] (el_stacks el) i j)) ->
    In f (layer_data el "age") -> forall v, at2 None f i j = Some v -> P v.
  Proof.
    intros Sh Hi Hj Hf Hin v Ev. unfold layer_data, layers_of in Hin. change (String.eqb "age" "thickness") with false in Hin. cbn iota in Hin.
    apply in_map_iff in Hin. destruct Hin as [q [<- _]]. rewrite (at2_fmap _ _ _ _ [] None i j Sh Hi Hj) in Ev.
    destruct (nth_error (at2 [] (el_stacks el) i j) q) as [c0|] eqn:Ec; [|discriminate Ev].
    apply nth_error_In in Ec. rewrite Forall_forall in Hf. destruct (Hf (age_of c0)) as [t [Pt Et]]; [apply in_map; exact Ec|].
    unfold age_of in Et. rewrite Et in Ev. injection Ev as <-. exact Pt.
  Qed.

  Lemma file_age_data (pr : processes A W) w0 g0 start stop step path k fields clobber fs n m m' :
    fresh_grid g0 -> Forall keeps_whole (pr_components pr) -> Forall keeps_ages (pr_components pr) -> 1 <= k ->
    output_run pr w0 g0 start stop step path k fields clobber fs n m -> n mod k = 0 ->
    run_one_step (with_output pr) None m = Stepped m' -> forall g1, after_components (with_output pr) step m g1 ->
    exists d, file_at (files m') path = Some d
      /\ ds_time d = map (fun i => after_steps n0 step (i * k)) (seq 0 (S (n / k)))
      /\ nth_error (layer_var d "age") (el_number (layers g1) - 1)
         = Some (Some (full (g_rows g0) (g_cols g0 - 2) (Some (after_steps start step n)))).
  Proof.
    intros Hf Hw Ha Hk Hr Hn E g1 Hac. pose proof (Nat.div_mod n k ltac:(lia)) as D. rewrite Hn, Nat.add_0_r, Nat.mul_comm in D.
    rewrite D in Hr. destruct (model_file _ _ _ _ _ _ _ _ _ _ _ _ _ _ Hf Hw Ha Hk Hr E)
      as [g [d [Hg [Hd [Ht [_ [_ [Htop [Hl [Hage _]]]]]]]]]]. rewrite <- D in Htop.
    assert (g = g1) by (eapply after_components_fun; eassumption). subst g. exists d. split; [exact Hd|]. split; [exact Ht|].
    destruct (Hl "age"%string) as [rest [-> _]]; [apply in_or_app; left; exact Hage|].
    rewrite nth_error_app1; [|apply nth_error_Some; rewrite nth_error_map, Htop; discriminate].
    rewrite nth_error_map, Htop. reflexivity.
  Qed.

  Theorem model_plot (pr : processes A W) w0 g0 start stop step path k fields clobber fs n m m' g1 b :
    fresh_grid g0 -> Forall keeps_whole (pr_components pr) -> Forall keeps_ages (pr_components pr) -> 1 <= k ->
    output_run pr w0 g0 start stop step path k fields clobber fs n m -> n mod k = 0 ->
    run_one_step (with_output pr) None m = Stepped m' -> after_components (with_output pr) step m g1 ->
    3 <= g_cols g0 ->
    match fields with Some (f :: fl) => In "bedrock_surface__elevation"%string (f :: fl) | _ => True end ->
    node g1 "bedrock_surface__elevation" = Some b ->
    rowf g1 "x_of_shore" <> None -> rowf g1 "x_of_shelf_edge" <> None ->
    exists d, file_at (files m') path = Some d
    /\ ds_time d = map (fun i => after_steps n0 step (i * k)) (seq 0 (S (n / k)))
    /\ nth_error (layer_var d "age") (el_number (layers g1) - 1)
       = Some (Some (full (g_rows g0) (g_cols g0 - 2) (Some (after_steps start step n))))
    /\ (forall f v i, In (Some f) (layer_var d "age") -> i < g_rows g0 -> at2 None f i 0 = Some v ->
          exists q, q <= n /\ v = after_steps start step q)
    /\ dget String.eqb (ds_dims d) "row"%string = Some (g_rows g0)
    /\ exists xs, shaped (g_rows g0) (g_cols g0 - 2) xs /\ forall row i brow, place (g_rows g0) row i -> place (g_rows g0 + 2) row brow ->
       let ages := map (fun f => at2 None f i 0) (layer_array (g_rows g0) (g_cols g0 - 2) (layer_var d "age")) in
       plot_file_args d (Some row)
       = (if Nat.eqb n 0 then Err IndexError
         else
           let* shore := interp_all (ds_time d) (row_values d "at_row:x_of_shore" i) ages in
           let* shelf_edge := interp_all (ds_time d) (row_values d "at_row:x_of_shelf_edge" i) ages in
           Ok (mkPlotArgs (plotted_elevation b brow (layer_array (g_rows g0) (g_cols g0 - 2) (layer_var d "thickness")) i (g_cols g0 - 2))
                 (nth i xs []) shore shelf_edge))
       /\ forall p, plot_file_args d (Some row) = Ok p -> forall kk jj, kk < el_number (layers g1) -> jj < g_cols g0 - 2 ->
            nth jj (nth kk (pa_elevation p) []) None
            = Some (nadd (at2 n0 b brow (S jj)) (thickness_to kk (at2 [] (el_stacks (layers g1)) i jj))).
  Proof.
    intros Hf Hkw Hka Hk Hrun Hnk E1 Hac HC Hfl Hb Hs He.
    pose proof (Nat.div_mod n k ltac:(lia)) as D. rewrite Hnk, Nat.add_0_r, Nat.mul_comm in D. set (j := n / k) in *.
    destruct (file_age_data pr w0 g0 start stop step path k fields clobber fs n m m' Hf Hkw Hka Hk Hrun Hnk E1 g1 Hac) as [dd [Hdd [Htt Htop]]].
    destruct (output_trace pr w0 g0 start stop step path k fields clobber fs n m m' Hf Hkw Hka Hrun E1)
      as [fs1 [wr [gs [g [Ei [Lgs [Hac' [Erw Hgs]]]]]]]].
    assert (g = g1) by (eapply after_components_fun; eassumption). subst g. clear Hac'.
    destruct (snd (sm_world m')) as [w' fs'] eqn:Ews.
    set (calls := map (fun g => (g, Some step)) (gs ++ [g1])).
    assert (Ec : map seen calls = map (fun g => (view g, Some step)) (gs ++ [g1])).
    { unfold calls. rewrite map_map. reflexivity. }
    rewrite <- Ec in Erw.
    assert (Hself : nth_error (gs ++ [g1]) n = Some g1) by (rewrite nth_error_app2, Lgs, Nat.sub_diag by lia; reflexivity).
    assert (Hall : Forall (fun c => whole_grid (fst c) /\ like g0 (fst c)) calls).
    { unfold calls. apply Forall_map, Forall_forall. intros g Hg. apply In_nth_error in Hg. destruct Hg as [q Hq].
      destruct (Hgs q g Hq) as [a [b' [c _]]]. cbn [fst]. split; [exact c|]. split; assumption. }
    destruct (Hgs _ _ Hself) as [Rg [Cg [Wg [Lg Dg]]]]. destruct (top_layer _ _ _ Wg Lg) as [Hn1 _].
    assert (Ln : length calls = S n) by (unfold calls; rewrite map_length, app_length; cbn; lia).
    destruct (written_plot g0 path k fields clobber fs fs1 wr calls w' fs' j g1 (Some step) b Ei Hall Erw) as [d [Hd [Ht [Hlay [Hdim [xs [Sxs Hplot]]]]]]].
    { unfold calls. rewrite nth_error_map, <- D, Hself. reflexivity. }
    { rewrite Ln. lia. }
    all: try assumption.
    { apply (proj1 (proj2 Lg)). left. reflexivity. }
    assert (Efile : file_at (files m') path = Some d) by (unfold files; rewrite Ews; exact Hd).
    assert (dd = d) by congruence. subst dd.
    exists d. split; [exact Efile|]. split; [exact Htt|]. split; [exact Htop|]. split.
    { intros f v i Hin Hi Ev.
      destruct (init_clears _ _ _ _ _ _ _ _ _ Ei) as [Hnone [Hp [_ [_ [_ [_ Hrows]]]]]].
      assert (Lrows : length (ow_rows wr) = g_rows g0) by (rewrite Hrows, map_length, seq_length; reflexivity).
      pose proof (run_layers_from (fun name f => name = "age"%string -> forall i, i < g_rows g0 -> forall v, at2 None f i 0 = Some v ->
                     exists q, q <= n /\ v = after_steps start step q) g0 calls wr fs1 w' fs' Lrows Hall) as X.
      rewrite Hp, Hd in X. apply X with (name := "age"%string) (f := f) (i := i); try assumption; try reflexivity.
      - intros c name f' Hc Hf' -> i' Hi' v' Ev'. unfold calls in Hc. apply in_map_iff in Hc. destruct Hc as [g [<- Hg]]. cbn [fst] in Hf'.
        apply In_nth_error in Hg. destruct Hg as [q Hq].
        assert (Hqn : q < S n). { rewrite <- Ln. unfold calls. rewrite map_length. apply nth_error_Some. congruence. }
        destruct (Hgs q g Hq) as [Ra [Ca [Wa [_ Da]]]].
        apply (age_values (layers g) (g_rows g0) (g_cols g0 - 2) f' i' 0 (fun t => exists q, q <= n /\ t = after_steps start step q)); try assumption; try lia.
        + rewrite <- Ra, <- Ca. apply Wa.
        + rewrite <- Ra in Hi'. eapply Forall_impl; [|apply (Da i' 0 Hi' ltac:(lia))]. intros a [q' [Hq' ->]]. eexists. split; [|reflexivity]. exists q'. split; [lia|reflexivity].
      - unfold file_at. rewrite Hnone. reflexivity. }
    split; [exact Hdim|]. exists xs. split; [exact Sxs|]. intros row i brow Hi Hbrow ages.
    specialize (Hplot row i brow Hi Hbrow).
    assert (Hn0 : Nat.leb (S j) 1 = Nat.eqb n 0).
    { destruct (Nat.eqb_spec n 0) as [->|Hn]; [apply Nat.leb_le; nia|apply Nat.leb_gt; nia]. }
    rewrite Hn0 in Hplot. split; [exact Hplot|].
    intros p Ep kk jj Hkk Hjj. rewrite Hplot in Ep. destruct (Nat.eqb n 0); [discriminate Ep|].
    fold ages in Ep. cbn zeta in Ep. okstep Ep shore E3. okstep Ep edge E4. injection Ep as Ep.
    destruct (Hlay "thickness"%string) as [rest Hrest]; [apply in_or_app; right; left; reflexivity|].
    apply (plotted_from_file g1 b brow i d rest p); try assumption.
    - intros i' j' Hi' Hj'. apply (proj2 (proj2 Lg)); assumption.
    - rewrite Rg. apply Hi.
    - rewrite <- Ep. cbn [pa_elevation]. rewrite Rg, Cg. reflexivity.
    - rewrite Cg. exact Hjj.
  Qed.
End Any.

(** ** what a plot of a file shows *)
Section Claims.
  Context {A : Type} `{Num A} {W : Type}.
  (* the row that is plotted: the given one, or the middle *)
  Lemma chosen_some (d : dataset A) r row i : dget String.eqb (ds_dims d) "row"%string = Some r -> chosen_row r row i ->
    exists row', place r row' i /\ plot_file_args d row = plot_file_args d (Some row')
      /\ row' = match row with Some r => r | None => Z.of_nat (r / 2) end.
  Proof.
    unfold chosen_row. intros E Hp. eexists. split; [exact Hp|]. split; [|reflexivity]. destruct row as [row|]; [reflexivity|].
    apply plot_file_default; [exact E|]. destruct Hp. lia.
  Qed.

  Theorem plot_file_elevation (pr : processes A W) w0 g0 start stop step path k fields clobber fs n m m' g1 b d row i p :
    fresh_grid g0 -> Forall keeps_whole (pr_components pr) -> Forall keeps_ages (pr_components pr) -> 1 <= k ->
    output_run pr w0 g0 start stop step path k fields clobber fs n m -> n mod k = 0 ->
    run_one_step (with_output pr) None m = Stepped m' -> after_components (with_output pr) step m g1 ->
    3 <= g_cols g0 ->
    match fields with Some (f :: fl) => In "bedrock_surface__elevation"%string (f :: fl) | _ => True end ->
    node g1 "bedrock_surface__elevation" = Some b ->
    rowf g1 "x_of_shore" <> None -> rowf g1 "x_of_shelf_edge" <> None ->
    file_at (files m') path = Some d -> chosen_row (g_rows g0) row i -> plot_file_args d row = Ok p ->
    (forall brow, chosen_row (g_rows g0 + 2) (Some (match row with Some r => r | None => Z.of_nat (g_rows g0 / 2) end)) brow ->
       forall kk jj, kk < el_number (layers g1) -> jj < g_cols g0 - 2 ->
       nth jj (nth kk (pa_elevation p) []) None
       = Some (nadd (at2 n0 b brow (S jj)) (thickness_to kk (at2 [] (el_stacks (layers g1)) i jj)))).
  Proof.
    intros Hf Hkw Hka Hk Hrun Hnk E1 Hac HC Hfl Hb Hs He Hd Hrow Ep brow Hbrow kk jj Hkk Hjj.
    destruct (model_plot pr w0 g0 start stop step path k fields clobber fs n m m' g1 b Hf Hkw Hka Hk Hrun Hnk E1 Hac HC Hfl Hb Hs He)
      as [d' [Hd' [_ [_ [_ [Hdim [xs [_ Hplot]]]]]]]]. assert (d' = d) by congruence. subst d'.
    destruct (chosen_some d _ row i Hdim Hrow) as [row' [Hp [Er Erow]]]. rewrite Er in Ep. unfold chosen_row in Hbrow. rewrite <- Erow in Hbrow.
    apply (proj2 (Hplot row' i brow Hp Hbrow) p Ep kk jj Hkk Hjj).
  Qed.

  Theorem plot_file_level (pr : processes A W) w0 g0 start stop step path k fields clobber fs n m m' g1 b d row i p :
    fresh_grid g0 -> Forall keeps_whole (pr_components pr) -> Forall keeps_ages (pr_components pr) -> 1 <= k ->
    output_run pr w0 g0 start stop step path k fields clobber fs n m -> n mod k = 0 ->
    run_one_step (with_output pr) None m = Stepped m' -> after_components (with_output pr) step m g1 ->
    3 <= g_cols g0 ->
    match fields with Some (f :: fl) => In "bedrock_surface__elevation"%string (f :: fl) | _ => True end ->
    node g1 "bedrock_surface__elevation" = Some b ->
    rowf g1 "x_of_shore" <> None -> rowf g1 "x_of_shelf_edge" <> None ->
    file_at (files m') path = Some d -> chosen_row (g_rows g0) row i -> plot_file_args d row = Ok p ->
    (forall i i' j, i < g_rows g0 + 2 -> i' < g_rows g0 + 2 -> at2 n0 b i j = at2 n0 b i' j) ->
    forall kk jj, kk < el_number (layers g1) -> jj < g_cols g0 - 2 ->
    nth jj (nth kk (pa_elevation p) []) None = Some (top_of_layer b g1 i jj kk).
  Proof.
    intros Hf Hkw Hka Hk Hrun Hnk E1 Hac HC Hfl Hb Hs He Hd Hrow Ep Hlev kk jj Hkk Hjj.
    unfold chosen_row in Hrow. destruct (place_node _ _ _ Hrow) as [brow [Hbrow _]].
    rewrite (plot_file_elevation pr w0 g0 start stop step path k fields clobber fs n m m' g1 b d row i p Hf Hkw Hka Hk Hrun Hnk E1 Hac HC Hfl Hb Hs He Hd Hrow Ep
      brow Hbrow kk jj Hkk Hjj).
    unfold top_of_layer. rewrite (Hlev brow (S i)); [reflexivity|apply Hbrow|]. destruct Hrow. lia.
  Qed.

  Theorem plot_file_one_record (pr : processes A W) w0 g0 start stop step path k fields clobber fs m m' g1 b d row i :
    fresh_grid g0 -> Forall keeps_whole (pr_components pr) -> Forall keeps_ages (pr_components pr) -> 1 <= k ->
    output_run pr w0 g0 start stop step path k fields clobber fs 0 m ->
    run_one_step (with_output pr) None m = Stepped m' -> after_components (with_output pr) step m g1 ->
    3 <= g_cols g0 ->
    match fields with Some (f :: fl) => In "bedrock_surface__elevation"%string (f :: fl) | _ => True end ->
    node g1 "bedrock_surface__elevation" = Some b ->
    rowf g1 "x_of_shore" <> None -> rowf g1 "x_of_shelf_edge" <> None ->
    file_at (files m') path = Some d -> chosen_row (g_rows g0) row i -> plot_file_args d row = Err IndexError.
  Proof.
    intros Hf Hkw Hka Hk Hrun E1 Hac HC Hfl Hb Hs He Hd Hrow.
    destruct (model_plot pr w0 g0 start stop step path k fields clobber fs 0 m m' g1 b Hf Hkw Hka Hk Hrun (Nat.mod_0_l k ltac:(lia)) E1 Hac HC Hfl Hb Hs He)
      as [d' [Hd' [_ [_ [_ [Hdim [xs [_ Hplot]]]]]]]]. assert (d' = d) by congruence. subst d'.
    destruct (chosen_some d _ row i Hdim Hrow) as [row' [Hp [Er _]]]. rewrite Er.
    destruct (place_node _ _ _ Hp) as [brow [Hbrow _]]. destruct (Hplot row' i brow Hp Hbrow) as [-> _]. reflexivity.
  Qed.
End Claims.

Local Open Scope R_scope.
Lemma after_steps_R (start step : R) n : after_steps start step n = start + INR n * step.
Proof.
  induction n as [|n IH]; [cbn; lra|]. rewrite after_steps_S, IH, S_INR. numR. lra.
Qed.

Lemma interp_linear_err {A} `{Num A} (x y : list A) v e : interp_linear x y v = Err e -> e = ValueError.
Proof.
  unfold interp_linear. cbv zeta. destruct (nltb _ _); [congruence|]. destruct (nltb _ _); [congruence|].
  destruct (negb _); [congruence|]. destruct (_ || _)%bool; congruence.
Qed.
Lemma mapM_err {B C} (f : B -> result C) e0 l : (forall b e, In b l -> f b = Err e -> e = e0) ->
  (exists b, In b l /\ f b = Err e0) -> mapM f l = Err e0.
Proof.
  intros He [b [Hb Eb]]. induction l as [|a l IH]; [destruct Hb|]. cbn [mapM].
  destruct (f a) as [c|e] eqn:Ea; cbn [bind].
  - destruct Hb as [->|Hb]; [congruence|]. rewrite IH; [reflexivity| |exact Hb]. intros b' e' Hb'. apply He. right. exact Hb'.
  - f_equal. apply (He a e); [left; reflexivity|exact Ea].
Qed.

Section Real.
  Context {W : Type}.
  Variables (pr : processes R W) (w0 : W) (g0 : grid R) (start : R) (stop : option R) (step : R).
  Variables (path : string) (k : nat) (fields : option (list string)) (clobber : bool) (fs : filesystem R) (n : nat).
  Variables (m m' : smodel R (W * (writer R * filesystem R))) (g1 : grid R) (b : field R) (d : dataset R) (row : option Z) (i : nat).
  Hypotheses (Hf : fresh_grid g0) (Hkw : Forall keeps_whole (pr_components pr)) (Hka : Forall keeps_ages (pr_components pr)) (Hk : (1 <= k)%nat)
    (Hrun : output_run pr w0 g0 start stop step path k fields clobber fs n m) (Hnk : (n mod k = 0)%nat)
    (E1 : run_one_step (with_output pr) None m = Stepped m') (Hac : after_components (with_output pr) step m g1) (HC : (3 <= g_cols g0)%nat)
    (Hfl : match fields with Some (f :: fl) => In "bedrock_surface__elevation"%string (f :: fl) | _ => True end)
    (Hb : node g1 "bedrock_surface__elevation" = Some b)
    (Hs : rowf g1 "x_of_shore" <> None) (He : rowf g1 "x_of_shelf_edge" <> None)
    (Hd : file_at (files m') path = Some d) (Hrow : chosen_row (g_rows g0) row i).

  Lemma times_ends : ds_time d = map (fun i => after_steps n0 step (i * k)) (seq 0 (S (n / k))) ->
    nth 0 (ds_time d) 0 = 0 /\ nth (length (ds_time d) - 1) (ds_time d) 0 = INR n * step /\ ds_time d <> [].
  Proof.
    intros ->. split; [exact n0_R|]. split; [|discriminate]. rewrite map_length, seq_length. cbn [Nat.sub]. rewrite Nat.sub_0_r.
    rewrite nth_map' with (da := 0%nat) by (rewrite seq_length; lia). rewrite seq_nth by lia. rewrite after_steps_R. numR.
    pose proof (Nat.div_mod n k ltac:(lia)) as D. rewrite Hnk, Nat.add_0_r, Nat.mul_comm in D. rewrite Nat.add_0_l, <- D. rewrite ?n0_R; lra.
  Qed.

  Theorem plot_file_works : (1 <= n)%nat -> start = 0 -> 0 <= step -> exists p, plot_file_args d row = Ok p.
  Proof.
    intros Hn Hst Hstep.
    destruct (model_plot pr w0 g0 start stop step path k fields clobber fs n m m' g1 b Hf Hkw Hka Hk Hrun Hnk E1 Hac HC Hfl Hb Hs He)
      as [d' [Hd' [Ht [_ [Hages [Hdim [xs [_ Hplot]]]]]]]]. assert (d' = d) by congruence. subst d'.
    destruct (chosen_some d _ row i Hdim Hrow) as [row' [Hp [Er _]]]. rewrite Er.
    destruct (place_node _ _ _ Hp) as [brow [Hbrow _]]. destruct (Hplot row' i brow Hp Hbrow) as [-> _].
    rewrite (proj2 (Nat.eqb_neq n 0)) by lia.
    destruct (times_ends Ht) as [T0 [T1 Tne]].
    set (ages := map _ _).
    assert (Hin : forall v, In v ages -> match v with
        | Some a => nltb a (nth 0 (ds_time d) n0) = false /\ nltb (nth (length (ds_time d) - 1) (ds_time d) n0) a = false
        | None => True end).
    { intros v Hv. destruct v as [a|]; [|exact I]. unfold ages in Hv. apply in_map_iff in Hv. destruct Hv as [f [Ef Hf']].
      unfold layer_array in Hf'. apply in_map_iff in Hf'. destruct Hf' as [[f'|] [<- Hf']].
      - destruct (Hages f' a i Hf') as [q [Hq ->]]; [apply Hp|exact Ef|]. rewrite after_steps_R, Hst.
        assert (INR q <= INR n) by (apply le_INR; exact Hq). assert (0 <= INR q) by apply pos_INR.
        rewrite n0_R, T0, T1. split; apply Rltb_false; nra.
      - exfalso. destruct Hp as [Hi _].
        assert (X : at2 None (full (g_rows g0) (g_cols g0 - 2) (@None R)) i 0 = None) by (apply at2_full; lia).
        congruence. }
    destruct (interp_all_ok (ds_time d) (row_values d "at_row:x_of_shore" i) ages Tne Hin) as [sh [-> _]].
    destruct (interp_all_ok (ds_time d) (row_values d "at_row:x_of_shelf_edge" i) ages Tne Hin) as [ed [-> _]].
    cbn [bind]. eexists. reflexivity.
  Qed.

  Theorem plot_file_late_start : (1 <= n)%nat -> 0 < start -> plot_file_args d row = Err ValueError.
  Proof.
    intros Hn Hst.
    destruct (model_plot pr w0 g0 start stop step path k fields clobber fs n m m' g1 b Hf Hkw Hka Hk Hrun Hnk E1 Hac HC Hfl Hb Hs He)
      as [d' [Hd' [Ht [Htop [_ [Hdim [xs [_ Hplot]]]]]]]]. assert (d' = d) by congruence. subst d'.
    destruct (chosen_some d _ row i Hdim Hrow) as [row' [Hp [Er _]]]. rewrite Er.
    destruct (place_node _ _ _ Hp) as [brow [Hbrow _]]. destruct (Hplot row' i brow Hp Hbrow) as [-> _].
    rewrite (proj2 (Nat.eqb_neq n 0)) by lia.
    destruct (times_ends Ht) as [T0 [T1 Tne]].
    set (ages := map _ _).
    assert (Hin : In (Some (start + INR n * step)) ages).
    { unfold ages. apply in_map_iff. exists (full (g_rows g0) (g_cols g0 - 2) (Some (after_steps start step n))). split.
      - rewrite after_steps_R. apply at2_full; [apply Hp|lia].
      - unfold layer_array. apply in_map_iff. eexists. split; [|eapply nth_error_In; exact Htop]. reflexivity. }
    assert (X : interp_all (ds_time d) (row_values d "at_row:x_of_shore" i) ages = Err ValueError).
    { unfold interp_all. apply mapM_err.
      - intros v e _ E. exact (interp_linear_err _ _ _ _ E).
      - eexists. split; [exact Hin|]. unfold interp_linear. rewrite map_length.
        assert (Ln : (0 < length (ds_time d))%nat) by (destruct (ds_time d); [contradiction|cbn; lia]).
        rewrite !(nth_map' Some (ds_time d)) with (da := n0) by lia. cbn [nltb Num_nan test2].
        rewrite n0_R, T0, T1.
        destruct (nltb (start + INR n * step) 0); [reflexivity|].
        replace (nltb (INR n * step) (start + INR n * step)) with true by (symmetry; apply Rltb_true; lra). reflexivity. }
    rewrite X. reflexivity.
  Qed.
End Real.
