(** Profiles in several rows, a new bathymetry reader and a new clock. *)
From Coq Require Import String List ZArith QArith Reals Lra Lia.
From Verif.Base Require Import Num Py Arr.
From Verif.Model Require Import Layers Grid Interp Shoreline Bathymetry Sequence SequenceModel.
From Verif.Spec Require Import Profile History Column.
From Verif.Proofs Require Import ShorelineP GridP ForcingEx ClockP.
Import ListNotations.

Ltac okv E n := match type of E with bind ?x _ = Ok _ => destruct x as [n|]; [cbn [bind] in E|discriminate] end.
Section P.
  Context {A : Type} `{Num A}.
  Theorem index_rows (x : list A) zs sl : Forall (fun z => length z = length x) zs ->
    (forall l, find_shoreline_index_rows x zs sl = Ok l <->
       Forall2 (fun z i => first_submerged z sl i /\ exists j, (j < length z)%nat /\ ~ submerged z sl j) zs l)
    /\ (forall e, find_shoreline_index_rows x zs sl = Err e <->
       exists before z after, zs = before ++ z :: after
         /\ Forall (fun z => (exists j, submerged z sl j) /\ exists j, (j < length z)%nat /\ ~ submerged z sl j) before
         /\ ((e = ShorelineError false /\ forall j, ~ submerged z sl j)
             \/ (e = ShorelineError true /\ z <> [] /\ forall j, (j < length z)%nat -> submerged z sl j))).
  Proof.
    intros F. unfold find_shoreline_index_rows. split.
    - intros l. rewrite mapM_Forall2. split; intros X.
      + induction X as [|z i zs l Hz _ IH]; constructor; inversion F; subst.
        * apply (find_shoreline_index_spec x z sl); assumption.
        * apply IH. assumption.
      + induction X as [|z i zs l Hz _ IH]; constructor; inversion F; subst.
        * apply (find_shoreline_index_spec x z sl); assumption.
        * apply IH. assumption.
    - induction zs as [|z zs IH]; intros e; cbn [mapM].
      { split; [discriminate|]. intros (b & z & a & X & _). destruct b; discriminate. }
      inversion F as [|? ? Hz F']; subst. specialize (IH F').
      destruct (find_shoreline_index_spec x z sl Hz) as (S1 & S2 & S3 & S4).
      destruct (find_shoreline_index x z sl) as [i|e0] eqn:E; cbn [bind].
      + destruct (proj1 (S1 i) eq_refl) as [[Hi _] Hj]. split.
        * intros X. assert (X' : mapM (fun row => find_shoreline_index x row sl) zs = Err e) by (destruct (mapM _ zs); cbn in X; congruence).
          apply IH in X'. destruct X' as (b & z' & a & -> & Hb & Hc). exists (z :: b), z', a. split; [reflexivity|]. split; [|exact Hc].
          constructor; [|exact Hb]. split; [exists i; exact Hi|exact Hj].
        * intros (b & z' & a & X & Hb & Hc). destruct b as [|z'' b].
          { injection X as <- <-. exfalso. destruct Hc as [[_ Hc]|(_ & _ & Hc)]; [exact (Hc i Hi)|]. destruct Hj as (j & Hl & Hj). exact (Hj (Hc j Hl)). }
          injection X as <- ->. inversion Hb; subst. assert (X' : mapM (fun row => find_shoreline_index x row sl) (b ++ z' :: a) = Err e).
          { apply IH. exists b, z', a. repeat split; assumption. }
          rewrite X'. reflexivity.
      + assert (C : (e0 = ShorelineError false /\ forall j, ~ submerged z sl j) \/ (e0 = ShorelineError true /\ z <> [] /\ forall j, (j < length z)%nat -> submerged z sl j)).
        { destruct (S4 e0 eq_refl) as [[|] ->]; [right|left]; (split; [reflexivity|]); [apply S3|apply S2]; reflexivity. }
        split.
        * intros X. assert (e0 = e) by congruence. subst e0. exists [], z, zs. split; [reflexivity|]. split; [constructor|exact C].
        * intros (b & z' & a & X & Hb & Hc). destruct b as [|z'' b].
          { injection X as <- <-. destruct C as [[-> C]|(-> & Cn & C)], Hc as [[-> D]|(-> & Dn & D)]; try reflexivity; exfalso.
            - destruct z; [congruence|]. apply (C 0%nat), D. cbn. lia.
            - destruct z; [congruence|]. apply (D 0%nat), C. cbn. lia. }
          injection X as <- ->. inversion Hb as [|? ? [[i Hi] Hj] _]; subst. exfalso. destruct C as [[_ C]|(_ & _ & C)]; [exact (C i Hi)|].
          destruct Hj as (j & Hl & Hj). exact (Hj (C j Hl)).
  Qed.

  Lemma model_init_clock {W} (pr : processes A W) w g c m : model_init pr w g c = Ok m -> sm_clock m = c.
  Proof.
    intros E. unfold model_init in E. cbv zeta in E. okv E g1. okv E g2. okv E z0. okv E el. okv E g3. injection E as <-. reflexivity.
  Qed.
End P.

Local Open Scope R_scope.
Theorem bathymetry_new x y (g : grid R) : good_table x y -> 0 < g_dx g -> (0 < g_cols g)%nat ->
  node g "topographic__elevation" = None -> nth 0 x 0 <= 0 -> INR (g_cols g - 1) * g_dx g <= nth (length x - 1) x 0 ->
  exists z', bathymetry_step x y (bathymetry_init g) = Ok (put_node g "topographic__elevation" z')
    /\ shaped (g_rows g + 2) (g_cols g) z'
    /\ forall i j, (i < g_rows g + 2)%nat -> (j < g_cols g)%nat -> on_curve x y (INR j * g_dx g) (at2 0 z' i j).
Proof.
  intros T D C N X0 X1. unfold bathymetry_init. assert (Hn : has_node g "topographic__elevation" = false) by (unfold has_node, din; unfold node in N; rewrite N; reflexivity).
  rewrite Hn. set (z := full _ _ _). set (g1 := put_node g _ z).
  assert (Nz : node g1 "topographic__elevation" = Some z) by apply node_put_same.
  destruct (bathymetry_all x y g1 z T D C Nz (shaped_full _ _ _)) as [Ha _].
  destruct (Ha (conj X0 X1)) as (z' & E & S & V & _). exists z'. split; [|split; [exact S|exact V]].
  rewrite E. unfold g1. rewrite put_node_put_node. reflexivity.
Qed.

Theorem run_from_start {W} (pr : processes R W) w g start stop step m : 0 < step ->
  model_init pr w g (clock_init start (Some stop) step) = Ok m ->
  exists n, full_steps start stop step n
    /\ forall fuel, (n < fuel)%nat ->
       match model_run fuel pr m, model_run fuel (logged_processes pr) (with_log m []) with
       | Some (Ok m'), Some (Ok ml) =>
           ml = with_log m' (concat (repeat (map (fun i => (i, step)) (seq 0 (length (pr_components pr)))) n))
           /\ ck_time (sm_clock m') = start + (INR n + 1) * step
       | Some (Err e), Some (Err e') => e' = e
       | _, _ => False
       end.
Proof.
  intros Hs E. pose proof (model_init_clock _ _ _ _ _ E) as C.
  pose proof (run_log pr m stop) as L. rewrite C in L. cbn [clock_init ck_time ck_step ck_stop] in L. exact (L Hs eq_refl).
Qed.

Lemma ex_index_rows :
  find_shoreline_index_rows (map inject_Z [0;1;2]%Z) (map (map inject_Z) [[2;-1;-3]; [3;2;-1]]%Z) 0%Q = Ok [1; 2]%nat
  /\ find_shoreline_index_rows (map inject_Z [0;1;2]%Z) (map (map inject_Z) [[2;-1;-3]; [3;2;1]; [-1;-2;-3]]%Z) 0%Q = Err (ShorelineError false).
Proof. split; vm_compute; reflexivity. Qed.
Lemma ex_bath_new :
  match bathymetry_step (map inject_Z [0;10;30]%Z) (map inject_Z [5;1;2]%Z) (bathymetry_init (mkGrid 1 4 1%Q 5%Q [] [] [] (el_empty 1 2))) with
  | Ok g' => match node g' "topographic__elevation" with Some f => map (map Qred) f | None => [] end
  | Err _ => [] end
  = let r := [5; 3; 1; 5 # 4]%Q in [r; r; r].
Proof. vm_compute. reflexivity. Qed.
