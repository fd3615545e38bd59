(** Examples and consequences used by Props/ShorelineProps.v *)
From Coq Require Import String List ZArith QArith Reals Lra Lia Arith.
From Verif.Base Require Import Num Py Arr.
From Verif.Model Require Import Layers Grid Interp Shoreline.
From Verif.Spec Require Import Profile.
From Verif.Proofs Require Import ShorelineP InterpP.
Import ListNotations.

Lemma ex_index_doctest :
  find_shoreline_index (map inject_Z [0;1;2;3;4;5;6;7;8;9]%Z)
    (map inject_Z [5;4;3;2;1;0;-1;-2;-3;-4]%Z) 0%Q = Ok 6%nat.
Proof. vm_compute. reflexivity. Qed.
Lemma ex_index_island :
  find_shoreline_index (map inject_Z [0;1;2;3;4]%Z) (map inject_Z [2;-1;3;0;-5]%Z) 0%Q = Ok 1%nat.
Proof. vm_compute. reflexivity. Qed.
Lemma ex_index_below :
  find_shoreline_index (map inject_Z [0;1]%Z) (map inject_Z [-2;-1]%Z) 0%Q = Err (ShorelineError true).
Proof. vm_compute. reflexivity. Qed.
Lemma ex_shoreline_doctest :
  find_shoreline interp1d_linear (map inject_Z [0;1;2;3;4;5;6;7;8;9]%Z)
    (map inject_Z [5;4;3;2;1;0;-1;-2;-3;-4]%Z) (1 # 4)%Q = Ok (19 # 4)%Q.
Proof. vm_compute. reflexivity. Qed.
Lemma ex_shoreline_island :
  find_shoreline interp1d_linear (map inject_Z [0;1;2]%Z) (map inject_Z [-1;1;-1]%Z) 0%Q = Err ValueError.
Proof. vm_compute. reflexivity. Qed.
Lemma ex_shelf_tie :
  find_shelf_edge (map inject_Z [0;1;2;3;4]%Z) (map inject_Z [0;9;5;7;7]%Z) 0%Q (3 # 1)%Q = Ok 3%Q.
Proof. vm_compute. reflexivity. Qed.
Lemma ex_shelf_none :
  find_shelf_edge (map inject_Z [0;1;2;3;4]%Z) (map inject_Z [0;9;5;7;7]%Z) 1%Q (1 # 1)%Q = Err ShelfEdgeError.
Proof. vm_compute. reflexivity. Qed.

Definition ex_grid2 : grid Q :=
  mkGrid 2 4 1%Q 1%Q
    [("topographic__elevation"%string,
      map (map inject_Z) [[9;9;9;9]; [1;0;-2;-3]; [5;1;1;-1]; [9;9;9;9]]%Z);
     ("sediment_deposit__thickness"%string,
      map (map inject_Z) [[0;0;0;0]; [0;0;4;6]; [0;0;0;0]; [0;0;0;0]]%Z)]
    [("sea_level__elevation"%string, 0%Q)] [] (el_empty 2 2).
Lemma ex_shoreline_run : 
  match shoreline_update interp1d_linear (3 # 1)%Q ex_grid2 with
  | Ok g' => (rowf g' "x_of_shore", rowf g' "x_of_shelf_edge")
  | Err _ => (None, None)
  end = (Some [Some (1 # 1)%Q; Some (5 # 2)%Q], Some [Some (3 # 1)%Q; None]).
Proof. vm_compute. reflexivity. Qed.

Local Open Scope R_scope.

Ltac inc_list := 
  let i := fresh in let j := fresh in let H := fresh in
  intros i j H; simpl in H;
  repeat (destruct i as [|i]; [|]; repeat (destruct j as [|j]; [simpl; try lra; try lia|]); simpl; try lia).

Lemma increasing_cons a b l : a < b -> increasing (b :: l) -> increasing (a :: b :: l).
Proof.
  intros Hab H i j [Hij Hj]. destruct i as [|i]; destruct j as [|j]; simpl in *; try lia.
  - destruct j as [|j]; [assumption|]. simpl.
    specialize (H 0%nat (S j) ltac:(simpl; lia)). simpl in H. lra.
  - specialize (H i j ltac:(simpl; lia)). simpl in H. exact H.
Qed.
Lemma increasing_one a : increasing [a].
Proof. intros i j [Hij Hj]. simpl in *; lia. Qed.
Ltac inc := repeat (apply increasing_cons; [lra|]); apply increasing_one.

Lemma ex_shoreline_nonvacuous :
  let x := [0; 10; 20; 30] in let z := [5; 1; -1; -2] in
  (2 <= length x)%nat /\ increasing x /\ length z = length x
  /\ nth (length x - 1) x 0 - nth 0 x 0 <= 1000000000000000000
  /\ 0 <= nth 0 z 0 /\ first_submerged z 0 2.
Proof.
  cbv zeta. repeat split; simpl; try lia; try lra; try inc.
  - numR. apply Rltb_true. lra.
  - intros j Hj Hs. apply submergedR in Hs. destruct Hs as [_ Hs].
    destruct j as [|[|j]]; simpl in Hs; try lra; lia.
Qed.

Lemma ex_shoreline_partial_nonvacuous :
  let x := [0; 1; 2] in let z := [-1; -1; 1] in
  (2 <= length x)%nat /\ increasing x /\ length z = length x
  /\ nth (length x - 1) x 0 - nth 0 x 0 <= 1000000000000000000
  /\ (exists i, submerged z 0 i) /\ (exists j, (j < length z)%nat /\ 0 <= nth j z 0).
Proof.
  cbv zeta. repeat split; simpl; try lia; try lra; try inc.
  - exists 0%nat. apply submergedR. simpl. split; [lia|lra].
  - exists 2%nat. simpl. split; [lia|lra].
Qed.

Lemma find_shoreline_linear (x z : list R) sl :
  (2 <= length x)%nat -> increasing x -> length z = length x ->
  nth (length x - 1) x 0 - nth 0 x 0 <= 1000000000000000000 ->
  sl <= nth 0 z 0 ->
  exists s, find_shoreline interp1d_linear x z sl = Ok s
    /\ ((forall i, ~ submerged z sl i) -> s = nth (length x - 1) x 0)
    /\ (forall i, first_submerged z sl i ->
          (0 < i)%nat /\ nth (i - 1) x 0 <= s <= nth i x 0
          /\ near_root (lerp (nth (i - 1) x 0) (nth (i - 1) z 0 - sl)
                             (nth i x 0) (nth i z 0 - sl))
               (nth (i - 1) x 0) (nth i x 0) s).
Proof.
  intros H2 Hx Hl Hw Hdry.
  set (y := map (fun a => a - sl) z).
  assert (Hyl : length y = length x) by (unfold y; rewrite map_length; assumption).
  destruct (find_shoreline_bracket interp1d_linear (linear_fun x y) x z sl) as [s [E [P1 P2]]];
    try assumption.
  - intros ->; simpl in H2; lia.
  - reflexivity.
  - apply linear_fun_interpolates; assumption.
  - exists s. split; [exact E|]. split; [exact P1|]. intros i Hi.
    destruct (P2 i Hi) as [Q1 [Q2 Q3]]. split; [assumption|]. split; [assumption|].
    destruct Hi as [[Hil _] _].
    destruct i as [|i]; [lia|]. replace (S i - 1)%nat with i in * by lia.
    destruct Q3 as [c [C1 [C2 C3]]].
    { apply linear_fun_continuous; [assumption|assumption|lia]. }
    exists c. split; [assumption|]. split; [|assumption].
    unfold linear_fun in C2. rewrite (interp_linear_spec x y c i) in C2 by (assumption || lia).
    unfold y in C2. rewrite !nth_shift in C2 by lia. exact C2.
Qed.

Lemma find_shoreline_fails_iff (x z : list R) sl :
  (2 <= length x)%nat -> increasing x -> length z = length x ->
  nth (length x - 1) x 0 - nth 0 x 0 <= 1000000000000000000 ->
  (exists i, submerged z sl i) ->
  (exists j, (j < length z)%nat /\ sl <= nth j z 0) ->
  ((exists s, find_shoreline interp1d_linear x z sl = Ok s
      /\ nth 0 x 0 <= s <= nth (length x - 1) x 0)
   <-> ~ (nth 0 z 0 < sl /\ nth (length z - 1) z 0 < sl))
  /\ (nth 0 z 0 < sl /\ nth (length z - 1) z 0 < sl ->
      find_shoreline interp1d_linear x z sl = Err ValueError).
Proof.
  intros H2 Hx Hl Hw Hwet Hdry.
  assert (Hne : x <> []) by (intros ->; simpl in H2; lia).
  set (y := map (fun a => a - sl) z).
  assert (Hyl : length y = length x) by (unfold y; rewrite map_length; assumption).
  assert (Hip : interpolates (linear_fun x y) x y) by (apply linear_fun_interpolates; assumption).
  assert (Hfail : nth 0 z 0 < sl /\ nth (length z - 1) z 0 < sl ->
      find_shoreline interp1d_linear x z sl = Err ValueError).
  { intros [Ha Hb].
    apply (find_shoreline_drowned interp1d_linear (linear_fun x y) x z sl); auto. }
  split; [|exact Hfail]. split.
  - intros [s [E _]] Hb. rewrite (Hfail Hb) in E. discriminate.
  - intros Hn. destruct (Rlt_dec (nth 0 z 0) sl) as [L|L].
    + apply (find_shoreline_drowned interp1d_linear (linear_fun x y) x z sl); auto.
      destruct (Rle_dec sl (nth (length z - 1) z 0)); [assumption|]. exfalso; apply Hn; lra.
    + destruct (find_shoreline_bracket interp1d_linear (linear_fun x y) x z sl) as [s [E [P1 P2]]];
        auto; [lra|].
      exists s. split; [exact E|].
      destruct Hwet as [i0 Hi0].
      (* the first submerged column exists *)
      destruct (index_cases x z sl Hl) as [[_ P]|[[_ [_ P]]|[i [_ [P _]]]]].
      * exfalso; eapply P; eauto.
      * exfalso. assert (Hs : submerged z sl 0) by (apply P; lia). apply submergedR in Hs. lra.
      * destruct (P2 i P) as [Q1 [Q2 _]].
        pose proof P as [[Hil _] _].
        pose proof (increasing_le x 0 (i - 1) Hx ltac:(lia)).
        pose proof (increasing_le x i (length x - 1) Hx ltac:(lia)). lra.
Qed.

Lemma shoreline_drowned_refuted : ~ (
  forall (x z : list R) sea_level,
    (2 <= length x)%nat -> increasing x -> length z = length x ->
    nth (length x - 1) x 0 - nth 0 x 0 <= 1000000000000000000 ->
    (exists i, submerged z sea_level i) ->
    (exists j, (j < length z)%nat /\ sea_level <= nth j z 0) ->
    exists s, find_shoreline interp1d_linear x z sea_level = Ok s).
Proof.
  intros H. destruct (H [0; 1; 2] [-1; 1; -1] 0) as [s E]; simpl; try lia; try lra; try inc.
  - exists 0%nat. apply submergedR. simpl; split; [lia|lra].
  - exists 1%nat. simpl; split; [lia|lra].
  - assert (F : find_shoreline interp1d_linear [0; 1; 2] [-1; 1; -1] 0 = Err ValueError).
    { apply find_shoreline_fails_iff; simpl; try lia; try lra; try inc.
      - exists 0%nat. apply submergedR. simpl; split; [lia|lra].
      - exists 1%nat. simpl; split; [lia|lra]. }
    rewrite F in E.
    discriminate.
Qed.

Definition ex_grid2R : grid R :=
  mkGrid 2 4 1 1
    [("topographic__elevation"%string, [[9;9;9;9]; [1;0;-2;-3]; [5;1;1;-1]; [9;9;9;9]]);
     ("sediment_deposit__thickness"%string, [[0;0;0;0]; [0;0;4;6]; [0;0;0;0]; [0;0;0;0]])]
    [("sea_level__elevation"%string, 0)] [] (el_empty 2 2).

Lemma shaped_dec {A} n m (f : field A) :
  length f = n -> forallb (fun r => Nat.eqb (length r) m) f = true -> shaped n m f.
Proof.
  intros H1 H2; split; [assumption|]. intros r Hr.
  rewrite forallb_forall in H2. apply Nat.eqb_eq, H2, Hr.
Qed.

Lemma ex_C05_nonvacuous : exists (g : grid R) zf dzf,
  g_rows g = 2%nat /\ 0 < g_dx g /\ (2 <= g_cols g)%nat
  /\ node g "topographic__elevation" = Some zf /\ shaped (g_rows g + 2) (g_cols g) zf
  /\ node g "sediment_deposit__thickness" = Some dzf /\ shaped (g_rows g + 2) (g_cols g) dzf
  /\ gval g "sea_level__elevation" = Some 0
  /\ INR (g_cols g) * g_dx g <= 1000000000000000000
  /\ (forall y, length y = g_cols g ->
        exists f, interp1d_linear (x_of_column g) y = Ok f /\ interpolates f (x_of_column g) y)
  /\ (forall r, (1 <= r <= g_rows g)%nat -> 0 <= at2 0 zf r 0).
Proof.
  exists ex_grid2R. eexists. eexists.
  split; [reflexivity|]. split; [simpl; lra|]. split; [simpl; lia|].
  split; [reflexivity|]. split; [apply shaped_dec; reflexivity|].
  split; [reflexivity|]. split; [apply shaped_dec; reflexivity|].
  split; [reflexivity|]. split; [simpl; lra|]. split.
  - intros y Hy. exists (linear_fun (x_of_column ex_grid2R) y). split; [reflexivity|].
    apply linear_fun_interpolates.
    + rewrite x_of_column_length. simpl; lia.
    + apply x_of_column_increasing. simpl; lra.
    + rewrite x_of_column_length. assumption.
  - intros r Hr. simpl in Hr. destruct r as [|[|[|r]]]; try lia; unfold at2; simpl; lra.
Qed.
