(** Configuration files in different formats (C121, C122, C123). *)
From Coq Require Import String Ascii List ZArith Reals Lia Arith Bool.
From Verif.Base Require Import Num Py.
From Verif.Model Require Import Config Cli Commands Reader.
From Verif.Spec Require Import Sections CommandLine Formats.
From Verif.Proofs Require Import ProcessesP ConfigP TimeVaryingP ConfigEx CliP RunP FolderP.
Import ListNotations.
Local Open Scope string_scope.
Local Open Scope list_scope.
Local Open Scope nat_scope.
Local Open Scope list_scope.

(** ** names *)
Lemma split_on_last c r : lacks c r -> forall p, split_on c (p ++ String c r)%string = split_on c p ++ [r].
Proof.
  intros L. induction p as [|a p IH]; cbn [append split_on].
  - rewrite Ascii.eqb_refl, split_on_lacks by exact L. reflexivity.
  - destruct (Ascii.eqb a c); [rewrite IH; reflexivity|]. rewrite IH. destruct (split_on c p) as [|x l] eqn:E; [|reflexivity].
    destruct p; cbn in E; [discriminate|]. destruct (Ascii.eqb a0 c); [discriminate|]. destruct (split_on c p); discriminate.
Qed.
Lemma after_dot_lacks f : lacks "." f -> after_dot f = None.
Proof.
  induction f as [|a f IH]; intros L; [reflexivity|]. apply lacks_cons in L as [N L]. cbn [after_dot]. rewrite (IH L).
  destruct (Ascii.eqb_spec a "."); congruence.
Qed.
Lemma after_dot_app f : lacks "." f -> forall b, after_dot (b ++ String "." f)%string = Some f.
Proof.
  intros L. induction b as [|a b IH]; cbn [append after_dot].
  - rewrite after_dot_lacks by exact L. rewrite Ascii.eqb_refl. reflexivity.
  - rewrite IH. reflexivity.
Qed.
Lemma format_is front base f : base <> "" -> lacks "/" base -> (front = "" \/ exists parent, front = (parent ++ "/")%string) -> f <> "" -> lacks "." f ->
  lacks "/" f -> format_of (front ++ base ++ "." ++ f) = f.
Proof.
  intros Nb Lb Hf Nf Ld Lf. unfold format_of.
  assert (Lr : lacks "/" (base ++ "." ++ f)).
  { apply lacks_app. split; [exact Lb|]. cbn [append]. apply lacks_cons. split; [discriminate|exact Lf]. }
  assert (K : negb (String.eqb (base ++ "." ++ f) "" || String.eqb (base ++ "." ++ f) ".") = true).
  { destruct base as [|a [|b base]]; [congruence| |]; cbn; destruct (Ascii.eqb a "."); reflexivity. }
  assert (B : base_name (front ++ base ++ "." ++ f) = (base ++ "." ++ f)%string).
  { unfold base_name. generalize dependent (base ++ "." ++ f)%string. intros r Lr K. destruct Hf as [->|[parent ->]].
    - change ("" ++ r)%string with r. rewrite split_on_lacks by exact Lr. cbn [filter]. rewrite K. reflexivity.
    - rewrite append_assoc. change ("/" ++ r)%string with (String "/" r).
      rewrite split_on_last by exact Lr. rewrite filter_app. cbn [filter]. rewrite K. apply last_last. }
  rewrite B. destruct base as [|a base]; [congruence|]. cbn [append]. change (base ++ String "." f)%string with (base ++ String "." f)%string.
  rewrite after_dot_app by exact Ld. reflexivity.
Qed.
Lemma format_none path : names_no_format path -> format_of path = "".
Proof.
  intros (front & base & -> & Nb & Lb & Ld & Hf). unfold format_of.
  assert (K : negb (String.eqb base "" || String.eqb base ".") = true).
  { destruct (String.eqb_spec base "") as [->|]; [congruence|]. destruct (String.eqb_spec base ".") as [->|]; [|reflexivity]. destruct Ld. left. reflexivity. }
  assert (B : base_name (front ++ base) = base).
  { unfold base_name. destruct Hf as [->|[parent ->]].
    - change ("" ++ base)%string with base. rewrite split_on_lacks by exact Lb. cbn [filter]. rewrite K. reflexivity.
    - rewrite append_assoc. change ("/" ++ base)%string with (String "/" base).
      rewrite split_on_last by exact Lb. rewrite filter_app. cbn [filter]. rewrite K. apply last_last. }
  rewrite B. destruct base as [|a base]; [congruence|]. apply lacks_cons in Ld as [_ Ld]. rewrite after_dot_lacks by exact Ld. reflexivity.
Qed.
Lemma named_is path fmt f : named_format path fmt f -> match fmt with Some f => f | None => format_of path end = f.
Proof.
  intros [->|(-> & front & base & -> & H1 & H2 & H3 & H4 & H5 & H6)]; [reflexivity|]. apply format_is; assumption.
Qed.

Section Format.
  Context {S A : Type} {NA : Num A} (F : formats S A).

  Lemma layout_flat docs ds : yaml_layout (S := S) docs ds -> flat_map (fun d => match d with PyList l => l | v => [v] end) docs = map PyDict ds.
  Proof.
    induction 1 as [|d docs ds _ IH|some docs ds _ IH]; cbn [flat_map map app]; [reflexivity|rewrite IH; reflexivity|].
    rewrite IH, map_app. reflexivity.
  Qed.
  Lemma loads fmt text ds : holds F fmt text ds -> exists loader, get_loader F fmt = Ok loader /\ loader text = mapM (take_time F) (map PyDict ds).
  Proof.
    intros [(-> & docs & E & L)|(-> & doc & E & L)]; eexists; (split; [reflexivity|]).
    - unfold load_yaml. rewrite E. cbn [bind]. rewrite (layout_flat _ _ L). reflexivity.
    - unfold load_toml. rewrite E. cbn [bind]. destruct L as [doc d G|doc ds G]; rewrite G; reflexivity.
  Qed.

  Theorem path_format files path fmt f text ds : named_format path fmt f -> dget String.eqb files path = Some text -> holds F f text ds ->
    load_config_path F files path fmt = (let* s := mapM (take_time F) (map PyDict ds) in Ok (load_config s))
    /\ from_file_path F files path fmt = (let* s := mapM (take_time F) (map PyDict ds) in from_file s).
  Proof.
    intros N D H. destruct (loads _ _ _ H) as (loader & L & E). unfold load_config_path, from_file_path. rewrite (named_is _ _ _ N), L.
    cbn [bind]. unfold open_text. rewrite D. cbn [bind]. rewrite E. split; reflexivity.
  Qed.
  Theorem same_file files path fmt f text files' path' fmt' f' text' ds :
    named_format path fmt f -> named_format path' fmt' f' -> dget String.eqb files path = Some text -> dget String.eqb files' path' = Some text' ->
    holds F f text ds -> holds F f' text' ds ->
    load_config_path F files path fmt = load_config_path F files' path' fmt' /\ from_file_path F files path fmt = from_file_path F files' path' fmt'.
  Proof.
    intros N N' D D' H H'. destruct (path_format _ _ _ _ _ _ N D H) as [E1 E2], (path_format _ _ _ _ _ _ N' D' H') as [E3 E4].
    rewrite E1, E2, E3, E4. split; reflexivity.
  Qed.
  Theorem same_stream f text f' text' ds : holds F f text ds -> holds F f' text' ds -> load_config_stream F text (Some f) = load_config_stream F text' (Some f').
  Proof.
    intros H H'. destruct (loads _ _ _ H) as (l & L & E), (loads _ _ _ H') as (l' & L' & E'). unfold load_config_stream.
    rewrite L, L'. cbn [bind]. rewrite E, E'. reflexivity.
  Qed.
  Lemma read_holds files name ds : file_holds F files name ds ->
    (let* text := open_text files name in read_sections F name text) = mapM (take_time F) (map PyDict ds).
  Proof.
    intros (f & text & N & D & H). destruct (loads _ _ _ H) as (l & L & E). unfold open_text. rewrite D. cbn [bind]. unfold read_sections.
    rewrite (named_is _ _ _ N), L. cbn [bind]. exact E.
  Qed.
  Theorem same_files files files' names names' times :
    Forall2 (fun n n' => exists ds, file_holds F files n ds /\ file_holds F files' n' ds) names names' ->
    from_files_paths F files names times = from_files_paths F files' names' times.
  Proof.
    intros H. unfold from_files_paths.
    assert (E : mapM (fun name => let* text := open_text files name in read_sections F name text) names
              = mapM (fun name => let* text := open_text files' name in read_sections F name text) names').
    { induction H as [|n n' names names' (ds & H1 & H2) _ IH]; [reflexivity|]. cbn [mapM]. rewrite (read_holds _ _ _ H1), (read_holds _ _ _ H2), IH. reflexivity. }
    rewrite E. reflexivity.
  Qed.

  (** what the sections are *)
  Lemma without_absent (d : dict S) : dget String.eqb d "_time" = None -> without_time d = d.
  Proof.
    induction d as [|[k v] d IH]; cbn [dget without_time filter fst]; [reflexivity|]. rewrite String.eqb_sym. destruct (String.eqb k "_time"); [discriminate|].
    intros E. cbn [negb]. f_equal. apply IH, E.
  Qed.
  Lemma take_dated i d t : dated F i d t -> exists o, take_time F (PyDict d) = Ok (o, without_time d) /\ match o with Some x => x | None => nofnat i end = t.
  Proof.
    unfold dated, take_time. destruct (dget String.eqb d "_time") as [v|] eqn:E; intros H.
    - rewrite H. cbn [bind]. exists (Some t). split; reflexivity.
    - exists None. rewrite (without_absent d E). split; [reflexivity|symmetry; exact H].
  Qed.
  Lemma take_all ds : forall k ts, length ts = length ds -> (forall i d t, nth_error ds i = Some d -> nth_error ts i = Some t -> dated F (k + i) d t) ->
    exists s, mapM (take_time F) (map PyDict ds) = Ok s /\ length s = length ds
      /\ map (fun ts => (match fst (snd ts) with Some t => t | None => nofnat (fst ts) end, snd (snd ts))) (combine (seq k (length s)) s)
         = combine ts (map without_time ds).
  Proof.
    induction ds as [|d ds IH]; intros k [|t ts] L H; try discriminate L; [exists []; repeat split|].
    destruct (take_dated _ _ _ (H 0 d t eq_refl eq_refl)) as (o & E & T).
    destruct (IH (Datatypes.S k) ts) as (s & Es & Ls & C); [cbn in L; congruence| |].
    { intros i d' t' H1 H2. rewrite Nat.add_succ_comm. apply (H (Datatypes.S i) d' t' H1 H2). }
    exists ((o, without_time d) :: s). cbn [map mapM]. rewrite E, Es. cbn [bind]. split; [reflexivity|]. split; [cbn; congruence|].
    cbn [length seq combine map fst snd]. rewrite C. rewrite Nat.add_0_r in T. rewrite T. reflexivity.
  Qed.
  Theorem file_means files path fmt f text ds ts : named_format path fmt f -> dget String.eqb files path = Some text -> holds F f text ds ->
    length ts = length ds -> (forall i d t, nth_error ds i = Some d -> nth_error ts i = Some t -> dated F i d t) ->
    load_config_path F files path fmt = Ok (match ds with [d] => inr (without_time d) | _ => inl (combine ts (map without_time ds)) end)
    /\ (ds <> [] -> from_file_path F files path fmt = config_init ts (map without_time ds))
    /\ (ds = [] -> from_file_path F files path fmt = Err TypeError).
  Proof.
    intros N D H L T. destruct (path_format _ _ _ _ _ _ N D H) as [-> ->]. destruct (take_all ds 0 ts L T) as (s & -> & Ls & C). cbn [bind].
    assert (Q : load_sections s = combine ts (map without_time ds)) by exact C.
    split; [|split].
    - unfold load_config. rewrite Q. destruct ds as [|d [|d' ds]]; destruct ts as [|t [|t' ts]]; try discriminate L; reflexivity.
    - intros Nd. unfold from_file. rewrite Q. destruct s as [|x s]; [destruct ds; [congruence|discriminate Ls]|]. cbv zeta.
      rewrite map_fst_combine, map_snd_combine by (rewrite map_length; exact L). reflexivity.
    - intros ->. destruct s; [reflexivity|discriminate Ls].
  Qed.

  Theorem unknown_format files path fmt text times : (match fmt with Some f => f | None => format_of path end) <> "yaml" ->
    (match fmt with Some f => f | None => format_of path end) <> "toml" ->
    load_config_path F files path fmt = Err ValueError /\ from_file_path F files path fmt = Err ValueError
    /\ (fmt <> None -> load_config_stream F text fmt = Err ValueError)
    /\ (fmt = None -> dget String.eqb files path = Some text -> from_files_paths F files [path] times = Err ValueError).
  Proof.
    intros Ny Nt. assert (G : get_loader F (match fmt with Some f => f | None => format_of path end) = Err ValueError).
    { unfold get_loader. apply String.eqb_neq in Ny, Nt. rewrite Ny, Nt. reflexivity. }
    unfold load_config_path, from_file_path. rewrite G. split; [reflexivity|]. split; [reflexivity|]. split.
    - destruct fmt as [f|]; [|congruence]. intros _. cbn [load_config_stream]. rewrite G. reflexivity.
    - intros -> D. unfold from_files_paths. cbn [mapM]. unfold open_text. rewrite D. cbn [bind]. unfold read_sections. rewrite G. reflexivity.
  Qed.
  Theorem other_format files path fmt f text times : named_format path fmt f \/ (fmt = None /\ names_no_format path /\ f = "") -> f <> "yaml" -> f <> "toml" ->
    load_config_path F files path fmt = Err ValueError /\ from_file_path F files path fmt = Err ValueError
    /\ load_config_stream F text (Some f) = Err ValueError /\ load_config_stream F text None = Err ValueError
    /\ (fmt = None -> dget String.eqb files path = Some text -> from_files_paths F files [path] times = Err ValueError).
  Proof.
    intros H Ny Nt. assert (E : match fmt with Some f => f | None => format_of path end = f).
    { destruct H as [H|(-> & H & ->)]; [exact (named_is _ _ _ H)|exact (format_none _ H)]. }
    destruct (unknown_format files path fmt text times) as (H1 & H2 & _ & H4); [congruence|congruence|].
    destruct (unknown_format files path (Some f) text times Ny Nt) as (_ & _ & H3 & _).
    split; [exact H1|]. split; [exact H2|]. split; [apply H3; discriminate|]. split; [reflexivity|exact H4].
  Qed.

  (* texts that are not configurations *)
  Theorem not_config files path fmt f text e : named_format path fmt f -> dget String.eqb files path = Some text ->
    (f = "yaml" /\ (yaml_load_all F text = Err e \/ exists docs before bad after, yaml_load_all F text = Ok docs
        /\ docs = map PyDict before ++ bad :: after /\ (forall d, In d before -> dget String.eqb d "_time" = None)
        /\ (exists x, (bad = Scalar x \/ bad = PyList [Scalar x]) /\ e = AttributeError)))
    \/ (f = "toml" /\ (toml_parse F text = Err e \/ exists doc, toml_parse F text = Ok doc
        /\ ((dget String.eqb doc "sequence" = None /\ e = KeyError) \/ exists x, dget String.eqb doc "sequence" = Some (Scalar x) /\ e = AttributeError))) ->
    load_config_path F files path fmt = Err e /\ from_file_path F files path fmt = Err e.
  Proof.
    intros N D H. unfold load_config_path, from_file_path. rewrite (named_is _ _ _ N). unfold open_text. rewrite D.
    destruct H as [[-> H]|[-> H]]; cbn [get_loader String.eqb Ascii.eqb Bool.eqb bind].
    - assert (L : load_yaml F text = Err e); [|rewrite L; split; reflexivity]. unfold load_yaml. destruct H as [E|(docs & before & bad & after & E & -> & Hb & x & Hx & ->)]; rewrite E; [reflexivity|].
      cbn [bind]. clear E. induction before as [|d before IH]; cbn [map app flat_map].
      + destruct Hx as [->| ->]; reflexivity.
      + cbn [mapM]. unfold take_time at 1. rewrite (Hb d (or_introl eq_refl)). cbn [bind]. rewrite IH by (intros d' I; apply Hb; right; exact I). reflexivity.
    - assert (L : load_toml F text = Err e); [|rewrite L; split; reflexivity]. unfold load_toml. destruct H as [E|(doc & E & H)]; rewrite E; [reflexivity|]. cbn [bind].
      destruct H as [[G ->]|(x & G & ->)]; rewrite G; reflexivity.
  Qed.
End Format.

(** ** one configuration file in a folder *)
Lemma take_digits_stop x : (match x with "" => True | String a _ => is_digit a = false end) -> forall m acc, take_digits acc (m ++ x)%string = take_digits acc m.
Proof.
  intros H. induction m as [|a m IH]; intros acc; cbn [append take_digits].
  - destruct x as [|a x]; [reflexivity|]. cbn [take_digits]. rewrite H. reflexivity.
  - destruct (is_digit a); [apply IH|reflexivity].
Qed.
Lemma time_stop x : (match x with "" => True | String a _ => is_digit a = false end) -> time_from_filename x = None ->
  forall m, time_from_filename (m ++ x)%string = time_from_filename m.
Proof.
  intros H N. induction m as [|a m IH]; [exact N|]. cbn [append time_from_filename]. destruct (is_digit a).
  - f_equal. exact (take_digits_stop x H (String a m) 0).
  - exact IH.
Qed.
Lemma after_prefix_app p s : after_prefix p (p ++ s)%string = Some s.
Proof. induction p as [|a p IH]; cbn; [reflexivity|]. rewrite Ascii.eqb_refl. exact IH. Qed.
Lemma ends_with_app m x : ends_with x (m ++ x)%string = true.
Proof.
  induction m as [|a m IH]; cbn [append]; [destruct x; cbn [ends_with]; rewrite String.eqb_refl; reflexivity|].
  cbn [ends_with]. rewrite IH. apply orb_true_r.
Qed.
Lemma glob_ok m x : in_glob x ("sequence" ++ m ++ x)%string = true.
Proof. unfold in_glob. rewrite after_prefix_app. apply ends_with_app. Qed.

Section OneFile.
  Context {S A : Type} {NA : Num A} (read : string -> string -> result (list (option A * dict S))).
  Definition own_time (f : string) : nat := match time_from_filename f with Some t => t | None => 0 end.
  Lemma found_one f l : find_config_files [f] l = ([own_time f], [f]).
  Proof. reflexivity. Qed.
  Lemma found_yaml f : find_config_files [] [f] = ([own_time f], [f]).
  Proof. reflexivity. Qed.
  Lemma filter_nothing (g : string -> bool) l : (forall x, In x l -> g x = false) -> filter g l = [].
  Proof. induction l as [|a l IH]; intros H; [reflexivity|]. cbn. rewrite (H a (or_introl eq_refl)). apply IH. intros x I. apply H. right. exact I. Qed.

  Lemma ends_two s : ends_with ".toml" s = true -> ends_with ".yaml" s = true -> False.
  Proof.
    intros H1 H2. destruct (ends_with_spec _ _ H1) as [m1 ->]. destruct (ends_with_spec _ _ H2) as [m2 E].
    assert (R : forall a b : string, String.length a = 5 -> String.length b = 5 -> forall m n, (m ++ a = n ++ b)%string -> a = b).
    { clear. intros a b La Lb. induction m as [|x m IH]; intros [|y n] E; cbn [append] in E.
      - exact E.
      - exfalso. apply (f_equal String.length) in E. cbn in E. assert (X : forall u v, String.length (u ++ v)%string = String.length u + String.length v) by (induction u; cbn; auto). rewrite X, La, Lb in E. lia.
      - exfalso. apply (f_equal String.length) in E. cbn in E. assert (X : forall u v, String.length (u ++ v)%string = String.length u + String.length v) by (induction u; cbn; auto). rewrite X, La, Lb in E. lia.
      - apply (IH n). congruence. }
    discriminate (R ".toml" ".yaml" eq_refl eq_refl _ _ E).
  Qed.
  Lemma run_one (w : @world S) f t x : x = ".toml" \/ x = ".yaml" -> in_glob x f = true -> only_config w f t ->
    run_read read w = (let* s := read f t in run_config [own_time f] [s]).
  Proof.
    intros Hx G (N & Ft & U). unfold run_read.
    assert (I : In f (dkeys (w_files w))) by (apply file_keys; rewrite Ft; discriminate).
    assert (V : forall y f', (y = ".toml" \/ y = ".yaml") -> In f' (dkeys (w_files w)) -> in_glob y f' = true -> f' = f).
    { intros y f' Hy If Gf. apply U; [apply file_keys, If|]. destruct (in_glob_spec _ _ Gf) as [m ->]. exists m. destruct Hy as [->| ->]; auto. }
    assert (E : find_config_files (filter (in_glob ".toml") (dkeys (w_files w))) (filter (in_glob ".yaml") (dkeys (w_files w))) = ([own_time f], [f])).
    { destruct Hx as [->| ->].
      - rewrite (filter_single (in_glob ".toml") _ f N I G); [apply found_one|]. intros y Iy. apply V; auto.
      - rewrite (filter_single (in_glob ".yaml") _ f N I G); [|intros y Iy; apply V; auto]. rewrite filter_nothing; [apply found_yaml|].
        intros y Iy. destruct (in_glob ".toml" y) eqn:Gy; [|reflexivity]. exfalso. assert (y = f) by (apply (V ".toml"); auto). subst y.
        unfold in_glob in G, Gy. destruct (after_prefix "sequence" f) as [rest|]; [|discriminate]. exact (ends_two rest Gy G). }
    rewrite E. cbn [mapM]. unfold file in Ft. rewrite Ft. destruct (read f t); reflexivity.
  Qed.
End OneFile.

Section Run.
  Context {S A : Type} {NA : Num A} (F : formats S A).
  Lemma config_format m x : lacks "/" m -> x = "toml" \/ x = "yaml" -> format_of ("sequence" ++ m ++ "." ++ x) = x.
  Proof.
    intros L Hx. rewrite <- append_assoc. change (("sequence" ++ m) ++ "." ++ x)%string with ("" ++ ("sequence" ++ m) ++ "." ++ x)%string.
    apply format_is; [discriminate| |left; reflexivity|destruct Hx as [->| ->]; discriminate| |].
    - apply lacks_app. split; [|exact L]. intros H. cbn in H. repeat (destruct H as [H|H]; [discriminate|]). destruct H.
    - destruct Hx as [->| ->]; intros H; cbn in H; repeat (destruct H as [H|H]; [discriminate|]); destruct H.
    - destruct Hx as [->| ->]; intros H; cbn in H; repeat (destruct H as [H|H]; [discriminate|]); destruct H.
  Qed.
  Theorem same_run (w w' : @world S) m t t' ds : lacks "/" m -> only_config w ("sequence" ++ m ++ ".yaml") t -> only_config w' ("sequence" ++ m ++ ".toml") t' ->
    holds F "yaml" t ds -> holds F "toml" t' ds -> run_read (read_sections F) w = run_read (read_sections F) w'.
  Proof.
    intros L O O' H H'. rewrite (run_one (read_sections F) w _ t ".yaml" (or_intror eq_refl) (glob_ok m ".yaml") O).
    rewrite (run_one (read_sections F) w' _ t' ".toml" (or_introl eq_refl) (glob_ok m ".toml") O').
    destruct (loads F _ _ _ H) as (l & G & E), (loads F _ _ _ H') as (l' & G' & E'). unfold read_sections.
    change ("sequence" ++ m ++ ".yaml")%string with ("sequence" ++ m ++ "." ++ "yaml")%string. change ("sequence" ++ m ++ ".toml")%string with ("sequence" ++ m ++ "." ++ "toml")%string.
    rewrite !config_format by auto. rewrite G, G'. cbn [bind]. rewrite E, E'.
    assert (T : own_time ("sequence" ++ m ++ "." ++ "yaml") = own_time ("sequence" ++ m ++ "." ++ "toml")).
    { unfold own_time. rewrite <- !(append_assoc "sequence" m).
      rewrite (time_stop ("." ++ "yaml") eq_refl eq_refl ("sequence" ++ m)), (time_stop ("." ++ "toml") eq_refl eq_refl ("sequence" ++ m)). reflexivity. }
    rewrite T. reflexivity.
  Qed.
End Run.

(** ** generate *)
Section Generate.
  Context {S A : Type} {NA : Num A} (F : formats S A) (parse : string -> result (pyval S)).

  (* what input_text needs, and what it then gives *)
  Lemma text_parts f params t : input_text F f params = Ok t ->
    exists y u sections, yaml_dump F (PyDict params) = Ok y
      /\ toml_dumps F [("sequence", PyDict (dupdate String.eqb [("_time", Scalar (zero_value F)); ("processes", processes_value F)] params))] = Ok u
      /\ mapM (fun gd => let* text := yaml_dump F (snd gd) in Ok ("sequence." ++ fst gd, text)%string) params = Ok sections
      /\ dget String.eqb (dupdate String.eqb [("sequence.yaml", y); ("sequence.toml", u); ("bathymetry.csv", Csv.example_bathymetry);
                     ("sealevel.csv", Csv.example_sealevel); ("subsidence.csv", Csv.example_subsidence)] sections) f = Some t.
  Proof.
    unfold input_text. destruct (yaml_dump F (PyDict params)) as [y|]; cbn [bind]; [|discriminate].
    destruct (toml_dumps F _) as [u|]; cbn [bind]; [|discriminate]. destruct (mapM _ params) as [s|]; cbn [bind]; [|discriminate].
    destruct (dget String.eqb _ f) as [x|] eqn:D; [|discriminate]. intros H. exists y, u, s. repeat split. congruence.
  Qed.
  Lemma section_keys params sections : mapM (fun gd => let* text := yaml_dump F (snd gd) in Ok ("sequence." ++ fst gd, text)%string) params = Ok sections ->
    map fst sections = map (fun gd => ("sequence." ++ fst gd)%string) params.
  Proof.
    revert sections. induction params as [|[g d] params IH]; intros sections E; [inversion E; reflexivity|]. cbn [mapM fst snd] in E.
    destruct (yaml_dump F d) as [x|]; cbn [bind] in E; [|discriminate]. destruct (mapM _ params) as [m|]; cbn [bind] in E; [|discriminate].
    assert (sections = ("sequence." ++ g, x)%string :: m) by congruence. subst. cbn [map fst]. f_equal. apply IH. reflexivity.
  Qed.
  Lemma dget_not_updated {V} (e : list (string * V)) k : ~ In k (map fst e) -> forall d, dget String.eqb (dupdate String.eqb d e) k = dget String.eqb d k.
  Proof.
    induction e as [|[k0 v] e IH]; intros N d; [reflexivity|]. unfold dupdate. cbn [fold_left fst snd]. change (fold_left _ e ?x) with (dupdate String.eqb x e).
    rewrite IH by (intros I; apply N; right; exact I). rewrite (dget_dset _ seqb_spec). destruct (String.eqb_spec k k0) as [->|]; [|reflexivity].
    destruct N. left. reflexivity.
  Qed.
  Lemma dget_kept {V} (e : list (string * V)) k : forall d, dget String.eqb d k <> None -> dget String.eqb (dupdate String.eqb d e) k <> None.
  Proof.
    induction e as [|[k0 v] e IH]; intros d N; [exact N|]. unfold dupdate. cbn [fold_left fst snd]. change (fold_left _ e ?x) with (dupdate String.eqb x e).
    apply IH. rewrite (dget_dset _ seqb_spec). destruct (String.eqb k k0); [discriminate|exact N].
  Qed.
  Definition known : list string := ["sequence.yaml"; "sequence.toml"; "bathymetry.csv"; "sealevel.csv"; "subsidence.csv"].
  Lemma text_all f f' params : In f' known -> match input_text F f params with
    | Ok _ => exists t', input_text F f' params = Ok t'
    | Err e => In f known -> input_text F f' params = Err e
    end.
  Proof.
    intros I'. unfold input_text. destruct (yaml_dump F (PyDict params)) as [y|]; cbn [bind]; [|reflexivity].
    destruct (toml_dumps F _) as [u|]; cbn [bind]; [|reflexivity]. destruct (mapM _ params) as [s|]; cbn [bind]; [|reflexivity].
    set (c := [_; _; _; _; _]). assert (K : forall k, In k known -> dget String.eqb (dupdate String.eqb c s) k <> None).
    { intros k Ik. apply dget_kept. unfold c, known in *. cbn [dget In] in *. repeat (destruct Ik as [<-|Ik]; [cbn; discriminate|]). destruct Ik. }
    pose proof (K _ I') as K'. destruct (dget String.eqb (dupdate String.eqb c s) f') as [t'|]; [|congruence].
    destruct (dget String.eqb (dupdate String.eqb c s) f) as [t|] eqn:D; [exists t'; reflexivity|]. intros If. destruct (K _ If D).
  Qed.

  Theorem generate_setup os (w : @world S) f : Forall (valid_option parse) os -> Forall (fun gd => exists sub, snd gd = PyDict sub) (w_defaults w) ->
    (forall f', In f' setup_files -> file w f' = None) -> In f setup_files ->
    match generate F parse f (map written os) w with
    | (_, Ok text) => exists w', setup parse (input_text F) (map written os) w = (w', Ok tt) /\ file w' f = Some text
    | (_, Err e) => exists w', setup parse (input_text F) (map written os) w = (w', Err e)
    end.
  Proof.
    intros Fo D N I. destruct (options_never_fail parse (w_defaults w) os Fo D) as [params L].
    assert (Ik : forall f', In f' setup_files -> In f' known) by (intros f' H; unfold setup_files, known in *; cbn in *; tauto).
    unfold generate, contents_of_input_file. rewrite L. pose proof (text_all f) as T.
    destruct (input_text F f params) as [t|e] eqn:Et.
    - destruct (setup_fresh parse (input_text F) (map written os) w params N L (load_model_params_idem _ _ _ _ Fo L)) as [w' [E [_ H]]].
      { intros f' I'. specialize (T f' params (Ik _ I')). rewrite Et in T. exact T. }
      exists w'. split; [exact E|]. specialize (H f). destruct (In_dec string_dec f setup_files) as [_|X]; [|contradiction].
      destruct H as (t' & E1 & E2). rewrite E2. congruence.
    - unfold setup. assert (X : existsb (fun f => din String.eqb (w_files w) f) setup_files = false).
      { apply Bool.not_true_iff_false. intros H. apply existsb_exists in H. destruct H as [f' [I' D']]. apply N in I'. unfold din in D'. unfold file in I'.
        rewrite I' in D'. discriminate D'. }
      rewrite X. unfold setup_files. cbn [write_files]. unfold contents_of_input_file. cbn [set_file w_defaults w_files]. rewrite L.
      specialize (T "bathymetry.csv" params). rewrite Et in T. rewrite T; [eexists; reflexivity|right; right; left; reflexivity|exact (Ik _ I)].
  Qed.

  Lemma generated f os w w' text : generate F parse f os w = (w', Ok text) ->
    exists params t, load_model_params parse (w_defaults w) os = Ok params /\ input_text F f params = Ok t /\ text = (t ++ newline)%string.
  Proof.
    unfold generate, contents_of_input_file. destruct (load_model_params parse (w_defaults w) os) as [params|]; [|intros H; discriminate].
    destruct (input_text F f params) as [t|] eqn:E; intros H; [|discriminate]. exists params, t. repeat split; congruence.
  Qed.
  Lemma text_yaml params t : ~ In "yaml" (dkeys params) -> input_text F "sequence.yaml" params = Ok t -> yaml_dump F (PyDict params) = Ok t.
  Proof.
    intros N E. destruct (text_parts _ _ _ E) as (y & u & s & E1 & _ & E3 & E4). rewrite dget_not_updated in E4.
    - cbn in E4. congruence.
    - rewrite (section_keys _ _ E3). intros I. apply in_map_iff in I as ([g d] & G & I). cbn [fst] in G. apply N. apply in_map_iff. exists (g, d).
      split; [|exact I]. cbn [append] in G. cbn. congruence.
  Qed.
  Lemma text_toml params t : ~ In "toml" (dkeys params) -> input_text F "sequence.toml" params = Ok t ->
    toml_dumps F [("sequence", PyDict (dupdate String.eqb [("_time", Scalar (zero_value F)); ("processes", processes_value F)] params))] = Ok t.
  Proof.
    intros N E. destruct (text_parts _ _ _ E) as (y & u & s & E1 & E2 & E3 & E4). rewrite dget_not_updated in E4.
    - cbn in E4. congruence.
    - rewrite (section_keys _ _ E3). intros I. apply in_map_iff in I as ([g d] & G & I). cbn [fst] in G. apply N. apply in_map_iff. exists (g, d).
      split; [|exact I]. cbn [append] in G. cbn. congruence.
  Qed.

  Lemma read_yaml t : read_sections F "sequence.yaml" t = load_yaml F t.
  Proof. reflexivity. Qed.
  Lemma read_toml t : read_sections F "sequence.toml" t = load_toml F t.
  Proof. reflexivity. Qed.

  Lemma existsb_dget {V} (f : string * V -> bool) d k v : dget String.eqb d k = Some v -> f (k, v) = true -> existsb f d = true.
  Proof. intros D H. apply existsb_exists. exists (k, v). split; [exact (dget_in _ seqb_spec _ _ _ D)|exact H]. Qed.

  (* the tuples of the defaults stay in the generated YAML file *)
  Theorem generated_yaml_refused num yes os w w' text e w2 : w_defaults w = default_params F num yes -> Forall (valid_option parse) os ->
    (forall d, has_tuple (PyDict d) = true -> yaml_refuses F e d) ->
    generate F parse "sequence.yaml" (map written os) w = (w', Ok text) -> only_config w2 "sequence.yaml" text ->
    run_read (read_sections F) w2 = Err e.
  Proof.
    intros Dw Fo Hy G O. destruct (generated _ _ _ _ _ G) as (params & t & L & E & ->).
    assert (D : Forall (fun gd => exists sub, snd gd = PyDict sub) (w_defaults w)).
    { rewrite Dw. unfold default_params. cbv zeta. repeat (constructor; [eexists; reflexivity|]). constructor. }
    destruct (load_model_params_spec parse _ os Fo D) as (params' & L' & H). assert (params' = params) by congruence. subst params'. clear L'.
    assert (Nk : ~ In "yaml" (dkeys params)).
    { intros I. specialize (H "yaml"). rewrite Dw in H. cbn in H. apply (dget_none_iff _ seqb_spec) in H. contradiction. }
    apply (text_yaml _ _ Nk) in E.
    assert (T : has_tuple (PyDict params) = true).
    { specialize (H "grid"). rewrite Dw in H. cbn [default_params dget] in H. rewrite String.eqb_refl in H.
      cbn [has_tuple]. eapply existsb_dget; [exact H|]. cbn [snd has_tuple]. destruct (find (matches "grid") (rev os)) as [o|] eqn:Ef; [|reflexivity].
      apply find_some in Ef. destruct Ef as [I _]. apply in_rev in I. rewrite Forall_forall in Fo. destruct (Fo o I) as [Lo _].
      destruct (op_names o) as [|g [|k names]]; [cbn in Lo; lia|cbn in Lo; lia|]. cbn [tl]. destruct (nest_single k names (op_value o)) as [x ->].
      change (dupdate String.eqb ?d [(k, x)]) with (dset String.eqb d k x).
      destruct (String.eqb_spec "shape" k) as [<-|N1].
      - eapply (existsb_dget _ _ "spacing"); [rewrite (dget_dset _ seqb_spec); cbn; reflexivity|reflexivity].
      - eapply (existsb_dget _ _ "shape"); [rewrite (dget_dset _ seqb_spec); destruct (String.eqb_spec "shape" k); [contradiction|]; cbn; reflexivity|reflexivity]. }
    rewrite (run_one (read_sections F) w2 "sequence.yaml" _ ".yaml" (or_intror eq_refl) eq_refl O), read_yaml. unfold load_yaml. rewrite (Hy _ T _ E). reflexivity.
  Qed.

  Lemma load_keys os defaults params : load_model_params parse defaults os = Ok params -> dkeys params = dkeys defaults.
  Proof.
    unfold load_model_params. destruct (load_params_from_strings parse os) as [cl|]; cbn [bind]; [|discriminate]. revert params.
    induction defaults as [|[g d] l IH]; intros params E; [inversion E; reflexivity|]. cbn [mapM fst snd] in E.
    destruct (update_with d _) as [x|]; cbn [bind] in E; [|discriminate]. destruct (mapM _ l) as [m|] eqn:Em; cbn [bind] in E; [|discriminate].
    assert (params = (g, x) :: m) by congruence. subst. cbn [dkeys map fst]. f_equal. apply IH. reflexivity.
  Qed.
End Generate.

(** ** the two generated configurations *)
Section Alike.
  Context {S : Type}.
  Implicit Types d e : dict S.

  Lemma leaf_without d k rest : k <> "_time" -> leaf_at (without_time d) (k :: rest) = leaf_at d (k :: rest).
  Proof.
    intros N. rewrite !leaf_get. assert (E : dget String.eqb (without_time d) k = dget String.eqb d k); [|rewrite E; reflexivity].
    induction d as [|[k0 v] d IH]; [reflexivity|]. cbn [without_time filter fst dget]. destruct (String.eqb_spec k0 "_time") as [->|].
    - cbn [negb]. destruct (String.eqb_spec k "_time"); [contradiction|]. exact IH.
    - cbn [negb dget]. destruct (String.eqb k k0); [reflexivity|exact IH].
  Qed.
  Lemma dget_without d : dget String.eqb (without_time d) "_time" = None.
  Proof.
    induction d as [|[k0 v] d IH]; [reflexivity|]. cbn [without_time filter fst]. destruct (String.eqb_spec k0 "_time") as [->|N]; cbn [negb]; [exact IH|].
    cbn [dget]. destruct (String.eqb_spec "_time" k0); [congruence|exact IH].
  Qed.
  Lemma proper_without d : proper (PyDict d) -> proper (PyDict (without_time d)).
  Proof.
    rewrite !proper_dict. intros [N P]. unfold without_time. split.
    - clear P. induction d as [|[k v] d IH]; [constructor|]. cbn [dkeys map fst] in N. inversion N as [|? ? N1 N2]; subst. cbn [filter fst].
      destruct (String.eqb k "_time"); cbn [negb]; [exact (IH N2)|]. cbn [dkeys map fst]. constructor; [|exact (IH N2)].
      intros I. apply N1. apply in_map_iff in I as (x & E & I). apply filter_In in I as [I _]. apply in_map_iff. exists x. auto.
    - apply Forall_forall. intros x I. apply filter_In in I as [I _]. rewrite Forall_forall in P. auto.
  Qed.
  Lemma proper_sub d k sub : proper (PyDict d) -> dget String.eqb d k = Some (PyDict sub) -> proper (PyDict sub).
  Proof. intros P E. rewrite proper_dict in P. destruct P as [_ P]. rewrite Forall_forall in P. exact (P _ (dget_in _ seqb_spec _ _ _ E)). Qed.
  Lemma says_scalar d k s : says d [k] = Some (Scalar s) -> dget String.eqb d k = Some (Scalar s).
  Proof.
    unfold says. cbn [leaf_at]. destruct (dget String.eqb d k) as [[x|l|l|sub]|]; cbn; try discriminate; congruence.
  Qed.
End Alike.

Section Same.
  Context {S : Type} (F : formats S R) (parse : string -> result (pyval S)).

  (* the configuration of a run on the generated file, in YAML *)
  Theorem generated_yaml os (w w' : @world S) text params w2 :
    load_model_params parse (w_defaults w) os = Ok params -> ~ In "yaml" (dkeys (w_defaults w)) -> ~ In "_time" (dkeys (w_defaults w)) ->
    yaml_keeps F params -> generate F parse "sequence.yaml" os w = (w', Ok text) -> only_config w2 "sequence.yaml" text ->
    exists c e, run_read (read_sections F) w2 = Ok c /\ as_dict c = Ok e /\ (forall path, leaf_at e path = says params path)
      /\ (~ In "processes" (dkeys (w_defaults w)) -> run_processes F e = processes_value F).
  Proof.
    intros L Ny Nt K G O. destruct (generated _ _ _ _ _ _ _ G) as (params' & t & L' & E & ->). assert (params' = params) by congruence. subst params'.
    pose proof (load_keys _ _ _ _ L) as Kp. apply text_yaml in E; [|rewrite Kp; exact Ny]. destruct (K _ E) as (d & Ed & P & Sd & Kd).
    rewrite (run_one (read_sections F) w2 "sequence.yaml" _ ".yaml" (or_intror eq_refl) eq_refl O), read_yaml. unfold load_yaml. rewrite Ed. cbn [bind flat_map app mapM].
    assert (T : dget String.eqb d "_time" = None) by (apply (dget_none_iff _ seqb_spec); change (~ In "_time" (dkeys d)); rewrite Kd, Kp; exact Nt).
    unfold take_time. rewrite T. cbn [bind]. unfold run_config, from_files. cbn [flat_map app map load_sections length seq combine fst snd].
    change (own_time "sequence.yaml") with 0. eexists _, (pruned d). split; [reflexivity|].
    split; [apply (as_dict_init [nofnat 0] d [] _ P); reflexivity|]. split; [intros path; rewrite leaf_pruned by exact P; apply Sd|].
    intros Np. unfold run_processes. rewrite dget_pruned by (apply proper_dict in P; apply P).
    assert (Q : dget String.eqb d "processes" = None) by (apply (dget_none_iff _ seqb_spec); change (~ In "processes" (dkeys d)); rewrite Kd, Kp; exact Np).
    rewrite Q. reflexivity.
  Qed.

  Lemma dset_fresh {V} (d : list (string * V)) k v : ~ In k (dkeys d) -> dset String.eqb d k v = d ++ [(k, v)].
  Proof.
    induction d as [|[k0 v0] d IH]; intros N; [reflexivity|]. cbn [dset app]. destruct (String.eqb_spec k k0) as [->|].
    - destruct N. left. reflexivity.
    - f_equal. apply IH. intros I. apply N. right. exact I.
  Qed.
  Lemma update_fresh {V} (e : list (string * V)) : forall d, NoDup (dkeys e) -> (forall k, In k (dkeys d) -> ~ In k (dkeys e)) ->
    dupdate String.eqb d e = d ++ e.
  Proof.
    induction e as [|[k v] e IH]; intros d N H; [rewrite app_nil_r; reflexivity|]. unfold dupdate. cbn [fold_left fst snd].
    change (fold_left _ e ?x) with (dupdate String.eqb x e). cbn [dkeys map fst] in N. inversion N as [|? ? N1 N2]; subst.
    rewrite dset_fresh by (intros I; apply (H k I); left; reflexivity). rewrite IH; [rewrite <- app_assoc; reflexivity|exact N2|].
    intros k1 I. unfold dkeys in I. rewrite map_app in I. apply in_app_iff in I as [I|[<-|[]]]; [|exact N1].
    intros J. apply (H k1 I). right. exact J.
  Qed.

  (* and in TOML *)
  Theorem generated_toml os (w w' : @world S) text params w2 t0 :
    load_model_params parse (w_defaults w) os = Ok params -> NoDup (dkeys (w_defaults w)) -> ~ In "toml" (dkeys (w_defaults w)) -> ~ In "_time" (dkeys (w_defaults w)) ->
    ~ In "processes" (dkeys (w_defaults w)) -> time_value F (Scalar (zero_value F)) = Ok t0 ->
    toml_keeps F (sequence_table F params) -> generate F parse "sequence.toml" os w = (w', Ok text) -> only_config w2 "sequence.toml" text ->
    exists c e, run_read (read_sections F) w2 = Ok c /\ as_dict c = Ok e
      /\ (forall path, hd "" path <> "processes" -> leaf_at e path = says params path)
      /\ run_processes F e = as_list (processes_value F).
  Proof.
    intros L N Ny Nt Np T0 K G O. destruct (generated _ _ _ _ _ _ _ G) as (params' & t & L' & E & ->). assert (params' = params) by congruence. subst params'.
    pose proof (load_keys _ _ _ _ L) as Kp. apply text_toml in E; [|rewrite Kp; exact Ny].
    rewrite update_fresh in E; [|rewrite Kp; exact N|rewrite Kp; cbn; intros k [<-|[<-|[]]]; assumption]. change (toml_dumps F (sequence_table F params) = Ok t) in E.
    destruct (K _ E) as (doc & Ed & P & Sd & _).
    set (base := [("_time", Scalar (zero_value F)); ("processes", processes_value F)] ++ params). change (sequence_table F params) with [("sequence", PyDict base)] in Sd.
    assert (Ln : forall k, ~ In k (dkeys (w_defaults w)) -> dget String.eqb params k = None) by (intros k Hk; apply (dget_none_iff _ seqb_spec); change (~ In k (dkeys params)); rewrite Kp; exact Hk).
    assert (B : forall k, dget String.eqb base k = match dget String.eqb params k with
      | Some v => Some v | None => dget String.eqb [("_time", Scalar (zero_value F)); ("processes", processes_value F)] k end).
    { intros k. unfold base. cbn [app dget]. destruct (String.eqb_spec k "_time") as [->|]; [rewrite (Ln _ Nt); reflexivity|].
      destruct (String.eqb_spec k "processes") as [->|]; [rewrite (Ln _ Np); reflexivity|]. destruct (dget String.eqb params k); reflexivity. }
    assert (D : exists d, dget String.eqb doc "sequence" = Some (PyDict d)).
    { specialize (Sd ["sequence"; "_time"]). unfold says in Sd. cbn [leaf_at dget] in Sd. change (String.eqb "sequence" "sequence") with true in Sd. cbv iota in Sd.
      rewrite B, (Ln _ Nt) in Sd. cbn in Sd. destruct (dget String.eqb doc "sequence") as [[x|l|l|d]|]; try discriminate Sd. exists d. reflexivity. }
    destruct D as [d D]. pose proof (proper_sub _ _ _ P D) as Pd.
    assert (Sb : forall path, says d path = says base path).
    { intros path. specialize (Sd ("sequence" :: path)). unfold says in *. cbn [leaf_at dget] in Sd. rewrite D in Sd. change (String.eqb "sequence" "sequence") with true in Sd. exact Sd. }
    assert (T : dget String.eqb d "_time" = Some (Scalar (zero_value F))).
    { apply says_scalar. rewrite Sb. unfold says. cbn [leaf_at]. rewrite B, (Ln _ Nt). reflexivity. }
    rewrite (run_one (read_sections F) w2 "sequence.toml" _ ".toml" (or_introl eq_refl) eq_refl O), read_toml. unfold load_toml. rewrite Ed. cbn [bind]. rewrite D. cbn [mapM].
    unfold take_time. rewrite T, T0. cbn [bind]. fold (without_time d). unfold run_config, from_files. cbn [flat_map app map load_sections length seq combine fst snd].
    change (own_time "sequence.toml") with 0. pose proof (proper_without _ Pd) as Pw. eexists _, (pruned (without_time d)). split; [reflexivity|].
    split; [apply (as_dict_init [nofnat 0] (without_time d) [] _ Pw); reflexivity|]. split.
    - intros [|k rest] Hp; [reflexivity|]. cbn [hd] in Hp. rewrite leaf_pruned by exact Pw. destruct (String.eqb_spec k "_time") as [->|Nk].
      + unfold says. cbn [leaf_at]. rewrite dget_without, (Ln _ Nt). reflexivity.
      + unfold says at 1. rewrite leaf_without by exact Nk. change (option_map as_list (leaf_at d (k :: rest))) with (says d (k :: rest)). rewrite Sb.
        unfold says. cbn [leaf_at]. rewrite B. cbn [dget]. destruct (dget String.eqb params k); [reflexivity|].
        apply String.eqb_neq in Nk, Hp. rewrite Nk, Hp. reflexivity.
    - unfold run_processes. assert (Q : leaf_at (pruned (without_time d)) ["processes"] = Some (as_list (processes_value F))).
      { rewrite leaf_pruned by exact Pw. unfold says at 1. rewrite leaf_without by discriminate. change (option_map as_list (leaf_at d ["processes"])) with (says d ["processes"]).
        rewrite Sb. unfold says. cbn [leaf_at]. rewrite B, (Ln _ Np). reflexivity. }
      cbn [leaf_at] in Q. destruct (dget String.eqb (pruned (without_time d)) "processes") as [[x|l|l|sub]|]; try discriminate Q; congruence.
  Qed.
End Same.

(** ** from_toml *)
Section FromToml.
  Context {S A G : Type} {NA : Num A} (F : formats S A) (from_dict : pyval S -> result G).
  Theorem toml_grid text doc d params : toml_parse F text = Ok doc -> dget String.eqb doc "sequence" = Some (PyDict d) ->
    dget String.eqb d "grid" = Some params -> grid_from_toml F from_dict text = from_dict params.
  Proof. intros H1 H2 H3. unfold grid_from_toml. rewrite H1. cbn [bind]. rewrite H2, H3. reflexivity. Qed.
  Theorem toml_grid_array text doc ds : toml_parse F text = Ok doc -> dget String.eqb doc "sequence" = Some (PyList ds) ->
    grid_from_toml F from_dict text = Err TypeError.
  Proof. intros H1 H2. unfold grid_from_toml. rewrite H1. cbn [bind]. rewrite H2. reflexivity. Qed.
End FromToml.

(** ** the files that are generated from the defaults of the model *)
Section Defaults.
  Context {S : Type} (F : formats S R) (parse : string -> result (pyval S)).
  Lemma default_keys num yes : dkeys (default_params F num yes)
    = ["grid"; "clock"; "output"; "submarine_diffusion"; "sea_level"; "subsidence"; "flexure"; "sediments"; "bathymetry"; "compaction"].
  Proof. reflexivity. Qed.
  Ltac absent := rewrite default_keys; cbn [In]; intros H; repeat (destruct H as [H|H]; [discriminate H|]); exact H.
  Theorem default_toml num yes os (w w' : @world S) text params w2 t0 : w_defaults w = default_params F num yes ->
    load_model_params parse (w_defaults w) os = Ok params -> time_value F (Scalar (zero_value F)) = Ok t0 -> toml_keeps F (sequence_table F params) ->
    generate F parse "sequence.toml" os w = (w', Ok text) -> only_config w2 "sequence.toml" text ->
    exists c e, run_read (read_sections F) w2 = Ok c /\ as_dict c = Ok e
      /\ (forall path, hd "" path <> "processes" -> leaf_at e path = says params path)
      /\ run_processes F e = as_list (processes_value F).
  Proof.
    intros D L T K G O. apply (generated_toml F parse os w w' text params w2 t0 L); try assumption; rewrite D; try absent.
    rewrite default_keys. repeat constructor; cbn [In]; intros H; repeat (destruct H as [H|H]; [discriminate H|]); exact H.
  Qed.
End Defaults.
