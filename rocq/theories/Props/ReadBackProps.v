(** C119: the parameters of a process read back as they were given.  [reads],
    [read_only], [latest], [assignments], [attribute] and [went] are in
    Spec/ReadBack.v; [says], the value of a keyword or its default, in
    Spec/Defaults.v; [handed] in Spec/Accepts.v. *)
From Coq Require Import String List ZArith QArith Reals.
From Verif.Base Require Import Num Py Arr.
From Verif.Model Require Import Layers Grid Csv Interp Fluvial SequenceModel Setattr Getattr Processes Whole.
From Verif.Spec Require Import Setting Configured Session Parameters Defaults Accepts ReadBack.
From Verif.Proofs Require Import WholeEx ReadBackP ReadBackEx.
Import ListNotations.
Local Open Scope string_scope.
Local Open Scope list_scope.

(** A process reads what its class was called with, or the default, and later
    what was assigned last, whatever steps it took. *)
Theorem C119_process {A} {num : Num A} {tr : Trans A} i1 df fx gv c (s : section (pvalue A)) (g0 g1 : grid A) o0 h o g k a :
  construct i1 c s g0 = Ok (o0, g1) -> foldM (happen i1 df fx gv) h (o0, g1) = Ok (o, g) -> In (k, a) (reads c) ->
  get_attribute a o = latest (assignments a h) (as_float (says c s k)).
Proof. exact (process_reads i1 df fx gv c s g0 g1 o0 h o g k a). Qed.
Print Assumptions C119_process.
(** Attributes without a setter cannot be assigned. *)
Theorem C119_read_only {A} {num : Num A} {tr : Trans A} (o : process A) (g : grid A) a v :
  In a (read_only (class_of o)) -> set_attribute a v (o, g) = Err AttributeError.
Proof. exact (read_only_raises o g a v). Qed.
Print Assumptions C119_read_only.

(** The processes of a model read what the configuration gives them, and later
    what set_params gave last, whatever steps the model took. *)
Theorem C119_model {X} {tr : Trans R} (E : externals R X) params read names ctx ck names' m0 n s c k a m l :
  load_model E params read names ctx ck = Ok (names', m0) -> In n names' ->
  handed ctx names n s -> class_at n s = Some c -> In (k, a) (reads c) -> went E names' n a m0 m l ->
  attribute m n a = latest l (as_float (says c s k)).
Proof. exact (model_reads E params read names ctx ck names' m0 n s c k a m l). Qed.
Print Assumptions C119_model.
(** The isostasy time is the configured one, and None, for no delay, if that is
    at most 1e-8 from 0; it stays. *)
Theorem C119_time {X} {tr : Trans R} (E : externals R X) params read names ctx ck names' m0 s t m l :
  load_model E params read names ctx ck = Ok (names', m0) -> In "flexure" names' ->
  handed ctx names "flexure" s -> says SedimentFlexure s "isostasytime" = Some (Number t) -> went E names' "flexure" "isostasy_time" m0 m l ->
  attribute m "flexure" "isostasy_time" = if Rle_dec (Rabs t) (1 / 100000000) then None else Some t.
Proof. exact (model_time E params read names ctx ck names' m0 s t m l). Qed.
Print Assumptions C119_time.
Example C119_nonvacuous {tr : Trans R} : exists names m0 m,
  load_model (ex_ext (@ex_level R _)) ex_grid4 (read_bathymetry ex_flat) [] [] (clock_init 0 (Some 10) 1)%R = Ok (names, m0)
  /\ In "fluvial" names /\ handed [] [] "fluvial" [] /\ class_at "fluvial" (@nil (string * pvalue R)) = Some Fluvial /\ In ("hemipelagic", "hemi") (reads Fluvial)
  /\ went (ex_ext (@ex_level R _)) names "fluvial" "hemi" m0 m [Number 1%R; Number 5%R]
  /\ as_float (says Fluvial (@nil (string * pvalue R)) "hemipelagic") = Some 0%R.
Proof. exact ex_model_reads. Qed.
(* a model of seven processes, as it is loaded and after a step and set_params *)
Example C119_read : ex_read [("fluvial", "sand_frac"); ("fluvial", "wave_base"); ("fluvial", "hemi"); ("fluvial", "sand_density");
                            ("submarine_diffusion", "wave_base"); ("submarine_diffusion", "sediment_load");
                            ("flexure", "sand_density"); ("flexure", "isostasy_time"); ("shoreline", "alpha")]
  = Some ([Some (1 # 2); Some 10; Some (1 # 2); Some 2650; Some 10; Some 3; Some 2500; Some 7000; Some (1 # 1000)],
          [Some (3 # 4); Some 10; Some 5; Some 2650; Some 10; Some 3; Some 2600; Some 7000; Some (1 # 1000)])%Q.
Proof. exact ex_read_ok. Qed.
