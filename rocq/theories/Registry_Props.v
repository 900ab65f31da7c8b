(** Property theorems C01-C06 (format registry, detection, read). *)
From Verif Require Import Py PyFacts Registry_Model Registry_Spec Registry_Proofs.
From Coq Require Import Permutation Sorted.

(** C01: the registry is the library formats plus what the user files contribute, stably sorted by
    priority; the error count is the number of faulty user files. *)
Theorem C01_registry_stable_sorted : forall ign files l n,
  buildFormats ign files = Ok (l, n) ->
  StablySorted (lib_formats ++ flat_map contribution files) l
  /\ n = List.length (filter faulty files).
Proof. exact build_formats_spec. Qed.
Print Assumptions C01_registry_stable_sorted.

(** With ignoreErrors the registry is always built; without it, it is built iff no user file is faulty. *)
Theorem C01_registry_built_ignoring_errors : forall files, exists l n, buildFormats true files = Ok (l, n).
Proof. exact build_formats_ignore_ok. Qed.
Print Assumptions C01_registry_built_ignoring_errors.
Theorem C01_registry_strict_failure : forall files,
  (exists e, buildFormats false files = Err e) <-> existsb faulty files = true.
Proof. exact build_formats_strict_fails. Qed.
Print Assumptions C01_registry_strict_failure.

(** The specification determines the order completely. *)
Theorem C01_stable_order_unique : forall l l1 l2, StablySorted l l1 -> StablySorted l l2 -> l1 = l2.
Proof. exact stably_sorted_unique. Qed.
Print Assumptions C01_stable_order_unique.

(** User formats without a priority are tried right after CSV and Excel, before every other format. *)
Theorem C01_user_default_position : forall us, Forall (fun x => fst x = 2%Z) us ->
  sort_prio (lib_formats ++ us) = firstn 2 lib_formats ++ us ++ skipn 2 lib_formats.
Proof. exact user_default_position. Qed.
Print Assumptions C01_user_default_position.

Example C01_example : exists l n,
  buildFormats true [UModule (S_ "d/a.py") (Some [MOther; MClass (S_ "FooFile") (Some (Fmt 100 (S_ "FooFile") [S_ ".foo"])) (Some 15%Z)]);
                     UModule (S_ "d/bad.py") None] = Ok (l, n)
  /\ map (fun x => f_cls (snd x)) (firstn 6 l) = [0; 1; 2; 3; 100; 4] /\ n = 1.
Proof. eexists. eexists. split; [vm_compute; reflexivity | vm_compute; split; reflexivity]. Qed.

(** C02: detection returns F and its object iff F matches, accepts, and all earlier matching formats
    raised WrongFormatError. *)
Theorem C02_detect_first_acceptable : forall obj kwargs construct fs filename kw f o,
  snd (detectFormat obj kwargs construct fs filename kw) = Ok (f, o) <->
  exists pre post, fs = pre ++ f :: post /\ extMatch (file_ext filename) f = true /\
    construct (f_cls f) filename kw = Ok o /\
    forall g, In g pre -> extMatch (file_ext filename) g = true ->
      construct (f_cls g) filename kw = Err WrongFormatError.
Proof. intros. apply detect_ok_iff. Qed.
Print Assumptions C02_detect_first_acceptable.

(** Only formats matching the extension are tried, in registry order, without repetition. *)
Theorem C02_detect_attempts : forall obj kwargs construct fs filename kw,
  exists rest, filter (extMatch (file_ext filename)) fs
               = fst (detectFormat obj kwargs construct fs filename kw) ++ rest
  /\ (snd (detectFormat obj kwargs construct fs filename kw) = Err FormatNotDetectedError ->
        rest = [] \/ exists f, In f fs /\ construct (f_cls f) filename kw = Err FormatNotDetectedError).
Proof. intros. apply detect_trace. Qed.
Print Assumptions C02_detect_attempts.

Example C02_example :
  detectFormat nat unit (fun c _ _ => if Nat.eqb c 15 then Ok 7 else Err WrongFormatError)
    (map snd lib_formats) (S_ "dir/My.File.AE") tt
  = ([Fmt 15 (S_ "HAWC2AEFile") [S_ ".dat"; S_ ".ae"; S_ ".txt"]],
     Ok (Fmt 15 (S_ "HAWC2AEFile") [S_ ".dat"; S_ ".ae"; S_ ".txt"], 7)).
Proof. vm_compute. reflexivity. Qed.

(** C03: failure is reported, and by which error. *)
Theorem C03_not_detected_iff : forall obj kwargs construct fs filename kw,
  (forall f, In f fs -> construct (f_cls f) filename kw <> Err FormatNotDetectedError) ->
  (snd (detectFormat obj kwargs construct fs filename kw) = Err FormatNotDetectedError <->
   forall f, In f fs -> extMatch (file_ext filename) f = true ->
     construct (f_cls f) filename kw = Err WrongFormatError).
Proof. intros. apply detect_none_iff. assumption. Qed.
Print Assumptions C03_not_detected_iff.

Theorem C03_other_errors_propagate : forall obj kwargs construct fs filename kw e,
  e <> FormatNotDetectedError ->
  (snd (detectFormat obj kwargs construct fs filename kw) = Err e <->
   exists pre f post, fs = pre ++ f :: post /\ extMatch (file_ext filename) f = true /\
     construct (f_cls f) filename kw = Err e /\ e <> WrongFormatError /\
     forall g, In g pre -> extMatch (file_ext filename) g = true ->
       construct (f_cls g) filename kw = Err WrongFormatError).
Proof. intros. apply detect_err_iff. assumption. Qed.
Print Assumptions C03_other_errors_propagate.

Theorem C03_wrongformat_never_escapes : forall obj kwargs construct fs filename kw,
  snd (detectFormat obj kwargs construct fs filename kw) <> Err WrongFormatError.
Proof. intros. apply detect_no_wrongformat. Qed.
Print Assumptions C03_wrongformat_never_escapes.

Example C03_example :   (* a NameError of the FAST input reader hides the HAWC2 readers of .dat *)
  detectFormat nat unit (fun c _ _ => if Nat.eqb c 4 then Err NameError else
                                      if Nat.eqb c 11 then Ok 1 else Err WrongFormatError)
    (map snd lib_formats) (S_ "x.dat") tt
  = ([nth 2 (map snd lib_formats) (Fmt 0 [] []); nth 4 (map snd lib_formats) (Fmt 0 [] [])], Err NameError).
Proof. vm_compute. reflexivity. Qed.

(** C04: the extension is the lower-cased last extension; literal and pattern semantics. *)
Theorem C04_extension_of_path : forall dir name ext,
  ~ In slash name -> existsb (fun c => negb (chr_eqb c dot)) name = true ->
  ~ In slash ext -> ~ In dot ext ->
  file_ext (dir ++ slash :: name ++ dot :: ext) = lower (dot :: ext)
  /\ file_ext (name ++ dot :: ext) = lower (dot :: ext).
Proof. exact file_ext_spec. Qed.
Print Assumptions C04_extension_of_path.

Theorem C04_case_insensitive : forall fn1 fn2, lower fn1 = lower fn2 -> file_ext fn1 = file_ext fn2.
Proof. unfold file_ext. intros fn1 fn2 ->. reflexivity. Qed.
Print Assumptions C04_case_insensitive.

Theorem C04_match_iff : forall ext f, extMatch ext f = true <->
  In ext (f_exts f) \/
  exists p, In p (f_exts f) /\ In star p /\ MatchesPrefix (rewrite_pattern p) ext.
Proof. exact ext_match_iff. Qed.
Print Assumptions C04_match_iff.

Theorem C04_literal_match : forall ext f, existsb (mem_chr star) (f_exts f) = false ->
  extMatch ext f = true <-> In ext (f_exts f).
Proof. exact ext_match_literals. Qed.
Print Assumptions C04_literal_match.

(** A pattern w* without other stars matches exactly the extensions that start with w. *)
Theorem C04_trailing_star : forall w ext, mem_chr star w = false ->
  re_match (rewrite_pattern (w ++ [star])) ext = startswith ext w.
Proof. exact re_match_trailing_star. Qed.
Print Assumptions C04_trailing_star.

(** A star elsewhere does not mean any text: it only matches dots. *)
Theorem C04_inner_star_is_not_a_wildcard_refuted :
  exists pat ext, pat = S_ ".x*y" /\ ext = S_ ".xzy" /\ re_match (rewrite_pattern pat) ext = false.
Proof. exists (S_ ".x*y"), (S_ ".xzy"). repeat split. Qed.
Print Assumptions C04_inner_star_is_not_a_wildcard_refuted.

(** Extensions with upper-case letters or without a leading dot can never be detected ... *)
Theorem C04_dead_extensions : forall e,
  (lower e <> e \/ (e <> [] /\ startswith e [dot] = false)) -> forall fn, file_ext fn <> e.
Proof. exact dead_extension. Qed.
Print Assumptions C04_dead_extensions.
(** ... and the library declares two of them. *)
Example C04_dead_extensions_in_library :
  In (S_ ".00X") (f_exts (snd (nth 20 lib_formats (0%Z, Fmt 0 [] [])))) /\ lower (S_ ".00X") <> S_ ".00X" /\
  In (S_ "doc") (f_exts (snd (nth 24 lib_formats (0%Z, Fmt 0 [] [])))) /\ startswith (S_ "doc") [dot] = false.
Proof. repeat split; vm_compute; auto; discriminate. Qed.
Example C04_flex_numbered_files_not_detected :
  filter (extMatch (file_ext (S_ "blade.001"))) (map snd lib_formats) = [].
Proof. vm_compute. reflexivity. Qed.
Example C04_bladed_detected :
  map f_cls (filter (extMatch (file_ext (S_ "run.$04"))) (map snd lib_formats)) = [3].
Proof. vm_compute. reflexivity. Qed.

(** C05: read. *)
Theorem C05_read_detects : forall obj kwargs no_kwargs construct isinst fs filename kw,
  (forall c o, construct c filename kw = Ok o -> isinst o c = true) ->
  read obj kwargs no_kwargs construct isinst fs filename None kw =
    match snd (detectFormat obj kwargs construct fs filename kw) with
    | Ok (_, o) => Ok o | Err e => Err e end.
Proof. intros. apply read_detect. assumption. Qed.
Print Assumptions C05_read_detects.

(** With an explicit format the property holds only when no keyword is given ... *)
Theorem C05_read_explicit_partial : forall obj kwargs no_kwargs construct isinst fs filename f,
  read obj kwargs no_kwargs construct isinst fs filename (Some f) no_kwargs
  = construct (f_cls f) filename no_kwargs.
Proof. reflexivity. Qed.
Print Assumptions C05_read_explicit_partial.
(** ... in general keywords are dropped. *)
Theorem C05_read_explicit_refuted :
  exists (construct : nat -> str -> bool -> res bool) f filename kw,
    read bool bool false construct (fun _ _ => true) [] filename (Some f) kw
    <> construct (f_cls f) filename kw.
Proof.
  exists (fun _ _ kw => Ok kw), (Fmt 0 [] []), (S_ "a.csv"), true. vm_compute. discriminate.
Qed.
Print Assumptions C05_read_explicit_refuted.

(** C06: repeated calls. *)
Theorem C06_cached_forever : forall fs ops, calls (Some fs) ops = (Some fs, map (fun _ => Ok (RList fs)) ops).
Proof. exact calls_after_first. Qed.
Print Assumptions C06_cached_forever.
Theorem C06_repeat_same_partial : forall st ign files n, ign = false ->
  exists r, snd (calls st (repeat (ign, files) n)) = repeat r n.
Proof. exact calls_strict_repeat. Qed.
Print Assumptions C06_repeat_same_partial.
Theorem C06_repeat_shape_refuted : exists files fs n,
  snd (calls None [(true, files); (true, files)]) = [Ok (RPair fs n); Ok (RList fs)].
Proof. exists [], (map snd (sort_prio lib_formats)), 0. vm_compute. reflexivity. Qed.
Print Assumptions C06_repeat_shape_refuted.

(** The skip of __init__.py never applies to a file inside a folder: it is loaded as a format module. *)
Theorem C01_user_init_not_skipped : forall dir ms,
  skipped (UModule (dir ++ S_ "/__init__.py") ms) = false.
Proof.
  intros dir ms. unfold skipped. apply str_eqb_neq. intro H. cbn [u_path] in H.
  apply (f_equal (@List.length ascii)) in H. rewrite app_length in H. cbn in H. lia.
Qed.
Print Assumptions C01_user_init_not_skipped.
