(** Properties of the files that are read and written by other libraries. *)
From Verif Require Import Py PyFacts FS File_Model HTC_Model.
From Verif Require HTC_Names.
From Verif Require Import LibFile_Model.
From Coq Require Import Lia.
Local Open Scope nat_scope.

(** ** Specification *)
(** The name that a call with the argument [arg] uses: the argument unless it is missing or empty, else the name the object has *)
Definition used (own arg : option str) (n : str) : Prop := n <> [] /\ (arg = Some n \/ ((arg = None \/ arg = Some []) /\ own = Some n)).
Definition no_name (own arg : option str) : Prop := (arg = None \/ arg = Some []) /\ (own = None \/ own = Some []).
(** Only the file [n] may differ. *)
Definition others_kept (f g : fs) (n : str) : Prop := forall p, p <> n -> g p = f p.
(** Why a file cannot be read *)
Definition unreadable {D} (parse : bytes -> res D) (f : fs) (n : str) (keywords : bool) (e : exn) : Prop :=
  ((f n = Missing \/ f n = Dir) /\ e = OSError2) \/ (f n = Reg [] /\ e = EmptyFileError) \/
  (exists c b, f n = Reg (c :: b) /\ ((keywords = true /\ e = TypeError) \/ (keywords = false /\ parse (c :: b) = Err e))).

(** ** Facts *)
Lemma used_remember {D} (o : file_obj (option D)) arg n : used (o_filename o) arg n -> remember (option D) o arg = FileObj (Some n) (o_data o) /\ truthy (Some n) = true.
Proof.
  intros (N & H). destruct n as [|c n]; [contradiction|]. split; [|reflexivity]. unfold remember. destruct H as [->|([->| ->] & H)]; cbn [truthy]; [reflexivity| |]; destruct o as [w d]; cbn in *; subst w; reflexivity.
Qed.

Section Lib.
  Variable D : Type.
  Variable parse : bytes -> res D.
  Variable render : D -> res bytes.
  Notation obj := (file_obj (option D)).
  Notation read := (read D parse).
  Notation write := (write D render).

  Lemma read_step f (o : obj) arg kw n : used (o_filename o) arg n -> read f o arg kw =
    match f n with
    | Missing | Dir => (FileObj (Some n) (o_data o), Err OSError2)
    | Reg [] => (FileObj (Some n) (o_data o), Err EmptyFileError)
    | Reg b => let (d, r) := lib_read D parse f n kw (o_data o) in (FileObj (Some n) d, r)
    end.
  Proof.
    intro U. unfold LibFile_Model.read, File_read. destruct (used_remember o arg n U) as (E & T). rewrite E. cbn [o_filename o_data]. cbv zeta. rewrite T. cbn [negb]. reflexivity.
  Qed.
  Lemma write_step f (o : obj) arg n : used (o_filename o) arg n -> write f o arg =
    let '(f', d, r) := lib_write D render f n (o_data o) in (f', FileObj (Some n) d, r).
  Proof.
    intro U. unfold LibFile_Model.write, File_write. destruct (used_remember o arg n U) as (E & T). rewrite E. cbn [o_filename o_data]. cbv zeta. rewrite T. cbn [negb]. reflexivity.
  Qed.

  (** ** Reading and writing *)
  (** A file that the library can read gives its data, whatever was read before, and the frame is these data. *)
  Theorem C156_read : forall f (o : obj) arg n c b d, used (o_filename o) arg n -> f n = Reg (c :: b) -> parse (c :: b) = Ok d ->
    read f o arg false = (FileObj (Some n) (Some d), Ok tt) /\ parquet_frame D (FileObj (Some n) (Some d)) = Ok d.
  Proof. intros f o arg n c b d U F P. rewrite (read_step f o arg false n U), F. unfold lib_read. rewrite F, P. split; reflexivity. Qed.
  (** The constructors read a file in the same way. *)
  Theorem C156_open : forall f n c b d, n <> [] -> f n = Reg (c :: b) -> parse (c :: b) = Ok d ->
    parquet_init D parse f (Some n) false = Ok (FileObj (Some n) (Some d)) /\ netcdf_init D parse f (Some n) false = Ok (FileObj (Some n) (Some d)).
  Proof.
    intros f n c b d N F P. destruct n as [|x n]; [contradiction|]. unfold parquet_init, netcdf_init, File_init, LibFile_Model.read, File_read, remember, lib_read. cbn [truthy o_filename o_data negb]. rewrite F. rewrite P. split; reflexivity.
  Qed.
  (** It fails exactly for a missing name, an unreadable file or keyword arguments, and then the data are those of before. *)
  Theorem C156_read_fails : forall f (o : obj) arg kw, (no_name (o_filename o) arg -> read f o arg kw = (o, Err PlainException)) /\
    forall n e, used (o_filename o) arg n -> (snd (read f o arg kw) = Err e <-> unreadable parse f n kw e) /\ (snd (read f o arg kw) = Err e -> o_data (fst (read f o arg kw)) = o_data o).
  Proof.
    intros f o arg kw. split.
    - intros (A & W). unfold LibFile_Model.read, File_read, remember. destruct o as [w d]. cbn [o_filename] in *. destruct A as [->| ->]; destruct W as [->| ->]; reflexivity.
    - intros n e U. rewrite (read_step f o arg kw n U). unfold unreadable, lib_read. destruct (f n) as [| |[|c b]] eqn:F.
      + cbn [fst snd o_data]. split; [|reflexivity]. split; [intro H; injection H as <-; left; split; [left|]; reflexivity|].
        intros [(_ & ->)|[(H & _)|(? & ? & H & _)]]; [reflexivity|discriminate H|discriminate H].
      + cbn [fst snd o_data]. split; [|reflexivity]. split; [intro H; injection H as <-; left; split; [right|]; reflexivity|].
        intros [(_ & ->)|[(H & _)|(? & ? & H & _)]]; [reflexivity|discriminate H|discriminate H].
      + cbn [fst snd o_data]. split; [|reflexivity]. split; [intro H; injection H as <-; right; left; split; reflexivity|].
        intros [([H|H] & _)|[(_ & ->)|(? & ? & H & _)]]; [discriminate H|discriminate H|reflexivity|discriminate H].
      + destruct kw.
        * cbn [fst snd o_data]. split; [|reflexivity]. split; [intro H; injection H as <-; right; right; exists c, b; split; [reflexivity|left; split; reflexivity]|].
          intros [([H|H] & _)|[(H & _)|(c' & b' & _ & [(_ & ->)|(H & _)])]]; try discriminate H. reflexivity.
        * destruct (parse (c :: b)) as [x|e'] eqn:P; cbn [fst snd o_data].
          -- split; [|discriminate]. split; [discriminate|]. intros [([H|H] & _)|[(H & _)|(c' & b' & E & [(H & _)|(_ & H)])]]; try discriminate H. injection E as <- <-. rewrite P in H. discriminate H.
          -- split; [|reflexivity]. split; [intro H; injection H as <-; right; right; exists c, b; split; [reflexivity|right; split; [reflexivity|exact P]]|].
             intros [([H|H] & _)|[(H & _)|(c' & b' & E & [(H & _)|(_ & H)])]]; try discriminate H. injection E as <- <-. rewrite P in H. injection H as <-. reflexivity.
  Qed.
  (** Writing puts the text of the library in the file and changes no other. *)
  Theorem C156_write : forall f (o : obj) arg n d b, used (o_filename o) arg n -> o_data o = Some d -> render d = Ok b -> f n <> Dir ->
    exists g, write f o arg = (g, FileObj (Some n) (Some d), Ok tt) /\ g n = Reg b /\ others_kept f g n.
  Proof.
    intros f o arg n d b U O R F. rewrite (write_step f o arg n U), O. unfold lib_write. rewrite R. exists (fs_put f n b).
    split; [destruct (f n); [reflexivity|contradiction|reflexivity]|]. split; [unfold fs_put; rewrite str_eqb_refl; reflexivity|].
    intros p P. unfold fs_put. destruct (str_eqb p n) eqn:E; [apply str_eqb_eq in E; contradiction|reflexivity].
  Qed.
  (** What the library reads back as it wrote it comes back. *)
  Theorem C156_round_trip : forall f (o : obj) n d b, n <> [] -> o_data o = Some d -> render d = Ok b -> b <> [] -> parse b = Ok d -> f n <> Dir ->
    exists g, write f o (Some n) = (g, FileObj (Some n) (Some d), Ok tt) /\
      (forall o', read g o' (Some n) false = (FileObj (Some n) (Some d), Ok tt)) /\ parquet_init D parse g (Some n) false = Ok (FileObj (Some n) (Some d)).
  Proof.
    intros f o n d b N O R B P F. destruct (C156_write f o (Some n) n d b) as (g & W & G & _); [split; [exact N|left; reflexivity]|exact O|exact R|exact F|].
    exists g. split; [exact W|]. destruct b as [|c b]; [contradiction|]. split.
    - intro o'. apply (C156_read g o' (Some n) n c b d); [split; [exact N|left; reflexivity]|exact G|exact P].
    - apply (C156_open g n c b d N G P).
  Qed.
  (** A failed write leaves every file as it was. *)
  Theorem C156_write_fails : forall f (o : obj) arg e, snd (write f o arg) = Err e -> fst (fst (write f o arg)) = f /\ o_data (snd (fst (write f o arg))) = o_data o.
  Proof.
    intros f o arg e. unfold LibFile_Model.write, File_write. cbv zeta. assert (R : o_data (remember (option D) o arg) = o_data o) by (unfold remember; destruct (truthy arg); reflexivity).
    destruct (truthy (o_filename (remember (option D) o arg))); cbn [negb]; [|intros _; split; [reflexivity|exact R]].
    destruct (o_filename (remember (option D) o arg)) as [n|]; [|intros _; split; [reflexivity|exact R]]. rewrite R. unfold lib_write.
    destruct (o_data o) as [x|]; [|intros _; split; reflexivity]. destruct (render x) as [b|e']; [|intros _; split; reflexivity].
    destruct (f n); cbn [fst snd]; [discriminate|intros _; split; reflexivity|discriminate].
  Qed.
  (** An object without file has no data: everything but naming it is an AttributeError. *)
  Theorem C156_new : forall f n to_string, n <> [] -> exists o, parquet_init D parse f None false = Ok o /\ netcdf_init D parse f None false = Ok o /\
    snd (write f o (Some n)) = Err AttributeError /\ fst (fst (write f o (Some n))) = f /\ parquet_frame D o = Err AttributeError /\ parquet_string D to_string o = Err AttributeError /\
    forall V (vars : D -> list (str * (list nat * V))), netcdf_frames D vars o = Err AttributeError.
  Proof.
    intros f n ts N. exists (FileObj None None). destruct n as [|c n]; [contradiction|]. repeat (split; [reflexivity|]). reflexivity.
  Qed.
  (** FINDING: after a failed read the object has the name of the other file and the data of the first, so that writing replaces the other file. *)
  Theorem C156_failed_read_refuted : forall f (o : obj) n kw e d b, n <> [] -> o_data o = Some d -> render d = Ok b -> f n <> Dir -> snd (read f o (Some n) kw) = Err e ->
    exists g, write f (fst (read f o (Some n) kw)) None = (g, FileObj (Some n) (Some d), Ok tt) /\ g n = Reg b.
  Proof.
    intros f o n kw e d b N O R F E. assert (U : used (o_filename o) (Some n) n) by (split; [exact N|left; reflexivity]).
    assert (X : fst (read f o (Some n) kw) = FileObj (Some n) (Some d)).
    { pose proof (proj2 (proj2 (C156_read_fails f o (Some n) kw) n e U) E) as K. rewrite O in K. rewrite (read_step f o (Some n) kw n U) in *.
      destruct (f n) as [| |[|c w]]; cbn [fst o_data] in *; try (rewrite K; reflexivity). destruct (lib_read D parse f n kw (o_data o)) as [y r]. cbn [fst o_data] in *. rewrite K. reflexivity. }
    rewrite X. destruct (C156_write f (FileObj (Some n) (Some d)) None n d b) as (g & W & G & _); [split; [exact N|right; split; [left|]; reflexivity]|reflexivity|exact R|exact F|].
    exists g. split; [exact W|exact G].
  Qed.

  (** ** Tables of NetCDF files *)
  Definition tabular {V} (e : str * (list nat * V)) : bool := match fst (snd e) with [_] | [_; _] => true | _ => false end.
  Lemma tables_new {V} (vars : list (str * (list nat * V))) : forall d, NoDup (map fst d ++ map fst vars) ->
    tables_from d vars = d ++ map (fun e => (fst e, snd (snd e))) (filter tabular vars).
  Proof.
    induction vars as [|[k [shape v]] vars IH]; intros d H; [cbn; rewrite app_nil_r; reflexivity|]. cbn [map fst] in H.
    assert (N : ~ In k (map fst d)) by (apply NoDup_remove_2 in H; intro X; apply H; apply in_app_iff; left; exact X).
    assert (M : NoDup (map fst d ++ map fst vars)) by (apply NoDup_remove_1 in H; exact H).
    assert (A : tables_from (dset d k v) vars = d ++ (k, v) :: map (fun e => (fst e, snd (snd e))) (filter tabular vars)).
    { rewrite (HTC_Names.dset_new d k v N). rewrite IH; [rewrite <- app_assoc; reflexivity|]. rewrite map_app, <- app_assoc. exact H. }
    destruct shape as [|a [|a' [|a'' l]]]; [exact (IH d M)|exact A|exact A|exact (IH d M)].
  Qed.
  (** The tables are those of the variables with one or two dimensions, in their order. *)
  Theorem C156_tables : forall V (vars : D -> list (str * (list nat * V))) (o : obj) d, o_data o = Some d -> NoDup (map fst (vars d)) ->
    exists l, netcdf_frames D vars o = Ok l /\ l = map (fun e => (fst e, snd (snd e))) (filter tabular (vars d)) /\
      forall k v, In (k, v) l <-> exists shape, In (k, (shape, v)) (vars d) /\ (List.length shape = 1 \/ List.length shape = 2).
  Proof.
    intros V vars o d O N. eexists. unfold netcdf_frames. rewrite O. split; [reflexivity|]. rewrite (tables_new (vars d) [] N). split; [reflexivity|].
    cbn [app]. intros k v. rewrite in_map_iff. split.
    - intros ([j [shape w]] & E & I). cbn in E. injection E as -> ->. apply filter_In in I. destruct I as (I & T). exists shape. split; [exact I|].
      unfold tabular in T. cbn in T. destruct shape as [|a [|a' [|a'' l]]]; try discriminate T; [left|right]; reflexivity.
    - intros (shape & I & L). exists (k, (shape, v)). split; [reflexivity|]. apply filter_In. split; [exact I|].
      unfold tabular. cbn. destruct shape as [|a [|a' [|a'' l]]]; cbn in L; try lia; reflexivity.
  Qed.
  (** FINDING: single numbers and variables with more dimensions have no table, and nothing is said about it. *)
  Theorem C156_dropped_refuted : forall V (vars : D -> list (str * (list nat * V))) (o : obj) d k shape v, o_data o = Some d -> NoDup (map fst (vars d)) ->
    In (k, (shape, v)) (vars d) -> List.length shape = 0 \/ 3 <= List.length shape -> exists l, netcdf_frames D vars o = Ok l /\ ~ In k (map fst l).
  Proof.
    intros V vars o d k shape v O N I L. destruct (C156_tables V vars o d O N) as (l & E & _ & H). exists l. split; [exact E|]. intro X.
    apply in_map_iff in X. destruct X as ([j w] & <- & X). apply H in X. destruct X as (s & S & T). cbn [fst] in I.
    assert (Q : (s, w) = (shape, v)); [|injection Q as -> _; lia].
    clear - N I S. induction (vars d) as [|[a x] m IH]; [destruct I|]. cbn [map fst] in N. apply NoDup_cons_iff in N. destruct N as (N1 & N2).
    destruct I as [I|I]; destruct S as [S|S].
    - congruence.
    - injection I as <- <-. exfalso. apply N1. exact (in_map fst _ _ S).
    - injection S as <- <-. exfalso. apply N1. exact (in_map fst _ _ I).
    - exact (IH N2 I S).
  Qed.
End Lib.

(** ** Examples *)
(** A library whose data are the bytes, without a byte 0 *)
Definition plain (b : bytes) : res bytes := if existsb (N.eqb 0) b then Err ValueError else Ok b.
Definition disk : fs := fun p => if str_eqb p (S_ "a.parquet") then Reg [1; 2]%N else if str_eqb p (S_ "b.parquet") then Reg [0]%N else Missing.
Example read_1 : read bytes plain disk (FileObj None None) (Some (S_ "a.parquet")) false = (FileObj (Some (S_ "a.parquet")) (Some [1; 2]%N), Ok tt).
Proof. reflexivity. Qed.
Example used_met : used (Some (S_ "a.parquet")) None (S_ "a.parquet").
Proof. split; [discriminate|right; split; [left|]; reflexivity]. Qed.
(** The file b.parquet, which could not be read, is lost. *)
Example lost_1 : let o := fst (read bytes plain disk (FileObj (Some (S_ "a.parquet")) (Some [1; 2]%N)) (Some (S_ "b.parquet")) false) in
  fst (fst (write bytes Ok disk o None)) (S_ "b.parquet") = Reg [1; 2]%N.
Proof. reflexivity. Qed.
Example failed_met : snd (read bytes plain disk (FileObj (Some (S_ "a.parquet")) (Some [1; 2]%N)) (Some (S_ "b.parquet")) false) = Err ValueError.
Proof. reflexivity. Qed.
Example tables_1 : netcdf_frames unit (fun _ => [(S_ "u", ([3], 7)); (S_ "t", ([], 1)); (S_ "w", ([3; 2], 8)); (S_ "box", ([2; 2; 2], 9))]) (FileObj None (Some tt)) = Ok [(S_ "u", 7); (S_ "w", 8)].
Proof. reflexivity. Qed.
Print Assumptions C156_read.
Print Assumptions C156_open.
Print Assumptions C156_read_fails.
Print Assumptions C156_write.
Print Assumptions C156_round_trip.
Print Assumptions C156_write_fails.
Print Assumptions C156_new.
Print Assumptions C156_failed_read_refuted.
Print Assumptions C156_tables.
Print Assumptions C156_dropped_refuted.
