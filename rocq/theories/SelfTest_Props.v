(** Property theorem C132: the tests every file object offers. *)
From Verif Require Import Py PyFacts ListFacts FS File_Model Registry_Model Registry_Proofs.
From Verif Require Import SelfTest_Model.
From Coq Require Import ZifyNat ZifyBool.
Local Open Scope nat_scope.

(** A name with an extension: directory, stem that does not consist of dots, extension *)
Definition Named (name dir stem ext : str) : Prop :=
  name = dir ++ slash :: stem ++ dot :: ext /\ ~ In slash stem /\ ~ In slash ext /\ ~ In dot ext /\ existsb (fun c => negb (chr_eqb c dot)) stem = true.
Definition beside (dir stem suffix ext : str) : str := dir ++ slash :: stem ++ suffix ++ dot :: ext.
Lemma root_ext_ok name dir stem ext : Named name dir stem ext -> root_ext name = (dir ++ slash :: stem, dot :: ext).
Proof.
  intros (-> & H1 & H2 & H3 & H4).
  assert (E : splitext_ext (dir ++ slash :: stem ++ dot :: ext) = dot :: ext).
  { unfold splitext_ext, basename. rewrite rsplit1_app. 2:{ intro X. apply in_app_or in X. destruct X as [X|[X|X]]; [exact (H1 X)|discriminate X|exact (H2 X)]. }
    rewrite rsplit1_app by exact H3. destruct (forallb (fun c => chr_eqb c dot) stem) eqn:C; [|reflexivity]. exfalso.
    apply existsb_exists in H4. destruct H4 as (c & I1 & I2). rewrite forallb_forall in C. rewrite (C c I1) in I2. discriminate I2. }
  unfold root_ext. rewrite E. f_equal.
  replace (dir ++ slash :: stem ++ dot :: ext) with ((dir ++ slash :: stem) ++ dot :: ext) by (rewrite <- app_assoc; reflexivity).
  rewrite app_length, Nat.add_sub, firstn_app, Nat.sub_diag, firstn_all. cbn. apply app_nil_r.
Qed.
Lemma tmp_ok sfx name dir stem ext : Named name dir stem ext -> tmp_name sfx name = beside dir stem sfx ext.
Proof. intro H. unfold tmp_name. rewrite (root_ext_ok _ _ _ _ H). cbn [fst snd]. unfold beside. rewrite <- app_assoc. reflexivity. Qed.
Lemma beside_nonempty dir stem sfx ext : beside dir stem sfx ext <> [].
Proof. unfold beside. intro H. apply app_eq_nil in H. destruct H as [_ H]. discriminate H. Qed.
Lemma beside_neq dir stem s1 s2 ext : s1 <> s2 -> beside dir stem s1 ext <> beside dir stem s2 ext.
Proof. intros N H. apply N. unfold beside in H. apply app_inv_head in H. injection H as H. apply app_inv_head in H. apply app_inv_tail in H. exact H. Qed.
Lemma named_beside name dir stem ext : Named name dir stem ext -> name = beside dir stem [] ext.
Proof. intros (-> & _). reflexivity. Qed.
Lemma removed f p b : f p = Reg b -> exists f', fs_remove f p = Ok f' /\ f' p = Missing /\ forall q, q <> p -> f' q = f q.
Proof.
  intro H. unfold fs_remove. rewrite H. eexists. split; [reflexivity|]. cbn beta. rewrite str_eqb_refl. split; [reflexivity|].
  intros q N. destruct (str_eqb q p) eqn:E; [apply str_eqb_eq in E; contradiction|reflexivity].
Qed.
Lemma truthy_some n : n <> [] -> truthy (Some n) = true. Proof. destruct n; [contradiction|reflexivity]. Qed.

Section T.
Variable data : Type.
Variable child_read : fs -> str -> unit -> data -> data * res unit.
Variable child_write : fs -> str -> data -> fs * data * res unit.
Variable kind : exn -> argument.
(** The writer of the class touches only the file it is asked to write *)
Definition WritesOnly : Prop := forall f n d q, q <> n -> fst (fst (child_write f n d)) q = f q.

Lemma File_write_ok f o n : n <> [] -> File_write data child_write f o (Some n) =
  (fst (fst (child_write f n (o_data o))), FileObj (Some n) (snd (fst (child_write f n (o_data o)))), snd (child_write f n (o_data o))).
Proof.
  intro H. unfold File_write, remember. rewrite (truthy_some n H). cbn [o_filename o_data negb]. rewrite (truthy_some n H). cbn [negb].
  destruct (child_write f n (o_data o)) as [[f' d] r]. reflexivity.
Qed.
Lemma File_read_ok f o n b bs : n <> [] -> f n = Reg (b :: bs) -> File_read data unit child_read f o (Some n) tt =
  (FileObj (Some n) (fst (child_read f n tt (o_data o))), snd (child_read f n tt (o_data o))).
Proof.
  intros H E. unfold File_read, remember. rewrite (truthy_some n H). cbn [o_filename o_data negb]. rewrite (truthy_some n H). cbn [negb]. rewrite E.
  destruct (child_read f n tt (o_data o)) as [d r]. reflexivity.
Qed.
(** What is written is read back; nothing else changes on the disk; the object is now that of the temporary file *)
Theorem C132_write_read : forall f o name dir stem ext f1 d1 d2 b bs bDelete, WritesOnly ->
  o_filename o = Some name -> Named name dir stem ext ->
  let tmp := beside dir stem (S_ "_TMP") ext in
  child_write f tmp (o_data o) = (f1, d1, Ok tt) -> f1 tmp = Reg (b :: bs) -> child_read f1 tmp tt d1 = (d2, Ok tt) ->
  exists f', test_write_read data child_read child_write kind f o bDelete = (f', FileObj (Some tmp) d2, Ok tmp) /\
    (forall q, q <> tmp -> f' q = f q) /\ f' tmp = if bDelete then Missing else Reg (b :: bs).
Proof.
  intros f o name dir stem ext f1 d1 d2 b bs bD WO Hn HN tmp W R C. unfold test_write_read. rewrite Hn. cbn zeta. rewrite (tmp_ok _ _ _ _ _ HN). fold tmp.
  assert (NE : tmp <> []) by apply beside_nonempty. rewrite (File_write_ok _ _ _ NE), W. cbn [fst snd].
  rewrite (File_read_ok _ _ _ _ _ NE R). cbn [o_data]. rewrite C. cbn [fst snd].
  assert (O : forall q, q <> tmp -> f1 q = f q). { intros q N. pose proof (WO f tmp (o_data o) q N) as X. rewrite W in X. exact X. }
  destruct bD.
  - destruct (removed f1 tmp _ R) as (f2 & X1 & X2 & X3). rewrite X1. exists f2. split; [reflexivity|]. split; [|exact X2]. intros q N. rewrite X3 by exact N. apply O; exact N.
  - exists f1. split; [reflexivity|]. split; assumption.
Qed.
Definition txt (b : list N) : str := map ascii_of_N b.
(** test_ascii compares the file of the object with what is written: it passes exactly when the two texts compare equal; the temporary file is
    then removed if asked; when they differ the test fails and the temporary file stays.  The other files are not touched. *)
Theorem C132_ascii : forall f o name dir stem ext orig f1 d1 d2 b bs bDelete, WritesOnly ->
  o_filename o = Some name -> Named name dir stem ext -> f name = Reg orig ->
  let tmp := beside dir stem (S_ "_TMP") ext in
  child_write f tmp (o_data o) = (f1, d1, Ok tt) -> f1 tmp = Reg (b :: bs) -> child_read f1 tmp tt d1 = (d2, Ok tt) ->
  exists f', (forall q, q <> tmp -> f' q = f q) /\
    (ascii_comp (txt orig) (txt (b :: bs)) = true ->
       test_ascii data child_read child_write kind f o false bDelete = (f', FileObj (Some tmp) d2, Ok tt) /\ f' tmp = if bDelete then Missing else Reg (b :: bs)) /\
    (ascii_comp (txt orig) (txt (b :: bs)) = false ->
       test_ascii data child_read child_write kind f o false bDelete = (f', FileObj (Some tmp) d2, Err PlainException) /\ f' tmp = Reg (b :: bs)).
Proof.
  intros f o name dir stem ext orig f1 d1 d2 b bs bD WO Hn HN Ho tmp W R C. unfold test_ascii. rewrite Hn.
  destruct (C132_write_read f o name dir stem ext f1 d1 d2 b bs false WO Hn HN W R C) as (f' & E & O & T). fold tmp in E, O, T. rewrite E.
  rewrite (root_ext_ok _ _ _ _ HN). cbn [fst snd]. replace ((dir ++ slash :: stem) ++ dot :: ext) with name by (rewrite (proj1 HN), <- app_assoc; reflexivity).
  assert (NN : name <> tmp). { rewrite (named_beside _ _ _ _ HN). apply beside_neq. discriminate. }
  unfold comp_files, text_of. rewrite (O name NN), Ho. cbn [bind]. rewrite T. cbn [bind]. cbn [andb].
  change (map (fun n => ascii_of_N n) orig) with (txt orig). change (map (fun n => ascii_of_N n) (b :: bs)) with (txt (b :: bs)).
  destruct (ascii_comp (txt orig) (txt (b :: bs))) eqn:EC; [destruct bD|].
  - destruct (removed f' tmp _ T) as (f2 & X1 & X2 & X3). rewrite X1. cbn [bind]. exists f2. split; [intros q N; rewrite X3 by exact N; apply O; exact N|].
    split; [intros _; split; [reflexivity|exact X2]|intro X; discriminate X].
  - exists f'. split; [exact O|]. split; [intros _; split; [reflexivity|exact T]|intro X; discriminate X].
  - exists f'. split; [exact O|]. split; [intro X; discriminate X|intros _; split; [reflexivity|exact T]].
Qed.
(** Comparing two writes: both files are temporary, and both are removed when they compare equal *)
Theorem C132_ascii_writes : forall f o name dir stem ext f1 d1 d2 b bs f2 d3 c bDelete, WritesOnly ->
  o_filename o = Some name -> Named name dir stem ext ->
  let tmp := beside dir stem (S_ "_TMP") ext in let tmp2 := beside dir stem (S_ "_TMP2") ext in
  child_write f tmp (o_data o) = (f1, d1, Ok tt) -> f1 tmp = Reg (b :: bs) -> child_read f1 tmp tt d1 = (d2, Ok tt) ->
  (forall g, (forall q, g q = f1 q) -> child_write g tmp2 d2 = (f2, d3, Ok tt)) -> f2 tmp = Reg (b :: bs) -> f2 tmp2 = Reg c -> (forall q, q <> tmp2 -> f2 q = f1 q) ->
  exists f', (forall q, q <> tmp -> q <> tmp2 -> f' q = f q) /\
    (ascii_comp (txt (b :: bs)) (txt c) = true ->
       test_ascii data child_read child_write kind f o true bDelete = (f', FileObj (Some tmp2) d3, Ok tt) /\
       f' tmp = (if bDelete then Missing else Reg (b :: bs)) /\ f' tmp2 = if bDelete then Missing else Reg c) /\
    (ascii_comp (txt (b :: bs)) (txt c) = false ->
       test_ascii data child_read child_write kind f o true bDelete = (f', FileObj (Some tmp2) d3, Err PlainException) /\ f' tmp = Reg (b :: bs) /\ f' tmp2 = Reg c).
Proof.
  intros f o name dir stem ext f1 d1 d2 b bs f2 d3 c bD WO Hn HN tmp tmp2 W R C W2 R2 R3 O2. unfold test_ascii. rewrite Hn.
  assert (NT : tmp <> tmp2) by (apply beside_neq; discriminate).
  assert (O1 : forall q, q <> tmp -> f1 q = f q). { intros q N. pose proof (WO f tmp (o_data o) q N) as X. rewrite W in X. exact X. }
  unfold test_write_read. rewrite Hn. cbn zeta. rewrite !(tmp_ok _ _ _ _ _ HN). fold tmp tmp2.
  assert (NE : tmp <> []) by apply beside_nonempty. assert (NE2 : tmp2 <> []) by apply beside_nonempty. rewrite (File_write_ok _ _ _ NE), W. cbn [fst snd].
  rewrite (File_read_ok _ _ _ _ _ NE R). cbn [o_data]. rewrite C. cbn [fst snd]. rewrite (File_write_ok _ _ _ NE2). cbn [o_data]. rewrite (W2 f1 (fun _ => eq_refl)). cbn [fst snd].
  unfold comp_files, text_of. rewrite R2, R3. cbn [bind].
  change (map (fun n => ascii_of_N n) c) with (txt c). change (map (fun n => ascii_of_N n) (b :: bs)) with (txt (b :: bs)).
  assert (OO : forall q, q <> tmp -> q <> tmp2 -> f2 q = f q) by (intros q A B; rewrite O2 by exact B; apply O1; exact A).
  destruct (ascii_comp (txt (b :: bs)) (txt c)) eqn:EC; [destruct bD|].
  - destruct (removed f2 tmp2 _ R3) as (f3 & X1 & X2 & X3). rewrite X1. cbn [bind andb].
    assert (R4 : f3 tmp = Reg (b :: bs)) by (rewrite X3 by exact NT; exact R2).
    destruct (removed f3 tmp _ R4) as (f4 & Y1 & Y2 & Y3). rewrite Y1. exists f4. split; [intros q A B; rewrite Y3, X3 by assumption; apply OO; assumption|].
    split; [intros _; split; [reflexivity|split; [exact Y2|rewrite Y3 by (intro X; apply NT; symmetry; exact X); exact X2]]|intro X; discriminate X].
  - cbn [andb]. exists f2. split; [exact OO|]. split; [intros _; split; [reflexivity|split; assumption]|intro X; discriminate X].
  - exists f2. split; [exact OO|]. split; [intro X; discriminate X|intros _; split; [reflexivity|split; assumption]].
Qed.
(** After a test that passes, the object looks for its temporary file, which is gone *)
Theorem C132_after_refuted : forall f o name dir stem ext orig f1 d1 d2 b bs, WritesOnly ->
  o_filename o = Some name -> Named name dir stem ext -> f name = Reg orig ->
  let tmp := beside dir stem (S_ "_TMP") ext in
  child_write f tmp (o_data o) = (f1, d1, Ok tt) -> f1 tmp = Reg (b :: bs) -> child_read f1 tmp tt d1 = (d2, Ok tt) -> ascii_comp (txt orig) (txt (b :: bs)) = true ->
  exists f' o', test_ascii data child_read child_write kind f o false true = (f', o', Ok tt) /\ o_filename o' <> Some name /\ f' name = Reg orig /\
    snd (File_read data unit child_read f' o' None tt) = Err OSError2.
Proof.
  intros f o name dir stem ext orig f1 d1 d2 b bs WO Hn HN Ho tmp W R C EC.
  destruct (C132_ascii f o name dir stem ext orig f1 d1 d2 b bs true WO Hn HN Ho W R C) as (f' & O & A & _). destruct (A EC) as (A1 & A2). fold tmp in A1, A2, O.
  assert (NN : name <> tmp). { rewrite (named_beside _ _ _ _ HN). apply beside_neq. discriminate. }
  exists f', (FileObj (Some tmp) d2). split; [exact A1|]. split; [cbn; intro X; injection X as X; apply NN; symmetry; exact X|]. split; [rewrite O by exact NN; exact Ho|].
  unfold File_read, remember. change (truthy None) with false. cbn [o_filename]. rewrite (truthy_some tmp (beside_nonempty _ _ _ _)). cbn [negb]. rewrite A2. reflexivity.
Qed.
(** When the writer fails: Exception for an exception with a text, but IndexError for one without arguments and TypeError for one whose first argument is
    not a text, as OSError *)
Theorem C132_failure : forall f o name dir stem ext f1 d1 e bDelete, WritesOnly -> o_filename o = Some name -> Named name dir stem ext ->
  let tmp := beside dir stem (S_ "_TMP") ext in
  child_write f tmp (o_data o) = (f1, d1, Err e) ->
  exists e', test_write_read data child_read child_write kind f o bDelete = (f1, FileObj (Some tmp) d1, Err e') /\
    (kind e = AText -> e' = PlainException) /\ (kind e = ANone -> e' = IndexError) /\ (kind e = AOther -> e' = TypeError) /\
    forall w, test_ascii data child_read child_write kind f o w bDelete = (f1, FileObj (Some tmp) d1, Err e').
Proof.
  intros f o name dir stem ext f1 d1 e bD WO Hn HN tmp W. exists (masked kind e).
  assert (X : forall x, test_write_read data child_read child_write kind f o x = (f1, FileObj (Some tmp) d1, Err (masked kind e))).
  { intro x. unfold test_write_read. rewrite Hn. cbn zeta. rewrite (tmp_ok _ _ _ _ _ HN). fold tmp. assert (NE : tmp <> []) by apply beside_nonempty. rewrite (File_write_ok _ _ _ NE), W. reflexivity. }
  split; [apply X|]. unfold masked. split; [intro K; rewrite K; reflexivity|]. split; [intro K; rewrite K; reflexivity|]. split; [intro K; rewrite K; reflexivity|].
  intro w. unfold test_ascii. rewrite Hn, X. reflexivity.
Qed.
(** The same for what the reader raises; the temporary file stays *)
Theorem C132_failure_read : forall f o name dir stem ext f1 d1 d2 b bs e bDelete, WritesOnly -> o_filename o = Some name -> Named name dir stem ext ->
  let tmp := beside dir stem (S_ "_TMP") ext in
  child_write f tmp (o_data o) = (f1, d1, Ok tt) -> f1 tmp = Reg (b :: bs) -> child_read f1 tmp tt d1 = (d2, Err e) ->
  exists e', test_write_read data child_read child_write kind f o bDelete = (f1, FileObj (Some tmp) d2, Err e') /\
    (kind e = AText -> e' = PlainException) /\ (kind e = ANone -> e' = IndexError) /\ (kind e = AOther -> e' = TypeError).
Proof.
  intros f o name dir stem ext f1 d1 d2 b bs e bD WO Hn HN tmp W R C. exists (masked kind e). unfold test_write_read. rewrite Hn. cbn zeta. rewrite (tmp_ok _ _ _ _ _ HN). fold tmp.
  assert (NE : tmp <> []) by apply beside_nonempty. rewrite (File_write_ok _ _ _ NE), W. cbn [fst snd]. rewrite (File_read_ok _ _ _ _ _ NE R). cbn [o_data]. rewrite C. cbn [fst snd].
  split; [reflexivity|]. unfold masked. split; [intro K; rewrite K; reflexivity|]. split; intro K; rewrite K; reflexivity.
Qed.
Theorem C132_no_name : forall f o bDelete, o_filename o = None ->
  (forall w, test_ascii data child_read child_write kind f o w bDelete = (f, o, Err TypeError)) /\
  (kind TypeError = AText -> test_write_read data child_read child_write kind f o bDelete = (f, o, Err PlainException)).
Proof. intros f o bD H. unfold test_ascii, test_write_read. rewrite H. split; [reflexivity|]. intro K. unfold masked. rewrite K. reflexivity. Qed.
End T.
Print Assumptions C132_write_read.
Print Assumptions C132_ascii.
Print Assumptions C132_ascii_writes.
Print Assumptions C132_after_refuted.
Print Assumptions C132_failure.
Print Assumptions C132_failure_read.
Print Assumptions C132_no_name.

(** A class whose data is the content of the file *)
Definition ex_read (f : fs) (n : str) (_ : unit) (d : list N) : list N * res unit := match f n with Reg b => (b, Ok tt) | _ => (d, Err OSError2) end.
Definition ex_write (f : fs) (n : str) (d : list N) : fs * list N * res unit := (fs_put f n d, d, Ok tt).
Example C132_example :
  WritesOnly (list N) ex_write /\ Named (S_ "d/a.dat") (S_ "d") (S_ "a") (S_ "dat") /\
  let f := fun q => if str_eqb q (S_ "d/a.dat") then Reg [65; 32; 66]%N else Missing in
  let r := test_ascii (list N) ex_read ex_write (fun _ => AText) f (FileObj (Some (S_ "d/a.dat")) [65; 9; 32; 66]%N) false true in
  snd r = Ok tt /\ fst (fst r) (S_ "d/a_TMP.dat") = Missing /\ fst (fst r) (S_ "d/a.dat") = Reg [65; 32; 66]%N.
Proof.
  split; [|split; [|split; [|split]]].
  - intros f n d q H. cbn. unfold fs_put. destruct (str_eqb q n) eqn:E; [apply str_eqb_eq in E; contradiction|reflexivity].
  - split; [reflexivity|]. split; [|split; [|split; [|reflexivity]]]; cbn; intuition discriminate.
  - vm_compute. reflexivity.
  - vm_compute. reflexivity.
  - vm_compute. reflexivity.
Qed.
