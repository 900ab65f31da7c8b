(** Property theorems C07-C08 (File protocol, text comparison). *)
From Verif Require Import Py PyFacts FS File_Model File_Proofs.

(** C07: decision table of File.read: error raised, remembered name and data in every case.  (The file
    system is an input only: reading cannot change it.) *)
Theorem C07_read_guards : forall data kwargs child_read f (o : file_obj data) arg kw,
  match effective_name data o arg with
  | None | Some [] => File_read data kwargs child_read f o arg kw
                      = (FileObj (effective_name data o arg) (o_data o), Err PlainException)
  | Some name =>
      match f name with
      | Missing | Dir => File_read data kwargs child_read f o arg kw = (FileObj (Some name) (o_data o), Err OSError2)
      | Reg [] => File_read data kwargs child_read f o arg kw = (FileObj (Some name) (o_data o), Err EmptyFileError)
      | Reg (_ :: _) => File_read data kwargs child_read f o arg kw
                        = (FileObj (Some name) (fst (child_read f name kw (o_data o))),
                           snd (child_read f name kw (o_data o)))
      end
  end.
Proof. exact read_guards. Qed.
Print Assumptions C07_read_guards.

(** Same for write: without a name nothing at all happens to the file system. *)
Theorem C07_write_guards : forall data child_write f (o : file_obj data) arg,
  match effective_name data o arg with
  | None | Some [] => File_write data child_write f o arg
                      = (f, FileObj (effective_name data o arg) (o_data o), Err PlainException)
  | Some name => File_write data child_write f o arg
                 = (let '(f', d, r) := child_write f name (o_data o) in (f', FileObj (Some name) d, r))
  end.
Proof. exact write_guards. Qed.
Print Assumptions C07_write_guards.

(** After any history of reads and writes, successful or not, the remembered name is the last non-empty
    name given. *)
Theorem C07_name_history : forall data kwargs child_read child_write ops (s : fs * file_obj data),
  o_filename (snd (fold_left (fstep data kwargs child_read child_write) ops s))
  = last_name kwargs ops (o_filename (snd s)).
Proof. exact name_history. Qed.
Print Assumptions C07_name_history.

(** Constructing File(name): without a (non-empty) name an empty object; otherwise the object exists only when the read
    succeeds, and the exception of the read is the one the caller sees. *)
Theorem C07_constructor : forall data kwargs child_read f (d0 : data) arg kw,
  match arg with
  | None | Some [] => File_init data kwargs child_read f d0 arg kw = Ok (FileObj None d0)
  | Some name =>
      match f name with
      | Missing | Dir => File_init data kwargs child_read f d0 arg kw = Err OSError2
      | Reg [] => File_init data kwargs child_read f d0 arg kw = Err EmptyFileError
      | Reg (_ :: _) => File_init data kwargs child_read f d0 arg kw
                        = match snd (child_read f name kw d0) with
                          | Ok _ => Ok (FileObj (Some name) (fst (child_read f name kw d0)))
                          | Err e => Err e
                          end
      end
  end.
Proof.
  intros data kwargs child_read f d0 arg kw. pose proof (read_guards data kwargs child_read f (FileObj None d0) arg kw) as H.
  unfold File_init. destruct arg as [[|c s]|]; [reflexivity| |reflexivity]. cbn [effective_name o_filename o_data truthy] in *.
  destruct (f (c :: s)) as [| |[|b bs]]; rewrite H; reflexivity.
Qed.
Print Assumptions C07_constructor.

Example C07_example :
  let f := fun p => if str_eqb p (S_ "a") then Reg [1%N] else if str_eqb p (S_ "e") then Reg [] else Missing in
  let rd := fun (_ : fs) (_ : str) (_ : unit) (d : nat) => (S d, Ok tt) in
  (File_read nat unit rd f (FileObj None 5) (Some (S_ "a")) tt,
   File_read nat unit rd f (FileObj (Some (S_ "a")) 5) (Some (S_ "e")) tt,
   File_read nat unit rd f (FileObj (Some (S_ "a")) 5) (Some (S_ "zz")) tt,
   File_read nat unit rd f (FileObj None 5) None tt)
  = ((FileObj (Some (S_ "a")) 6, Ok tt), (FileObj (Some (S_ "e")) 5, Err EmptyFileError),
     (FileObj (Some (S_ "zz")) 5, Err OSError2), (FileObj None 5, Err PlainException)).
Proof. vm_compute. reflexivity. Qed.

(** C08: two texts whose lines have the same words are declared equal ... *)
Theorem C08_same_words_equal : forall c1 c2, file_words c1 = file_words c2 -> ascii_comp c1 c2 = true.
Proof. exact same_words_same. Qed.
Print Assumptions C08_same_words_equal.
(** ... and, when no line contains a bar, only those (up to an empty file versus one blank line). *)
Theorem C08_equal_iff_same_words : forall c1 c2,
  forallb (fun l => negb (mem_chr bar l)) (splitlines (universal_newlines c1)) = true ->
  forallb (fun l => negb (mem_chr bar l)) (splitlines (universal_newlines c2)) = true ->
  (ascii_comp c1 c2 = true <->
   file_words c1 = file_words c2 \/ (blank_only (file_words c1) = true /\ blank_only (file_words c2) = true)).
Proof. exact ascii_comp_iff. Qed.
Print Assumptions C08_equal_iff_same_words.
Theorem C08_equivalence :
  (forall a, ascii_comp a a = true) /\
  (forall a b, ascii_comp a b = true -> ascii_comp b a = true) /\
  (forall a b c, ascii_comp a b = true -> ascii_comp b c = true -> ascii_comp a c = true).
Proof.
  unfold ascii_comp. repeat split; intros; rewrite str_eqb_eq in *; congruence.
Qed.
Print Assumptions C08_equivalence.
(** A bar in the text is confused with a line break. *)
Theorem C08_line_structure_refuted : exists c1 c2,
  file_words c1 <> file_words c2 /\ ascii_comp c1 c2 = true.
Proof. exists (S_ "a|b"), (S_ "a" ++ [nl] ++ S_ "b"). split; [vm_compute; discriminate | vm_compute; reflexivity]. Qed.
Print Assumptions C08_line_structure_refuted.
Example C08_example :
  ascii_comp (S_ "1 2  " ++ [nl] ++ [tab] ++ S_ "x  y" ++ [nl]) (S_ "1" ++ [tab] ++ S_ "2" ++ [ch 13; nl] ++ S_ "x y") = true
  /\ ascii_comp (S_ "1 2") (S_ "12") = false.
Proof. vm_compute. split; reflexivity. Qed.

(** ** C60: binary detection *)
(** The part of a file before its first line end. *)
Definition before_eol (first rest t : str) : Prop :=
  t = first ++ rest /\ Forall (fun c => ord c <> 10 /\ ord c <> 13) first /\
  match rest with [] => True | c :: _ => ord c = 10 \/ ord c = 13 end.
(** The control characters that make a file binary: all but LF, VT, FF, CR, SO and US. *)
Definition control (c : ascii) : Prop := ord c < 10 \/ 15 <= ord c <= 30.
Theorem C60_isBinary_iff : forall first rest t, before_eol first rest t ->
  (isBinary t = true <-> Exists control first).
Proof.
  intros first rest t [-> [H1 H2]]. unfold isBinary. revert H2. induction H1 as [|c first [A B] H1 IH]; intro H2.
  - cbn [app]. destruct rest as [|c r]; [split; intro H; [discriminate|inversion H]|]. cbn [first_line].
    assert (E : Nat.eqb (ord c) 10 || Nat.eqb (ord c) 13 = true) by (destruct H2 as [->| ->]; reflexivity). rewrite E.
    split; intro H; [vm_compute in H; discriminate|inversion H].
  - cbn [app first_line]. destruct (Nat.eqb_spec (ord c) 10); [contradiction|]. destruct (Nat.eqb_spec (ord c) 13); [contradiction|].
    cbn [orb existsb]. rewrite orb_true_iff, (IH H2), Exists_cons. unfold weird, control.
    rewrite orb_true_iff, andb_true_iff, !Nat.ltb_lt. intuition lia.
Qed.
Print Assumptions C60_isBinary_iff.
(** A text file without tab or backspace in its first line is not binary. *)
Theorem C60_text_not_binary_partial : forall first rest t, before_eol first rest t ->
  Forall (fun c => 32 <= ord c) first -> isBinary t = false.
Proof.
  intros first rest t H1 H2. destruct (isBinary t) eqn:E; [|reflexivity]. apply (C60_isBinary_iff _ _ _ H1) in E.
  rewrite Exists_exists in E. destruct E as [c [I C]]. rewrite Forall_forall in H2. specialize (H2 c I). unfold control in C. lia.
Qed.
Print Assumptions C60_text_not_binary_partial.
Example C60_nontrivial : before_eol (S_ "a b") ([ch 13; nl] ++ S_ "x") (S_ "a b" ++ [ch 13; nl] ++ S_ "x").
Proof. split; [reflexivity|]. split; [repeat constructor; discriminate|]. right. reflexivity. Qed.

(** isBinary declares a plain text file binary as soon as its first line contains a tab. *)
Theorem C60_isBinary_tab_refuted : exists t, forallb (fun c => is_space c || (33 <=? ord c) && (ord c <=? 126)) t = true
  /\ isBinary t = true.
Proof. exists (S_ "1" ++ [tab] ++ S_ "2" ++ [nl]). vm_compute. split; reflexivity. Qed.
Print Assumptions C60_isBinary_tab_refuted.
