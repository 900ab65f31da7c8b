(** C109, C111: writing FAST input files that cannot be written; polars without their number of tables, or whose first entry has a numbered label. *)
From Verif Require Import Py PyFacts TextFacts FASTIn_Model FASTIn_Proofs FASTIn_File FASTIn_Props FASTTab_Model FASTTab_Proofs FASTTab_Props FASTTabRead_Props FASTFile_Model FASTFile_Props FASTFileEnd_Props AD14_Props FASTSpec_Model FASTSpec_Props.
Local Open Scope nat_scope.

Section Spec.
Context {V : Type}.
Variables fnum fexp fstr fspan fmat : V -> str.
Local Notation ent := (FASTFile_Model.entry V).

(** What the writer refuses: a table read without its names and units, and an empty list of file names *)
Inductive refused : ent -> exn -> Prop :=
| plain_table l ds dm v ns us : refused (Tab l ds NumPlain dm v ns us) PlainException
| no_files l ds : refused (Item (mkItem (VList []) l false ds TAB_FIL)) IndexError.
Definition plain_line (e : ent) : Prop := exists d, e = Item d /\ it_tab d <> TAB_FIL.
Lemma refused_str pre bad post e : Forall plain_line pre -> refused bad e -> to_string fnum fexp fstr fspan fmat (pre ++ bad :: post) = Err e.
Proof.
  intros F R. unfold to_string. rewrite (mapM_bad _ e pre bad post); [reflexivity| |].
  - intros y Hy. rewrite Forall_forall in F. destruct (F y Hy) as (d & -> & N). cbn [entry_str]. destruct (it_comment d), (it_tab d), (it_value d) as [| | | |[|]]; try (eexists; reflexivity); elim N; reflexivity.
  - destruct R; reflexivity.
Qed.
(** A failing write should leave the file: it is emptied. *)
Theorem C109_unwritable_refuted : forall pre bad post e, Forall plain_line pre -> refused bad e -> write_file fnum fexp fstr fspan fmat (pre ++ bad :: post) = ([], Err e).
Proof. intros pre bad post e F R. unfold write_file. now rewrite (refused_str _ _ _ _ F R). Qed.
Theorem C111_unwritable_refuted : forall es pre bad post e, es = pre ++ bad :: post -> Forall plain_line pre -> refused bad e ->
  ~ has_key es "NumBlNds" -> ~ has_key es "NBlInpSt" -> ~ (has_key es "NumCoords" /\ has_key es "InterpOrd") ->
  write_fixed fnum fexp fstr fspan fmat true es = Some (mk_written es (Some []) (Err e)) /\ write_fixed fnum fexp fstr fspan fmat false es = Some (mk_written es None (Err OSError2)).
Proof.
  intros es pre bad post e E F R N1 N2 N3. assert (K : fixed_format es = Base) by now apply C111_class. unfold write_fixed. rewrite K. unfold checked_write, put_file. rewrite E, (refused_str _ _ _ _ F R). split; reflexivity.
Qed.
(** A polar without a number of tables is not written: nothing changes. *)
Theorem C111_no_tabs : forall es can_open, ~ has_key es "NumBlNds" -> ~ has_key es "NBlInpSt" -> has_key es "NumCoords" -> has_key es "InterpOrd" ->
  (forall e, In e es -> ~ low_is (label_of e) (S_ "NumTabs")) -> write_fixed fnum fexp fstr fspan fmat can_open es = Some (mk_written es None (Err KeyError)).
Proof.
  intros es c N1 N2 H1 H2 N. assert (K : fixed_format es = ADPolar) by now apply C111_class. unfold write_fixed. rewrite K. unfold write_polar, tabs_of. now rewrite none_find.
Qed.

Lemma strip1_head e es p : exists es', strip1 (e :: es : list ent) p = e :: es'.
Proof. unfold strip1. destruct (index_of (fst p) (e :: es)) as [[|i]|]; [now exists es| |now exists es]. cbn [update]. now eexists. Qed.
Lemma strip_head ts e : forall es, exists es', fold_left strip1 ts (e :: es : list ent) = e :: es'.
Proof. induction ts as [|p ts IH]; intro es; [now exists es|]. cbn [fold_left]. destruct (strip1_head e es p) as [es1 ->]. apply IH. Qed.
Lemma set_head k n e (es es' : list ent) : ~ low_is (label_of e) k -> set_number k n (e :: es) = Some es' -> exists es1, es' = e :: es1.
Proof.
  intros N H. cbn [set_number] in H. destruct (set_number k n es) as [r|]; [|discriminate]. apply is_label_not in N. rewrite N in H. injection H as <-. now exists r.
Qed.
Lemma tabs_head l e : (forall i, ~ low_is (label_of e) (numbered "NumAlf" i)) -> forall (es es' : list ent) r, check_tabs l (e :: es) = Some (es', r) -> exists es1, es' = e :: es1.
Proof.
  intro N. induction l as [|i l IH]; intros es es' r H; cbn [check_tabs] in H; [injection H as <- _; now exists es|]. unfold set_rows in H. destruct (shape_of _ _) as [[n m]|x]; [|injection H as <- _; now exists es].
  destruct (set_number (S_ "NumAlf" ++ offset i) (Z.of_nat n) (e :: es)) as [es1|] eqn:E; [|discriminate]. destruct (set_head _ _ _ _ _ (N i) E) as [es2 ->]. exact (IH _ _ _ H).
Qed.
(** The labels of a file of several polars should be written without their numbers: the first entry of the file is written as it is. *)
Theorem C111_first_entry_refuted : forall e es n line t es', ~ has_key (e :: es) "NumBlNds" -> ~ has_key (e :: es) "NBlInpSt" -> has_key (e :: es) "NumCoords" -> has_key (e :: es) "InterpOrd" ->
  tabs_are (e :: es) n -> n <> 1 -> (forall i, ~ low_is (label_of e) (numbered "NumAlf" i)) -> to_string fnum fexp fstr fspan fmat [e] = Ok line ->
  write_fixed fnum fexp fstr fspan fmat true (e :: es) = Some (mk_written es' (Some t) (Ok tt)) -> exists more, t = line ++ more.
Proof.
  intros e es n line t es' N1 N2 H1 H2 Ht Hn Na Hl W. assert (K : fixed_format (e :: es) = ADPolar) by now apply C111_class. unfold write_fixed in W. rewrite K in W. unfold write_polar, check_polar in W. rewrite (tabs_found _ _ Ht) in W.
  replace (Z.of_nat n =? 1)%Z with false in W by (symmetry; apply Z.eqb_neq; lia). destruct (check_tabs (seq 1 (Z.to_nat (Z.of_nat n))) (e :: es)) as [[es1 [[]|x]]|] eqn:C; cbn beta iota in W; [|discriminate W|discriminate W].
  destruct (tabs_head _ _ Na _ _ _ C) as [es2 ->]. unfold strip_labels in W. destruct (strip_head (targets (Z.to_nat (Z.of_nat n))) e es2) as [es3 E]. rewrite E in W. unfold put_file in W. destruct (to_string _ _ _ _ _ (e :: es3)) as [t'|x] eqn:S; [|discriminate].
  injection W as _ ->. unfold to_string in Hl, S. cbn [mapM] in Hl, S. destruct (entry_str _ _ _ _ _ e) as [l|x]; [|discriminate]. cbn [bind join] in Hl. injection Hl as <-. cbn [bind] in S. destruct (mapM _ es3) as [ls|]; [|discriminate]. cbn [bind] in S. injection S as <-.
  destruct ls as [|y ls]; [exists []; cbn [join]; now rewrite app_nil_r|]. eexists. cbn [join]. reflexivity.
Qed.
End Spec.

Local Notation zput := (write_fixed zfmt zfmt zfmt zfmt zfmt).
Example C111_unwritable_example : zput true [head_; Item (mkItem (VList []) (S_ "AFNames") false [] TAB_FIL)] = Some (mk_written [head_; Item (mkItem (VList []) (S_ "AFNames") false [] TAB_FIL)] (Some []) (Err IndexError)).
Proof.
  assert (N : forall k, k <> "AFNames"%string -> k <> ""%string -> ~ has_key [head_; Item (mkItem (VList []) (S_ "AFNames") false [] TAB_FIL)] k).
  { intros k H1 H2 (e & [<-|[<-|[]]] & C & L); [discriminate C|]. apply H1. rewrite <- (string_of_list_ascii_of_string k). unfold S_ in L. cbn [label_of it_label] in L. rewrite <- L. reflexivity. }
  eapply C111_unwritable_refuted with (pre := [head_]); [reflexivity| |constructor|apply N; discriminate|apply N; discriminate|intros [H _]; revert H; apply N; discriminate].
  constructor; [|constructor]. eexists. split; [reflexivity|discriminate].
Qed.
Example C111_first_entry_example : exists es t, zput true (line_ (VInt 5) "Re_1" :: es) = Some (mk_written (line_ (VInt 5) "Re_1" :: es) (Some t) (Ok tt)) /\ tabs_are (line_ (VInt 5) "Re_1" :: es) 2 /\ exists more, t = item_str (mkItem (VInt 5) (S_ "Re_1") false (S_ "- text") NOT_A_TAB) ++ more.
Proof.
  eexists (tl [line_ (VInt 5) "Re_1"; line_ (VInt 3) "InterpOrd"; line_ (VInt 0) "NumCoords"; line_ (VInt 2) "NumTabs"; line_ (VInt 2) "NumAlf_1"; ztab 1 [[0; 12]; [12; 0]]%Z; line_ (VInt 1) "NumAlf_2"; ztab 2 [[0; 12]]%Z]), _.
  split; [vm_compute; reflexivity|]. split.
  - eexists. split; [eexists [_; _; _], _; split; [reflexivity|]; split; [vm_compute; reflexivity|]; repeat constructor; vm_compute; discriminate|reflexivity].
  - eexists. vm_compute. reflexivity.
Qed.
Example C111_no_tabs_example : zput true [line_ (VInt 3) "InterpOrd"; line_ (VInt 0) "NumCoords"] = Some (mk_written [line_ (VInt 3) "InterpOrd"; line_ (VInt 0) "NumCoords"] None (Err KeyError)).
Proof.
  apply C111_no_tabs.
  - intros (e & [<-|[<-|[]]] & _ & L); vm_compute in L; discriminate.
  - intros (e & [<-|[<-|[]]] & _ & L); vm_compute in L; discriminate.
  - eexists. split; [right; now left|]. split; reflexivity.
  - eexists. split; [now left|]. split; reflexivity.
  - intros e [<-|[<-|[]]]; vm_compute; discriminate.
Qed.

Print Assumptions C109_unwritable_refuted.
Print Assumptions C111_unwritable_refuted.
Print Assumptions C111_no_tabs.
Print Assumptions C111_first_entry_refuted.
