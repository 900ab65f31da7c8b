(** C100, C101, C102: HAWCStab2 files whose table cannot be read, or with no modes. *)
From Verif Require Import Py PyFacts TextFacts ListFacts CSV_Model CSV_Props H2dat_Model H2dat_Props H2datNames_Props St_Props HS2_Model HS2_Props.
From Coq Require Import ZifyBool ZifyNat.
Local Open Scope nat_scope.

(** The numbers of a line are written before the mark of comments. *)
Definition data_words (l : str) : list str := split_ws (hd [] (split_chr "#"%char l)).
(** A table that is none: a word that is no number, or two lines of different lengths *)
Definition bad_table {V} (num : str -> option V) (lines : list str) : Prop :=
  (exists l w, In l lines /\ In w (data_words l) /\ num w = None) \/
  (exists l l', In l lines /\ In l' lines /\ data_words l <> [] /\ data_words l' <> [] /\ List.length (data_words l) <> List.length (data_words l')).

Lemma mapM_err {A B} (g : A -> res B) l x : In x l -> (forall y, g x <> Ok y) -> forall r, mapM g l <> Ok r.
Proof.
  intros Hx Hg. induction l as [|a l IH]; intros r E; [destruct Hx|]. cbn [mapM] in E. destruct Hx as [->|Hx].
  - destruct (g x) as [y|] eqn:G; [exact (Hg y eq_refl)|discriminate].
  - destruct (g a); [|discriminate]. cbn [bind] in E. destruct (mapM g l) as [r'|] eqn:M; [exact (IH Hx r' eq_refl)|discriminate].
Qed.
Lemma floats_none {V} (num : str -> option V) ws w : In w ws -> num w = None -> floats num ws = None.
Proof.
  intros H N. induction ws as [|x ws IH]; [destruct H|]. cbn [floats]. destruct H as [->|H]; [now rewrite N|]. rewrite (IH H). now destruct (num x).
Qed.
Lemma bad_loadtxt {V} (num : str -> option V) first lines : Forall (no_chr nl) (first :: lines) -> bad_table num lines -> exists e, loadtxt1 num (join [nl] (first :: lines)) = Err e.
Proof.
  intros F B. destruct (loadtxt1 num (join [nl] (first :: lines))) as [rs|e] eqn:E; [|now exists e]. exfalso. unfold loadtxt1 in E.
  assert (S : split_chr nl (join [nl] (first :: lines)) = first :: lines).
  { apply split_chr_join; [discriminate|]. apply forallb_forall. intros l Hl. rewrite Forall_forall in F. specialize (F l Hl). apply negb_true_iff. destruct (mem_chr nl l) eqn:M; [apply mem_chr_iff in M; contradiction|reflexivity]. }
  unfold table_rows in E. rewrite S in E. cbn [tl] in E. change (fun l => split_ws (hd [] (split_chr (ch 35) l))) with data_words in E.
  assert (IN : forall l, In l lines -> data_words l <> [] -> In (data_words l) (filter nonempty (map data_words lines))).
  { intros l Hl Hn. apply filter_In. split; [now apply in_map|]. now destruct (data_words l). }
  destruct (forallb _ _) eqn:Q in E; [|discriminate]. rewrite forallb_forall in Q. destruct B as [(l & w & Hl & Hw & N)|(l & l' & Hl & Hl' & N & N' & D)].
  - assert (NE : data_words l <> []) by (intro X; rewrite X in Hw; destruct Hw). revert E. apply (mapM_err _ _ (data_words l) (IN l Hl NE)). intro y. rewrite (floats_none num _ w Hw N). discriminate.
  - pose proof (Q _ (IN l Hl N)) as Q1. pose proof (Q _ (IN l' Hl' N')) as Q2. apply Nat.eqb_eq in Q1, Q2. lia.
Qed.

(** A broken file should be a BrokenFormatError: it is a NameError, whatever its name. *)
Theorem C100_bad_table_refuted : forall V (num : str -> option V) milli name first lines h, Forall (no_chr nl) (first :: lines) -> strip first = "#"%char :: h ->
  In (closings first) (map fst ind_kinds) -> bad_table num lines -> read_ind num milli name (join [nl] (first :: lines)) = Err NameError.
Proof.
  intros V num milli name first lines h F S N B. destruct (header_count (join [nl] (first :: lines)) first lines) with (h := h) as [E C].
  - apply split_chr_join; [discriminate|]. apply forallb_forall. intros l Hl. rewrite Forall_forall in F. specialize (F l Hl). apply negb_true_iff. destruct (mem_chr nl l) eqn:M; [apply mem_chr_iff in M; contradiction|reflexivity].
  - exact S.
  - unfold read_ind. rewrite E. cbn [bind]. unfold ind_cols. rewrite map_length, cols_count by (cbn; intuition discriminate). rewrite C.
    destruct (bad_loadtxt num first lines F B) as [e Q]. unfold table. rewrite Q. cbn [map fst ind_kinds In] in N. destruct N as [<-|[<-|[<-|[]]]]; reflexivity.
Qed.
Theorem C101_bad_table_refuted : forall V (num : str -> option V) first lines h, Forall (no_chr nl) (first :: lines) -> strip first = "#"%char :: h ->
  closings first = 15 -> bad_table num lines -> read_pwr num (join [nl] (first :: lines)) = Err NameError.
Proof.
  intros V num first lines h F S N B. destruct (header_count (join [nl] (first :: lines)) first lines) with (h := h) as [E C].
  - apply split_chr_join; [discriminate|]. apply forallb_forall. intros l Hl. rewrite Forall_forall in F. specialize (F l Hl). apply negb_true_iff. destruct (mem_chr nl l) eqn:M; [apply mem_chr_iff in M; contradiction|reflexivity].
  - exact S.
  - unfold read_pwr. rewrite E. cbn [bind]. unfold pwr_cols. rewrite map_length, cols_count by (cbn; intuition discriminate). rewrite C, N. cbn [Nat.eqb].
    destruct (bad_loadtxt num first lines F B) as [e Q]. unfold table. rewrite Q. reflexivity.
Qed.
(** A Campbell file of no modes is a division by zero, not one of the format errors. *)
Theorem C102_zero_modes_refuted : forall V (num : str -> option V) h m d0 d1 ds rs, num [] = None -> ~ number_and_word (strip h) -> last (split_ws h) [] = S_ "0" ->
  CSV_Props.table_rows num (for_pandas (CSV_Props.shown d1)) None m (d0 :: d1 :: ds) rs -> read_cmb num (h :: d0 :: d1 :: ds) = Err ZeroDivisionError.
Proof. intros V num h m d0 d1 ds rs NE NW L TR. rewrite (read_cmb_eq num h (S_ "0") 0%Z d0 d1 ds rs m NE NW TR L eq_refl). reflexivity. Qed.

(** The hypotheses are met. *)
Definition ex_head (n : nat) : str := S_ "# " ++ flat_map (fun i => str_of_N (N.of_nat i) ++ S_ " Fx [N] ") (seq 1 n).
Example ex_bad : Forall (no_chr nl) [ex_head 14; S_ "1 2"; S_ "3 x"] /\ (exists h, strip (ex_head 14) = "#"%char :: h) /\ closings (ex_head 14) = 14 /\ bad_table digit [S_ "1 2"; S_ "3 x"] /\ closings (ex_head 15) = 15 /\ bad_table digit [S_ "1 2"; S_ "3 # 4"].
Proof.
  split; [|split; [|split; [|split; [|split]]]].
  - repeat constructor; unfold no_chr; vm_compute; intuition discriminate.
  - eexists. vm_compute. reflexivity.
  - vm_compute. reflexivity.
  - left. exists (S_ "3 x"), (S_ "x"). split; [right; now left|]. split; [right; now left|reflexivity].
  - vm_compute. reflexivity.
  - right. exists (S_ "1 2"), (S_ "3 # 4"). split; [now left|]. split; [right; now left|]. repeat split; discriminate.
Qed.
Example C102_zero_modes_example : read_cmb digit [S_ "# Mode number: 0"; S_ "4 1"; S_ "5 1"] = Err ZeroDivisionError.
Proof.
  apply (C102_zero_modes_refuted _ digit (S_ "# Mode number: 0") 2 _ _ _ [[4; 1]; [5; 1]]%N).
  - reflexivity.
  - intros (w0 & w1 & ws & z & E & I & _). vm_compute in E. injection E as <- _ _. vm_compute in I. discriminate I.
  - vm_compute. reflexivity.
  - split; [|split; [repeat constructor|split; [discriminate|cbn; lia]]].
    repeat (apply Forall2_cons; [apply whole_row; [vm_compute; discriminate|exact Logic.I|reflexivity]|]). apply Forall2_nil.
Qed.

Print Assumptions C100_bad_table_refuted.
Print Assumptions C101_bad_table_refuted.
Print Assumptions C102_zero_modes_refuted.
