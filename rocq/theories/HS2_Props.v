(** C100, C101 and C102: HAWCStab2 induction, power and Campbell files. *)
From Verif Require Import Py PyFacts TextFacts ListFacts CSV_Model CSV_Props H2dat_Model H2dat_Props H2datNames_Props St_Props HS2_Model.
From Coq Require Import ZifyBool ZifyNat.
Local Open Scope nat_scope.

(** ** The header line of HAWCStab2 *)
(** A column: blanks, the words of the name, the blanks before the bracket, the unit, and the blanks before the number of the column *)
Record column := mk_col { c_lead : nat; c_words : list str; c_gap : nat; c_unit : str; c_tail : nat }.
Definition blanks (n : nat) : str := repeat " "%char n.
Definition title (c : column) : str := join (S_ " ") (c_words c).
Fixpoint columns_text (k : nat) (cols : list column) : str :=
  match cols with
  | [] => []
  | c :: cols' => blanks (c_lead c) ++ title c ++ blanks (c_gap c) ++ S_ "[" ++ c_unit c ++ S_ "]" ++ blanks (c_tail c) ++ str_of_N (N.of_nat k) ++ columns_text (S k) cols'
  end.
Definition header (before after : nat) (cols : list column) : str := blanks before ++ S_ "#" ++ columns_text 1 cols ++ blanks after.
(** The label a user expects: the words and the unit in brackets, joined with underscores *)
Definition label (c : column) : str := join (S_ "_") (c_words c) ++ S_ "_[" ++ c_unit c ++ S_ "]".
Definition plain (s : str) : Prop := forallb (fun c => negb (is_space c) && negb (mem_chr c (S_ "[]"))) s = true.
Definition column_ok (c : column) : Prop := c_words c <> [] /\ Forall (fun w => w <> [] /\ plain w) (c_words c) /\ plain (c_unit c) /\ nowhere (S_ "__") (label c).
(** The number before a name: a number of one digit is followed by a blank. *)
Definition apart (k : nat) (c : column) : Prop := k < 10 -> 1 <= k -> 1 <= c_lead c.
Definition all_apart (cols : list column) : Prop := forall k c, nth_error cols k = Some c -> apart k c.

(** A line without text *)
Definition blank_line (l : str) : Prop := forallb is_space l = true /\ ~ In nl l.
(** The text of a file with this header, these lines and perhaps blank lines at the end *)
Definition file_text (before after : nat) (cols : list column) (lines ends : list str) : str := join [nl] (header before after cols :: lines ++ ends).
(** The lines are a table of numbers with n columns; a row may be followed by a comment. *)
Definition numeric_lines {V} (num : str -> option V) (n : nat) (lines : list str) (rs : list (list V)) : Prop :=
  CSV_Props.table_rows num Blanks (Some "#"%char) n lines rs /\ Forall (fun l => ~ In nl l) lines.

(** ** Lemmas *)
Lemma repl1 c rep s : replace_ [c] rep s = flat_map (fun x => if chr_eqb x c then rep else [x]) s.
Proof.
  unfold replace_. induction s as [|x s IH]; [reflexivity|]. cbn [repl flat_map startswith]. rewrite andb_true_r.
  destruct (chr_eqb x c); cbn [List.length Nat.sub app]; rewrite IH; reflexivity.
Qed.
Lemma repl1_none c rep s : ~ In c s -> replace_ [c] rep s = s.
Proof. intro H. rewrite repl1. induction s as [|x s IH]; [reflexivity|]. cbn [flat_map]. destruct (chr_eqb x c) eqn:E; [apply chr_eqb_eq in E; subst x; elim H; now left|]. cbn [app]. f_equal. apply IH. intro; apply H; now right. Qed.
Lemma repl1_app c rep a b : replace_ [c] rep (a ++ b) = replace_ [c] rep a ++ replace_ [c] rep b.
Proof. rewrite !repl1. apply flat_map_app. Qed.
Lemma plain_app a b : plain (a ++ b) <-> plain a /\ plain b.
Proof. unfold plain. rewrite forallb_app, andb_true_iff. tauto. Qed.
Lemma plain_not c s : plain s -> is_space c = true \/ In c (S_ "[]") -> ~ In c s.
Proof. unfold plain. rewrite forallb_forall. intros H Q I. apply H in I. apply andb_inv in I. destruct I as [I1 I2]. destruct Q as [Q|Q]; [rewrite Q in I1; discriminate I1|]. apply mem_chr_iff in Q. rewrite Q in I2. discriminate I2. Qed.
Lemma plain_space s : plain s -> forallb (fun c => negb (is_space c)) s = true.
Proof. unfold plain. rewrite !forallb_forall. intros H x Hx. apply H in Hx. apply andb_inv in Hx. tauto. Qed.
Lemma blanks_space n : forallb is_space (blanks n) = true.
Proof. induction n as [|n IH]; [reflexivity|exact IH]. Qed.
Lemma blanks_in c n : In c (blanks n) -> c = " "%char.
Proof. intro H. apply repeat_spec in H. exact H. Qed.
Lemma join_repl ws : Forall (fun w => w <> [] /\ plain w) ws -> replace_ (S_ " ") (S_ "_") (join (S_ " ") ws) = join (S_ "_") ws.
Proof.
  induction ws as [|w ws IH]; intro H; [reflexivity|]. inversion H as [|? ? [_ P] H']; subst. destruct ws as [|w' ws]; [apply repl1_none, (plain_not _ _ P); left; reflexivity|].
  change (join (S_ " ") (w :: w' :: ws)) with (w ++ S_ " " ++ join (S_ " ") (w' :: ws)). change (join (S_ "_") (w :: w' :: ws)) with (w ++ S_ "_" ++ join (S_ "_") (w' :: ws)).
  change (S_ " ") with [" "%char] at 1. rewrite !repl1_app. rewrite (repl1_none _ _ w) by (apply (plain_not _ _ P); left; reflexivity). rewrite <- (IH H'). reflexivity.
Qed.
Lemma blanks_repl n : replace_ (S_ " ") (S_ "_") (blanks n) = repeat "_"%char n.
Proof. change (S_ " ") with [" "%char]. rewrite repl1. induction n as [|n IH]; [reflexivity|]. cbn [blanks repeat flat_map]. fold (blanks n). rewrite IH. reflexivity. Qed.
Lemma title_not c ws x : Forall (fun w => w <> [] /\ plain w) ws -> In c (S_ "[]") \/ (is_space c = true /\ c <> x) -> c <> x -> ~ In c (join [x] ws).
Proof.
  intros H Q N. induction ws as [|w ws IH]; [intros []|]. inversion H as [|? ? [_ P] H']; subst. assert (Hw : ~ In c w) by (apply (plain_not _ _ P); destruct Q as [Q|[Q _]]; auto).
  destruct ws as [|w' ws]; [exact Hw|]. change (join [x] (w :: w' :: ws)) with (w ++ [x] ++ join [x] (w' :: ws)). rewrite !in_app_iff. intros [I|[[I|[]]|I]]; [exact (Hw I)|congruence|exact (IH H' I)].
Qed.
Lemma title_head ws x : ws <> [] -> Forall (fun w => w <> [] /\ plain w) ws -> exists c t, join x ws = c :: t /\ is_space c = false /\ c <> "]"%char.
Proof.
  intros N H. destruct ws as [|w ws]; [congruence|]. inversion H as [|? ? [NE P] _]; subst. destruct w as [|c w]; [congruence|]. exists c.
  assert (Q : is_space c = false /\ c <> "]"%char).
  { unfold plain in P. cbn [forallb] in P. apply andb_inv in P. destruct P as [P _]. apply andb_inv in P. destruct P as [P1 P2]. split; [apply negb_true_iff; exact P1|]. intros ->. discriminate P2. }
  destruct ws as [|w' ws]; [exists w; split; [reflexivity|exact Q]|]. exists (w ++ x ++ join x (w' :: ws)). split; [reflexivity|exact Q].
Qed.
Lemma unit_last u : plain u -> exists t c, S_ "[" ++ u = t ++ [c] /\ is_space c = false.
Proof.
  intro P. destruct (rev u) as [|c t] eqn:E.
  - assert (u = []) by (rewrite <- (rev_involutive u), E; reflexivity). subst u. exists [], "["%char. split; reflexivity.
  - assert (Eu : u = rev t ++ [c]) by (rewrite <- (rev_involutive u), E; reflexivity). exists (S_ "[" ++ rev t), c. split; [rewrite Eu, app_assoc; reflexivity|].
    assert (Hc : In c u) by (rewrite Eu; apply in_or_app; right; now left). unfold plain in P. rewrite forallb_forall in P. apply P in Hc. apply andb_inv in Hc. apply negb_true_iff. tauto.
Qed.
Lemma strip_ends c s t d b : is_space c = false -> is_space d = false -> c :: s = t ++ [d] -> forallb is_space b = true -> strip (b ++ c :: s) = c :: s.
Proof.
  intros H1 H2 E B. replace (b ++ c :: s) with (b ++ (c :: s) ++ []) by (rewrite app_nil_r; reflexivity). rewrite strip_pad by (try exact B; reflexivity). apply strip_noedge. unfold no_edge_space. rewrite H1, E, rev_app_distr. cbn [rev app negb andb]. rewrite H2. reflexivity.
Qed.
Definition core (c : column) : str := title c ++ blanks (c_gap c) ++ S_ "[" ++ c_unit c.
Fixpoint pieces (x : str) (k : nat) (cols : list column) : list str :=
  match cols with [] => [] | c :: cols' => (x ++ blanks (c_lead c) ++ core c) :: pieces (blanks (c_tail c) ++ str_of_N (N.of_nat k)) (S k) cols' end.
Lemma digits_not n c : is_digit c = false -> ~ In c (str_of_N n).
Proof. intros H I. pose proof (str_of_N_digits n) as D. rewrite forallb_forall in D. rewrite (D c I) in H. discriminate H. Qed.
Lemma core_close c : column_ok c -> ~ In "]"%char (core c).
Proof.
  intros (N & W & U & _) I. unfold core, title in I. rewrite !in_app_iff in I. destruct I as [I|[I|[I|I]]].
  - revert I. apply title_not; [exact W|left; cbn; tauto|discriminate].
  - apply blanks_in in I. discriminate I.
  - destruct I as [I|[]]. discriminate I.
  - revert I. apply plain_not; [exact U|right; cbn; tauto].
Qed.
Lemma pieces_split cols : forall x k, ~ In "]"%char x -> Forall column_ok cols -> removelast (split_chr "]"%char (x ++ columns_text k cols)) = pieces x k cols.
Proof.
  induction cols as [|c cols IH]; intros x k X H; cbn [columns_text pieces].
  - rewrite app_nil_r. unfold split_chr. rewrite split_on_none; [reflexivity|]. apply forallb_forall. intros y Hy. apply negb_true_iff, chr_eqb_neq. intros ->. exact (X Hy).
  - inversion H as [|? ? Hc Hs]; subst.
    replace (x ++ blanks (c_lead c) ++ title c ++ blanks (c_gap c) ++ S_ "[" ++ c_unit c ++ S_ "]" ++ blanks (c_tail c) ++ str_of_N (N.of_nat k) ++ columns_text (S k) cols)
      with ((x ++ blanks (c_lead c) ++ core c) ++ "]"%char :: (blanks (c_tail c) ++ str_of_N (N.of_nat k)) ++ columns_text (S k) cols).
    2:{ unfold core. rewrite <- !app_assoc. reflexivity. }
    rewrite split_chr_head.
    2:{ unfold no_chr. rewrite !in_app_iff. intros [I|[I|I]]; [exact (X I)|apply blanks_in in I; discriminate I|exact (core_close c Hc I)]. }
    specialize (IH (blanks (c_tail c) ++ str_of_N (N.of_nat k)) (S k)). rewrite <- IH; [|rewrite in_app_iff; intros [I|I]; [apply blanks_in in I; discriminate I|exact (digits_not _ "]"%char eq_refl I)]|exact Hs].
    destruct (split_chr "]"%char ((blanks (c_tail c) ++ str_of_N (N.of_nat k)) ++ columns_text (S k) cols)) eqn:E; [unfold split_chr in E; exfalso; exact (split_on_nonnil _ _ E)|]. reflexivity.
Qed.
Definition unled (cols : list column) : list column := match cols with [] => [] | c :: cols' => mk_col 0 (c_words c) (c_gap c) (c_unit c) (c_tail c) :: cols' end.
Lemma columns_end k c cols : exists t d, columns_text k (c :: cols) = t ++ [d] /\ is_space d = false.
Proof.
  revert k c. induction cols as [|c' cols IH]; intros k c.
  - cbn [columns_text]. rewrite app_nil_r. destruct (rev (str_of_N (N.of_nat k))) as [|d t] eqn:E; [exfalso; apply (str_of_N_nonempty (N.of_nat k)); rewrite <- (rev_involutive (str_of_N _)), E; reflexivity|].
    assert (Eu : str_of_N (N.of_nat k) = rev t ++ [d]) by (rewrite <- (rev_involutive (str_of_N _)), E; reflexivity).
    exists (blanks (c_lead c) ++ title c ++ blanks (c_gap c) ++ S_ "[" ++ c_unit c ++ S_ "]" ++ blanks (c_tail c) ++ rev t), d. split; [rewrite Eu, <- !app_assoc; reflexivity|].
    pose proof (digits_no_space (str_of_N (N.of_nat k)) (str_of_N_digits _)) as D. rewrite Eu, forallb_app in D. apply andb_inv in D. destruct D as [_ D]. cbn [forallb] in D. rewrite andb_true_r in D. apply negb_true_iff. exact D.
  - destruct (IH (S k) c') as (t & d & E & D). remember (columns_text (S k) (c' :: cols)) as R eqn:HR.
    exists (blanks (c_lead c) ++ title c ++ blanks (c_gap c) ++ S_ "[" ++ c_unit c ++ S_ "]" ++ blanks (c_tail c) ++ str_of_N (N.of_nat k) ++ t), d. split; [|exact D].
    cbn [columns_text]. cbn [columns_text] in HR. rewrite <- HR, E, <- !app_assoc. reflexivity.
Qed.
Lemma header_strip before after cols : cols <> [] -> Forall column_ok cols -> exists h, strip (header before after cols) = "#"%char :: h /\ strip h = columns_text 1 (unled cols).
Proof.
  intros N H. destruct cols as [|c cols]; [congruence|]. inversion H as [|? ? Hc _]; subst. destruct Hc as (NW & W & _).
  set (c0 := mk_col 0 (c_words c) (c_gap c) (c_unit c) (c_tail c)). assert (E0 : columns_text 1 (c :: cols) = blanks (c_lead c) ++ columns_text 1 (c0 :: cols)) by reflexivity.
  destruct (columns_end 1 c0 cols) as (t & d & E & D). exists (blanks (c_lead c) ++ columns_text 1 (c0 :: cols)). unfold header. rewrite E0.
  set (X := columns_text 1 (c0 :: cols)) in *. split.
  - change (S_ "#" ++ (blanks (c_lead c) ++ X) ++ blanks after) with (("#"%char :: blanks (c_lead c) ++ X) ++ blanks after). rewrite strip_pad by apply blanks_space.
    apply (strip_ends "#"%char (blanks (c_lead c) ++ X) ("#"%char :: blanks (c_lead c) ++ t) d []); try reflexivity; [exact D|rewrite E, app_assoc; reflexivity].
  - assert (EX : exists a s, X = a :: s /\ is_space a = false).
    { destruct (title_head (c_words c) (S_ " ") NW W) as (a & s & T & SA & _). unfold X. cbn [columns_text]. unfold title. cbn [c0 c_words c_lead blanks repeat app]. rewrite T. eexists. eexists. split; [reflexivity|exact SA]. }
    destruct EX as (a & s & EX & SA). change (columns_text 1 (unled (c :: cols))) with X. rewrite EX. apply (strip_ends a s t d); [exact SA|exact D|rewrite <- EX; exact E|apply blanks_space].
Qed.
Lemma unled_ok cols : Forall column_ok cols -> Forall column_ok (unled cols).
Proof. destruct cols as [|c cols]; intro H; [constructor|]. inversion H; subst. constructor; assumption. Qed.
Lemma header_no_nl before after cols : Forall column_ok cols -> ~ In nl (header before after cols).
Proof.
  intros H. unfold header. rewrite !in_app_iff. intros [I|[[I|[]]|[I|I]]]; try (apply blanks_in in I; discriminate I); try discriminate I.
  revert I. generalize 1 as k. induction cols as [|c cols IH]; intros k I; [exact I|]. inversion H as [|? ? Hc Hs]; subst. destruct Hc as (NW & W & U & _). cbn [columns_text] in I. rewrite !in_app_iff in I.
  destruct I as [I|[I|[I|[[I|[]]|[I|[[I|[]]|[I|[I|I]]]]]]]]; try (apply blanks_in in I; discriminate I); try discriminate I.
  - revert I. apply title_not; [exact W|right; split; [reflexivity|discriminate]|discriminate].
  - revert I. apply plain_not; [exact U|left; reflexivity].
  - exact (digits_not _ nl eq_refl I).
  - exact (IH Hs _ I).
Qed.
Lemma file_lines before after cols lines ends : Forall column_ok cols -> Forall (fun l => ~ In nl l) lines -> Forall blank_line ends ->
  split_chr nl (file_text before after cols lines ends) = header before after cols :: lines ++ ends.
Proof.
  intros H L E. unfold file_text. apply split_chr_join; [discriminate|]. apply forallb_forall. intros l Hl.
  assert (Q : ~ In nl l). { destruct Hl as [<-|Hl]; [apply header_no_nl; exact H|]. apply in_app_or in Hl. rewrite Forall_forall in L, E. destruct Hl as [Hl|Hl]; [apply L; exact Hl|apply E; exact Hl]. }
  apply negb_true_iff. destruct (mem_chr nl l) eqn:M; [apply mem_chr_iff in M; contradiction|reflexivity].
Qed.
Lemma num_len : forallb (fun k => Nat.eqb (List.length (str_of_N (N.of_nat k))) (if k <? 10 then 1 else 2)) (seq 1 99) = true.
Proof. vm_compute. reflexivity. Qed.
Lemma number_length k : 1 <= k -> k < 100 -> List.length (str_of_N (N.of_nat k)) = if k <? 10 then 1 else 2.
Proof. intros H1 H2. pose proof num_len as Q. rewrite forallb_forall in Q. apply Nat.eqb_eq, Q, in_seq. lia. Qed.
Lemma core_edges c : column_ok c -> exists a s, core c = a :: s /\ is_space a = false /\ exists t d, core c = t ++ [d] /\ is_space d = false.
Proof.
  intros (N & W & U & _). destruct (title_head (c_words c) (S_ " ") N W) as (a & s & E & SA & _). destruct (unit_last (c_unit c) U) as (t & d & Eu & SD). unfold core, title. rewrite E, Eu.
  exists a, (s ++ blanks (c_gap c) ++ t ++ [d]). split; [reflexivity|]. split; [exact SA|]. exists ((a :: s) ++ blanks (c_gap c) ++ t), d. split; [rewrite <- !app_assoc; reflexivity|exact SD].
Qed.
Lemma strip_core c n : column_ok c -> strip (blanks n ++ core c ++ S_ "]") = core c ++ S_ "]".
Proof.
  intro H. destruct (core_edges c H) as (a & s & E & SA & _). rewrite E. change ((a :: s) ++ S_ "]") with (a :: (s ++ S_ "]")). apply (strip_ends a (s ++ S_ "]") (a :: s) "]"%char); try reflexivity; [exact SA|apply blanks_space].
Qed.
Lemma core_marks c : column_ok c -> replace_ (S_ " ") (S_ "_") (core c ++ S_ "]") = join (S_ "_") (c_words c) ++ repeat "_"%char (c_gap c) ++ S_ "[" ++ c_unit c ++ S_ "]".
Proof.
  intros (N & W & U & _). unfold core, title. change (S_ " ") with [" "%char] at 1. rewrite !repl1_app. change [" "%char] with (S_ " "). rewrite join_repl by exact W. rewrite blanks_repl, <- !app_assoc. do 3 f_equal.
  f_equal. apply repl1_none, (plain_not _ _ U). left. reflexivity.
Qed.
Lemma under_not x n : x <> "_"%char -> ~ In x (repeat "_"%char n).
Proof. intros H I. apply repeat_spec in I. congruence. Qed.
Lemma nowhere_sub pat a s b : nowhere pat (a ++ s ++ b) -> nowhere pat s.
Proof. intros H x y ->. apply (H (a ++ x) (y ++ b)). rewrite <- !app_assoc. reflexivity. Qed.
(** The label of a column, whatever the text before its name *)
Lemma ind_col_core c (w : str) n : column_ok c -> c_gap c <= 1 -> List.length w + n = 2 \/ (List.length w = 2) -> n <= c_lead c -> ind_col (w ++ blanks (c_lead c) ++ core c ++ S_ "]") = label c.
Proof.
  intros H G L LE. unfold ind_col. replace (strip (skipn 2 (w ++ blanks (c_lead c) ++ core c ++ S_ "]"))) with (core c ++ S_ "]").
  2:{ symmetry. destruct L as [L|L].
      - replace (c_lead c) with (n + (c_lead c - n)) by lia. unfold blanks at 1. rewrite repeat_app. fold (blanks n). fold (blanks (c_lead c - n)). rewrite <- app_assoc, (app_assoc w).
        replace 2 with (List.length (w ++ blanks n)) by (rewrite app_length; unfold blanks; rewrite repeat_length; exact L). rewrite skipn_exact. apply strip_core. exact H.
      - rewrite <- L, skipn_exact. apply strip_core. exact H. }
  rewrite core_marks by exact H. destruct H as (N & W & U & D). change (S_ "[") with ["["%char] at 1. rewrite !repl1_app. rewrite (repl1_none "["%char _ (join (S_ "_") (c_words c))) by (apply title_not; [exact W|left; cbn; tauto|discriminate]).
  rewrite (repl1_none "["%char _ (repeat _ _)) by (apply under_not; discriminate). rewrite (repl1_none "["%char _ (c_unit c)) by (apply (plain_not _ _ U); right; cbn; tauto).
  change (replace_ ["["%char] (S_ "_[") (S_ "[")) with (S_ "_["). change (replace_ ["["%char] (S_ "_[") (S_ "]")) with (S_ "]").
  destruct (c_gap c) as [|[|g]]; [|  |lia]; cbn [repeat app].
  - apply replace_nowhere. exact D.
  - change ("_"%char :: S_ "_[" ++ c_unit c ++ S_ "]") with (S_ "__" ++ S_ "[" ++ c_unit c ++ S_ "]"). rewrite replace_once; [reflexivity|discriminate| |].
    + change (removelast (S_ "__")) with (S_ "_"). unfold label in D. apply (nowhere_sub _ [] _ (S_ "[" ++ c_unit c ++ S_ "]")). cbn [app]. rewrite <- app_assoc. exact D.
    + unfold label in D. apply (nowhere_sub _ (join (S_ "_") (c_words c) ++ S_ "_") _ []). rewrite app_nil_r, <- app_assoc. exact D.
Qed.
Lemma piece_strip c n k x : column_ok c -> x = blanks n ++ str_of_N (N.of_nat k) -> strip (x ++ blanks (c_lead c) ++ core c) = str_of_N (N.of_nat k) ++ blanks (c_lead c) ++ core c.
Proof.
  intros H ->. destruct (core_edges c H) as (_ & _ & _ & _ & t & d & E & SD). pose proof (str_of_N_nonempty (N.of_nat k)) as NE. pose proof (digits_no_space _ (str_of_N_digits (N.of_nat k))) as D.
  destruct (str_of_N (N.of_nat k)) as [|a s]; [congruence|]. cbn [forallb] in D. apply andb_inv in D. destruct D as [D _]. apply negb_true_iff in D.
  rewrite <- app_assoc. change ((a :: s) ++ blanks (c_lead c) ++ core c) with (a :: (s ++ blanks (c_lead c) ++ core c)).
  apply (strip_ends a _ (a :: s ++ blanks (c_lead c) ++ t) d); [exact D|exact SD|rewrite E; cbn [app]; rewrite <- !app_assoc; reflexivity|apply blanks_space].
Qed.
Lemma ind_pieces cols : forall k x n, 1 <= k -> k + List.length cols <= 100 -> Forall column_ok cols -> Forall (fun c => c_gap c <= 1) cols -> (forall j c, nth_error cols j = Some c -> apart (k + j) c) ->
  x = blanks n ++ str_of_N (N.of_nat k) -> map (fun s => ind_col (strip s ++ S_ "]")) (pieces x (S k) cols) = map label cols.
Proof.
  induction cols as [|c cols IH]; intros k x n K LE H G A X; [reflexivity|]. cbn [List.length] in LE. inversion H as [|? ? Hc Hs]; subst. inversion G as [|? ? Gc Gs]; subst. cbn [pieces map]. f_equal.
  - rewrite (piece_strip c n k _ Hc eq_refl), <- !app_assoc. pose proof (number_length k K ltac:(lia)) as L. pose proof (A 0 c eq_refl) as A0. unfold apart in A0. rewrite Nat.add_0_r in A0.
    destruct (Nat.ltb_spec k 10) as [Q|Q]; [apply (ind_col_core c _ 1 Hc Gc); [left; lia|lia]|apply (ind_col_core c _ 0 Hc Gc); [left; lia|lia]].
  - apply (IH (S k) _ (c_tail c)); try assumption; try lia; [|reflexivity]. intros j c' E. specialize (A (S j) c' E). replace (S k + j) with (k + S j) by lia. exact A.
Qed.
Lemma ind_names cols : cols <> [] -> List.length cols <= 100 -> Forall column_ok cols -> Forall (fun c => c_gap c <= 1) cols -> all_apart cols ->
  ind_cols (columns_text 1 (unled cols)) = map label cols.
Proof.
  intros N LE H G A. unfold ind_cols, num_and_cols. rewrite map_map. change (ch 93) with "]"%char. rewrite pieces_split; [|cbn; intuition discriminate|apply unled_ok; exact H].
  destruct cols as [|c cols]; [congruence|]. inversion H as [|? ? Hc Hs]; subst. inversion G as [|? ? Gc Gs]; subst. cbn [unled pieces map]. cbn [List.length] in LE. f_equal.
  - set (c0 := mk_col 0 (c_words c) (c_gap c) (c_unit c) (c_tail c)). assert (H0 : column_ok c0) by exact Hc. change (label c) with (label c0).
    replace (strip (S_ "00" ++ blanks (c_lead c0) ++ core c0)) with (S_ "00" ++ blanks (c_lead c0) ++ core c0).
    + rewrite <- !app_assoc. apply (ind_col_core c0 (S_ "00") 0 H0 Gc); [right; reflexivity|apply Nat.le_0_l].
    + symmetry. destruct (core_edges c0 H0) as (_ & _ & _ & _ & t & d & E & SD).
      apply (strip_ends "0"%char (S_ "0" ++ blanks (c_lead c0) ++ core c0) (S_ "00" ++ t) d []); try reflexivity; [exact SD|cbn [c0 c_lead blanks repeat app]; rewrite E; reflexivity].
  - apply (ind_pieces cols 1 _ (c_tail c)); try assumption; try lia; [|reflexivity]. intros j c' E. exact (A (S j) c' E).
Qed.

(** ** The numbers *)
Section Numbers.
Context {V : Type}.
Variable num : str -> option V.
Lemma floats_some ws r : map num ws = map Some r -> floats num ws = Some r.
Proof. revert r. induction ws as [|w ws IH]; intros [|v r] H; try discriminate H; [reflexivity|]. cbn [map] in H. injection H as H1 H2. cbn [floats]. rewrite H1, (IH r H2). reflexivity. Qed.
Lemma row_words l r : number_row num Blanks (Some "#"%char) l r -> map num (split_ws (hd [] (split_chr "#"%char l))) = map Some r /\ split_ws (hd [] (split_chr "#"%char l)) <> [].
Proof.
  intros (t & (NI & E) & NE & M). cbn [cells] in M. assert (H : hd [] (split_chr "#"%char l) = t).
  { assert (F : forallb (fun x => negb (chr_eqb x "#"%char)) t = true) by (apply forallb_forall; intros x Hx; apply negb_true_iff, chr_eqb_neq; intros ->; exact (NI Hx)).
    destruct E as [->|(more & ->)]; [unfold split_chr; rewrite split_on_none by exact F; reflexivity|rewrite split_chr_head by exact NI; reflexivity]. }
  rewrite H. split; [exact M|]. rewrite <- split_ws_strip. pose proof (strip_no_edge t) as Q. destruct (strip t) as [|c u]; [congruence|]. intro X. unfold no_edge_space in Q. apply andb_inv in Q. destruct Q as [Q _]. apply negb_true_iff in Q.
  assert (T : split_ws (c :: u) <> []); [|contradiction]. clear -Q. unfold split_ws. cbn [split_on]. rewrite Q. destruct (split_on is_space u); cbn; discriminate.
Qed.
Lemma lines_words n lines rs : Forall2 (number_row num Blanks (Some "#"%char)) lines rs -> Forall (fun r => List.length r = n) rs -> forall ends, Forall blank_line ends ->
  Forall2 (fun ws r => map num ws = map Some r /\ List.length ws = n) (filter nonempty (map (fun l => split_ws (hd [] (split_chr (ch 35) l))) (lines ++ ends))) rs.
Proof.
  intros F. induction F as [|l r lines rs H F IH]; intros L ends B.
  - cbn [app]. replace (filter nonempty (map (fun l => split_ws (hd [] (split_chr (ch 35) l))) ends)) with (@nil (list str)); [constructor|].
    induction B as [|l ends [Bl _] B IHB]; [reflexivity|]. cbn [map filter]. replace (split_ws (hd [] (split_chr (ch 35) l))) with (@nil str); [exact IHB|].
    symmetry. unfold split_chr. rewrite split_on_none; [apply split_ws_blank; exact Bl|]. apply forallb_forall. intros x Hx. rewrite forallb_forall in Bl. apply negb_true_iff, chr_eqb_neq. intros ->. specialize (Bl _ Hx). discriminate Bl.
  - inversion L as [|? ? L1 L2]; subst. cbn [app map filter]. destruct (row_words l r H) as [M NE]. change (ch 35) with "#"%char in *. destruct (split_ws (hd [] (split_chr "#"%char l))) as [|w ws] eqn:E; [congruence|]. cbn [nonempty]. constructor; [|apply IH; assumption].
    split; [exact M|]. apply (f_equal (@List.length _)) in M. rewrite !map_length in M. exact M.
Qed.
Lemma loadtxt_ok before after cols lines ends n rs : Forall column_ok cols -> numeric_lines num n lines rs -> Forall blank_line ends -> loadtxt1 num (file_text before after cols lines ends) = Ok rs.
Proof.
  intros HC ((F & L & NE & N0) & NL) B. unfold loadtxt1, table_rows. rewrite file_lines by assumption. cbn [tl]. pose proof (lines_words n lines rs F L ends B) as W.
  set (rows := filter nonempty _) in *. assert (X : forallb (fun r => Nat.eqb (List.length r) (List.length (hd [] rows))) rows = true).
  { destruct rows as [|r0 rows']; [reflexivity|]. cbn [hd]. inversion W as [|? ? ? ? [_ W0] _]; subst. apply forallb_forall. intros r Hr. apply Nat.eqb_eq.
    assert (Q : forall rows rs, Forall2 (fun ws r => map num ws = map Some r /\ List.length ws = List.length r0) rows rs -> forall r, In r rows -> List.length r = List.length r0).
    { clear. intros rows rs F. induction F as [|a b rows rs [_ H] F IH]; intros r []; [subst; exact H|apply IH; assumption]. }
    exact (Q _ _ W r Hr). }
  rewrite X. clear X. clearbody rows. clear -W. induction W as [|ws r rows rs [M _] W IH]; [reflexivity|]. cbn [mapM]. rewrite (floats_some ws r M). cbn [bind]. rewrite IH. reflexivity.
Qed.
Lemma rows_count n lines rs : numeric_lines num n lines rs -> List.length rs = List.length lines /\ Forall (fun r => List.length r = n) rs.
Proof. intros ((F & L & _) & _). split; [|exact L]. clear L. induction F; [reflexivity|]. cbn. f_equal. assumption. Qed.
Lemma shape_ok n lines rs : numeric_lines num n lines rs -> 2 <= n -> 2 <= List.length lines -> shape1 rs = Ok n.
Proof.
  intros H N L. destruct (rows_count n lines rs H) as [E F]. unfold shape1. destruct rs as [|r rs]; [cbn in E; lia|]. cbn [hd]. inversion F as [|? ? F1 _]; subst.
  destruct (Nat.ltb_spec (List.length (r :: rs)) 2); [lia|]. destruct (Nat.ltb_spec (List.length r) 2); [lia|]. reflexivity.
Qed.
Lemma one_row_shape n lines rs : numeric_lines num n lines rs -> List.length lines = 1 -> shape1 rs = Err IndexError.
Proof. intros H L. destruct (rows_count n lines rs H) as [E F]. unfold shape1. rewrite E, L. reflexivity. Qed.
Lemma header_ok before after cols lines ends n rs : cols <> [] -> Forall column_ok cols -> numeric_lines num n lines rs -> Forall blank_line ends ->
  header_line (file_text before after cols lines ends) = Ok (columns_text 1 (unled cols)).
Proof.
  intros N HC (_ & NL) B. unfold header_line. rewrite file_lines by assumption. cbn [hd]. destruct (header_strip before after cols N HC) as (h & -> & E). cbn. rewrite E. reflexivity.
Qed.
End Numbers.
(** ** C100: induction files *)
Definition ind_kinds : list (nat * str) := [(38, S_ "ind"); (14, S_ "fext"); (18, S_ "defl")].
Lemma last_app_sep c p w : no_chr c w -> last (split_chr c (p ++ c :: w)) [] = w.
Proof.
  intro H. induction p as [|x p IH].
  - cbn [app]. change (c :: w) with ([] ++ c :: w). rewrite split_chr_head by (intros []). unfold split_chr. rewrite split_on_none; [reflexivity|]. apply forallb_forall. intros y Hy. apply negb_true_iff, chr_eqb_neq. intros ->. exact (H Hy).
  - cbn [app]. revert IH. unfold split_chr. cbn [split_on]. destruct (chr_eqb x c); destruct (split_on (fun x => chr_eqb x c) (p ++ c :: w)) as [|a l] eqn:E; try (exfalso; exact (split_on_nonnil _ _ E)).
    + intros <-. reflexivity.
    + assert (L : l <> []). { intros ->. unfold split_chr in *. apply (f_equal (@List.length _)) in E. rewrite (split_on_app (fun x => chr_eqb x c) p c w (chr_eqb_refl c)) in E. rewrite app_length in E. cbn in E.
        pose proof (split_on_nonnil (fun x => chr_eqb x c) p). pose proof (split_on_nonnil (fun x => chr_eqb x c) w). destruct (split_on _ p); [congruence|]. destruct (split_on _ w); [congruence|]. cbn in E. lia. }
      destruct l as [|b l]; [congruence|]. intros <-. reflexivity.
Qed.
Lemma lower_digits d : forallb is_digit d = true -> lower d = d.
Proof.
  intro H. induction d as [|c d IH]; [reflexivity|]. cbn [forallb] in H. apply andb_inv in H. destruct H as [H1 H2]. unfold lower in *. cbn [map]. rewrite (IH H2). f_equal. revert H1.
  assert (S : forallb (fun c => negb (is_digit c) || chr_eqb (lower_c c) c) (map ascii_of_nat (seq 0 256)) = true) by (vm_compute; reflexivity). rewrite forallb_forall in S.
  specialize (S c). intro D. assert (I : In c (map ascii_of_nat (seq 0 256))). { rewrite <- (ascii_nat_embedding c). apply in_map, in_seq. pose proof (nat_ascii_bounded c). lia. }
  specialize (S I). rewrite D in S. apply chr_eqb_eq. exact S.
Qed.
Lemma lstrip_set_none set s : (forall c t, s = c :: t -> mem_chr c set = false) -> lstrip_set set s = s.
Proof. destruct s as [|c s]; [reflexivity|]. intro H. cbn [lstrip_set]. rewrite (H c s eq_refl). reflexivity. Qed.
Lemma digit_not_in d set : forallb is_digit d = true -> forallb (fun c => negb (is_digit c)) set = true -> forall c, In c d -> mem_chr c set = false.
Proof. intros H S c Hc. rewrite forallb_forall in H, S. destruct (mem_chr c set) eqn:E; [|reflexivity]. apply mem_chr_iff in E. specialize (S c E). rewrite (H c Hc) in S. discriminate S. Qed.
Lemma speed_of_name p d : all_digits d -> wsp_text (p ++ S_ "_u" ++ d ++ S_ ".ind") = d.
Proof.
  intros [NE D]. unfold wsp_text. rewrite !lower_app, (lower_digits d D). change (lower (S_ "_u")) with ("_"%char :: S_ "u"). change (lower (S_ ".ind")) with (S_ ".ind"). change (ch 95) with "_"%char.
  change (("_"%char :: S_ "u") ++ d ++ S_ ".ind") with ("_"%char :: (S_ "u" ++ d ++ S_ ".ind")). rewrite last_app_sep.
  2:{ unfold no_chr. rewrite !in_app_iff. intros [[I|[]]|[I|I]]; [discriminate I| |cbn in I; intuition discriminate]. rewrite forallb_forall in D. specialize (D _ I). discriminate D. }
  assert (R : rstrip_set (S_ ".ind") (S_ "u" ++ d ++ S_ ".ind") = rev (lstrip_set (S_ ".ind") (rev d ++ S_ "u"))) by (unfold rstrip_set; rewrite !rev_app_distr; reflexivity). rewrite R. clear R.
  rewrite (lstrip_set_none (S_ ".ind")).
  2:{ intros c t E. apply (digit_not_in d); [exact D|reflexivity|]. destruct (rev d) as [|c' t'] eqn:R; [apply (f_equal (@rev _)) in R; rewrite rev_involutive in R; contradiction|]. cbn in E. injection E as -> _. apply in_rev. rewrite R. now left. }
  rewrite rev_app_distr, rev_involutive. change (lstrip_set (S_ "u") (rev (S_ "u") ++ d)) with (lstrip_set (S_ "u") d). apply lstrip_set_none. intros c t E. apply (digit_not_in d); [exact D|reflexivity|rewrite E; now left].
Qed.
Lemma kinds_type n t : In (n, t) ind_kinds -> ind_type n = Ok t /\ 2 <= n /\ n <= 100.
Proof. intros [E|[E|[E|[]]]]; injection E as <- <-; (split; [reflexivity|lia]). Qed.
(** Reading an induction file: the labels in the order of the header, the numbers, and the wind speed of the file name. *)
Theorem C100_read : forall V (num : str -> option V) milli p d v before after cols lines ends rs n t,
  In (n, t) ind_kinds -> List.length cols = n -> Forall column_ok cols -> Forall (fun c => c_gap c <= 1) cols -> all_apart cols ->
  numeric_lines num n lines rs -> 2 <= List.length lines -> Forall blank_line ends -> all_digits d -> num d = Some v ->
  read_ind num milli (p ++ S_ "_u" ++ d ++ S_ ".ind") (file_text before after cols lines ends) = Ok (mk_ind t (map label cols) rs (milli v)).
Proof.
  intros V num milli p d v before after cols lines ends rs n t K LEN HC G A NL L2 B D E. destruct (kinds_type n t K) as (T & N2 & N100). assert (NC : cols <> []) by (intros ->; cbn in LEN; lia).
  unfold read_ind. rewrite (header_ok num before after cols lines ends n rs NC HC NL B). cbn [bind]. rewrite ind_names by (try assumption; lia). rewrite map_length, LEN, T. cbn [bind].
  unfold table. rewrite (loadtxt_ok num before after cols lines ends n rs HC NL B), (shape_ok num n lines rs NL N2 L2). cbn [bind]. rewrite Nat.eqb_refl. cbn [bind]. rewrite (speed_of_name p d D), E. reflexivity.
Qed.
(** The data frame has these labels and numbers. *)
Theorem C100_frame : forall V (fmt : V -> str) t names rs w, ind_frame fmt (mk_ind t names rs w) = (names, rs, t ++ S_ " - ws=" ++ fmt w).
Proof. reflexivity. Qed.
Lemma mapM_length {A B} (g : A -> res B) l r : mapM g l = Ok r -> List.length r = List.length l /\ Forall (fun y => exists x, In x l /\ g x = Ok y) r.
Proof.
  revert r. induction l as [|x l IH]; intros r H; cbn [mapM] in H; [injection H as <-; split; [reflexivity|constructor]|]. destruct (g x) as [y|] eqn:E; cbn [bind] in H; [|discriminate H]. destruct (mapM g l) as [ys|]; cbn [bind] in H; [|discriminate H]. injection H as <-.
  destruct (IH ys eq_refl) as [L F]. split; [cbn; rewrite L; reflexivity|]. constructor; [exists x; split; [now left|exact E]|]. eapply Forall_impl; [|exact F]. intros y' (x' & I & Q). exists x'. split; [now right|exact Q].
Qed.
Lemma floats_length {V} (num : str -> option V) ws r : floats num ws = Some r -> List.length r = List.length ws.
Proof. revert r. induction ws as [|w ws IH]; intros r H; cbn [floats] in H; [injection H as <-; reflexivity|]. destruct (num w); [|discriminate H]. destruct (floats num ws) as [xs|]; [|discriminate H]. injection H as <-. cbn. rewrite (IH xs eq_refl). reflexivity. Qed.
Lemma table_shape {V} (num : str -> option V) txt n rows : table num txt n = Ok rows -> 2 <= List.length rows /\ Forall (fun r => List.length r = n) rows.
Proof.
  unfold table. destruct (loadtxt1 num txt) as [rs|] eqn:L; [|discriminate]. unfold shape1. destruct ((List.length rs <? 2) || (List.length (hd [] rs) <? 2)) eqn:S; [discriminate|]. cbn [bind]. apply orb_false_iff in S. destruct S as [S1 S2]. apply Nat.ltb_ge in S1.
  destruct (Nat.eqb_spec (List.length (hd [] rs)) n) as [E|E]; [|discriminate]. intro H. injection H as <-. split; [exact S1|]. unfold loadtxt1 in L. destruct (forallb _ _) eqn:F; [|discriminate L].
  destruct (mapM_length _ _ _ L) as [LL FF]. rewrite forallb_forall in F. set (W := table_rows txt) in *.
  assert (X : Forall (fun r => List.length r = List.length (hd [] W)) rs). { eapply Forall_impl; [|exact FF]. cbn beta. intros r (ws & I & Q). destruct (floats num ws) as [r'|] eqn:FL; [|discriminate Q]. injection Q as <-. rewrite (floats_length _ _ _ FL). apply Nat.eqb_eq, F, I. }
  destruct rs as [|r0 rs]; [cbn in S1; lia|]. cbn [hd] in E. inversion X as [|? ? X1 X2]; subst. rewrite X1. constructor; [exact X1|exact X2].
Qed.
(** When reading succeeds, every row has one number per label, there are at least two rows, and the kind goes with the number of columns. *)
Theorem C100_success : forall V (num : str -> option V) milli name txt o, read_ind num milli name txt = Ok o ->
  In (List.length (i_names o), i_type o) ind_kinds /\ 2 <= List.length (i_data o) /\ Forall (fun r => List.length r = List.length (i_names o)) (i_data o).
Proof.
  intros V num milli name txt o. unfold read_ind. destruct (header_line txt) as [h|]; [|discriminate]. cbn [bind]. destruct (ind_type (List.length (ind_cols h))) as [t|] eqn:T; [|discriminate]. cbn [bind].
  destruct (table num txt (List.length (ind_cols h))) as [d|] eqn:D; [|discriminate]. cbn [bind]. destruct (num (wsp_text name)); [|discriminate]. intro H. injection H as <-. cbn [i_names i_type i_data].
  split; [|exact (table_shape num txt _ d D)]. unfold ind_type in T. destruct (Nat.eqb_spec (List.length (ind_cols h)) 38) as [->|_]; [injection T as <-; now left|].
  destruct (Nat.eqb_spec (List.length (ind_cols h)) 14) as [->|_]; [injection T as <-; right; now left|]. destruct (Nat.eqb_spec (List.length (ind_cols h)) 18) as [->|_]; [injection T as <-; right; right; now left|]. discriminate T.
Qed.
(** Another number of columns: WrongFormatError, before the numbers are looked at *)
Lemma split_count c s : List.length (removelast (split_chr c s)) = List.length (filter (fun x => chr_eqb x c) s).
Proof.
  unfold split_chr. induction s as [|x s IH]; [reflexivity|]. cbn [split_on filter]. pose proof (split_on_nonnil (fun x => chr_eqb x c) s) as N. destruct (split_on (fun x => chr_eqb x c) s) as [|a l] eqn:E; [congruence|].
  destruct (chr_eqb x c); [change (removelast ([] :: a :: l)) with ([] :: removelast (a :: l)); cbn [List.length]; rewrite <- IH; reflexivity|]. destruct l; exact IH.
Qed.
Lemma filter_strip c s : is_space c = false -> filter (fun x => chr_eqb x c) (strip s) = filter (fun x => chr_eqb x c) s.
Proof.
  intro H. assert (B : forall b, forallb is_space b = true -> filter (fun x => chr_eqb x c) b = []). { induction b as [|x b IH]; intro F; [reflexivity|]. cbn [forallb] in F. apply andb_inv in F. destruct F as [F1 F2]. cbn [filter]. destruct (chr_eqb x c) eqn:E; [apply chr_eqb_eq in E; subst; congruence|exact (IH F2)]. }
  unfold strip. destruct (lstrip_decomp s) as (b & Fb & Eb). destruct (rstrip_decomp (lstrip s)) as (b' & Fb' & Eb'). rewrite Eb, Eb' at 2. rewrite !filter_app, (B b Fb), (B b' Fb'), app_nil_r. reflexivity.
Qed.
Definition closings (l : str) : nat := List.length (filter (fun x => chr_eqb x "]"%char) l).
Lemma cols_count x h : ~ In "]"%char x -> List.length (num_and_cols (x ++ h)) = closings h.
Proof.
  intro H. unfold num_and_cols. rewrite map_length. change (ch 93) with "]"%char. rewrite split_count, filter_app. unfold closings. replace (filter (fun y => chr_eqb y "]"%char) x) with (@nil ascii); [reflexivity|].
  symmetry. clear -H. induction x as [|y x IH]; [reflexivity|]. cbn [filter]. destruct (chr_eqb y "]"%char) eqn:E; [apply chr_eqb_eq in E; subst; elim H; now left|]. apply IH. intro; apply H; now right.
Qed.
Lemma header_count txt first rest : split_chr nl txt = first :: rest -> forall h, strip first = "#"%char :: h -> header_line txt = Ok (strip h) /\ closings (strip h) = closings first.
Proof.
  intros E h S. unfold header_line. rewrite E. cbn [hd]. rewrite S. split; [reflexivity|]. unfold closings. rewrite filter_strip by reflexivity. rewrite <- (filter_strip "]"%char first) by reflexivity. rewrite S. reflexivity.
Qed.
Theorem C100_other_number : forall V (num : str -> option V) milli name first lines h, Forall (no_chr nl) (first :: lines) -> strip first = "#"%char :: h ->
  ~ In (closings first) (map fst ind_kinds) -> read_ind num milli name (join [nl] (first :: lines)) = Err WrongFormatError.
Proof.
  intros V num milli name first lines h F S N. destruct (header_count (join [nl] (first :: lines)) first lines) with (h := h) as [E C].
  - apply split_chr_join; [discriminate|]. apply forallb_forall. intros l Hl. rewrite Forall_forall in F. specialize (F l Hl). apply negb_true_iff. destruct (mem_chr nl l) eqn:M; [apply mem_chr_iff in M; contradiction|reflexivity].
  - exact S.
  - unfold read_ind. rewrite E. cbn [bind]. unfold ind_cols. rewrite map_length, cols_count by (cbn; intuition discriminate). rewrite C. unfold ind_type. cbn [map fst ind_kinds In] in N.
    destruct (Nat.eqb_spec (closings first) 38); [lia|]. destruct (Nat.eqb_spec (closings first) 14); [lia|]. destruct (Nat.eqb_spec (closings first) 18); [lia|]. reflexivity.
Qed.
(** A file of another format should be a WrongFormatError: without the mark it is a NameError. *)
Theorem C100_mark_refuted : forall V (num : str -> option V) milli name first lines, Forall (no_chr nl) (first :: lines) -> (forall h, strip first <> "#"%char :: h) ->
  read_ind num milli name (join [nl] (first :: lines)) = Err NameError /\ read_pwr num (join [nl] (first :: lines)) = Err NameError.
Proof.
  intros V num milli name first lines F S. assert (E : header_line (join [nl] (first :: lines)) = Err NameError).
  { unfold header_line. rewrite split_chr_join; [|discriminate|].
    - cbn [hd]. destruct (strip first) as [|c h]; [reflexivity|]. destruct (chr_eqb c (ch 35)) eqn:Q; [|reflexivity]. apply chr_eqb_eq in Q. subst c. elim (S h). reflexivity.
    - apply forallb_forall. intros l Hl. rewrite Forall_forall in F. specialize (F l Hl). apply negb_true_iff. destruct (mem_chr nl l) eqn:M; [apply mem_chr_iff in M; contradiction|reflexivity]. }
  unfold read_ind, read_pwr. rewrite E. split; reflexivity.
Qed.
(** A file with one row of numbers cannot be read. *)
Theorem C100_one_row_refuted : forall V (num : str -> option V) milli name before after cols lines ends rs n t,
  In (n, t) ind_kinds -> List.length cols = n -> Forall column_ok cols -> Forall (fun c => c_gap c <= 1) cols -> all_apart cols ->
  numeric_lines num n lines rs -> List.length lines = 1 -> Forall blank_line ends -> read_ind num milli name (file_text before after cols lines ends) = Err IndexError.
Proof.
  intros V num milli name before after cols lines ends rs n t K LEN HC G A NL L1 B. destruct (kinds_type n t K) as (T & N2 & N100). assert (NC : cols <> []) by (intros ->; cbn in LEN; lia).
  unfold read_ind. rewrite (header_ok num before after cols lines ends n rs NC HC NL B). cbn [bind]. rewrite ind_names by (try assumption; lia). rewrite map_length, LEN, T. cbn [bind].
  unfold table. rewrite (loadtxt_ok num before after cols lines ends n rs HC NL B), (one_row_shape num n lines rs NL L1). reflexivity.
Qed.
(** Names that end with .txt, an extension of this format: never read ([float] accepts no text that ends with t). *)
Theorem C100_txt_refuted : forall V (num : str -> option V) milli p txt o, (forall s, num (s ++ S_ "t") = None) -> read_ind num milli (p ++ S_ ".txt") txt <> Ok o.
Proof.
  intros V num milli p txt o NT H. unfold read_ind in H. destruct (header_line txt) as [h|]; [|discriminate H]. cbn [bind] in H. destruct (ind_type (List.length (ind_cols h))) as [ty|]; [|discriminate H]. cbn [bind] in H. destruct (table num txt (List.length (ind_cols h))) as [d|]; [|discriminate H]. cbn [bind] in H.
  assert (E : exists s, wsp_text (p ++ S_ ".txt") = s ++ S_ "t").
  { unfold wsp_text. rewrite lower_app. change (lower (S_ ".txt")) with (S_ ".tx" ++ S_ "t"). set (q := lower p). change (ch 95) with "_"%char.
    assert (L : exists s, last (split_chr "_"%char (q ++ S_ ".tx" ++ S_ "t")) [] = s ++ S_ "t").
    { clearbody q. rewrite app_assoc. generalize (q ++ S_ ".tx"). clear. intro q. induction q as [|x q IH]; [exists []; reflexivity|]. destruct IH as [s IH]. revert IH. cbn [app]. unfold split_chr. cbn [split_on]. destruct (split_on (fun x => chr_eqb x "_"%char) (q ++ S_ "t")) as [|a l] eqn:E; [exfalso; exact (split_on_nonnil _ _ E)|].
      destruct (chr_eqb x "_"%char); intro IH; [exists s; rewrite <- IH; reflexivity|]. destruct l as [|b l]; [exists (x :: s); cbn [last] in *; rewrite IH; reflexivity|exists s; rewrite <- IH; reflexivity]. }
    destruct L as [s ->]. unfold rstrip_set. rewrite rev_app_distr. change (rev (S_ "t")) with ["t"%char]. cbn [app lstrip_set]. change (mem_chr "t"%char (S_ ".ind")) with false. cbn match. cbn [rev]. rewrite rev_involutive.
    clear. induction s as [|x s IH]; [exists []; reflexivity|]. cbn [app lstrip_set]. destruct (mem_chr x (S_ "u")); [exact IH|]. exists (x :: s). reflexivity. }
  destruct E as [s E]. rewrite E, NT in H. discriminate H.
Qed.

(** ** C101: power files *)
Lemma join_split c s : join [c] (split_chr c s) = s.
Proof.
  unfold split_chr. induction s as [|x s IH]; [reflexivity|]. cbn [split_on]. destruct (split_on (fun x => chr_eqb x c) s) as [|a l] eqn:E; [exfalso; exact (split_on_nonnil _ _ E)|]. destruct (chr_eqb x c) eqn:Q.
  - apply chr_eqb_eq in Q. subst x. change (join [c] ([] :: a :: l)) with (c :: join [c] (a :: l)). rewrite IH. reflexivity.
  - destruct l as [|b l]; [cbn [join] in *; rewrite IH; reflexivity|]. change (join [c] ((x :: a) :: b :: l)) with (x :: join [c] (a :: b :: l)). rewrite IH. reflexivity.
Qed.
Lemma pwr_col_core c w : column_ok c -> c_gap c = 1 -> no_chr " "%char w -> 1 <= c_lead c -> pwr_col (w ++ blanks (c_lead c) ++ core c ++ S_ "]") = label c.
Proof.
  intros H G W L. unfold pwr_col. change sp with " "%char. destruct (c_lead c) as [|m]; [lia|]. change (blanks (S m)) with (" "%char :: blanks m). cbn [app]. rewrite split_chr_head by exact W. cbn [tl]. rewrite join_split, strip_core by exact H. rewrite core_marks, G by exact H. reflexivity.
Qed.
Lemma pwr_pieces cols : forall k x n, Forall column_ok cols -> Forall (fun c => c_gap c = 1 /\ 1 <= c_lead c) cols ->
  x = blanks n ++ str_of_N (N.of_nat k) -> map (fun s => pwr_col (strip s ++ S_ "]")) (pieces x (S k) cols) = map label cols.
Proof.
  induction cols as [|c cols IH]; intros k x n H G X; [reflexivity|]. inversion H as [|? ? Hc Hs]; subst. inversion G as [|? ? [Gc Lc] Gs]; subst. cbn [pieces map]. f_equal.
  - rewrite (piece_strip c n k _ Hc eq_refl), <- !app_assoc. apply pwr_col_core; [exact Hc|exact Gc|apply digits_not; reflexivity|exact Lc].
  - apply (IH (S k) _ (c_tail c)); try assumption. reflexivity.
Qed.
Lemma pwr_names cols : cols <> [] -> Forall column_ok cols -> Forall (fun c => c_gap c = 1 /\ 1 <= c_lead c) cols -> pwr_cols (columns_text 1 (unled cols)) = map label cols.
Proof.
  intros N H G. unfold pwr_cols, num_and_cols. rewrite map_map. change (ch 93) with "]"%char. rewrite pieces_split; [|cbn; intuition discriminate|apply unled_ok; exact H].
  destruct cols as [|c cols]; [congruence|]. inversion H as [|? ? Hc Hs]; subst. inversion G as [|? ? [Gc Lc] Gs]; subst. cbn [unled pieces map]. f_equal.
  - set (c1 := mk_col 1 (c_words c) (c_gap c) (c_unit c) (c_tail c)). assert (H0 : column_ok c1) by exact Hc. change (label c) with (label c1).
    change (S_ "0 " ++ blanks _ ++ core _) with (S_ "0" ++ blanks (c_lead c1) ++ core c1).
    replace (strip (S_ "0" ++ blanks (c_lead c1) ++ core c1)) with (S_ "0" ++ blanks (c_lead c1) ++ core c1).
    + rewrite <- !app_assoc. apply (pwr_col_core c1 (S_ "0") H0 Gc); [intros [I|[]]; discriminate I|cbn; lia].
    + symmetry. destruct (core_edges c1 H0) as (_ & _ & _ & _ & t & d & E & SD).
      apply (strip_ends "0"%char (blanks (c_lead c1) ++ core c1) (S_ "0 " ++ t) d []); try reflexivity; [exact SD|cbn [c1 c_lead blanks repeat app]; rewrite E; reflexivity].
  - apply (pwr_pieces cols 1 _ (c_tail c)); try assumption. reflexivity.
Qed.
(** Reading a power file: the labels in the order of the header, and the numbers. *)
Theorem C101_read : forall V (num : str -> option V) before after cols lines ends rs,
  List.length cols = 15 -> Forall column_ok cols -> Forall (fun c => c_gap c = 1 /\ 1 <= c_lead c) cols ->
  numeric_lines num 15 lines rs -> 2 <= List.length lines -> Forall blank_line ends ->
  read_pwr num (file_text before after cols lines ends) = Ok (map label cols, rs).
Proof.
  intros V num before after cols lines ends rs LEN HC G NL L2 B. assert (NC : cols <> []) by (intros ->; cbn in LEN; lia).
  unfold read_pwr. rewrite (header_ok num before after cols lines ends 15 rs NC HC NL B). cbn [bind]. rewrite pwr_names by assumption. rewrite map_length, LEN. cbn [Nat.eqb].
  unfold table. rewrite (loadtxt_ok num before after cols lines ends 15 rs HC NL B), (shape_ok num 15 lines rs NL) by lia. reflexivity.
Qed.
Theorem C101_success : forall V (num : str -> option V) txt names rs, read_pwr num txt = Ok (names, rs) -> List.length names = 15 /\ 2 <= List.length rs /\ Forall (fun r => List.length r = 15) rs.
Proof.
  intros V num txt names rs. unfold read_pwr. destruct (header_line txt) as [h|]; [|discriminate]. cbn [bind]. destruct (Nat.eqb_spec (List.length (pwr_cols h)) 15) as [E|E]; [|discriminate].
  destruct (table num txt (List.length (pwr_cols h))) as [d|] eqn:D; [|discriminate]. cbn [bind]. intro H. injection H as <- <-. rewrite E in D. split; [exact E|exact (table_shape num txt _ d D)].
Qed.
Theorem C101_other_number : forall V (num : str -> option V) first lines h, Forall (no_chr nl) (first :: lines) -> strip first = "#"%char :: h ->
  closings first <> 15 -> read_pwr num (join [nl] (first :: lines)) = Err WrongFormatError.
Proof.
  intros V num first lines h F S N. destruct (header_count (join [nl] (first :: lines)) first lines) with (h := h) as [E C].
  - apply split_chr_join; [discriminate|]. apply forallb_forall. intros l Hl. rewrite Forall_forall in F. specialize (F l Hl). apply negb_true_iff. destruct (mem_chr nl l) eqn:M; [apply mem_chr_iff in M; contradiction|reflexivity].
  - exact S.
  - unfold read_pwr. rewrite E. cbn [bind]. unfold pwr_cols. rewrite map_length, cols_count by (cbn; intuition discriminate). rewrite C. destruct (Nat.eqb_spec (closings first) 15); [contradiction|reflexivity].
Qed.
Theorem C101_one_row_refuted : forall V (num : str -> option V) before after cols lines ends rs,
  List.length cols = 15 -> Forall column_ok cols -> Forall (fun c => c_gap c = 1 /\ 1 <= c_lead c) cols ->
  numeric_lines num 15 lines rs -> List.length lines = 1 -> Forall blank_line ends -> read_pwr num (file_text before after cols lines ends) = Err IndexError.
Proof.
  intros V num before after cols lines ends rs LEN HC G NL L1 B. assert (NC : cols <> []) by (intros ->; cbn in LEN; lia).
  unfold read_pwr. rewrite (header_ok num before after cols lines ends 15 rs NC HC NL B). cbn [bind]. rewrite pwr_names by assumption. rewrite map_length, LEN. cbn [Nat.eqb].
  unfold table. rewrite (loadtxt_ok num before after cols lines ends 15 rs HC NL B), (one_row_shape num 15 lines rs NL L1). reflexivity.
Qed.

(** ** C102: Campbell files *)
(** The columns of a file with [k] blocks of [n] modes: frequencies, damping, real parts *)
Definition campbell (n k : nat) : list str := S_ "Wind_[m/s]" :: flat_map (fun c => map (fun i => c ++ str_of_N (N.of_nat i)) (seq 1 n)) (firstn k [S_ "F"; S_ "D"; S_ "R"]).
Lemma numbered_seq c n : numbered c n = map (fun i => S_ c ++ str_of_N (N.of_nat i)) (seq 1 n).
Proof. unfold numbered. rewrite <- seq_shift, map_map. reflexivity. Qed.
Section Campbell.
Context {V : Type}.
Variable num : str -> option V.
Lemma cmb_csv h d0 d1 ds rs m : num [] = None -> ~ number_and_word (strip h) -> CSV_Props.table_rows num (for_pandas (CSV_Props.shown d1)) None m (d0 :: d1 :: ds) rs ->
  exists o f, csv_new None [] None [0] None false [] = Ok o /\ csv_read num o (h :: d0 :: d1 :: ds) = Ok f /\ c_header f = [strip h] /\ exists names, c_data f = Some (names, CSV_Props.numbers rs).
Proof.
  intros NE NW TR. set (o := (mk_csv None [] None [0] None false [] None : csv V)). exists o. change (csv_new None [] None [0] None false []) with (Ok o).
  unfold csv_read. change (safe_sep (c_sep o)) with (@None separator). rewrite (not_csv_false (h :: d0 :: d1 :: ds) h (d0 :: d1 :: ds) eq_refl NW).
  change (read_header o (h :: d0 :: d1 :: ds)) with (@Ok (list str * option str * list nat) ([strip h], None, [0])). cbn [bind]. change (List.length [strip h]) with 1. rewrite (detect_shown (h :: d0 :: d1 :: ds) 1 d0 d1 eq_refl eq_refl).
  change (CSV_Model.column_names num o (h :: d0 :: d1 :: ds) [strip h] None (Some (CSV_Props.shown d1)) 1) with (@Ok (list str * option Z * nat) ([], None, 1)). cbn [bind].
  pose proof (shown_known d1) as KS. rewrite seps_end by exact KS. rewrite (kept_after _ _ 1) by (intros i _; unfold skiprows; cbn [existsb]; destruct i as [|[|i]]; reflexivity). cbn [skipn].
  destruct (parse_ok num NE (for_pandas (CSV_Props.shown d1)) None m (d0 :: d1 :: ds) rs (pandas_known _ KS) TR) as [P1 P2]. cbn [option_map] in P1. rewrite P1. cbn [bind].
  eexists. split; [reflexivity|]. split; [reflexivity|]. cbn [c_header c_data]. split; [reflexivity|]. eexists. reflexivity.
Qed.
Lemma read_cmb_eq h w n d0 d1 ds rs m : num [] = None -> ~ number_and_word (strip h) -> CSV_Props.table_rows num (for_pandas (CSV_Props.shown d1)) None m (d0 :: d1 :: ds) rs ->
  last (split_ws h) [] = w -> int_ w = Ok n ->
  read_cmb num (h :: d0 :: d1 :: ds) = (cols <- cmb_cols n (m - 1) ;; if Nat.eqb (List.length cols) m then Ok (cols, CSV_Props.numbers rs) else Err ValueError).
Proof.
  intros NE NW TR L I. destruct (cmb_csv h d0 d1 ds rs m NE NW TR) as (o & f & E1 & E2 & E3 & names & E4). unfold read_cmb. rewrite E1. cbn [bind]. rewrite E2. cbn [bind]. rewrite E3, E4, split_ws_strip.
  assert (R : exists t, rev (split_ws h) = w :: t).
  { destruct (split_ws h) as [|a l] eqn:E; [cbn in L; subst w; discriminate I|]. rewrite <- L. assert (X : a :: l <> []) by discriminate. exists (rev (removelast (a :: l))). pose proof (app_removelast_last [] X) as Q. apply (f_equal (@rev _)) in Q. rewrite rev_app_distr in Q. exact Q. }
  destruct R as [t ->]. rewrite I. cbn [bind]. pose proof TR as (F & LN & _ & _). assert (HL : List.length (hd [] (CSV_Props.numbers rs)) = m).
  { destruct rs as [|r rs]; [inversion F|]. inversion LN; subst. unfold CSV_Props.numbers. cbn [map hd]. rewrite map_length. reflexivity. }
  rewrite HL. reflexivity.
Qed.
Lemma cmb_labels n k : 1 <= n -> In k [1; 2; 3] -> cmb_cols (Z.of_nat n) (k * n) = Ok (campbell n k).
Proof.
  intros N K. unfold cmb_cols, ratio_is, campbell. rewrite Nat2Z.id. destruct (Z.eqb_spec (Z.of_nat n) 0); [lia|]. do 2 f_equal. rewrite !numbered_seq.
  destruct K as [<-|[<-|[<-|[]]]]; cbn [firstn flat_map]; rewrite ?app_nil_r.
  - destruct (Z.eqb_spec (Z.of_nat (1 * n)) (2 * Z.of_nat n)); [lia|]. destruct (Z.eqb_spec (Z.of_nat (1 * n)) (3 * Z.of_nat n)); [lia|]. cbn [orb]. rewrite !app_nil_r. reflexivity.
  - destruct (Z.eqb_spec (Z.of_nat (2 * n)) (2 * Z.of_nat n)); [|lia]. destruct (Z.eqb_spec (Z.of_nat (2 * n)) (3 * Z.of_nat n)); [lia|]. cbn [orb]. rewrite !app_nil_r. reflexivity.
  - destruct (Z.eqb_spec (Z.of_nat (3 * n)) (2 * Z.of_nat n)); [lia|]. destruct (Z.eqb_spec (Z.of_nat (3 * n)) (3 * Z.of_nat n)); [|lia]. cbn [orb]. reflexivity.
Qed.
Lemma block_length n l : List.length (flat_map (fun c : str => map (fun i => c ++ str_of_N (N.of_nat i)) (seq 1 n)) l) = List.length l * n.
Proof. induction l as [|c l IH]; [reflexivity|]. cbn [flat_map List.length]. rewrite app_length, map_length, seq_length, IH. lia. Qed.
(** A Campbell file: the header line ends with the number of modes, the table has the wind speed and one, two or three blocks. *)
Theorem C102_read h n k d0 d1 ds rs : num [] = None -> ~ number_and_word (strip h) -> 1 <= n -> In k [1; 2; 3] -> last (split_ws h) [] = str_of_N (N.of_nat n) ->
  CSV_Props.table_rows num (for_pandas (CSV_Props.shown d1)) None (1 + k * n) (d0 :: d1 :: ds) rs ->
  read_cmb num (h :: d0 :: d1 :: ds) = Ok (campbell n k, CSV_Props.numbers rs).
Proof.
  intros NE NW N K L TR. rewrite (read_cmb_eq h (str_of_N (N.of_nat n)) (Z.of_nat n) d0 d1 ds rs (1 + k * n) NE NW TR L).
  2:{ rewrite int_N, nat_N_Z. reflexivity. }
  replace (1 + k * n - 1) with (k * n) by lia. rewrite (cmb_labels n k N K). cbn [bind]. replace (List.length (campbell n k)) with (1 + k * n); [rewrite Nat.eqb_refl; reflexivity|].
  unfold campbell. cbn [List.length]. rewrite block_length. destruct K as [<-|[<-|[<-|[]]]]; reflexivity.
Qed.
(** Any other number of columns is an error. *)
Theorem C102_other_number h n m d0 d1 ds rs : num [] = None -> ~ number_and_word (strip h) -> 1 <= n -> last (split_ws h) [] = str_of_N (N.of_nat n) ->
  CSV_Props.table_rows num (for_pandas (CSV_Props.shown d1)) None m (d0 :: d1 :: ds) rs -> ~ In m [1 + n; 1 + 2 * n; 1 + 3 * n] ->
  read_cmb num (h :: d0 :: d1 :: ds) = Err ValueError.
Proof.
  intros NE NW N L TR NM. rewrite (read_cmb_eq h (str_of_N (N.of_nat n)) (Z.of_nat n) d0 d1 ds rs m NE NW TR L).
  2:{ rewrite int_N, nat_N_Z. reflexivity. }
  destruct TR as (_ & _ & _ & M0). cbn [In] in NM. unfold cmb_cols, ratio_is. destruct (Z.eqb_spec (Z.of_nat n) 0); [lia|].
  destruct (Z.eqb_spec (Z.of_nat (m - 1)) (2 * Z.of_nat n)); [lia|]. destruct (Z.eqb_spec (Z.of_nat (m - 1)) (3 * Z.of_nat n)); [lia|]. cbn [orb bind]. rewrite !app_nil_r. cbn [List.length]. unfold numbered. rewrite map_length, seq_length, Nat2Z.id.
  destruct (Nat.eqb_spec (S n) m); [lia|reflexivity].
Qed.
End Campbell.

(** ** Glued numbers, and the hypotheses are met *)
Definition wide (n : nat) : column := mk_col 3 [S_ "Fx" ++ str_of_N (N.of_nat n)] 1 (S_ "kNm") 1.
Definition ex_cols (n : nat) : list column := map (fun i => if i =? 1 then mk_col 5 [S_ "Element"; S_ "no"] 1 (S_ "-") 1 else wide i) (seq 0 n).
Definition ex_line (n : nat) : str := flat_map (fun _ => S_ " 7") (seq 0 n).
(** HAWCStab2 leaves no blank between the number of a column and a long name: for numbers up to nine the first letter of the name is lost. *)
Definition glued : list column := map (fun i => if i =? 4 then mk_col 0 [S_ "ALPHA0"] 1 (S_ "rad") 1 else wide i) (seq 0 15).
Theorem C100_glued_refuted : exists cols, Forall column_ok cols /\ List.length cols = 14 /\
  match read_ind digit (fun v => v) (S_ "x_u3.ind") (file_text 1 0 cols [ex_line 14; ex_line 14] []) with
  | Ok o => nth_error (map label cols) 4 = Some (S_ "ALPHA0_[rad]") /\ nth_error (i_names o) 4 = Some (S_ "LPHA0_[rad]")
  | Err _ => False
  end.
Proof.
  exists (firstn 14 glued). split; [|split; [reflexivity|vm_compute; split; reflexivity]]. apply Forall_forall. intros c Hc. unfold glued in Hc. rewrite firstn_map in Hc. apply in_map_iff in Hc. destruct Hc as (i & <- & Hi).
  change (firstn 14 (seq 0 15)) with (seq 0 14) in Hi. apply in_seq in Hi. do 14 (destruct i as [|i]; [split; [discriminate|split; [repeat constructor; discriminate|split; [reflexivity|apply nowhere_contains; vm_compute; reflexivity]]]|]). lia.
Qed.
(** In a power file the whole name is lost. *)
Theorem C101_glued_refuted : exists cols, Forall column_ok cols /\ List.length cols = 15 /\
  match read_pwr digit (file_text 1 0 cols [ex_line 15; ex_line 15] []) with
  | Ok (names, _) => nth_error (map label cols) 4 = Some (S_ "ALPHA0_[rad]") /\ nth_error names 4 = Some (S_ "[rad]")
  | Err _ => False
  end.
Proof.
  exists glued. split; [|split; [reflexivity|vm_compute; split; reflexivity]]. apply Forall_forall. intros c Hc. unfold glued in Hc. apply in_map_iff in Hc. destruct Hc as (i & <- & Hi).
  apply in_seq in Hi. do 15 (destruct i as [|i]; [split; [discriminate|split; [repeat constructor; discriminate|split; [reflexivity|apply nowhere_contains; vm_compute; reflexivity]]]|]). lia.
Qed.
Lemma ex_cols_ok n : n <= 38 -> Forall column_ok (ex_cols n).
Proof.
  intro L. apply Forall_forall. intros c Hc. apply in_map_iff in Hc. destruct Hc as (i & <- & Hi). apply in_seq in Hi.
  do 38 (destruct i as [|i]; [split; [discriminate|split; [repeat constructor; discriminate|split; [reflexivity|apply nowhere_contains; vm_compute; reflexivity]]]|]). lia.
Qed.
Lemma ex_cols_gap n : Forall (fun c => c_gap c = 1 /\ 3 <= c_lead c) (ex_cols n).
Proof. apply Forall_forall. intros c Hc. apply in_map_iff in Hc. destruct Hc as (i & <- & _). destruct (i =? 1); cbn; lia. Qed.
Lemma ex_apart n : all_apart (ex_cols n).
Proof. intros k c E _ _. apply nth_error_In in E. pose proof (ex_cols_gap n) as F. rewrite Forall_forall in F. apply F in E. lia. Qed.
Lemma ex_lines n : In n [14; 15; 18; 38] -> numeric_lines digit n [ex_line n; ex_line n ++ S_ " # end"] [repeat 7%N n; repeat 7%N n].
Proof.
  intros H. assert (R : forall l, l = ex_line n \/ l = ex_line n ++ S_ " # end" -> number_row digit Blanks (Some "#"%char) l (repeat 7%N n)).
  { intros l [->| ->]; [exists (ex_line n)|exists (ex_line n ++ S_ " ")]; (split; [split|split]).
    1,5: apply no_hash; destruct H as [<-|[<-|[<-|[<-|[]]]]]; vm_compute; reflexivity.
    1: left; reflexivity. 3: right; exists (S_ " end"); rewrite <- app_assoc; reflexivity.
    1,3: destruct H as [<-|[<-|[<-|[<-|[]]]]]; vm_compute; discriminate. all: destruct H as [<-|[<-|[<-|[<-|[]]]]]; vm_compute; reflexivity. }
  split; [|constructor; [|constructor; [|constructor]]; intro I; apply mem_chr_iff in I; destruct H as [<-|[<-|[<-|[<-|[]]]]]; vm_compute in I; discriminate I].
  split; [|split; [|split; [discriminate|]]].
  - constructor; [apply R; left; reflexivity|constructor; [apply R; right; reflexivity|constructor]].
  - constructor; [apply repeat_length|constructor; [apply repeat_length|constructor]].
  - destruct H as [<-|[<-|[<-|[<-|[]]]]]; lia.
Qed.
Example C100_read_example : exists t, read_ind digit (fun v => v) (S_ "run_1_u9.ind") (file_text 1 2 (ex_cols 38) [ex_line 38; ex_line 38 ++ S_ " # end"] [[]]) =
  Ok (mk_ind t (map label (ex_cols 38)) [repeat 7%N 38; repeat 7%N 38] 9%N) /\ nth_error (map label (ex_cols 38)) 1 = Some (S_ "Element_no_[-]").
Proof.
  exists (S_ "ind"). split; [|reflexivity]. apply (C100_read _ digit (fun v => v) (S_ "run_1") (S_ "9") 9%N 1 2 (ex_cols 38) _ [[]] _ 38 (S_ "ind")).
  - now left.
  - reflexivity.
  - apply ex_cols_ok. lia.
  - eapply Forall_impl; [|apply ex_cols_gap]. cbn. intros c H. lia.
  - apply ex_apart.
  - apply ex_lines. cbn. tauto.
  - cbn. lia.
  - constructor; [split; [reflexivity|intros []]|constructor].
  - split; [discriminate|reflexivity].
  - reflexivity.
Qed.
Example C101_read_example : read_pwr digit (file_text 1 2 (ex_cols 15) [ex_line 15; ex_line 15 ++ S_ " # end"] []) = Ok (map label (ex_cols 15), [repeat 7%N 15; repeat 7%N 15]).
Proof.
  apply C101_read.
  - reflexivity.
  - apply ex_cols_ok. lia.
  - eapply Forall_impl; [|apply ex_cols_gap]. cbn. intros c H. lia.
  - apply ex_lines. cbn. tauto.
  - cbn. lia.
  - constructor.
Qed.
Example C102_read_example : read_cmb digit [S_ "# Mode number: 2"; S_ "4 1 2 3 4"; S_ "5 1 2 3 4"] = Ok ([S_ "Wind_[m/s]"; S_ "F1"; S_ "F2"; S_ "D1"; S_ "D2"], CSV_Props.numbers [[4; 1; 2; 3; 4]; [5; 1; 2; 3; 4]]%N).
Proof.
  apply (C102_read digit (S_ "# Mode number: 2") 2 2).
  - reflexivity.
  - intros (w0 & w1 & ws & z & E & I & _). vm_compute in E. injection E as <- _ _. vm_compute in I. discriminate I.
  - lia.
  - cbn. tauto.
  - vm_compute. reflexivity.
  - split; [|split; [repeat constructor|split; [discriminate|cbn; lia]]].
    repeat (apply Forall2_cons; [apply whole_row; [vm_compute; discriminate|exact Logic.I|reflexivity]|]). apply Forall2_nil.
Qed.
Example C100_other_number_example : ~ In (closings (S_ "# a [m] 1 b [m] 2")) (map fst ind_kinds) /\ read_ind digit (fun v => v) (S_ "a_u1.ind") (join [nl] [S_ "# a [m] 1 b [m] 2"; S_ "1 2"]) = Err WrongFormatError.
Proof. split; [cbn; lia|vm_compute; reflexivity]. Qed.

Print Assumptions C100_read. Print Assumptions C100_frame. Print Assumptions C100_success. Print Assumptions C100_other_number. Print Assumptions C100_mark_refuted. Print Assumptions C100_one_row_refuted. Print Assumptions C100_txt_refuted. Print Assumptions C100_glued_refuted.
Print Assumptions C101_read. Print Assumptions C101_success. Print Assumptions C101_other_number. Print Assumptions C101_one_row_refuted. Print Assumptions C101_glued_refuted.
Print Assumptions C102_read. Print Assumptions C102_other_number.
