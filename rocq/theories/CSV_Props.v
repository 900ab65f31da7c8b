(** C45, C69, C70 and C71: CSV files. *)
From Verif Require Import Py PyFacts TextFacts ListFacts CSV_Model.
From Coq Require Import ZifyBool ZifyNat Permutation.
Local Open Scope nat_scope.

(** ** What a CSV file says *)
(** The cells of a line *)
Definition cells (s : separator) (l : str) : list str := match s with Blanks => split_ws l | Text [c] => map strip (split_chr c l) | Text _ => [] end.
Definition known (s : separator) : Prop := s = Blanks \/ exists c, s = Text [c].
(** The separator that a line shows: comma, semicolon, tab or blanks, in this order.  A separator in first position does not
    count. *)
Definition shown (l : str) : separator :=
  let later c := match find_chr c (strip l) with Some (S _) => true | _ => false end in
  if later (ch 44) then Text [ch 44] else if later (ch 59) then Text [ch 59] else if later (ch 9) then Text [ch 9] else Blanks.
(** pandas is told to use blanks instead of tabs. *)
Definition for_pandas (s : separator) : separator := match s with Text [c] => if chr_eqb c (ch 9) then Blanks else s | _ => s end.
Definition comment_char (c : ascii) : Prop := c = ch 35 \/ c = ch 33 \/ c = ch 59.
Definition begins (c : ascii) (l : str) : Prop := exists t, strip l = c :: t.
(** A line that looks like the input file of another program: a whole number and a word *)
Definition number_and_word (l : str) : Prop :=
  exists w0 w1 ws z, split_ws l = w0 :: w1 :: ws /\ int_ w0 = Ok z /\ w1 <> [] /\ forallb is_alpha_c w1 = true.
Definition brackets (l : str) : nat := List.length (filter (fun c => chr_eqb (ch 40) c) l) + List.length (filter (fun c => chr_eqb (ch 91) c) l).
Section Spec.
Context {V : Type}.
Variable num : str -> option V.
Definition is_num (s : str) : bool := match num s with Some _ => true | None => false end.
(** A line that holds the numbers [r], perhaps followed by the comment character and more text *)
Definition number_row (s : separator) (char : option ascii) (l : str) (r : list V) : Prop :=
  exists t, match char with Some c => ~ In c t /\ (l = t \/ exists more, l = t ++ c :: more) | None => l = t end /\ strip t <> [] /\ map num (cells s t) = map Some r.
(** The lines are the rows of a table with [n] columns. *)
Definition table_rows (s : separator) (char : option ascii) (n : nat) (ls : list str) (rs : list (list V)) : Prop :=
  Forall2 (number_row s char) ls rs /\ Forall (fun r => List.length r = n) rs /\ ls <> [] /\ 0 < n.
Definition numbers (rs : list (list V)) : list (list (value V)) := map (map Num) rs.
End Spec.
(** The lines whose number satisfies [P], in order *)
Definition lines_where (P : nat -> bool) (file : list str) : list str := map snd (filter (fun p => P (fst p)) (combine (seq 0 (List.length file)) file)).
Definition default_names (n : nat) : list str := map (fun i => S_ "C" ++ str_of_N (N.of_nat i)) (seq 0 n).

(** ** Lemmas *)
Section Lemmas.
Context {V : Type}.
Variable num : str -> option V.
Hypothesis num_empty : num [] = None.

Lemma mapM_ok {A B} (g : A -> res B) (h : A -> B) l : (forall x, In x l -> g x = Ok (h x)) -> mapM g l = Ok (map h l).
Proof. induction l as [|x l IH]; intro H; [reflexivity|]. cbn [mapM map]. rewrite (H x) by now left. cbn [bind]. rewrite IH by (intros y Hy; apply H; now right). reflexivity. Qed.
Definition raw (s : separator) (l : str) : list str := match s with Blanks => split_ws l | Text [c] => split_chr c l | Text _ => [] end.
Lemma raw_strip s l : known s -> map strip (raw s l) = cells s l.
Proof.
  intros [->|(c & ->)]; [|reflexivity]. cbn [raw cells]. pose proof (split_ws_tokens l) as T. induction (split_ws l) as [|w ws IH]; [reflexivity|].
  cbn [forallb] in T. apply andb_inv in T. destruct T as [T1 T2]. cbn [map]. rewrite token_strip by exact T1. rewrite IH by exact T2. reflexivity.
Qed.
Lemma raw_ok s l : known s -> row_cells s l = Ok (raw s l).
Proof. intros [->|(c & ->)]; reflexivity. Qed.
Lemma cut_row c l t : ~ In c t -> l = t \/ (exists more, l = t ++ c :: more) -> cut_comment (Some [c]) l = Ok t.
Proof.
  intros H E. assert (F : forallb (fun x => negb (chr_eqb x c)) t = true) by (apply forallb_forall; intros x Hx; apply negb_true_iff, chr_eqb_neq; intros ->; exact (H Hx)).
  unfold cut_comment, split_chr. destruct E as [->|(more & ->)]; [rewrite split_on_none by exact F|rewrite split_on_app_sep; [|exact F|apply chr_eqb_refl]]; reflexivity.
Qed.
(** The text of the row *)
Definition bare (char : option ascii) (l : str) : str := match char with Some c => match split_chr c l with w :: _ => w | [] => [] end | None => l end.
Definition bare_row (s : separator) (l : str) (r : list V) : Prop := strip l <> [] /\ map num (cells s l) = map Some r.
Lemma bare_ok s char l r : number_row num s char l r -> cut_comment (option_map (fun c => [c]) char) l = Ok (bare char l) /\ bare_row s (bare char l) r.
Proof.
  intros (t & H & H1 & H2). destruct char as [c|]; cbn [option_map bare].
  - destruct H as (N & E). pose proof (cut_row c l t N E) as C. rewrite C. unfold cut_comment in C. apply Ok_inj in C. rewrite C. split; [reflexivity|split; assumption].
  - subst l. split; [reflexivity|split; assumption].
Qed.
Lemma F2_in {A B} (R : A -> B -> Prop) l m : Forall2 R l m -> forall x, In x l -> exists y, In y m /\ R x y.
Proof. intro H. induction H as [|x y l m H1 H2 IH]; intros z Hz; [destruct Hz|]. destruct Hz as [<-|Hz]; [exists y; split; [now left|exact H1]|]. destruct (IH z Hz) as (y' & A1 & A2). exists y'. split; [now right|exact A2]. Qed.
Lemma parse_ok s char n ls rs : known s -> table_rows num s char n ls rs ->
  parse_table num (Some s) (option_map (fun c => [c]) char) ls = Ok (numbers rs) /\ List.length (hd [] (numbers rs)) = n.
Proof.
  intros K (H & L & N & N0). unfold parse_table.
  assert (E1 : mapM (cut_comment (option_map (fun c => [c]) char)) ls = Ok (map (bare char) ls)).
  { apply mapM_ok. intros l Hl. destruct (F2_in _ _ _ H l Hl) as (r & _ & R). apply (bare_ok s char l r R). }
  rewrite E1. cbn [bind].
  assert (HB : Forall2 (bare_row s) (map (bare char) ls) rs) by (clear -H; induction H as [|l r ls rs H1 H2 IH]; [constructor|]; cbn [map]; constructor; [apply bare_ok; exact H1|exact IH]).
  assert (NB : map (bare char) ls <> []) by (destruct ls; [congruence|discriminate]).
  clear H E1 N. revert HB NB. generalize (map (bare char) ls). clear ls. intros ls H N.
  assert (E2 : filter (fun l => nonempty (strip l)) ls = ls).
  { clear -H. induction H as [|l r ls rs (H1 & _) H2 IH]; [reflexivity|]. cbn [filter]. destruct (strip l); [congruence|]. cbn [nonempty]. rewrite IH. reflexivity. }
  rewrite E2, (mapM_ok _ (raw s)) by (intros l _; apply raw_ok; exact K). cbn [bind].
  assert (LEN : forall l r, bare_row s l r -> List.length (raw s l) = List.length r).
  { intros l r (_ & E). rewrite <- raw_strip in E by exact K. rewrite map_map in E. apply (f_equal (@List.length _)) in E. rewrite !map_length in E. exact E. }
  assert (CELL : forall l r j, bare_row s l r -> j < List.length r -> exists v, nth_error r j = Some v /\ num (strip (nth j (raw s l) [])) = Some v).
  { intros l r j (Z1 & E) Hj. rewrite <- raw_strip in E by exact K. rewrite map_map in E.
    destruct (nth_error r j) as [v|] eqn:Ev; [|apply nth_error_None in Ev; lia]. exists v. split; [reflexivity|].
    assert (Q : nth_error (map (fun x => num (strip x)) (raw s l)) j = Some (Some v)) by (rewrite E, nth_error_map, Ev; reflexivity).
    rewrite nth_error_map in Q. destruct (nth_error (raw s l) j) as [x|] eqn:Ex; [|discriminate Q]. cbn in Q. injection Q as Q. rewrite (nth_error_nth _ _ _ Ex). exact Q. }
  assert (NE : forall x v, num (strip x) = Some v -> nonempty (strip x) = true) by (intros x v Q; destruct (strip x); [rewrite num_empty in Q; discriminate|reflexivity]).
  destruct ls as [|l0 ls']; [congruence|]. inversion H as [|? r0 ? rs' H0 H1]; subst. cbn [map]. inversion L as [|? ? L0 L1]; subst.
  assert (E3 : existsb (fun r => List.length (raw s l0) <? List.length r) (raw s l0 :: map (raw s) ls') = false).
  { apply not_true_is_false. intro B. apply existsb_exists in B. destruct B as (x & Hx & B). change (raw s l0 :: map (raw s) ls') with (map (raw s) (l0 :: ls')) in Hx.
    apply in_map_iff in Hx. destruct Hx as (l & <- & Hl). destruct (F2_in _ _ _ H l Hl) as (r & Hr & R). rewrite (LEN _ _ H0), (LEN _ _ R) in B.
    rewrite Forall_forall in L. rewrite (L r Hr) in B. apply Nat.ltb_lt in B. lia. }
  rewrite E3. split; [|cbn; rewrite map_length; reflexivity]. f_equal. change (raw s l0 :: map (raw s) ls') with (map (raw s) (l0 :: ls')).
  set (n := List.length r0) in *. rewrite (LEN _ _ H0). change (List.length r0) with n.
  assert (NC : forall j, j < n -> numeric_column num (map (raw s) (l0 :: ls')) j = true).
  { intros j Hj. unfold numeric_column. apply forallb_forall. intros x Hx. apply in_map_iff in Hx. destruct Hx as (l & <- & Hl).
    destruct (F2_in _ _ _ H l Hl) as (r & Hr & R). rewrite Forall_forall in L. destruct (CELL l r j R) as (v & _ & Q); [rewrite (L r Hr); exact Hj|].
    unfold numeric_cell, strIsFloat. rewrite Q. apply orb_true_r. }
  assert (G : forall tbl, (forall j, j < n -> numeric_column num tbl j = true) -> forall ls2 rs2, Forall2 (bare_row s) ls2 rs2 -> Forall (fun r => List.length r = n) rs2 ->
    map (fun r => map (fun j => value_of num (numeric_column num tbl j) (nth j r [])) (seq 0 n)) (map (raw s) ls2) = map (map Num) rs2).
  { intros tbl NT ls2 rs2 HF. induction HF as [|l r ls2 rs2 H2 H3 IH]; intro LF; [reflexivity|]. inversion LF as [|? ? La Lb]; subst. cbn [map]. f_equal; [|apply IH; exact Lb].
    apply list_ext.
    - rewrite !map_length, seq_length. symmetry. exact La.
    - intros j Hj. rewrite map_length, seq_length in Hj. rewrite map_seq_nth_error by exact Hj. destruct (CELL l r j H2) as (v & Ev & Q); [lia|]. rewrite nth_error_map, Ev. cbn [option_map].
      unfold value_of. rewrite (NE _ _ Q), NT by exact Hj. cbn [negb]. rewrite Q. reflexivity. }
  exact (G _ NC _ _ H L).
Qed.
Lemma leading_all c k cs rest : List.length cs <= k -> Forall (begins c) cs -> match rest with l :: _ => ~ begins c l | [] => True end ->
  leading c k (cs ++ rest) = map strip cs.
Proof.
  revert k. induction cs as [|l cs IH]; intros k L H R.
  - destruct k as [|k]; [reflexivity|]. destruct rest as [|l rest]; [reflexivity|]. cbn [app leading map]. destruct (strip l) as [|x t] eqn:E; [reflexivity|].
    destruct (chr_eqb x c) eqn:Q; [|reflexivity]. apply chr_eqb_eq in Q. subst x. elim R. exists t. exact E.
  - destruct k as [|k]; [cbn in L; lia|]. inversion H as [|? ? (t & H1) H2]; subst. cbn [app leading map]. rewrite H1, chr_eqb_refl. f_equal. apply IH; [cbn in L; lia|exact H2|exact R].
Qed.
Lemma kept_after skip file k : (forall i, i < List.length file -> skip i = (i <? k)) -> kept skip file = skipn k file.
Proof.
  intro H. unfold kept. assert (G : forall (l : list str) a, (forall i, i < List.length l -> skip (a + i) = (a + i <? k)) -> map snd (filter (fun p => negb (skip (fst p))) (combine (seq a (List.length l)) l)) = skipn (k - a) l).
  { induction l as [|x l IH]; intros a Hl; [rewrite skipn_nil; reflexivity|]. cbn [List.length seq combine filter fst]. pose proof (Hl 0 ltac:(cbn; lia)) as H0. rewrite Nat.add_0_r in H0. rewrite H0.
    assert (IH' : map snd (filter (fun p => negb (skip (fst p))) (combine (seq (S a) (List.length l)) l)) = skipn (k - S a) l).
    { apply IH. intros i Hi. pose proof (Hl (S i) ltac:(cbn; lia)) as H1. replace (a + S i) with (S a + i) in H1 by lia. exact H1. }
    destruct (Nat.ltb_spec a k) as [Q|Q]; cbn [negb].
    - rewrite IH'. replace (k - a) with (S (k - S a)) by lia. reflexivity.
    - cbn [map snd]. rewrite IH'. replace (k - a) with 0 by lia. replace (k - S a) with 0 by lia. reflexivity. }
  pose proof (G file 0) as G0. rewrite Nat.sub_0_r in G0. apply G0. intros i Hi. apply H. exact Hi.
Qed.
Lemma not_csv_false file l rest : file = l :: rest -> ~ number_and_word (strip l) -> not_csv file = false.
Proof.
  intros -> H. unfold not_csv, readline. cbn [Z.ltb Z.compare Z.to_nat nth_error option_map]. destruct (split_ws (strip l)) as [|w0 [|w1 ws]] eqn:E; try reflexivity.
  destruct (int_ w0) as [z|] eqn:I; [|reflexivity]. destruct (isalpha w1) eqn:A; [|reflexivity]. elim H. exists w0, w1, ws, z. unfold isalpha in A. apply andb_inv in A. destruct A as [A1 A2].
  split; [exact E|]. split; [exact I|]. split; [destruct w1; [discriminate A1|discriminate]|exact A2].
Qed.
Lemma split_cells s l : known s -> split_ (Some s) (Some l) = Ok (cells s (strip l)).
Proof. intros [->|(c & ->)]; reflexivity. Qed.
Lemma readline_nth file (i : nat) : readline file (Z.of_nat i) = option_map strip (nth_error file i).
Proof. unfold readline. destruct (Z.ltb_spec (Z.of_nat i) 0); [lia|]. rewrite Nat2Z.id. reflexivity. Qed.
Lemma find_later c l : found_after_start c l = match find_chr c l with Some (S _) => true | _ => false end.
Proof. reflexivity. Qed.
Lemma detect_shown file i l0 l1 : nth_error file i = Some l0 -> nth_error file (i + 1) = Some l1 -> detect_sep None file i = Some (shown l1).
Proof. intros H0 H1. unfold detect_sep. rewrite H0, H1. unfold shown, found_after_start. change tab with (ch 9). repeat (destruct (match find_chr _ (strip l1) with Some (S _) => true | _ => false end); [reflexivity|]). reflexivity. Qed.
Lemma shown_known l : known (shown l).
Proof. unfold shown. repeat (destruct (match find_chr _ (strip l) with Some (S _) => true | _ => false end); [right; eexists; reflexivity|]). left. reflexivity. Qed.
Lemma pandas_known s : known s -> known (for_pandas s).
Proof. intros [->|(c & ->)]; [left; reflexivity|]. unfold for_pandas. destruct (chr_eqb c (ch 9)); [left; reflexivity|right; exists c; reflexivity]. Qed.
Lemma not_comment_line c : existsb (chr_eqb c) COMMENT_CHAR = true <-> comment_char c.
Proof.
  unfold COMMENT_CHAR, comment_char. cbn [existsb]. rewrite orb_false_r, !orb_true_iff, !chr_eqb_eq. tauto.
Qed.
End Lemmas.

(** ** The lines of the file *)
(** The file starts with the lines [cs], which begin with the character [char], and goes on with the line [next]. *)
Definition starts_with_comments (char : option ascii) (cs : list str) (next : str) : Prop :=
  match char with
  | None => cs = [] /\ forall c, comment_char c -> ~ begins c next
  | Some c => comment_char c /\ cs <> [] /\ List.length cs <= 100 /\ Forall (begins c) cs /\ ~ begins c next
  end.
Definition sep_used (sep : option separator) (second : str) (s : separator) : Prop :=
  match sep with None => s = shown second | Some s' => s' = s /\ known s /\ s <> Text [sp] end.
Section Props.
Context {V : Type}.
Variable num : str -> option V.
(** A line of words is taken for the names when no word is a number, or when it has more than two words and at most half of
    them are numbers. *)
Definition count_num (l : list str) : nat := List.length (filter (is_num num) l).
Definition looks_like_names (l : list str) : Prop := count_num l = 0 \/ (2 < List.length l /\ 2 * count_num l <= List.length l).
(** A new reader, as CSVFile(filename, sep) makes it; header and table do not matter. *)
Definition reader (sep : option separator) (h : list str) d : csv V := mk_csv sep [] None [] None true h d.

Lemma known_sep sep l s : sep_used sep l s -> known s /\ safe_sep sep = sep.
Proof.
  unfold sep_used. destruct sep as [s'|]; [|intros ->; split; [apply shown_known|reflexivity]]. intros (-> & K & N). split; [exact K|].
  destruct K as [->|(c & ->)]; [reflexivity|]. unfold safe_sep. destruct (chr_eqb c sp) eqn:E; [apply chr_eqb_eq in E; subst c; congruence|].
  destruct c as [[] [] [] [] [] [] [] []]; try reflexivity; discriminate E.
Qed.
Lemma sep_detected sep l0 l1 s file i : sep_used sep l1 s -> nth_error file i = Some l0 -> nth_error file (i + 1) = Some l1 -> detect_sep sep file i = Some s.
Proof.
  intros H H0 H1. unfold sep_used in H. destruct sep as [s'|]; [destruct H as (-> & _); reflexivity|]. rewrite (detect_shown file i l0 l1 H0 H1), H. reflexivity.
Qed.
Lemma header_detected sep h d char cs next rest : starts_with_comments char cs next ->
  read_header (reader sep h d) (cs ++ next :: rest) = Ok (map strip cs, option_map (fun c => [c]) char, []).
Proof.
  unfold starts_with_comments, read_header, reader. cbn [c_lines c_char]. destruct char as [c|].
  - intros (C & N & L & F & B). destruct cs as [|l0 cs']; [congruence|]. inversion F as [|? ? (t & E) F']; subst. unfold readline. cbn [app Z.ltb Z.compare Z.to_nat nth_error option_map]. rewrite E.
    assert (X : existsb (chr_eqb c) COMMENT_CHAR = true) by (apply not_comment_line; exact C). rewrite X.
    change (l0 :: cs' ++ next :: rest) with ((l0 :: cs') ++ next :: rest). rewrite (leading_all c hundred (l0 :: cs') (next :: rest) L F B). reflexivity.
  - intros (-> & B). unfold readline. cbn [app Z.ltb Z.compare Z.to_nat nth_error option_map]. destruct (strip next) as [|c t] eqn:E; [reflexivity|].
    destruct (existsb (chr_eqb c) COMMENT_CHAR) eqn:X; [|reflexivity]. apply not_comment_line in X. elim (B c X). exists t. exact E.
Qed.
Lemma nth_mid {A} (a : list A) x b : nth_error (a ++ x :: b) (List.length a) = Some x.
Proof. rewrite nth_error_app2 by lia. rewrite Nat.sub_diag. reflexivity. Qed.
Lemma nth_mid1 {A} (a : list A) x y b : nth_error (a ++ x :: y :: b) (List.length a + 1) = Some y.
Proof. rewrite nth_error_app2 by lia. replace (List.length a + 1 - List.length a) with 1 by lia. reflexivity. Qed.
Lemma skipn_mid {A} (a : list A) x b : skipn (List.length a + 1) (a ++ x :: b) = b.
Proof. rewrite skipn_app. replace (List.length a + 1 - List.length a) with 1 by lia. rewrite skipn_all2 by lia. reflexivity. Qed.
Lemma skipn_mid2 {A} (a : list A) x y b : skipn (List.length a + 2) (a ++ x :: y :: b) = b.
Proof. rewrite skipn_app. replace (List.length a + 2 - List.length a) with 2 by lia. rewrite skipn_all2 by lia. reflexivity. Qed.
Lemma names_test l : looks_like_names l <-> (nFloat num l =? 0) || ((2 <? List.length l) && (2 * nFloat num l <=? List.length l)) = true.
Proof.
  unfold looks_like_names. change (nFloat num l) with (count_num l). rewrite orb_true_iff, andb_true_iff, Nat.eqb_eq, Nat.ltb_lt, Nat.leb_le. tauto.
Qed.
Lemma cells_stripped s l : known s -> map strip (cells s l) = cells s l.
Proof.
  intros [->|(c & ->)]; cbn [cells]; [|rewrite map_map; apply map_ext; intro x; apply strip_idem].
  pose proof (split_ws_tokens l) as T. induction (split_ws l) as [|w ws IH]; [reflexivity|]. cbn [forallb] in T. apply andb_inv in T. destruct T as [T1 T2]. cbn [map]. rewrite token_strip by exact T1. rewrite IH by exact T2. reflexivity.
Qed.
Lemma seps_end s : known s -> match Some s with Some (Text [c]) => if chr_eqb c tab then Some Blanks else Some s | _ => Some s end = Some (for_pandas s).
Proof. intros [->|(c & ->)]; [reflexivity|]. cbn [for_pandas]. change tab with (ch 9). destruct (chr_eqb c (ch 9)); reflexivity. Qed.
Lemma brackets_eq l : count_chr (ch 40) l + count_chr (ch 91) l = brackets l. Proof. reflexivity. Qed.

(** ** C45: the rows of the table are exactly the lines after the header and the names. *)
(** With a line of names after the comments *)
Theorem C45_names_line sep h d char cs nm ds rs n s :
  num [] = None -> sep_used sep (hd [] ds) s -> starts_with_comments char cs nm -> ~ number_and_word (strip (hd nm cs)) ->
  looks_like_names (cells s (strip nm)) -> List.length (cells s (strip nm)) = n -> 2 * brackets (strip (hd [] ds)) <= n ->
  table_rows num (for_pandas s) char n ds rs ->
  csv_read num (reader sep h d) (cs ++ nm :: ds) =
  Ok (mk_csv (Some (for_pandas s)) (cells s (strip nm)) (option_map (fun c => [c]) char) [] (Some (Z.of_nat (List.length cs))) true (map strip cs) (Some (cells s (strip nm), numbers rs))).
Proof.
  intros NE SU SC NW LN LEN BR TR. destruct (known_sep _ _ _ SU) as [KS SS]. pose proof TR as (F2 & _ & ND & N0). destruct ds as [|d0 ds]; [congruence|]. cbn [hd] in *.
  unfold csv_read. replace (c_sep (reader sep h d)) with sep by reflexivity. rewrite SS.
  assert (NC : not_csv (cs ++ nm :: d0 :: ds) = false). { destruct cs as [|l0 cs']; cbn [hd app] in *; (eapply not_csv_false; [reflexivity|exact NW]). }
  rewrite NC, (header_detected sep h d char cs nm (d0 :: ds) SC). cbn [bind]. rewrite map_length.
  rewrite (sep_detected sep nm d0 s _ _ SU (nth_mid cs nm (d0 :: ds)) (nth_mid1 cs nm d0 ds)).
  unfold column_names. cbn [reader c_nline c_names c_detect nonempty negb]. rewrite readline_nth, nth_mid. cbn [option_map]. rewrite split_cells by exact KS. rewrite strip_idem. cbn [bind].
  apply names_test in LN. rewrite LN, readline_nth, nth_mid1. cbn [option_map]. rewrite split_cells by exact KS. cbn [bind]. rewrite brackets_eq.
  destruct (Nat.ltb_spec (List.length (cells s (strip nm))) (2 * brackets (strip d0))) as [Q|Q]; [lia|]. cbn [bind].
  rewrite seps_end by exact KS.
  rewrite (kept_after _ _ (List.length cs + 1)).
  2:{ intros i Hi. unfold skiprows. cbn [existsb]. rewrite orb_false_r. destruct (Nat.ltb_spec i (List.length cs + 1)); [reflexivity|]. cbn [orb]. destruct (Z.eqb_spec (Z.of_nat i) (Z.of_nat (List.length cs))); [lia|reflexivity]. }
  rewrite skipn_mid. destruct (parse_ok num NE (for_pandas s) char n (d0 :: ds) rs (pandas_known s KS) TR) as [P1 P2]. rewrite P1. cbn [bind]. rewrite P2.
  rewrite LEN, Nat.eqb_refl. destruct (Nat.eqb_spec n 0); [lia|]. cbn [orb negb]. rewrite cells_stripped by exact KS. reflexivity.
Qed.
(** With a line of units after the names: the units are added to the names. *)
Theorem C45_names_and_units sep h d char cs nm un ds rs n s :
  num [] = None -> sep_used sep un s -> starts_with_comments char cs nm -> ~ number_and_word (strip (hd nm cs)) ->
  looks_like_names (cells s (strip nm)) -> List.length (cells s (strip nm)) = n -> n < 2 * brackets (strip un) -> List.length (cells s (strip un)) = n ->
  table_rows num (for_pandas s) char n ds rs ->
  exists o', csv_read num (reader sep h d) (cs ++ nm :: un :: ds) = Ok o' /\ c_header o' = map strip cs /\
    c_data o' = Some (map (fun p => strip (fst p ++ S_ "_" ++ snd p)) (combine (cells s (strip nm)) (cells s (strip un))), numbers rs).
Proof.
  intros NE SU SC NW LN LEN BR LU TR. destruct (known_sep _ _ _ SU) as [KS SS]. pose proof TR as (F2 & _ & ND & N0).
  unfold csv_read. replace (c_sep (reader sep h d)) with sep by reflexivity. rewrite SS.
  assert (NC : not_csv (cs ++ nm :: un :: ds) = false). { destruct cs as [|l0 cs']; cbn [hd app] in *; (eapply not_csv_false; [reflexivity|exact NW]). }
  rewrite NC, (header_detected sep h d char cs nm (un :: ds) SC). cbn [bind]. rewrite map_length.
  rewrite (sep_detected sep nm un s _ _ SU (nth_mid cs nm (un :: ds)) (nth_mid1 cs nm un ds)).
  unfold column_names. cbn [reader c_nline c_names c_detect nonempty negb]. rewrite readline_nth, nth_mid. cbn [option_map]. rewrite split_cells by exact KS. rewrite strip_idem. cbn [bind].
  apply names_test in LN. rewrite LN, readline_nth, nth_mid1. cbn [option_map]. rewrite split_cells by exact KS. rewrite strip_idem. cbn [bind]. rewrite brackets_eq.
  destruct (Nat.ltb_spec (List.length (cells s (strip nm))) (2 * brackets (strip un))) as [Q|Q]; [|lia]. rewrite LU, LEN, Nat.eqb_refl. cbn [bind].
  rewrite seps_end by exact KS.
  rewrite (kept_after _ _ (List.length cs + 2)).
  2:{ intros i Hi. unfold skiprows. cbn [existsb]. rewrite orb_false_r. destruct (Nat.ltb_spec i (List.length cs + 2)); [reflexivity|]. cbn [orb]. destruct (Z.eqb_spec (Z.of_nat i) (Z.of_nat (List.length cs))); [lia|reflexivity]. }
  rewrite skipn_mid2. destruct (parse_ok num NE (for_pandas s) char n ds rs (pandas_known s KS) TR) as [P1 P2]. rewrite P1. cbn [bind]. rewrite P2.
  set (nms := map _ (combine _ _)). assert (LN2 : List.length nms = n) by (unfold nms; rewrite map_length, combine_length; lia). rewrite LN2, Nat.eqb_refl. destruct (Nat.eqb_spec n 0); [lia|]. cbn [orb negb].
  eexists. split; [reflexivity|]. cbn [c_header c_data]. split; [reflexivity|]. do 2 f_equal. unfold nms. rewrite map_map.
  assert (SN : forall x, In x (combine (cells s (strip nm)) (cells s (strip un))) -> strip (fst x) = fst x /\ strip (snd x) = snd x).
  { intros [a b] H. cbn [fst snd]. pose proof (in_combine_l _ _ _ _ H) as Ha. pose proof (in_combine_r _ _ _ _ H) as Hb.
    rewrite <- (cells_stripped s _ KS) in Ha. rewrite <- (cells_stripped s _ KS) in Hb. apply in_map_iff in Ha, Hb. destruct Ha as (a' & <- & _). destruct Hb as (b' & <- & _). split; apply strip_idem. }
  apply map_ext_in. intros x Hx. destruct (SN x Hx) as [-> ->]. reflexivity.
Qed.
(** With numbers right after the comments: all lines are rows, and the columns get their names from a comment line with as many
    words as there are columns, not all of them numbers, or are called C0, C1, ... *)
Theorem C45_numbers_only sep h d char cs d0 d1 ds rs n s :
  num [] = None -> sep_used sep d1 s -> starts_with_comments char cs d0 -> ~ number_and_word (strip (hd d0 cs)) ->
  ~ looks_like_names (cells s (strip d0)) -> List.length (cells s (strip d0)) = n -> table_rows num (for_pandas s) char n (d0 :: d1 :: ds) rs ->
  exists o', csv_read num (reader sep h d) (cs ++ d0 :: d1 :: ds) = Ok o' /\ c_header o' = map strip cs /\
    c_data o' = Some (match find (fun ws => (List.length ws =? n) && negb (forallb (is_num num) ws)) (map (fun l => cells s (strip (skipn 1 (strip l)))) cs) with
                      | Some ws => ws
                      | None => default_names n
                      end, numbers rs).
Proof.
  intros NE SU SC NW LN LEN TR. destruct (known_sep _ _ _ SU) as [KS SS]. pose proof TR as (F2 & _ & ND & N0).
  unfold csv_read. replace (c_sep (reader sep h d)) with sep by reflexivity. rewrite SS.
  assert (NC : not_csv (cs ++ d0 :: d1 :: ds) = false). { destruct cs as [|l0 cs']; cbn [hd app] in *; (eapply not_csv_false; [reflexivity|exact NW]). }
  rewrite NC, (header_detected sep h d char cs d0 (d1 :: ds) SC). cbn [bind]. rewrite map_length.
  rewrite (sep_detected sep d0 d1 s _ _ SU (nth_mid cs d0 (d1 :: ds)) (nth_mid1 cs d0 d1 ds)).
  unfold column_names. cbn [reader c_nline c_names c_detect nonempty negb]. rewrite readline_nth, nth_mid. cbn [option_map]. rewrite split_cells by exact KS. rewrite strip_idem. cbn [bind].
  destruct ((nFloat num (cells s (strip d0)) =? 0) || ((2 <? List.length (cells s (strip d0))) && (2 * nFloat num (cells s (strip d0)) <=? List.length (cells s (strip d0))))) eqn:LN2; [apply names_test in LN2; contradiction|].
  assert (HN : forall ws', ws' = find (fun ws => (List.length ws =? n) && negb (forallb (is_num num) ws)) (map (fun l => cells s (strip (skipn 1 (strip l)))) cs) ->
    forall C, char = Some C -> header_names num (Some s) (Some [C]) n n (map strip cs) = Ok ws').
  { intros ws' -> C _. clear -KS N0. induction cs as [|l cs IH]; [reflexivity|]. cbn [map header_names find]. change (List.length [C]) with 1. rewrite split_cells by exact KS. cbn [bind].
    set (w := cells s (strip (skipn 1 (strip l)))). destruct (Nat.eqb_spec (List.length w) n) as [E|E]; cbn [andb]; [|exact IH].
    assert (X : (nFloat num w + 1 <=? n) = negb (forallb (is_num num) w)).
    { change (nFloat num w) with (count_num w). unfold count_num. rewrite <- E. clear. induction w as [|x w IH]; [reflexivity|]. cbn [filter forallb List.length]. destruct (is_num num x); cbn [List.length andb negb].
      - rewrite <- IH. destruct (Nat.leb_spec (List.length (filter (is_num num) w) + 1) (List.length w)), (Nat.leb_spec (S (List.length (filter (is_num num) w)) + 1) (S (List.length w))); try reflexivity; lia.
      - apply Nat.leb_le. assert (List.length (filter (is_num num) w) <= List.length w); [|lia]. clear. induction w as [|y w IH]; cbn; [lia|destruct (is_num num y); cbn; lia]. }
    rewrite X. destruct (negb (forallb (is_num num) w)); [reflexivity|exact IH]. }
  assert (SK : kept (skiprows (List.length cs) None []) (cs ++ d0 :: d1 :: ds) = d0 :: d1 :: ds).
  { rewrite (kept_after _ _ (List.length cs)); [rewrite skipn_app, skipn_all, Nat.sub_diag; reflexivity|]. intros i Hi. unfold skiprows. cbn [existsb]. rewrite !orb_false_r. reflexivity. }
  destruct (parse_ok num NE (for_pandas s) char n (d0 :: d1 :: ds) rs (pandas_known s KS) TR) as [P1 P2].
  set (fnd := find _ _) in *.
  assert (CN : (if nonempty (map strip cs) then first <- Ok (cells s (strip d0)) ;; r <- header_names num (Some s) (option_map (fun c => [c]) char) (List.length first) (List.length (cells s (strip d0))) (map strip cs) ;; Ok (match r with Some cols => cols | None => [] end, None, List.length cs) else Ok ([], @None Z, List.length cs)) = Ok (match fnd with Some c => c | None => [] end, None, List.length cs)).
  { destruct cs as [|l0 cs']; [reflexivity|]. destruct char as [C|]; [|destruct SC as [SC _]; discriminate SC]. cbn [map nonempty bind option_map]. rewrite LEN.
    change (strip l0 :: map strip cs') with (map strip (l0 :: cs')). rewrite (HN fnd eq_refl C eq_refl). reflexivity. }
  replace (if nonempty (map strip cs) then _ else _) with (Ok (match fnd with Some c => c | None => [] end, @None Z, List.length cs)) by (symmetry; exact CN).
  cbn [bind]. rewrite seps_end by exact KS. rewrite SK, P1. cbn [bind]. rewrite P2. eexists. split; [reflexivity|]. cbn [c_header c_data]. split; [reflexivity|]. do 2 f_equal.
  destruct fnd as [ws|] eqn:EF.
  - unfold fnd in EF. apply find_some in EF. destruct EF as [EF1 EF2]. apply andb_inv in EF2. destruct EF2 as [EF2 _]. apply Nat.eqb_eq in EF2. rewrite EF2, Nat.eqb_refl. destruct (Nat.eqb_spec n 0); [lia|]. cbn [orb negb].
    apply in_map_iff in EF1. destruct EF1 as (l & <- & _). apply cells_stripped. exact KS.
  - cbn [List.length Nat.eqb orb]. unfold default_names. rewrite map_map. apply map_ext. intro i. apply strip_noedge. unfold no_edge_space. change (is_space "C"%char) with false. cbn [S_ list_ascii_of_string app negb andb].
    pose proof (token_strip _ (str_of_N_token (N.of_nat i))) as T. pose proof (strip_no_edge (str_of_N (N.of_nat i))) as NEs. rewrite T in NEs. unfold no_edge_space in NEs. apply andb_inv in NEs. destruct NEs as [_ NEs].
    cbn [rev]. destruct (rev (str_of_N (N.of_nat i))) eqn:ER; [reflexivity|exact NEs].
Qed.

(** A file that ends after the names: an AttributeError instead of an empty table *)
Theorem C45_only_names_refuted h d char cs nm : starts_with_comments char cs nm -> ~ number_and_word (strip (hd nm cs)) -> looks_like_names (split_ws (strip nm)) ->
  csv_read num (reader None h d) (cs ++ [nm]) = Err AttributeError.
Proof.
  intros SC NW LN. unfold csv_read. change (safe_sep (c_sep (reader None h d))) with (@None separator).
  assert (NC : not_csv (cs ++ [nm]) = false). { destruct cs as [|l0 cs']; cbn [hd app] in *; (eapply not_csv_false; [reflexivity|exact NW]). }
  rewrite NC, (header_detected None h d char cs nm [] SC). cbn [bind]. rewrite map_length.
  assert (E : nth_error (cs ++ [nm]) (List.length cs + 1) = None) by (apply nth_error_None; rewrite app_length; cbn; lia).
  unfold detect_sep. rewrite nth_mid, E.
  unfold column_names. cbn [reader c_nline c_names c_detect nonempty negb]. rewrite readline_nth, nth_mid. cbn [option_map split_ bind].
  apply names_test in LN. rewrite strip_idem, LN, readline_nth, E. reflexivity.
Qed.

(** With the numbers of the comment lines and of the line of names given: the rows are the lines that are neither, but the first
    lines of the file are left out, as many of them as there are comment lines. *)
Definition given (sep : separator) (lines : list nat) (k : nat) h d : csv V := mk_csv (Some sep) [] None lines (Some (Z.of_nat k)) true h d.
Definition distinct (l : list nat) : nat := List.length (nodup Nat.eq_dec l).
Definition in_list (l : list nat) (i : nat) : bool := existsb (Nat.eqb i) l.
Lemma in_list_in l i : in_list l i = true <-> In i l.
Proof. unfold in_list. rewrite existsb_exists. split; [intros (x & H & E); apply Nat.eqb_eq in E; subst; exact H|intro H; exists i; split; [exact H|apply Nat.eqb_refl]]. Qed.
Lemma distinct_header l : List.length (filter (fun i => existsb (Nat.eqb i) l) (seq 0 (S (list_max l)))) = distinct l.
Proof.
  unfold distinct. apply Permutation_length. apply NoDup_Permutation.
  - apply NoDup_filter, seq_NoDup.
  - apply NoDup_nodup.
  - intro x. rewrite filter_In, in_seq, nodup_In. fold (in_list l x). rewrite in_list_in. split; [tauto|]. intro H. split; [|exact H].
    pose proof (proj1 (list_max_le l (list_max l)) (le_n _)) as F. rewrite Forall_forall in F. specialize (F x H). lia.
Qed.
Lemma kept_where (f : nat -> bool) file (g : nat -> bool) : (forall i, i < List.length file -> negb (f i) = g i) -> kept f file = lines_where g file.
Proof.
  intro H. unfold kept, lines_where. f_equal. assert (G : forall (l : list (nat * str)), (forall p, In p l -> fst p < List.length file) -> filter (fun p => negb (f (fst p))) l = filter (fun p => g (fst p)) l).
  { induction l as [|p l IH]; intro Q; [reflexivity|]. cbn [filter]. rewrite H by (apply Q; now left). rewrite IH by (intros x Hx; apply Q; now right). reflexivity. }
  apply G. intros [i l] Hp. apply in_combine_l in Hp. apply in_seq in Hp. cbn. lia.
Qed.
Theorem C45_given_lines s lines k h d file rs n nm :
  num [] = None -> known s -> s <> Text [sp] -> lines <> [] -> nth_error file k = Some nm -> ~ number_and_word (strip (hd [] file)) -> List.length (cells s (strip nm)) = n ->
  table_rows num (for_pandas s) None n (lines_where (fun i => (distinct lines <=? i) && (k <? i) && negb (in_list lines i)) file) rs ->
  exists o', csv_read num (given s lines k h d) file = Ok o' /\ c_data o' = Some (cells s (strip nm), numbers rs).
Proof.
  intros NE KS NS NL EK NW LEN TR. pose proof TR as (_ & _ & _ & N0).
  assert (SS : safe_sep (Some s) = Some s) by (apply (known_sep (Some s) [] s); repeat split; assumption).
  unfold csv_read. change (c_sep (given s lines k h d)) with (Some s). rewrite SS. destruct file as [|l0 file']; [destruct k; discriminate EK|].
  rewrite (not_csv_false (l0 :: file') l0 file' eq_refl NW). unfold read_header. destruct lines as [|a lines']; [congruence|]. cbn [given c_lines c_char bind].
  set (L := a :: lines') in *. change (c_lines _) with L. rewrite map_length, distinct_header. cbn [detect_sep]. unfold column_names. cbn [given c_nline].
  destruct (Z.ltb_spec (Z.of_nat k) 0) as [Q|Q]; [lia|]. rewrite readline_nth, EK. cbn [option_map]. rewrite split_cells by exact KS. rewrite strip_idem. cbn [bind]. rewrite seps_end by exact KS.
  rewrite (kept_where _ _ (fun i => (distinct L <=? i) && (k <? i) && negb (in_list L i))).
  2:{ intros i Hi. unfold skiprows. rewrite !negb_orb. fold (in_list L i). replace (Z.to_nat (Z.of_nat k + 1)) with (k + 1) by lia.
      destruct (Nat.ltb_spec i (Nat.max (distinct L) (k + 1))), (Nat.leb_spec (distinct L) i), (Nat.ltb_spec k i), (Z.eqb_spec (Z.of_nat i) (Z.of_nat k)); cbn [negb andb]; try reflexivity; try lia. }
  destruct (parse_ok num NE (for_pandas s) None n _ rs (pandas_known s KS) TR) as [P1 P2]. cbn [option_map] in P1. rewrite P1. cbn [bind]. rewrite P2, LEN, Nat.eqb_refl. destruct (Nat.eqb_spec n 0); [lia|]. cbn [orb negb].
  eexists. split; [reflexivity|]. cbn [c_data]. rewrite cells_stripped by exact KS. reflexivity.
Qed.
(** No row is lost when every line among these first lines is a comment line or is not after the line of names. *)
Theorem C45_given_all_rows s lines k h d file rs n nm :
  num [] = None -> known s -> s <> Text [sp] -> lines <> [] -> nth_error file k = Some nm -> ~ number_and_word (strip (hd [] file)) -> List.length (cells s (strip nm)) = n ->
  (forall i, i < distinct lines -> i <= k \/ In i lines) ->
  table_rows num (for_pandas s) None n (lines_where (fun i => (k <? i) && negb (in_list lines i)) file) rs ->
  exists o', csv_read num (given s lines k h d) file = Ok o' /\ c_data o' = Some (cells s (strip nm), numbers rs).
Proof.
  intros NE KS NS NL EK NW LEN C TR. apply (C45_given_lines s lines k h d file rs n nm NE KS NS NL EK NW LEN).
  assert (E : forall i, (distinct lines <=? i) && (k <? i) && negb (in_list lines i) = (k <? i) && negb (in_list lines i)).
  { intro i. destruct (Nat.leb_spec (distinct lines) i) as [Q|Q]; [reflexivity|]. cbn [andb]. destruct (C i Q) as [Q2|Q2]; [destruct (Nat.ltb_spec k i); [lia|reflexivity]|].
    apply in_list_in in Q2. rewrite Q2, andb_false_r. reflexivity. }
  replace (lines_where (fun i => (distinct lines <=? i) && (k <? i) && negb (in_list lines i)) file) with (lines_where (fun i => (k <? i) && negb (in_list lines i)) file); [exact TR|].
  unfold lines_where. f_equal. apply filter_ext. intros [i l]. symmetry. apply E.
Qed.
(** FAST text outputs (fast_output_file.py:88): words separated by blanks, comments at lines 0 and 2, names at line 1 *)
Theorem C45_fast_text_output h d l0 nm un ds rs n : num [] = None -> ~ number_and_word (strip l0) -> List.length (split_ws nm) = n -> table_rows num Blanks None n ds rs ->
  exists o', csv_read num (given (Text [sp]) [0; 2] 1 h d) (l0 :: nm :: un :: ds) = Ok o' /\ c_data o' = Some (split_ws nm, numbers rs).
Proof.
  intros NE NW LEN TR. destruct (C45_given_all_rows Blanks [0; 2] 1 h d (l0 :: nm :: un :: ds) rs n nm NE) as (o' & H1 & H2).
  - left. reflexivity.
  - discriminate.
  - discriminate.
  - reflexivity.
  - exact NW.
  - cbn [cells]. rewrite split_ws_strip. exact LEN.
  - change (distinct [0; 2]) with 2. intros i Hi. left. lia.
  - cbn [for_pandas]. assert (E : lines_where (fun i => (1 <? i) && negb (in_list [0; 2] i)) (l0 :: nm :: un :: ds) = ds); [|rewrite E; exact TR].
    rewrite <- (kept_where (fun i => i <? 3)); [rewrite (kept_after _ _ 3 (fun i _ => eq_refl)); reflexivity|].
    intros i _. unfold in_list. cbn [existsb]. destruct i as [|[|[|i]]]; reflexivity.
  - exists o'. split; [exact H1|]. rewrite H2. cbn [cells]. rewrite split_ws_strip. reflexivity.
Qed.
End Props.
Arguments reader {V}.
Arguments given {V}.

Lemma whole_row {V} (num : str -> option V) s char l r : strip l <> [] -> match char with Some c => ~ In c l | None => True end -> map num (cells s l) = map Some r -> number_row num s char l r.
Proof. intros H1 H2 H3. exists l. split; [destruct char; [split; [exact H2|left; reflexivity]|reflexivity]|split; assumption]. Qed.
(** ** Digits as numbers, for the examples *)
Definition digit (s : str) : option N := match s with [c] => if is_digit c then N_of_str [c] else None | _ => None end.
(** Comment lines at the end of the file: the first rows are lost. *)
Theorem C45_last_lines_refuted : exists file lines k,
  table_rows digit (Text [","%char]) None 2 (lines_where (fun i => (k <? i) && negb (in_list lines i)) file) [[1; 2]; [3; 4]; [5; 6]]%N /\
  match csv_read digit (given (Text [","%char]) lines k [] None) file with Ok o => c_data o = Some ([S_ "a"; S_ "b"], numbers [[3; 4]; [5; 6]]%N) | Err _ => False end.
Proof.
  exists [S_ "a,b"; S_ "1,2"; S_ "3,4"; S_ "5,6"; S_ "# end"; S_ "# of file"], [4; 5], 0. split.
  - split; [|split; [repeat constructor|split; [discriminate|lia]]]. match goal with |- Forall2 _ ?l _ => change l with [S_ "1,2"; S_ "3,4"; S_ "5,6"] end.
    repeat (apply Forall2_cons; [apply whole_row; [vm_compute; discriminate|exact Logic.I|reflexivity]|]). apply Forall2_nil.
  - vm_compute. reflexivity.
Qed.
(** More than 100 comment lines: the hundred and first is taken for the names, and the names for a row. *)
Theorem C45_hundred_comments_refuted : exists cs, Forall (begins "#"%char) cs /\
  match csv_read digit (reader None [] None) (cs ++ [S_ "a,b"; S_ "1,2"; S_ "3,4"]) with
  | Ok o => c_data o = Some ([S_ "C0"; S_ "C1"], [[Str (S_ "a"); Str (S_ "b")]; [Str (S_ "1"); Str (S_ "2")]; [Str (S_ "3"); Str (S_ "4")]])
  | Err _ => False
  end.
Proof.
  exists (repeat (S_ "# c") 101). split; [|vm_compute; reflexivity]. apply Forall_forall. intros x Hx. apply repeat_spec in Hx. subst x. exists (S_ " c"). reflexivity.
Qed.

(** ** The hypotheses are met *)
Lemma no_hash l : forallb (fun x => negb (chr_eqb "#"%char x)) l = true -> ~ In "#"%char l.
Proof. intros H C. rewrite forallb_forall in H. specialize (H _ C). discriminate H. Qed.
Example C45_names_line_example : starts_with_comments (Some "#"%char) [S_ "# made by hand"] (S_ "x,y z") /\ ~ number_and_word (S_ "# made by hand") /\
  looks_like_names digit (cells (Text [","%char]) (S_ "x,y z")) /\ sep_used None (S_ "1,2") (Text [","%char]) /\
  table_rows digit (for_pandas (Text [","%char])) (Some "#"%char) 2 [S_ "1,2"; S_ " 3 , 4"] [[1; 2]; [3; 4]]%N.
Proof.
  repeat split; try (left; reflexivity); try discriminate; try (repeat constructor; eexists; reflexivity); try (intros (t & C); discriminate C); try (cbn; lia).
  - intros (w0 & w1 & ws & z & E & I & _). vm_compute in E. injection E as <- <- <-. vm_compute in I. discriminate I.
  - repeat (apply Forall2_cons; [apply whole_row; [vm_compute; discriminate|apply no_hash; reflexivity|reflexivity]|]). apply Forall2_nil.
Qed.
Example C45_row_with_comment : number_row digit Blanks (Some "#"%char) (S_ "1 2 # checked") [1; 2]%N.
Proof. exists (S_ "1 2 "). split; [split; [apply no_hash; reflexivity|right; exists (S_ " checked"); reflexivity]|split; [vm_compute; discriminate|reflexivity]]. Qed.
Example C45_units_example : sep_used None (S_ "(s)	(m/s)") (Text [ch 9]) /\ List.length (cells (Text [ch 9]) (strip (S_ "t	u"))) = 2 /\ 2 < 2 * brackets (strip (S_ "(s)	(m/s)")) /\
  starts_with_comments None [] (S_ "t	u") /\ table_rows digit (for_pandas (Text [ch 9])) None 2 [S_ "1	2"; S_ "3 4"] [[1; 2]; [3; 4]]%N.
Proof.
  split; [vm_compute; reflexivity|]. split; [reflexivity|]. split; [vm_compute; lia|]. split.
  - split; [reflexivity|]. intros c Hc (t & E). vm_compute in E. injection E as E _. subst c. destruct Hc as [C|[C|C]]; discriminate C.
  - split; [|split; [repeat constructor|split; [discriminate|lia]]]. repeat (apply Forall2_cons; [apply whole_row; [vm_compute; discriminate|exact Logic.I|reflexivity]|]). apply Forall2_nil.
Qed.
Example C45_numbers_example : ~ looks_like_names digit (cells Blanks (strip (S_ "1 2"))) /\ sep_used None (S_ "3 4") Blanks /\
  table_rows digit Blanks (Some "#"%char) 2 [S_ "1 2"; S_ "3 4"] [[1; 2]; [3; 4]]%N /\
  find (fun ws => (List.length ws =? 2) && negb (forallb (is_num digit) ws)) (map (fun l => cells Blanks (strip (skipn 1 (strip l)))) [S_ "# by me today"; S_ "#a b"]) = Some [S_ "a"; S_ "b"].
Proof.
  split; [intros [C|[C1 C2]]; [discriminate C|vm_compute in C1; lia]|]. split; [vm_compute; reflexivity|]. split; [|vm_compute; reflexivity].
  split; [|split; [repeat constructor|split; [discriminate|lia]]]. repeat (apply Forall2_cons; [apply whole_row; [vm_compute; discriminate|apply no_hash; reflexivity|reflexivity]|]). apply Forall2_nil.
Qed.
(** The reader of FAST text outputs: comments at lines 0 and 2, names at line 1 *)
Example C45_given_example : (forall i, i < distinct [0; 2] -> i <= 1 \/ In i [0; 2]) /\
  lines_where (fun i => (1 <? i) && negb (in_list [0; 2] i)) [S_ "FAST"; S_ "Time Wind"; S_ "(s) (m/s)"; S_ "0 8"; S_ "1 9"] = [S_ "0 8"; S_ "1 9"].
Proof. split; [|reflexivity]. intros i Hi. change (distinct [0; 2]) with 2 in Hi. left. lia. Qed.

Print Assumptions C45_names_line.
Print Assumptions C45_names_and_units.
Print Assumptions C45_numbers_only.
Print Assumptions C45_only_names_refuted.
Print Assumptions C45_given_lines.
Print Assumptions C45_given_all_rows.
Print Assumptions C45_fast_text_output.
Print Assumptions C45_last_lines_refuted.
Print Assumptions C45_hundred_comments_refuted.
