(** Properties C86-C89: reading tables of FAST input files, BeamDyn sections, tables for the user, lists of files. *)
From Verif Require Import Py PyFacts TextFacts ListFacts FASTIn_Model FASTTab_Model FASTTab_Proofs FASTTab_Props.
From Coq Require Import Lia.
Local Open Scope nat_scope.

(** ** Specification *)
(** What stands before a comment *)
Fixpoint before (s : str) : str := match s with c :: t => if chr_eqb c "!" || chr_eqb c "#" then [] else c :: before t | [] => [] end.
(** The words of a row; letters are read in lower case *)
Definition words_of (l : str) : list str := split_ws (before (lower l)).
(** A line that does not start with a comment *)
Definition plain_line (l : str) : Prop := match l with c :: _ => ~ In c (S_ "!#") | [] => True end.
(** The number that a word stands for *)
Inductive cell_value {V} (num : str -> option V) (w : str) (v : V) : Prop :=
| CNum : (forall c, In c w -> ~ In c (S_ "tfnp")) -> num w = Some v -> cell_value num w v
| COne : w = S_ "true" \/ w = S_ "print" -> num (S_ "1") = Some v -> cell_value num w v
| CZero : w = S_ "false" \/ w = S_ "noprint" -> num (S_ "0") = Some v -> cell_value num w v.
(** A line of column names and a line of units, with any blanks *)
Definition header (L1 L2 : str) (names units : list str) : Prop :=
  names <> [] /\ Forall good_name names /\ split_ws L1 = names /\
  List.length units = List.length names /\ Forall good_unit units /\ split_ws L2 = flat_map split_ws (map (fun u => S_ "(" ++ u ++ S_ ")") units).

(** ** Lemmas *)
Fixpoint upto (a : ascii) (s : str) : str := match s with c :: t => if chr_eqb c a then [] else c :: upto a t | [] => [] end.
Lemma find_upto a s : match find_str s [a] with Some n => firstn n s | None => s end = upto a s.
Proof.
  induction s as [|c s IH]; [reflexivity|]. cbn [find_str startswith upto]. destruct (chr_eqb c a); [reflexivity|]. cbn [andb].
  rewrite <- IH. destruct (find_str s [a]); reflexivity.
Qed.
Lemma cut_upto a s : (match s with c :: _ => c <> a | [] => True end) -> cleanAfterChar (String a EmptyString) s = upto a s.
Proof.
  intro H. rewrite <- find_upto. unfold cleanAfterChar. change (S_ (String a EmptyString)) with [a]. destruct (find_str s [a]) as [[|n]|] eqn:E; try reflexivity.
  destruct s as [|c s]; [reflexivity|]. cbn [find_str startswith] in E. destruct (chr_eqb_spec c a) as [->|N]; [contradiction|]. cbn [andb] in E. destruct (find_str s [a]); discriminate.
Qed.
Lemma upto_before s : upto "#" (upto "!" s) = before s.
Proof.
  induction s as [|c s IH]; [reflexivity|]. cbn [upto before]. destruct (chr_eqb c "!"); [reflexivity|]. cbn [upto orb]. destruct (chr_eqb c "#"); [reflexivity|]. now rewrite IH.
Qed.
Lemma lower_mark c : In (lower_c c) (S_ "!#") -> In c (S_ "!#").
Proof.
  assert (G : forall x, (negb (existsb (chr_eqb (lower_c x)) (S_ "!#")) || existsb (chr_eqb x) (S_ "!#")) = true) by (apply char_sweep; vm_compute; reflexivity).
  intro H. specialize (G c). assert (E : existsb (chr_eqb (lower_c c)) (S_ "!#") = true) by (apply existsb_exists; eexists; split; [exact H|apply chr_eqb_refl]).
  rewrite E in G. cbn [negb orb] in G. apply existsb_exists in G. destruct G as (x & Hx & G). apply chr_eqb_eq in G. now subst.
Qed.
Lemma row_words_spec l : plain_line l -> row_words (lower l) = words_of l.
Proof.
  intro H. unfold row_words, words_of. f_equal. rewrite <- upto_before. destruct l as [|c l]; [reflexivity|].
  assert (H' : ~ In (lower_c c) (S_ "!#")) by (intro G; apply H; now apply lower_mark).
  change (lower (c :: l)) with (lower_c c :: lower l).
  rewrite (cut_upto "!") by (intro G; apply H'; rewrite G; now left).
  apply cut_upto. cbn [upto]. destruct (chr_eqb (lower_c c) "!"); [exact I|]. intro G. apply H'. rewrite G. right; now left.
Qed.
Lemma paren_eta us : map (fun u => S_ "(" ++ u ++ S_ ")") us = map paren us.
Proof. reflexivity. Qed.

Section Read.
Context {V : Type}.
Variable num : str -> option V.
Variable zero : V.

Lemma cell_value_float w v : cell_value num w v -> float_ num (logical w) = Ok v.
Proof.
  intros [H E|[->| ->] E|[->| ->] E].
  - rewrite logical_plain by exact H. unfold float_. now rewrite E.
  - change (logical (S_ "true")) with (S_ "1"). unfold float_. now rewrite E.
  - change (logical (S_ "print")) with (S_ "1"). unfold float_. now rewrite E.
  - change (logical (S_ "false")) with (S_ "0"). unfold float_. now rewrite E.
  - change (logical (S_ "noprint")) with (S_ "0"). unfold float_. now rewrite E.
Qed.
Lemma cells_float ws r : Forall2 (cell_value num) ws r -> mapM (fun w => float_ num (logical w)) ws = Ok r.
Proof. induction 1 as [|w v ws r H _ IH]; [reflexivity|]. cbn [mapM]. rewrite (cell_value_float _ _ H). cbn [bind]. now rewrite IH. Qed.
Lemma mapM_broken {A B} (g : A -> res B) l : (forall x e, In x l -> g x = Err e -> e = BrokenFormatError) -> forall e, mapM g l = Err e -> e = BrokenFormatError.
Proof.
  induction l as [|x l IH]; intros H e E; [discriminate|]. cbn [mapM] in E. destruct (g x) as [y|e'] eqn:G.
  - cbn [bind] in E. destruct (mapM g l) as [ys|e']; [discriminate|]. cbn [bind] in E. injection E as <-. apply IH; [|reflexivity]. intros; eapply H; eauto. now right.
  - cbn [bind] in E. injection E as <-. eapply H; [now left|exact G].
Qed.
Lemma mapM_fails {A B} (g : A -> res B) l x : (forall y e, In y l -> g y = Err e -> e = BrokenFormatError) -> In x l -> (forall y, g x <> Ok y) -> mapM g l = Err BrokenFormatError.
Proof.
  intros H Hx Hg. destruct (mapM g l) as [m|e] eqn:E; [|f_equal; eapply mapM_broken; eauto]. exfalso. revert m E Hx. clear H. induction l as [|z l IH]; intros m E Hx; [destruct Hx|]. cbn [mapM] in E. destruct Hx as [->|Hx].
  - destruct (g x) as [y|]; [apply (Hg y); reflexivity|discriminate].
  - destruct (g z); [|discriminate]. cbn [bind] in E. destruct (mapM g l) as [ys|]; [|discriminate]. eapply IH; [reflexivity|exact Hx].
Qed.
Ltac dif a e E := match goal with |- context [bind (if ?b then ?x else ?y) _] => destruct (if b then x else y) as [a|e] eqn:E end.
Ltac dif_in H a e E := match type of H with context [bind (if ?b then ?x else ?y) _] => destruct (if b then x else y) as [a|e] eqn:E end.
Ltac noif H := match type of H with context [if ?b then _ else _] => destruct b; [discriminate H|] end.
Lemma last_is_broken ns k e : last_is ns k = Err e -> e = BrokenFormatError.
Proof. unfold last_is. destruct (rev ns); [intro H; now injection H as <-|discriminate]. Qed.
Lemma float_broken w e : float_ num w = Err e -> e = BrokenFormatError.
Proof. unfold float_. destruct (num w); [discriminate|]. intro H; now injection H as <-. Qed.
Lemma num_row_broken h v e : num_row num h v = Err e -> e = BrokenFormatError.
Proof.
  unfold num_row. dif b e' E1.
  - cbn [bind]. destruct (mapM _ _) as [xs|e'] eqn:E2.
    + cbn [bind]. destruct (Nat.ltb _ _); [intro H; now injection H as <-|discriminate].
    + cbn [bind]. intro H. injection H as <-. eapply mapM_broken; [|exact E2]. intros x e H1 H2. eapply float_broken; exact H2.
  - cbn [bind]. intro H. injection H as <-. destruct (Nat.eqb _ _); [discriminate|]. eapply last_is_broken; exact E1.
Qed.
Lemma num_first_broken h v e : num_first h v = Err e -> e = BrokenFormatError.
Proof.
  unfold num_first. destruct (Nat.eqb _ _); [discriminate|]. destruct (last_is _ _) as [b|e'] eqn:E; cbn [bind]; [|intro H; injection H as <-; eapply last_is_broken; exact E].
  destruct b; [|discriminate]. unfold more. destruct (h_units h); [discriminate|]. intro H; now injection H as <-.
Qed.
Lemma num_rows_broken h ls e : num_rows num h ls = Err e -> e = BrokenFormatError.
Proof.
  unfold num_rows. destruct ls as [|l ls]; [discriminate|]. destruct (num_first _ _) as [h'|e'] eqn:E; cbn [bind]; [|intro H; injection H as <-; eapply num_first_broken; exact E].
  destruct (mapM _ _) as [m|e'] eqn:E2; cbn [bind]; [discriminate|]. intro H. injection H as <-. eapply mapM_broken; [|exact E2]. intros x e H1 H2. eapply num_row_broken; exact H2.
Qed.
Lemma mix_words_broken l e : mix_words l = Err e -> e = BrokenFormatError.
Proof. unfold mix_words. destruct (startswith _ _); [intro H; now injection H as <-|discriminate]. Qed.
Lemma mix_rows_broken h ls e : mix_rows h ls = Err e -> e = BrokenFormatError.
Proof.
  unfold mix_rows. destruct ls as [|l ls]; [discriminate|]. destruct (mix_words l) as [v|e'] eqn:E; cbn [bind]; [|intro H; injection H as <-; eapply mix_words_broken; exact E].
  unfold mix_first. dif h' e' E1; cbn [bind].
  - destruct (mapM _ _) as [m|e'] eqn:E2; cbn [bind]; [discriminate|]. intro H. injection H as <-. eapply mapM_broken; [|exact E2]. intros x e H1 H2.
    unfold mix_row in H2. destruct (mix_words x) as [w|e''] eqn:E3; cbn [bind] in H2; [|injection H2 as <-; eapply mix_words_broken; exact E3].
    dif_in H2 b e'' E4; cbn [bind] in H2; [discriminate|]. injection H2 as <-. noif E4. eapply last_is_broken; exact E4.
  - intro H. injection H as <-. noif E1. destruct (last_is _ _) as [b|e''] eqn:E3 in E1; cbn [bind] in E1; [|injection E1 as <-; eapply last_is_broken; exact E3].
    match type of E1 with context [if ?b then _ else _] => destruct b end; cbn [bind] in E1; [|discriminate]. unfold more in E1. destruct (h_units h); [discriminate|]. now injection E1 as <-.
Qed.

(** ** C86: the rows of a numerical table are the numbers of its lines, or the table is refused *)
Theorem C86_reads : forall L1 L2 names units l0 rest m, header L1 L2 names units -> Forall plain_line (l0 :: rest) ->
  let c := List.length (words_of l0) in
  Forall2 (fun l r => c <= List.length (words_of l) /\ Forall2 (cell_value num) (firstn c (words_of l)) r) (l0 :: rest) m ->
  c <= List.length names \/ lower (last names []) <> S_ "nodecnt" ->
  parse_table num zero true (L1 :: L2 :: l0 :: rest) (S (List.length rest)) 2 0 =
    Ok (Nums m, Some (firstn c names), Some (map (fun u => S_ "(" ++ u ++ S_ ")") (firstn c units))).
Proof.
  intros L1 L2 names us l0 rest m (Hn & Gn & HL1 & Lu & Gu & HL2) Hp c Hm Hc. rewrite paren_eta in *.
  assert (Hus : us <> []) by (intros ->; destruct names; [contradiction|discriminate]). destruct (unit_join us Gu) as (F1 & F2 & N & St).
  unfold parse_table. cbn [List.length].
  replace (Nat.eqb (S (S (S (List.length rest)))) (S (List.length rest) + 2 + 0)) with true by (symmetry; apply Nat.eqb_eq; lia). cbn [negb].
  rewrite (names_read _ names Gn HL1), (units_read _ us) by (auto; lia). cbn [bind plus skipn].
  unfold num_rows. rewrite row_words_spec by (inversion Hp; assumption).
  assert (Hf : num_first (mk_heads names (Some (map paren us)) (List.length names)) (words_of l0) = Ok (mk_heads names (Some (map paren us)) c)).
  { unfold num_first. cbn [h_cols h_names h_units]. fold c. destruct (Nat.eqb_spec c (List.length names)) as [E|E]; [now rewrite E|].
    unfold last_is. destruct (rev names) as [|n ns] eqn:Er; [exfalso; apply Hn; rewrite <- (rev_involutive names), Er; reflexivity|]. cbn [bind].
    assert (En : last names [] = n) by (rewrite <- (rev_involutive names), Er; cbn [rev]; apply last_last).
    destruct (str_eqb (lower n) (S_ "nodecnt")) eqn:Es; [|reflexivity]. apply str_eqb_eq in Es. destruct Hc as [Hc|Hc]; [|rewrite En in Hc; contradiction].
    unfold more. cbn [h_units h_names h_cols bind]. replace (c - List.length names) with 0 by lia. cbn [repeat]. now rewrite !app_nil_r. }
  rewrite Hf. cbn [bind].
  assert (Hr : mapM (fun l => num_row num (mk_heads names (Some (map paren us)) c) (row_words (lower l))) (l0 :: rest) = Ok m).
  { clearbody c. clear Hf. revert Hp. induction Hm as [|l r ls m' [Hl Hv] _ IH]; intro Hp; [reflexivity|]. inversion Hp as [|? ? Hp1 Hp2]; subst. cbn [mapM]. rewrite (IH Hp2).
    rewrite row_words_spec by exact Hp1.
    assert (Lr : List.length r = c). { assert (G := firstn_length_le (words_of l) Hl). rewrite <- G. symmetry. clear - Hv. induction Hv; [reflexivity|cbn; now rewrite IHHv]. }
    replace (num_row num (mk_heads (split_ws L1) (Some (map paren us)) c) (words_of l)) with (@Ok (list V) r); [reflexivity|]. symmetry.
    unfold num_row. cbn [h_cols h_names h_units]. rewrite (cells_float _ _ Hv).
    destruct (Nat.eqb _ _); cbn [bind]; [now rewrite Lr, Nat.ltb_irrefl|]. unfold last_is. destruct (rev (split_ws L1)) as [|n ns] eqn:Er; [exfalso; apply Hn; rewrite <- (rev_involutive (split_ws L1)), Er; reflexivity|].
    cbn [bind]. now rewrite Lr, Nat.ltb_irrefl. }
  rewrite Hr. cbn [bind]. unfold finish. cbn [h_cols h_names h_units option_map]. f_equal. f_equal. f_equal. rewrite firstn_map, map_map. apply map_ext_in. intros u Hu.
  apply no_paren_paren. rewrite Forall_forall in F1. apply F1. rewrite <- (firstn_skipn c us). apply in_or_app. now left.
Qed.
(** A row with fewer words than the first row, or a word that is not a number, refuses the table *)
Theorem C86_refuses : forall L1 L2 names units l0 rest l, header L1 L2 names units -> In l (l0 :: rest) -> plain_line l0 -> plain_line l ->
  let c := List.length (words_of l0) in
  List.length (words_of l) < c \/ (exists w, In w (firstn c (words_of l)) /\ (forall x, In x w -> ~ In x (S_ "tfnp")) /\ num w = None) ->
  parse_table num zero true (L1 :: L2 :: l0 :: rest) (S (List.length rest)) 2 0 = Err BrokenFormatError.
Proof.
  intros L1 L2 names us l0 rest l (Hn & Gn & HL1 & Lu & Gu & HL2) Hl Hp0 Hp c Hbad. rewrite paren_eta in *.
  assert (Hus : us <> []) by (intros ->; destruct names; [contradiction|discriminate]).
  unfold parse_table. cbn [List.length].
  replace (Nat.eqb (S (S (S (List.length rest)))) (S (List.length rest) + 2 + 0)) with true by (symmetry; apply Nat.eqb_eq; lia). cbn [negb].
  rewrite (names_read _ names Gn HL1), (units_read _ us) by (auto; lia). cbn [bind plus skipn].
  unfold num_rows. rewrite row_words_spec by exact Hp0.
  destruct (num_first _ (words_of l0)) as [h|e] eqn:Ef; [|apply num_first_broken in Ef; subst e; reflexivity]. cbn [bind].
  assert (Hh : h_cols h = c).
  { unfold num_first in Ef. cbn [h_cols h_names h_units] in Ef. fold c in Ef. destruct (Nat.eqb_spec c (List.length names)) as [E|E]; [apply Ok_inj in Ef; subst h; now rewrite E|].
    destruct (last_is names "nodecnt") as [b|]; [|discriminate]. cbn [bind] in Ef. destruct b; apply Ok_inj in Ef; subst h; reflexivity. }
  rewrite (mapM_fails _ (l0 :: rest) l); [reflexivity| |exact Hl|].
  - intros y e _ E. eapply num_row_broken; exact E.
  - intros r E. rewrite row_words_spec in E by exact Hp. unfold num_row in E. rewrite Hh in E. dif_in E b e0 E0; [|discriminate]. cbn [bind] in E.
    destruct (mapM _ (firstn c (words_of l))) as [xs|] eqn:Em; [|discriminate]. cbn [bind] in E. destruct Hbad as [Hs|(w & Hw & Hfr & Hnum)].
    + apply mapM_length in Em. rewrite firstn_length in Em. destruct (Nat.ltb_spec (List.length xs) c) as [G|G]; [discriminate|lia].
    + rewrite (mapM_fails _ _ w) in Em; [discriminate| |exact Hw|].
      * intros y e _ G. eapply float_broken; exact G.
      * intro y. rewrite logical_plain by exact Hfr. unfold float_. rewrite Hnum. discriminate.
Qed.
(** Any other number of lines refuses the table *)
Theorem C86_line_count : forall numeric lines n nh off, List.length lines <> n + nh + off -> parse_table num zero numeric lines n nh off = Err BrokenFormatError.
Proof. intros numeric lines n nh off H. unfold parse_table. apply Nat.eqb_neq in H. rewrite H. reflexivity. Qed.
(** No other exception is raised by tables with header lines *)
Theorem C86_only_broken : forall numeric lines n nh off e, parse_table num zero numeric lines n (S nh) off = Err e -> e = BrokenFormatError.
Proof.
  intros numeric lines n nh off e. unfold parse_table. destruct (Nat.eqb_spec (List.length lines) (n + S nh + off)) as [E|E]; cbn [negb]; [|intro H; now injection H as <-].
  match goal with |- bind ?x _ = _ -> _ => destruct x as [h|e'] eqn:Eh end; cbn [bind].
  - destruct numeric.
    + destruct (num_rows _ _ _) as [[h' rows]|e'] eqn:Er; cbn [bind]; [discriminate|]. intro H. injection H as <-. eapply num_rows_broken; exact Er.
    + destruct (mix_rows _ _) as [[h' rows]|e'] eqn:Er; cbn [bind]; [discriminate|]. intro H. injection H as <-. eapply mix_rows_broken; exact Er.
  - intro H. injection H as <-. destruct nh as [|nh]; destruct lines as [|l [|u lines]]; try discriminate; now injection Eh as <-.
Qed.
(** Tables without header line: mixed ones, and empty ones, always raise an unrelated error *)
Theorem C86_no_header_refuted : forall numeric lines n off, List.length lines = n + off -> numeric = false \/ n = 0 ->
  parse_table num zero numeric lines n 0 off = Err UnboundLocalError.
Proof.
  intros numeric lines n off H Hc. unfold parse_table. replace (Nat.eqb (List.length lines) (n + 0 + off)) with true by (symmetry; apply Nat.eqb_eq; lia). cbn [negb].
  destruct Hc as [->| ->].
  - destruct (nth_error lines off); reflexivity.
  - replace (nth_error lines off) with (@None str); [reflexivity|]. symmetry. apply nth_error_None. lia.
Qed.
(** A first row with more words than there are names: the table has a column without name *)
Corollary C86_unnamed_columns : forall L1 L2 names units l0 rest m, header L1 L2 names units -> Forall plain_line (l0 :: rest) ->
  List.length names < List.length (words_of l0) -> lower (last names []) <> S_ "nodecnt" ->
  Forall2 (fun l r => List.length (words_of l0) <= List.length (words_of l) /\ Forall2 (cell_value num) (firstn (List.length (words_of l0)) (words_of l)) r) (l0 :: rest) m ->
  parse_table num zero true (L1 :: L2 :: l0 :: rest) (S (List.length rest)) 2 0 = Ok (Nums m, Some names, Some (map (fun u => S_ "(" ++ u ++ S_ ")") units)).
Proof.
  intros L1 L2 names us l0 rest m Hh Hp Hl Hn Hm. rewrite (C86_reads L1 L2 names us l0 rest m Hh Hp Hm (or_intror Hn)).
  destruct Hh as (_ & _ & _ & Lu & _). rewrite !firstn_all2 by lia. reflexivity.
Qed.

(** When the last name is NodeCnt, columns without name are called Col *)
Theorem C86_node_counts : forall L1 L2 names units l0 rest m, header L1 L2 names units -> Forall plain_line (l0 :: rest) ->
  let c := List.length (words_of l0) in let extra := c - List.length names in
  List.length names < c -> lower (last names []) = S_ "nodecnt" ->
  Forall2 (fun l r => c <= List.length (words_of l) /\ Forall2 (cell_value num) (firstn c (words_of l)) r) (l0 :: rest) m ->
  parse_table num zero true (L1 :: L2 :: l0 :: rest) (S (List.length rest)) 2 0 =
    Ok (Nums m, Some (names ++ repeat (S_ "Col") extra), Some (map (fun u => S_ "(" ++ u ++ S_ ")") units ++ repeat (S_ "(Col)") extra)).
Proof.
  intros L1 L2 names us l0 rest m (Hn & Gn & HL1 & Lu & Gu & HL2) Hp c extra Hc Hlast Hm. rewrite paren_eta in *.
  assert (Hus : us <> []) by (intros ->; destruct names; [contradiction|discriminate]). destruct (unit_join us Gu) as (F1 & F2 & N & St).
  unfold parse_table. cbn [List.length].
  replace (Nat.eqb (S (S (S (List.length rest)))) (S (List.length rest) + 2 + 0)) with true by (symmetry; apply Nat.eqb_eq; lia). cbn [negb].
  rewrite (names_read _ names Gn HL1), (units_read _ us) by (auto; lia). cbn [bind plus skipn].
  unfold num_rows. rewrite row_words_spec by (inversion Hp; assumption).
  set (h := mk_heads (names ++ repeat (S_ "Col") extra) (Some (map paren us ++ repeat (S_ "Col") extra)) c).
  assert (Hf : num_first (mk_heads names (Some (map paren us)) (List.length names)) (words_of l0) = Ok h).
  { unfold num_first. cbn [h_cols h_names h_units]. fold c. destruct (Nat.eqb_spec c (List.length names)) as [E|E]; [lia|].
    unfold last_is. destruct (rev names) as [|n ns] eqn:Er; [exfalso; apply Hn; rewrite <- (rev_involutive names), Er; reflexivity|]. cbn [bind].
    assert (En : last names [] = n) by (rewrite <- (rev_involutive names), Er; cbn [rev]; apply last_last). rewrite En in Hlast. rewrite Hlast, str_eqb_refl.
    reflexivity. }
  rewrite Hf. cbn [bind].
  assert (Hr : mapM (fun l => num_row num h (row_words (lower l))) (l0 :: rest) = Ok m).
  { assert (Hh : h_cols h = c) by reflexivity. assert (Hnz : h_names h <> []) by (unfold h; cbn [h_names]; destruct names; [contradiction|discriminate]).
    clearbody h c. clear Hf. revert Hp. induction Hm as [|l r ls m' [Hl Hv] _ IH]; intro Hp; [reflexivity|]. inversion Hp as [|? ? Hp1 Hp2]; subst. cbn [mapM]. rewrite (IH Hp2).
    rewrite row_words_spec by exact Hp1.
    assert (Lr : List.length r = h_cols h). { assert (G := firstn_length_le (words_of l) Hl). rewrite <- G. symmetry. clear - Hv. induction Hv; [reflexivity|cbn; now rewrite IHHv]. }
    replace (num_row num h (words_of l)) with (@Ok (list V) r); [reflexivity|]. symmetry.
    unfold num_row. rewrite (cells_float _ _ Hv).
    destruct (Nat.eqb _ _); cbn [bind]; [now rewrite Lr, Nat.ltb_irrefl|]. unfold last_is. destruct (rev (h_names h)) as [|n ns] eqn:Er; [exfalso; apply Hnz; rewrite <- (rev_involutive (h_names h)), Er; reflexivity|].
    cbn [bind]. now rewrite Lr, Nat.ltb_irrefl. }
  rewrite Hr. cbn [bind]. unfold finish, h. cbn [h_cols h_names h_units option_map]. f_equal. f_equal.
  - f_equal. f_equal. apply firstn_all2. rewrite app_length, repeat_length. unfold extra. lia.
  - f_equal. rewrite firstn_all2 by (rewrite app_length, map_length, repeat_length; unfold extra; lia). rewrite map_app, map_map. f_equal.
    + apply map_ext_in. intros u Hu. apply no_paren_paren. rewrite Forall_forall in F1. now apply F1.
    + clear. induction extra as [|n IH]; [reflexivity|]. cbn [repeat map]. now rewrite IH.
Qed.

(** Mixed tables: the first row decides on the number of columns, cells that are missing in later rows are zero, cells
    that are too many are dropped *)
Definition mixed_words (l : str) : list str := split_ws (before l).
Definition mixed_row (c : nat) (l : str) : list cell := map Word (firstn c (mixed_words l)) ++ repeat Zero (c - List.length (mixed_words l)).
Lemma row_words_plain l : plain_line l -> row_words l = mixed_words l /\ startswith (cleanAfterChar "#" (cleanAfterChar "!" l)) (S_ "---") = startswith (before l) (S_ "---").
Proof.
  intro H. unfold row_words, mixed_words. rewrite <- upto_before. destruct l as [|c l]; [split; reflexivity|].
  cbn in H. rewrite (cut_upto "!") by (intro G; apply H; rewrite G; now left).
  rewrite (cut_upto "#"); [split; reflexivity|]. cbn [upto]. destruct (chr_eqb c "!"); [exact I|]. intro G. apply H. rewrite G. right; now left.
Qed.
Theorem C86_mixed : forall L1 L2 names units l0 rest, header L1 L2 names units -> Forall plain_line (l0 :: rest) ->
  Forall (fun l => ~ exists t, before l = S_ "---" ++ t) (l0 :: rest) ->
  let c := List.length (mixed_words l0) in let extra := c - List.length names in
  (exists l w, In l (l0 :: rest) /\ In w (firstn c (mixed_words l)) /\ num w = None) ->
  parse_table num zero false (L1 :: L2 :: l0 :: rest) (S (List.length rest)) 2 0 =
    Ok (Cells (map (mixed_row c) (l0 :: rest)), Some (firstn c (names ++ repeat (S_ "Col") extra)),
        Some (firstn c (map (fun u => S_ "(" ++ u ++ S_ ")") units ++ repeat (S_ "(Col)") extra))).
Proof.
  intros L1 L2 names us l0 rest (Hn & Gn & HL1 & Lu & Gu & HL2) Hp Hd c extra Hw. rewrite paren_eta in *.
  assert (Hus : us <> []) by (intros ->; destruct names; [contradiction|discriminate]). destruct (unit_join us Gu) as (F1 & F2 & N & St).
  assert (Hm : forall l, In l (l0 :: rest) -> mix_words l = Ok (mixed_words l)).
  { intros l Hl. rewrite Forall_forall in Hp, Hd. specialize (Hp l Hl). specialize (Hd l Hl). unfold mix_words. destruct (row_words_plain l Hp) as [-> ->].
    destruct (startswith (before l) (S_ "---")) eqn:E; [|reflexivity]. exfalso. apply Hd. now apply startswith_iff. }
  unfold parse_table. cbn [List.length].
  replace (Nat.eqb (S (S (S (List.length rest)))) (S (List.length rest) + 2 + 0)) with true by (symmetry; apply Nat.eqb_eq; lia). cbn [negb].
  rewrite (names_read _ names Gn HL1), (units_read _ us) by (auto; lia). cbn [bind plus skipn].
  unfold mix_rows. rewrite (Hm l0) by now left. cbn [bind].
  set (h := mk_heads (names ++ repeat (S_ "Col") extra) (Some (map paren us ++ repeat (S_ "Col") extra)) c).
  assert (Lst : forall k, exists b, last_is names k = Ok b).
  { intro k. unfold last_is. destruct (rev names) as [|n ns] eqn:Er; [exfalso; apply Hn; rewrite <- (rev_involutive names), Er; reflexivity|]. eexists; reflexivity. }
  assert (Hf : mix_first (mk_heads names (Some (map paren us)) (List.length names)) (mixed_words l0) = Ok h).
  { unfold mix_first. cbn [h_cols h_names h_units]. fold c. destruct (Nat.eqb_spec c (List.length names)) as [E|E].
    - unfold h, extra. rewrite E, Nat.sub_diag. cbn [repeat]. now rewrite !app_nil_r.
    - destruct (Lst "cosmid"%string) as [b ->]. cbn [bind]. destruct (Nat.ltb_spec (List.length names) c) as [G|G]; cbn [bind]; [reflexivity|].
      unfold h, extra. replace (c - List.length names) with 0 by lia. cbn [repeat]. now rewrite !app_nil_r. }
  rewrite Hf. cbn [bind].
  assert (Hr : mapM (mix_row h) (l0 :: rest) = Ok (map (mixed_row c) (l0 :: rest))).
  { rewrite <- (map_id (l0 :: rest)) at 1. apply mapM_map. intros l Hl. unfold mix_row. rewrite (Hm l Hl). cbn [bind].
    assert (Hlst : exists b, last_is (h_names h) "cosmid" = Ok b).
    { unfold last_is. destruct (rev (h_names h)) as [|n ns] eqn:Er; [|eexists; reflexivity]. exfalso.
      assert (E : h_names h = []) by (rewrite <- (rev_involutive (h_names h)), Er; reflexivity). unfold h in E. cbn [h_names] in E. destruct names; [contradiction|discriminate]. }
    destruct Hlst as [b Hb]. change (h_cols h) with c. destruct (Nat.eqb _ _); [|rewrite Hb]; reflexivity. }
  rewrite Hr. cbn [bind].
  assert (Hs : settle num zero (map (mixed_row c) (l0 :: rest)) = Cells (map (mixed_row c) (l0 :: rest))).
  { unfold settle. replace (all_some _) with (@None (list (list V))); [reflexivity|]. symmetry. destruct Hw as (l & w & Hl & Hw & Hnum).
    assert (A : forall (X : Type) (o : list (option X)), In None o -> all_some o = None).
    { intros X o. induction o as [|[x|] o IH]; intro G; [destruct G| |reflexivity]. cbn [all_some]. destruct G as [G|G]; [discriminate|]. now rewrite IH. }
    apply A. rewrite map_map. apply in_map_iff. exists l. split; [|exact Hl]. apply A. apply in_map_iff. exists (Word w). split; [exact Hnum|].
    unfold mixed_row. apply in_or_app. left. now apply in_map. }
  rewrite Hs. unfold finish, h. cbn [h_cols h_names h_units option_map]. do 3 f_equal. rewrite <- !firstn_map, map_app, map_map. f_equal. f_equal.
  + apply map_ext_in. intros u Hu. apply no_paren_paren. rewrite Forall_forall in F1. now apply F1.
  + clear. induction extra as [|n IH]; [reflexivity|]. cbn [repeat map]. now rewrite IH.
Qed.
(** A separator line inside a mixed table refuses it *)
Theorem C86_mixed_separator : forall L1 L2 names units l0 rest l t, header L1 L2 names units -> In l (l0 :: rest) -> plain_line l -> before l = S_ "---" ++ t ->
  parse_table num zero false (L1 :: L2 :: l0 :: rest) (S (List.length rest)) 2 0 = Err BrokenFormatError.
Proof.
  intros L1 L2 names us l0 rest l t (Hn & Gn & HL1 & Lu & Gu & HL2) Hl Hp Hb. rewrite paren_eta in *.
  assert (Hus : us <> []) by (intros ->; destruct names; [contradiction|discriminate]).
  unfold parse_table. cbn [List.length].
  replace (Nat.eqb (S (S (S (List.length rest)))) (S (List.length rest) + 2 + 0)) with true by (symmetry; apply Nat.eqb_eq; lia). cbn [negb].
  rewrite (names_read _ names Gn HL1), (units_read _ us) by (auto; lia). cbn [bind plus skipn].
  destruct (mix_rows _ _) as [[h rows]|e] eqn:E; cbn [bind]; [|f_equal; eapply mix_rows_broken; exact E]. exfalso.
  assert (B : mix_words l = Err BrokenFormatError).
  { unfold mix_words. destruct (row_words_plain l Hp) as [_ ->]. replace (startswith (before l) (S_ "---")) with true; [reflexivity|]. symmetry. apply startswith_iff. now exists t. }
  unfold mix_rows in E. destruct (mix_words l0); [|discriminate]. cbn [bind] in E. destruct (mix_first _ _) as [h'|]; [|discriminate]. cbn [bind] in E.
  destruct (mapM (mix_row h') (l0 :: rest)) as [rs|] eqn:Em; [|discriminate]. rewrite (mapM_fails _ (l0 :: rest) l) in Em; [discriminate| |exact Hl|].
  - intros y e _ G. unfold mix_row in G. destruct (mix_words y) as [w|e''] eqn:E3; cbn [bind] in G; [|injection G as <-; eapply mix_words_broken; exact E3].
    dif_in G b e'' E4; cbn [bind] in G; [discriminate|]. injection G as <-. noif E4. eapply last_is_broken; exact E4.
  - intros y G. unfold mix_row in G. rewrite B in G. discriminate.
Qed.

(** ** C87: BeamDyn sections survive writing and reading *)
Definition square6 {A} (m : list (list A)) : Prop := List.length m = 6 /\ rect 6 m.
Notation chars := "0123456789+-.eE"%string.
Lemma chars_space c : In c (S_ chars) -> is_space c = false.
Proof.
  assert (G : forall x, (negb (existsb (chr_eqb x) (S_ chars)) || negb (is_space x)) = true) by (apply char_sweep; vm_compute; reflexivity).
  intro H. specialize (G c). assert (E : existsb (chr_eqb c) (S_ chars) = true) by (apply existsb_exists; eexists; split; [exact H|apply chr_eqb_refl]).
  rewrite E in G. cbn [negb orb] in G. now apply negb_true_iff.
Qed.
Lemma writes_token fmt rnd v : writes num chars fmt rnd v -> exists k w, fmt v = repeat sp k ++ w /\ is_token w = true /\ num w = Some (rnd v).
Proof.
  intros (k & w & E & Hd & Hc & Hv). exists k, w. split; [exact E|]. split; [|exact Hv]. apply tokenE. split; [intros ->; discriminate|].
  rewrite forallb_forall. intros c Hi. rewrite (chars_space c (Hc c Hi)). reflexivity.
Qed.
Lemma writes_oneline fmt rnd v : writes num chars fmt rnd v -> oneline (fmt v).
Proof. intro H. destruct (writes_token _ _ _ H) as (k & w & -> & T & _). apply oneline_app. split; [apply oneline_spaces|now apply oneline_token]. Qed.
Lemma fmt_words fmt rnd r : Forall (writes num chars fmt rnd) r -> exists ws, flat_map split_ws (map fmt r) = ws /\ map num ws = map (fun v => Some (rnd v)) r.
Proof.
  induction 1 as [|v r H _ (ws & E & I)]; [exists []; split; reflexivity|]. destruct (writes_token _ _ _ H) as (k & w & Ev & T & Hv). exists (w :: ws). split.
  - cbn [map flat_map]. rewrite Ev, split_ws_lpad by apply spaces. rewrite split_ws_token by exact T. now rewrite E.
  - cbn [map]. now rewrite Hv, I.
Qed.
Lemma chunks_concat {A} (m : list (list A)) rest : rect 6 m -> chunks6 (List.length m) (List.concat m ++ rest) = m.
Proof.
  induction m as [|r m IH]; intro H; [reflexivity|]. inversion H as [|? ? Hr Hm]; subst. cbn [List.length chunks6 List.concat]. rewrite <- app_assoc.
  rewrite firstn_app, skipn_app, Hr, Nat.sub_diag. rewrite firstn_all2, skipn_all2 by lia. rewrite firstn_O, app_nil_r. cbn [app]. rewrite skipn_O. f_equal. now apply IH.
Qed.
Lemma concat_length6 {A} (m : list (list A)) : rect 6 m -> List.length (List.concat m) = 6 * List.length m.
Proof. induction m as [|r m IH]; intro H; [reflexivity|]. inversion H as [|? ? Hr Hm]; subst. cbn [List.concat List.length]. rewrite app_length, IH by exact Hm. lia. Qed.
Lemma all_some_some {A B} (f : A -> B) l : all_some (map (fun v => Some (f v)) l) = Some (map f l).
Proof. apply (all_some_map (fun v => Some (f v)) f). reflexivity. Qed.
Lemma mat6_ok fmt rnd m rest : square6 m -> Forall (Forall (writes num chars fmt rnd)) m ->
  mat6 num (map (fun r => S_ "   " ++ join [sp] (map fmt r)) m ++ rest) = Ok (map (map rnd) m).
Proof.
  intros [Hl Hr] Hw. unfold mat6. rewrite firstn_app, map_length, Hl, Nat.sub_diag, firstn_O, app_nil_r.
  replace (firstn 6 (map (fun r => S_ "   " ++ join [sp] (map fmt r)) m)) with (map (fun r => S_ "   " ++ join [sp] (map fmt r)) m) by (symmetry; apply firstn_all2; rewrite map_length; lia).
  rewrite split_ws_join_any by reflexivity.
  assert (E : map num (flat_map split_ws (map (fun r => S_ "   " ++ join [sp] (map fmt r)) m)) = map (fun v => Some (rnd v)) (List.concat m)).
  { clear Hl Hr. induction Hw as [|r m H _ IH]; [reflexivity|]. cbn [map flat_map List.concat]. rewrite !map_app, IH. f_equal.
    rewrite split_ws_lpad by reflexivity. rewrite split_ws_join_any by reflexivity. destruct (fmt_words _ _ _ H) as (ws & -> & G). exact G. }
  rewrite E, all_some_some, map_length, concat_length6, Hl by exact Hr. cbn [Nat.mul Nat.add Nat.eqb]. f_equal.
  rewrite concat_map. assert (Hr' : rect 6 (map (map rnd) m)) by (unfold rect in *; rewrite Forall_map; revert Hr; apply Forall_impl; intros r G; now rewrite map_length).
  assert (C := chunks_concat (map (map rnd) m) [] Hr'). rewrite app_nil_r, map_length, Hl in C. exact C.
Qed.
Definition good_section (fspan fmat : V -> str) (rspan rmat : V -> V) (s : section V) : Prop :=
  writes num chars fspan rspan (s_span s) /\ square6 (s_K s) /\ square6 (s_M s) /\ Forall (Forall (writes num chars fmat rmat)) (s_K s) /\ Forall (Forall (writes num chars fmat rmat)) (s_M s).
Definition mat_lines (fmt : V -> str) (m : list (list V)) : list str := map (fun r => S_ "   " ++ join [sp] (map fmt r)) m.
Definition section_lines (fspan fmat : V -> str) (s : section V) : list str := fspan (s_span s) :: mat_lines fmat (s_K s) ++ [] :: mat_lines fmat (s_M s) ++ [[]].
Lemma section_unlines fspan fmat s : s_K s <> [] -> s_M s <> [] -> section_str fspan fmat s = unlines (section_lines fspan fmat s).
Proof.
  intros HK HM. unfold section_str, section_lines. change (unlines (?a :: ?b)) with ((a ++ [nl]) ++ unlines b). rewrite unlines_app.
  change (unlines ([] :: mat_lines fmat (s_M s) ++ [[]])) with ([nl] ++ unlines (mat_lines fmat (s_M s) ++ [[]])). rewrite unlines_app.
  unfold mat_lines. rewrite <- !unlines_join by (destruct (s_K s), (s_M s); try contradiction; discriminate). unfold mat_str. rewrite <- !app_assoc. reflexivity.
Qed.
Theorem C87_round_trip : forall fspan fmat rspan rmat sections more_lines, Forall (good_section fspan fmat rspan rmat) sections ->
  beamdyn_read num (List.length sections) (splitlines (beamdyn_str fspan fmat sections) ++ more_lines) =
    Ok (map (fun s => mk_section (rspan (s_span s)) (map (map rmat) (s_K s)) (map (map rmat) (s_M s))) sections).
Proof.
  intros fspan fmat rspan rmat l extra H.
  assert (E : beamdyn_str fspan fmat l = unlines (flat_map (section_lines fspan fmat) l)).
  { unfold beamdyn_str. induction H as [|s l (_ & [HK _] & [HM _] & _) _ IH]; [reflexivity|]. cbn [flat_map]. rewrite unlines_app, IH. f_equal. apply section_unlines; intro G; rewrite G in *; discriminate. }
  assert (ML : forall m, Forall (Forall (writes num chars fmat rmat)) m -> Forall oneline (mat_lines fmat m)).
  { intros m Hm. unfold mat_lines. rewrite Forall_map. revert Hm. apply Forall_impl. intros r Hr. apply oneline_app. split; [reflexivity|]. apply oneline_join; [reflexivity|].
    rewrite Forall_map. revert Hr. apply Forall_impl. intros v Hv. now apply (writes_oneline fmat rmat). }
  rewrite E, splitlines_un.
  - clear E. induction H as [|s l (HS & HK & HM & WK & WM) _ IH]; [reflexivity|]. cbn [List.length beamdyn_read flat_map map]. unfold section_lines at 1. cbn [app].
    rewrite <- !app_assoc. cbn [app]. rewrite <- !app_assoc. cbn [app].
    destruct (writes_token _ _ _ HS) as (k & w & Ew & Tw & Hv). unfold float_line. rewrite Ew.
    replace (strip (repeat sp k ++ w)) with w by (symmetry; unfold strip; rewrite lstrip_app_nonblank by apply spaces; fold (strip w); now apply token_strip).
    rewrite Hv. unfold mat_lines at 1. rewrite (mat6_ok fmat rmat) by assumption. cbn [bind].
    assert (LK : List.length (mat_lines fmat (s_K s)) = 6) by (unfold mat_lines; rewrite map_length; apply HK).
    assert (LM : List.length (mat_lines fmat (s_M s)) = 6) by (unfold mat_lines; rewrite map_length; apply HM).
    assert (SK : forall r, skipn 7 (mat_lines fmat (s_K s) ++ [] :: r) = r) by (intro r; rewrite skipn_app, LK; rewrite skipn_all2 by lia; reflexivity).
    assert (S14 : forall r, skipn 14 (mat_lines fmat (s_K s) ++ [] :: mat_lines fmat (s_M s) ++ [] :: r) = r).
    { intro r. rewrite skipn_app, LK, skipn_all2 by lia. cbn [app]. change (skipn (14 - 6) ([] :: mat_lines fmat (s_M s) ++ [] :: r)) with (skipn 7 (mat_lines fmat (s_M s) ++ [] :: r)). rewrite skipn_app, LM, skipn_all2 by lia. reflexivity. }
    rewrite SK, S14. unfold mat_lines at 1. rewrite (mat6_ok fmat rmat) by assumption. cbn [bind]. rewrite IH. reflexivity.
  - apply Forall_forall. intros x Hx. apply in_flat_map in Hx. destruct Hx as (s & Hs & Hx). rewrite Forall_forall in H. destruct (H s Hs) as (HS & HK & HM & WK & WM).
    unfold section_lines in Hx. destruct Hx as [<-|Hx]; [eapply writes_oneline; exact HS|]. apply in_app_or in Hx. destruct Hx as [Hx|[<-|Hx]].
    + apply ML in WK. rewrite Forall_forall in WK. now apply WK.
    + reflexivity.
    + apply in_app_or in Hx. destruct Hx as [Hx|[<-|[]]]; [|reflexivity]. apply ML in WM. rewrite Forall_forall in WM. now apply WM.
Qed.
(** What is read has the right shape, in any file; the only exception is WrongFormatError *)
Theorem C87_shape : forall n lines sections, beamdyn_read num n lines = Ok sections ->
  List.length sections = n /\ Forall (fun s => square6 (s_K s) /\ square6 (s_M s)) sections.
Proof.
  assert (M6 : forall ls m, mat6 num ls = Ok m -> square6 m).
  { intros ls m H. unfold mat6 in H. destruct (all_some _) as [vs|]; [|discriminate]. destruct (Nat.eqb_spec (List.length vs) 36) as [E|]; [|discriminate]. apply Ok_inj in H. subst m.
    do 37 (destruct vs as [|? vs]; try (cbn in E; lia)). split; [reflexivity|]. repeat constructor. }
  induction n as [|n IH]; intros lines ss H; cbn [beamdyn_read] in H; [apply Ok_inj in H; subst ss; split; [reflexivity|constructor]|].
  destruct lines as [|l r]; [discriminate|]. destruct (float_line num l); [|discriminate]. destruct (mat6 num r) as [K|] eqn:EK; [|discriminate]. cbn [bind] in H.
  destruct (mat6 num (skipn 7 r)) as [M|] eqn:EM; [|discriminate]. cbn [bind] in H. destruct (beamdyn_read num n (skipn 14 r)) as [rest|] eqn:ER; [|discriminate].
  cbn [bind] in H. apply Ok_inj in H. subst ss. destruct (IH _ _ ER) as [I1 I2]. split; [cbn; now rewrite I1|]. constructor; [|exact I2]. cbn [s_K s_M]. split; eapply M6; eassumption.
Qed.
Theorem C87_only_wrong_format : forall n lines e, beamdyn_read num n lines = Err e -> e = WrongFormatError.
Proof.
  assert (M6 : forall ls e, mat6 num ls = Err e -> e = WrongFormatError).
  { intros ls e H. unfold mat6 in H. destruct (all_some _) as [vs|]; [destruct (Nat.eqb _ _); [discriminate|]|]; now injection H as <-. }
  induction n as [|n IH]; intros lines e H; cbn [beamdyn_read] in H; [discriminate|].
  destruct lines as [|l r]; [now injection H as <-|]. destruct (float_line num l); [|now injection H as <-].
  destruct (mat6 num r) as [K|] eqn:EK; cbn [bind] in H; [|injection H as <-; eapply M6; exact EK].
  destruct (mat6 num (skipn 7 r)) as [M|] eqn:EM; cbn [bind] in H; [|injection H as <-; eapply M6; exact EM].
  destruct (beamdyn_read num n (skipn 14 r)) as [rest|] eqn:ER; cbn [bind] in H; [discriminate|]. injection H as <-. eapply IH; exact ER.
Qed.
End Read.

(** ** C88: tables given to the user *)
(** Entry (i, j) of a matrix, counted from 1 as in the names *)
Definition entry {A} (m : list (list A)) (i j : nat) : option A := match nth_error m (i - 1) with Some r => nth_error r (j - 1) | None => None end.
Definition digit_of (i : nat) : str := nth i (map S_ ["0"; "1"; "2"; "3"; "4"; "5"; "6"]%string) [].
Lemma entry_concat {A} (m : list (list A)) i j : rect 6 m -> 1 <= j <= 6 -> 1 <= i <= List.length m -> nth_error (List.concat m) ((i - 1) * 6 + (j - 1)) = entry m i j.
Proof.
  revert i. induction m as [|r m IH]; intros i Hr Hj Hi; [cbn in Hi; lia|]. inversion Hr as [|? ? H1 H2]; subst. unfold entry. cbn [List.concat]. destruct i as [|[|i]]; [lia| |].
  - cbn [Nat.sub Nat.mul Nat.add nth_error]. rewrite nth_error_app1 by lia. reflexivity.
  - replace (S (S i) - 1) with (S i) by lia. cbn [nth_error]. rewrite nth_error_app2 by lia.
    replace (S i * 6 + (j - 1) - List.length r) with ((S i - 1) * 6 + (j - 1)) by lia. rewrite IH by (auto; cbn in Hi; lia). unfold entry. replace (S i - 1) with i by lia. reflexivity.
Qed.
Lemma take_nth {A} (l : list A) I p k : (forall q, In q I -> q < List.length l) -> nth_error I p = Some k -> nth_error (take l I) p = nth_error l k.
Proof.
  revert p. induction I as [|q I IH]; intros p H E; [destruct p; discriminate|]. unfold take. cbn [flat_map]. destruct (nth_error l q) as [x|] eqn:Ex.
  - destruct p as [|p]; cbn [nth_error app] in *; [injection E as ->; now rewrite Ex|]. apply IH; [intros; apply H; now right|exact E].
  - exfalso. apply nth_error_None in Ex. specialize (H q (or_introl eq_refl)). lia.
Qed.
Lemma IOrg_bound q : In q IOrg -> q < 73.
Proof. intro H. assert (G : forallb (fun x => Nat.ltb x 73) IOrg = true) by (vm_compute; reflexivity). rewrite forallb_forall in G. apply Nat.ltb_lt. now apply G. Qed.
Lemma IOrg_all k : k < 73 -> exists p, nth_error IOrg p = Some k.
Proof.
  intro H. assert (G : forallb (fun x => existsb (Nat.eqb x) IOrg) (seq 0 73) = true) by (vm_compute; reflexivity). rewrite forallb_forall in G.
  specialize (G k). rewrite in_seq in G. assert (E : existsb (Nat.eqb k) IOrg = true) by (apply G; lia). apply existsb_exists in E. destruct E as (x & Hx & E). apply Nat.eqb_eq in E. subst x.
  now apply In_nth_error.
Qed.
(** The column [name] of a table holds [v] in the row *)
Definition holds {A} (cols : list str) (row : list A) (name : str) (v : option A) : Prop := exists p, nth_error cols p = Some name /\ nth_error row p = v /\ v <> None.
Theorem C88_beamdyn_table : forall V (sections : list (section V)), Forall (fun s => square6 (s_K s) /\ square6 (s_M s)) sections ->
  let (cols, rows) := beamdyn_table sections in
  NoDup cols /\ List.length cols = 73 /\ firstn 13 cols = map S_ ["Span"; "K11"; "K22"; "K33"; "K44"; "K55"; "K66"; "M11"; "M22"; "M33"; "M44"; "M55"; "M66"]%string /\
  Forall2 (fun s row => List.length row = 73 /\ holds cols row (S_ "Span") (Some (s_span s)) /\
    forall i j, 1 <= i <= 6 -> 1 <= j <= 6 ->
      holds cols row (S_ "K" ++ digit_of i ++ digit_of j) (entry (s_K s) i j) /\ holds cols row (S_ "M" ++ digit_of i ++ digit_of j) (entry (s_M s) i j)) sections rows.
Proof.
  intros V ss H. unfold beamdyn_table. split; [|split; [|split]].
  - assert (D : forall l : list str, (fix nd l := match l with [] => true | x :: l' => negb (existsb (str_eqb x) l') && nd l' end) l = true -> NoDup l).
    { induction l as [|x l IH]; intro E; [constructor|]. apply andb_inv in E. destruct E as [E1 E2]. constructor; [|now apply IH]. intro Hx. apply negb_true_iff in E1.
      assert (G : existsb (str_eqb x) l = true) by (apply existsb_exists; exists x; split; [exact Hx|apply str_eqb_refl]). congruence. }
    apply D. vm_compute. reflexivity.
  - vm_compute. reflexivity.
  - vm_compute. reflexivity.
  - induction H as [|s ss [HK HM] _ IH]; [constructor|]. cbn [map]. constructor; [|exact IH]. destruct HK as [LK RK], HM as [LM RM].
    set (row := s_span s :: List.concat (s_K s) ++ List.concat (s_M s)).
    assert (LKc : List.length (List.concat (s_K s)) = 36) by (rewrite concat_length6, LK by exact RK; reflexivity).
    assert (LMc : List.length (List.concat (s_M s)) = 36) by (rewrite concat_length6, LM by exact RM; reflexivity).
    assert (Lrow : List.length row = 73) by (unfold row; cbn [List.length]; rewrite app_length, LKc, LMc; reflexivity).
    assert (B : forall q, In q IOrg -> q < List.length row) by (rewrite Lrow; exact IOrg_bound).
    assert (Bc : forall q, In q IOrg -> q < List.length beamdyn_cols) by (intros q Hq; replace (List.length beamdyn_cols) with 73 by (vm_compute; reflexivity); now apply IOrg_bound).
    assert (P : forall k name v, k < 73 -> nth_error beamdyn_cols k = Some name -> nth_error row k = v -> holds (take beamdyn_cols IOrg) (take row IOrg) name v).
    { intros k name v Hk Hn Hv. destruct (IOrg_all k Hk) as [p Hp]. exists p. rewrite (take_nth _ _ _ _ Bc Hp), (take_nth _ _ _ _ B Hp). split; [exact Hn|]. split; [exact Hv|].
      rewrite <- Hv. apply nth_error_Some. lia. }
    split; [|split].
    + assert (T : forall I, (forall q, In q I -> q < List.length row) -> List.length (take row I) = List.length I).
      { clear. induction I as [|q I IH]; intro B; [reflexivity|]. unfold take. cbn [flat_map]. destruct (nth_error row q) eqn:E; [cbn; f_equal; apply IH; intros; apply B; now right|].
        exfalso. apply nth_error_None in E. specialize (B q (or_introl eq_refl)). lia. }
      rewrite T by exact B. vm_compute. reflexivity.
    + apply (P 0); [lia|reflexivity|reflexivity].
    + intros i j Hi Hj. split.
      * apply (P (1 + ((i - 1) * 6 + (j - 1)))); [lia| |].
        -- destruct i as [|[|[|[|[|[|[|i]]]]]]]; try lia; destruct j as [|[|[|[|[|[|[|j]]]]]]]; try lia; vm_compute; reflexivity.
        -- unfold row. cbn [plus nth_error]. rewrite nth_error_app1 by (rewrite LKc; lia). apply entry_concat; [exact RK|exact Hj|lia].
      * apply (P (37 + ((i - 1) * 6 + (j - 1)))); [lia| |].
        -- destruct i as [|[|[|[|[|[|[|i]]]]]]]; try lia; destruct j as [|[|[|[|[|[|[|j]]]]]]]; try lia; vm_compute; reflexivity.
        -- unfold row. change (37 + ((i - 1) * 6 + (j - 1))) with (S (36 + ((i - 1) * 6 + (j - 1)))). cbn [nth_error]. rewrite nth_error_app2 by (rewrite LKc; lia).
           rewrite LKc. replace (36 + ((i - 1) * 6 + (j - 1)) - 36) with ((i - 1) * 6 + (j - 1)) by lia. apply entry_concat; [exact RM|exact Hj|lia].
Qed.
Lemma brackets_paren u : free "()" u -> brackets (paren u) = S_ "[" ++ u ++ S_ "]".
Proof.
  intro H. unfold brackets, paren. rewrite !replace_app. rewrite (replace_none _ _ u) by (apply (free_not_in _ _ _ H); now left).
  rewrite (replace_none _ _ u) by (apply (free_not_in _ _ _ H); right; now left). reflexivity.
Qed.
(** Column labels of numerical tables: the name, and the unit between brackets; the numbers are unchanged *)
Theorem C88_columns : forall V names units (rows : list (list V)), List.length units = List.length names -> Forall good_unit units -> rect (List.length names) rows ->
  exists cols, frame names (Some (map (fun u => S_ "(" ++ u ++ S_ ")") units)) rows = Ok (cols, rows) /\
    List.length cols = List.length names /\ forall k n u, nth_error names k = Some n -> nth_error units k = Some u -> nth_error cols k = Some (n ++ S_ "_[" ++ u ++ S_ "]").
Proof.
  intros V names us rows Lu Gu Hr. rewrite paren_eta. exists (table_columns names (Some (map paren us))).
  assert (L : List.length (table_columns names (Some (map paren us))) = List.length names) by (unfold table_columns; rewrite map_length, combine_length, map_length; lia).
  split; [|split; [exact L|]].
  - unfold frame. rewrite L. replace (Nat.eqb (width names rows) (List.length names)) with true; [reflexivity|]. symmetry. apply Nat.eqb_eq. destruct rows as [|r rows]; [reflexivity|]. inversion Hr; assumption.
  - intros k n u Hn Hu. unfold table_columns. rewrite nth_error_map.
    assert (C : nth_error (combine names (map paren us)) k = Some (n, paren u)).
    { clear - Hn Hu. revert us k Hn Hu. induction names as [|x names IH]; intros us k Hn Hu; [destruct k; discriminate|]. destruct us as [|y us]; [destruct k; discriminate|].
      destruct k as [|k]; cbn in *; [injection Hn as ->; injection Hu as ->; reflexivity|now apply IH]. }
    rewrite C. cbn [option_map fst snd]. rewrite brackets_paren; [reflexivity|]. destruct (unit_join us Gu) as (F & _). rewrite Forall_forall in F. apply F. now apply nth_error_In in Hu.
Qed.
(** With fewer units than columns there is no table at all *)
Theorem C88_fewer_units_refuted : forall V names units (rows : list (list V)), List.length units < List.length names -> rect (List.length names) rows ->
  frame names (Some units) rows = Err ValueError.
Proof.
  intros V names us rows Lu Hr. unfold frame. replace (Nat.eqb _ _) with false; [reflexivity|]. symmetry. apply Nat.eqb_neq. unfold table_columns. rewrite map_length, combine_length.
  destruct rows as [|r rows]; cbn [width]; [lia|]. inversion Hr; subst. lia.
Qed.

(** ** C89: lists of files *)
Theorem C89_files : forall label descr first others, is_token first = true -> forallb is_token others = true -> others <> [] -> no_linebreak label = true -> no_linebreak descr = true ->
  parse_files (lines_of (files_str label descr first others)) (S (List.length others)) = Ok (first :: others).
Proof.
  intros label descr first others T1 T2 Hn L1 L2. unfold lines_of.
  assert (E : files_str label descr first others ++ [nl] = unlines ((first ++ [sp] ++ label ++ [sp] ++ descr) :: others)).
  { unfold files_str. change (unlines ((first ++ [sp] ++ label ++ [sp] ++ descr) :: others)) with (((first ++ [sp] ++ label ++ [sp] ++ descr) ++ [nl]) ++ unlines others).
    rewrite <- unlines_join by exact Hn. rewrite <- !app_assoc. reflexivity. }
  rewrite E, splitlines_un.
  - unfold parse_files. cbn [List.length]. rewrite Nat.eqb_refl. cbn [negb mapM]. cbn [app]. rewrite split_ws_app by reflexivity. rewrite split_ws_token by exact T1. cbn [app].
    rewrite token_strip by exact T1. cbn [bind]. clear - T2. replace (mapM _ others) with (@Ok (list str) others); [reflexivity|]. symmetry.
    induction others as [|w ws IH]; [reflexivity|]. cbn [forallb] in T2. apply andb_inv in T2. destruct T2 as [T T2]. cbn [mapM]. rewrite (split_ws_token _ T), (token_strip _ T). cbn [bind]. now rewrite (IH T2).
  - constructor.
    + apply oneline_app. split; [now apply oneline_token|]. apply oneline_app. split; [reflexivity|]. apply oneline_app. split; [exact L1|]. apply oneline_app. split; [reflexivity|exact L2].
    + rewrite forallb_forall in T2. apply Forall_forall. intros w Hw. apply oneline_token. now apply T2.
Qed.
(** A file name with a blank keeps only what stands before it, quotes or not *)
Theorem C89_blank_refuted : forall a b, is_token a = true -> parse_files [a ++ sp :: b] 1 = Ok [a].
Proof. intros a b T. unfold parse_files. cbn [List.length Nat.eqb negb mapM]. rewrite split_ws_app by reflexivity. rewrite split_ws_token by exact T. cbn [app bind]. now rewrite token_strip. Qed.
(** A list of one file is followed by an empty line, that was not there *)
Theorem C89_one_file_refuted : forall label descr first, is_token first = true -> no_linebreak label = true -> no_linebreak descr = true ->
  lines_of (files_str label descr first []) = [first ++ [sp] ++ label ++ [sp] ++ descr; []].
Proof.
  intros label descr first T L1 L2. unfold lines_of.
  assert (E : files_str label descr first [] ++ [nl] = unlines [first ++ [sp] ++ label ++ [sp] ++ descr; []]).
  { unfold files_str, unlines. cbn [flat_map join]. rewrite !app_nil_r, <- !app_assoc. reflexivity. }
  rewrite E. apply splitlines_un. constructor; [|constructor; [reflexivity|constructor]].
  apply oneline_app. split; [now apply oneline_token|]. apply oneline_app. split; [reflexivity|]. apply oneline_app. split; [exact L1|]. apply oneline_app. split; [reflexivity|exact L2].
Qed.
Theorem C89_line_count : forall lines n, List.length lines <> n -> parse_files lines n = Err PlainException.
Proof. intros lines n H. unfold parse_files. apply Nat.eqb_neq in H. now rewrite H. Qed.

(** ** Concrete cases *)
Definition znum (s : str) : option Z := match int_ s with Ok z => Some z | Err _ => None end.
Definition zfmt (z : Z) : str := S_ "    " ++ str_of_Z z.
Definition znames : list str := [S_ "HtFract"; S_ "TMassDen"].
Definition zunits : list str := [S_ "-"; S_ "kg / m"].
Lemma zwrites chars : (forall c, In c (S_ "0123456789-") -> In c (S_ chars)) -> forall z, In z [0%Z; 12%Z; (-345)%Z] -> writes znum chars zfmt (fun z => z) z.
Proof.
  intros Hc z Hz. exists 4. destruct Hz as [<-|[<-|[<-|[]]]]; eexists; (split; [reflexivity|]); (split; [vm_compute; reflexivity|]); (split; [|vm_compute; reflexivity]);
    intros c Hi; apply Hc; vm_compute in Hi; decompose [or] Hi; subst; try contradiction; vm_compute; tauto.
Qed.
Example table_example : parse_table znum 0%Z true (lines_of (num_table_str zfmt (Some znames) (Some (map (fun u => S_ "(" ++ u ++ S_ ")") zunits)) [[0; 12]; [12; -345]]%Z)) 2 2 0 =
  Ok (Nums [[0; 12]; [12; -345]]%Z, Some znames, Some [S_ "(-)"; S_ "(kg / m)"]).
Proof.
  rewrite (C85_num_table znum 0%Z zfmt (fun z => z)); [reflexivity|discriminate| |reflexivity| | |].
  - repeat constructor; intros c Hc; vm_compute in Hc; decompose [or] Hc; subst; try contradiction; vm_compute; intuition discriminate.
  - constructor; [split; [exists [S_ "-"]; split; reflexivity|]|constructor; [split; [exists [S_ "kg"; S_ "/"; S_ "m"]; split; reflexivity|]|constructor]];
      intros c Hc; vm_compute in Hc; decompose [or] Hc; subst; try contradiction; vm_compute; intuition discriminate.
  - repeat constructor.
  - repeat (constructor; [repeat (constructor; [apply zwrites; [intros c Hc; vm_compute in *; tauto|vm_compute; tauto]|]); constructor|]). constructor.
Qed.
Definition row6 : list Z := [0; 12; -345; 0; 12; 0]%Z.
Definition mat66 : list (list Z) := [row6; row6; row6; row6; row6; row6].
Example section_example : good_section znum zfmt zfmt (fun z => z) (fun z => z) (mk_section 12%Z mat66 mat66).
Proof.
  assert (W : forall z, In z [0%Z; 12%Z; (-345)%Z] -> writes znum "0123456789+-.eE" zfmt (fun z => z) z) by (apply zwrites; intros c Hc; vm_compute in *; tauto).
  assert (R : Forall (writes znum "0123456789+-.eE" zfmt (fun z => z)) row6) by (repeat constructor; apply W; vm_compute; tauto).
  split; [apply W; vm_compute; tauto|]. split; [split; [reflexivity|repeat constructor]|]. split; [split; [reflexivity|repeat constructor]|]. split; unfold s_K, s_M, mat66; repeat (constructor; [exact R|]); constructor.
Qed.
Example beamdyn_example : beamdyn_read znum 2 (splitlines (beamdyn_str zfmt zfmt [mk_section 0%Z mat66 mat66; mk_section 12%Z mat66 mat66])) = Ok [mk_section 0%Z mat66 mat66; mk_section 12%Z mat66 mat66].
Proof. vm_compute. reflexivity. Qed.
(** Numbers beyond those of the first row are dropped without an error *)
Theorem C86_extra_numbers_dropped_refuted : parse_table znum 0%Z true (map S_ ["HtFract TMassDen"; "(-) (kg/m)"; "0"; "1 2 3"]%string) 2 2 0 = Ok (Nums [[0]; [1]]%Z, Some [S_ "HtFract"], Some [S_ "(-)"]).
Proof. vm_compute. reflexivity. Qed.
Example header_example : header (S_ "  HtFract   TMassDen") (S_ " (-)  (kg / m)") znames zunits.
Proof.
  split; [discriminate|]. split; [repeat constructor; intros c Hc; vm_compute in Hc; decompose [or] Hc; subst; try contradiction; vm_compute; intuition discriminate|].
  split; [reflexivity|]. split; [reflexivity|]. split; [|reflexivity].
  constructor; [split; [exists [S_ "-"]; split; reflexivity|]|constructor; [split; [exists [S_ "kg"; S_ "/"; S_ "m"]; split; reflexivity|]|constructor]];
      intros c Hc; vm_compute in Hc; decompose [or] Hc; subst; try contradiction; vm_compute; intuition discriminate.
Qed.
Example reads_example : parse_table znum 0%Z true (map S_ ["  HtFract   TMassDen"; " (-)  (kg / m)"; "0 12 ! base"; " 5  True # top"]%string) 2 2 0 = Ok (Nums [[0; 12]; [5; 1]]%Z, Some znames, Some [S_ "(-)"; S_ "(kg / m)"]).
Proof. vm_compute. reflexivity. Qed.
Print Assumptions C86_reads.
Print Assumptions C87_round_trip.
Print Assumptions C88_beamdyn_table.
Print Assumptions C89_files.
Example mixed_example : parse_table znum 0%Z false (lines_of (mix_table_str zfmt znames (Some [S_ "(-)"; S_ "(kg / m)"]) (Cells [[Word (S_ "1"); Word (S_ "steel")]; [Word (S_ "2"); Word (S_ "7")]]))) 2 2 0 =
  Ok (Cells [[Word (S_ "1"); Word (S_ "steel")]; [Word (S_ "2"); Word (S_ "7")]], Some znames, Some [S_ "(-)"; S_ "(kg / m)"]) /\ znum (S_ "steel") = None.
Proof. vm_compute. split; reflexivity. Qed.
Example files_example : parse_files (lines_of (files_str (S_ "AFNames") (S_ "- Airfoil files") (S_ """a.dat""") [S_ """b.dat"""; S_ """c.dat"""])) 3 = Ok [S_ """a.dat"""; S_ """b.dat"""; S_ """c.dat"""].
Proof. vm_compute. reflexivity. Qed.
Example frame_example : frame znames (Some [S_ "(-)"; S_ "(kg / m)"]) [[0; 12]]%Z = Ok ([S_ "HtFract_[-]"; S_ "TMassDen_[kg / m]"], [[0; 12]]%Z).
Proof. vm_compute. reflexivity. Qed.
Example airfoil_example : znum (S_ "!") = None /\ znum (S_ "12,") = None.
Proof. vm_compute. split; reflexivity. Qed.
Example node_counts_example : parse_table znum 0%Z true (map S_ ["MemberID NodeCnt"; "(-) (-)"; "1 2 10 20"; "2 2 30 40"]%string) 2 2 0 =
  Ok (Nums [[1; 2; 10; 20]; [2; 2; 30; 40]]%Z, Some (map S_ ["MemberID"; "NodeCnt"; "Col"; "Col"]%string), Some (map S_ ["(-)"; "(-)"; "(Col)"; "(Col)"]%string)).
Proof. vm_compute. reflexivity. Qed.
Example mixed_short_example : parse_table znum 0%Z false (map S_ ["ID Mat"; "(-) (-)"; "1 steel x"; "2"]%string) 2 2 0 =
  Ok (Cells [[Word (S_ "1"); Word (S_ "steel"); Word (S_ "x")]; [Word (S_ "2"); Zero; Zero]], Some (map S_ ["ID"; "Mat"; "Col"]%string), Some (map S_ ["(-)"; "(-)"; "(Col)"]%string)).
Proof. vm_compute. reflexivity. Qed.
Print Assumptions C86_node_counts.
Print Assumptions C86_mixed.
Print Assumptions C86_mixed_separator.
