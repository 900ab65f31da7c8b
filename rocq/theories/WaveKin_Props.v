(** C105: FLEX files of wave kinematics: the numbers of the header, one label for every column, and what the labels say. *)
From Verif Require Import Py PyFacts TextFacts ListFacts CSV_Model CSV_Props H2dat_Model H2dat_Props H2datNames_Props FlexDoc_Model FlexDoc_Props WaveKin_Model.
Local Open Scope nat_scope.

(** * Specification *)
(** The words of a line: those that are numbers, and words without a digit *)
Inductive numbers_among : list str -> list str -> Prop :=
| no_more : numbers_among [] []
| a_number w ws toks : number_text w -> numbers_among ws toks -> numbers_among (w :: ws) (w :: toks)
| a_word w ws toks : no_digit w -> numbers_among ws toks -> numbers_among (w :: ws) toks.
Section Spec.
Context {V : Type}.
Variable num : str -> option V.
(** The numbers of a line are [vs]; a line that gives a count *)
Definition line_of (l : str) (vs : list V) : Prop := exists toks, numbers_among (split_ws l) toks /\ Forall2 (fun w v => num w = Some v) toks vs.
Definition count_line (l : str) (n : nat) : Prop := exists toks, numbers_among (split_ws l) (str_of_N (N.of_nat n) :: toks).
Record contents := mk_contents { title : list str; crest : V; vel : V; acc : V; depth : V; Hs : V; Tp : V; spec : V; rel : list V; displ : list V; rows : list (list V) }.
Definition file_of (c : contents) (n : nat) (file : list str) : Prop :=
  exists h0 h1 h2 h3 h4 h5 h6 h7 h8 h9 h10 ls m2 m3 m4 m5, file = [h0; h1; h2; h3; h4; h5; h6; h7; h8; h9; h10] ++ ls /\
    ~ number_and_word (strip h0) /\ title c = [strip h0; strip h1] /\ line_of h2 (crest c :: m2) /\ line_of h3 (vel c :: m3) /\ line_of h4 (acc c :: m4) /\
    line_of h5 ([depth c; Hs c; Tp c; spec c] ++ m5) /\ count_line h6 (List.length (displ c)) /\ line_of h7 (displ c) /\ count_line h8 (List.length (rel c)) /\ line_of h9 (rel c) /\
    CSV_Props.table_rows num Blanks None n ls (rows c).
End Spec.
Arguments contents : clear implicits.

(** * The numbers of a line *)
Lemma take_sep (p : ascii -> bool) w c s : p c = false -> take p (w ++ c :: s) = take p w.
Proof. intro H. induction w as [|x w IH]; cbn [app take]; [now rewrite H|]. destruct (p x); [now rewrite IH|reflexivity]. Qed.
Lemma take_len (p : ascii -> bool) w : List.length (take p w) <= List.length w.
Proof. induction w as [|x w IH]; [apply le_n|]. cbn [take]. destruct (p x); cbn [List.length]; lia. Qed.
Lemma skipn_sep {A} k (w r : list A) : k <= List.length w -> skipn k (w ++ r) = skipn k w ++ r.
Proof. intro H. rewrite skipn_app. replace (k - List.length w) with 0 by lia. reflexivity. Qed.
Lemma space_not_digit c : is_space c = true -> is_digit c = false.
Proof. intro H. assert (G := char_sweep (fun c => implb (is_space c) (negb (is_digit c))) ltac:(vm_compute; reflexivity) c). cbv beta in G. rewrite H in G. now apply negb_true_iff. Qed.
Lemma space_not_in c (t : str) : is_space c = true -> forallb (fun x => negb (is_space x)) t = true -> mem_chr c t = false.
Proof. intros H T. apply not_true_is_false. intro M. apply mem_chr_iff in M. rewrite forallb_forall in T. specialize (T c M). rewrite H in T. discriminate. Qed.
Lemma m_sign_sep w c s : is_space c = true -> m_sign (w ++ c :: s) = m_sign w /\ m_sign w <= List.length w.
Proof. intro H. destruct w as [|x w]; cbn [app m_sign List.length]; [rewrite space_not_in by (exact H || reflexivity); split; lia|]. destruct (mem_chr x (S_ "-+")); split; lia. Qed.
Lemma m_mant_sep w c s : is_space c = true -> m_mant (w ++ c :: s) = m_mant w /\ forall n, m_mant w = Some n -> 1 <= n /\ n <= List.length w.
Proof.
  intro H. pose proof (space_not_digit c H) as D. unfold m_mant. rewrite (take_sep is_digit w c s D). pose proof (take_len is_digit w) as L. set (a := List.length (take is_digit w)) in *. rewrite skipn_sep by exact L.
  pose proof (skipn_length a w) as SL. destruct (skipn a w) as [|x r] eqn:E; cbn [app].
  - replace (chr_eqb c (ch 46)) with false. 2:{ symmetry. apply chr_eqb_neq. intros ->. discriminate H. } split; [reflexivity|]. intros n Q. destruct (Nat.leb_spec 1 a) as [P|P]; [|discriminate]. injection Q as <-. lia.
  - rewrite (take_sep is_digit r c s D). split; [reflexivity|]. pose proof (take_len is_digit r) as L2. cbn [List.length] in SL. intros n Q.
    destruct (chr_eqb x (ch 46)); destruct (Nat.leb_spec 1 (List.length (take is_digit r))), (Nat.leb_spec 1 a); try discriminate; injection Q as <-; lia.
Qed.
Lemma m_exp_sep w c s : is_space c = true -> m_exp (w ++ c :: s) = m_exp w /\ m_exp w <= List.length w.
Proof.
  intro H. pose proof (space_not_digit c H) as D. destruct w as [|x w]; cbn [app m_exp]; [rewrite space_not_in by (exact H || reflexivity); split; [reflexivity|apply le_n]|].
  destruct (m_sign_sep w c s H) as [E L]. destruct (mem_chr x (S_ "Ee")); [|split; [reflexivity|cbn [List.length]; lia]]. cbv zeta. rewrite E, skipn_sep by exact L. rewrite (take_sep is_digit _ c s D). split; [reflexivity|].
  pose proof (take_len is_digit (skipn (m_sign w) w)) as L2. rewrite skipn_length in L2. cbn [List.length]. destruct (List.length (take is_digit (skipn (m_sign w) w))); lia.
Qed.
Lemma m_num_sep w c s : is_space c = true -> m_num (w ++ c :: s) = m_num w /\ forall n, m_num w = Some n -> 1 <= n /\ n <= List.length w.
Proof.
  intro H. unfold m_num. destruct (m_sign_sep w c s H) as [E L]. rewrite E, skipn_sep by exact L. destruct (m_mant_sep (skipn (m_sign w) w) c s H) as [M1 M2]. rewrite M1.
  destruct (m_mant (skipn (m_sign w) w)) as [n|]; [|split; [reflexivity|discriminate]]. destruct (M2 n eq_refl) as [N1 N2]. rewrite skipn_length in N2. rewrite skipn_sep by lia. destruct (m_exp_sep (skipn (m_sign w + n) w) c s H) as [X1 X2]. rewrite X1. split; [reflexivity|].
  intros k Q. injection Q as <-. rewrite skipn_length in X2. lia.
Qed.
Lemma rx_sep c s : is_space c = true -> forall w k, k <= List.length w -> rx k (w ++ c :: s) = rx k w ++ rx 0 s.
Proof.
  intros H. induction w as [|x w IH]; intros k L.
  - cbn [List.length] in L. replace k with 0 by lia. destruct (m_num_sep [] c s H) as [E _]. cbn [app] in E. cbn [app rx]. rewrite E. reflexivity.
  - cbn [app rx]. destruct k as [|k]; [|apply IH; cbn [List.length] in L; lia]. destruct (m_num_sep (x :: w) c s H) as [E Q]. cbn [app] in E. rewrite E. destruct (m_num (x :: w)) as [n|]; [|apply IH; lia].
    destruct (Q n eq_refl) as [Q1 Q2]. cbn [List.length] in Q2. rewrite IH by lia. cbn [app]. f_equal. change (x :: w ++ c :: s) with ((x :: w) ++ c :: s). rewrite firstn_app. replace (n - List.length (x :: w)) with 0 by (cbn [List.length]; lia). cbn [firstn]. apply app_nil_r.
Qed.
Lemma first_space s : forallb (fun c => negb (is_space c)) s = true \/ exists w c t, s = w ++ c :: t /\ is_space c = true /\ forallb (fun c => negb (is_space c)) w = true.
Proof.
  induction s as [|x s IH]; [now left|]. cbn [forallb]. destruct (is_space x) eqn:E; [right; exists [], x, s; repeat split; assumption|]. destruct IH as [IH|(w & c & t & -> & H & W)]; [left; exact IH|]. right. exists (x :: w), c, t. split; [reflexivity|]. split; [exact H|]. cbn [forallb]. now rewrite E, W.
Qed.
Lemma rx_split s : rx 0 s = flat_map (rx 0) (split_ws s).
Proof.
  remember (List.length s) as n eqn:En. revert s En. induction n as [n IH] using lt_wf_ind. intros s En. destruct (first_space s) as [H|(w & c & t & -> & Hc & Hw)].
  - destruct s as [|x s]; [reflexivity|]. rewrite split_ws_token by (unfold is_token; cbn [nonempty]; exact H). cbn [flat_map]. now rewrite app_nil_r.
  - rewrite (rx_sep c t Hc w 0) by lia. rewrite split_ws_app by exact Hc. rewrite flat_map_app. f_equal.
    + destruct w as [|x w]; [reflexivity|]. rewrite split_ws_token by (unfold is_token; cbn [nonempty]; exact Hw). cbn [flat_map]. now rewrite app_nil_r.
    + apply (IH (List.length t)); [|reflexivity]. rewrite En, app_length. cbn [List.length]. lia.
Qed.
Lemma rx_among ws toks : numbers_among ws toks -> flat_map (rx 0) ws = toks.
Proof.
  induction 1 as [|w ws toks Hw _ IH|w ws toks Hw _ IH]; [reflexivity| |]; cbn [flat_map]; rewrite IH.
  - rewrite <- (app_nil_r w) at 1. rewrite (rx_token w [] Hw (or_introl eq_refl)). reflexivity.
  - now rewrite (rx_none w Hw).
Qed.

(** * Reading *)
Section Proofs.
Context {V : Type}.
Variable num : str -> option V.
Variables (mul : V -> V -> V) (minus1 : V) (fmt1 : V -> str).
Notation read := (read num mul minus1 fmt1).

Lemma among_strip l toks : numbers_among (split_ws l) toks -> rx 0 (strip l) = toks.
Proof. intro H. rewrite rx_split, split_ws_strip. now apply rx_among. Qed.
Lemma floats_some toks vs : Forall2 (fun w v => num w = Some v) toks vs -> FlexDoc_Model.floats num toks = Some vs.
Proof. induction 1 as [|w v toks vs H _ IH]; [reflexivity|]. cbn [FlexDoc_Model.floats]. now rewrite H, IH. Qed.
Lemma line_floats l vs : line_of num l vs -> FlexDoc_Model.floats num (rx 0 (strip l)) = Some vs.
Proof. intros (toks & H & F). rewrite (among_strip l toks H). now apply floats_some. Qed.
Lemma line_first l v vs : line_of num l (v :: vs) -> first_number num (strip l) = Some v.
Proof. intros (toks & H & F). unfold first_number. rewrite (among_strip l toks H). inversion F; subst. assumption. Qed.
Lemma count_first l n : count_line l n -> first_int (strip l) = Some (Z.of_nat n).
Proof. intros (toks & H). unfold first_int. rewrite (among_strip _ _ H). rewrite H2datNames_Props.int_N. now rewrite nat_N_Z. Qed.
Lemma csv_ok hs ls n rs : num [] = None -> List.length hs = 11 -> ~ number_and_word (strip (hd [] hs)) -> CSV_Props.table_rows num Blanks None n ls rs ->
  exists o, csv_of num (hs ++ ls) = Ok o /\ c_header o = map strip hs /\ exists names, c_data o = Some (names, map (map Num) rs).
Proof.
  intros NE L NW TR. pose proof TR as (_ & FL & _ & N0). unfold csv_of. cbn [csv_new nonempty seq andb bind]. unfold csv_read. change (safe_sep _) with (Some Blanks). destruct hs as [|h0 hs']; [discriminate|].
  rewrite (not_csv_false ((h0 :: hs') ++ ls) h0 (hs' ++ ls) eq_refl NW). unfold read_header. cbn [c_lines c_char bind]. change (filter _ (seq 0 _)) with (seq 0 11). set (hs := h0 :: hs') in *.
  assert (Hd : map (fun i => strip (nth i (hs ++ ls) [])) (seq 0 11) = map strip hs).
  { rewrite <- L. clear. generalize hs. intro l. rewrite <- (map_map (fun i => nth i (l ++ ls) []) strip). f_equal. induction l as [|x l IH]; [reflexivity|]. cbn [List.length seq map app nth]. f_equal. rewrite <- seq_shift, map_map. exact IH. }
  rewrite Hd. cbv zeta. rewrite map_length, L. cbn [detect_sep]. unfold CSV_Model.column_names. cbn [c_nline c_names c_detect nonempty negb bind].
  rewrite (kept_after _ _ 11).
  2:{ intros i _. unfold skiprows. rewrite orb_false_r. destruct (Nat.ltb_spec i 11) as [Q|Q]; [reflexivity|]. cbn [orb]. apply not_true_is_false. intro G. apply existsb_exists in G. destruct G as (x & G & E). apply Nat.eqb_eq in E. subst x. change (0 :: _) with (seq 0 11) in G. apply in_seq in G. lia. }
  rewrite <- L, skipn_app, skipn_all, Nat.sub_diag. cbn [app skipn]. destruct (parse_ok num NE Blanks None n ls rs (or_introl eq_refl) TR) as [P1 P2]. cbn [option_map] in P1. rewrite P1. cbn [bind]. eexists. split; [reflexivity|]. cbn [c_header c_data]. split; [reflexivity|]. eexists. reflexivity.
Qed.
Lemma labels_length depth rel displ : List.length (labels mul minus1 fmt1 depth rel displ) = 2 + List.length displ * (2 * List.length rel).
Proof. unfold labels. rewrite app_length. cbn [List.length]. f_equal. induction displ as [|x displ IH]; [reflexivity|]. cbn [flat_map List.length]. rewrite app_length, IH, app_length, !map_length. lia. Qed.

(** Every number of the header, and every column of the table in its order: the time, the elevation, then for every position the velocities at all
    depths and the accelerations at all depths. *)
Theorem C105_read (c : contents V) file : num [] = None -> file_of num c (2 + List.length (displ c) * (2 * List.length (rel c))) file -> exists w, read file = Ok w /\
  w_header w = title c /\ w_crest w = crest c /\ w_vel w = vel c /\ w_acc w = acc c /\ w_depth w = depth c /\ w_Hs w = Hs c /\ w_Tp w = Tp c /\ w_spec w = spec c /\ w_rel w = rel c /\ w_displ w = displ c /\
  w_data w = map (map Num) (rows c) /\ List.length (w_cols w) = 2 + List.length (displ c) * (2 * List.length (rel c)) /\ nth_error (w_cols w) 0 = Some (S_ "Time_[s]") /\ nth_error (w_cols w) 1 = Some (S_ "WaveElev_[m]") /\
  forall i x j z, nth_error (displ c) i = Some x -> nth_error (rel c) j = Some z ->
    nth_error (w_cols w) (2 + i * (2 * List.length (rel c)) + j) = Some (S_ "u_z=" ++ fmt1 (mul (mul z (depth c)) minus1) ++ S_ "_x=" ++ fmt1 x ++ S_ "_[m/s]") /\
    nth_error (w_cols w) (2 + i * (2 * List.length (rel c)) + List.length (rel c) + j) = Some (S_ "a_z=" ++ fmt1 (mul z (depth c)) ++ S_ "_x=" ++ fmt1 x ++ S_ "_[m/s^2]").
Proof.
  intros NE (h0 & h1 & h2 & h3 & h4 & h5 & h6 & h7 & h8 & h9 & h10 & ls & m2 & m3 & m4 & m5 & -> & NW & Et & H2 & H3 & H4 & H5 & H6 & H7 & H8 & H9 & TR).
  destruct (csv_ok [h0; h1; h2; h3; h4; h5; h6; h7; h8; h9; h10] ls _ (rows c) NE eq_refl NW TR) as (o & Eo & Eh & names & Ed). unfold WaveKin_Model.read. rewrite Eo, Ed. cbv zeta. rewrite Eh. cbn [map nth firstn].
  rewrite (line_first _ _ _ H2), (line_first _ _ _ H3), (line_first _ _ _ H4), (line_floats _ _ H5). cbn [app as_broken bind]. rewrite (count_first _ _ H6), (count_first _ _ H8), (line_floats _ _ H7), (line_floats _ _ H9). cbn [as_broken bind]. rewrite !Z.eqb_refl. cbn [negb].
  assert (L : List.length (hd [] (map (map (@Num V)) (rows c))) = 2 + List.length (displ c) * (2 * List.length (rel c))).
  { destruct TR as (F2 & FL & Hne & _). destruct (rows c) as [|r rs]; [inversion F2; congruence|]. cbn [map hd]. rewrite map_length. now inversion FL. }
  rewrite L, labels_length, Nat.eqb_refl. cbn [negb]. eexists. split; [reflexivity|]. cbn [w_header w_crest w_vel w_acc w_depth w_Hs w_Tp w_spec w_rel w_displ w_data w_cols]. rewrite Et. repeat (split; [reflexivity|]). split; [apply labels_length|]. split; [reflexivity|]. split; [reflexivity|].
  intros i x j z Hx Hz. unfold labels. cbn [app]. revert i Hx. generalize (displ c). intro ds. induction ds as [|d ds IH]; intros [|i] Hx; try discriminate.
  - cbn [nth_error] in Hx. injection Hx as ->. cbn [flat_map Nat.mul Nat.add nth_error]. rewrite <- !app_assoc. assert (Lj : j < List.length (rel c)) by (apply nth_error_Some; congruence). split.
    + rewrite nth_error_app1 by (rewrite map_length; exact Lj). rewrite nth_error_map, Hz. reflexivity.
    + rewrite nth_error_app2 by (rewrite map_length; lia). rewrite map_length. replace (List.length (rel c) + j - List.length (rel c)) with j by lia. rewrite nth_error_app1 by (rewrite map_length; exact Lj). rewrite nth_error_map, Hz. reflexivity.
  - cbn [nth_error] in Hx. specialize (IH i Hx). cbn [flat_map]. set (blk := map (fun z0 => u_label mul minus1 fmt1 (depth c) z0 d) (rel c) ++ map (fun z0 => a_label mul fmt1 (depth c) z0 d) (rel c)).
    assert (Lb : List.length blk = 2 * List.length (rel c)) by (unfold blk; rewrite app_length, !map_length; lia). cbn [Nat.add nth_error] in IH |- *. destruct IH as [I1 I2]. split.
    + rewrite nth_error_app2 by lia. rewrite Lb. replace (S i * (2 * List.length (rel c)) + j - 2 * List.length (rel c)) with (i * (2 * List.length (rel c)) + j) by lia. exact I1.
    + rewrite nth_error_app2 by lia. rewrite Lb. replace (S i * (2 * List.length (rel c)) + List.length (rel c) + j - 2 * List.length (rel c)) with (i * (2 * List.length (rel c)) + List.length (rel c) + j) by lia. exact I2.
Qed.
(** Any other number of columns is refused. *)
Theorem C105_other_width (c : contents V) n file : num [] = None -> file_of num c n file -> n <> 2 + List.length (displ c) * (2 * List.length (rel c)) -> read file = Err BrokenFormatError.
Proof.
  intros NE (h0 & h1 & h2 & h3 & h4 & h5 & h6 & h7 & h8 & h9 & h10 & ls & m2 & m3 & m4 & m5 & -> & NW & Et & H2 & H3 & H4 & H5 & H6 & H7 & H8 & H9 & TR) Hn.
  destruct (csv_ok [h0; h1; h2; h3; h4; h5; h6; h7; h8; h9; h10] ls _ (rows c) NE eq_refl NW TR) as (o & Eo & Eh & names & Ed). unfold WaveKin_Model.read. rewrite Eo, Ed. cbv zeta. rewrite Eh. cbn [map nth firstn].
  rewrite (line_first _ _ _ H2), (line_first _ _ _ H3), (line_first _ _ _ H4), (line_floats _ _ H5). cbn [app as_broken bind]. rewrite (count_first _ _ H6), (count_first _ _ H8), (line_floats _ _ H7), (line_floats _ _ H9). cbn [as_broken bind]. rewrite !Z.eqb_refl. cbn [negb].
  assert (L : List.length (hd [] (map (map (@Num V)) (rows c))) = n).
  { destruct TR as (F2 & FL & Hne & _). destruct (rows c) as [|r rs]; [inversion F2; congruence|]. cbn [map hd]. rewrite map_length. now inversion FL. }
  rewrite L, labels_length. destruct (Nat.eqb_spec (2 + List.length (displ c) * (2 * List.length (rel c))) n); [congruence|]. reflexivity.
Qed.
(** The line above the table announces an elevation for every position.  Such a file is refused when there is more than one position. *)
Corollary C105_elevations_refuted (c : contents V) file : num [] = None -> file_of num c (1 + List.length (displ c) * (1 + 2 * List.length (rel c))) file -> 2 <= List.length (displ c) -> read file = Err BrokenFormatError.
Proof. intros NE F L. apply (C105_other_width c _ file NE F). nia. Qed.
(** Counts that are not those of the lists are refused. *)
Theorem C105_counts (c : contents V) n n1 n2 h0 h1 h2 h3 h4 h5 h6 h7 h8 h9 h10 ls m2 m3 m4 m5 : num [] = None -> ~ number_and_word (strip h0) -> line_of num h2 (crest c :: m2) -> line_of num h3 (vel c :: m3) -> line_of num h4 (acc c :: m4) ->
  line_of num h5 ([depth c; Hs c; Tp c; spec c] ++ m5) -> count_line h6 n1 -> line_of num h7 (displ c) -> count_line h8 n2 -> line_of num h9 (rel c) -> CSV_Props.table_rows num Blanks None n ls (rows c) ->
  n1 <> List.length (displ c) \/ n2 <> List.length (rel c) -> read ([h0; h1; h2; h3; h4; h5; h6; h7; h8; h9; h10] ++ ls) = Err BrokenFormatError.
Proof.
  intros NE NW H2 H3 H4 H5 H6 H7 H8 H9 TR Hn. destruct (csv_ok [h0; h1; h2; h3; h4; h5; h6; h7; h8; h9; h10] ls _ (rows c) NE eq_refl NW TR) as (o & Eo & Eh & names & Ed). unfold WaveKin_Model.read. rewrite Eo, Ed. cbv zeta. rewrite Eh. cbn [map nth firstn].
  rewrite (line_first _ _ _ H2), (line_first _ _ _ H3), (line_first _ _ _ H4), (line_floats _ _ H5). cbn [app as_broken bind]. rewrite (count_first _ _ H6), (count_first _ _ H8), (line_floats _ _ H7), (line_floats _ _ H9). cbn [as_broken bind].
  destruct (Z.eqb_spec (Z.of_nat (List.length (displ c))) (Z.of_nat n1)) as [E1|E1]; [|reflexivity]. destruct (Z.eqb_spec (Z.of_nat (List.length (rel c))) (Z.of_nat n2)) as [E2|E2]; [|reflexivity]. exfalso. destruct Hn; lia.
Qed.
(** Whatever the file: when it is read, there is a name for every column of the table and the lists have the sizes of the names. *)
Theorem C105_success file w : read file = Ok w -> List.length (w_cols w) = List.length (hd [] (w_data w)) /\ List.length (w_cols w) = 2 + 2 * List.length (w_displ w) * List.length (w_rel w) /\ 12 <= List.length file.
Proof.
  intro H. unfold WaveKin_Model.read in H. destruct (csv_of num file) as [o|] eqn:Eo; [|discriminate]. cbv zeta in H. destruct (c_data o) as [[nm data]|] eqn:Ed; [|discriminate].
  repeat match type of H with bind (as_broken ?x) _ = _ => destruct x eqn:?; cbn [as_broken bind] in H; [|discriminate] end. destruct l as [|x1 [|x2 [|x3 [|x4 l]]]]; try discriminate.
  repeat match type of H with bind (as_broken ?x) _ = _ => destruct x eqn:?; cbn [as_broken bind] in H; [|discriminate] end. destruct (negb _) eqn:N1 in H; [discriminate|]. destruct (negb _) eqn:N2 in H; [discriminate|]. destruct (negb _) eqn:N3 in H; [discriminate|].
  injection H as <-. cbn [w_cols w_data w_displ w_rel]. apply negb_false_iff, Nat.eqb_eq in N3. split; [exact N3|]. split; [rewrite labels_length; lia|].
  unfold csv_of in Eo. cbn [csv_new nonempty seq andb bind] in Eo. unfold csv_read in Eo. destruct (not_csv file); [discriminate|]. unfold read_header in Eo. cbn [c_lines c_char bind] in Eo. change (filter _ (seq 0 _)) with (seq 0 11) in Eo. cbv zeta in Eo. rewrite map_length, seq_length in Eo. cbn [detect_sep safe_sep] in Eo. unfold CSV_Model.column_names in Eo. cbn [c_nline c_names c_detect nonempty negb bind] in Eo.
  destruct (le_lt_dec 12 (List.length file)) as [G|G]; [exact G|]. exfalso. rewrite (kept_after _ _ 11) in Eo. 2:{ intros i Hi. unfold skiprows. rewrite orb_false_r. destruct (Nat.ltb_spec i 11) as [Q|Q]; [reflexivity|lia]. }
  rewrite skipn_all2 in Eo by lia. discriminate Eo.
Qed.
(** The two labels of a point give its depth with opposite signs, unless both have the same text. *)
Theorem C105_sign_refuted (c : contents V) file w i x j z : num [] = None -> file_of num c (2 + List.length (displ c) * (2 * List.length (rel c))) file -> read file = Ok w -> nth_error (displ c) i = Some x -> nth_error (rel c) j = Some z ->
  fmt1 (mul (mul z (depth c)) minus1) <> fmt1 (mul z (depth c)) ->
  ~ exists p, nth_error (w_cols w) (2 + i * (2 * List.length (rel c)) + j) = Some (S_ "u_z=" ++ p ++ S_ "_x=" ++ fmt1 x ++ S_ "_[m/s]") /\
              nth_error (w_cols w) (2 + i * (2 * List.length (rel c)) + List.length (rel c) + j) = Some (S_ "a_z=" ++ p ++ S_ "_x=" ++ fmt1 x ++ S_ "_[m/s^2]").
Proof.
  intros NE F R Hx Hz Hd (p & P1 & P2). destruct (C105_read c file NE F) as (w' & R' & _ & _ & _ & _ & _ & _ & _ & _ & _ & _ & _ & _ & _ & _ & K). rewrite R in R'. injection R' as <-. destruct (K i x j z Hx Hz) as [K1 K2]. rewrite P1 in K1. rewrite P2 in K2.
  injection K1 as K1. injection K2 as K2. apply app_inv_tail in K1, K2. congruence.
Qed.
(** Depths that are the same to one decimal, in metres, have the same labels: names are not unique. *)
Theorem C105_same_label_refuted (c : contents V) file w i x j1 j2 z1 z2 : num [] = None -> file_of num c (2 + List.length (displ c) * (2 * List.length (rel c))) file -> read file = Ok w -> nth_error (displ c) i = Some x ->
  nth_error (rel c) j1 = Some z1 -> nth_error (rel c) j2 = Some z2 -> j1 <> j2 -> fmt1 (mul z1 (depth c)) = fmt1 (mul z2 (depth c)) -> ~ NoDup (w_cols w).
Proof.
  intros NE F R Hx H1 H2 Hj E N. destruct (C105_read c file NE F) as (w' & R' & _ & _ & _ & _ & _ & _ & _ & _ & _ & _ & _ & _ & _ & _ & K). rewrite R in R'. injection R' as <-. destruct (K i x j1 z1 Hx H1) as [_ K1]. destruct (K i x j2 z2 Hx H2) as [_ K2].
  rewrite E, <- K2 in K1. apply (proj1 (NoDup_nth_error _) N) in K1; [lia|]. apply nth_error_Some. rewrite K1, K2. discriminate.
Qed.
(** A file of at most eleven lines is refused. *)
Theorem C105_short_file file : List.length file <= 11 -> read file = Err WrongFormatError \/ read file = Err BrokenFormatError.
Proof.
  intro L. destruct (read file) as [w|e] eqn:E; [apply C105_success in E; lia|]. unfold WaveKin_Model.read in E. destruct (csv_of num file) as [o|] eqn:Eo; [|left; now rewrite E]. right. cbv zeta in E. destruct (c_data o) as [[nm data]|] eqn:Ed.
  - repeat match type of E with bind (as_broken ?x) _ = _ => destruct x eqn:?; cbn [as_broken bind] in E; [|now injection E as <-] end. destruct l as [|x1 [|x2 [|x3 [|x4 l]]]]; try (now injection E as <-).
    repeat match type of E with bind (as_broken ?x) _ = _ => destruct x eqn:?; cbn [as_broken bind] in E; [|now injection E as <-] end. repeat (destruct (negb _) in E; [now injection E as <-|]). discriminate.
  - exfalso. unfold csv_of in Eo. cbn [csv_new nonempty seq andb bind] in Eo. unfold csv_read in Eo. destruct (not_csv file); [discriminate|]. unfold read_header in Eo. cbn [c_lines c_char bind] in Eo. cbv zeta in Eo. destruct (CSV_Model.column_names _ _ _ _ _ _ _) as [[[a b] d]|] in Eo; [|discriminate]. cbn [bind] in Eo. destruct (parse_table _ _ _ _) in Eo; [|discriminate]. cbn [bind] in Eo. injection Eo as <-. discriminate Ed.
Qed.
End Proofs.

(** * Examples *)
Definition toy (w : str) : option Z := if forallb is_digit w && nonempty w then match int_ w with Ok z => Some z | Err _ => None end else None.
Lemma digits_number w : forallb is_digit w && nonempty w = true -> number_text w.
Proof.
  intro H. apply andb_true_iff in H. destruct H as [H1 H2]. exists [], w, []. rewrite app_nil_r. split; [reflexivity|]. split; [now left|]. split; [|now left]. left. split; [|intros ->; discriminate]. apply Forall_forall. intros c Hc. rewrite forallb_forall in H1. apply digit_in. now apply H1.
Qed.
Lemma word_no_digit w : forallb (fun c => negb (is_digit c)) w = true -> no_digit w.
Proof. intro H. apply Forall_forall. intros c Hc D. rewrite forallb_forall in H. specialize (H c Hc). apply digit_in in D. now rewrite D in H. Qed.
Fixpoint pick (ws : list str) : option (list str) :=
  match ws with
  | [] => Some []
  | w :: ws' => match pick ws' with
                | None => None
                | Some ts => if forallb is_digit w && nonempty w then Some (w :: ts) else if forallb (fun c => negb (is_digit c)) w then Some ts else None
                end
  end.
Lemma pick_ok ws : forall ts, pick ws = Some ts -> numbers_among ws ts.
Proof.
  induction ws as [|w ws IH]; intros ts H; cbn [pick] in H; [injection H as <-; constructor|]. destruct (pick ws) as [t|]; [|discriminate]. destruct (forallb is_digit w && nonempty w) eqn:E1; [injection H as <-; constructor; [now apply digits_number|now apply IH]|].
  destruct (forallb (fun c => negb (is_digit c)) w) eqn:E2; [|discriminate]. injection H as <-. constructor; [now apply word_no_digit|now apply IH].
Qed.
Lemma line_toy l vs ts : pick (split_ws l) = Some ts -> map toy ts = map Some vs -> line_of toy l vs.
Proof. intros P M. exists ts. split; [now apply pick_ok|]. clear P. revert vs M. induction ts as [|t ts IH]; intros [|v vs] M; try discriminate; constructor; [now injection M|apply IH; now injection M]. Qed.
Definition ex : contents Z := mk_contents [S_ "Wave kinematics"; S_ "3"] 2%Z 3%Z 4%Z 20%Z 5%Z 12%Z 11%Z [0; 2]%Z [7]%Z [[0; 1; 2; 3; 4; 5]; [1; 6; 7; 8; 9; 9]]%Z.
Definition ex_file : list str := map S_ ["Wave kinematics"; " 3"; "CrestHeightMax  2 m"; "LongitudinalVelocityMax 3 m/s"; "LongitudinalAccelerationMax  4 m/s"; " 20 5  12 11  Water Depth/Hs/Tp/spectype"; " 1 Number of displacements"; " 7"; "2 Number of Relative Depths"; "0 2"; " t  [eta  u a]"; " 0 1  2 3 4 5"; " 1 6 7 8 9 9"]%string.
Example ex_ok : file_of toy ex (2 + List.length (displ ex) * (2 * List.length (rel ex))) ex_file.
Proof.
  do 11 eexists. exists [S_ " 0 1  2 3 4 5"; S_ " 1 6 7 8 9 9"], [], [], [], []. split; [reflexivity|].
  split; [intros (w0 & w1 & ws & z & E & I & _); vm_compute in E; injection E as <- <- <-; discriminate I|]. split; [reflexivity|].
  do 4 (split; [eapply line_toy; vm_compute; reflexivity|]). split; [exists []; apply pick_ok; vm_compute; reflexivity|]. split; [eapply line_toy; vm_compute; reflexivity|]. split; [exists []; apply pick_ok; vm_compute; reflexivity|]. split; [eapply line_toy; vm_compute; reflexivity|].
  split; [|split; [repeat constructor|split; [discriminate|cbn; lia]]]. constructor; [|constructor; [|constructor]]; (eexists; split; [reflexivity|split; [discriminate|vm_compute; reflexivity]]).
Qed.
Example ex_labels : exists w, WaveKin_Model.read toy Z.mul (-1)%Z str_of_Z ex_file = Ok w /\ w_cols w = map S_ ["Time_[s]"; "WaveElev_[m]"; "u_z=0_x=7_[m/s]"; "u_z=-40_x=7_[m/s]"; "a_z=0_x=7_[m/s^2]"; "a_z=40_x=7_[m/s^2]"]%string.
Proof. eexists. split; vm_compute; reflexivity. Qed.

Print Assumptions C105_read.
Print Assumptions C105_other_width.
Print Assumptions C105_elevations_refuted.
Print Assumptions C105_counts.
Print Assumptions C105_success.
Print Assumptions C105_sign_refuted.
Print Assumptions C105_same_label_refuted.
Print Assumptions C105_short_file.
