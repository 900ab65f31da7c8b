(** Property C109: airfoil coordinates, nodal outputs, additional stiffness, and lines with wrong labels. *)
From Verif Require Import Py PyFacts TextFacts FASTIn_Model FASTIn_Proofs FASTIn_File FASTIn_Props FASTTab_Model FASTTab_Proofs FASTTab_Props FASTTabRead_Props FASTFile_Model.
From Verif Require Import FASTFile_Props FASTFileEnd_Props.
Local Open Scope nat_scope.

Lemma nth_add {A} (a b : list A) k : nth_error (a ++ b) (List.length a + k) = nth_error b k.
Proof. rewrite nth_error_app2 by lia. f_equal. lia. Qed.
Lemma skipn_add {A} (a b : list A) k : skipn (List.length a + k) (a ++ b) = skipn k b.
Proof. induction a as [|x a IH]; [reflexivity|]. exact IH. Qed.
Lemma splitlines_lines ls t : Forall oneline ls -> splitlines (unlines ls ++ t) = ls ++ splitlines t.
Proof. apply splitlines_more. Qed.
Lemma label_char_lower c : label_char (lower_c c) = true -> label_char c = true.
Proof. destruct c as [[] [] [] [] [] [] [] []]; vm_compute; congruence. Qed.
Lemma label_lower l : forallb label_char (lower l) = true -> forallb label_char l = true.
Proof.
  unfold lower. induction l as [|c l IH]; [reflexivity|]. cbn [map forallb]. intro H. apply andb_inv in H. destruct H as [H1 H2].
  rewrite (label_char_lower c H1). now apply IH.
Qed.

Lemma not_in_join c ws : c <> sp -> Forall (fun w => ~ In c w) ws -> ~ In c (join [sp] ws).
Proof.
  intros Hc H. induction H as [|w ws Hw _ IH]; [intros []|]. destruct ws as [|v ws]; [exact Hw|]. rewrite join_cons by discriminate. intro C. apply in_app_or in C. destruct C as [C|[C|C]]; [contradiction|congruence|contradiction].
Qed.

Section More.
Context {V : Type}.
Variable num : str -> option V.
Variable zero : V.
Variable R : str -> str.
Variables fnum fexp fstr fspan fmat : V -> str.
Variables rnum rexp rstr : V -> V.
Local Notation ent := (FASTFile_Model.entry V).
Local Notation begins_ := (begins num R fnum fexp fstr fspan fmat rnum rexp rstr).
Local Notation digits := "0123456789+-.e"%string.

(** ** Labels with characters that labels do not have *)
(** ... after the third line are refused *)
Theorem C109_wrong_label : forall es es' text1 l d more fuel, begins_ es es' text1 -> 3 <= List.length (splitlines (text1 ++ [nl])) ->
  oneline l -> no_section l -> (forall allow, parse_line R allow l = Ok d) -> it_comment d = false -> forallb label_char (it_label d) = false ->
  (forall s, it_value d = VStr s -> ~ word_in s first_word_tables) ->
  let text := text1 ++ [nl] ++ l ++ [nl] ++ more in usual es text -> List.length es < fuel ->
  read_file num zero R fuel text = Some (Err WrongFormatError).
Proof.
  intros es es' text1 l d more fuel Hb H3 Hl Hs Hp Hc Hlab Hval text Hu Hf.
  destruct (prefix_read num zero R fnum fexp fstr fspan fmat rnum rexp rstr es es' text1 Hb) as (ls & k & vals' & labs' & Hk & Iv & Il & _ & H).
  destruct (H (l ++ [nl] ++ more) (fuel - k) Hu) as (Sl & st' & E & Rd). replace (k + (fuel - k)) with fuel in E by lia. fold text in E. rewrite E.
  assert (El : splitlines (l ++ [nl] ++ more) = l :: splitlines more) by (unfold splitlines; cbn [app]; now rewrite splitlines_aux_line by exact Hl).
  assert (L3 : 3 <= List.length ls).
  { destruct (le_lt_dec 3 (List.length ls)) as [|G]; [assumption|exfalso].
    assert (Q : splitlines (text1 ++ [nl]) = ls).
    { pose proof (splitlines_more) as SM. 
      destruct Hb as (Hne & B & Ht). destruct (loop_blocks (nodal := false) num zero R fnum fexp fstr fspan fmat rnum rexp rstr _ _ _ _ _ B (incl_refl _) (incl_refl _)) as (lls & _ & _ & _ & W & _).
      unfold to_string in Ht. rewrite (mapM_written fnum fexp fstr fspan fmat _ _ W) in Ht. cbn [bind] in Ht. apply Ok_inj in Ht.
      destruct (written_lines _ _ _ _ _ _ _ W) as [N O]. rewrite join_concat in Ht by exact N.
      assert (Nl : concat lls <> []) by (inversion W as [|? ? ? ? (_ & Z & _) _]; subst; [contradiction|]; destruct y; [contradiction|discriminate]).
      rewrite <- Ht, unlines_join by exact Nl. pose proof (SM (concat lls) [] O) as S1. rewrite app_nil_r in S1. rewrite S1. cbn [splitlines splitlines_aux]. rewrite app_nil_r.
      pose proof (SM (concat lls) (l ++ [nl] ++ more) O) as S2. unfold text in Sl. rewrite <- Ht, app_assoc, unlines_join in Sl by exact Nl. rewrite S2 in Sl.
      now apply app_inv_tail in Sl. }
    rewrite Q in H3. lia. }
  replace (fuel - k) with (S (fuel - k - 1)) by lia. rewrite El. cbn [loop]. rewrite nth_error_mid. set (lines := ls ++ l :: splitlines more).
  assert (N : nth_error lines (List.length ls) = Some l) by apply nth_error_mid.
  assert (Nw : forall w, forallb label_char w = true -> lower (it_label d) <> lower w).
  { intros w Hw C. assert (forallb label_char (lower w) = true).
    { clear - Hw. unfold lower. induction w as [|c w IH]; [reflexivity|]. cbn [map forallb] in *. apply andb_inv in Hw. destruct Hw as [H1 H2]. rewrite (IH H2), andb_true_r.
      revert H1. destruct c as [[] [] [] [] [] [] [] []]; vm_compute; congruence. }
    rewrite <- C in H0. apply label_lower in H0. congruence. }
  rewrite turn_standard by exact Hs. destruct (Rd) as [Hi Hcm Hw Hnd Ho Hv Hla Hal].
  rewrite (standard_line num zero R lines _ st' _ _ N Hp Ho (Nw (S_ "kp_total") eq_refl) (Nw (S_ "numcoords") eq_refl) (Nw (S_ "re") eq_refl)).
  unfold tables. rewrite Hv, Hla.
  replace (match it_value d with VStr s => pick (lower s) vals' | _ => None end) with (@None (trow * list trow)).
  2: { destruct (it_value d) as [| | |u|] eqn:Eu; try reflexivity. symmetry. apply pick_none. intros (r & Hr & L). apply (Hval u eq_refl). exists r. split; [now apply Iv|exact L]. }
  rewrite pick_none.
  2: { intros (r & Hr & L). apply Il in Hr. assert (F : forallb (fun r => forallb label_char (t_word r)) second_word_tables = true) by reflexivity. rewrite forallb_forall in F. apply F in Hr. apply (Nw _ Hr). now symmetry. }
  replace (find _ file_rows) with (@None (str * str)).
  2: { symmetry. destruct (find _ file_rows) as [q|] eqn:Q; [|reflexivity]. apply find_some in Q. destruct Q as [Q1 Q2]. exfalso. apply str_eqb_eq in Q2.
    assert (F : forallb (fun p => forallb label_char (fst p)) file_rows = true) by reflexivity. rewrite forallb_forall in F. apply F in Q1. apply (Nw _ Q1). now symmetry. }
  unfold go, fcheck. cbn [comment_of label_of]. rewrite Hc. unfold hasSpecialChars. rewrite Hlab. cbn [negb andb]. replace (3 <? S (List.length ls)) with true by (symmetry; apply Nat.ltb_lt; lia). reflexivity.
Qed.
(** ... and in a file of fewer than ten lines already in the title *)
Theorem C109_short_title_refuted : forall l d more fuel, oneline l -> no_section l -> parse_line R false l = Ok d -> it_comment d = false -> forallb label_char (it_label d) = false ->
  (forall s, it_value d = VStr s -> ~ word_in s first_word_tables) ->
  let text := l ++ [nl] ++ more in List.length (splitlines text) < 10 -> first_char_error (splitlines text) = false -> extptfm (splitlines text) = false -> ad14_file (splitlines text) = Some None ->
  read_file num zero R (S fuel) text = Some (Err WrongFormatError).
Proof.
  intros l d more fuel Hl Hs Hp Hc Hlab Hval text H10 F1 F2 F3. unfold read_file. rewrite F1, F2, F3.
  assert (El : splitlines text = l :: splitlines more) by (unfold text, splitlines; cbn [app]; now rewrite splitlines_aux_line by exact Hl).
  rewrite El in *. cbn [loop nth_error]. rewrite turn_standard by exact Hs.
  assert (Nw : forall w, forallb label_char w = true -> str_eqb (lower (it_label d)) (lower w) = false).
  { intros w Hw. apply str_eqb_neq. intro C. assert (forallb label_char (lower w) = true).
    { clear - Hw. unfold lower. induction w as [|c w IH]; [reflexivity|]. cbn [map forallb] in *. apply andb_inv in Hw. destruct Hw as [H1 H2]. rewrite (IH H2), andb_true_r.
      revert H1. destruct c as [[] [] [] [] [] [] [] []]; vm_compute; congruence. }
    rewrite <- C in H. apply label_lower in H. congruence. }
  unfold standard, line_at. cbn [nth_error bind]. cbn [s_allow start]. rewrite Hp. cbn [s_off start].
  replace (relabel (it_label d ++ []) d) with d by (unfold relabel; rewrite app_nil_r; destruct d; reflexivity).
  pose proof (Nw (S_ "kp_total") eq_refl) as K1. pose proof (Nw (S_ "numcoords") eq_refl) as K2. pose proof (Nw (S_ "re") eq_refl) as K3.
  change (lower (S_ "kp_total")) with (S_ "kp_total") in K1. change (lower (S_ "numcoords")) with (S_ "numcoords") in K2. change (lower (S_ "re")) with (S_ "re") in K3.
  rewrite K1, K2, K3. unfold tables. cbn [s_vals s_labs start]. change val_rows with first_word_tables. change lab_rows with second_word_tables.
  replace (match it_value d with VStr s => pick (lower s) first_word_tables | _ => None end) with (@None (trow * list trow)).
  2: { destruct (it_value d) as [| | |u|] eqn:Eu; try reflexivity. symmetry. apply pick_none. exact (Hval u eq_refl). }
  rewrite pick_none.
  2: { intros (r & Hr & L). assert (F : forallb (fun r => forallb label_char (t_word r)) second_word_tables = true) by reflexivity. rewrite forallb_forall in F. apply F in Hr. apply Nw in Hr. apply str_eqb_neq in Hr. apply Hr. now symmetry. }
  replace (find _ file_rows) with (@None (str * str)).
  2: { symmetry. destruct (find _ file_rows) as [q|] eqn:Q; [|reflexivity]. apply find_some in Q. destruct Q as [Q1 Q2]. exfalso. apply str_eqb_eq in Q2.
    assert (F : forallb (fun p => forallb label_char (fst p)) file_rows = true) by reflexivity. rewrite forallb_forall in F. apply F in Q1. apply Nw in Q1. apply str_eqb_neq in Q1. apply Q1. now symmetry. }
  unfold go, fcheck. cbn [comment_of label_of s_comments s_wrong s_items start]. rewrite Hc. unfold hasSpecialChars. rewrite Hlab. set (n := List.length (l :: splitlines more)) in *. cbn [negb andb]. change (3 <? 1) with false. cbv iota.
  replace (35 * n <? 100 * 0) with false by (symmetry; apply Nat.ltb_ge; lia). cbv iota.
  match goal with |- context [n <? ?x] => replace (n <? x) with true end; [reflexivity|]. symmetry. apply Nat.ltb_lt. destruct (negb (nonempty (it_label d))); lia.
Qed.

(** ** What stays in front of a section *)
Lemma usual_less (a b : list ent) text : usual (a ++ b) text -> usual a text.
Proof. intros (H & F). split; [|exact F]. rewrite filter_app, app_length in H. lia. Qed.
Lemma push_ready {nd} (x : list ent) st b c vals labs : ready (nodal := nd) st b c vals labs -> Forall (fun e => ~ low_is (label_of e) (S_ "kp_total")) x ->
  ready (nodal := nd) (fpush x st) (b ++ x) c vals labs.
Proof.
  intros [Hi Hc Hw Hnd Ho Hv Hl Ha] Hx. constructor; cbn; auto; [now rewrite Hi|]. intros (d & Hd & T & L). apply Ha. apply in_app_or in Hd. destruct Hd as [Hd|Hd]; [exists d; auto|].
  rewrite Forall_forall in Hx. now apply Hx in Hd.
Qed.
Lemma blocks_lines {nd} es2 es2' before : blocks num R fnum fexp fstr rnum rexp rstr first_word_tables second_word_tables before es2 es2' ->
  exists lls k vals' labs', to_string fnum fexp fstr fspan fmat es2 = Ok (join [nl] (concat lls)) /\ (es2 <> [] -> concat lls <> []) /\ (es2 = [] -> concat lls = []) /\ Forall oneline (concat lls) /\ k <= List.length es2 /\
    forall pre tail st c fuel, ready (nodal := nd) st before c first_word_tables second_word_tables ->
    let lines := pre ++ concat lls ++ tail in 100 * (c + nC es2) <= 35 * List.length lines ->
    exists st', loop num zero R (k + fuel) lines (List.length pre) st = loop num zero R fuel lines (List.length pre + List.length (concat lls)) st' /\
      ready (nodal := nd) st' (before ++ es2') (c + nC es2) vals' labs'.
Proof.
  intro B. destruct (loop_blocks (nodal := nd) num zero R fnum fexp fstr fspan fmat rnum rexp rstr _ _ _ _ _ B (incl_refl _) (incl_refl _)) as (lls & k & vals' & labs' & W & Hk & _ & _ & _ & H).
  exists lls, k, vals', labs'. destruct (written_lines _ _ _ _ _ _ _ W) as [N O]. split.
  - unfold to_string. rewrite (mapM_written fnum fexp fstr fspan fmat _ _ W). cbn [bind]. f_equal. now apply join_concat.
  - split; [|split]; [| |split; [exact O|split; [exact Hk|exact H]]].
    + intro Hne. inversion W as [|? ? ? ? (_ & Z & _) _]; subst; [contradiction|]. destruct y; [contradiction|discriminate].
    + intros ->. inversion W. reflexivity.
Qed.

(** ** Nineteen lines of additional stiffness, and what follows them *)
Theorem C109_stiffness : forall es es' text1 d k es2 es2' text2 fuel, begins_ es es' text1 -> Forall (no_tab (V := V)) es ->
  FASTIn_Props.entry R d -> no_linebreak (item_str d) = true -> outlist_line (item_str d) = false -> ssoutlist_line (item_str d) = false -> stiff_line (item_str d) = true ->
  ~ low_is (it_label d) (S_ "kp_total") ->
  List.length k = 19 -> Forall oneline k ->
  let kd := Item (mkItem (VList (map VStr k)) (S_ "KDAdd") false [] TAB_FIL) in
  blocks num R fnum fexp fstr rnum rexp rstr first_word_tables second_word_tables (es' ++ [Item d; kd]) es2 es2' ->
  to_string fnum fexp fstr fspan fmat es2 = Ok text2 -> no_section (hd [] (splitlines (text2 ++ [nl]))) ->
  let text := text1 ++ [nl] ++ item_str d ++ [nl] ++ unlines k ++ match es2 with [] => [] | _ => text2 ++ [nl] end in
  usual (es ++ es2) text -> List.length es + List.length es2 < fuel ->
  read_file num zero R fuel text = Some (Ok (es' ++ [Item d; kd] ++ es2')).
Proof.
  intros es es' text1 d k es2 es2' text2 fuel Hb Hnt He Hn D1 D2 D3 Hkp Hk Ho kd B2 Ht2 Hs text Hu Hf.
  destruct (prefix_read num zero R fnum fexp fstr fspan fmat rnum rexp rstr es es' text1 Hb) as (ls & k1 & vals' & labs' & Hk1 & _ & _ & Hp & H). destruct (Hp Hnt) as [-> ->].
  destruct (H (item_str d ++ [nl] ++ unlines k ++ match es2 with [] => [] | _ => text2 ++ [nl] end) (fuel - k1) (usual_less _ _ _ Hu)) as (Sl & st' & E & Rd).
  replace (k1 + (fuel - k1)) with fuel in E by lia. fold text in E. rewrite E. clear E H.
  destruct (blocks_lines (nd := false) _ _ _ B2) as (lls & k2 & v2 & l2 & T2 & Nn & Ne & O2 & Hk2 & H2). rewrite T2 in Ht2. apply Ok_inj in Ht2. subst text2.
  assert (El : splitlines (item_str d ++ [nl] ++ unlines k ++ match es2 with [] => [] | _ => join [nl] (concat lls) ++ [nl] end) = item_str d :: k ++ concat lls).
  { unfold splitlines at 1. cbn [app]. rewrite splitlines_aux_line by exact Hn. f_equal. fold (splitlines (unlines k ++ match es2 with [] => [] | _ => join [nl] (concat lls) ++ [nl] end)).
    rewrite splitlines_more by exact Ho. f_equal. destruct es2 as [|x es2]; [now rewrite Ne|]. rewrite unlines_join by (apply Nn; discriminate). now apply splitlines_un. }
  destruct Hu as (Hlim & _). fold text in Sl. rewrite El in *. rewrite Sl in Hlim. set (lines := ls ++ item_str d :: k ++ concat lls) in *.
  replace (fuel - k1) with (S (fuel - k1 - 1)) by lia. 
  assert (Hd : nth_error lines (List.length ls) = Some (item_str d)) by apply nth_error_mid.
  assert (Ek : firstn 19 (skipn (S (List.length ls)) lines) = k).
  { unfold lines. replace (ls ++ item_str d :: k ++ concat lls) with ((ls ++ [item_str d]) ++ k ++ concat lls) by (rewrite <- app_assoc; reflexivity).
    replace (S (List.length ls)) with (List.length (ls ++ [item_str d])) by (rewrite app_length; cbn; lia). rewrite <- Hk. apply firstn_mid. }
  assert (Epre : lines = (ls ++ item_str d :: k) ++ concat lls) by (unfold lines; rewrite <- app_assoc; reflexivity).
  assert (Lpre : List.length (ls ++ item_str d :: k) = List.length ls + 20) by (rewrite app_length; cbn [List.length]; lia).
  assert (R2 : ready (nodal := false) (fpush [Item d; kd] st') (es' ++ [Item d; kd]) (nC es) first_word_tables second_word_tables).
  { apply push_ready; [exact Rd|]. constructor; [exact Hkp|]. constructor; [|constructor]. unfold low_is. cbn [label_of kd it_label]. vm_compute. discriminate. }
  assert (Tr : turn num zero R lines (List.length ls) (item_str d) st' =
               if List.length lines <=? List.length ls + 20 then Some (Ok (Stop (es' ++ [Item d; kd]))) else standard num zero R lines (List.length ls + 20) (fpush [Item d; kd] st')).
  { unfold turn. rewrite D1, D2, D3, (FASTIn_Props.entry_parse R d He), Ek, Hk. cbn [Nat.ltb Nat.leb]. fold kd. destruct R2 as [Hi _ _ _ _ _ _ _]. rewrite Hi. reflexivity. }
  destruct es2 as [|x es2].
  - cbn [loop]. rewrite Hd, Tr. replace (List.length lines <=? List.length ls + 20) with true.
    + assert (es2' = []) as -> by (clear - B2; inversion B2; reflexivity). reflexivity.
    + symmetry. apply Nat.leb_le. rewrite Epre, Ne, app_nil_r, Lpre by reflexivity. lia.
  - specialize (H2 (ls ++ item_str d :: k) [] (fpush [Item d; kd] st') (nC es) (fuel - k1 - k2) R2). cbv zeta in H2. rewrite app_nil_r, <- Epre in H2.
    destruct H2 as (st2 & E2 & Rd2); [unfold nC; rewrite filter_app, app_length in Hlim; exact Hlim|].
    assert (Nl : concat lls <> []) by (apply Nn; discriminate).
    assert (E1 : loop num zero R (S (fuel - k1 - 1)) lines (List.length ls) st' = loop num zero R (S (fuel - k1 - 1)) lines (List.length ls + 20) (fpush [Item d; kd] st')).
    { destruct (concat lls) as [|y q] eqn:Eq; [contradiction|]. cbn [loop]. rewrite Hd, Tr. assert (Hy : nth_error lines (List.length ls + 20) = Some y) by (rewrite Epre, <- Lpre; apply nth_error_mid).
      replace (List.length lines <=? List.length ls + 20) with false by (symmetry; apply Nat.leb_gt; rewrite Epre, app_length, Lpre; cbn [List.length]; lia).
      rewrite Hy, turn_standard; [reflexivity|]. rewrite unlines_join, splitlines_un in Hs by (try exact O2; exact Nl). exact Hs. }
    cbn [List.length] in Hf, Hk2. rewrite E1. replace (S (fuel - k1 - 1)) with (k2 + (fuel - k1 - k2)) by lia. rewrite <- Lpre, E2.
    replace (fuel - k1 - k2) with (S (fuel - k1 - k2 - 1)) by lia. cbn [loop].
    replace (nth_error lines _) with (@None str) by (symmetry; apply nth_error_None; rewrite Epre, app_length; lia).
    destruct Rd2 as [Hi _ _ _ _ _ _ _]. rewrite Hi, <- app_assoc. reflexivity.
Qed.

(** ** Two lists of output channels: those of the blade nodes come second *)
(** A line that announces nothing *)
Definition announces_nothing (d : item) : Prop :=
  (it_comment d = false -> forallb label_char (it_label d) = true /\ it_label d <> []) /\
  (forall s, it_value d = VStr s -> ~ word_in s first_word_tables) /\ ~ word_in (it_label d) second_word_tables /\
  (forall p, In p file_lists -> ~ low_is (fst p) (it_label d)) /\
  ~ low_is (it_label d) (S_ "kp_total") /\ ~ low_is (it_label d) (S_ "NumCoords") /\ ~ low_is (it_label d) (S_ "Re").
Lemma standard_plain {nd} lines i l d st b c : nth_error lines i = Some l -> (forall allow, parse_line R allow l = Ok d) -> announces_nothing d ->
  ready (nodal := nd) st b c first_word_tables second_word_tables -> 100 * (c + nC [@Item V d]) <= 35 * List.length lines ->
  exists st', standard num zero R lines i st = Some (Ok (Go (S i) st')) /\ ready (nodal := nd) st' (b ++ [Item d]) (c + nC [@Item V d]) first_word_tables second_word_tables.
Proof.
  intros N P (A1 & A2 & A3 & A4 & A5 & A6 & A7) Rd Hlim. destruct (Rd) as [Hi Hc Hw Hnd Ho Hv Hla Hal].
  rewrite (standard_line num zero R lines _ st _ _ N P Ho A5 A6 A7). unfold tables. rewrite Hv, Hla.
  replace (match it_value d with VStr s => pick (lower s) first_word_tables | _ => None end) with (@None (trow * list trow)).
  2: { destruct (it_value d) as [| | |u|] eqn:Eu; try reflexivity. symmetry. apply pick_none. exact (A2 u eq_refl). }
  rewrite pick_none by exact A3. replace (find _ file_rows) with (@None (str * str)).
  2: { symmetry. destruct (find _ file_rows) as [q|] eqn:Q; [|reflexivity]. apply find_some in Q. destruct Q as [Q1 Q2]. exfalso. apply str_eqb_eq in Q2. now apply (A4 q Q1). }
  unfold go. destruct (fcheck_ok num zero R fnum fexp fstr fspan fmat rnum rexp rstr (List.length lines) (S i) (Item d) st b c _ _ Rd Hlim A1) as (st2 & E2 & R2 & _).
  - intros d0 Q _ L. injection Q as <-. contradiction.
  - rewrite E2. exists st2. split; [reflexivity|exact R2].
Qed.
Definition nodal_line (l : str) : Prop := found_after0 (lower l) (S_ "bldnd_bladesout") = true \/ found_after0 (lower l) (S_ "bldnd_bloutnd") = true.
Definition channels (label descr : str) (o : list str) : ent := Item (mkItem (VList (map VStr ([] :: o))) label false descr TAB_FIL).
(** [h] is the heading of a list of channels, [o] its lines and [e] the line after them *)
Definition channel_lines (h : str) (o : list str) (e : str) : Prop :=
  oneline h /\ outlist_line h = true /\ existsb is_word h = true /\ List.length o <= 200 /\ Forall (fun l => ~ starts_end l /\ oneline l) o /\ oneline e /\ starts_end e.
Lemma channel_out h o e pre rest : channel_lines h o e -> parseFASTOutList (pre ++ h :: o ++ e :: rest) (S (List.length pre)) = Ok (o, S (List.length pre) + List.length o).
Proof.
  intros (_ & _ & _ & L & F & _ & E). apply (out_list (V := V) num zero R fnum fexp fstr fspan fmat rnum rexp rstr); [|exact L|].
  - revert F. apply Forall_impl. now intros l [H _].
  - destruct (is_END e) eqn:Q; [reflexivity|]. apply is_END_iff in E. congruence.
Qed.
Theorem C109_nodal : forall es es' text1 h o e de es2 es2' text2 h2 o2 e2 more fuel, begins_ es es' text1 -> Forall (no_tab (V := V)) es ->
  channel_lines h o e -> (forall allow, parse_line R allow e = Ok de) -> announces_nothing de ->
  let first := [channels (firstword h) (remainer h) o; Item de] in
  blocks num R fnum fexp fstr rnum rexp rstr first_word_tables second_word_tables (es' ++ first) es2 es2' -> to_string fnum fexp fstr fspan fmat es2 = Ok text2 ->
  channel_lines h2 o2 e2 ->
  let after := text2 ++ [nl] ++ unlines (h2 :: o2 ++ [e2]) ++ more in
  (exists l, nth_error (splitlines after) 1 = Some l /\ nodal_line l) ->
  (forall l, nth_error (splitlines more) 1 = Some l -> ~ nodal_line l) ->
  let text := text1 ++ [nl] ++ unlines (h :: o ++ [e]) ++ after in
  es2 <> [] -> usual (es ++ Item de :: es2) text -> List.length es + List.length es2 + 1 < fuel ->
  read_file num zero R fuel text = Some (Ok (es' ++ first ++ es2' ++ [channels (firstword h2 ++ S_ "_Nodal") (remainer h2) o2; Item end_item; Item dash_item])).
Proof.
  intros es es' text1 h o e de es2 es2' text2 h2 o2 e2 more fuel Hb Hnt C1 Pe Ae first B2 Ht2 C2 after (l1 & N1 & Ly) Hno text Hne Hu Hf.
  destruct (prefix_read num zero R fnum fexp fstr fspan fmat rnum rexp rstr es es' text1 Hb) as (ls & k1 & vals' & labs' & Hk1 & _ & _ & Hp & H). destruct (Hp Hnt) as [-> ->].
  destruct (H (unlines (h :: o ++ [e]) ++ after) (fuel - k1) (usual_less _ _ _ Hu)) as (Sl & st' & E & Rd).
  replace (k1 + (fuel - k1)) with fuel in E by lia. fold text in E. rewrite E. clear E H.
  destruct (blocks_lines (nd := true) _ _ _ B2) as (lls & k2 & v2 & l2 & T2 & Nn & _ & O2 & Hk2 & H2). rewrite T2 in Ht2. apply Ok_inj in Ht2. subst text2. specialize (Nn Hne).
  assert (Oc : forall h o e, channel_lines h o e -> Forall oneline (h :: o ++ [e])).
  { intros h0 o0 e0 (H1 & _ & _ & _ & F & Q & _). constructor; [exact H1|]. apply Forall_app. split; [|constructor; [exact Q|constructor]]. revert F. apply Forall_impl. now intros l [_ G]. }
  assert (Ea : splitlines after = concat lls ++ h2 :: o2 ++ e2 :: splitlines more).
  { unfold after. rewrite app_assoc, unlines_join by exact Nn. rewrite splitlines_more by exact O2. f_equal. rewrite splitlines_more by now apply Oc. cbn [app]. now rewrite <- app_assoc. }
  assert (El : splitlines (unlines (h :: o ++ [e]) ++ after) = h :: o ++ e :: concat lls ++ h2 :: o2 ++ e2 :: splitlines more).
  { rewrite splitlines_more by now apply Oc. rewrite Ea. cbn [app]. now rewrite <- app_assoc. }
  destruct Hu as (Hlim & _). fold text in Sl. rewrite El in *. rewrite Sl in Hlim. rewrite Ea in N1. set (tail := concat lls ++ h2 :: o2 ++ e2 :: splitlines more) in *.
  rewrite filter_app, app_length in Hlim. change (filter comment_of (Item de :: es2)) with (filter comment_of ([Item de] ++ es2)) in Hlim. rewrite filter_app, app_length in Hlim. set (lines := ls ++ h :: o ++ e :: tail) in *.
  assert (Hp1 : lines = (ls ++ h :: o) ++ e :: tail) by (unfold lines; rewrite <- app_assoc; reflexivity).
  assert (Ln1 : List.length (ls ++ h :: o) = S (List.length ls) + List.length o) by (rewrite app_length; cbn [List.length]; lia).
  assert (Hp2 : lines = (ls ++ h :: o ++ [e]) ++ tail) by (unfold lines; rewrite <- app_assoc; cbn [app]; rewrite <- app_assoc; reflexivity).
  assert (Ln2 : List.length (ls ++ h :: o ++ [e]) = S (S (List.length ls) + List.length o)) by (rewrite app_length; cbn [List.length]; rewrite app_length; cbn; lia).
  set (i1 := S (List.length ls) + List.length o) in *.
  assert (Ne : nth_error lines i1 = Some e) by (rewrite Hp1, <- Ln1; apply nth_error_mid).
  replace (fuel - k1) with (S (fuel - k1 - 1)) by lia. cbn [loop]. unfold lines at 1. rewrite nth_error_mid. unfold turn.
  destruct (C1) as (_ & G1 & G2 & _). rewrite G1, G2. cbn [negb]. unfold lines at 1. rewrite (channel_out h o e ls tail C1). fold lines. fold i1. rewrite Ne.
  replace (nth_error lines (i1 + 2)) with (Some l1) by (rewrite Hp1, <- Ln1, nth_add; symmetry; exact N1).
  replace (found_after0 (lower l1) (S_ "bldnd_bladesout") || found_after0 (lower l1) (S_ "bldnd_bloutnd")) with true by (symmetry; destruct Ly as [->| ->]; [reflexivity|apply orb_true_r]).
  destruct (Rd) as [Hi Hc Hw Hnd Ho Hv Hla Hal]. rewrite Hnd.
  match goal with |- context [standard num zero R lines i1 ?s] => set (st1 := s) end.
  assert (R1 : ready (nodal := true) st1 (es' ++ [channels (firstword h) (remainer h) o]) (nC es) first_word_tables second_word_tables).
  { constructor; cbn; auto; [now rewrite Hi|]. intros (d & Hd & T & L). apply Hal. apply in_app_or in Hd. destruct Hd as [Hd|[Hd|[]]]; [exists d; auto|]. injection Hd as <-. discriminate T. }
  destruct (standard_plain (nd := true) lines i1 e de st1 _ _ Ne Pe Ae R1) as (st2 & E2 & R2); [unfold nC; lia|]. rewrite E2.
  rewrite <- app_assoc in R2. change ([channels (firstword h) (remainer h) o] ++ [Item de]) with first in R2.
  replace (fuel - k1 - 1) with (k2 + (fuel - k1 - 1 - k2)) by lia.
  specialize (H2 (ls ++ h :: o ++ [e]) (h2 :: o2 ++ e2 :: splitlines more) st2 _ (fuel - k1 - 1 - k2) R2). cbv zeta in H2. fold tail in H2. rewrite <- Hp2 in H2.
  destruct H2 as (st3 & E3 & R3); [unfold nC; lia|]. rewrite Ln2 in E3. rewrite E3.
  assert (Hp3 : lines = ((ls ++ h :: o ++ [e]) ++ concat lls) ++ h2 :: o2 ++ e2 :: splitlines more) by (rewrite Hp2; unfold tail; now rewrite app_assoc).
  assert (Ln3 : List.length ((ls ++ h :: o ++ [e]) ++ concat lls) = S i1 + List.length (concat lls)) by (rewrite app_length, Ln2; reflexivity).
  set (pre := (ls ++ h :: o ++ [e]) ++ concat lls) in *.
  replace (fuel - k1 - 1 - k2) with (S (fuel - k1 - 1 - k2 - 1)) by lia. rewrite <- Ln3, Hp3. cbn [loop]. rewrite nth_error_mid. unfold turn.
  destruct (C2) as (_ & G3 & G4 & _). rewrite G3, G4. cbn [negb]. rewrite (channel_out h2 o2 e2 pre (splitlines more) C2).
  assert (Hp4 : pre ++ h2 :: o2 ++ e2 :: splitlines more = (pre ++ h2 :: o2) ++ e2 :: splitlines more) by (rewrite <- app_assoc; reflexivity).
  assert (Ln4 : S (List.length pre) + List.length o2 = List.length (pre ++ h2 :: o2)) by (rewrite app_length; cbn [List.length]; lia).
  rewrite Hp4, Ln4, nth_error_mid, nth_add. change (nth_error (e2 :: splitlines more) 2) with (nth_error (splitlines more) 1).
  destruct R3 as [Hi3 _ _ Hn3 _ _ _ _]. rewrite Hn3. unfold fpush. cbn [s_items]. rewrite !Hi3.
  assert (Fin : @the_end V R ((((es' ++ first) ++ es2') ++ [channels (firstword h2 ++ S_ "_Nodal") (remainer h2) o2])) =
                Ok (Stop (es' ++ first ++ es2' ++ [channels (firstword h2 ++ S_ "_Nodal") (remainer h2) o2; Item end_item; Item dash_item]))).
  { unfold the_end. rewrite parse_end, parse_dash. cbn [bind]. rewrite <- !app_assoc. reflexivity. }
  unfold channels in Fin at 1. cbn [map] in Fin.
  destruct (nth_error (splitlines more) 1) as [l|] eqn:Em.
  - destruct (found_after0 (lower l) (S_ "bldnd_bladesout")) eqn:Q1; [exfalso; apply (Hno l eq_refl); now left|].
    destruct (found_after0 (lower l) (S_ "bldnd_bloutnd")) eqn:Q2; [exfalso; apply (Hno l eq_refl); now right|]. cbn [orb]. cbn [map]. rewrite Fin. reflexivity.
  - cbn [map]. rewrite Fin. reflexivity.
Qed.

(** ** The coordinates of an airfoil end the file *)
Theorem C109_coordinates : forall es es' text1 d c1 c2 c3 p c5 c6 d1 d2 d3 d5 d6 a b ws x y names rows more fuel, begins_ es es' text1 ->
  announces R d (S_ "NumCoords") -> it_value d = VInt (Z.of_nat (S (List.length rows))) -> Forall (fun e : ent => ~ low_is (label_of e) (S_ "NumCoords")) es' ->
  Forall2 (fun l q => oneline l /\ parse_line R false l = Ok q) [c1; c2; c3; c5; c6] [d1; d2; d3; d5; d6] ->
  oneline p -> split_ws p = a :: b :: ws -> Forall (fun w => ~ In "!"%char w) (a :: b :: ws) -> num a = Some x -> num b = Some y ->
  names <> [] -> Forall good_name names -> rect (List.length names) rows -> Forall (Forall (writes num digits fexp rexp)) rows ->
  let text := text1 ++ [nl] ++ unlines ([item_str d; c1; c2; c3; p; c5; c6; S_ "! " ++ heading names] ++ map (fun r => join [tab] (map fexp r)) rows) ++ more in
  usual es text -> List.length es < fuel ->
  read_file num zero R fuel text = Some (Ok (es' ++ [Item d; Item d1; Item d2; Item d3; Ref (x, y); Item d5; Item d6;
    Tab (S_ "AirfoilCoord") [] NumCom (N_ "NumCoords") (Nums (map (map rexp) rows)) (Some names) (Some (map S_ ["(-)"; "(-)"]%string))])).
Proof.
  intros es es' text1 d c1 c2 c3 p c5 c6 d1 d2 d3 d5 d6 a b ws x y names rows more fuel Hb (He & Hc & Hn & Hs & Hl) Hv Hnone Hcs Op Sp Hbang Na Nb Hne Gn Hr Hw text Hu Hf.
  destruct (prefix_read num zero R fnum fexp fstr fspan fmat rnum rexp rstr es es' text1 Hb) as (ls & k & vals' & labs' & Hk & _ & _ & _ & H).
  match type of text with _ => idtac end.
  set (block := [item_str d; c1; c2; c3; p; c5; c6; S_ "! " ++ heading names] ++ map (fun r => join [tab] (map fexp r)) rows) in *.
  destruct (H (unlines block ++ more) (fuel - k) Hu) as (Sl & st' & E & Rd). replace (k + (fuel - k)) with fuel in E by lia. fold text in E. rewrite E. clear E H.
  inversion Hcs as [|? ? ? ? [O1 P1] Hcs1]; subst. inversion Hcs1 as [|? ? ? ? [O2 P2] Hcs2]; subst. inversion Hcs2 as [|? ? ? ? [O3 P3] Hcs3]; subst.
  inversion Hcs3 as [|? ? ? ? [O5 P5] Hcs5]; subst. inversion Hcs5 as [|? ? ? ? [O6 P6] _]; subst. clear Hcs Hcs1 Hcs2 Hcs3 Hcs5.
  assert (Ob : Forall oneline block).
  { unfold block. apply Forall_app. split.
    - repeat (constructor; [assumption|]). constructor; [|constructor]. apply oneline_app. split; [reflexivity|]. apply oneline_heading. now apply good_name_normal.
    - rewrite Forall_map. revert Hw. apply Forall_impl. intros r Hr'. apply (row_line_words num fexp rexp r Hr'). }
  rewrite (splitlines_more block more Ob). set (lines := ls ++ block ++ splitlines more). replace (fuel - k) with (S (fuel - k - 1)) by lia. cbn [loop].
  assert (N : forall j, nth_error lines (List.length ls + j) = nth_error (block ++ splitlines more) j) by (intro j; apply nth_add).
  pose proof (N 0) as N0. rewrite Nat.add_0_r in N0. rewrite N0. change (nth_error (block ++ splitlines more) 0) with (Some (item_str d)). cbv iota.
  rewrite turn_standard by exact Hs. destruct (Rd) as [Hi Hcm Hwr Hnd Ho Hva Hla Hal]. unfold standard, line_at. rewrite N0. change (nth_error (block ++ splitlines more) 0) with (Some (item_str d)). cbn [bind].
  rewrite (FASTIn_Props.entry_parse R d He), Ho. replace (relabel (it_label d ++ []) d) with d by (unfold relabel; rewrite app_nil_r; destruct d; reflexivity).
  unfold low_is in Hl. rewrite Hl. change (str_eqb (lower (S_ "NumCoords")) (S_ "kp_total")) with false. change (str_eqb (lower (S_ "NumCoords")) (S_ "numcoords")) with true. cbv iota. rewrite Hv.
  replace (Z.of_nat (S (List.length rows)) <=? 0)%Z with false by (symmetry; apply Z.leb_gt; lia).
  unfold coords, parse_at, line_at. rewrite !N.
  change (nth_error (block ++ splitlines more) 1) with (Some c1). change (nth_error (block ++ splitlines more) 2) with (Some c2). change (nth_error (block ++ splitlines more) 3) with (Some c3).
  change (nth_error (block ++ splitlines more) 4) with (Some p). change (nth_error (block ++ splitlines more) 5) with (Some c5). change (nth_error (block ++ splitlines more) 6) with (Some c6).
  cbn [bind]. rewrite P1, P2, P3, P5, P6. cbn [bind].
  assert (Pt : ref_point num p = Ok (x, y)).
  { unfold ref_point. rewrite cleanLine_words, Sp. rewrite cut_none.
    - rewrite split_ws_words by (rewrite <- Sp; apply split_ws_tokens). now rewrite Na, Nb.
    - apply not_in_join; [discriminate|exact Hbang]. }
  rewrite Pt. cbn [bind]. unfold fpush. cbn [s_items]. rewrite Hi.
  assert (Ct : count_of ((es' ++ [Item d]) ++ [Item d1; Item d2; Item d3; Ref (x, y); Item d5; Item d6]) (S_ "NumCoords") = Some (Ok (Z.of_nat (S (List.length rows))))).
  { unfold count_of. rewrite <- app_assoc. destruct (find_value ((es' ++ [Item d] ++ [Item d1; Item d2; Item d3; Ref (x, y); Item d5; Item d6])) (S_ "NumCoords") (it_value d)) as (q & F1 & F2).
    - exists es', d, [Item d1; Item d2; Item d3; Ref (x, y); Item d5; Item d6]. split; [reflexivity|]. split; [exact Hl|]. split; [reflexivity|exact Hnone].
    - rewrite F1, F2, Hv. reflexivity. }
  rewrite Ct. cbn [bind]. replace (Z.of_nat (S (List.length rows)) <? 1)%Z with false by (symmetry; apply Z.ltb_ge; lia). rewrite Nat2Z.id.
  assert (Eb : firstn (S (List.length rows)) (skipn (List.length ls + 7) lines) = (S_ "! " ++ heading names) :: map (fun r => join [tab] (map fexp r)) rows).
  { unfold lines. rewrite skipn_add. change (skipn 7 (block ++ splitlines more)) with (((S_ "! " ++ heading names) :: map (fun r => join [tab] (map fexp r)) rows) ++ splitlines more).
    replace (S (List.length rows)) with (List.length ((S_ "! " ++ heading names) :: map (fun r => join [tab] (map fexp r)) rows)) by (cbn [List.length]; now rewrite map_length).
    rewrite firstn_app, firstn_all, Nat.sub_diag. cbn [firstn]. apply app_nil_r. }
  rewrite Eb. replace (S (List.length rows) - 1) with (List.length rows) by lia.
  unfold parse_table. cbn [List.length]. rewrite map_length. replace (Nat.eqb (S (List.length rows)) (List.length rows + 1 + 0)) with true by (symmetry; apply Nat.eqb_eq; lia). cbn [negb].
  rewrite names_read_com by assumption. cbn [bind plus skipn]. rewrite (num_rows_ok num fexp rexp); [|exact Hw|exact Hr]. cbn [bind]. unfold finish. cbn [h_cols h_names h_units option_map]. rewrite firstn_all.
  f_equal. f_equal. rewrite <- !app_assoc. reflexivity.
Qed.
End More.

(** ** Concrete files *)
Local Notation I_ := (fun t : str => t).
Local Notation Zid := (fun z : Z => z).
Lemma not_words w : forallb (fun r => negb (str_eqb (lower (t_word r)) (lower w))) (first_word_tables ++ second_word_tables) = true -> ~ word_in w first_word_tables /\ ~ word_in w second_word_tables.
Proof.
  intros H. rewrite forallb_forall in H. split; intros (r & Hr & G); [specialize (H r (in_or_app _ _ _ (or_introl Hr)))|specialize (H r (in_or_app _ _ _ (or_intror Hr)))]; apply negb_true_iff, str_eqb_neq in H; contradiction.
Qed.
Ltac line_tac E := split; [exact E|]; split; [vm_compute; reflexivity|]; split; [split; [|split]; vm_compute; reflexivity|]; split; [try reflexivity; vm_compute; discriminate|];
  split; [try discriminate; let s := fresh in intros s E1; injection E1 as <-; apply not_words; vm_compute; reflexivity|]; split; [apply not_words; vm_compute; reflexivity|];
  split; [intros p [<-|[<-|[]]]; vm_compute; discriminate|]; split; vm_compute; discriminate.
Definition z_echo : item := mkItem (VBool true) (S_ "Echo") false (S_ "- flag") NOT_A_TAB.
Lemma z_echo_entry : FASTIn_Props.entry I_ z_echo.
Proof. apply (entry_value _ (VBool true) (S_ "Echo") [S_ "flag"]); [exact I|label_tac|apply descr_tac; reflexivity]. Qed.
Lemma z_echo_line before : line_ok (V := Z) I_ before z_echo.
Proof. line_tac z_echo_entry. Qed.
Lemma z_begins : begins znum I_ zfmt zfmt zfmt zfmt zfmt Zid Zid Zid [Item z_echo] [Item z_echo] (item_str z_echo).
Proof. split; [discriminate|]. split; [|vm_compute; reflexivity]. apply b_line; [apply z_echo_line|constructor]. Qed.

(** A file with a title of ten lines is read, with nine it is not *)
Definition z_title : list string := ["A title: test"; "True Echo - flag"; "True Echo - flag"; "True Echo - flag"; "True Echo - flag"; "True Echo - flag"; "True Echo - flag"; "True Echo - flag"; "True Echo - flag"]%string.
Example C109_short_title_nonvacuous : zread (T_ z_title) = Some (Err WrongFormatError) /\ exists es, zread (T_ (z_title ++ ["True Echo - flag"%string])) = Some (Ok es) /\ List.length es = 10.
Proof.
  split; [|eexists; split; vm_compute; reflexivity].
  unfold zread, T_, z_title. change (unlines _) with (S_ "A title: test" ++ [nl] ++ unlines (map S_ (tl z_title))). 
  destruct (parse_line I_ false (S_ "A title: test")) as [d|] eqn:P; [|vm_compute in P; discriminate P]. pose proof P as P'. vm_compute in P'. apply Ok_inj in P'.
  apply (C109_short_title_refuted znum 0%Z I_ zfmt zfmt zfmt zfmt zfmt Zid Zid Zid (S_ "A title: test") d); try (subst d; vm_compute; reflexivity).
  - split; [|split]; vm_compute; reflexivity.
  - intros s E. subst d. cbn [it_value] in E. injection E as <-. apply not_words. vm_compute. reflexivity.
Qed.

(** Three lines and one with a wrong label *)
Lemma z_echoes n : begins znum I_ zfmt zfmt zfmt zfmt zfmt Zid Zid Zid (repeat (Item z_echo) (S n)) (repeat (Item z_echo) (S n)) (join [nl] (repeat (item_str z_echo) (S n))).
Proof.
  split; [discriminate|]. split.
  - generalize (@nil (FASTFile_Model.entry Z)). induction (S n) as [|m IH]; intro b; [constructor|]. cbn [repeat]. apply b_line; [apply z_echo_line|apply IH].
  - unfold to_string. assert (M : forall m, mapM (entry_str zfmt zfmt zfmt zfmt zfmt) (repeat (Item z_echo) m) = Ok (repeat (item_str z_echo) m)).
    { induction m as [|m IH]; [reflexivity|]. cbn [repeat mapM]. rewrite IH. reflexivity. }
    now rewrite M.
Qed.
Example C109_wrong_label_nonvacuous : zread (T_ ["True Echo - flag"; "True Echo - flag"; "True Echo - flag"]%string ++ S_ "1 pitch: - angle" ++ [nl]) = Some (Err WrongFormatError) /\
  zread (join [nl] (repeat (item_str z_echo) 3) ++ [nl] ++ S_ "1 pitch: - angle" ++ [nl] ++ T_ ["True Echo - flag"]%string) = Some (Err WrongFormatError).
Proof.
  split; [vm_compute; reflexivity|]. destruct (parse_line I_ false (S_ "1 pitch: - angle")) as [d|] eqn:P; [|vm_compute in P; discriminate P]. pose proof P as P'. vm_compute in P'. apply Ok_inj in P'.
  apply (C109_wrong_label znum 0%Z I_ zfmt zfmt zfmt zfmt zfmt Zid Zid Zid (repeat (Item z_echo) 3) (repeat (Item z_echo) 3) _ (S_ "1 pitch: - angle") d).
  - apply z_echoes.
  - apply Nat.leb_le. vm_compute. reflexivity.
  - reflexivity.
  - split; [|split]; vm_compute; reflexivity.
  - intros []; [subst d; vm_compute; reflexivity|exact P].
  - subst d. reflexivity.
  - subst d. reflexivity.
  - intros s E. subst d. discriminate E.
  - split; [apply Nat.leb_le; vm_compute; reflexivity|]. split; [|split]; vm_compute; reflexivity.
  - cbn. lia.
Qed.
(** Key points of a blade *)
Definition z_kp : item := mkItem (VInt 3) (S_ "kp_total") false (S_ "- points") NOT_A_TAB.
Definition z_member : item := mkItem (VStr (S_ "1 3")) (S_ "Member") false (S_ "- number of points") NOT_A_TAB.
Example C109_points_nonvacuous : blocks znum I_ zfmt zfmt zfmt Zid Zid Zid first_word_tables second_word_tables [] [Item z_kp; Item z_member] [Item z_kp; Item z_member] /\
  exists text, zwrite [Item z_kp; Item z_member] = Ok text /\ zread text = Some (Ok [Item z_kp; Item z_member]).
Proof.
  split.
  - assert (E : FASTIn_Props.entry I_ z_kp) by (apply (entry_value _ (VInt 3) (S_ "kp_total") [S_ "points"]); [exact I|label_tac|apply descr_tac; reflexivity]).
    apply b_line; [line_tac E|].
    apply (b_points znum I_ zfmt zfmt zfmt Zid Zid Zid first_word_tables second_word_tables _ 1 3 (S_ "Member") (map S_ ["number"; "of"; "points"]%string)).
    + exists z_kp. split; [now left|]. split; reflexivity.
    + label_tac.
    + reflexivity.
    + apply descr_tac; reflexivity.
    + vm_compute. intuition discriminate.
    + apply not_words. vm_compute. reflexivity.
    + intros p [<-|[<-|[]]]; vm_compute; discriminate.
    + vm_compute. discriminate.
    + vm_compute. discriminate.
    + vm_compute. reflexivity.
    + split; [|split]; vm_compute; reflexivity.
    + constructor.
  - eexists. split; [vm_compute; reflexivity|vm_compute; reflexivity].
Qed.

(** Additional stiffness in the middle of a file *)
Definition z_stiff : item := mkItem (VStr (S_ "--- ADDITIONAL STIFFNESS ---")) [] true [] NOT_A_TAB.
Example C109_stiffness_nonvacuous : let k := repeat (S_ "1 2") 19 in
  zread (item_str z_echo ++ [nl] ++ item_str z_stiff ++ [nl] ++ unlines k ++ item_str z_echo ++ [nl]) =
  Some (Ok [Item z_echo; Item z_stiff; Item (mkItem (VList (map VStr k)) (S_ "KDAdd") false [] TAB_FIL); Item z_echo]).
Proof.
  intro k. assert (Es : FASTIn_Props.entry I_ z_stiff) by (apply (entry_comment I_ (S_ "--- ADDITIONAL STIFFNESS ---")); exists [], (S_ "--- ADDITIONAL STIFFNESS ---"); split; [reflexivity|]; split; [reflexivity|]; right; exists (S_ "--"), (S_ "- ADDITIONAL STIFFNESS ---"); split; [reflexivity|vm_compute; tauto]).
  apply (C109_stiffness znum 0%Z I_ zfmt zfmt zfmt zfmt zfmt Zid Zid Zid (repeat (Item z_echo) 1) (repeat (Item z_echo) 1) (item_str z_echo) z_stiff k [Item z_echo] [Item z_echo] (item_str z_echo)); try (vm_compute; reflexivity).
  - apply (z_echoes 0).
  - repeat constructor.
  - exact Es.
  - vm_compute. discriminate.
  - repeat constructor.
  - apply b_line; [apply z_echo_line|constructor].
  - split; [|split]; vm_compute; reflexivity.
  - split; [apply Nat.leb_le; vm_compute; reflexivity|]. split; [|split]; vm_compute; reflexivity.
  - cbn. lia.
Qed.

(** The outputs of blade nodes. The label of the second list is longer each time the file is read and written *)
Definition z_nodal : str := T_ ["True Echo - flag"; " OutList The next lines contain output channels"; "RotSpeed"; "END of the list"; "True Echo - flag"; "3 BldNd_BladesOut - blades"; " OutList The next lines contain output channels"; "Alpha"; "END of the file"; "---"]%string.
Definition z_blades : item := mkItem (VInt 3) (S_ "BldNd_BladesOut") false (S_ "- blades") NOT_A_TAB.
Definition z_head : str := S_ " OutList The next lines contain output channels".
Example C109_nodal_nonvacuous :
  zread (item_str z_echo ++ [nl] ++ unlines [z_head; S_ "RotSpeed"; S_ "END of the list"] ++ join [nl] [item_str z_echo; item_str z_blades] ++ [nl] ++ unlines [z_head; S_ "Alpha"; S_ "END of the file"] ++ S_ "---") =
  Some (Ok [Item z_echo; Item (mkItem (VList (map VStr [[]; S_ "RotSpeed"])) (S_ "OutList") false (S_ "The next lines contain output channels") TAB_FIL); Item (mkItem (VStr (S_ "END")) (S_ "of") true (S_ "the list") NOT_A_TAB);
    Item z_echo; Item z_blades; Item (mkItem (VList (map VStr [[]; S_ "Alpha"])) (S_ "OutList_Nodal") false (S_ "The next lines contain output channels") TAB_FIL); Item end_item; Item dash_item]).
Proof.
  assert (Ch : forall w e, w = S_ "RotSpeed" \/ w = S_ "Alpha" -> e = S_ "END of the list" \/ e = S_ "END of the file" -> channel_lines z_head [w] e).
  { intros w e Hw He. split; [reflexivity|]. split; [vm_compute; reflexivity|]. split; [reflexivity|]. split; [cbn; lia|]. split; [constructor; [|constructor]; destruct Hw as [->| ->]; (split; [vm_compute; discriminate|reflexivity])|].
    destruct He as [->| ->]; split; reflexivity. }
  assert (Eb : FASTIn_Props.entry I_ z_blades) by (apply (entry_value _ (VInt 3) (S_ "BldNd_BladesOut") [S_ "blades"]); [exact I|label_tac|apply descr_tac; reflexivity]).
  apply (C109_nodal znum 0%Z I_ zfmt zfmt zfmt zfmt zfmt Zid Zid Zid (repeat (Item z_echo) 1) (repeat (Item z_echo) 1) (item_str z_echo) z_head [S_ "RotSpeed"] (S_ "END of the list") (mkItem (VStr (S_ "END")) (S_ "of") true (S_ "the list") NOT_A_TAB)
    [Item z_echo; Item z_blades] [Item z_echo; Item z_blades] (join [nl] [item_str z_echo; item_str z_blades]) z_head [S_ "Alpha"] (S_ "END of the file") (S_ "---")).
  - apply (z_echoes 0).
  - repeat constructor.
  - apply Ch; now left.
  - intros []; vm_compute; reflexivity.
  - split; [discriminate|]. split; [intros s E; cbn [it_value] in E; injection E as <-; apply not_words; vm_compute; reflexivity|]. split; [apply not_words; vm_compute; reflexivity|].
    split; [intros p [<-|[<-|[]]]; vm_compute; discriminate|]. split; [|split]; vm_compute; discriminate.
  - apply b_line; [apply z_echo_line|]. apply b_line; [line_tac Eb|constructor].
  - vm_compute. reflexivity.
  - apply Ch; now right.
  - eexists. split; [vm_compute; reflexivity|]. left. vm_compute. reflexivity.
  - intros l E. vm_compute in E. discriminate E.
  - discriminate.
  - split; [apply Nat.leb_le; vm_compute; reflexivity|]. split; [|split]; vm_compute; reflexivity.
  - cbn. lia.
Qed.
Theorem C109_nodal_refuted : exists es t1 es1 t2 es2, zread z_nodal = Some (Ok es) /\ zwrite es = Ok t1 /\ zread t1 = Some (Ok es1) /\ zwrite es1 = Ok t2 /\ zread t2 = Some (Ok es2) /\
  map label_of es = map S_ ["Echo"; "OutList"; "of"; "Echo"; "BldNd_BladesOut"; "OutList_Nodal"; "of"; ""]%string /\
  nth 5 (map label_of es1) [] = S_ "OutList_Nodal_Nodal" /\ nth 5 (map label_of es2) [] = S_ "OutList_Nodal_Nodal_Nodal".
Proof. do 5 eexists. split; [vm_compute; reflexivity|]. split; [vm_compute; reflexivity|]. split; [vm_compute; reflexivity|]. split; [vm_compute; reflexivity|]. split; [vm_compute; reflexivity|]. split; [|split]; vm_compute; reflexivity. Qed.

(** Coordinates *)
Definition z_coords : item := mkItem (VInt 3) (S_ "NumCoords") false (S_ "- number") NOT_A_TAB.
Example C109_coordinates_nonvacuous :
  zread (item_str z_echo ++ [nl] ++ unlines ([item_str z_coords; S_ "! .."; S_ "! x y"; S_ "! (-) (-)"; S_ "0 12 ref"; S_ "! coords"; S_ "! .."; S_ "! " ++ heading (map S_ ["x"; "y"]%string)] ++ map (fun r => join [tab] (map zfmt r)) [[0; 12]; [12; -345]]%Z) ++ S_ "more") =
  Some (Ok [Item z_echo; Item z_coords; Item (comment_item (S_ "! ..")); Item (comment_item (S_ "! x y")); Item (comment_item (S_ "! (-) (-)")); Ref (0, 12)%Z; Item (comment_item (S_ "! coords")); Item (comment_item (S_ "! .."));
    Tab (S_ "AirfoilCoord") [] NumCom (N_ "NumCoords") (Nums [[0; 12]; [12; -345]]%Z) (Some (map S_ ["x"; "y"]%string)) (Some (map S_ ["(-)"; "(-)"]%string))]).
Proof.
  assert (Ec : FASTIn_Props.entry I_ z_coords) by (apply (entry_value _ (VInt 3) (S_ "NumCoords") [S_ "number"]); [exact I|label_tac|apply descr_tac; reflexivity]).
  apply (C109_coordinates znum 0%Z I_ zfmt zfmt zfmt zfmt zfmt Zid Zid Zid (repeat (Item z_echo) 1) (repeat (Item z_echo) 1) (item_str z_echo) z_coords (S_ "! ..") (S_ "! x y") (S_ "! (-) (-)") (S_ "0 12 ref") (S_ "! coords") (S_ "! ..")
    (comment_item (S_ "! ..")) (comment_item (S_ "! x y")) (comment_item (S_ "! (-) (-)")) (comment_item (S_ "! coords")) (comment_item (S_ "! ..")) (S_ "0") (S_ "12") [S_ "ref"] 0%Z 12%Z (map S_ ["x"; "y"]%string) [[0; 12]; [12; -345]]%Z (S_ "more")).
  - apply (z_echoes 0).
  - split; [exact Ec|]. split; [reflexivity|]. split; [vm_compute; reflexivity|]. split; [split; [|split]; vm_compute; reflexivity|reflexivity].
  - reflexivity.
  - constructor; [vm_compute; discriminate|constructor].
  - repeat (constructor; [split; [vm_compute; reflexivity|vm_compute; reflexivity]|]). constructor.
  - reflexivity.
  - reflexivity.
  - repeat (constructor; [vm_compute; intuition discriminate|]). constructor.
  - reflexivity.
  - reflexivity.
  - discriminate.
  - repeat constructor; intros c Hc; vm_compute in Hc; decompose [or] Hc; subst; try contradiction; vm_compute; intuition discriminate.
  - repeat constructor.
  - repeat (constructor; [repeat (constructor; [apply zdigits; vm_compute; tauto|]); constructor|]). constructor.
  - split; [apply Nat.leb_le; vm_compute; reflexivity|]. split; [|split]; vm_compute; reflexivity.
  - cbn. lia.
Qed.
Print Assumptions C109_wrong_label. Print Assumptions C109_short_title_refuted. Print Assumptions C109_stiffness. Print Assumptions C109_nodal. Print Assumptions C109_nodal_refuted. Print Assumptions C109_coordinates.
