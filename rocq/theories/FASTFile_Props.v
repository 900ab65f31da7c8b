(** Property C109: whole FAST input files, with their tables and lists. *)
From Verif Require Import Py PyFacts TextFacts FASTIn_Model FASTIn_Proofs FASTIn_File FASTIn_Props FASTTab_Model FASTTab_Proofs FASTTab_Props FASTTabRead_Props FASTFile_Model.
Local Open Scope nat_scope.

(** ** Specification *)
(** The tables of the format: the word that announces the table, where its number of rows comes from, the name of the table,
    the number of header lines, and whether all its cells are numbers. *)
Definition row (w : string) (k : dimvar) (name : string) (h : nat) (numeric : bool) : trow := mk_trow (S_ w) k (S_ name) h 0 numeric.
Definition N_ (s : string) : dimvar := Key (S_ s).
(** Announced by the first word of the line *)
Definition first_word_tables : list trow :=
  [ row "HtFract" (N_ "NTwInpSt") "TowProp" 2 true; row "TwrElev" (N_ "NumTwrNds") "TowProp" 2 true; row "BlFract" (N_ "NBlInpSt") "BldProp" 2 true;
    row "Genspd_TLU" (N_ "DLL_NumTrq") "DLLProp" 2 true; row "BlSpn" (N_ "NumBlNds") "BldAeroNodes" 2 true; row "WndSpeed" (N_ "NumCases") "Cases" 2 true;
    row "HvCoefID" (N_ "NHvCoef") "HvCoefs" 2 true; row "AxCoefID" (N_ "NAxCoef") "AxCoefs" 2 true; row "JointID" (N_ "NJoints") "Joints" 2 true;
    row "Dpth" (N_ "NCoefDpth") "DpthProp" 2 true; row "FillNumM" (N_ "NFillGroups") "FillGroups" 2 true; row "MGDpth" (N_ "NMGDepths") "MGProp" 2 true;
    row "SimplCd" (Const 1) "SmplProp" 2 true; row "RNodes" (N_ "BldNodes") "BldAeroNodes" 1 false; row "kp_xr" (N_ "kp_total") "MemberGeom" 2 true;
    row "mu1" (Const 1) "DampingCoeffs" 2 true; row "TwrHtFr" (N_ "NTwrHt") "TowerProp" 1 true; row "TwrRe" (N_ "NTwrRe") "TowerRe" 1 true;
    row "WT_X" (N_ "NumTurbines") "WindTurbines" 2 false; row "RJointID" (N_ "NReact") "BaseJoints" 2 false; row "IJointID" (N_ "NInterf") "InterfaceJoints" 2 true;
    row "COSMID" (N_ "NCOSMs") "MemberCosineMatrix" 2 true; row "CMJointID" (N_ "NCmass") "ConcentratedMasses" 2 true ]%string.
(** Announced by the second word of the line *)
Definition second_word_tables : list trow :=
  [ row "NumAlf" (N_ "NumAlf") "AFCoeff" 2 true; row "F_X" (N_ "NKInpSt") "TMDspProp" 2 true; row "MemberCd1" (N_ "NCoefMembers") "MemberProp" 2 true;
    row "MJointID1" (N_ "NMembers") "Members" 2 false; row "NOutLoc" (N_ "NMOutputs") "MemberOuts" 2 true; row "NOutCnt" (N_ "NMOutputs") "MemberOuts" 2 true;
    row "PropD" (N_ "NPropSets") "SectionProp" 2 true; row "Diam" (N_ "NTypes") "LineTypes" 2 false; row "Type" (N_ "NConnects") "ConnectionProp" 2 false;
    row "LineType" (N_ "NLines") "LineProp" 2 false; mk_trow (S_ "GuyanDampSize") (Const 6) (S_ "GuyanDampMatrix") 0 1 true;
    row "YoungE" (N_ "NPropSets") "BeamProp" 2 true; row "YoungE" (N_ "NXPropSets") "BeamPropX" 2 true; row "EA" (N_ "NCablePropSets") "CableProp" 2 true;
    row "MatDens" (N_ "NRigidPropSets") "RigidProp" 2 true; mk_trow (S_ "GridName") (N_ "nGridOut") (S_ "GridOutputs") 0 2 false ]%string.
(** Lists of files: the label and the key of their number *)
Definition file_lists : list (str * str) := [(S_ "FoilNm", S_ "NumFoil"); (S_ "AFNames", S_ "NumAFfiles")].

Definition low_is (a b : str) : Prop := lower a = lower b.
Definition word_in (w : str) (l : list trow) : Prop := exists r, In r l /\ low_is (t_word r) w.
(** A line that opens no section of its own *)
Definition no_section (l : str) : Prop := outlist_line l = false /\ ssoutlist_line l = false /\ section_line l = false.

(** ** Lemmas *)
Lemma rows_first : val_rows = first_word_tables.
Proof. reflexivity. Qed.
Lemma rows_second : lab_rows = second_word_tables.
Proof. reflexivity. Qed.
Lemma pick_here w l1 r l2 : low_is (t_word r) w -> Forall (fun x => ~ low_is (t_word x) w) l1 -> pick (lower w) (l1 ++ r :: l2) = Some (r, l1 ++ l2).
Proof.
  intros E F. unfold low_is in *. induction l1 as [|x l1 IH]; cbn [app pick].
  - rewrite E, str_eqb_refl. reflexivity.
  - inversion F as [|? ? Hx F']; subst. apply str_eqb_neq in Hx. rewrite Hx, (IH F'). reflexivity.
Qed.
Lemma pick_none w l : ~ word_in w l -> pick (lower w) l = None.
Proof.
  induction l as [|x l IH]; intro H; [reflexivity|]. cbn [pick]. destruct (str_eqb (lower (t_word x)) (lower w)) eqn:E.
  - exfalso. apply H. exists x. split; [now left|]. now apply str_eqb_eq.
  - rewrite IH; [reflexivity|]. intros (r & Hr & G). apply H. exists r. split; [now right|exact G].
Qed.
Lemma pick_some w l : word_in w l -> exists l1 r l2, l = l1 ++ r :: l2 /\ low_is (t_word r) w /\ pick (lower w) l = Some (r, l1 ++ l2).
Proof.
  induction l as [|x l IH]; intros (r & Hr & G); [destruct Hr|]. cbn [pick]. destruct (str_eqb (lower (t_word x)) (lower w)) eqn:E.
  - exists [], x, l. split; [reflexivity|]. split; [now apply str_eqb_eq|reflexivity].
  - destruct Hr as [->|Hr]; [apply str_eqb_neq in E; contradiction|]. destruct (IH (ex_intro _ r (conj Hr G))) as (l1 & r' & l2 & -> & L & P).
    exists (x :: l1), r', l2. split; [reflexivity|]. split; [exact L|]. now rewrite P.
Qed.
Definition row_fact (r : trow) : bool :=
  forallb label_char (t_name r) && nonempty (t_name r) && negb (str_eqb (lower (t_name r)) (S_ "afcoeff")) && (t_offset r =? 0) && (1 <=? t_heads r).
Lemma first_facts r : In r first_word_tables -> forallb label_char (t_name r) = true /\ nonempty (t_name r) = true /\ t_offset r = 0 /\ 1 <= t_heads r.
Proof.
  intro H. assert (F : forallb row_fact first_word_tables = true) by reflexivity. rewrite forallb_forall in F. apply F in H. unfold row_fact in H.
  repeat (apply andb_inv in H; destruct H as [H ?]). apply Nat.eqb_eq in H1. apply Nat.leb_le in H0. auto.
Qed.
Lemma second_facts r : In r second_word_tables -> ~ low_is (t_word r) (S_ "NumAlf") -> t_heads r <> 0 ->
  forallb label_char (t_name r) = true /\ nonempty (t_name r) = true /\ str_eqb (lower (t_name r)) (S_ "afcoeff") = false /\ t_offset r = 0 /\ t_heads r = 2.
Proof.
  intros H H1 H2. assert (F : forallb (fun r => str_eqb (lower (t_word r)) (S_ "numalf") || (t_heads r =? 0) || (row_fact r && (t_heads r =? 2))) second_word_tables = true) by reflexivity.
  rewrite forallb_forall in F. apply F in H. apply orb_prop in H. destruct H as [H|H].
  - apply orb_prop in H. destruct H as [H|H]; [apply str_eqb_eq in H; contradiction|apply Nat.eqb_eq in H; contradiction].
  - apply andb_inv in H. destruct H as [H G]. apply Nat.eqb_eq in G. unfold row_fact in H. repeat (apply andb_inv in H; destruct H as [H ?]).
    apply Nat.eqb_eq in H3. apply negb_true_iff in H4. auto.
Qed.
Lemma alf_row r : In r second_word_tables -> low_is (t_word r) (S_ "NumAlf") -> r = row "NumAlf" (N_ "NumAlf") "AFCoeff" 2 true.
Proof.
  intros H L. unfold low_is in L. cbn in H. repeat (destruct H as [<-|H]; [try reflexivity; exfalso; vm_compute in L; discriminate L|]). destruct H.
Qed.
Lemma guyan_row r : In r second_word_tables -> low_is (t_word r) (S_ "GuyanDampSize") -> r = mk_trow (S_ "GuyanDampSize") (Const 6) (S_ "GuyanDampMatrix") 0 1 true.
Proof.
  intros H L. unfold low_is in L. cbn in H. repeat (destruct H as [<-|H]; [try reflexivity; exfalso; vm_compute in L; discriminate L|]). destruct H.
Qed.
Lemma firstn_mid {A} (a b c : list A) : firstn (List.length b) (skipn (List.length a) (a ++ b ++ c)) = b.
Proof. rewrite FASTIn_File.skipn_exact, firstn_app, firstn_all, Nat.sub_diag. cbn. apply app_nil_r. Qed.
Lemma lines_join ls : ls <> [] -> Forall oneline ls -> lines_of (join [nl] ls) = ls.
Proof. intros H F. unfold lines_of. rewrite unlines_join by exact H. now apply splitlines_un. Qed.
Lemma parse_words R allow raw v lab ds : value_ok R v -> label_ok lab -> forallb is_token ds = true -> split_ws raw = split_ws (str_val0 v) ++ lab :: ds ->
  parse_line R allow raw = Ok (mkItem v lab false (join [sp] ds) NOT_A_TAB).
Proof.
  intros Hv Hl Hds W. destruct (value_text R v lab ds Hv Hl Hds) as [A1 [A2 [A3 [A4 [A5 [A6 A7]]]]]].
  erewrite parse_scalar; [|exact W|exact A1|exact A2|exact A3|exact Hl|exact A4|exact A5|].
  - rewrite A7. reflexivity.
  - destruct A6 as [vs [ps [A6 L]]]. exists vs, ps. split; [|exact L]. rewrite W, join_app by (try exact A1; discriminate). rewrite <- A2. exact A6.
Qed.
Lemma section_none l : no_section l -> outlist_line l = false /\ ssoutlist_line l = false /\ stiff_line l = false /\ dist_line l = false.
Proof. intros (A & B & C). unfold section_line in C. apply orb_false_elim in C. destruct C. auto. Qed.

Section Spec.
Context {V : Type}.
Variable num : str -> option V.
Variable zero : V.
Variable R : str -> str.
Variables fnum fexp fstr fspan fmat : V -> str.
Variables rnum rexp rstr : V -> V.
Context {nodal : bool}.
Let entry := FASTFile_Model.entry V.
Local Notation digits := "0123456789+-.e"%string.
Local Notation paren_ := (fun u => S_ "(" ++ u ++ S_ ")").

(** The value that a key has in the entries already read: the first entry with that label, in any case, is an ordinary line with
    that value *)
Definition has_value (before : list entry) (k : str) (v : val) : Prop :=
  exists b1 d b2, before = b1 ++ Item d :: b2 /\ low_is (it_label d) k /\ it_value d = v /\ Forall (fun e => ~ low_is (label_of e) k) b1.
Definition has_rows (before : list entry) (k : dimvar) (n : nat) : Prop :=
  match k with Const m => n = m | Key k => has_value before k (VInt (Z.of_nat n)) end.

(** The number of key points of a BeamDyn file has been read *)
Definition has_points (before : list entry) : Prop := exists d, In (Item d) before /\ it_tab d = NOT_A_TAB /\ low_is (it_label d) (S_ "kp_total").

(** The lines that are not tables: the lines of property C25, except the words that announce a table *)
Definition line_ok (before : list entry) (d : item) : Prop :=
  FASTIn_Props.entry R d /\ no_linebreak (item_str d) = true /\ no_section (item_str d) /\
  (it_comment d = false -> forallb label_char (it_label d) = true) /\
  (forall s, it_value d = VStr s -> ~ word_in s first_word_tables) /\ ~ word_in (it_label d) second_word_tables /\
  (forall p, In p file_lists -> ~ low_is (fst p) (it_label d)) /\
  (low_is (it_label d) (S_ "NumCoords") -> (exists s, it_value d = VStr s) \/ (exists z, it_value d = VInt z /\ (z <= 0)%Z)) /\
  (low_is (it_label d) (S_ "Re") -> it_label d = S_ "re" /\ exists z, has_value before (S_ "NumTabs") (VInt z) /\ (z <= 1)%Z).

(** The content of a table with its header: the values, the names and units, and the values that are read back (numbers are
    rounded by the format they are written with) *)
Inductive content (r : trow) : values V -> list str -> option (list str) -> nat -> values V -> Prop :=
| content_num names units rows : t_numeric r = true -> t_heads r = 2 -> List.length units = List.length names -> Forall good_unit units ->
    rect (List.length names) rows -> Forall (Forall (writes num digits fnum rnum)) rows ->
    content r (Nums rows) names (Some (map paren_ units)) (List.length rows) (Nums (map (map rnum) rows))
| content_num1 names rows : t_numeric r = true -> t_heads r = 1 ->
    rect (List.length names) rows -> Forall (Forall (writes num digits fnum rnum)) rows ->
    content r (Nums rows) names None (List.length rows) (Nums (map (map rnum) rows))
| content_text names units rows : t_numeric r = false -> t_heads r = 2 -> List.length units = List.length names -> Forall good_unit units ->
    rect (List.length names) rows -> Forall good_row rows -> (exists x w, In x rows /\ In w x /\ num w = None) ->
    content r (Cells (map (map Word) rows)) names (Some (map paren_ units)) (List.length rows) (Cells (map (map Word) rows))
| content_text_num names units rows : t_numeric r = false -> t_heads r = 2 -> List.length units = List.length names -> Forall good_unit units ->
    rows <> [] -> rect (List.length names) rows -> Forall (Forall (fun v => good_cell (fstr v) /\ num (fstr v) = Some (rstr v))) rows ->
    Forall (fun x => match x with v :: _ => startswith (fstr v) (S_ "---") = false | [] => True end) rows ->
    content r (Nums rows) names (Some (map paren_ units)) (List.length rows) (Nums (map (map rstr) rows))
| content_text_none names units : t_numeric r = false -> t_heads r = 2 -> List.length units = List.length names -> Forall good_unit units ->
    content r (Nums []) names (Some (map paren_ units)) 0 (Nums [])
| content_text1 names rows : t_numeric r = false -> t_heads r = 1 -> rows <> [] ->
    rect (List.length names) rows -> Forall good_row rows -> (exists x w, In x rows /\ In w x /\ num w = None) ->
    content r (Cells (map (map Word) rows)) names None (List.length rows) (Cells (map (map Word) rows)).

(** The names of the columns form a line whose first word is a text and whose second word can be a label *)
Definition heading_ok (a b : str) (rest : list str) : Prop :=
  Forall good_name (a :: b :: rest) /\ plain_text a /\ label_ok b /\ no_section (heading (a :: b :: rest)) /\
  ~ low_is b (S_ "kp_total") /\ ~ low_is b (S_ "numcoords") /\ ~ low_is b (S_ "re").
(** An ordinary line whose label announces what follows *)
Definition announces (d : item) (label : str) : Prop :=
  FASTIn_Props.entry R d /\ it_comment d = false /\ no_linebreak (item_str d) = true /\ no_section (item_str d) /\ low_is (it_label d) label.
Definition kind_ (r : trow) : tkind := if t_numeric r then NumHeader else MixHeader.

(** [blocks vals labs before es es']: the entries [es] can follow the entries [before], when the tables [vals] and [labs] have
    not been used yet; [es'] is what they become *)
Inductive blocks : list trow -> list trow -> list entry -> list entry -> list entry -> Prop :=
| b_nil vals labs before : blocks vals labs before [] []
| b_line vals labs before d es es' : line_ok before d ->
    blocks vals labs (before ++ [Item d]) es es' -> blocks vals labs before (Item d :: es) (Item d :: es')
| b_points vals labs before m n lab ws es es' : has_points before -> label_ok lab -> forallb label_char lab = true -> descr_words ws -> ~ In comma (join [sp] ws) ->
    ~ word_in lab second_word_tables -> (forall p, In p file_lists -> ~ low_is (fst p) lab) -> ~ low_is lab (S_ "NumCoords") -> ~ low_is lab (S_ "Re") ->
    (let d := mkItem (VStr (str_of_Z m ++ [sp] ++ str_of_Z n)) lab false (join [sp] (S_ "-" :: ws)) NOT_A_TAB in
     no_linebreak (item_str d) = true -> no_section (item_str d) ->
     blocks vals labs (before ++ [Item d]) es es' -> blocks vals labs before (Item d :: es) (Item d :: es'))
| b_first v1 r v2 labs before a b rest v units n v' es es' :
    heading_ok a b rest -> low_is a (t_word r) -> Forall (fun x => ~ low_is (t_word x) (t_word r)) v1 ->
    content r v (a :: b :: rest) units n v' -> has_rows before (t_dim r) n ->
    (let t x := Tab (t_name r) (join [sp] rest) (kind_ r) (t_dim r) x (Some (a :: b :: rest)) units in
     blocks (v1 ++ v2) labs (before ++ [t v']) es es' -> blocks (v1 ++ r :: v2) labs before (t v :: es) (t v' :: es'))
| b_second vals l1 r l2 before a b rest v units n v' es es' :
    heading_ok a b rest -> ~ word_in a vals -> low_is b (t_word r) -> ~ low_is b (S_ "NumAlf") -> Forall (fun x => ~ low_is (t_word x) (t_word r)) l1 ->
    content r v (a :: b :: rest) units n v' -> has_rows before (t_dim r) n ->
    (let t x := Tab (t_name r) (join [sp] rest) (kind_ r) (t_dim r) x (Some (a :: b :: rest)) units in
     blocks vals (l1 ++ l2) (before ++ [t v']) es es' -> blocks vals (l1 ++ r :: l2) before (t v :: es) (t v' :: es'))
| b_polar vals labs before d names units rows es es' :
    announces d (S_ "NumAlf") -> it_value d = VInt (Z.of_nat (List.length rows)) -> has_value (before ++ [Item d]) (S_ "NumAlf") (it_value d) ->
    names <> [] -> Forall good_name names -> List.length units = List.length names -> Forall good_unit units ->
    rows <> [] -> rect (List.length names) rows -> Forall (Forall (writes num digits fexp rexp)) rows ->
    (exists r, In r labs /\ low_is (t_word r) (S_ "NumAlf")) ->
    (let t x := Tab (S_ "AFCoeff") [] NumCom (N_ "NumAlf") (Nums x) (Some names) (Some (map paren_ units)) in
     blocks vals labs (before ++ [Item d; t (map (map rexp) rows)]) es es' ->
     blocks vals labs before (Item d :: t rows :: es) (Item d :: t (map (map rexp) rows) :: es'))
| b_matrix vals l1 r l2 before d c rows es es' :
    announces d (S_ "GuyanDampSize") -> (forall s, it_value d = VStr s -> ~ word_in s vals) ->
    low_is (t_word r) (S_ "GuyanDampSize") -> Forall (fun x => ~ low_is (t_word x) (S_ "GuyanDampSize")) l1 -> List.length rows = 6 -> 0 < c -> rect c rows -> Forall (Forall (writes num digits fnum rnum)) rows ->
    (let t x := Tab (S_ "GuyanDampMatrix") (it_descr d) NumHeader (Const 6) (Nums x) None None in
     blocks vals (l1 ++ l2) (before ++ [Item d; t (map (map rnum) rows)]) es es' ->
     blocks vals (l1 ++ r :: l2) before (Item d :: t rows :: es) (Item d :: t (map (map rnum) rows) :: es'))
| b_files vals labs before name k f fs ws es es' :
    In (name, k) file_lists -> value_ok R (VStr f) -> is_token f = true -> ~ word_in f vals -> fs <> [] -> forallb is_token fs = true -> forallb is_token ws = true ->
    no_section (f ++ [sp] ++ name ++ [sp] ++ join [sp] ws) -> has_value before k (VInt (Z.of_nat (S (List.length fs)))) ->
    (let d := Item (mkItem (VList (map VStr (f :: fs))) name false (join [sp] ws) TAB_FIL) in
     blocks vals labs (before ++ [d]) es es' -> blocks vals labs before (d :: es) (d :: es')).

(** How the file ends: with the last line or table, with a list of output channels, with that of SubDyn *)
Inductive ending : list entry -> Prop :=
| end_here : ending []
| end_outputs lab descr o : let header := S_ " " ++ lab ++ S_ " " ++ descr in
    outlist_line header = true -> existsb is_word header = true -> firstword header = lab -> remainer header = descr -> no_linebreak header = true ->
    o <> [] -> List.length o <= 200 -> Forall (fun l => ~ starts_end l /\ no_linebreak l = true) o ->
    ending (map Item [mkItem (VList (map VStr ([] :: o))) lab false descr TAB_FIL; end_item; dash_item])
| end_subdyn d o : FASTIn_Props.entry R d -> no_linebreak (item_str d) = true -> outlist_line (item_str d) = false -> ssoutlist_line (item_str d) = true ->
    List.length o <= 200 -> Forall (fun l => ~ starts_end l /\ no_linebreak l = true) o ->
    ending (map Item (d :: map comment_item o ++ [end_item; dash_item])).

(** *** The loop *)
Definition nC (es : list entry) : nat := List.length (filter comment_of es).
Record ready (st : fstate V) (before : list entry) (c : nat) (vals labs : list trow) : Prop := mk_ready
  { rd_items : s_items st = before; rd_comments : s_comments st = c; rd_wrong : s_wrong st = 0; rd_nodal : s_nodal st = nodal;
    rd_off : s_off st = []; rd_vals : s_vals st = vals; rd_labs : s_labs st = labs;
    rd_allow : has_points before -> s_allow st = true }.
Lemma find_value before k v : has_value before k v -> exists d, find_entry before k = Some (Item d) /\ it_value d = v.
Proof.
  intros (b1 & d & b2 & -> & L & E & F). exists d. split; [|exact E]. unfold find_entry. induction b1 as [|x b1 IH]; cbn [app find].
  - unfold label_of. unfold low_is in L. rewrite L, str_eqb_refl. reflexivity.
  - inversion F as [|? ? Hx F']; subst. apply str_eqb_neq in Hx. rewrite Hx. now apply IH.
Qed.
Lemma count_rows before k n : has_rows before k n -> dim_of before [] k = Some (Ok (Z.of_nat n)).
Proof.
  destruct k as [k|m]; cbn [has_rows dim_of]; [|intros ->; reflexivity]. intro H. apply find_value in H. destruct H as (d & E & Ev).
  unfold count_of. rewrite app_nil_r, E, Ev. reflexivity.
Qed.
Lemma points_before b d : ~ low_is (it_label d) (S_ "kp_total") -> has_points (b ++ [Item d]) -> has_points b.
Proof. intros N (x & H & T & L). apply in_app_or in H. destruct H as [H|[H|[]]]; [exists x; auto|]. injection H as <-. contradiction. Qed.
(** The safety checks let an entry pass *)
Lemma fcheck_ok nl_ i e st b c vals labs : ready st b c vals labs -> 100 * (c + nC [e]) <= 35 * nl_ ->
  (comment_of e = false -> forallb label_char (label_of e) = true /\ label_of e <> []) ->
  (forall d, e = Item d -> it_tab d = NOT_A_TAB -> low_is (it_label d) (S_ "kp_total") -> s_allow st = true) ->
  exists st', fcheck nl_ i e st = Ok st' /\ ready st' (b ++ [e]) (c + nC [e]) vals labs /\ s_allow st' = s_allow st.
Proof.
  intros [Hi Hc Hw Hn Ho Hv Hl Ha] Hlim Hlab Hkp. unfold fcheck. rewrite Hi, Hc, Hw.
  assert (Hcc : (if comment_of e then S c else c) = c + nC [e]) by (unfold nC; cbn [filter]; destruct (comment_of e); cbn [List.length]; lia).
  rewrite Hcc. assert (L1 : (35 * nl_ <? 100 * (c + nC [e])) = false) by (apply Nat.ltb_ge; exact Hlim). rewrite L1.
  assert (S1 : negb (comment_of e) && hasSpecialChars (label_of e) = false /\ negb (comment_of e) && negb (nonempty (label_of e)) = false).
  { destruct (comment_of e) eqn:E; [split; reflexivity|]. destruct (Hlab eq_refl) as [A B]. unfold hasSpecialChars. rewrite A. split; [reflexivity|]. destruct (label_of e); [contradiction|reflexivity]. }
  destruct S1 as [-> ->]. cbn [andb plus Nat.mul Nat.ltb]. replace (nl_ <? 0) with false by reflexivity.
  eexists. split; [reflexivity|]. split; [|reflexivity]. constructor; cbn; auto.
  intros (d & Hd & Td & Ld). apply in_app_or in Hd. destruct Hd as [Hd|[Hd|[]]]; [apply Ha; exists d; auto|now apply (Hkp d)].
Qed.
Lemma standard_line (lines : list str) i st l d : nth_error lines i = Some l -> (forall allow, parse_line R allow l = Ok d) -> s_off st = [] ->
  lower (it_label d) <> S_ "kp_total" -> lower (it_label d) <> S_ "numcoords" -> lower (it_label d) <> S_ "re" ->
  standard num zero R lines i st = tables num zero lines i (lower (it_label d)) d st.
Proof.
  intros N P O A1 A2 A3. unfold standard, line_at. rewrite N. cbn [bind]. rewrite P, O. apply str_eqb_neq in A1. apply str_eqb_neq in A2. apply str_eqb_neq in A3.
  rewrite A1, A2, A3. unfold relabel. rewrite app_nil_r. destruct d; reflexivity.
Qed.
Lemma turn_standard lines i l st : no_section l -> turn num zero R lines i l st = standard num zero R lines i st.
Proof. intro H. apply section_none in H. destruct H as (A & B & C & D). unfold turn. now rewrite A, B, C, D. Qed.

(** An ordinary line *)
Lemma turn_line lines i st b c vals labs d : ready st b c vals labs -> incl vals first_word_tables -> incl labs second_word_tables -> line_ok b d ->
  nth_error lines i = Some (item_str d) -> 100 * (c + nC [Item d]) <= 35 * List.length lines ->
  exists st', turn num zero R lines i (item_str d) st = Some (Ok (Go (S i) st')) /\ ready st' (b ++ [Item d]) (c + nC [Item d]) vals labs.
Proof.
  intros Rd Iv Il (He & Hn & Hs & Hlab & Hval & Hl2 & Hf & Hnc & Hre) N Hlim. rewrite turn_standard by exact Hs.
  assert (P := FASTIn_Props.entry_parse R d He).
  assert (T : forall st0, ready st0 b c vals labs -> (low_is (it_label d) (S_ "kp_total") -> s_allow st0 = true) -> exists st', tables num zero lines i (lower (it_label d)) d st0 = Some (Ok (Go (S i) st')) /\ ready st' (b ++ [Item d]) (c + nC [Item d]) vals labs).
  { intros st0 R0 A0. unfold tables. destruct (R0) as [Hi Hc Hw Hnd Ho Hv Hl Hal]. rewrite Hv, Hl.
    replace (match it_value d with VStr s => pick (lower s) vals | _ => None end) with (@None (trow * list trow)).
    2: { destruct (it_value d) as [| | |t|] eqn:E; try reflexivity. symmetry. apply pick_none. intros (r & Hr & G). apply (Hval t eq_refl). exists r. split; [now apply Iv|exact G]. }
    rewrite pick_none by (intros (r & Hr & G); apply Hl2; exists r; split; [now apply Il|exact G]).
    replace (find _ file_rows) with (@None (str * str)).
    2: { symmetry. destruct (find _ file_rows) as [q|] eqn:E; [|reflexivity]. apply find_some in E. destruct E as [E1 E2]. exfalso. apply (Hf q); [exact E1|]. now apply str_eqb_eq. }
    unfold go. destruct (fcheck_ok (List.length lines) (S i) (Item d) st0 b c vals labs R0 Hlim) as (st' & -> & R' & _).
    - cbn [comment_of label_of]. intro G. split; [exact (Hlab G)|]. destruct He as [t Ht|v lab ws H1 H2 H3|vs lab ws H1 H2 H3 H4 H5]; cbn in G |- *; [discriminate| |]; apply token_nonnil; [apply H2|apply H4].
    - intros d0 Q _. injection Q as <-. exact A0.
    - exists st'. split; [reflexivity|exact R']. }
  unfold standard, line_at. rewrite N. cbn [bind]. rewrite P. destruct Rd as [Hi Hc Hw Hnd Ho Hv Hl Hal]. rewrite Ho. unfold relabel. rewrite app_nil_r.
  replace {| it_value := it_value d; it_label := it_label d; it_comment := it_comment d; it_descr := it_descr d; it_tab := it_tab d |} with d by (destruct d; reflexivity).
  destruct (str_eqb (lower (it_label d)) (S_ "kp_total")) eqn:E1; [apply T; [constructor; try assumption; reflexivity|reflexivity]|]. apply str_eqb_neq in E1.
  destruct (str_eqb (lower (it_label d)) (S_ "numcoords")) eqn:E2.
  { apply str_eqb_eq in E2. destruct (Hnc E2) as [[t Et]|[z [Et Hz]]]; rewrite Et.
    - apply T; [constructor; assumption|contradiction].
    - apply Z.leb_le in Hz. rewrite Hz. apply T; [constructor; assumption|contradiction]. }
  destruct (str_eqb (lower (it_label d)) (S_ "re")) eqn:E3.
  2: { apply T; [constructor; assumption|contradiction]. }
  apply str_eqb_eq in E3. destruct (Hre E3) as [El (z & Hz & Lz)]. apply find_value in Hz. destruct Hz as (dt & F1 & F2). rewrite Hi, F1, F2.
  replace (1 <? z)%Z with false by (symmetry; apply Z.ltb_ge; exact Lz). rewrite app_nil_r, E3.
  replace {| it_value := it_value d; it_label := S_ "re"; it_comment := it_comment d; it_descr := it_descr d; it_tab := it_tab d |} with d by (destruct d; cbn in El |- *; now subst).
  destruct (T (set_off [] (S (s_itab st)) st)) as (st' & E & R'); [constructor; cbn; auto|contradiction|]. exists st'. split; [|exact R']. rewrite <- E, E3. reflexivity.
Qed.

(** A line with two numbers after the number of key points *)
Lemma turn_points lines i st b c vals labs m n lab ws : ready st b c vals labs -> incl vals first_word_tables -> incl labs second_word_tables ->
  has_points b -> label_ok lab -> forallb label_char lab = true -> descr_words ws -> ~ In comma (join [sp] ws) ->
  ~ word_in lab second_word_tables -> (forall p, In p file_lists -> ~ low_is (fst p) lab) -> ~ low_is lab (S_ "NumCoords") -> ~ low_is lab (S_ "Re") ->
  let d := mkItem (VStr (str_of_Z m ++ [sp] ++ str_of_Z n)) lab false (join [sp] (S_ "-" :: ws)) NOT_A_TAB in no_section (item_str d) ->
  nth_error lines i = Some (item_str d) -> 100 * (c + nC [Item d]) <= 35 * List.length lines ->
  exists st', turn num zero R lines i (item_str d) st = Some (Ok (Go (S i) st')) /\ ready st' (b ++ [Item d]) (c + nC [Item d]) vals labs.
Proof.
  intros Rd Iv Il Hp Hl Hlc Hw Hcm Hl2 Hf Hnc Hre d Hs N Hlim. rewrite turn_standard by exact Hs.
  assert (Hal : s_allow st = true) by (destruct Rd; auto).
  assert (P : parse_line R true (item_str d) = Ok d).
  { unfold d. change (str_of_Z m ++ [sp] ++ str_of_Z n) with (str_of_Z m ++ sp :: str_of_Z n). rewrite (two_numbers_roundtrip R true m n lab); [|exact Hl|]; destruct (C25_description ws Hw) as [_ ->]; [reflexivity|].
    intro C. destruct ws as [|w ws]; [destruct C as [C|[]]; discriminate C|]. rewrite join_cons in C by discriminate. destruct C as [C|[C|C]]; [discriminate C|discriminate C|contradiction]. }
  assert (T : forall st0, ready st0 b c vals labs -> s_allow st0 = true -> exists st', tables num zero lines i (lower lab) d st0 = Some (Ok (Go (S i) st')) /\ ready st' (b ++ [Item d]) (c + nC [Item d]) vals labs).
  { intros st0 R0 A0. unfold tables. destruct (R0) as [Hi Hc Hw' Hnd Ho Hv Hl' _]. rewrite Hv, Hl'. cbn [it_value d].
    rewrite pick_none.
    2: { intros (r & Hr & G). apply Iv in Hr. assert (F : forallb (fun r => negb (existsb (Ascii.eqb sp) (lower (t_word r)))) first_word_tables = true) by reflexivity.
      rewrite forallb_forall in F. apply F in Hr. apply negb_true_iff in Hr. unfold low_is in G. rewrite G in Hr. unfold lower in Hr. rewrite map_app in Hr. cbn [app map] in Hr. rewrite existsb_app in Hr. apply orb_false_elim in Hr. destruct Hr as [_ Hr]. cbn in Hr. discriminate Hr. }
    rewrite pick_none by (intros (r & Hr & G); apply Hl2; exists r; split; [now apply Il|exact G]). cbn [it_label].
    replace (find _ file_rows) with (@None (str * str)).
    2: { symmetry. destruct (find _ file_rows) as [q|] eqn:E; [|reflexivity]. apply find_some in E. destruct E as [E1 E2]. exfalso. apply (Hf q); [exact E1|]. now apply str_eqb_eq. }
    unfold go. destruct (fcheck_ok (List.length lines) (S i) (Item d) st0 b c vals labs R0 Hlim) as (st' & -> & R' & _).
    - intros _. split; [exact Hlc|]. apply token_nonnil, Hl.
    - intros _ _ _ _. exact A0.
    - exists st'. split; [reflexivity|exact R']. }
  unfold standard, line_at. rewrite N. cbn [bind]. rewrite Hal, P. destruct (Rd) as [Hi Hc Hw' Hnd Ho Hv Hl' _]. rewrite Ho. unfold relabel. rewrite app_nil_r.
  change {| it_value := it_value d; it_label := it_label d; it_comment := it_comment d; it_descr := it_descr d; it_tab := it_tab d |} with d. change (it_label d) with lab.
  destruct (str_eqb (lower lab) (S_ "kp_total")); [apply T; [constructor; cbn; auto|reflexivity]|].
  replace (str_eqb (lower lab) (S_ "numcoords")) with false by (symmetry; apply str_eqb_neq; exact Hnc).
  replace (str_eqb (lower lab) (S_ "re")) with false by (symmetry; apply str_eqb_neq; exact Hre). now apply T.
Qed.

(** *** The text of a table *)
Local Notation entry_str_ := (entry_str fnum fexp fstr fspan fmat).
Definition written (e : entry) (ls : list str) : Prop := entry_str_ e = Ok (join [nl] ls) /\ ls <> [] /\ Forall oneline ls.
Lemma num_str (fmt : V -> str) names us rows : num_table_str fmt (Some names) (Some us) rows = join [nl] (heading names :: heading us :: map (fun r => join [tab] (map fmt r)) rows).
Proof.
  unfold num_table_str, rows_str. destruct rows as [|r rows]; [reflexivity|]. rewrite join_cons by discriminate. rewrite (join_cons _ (heading us)) by discriminate. rewrite <- !app_assoc. reflexivity.
Qed.
Lemma num_str1 (fmt : V -> str) names rows : num_table_str fmt (Some names) None rows = join [nl] (heading names :: map (fun r => join [tab] (map fmt r)) rows).
Proof.
  unfold num_table_str, rows_str. destruct rows as [|r rows]; [cbn [map join]; apply app_nil_r|]. rewrite join_cons by discriminate. rewrite app_nil_r. reflexivity.
Qed.
Lemma rows_oneline fmt rnd rows : Forall (Forall (writes num digits fmt rnd)) rows -> Forall oneline (map (fun r => join [tab] (map fmt r)) rows).
Proof. intro Hw. rewrite Forall_map. revert Hw. apply Forall_impl. intros r H. apply (row_line_words num fmt rnd r H). Qed.
Lemma cells_str rows : map (fun r => join [tab] (map cell_str r)) (map (map Word) rows) = map (join [tab]) rows.
Proof. rewrite map_map. apply map_ext. intro x. f_equal. rewrite map_map. apply map_id. Qed.
Lemma text_rows rows : Forall good_row rows -> Forall oneline (map (join [tab]) rows).
Proof. intro H. rewrite Forall_map. revert H. apply Forall_impl. intros r H. apply (mix_row_words r H). Qed.
(** What is written for a table is read back *)
Lemma content_lines r v names units n v' name descr dim : content r v names units n v' -> names <> [] -> Forall good_name names ->
  exists ls, entry_str_ (Tab name descr (kind_ r) dim v (Some names) units) = Ok (join [nl] (heading names :: ls)) /\ List.length (heading names :: ls) = n + t_heads r /\
    Forall oneline (heading names :: ls) /\ parse_table num zero (t_numeric r) (heading names :: ls) n (t_heads r) 0 = Ok (v', Some names, units).
Proof.
  intros C Hn Gn. pose proof (oneline_heading names (good_name_normal names Gn)) as On.
  destruct C as [names units rows T H Lu Gu Rc W|names rows T H Rc W|names units rows T H Lu Gu Rc W X|names units rows T H Lu Gu Ne Rc W X|names units T H Lu Gu|names rows T H Ne Rc W X]; unfold kind_; rewrite T, H; cbn [entry_str].
  - pose proof (C85_num_table num zero fnum rnum names units rows Hn Gn Lu Gu Rc W) as C. cbv zeta in C. rewrite num_str in C |- *. rewrite lines_join in C; [|discriminate|].
    + exists (heading (map paren_ units) :: map (fun r => join [tab] (map fnum r)) rows). split; [reflexivity|]. split; [cbn [List.length]; rewrite map_length; lia|]. split; [|exact C].
      constructor; [exact On|]. constructor; [apply oneline_heading, (unit_join units Gu)|]. now apply (rows_oneline fnum rnum).
    + constructor; [exact On|]. constructor; [apply oneline_heading, (unit_join units Gu)|]. now apply (rows_oneline fnum rnum).
  - pose proof (C85_num_table_no_units num zero fnum rnum names rows Hn Gn Rc W) as C. cbv zeta in C. rewrite num_str1 in C |- *. rewrite lines_join in C; [|discriminate|].
    + exists (map (fun r => join [tab] (map fnum r)) rows). split; [reflexivity|]. split; [cbn [List.length]; rewrite map_length; lia|]. split; [|exact C].
      constructor; [exact On|]. now apply (rows_oneline fnum rnum).
    + constructor; [exact On|]. now apply (rows_oneline fnum rnum).
  - destruct X as (x & w & X1 & X2 & X3). pose proof (C85_mixed_table num zero fstr names units rows x w Hn Gn Lu Gu Rc W X1 X2 X3) as C. cbv zeta in C.
    assert (E : mix_table_str fstr names (Some (map paren_ units)) (Cells (map (map Word) rows)) = join [nl] (heading names :: heading (map paren_ units) :: map (join [tab]) rows)).
    { unfold mix_table_str, rows_str. destruct rows as [|r0 rows]; [destruct X1|]. rewrite cells_str. cbn [map]. rewrite (join_cons _ (heading names)) by discriminate. rewrite (join_cons _ (heading (map paren_ units))) by discriminate. rewrite <- !app_assoc. reflexivity. }
    rewrite E in C |- *. assert (O : Forall oneline (heading names :: heading (map paren_ units) :: map (join [tab]) rows)) by (constructor; [exact On|]; constructor; [apply oneline_heading, (unit_join units Gu)|]; now apply text_rows).
    rewrite lines_join in C; [|discriminate|exact O]. exists (heading (map paren_ units) :: map (join [tab]) rows). split; [reflexivity|]. split; [cbn [List.length]; rewrite map_length; lia|]. split; [exact O|exact C].
  - pose proof (C85_mixed_numbers num zero fstr rstr names units rows Hn Gn Lu Gu Ne Rc W X) as C. cbv zeta in C.
    assert (E : mix_table_str fstr names (Some (map paren_ units)) (Nums rows) = join [nl] (heading names :: heading (map paren_ units) :: map (fun r => join [tab] (map fstr r)) rows)).
    { unfold mix_table_str, rows_str. destruct rows as [|r0 rows]; [contradiction|]. cbn [map]. rewrite (join_cons _ (heading names)) by discriminate. rewrite (join_cons _ (heading (map paren_ units))) by discriminate. rewrite <- !app_assoc. reflexivity. }
    rewrite E in C |- *. assert (O : Forall oneline (heading names :: heading (map paren_ units) :: map (fun r => join [tab] (map fstr r)) rows)).
    { constructor; [exact On|]. constructor; [apply oneline_heading, (unit_join units Gu)|]. rewrite Forall_map. revert W. apply Forall_impl. intros y Hy. apply oneline_join; [reflexivity|].
      rewrite Forall_map. revert Hy. apply Forall_impl. intros u [[Hu _] _]. now apply oneline_token. }
    rewrite lines_join in C; [|discriminate|exact O]. exists (heading (map paren_ units) :: map (fun r => join [tab] (map fstr r)) rows). split; [reflexivity|]. split; [cbn [List.length]; rewrite map_length; lia|]. split; [exact O|exact C].
  - exists [heading (map paren_ units)]. split; [reflexivity|]. split; [cbn [List.length]; lia|]. split; [constructor; [exact On|]; constructor; [apply oneline_heading, (unit_join units Gu)|constructor]|].
    assert (Hus : units <> []) by (intros ->; destruct names; [contradiction|discriminate]). destruct (unit_join units Gu) as (F1 & F2 & N & St).
    unfold parse_table. cbn [List.length Nat.eqb plus negb bind]. rewrite (names_read _ names Gn) by (rewrite heading_words; apply name_words, Gn). rewrite (units_read _ units) by (try apply heading_words; auto; lia).
    cbn [bind skipn mix_rows]. unfold finish. cbn [h_cols h_names h_units option_map]. rewrite firstn_all, <- Lu. change (fun u => S_ "(" ++ u ++ S_ ")") with paren.
    replace (List.length units) with (List.length (map paren units)) by apply map_length. rewrite firstn_all. unfold settle. cbn [map all_some]. f_equal. f_equal. f_equal. rewrite map_map. apply map_ext_in. intros u Hu. apply no_paren_paren. rewrite Forall_forall in F1. now apply F1.
  - destruct X as (x & w & X1 & X2 & X3).
    assert (E : mix_table_str fstr names None (Cells (map (map Word) rows)) = join [nl] (heading names :: map (join [tab]) rows)).
    { unfold mix_table_str, rows_str. destruct rows as [|r0 rows]; [destruct X1|]. rewrite cells_str. cbn [map]. rewrite (join_cons _ (heading names)) by discriminate. rewrite app_nil_r. reflexivity. }
    rewrite E. exists (map (join [tab]) rows). split; [reflexivity|]. split; [cbn [List.length]; rewrite map_length; lia|]. split; [constructor; [exact On|]; now apply text_rows|].
    unfold parse_table. cbn [List.length]. rewrite map_length. replace (Nat.eqb (S (List.length rows)) (List.length rows + 1 + 0)) with true by (symmetry; apply Nat.eqb_eq; lia). cbn [negb].
    rewrite (names_read _ names Gn) by (rewrite heading_words; apply name_words, Gn). cbn [bind plus skipn]. rewrite mix_rows_ok by assumption. cbn [bind]. unfold finish. cbn [h_cols h_names h_units option_map]. rewrite firstn_all.
    f_equal. f_equal. f_equal. unfold settle. rewrite all_some_none; [reflexivity|]. rewrite map_map. apply in_map_iff. exists x. split; [|exact X1]. rewrite map_map. apply all_some_none, in_map_iff. exists w. split; [exact X3|exact X2].
Qed.
Lemma content_heads r v names units n v' : content r v names units n v' -> t_heads r <> 0.
Proof. intros []; lia. Qed.

(** A table announced by its first word *)
Lemma parse_heading a b rest allow : heading_ok a b rest -> parse_line R allow (heading (a :: b :: rest)) = Ok (mkItem (VStr a) b false (join [sp] rest) NOT_A_TAB).
Proof.
  intros (G & Pa & Lb & _). apply parse_words; [now left|exact Lb| |].
  - apply (tokens_forallb rest). inversion G as [|? ? _ G']; subst. now inversion G'.
  - rewrite heading_words, (name_words _ G). cbn [str_val0]. rewrite split_ws_token by apply Pa. reflexivity.
Qed.
Lemma block_here pre ls tail r n : List.length ls = n + t_heads r + t_offset r ->
  block num zero (pre ++ ls ++ tail) (List.length pre) r (Z.of_nat n) = parse_table num zero (t_numeric r) ls n (t_heads r) (t_offset r).
Proof.
  intro L. unfold block. replace (Z.of_nat n <? 0)%Z with false by (symmetry; apply Z.ltb_ge; lia). rewrite Nat2Z.id, <- L, firstn_mid. reflexivity.
Qed.
Lemma turn_first pre tail st b c v1 r v2 labs a bb rest v units n v' : ready st b c (v1 ++ r :: v2) labs -> In r first_word_tables ->
  heading_ok a bb rest -> low_is a (t_word r) -> Forall (fun x => ~ low_is (t_word x) (t_word r)) v1 ->
  content r v (a :: bb :: rest) units n v' -> has_rows b (t_dim r) n ->
  let t x := Tab (t_name r) (join [sp] rest) (kind_ r) (t_dim r) x (Some (a :: bb :: rest)) units in
  exists ls, written (t v) ls /\
    (let lines := pre ++ ls ++ tail in 100 * c <= 35 * List.length lines ->
     exists l0 st', nth_error lines (List.length pre) = Some l0 /\ turn num zero R lines (List.length pre) l0 st = Some (Ok (Go (List.length pre + List.length ls) st')) /\ ready st' (b ++ [t v']) c (v1 ++ v2) labs).
Proof.
  intros Rd Ir Hh La Fv Cn Hr t. destruct Hh as (G & Pa & Lb & Hs & B1 & B2 & B3).
  destruct (content_lines r v _ units n v' (t_name r) (join [sp] rest) (t_dim r) Cn ltac:(discriminate) G) as (ls & E & Lls & O & Pt).
  exists (heading (a :: bb :: rest) :: ls). split; [split; [exact E|]; split; [discriminate|exact O]|]. cbv zeta. intro Hlim.
  set (lines := pre ++ (heading (a :: bb :: rest) :: ls) ++ tail) in *. exists (heading (a :: bb :: rest)).
  assert (N : nth_error lines (List.length pre) = Some (heading (a :: bb :: rest))) by (unfold lines; cbn [app]; apply nth_error_mid).
  destruct (first_facts r Ir) as (F1 & F2 & F3 & F4). destruct (Rd) as [Hi Hc Hw Hnd Ho Hv Hl Hal].
  assert (T : turn num zero R lines (List.length pre) (heading (a :: bb :: rest)) st =
     Some (go lines (List.length pre + n + t_heads r) (t v') (set_vals (v1 ++ v2) st))).
  { rewrite turn_standard by exact Hs. rewrite (standard_line lines _ st _ _ N (fun al => parse_heading a bb rest al (conj G (conj Pa (conj Lb (conj Hs (conj B1 (conj B2 B3)))))))) by assumption.
    unfold tables. cbn [it_value it_label it_comment it_descr]. rewrite Hv. replace (lower a) with (lower (t_word r)) by (symmetry; exact La).
    rewrite pick_here; [|reflexivity|exact Fv]. rewrite Hi, (count_rows b _ n Hr). unfold lines. cbn [bind]. rewrite block_here by (rewrite F3; lia). rewrite F3, Pt. cbn [bind].
    rewrite Ho, app_nil_r, Nat2Z.id. reflexivity. }
  rewrite T. unfold go. destruct (fcheck_ok (List.length lines) (List.length pre + n + t_heads r) (t v') (set_vals (v1 ++ v2) st) b c (v1 ++ v2) labs) as (st' & E' & R' & _).
  - constructor; cbn; auto.
  - cbn. lia.
  - intros _. cbn. split; [exact F1|]. destruct (t_name r); [discriminate|discriminate].
  - discriminate.
  - exists st'. split; [exact N|]. rewrite E'. cbn [bind]. cbn [nC filter comment_of t List.length] in R'. unfold nC in R'. cbn in R'. rewrite Nat.add_0_r in R'. split; [|exact R'].
    f_equal. f_equal. f_equal. rewrite Lls. lia.
Qed.
(** A table announced by its second word *)
Lemma turn_second pre tail st b c vals l1 r l2 a bb rest v units n v' : ready st b c vals (l1 ++ r :: l2) -> In r second_word_tables ->
  heading_ok a bb rest -> ~ word_in a vals -> low_is bb (t_word r) -> ~ low_is bb (S_ "NumAlf") -> Forall (fun x => ~ low_is (t_word x) (t_word r)) l1 ->
  content r v (a :: bb :: rest) units n v' -> has_rows b (t_dim r) n ->
  let t x := Tab (t_name r) (join [sp] rest) (kind_ r) (t_dim r) x (Some (a :: bb :: rest)) units in
  exists ls, written (t v) ls /\
    (let lines := pre ++ ls ++ tail in 100 * c <= 35 * List.length lines ->
     exists l0 st', nth_error lines (List.length pre) = Some l0 /\ turn num zero R lines (List.length pre) l0 st = Some (Ok (Go (List.length pre + List.length ls) st')) /\ ready st' (b ++ [t v']) c vals (l1 ++ l2)).
Proof.
  intros Rd Ir Hh Na La Nalf Fv Cn Hr t. destruct Hh as (G & Pa & Lb & Hs & B1 & B2 & B3).
  destruct (content_lines r v _ units n v' (t_name r) (join [sp] rest) (t_dim r) Cn ltac:(discriminate) G) as (ls & E & Lls & O & Pt).
  exists (heading (a :: bb :: rest) :: ls). split; [split; [exact E|]; split; [discriminate|exact O]|]. cbv zeta. intro Hlim.
  set (lines := pre ++ (heading (a :: bb :: rest) :: ls) ++ tail) in *. exists (heading (a :: bb :: rest)).
  assert (N : nth_error lines (List.length pre) = Some (heading (a :: bb :: rest))) by (unfold lines; cbn [app]; apply nth_error_mid).
  destruct (second_facts r Ir) as (F1 & F2 & F2' & F3 & F4); [intro Q; apply Nalf; unfold low_is in *; congruence|apply (content_heads r v _ units n v' Cn)|].
  destruct (Rd) as [Hi Hc Hw Hnd Ho Hv Hl Hal].
  assert (Ha : str_eqb (lower bb) (S_ "numalf") = false) by (apply str_eqb_neq; exact Nalf).
  assert (T : turn num zero R lines (List.length pre) (heading (a :: bb :: rest)) st =
     Some (go lines (List.length pre + n + t_heads r) (t v') (set_labs (l1 ++ l2) st))).
  { rewrite turn_standard by exact Hs. rewrite (standard_line lines _ st _ _ N (fun al => parse_heading a bb rest al (conj G (conj Pa (conj Lb (conj Hs (conj B1 (conj B2 B3)))))))) by assumption.
    unfold tables. cbn [it_value it_label it_comment it_descr]. rewrite Hv, Hl, Ho, (pick_none a vals Na). rewrite Ha. replace (lower bb) with (lower (t_word r)) by (symmetry; exact La).
    rewrite pick_here; [|reflexivity|exact Fv]. rewrite F3. cbn [Nat.ltb Nat.leb]. rewrite Hi, (count_rows b _ n Hr). unfold lines. cbn [bind]. rewrite block_here by (rewrite F3; lia). rewrite F3, Pt. cbn [bind].
    rewrite app_nil_r, Nat2Z.id, F2'. f_equal. replace (S (List.length pre + n + 1 - 0)) with (List.length pre + n + t_heads r) by lia. reflexivity. }
  rewrite T. unfold go. destruct (fcheck_ok (List.length lines) (List.length pre + n + t_heads r) (t v') (set_labs (l1 ++ l2) st) b c vals (l1 ++ l2)) as (st' & E' & R' & _).
  - constructor; cbn; auto.
  - cbn. lia.
  - intros _. cbn. split; [exact F1|]. destruct (t_name r); [discriminate|discriminate].
  - discriminate.
  - exists st'. split; [exact N|]. rewrite E'. cbn [bind]. cbn [nC filter comment_of t List.length] in R'. unfold nC in R'. cbn in R'. rewrite Nat.add_0_r in R'. split; [|exact R'].
    f_equal. f_equal. f_equal. rewrite Lls. lia.
Qed.
(** Lines that stand alone *)
Lemma entry_tab d : FASTIn_Props.entry R d -> it_tab d = NOT_A_TAB.
Proof. intros []; reflexivity. Qed.
Lemma item_written d : FASTIn_Props.entry R d -> no_linebreak (item_str d) = true -> written (Item d) [item_str d].
Proof.
  intros He Hn. split; [|split; [discriminate|constructor; [exact Hn|constructor]]]. cbn [entry_str join]. rewrite (entry_tab d He). destruct (it_comment d); reflexivity.
Qed.
Lemma other_labels x y : low_is x y -> forallb (fun w => negb (str_eqb (lower y) (S_ w))) ["kp_total"; "numcoords"; "re"]%string = true ->
  lower x <> S_ "kp_total" /\ lower x <> S_ "numcoords" /\ lower x <> S_ "re".
Proof.
  intros L H. unfold low_is in L. rewrite L. cbn [forallb] in H. apply andb_inv in H. destruct H as [H1 H]. apply andb_inv in H. destruct H as [H2 H]. apply andb_inv in H. destruct H as [H3 _].
  apply negb_true_iff in H1, H2, H3. apply str_eqb_neq in H1, H2, H3. auto.
Qed.
(** The coefficients of an airfoil *)
Lemma turn_polar pre tail st b c vals labs d names units rows : ready st b c vals labs -> incl labs second_word_tables ->
  announces d (S_ "NumAlf") -> it_value d = VInt (Z.of_nat (List.length rows)) -> has_value (b ++ [Item d]) (S_ "NumAlf") (it_value d) ->
  names <> [] -> Forall good_name names -> List.length units = List.length names -> Forall good_unit units ->
  rows <> [] -> rect (List.length names) rows -> Forall (Forall (writes num digits fexp rexp)) rows ->
  (exists r, In r labs /\ low_is (t_word r) (S_ "NumAlf")) ->
  let t x := Tab (S_ "AFCoeff") [] NumCom (N_ "NumAlf") (Nums x) (Some names) (Some (map paren_ units)) in
  exists ls, written (Item d) [item_str d] /\ written (t rows) ls /\
    (let lines := pre ++ ([item_str d] ++ ls) ++ tail in 100 * c <= 35 * List.length lines ->
     exists l0 st', nth_error lines (List.length pre) = Some l0 /\ turn num zero R lines (List.length pre) l0 st = Some (Ok (Go (List.length pre + List.length ([item_str d] ++ ls)) st')) /\
       ready st' (b ++ [Item d; t (map (map rexp) rows)]) c vals labs).
Proof.
  intros Rd Il (He & Hc0 & Hnl & Hs & Hlab) Hval Hhas Hn Gn Lu Gu Hrows Rc W Hr t.
  set (hs := (S_ "! " ++ heading names) :: (S_ "! " ++ heading (map paren_ units)) :: map (fun r => join [tab] (map fexp r)) rows).
  assert (E : com_table_str fexp names (map paren_ units) rows = join [nl] hs).
  { unfold com_table_str, rows_str, hs. destruct rows as [|r rows]; [contradiction|]. rewrite (join_cons _ (S_ "! " ++ heading names)) by discriminate. rewrite (join_cons _ (S_ "! " ++ heading (map paren_ units))) by discriminate. rewrite <- !app_assoc. reflexivity. }
  assert (O : Forall oneline hs).
  { unfold hs. constructor; [apply oneline_app; split; [reflexivity|]; apply oneline_heading, good_name_normal, Gn|].
    constructor; [apply oneline_app; split; [reflexivity|]; apply oneline_heading, (unit_join units Gu)|]. now apply (rows_oneline fexp rexp). }
  pose proof (C85_commented_table num zero fexp rexp names units rows Hn Gn Lu Gu Hrows Rc W) as C. cbv zeta in C. rewrite E, lines_join in C by (try exact O; discriminate).
  exists hs. split; [now apply item_written|]. split; [split; [cbn [entry_str t]; now rewrite E|split; [discriminate|exact O]]|]. cbv zeta. intro Hlim.
  set (lines := pre ++ ([item_str d] ++ hs) ++ tail) in *. exists (item_str d).
  assert (N : nth_error lines (List.length pre) = Some (item_str d)) by apply nth_error_mid.
  destruct (other_labels _ _ Hlab eq_refl) as (B1 & B2 & B3).
  destruct (Rd) as [Hi Hc Hw Hnd Ho Hv Hl Hal].
  destruct (pick_some (S_ "NumAlf") labs Hr) as (l1 & r & l2 & El & Lr & Pk). assert (Ir : In r second_word_tables) by (apply Il; rewrite El; apply in_elt). pose proof (alf_row r Ir Lr) as ->.
  assert (L0 : List.length lines = List.length pre + (1 + (2 + List.length rows)) + List.length tail) by (unfold lines, hs; rewrite !app_length; cbn [List.length]; rewrite map_length; lia).
  assert (Ln : List.length hs = List.length rows + 2) by (unfold hs; cbn [List.length]; rewrite map_length; lia).
  assert (T : turn num zero R lines (List.length pre) (item_str d) st =
     Some (go lines (S (S (List.length pre) + List.length rows + 1)) (t (map (map rexp) rows)) (fpush [Item d] st))).
  { rewrite turn_standard by exact Hs. rewrite (standard_line lines _ st _ _ N (FASTIn_Props.entry_parse R d He)) by assumption.
    unfold tables. rewrite Hval, Hl, Ho. rewrite Hlab, Pk, Hc0. cbn [t_dim t_name t_heads t_offset t_numeric row Nat.ltb Nat.leb].
    replace (str_eqb (lower (S_ "NumAlf")) (S_ "numalf")) with true by reflexivity.
    unfold dim_of, N_, count_of. destruct (find_value _ _ _ Hhas) as (d1 & F1 & F2). unfold fpush at 1. cbn [s_items]. rewrite Hi, !app_nil_r. unfold entry in F1. rewrite F1, F2, Hval. cbn [bind].
    assert (Bl : block num zero lines (S (List.length pre)) (row "NumAlf" (N_ "NumAlf") "AFCoeff" 2 true) (Z.of_nat (List.length rows)) = Ok (Nums (map (map rexp) rows), Some names, Some (map paren_ units))).
    { unfold lines. replace (pre ++ ([item_str d] ++ hs) ++ tail) with ((pre ++ [item_str d]) ++ hs ++ tail) by (rewrite <- !app_assoc; reflexivity).
      replace (S (List.length pre)) with (List.length (pre ++ [item_str d])) by (rewrite app_length; cbn; lia). rewrite block_here by (cbn [t_heads t_offset row]; lia). exact C. }
    unfold N_ in Bl. rewrite Bl. cbn [bind]. rewrite Nat2Z.id, Nat.sub_0_r. reflexivity. }
  rewrite T. unfold go. destruct (fcheck_ok (List.length lines) (S (S (List.length pre) + List.length rows + 1)) (t (map (map rexp) rows)) (fpush [Item d] st) (b ++ [Item d]) c vals labs) as (st' & E' & R' & _).
  - constructor; cbn; auto; [now rewrite Hi|]. intro Q. apply Hal. revert Q. apply points_before. unfold low_is. assumption.
  - unfold nC. cbn. lia.
  - intros _. split; [reflexivity|discriminate].
  - discriminate.
  - exists st'. split; [exact N|]. rewrite E'. cbn [bind]. unfold nC in R'. cbn [filter comment_of t List.length] in R'. rewrite Nat.add_0_r, <- app_assoc in R'. split; [|exact R'].
    f_equal. f_equal. f_equal. rewrite app_length, Ln. cbn [List.length]. lia.
Qed.
(** The damping matrix *)
Lemma turn_matrix pre tail st b c vals l1 r l2 d k rows : ready st b c vals (l1 ++ r :: l2) -> incl (l1 ++ r :: l2) second_word_tables ->
  announces d (S_ "GuyanDampSize") -> (forall s, it_value d = VStr s -> ~ word_in s vals) ->
  low_is (t_word r) (S_ "GuyanDampSize") -> Forall (fun x => ~ low_is (t_word x) (S_ "GuyanDampSize")) l1 -> List.length rows = 6 -> 0 < k -> rect k rows -> Forall (Forall (writes num digits fnum rnum)) rows ->
  let t x := Tab (S_ "GuyanDampMatrix") (it_descr d) NumHeader (Const 6) (Nums x) None None in
  exists ls, written (Item d) [item_str d] /\ written (t rows) ls /\
    (let lines := pre ++ ([item_str d] ++ ls) ++ tail in 100 * c <= 35 * List.length lines ->
     exists l0 st', nth_error lines (List.length pre) = Some l0 /\ turn num zero R lines (List.length pre) l0 st = Some (Ok (Go (List.length pre + List.length ([item_str d] ++ ls)) st')) /\
       ready st' (b ++ [Item d; t (map (map rnum) rows)]) c vals (l1 ++ l2)).
Proof.
  intros Rd Il (He & Hc0 & Hnl & Hs & Hlab) Hval Lr Fl L6 Hk Rc W t.
  assert (Ne : rows <> []) by (intros ->; discriminate).
  set (hs := map (fun r => join [tab] (map fnum r)) rows).
  assert (E : num_table_str fnum None None rows = join [nl] hs) by (unfold num_table_str, rows_str, hs; destruct rows; [contradiction|reflexivity]).
  assert (O : Forall oneline hs) by (now apply (rows_oneline fnum rnum)).
  assert (Nh : hs <> []) by (unfold hs; destruct rows; [contradiction|discriminate]).
  pose proof (C85_matrix num zero fnum rnum (item_str d) k rows Ne Hk Rc W) as C. cbv zeta in C. rewrite E, lines_join in C by assumption.
  exists hs. split; [now apply item_written|]. split; [split; [cbn [entry_str t]; now rewrite E|split; [exact Nh|exact O]]|]. cbv zeta. intro Hlim.
  set (lines := pre ++ ([item_str d] ++ hs) ++ tail) in *. exists (item_str d).
  assert (N : nth_error lines (List.length pre) = Some (item_str d)) by apply nth_error_mid.
  destruct (other_labels _ _ Hlab eq_refl) as (B1 & B2 & B3).
  destruct (Rd) as [Hi Hc Hw Hnd Ho Hv Hl Hal].
  assert (Ir : In r second_word_tables) by (apply Il, in_elt). pose proof (guyan_row r Ir Lr) as Er.
  assert (Ln : List.length hs = 6) by (unfold hs; now rewrite map_length).
  assert (T : turn num zero R lines (List.length pre) (item_str d) st =
     Some (go lines (List.length pre + 7) (t (map (map rnum) rows)) (set_labs (l1 ++ l2) (fpush [Item d] st)))).
  { rewrite turn_standard by exact Hs. rewrite (standard_line lines _ st _ _ N (FASTIn_Props.entry_parse R d He)) by assumption.
    unfold tables. rewrite Hv, Hl, Ho. replace (match it_value d with VStr s => pick (lower s) vals | _ => None end) with (@None (trow * list trow)).
    2: { destruct (it_value d) as [| | |u|] eqn:Eu; try reflexivity. symmetry. apply pick_none. now apply Hval. }
    rewrite Hlab, pick_here by assumption. subst r. rewrite Hc0. cbn [t_dim t_name t_heads t_offset t_numeric Nat.ltb Nat.leb].
    replace (str_eqb (lower (S_ "GuyanDampSize")) (S_ "numalf")) with false by reflexivity. rewrite app_nil_r.
    replace {| it_value := it_value d; it_label := it_label d; it_comment := false; it_descr := it_descr d; it_tab := NOT_A_TAB |} with d by (pose proof (entry_tab d He) as Et; destruct d; cbn in *; now subst).
    cbn [dim_of bind].
    assert (Bl : block num zero lines (List.length pre) (mk_trow (S_ "GuyanDampSize") (Const 6) (S_ "GuyanDampMatrix") 0 1 true) (Z.of_nat 6) = Ok (Nums (map (map rnum) rows), None, None)).
    { unfold lines. rewrite block_here by (rewrite app_length, Ln; reflexivity). cbn [t_numeric t_heads t_offset app]. rewrite <- L6. exact C. }
    rewrite Bl. cbn [bind]. rewrite Nat2Z.id. rewrite app_nil_r. replace (S (List.length pre + 6 + 1 - 1)) with (List.length pre + 7) by lia. reflexivity. }
  rewrite T. unfold go. destruct (fcheck_ok (List.length lines) (List.length pre + 7) (t (map (map rnum) rows)) (set_labs (l1 ++ l2) (fpush [Item d] st)) (b ++ [Item d]) c vals (l1 ++ l2)) as (st' & E' & R' & _).
  - constructor; cbn; auto; [now rewrite Hi|]. intro Q. apply Hal. revert Q. apply points_before. unfold low_is. assumption.
  - unfold nC. cbn. lia.
  - intros _. split; [reflexivity|discriminate].
  - discriminate.
  - exists st'. split; [exact N|]. rewrite E'. cbn [bind]. unfold nC in R'. cbn [filter comment_of t List.length] in R'. rewrite Nat.add_0_r, <- app_assoc in R'. split; [|exact R'].
    f_equal. f_equal. f_equal. rewrite app_length, Ln. cbn [List.length]. lia.
Qed.
(** A list of files *)
Lemma file_facts name k : In (name, k) file_lists -> is_token name = true /\ label_ok name /\ forallb label_char name = true /\ ~ word_in name second_word_tables /\
  find (fun p => str_eqb (lower (fst p)) (lower name)) file_rows = Some (name, k) /\ lower name <> S_ "kp_total" /\ lower name <> S_ "numcoords" /\ lower name <> S_ "re".
Proof.
  assert (Q : forall w, forallb (fun r => negb (str_eqb (lower (t_word r)) (lower w))) second_word_tables = true -> ~ word_in w second_word_tables).
  { intros w F (r & Hr & L). rewrite forallb_forall in F. apply F in Hr. apply negb_true_iff in Hr. apply str_eqb_neq in Hr. contradiction. }
  intros [E|[E|[]]]; injection E as <- <-; (split; [reflexivity|]); (split; [label_tac|]); (split; [reflexivity|]); (split; [apply Q; reflexivity|]); (split; [reflexivity|]); (split; [discriminate|]); split; discriminate.
Qed.
Lemma turn_files pre tail st b c vals labs name k f fs ws : ready st b c vals labs -> incl labs second_word_tables ->
  In (name, k) file_lists -> value_ok R (VStr f) -> is_token f = true -> ~ word_in f vals -> fs <> [] -> forallb is_token fs = true -> forallb is_token ws = true ->
  no_section (f ++ [sp] ++ name ++ [sp] ++ join [sp] ws) -> has_value b k (VInt (Z.of_nat (S (List.length fs)))) ->
  let d := Item (mkItem (VList (map VStr (f :: fs))) name false (join [sp] ws) TAB_FIL) in
  exists ls, written d ls /\
    (let lines := pre ++ ls ++ tail in 100 * c <= 35 * List.length lines ->
     exists l0 st', nth_error lines (List.length pre) = Some l0 /\ turn num zero R lines (List.length pre) l0 st = Some (Ok (Go (List.length pre + List.length ls) st')) /\ ready st' (b ++ [d]) c vals labs).
Proof.
  intros Rd Il Hin Vf Tf Nf Hfs Tfs Tws Hs Hhas d. destruct (file_facts name k Hin) as (Tn & Ln & Cn & Wn & Fn & B1 & B2 & B3).
  set (h := f ++ [sp] ++ name ++ [sp] ++ join [sp] ws) in *.
  assert (Ow : oneline (join [sp] ws)) by (apply oneline_join; [reflexivity|]; rewrite forallb_forall in Tws; apply Forall_forall; intros w Hw; apply oneline_token; now apply Tws).
  assert (Oh : oneline h) by (unfold h; apply oneline_app; split; [now apply oneline_token|]; apply oneline_app; split; [reflexivity|]; apply oneline_app; split; [now apply oneline_token|]; apply oneline_app; split; [reflexivity|exact Ow]).
  assert (Ofs : Forall oneline fs) by (rewrite forallb_forall in Tfs; apply Forall_forall; intros w Hw; apply oneline_token; now apply Tfs).
  assert (E : entry_str_ d = Ok (join [nl] (h :: fs))).
  { cbn [entry_str d it_comment it_tab it_value map]. unfold item_str. cbn [it_comment it_tab it_value it_label it_descr str_val0]. rewrite map_map.
    replace (map (fun x => str_val0 (VStr x)) fs) with fs by (symmetry; apply map_id). rewrite (join_cons _ h) by exact Hfs. unfold h. rewrite <- !app_assoc. reflexivity. }
  exists (h :: fs). split; [split; [exact E|]; split; [discriminate|constructor; assumption]|]. cbv zeta. intro Hlim.
  set (lines := pre ++ (h :: fs) ++ tail) in *. exists h.
  assert (N : nth_error lines (List.length pre) = Some h) by apply nth_error_mid.
  destruct (Rd) as [Hi Hc Hw Hnd Ho Hv Hl Hal].
  assert (Pf : parse_files (h :: fs) (S (List.length fs)) = Ok (f :: fs)).
  { pose proof (C89_files name (join [sp] ws) f fs Tf Tfs Hfs (oneline_token _ Tn) Ow) as C. rewrite <- C. f_equal. symmetry. rewrite <- lines_join by (try constructor; try assumption; discriminate). f_equal.
    unfold files_str. rewrite (join_cons _ h) by exact Hfs. unfold h. rewrite <- !app_assoc. reflexivity. }
  assert (P : forall allow, parse_line R allow h = Ok (mkItem (VStr f) name false (join [sp] ws) NOT_A_TAB)).
  { intro allow. apply parse_words; [exact Vf|exact Ln|exact Tws|]. cbn [str_val0]. rewrite (split_ws_token f Tf). unfold h. change ([sp] ++ name ++ [sp] ++ join [sp] ws) with (sp :: name ++ sp :: join [sp] ws).
    rewrite split_ws_app by reflexivity. rewrite (split_ws_token f Tf). cbn [app]. rewrite split_ws_app by reflexivity. rewrite (split_ws_token name Tn). cbn [app]. now rewrite split_ws_words. }
  assert (T : turn num zero R lines (List.length pre) h st = Some (go lines (List.length pre + S (List.length fs)) d st)).
  { rewrite turn_standard by exact Hs. rewrite (standard_line lines _ st _ _ N P) by assumption. unfold tables. cbn [it_value it_label it_comment it_descr]. rewrite Hv, Hl, Ho, (pick_none f vals Nf).
    rewrite pick_none by (intros (r & Hr & G); apply Wn; exists r; split; [now apply Il|exact G]). rewrite Fn.
    unfold count_of. destruct (find_value _ _ _ Hhas) as (d1 & F1 & F2). rewrite Hi, F1, F2. cbn [bind].
    replace (Z.of_nat (S (List.length fs)) <? 0)%Z with false by (symmetry; apply Z.ltb_ge; lia). rewrite Nat2Z.id. unfold lines.
    change (S (List.length fs)) with (List.length (h :: fs)) at 1. rewrite firstn_mid, Pf. cbn [bind]. rewrite app_nil_r. reflexivity. }
  rewrite T. unfold go. destruct (fcheck_ok (List.length lines) (List.length pre + S (List.length fs)) d st b c vals labs Rd) as (st' & E' & R' & _).
  - unfold nC. cbn. lia.
  - intros _. cbn [label_of d it_label]. split; [exact Cn|now apply token_nonnil].
  - intros d0 Q T0 _. unfold d in Q. injection Q as Q. subst d0. discriminate T0.
  - exists st'. split; [exact N|]. rewrite E'. cbn [bind]. unfold nC in R'. cbn [filter comment_of d it_comment List.length] in R'. rewrite Nat.add_0_r in R'. split; [reflexivity|exact R'].
Qed.
(** *** A sequence of entries *)
Lemma written_inj e a b : written e a -> written e b -> a = b.
Proof.
  intros (E1 & N1 & O1) (E2 & N2 & O2). rewrite E1 in E2. apply Ok_inj in E2. rewrite <- (lines_join a N1 O1), <- (lines_join b N2 O2). now rewrite E2.
Qed.
Lemma all_written_inj es a b : Forall2 written es a -> Forall2 written es b -> a = b.
Proof.
  intro H. revert b. induction H as [|e x es a Hx H IH]; intros b G; inversion G; subst; [reflexivity|]. f_equal; [eapply written_inj; eassumption|]. now apply IH.
Qed.
Definition moves (es es' b : list entry) (vals labs vals' labs' : list trow) : Prop :=
  forall pre tail st c, ready st b c vals labs -> exists lls, Forall2 written es lls /\
    (let lines := pre ++ concat lls ++ tail in 100 * (c + nC es) <= 35 * List.length lines ->
     exists l0 st', nth_error lines (List.length pre) = Some l0 /\ turn num zero R lines (List.length pre) l0 st = Some (Ok (Go (List.length pre + List.length (concat lls)) st')) /\
       ready st' (b ++ es') (c + nC es) vals' labs').
Lemma moves_fix es es' b vals labs vals' labs' : moves es es' b vals labs vals' labs' -> exists lls, Forall2 written es lls /\ forall pre tail st c, ready st b c vals labs ->
  (let lines := pre ++ concat lls ++ tail in 100 * (c + nC es) <= 35 * List.length lines ->
   exists l0 st', nth_error lines (List.length pre) = Some l0 /\ turn num zero R lines (List.length pre) l0 st = Some (Ok (Go (List.length pre + List.length (concat lls)) st')) /\
     ready st' (b ++ es') (c + nC es) vals' labs').
Proof.
  intro M. destruct (M [] [] (mk_fs b 0 0 true nodal [] 0 vals labs) 0) as (lls & W & _); [constructor; reflexivity|]. exists lls. split; [exact W|].
  intros pre tail st c Rd. destruct (M pre tail st c Rd) as (lls' & W' & H). rewrite (all_written_inj _ _ _ W W'). exact H.
Qed.
Lemma nC_app a b : nC (a ++ b) = nC a + nC b.
Proof. unfold nC. now rewrite filter_app, app_length. Qed.
Lemma incl_mid {A} (a : list A) x b l : incl (a ++ x :: b) l -> incl (a ++ b) l /\ In x l.
Proof. intro H. split; [|apply H, in_elt]. intros y Hy. apply H. apply in_app_or in Hy. apply in_or_app. destruct Hy; [now left|right; now right]. Qed.
Definition no_tab (e : entry) : Prop := match e with Tab _ _ _ _ _ _ _ => False | _ => True end.
Lemma loop_blocks vals labs before es es' : blocks vals labs before es es' -> incl vals first_word_tables -> incl labs second_word_tables ->
  exists lls k vals' labs', Forall2 written es lls /\ k <= List.length es /\ incl vals' first_word_tables /\ incl labs' second_word_tables /\ (Forall no_tab es -> vals' = vals /\ labs' = labs) /\
    forall pre tail st c fuel, ready st before c vals labs ->
    let lines := pre ++ concat lls ++ tail in 100 * (c + nC es) <= 35 * List.length lines ->
    exists st', loop num zero R (k + fuel) lines (List.length pre) st = loop num zero R fuel lines (List.length pre + List.length (concat lls)) st' /\
      ready st' (before ++ es') (c + nC es) vals' labs'.
Proof.
  assert (Step : forall x x' vals labs vals1 labs1 before es es', x <> [] -> (Forall no_tab x -> vals1 = vals /\ labs1 = labs) -> moves x x' before vals labs vals1 labs1 ->
     (exists lls k vals' labs', Forall2 written es lls /\ k <= List.length es /\ incl vals' first_word_tables /\ incl labs' second_word_tables /\ (Forall no_tab es -> vals' = vals1 /\ labs' = labs1) /\
        forall pre tail st c fuel, ready st (before ++ x') c vals1 labs1 ->
        let lines := pre ++ concat lls ++ tail in 100 * (c + nC es) <= 35 * List.length lines ->
        exists st', loop num zero R (k + fuel) lines (List.length pre) st = loop num zero R fuel lines (List.length pre + List.length (concat lls)) st' /\
          ready st' ((before ++ x') ++ es') (c + nC es) vals' labs') ->
     exists lls k vals' labs', Forall2 written (x ++ es) lls /\ k <= List.length (x ++ es) /\ incl vals' first_word_tables /\ incl labs' second_word_tables /\ (Forall no_tab (x ++ es) -> vals' = vals /\ labs' = labs) /\
        forall pre tail st c fuel, ready st before c vals labs ->
        let lines := pre ++ concat lls ++ tail in 100 * (c + nC (x ++ es)) <= 35 * List.length lines ->
        exists st', loop num zero R (k + fuel) lines (List.length pre) st = loop num zero R fuel lines (List.length pre + List.length (concat lls)) st' /\
          ready st' (before ++ x' ++ es') (c + nC (x ++ es)) vals' labs').
  { clear. intros x x' vals labs vals1 labs1 before es es' Nx Nt M (lls & k & vals' & labs' & W & Hk & Iv & Il & Hp & H). destruct (moves_fix _ _ _ _ _ _ _ M) as (l0 & W0 & H0).
    exists (l0 ++ lls), (S k), vals', labs'. split; [now apply Forall2_app|]. split; [rewrite app_length; destruct x; [contradiction|cbn [List.length]; lia]|].
    split; [exact Iv|]. split; [exact Il|]. split; [intro F; apply Forall_app in F; destruct F as [F1 F2]; destruct (Nt F1) as [<- <-]; now apply Hp|].
    intros pre tail st c fuel Rd lines Hlim. rewrite nC_app in *. rewrite concat_app in *.
    assert (El : lines = pre ++ concat l0 ++ concat lls ++ tail) by (unfold lines; now rewrite ?concat_app, <- !app_assoc).
    specialize (H0 pre (concat lls ++ tail) st c Rd). cbv zeta in H0. rewrite <- El in H0. destruct H0 as (s0 & st1 & N & T & R1); [lia|].
    specialize (H (pre ++ concat l0) tail st1 (c + nC x) fuel R1). cbv zeta in H. replace ((pre ++ concat l0) ++ concat lls ++ tail) with lines in H by (rewrite El; now rewrite <- !app_assoc).
    destruct H as (st2 & E2 & R2); [lia|]. exists st2. cbn [plus loop]. rewrite N, T. rewrite <- !app_length, E2, app_length, (app_length pre), (app_length (concat l0)).
    split; [f_equal; lia|]. rewrite <- !app_assoc, <- Nat.add_assoc in R2. exact R2. }
  induction 1 as [vals labs before|vals labs before d es es' Hd _ IH|vals labs before m n lab ws es es' H1 H2 H3 H4 H5 H6 H7 H8 H9 d Hn Hs Hb IH|v1 r v2 labs before a b rest v units n v' es es' H1 H2 H3 H4 H5 t Hb IH|vals l1 r l2 before a b rest v units n v' es es' H1 H2 H3 H4 H5 H6 H7 t Hb IH
                 |vals labs before d names units rows es es' H1 H2 H3 H4 H5 H6 H7 H8 H9 H10 H11 t Hb IH|vals l1 r l2 before d c rows es es' H1 H2 H3 H4 H5 H6 H7 H8 t Hb IH|vals labs before name k f fs ws es es' H1 H2 H3 H4 H5 H6 H7 H8 H9 d Hb IH];
    intros Iv Il.
  - exists [], 0, vals, labs. split; [constructor|]. split; [lia|]. split; [exact Iv|]. split; [exact Il|]. split; [now split|]. intros pre tail st c fuel Rd lines Hlim. exists st. cbn [concat List.length plus]. unfold nC. cbn [filter List.length]. rewrite !Nat.add_0_r, app_nil_r. split; [reflexivity|exact Rd].
  - apply (Step [Item d] [Item d] vals labs vals labs before es es'); [discriminate|now split| |now apply IH]. intros pre tail st c Rd. exists [[item_str d]]. split.
    + constructor; [|constructor]. destruct Hd as (He & Hn & _). now apply item_written.
    + cbn [concat app List.length]. cbv zeta. intro Hlim. assert (N : nth_error (pre ++ item_str d :: tail) (List.length pre) = Some (item_str d)) by apply nth_error_mid.
      destruct (turn_line (pre ++ item_str d :: tail) (List.length pre) st before c vals labs d Rd Iv Il Hd N Hlim) as (st' & T & R'). exists (item_str d), st'. split; [exact N|]. split; [|exact R'].
      replace (List.length pre + 1) with (S (List.length pre)) by lia. exact T.
  - apply (Step [Item d] [Item d] vals labs vals labs before es es'); [discriminate|now split| |now apply IH]. intros pre tail st c Rd. exists [[item_str d]]. split.
    + constructor; [|constructor]. split; [reflexivity|]. split; [discriminate|]. constructor; [exact Hn|constructor].
    + cbn [concat app List.length]. cbv zeta. intro Hlim. assert (N : nth_error (pre ++ item_str d :: tail) (List.length pre) = Some (item_str d)) by apply nth_error_mid.
      destruct (turn_points (pre ++ item_str d :: tail) (List.length pre) st before c vals labs m n lab ws Rd Iv Il H1 H2 H3 H4 H5 H6 H7 H8 H9 Hs N Hlim) as (st' & T & R'). exists (item_str d), st'. split; [exact N|]. split; [|exact R'].
      replace (List.length pre + 1) with (S (List.length pre)) by lia. exact T.
  - destruct (incl_mid _ _ _ _ Iv) as [Iv' Ir]. apply (Step [t v] [t v'] (v1 ++ r :: v2) labs (v1 ++ v2) labs before es es'); [discriminate|intro F; inversion F; contradiction| |now apply IH]. intros pre tail st c Rd.
    destruct (turn_first pre tail st before c v1 r v2 labs a b rest v units n v' Rd Ir H1 H2 H3 H4 H5) as (ls & W & H). exists [ls]. split; [constructor; [exact W|constructor]|].
    cbn [concat]. rewrite app_nil_r. unfold nC. cbn [filter comment_of t List.length]. rewrite Nat.add_0_r. exact H.
  - destruct (incl_mid _ _ _ _ Il) as [Il' Ir]. apply (Step [t v] [t v'] vals (l1 ++ r :: l2) vals (l1 ++ l2) before es es'); [discriminate|intro F; inversion F; contradiction| |now apply IH]. intros pre tail st c Rd.
    destruct (turn_second pre tail st before c vals l1 r l2 a b rest v units n v' Rd Ir H1 H2 H3 H4 H5 H6 H7) as (ls & W & H). exists [ls]. split; [constructor; [exact W|constructor]|].
    cbn [concat]. rewrite app_nil_r. unfold nC. cbn [filter comment_of t List.length]. rewrite Nat.add_0_r. exact H.
  - apply (Step [Item d; t rows] [Item d; t (map (map rexp) rows)] vals labs vals labs before es es'); [discriminate|now split| |now apply IH]. intros pre tail st c Rd.
    destruct (turn_polar pre tail st before c vals labs d names units rows Rd Il H1 H2 H3 H4 H5 H6 H7 H8 H9 H10 H11) as (ls & W1 & W2 & H). exists [[item_str d]; ls]. split; [constructor; [exact W1|constructor; [exact W2|constructor]]|].
    cbn [concat]. rewrite app_nil_r. destruct H1 as (_ & Hc & _). unfold nC. cbn [filter comment_of t]. rewrite Hc. cbn [List.length]. rewrite Nat.add_0_r. exact H.
  - destruct (incl_mid _ _ _ _ Il) as [Il' Ir]. apply (Step [Item d; t rows] [Item d; t (map (map rnum) rows)] vals (l1 ++ r :: l2) vals (l1 ++ l2) before es es'); [discriminate|intro F; inversion F as [|? ? _ F']; inversion F'; contradiction| |now apply IH]. intros pre tail st c0 Rd.
    destruct (turn_matrix pre tail st before c0 vals l1 r l2 d c rows Rd Il H1 H2 H3 H4 H5 H6 H7 H8) as (ls & W1 & W2 & H). exists [[item_str d]; ls]. split; [constructor; [exact W1|constructor; [exact W2|constructor]]|].
    cbn [concat]. rewrite app_nil_r. destruct H1 as (_ & Hc & _). unfold nC. cbn [filter comment_of t]. rewrite Hc. cbn [List.length]. rewrite Nat.add_0_r. exact H.
  - apply (Step [d] [d] vals labs vals labs before es es'); [discriminate|now split| |now apply IH]. intros pre tail st c Rd.
    destruct (turn_files pre tail st before c vals labs name k f fs ws Rd Il H1 H2 H3 H4 H5 H6 H7 H8 H9) as (ls & W & H). exists [ls]. split; [constructor; [exact W|constructor]|].
    cbn [concat]. rewrite app_nil_r. unfold nC. cbn [filter comment_of d it_comment List.length]. rewrite Nat.add_0_r. exact H.
Qed.
(** *** The end of the file *)
Lemma out_list (pre : list str) h o e rest : Forall (fun l => ~ starts_end l) o -> List.length o <= 200 -> is_END e = true ->
  parseFASTOutList (pre ++ h :: o ++ e :: rest) (S (List.length pre)) = Ok (o, S (List.length pre) + List.length o).
Proof.
  intros Ho Hl He. unfold parseFASTOutList.
  assert (Sk : skipn (S (List.length pre)) (pre ++ h :: o ++ e :: rest) = o ++ e :: rest).
  { replace (pre ++ h :: o ++ e :: rest) with ((pre ++ [h]) ++ o ++ e :: rest) by (rewrite <- app_assoc; reflexivity).
    rewrite <- (FASTIn_File.skipn_exact (pre ++ [h]) (o ++ e :: rest)) at 2. f_equal. rewrite app_length. cbn [List.length]. lia. }
  rewrite Sk, outlist_loop_app; [|revert Ho; apply Forall_impl; intros l Hn; destruct (is_END l) eqn:E; [apply is_END_iff in E; contradiction|reflexivity]|exact He].
  replace (200 <? 0 + List.length o) with false by (symmetry; apply Nat.ltb_ge; lia). reflexivity.
Qed.
Lemma end_oneline : Forall oneline [S_ "END"; DASH_LINE].
Proof. repeat constructor. Qed.
Lemma ending_read tl : nodal = false -> ending tl -> tl <> [] -> exists ls, (exists lls, Forall2 written tl lls /\ ls = concat lls) /\ last ls [ch 0] <> [] /\
  forall pre st b c vals labs fuel, ready st b c vals labs -> loop num zero R (S fuel) (pre ++ ls) (List.length pre) st = Some (Ok (b ++ tl)).
Proof.
  intros Nf H Hne. destruct H as [|lab descr o header H1 H2 H3 H4 H5 H6 H7 H8|d o H1 H2 H3 H4 H5 H6]; [contradiction| |].
  - exists (header :: o ++ [S_ "END"; DASH_LINE]). split.
    + exists [header :: o; [S_ "END"]; [DASH_LINE]]. split; [|cbn [concat app]; reflexivity]. constructor; [|constructor; [|constructor; [|constructor]]].
      * split; [|split; [discriminate|]].
        -- cbn [entry_str map it_comment it_tab it_value]. f_equal. apply (outlist_item_str lab descr o H6).
        -- constructor; [exact H5|]. revert H8. apply Forall_impl. intros l [_ Hl]. exact Hl.
      * split; [reflexivity|]. split; [discriminate|repeat constructor].
      * split; [reflexivity|]. split; [discriminate|repeat constructor].
    + split; [rewrite app_comm_cons; change [S_ "END"; DASH_LINE] with ([S_ "END"] ++ [DASH_LINE]); rewrite app_assoc, last_last; discriminate|].
      intros pre st b c vals labs fuel [Hi Hc Hw Hnd Ho Hv Hl Hal]. cbn [loop]. rewrite nth_error_mid. unfold turn. rewrite H1, H2. cbn [negb].
      rewrite out_list; [|revert H8; apply Forall_impl; intros l [Hl' _]; exact Hl'|exact H7|reflexivity].
      assert (N1 : forall k, nth_error (pre ++ header :: o ++ [S_ "END"; DASH_LINE]) (S (List.length pre) + List.length o + k) = nth_error [S_ "END"; DASH_LINE] k).
      { intro k. replace (pre ++ header :: o ++ [S_ "END"; DASH_LINE]) with ((pre ++ header :: o) ++ [S_ "END"; DASH_LINE]) by (rewrite <- app_assoc; reflexivity).
        rewrite nth_error_app2 by (rewrite app_length; cbn; lia). f_equal. rewrite app_length. cbn [List.length]. lia. }
      pose proof (N1 0) as N0. rewrite Nat.add_0_r in N0. rewrite N0, (N1 2). cbn [nth_error]. unfold the_end. rewrite parse_end, parse_dash. cbn [bind]. unfold fpush. cbn [s_items]. rewrite Hnd, Nf, Hi, H3, H4, <- app_assoc. reflexivity.
  - exists (item_str d :: o ++ [S_ "END"; DASH_LINE]). split.
    + exists ([item_str d] :: map (fun l => [l]) o ++ [[S_ "END"]; [DASH_LINE]]). split.
      * rewrite map_cons. constructor; [now apply item_written|]. rewrite map_app. apply Forall2_app.
        -- clear - H6. induction H6 as [|l o [_ Hl] _ IH]; [constructor|]. cbn [map]. constructor; [|exact IH]. split; [reflexivity|]. split; [discriminate|]. constructor; [exact Hl|constructor].
        -- constructor; [|constructor; [|constructor]]; (split; [reflexivity|]); (split; [discriminate|repeat constructor]).
      * cbn [concat]. rewrite concat_app. cbn [concat app]. f_equal. f_equal. clear. induction o as [|l o IH]; [reflexivity|]. cbn. now f_equal.
    + split; [rewrite app_comm_cons; change [S_ "END"; DASH_LINE] with ([S_ "END"] ++ [DASH_LINE]); rewrite app_assoc, last_last; discriminate|].
      intros pre st b c vals labs fuel [Hi Hc Hw Hnd Ho Hv Hl Hal]. cbn [loop]. rewrite nth_error_mid. unfold turn. rewrite H3, H4, (FASTIn_Props.entry_parse R d H1). cbn [bind].
      rewrite out_list; [|revert H6; apply Forall_impl; intros l [Hl' _]; exact Hl'|exact H5|reflexivity]. cbn [bind]. unfold the_end. rewrite parse_end, parse_dash. cbn [bind].
      rewrite Hi. f_equal. f_equal. rewrite <- !app_assoc. f_equal. cbn [map app]. f_equal. rewrite map_app, map_map. reflexivity.
Qed.
Lemma mapM_written es lls : Forall2 written es lls -> mapM entry_str_ es = Ok (map (join [nl]) lls).
Proof. induction 1 as [|e l es lls (E & _) _ IH]; [reflexivity|]. cbn [mapM map]. rewrite E. cbn [bind]. now rewrite IH. Qed.
Lemma written_lines es lls : Forall2 written es lls -> Forall (fun l => l <> []) lls /\ Forall oneline (concat lls).
Proof.
  induction 1 as [|e l es lls (_ & N & O) _ (I1 & I2)]; [split; constructor|]. split; [now constructor|]. cbn [concat]. apply Forall_app. now split.
Qed.
Lemma last_line ls t : ls <> [] -> last ls [ch 0] = [] -> join [nl] ls = t -> t = [] \/ exists u, t = u ++ [nl].
Proof.
  intros H L <-. destruct (exists_last H) as (a & x & ->). rewrite last_last in L. subst x. destruct a as [|y a]; [now left|]. right. exists (join [nl] (y :: a)). rewrite join_app by discriminate. cbn [join]. now rewrite app_nil_r.
Qed.
End Spec.

(** ** C109: a file that is written is read back *)
Section C109.
Context {V : Type}.
Variable num : str -> option V.
Variable zero : V.
Variable R : str -> str.
Variables fnum fexp fstr fspan fmat : V -> str.
Variables rnum rexp rstr : V -> V.
(** Lines, tables, polars, matrices, lists of files and lists of outputs, one after the other: every one is found where it is,
    whatever the number of its lines, and the line after it is read as the beginning of the next *)
Theorem C109_round_trip : forall es es' tl text fuel,
  blocks num R fnum fexp fstr rnum rexp rstr first_word_tables second_word_tables [] es es' -> ending R tl -> es ++ tl <> [] ->
  to_string fnum fexp fstr fspan fmat (es ++ tl) = Ok text ->
  text <> [] -> (forall t, text <> t ++ [nl]) ->
  100 * List.length (filter comment_of es) <= 35 * List.length (splitlines text) ->
  first_char_error (splitlines text) = false -> extptfm (splitlines text) = false -> ad14_file (splitlines text) = Some None ->
  List.length es < fuel ->
  read_file num zero R fuel text = Some (Ok (es' ++ tl)).
Proof.
  intros es es' tl text fuel B En Hne Ht Tn Tl Hc F1 F2 F3 Hfuel. unfold read_file. rewrite F1, F2, F3.
  destruct (loop_blocks (nodal := false) num zero R fnum fexp fstr fspan fmat rnum rexp rstr _ _ _ _ _ B (incl_refl _) (incl_refl _)) as (lls & k & vals' & labs' & W & Hk & _ & _ & _ & H).
  assert (S0 : ready (V := V) (nodal := false) start [] 0 first_word_tables second_word_tables) by (constructor; try reflexivity; intros (? & [] & _)).
  destruct tl as [|x tl].
  - rewrite !app_nil_r in *. unfold to_string in Ht. rewrite (mapM_written fnum fexp fstr fspan fmat _ _ W) in Ht. cbn [bind] in Ht. apply Ok_inj in Ht.
    destruct (written_lines _ _ _ _ _ _ _ W) as [N O]. rewrite join_concat in Ht by exact N.
    assert (Nl : concat lls <> []) by (inversion W as [|? ? ? ? (_ & Z & _) _]; subst; [contradiction|]; destruct y; [contradiction|discriminate]).
    assert (El : splitlines text = concat lls).
    { subst text. apply splitlines_join; [apply forallb_forall; rewrite Forall_forall in O; exact O|]. intro L. destruct (last_line _ _ Nl L eq_refl) as [Q|[u Q]]; [now apply Tn|now apply (Tl u)]. }
    rewrite El in *. specialize (H [] [] start 0 (fuel - k) S0). cbv zeta in H. cbn [app List.length plus] in H. rewrite !app_nil_r in H. destruct H as (st' & E & Rd); [exact Hc|].
    replace (k + (fuel - k)) with fuel in E by lia. rewrite E. destruct Rd as [Hi _ _ _ _ _ _]. replace (fuel - k) with (S (fuel - k - 1)) by lia. cbn [loop].
    replace (nth_error (concat lls) (List.length (concat lls))) with (@None str) by (symmetry; apply nth_error_None; lia). now rewrite Hi.
  - destruct (ending_read (nodal := false) num zero R fnum fexp fstr fspan fmat rnum rexp rstr (x :: tl) eq_refl En ltac:(discriminate)) as (ls & (lls2 & W2 & ->) & Ll & H2).
    unfold to_string in Ht. rewrite (mapM_written fnum fexp fstr fspan fmat _ _ (Forall2_app W W2)) in Ht. cbn [bind] in Ht. apply Ok_inj in Ht.
    destruct (written_lines _ _ _ _ _ _ _ (Forall2_app W W2)) as [N O]. rewrite join_concat in Ht by exact N.
    assert (El : splitlines text = concat lls ++ concat lls2).
    { subst text. rewrite splitlines_join; [apply concat_app|apply forallb_forall; rewrite Forall_forall in O; exact O|]. rewrite concat_app.
      destruct (concat lls2) as [|y q] eqn:Eq; [inversion W2 as [|? ? ? ? (_ & Z & _) _]; subst; destruct y; [contradiction|discriminate]|].
      destruct (exists_last (l := y :: q) ltac:(discriminate)) as (q1 & q2 & Q). rewrite Q in *. rewrite app_assoc, last_last. now rewrite last_last in Ll. }
    rewrite El in *. specialize (H [] (concat lls2) start 0 (fuel - k) S0). cbv zeta in H. cbn [app List.length plus] in H. destruct H as (st' & E & Rd); [exact Hc|].
    replace (k + (fuel - k)) with fuel in E by lia. rewrite E. replace (fuel - k) with (S (fuel - k - 1)) by lia. eapply H2. exact Rd.
Qed.
End C109.
Print Assumptions C109_round_trip.
