(** C69, C70 and C71: writing CSV files and reading them again. *)
From Verif Require Import Py PyFacts TextFacts ListFacts CSV_Model CSV_Props.
From Coq Require Import ZifyBool ZifyNat.
Local Open Scope nat_scope.

(** ** What is written *)
(** Names without blanks around, not empty, without the separator *)
Definition plain_name (c : ascii) (x : str) : Prop := x <> [] /\ strip x = x /\ ~ In c x.
(** The text of a number: one word without commas, semicolons, brackets or the characters of comments *)
Definition plain_number (x : str) : Prop := is_token x = true /\ Forall (fun c => ~ In c x) [ch 44; ch 59; ch 40; ch 91; ch 35; ch 33].
Definition usual_sep (c : ascii) : Prop := c = ch 44 \/ c = ch 59 \/ c = ch 9.

(** ** Lemmas *)
Lemma noedge_app a m b : a <> [] -> b <> [] -> no_edge_space a = true -> no_edge_space b = true -> no_edge_space (a ++ m ++ b) = true.
Proof.
  intros Na Nb Ha Hb. unfold no_edge_space in *. apply andb_inv in Ha, Hb. destruct Ha as [Ha _], Hb as [_ Hb]. destruct a as [|x a]; [congruence|]. cbn [app]. rewrite Ha. cbn [andb].
  rewrite app_comm_cons, app_assoc, rev_app_distr. destruct (rev b) as [|y t] eqn:E; [apply (f_equal (@rev _)) in E; rewrite rev_involutive in E; cbn in E; congruence|]. exact Hb.
Qed.
Lemma join_noedge c ws : ws <> [] -> Forall (fun x => x <> [] /\ strip x = x) ws -> join [c] ws <> [] /\ no_edge_space (join [c] ws) = true.
Proof.
  induction ws as [|w ws IH]; intros N F; [congruence|]. apply Forall_cons_iff in F. destruct F as [[Nw Sw] F]. assert (Ew : no_edge_space w = true) by (rewrite <- Sw; apply strip_no_edge).
  destruct ws as [|w' ws]; [cbn [join]; split; assumption|]. rewrite join_cons by discriminate. destruct (IH ltac:(discriminate) F) as [J1 J2]. split; [destruct w; [congruence|discriminate]|].
  apply noedge_app; assumption.
Qed.
Lemma strip_join c ws : ws <> [] -> Forall (fun x => x <> [] /\ strip x = x) ws -> strip (join [c] ws) = join [c] ws.
Proof. intros N F. apply strip_noedge. apply join_noedge; assumption. Qed.
Lemma token_plain x : is_token x = true -> x <> [] /\ strip x = x.
Proof. intro H. split; [apply token_nonnil; exact H|apply token_strip; exact H]. Qed.
Lemma in_join c x ws : In x (join [c] ws) -> x = c \/ exists w, In w ws /\ In x w.
Proof.
  induction ws as [|w ws IH]; intro H; [destruct H|]. destruct ws as [|w' ws]; [right; exists w; split; [now left|exact H]|]. rewrite join_cons in H by discriminate.
  apply in_app_or in H. destruct H as [H|H]; [right; exists w; split; [now left|exact H]|]. apply in_app_or in H. destruct H as [[H|[]]|H]; [left; congruence|].
  destruct (IH H) as [H'|(v & H1 & H2)]; [left; exact H'|right; exists v; split; [now right|exact H2]].
Qed.
Lemma split_join c ws : ws <> [] -> Forall (fun x => ~ In c x) ws -> split_chr c (join [c] ws) = ws.
Proof. intros N F. apply split_chr_join; [exact N|]. apply forallb_forall. intros w Hw. apply negb_true_iff, not_true_is_false. intro C. apply mem_chr_iff in C. rewrite Forall_forall in F. exact (F w Hw C). Qed.
Lemma find_none c s : ~ In c s -> find_chr c s = None.
Proof. induction s as [|x s IH]; intro H; [reflexivity|]. cbn [find_chr]. destruct (chr_eqb x c) eqn:E; [apply chr_eqb_eq in E; elim H; left; exact E|]. rewrite IH by (intro C; apply H; right; exact C). reflexivity. Qed.
Lemma find_first c a b : ~ In c a -> find_chr c (a ++ c :: b) = Some (List.length a).
Proof. induction a as [|x a IH]; intro H; cbn [app find_chr List.length]; [rewrite chr_eqb_refl; reflexivity|]. destruct (chr_eqb x c) eqn:E; [apply chr_eqb_eq in E; elim H; left; exact E|]. rewrite IH by (intro C; apply H; right; exact C). reflexivity. Qed.

Section Round.
Context {V : Type}.
Variable num : str -> option V.
Variable cell : V -> str.
(** Numbers are written as one word and read back. *)
Definition exact_numbers : Prop := num [] = None /\ forall v, num (cell v) = Some v /\ plain_number (cell v).

Lemma cell_in v c : exact_numbers -> In c [ch 44; ch 59; ch 40; ch 91; ch 35; ch 33] -> ~ In c (cell v).
Proof. intros (_ & H) Hc. destruct (H v) as (_ & _ & F). rewrite Forall_forall in F. exact (F c Hc). Qed.
Lemma cell_sep v c : exact_numbers -> usual_sep c -> ~ In c (cell v).
Proof.
  intros H [->|[->| ->]]; [apply cell_in; [exact H|cbn; tauto]|apply cell_in; [exact H|cbn; tauto]|]. destruct H as (_ & H). destruct (H v) as (_ & T & _). apply token_not_in; [exact T|reflexivity].
Qed.
Lemma row_plain r : exact_numbers -> Forall (fun x => x <> [] /\ strip x = x) (map cell r).
Proof. intros (_ & H). apply Forall_forall. intros x Hx. apply in_map_iff in Hx. destruct Hx as (v & <- & _). apply token_plain. apply H. Qed.
Lemma row_tokens r : exact_numbers -> forallb is_token (map cell r) = true.
Proof. intros (_ & H). apply forallb_forall. intros x Hx. apply in_map_iff in Hx. destruct Hx as (v & <- & _). apply H. Qed.
Lemma row_not_in c x r : exact_numbers -> x <> c -> (forall v, ~ In x (cell v)) -> ~ In x (join [c] (map cell r)).
Proof. intros H N F C. apply in_join in C. destruct C as [C|(w & Hw & C)]; [congruence|]. apply in_map_iff in Hw. destruct Hw as (v & <- & _). exact (F v C). Qed.
Lemma row_cells_of c s r : exact_numbers -> r <> [] -> (usual_sep c /\ s = for_pandas (Text [c])) \/ ((c = sp \/ c = ch 9) /\ s = Blanks) -> map num (cells s (join [c] (map cell r))) = map Some r.
Proof.
  intros H N HS. assert (NM : map cell r <> []) by (destruct r; [congruence|discriminate]).
  assert (E : cells s (join [c] (map cell r)) = map cell r).
  { assert (B : is_space c = true -> split_ws (join [c] (map cell r)) = map cell r) by (intro Q; apply split_ws_join; [cbn; rewrite Q; reflexivity|discriminate|apply row_tokens; exact H]).
    destruct HS as [(U & ->)|([->| ->] & ->)]; [|apply B; reflexivity|apply B; reflexivity]. unfold for_pandas. destruct (chr_eqb c (ch 9)) eqn:Q; [apply chr_eqb_eq in Q; subst c; apply B; reflexivity|].
    cbn [cells]. rewrite split_join; [|exact NM|].
    - pose proof (row_plain r H) as F. rewrite <- (map_id (map cell r)) at 2. apply map_ext_in. intros x Hx. rewrite Forall_forall in F. apply F. exact Hx.
    - apply Forall_forall. intros x Hx. apply in_map_iff in Hx. destruct Hx as (v & <- & _). apply cell_sep; assumption. }
  rewrite E, map_map. apply map_ext. intro v. destruct H as (_ & H). apply H.
Qed.
Lemma rows_written c s char n rs : exact_numbers -> rs <> [] -> 0 < n -> Forall (fun r => List.length r = n) rs ->
  (usual_sep c /\ s = for_pandas (Text [c])) \/ ((c = sp \/ c = ch 9) /\ s = Blanks) ->
  match char with Some x => In x [ch 35; ch 33] | None => True end ->
  table_rows num s char n (map (fun r => join [c] (map cell r)) rs) rs.
Proof.
  intros H N N0 F HS HC. split; [|split; [exact F|split; [destruct rs; [congruence|discriminate]|exact N0]]]. clear N.
  induction rs as [|r rs IH]; [constructor|]. apply Forall_cons_iff in F. destruct F as [Fr F]. cbn [map]. constructor; [|apply IH; exact F].
  assert (Nr : r <> []) by (intros ->; cbn in Fr; lia). assert (NM : map cell r <> []) by (destruct r; [congruence|discriminate]). apply whole_row.
  - rewrite strip_join; [apply join_noedge; [exact NM|apply row_plain; exact H]|exact NM|apply row_plain; exact H].
  - destruct char as [x|]; [|exact Logic.I].
    apply row_not_in; [exact H| |intro v; apply cell_in; [exact H|cbn in *; tauto]]. intro E. subst x. destruct HC as [E|[E|[]]]; rewrite <- E in HS; destruct HS as [[[C|[C|C]] _]|[[C|C] _]]; discriminate C.
  - apply row_cells_of; assumption.
Qed.
Lemma shown_row c r : exact_numbers -> usual_sep c -> 2 <= List.length r -> shown (join [c] (map cell r)) = Text [c].
Proof.
  intros H U L. destruct r as [|v0 [|v1 r]]; cbn in L; try lia. unfold shown. rewrite strip_join; [|discriminate|apply row_plain; exact H].
  assert (F : find_chr c (join [c] (map cell (v0 :: v1 :: r))) = Some (List.length (cell v0))) by (cbn [map]; rewrite join_cons by discriminate; apply find_first; apply cell_sep; assumption).
  assert (L0 : exists k, List.length (cell v0) = S k) by (destruct H as (_ & H); destruct (H v0) as (_ & T & _); apply token_nonnil in T; destruct (cell v0); [congruence|eexists; reflexivity]).
  destruct L0 as (k & L0). rewrite L0 in F.
  assert (G : forall x, usual_sep x -> x <> c -> find_chr x (join [c] (map cell (v0 :: v1 :: r))) = None) by (intros x Ux Nx; apply find_none; apply row_not_in; [exact H|exact Nx|intro v; apply cell_sep; assumption]).
  set (row := join [c] _) in *. clearbody row. destruct U as [->|[->| ->]].
  - rewrite F. reflexivity.
  - rewrite F, (G (ch 44)); [reflexivity|left; reflexivity|discriminate].
  - rewrite F, (G (ch 44)), (G (ch 59)); [reflexivity|right; left; reflexivity|discriminate|left; reflexivity|discriminate].
Qed.
Lemma no_brackets c r : exact_numbers -> usual_sep c -> brackets (strip (join [c] (map cell r))) = 0.
Proof.
  intros H U. unfold brackets. assert (G : forall x l, ~ In x l -> filter (fun c => chr_eqb x c) l = []).
  { intros x l. induction l as [|y l IH]; intro N; [reflexivity|]. cbn [filter]. destruct (chr_eqb x y) eqn:E; [apply chr_eqb_eq in E; elim N; left; congruence|]. apply IH. intro C. apply N. right. exact C. }
  destruct r as [|v r]; [reflexivity|]. rewrite strip_join; [|discriminate|apply row_plain; exact H].
  rewrite !G; [reflexivity| |]; (apply row_not_in; [exact H|intros <-; destruct U as [C|[C|C]]; discriminate C|intro w; apply cell_in; [exact H|cbn; tauto]]).
Qed.

(** ** C69: names and numbers survive writing and reading. *)
(** [o]: a CSV object without header lines that holds the table; its separator is comma, semicolon or tab. *)
Theorem C69_table_round_trip (o : csv V) c names rs n sep h d :
  exact_numbers -> c_sep o = Some (Text [c]) -> usual_sep c -> c_header o = [] -> c_data o = Some (names, numbers rs) ->
  List.length names = n -> Forall (fun r => List.length r = n) rs -> rs <> [] -> 0 < n ->
  Forall (plain_name c) names -> looks_like_names num names ->
  (forall x, comment_char x -> ~ begins x (join [c] names)) -> ~ number_and_word (join [c] names) ->
  sep = Some (Text [c]) \/ (sep = None /\ 2 <= n) ->
  exists ls o', csv_lines cell o = Ok ls /\ csv_read num (reader sep h d) ls = Ok o' /\ c_header o' = [] /\ c_data o' = c_data o.
Proof.
  intros H ES U EH ED LN F N N0 PN LK NB NW HS. unfold csv_lines. rewrite ES, ED, EH. cbn [nonempty]. do 2 eexists. split; [reflexivity|].
  assert (NN : names <> []) by (intros ->; cbn in LN; lia). assert (PN' : Forall (fun x => x <> [] /\ strip x = x) names) by (apply Forall_forall; intros x Hx; rewrite Forall_forall in PN; destruct (PN x Hx) as (P1 & P2 & _); tauto).
  assert (BD : map (fun r => join [c] (map (fun x => match x with Num v => cell v | Str t => t | Nan => [] end) r)) (numbers rs) = map (fun r => join [c] (map cell r)) rs).
  { unfold numbers. rewrite map_map. apply map_ext. intro r. rewrite map_map. reflexivity. }
  rewrite BD. destruct rs as [|r0 rs]; [congruence|]. pose proof F as F'. apply Forall_cons_iff in F'. destruct F' as [F0 _].
  assert (KC : Text [c] <> Text [sp]) by (destruct U as [->|[->| ->]]; discriminate).
  assert (CN : cells (Text [c]) (strip (join [c] names)) = names).
  { rewrite strip_join by assumption. cbn [cells]. rewrite split_join; [|exact NN|apply Forall_forall; intros x Hx; rewrite Forall_forall in PN; apply PN; exact Hx].
    rewrite <- (map_id names) at 2. apply map_ext_in. intros x Hx. rewrite Forall_forall in PN'. apply PN'. exact Hx. }
  pose proof (C45_names_line num sep h d None [] (join [c] names) (map (fun r => join [c] (map cell r)) (r0 :: rs)) (r0 :: rs) n (Text [c])) as R.
  rewrite CN in R. cbn [app] in R. rewrite R; clear R.
  - split; [reflexivity|]. split; reflexivity.
  - apply H.
  - destruct HS as [->|[-> N2]]; cbn [sep_used map hd]; [split; [reflexivity|split; [right; exists c; reflexivity|exact KC]]|]. symmetry. apply shown_row; [exact H|exact U|rewrite F0; exact N2].
  - split; [reflexivity|exact NB].
  - cbn [hd]. rewrite strip_join by assumption. exact NW.
  - exact LK.
  - exact LN.
  - cbn [map hd]. rewrite no_brackets by assumption. lia.
  - apply rows_written; [exact H|exact N|exact N0|exact F|left; split; [exact U|reflexivity]|exact Logic.I].
Qed.
(** With header lines, the names of the columns are not written: whatever they are, the file is the same, so that no reader can
    give them back. *)
Theorem C69_names_lost_refuted (o : csv V) names names' rows : c_header o <> [] ->
  csv_lines cell (mk_csv (c_sep o) (c_names o) (c_char o) (c_lines o) (c_nline o) (c_detect o) (c_header o) (Some (names, rows))) =
  csv_lines cell (mk_csv (c_sep o) (c_names o) (c_char o) (c_lines o) (c_nline o) (c_detect o) (c_header o) (Some (names', rows))).
Proof. intro N. unfold csv_lines. cbn [c_sep c_data c_header]. destruct (c_header o); [congruence|]. reflexivity. Qed.

Lemma ex_and {X} (A : Prop) (B : X -> Prop) : A -> (exists x, B x) -> exists x, A /\ B x.
Proof. intros a (x & b). exists x. split; assumption. Qed.
(** ** C70: reading again with the same object *)
(** For a file with a line of names and no units the second reading gives the same table and header, provided that the names are
    the same words when they are separated by blanks instead of tabs. *)
Theorem C70_same_file_partial sep h d char cs nm ds rs n s :
  num [] = None -> sep_used sep (hd [] ds) s -> starts_with_comments char cs nm -> ~ number_and_word (strip (hd nm cs)) ->
  looks_like_names num (cells s (strip nm)) -> List.length (cells s (strip nm)) = n -> 2 * brackets (strip (hd [] ds)) <= n ->
  table_rows num (for_pandas s) char n ds rs -> cells (for_pandas s) (strip nm) = cells s (strip nm) ->
  exists o1 o2, csv_read num (reader sep h d) (cs ++ nm :: ds) = Ok o1 /\ csv_read num o1 (cs ++ nm :: ds) = Ok o2 /\ c_data o2 = c_data o1 /\ c_header o2 = c_header o1.
Proof.
  intros NE SU SC NW LN LEN BR TR SAME. eexists. apply ex_and; [exact (C45_names_line num sep h d char cs nm ds rs n s NE SU SC NW LN LEN BR TR)|].
  destruct (known_sep _ _ _ SU) as [KS _]. pose proof TR as (F2 & _ & ND & N0). set (s' := for_pandas s) in *. pose proof (pandas_known s KS) as KS'. fold s' in KS'.
  assert (NT : s' <> Text [sp]).
  { unfold s'. destruct KS as [->|(c & ->)]; [discriminate|]. cbn [for_pandas]. destruct (chr_eqb c (ch 9)); [discriminate|]. intro E. injection E as ->.
    unfold sep_used in SU. destruct sep as [s0|]; [destruct SU as (_ & _ & SU); congruence|]. unfold shown in SU. repeat (destruct (match find_chr _ _ with Some (S _) => true | _ => false end) in SU; [discriminate SU|]). discriminate SU. }
  assert (SS : safe_sep (Some s') = Some s') by (apply (known_sep (Some s') [] s'); repeat split; assumption).
  assert (PP : for_pandas s' = s').
  { unfold s'. destruct KS as [->|(c & ->)]; [reflexivity|]. cbn [for_pandas]. destruct (chr_eqb c (ch 9)) eqn:E; [reflexivity|]. cbn [for_pandas]. rewrite E. reflexivity. }
  unfold csv_read. cbn [c_sep]. rewrite SS.
  assert (NC : not_csv (cs ++ nm :: ds) = false). { destruct cs as [|l0 cs']; cbn [hd app] in *; (eapply not_csv_false; [reflexivity|exact NW]). }
  rewrite NC.
  assert (RH : exists lines, read_header (mk_csv (Some s') (cells s (strip nm)) (option_map (fun c => [c]) char) [] (Some (Z.of_nat (List.length cs))) true (map strip cs) (Some (cells s (strip nm), numbers rs))) (cs ++ nm :: ds)
      = Ok (map strip cs, option_map (fun c => [c]) char, lines) /\ forall i, existsb (Nat.eqb i) lines = true -> i < List.length cs).
  { unfold read_header. cbn [c_lines c_char]. destruct char as [c|]; cbn [option_map].
    - destruct SC as (C & Nn & L & F & B). rewrite (leading_all c hundred cs (nm :: ds) L F B). eexists. split; [reflexivity|]. intros i Hi. apply existsb_exists in Hi. destruct Hi as (x & Hx & E). apply Nat.eqb_eq in E. subst x. apply in_seq in Hx. rewrite map_length in Hx. lia.
    - destruct SC as (-> & B). unfold readline. cbn [app Z.ltb Z.compare Z.to_nat nth_error option_map]. exists []. split; [|intros i Hi; discriminate Hi]. destruct (strip nm) as [|c t] eqn:E; [reflexivity|].
      destruct (existsb (chr_eqb c) COMMENT_CHAR) eqn:X; [|reflexivity]. apply not_comment_line in X. elim (B c X). exists t. exact E. }
  destruct RH as (lines & RH & RL). rewrite RH. cbn [bind]. rewrite map_length. cbn [detect_sep]. unfold column_names. cbn [c_nline].
  destruct (Z.ltb_spec (Z.of_nat (List.length cs)) 0) as [Q|Q]; [lia|]. rewrite readline_nth, nth_mid. cbn [option_map]. rewrite split_cells by exact KS'. rewrite strip_idem, SAME. cbn [bind].
  replace (match s' with Text [c] => if chr_eqb c tab then Some Blanks else Some s' | _ => Some s' end) with (Some s') by (symmetry; rewrite <- PP at 2; exact (seps_end s' KS')).
  rewrite (kept_after _ _ (List.length cs + 1)).
  2:{ intros i Hi. unfold skiprows. replace (Nat.max (List.length cs) (Z.to_nat (Z.of_nat (List.length cs) + 1))) with (List.length cs + 1) by lia.
      destruct (Nat.ltb_spec i (List.length cs + 1)) as [Q1|Q1]; [reflexivity|]. cbn [orb]. destruct (Z.eqb_spec (Z.of_nat i) (Z.of_nat (List.length cs))); [lia|]. cbn [orb].
      destruct (existsb (Nat.eqb i) lines) eqn:E; [apply RL in E; lia|reflexivity]. }
  rewrite skipn_mid. destruct (parse_ok num NE s' char n ds rs KS' TR) as [P1 P2]. rewrite P1. cbn [bind]. rewrite P2, LEN, Nat.eqb_refl. destruct (Nat.eqb_spec n 0); [lia|]. cbn [orb negb].
  rewrite cells_stripped by exact KS. eexists. split; [reflexivity|]. split; reflexivity.
Qed.

(** ** C71: deterministic wind files *)
Definition bang : ascii := "!"%char.
Definition wind_columns : list str := [S_ "Time_[s]"; S_ "WindSpeed_[m/s]"; S_ "WindDir_[deg]"; S_ "VertSpeed_[m/s]"; S_ "HorizShear_[-]"; S_ "VertShear_[-]"; S_ "LinVShear_[-]"; S_ "GustSpeed_[m/s]"].
(** A wind file written by an object that holds the table [rs] under any names (new, or read before, or filled by stepWind) and
    header lines that start with an exclamation mark, is read by a new object with this header and these rows. *)
Theorem C71_wind_file_round_trip (o w : csv V) cols rs :
  exact_numbers -> wnd_new = Ok w -> c_sep o = Some (Text [sp]) \/ c_sep o = Some Blanks ->
  c_header o <> [] -> List.length (c_header o) <= 100 -> Forall (fun l => begins bang l /\ strip l = l) (c_header o) ->
  c_data o = Some (cols, numbers rs) -> rs <> [] -> Forall (fun r => List.length r = 8) rs ->
  exists ls o', csv_lines cell o = Ok ls /\ csv_read num w ls = Ok o' /\ c_header o' = c_header o /\ c_data o' = Some (wind_columns, numbers rs).
Proof.
  intros H EW ES NH LH FH ED N F. unfold wnd_new, csv_new in EW. cbn [nonempty andb wnd_names] in EW. apply Ok_inj in EW. subst w. unfold csv_lines. rewrite ED.
  assert (X : exists c, (c = sp \/ c = ch 9) /\ match c_sep o with Some Blanks | Some (Text []) => Some (Text [tab]) | s => s end = Some (Text [c])) by (destruct ES as [-> | ->]; eexists; (split; [|reflexivity]); [left|right]; reflexivity).
  destruct X as (c & HC & X). rewrite X. destruct (c_header o) as [|h0 hs] eqn:EH; [congruence|]. cbn [nonempty]. do 2 eexists. split; [reflexivity|].
  assert (BD : map (fun r => join [c] (map (fun x => match x with Num v => cell v | Str t => t | Nan => [] end) r)) (numbers rs) = map (fun r => join [c] (map cell r)) rs).
  { unfold numbers. rewrite map_map. apply map_ext. intro r. rewrite map_map. reflexivity. }
  rewrite BD. set (body := map (fun r => join [c] (map cell r)) rs).
  assert (TR : table_rows num Blanks (Some bang) 8 body rs) by (apply rows_written; [exact H|exact N|lia|exact F|right; split; [exact HC|reflexivity]|right; left; reflexivity]).
  unfold csv_read. match goal with |- context [safe_sep ?x] => change (safe_sep x) with (Some Blanks) end.
  assert (NC : not_csv ((h0 :: hs) ++ body) = false).
  { eapply not_csv_false; [reflexivity|]. apply Forall_cons_iff in FH. destruct FH as [[(t & B) _] _]. intros (w0 & w1 & ws & z & E & I & _). rewrite B in E.
    destruct (split_ws_prefix [bang] t eq_refl) as (w & ws' & Q). cbn [app] in Q. rewrite Q in E. injection E as <- _. unfold int_ in I.
    destruct (strip (bang :: w)) as [|x y] eqn:SX; [discriminate I|].
    assert (x = bang). { assert (G : exists b, x :: y = bang :: b); [|destruct G as (b & G); injection G as -> _; reflexivity]. rewrite <- SX. unfold strip. rewrite lstrip_head by reflexivity. unfold rstrip. cbn [rev].
      pose proof (rstrip_decomp (bang :: w)) as (bl & B1 & B2). destruct (rstrip (bang :: w)) as [|u v] eqn:RS; [cbn in B2; subst bl; discriminate B1|]. cbn in B2. injection B2 as B2 _. unfold rstrip in RS. cbn [rev] in RS. rewrite RS. exists v. f_equal. symmetry. exact B2. }
    subst x. change (chr_eqb bang (ch 45)) with false in I. change (chr_eqb bang (ch 43)) with false in I. cbn iota in I. unfold N_of_str in I. cbn in I. destruct (uint_of_str y); discriminate I. }
  rewrite NC. unfold read_header. cbn [c_lines c_char S_ list_ascii_of_string].
  assert (FB : Forall (begins bang) (h0 :: hs)) by (apply Forall_forall; intros l Hl; rewrite Forall_forall in FH; apply FH; exact Hl).
  assert (NB : match body with l :: _ => ~ begins bang l | [] => True end).
  { unfold body. destruct rs as [|r rs']; [exact Logic.I|]. cbn [map]. apply Forall_cons_iff in F. destruct F as [F0 _]. destruct r as [|v r]; [discriminate F0|]. intros (t & B). rewrite strip_join in B; [|discriminate|apply row_plain; exact H].
    assert (C : In bang (join [c] (map cell (v :: r)))) by (rewrite B; left; reflexivity). revert C. apply row_not_in; [exact H|destruct HC as [-> | ->]; discriminate|intro w; apply cell_in; [exact H|cbn; tauto]]. }
  change "!"%char with bang. rewrite (leading_all bang hundred (h0 :: hs) body LH FB NB). cbn [bind].
  assert (MS : map strip (h0 :: hs) = h0 :: hs) by (rewrite <- (map_id (h0 :: hs)) at 2; apply map_ext_in; intros l Hl; rewrite Forall_forall in FH; apply FH; exact Hl).
  rewrite MS. cbn [detect_sep]. unfold column_names. cbn [c_nline c_names nonempty wnd_names bind].
  rewrite (kept_after _ _ (List.length (h0 :: hs))).
  2:{ intros i Hi. unfold skiprows. rewrite orb_false_r. destruct (Nat.ltb_spec i (List.length (h0 :: hs))) as [Q|Q]; [reflexivity|]. cbn [orb]. apply not_true_is_false. intro E. apply existsb_exists in E. destruct E as (x & Hx & E). apply Nat.eqb_eq in E. subst x. apply in_seq in Hx. lia. }
  rewrite skipn_app, skipn_all, Nat.sub_diag. cbn [app skipn]. destruct H as (NE & _). destruct (parse_ok num NE Blanks (Some bang) 8 body rs (or_introl eq_refl) TR) as [P1 P2]. cbn [option_map] in P1.
  rewrite P1. cbn [bind]. rewrite P2.
  split; [reflexivity|]. split; reflexivity.
Qed.
End Round.

(** ** Reading again, and the hypotheses are met *)
(** The units of the first reading become a row of the second one. *)
Theorem C70_units_become_a_row_refuted : exists file,
  match csv_read digit (reader None [] None) file with
  | Ok o1 => c_data o1 = Some ([S_ "t_(s)"; S_ "u_(m)"], numbers [[1; 2]; [3; 4]]%N) /\
             match csv_read digit o1 file with
             | Ok o2 => c_data o2 = Some ([S_ "t"; S_ "u"], [[Str (S_ "(s)"); Str (S_ "(m)")]; [Str (S_ "1"); Str (S_ "2")]; [Str (S_ "3"); Str (S_ "4")]])
             | Err _ => False
             end
  | Err _ => False
  end.
Proof. exists [S_ "t u"; S_ "(s) (m)"; S_ "1 2"; S_ "3 4"]. vm_compute. split; reflexivity. Qed.
(** What is remembered of one file is used for the next: the first row of the second file is taken for the names. *)
Theorem C70_other_file_refuted : exists file1 file2, file1 <> file2 /\
  match csv_read digit (reader None [] None) file2 with Ok o => c_data o = Some ([S_ "C0"; S_ "C1"], numbers [[5; 6]; [7; 8]]%N) | Err _ => False end /\
  match csv_read digit (reader None [] None) file1 with
  | Ok o1 => match csv_read digit o1 file2 with Ok o2 => c_data o2 = Some ([S_ "5"; S_ "6"], numbers [[7; 8]]%N) | Err _ => False end
  | Err _ => False
  end.
Proof. exists [S_ "t u"; S_ "1 2"; S_ "3 4"], [S_ "5 6"; S_ "7 8"]. split; [discriminate|]. vm_compute. split; reflexivity. Qed.

Definition three (v : bool) : str := if v then S_ "1" else S_ "0".
Definition read_three (s : str) : option bool := if str_eqb s (S_ "1") then Some true else if str_eqb s (S_ "0") then Some false else None.
Lemma not_in_b x l : forallb (fun y => negb (chr_eqb x y)) l = true -> ~ In x l.
Proof. intros H C. rewrite forallb_forall in H. specialize (H _ C). rewrite chr_eqb_refl in H. discriminate H. Qed.
Example C69_numbers : exact_numbers read_three three.
Proof. split; [reflexivity|]. intros [|]; (split; [reflexivity|]; split; [reflexivity|]); (repeat (apply Forall_cons; [apply not_in_b; reflexivity|]); apply Forall_nil). Qed.
Example C69_names : Forall (plain_name ","%char) [S_ "x [m]"; S_ "y z"] /\ looks_like_names read_three [S_ "x [m]"; S_ "y z"] /\
  (forall x, comment_char x -> ~ begins x (join [","%char] [S_ "x [m]"; S_ "y z"])) /\ ~ number_and_word (join [","%char] [S_ "x [m]"; S_ "y z"]).
Proof.
  split; [repeat (apply Forall_cons; [split; [discriminate|split; [reflexivity|apply not_in_b; reflexivity]]|]); apply Forall_nil|]. split; [left; reflexivity|]. split.
  - intros x Hx (t & E). vm_compute in E. injection E as E _. subst x. destruct Hx as [C|[C|C]]; discriminate C.
  - intros (w0 & w1 & ws & z & E & I & _). vm_compute in E. injection E as <- <- <-. vm_compute in I. discriminate I.
Qed.
Example C71_default_header : Forall (fun l => begins bang l /\ strip l = l) wnd_header.
Proof. repeat (apply Forall_cons; [split; [eexists; vm_compute; reflexivity|vm_compute; reflexivity]|]). apply Forall_nil. Qed.

Print Assumptions C69_table_round_trip.
Print Assumptions C69_names_lost_refuted.
Print Assumptions C70_same_file_partial.
Print Assumptions C70_units_become_a_row_refuted.
Print Assumptions C70_other_file_refuted.
Print Assumptions C71_wind_file_round_trip.
