(** Property C110: the airfoil files of AeroDyn 14. *)
From Verif Require Import Py PyFacts TextFacts FASTIn_Model FASTIn_Proofs FASTIn_File FASTIn_Props FASTTab_Model FASTTab_Proofs FASTTab_Props FASTTabRead_Props FASTFile_Model FASTFile_Props FASTFileEnd_Props.
Local Open Scope nat_scope.

(** ** Specification *)
(** The lines of the file: two titles, twelve lines of values, the rows of the polars, and (after a blank line) anything *)
Record af_text := mk_af { title1 : str; title2 : str; values12 : list str; polar : list str; after : list str }.
Definition af_lines (f : af_text) : list str := title1 f :: title2 f :: values12 f ++ polar f ++ after f.
Definition blank (l : str) : Prop := forallb is_space l = true.
(** The words of a line *)
Definition words_are (l : str) (ws : list str) : Prop := split_ws l = ws.
(** The layout: the number [n] of tables is the first word of line 3, line 4 has their [n] names, the last two values lines are
    for the angle and the minimum of the drag *)
Definition af_layout (f : af_text) (n : nat) (ids : list str) : Prop :=
  Forall oneline (af_lines f) /\ title1 f <> [] /\ startswith (title1 f) (S_ "!") = false /\
  exists l2 l3 l4 l5 l6 l7 l8 l9 l10 l11 l12 l13 w r more a b,
    values12 f = [l2; l3; l4; l5; l6; l7; l8; l9; l10; l11; l12; l13] /\
    words_are l2 (w :: r) /\ strIsInt w = true /\ to_int w = Z.of_nat n /\
    words_are l3 (ids ++ more) /\ List.length ids = n /\ more <> [] /\
    nth_error (split_ws l12) n = Some a /\ low_is a (S_ "Angle") /\ nth_error (split_ws l13) n = Some b /\ low_is b (S_ "Minimum").
(** The columns *)
Definition column_names (n : nat) (ids : list str) (width : nat) : list str :=
  let ids := match n with 1 => [S_ ""] | _ => ids end in
  if Nat.eq_dec width (3 * n + 1) then S_ "Alpha" :: concat (map (fun i => [S_ "Cl" ++ i; S_ "Cd" ++ i; S_ "Cm" ++ i]) ids)
  else if Nat.eq_dec width (2 * n + 1) then S_ "Alpha" :: concat (map (fun i => [S_ "Cl" ++ i; S_ "Cd" ++ i]) ids)
  else map (fun j => S_ "col" ++ str_of_N (N.of_nat j)) (seq 0 width).
Definition column_units (n width : nat) : option (list str) :=
  if Nat.eq_dec width (3 * n + 1) then Some (S_ "(deg)" :: repeat (S_ "(-)") (3 * n))
  else if Nat.eq_dec width (2 * n + 1) then Some (S_ "(deg)" :: repeat (S_ "(-)") (2 * n)) else None.


Lemma mapM_all {A B} (g : A -> res B) (P : A -> B -> Prop) l m : (forall x y, P x y -> g x = Ok y) -> Forall2 P l m -> mapM g l = Ok m.
Proof. intros H. induction 1 as [|x y l m Hx _ IH]; [reflexivity|]. cbn [mapM]. rewrite (H _ _ Hx). cbn [bind]. rewrite IH. reflexivity. Qed.
Lemma mapM_bad {A B} (g : A -> res B) e l1 x l2 : (forall y, In y l1 -> exists z, g y = Ok z) -> g x = Err e -> mapM g (l1 ++ x :: l2) = Err e.
Proof.
  intros H Hx. induction l1 as [|y l1 IH]; cbn [app mapM]; [now rewrite Hx|]. destruct (H y (or_introl eq_refl)) as [z ->]. cbn [bind]. rewrite IH; [reflexivity|]. intros; apply H; now right.
Qed.
Lemma Forall2_len {A B} (P : A -> B -> Prop) l m : Forall2 P l m -> List.length l = List.length m.
Proof. induction 1; cbn [List.length]; congruence. Qed.
Lemma nonblank_words l : split_ws l <> [] -> nonempty (strip l) = true.
Proof. intro H. destruct (strip l) eqn:E; [|reflexivity]. exfalso. apply H. rewrite <- split_ws_strip, E. reflexivity. Qed.
Lemma run_body ls after : Forall (fun l => split_ws l <> []) ls -> (match after with [] => True | l :: _ => blank l end) -> nonblank_run (ls ++ after) = ls.
Proof.
  intros F Ha. induction F as [|l ls Hl _ IH]; cbn [app nonblank_run].
  - destruct after as [|l r]; [reflexivity|]. cbn [nonblank_run]. unfold blank in Ha. now rewrite (strip_blank l Ha).
  - rewrite (nonblank_words l Hl), IH. reflexivity.
Qed.

Section AD14.
Context {V : Type}.
Variable num : str -> option V.
Variable zero : V.
Variable R : str -> str.
Variables fnum fexp fstr fspan fmat : V -> str.
Local Notation ent := (FASTFile_Model.entry V).
Local Notation read := (read_file num zero R).

(** A line of values: its first word is a number, and the rest of the line is both its label and its description *)
Definition value_entry (l : str) (e : ent) : Prop :=
  exists w r, words_are l (w :: r) /\ strIsFloat w = true /\ e = Item (mkItem (VFloat (R w)) (join [sp] r) false (join [sp] r) NOT_A_TAB).
Definition number_row (l : str) (vs : list V) : Prop := exists ws, words_are l ws /\ Forall2 (fun w v => num w = Some v) ws vs.
Definition title_entry (l : str) : ent := Item (mkItem (VStr l) [] true [] NOT_A_TAB).

Lemma layout_found f n ids : af_layout f n ids -> splitlines (unlines (af_lines f)) = af_lines f /\ first_char_error (af_lines f) = false /\ extptfm (af_lines f) = false /\
  ad14_file (af_lines f) = Some (Some (n, match n with 1 => [S_ ""] | _ => ids end)) /\
  firstn 12 (skipn 2 (af_lines f)) = values12 f /\ skipn 14 (af_lines f) = polar f ++ after f.
Proof.
  intros (O & T1 & T2 & l2 & l3 & l4 & l5 & l6 & l7 & l8 & l9 & l10 & l11 & l12 & l13 & w & r & more & a & b & E & W2 & Hi & Hn & W3 & Li & Hm & N1 & A1 & N2 & A2).
  split; [now apply splitlines_un|]. unfold af_lines in *. rewrite E. cbn [app skipn firstn].
  split; [unfold first_char_error; destruct (title1 f) as [|c t]; [contradiction|]; rewrite T2; destruct (title2 f); [apply andb_false_r|reflexivity]|].
  split; [unfold extptfm; rewrite T2, !andb_false_r; reflexivity|]. split; [|split; reflexivity].
  unfold ad14_file. cbn [nth_error]. unfold words_are in W2, W3. rewrite W2, Hi, Hn. cbn [negb]. replace (Z.of_nat n <? 0)%Z with false by (symmetry; apply Z.ltb_ge; lia). rewrite Nat2Z.id.
  replace (List.length (split_ws l3) <=? n) with false by (symmetry; apply Nat.leb_gt; rewrite W3, app_length; destruct more; [contradiction|]; cbn [List.length]; lia).
  rewrite N1, N2. unfold low_is in A1, A2. rewrite A1, A2. replace (str_eqb _ _ && str_eqb _ _) with true by reflexivity.
  assert (Ef : firstn n (split_ws l3) = ids) by (rewrite W3, firstn_app, Li, Nat.sub_diag, <- Li, firstn_all; apply app_nil_r). rewrite Ef. destruct n as [|[|n]]; reflexivity.
Qed.
Lemma names_are n ids width : ad14_names n width ids =
  (if Nat.eq_dec width (3 * n + 1) then S_ "Alpha" :: concat (map (fun i => [S_ "Cl" ++ i; S_ "Cd" ++ i; S_ "Cm" ++ i]) ids)
   else if Nat.eq_dec width (2 * n + 1) then S_ "Alpha" :: concat (map (fun i => [S_ "Cl" ++ i; S_ "Cd" ++ i]) ids)
   else map (fun j => S_ "col" ++ str_of_N (N.of_nat j)) (seq 0 width), column_units n width).
Proof.
  unfold ad14_names, column_units. destruct (Nat.eq_dec width (3 * n + 1)) as [->|H3].
  - replace (3 * n + 1 =? 1 + n * 3) with true by (symmetry; apply Nat.eqb_eq; lia). replace (3 * n + 1 - 1) with (3 * n) by lia. rewrite flat_map_concat_map. reflexivity.
  - replace (width =? 1 + n * 3) with false by (symmetry; apply Nat.eqb_neq; lia). destruct (Nat.eq_dec width (2 * n + 1)) as [->|H2].
    + replace (2 * n + 1 =? 1 + n * 2) with true by (symmetry; apply Nat.eqb_eq; lia). replace (2 * n + 1 - 1) with (2 * n) by lia. rewrite flat_map_concat_map. reflexivity.
    + replace (width =? 1 + n * 2) with false by (symmetry; apply Nat.eqb_neq; lia). reflexivity.
Qed.

(** A file with any number of tables, any number of rows, and anything after a blank line *)
Theorem C110_read : forall f n ids hs rows width fuel, af_layout f n ids ->
  Forall2 value_entry (values12 f) hs -> Forall2 number_row (polar f) rows -> rows <> [] -> rect width rows -> 0 < width ->
  (match after f with [] => True | l :: _ => blank l end) ->
  read fuel (unlines (af_lines f)) = Some (Ok (title_entry (title1 f) :: title_entry (title2 f) :: hs ++
    [Tab (S_ "Polar") [] NumPlain (Const (List.length rows)) (Nums rows) (Some (column_names n ids width)) (column_units n width)])).
Proof.
  intros f n ids hs rows width fuel L H12 Hp Hne Hr Hw Ha. destruct (layout_found f n ids L) as (E & F1 & F2 & F3 & F4 & F5).
  unfold read_file. rewrite E, F1, F2, F3. unfold ad14_read. rewrite F4, F5.
  rewrite (mapM_all (ad14_line R) value_entry _ hs); [|intros l e (w & r & W & Hf & ->); unfold ad14_line; unfold words_are in W; rewrite W, Hf; reflexivity|exact H12]. cbn [bind].
  assert (Hb : nonblank_run (polar f ++ after f) = polar f).
  { apply run_body; [|exact Ha]. clear - Hp Hr Hw. revert Hr. induction Hp as [|l vs ls rs (ws & W & F) _ IH]; intro Hr; [constructor|]. inversion Hr as [|? ? H1 H2]; subst. constructor; [|now apply IH].
    unfold words_are in W. rewrite W. destruct F; [cbn in Hw; lia|discriminate]. }
  rewrite Hb. assert (Er : ad14_rows num (polar f) = Ok (width, rows)).
  { unfold ad14_rows. rewrite (mapM_all (ad14_row num) number_row _ rows); [|intros l vs (ws & W & F); unfold ad14_row; unfold words_are in W; rewrite W; apply (mapM_all _ (fun w v => num w = Some v)); [intros x y ->; reflexivity|exact F]|exact Hp].
    cbn [bind]. destruct rows as [|r rs]; [contradiction|]. inversion Hr as [|? ? H1 H2]; subst. replace (forallb _ _) with true; [reflexivity|]. symmetry. apply forallb_forall. intros x Hx. apply Nat.eqb_eq. unfold rect in Hr. rewrite Forall_forall in Hr. now apply Hr. }
  rewrite Er. cbn [bind]. rewrite names_are. unfold column_names, title_entry. unfold af_lines. cbn [firstn map app]. rewrite (Forall2_len _ _ _ Hp). reflexivity.
Qed.

(** Whatever the file, what has been read of an AeroDyn 14 airfoil cannot be written: the writer stops with an error, after having
    emptied the file *)
Theorem C110_write_refuted : forall text fuel n ids es, ad14_file (splitlines text) = Some (Some (n, ids)) -> read fuel text = Some (Ok es) ->
  write_file fnum fexp fstr fspan fmat es = ([], Err PlainException).
Proof.
  intros text fuel n ids es Ha H. unfold read_file in H. destruct (first_char_error _); [discriminate|]. destruct (extptfm _); [discriminate|]. rewrite Ha in H. apply some_inj in H. unfold ad14_read in H.
  destruct (mapM _ _) as [hs|e] eqn:Eh; [|discriminate]. cbn [bind] in H. destruct (ad14_rows num _) as [[w rows]|e]; [|discriminate]. cbn [bind] in H. destruct (ad14_names n w ids) as [ns us]. apply Ok_inj in H. subst es.
  unfold write_file, to_string. rewrite app_assoc.
  rewrite (mapM_bad (entry_str fnum fexp fstr fspan fmat) PlainException); [reflexivity| |reflexivity]. intros y Hy. apply in_app_or in Hy. destruct Hy as [Hy|Hy].
  - apply in_map_iff in Hy. destruct Hy as (l & <- & _). eexists. reflexivity.
  - revert Hy. clear - Eh. revert hs Eh. induction (firstn 12 (skipn 2 (splitlines text))) as [|l ls IH]; intros hs E Hy; [injection E as <-; destruct Hy|].
    cbn [mapM] in E. destruct (ad14_line R l) as [d|e] eqn:Ed; [|discriminate]. cbn [bind] in E. destruct (mapM _ ls) as [ds|]; [|discriminate]. injection E as <-. destruct Hy as [<-|Hy]; [|now apply (IH ds)].
    unfold ad14_line in Ed. destruct (split_ws l) as [|w r]; [discriminate|]. destruct (strIsFloat w); [|discriminate]. injection Ed as <-. eexists. reflexivity.
Qed.

(** The files of that layout that cannot be read: a line of values that is blank or does not begin with a number, a row with a
    word that is not a number, rows of different lengths, no row at all *)
Definition bad_value (l : str) (e : exn) : Prop := (blank l /\ e = IndexError) \/ (exists w r, words_are l (w :: r) /\ strIsFloat w = false /\ e = ValueError).
Lemma bad_line l e : bad_value l e -> ad14_line (V := V) R l = Err e.
Proof.
  intros [[B ->]|(w & r & W & F & ->)]; unfold ad14_line; [rewrite (split_ws_blank l B); reflexivity|]. unfold words_are in W. now rewrite W, F.
Qed.
Theorem C110_bad_value : forall f n ids v1 l v2 hs e fuel, af_layout f n ids -> values12 f = v1 ++ l :: v2 -> Forall2 value_entry v1 hs -> bad_value l e ->
  read fuel (unlines (af_lines f)) = Some (Err e).
Proof.
  intros f n ids v1 l v2 hs e fuel L Ev H1 Hb. destruct (layout_found f n ids L) as (E & F1 & F2 & F3 & F4 & F5).
  unfold read_file. rewrite E, F1, F2, F3. unfold ad14_read. rewrite F4, Ev. rewrite (mapM_bad (ad14_line R) e); [reflexivity| |now apply bad_line].
  intros y Hy. clear - H1 Hy. induction H1 as [|l e ls es (w & r & W & Hf & ->) _ IH]; [destruct Hy|]. destruct Hy as [<-|Hy]; [|now apply IH]. eexists. unfold ad14_line. unfold words_are in W. rewrite W, Hf. reflexivity.
Qed.
Definition bad_rows (ls : list str) : Prop :=
  (exists l w, In l ls /\ In w (split_ws l) /\ num w = None) \/ (exists l1 l2, In l1 ls /\ In l2 ls /\ List.length (split_ws l1) <> List.length (split_ws l2)).
Lemma mapM_split {A B} (g : A -> res B) l m : mapM g l = Ok m -> Forall2 (fun x y => g x = Ok y) l m.
Proof. revert m. induction l as [|x l IH]; intros m H; cbn [mapM] in H; [injection H as <-; constructor|]. destruct (g x) eqn:E; [|discriminate]. cbn [bind] in H. destruct (mapM g l) as [ys|]; [|discriminate]. injection H as <-. constructor; [exact E|now apply IH]. Qed.
Lemma mapM_value {A B} (g : A -> res B) l : (forall x e, g x = Err e -> e = ValueError) -> forall e, mapM g l = Err e -> e = ValueError.
Proof. intros H. induction l as [|x l IH]; intros e E; cbn [mapM] in E; [discriminate|]. destruct (g x) eqn:Ex; [|injection E as <-; eauto]. cbn [bind] in E. destruct (mapM g l) eqn:El; [discriminate|]. injection E as <-. now apply IH. Qed.
Lemma row_value l e : ad14_row num l = Err e -> e = ValueError.
Proof. apply mapM_value. intros x e'. destruct (num x); [discriminate|]. intro H. now injection H as <-. Qed.
Theorem C110_bad_rows : forall f n ids hs fuel, af_layout f n ids -> Forall2 value_entry (values12 f) hs -> Forall (fun l => split_ws l <> []) (polar f) ->
  (match after f with [] => True | l :: _ => blank l end) -> (polar f = [] -> read fuel (unlines (af_lines f)) = Some (Err IndexError)) /\ (bad_rows (polar f) -> read fuel (unlines (af_lines f)) = Some (Err ValueError)).
Proof.
  intros f n ids hs fuel L H12 Hp Ha. destruct (layout_found f n ids L) as (E & F1 & F2 & F3 & F4 & F5).
  unfold read_file. rewrite E, F1, F2, F3. unfold ad14_read. rewrite F4, F5.
  rewrite (mapM_all (ad14_line R) value_entry _ hs); [|intros l e (w & r & W & Hf & ->); unfold ad14_line; unfold words_are in W; rewrite W, Hf; reflexivity|exact H12]. cbn [bind].
  rewrite (run_body _ _ Hp Ha). split; [intros ->; reflexivity|]. intro Hb. unfold ad14_rows. destruct (mapM (ad14_row num) (polar f)) as [rows|e] eqn:Em; cbn [bind]; [|rewrite (mapM_value _ _ row_value e Em); reflexivity].
  apply mapM_split in Em. assert (Lw : forall l vs, ad14_row num l = Ok vs -> List.length vs = List.length (split_ws l)) by (intros l vs; unfold ad14_row; apply mapM_length).
  assert (In_ : forall l, In l (polar f) -> exists vs, In vs rows /\ ad14_row num l = Ok vs).
  { clear - Em. induction Em as [|x y l m Hx _ IH]; intros a Hi; [destruct Hi|]. destruct Hi as [<-|Hi]; [exists y; split; [now left|exact Hx]|]. destruct (IH a Hi) as (vs & A & B). exists vs. split; [now right|exact B]. }
  destruct Hb as [(l & w & Hl & Hw & Hn)|(l1 & l2 & H1 & H2 & Hd)].
  - exfalso. destruct (In_ l Hl) as (vs & _ & Hr). unfold ad14_row in Hr. apply mapM_split in Hr. clear - Hr Hw Hn. induction Hr as [|x y a b Hx _ IH]; [destruct Hw|]. destruct Hw as [->|Hw]; [rewrite Hn in Hx; discriminate|now apply IH].
  - destruct (In_ l1 H1) as (v1 & I1 & R1), (In_ l2 H2) as (v2 & I2 & R2). destruct rows as [|r rs]; [destruct I1|].
    destruct (forallb _ _) eqn:Ef; [|reflexivity]. exfalso. rewrite forallb_forall in Ef. pose proof (Ef _ I1) as A. pose proof (Ef _ I2) as B. apply Nat.eqb_eq in A, B. apply Lw in R1, R2. congruence.
Qed.
End AD14.

(** ** Concrete cases *)
Definition af_demo : af_text := mk_af (S_ "AeroDyn airfoil file") (S_ "NACA64-618, two tables")
  (map S_ ["2 Number of airfoil tables in this file"; "1 2 Table ID parameter"; "13 14 Stall angle (deg)"; "0 0 No longer used, enter zero"; "0 0 No longer used"; "0 0 No longer used";
    "-4 -5 Zero Cn angle of attack (deg)"; "6 7 Cn slope"; "1 1 Cn extrapolated"; "-1 -1 Cn at stall value"; "2 3 Angle of attack for minimum CD"; "4 5 Minimum CD value"]%string)
  (map S_ ["-180 0 1 2 3"; "0   4 5 6 7"; "180  0 1 2 3"]%string) (map S_ [""; "EOF"]%string).
Example C110_nonvacuous : af_layout af_demo 2 [S_ "1"; S_ "2"] /\
  (exists hs, Forall2 (value_entry (V := Z) (fun t => t)) (values12 af_demo) hs) /\
  Forall2 (number_row znum) (polar af_demo) [[-180; 0; 1; 2; 3]; [0; 4; 5; 6; 7]; [180; 0; 1; 2; 3]]%Z /\
  column_names 2 [S_ "1"; S_ "2"] 5 = map S_ ["Alpha"; "Cl1"; "Cd1"; "Cl2"; "Cd2"]%string /\
  option_map (fun r => match r with Ok es => List.length es | Err _ => 0 end) (read_file znum 0%Z (fun t => t) 0 (unlines (af_lines af_demo))) = Some 15.
Proof.
  split; [|split; [|split; [|split; [reflexivity|vm_compute; reflexivity]]]].
  - split; [repeat constructor|]. split; [discriminate|]. split; [reflexivity|]. do 12 eexists.
    exists (S_ "2"), (map S_ ["Number"; "of"; "airfoil"; "tables"; "in"; "this"; "file"]%string), [S_ "Table"; S_ "ID"; S_ "parameter"], (S_ "Angle"), (S_ "Minimum").
    split; [reflexivity|]. do 3 (split; [vm_compute; reflexivity|]). do 2 (split; [vm_compute; reflexivity|]). split; [discriminate|]. do 3 (split; [vm_compute; reflexivity|]). vm_compute; reflexivity.
  - eexists. repeat (apply Forall2_cons; [do 2 eexists; split; [vm_compute; reflexivity|split; reflexivity]|]). apply Forall2_nil.
  - repeat (apply Forall2_cons; [eexists; split; [vm_compute; reflexivity|repeat constructor]|]). apply Forall2_nil.
Qed.
Print Assumptions C110_read. Print Assumptions C110_write_refuted. Print Assumptions C110_bad_value. Print Assumptions C110_bad_rows.
