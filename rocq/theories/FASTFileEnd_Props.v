(** Properties C109 and C110: BeamDyn files, files that cannot be read, and the airfoils of AeroDyn 14. *)
From Verif Require Import Py PyFacts TextFacts FASTIn_Model FASTIn_Proofs FASTIn_File FASTIn_Props FASTTab_Model FASTTab_Proofs FASTTab_Props FASTTabRead_Props FASTFile_Model.
From Verif Require Import FASTFile_Props.
Local Open Scope nat_scope.

Lemma splitlines_more ls t : Forall oneline ls -> splitlines (unlines ls ++ t) = ls ++ splitlines t.
Proof.
  unfold splitlines. induction 1 as [|l ls Hl _ IH]; [reflexivity|]. change (unlines (l :: ls)) with ((l ++ [nl]) ++ unlines ls). rewrite <- !app_assoc. cbn [app].
  rewrite splitlines_aux_line by exact Hl. cbn [rev app]. now rewrite IH.
Qed.

Lemma some_inj {A} (a b : A) : Some a = Some b -> a = b.
Proof. congruence. Qed.

Section More.
Context {V : Type}.
Variable num : str -> option V.
Variable zero : V.
Variable R : str -> str.
Variables fnum fexp fstr fspan fmat : V -> str.
Variables rnum rexp rstr : V -> V.
Local Notation ent := (FASTFile_Model.entry V).

(** The file begins with entries that are read as in C109_round_trip *)
Definition begins (es es' : list ent) (text1 : str) : Prop :=
  es <> [] /\ blocks num R fnum fexp fstr rnum rexp rstr first_word_tables second_word_tables [] es es' /\ to_string fnum fexp fstr fspan fmat es = Ok text1.
(** The text of a file that is none of the special kinds, and does not have too many comments *)
Definition usual (es : list ent) (text : str) : Prop :=
  100 * List.length (filter comment_of es) <= 35 * List.length (splitlines text) /\
  first_char_error (splitlines text) = false /\ extptfm (splitlines text) = false /\ ad14_file (splitlines text) = Some None.
Lemma prefix_read es es' text1 : begins es es' text1 -> exists ls k vals' labs', k <= List.length es /\ incl vals' first_word_tables /\ incl labs' second_word_tables /\
  (Forall no_tab es -> vals' = first_word_tables /\ labs' = second_word_tables) /\
  forall rest fuel, let text := text1 ++ [nl] ++ rest in usual es text -> splitlines text = ls ++ splitlines rest /\
    exists st', read_file num zero R (k + fuel) text = loop num zero R fuel (ls ++ splitlines rest) (List.length ls) st' /\ ready (nodal := false) st' es' (nC es) vals' labs'.
Proof.
  intros (Hne & B & Ht). destruct (loop_blocks (nodal := false) num zero R fnum fexp fstr fspan fmat rnum rexp rstr _ _ _ _ _ B (incl_refl _) (incl_refl _)) as (lls & k & vals' & labs' & W & Hk & Iv & Il & Hp & H).
  exists (concat lls), k, vals', labs'. split; [exact Hk|]. split; [exact Iv|]. split; [exact Il|]. split; [exact Hp|]. intros rest fuel text (Hc & F1 & F2 & F3).
  unfold to_string in Ht. rewrite (mapM_written fnum fexp fstr fspan fmat _ _ W) in Ht. cbn [bind] in Ht. apply Ok_inj in Ht.
  destruct (written_lines _ _ _ _ _ _ _ W) as [N O]. rewrite join_concat in Ht by exact N.
  assert (Nl : concat lls <> []) by (inversion W as [|? ? ? ? (_ & Z & _) _]; subst; [contradiction|]; destruct y; [contradiction|discriminate]).
  assert (El : splitlines text = concat lls ++ splitlines rest).
  { unfold text. rewrite <- Ht, app_assoc, unlines_join by exact Nl. now apply splitlines_more. }
  split; [exact El|]. unfold read_file. rewrite F1, F2, F3, El. assert (S0 : ready (V := V) (nodal := false) start [] 0 first_word_tables second_word_tables) by (constructor; try reflexivity; intros (? & [] & _)).
  rewrite El in Hc. specialize (H [] (splitlines rest) start 0 fuel S0). cbv zeta in H. cbn [app List.length plus] in H. destruct H as (st' & E & Rd); [exact Hc|]. exists st'. split; [exact E|exact Rd].
Qed.

(** ** BeamDyn blades: the sections end the file *)
Theorem C109_beamdyn : forall rspan rmat es es' text1 d sections text fuel, begins es es' text1 ->
  FASTIn_Props.entry R d -> no_linebreak (item_str d) = true -> outlist_line (item_str d) = false -> ssoutlist_line (item_str d) = false -> stiff_line (item_str d) = false -> dist_line (item_str d) = true ->
  Forall (good_section num fspan fmat rspan rmat) sections -> has_value (es' ++ [Item d]) (S_ "station_total") (VInt (Z.of_nat (List.length sections))) ->
  to_string fnum fexp fstr fspan fmat (es ++ [Item d; Beam sections]) = Ok text -> usual es text -> List.length es < fuel ->
  read_file num zero R fuel text = Some (Ok (es' ++ [Item d; Beam (map (fun s => mk_section (rspan (s_span s)) (map (map rmat) (s_K s)) (map (map rmat) (s_M s))) sections)])).
Proof.
  intros rspan rmat es es' text1 d ss text fuel Hb He Hn D1 D2 D3 D4 Hs Hst Ht Hu Hf.
  assert (Et : text = text1 ++ [nl] ++ item_str d ++ [nl] ++ beamdyn_str fspan fmat ss).
  { destruct Hb as (Hne & _ & H1). unfold to_string in H1, Ht.
    assert (A : forall a b, mapM (entry_str fnum fexp fstr fspan fmat) (a ++ b) = bind (mapM (entry_str fnum fexp fstr fspan fmat) a) (fun x => bind (mapM (entry_str fnum fexp fstr fspan fmat) b) (fun y => Ok (x ++ y)))).
    { intros a b. induction a as [|x a IH]; cbn [app mapM bind]; [destruct (mapM _ b); reflexivity|]. destruct (entry_str _ _ _ _ _ x); [|reflexivity]. cbn [bind]. rewrite IH. destruct (mapM _ a); [|reflexivity]. cbn [bind]. destruct (mapM _ b); reflexivity. }
    rewrite A in Ht. destruct (mapM (entry_str fnum fexp fstr fspan fmat) es) as [ls|] eqn:El; [|discriminate]. cbn [bind] in H1, Ht. apply Ok_inj in H1. cbn [mapM bind entry_str] in Ht. rewrite (entry_tab R d He) in Ht.
    replace (match it_comment d with true => Ok (item_str d) | false => Ok (item_str d) end) with (Ok (item_str d)) in Ht by (destruct (it_comment d); reflexivity). cbn [bind] in Ht. apply Ok_inj in Ht. subst text text1.
    apply mapM_length in El. assert (Nl : ls <> []) by (destruct ls, es; try discriminate; contradiction). rewrite join_app by (try exact Nl; discriminate). reflexivity. }
  subst text. destruct (prefix_read es es' text1 Hb) as (ls & k & vals' & labs' & Hk & _ & _ & _ & H).
  specialize (H (item_str d ++ [nl] ++ beamdyn_str fspan fmat ss) (fuel - k) Hu). destruct H as (_ & st' & E & [Hi _ _ _ _ _ _ _]).
  replace (k + (fuel - k)) with fuel in E by lia. rewrite E. replace (fuel - k) with (S (fuel - k - 1)) by lia.
  assert (El : splitlines (item_str d ++ [nl] ++ beamdyn_str fspan fmat ss) = item_str d :: splitlines (beamdyn_str fspan fmat ss)) by (unfold splitlines; cbn [app]; now rewrite splitlines_aux_line by exact Hn).
  rewrite El. cbn [loop]. rewrite nth_error_mid. unfold turn. rewrite D1, D2, D3, D4, (FASTIn_Props.entry_parse R d He). rewrite Hi.
  unfold count_of. destruct (find_value _ _ _ Hst) as (d1 & F1 & F2). rewrite F1, F2. cbn [bind].
  replace (Z.of_nat (List.length ss) <? 0)%Z with false by (symmetry; apply Z.ltb_ge; lia). rewrite Nat2Z.id.
  replace (ls ++ item_str d :: splitlines (beamdyn_str fspan fmat ss)) with ((ls ++ [item_str d]) ++ splitlines (beamdyn_str fspan fmat ss)) by (rewrite <- app_assoc; reflexivity).
  replace (S (List.length ls)) with (List.length (ls ++ [item_str d])) by (rewrite app_length; cbn; lia). rewrite FASTIn_File.skipn_exact.
  pose proof (C87_round_trip num fspan fmat rspan rmat ss [] Hs) as C. rewrite app_nil_r in C. rewrite C. cbn [bind]. rewrite <- app_assoc. reflexivity.
Qed.

(** ** Files that cannot be read *)
(** The table has a number of rows that is not in the file (KeyError), or is not a number (TypeError) *)
Definition no_key (es : list ent) (k : str) : Prop := Forall (fun e => ~ low_is (label_of e) k) es.
Lemma find_none_key es k : no_key es k -> find_entry es k = None.
Proof. unfold no_key, find_entry. induction 1 as [|e es He _ IH]; [reflexivity|]. cbn [find]. apply str_eqb_neq in He. now rewrite He. Qed.
Lemma first_table_turn ls more st es' c r a b rest labs : ready (nodal := false) st es' c first_word_tables labs -> In r first_word_tables -> heading_ok a b rest -> low_is a (t_word r) ->
  let lines := ls ++ heading (a :: b :: rest) :: more in
  exists r', turn num zero R lines (List.length ls) (heading (a :: b :: rest)) st = r' /\
   match dim_of es' [] (t_dim r) with
   | Some (Err e) => r' = Some (Err e)
   | Some (Ok n) => (n < 0)%Z \/ List.length (heading (a :: b :: rest) :: more) < Z.to_nat n + t_heads r -> r' = Some (Err BrokenFormatError)
   | None => r' = None
   end.
Proof.
  intros Rd Ir Hh La lines. eexists. split; [reflexivity|]. destruct Hh as (G & Pa & Lb & Hs & B1 & B2 & B3).
  assert (N : nth_error lines (List.length ls) = Some (heading (a :: b :: rest))) by apply nth_error_mid.
  destruct (Rd) as [Hi Hc Hw Hnd Ho Hv Hl Hal]. destruct (first_facts r Ir) as (F1 & F2 & F3 & F4).
  assert (Pick : exists rest', pick (lower a) first_word_tables = Some (r, rest')).
  { unfold low_is in La. rewrite La. clear - Ir. assert (K : forall l, NoDup (map (fun r => lower (t_word r)) l) -> In r l -> exists rest', pick (lower (t_word r)) l = Some (r, rest')).
    { induction l as [|x l IH]; intros Nd Hin; [destruct Hin|]. cbn [map] in Nd. inversion Nd as [|? ? N1 N2]; subst. cbn [pick]. destruct Hin as [->|Hin]; [rewrite str_eqb_refl; eexists; reflexivity|].
      destruct (str_eqb (lower (t_word x)) (lower (t_word r))) eqn:E; [|destruct (IH N2 Hin) as (q & ->); eexists; reflexivity].
      exfalso. apply str_eqb_eq in E. apply N1. rewrite E. apply (in_map (fun r => lower (t_word r))). exact Hin. }
    apply K; [|exact Ir]. clear. cbn [map first_word_tables t_word row]. repeat (apply NoDup_cons; [cbn; intuition discriminate|]). apply NoDup_nil. }
  destruct Pick as (rest' & Pk).
  rewrite turn_standard by exact Hs.
  rewrite (standard_line num zero R lines _ st _ _ N (fun al => parse_heading R a b rest al (conj G (conj Pa (conj Lb (conj Hs (conj B1 (conj B2 B3)))))))) by assumption.
  unfold tables. cbn [it_value it_label it_comment it_descr]. rewrite Hv, Pk, Hi. destruct (dim_of es' [] (t_dim r)) as [[n|e]|]; [|reflexivity|reflexivity].
  intro Hn. cbn [bind]. unfold block, lines. rewrite FASTIn_File.skipn_exact, F3, Nat.add_0_r. destruct (n <? 0)%Z eqn:En; [reflexivity|].
  apply Z.ltb_ge in En. destruct Hn as [Hn|Hn]; [lia|]. unfold parse_table. rewrite firstn_length, Nat.min_r by lia. replace (Nat.eqb _ _) with false; [reflexivity|].
  symmetry. apply Nat.eqb_neq. lia.
Qed.
Lemma read_at_heading es es' text1 r a b rest more fuel : begins es es' text1 -> Forall no_tab es -> In r first_word_tables -> heading_ok a b rest -> low_is a (t_word r) ->
  let text := text1 ++ [nl] ++ heading (a :: b :: rest) ++ [nl] ++ more in usual es text -> List.length es < fuel ->
  match dim_of es' [] (t_dim r) with
  | Some (Err e) => read_file num zero R fuel text = Some (Err e)
  | Some (Ok n) => (n < 0)%Z \/ S (List.length (splitlines more)) < Z.to_nat n + t_heads r -> read_file num zero R fuel text = Some (Err BrokenFormatError)
  | None => read_file num zero R fuel text = None
  end.
Proof.
  intros Hb Hp Ir Hh La text Hu Hf. destruct (prefix_read es es' text1 Hb) as (ls & k & vals' & labs' & Hk & _ & _ & Hp' & H). destruct (Hp' Hp) as [-> ->].
  destruct (H (heading (a :: b :: rest) ++ [nl] ++ more) (fuel - k) Hu) as (_ & st' & E & Rd). replace (k + (fuel - k)) with fuel in E by lia.
  assert (O : oneline (heading (a :: b :: rest))) by (apply oneline_heading, good_name_normal, Hh).
  assert (El : splitlines (heading (a :: b :: rest) ++ [nl] ++ more) = heading (a :: b :: rest) :: splitlines more) by (unfold splitlines; cbn [app]; now rewrite splitlines_aux_line by exact O).
  rewrite El in E. fold text in E. rewrite E. destruct (first_table_turn ls (splitlines more) st' es' (nC es) r a b rest second_word_tables Rd Ir Hh La) as (r' & T & M).
  replace (fuel - k) with (S (fuel - k - 1)) by lia. cbn [loop]. rewrite nth_error_mid, T. destruct (dim_of es' [] (t_dim r)) as [[n|e]|].
  - intro Hn. rewrite M by exact Hn. reflexivity.
  - now rewrite M.
  - now rewrite M.
Qed.
(** ... whose number of rows is not in the file *)
Theorem C109_no_count : forall es es' text1 r k a b rest more fuel, begins es es' text1 -> Forall no_tab es -> In r first_word_tables -> t_dim r = Key k -> heading_ok a b rest -> low_is a (t_word r) ->
  let text := text1 ++ [nl] ++ heading (a :: b :: rest) ++ [nl] ++ more in usual es text -> List.length es < fuel ->
  Forall (fun e => ~ low_is (label_of e) k) es' -> read_file num zero R fuel text = Some (Err KeyError).
Proof.
  intros es es' text1 r k a b rest more fuel Hb Hp Ir Hd Hh La text Hu Hf Hk. pose proof (read_at_heading es es' text1 r a b rest more fuel Hb Hp Ir Hh La Hu Hf) as M.
  rewrite Hd in M. cbn [dim_of] in M. unfold count_of in M. rewrite app_nil_r, find_none_key in M by exact Hk. exact M.
Qed.
(** ... whose number of rows is not a number *)
Theorem C109_bad_count : forall es es' text1 r k a b rest more fuel v, begins es es' text1 -> Forall no_tab es -> In r first_word_tables -> t_dim r = Key k -> heading_ok a b rest -> low_is a (t_word r) ->
  let text := text1 ++ [nl] ++ heading (a :: b :: rest) ++ [nl] ++ more in usual es text -> List.length es < fuel ->
  has_value es' k v -> (forall z, v <> VInt z) -> (forall z, v <> VBool z) -> read_file num zero R fuel text = Some (Err TypeError).
Proof.
  intros es es' text1 r k a b rest more fuel v Hb Hp Ir Hd Hh La text Hu Hf Hk H1 H2. pose proof (read_at_heading es es' text1 r a b rest more fuel Hb Hp Ir Hh La Hu Hf) as M.
  rewrite Hd in M. cbn [dim_of] in M. unfold count_of in M. destruct (find_value _ _ _ Hk) as (d & F1 & F2). rewrite app_nil_r, F1, F2 in M.
  destruct v as [z|w|z|w|l]; try exact M; [now elim (H1 z)|now elim (H2 z)].
Qed.
(** ... that has fewer lines than announced, or a negative number *)
Theorem C109_short_table : forall es es' text1 r a b rest more fuel n, begins es es' text1 -> Forall no_tab es -> In r first_word_tables -> heading_ok a b rest -> low_is a (t_word r) ->
  let text := text1 ++ [nl] ++ heading (a :: b :: rest) ++ [nl] ++ more in usual es text -> List.length es < fuel ->
  match t_dim r with Const m => n = Z.of_nat m | Key k => has_value es' k (VInt n) end ->
  (n < 0)%Z \/ (Z.of_nat (S (List.length (splitlines more))) < n + Z.of_nat (t_heads r))%Z -> read_file num zero R fuel text = Some (Err BrokenFormatError).
Proof.
  intros es es' text1 r a b rest more fuel n Hb Hp Ir Hh La text Hu Hf Hk Hn. pose proof (read_at_heading es es' text1 r a b rest more fuel Hb Hp Ir Hh La Hu Hf) as M.
  assert (D : dim_of es' [] (t_dim r) = Some (Ok n)).
  { destruct (t_dim r) as [k|m]; cbn [dim_of]; [|now subst]. unfold count_of. destruct (find_value _ _ _ Hk) as (d & F1 & F2). now rewrite app_nil_r, F1, F2. }
  rewrite D in M. apply M. destruct Hn as [Hn|Hn]; [now left|]. destruct (Z_lt_le_dec n 0); [now left|]. right. lia.
Qed.

(** ** A list of files with no file: the reader never ends *)
Lemma loop_less fuel lines i st : loop num zero R (S fuel) lines i st = Some (Err OutOfFuel) -> loop num zero R fuel lines i st = Some (Err OutOfFuel).
Proof.
  revert i st. induction fuel as [|fuel IH]; intros i st H.
  - cbn [loop] in H |- *. destruct (nth_error lines i); [reflexivity|discriminate].
  - remember (S fuel) as f. cbn [loop] in H. subst f. cbn [loop]. destruct (nth_error lines i) as [l|]; [|exact H]. destruct (turn num zero R lines i l st) as [[[i' st'|es]|e]|]; try exact H. now apply IH.
Qed.
Lemma read_less fuel k text : read_file num zero R (k + fuel) text = Some (Err OutOfFuel) -> read_file num zero R fuel text = Some (Err OutOfFuel).
Proof.
  unfold read_file. destruct (first_char_error _); [auto|]. destruct (extptfm _); [auto|]. destruct (ad14_file _) as [[[n ids]|]|]; try auto. induction k as [|k IH]; [auto|]. intro H. apply IH, loop_less, H.
Qed.
Theorem C109_no_files_refuted : forall es es' text1 d name k more fuel, begins es es' text1 ->
  FASTIn_Props.entry R d -> it_comment d = false -> no_linebreak (item_str d) = true -> no_section (item_str d) ->
  (forall s, it_value d = VStr s -> ~ word_in s first_word_tables) ->
  In (name, k) [(S_ "FoilNm", S_ "NumFoil"); (S_ "AFNames", S_ "NumAFfiles")] -> low_is (it_label d) name -> has_value es' k (VInt 0) ->
  let text := text1 ++ [nl] ++ item_str d ++ [nl] ++ more in usual es text ->
  read_file num zero R fuel text = Some (Err OutOfFuel).
Proof.
  intros es es' text1 d name k more fuel Hb He Hc Hn Hs Hv Hin Hl Hk text Hu. destruct (prefix_read es es' text1 Hb) as (ls & k0 & vals' & labs' & Hk0 & Iv & Il & _ & H).
  destruct (H (item_str d ++ [nl] ++ more) fuel Hu) as (Sl & st' & E & Rd). apply (read_less fuel k0). fold text in E. rewrite E.
  assert (El : splitlines (item_str d ++ [nl] ++ more) = item_str d :: splitlines more) by (unfold splitlines; cbn [app]; now rewrite splitlines_aux_line by exact Hn).
  rewrite El. destruct Hu as (Hlim & _). fold text in Sl. rewrite Sl, El in Hlim. set (lines := ls ++ item_str d :: splitlines more) in *.
  destruct (file_facts name k Hin) as (Tn & Ln & Cn & Wn & Fn & B1 & B2 & B3). unfold low_is in Hl.
  assert (Hll : nth_error lines (List.length ls) = Some (item_str d)) by apply nth_error_mid.
  clear E H. assert (St : exists x, ready (nodal := false) st' (es' ++ x) (nC es) vals' labs') by (exists []; now rewrite app_nil_r). clear Rd.
  revert st' St. induction fuel as [|fuel IH]; intros st' (x & Rd); cbn [loop]; rewrite Hll; [reflexivity|].
  rewrite turn_standard by exact Hs. destruct (Rd) as [Hi Hc' Hw Hnd Ho Hva Hla Hal].
  rewrite (standard_line num zero R lines _ st' _ _ Hll (FASTIn_Props.entry_parse R d He)) by (try assumption; rewrite Hl; assumption).
  unfold tables. rewrite Hva, Hla, Ho.
  replace (match it_value d with VStr s => pick (lower s) vals' | _ => None end) with (@None (trow * list trow)).
  2: { destruct (it_value d) as [| | |u|] eqn:Eu; try reflexivity. symmetry. apply pick_none. intros (r & Hr & L). apply (Hv u eq_refl). exists r. split; [now apply Iv|exact L]. }
  rewrite Hl, pick_none by (intros (r & Hr & L); apply Wn; exists r; split; [now apply Il|exact L]). rewrite Fn, Hc, Hi.
  assert (Ct : count_of (es' ++ x) k = Some (Ok 0%Z)).
  { unfold count_of. destruct Hk as (b1 & d1 & b2 & -> & L & Ev & F). destruct (find_value ((b1 ++ Item d1 :: b2) ++ x) k (VInt 0)) as (d2 & F1 & F2).
    - exists b1, d1, (b2 ++ x). split; [now rewrite <- app_assoc|]. auto.
    - now rewrite F1, F2. }
  rewrite Ct. cbn [bind Z.ltb Z.compare Z.to_nat firstn]. change (parse_files [] 0) with (@Ok (list str) []). cbn [bind map]. rewrite !app_nil_r, Nat.add_0_r.
  unfold go. match goal with |- context [fcheck _ _ ?e _] => set (f := e) end.
  destruct (fcheck_ok num zero R fnum fexp fstr fspan fmat rnum rexp rstr (List.length lines) (List.length ls) f st' (es' ++ x) (nC es) vals' labs' Rd) as (st2 & E2 & R2 & _).
  - unfold nC at 2. cbn [filter comment_of f it_comment List.length]. rewrite Nat.add_0_r. exact Hlim.
  - intros _. cbn [label_of f it_label]. split; [exact Cn|now apply token_nonnil].
  - intros d0 Q T0 _. unfold f in Q. injection Q as Q. subst d0. discriminate T0.
  - rewrite E2. cbn [bind]. apply IH. exists (x ++ [f]). unfold nC at 2 in R2. cbn [filter comment_of f it_comment List.length] in R2. rewrite Nat.add_0_r, <- app_assoc in R2. exact R2.
Qed.

(** ** Every other file is read in at most as many turns as it has lines *)
Definition no_file_list (l : str) : Prop := forall allow d, parse_line R allow l = Ok d -> ~ low_is (it_label d) (S_ "FoilNm") /\ ~ low_is (it_label d) (S_ "AFNames").
Definition off_ok (o : str) : Prop := o = [] \/ exists t, o = S_ "_" ++ t.
Lemma lab_rows_facts r : In r lab_rows -> t_offset r <= 1 \/ (t_offset r = 2 /\ t_heads r = 0 /\ t_numeric r = false).
Proof.
  intro H. assert (F : forallb (fun r => (t_offset r <=? 1) || ((t_offset r =? 2) && (t_heads r =? 0) && negb (t_numeric r))) lab_rows = true) by reflexivity.
  rewrite forallb_forall in F. apply F in H. apply orb_prop in H. destruct H as [H|H]; [left; now apply Nat.leb_le|right]. apply andb_inv in H. destruct H as [H H3]. apply andb_inv in H. destruct H as [H1 H2].
  apply Nat.eqb_eq in H1, H2. apply negb_true_iff in H3. auto.
Qed.
Lemma val_rows_facts r : In r val_rows -> 1 <= t_heads r.
Proof. intro H. assert (F : forallb (fun r => 1 <=? t_heads r) val_rows = true) by reflexivity. rewrite forallb_forall in F. apply F in H. now apply Nat.leb_le. Qed.
Lemma pick_in w l r rest : pick w l = Some (r, rest) -> In r l /\ incl rest l.
Proof.
  revert r rest. induction l as [|x l IH]; intros r rest H; [discriminate|]. cbn [pick] in H. destruct (str_eqb _ w).
  - injection H as <- <-. split; [now left|now apply incl_tl, incl_refl].
  - destruct (pick w l) as [[r' rest']|] eqn:E; [|discriminate]. cbn in H. injection H as <- <-. destruct (IH _ _ eq_refl) as [I1 I2]. split; [now right|]. intros y [<-|Hy]; [now left|right; now apply I2].
Qed.
Record sane (st : fstate V) : Prop := mk_sane { sn_off : off_ok (s_off st); sn_vals : incl (s_vals st) val_rows; sn_labs : incl (s_labs st) lab_rows }.
Lemma fcheck_sane nl_ i e st st' : fcheck nl_ i e st = Ok st' -> sane st -> sane st'.
Proof. unfold fcheck. repeat (match goal with |- context [if ?b then _ else _] => destruct b end; try discriminate); intros H [A B C]; apply Ok_inj in H; subst st'; now constructor. Qed.
Lemma go_sane lines i e st i' st' : go lines i e st = Ok (Go i' st') -> sane st -> i' = i /\ sane st'.
Proof. unfold go. destruct (fcheck _ i e st) as [x|] eqn:E; [|discriminate]. cbn [bind]. intro H. apply Ok_inj in H. injection H as <- <-. intro S. split; [reflexivity|]. eapply fcheck_sane; eassumption. Qed.
Lemma has_low c s : In c s -> In (lower_c c) (lower s).
Proof. apply in_map. Qed.
Lemma tables_progress lines i lr d st i' st' : sane st -> (~ low_is (it_label d) (S_ "FoilNm") /\ ~ low_is (it_label d) (S_ "AFNames")) ->
  tables num zero lines i lr d st = Some (Ok (Go i' st')) -> i < i' /\ sane st'.
Proof.
  intros Sn Hl H. destruct (Sn) as [So Sv Sl]. unfold tables in H. destruct (match it_value d with VStr s => pick (lower s) (s_vals st) | _ => None end) as [[r rest]|] eqn:Ev.
  - destruct (it_comment d); [discriminate|]. destruct (dim_of _ _ _) as [[n|e]|]; [|discriminate|discriminate]. cbn [bind] in H. destruct (block num zero lines i r n) as [[[v ns] us]|]; [|discriminate]. cbn [bind] in H. injection H as H.
    destruct (it_value d) as [| | |s|]; try discriminate. destruct (pick_in _ _ _ _ Ev) as [I1 I2]. apply go_sane in H; [|constructor; cbn; [exact So|intros y Hy; apply Sv, I2, Hy|exact Sl]]. destruct H as [-> H]. split; [|exact H].
    pose proof (val_rows_facts r (Sv _ I1)). lia.
  - destruct (pick lr (s_labs st)) as [[r rest]|] eqn:El.
    + destruct (it_comment d); [discriminate|]. destruct (pick_in _ _ _ _ El) as [I1 I2].
      match type of H with match ?x with _ => _ end = _ => destruct x as [[n|e]|] end; [|discriminate|discriminate]. cbn [bind] in H.
      match type of H with context [block num zero lines ?j r n] => set (i0 := j) in * end. assert (Hi0 : i <= i0) by (unfold i0; destruct (str_eqb lr (S_ "numalf")); lia). clearbody i0.
      destruct (block num zero lines i0 r n) as [[[v ns] us]|] eqn:Eb; [|discriminate]. cbn [bind] in H. injection H as H.
      apply go_sane in H.
      * destruct H as [-> H]. split; [|exact H]. destruct (lab_rows_facts r (Sl _ I1)) as [Ho|(O1 & O2 & O3)]; [lia|]. exfalso. unfold block in Eb. destruct (n <? 0)%Z; [discriminate|]. rewrite O1, O2, O3 in Eb.
        unfold parse_table in Eb. destruct (negb _); [discriminate|]. destruct (nth_error _ 2); discriminate.
      * change ["n"; "u"; "m"; "a"; "l"; "f"]%char with (S_ "numalf"). destruct (str_eqb lr (S_ "numalf")); destruct (0 <? t_offset r); constructor; cbn; auto; try (intros y Hy; apply Sl, I2, Hy).
    + destruct (find _ file_rows) as [[name k]|] eqn:Ef.
      * exfalso. apply find_some in Ef. destruct Ef as [Ef1 Ef2]. cbn [fst] in Ef2. apply str_eqb_eq in Ef2. destruct Hl as [L1 L2]. destruct Ef1 as [E|[E|[]]]; injection E as <- <-; [apply L1|apply L2]; symmetry; exact Ef2.
      * injection H as H. apply go_sane in H; [|exact Sn]. destruct H as [-> H]. split; [lia|exact H].
Qed.
Lemma label_off lab o name : off_ok o -> ~ In "_"%char (lower name) -> ~ low_is lab name -> ~ low_is (lab ++ o) name.
Proof.
  intros Ho Hu Hl E. unfold low_is in *. rewrite lower_app in E. destruct Ho as [->|[t ->]]; [cbn in E; rewrite app_nil_r in E; contradiction|]. apply Hu. rewrite <- E. apply in_or_app. right. now left.
Qed.
Lemma standard_progress lines i st i' st' : sane st -> Forall no_file_list lines -> standard num zero R lines i st = Some (Ok (Go i' st')) -> i < i' /\ sane st'.
Proof.
  intros Sn Hf H. unfold standard, line_at in H. destruct (nth_error lines i) as [l|] eqn:El; [|discriminate]. cbn [bind] in H. destruct (parse_line R (s_allow st) l) as [d0|] eqn:Ep; [|discriminate].
  destruct (Sn) as [So Sv Sl]. rewrite Forall_forall in Hf. destruct (Hf l (nth_error_In _ _ El) _ _ Ep) as [L1 L2].
  assert (Q : forall o, off_ok o -> ~ low_is (it_label (relabel (it_label d0 ++ o) d0)) (S_ "FoilNm") /\ ~ low_is (it_label (relabel (it_label d0 ++ o) d0)) (S_ "AFNames")).
  { intros o Ho. cbn [relabel it_label]. split; (apply label_off; [exact Ho| |assumption]); cbn; intuition discriminate. }
  destruct (str_eqb (lower (it_label d0)) (S_ "kp_total")).
  { eapply tables_progress; [|apply Q, So|exact H]. constructor; cbn; assumption. }
  destruct (str_eqb (lower (it_label d0)) (S_ "numcoords")).
  { destruct (it_value _); try discriminate; [|eapply tables_progress; [exact Sn|apply Q, So|exact H]]. destruct (z <=? 0)%Z; [eapply tables_progress; [exact Sn|apply Q, So|exact H]|].
    exfalso. unfold coords in H. match type of H with match ?x with _ => _ end = _ => destruct x as [st2|e] end; [|discriminate]. destruct (count_of _ _) as [[n|e]|]; [|discriminate|discriminate]. cbn [bind] in H.
    destruct (n <? 1)%Z; [discriminate|]. destruct (parse_table _ _ _ _ _ _ _) as [[[v ns] us]|]; discriminate. }
  destruct (str_eqb (lower (it_label d0)) (S_ "re")) eqn:Ere; [|eapply tables_progress; [exact Sn|apply Q, So|exact H]].
  destruct (find_entry (s_items st) (S_ "NumTabs")) as [[t| | |]|]; try discriminate.
  assert (O2 : forall many : bool, off_ok (if many then S_ "_" ++ str_of_N (N.of_nat (S (s_itab st))) else s_off st)) by (intros [|]; [right; eexists; reflexivity|exact So]).
  assert (Q2 : forall o, off_ok o -> ~ low_is (lower (it_label d0) ++ o) (S_ "FoilNm") /\ ~ low_is (lower (it_label d0) ++ o) (S_ "AFNames")).
  { apply str_eqb_eq in Ere. rewrite Ere. intros o Ho. split; (apply label_off; [exact Ho| |]); cbn; intuition discriminate. }
  destruct (it_value t); try discriminate; (apply tables_progress in H; [exact H|constructor; cbn; auto; apply O2|cbn [relabel it_label]; apply Q2; first [exact So|apply O2]]).
Qed.
Lemma the_end_ok es : the_end (V := V) R es = Ok (Stop (es ++ [Item end_item; Item dash_item])).
Proof. unfold the_end. rewrite parse_end. cbn [bind]. rewrite parse_dash. reflexivity. Qed.
Lemma bind_never {A B} (r : res A) (k : A -> res B) b : (forall a, k a <> Ok b) -> bind r k <> Ok b.
Proof. intros Hk. destruct r as [a|e]; [exact (Hk a)|discriminate]. Qed.
Lemma turn_progress lines i l st i' st' : sane st -> Forall no_file_list lines -> turn num zero R lines i l st = Some (Ok (Go i' st')) -> i < i' /\ sane st'.
Proof.
  intros Sn Hf H. destruct (Sn) as [So Sv Sl]. unfold turn in H. destruct (outlist_line l).
  - destruct (negb _); [discriminate|]. destruct (parseFASTOutList lines (S i)) as [[o j]|] eqn:Eo; [|discriminate].
    assert (Hj : i < j) by (unfold parseFASTOutList in Eo; destruct (outlist_loop _ _); [|discriminate]; cbn [bind] in Eo; apply Ok_inj in Eo; injection Eo as <- <-; lia).
    destruct (nth_error lines j); [|discriminate]. rewrite the_end_ok in H. destruct (nth_error lines (j + 2)); [|discriminate]. destruct (_ || _); [|discriminate].
    apply standard_progress in H; [split; [lia|apply H]|constructor; cbn; assumption|exact Hf].
  - destruct (ssoutlist_line l).
    + exfalso. apply some_inj in H. revert H. apply bind_never. intros d. apply bind_never. intros [o j]. rewrite the_end_ok. discriminate.
    + destruct (stiff_line l).
      * destruct (parse_line R false l); [|discriminate]. destruct (_ <? 19); [discriminate|]. destruct (List.length lines <=? i + 20); [discriminate|].
        apply standard_progress in H; [split; [lia|apply H]|constructor; cbn; assumption|exact Hf].
      * destruct (dist_line l).
        -- destruct (parse_line R false l); [|discriminate]. destruct (count_of _ _) as [[n|e]|]; [|discriminate|discriminate]. cbn [bind] in H. destruct (n <? 0)%Z; [discriminate|]. destruct (beamdyn_read _ _ _); discriminate.
        -- now apply standard_progress in H.
Qed.
(** No other part of the reader is bounded by fuel *)
Definition fine {A} (r : res A) : Prop := r <> Err OutOfFuel.
Lemma fine_ok {A} (a : A) : fine (Ok a).
Proof. discriminate. Qed.
Lemma fine_bind {A B} (r : res A) (k : A -> res B) : fine r -> (forall a, fine (k a)) -> fine (bind r k).
Proof. intros H1 H2. destruct r as [a|e]; cbn [bind]; [apply H2|]. intro E. apply H1. injection E as ->. reflexivity. Qed.
Lemma fine_mapM {A B} (g : A -> res B) l : (forall a, fine (g a)) -> fine (mapM g l).
Proof. intro H. induction l as [|a l IH]; [discriminate|]. cbn [mapM]. apply fine_bind; [apply H|]. intro b. apply fine_bind; [exact IH|]. intro; discriminate. Qed.
Ltac fine_tac := repeat first [discriminate | assumption | apply fine_ok | apply fine_bind; [|intro] | apply fine_mapM; intro | progress cbv beta iota zeta | match goal with |- fine (match ?x with _ => _ end) => destruct x end ].
Lemma fine_parse allow l : fine (parse_line R allow l).
Proof. unfold parse_line. destruct (_ || _); [discriminate|]. destruct (parse_body _ _ _ _) as [d|[]]; discriminate. Qed.
Lemma fine_float w : fine (float_ num w).
Proof. unfold float_, broken. fine_tac. Qed.
Lemma fine_table b ls n h o : fine (parse_table num zero b ls n h o).
Proof.
  assert (L : forall ns k, fine (last_is ns k)) by (intros; unfold last_is, broken; fine_tac).
  assert (M : forall k x, fine (more k x)) by (intros; unfold more, broken; fine_tac).
  assert (F : forall w, fine (float_ num w)) by apply fine_float.
  assert (W : forall w, fine (mix_words w)) by (intros; unfold mix_words, broken; fine_tac).
  unfold parse_table, broken. destruct (negb _); [discriminate|]. apply fine_bind; [fine_tac|]. intro hd. destruct b.
  - apply fine_bind; [|intros [h' rows]; discriminate]. unfold num_rows. destruct (skipn (h + o) ls) as [|x y]; [discriminate|]. apply fine_bind; [unfold num_first; fine_tac; try apply L; apply M|]. intro h'. apply fine_bind; [|discriminate].
    apply fine_mapM. intro a. unfold num_row, broken. fine_tac; try apply L; try apply F.
  - apply fine_bind; [|intros [h' rows]; discriminate]. unfold mix_rows. destruct (skipn (h + o) ls) as [|x y]; [discriminate|]. apply fine_bind; [apply W|]. intro v. apply fine_bind; [unfold mix_first; fine_tac; try apply L; apply M|]. intro h'. apply fine_bind; [|discriminate].
    apply fine_mapM. intro a. unfold mix_row, broken. fine_tac; try apply L; try apply W.
Qed.
Lemma fine_block lines i r n : fine (block num zero lines i r n).
Proof. unfold block, broken. destruct (n <? 0)%Z; [discriminate|]. apply fine_table. Qed.
Lemma fine_fcheck nl_ i (e : ent) st : fine (fcheck nl_ i e st).
Proof. unfold fcheck. fine_tac. Qed.
Lemma fine_go lines i (e : ent) st : fine (go lines i e st).
Proof. unfold go. apply fine_bind; [apply fine_fcheck|]. intro; discriminate. Qed.
Lemma fine_count (es : list ent) k r : count_of es k = Some r -> fine r.
Proof. unfold count_of. destruct (find_entry es k) as [[d| | |]|]; try discriminate; [destruct (it_value d); try discriminate|]; intro H; injection H as <-; discriminate. Qed.
Lemma fine_dim (es : list ent) o k r : dim_of es o k = Some r -> fine r.
Proof. destruct k; cbn [dim_of]; [apply fine_count|]. intro H. injection H as <-. discriminate. Qed.
Lemma fine_files ls n : fine (parse_files ls n).
Proof. unfold parse_files. fine_tac. Qed.
Lemma fine_at lines i : fine (line_at lines i).
Proof. unfold line_at. fine_tac. Qed.
Lemma fine_parse_at lines i : fine (parse_at (V := V) R lines i).
Proof. unfold parse_at. apply fine_bind; [apply fine_at|]. intro. apply fine_bind; [apply fine_parse|]. intro; discriminate. Qed.
Lemma fine_ref l : fine (ref_point num l).
Proof. unfold ref_point. fine_tac. Qed.
Lemma fine_outlist ls : forall n, fine (outlist_loop n ls).
Proof. induction ls as [|l ls IH]; intro n; [discriminate|]. cbn [outlist_loop]. destruct (is_END l); [discriminate|]. destruct (200 <? S n); [discriminate|]. apply fine_bind; [apply IH|]. intro; discriminate. Qed.
Lemma fine_beam n : forall ls, fine (beamdyn_read num n ls).
Proof.
  assert (M : forall ls, fine (mat6 num ls)) by (intro; unfold mat6; fine_tac).
  induction n as [|n IH]; intro ls; [discriminate|]. cbn [beamdyn_read]. destruct ls as [|l r]; [discriminate|]. destruct (float_line num l); [|discriminate]. repeat (apply fine_bind; [first [apply M|apply IH]|intro]). discriminate.
Qed.
Lemma fine_end es : fine (the_end (V := V) R es).
Proof. rewrite the_end_ok. discriminate. Qed.
Lemma fine_some {A} (r : res A) : fine r -> Some r <> Some (Err OutOfFuel).
Proof. intros H E. injection E as E. now apply H. Qed.
Lemma fine_tables lines i lr d st : tables num zero lines i lr d st <> Some (Err OutOfFuel).
Proof.
  unfold tables. destruct (match it_value d with VStr s => pick (lower s) (s_vals st) | _ => None end) as [[r rest]|].
  - destruct (it_comment d); [discriminate|]. destruct (dim_of _ _ _) as [rn|] eqn:E; [|discriminate]. apply fine_some. apply fine_bind; [eapply fine_dim; exact E|]. intro n. apply fine_bind; [apply fine_block|]. intros [[v ns] us]. apply fine_go.
  - destruct (pick lr (s_labs st)) as [[r rest]|].
    + destruct (it_comment d); [discriminate|]. match goal with |- match ?x with _ => _ end <> _ => destruct x as [rn|] eqn:E end; [|discriminate]. apply fine_some. apply fine_bind; [eapply fine_dim; exact E|]. intro n.
      apply fine_bind; [apply fine_block|]. intros [[v ns] us]. apply fine_go.
    + destruct (find _ file_rows) as [[name k]|].
      * destruct (it_comment d); [discriminate|]. destruct (count_of _ _) as [rn|] eqn:E; [|discriminate]. apply fine_some. apply fine_bind; [eapply fine_count; exact E|]. intro n.
        apply fine_bind; [destruct (n <? 0)%Z; [discriminate|apply fine_files]|]. intro. apply fine_go.
      * apply fine_some, fine_go.
Qed.
Lemma fine_standard lines i st : standard num zero R lines i st <> Some (Err OutOfFuel).
Proof.
  unfold standard. destruct (bind (line_at lines i) _) as [d0|e] eqn:E.
  - destruct (str_eqb _ (S_ "kp_total")); [apply fine_tables|]. destruct (str_eqb _ (S_ "numcoords")).
    + destruct (it_value _); try discriminate; [|apply fine_tables]. destruct (z <=? 0)%Z; [apply fine_tables|]. unfold coords.
      match goal with |- match ?x with _ => _ end <> _ => destruct x as [st2|e] eqn:E2 end.
      * destruct (count_of _ _) as [rn|] eqn:E3; [|discriminate]. apply fine_some. apply fine_bind; [eapply fine_count; exact E3|]. intro n. destruct (n <? 1)%Z; [discriminate|]. apply fine_bind; [apply fine_table|]. intros [[v ns] us]. discriminate.
      * assert (F : fine (@Err (fstate V) e)); [|intro Q; injection Q as ->; now apply F]. rewrite <- E2. repeat (apply fine_bind; [first [apply fine_parse_at|apply fine_at|apply fine_ref]|intro]). discriminate.
    + destruct (str_eqb _ (S_ "re")); [|apply fine_tables]. destruct (find_entry _ _) as [[t| | |]|]; try discriminate. destruct (it_value t); try discriminate; apply fine_tables.
  - assert (F : fine (@Err item e)); [|intro Q; injection Q as ->; now apply F]. rewrite <- E. apply fine_bind; [apply fine_at|]. intro. apply fine_parse.
Qed.
Lemma fine_turn lines i l st : turn num zero R lines i l st <> Some (Err OutOfFuel).
Proof.
  unfold turn. destruct (outlist_line l).
  - destruct (negb _); [discriminate|]. destruct (parseFASTOutList lines (S i)) as [[o j]|e] eqn:E.
    + destruct (nth_error lines j); [|discriminate]. destruct (nth_error lines (j + 2)); [|apply fine_some, fine_end]. destruct (_ || _); [apply fine_standard|apply fine_some, fine_end].
    + unfold parseFASTOutList in E. assert (F : fine (@Err (list str * nat) e)); [|intro Q; injection Q as ->; now apply F]. rewrite <- E. apply fine_bind; [apply fine_outlist|]. intro; discriminate.
  - destruct (ssoutlist_line l).
    + apply fine_some. apply fine_bind; [apply fine_parse|]. intro d. apply fine_bind; [unfold parseFASTOutList; apply fine_bind; [apply fine_outlist|]; intro; discriminate|]. intros [o j]. apply fine_end.
    + destruct (stiff_line l).
      * destruct (parse_line R false l) as [d|e] eqn:E; [|pose proof (fine_parse false l) as F; rewrite E in F; intro Q; injection Q as ->; now apply F]. destruct (_ <? 19); [discriminate|]. destruct (_ <=? _); [discriminate|apply fine_standard].
      * destruct (dist_line l); [|apply fine_standard]. destruct (parse_line R false l) as [d|e] eqn:E; [|pose proof (fine_parse false l) as F; rewrite E in F; intro Q; injection Q as ->; now apply F].
        destruct (count_of _ _) as [rn|] eqn:E3; [|discriminate]. apply fine_some. apply fine_bind; [eapply fine_count; exact E3|]. intro n. destruct (n <? 0)%Z; [discriminate|]. apply fine_bind; [apply fine_beam|]. intro; discriminate.
Qed.
Lemma loop_ends lines : Forall no_file_list lines -> forall fuel i st, sane st -> List.length lines <= i + fuel -> loop num zero R fuel lines i st <> Some (Err OutOfFuel).
Proof.
  intro Hf. induction fuel as [|fuel IH]; intros i st Sn Hl.
  - cbn [loop]. destruct (nth_error lines i) eqn:E; [|discriminate]. assert (i < List.length lines) by (apply nth_error_Some; congruence). lia.
  - cbn [loop]. destruct (nth_error lines i) as [l|] eqn:E; [|discriminate]. pose proof (fine_turn lines i l st) as F. destruct (turn num zero R lines i l st) as [[[i' st'|es]|e]|] eqn:T; try discriminate.
    + destruct (turn_progress _ _ _ _ _ _ Sn Hf T) as [Hi Sn']. apply IH; [exact Sn'|lia].
    + intro Q. injection Q as ->. now apply F.
Qed.
Theorem C109_terminates : forall text fuel, Forall no_file_list (splitlines text) -> List.length (splitlines text) <= fuel -> read_file num zero R fuel text <> Some (Err OutOfFuel).
Proof.
  intros text fuel Hf Hl. unfold read_file. destruct (first_char_error _); [discriminate|]. destruct (extptfm _); [discriminate|]. destruct (ad14_file _) as [[[n ids]|]|]; [| |discriminate].
  - apply fine_some. unfold ad14_read. apply fine_bind; [apply fine_mapM; intro a; unfold ad14_line; fine_tac|]. intro hs. apply fine_bind; [|intros [w rows]; destruct (ad14_names n w ids); discriminate].
    unfold ad14_rows. apply fine_bind; [apply fine_mapM; intro a; unfold ad14_row; apply fine_mapM; intro b; fine_tac|]. intro rows. fine_tac.
  - apply loop_ends; [exact Hf| |lia]. constructor; [now left|apply incl_refl|apply incl_refl].
Qed.
End More.

(** ** Concrete files *)
Definition T_ (l : list string) : str := unlines (map S_ l).
Definition zread (t : str) : option (res (list (FASTFile_Model.entry Z))) := read_file znum 0%Z (fun t => t) 100 t.
Definition zwrite (es : list (FASTFile_Model.entry Z)) : res str := to_string zfmt zfmt zfmt zfmt zfmt es.
(** A tower file with its table and a list of outputs *)
Definition ztable : FASTFile_Model.entry Z :=
  Tab (S_ "TowProp") (S_ "TwSSStif") NumHeader (N_ "NTwInpSt") (Nums [[0; 12; 0]; [12; -345; 12]]%Z) (Some (map S_ ["HtFract"; "TMassDen"; "TwSSStif"]%string)) (Some (map S_ ["(-)"; "(kg/m)"; "(Nm^2)"]%string)).
Definition zfirst : list (FASTFile_Model.entry Z) := [Item (mkItem (VInt 2) (S_ "NTwInpSt") false (S_ "- Number of stations") NOT_A_TAB); ztable; Item (mkItem (VBool true) (S_ "Echo") false (S_ "- flag") NOT_A_TAB)].
Definition zouts : list (FASTFile_Model.entry Z) :=
  map Item [mkItem (VList (map VStr [[]; S_ """TwHt1ALxt"""; S_ """RotSpeed"""])) (S_ "OutList") false (S_ "The next line(s) contains a list of output channels") TAB_FIL; end_item; dash_item].
Lemma zdigits z : In z [0%Z; 12%Z; (-345)%Z] -> writes znum "0123456789+-.e" zfmt (fun z => z) z.
Proof. apply zwrites. intros c Hc. vm_compute in *. tauto. Qed.
Example C109_nonvacuous : blocks znum (fun t => t) zfmt zfmt zfmt (fun z => z) (fun z => z) (fun z => z) first_word_tables second_word_tables [] zfirst zfirst /\ ending (fun t => t) zouts /\
  exists text, zwrite (zfirst ++ zouts) = Ok text /\ zread text = Some (Ok (zfirst ++ zouts)).
Proof.
  assert (Nw : forall w, forallb (fun r => negb (str_eqb (lower (t_word r)) (lower w))) (first_word_tables ++ second_word_tables) = true -> ~ word_in w first_word_tables /\ ~ word_in w second_word_tables).
  { intros w H. rewrite forallb_forall in H. split; intros (r & Hr & G); [specialize (H r (in_or_app _ _ _ (or_introl Hr)))|specialize (H r (in_or_app _ _ _ (or_intror Hr)))]; apply negb_true_iff, str_eqb_neq in H; contradiction. }
  assert (Zt : FASTIn_Props.entry (fun t => t) (mkItem (VInt 2) (S_ "NTwInpSt") false (S_ "- Number of stations") NOT_A_TAB)).
  { apply (entry_value _ (VInt 2) (S_ "NTwInpSt") (map S_ ["Number"; "of"; "stations"]%string)); [exact I|label_tac|apply descr_tac; reflexivity]. }
  assert (Ze : FASTIn_Props.entry (fun t => t) (mkItem (VBool true) (S_ "Echo") false (S_ "- flag") NOT_A_TAB)).
  { apply (entry_value _ (VBool true) (S_ "Echo") [S_ "flag"]); [exact I|label_tac|apply descr_tac; reflexivity]. }
  split; [|split].
  - unfold zfirst. apply b_line.
    + split; [exact Zt|]. split; [vm_compute; reflexivity|]. split; [split; [|split]; vm_compute; reflexivity|]. split; [reflexivity|]. split; [discriminate|]. split; [apply Nw; vm_compute; reflexivity|].
      split; [intros p [<-|[<-|[]]]; vm_compute; discriminate|]. split; vm_compute; discriminate.
    + change first_word_tables with ([] ++ row "HtFract" (N_ "NTwInpSt") "TowProp" 2 true :: tl first_word_tables).
      unfold ztable. apply (b_first znum (fun t => t) zfmt zfmt zfmt (fun z => z) (fun z => z) (fun z => z) [] (row "HtFract" (N_ "NTwInpSt") "TowProp" 2 true) (tl first_word_tables) second_word_tables _ (S_ "HtFract") (S_ "TMassDen") [S_ "TwSSStif"] _ _ 2).
      * split; [repeat constructor; intros c Hc; vm_compute in Hc; decompose [or] Hc; subst; try contradiction; vm_compute; intuition discriminate|].
        split; [do 5 (split; [vm_compute; reflexivity|]); intros x y E; exfalso; assert (C : In comma (S_ "HtFract")) by (rewrite E; apply in_or_app; right; now left); vm_compute in C; decompose [or] C; try discriminate; contradiction|]. split; [label_tac|]. split; [split; [|split]; vm_compute; reflexivity|]. split; [|split]; vm_compute; discriminate.
      * reflexivity.
      * constructor.
      * apply (content_num znum zfmt zfmt (fun z => z) (fun z => z) (row "HtFract" (N_ "NTwInpSt") "TowProp" 2 true) _ (map S_ ["-"; "kg/m"; "Nm^2"]%string) [[0; 12; 0]; [12; -345; 12]]%Z); try reflexivity.
        -- assert (U : forall u, is_token u = true -> forallb (fun c => negb (existsb (Ascii.eqb c) (S_ "()!#"))) u = true -> good_unit u).
           { intros u Hu Hc. split; [exists [u]; split; [cbn [forallb]; rewrite Hu; reflexivity|reflexivity]|]. intros c Hi Hs. rewrite forallb_forall in Hc. specialize (Hc c Hi). apply negb_true_iff in Hc. assert (existsb (Ascii.eqb c) (S_ "()!#") = true) by (apply existsb_exists; exists c; split; [exact Hs|apply Ascii.eqb_refl]). congruence. }
           repeat (constructor; [apply U; vm_compute; reflexivity|]). constructor.
        -- repeat constructor.
        -- repeat (constructor; [repeat (constructor; [apply zdigits; vm_compute; tauto|]); constructor|]). constructor.
      * exists [], (mkItem (VInt 2) (S_ "NTwInpSt") false (S_ "- Number of stations") NOT_A_TAB), []. repeat split; constructor.
      * apply b_line; [|constructor]. split; [exact Ze|]. split; [vm_compute; reflexivity|]. split; [split; [|split]; vm_compute; reflexivity|]. split; [reflexivity|]. split; [discriminate|]. split; [apply Nw; vm_compute; reflexivity|].
        split; [intros p [<-|[<-|[]]]; vm_compute; discriminate|]. split; vm_compute; discriminate.
  - apply (end_outputs (V := Z) (fun t => t) (S_ "OutList") (S_ "The next line(s) contains a list of output channels") [S_ """TwHt1ALxt"""; S_ """RotSpeed"""]); try (vm_compute; reflexivity).
    + intro Q. discriminate Q.
    + cbn. lia.
    + constructor; [|constructor; [|constructor]]; (split; [vm_compute; intro Q; discriminate Q|reflexivity]).
  - eexists. split; [vm_compute; reflexivity|vm_compute; reflexivity].
Qed.
(** The label Re of a polar is changed to re when the file is read *)
Theorem C109_re_renamed_refuted : exists es text, zread (T_ ["1 NumTabs - tables"; "5 Re - Reynolds number"]%string) = Some (Ok es) /\ map label_of es = [S_ "NumTabs"; S_ "re"] /\ zwrite es = Ok text /\ contains text (S_ "Re ") = false.
Proof. do 2 eexists. split; [vm_compute; reflexivity|]. split; [reflexivity|]. split; [vm_compute; reflexivity|]. vm_compute; reflexivity. Qed.
(** A polar file with two tables is read, but is written with labels that are not those of the format: it cannot be read again *)
Definition zpolar : str := T_ ["Airfoil"; "2 NumTabs - tables"; "5 Re - Reynolds"; "2 NumAlf - number"; "! Alpha Cl"; "! (deg) (-)"; "0 12"; "12 0"; "7 Re - Reynolds"; "1 NumAlf - number"; "! Alpha Cl"; "! (deg) (-)"; "0 0"]%string.
Theorem C109_two_polars_refuted : exists es text, zread zpolar = Some (Ok es) /\ map label_of es = map S_ [""; "NumTabs"; "re_1"; "NumAlf_1"; "AFCoeff_1"; "re_2"; "NumAlf_2"; "AFCoeff_2"]%string /\
  zwrite es = Ok text /\ zread text = Some (Err WrongFormatError).
Proof. do 2 eexists. split; [vm_compute; reflexivity|]. split; [reflexivity|]. split; [vm_compute; reflexivity|]. vm_compute; reflexivity. Qed.
(** The first of the nineteen lines of additional stiffness is written with the name of the block, which is then read as part of it *)
Theorem C109_stiffness_refuted : let t := T_ (["1 NTwInpSt - stations"; "--- ADDITIONAL STIFFNESS ---"] ++ repeat "1 2"%string 19)%list%string in
  exists es t1 es1 t2, zread t = Some (Ok es) /\ zwrite es = Ok t1 /\ zread t1 = Some (Ok es1) /\ zwrite es1 = Ok t2 /\ es1 <> es /\
  nth 2 (splitlines t) [] = S_ "1 2" /\ nth 2 (splitlines t1) [] = S_ "1 2 KDAdd " /\ nth 2 (splitlines t2) [] = S_ "1 2 KDAdd  KDAdd ".
Proof. intro t. do 4 eexists. split; [vm_compute; reflexivity|]. split; [vm_compute; reflexivity|]. split; [vm_compute; reflexivity|]. split; [vm_compute; reflexivity|]. split; [discriminate|]. split; [|split]; vm_compute; reflexivity. Qed.
(** What follows the coordinates of an airfoil is not read, nor is it written back *)
Theorem C109_after_coordinates_refuted : forall last, oneline last -> exists es, zread (T_ ["Airfoil"; "3 NumCoords - number"; "! .."; "! x y"; "! (-) (-)"; "0 12"; "! coords"; "! .."; "! x y"; "0 12"; "12 0"]%string ++ last ++ [nl]) = Some (Ok es) /\ Forall (fun e => label_of e <> S_ "Other") es /\ List.length es = 9.
Proof.
  intros last Hl. assert (E : splitlines (T_ ["Airfoil"; "3 NumCoords - number"; "! .."; "! x y"; "! (-) (-)"; "0 12"; "! coords"; "! .."; "! x y"; "0 12"; "12 0"]%string ++ last ++ [nl]) = map S_ ["Airfoil"; "3 NumCoords - number"; "! .."; "! x y"; "! (-) (-)"; "0 12"; "! coords"; "! .."; "! x y"; "0 12"; "12 0"]%string ++ [last]).
  { unfold T_. rewrite splitlines_more; [|repeat constructor]. f_equal. unfold splitlines. rewrite splitlines_aux_line by exact Hl. reflexivity. }
  unfold zread, read_file. rewrite E. eexists. split; [vm_compute; reflexivity|]. split; [repeat constructor; discriminate|reflexivity].
Qed.
Print Assumptions C109_beamdyn. Print Assumptions C109_no_count. Print Assumptions C109_bad_count. Print Assumptions C109_short_table.
Print Assumptions C109_no_files_refuted. Print Assumptions C109_terminates. Print Assumptions C109_re_renamed_refuted. Print Assumptions C109_two_polars_refuted.
Print Assumptions C109_stiffness_refuted. Print Assumptions C109_after_coordinates_refuted.
