(** Proofs about the FAST input line parser and writer. *)
From Verif Require Import Py PyFacts TextFacts FASTIn_Model.

(** ** Dictionary *)
Lemma key_match_congr k k' d : lower k = lower k' -> key_match k d = key_match k' d.
Proof. unfold key_match. intros ->. reflexivity. Qed.
Lemma find_map_set k k' v l :
  find (key_match k') (map (fun d => if key_match k d then set_value v d else d) l) =
  match find (key_match k') l with
  | Some d => Some (if key_match k d then set_value v d else d)
  | None => None
  end.
Proof.
  induction l as [|d l IH]; [reflexivity|]. cbn [map find].
  assert (E : key_match k' (if key_match k d then set_value v d else d) = key_match k' d)
    by (destruct (key_match k d); reflexivity).
  rewrite E. destruct (key_match k' d); [reflexivity | exact IH].
Qed.
Lemma key_match_true k d : key_match k d = true <-> lower (it_label d) = lower k.
Proof. unfold key_match. apply str_eqb_eq. Qed.

(** ** Words of a line *)
Lemma cleanLine_words raw : cleanLine raw = join [sp] (split_ws raw).
Proof.
  unfold cleanLine. rewrite split_ws_replace_tab. apply strip_noedge. apply join_words_noedge.
  apply split_ws_tokens.
Qed.

(** ** What [float] refuses, by first character *)
Definition fcore (t : str) : bool :=
  existsb (str_eqb (lower t)) [S_ "inf"; S_ "infinity"; S_ "nan"] ||
  match split_on is_e t with
  | [m] => mantissa m
  | [m; x] => mantissa m && digitpart (unsign x)
  | _ => false
  end.
Lemma strIsFloat_core s : strIsFloat s = fcore (unsign (strip s)).
Proof. reflexivity. Qed.
(** Characters that can start an unsigned number. *)
Definition num_head (c : ascii) : bool :=
  is_digit c || chr_eqb c (ch 46) || existsb (chr_eqb (lower_c c)) [ch 105; ch 110].
Lemma digitpart_head c t : is_digit c = false -> digitpart (c :: t) = false.
Proof.
  intro H. unfold digitpart, split_chr. cbn [split_on].
  destruct (chr_eqb c underscore); [reflexivity|].
  destruct (split_on _ t) as [|w ws]; cbn [forallb nonempty]; rewrite H; reflexivity.
Qed.
Lemma digitpart_nil : digitpart [] = false.
Proof. reflexivity. Qed.
Lemma mantissa_head c t : is_digit c = false -> chr_eqb c (ch 46) = false -> mantissa (c :: t) = false.
Proof.
  intros H1 H2. unfold mantissa, split_chr. cbn [split_on]. rewrite H2.
  destruct (split_on _ t) as [|w [|w' [|]]]; rewrite ?digitpart_head by exact H1; try reflexivity.
Qed.
Lemma fcore_head c t : num_head c = false -> fcore (c :: t) = false.
Proof.
  intro H. unfold num_head in H. apply orb_false_iff in H. destruct H as [H H3].
  apply orb_false_iff in H. destruct H as [H1 H2]. cbn [existsb] in H3.
  apply orb_false_iff in H3. destruct H3 as [H3 H4]. rewrite orb_false_r in H4.
  unfold fcore. cbn [lower map existsb].
  assert (E : forall x y, chr_eqb (lower_c c) x = false -> str_eqb (lower_c c :: lower t) (x :: y) = false).
  { intros x y E. cbn [str_eqb]. rewrite E. reflexivity. }
  change (map lower_c t) with (lower t).
  change (S_ "inf") with (ch 105 :: S_ "nf"). change (S_ "infinity") with (ch 105 :: S_ "nfinity").
  change (S_ "nan") with (ch 110 :: S_ "an").
  rewrite !E by assumption. cbn [orb].
  cbn [split_on]. destruct (is_e c).
  - destruct (split_on is_e t) as [|m [|]]; reflexivity.
  - destruct (split_on is_e t) as [|w [|w' [|]]]; rewrite ?mantissa_head by assumption; reflexivity.
Qed.
Lemma strip_cons c t : is_space c = false -> exists t', strip (c :: t) = c :: t'.
Proof.
  intro H. unfold strip. rewrite lstrip_head by exact H.
  destruct (rstrip_decomp (c :: t)) as [b [Hb E]]. destruct (rstrip (c :: t)) as [|x y].
  - cbn in E. subst b. cbn in Hb. rewrite H in Hb. discriminate Hb.
  - cbn in E. injection E as <- _. exists y. reflexivity.
Qed.
Definition is_sign (c : ascii) : bool := chr_eqb c dash || chr_eqb c (ch 43).
Lemma unsign_cons c t : unsign (c :: t) = if is_sign c then t else c :: t.
Proof. reflexivity. Qed.
(** A text that starts with neither a sign nor a number character is not a float. *)
Lemma float_head c t : is_space c = false -> is_sign c = false -> num_head c = false ->
  strIsFloat (c :: t) = false.
Proof.
  intros H1 H2 H3. rewrite strIsFloat_core. destruct (strip_cons c t H1) as [t' ->].
  rewrite unsign_cons, H2. apply fcore_head. exact H3.
Qed.
(** ... nor is one that starts with two signs. *)
Lemma float_head2 c d t : is_token (c :: d :: t) = true -> is_sign c = true -> num_head d = false ->
  strIsFloat (c :: d :: t) = false.
Proof.
  intros H1 H2 H3. rewrite strIsFloat_core, token_strip by exact H1.
  rewrite unsign_cons, H2. apply fcore_head. exact H3.
Qed.
Lemma float_sign c : strIsFloat [c] = true -> is_sign c = false.
Proof.
  intro H. destruct (is_sign c) eqn:E; [|reflexivity]. unfold is_sign in E. apply orb_true_iff in E.
  destruct E as [E|E]; apply chr_eqb_eq in E; subst c; vm_compute in H; discriminate H.
Qed.

(** ** Integers are floats *)
Lemma digit_props c : is_digit c = true ->
  is_e c = false /\ chr_eqb c (ch 46) = false /\ chr_eqb c underscore = false /\ is_sign c = false
  /\ chr_eqb c comma = false /\ chr_eqb c sp = false.
Proof.
  intro H.
  assert (G : (negb (is_digit c) || (negb (is_e c) && negb (chr_eqb c (ch 46)) && negb (chr_eqb c underscore)
              && negb (is_sign c) && negb (chr_eqb c comma) && negb (chr_eqb c sp))) = true) by (chars c).
  rewrite H in G. cbn [negb orb] in G. rewrite !andb_true_iff, !negb_true_iff in G. tauto.
Qed.
Lemma digits_none (p : ascii -> bool) s : (forall c, is_digit c = true -> p c = false) ->
  forallb is_digit s = true -> split_on p s = [s].
Proof.
  intros Hp Hs. apply split_on_none. rewrite forallb_forall in *. intros c Hc.
  rewrite Hp; [reflexivity|]. apply Hs. exact Hc.
Qed.
Lemma fcore_digits s : isdigit s = true -> fcore s = true.
Proof.
  unfold isdigit. intro H. apply andb_inv in H. destruct H as [H1 H2].
  unfold fcore. rewrite (digits_none is_e) by (try exact H2; intros c Hc; apply digit_props in Hc; tauto).
  unfold mantissa, split_chr.
  rewrite (digits_none (fun x => chr_eqb x (ch 46))) by (try exact H2; intros c Hc; apply digit_props in Hc; tauto).
  unfold digitpart, split_chr.
  rewrite (digits_none (fun x => chr_eqb x underscore)) by (try exact H2; intros c Hc; apply digit_props in Hc; tauto).
  cbn [forallb]. rewrite H1, H2. apply orb_true_r.
Qed.
Lemma int_is_float s : is_token s = true -> strIsInt s = true -> strIsFloat s = true.
Proof.
  intros Ht Hi. rewrite strIsFloat_core, token_strip by exact Ht. apply fcore_digits. exact Hi.
Qed.
Lemma str_of_Z_form z : exists ds, isdigit ds = true /\ (str_of_Z z = ds \/ str_of_Z z = dash :: ds).
Proof.
  assert (G : forall n, isdigit (str_of_N n) = true).
  { intro n. unfold isdigit. rewrite str_of_N_digits. destruct (str_of_N n) eqn:E; [|reflexivity].
    exfalso. eapply str_of_N_nonempty. exact E. }
  destruct z as [|p|p]; cbn [str_of_Z]; eexists; (split; [apply G|]); [left|left|right]; reflexivity.
Qed.
Lemma strIsInt_of_Z z : strIsInt (str_of_Z z) = true.
Proof.
  destruct (str_of_Z_form z) as [ds [H [E|E]]]; rewrite E; unfold strIsInt.
  - destruct ds as [|c ds]; [discriminate H|]. rewrite unsign_cons.
    assert (S : is_sign c = false).
    { unfold isdigit in H. cbn in H. apply andb_inv in H. destruct H as [H _]. apply digit_props in H. tauto. }
    rewrite S. exact H.
  - rewrite unsign_cons. exact H.
Qed.
Lemma to_int_of_Z z : to_int (str_of_Z z) = z.
Proof. unfold to_int. rewrite int_str_of_Z. reflexivity. Qed.
Lemma str_of_Z_nocomma z : ~ In comma (str_of_Z z).
Proof.
  destruct (str_of_Z_form z) as [ds [H [E|E]]]; rewrite E; unfold isdigit in H; apply andb_inv in H;
    destruct H as [_ H]; rewrite forallb_forall in H.
  - intro C. apply H in C. discriminate C.
  - intros [C|C]; [discriminate C|]. apply H in C. discriminate C.
Qed.

(** ** Comma pieces of a line *)
Definition is_sep (c : ascii) : bool := chr_eqb c sp || chr_eqb c comma.
Definition piece (s : str) : Prop := forall c, In c s -> is_sep c = false.
Definition sep_start (s : str) : Prop := match s with [] => True | c :: _ => is_sep c = true end.

Lemma token_piece s : is_token s = true -> ~ In comma s -> piece s.
Proof.
  intros Ht Hc c Hin. unfold is_sep. apply orb_false_iff. split; apply chr_eqb_neq; intros ->.
  - revert Hin. apply token_not_in; [exact Ht | reflexivity].
  - contradiction.
Qed.
Definition commas (s : str) : str := replace_chr sp [comma] s.
Lemma commas_cons c s : commas (c :: s) = (if is_sep c then comma else c) :: commas s.
Proof.
  unfold commas, replace_chr, is_sep. cbn [flat_map]. destruct (chr_eqb c sp) eqn:E; cbn [orb app]; [reflexivity|].
  destruct (chr_eqb c comma) eqn:F; [|reflexivity]. apply chr_eqb_eq in F. subst c. reflexivity.
Qed.
Lemma commas_piece a s : piece a -> commas (a ++ s) = a ++ commas s.
Proof.
  induction a as [|c a IH]; intro H; [reflexivity|]. cbn [app]. rewrite commas_cons.
  rewrite (H c (or_introl eq_refl)). rewrite IH; [reflexivity|]. intros x Hx. apply H. right. exact Hx.
Qed.
Lemma collapse_piece a s : piece a -> collapse (a ++ s) = a ++ collapse s.
Proof.
  induction a as [|c a IH]; intro H; [reflexivity|]. cbn [app collapse].
  assert (E : chr_eqb c comma = false).
  { specialize (H c (or_introl eq_refl)). unfold is_sep in H. apply orb_false_iff in H. apply H. }
  rewrite E. rewrite IH; [reflexivity|]. intros x Hx. apply H. right. exact Hx.
Qed.
Lemma collapse_comma s : exists t, collapse (comma :: s) = comma :: t.
Proof.
  induction s as [|d s IH]; [eexists; reflexivity|]. cbn [collapse]. change (chr_eqb comma comma) with true. cbv iota.
  destruct (chr_eqb d comma) eqn:E; [|eexists; reflexivity].
  apply chr_eqb_eq in E. subst d. exact IH.
Qed.
Lemma split_piece a s : piece a -> split_chr comma (a ++ comma :: s) = a :: split_chr comma s.
Proof.
  intro H. unfold split_chr. apply split_on_app_sep; [|reflexivity].
  rewrite forallb_forall. intros c Hc. specialize (H c Hc). unfold is_sep in H. apply orb_false_iff in H.
  destruct H as [_ ->]. reflexivity.
Qed.
Lemma split_piece_end a : piece a -> split_chr comma a = [a].
Proof.
  intro H. unfold split_chr. apply split_on_none.
  rewrite forallb_forall. intros c Hc. specialize (H c Hc). unfold is_sep in H. apply orb_false_iff in H.
  destruct H as [_ ->]. reflexivity.
Qed.
Lemma csplits_first a s : piece a -> sep_start s -> exists tl, csplits (a ++ s) = a :: tl.
Proof.
  intros Ha Hs. unfold csplits. change (replace_chr sp [comma] (a ++ s)) with (commas (a ++ s)).
  rewrite commas_piece, collapse_piece by exact Ha.
  destruct s as [|c s].
  - cbn. rewrite app_nil_r, split_piece_end by exact Ha. eexists. reflexivity.
  - rewrite commas_cons. cbn in Hs. rewrite Hs. destruct (collapse_comma (commas s)) as [t ->].
    rewrite split_piece by exact Ha. eexists. reflexivity.
Qed.
Lemma collapse_seps seps s : forallb is_sep seps = true -> seps <> [] ->
  match s with [] => False | c :: _ => is_sep c = false end ->
  collapse (commas (seps ++ s)) = comma :: collapse (commas s).
Proof.
  intros H Hne Hs. induction seps as [|c seps IH]; [contradiction|].
  cbn in H. apply andb_inv in H. destruct H as [H1 H2]. cbn [app]. rewrite commas_cons, H1.
  destruct seps as [|d seps].
  - cbn [app]. destruct s as [|d s]; [contradiction|]. rewrite !commas_cons, Hs.
    cbn [collapse]. change (chr_eqb comma comma) with true. cbv iota.
    unfold is_sep in Hs. apply orb_false_iff in Hs. destruct Hs as [_ Hs]. rewrite Hs. reflexivity.
  - cbn [app] in IH |- *. rewrite commas_cons in IH |- *. cbn in H2. apply andb_inv in H2.
    destruct H2 as [H2 H3]. rewrite H2 in IH |- *.
    cbn [collapse]. change (chr_eqb comma comma) with true. cbv iota.
    cbn [collapse] in IH. apply IH; [|discriminate]. cbn [forallb]. rewrite H2, H3. reflexivity.
Qed.
Lemma csplits_step a seps s : piece a -> forallb is_sep seps = true -> seps <> [] ->
  match s with [] => False | c :: _ => is_sep c = false end ->
  csplits (a ++ seps ++ s) = a :: csplits s.
Proof.
  intros Ha H1 H2 H3. unfold csplits.
  change (replace_chr sp [comma] (a ++ seps ++ s)) with (commas (a ++ seps ++ s)).
  rewrite commas_piece, collapse_piece by exact Ha. rewrite collapse_seps by assumption.
  rewrite split_piece by exact Ha. reflexivity.
Qed.
Lemma piece_head s : piece s -> s <> [] -> forall t, match s ++ t with [] => False | c :: _ => is_sep c = false end.
Proof.
  intros H Hne t. destruct s as [|c s]; [contradiction|]. cbn. apply H. left. reflexivity.
Qed.

(** ** Quoted strings *)
Lemma merge_words_quoted ws : forall m rest body s,
  s = quote :: body ++ [quote] -> ~ In quote body ->
  match body with [] => True | c :: _ => is_space c = false end ->
  m <> [] -> m ++ flat_map (fun w => sp :: w) ws = s -> Forall (fun w => w <> []) ws ->
  merge_words m (ws ++ rest) = Ok (s, rest).
Proof.
  induction ws as [|w ws IH]; intros m rest body s Hs Hq Hb Hm Hf Hw.
  - cbn in Hf. rewrite app_nil_r in Hf. subst m. cbn [app].
    assert (E : ends_quote s = true).
    { rewrite Hs. unfold ends_quote. cbn [rev]. rewrite rev_app_distr. reflexivity. }
    destruct rest; cbn [merge_words]; rewrite E; reflexivity.
  - assert (E : ends_quote m = false).
    { destruct m as [|c m]; [contradiction|].
      cbn [flat_map app] in Hf. rewrite Hs in Hf. cbn [app] in Hf. injection Hf as -> Hf.
      assert (P : exists u, body = m ++ sp :: u).
      { cbn [app] in Hf.
        destruct (exists_last (l := sp :: w ++ flat_map (fun w => sp :: w) ws)) as [u [z E]]; [discriminate|].
        rewrite E in Hf. rewrite app_assoc in Hf. apply app_inj_tail in Hf. destruct Hf as [Hf _].
        destruct u as [|c' u].
        - exfalso. cbn in E. injection E as _ E. destruct w; [inversion Hw; contradiction | discriminate E].
        - cbn in E. injection E as <- _. exists u. symmetry. exact Hf. }
      destruct P as [u P]. unfold ends_quote. cbn [rev].
      destruct m as [|d m]; [exfalso; rewrite P in Hb; cbn in Hb; discriminate Hb|].
      destruct (exists_last (l := d :: m)) as [m' [z Ez]]; [discriminate|]. rewrite Ez.
      rewrite rev_app_distr. cbn [rev app]. apply chr_eqb_neq. intros ->. apply Hq. rewrite P, Ez.
      rewrite <- app_assoc. apply in_or_app. right. left. reflexivity. }
    cbn [app merge_words]. rewrite E. apply (IH _ rest body s); try assumption.
    + destruct m; discriminate.
    + rewrite <- Hf. cbn [flat_map app]. rewrite <- app_assoc. reflexivity.
    + inversion Hw. assumption.
Qed.

(** ** Comment marks *)
Lemma comment_start_app s t : s <> [] -> comment_start (s ++ sp :: t) = comment_start s.
Proof.
  intro H. destruct s as [|c [|d s]]; [contradiction| |]; unfold comment_start; cbn [app existsb].
  - change (S_ "#") with [ch 35]. change (S_ "!") with [ch 33]. change (S_ "--") with [dash; dash].
    change (S_ "==") with [ch 61; ch 61]. cbn [startswith].
    change (chr_eqb sp dash) with false. change (chr_eqb sp (ch 61)) with false. cbn [andb].
    rewrite ?andb_true_r, ?andb_false_r. reflexivity.
  - change (S_ "#") with [ch 35]. change (S_ "!") with [ch 33]. change (S_ "--") with [dash; dash].
    change (S_ "==") with [ch 61; ch 61]. cbn [startswith]. reflexivity.
Qed.
Lemma comment_start_float t : is_token t = true -> strIsFloat t = true -> comment_start t = false.
Proof.
  intros Ht Hf. destruct t as [|c t]; [discriminate Ht|]. unfold comment_start. cbn [existsb].
  change (S_ "#") with [ch 35]. change (S_ "!") with [ch 33]. change (S_ "--") with [dash; dash].
  change (S_ "==") with [ch 61; ch 61]. cbn [startswith]. rewrite !andb_true_r.
  assert (N : forall x, is_space x = false -> is_sign x = false -> num_head x = false -> chr_eqb c x = false).
  { intros x H1 H2 H3. apply chr_eqb_neq. intros ->. rewrite (float_head x t H1 H2 H3) in Hf. discriminate Hf. }
  rewrite (N (ch 35)), (N (ch 33)), (N (ch 61)) by reflexivity. cbn [orb].
  destruct (chr_eqb c dash) eqn:E; cbn [andb orb]; rewrite ?orb_false_r; [|reflexivity].
  apply chr_eqb_eq in E. subst c.
  destruct t as [|d t]; [reflexivity|].
  destruct (chr_eqb d dash) eqn:E; [|reflexivity]. apply chr_eqb_eq in E. subst d.
  rewrite float_head2 in Hf; [discriminate Hf | exact Ht | reflexivity | reflexivity].
Qed.

(** ** Labels *)
Definition label_ok (l : str) : Prop :=
  is_token l = true /\ ~ In comma l /\ strIsFloat l = false /\ strIsBool l = false
  /\ bang_colon l = false /\ l <> S_ "of".

Lemma find_label_ok l ds : label_ok l -> find_label (l :: ds) = Ok (Some (l, ds)).
Proof.
  intros [H1 [_ [H3 [_ [H5 _]]]]]. cbn [find_label].
  assert (E : nonempty l = true) by (destruct l; [discriminate H1 | reflexivity]).
  rewrite E, H5, H3. reflexivity.
Qed.
Lemma label_notint l : label_ok l -> strIsInt l = false.
Proof.
  intros [H1 [_ [H3 _]]]. apply not_true_is_false. intro C. apply int_is_float in C; [congruence | exact H1].
Qed.

(** ** One-value lines *)
(** [vw] are the words of the value, [v] the value text, for a line with label and description. *)
Lemma parse_scalar R allow raw vw v lab ds :
  split_ws raw = vw ++ lab :: ds ->
  vw <> [] -> v = join [sp] vw ->
  merge_value (vw ++ lab :: ds) = Ok (v, lab :: ds) ->
  label_ok lab ->
  comment_start v = false ->
  (match vw with [_] => True | _ => startswith v [quote] = true end) ->
  (exists vs ps, detect_list R (join [sp] (split_ws raw)) = Ok (vs, ps) /\ List.length vs < 2) ->
  parse_line R allow raw =
    Ok (mkItem (scalar R false v (lab :: ds)) lab false (join [sp] ds) NOT_A_TAB).
Proof.
  intros Hw Hvw Hv Hm Hl Hc Hq [vs [ps [Hd Hlt]]].
  assert (Hline : cleanLine raw = v ++ sp :: join [sp] (lab :: ds)).
  { rewrite cleanLine_words, Hw, join_app by (try exact Hvw; discriminate). rewrite <- Hv. reflexivity. }
  assert (Hvne : v <> []).
  { rewrite Hv. pose proof (split_ws_tokens raw) as T. rewrite Hw in T. destruct vw as [|w vw]; [contradiction|].
    cbn in T. apply andb_inv in T. destruct T as [T _]. rewrite join_flat. destruct w; [discriminate T | discriminate]. }
  unfold parse_line.
  assert (Hcs : comment_start (cleanLine raw) = false).
  { rewrite Hline, comment_start_app by exact Hvne. exact Hc. }
  assert (Hne : nonempty (cleanLine raw) = true).
  { rewrite Hline. destruct v; [contradiction | reflexivity]. }
  rewrite Hcs, Hne. cbn [orb negb].
  assert (Hend : end_of (cleanLine raw) = false).
  { unfold end_of. apply andb_false_iff.
    destruct vw as [|w [|w' vw]]; [contradiction| |].
    - right. rewrite cleanLine_words, split_ws_words by apply split_ws_tokens. rewrite Hw. cbn [app].
      destruct ds; [reflexivity|]. apply str_eqb_neq. apply Hl.
    - left. rewrite Hline. apply startswith_iff in Hq. destruct Hq as [t ->]. reflexivity. }
  unfold parse_body. rewrite Hend. rewrite cleanLine_words. rewrite Hd. cbn [bind].
  assert (L : (2 <=? List.length vs) = false) by (apply Nat.leb_gt; exact Hlt).
  rewrite L. rewrite split_sp_words.
  2: { rewrite Hw. destruct vw; discriminate. }
  2: apply split_ws_tokens.
  rewrite Hw, Hm. cbn [bind]. rewrite (find_label_ok lab ds Hl). cbn [bind].
  f_equal. f_equal.
  - unfold scalar. rewrite (label_notint lab Hl), andb_false_r. reflexivity.
  - apply token_strip. apply Hl.
Qed.

(** The three shapes of a one-word or quoted value. *)
Lemma detect_first R v t : v <> [] ->
  (exists a b, v = a ++ b /\ piece a /\ sep_start b /\ strIsFloat a = false /\ strIsBool a = false) ->
  exists vs ps, detect_list R (v ++ sp :: t) = Ok (vs, ps) /\ List.length vs < 2.
Proof.
  intros Hne [a [b [E [Ha [Hb [H1 H2]]]]]]. unfold detect_list.
  destruct (find_chr comma (v ++ sp :: t)) as [n|].
  2: { exists [], []. split; [reflexivity | cbn; lia]. }
  destruct ((0 <? n) && (n <? 30)).
  2: { exists [], []. split; [reflexivity | cbn; lia]. }
  rewrite E, <- app_assoc. destruct (csplits_first a (b ++ sp :: t)) as [tl ->].
  - exact Ha.
  - destruct b; [reflexivity | exact Hb].
  - exists [], []. cbn [scan_list]. rewrite H1, H2. split; [reflexivity | cbn; lia].
Qed.
Lemma detect_one R v lab ds : piece v -> v <> [] -> label_ok lab -> forallb is_token ds = true ->
  exists vs ps, detect_list R (v ++ sp :: join [sp] (lab :: ds)) = Ok (vs, ps) /\ List.length vs < 2.
Proof.
  intros Hv Hne Hl Hds. unfold detect_list.
  destruct (find_chr comma _) as [n|].
  2: { exists [], []. split; [reflexivity | cbn; lia]. }
  destruct ((0 <? n) && (n <? 30)).
  2: { exists [], []. split; [reflexivity | cbn; lia]. }
  assert (Pl : piece lab) by (apply token_piece; apply Hl).
  assert (Nl : lab <> []) by (apply token_nonnil; apply Hl).
  rewrite join_flat.
  change (sp :: lab ++ flat_map (fun x => [sp] ++ x) ds) with ([sp] ++ (lab ++ flat_map (fun x => [sp] ++ x) ds)).
  rewrite csplits_step; [|exact Hv|reflexivity|discriminate|apply piece_head; assumption].
  destruct (csplits_first lab (flat_map (fun x => [sp] ++ x) ds)) as [tl ->]; [exact Pl | destruct ds; reflexivity |].
  cbn [scan_list]. destruct Hl as [_ [_ [H3 [H4 _]]]]. rewrite H3, H4. cbn [orb bind].
  destruct (strIsFloat v || strIsBool v); eexists; eexists; (split; [reflexivity|]); cbn; lia.
Qed.
Lemma no_quote_merge v lab ds : is_token v = true -> startswith v [quote] = false ->
  merge_value ([v] ++ lab :: ds) = Ok (v, lab :: ds).
Proof.
  intros Ht Hq. destruct v as [|c v]; [discriminate Ht|]. cbn [app merge_value].
  cbn [startswith] in Hq. rewrite andb_true_r in Hq. rewrite Hq. reflexivity.
Qed.

(** ** Values that survive *)
Definition scalar_ok (R : str -> str) (v : val) : Prop :=
  match v with
  | VInt _ | VBool _ => True
  | VFloat t => is_token t = true /\ ~ In comma t /\ strIsFloat t = true /\ strIsInt t = false /\ R t = t
  | _ => False
  end.
(** A piece of text that is neither a number nor a boolean. *)
Definition plain_text (s : str) : Prop :=
  is_token s = true /\ startswith s [quote] = false /\ comment_start s = false
  /\ strIsFloat s = false /\ strIsBool s = false
  /\ (forall a b, s = a ++ comma :: b -> ~ In comma a -> strIsFloat a = false /\ strIsBool a = false).
Definition quoted_text (s : str) : Prop :=
  exists body, s = quote :: body ++ [quote] /\ ~ In quote body
  /\ match body with [] => True | c :: _ => is_space c = false end
  /\ s = join [sp] (split_ws s).
Definition value_ok (R : str -> str) (v : val) : Prop :=
  match v with
  | VStr s => plain_text s \/ quoted_text s
  | _ => scalar_ok R v
  end.

Lemma quote_head : is_space quote = false /\ is_sign quote = false /\ num_head quote = false.
Proof. repeat split. Qed.
Lemma quote_notbool t : strIsBool (quote :: t) = false.
Proof. reflexivity. Qed.
Lemma quote_notfloat t : strIsFloat (quote :: t) = false.
Proof. apply float_head; reflexivity. Qed.

Lemma first_piece s : s <> [] -> exists a b, s = a ++ b /\ piece a /\ sep_start b.
Proof.
  intros _. induction s as [|c s [a [b [E [H1 H2]]]]].
  - exists [], []. repeat split. intros c [].
  - destruct (is_sep c) eqn:F.
    + exists [], (c :: s). split; [reflexivity|]. split; [intros x []|exact F].
    + exists (c :: a), b. split; [cbn; rewrite E; reflexivity|]. split; [|exact H2].
      intros x [<-|Hx]; [exact F | apply H1; exact Hx].
Qed.

Lemma words_nonnil s : forallb is_token (split_ws s) = true -> Forall (fun w => w <> []) (split_ws s).
Proof.
  intro H. rewrite forallb_forall in H. apply Forall_forall. intros w Hw. apply token_nonnil. apply H. exact Hw.
Qed.

(** Everything the parser needs to know about the text of a value. *)
Lemma value_text R v lab ds : value_ok R v -> label_ok lab -> forallb is_token ds = true ->
  let s := str_val0 v in let vw := split_ws s in
  vw <> [] /\ s = join [sp] vw /\ merge_value (vw ++ lab :: ds) = Ok (s, lab :: ds)
  /\ comment_start s = false
  /\ (match vw with [_] => True | _ => startswith s [quote] = true end)
  /\ (exists vs ps, detect_list R (s ++ sp :: join [sp] (lab :: ds)) = Ok (vs, ps) /\ List.length vs < 2)
  /\ scalar R false s (lab :: ds) = v.
Proof.
  intros Hv Hl Hds. cbv zeta.
  assert (Num : forall s, is_token s = true -> ~ In comma s -> startswith s [quote] = false ->
            comment_start s = false ->
            split_ws s <> [] /\ s = join [sp] (split_ws s)
            /\ merge_value (split_ws s ++ lab :: ds) = Ok (s, lab :: ds)
            /\ comment_start s = false
            /\ (match split_ws s with [_] => True | _ => startswith s [quote] = true end)
            /\ (exists vs ps, detect_list R (s ++ sp :: join [sp] (lab :: ds)) = Ok (vs, ps) /\ List.length vs < 2)).
  { intros s Ht Hc Hq Hcs. rewrite split_ws_token by exact Ht.
    repeat split; try discriminate; try assumption.
    - apply no_quote_merge; assumption.
    - apply detect_one; try assumption; [apply token_piece; assumption | apply token_nonnil; exact Ht]. }
  assert (Fl : forall s, is_token s = true -> strIsFloat s = true -> startswith s [quote] = false).
  { intros s Ht Hf. apply not_true_is_false. intro C. apply startswith_iff in C. destruct C as [t ->].
    cbn [app] in Hf. rewrite quote_notfloat in Hf. discriminate Hf. }
  destruct v as [z|t|b|s|l]; cbn [str_val0 value_ok] in *.
  - assert (Hf : strIsFloat (str_of_Z z) = true) by (apply int_is_float; [apply str_of_Z_token | apply strIsInt_of_Z]).
    destruct (Num (str_of_Z z)) as [A1 [A2 [A3 [A4 [A5 A6]]]]].
    + apply str_of_Z_token.
    + apply str_of_Z_nocomma.
    + apply Fl; [apply str_of_Z_token | exact Hf].
    + apply comment_start_float; [apply str_of_Z_token | exact Hf].
    + split; [exact A1|]. split; [exact A2|]. split; [exact A3|]. split; [exact A4|]. split; [exact A5|].
      split; [exact A6|]. unfold scalar. rewrite strIsInt_of_Z, to_int_of_Z. reflexivity.
  - destruct Hv as [Ht [Hc [Hf [Hi Hr]]]].
    destruct (Num t) as [A1 [A2 [A3 [A4 [A5 A6]]]]]; try assumption.
    + apply Fl; assumption.
    + apply comment_start_float; assumption.
    + split; [exact A1|]. split; [exact A2|]. split; [exact A3|]. split; [exact A4|]. split; [exact A5|].
      split; [exact A6|]. unfold scalar. rewrite Hi, Hf, Hr. reflexivity.
  - destruct b.
    + destruct (Num (S_ "True")) as [A1 [A2 [A3 [A4 [A5 A6]]]]]; try reflexivity.
      * intro C. cbn in C. repeat (destruct C as [C|C]; [discriminate C|]). exact C.
      * repeat (split; [assumption|]). reflexivity.
    + destruct (Num (S_ "False")) as [A1 [A2 [A3 [A4 [A5 A6]]]]]; try reflexivity.
      * intro C. cbn in C. repeat (destruct C as [C|C]; [discriminate C|]). exact C.
      * repeat (split; [assumption|]). reflexivity.
  - destruct Hv as [[Ht [Hq [Hcs [Hf [Hb Hp]]]]]|[body [E [Hq [Hb Hj]]]]].
    + rewrite split_ws_token by exact Ht. split; [discriminate|]. split; [reflexivity|].
      split; [apply no_quote_merge; assumption|]. split; [exact Hcs|]. split; [exact I|].
      split.
      * apply detect_first; [apply token_nonnil; exact Ht|].
        destruct (first_piece s) as [a [b [E [Ha Hsb]]]]; [apply token_nonnil; exact Ht|].
        exists a, b. split; [exact E|]. split; [exact Ha|]. split; [exact Hsb|].
        destruct b as [|c b].
        -- rewrite app_nil_r in E. subst a. split; assumption.
        -- cbn in Hsb. unfold is_sep in Hsb. apply orb_true_iff in Hsb. destruct Hsb as [Hsb|Hsb]; apply chr_eqb_eq in Hsb; subst c.
           ++ exfalso. apply (token_not_in sp s Ht); [reflexivity|]. rewrite E. apply in_or_app. right. left. reflexivity.
           ++ apply (Hp a b); [exact E|]. intro C. apply Ha in C. discriminate C.
      * unfold scalar. rewrite Hf, Hb.
        assert (Hi : strIsInt s = false).
        { apply not_true_is_false. intro C. apply int_is_float in C; [congruence | exact Ht]. }
        rewrite Hi. reflexivity.
    + pose proof (split_ws_tokens s) as T.
      assert (Hne : split_ws s <> []).
      { intro C. rewrite C in Hj. cbn in Hj. rewrite Hj in E. discriminate E. }
      assert (Hs0 : s = quote :: body ++ [quote]) by exact E.
      split; [exact Hne|]. split; [exact Hj|].
      destruct (split_ws s) as [|w ws] eqn:W; [contradiction|].
      assert (Hw : exists w', w = quote :: w').
      { rewrite join_flat in Hj. cbn in T. apply andb_inv in T. destruct T as [T _].
        destruct w as [|c w]; [discriminate T|]. rewrite E in Hj. cbn in Hj. injection Hj as <- _.
        exists w. reflexivity. }
      destruct Hw as [w' ->].
      split.
      { cbn [app merge_value]. change (chr_eqb quote quote) with true. cbv iota.
        apply (merge_words_quoted ws _ _ body s); try assumption; [discriminate| |].
        - rewrite join_flat in Hj. symmetry. exact Hj.
        - pose proof (words_nonnil s) as N. rewrite W in N. specialize (N T). inversion N. assumption. }
      split; [rewrite E; reflexivity|]. split.
      { destruct ws; [exact I|]. rewrite E. reflexivity. }
      split.
      { apply detect_first; [rewrite E; discriminate|].
        destruct (first_piece s) as [a [b [E' [Ha Hsb]]]]; [rewrite E; discriminate|].
        exists a, b. split; [exact E'|]. split; [exact Ha|]. split; [exact Hsb|].
        destruct a as [|c a].
        - exfalso. cbn in E'. rewrite <- E', E in Hsb. cbn in Hsb. discriminate Hsb.
        - rewrite E in E'. cbn in E'. injection E' as <- _. split; [apply quote_notfloat | apply quote_notbool]. }
      unfold scalar. rewrite E. rewrite quote_notfloat, quote_notbool. reflexivity.
  - contradiction.
Qed.

(** The written line and its words. *)
Lemma split_ws_pad13 s : split_ws (pad13 s) = split_ws s.
Proof.
  unfold pad13. apply split_ws_rpad. induction (13 - List.length s) as [|n IH]; [reflexivity|]. cbn. exact IH.
Qed.
Lemma vld_words v lab descr : is_token lab = true ->
  split_ws (toStringVLD v lab descr) = split_ws (str_val0 v) ++ lab :: S_ "-" :: split_ws (descr_core descr).
Proof.
  intro Hl. unfold toStringVLD. rewrite split_ws_strip. cbn [app].
  rewrite split_ws_app by reflexivity. rewrite split_ws_pad13. f_equal.
  change (pad13 lab ++ S_ " - " ++ descr_core descr ++ [nl]) with (pad13 lab ++ sp :: ([dash] ++ sp :: (descr_core descr ++ [nl]))).
  rewrite split_ws_app by reflexivity. rewrite split_ws_pad13, (split_ws_token lab) by exact Hl.
  rewrite split_ws_app by reflexivity. rewrite split_ws_rpad by reflexivity. reflexivity.
Qed.

(** The description as it comes back. *)
Definition descr_back (d : str) : str := join [sp] (S_ "-" :: split_ws (descr_core d)).

Theorem scalar_line_roundtrip R allow v lab descr :
  value_ok R v -> label_ok lab ->
  parse_line R allow (item_str (mkItem v lab false descr NOT_A_TAB)) =
    Ok (mkItem v lab false (descr_back descr) NOT_A_TAB).
Proof.
  intros Hv Hl.
  assert (E : item_str (mkItem v lab false descr NOT_A_TAB) = toStringVLD v lab descr).
  { unfold item_str. cbn. destruct v; try reflexivity. contradiction Hv. }
  rewrite E.
  set (ds := S_ "-" :: split_ws (descr_core descr)).
  assert (Hds : forallb is_token ds = true).
  { unfold ds. cbn [forallb]. rewrite split_ws_tokens. reflexivity. }
  destruct (value_text R v lab ds Hv Hl Hds) as [A1 [A2 [A3 [A4 [A5 [A6 A7]]]]]].
  assert (W : split_ws (toStringVLD v lab descr) = split_ws (str_val0 v) ++ lab :: ds)
    by (apply vld_words; apply Hl).
  erewrite parse_scalar; [|exact W|exact A1|exact A2|exact A3|exact Hl|exact A4|exact A5|].
  - rewrite A7. reflexivity.
  - destruct A6 as [vs [ps [A6 L]]]. exists vs, ps. split; [|exact L].
    rewrite W, join_app by (try exact A1; discriminate). rewrite <- A2. exact A6.
Qed.

(** Values of two integers (BeamDyn "kp_total" members). *)
Lemma find_chr_none c s : ~ In c s -> find_chr c s = None.
Proof.
  induction s as [|x s IH]; intro H; [reflexivity|]. cbn [find_chr]. destruct (chr_eqb x c) eqn:E.
  - apply chr_eqb_eq in E. subst x. exfalso. apply H. left. reflexivity.
  - rewrite IH; [reflexivity|]. intro C. apply H. right. exact C.
Qed.
Theorem two_numbers_roundtrip R allow a b lab descr :
  label_ok lab -> ~ In comma (descr_back descr) ->
  let v := VStr (str_of_Z a ++ sp :: str_of_Z b) in
  parse_line R allow (item_str (mkItem v lab false descr NOT_A_TAB)) =
    Ok (mkItem (if allow then v else VInt a) lab false (descr_back descr) NOT_A_TAB).
Proof.
  intros Hl Hd v. change (item_str (mkItem v lab false descr NOT_A_TAB)) with (toStringVLD v lab descr).
  set (raw := toStringVLD v lab descr).
  set (ds := S_ "-" :: split_ws (descr_core descr)) in *.
  assert (Hds : forallb is_token ds = true).
  { unfold ds. cbn [forallb]. rewrite split_ws_tokens. reflexivity. }
  assert (W : split_ws raw = str_of_Z a :: str_of_Z b :: lab :: ds).
  { unfold raw. rewrite vld_words by apply Hl. cbn [str_val0 v]. rewrite split_ws_app by reflexivity.
    rewrite !split_ws_token by apply str_of_Z_token. reflexivity. }
  assert (Fa : strIsFloat (str_of_Z a) = true) by (apply int_is_float; [apply str_of_Z_token | apply strIsInt_of_Z]).
  assert (Fb : strIsFloat (str_of_Z b) = true) by (apply int_is_float; [apply str_of_Z_token | apply strIsInt_of_Z]).
  assert (Na : str_of_Z a <> []) by (apply token_nonnil; apply str_of_Z_token).
  assert (Hline : cleanLine raw = str_of_Z a ++ sp :: str_of_Z b ++ sp :: lab ++ sp :: join [sp] ds).
  { rewrite cleanLine_words, W, !join_cons by discriminate. reflexivity. }
  unfold parse_line.
  assert (Hcs : comment_start (cleanLine raw) = false).
  { rewrite Hline, comment_start_app by exact Na. apply comment_start_float; [apply str_of_Z_token | exact Fa]. }
  assert (Hne : nonempty (cleanLine raw) = true).
  { rewrite Hline. destruct (str_of_Z a); [contradiction | reflexivity]. }
  rewrite Hcs, Hne. cbn [orb negb]. unfold parse_body.
  assert (Hend : end_of (cleanLine raw) = false).
  { unfold end_of. apply andb_false_iff. right. rewrite cleanLine_words, split_ws_words by apply split_ws_tokens. rewrite W.
    apply str_eqb_neq. intro C. rewrite C in Fb. discriminate Fb. }
  rewrite Hend.
  assert (HD : detect_list R (cleanLine raw) = Ok ([], [])).
  { unfold detect_list. rewrite find_chr_none; [reflexivity|]. rewrite Hline. intro C.
    apply in_app_or in C. destruct C as [C|[C|C]]; [now apply str_of_Z_nocomma in C|discriminate C|].
    apply in_app_or in C. destruct C as [C|[C|C]]; [now apply str_of_Z_nocomma in C|discriminate C|].
    apply in_app_or in C. destruct C as [C|[C|C]]; [now apply Hl in C|discriminate C|]. exact (Hd C). }
  rewrite HD. cbn [bind List.length Nat.leb]. rewrite cleanLine_words, split_sp_words.
  2: { rewrite W. discriminate. }
  2: apply split_ws_tokens.
  rewrite W.
  assert (M : merge_value (str_of_Z a :: str_of_Z b :: lab :: ds) = Ok (str_of_Z a, str_of_Z b :: lab :: ds)).
  { destruct (str_of_Z a) as [|c s] eqn:E; [contradiction|]. cbn [merge_value]. destruct (chr_eqb c quote) eqn:Q; [|reflexivity].
    apply chr_eqb_eq in Q. subst c. rewrite quote_notfloat in Fa. discriminate Fa. }
  rewrite M. cbn [bind].
  assert (FL : find_label (str_of_Z b :: lab :: ds) = Ok (Some (lab, ds))).
  { change (find_label (str_of_Z b :: lab :: ds)) with
      (if negb (nonempty (str_of_Z b)) then Err IndexError
       else if bang_colon (str_of_Z b) then find_label ds
       else if strIsFloat (str_of_Z b) then find_label (lab :: ds) else Ok (Some (str_of_Z b, lab :: ds))).
    assert (Nb : nonempty (str_of_Z b) = true).
    { pose proof (str_of_Z_token b) as T. destruct (str_of_Z b); [discriminate T | reflexivity]. }
    assert (Bb : bang_colon (str_of_Z b) = false).
    { unfold bang_colon. destruct (str_of_Z b) as [|c s] eqn:E; [reflexivity|]. destruct (rev (c :: s)); [reflexivity|].
      destruct (chr_eqb c (ch 33)) eqn:Q; [|reflexivity]. apply chr_eqb_eq in Q. subst c.
      rewrite float_head in Fb; [discriminate Fb|reflexivity|reflexivity|reflexivity]. }
    rewrite Nb, Bb, Fb. apply find_label_ok. exact Hl. }
  rewrite FL. cbn [bind]. unfold scalar. rewrite !strIsInt_of_Z, to_int_of_Z, andb_true_r.
  rewrite (token_strip lab) by apply Hl. destruct allow; reflexivity.
Qed.

(** ** List lines *)
Lemma startswith_false_head p c t : p <> [] -> (forall d, hd_error p = Some d -> chr_eqb c d = false) ->
  startswith (c :: t) p = false.
Proof.
  intros H1 H2. destruct p as [|d p]; [contradiction|]. cbn [startswith]. rewrite (H2 d eq_refl). reflexivity.
Qed.
Lemma eat1_here p rest : eat1 (p ++ rest) p = rest.
Proof.
  unfold eat1.
  assert (F : find_str (p ++ rest) p = Some 0).
  { destruct (p ++ rest) as [|c t] eqn:E.
    - destruct p; [reflexivity | discriminate E].
    - cbn [find_str]. rewrite <- E, startswith_app. reflexivity. }
  rewrite F. cbn [plus]. rewrite skipn_app, skipn_all, Nat.sub_diag. reflexivity.
Qed.
Lemma eat1_sep p rest : p <> [] -> piece p -> eat1 (comma :: sp :: p ++ rest) p = rest.
Proof.
  intros Hne Hp. unfold eat1.
  assert (N : forall c t, is_sep c = true -> startswith (c :: t) p = false).
  { intros c t Hc. apply startswith_false_head; [exact Hne|]. intros d Hd. destruct p as [|x p]; [contradiction|].
    cbn in Hd. injection Hd as ->. apply chr_eqb_neq. intros ->. rewrite (Hp d (or_introl eq_refl)) in Hc. discriminate Hc. }
  assert (F : find_str (p ++ rest) p = Some 0).
  { destruct (p ++ rest) as [|c t] eqn:E.
    - destruct p; [contradiction | discriminate E].
    - cbn [find_str]. rewrite <- E, startswith_app. reflexivity. }
  cbn [find_str]. rewrite !N by reflexivity. rewrite F. cbn [plus skipn].
  rewrite skipn_app, skipn_all, Nat.sub_diag. reflexivity.
Qed.

Definition list_ok (R : str -> str) (vs : list val) : Prop := Forall (scalar_ok R) vs.

Lemma elem_text R v : scalar_ok R v ->
  let s := str_val0 v in
  is_token s = true /\ ~ In comma s /\ comment_start s = false /\ list_val R s = v
  /\ strIsFloat s || strIsBool s = true.
Proof.
  intro H. destruct v as [z|t|b|s|l]; cbn [str_val0 scalar_ok] in *; cbv zeta; try contradiction.
  - assert (Hf : strIsFloat (str_of_Z z) = true) by (apply int_is_float; [apply str_of_Z_token | apply strIsInt_of_Z]).
    split; [apply str_of_Z_token|]. split; [apply str_of_Z_nocomma|].
    split; [apply comment_start_float; [apply str_of_Z_token | exact Hf]|].
    unfold list_val. rewrite strIsInt_of_Z, to_int_of_Z, Hf. split; reflexivity.
  - destruct H as [Ht [Hc [Hf [Hi Hr]]]]. split; [exact Ht|]. split; [exact Hc|].
    split; [apply comment_start_float; assumption|]. unfold list_val. rewrite Hi, Hf, Hr. split; reflexivity.
  - destruct b; (split; [reflexivity|]); (split; [|split; [reflexivity|split; reflexivity]]);
      intro C; cbn in C; repeat (destruct C as [C|C]; [discriminate C|]); exact C.
Qed.

Definition commafy (ss : list str) (z : str) : list str := map (fun s => s ++ [comma]) ss ++ [z].
Lemma join_commafy ss z : join (S_ ", ") (ss ++ [z]) = join [sp] (commafy ss z).
Proof.
  unfold commafy. induction ss as [|s ss IH]; [reflexivity|].
  cbn [map app]. rewrite !join_cons by (destruct ss; discriminate). rewrite IH.
  change (S_ ", ") with [comma; sp]. rewrite <- app_assoc. reflexivity.
Qed.

Lemma csplits_list ss lab t : Forall piece ss -> Forall (fun s => s <> []) ss -> ss <> [] ->
  piece lab -> lab <> [] -> sep_start t ->
  exists tl, csplits (join (S_ ", ") ss ++ sp :: lab ++ t) = ss ++ lab :: tl.
Proof.
  intros Hp Hn Hne Hl Hln Ht. induction ss as [|s ss IH]; [contradiction|].
  inversion Hp as [|x y P1 P2]; subst. inversion Hn as [|x y N1 N2]; subst.
  destruct ss as [|s' ss].
  - cbn [join]. change (sp :: lab ++ t) with ([sp] ++ (lab ++ t)).
    rewrite csplits_step; [|exact P1|reflexivity|discriminate|apply piece_head; assumption].
    destruct (csplits_first lab t Hl Ht) as [tl ->]. exists tl. reflexivity.
  - rewrite join_cons by discriminate. rewrite <- !app_assoc.
    rewrite csplits_step; [|exact P1|reflexivity|discriminate|].
    + destruct IH as [tl IH]; try assumption; [discriminate|]. exists tl. rewrite IH. reflexivity.
    + inversion P2; subst. inversion N2; subst. rewrite join_flat, <- app_assoc. apply piece_head; assumption.
Qed.
Lemma scan_list_ok R vs lab tl : list_ok R vs -> strIsFloat lab = false -> strIsBool lab = false ->
  scan_list R (map str_val0 vs ++ lab :: tl) = Ok (vs, map str_val0 vs).
Proof.
  intros H H1 H2. induction H as [|v vs Hv Hvs IH].
  - cbn [map app scan_list]. rewrite H1, H2. reflexivity.
  - cbn [map app scan_list]. destruct (elem_text R v Hv) as [_ [_ [_ [E F]]]]. rewrite F, IH. cbn [bind].
    rewrite E. reflexivity.
Qed.
Lemma eat_list ss : forall t, Forall piece ss -> Forall (fun s => s <> []) ss ->
  eat (flat_map (fun s => S_ ", " ++ s) ss ++ t) ss = t.
Proof.
  induction ss as [|s ss IH]; intros t Hp Hn; [reflexivity|].
  inversion Hp; subst. inversion Hn; subst. unfold eat in *. cbn [flat_map fold_left].
  change (S_ ", ") with [comma; sp]. rewrite <- !app_assoc. cbn [app]. rewrite eat1_sep by assumption.
  apply (IH t); assumption.
Qed.
Lemma find_chr_first c a b : ~ In c a -> find_chr c (a ++ c :: b) = Some (List.length a).
Proof.
  induction a as [|x a IH]; intro H; cbn [app find_chr List.length].
  - rewrite chr_eqb_refl. reflexivity.
  - assert (E : chr_eqb x c = false) by (apply chr_eqb_neq; intros ->; apply H; left; reflexivity).
    rewrite E, IH; [reflexivity|]. intro C. apply H. right. exact C.
Qed.

Theorem list_line_roundtrip R allow vs lab descr :
  list_ok R vs -> 2 <= List.length vs ->
  match vs with v :: _ => List.length (str_val0 v) < 30 | [] => True end ->
  label_ok lab ->
  parse_line R allow (item_str (mkItem (VList vs) lab false descr NOT_A_TAB)) =
    Ok (mkItem (VList vs) lab false (join [sp] (split_ws descr)) NOT_A_TAB).
Proof.
  intros Hvs Hlen H30 Hl.
  set (ss := map str_val0 vs). set (ds := split_ws descr).
  assert (Hss : Forall (fun s => is_token s = true /\ ~ In comma s /\ comment_start s = false) ss).
  { unfold ss. apply Forall_map. eapply Forall_impl; [|exact Hvs]. intros v Hv.
    destruct (elem_text R v Hv) as [A [B [C _]]]. repeat split; assumption. }
  assert (Hp : Forall piece ss).
  { eapply Forall_impl; [|exact Hss]. intros s [A [B _]]. apply token_piece; assumption. }
  assert (Hn : Forall (fun s => s <> []) ss).
  { eapply Forall_impl; [|exact Hss]. intros s [A _]. apply token_nonnil; assumption. }
  assert (Lss : 2 <= List.length ss) by (unfold ss; rewrite map_length; exact Hlen).
  assert (Hds : forallb is_token ds = true) by apply split_ws_tokens.
  set (raw := item_str (mkItem (VList vs) lab false descr NOT_A_TAB)).
  assert (Eraw : raw = join (S_ ", ") ss ++ sp :: (lab ++ sp :: descr)) by reflexivity.
  (* the cleaned line *)
  assert (Hcl : cleanLine raw = join (S_ ", ") ss ++ sp :: join [sp] (lab :: ds)).
  { rewrite cleanLine_words, Eraw. rewrite split_ws_app by reflexivity. rewrite (split_ws_app lab) by reflexivity.
    rewrite (split_ws_token lab) by apply Hl.
    destruct (exists_last (l := ss)) as [si [z Ez]]; [destruct ss; [cbn in Lss; lia | discriminate]|].
    rewrite Ez, join_commafy. rewrite split_ws_words.
    - rewrite join_app; [reflexivity| |discriminate]. unfold commafy. destruct si; discriminate.
    - unfold commafy. rewrite forallb_app. rewrite Ez in Hss. apply Forall_app in Hss. destruct Hss as [S1 S2].
      apply andb_true_intro. split.
      + rewrite forallb_forall. intros w Hw. apply in_map_iff in Hw. destruct Hw as [s [<- Hs]].
        rewrite Forall_forall in S1. apply token_app; [apply S1; exact Hs | reflexivity].
      + cbn. inversion S2 as [|x y [T _]]; subst. rewrite T. reflexivity. }
  destruct vs as [|v0 vs]; [cbn in Hlen; lia|]. destruct vs as [|v1 vs]; [cbn in Hlen; lia|].
  set (s0 := str_val0 v0) in *. set (rest := map str_val0 (v1 :: vs)) in *.
  assert (Ess : ss = s0 :: rest) by reflexivity.
  assert (H0 : is_token s0 = true /\ ~ In comma s0 /\ comment_start s0 = false) by (rewrite Ess in Hss; inversion Hss; assumption).
  destruct H0 as [T0 [C0 K0]].
  assert (Hflat : join (S_ ", ") ss = s0 ++ flat_map (fun s => S_ ", " ++ s) rest) by (rewrite Ess; apply join_flat).
  assert (Hform : exists w, cleanLine raw = s0 ++ comma :: w).
  { rewrite Hcl, Hflat. unfold rest. cbn [map flat_map]. change (S_ ", ") with [comma; sp].
    rewrite <- !app_assoc. cbn [app]. eexists. reflexivity. }
  destruct Hform as [w Hform].
  unfold parse_line.
  assert (Hcs : comment_start (cleanLine raw) = false).
  { rewrite Hform. destruct (token_cons s0 T0) as [c [t [E _]]]. rewrite E in K0 |- *.
    unfold comment_start in K0 |- *. cbn [existsb] in K0 |- *. cbn [app].
    change (S_ "#") with [ch 35] in *. change (S_ "!") with [ch 33] in *. change (S_ "--") with [dash; dash] in *.
    change (S_ "==") with [ch 61; ch 61] in *. cbn [startswith] in K0 |- *.
    destruct t as [|d t]; cbn [app] in *; [|exact K0].
    change (chr_eqb comma dash) with false. change (chr_eqb comma (ch 61)) with false.
    rewrite ?andb_false_r in *. cbn [andb] in *. exact K0. }
  assert (Hne : nonempty (cleanLine raw) = true).
  { rewrite Hform. destruct s0; [discriminate T0 | reflexivity]. }
  rewrite Hcs, Hne. cbn [orb negb].
  assert (Hend : end_of (cleanLine raw) = false).
  { unfold end_of. apply andb_false_iff. left. rewrite Hform, lower_app.
    apply not_true_is_false. intro C. apply startswith_iff in C. destruct C as [t C].
    assert (L3 : forall x y, lower s0 ++ lower (comma :: w) = x :: y -> exists x', lower_c x' = x /\ In x' s0).
    { intros x y E. destruct s0 as [|c s0]; [discriminate T0|]. cbn in E. injection E as E _. exists c. split; [exact E|left; reflexivity]. }
    (* the first word of the value is a number or a boolean: it cannot start with "end" *)
    inversion Hvs as [|? ? Hv0 _]; subst. clear - C Hv0 T0.
    assert (E0 : exists c t, s0 = c :: t /\ lower_c c = ch 101).
    { destruct (token_cons s0 T0) as [c [t0 [E _]]]. exists c, t0. split; [exact E|]. rewrite E in C. cbn in C.
      injection C as C _. exact C. }
    destruct E0 as [c [t0 [E Hc]]].
    destruct (elem_text R v0 Hv0) as [_ [_ [_ [_ F]]]]. fold s0 in F. rewrite E in F.
    assert (G : is_space c = false /\ is_sign c = false /\ num_head c = false).
    { assert (G : negb (chr_eqb (lower_c c) (ch 101)) || (negb (is_space c) && negb (is_sign c) && negb (num_head c)) = true) by (chars c).
      rewrite Hc in G. cbn in G. rewrite !andb_true_iff, !negb_true_iff in G. tauto. }
    rewrite float_head in F by tauto. cbn [orb] in F. unfold strIsBool in F. cbn [lower map existsb] in F.
    rewrite Hc in F. cbn in F. discriminate F. }
  unfold parse_body. rewrite Hend.
  assert (Hdet : detect_list R (cleanLine raw) = Ok (v0 :: v1 :: vs, ss)).
  { unfold detect_list. rewrite Hform. rewrite find_chr_first by exact C0. rewrite <- Hform.
    assert (B : (0 <? List.length s0) && (List.length s0 <? 30) = true).
    { apply andb_true_intro. split; apply Nat.ltb_lt; [|exact H30]. destruct s0; [discriminate T0 | cbn; lia]. }
    rewrite B. rewrite Hcl. rewrite join_flat.
    destruct (csplits_list ss lab (flat_map (fun x => [sp] ++ x) ds)) as [tl ->]; try assumption.
    - rewrite Ess. discriminate.
    - apply token_piece; apply Hl.
    - apply token_nonnil; apply Hl.
    - destruct ds; reflexivity.
    - apply scan_list_ok; [exact Hvs | apply Hl | apply Hl]. }
  rewrite Hdet. cbn [bind List.length Nat.leb].
  assert (Heat : eat (cleanLine raw) ss = sp :: join [sp] (lab :: ds)).
  { rewrite Hcl, Hflat, Ess. unfold eat. cbn [fold_left]. rewrite <- app_assoc. rewrite eat1_here.
    change (fold_left eat1 rest (flat_map (fun s => S_ ", " ++ s) rest ++ sp :: join [sp] (lab :: ds)))
      with (eat (flat_map (fun s => S_ ", " ++ s) rest ++ sp :: join [sp] (lab :: ds)) rest).
    rewrite Ess in Hp, Hn. inversion Hp; inversion Hn; subst. apply eat_list; assumption. }
  rewrite Heat. rewrite split_ws_blank_cons by reflexivity.
  rewrite split_ws_words.
  2: { cbn [forallb]. rewrite Hds. destruct Hl as [-> _]. reflexivity. }
  rewrite (find_label_ok lab ds Hl). cbn [bind]. rewrite token_strip by apply Hl. reflexivity.
Qed.

(** ** Comment lines *)
Definition comment_text (s : str) : Prop :=
  exists b t, forallb is_space b = true /\ s = b ++ t /\
    (t = [] \/ exists m u, t = m ++ u /\ In m [S_ "#"; S_ "!"; S_ "--"; S_ "=="]).
Lemma comment_line R allow s : comment_text s -> parse_line R allow s = Ok (comment_item s).
Proof.
  intros [b [t [Hb [-> Ht]]]]. unfold parse_line. rewrite cleanLine_words.
  rewrite split_ws_lpad by exact Hb. destruct Ht as [->|[m [u [-> Hm]]]]; [reflexivity|].
  assert (Tm : is_token m = true).
  { cbn in Hm. repeat (destruct Hm as [<-|Hm]; [reflexivity|]). contradiction. }
  destruct (split_ws_prefix m u Tm) as [w [ws ->]]. rewrite join_flat, <- app_assoc.
  assert (E : comment_start (m ++ w ++ flat_map (fun x => [sp] ++ x) ws) = true).
  { unfold comment_start. apply existsb_exists. exists m. split; [exact Hm | apply startswith_app]. }
  rewrite E. reflexivity.
Qed.
