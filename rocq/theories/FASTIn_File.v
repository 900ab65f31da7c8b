(** Proofs about the FAST input reader at the level of a whole file. *)
From Verif Require Import Py PyFacts TextFacts FASTIn_Model FASTIn_Proofs.

(** ** Iteration *)
Lemma for_loop_from f k : forall n, k <= List.length (f_data f) ->
  for_loop (List.length (f_data f) - k + S n) f
    ((Z.of_nat k - 1)%Z, (Z.of_nat (List.length (f_data f)) - 1)%Z) =
  (skipn k (f_data f), Err IndexError).
Proof.
  intros n Hk. remember (List.length (f_data f) - k) as m eqn:Em. revert k Hk Em.
  induction m as [|m IH]; intros k Hk Em.
  - assert (k = List.length (f_data f)) by lia. subst k. cbn [plus for_loop next].
    rewrite Z.gtb_ltb, Z.ltb_irrefl.
    assert (E : nth_error (f_data f) (Z.to_nat (Z.of_nat (List.length (f_data f)) - 1 + 1)) = None).
    { apply nth_error_None. lia. }
    rewrite E, skipn_all. reflexivity.
  - cbn [plus for_loop next].
    assert (G : (Z.of_nat k - 1 >? Z.of_nat (List.length (f_data f)) - 1)%Z = false).
    { rewrite Z.gtb_ltb. apply Z.ltb_ge. lia. }
    rewrite G.
    replace (Z.to_nat (Z.of_nat k - 1 + 1)) with k by lia.
    destruct (nth_error (f_data f) k) as [d|] eqn:E.
    2: { apply nth_error_None in E. lia. }
    replace (Z.of_nat k - 1 + 1)%Z with (Z.of_nat (S k) - 1)%Z by lia.
    rewrite IH by lia. f_equal.
    clear - E. revert k E. induction (f_data f) as [|x l IHl]; intros k E; [destruct k; discriminate E|].
    destruct k as [|k]; cbn in E; [injection E as ->; reflexivity|]. cbn [skipn]. apply IHl. exact E.
Qed.

(** ** Output lists *)
Definition starts_end (l : str) : Prop := lower (firstn 3 l) = S_ "end".

Lemma upper_lower_c c x : is_digit x = false -> chr_eqb (upper_c c) (upper_c x) = chr_eqb (lower_c c) (lower_c x).
Proof.
  intros _. destruct (chr_eqb (lower_c c) (lower_c x)) eqn:E.
  - apply chr_eqb_eq in E. apply chr_eqb_eq.
    assert (U : forall c, upper_c (lower_c c) = upper_c c).
    { intro y. apply chr_eqb_eq. chars y. }
    rewrite <- (U c), <- (U x), E. reflexivity.
  - apply chr_eqb_neq in E. apply chr_eqb_neq. intro C. apply E.
    rewrite <- (lower_upper_c c), <- (lower_upper_c x), C. reflexivity.
Qed.
Lemma is_END_iff l : is_END l = true <-> starts_end l.
Proof.
  unfold is_END, starts_end, upper, lower.
  change (S_ "END") with [ch 69; ch 78; ch 68]. change (S_ "end") with [ch 101; ch 110; ch 100].
  assert (A : forall c, chr_eqb (upper_c c) (ch 69) = chr_eqb (lower_c c) (ch 101)) by (intro c; apply (upper_lower_c c (ch 101)); reflexivity).
  assert (B : forall c, chr_eqb (upper_c c) (ch 78) = chr_eqb (lower_c c) (ch 110)) by (intro c; apply (upper_lower_c c (ch 110)); reflexivity).
  assert (D : forall c, chr_eqb (upper_c c) (ch 68) = chr_eqb (lower_c c) (ch 100)) by (intro c; apply (upper_lower_c c (ch 100)); reflexivity).
  destruct l as [|x [|y [|z l]]]; cbn [map startswith firstn].
  - split; discriminate.
  - rewrite andb_false_r. split; discriminate.
  - rewrite !andb_false_r. split; discriminate.
  - rewrite A, B, D, andb_true_r, !andb_true_iff, !chr_eqb_eq. split.
    + intros [-> [-> ->]]. reflexivity.
    + intro H. injection H. tauto.
Qed.

Lemma outlist_loop_ok ls : forall n o, outlist_loop n ls = Ok o ->
  exists rest, ls = o ++ rest /\ Forall (fun l => is_END l = false) o /\
    match rest with [] => True | l :: _ => is_END l = true end /\ (o <> [] -> n + List.length o <= 200).
Proof.
  induction ls as [|l ls IH]; intros n o H.
  - cbn in H. apply Ok_inj in H. subst o. exists []. repeat split; try constructor. contradiction.
  - cbn [outlist_loop] in H. destruct (is_END l) eqn:E.
    + apply Ok_inj in H. subst o. exists (l :: ls). repeat split; try constructor; [exact E | contradiction].
    + destruct (200 <? S n) eqn:F; [discriminate H|]. apply Nat.ltb_ge in F.
      destruct (outlist_loop (S n) ls) as [o'|e] eqn:G; [|discriminate H]. cbn [bind] in H. apply Ok_inj in H. subst o.
      destruct (IH _ _ G) as [rest [E1 [E2 [E3 E4]]]]. exists rest. subst ls.
      repeat split; [constructor; assumption | exact E3 |].
      intros _. cbn [List.length]. destruct o' as [|x o']; [cbn; lia|]. specialize (E4 ltac:(discriminate)). lia.
Qed.
Lemma outlist_loop_app o : forall n rest, Forall (fun l => is_END l = false) o ->
  match rest with [] => True | l :: _ => is_END l = true end ->
  outlist_loop n (o ++ rest) = if (200 <? n + List.length o) && nonempty o then Err PlainException else Ok o.
Proof.
  induction o as [|l o IH]; intros n rest Ho Hr.
  - cbn [app nonempty]. rewrite andb_false_r. destruct rest as [|l rest]; [reflexivity|]. cbn [outlist_loop]. rewrite Hr. reflexivity.
  - inversion Ho; subst. cbn [app outlist_loop List.length nonempty]. rewrite H1, IH by assumption. rewrite andb_true_r.
    destruct (200 <? S n) eqn:F.
    + apply Nat.ltb_lt in F. replace (200 <? n + S (List.length o)) with true; [reflexivity|].
      symmetry. apply Nat.ltb_lt. lia.
    + apply Nat.ltb_ge in F. destruct o as [|x o].
      * cbn [nonempty List.length]. rewrite andb_false_r. cbn [bind].
        replace (200 <? n + 1) with false; [reflexivity|]. symmetry. apply Nat.ltb_ge. lia.
      * cbn [nonempty]. rewrite andb_true_r. replace (S n + List.length (x :: o)) with (n + S (List.length (x :: o))) by lia.
        destruct (200 <? n + S (List.length (x :: o))); reflexivity.
Qed.

(** ** Plain lines in the reading loop *)
Definition nb_comments (l : list item) : nat := List.length (filter it_comment l).

Record plain_item (R : str -> str) (d : item) : Prop := {
  pl_parse : forall allow, parse_line R allow (item_str d) = Ok d;
  pl_nolb : no_linebreak (item_str d) = true;
  pl_special : special_item d = false;
  pl_out : outlist_line (item_str d) = false;
  pl_ss : ssoutlist_line (item_str d) = false;
  pl_sec : section_line (item_str d) = false;
  pl_label : it_comment d = false -> hasSpecialChars (it_label d) = false /\ it_label d <> []
}.

Lemma skipn_exact {A} (a b : list A) : skipn (List.length a) (a ++ b) = b.
Proof. rewrite skipn_app, skipn_all, Nat.sub_diag. reflexivity. Qed.
Lemma nth_error_mid {A} (a : list A) x b : nth_error (a ++ x :: b) (List.length a) = Some x.
Proof. rewrite nth_error_app2, Nat.sub_diag by lia. reflexivity. Qed.

Lemma loop_plain R todo : forall (pre : list str) tail fuel st,
  Forall (plain_item R) todo ->
  let lines := pre ++ map item_str todo ++ tail in
  100 * (r_comments st + nb_comments todo) <= 35 * List.length lines ->
  r_wrong st = 0 ->
  exists allow',
  read_loop R (List.length todo + fuel) lines (List.length pre) st =
  read_loop R fuel lines (List.length pre + List.length todo)
    (mkR (r_items st ++ todo) (r_comments st + nb_comments todo) 0 allow' (r_nodal st)).
Proof.
  induction todo as [|d todo IH]; intros pre tail fuel st Hp; cbv zeta; intros Hc Hw.
  - exists (r_allow st). cbn [List.length plus nb_comments filter]. rewrite app_nil_r, !Nat.add_0_r.
    destruct st as [it c w al no]; cbn in *. subst w. reflexivity.
  - inversion Hp as [|x y Hd Htodo]; subst.
    set (lines := pre ++ map item_str (d :: todo) ++ tail) in *.
    assert (Hnth : nth_error lines (List.length pre) = Some (item_str d)) by apply nth_error_mid.
    destruct Hd as [Dp Dn Ds Do Dss Dsec Dl].
    cbn [List.length plus]. cbn [read_loop]. rewrite Hnth, Do, Dss, Dsec.
    unfold read_standard. rewrite Hnth, Dp, Ds.
    assert (Hck : exists al, check_item (List.length lines) (S (List.length pre)) d
        {| r_items := r_items st; r_comments := r_comments st; r_wrong := r_wrong st;
           r_allow := r_allow st || str_eqb (lower (it_label d)) (S_ "kp_total"); r_nodal := r_nodal st |}
        = Ok (mkR (r_items st ++ [d]) (r_comments st + nb_comments [d]) 0 al (r_nodal st))).
    { unfold check_item. cbn [r_items r_comments r_wrong r_allow r_nodal].
      assert (Hcc : (if it_comment d then S (r_comments st) else r_comments st) = r_comments st + nb_comments [d]).
      { unfold nb_comments. cbn. destruct (it_comment d); cbn; lia. }
      rewrite Hcc, Hw.
      assert (L1 : (35 * List.length lines <? 100 * (r_comments st + nb_comments [d])) = false).
      { apply Nat.ltb_ge. etransitivity; [|exact Hc]. unfold nb_comments. cbn [filter].
        destruct (it_comment d); cbn [List.length]; lia. }
      rewrite L1.
      destruct (it_comment d) eqn:E; cbn [negb andb].
      - cbn [plus Nat.mul Nat.ltb]. eexists. reflexivity.
      - destruct (Dl eq_refl) as [L2 L3]. rewrite L2. cbn [andb negb plus].
        destruct (it_label d); [contradiction|]. cbn [nonempty negb plus Nat.mul]. eexists. reflexivity. }
    destruct Hck as [al Hck]. rewrite Hck.
    assert (Hl : lines = (pre ++ [item_str d]) ++ map item_str todo ++ tail).
    { unfold lines. rewrite <- app_assoc. reflexivity. }
    assert (Hi : S (List.length pre) = List.length (pre ++ [item_str d])) by (rewrite app_length; cbn; lia).
    rewrite Hl, Hi.
    destruct (IH (pre ++ [item_str d]) tail fuel
                 (mkR (r_items st ++ [d]) (r_comments st + nb_comments [d]) 0 al (r_nodal st)) Htodo) as [al' IH'].
    + cbv zeta. rewrite <- Hl. cbn [r_comments]. etransitivity; [|exact Hc].
      unfold nb_comments. cbn [filter]. destruct (it_comment d); cbn [List.length]; lia.
    + reflexivity.
    + exists al'. rewrite IH'. cbn [r_items r_comments r_nodal].
      f_equal.
      * rewrite !app_length. cbn [List.length]. lia.
      * f_equal; [rewrite <- app_assoc; reflexivity|]. unfold nb_comments. cbn [filter]. destruct (it_comment d); cbn [List.length]; lia.
Qed.

Lemma loop_end R fuel lines i st : List.length lines <= i -> read_loop R fuel lines i st = Some (Ok (r_items st)).
Proof.
  intro H. assert (E : nth_error lines i = None) by (apply nth_error_None; exact H).
  destruct fuel; cbn [read_loop]; rewrite E; reflexivity.
Qed.

Theorem file_roundtrip R f : f_data f <> [] -> Forall (plain_item R) (f_data f) ->
  item_str (last (f_data f) (comment_item (S_ "x"))) <> [] ->
  100 * nb_comments (f_data f) <= 35 * List.length (f_data f) ->
  first_char_error (map item_str (f_data f)) = false ->
  extptfm (map item_str (f_data f)) = false -> ad14 (map item_str (f_data f)) = false ->
  read_text R (toString f) = Some (Ok (f_data f)).
Proof.
  intros Hne Hp Hlast Hc H1 H2 H3. unfold read_text, toString. rewrite splitlines_join.
  - unfold read_lines. rewrite H1, H2, H3. cbn [orb].
    destruct (loop_plain R (f_data f) [] [] 1 (mkR [] 0 0 false false) Hp) as [al E].
    + cbv zeta. cbn [app r_comments]. rewrite app_nil_r, map_length. cbn [plus]. exact Hc.
    + reflexivity.
    + cbv zeta in E. cbn [app List.length plus r_items r_comments r_nodal] in E. rewrite app_nil_r in E.
      rewrite map_length. replace (S (List.length (f_data f))) with (List.length (f_data f) + 1) by lia.
      rewrite E. rewrite loop_end; [reflexivity|]. rewrite map_length. lia.
  - rewrite forallb_forall. intros s Hs. apply in_map_iff in Hs. destruct Hs as [d [<- Hd]].
    rewrite Forall_forall in Hp. apply (Hp d Hd).
  - destruct (exists_last Hne) as [a [z E]]. rewrite E in Hlast |- *. rewrite map_app. cbn [map].
    rewrite last_last in Hlast |- *. exact Hlast.
Qed.

(** ** A file that ends with an output list *)
Lemma join_concat (lls : list (list str)) : Forall (fun l => l <> []) lls ->
  join [nl] (map (join [nl]) lls) = join [nl] (concat lls).
Proof.
  induction lls as [|l lls IH]; intro H; [reflexivity|]. inversion H; subst.
  cbn [map concat]. destruct lls as [|l' lls].
  - cbn. rewrite app_nil_r. reflexivity.
  - rewrite join_cons by discriminate. rewrite IH by assumption.
    rewrite join_app; [reflexivity | assumption |]. inversion H3; subst. cbn. destruct l'; [contradiction | discriminate].
Qed.

Definition outlist_item (lab descr : str) (o : list str) : item :=
  mkItem (VList (VStr [] :: map VStr o)) lab false descr TAB_FIL.
Definition outlist_header (lab descr : str) : str := sp :: lab ++ sp :: descr.
Definition end_item : item :=
  mkItem (VStr (S_ "END")) (S_ "of") true
    (S_ "input file (the word ""END"" must appear in the first 3 columns of this last OutList line)") NOT_A_TAB.
Definition dash_item : item := comment_item DASH_LINE.

Lemma parse_end R : parse_line R false END_LINE = Ok end_item.
Proof. vm_compute. reflexivity. Qed.
Lemma parse_dash R : parse_line R false DASH_LINE = Ok dash_item.
Proof. vm_compute. reflexivity. Qed.

Lemma outlist_item_str lab descr o : o <> [] ->
  item_str (outlist_item lab descr o) = join [nl] (outlist_header lab descr :: o).
Proof.
  intro H. rewrite join_cons by exact H. unfold item_str, outlist_item, outlist_header. cbn.
  f_equal. rewrite <- !app_assoc. cbn [app]. f_equal. f_equal. f_equal. f_equal.
  rewrite map_map. cbn. rewrite map_id. reflexivity.
Qed.

(** What the reader does at an output list that is not followed by nodal outputs. *)
Lemma loop_outlist R fuel pre hdr o e rest st :
  let lines := pre ++ hdr :: o ++ e :: rest in
  outlist_line hdr = true -> existsb is_word hdr = true ->
  Forall (fun l => is_END l = false) o -> is_END e = true -> List.length o <= 200 ->
  r_nodal st = false ->
  match rest with
  | _ :: l2 :: _ => found_after0 (lower l2) (S_ "bldnd_bladesout") = false
                    /\ found_after0 (lower l2) (S_ "bldnd_bloutnd") = false
  | _ => True
  end ->
  read_loop R (S fuel) lines (List.length pre) st =
    Some (Ok (r_items st ++ [outlist_item (firstword hdr) (remainer hdr) o; end_item; dash_item])).
Proof.
  cbv zeta. intros Hh Hw Ho He Hlen Hn Hr. cbn [read_loop]. rewrite nth_error_mid, Hh, Hw. cbn [negb].
  unfold parseFASTOutList.
  assert (Sk : skipn (S (List.length pre)) (pre ++ hdr :: o ++ e :: rest) = o ++ e :: rest).
  { replace (pre ++ hdr :: o ++ e :: rest) with ((pre ++ [hdr]) ++ o ++ e :: rest) by (rewrite <- app_assoc; reflexivity).
    rewrite <- (skipn_exact (pre ++ [hdr]) (o ++ e :: rest)) at 2. f_equal. rewrite app_length. cbn [List.length]. lia. }
  rewrite Sk, outlist_loop_app by assumption.
  assert (L : (200 <? 0 + List.length o) = false) by (apply Nat.ltb_ge; lia).
  rewrite L. cbn [andb bind]. rewrite Hn.
  assert (N1 : forall k, nth_error (pre ++ hdr :: o ++ e :: rest) (S (List.length pre) + List.length o + k) = nth_error (e :: rest) k).
  { intro k. replace (pre ++ hdr :: o ++ e :: rest) with ((pre ++ hdr :: o) ++ e :: rest) by (rewrite <- app_assoc; reflexivity).
    rewrite nth_error_app2 by (rewrite app_length; cbn; lia). f_equal. rewrite app_length. cbn [List.length]. lia. }
  pose proof (N1 0) as N0. rewrite Nat.add_0_r in N0. cbn [plus] in N0, N1 |- *. rewrite N0, (N1 2). cbn [nth_error].
  destruct rest as [|x [|l2 rest]]; [| |destruct Hr as [R1 R2]; rewrite R1, R2; cbn [orb]];
    rewrite parse_end, parse_dash; cbn [bind]; unfold push; cbn [r_items]; rewrite <- app_assoc; reflexivity.
Qed.

Theorem outlist_roundtrip R items lab descr o name :
  Forall (plain_item R) items ->
  o <> [] -> List.length o <= 200 ->
  Forall (fun l => is_END l = false /\ no_linebreak l = true) o ->
  outlist_line (outlist_header lab descr) = true ->
  existsb is_word (outlist_header lab descr) = true ->
  firstword (outlist_header lab descr) = lab -> remainer (outlist_header lab descr) = descr ->
  no_linebreak (outlist_header lab descr) = true ->
  100 * nb_comments items <= 35 * (List.length items + List.length o + 3) ->
  let f := mkF (items ++ [outlist_item lab descr o; end_item; dash_item]) name in
  let lines := map item_str items ++ outlist_header lab descr :: o ++ [S_ "END"; DASH_LINE] in
  first_char_error lines = false -> extptfm lines = false -> ad14 lines = false ->
  read_text R (toString f) = Some (Ok (f_data f)).
Proof.
  intros Hp Ho Hlen Hol Hh Hw Hf Hr Hnl Hc f lines H1 H2 H3.
  assert (E : toString f = join [nl] lines).
  { unfold toString, f, lines. cbn [f_data]. rewrite map_app. cbn [map].
    rewrite outlist_item_str by exact Ho.
    change (item_str end_item) with (S_ "END"). change (item_str dash_item) with DASH_LINE.
    set (hdr := outlist_header lab descr).
    assert (Hmap : map item_str items = map (join [nl]) (map (fun d => [item_str d]) items)).
    { rewrite map_map. reflexivity. }
    assert (Hcat : map item_str items = concat (map (fun d => [item_str d]) items)).
    { clear. induction items as [|d l IH]; [reflexivity|]. cbn. rewrite <- IH. reflexivity. }
    transitivity (join [nl] (map (join [nl]) (map (fun d => [item_str d]) items ++ [hdr :: o; [S_ "END"]; [DASH_LINE]]))).
    - rewrite map_app, <- Hmap. cbn [map join]. reflexivity.
    - rewrite join_concat.
      + rewrite concat_app, <- Hcat. cbn [concat]. rewrite app_nil_r. reflexivity.
      + apply Forall_app. split; [|repeat constructor; discriminate].
        apply Forall_map. apply Forall_forall. intros d _. discriminate. }
  unfold read_text. rewrite E, splitlines_join.
  - unfold read_lines. rewrite H1, H2, H3. cbn [orb].
    destruct (loop_plain R items [] (outlist_header lab descr :: o ++ [S_ "END"; DASH_LINE])
                (List.length o + 4) (mkR [] 0 0 false false) Hp) as [al EL].
    + cbv zeta. cbn [app r_comments plus]. rewrite app_length, map_length. cbn [List.length]. rewrite app_length.
      cbn [List.length]. etransitivity; [exact Hc|]. lia.
    + reflexivity.
    + cbv zeta in EL. cbn [app List.length plus r_items r_comments r_nodal] in EL.
      fold lines in EL.
      replace (S (List.length lines)) with (List.length items + (List.length o + 4)).
      2: { unfold lines. rewrite app_length, map_length. cbn [List.length]. rewrite app_length. cbn [List.length]. lia. }
      rewrite EL. replace (List.length o + 4) with (S (List.length o + 3)) by lia.
      unfold lines. rewrite <- (map_length item_str items).
      rewrite (loop_outlist R (List.length o + 3) (map item_str items) (outlist_header lab descr) o (S_ "END") [DASH_LINE]);
        try assumption; try reflexivity.
      * cbn [r_items]. rewrite Hf, Hr. reflexivity.
      * eapply Forall_impl; [|exact Hol]. intros l [A _]. exact A.
  - unfold lines. rewrite forallb_app. apply andb_true_intro. split.
    + rewrite forallb_forall. intros s Hs. apply in_map_iff in Hs. destruct Hs as [d [<- Hd]].
      rewrite Forall_forall in Hp. apply (Hp d Hd).
    + cbn [forallb]. rewrite Hnl. cbn [andb]. rewrite forallb_app. apply andb_true_intro. split; [|reflexivity].
      rewrite forallb_forall. intros s Hs. rewrite Forall_forall in Hol. apply Hol. exact Hs.
  - unfold lines. rewrite app_comm_cons. rewrite app_assoc.
    change [S_ "END"; DASH_LINE] with ([S_ "END"] ++ [DASH_LINE]). rewrite app_assoc, last_last. discriminate.
Qed.
