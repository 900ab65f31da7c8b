(** Properties C22-C26: FAST input files. *)
From Verif Require Import Py PyFacts TextFacts FASTIn_Model FASTIn_Proofs FASTIn_File.

(** ** C22: case-insensitive dictionary *)

Definition has_key (f : ffile) (k : str) : Prop :=
  exists d, In d (f_data f) /\ lower (it_label d) = lower k.

Lemma find_item_iff f k : (exists d, find_item f k = Some d) <-> has_key f k.
Proof.
  unfold find_item, has_key. split.
  - intros [d H]. apply find_some in H. exists d. rewrite <- key_match_true. exact H.
  - intros [d [H1 H2]]. destruct (find (key_match k) (f_data f)) as [d'|] eqn:E; [exists d'; reflexivity|].
    exfalso. apply (find_none _ _ E) in H1. apply key_match_true in H2. congruence.
Qed.

(** One assignment: the key takes the value under every spelling, every other key keeps
    its own, and nothing else of the file changes. *)
Theorem C22_set_get : forall f k v f', setitem f k v = Ok f' ->
  (forall k', lower k' = lower k -> has_key f k -> getitem f' k' = Ok v) /\
  (forall k', lower k' <> lower k -> getitem f' k' = getitem f k') /\
  keys f' = keys f /\ f_name f' = f_name f /\
  map (fun d => (it_label d, it_comment d, it_descr d, it_tab d)) (f_data f') =
  map (fun d => (it_label d, it_comment d, it_descr d, it_tab d)) (f_data f).
Proof.
  intros f k v f' H. unfold setitem in H. apply Ok_inj in H. subst f'.
  split; [|split; [|split; [|split]]].
  - intros k' Hk Hex. unfold getitem, find_item. cbn [f_data]. rewrite find_map_set.
    apply find_item_iff in Hex. destruct Hex as [d Hd]. unfold find_item in Hd.
    assert (E : find (key_match k') (f_data f) = find (key_match k) (f_data f)).
    { clear - Hk. induction (f_data f) as [|x l IH]; [reflexivity|]. cbn.
      rewrite (key_match_congr k' k x Hk), IH. reflexivity. }
    rewrite E, Hd. apply find_some in Hd. destruct Hd as [_ Hd]. rewrite Hd. reflexivity.
  - intros k' Hk. unfold getitem, find_item. cbn [f_data f_name]. rewrite find_map_set.
    destruct (find (key_match k') (f_data f)) as [d|] eqn:E; [|reflexivity].
    apply find_some in E. destruct E as [_ E]. apply key_match_true in E.
    destruct (key_match k d) eqn:F; [|reflexivity]. apply key_match_true in F. congruence.
  - unfold keys. cbn [f_data]. induction (f_data f) as [|d l IH]; [reflexivity|]. cbn [map filter].
    assert (E : it_comment (if key_match k d then set_value v d else d) = it_comment d) by (destruct (key_match k d); reflexivity).
    assert (E2 : it_label (if key_match k d then set_value v d else d) = it_label d) by (destruct (key_match k d); reflexivity).
    rewrite E. destruct (it_comment d); cbn [negb filter map]; [exact IH|]. rewrite E2, IH. reflexivity.
  - reflexivity.
  - cbn [f_data]. rewrite map_map. apply map_ext. intro d. destruct (key_match k d); reflexivity.
Qed.

(** Any history of assignments: a key reads as its last assigned value, or as it was. *)
Fixpoint run_sets (f : ffile) (ops : list (str * val)) : res ffile :=
  match ops with
  | [] => Ok f
  | (k, v) :: ops' => f' <- setitem f k v ;; run_sets f' ops'
  end.
Fixpoint last_set (ops : list (str * val)) (k : str) : option val :=
  match ops with
  | [] => None
  | (k0, v) :: ops' => match last_set ops' k with
                       | Some w => Some w
                       | None => if str_eqb (lower k0) (lower k) then Some v else None
                       end
  end.
Theorem C22_history : forall ops f, exists f', run_sets f ops = Ok f' /\ keys f' = keys f /\
  forall k, getitem f' k = match last_set ops k with
                           | Some v => match getitem f k with Ok _ => Ok v | Err e => Err e end
                           | None => getitem f k
                           end.
Proof.
  induction ops as [|[k0 v] ops IH]; intro f.
  - exists f. repeat split.
  - cbn [run_sets]. destruct (setitem f k0 v) as [f1|e] eqn:E; [|discriminate E]. cbn [bind].
    destruct (IH f1) as [f' [H1 [H2 H3]]]. exists f'. split; [exact H1|].
    pose proof (C22_set_get f k0 v f1 E) as [S1 [S2 [S3 _]]]. split; [congruence|].
    intro k. rewrite H3. cbn [last_set].
    assert (N : lower k = lower k0 -> getitem f1 k = match getitem f k with Ok _ => Ok v | Err e => Err e end).
    { intro Hk. destruct (find_item f k) as [d|] eqn:F.
      - assert (HK : has_key f k0).
        { apply find_item_iff. destruct (proj1 (find_item_iff f k) (ex_intro _ d F)) as [x [X1 X2]].
          apply find_item_iff. exists x. split; [exact X1 | congruence]. }
        rewrite (S1 k Hk HK). unfold getitem. rewrite F. reflexivity.
      - unfold getitem. rewrite F. unfold setitem in E. apply Ok_inj in E. subst f1. unfold find_item in *.
        cbn [f_data f_name]. rewrite find_map_set, F. destruct (f_name f); reflexivity. }
    destruct (str_eqb (lower k0) (lower k)) eqn:Q.
    + apply str_eqb_eq in Q. rewrite (N (eq_sym Q)). destruct (last_set ops k), (getitem f k); reflexivity.
    + apply str_eqb_neq in Q. rewrite (S2 k) by congruence. destruct (last_set ops k); reflexivity.
Qed.

Theorem C22_missing_key : forall f k, f_name f <> None -> (forall d, In d (f_data f) -> lower (it_label d) <> lower k) ->
  getitem f k = Err KeyError.
Proof.
  intros f k Hn H. unfold getitem. destruct (find_item f k) as [d|] eqn:E.
  - exfalso. destruct (proj1 (find_item_iff f k) (ex_intro _ d E)) as [x [X1 X2]]. exact (H x X1 X2).
  - destruct (f_name f); [reflexivity | contradiction].
Qed.
(** A file object built without a name reports a missing key with the wrong exception. *)
Theorem C22_missing_key_unnamed_refuted : forall l k, (forall d, In d l -> lower (it_label d) <> lower k) ->
  getitem (mkF l None) k = Err TypeError.
Proof.
  intros l k H. unfold getitem. destruct (find_item (mkF l None) k) as [d|] eqn:E; [|reflexivity].
  exfalso. destruct (proj1 (find_item_iff (mkF l None) k) (ex_intro _ d E)) as [x [X1 X2]]. exact (H x X1 X2).
Qed.

(** ** C23: assigning a missing key *)
Theorem C23_missing_key_ignored_refuted : forall f k v, (forall d, In d (f_data f) -> lower (it_label d) <> lower k) ->
  f_name f <> None ->
  setitem f k v = Ok f /\ getitem f k = Err KeyError.
Proof.
  intros f k v H Hn. split; [|apply C22_missing_key; assumption].
  unfold setitem. f_equal. destruct f as [l n]. cbn [f_data f_name] in *. f_equal.
  rewrite <- (map_id l) at 2. apply map_ext_in. intros d Hd. destruct (key_match k d) eqn:E; [|reflexivity].
  apply key_match_true in E. exfalso. exact (H d Hd E).
Qed.
(** The method [addKeyVal] does store, whether the key exists or not. *)
Lemma find_update_first k v ds l : forall k', lower k' = lower k -> (exists d, find (key_match k) l = Some d) ->
  exists d, find (key_match k') (update_first k v ds l) = Some d /\ it_value d = v.
Proof.
  intros k' Hk [d Hd]. induction l as [|x l IH]; [discriminate Hd|]. cbn [find] in Hd. cbn [update_first].
  destruct (key_match k x) eqn:E.
  - cbn [find]. assert (M : key_match k' (mkItem v k (it_comment x) match ds with Some t => t | None => it_descr x end (it_tab x)) = true).
    { apply key_match_true. cbn. symmetry. exact Hk. }
    rewrite M. eexists. split; [reflexivity|]. reflexivity.
  - cbn [find]. rewrite (key_match_congr k' k x Hk), E. apply IH. exact Hd.
Qed.
Lemma find_update_other k v ds l : forall k', lower k' <> lower k ->
  find (key_match k') (update_first k v ds l) = find (key_match k') l.
Proof.
  intros k' Hk. induction l as [|x l IH]; [reflexivity|]. cbn [update_first]. destruct (key_match k x) eqn:E.
  - cbn [find]. apply key_match_true in E.
    assert (M1 : key_match k' (mkItem v k (it_comment x) match ds with Some t => t | None => it_descr x end (it_tab x)) = false).
    { apply not_true_is_false. intro C. apply key_match_true in C. cbn [it_label] in C. congruence. }
    assert (M2 : key_match k' x = false).
    { apply not_true_is_false. intro C. apply key_match_true in C. congruence. }
    rewrite M1, M2. reflexivity.
  - cbn [find]. rewrite IH. reflexivity.
Qed.
Theorem C23_addKeyVal_stores : forall f k v ds,
  (forall k', lower k' = lower k -> getitem (addKeyVal f k v ds) k' = Ok v) /\
  (forall k', lower k' <> lower k -> getitem (addKeyVal f k v ds) k' = getitem f k').
Proof.
  intros f k v ds. unfold addKeyVal. destruct (find_item f k) as [d|] eqn:E; split; intros k' Hk; unfold getitem, find_item; cbn [f_data f_name].
  - destruct (find_update_first k v ds (f_data f) k' Hk) as [d' [-> <-]]; [exists d; exact E | reflexivity].
  - rewrite find_update_other by exact Hk. reflexivity.
  - unfold find_item in E. assert (E' : find (key_match k') (f_data f) = None).
    { clear - Hk E. revert E. induction (f_data f) as [|x l IH]; [reflexivity|]. cbn. rewrite (key_match_congr k' k x Hk).
      destruct (key_match k x); [discriminate | exact IH]. }
    assert (M : key_match k' (mkItem v k false match ds with Some t => t | None => [] end NOT_A_TAB) = true)
      by (apply key_match_true; cbn; symmetry; exact Hk).
    assert (G : forall l, find (key_match k') l = None -> forall x, key_match k' x = true -> find (key_match k') (l ++ [x]) = Some x).
    { clear. induction l as [|y l IH]; intros H x Hx; cbn in *; [rewrite Hx; reflexivity|].
      destruct (key_match k' y); [discriminate H | apply IH; assumption]. }
    rewrite (G _ E' _ M). reflexivity.
  - assert (M : key_match k' (mkItem v k false match ds with Some t => t | None => [] end NOT_A_TAB) = false).
    { apply not_true_is_false. intro C. apply key_match_true in C. cbn [it_label] in C. congruence. }
    assert (G : forall l, forall x, key_match k' x = false -> find (key_match k') (l ++ [x]) = find (key_match k') l).
    { clear. induction l as [|y l IH]; intros x Hx; cbn in *; [rewrite Hx; reflexivity|].
      destruct (key_match k' y); [reflexivity | apply IH; assumption]. }
    rewrite (G _ _ M). reflexivity.
Qed.

(** ** C24: iteration *)
(** [for item in f] sees every item once and in order, and then dies with an IndexError
    instead of stopping, for every file. *)
Theorem C24_iteration_refuted : forall f extra,
  for_loop (S (List.length (f_data f)) + extra) f (iter_ f) = (f_data f, Err IndexError).
Proof.
  intros f extra. unfold iter_.
  replace (S (List.length (f_data f)) + extra) with (List.length (f_data f) - 0 + S extra) by lia.
  replace (-1)%Z with (Z.of_nat 0 - 1)%Z by reflexivity. apply (for_loop_from f 0 extra). lia.
Qed.

(** ** C25: lines survive write and read *)
(** The hypotheses [value_ok], [scalar_ok], [label_ok] (FASTIn_Proofs.v) say: the value is
    an integer, a boolean, a float (carried by its [repr]), a word that does not look like
    a number, a boolean, a comment or a comma-separated list of them, or a text between
    double quotes whose words are separated by one blank and which does not start with one;
    the label is one word, without comma, that is not a number, not a boolean, not "of" and
    not of the form "!...:". *)
(** Value and label are always recovered; the description is recovered up to [descr_back]. *)
Theorem C25_line_partial : forall R allow v lab descr, value_ok R v -> label_ok lab ->
  parse_line R allow (item_str (mkItem v lab false descr NOT_A_TAB)) =
    Ok (mkItem v lab false (descr_back descr) NOT_A_TAB).
Proof. exact scalar_line_roundtrip. Qed.

(** A description made of words, not starting or ending with a dash, is given back with
    "- " in front; with the "- " already in front it is given back unchanged. *)
Definition descr_words (ws : list str) : Prop :=
  Forall (fun w => is_token w = true) ws /\
  match ws with w :: _ => startswith w [dash] = false | [] => True end /\
  match rev ws with w :: _ => endswith w [dash] = false | [] => True end.
Lemma lstrip_dash_id s : startswith s [dash] = false -> lstrip_dash s = s.
Proof.
  destruct s as [|c s]; [reflexivity|]. cbn [startswith lstrip_dash]. rewrite andb_true_r. intros ->. reflexivity.
Qed.
Lemma strip_dash_id s : startswith s [dash] = false -> startswith (rev s) [dash] = false -> strip_dash s = s.
Proof.
  intros H1 H2. unfold strip_dash. rewrite (lstrip_dash_id s) by exact H1. rewrite lstrip_dash_id by exact H2.
  apply rev_involutive.
Qed.
Lemma words_edges ws : descr_words ws -> ws <> [] ->
  startswith (join [sp] ws) [dash] = false /\ startswith (rev (join [sp] ws)) [dash] = false
  /\ exists c t, join [sp] ws = c :: t.
Proof.
  intros [H1 [H2 H3]] Hne.
  assert (T : forallb is_token ws = true) by (apply forallb_forall; apply Forall_forall; exact H1).
  split; [|split].
  - destruct ws as [|w ws]; [contradiction|]. rewrite join_flat. cbn in T. apply andb_inv in T. destruct T as [T _].
    destruct w as [|c w]; [discriminate T|]. exact H2.
  - destruct (exists_last Hne) as [a [z E]]. subst ws. rewrite rev_app_distr in H3. cbn in H3. unfold endswith in H3.
    assert (G : exists x, join [sp] (a ++ [z]) = x ++ z).
    { destruct a as [|y a]; [exists []; reflexivity|]. rewrite join_app by discriminate.
      exists (join [sp] (y :: a) ++ [sp]). rewrite <- app_assoc. reflexivity. }
    destruct G as [x ->]. rewrite rev_app_distr. rewrite forallb_app in T. apply andb_inv in T. destruct T as [_ T].
    cbn in T. apply andb_inv in T. destruct T as [T _]. destruct (rev z) as [|c t] eqn:Ez.
    + exfalso. apply (token_nonnil z T). rewrite <- (rev_involutive z), Ez. reflexivity.
    + exact H3.
  - destruct ws as [|w ws]; [contradiction|]. rewrite join_flat. cbn in T. apply andb_inv in T. destruct T as [T _].
    destruct w as [|c w]; [discriminate T|]. eexists. eexists. reflexivity.
Qed.
Theorem C25_description : forall ws, descr_words ws ->
  descr_back (join [sp] ws) = join [sp] (S_ "-" :: ws) /\
  descr_back (join [sp] (S_ "-" :: ws)) = join [sp] (S_ "-" :: ws).
Proof.
  intros ws H. destruct ws as [|w ws].
  - split; reflexivity.
  - set (l := w :: ws) in *.
    assert (T : forallb is_token l = true) by (apply forallb_forall; apply Forall_forall; apply H).
    destruct (words_edges l H) as [E1 [E2 [c [t E3]]]]; [discriminate|].
    assert (C1 : descr_core (join [sp] l) = join [sp] l).
    { unfold descr_core. rewrite (strip_noedge (join [sp] l)) by (apply join_words_noedge; exact T).
      rewrite strip_dash_id by assumption. apply strip_noedge. apply join_words_noedge. exact T. }
    assert (C2 : descr_core (join [sp] (S_ "-" :: l)) = join [sp] l).
    { unfold descr_core. rewrite (strip_noedge (join [sp] (S_ "-" :: l))).
      2: { apply join_words_noedge. cbn [forallb]. rewrite T. reflexivity. }
      rewrite join_cons by discriminate. change (S_ "-") with [dash]. cbn [app].
      unfold strip_dash. cbn [lstrip_dash]. change (chr_eqb dash dash) with true. cbv iota.
      change (chr_eqb sp dash) with false. cbv iota.
      assert (L : lstrip_dash (rev (sp :: join [sp] l)) = rev (sp :: join [sp] l)).
      { apply lstrip_dash_id. cbn [rev]. rewrite E3 in E2 |- *. cbn [rev] in *.
        destruct (rev t ++ [c]) as [|x y] eqn:Q; [destruct (rev t); discriminate Q|]. exact E2. }
      rewrite L, rev_involutive.
      change (sp :: join [sp] l) with ([sp] ++ join [sp] l). rewrite <- (app_nil_r (join [sp] l)) at 1.
      rewrite strip_pad by reflexivity. apply strip_noedge. apply join_words_noedge. exact T. }
    unfold descr_back. rewrite C1, C2, !split_ws_words by exact T. split; reflexivity.
Qed.

Theorem C25_description_changed_refuted :
  exists R v lab descr, value_ok R v /\ label_ok lab /\
    parse_line R false (item_str (mkItem v lab false descr NOT_A_TAB)) <> Ok (mkItem v lab false descr NOT_A_TAB).
Proof.
  exists (fun t => t), (VInt 10), (S_ "TMax"), (S_ "Total run time (s)"). split; [exact I|]. split.
  - repeat split; try reflexivity; try discriminate. intro C. cbn in C. repeat (destruct C as [C|C]; [discriminate C|]). exact C.
  - vm_compute. discriminate.
Qed.

(** Lists of at least two numbers or booleans come back; so does a single-spaced description. *)
Theorem C25_list_partial : forall R allow vs lab descr,
  Forall (scalar_ok R) vs -> 2 <= List.length vs ->
  match vs with v :: _ => List.length (str_val0 v) < 30 | [] => True end -> label_ok lab ->
  descr = join [sp] (split_ws descr) ->
  parse_line R allow (item_str (mkItem (VList vs) lab false descr NOT_A_TAB)) =
    Ok (mkItem (VList vs) lab false descr NOT_A_TAB).
Proof. intros R allow vs lab descr H1 H2 H3 H4 H5. rewrite (list_line_roundtrip R allow vs lab descr H1 H2 H3 H4), <- H5. reflexivity. Qed.

(** Two integers as one value: read back as a text once the label kp_total has been met in the file ([allow]),
    otherwise only the first integer is kept.  An early comma in the description turns the pair into a list. *)
Theorem C25_two_numbers : forall R allow a b lab descr,
  label_ok lab -> ~ In comma (descr_back descr) ->
  let v := VStr (str_of_Z a ++ sp :: str_of_Z b) in
  parse_line R allow (item_str (mkItem v lab false descr NOT_A_TAB)) =
    Ok (mkItem (if allow then v else VInt a) lab false (descr_back descr) NOT_A_TAB).
Proof. exact two_numbers_roundtrip. Qed.
Theorem C25_two_numbers_comma_refuted : exists it,
  parse_line (fun t => t) true (item_str (mkItem (VStr (S_ "1 3")) (S_ "member") false (S_ "- a, b") NOT_A_TAB)) = Ok it
  /\ it_value it = VList [VInt 1; VInt 3].
Proof. eexists. split; [vm_compute; reflexivity | reflexivity]. Qed.

(** A list of one value comes back as that value; a list of names is not read back; a
    value followed by a label that is the letter T or F and an early comma is swallowed
    into a list; a quoted text that starts with a blank loses its end to the label. *)
Theorem C25_one_element_list_refuted : exists it,
  parse_line (fun t => t) false (item_str (mkItem (VList [VInt 1]) (S_ "BlOutNd") false [] NOT_A_TAB)) = Ok it
  /\ it_value it = VInt 1.
Proof. eexists. split; [vm_compute; reflexivity | reflexivity]. Qed.
Theorem C25_list_of_names_refuted : exists it,
  parse_line (fun t => t) false (item_str (mkItem (VList [VStr (S_ "a"); VStr (S_ "b")]) (S_ "Files") false [] NOT_A_TAB)) = Ok it
  /\ it_value it = VStr (S_ "a,") /\ it_label it = S_ "b".
Proof. eexists. split; [vm_compute; reflexivity | split; reflexivity]. Qed.
Theorem C25_label_T_refuted : exists it,
  parse_line (fun t => t) false (item_str (mkItem (VInt 5) (S_ "T") false (S_ "- a, b") NOT_A_TAB)) = Ok it
  /\ it_value it = VList [VInt 5; VBool true] /\ it_label it = S_ "-".
Proof. eexists. split; [vm_compute; reflexivity | split; reflexivity]. Qed.
Theorem C25_quoted_blank_refuted : exists it,
  parse_line (fun t => t) false (item_str (mkItem (VStr (S_ """ a""")) (S_ "OutFile") false (S_ "-") NOT_A_TAB)) = Ok it
  /\ it_value it = VStr (S_ """") /\ it_label it = S_ "a""".
Proof. eexists. split; [vm_compute; reflexivity | split; reflexivity]. Qed.

(** Whole files made of such lines and comment lines: reading the written text gives back
    the very same items, in order. *)
Inductive entry (R : str -> str) : item -> Prop :=
| entry_comment s : comment_text s -> entry R (comment_item s)
| entry_value v lab ws : value_ok R v -> label_ok lab -> descr_words ws ->
    entry R (mkItem v lab false (join [sp] (S_ "-" :: ws)) NOT_A_TAB)
| entry_list vs lab ws : Forall (scalar_ok R) vs -> 2 <= List.length vs ->
    match vs with v :: _ => List.length (str_val0 v) < 30 | [] => True end -> label_ok lab ->
    forallb is_token ws = true ->
    entry R (mkItem (VList vs) lab false (join [sp] ws) NOT_A_TAB).
(** Lines the generic reader does not treat specially: no line break in the text, no table
    or section key word, and a label without special characters. *)
Definition ordinary (d : item) : Prop :=
  no_linebreak (item_str d) = true /\ special_item d = false /\
  outlist_line (item_str d) = false /\ ssoutlist_line (item_str d) = false /\ section_line (item_str d) = false /\
  (it_comment d = false -> forallb label_char (it_label d) = true).

Lemma entry_parse R d : entry R d -> forall allow, parse_line R allow (item_str d) = Ok d.
Proof.
  intros H allow. destruct H as [s Hs|v lab ws Hv Hl Hw|vs lab ws H1 H2 H3 H4 H5].
  - apply comment_line. exact Hs.
  - rewrite scalar_line_roundtrip by assumption. destruct (C25_description ws Hw) as [_ ->]. reflexivity.
  - apply C25_list_partial; try assumption. rewrite split_ws_words by exact H5. reflexivity.
Qed.
Lemma entry_plain R d : entry R d -> ordinary d -> plain_item R d.
Proof.
  intros H [O1 [O2 [O3 [O4 [O5 O6]]]]]. constructor; try assumption.
  - apply entry_parse. exact H.
  - intro Hc. split; [unfold hasSpecialChars; rewrite (O6 Hc); reflexivity|].
    destruct H as [s Hs|v lab ws Hv Hl Hw|vs lab ws H1 H2 H3 H4 H5]; cbn in *; [discriminate Hc| |];
      apply token_nonnil; [apply Hl | apply H4].
Qed.
Theorem C25_file_partial : forall R f, f_data f <> [] ->
  Forall (entry R) (f_data f) -> Forall ordinary (f_data f) ->
  100 * List.length (filter it_comment (f_data f)) <= 35 * List.length (f_data f) ->
  item_str (last (f_data f) (comment_item (S_ "x"))) <> [] ->
  (let lines := map item_str (f_data f) in
   first_char_error lines = false /\ extptfm lines = false /\ ad14 lines = false) ->
  read_text R (toString f) = Some (Ok (f_data f)).
Proof.
  intros R f Hne He Ho Hc Hlast [H1 [H2 H3]]. apply file_roundtrip; try assumption.
  rewrite Forall_forall in *. intros d Hd. apply entry_plain; [apply He | apply Ho]; exact Hd.
Qed.

(** A file of the shape of an OpenFAST main input file. *)
Definition demo : ffile := mkF
  [ comment_item (S_ "------- OpenFAST INPUT FILE ----");
    mkItem (VBool true) (S_ "Echo") false (S_ "- Echo input data (flag)") NOT_A_TAB;
    mkItem (VStr (S_ """FATAL""")) (S_ "AbortLevel") false (S_ "- Error level, when to abort") NOT_A_TAB;
    mkItem (VFloat (S_ "0.00625")) (S_ "DT") false (S_ "- Time step (s)") NOT_A_TAB;
    mkItem (VInt (-3)) (S_ "NumCrctn") false (S_ "-") NOT_A_TAB;
    mkItem (VStr (S_ """my blade.dat""")) (S_ "BDBldFile(1)") false (S_ "- Name of file") NOT_A_TAB;
    mkItem (VList [VInt 1; VFloat (S_ "2.5"); VBool false]) (S_ "OutNd") false (S_ "list") NOT_A_TAB ]
  (Some (S_ "a.fst")).
Ltac no_comma := let C := fresh in intro C; cbn in C; repeat (destruct C as [C|C]; [discriminate C|]); exact C.
Ltac label_tac := repeat split; try reflexivity; try discriminate; no_comma.
Lemma descr_tac (ws : list str) : forallb is_token ws = true ->
  match ws with w :: _ => startswith w [dash] = false | [] => True end ->
  match rev ws with w :: _ => endswith w [dash] = false | [] => True end -> descr_words ws.
Proof. intros H1 H2 H3. split; [apply Forall_forall; apply forallb_forall; exact H1 | split; assumption]. Qed.
Example C25_file_nonvacuous : read_text (fun t => t) (toString demo) = Some (Ok (f_data demo))
  /\ Forall (entry (fun t => t)) (f_data demo) /\ Forall ordinary (f_data demo).
Proof.
  split; [vm_compute; reflexivity|]. split.
  - unfold demo. cbn [f_data]. repeat apply Forall_cons.
    + apply entry_comment. exists [], (S_ "------- OpenFAST INPUT FILE ----"). split; [reflexivity|]. split; [reflexivity|].
      right. exists (S_ "--"), (S_ "----- OpenFAST INPUT FILE ----"). split; [reflexivity|]. right. right. left. reflexivity.
    + apply (entry_value _ (VBool true) (S_ "Echo") [S_ "Echo"; S_ "input"; S_ "data"; S_ "(flag)"]); [exact I | label_tac | apply descr_tac; reflexivity].
    + apply (entry_value _ (VStr _) (S_ "AbortLevel") [S_ "Error"; S_ "level,"; S_ "when"; S_ "to"; S_ "abort"]); [|label_tac | apply descr_tac; reflexivity].
      right. exists (S_ "FATAL"). split; [reflexivity|]. split; [no_comma|]. split; reflexivity.
    + apply (entry_value _ (VFloat _) (S_ "DT") [S_ "Time"; S_ "step"; S_ "(s)"]); [label_tac | label_tac | apply descr_tac; reflexivity].
    + apply (entry_value _ (VInt (-3)) (S_ "NumCrctn") []); [exact I | label_tac | apply descr_tac; reflexivity || exact I].
    + apply (entry_value _ (VStr _) (S_ "BDBldFile(1)") [S_ "Name"; S_ "of"; S_ "file"]); [|label_tac | apply descr_tac; reflexivity].
      right. exists (S_ "my blade.dat"). split; [reflexivity|]. split; [no_comma|]. split; reflexivity.
    + apply (entry_list _ _ (S_ "OutNd") [S_ "list"]); [|cbn; lia|cbn; lia|label_tac|reflexivity].
      repeat constructor; try no_comma.
    + constructor.
  - repeat constructor; discriminate.
Qed.

(** ** C26: output lists *)
(** A line ends the list when its first three characters are "end" in any case. *)
Theorem C26_outlist_complete : forall ls i o j, parseFASTOutList ls i = Ok (o, j) ->
  o = firstn (List.length o) (skipn i ls) /\ j = i + List.length o /\ List.length o <= 200 /\
  Forall (fun l => ~ starts_end l) o /\
  match nth_error (skipn i ls) (List.length o) with None => True | Some l => starts_end l end.
Proof.
  intros ls i o j H. unfold parseFASTOutList in H.
  destruct (outlist_loop 0 (skipn i ls)) as [o'|e] eqn:E; [|discriminate H]. cbn [bind] in H. apply Ok_inj in H.
  injection H as -> <-. destruct (outlist_loop_ok _ _ _ E) as [rest [E1 [E2 [E3 E4]]]].
  split; [|split; [reflexivity|]].
  - rewrite E1, firstn_app, firstn_all, Nat.sub_diag. cbn. rewrite app_nil_r. reflexivity.
  - split; [|split].
    + destruct o as [|x o]; [cbn; lia|]. specialize (E4 ltac:(discriminate)). exact E4.
    + eapply Forall_impl; [|exact E2]. intros l Hl C. apply is_END_iff in C. congruence.
    + rewrite E1, nth_error_app2, Nat.sub_diag by lia. destruct rest as [|l rest]; [exact I|]. cbn. apply is_END_iff. exact E3.
Qed.
(** It fails exactly when more than 200 lines come before END (or the end of the file). *)
Theorem C26_outlist_limit : forall ls i pre rest, skipn i ls = pre ++ rest ->
  Forall (fun l => ~ starts_end l) pre -> match rest with [] => True | l :: _ => starts_end l end ->
  parseFASTOutList ls i = if 200 <? List.length pre then Err PlainException else Ok (pre, i + List.length pre).
Proof.
  intros ls i pre rest E Hp Hr. unfold parseFASTOutList. rewrite E, outlist_loop_app.
  - cbn [plus]. destruct (200 <? List.length pre) eqn:L; cbn [andb bind]; [|reflexivity].
    destruct pre; [discriminate L|]. reflexivity.
  - eapply Forall_impl; [|exact Hp]. intros l Hl. apply not_true_is_false. intro C. apply Hl. apply is_END_iff. exact C.
  - destruct rest as [|l rest]; [exact I|]. apply is_END_iff. exact Hr.
Qed.
(** The reader does not resume after END: unless the second line after it announces nodal
    outputs, everything behind END is dropped, whatever it is. *)
Theorem C26_rest_dropped_refuted : forall R fuel pre hdr o e rest rest' st,
  outlist_line hdr = true -> existsb is_word hdr = true ->
  Forall (fun l => ~ starts_end l) o -> starts_end e -> List.length o <= 200 -> r_nodal st = false ->
  (forall r, r = rest \/ r = rest' -> match r with
    | _ :: l2 :: _ => found_after0 (lower l2) (S_ "bldnd_bladesout") = false
                      /\ found_after0 (lower l2) (S_ "bldnd_bloutnd") = false
    | _ => True end) ->
  read_loop R (S fuel) (pre ++ hdr :: o ++ e :: rest) (List.length pre) st =
  read_loop R (S fuel) (pre ++ hdr :: o ++ e :: rest') (List.length pre) st.
Proof.
  intros R fuel pre hdr o e rest rest' st H1 H2 H3 H4 H5 H6 H7.
  assert (Ho : Forall (fun l => is_END l = false) o).
  { eapply Forall_impl; [|exact H3]. intros l Hl. apply not_true_is_false. intro C. apply Hl. apply is_END_iff. exact C. }
  assert (He : is_END e = true) by (apply is_END_iff; exact H4).
  etransitivity; [|symmetry]; apply loop_outlist; try assumption; apply H7; [left|right]; reflexivity.
Qed.
(** What precedes END survives a write and a read, for a non-empty list of channels. *)
Theorem C26_outlist_file : forall R items lab descr o name,
  Forall (entry R) items -> Forall ordinary items ->
  o <> [] -> List.length o <= 200 ->
  Forall (fun l => ~ starts_end l /\ no_linebreak l = true) o ->
  outlist_line (outlist_header lab descr) = true ->
  existsb is_word (outlist_header lab descr) = true ->
  firstword (outlist_header lab descr) = lab -> remainer (outlist_header lab descr) = descr ->
  no_linebreak (outlist_header lab descr) = true ->
  100 * List.length (filter it_comment items) <= 35 * (List.length items + List.length o + 3) ->
  let f := mkF (items ++ [outlist_item lab descr o; end_item; dash_item]) name in
  let lines := map item_str items ++ outlist_header lab descr :: o ++ [S_ "END"; DASH_LINE] in
  first_char_error lines = false -> extptfm lines = false -> ad14 lines = false ->
  read_text R (toString f) = Some (Ok (f_data f)).
Proof.
  intros R items lab descr o name He Hord Ho Hlen Hol Hh Hw Hf Hr Hnl Hc.
  apply outlist_roundtrip; try assumption.
  - rewrite Forall_forall in *. intros d Hd. apply entry_plain; [apply He | apply Hord]; exact Hd.
  - eapply Forall_impl; [|exact Hol]. intros l [A B]. split; [|exact B]. apply not_true_is_false. intro C. apply A. apply is_END_iff. exact C.
Qed.
(** An empty list of channels comes back as a list of one empty line. *)
Theorem C26_empty_outlist_refuted : exists f f',
  In (outlist_item (S_ "OutList") (S_ "OUTPUT CHANNELS") []) (f_data f) /\
  read_text (fun t => t) (toString f) = Some (Ok f') /\
  In (outlist_item (S_ "OutList") (S_ "OUTPUT CHANNELS") [[]]) f'.
Proof.
  exists (mkF (f_data demo ++ [outlist_item (S_ "OutList") (S_ "OUTPUT CHANNELS") []; end_item; dash_item]) None).
  eexists. split; [apply in_or_app; right; left; reflexivity|]. split; [vm_compute; reflexivity|].
  vm_compute. tauto.
Qed.

(** ** Concrete cases *)
Example C22_nonvacuous : has_key demo (S_ "dt") /\ keys demo <> [] /\
  getitem demo (S_ "dT") = Ok (VFloat (S_ "0.00625")) /\
  (exists f', setitem demo (S_ "dt") (VInt 1) = Ok f' /\ getitem f' (S_ "DT") = Ok (VInt 1) /\
              getitem f' (S_ "echo") = Ok (VBool true)) /\
  getitem demo (S_ "nope") = Err KeyError.
Proof.
  split; [|split; [|split; [|split]]]; try (vm_compute; reflexivity); try discriminate.
  - eexists. split; [right; right; right; left; reflexivity | reflexivity].
  - eexists. split; [reflexivity|]. split; vm_compute; reflexivity.
Qed.
Example C26_nonvacuous :
  let ls := map S_ ["hdr"; "Wind1VelX"; "RotSpeed"; "end of list"; "tail"]%string in
  parseFASTOutList ls 1 = Ok (map S_ ["Wind1VelX"; "RotSpeed"]%string, 3).
Proof. vm_compute. reflexivity. Qed.
Example C26_file_nonvacuous :
  let descr := S_ "The next line(s) contains a list of output channels" in
  let o := map S_ ["""Wind1VelX, Wind1VelY"""; """RotSpeed"""]%string in
  outlist_line (outlist_header (S_ "OutList") descr) = true /\
  firstword (outlist_header (S_ "OutList") descr) = S_ "OutList" /\
  remainer (outlist_header (S_ "OutList") descr) = descr /\
  (let f := mkF (f_data demo ++ [outlist_item (S_ "OutList") descr o; end_item; dash_item]) None in
   read_text (fun t => t) (toString f) = Some (Ok (f_data f))).
Proof. vm_compute. repeat split. Qed.

Print Assumptions C22_set_get. Print Assumptions C22_history. Print Assumptions C22_missing_key.
Print Assumptions C22_missing_key_unnamed_refuted. Print Assumptions C23_missing_key_ignored_refuted.
Print Assumptions C23_addKeyVal_stores. Print Assumptions C24_iteration_refuted.
Print Assumptions C25_line_partial. Print Assumptions C25_description. Print Assumptions C25_description_changed_refuted.
Print Assumptions C25_list_partial. Print Assumptions C25_two_numbers. Print Assumptions C25_file_partial. Print Assumptions C26_outlist_complete.
Print Assumptions C26_outlist_limit. Print Assumptions C26_rest_dropped_refuted. Print Assumptions C26_outlist_file.
Print Assumptions C26_empty_outlist_refuted.
