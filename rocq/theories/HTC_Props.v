(** Properties C31, C32, C33, C56 and C57 (HTC files). *)
From Verif Require Import Py PyFacts TextFacts FASTOut_Model HTC_Model HTC_Spec HTC_Names HTC_Proofs HTC_Round HTC_Stable.
From Coq Require Import Lia Permutation.
Local Open Scope nat_scope.

(** ** C31: repeated names *)

(** Adding any objects to any section, in any order, always succeeds; the objects are appended in that order under
    keys that were not in use, and everything already there keeps its key, value and place. *)
Theorem C31_never_overwrites : forall (d : list (str * node)) (l : list node),
  exists ks, List.length ks = List.length l /\ add_all d l = Ok (d ++ combine ks l) /\ (NoDup (keys d) -> NoDup (keys d ++ ks)).
Proof. intros d l. apply add_all_spec. Qed.
Print Assumptions C31_never_overwrites.
(** Starting from an empty section, when no name contains a double underscore: the first object of a name is kept
    under that name and the n-th under name__n. *)
Theorem C31_nth_occurrence : forall l : list node, Forall (fun n => contains (node_name n) (S_ "__") = false) l ->
  exists d, add_all [] l = Ok d /\ map snd d = l /\
  forall i n, nth_error l i = Some n ->
    let before := List.length (filter (fun m => str_eqb (node_name m) (node_name n)) (firstn i l)) in
    nth_error (keys d) i = Some (match before with O => node_name n | _ => node_name n ++ S_ "__" ++ str_of_N (N.of_nat (S before)) end) /\
    dget d (match before with O => node_name n | _ => node_name n ++ S_ "__" ++ str_of_N (N.of_nat (S before)) end) = Some n.
Proof.
  intros l H. exists (number [] l). split; [exact (add_all_number l [] H)|]. split; [apply number_snd|].
  assert (ND : NoDup (keys (number [] l))).
  { apply built_keys. unfold built. rewrite number_snd. exact (add_all_number l [] H). }
  intros i n Hi. cbn zeta.
  assert (K : forall l seen i n, nth_error l i = Some n -> nth_error (number seen l) i =
     Some (key_for (node_name n) (occurrences (node_name n) (seen ++ firstn i l)), n)).
  { clear. induction l as [|m l IH]; intros seen [|i] n E; cbn [nth_error] in E; try discriminate.
    - injection E as <-. cbn [number nth_error firstn]. rewrite app_nil_r. reflexivity.
    - cbn [number nth_error firstn]. rewrite (IH _ _ _ E). rewrite <- app_assoc. reflexivity. }
  specialize (K l [] i n Hi). cbn [app] in K. unfold key_for, occurrences in K.
  assert (G : nth_error (keys (number [] l)) i = Some (key_for (node_name n) (occurrences (node_name n) (firstn i l)))).
  { unfold keys. rewrite nth_error_map. unfold key_for, occurrences. rewrite K. reflexivity. }
  unfold key_for, occurrences in G. set (b := List.length _) in *. split.
  - rewrite G. destruct b; reflexivity.
  - assert (L : forall (d : list (str * node)) j k v, NoDup (keys d) -> nth_error d j = Some (k, v) -> dget d k = Some v).
    { clear. induction d as [|[k0 v0] d IH]; intros j k v ND E; [destruct j; discriminate|]. cbn [keys map fst] in ND. inversion ND as [|? ? N1 N2]; subst.
      destruct j as [|j]; cbn [nth_error] in E; unfold dget; cbn [find fst].
      - injection E as -> ->. rewrite str_eqb_refl. reflexivity.
      - destruct (str_eqb k0 k) eqn:F; [|apply (IH j k v N2 E)]. apply str_eqb_eq in F. subst k0. exfalso. apply N1.
        apply nth_error_In in E. unfold keys. apply in_map_iff. exists (k, v). split; [reflexivity | exact E]. }
    eapply L; [exact ND|]. rewrite K. destruct b; reflexivity.
Qed.
Print Assumptions C31_nth_occurrence.
(** Whatever text is read: at every level of the tree no key occurs twice, and when no name at that level contains a
    double underscore the keys are the numbered ones of the previous theorem. *)
Inductive well_keyed : node -> Prop :=
| wk_line nm vs c : well_keyed (Line nm vs c)
| wk_sec k nm bc ec cont ss : NoDup (keys cont) ->
    (Forall (fun n => contains (node_name n) (S_ "__") = false) (map snd cont) -> add_all [] (map snd cont) = Ok cont) ->
    Forall (fun e => well_keyed (snd e)) cont -> well_keyed (Sec k nm bc ec cont ss).
Theorem C31_reading : forall num fs text h, load num fs text = Ok h ->
  NoDup (keys (h_contents h)) /\ add_all [] (map snd (h_contents h)) = Ok (h_contents h) /\
  Forall (fun e => well_keyed (snd e)) (h_contents h).
Proof.
  intros num fs text h H. unfold load in H. apply load_built in H.
  - destruct H as [B A]. split; [apply built_keys; exact B|]. split; [exact B|].
    revert A. apply Forall_impl. intros e. generalize (snd e). clear. intro n.
    induction n as [nm vs c|k nm bc ec cont ss IH] using node_rect'; intro H; [constructor|].
    inversion H as [|? ? ? ? ? ? H1 H2]; subst. constructor; [apply built_keys; exact H1 | intros _; exact H1|].
    rewrite Forall_forall in *. intros x Hx. apply IH; [exact Hx | apply H2; exact Hx].
  - split; [reflexivity | constructor].
Qed.
Print Assumptions C31_reading.

(** A double underscore in a given name marks a key, not a part of the name: the line is called by what precedes it. *)
Theorem C31_name_before_underscores : forall pre suf vs c, contains (pre ++ S_ "_") (S_ "__") = false ->
  node_name (mk_line (pre ++ S_ "__" ++ suf) vs c) = pre /\ node_name (mk_line pre vs c) = pre.
Proof.
  intros pre suf vs c. change (node_name (mk_line ?n vs c)) with (cut_uu n). induction pre as [|x pre IH]; intro H; [split; reflexivity|].
  cbn [app contains] in H. apply orb_false_iff in H. destruct H as [H1 H2]. destruct (IH H2) as [A B]. cbn [app cut_uu].
  assert (E : forall r, startswith (x :: pre ++ S_ "_" ++ r) (S_ "__") = false).
  { intro r. destruct pre as [|y pre]; exact H1. }
  change (x :: pre ++ S_ "__" ++ suf) with (x :: pre ++ S_ "_" ++ (S_ "_" ++ suf)). unfold uu in *. rewrite E.
  change (S_ "_" ++ S_ "_" ++ suf) with (S_ "__" ++ suf). rewrite A. split; [reflexivity|].
  assert (F : startswith (x :: pre) (S_ "__") = false) by (destruct pre as [|y pre]; [destruct x as [[] [] [] [] [] [] [] []]; reflexivity | exact H1]).
  rewrite F, B. reflexivity.
Qed.
Print Assumptions C31_name_before_underscores.
(** Looping over a section yields every entry once: the main bodies, then the rest, each group in file order. *)
Theorem C31_iteration : forall d : list (str * node), Permutation d (iter_order node_name d) /\
  map snd (iter_order node_name d) =
    filter (fun n => str_eqb (node_name n) (S_ "main_body")) (map snd d) ++ filter (fun n => negb (str_eqb (node_name n) (S_ "main_body"))) (map snd d).
Proof.
  intro d. unfold iter_order. split.
  - induction d as [|e d IH]; [constructor|]. cbn [filter]. destruct (is_mb node_name e); cbn [negb app].
    + constructor. exact IH.
    + apply Permutation_cons_app. exact IH.
  - rewrite map_app. f_equal; (induction d as [|e d IH]; [reflexivity|]); cbn [filter map]; unfold is_mb at 1, main_body;
      destruct (str_eqb (node_name (snd e)) (S_ "main_body")); cbn [negb map]; rewrite IH; reflexivity.
Qed.
Print Assumptions C31_iteration.

(** ** C32: round trip *)

(** Saving a well-formed tree always succeeds, and reading the file gives the tree with main bodies first, without
    its blank lines and with a tab added to end comments ([canon_file]); that tree is again well formed. *)
Theorem C32_round_trip_partial : forall num fs h, wf_file num fs h ->
  exists text, htc_str h = Ok text /\ load num fs text = Ok (canon_file h) /\ wf_file num fs (canon_file h).
Proof.
  intros num fs h H. destruct (file_round_trip num fs h H) as [text [T1 T2]]. exists text.
  split; [exact T1|]. split; [exact T2|]. apply canon_file_wf. exact H.
Qed.
Print Assumptions C32_round_trip_partial.
(** Without text in the end comments nothing changes after the first round: the tree read is read again unchanged,
    and saving it gives exactly the same file. *)
Theorem C32_stable : forall num fs h text, wf_file num fs h -> Forall (fun e => plain_ends (snd e)) (h_contents h) ->
  htc_str h = Ok text ->
  exists h', load num fs text = Ok h' /\ htc_str h' = Ok text /\ canon_file h' = h'.
Proof.
  intros num fs h text H HP HT. destruct (file_round_trip num fs h H) as [t [T1 T2]]. rewrite T1 in HT. apply Ok_inj in HT. subst t.
  exists (canon_file h). split; [exact T2|]. split; [rewrite (file_str_stable num fs h H HP); exact T1 | apply canon_file_idem; exact HP].
Qed.
Print Assumptions C32_stable.
(** The reordering moves the main bodies to the front, keeps the order among them and among the rest, loses nothing,
    and a second application changes nothing. *)
Theorem C32_reordering : forall l : list node,
  main_first l = filter is_main l ++ filter (fun n => negb (is_main n)) l /\
  main_first (main_first l) = main_first l /\ Permutation l (main_first l).
Proof.
  intro l. split; [reflexivity|]. split.
  - unfold main_first. rewrite !filter_app, !filter_filter.
    rewrite (filter_none (fun x => negb (is_main x) && is_main x)) by (intro x; destruct (is_main x); reflexivity).
    rewrite (filter_none (fun x => is_main x && negb (is_main x))) by (intro x; destruct (is_main x); reflexivity).
    rewrite app_nil_r. cbn [app]. f_equal; apply filter_ext; intro x; apply andb_diag.
  - unfold main_first. induction l as [|n l IH]; [constructor|]. cbn [filter]. destruct (is_main n); cbn [negb app].
    + constructor. exact IH.
    + apply Permutation_cons_app. exact IH.
Qed.
Print Assumptions C32_reordering.

(** The words of a line: numbers become the number, all others stay as they are except that backslashes become slashes;
    the number of values never changes. *)
Definition slashes (w : str) : str := map (fun c => if chr_eqb c (ch 92) then ch 47 else c) w.
Theorem C32_line_values : forall num nm ws, word nm -> Forall word ws -> no_uu nm ->
  (forall w, In w ws -> num w = None \/ exists t, num w = Some (Ok t)) ->
  line_from num (join [sp] (nm :: ws) ++ S_ ";") [] =
    Ok (Line nm (map (fun w => match num w with Some (Ok t) => t | _ => slashes w end) ws) [], []).
Proof.
  intros num nm ws [Hn1 Hn2] Hws Hu Hnum.
  assert (T : forallb is_token (nm :: ws) = true).
  { cbn [forallb]. rewrite Hn1. apply forallb_forall. rewrite Forall_forall in Hws. intros w Hw. apply Hws. exact Hw. }
  assert (NS : ~ In semi (join [sp] (nm :: ws))).
  { rewrite join_flat. intro C. apply in_app_or in C. destruct C as [C|C].
    - unfold no_semi in Hn2. rewrite forallb_forall in Hn2. specialize (Hn2 _ C). discriminate Hn2.
    - apply in_flat_map in C. destruct C as [w [C1 [C2|C2]]]; [discriminate C2|]. rewrite Forall_forall in Hws. destruct (Hws w C1) as [_ H].
      unfold no_semi in H. rewrite forallb_forall in H. specialize (H _ C2). discriminate H. }
  assert (E : split_chr semi (join [sp] (nm :: ws) ++ S_ ";") = [join [sp] (nm :: ws); []]).
  { revert NS. generalize (join [sp] (nm :: ws)). clear. intro s. induction s as [|c s IH]; intro H; [reflexivity|]. cbn [app split_chr].
    destruct (chr_eqb c semi) eqn:Q; [apply chr_eqb_eq in Q; subst c; exfalso; apply H; left; reflexivity|].
    unfold split_chr in *. cbn [split_on]. rewrite Q. rewrite IH; [reflexivity|]. intro C. apply H. right. exact C. }
  unfold line_from, parse_next. rewrite E. generalize (split_ws_words (nm :: ws) T). generalize (join [sp] (nm :: ws)). intros line SW.
  cbn [hd tl more_comments join app]. change (rstrip []) with (@nil ascii).
  rewrite split_ws_strip, SW.
  assert (MV : map_res (fmt_value num) ws = Ok (map (fun w => match num w with Some (Ok t) => t | _ => slashes w end) ws)).
  { clear -Hnum. induction ws as [|w ws IH]; [reflexivity|]. cbn [map_res map]. unfold fmt_value at 1.
    destruct (Hnum w (or_introl eq_refl)) as [-> | [t ->]]; cbn [bind].
    - rewrite IH by (intros; apply Hnum; right; assumption). cbn [bind]. do 2 f_equal.
      unfold slashes, replace_chr. clear. induction w as [|c w IH]; [reflexivity|]. cbn [map flat_map]. unfold backslash in *. rewrite <- IH. destruct (chr_eqb c (ch 92)); reflexivity.
    - rewrite IH by (intros; apply Hnum; right; assumption). reflexivity. }
  rewrite MV. cbn [bind]. unfold mk_line. rewrite cut_uu_id by exact Hu. reflexivity.
Qed.
Print Assumptions C32_line_values.

(** A number format for the examples: words of digits are integers, everything else is text. *)
Definition num0 (w : str) : option (res str) := if forallb is_digit w then Some (Ok w) else None.
Definition fs0 (w : str) : res str := Ok w.
Example C32_line_values_example : word (S_ "dll") /\ no_uu (S_ "dll") /\
  line_from num0 (S_ "dll .\control\a.dll 12;") [] = Ok (Line (S_ "dll") [S_ "./control/a.dll"; S_ "12"] [], []).
Proof. repeat split. Qed.
Lemma comment1 c : clean c = true -> strip c = c -> comment c.
Proof. intros H1 H2. exists c, []. repeat split; try assumption. constructor. Qed.
Lemma end_comment1 c : clean c = true -> rstrip c = c -> end_comment c.
Proof. intros H1 H2. exists c, []. repeat split; try assumption. constructor. Qed.
Ltac by_computation := vm_compute; repeat split; try reflexivity; try discriminate; auto 10; try (intuition discriminate).
Definition L_ (nm : string) (vs : list string) (c : string) : node := Line (S_ nm) (map S_ vs) (S_ c).
Definition entry (n : node) : str * node := (node_name n, n).
Definition demo_body (name : string) : node :=
  Sec Plain main_body (S_ "a body") [] [entry (L_ "name" [name] ""); entry (L_ "sec" ["1"; "2"]%string ""); (S_ "sec__2", L_ "sec" ["2"; "3"]%string "second")] [].
Definition demo_output : node :=
  Sec Output (S_ "output") [] [] [entry (L_ "filename" ["./res/out"]%string "")]
      [mk_sensor (S_ "wind") (S_ "free_wind") [S_ "1"; S_ "0"] (S_ "hub"); mk_sensor (S_ "general") (S_ "time") [] []].
Definition demo : htc :=
  mk_htc [S_ ";first" ++ [nl]]
    [entry (L_ "version" ["12"]%string "note"); ([], L_ "" [] ""); entry (Sec Plain (S_ "new_htc_structure") [] [] [entry (L_ "beam_output_file_name" ["x"]%string ""); entry (demo_body "tower"); (S_ "main_body__2", demo_body "shaft")] []);
     entry demo_output].
Ltac wf_demo :=
  repeat first
    [ apply wf_blank
    | apply wf_line; [by_computation | reflexivity | by_computation | repeat constructor; by_computation | apply comment1; reflexivity]
    | apply wf_sec; [by_computation | apply comment1; reflexivity | apply end_comment1; reflexivity | |]
    | apply Forall_cons | apply Forall_nil
    | progress cbn [snd entry demo_body demo_output L_ map] ].
Lemma demo_sensors : Forall (sensor_ok num0) [mk_sensor (S_ "wind") (S_ "free_wind") [S_ "1"; S_ "0"] (S_ "hub"); mk_sensor (S_ "general") (S_ "time") [] []].
Proof.
  constructor; [|constructor; [|constructor]]; unfold sensor_ok; cbn [s_type s_sensor s_values s_comments].
  - repeat split; try reflexivity; [by_computation | repeat constructor | apply comment1; reflexivity].
  - repeat split; try reflexivity; [by_computation | constructor | apply comment1; reflexivity].
Qed.
Example C32_example_wf : wf_file num0 fs0 demo.
Proof.
  split.
  - constructor; [|constructor]. exists (S_ ";first"). by_computation.
  - unfold demo. cbn [h_contents]. constructor; [wf_demo|]. constructor; [wf_demo|]. constructor; [wf_demo|]. constructor; [|constructor].
    cbn [snd entry demo_output]. apply wf_sec; [by_computation | apply comment1; reflexivity | apply end_comment1; reflexivity | exact demo_sensors | wf_demo].
Qed.
Example C32_example_text : exists text h', htc_str demo = Ok text /\ load num0 fs0 text = Ok h' /\ htc_str h' = Ok text /\
  keys (h_contents h') = [S_ "version"; S_ "new_htc_structure"; S_ "output"] /\
  match dget (h_contents h') (S_ "new_htc_structure") with
  | Some (Sec _ _ _ _ cont _) => keys cont = [S_ "main_body"; S_ "main_body__2"; S_ "beam_output_file_name"]
  | _ => False
  end.
Proof. eexists. eexists. split; [vm_compute; reflexivity|]. split; [vm_compute; reflexivity|]. split; [vm_compute; reflexivity|]. vm_compute. split; reflexivity. Qed.

(** Where the property fails.  A comment after "end" gains one tab in every round trip, so the file grows: *)
Theorem C32_end_comment_refuted : forall k nm bc ec cont ss,
  end_comment ec -> (match ec with [] => False | x :: _ => x <> nl end) ->
  canon (Sec k nm bc ec cont ss) = Sec k nm bc (tab :: ec) (arranged (map (fun e => canon (snd e)) cont)) ss /\
  exists h text h' text', wf_file num0 fs0 h /\ htc_str h = Ok text /\ load num0 fs0 text = Ok h' /\ htc_str h' = Ok text' /\
    List.length text' = S (List.length text).
Proof.
  intros k nm bc ec cont ss _ H. split.
  - cbn [canon]. f_equal. destruct ec as [|x ec]; [contradiction|]. cbn [end_read]. destruct (chr_eqb_spec x nl); [contradiction | reflexivity].
  - exists (mk_htc [] [entry (Sec Plain (S_ "wind") [] (S_ "note") [] [])]).
    do 3 eexists. split; [split; [constructor|]; constructor; [|constructor]; cbn [snd entry]; wf_demo; constructor|].
    split; [vm_compute; reflexivity|]. split; [vm_compute; reflexivity|]. split; vm_compute; reflexivity.
Qed.
Print Assumptions C32_end_comment_refuted.
(** A line whose name starts with "end" inside a section is taken for the end of the section. *)
Theorem C32_end_name_refuted : exists h text, htc_str h = Ok text /\ exists h', load num0 fs0 text = Ok h' /\
  h_contents h = [entry (Sec Plain (S_ "wind") [] [] [entry (L_ "endtime" ["5"]%string ""); entry (L_ "wsp" ["8"]%string "")] [])] /\
  match h_contents h' with (_, Sec _ _ _ _ cont _) :: _ => cont = [] | _ => False end /\ List.length (h_contents h') = 3.
Proof.
  exists (mk_htc [] [entry (Sec Plain (S_ "wind") [] [] [entry (L_ "endtime" ["5"]%string ""); entry (L_ "wsp" ["8"]%string "")] [])]).
  eexists. split; [vm_compute; reflexivity|]. eexists. split; [vm_compute; reflexivity|]. split; [reflexivity|]. split; reflexivity.
Qed.
Print Assumptions C32_end_name_refuted.
(** "begin  output;" with two blanks is read as an ordinary section whose sensors are ordinary lines, but the
    text it prints is read as an output section. *)
Theorem C32_output_spacing_refuted : exists text h text' h', load num0 fs0 text = Ok h /\ htc_str h = Ok text' /\ load num0 fs0 text' = Ok h' /\
  match h_contents h, h_contents h' with
  | (_, Sec Plain _ _ _ [_] []) :: _, (_, Sec Output _ _ _ [] [_]) :: _ => True
  | _, _ => False
  end.
Proof.
  exists (S_ "begin  output;" ++ [nl] ++ S_ "wind free_wind 1;" ++ [nl] ++ S_ "end output;" ++ [nl] ++ S_ "exit;").
  do 3 eexists. split; [vm_compute; reflexivity|]. split; [vm_compute; reflexivity|]. split; [vm_compute; reflexivity|]. exact I.
Qed.
Print Assumptions C32_output_spacing_refuted.
(** An output_at_time section whose begin comment has two or more characters cannot be printed, nor can any file
    that contains it at the top level: IndexError. *)
Theorem C32_at_time_comment_refuted : forall lev typ time nm bc ec cont ss, 2 <= List.length (strip bc) ->
  node_str lev (Sec (AtTime typ time) nm bc ec cont ss) = Err IndexError.
Proof.
  intros lev typ time nm bc ec cont ss H. rewrite node_str_sec. cbn [begin_str].
  destruct (Nat.leb (List.length (strip bc)) 1) eqn:E; [apply Nat.leb_le in E; lia | reflexivity].
Qed.
Print Assumptions C32_at_time_comment_refuted.
Example C32_at_time_comment_example : exists h, load num0 fs0 (S_ "begin output_at_time aero 1;abc" ++ [nl] ++ S_ "end output_at_time;") = Ok h /\
  htc_str h = Err IndexError.
Proof. eexists. split; vm_compute; reflexivity. Qed.
(** Two blank lines in a row inside an output section cannot be read: IndexError, whatever the rest of the file. *)
Theorem C32_blank_lines_refuted : forall num fs f k nm bc cont ss l1 l2 ls, k <> Plain -> strip l1 = [] -> strip l2 = [] ->
  sec_loop num fs (S f) k nm bc cont ss (l1 :: l2 :: ls) = Err IndexError.
Proof.
  intros num fs f k nm bc cont ss l1 l2 ls Hk H1 H2. cbn [sec_loop]. rewrite H1. cbn [is_nil].
  assert (B : split_ws l2 = []) by (rewrite <- split_ws_strip, H2; reflexivity).
  assert (P : forall p c, In c p -> is_space c = false -> startswith (lower l2) (c :: p) = false).
  { intros p c _ Hc. destruct l2 as [|x l2]; [reflexivity|]. cbn [lower map startswith].
    assert (Hx : is_space x = true).
    { destruct (is_space x) eqn:E; [reflexivity|]. exfalso. pose proof (some_text_head x l2 E) as K. unfold some_text in K. rewrite H2 in K. discriminate. }
    destruct (chr_eqb_spec (lower_c x) c) as [E|E]; [|reflexivity]. exfalso.
    assert (G : implb (is_space x) (is_space (lower_c x)) = true) by (clear; chars x). rewrite Hx, E, Hc in G. discriminate. }
  replace (startswith (lower l2) (S_ "begin")) with false.
  2:{ symmetry. destruct l2 as [|x l2]; [reflexivity|]. apply not_true_is_false. intro C. apply startswith_iff in C. destruct C as [t C].
      cbn [lower map S_ list_ascii_of_string app] in C. injection C as C _. 
      assert (Hx : is_space x = true).
      { destruct (is_space x) eqn:E; [reflexivity|]. exfalso. pose proof (some_text_head x l2 E) as K. unfold some_text in K. rewrite H2 in K. discriminate. }
      assert (G : implb (is_space x) (is_space (lower_c x)) = true) by (clear; chars x). rewrite Hx, C in G. discriminate. }
  replace (startswith (lower l2) (S_ "end")) with false.
  2:{ symmetry. destruct l2 as [|x l2]; [reflexivity|]. apply not_true_is_false. intro C. apply startswith_iff in C. destruct C as [t C].
      cbn [lower map S_ list_ascii_of_string app] in C. injection C as C _. 
      assert (Hx : is_space x = true).
      { destruct (is_space x) eqn:E; [reflexivity|]. exfalso. pose proof (some_text_head x l2 E) as K. unfold some_text in K. rewrite H2 in K. discriminate. }
      assert (G : implb (is_space x) (is_space (lower_c x)) = true) by (clear; chars x). rewrite Hx, C in G. discriminate. }
  destruct k; [contradiction| |]; rewrite B; reflexivity.
Qed.
Print Assumptions C32_blank_lines_refuted.
(** A comment line that follows a blank line is lost (it belongs to the nameless line, which is not printed). *)
Theorem C32_comment_after_blank_refuted : exists text h text', load num0 fs0 text = Ok h /\ htc_str h = Ok text' /\
  contains text (S_ ";important") = true /\ contains text' (S_ ";important") = false.
Proof.
  exists (S_ "a 1;" ++ [nl] ++ [nl] ++ S_ ";important" ++ [nl] ++ S_ "b 2;" ++ [nl] ++ S_ "exit;").
  do 2 eexists. split; [vm_compute; reflexivity|]. split; [vm_compute; reflexivity|]. split; vm_compute; reflexivity.
Qed.
Print Assumptions C32_comment_after_blank_refuted.

(** ** C33: copies *)

(** A tree of plain sections (names without surrounding blanks or, for lines, double underscore; comments without
    surrounding blanks) prints the same text after copy(). *)
Theorem C33_plain_copy_partial : forall n, copyable n -> forall level, node_str level (copy n) = node_str level n.
Proof. intros n H level. apply copy_str. exact H. Qed.
Print Assumptions C33_plain_copy_partial.
Example C33_example : copyable (demo_body "tower") /\ exists t, node_str 1 (copy (demo_body "tower")) = Ok t /\ node_str 1 (demo_body "tower") = Ok t.
Proof. split; [unfold demo_body; repeat constructor|]. eexists. split; vm_compute; reflexivity. Qed.
(** The copy of an output section never has any sensor, and an output_at_time section loses its keyword and time. *)
Theorem C33_output_copy_refuted : forall k nm bc ec cont ss,
  (exists nm' bc' ec' cont', copy (Sec k nm bc ec cont ss) = Sec Plain nm' bc' ec' cont' []) /\
  copy (Sec k nm bc ec cont ss) = copy (Sec Plain nm bc ec cont []) /\
  exists t t', node_str 0 demo_output = Ok t /\ node_str 0 (copy demo_output) = Ok t' /\ t <> t' /\
    contains t (S_ "free_wind") = true /\ contains t' (S_ "free_wind") = false.
Proof.
  intros k nm bc ec cont ss. split; [do 4 eexists; apply copy_sec|]. split; [rewrite !copy_sec; reflexivity|].
  eexists. eexists. split; [vm_compute; reflexivity|]. split; [vm_compute; reflexivity|].
  split; [intro H; apply (f_equal (@List.length ascii)) in H; vm_compute in H; discriminate|]. split; vm_compute; reflexivity.
Qed.
Print Assumptions C33_output_copy_refuted.
(** Any section that was read from a file with a comment after its "end" prints differently once copied. *)
Theorem C33_end_comment_refuted : exists h sec t t', load num0 fs0 (S_ "begin wind;" ++ [nl] ++ S_ "end wind; note" ++ [nl] ++ S_ "exit;") = Ok h /\
  dget (h_contents h) (S_ "wind") = Some sec /\ node_str 0 sec = Ok t /\ node_str 0 (copy sec) = Ok t' /\ t <> t'.
Proof.
  eexists. eexists. eexists. eexists. split; [vm_compute; reflexivity|]. split; [vm_compute; reflexivity|].
  split; [vm_compute; reflexivity|]. split; [vm_compute; reflexivity|]. intro H. apply (f_equal (@List.length ascii)) in H. vm_compute in H. discriminate.
Qed.
Print Assumptions C33_end_comment_refuted.

(** ** C56: comparing output sections *)

(** Identical sensors give no difference; every sensor of the first section beyond the length of the second appears
    in the report. *)
Lemma strs_eqb_refl a : strs_eqb a a = true.
Proof. unfold strs_eqb. rewrite Nat.eqb_refl. cbn [andb]. induction a as [|x a IH]; [reflexivity|]. cbn [combine forallb fst snd]. rewrite str_eqb_refl. exact IH. Qed.
Lemma sensor_compare_refl s : sensor_compare s s = [].
Proof. unfold sensor_compare. rewrite str_eqb_refl, strs_eqb_refl. reflexivity. Qed.
Lemma compare_pairs ss ext : concat (map (fun p => sensor_compare (fst p) (snd p)) (combine ss (ss ++ ext))) = [].
Proof. induction ss as [|s ss IH]; [destruct ext; reflexivity|]. cbn [app combine map concat fst snd]. rewrite sensor_compare_refl, IH. reflexivity. Qed.
Lemma compare_pairs2 ss ext : concat (map (fun p => sensor_compare (fst p) (snd p)) (combine (ss ++ ext) ss)) = [].
Proof. induction ss as [|s ss IH]; [destruct ext; reflexivity|]. cbn [app combine map concat fst snd]. rewrite sensor_compare_refl, IH. reflexivity. Qed.
Theorem C56_extra_in_first_partial : forall ss extra,
  sensors_compare (ss ++ extra) ss = concat (map (fun s => diff_lines (S_ "-") (sensor_str 0 s)) extra) /\
  (extra <> [] -> sensors_compare (ss ++ extra) ss <> []).
Proof.
  intros ss extra.
  assert (E : sensors_compare (ss ++ extra) ss = concat (map (fun s => diff_lines (S_ "-") (sensor_str 0 s)) extra)).
  { unfold sensors_compare. rewrite compare_pairs2. cbn [app].
    rewrite skipn_app, skipn_all, Nat.sub_diag. rewrite (skipn_all2 (ss ++ extra)) by lia. cbn [skipn app map concat]. apply app_nil_r. }
  split; [exact E|]. intros H C. rewrite E in C. destruct extra as [|s extra]; [contradiction|]. cbn [map concat] in C.
  apply app_eq_nil in C. destruct C as [C _]. unfold diff_lines in C. apply app_eq_nil in C. destruct C as [_ C]. discriminate.
Qed.
Print Assumptions C56_extra_in_first_partial.
(** But sensors that only the second section has are never reported: the sections compare equal. *)
Theorem C56_extra_in_second_refuted : forall ss extra, sensors_compare ss (ss ++ extra) = [].
Proof.
  intros ss extra. unfold sensors_compare. rewrite compare_pairs. cbn [app]. rewrite skipn_all2 by (rewrite app_length; lia).
  rewrite skipn_all. reflexivity.
Qed.
Print Assumptions C56_extra_in_second_refuted.

(** ** C57: editing a section *)

(** After any history of additions, assignments and deletions, an entry that no assignment or deletion names is still
    there, unchanged. *)
Theorem C57_edits_keep_the_rest : forall fs reserved es d d', apply_edits fs reserved d es = Ok d' -> forall k n,
  (forall v, ~ In (SetAttr k v) es) -> ~ In (DelAttr k) es -> dget d k = Some n -> dget d' k = Some n.
Proof.
  intros fs reserved es d d' H k n H1 H2 Hk. eapply edits_frame; [exact H | | exact Hk].
  apply not_true_is_false. intro C. apply existsb_exists in C. destruct C as [e [E1 E2]].
  destruct e as [| | |k' v|k']; cbn [touches] in E2; try discriminate; apply str_eqb_eq in E2; subst k'; [exact (H1 v E1) | exact (H2 E1)].
Qed.
Print Assumptions C57_edits_keep_the_rest.
(** section.key = values: the entry exists afterwards and holds these values, under a key that is not the name of an
    attribute or method of the class (an existing line keeps its name and comment). *)
Theorem C57_assignment_partial : forall fs reserved d k v, reserved k = false ->
  (match dget d k with Some (Sec _ _ _ _ _ _) => False | _ => True end) ->
  exists d' nm c, apply_edit fs reserved d (SetAttr k v) = Ok d' /\ dget d' k = Some (Line nm v c) /\
    (match dget d k with Some n => nm = node_name n | None => nm = cut_uu k /\ c = [] end) /\
    forall k', k' <> k -> dget d' k' = dget d k'.
Proof.
  intros fs reserved d k v Hr Hd. cbn [apply_edit]. rewrite Hr. destruct (dget d k) as [[nm vs c|]|] eqn:E; [|contradiction|].
  - exists (dset d k (Line nm v c)), nm, c. split; [reflexivity|]. split; [apply dget_dset_same|]. split; [reflexivity|].
    intros k' Hk. apply dget_dset_other. exact Hk.
  - exists (dset d k (mk_line k v [])), (cut_uu k), []. split; [reflexivity|]. split; [apply dget_dset_same|]. split; [split; reflexivity|].
    intros k' Hk. apply dget_dset_other. exact Hk.
Qed.
Print Assumptions C57_assignment_partial.
(** For the other keys (name_, values, lines, contents, parent, get, keys, copy, delete, location, compare, ...) the
    assignment is silently not part of the file. *)
Theorem C57_reserved_refuted : forall fs reserved d k v, reserved k = true -> apply_edit fs reserved d (SetAttr k v) = Ok d.
Proof. intros fs reserved d k v H. cbn [apply_edit]. rewrite H. reflexivity. Qed.
Print Assumptions C57_reserved_refuted.
Example C57_example : exists d, apply_edits fs0 (fun _ => false) [] [AddLine (S_ "wsp") [S_ "8"] []; AddSection (S_ "mann") false; SetAttr (S_ "wsp") [S_ "10"]; AddLine (S_ "wsp") [S_ "12"] []; AddSection (S_ "mann") false] = Ok d /\
  keys d = [S_ "wsp"; S_ "mann"; S_ "wsp__2"] /\ dget d (S_ "wsp") = Some (Line (S_ "wsp") [S_ "10"] []) /\ dget d (S_ "wsp__2") = Some (Line (S_ "wsp") [S_ "12"] []).
Proof. eexists. split; [vm_compute; reflexivity|]. repeat split. Qed.
