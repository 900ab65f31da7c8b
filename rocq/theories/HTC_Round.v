(** Reading back a printed HTC file (for HTC_Props.v). *)
From Verif Require Import Py PyFacts TextFacts FASTOut_Model HTC_Model HTC_Spec HTC_Names HTC_Proofs.
From Coq Require Import Lia.
Local Open Scope nat_scope.

(** Induction over a tree. *)
Lemma node_rect' (P : node -> Prop) :
  (forall nm vs c, P (Line nm vs c)) ->
  (forall k nm bc ec cont ss, Forall (fun e => P (snd e)) cont -> P (Sec k nm bc ec cont ss)) ->
  forall n, P n.
Proof.
  intros HL HS. fix IH 1. intros [nm vs c|k nm bc ec cont ss]; [apply HL|]. apply HS.
  induction cont as [|e cont IHc]; [constructor|]. constructor; [apply IH | exact IHc].
Qed.

Lemma canon_name n : node_name (canon n) = node_name n.
Proof. destruct n; reflexivity. Qed.

(** ** Lines of a tree *)
Definition comment_lines (X c : str) : list str :=
  match split_chr nl c with c0 :: cs => head_lines X c0 cs | [] => [] end.
Lemma split_comment c0 cs : clean c0 = true -> Forall continuation cs -> split_chr nl (join [nl] (c0 :: cs)) = c0 :: cs.
Proof.
  intros H1 H2. apply split_chr_join; [discriminate|]. cbn [forallb].
  assert (G : forall s, clean s = true -> negb (mem_chr nl s) = true).
  { intros s H. apply clean_nl in H. apply negb_true_iff. apply not_true_is_false. intro C. apply mem_chr_iff in C.
    rewrite forallb_forall in H. specialize (H _ C). rewrite chr_eqb_refl in H. discriminate. }
  rewrite (G c0 H1). cbn [andb]. rewrite forallb_forall. intros s Hs. apply G. rewrite Forall_forall in H2. apply H2. exact Hs.
Qed.
Definition line_head (nm : str) (vs : list str) : str := nm ++ opt (nonnil (concat (map endl vs))) (join [sp] vs).
Definition sensor_head (s : sensor) : str := s_type s ++ [sp] ++ line_head (s_sensor s) (s_values s).
Definition begin_head (k : kind) (nm : str) : str :=
  S_ "begin " ++ nm ++ match k with AtTime typ time => [sp] ++ typ ++ [sp] ++ time | _ => [] end.
Fixpoint node_lines (n : node) : list str :=
  match n with
  | Line nm vs c => if is_nil nm then [] else comment_lines (line_head nm vs) c
  | Sec k nm bc ec cont ss =>
      comment_lines (begin_head k nm) bc
      ++ concat (map snd (filter fst (map (fun e => (is_main (snd e), node_lines (snd e))) cont))
                 ++ map snd (filter (fun p => negb (fst p)) (map (fun e => (is_main (snd e), node_lines (snd e))) cont)))
      ++ concat (map (fun s => comment_lines (sensor_head s) (s_comments s)) ss)
      ++ comment_lines (S_ "end " ++ nm) ec
  end.
Definition forest_lines (l : list node) : list str := concat (map node_lines l).
Lemma filter_pairs {A} (b : node -> bool) (f : node -> A) (g : bool -> bool) (l : list (str * node)) :
  map snd (filter (fun p => g (fst p)) (map (fun e => (b (snd e), f (snd e))) l)) = map f (filter (fun n => g (b n)) (map snd l)).
Proof.
  induction l as [|[k n] l IH]; [reflexivity|]. cbn [map filter snd fst]. destruct (g (b n)); cbn [map snd]; rewrite <- IH; reflexivity.
Qed.
Lemma node_lines_sec k nm bc ec cont ss :
  node_lines (Sec k nm bc ec cont ss) =
  comment_lines (begin_head k nm) bc ++ forest_lines (main_first (map snd cont))
  ++ concat (map (fun s => comment_lines (sensor_head s) (s_comments s)) ss) ++ comment_lines (S_ "end " ++ nm) ec.
Proof.
  cbn [node_lines]. f_equal. f_equal. unfold forest_lines, main_first. rewrite map_app. f_equal. f_equal.
  - exact (filter_pairs is_main node_lines (fun b => b) cont).
  - exact (filter_pairs is_main node_lines negb cont).
Qed.

Lemma main_first_forall (P : node -> Prop) (l : list (str * node)) : Forall (fun e => P (snd e)) l -> Forall P (main_first (map snd l)).
Proof.
  intro H. rewrite Forall_forall in *. intros m Hm. unfold main_first in Hm. apply in_app_or in Hm.
  destruct Hm as [Hm|Hm]; apply filter_In in Hm; destruct Hm as [Hm _]; apply in_map_iff in Hm; destruct Hm as [e [<- He]]; apply H; exact He.
Qed.

(** ** Printing gives these lines *)
Lemma starts_word w t : word w -> match w ++ t with [] => False | c :: _ => is_space c = false end.
Proof. intros [H _]. destruct (token_cons w H) as [c [u [-> Hc]]]. exact Hc. Qed.
Lemma join_clean vs : Forall word vs -> clean (join [sp] vs) = true.
Proof.
  intro H. destruct vs as [|v vs]; [reflexivity|]. rewrite join_flat, clean_app. apply Forall_cons_iff in H. destruct H as [H1 H2].
  rewrite (word_clean v H1). cbn [andb]. induction vs as [|w vs IH]; [reflexivity|]. apply Forall_cons_iff in H2. destruct H2 as [H2 H3].
  cbn [flat_map]. rewrite !clean_app, (word_clean w H2), IH by exact H3. reflexivity.
Qed.
Lemma join_nosemi vs : Forall word vs -> no_semi (join [sp] vs) = true.
Proof.
  intro H. destruct vs as [|v vs]; [reflexivity|]. unfold no_semi. rewrite join_flat, forallb_app. apply Forall_cons_iff in H. destruct H as [[_ H1] H2].
  unfold no_semi in H1. rewrite H1. cbn [andb]. induction vs as [|w vs IH]; [reflexivity|]. apply Forall_cons_iff in H2. destruct H2 as [[_ H2] H3].
  cbn [flat_map]. unfold no_semi in H2. rewrite !forallb_app, H2, IH by exact H3. reflexivity.
Qed.
Lemma nonnil_values vs : nonnil (concat (map endl vs)) = negb (is_nil vs).
Proof. destruct vs as [|[|x v] vs]; reflexivity. Qed.
Lemma line_head_clean nm vs : word nm -> Forall word vs -> clean (line_head nm vs) = true.
Proof.
  intros H1 H2. unfold line_head. rewrite clean_app, (word_clean nm H1). destruct (nonnil _); [|reflexivity]. cbn [opt andb].
  change (tab :: join [sp] vs) with ([tab] ++ join [sp] vs). rewrite clean_app, join_clean by exact H2. reflexivity.
Qed.
Lemma line_head_nosemi nm vs : word nm -> Forall word vs -> no_semi (line_head nm vs) = true.
Proof.
  intros [H0 H1] H2. pose proof (join_nosemi vs H2) as H3. unfold line_head, no_semi in *. rewrite forallb_app, H1.
  destruct (nonnil _); [|reflexivity]. cbn [opt andb forallb]. rewrite H3. reflexivity.
Qed.
Lemma values_words num vs : Forall (value_ok num) vs -> Forall word vs.
Proof. apply Forall_impl. intros v [H _]. exact H. Qed.

Lemma line_prints num fs p lev nm vs c : wf num fs p (Line nm vs c) -> prints (line_str lev nm vs c) (node_lines (Line nm vs c)).
Proof.
  intro H. inversion H as [? ? ? E|? ? ? ? H1 H2 H3 H4 H5|]; subst; [apply prints_nil|].
  cbn [node_lines]. unfold line_str. destruct (is_nil nm) eqn:E; [destruct H1 as [H1 _]; destruct nm; discriminate|].
  destruct H5 as [c0 [cs [-> [C1 [C2 C3]]]]]. unfold comment_lines. rewrite split_comment by assumption.
  assert (N : no_trail c0) by (apply rstrip_no_trail; apply strip_rstrip; exact C2).
  replace (indent lev ++ nm ++ opt (negb (is_nil vs)) (join [sp] vs) ++ [semi] ++ opt (some_text (join [nl] (c0 :: cs))) (join [nl] (c0 :: cs)) ++ [nl])
    with (indent lev ++ line_head nm vs ++ [semi] ++ opt (some_text (join [nl] (c0 :: cs))) (join [nl] (c0 :: cs)) ++ [nl])
    by (unfold line_head; rewrite nonnil_values, <- !app_assoc; reflexivity).
  apply prints_head; try assumption; [|apply line_head_clean; [exact H1 | eapply values_words; exact H4] | apply opt_comment; assumption].
  unfold line_head. apply starts_word. exact H1.
Qed.
Lemma sensor_prints num lev s : sensor_ok num s -> prints (sensor_str lev s) (comment_lines (sensor_head s) (s_comments s)).
Proof.
  intros [H1 [H2 [H3 [H4 [H5 [c0 [cs [E [C1 [C2 C3]]]]]]]]]]. unfold sensor_str, comment_lines. rewrite E, split_comment by assumption.
  assert (N : no_trail c0) by (apply rstrip_no_trail; apply strip_rstrip; exact C2).
  assert (W : Forall word (s_values s)) by (revert H5; apply Forall_impl; intros v [Hv _]; exact Hv).
  replace (indent lev ++ s_type s ++ [sp] ++ s_sensor s ++ opt (negb (is_nil (s_values s))) (join [sp] (s_values s)) ++ [semi] ++
      opt (some_text (join [nl] (c0 :: cs))) (join [nl] (c0 :: cs)) ++ [nl])
    with (indent lev ++ sensor_head s ++ [semi] ++ opt (some_text (join [nl] (c0 :: cs))) (join [nl] (c0 :: cs)) ++ [nl])
    by (unfold sensor_head, line_head; rewrite nonnil_values, <- !app_assoc; reflexivity).
  apply prints_head; try assumption; [|unfold sensor_head | apply opt_comment; assumption].
  - unfold sensor_head. apply starts_word. exact H1.
  - rewrite !clean_app, (word_clean _ H1), line_head_clean by assumption. reflexivity.
Qed.
Lemma begin_prints fs k lev nm bc ss : sec_ok fs k nm bc ss -> comment bc ->
  exists t, begin_str k lev nm bc = Ok t /\ prints t (comment_lines (begin_head k nm) bc).
Proof.
  intros [HN HK] [c0 [cs [-> [C1 [C2 C3]]]]]. destruct HN as [N1 [N2 [N3 [N4 N5]]]].
  assert (N : no_trail c0) by (apply rstrip_no_trail; apply strip_rstrip; exact C2).
  unfold comment_lines. rewrite split_comment by assumption.
  destruct k as [| |typ time]; cbn [begin_str].
  - eexists. split; [reflexivity|].
    replace ((indent lev ++ S_ "begin " ++ nm) ++ [semi] ++ untab (opt (some_text (join [nl] (c0 :: cs))) (join [nl] (c0 :: cs))) ++ [nl])
      with (indent lev ++ begin_head Plain nm ++ [semi] ++ untab (opt (some_text (join [nl] (c0 :: cs))) (join [nl] (c0 :: cs))) ++ [nl])
      by (unfold begin_head; rewrite app_nil_r, <- !app_assoc; reflexivity).
    apply prints_head; try assumption; [reflexivity | | apply untab_opt_comment; assumption].
    unfold begin_head. rewrite !clean_app, N3. reflexivity.
  - eexists. split; [reflexivity|].
    replace ((indent lev ++ S_ "begin " ++ nm) ++ [semi] ++ opt (some_text (join [nl] (c0 :: cs))) (join [nl] (c0 :: cs)) ++ [nl])
      with (indent lev ++ begin_head Output nm ++ [semi] ++ opt (some_text (join [nl] (c0 :: cs))) (join [nl] (c0 :: cs)) ++ [nl])
      by (unfold begin_head; rewrite app_nil_r, <- !app_assoc; reflexivity).
    apply prints_head; try assumption; [reflexivity | | apply opt_comment; assumption].
    unfold begin_head. rewrite !clean_app, N3. reflexivity.
  - destruct HK as [K1 [K2 [K3 [K4 [K5 [K6 [K7 K8]]]]]]]. apply Nat.leb_le in K8. rewrite K8. eexists. split; [reflexivity|].
    replace ((indent lev ++ S_ "begin " ++ nm) ++ [sp] ++ typ ++ [sp] ++ time ++ [semi] ++ opt (some_text (join [nl] (c0 :: cs))) (join [nl] (c0 :: cs)) ++ [nl])
      with (indent lev ++ begin_head (AtTime typ time) nm ++ [semi] ++ opt (some_text (join [nl] (c0 :: cs))) (join [nl] (c0 :: cs)) ++ [nl])
      by (unfold begin_head; rewrite <- !app_assoc; reflexivity).
    apply prints_head; try assumption; [reflexivity | | apply opt_comment; assumption].
    unfold begin_head. rewrite !clean_app, N3, (word_clean _ K3), (word_clean _ K5). reflexivity.
Qed.
Lemma end_prints k lev nm ec : clean nm = true -> end_comment ec -> prints (end_str k lev nm ec) (comment_lines (S_ "end " ++ nm) ec).
Proof.
  intros HN [c0 [cs [-> [C1 [C2 C3]]]]]. apply rstrip_no_trail in C2.
  unfold comment_lines. rewrite split_comment by assumption. unfold end_str.
  replace (indent lev ++ S_ "end " ++ nm ++ [semi] ++
     match k with Plain => untab (opt (some_text (join [nl] (c0 :: cs))) (join [nl] (c0 :: cs)))
     | _ => opt (some_text (join [nl] (c0 :: cs))) (join [nl] (c0 :: cs)) end ++ [nl])
    with (indent lev ++ (S_ "end " ++ nm) ++ [semi] ++
     match k with Plain => untab (opt (some_text (join [nl] (c0 :: cs))) (join [nl] (c0 :: cs)))
     | _ => opt (some_text (join [nl] (c0 :: cs))) (join [nl] (c0 :: cs)) end ++ [nl]) by (rewrite <- !app_assoc; reflexivity).
  apply prints_head; try assumption; [reflexivity |].
  destruct k; [apply untab_opt_comment | apply opt_comment | apply opt_comment]; assumption.
Qed.

Lemma node_str_sec lev k nm bc ec cont ss : node_str lev (Sec k nm bc ec cont ss) =
  (b <- begin_str k lev nm bc ;; ps <- nodes_str (S lev) cont ;;
   Ok (b ++ reorder ps ++ concat (map (sensor_str (S lev)) (sensors_of k ss)) ++ end_str k lev nm ec)).
Proof.
  cbn [node_str]. destruct (begin_str k lev nm bc); [|reflexivity]. cbn [bind].
  replace ((fix go (l : list (str * node)) : res (list (bool * str)) :=
               match l with
               | [] => Ok []
               | p :: l' => t <- node_str (S lev) (snd p) ;; ts <- go l' ;; Ok ((is_mb node_name p, t) :: ts)
               end) cont) with (nodes_str (S lev) cont); [reflexivity|].
  induction cont as [|e cont IH]; [reflexivity|]. cbn [nodes_str]. destruct (node_str (S lev) (snd e)); [|reflexivity]. cbn [bind].
  rewrite IH. reflexivity.
Qed.
Lemma nodes_prints lev l : Forall (fun e => exists t, node_str lev (snd e) = Ok t /\ prints t (node_lines (snd e))) l ->
  exists ps, nodes_str lev l = Ok ps /\ map fst ps = map (fun e => is_main (snd e)) l /\
             Forall2 (fun p e => prints (snd p) (node_lines (snd e))) ps l.
Proof.
  induction l as [|e l IH]; intro H.
  - exists []. repeat split. constructor.
  - apply Forall_cons_iff in H. destruct H as [[t [H1 H2]] H3]. destruct (IH H3) as [ps [P1 [P2 P3]]].
    cbn [nodes_str]. rewrite H1. cbn [bind]. rewrite P1. cbn [bind]. eexists. split; [reflexivity|]. split.
    + cbn [map fst]. rewrite P2. reflexivity.
    + constructor; [exact H2 | exact P3].
Qed.
Lemma prints_selected (g : bool -> bool) ps l : map fst ps = map (fun e => is_main (snd e)) l ->
  Forall2 (fun p (e : str * node) => prints (snd p) (node_lines (snd e))) ps l ->
  prints (concat (map snd (filter (fun p => g (fst p)) ps))) (forest_lines (filter (fun n => g (is_main n)) (map snd l))).
Proof.
  intros H1 H2. induction H2 as [|[b t] e ps l H HH IH]; [apply prints_nil|].
  cbn [map fst snd] in H1. injection H1 as E1 E2. cbn [filter map fst snd]. rewrite E1. unfold forest_lines in *.
  destruct (g (is_main (snd e))); cbn [map concat snd]; [|apply IH; exact E2].
  apply prints_app; [exact H | apply IH; exact E2].
Qed.
Lemma reorder_prints lev l : Forall (fun e => exists t, node_str lev (snd e) = Ok t /\ prints t (node_lines (snd e))) l ->
  exists ps, nodes_str lev l = Ok ps /\ prints (reorder ps) (forest_lines (main_first (map snd l))).
Proof.
  intro H. destruct (nodes_prints lev l H) as [ps [P1 [P2 P3]]]. exists ps. split; [exact P1|].
  unfold reorder, forest_lines, main_first. rewrite concat_app, map_app, concat_app. apply prints_app.
  - exact (prints_selected (fun b => b) ps l P2 P3).
  - exact (prints_selected negb ps l P2 P3).
Qed.
Lemma node_prints num fs n : forall p lev, wf num fs p n -> exists t, node_str lev n = Ok t /\ prints t (node_lines n).
Proof.
  induction n as [nm vs c|k nm bc ec cont ss IH] using node_rect'; intros p lev H.
  - eexists. split; [reflexivity|]. eapply line_prints. exact H.
  - inversion H as [| |? ? ? ? ? ? ? H1 H2 H3 H4 H5]; subst. rewrite node_str_sec, node_lines_sec.
    destruct (begin_prints fs k lev nm bc ss H1 H2) as [b [B1 B2]]. rewrite B1. cbn [bind].
    destruct (reorder_prints (S lev) cont) as [ps [P1 P2]].
    { rewrite Forall_forall in *. intros e He. eapply IH; [exact He | apply H5; exact He]. }
    rewrite P1. cbn [bind]. eexists. split; [reflexivity|].
    apply prints_app; [exact B2|]. apply prints_app; [exact P2|]. apply prints_app.
    + assert (E : sensors_of k ss = ss).
      { destruct k; try reflexivity. destruct H1 as [_ [_ [_ ->]]]. reflexivity. }
      rewrite E. apply prints_concat. revert H4. apply Forall_impl. intros s Hs. eapply sensor_prints. exact Hs.
    + apply end_prints; [apply H1 | exact H3].
Qed.

(** ** Reading *)
Lemma startswith_cut c p : forall a t, ~ In c p -> startswith (a ++ c :: t) p = startswith a p.
Proof.
  induction p as [|y p IH]; intros a t H; [reflexivity|].
  destruct a as [|x a]; cbn [app startswith].
  - destruct (chr_eqb_spec c y) as [->|_]; [exfalso; apply H; left; reflexivity | reflexivity].
  - rewrite IH; [reflexivity|]. intro C. apply H. right. exact C.
Qed.
Lemma cut_uu_id s : no_uu s -> cut_uu s = s.
Proof.
  unfold no_uu. induction s as [|c s IH]; intro H; [reflexivity|]. cbn [contains] in H. apply orb_false_iff in H. destruct H as [H1 H2].
  cbn [cut_uu]. rewrite H1, IH by exact H2. reflexivity.
Qed.
Lemma map_res_id {A} (f : A -> res A) l : Forall (fun x => f x = Ok x) l -> map_res f l = Ok l.
Proof.
  induction l as [|x l IH]; intro H; [reflexivity|]. apply Forall_cons_iff in H. destruct H as [H1 H2]. cbn [map_res].
  rewrite H1. cbn [bind]. rewrite IH by exact H2. reflexivity.
Qed.
Lemma words_tokens vs : Forall word vs -> forallb is_token vs = true.
Proof. intro H. rewrite forallb_forall. intros v Hv. rewrite Forall_forall in H. apply H. exact Hv. Qed.
Lemma line_head_words nm vs : word nm -> Forall word vs -> split_ws (line_head nm vs) = nm :: vs.
Proof.
  intros [H1 _] H2. unfold line_head. rewrite nonnil_values. destruct vs as [|v vs].
  - cbn [is_nil negb opt]. rewrite app_nil_r. apply split_ws_token. exact H1.
  - cbn [is_nil negb opt]. rewrite split_ws_app by reflexivity. rewrite split_ws_token by exact H1.
    rewrite split_ws_words by (apply words_tokens; exact H2). reflexivity.
Qed.
Lemma edges a b : no_edge_space a = true -> a <> [] -> no_edge_space b = true -> b <> [] -> forall x, no_edge_space (a ++ x ++ b) = true.
Proof.
  intros H1 N1 H2 N2 x. unfold no_edge_space in *. apply andb_inv in H1. apply andb_inv in H2. apply andb_true_intro. split.
  - destruct a; [contradiction | apply H1].
  - rewrite !rev_app_distr. destruct (rev b) as [|c t] eqn:E; [|apply H2]. exfalso. apply N2. rewrite <- (rev_involutive b), E. reflexivity.
Qed.
Lemma token_edges s : is_token s = true -> no_edge_space s = true.
Proof. intro H. apply no_space_no_edge. apply tokenE in H. apply H. Qed.
Lemma join_nonnil v vs : is_token v = true -> join [sp] (v :: vs) <> [].
Proof. intro H. rewrite join_flat. destruct v; [discriminate | discriminate]. Qed.
Lemma line_head_strip nm vs : word nm -> Forall word vs -> strip (line_head nm vs) = line_head nm vs.
Proof.
  intros [H1 _] H2. apply strip_noedge. unfold line_head. rewrite nonnil_values. destruct vs as [|v vs].
  - cbn [is_nil negb opt]. rewrite app_nil_r. apply token_edges. exact H1.
  - cbn [is_nil negb opt]. change (tab :: join [sp] (v :: vs)) with ([tab] ++ join [sp] (v :: vs)). apply edges.
    + apply token_edges. exact H1.
    + apply token_nonnil. exact H1.
    + apply join_words_noedge. apply words_tokens. exact H2.
    + apply join_nonnil. apply Forall_cons_iff in H2. apply H2.
Qed.
Lemma comment_parts c : comment c -> exists c0 cs, split_chr nl c = c0 :: cs /\ c = join [nl] (c0 :: cs) /\
  no_trail c0 /\ Forall continuation cs /\ strip_bt (raw_comment c0 cs) = c.
Proof.
  intros [c0 [cs [-> [C1 [C2 C3]]]]]. exists c0, cs. split; [apply split_comment; assumption|]. split; [reflexivity|].
  split; [apply rstrip_no_trail; apply strip_rstrip; exact C2|]. split; [exact C3|]. apply strip_raw; assumption.
Qed.
Lemma end_parts c : end_comment c -> exists c0 cs, split_chr nl c = c0 :: cs /\ no_trail c0 /\ Forall continuation cs /\
  raw_comment c0 cs = end_read c.
Proof.
  intros [c0 [cs [-> [C1 [C2 C3]]]]]. exists c0, cs. split; [apply split_comment; assumption|].
  split; [apply rstrip_no_trail; exact C2|]. split; [exact C3|]. unfold raw_comment. rewrite join_flat.
  destruct c0 as [|x c0].
  - destruct cs as [|c cs]; [reflexivity|]. cbn [nonnil opt app flat_map end_read]. rewrite chr_eqb_refl. reflexivity.
  - destruct (clean_cons _ _ C1) as [H _]. cbn [nonnil opt app end_read]. rewrite H. reflexivity.
Qed.

Lemma quiet_head X t ls : (match X with [] => False | c :: _ => is_space c = false /\ chr_eqb c semi = false end) ->
  quiet ((X ++ t) :: ls).
Proof.
  destruct X as [|c X]; [contradiction|]. intros [H1 H2]. unfold quiet. cbn [app]. rewrite lstrip_head by exact H1.
  cbn [startswith]. rewrite H2. reflexivity.
Qed.
Lemma word_head w t : word w -> match w ++ t with [] => False | c :: _ => is_space c = false /\ chr_eqb c semi = false end.
Proof.
  intros [H1 H2]. destruct (token_cons w H1) as [c [u [-> Hc]]]. split; [exact Hc|].
  unfold no_semi in H2. cbn [forallb] in H2. apply andb_inv in H2. apply negb_true_iff. apply H2.
Qed.
Lemma quiet_comment X c ls : comment c \/ end_comment c -> (match X with [] => False | c :: _ => is_space c = false /\ chr_eqb c semi = false end) ->
  quiet (comment_lines X c ++ ls).
Proof.
  intros H HX. assert (E : exists c0 cs, split_chr nl c = c0 :: cs).
  { destruct H as [H|H]; [apply comment_parts in H | apply end_parts in H]; destruct H as [c0 [cs [H _]]]; exists c0, cs; exact H. }
  destruct E as [c0 [cs E]]. unfold comment_lines. rewrite E. unfold head_lines. cbn [app].
  exact (quiet_head X _ _ HX).
Qed.
Lemma quiet_node num fs p n ls : wf num fs p n -> quiet ls -> quiet (node_lines n ++ ls).
Proof.
  intros H Hq. inversion H as [? ? ? E|? ? ? ? H1 H2 H3 H4 H5|? ? ? ? ? ? ? H1 H2 H3 H4 H5]; subst.
  - exact Hq.
  - cbn [node_lines]. destruct (is_nil nm) eqn:E; [exact Hq|]. apply quiet_comment; [left; exact H5|]. unfold line_head. apply word_head. exact H1.
  - rewrite node_lines_sec. rewrite <- !app_assoc. apply quiet_comment; [left; exact H2|]. split; reflexivity.
Qed.
Lemma quiet_forest num fs p l ls : Forall (wf num fs p) l -> quiet ls -> quiet (forest_lines l ++ ls).
Proof.
  intros H Hq. induction l as [|n l IH]; [exact Hq|]. apply Forall_cons_iff in H. destruct H as [H1 H2].
  unfold forest_lines in *. cbn [map concat]. rewrite <- app_assoc. eapply quiet_node; [exact H1 | apply IH; exact H2].
Qed.

Section Read.
  Variable num : str -> option (res str).
  Variable fs : str -> res str.

  Lemma read_line p nm vs c rest : wf num fs p (Line nm vs c) -> nm <> [] -> quiet rest -> exists l ls,
    node_lines (Line nm vs c) = l :: ls /\ line_from num l (ls ++ rest) = Ok (Line nm vs c, rest).
  Proof.
    intros H Hne Hq. inversion H as [? ? ? E|? ? ? ? H1 H2 H3 H4 H5|]; subst; [contradiction|].
    cbn [node_lines]. destruct (is_nil nm) eqn:E; [destruct nm; [contradiction | discriminate]|].
    destruct (comment_parts c H5) as [c0 [cs [C1 [C2 [C3 [C4 C5]]]]]]. unfold comment_lines. rewrite C1. unfold head_lines.
    eexists. eexists. split; [reflexivity|]. unfold line_from. pose proof (values_words _ _ H4) as W.
    rewrite parse_head by (try assumption; apply line_head_nosemi; assumption).
    rewrite line_head_strip, line_head_words by assumption. cbv iota beta.
    rewrite map_res_id by (revert H4; apply Forall_impl; intros v [_ Hv]; exact Hv). cbn [bind].
    unfold mk_line. rewrite C5, cut_uu_id by exact H2. reflexivity.
  Qed.
  Lemma sensor_head_words s : word (s_type s) -> word (s_sensor s) -> Forall word (s_values s) ->
    split_ws (sensor_head s) = s_type s :: s_sensor s :: s_values s.
  Proof.
    intros [H1 _] H2 H3. unfold sensor_head. cbn [app]. rewrite split_ws_app by reflexivity.
    rewrite split_ws_token by exact H1. rewrite line_head_words by assumption. reflexivity.
  Qed.
  Lemma line_head_edges nm vs : word nm -> Forall word vs -> no_edge_space (line_head nm vs) = true.
  Proof. intros H1 H2. rewrite <- (line_head_strip nm vs H1 H2). apply strip_no_edge. Qed.
  Lemma line_head_nonnil nm vs : word nm -> line_head nm vs <> [].
  Proof. intros [H _]. unfold line_head. destruct nm; [discriminate | discriminate]. Qed.
  Lemma read_sensor s rest : sensor_ok num s -> quiet rest -> exists l ls,
    comment_lines (sensor_head s) (s_comments s) = l :: ls /\ sensor_from num l (ls ++ rest) = Ok (s, rest) /\
    split_ws l <> [] /\ existsb (str_eqb (hd [] (split_ws l))) line_names = false /\
    startswith (lower l) (S_ "begin") = false /\ startswith (lower l) (S_ "end") = false /\ is_nil (strip l) = false.
  Proof.
    intros [H1 [H2 [[H3 H3b] [H4 [H5 H6]]]]] Hq.
    destruct (comment_parts _ H6) as [c0 [cs [C1 [C2 [C3 [C4 C5]]]]]]. unfold comment_lines. rewrite C1. unfold head_lines.
    eexists. eexists. split; [reflexivity|].
    assert (W : Forall word (s_values s)) by (revert H5; apply Forall_impl; intros v [Hv _]; exact Hv).
    assert (NS : no_semi (sensor_head s) = true).
    { unfold sensor_head, no_semi. rewrite !forallb_app. pose proof (line_head_nosemi _ _ H2 W) as L. unfold no_semi in L. rewrite L.
      destruct H1 as [_ H1]. unfold no_semi in H1. rewrite H1. reflexivity. }
    assert (ST : strip (sensor_head s) = sensor_head s).
    { apply strip_noedge. unfold sensor_head. apply edges; [apply token_edges; apply H1 | apply token_nonnil; apply H1 | apply line_head_edges; assumption | apply line_head_nonnil; exact H2]. }
    split; [|split; [|split; [|split; [|split]]]].
    - unfold sensor_from. rewrite parse_head by assumption. rewrite ST, sensor_head_words by assumption. cbv iota beta.
      rewrite map_res_id by (revert H5; apply Forall_impl; intros v [_ Hv]; exact Hv). cbn [bind]. unfold mk_sens. rewrite C5.
      destruct s; reflexivity.
    - unfold sensor_head. rewrite <- !app_assoc. cbn [app]. rewrite split_ws_app by reflexivity. rewrite split_ws_token by apply H1. discriminate.
    - unfold sensor_head. rewrite <- !app_assoc. cbn [app]. rewrite split_ws_app by reflexivity. rewrite split_ws_token by apply H1. cbn [app hd].
      apply not_true_is_false. intro C. apply existsb_exists in C. destruct C as [w [W1 W2]]. apply str_eqb_eq in W2. subst w. contradiction.
    - unfold sensor_head. rewrite <- !app_assoc. cbn [app]. rewrite lower_app. unfold lower at 2. cbn [map].
      rewrite startswith_cut; [exact H3|]. cbn. intuition discriminate.
    - unfold sensor_head. rewrite <- !app_assoc. cbn [app]. rewrite lower_app. unfold lower at 2. cbn [map].
      rewrite startswith_cut; [exact H3b|]. cbn. intuition discriminate.
    - unfold sensor_head. rewrite <- !app_assoc. destruct H1 as [H1 _]. destruct (token_cons _ H1) as [c [u [-> Hc]]]. cbn [app].
      pose proof (some_text_head c (u ++ sp :: line_head (s_sensor s) (s_values s) ++ semi :: opt (nonnil c0) c0) Hc) as K.
      unfold some_text in K. apply negb_true_iff in K. exact K.
  Qed.
  Lemma read_header k nm bc ss : sec_ok fs k nm bc ss -> header fs (strip (begin_head k nm)) = Ok (k, nm).
  Proof.
    intros [[N1 [N2 [N3 [N4 N5]]]] HK]. unfold header.
    assert (E : skipn 6 (strip (begin_head k nm)) = skipn 6 (begin_head k nm)).
    { destruct k as [| |typ time].
      - unfold begin_head. rewrite app_nil_r. destruct nm as [|x nm]; [reflexivity|].
        rewrite strip_noedge; [reflexivity|]. change (S_ "begin " ++ x :: nm) with (S_ "begin" ++ [sp] ++ (x :: nm)).
        apply edges; [reflexivity | discriminate | rewrite <- N1; apply strip_no_edge | discriminate].
      - subst nm. reflexivity.
      - destruct HK as [K1 [K2 [K3 [K4 [K5 [K6 [K7 K8]]]]]]].
        rewrite strip_noedge; [reflexivity|]. unfold begin_head.
        replace (S_ "begin " ++ nm ++ [sp] ++ typ ++ [sp] ++ time) with (S_ "begin" ++ ([sp] ++ nm ++ [sp] ++ typ ++ [sp]) ++ time)
          by (rewrite <- !app_assoc; reflexivity).
        apply edges; [reflexivity | discriminate | apply token_edges; apply K5 | apply token_nonnil; apply K5]. }
    rewrite E. unfold begin_head. change (skipn 6 (S_ "begin " ++ nm ++ match k with AtTime typ time => [sp] ++ typ ++ [sp] ++ time | _ => [] end))
      with (nm ++ match k with AtTime typ time => [sp] ++ typ ++ [sp] ++ time | _ => [] end).
    destruct k as [| |typ time].
    - rewrite app_nil_r, N2. destruct HK as [K1 [K2 K3]].
      destruct (str_eqb nm (S_ "output")) eqn:F; [apply str_eqb_eq in F; contradiction|]. rewrite K2, N1. reflexivity.
    - subst nm. reflexivity.
    - destruct HK as [K1 [K2 [K3 [K4 [K5 [K6 [K7 K8]]]]]]].
      assert (L : lower (nm ++ [sp] ++ typ ++ [sp] ++ time) = nm ++ [sp] ++ typ ++ [sp] ++ time)
        by (rewrite !lower_app, N2, K4, K6; reflexivity).
      rewrite L. destruct (str_eqb (nm ++ [sp] ++ typ ++ [sp] ++ time) (S_ "output")) eqn:F.
      { exfalso. apply str_eqb_eq in F. assert (C : In sp (S_ "output")) by (rewrite <- F; apply in_or_app; right; left; reflexivity).
        cbn in C. intuition discriminate. }
      cbn [app]. rewrite startswith_cut by (cbn; intuition discriminate). rewrite K2.
      rewrite split_ws_app by reflexivity. rewrite split_ws_token by apply K1. rewrite split_ws_app by reflexivity.
      rewrite !split_ws_token by (apply K3 || apply K5). cbn [app]. rewrite K7. reflexivity.
  Qed.

  (** One step of the loop of a section. *)
  Lemma step_line f k nm bc cont ss n vs c l ls rest :
    wf num fs (place_of k) (Line n vs c) -> n <> [] -> node_lines (Line n vs c) = l :: ls ->
    line_from num l (ls ++ rest) = Ok (Line n vs c, rest) ->
    sec_loop num fs (S f) k nm bc cont ss (l :: ls ++ rest) =
    (cont' <- add_contents cont (Line n vs c) ;; sec_loop num fs f k nm bc cont' ss rest).
  Proof.
    intros H Hne El Hl. inversion H as [? ? ? E|? ? ? ? H1 H2 H3 H4 H5|]; subst; [contradiction|].
    cbn [node_lines] in El. destruct (is_nil n) eqn:E0; [destruct n; [contradiction | discriminate]|].
    destruct (comment_parts c H5) as [c0 [cs [C1 [C2 [C3 [C4 C5]]]]]]. unfold comment_lines in El. rewrite C1 in El. unfold head_lines in El.
    injection El as El _. cbn [sec_loop].
    assert (B : is_nil (strip l) = false).
    { rewrite <- El. unfold line_head. rewrite <- app_assoc. destruct H1 as [H1 _]. destruct (token_cons _ H1) as [x [u [-> Hx]]]. cbn [app].
      match goal with |- is_nil (strip (x :: ?t)) = _ => pose proof (some_text_head x t Hx) as K end.
      unfold some_text in K. apply negb_true_iff in K. exact K. }
    rewrite B.
    assert (P : forall p, ~ In tab p -> ~ In semi p -> startswith (lower l) p = startswith (lower n) p).
    { intros p Pt Ps. rewrite <- El. unfold line_head. rewrite <- app_assoc, lower_app.
      destruct (nonnil (concat (map endl vs))); cbn [opt app]; unfold lower at 2; cbn [map];
      [apply (startswith_cut tab) | apply (startswith_cut semi)]; assumption. }
    assert (KF : keyword_free n).
    { destruct k; cbn [place_of line_ok] in H3; [exact H3 | |]; destruct H3 as [H3 _]; cbn in H3;
      repeat (destruct H3 as [<-|H3]; [split; reflexivity|]); contradiction. }
    rewrite !P by (cbn; intuition discriminate). destruct KF as [KF1 KF2]. rewrite KF1, KF2.
    rewrite Hl. cbn [bind].
    destruct k as [| |typ time]; [reflexivity | |]; cbn [place_of line_ok] in H3; destruct H3 as [H3 H3v];
      assert (SW : exists ws, split_ws l = n :: ws)
        by (rewrite <- El; unfold line_head; rewrite nonnil_values; destruct vs as [|v vs]; [contradiction|];
            cbn [is_nil negb opt]; rewrite <- app_assoc; cbn [app]; rewrite split_ws_app by reflexivity;
            rewrite split_ws_token by apply H1; eexists; reflexivity);
      destruct SW as [ws ->];
      replace (existsb (str_eqb n) line_names) with true
        by (symmetry; apply existsb_exists; exists n; split; [exact H3 | apply str_eqb_refl]); reflexivity.
  Qed.
  Lemma step_sensor f k nm bc cont ss s rest : k <> Plain -> sensor_ok num s -> quiet rest ->
    sec_loop num fs (S f) k nm bc cont ss (comment_lines (sensor_head s) (s_comments s) ++ rest) =
    sec_loop num fs f k nm bc cont (ss ++ [s]) rest.
  Proof.
    intros Hk Hs Hq. destruct (read_sensor s rest Hs Hq) as [l [ls [E [R [W [X [B1 [B2 B3]]]]]]]]. rewrite E. cbn [app sec_loop].
    rewrite B3, B1, B2. destruct k; [contradiction| |]; destruct (split_ws l) as [|w ws]; try contradiction; cbn [hd] in X; rewrite X, R; reflexivity.
  Qed.
  Lemma step_end f k nm bc cont ss ec rest : end_comment ec -> clean nm = true -> no_semi nm = true -> quiet rest ->
    sec_loop num fs (S f) k nm bc cont ss (comment_lines (S_ "end " ++ nm) ec ++ rest) =
    Ok (Sec k nm bc (end_read ec) cont ss, rest).
  Proof.
    intros H Hc Hs Hq. destruct (end_parts ec H) as [c0 [cs [C1 [C2 [C3 C4]]]]]. unfold comment_lines. rewrite C1. unfold head_lines.
    cbn [app]. rewrite app_comm_cons. 
    assert (G : forall l, l = (S_ "end " ++ nm) ++ [semi] ++ opt (nonnil c0) c0 ->
      sec_loop num fs (S f) k nm bc cont ss (l :: cs ++ rest) = Ok (Sec k nm bc (end_read ec) cont ss, rest)).
    { intros l El. cbn [sec_loop].
      assert (B : is_nil (strip l) = false).
      { rewrite El. rewrite <- app_assoc. match goal with |- is_nil (strip ?t) = _ => pose proof (some_text_head (ch 101) (tl t) eq_refl) as K end.
        unfold some_text in K. apply negb_true_iff in K. exact K. }
      rewrite B. replace (startswith (lower l) (S_ "begin")) with false by (rewrite El; reflexivity).
      replace (startswith (lower l) (S_ "end")) with true by (rewrite El; reflexivity).
      rewrite El. rewrite parse_head; [rewrite C4; reflexivity | | assumption | assumption | assumption].
      unfold no_semi in *. rewrite forallb_app, Hs. reflexivity. }
    cbn [app] in *. apply G. reflexivity.
  Qed.

  (** The part of a section after its first line. *)
  Definition body (nm ec : str) (l : list node) (ss : list sensor) : list str :=
    forest_lines l ++ concat (map (fun s => comment_lines (sensor_head s) (s_comments s)) ss) ++ comment_lines (S_ "end " ++ nm) ec.
  Definition readable (n : node) : Prop :=
    match n with
    | Line _ _ _ => True
    | Sec k nm bc ec cont ss => forall fuel rest, quiet rest ->
        List.length (body nm ec (main_first (map snd cont)) ss ++ rest) < fuel ->
        sec_loop num fs fuel k nm bc [] [] (body nm ec (main_first (map snd cont)) ss ++ rest) = Ok (canon n, rest)
    end.
  Lemma wf_no_uu p n : wf num fs p n -> no_uu (node_name n).
  Proof.
    intro H. inversion H as [? ? ? E|? ? ? ? H1 H2 H3 H4 H5|? ? ? ? ? ? ? H1 H2 H3 H4 H5]; subst; cbn [node_name].
    - reflexivity.
    - exact H2.
    - apply H1.
  Qed.
  Lemma step_sec f k nm bc cont ss k2 nm2 bc2 ec2 cont2 ss2 rest :
    sec_ok fs k2 nm2 bc2 ss2 -> comment bc2 -> end_comment ec2 -> Forall (sensor_ok num) ss2 ->
    Forall (wf num fs (place_of k2)) (main_first (map snd cont2)) -> quiet rest ->
    readable (Sec k2 nm2 bc2 ec2 cont2 ss2) -> List.length (body nm2 ec2 (main_first (map snd cont2)) ss2 ++ rest) < f ->
    sec_loop num fs (S f) k nm bc cont ss (node_lines (Sec k2 nm2 bc2 ec2 cont2 ss2) ++ rest) =
    (cont' <- add_contents cont (canon (Sec k2 nm2 bc2 ec2 cont2 ss2)) ;; sec_loop num fs f k nm bc cont' ss rest).
  Proof.
    intros H1 H2 H3 H4 H5 Hq HR Hf. rewrite node_lines_sec.
    change (forest_lines (main_first (map snd cont2)) ++ concat (map (fun s => comment_lines (sensor_head s) (s_comments s)) ss2) ++
      comment_lines (S_ "end " ++ nm2) ec2) with (body nm2 ec2 (main_first (map snd cont2)) ss2).
    rewrite <- app_assoc.
    destruct (comment_parts bc2 H2) as [c0 [cs [C1 [C2 [C3 [C4 C5]]]]]]. unfold comment_lines at 1. rewrite C1. unfold head_lines.
    assert (QB : quiet (body nm2 ec2 (main_first (map snd cont2)) ss2 ++ rest)).
    { unfold body. rewrite <- !app_assoc. eapply quiet_forest; [exact H5|].
      destruct ss2 as [|s ss2].
      - cbn [map concat app]. apply quiet_comment; [right; exact H3 | split; reflexivity].
      - cbn [map concat]. rewrite <- app_assoc. apply Forall_cons_iff in H4. destruct H4 as [H4 _].
        apply quiet_comment; [left; apply H4 |]. unfold sensor_head. apply word_head. apply H4. }
    assert (HS : no_semi (begin_head k2 nm2) = true).
    { destruct H1 as [N HK]. unfold begin_head, no_semi. rewrite !forallb_app. destruct N as [_ [_ [_ [N _]]]]. unfold no_semi in N. rewrite N.
      destruct k2 as [| |typ time]; try reflexivity. destruct HK as [_ [_ [[_ K3] [_ [[_ K5] _]]]]]. unfold no_semi in K3, K5.
      rewrite !forallb_app, K3, K5. reflexivity. }
    assert (G : forall l, l = begin_head k2 nm2 ++ [semi] ++ opt (nonnil c0) c0 ->
      sec_loop num fs (S f) k nm bc cont ss (l :: cs ++ body nm2 ec2 (main_first (map snd cont2)) ss2 ++ rest) =
      (cont' <- add_contents cont (canon (Sec k2 nm2 bc2 ec2 cont2 ss2)) ;; sec_loop num fs f k nm bc cont' ss rest)).
    { intros l El. cbn [sec_loop].
      assert (B : is_nil (strip l) = false).
      { rewrite El. unfold begin_head. rewrite <- app_assoc.
        match goal with |- is_nil (strip ?t) = _ => pose proof (some_text_head (ch 98) (tl t) eq_refl) as K end.
        unfold some_text in K. apply negb_true_iff in K. exact K. }
      rewrite B. replace (startswith (lower l) (S_ "begin")) with true by (rewrite El; reflexivity).
      rewrite El. rewrite parse_head by assumption. rewrite (read_header k2 nm2 bc2 ss2 H1). cbn [bind]. cbv iota beta.
      rewrite C5. rewrite HR by assumption. reflexivity. }
    cbn [app] in *. apply G. reflexivity.
  Qed.
  Lemma items k nm bc ss tail result : quiet tail -> forall l seen fuel,
    Forall (fun n => wf num fs (place_of k) n /\ readable n) l -> Forall (fun n => no_uu (node_name n)) seen ->
    (forall fuel', List.length tail < fuel' ->
       sec_loop num fs fuel' k nm bc (number [] (seen ++ map canon (filter named l))) ss tail = Ok result) ->
    List.length (forest_lines l ++ tail) < fuel ->
    sec_loop num fs fuel k nm bc (number [] seen) ss (forest_lines l ++ tail) = Ok result.
  Proof.
    intro Hq. induction l as [|n l IH]; intros seen fuel Hl Hs Hk Hf.
    - cbn [filter map] in Hk. rewrite app_nil_r in Hk. apply Hk. exact Hf.
    - apply Forall_cons_iff in Hl. destruct Hl as [[Hw Hr] Hl].
      assert (QL : quiet (forest_lines l ++ tail)).
      { apply (quiet_forest num fs (place_of k)); [|exact Hq]. revert Hl. apply Forall_impl. intros m [Hm _]. exact Hm. }
      assert (AD : named n = true -> add_contents (number [] seen) (canon n) = Ok (number [] (seen ++ [canon n]))).
      { intros _. apply add_number. apply Forall_app. split; [exact Hs|]. constructor; [|constructor]. rewrite canon_name. eapply wf_no_uu. exact Hw. }
      assert (NX : named n = true -> forall f, List.length (forest_lines l ++ tail) < f ->
        sec_loop num fs f k nm bc (number [] (seen ++ [canon n])) ss (forest_lines l ++ tail) = Ok result).
      { intros Hn f Hf'. apply IH; [exact Hl | | | exact Hf'].
        - apply Forall_app. split; [exact Hs|]. constructor; [|constructor]. rewrite canon_name. eapply wf_no_uu. exact Hw.
        - intros fuel' Hfu. specialize (Hk fuel' Hfu). cbn [filter] in Hk. rewrite Hn in Hk. cbn [map] in Hk. rewrite <- app_assoc. exact Hk. }
      destruct n as [nm1 vs c|k2 nm2 bc2 ec2 cont2 ss2].
      + destruct nm1 as [|x nm1].
        * cbn [forest_lines map concat node_lines is_nil app] in *. apply IH; try assumption.
        * destruct (read_line (place_of k) (x :: nm1) vs c (forest_lines l ++ tail) Hw ltac:(discriminate) QL) as [l0 [ls0 [E R]]].
          assert (FL : forest_lines (Line (x :: nm1) vs c :: l) ++ tail = l0 :: ls0 ++ forest_lines l ++ tail).
          { unfold forest_lines. cbn [map concat]. rewrite E. rewrite <- app_assoc. reflexivity. }
          rewrite FL in *. destruct fuel as [|f]; [cbn in Hf; lia|].
          rewrite (step_line f k nm bc _ ss (x :: nm1) vs c l0 ls0 _ Hw ltac:(discriminate) E R).
          change (Line (x :: nm1) vs c) with (canon (Line (x :: nm1) vs c)) at 1. rewrite AD by reflexivity. cbn [bind].
          apply NX; [reflexivity|]. cbn [List.length] in Hf. rewrite app_length in Hf. lia.
      + inversion Hw as [| |? ? ? ? ? ? ? H1 H2 H3 H4 H5]; subst.
        assert (FL : forest_lines (Sec k2 nm2 bc2 ec2 cont2 ss2 :: l) ++ tail = node_lines (Sec k2 nm2 bc2 ec2 cont2 ss2) ++ forest_lines l ++ tail).
        { unfold forest_lines. cbn [map concat]. rewrite <- app_assoc. reflexivity. }
        rewrite FL in *. destruct fuel as [|f]; [lia|].
        assert (LEN : List.length (body nm2 ec2 (main_first (map snd cont2)) ss2 ++ forest_lines l ++ tail) < f).
        { rewrite node_lines_sec in Hf. change (forest_lines (main_first (map snd cont2)) ++ concat (map (fun s => comment_lines (sensor_head s) (s_comments s)) ss2) ++
            comment_lines (S_ "end " ++ nm2) ec2) with (body nm2 ec2 (main_first (map snd cont2)) ss2) in Hf.
          rewrite <- app_assoc, app_length in Hf.
          destruct (comment_parts bc2 H2) as [c0 [cs [C1 _]]]. unfold comment_lines at 1 in Hf. rewrite C1 in Hf. cbn [head_lines List.length] in Hf. lia. }
        rewrite step_sec; try assumption.
        * rewrite AD by reflexivity. cbn [bind]. apply NX; [reflexivity|]. rewrite app_length in LEN. lia.
        * apply main_first_forall. exact H5.
  Qed.

  Lemma main_first_canon l : filter named (main_first (map canon l)) = map canon (filter named (main_first l)).
  Proof.
    assert (G : forall (f g : node -> bool) (m : list node), (forall n, f (canon n) = g n) -> filter f (map canon m) = map canon (filter g m)).
    { intros f g m H. induction m as [|n m IH]; [reflexivity|]. cbn [map filter]. rewrite H. destruct (g n); cbn [map]; rewrite IH; reflexivity. }
    unfold main_first. rewrite (G is_main is_main) by (intro n; unfold is_main; rewrite canon_name; reflexivity).
    rewrite (G (fun n => negb (is_main n)) (fun n => negb (is_main n))) by (intro n; unfold is_main; rewrite canon_name; reflexivity).
    rewrite <- map_app. apply G. intros [nm vs c|]; reflexivity.
  Qed.
  Lemma sensors_read k nm bc cont ec rest : k <> Plain -> end_comment ec -> clean nm = true -> no_semi nm = true -> quiet rest ->
    forall ss done fuel, Forall (sensor_ok num) ss ->
    List.length (concat (map (fun s => comment_lines (sensor_head s) (s_comments s)) ss) ++ comment_lines (S_ "end " ++ nm) ec ++ rest) < fuel ->
    sec_loop num fs fuel k nm bc cont done (concat (map (fun s => comment_lines (sensor_head s) (s_comments s)) ss) ++ comment_lines (S_ "end " ++ nm) ec ++ rest)
    = Ok (Sec k nm bc (end_read ec) cont (done ++ ss), rest).
  Proof.
    intros Hk He Hc Hn Hq. induction ss as [|s ss IH]; intros done fuel Hs Hf.
    - cbn [map concat app] in *. destruct fuel as [|f]; [lia|]. rewrite step_end by assumption. rewrite app_nil_r. reflexivity.
    - apply Forall_cons_iff in Hs. destruct Hs as [H1 H2]. cbn [map concat] in *. rewrite <- !app_assoc in *.
      assert (Q : quiet (concat (map (fun s => comment_lines (sensor_head s) (s_comments s)) ss) ++ comment_lines (S_ "end " ++ nm) ec ++ rest)).
      { destruct ss as [|s2 ss].
        - cbn [map concat app]. apply quiet_comment; [right; exact He | split; reflexivity].
        - cbn [map concat]. rewrite <- app_assoc. apply Forall_cons_iff in H2. destruct H2 as [H2 _].
          apply quiet_comment; [left; apply H2 |]. unfold sensor_head. apply word_head. apply H2. }
      destruct fuel as [|f]; [lia|]. rewrite step_sensor by assumption. rewrite IH; [rewrite <- app_assoc; reflexivity | exact H2 |].
      rewrite app_length in Hf. destruct (read_sensor s [] H1 I) as [l [ls [E _]]]. rewrite E in Hf. cbn [List.length] in Hf. lia.
  Qed.
  Lemma all_readable n : forall p, wf num fs p n -> readable n.
  Proof.
    induction n as [nm vs c|k nm bc ec cont ss IH] using node_rect'; intros p H; [exact I|].
    inversion H as [| |? ? ? ? ? ? ? H1 H2 H3 H4 H5]; subst. intros fuel rest Hq Hf. unfold body in *. rewrite <- !app_assoc in *.
    destruct H1 as [[N1 [N2 [N3 [N4 N5]]]] HK].
    change (@nil (str * node)) with (number [] []).
    apply items with (result := (canon (Sec k nm bc ec cont ss), rest)).
    - destruct ss as [|s ss].
      + cbn [map concat app]. apply quiet_comment; [right; exact H3 | split; reflexivity].
      + cbn [map concat]. rewrite <- app_assoc. apply Forall_cons_iff in H4. destruct H4 as [H4 _].
        apply quiet_comment; [left; apply H4 |]. unfold sensor_head. apply word_head. apply H4.
    - apply main_first_forall. rewrite Forall_forall in *. intros e He. split; [apply H5; exact He|]. apply (IH e He (place_of k)). apply H5. exact He.
    - constructor.
    - intros fuel' Hf'. cbn [app canon]. unfold arranged. rewrite <- (map_map snd canon), main_first_canon.
      destruct k as [| |typ time].
      + destruct HK as [_ [_ ->]]. cbn [map concat app] in *. destruct fuel' as [|f]; [lia|]. apply step_end; assumption.
      + rewrite sensors_read; try assumption; [reflexivity | discriminate].
      + rewrite sensors_read; try assumption; [reflexivity | discriminate].
    - exact Hf.
  Qed.

  (** ** The whole file *)
  Lemma load_items ics tail result : quiet tail -> forall l seen fuel,
    Forall (wf num fs Top) l -> Forall (fun n => no_uu (node_name n)) seen ->
    (forall fuel', List.length tail < fuel' ->
       load_loop num fs fuel' (mk_htc ics (number [] (seen ++ map canon (filter named l)))) tail = Ok result) ->
    List.length (forest_lines l ++ tail) < fuel ->
    load_loop num fs fuel (mk_htc ics (number [] seen)) (forest_lines l ++ tail) = Ok result.
  Proof.
    intro Hq. induction l as [|n l IH]; intros seen fuel Hl Hs Hk Hf.
    - cbn [filter map] in Hk. rewrite app_nil_r in Hk. apply Hk. exact Hf.
    - apply Forall_cons_iff in Hl. destruct Hl as [Hw Hl].
      assert (QL : quiet (forest_lines l ++ tail)) by (eapply quiet_forest; [exact Hl | exact Hq]).
      assert (AD : add_contents (number [] seen) (canon n) = Ok (number [] (seen ++ [canon n]))).
      { apply add_number. apply Forall_app. split; [exact Hs|]. constructor; [|constructor]. rewrite canon_name. eapply wf_no_uu. exact Hw. }
      assert (NX : named n = true -> forall f, List.length (forest_lines l ++ tail) < f ->
        load_loop num fs f (mk_htc ics (number [] (seen ++ [canon n]))) (forest_lines l ++ tail) = Ok result).
      { intros Hn f Hf'. apply IH; [exact Hl | | | exact Hf'].
        - apply Forall_app. split; [exact Hs|]. constructor; [|constructor]. rewrite canon_name. eapply wf_no_uu. exact Hw.
        - intros fuel' Hfu. specialize (Hk fuel' Hfu). cbn [filter] in Hk. rewrite Hn in Hk. cbn [map] in Hk. rewrite <- app_assoc. exact Hk. }
      destruct n as [nm1 vs c|k2 nm2 bc2 ec2 cont2 ss2].
      + destruct nm1 as [|x nm1].
        * cbn [forest_lines map concat node_lines is_nil app] in *. apply IH; try assumption.
        * destruct (read_line Top (x :: nm1) vs c (forest_lines l ++ tail) Hw ltac:(discriminate) QL) as [l0 [ls0 [E R]]].
          assert (FL : forest_lines (Line (x :: nm1) vs c :: l) ++ tail = l0 :: ls0 ++ forest_lines l ++ tail).
          { unfold forest_lines. cbn [map concat]. rewrite E. rewrite <- app_assoc. reflexivity. }
          rewrite FL in *. destruct fuel as [|f]; [cbn in Hf; lia|].
          inversion Hw as [? ? ? E1|? ? ? ? H1 H2 H3 H4 H5|]; subst. cbn [line_ok] in H3. destruct H3 as [HX HB].
          destruct (comment_parts c H5) as [c0 [cs [C1 _]]]. cbn [node_lines is_nil] in E. unfold comment_lines in E. rewrite C1 in E.
          unfold head_lines in E. injection E as E0 E1. change (line_head (x :: nm1) vs ++ [semi] ++ opt (nonnil c0) c0 = l0) in E0. cbn [load_loop].
          assert (S1 : startswith l0 [semi] = false).
          { rewrite <- E0. unfold line_head. rewrite <- app_assoc. pose proof (word_head _ (opt (nonnil (concat (map endl vs))) (join [sp] vs) ++ [semi] ++ opt (nonnil c0) c0) H1) as K.
            cbn [app] in *. destruct K as [_ K]. change (startswith (x :: ?[t]) [semi]) with (chr_eqb x semi && true). rewrite K. reflexivity. }
          rewrite S1.
          assert (S2 : startswith (lower l0) (S_ "begin") = false).
          { rewrite <- E0. unfold line_head. rewrite <- app_assoc, lower_app.
            destruct (nonnil (concat (map endl vs))); cbn [opt app]; unfold lower at 2; cbn [map].
            - rewrite startswith_cut; [exact HB | cbn; intuition discriminate].
            - rewrite startswith_cut; [exact HB | cbn; intuition discriminate]. }
          rewrite S2, R. cbn [bind node_name h_contents initial_comments].
          destruct (str_eqb (x :: nm1) (S_ "exit")) eqn:F; [apply str_eqb_eq in F; contradiction|].
          change (Line (x :: nm1) vs c) with (canon (Line (x :: nm1) vs c)) at 1. rewrite AD. cbn [bind].
          apply NX; [reflexivity|]. cbn [List.length] in Hf. rewrite app_length in Hf. lia.
      + pose proof (all_readable _ _ Hw) as Hr.
        inversion Hw as [| |? ? ? ? ? ? ? H1 H2 H3 H4 H5]; subst.
        destruct (comment_parts bc2 H2) as [c0 [cs [C1 [C2 [C3 [C4 C5]]]]]].
        assert (FL : forest_lines (Sec k2 nm2 bc2 ec2 cont2 ss2 :: l) ++ tail
          = (begin_head k2 nm2 ++ [semi] ++ opt (nonnil c0) c0) :: cs ++ body nm2 ec2 (main_first (map snd cont2)) ss2 ++ forest_lines l ++ tail).
        { unfold forest_lines at 1. cbn [map concat]. rewrite node_lines_sec. unfold comment_lines at 1. rewrite C1. unfold head_lines, body.
          cbn [app]. rewrite <- !app_assoc. reflexivity. }
        rewrite FL in *. destruct fuel as [|f]; [cbn in Hf; lia|]. remember (begin_head k2 nm2 ++ [semi] ++ opt (nonnil c0) c0) as l0 eqn:El.
        cbn [List.length] in Hf. rewrite app_length in Hf.
        cbn [load_loop]. replace (startswith l0 [semi]) with false by (rewrite El; reflexivity).
        replace (startswith (lower l0) (S_ "begin")) with true by (rewrite El; reflexivity).
        unfold sec_from. rewrite El.
        assert (HS : no_semi (begin_head k2 nm2) = true).
        { destruct H1 as [N HK]. unfold begin_head, no_semi. rewrite !forallb_app. destruct N as [_ [_ [_ [N _]]]]. unfold no_semi in N. rewrite N.
          destruct k2 as [| |typ time]; try reflexivity. destruct HK as [_ [_ [[_ K3] [_ [[_ K5] _]]]]]. unfold no_semi in K3, K5.
          rewrite !forallb_app, K3, K5. reflexivity. }
        assert (QB : quiet (body nm2 ec2 (main_first (map snd cont2)) ss2 ++ forest_lines l ++ tail)).
        { unfold body. rewrite <- !app_assoc. eapply quiet_forest; [apply main_first_forall; exact H5|].
          destruct ss2 as [|s ss2].
          - cbn [map concat app]. apply quiet_comment; [right; exact H3 | split; reflexivity].
          - cbn [map concat]. rewrite <- app_assoc. apply Forall_cons_iff in H4. destruct H4 as [H4 _].
            apply quiet_comment; [left; apply H4 |]. unfold sensor_head. apply word_head. apply H4. }
        rewrite parse_head by assumption. rewrite (read_header k2 nm2 bc2 ss2 H1). cbn [bind]. rewrite C5.
        rewrite Hr by (try assumption; lia). cbn [bind h_contents initial_comments]. rewrite AD. cbn [bind].
        apply NX; [reflexivity|]. rewrite app_length in Hf. lia.
  Qed.
  Lemma load_initial ics : forall h fuel rest result,
    Forall initial_ok ics ->
    (forall fuel', List.length rest < fuel' -> load_loop num fs fuel' (mk_htc (initial_comments h ++ ics) (h_contents h)) rest = Ok result) ->
    List.length (map strip ics ++ rest) < fuel -> load_loop num fs fuel h (map strip ics ++ rest) = Ok result.
  Proof.
    induction ics as [|c ics IH]; intros h fuel rest result H Hk Hf.
    - cbn [map app] in *. specialize (Hk fuel Hf). rewrite app_nil_r in Hk. destruct h. exact Hk.
    - apply Forall_cons_iff in H. destruct H as [[s [E [K1 [K2 K3]]]] H2]. cbn [map app] in *. destruct fuel as [|f]; [cbn in Hf; lia|].
      assert (ES : strip c = s).
      { rewrite E. change (s ++ [nl]) with ([] ++ s ++ [nl]). rewrite strip_pad by reflexivity. exact K2. }
      rewrite ES. cbn [load_loop]. rewrite K3, K2, <- E. apply IH; [exact H2 | | cbn [List.length] in Hf; lia].
      intros fuel' Hf'. cbn [initial_comments h_contents]. rewrite <- app_assoc. apply Hk. exact Hf'.
  Qed.
  Lemma file_round_trip h : wf_file num fs h -> exists text, htc_str h = Ok text /\ load num fs text = Ok (canon_file h).
  Proof.
    intros [H1 H2]. unfold htc_str.
    destruct (reorder_prints 1 (h_contents h)) as [ps [P1 P2]].
    { revert H2. apply Forall_impl. intros e He. eapply node_prints. exact He. }
    rewrite P1. cbn [bind]. eexists. split; [reflexivity|].
    destruct P2 as [raw [R1 [R2 R3]]].
    assert (I1 : exists iraw, concat (initial_comments h) = concat (map endl iraw) /\ forallb clean iraw = true /\ map strip iraw = map strip (initial_comments h)).
    { clear -H1. induction (initial_comments h) as [|c l IH]; [exists []; repeat split|]. apply Forall_cons_iff in H1. destruct H1 as [[s [E [K1 [K2 K3]]]] H1].
      destruct (IH H1) as [iraw [J1 [J2 J3]]]. exists (s :: iraw). cbn [concat map forallb]. rewrite J1, K1, J2, J3, E. repeat split.
      f_equal. symmetry. change (s ++ [nl]) with ([] ++ s ++ [nl]). apply strip_pad; reflexivity. }
    destruct I1 as [iraw [J1 [J2 J3]]]. unfold load. rewrite J1, R1.
    replace (concat (map endl iraw) ++ concat (map endl raw) ++ S_ "exit;") with (concat (map endl (iraw ++ raw)) ++ S_ "exit;")
      by (rewrite map_app, concat_app, <- app_assoc; reflexivity).
    assert (C : forallb clean (iraw ++ raw) = true) by (rewrite forallb_app, J2, R2; reflexivity).
    rewrite no_cr by (try exact C; reflexivity). rewrite split_lines by (try exact C; reflexivity).
    rewrite !map_app, J3, R3, <- app_assoc. change (map strip [S_ "exit;"]) with [S_ "exit;"].
    apply load_initial; [exact H1 | | lia].
    intros fuel' Hf'. cbn [initial_comments h_contents app]. change (@nil (str * node)) with (number [] []).
    apply load_items with (result := canon_file h); [reflexivity | apply main_first_forall; exact H2 | constructor | | exact Hf'].
    intros f Hf. destruct f as [|f]; [cbn in Hf; lia|]. cbn [app]. unfold canon_file, arranged. rewrite <- (map_map snd canon), main_first_canon. reflexivity.
  Qed.
End Read.
