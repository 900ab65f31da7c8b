(** Printing and reading HTC files (for HTC_Props.v). *)
From Verif Require Import Py PyFacts TextFacts FASTOut_Model HTC_Model HTC_Spec HTC_Names.
From Coq Require Import Lia.
Local Open Scope nat_scope.

(** ** Well-formed texts *)
Lemma comment_end c : comment c -> end_comment c.
Proof.
  intros [c0 [cs [H1 [H2 [H3 H4]]]]]. exists c0, cs. repeat split; try assumption.
  rewrite <- H3. unfold strip. rewrite rstrip_idem. reflexivity.
Qed.
Lemma clean_app a b : clean (a ++ b) = clean a && clean b.
Proof. apply forallb_app. Qed.
Lemma clean_cons c s : clean (c :: s) = true -> chr_eqb c nl = false /\ chr_eqb c cr = false /\ clean s = true.
Proof.
  unfold clean. cbn [forallb]. intro H. apply andb_inv in H. destruct H as [H H3]. apply andb_inv in H. destruct H as [H1 H2].
  repeat split; try (apply negb_true_iff; assumption). exact H3.
Qed.
Lemma clean_nl s : clean s = true -> forallb (fun c => negb (chr_eqb c nl)) s = true.
Proof.
  unfold clean. intro H. rewrite forallb_forall in *. intros c Hc. specialize (H c Hc). apply andb_inv in H. apply H.
Qed.
Lemma clean_cr s : clean s = true -> forallb (fun c => negb (chr_eqb c cr)) s = true.
Proof.
  unfold clean. intro H. rewrite forallb_forall in *. intros c Hc. specialize (H c Hc). apply andb_inv in H. apply H.
Qed.
Lemma nospace_clean s : forallb (fun c => negb (is_space c)) s = true -> clean s = true.
Proof.
  unfold clean. intro H. rewrite forallb_forall in *. intros c Hc. specialize (H c Hc). chars_if c H.
Qed.
Lemma word_clean s : word s -> clean s = true.
Proof. intros [H _]. apply nospace_clean. apply tokenE in H. apply H. Qed.
Lemma token_clean s : is_token s = true -> clean s = true.
Proof. intro H. apply nospace_clean. apply tokenE in H. apply H. Qed.

Definition no_trail (s : str) : Prop := match rev s with [] => True | c :: _ => is_space c = false end.
Lemma rstrip_no_trail s : rstrip s = s -> no_trail s.
Proof.
  unfold rstrip, no_trail. intro H. assert (E : lstrip (rev s) = rev s) by (rewrite <- (rev_involutive (lstrip (rev s))), H; reflexivity).
  destruct (rev s) as [|c t]; [trivial|]. cbn in E. destruct (is_space c) eqn:K; [|reflexivity].
  exfalso. destruct (lstrip_decomp t) as [b [_ B]]. rewrite E in B. apply (f_equal (@List.length ascii)) in B.
  rewrite app_length in B. cbn in B. lia.
Qed.
Lemma no_trail_last s : no_trail s -> last s (ch 0) <> tab.
Proof.
  unfold no_trail. destruct s as [|x s] using rev_ind; [discriminate|]. rewrite rev_app_distr, last_last. cbn.
  intros H ->. discriminate.
Qed.
Lemma rstrip_id s : no_trail s -> rstrip s = s.
Proof.
  unfold no_trail, rstrip. intro H. destruct (rev s) as [|c t] eqn:E.
  - rewrite <- (rev_involutive s), E. reflexivity.
  - rewrite lstrip_head by exact H. rewrite <- E. apply rev_involutive.
Qed.
Lemma strip_stripped s : strip s = s -> no_edge_space s = true.
Proof. intro H. rewrite <- H. apply strip_no_edge. Qed.
Lemma strip_head_not_space c s : strip (c :: s) = c :: s -> is_space c = false.
Proof. intro H. apply strip_stripped in H. unfold no_edge_space in H. apply andb_inv in H. destruct H as [H _]. apply negb_true_iff. exact H. Qed.
Lemma strip_rstrip s : strip s = s -> rstrip s = s.
Proof. intro H. rewrite <- H. unfold strip. rewrite rstrip_idem. reflexivity. Qed.

(** ** Lines of a text *)
Definition endl (s : str) : str := s ++ [nl].
Definition prints (t : str) (ls : list str) : Prop :=
  exists raw, t = concat (map endl raw) /\ forallb clean raw = true /\ map strip raw = ls.
Lemma prints_nil : prints [] [].
Proof. exists []. repeat split. Qed.
Lemma prints_app a b x y : prints a x -> prints b y -> prints (a ++ b) (x ++ y).
Proof.
  intros [r1 [A1 [A2 A3]]] [r2 [B1 [B2 B3]]]. exists (r1 ++ r2). rewrite !map_app, concat_app, forallb_app.
  rewrite A2, B2. subst. repeat split.
Qed.
Lemma prints_concat {A} (f : A -> str) (g : A -> list str) l : Forall (fun x => prints (f x) (g x)) l ->
  prints (concat (map f l)) (concat (map g l)).
Proof.
  induction l as [|x l IH]; intro H; [apply prints_nil|]. apply Forall_cons_iff in H. destruct H as [H1 H2].
  cbn [map concat]. apply prints_app; [exact H1 | apply IH; exact H2].
Qed.
Lemma split_lines raw last_ : forallb clean raw = true -> clean last_ = true ->
  split_chr nl (concat (map endl raw) ++ last_) = raw ++ [last_].
Proof.
  intros H Hl. induction raw as [|r raw IH]; cbn [map concat app].
  - unfold split_chr. apply split_on_none. apply clean_nl. exact Hl.
  - cbn in H. apply andb_inv in H. destruct H as [H1 H2]. unfold endl at 1. rewrite <- !app_assoc. cbn [app].
    unfold split_chr. rewrite split_on_app_sep; [|apply clean_nl; exact H1 | apply chr_eqb_refl].
    f_equal. apply IH. exact H2.
Qed.
Lemma no_cr raw last_ : forallb clean raw = true -> clean last_ = true ->
  filter (fun c => negb (chr_eqb c (ch 13))) (concat (map endl raw) ++ last_) = concat (map endl raw) ++ last_.
Proof.
  assert (G : forall s, forallb (fun c => negb (chr_eqb c (ch 13))) s = true -> filter (fun c => negb (chr_eqb c (ch 13))) s = s).
  { induction s as [|c s IH]; intro H; [reflexivity|]. cbn [forallb] in H. apply andb_inv in H. destruct H as [H1 H2]. cbn [filter].
    rewrite H1, IH by exact H2. reflexivity. }
  intros H Hl. apply G. rewrite forallb_app. apply andb_true_intro. split; [|apply clean_cr; exact Hl].
  induction raw as [|r raw IH]; [reflexivity|]. cbn in H. apply andb_inv in H. destruct H as [H1 H2].
  cbn [map concat]. rewrite forallb_app. apply andb_true_intro. split; [|apply IH; exact H2].
  unfold endl. rewrite forallb_app. apply andb_true_intro. split; [apply clean_cr; exact H1 | reflexivity].
Qed.

(** ** A line with its comment *)
(** The (stripped) lines of [X;] followed by the comment made of [c0] and [cs]. *)
Definition head_lines (X c0 : str) (cs : list str) : list str := (X ++ [semi] ++ opt (nonnil c0) c0) :: cs.

Lemma join_nl_lines c0 cs : join [nl] (c0 :: cs) ++ [nl] = concat (map endl (c0 :: cs)).
Proof.
  revert c0. induction cs as [|c cs IH]; intro c0; [cbn; rewrite app_nil_r; reflexivity|].
  rewrite join_cons by discriminate. rewrite <- !app_assoc. rewrite IH. cbn [map concat]. unfold endl. rewrite <- !app_assoc. reflexivity.
Qed.
Lemma some_text_app s t : some_text t = true -> some_text (s ++ t) = true.
Proof.
  unfold some_text. intro H. apply negb_true_iff in H. apply negb_true_iff.
  destruct (strip (s ++ t)) eqn:E; [|reflexivity]. exfalso.
  assert (G : split_ws (s ++ t) = []) by (rewrite <- split_ws_strip, E; reflexivity).
  assert (K : forallb is_space (s ++ t) = true).
  { unfold strip in E. destruct (lstrip_nil_or_head (s ++ t)) as [L|[c [u [L Lc]]]].
    - destruct (lstrip_decomp (s ++ t)) as [b [B1 B2]]. rewrite L, app_nil_r in B2. rewrite B2. exact B1.
    - rewrite L in E. unfold rstrip in E. cbn [rev] in E. destruct (lstrip_nil_or_head (rev u ++ [c])) as [M|[d [w [M _]]]].
      + destruct (lstrip_decomp (rev u ++ [c])) as [b [B1 B2]]. rewrite M, app_nil_r in B2. rewrite <- B2 in B1.
        rewrite forallb_app in B1. apply andb_inv in B1. destruct B1 as [_ B1]. cbn in B1. rewrite Lc in B1. discriminate.
      + rewrite M in E. cbn in E. destruct (rev w); discriminate. }
  rewrite forallb_app in K. apply andb_inv in K. destruct K as [_ K]. rewrite strip_blank in H by exact K. discriminate.
Qed.
Lemma some_text_head c s : is_space c = false -> some_text (c :: s) = true.
Proof.
  intro H. unfold some_text. apply negb_true_iff. unfold strip. rewrite lstrip_head by exact H.
  destruct (rstrip_decomp (c :: s)) as [b [B1 B2]]. destruct (rstrip (c :: s)); [|reflexivity].
  cbn [app] in B2. rewrite <- B2 in B1. cbn in B1. rewrite H in B1. discriminate.
Qed.
Lemma some_text_prefix s t : some_text s = true -> some_text (s ++ t) = true.
Proof.
  unfold some_text. intro H. apply negb_true_iff in H. apply negb_true_iff. destruct (lstrip_decomp s) as [b [B1 B2]].
  destruct (lstrip_nil_or_head s) as [L|[c [u [L Lc]]]].
  - unfold strip in H. rewrite L in H. discriminate.
  - rewrite B2, L, <- app_assoc. cbn [app]. unfold strip. rewrite lstrip_app_nonblank by exact B1. rewrite lstrip_head by exact Lc.
    pose proof (some_text_head c (u ++ t) Lc) as K. unfold some_text in K. apply negb_true_iff in K. unfold strip in K.
    rewrite lstrip_head in K by exact Lc. exact K.
Qed.
Lemma no_trail_some s : no_trail s -> s <> [] -> some_text s = true.
Proof.
  unfold no_trail. destruct s as [|x s] using rev_ind; [contradiction|]. rewrite rev_app_distr. cbn. intros H _.
  apply some_text_app. apply some_text_head. exact H.
Qed.
Lemma continuation_some l : continuation l -> some_text l = true.
Proof.
  intros [H1 [H2 H3]]. apply startswith_iff in H3. destruct H3 as [t ->]. apply some_text_head. reflexivity.
Qed.
Lemma comment_some c0 cs : no_trail c0 -> Forall continuation cs ->
  some_text (join [nl] (c0 :: cs)) = nonnil c0 || nonnil (concat (map endl cs)).
Proof.
  intros H1 H2. destruct c0 as [|x c0].
  - destruct cs as [|c cs]; [reflexivity|]. rewrite join_cons by discriminate. cbn [nonnil orb app].
    apply Forall_cons_iff in H2. destruct H2 as [H2 _].
    transitivity true; [|cbn [map concat]; destruct c; reflexivity].
    change (nl :: join [nl] (c :: cs)) with ([nl] ++ join [nl] (c :: cs)). apply some_text_app.
    rewrite join_flat. apply some_text_prefix. apply continuation_some. exact H2.
  - cbn [nonnil orb]. rewrite join_flat. apply some_text_prefix. apply no_trail_some; [exact H1 | discriminate].
Qed.

Lemma strip_line k X c0 (b : bool) : (match X with [] => False | c :: _ => is_space c = false end) -> no_trail c0 -> (b = false -> c0 = []) ->
  strip (indent k ++ X ++ [semi] ++ opt b c0) = X ++ [semi] ++ opt (nonnil c0) c0.
Proof.
  intros HX Hc Hb.
  assert (Hi : forallb is_space (indent k) = true).
  { unfold indent. induction k as [|k IH]; [reflexivity|]. cbn [repeat concat]. rewrite forallb_app, IH. reflexivity. }
  assert (HXs : lstrip X = X) by (destruct X as [|c X]; [contradiction | apply lstrip_head; exact HX]).
  destruct c0 as [|x c0].
  - cbn [nonnil opt]. rewrite app_nil_r.
    replace (indent k ++ X ++ [semi] ++ opt b []) with (indent k ++ (X ++ [semi]) ++ opt b []) by (rewrite <- app_assoc; reflexivity).
    rewrite strip_pad; [|exact Hi | destruct b; reflexivity].
    unfold strip. destruct X as [|c X]; [contradiction|]. cbn [app]. rewrite lstrip_head by exact HX.
    change (c :: X ++ [semi]) with ((c :: X) ++ [semi]). apply rstrip_last. reflexivity.
  - destruct b; [|discriminate (Hb eq_refl)]. cbn [nonnil opt].
    unfold strip. rewrite lstrip_app_nonblank by exact Hi.
    destruct X as [|c X]; [contradiction|]. cbn [app]. rewrite lstrip_head by exact HX.
    apply rstrip_id. unfold no_trail in *.
    change (c :: X ++ semi :: tab :: x :: c0) with ((c :: X) ++ [semi; tab] ++ (x :: c0)).
    rewrite !rev_app_distr. destruct (rev (x :: c0)) as [|y u] eqn:E; [|exact Hc].
    apply (f_equal (@List.length ascii)) in E. rewrite rev_length in E. discriminate.
Qed.

(** Printed text of a head with its comment, for any way of printing the separating tab. *)
Lemma prints_head k X c0 cs t : (match X with [] => False | c :: _ => is_space c = false end) -> clean X = true ->
  clean c0 = true -> no_trail c0 -> Forall continuation cs ->
  (exists b, (b = false -> c0 = []) /\ t = (if b then [tab] else []) ++ join [nl] (c0 :: cs)) ->
  prints (indent k ++ X ++ [semi] ++ t ++ [nl]) (head_lines X c0 cs).
Proof.
  intros HX HXc Hc0 Hn Hcs [b [Hb ->]].
  exists ((indent k ++ X ++ [semi] ++ (if b then [tab] else []) ++ c0) :: cs). split; [|split].
  - rewrite <- !app_assoc. rewrite join_nl_lines. cbn [map concat]. unfold endl. rewrite <- !app_assoc. reflexivity.
  - cbn [forallb]. apply andb_true_intro. split.
    + rewrite !clean_app, HXc, Hc0. unfold indent.
      assert (Hi : clean (concat (repeat (S_ "  ") k)) = true).
      { induction k as [|k IH]; [reflexivity|]. cbn [repeat concat]. rewrite clean_app, IH. reflexivity. }
      rewrite Hi. destruct b; reflexivity.
    + rewrite forallb_forall. intros l Hl. rewrite Forall_forall in Hcs. apply Hcs. exact Hl.
  - cbn [map]. unfold head_lines. f_equal.
    + rewrite <- (strip_line k X c0 b HX Hn Hb). destruct b; cbn [opt app]; [reflexivity|].
      rewrite (Hb eq_refl). reflexivity.
    + rewrite <- (map_id cs) at 2. apply map_ext_in. intros l Hl. rewrite Forall_forall in Hcs. apply Hcs. exact Hl.
Qed.
Lemma untab_line l t : clean l = true -> last l (ch 0) <> tab -> untab (l ++ nl :: t) = l ++ nl :: untab t.
Proof.
  induction l as [|c l IH]; intros H1 H2; [reflexivity|].
  apply clean_cons in H1. destruct H1 as [_ [_ Hl]]. cbn [app untab].
  destruct l as [|d l].
  - cbn [app]. cbn [last] in H2. destruct (chr_eqb_spec c tab) as [E|E]; [contradiction|]. cbn [andb]. reflexivity.
  - cbn [app]. destruct (clean_cons _ _ Hl) as [Hd _]. rewrite Hd, andb_false_r. f_equal. apply IH; [exact Hl | exact H2].
Qed.
Lemma untab_end l : clean l = true -> untab l = l.
Proof.
  induction l as [|c l IH]; intro H; [reflexivity|]. apply clean_cons in H. destruct H as [_ [_ H2]]. cbn [untab].
  destruct l as [|d l]; [rewrite andb_false_r; reflexivity|].
  destruct (clean_cons _ _ H2) as [H3 _]. rewrite H3, andb_false_r. f_equal. apply IH. exact H2.
Qed.
Lemma untab_comment c0 cs : clean c0 = true -> no_trail c0 -> Forall continuation cs -> untab (join [nl] (c0 :: cs)) = join [nl] (c0 :: cs).
Proof.
  revert c0. induction cs as [|c cs IH]; intros c0 H1 H2 H3; [apply untab_end; exact H1|].
  rewrite join_cons by discriminate. cbn [app]. rewrite untab_line by (try exact H1; apply no_trail_last; exact H2).
  do 2 f_equal. apply Forall_cons_iff in H3. destruct H3 as [H3 H4]. destruct H3 as [K1 [K2 _]].
  apply IH; [exact K1 | apply rstrip_no_trail; apply strip_rstrip; exact K2 | exact H4].
Qed.
Lemma untab_tab x u : chr_eqb x nl = false -> untab (tab :: x :: u) = tab :: untab (x :: u).
Proof. intro H. change (untab (tab :: x :: u)) with (if chr_eqb tab tab && chr_eqb x nl then untab (x :: u) else tab :: untab (x :: u)). rewrite H. reflexivity. Qed.
Lemma untab_tab_comment c0 cs : clean c0 = true -> no_trail c0 -> Forall continuation cs ->
  untab (tab :: join [nl] (c0 :: cs)) = (if nonnil c0 || negb (nonnil (concat (map endl cs))) then [tab] else []) ++ join [nl] (c0 :: cs).
Proof.
  intros H1 H2 H3. destruct c0 as [|x c0].
  - destruct cs as [|c cs]; [reflexivity|]. pose proof (untab_comment [] (c :: cs) eq_refl I H3) as U.
    rewrite join_cons in * by discriminate. cbn [app] in *.
    assert (E : nonnil (concat (map endl (c :: cs))) = true) by (cbn [map concat]; destruct c; reflexivity).
    rewrite E. cbn [nonnil orb negb app]. cbn [untab]. rewrite !chr_eqb_refl. cbn [andb]. exact U.
  - cbn [nonnil orb app]. destruct (clean_cons _ _ H1) as [H4 _].
    assert (EJ : exists u, join [nl] ((x :: c0) :: cs) = x :: u) by (rewrite join_flat; eexists; reflexivity).
    destruct EJ as [u EJ]. pose proof (untab_comment (x :: c0) cs H1 H2 H3) as U. rewrite EJ in *.
    rewrite untab_tab by exact H4. rewrite U. reflexivity.
Qed.

(** The two ways of printing a comment. *)
Lemma opt_comment c0 cs : no_trail c0 -> Forall continuation cs -> exists b, (b = false -> c0 = []) /\
  opt (some_text (join [nl] (c0 :: cs))) (join [nl] (c0 :: cs)) = (if b then [tab] else []) ++ join [nl] (c0 :: cs).
Proof.
  intros H1 H2. exists (some_text (join [nl] (c0 :: cs))). rewrite comment_some by assumption. split.
  - intro H. apply orb_false_iff in H. destruct c0; [reflexivity | destruct H; discriminate].
  - destruct (nonnil c0 || nonnil (concat (map endl cs))) eqn:E; [reflexivity|]. apply orb_false_iff in E.
    destruct c0; [|destruct E; discriminate]. destruct cs as [|c cs]; [reflexivity|]. destruct E as [_ E]. destruct c; discriminate.
Qed.
Lemma untab_opt_comment c0 cs : clean c0 = true -> no_trail c0 -> Forall continuation cs -> exists b, (b = false -> c0 = []) /\
  untab (opt (some_text (join [nl] (c0 :: cs))) (join [nl] (c0 :: cs))) = (if b then [tab] else []) ++ join [nl] (c0 :: cs).
Proof.
  intros H0 H1 H2. rewrite comment_some by assumption. destruct (nonnil c0 || nonnil (concat (map endl cs))) eqn:E.
  - cbn [opt]. exists (nonnil c0 || negb (nonnil (concat (map endl cs)))). rewrite untab_tab_comment by assumption.
    split; [|reflexivity]. intro H. apply orb_false_iff in H. destruct c0; [reflexivity | destruct H; discriminate].
  - exists false. apply orb_false_iff in E. destruct c0; [|destruct E; discriminate].
    destruct cs as [|c cs]; [split; reflexivity|]. destruct E as [_ E]. destruct c; discriminate.
Qed.

(** ** Reading a line with its comment back *)
Definition quiet (ls : list str) : Prop := match ls with [] => True | l :: _ => startswith (lstrip l) [semi] = false end.
Definition raw_comment (c0 : str) (cs : list str) : str := opt (nonnil c0) c0 ++ flat_map (fun x => [nl] ++ x) cs.
Lemma more_comments_read cs rest : quiet rest -> Forall continuation cs -> forall acc,
  more_comments (cs ++ rest) acc = (acc ++ flat_map (fun x => [nl] ++ x) cs, rest).
Proof.
  intro Hq. induction cs as [|c cs IH]; intros H acc.
  - cbn [app flat_map]. rewrite app_nil_r. destruct rest as [|r rest]; [reflexivity|]. cbn [more_comments]. rewrite Hq. reflexivity.
  - apply Forall_cons_iff in H. destruct H as [[H1 [H2 H3]] H4]. cbn [app more_comments].
    assert (L : lstrip c = c).
    { apply startswith_iff in H3. destruct H3 as [t ->]. apply lstrip_head. reflexivity. }
    rewrite L, H3, (strip_rstrip c H2), IH by exact H4. cbn [flat_map]. rewrite <- !app_assoc. reflexivity.
Qed.
Lemma split_semi X t : no_semi X = true -> hd [] (split_chr semi (X ++ [semi] ++ t)) = X /\ join [semi] (tl (split_chr semi (X ++ [semi] ++ t))) = t.
Proof.
  intro H. unfold split_chr. cbn [app]. rewrite split_on_app_sep; [|exact H | apply chr_eqb_refl]. split; [reflexivity|]. cbn [tl].
  clear H. induction t as [|c t IH]; [reflexivity|]. cbn [split_on]. destruct (chr_eqb c semi) eqn:E.
  - apply chr_eqb_eq in E. subst c. destruct (split_on (fun x => chr_eqb x semi) t) as [|w ws] eqn:F; [exfalso; eapply split_on_nonnil; exact F|].
    rewrite join_cons by discriminate. rewrite IH. reflexivity.
  - destruct (split_on (fun x => chr_eqb x semi) t) as [|w ws] eqn:F; [exfalso; eapply split_on_nonnil; exact F|].
    rewrite join_flat in *. rewrite <- IH. reflexivity.
Qed.
Lemma opt_no_trail c0 : no_trail c0 -> no_trail (opt (nonnil c0) c0).
Proof.
  intro H. destruct c0 as [|x c0]; [exact I|]. cbn [nonnil opt]. unfold no_trail in *. cbn [rev].
  cbn [rev] in H. destruct (rev c0 ++ [x]) as [|y u] eqn:E; [destruct (rev c0); discriminate | exact H].
Qed.
Lemma parse_head X c0 cs rest : no_semi X = true -> no_trail c0 -> Forall continuation cs -> quiet rest ->
  parse_next (X ++ [semi] ++ opt (nonnil c0) c0) (cs ++ rest) = (strip X, raw_comment c0 cs, rest).
Proof.
  intros H1 H2 H3 H4. unfold parse_next. destruct (split_semi X (opt (nonnil c0) c0) H1) as [-> ->].
  rewrite (rstrip_id _ (opt_no_trail c0 H2)). rewrite more_comments_read by assumption. reflexivity.
Qed.
Lemma blank_space c : is_blank c = true -> is_space c = true.
Proof. intro H. chars_if c H. Qed.
Lemma lstrip_bt_head c s : is_space c = false -> lstrip_bt (c :: s) = c :: s.
Proof. intro H. cbn. destruct (is_blank c) eqn:E; [apply blank_space in E; congruence | reflexivity]. Qed.
Lemma strip_bt_id s : (match s with [] => True | c :: _ => is_blank c = false end) -> no_trail s -> strip_bt s = s.
Proof.
  intros H1 H2. unfold strip_bt. replace (lstrip_bt s) with s.
  - unfold no_trail in H2. destruct (rev s) as [|c t] eqn:E.
    + rewrite <- (rev_involutive s), E. reflexivity.
    + rewrite lstrip_bt_head by exact H2. rewrite <- E. apply rev_involutive.
  - destruct s as [|c s]; [reflexivity|]. cbn. rewrite H1. reflexivity.
Qed.
Lemma no_trail_app a b : no_trail b -> b <> [] -> no_trail (a ++ b).
Proof.
  unfold no_trail. rewrite rev_app_distr. destruct (rev b) as [|y u] eqn:E; [|trivial]. intros _ Hb. exfalso. apply Hb.
  rewrite <- (rev_involutive b), E. reflexivity.
Qed.
Lemma comment_no_trail c0 cs : no_trail c0 -> Forall continuation cs -> no_trail (join [nl] (c0 :: cs)).
Proof.
  revert c0. induction cs as [|c cs IH]; intros c0 H1 H2; [exact H1|]. rewrite join_cons by discriminate.
  apply Forall_cons_iff in H2. destruct H2 as [H2 H3]. pose proof (continuation_some c H2) as K. destruct H2 as [_ [H2 _]].
  assert (N : no_trail c) by (apply rstrip_no_trail; apply strip_rstrip; exact H2).
  assert (NE : join [nl] (c :: cs) <> []).
  { rewrite join_flat. destruct c; [discriminate K | discriminate]. }
  apply no_trail_app; [|discriminate]. apply no_trail_app; [apply IH; assumption | exact NE].
Qed.
Lemma strip_raw c0 cs : strip c0 = c0 -> Forall continuation cs -> strip_bt (raw_comment c0 cs) = join [nl] (c0 :: cs).
Proof.
  intros H1 H2. rewrite join_flat. unfold raw_comment.
  assert (N : no_trail c0) by (apply rstrip_no_trail; apply strip_rstrip; exact H1).
  assert (B : strip_bt (c0 ++ flat_map (fun x => [nl] ++ x) cs) = c0 ++ flat_map (fun x => [nl] ++ x) cs).
  { apply strip_bt_id.
    - destruct c0 as [|x c0]; [destruct cs as [|c cs]; [exact I | reflexivity]|].
      cbn [app]. apply strip_head_not_space in H1. destruct (is_blank x) eqn:E; [apply blank_space in E; congruence | reflexivity].
    - rewrite <- join_flat. apply comment_no_trail; assumption. }
  destruct c0 as [|x c0]; [exact B|]. cbn [nonnil opt app]. unfold strip_bt in *. cbn [lstrip_bt].
  change (is_blank tab) with true. cbv iota. exact B.
Qed.
