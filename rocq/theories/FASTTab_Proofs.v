(** Lemmas about the tables of FAST input files. *)
From Verif Require Import Py PyFacts TextFacts FASTIn_Model FASTTab_Model.
From Verif Require Tecplot_Model.
From Coq Require Import Lia.
Local Open Scope nat_scope.

(** ** Cutting at a character *)
Lemma find_none a s : ~ In a s -> find_str s [a] = None.
Proof.
  induction s as [|c s IH]; intro H; [reflexivity|]. cbn [find_str startswith].
  destruct (chr_eqb_spec c a) as [->|N]; [exfalso; apply H; now left|]. cbn [andb].
  rewrite IH; [reflexivity|]. intro G; apply H; now right.
Qed.
Lemma cut_none a s : ~ In a s -> cleanAfterChar (String a EmptyString) s = s.
Proof. intro H. unfold cleanAfterChar. change (S_ (String a EmptyString)) with [a]. rewrite (find_none _ _ H). reflexivity. Qed.
Lemma cut_first a s : cleanAfterChar (String a EmptyString) (a :: s) = a :: s.
Proof. unfold cleanAfterChar. change (S_ (String a EmptyString)) with [a]. cbn [find_str startswith]. rewrite chr_eqb_refl. cbn [andb]. reflexivity. Qed.

Definition free (bad : string) (s : str) : Prop := forall c, In c s -> ~ In c (S_ bad).
Lemma free_app bad a b : free bad (a ++ b) <-> free bad a /\ free bad b.
Proof.
  unfold free. split.
  - intro H. split; intros c Hc; apply H; apply in_or_app; auto.
  - intros [H1 H2] c Hc. apply in_app_or in Hc. destruct Hc; auto.
Qed.
Lemma free_not_in bad a s : free bad s -> In a (S_ bad) -> ~ In a s.
Proof. intros H Ha Hs. exact (H a Hs Ha). Qed.
Lemma in_join c sep ws : In c (join sep ws) -> In c sep \/ exists w, In w ws /\ In c w.
Proof.
  induction ws as [|w ws IH]; [intros []|]. intro H. destruct ws as [|w' ws].
  - cbn in H. right. exists w. split; [now left|exact H].
  - rewrite join_cons in H by discriminate. apply in_app_or in H. destruct H as [H|H].
    + right. exists w. split; [now left|exact H].
    + apply in_app_or in H. destruct H as [H|H]; [now left|]. destruct (IH H) as [G|(x & Hx & G)]; [now left|].
      right. exists x. split; [now right|exact G].
Qed.
Lemma free_join bad sep ws : free bad sep -> Forall (free bad) ws -> free bad (join sep ws).
Proof.
  intros H1 H2 c Hc. apply in_join in Hc. destruct Hc as [Hc|(w & Hw & Hc)]; [exact (H1 c Hc)|].
  rewrite Forall_forall in H2. exact (H2 w Hw c Hc).
Qed.
Lemma free_one bad a : ~ In a (S_ bad) -> free bad [a].
Proof. intros H c [<-|[]]. exact H. Qed.

(** ** Words of padded texts *)
Lemma spaces k : forallb is_space (repeat sp k) = true.
Proof. induction k; [reflexivity|exact IHk]. Qed.
Lemma split_ws_join_any s ws : is_space s = true -> split_ws (join [s] ws) = flat_map split_ws ws.
Proof.
  intro Hs. induction ws as [|w ws IH]; [reflexivity|]. destruct ws as [|w' ws]; [cbn; now rewrite app_nil_r|].
  rewrite join_cons by discriminate. cbn [app]. rewrite split_ws_app by exact Hs. cbn [flat_map] in *. now rewrite IH.
Qed.
Lemma split_ws_pad s : split_ws (pad15 s) = split_ws s.
Proof. unfold pad15. apply split_ws_rpad. apply spaces. Qed.
Lemma heading_words l : split_ws (heading l) = flat_map split_ws l.
Proof. unfold heading. rewrite split_ws_join_any by reflexivity. rewrite flat_map_concat_map, map_map, flat_map_concat_map. f_equal. apply map_ext. intro. apply split_ws_pad. Qed.

(** A text whose words are separated by single blanks *)
Definition normal (s : str) : Prop := s <> [] /\ join [sp] (split_ws s) = s.
Lemma split_ws_nonnil s : normal s -> split_ws s <> [].
Proof. intros [H1 H2] E. rewrite E in H2. cbn in H2. congruence. Qed.
Lemma join_normal l : Forall normal l -> join [sp] (flat_map split_ws l) = join [sp] l.
Proof.
  induction l as [|s l IH]; intro H; [reflexivity|]. inversion H as [|? ? Hs Hl]; subst. cbn [flat_map].
  destruct l as [|s' l].
  - cbn. rewrite app_nil_r. apply Hs.
  - rewrite join_cons by discriminate. rewrite join_app.
    + rewrite (proj2 Hs), (IH Hl). reflexivity.
    + apply split_ws_nonnil, Hs.
    + inversion Hl as [|? ? Hs' ?]; subst. intro E. cbn [flat_map] in E. apply app_eq_nil in E. destruct E as [E _]. exact (split_ws_nonnil _ Hs' E).
Qed.
Lemma tokens_words l : forallb is_token (flat_map split_ws l) = true.
Proof. induction l as [|s l IH]; [reflexivity|]. cbn [flat_map]. rewrite forallb_app, IH, split_ws_tokens. reflexivity. Qed.
Lemma cleanLine_words s : cleanLine s = join [sp] (split_ws s).
Proof. unfold cleanLine. rewrite split_ws_replace_tab. apply strip_noedge, join_words_noedge, split_ws_tokens. Qed.
Lemma cleanLine_heading l : Forall normal l -> cleanLine (heading l) = join [sp] l.
Proof. intro H. rewrite cleanLine_words, heading_words. apply join_normal, H. Qed.
Lemma cleanLine_com l : Forall normal l -> l <> [] -> cleanLine (S_ "! " ++ heading l) = S_ "! " ++ join [sp] l.
Proof.
  intros H Hl. rewrite cleanLine_words. change (S_ "! " ++ heading l) with (S_ "!" ++ sp :: heading l).
  rewrite split_ws_app by reflexivity. change (split_ws (S_ "!")) with [S_ "!"]. rewrite heading_words.
  rewrite join_app; [|discriminate|].
  - rewrite (join_normal _ H). reflexivity.
  - destruct l as [|s l]; [contradiction|]. inversion H as [|? ? Hs ?]; subst. intro E. cbn [flat_map] in E. apply app_eq_nil in E. destruct E as [E _]. exact (split_ws_nonnil _ Hs E).
Qed.
Lemma token_normal s : is_token s = true -> normal s.
Proof. intro H. split; [now apply token_nonnil|]. rewrite split_ws_token by exact H. reflexivity. Qed.

(** ** Line breaks *)
Lemma linebreak_space c : is_space c = false -> is_linebreak c = false.
Proof.
  intro E. assert (H : forall c, (is_space c || negb (is_linebreak c)) = true) by (apply char_sweep; vm_compute; reflexivity).
  specialize (H c). rewrite E in H. cbn in H. now apply negb_true_iff.
Qed.
Definition oneline (s : str) : Prop := no_linebreak s = true.
Lemma oneline_app a b : oneline (a ++ b) <-> oneline a /\ oneline b.
Proof. unfold oneline, no_linebreak. rewrite forallb_app. apply andb_true_iff. Qed.
Lemma oneline_token s : is_token s = true -> oneline s.
Proof.
  intro H. apply tokenE in H. destruct H as [_ H]. unfold oneline, no_linebreak. rewrite forallb_forall in *. intros c Hc. specialize (H c Hc).
  apply negb_true_iff in H. rewrite (linebreak_space _ H). reflexivity.
Qed.
Lemma oneline_spaces k : oneline (repeat sp k).
Proof. induction k; [reflexivity|exact IHk]. Qed.
Lemma oneline_join sep ws : oneline sep -> Forall oneline ws -> oneline (join sep ws).
Proof.
  intros Hs H. induction ws as [|w ws IH]; [reflexivity|]. inversion H as [|? ? H1 H2]; subst. destruct ws as [|w' ws]; [exact H1|].
  rewrite join_cons by discriminate. apply oneline_app. split; [exact H1|]. apply oneline_app. split; [exact Hs|apply IH, H2].
Qed.
Lemma oneline_normal s : normal s -> oneline s.
Proof.
  intros [_ H]. rewrite <- H. apply oneline_join; [reflexivity|]. rewrite Forall_forall. intros w Hw. apply oneline_token.
  generalize (split_ws_tokens s). rewrite forallb_forall. intro G. apply G, Hw.
Qed.
Lemma oneline_heading l : Forall normal l -> oneline (heading l).
Proof.
  intro H. unfold heading. apply oneline_join; [reflexivity|]. rewrite Forall_map. revert H. apply Forall_impl. intros s Hs.
  unfold pad15. apply oneline_app. split; [apply oneline_normal, Hs|apply oneline_spaces].
Qed.
Definition unlines (ls : list str) : str := flat_map (fun l => l ++ [nl]) ls.
Lemma unlines_join ls : ls <> [] -> join [nl] ls ++ [nl] = unlines ls.
Proof.
  intro H. destruct ls as [|l ls]; [contradiction|]. clear H. revert l. induction ls as [|l' ls IH]; intro l; [cbn; now rewrite app_nil_r|].
  rewrite join_cons by discriminate. change (unlines (l :: l' :: ls)) with ((l ++ [nl]) ++ unlines (l' :: ls)).
  rewrite <- IH. repeat rewrite <- app_assoc. reflexivity.
Qed.
Lemma unlines_app a b : unlines (a ++ b) = unlines a ++ unlines b.
Proof. apply flat_map_app. Qed.
Lemma splitlines_un ls : Forall oneline ls -> splitlines (unlines ls) = ls.
Proof. intro H. apply splitlines_unlines. rewrite forallb_forall. rewrite Forall_forall in H. exact H. Qed.

(** ** Units *)
Definition paren (u : str) : str := S_ "(" ++ u ++ S_ ")".
Lemma replace_none a b s : ~ In a s -> replace_chr a b s = s.
Proof.
  induction s as [|c s IH]; intro H; [reflexivity|]. unfold replace_chr in *. cbn [flat_map].
  destruct (chr_eqb_spec c a) as [->|N]; [exfalso; apply H; now left|]. cbn [app]. f_equal. apply IH. intro; apply H; now right.
Qed.
Lemma replace_app a b s t : replace_chr a b (s ++ t) = replace_chr a b s ++ replace_chr a b t.
Proof. apply flat_map_app. Qed.
Lemma replace_paren u : free "()" u -> replace_chr (ch 40) [] (paren u) = u ++ S_ ")".
Proof.
  intro H. unfold paren. rewrite !replace_app. rewrite (replace_none _ _ u); [reflexivity|]. apply (free_not_in _ _ _ H). now left.
Qed.
Lemma no_paren_paren u : free "()" u -> no_paren (paren u) = paren u.
Proof.
  intro H. unfold no_paren. rewrite replace_paren by exact H. rewrite replace_app, (replace_none _ _ u); [|apply (free_not_in _ _ _ H); right; now left].
  cbn [replace_chr flat_map]. change (replace_chr (ch 41) [] (S_ ")")) with (@nil ascii). rewrite app_nil_r. reflexivity.
Qed.
Lemma split_parens us : Forall (free "()") us ->
  split_chr (ch 41) (replace_chr (ch 40) [] (flat_map (fun u => sp :: paren u) us)) = map (cons sp) us ++ [[]].
Proof.
  induction us as [|u us IH]; intro H; [reflexivity|]. inversion H as [|? ? H1 H2]; subst. cbn [flat_map].
  change ((sp :: paren u) ++ flat_map (fun u => sp :: paren u) us) with ([sp] ++ (paren u ++ flat_map (fun u => sp :: paren u) us)).
  rewrite !replace_app, (replace_paren _ H1), <- app_assoc. change (replace_chr (ch 40) [] [sp]) with [sp]. cbn [app map].
  change (S_ ")" ++ replace_chr (ch 40) [] (flat_map (fun u0 => sp :: paren u0) us)) with (ch 41 :: replace_chr (ch 40) [] (flat_map (fun u0 => sp :: paren u0) us)).
  change (sp :: u ++ ch 41 :: replace_chr (ch 40) [] (flat_map (fun u0 => sp :: paren u0) us)) with ((sp :: u) ++ ch 41 :: replace_chr (ch 40) [] (flat_map (fun u0 => sp :: paren u0) us)).
  unfold split_chr. rewrite split_on_app_sep; [f_equal; apply IH, H2| |apply chr_eqb_refl].
  cbn [forallb]. change (chr_eqb sp (ch 41)) with false. cbn [negb andb]. rewrite forallb_forall. intros c Hc.
  apply negb_true_iff, chr_eqb_neq. intros ->. apply (H1 _ Hc). right; now left.
Qed.
Lemma split_parens0 u us : Forall (free "()") (u :: us) ->
  split_chr (ch 41) (replace_chr (ch 40) [] (join [sp] (map paren (u :: us)))) = u :: map (cons sp) us ++ [[]].
Proof.
  intro H. inversion H as [|? ? H1 H2]; subst. cbn [map]. rewrite join_flat.
  replace (flat_map (fun x => [sp] ++ x) (map paren us)) with (flat_map (fun u => sp :: paren u) us) by (rewrite !flat_map_concat_map, map_map; reflexivity).
  rewrite replace_app, (replace_paren _ H1), <- app_assoc.
  change (S_ ")" ++ replace_chr (ch 40) [] (flat_map (fun u0 => sp :: paren u0) us)) with (ch 41 :: replace_chr (ch 40) [] (flat_map (fun u0 => sp :: paren u0) us)).
  unfold split_chr. rewrite split_on_app_sep; [f_equal; apply (split_parens _ H2)| |apply chr_eqb_refl].
  rewrite forallb_forall. intros c Hc. apply negb_true_iff, chr_eqb_neq. intros ->. apply (H1 _ Hc). right; now left.
Qed.
Lemma count_app c s t : count c (s ++ t) = count c s + count c t.
Proof. unfold count. rewrite filter_app, app_length. reflexivity. Qed.
Lemma count_none a s : ~ In a s -> count (String a EmptyString) s = 0.
Proof.
  unfold count. induction s as [|c s IH]; intro H; [reflexivity|]. cbn [filter]. destruct (str_eqb [c] (S_ (String a EmptyString))) eqn:E; [apply str_eqb_eq in E; injection E as ->; exfalso; apply H; now left|]. apply IH. intro; apply H; now right.
Qed.
Lemma count_parens us : Forall (free "()") us ->
  count "(" (join [sp] (map paren us)) = List.length us /\ count ")" (join [sp] (map paren us)) = List.length us.
Proof.
  induction us as [|u us IH]; intro H; [split; reflexivity|]. inversion H as [|? ? H1 H2]; subst. destruct (IH H2) as [I1 I2].
  assert (C1 : count "(" u = 0) by (apply count_none, (free_not_in _ _ _ H1); now left).
  assert (C2 : count ")" u = 0) by (apply count_none, (free_not_in _ _ _ H1); right; now left).
  assert (P1 : count "(" (paren u) = 1) by (unfold paren; rewrite !count_app, C1; reflexivity).
  assert (P2 : count ")" (paren u) = 1) by (unfold paren; rewrite !count_app, C2; reflexivity).
  destruct us as [|u' us]; [cbn [map join List.length]; split; assumption|].
  cbn [map] in *. rewrite join_cons by discriminate. rewrite !count_app, P1, P2. change (count "(" [sp]) with 0. change (count ")" [sp]) with 0.
  rewrite I1, I2. cbn [List.length]. split; reflexivity.
Qed.
Lemma detect_parens us n : Forall (free "()") us -> us <> [] -> n <= List.length us ->
  detectUnits (join [sp] (map paren us)) n = match us with [] => [] | u :: r => u :: map (cons sp) r end.
Proof.
  intros H Hn Hl. destruct (count_parens us H) as [C1 C2]. unfold detectUnits. rewrite C1, C2, Nat.eqb_refl.
  apply Nat.leb_le in Hl. rewrite Hl. cbn [andb]. destruct us as [|u us]; [contradiction|]. unfold between. rewrite (split_parens0 u us H).
  change (u :: map (cons sp) us ++ [[]]) with ((u :: map (cons sp) us) ++ [[]]). apply removelast_last.
Qed.

(** ** Numbers and logical words *)
Lemma repl_none p pat rep s : ~ In p s -> Tecplot_Model.replace_ (p :: pat) rep s = s.
Proof.
  unfold Tecplot_Model.replace_. induction s as [|c s IH]; intro H; [reflexivity|]. cbn [Tecplot_Model.repl startswith].
  destruct (chr_eqb_spec c p) as [->|N]; [exfalso; apply H; now left|]. cbn [andb]. f_equal. apply IH. intro; apply H; now right.
Qed.
Lemma logical_plain w : free "tfnp" w -> logical w = w.
Proof.
  intro H. unfold logical. cbv zeta.
  change (S_ "true") with (ch 116 :: S_ "rue"). change (S_ "false") with (ch 102 :: S_ "alse").
  change (S_ "noprint") with (ch 110 :: S_ "oprint"). change (S_ "print") with (ch 112 :: S_ "rint").
  rewrite (repl_none (ch 116)) by (apply (free_not_in _ _ _ H); now left).
  rewrite (repl_none (ch 102)) by (apply (free_not_in _ _ _ H); right; now left).
  rewrite (repl_none (ch 110)) by (apply (free_not_in _ _ _ H); right; right; now left).
  rewrite (repl_none (ch 112)) by (apply (free_not_in _ _ _ H); right; right; right; now left). reflexivity.
Qed.
