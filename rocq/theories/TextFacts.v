(** More facts about the text primitives of Py.v, shared by the text formats. *)
From Verif Require Import Py PyFacts.

(** A property of one character that holds for all 256 of them, in implication form. *)
Ltac chars c := clear - c; revert c; apply char_sweep; vm_compute; reflexivity.
(** The same under a boolean hypothesis on the character. *)
Ltac chars_if c H :=
  match type of H with ?P = true =>
  match goal with |- ?Q = true =>
    let G := fresh in assert (G : implb P Q = true) by (chars c); rewrite H in G; exact G end end.

Lemma andb_inv a b : a && b = true -> a = true /\ b = true.
Proof. apply andb_prop. Qed.

Lemma tokenE s : is_token s = true <-> s <> [] /\ forallb (fun c => negb (is_space c)) s = true.
Proof.
  unfold is_token. rewrite andb_true_iff. split; intros [H1 H2]; split; try assumption.
  - destruct s; discriminate.
  - destruct s; [contradiction|reflexivity].
Qed.
Lemma token_nonnil s : is_token s = true -> s <> [].
Proof. intro H. apply tokenE in H. apply H. Qed.
Lemma token_cons s : is_token s = true -> exists c t, s = c :: t /\ is_space c = false.
Proof.
  intro H. apply tokenE in H. destruct H as [H1 H2]. destruct s as [|c t]; [contradiction|].
  exists c, t. split; [reflexivity|]. cbn in H2. apply andb_inv in H2. destruct H2 as [H2 _].
  apply negb_true_iff. exact H2.
Qed.
Lemma token_not_in c s : is_token s = true -> is_space c = true -> ~ In c s.
Proof.
  intros H Hc Hin. apply tokenE in H. destruct H as [_ H]. rewrite forallb_forall in H.
  specialize (H c Hin). rewrite Hc in H. discriminate H.
Qed.
Lemma token_app a b : is_token a = true -> is_token b = true -> is_token (a ++ b) = true.
Proof.
  intros Ha Hb. apply tokenE in Ha. apply tokenE in Hb. apply tokenE. split.
  - destruct a; [destruct Ha; contradiction | discriminate].
  - rewrite forallb_app. destruct Ha as [_ ->], Hb as [_ ->]. reflexivity.
Qed.

(** Blanks may be exchanged without changing the words. *)
Lemma split_ws_replace_tab s : split_ws (replace_chr tab [sp] s) = split_ws s.
Proof.
  unfold split_ws. f_equal. induction s as [|c s IH]; [reflexivity|].
  unfold replace_chr in *. cbn [flat_map]. destruct (chr_eqb c tab) eqn:E.
  - apply chr_eqb_eq in E. subst c. cbn [app split_on]. change (is_space sp) with true. change (is_space tab) with true.
    cbv iota. f_equal. exact IH.
  - cbn [app split_on]. rewrite IH. reflexivity.
Qed.

(** The first word. *)
Lemma split_on_cons p c t : p c = false ->
  exists w ws, split_on p t = w :: ws /\ split_on p (c :: t) = (c :: w) :: ws.
Proof.
  intro H. cbn [split_on]. rewrite H. destruct (split_on p t) as [|w ws] eqn:E.
  - exfalso. eapply split_on_nonnil. exact E.
  - exists w, ws. split; reflexivity.
Qed.
Lemma split_on_prefix p a t : forallb (fun x => negb (p x)) a = true ->
  exists w ws, split_on p t = w :: ws /\ split_on p (a ++ t) = (a ++ w) :: ws.
Proof.
  induction a as [|c a IH]; intro H.
  - cbn [app]. destruct (split_on p t) as [|w ws] eqn:E; [exfalso; eapply split_on_nonnil; exact E|].
    exists w, ws. split; reflexivity.
  - cbn in H. apply andb_inv in H. destruct H as [H1 H2]. apply negb_true_iff in H1.
    destruct (IH H2) as [w [ws [E1 E2]]]. exists w, ws. split; [exact E1|].
    cbn [app split_on]. rewrite H1, E2. reflexivity.
Qed.
Lemma split_ws_prefix a t : is_token a = true -> exists w ws, split_ws (a ++ t) = (a ++ w) :: ws.
Proof.
  intro H. apply tokenE in H. destruct H as [H1 H2].
  destruct (split_on_prefix is_space a t H2) as [w [ws [_ E]]].
  unfold split_ws. rewrite E. cbn [filter]. destruct (a ++ w) as [|x y] eqn:F.
  - destruct a; [contradiction | discriminate F].
  - cbn [nonempty]. exists w, (filter nonempty ws). rewrite F. reflexivity.
Qed.

(** join *)
Lemma join_cons sep w ws : ws <> [] -> join sep (w :: ws) = w ++ sep ++ join sep ws.
Proof. destruct ws; [contradiction | reflexivity]. Qed.
Lemma join_flat sep w ws : join sep (w :: ws) = w ++ flat_map (fun x => sep ++ x) ws.
Proof.
  revert w. induction ws as [|v ws IH]; intro w; [cbn; rewrite app_nil_r; reflexivity|].
  rewrite join_cons by discriminate. rewrite IH. cbn [flat_map]. rewrite <- !app_assoc. reflexivity.
Qed.
Lemma join_app sep a b : a <> [] -> b <> [] -> join sep (a ++ b) = join sep a ++ sep ++ join sep b.
Proof.
  intros Ha Hb. induction a as [|w a IH]; [contradiction|].
  destruct a as [|w' a].
  - cbn [app]. rewrite join_cons by exact Hb. reflexivity.
  - cbn [app]. cbn [app] in IH. rewrite join_cons by discriminate. rewrite IH by discriminate.
    rewrite (join_cons sep w (w' :: a)) by discriminate. rewrite <- !app_assoc. reflexivity.
Qed.
Lemma join_words_noedge ws : forallb is_token ws = true -> no_edge_space (join [sp] ws) = true.
Proof.
  intro H. destruct ws as [|w ws]; [reflexivity|].
  unfold no_edge_space. apply andb_true_intro. split.
  - rewrite join_flat. cbn in H. apply andb_inv in H. destruct H as [H _].
    destruct (token_cons w H) as [c [t [-> Hc]]]. cbn. rewrite Hc. reflexivity.
  - destruct (exists_last (l := w :: ws)) as [a [z E]]; [discriminate|]. rewrite E in H |- *.
    rewrite forallb_app in H. apply andb_inv in H. destruct H as [_ H]. cbn in H. apply andb_inv in H.
    destruct H as [H _].
    assert (G : exists x, join [sp] (a ++ [z]) = x ++ z).
    { destruct a as [|y a]; [exists []; reflexivity|]. rewrite join_app by discriminate.
      exists (join [sp] (y :: a) ++ [sp]). rewrite <- app_assoc. reflexivity. }
    destruct G as [x ->]. rewrite rev_app_distr.
    apply tokenE in H. destruct H as [H1 H2]. rewrite <- forallb_rev in H2.
    destruct (rev z) as [|c t] eqn:Ez.
    + exfalso. apply H1. rewrite <- (rev_involutive z), Ez. reflexivity.
    + cbn. cbn in H2. apply andb_inv in H2. apply H2.
Qed.
Lemma split_ws_words ws : forallb is_token ws = true -> split_ws (join [sp] ws) = ws.
Proof. apply split_ws_join; [reflexivity | discriminate]. Qed.
Lemma split_sp_words ws : ws <> [] -> forallb is_token ws = true -> split_chr sp (join [sp] ws) = ws.
Proof.
  intros Hne H. apply split_chr_join; [exact Hne|]. rewrite forallb_forall in *. intros w Hw.
  apply negb_true_iff. apply not_true_is_false. intro C. apply mem_chr_iff in C. revert C.
  apply token_not_in; [apply H; exact Hw | reflexivity].
Qed.

(** Text made of lines separated (not terminated) by newlines: the last line must not be empty. *)
Lemma splitlines_join ls : forallb no_linebreak ls = true -> last ls [ch 0] <> [] ->
  splitlines (join [nl] ls) = ls.
Proof.
  unfold splitlines. induction ls as [|l ls IH]; intros H HL; [reflexivity|].
  cbn in H. apply andb_inv in H. destruct H as [H1 H2].
  destruct ls as [|l' ls].
  - cbn [join]. rewrite splitlines_aux_end by exact H1. cbn [rev app]. cbn in HL.
    destruct l; [contradiction | reflexivity].
  - rewrite join_cons by discriminate. cbn [app].
    rewrite splitlines_aux_line by exact H1. cbn [rev app]. f_equal. apply IH; [exact H2|]. exact HL.
Qed.
