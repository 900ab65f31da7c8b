(** Lemmas about the python primitives of [Py.v]. *)
From Verif Require Export Py.
From Coq Require Decimal DecimalN DecimalFacts.

Lemma Ok_inj {A} (a b : A) : Ok a = Ok b -> a = b.
Proof. intro H. injection H. trivial. Qed.

Lemma chr_eqb_eq a b : chr_eqb a b = true <-> a = b.
Proof. unfold chr_eqb. apply Ascii.eqb_eq. Qed.
Lemma chr_eqb_spec a b : reflect (a = b) (chr_eqb a b).
Proof. apply Ascii.eqb_spec. Qed.
Lemma chr_eqb_refl a : chr_eqb a a = true.
Proof. apply chr_eqb_eq. reflexivity. Qed.
Lemma chr_eqb_neq a b : chr_eqb a b = false <-> a <> b.
Proof. unfold chr_eqb. apply Ascii.eqb_neq. Qed.

Lemma str_eqb_eq a b : str_eqb a b = true <-> a = b.
Proof.
  revert b. induction a as [|x a IH]; intros [|y b]; cbn [str_eqb]; split; intro H; try discriminate; try reflexivity.
  - apply andb_prop in H. destruct H as [H1 H2]. apply chr_eqb_eq in H1. apply IH in H2. congruence.
  - injection H as -> ->. rewrite chr_eqb_refl. cbn. apply IH. reflexivity.
Qed.
Lemma str_eqb_refl a : str_eqb a a = true.
Proof. apply str_eqb_eq. reflexivity. Qed.
Lemma str_eqb_neq a b : str_eqb a b = false <-> a <> b.
Proof.
  split; intro H.
  - intro E. apply str_eqb_eq in E. congruence.
  - destruct (str_eqb a b) eqn:E; [|reflexivity]. apply str_eqb_eq in E. contradiction.
Qed.
Lemma str_eqb_sym a b : str_eqb a b = str_eqb b a.
Proof.
  destruct (str_eqb a b) eqn:E.
  - apply str_eqb_eq in E. subst. symmetry. apply str_eqb_refl.
  - symmetry. apply str_eqb_neq. apply str_eqb_neq in E. congruence.
Qed.
Lemma str_eq_dec (a b : str) : {a = b} + {a <> b}.
Proof. destruct (str_eqb a b) eqn:E; [left; apply str_eqb_eq; exact E | right; apply str_eqb_neq; exact E]. Qed.

Lemma exn_eqb_eq a b : exn_eqb a b = true <-> a = b.
Proof. split; [destruct a, b; cbn; intro H; try discriminate; reflexivity | intros ->; destruct b; reflexivity]. Qed.

(** ** A finite sweep over the 256 characters *)
Definition all_chars : list ascii := map ascii_of_nat (seq 0 256).
Lemma all_chars_complete c : In c all_chars.
Proof.
  unfold all_chars. apply in_map_iff. exists (nat_of_ascii c). split.
  - apply ascii_nat_embedding.
  - apply in_seq. pose proof (nat_ascii_bounded c). lia.
Qed.
Lemma char_sweep (P : ascii -> bool) : forallb P all_chars = true -> forall c, P c = true.
Proof. intros H c. rewrite forallb_forall in H. apply H. apply all_chars_complete. Qed.

Lemma ord_ch n : n < 256 -> ord (ch n) = n.
Proof. intro H. unfold ord, ch. apply nat_ascii_embedding. exact H. Qed.
Lemma ch_ord c : ch (ord c) = c.
Proof. apply ascii_nat_embedding. Qed.
Lemma ord_lt c : ord c < 256.
Proof. apply nat_ascii_bounded. Qed.

(** ** lower / upper *)
Lemma lower_c_idem c : lower_c (lower_c c) = lower_c c.
Proof.
  apply chr_eqb_eq. revert c. apply (char_sweep (fun c => chr_eqb (lower_c (lower_c c)) (lower_c c))).
  vm_compute. reflexivity.
Qed.
Lemma lower_idem s : lower (lower s) = lower s.
Proof. unfold lower. rewrite map_map. apply map_ext. apply lower_c_idem. Qed.
Lemma lower_upper_c c : lower_c (upper_c c) = lower_c c.
Proof.
  apply chr_eqb_eq. revert c. apply (char_sweep (fun c => chr_eqb (lower_c (upper_c c)) (lower_c c))).
  vm_compute. reflexivity.
Qed.
Lemma lower_upper s : lower (upper s) = lower s.
Proof. unfold lower, upper. rewrite map_map. apply map_ext. apply lower_upper_c. Qed.
Lemma lower_app a b : lower (a ++ b) = lower a ++ lower b.
Proof. apply map_app. Qed.
Lemma lower_length a : List.length (lower a) = List.length a.
Proof. apply map_length. Qed.

(** ** startswith / contains *)
Lemma startswith_iff s p : startswith s p = true <-> exists t, s = p ++ t.
Proof.
  revert s. induction p as [|y p IH]; intros s; cbn [startswith].
  - split; [exists s; reflexivity | reflexivity].
  - destruct s as [|x s].
    + split; [discriminate | intros [t Ht]; discriminate].
    + rewrite andb_true_iff, chr_eqb_eq, IH. split.
      * intros [-> [t ->]]. exists t. reflexivity.
      * intros [t Ht]. injection Ht as -> ->. split; [reflexivity | exists t; reflexivity].
Qed.
Lemma startswith_app p t : startswith (p ++ t) p = true.
Proof. apply startswith_iff. exists t. reflexivity. Qed.

Lemma contains_iff s sub : contains s sub = true <-> exists a b, s = a ++ sub ++ b.
Proof.
  induction s as [|x s IH]; cbn [contains]; rewrite orb_true_iff, startswith_iff.
  - split.
    + intros [[t Ht]|H]; [exists [], t; exact Ht | discriminate].
    + intros [a [b H]]. symmetry in H. apply app_eq_nil in H. destruct H as [-> H].
      left. exists b. symmetry. exact H.
  - rewrite IH. split.
    + intros [[t Ht]|[a [b H]]].
      * exists [], t. exact Ht.
      * exists (x :: a), b. cbn. congruence.
    + intros [[|y a] [b H]].
      * left. exists b. exact H.
      * right. cbn in H. injection H as -> H. exists a, b. exact H.
Qed.

Lemma mem_chr_iff c s : mem_chr c s = true <-> In c s.
Proof.
  unfold mem_chr. rewrite existsb_exists. split.
  - intros [x [H1 H2]]. apply chr_eqb_eq in H2. congruence.
  - intro H. exists c. split; [exact H | apply chr_eqb_refl].
Qed.

(** ** strip *)
Lemma lstrip_app_nonblank s t : forallb is_space s = true -> lstrip (s ++ t) = lstrip t.
Proof.
  induction s as [|c s IH]; cbn; intro H; [reflexivity|].
  apply andb_prop in H. destruct H as [H1 H2]. rewrite H1. apply IH. exact H2.
Qed.
Lemma lstrip_blank s : forallb is_space s = true -> lstrip s = [].
Proof. intro H. rewrite <- (app_nil_r s). rewrite lstrip_app_nonblank by exact H. reflexivity. Qed.
Lemma lstrip_head c s : is_space c = false -> lstrip (c :: s) = c :: s.
Proof. intro H. cbn. rewrite H. reflexivity. Qed.
Lemma lstrip_decomp s : exists b, forallb is_space b = true /\ s = b ++ lstrip s.
Proof.
  induction s as [|c s IH]; cbn.
  - exists []. split; reflexivity.
  - destruct (is_space c) eqn:E.
    + destruct IH as [b [H1 H2]]. exists (c :: b). split; [cbn; rewrite E; exact H1 | cbn; congruence].
    + exists []. split; reflexivity.
Qed.
Lemma lstrip_nil_or_head s : lstrip s = [] \/ exists c t, lstrip s = c :: t /\ is_space c = false.
Proof.
  induction s as [|c s IH]; cbn; [left; reflexivity|].
  destruct (is_space c) eqn:E; [exact IH|]. right. exists c, s. split; [reflexivity | exact E].
Qed.
Lemma lstrip_idem s : lstrip (lstrip s) = lstrip s.
Proof.
  destruct (lstrip_nil_or_head s) as [H|[c [t [H E]]]]; rewrite H; [reflexivity|].
  apply lstrip_head. exact E.
Qed.
Lemma forallb_rev {A} (f : A -> bool) l : forallb f (rev l) = forallb f l.
Proof.
  induction l as [|x l IH]; cbn; [reflexivity|].
  rewrite forallb_app. cbn. rewrite IH, andb_true_r. apply andb_comm.
Qed.
Lemma rstrip_app_blank s t : forallb is_space t = true -> rstrip (s ++ t) = rstrip s.
Proof.
  intro H. unfold rstrip. rewrite rev_app_distr, lstrip_app_nonblank; [reflexivity|].
  rewrite forallb_rev. exact H.
Qed.
Lemma rstrip_blank s : forallb is_space s = true -> rstrip s = [].
Proof. intro H. unfold rstrip. rewrite lstrip_blank; [reflexivity|]. rewrite forallb_rev. exact H. Qed.
Lemma rstrip_last s c : is_space c = false -> rstrip (s ++ [c]) = s ++ [c].
Proof.
  intro H. unfold rstrip. rewrite rev_app_distr. cbn [rev app]. rewrite lstrip_head by exact H.
  cbn [rev]. rewrite rev_involutive. reflexivity.
Qed.
Lemma rstrip_idem s : rstrip (rstrip s) = rstrip s.
Proof. unfold rstrip. rewrite rev_involutive, lstrip_idem. reflexivity. Qed.
Lemma rstrip_decomp s : exists b, forallb is_space b = true /\ s = rstrip s ++ b.
Proof.
  destruct (lstrip_decomp (rev s)) as [b [H1 H2]]. exists (rev b). split.
  - rewrite forallb_rev. exact H1.
  - unfold rstrip. rewrite <- rev_app_distr, <- H2, rev_involutive. reflexivity.
Qed.
Lemma strip_blank s : forallb is_space s = true -> strip s = [].
Proof. intro H. unfold strip. rewrite lstrip_blank by exact H. reflexivity. Qed.

(** A string with no blank at either end. *)
Definition no_edge_space (s : str) : bool :=
  match s with [] => true | c :: _ => negb (is_space c) end &&
  match rev s with [] => true | c :: _ => negb (is_space c) end.

Lemma lstrip_noedge s : match s with [] => true | c :: _ => negb (is_space c) end = true -> lstrip s = s.
Proof. destruct s as [|c s]; intro H; [reflexivity|]. apply lstrip_head. apply negb_true_iff. exact H. Qed.
Lemma strip_noedge s : no_edge_space s = true -> strip s = s.
Proof.
  intro H. unfold no_edge_space in H. apply andb_prop in H. destruct H as [H1 H2].
  unfold strip, rstrip. rewrite (lstrip_noedge s H1), (lstrip_noedge (rev s) H2). apply rev_involutive.
Qed.
Lemma strip_pad a s b : forallb is_space a = true -> forallb is_space b = true ->
  strip (a ++ s ++ b) = strip s.
Proof.
  intros Ha Hb. unfold strip. rewrite lstrip_app_nonblank by exact Ha.
  destruct (forallb is_space s) eqn:Es.
  - rewrite (lstrip_blank s Es). rewrite lstrip_blank; [reflexivity|]. rewrite forallb_app, Es. exact Hb.
  - assert (Hl : lstrip (s ++ b) = lstrip s ++ b).
    { clear Ha. induction s as [|c s IH]; cbn in *; [discriminate|].
      destruct (is_space c) eqn:Ec; [|reflexivity]. apply IH. exact Es. }
    rewrite Hl. apply rstrip_app_blank. exact Hb.
Qed.
Lemma strip_no_edge s : no_edge_space (strip s) = true.
Proof.
  unfold no_edge_space, strip. apply andb_true_intro. split.
  - unfold rstrip. destruct (lstrip_nil_or_head (rev (lstrip s))) as [H|[c [t [H E]]]].
    + rewrite H. reflexivity.
    + destruct (rev (lstrip (rev (lstrip s)))) as [|d u] eqn:Eu; [reflexivity|].
      destruct (rstrip_decomp (lstrip s)) as [b [Hb1 Hb2]]. unfold rstrip in Hb2. rewrite Eu in Hb2.
      destruct (lstrip_nil_or_head s) as [H0|[c0 [t0 [H0 E0]]]].
      * rewrite H0 in Hb2. discriminate.
      * rewrite H0 in Hb2. cbn in Hb2. injection Hb2 as Hc _. rewrite <- Hc, E0. reflexivity.
  - unfold rstrip. rewrite rev_involutive.
    destruct (lstrip_nil_or_head (rev (lstrip s))) as [H|[c [t [H E]]]]; rewrite H; [reflexivity|].
    rewrite E. reflexivity.
Qed.
Lemma strip_idem s : strip (strip s) = strip s.
Proof. apply strip_noedge. apply strip_no_edge. Qed.

(** ** split / join *)
Lemma split_on_nonnil p s : split_on p s <> [].
Proof.
  induction s as [|c s IH]; cbn; [discriminate|].
  destruct (p c); [discriminate|]. destruct (split_on p s); discriminate.
Qed.

Lemma split_on_app_sep p a c b : forallb (fun x => negb (p x)) a = true -> p c = true ->
  split_on p (a ++ c :: b) = a :: split_on p b.
Proof.
  intros Ha Hc. induction a as [|x a IH]; cbn.
  - rewrite Hc. reflexivity.
  - cbn in Ha. apply andb_prop in Ha. destruct Ha as [H1 H2]. apply negb_true_iff in H1. rewrite H1.
    rewrite IH by exact H2. reflexivity.
Qed.
Lemma split_on_none p a : forallb (fun x => negb (p x)) a = true -> split_on p a = [a].
Proof.
  intro Ha. induction a as [|x a IH]; cbn; [reflexivity|].
  cbn in Ha. apply andb_prop in Ha. destruct Ha as [H1 H2]. apply negb_true_iff in H1. rewrite H1.
  rewrite IH by exact H2. reflexivity.
Qed.
(** Splitting at an arbitrary separator splits the list of pieces. *)
Lemma split_on_app p a c b : p c = true ->
  split_on p (a ++ c :: b) = split_on p a ++ split_on p b.
Proof.
  intro Hc. induction a as [|x a IH]; cbn [app split_on].
  - rewrite Hc. reflexivity.
  - rewrite IH. destruct (p x); [reflexivity|].
    destruct (split_on p a) as [|w ws] eqn:E; [exfalso; eapply split_on_nonnil; exact E|]. reflexivity.
Qed.

(** Tokens: non-empty, no blank inside. *)
Definition is_token (s : str) : bool := nonempty s && forallb (fun c => negb (is_space c)) s.

Lemma split_ws_token s : is_token s = true -> split_ws s = [s].
Proof.
  intro H. unfold is_token in H. apply andb_prop in H. destruct H as [H1 H2].
  unfold split_ws. rewrite split_on_none by exact H2. cbn. rewrite H1. reflexivity.
Qed.
Lemma split_ws_blank_cons c s : is_space c = true -> split_ws (c :: s) = split_ws s.
Proof. intro H. unfold split_ws. cbn. rewrite H. reflexivity. Qed.
Lemma split_ws_app a c b : is_space c = true -> split_ws (a ++ c :: b) = split_ws a ++ split_ws b.
Proof. intro H. unfold split_ws. rewrite split_on_app by exact H. apply filter_app. Qed.
Lemma split_ws_blank s : forallb is_space s = true -> split_ws s = [].
Proof.
  induction s as [|c s IH]; intro H; [reflexivity|]. cbn in H. apply andb_prop in H. destruct H as [H1 H2].
  rewrite split_ws_blank_cons by exact H1. apply IH. exact H2.
Qed.
Lemma split_ws_lpad b s : forallb is_space b = true -> split_ws (b ++ s) = split_ws s.
Proof.
  intro H. induction b as [|c b IH]; [reflexivity|]. cbn in H. apply andb_prop in H. destruct H as [H1 H2].
  cbn [app]. rewrite split_ws_blank_cons by exact H1. apply IH. exact H2.
Qed.
Lemma split_ws_rpad s b : forallb is_space b = true -> split_ws (s ++ b) = split_ws s.
Proof.
  intro H. destruct b as [|c b]; [rewrite app_nil_r; reflexivity|].
  cbn in H. apply andb_prop in H. destruct H as [H1 H2].
  rewrite split_ws_app by exact H1. rewrite (split_ws_blank b H2). apply app_nil_r.
Qed.
Lemma split_ws_strip s : split_ws (strip s) = split_ws s.
Proof.
  unfold strip. destruct (rstrip_decomp (lstrip s)) as [b [Hb1 Hb2]].
  destruct (lstrip_decomp s) as [a [Ha1 Ha2]].
  rewrite Ha2 at 2. rewrite split_ws_lpad by exact Ha1. rewrite Hb2 at 2.
  rewrite split_ws_rpad by exact Hb1. reflexivity.
Qed.
Lemma split_ws_tokens s : forallb is_token (split_ws s) = true.
Proof.
  unfold split_ws. rewrite forallb_forall. intros w Hw. apply filter_In in Hw. destruct Hw as [Hin Hne].
  unfold is_token. rewrite Hne. cbn.
  assert (G : forall s w, In w (split_on is_space s) -> forallb (fun c => negb (is_space c)) w = true).
  { clear. induction s as [|c s IH]; cbn; intros w Hw.
    - destruct Hw as [<-|[]]. reflexivity.
    - destruct (is_space c) eqn:E.
      + destruct Hw as [<-|Hw]; [reflexivity|]. apply IH. exact Hw.
      + destruct (split_on is_space s) as [|v vs].
        * destruct Hw as [<-|[]]. cbn. rewrite E. reflexivity.
        * destruct Hw as [<-|Hw].
          -- cbn. rewrite E. cbn. apply IH. left. reflexivity.
          -- apply IH. right. exact Hw. }
  apply (G s). exact Hin.
Qed.
(** [' '.join(ws).split() = ws] for tokens; the separator may be any non-empty run of blanks. *)
Lemma split_ws_join sep ws : forallb is_space sep = true -> sep <> [] ->
  forallb is_token ws = true -> split_ws (join sep ws) = ws.
Proof.
  intros Hs Hne. induction ws as [|w ws IH]; intro H; [reflexivity|].
  cbn in H. apply andb_prop in H. destruct H as [H1 H2].
  destruct ws as [|w' ws].
  - cbn. apply split_ws_token. exact H1.
  - cbn [join]. destruct sep as [|c sep]; [contradiction|]. cbn in Hs. apply andb_prop in Hs.
    destruct Hs as [Hc Hs]. cbn [app]. rewrite split_ws_app by exact Hc.
    rewrite split_ws_token by exact H1. rewrite split_ws_lpad by exact Hs.
    cbn [app]. f_equal. apply IH. exact H2.
Qed.

Lemma split_chr_join c ws : ws <> [] ->
  forallb (fun w => negb (mem_chr c w)) ws = true ->
  split_chr c (join [c] ws) = ws.
Proof.
  intros Hne H. induction ws as [|w ws IH]; [contradiction|].
  cbn in H. apply andb_prop in H. destruct H as [H1 H2].
  assert (Hw : forallb (fun x => negb (chr_eqb x c)) w = true).
  { rewrite forallb_forall. intros x Hx. apply negb_true_iff. apply chr_eqb_neq. intros ->.
    apply negb_true_iff in H1. assert (mem_chr c w = true) by (apply mem_chr_iff; exact Hx). congruence. }
  destruct ws as [|w' ws].
  - cbn. apply split_on_none. exact Hw.
  - cbn [join app]. unfold split_chr. rewrite split_on_app_sep; [|exact Hw|apply chr_eqb_refl].
    f_equal. apply IH; [discriminate | exact H2].
Qed.

(** ** splitlines *)
Definition no_linebreak (s : str) : bool := forallb (fun c => negb (is_linebreak c)) s.
Lemma linebreak_13 c : is_linebreak c = false -> Nat.eqb (ord c) 13 = false.
Proof.
  revert c.
  assert (H : forall c, (is_linebreak c || negb (Nat.eqb (ord c) 13)) = true).
  { apply char_sweep. vm_compute. reflexivity. }
  intros c E. specialize (H c). rewrite E in H. cbn in H. apply negb_true_iff. exact H.
Qed.
Lemma splitlines_aux_line acc l t : no_linebreak l = true ->
  splitlines_aux acc (l ++ nl :: t) = (rev acc ++ l) :: splitlines_aux [] t.
Proof.
  revert acc. induction l as [|c l IH]; intros acc H.
  - cbn. rewrite app_nil_r. reflexivity.
  - cbn in H. apply andb_prop in H. destruct H as [H1 H2]. apply negb_true_iff in H1.
    cbn [app splitlines_aux]. rewrite (linebreak_13 c H1), H1, IH by exact H2. cbn [rev].
    rewrite <- app_assoc. reflexivity.
Qed.
(** Text made of newline-terminated lines splits back into its lines. *)
Lemma splitlines_unlines ls : forallb no_linebreak ls = true ->
  splitlines (flat_map (fun l => l ++ [nl]) ls) = ls.
Proof.
  unfold splitlines. induction ls as [|l ls IH]; intro H; [reflexivity|].
  cbn in H. apply andb_prop in H. destruct H as [H1 H2].
  cbn [flat_map]. rewrite <- app_assoc. cbn [app]. rewrite splitlines_aux_line by exact H1.
  cbn [rev app]. f_equal. apply IH. exact H2.
Qed.
Lemma splitlines_aux_end acc l : no_linebreak l = true ->
  splitlines_aux acc l = match rev acc ++ l with [] => [] | s => [s] end.
Proof.
  revert acc. induction l as [|c l IH]; intros acc H.
  - cbn. rewrite app_nil_r. destruct acc as [|a acc]; [reflexivity|].
    cbn [rev]. destruct (rev acc ++ [a]) eqn:E; [|reflexivity]. destruct (rev acc); discriminate.
  - cbn in H. apply andb_prop in H. destruct H as [H1 H2]. apply negb_true_iff in H1.
    cbn [splitlines_aux]. rewrite (linebreak_13 c H1), H1, IH by exact H2. cbn [rev].
    rewrite <- app_assoc. reflexivity.
Qed.

(** ** Decimal integers *)
Lemma uint_of_str_of_uint d : uint_of_str (str_of_uint d) = Some d.
Proof. induction d; cbn [str_of_uint uint_of_str]; try rewrite IHd; reflexivity. Qed.
Lemma str_of_uint_digits d : forallb is_digit (str_of_uint d) = true.
Proof. induction d; cbn [str_of_uint forallb]; try rewrite IHd; reflexivity. Qed.
Lemma str_of_N_nonempty n : str_of_N n <> [].
Proof.
  unfold str_of_N. intro H. destruct (N.to_uint n) eqn:E; try discriminate H.
  pose proof (f_equal N.of_uint E) as E'. rewrite DecimalN.Unsigned.of_to in E'. cbn in E'. subst n. discriminate E.
Qed.
Lemma N_of_str_of_N n : N_of_str (str_of_N n) = Some n.
Proof.
  unfold N_of_str. destruct (str_of_N n) as [|c s] eqn:E; [exfalso; eapply str_of_N_nonempty; exact E|].
  rewrite <- E. unfold str_of_N. rewrite uint_of_str_of_uint, DecimalN.Unsigned.of_to. reflexivity.
Qed.
Lemma str_of_N_digits n : forallb is_digit (str_of_N n) = true.
Proof. apply str_of_uint_digits. Qed.
Lemma digit_not_space c : is_digit c = true -> is_space c = false.
Proof.
  intro H. assert (G : forall c, negb (is_digit c) || negb (is_space c) = true).
  { apply char_sweep. vm_compute. reflexivity. }
  specialize (G c). rewrite H in G. cbn in G. apply negb_true_iff. exact G.
Qed.
Lemma digits_no_space s : forallb is_digit s = true -> forallb (fun c => negb (is_space c)) s = true.
Proof.
  intro H. rewrite forallb_forall in *. intros c Hc. rewrite digit_not_space; [reflexivity|]. apply H. exact Hc.
Qed.
Lemma no_space_no_edge s : forallb (fun c => negb (is_space c)) s = true -> no_edge_space s = true.
Proof.
  intro H. unfold no_edge_space. apply andb_true_intro. split.
  - destruct s as [|c s]; [reflexivity|]. cbn in H. apply andb_prop in H. apply H.
  - rewrite <- forallb_rev in H. destruct (rev s) as [|c t]; [reflexivity|]. cbn in H. apply andb_prop in H. apply H.
Qed.
Lemma str_of_N_token n : is_token (str_of_N n) = true.
Proof.
  unfold is_token. rewrite digits_no_space by apply str_of_N_digits. rewrite andb_true_r.
  destruct (str_of_N n) eqn:E; [exfalso; eapply str_of_N_nonempty; exact E | reflexivity].
Qed.
Lemma str_of_Z_token z : is_token (str_of_Z z) = true.
Proof.
  destruct z as [|p|p]; cbn [str_of_Z]; try apply str_of_N_token.
  unfold is_token. cbn [nonempty forallb]. rewrite digits_no_space by apply str_of_N_digits. reflexivity.
Qed.
Lemma token_strip s : is_token s = true -> strip s = s.
Proof.
  intro H. apply strip_noedge. apply no_space_no_edge. unfold is_token in H. apply andb_prop in H. apply H.
Qed.
Lemma int_str_of_Z z : int_ (str_of_Z z) = Ok z.
Proof.
  unfold int_. rewrite token_strip by apply str_of_Z_token.
  assert (G : forall n, match str_of_N n with
          | [] => Err ValueError
          | c :: t => if chr_eqb c (ch 45)
              then match N_of_str t with Some n => Ok (- Z.of_N n)%Z | None => Err ValueError end
              else if chr_eqb c (ch 43)
              then match N_of_str t with Some n => Ok (Z.of_N n) | None => Err ValueError end
              else match N_of_str (c :: t) with Some n => Ok (Z.of_N n) | None => Err ValueError end
          end = Ok (Z.of_N n)).
  { intro n. pose proof (N_of_str_of_N n) as H. pose proof (str_of_N_digits n) as Hd.
    destruct (str_of_N n) as [|c s] eqn:E; [discriminate H|].
    cbn [forallb] in Hd. apply andb_prop in Hd. destruct Hd as [Hd _].
    assert (K : forall c, negb (is_digit c) || (negb (chr_eqb c (ch 45)) && negb (chr_eqb c (ch 43))) = true).
    { apply char_sweep. vm_compute. reflexivity. }
    specialize (K c). rewrite Hd in K. rewrite orb_false_l in K. apply andb_prop in K. destruct K as [K1 K2].
    apply negb_true_iff in K1. apply negb_true_iff in K2.
    rewrite K1, K2, H. reflexivity. }
  destruct z as [|p|p]; cbn [str_of_Z].
  - apply (G 0%N).
  - specialize (G (Npos p)). cbn in G. exact G.
  - cbn [strip]. rewrite chr_eqb_refl. rewrite N_of_str_of_N. reflexivity.
Qed.
