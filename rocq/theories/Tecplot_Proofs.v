(** Lemmas about the Tecplot model. *)
From Verif Require Import Py PyFacts TextFacts FS TurbSim_Model Dict Tecplot_Model.
Local Open Scope nat_scope.
Local Notation get := Dict.get.

(** ** Substring replacement *)
Lemma startswith_pre s p : startswith s p = true -> firstn (List.length p) s = p.
Proof. intro H. apply startswith_iff in H. destruct H as [t ->]. rewrite firstn_app, Nat.sub_diag, firstn_all. apply app_nil_r. Qed.
Lemma repl_absent pat rep s : contains s pat = false -> repl pat rep 0 s = s.
Proof.
  induction s as [|c s IH]; intro H; [reflexivity|]. cbn [repl]. cbn [contains] in H. apply orb_false_iff in H. destruct H as [H1 H2].
  rewrite H1, IH by exact H2. reflexivity.
Qed.

(** ** Adjacent characters *)
Fixpoint adj (R : ascii -> ascii -> bool) (prev : ascii) (s : str) : bool :=
  match s with [] => true | c :: s' => R prev c && adj R c s' end.
Lemma adj_app R p a b : adj R p (a ++ b) = adj R p a && adj R (last a p) b.
Proof.
  revert p. induction a as [|x a IH]; intro p; [reflexivity|]. cbn [app adj]. rewrite IH, andb_assoc. f_equal.
  f_equal. destruct a as [|y a']; [reflexivity|]. change (last (x :: y :: a') p) with (last (y :: a') p).
  clear. revert y. induction a' as [|z a' IH]; intro y; [reflexivity|]. change (last (z :: a') x = last (z :: a') p). apply IH.
Qed.
Lemma adj_imp (R R' : ascii -> ascii -> bool) p s : (forall x y, R x y = true -> R' x y = true) -> adj R p s = true -> adj R' p s = true.
Proof.
  intro H. revert p. induction s as [|c s IH]; intro p; [reflexivity|]. cbn [adj]. intro K. apply andb_inv in K. destruct K as [K1 K2].
  rewrite (H _ _ K1), (IH _ K2). reflexivity.
Qed.
(** No character twice in a row *)
Lemma adj_no_double x p s : adj (fun a b => negb (chr_eqb a x && chr_eqb b x)) p s = true -> contains s [x; x] = false.
Proof.
  revert p. induction s as [|c s IH]; intros p H; [reflexivity|]. cbn [adj] in H. apply andb_inv in H. destruct H as [_ H].
  cbn [contains]. rewrite (IH _ H), orb_false_r. cbn [startswith]. destruct s as [|c' s']; [apply andb_false_r|].
  cbn [adj] in H. apply andb_inv in H. destruct H as [H _]. apply negb_true_iff in H. rewrite andb_true_r. exact H.
Qed.

(** ** Brackets *)
Definition und : ascii := ch 95.
Definition br (c : ascii) : bool := chr_eqb c (ch 91) || chr_eqb c (ch 40).
Definition bump (s : str) : str := flat_map (fun c => if br c then [und; c] else [c]) s.
Definition Rbr (x y : ascii) : bool := negb (chr_eqb x und && chr_eqb y und) && (negb (br y) || chr_eqb x und).
Lemma br_und c : br c = true -> chr_eqb c und = false.
Proof. unfold br. intro H. apply orb_prop in H. destruct H as [H|H]; apply chr_eqb_eq in H; subst c; reflexivity. Qed.
Lemma bump_two s : replace_chr (ch 40) (S_ "_(") (replace_chr (ch 91) (S_ "_[") s) = bump s.
Proof.
  induction s as [|c s IH]; [reflexivity|]. unfold replace_chr, bump in *. cbn [flat_map]. rewrite flat_map_app, IH. f_equal. unfold br.
  destruct (chr_eqb c (ch 91)) eqn:E.
  - apply chr_eqb_eq in E. subst c. reflexivity.
  - cbn [orb flat_map]. destruct (chr_eqb c (ch 40)) eqn:F; [|reflexivity]. apply chr_eqb_eq in F. subst c. reflexivity.
Qed.
Lemma repl_bump n : forall s p, List.length s <= n -> chr_eqb p und = false -> adj Rbr p s = true -> repl (S_ "__") (S_ "_") 0 (bump s) = s.
Proof.
  induction n as [|n IH]; intros s p L P A; destruct s as [|c s]; try reflexivity; [cbn in L; lia|].
  cbn [List.length] in L. cbn [adj] in A. apply andb_inv in A. destruct A as [A1 A2]. unfold Rbr in A1. rewrite P in A1. cbn [andb negb] in A1.
  rewrite orb_false_r in A1. apply negb_true_iff in A1.
  unfold bump. cbn [flat_map]. rewrite A1. fold (bump s). cbn [app].
  destruct (chr_eqb c und) eqn:U.
  - apply chr_eqb_eq in U. subst c. destruct s as [|c' s']; [reflexivity|].
    cbn [adj] in A2. apply andb_inv in A2. destruct A2 as [A3 A4]. unfold Rbr in A3. rewrite chr_eqb_refl in A3. cbn [andb] in A3. rewrite orb_true_r, andb_true_r in A3.
    apply negb_true_iff in A3. cbn [List.length] in L.
    unfold bump. cbn [flat_map]. destruct (br c') eqn:B.
    + fold (bump s'). cbn [app]. change (S_ "__") with [und; und]. cbn [repl startswith List.length Nat.sub]. rewrite !chr_eqb_refl, A3. cbn [andb].
      change (S_ "_") with [und]. cbn [app]. do 2 f_equal.
      apply (IH s' c'); [lia|exact A3|exact A4].
    + fold (bump s'). cbn [app]. change (S_ "__") with [und; und]. cbn [repl startswith]. rewrite A3, !andb_false_r. cbn [andb]. do 2 f_equal.
      apply (IH s' c'); [lia|exact A3|exact A4].
  - cbn [repl]. change (S_ "__") with [und; und]. cbn [startswith]. rewrite U. cbn [andb]. f_equal. apply (IH s c); [lia|exact U|exact A2].
Qed.

(** ** Removing and replacing characters *)
Lemma replace_chr_absent c r s : ~ In c s -> replace_chr c r s = s.
Proof.
  induction s as [|x s IH]; intro H; [reflexivity|]. unfold replace_chr in *. cbn [flat_map].
  destruct (chr_eqb x c) eqn:E; [apply chr_eqb_eq in E; subst x; elim H; now left|]. cbn [app]. f_equal. apply IH. intro K. apply H. now right.
Qed.
Lemma replace_chr_app c r a b : replace_chr c r (a ++ b) = replace_chr c r a ++ replace_chr c r b.
Proof. apply flat_map_app. Qed.
Lemma last_app_one {A} (l : list A) x d : last (l ++ [x]) d = x.
Proof. induction l as [|a l IH]; [reflexivity|]. cbn [app last]. destruct (l ++ [x]) eqn:E; [destruct l; discriminate|exact IH]. Qed.

(** ** The line of the variables *)
Definition q2 := quote2.
Definition quoted (v : str) : str := [q2] ++ v ++ [q2].
(** what a name may contain *)
Definition Rname (x y : ascii) : bool :=
  negb (chr_eqb x sp && chr_eqb y sp) && negb (chr_eqb x und && chr_eqb y und) && (negb (br y) || chr_eqb x und).
Definition plain_name (v : str) : Prop := ~ In q2 v /\ ~ In (ch 44) v /\ ~ In (ch 61) v /\ adj Rname q2 v = true /\ startswith v [sp] = false.
Lemma Rname_q x : Rname x q2 = true.
Proof. unfold Rname. change (chr_eqb q2 sp) with false. change (chr_eqb q2 und) with false. change (br q2) with false. rewrite !andb_false_r. reflexivity. Qed.
Lemma join_quoted_adj vs p : Forall plain_name vs -> adj Rname p (join [sp] (map quoted vs)) = true.
Proof.
  revert p. induction vs as [|v vs IH]; intros p H; [reflexivity|]. inversion H as [|? ? H1 H2]; subst.
  assert (Q : forall p', adj Rname p' (quoted v) = true).
  { intro p'. unfold quoted. rewrite adj_app. cbn [adj]. rewrite Rname_q. cbn [andb last].
    rewrite adj_app. destruct H1 as (_&_&_&A&_). rewrite A. cbn [adj andb]. rewrite Rname_q. reflexivity. }
  destruct vs as [|v' vs']; [apply Q|]. cbn [map]. rewrite join_cons by discriminate. rewrite adj_app, Q. cbn [andb].
  change (quoted v' :: map quoted vs') with (map quoted (v' :: vs')). rewrite adj_app.
  assert (LQ : last (quoted v) p = q2) by (unfold quoted; rewrite app_assoc; apply last_app_one). rewrite LQ.
  change (adj Rname q2 [sp]) with true. cbn [andb last]. apply IH. exact H2.
Qed.
Lemma join_ends vs : vs <> [] -> exists s, join [sp] (map quoted vs) = q2 :: s ++ [q2] .
Proof.
  induction vs as [|v vs IH]; intro H; [congruence|]. destruct vs as [|v' vs'].
  - exists v. reflexivity.
  - destruct IH as (s & E); [discriminate|]. cbn [map] in *. rewrite join_cons by discriminate. rewrite E. exists (v ++ [q2] ++ [sp] ++ [q2] ++ s).
    unfold quoted. cbn [app]. f_equal. rewrite <- !app_assoc. reflexivity.
Qed.
Lemma strip_quotes s : strip (q2 :: s ++ [q2]) = q2 :: s ++ [q2].
Proof.
  apply strip_noedge. unfold no_edge_space. change (is_space q2) with false. cbn [negb andb].
  change (q2 :: s ++ [q2]) with ((q2 :: s) ++ [q2]). rewrite rev_app_distr. reflexivity.
Qed.
(** a text between quotes stays so *)
Lemma flat_quotes (g : ascii -> str) s : g q2 = [q2] -> flat_map g (q2 :: s ++ [q2]) = q2 :: flat_map g s ++ [q2].
Proof. intro G. cbn [flat_map]. rewrite flat_map_app, G. cbn [flat_map]. rewrite G. reflexivity. Qed.
(** '" "' becomes a comma *)
Lemma repl_name v rest : ~ In q2 v -> repl [q2; sp; q2] (S_ ",") 0 (v ++ rest) = v ++ repl [q2; sp; q2] (S_ ",") 0 rest.
Proof.
  induction v as [|c v IH]; intro H; [reflexivity|]. cbn [app repl startswith].
  destruct (chr_eqb c q2) eqn:E; [apply chr_eqb_eq in E; subst c; elim H; now left|]. cbn [andb]. f_equal. apply IH. intro K. apply H. now right.
Qed.
Lemma repl_quoted vs : vs <> [] -> Forall plain_name vs -> repl [q2; sp; q2] (S_ ",") 0 (join [sp] (map quoted vs)) = q2 :: join (S_ ",") vs ++ [q2].
Proof.
  assert (G : forall v vs', Forall plain_name (v :: vs') -> repl [q2; sp; q2] (S_ ",") 0 (v ++ [q2] ++ flat_map (fun x => [sp] ++ quoted x) vs') = join (S_ ",") (v :: vs') ++ [q2]).
  { intros v vs'. revert v. induction vs' as [|v' vs' IH]; intros v H; inversion H as [|? ? H1 H2]; subst.
    - cbn [flat_map]. rewrite app_nil_r, repl_name by apply H1. reflexivity.
    - rewrite repl_name by apply H1. cbn [flat_map]. unfold quoted at 1. rewrite join_cons by discriminate. rewrite <- !app_assoc. f_equal.
      change ([q2] ++ [sp] ++ [q2] ++ v' ++ [q2] ++ flat_map (fun x => [sp] ++ quoted x) vs') with (q2 :: sp :: q2 :: (v' ++ [q2] ++ flat_map (fun x => [sp] ++ quoted x) vs')).
      cbn [repl startswith List.length Nat.sub]. rewrite !chr_eqb_refl. cbn [andb]. f_equal. apply IH. exact H2. }
  intros N H. destruct vs as [|v vs']; [congruence|]. cbn [map]. rewrite join_flat.
  unfold quoted at 1. rewrite <- !app_assoc. cbn [app]. cbn [repl].
  assert (S0 : startswith (q2 :: v ++ q2 :: flat_map (fun x => sp :: x) (map quoted vs')) [q2; sp; q2] = false).
  { cbn [startswith]. rewrite chr_eqb_refl. cbn [andb]. inversion H as [|? ? H1 H2]; subst. destruct H1 as (_&_&_&_&S1).
    destruct v as [|c v']; [reflexivity|]. cbn [app]. cbn [startswith] in S1. rewrite andb_true_r in S1. rewrite S1. reflexivity. }
  rewrite S0. f_equal. rewrite <- (G v vs' H). f_equal. f_equal. cbn [app]. f_equal.
  clear. induction vs' as [|x l IH]; [reflexivity|]. cbn [map flat_map]. rewrite IH. reflexivity.
Qed.
Lemma comma_to_blank vs : Forall (fun v => ~ In (ch 44) v) vs -> replace_chr (ch 44) [sp] (join (S_ ",") (map quoted vs)) = join [sp] (map quoted vs).
Proof.
  induction vs as [|v vs IH]; intro H; [reflexivity|]. inversion H as [|? ? H1 H2]; subst.
  assert (Q : replace_chr (ch 44) [sp] (quoted v) = quoted v).
  { apply replace_chr_absent. unfold quoted. intro K. apply in_app_iff in K. destruct K as [[K|[]]|K]; [discriminate K|].
    apply in_app_iff in K. destruct K as [K|[K|[]]]; [tauto|discriminate K]. }
  destruct vs as [|v' vs']; [exact Q|]. cbn [map] in *. rewrite !join_cons by discriminate. rewrite !replace_chr_app, IH by exact H2. rewrite Q. reflexivity.
Qed.
Lemma not_in_join sep vs c : ~ In c sep -> Forall (fun v => ~ In c v) vs -> ~ In c (join sep vs).
Proof.
  intros HS. induction vs as [|v vs IH]; intro H; [intros []|]. inversion H as [|? ? H1 H2]; subst. destruct vs as [|v' vs']; [exact H1|].
  rewrite join_cons by discriminate. intro K. apply in_app_iff in K. destruct K as [K|K]; [tauto|]. apply in_app_iff in K. destruct K as [K|K]; [tauto|]. exact (IH H2 K).
Qed.
Lemma quoted_absent c vs : c <> q2 -> Forall (fun v => ~ In c v) vs -> Forall (fun v => ~ In c v) (map quoted vs).
Proof.
  intros N H. induction H as [|v l H1 H2 IH]; [constructor|]. constructor; [|exact IH]. unfold quoted. intro K.
  apply in_app_iff in K. destruct K as [[K|[]]|K]; [congruence|]. apply in_app_iff in K. destruct K as [K|[K|[]]]; [tauto|congruence].
Qed.

Lemma split_variables_quoted vs : vs <> [] -> Forall plain_name vs -> split_variables (S_ "= " ++ join (S_ ",") (map quoted vs)) = vs.
Proof.
  intros N H. unfold split_variables.
  assert (HE : Forall (fun v => ~ In (ch 61) v) vs) by (eapply Forall_impl; [|exact H]; intros v P; apply P).
  assert (HC : Forall (fun v => ~ In (ch 44) v) vs) by (eapply Forall_impl; [|exact H]; intros v P; apply P).
  assert (HQ : Forall (fun v => ~ In q2 v) vs) by (eapply Forall_impl; [|exact H]; intros v P; apply P).
  assert (E0 : replace_chr (ch 61) [] (S_ "= " ++ join (S_ ",") (map quoted vs)) = [sp] ++ join (S_ ",") (map quoted vs)).
  { rewrite replace_chr_app. change (replace_chr (ch 61) [] (S_ "= ")) with [sp]. f_equal. apply replace_chr_absent.
    apply not_in_join; [intros [K|[]]; discriminate|]. apply quoted_absent; [discriminate|exact HE]. }
  rewrite E0. clear E0.
  assert (EJ : exists s, join (S_ ",") (map quoted vs) = q2 :: s ++ [q2]).
  { clear -N. induction vs as [|v vs IH]; [congruence|]. destruct vs as [|v' vs']; [exists v; reflexivity|].
    destruct IH as (s & E); [discriminate|]. cbn [map] in *. rewrite join_cons by discriminate. rewrite E. exists (v ++ [q2] ++ S_ "," ++ [q2] ++ s).
    unfold quoted. cbn [app]. f_equal. rewrite <- !app_assoc. reflexivity. }
  assert (E1 : strip ([sp] ++ join (S_ ",") (map quoted vs)) = join (S_ ",") (map quoted vs)).
  { destruct EJ as (s & E). rewrite E. replace ([sp] ++ q2 :: s ++ [q2]) with ([sp] ++ (q2 :: s ++ [q2]) ++ []) by (rewrite app_nil_r; reflexivity).
    rewrite strip_pad; [apply strip_quotes|reflexivity|reflexivity]. }
  rewrite E1. rewrite comma_to_blank by exact HC.
  destruct (join_ends vs N) as (s & ES). assert (A : adj Rname q2 (join [sp] (map quoted vs)) = true) by (apply join_quoted_adj; exact H).
  set (L := join [sp] (map quoted vs)) in *.
  assert (SL : strip L = L) by (rewrite ES; apply strip_quotes). rewrite SL.
  unfold replace_. rewrite (repl_absent [sp; sp]).
  2:{ apply (adj_no_double sp q2). eapply adj_imp; [|exact A]. intros x y K. unfold Rname in K. apply andb_inv in K. destruct K as [K _]. apply andb_inv in K. apply K. }
  rewrite SL.
  assert (E2 : strip (replace_chr (ch 91) (S_ "_[") L) = replace_chr (ch 91) (S_ "_[") L).
  { rewrite ES. unfold replace_chr. rewrite flat_quotes by reflexivity. apply strip_quotes. }
  rewrite E2. rewrite bump_two.
  assert (E3 : strip (bump L) = bump L) by (rewrite ES; unfold bump; rewrite flat_quotes by reflexivity; apply strip_quotes).
  rewrite E3. rewrite (repl_bump (List.length L) L q2); [|lia|reflexivity|].
  2:{ eapply adj_imp; [|exact A]. intros x y K. unfold Rname in K. apply andb_inv in K. destruct K as [K K2]. apply andb_inv in K. destruct K as [_ K]. unfold Rbr. rewrite K, K2. reflexivity. }
  rewrite SL. assert (SQ : startswith L [quote2] = true) by (rewrite ES; reflexivity). rewrite SQ.
  change quote2 with q2. unfold L. rewrite repl_quoted by assumption.
  change (q2 :: join (S_ ",") vs ++ [q2]) with ([q2] ++ join (S_ ",") vs ++ [q2]). rewrite !replace_chr_app. change (replace_chr q2 [] [q2]) with (@nil ascii). rewrite app_nil_r. cbn [app].
  rewrite replace_chr_absent by (apply not_in_join; [intros [K|[]]; discriminate|exact HQ]).
  change (S_ ",") with [ch 44]. apply split_chr_join; [exact N|].
  apply forallb_forall. intros v Hv. apply negb_true_iff. destruct (mem_chr (ch 44) v) eqn:E; [|reflexivity]. apply mem_chr_iff in E.
  exfalso. rewrite Forall_forall in HC. exact (HC v Hv E).
Qed.
