(** C135: the comments of FAST input files, and ElastoDyn blades opened by their own class. *)
From Verif Require Import Py PyFacts ListFacts FASTIn_Model FASTTab_Model FASTFile_Model FASTSpec_Model FASTFile_Props FASTTab_Props FASTFileEnd_Props FASTSpec_Props.
From Verif Require Import FASTCom_Model.
From Coq Require Import ZifyNat ZifyBool Sorted.
Local Open Scope nat_scope.

Section Com.
Context {V : Type}.
Local Notation ent := (FASTFile_Model.entry V).
(** ** Specification *)
(** An ordinary line with that text as its value *)
Definition line_with (e : ent) (s : str) : Prop := exists d, e = Item d /\ it_value d = VStr s.
(** The same entry, except for its value *)
Definition retexted (e : ent) (s : str) (e' : ent) : Prop := exists d, e = Item d /\ e' = Item (mkItem (VStr s) (it_label d) (it_comment d) (it_descr d) (it_tab d)).
(** The lines of a text *)
Definition lines_are (c : str) (ls : list str) : Prop := ls <> [] /\ Forall (fun l => ~ In nl l) ls /\ join [nl] ls = c.
(** A line of the comment of a polar *)
Definition remark (s : str) : Prop := (exists t, s = S_ "!" ++ t) /\ ~ exists t, s = S_ "! ---" ++ t.
(** The positions, among the second to the fourth line, of the comment of a polar *)
Definition Positions (es : list ent) (I : list nat) : Prop :=
  (forall i, In i I <-> 1 <= i <= 3 /\ exists e s, nth_error es i = Some e /\ line_with e s /\ remark s) /\ StronglySorted lt I.

(** ** Proofs *)
Lemma text_line (e : ent) s : text_of e = Some s <-> line_with e s.
Proof.
  unfold text_of, line_with. split.
  - destruct e as [d| | |]; try discriminate. destruct (it_value d) as [ | | |t| ] eqn:E; try discriminate. intro H. injection H as <-. now exists d.
  - intros (d & -> & ->). reflexivity.
Qed.
Lemma sw_iff s p : startswith s p = true <-> exists t, s = p ++ t.
Proof.
  revert s. induction p as [|y p IH]; intros s; cbn [startswith].
  - split; [intros _; now exists s|]. reflexivity.
  - destruct s as [|x s]; [split; [discriminate|intros (t & H); discriminate H]|]. split.
    + intro H. apply andb_prop in H. destruct H as (A & B). apply chr_eqb_eq in A. subst. apply IH in B. destruct B as (t & ->). now exists t.
    + intros (t & H). injection H as -> ->. rewrite chr_eqb_refl. apply IH. now exists t.
Qed.
Lemma remark_iff s : startswith s (S_ "!") && negb (startswith s (S_ "! ---")) = true <-> remark s.
Proof.
  unfold remark. rewrite andb_true_iff, negb_true_iff, sw_iff. split; intros (A & B); (split; [exact A|]).
  - intro X. apply sw_iff in X. congruence.
  - apply not_true_iff_false. intro X. apply B. now apply sw_iff.
Qed.
Lemma lines_split c ls : lines_are c ls -> split_chr nl c = ls.
Proof.
  intros (N & F & <-). revert N. induction F as [|l ls Hl F IH]; intro N; [now destruct N|].
  assert (X : forallb (fun x => negb (chr_eqb x nl)) l = true). { apply forallb_forall. intros x Hx. rewrite negb_true_iff. apply chr_eqb_neq. intros ->. contradiction. }
  destruct ls as [|l' ls]; [cbn [join]; unfold split_chr; now apply (split_on_none (fun x => chr_eqb x nl))|].
  assert (J : join [nl] (l :: l' :: ls) = l ++ nl :: join [nl] (l' :: ls)) by reflexivity. rewrite J.
  unfold split_chr. rewrite (split_on_app_sep (fun x => chr_eqb x nl)) by (try exact X; apply chr_eqb_refl). f_equal. apply IH. discriminate.
Qed.
Lemma lines_exist c : exists ls, lines_are c ls.
Proof.
  induction c as [|x c (ls & N & F & J)].
  - exists [[]]. split; [discriminate|]. split; [repeat constructor; intros []|reflexivity].
  - destruct ls as [|l ls]; [now destruct N|]. inversion F as [|? ? F1 F2]; subst. destruct (ascii_dec x nl) as [-> | D].
    + exists ([] :: l :: ls). split; [discriminate|]. split; [constructor; [intros []|exact F]|reflexivity].
    + exists ((x :: l) :: ls). split; [discriminate|]. split; [constructor; [intros [E|E]; [congruence|contradiction]|exact F2]|]. destruct ls; reflexivity.
Qed.
Lemma nth_error_ext_ {A} (l l' : list A) : (forall i, nth_error l i = nth_error l' i) -> l = l'.
Proof. revert l'. induction l as [|x l IH]; intros [|y l'] H; [reflexivity|discriminate (H 0)|discriminate (H 0)|]. pose proof (H 0) as H0. injection H0 as ->. f_equal. apply IH. intro i. exact (H (S i)). Qed.
(** Blades *)
Definition blade (k : kind) : Prop := k = ADBlade \/ k = EDBlade.
Theorem C135_blade_get : forall k a e (es : list ent) s, blade k -> line_with e s -> get_comment k (a :: e :: es) = Ok (Text s).
Proof. intros k a e es s [-> | ->] H; apply text_line in H; cbn [get_comment comment_lines bind values_at nth_error]; rewrite H; reflexivity. Qed.
(** Setting it replaces the second line by the first line of the text, and nothing else *)
Theorem C135_blade_set : forall k a e (es : list ent) s l ls c, blade k -> line_with e s -> lines_are c (l :: ls) ->
  exists e', retexted e l e' /\ set_comment k (a :: e :: es) c = (a :: e' :: es, Ok tt) /\ get_comment k (a :: e' :: es) = Ok (Text l).
Proof.
  intros k a e es s l ls c K (d & -> & Hd) L. apply lines_split in L. exists (Item (set_value (VStr l) d)). split; [exists d; now split|]. split.
  - unfold set_comment. rewrite L. destruct K as [-> | ->]; destruct a; reflexivity.
  - apply (C135_blade_get k a _ es l K). exists (set_value (VStr l) d). now split.
Qed.
(** A blade with fewer than two lines has no comment and takes none *)
Theorem C135_blade_short : forall k (es : list ent) c, blade k -> List.length es < 2 -> get_comment k es = Err IndexError /\ set_comment k es c = (es, Err IndexError).
Proof.
  intros k es c K L. destruct (lines_exist c) as (ls & X). destruct ls as [|l ls]; [now destruct X|]. apply lines_split in X. unfold set_comment. rewrite X.
  destruct es as [|a [|b es]]; [| |cbn in L; lia]; destruct K as [-> | ->]; split; try reflexivity; destruct a; reflexivity.
Qed.
(** A comment of one line comes back; of one with several lines, the others are lost *)
Theorem C135_blade_round : forall k a e (es : list ent) s c, blade k -> line_with e s ->
  exists es', set_comment k (a :: e :: es) c = (es', Ok tt) /\ (get_comment k es' = Ok (Text c) <-> ~ In nl c).
Proof.
  intros k a e es s c K H. destruct (lines_exist c) as (ls & L). destruct ls as [|l ls]; [now destruct L|].
  destruct (C135_blade_set k a e es s l ls c K H L) as (e' & _ & E & G). exists (a :: e' :: es). split; [exact E|]. rewrite G. destruct L as (_ & F & J). inversion F as [|? ? F1 F2]; subst. split.
  - intro X. assert (X' : l = join [nl] (l :: ls)) by congruence. intro I. apply F1. rewrite X'. exact I.
  - intro X. destruct ls as [|l' ls]; [reflexivity|]. exfalso. apply X. change (join [nl] (l :: l' :: ls)) with (l ++ nl :: join [nl] (l' :: ls)). apply in_or_app. right. now left.
Qed.
(** Polars *)
Lemma polar_lines_ok (es : list ent) : forall l, StronglySorted lt l -> (forall i, In i l -> exists e s, nth_error es i = Some e /\ line_with e s) ->
  exists I, polar_lines es l = Ok I /\ StronglySorted lt I /\ forall i, In i I <-> In i l /\ exists e s, nth_error es i = Some e /\ line_with e s /\ remark s.
Proof.
  induction 1 as [|i l S IH F]; intro H; [exists []; split; [reflexivity|]; split; [constructor|]; intro i; cbn; tauto|].
  destruct IH as (I & E & SI & M); [intros j Hj; apply H; now right|]. destruct (H i (or_introl eq_refl)) as (e & s & N & L). cbn [polar_lines]. rewrite N. pose proof L as L'. apply text_line in L'. rewrite L', E. cbn [bind].
  destruct (startswith s (S_ "!") && negb (startswith s (S_ "! ---"))) eqn:R.
  - exists (i :: I). split; [reflexivity|]. split.
    + constructor; [exact SI|]. apply Forall_forall. intros j Hj. apply M in Hj. destruct Hj as (Hj & _). rewrite Forall_forall in F. now apply F.
    + intro j. cbn [In]. rewrite M. split; [intros [<- | (A & B)]; [split; [now left|]; exists e, s; split; [exact N|]; split; [exact L|]; now apply remark_iff|split; [now right|exact B]]|]. intros ([<- | A] & B); [now left|right; now split].
  - exists I. split; [reflexivity|]. split; [exact SI|]. intro j. rewrite M. cbn [In]. split; [intros (A & B); split; [now right|exact B]|]. intros ([<- | A] & B); [|now split].
    exfalso. destruct B as (e0 & s0 & N0 & L0 & R0). rewrite N in N0. injection N0 as <-. apply text_line in L0. rewrite L' in L0. injection L0 as <-. apply remark_iff in R0. congruence.
Qed.
Lemma s123 : StronglySorted lt [1; 2; 3]. Proof. repeat constructor. Qed.
Lemma sorted_same (I J : list nat) : StronglySorted lt I -> StronglySorted lt J -> (forall i, In i I <-> In i J) -> I = J.
Proof.
  intro S. revert J. induction S as [|i I S IH F]; intros J T H.
  - destruct J as [|j J]; [reflexivity|]. destruct (proj2 (H j) (or_introl eq_refl)).
  - destruct T as [|j J T G]; [destruct (proj1 (H i) (or_introl eq_refl))|]. rewrite Forall_forall in F, G.
    assert (E : i = j). { destruct (proj1 (H i) (or_introl eq_refl)) as [<- | A]; [reflexivity|]. destruct (proj2 (H j) (or_introl eq_refl)) as [<- | B]; [reflexivity|]. specialize (G i A). specialize (F j B). lia. }
    subst j. f_equal. apply IH; [exact T|]. intro k. split; intro Hk.
    + destruct (proj1 (H k) (or_intror Hk)) as [<- | A]; [specialize (F i Hk); lia|exact A].
    + destruct (proj2 (H k) (or_intror Hk)) as [<- | A]; [specialize (G i Hk); lia|exact A].
Qed.
Definition three_texts (es : list ent) : Prop := forall i, 1 <= i <= 3 -> exists e s, nth_error es i = Some e /\ line_with e s.
Lemma positions_ok es I : three_texts es -> Positions es I -> polar_lines es [1; 2; 3] = Ok I.
Proof.
  intros T (M & S). destruct (polar_lines_ok es [1; 2; 3] s123) as (J & E & SJ & MJ); [intros i Hi; apply T; cbn [In] in Hi; lia|]. rewrite E. f_equal. apply sorted_same; [exact SJ|exact S|].
  intro i. rewrite MJ, M. cbn [In]. split; intros (A & B); (split; [lia|exact B]).
Qed.
Lemma set_at_ok (es : list ent) : forall i s d, nth_error es i = Some (Item d) -> exists es', set_at es i s = Ok es' /\ nth_error es' i = Some (Item (set_value (VStr s) d)) /\ forall j, j <> i -> nth_error es' j = nth_error es j.
Proof.
  induction es as [|e es IH]; intros [|i] s d H; try discriminate H.
  - injection H as ->. cbn [set_at]. eexists. split; [reflexivity|]. split; [reflexivity|]. intros [|j] Hj; [lia|reflexivity].
  - cbn [nth_error] in H. destruct (IH i s d H) as (es' & E & A & B). cbn [set_at]. destruct e; rewrite E; cbn [bind]; (eexists; split; [reflexivity|]; split; [exact A|]; intros [|j] Hj; [reflexivity|apply B; lia]).
Qed.
Lemma set_lines_ok I : StronglySorted lt I -> forall ss (es : list ent), (forall i, In i I -> exists d, nth_error es i = Some (Item d)) ->
  exists es', set_lines es I ss = (es', Ok tt) /\
    (forall n i s, nth_error I n = Some i -> nth_error ss n = Some s -> exists d, nth_error es i = Some (Item d) /\ nth_error es' i = Some (Item (set_value (VStr s) d))) /\
    (forall j, (forall n, nth_error I n = Some j -> List.length ss <= n) -> nth_error es' j = nth_error es j).
Proof.
  induction 1 as [|i I S IH F]; intros ss es H; cbn [set_lines].
  - exists es. split; [reflexivity|]. split; [intros [|n] i s X; discriminate X|reflexivity].
  - destruct ss as [|s ss].
    + exists es. split; [reflexivity|]. split; [intros n j s _ X; destruct n; discriminate X|reflexivity].
    + destruct (H i (or_introl eq_refl)) as (d & Hd). destruct (set_at_ok es i s d Hd) as (es1 & E1 & A1 & B1). rewrite E1. rewrite Forall_forall in F.
      destruct (IH ss es1) as (es' & E & A & B). { intros j Hj. rewrite B1 by (specialize (F j Hj); lia). apply H. now right. }
      exists es'. split; [exact E|]. split.
      * intros [|n] j t X Y; cbn [nth_error] in X, Y.
        { injection X as <-. injection Y as <-. exists d. split; [exact Hd|]. rewrite B; [exact A1|]. intros n X. apply nth_error_In in X. specialize (F i X). lia. }
        { destruct (A n j t X Y) as (d' & P & Q). exists d'. split; [|exact Q]. rewrite <- B1; [exact P|]. apply nth_error_In in X. specialize (F j X). lia. }
      * intros j Hj. rewrite B; [apply B1; intros ->; specialize (Hj 0 eq_refl); cbn in Hj; lia|]. intros n X. specialize (Hj (Datatypes.S n) X). cbn in Hj. lia.
Qed.
(** Setting the comment of a polar: its lines are replaced in order by those of the text, behind "! "; all else stays *)
Theorem C135_polar_set : forall (es : list ent) I c ls, three_texts es -> Positions es I -> lines_are c ls ->
  exists es', set_comment ADPolar es c = (es', Ok tt) /\ List.length es' = List.length es /\
    (forall n i l, nth_error I n = Some i -> nth_error ls n = Some l -> exists e e', nth_error es i = Some e /\ nth_error es' i = Some e' /\ retexted e (S_ "! " ++ l) e') /\
    (forall j, (forall n, nth_error I n = Some j -> List.length ls <= n) -> nth_error es' j = nth_error es j).
Proof.
  intros es I c ls T P L. unfold set_comment. cbn [comment_lines]. rewrite (positions_ok es I T P), (lines_split c ls L). destruct P as (M & S).
  assert (D : forall i, In i I -> exists d, nth_error es i = Some (Item d)). { intros i Hi. apply M in Hi. destruct Hi as (_ & e & s & N & (d & -> & _) & _). now exists d. }
  destruct (set_lines_ok I S (map (fun s => S_ "! " ++ s) ls) es D) as (es' & E & A & B). exists es'. split; [exact E|].
  assert (A' : forall n i l, nth_error I n = Some i -> nth_error ls n = Some l -> exists e e', nth_error es i = Some e /\ nth_error es' i = Some e' /\ retexted e (S_ "! " ++ l) e').
  { intros n i l X Y. destruct (A n i (S_ "! " ++ l) X) as (d & Q1 & Q2); [now rewrite nth_error_map, Y|]. exists (Item d), (Item (set_value (VStr (S_ "! " ++ l)) d)). split; [exact Q1|]. split; [exact Q2|]. now exists d. }
  assert (B' : forall j, (forall n, nth_error I n = Some j -> List.length ls <= n) -> nth_error es' j = nth_error es j). { intros j Hj. apply B. intros n X. rewrite map_length. now apply Hj. }
  split; [|split; [exact A'|exact B']].
  assert (N : forall j, nth_error es' j = None <-> nth_error es j = None).
  { intro j. destruct (in_dec Nat.eq_dec j I) as [X|X].
    - apply In_nth_error in X. destruct X as (n & X). destruct (nth_error ls n) as [l|] eqn:Y.
      + destruct (A' n j l X Y) as (e & e' & P1 & P2 & _). rewrite P1, P2. split; discriminate.
      + rewrite B'; [tauto|]. intros m Z. apply nth_error_None in Y. enough (m = n) by lia. assert (ND : NoDup I) by (clear - S; induction S as [|i I S IH F]; constructor; [rewrite Forall_forall in F; intro X; specialize (F i X); lia|exact IH]).
        apply (NoDup_nth_error I); [exact ND|apply nth_error_Some; congruence|congruence].
    - rewrite B'; [tauto|]. intros n Y. exfalso. apply X. now apply nth_error_In in Y. }
  pose proof (proj2 (N (List.length es))) as N1. pose proof (proj1 (N (List.length es'))) as N2. rewrite !nth_error_None in *. lia.
Qed.
(** The comment of a polar cannot be read back *)
Theorem C135_polar_get_refuted : forall (es : list ent) s, get_comment ADPolar es <> Ok (Text s).
Proof. intros es s. discriminate. Qed.
(** A line that starts with three dashes is not a line of the comment any more once it is set *)
Theorem C135_polar_dashes_refuted : forall (es : list ent) I i c l ls t, three_texts es -> Positions es (i :: I) -> lines_are c (l :: ls) -> l = S_ "---" ++ t ->
  exists es', set_comment ADPolar es c = (es', Ok tt) /\ forall J, Positions es' J -> ~ In i J.
Proof.
  intros es I i c l ls t T P L ->. destruct (C135_polar_set es (i :: I) c _ T P L) as (es' & E & _ & A & _). exists es'. split; [exact E|]. intros J (M & _) X. apply M in X. destruct X as (_ & e & s & N & Ls & R).
  destruct (A 0 i (S_ "---" ++ t) eq_refl eq_refl) as (e0 & e1 & _ & N1 & (d & _ & ->)). rewrite N in N1. injection N1 as ->. destruct Ls as (d' & Q & V'). injection Q as <-. cbn in V'. injection V' as <-. apply (proj2 R). exists t. reflexivity.
Qed.
(** Without such lines, a second comment with as many lines replaces the first one *)
Theorem C135_polar_again : forall (es : list ent) I c c' ls ls', three_texts es -> Positions es I -> lines_are c ls -> lines_are c' ls' -> Forall (fun l => forall t, l <> S_ "---" ++ t) ls -> List.length ls <= List.length ls' ->
  exists es1 es2, set_comment ADPolar es c = (es1, Ok tt) /\ Positions es1 I /\ set_comment ADPolar es1 c' = (es2, Ok tt) /\ set_comment ADPolar es c' = (es2, Ok tt).
Proof.
  intros es I c c' ls ls' T P L L' D Len. destruct (C135_polar_set es I c ls T P L) as (es1 & E1 & Ln1 & A1 & B1).
  assert (ND : NoDup I) by (destruct P as (_ & S); clear - S; induction S as [|i I S IH F]; constructor; [rewrite Forall_forall in F; intro X; specialize (F i X); lia|exact IH]).
  assert (W : forall j, (exists n l, nth_error I n = Some j /\ nth_error ls n = Some l) \/ nth_error es1 j = nth_error es j).
  { intro j. destruct (in_dec Nat.eq_dec j I) as [X|X].
    - apply In_nth_error in X. destruct X as (n & X). destruct (nth_error ls n) as [l|] eqn:Y; [left; now exists n, l|right]. apply B1. intros m Z. apply nth_error_None in Y. enough (m = n) by lia. apply (NoDup_nth_error I); [exact ND|apply nth_error_Some; congruence|congruence].
    - right. apply B1. intros n Y. exfalso. apply X. now apply nth_error_In in Y. }
  assert (NR : forall l t, In l ls -> S_ "! " ++ l <> S_ "! ---" ++ t). { intros l t Hl X. rewrite Forall_forall in D. apply (D l Hl t). change (S_ "! ---" ++ t) with (S_ "! " ++ (S_ "---" ++ t)) in X. now apply app_inv_head in X. }
  assert (P1 : Positions es1 I).
  { destruct P as (M & S). split; [|exact S]. intro i. rewrite M. destruct (W i) as [(n & l & X & Y)|X]; [|now rewrite X].
    destruct (A1 n i l X Y) as (e & e' & N & N' & (d & -> & ->)). assert (Ii : In i I) by now apply nth_error_In in X. apply M in Ii. split; [intros _|intros _; exact Ii]. split; [tauto|]. eexists _, (S_ "! " ++ l). split; [exact N'|]. split; [now eexists|].
    split; [exists (" "%char :: l); reflexivity|]. intros (t & Z). apply nth_error_In in Y. exact (NR l t Y Z). }
  assert (T1 : three_texts es1).
  { intros i Hi. destruct (W i) as [(n & l & X & Y)|X]; [|rewrite X; now apply T]. destruct (A1 n i l X Y) as (e & e' & N & N' & (d & -> & ->)). eexists _, _. split; [exact N'|]. now eexists. }
  destruct (C135_polar_set es1 I c' ls' T1 P1 L') as (es2 & E2 & Ln2 & A2 & B2). destruct (C135_polar_set es I c' ls' T P L') as (es3 & E3 & Ln3 & A3 & B3).
  exists es1, es2. split; [exact E1|]. split; [exact P1|]. split; [exact E2|]. rewrite E3. f_equal. apply nth_error_ext_. intro j.
  destruct (in_dec Nat.eq_dec j I) as [X|X].
  - apply In_nth_error in X. destruct X as (n & X). destruct (nth_error ls' n) as [l'|] eqn:Y'.
    + destruct (A2 n j l' X Y') as (e & e' & N & N' & (d & -> & ->)). destruct (A3 n j l' X Y') as (e3 & e3' & N3 & N3' & (d3 & -> & ->)). rewrite N', N3'. do 2 f_equal.
      destruct (W j) as [(m & l & Xm & Ym)|Z]; [|rewrite Z in N; congruence]. destruct (A1 m j l Xm Ym) as (e4 & e4' & N4 & N4' & (d4 & -> & ->)). rewrite N4' in N. injection N as <-. rewrite N4 in N3. injection N3 as <-. reflexivity.
    + apply nth_error_None in Y'. assert (U : forall m, nth_error I m = Some j -> m = n). { intros m Z. apply (NoDup_nth_error I); [exact ND|apply nth_error_Some; congruence|congruence]. }
      rewrite B2, B3, B1; [reflexivity| | |]; intros m Z; rewrite (U m Z); lia.
  - assert (U : forall m, nth_error I m <> Some j) by (intros m Z; apply X; now apply nth_error_In in Z). rewrite B2, B3, B1; [reflexivity| | |]; intros m Z; now destruct (U m).
Qed.
(** Other files have no comment: it is empty, and setting it changes nothing *)
Theorem C135_base : forall (es : list ent) c, get_comment Base es = Ok (Text []) /\ set_comment Base es c = (es, Ok tt).
Proof. intros. split; reflexivity. Qed.
(** Through [FASTInputFile] the comment can never be set: it raises an exception and changes nothing *)
Theorem C135_front_refuted : forall (es : list ent) c, exists e, front_set es c = (es, Err e).
Proof. intros es c. unfold front_set. destruct (get_comment _ es); eexists; reflexivity. Qed.
Theorem C135_front_type_refuted : forall (es : list ent) c, (fixed_format es = Base \/ fixed_format es = ADPolar \/ exists a e l s, es = a :: e :: l /\ line_with e s) -> front_set es c = (es, Err TypeError).
Proof.
  intros es c H. unfold front_set. destruct (fixed_format es) eqn:K; try reflexivity; destruct H as [H|[H|(a & e & l & s & -> & H)]]; try discriminate H; rewrite (C135_blade_get _ a e l s); auto; [left|right]; reflexivity.
Qed.
(** Through [FASTInputFile] the comment of a blade is its second line, that of a polar is no text, and other files have none *)
Theorem C135_front_get : forall (es : list ent),
  (forall a e l s, es = a :: e :: l -> line_with e s -> has_key es "NumBlNds" \/ has_key es "NBlInpSt" -> front_get es = Ok (Text s)) /\
  (~ has_key es "NumBlNds" -> ~ has_key es "NBlInpSt" -> has_key es "NumCoords" -> has_key es "InterpOrd" -> forall s, front_get es <> Ok (Text s)) /\
  (~ has_key es "NumBlNds" -> ~ has_key es "NBlInpSt" -> ~ (has_key es "NumCoords" /\ has_key es "InterpOrd") -> front_get es = Ok (Text [])).
Proof.
  intro es. destruct (C111_class es) as (A & B & C & D). unfold front_get. split; [|split].
  - intros a e l s E L K. assert (F : blade (fixed_format es)).
    { destruct K as [K|K]; [rewrite (A K); left; reflexivity|].
      destruct (has_label "NumBlNds" (keys_of es)) eqn:M; [apply has_key_iff in M; rewrite (A M); left; reflexivity|apply has_key_not in M; rewrite (B M K); right; reflexivity]. }
    rewrite E in *. apply C135_blade_get; assumption.
  - intros H1 H2 H3 H4 s. rewrite (C H1 H2 H3 H4). apply C135_polar_get_refuted.
  - intros H1 H2 H3. rewrite (D H1 H2 H3). apply C135_base. exact [].
Qed.
(** The keys: the labels of the lines that are not comments, without the lines of the comment *)
Lemma keys_from_ok I (es : list ent) : forall i, exists ks, keys_from i (Ok I) es = Ok ks /\ forall k, In k ks <-> exists n e, nth_error es n = Some e /\ comment_of e = false /\ ~ In (i + n) I /\ label_of e = k.
Proof.
  induction es as [|e es IH]; intro i; cbn [keys_from].
  - exists []. split; [reflexivity|]. intro k. split; [intros []|intros ([|n] & e & H & _); discriminate H].
  - destruct (IH (S i)) as (ks & E & M). destruct (comment_of e) eqn:C.
    + exists ks. split; [exact E|]. intro k. rewrite M. split.
      * intros (n & e' & N & H). exists (S n), e'. split; [exact N|]. now replace (i + S n) with (S i + n) by lia.
      * intros ([|n] & e' & N & H); [injection N as <-; destruct H; congruence|]. exists n, e'. split; [exact N|]. now replace (S i + n) with (i + S n) by lia.
    + cbn [bind]. rewrite E. cbn [bind]. destruct (existsb (Nat.eqb i) I) eqn:X.
      * exists ks. split; [reflexivity|]. apply existsb_exists in X. destruct X as (y & Iy & X). apply Nat.eqb_eq in X. subst y. intro k. rewrite M. split.
        { intros (n & e' & N & H). exists (S n), e'. split; [exact N|]. now replace (i + S n) with (S i + n) by lia. }
        { intros ([|n] & e' & N & H); [destruct H as (_ & H & _); exfalso; apply H; now rewrite Nat.add_0_r|]. exists n, e'. split; [exact N|]. now replace (S i + n) with (i + S n) by lia. }
      * exists (label_of e :: ks). split; [reflexivity|]. assert (NI : ~ In i I). { intro Y. assert (Z : existsb (Nat.eqb i) I = true) by (apply existsb_exists; exists i; split; [exact Y|apply Nat.eqb_refl]). congruence. }
        intro k. cbn [In]. rewrite M. split.
        { intros [<- | (n & e' & N & H)]; [exists 0, e; rewrite Nat.add_0_r; auto|]. exists (S n), e'. split; [exact N|]. now replace (i + S n) with (S i + n) by lia. }
        { intros ([|n] & e' & N & H); [injection N as <-; left; tauto|right]. exists n, e'. split; [exact N|]. now replace (S i + n) with (i + S n) by lia. }
Qed.
Theorem C135_keys : forall k (es : list ent) I, (blade k /\ I = [1] \/ k = Base /\ I = [] \/ k = ADPolar /\ three_texts es /\ Positions es I) ->
  exists ks, keys_in k es = Ok ks /\ forall x, In x ks <-> exists n e, nth_error es n = Some e /\ comment_of e = false /\ ~ In n I /\ label_of e = x.
Proof.
  intros k es I H. unfold keys_in. assert (E : comment_lines k es = Ok I). { destruct H as [([-> | ->] & ->)|[(-> & ->)|(-> & T & P)]]; try reflexivity. now apply positions_ok. }
  rewrite E. exact (keys_from_ok I es 0).
Qed.
(** A polar with fewer than four lines of text at its top, for instance with a number in its third line, has no keys: it raises an exception *)
Theorem C135_keys_polar_refuted : forall (es : list ent), (exists e, In e es /\ comment_of e = false) -> (exists i, 1 <= i <= 3 /\ forall e s, nth_error es i = Some e -> ~ line_with e s) ->
  exists x, (x = AttributeError \/ x = IndexError) /\ keys_in ADPolar es = Err x.
Proof.
  intros es (e & He & Ce) (i & Hi & Bad). assert (X : exists x, (x = AttributeError \/ x = IndexError) /\ polar_lines es [1; 2; 3] = Err x).
  { assert (G : forall l, In i l -> exists x, (x = AttributeError \/ x = IndexError) /\ polar_lines es l = Err x).
    { induction l as [|j l IH]; intro H; [destruct H|]. cbn [polar_lines]. destruct (nth_error es j) as [y|] eqn:N; [|exists IndexError; auto]. destruct (text_of y) as [s|] eqn:T; [|exists AttributeError; auto].
      destruct H as [-> | H]; [exfalso; apply text_line in T; exact (Bad y s N T)|]. destruct (IH H) as (x & Hx & ->). exists x. split; [exact Hx|reflexivity]. }
    apply G. cbn [In]. lia. }
  destruct X as (x & Hx & E). exists x. split; [exact Hx|]. unfold keys_in. cbn [comment_lines]. rewrite E.
  assert (G : forall l n, In e l -> keys_from n (Err x) l = Err x). { induction l as [|y l IH]; intros n H; [destruct H|]. cbn [keys_from]. destruct (comment_of y) eqn:C; [|reflexivity]. destruct H as [-> | H]; [congruence|now apply IH]. }
  now apply G.
Qed.
(** ** ElastoDyn blades opened by their own class: the object can hardly be used *)
Theorem C135_own_class_refuted : forall (es : list ent) lines cs, ed_open es lines = Ok cs -> exists a, hd_error es = Some a /\
  raw_keys 0 cs = Err TypeError /\ raw_comment cs = Err TypeError /\
  (forall k, ~ low_is (label_of a) k -> raw_get cs k = Err TypeError) /\
  (forall k v, raw_set cs k v = (cs, Err TypeError)) /\
  (forall print p, print a = Ok p -> raw_string print cs = Err TypeError) /\
  (forall print count, ~ low_is (label_of a) (S_ "BldProp") -> raw_write print count cs = (None, Err TypeError)) /\
  (forall print p count, low_is (label_of a) (S_ "BldProp") -> count a = Ok tt -> print a = Ok p -> raw_write print count cs = (Some [], Err TypeError)).
Proof.
  intros es lines cs H. unfold ed_open in H. destruct (nth_error lines 1) as [s|]; [|discriminate H]. destruct es as [|a [|b l]]; try discriminate H. cbn [map] in H. injection H as <-.
  exists a. split; [reflexivity|]. split; [reflexivity|]. split; [reflexivity|].
  assert (G : forall k, ~ low_is (label_of a) k -> raw_get (Entry a :: Raw s :: map Entry l) k = Err TypeError).
  { intros k Hk. cbn [raw_get fields bind]. destruct (str_eqb (lower (label_of a)) (lower k)) eqn:E; [apply str_eqb_eq in E; now destruct Hk|reflexivity]. }
  split; [exact G|]. split; [intros; reflexivity|]. split.
  - intros print p Hp. unfold raw_string. cbn [mapM fields bind]. rewrite Hp. reflexivity.
  - split; [intros print count Hk; unfold raw_write; rewrite (G _ Hk); reflexivity|]. intros print p count Hk Hc Hp. unfold raw_write. cbn [raw_get fields bind]. unfold low_is in Hk. rewrite Hk, str_eqb_refl. cbn [bind]. rewrite Hc.
    unfold raw_string. cbn [mapM fields bind]. rewrite Hp. reflexivity.
Qed.
Theorem C135_own_class_opens : forall (a b : ent) es l0 l1 lines, exists cs, ed_open (a :: b :: es) (l0 :: l1 :: lines) = Ok cs.
Proof. intros. eexists. reflexivity. Qed.
End Com.
Print Assumptions C135_blade_get.
Print Assumptions C135_blade_set.
Print Assumptions C135_blade_short.
Print Assumptions C135_blade_round.
Print Assumptions C135_polar_set.
Print Assumptions C135_polar_get_refuted.
Print Assumptions C135_polar_dashes_refuted.
Print Assumptions C135_polar_again.
Print Assumptions C135_base.
Print Assumptions C135_front_refuted.
Print Assumptions C135_front_type_refuted.
Print Assumptions C135_front_get.
Print Assumptions C135_keys.
Print Assumptions C135_keys_polar_refuted.
Print Assumptions C135_own_class_refuted.
Print Assumptions C135_own_class_opens.

(** ** Cases that meet the hypotheses *)
Definition yline (v : val) (l : string) (c : bool) : FASTFile_Model.entry Z := Item (mkItem v (S_ l) c [] NOT_A_TAB).
Definition yblade : list (FASTFile_Model.entry Z) := [yline (VStr (S_ "------- AERODYN BLADE")) "" true; yline (VStr (S_ "old")) "" true; yline (VInt 2) "NumBlNds" false].
Definition ypolar : list (FASTFile_Model.entry Z) :=
  [yline (VStr (S_ "! --- head")) "" true; yline (VStr (S_ "! one")) "" true; yline (VStr (S_ "! --- mid")) "" true; yline (VStr (S_ "! two")) "" true; yline (VStr (S_ "DEFAULT")) "InterpOrd" false; yline (VInt 0) "NumCoords" false].
Example C135_blade_nonvacuous : fixed_format yblade = ADBlade /\ lines_are (S_ "new" ++ nl :: S_ "more") [S_ "new"; S_ "more"] /\
  set_comment ADBlade yblade (S_ "new" ++ nl :: S_ "more") = ([yline (VStr (S_ "------- AERODYN BLADE")) "" true; yline (VStr (S_ "new")) "" true; yline (VInt 2) "NumBlNds" false], Ok tt) /\
  keys_in ADBlade yblade = Ok [S_ "NumBlNds"] /\ front_set yblade (S_ "new") = (yblade, Err TypeError) /\ front_get yblade = Ok (Text (S_ "old")) /\ has_key yblade "NumBlNds".
Proof.
  split; [reflexivity|]. split; [split; [discriminate|]; split; [repeat constructor; cbn; intuition discriminate|reflexivity]|]. split; [reflexivity|]. split; [reflexivity|]. split; [reflexivity|].
  split; [reflexivity|]. apply has_key_iff. reflexivity.
Qed.
Example C135_polar_nonvacuous : fixed_format ypolar = ADPolar /\ three_texts ypolar /\ Positions ypolar [1; 3] /\
  map text_of (fst (set_comment ADPolar ypolar (S_ "a" ++ nl :: S_ "b" ++ nl :: S_ "c"))) = map (option_map S_) [Some "! --- head"; Some "! a"; Some "! --- mid"; Some "! b"; Some "DEFAULT"; None]%string /\
  keys_in ADPolar ypolar = Ok [S_ "InterpOrd"; S_ "NumCoords"].
Proof.
  split; [reflexivity|]. split.
  - intros i Hi. assert (C : i = 1 \/ i = 2 \/ i = 3) by lia. destruct C as [-> | [-> | ->]]; (eexists _, _; split; [reflexivity|]; eexists; split; reflexivity).
  - split; [|split; reflexivity]. split; [|repeat constructor]. intro i. cbn [In]. split.
    + intros [<- | [<- | []]]; (split; [lia|]; eexists _, _; split; [reflexivity|]; split; [eexists; split; reflexivity|]; apply remark_iff; reflexivity).
    + intros (Hi & e & s & N & L & R). assert (C : i = 1 \/ i = 2 \/ i = 3) by lia. destruct C as [-> | [-> | ->]]; [now left| |right; now left]. exfalso. injection N as <-. destruct L as (d & E & Vd). injection E as <-. cbn in Vd. injection Vd as <-. apply remark_iff in R. discriminate R.
Qed.
(** The polars of the examples of C111 are read as polars, but have no keys *)
Example C135_keys_polar_nonvacuous : exists es, zread (zpols ["3 alpha0 - angle"] ["4 alpha0 - angle"])%string = Some (Ok es) /\ fixed_format es = ADPolar /\ keys_in ADPolar es = Err AttributeError.
Proof. eexists. split; [vm_compute; reflexivity|]. split; reflexivity. Qed.
Example C135_own_class_nonvacuous : exists cs, ed_open yblade [S_ "------- ELASTODYN"; S_ "old"; S_ "2 NBlInpSt"] = Ok cs /\ raw_keys 0 cs = Err TypeError /\ raw_get cs (S_ "NumBlNds") = Err TypeError.
Proof. eexists. split; [reflexivity|]. split; reflexivity. Qed.
