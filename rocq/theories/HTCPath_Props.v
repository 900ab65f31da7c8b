(** Properties C137 (included files) and C138 (paths in any case) of HTC files. *)
From Verif Require Import Py PyFacts TextFacts HTC_Model HTC_Spec.
From Verif Require Deck_Model.
From Verif Require Import HTCPath_Model.
From Coq Require Import Lia Relations.
Local Open Scope nat_scope.

(** ** Specification of C137 *)

(** The line asks for a file: blanks, the word continue_in_file in any case, and the name, up to a semicolon or the end of the line *)
Definition continues (l name : str) : Prop :=
  exists blanks word arg rest, l = blanks ++ word ++ arg ++ rest /\ forallb is_space blanks = true /\ lower word = S_ "continue_in_file" /\
    ~ In semi arg /\ (rest = [] \/ exists t, rest = semi :: t) /\ name = lower (strip arg).
(** The line ends an included file *)
Definition exits (l : str) : Prop := exists blanks word rest, l = blanks ++ word ++ rest /\ forallb is_space blanks = true /\ lower word = S_ "exit".
Definition before_exit (ls pre : list str) : Prop :=
  (forall l, In l pre -> ~ exits l) /\ (ls = pre \/ exists l rest, ls = pre ++ l :: rest /\ exits l).

Section Spec.
  Variable lines_of : str -> res (list str).
  Variable isfile : str -> bool.
  Variables (self_name : str) (modelpath : option str).
  (** Where a file is: in the model path or, when it is not known, in the first of the directory of the file and its three parents which has it *)
  Definition near (i : nat) (f : str) : str := Deck_Model.path_join (Deck_Model.path_join (Deck_Model.dirname self_name) (concat (repeat (S_ "../") i))) f.
  Definition to_slashes (f : str) : str := map (fun c => if chr_eqb c "\"%char then "/"%char else c) f.
  Definition located (f path : str) : Prop :=
    match modelpath with
    | Some m => path = Deck_Model.path_join m f
    | None => exists i, i < 4 /\ path = near i f /\ isfile (near i (to_slashes f)) = true /\ forall j, j < i -> isfile (near j (to_slashes f)) = false
    end.
  (** [reading f out files]: the text of the file and of the files that it includes, and these files *)
  Inductive reading : str -> list str -> list str -> Prop :=
  | reading_file f ls out files : lines_of f = Ok ls -> expansion ls out files -> reading f out ((if str_eqb f self_name then [] else [f]) ++ files)
  with expansion : list str -> list str -> list str -> Prop :=
  | expansion_end : expansion [] [] []
  | expansion_line l ls out files : (forall f, ~ continues l f) -> expansion ls out files -> expansion (l :: ls) (l :: out) files
  | expansion_file l ls f path sub subfiles pre out files : continues l f -> located f path -> reading path sub subfiles -> before_exit sub pre ->
      expansion ls out files -> expansion (l :: ls) (pre ++ out) (subfiles ++ files).
End Spec.
Scheme reading_mut := Minimality for reading Sort Prop with expansion_mut := Minimality for expansion Sort Prop.
Combined Scheme reading_both from reading_mut, expansion_mut.

(** ** Lemmas *)
Lemma lower_space c : is_space (lower_c c) = is_space c.
Proof. apply Bool.eqb_prop. revert c. apply char_sweep. vm_compute. reflexivity. Qed.
Lemma lower_semi c : chr_eqb (lower_c c) semi = chr_eqb c semi.
Proof. apply Bool.eqb_prop. revert c. apply char_sweep. vm_compute. reflexivity. Qed.
Lemma lstrip_lower s : lstrip (lower s) = lower (lstrip s).
Proof. induction s as [|c s IH]; [reflexivity|]. unfold lower in *. cbn [map lstrip]. rewrite lower_space. destruct (is_space c); [exact IH | reflexivity]. Qed.
Lemma strip_lower_char s c : In c s -> In (lower_c c) (lower s).
Proof. apply in_map. Qed.
Lemma lower_split s p t : lower s = p ++ t -> exists a b, s = a ++ b /\ lower a = p /\ lower b = t.
Proof.
  revert s. induction p as [|c p IH]; intros s E; [exists [], s; repeat split; exact E|].
  destruct s as [|d s]; [discriminate|]. cbn [lower map app] in E. injection E as E1 E2. destruct (IH s E2) as (a & b & -> & Ha & Hb).
  exists (d :: a), b. repeat split; [cbn; unfold lower in Ha; rewrite E1, Ha; reflexivity | exact Hb].
Qed.
Lemma lower_head w k c t : lower w = c :: t -> lower (w ++ k) = c :: t ++ lower k.
Proof. intro H. rewrite lower_app, H. reflexivity. Qed.
Lemma word_no_space w kw : lower w = kw -> forallb (fun c => negb (is_space c)) kw = true -> forallb (fun c => negb (is_space c)) w = true.
Proof. intros <- H. rewrite forallb_forall in *. intros c Hc. specialize (H _ (strip_lower_char _ _ Hc)). rewrite lower_space in H. exact H. Qed.
Lemma word_no_semi w kw : lower w = kw -> forallb (fun c => negb (chr_eqb c semi)) kw = true -> forallb (fun c => negb (chr_eqb c semi)) w = true.
Proof. intros <- H. rewrite forallb_forall in *. intros c Hc. specialize (H _ (strip_lower_char _ _ Hc)). rewrite lower_semi in H. exact H. Qed.
Lemma blanks_word b w r : forallb is_space b = true -> w <> [] -> forallb (fun c => negb (is_space c)) w = true -> lstrip (b ++ w ++ r) = w ++ r.
Proof.
  intros H N H'. rewrite lstrip_app_nonblank by exact H. destruct w as [|c w]; [contradiction|]. cbn in H'. apply andb_inv in H' as [H' _]. cbn [app]. apply lstrip_head.
  destruct (is_space c); [discriminate | reflexivity].
Qed.
Lemma first_part arg rest : ~ In semi arg -> (rest = [] \/ exists t, rest = semi :: t) -> hd [] (split_chr semi (arg ++ rest)) = arg.
Proof.
  intros H [->|[t ->]]; unfold split_chr.
  - rewrite app_nil_r. rewrite split_on_none; [reflexivity|]. apply forallb_forall. intros c Hc. destruct (chr_eqb_spec c semi) as [->|_]; [contradiction | reflexivity].
  - rewrite split_on_app_sep; [reflexivity| |apply chr_eqb_refl].
    apply forallb_forall. intros c Hc. destruct (chr_eqb_spec c semi) as [->|_]; [contradiction | reflexivity].
Qed.
Lemma not_in_forallb s : forallb (fun c => negb (chr_eqb c semi)) s = true -> ~ In semi s.
Proof. intros H I. rewrite forallb_forall in H. specialize (H _ I). rewrite chr_eqb_refl in H. discriminate. Qed.
Lemma cut_semi s : exists arg rest, s = arg ++ rest /\ ~ In semi arg /\ (rest = [] \/ exists t, rest = semi :: t).
Proof.
  induction s as [|c s (a & r & -> & H & H')]; [exists [], []; auto|].
  destruct (chr_eqb_spec c semi) as [->|N]; [exists [], (semi :: a ++ r); repeat split; [intros []|right; eauto]|].
  exists (c :: a), r. repeat split; auto. intros [E|I]; [apply N, E | apply H, I].
Qed.
Lemma kw_len : List.length (S_ "continue_in_file") = 16. Proof. reflexivity. Qed.
(** The two tests of the code *)
Lemma continues_name l f : continues l f -> is_include l = true /\ include_name l = f.
Proof.
  intros (b & w & a & r & -> & Hb & Hw & Ha & Hr & ->).
  assert (NS : forallb (fun c => negb (is_space c)) w = true) by (eapply word_no_space; [exact Hw | reflexivity]).
  assert (NSe : forallb (fun c => negb (chr_eqb c semi)) w = true) by (eapply word_no_semi; [exact Hw | reflexivity]).
  assert (N : w <> []) by (intros ->; discriminate Hw).
  assert (L : List.length w = 16) by (rewrite <- lower_length, Hw; apply kw_len).
  split.
  - unfold is_include. rewrite lstrip_lower, blanks_word by assumption. rewrite lower_app, Hw. apply startswith_app.
  - unfold include_name. rewrite blanks_word by assumption. rewrite app_assoc, first_part; [|intro I; apply in_app_iff in I as [I|I]; [apply (not_in_forallb _ NSe), I | apply Ha, I]|exact Hr].
    f_equal. f_equal. rewrite skipn_app, L. rewrite skipn_all2 by lia. reflexivity.
Qed.
Lemma include_continues l : is_include l = true -> continues l (include_name l).
Proof.
  intro H. assert (C : exists f, continues l f).
  { unfold is_include in H. rewrite lstrip_lower in H. apply startswith_iff in H as [t H]. apply lower_split in H as (w & x & E & Hw & Hx).
    destruct (lstrip_decomp l) as (b & Hb & El). destruct (cut_semi x) as (a & r & -> & Ha & Hr).
    exists (lower (strip a)), b, w, a, r. rewrite El at 1. rewrite E. repeat split; assumption. }
  destruct C as [f C]. rewrite (proj2 (continues_name _ _ C)). exact C.
Qed.
Lemma exits_test l : startswith (lower (lstrip l)) (S_ "exit") = true <-> exits l.
Proof.
  split.
  - intro H. apply startswith_iff in H as [t H]. apply lower_split in H as (w & x & E & Hw & Hx). destruct (lstrip_decomp l) as (b & Hb & El).
    exists b, w, x. rewrite El at 1. rewrite E. repeat split; assumption.
  - intros (b & w & r & -> & Hb & Hw). rewrite blanks_word; [rewrite lower_app, Hw; apply startswith_app|exact Hb|intros ->; discriminate Hw|].
    eapply word_no_space; [exact Hw | reflexivity].
Qed.
Lemma until_exit_spec ls : before_exit ls (until_exit ls).
Proof.
  induction ls as [|l ls [H1 H2]]; [split; [intros ? []|left; reflexivity]|]. cbn [until_exit]. destruct (startswith (lower (lstrip l)) (S_ "exit")) eqn:E.
  - split; [intros ? []|]. right. exists l, ls. split; [reflexivity | apply exits_test, E].
  - split.
    + intros x [<-|I]; [|apply H1, I]. intro X. apply exits_test in X. congruence.
    + destruct H2 as [H2|(x & r & H2 & X)]; [left; f_equal; exact H2|]. right. exists x, r. split; [cbn; f_equal; exact H2 | exact X].
Qed.
Lemma before_exit_fun ls pre : before_exit ls pre -> pre = until_exit ls.
Proof.
  revert ls. induction pre as [|p pre IH]; intros ls [H1 H2].
  - destruct H2 as [->|(l & r & -> & X)]; [reflexivity|]. cbn [app until_exit]. apply exits_test in X. rewrite X. reflexivity.
  - assert (E : startswith (lower (lstrip p)) (S_ "exit") = false).
    { destruct (startswith _ _) eqn:E; [|reflexivity]. exfalso. apply (H1 p (or_introl eq_refl)), exits_test, E. }
    destruct H2 as [->|(l & r & -> & X)]; cbn [app until_exit]; rewrite E; f_equal; apply IH; (split; [intros; apply H1; right; assumption|]); [left; reflexivity|right; eauto].
Qed.

Section Proofs.
  Variable lines_of : str -> res (list str).
  Variable isfile : str -> bool.
  Variables (self_name : str) (modelpath : option str).
  Local Notation RL := (readlines lines_of isfile self_name modelpath).
  Local Notation PATH := (include_path isfile self_name modelpath).
  Local Notation LOC := (located isfile self_name modelpath).
  Local Notation READ := (reading lines_of isfile self_name modelpath).
  Local Notation EXP := (expansion lines_of isfile self_name modelpath).
  Section Expand.
  Variable rd : str -> res (list str * list str).
  Fixpoint expand (ls : list str) : res (list str * list str) :=
    match ls with
    | [] => Ok ([], [])
    | l :: r =>
        if is_include l then p <- PATH l ;; '(sub, i1) <- rd p ;; '(out, i2) <- expand r ;; Ok (until_exit sub ++ out, i1 ++ i2)
        else '(out, i2) <- expand r ;; Ok (l :: out, i2)
    end.
  End Expand.
  Lemma readlines_S fuel f : RL (S fuel) f = (ls <- lines_of f ;; '(out, ins) <- expand (RL fuel) ls ;; Ok (out, (if str_eqb f self_name then [] else [f]) ++ ins)).
  Proof. reflexivity. Qed.
  Lemma path_located l p : is_include l = true -> (PATH l = Ok p <-> LOC (include_name l) p).
  Proof using isfile self_name modelpath.
    clear lines_of. intros _. unfold include_path, located. destruct modelpath as [m|]; [split; [intro H; injection H as <-; reflexivity | intros ->; reflexivity]|].
    fold (near self_name). change (unback (include_name l)) with (to_slashes (include_name l)).
    set (g := to_slashes (include_name l)). set (n := include_name l).
    assert (F : forall i, Deck_Model.path_join (Deck_Model.path_join (Deck_Model.dirname self_name) (ups i)) g = near self_name i g) by reflexivity.
    cbn [find]. rewrite !F. split.
    - destruct (isfile (near self_name 0 g)) eqn:E0; [intro H; injection H as <-; exists 0; repeat split; auto; lia|].
      destruct (isfile (near self_name 1 g)) eqn:E1; [intro H; injection H as <-; exists 1; repeat split; auto; intros [|j] ?; [assumption|lia]|].
      destruct (isfile (near self_name 2 g)) eqn:E2; [intro H; injection H as <-; exists 2; repeat split; auto; intros [|[|j]] ?; [assumption..|lia]|].
      destruct (isfile (near self_name 3 g)) eqn:E3; [intro H; injection H as <-; exists 3; repeat split; auto; intros [|[|[|j]]] ?; [assumption..|lia]|discriminate].
    - intros (i & Hi & -> & Ht & Hf). destruct i as [|[|[|[|i]]]]; [| | | |lia]; rewrite ?(Hf 0), ?(Hf 1), ?(Hf 2) by lia; rewrite Ht; reflexivity.
  Qed.
  Lemma expand_sound rd ls out ins : (forall p o i, rd p = Ok (o, i) -> READ p o i) -> expand rd ls = Ok (out, ins) -> EXP ls out ins.
  Proof.
    intro R. revert out ins. induction ls as [|l ls IH]; intros out ins; cbn [expand]; [intro H; injection H as <- <-; constructor|].
    destruct (is_include l) eqn:I.
    - destruct (PATH l) as [p|] eqn:P; [|discriminate]. cbn [bind]. destruct (rd p) as [[sub i1]|] eqn:S; [|discriminate]. cbn [bind].
      destruct (expand rd ls) as [[o i2]|] eqn:E; [|discriminate]. cbn [bind]. intro H. injection H as <- <-.
      eapply expansion_file; [apply include_continues, I|apply path_located; [exact I | exact P]|apply R, S|apply until_exit_spec|apply IH; reflexivity].
    - destruct (expand rd ls) as [[o i2]|] eqn:E; [|discriminate]. cbn [bind]. intro H. injection H as <- <-. constructor; [|apply IH; reflexivity].
      intros f C. apply continues_name in C as [C _]. congruence.
  Qed.
  Lemma readlines_sound fuel f out ins : RL fuel f = Ok (out, ins) -> READ f out ins.
  Proof.
    revert f out ins. induction fuel as [|fuel IH]; intros f out ins H; [discriminate|]. rewrite readlines_S in H.
    destruct (lines_of f) as [ls|] eqn:L; [|discriminate]. cbn [bind] in H. destruct (expand (RL fuel) ls) as [[o i]|] eqn:E; [|discriminate]. cbn [bind] in H. injection H as <- <-.
    apply (reading_file _ _ _ _ f ls); [exact L|]. eapply expand_sound; [|exact E]. intros p x y. apply IH.
  Qed.
  Lemma readlines_complete : (forall f out ins, READ f out ins -> exists n, forall fuel, n <= fuel -> RL fuel f = Ok (out, ins)) /\
    (forall ls out ins, EXP ls out ins -> exists n, forall fuel, n <= fuel -> expand (RL fuel) ls = Ok (out, ins)).
  Proof.
    apply reading_both.
    - intros f ls out files L E [n IH]. exists (S n). intros [|fuel] H; [lia|]. rewrite readlines_S, L. cbn [bind]. rewrite IH by lia. reflexivity.
    - exists 0. reflexivity.
    - intros l ls out files C E [n IH]. exists n. intros fuel H. cbn [expand]. destruct (is_include l) eqn:I; [exfalso; eapply C, include_continues, I|]. rewrite IH by exact H. reflexivity.
    - intros l ls f path sub subfiles pre out files C P R [n IH] B E [m IH']. exists (Nat.max n m). intros fuel H. destruct (continues_name _ _ C) as [I N]. cbn [expand]. rewrite I.
      assert (P' : PATH l = Ok path) by (apply path_located; [exact I | rewrite N; exact P]). rewrite P'. cbn [bind]. rewrite IH by lia. cbn [bind]. rewrite IH' by lia. cbn [bind].
      rewrite (before_exit_fun _ _ B). reflexivity.
  Qed.
End Proofs.

(** ** C137 *)

(** Reading a file gives, in order, its own lines and, in place of each line that asks for a file, the text of that file before its first line that starts
    with exit; the files that are listed are those that were read, in the order in which they are met.  When that text exists it is found, provided the
    recursion limit is not reached. *)
Theorem C137_text : forall lines_of isfile self_name modelpath f out files,
  (exists limit, readlines lines_of isfile self_name modelpath limit f = Ok (out, files)) <-> reading lines_of isfile self_name modelpath f out files.
Proof.
  intros. split; [intros [n H]; eapply readlines_sound, H|]. intro H. destruct (proj1 (readlines_complete _ _ _ _) _ _ _ H) as [n Hn]. exists n. apply Hn. lia.
Qed.
Print Assumptions C137_text.
(** A larger limit changes nothing *)
Theorem C137_limit : forall lines_of isfile self_name modelpath f n m r, readlines lines_of isfile self_name modelpath n f = Ok r -> n <= m ->
  readlines lines_of isfile self_name modelpath m f = Ok r.
Proof.
  intros lines_of isfile self_name modelpath f n m r. revert f m r. induction n as [|n IH]; intros f m r H L; [discriminate|].
  destruct m as [|m]; [lia|]. rewrite readlines_S in *. destruct (lines_of f) as [ls|]; [|exact H]. cbn [bind] in *.
  assert (E : forall ls x, expand isfile self_name modelpath (readlines lines_of isfile self_name modelpath n) ls = Ok x -> expand isfile self_name modelpath (readlines lines_of isfile self_name modelpath m) ls = Ok x).
  { clear ls H r. induction ls as [|l ls IHl]; intros x; cbn [expand]; [auto|]. destruct (is_include l).
    - destruct (include_path isfile self_name modelpath l) as [p|]; [|auto]. cbn [bind]. destruct (readlines lines_of isfile self_name modelpath n p) as [[s i]|] eqn:R; [|discriminate].
      rewrite (IH _ m _ R) by lia. cbn [bind]. destruct (expand isfile self_name modelpath (readlines lines_of isfile self_name modelpath n) ls) as [[o i2]|]; [|discriminate]. rewrite (IHl _ eq_refl). auto.
    - destruct (expand isfile self_name modelpath (readlines lines_of isfile self_name modelpath n) ls) as [[o i2]|]; [|discriminate]. rewrite (IHl _ eq_refl). auto. }
  destruct (expand isfile self_name modelpath (readlines lines_of isfile self_name modelpath n) ls) as [x|] eqn:X; [|discriminate]. rewrite (E _ _ X). exact H.
Qed.
Print Assumptions C137_limit.
Section More.
  Variable lines_of : str -> res (list str).
  Variable isfile : str -> bool.
  Variables (self_name : str) (modelpath : option str).
  Local Notation RL := (readlines lines_of isfile self_name modelpath).
  Local Notation PATH := (include_path isfile self_name modelpath).
  Local Notation LOC := (located isfile self_name modelpath).
  Local Notation EX := (expand isfile self_name modelpath).
  Lemma expand_in rd ls x l p : EX rd ls = Ok x -> In l ls -> is_include l = true -> PATH l = Ok p -> exists r, rd p = Ok r.
  Proof.
    revert x. induction ls as [|k ls IH]; intros x E I C P; [destruct I|]. cbn [expand] in E. destruct I as [->|I].
    - rewrite C, P in E. cbn [bind] in E. destruct (rd p) as [r|]; [eauto | discriminate].
    - destruct (is_include k).
      + destruct (PATH k) as [q|]; [|discriminate]. cbn [bind] in E. destruct (rd q) as [[a b]|]; [|discriminate]. cbn [bind] in E. destruct (EX rd ls) as [y|] eqn:Y; [|discriminate]. eapply IH; eauto.
      + destruct (EX rd ls) as [y|] eqn:Y; [|discriminate]. eapply IH; eauto.
  Qed.
  Lemma expand_path rd ls x l : EX rd ls = Ok x -> In l ls -> is_include l = true -> exists p, PATH l = Ok p.
  Proof.
    revert x. induction ls as [|k ls IH]; intros x E I C; [destruct I|]. cbn [expand] in E. destruct I as [->|I].
    - rewrite C in E. destruct (PATH l) as [r|]; [eauto | discriminate].
    - destruct (is_include k).
      + destruct (PATH k) as [q|]; [|discriminate]. cbn [bind] in E. destruct (rd q) as [[a b]|]; [|discriminate]. cbn [bind] in E. destruct (EX rd ls) as [y|] eqn:Y; [|discriminate]. eapply IH; eauto.
      + destruct (EX rd ls) as [y|] eqn:Y; [|discriminate]. eapply IH; eauto.
  Qed.
  Definition asks (f g : str) : Prop := exists ls l name, lines_of f = Ok ls /\ In l ls /\ continues l name /\ LOC name g.
  Lemma asks_ok n f g r : RL n f = Ok r -> asks f g -> exists m r', m < n /\ RL m g = Ok r'.
  Proof.
    intros H (ls & l & name & L & I & C & P). destruct n as [|n]; [discriminate|]. rewrite readlines_S, L in H. cbn [bind] in H.
    destruct (EX (RL n) ls) as [x|] eqn:E; [|discriminate]. destruct (continues_name _ _ C) as [Ci Cn]. subst name.
    apply path_located in P; [|exact Ci]. destruct (expand_in _ _ _ _ _ E I Ci P) as [r' R]. exists n, r'. split; [lia | exact R].
  Qed.
  Lemma asks_all n f g r : RL n f = Ok r -> clos_trans _ asks f g -> exists m r', m < n /\ RL m g = Ok r'.
  Proof.
    intros H C. revert n r H. induction C as [f g A|f g h C1 IH1 C2 IH2]; intros n r H; [eapply asks_ok; eauto|].
    destruct (IH1 _ _ H) as (m & r' & L & H'). destruct (IH2 _ _ H') as (k & r'' & L' & H''). exists k, r''. split; [lia | exact H''].
  Qed.
  Lemma expand_plain rd ls : (forall l f, In l ls -> ~ continues l f) -> EX rd ls = Ok (ls, []).
  Proof.
    induction ls as [|l ls IH]; intro H; [reflexivity|]. cbn [expand]. destruct (is_include l) eqn:I; [exfalso; eapply H; [left; reflexivity|apply include_continues, I]|].
    rewrite IH by (intros; apply H; right; assumption). reflexivity.
  Qed.
  Lemma expand_app rd a b : EX rd (a ++ b) = (x <- EX rd a ;; y <- EX rd b ;; Ok (fst x ++ fst y, snd x ++ snd y)).
  Proof.
    induction a as [|l a IH]; cbn [app expand bind fst snd]; [destruct (EX rd b) as [[]|]; reflexivity|]. destruct (is_include l).
    - destruct (PATH l) as [p|]; [|reflexivity]. cbn [bind]. destruct (rd p) as [[s i]|]; [|reflexivity]. cbn [bind]. rewrite IH. destruct (EX rd a) as [[o1 i1]|]; [|reflexivity]. cbn [bind fst snd].
      destruct (EX rd b) as [[o2 i2]|]; [|reflexivity]. cbn [bind fst snd]. rewrite !app_assoc. reflexivity.
    - rewrite IH. destruct (EX rd a) as [[o1 i1]|]; [|reflexivity]. cbn [bind fst snd]. destruct (EX rd b) as [[o2 i2]|]; [|reflexivity]. reflexivity.
  Qed.
End More.

(** A file that asks for one file: what comes before, the lines of the other one before its exit, and what comes after *)
Theorem C137_one_file : forall lines_of isfile self_name modelpath a l b name g c e d,
  lines_of self_name = Ok (a ++ l :: b) -> continues l name -> located isfile self_name modelpath name g -> g <> self_name ->
  lines_of g = Ok (c ++ e :: d) -> exits e -> (forall x, In x c -> ~ exits x) -> (forall x f, In x (a ++ b ++ c ++ e :: d) -> ~ continues x f) ->
  forall limit, 2 <= limit -> readlines lines_of isfile self_name modelpath limit self_name = Ok (a ++ c ++ b, [g]).
Proof.
  intros lines_of isfile self_name modelpath a l b name g c e d L C P N L' X NX NC limit H. destruct limit as [|[|n]]; [lia..|].
  destruct (continues_name _ _ C) as [Ci Cn]. subst name. apply path_located in P; [|exact Ci].
  assert (R : readlines lines_of isfile self_name modelpath (S n) g = Ok (c ++ e :: d, [g])).
  { rewrite readlines_S, L'. cbn [bind]. rewrite expand_plain by (intros x f I; apply NC; rewrite !in_app_iff in *; tauto). cbn [bind].
    rewrite (proj2 (str_eqb_neq g self_name)) by exact N. reflexivity. }
  rewrite readlines_S, L. cbn [bind]. rewrite expand_app. rewrite expand_plain by (intros x f I; apply NC; rewrite !in_app_iff in *; tauto). cbn [bind expand fst snd].
  rewrite Ci, P. cbn [bind]. rewrite R. cbn [bind]. rewrite expand_plain by (intros x f I; apply NC; rewrite !in_app_iff in *; tauto). cbn [bind].
  assert (U : until_exit (c ++ e :: d) = c).
  { symmetry. apply before_exit_fun. split; [exact NX|]. right. exists e, d. split; [reflexivity | exact X]. }
  rewrite U. cbn [fst snd app]. rewrite str_eqb_refl. reflexivity.
Qed.
Print Assumptions C137_one_file.
(** Loading it is loading one file with that text *)
Theorem C137_load : forall lines_of isfile self_name modelpath num fs limit out files,
  readlines lines_of isfile self_name modelpath limit self_name = Ok (out, files) -> out <> [] -> forallb clean out = true ->
  load_file lines_of isfile self_name modelpath num fs limit = (h <- load num fs (join [nl] out) ;; Ok (h, files)).
Proof.
  intros lines_of isfile self_name modelpath num fs limit out files R N C. unfold load_file, load. rewrite R. cbn [bind].
  assert (F : filter (fun c => negb (chr_eqb c (ch 13))) (join [nl] out) = join [nl] out).
  { rewrite forallb_forall in C. clear R N. assert (G : forall s, clean s = true -> filter (fun c => negb (chr_eqb c (ch 13))) s = s).
    { clear. induction s as [|x s IH]; [reflexivity|]. cbn [clean forallb filter]. intro H. apply andb_inv in H as [H1 H2]. apply andb_inv in H1 as [_ H1].
      unfold cr in H1. rewrite H1. f_equal. apply IH, H2. }
    induction out as [|x [|y out] IH]; [reflexivity|cbn; apply G, C; left; reflexivity|].
    rewrite join_cons by discriminate. rewrite !filter_app, (G x) by (apply C; left; reflexivity). f_equal. change (filter (fun c => negb (chr_eqb c (ch 13))) [nl]) with [nl]. f_equal.
    apply IH. intros z I. apply C. right. exact I. }
  rewrite F, split_chr_join; [rewrite map_length; reflexivity|exact N|].
  revert C. clear. induction out as [|x out IH]; cbn [forallb]; [reflexivity|]. intro H. apply andb_inv in H as [H1 H2]. rewrite (IH H2), Bool.andb_true_r.
  destruct (mem_chr nl x) eqn:M; [|reflexivity]. apply mem_chr_iff in M. unfold clean in H1. rewrite forallb_forall in H1. specialize (H1 _ M). rewrite chr_eqb_refl in H1. discriminate.
Qed.
Print Assumptions C137_load.
(** A file that asks for a file which cannot be opened is not read, wherever the line is: also after a line exit, where its text would not be used *)
Theorem C137_after_exit_refuted : forall lines_of isfile self_name modelpath f a l b name, lines_of f = Ok (a ++ l :: b) -> continues l name ->
  (forall path, located isfile self_name modelpath name path -> exists e, lines_of path = Err e) ->
  forall limit, exists e, readlines lines_of isfile self_name modelpath limit f = Err e.
Proof.
  intros lines_of isfile self_name modelpath f a l b name L C M [|n]; [eexists; reflexivity|].
  destruct (readlines lines_of isfile self_name modelpath (S n) f) as [r|e] eqn:R; [exfalso|eauto]. rewrite readlines_S, L in R. cbn [bind] in R.
  destruct (expand isfile self_name modelpath (readlines lines_of isfile self_name modelpath n) (a ++ l :: b)) as [x|] eqn:E; [|discriminate].
  destruct (continues_name _ _ C) as [Ci Cn]. subst name. assert (I : In l (a ++ l :: b)) by (apply in_elt).
  destruct (expand_path _ _ _ _ _ _ _ E I Ci) as [p P]. destruct (expand_in _ _ _ _ _ _ _ _ E I Ci P) as [r' R'].
  apply path_located in P; [|exact Ci]. destruct (M _ P) as [e L']. destruct n as [|n]; [discriminate|]. rewrite readlines_S, L' in R'. discriminate.
Qed.
Print Assumptions C137_after_exit_refuted.
(** A file that asks for itself, directly or not, is never read, whatever the recursion limit *)
Theorem C137_circle_refuted : forall lines_of isfile self_name modelpath f, clos_trans _ (asks lines_of isfile self_name modelpath) f f ->
  forall limit, exists e, readlines lines_of isfile self_name modelpath limit f = Err e.
Proof.
  intros lines_of isfile self_name modelpath f C limit. destruct (readlines lines_of isfile self_name modelpath limit f) as [r|e] eqn:R; [exfalso|eauto].
  revert r R. induction limit as [limit IH] using (well_founded_induction Wf_nat.lt_wf). intros r R. destruct (asks_all _ _ _ _ _ _ _ _ R C) as (m & r' & L & R'). exact (IH m L r' R').
Qed.
Print Assumptions C137_circle_refuted.
(** Without a model path, a file whose name has capitals is looked for in small letters with the capitals of the disk, and the reading stops *)
Theorem C137_capitals_refuted : forall lines_of isfile self_name f a l b name, lines_of f = Ok (a ++ l :: b) -> (forall x g, In x a -> ~ continues x g) -> continues l name ->
  (forall i, i < 4 -> isfile (near self_name i (to_slashes name)) = false) ->
  forall limit, 1 <= limit -> readlines lines_of isfile self_name None limit f = Err ValueError.
Proof.
  intros lines_of isfile self_name f a l b name L NA C F [|n] H; [lia|]. rewrite readlines_S, L. cbn [bind]. rewrite expand_app, expand_plain by exact NA. cbn [bind expand].
  destruct (continues_name _ _ C) as [Ci Cn]. rewrite Ci. unfold include_path. rewrite Cn. cbn [find]. change (unback name) with (to_slashes name).
  change (Deck_Model.path_join (Deck_Model.path_join (Deck_Model.dirname self_name) (ups 0)) (to_slashes name)) with (near self_name 0 (to_slashes name)). rewrite (F 0) by lia.
  change (Deck_Model.path_join (Deck_Model.path_join (Deck_Model.dirname self_name) (ups 1)) (to_slashes name)) with (near self_name 1 (to_slashes name)). rewrite (F 1) by lia.
  change (Deck_Model.path_join (Deck_Model.path_join (Deck_Model.dirname self_name) (ups 2)) (to_slashes name)) with (near self_name 2 (to_slashes name)). rewrite (F 2) by lia.
  change (Deck_Model.path_join (Deck_Model.path_join (Deck_Model.dirname self_name) (ups 3)) (to_slashes name)) with (near self_name 3 (to_slashes name)). rewrite (F 3) by lia. reflexivity.
Qed.
Print Assumptions C137_capitals_refuted.

(** ** C138: paths in any case *)
Definition text (cs : list str) : str := S_ "/" ++ join (S_ "/") cs.
Definition part (c : str) : Prop := c <> [] /\ ~ In "/"%char c.
Section Tree.
  Variable listdir : str -> res (list str).
  (** The entries of every directory are names *)
  Definition names : Prop := forall p es, listdir p = Ok es -> Forall part es.
  (** [ds] is a path that exists under the directory [pre] *)
  Fixpoint exists_in (pre ds : list str) : Prop :=
    match ds with [] => True | d :: ds' => (exists es, listdir (text pre) = Ok es /\ In d es) /\ exists_in (pre ++ [d]) ds' end.
  (** The same path in another case *)
  Definition same_letters (ds cs : list str) : Prop := Forall2 (fun d c => lower d = lower c) ds cs.
  (** Where the name that is asked for exists, it is the one that is taken *)
  Fixpoint prefers (pre ds cs : list str) : Prop :=
    match ds, cs with
    | d :: ds', c :: cs' => (forall es, listdir (text pre) = Ok es -> In c es -> d = c) /\ prefers (pre ++ [d]) ds' cs'
    | _, _ => True
    end.
End Tree.
Lemma part_head c : part c -> exists x t, c = x :: t /\ Deck_Model.is_slash x = false.
Proof.
  intros [N S]. destruct c as [|x t]; [contradiction|]. exists x, t. split; [reflexivity|]. unfold Deck_Model.is_slash. apply chr_eqb_neq. intros ->. apply S. left. reflexivity.
Qed.
Lemma ends_slash_app a c : part c -> Deck_Model.ends_slash (a ++ c) = false.
Proof.
  intros [N S]. unfold Deck_Model.ends_slash. rewrite rev_app_distr. destruct (rev c) as [|x t] eqn:E.
  - exfalso. apply N. rewrite <- (rev_involutive c), E. reflexivity.
  - cbn [app]. unfold Deck_Model.is_slash. apply chr_eqb_neq. intros ->. apply S. apply in_rev. rewrite E. left. reflexivity.
Qed.
Lemma text_snoc pre d : Forall part pre -> part d -> Deck_Model.path_join (text pre) d = text (pre ++ [d]).
Proof.
  intros F P. destruct (part_head _ P) as (x & t & E & S). unfold Deck_Model.path_join. rewrite E, S, <- E. destruct pre as [|a pre].
  - reflexivity.
  - assert (D : Deck_Model.ends_slash (text (a :: pre)) = false).
    { assert (X : exists b l, a :: pre = l ++ [b]) by (destruct (exists_last (l := a :: pre)) as (l & b & X); [discriminate | eauto]).
      destruct X as (b & l & X). rewrite X in *. apply Forall_app in F as [F1 F2]. inversion F2; subst. unfold text.
      destruct l as [|y l]; [apply (ends_slash_app (S_ "/")); assumption|].
      rewrite join_app by discriminate. cbn [join]. rewrite !app_assoc. apply ends_slash_app. assumption. }
    rewrite D. unfold text. cbn [nonempty negb orb]. rewrite join_app by discriminate. rewrite app_assoc. reflexivity.
Qed.
Lemma text_split cs : cs <> [] -> Forall part cs -> split_chr slash (tl (text cs)) = cs.
Proof.
  intros N F. unfold text. cbn [S_ app tl]. change (S_ "/") with [slash]. apply split_chr_join; [exact N|]. apply forallb_forall. intros c I.
  rewrite Forall_forall in F. destruct (F c I) as [_ S]. destruct (mem_chr slash c) eqn:M; [|reflexivity]. apply mem_chr_iff in M. contradiction.
Qed.
Lemma filter_In_nil {A} (f : A -> bool) l x : In x l -> f x = true -> filter f l <> [].
Proof. intros I F E. assert (In x (filter f l)) by (apply filter_In; auto). rewrite E in H. destruct H. Qed.

Section Walks.
  Variable listdir : str -> res (list str).
  Hypothesis N : names listdir.
  Lemma walk_found pre cs q : Forall part pre -> walk listdir (text pre) cs = Ok q ->
    exists ds, q = text (pre ++ ds) /\ Forall part ds /\ exists_in listdir pre ds /\ same_letters ds cs /\ prefers listdir pre ds cs.
  Proof.
    revert pre. induction cs as [|c cs IH]; intros pre F H.
    - injection H as <-. exists []. rewrite app_nil_r. repeat split; constructor.
    - cbn [walk] in H. destruct (listdir (text pre)) as [es|] eqn:L; [|discriminate]. cbn [bind] in H. set (m := filter (fun e => str_eqb (lower e) (lower c)) es) in *.
      set (m2 := if 1 <? List.length m then filter (fun e => str_eqb e c) m else m) in *.
      destruct m2 as [|d r] eqn:M2; [discriminate|].
      assert (Im : In d m). { unfold m2 in M2. destruct (1 <? List.length m); [|rewrite M2; left; reflexivity]. assert (In d (filter (fun e => str_eqb e c) m)) by (rewrite M2; left; reflexivity). apply filter_In in H0 as [? _]. assumption. }
      assert (Id : In d es /\ lower d = lower c) by (unfold m in Im; apply filter_In in Im as [? E]; apply str_eqb_eq in E; auto). destruct Id as [Id Ed].
      assert (Pd : part d) by (specialize (N _ _ L); rewrite Forall_forall in N; apply N, Id).
      rewrite text_snoc in H by assumption. destruct (IH (pre ++ [d])) as (ds & -> & Fd & X & SL & PR); [apply Forall_app; auto|exact H|].
      exists (d :: ds). rewrite <- app_assoc. split; [reflexivity|]. split; [constructor; assumption|]. split; [split; [eauto | exact X]|]. split; [constructor; assumption|].
      split; [|exact PR]. intros es' L' I. rewrite L in L'. injection L' as <-.
      assert (Imc : In c m) by (unfold m; apply filter_In; split; [exact I | apply str_eqb_refl]).
      unfold m2 in M2. destruct (1 <? List.length m) eqn:Len.
      + assert (In d (filter (fun e => str_eqb e c) m)) by (rewrite M2; left; reflexivity). apply filter_In in H0 as [_ E]. apply str_eqb_eq. exact E.
      + apply Nat.ltb_ge in Len. rewrite M2 in *. destruct r; [|cbn in Len; lia]. destruct Imc as [E|[]]. exact E.
  Qed.
  Lemma walk_exact pre cs : Forall part pre -> exists_in listdir pre cs -> walk listdir (text pre) cs = Ok (text (pre ++ cs)).
  Proof.
    revert pre. induction cs as [|c cs IH]; intros pre F X; [cbn; rewrite app_nil_r; reflexivity|]. destruct X as [(es & L & I) X]. cbn [walk]. rewrite L. cbn [bind].
    set (m := filter (fun e => str_eqb (lower e) (lower c)) es).
    assert (Im : In c m) by (unfold m; apply filter_In; split; [exact I | apply str_eqb_refl]).
    assert (Pc : part c) by (specialize (N _ _ L); rewrite Forall_forall in N; apply N, I).
    assert (G : exists r, (if 1 <? List.length m then filter (fun e => str_eqb e c) m else m) = c :: r).
    { destruct (1 <? List.length m) eqn:Len.
      - destruct (filter (fun e => str_eqb e c) m) as [|d r] eqn:E; [exfalso; eapply filter_In_nil in Im; [apply Im, E|apply str_eqb_refl]|].
        assert (D : In d (filter (fun e => str_eqb e c) m)) by (rewrite E; left; reflexivity). apply filter_In in D as [_ D]. apply str_eqb_eq in D. subst d. eauto.
      - apply Nat.ltb_ge in Len. destruct m as [|d [|y r]]; [destruct Im| |cbn in Len; lia]. destruct Im as [->|[]]. eauto. }
    destruct G as [r ->]. rewrite text_snoc by assumption. rewrite IH; [rewrite <- app_assoc; reflexivity|apply Forall_app; auto|exact X].
  Qed.
  Lemma walk_unique pre ds cs : (forall p es a b, listdir p = Ok es -> In a es -> In b es -> lower a = lower b -> a = b) -> (forall p es, listdir p = Ok es -> NoDup es) ->
    Forall part pre -> exists_in listdir pre ds -> same_letters ds cs -> walk listdir (text pre) cs = Ok (text (pre ++ ds)).
  Proof.
    intros U ND. revert pre cs. induction ds as [|d ds IH]; intros pre cs F X SL; inversion SL as [|? c ? cs' E SL']; subst; [cbn; rewrite app_nil_r; reflexivity|].
    destruct X as [(es & L & I) X]. cbn [walk]. rewrite L. cbn [bind]. set (m := filter (fun e => str_eqb (lower e) (lower c)) es).
    assert (Im : In d m) by (unfold m; apply filter_In; split; [exact I | apply str_eqb_eq; exact E]).
    assert (All : forall x, In x m -> x = d). { intros x Ix. unfold m in Ix. apply filter_In in Ix as [Ix Ex]. apply str_eqb_eq in Ex. eapply U; [exact L|exact Ix|exact I|congruence]. }
    assert (NDm : NoDup m) by (unfold m; apply NoDup_filter; eapply ND, L).
    assert (Pd : part d) by (specialize (N _ _ L); rewrite Forall_forall in N; apply N, I).
    assert (G : m = [d]). { destruct m as [|x [|y r]]; [destruct Im|f_equal; apply All; left; reflexivity|]. exfalso. inversion NDm as [|? ? Nx _]; subst. apply Nx. left. rewrite (All x), (All y); cbn; auto. }
    rewrite G. cbn [List.length Nat.ltb Nat.leb]. rewrite text_snoc by assumption. rewrite (IH (pre ++ [d]) cs'); [rewrite <- app_assoc; reflexivity|apply Forall_app; auto|exact X|exact SL'].
  Qed.
End Walks.

(** What is found is a path that exists, with the same letters up to their case, and the name that is asked for wherever it exists *)
Theorem C138_found : forall listdir cs q, names listdir -> cs <> [] -> Forall part cs -> unix_path listdir (text cs) = Ok q ->
  exists ds, q = text ds /\ exists_in listdir [] ds /\ same_letters ds cs /\ prefers listdir [] ds cs.
Proof.
  intros listdir cs q N NE F H. unfold unix_path in H. rewrite text_split in H by assumption. change [slash] with (text []) in H.
  destruct (walk_found listdir N [] cs q (Forall_nil _) H) as (ds & -> & _ & A & B & C). exists ds. auto.
Qed.
Print Assumptions C138_found.
(** A path that exists is found as it is *)
Theorem C138_exact : forall listdir cs, names listdir -> cs <> [] -> exists_in listdir [] cs -> unix_path listdir (text cs) = Ok (text cs).
Proof.
  intros listdir cs N NE X. assert (F : Forall part cs).
  { clear NE. revert X. generalize (@nil str). induction cs as [|c cs IH]; intros pre X; [constructor|]. destruct X as [(es & L & I) X]. constructor; [specialize (N _ _ L); rewrite Forall_forall in N; apply N, I | eapply IH, X]. }
  unfold unix_path. rewrite text_split by assumption. apply (walk_exact listdir N [] cs (Forall_nil _) X).
Qed.
Print Assumptions C138_exact.
(** Searching again changes nothing *)
Theorem C138_again : forall listdir cs q, names listdir -> cs <> [] -> Forall part cs -> unix_path listdir (text cs) = Ok q -> unix_path listdir q = Ok q.
Proof.
  intros listdir cs q N NE F H. destruct (C138_found _ _ _ N NE F H) as (ds & -> & X & SL & _). apply C138_exact; [exact N| |exact X]. intros ->. inversion SL. subst. apply NE. reflexivity.
Qed.
Print Assumptions C138_again.
(** When no directory has two names that differ by case only, every path is found in any case *)
Theorem C138_any_case : forall listdir ds cs, names listdir -> (forall p es, listdir p = Ok es -> NoDup es) ->
  (forall p es a b, listdir p = Ok es -> In a es -> In b es -> lower a = lower b -> a = b) ->
  cs <> [] -> Forall part cs -> exists_in listdir [] ds -> same_letters ds cs -> unix_path listdir (text cs) = Ok (text ds).
Proof.
  intros listdir ds cs N ND U NE F X SL. unfold unix_path. rewrite text_split by assumption. apply (walk_unique listdir N [] ds cs U ND (Forall_nil _) X SL).
Qed.
Print Assumptions C138_any_case.
(** Two names that differ by case only, neither as asked: nothing is found, although both exist *)
Theorem C138_two_names_refuted : forall listdir es c, listdir (text []) = Ok es -> part c -> ~ In c es ->
  2 <= List.length (filter (fun e => str_eqb (lower e) (lower c)) es) -> unix_path listdir (text [c]) = Err OSError2.
Proof.
  intros listdir es c L P NI H. unfold unix_path. rewrite text_split; [|discriminate|constructor; [exact P | constructor]]. cbn [walk]. change [slash] with (text []). rewrite L. cbn [bind].
  rewrite (proj2 (Nat.ltb_lt _ _)) by lia. destruct (filter (fun e => str_eqb e c) _) as [|d r] eqn:E; [reflexivity|]. exfalso.
  assert (I : In d (filter (fun e => str_eqb e c) (filter (fun e => str_eqb (lower e) (lower c)) es))) by (rewrite E; left; reflexivity).
  apply filter_In in I as [I D]. apply str_eqb_eq in D. subst d. apply filter_In in I as [I _]. contradiction.
Qed.
Print Assumptions C138_two_names_refuted.
(** A directory that has the name that is asked for is entered and the others are not tried: a file that is in another one is not found *)
Theorem C138_other_directory_refuted : forall listdir es d es1 c, names listdir -> listdir (text []) = Ok es -> In d es -> listdir (text [d]) = Ok es1 ->
  part c -> (forall e, In e es1 -> lower e <> lower c) -> unix_path listdir (text [d; c]) = Err OSError2.
Proof.
  intros listdir es d es1 c N L I L1 P NM. assert (Pd : part d) by (specialize (N _ _ L); rewrite Forall_forall in N; apply N, I).
  unfold unix_path. rewrite text_split; [|discriminate|constructor; [exact Pd | constructor; [exact P | constructor]]].
  assert (W : walk listdir (text []) [d] = Ok (text [d])) by (apply (walk_exact listdir N [] [d] (Forall_nil _)); repeat split; eauto).
  change [slash] with (text []). cbn [walk] in *. rewrite L in *. cbn [bind] in *.
  destruct (if 1 <? List.length (filter (fun e => str_eqb (lower e) (lower d)) es) then _ else _) as [|x r]; [discriminate|]. injection W as W. rewrite W, L1. cbn [bind].
  assert (Z : filter (fun e => str_eqb (lower e) (lower c)) es1 = []).
  { destruct (filter _ es1) as [|y s] eqn:E; [reflexivity|]. exfalso. assert (Iy : In y (filter (fun e => str_eqb (lower e) (lower c)) es1)) by (rewrite E; left; reflexivity).
    apply filter_In in Iy as [Iy D]. apply str_eqb_eq in D. exact (NM _ Iy D). }
  rewrite Z. reflexivity.
Qed.
Print Assumptions C138_other_directory_refuted.

(** ** Examples: files that meet the hypotheses *)
Definition demo_main : str := S_ "/m/htc/a.htc".
Definition demo_line : str := S_ "  Continue_In_File ./htc/Sub.HTC ; wind".
Definition demo_lines (p : str) : res (list str) :=
  if str_eqb p demo_main then Ok [S_ ";x"; demo_line; S_ "exit;"]
  else if str_eqb p (S_ "/m/./htc/sub.htc") then Ok [S_ "begin wind;"; S_ "end wind;"; S_ " EXIT ;"; S_ "tail"]
  else if str_eqb p (S_ "/m/loop") then Ok [S_ "continue_in_file loop;"]
  else Err OSError2.
Example demo_continues : continues demo_line (S_ "./htc/sub.htc").
Proof.
  exists (S_ "  "), (S_ "Continue_In_File"), (S_ " ./htc/Sub.HTC "), (S_ "; wind"). repeat split; try reflexivity; [|right; eexists; reflexivity].
  apply not_in_forallb. reflexivity.
Qed.
Example demo_exits : exits (S_ " EXIT ;").
Proof. apply exits_test. reflexivity. Qed.
Example demo_read : readlines demo_lines (fun _ => false) demo_main (Some (S_ "/m/")) 2 demo_main = Ok ([S_ ";x"; S_ "begin wind;"; S_ "end wind;"; S_ "exit;"], [S_ "/m/./htc/sub.htc"]).
Proof.
  apply (C137_one_file demo_lines (fun _ => false) demo_main (Some (S_ "/m/")) [S_ ";x"] demo_line [S_ "exit;"] (S_ "./htc/sub.htc") (S_ "/m/./htc/sub.htc") [S_ "begin wind;"; S_ "end wind;"] (S_ " EXIT ;") [S_ "tail"]);
    try reflexivity; [apply demo_continues|discriminate|apply demo_exits| |].
  - intros x [<-|[<-|[]]] X; apply exits_test in X; discriminate X.
  - intros x f I C. apply continues_name in C as [C _]. repeat (destruct I as [<-|I]; [discriminate C|]). destruct I.
Qed.
Example demo_load num fs : exists h, load_file demo_lines (fun _ => false) demo_main (Some (S_ "/m/")) num fs 2 = Ok (h, [S_ "/m/./htc/sub.htc"]) /\ map fst (h_contents h) = [S_ "wind"].
Proof.
  rewrite (C137_load _ _ _ _ num fs 2 _ _ demo_read) by (discriminate || reflexivity). eexists. split; reflexivity.
Qed.
Example demo_missing : forall limit, exists e, readlines (fun p => if str_eqb p demo_main then demo_lines p else Err OSError2) (fun _ => false) demo_main (Some (S_ "/m/")) limit demo_main = Err e.
Proof.
  apply (C137_after_exit_refuted _ _ _ _ _ [S_ ";x"] demo_line [S_ "exit;"] (S_ "./htc/sub.htc")); [reflexivity|apply demo_continues|]. intros path ->. eexists. reflexivity.
Qed.
Example demo_circle : forall limit, exists e, readlines demo_lines (fun _ => false) (S_ "/m/loop") (Some (S_ "/m/")) limit (S_ "/m/loop") = Err e.
Proof.
  apply C137_circle_refuted. apply t_step. exists [S_ "continue_in_file loop;"], (S_ "continue_in_file loop;"), (S_ "loop"). repeat split; [left; reflexivity|].
  change (S_ "loop") with (include_name (S_ "continue_in_file loop;")). apply include_continues. reflexivity.
Qed.
(** The file exists with capitals *)
Example demo_capitals : readlines demo_lines (fun p => str_eqb p (S_ "/m/htc/../htc/Sub.HTC")) demo_main None 5 demo_main = Err ValueError.
Proof.
  apply (C137_capitals_refuted _ _ _ _ [S_ ";x"] demo_line [S_ "exit;"] (S_ "./htc/sub.htc")); [reflexivity| |apply demo_continues| |lia].
  - intros x g [<-|[]] C. apply continues_name in C as [C _]. discriminate C.
  - intros [|[|[|[|i]]]] H; try reflexivity. lia.
Qed.
Definition demo_dir (p : str) : res (list str) :=
  if str_eqb p (S_ "/") then Ok [S_ "Data"; S_ "data"; S_ "Htc"; S_ "LOG"; S_ "log"]
  else if str_eqb p (S_ "/Data") then Ok [S_ "Ae.dat"]
  else if str_eqb p (S_ "/data") then Ok [S_ "pc.dat"]
  else if str_eqb p (S_ "/Htc") then Ok [S_ "DTU.htc"]
  else Err OSError2.
Lemma part_b c : nonempty c && negb (mem_chr "/"%char c) = true -> part c.
Proof. intro H. apply andb_inv in H as [H1 H2]. split; [intros ->; discriminate|]. intro I. apply mem_chr_iff in I. rewrite I in H2. discriminate. Qed.
Example demo_names : names demo_dir.
Proof.
  intros p es. unfold demo_dir. destruct (str_eqb p (S_ "/")); [intro H; injection H as <-; repeat constructor; apply part_b; reflexivity|].
  destruct (str_eqb p (S_ "/Data")); [intro H; injection H as <-; repeat constructor; apply part_b; reflexivity|].
  destruct (str_eqb p (S_ "/data")); [intro H; injection H as <-; repeat constructor; apply part_b; reflexivity|].
  destruct (str_eqb p (S_ "/Htc")); [intro H; injection H as <-; repeat constructor; apply part_b; reflexivity|discriminate].
Qed.
Example demo_exact : unix_path demo_dir (text [S_ "Data"; S_ "Ae.dat"]) = Ok (text [S_ "Data"; S_ "Ae.dat"]).
Proof. apply C138_exact; [apply demo_names|discriminate|]. repeat split; eexists; (split; [reflexivity|]); cbn; auto. Qed.
Example demo_found : unix_path demo_dir (S_ "/htc/dtu.HTC") = Ok (S_ "/Htc/DTU.htc").
Proof. reflexivity. Qed.
Example demo_two : unix_path demo_dir (text [S_ "Log"]) = Err OSError2.
Proof. apply (C138_two_names_refuted _ [S_ "Data"; S_ "data"; S_ "Htc"; S_ "LOG"; S_ "log"]); [reflexivity|apply part_b; reflexivity| |apply Nat.leb_le; reflexivity]. intro I. repeat (destruct I as [E|I]; [discriminate E|]). destruct I. Qed.
(** The file is in Data *)
Example demo_other : unix_path demo_dir (text [S_ "data"; S_ "Ae.dat"]) = Err OSError2.
Proof.
  apply (C138_other_directory_refuted _ [S_ "Data"; S_ "data"; S_ "Htc"; S_ "LOG"; S_ "log"] _ [S_ "pc.dat"]); [apply demo_names|reflexivity|cbn; auto|reflexivity|apply part_b; reflexivity|].
  intros e [<-|[]]. discriminate.
Qed.
(** A tree in which no two names differ by case only *)
Definition demo_plain (p : str) : res (list str) := if str_eqb p (S_ "/") then Ok [S_ "Data"; S_ "Htc"] else if str_eqb p (S_ "/Data") then Ok [S_ "Ae.dat"] else Err OSError2.
Example demo_any : unix_path demo_plain (text [S_ "DATA"; S_ "ae.DAT"]) = Ok (text [S_ "Data"; S_ "Ae.dat"]).
Proof.
  assert (C : forall p es, demo_plain p = Ok es -> es = [S_ "Data"; S_ "Htc"] \/ es = [S_ "Ae.dat"]).
  { intros p es. unfold demo_plain. destruct (str_eqb p (S_ "/")); [intro H; injection H as <-; auto|]. destruct (str_eqb p (S_ "/Data")); [intro H; injection H as <-; auto|discriminate]. }
  apply C138_any_case.
  - intros p es H. apply C in H as [->| ->]; repeat constructor; apply part_b; reflexivity.
  - intros p es H. apply C in H as [->| ->]; repeat constructor; cbn; try tauto. intros [E|[]]; discriminate E.
  - intros p es a b H Ia Ib E. apply C in H as [->| ->]; cbn [In] in Ia, Ib; decompose [or] Ia; decompose [or] Ib; subst; try contradiction; try reflexivity; discriminate E.
  - discriminate.
  - repeat constructor; apply part_b; reflexivity.
  - repeat split; eexists; (split; [reflexivity|]); cbn; auto.
  - repeat constructor.
Qed.
