(** Property C99: the channels of a BHawC result file survive writing and reading. *)
From Coq Require Import Lia.
From Verif Require Import Py PyFacts TextFacts ListFacts Registry_Model H2io_Model H2io_Proofs H2io_Props H2dat_Model H2dat_Props H2datNames_Props.
Local Open Scope nat_scope.

(** ** Specification *)
(** A name or a description: a text of at most 26 characters in one line, without tab or opening bracket, without blanks at its ends *)
Definition text_ok (s : str) : Prop := s <> [] /\ List.length s <= 26 /\ no_edge_space s = true /\ Forall (fun c => c <> nl /\ c <> tab /\ c <> "["%char) s.
(** A unit: a text without blanks or brackets, in brackets *)
Definition bare_unit (u : str) : Prop := Forall (fun c => is_space c = false /\ ~ In c (S_ "()[]")) u.
Definition bracketed (u : str) : str := S_ "[" ++ u ++ S_ "]".
Definition says_channel (n u d : str) : Prop := ~ (nowhere (S_ "channel") (lower n) /\ nowhere (S_ "channel") (lower u) /\ nowhere (S_ "channel") (lower d)).
Definition bhawc_channels {V} (o : dat V) (us : list str) (n : nat) : Prop :=
  List.length (d_names o) = n /\ List.length us = n /\ List.length (d_descr o) = n /\ d_units o = map bracketed us /\
  Forall text_ok (d_names o) /\ Forall text_ok (d_descr o) /\ Forall bare_unit us.
Definition time_ok {V} (num : str -> option V) (is_zero : V -> bool) (s : str) : Prop :=
  s <> [] /\ Forall (fun c => In c (S_ "0123456789.-")) s /\ exists v, num s = Some v /\ is_zero v = false.
Definition rows_ok {V} (num : str -> option V) (fmt16 fmt3 : V -> str) (is_zero : V -> bool) (rnd : V -> V) (o : dat V) (n : nat) : Prop :=
  Forall (fun r => List.length r = n /\ Forall (number_ok num fmt16 rnd) r) (d_data o) /\
  exists rows t row, d_data o = rows ++ [t :: row] /\ time_ok num is_zero (fmt3 t).

(** ** Occurrences *)
Lemma nowhere_char sub s x : In x sub -> ~ In x s -> nowhere sub s.
Proof. intros H1 H2 a b ->. apply H2. rewrite !in_app_iff. auto. Qed.
Lemma nowhere_sep sub a c b : nowhere sub a -> nowhere sub b -> ~ In c sub -> sub <> [] -> nowhere sub (a ++ c :: b).
Proof.
  intros Ha Hb Hc Hs x y E. destruct (le_lt_dec (List.length x + List.length sub) (List.length a)) as [L|L].
  - apply (Ha x (firstn (List.length a - List.length x - List.length sub) y)). assert (G := f_equal (firstn (List.length a)) E). rewrite firstn_app, firstn_all, Nat.sub_diag in G. cbn [firstn] in G. rewrite app_nil_r in G. rewrite G at 1.
    rewrite !firstn_app. rewrite !firstn_all2 by lia. reflexivity.
  - destruct (le_lt_dec (List.length x) (List.length a)) as [L2|L2].
    + apply Hc. assert (G := f_equal (fun l => nth_error l (List.length a)) E). cbv beta in G. rewrite nth_error_app2, Nat.sub_diag in G by lia. cbn [nth_error] in G. rewrite nth_error_app2 in G by lia. rewrite nth_error_app1 in G by lia. symmetry in G. now apply nth_error_In in G.
    + apply (Hb (skipn (S (List.length a)) x) y). assert (G := f_equal (skipn (S (List.length a))) E). rewrite skipn_app in G. rewrite skipn_all2 in G by lia. replace (S (List.length a) - List.length a) with 1 in G by lia. change (skipn 1 (c :: b)) with b in G. rewrite app_nil_l, skipn_app in G. replace (S (List.length a) - List.length x) with 0 in G by lia. exact G.
Qed.
Lemma nowhere_blanks sub a k : nowhere sub a -> ~ In sp sub -> sub <> [] -> nowhere sub (a ++ repeat sp k).
Proof.
  intros Ha Hc Hs. assert (N : nowhere sub []) by (intros x y E; symmetry in E; apply app_eq_nil in E; destruct E as [_ E]; apply app_eq_nil in E; now destruct E).
  revert a Ha. induction k as [|k IH]; intros a Ha; [now rewrite app_nil_r|]. cbn [repeat]. apply nowhere_sep; try assumption. exact (IH [] N).
Qed.
Lemma contains_nowhere sub s : nowhere sub s -> contains s sub = false.
Proof. intro H. apply not_true_is_false. intro G. apply contains_iff in G. destruct G as (a & b & G). exact (H a b G). Qed.
Lemma find_str_here sub a b : nowhere sub (a ++ removelast sub) -> sub <> [] -> find_str sub (a ++ sub ++ b) = Some (List.length a).
Proof.
  intros H Hs. induction a as [|c a IH].
  - cbn [app List.length]. destruct sub as [|x sub]; [contradiction|]. cbn [app find_str]. change (x :: sub ++ b) with ((x :: sub) ++ b). now rewrite startswith_app.
  - cbn [app find_str]. replace (startswith (c :: a ++ sub ++ b) sub) with false; [rewrite IH by exact (nowhere_cons _ _ _ H); reflexivity|]. symmetry.
    destruct (exists_last Hs) as (p0 & z & Ez). assert (R : removelast sub = p0) by (rewrite Ez; apply removelast_last). rewrite R in *.
    replace (c :: a ++ sub ++ b) with (((c :: a) ++ p0) ++ (z :: b)) by (rewrite Ez; cbn [app]; now rewrite <- !app_assoc). rewrite startswith_cut; [now apply nowhere_start|]. rewrite Ez, !app_length. cbn [List.length]. lia.
Qed.

Lemma nowhere_open o a u z : ~ In o a -> ~ In o u -> nowhere (o :: u ++ [z]) (a ++ o :: u).
Proof.
  intros Ha Hu x y E. assert (L := f_equal (@List.length _) E). rewrite !app_length in L. cbn [List.length] in L. rewrite app_length in L. cbn [List.length] in L.
  assert (G := f_equal (fun l => nth_error l (List.length x)) E). cbv beta in G. rewrite (nth_error_app2 x) in G by lia. rewrite Nat.sub_diag in G. cbn [app nth_error] in G. rewrite nth_error_app1 in G by lia. apply nth_error_In in G. contradiction.
Qed.
(** ** One line *)
Definition bline (k : N) (n u d : str) : str := pad 19 (str_of_N k) ++ [tab] ++ pad 25 d ++ [tab] ++ pad 25 n ++ [tab] ++ pad 25 (bracketed u).
Lemma no_brackets_bracketed u : bare_unit u -> no_brackets (bracketed u) = u.
Proof.
  intro H. rewrite no_brackets_spec. unfold bracketed. rewrite !filter_app. change (filter _ (S_ "[")) with (@nil ascii). change (filter _ (S_ "]")) with (@nil ascii). rewrite app_nil_r, app_nil_l.
  induction H as [|c u [_ Hc] _ IH]; [reflexivity|]. cbn [filter]. replace (mem_chr c (S_ "()[]")) with false; [cbn [negb]; now rewrite IH|]. symmetry. apply not_true_is_false. intro G. apply mem_chr_iff in G. contradiction.
Qed.
Lemma bsel_channels_eq k names us descrs : Forall text_ok names -> Forall text_ok descrs -> Forall bare_unit us -> List.length names = List.length us -> List.length names = List.length descrs ->
  forall i, nth_error (bsel_channels k names (map bracketed us) descrs) i =
    match nth_error names i, nth_error us i, nth_error descrs i with Some n, Some u, Some d => Some (bline (k + N.of_nat i) n u d) | _, _, _ => None end.
Proof.
  intros Hn. revert k us descrs. induction Hn as [|n names Hn0 Hn IH]; intros k us descrs Hd Hu L1 L2 i; [destruct us; [|discriminate]; destruct i; reflexivity|].
  destruct us as [|u us]; [discriminate|]. destruct descrs as [|d descrs]; [discriminate|]. cbn [map bsel_channels]. inversion Hd; subst. inversion Hu; subst. destruct i as [|i]; cbn [nth_error].
  - f_equal. rewrite N.add_0_r. unfold bline. rewrite no_brackets_bracketed by assumption. destruct Hn0 as (_ & Ln & _). assert (Ld : List.length d <= 26) by (match goal with H : text_ok d |- _ => exact (proj1 (proj2 H)) end). rewrite !firstn_all2 by assumption. reflexivity.
  - rewrite IH; try assumption; [|cbn in L1; lia|cbn in L2; lia]. replace (k + 1 + N.of_nat i)%N with (k + N.of_nat (S i))%N by lia. reflexivity.
Qed.
Lemma bsel_length k names us descrs : List.length names = List.length us -> List.length names = List.length descrs -> List.length (bsel_channels k names us descrs) = List.length names.
Proof. revert k us descrs. induction names as [|n names IH]; intros k us descrs L1 L2; [reflexivity|]. destruct us as [|u us]; [discriminate|]. destruct descrs as [|d descrs]; [discriminate|]. cbn. now rewrite IH by (cbn in *; lia). Qed.
Lemma spaces k : forallb is_space (repeat sp k) = true.
Proof. induction k; [reflexivity|exact IHk]. Qed.
Lemma bracketed_last u : exists b, bracketed u = "["%char :: b ++ ["]"%char].
Proof. now exists u. Qed.
Lemma bracketed_token u : bare_unit u -> is_token (bracketed u) = true.
Proof.
  intro H. apply andb_true_iff. split; [reflexivity|]. unfold bracketed. rewrite !forallb_app. cbn [S_ list_ascii_of_string forallb]. rewrite andb_true_r. apply andb_true_iff. split; [reflexivity|]. apply andb_true_iff. split; [|reflexivity].
  apply forallb_forall. intros c Hc. unfold bare_unit in H. rewrite Forall_forall in H. apply negb_true_iff. now apply H.
Qed.
Lemma strip_line k n u d : bare_unit u -> strip (bline k n u d ++ [nl]) = pad 19 (str_of_N k) ++ [tab] ++ pad 25 d ++ [tab] ++ pad 25 n ++ [tab] ++ bracketed u.
Proof.
  intro Hu. set (x := pad 19 (str_of_N k) ++ _). assert (E : bline k n u d ++ [nl] = x ++ repeat sp (25 - List.length (bracketed u)) ++ [nl]). { unfold bline, x, pad. rewrite <- ?app_assoc. cbn [app]. rewrite <- ?app_assoc. cbn [app]. rewrite <- ?app_assoc. cbn [app]. rewrite <- ?app_assoc. reflexivity. }
  rewrite E. change (x ++ repeat sp (25 - List.length (bracketed u)) ++ [nl]) with ([] ++ x ++ (repeat sp (25 - List.length (bracketed u)) ++ [nl])). rewrite strip_pad; [|reflexivity|rewrite forallb_app; now rewrite spaces]. apply strip_noedge.
  unfold no_edge_space. apply andb_true_iff. split.
  - unfold x, pad. assert (D := str_of_N_digits k). assert (N := str_of_N_nonempty k). destruct (str_of_N k) as [|c t]; [contradiction|]. cbn [app]. cbn [forallb] in D. apply andb_true_iff in D. apply negb_true_iff, digit_not_space. exact (proj1 D).
  - unfold x. rewrite !app_assoc. unfold bracketed. rewrite !app_assoc. rewrite rev_app_distr. reflexivity.
Qed.
Lemma piece_of s : text_ok s -> forall k, strip (s ++ repeat sp k) = s.
Proof. intros (_ & _ & H & _) k. change (s ++ repeat sp k) with ([] ++ s ++ repeat sp k). rewrite strip_pad by (reflexivity || apply spaces). now apply strip_noedge. Qed.
Lemma no_tab s : Forall (fun c => c <> nl /\ c <> tab /\ c <> "["%char) s -> forall k, forallb (fun x => negb (chr_eqb x tab)) (s ++ repeat sp k) = true.
Proof.
  intros H k. rewrite forallb_app. apply andb_true_iff. split; [|induction k; [reflexivity|exact IHk]]. apply forallb_forall. intros c Hc. rewrite Forall_forall in H. apply negb_true_iff, chr_eqb_neq. now apply H.
Qed.
Lemma last_app_one {A} (l : list A) x y : last (l ++ [x]) y = x.
Proof. apply last_last. Qed.
Lemma channel_line k n u d : text_ok n -> text_ok d -> bare_unit u -> nonempty (strip (bline k n u d ++ [nl])) = true /\ channel (bline k n u d ++ [nl]) = Ok (n, bracketed u, d).
Proof.
  intros Hn Hd Hu. assert (S0 := strip_line k n u d Hu). split; [rewrite S0; unfold pad; assert (N := str_of_N_nonempty k); destruct (str_of_N k); [contradiction|reflexivity]|].
  unfold channel. rewrite S0. set (rest := [tab] ++ pad 25 d ++ [tab] ++ pad 25 n ++ [tab] ++ bracketed u).
  assert (W : exists ws, split_ws (pad 19 (str_of_N k) ++ rest) = str_of_N k :: ws /\ last ws (str_of_N k) = bracketed u).
  { exists (split_ws (pad 25 d) ++ split_ws (pad 25 n) ++ [bracketed u]). split; [|rewrite app_assoc; apply last_last]. unfold rest. cbn [app]. rewrite split_ws_app by reflexivity. unfold pad at 1. rewrite split_ws_rpad by apply spaces. rewrite split_ws_token by apply str_of_N_token. rewrite split_ws_app by reflexivity. rewrite split_ws_app by reflexivity. rewrite (split_ws_token (bracketed u)) by now apply bracketed_token. reflexivity. }
  destruct W as (ws & -> & ->).
  assert (R : exists p, forallb is_space p = true /\ ~ In "["%char p /\ ((p = [] /\ skipn (List.length (str_of_N k) + 1) (pad 19 (str_of_N k) ++ rest) = pad 25 d ++ [tab] ++ pad 25 n ++ [tab] ++ bracketed u) \/ (exists j, p = repeat sp j ++ [tab] /\ skipn (List.length (str_of_N k) + 1) (pad 19 (str_of_N k) ++ rest) = p ++ pad 25 d ++ [tab] ++ pad 25 n ++ [tab] ++ bracketed u))).
  { change (pad 19 (str_of_N k)) with (str_of_N k ++ repeat sp (19 - List.length (str_of_N k))). destruct (19 - List.length (str_of_N k)) as [|j] eqn:Ej.
    - exists []. split; [reflexivity|]. split; [easy|]. left. split; [reflexivity|]. cbn [repeat]. rewrite app_nil_r. rewrite Nat.add_1_r. unfold rest. rewrite skipn_app. rewrite skipn_all2 by lia. replace (S (List.length (str_of_N k)) - List.length (str_of_N k)) with 1 by lia. reflexivity.
    - exists (repeat sp j ++ [tab]). split; [rewrite forallb_app; now rewrite spaces|]. split; [rewrite in_app_iff; intros [G|[G|[]]]; [apply repeat_spec in G; discriminate|discriminate]|]. right. exists j. split; [reflexivity|].
      cbn [repeat]. rewrite <- app_assoc. rewrite skipn_app. rewrite skipn_all2 by lia. replace (List.length (str_of_N k) + 1 - List.length (str_of_N k)) with 1 by lia. cbn [app skipn]. unfold rest. rewrite <- app_assoc. reflexivity. }
  destruct R as (p & Hp & Hpb & R).
  assert (E : skipn (List.length (str_of_N k) + 1) (pad 19 (str_of_N k) ++ rest) = (p ++ pad 25 d ++ [tab] ++ pad 25 n ++ [tab]) ++ bracketed u ++ []).
  { rewrite app_nil_r. destruct R as [[-> ->]|(j & _ & ->)]; cbn [app]; rewrite <- ?app_assoc; cbn [app]; rewrite <- ?app_assoc; reflexivity. }
  rewrite E. assert (NB : forall s w, text_ok s -> ~ In "["%char (pad w s)). { intros s w (_ & _ & _ & F) G. unfold pad in G. apply in_app_iff in G. destruct G as [G|G]; [|apply repeat_spec in G; discriminate]. rewrite Forall_forall in F. now apply F in G. }
  rewrite find_str_here; [| |discriminate].
  2:{ replace (removelast (bracketed u)) with ("["%char :: u) by (symmetry; apply (removelast_last ("["%char :: u) "]"%char)). apply nowhere_open.
      - rewrite !in_app_iff. intros [G|[G|[[G|[]]|[G|[G|[]]]]]]; try discriminate; [contradiction|revert G; now apply NB|revert G; now apply NB].
      - intro G. unfold bare_unit in Hu. rewrite Forall_forall in Hu. apply Hu in G. destruct G as [_ G]. apply G. cbn. auto. }
  rewrite firstn_app, firstn_all, Nat.sub_diag. cbn [firstn]. rewrite app_nil_r.
  assert (P : pieces (split_chr tab (p ++ pad 25 d ++ [tab] ++ pad 25 n ++ [tab])) = [d; n]).
  { assert (Q : pieces (split_chr tab (pad 25 d ++ [tab] ++ pad 25 n ++ [tab])) = [d; n]).
    { unfold split_chr, pad. cbn [app]. rewrite split_on_app_sep; [|apply no_tab; apply Hd|apply chr_eqb_refl]. rewrite split_on_app_sep; [|apply no_tab; apply Hn|apply chr_eqb_refl]. unfold pieces. cbn [map split_on].
      rewrite (piece_of d Hd), (piece_of n Hn). destruct d as [|d0 d]; [now destruct Hd|]. destruct n as [|n0 n]; [now destruct Hn|]. reflexivity. }
    destruct R as [[-> _]|(j & -> & _)]; [exact Q|]. rewrite <- app_assoc. cbn [app]. unfold split_chr in *. rewrite split_on_app_sep; [|clear; induction j; [reflexivity|exact IHj]|apply chr_eqb_refl].
    unfold pieces in *. cbn [map]. rewrite strip_blank by apply spaces. exact Q. }
  rewrite P. reflexivity.
Qed.

Lemma channels_lines k names us descrs : Forall text_ok names -> Forall text_ok descrs -> Forall bare_unit us -> List.length names = List.length us -> List.length names = List.length descrs ->
  channels (map add_nl (bsel_channels k names (map bracketed us) descrs)) = Ok (combine (combine names (map bracketed us)) descrs).
Proof.
  intros Hn. revert k us descrs. induction Hn as [|n names Hn0 Hn IH]; intros k us descrs Hd Hu L1 L2; [reflexivity|]. destruct us as [|u us]; [discriminate|]. destruct descrs as [|d descrs]; [discriminate|]. cbn [map bsel_channels channels combine].
  inversion Hd; subst. inversion Hu; subst. assert (Ln := proj1 (proj2 Hn0)). assert (Ld : List.length d <= 26) by (match goal with H : text_ok d |- _ => exact (proj1 (proj2 H)) end). rewrite !firstn_all2 by assumption. rewrite no_brackets_bracketed by assumption.
  change (pad 19 (str_of_N k) ++ [tab] ++ pad 25 d ++ [tab] ++ pad 25 n ++ [tab] ++ pad 25 (S_ "[" ++ u ++ S_ "]")) with (bline k n u d). unfold add_nl at 1 2. destruct (channel_line k n u d) as [-> ->]; try assumption. cbn [bind]. rewrite IH; try assumption; [reflexivity| |]; cbn in *; lia.
Qed.
Lemma skipn_bsel j k names us descrs : skipn j (bsel_channels k names us descrs) = bsel_channels (k + N.of_nat j) (skipn j names) (skipn j us) (skipn j descrs).
Proof.
  revert k names us descrs. induction j as [|j IH]; intros k names us descrs; [now rewrite N.add_0_r|]. destruct names as [|n names], us as [|u us], descrs as [|d descrs]; cbn [bsel_channels skipn]; rewrite ?skipn_nil; try reflexivity.
  - destruct (skipn j names); reflexivity.
  - destruct (skipn j names); reflexivity.
  - destruct (skipn j names); [|destruct (skipn j us)]; reflexivity.
  - rewrite IH. f_equal. lia.
Qed.
Lemma bline_channel k n u d : text_ok n -> text_ok d -> bare_unit u -> (contains (lower (bline k n u d ++ [nl])) (S_ "channel") = true <-> says_channel n u d).
Proof.
  intros Hn Hd Hu. assert (P : forall w s, lower (pad w s) = lower s ++ repeat sp (w - List.length s)). { intros w s. unfold pad. rewrite lower_app. f_equal. induction (w - List.length s) as [|m IH]; [reflexivity|]. cbn [repeat]. change (lower (sp :: repeat sp m)) with (sp :: lower (repeat sp m)). now rewrite IH. }
  assert (E : lower (bline k n u d ++ [nl]) = (lower (str_of_N k) ++ repeat sp (19 - List.length (str_of_N k))) ++ tab :: (lower d ++ repeat sp (25 - List.length d)) ++ tab :: (lower n ++ repeat sp (25 - List.length n)) ++ tab :: "["%char :: lower u ++ "]"%char :: repeat sp (25 - List.length (bracketed u)) ++ [nl]).
  { unfold bline. rewrite !lower_app, !P. unfold bracketed at 1. rewrite !lower_app. change (lower [tab]) with [tab]. change (lower [nl]) with [nl]. change (lower (S_ "[")) with ["["%char]. change (lower (S_ "]")) with ["]"%char]. repeat (rewrite <- app_assoc || rewrite <- app_comm_cons). reflexivity. }
  split.
  - intros G (H1 & H2 & H3). rewrite contains_nowhere in G; [discriminate|]. rewrite E.
    assert (Z0 : nowhere (S_ "channel") []) by (apply (nowhere_char _ _ "c"%char); [now left|easy]).
    assert (ZK : nowhere (S_ "channel") (lower (str_of_N k))). { apply (nowhere_char _ _ "c"%char); [now left|]. intro I. apply in_map_iff in I. destruct I as (x & Ex & Ix). assert (D := str_of_N_digits k). rewrite forallb_forall in D. apply D in Ix. clear -Ex Ix. assert (G := char_sweep (fun c => implb (is_digit c) (negb (chr_eqb (lower_c c) "c"%char))) eq_refl x). cbv beta in G. rewrite Ix, Ex in G. discriminate. }
    assert (N1 : ~ In tab (S_ "channel")) by notin. assert (N2 : ~ In sp (S_ "channel")) by notin. assert (N3 : ~ In "["%char (S_ "channel")) by notin. assert (N4 : ~ In "]"%char (S_ "channel")) by notin. assert (N5 : ~ In nl (S_ "channel")) by notin. assert (N6 : S_ "channel" <> []) by discriminate.
    apply nowhere_sep; [apply nowhere_blanks; assumption| |assumption|assumption]. apply nowhere_sep; [apply nowhere_blanks; assumption| |assumption|assumption]. apply nowhere_sep; [apply nowhere_blanks; assumption| |assumption|assumption].
    change ("["%char :: lower u ++ "]"%char :: repeat sp (25 - List.length (bracketed u)) ++ [nl]) with ([] ++ "["%char :: lower u ++ "]"%char :: repeat sp (25 - List.length (bracketed u)) ++ [nl]).
    apply nowhere_sep; [assumption| |assumption|assumption]. apply nowhere_sep; [assumption| |assumption|assumption]. apply nowhere_sep; [|assumption|assumption|assumption]. apply (nowhere_blanks _ []); assumption.
  - intro H. destruct (contains (lower (bline k n u d ++ [nl])) (S_ "channel")) eqn:C; [reflexivity|]. exfalso. apply H. apply nowhere_contains in C. rewrite E in C.
    assert (Sub : forall a x b, nowhere (S_ "channel") (a ++ x ++ b) -> nowhere (S_ "channel") x). { intros a x b G y z ->. apply (G (a ++ y) (z ++ b)). now rewrite <- !app_assoc. }
    repeat split.
    + apply (Sub ((lower (str_of_N k) ++ repeat sp (19 - List.length (str_of_N k))) ++ tab :: (lower d ++ repeat sp (25 - List.length d)) ++ [tab]) _ (repeat sp (25 - List.length n) ++ tab :: "["%char :: lower u ++ "]"%char :: repeat sp (25 - List.length (bracketed u)) ++ [nl])). rewrite <- !app_assoc in *. cbn [app] in *. rewrite <- !app_assoc in *. exact C.
    + apply (Sub ((lower (str_of_N k) ++ repeat sp (19 - List.length (str_of_N k))) ++ tab :: (lower d ++ repeat sp (25 - List.length d)) ++ tab :: (lower n ++ repeat sp (25 - List.length n)) ++ [tab; "["%char]) _ ("]"%char :: repeat sp (25 - List.length (bracketed u)) ++ [nl])). repeat (rewrite <- app_assoc in * || rewrite <- app_comm_cons in *). exact C.
    + apply (Sub ((lower (str_of_N k) ++ repeat sp (19 - List.length (str_of_N k))) ++ [tab]) _ (repeat sp (25 - List.length d) ++ tab :: (lower n ++ repeat sp (25 - List.length n)) ++ tab :: "["%char :: lower u ++ "]"%char :: repeat sp (25 - List.length (bracketed u)) ++ [nl])). rewrite <- !app_assoc in *. exact C.
Qed.

(** ** The file *)
Lemma no_c s : Forall (fun c => In c (S_ "0123456789.- ") \/ c = tab \/ c = nl) s -> ~ In "c"%char (lower s).
Proof.
  intros H G. apply in_map_iff in G. destruct G as (x & Ex & Hx). rewrite Forall_forall in H. apply H in Hx. destruct Hx as [Hx|[->| ->]]; [|discriminate|discriminate]. cbn in Hx. repeat (destruct Hx as [Hx|Hx]; [subst x; discriminate|]). exact Hx.
Qed.
Lemma digits_chars s : forallb is_digit s = true -> Forall (fun c => In c (S_ "0123456789.- ") \/ c = tab \/ c = nl) s.
Proof.
  intro H. apply Forall_forall. intros c Hc. rewrite forallb_forall in H. apply H in Hc. left. apply mem_chr_iff. assert (G := char_sweep (fun c => implb (is_digit c) (mem_chr c (S_ "0123456789.- "))) eq_refl c). cbv beta in G. rewrite Hc in G. exact G.
Qed.
Definition line7 (a b : N) (time : str) : str := pad 19 (str_of_N a) ++ [tab] ++ pad 25 (str_of_N b) ++ [tab] ++ pad 25 time.
Lemma line7_chars a b time : Forall (fun c => In c (S_ "0123456789.-")) time -> Forall (fun c => In c (S_ "0123456789.- ") \/ c = tab \/ c = nl) (line7 a b time ++ [nl]).
Proof.
  intro H. assert (B : forall k, Forall (fun c => In c (S_ "0123456789.- ") \/ c = tab \/ c = nl) (repeat sp k)). { intro k. apply Forall_forall. intros c Hc. apply repeat_spec in Hc. subst c. left. apply mem_chr_iff. reflexivity. }
  unfold line7, pad. rewrite !Forall_app. repeat split; try apply B; try (apply digits_chars, str_of_N_digits); try (repeat constructor; auto; fail).
  rewrite Forall_forall in H |- *. intros c Hc. apply H in Hc. left. clear -Hc. cbn in *. tauto.
Qed.
Lemma line7_word w a b time : In "c"%char w -> Forall (fun c => In c (S_ "0123456789.-")) time -> contains (lower (line7 a b time ++ [nl])) w = false.
Proof. intros Hw H. apply contains_nowhere, (nowhere_char _ _ "c"%char); [exact Hw|]. apply no_c, line7_chars, H. Qed.
Lemma time_token time : time <> [] -> Forall (fun c => In c (S_ "0123456789.-")) time -> is_token time = true.
Proof.
  intros H1 H2. apply andb_true_iff. split; [destruct time; [contradiction|reflexivity]|]. apply forallb_forall. intros c Hc. rewrite Forall_forall in H2. apply H2 in Hc. apply negb_true_iff. cbn in Hc. repeat (destruct Hc as [<-|Hc]; [reflexivity|]). destruct Hc.
Qed.
Lemma line7_words a b time : time <> [] -> Forall (fun c => In c (S_ "0123456789.-")) time -> split_ws (line7 a b time ++ [nl]) = [str_of_N a; str_of_N b; time].
Proof.
  intros H1 H2. rewrite split_ws_rpad by reflexivity. unfold line7, pad. cbn [app]. rewrite !split_ws_app by reflexivity. rewrite !split_ws_rpad by apply spaces. rewrite !split_ws_token; [reflexivity|now apply time_token|apply str_of_N_token|apply str_of_N_token].
Qed.
Lemma one_line_bline k n u d : text_ok n -> text_ok d -> bare_unit u -> one_line (bline k n u d) = true.
Proof.
  intros (_ & _ & _ & Hn) (_ & _ & _ & Hd) Hu. unfold bline, bracketed. rewrite !one_line_app, !one_line_pad, !one_line_app.
  assert (T : forall s, Forall (fun c => c <> nl /\ c <> tab /\ c <> "["%char) s -> one_line s = true). { intros s F. apply forallb_forall. intros c Hc. rewrite Forall_forall in F. apply negb_true_iff, chr_eqb_neq. now apply F. }
  rewrite (T n Hn), (T d Hd). replace (one_line u) with true. replace (one_line (str_of_N k)) with true; [reflexivity|].
  - symmetry. apply forallb_forall. intros c Hc. assert (D := str_of_N_digits k). rewrite forallb_forall in D. apply D in Hc. apply negb_true_iff, chr_eqb_neq. intros ->. discriminate.
  - symmetry. apply forallb_forall. intros c Hc. unfold bare_unit in Hu. rewrite Forall_forall in Hu. apply Hu in Hc. apply negb_true_iff, chr_eqb_neq. intros ->. now destruct Hc.
Qed.
Lemma one_line_channels k names us descrs : Forall text_ok names -> Forall text_ok descrs -> Forall bare_unit us -> List.length names = List.length us -> List.length names = List.length descrs ->
  forallb one_line (bsel_channels k names (map bracketed us) descrs) = true.
Proof.
  intros Hn Hd Hu L1 L2. apply forallb_forall. intros l Hl. apply In_nth_error in Hl. destruct Hl as [i Hl]. rewrite bsel_channels_eq in Hl by assumption. destruct (nth_error names i) as [n|] eqn:En; [|discriminate]. destruct (nth_error us i) as [u|] eqn:Eu; [|discriminate]. destruct (nth_error descrs i) as [d|] eqn:Ed; [|discriminate]. injection Hl as <-.
  rewrite Forall_forall in *. apply one_line_bline; [apply Hn|apply Hd|apply Hu]; eapply nth_error_In; eassumption.
Qed.
(** The first [k] channels are lost: channel [k] is the last of the first three that says channel *)
Definition lost {V} (o : dat V) (us : list str) (k : nat) : Prop :=
  k <= 3 /\ forall i n u d, i < 3 -> nth_error (d_names o) i = Some n -> nth_error us i = Some u -> nth_error (d_descr o) i = Some d ->
    (k <= i -> ~ says_channel n u d) /\ (k = S i -> says_channel n u d).

Section Dat.
Context {V : Type}.
Variables (num : str -> option V) (fmt16 fmt3 : V -> str) (is_zero : V -> bool) (rnd : V -> V).
Lemma head_lines time nsc n names units descrs : exists h0 h1 h2 h3 h4 h5 h6 h8 h9, map add_nl (bsel_lines time nsc n names units descrs) = [h0; h1; h2; h3; h4; h5; h6; line7 nsc n time ++ [nl]; h8; h9] ++ map add_nl (bsel_channels 1 names units descrs) /\
  contains (lower h0) (S_ "bhawc") = true /\
  contains (lower h5) (S_ "scans") = false /\ contains (lower h6) (S_ "scans") = true /\ contains (lower h8) (S_ "scans") = false /\ contains (lower h9) (S_ "scans") = false /\ contains (lower h9) (S_ "channel") = true.
Proof. do 9 eexists. split; [unfold bsel_lines; rewrite map_app; reflexivity|]. repeat split; vm_compute; reflexivity. Qed.
Lemma bsel_readlines (o : dat V) us n time nsc m : bhawc_channels o us n -> time_ok num is_zero time ->
  readlines [] (bsel_text time nsc m (d_names o) (d_units o) (d_descr o)) = map add_nl (bsel_lines time nsc m (d_names o) (d_units o) (d_descr o)).
Proof.
  intros (L1 & L2 & L3 & Eu & Hn & Hd & Hu) (T1 & T2 & _). apply readlines_text. unfold bsel_lines. rewrite forallb_app. apply andb_true_iff. split.
  - cbn [forallb]. rewrite !andb_true_iff. repeat split; try (vm_compute; reflexivity).
    assert (F := line7_chars nsc m time T2). unfold line7 in F. rewrite !one_line_app, !one_line_pad. replace (one_line time) with true; [replace (one_line (str_of_N nsc)) with true; [replace (one_line (str_of_N m)) with true; [reflexivity|]|]|]; symmetry; apply forallb_forall; intros c Hc; apply negb_true_iff, chr_eqb_neq; intros ->.
    + assert (D := str_of_N_digits m). rewrite forallb_forall in D. apply D in Hc. discriminate.
    + assert (D := str_of_N_digits nsc). rewrite forallb_forall in D. apply D in Hc. discriminate.
    + rewrite Forall_forall in T2. apply T2 in Hc. revert Hc. notin.
  - rewrite Eu. apply one_line_channels; try assumption; congruence.
Qed.
Lemma int_N' n : int_ (str_of_N n) = Ok (Z.of_N n).
Proof. apply int_N. Qed.
Lemma readb (o : dat V) us n time nsc : bhawc_channels o us n -> time_ok num is_zero time ->
  ReadSelB num is_zero (bsel_text time nsc (N.of_nat n) (d_names o) (d_units o) (d_descr o)) =
  (j <- last_line (map add_nl (bsel_channels 1 (d_names o) (d_units o) (d_descr o))) (S_ "channel") 0 [0; 1; 2] ;;
   cs <- channels (skipn j (map add_nl (bsel_channels 1 (d_names o) (d_units o) (d_descr o)))) ;;
   Ok (mk_sel (Z.of_N nsc) (Z.of_nat n) time false (map (fun c => fst (fst c)) cs) (map (fun c => snd (fst c)) cs) (map snd cs))).
Proof.
  intros Hc Ht. unfold ReadSelB. rewrite (bsel_readlines o us n) by assumption. destruct (head_lines time nsc (N.of_nat n) (d_names o) (d_units o) (d_descr o)) as (h0 & h1 & h2 & h3 & h4 & h5 & h6 & h8 & h9 & -> & E0 & E5 & E6 & E8 & E9 & C9).
  destruct Hc as (L1 & L2 & L3 & Eu & Hn & Hd & Hu). destruct Ht as (T1 & T2 & v & T3 & T4).
  assert (LC : List.length (map add_nl (bsel_channels 1 (d_names o) (d_units o) (d_descr o))) = n). { rewrite map_length, bsel_length; [exact L1|rewrite Eu, map_length; congruence|congruence]. }
  set (C := map add_nl _) in *. remember (last_line C (S_ "channel") 0 [0; 1; 2]) as R eqn:HR. cbn [seq app last_line nth_error]. rewrite E5, E6, E8, E9, (line7_word (S_ "scans")) by (assumption || (cbn; auto)). cbn [bind guard Nat.eqb negb]. unfold nth_line at 1. cbn [nth_error bind]. rewrite line7_words by assumption. unfold nth_line. cbn [nth_error bind]. rewrite !int_N'. cbn [bind]. rewrite T3, T4. cbn [negb guard bind].
  replace (0 <=? Z.of_N nsc)%Z with true by (symmetry; apply Z.leb_le; lia). cbn [guard bind]. rewrite C9.
  assert (G : forall f idx, (j <- last_line (h0 :: h1 :: h2 :: h3 :: h4 :: h5 :: h6 :: (line7 nsc (N.of_nat n) time ++ [nl]) :: h8 :: h9 :: C) (S_ "channel") (10 + f) (map (fun i => 10 + i) idx) ;; Ok j) = (j <- last_line C (S_ "channel") f idx ;; Ok (10 + j))).
  { intros f idx. revert f. induction idx as [|i idx IH]; intro f; [reflexivity|]. cbn [map last_line]. cbn [Nat.add nth_error]. destruct (nth_error C i) as [l|]; [|reflexivity]. destruct (contains (lower l) (S_ "channel")); [exact (IH (S i))|exact (IH f)]. }
  specialize (G 0 [0;1;2]). rewrite <- HR in G. cbn [map Nat.add] in G.
  assert (G1 : forall r1 r2 : res nat, (j <- r1 ;; Ok j) = (j <- r2 ;; Ok (10 + j)) -> r1 = (j <- r2 ;; Ok (10 + j))) by (intros [|] [|] E; exact E). apply G1 in G.
  cbn [last_line nth_error] in G |- *. rewrite G. destruct R as [j|e]; [|reflexivity]. cbn [bind]. change (10 + j) with (S (S (S (S (S (S (S (S (S (S j)))))))))). cbn [Nat.eqb negb guard bind skipn].
  rewrite nat_N_Z. rewrite firstn_all2; [reflexivity|]. rewrite skipn_length. lia.
Qed.
Lemma lost_line (o : dat V) us n k : bhawc_channels o us n -> 3 <= n -> lost o us k -> last_line (map add_nl (bsel_channels 1 (d_names o) (d_units o) (d_descr o))) (S_ "channel") 0 [0; 1; 2] = Ok k.
Proof.
  intros (L1 & L2 & L3 & Eu & Hn & Hd & Hu) H3 [Hk HL]. rewrite Eu.
  assert (N : forall i, i < 3 -> exists nm u d, nth_error (d_names o) i = Some nm /\ nth_error us i = Some u /\ nth_error (d_descr o) i = Some d /\ nth_error (map add_nl (bsel_channels 1 (d_names o) (map bracketed us) (d_descr o))) i = Some (bline (1 + N.of_nat i) nm u d ++ [nl]) /\ text_ok nm /\ text_ok d /\ bare_unit u).
  { intros i Hi. destruct (nth_error (d_names o) i) as [nm|] eqn:En; [|apply nth_error_None in En; lia]. destruct (nth_error us i) as [u|] eqn:E2; [|apply nth_error_None in E2; lia]. destruct (nth_error (d_descr o) i) as [d|] eqn:Ed; [|apply nth_error_None in Ed; lia].
    exists nm, u, d. repeat (split; [reflexivity|]). rewrite nth_error_map, bsel_channels_eq by (assumption || congruence). rewrite En, E2, Ed. split; [reflexivity|]. rewrite Forall_forall in *. repeat split; [apply Hn|apply Hn|apply Hn|apply Hn|apply Hd|apply Hd|apply Hd|apply Hd|apply Hu]; eapply nth_error_In; eassumption. }
  set (C := map add_nl _) in *. assert (S1 : forall i, i < 3 -> exists l, nth_error C i = Some l /\ (k <= i -> contains (lower l) (S_ "channel") = false) /\ (k = S i -> contains (lower l) (S_ "channel") = true)).
  { intros i Hi. destruct (N i Hi) as (nm & u & d & E1 & E2 & E3 & E4 & O1 & O2 & O3). exists (bline (1 + N.of_nat i) nm u d ++ [nl]). split; [exact E4|]. destruct (HL i nm u d Hi E1 E2 E3) as [A B]. assert (Q := bline_channel (1 + N.of_nat i) nm u d O1 O2 O3). split; intro G.
    - apply not_true_is_false. intro G2. apply Q in G2. now apply (A G).
    - apply Q. now apply B. }
  destruct (S1 0 ltac:(lia)) as (l0 & E0 & A0 & B0). destruct (S1 1 ltac:(lia)) as (l1 & E1 & A1 & B1). destruct (S1 2 ltac:(lia)) as (l2 & E2 & A2 & B2). cbn [last_line]. rewrite E0, E1, E2.
  destruct k as [|[|[|[|k]]]]; [rewrite A0, A1, A2 by lia|rewrite B0, A1, A2 by lia|rewrite B1, A2 by lia|rewrite B2 by lia|lia]; reflexivity.
Qed.
Lemma combine_map {A B C} (a : list A) (b : list B) (c : list C) : List.length a = List.length b -> List.length a = List.length c -> let l := combine (combine a b) c in
  map (fun x => fst (fst x)) l = a /\ map (fun x => snd (fst x)) l = b /\ map snd l = c.
Proof.
  revert b c. induction a as [|x a IH]; intros [|y b] [|z c] H1 H2; try discriminate; [now repeat split|]. destruct (IH b c) as (I1 & I2 & I3); [cbn in H1; lia|cbn in H2; lia|]. cbn in *. rewrite I1, I2, I3. auto.
Qed.
Lemma Forall_skipn {A} (P : A -> Prop) k l : Forall P l -> Forall P (skipn k l).
Proof. revert l. induction k as [|k IH]; intros l H; [exact H|]. destruct H; [constructor|]. now apply IH. Qed.
Lemma readb_lost (o : dat V) us n k time nsc : bhawc_channels o us n -> time_ok num is_zero time -> 3 <= n -> lost o us k ->
  ReadSelB num is_zero (bsel_text time nsc (N.of_nat n) (d_names o) (d_units o) (d_descr o)) = Ok (mk_sel (Z.of_N nsc) (Z.of_nat n) time false (skipn k (d_names o)) (skipn k (d_units o)) (skipn k (d_descr o))).
Proof.
  intros Hc Ht H3 HL. rewrite (readb o us n) by assumption. rewrite (lost_line o us n k) by assumption. destruct Hc as (L1 & L2 & L3 & Eu & Hn & Hd & Hu). cbn [bind]. rewrite skipn_map, skipn_bsel, Eu, skipn_map.
  rewrite channels_lines; [|now apply Forall_skipn|now apply Forall_skipn|now apply Forall_skipn|rewrite !skipn_length; lia|rewrite !skipn_length; lia]. cbn [bind].
  destruct (combine_map (skipn k (d_names o)) (map bracketed (skipn k us)) (skipn k (d_descr o))) as (-> & -> & ->); [rewrite map_length, !skipn_length; lia|rewrite !skipn_length; lia|reflexivity].
Qed.
Lemma paths f stem filename (o : dat V) n : proper stem -> rows_ok num fmt16 fmt3 is_zero rnd o n -> d_bhawc o = true ->
  (filename = stem ++ S_ ".dat" /\ f (stem ++ S_ ".dat.sel") = None) \/ (filename = stem ++ S_ ".sel" /\ nowhere (S_ ".sel") stem) ->
  exists f' t rows row, d_data o = rows ++ [t :: row] /\ time_ok num is_zero (fmt3 t) /\ write fmt16 fmt3 f filename o = Ok f' /\
    f' (stem ++ S_ ".sel") = Some (bsel_text (fmt3 t) (N.of_nat (List.length (d_data o))) (N.of_nat n) (d_names o) (d_units o) (d_descr o)) /\
    f' (stem ++ S_ ".dat") = Some (dat_text fmt16 (d_data o)) /\ (forall p, p <> stem ++ S_ ".dat" -> p <> stem ++ S_ ".sel" -> f' p = f p) /\ sel_base f' filename = Ok stem /\ (exists c t, f' filename = Some (c :: t)).
Proof.
  intros Hp (Hr & rows & t & row & D2 & Ht) Hb Hf.
  assert (W : List.length (hd [] (d_data o)) = n). { destruct (d_data o) as [|r l]; [destruct rows; discriminate|]. apply Forall_inv in Hr. exact (proj1 Hr). }
  assert (N : datfilename filename = stem ++ S_ ".dat" /\ selfilename filename = stem ++ S_ ".sel").
  { destruct Hf as [[-> _]|[-> Hn]]; [apply dat_names; [exact Hp|now left]|now apply sel_names]. }
  destruct N as [N1 N2]. rewrite (write_eq fmt16 fmt3 f filename o rows t row D2), N1, N2, Hb, W.
  set (dt := dat_text fmt16 (d_data o)). set (sl := bsel_text _ _ _ _ _ _). set (f' := put (put f (stem ++ S_ ".dat") dt) (stem ++ S_ ".sel") sl).
  assert (F1 : f' (stem ++ S_ ".sel") = Some sl) by apply put_same.
  assert (F2 : f' (stem ++ S_ ".dat") = Some dt). { unfold f'. rewrite put_other; [apply put_same|]. intro E. apply app_inv_head in E. discriminate. }
  assert (F3 : forall p, p <> stem ++ S_ ".dat" -> p <> stem ++ S_ ".sel" -> f' p = f p). { intros p P1 P2. unfold f'. rewrite !put_other by assumption. reflexivity. }
  assert (B : sel_base f' filename = Ok stem).
  { unfold sel_base. destruct Hf as [[-> Hn]|[-> Hn]].
    - rewrite ends_other by (reflexivity || discriminate). unfold isfile. rewrite <- app_assoc. change (S_ ".dat" ++ S_ ".sel") with (S_ ".dat.sel"). rewrite F3, Hn; try (intro E; apply app_inv_head in E; discriminate).
      rewrite ends_same by reflexivity. rewrite ext_of by (exact Hp || (cbn; auto)). rewrite firstn_app_sub, F1. reflexivity.
    - rewrite ends_same by reflexivity. change 4 with (List.length (S_ ".sel")). rewrite firstn_app_sub. reflexivity. }
  exists f', t, rows, row. repeat (split; [assumption || reflexivity|]). destruct Hf as [[-> _]|[-> _]].
  - rewrite F2. unfold dt, dat_text. rewrite D2. rewrite flat_map_app. destruct (flat_map _ rows ++ _) eqn:E; [|eauto]. apply app_eq_nil in E. destruct E as [_ E]. cbn [flat_map] in E. rewrite app_nil_r in E. apply app_eq_nil in E. destruct E. discriminate.
  - rewrite F1. do 2 eexists. reflexivity.
Qed.
Lemma bsel_not_hawc2 (o : dat V) us n time nsc m : bhawc_channels o us n -> time_ok num is_zero time -> ReadSel (bsel_text time nsc m (d_names o) (d_units o) (d_descr o)) = None.
Proof.
  intros Hc Ht. unfold ReadSel. rewrite (bsel_readlines o us n) by assumption. destruct (head_lines time nsc m (d_names o) (d_units o) (d_descr o)) as (h0 & h1 & h2 & h3 & h4 & h5 & h6 & h8 & h9 & -> & E0 & _). cbn [app]. now rewrite E0.
Qed.
Lemma read_lost f stem filename (o : dat V) us n k : proper stem -> d_bhawc o = true -> bhawc_channels o us n -> 3 <= n -> rows_ok num fmt16 fmt3 is_zero rnd o n -> lost o us k ->
  (filename = stem ++ S_ ".dat" /\ f (stem ++ S_ ".dat.sel") = None) \/ (filename = stem ++ S_ ".sel" /\ nowhere (S_ ".sel") stem) ->
  exists f', write fmt16 fmt3 f filename o = Ok f' /\
    read num is_zero f' filename = Ok (mk_dat (skipn k (d_names o)) (skipn k (d_units o)) (skipn k (d_descr o)) (map (map rnd) (d_data o)) true) /\
    (forall p, p <> stem ++ S_ ".dat" -> p <> stem ++ S_ ".sel" -> f' p = f p).
Proof.
  intros Hp Hb Hc H3 Hr HL Hf. destruct (paths f stem filename o n Hp Hr Hb Hf) as (f' & t & rows & row & D2 & Ht & W & F1 & F2 & F3 & B & c & x & F4). exists f'. split; [exact W|]. split; [|exact F3].
  unfold read. rewrite F4. unfold read_. rewrite B. cbn [bind]. unfold read_sel. rewrite F1. rewrite (bsel_not_hawc2 o us n) by assumption. rewrite (readb_lost o us n k) by assumption. cbn [bind s_binary]. unfold ReadAscii. cbn [s_NrCh s_NrSc].
  replace (Z.of_nat n <=? 0)%Z with false by (symmetry; apply Z.leb_gt; lia). rewrite nat_N_Z. replace (Z.of_nat (List.length (d_data o)) <? 0)%Z with false by (symmetry; apply Z.ltb_ge; lia). cbn [orb]. rewrite F2, !Nat2Z.id. destruct Hr as [Hr _]. rewrite (load_text num fmt16 rnd n) by (assumption || lia). cbn [bind]. rewrite map_length, Nat.eqb_refl. reflexivity.
Qed.

(** ** C99 *)
(** At least three channels, none of the first three says channel: everything is read back *)
Theorem C99_round_trip_partial : forall f stem filename (o : dat V) us n, proper stem -> d_bhawc o = true -> bhawc_channels o us n -> 3 <= n -> rows_ok num fmt16 fmt3 is_zero rnd o n ->
  (forall i nm u d, i < 3 -> nth_error (d_names o) i = Some nm -> nth_error us i = Some u -> nth_error (d_descr o) i = Some d -> ~ says_channel nm u d) ->
  (filename = stem ++ S_ ".dat" /\ f (stem ++ S_ ".dat.sel") = None) \/ (filename = stem ++ S_ ".sel" /\ nowhere (S_ ".sel") stem) ->
  exists f', write fmt16 fmt3 f filename o = Ok f' /\
    read num is_zero f' filename = Ok (mk_dat (d_names o) (d_units o) (d_descr o) (map (map rnd) (d_data o)) true) /\
    (forall p, p <> stem ++ S_ ".dat" -> p <> stem ++ S_ ".sel" -> f' p = f p).
Proof.
  intros f stem filename o us n Hp Hb Hc H3 Hr HN Hf. apply (read_lost f stem filename o us n 0); try assumption. split; [lia|]. intros i nm u d Hi E1 E2 E3. split; [intros _; now apply (HN i)|discriminate].
Qed.
(** A channel among the first three that says channel hides itself and the channels before it; the values keep all their columns *)
Theorem C99_channel_word_refuted : forall f stem filename (o : dat V) us n k nm u d, proper stem -> d_bhawc o = true -> bhawc_channels o us n -> 3 <= n -> rows_ok num fmt16 fmt3 is_zero rnd o n ->
  k < 3 -> nth_error (d_names o) k = Some nm -> nth_error us k = Some u -> nth_error (d_descr o) k = Some d -> says_channel nm u d ->
  (forall i nm u d, k < i -> i < 3 -> nth_error (d_names o) i = Some nm -> nth_error us i = Some u -> nth_error (d_descr o) i = Some d -> ~ says_channel nm u d) ->
  (filename = stem ++ S_ ".dat" /\ f (stem ++ S_ ".dat.sel") = None) \/ (filename = stem ++ S_ ".sel" /\ nowhere (S_ ".sel") stem) ->
  exists f', write fmt16 fmt3 f filename o = Ok f' /\
    read num is_zero f' filename = Ok (mk_dat (skipn (S k) (d_names o)) (skipn (S k) (d_units o)) (skipn (S k) (d_descr o)) (map (map rnd) (d_data o)) true).
Proof.
  intros f stem filename o us n k nm u d Hp Hb Hc H3 Hr Hk E1 E2 E3 HS HN Hf. destruct (read_lost f stem filename o us n (S k)) as (f' & A & B & _); try assumption; [|now exists f']. split; [lia|]. intros i nm' u' d' Hi F1 F2 F3. split.
  - intro G. apply (HN i); try assumption.
  - intro G. injection G as ->. congruence.
Qed.
(** Fewer than three channels cannot be read back *)
Theorem C99_few_channels_refuted : forall f stem filename (o : dat V) us n, proper stem -> d_bhawc o = true -> bhawc_channels o us n -> n < 3 -> rows_ok num fmt16 fmt3 is_zero rnd o n ->
  (filename = stem ++ S_ ".dat" /\ f (stem ++ S_ ".dat.sel") = None) \/ (filename = stem ++ S_ ".sel" /\ nowhere (S_ ".sel") stem) ->
  exists f', write fmt16 fmt3 f filename o = Ok f' /\ read num is_zero f' filename = Err WrongFormatError.
Proof.
  intros f stem filename o us n Hp Hb Hc H3 Hr Hf. destruct (paths f stem filename o n Hp Hr Hb Hf) as (f' & t & rows & row & D2 & Ht & W & F1 & F2 & F3 & B & c & x & F4). exists f'. split; [exact W|].
  unfold read. rewrite F4. unfold read_. rewrite B. cbn [bind]. unfold read_sel. rewrite F1. rewrite (bsel_not_hawc2 o us n) by assumption. rewrite (readb o us n) by assumption.
  assert (LC : List.length (map add_nl (bsel_channels 1 (d_names o) (d_units o) (d_descr o))) = n). { destruct Hc as (L1 & L2 & L3 & Eu & _). rewrite map_length, bsel_length; [exact L1|rewrite Eu, map_length; congruence|congruence]. }
  replace (last_line _ _ 0 [0; 1; 2]) with (@Err nat IndexError); [reflexivity|]. symmetry. cbn [last_line]. destruct (map add_nl _) as [|l0 [|l1 [|l2 C]]]; cbn in LC; try lia; reflexivity.
Qed.
End Dat.

(** ** The hypotheses hold of concrete files *)
Definition ex_b : dat N := mk_dat [S_ "Time"; S_ "Mx tower"; S_ "My tower"] [S_ "[s]"; S_ "[kNm]"; S_ "[]"] [S_ "Simulation time"; S_ "Moment"; S_ "Other ] moment"] [[0;5;7];[1;6;8];[2;7;9]]%N true.
Definition ex_us : list str := [S_ "s"; S_ "kNm"; []].
Lemma text_okb s : nonempty s && (List.length s <=? 26) && no_edge_space s && forallb (fun c => negb (mem_chr c [nl; tab; "["%char])) s = true -> text_ok s.
Proof.
  rewrite !andb_true_iff. intros [[[H1 H2] H3] H4]. split; [intros ->; discriminate|]. split; [now apply Nat.leb_le|]. split; [exact H3|]. apply Forall_forall. intros c Hc. rewrite forallb_forall in H4. apply H4 in Hc. apply negb_true_iff in Hc. repeat split; intros ->; discriminate.
Qed.
Lemma bare_unitb u : forallb (fun c => negb (is_space c) && negb (mem_chr c (S_ "()[]"))) u = true -> bare_unit u.
Proof. intro H. apply Forall_forall. intros c Hc. rewrite forallb_forall in H. apply H in Hc. apply andb_true_iff in Hc. destruct Hc as [H1 H2]. split; [now apply negb_true_iff|]. intro G. apply mem_chr_iff in G. rewrite G in H2. discriminate. Qed.
Lemma ex_bch : bhawc_channels ex_b ex_us 3.
Proof. do 4 (split; [reflexivity|]). split; [|split]; [repeat (apply Forall_cons; [apply text_okb; vm_compute; reflexivity|]); apply Forall_nil|repeat (apply Forall_cons; [apply text_okb; vm_compute; reflexivity|]); apply Forall_nil|repeat (apply Forall_cons; [apply bare_unitb; vm_compute; reflexivity|]); apply Forall_nil]. Qed.
Definition ex_bnum (s : str) : option N := match ex_num s with Some n => Some n | None => if endswith s (S_ ".000") then N_of_str (firstn (List.length s - 4) s) else None end.
Lemma ex_bnumber n : number_ok ex_bnum ex_fmt id n.
Proof. destruct (ex_number n) as (k & w & H1 & H2 & H3 & H4). exists k, w. repeat split; try assumption. unfold ex_bnum. now rewrite H4. Qed.
Lemma ex_brows : rows_ok ex_bnum ex_fmt ex_fmt3 (N.eqb 0) id ex_b 3.
Proof.
  split; [repeat constructor; apply ex_bnumber|]. exists [[0;5;7];[1;6;8]]%N, 2%N, [7;9]%N. split; [reflexivity|]. split; [discriminate|]. split; [|exists 2%N; split; vm_compute; reflexivity]. apply Forall_forall. intros c Hc. vm_compute in Hc. repeat (destruct Hc as [<-|Hc]; [apply mem_chr_iff; reflexivity|]). destruct Hc.
Qed.
Lemma not_saying n u d : contains (lower n) (S_ "channel") || contains (lower u) (S_ "channel") || contains (lower d) (S_ "channel") = false -> ~ says_channel n u d.
Proof. rewrite !orb_false_iff. intros [[H1 H2] H3] G. apply G. repeat split; now apply nowhere_contains. Qed.
Example C99_round_trip_case : exists f', write ex_fmt ex_fmt3 (fun _ => None) (ex_stem ++ S_ ".dat") ex_b = Ok f' /\ read ex_bnum (N.eqb 0) f' (ex_stem ++ S_ ".dat") = Ok ex_b.
Proof.
  destruct (C99_round_trip_partial ex_bnum ex_fmt ex_fmt3 (N.eqb 0) id (fun _ => None) ex_stem (ex_stem ++ S_ ".dat") ex_b ex_us 3 ex_proper eq_refl ex_bch (le_n 3) ex_brows) as (f' & H1 & H2 & _).
  - intros i nm u d Hi E1 E2 E3. destruct i as [|[|[|i]]]; [| | |lia]; cbn [nth_error ex_b ex_us d_names d_descr] in *; injection E1 as <-; injection E2 as <-; injection E3 as <-; apply not_saying; vm_compute; reflexivity.
  - left. split; reflexivity.
  - exists f'. split; [exact H1|exact H2].
Qed.
Definition ex_b2 : dat N := mk_dat [S_ "Time"; S_ "Mx tower"; S_ "My tower"] [S_ "[s]"; S_ "[kNm]"; S_ "[]"] [S_ "Time"; S_ "Channel moment"; S_ "Other"] [[0;5;7];[1;6;8];[2;7;9]]%N true.
Example C99_channel_word_case : exists f', write ex_fmt ex_fmt3 (fun _ => None) (S_ "run.dat") ex_b2 = Ok f' /\ read ex_bnum (N.eqb 0) f' (S_ "run.dat") = Ok (mk_dat [S_ "My tower"] [S_ "[]"] [S_ "Other"] [[0;5;7];[1;6;8];[2;7;9]]%N true).
Proof. eexists. split; [vm_compute; reflexivity|]. vm_compute. reflexivity. Qed.
(** The unit inside the description cuts the line there: the file is refused *)
Definition ex_b3 : dat N := mk_dat [S_ "Time"; S_ "Mx tower"; S_ "My tower"] [S_ "[s]"; S_ "[m]"; S_ "[]"] [S_ "Time"; S_ "Position [m] of tower"; S_ "Other"] [[0;5;7];[1;6;8];[2;7;9]]%N true.
Theorem C99_unit_in_description_refuted : exists f', write ex_fmt ex_fmt3 (fun _ => None) (S_ "run.dat") ex_b3 = Ok f' /\ read ex_bnum (N.eqb 0) f' (S_ "run.dat") = Err WrongFormatError.
Proof. eexists. split; [vm_compute; reflexivity|]. vm_compute. reflexivity. Qed.

Print Assumptions C99_round_trip_partial.
Print Assumptions C99_channel_word_refuted.
Print Assumptions C99_few_channels_refuted.
Print Assumptions C99_unit_in_description_refuted.
