(** Theorems about the text files of weio/fast_output_file.py (C78, C79). *)
From Verif Require Import Py PyFacts TextFacts FS TurbSim_Model TurbSim_Proofs TS_Model TS_Props Profile_Model Profile_Props FASTOut_Model Tecplot_Model AEPC_Model FASTAscii_Model.
From Coq Require Import Lia.
Local Open Scope nat_scope.

(** ** Specification of the lines of a file *)
(** The first word of a line is Time, in any case *)
Definition time_line (l : str) : Prop := exists w ws, split_ws l = w :: ws /\ lower w = S_ "time".
Section S.
Context {V : Type}.
Variable num : str -> option V.
(** The lines of the table: rows of [n] numbers; lines without words and lines that start with the word This are not rows *)
Inductive table_of (n : nat) : list str -> list (list V) -> Prop :=
| t_nil : table_of n [] []
| t_blank l ls m : split_ws l = [] -> table_of n ls m -> table_of n (l :: ls) m
| t_comment l ls m : table_of n ls m -> table_of n ((S_ "This" ++ l) :: ls) m
| t_row l ls r m : ~ (exists a b, l = a ++ S_ "This" ++ b) -> Profile_Props.numbers num l r -> List.length r = n -> table_of n ls m -> table_of n (l :: ls) (r :: m).

Lemma upto_same s w : ~ (exists a b, s = a ++ w ++ b) -> upto s w = s.
Proof.
  induction s as [|c s IH]; intro H; cbn [upto].
  - destruct (startswith [] w); reflexivity.
  - destruct (startswith (c :: s) w) eqn:E; [apply startswith_iff in E; destruct E as [b E]; exfalso; apply H; exists [], b; exact E|]. f_equal. apply IH. intros (a & b & K). apply H. exists (c :: a), b. cbn. now rewrite K.
Qed.
Lemma upto_head w s : upto (w ++ s) w = [].
Proof.
  assert (E : startswith (w ++ s) w = true) by (apply startswith_iff; exists s; reflexivity). destruct (w ++ s); cbn [upto]; rewrite E; reflexivity.
Qed.
Lemma upto_blank s w : split_ws s = [] -> split_ws (upto s w) = [].
Proof.
  intro H. assert (B : forallb is_space s = true).
  { destruct (forallb is_space s) eqn:E; [reflexivity|]. exfalso. rewrite <- split_ws_strip in H. destruct (strip s) as [|c t] eqn:K.
    - assert (forallb is_space s = true); [|congruence]. unfold strip in K. destruct (lstrip_decomp s) as (b & B1 & B2). destruct (rstrip_decomp (lstrip s)) as (d & D1 & D2). rewrite K in D2. cbn in D2. rewrite D2 in B2. rewrite B2, forallb_app, B1, D1. reflexivity.
    - pose proof (strip_no_edge s) as N. rewrite K in N. unfold no_edge_space in N. apply andb_inv in N. destruct N as [N _]. apply negb_true_iff in N. destruct (split_ws_prefix [c] t) as (u & us & Q); [unfold is_token; cbn; rewrite N; reflexivity|]. cbn [app] in Q. congruence. }
  apply split_ws_blank. clear H. induction s as [|c s IH]; cbn [upto]; [destruct (startswith [] w); reflexivity|]. destruct (startswith (c :: s) w); [reflexivity|]. cbn [forallb] in *. apply andb_inv in B. rewrite (proj1 B), (IH (proj2 B)). reflexivity.
Qed.
Definition row_words (ls : list str) : list (list str) := filter (fun ws : list str => match ws with [] => false | _ => true end) (map (fun l => split_ws (upto l (S_ "This"))) ls).
Lemma table_words n ls m : 0 < n -> table_of n ls m -> TS_Model.mapM (floats num) (row_words ls) = Ok m /\ Forall (fun r => List.length r = n) m.
Proof.
  intros N H. unfold row_words. induction H as [|l ls m B H IH|l ls m H IH|l ls r m T NB L H IH].
  - split; [reflexivity|constructor].
  - cbn [map filter]. rewrite (upto_blank _ _ B). exact IH.
  - cbn [map filter]. rewrite upto_head. exact IH.
  - cbn [map filter]. rewrite (upto_same _ _ T). assert (NE : split_ws l <> []) by (intro K; unfold Profile_Props.numbers in NB; rewrite K in NB; inversion NB; subst; cbn in N; lia). destruct IH as [IH1 IH2]. destruct (split_ws l) as [|w ws] eqn:E; [contradiction|]. cbn [TS_Model.mapM].
    assert (F : floats num (w :: ws) = Ok r) by (apply floats_iff; rewrite <- E; exact NB). rewrite F. cbn [bind]. rewrite IH1. split; [reflexivity|constructor; assumption].
Qed.
Lemma same_length n (r0 : list V) rest : Forall (fun r => List.length r = n) (r0 :: rest) -> forallb (fun r => Nat.eqb (List.length r) (List.length r0)) rest = true.
Proof. intro H. apply Forall_cons_iff in H. destruct H as [H1 H2]. apply forallb_forall. intros r R. rewrite Forall_forall in H2. apply Nat.eqb_eq. rewrite (H2 r R). congruence. Qed.
Lemma loadtxt_mat n ls m : 2 <= n -> 2 <= List.length m -> table_of n ls m -> loadtxt num ls = Ok (Mat m).
Proof.
  intros N M H. destruct (table_words n ls m ltac:(lia) H) as [E F]. unfold loadtxt. unfold row_words in E. rewrite E. cbn [bind]. destruct m as [|r0 [|r1 rest]]; cbn in M; try lia. rewrite (same_length n _ _ F). pose proof (Forall_inv F) as L. cbn beta in L. destruct r0 as [|v [|v' r0]]; cbn in L; try lia. reflexivity.
Qed.
Lemma loadtxt_one n ls r : 2 <= n -> table_of n ls [r] -> loadtxt num ls = Ok (Vec r).
Proof.
  intros N H. destruct (table_words n ls [r] ltac:(lia) H) as [E F]. unfold loadtxt. unfold row_words in E. rewrite E. cbn [bind forallb]. pose proof (Forall_inv F) as L. cbn beta in L. destruct r as [|v [|v' r0]]; cbn in L; try lia. reflexivity.
Qed.
Lemma time_iff l : is_time l = true <-> time_line l.
Proof.
  assert (LS : forall s, split_ws (lower s) = map lower (split_ws s)).
  { intro s. unfold split_ws, lower. assert (G : split_on is_space (map lower_c s) = map (map lower_c) (split_on is_space s)).
    { induction s as [|c s IH]; [reflexivity|]. cbn [map split_on]. assert (SC : is_space (lower_c c) = is_space c) by (destruct c as [[] [] [] [] [] [] [] []]; reflexivity). rewrite SC. destruct (is_space c); [cbn [map]; now rewrite IH|]. rewrite IH. destruct (split_on is_space s); reflexivity. }
    rewrite G. clear G. induction (split_on is_space s) as [|w ws IH]; [reflexivity|]. cbn [map filter]. destruct w; cbn [nonempty map]; [exact IH|]. now rewrite IH. }
  unfold is_time, time_line. rewrite LS. change (l ++ S_ " dummy") with (l ++ sp :: S_ "dummy"). rewrite split_ws_app by reflexivity. destruct (split_ws l) as [|w ws]; cbn [app map].
  - split; [intro K; vm_compute in K; discriminate K|]. intros (w & ws & K & _). discriminate K.
  - rewrite str_eqb_eq. split; [intro K; exists w, ws; split; [reflexivity|exact K]|]. intros (w' & ws' & K1 & K2). injection K1 as <- <-. exact K2.
Qed.
Lemma not_time l : ~ time_line l -> is_time l = false.
Proof. intro H. destruct (is_time l) eqn:E; [|reflexivity]. apply time_iff in E. contradiction. Qed.
Lemma find_time_ok hs : forall acc l r, Forall (fun h => ~ time_line h) hs -> time_line l -> find_time acc (hs ++ l :: r) = Ok (acc ++ hs, l, r).
Proof.
  induction hs as [|h hs IH]; intros acc l r H T; cbn [app find_time].
  - apply time_iff in T. rewrite T, app_nil_r. reflexivity.
  - rewrite not_time by exact (Forall_inv H). rewrite IH by (try exact T; exact (Forall_inv_tail H)). rewrite <- app_assoc. reflexivity.
Qed.

(** ** C78: a text file is read: header, names, units without brackets, and all the rows *)
(** The units line: every word is a unit between two characters *)
Definition unit_words (l : str) (us : list str) : Prop := Forall2 (fun w u => exists a b, w = a :: u ++ [b]) (split_ws l) us.
Lemma inner_units l us : unit_words l us -> map inner (split_ws l) = us.
Proof. unfold unit_words. intro H. induction H as [|w u ws us (a & b & ->) H IH]; [reflexivity|]. cbn [map inner]. now rewrite removelast_last, IH. Qed.
Definition plain_unit (u : str) : Prop := ~ In (ch 40) u /\ ~ In (ch 41) u /\ ~ In (ch 91) u /\ ~ In (ch 93) u.
Lemma no_brackets_plain u : plain_unit u -> no_brackets u = u.
Proof.
  intros (H1 & H2 & H3 & H4). unfold no_brackets. induction u as [|c u IH]; [reflexivity|]. cbn [filter].
  assert (E : mem_chr c [ch 40; ch 41; ch 91; ch 93] = false).
  { destruct (mem_chr c _) eqn:E; [|reflexivity]. apply mem_chr_iff in E. cbn [In] in *. destruct E as [E|[E|[E|[E|[]]]]]; subst c; tauto. }
  rewrite E. cbn [negb]. f_equal. apply IH; cbn [In] in *; tauto.
Qed.
Lemma map_no_brackets us : Forall plain_unit us -> map no_brackets us = us.
Proof. intro H. induction H as [|u us H1 H2 IH]; [reflexivity|]. cbn. now rewrite IH, no_brackets_plain. Qed.
Theorem C78_reads_partial : forall text hs l u ls n m us, file_lines text = hs ++ l :: u :: ls ->
  Forall (fun h => ~ time_line h) hs -> time_line l -> unit_words u us -> Forall plain_unit us -> table_of n ls m -> 2 <= n -> 2 <= List.length m ->
  ascii_read num text = Ok (mk_out hs (split_ws l) (Some us) (Mat m)).
Proof.
  intros text hs l u ls n m us E H T U P TB N M. unfold ascii_read, load_ascii. rewrite E, (find_time_ok hs [] l (u :: ls) H T). cbn [bind app readline]. rewrite (loadtxt_mat n ls m N M TB). cbn [bind o_arr]. destruct m as [|r m]; [cbn in M; lia|]. cbn [o_descr o_names o_units]. rewrite (inner_units _ _ U), map_no_brackets by exact P. reflexivity.
Qed.
(** A file with a single row is read, but cannot be turned into a table, and cannot be written again *)
Theorem C78_single_row_refuted : forall t4 e3 text hs l u ls n r us, file_lines text = hs ++ l :: u :: ls ->
  Forall (fun h => ~ time_line h) hs -> time_line l -> unit_words u us -> Forall plain_unit us -> table_of n ls [r] -> 2 <= n -> 2 <= List.length us -> 2 <= List.length (split_ws l) ->
  exists o, ascii_read num text = Ok o /\ out_table o = Err ValueError /\ data_text t4 e3 (o_arr o) = Err IndexError.
Proof.
  intros t4 e3 text hs l u ls n r us E H T U P TB N LU LN. unfold ascii_read, load_ascii. rewrite E, (find_time_ok hs [] l (u :: ls) H T). cbn [bind app readline]. rewrite (loadtxt_one n ls r N TB). cbn [bind o_arr].
  assert (L : List.length r = n) by (inversion TB as [|? ? ? ? Q|? ? ? Q|? ? ? ? ? ? Q]; subst; try reflexivity; clear - TB N; destruct (table_words n _ _ ltac:(lia) TB) as [_ F]; exact (Forall_inv F)).
  destruct r as [|v r]; [cbn in L; lia|]. eexists. split; [reflexivity|]. split; [|reflexivity]. unfold out_table, out_labels. cbn [o_arr o_units o_names o_descr]. rewrite (inner_units _ _ U), map_no_brackets by exact P. rewrite map_length, combine_length. replace (Nat.eqb _ 1) with false by (symmetry; apply Nat.eqb_neq; lia). reflexivity.
Qed.
(** A file without rows is reported as empty *)
Theorem C78_no_rows_reported : forall text hs l u ls n us, file_lines text = hs ++ l :: u :: ls -> Forall (fun h => ~ time_line h) hs -> time_line l -> unit_words u us -> 0 < n -> table_of n ls [] -> ascii_read num text = Err EmptyFileError.
Proof.
  intros text hs l u ls n us E H T U N TB. unfold ascii_read, load_ascii. rewrite E, (find_time_ok hs [] l (u :: ls) H T). cbn [bind app readline]. destruct (table_words n ls [] N TB) as [W _]. unfold loadtxt. unfold row_words in W. rewrite W. reflexivity.
Qed.
(** A file without a line that starts with Time is refused *)
Theorem C78_no_time_refused : forall text, Forall (fun h => ~ time_line h) (file_lines text) -> ascii_read num text = Err WrongFormatError.
Proof.
  intros text H. unfold ascii_read, load_ascii. assert (G : forall ls acc, Forall (fun h => ~ time_line h) ls -> find_time acc ls = Err PlainException).
  { clear. induction ls as [|l ls IH]; intros acc H; [reflexivity|]. cbn [find_time]. rewrite not_time by exact (Forall_inv H). apply IH. exact (Forall_inv_tail H). }
  rewrite G by exact H. reflexivity.
Qed.
(** Only these exceptions are raised; a single number is an IndexError *)
Theorem C78_exceptions : forall text e, ascii_read num text = Err e -> e = WrongFormatError \/ e = EmptyFileError \/ e = IndexError.
Proof.
  intros text e. unfold ascii_read. destruct (load_ascii num text) as [o|e0] eqn:E.
  - destruct (o_arr o) as [[|]|[|]|]; intro H; try discriminate H; injection H as <-; tauto.
  - intro H. injection H as <-. unfold load_ascii in E. destruct (find_time [] (file_lines text)) as [[[h l] r]|e1] eqn:F; cbn [bind] in E.
    + destruct (readline r) as [u r']. destruct (loadtxt num r') as [a|e1] eqn:G; cbn [bind] in E; [discriminate E|]. injection E as <-.
      assert (K : e1 = ValueError).
      { clear -G. unfold loadtxt in G. assert (MM : forall ws e, TS_Model.mapM (floats num) ws = Err e -> e = ValueError).
        { assert (FE : forall ws e, floats num ws = Err e -> e = ValueError) by (induction ws as [|w ws IH]; intros e H; [discriminate H|]; cbn [floats] in H; destruct (num w); [destruct (floats num ws) eqn:Q; cbn [bind] in H; [discriminate H|injection H as <-; exact (IH _ eq_refl)]|congruence]).
          induction ws as [|w ws IH]; intros e H; [discriminate H|]. cbn [TS_Model.mapM] in H. destruct (floats num w) eqn:Q; cbn [bind] in H; [|injection H as <-; exact (FE _ _ Q)]. destruct (TS_Model.mapM (floats num) ws) eqn:R; cbn [bind] in H; [discriminate H|]. injection H as <-. exact (IH _ eq_refl). }
        destruct (TS_Model.mapM (floats num) _) as [rows|e2] eqn:Q; cbn [bind] in G; [|injection G as <-; exact (MM _ _ Q)]. destruct rows as [|r0 rest]; [discriminate G|]. destruct (forallb _ rest); [|congruence]. destruct r0 as [|v [|v' r0]]; destruct rest; discriminate G. }
      subst e1. left. reflexivity.
    + injection E as <-. assert (K : forall ls acc e, find_time acc ls = Err e -> e = PlainException) by (induction ls as [|x ls IH]; intros acc e H; cbn [find_time] in H; [congruence|]; destruct (is_time x); [discriminate H|exact (IH _ _ H)]). apply K in F. subst e1. left. reflexivity.
Qed.
(** The table of a file with as many units as names *)
Theorem C78_table : forall (o : out V) m us n, o_arr o = Mat m -> o_units o = Some us -> List.length us = n -> List.length (o_names o) = n -> Forall (fun r => List.length r = n) m ->
  exists labels, out_table o = Ok (labels, m) /\ List.length labels = n /\
    forall j name u, nth_error (o_names o) j = Some name -> nth_error us j = Some u -> ~ (exists a b, u = a ++ S_ "sec" ++ b) -> nth_error labels j = Some (name ++ S_ "_[" ++ u ++ S_ "]").
Proof.
  intros o m us n A U L1 L2 F. exists (out_labels o). unfold out_table. rewrite A. assert (L : List.length (out_labels o) = n) by (unfold out_labels; rewrite U, map_length, combine_length, L1, L2; apply Nat.min_id). split; [|split; [exact L|]].
  - replace (forallb _ m) with true; [reflexivity|]. symmetry. apply forallb_forall. intros r R. rewrite Forall_forall in F. apply Nat.eqb_eq. rewrite (F r R). symmetry. exact L.
  - intros j name u N Q NS. unfold out_labels. rewrite U, nth_error_map. assert (C : nth_error (combine (o_names o) us) j = Some (name, u)).
    { clear - N Q. generalize dependent us. generalize dependent (o_names o). induction j as [|j IH]; intros [|x l] N [|y k] Q; try discriminate; cbn in *; [congruence|]. apply IH; assumption. }
    rewrite C. cbn [option_map fst snd]. do 4 f_equal.
    clear - NS. unfold replace_. induction u as [|c u IH]; [reflexivity|]. cbn [repl].
    destruct (startswith (c :: u) (S_ "sec")) eqn:E; [apply startswith_iff in E; destruct E as [b E]; exfalso; apply NS; exists [], b; exact E|]. f_equal. apply IH. intros (a & b & K). apply NS. exists (c :: a), b. cbn. now rewrite K.
Qed.
End S.

(** ** C79: writing and reading again *)
Section W.
Context {V : Type}.
Variable num : str -> option V.
Variables t4 e3 : V -> str.
(** The numbers that are read back from the two formats *)
Variables rt re : V -> V.
Definition number_text (fmt : V -> str) (rnd : V -> V) (v : V) : Prop := exists k w, fmt v = repeat sp k ++ w /\ is_token w = true /\ ~ In (ch 84) w /\ num w = Some (rnd v).
Definition row_ok (n : nat) (r : list V) : Prop := List.length r = n /\ match r with [] => False | t :: xs => number_text t4 rt t /\ Forall (number_text e3 re) xs end.
Definition rounded_row (r : list V) : list V := match r with [] => [] | t :: xs => rt t :: map re xs end.
Lemma split_tabs ws : split_ws (join [tab] ws) = List.concat (map split_ws ws).
Proof. induction ws as [|w ws IH]; [reflexivity|]. destruct ws as [|w' ws']; [cbn; now rewrite app_nil_r|]. rewrite join_cons by discriminate. cbn [app]. rewrite split_ws_app by reflexivity. rewrite IH. reflexivity. Qed.
Lemma in_tabs c ws : In c (join [tab] ws) -> c = tab \/ exists w, In w ws /\ In c w.
Proof. induction ws as [|w ws IH]; intro H; [destruct H|]. destruct ws as [|w' ws']; [right; exists w; split; [left; reflexivity|exact H]|]. rewrite join_cons in H by discriminate. apply in_app_or in H. destruct H as [H|H]; [right; exists w; split; [left; reflexivity|exact H]|]. apply in_app_or in H. destruct H as [[H|[]]|H]; [left; symmetry; exact H|]. destruct (IH H) as [K|(x & K1 & K2)]; [left; exact K|right; exists x; split; [right; exact K1|exact K2]]. Qed.
Lemma number_words fmt rnd v : number_text fmt rnd v -> exists w, split_ws (fmt v) = [w] /\ num w = Some (rnd v).
Proof. intros (k & w & E & T & _ & N). exists w. rewrite E, split_ws_lpad by apply blank_repeat. split; [apply split_ws_token; exact T|exact N]. Qed.
Lemma number_chars fmt rnd v c : number_text fmt rnd v -> In c (fmt v) -> c <> nl /\ c <> ch 84.
Proof. intros (k & w & E & T & NT & N) H. rewrite E in H. apply in_app_or in H. destruct H as [H|H]; [apply repeat_spec in H; subst c; split; discriminate|]. split; intro; subst c; [exact (token_not_in nl w T eq_refl H)|exact (NT H)]. Qed.
Lemma row_line n r : 0 < n -> row_ok n r -> exists l, row_text t4 e3 r = Ok l /\ Profile_Props.numbers num l (rounded_row r) /\ (forall c, In c l -> c <> nl /\ c <> ch 84) /\ l <> [].
Proof.
  intros N [L H]. destruct r as [|t xs]; [destruct H|]. destruct H as [H1 H2]. eexists. split; [reflexivity|].
  assert (A : Profile_Props.numbers num (join [tab] (t4 t :: map e3 xs)) (rounded_row (t :: xs))).
  { unfold Profile_Props.numbers. rewrite split_tabs. cbn [map List.concat rounded_row]. destruct (number_words _ _ _ H1) as (w & W1 & W2). rewrite W1. cbn [app]. constructor; [exact W2|]. clear - H2. induction H2 as [|x xs H1 H2 IH]; [constructor|]. cbn [map List.concat]. destruct (number_words _ _ _ H1) as (w & W1 & W2). rewrite W1. cbn [app]. constructor; [exact W2|exact IH]. }
  split; [exact A|]. split.
  - intros c C. apply in_tabs in C. destruct C as [->|(w & [<-|K1] & K2)]; [split; discriminate|exact (number_chars _ _ _ _ H1 K2)|]. apply in_map_iff in K1. destruct K1 as (x & <- & K1). rewrite Forall_forall in H2. exact (number_chars _ _ _ _ (H2 x K1) K2).
  - intro K. rewrite K in A. unfold Profile_Props.numbers in A. inversion A.
Qed.
Lemma rows_lines n m : 0 < n -> Forall (row_ok n) m -> exists ls, TS_Model.mapM (row_text t4 e3) m = Ok ls /\ table_of num n ls (map rounded_row m) /\ Forall (fun l => l <> [] /\ ~ In nl l) ls.
Proof.
  intros N H. induction H as [|r m H1 H2 IH]; [exists []; repeat split; constructor|]. destruct IH as (ls & E & T & F). destruct (row_line n r N H1) as (l & L1 & L2 & L3 & L4). exists (l :: ls). cbn [TS_Model.mapM map]. rewrite L1. cbn [bind]. rewrite E. split; [reflexivity|]. split.
  - apply t_row; [|exact L2| |exact T].
    + intros (a & b & K). subst l. destruct (L3 (ch 84)) as [_ X]; [apply in_or_app; right; left; reflexivity|congruence].
    + destruct H1 as [H1 _]. destruct r; cbn [rounded_row List.length] in *; [exact H1|]. rewrite map_length. exact H1.
  - constructor; [|exact F]. split; [exact L4|]. intro K. destruct (L3 nl K) as [X _]. congruence.
Qed.
(** A name, and a unit that is not changed by a reading *)
Definition good_unit (u : str) : Prop := plain_unit u /\ forallb (fun c => negb (is_space c)) u = true.
Lemma split_rjust k w : is_token w = true -> split_ws (rjust k w) = [w].
Proof. intro H. unfold rjust. rewrite split_ws_lpad by apply blank_repeat. apply split_ws_token. exact H. Qed.
Lemma names_words names : Forall (fun w => is_token w = true) names -> split_ws (join [tab] (map (rjust 10) names)) = names.
Proof. intro H. rewrite split_tabs. induction H as [|w ws H1 H2 IH]; [reflexivity|]. cbn [map List.concat]. rewrite split_rjust by exact H1. cbn [app]. now rewrite IH. Qed.
Lemma unit_token u : good_unit u -> is_token (ch 40 :: u ++ [ch 41]) = true.
Proof. intros [_ H]. unfold is_token. cbn [nonempty forallb]. rewrite forallb_app, H. reflexivity. Qed.
Lemma rjust_nl k w : is_token w = true -> ~ In nl (rjust k w).
Proof. intros H K. unfold rjust in K. apply in_app_or in K. destruct K as [K|K]; [exact (nl_blank _ K)|exact (token_not_in nl w H eq_refl K)]. Qed.
Record ascii_ok (o : out V) (names us : list str) (m : list (list V)) (n : nat) : Prop := {
  a_names : o_names o = names; a_time : exists w ws, names = w :: ws /\ lower w = S_ "time"; a_tokens : Forall (fun w => is_token w = true) names;
  a_units : o_units o = Some us; a_good : Forall good_unit us; a_data : o_arr o = Mat m; a_rows : Forall (row_ok n) m; a_n : 2 <= n; a_m : 2 <= List.length m }.
(** Names, units and rows are read back; the header is not written *)
Theorem C79_round_trip_partial : forall o names us m n, ascii_ok o names us m n ->
  exists text, ascii_text t4 e3 o = Ok text /\ ascii_read num text = Ok (mk_out [] names (Some us) (Mat (map rounded_row m))).
Proof.
  intros o names us m n [EN (w & ws & EW & LW) TK EU GU ED RW N M]. destruct (rows_lines n m ltac:(lia) RW) as (ls & E & T & F).
  unfold ascii_text, units_text, data_text. rewrite EU, ED. cbn [bind]. rewrite E. cbn [bind]. eexists. split; [reflexivity|]. rewrite EN.
  set (l := join [tab] (map (rjust 10) names)). set (u := join [tab] (map (fun u => rjust 10 (ch 40 :: u ++ [ch 41])) us)).
  assert (NL : ~ In nl l) by (intro K; apply in_tabs in K; destruct K as [K|(x & K1 & K2)]; [discriminate K|]; apply in_map_iff in K1; destruct K1 as (y & <- & K1); rewrite Forall_forall in TK; exact (rjust_nl 10 y (TK y K1) K2)).
  assert (NU : ~ In nl u) by (intro K; apply in_tabs in K; destruct K as [K|(x & K1 & K2)]; [discriminate K|]; apply in_map_iff in K1; destruct K1 as (y & <- & K1); rewrite Forall_forall in GU; exact (rjust_nl 10 _ (unit_token y (GU y K1)) K2)).
  assert (W : split_ws l = names) by (apply names_words; exact TK).
  replace (mk_out (V := V) [] names) with (mk_out (V := V) [] (split_ws l)) by (now rewrite W). apply (C78_reads_partial num _ [] l u ls n); try assumption.
  - unfold names_text. fold l. rewrite <- !app_assoc. cbn [app]. rewrite file_lines_line by exact NL. rewrite file_lines_line by exact NU. rewrite file_lines_join by exact F. reflexivity.
  - constructor.
  - exists w, ws. rewrite W. split; assumption.
  - unfold unit_words, u. rewrite split_tabs. clear - GU. induction GU as [|x us H1 H2 IH]; [constructor|]. cbn [map List.concat]. rewrite split_rjust by (apply unit_token; exact H1). cbn [app]. constructor; [eexists; eexists; reflexivity|exact IH].
  - eapply Forall_impl; [|exact GU]. intros a K. apply K.
  - rewrite map_length. exact M.
Qed.
(** The same through a file; nothing else is changed *)
Theorem C79_file_partial : forall f p o names us m n, f p <> Dir -> ascii_ok o names us m n ->
  exists f' text, ascii_write t4 e3 f p o = (f', Ok tt) /\ f' p = Reg (map N_of_ascii text) /\ (forall q, q <> p -> f' q = f q) /\ ascii_read num text = Ok (mk_out [] names (Some us) (Mat (map rounded_row m))).
Proof.
  intros f p o names us m n D H. destruct (C79_round_trip_partial o names us m n H) as (text & E & R). unfold ascii_text in E. destruct (units_text (o_units o)) as [u|] eqn:EU; [|discriminate E]. cbn [bind] in E. destruct (data_text t4 e3 (o_arr o)) as [d|] eqn:ED; [|discriminate E]. cbn [bind] in E. apply Ok_inj in E. subst text.
  destruct (write_file_ok f p [map N_of_ascii (names_text (o_names o)); map N_of_ascii u; map N_of_ascii d] D) as (f' & E1 & E2 & E3). exists f'. eexists. split; [unfold ascii_write; rewrite EU, ED; exact E1|]. split; [|split; [exact E3|exact R]]. rewrite E2. cbn [List.concat]. rewrite app_nil_r, !map_app. reflexivity.
Qed.
(** The header of the file is lost: whatever it was, the object read back has none *)
Theorem C79_header_lost : forall o names us m n, ascii_ok o names us m n -> o_descr o <> [] ->
  exists text o', ascii_text t4 e3 o = Ok text /\ ascii_read num text = Ok o' /\ o_descr o' <> o_descr o.
Proof. intros o names us m n H D. destruct (C79_round_trip_partial o names us m n H) as (text & E & R). exists text. eexists. split; [exact E|]. split; [exact R|]. cbn. congruence. Qed.
End W.

(** ** Examples *)
Definition ex_out : str := join [nl] [S_ "Predictions generated by FAST"; []; S_ "Time  Wind1VelX RotSpeed"; S_ "(s) (m/s) (rpm)"; S_ "0.00 11.0 12.0"; S_ "0.05 11.1 12.1"; []; S_ "This output ends here"].
Lemma not_has_b s w : contains s w = false -> ~ exists a b, s = a ++ w ++ b.
Proof. intros H K. apply contains_iff in K. congruence. Qed.
Example C78_example : exists hs l u ls m us, file_lines ex_out = hs ++ l :: u :: ls /\ Forall (fun h => ~ time_line h) hs /\ time_line l /\ unit_words u us /\ Forall plain_unit us /\ table_of (fun w => Some w) 3 ls m /\ 2 <= List.length m /\
  ascii_read (fun w => Some w) ex_out = Ok (mk_out [S_ "Predictions generated by FAST"; []] [S_ "Time"; S_ "Wind1VelX"; S_ "RotSpeed"] (Some [S_ "s"; S_ "m/s"; S_ "rpm"]) (Mat [[S_ "0.00"; S_ "11.0"; S_ "12.0"]; [S_ "0.05"; S_ "11.1"; S_ "12.1"]])).
Proof.
  exists [S_ "Predictions generated by FAST"; []], (S_ "Time  Wind1VelX RotSpeed"), (S_ "(s) (m/s) (rpm)"), [S_ "0.00 11.0 12.0"; S_ "0.05 11.1 12.1"; []; S_ "This output ends here"], [[S_ "0.00"; S_ "11.0"; S_ "12.0"]; [S_ "0.05"; S_ "11.1"; S_ "12.1"]], [S_ "s"; S_ "m/s"; S_ "rpm"].
  split; [reflexivity|]. split; [repeat (apply Forall_cons; [intro K; apply time_iff in K; vm_compute in K; discriminate K|]); apply Forall_nil|]. split; [apply time_iff; reflexivity|].
  split; [unfold unit_words; repeat (apply Forall2_cons; [do 2 eexists; reflexivity|]); apply Forall2_nil|]. split; [repeat (apply Forall_cons; [repeat split; intro K; apply mem_chr_iff in K; vm_compute in K; discriminate K|]); apply Forall_nil|].
  split; [|split; [cbn; lia|vm_compute; reflexivity]].
  apply t_row; [apply not_has_b; reflexivity|repeat constructor|reflexivity|]. apply t_row; [apply not_has_b; reflexivity|repeat constructor|reflexivity|]. apply t_blank; [reflexivity|]. apply (t_comment _ 3 (S_ " output ends here")). apply t_nil.
Qed.
Definition pad10 (v : str) : str := repeat sp (10 - List.length v) ++ v.
Definition ex_out_o : out str := mk_out [S_ "a header"] [S_ "Time"; S_ "RotSpeed"] (Some [S_ "s"; S_ "rpm"]) (Mat [[S_ "0.0000"; S_ "1.200e+01"]; [S_ "0.0500"; S_ "1.210e+01"]]).
Example C79_example : ascii_ok (fun w => Some w) pad10 pad10 (fun v => v) (fun v => v) ex_out_o [S_ "Time"; S_ "RotSpeed"] [S_ "s"; S_ "rpm"] [[S_ "0.0000"; S_ "1.200e+01"]; [S_ "0.0500"; S_ "1.210e+01"]] 2.
Proof.
  constructor; try reflexivity; try (cbn; lia).
  - eexists _, _. split; reflexivity.
  - repeat constructor.
  - repeat (apply Forall_cons; [split; [repeat split; intro K; apply mem_chr_iff in K; vm_compute in K; discriminate K|reflexivity]|]). apply Forall_nil.
  - assert (G : forall v : str, is_token v = true -> mem_chr (ch 84) v = false -> number_text (fun w => Some w) pad10 (fun v => v) v).
    { intros v T M. exists (10 - List.length v), v. repeat split; [exact T|]. intro K. apply mem_chr_iff in K. congruence. }
    repeat (apply Forall_cons; [split; [reflexivity|split; [apply G; reflexivity|apply Forall_cons; [apply G; reflexivity|apply Forall_nil]]]|]). apply Forall_nil.
Qed.
Print Assumptions C78_reads_partial.
Print Assumptions C78_single_row_refuted.
Print Assumptions C78_no_rows_reported.
Print Assumptions C78_no_time_refused.
Print Assumptions C78_exceptions.
Print Assumptions C78_table.
Print Assumptions C79_round_trip_partial.
Print Assumptions C79_file_partial.
Print Assumptions C79_header_lost.
