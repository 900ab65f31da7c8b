(** Property C113: superelement files of ExtPtfm. *)
From Verif Require Import Py PyFacts TextFacts FASTIn_Model FASTTab_Proofs FASTTab_Props FASTTabRead_Props AD14_Props.
From Verif Require Import ExtPtfm_Model.
From Verif Require Import Dict.
Local Open Scope nat_scope.

Lemma startswith_no s p : (forall t, s <> p ++ t) -> startswith s p = false.
Proof. intro H. destruct (startswith s p) eqn:E; [|reflexivity]. apply startswith_iff in E. destruct E as [t E]. now apply H in E. Qed.
Lemma int_space s : int_ (sp :: s) = int_ s.
Proof. unfold int_. change (sp :: s) with ([sp] ++ s). replace (strip ([sp] ++ s)) with (strip s); [reflexivity|]. unfold strip. now rewrite lstrip_app_nonblank. Qed.
Lemma lower_blank l : forallb is_space l = true -> forallb is_space (lower l) = true.
Proof.
  intro H. rewrite forallb_forall in *. intros c Hc. apply in_map_iff in Hc. destruct Hc as (x & <- & Hx). specialize (H x Hx). revert x H Hx. assert (G : forall x, (negb (is_space x) || is_space (lower_c x)) = true) by (apply char_sweep; vm_compute; reflexivity).
  intros x H _. specialize (G x). now rewrite H in G.
Qed.

Section Ext.
Context {V : Type}.
Variable num : str -> option V.
Variable ofz : Z -> V.
Variable steps : V -> V -> option Z.
Local Notation data := (data V).

(** ** Specification *)
(** A line that begins with a word, in any case *)
Definition keyword (l : str) (k : string) : Prop := exists t, lower l = S_ k ++ t.
(** The text between the first two colons *)
Definition after_colon (l s : str) : Prop := exists a b, l = a ++ ch 58 :: s ++ b /\ ~ In (ch 58) a /\ ~ In (ch 58) s /\ (b = [] \/ exists b', b = ch 58 :: b').
(** Lines of [m] numbers *)
Definition table (n m : nat) (lines : list str) (M : list (list V)) : Prop :=
  List.length lines = n /\ Forall2 (fun l r => Forall2 (fun w v => num w = Some v) (split_ws l) r /\ List.length r = m) lines M.
Definition matrices : list (string * string) := [("!mass", "MassMatrix"); ("!stiffness", "StiffnessMatrix"); ("!damping", "DampingMatrix")]%string.
Definition keywords : list string := ["!mass"; "!stiffness"; "!damping"; "!loading"; "!dimension"; "!time increment"; "!total simulation time"]%string.
(** The lines [ls] turn the data [d], read for [n] degrees of freedom, into [d'] and [n'] *)
Inductive reads : Z -> data -> list str -> Z -> data -> Prop :=
| r_end n d : reads n d [] n d
| r_matrix n d kw key title header s rows M rest n' d' : In (kw, key) matrices -> keyword title kw -> after_colon header s -> int_ s = Ok (Z.of_nat n) -> table n n rows M ->
    reads (Z.of_nat n) (put d (S_ key) (EMat M)) rest n' d' -> reads (Z.of_nat n) d (title :: header :: rows ++ rest) n' d'
| r_loading n d title header t dt nt rows M rest n' d' : keyword title "!loading" -> get d (S_ "T") = Some (ENum t) -> get d (S_ "dt") = Some (ENum dt) -> steps t dt = Some (Z.of_nat nt - 1)%Z -> table nt (n + 1) rows M ->
    reads (Z.of_nat n) (put d (S_ "Loading") (EMat M)) rest n' d' -> reads (Z.of_nat n) d (title :: header :: rows ++ rest) n' d'
| r_dimension n d l s m rest n' d' : keyword l "!dimension" -> after_colon (lower l) s -> int_ s = Ok m -> reads m (put d (S_ "nDOF") (EInt m)) rest n' d' -> reads n d (l :: rest) n' d'
| r_step n d l s v rest n' d' : keyword l "!time increment" -> after_colon (lower l) s -> num s = Some v -> reads n (put d (S_ "dt") (ENum v)) rest n' d' -> reads n d (l :: rest) n' d'
| r_total n d l s v rest n' d' : keyword l "!total simulation time" -> after_colon (lower l) s -> num s = Some v -> reads n (put d (S_ "T") (ENum v)) rest n' d' -> reads n d (l :: rest) n' d'
| r_remark n d l rest n' d' : keyword l "!" -> (forall k, In k keywords -> ~ keyword l k) -> reads n d rest n' d' -> reads n d (l :: rest) n' d'
| r_blank n d l rest n' d' : forallb is_space l = true -> reads n d rest n' d' -> reads n d (l :: rest) n' d'.
(** The first three lines of the format *)
Definition is_ext (lines : list str) : Prop := 10 <= List.length lines /\ exists l0 l1 l2 rest, lines = l0 :: l1 :: l2 :: rest /\ (exists t, l0 = S_ "!" ++ t) /\ (exists t, l1 = S_ "!" ++ t) /\
  (exists a b, lower l1 = a ++ S_ "flex" ++ b) /\ (exists a b, lower l2 = a ++ S_ "!dimension" ++ b).

(** ** Proofs *)
Lemma field_ok l s : after_colon l s -> field l = Ok s.
Proof.
  intros (a & b & -> & Ha & Hs & Hb). assert (P : forall x, ~ In (ch 58) x -> forallb (fun c => negb (chr_eqb c (ch 58))) x = true) by (intros x Hx; rewrite forallb_forall; intros c Hc; apply negb_true_iff, chr_eqb_neq; intros ->; now apply Hx).
  unfold field, split_chr. rewrite split_on_app_sep; [|now apply P|reflexivity]. destruct Hb as [-> |(b' & ->)]; [rewrite app_nil_r, split_on_none by (now apply P); reflexivity|]. rewrite split_on_app_sep; [reflexivity|now apply P|reflexivity].
Qed.
Lemma floats_ok ws vs : Forall2 (fun w v => num w = Some v) ws vs -> floats num ws = Ok vs.
Proof. induction 1 as [|w v ws vs H _ IH]; [reflexivity|]. cbn [floats]. rewrite H, IH. reflexivity. Qed.
Lemma rows_ok n m rows M more : table n m rows M -> rows_of num n m (rows ++ more) = Ok M.
Proof.
  intros [L F]. revert n L. induction F as [|l r rows M [Hw Hl] _ IH]; intros n L; cbn [List.length] in L; subst n; [reflexivity|]. cbn [app rows_of]. unfold row_of at 1. rewrite (floats_ok _ _ Hw). cbn [bind]. rewrite Hl, Nat.eqb_refl. cbn [bind]. rewrite (IH _ eq_refl). reflexivity.
Qed.
Lemma rows_short n m j rows M : table j m rows M -> j < n -> rows_of num n m rows = Err IndexError.
Proof.
  intros [L F]. revert n j L. induction F as [|l r rows M [Hw Hl] _ IH]; intros n j L Hj; cbn [List.length] in L; subst j; (destruct n as [|n]; [lia|]); [reflexivity|]. cbn [rows_of]. unfold row_of at 1. rewrite (floats_ok _ _ Hw). cbn [bind]. rewrite Hl, Nat.eqb_refl. cbn [bind]. rewrite (IH n _ eq_refl) by lia. reflexivity.
Qed.
Lemma mat_ok n m rows M more : table n m rows M -> readmat num (Z.of_nat n) (Z.of_nat m) (rows ++ more) = Ok M.
Proof. intro H. unfold readmat. replace (Z.of_nat n <? 0)%Z with false by lia. replace (Z.of_nat m <? 0)%Z with false by lia. cbn [orb]. rewrite !Nat2Z.id. now apply rows_ok. Qed.
Lemma skip_rows st rows more : eloop num ofz steps (List.length rows) st (rows ++ more) = eloop num ofz steps 0 st more.
Proof. induction rows as [|l rows IH]; [reflexivity|]. exact IH. Qed.
Lemma turn_matrix kw key st title rest : In (kw, key) matrices -> keyword title kw -> turn num ofz steps st title rest = matrix num key st rest.
Proof. intros H (t & E). unfold turn. rewrite E. cbn [matrices In] in H. destruct H as [H|[H|[H|[]]]]; injection H as <- <-; reflexivity. Qed.
Lemma turn_matrix_ok n d kw key title header s rows M more : In (kw, key) matrices -> keyword title kw -> after_colon header s -> int_ s = Ok (Z.of_nat n) -> table n n rows M ->
  turn num ofz steps (d, Z.of_nat n) title (header :: rows ++ more) = ((put d (S_ key) (EMat M), Z.of_nat n), Ok (1 + n)).
Proof.
  intros Hk Ht Hh Hs Hm. rewrite (turn_matrix _ _ _ _ _ Hk Ht). unfold matrix. rewrite (field_ok _ _ Hh). cbn [bind]. rewrite Hs. replace (Z.of_nat n <? -1)%Z with false by lia. rewrite Z.eqb_refl. cbn [orb negb]. now rewrite (mat_ok _ _ _ _ _ Hm), Nat2Z.id.
Qed.
Lemma turn_loading_eq st title rest : keyword title "!loading" -> turn num ofz steps st title rest = loading num ofz steps st rest.
Proof. intros (t & E). unfold turn. rewrite E. reflexivity. Qed.
Lemma turn_blank st l rest : forallb is_space l = true -> turn num ofz steps st l rest = (st, Ok 0).
Proof.
  intro H. pose proof (lower_blank l H) as B. unfold turn. assert (N : forall k, startswith (lower l) (S_ (String "!" k)) = false).
  { intro k. apply startswith_no. intros t E. rewrite E in B. cbn in B. discriminate. }
  rewrite !N. destruct (lower l) as [|c r] eqn:E; [reflexivity|]. cbn [forallb] in B. apply andb_inv in B. destruct B as [Bc Br]. assert (Hc : chr_eqb c (ch 33) = false) by (apply chr_eqb_neq; intros ->; discriminate). rewrite Hc.
  rewrite strip_blank; [reflexivity|]. cbn [forallb]. now rewrite Bc.
Qed.
Lemma turn_remark st l rest : keyword l "!" -> (forall k, In k keywords -> ~ keyword l k) -> turn num ofz steps st l rest = (st, Ok 0).
Proof.
  intros (t & E) N. unfold turn. assert (P : forall k, In k keywords -> startswith (lower l) (S_ k) = false) by (intros k Hk; apply startswith_no; intros u Eu; apply (N k Hk); now exists u).
  rewrite !P by (cbn [keywords In]; tauto). rewrite E. cbn [S_ list_ascii_of_string app]. rewrite chr_eqb_refl. reflexivity.
Qed.
Lemma reads_loop n d ls n' d' : reads n d ls n' d' -> forall more, eloop num ofz steps 0 (d, n) (ls ++ more) = eloop num ofz steps 0 (d', n') more.
Proof.
  induction 1; intro more.
  - reflexivity.
  - cbn [app eloop]. rewrite <- app_assoc, (turn_matrix_ok _ _ _ _ _ _ _ _ _ _ H H0 H1 H2 H3). change (1 + n) with (S n). cbn [Nat.add]. cbn [eloop]. destruct H3 as [<- _]. now rewrite skip_rows.
  - cbn [app eloop]. rewrite (turn_loading_eq _ _ _ H). unfold loading, samples, number. rewrite H0, H1, H2. cbn [option_map tl]. rewrite <- app_assoc. replace (Z.of_nat nt - 1 + 1)%Z with (Z.of_nat nt) by lia. replace (Z.of_nat n + 1)%Z with (Z.of_nat (n + 1)) by lia.
    rewrite (mat_ok _ _ _ _ _ H3), Nat2Z.id. cbn [Nat.add eloop]. destruct H3 as [<- _]. now rewrite skip_rows.
  - cbn [app eloop]. destruct H as (t & E). unfold turn. rewrite (field_ok _ _ H0) . rewrite E. cbn [S_ list_ascii_of_string app startswith]. cbn [bind]. rewrite H1. cbn. apply IHreads.
  - cbn [app eloop]. destruct H as (t & E). unfold turn, set_num. rewrite (field_ok _ _ H0). rewrite E. cbn. rewrite H1. apply IHreads.
  - cbn [app eloop]. destruct H as (t & E). unfold turn, set_num. rewrite (field_ok _ _ H0). rewrite E. cbn. rewrite H1. apply IHreads.
  - cbn [app eloop]. rewrite turn_remark by assumption. apply IHreads.
  - cbn [app eloop]. rewrite turn_blank by assumption. apply IHreads.
Qed.
Lemma ext_detected lines : is_ext lines -> first_char_error lines = false /\ extptfm lines = true.
Proof.
  intros (L & l0 & l1 & l2 & rest & -> & (t0 & ->) & (t1 & ->) & Hf & Hd). apply contains_iff in Hf, Hd. split; [reflexivity|]. unfold extptfm. rewrite Hf, Hd, !startswith_app. apply Nat.leb_le in L. rewrite L. reflexivity.
Qed.
Lemma read_start d lines n' d' pre more : is_ext lines -> skipn 2 lines = pre ++ more -> reads (-1) d pre n' d' ->
  read_ext num ofz steps d lines = match eloop num ofz steps 0 (d', n') more with (d', Ok _) => (d', Ok true) | (d', Err e) => (d', Err e) end.
Proof. intros H E R. destruct (ext_detected _ H) as [H1 H2]. unfold read_ext. rewrite H1, H2, E. now rewrite (reads_loop _ _ _ _ _ R more). Qed.

(** *** Reading *)
Theorem C113_read : forall d lines n' d', is_ext lines -> reads (-1) d (skipn 2 lines) n' d' -> read_ext num ofz steps d lines = (d', Ok true) /\ read_class num ofz steps d lines = (d', Ok tt).
Proof.
  intros d lines n' d' H R. assert (E : read_ext num ofz steps d lines = (d', Ok true)) by (rewrite (read_start d lines n' d' (skipn 2 lines) [] H (eq_sym (app_nil_r _)) R); reflexivity). split; [exact E|]. unfold read_class. now rewrite E.
Qed.
(** *** Errors, at any place of the file; what was read before stays *)
Theorem C113_errors : forall d lines pre bad n d1, is_ext lines -> skipn 2 lines = pre ++ bad -> reads (-1) d pre n d1 ->
  (* a matrix of another size *)
  (forall kw key title header s z rest, bad = title :: header :: rest -> In (kw, key) matrices -> keyword title kw -> after_colon header s -> int_ s = Ok z -> z <> n -> read_ext num ofz steps d lines = (d1, Err BrokenFormatError)) /\
  (* loads without the times *)
  (forall title rest, bad = title :: rest -> keyword title "!loading" -> get d1 (S_ "T") = None \/ get d1 (S_ "dt") = None \/ (exists t dt, get d1 (S_ "T") = Some (ENum t) /\ get d1 (S_ "dt") = Some (ENum dt) /\ steps t dt = None) ->
     read_ext num ofz steps d lines = (d1, Err BrokenFormatError)) /\
  (* anything else that is not blank *)
  (forall c l rest, bad = (c :: l) :: rest -> c <> ch 33 -> forallb is_space (c :: l) = false -> read_ext num ofz steps d lines = (d1, Err BrokenFormatError)) /\
  (* a matrix with too few lines at the end of the file *)
  (forall kw key title header s k j rows M, bad = title :: header :: rows -> In (kw, key) matrices -> keyword title kw -> after_colon header s -> n = Z.of_nat k -> int_ s = Ok n -> table j k rows M -> j < k ->
     read_ext num ofz steps d lines = (d1, Err IndexError)).
Proof.
  intros d lines pre bad n d1 H E R. rewrite (read_start d lines n d1 pre bad H E R). repeat split.
  - intros kw key title header s z rest -> Hk Ht Hh Hs Hz. cbn [eloop]. rewrite (turn_matrix _ _ _ _ _ Hk Ht). unfold matrix. rewrite (field_ok _ _ Hh). cbn [bind]. rewrite Hs. apply Z.eqb_neq in Hz. rewrite Hz. cbn [negb]. rewrite orb_true_r. reflexivity.
  - intros title rest -> Ht Hn. cbn [eloop]. rewrite (turn_loading_eq _ _ _ Ht). unfold loading, samples, number.
    destruct Hn as [Hn|[Hn|(t & dt & H1 & H2 & H3)]]; [rewrite Hn; reflexivity|rewrite Hn; destruct (get d1 (S_ "T")) as [[]|]; reflexivity|]. rewrite H1, H2, H3. reflexivity.
  - intros c l rest -> Hc Hb. cbn [eloop]. unfold turn. assert (G : forall x, lower_c x = ch 33 -> x = ch 33).
    { intros x Hx. assert (S : (negb (chr_eqb (lower_c x) (ch 33)) || chr_eqb x (ch 33)) = true) by (revert x Hx; intros x _; revert x; apply char_sweep; vm_compute; reflexivity). rewrite Hx, chr_eqb_refl in S. now apply chr_eqb_eq. }
    assert (N : forall k, startswith (lower (c :: l)) (S_ (String "!" k)) = false) by (intro k; apply startswith_no; intros t Et; cbn [lower map S_ list_ascii_of_string app] in Et; injection Et as Et _; apply Hc, G; exact Et).
    rewrite !N. cbn [lower map]. assert (Nc : chr_eqb (lower_c c) (ch 33) = false) by (apply chr_eqb_neq; intro; apply Hc; now apply G). rewrite Nc. change (lower_c c :: map lower_c l) with (lower (c :: l)).
    assert (Ne : strip (lower (c :: l)) <> []).
    { intro Hs. assert (B : forallb is_space (lower (c :: l)) = true).
      { destruct (lstrip_decomp (lower (c :: l))) as (b1 & B1 & E1). destruct (rstrip_decomp (lstrip (lower (c :: l)))) as (b2 & B2 & E2). unfold strip in Hs. rewrite Hs in E2. cbn [app] in E2. rewrite E1, E2, forallb_app, B1, B2. reflexivity. }
      assert (Q : forall x, (negb (is_space (lower_c x)) || is_space x) = true) by (apply char_sweep; vm_compute; reflexivity).
      assert (B' : forallb is_space (c :: l) = true). { rewrite forallb_forall in *. intros x Hx. specialize (B (lower_c x) (in_map _ _ _ Hx)). specialize (Q x). rewrite B in Q. exact Q. } congruence. }
    destruct (strip (lower (c :: l))); [contradiction|]. reflexivity.
  - intros kw key title header s k j rows M -> Hk Ht Hh -> Hs Hm Hj. cbn [eloop]. rewrite (turn_matrix _ _ _ _ _ Hk Ht). unfold matrix. rewrite (field_ok _ _ Hh). cbn [bind]. rewrite Hs. replace (Z.of_nat k <? -1)%Z with false by lia. rewrite Z.eqb_refl. cbn [orb negb].
    unfold readmat. replace (Z.of_nat k <? 0)%Z with false by lia. cbn [orb]. rewrite !Nat2Z.id. now rewrite (rows_short _ _ _ _ _ Hm Hj).
Qed.

(** *** Writing and reading back *)
Variables fmt fexp : V -> str.
(** A number of a matrix is written after at least one blank, and read as [rd x] *)
Variable rd : V -> V.
Definition apart (x : V) : Prop := exists k w, fexp x = repeat sp (S k) ++ w /\ is_token w = true /\ num w = Some (rd x).
Definition square (n : nat) (M : list (list V)) : Prop := List.length M = n /\ Forall (fun r => List.length r = n /\ Forall apart r) M.
(** A time is written without blanks or colons; it is read in lower case after a blank *)
Definition time_is (v : evalue V) (x : V) : Prop := exists w, match v with EInt z => w = str_of_Z z | ENum y => w = fmt y | EMat _ => False end /\ is_token w = true /\ ~ In (ch 58) (lower w) /\ num (sp :: lower w) = Some x.

Lemma row_words r : Forall apart r -> exists ws, split_ws (concat (map fexp r)) = ws /\ Forall2 (fun w v => num w = Some v) ws (map rd r) /\ (concat (map fexp r) = [] \/ exists t, concat (map fexp r) = sp :: t).
Proof.
  induction 1 as [|x r (k & w & E & Tw & Nw) _ (ws & Ew & F & Hd)]; [exists []; split; [reflexivity|]; split; [constructor|now left]|]. exists (w :: ws). cbn [map concat]. rewrite E. split; [|split; [constructor; assumption|right; eexists; reflexivity]].
  rewrite <- app_assoc. rewrite split_ws_lpad by (clear; induction k as [|k IH]; [reflexivity|exact IH]). destruct Hd as [Hd|(t & Hd)]; rewrite Hd in *.
  - rewrite app_nil_r, split_ws_token by exact Tw. f_equal. now rewrite <- Ew.
  - rewrite split_ws_app by reflexivity. rewrite split_ws_token by exact Tw. cbn [app]. f_equal. now rewrite <- Ew.
Qed.
Lemma row_oneline r : Forall apart r -> no_linebreak (concat (map fexp r)) = true.
Proof. induction 1 as [|x r (k & w & E & Tw & _) _ IH]; [reflexivity|]. cbn [map concat]. rewrite E. apply oneline_app. split; [|exact IH]. apply oneline_app. split; [apply oneline_spaces|now apply oneline_token]. Qed.
Definition text_lines (M : list (list V)) : list str := map (fun r => concat (map fexp r)) M.
Lemma mat_table n m M : List.length M = n -> Forall (fun r => List.length r = m /\ Forall apart r) M -> table n m (text_lines M) (map (map rd) M).
Proof.
  intros L F. unfold text_lines. split; [now rewrite map_length|]. clear L. induction F as [|r M [Lr Ar] _ IH]; cbn [map]; constructor; [|exact IH]. destruct (row_words r Ar) as (ws & Ew & Fw & _). rewrite Ew. split; [exact Fw|]. now rewrite map_length.
Qed.
(** The lines of a matrix: one empty line when there are none *)
Definition shown_lines (M : list (list V)) : list str := match M with [] => [[]] | _ => text_lines M end.
Lemma shown_text M : join [nl] (shown_lines M) = join [nl] (text_lines M).
Proof. destruct M; reflexivity. Qed.
Lemma shown_reads n m M d key title header kw s more n' d' : List.length M = n -> m = n -> Forall (fun r => List.length r = m /\ Forall apart r) M -> In (kw, key) matrices -> keyword title kw -> after_colon header s -> int_ s = Ok (Z.of_nat n) ->
  reads (Z.of_nat n) (put d (S_ key) (EMat (map (map rd) M))) more n' d' -> reads (Z.of_nat n) d (title :: header :: shown_lines M ++ more) n' d'.
Proof.
  intros L Hm F Hk Ht Hh Hs R. subst m. destruct M as [|r M].
  - cbn [List.length] in L. subst n. change (title :: header :: shown_lines [] ++ more) with (title :: header :: [] ++ ([] :: more)). eapply (r_matrix 0 d kw key title header s [] []); try eassumption; [split; [reflexivity|constructor]|]. apply r_blank; [reflexivity|exact R].
  - eapply r_matrix; try eassumption. now apply mat_table.
Qed.
Lemma dim_colon z : after_colon (S_ "!Dimension: " ++ str_of_N z) (sp :: str_of_N z).
Proof.
  exists (S_ "!Dimension"), []. split; [rewrite app_nil_r; reflexivity|]. assert (D : ~ In (ch 58) (str_of_N z)) by (intro H; pose proof (str_of_N_digits z) as G; rewrite forallb_forall in G; specialize (G _ H); discriminate).
  split; [intro H; vm_compute in H; decompose [or] H; discriminate || contradiction|]. split; [intros [H|H]; [discriminate|contradiction]|now left].
Qed.
Lemma lower_dim z : lower (S_ "!Dimension: " ++ str_of_N z) = S_ "!dimension: " ++ str_of_N z.
Proof. rewrite lower_app. f_equal. pose proof (str_of_N_digits z) as H. revert H. generalize (str_of_N z) as s. clear. induction s as [|c s IH]; intro H; [reflexivity|]. cbn [forallb] in H. apply andb_inv in H. destruct H as [H1 H2]. cbn [lower map]. unfold lower in IH. rewrite IH by exact H2. f_equal. assert (G : forall c, (negb (is_digit c) || chr_eqb (lower_c c) c) = true) by (apply char_sweep; vm_compute; reflexivity). specialize (G c). rewrite H1 in G. now apply chr_eqb_eq. Qed.
Lemma dim_colon_low z : after_colon (lower (S_ "!Dimension: " ++ str_of_N z)) (sp :: str_of_N z).
Proof.
  rewrite lower_dim. exists (S_ "!dimension"), []. split; [rewrite app_nil_r; reflexivity|]. assert (D : ~ In (ch 58) (str_of_N z)) by (intro H; pose proof (str_of_N_digits z) as G; rewrite forallb_forall in G; specialize (G _ H); discriminate).
  split; [intro H; vm_compute in H; decompose [or] H; discriminate || contradiction|]. split; [intros [H|H]; [discriminate|contradiction]|now left].
Qed.
Lemma str_of_nat n : str_of_Z (Z.of_nat n) = str_of_N (N.of_nat n).
Proof. destruct n; reflexivity. Qed.
Lemma int_dim n : int_ (sp :: str_of_N (N.of_nat n)) = Ok (Z.of_nat n).
Proof. rewrite int_space, <- str_of_nat. apply int_str_of_Z. Qed.

Theorem C113_round_trip : forall d n vdt vt dt t M K C L nt,
  get d (S_ "nDOF") = Some (EInt (Z.of_nat n)) -> get d (S_ "dt") = Some vdt -> get d (S_ "T") = Some vt -> get d (S_ "MassMatrix") = Some (EMat M) ->
  get d (S_ "StiffnessMatrix") = Some (EMat K) -> get d (S_ "DampingMatrix") = Some (EMat C) -> get d (S_ "Loading") = Some (EMat L) ->
  time_is vdt dt -> time_is vt t -> square n M -> square n K -> square n C ->
  List.length L = nt -> 1 <= nt -> Forall (fun r => List.length r = n + 1 /\ Forall apart r) L -> steps t dt = Some (Z.of_nat nt - 1)%Z ->
  exists text, write_ext fmt fexp true d = (Some text, Ok tt) /\
    read_ext num ofz steps [] (splitlines text) = ([(S_ "nDOF", EInt (Z.of_nat n)); (S_ "dt", ENum dt); (S_ "T", ENum t); (S_ "MassMatrix", EMat (map (map rd) M)); (S_ "StiffnessMatrix", EMat (map (map rd) K));
      (S_ "DampingMatrix", EMat (map (map rd) C)); (S_ "Loading", EMat (map (map rd) L))], Ok true).
Proof.
  intros d n vdt vt dt t M K C L nt Gn Gdt Gt GM GK GC GL (wdt & Edt & Tdt & Cdt & Ndt) (wt & Et & Tt & Ct & Nt) [LM FM] [LK FK] [LC FC] LL Hnt FL Hs.
  assert (Hd1 : forall v w, match v with EInt z => w = str_of_Z z | ENum y => w = fmt y | EMat _ => False end -> match v with EInt z => Ok (str_of_Z z) | ENum v => Ok (fmt v) | EMat _ => Err Unmodelled end = Ok w) by (intros [z|y|m] w Hw; [now rewrite Hw|now rewrite Hw|contradiction]).
  set (num_ := str_of_N (N.of_nat n)).
  assert (T : to_text fmt fexp d = Ok (join [nl] ([S_ "!Comment"; S_ "!Comment Flex 5 Format"; S_ "!Dimension: " ++ num_; S_ "!Time increment in simulation: " ++ wdt; S_ "!Total simulation time in file: " ++ wt; []; S_ "!Mass Matrix"; S_ "!Dimension: " ++ num_] ++ shown_lines M
    ++ [[]; S_ "!Stiffness Matrix"; S_ "!Dimension: " ++ num_] ++ shown_lines K ++ [[]; S_ "!Damping Matrix"; S_ "!Dimension: " ++ num_] ++ shown_lines C ++ [[]; S_ "!Loading and Wave Elevation"; S_ "!Dimension: 1 time column -  " ++ num_ ++ S_ " force columns"] ++ text_lines L))).
  { unfold to_text, shown, mat_text, item_. rewrite Gn, Gdt, Gt, GM, GK, GC, GL. cbn [bind]. rewrite (Hd1 _ _ Edt), (Hd1 _ _ Et). cbn [bind]. f_equal.
    assert (NE : forall X, shown_lines X <> []) by (intros [|x X]; discriminate). assert (NL : text_lines L <> []) by (destruct L; [cbn in LL; lia|discriminate]).
    rewrite (join_app [nl] [S_ "!Comment"; _; _; _; _; _; _; _]) by (try discriminate; intro Z; apply app_eq_nil in Z; destruct Z as [Z _]; now apply NE in Z).
    rewrite (join_app [nl] (shown_lines M)) by (try apply NE; discriminate). rewrite (join_app [nl] [[]; S_ "!Stiffness Matrix"; _]) by (try discriminate; intro Z; apply app_eq_nil in Z; destruct Z as [Z _]; now apply NE in Z).
    rewrite (join_app [nl] (shown_lines K)) by (try apply NE; discriminate). rewrite (join_app [nl] [[]; S_ "!Damping Matrix"; _]) by (try discriminate; intro Z; apply app_eq_nil in Z; destruct Z as [Z _]; now apply NE in Z).
    rewrite (join_app [nl] (shown_lines C)) by (try apply NE; discriminate). rewrite (join_app [nl] [[]; S_ "!Loading and Wave Elevation"; _]) by (try discriminate; exact NL).
    rewrite !shown_text. unfold text_lines, num_. rewrite !str_of_nat. cbn [join]. rewrite <- !app_assoc. cbn [app]. reflexivity. }
  exists (match to_text fmt fexp d with Ok x => x | Err _ => [] end). split.
  - unfold write_ext, checks, check_rows, check_square, item_. rewrite GM, GK, GC, Gn. cbn [bind shape fst snd].
    assert (Q : forall X, List.length X = n -> Forall (fun r => List.length r = n /\ Forall apart r) X -> (List.length X =? match X with [] => 0 | r :: _ => List.length r end) = true).
    { intros [|r X] LX FX; cbn [List.length] in *; [reflexivity|]. apply Forall_inv in FX. destruct FX as [Hr _]. rewrite Hr, LX. apply Nat.eqb_refl. }
    rewrite LM, LK, LC, Z.eqb_refl. cbn [bind]. rewrite <- LM at 1. rewrite (Q M LM FM). cbn [bind]. rewrite <- LK at 1. rewrite (Q K LK FK). cbn [bind]. rewrite <- LC at 1. rewrite (Q C LC FC). rewrite T. reflexivity.
  - rewrite T. rewrite splitlines_join.
    2:{ rewrite forallb_forall. intros l Hl.
        assert (R : forall X k, Forall (fun r => List.length r = k /\ Forall apart r) X -> forall l, In l (text_lines X) -> no_linebreak l = true).
        { intros X k FX y Hy. apply in_map_iff in Hy. destruct Hy as (r & <- & Hr). rewrite Forall_forall in FX. destruct (FX r Hr) as [_ A]. now apply row_oneline. }
        assert (R' : forall X k, Forall (fun r => List.length r = k /\ Forall apart r) X -> forall l, In l (shown_lines X) -> no_linebreak l = true) by (intros [|r X] k FX y Hy; [destruct Hy as [<-|[]]; reflexivity|now apply (R (r :: X) k)]).
        assert (Nn : oneline num_) by (apply oneline_token, str_of_N_token).
        repeat (apply in_app_or in Hl; destruct Hl as [Hl|Hl]);
          try (now apply (R' _ _ FM)); try (now apply (R' _ _ FK)); try (now apply (R' _ _ FC)); try (now apply (R _ _ FL));
          cbn [In] in Hl; repeat (destruct Hl as [<-|Hl]; [repeat (apply oneline_app; split); first [reflexivity | exact Nn | now apply oneline_token]|]); destruct Hl. }
    2:{ assert (NL : text_lines L <> []) by (destruct L; [cbn in LL; lia|discriminate]). match goal with |- last ?X _ <> _ => assert (EX : exists a, X = a ++ text_lines L) by (eexists; rewrite !app_assoc; reflexivity) end. destruct EX as (a & ->).
        assert (LA : forall (a0 b : list str) x, b <> [] -> last (a0 ++ b) x = last b x). { intros a0 b x Hb. induction a0 as [|y a0 IH]; [reflexivity|]. cbn [app]. rewrite <- IH. destruct (a0 ++ b) eqn:Eab; [apply app_eq_nil in Eab; destruct Eab; contradiction|reflexivity]. }
        rewrite (LA a (text_lines L) _ NL). assert (W : exists r, In r L /\ last (text_lines L) [ch 0] = concat (map fexp r)).
        { clear - NL. unfold text_lines in *. induction L as [|r L IH]; [contradiction|]. destruct L as [|r' L]; [exists r; split; [now left|reflexivity]|]. destruct IH as (r0 & Hr & E); [discriminate|]. exists r0. split; [now right|]. exact E. }
        destruct W as (r & Hr & ->). rewrite Forall_forall in FL. destruct (FL r Hr) as [Lr Ar]. destruct r as [|x r]; [cbn in Lr; lia|]. apply Forall_inv in Ar. destruct Ar as (k & w & Ex & _). cbn [map concat]. rewrite Ex. discriminate. }
    refine (proj1 (C113_read _ _ (Z.of_nat n) _ _ _)).
    + split; [rewrite !app_length; cbn [List.length]; lia|]. do 4 eexists. split; [cbn [app]; reflexivity|]. split; [exists (S_ "Comment"); reflexivity|]. split; [exists (S_ "Comment Flex 5 Format"); reflexivity|]. split; [exists (S_ "!comment "), (S_ " 5 format"); reflexivity|].
      exists [], (S_ ": " ++ num_). cbn [app]. unfold num_. rewrite lower_dim. reflexivity.
    + cbn [app skipn]. eapply (r_dimension _ _ _ _ (Z.of_nat n)); [exists (S_ ": " ++ num_); unfold num_; rewrite lower_dim; reflexivity|apply dim_colon_low|apply int_dim|].
      eapply (r_step _ _ _ (sp :: lower wdt) dt); [eexists; rewrite lower_app; reflexivity| |exact Ndt|].
      { exists (S_ "!time increment in simulation"), []. rewrite lower_app, app_nil_r. split; [reflexivity|]. split; [intro H; vm_compute in H; decompose [or] H; discriminate || contradiction|]. split; [intros [H|H]; [discriminate|contradiction]|now left]. }
      eapply (r_total _ _ _ (sp :: lower wt) t); [eexists; rewrite lower_app; reflexivity| |exact Nt|].
      { exists (S_ "!total simulation time in file"), []. rewrite lower_app, app_nil_r. split; [reflexivity|]. split; [intro H; vm_compute in H; decompose [or] H; discriminate || contradiction|]. split; [intros [H|H]; [discriminate|contradiction]|now left]. }
      apply r_blank; [reflexivity|].
      eapply (shown_reads n n M); [exact LM|reflexivity|exact FM|now left|eexists; reflexivity|apply dim_colon|apply int_dim|]. apply r_blank; [reflexivity|].
      eapply (shown_reads n n K); [exact LK|reflexivity|exact FK|right; now left|eexists; reflexivity|apply dim_colon|apply int_dim|]. apply r_blank; [reflexivity|].
      eapply (shown_reads n n C); [exact LC|reflexivity|exact FC|right; right; now left|eexists; reflexivity|apply dim_colon|apply int_dim|]. apply r_blank; [reflexivity|].
      rewrite <- (app_nil_r (text_lines L)). eapply (r_loading n _ _ _ t dt nt (text_lines L) (map (map rd) L) []); [eexists; reflexivity|reflexivity|reflexivity|exact Hs|now apply mat_table|]. apply r_end.
Qed.

(** *** A matrix of another size is refused before the file is touched *)
Theorem C113_sizes : forall d n M K C can_open, get d (S_ "nDOF") = Some (EInt (Z.of_nat n)) -> get d (S_ "MassMatrix") = Some (EMat M) ->
  get d (S_ "StiffnessMatrix") = Some (EMat K) -> get d (S_ "DampingMatrix") = Some (EMat C) ->
  (exists X, In X [M; K; C] /\ (List.length X <> n \/ exists r X', X = r :: X' /\ List.length r <> n)) -> write_ext fmt fexp can_open d = (None, Err AssertionError).
Proof.
  intros d n M K C can_open Gn GM GK GC (X & HX & H). unfold write_ext, checks, check_rows, check_square, item_. rewrite GM, GK, GC, Gn. cbn [bind shape fst snd].
  assert (P : forall Y : list (list V), (Z.of_nat (List.length Y) =? Z.of_nat n)%Z = true -> List.length Y = n) by (intros Y E; apply Z.eqb_eq in E; lia).
  destruct (Z.of_nat (List.length M) =? Z.of_nat n)%Z eqn:E1; [|reflexivity]. destruct (Z.of_nat (List.length K) =? Z.of_nat n)%Z eqn:E2; [|reflexivity]. destruct (Z.of_nat (List.length C) =? Z.of_nat n)%Z eqn:E3; [|reflexivity]. cbn [bind].
  apply P in E1, E2, E3. assert (B : match X with [] => 0 | r :: _ => List.length r end <> List.length X).
  { assert (LX : List.length X = n) by (cbn [In] in HX; destruct HX as [<-|[<-|[<-|[]]]]; assumption). destruct H as [H|(r & X' & -> & Hr)]; [contradiction|]. congruence. }
  assert (Q : forall Y : list (list V), match Y with [] => 0 | r :: _ => List.length r end <> List.length Y -> (List.length Y =? match Y with [] => 0 | r :: _ => List.length r end) = false) by (intros Y HY; apply Nat.eqb_neq; congruence).
  cbn [In] in HX. destruct HX as [<-|[<-|[<-|[]]]]; rewrite (Q _ B); [reflexivity| |].
  - destruct (_ =? _); reflexivity.
  - destruct (_ =? _); [|reflexivity]. cbn [bind]. destruct (_ =? _); reflexivity.
Qed.
(** Without loads the checks pass and the file has been emptied *)
Theorem C113_no_loading_refuted : forall d n vdt vt M K C, get d (S_ "nDOF") = Some (EInt (Z.of_nat n)) -> get d (S_ "dt") = Some (ENum vdt) -> get d (S_ "T") = Some (ENum vt) -> get d (S_ "MassMatrix") = Some (EMat M) ->
  get d (S_ "StiffnessMatrix") = Some (EMat K) -> get d (S_ "DampingMatrix") = Some (EMat C) -> rect n M -> rect n K -> rect n C -> List.length M = n -> List.length K = n -> List.length C = n ->
  get d (S_ "Loading") = None -> write_ext fmt fexp true d = (Some [], Err KeyError).
Proof.
  intros d n vdt vt M K C Gn Gdt Gt GM GK GC RM RK RC LM LK LC GL.
  assert (Q : forall X : list (list V), List.length X = n -> rect n X -> (List.length X =? match X with [] => 0 | r :: _ => List.length r end) = true).
  { intros [|r X] LX FX; cbn [List.length] in *; [reflexivity|]. apply Forall_inv in FX. rewrite FX, LX. apply Nat.eqb_refl. }
  unfold write_ext, checks, check_rows, check_square, item_. rewrite GM, GK, GC, Gn. cbn [bind shape fst snd]. rewrite LM, LK, LC, Z.eqb_refl. cbn [bind]. rewrite <- LM at 1. rewrite (Q M LM RM). cbn [bind]. rewrite <- LK at 1. rewrite (Q K LK RK). cbn [bind]. rewrite <- LC at 1. rewrite (Q C LC RC).
  unfold to_text, shown, mat_text, item_. rewrite Gn, Gdt, Gt, GM, GK, GC, GL. reflexivity.
Qed.
(** *** What does not hold *)
(** A file of another format is accepted without a word, and the object keeps what it had *)
Theorem C113_other_format_refuted : forall d lines, (List.length lines < 10 \/ exists c l rest, lines = (c :: l) :: rest /\ c <> ch 33) -> read_class num ofz steps d lines = (d, Ok tt).
Proof.
  intros d lines H. unfold read_class, read_ext.
  assert (F : first_char_error lines = false /\ extptfm lines = false).
  { destruct H as [H|(c & l & rest & -> & Hc)].
    - apply Nat.leb_gt in H. unfold first_char_error, extptfm. split; [destruct lines as [|[|c l] [|[|c' l'] rest]]; try reflexivity; rewrite H; reflexivity|]. destruct lines as [|l0 [|l1 [|l2 rest]]]; try reflexivity. rewrite H. reflexivity.
    - assert (S0 : startswith (c :: l) (S_ "!") = false) by (apply startswith_no; intros t E; injection E as E _; now apply Hc). unfold first_char_error, extptfm. split; [destruct rest as [|[|c' l'] rest]; try reflexivity; rewrite S0, andb_false_r; reflexivity|]. destruct rest as [|l1 [|l2 rest]]; try reflexivity. rewrite S0, andb_false_r. reflexivity. }
  destruct F as [F1 F2]. now rewrite F1, F2.
Qed.
(** A file without a damping matrix leaves the one that was read before, whatever its size *)
Theorem C113_kept_refuted : forall d lines n' d', is_ext lines -> reads (-1) d (skipn 2 lines) n' d' -> (forall l, In l lines -> ~ keyword l "!damping") ->
  read_class num ofz steps d lines = (d', Ok tt) /\ get d' (S_ "DampingMatrix") = get d (S_ "DampingMatrix").
Proof.
  intros d lines n' d' H R N. split; [now apply (C113_read d lines n' d')|]. assert (N' : forall l, In l (skipn 2 lines) -> ~ keyword l "!damping") by (intros l Hl; apply N; rewrite <- (firstn_skipn 2 lines); apply in_or_app; now right). clear N H.
  revert R N'. generalize (skipn 2 lines) as ls, (-1)%Z as n. intros ls n R. induction R; intro N'; try reflexivity;
    try (rewrite IHR by (intros y Hy; apply N'; right; try right; try (apply in_or_app; right); exact Hy)); try (apply get_put_other; discriminate); try reflexivity.
  apply get_put_other. cbn [matrices In] in H. destruct H as [H|[H|[H|[]]]]; injection H as <- <-; try discriminate. exfalso. apply (N' title); [now left|assumption].
Qed.
(** Numbers that are written without a blank between them, such as negative numbers with an exponent of three digits, are one word: the matrix cannot be read *)
Theorem C113_glued_refuted : forall d lines pre n d1 kw key title header s x y row rest, is_ext lines -> skipn 2 lines = pre ++ title :: header :: concat (map fexp (x :: y :: row)) :: rest -> reads (-1) d pre (Z.of_nat (S n)) d1 ->
  In (kw, key) matrices -> keyword title kw -> after_colon header s -> int_ s = Ok (Z.of_nat (S n)) -> Forall (fun v => is_token (fexp v) = true) (x :: y :: row) -> num (concat (map fexp (x :: y :: row))) = None ->
  read_ext num ofz steps d lines = (d1, Err ValueError).
Proof.
  intros d lines pre n d1 kw key title header s x y row rest H E R Hk Ht Hh Hs F N. rewrite (read_start _ _ _ _ _ _ H E R). cbn [eloop]. rewrite (turn_matrix _ _ _ _ _ Hk Ht). unfold matrix. rewrite (field_ok _ _ Hh). cbn [bind]. rewrite Hs. replace (Z.of_nat (S n) <? -1)%Z with false by lia. rewrite Z.eqb_refl. cbn [orb negb].
  unfold readmat. replace (Z.of_nat (S n) <? 0)%Z with false by lia. cbn [orb]. rewrite !Nat2Z.id. cbn [rows_of]. unfold row_of at 1.
  assert (T : is_token (concat (map fexp (x :: y :: row))) = true).
  { assert (G : forall l, Forall (fun v => is_token (fexp v) = true) l -> forall v, is_token (fexp v) = true -> is_token (concat (map fexp (v :: l))) = true).
    { induction 1 as [|w l Hw _ IH]; intros v Hv; [cbn [map concat]; now rewrite app_nil_r|]. change (concat (map fexp (v :: w :: l))) with (fexp v ++ concat (map fexp (w :: l))). apply token_app; [exact Hv|now apply IH]. }
    inversion F; subst. now apply G. }
  rewrite (split_ws_token _ T). cbn [floats]. now rewrite N.
Qed.
(** A line of one number is taken for the whole row *)
Theorem C113_one_number_refuted : forall d lines pre n d1 kw key title header s rows vs, is_ext lines -> skipn 2 lines = pre ++ title :: header :: rows -> reads (-1) d pre (Z.of_nat n) d1 ->
  In (kw, key) matrices -> keyword title kw -> after_colon header s -> int_ s = Ok (Z.of_nat n) -> List.length rows = n -> Forall2 (fun l v => exists w, split_ws l = [w] /\ num w = Some v) rows vs ->
  read_ext num ofz steps d lines = (put d1 (S_ key) (EMat (map (fun v => repeat v n) vs)), Ok true).
Proof.
  intros d lines pre n d1 kw key title header s rows vs H E R Hk Ht Hh Hs L F. rewrite (read_start _ _ _ _ _ _ H E R). cbn [eloop]. rewrite (turn_matrix _ _ _ _ _ Hk Ht). unfold matrix. rewrite (field_ok _ _ Hh). cbn [bind]. rewrite Hs. replace (Z.of_nat n <? -1)%Z with false by lia. rewrite Z.eqb_refl. cbn [orb negb].
  unfold readmat. replace (Z.of_nat n <? 0)%Z with false by lia. cbn [orb]. rewrite !Nat2Z.id.
  assert (G : forall m, rows_of num (List.length rows) m rows = Ok (map (fun v => repeat v m) vs)).
  { intro m. clear - F. induction F as [|l v rows vs (w & Ew & Nw) _ IH]; [reflexivity|]. cbn [List.length rows_of map]. unfold row_of at 1. rewrite Ew. cbn [floats]. rewrite Nw. cbn [bind List.length].
    destruct (1 =? m) eqn:E1; [apply Nat.eqb_eq in E1; subst m|]; cbn [bind]; rewrite IH; reflexivity. }
  rewrite <- L at 1. rewrite G. cbn [eloop Nat.add]. rewrite <- L at 1. pose proof (skip_rows (put d1 (S_ key) (EMat (map (fun v => repeat v n) vs)), Z.of_nat n) rows []) as Sk. rewrite app_nil_r in Sk. rewrite Sk. reflexivity.
Qed.
(** The object that the class makes by default is written as a file that cannot be read *)
Theorem C113_prototype_refuted : forall one zero, num (S_ " 1") = Some one -> num (S_ " 0") = Some zero -> steps zero one = Some 0%Z ->
  exists text d', write_ext fmt fexp true (prototype (V := V)) = (Some text, Ok tt) /\ read_ext num ofz steps [] (splitlines text) = (d', Err IndexError).
Proof.
  intros one zero H1 H0 Hs.
  set (dim := S_ "!Dimension: 0").
  set (pre := [dim; S_ "!Time increment in simulation: 1"; S_ "!Total simulation time in file: 0"; []; S_ "!Mass Matrix"; dim; []; []; S_ "!Stiffness Matrix"; dim; []; []; S_ "!Damping Matrix"; dim; []; []]).
  set (lines := S_ "!Comment" :: S_ "!Comment Flex 5 Format" :: pre ++ [S_ "!Loading and Wave Elevation"; S_ "!Dimension: 1 time column -  0 force columns"]).
  exists (flat_map (fun l => l ++ [nl]) lines), [(S_ "nDOF", EInt 0%Z); (S_ "dt", ENum one); (S_ "T", ENum zero); (S_ "MassMatrix", EMat []); (S_ "StiffnessMatrix", EMat []); (S_ "DampingMatrix", EMat [])].
  split; [reflexivity|]. rewrite splitlines_unlines by (vm_compute; reflexivity).
  assert (X : is_ext lines).
  { split; [cbn; lia|]. exists (S_ "!Comment"), (S_ "!Comment Flex 5 Format"), dim, (skipn 3 lines). split; [reflexivity|]. split; [exists (S_ "Comment"); reflexivity|]. split; [exists (S_ "Comment Flex 5 Format"); reflexivity|]. split; [exists (S_ "!comment "), (S_ " 5 format"); reflexivity|exists [], (S_ ": 0"); reflexivity]. }
  assert (R : reads (-1) [] pre (Z.of_nat 0) [(S_ "nDOF", EInt 0%Z); (S_ "dt", ENum one); (S_ "T", ENum zero); (S_ "MassMatrix", EMat []); (S_ "StiffnessMatrix", EMat []); (S_ "DampingMatrix", EMat [])]).
  { assert (C : forall a l s, l = a ++ ch 58 :: s -> mem_chr (ch 58) a = false -> mem_chr (ch 58) s = false -> after_colon l s).
    { intros a l s E Ha Hs'. exists a, []. rewrite app_nil_r. split; [exact E|]. split; [intro Hi; apply mem_chr_iff in Hi; congruence|]. split; [intro Hi; apply mem_chr_iff in Hi; congruence|now left]. }
    assert (D : after_colon dim (S_ " 0")) by (apply (C (S_ "!Dimension")); reflexivity). assert (Z0 : int_ (S_ " 0") = Ok (Z.of_nat 0)) by reflexivity.
    unfold pre. eapply (r_dimension _ _ _ (S_ " 0") 0%Z); [exists (S_ ": 0"); reflexivity|apply (C (S_ "!dimension")); reflexivity|reflexivity|].
    eapply (r_step _ _ _ (S_ " 1") one); [exists (S_ " in simulation: 1"); reflexivity|apply (C (S_ "!time increment in simulation")); reflexivity|exact H1|].
    eapply (r_total _ _ _ (S_ " 0") zero); [exists (S_ " in file: 0"); reflexivity|apply (C (S_ "!total simulation time in file")); reflexivity|exact H0|]. apply r_blank; [reflexivity|].
    eapply (shown_reads 0 0 [] _ "MassMatrix" _ dim "!mass" (S_ " 0")); [reflexivity|reflexivity|constructor|now left|eexists; reflexivity|exact D|exact Z0|]. apply r_blank; [reflexivity|].
    eapply (shown_reads 0 0 [] _ "StiffnessMatrix" _ dim "!stiffness" (S_ " 0")); [reflexivity|reflexivity|constructor|right; now left|eexists; reflexivity|exact D|exact Z0|]. apply r_blank; [reflexivity|].
    eapply (shown_reads 0 0 [] _ "DampingMatrix" _ dim "!damping" (S_ " 0")); [reflexivity|reflexivity|constructor|right; right; now left|eexists; reflexivity|exact D|exact Z0|]. apply r_blank; [reflexivity|]. apply r_end. }
  rewrite (read_start [] lines _ _ pre [S_ "!Loading and Wave Elevation"; S_ "!Dimension: 1 time column -  0 force columns"] X eq_refl R). cbn [eloop]. rewrite turn_loading_eq by (eexists; reflexivity). unfold loading.
  match goal with |- context [samples ofz steps ?d] => assert (Sm : samples ofz steps d = Some 1%Z) end; [|rewrite Sm; reflexivity].
  unfold samples. change (number ofz _ "T") with (Some zero). change (number ofz _ "dt") with (Some one). cbv iota beta. rewrite Hs. reflexivity.
Qed.
End Ext.

(** *** The columns of the loads *)
Theorem C113_columns : forall V (d : data V) n L r, get d (S_ "nDOF") = Some (EInt (Z.of_nat n)) -> get d (S_ "Loading") = Some (EMat (r :: L)) -> List.length r = n + 1 ->
  exists cols, load_frame d = Ok (cols, r :: L) /\ List.length cols = n + 1 /\ NoDup cols /\
    (forall i, i <= n -> nth_error cols i = if i <? 7 then nth_error (map S_ ["Time_[s]"; "InpF_Fx_[N]"; "InpF_Fy_[N]"; "InpF_Fz_[N]"; "InpF_Mx_[Nm]"; "InpF_My_[Nm]"; "InpF_Mz_[Nm]"]%string) i
                                      else Some (S_ "CBF_" ++ repeat (ch 48) (3 - List.length (str_of_N (N.of_nat (i - 6)))) ++ str_of_N (N.of_nat (i - 6)) ++ S_ "_[-]")).
Proof.
  intros V d n L r Gn GL Lr. exists (load_columns n). assert (Len : List.length (load_columns n) = n + 1) by (unfold load_columns; rewrite firstn_length, app_length, !map_length, seq_length; cbn [List.length FORCES]; lia).
  assert (Nth : forall i, i <= n -> nth_error (load_columns n) i = if i <? 7 then nth_error (map S_ FORCES) i else Some (S_ "CBF_" ++ repeat (ch 48) (3 - List.length (str_of_N (N.of_nat (i - 6)))) ++ str_of_N (N.of_nat (i - 6)) ++ S_ "_[-]")).
  { intros i Hi. unfold load_columns. assert (Nf : forall (l : list str) k j, j < k -> nth_error (firstn k l) j = nth_error l j) by (induction l as [|x l IH]; intros [|k] [|j] Hj; try lia; try reflexivity; cbn; apply IH; lia).
    rewrite Nf by lia. destruct (i <? 7) eqn:E; [apply Nat.ltb_lt in E; apply nth_error_app1; rewrite map_length; exact E|]. apply Nat.ltb_ge in E. rewrite nth_error_app2 by (rewrite map_length; exact E). rewrite map_length. change (List.length FORCES) with 7.
    rewrite nth_error_map. assert (Ns : nth_error (seq 0 n) (i - 7) = Some (i - 7)). { assert (Q : forall a k j, j < k -> nth_error (seq a k) j = Some (a + j)) by (intros a k; revert a; induction k as [|k IH]; intros a [|j] Hj; try lia; cbn [seq nth_error]; [f_equal; lia|]; rewrite IH by lia; f_equal; lia). rewrite Q by lia. reflexivity. }
    rewrite Ns. cbn [option_map]. unfold pad3. replace (i - 7 + 1) with (i - 6) by lia. rewrite <- app_assoc. reflexivity. }
  split; [|split; [exact Len|split; [|exact Nth]]].
  - unfold load_frame, item_. rewrite Gn, GL. cbn [bind]. replace (Z.of_nat n <? 0)%Z with false by lia. rewrite Nat2Z.id, Lr, Len, Nat.eqb_refl. reflexivity.
  - apply NoDup_nth_error. rewrite Len. intros i j Hi E. assert (Hj : j < n + 1). { destruct (Nat.lt_ge_cases j (n + 1)) as [G|G]; [exact G|]. rewrite (proj2 (nth_error_None _ j)) in E by (rewrite Len; exact G). apply nth_error_None in E. rewrite Len in E. lia. }
    rewrite (Nth i), (Nth j) in E by lia.
    assert (Num : forall i j, S_ "CBF_" ++ repeat (ch 48) (3 - List.length (str_of_N (N.of_nat i))) ++ str_of_N (N.of_nat i) ++ S_ "_[-]" = S_ "CBF_" ++ repeat (ch 48) (3 - List.length (str_of_N (N.of_nat j))) ++ str_of_N (N.of_nat j) ++ S_ "_[-]" -> i = j).
    { clear. intros i j E. apply app_inv_head in E. rewrite !app_assoc in E. apply app_inv_tail in E. apply (f_equal N_of_str) in E.
      assert (Z0 : forall k (s : str) n, N_of_str s = Some n -> N_of_str (repeat (ch 48) k ++ s) = Some n).
      { intros k s n H. induction k as [|k IH]; [exact H|]. cbn [repeat app]. unfold N_of_str in *. cbn [uint_of_str]. destruct (repeat (ch 48) k ++ s) as [|c t]; [discriminate|]. destruct (uint_of_str (c :: t)); [|discriminate]. exact IH. }
      rewrite (Z0 _ _ _ (N_of_str_of_N _)), (Z0 _ _ _ (N_of_str_of_N _)) in E. injection E as E. now apply Nat2N.inj. }
    assert (Ff : forall a k, nth_error (map S_ FORCES) a <> Some (S_ "CBF_" ++ k)) by (intros a k Hk; do 7 (destruct a as [|a]; [discriminate|]); destruct a; discriminate).
    destruct (i <? 7) eqn:Ei, (j <? 7) eqn:Ej.
    + apply Nat.ltb_lt in Ei, Ej. assert (D : NoDup (map S_ FORCES)) by (repeat constructor; cbn; intuition discriminate). rewrite NoDup_nth_error in D. apply D; [exact Ei|exact E].
    + exfalso. now apply (Ff i _ E).
    + exfalso. symmetry in E. now apply (Ff j _ E).
    + apply Nat.ltb_ge in Ei, Ej. injection E as E. apply (f_equal (fun x => S_ "CBF_" ++ x)) in E || idtac. assert (Q : i - 6 = j - 6); [|lia]. apply Num. exact E.
Qed.

(** A superelement of two degrees of freedom, three samples, on whole numbers *)
Definition inum (w : str) : option Z := match int_ w with Ok z => Some z | Err _ => None end.
Definition isteps (t dt : Z) : option Z := if (dt =? 0)%Z then None else Some (Z.quot t dt).
Definition iexp (z : Z) : str := repeat sp 3 ++ str_of_Z z.
Definition idata : data Z := [(S_ "nDOF", EInt 2%Z); (S_ "dt", ENum 5%Z); (S_ "T", ENum 14%Z); (S_ "MassMatrix", EMat [[1; -2]; [3; 4]]%Z); (S_ "StiffnessMatrix", EMat [[5; 6]; [7; 8]]%Z); (S_ "DampingMatrix", EMat [[9; 10]; [-11; 12]]%Z); (S_ "Loading", EMat [[0; 1; 2]; [5; 3; 4]; [10; 5; -6]]%Z)].
Lemma iapart z : apart inum iexp (fun x => x) z.
Proof. exists 2, (str_of_Z z). split; [reflexivity|]. split; [apply str_of_Z_token|]. unfold inum. now rewrite int_str_of_Z. Qed.
Example C113_nonvacuous : (forall L n, Forall (fun r => List.length r = n) L -> Forall (fun r => List.length r = n /\ Forall (apart inum iexp (fun x => x)) r) L) /\
  time_is inum str_of_Z (ENum 5%Z) 5%Z /\ time_is inum str_of_Z (ENum 14%Z) 14%Z /\ isteps 14 5 = Some (Z.of_nat 3 - 1)%Z /\
  exists text, write_ext str_of_Z iexp true idata = (Some text, Ok tt) /\ read_ext inum (fun z => z) isteps [] (splitlines text) = (idata, Ok true).
Proof.
  split; [intros L n; apply Forall_impl; intros r Hr; split; [exact Hr|]; apply Forall_forall; intros z _; apply iapart|].
  split; [exists (S_ "5"); split; [reflexivity|]; split; [reflexivity|]; split; [intros [H|[]]; discriminate|reflexivity]|]. split; [exists (S_ "14"); split; [reflexivity|]; split; [reflexivity|]; split; [intros [H|[H|[]]]; discriminate|reflexivity]|].
  split; [reflexivity|]. eexists. split; [vm_compute; reflexivity|]. vm_compute. reflexivity.
Qed.
Print Assumptions C113_read.
Print Assumptions C113_errors.
Print Assumptions C113_round_trip.
Print Assumptions C113_sizes.
Print Assumptions C113_no_loading_refuted.
Print Assumptions C113_other_format_refuted.
Print Assumptions C113_kept_refuted.
Print Assumptions C113_glued_refuted.
Print Assumptions C113_one_number_refuted.
Print Assumptions C113_prototype_refuted.
Print Assumptions C113_columns.
