(** C103: FLEX documentation files: every table and every list of numbers is found under its name; what happens to matrices, texts and
    units; reading again. *)
From Coq Require Import Permutation.
From Verif Require Import Py PyFacts TextFacts ListFacts H2dat_Model H2dat_Props H2datNames_Props Dict FlexDoc_Model.
Local Open Scope nat_scope.

(** * Specification *)
Section Spec.
Context {V : Type}.
Variable num : str -> option V.
Variable idx : nat -> V.

(** The text of a number: a sign or none, digits with a point or none, a power of ten or none *)
Definition digits (s : str) : Prop := Forall (fun c => In c (S_ "0123456789")) s.
Definition sign_text (s : str) : Prop := s = [] \/ s = S_ "-" \/ s = S_ "+".
Definition mantissa_text (s : str) : Prop :=
  (digits s /\ s <> []) \/ (exists a, s = a ++ S_ "." /\ digits a /\ a <> []) \/ (exists a b, s = a ++ S_ "." ++ b /\ digits a /\ digits b /\ b <> []).
Definition power_text (s : str) : Prop := s = [] \/ exists e g d, s = e :: g ++ d /\ In e (S_ "Ee") /\ sign_text g /\ digits d /\ d <> [].
Definition number_text (s : str) : Prop := exists g m p, s = g ++ m ++ p /\ sign_text g /\ mantissa_text m /\ power_text p.
(** A word of text, such as a unit or a comment: no digit in it *)
Definition no_digit (s : str) : Prop := Forall (fun c => ~ In c (S_ "0123456789")) s.

(** The name written at the start of a line *)
Definition written (key sub : str) : str := S_ "#" ++ key ++ match sub with [] => [] | _ => S_ "_" ++ sub end.
(** What may come after the name on its line *)
Definition after (t : str) : Prop := t = [] \/ exists c t', t = c :: t' /\ is_space c = true.
Definition data_line (l : str) : Prop := exists c t, l = c :: t /\ c <> "#"%char.

(** The tables, and the matrices *)
Definition shape (part : string) (n : string) : str * str := (S_ part, S_ "ShapeFunction_DOF" ++ S_ n ++ S_ "_Shape").
Definition tables : list (str * str) :=
  map (shape "Blade") ["1"; "2"; "3"; "4"; "5"; "6"; "7"; "8"; "9"; "10"]%string ++
  map (shape "Tower") ["1"; "2"; "3"; "4"; "5"; "6"; "7"; "8"]%string ++ map (shape "Foundation") ["1"; "2"]%string ++
  [(S_ "Tower", S_ "SectionData"); (S_ "Foundation", S_ "SectionData"); (S_ "Global", S_ "Mode1_Shape")].
Definition matrices : list (str * str) :=
  map (fun s => (S_ "Foundation", S_ s)) ["IsolatedMassMatrix"; "IsolatedStiffnessMatrix"; "IsolatedStiffnessMatrixCorrection"; "IsolatedDampingMatrix"]%string ++
  map (fun s => (S_ "Tower", S_ s)) ["MassMatrix"; "IsolatedMassMatrix"; "IsolatedStiffnessMatrix"; "IsolatedStiffnessMatrixCorrection"; "IsolatedDampingMatrix"]%string ++
  map (fun s => (S_ "EVA", S_ s)) ["MassMatrix"; "StiffnessMatrix"; "DampingMatrix"; "Eigenvectors"; "Eigenfrequencies"; "Eigenvalues"; "Damping"; "LogDec"]%string ++
  [(S_ "Blade", S_ "IsolatedDampingMatrix")].

(** A column of a table with units: blanks, a word, at most three blanks, the unit in brackets; the roughness has no unit. *)
Record column := mk_col { c_lead : nat; c_word : str; c_gap : nat; c_unit : option str }.
Definition blanks (n : nat) : str := repeat sp n.
Definition column_text (c : column) : str := blanks (c_lead c) ++ c_word c ++ match c_unit c with Some u => blanks (c_gap c) ++ S_ "[" ++ u ++ S_ "]" | None => [] end.
Definition column_label (c : column) : str := match c_unit c with Some u => c_word c ++ S_ "_[" ++ u ++ S_ "]" | None => c_word c ++ S_ "_[-]" end.
Definition plain_word (w : str) : Prop := is_token w = true /\ ~ In "["%char w /\ ~ In "]"%char w /\ nowhere (S_ "__") w /\ nowhere (S_ "rough") w.
Definition column_ok (c : column) : Prop :=
  1 <= c_lead c /\ c_gap c <= 3 /\
  match c_unit c with
  | Some u => plain_word (c_word c) /\ plain_word u /\ (exists x y, c_word c = x ++ [y] /\ y <> "_"%char /\ (y = "n"%char -> c_gap c = 0))
  | None => c_word c = S_ "rough"
  end.
(** The names of the columns of a table of [n] columns: a number of rows may come first; words, or words with units.  When there are not [n]
    names, the columns are called C0, C1, ... *)
Definition count_text (t : str) : Prop := exists b n, t = blanks b ++ str_of_N n ++ [sp].
Definition not_a_number (w : str) : Prop := exists c, In c w /\ ~ In c (S_ "0123456789_+-").
Inductive labelled : str -> nat -> list str -> Prop :=
| by_words h ws n : ~ In "["%char h -> (split_ws h = ws /\ (exists w ws', ws = w :: ws' /\ not_a_number w)) \/ (exists m, split_ws h = str_of_N m :: ws) -> ~ In (S_ "C0") ws -> List.length ws = n ->
    labelled h n ws
| by_units t cols b : t = [] \/ count_text t -> cols <> [] -> (exists c, hd_error cols = Some c /\ not_a_number (c_word c)) -> Exists (fun c => c_unit c <> None) cols -> Forall column_ok cols ->
    labelled (t ++ flat_map column_text cols ++ blanks b) (List.length cols) (map column_label cols)
| by_number h n : ~ In "["%char h -> (exists w ws, split_ws h = w :: ws /\ not_a_number w /\ S (List.length ws) <> n) \/ (exists m ws, split_ws h = str_of_N m :: ws /\ List.length ws <> n) ->
    labelled h n (map (fun j => S_ "C" ++ str_of_N (N.of_nat j)) (seq 0 n)).

(** What a documentation file consists of *)
Inductive item :=
| Remark (line : str)
| Numbers (key sub tail : str) (toks words : list str) (vs : list V) (below : list str)
| Table (key sub tail header : str) (cols : list str) (lines : list str) (rows : list (list V))
| Matrix (key sub tail : str) (lines : list str) (rows : list (list V)).
Definition item_lines (i : item) : list str :=
  match i with
  | Remark l => [l]
  | Numbers k s t _ _ _ below => (written k s ++ t) :: below
  | Table k s t h _ ls _ => (written k s ++ t) :: h :: ls
  | Matrix k s t ls _ => (written k s ++ t) :: ls
  end.
Definition item_name (i : item) : list (str * str) :=
  match i with Remark _ => [] | Numbers k s _ _ _ _ _ => [(k, s)] | Table k s _ _ _ _ _ => [(k, s)] | Matrix k s _ _ _ => [(k, s)] end.
(** In tables, the words Fnd, Twr and COG stand for 0, 1 and 2. *)
Definition cell (w : str) (v : V) : Prop :=
  (w = S_ "Fnd" /\ v = idx 0) \/ (w = S_ "Twr" /\ v = idx 1) \/ (w = S_ "COG" /\ v = idx 2) \/
  (w <> S_ "Fnd" /\ w <> S_ "Twr" /\ w <> S_ "COG" /\ num w = Some v).
Definition rectangular (n : nat) (rows : list (list V)) : Prop := rows <> [] /\ Forall (fun r => List.length r = n) rows.
Definition name_ok (k s : str) : Prop :=
  is_token k = true /\ ~ In "_"%char k /\ ~ In "#"%char k /\ (s = [] \/ is_token s = true) /\ ~ In "#"%char s.
Definition item_ok (i : item) : Prop :=
  match i with
  | Remark l => l = [] \/ startswith l (S_ "###") = true
  | Numbers k s t toks words vs below =>
    name_ok k s /\ after t /\ ~ In (k, s) tables /\ ~ In (k, s) matrices /\
    split_ws t = toks ++ words /\ Forall number_text toks /\ Forall2 (fun w v => num w = Some v) toks vs /\ Forall no_digit words /\
    Forall data_line below
  | Table k s t h cols ls rows =>
    name_ok k s /\ after t /\ In (k, s) tables /\ Forall data_line ls /\ Forall2 (fun l r => Forall2 cell (split_ws l) r) ls rows /\ (exists n, rectangular n rows /\ labelled h n cols)
  | Matrix k s t ls rows =>
    name_ok k s /\ after t /\ In (k, s) matrices /\ Forall data_line ls /\ Forall2 (fun l r => Forall2 (fun w v => num w = Some v) (split_ws l) r) ls rows /\ (exists n, rectangular n rows)
  end.
(** No name twice; a name without second part is not the first part of another *)
Definition names_ok (names : list (str * str)) : Prop := NoDup names /\ forall k s, In (k, []) names -> In (k, s) names -> s = [].
Definition file_ok (first : str) (items : list item) : Prop :=
  Forall item_ok items /\ names_ok ((S_ "Program", []) :: flat_map item_name items) /\ (exists t, first = S_ "#Program" ++ t /\ after t /\ strip first = first).
Definition file_lines (first : str) (items : list item) : list str := first :: flat_map item_lines items.

(** What the object holds under a name *)
Definition under (d : doc (V := V)) (k s : str) : option (value (V := V)) :=
  match get d k with
  | Some (Many e) => match s with [] => None | _ => get e s end
  | Some (One v) => match s with [] => Some v | _ => None end
  | None => None
  end.
(** The values of the file.  One number is a number, any other count is an array.  A matrix loses its first line.  The table of the global mode,
    if it has four columns without names, loses the first and the others get names. *)
Definition unnamed4 : list str := [S_ "C0"; S_ "C1"; S_ "C2"; S_ "C3"].
Inductive says : item -> str -> str -> value (V := V) -> Prop :=
| says_one k s t toks words v below : says (Numbers k s t toks words [v] below) k s (Scal v)
| says_many k s t toks words vs below : List.length vs <> 1 -> says (Numbers k s t toks words vs below) k s (Arr vs)
| says_table k s t h cols ls rows : (k, s) <> (S_ "Global", S_ "Mode1_Shape") \/ cols <> unnamed4 -> says (Table k s t h cols ls rows) k s (Frame cols rows)
| says_mode t h ls rows : says (Table (S_ "Global") (S_ "Mode1_Shape") t h unnamed4 ls rows) (S_ "Global") (S_ "Mode1_Shape") (Frame [S_ "H_[m]"; S_ "U_FA_[-]"; S_ "U_SS_[]"] (map (@tl V) rows))
| says_matrix k s t l1 l2 ls r1 r2 rows : says (Matrix k s t (l1 :: l2 :: ls) (r1 :: r2 :: rows)) k s (Mat (r2 :: rows))
| says_matrix1 k s t l1 r1 : says (Matrix k s t [l1] [r1]) k s (Arr []).
End Spec.
Arguments item : clear implicits.

(** * Numbers in a text *)
Lemma digit_in c : is_digit c = true <-> In c (S_ "0123456789").
Proof.
  rewrite <- mem_chr_iff. assert (H : is_digit c = mem_chr c (S_ "0123456789")); [|rewrite H; tauto].
  apply eqb_prop. apply (char_sweep (fun c => eqb (is_digit c) (mem_chr c (S_ "0123456789")))). vm_compute. reflexivity.
Qed.
Lemma digits_all s : digits s -> forallb is_digit s = true.
Proof. intro H. apply forallb_forall. intros c Hc. unfold digits in H. rewrite Forall_forall in H. apply digit_in, H, Hc. Qed.
Lemma no_digit_take s : no_digit s -> take is_digit s = [].
Proof. intro H. destruct s as [|c s]; [reflexivity|]. cbn [take]. inversion H as [|x y H1 H2]; subst. destruct (is_digit c) eqn:E; [apply digit_in in E; contradiction|reflexivity]. Qed.
Lemma no_digit_tl c s : no_digit (c :: s) -> no_digit s.
Proof. intro H. now inversion H. Qed.
Lemma m_mant_none s : no_digit s -> m_mant s = None.
Proof.
  intro H. unfold m_mant. rewrite (no_digit_take _ H). cbn [List.length skipn]. destruct s as [|c s]; [reflexivity|]. rewrite (no_digit_take _ (no_digit_tl _ _ H)). cbn [List.length Nat.leb]. destruct (chr_eqb c (ch 46)); reflexivity.
Qed.
Lemma m_num_none s : no_digit s -> m_num s = None.
Proof.
  intro H. unfold m_num. rewrite m_mant_none; [reflexivity|]. unfold m_sign. destruct s as [|c s]; [exact H|]. destruct (mem_chr c (S_ "-+")); cbn [skipn]; [exact (no_digit_tl _ _ H)|exact H].
Qed.
Lemma rx_none s : no_digit s -> rx 0 s = [].
Proof. induction s as [|c s IH]; intro H; [reflexivity|]. cbn [rx]. rewrite (m_num_none _ H). exact (IH (no_digit_tl _ _ H)). Qed.
Lemma rx_skip k s : rx k s = rx 0 (skipn k s).
Proof. revert k. induction s as [|c s IH]; intro k; destruct k; try reflexivity. cbn [rx skipn]. apply IH. Qed.
Lemma rx_hit s n : m_num s = Some n -> 1 <= n -> rx 0 s = firstn n s :: rx 0 (skipn n s).
Proof. intros H Hn. destruct s as [|c s]; [cbn in H; discriminate|]. cbn [rx]. rewrite H. f_equal. rewrite rx_skip. destruct n as [|n]; [lia|]. rewrite Nat.sub_succ, Nat.sub_0_r. reflexivity. Qed.
Definition blank_next (s : str) : Prop := s = [] \/ exists t, s = sp :: t.
Lemma rx_blank s : rx 0 (sp :: s) = rx 0 s.
Proof. reflexivity. Qed.
Lemma take_digits a r : digits a -> (forall c t, r = c :: t -> is_digit c = false) -> take is_digit (a ++ r) = a.
Proof. intros H Hr. apply take_all; [now apply digits_all|exact Hr]. Qed.
Lemma power_next p r : power_text p -> blank_next r -> forall c t, p ++ r = c :: t -> is_digit c = false /\ c <> "."%char.
Proof.
  intros [->|(e & g & d & -> & He & _)] [->|[u ->]] c t E; cbn [app] in E; try discriminate; injection E as <- _; try (split; [reflexivity|discriminate]).
  all: cbn in He; destruct He as [<-|[<-|[]]]; split; [reflexivity|discriminate|reflexivity|discriminate].
Qed.
Lemma m_exp_ok p r : power_text p -> blank_next r -> m_exp (p ++ r) = List.length p.
Proof.
  intros [->|(e & g & d & -> & He & Hg & Hd & Hn)] Hr.
  - destruct Hr as [->|[t ->]]; reflexivity.
  - cbn [app]. rewrite <- app_assoc. unfold m_exp. replace (mem_chr e (S_ "Ee")) with true by (symmetry; now apply mem_chr_iff). cbv zeta.
    assert (T : take is_digit (d ++ r) = d) by (apply take_digits; [exact Hd|]; intros c t E; destruct Hr as [->|[u ->]]; [discriminate|injection E as <- _; reflexivity]).
    assert (G : m_sign (g ++ d ++ r) = List.length g).
    { destruct Hg as [->|[->| ->]]; [|reflexivity|reflexivity]. cbn [app]. destruct d as [|x d]; [contradiction|]. cbn [app m_sign]. inversion Hd as [|x' y' H1 H2]; subst. apply digit_in in H1.
      replace (mem_chr x (S_ "-+")) with false; [reflexivity|]. symmetry. apply not_true_is_false. intro M. apply mem_chr_iff in M. cbn in M. destruct M as [<-|[<-|[]]]; discriminate H1. }
    rewrite G, skipn_exact, T. cbn [List.length]. rewrite app_length. destruct (List.length d) eqn:L; [apply length_zero_iff_nil in L; contradiction|].
    lia.
Qed.
Lemma m_mant_ok m p r : mantissa_text m -> power_text p -> blank_next r -> m_mant (m ++ p ++ r) = Some (List.length m).
Proof.
  intros Hm Hp Hr. pose proof (power_next p r Hp Hr) as N. destruct Hm as [[Hm Hn]|[(a & -> & Ha & Hn)|(a & b & -> & Ha & Hb & Hn)]]; unfold m_mant.
  - rewrite (take_digits m (p ++ r) Hm (fun c t E => proj1 (N c t E))), skipn_exact. destruct m as [|x m]; [contradiction|]. cbn [List.length Nat.leb]. destruct (p ++ r) as [|c t] eqn:E; [reflexivity|].
    destruct (N c t eq_refl) as [_ N2]. replace (chr_eqb c (ch 46)) with false; [reflexivity|]. symmetry. apply chr_eqb_neq. exact N2.
  - rewrite <- app_assoc. rewrite (take_digits a (S_ "." ++ p ++ r) Ha); [|intros c t E; injection E as <- _; reflexivity]. rewrite skipn_exact. cbn [app].
    change (S_ "." ++ p ++ r) with ("."%char :: (p ++ r)). cbv zeta iota. change (chr_eqb "."%char (ch 46)) with true. cbv iota.
    replace (take is_digit (p ++ r)) with (@nil ascii). 2:{ destruct (p ++ r) as [|c t] eqn:E; [reflexivity|]. cbn [take]. now rewrite (proj1 (N c t eq_refl)). }
    destruct a as [|x a]; [contradiction|]. cbn [List.length Nat.leb]. rewrite app_length. cbn [List.length]. reflexivity.
  - rewrite <- !app_assoc. rewrite (take_digits a (S_ "." ++ b ++ p ++ r) Ha); [|intros c t E; injection E as <- _; reflexivity]. rewrite skipn_exact.
    change (S_ "." ++ b ++ p ++ r) with ("."%char :: (b ++ p ++ r)). cbv zeta iota. change (chr_eqb "."%char (ch 46)) with true. cbv iota.
    rewrite (take_digits b (p ++ r) Hb (fun c t E => proj1 (N c t E))). destruct b as [|x b]; [contradiction|]. cbn [List.length Nat.leb]. rewrite !app_length. cbn [List.length]. f_equal.
    change (List.length (S_ ".")) with 1. lia.
Qed.
Lemma mant_first m : mantissa_text m -> exists c t, m = c :: t /\ mem_chr c (S_ "-+") = false.
Proof.
  assert (D : forall c, In c (S_ "0123456789") -> mem_chr c (S_ "-+") = false).
  { intros c H. apply not_true_is_false. intro M. apply mem_chr_iff in M. cbn in M. destruct M as [<-|[<-|[]]]; apply digit_in in H; discriminate H. }
  intros [[Hm Hn]|[(a & -> & Ha & Hn)|(a & b & -> & Ha & Hb & Hn)]].
  - destruct m as [|c t]; [contradiction|]. exists c, t. split; [reflexivity|]. apply D. now inversion Hm.
  - destruct a as [|c t]; [contradiction|]. exists c, (t ++ S_ "."). split; [reflexivity|]. apply D. now inversion Ha.
  - destruct a as [|c t]; [exists "."%char, b; split; reflexivity|]. exists c, (t ++ S_ "." ++ b). split; [reflexivity|]. apply D. now inversion Ha.
Qed.
Lemma m_num_ok w r : number_text w -> blank_next r -> m_num (w ++ r) = Some (List.length w) /\ 1 <= List.length w.
Proof.
  intros (g & m & p & -> & Hg & Hm & Hp) Hr. destruct (mant_first m Hm) as (c & t & Em & Ec).
  assert (G : m_sign ((g ++ m ++ p) ++ r) = List.length g).
  { destruct Hg as [->|[->| ->]]; [|reflexivity|reflexivity]. rewrite Em. cbn [app m_sign]. rewrite Ec. reflexivity. }
  split; [|rewrite Em, !app_length; cbn [List.length]; lia]. unfold m_num. rewrite G. rewrite <- !app_assoc, skipn_exact, (m_mant_ok m p r Hm Hp Hr).
  replace (skipn (List.length g + List.length m) (g ++ m ++ p ++ r)) with (p ++ r).
  2:{ replace (g ++ m ++ p ++ r) with ((g ++ m) ++ p ++ r) by (now rewrite <- app_assoc). rewrite <- app_length, skipn_exact. reflexivity. }
  rewrite (m_exp_ok p r Hp Hr), !app_length. f_equal. lia.
Qed.
Lemma rx_token w r : number_text w -> blank_next r -> rx 0 (w ++ r) = w :: rx 0 r.
Proof.
  intros H Hr. destruct (m_num_ok w r H Hr) as [E L]. rewrite (rx_hit _ _ E L). rewrite firstn_app, firstn_all, Nat.sub_diag, skipn_exact. cbn [firstn]. now rewrite app_nil_r.
Qed.
Lemma rx_words toks words : Forall number_text toks -> Forall no_digit words -> rx 0 (join [sp] (toks ++ words)) = toks.
Proof.
  intros Ht Hw. induction Ht as [|w toks Hx Ht IH].
  - cbn [app]. apply rx_none. clear -Hw. induction Hw as [|w ws H Hw IH]; [constructor|]. destruct ws as [|w2 ws]; [exact H|]. rewrite join_cons by discriminate. apply Forall_app. split; [exact H|]. constructor; [|exact IH].
    cbn. intros [E|[E|[E|[E|[E|[E|[E|[E|[E|[E|[]]]]]]]]]]]; discriminate E.
  - cbn [app]. destruct (toks ++ words) as [|w2 ws] eqn:E.
    + cbn [join]. rewrite <- (app_nil_r w) at 1. rewrite (rx_token w [] Hx (or_introl eq_refl)). apply app_eq_nil in E. destruct E as [-> _]. reflexivity.
    + rewrite join_cons by discriminate. cbn [app]. change ([sp] ++ join [sp] (w2 :: ws)) with (sp :: join [sp] (w2 :: ws)). rewrite rx_token; [|exact Hx|right; eexists; reflexivity]. rewrite rx_blank, IH. reflexivity.
Qed.

(** * Names *)
Lemma split_after a t : is_token a = true -> after t -> split_ws (a ++ t) = a :: split_ws t.
Proof.
  intros Ha [->|(c & t' & -> & Hc)]; [rewrite app_nil_r; now apply split_ws_token|]. rewrite split_ws_app by exact Hc. rewrite (split_ws_token _ Ha), (split_ws_blank_cons _ _ Hc). reflexivity.
Qed.
Lemma written_token k s : name_ok k s -> is_token (written k s) = true.
Proof.
  intros (Hk & _ & _ & Hs & _). unfold written. apply (token_app (S_ "#")); [reflexivity|]. destruct s as [|c s]; [now rewrite app_nil_r|]. destruct Hs as [Hs|Hs]; [discriminate|]. apply token_app; [exact Hk|]. now apply (token_app (S_ "_")).
Qed.
Lemma no_us k : ~ In "_"%char k -> forallb (fun x => negb (chr_eqb x (ch 95))) k = true.
Proof. intro H. apply forallb_forall. intros c Hc. apply negb_true_iff, chr_eqb_neq. intros ->. exact (H Hc). Qed.
Lemma join_split95 s : join (S_ "_") (split_chr (ch 95) s) = s.
Proof.
  unfold split_chr. induction s as [|x s IH]; [reflexivity|]. cbn [split_on]. destruct (split_on (fun x => chr_eqb x (ch 95)) s) as [|a l] eqn:E; [exfalso; exact (split_on_nonnil _ _ E)|]. destruct (chr_eqb x (ch 95)) eqn:Q.
  - apply chr_eqb_eq in Q. subst x. change (join (S_ "_") ([] :: a :: l)) with ("_"%char :: join (S_ "_") (a :: l)). rewrite IH. reflexivity.
  - destruct l as [|b l]; cbn [join] in IH |- *; rewrite <- IH; reflexivity.
Qed.
Lemma keys_written k s : name_ok k s -> keys_of (written k s) = (k, s).
Proof.
  intros (Hk & Hu & _ & Hs & _). unfold keys_of, written. assert (F : forallb (fun x => negb (chr_eqb x (ch 95))) (S_ "#" ++ k) = true) by (cbn [app forallb]; exact (no_us k Hu)).
  destruct s as [|c s].
  - rewrite app_nil_r. unfold split_chr. rewrite (split_on_none _ _ F). reflexivity.
  - rewrite app_assoc. unfold split_chr. change (S_ "_" ++ c :: s) with (ch 95 :: c :: s). rewrite (split_on_app_sep _ _ _ _ F (chr_eqb_refl _)). f_equal. exact (join_split95 (c :: s)).
Qed.
Definition pair_eqb (p q : str * str) : bool := str_eqb (fst p) (fst q) && str_eqb (snd p) (snd q).
Lemma pair_eqb_eq p q : pair_eqb p q = true <-> p = q.
Proof. destruct p, q. unfold pair_eqb. cbn [fst snd]. rewrite andb_true_iff, !str_eqb_eq. split; [intros [-> ->]; reflexivity|intro E; injection E as -> ->; auto]. Qed.
Lemma listed_iff w l : listed w l = true <-> In w l.
Proof.
  unfold listed. rewrite existsb_exists. split; [intros (x & Hx & E); apply str_eqb_eq in E; now subst|]. intro H. exists w. split; [exact H|apply str_eqb_refl].
Qed.
Lemma tables_listed k s : In (k, s) tables -> listed (written k s) ArraysHeader = true.
Proof.
  intro H. assert (F : forallb (fun p => listed (written (fst p) (snd p)) ArraysHeader) tables = true) by (vm_compute; reflexivity).
  rewrite forallb_forall in F. exact (F _ H).
Qed.
Lemma matrices_listed k s : In (k, s) matrices -> listed (written k s) ArraysHeader = false /\ listed (written k s) ArraysNoHeader = true.
Proof.
  intro H. assert (F : forallb (fun p => negb (listed (written (fst p) (snd p)) ArraysHeader) && listed (written (fst p) (snd p)) ArraysNoHeader) matrices = true) by (vm_compute; reflexivity).
  rewrite forallb_forall in F. specialize (F _ H). cbn [fst snd] in F. apply andb_true_iff in F. rewrite negb_true_iff in F. exact F.
Qed.
Lemma others_listed k s : name_ok k s -> ~ In (k, s) tables -> ~ In (k, s) matrices -> listed (written k s) ArraysHeader = false /\ listed (written k s) ArraysNoHeader = false.
Proof.
  intros Hn Ht Hm. split; apply not_true_is_false; intro E; apply listed_iff in E.
  - assert (F : forallb (fun w => existsb (pair_eqb (keys_of w)) tables) ArraysHeader = true) by (vm_compute; reflexivity).
    rewrite forallb_forall in F. specialize (F _ E). cbv beta in F. rewrite (keys_written k s Hn) in F. apply existsb_exists in F. destruct F as (p & Hp & Q). apply pair_eqb_eq in Q. subst p. contradiction.
  - assert (F : forallb (fun w => existsb (pair_eqb (keys_of w)) matrices || mem_chr "#"%char (snd (keys_of w))) ArraysNoHeader = true) by (vm_compute; reflexivity).
    rewrite forallb_forall in F. specialize (F _ E). cbv beta in F. rewrite (keys_written k s Hn) in F. apply orb_true_iff in F. destruct F as [F|F].
    + apply existsb_exists in F. destruct F as (p & Hp & Q). apply pair_eqb_eq in Q. subst p. contradiction.
    + apply mem_chr_iff in F. destruct Hn as (_ & _ & _ & _ & Hn). contradiction.
Qed.
Lemma name_line k s t : name_ok k s -> strip (written k s ++ t) <> [] /\ startswith (written k s ++ t) (S_ "###") = false /\ startswith (written k s ++ t) (S_ "#") = true.
Proof.
  intro Hn. pose proof Hn as (Hk & _ & Hh & _ & _). split; [|split].
  - unfold written. cbn [app]. change (S_ "#" ++ k ++ match s with [] => [] | _ => S_ "_" ++ s end) with ("#"%char :: k ++ match s with [] => [] | _ => S_ "_" ++ s end). cbn [app].
    intro E. assert (G : split_ws (strip ("#"%char :: (k ++ match s with [] => [] | _ => S_ "_" ++ s end) ++ t)) = []) by (rewrite E; reflexivity). rewrite split_ws_strip in G.
    destruct (split_ws_prefix (S_ "#") ((k ++ match s with [] => [] | _ => S_ "_" ++ s end) ++ t) eq_refl) as (w & ws & Q). cbn [app] in Q. change (S_ "#" ++ (k ++ match s with [] => [] | _ => S_ "_" ++ s end) ++ t) with ("#"%char :: (k ++ match s with [] => [] | _ => S_ "_" ++ s end) ++ t) in Q. rewrite Q in G. discriminate.
  - unfold written. destruct (token_cons k Hk) as (c & k' & -> & _). cbn. assert (E : chr_eqb c "#"%char = false) by (apply chr_eqb_neq; intros ->; apply Hh; now left). now rewrite E.
  - unfold written. reflexivity.
Qed.

(** * The loop *)
Section Loop.
Context {V : Type}.
Variable num : str -> option V.
Variable idx : nat -> V.
Notation loop := (loop num idx).
Definition L (lines : list str) (d : doc) : res doc := loop (S (List.length lines)) lines d.
Lemma array_lines_length ls : List.length (snd (array_lines ls)) <= List.length ls.
Proof.
  induction ls as [|l ls IH]; [cbn; lia|]. cbn [array_lines]. destruct l as [|c l]; [cbn; lia|]. destruct (chr_eqb c (ch 35)); [cbn; lia|]. destruct (array_lines ls) as [a b]. cbn [snd List.length] in *. lia.
Qed.
Lemma fuel n : forall m lines d, List.length lines < n -> List.length lines < m -> loop n lines d = loop m lines d.
Proof.
  induction n as [|n IH]; intros m lines d Hn Hm; [lia|]. destruct m as [|m]; [lia|]. destruct lines as [|l rest]; [reflexivity|]. cbn [List.length] in *.
  cbn [FlexDoc_Model.loop]. destruct (negb (nonempty (strip l))); [apply IH; lia|]. destruct (startswith l (S_ "###")); [apply IH; lia|]. destruct (startswith l (S_ "#")); [|apply IH; lia].
  destruct (listed (hd [] (split_ws l)) ArraysHeader).
  - destruct rest as [|h rest]; [reflexivity|]. pose proof (array_lines_length rest) as A. destruct (array_lines rest) as [a b]. cbn [snd List.length] in *.
    destruct (rows_of _ a) as [rows|]; [|reflexivity]. cbn [bind]. destruct (np_array rows); [|reflexivity]. cbn [bind]. destruct (make_frame _ _); [|reflexivity]. cbn [bind]. destruct (store _ _ _ _); [|reflexivity]. cbn [bind]. apply IH; lia.
  - destruct (listed (hd [] (split_ws l)) ArraysNoHeader).
    + destruct rest as [|h rest]; [reflexivity|]. pose proof (array_lines_length rest) as A. destruct (array_lines rest) as [a b]. cbn [snd List.length] in *.
      destruct (rows_of _ a) as [rows|]; [|reflexivity]. cbn [bind]. destruct (np_array rows); [|reflexivity]. cbn [bind]. destruct (store _ _ _ _); [|reflexivity]. cbn [bind]. apply IH; lia.
    + destruct (store_regular _ _ _); [|reflexivity]. cbn [bind]. apply IH; lia.
Qed.
Lemma to_L n lines d : List.length lines < n -> loop n lines d = L lines d.
Proof. intro H. apply fuel; [exact H|lia]. Qed.
Lemma L_nil d : L [] d = Ok d.
Proof. reflexivity. Qed.
Lemma L_remark l rest d : l = [] \/ startswith l (S_ "###") = true -> L (l :: rest) d = L rest d.
Proof.
  intro H. unfold L at 1. cbn [List.length FlexDoc_Model.loop]. destruct (negb (nonempty (strip l))) eqn:E; [reflexivity|]. destruct H as [->|H]; [discriminate|]. rewrite H. reflexivity.
Qed.
Lemma L_stray l rest d : data_line l -> L (l :: rest) d = L rest d \/ L (l :: rest) d = L rest (adjust d).
Proof.
  intros (c & t & -> & Hc). unfold L at 1 3. cbn [List.length FlexDoc_Model.loop]. destruct (negb (nonempty (strip (c :: t)))); [now left|]. right.
  assert (E : forall p, startswith (c :: t) ("#"%char :: p) = false) by (intro p; cbn [startswith]; apply chr_eqb_neq in Hc; rewrite Hc; reflexivity).
  change (S_ "###") with ("#"%char :: S_ "##"). change (S_ "#") with ("#"%char :: []). rewrite !E. reflexivity.
Qed.
(** Storing a value under a name *)
Definition set (d : doc) (k s : str) (v : value (V := V)) : res doc :=
  match s with [] => if has d k then Err PlainException else Ok (put d k (One v)) | _ => store d k s v end.
Definition edge (rest : list str) : Prop := match rest with [] => True | l :: _ => l = [] \/ exists t, l = "#"%char :: t end.
Lemma array_lines_ok ls rest : Forall data_line ls -> edge rest -> array_lines (ls ++ rest) = (ls, rest).
Proof.
  intros H Hr. induction H as [|l ls (c & t & -> & Hc) H IH].
  - cbn [app]. destruct rest as [|l rest]; [reflexivity|]. destruct Hr as [->|[t ->]]; reflexivity.
  - cbn [app array_lines]. replace (chr_eqb c (ch 35)) with false; [now rewrite IH|]. symmetry. now apply chr_eqb_neq.
Qed.
Lemma nonempty_nil {A} (s : list A) : s <> [] -> nonempty s = true.
Proof. now destruct s. Qed.
Lemma L_regular k s t rest d : name_ok k s -> after t -> ~ In (k, s) tables -> ~ In (k, s) matrices ->
  L ((written k s ++ t) :: rest) d = (d' <- set d k s (regular num (join (S_ " ") (split_ws t))) ;; L rest (adjust d')).
Proof.
  intros Hn Ha Ht Hm. destruct (name_line k s t Hn) as (N1 & N2 & N3). destruct (others_listed k s Hn Ht Hm) as [O1 O2]. unfold L at 1. cbn [List.length FlexDoc_Model.loop].
  rewrite (nonempty_nil _ N1), N2, N3. cbn [negb]. cbv zeta. rewrite (split_after _ _ (written_token k s Hn) Ha). cbn [hd]. rewrite O1, O2.
  unfold store_regular. cbn [hd tl]. rewrite (keys_written k s Hn). pose proof Hn as (Hk & _). rewrite (token_strip _ Hk). rewrite (nonempty_nil _ (token_nonnil _ Hk)).
  unfold set. destruct s as [|c s]; cbn [nonempty].
  - destruct (has d k); reflexivity.
  - cbn [bind]. destruct (store d k (c :: s) _); reflexivity.
Qed.
Lemma rows_ok f ls rows : Forall2 (fun l r => Forall2 (fun w v => f w = Some v) (split_ws l) r) ls rows -> rows_of f ls = Ok (rows : list (list V)).
Proof.
  intro H. induction H as [|l r ls rows Hr H IH]; [reflexivity|]. cbn [rows_of]. replace (row_of f (split_ws l)) with (Some r); [now rewrite IH|]. symmetry.
  induction Hr as [|w v ws vs Hw Hr IHr]; [reflexivity|]. cbn [row_of]. now rewrite Hw, IHr.
Qed.
Lemma rect_ok n (rows : list (list V)) : rectangular n rows -> np_array rows = Ok rows.
Proof.
  intros [Hn H]. unfold np_array. replace (forallb _ rows) with true; [reflexivity|]. symmetry. apply forallb_forall. intros r Hr. rewrite Forall_forall in H. apply Nat.eqb_eq.
  destruct rows as [|r1 rows]; [contradiction|]. cbn [hd]. rewrite (H r Hr), (H r1 (or_introl eq_refl)). reflexivity.
Qed.
Lemma cell_num3 w v : cell num idx w v -> num3 num idx w = Some v.
Proof.
  intros [[-> ->]|[[-> ->]|[[-> ->]|(H1 & H2 & H3 & H)]]]; [reflexivity|reflexivity|reflexivity|]. unfold num3, words3. cbn [index_of].
  apply str_eqb_neq in H1, H2, H3. rewrite H1, H2, H3. exact H.
Qed.
Lemma tables_sub k s : In (k, s) tables \/ In (k, s) matrices -> s <> [].
Proof.
  intros H E. subst s. assert (F : forallb (fun p => nonempty (snd p)) (tables ++ matrices) = true) by (vm_compute; reflexivity). rewrite forallb_forall in F. specialize (F (k, [])). rewrite in_app_iff in F. specialize (F H). discriminate.
Qed.
Definition the_cols (h : str) (n : nat) : list str := if Nat.eqb (List.length (header_cols h)) n then header_cols h else default_cols n.
Lemma L_table k s t h ls rows n rest d : name_ok k s -> after t -> In (k, s) tables -> Forall data_line ls -> Forall2 (fun l r => Forall2 (cell num idx) (split_ws l) r) ls rows -> rectangular n rows -> edge rest ->
  L ((written k s ++ t) :: h :: ls ++ rest) d = (d' <- set d k s (Frame (the_cols h n) rows) ;; L rest d').
Proof.
  intros Hn Ha Ht Hl Hr Hq He. destruct (name_line k s t Hn) as (N1 & N2 & N3). unfold L at 1. remember (List.length ((written k s ++ t) :: h :: ls ++ rest)) as m eqn:Em. cbn [FlexDoc_Model.loop].
  rewrite (nonempty_nil _ N1), N2, N3. cbn [negb]. cbv zeta. rewrite (split_after _ _ (written_token k s Hn) Ha). cbn [hd]. rewrite (tables_listed k s Ht).
  rewrite (array_lines_ok ls rest Hl He). rewrite (rows_ok (num3 num idx) ls rows). 2:{ clear -Hr. induction Hr as [|l r ls rows H Hr IH]; constructor; [|exact IH]. clear -H. induction H; constructor; [now apply cell_num3|assumption]. }
  cbn [bind]. rewrite (rect_ok n rows Hq). cbn [bind]. destruct Hq as [Hq1 Hq2]. destruct rows as [|r1 rows]; [contradiction|]. cbn [make_frame bind]. inversion Hq2 as [|x y E1 E2]; subst. fold (the_cols h (List.length r1)).
  rewrite (keys_written k s Hn). cbn [fst snd]. unfold set. pose proof (tables_sub k s (or_introl Ht)) as Hs. destruct s as [|c s]; [contradiction|]. destruct (store d k (c :: s) _); [|reflexivity]. cbn [bind]. apply to_L. cbn [List.length]. rewrite app_length. lia.
Qed.
Lemma L_matrix k s t ls rows n rest d : name_ok k s -> after t -> In (k, s) matrices -> Forall data_line ls -> Forall2 (fun l r => Forall2 (fun w v => num w = Some v) (split_ws l) r) ls rows -> rectangular n rows -> edge rest ->
  L ((written k s ++ t) :: ls ++ rest) d = (d' <- set d k s (match tl rows with [] => Arr [] | _ => Mat (tl rows) end) ;; L rest d').
Proof.
  intros Hn Ha Ht Hl Hr Hq He. destruct (name_line k s t Hn) as (N1 & N2 & N3). destruct (matrices_listed k s Ht) as [M1 M2]. destruct Hq as [Hq1 Hq2].
  destruct Hr as [|l r ls rows H1 Hr]; [contradiction|]. inversion Hl as [|x y Hl1 Hl2]; subst. unfold L at 1. cbn [app]. remember (List.length ((written k s ++ t) :: l :: ls ++ rest)) as m eqn:Em. cbn [FlexDoc_Model.loop].
  rewrite (nonempty_nil _ N1), N2, N3. cbn [negb]. cbv zeta. rewrite (split_after _ _ (written_token k s Hn) Ha). cbn [hd]. rewrite M1, M2.
  rewrite (array_lines_ok ls rest Hl2 He). rewrite (rows_ok num ls rows Hr). cbn [bind tl].
  assert (E : np_array rows = Ok rows). { destruct rows as [|r2 rows]; [reflexivity|]. apply (rect_ok n). split; [discriminate|]. now inversion Hq2. }
  rewrite E. cbn [bind]. rewrite (keys_written k s Hn). cbn [fst snd]. unfold set. pose proof (tables_sub k s (or_intror Ht)) as Hs. destruct s as [|c s]; [contradiction|]. destruct (store d k (c :: s) _); [|reflexivity]. cbn [bind]. apply to_L. rewrite Em. cbn [List.length]. rewrite app_length. lia.
Qed.
End Loop.

(** * What is stored *)
Section Stored.
Context {V : Type}.
Variable num : str -> option V.
Variable idx : nat -> V.
Notation value := (@value V).
Notation doc := (@doc V).
Definition tidyv (v : value) : value :=
  match v with
  | Frame cols rows => if listed (S_ "C0") cols && Nat.eqb (List.length (filter (fun c => negb (str_eqb c (S_ "C0"))) cols)) 3 then Frame mode1_cols (map (drop_cols (S_ "C0") cols) rows) else v
  | _ => v
  end.
Definition norm (k s : str) (v : value) : value := if str_eqb k (S_ "Global") && str_eqb s (S_ "Mode1_Shape") then tidyv v else v.
Lemma tidyv_idem v : tidyv (tidyv v) = tidyv v.
Proof. destruct v as [| | | |cols rows]; try reflexivity. cbn [tidyv]. destruct (_ && _) eqn:E; [reflexivity|]. cbn [tidyv]. now rewrite E. Qed.
Lemma norm_idem k s v : norm k s (norm k s v) = norm k s v.
Proof. unfold norm. destruct (_ && _); [apply tidyv_idem|reflexivity]. Qed.
Lemma adjust_view (d : doc) : d = adjust d \/ exists e cols rows, get d (S_ "Global") = Some (Many e) /\ get e (S_ "Mode1_Shape") = Some (Frame cols rows) /\ adjust d = put d (S_ "Global") (Many (put e (S_ "Mode1_Shape") (tidyv (Frame cols rows)))).
Proof.
  unfold adjust. destruct (get d (S_ "Global")) as [[v|e]|] eqn:E; [now left| |now left]. destruct (get e (S_ "Mode1_Shape")) as [[| | | |cols rows]|] eqn:F; try now left.
  destruct (listed (S_ "C0") cols && Nat.eqb _ 3) eqn:G; [|now left]. right. exists e, cols, rows. split; [reflexivity|]. split; [exact F|]. cbn [tidyv]. rewrite G. reflexivity.
Qed.
Lemma adjust_nothing (d : doc) : d = adjust d -> forall v, under d (S_ "Global") (S_ "Mode1_Shape") = Some v -> tidyv v = v.
Proof.
  intros H v U. destruct v as [| | | |cols rows]; try reflexivity. cbn [tidyv]. destruct (_ && _) eqn:G; [|reflexivity]. exfalso.
  unfold under in U. destruct (get d (S_ "Global")) as [[v|e]|] eqn:E; try discriminate U. change (get e (S_ "Mode1_Shape") = Some (Frame cols rows)) in U.
  unfold adjust in H. rewrite E, U, G in H. assert (K : get d (S_ "Global") = get d (S_ "Global")) by reflexivity. rewrite H in K at 1. rewrite get_put_same in K. rewrite E in K. injection K as K.
  assert (K2 : get e (S_ "Mode1_Shape") = Some (Frame mode1_cols (map (drop_cols (S_ "C0") cols) rows))) by (rewrite <- K; apply get_put_same). rewrite U in K2. injection K2 as K2 _. subst cols. discriminate G.
Qed.
Lemma under_adjust (d : doc) k s : under (adjust d) k s = option_map (norm k s) (under d k s).
Proof.
  destruct (adjust_view d) as [H|(e & cols & rows & E1 & E2 & ->)].
  - rewrite <- H. destruct (under d k s) as [v|] eqn:U; [|reflexivity]. cbn [option_map]. f_equal. unfold norm. destruct (str_eqb k (S_ "Global") && str_eqb s (S_ "Mode1_Shape")) eqn:E; [|reflexivity].
    apply andb_true_iff in E. rewrite !str_eqb_eq in E. destruct E as [-> ->]. symmetry. now apply (adjust_nothing d).
  - unfold under, norm. destruct (str_eqb k (S_ "Global")) eqn:Ek.
    + apply str_eqb_eq in Ek. subst k. rewrite get_put_same, E1. destruct (str_eqb s (S_ "Mode1_Shape")) eqn:Es.
      * apply str_eqb_eq in Es. subst s. change (get (put e (S_ "Mode1_Shape") (tidyv (Frame cols rows))) (S_ "Mode1_Shape") = option_map (fun v => tidyv v) (get e (S_ "Mode1_Shape"))). rewrite get_put_same, E2. reflexivity.
      * cbn [andb]. apply str_eqb_neq in Es. destruct s as [|c s]; [reflexivity|]. rewrite get_put_other by exact Es. destruct (get e (c :: s)); reflexivity.
    + cbn [andb]. apply str_eqb_neq in Ek. rewrite get_put_other by exact Ek. destruct (match get d k with Some (One v) => _ | Some (Many e0) => _ | None => None end); reflexivity.
Qed.
Definition kind (d : doc) (k : str) : nat := match get d k with None => 0 | Some (One _) => 1 | Some (Many _) => 2 end.
Lemma kind_adjust (d : doc) k : kind (adjust d) k = kind d k.
Proof.
  destruct (adjust_view d) as [H|(e & cols & rows & E1 & E2 & ->)]; [now rewrite <- H|]. unfold kind. destruct (str_eq_dec k (S_ "Global")) as [->|N]; [now rewrite get_put_same, E1|now rewrite get_put_other].
Qed.
(** The object holds the values [done], and nothing else *)
Definition holds (d : doc) (done : list (str * str * value)) : Prop :=
  (forall k s v, In (k, s, v) done -> exists v', under d k s = Some v' /\ norm k s v' = norm k s v) /\
  (forall k s v', under d k s = Some v' -> In (k, s) (map fst done)) /\
  (forall k, match kind d k with 0 => forall s, ~ In (k, s) (map fst done) | 1 => In (k, []) (map fst done) | _ => exists s, s <> [] /\ In (k, s) (map fst done) end).
Lemma holds_adjust d done : holds d done -> holds (adjust d) done.
Proof.
  intros (H1 & H2 & H3). split; [|split].
  - intros k s v Hv. destruct (H1 k s v Hv) as (v' & U & E). exists (norm k s v'). rewrite under_adjust, U. split; [reflexivity|]. now rewrite norm_idem.
  - intros k s v' U. rewrite under_adjust in U. destruct (under d k s) as [v|] eqn:E; [|discriminate]. exact (H2 k s v E).
  - intro k. rewrite kind_adjust. apply H3.
Qed.
Lemma set_ok d done k s v : holds d done -> names_ok ((k, s) :: map fst done) -> exists d', set d k s v = Ok d' /\ holds d' ((k, s, v) :: done) /\ under d' k s = Some v.
Proof.
  intros (H1 & H2 & H3) [N1 N2]. inversion N1 as [|x y N3 N4]; subst. pose proof (H3 k) as K.
  assert (Q : exists d', set d k s v = Ok d' /\ under d' k s = Some v /\ (forall k' s', (k', s') <> (k, s) -> under d' k' s' = under d k' s') /\ (forall k', k' <> k -> kind d' k' = kind d k') /\ kind d' k = match s with [] => 1 | _ => 2 end).
  { unfold kind in K. unfold set, store. rewrite has_get. destruct (get d k) as [[w|e]|] eqn:G.
    - destruct s as [|c s]; [contradiction|]. exfalso. assert (X : c :: s = []) by (apply (N2 k); [now right|now left]). discriminate.
    - destruct s as [|c s]; [exfalso; destruct K as (s & Hs & K); apply Hs; apply (N2 k); [now left|now right]|]. eexists. split; [reflexivity|].
      split; [unfold under; rewrite get_put_same; apply get_put_same|]. split; [|split; [intros k' N; unfold kind; now rewrite get_put_other|unfold kind; now rewrite get_put_same]].
      intros k' s' N. unfold under. destruct (str_eq_dec k' k) as [->|Nk]; [|now rewrite get_put_other]. rewrite get_put_same, G. destruct s' as [|c' s']; [reflexivity|]. apply get_put_other. intro E. apply N. now rewrite E.
    - assert (G' : kind d k = 0) by (unfold kind; now rewrite G). exists (put d k (match s with [] => One v | _ => Many [(s, v)] end)). split; [destruct s; reflexivity|].
      split; [unfold under; rewrite get_put_same; destruct s as [|c s]; [reflexivity|]; unfold get; cbn [find fst]; rewrite str_eqb_refl; reflexivity|].
      split; [|split; [intros k' N; unfold kind; now rewrite get_put_other|unfold kind; rewrite get_put_same; destruct s; reflexivity]].
      intros k' s' N. unfold under. destruct (str_eq_dec k' k) as [->|Nk]; [|now rewrite get_put_other]. rewrite get_put_same, G. destruct s as [|c s], s' as [|c' s']; try reflexivity; [contradiction|].
      unfold get. cbn [find fst]. replace (str_eqb (c :: s) (c' :: s')) with false; [reflexivity|]. symmetry. apply str_eqb_neq. intro E. apply N. now rewrite E. }
  destruct Q as (d' & S1 & S2 & S3 & S4 & S5). exists d'. split; [exact S1|]. split; [|exact S2]. split; [|split].
  - intros k' s' v' [E|Hv].
    + injection E as <- <- <-. exists v. auto.
    + destruct (H1 k' s' v' Hv) as (w & U & E). exists w. split; [|exact E]. rewrite S3; [exact U|]. intro X. injection X as -> ->. apply N3. apply (in_map fst) in Hv. exact Hv.
  - intros k' s' v' U. cbn [map fst]. destruct (pair_eqb (k', s') (k, s)) eqn:E; [apply pair_eqb_eq in E; now left|]. right. apply (H2 k' s' v'). rewrite <- S3; [exact U|]. intro X. apply pair_eqb_eq in X. congruence.
  - intro k'. cbn [map fst]. destruct (str_eq_dec k' k) as [->|N].
    + rewrite S5. destruct s as [|c s]; [now left|]. exists (c :: s). split; [discriminate|now left].
    + rewrite (S4 k' N). specialize (H3 k'). destruct (kind d k') as [|[|n]].
      * intros s' [E|Hs]; [injection E as -> _; contradiction|]. exact (H3 s' Hs).
      * now right.
      * destruct H3 as (s' & Hs & Hi). exists s'. split; [exact Hs|now right].
Qed.
End Stored.

(** * Names of columns *)
Lemma starts_sep p a c b : ~ In c p -> startswith (a ++ c :: b) p = startswith a p.
Proof.
  revert a. induction p as [|x p IH]; intros a H; [destruct a; reflexivity|]. destruct a as [|y a]; cbn [app startswith].
  - replace (chr_eqb c x) with false; [reflexivity|]. symmetry. apply chr_eqb_neq. intros ->. apply H. now left.
  - rewrite IH; [reflexivity|]. intro G. apply H. now right.
Qed.
Lemma starts_length s p : startswith s p = true -> List.length p <= List.length s.
Proof. intro H. apply startswith_iff in H. destruct H as [t ->]. rewrite app_length. lia. Qed.
Lemma repl_sep pat rep a c b : ~ In c pat -> pat <> [] -> forall k, k <= List.length a -> repl pat rep k (a ++ c :: b) = repl pat rep k a ++ c :: repl pat rep 0 b.
Proof.
  intros H Hp. induction a as [|x a IH]; intros k Hk.
  - cbn [List.length] in Hk. assert (k = 0) by lia. subst k. cbn [app repl]. replace (startswith (c :: b) pat) with false; [reflexivity|]. symmetry. destruct pat as [|p pat]; [contradiction|]. exact (starts_sep (p :: pat) [] c b H).
  - cbn [app repl]. destruct k as [|k]; [|apply IH; cbn in Hk; lia]. change (x :: a ++ c :: b) with ((x :: a) ++ c :: b). rewrite (starts_sep pat (x :: a) c b H). destruct (startswith (x :: a) pat) eqn:E.
    + apply starts_length in E. cbn [List.length] in E. rewrite IH by lia. now rewrite app_assoc.
    + rewrite IH by lia. reflexivity.
Qed.
Lemma replace_sep pat rep a c b : ~ In c pat -> pat <> [] -> replace_ pat rep (a ++ c :: b) = replace_ pat rep a ++ c :: replace_ pat rep b.
Proof. intros H Hp. apply repl_sep; [exact H|exact Hp|lia]. Qed.
Lemma replace_blanks pat rep k s : ~ In sp pat -> pat <> [] -> replace_ pat rep (blanks k ++ s) = blanks k ++ replace_ pat rep s.
Proof. intros H Hp. induction k as [|k IH]; [reflexivity|]. change (blanks (S k) ++ s) with ([] ++ sp :: (blanks k ++ s)). rewrite replace_sep by assumption. rewrite IH. reflexivity. Qed.
Lemma nowhere2_cons x y c s : nowhere [x; y] s -> (c = x -> hd_error s <> Some y) -> nowhere [x; y] (c :: s).
Proof.
  intros H Hc a b E. destruct a as [|z a].
  - injection E as -> E. apply (Hc eq_refl). rewrite E. reflexivity.
  - injection E as _ E. exact (H a b E).
Qed.
Lemma nowhere2_app x y a c b : nowhere [x; y] (a ++ [c]) -> nowhere [x; y] b -> (c = x -> hd_error b <> Some y) -> nowhere [x; y] ((a ++ [c]) ++ b).
Proof.
  intros Ha Hb Hc. induction a as [|z a IH]; [now apply nowhere2_cons|]. cbn [app]. apply nowhere2_cons.
  - apply IH. exact (nowhere_cons _ _ _ Ha).
  - intros -> E. assert (G : hd_error (a ++ [c]) = Some y) by (destruct a; exact E). destruct (a ++ [c]) as [|w r] eqn:Q; [discriminate|]. injection G as ->. apply (Ha [] r). cbn [app]. now rewrite Q.
Qed.
Lemma nowhere_char sub s x : In x sub -> ~ In x s -> nowhere sub s.
Proof. intros H1 H2 a b ->. apply H2. rewrite !in_app_iff. auto. Qed.
Definition column_ok0 (c : column) : Prop :=
  c_gap c <= 3 /\
  match c_unit c with
  | Some u => plain_word (c_word c) /\ plain_word u /\ (exists x y, c_word c = x ++ [y] /\ y <> "_"%char /\ (y = "n"%char -> c_gap c = 0))
  | None => c_word c = S_ "rough"
  end.
(** A column before its closing bracket *)
Definition body (c : column) : str := blanks (c_lead c) ++ c_word c ++ match c_unit c with Some u => blanks (c_gap c) ++ "["%char :: u | None => S_ "_[-" end.
Lemma blanks_none c n : c <> sp -> ~ In c (blanks n).
Proof. intros H G. apply repeat_spec in G. contradiction. Qed.
Lemma word_sp w : is_token w = true -> ~ In sp w.
Proof. intro H. apply token_not_in; [exact H|reflexivity]. Qed.
Lemma blanks_snoc n : blanks (S n) = blanks n ++ [sp].
Proof. unfold blanks. induction n as [|n IH]; [reflexivity|]. cbn [repeat app] in *. now rewrite <- IH. Qed.
Lemma body_n c : column_ok0 c -> nowhere (S_ "n ") (body c).
Proof.
  intros [Hg H]. unfold body. assert (B : forall k s, nowhere (S_ "n ") s -> nowhere (S_ "n ") (blanks k ++ s)).
  { intros k s Hs. induction k as [|k IH]; [exact Hs|]. cbn [blanks repeat app]. apply nowhere2_cons; [exact IH|discriminate]. }
  apply B. destruct (c_unit c) as [u|].
  - destruct H as ((W1 & W2 & W3 & W4 & W5) & (U1 & U2 & U3 & U4 & U5) & x & y & E & Hy & Hn). rewrite E. apply nowhere2_app.
    + apply (nowhere_char _ _ sp); [cbn; auto|]. rewrite <- E. now apply word_sp.
    + apply B. apply nowhere2_cons; [|discriminate]. apply (nowhere_char _ _ sp); [cbn; auto|]. now apply word_sp.
    + intros ->. rewrite (Hn eq_refl). discriminate.
  - rewrite H. apply nowhere_contains. vm_compute. reflexivity.
Qed.
Lemma body_close c : column_ok0 c -> ~ In "]"%char (body c).
Proof.
  intros [Hg H]. unfold body. rewrite !in_app_iff. intros [G|[G|G]].
  - revert G. apply blanks_none. discriminate.
  - destruct (c_unit c) as [u|]; [destruct H as ((_ & _ & W & _) & _); contradiction|]. rewrite H in G. cbn in G. intuition discriminate.
  - destruct (c_unit c) as [u|]; [|cbn in G; intuition discriminate]. apply in_app_iff in G. destruct G as [G|[G|G]]; [revert G; apply blanks_none; discriminate|discriminate|]. destruct H as (_ & (_ & _ & U & _) & _). contradiction.
Qed.
Lemma rough_cols cols b : Forall column_ok0 cols -> replace_ (S_ "rough") (S_ "rough_[-]") (flat_map column_text cols ++ blanks b) = flat_map (fun c => body c ++ S_ "]") cols ++ blanks b.
Proof.
  assert (NS : ~ In sp (S_ "rough")) by (cbn; intuition discriminate). assert (NN : S_ "rough" <> []) by discriminate.
  intro H. induction H as [|c cols [Hg Hc] H IH].
  - cbn [flat_map app]. rewrite <- (app_nil_r (blanks b)). rewrite replace_blanks by assumption. reflexivity.
  - cbn [flat_map]. rewrite <- !app_assoc. unfold column_text at 1, body at 1. destruct (c_unit c) as [u|].
    + destruct Hc as ((W1 & W2 & W3 & W4 & W5) & (U1 & U2 & U3 & U4 & U5) & _). rewrite <- !app_assoc. rewrite replace_blanks by assumption. f_equal.
      assert (X : forall w s, nowhere (S_ "rough") w -> (s = [] \/ exists c' s', s = c' :: s' /\ ~ In c' (S_ "rough")) -> replace_ (S_ "rough") (S_ "rough_[-]") (w ++ s) = w ++ replace_ (S_ "rough") (S_ "rough_[-]") s).
      { intros w s Hw [->|(c' & s' & -> & N)]; [rewrite !app_nil_r; now apply replace_nowhere|]. rewrite replace_sep by assumption. rewrite (replace_nowhere _ _ _ Hw). f_equal. symmetry. exact (replace_sep (S_ "rough") (S_ "rough_[-]") [] c' s' N NN). }
      rewrite X; [|exact W5|right; destruct (c_gap c); [exists "["%char|exists sp]; eexists; (split; [reflexivity|cbn; intuition discriminate])]. f_equal.
      rewrite replace_blanks by assumption. f_equal. cbn [app]. change (S_ "[" ++ u ++ S_ "]" ++ flat_map column_text cols ++ blanks b) with ([] ++ "["%char :: (u ++ S_ "]" ++ flat_map column_text cols ++ blanks b)).
      rewrite replace_sep; [|cbn; intuition discriminate|exact NN]. cbn [app]. change (replace_ (S_ "rough") (S_ "rough_[-]") []) with (@nil ascii). cbn [app]. f_equal.
      rewrite X; [|exact U5|right; eexists "]"%char, _; split; [reflexivity|cbn; intuition discriminate]]. f_equal. change (S_ "]" ++ flat_map column_text cols ++ blanks b) with ([] ++ "]"%char :: (flat_map column_text cols ++ blanks b)).
      rewrite replace_sep; [|cbn; intuition discriminate|exact NN]. rewrite IH. reflexivity.
    + rewrite Hc. rewrite <- !app_assoc. rewrite replace_blanks by assumption. f_equal. cbn [app]. 
      assert (Y : forall s, replace_ (S_ "rough") (S_ "rough_[-]") (S_ "rough" ++ s) = S_ "rough_[-]" ++ replace_ (S_ "rough") (S_ "rough_[-]") s) by (intro s; reflexivity).
      rewrite Y, IH. reflexivity.
Qed.
Lemma n_cols cols b : Forall column_ok0 cols -> replace_ (S_ "n ") (S_ "n_[-] ") (flat_map (fun c => body c ++ S_ "]") cols ++ blanks b) = flat_map (fun c => body c ++ S_ "]") cols ++ blanks b.
Proof.
  intro H. induction H as [|c cols Hc H IH].
  - cbn [flat_map app]. apply replace_nowhere. apply (nowhere_char _ _ "n"%char); [cbn; auto|]. apply blanks_none. discriminate.
  - cbn [flat_map]. rewrite <- !app_assoc. change (S_ "]" ++ flat_map (fun c => body c ++ S_ "]") cols ++ blanks b) with ("]"%char :: (flat_map (fun c => body c ++ S_ "]") cols ++ blanks b)).
    rewrite replace_sep; [|cbn; intuition discriminate|discriminate]. rewrite (replace_nowhere _ _ _ (body_n c Hc)), IH. reflexivity.
Qed.
Lemma split_cols cols b : Forall column_ok0 cols -> split_chr (ch 93) (flat_map (fun c => body c ++ S_ "]") cols ++ blanks b) = map body cols ++ [blanks b].
Proof.
  assert (N : forall s, ~ In "]"%char s -> forallb (fun x => negb (chr_eqb x (ch 93))) s = true).
  { intros s Hs. apply forallb_forall. intros x Hx. apply negb_true_iff, chr_eqb_neq. intros ->. exact (Hs Hx). }
  intro H. induction H as [|c cols Hc H IH].
  - cbn [flat_map app map]. apply split_on_none. apply N. apply blanks_none. discriminate.
  - cbn [flat_map map]. rewrite <- !app_assoc. change (S_ "]" ++ flat_map (fun c => body c ++ S_ "]") cols ++ blanks b) with (ch 93 :: (flat_map (fun c => body c ++ S_ "]") cols ++ blanks b)).
    unfold split_chr in *. rewrite (split_on_app_sep _ _ _ _ (N _ (body_close c Hc)) (chr_eqb_refl _)), IH. reflexivity.
Qed.
Lemma repl_one c rep s : replace_ [c] rep s = flat_map (fun x => if chr_eqb x c then rep else [x]) s.
Proof.
  unfold replace_. induction s as [|x s IH]; [reflexivity|]. cbn [repl flat_map startswith]. rewrite andb_true_r.
  destruct (chr_eqb x c); cbn [List.length Nat.sub app]; rewrite IH; reflexivity.
Qed.
Lemma repl_one_none c rep s : ~ In c s -> replace_ [c] rep s = s.
Proof. intro H. apply replace_nowhere. apply (nowhere_char _ _ c); [now left|exact H]. Qed.
Lemma repl_one_app c rep a b : replace_ [c] rep (a ++ b) = replace_ [c] rep a ++ replace_ [c] rep b.
Proof. rewrite !repl_one. apply flat_map_app. Qed.
Lemma token_last w : is_token w = true -> exists x y, w = x ++ [y] /\ is_space y = false.
Proof.
  intro H. apply tokenE in H. destruct H as [H1 H2]. destruct (exists_last H1) as (x & y & ->). exists x, y. split; [reflexivity|]. rewrite forallb_app in H2. apply andb_true_iff in H2. destruct H2 as [_ H2]. cbn in H2. rewrite andb_true_r in H2. now apply negb_true_iff.
Qed.
Lemma strip_body n w m u : is_token w = true -> is_token u = true -> strip (blanks n ++ w ++ blanks m ++ "["%char :: u) = w ++ blanks m ++ "["%char :: u.
Proof.
  intros Hw Hu. assert (B : forallb is_space (blanks n) = true) by (apply forallb_forall; intros x Hx; apply repeat_spec in Hx; subst x; reflexivity).
  destruct (token_cons w Hw) as (c & t & -> & Hc). destruct (token_last u Hu) as (x & y & -> & Hy). unfold strip. rewrite (lstrip_app_nonblank _ _ B). cbn [app]. rewrite (lstrip_head _ _ Hc).
  replace (c :: t ++ blanks m ++ "["%char :: x ++ [y]) with ((c :: t ++ blanks m ++ "["%char :: x) ++ [y]) by (cbn [app]; rewrite <- !app_assoc; reflexivity). now apply rstrip_last.
Qed.
Lemma us_twice m (u : str) : m <= 3 -> nowhere (S_ "__") u ->
  replace_ (S_ "__") (S_ "_") (replace_ (S_ "__") (S_ "_") (repeat "_"%char m ++ S_ "_[" ++ u)) = S_ "_[" ++ u.
Proof.
  intros Hm Hu. assert (N : ~ In "["%char (S_ "__")) by (cbn; intuition discriminate). assert (NN : S_ "__" <> []) by discriminate.
  assert (R : forall k, replace_ (S_ "__") (S_ "_") (repeat "_"%char k ++ "["%char :: u) = replace_ (S_ "__") (S_ "_") (repeat "_"%char k) ++ "["%char :: u).
  { intro k. rewrite replace_sep by assumption. now rewrite (replace_nowhere _ _ u Hu). }
  replace (repeat "_"%char m ++ S_ "_[" ++ u) with (repeat "_"%char (S m) ++ "["%char :: u).
  2:{ change (S m) with (1 + m). rewrite Nat.add_comm, repeat_app, <- app_assoc. reflexivity. }
  rewrite R. destruct m as [|[|[|[|m]]]]; [| | | |lia].
  - change (replace_ (S_ "__") (S_ "_") (repeat "_"%char 1)) with (repeat "_"%char 1). rewrite R. reflexivity.
  - change (replace_ (S_ "__") (S_ "_") (repeat "_"%char 2)) with (repeat "_"%char 1). rewrite R. reflexivity.
  - change (replace_ (S_ "__") (S_ "_") (repeat "_"%char 3)) with (repeat "_"%char 2). rewrite R. reflexivity.
  - change (replace_ (S_ "__") (S_ "_") (repeat "_"%char 4)) with (repeat "_"%char 2). rewrite R. reflexivity.
Qed.
Lemma name_body c : column_ok0 c -> bracket_name (body c) = column_label c.
Proof.
  intros [Hg H]. unfold bracket_name, body, column_label. destruct (c_unit c) as [u|].
  - destruct H as ((W1 & W2 & W3 & W4 & W5) & (U1 & U2 & U3 & U4 & U5) & x & y & E & Hy & Hn). rewrite (strip_body _ _ _ _ W1 U1).
    change (S_ " ") with [sp]. rewrite !repl_one_app. rewrite (repl_one_none sp _ _ (word_sp _ W1)). change ("["%char :: u) with (S_ "[" ++ u). rewrite repl_one_app. rewrite (repl_one_none sp _ u (word_sp _ U1)).
    change (replace_ [sp] (S_ "_") (S_ "[")) with (S_ "["). replace (replace_ [sp] (S_ "_") (blanks (c_gap c))) with (repeat "_"%char (c_gap c)).
    2:{ rewrite repl_one. unfold blanks. generalize (c_gap c). intro k. induction k as [|k IH]; [reflexivity|]. cbn [repeat flat_map]. rewrite <- IH. reflexivity. }
    change (replace_ (S_ "[")) with (replace_ ["["%char]). rewrite !repl_one_app. rewrite (repl_one_none "["%char _ _ W2), (repl_one_none "["%char _ u U2), (repl_one_none "["%char _ (repeat "_"%char _)) by (intro G; apply repeat_spec in G; discriminate).
    change (replace_ ["["%char] (S_ "_[") (S_ "[")) with (S_ "_["). 
    assert (X : forall s, replace_ (S_ "__") (S_ "_") (c_word c ++ s) = c_word c ++ replace_ (S_ "__") (S_ "_") s).
    { intro s. rewrite E. rewrite <- !app_assoc. cbn [app]. rewrite replace_sep; [|cbn; intros [G|[G|[]]]; apply Hy; now rewrite <- G|discriminate]. f_equal. apply replace_nowhere. intros a b Q. apply (W4 a (b ++ [y])). rewrite E, Q. now rewrite <- !app_assoc. }
    rewrite !X. rewrite (us_twice _ _ Hg U4). now rewrite <- !app_assoc.
  - rewrite H. change (S_ "rough" ++ S_ "_[-") with (S_ "rough_[-"). assert (B : forallb is_space (blanks (c_lead c)) = true) by (apply forallb_forall; intros x Hx; apply repeat_spec in Hx; subst x; reflexivity).
    unfold strip. rewrite (lstrip_app_nonblank _ _ B). vm_compute. reflexivity.
Qed.
Lemma cols_find cols b : Forall column_ok0 cols -> Exists (fun c => c_unit c <> None) cols -> exists n, find_chr (ch 91) (flat_map column_text cols ++ blanks b) = Some (S n).
Proof.
  intros H E. assert (I : In "["%char (flat_map column_text cols ++ blanks b)).
  { apply in_or_app. left. apply in_flat_map. apply Exists_exists in E. destruct E as (c & Hc & U). exists c. split; [exact Hc|]. unfold column_text. destruct (c_unit c); [|contradiction]. rewrite !in_app_iff. right. right. right. left. now left. }
  assert (F : forall s, In "["%char s -> exists n, find_chr (ch 91) s = Some n).
  { induction s as [|x s IH]; [intros []|]. intro G. cbn [find_chr]. destruct (chr_eqb x (ch 91)) eqn:Q; [now exists 0|]. destruct G as [->|G]; [discriminate|]. destruct (IH G) as [n ->]. now exists (S n). }
  destruct H as [|c cols [_ Hc] H]; [inversion E|]. cbn [flat_map] in *.
  assert (X : exists x s, column_text c = x :: s /\ x <> "["%char).
  { unfold column_text. destruct (c_lead c) as [|k]; [|eexists sp, _; split; [reflexivity|discriminate]]. cbn [blanks repeat app]. destruct (c_unit c).
    - destruct Hc as ((W1 & W2 & _) & _). destruct (token_cons _ W1) as (x & t & Q & _). rewrite Q in *. eexists x, _. split; [reflexivity|]. intros ->. apply W2. now left.
    - rewrite Hc. eexists "r"%char, _. split; [reflexivity|discriminate]. }
  destruct X as (x & s & Q & Nx). rewrite Q in *. cbn [app] in *. destruct I as [I|I]; [congruence|]. destruct (F _ I) as [n G]. exists n. cbn [find_chr]. replace (chr_eqb x (ch 91)) with false; [now rewrite G|]. symmetry. now apply chr_eqb_neq.
Qed.
Lemma removelast_snoc {A} (l : list A) x : removelast (l ++ [x]) = l.
Proof. rewrite removelast_app by discriminate. cbn. apply app_nil_r. Qed.
Lemma units_cols cols b : Forall column_ok0 cols -> Exists (fun c => c_unit c <> None) cols -> forall h, strip_count h = flat_map column_text cols ++ blanks b -> header_cols h = map column_label cols.
Proof.
  intros H E h Eh. unfold header_cols. rewrite Eh. destruct (cols_find cols b H E) as [n ->]. cbv zeta. rewrite (rough_cols _ _ H), (n_cols _ _ H), (split_cols _ _ H), removelast_snoc, map_map.
  apply map_ext_in. intros c Hc. rewrite Forall_forall in H. now apply name_body, H.
Qed.
(** Words of a header with units *)
Definition col_words (c : column) : list str :=
  match c_unit c with Some u => match c_gap c with O => [c_word c ++ S_ "[" ++ u ++ S_ "]"] | S _ => [c_word c; S_ "[" ++ u ++ S_ "]"] end | None => [c_word c] end.
Lemma plain_bracket u : plain_word u -> is_token (S_ "[" ++ u ++ S_ "]") = true.
Proof. intros (U & _). apply (token_app (S_ "[")); [reflexivity|]. now apply token_app. Qed.
Lemma col_words_tokens c : column_ok0 c -> forallb is_token (col_words c) = true.
Proof.
  intros [_ H]. unfold col_words. destruct (c_unit c) as [u|].
  - destruct H as (W & U & _). pose proof (plain_bracket u U) as P. destruct W as (W & _). destruct (c_gap c); cbn [forallb]; rewrite ?P, ?W, ?(token_app _ _ W P); reflexivity.
  - rewrite H. reflexivity.
Qed.
Lemma blank_run n : forallb is_space (blanks n) = true.
Proof. apply forallb_forall. intros x Hx. apply repeat_spec in Hx. subst x. reflexivity. Qed.
Lemma col_split c s : column_ok0 c -> blank_next s -> split_ws (column_text c ++ s) = col_words c ++ split_ws s.
Proof.
  intros Hc Hs. assert (A : after s) by (destruct Hs as [->|[t ->]]; [now left|right; eexists sp, t; split; reflexivity]). pose proof Hc as [_ H]. unfold column_text, col_words. rewrite <- !app_assoc, (split_ws_lpad _ _ (blank_run _)).
  destruct (c_unit c) as [u|].
  - destruct H as (W & U & _). pose proof (plain_bracket u U) as P. destruct W as (W & _). destruct (c_gap c) as [|g].
    + cbn [blanks repeat app]. rewrite <- !app_assoc. replace (c_word c ++ S_ "[" ++ u ++ S_ "]" ++ s) with ((c_word c ++ S_ "[" ++ u ++ S_ "]") ++ s) by (now rewrite <- !app_assoc). now rewrite (split_after _ _ (token_app _ _ W P) A).
    + rewrite <- !app_assoc. rewrite split_after; [|exact W|right; eexists sp, _; split; reflexivity]. rewrite (split_ws_lpad _ _ (blank_run _)).
      replace (S_ "[" ++ u ++ S_ "]" ++ s) with ((S_ "[" ++ u ++ S_ "]") ++ s) by (now rewrite <- !app_assoc). now rewrite (split_after _ _ P A).
  - cbn [app]. rewrite split_after; [reflexivity|rewrite H; reflexivity|exact A].
Qed.
Lemma cols_next cols b : Forall column_ok cols -> blank_next (flat_map column_text cols ++ blanks b).
Proof.
  intro H. destruct H as [|c cols (Hl & _) H]; cbn [flat_map app]; [destruct b; [now left|right; eexists; reflexivity]|]. right. unfold column_text. destruct (c_lead c); [lia|]. eexists. reflexivity.
Qed.
Lemma ok_ok0 c : column_ok c -> column_ok0 c.
Proof. intros (_ & H). exact H. Qed.
Lemma cols_split cols b : Forall column_ok cols -> split_ws (flat_map column_text cols ++ blanks b) = flat_map col_words cols.
Proof.
  intro H. induction H as [|c cols Hc H IH]; [apply split_ws_blank, blank_run|]. cbn [flat_map]. rewrite <- app_assoc, (col_split _ _ (ok_ok0 c Hc) (cols_next cols b H)), IH. reflexivity.
Qed.
Definition squeezed (n : nat) (c : column) : column := mk_col n (c_word c) (Nat.min 1 (c_gap c)) (c_unit c).
Lemma squeezed_ok n c : column_ok c -> column_ok0 (squeezed n c).
Proof.
  intros (_ & Hg & H). unfold column_ok0, squeezed. cbn [c_gap c_unit c_word]. split; [lia|]. destruct (c_unit c); [|exact H]. destruct H as (W & U & x & y & E & N1 & N2). split; [exact W|]. split; [exact U|]. exists x, y. split; [exact E|]. split; [exact N1|]. intro Q. rewrite (N2 Q). reflexivity.
Qed.
Lemma col_join c : column_ok0 c -> join (S_ " ") (col_words c) = column_text (squeezed 0 c).
Proof. intros _. unfold col_words, column_text, squeezed. cbn [c_lead c_word c_gap c_unit blanks repeat app]. destruct (c_unit c) as [u|]; [|cbn [join]; now rewrite app_nil_r]. destruct (c_gap c) as [|g]; reflexivity. Qed.
Lemma col_words_some c : col_words c <> [].
Proof. unfold col_words. destruct (c_unit c); [destruct (c_gap c)|]; discriminate. Qed.
Lemma cols_join c cols : Forall column_ok (c :: cols) -> join (S_ " ") (flat_map col_words (c :: cols)) = flat_map column_text (squeezed 0 c :: map (squeezed 1) cols).
Proof.
  revert c. induction cols as [|c2 cols IH]; intros c H; inversion H as [|x y Hc Hs]; subst.
  - cbn [flat_map map]. rewrite !app_nil_r. apply col_join. now apply ok_ok0.
  - change (flat_map col_words (c :: c2 :: cols)) with (col_words c ++ flat_map col_words (c2 :: cols)). rewrite join_app; [|apply col_words_some|cbn [flat_map]; intro Q; apply app_eq_nil in Q; destruct Q as [Q _]; exact (col_words_some c2 Q)].
    rewrite (IH c2 Hs), (col_join c (ok_ok0 c Hc)). reflexivity.
Qed.
Lemma squeezed_label n c : column_label (squeezed n c) = column_label c.
Proof. reflexivity. Qed.
Lemma not_int w x y : not_a_number w -> is_token (x ++ w ++ y) = true -> exists e, int_ (x ++ w ++ y) = Err e.
Proof.
  intros (c & Hc & Hn) Ht. assert (U : forall s, In c s -> uint_of_str s = None).
  { induction s as [|z s IH]; [intros []|]. intros [->|G]; cbn [uint_of_str]; [|now rewrite (IH G)]. destruct (uint_of_str s) as [d|]; [|reflexivity].
    assert (Q : mem_chr c (S_ "0123456789") = false) by (apply not_true_is_false; intro M; apply mem_chr_iff in M; apply Hn; change (S_ "0123456789_+-") with (S_ "0123456789" ++ S_ "_+-"); apply in_or_app; now left).
    clear -Q. destruct c as [[] [] [] [] [] [] [] []]; try discriminate Q; reflexivity. }
  assert (I : In c (x ++ w ++ y)) by (rewrite !in_app_iff; auto). assert (N : forall s, In c s -> N_of_str s = None) by (intros s Hs; unfold N_of_str; destruct s; [destruct Hs|]; now rewrite (U _ Hs)).
  unfold int_. rewrite (token_strip _ Ht). destruct (x ++ w ++ y) as [|z s]; [destruct I|]. destruct I as [->|I].
  - assert (E1 : chr_eqb c (ch 45) = false) by (apply chr_eqb_neq; intros ->; apply Hn; cbn; intuition). assert (E2 : chr_eqb c (ch 43) = false) by (apply chr_eqb_neq; intros ->; apply Hn; cbn; intuition).
    rewrite E1, E2, (N (c :: s) (or_introl eq_refl)). eauto.
  - rewrite (N s I), (N (z :: s) (or_intror I)). destruct (chr_eqb z (ch 45)); [eauto|]. destruct (chr_eqb z (ch 43)); eauto.
Qed.
Lemma find_none c s : ~ In c s -> find_chr c s = None.
Proof. induction s as [|x s IH]; intro H; [reflexivity|]. cbn [find_chr]. replace (chr_eqb x c) with false; [rewrite IH; [reflexivity|intro G; apply H; now right]|]. symmetry. apply chr_eqb_neq. intros ->. apply H. now left. Qed.
Lemma words_in s w c : In w (split_ws s) -> In c w -> In c s.
Proof.
  unfold split_ws. intro H. apply filter_In in H. destruct H as [H _]. revert w H. induction s as [|x s IH]; intros w H Hc; [destruct H as [<-|[]]; destruct Hc|]. cbn [split_on] in H. destruct (is_space x).
  - destruct H as [<-|H]; [destruct Hc|]. right. exact (IH w H Hc).
  - destruct (split_on is_space s) as [|a l]; [destruct H as [<-|[]]; destruct Hc as [->|[]]; now left|]. destruct H as [<-|H]; [destruct Hc as [->|Hc]; [now left|right; exact (IH a (or_introl eq_refl) Hc)]|]. right. exact (IH w (or_intror H) Hc).
Qed.
Lemma join_in c sep ws : In c (join sep ws) -> In c sep \/ exists w, In w ws /\ In c w.
Proof.
  induction ws as [|w ws IH]; [intros []|]. destruct ws as [|w2 ws]; [intro H; right; exists w; split; [now left|exact H]|]. rewrite join_cons by discriminate. rewrite !in_app_iff. intros [H|[H|H]]; [right; exists w; split; [now left|exact H]|now left|].
  destruct (IH H) as [G|(u & G1 & G2)]; [now left|]. right. exists u. split; [now right|exact G2].
Qed.
Lemma words_header h ws : ~ In "["%char h -> (split_ws h = ws /\ (exists w ws', ws = w :: ws' /\ not_a_number w)) \/ (exists m, split_ws h = str_of_N m :: ws) -> header_cols h = ws.
Proof.
  intros Hb [[E (w & ws' & E' & Hw)]|[m E]]; unfold header_cols, strip_count; rewrite E.
  - rewrite E'. assert (T : is_token w = true) by (pose proof (split_ws_tokens h) as F; rewrite E, E' in F; cbn [forallb] in F; now apply andb_true_iff in F).
    destruct (not_int w [] [] Hw) as [e Q]; [cbn [app]; now rewrite app_nil_r|]. cbn [app] in Q. rewrite app_nil_r in Q. rewrite Q. cbv zeta. rewrite (find_none (ch 91) h Hb), E. exact E'.
  - rewrite int_N. cbv zeta. rewrite find_none.
    + apply split_ws_words. pose proof (split_ws_tokens h) as F. rewrite E in F. cbn [forallb] in F. now apply andb_true_iff in F.
    + intro G. apply join_in in G. destruct G as [[G|[]]|(w & G1 & G2)]; [discriminate|]. apply Hb. apply (words_in h w); [rewrite E; now right|exact G2].
Qed.
Lemma labelled_cols h n cols : labelled h n cols -> the_cols h n = cols.
Proof.
  intro H. unfold the_cols. destruct H as [h ws n Hb Hw _ Hl|t cols b Ht Hc (c & Hd & Hn) Hu Ho|h n Hb Hw].
  - rewrite (words_header h ws Hb Hw). apply Nat.eqb_eq in Hl. now rewrite Hl.
  - assert (E : header_cols (t ++ flat_map column_text cols ++ blanks b) = map column_label cols); [|rewrite E, map_length, Nat.eqb_refl; reflexivity].
    destruct cols as [|c0 cols]; [contradiction|]. cbn [hd_error] in Hd. injection Hd as ->. pose proof (cols_split (c :: cols) b Ho) as S. inversion Ho as [|x y Hc1 Hc2]; subst.
    destruct Ht as [->|(k & m & ->)].
    + cbn [app]. apply (units_cols (c :: cols) b).
      * rewrite Forall_forall in *. intros z Hz. apply ok_ok0, Ho, Hz.
      * exact Hu.
      * unfold strip_count. rewrite S. assert (X : exists w ws e, flat_map col_words (c :: cols) = w :: ws /\ int_ w = Err e).
        { cbn [flat_map]. pose proof (col_words_tokens c (ok_ok0 c Hc1)) as T. unfold col_words in *. destruct (c_unit c) as [u|]; [destruct (c_gap c)|]; cbn [app forallb] in *; apply andb_true_iff in T; destruct T as [T _].
          - destruct (not_int (c_word c) [] (S_ "[" ++ u ++ S_ "]") Hn T) as [e Q]. eexists _, _, e. split; [reflexivity|exact Q].
          - destruct (not_int (c_word c) [] [] Hn) as [e Q]; [cbn [app]; now rewrite app_nil_r|]. cbn [app] in Q. rewrite app_nil_r in Q. eexists _, _, e. split; [reflexivity|exact Q].
          - destruct (not_int (c_word c) [] [] Hn) as [e Q]; [cbn [app]; now rewrite app_nil_r|]. cbn [app] in Q. rewrite app_nil_r in Q. eexists _, _, e. split; [reflexivity|exact Q]. }
        destruct X as (w & ws & e & -> & ->). reflexivity.
    + rewrite <- !app_assoc. replace (map column_label (c :: cols)) with (map column_label (squeezed 0 c :: map (squeezed 1) cols)) by (cbn [map]; rewrite map_map; reflexivity).
      apply (units_cols _ 0).
      * constructor; [now apply squeezed_ok|]. apply Forall_forall. intros z Hz. apply in_map_iff in Hz. destruct Hz as (z' & <- & Hz). rewrite Forall_forall in Hc2. now apply squeezed_ok, Hc2.
      * inversion Hu as [x y U|x y U]; subst; [now left|]. right. apply Exists_exists in U. destruct U as (z & Hz & U). apply Exists_exists. exists (squeezed 1 z). split; [now apply in_map|exact U].
      * unfold strip_count. rewrite (split_ws_lpad _ _ (blank_run k)). rewrite split_after; [|apply str_of_N_token|right; eexists sp, _; split; reflexivity]. rewrite int_N. rewrite (split_ws_lpad [sp] _ eq_refl). rewrite S, (cols_join c cols Ho). cbn [blanks repeat]. now rewrite app_nil_r.
  - replace (Nat.eqb (List.length (header_cols h)) n) with false; [reflexivity|]. symmetry. apply Nat.eqb_neq. destruct Hw as [(w & ws & E & Hw & Hl)|(m & ws & E & Hl)].
    + rewrite (words_header h (w :: ws) Hb); [exact Hl|]. left. split; [exact E|]. now exists w, ws.
    + rewrite (words_header h ws Hb); [exact Hl|]. right. now exists m.
Qed.

(** * Reading a file *)
Section Read.
Context {V : Type}.
Variable num : str -> option V.
Variable idx : nat -> V.
Notation value := (@value V).
Notation doc := (@doc V).
Notation item := (item V).
Notation L := (L num idx).
Lemma names_perm a b : Permutation a b -> names_ok a -> names_ok b.
Proof. intros P [H1 H2]. split; [now apply (Permutation_NoDup P)|]. intros k s K1 K2. apply (H2 k s); apply (Permutation_in _ (Permutation_sym P)); assumption. Qed.
Lemma names_sub a b c : names_ok (a ++ b ++ c) -> names_ok (a ++ c).
Proof.
  intros [H1 H2]. split.
  - apply (Permutation_NoDup (l := a ++ b ++ c) (l' := b ++ a ++ c)) in H1; [|rewrite !app_assoc; apply Permutation_app_tail, Permutation_app_comm]. clear -H1. induction b as [|x b IH]; [exact H1|]. inversion H1; auto.
  - intros k s K1 K2. apply (H2 k s); rewrite in_app_iff in *; rewrite in_app_iff; tauto.
Qed.
Definition raw (i : item) : list (str * str * value) :=
  match i with
  | Remark _ => []
  | Numbers k s _ _ _ vs _ => [(k, s, match vs with [v] => Scal v | _ => Arr vs end)]
  | Table k s _ _ cols _ rows => [(k, s, Frame cols rows)]
  | Matrix k s _ _ rows => [(k, s, match tl rows with [] => Arr [] | _ => Mat (tl rows) end)]
  end.
Lemma raw_names i : map fst (raw i) = item_name i.
Proof. destruct i; reflexivity. Qed.
Lemma regular_ok toks words vs : Forall number_text toks -> Forall2 (fun w v => num w = Some v) toks vs -> Forall no_digit words ->
  regular num (join (S_ " ") (toks ++ words)) = match vs with [v] => Scal v | _ => Arr vs end.
Proof.
  intros Ht Hv Hw. unfold regular. change (S_ " ") with [sp]. rewrite (rx_words toks words Ht Hw). replace (floats num toks) with (Some vs); [destruct vs as [|v [|v2 vs]]; reflexivity|]. symmetry.
  clear -Hv. induction Hv as [|w v ws vs H Hv IH]; [reflexivity|]. cbn [floats]. now rewrite H, IH.
Qed.
Lemma below_ok below rest d done : Forall data_line below -> holds d done -> exists d', L (below ++ rest) d = L rest d' /\ holds d' done.
Proof.
  intro H. revert d. induction H as [|l below Hl H IH]; intros d Hd; [exists d; split; [reflexivity|exact Hd]|]. cbn [app]. destruct (L_stray num idx l (below ++ rest) d Hl) as [->| ->]; [exact (IH d Hd)|]. apply IH. now apply holds_adjust.
Qed.
Lemma edge_items items rest : Forall (item_ok num idx) items -> edge rest -> edge (flat_map item_lines items ++ rest).
Proof.
  intros H Hr. destruct H as [|i items Hi H]; [exact Hr|]. cbn [flat_map]. destruct i as [l| | | ]; cbn [item_lines app edge]; try (right; eexists; reflexivity).
  destruct Hi as [->|Hi]; [now left|]. right. apply startswith_iff in Hi. destruct Hi as [t ->]. eexists. reflexivity.
Qed.
Lemma one_item i rest d done : item_ok num idx i -> holds d done -> names_ok (item_name i ++ map fst done) -> edge rest -> exists d', L (item_lines i ++ rest) d = L rest d' /\ holds d' (raw i ++ done).
Proof.
  intros Hi Hd Hn He. destruct i as [l|k s t toks words vs below|k s t h cols ls rows|k s t ls rows]; cbn [item_lines item_name raw app] in *.
  - exists d. split; [now apply L_remark|exact Hd].
  - destruct Hi as (N & A & T & M & E & W1 & W2 & W3 & B). rewrite (L_regular num idx k s t _ d N A T M). rewrite E, (regular_ok toks words vs W1 W2 W3).
    destruct (set_ok d done k s (match vs with [v] => Scal v | _ => Arr vs end) Hd Hn) as (d1 & -> & H1 & _). cbn [bind]. apply (below_ok below rest (adjust d1)); [exact B|]. now apply holds_adjust.
  - destruct Hi as (N & A & T & B & R & n & Q & Lb). rewrite (L_table num idx k s t h ls rows n rest d N A T B R Q He). rewrite (labelled_cols h n cols Lb).
    destruct (set_ok d done k s (Frame cols rows) Hd Hn) as (d1 & -> & H1 & _). cbn [bind]. now exists d1.
  - destruct Hi as (N & A & T & B & R & n & Q). rewrite (L_matrix num idx k s t ls rows n rest d N A T B R Q He).
    destruct (set_ok d done k s (match tl rows with [] => Arr [] | _ => Mat (tl rows) end) Hd Hn) as (d1 & -> & H1 & _). cbn [bind]. now exists d1.
Qed.
Lemma all_items items : forall rest d done, Forall (item_ok num idx) items -> holds d done -> names_ok (flat_map item_name items ++ map fst done) -> edge rest ->
  exists d' done', L (flat_map item_lines items ++ rest) d = L rest d' /\ holds d' done' /\ Permutation done' (flat_map raw items ++ done).
Proof.
  induction items as [|i items IH]; intros rest d done H Hd Hn He; [exists d, done; split; [reflexivity|split; [exact Hd|apply Permutation_refl]]|].
  inversion H as [|x y Hi Hs]; subst. cbn [flat_map] in *. rewrite <- app_assoc in *.
  destruct (one_item i (flat_map item_lines items ++ rest) d done Hi Hd (names_sub _ _ _ Hn) (edge_items items rest Hs He)) as (d1 & -> & H1).
  destruct (IH rest d1 (raw i ++ done) Hs H1) as (d' & done' & E & H' & P); [|exact He|].
  - rewrite map_app, raw_names. apply (names_perm (item_name i ++ flat_map item_name items ++ map fst done)); [|exact Hn]. rewrite !app_assoc. apply Permutation_app_tail, Permutation_app_comm.
  - exists d', done'. split; [exact E|]. split; [exact H'|]. apply (Permutation_trans P). rewrite <- app_assoc. rewrite !app_assoc. apply Permutation_app_tail, Permutation_app_comm.
Qed.
Lemma default_four n : map (fun j => S_ "C" ++ str_of_N (N.of_nat j)) (seq 0 n) <> unnamed4 -> listed (S_ "C0") (map (fun j => S_ "C" ++ str_of_N (N.of_nat j)) (seq 0 n)) && Nat.eqb (List.length (filter (fun c => negb (str_eqb c (S_ "C0"))) (map (fun j => S_ "C" ++ str_of_N (N.of_nat j)) (seq 0 n)))) 3 = false.
Proof.
  intro H. destruct n as [|n]; [reflexivity|]. apply andb_false_iff. right. apply Nat.eqb_neq. intro E. apply H. assert (n = 3); [|subst n; reflexivity]. rewrite <- E. cbn [seq map filter]. change (str_eqb (S_ "C" ++ str_of_N (N.of_nat 0)) (S_ "C0")) with true. cbn [negb].
  assert (F : forall a m, 1 <= a -> List.length (filter (fun c => negb (str_eqb c (S_ "C0"))) (map (fun j => S_ "C" ++ str_of_N (N.of_nat j)) (seq a m))) = m).
  { intros a m. revert a. induction m as [|m IH]; intros a Ha; [reflexivity|]. cbn [seq map filter]. replace (str_eqb (S_ "C" ++ str_of_N (N.of_nat a)) (S_ "C0")) with false; [cbn [negb List.length]; rewrite IH by lia; reflexivity|]. symmetry. apply str_eqb_neq. intro Q.
    assert (Q' : str_of_N (N.of_nat a) = str_of_N 0) by (injection Q as Q; exact Q). apply (f_equal N_of_str) in Q'. rewrite !N_of_str_of_N in Q'. injection Q' as Q'. lia. }
  rewrite F; [reflexivity|lia].
Qed.
Lemma last_label c : last (column_label c) sp = "]"%char.
Proof. unfold column_label. destruct (c_unit c) as [u|]; [replace (c_word c ++ S_ "_[" ++ u ++ S_ "]") with ((c_word c ++ S_ "_[" ++ u) ++ ["]"%char]) by (now rewrite <- !app_assoc)|replace (c_word c ++ S_ "_[-]") with ((c_word c ++ S_ "_[-") ++ ["]"%char]) by (now rewrite <- !app_assoc)]; apply last_last. Qed.
Lemma tidy_cols h n cols (rows : list (list V)) : labelled h n cols -> Forall (fun r => List.length r = n) rows ->
  tidyv (Frame cols rows) = if list_eq_dec str_eq_dec cols unnamed4 then Frame [S_ "H_[m]"; S_ "U_FA_[-]"; S_ "U_SS_[]"] (map (@tl V) rows) else Frame cols rows.
Proof.
  intros Hl Hr. destruct (list_eq_dec str_eq_dec cols unnamed4) as [E|E].
  - subst cols. cbn [tidyv]. change (listed _ _ && _) with true. cbv iota. unfold mode1_cols. f_equal. apply map_ext_in. intros r Hi. assert (List.length r = 4).
    { rewrite Forall_forall in Hr. rewrite (Hr r Hi). inversion Hl as [h' ws n' A B C D E1 E2 E3|t cs b A B C D F E1 E2 E3|h' n' A B E1 E2 E3]; subst.
      - exfalso. apply C. now left.
      - exfalso. destruct cs as [|c cs]; [discriminate|]. cbn [map] in E3. assert (E4 : column_label c = S_ "C0") by (unfold unnamed4 in E3; now injection E3). pose proof (last_label c) as Q. rewrite E4 in Q. discriminate.
      - apply (f_equal (@List.length _)) in E3. rewrite map_length, seq_length in E3. exact E3. }
    destruct r as [|a [|b [|c [|e [|f r]]]]]; try discriminate. reflexivity.
  - cbn [tidyv]. replace (listed (S_ "C0") cols && _) with false; [reflexivity|]. symmetry. inversion Hl as [h' ws n' A B C D|t cs b A B C D F|h' n' A B]; subst.
    + apply andb_false_iff. left. apply not_true_is_false. intro G. apply listed_iff in G. contradiction.
    + apply andb_false_iff. left. apply not_true_is_false. intro G. apply listed_iff in G. apply in_map_iff in G. destruct G as (c & G & _). pose proof (last_label c) as Q. rewrite G in Q. discriminate.
    + apply default_four. exact E.
Qed.
Lemma says_raw i k s v : item_ok num idx i -> says i k s v -> exists w, In (k, s, w) (raw i) /\ norm k s w = v.
Proof.
  intros Hi H. destruct H as [k s t toks words v below|k s t toks words vs below Hl|k s t h cols ls rows Hc|t h ls rows|k s t l1 l2 ls r1 r2 rows|k s t l1 r1]; cbn [raw tl].
  - exists (Scal v). split; [now left|]. unfold norm. destruct (_ && _); reflexivity.
  - exists (Arr vs). split; [destruct vs as [|v [|v2 vs]]; [now left|elim Hl; reflexivity|now left]|]. unfold norm. destruct (_ && _); reflexivity.
  - exists (Frame cols rows). split; [now left|]. destruct Hi as (_ & _ & _ & _ & _ & n & [_ Q] & Lb). unfold norm. destruct (str_eqb k (S_ "Global") && str_eqb s (S_ "Mode1_Shape")) eqn:E; [|reflexivity].
    rewrite (tidy_cols h n cols rows Lb Q). destruct (list_eq_dec str_eq_dec cols unnamed4) as [X|X]; [|reflexivity]. exfalso. destruct Hc as [Hc|Hc]; [|contradiction]. apply andb_true_iff in E. rewrite !str_eqb_eq in E. destruct E as [-> ->]. apply Hc. reflexivity.
  - exists (Frame unnamed4 rows). split; [now left|]. destruct Hi as (_ & _ & _ & _ & _ & n & [_ Q] & Lb). unfold norm. rewrite !str_eqb_refl. cbn [andb]. rewrite (tidy_cols h n unnamed4 rows Lb Q). destruct (list_eq_dec str_eq_dec unnamed4 unnamed4); [reflexivity|contradiction].
  - eexists. split; [now left|]. unfold norm. destruct (_ && _); reflexivity.
  - eexists. split; [now left|]. unfold norm. destruct (_ && _); reflexivity.
Qed.
Lemma program_ok : name_ok (S_ "Program") [] /\ ~ In (S_ "Program", []) tables /\ ~ In (S_ "Program", []) matrices.
Proof.
  split; [|split].
  - split; [reflexivity|]. split; [cbn; intuition discriminate|]. split; [cbn; intuition discriminate|]. split; [now left|intros []].
  - intro H. exact (tables_sub _ _ (or_introl H) eq_refl).
  - intro H. exact (tables_sub _ _ (or_intror H) eq_refl).
Qed.
Lemma read_L d first (items : list item) : (exists t, first = S_ "#Program" ++ t /\ after t /\ strip first = first) -> read num idx d (file_lines first items) = L (flat_map item_lines items ++ [first]) d.
Proof. intros (t & E & _ & S). unfold read, file_lines. cbn [hd tl]. rewrite S. rewrite E at 1. rewrite startswith_app. reflexivity. Qed.

(** The tables, matrices and numbers of a file are found under their names, and there is nothing else but the name of the program. *)
Theorem C103_read first (items : list item) : file_ok num idx first items ->
  exists d, read num idx [] (file_lines first items) = Ok d /\
    (forall i k s v, In i items -> says i k s v -> under d k s = Some v) /\
    (forall k s v, under d k s = Some v -> (k, s) = (S_ "Program", []) \/ In (k, s) (flat_map item_name items)).
Proof.
  intros (Hi & Hn & Hf). rewrite (read_L [] first items Hf). destruct Hf as (t & -> & Ht & _). destruct program_ok as (P1 & P2 & P3).
  assert (H0 : holds ([] : doc) []) by (split; [intros k s v []|split; [intros k s v' U; discriminate U|intros k s []]]).
  assert (N0 : names_ok (flat_map item_name items ++ map fst ([] : list (str * str * value)))) by (cbn [map]; rewrite app_nil_r; apply (names_sub [] [(S_ "Program", [])]); exact Hn).
  destruct (all_items items [S_ "#Program" ++ t] [] [] Hi H0 N0) as (d1 & done & -> & H1 & P); [right; eexists; reflexivity|]. rewrite app_nil_r in P.
  change (S_ "#Program" ++ t) with (written (S_ "Program") [] ++ t). rewrite (L_regular num idx (S_ "Program") [] t [] d1 P1 Ht P2 P3).
  assert (PN : Permutation (flat_map item_name items) (map fst done)).
  { apply (Permutation_map fst) in P. apply Permutation_sym in P. replace (flat_map item_name items) with (map fst (flat_map raw items)); [exact P|]. clear. induction items as [|i items IH]; [reflexivity|]. cbn [flat_map]. now rewrite map_app, raw_names, IH. }
  destruct (set_ok d1 done (S_ "Program") [] (regular num (join (S_ " ") (split_ws t))) H1) as (d2 & -> & (A1 & A2 & A3) & _); [apply (names_perm ((S_ "Program", []) :: flat_map item_name items)); [now constructor|exact Hn]|].
  cbn [bind]. exists (adjust d2). split; [reflexivity|]. split.
  - intros i k s v Ii Hs. rewrite Forall_forall in Hi. destruct (says_raw i k s v (Hi i Ii) Hs) as (w & Hw & <-). assert (Hd : In (k, s, w) done) by (apply (Permutation_in _ (Permutation_sym P)); apply in_flat_map; now exists i).
    destruct (A1 k s w (or_intror Hd)) as (v' & U & E). rewrite under_adjust, U. cbn [option_map]. now rewrite E.
  - intros k s v U. rewrite under_adjust in U. destruct (under d2 k s) as [v'|] eqn:E; [|discriminate]. destruct (A2 k s v' E) as [Q|Q]; [left; now symmetry|]. right. exact (Permutation_in _ (Permutation_sym PN) Q).
Qed.

(** Reading the same file again into the same object always fails. *)
Lemma set_keeps (d d' : doc) k s v p : set d k s v = Ok d' -> kind d p <> 0 -> kind d' p <> 0.
Proof.
  unfold set, store, kind. intros H K. assert (Q : exists e, d' = put d k e).
  { destruct s as [|c s]; [destruct (has d k); [discriminate|]; injection H as <-; eauto|]. destruct (get d k) as [[[]|e]|]; try discriminate; injection H as <-; eauto. }
  destruct Q as [e ->]. destruct (str_eq_dec p k) as [->|N]; [rewrite get_put_same; destruct e; discriminate|now rewrite get_put_other].
Qed.
Lemma below_again below rest d p : Forall data_line below -> kind d p <> 0 -> exists d', L (below ++ rest) d = L rest d' /\ kind d' p <> 0.
Proof.
  intro H. revert d. induction H as [|l below Hl H IH]; intros d Hd; [exists d; split; [reflexivity|exact Hd]|]. cbn [app]. destruct (L_stray num idx l (below ++ rest) d Hl) as [->| ->]; [exact (IH d Hd)|]. apply IH. now rewrite kind_adjust.
Qed.
Lemma items_again items : forall rest d, Forall (item_ok num idx) items -> kind d (S_ "Program") <> 0 -> edge rest ->
  (exists e, L (flat_map item_lines items ++ rest) d = Err e) \/ exists d', L (flat_map item_lines items ++ rest) d = L rest d' /\ kind d' (S_ "Program") <> 0.
Proof.
  induction items as [|i items IH]; intros rest d H Hd He; [right; exists d; split; [reflexivity|exact Hd]|].
  inversion H as [|x y Hi Hs]; subst. cbn [flat_map]. rewrite <- app_assoc. pose proof (edge_items items rest Hs He) as He'.
  destruct i as [l|k s t toks words vs below|k s t h cols ls rows|k s t ls rows]; cbn [item_lines app].
  - rewrite (L_remark num idx l _ d Hi). now apply IH.
  - destruct Hi as (N & A & T & M & _ & _ & _ & _ & B). rewrite (L_regular num idx k s t _ d N A T M). destruct (set d k s _) as [d1|e] eqn:S; [|left; now exists e]. cbn [bind]. 
    destruct (below_again below (flat_map item_lines items ++ rest) (adjust d1) (S_ "Program") B) as (d2 & -> & K2); [rewrite kind_adjust; exact (set_keeps _ _ _ _ _ _ S Hd)|]. now apply IH.
  - destruct Hi as (N & A & T & B & R & n & Q & Lb). rewrite (L_table num idx k s t h ls rows n _ d N A T B R Q He'). destruct (set d k s _) as [d1|e] eqn:S; [|left; now exists e]. cbn [bind]. apply IH; [exact Hs|exact (set_keeps _ _ _ _ _ _ S Hd)|exact He].
  - destruct Hi as (N & A & T & B & R & n & Q). rewrite (L_matrix num idx k s t ls rows n _ d N A T B R Q He'). destruct (set d k s _) as [d1|e] eqn:S; [|left; now exists e]. cbn [bind]. apply IH; [exact Hs|exact (set_keeps _ _ _ _ _ _ S Hd)|exact He].
Qed.
Theorem C103_again_refuted first (items : list item) d : file_ok num idx first items -> read num idx [] (file_lines first items) = Ok d ->
  exists e, read num idx d (file_lines first items) = Err e.
Proof.
  intros (Hi & Hn & Hf) R. rewrite (read_L d first items Hf). rewrite (read_L [] first items Hf) in R. destruct Hf as (t & -> & Ht & _). destruct program_ok as (P1 & P2 & P3).
  assert (K : kind d (S_ "Program") <> 0).
  { assert (H0 : holds ([] : doc) []) by (split; [intros k s v []|split; [intros k s v' U; discriminate U|intros k s []]]).
    assert (N0 : names_ok (flat_map item_name items ++ map fst ([] : list (str * str * value)))) by (cbn [map]; rewrite app_nil_r; apply (names_sub [] [(S_ "Program", [])]); exact Hn).
    destruct (all_items items [S_ "#Program" ++ t] [] [] Hi H0 N0) as (d1 & done & E & _); [right; eexists; reflexivity|]. rewrite E in R.
    change (S_ "#Program" ++ t) with (written (S_ "Program") [] ++ t) in R. rewrite (L_regular num idx (S_ "Program") [] t [] d1 P1 Ht P2 P3) in R. cbn [set] in R. destruct (has d1 (S_ "Program")); [discriminate|]. cbn [bind] in R. rewrite L_nil in R. injection R as <-.
    rewrite kind_adjust. unfold kind. rewrite get_put_same. discriminate. }
  destruct (items_again items [S_ "#Program" ++ t] d Hi K) as [[e ->]|(d' & -> & K')]; [right; eexists; reflexivity|now exists e|].
  change (S_ "#Program" ++ t) with (written (S_ "Program") [] ++ t). rewrite (L_regular num idx (S_ "Program") [] t [] d' P1 Ht P2 P3). cbn [set]. rewrite has_get. unfold kind in K'. destruct (get d' (S_ "Program")); [|contradiction]. now exists PlainException.
Qed.
(** No matrix is found as it is in the file. *)
Theorem C103_matrix_refuted first (items : list item) k s t ls rows d : file_ok num idx first items -> In (Matrix k s t ls rows) items -> read num idx [] (file_lines first items) = Ok d ->
  under d k s <> Some (Mat rows).
Proof.
  intros Hf Hi R. destruct (C103_read first items Hf) as (d' & R' & H & _). rewrite R in R'. injection R' as <-. pose proof Hf as (Ho & _). rewrite Forall_forall in Ho. pose proof (Ho _ Hi) as (_ & _ & _ & _ & F & n & [Q _]).
  destruct F as [|l1 r1 ls rows F1 F]; [contradiction|]. destruct F as [|l2 r2 ls rows F2 F].
  - rewrite (H _ k s _ Hi (says_matrix1 k s t l1 r1)). discriminate.
  - rewrite (H _ k s _ Hi (says_matrix k s t l1 l2 ls r1 r2 rows)). intro E. injection E as E1 E2. apply (f_equal (@List.length _)) in E2. cbn [List.length] in E2. lia.
Qed.
(** The mass and stiffness matrices of the blade are not found at all. *)
Theorem C103_blade_refuted first (items : list item) s t words below d : s = S_ "IsolatedMassMatrix" \/ s = S_ "IsolatedStiffnessMatrix" -> file_ok num idx first items ->
  In (Numbers (S_ "Blade") s t [] words [] below) items -> read num idx [] (file_lines first items) = Ok d -> under d (S_ "Blade") s = Some (Arr []).
Proof.
  intros _ Hf Hi R. destruct (C103_read first items Hf) as (d' & R' & H & _). rewrite R in R'. injection R' as <-. apply (H _ _ _ _ Hi). apply says_many. discriminate.
Qed.
(** A text without digits is replaced by an array without numbers. *)
Theorem C103_text_refuted first (items : list item) k s t words below d : file_ok num idx first items ->
  In (Numbers k s t [] words [] below) items -> read num idx [] (file_lines first items) = Ok d -> under d k s = Some (Arr []).
Proof.
  intros Hf Hi R. destruct (C103_read first items Hf) as (d' & R' & H & _). rewrite R in R'. injection R' as <-. apply (H _ _ _ _ Hi). apply says_many. discriminate.
Qed.
Lemma rx_some s : ~ no_digit s -> rx 0 s <> [].
Proof.
  induction s as [|c s IH]; intro H; [elim H; constructor|]. cbn [rx]. destruct (m_num (c :: s)) as [n|] eqn:E; [discriminate|]. apply IH. intro G. apply H. constructor; [|exact G]. intro D. apply digit_in in D.
  assert (M : m_sign (c :: s) = 0). { cbn [m_sign]. replace (mem_chr c (S_ "-+")) with false; [reflexivity|]. symmetry. apply not_true_is_false. intro M. apply mem_chr_iff in M. cbn in M. destruct M as [<-|[<-|[]]]; discriminate D. }
  unfold m_num in E. rewrite M in E. cbn [skipn] in E. unfold m_mant in E. cbn [take] in E. rewrite D in E. cbn [List.length skipn Nat.leb] in E. destruct (skipn _ s) as [|c' r']; [discriminate|].
  destruct (chr_eqb c' (ch 46)); [|discriminate]. destruct (List.length (take is_digit r')); discriminate.
Qed.
Lemma floats_length ws vs : floats num ws = Some vs -> List.length vs = List.length ws.
Proof. revert vs. induction ws as [|w ws IH]; intros vs H; cbn [floats] in H; [injection H as <-; reflexivity|]. destruct (num w); [|discriminate]. destruct (floats num ws) as [xs|]; [|discriminate]. injection H as <-. cbn [List.length]. now rewrite (IH xs eq_refl). Qed.
(** A number with a unit that has a digit in it is not found as a number. *)
Theorem C103_unit_refuted k s w u : name_ok k s -> ~ In (k, s) tables -> ~ In (k, s) matrices -> k <> S_ "Program" -> number_text w -> is_token w = true -> is_token u = true -> ~ no_digit u ->
  exists d, read num idx [] [S_ "#Program"; written k s ++ S_ " " ++ w ++ S_ " " ++ u] = Ok d /\ forall v, under d k s <> Some (Scal v).
Proof.
  intros Hn Ht Hm Hk Hw Tw Tu Hu. assert (F : exists t, S_ "#Program" = S_ "#Program" ++ t /\ after t /\ strip (S_ "#Program") = S_ "#Program") by (exists []; split; [reflexivity|split; [now left|reflexivity]]).
  unfold read. cbn [hd tl]. change (strip (S_ "#Program")) with (S_ "#Program"). change (startswith (S_ "#Program") (S_ "#Program")) with true. cbv iota. cbn [app].
  change (loop num idx (S (List.length [written k s ++ S_ " " ++ w ++ S_ " " ++ u; S_ "#Program"])) [written k s ++ S_ " " ++ w ++ S_ " " ++ u; S_ "#Program"] []) with (L [written k s ++ S_ " " ++ w ++ S_ " " ++ u; S_ "#Program"] []).
  rewrite (L_regular num idx k s _ _ [] Hn); [|right; eexists sp, _; split; reflexivity|exact Ht|exact Hm]. change (S_ " " ++ w ++ S_ " " ++ u) with (sp :: (w ++ sp :: u)). rewrite split_ws_blank_cons by reflexivity. rewrite split_ws_app by reflexivity. rewrite (split_ws_token w Tw), (split_ws_token u Tu). cbn [app join].
  set (v := regular num _). assert (NV : forall x, v <> Scal x).
  { intros x E. unfold v, regular in E. change (S_ " " ++ u) with (sp :: u) in E. rewrite (rx_token w (sp :: u) Hw (or_intror (ex_intro _ u eq_refl))), rx_blank in E. pose proof (rx_some u Hu) as N. destruct (rx 0 u) as [|y ys]; [contradiction|].
    destruct (floats num (w :: y :: ys)) as [vs|] eqn:Q; [|discriminate E]. apply floats_length in Q. destruct vs as [|a [|b vs]]; discriminate. }
  assert (H0 : holds ([] : doc) []) by (split; [intros k' s' v' []|split; [intros k' s' v' U; discriminate U|intros k' s' []]]).
  destruct (set_ok [] [] k s v H0) as (d1 & -> & H1 & _); [split; [constructor; [intros []|constructor]|]; intros k' s' [E|[]] [E'|[]]; congruence|]. cbn [bind].
  destruct program_ok as (P1 & P2 & P3). change (S_ "#Program") with (written (S_ "Program") [] ++ []). rewrite (L_regular num idx (S_ "Program") [] [] [] (adjust d1) P1 (or_introl eq_refl) P2 P3).
  apply holds_adjust in H1. destruct (set_ok (adjust d1) [(k, s, v)] (S_ "Program") [] (regular num (join (S_ " ") (split_ws []))) H1) as (d2 & -> & (A & _) & _).
  { cbn [map fst]. split; [constructor; [|constructor; [intros []|constructor]]|]; [intros [E|[]]; congruence|]. intros k' s' [E|[E|[]]] [E'|[E'|[]]]; congruence. }
  cbn [bind]. exists (adjust d2). split; [reflexivity|]. intros x U. rewrite under_adjust in U. destruct (A k s v (or_intror (or_introl eq_refl))) as (v' & U' & E). rewrite U' in U. cbn [option_map] in U. injection U as U. rewrite E in U. revert U. unfold norm. destruct (_ && _); [|apply NV].
  destruct v as [y| | | |c r] eqn:Y; cbn [tidyv]; try discriminate; [intro; apply (NV y); reflexivity|]. destruct (_ && _); discriminate.
Qed.
(** A file that does not start with the mark is refused. *)
Theorem C103_other_file d first rest : (forall t, strip first <> S_ "#Program" ++ t) -> read num idx d (first :: rest) = Err WrongFormatError.
Proof. intro H. unfold read. cbn [hd]. destruct (startswith (strip first) (S_ "#Program")) eqn:E; [|reflexivity]. apply startswith_iff in E. destruct E as [t E]. elim (H t E). Qed.
End Read.

(** * Data frames *)
Section Frames.
Context {V : Type}.
Variable num : str -> option V.
Variable idx : nat -> V.
Notation value := (@value V).
Notation doc := (@doc V).
Definition not_frame (v : value) : Prop := match v with Frame _ _ => False | _ => True end.
Definition entry_wf (e : entry (V := V)) : Prop := match e with Many m => NoDup (map fst m) | One v => not_frame v end.
Definition wf (d : doc) : Prop := NoDup (map fst d) /\ Forall (fun e => ~ In "_"%char (fst e) /\ entry_wf (snd e)) d.
Lemma put_nodup {W} (d : @dict W) k v : NoDup (map fst d) -> NoDup (map fst (put d k v)).
Proof.
  intro H. rewrite put_keys. destruct (has d k) eqn:E; [exact H|]. apply (Permutation_NoDup (l := k :: map fst d)); [apply Permutation_cons_append|]. constructor; [|exact H]. intro G. apply has_in in G. congruence.
Qed.
Lemma put_forall {W} (P : str * W -> Prop) (d : @dict W) k v : Forall P d -> P (k, v) -> Forall P (put d k v).
Proof. intros H Hk. induction H as [|[k' v'] d Hx H IH]; cbn [put]; [now constructor|]. cbn [fst]. destruct (str_eqb k' k); constructor; assumption. Qed.
Lemma get_cons {W} (d : @dict W) k v k' : get ((k, v) :: d) k' = if str_eqb k k' then Some v else get d k'.
Proof. unfold get. cbn [find fst]. destruct (str_eqb k k'); reflexivity. Qed.
Lemma wf_put d k e : wf d -> ~ In "_"%char k -> entry_wf e -> wf (put d k e).
Proof. intros [H1 H2] Hk He. split; [now apply put_nodup|]. now apply put_forall. Qed.
Lemma wf_many d k e : wf d -> get d k = Some (Many e) -> NoDup (map fst e) /\ ~ In "_"%char k.
Proof. intros [_ H] G. apply get_some_in in G. rewrite Forall_forall in H. destruct (H _ G) as [H1 H2]. split; [exact H2|exact H1]. Qed.
Lemma wf_store d k s v d' : wf d -> ~ In "_"%char k -> store d k s v = Ok d' -> wf d'.
Proof.
  intros H Hk. unfold store. destruct (get d k) as [[[]|e]|] eqn:G; intro E; try discriminate E; injection E as <-.
  - apply wf_put; [exact H|exact Hk|]. cbn [entry_wf]. apply put_nodup. now apply (wf_many d k e H G).
  - apply wf_put; [exact H|exact Hk|]. cbn. constructor; [intros []|constructor].
Qed.
Lemma keys_us w : ~ In "_"%char (fst (keys_of w)).
Proof.
  unfold keys_of, split_chr. assert (F : match split_on (fun x => chr_eqb x (ch 95)) w with k :: _ => ~ In "_"%char k | [] => True end).
  { induction w as [|c w IH]; [intros []|]. cbn [split_on]. destruct (chr_eqb c (ch 95)) eqn:E; [intros []|]. destruct (split_on _ w) as [|a l]; [intros [->|[]]; discriminate E|]. intros [->|G]; [discriminate E|exact (IH G)]. }
  destruct (split_on (fun x => chr_eqb x (ch 95)) w) as [|k ks]; [intros []|]. cbn [fst]. intro G. apply F. destruct k as [|c k]; [exact G|]. right. exact G.
Qed.
Lemma wf_adjust d : wf d -> wf (adjust d).
Proof.
  intro H. destruct (adjust_view d) as [E|(e & cols & rows & E1 & E2 & ->)]; [now rewrite <- E|]. destruct (wf_many d _ e H E1) as [N K]. apply wf_put; [exact H|exact K|]. cbn [entry_wf]. now apply put_nodup.
Qed.
Lemma regular_not_frame s : not_frame (regular num s).
Proof. unfold regular. destruct (floats num (rx 0 s)) as [[|v [|v2 vs]]|]; exact I. Qed.
Lemma wf_regular d ws d' : wf d -> store_regular num d ws = Ok d' -> wf d'.
Proof.
  intros H. unfold store_regular. destruct (keys_of (hd [] ws)) as [k s] eqn:E. assert (Hk : ~ In "_"%char k) by (pose proof (keys_us (hd [] ws)) as K; now rewrite E in K).
  destruct (nonempty (strip k)); [|intro Q; now injection Q as <-]. destruct (nonempty s); [now apply wf_store|]. destruct (has d k); [discriminate|]. intro Q. injection Q as <-. apply wf_put; [exact H|exact Hk|]. apply regular_not_frame.
Qed.
Lemma wf_loop n : forall lines d d', wf d -> loop num idx n lines d = Ok d' -> wf d'.
Proof.
  induction n as [|n IH]; intros lines d d' H; [discriminate|]. destruct lines as [|l rest]; [intro Q; now injection Q as <-|]. cbn [FlexDoc_Model.loop].
  destruct (negb (nonempty (strip l))); [now apply IH|]. destruct (startswith l (S_ "###")); [now apply IH|]. destruct (startswith l (S_ "#")); [|apply IH; now apply wf_adjust].
  destruct (listed (hd [] (split_ws l)) ArraysHeader).
  - destruct rest as [|h rest]; [discriminate|]. destruct (array_lines rest) as [a b]. destruct (rows_of _ a) as [rows|]; [|discriminate]. cbn [bind]. destruct (np_array rows) as [M|]; [|discriminate]. cbn [bind]. destruct (make_frame h M) as [f|]; [|discriminate]. cbn [bind].
    destruct (store d _ _ f) as [d1|] eqn:S; [|discriminate]. cbn [bind]. apply IH. apply (wf_store d _ _ f d1 H (keys_us _) S).
  - destruct (listed (hd [] (split_ws l)) ArraysNoHeader).
    + destruct rest as [|h rest]; [discriminate|]. destruct (array_lines rest) as [a b]. destruct (rows_of _ a) as [rows|]; [|discriminate]. cbn [bind]. destruct (np_array rows) as [M|]; [|discriminate]. cbn [bind].
      destruct (store d _ _ _) as [d1|] eqn:S; [|discriminate]. cbn [bind]. apply IH. apply (wf_store d _ _ _ d1 H (keys_us _) S).
    + destruct (store_regular num d (split_ws l)) as [d1|] eqn:S; [|discriminate]. cbn [bind]. apply IH. apply wf_adjust. exact (wf_regular d _ d1 H S).
Qed.
Lemma wf_read d file d' : wf d -> read num idx d file = Ok d' -> wf d'.
Proof. intro H. unfold read. destruct (startswith _ _); [|discriminate]. now apply wf_loop. Qed.

Notation frames := (@dict (list str * list (list V))).
Definition add_frame (k : str) (acc : frames) (e2 : str * value) : frames := match snd e2 with Frame c r => put acc (k ++ S_ "_" ++ fst e2) (c, r) | _ => acc end.
Definition add_entry (acc : frames) (e : str * entry (V := V)) : frames := match snd e with One (Frame c r) => put acc (fst e) (c, r) | One _ => acc | Many m => fold_left (add_frame (fst e)) m acc end.
Lemma frames_def d : toDataFrame d = fold_left add_entry d [].
Proof. reflexivity. Qed.
Definition join2 (k s : str) : str := k ++ S_ "_" ++ s.
Lemma join2_inj k s k' s' : ~ In "_"%char k -> ~ In "_"%char k' -> join2 k s = join2 k' s' -> k = k' /\ s = s'.
Proof.
  unfold join2. revert k'. induction k as [|c k IH]; intros k' H H' E; destruct k' as [|c' k'].
  - split; [reflexivity|]. now injection E.
  - injection E as E _. elim H'. now left.
  - injection E as E _. elim H. now left.
  - injection E as -> E. destruct (IH k') as [-> ->]; [intro; apply H; now right|intro; apply H'; now right|exact E|]. auto.
Qed.
Lemma add_frames_get k m acc k' s' : ~ In "_"%char k -> ~ In "_"%char k' -> NoDup (map fst m) ->
  get (fold_left (add_frame k) m acc) (join2 k' s') = match (if str_eqb k k' then get m s' else None) with Some (Frame c r) => Some (c, r) | _ => get acc (join2 k' s') end.
Proof.
  intros Hk Hk'. revert acc. induction m as [|[s v] m IH]; intros acc N; [cbn [fold_left]; destruct (str_eqb k k'); reflexivity|]. cbn [map fst] in N. inversion N as [|x y N1 N2]; subst. cbn [fold_left]. rewrite (IH _ N2).
  assert (G0 : get (add_frame k acc (s, v)) (join2 k' s') = match (if str_eqb k k' && str_eqb s s' then Some v else None) with Some (Frame c r) => Some (c, r) | _ => get acc (join2 k' s') end).
  { unfold add_frame. cbn [fst snd]. destruct (str_eqb k k' && str_eqb s s') eqn:E.
    - apply andb_true_iff in E. rewrite !str_eqb_eq in E. destruct E as [-> ->]. destruct v; try reflexivity. apply get_put_same.
    - destruct v; try reflexivity. apply get_put_other. intro Q. change (k ++ S_ "_" ++ s) with (join2 k s) in Q. destruct (join2_inj k' s' k s Hk' Hk Q) as [-> ->]. rewrite !str_eqb_refl in E. discriminate. }
  rewrite G0. destruct (str_eqb k k'); [|reflexivity]. cbn [andb]. rewrite get_cons. destruct (str_eqb s s') eqn:E; [|reflexivity].
  apply str_eqb_eq in E. subst s'. replace (get m s) with (@None value); [reflexivity|]. symmetry. destruct (get m s) as [w|] eqn:Q; [|reflexivity]. exfalso. apply N1. apply get_some_in in Q. apply (in_map fst) in Q. exact Q.
Qed.
Lemma all_frames_get d acc k s : ~ In "_"%char k -> wf d ->
  get (fold_left add_entry d acc) (join2 k s) = match get d k with Some (Many e) => match get e s with Some (Frame c r) => Some (c, r) | _ => get acc (join2 k s) end | _ => get acc (join2 k s) end.
Proof.
  intro Hk. revert acc. induction d as [|[k0 e0] d IH]; intros acc [N F]; [reflexivity|]. cbn [map fst] in N. inversion N as [|x y N1 N2]; subst. inversion F as [|x y [F1 F2] F3]; subst. cbn [fst snd] in *. cbn [fold_left].
  rewrite (IH _ (conj N2 F3)). assert (G0 : get (add_entry acc (k0, e0)) (join2 k s) = match (if str_eqb k0 k then Some e0 else None) with Some (Many e) => match get e s with Some (Frame c r) => Some (c, r) | _ => get acc (join2 k s) end | _ => get acc (join2 k s) end).
  { unfold add_entry. cbn [fst snd]. destruct e0 as [v|m]; [destruct v; cbn in F2; try contradiction; destruct (str_eqb k0 k); reflexivity|]. cbn [entry_wf] in F2. rewrite (add_frames_get k0 m acc k s F1 Hk F2). destruct (str_eqb k0 k); reflexivity. }
  rewrite G0, get_cons. destruct (str_eqb k0 k) eqn:E; [|reflexivity]. apply str_eqb_eq in E. subst k0.
  replace (get d k) with (@None (entry (V := V))); [reflexivity|]. symmetry. destruct (get d k) as [w|] eqn:Q; [|reflexivity]. exfalso. apply N1. apply get_some_in in Q. apply (in_map fst) in Q. exact Q.
Qed.
(** After any reading, the data frames are the tables of the object, called by both parts of their names. *)
Theorem C103_frames file d k s c r : read num idx [] file = Ok d -> ~ In "_"%char k -> s <> [] ->
  (get (toDataFrame d) (k ++ S_ "_" ++ s) = Some (c, r) <-> under d k s = Some (Frame c r)).
Proof.
  intros R Hk Hs. assert (W : wf d) by (apply (wf_read [] file d); [split; constructor|exact R]). rewrite frames_def. change (k ++ S_ "_" ++ s) with (join2 k s). rewrite (all_frames_get d [] k s Hk W). unfold under. destruct s as [|c0 s]; [contradiction|].
  destruct (get d k) as [[v|e]|]; [split; discriminate| |split; discriminate]. destruct (get e (c0 :: s)) as [[| | | |c' r']|]; try (split; discriminate). split; intro E; injection E as -> ->; reflexivity.
Qed.
End Frames.

(** * Examples *)
Definition toy (w : str) : option nat := if forallb is_digit w && nonempty w then Some (fold_left (fun a c => 10 * a + (ord c - 48)) w 0) else None.
Definition ex_items : list (item nat) :=
  [Remark (S_ "### Towers"); Numbers (S_ "Tower") (S_ "Length") (S_ "  10 [m]") [S_ "10"] [S_ "[m]"] [10] []; Numbers (S_ "Rotor") (S_ "Pitch_Offset") (S_ " 1 2 3 [deg]") [S_ "1"; S_ "2"; S_ "3"] [S_ "[deg]"] [1; 2; 3] [];
   Table (S_ "Tower") (S_ "SectionData") [] (S_ "2  h[m]   D [mm]  rough ") [S_ "h_[m]"; S_ "D_[mm]"; S_ "rough_[-]"] [S_ " 0 5 0"; S_ " 10 4 0"] [[0; 5; 0]; [10; 4; 0]];
   Remark [];
   Matrix (S_ "EVA") (S_ "MassMatrix") [] [S_ " 7 8"; S_ " 8 7"] [[7; 8]; [8; 7]];
   Numbers (S_ "Blade") (S_ "IsolatedMassMatrix") (S_ " (Blade system)") [] [S_ "(Blade"; S_ "system)"] [] [S_ " 1 2"; S_ " 3 4"];
   Table (S_ "Global") (S_ "Mode1_Shape") (S_ " (Extracted)") (S_ " x a b") [S_ "C0"; S_ "C1"; S_ "C2"; S_ "C3"] [S_ "Fnd 0 1 2"; S_ "Twr 5 6 7"] [[0; 0; 1; 2]; [1; 5; 6; 7]]].
Lemma number_digits w : w <> [] -> digits w -> number_text w.
Proof. intros H1 H2. exists [], w, []. split; [now rewrite app_nil_r|]. split; [now left|]. split; [left; auto|now left]. Qed.
Lemma digitsb w : forallb (fun c => mem_chr c (S_ "0123456789")) w = true -> digits w.
Proof. intro H. apply Forall_forall. intros c Hc. rewrite forallb_forall in H. apply mem_chr_iff, H, Hc. Qed.
Lemma no_digitb w : forallb (fun c => negb (mem_chr c (S_ "0123456789"))) w = true -> no_digit w.
Proof. intro H. apply Forall_forall. intros c Hc. rewrite forallb_forall in H. specialize (H c Hc). apply negb_true_iff in H. intro G. apply mem_chr_iff in G. congruence. Qed.
Lemma name_okb k s : is_token k && negb (mem_chr "_"%char k) && negb (mem_chr "#"%char k) && (negb (nonempty s) || is_token s) && negb (mem_chr "#"%char s) = true -> name_ok k s.
Proof.
  rewrite !andb_true_iff, orb_true_iff, !negb_true_iff. intros ((((H1 & H2) & H3) & H4) & H5). assert (M : forall c x, mem_chr c x = false -> ~ In c x) by (intros c x E G; apply mem_chr_iff in G; congruence).
  split; [exact H1|]. split; [now apply M|]. split; [now apply M|]. split; [|now apply M]. destruct H4 as [H4|H4]; [left; now destruct s|now right].
Qed.
Lemma not_in_b p l : existsb (pair_eqb p) l = false -> ~ In p l.
Proof. intros H G. assert (existsb (pair_eqb p) l = true); [|congruence]. apply existsb_exists. exists p. split; [exact G|]. now apply pair_eqb_eq. Qed.
Lemma in_b p l : existsb (pair_eqb p) l = true -> In p l.
Proof. intro H. apply existsb_exists in H. destruct H as (q & Hq & E). apply pair_eqb_eq in E. now subst. Qed.
Ltac lines := repeat constructor; eexists _, _; (split; [reflexivity|discriminate]).
Example ex_file_ok : file_ok toy (fun i => i) (S_ "#Program  Flex5") ex_items.
Proof.
  split; [|split].
  - unfold ex_items. constructor; [now right|]. constructor.
    { split; [apply name_okb; reflexivity|]. split; [right; eexists _, _; split; reflexivity|]. split; [apply not_in_b; vm_compute; reflexivity|]. split; [apply not_in_b; vm_compute; reflexivity|]. split; [reflexivity|].
      split; [repeat constructor; apply number_digits; [discriminate|apply digitsb; reflexivity]|]. split; [repeat constructor|]. split; [repeat (apply Forall_cons; [apply no_digitb; reflexivity|]); constructor|constructor]. }
    constructor.
    { split; [apply name_okb; reflexivity|]. split; [right; eexists _, _; split; reflexivity|]. split; [apply not_in_b; vm_compute; reflexivity|]. split; [apply not_in_b; vm_compute; reflexivity|]. split; [reflexivity|].
      split; [repeat (apply Forall_cons; [apply number_digits; [discriminate|apply digitsb; reflexivity]|]); constructor|]. split; [repeat constructor|]. split; [repeat (apply Forall_cons; [apply no_digitb; reflexivity|]); constructor|constructor]. }
    constructor.
    { split; [apply name_okb; reflexivity|]. split; [now left|]. split; [apply in_b; vm_compute; reflexivity|]. split; [lines|]. split.
      { assert (C : forall w v, forallb is_digit w = true -> toy w = Some v -> cell toy (fun i => i) w v) by (intros w v D T; right; right; right; split; [intros ->; discriminate|split; [intros ->; discriminate|split; [intros ->; discriminate|exact T]]]).
        repeat (apply Forall2_cons || apply Forall2_nil || (apply C; vm_compute; reflexivity)). }
      exists 3. split; [split; [discriminate|repeat constructor]|].
      apply (by_units (S_ "2 ") [mk_col 1 (S_ "h") 0 (Some (S_ "m")); mk_col 3 (S_ "D") 1 (Some (S_ "mm")); mk_col 2 (S_ "rough") 0 None] 1).
      - right. exists 0, 2%N. reflexivity.
      - discriminate.
      - eexists. split; [reflexivity|]. exists "h"%char. split; [now left|cbn; intuition discriminate].
      - left. discriminate.
      - assert (P : forall w, is_token w && negb (mem_chr "["%char w) && negb (mem_chr "]"%char w) && negb (contains w (S_ "__")) && negb (contains w (S_ "rough")) = true -> plain_word w).
        { intros w. rewrite !andb_true_iff, !negb_true_iff. intros ((((A & B) & C) & D) & E). split; [exact A|]. split; [intro G; apply mem_chr_iff in G; congruence|]. split; [intro G; apply mem_chr_iff in G; congruence|]. split; now apply nowhere_contains. }
        constructor; [|constructor; [|constructor; [|constructor]]].
        + split; [cbn; lia|]. split; [cbn; lia|]. split; [apply P; vm_compute; reflexivity|]. split; [apply P; vm_compute; reflexivity|]. exists [], "h"%char. split; [reflexivity|]. split; discriminate.
        + split; [cbn; lia|]. split; [cbn; lia|]. split; [apply P; vm_compute; reflexivity|]. split; [apply P; vm_compute; reflexivity|]. exists [], "D"%char. split; [reflexivity|]. split; discriminate.
        + split; [cbn; lia|]. split; [cbn; lia|]. reflexivity. }
    constructor; [now left|]. constructor.
    { split; [apply name_okb; reflexivity|]. split; [now left|]. split; [apply in_b; vm_compute; reflexivity|]. split; [lines|]. split; [repeat constructor|]. exists 2. split; [discriminate|repeat constructor]. }
    constructor.
    { split; [apply name_okb; reflexivity|]. split; [right; eexists _, _; split; reflexivity|]. split; [apply not_in_b; vm_compute; reflexivity|]. split; [apply not_in_b; vm_compute; reflexivity|]. split; [reflexivity|].
      split; [constructor|]. split; [constructor|]. split; [repeat (apply Forall_cons; [apply no_digitb; reflexivity|]); constructor|lines]. }
    constructor; [|constructor].
    { split; [apply name_okb; reflexivity|]. split; [right; eexists _, _; split; reflexivity|]. split; [apply in_b; vm_compute; reflexivity|]. split; [lines|]. split.
      { assert (C : forall w v, forallb is_digit w = true -> toy w = Some v -> cell toy (fun i => i) w v) by (intros w v D T; right; right; right; split; [intros ->; discriminate|split; [intros ->; discriminate|split; [intros ->; discriminate|exact T]]]).
        repeat (apply Forall2_cons || apply Forall2_nil || (apply C; vm_compute; reflexivity) || (left; split; reflexivity) || (right; left; split; reflexivity)). }
      exists 4. split; [split; [discriminate|repeat constructor]|]. apply (by_number (S_ " x a b") 4); [cbn; intuition discriminate|]. left. exists (S_ "x"), [S_ "a"; S_ "b"]. split; [reflexivity|]. split; [exists "x"%char; split; [now left|cbn; intuition discriminate]|discriminate]. }
  - split.
    + cbn [flat_map item_name ex_items app]. repeat (apply NoDup_cons; [apply not_in_b; vm_compute; reflexivity|]). apply NoDup_nil.
    + intros k s H1 H2. cbn [flat_map item_name ex_items app In] in H1, H2. repeat destruct H1 as [H1|H1]; try discriminate H1; try contradiction. injection H1 as <-. repeat destruct H2 as [H2|H2]; try discriminate H2; try contradiction. now injection H2.
  - exists (S_ "  Flex5"). split; [reflexivity|]. split; [right; eexists _, _; split; reflexivity|reflexivity].
Qed.
Example ex_read : exists d, read toy (fun i => i) [] (file_lines (S_ "#Program  Flex5") ex_items) = Ok d /\ under d (S_ "Tower") (S_ "Length") = Some (Scal 10) /\
  under d (S_ "Tower") (S_ "SectionData") = Some (Frame [S_ "h_[m]"; S_ "D_[mm]"; S_ "rough_[-]"] [[0; 5; 0]; [10; 4; 0]]) /\ under d (S_ "EVA") (S_ "MassMatrix") = Some (Mat [[8; 7]]) /\
  under d (S_ "Global") (S_ "Mode1_Shape") = Some (Frame [S_ "H_[m]"; S_ "U_FA_[-]"; S_ "U_SS_[]"] [[0; 1; 2]; [5; 6; 7]]) /\ under d (S_ "Blade") (S_ "IsolatedMassMatrix") = Some (Arr []).
Proof. eexists. split; [vm_compute; reflexivity|]. vm_compute. repeat split. Qed.
(** The gravity of the example file of the project: 9.81 with unit m/s2 *)
Example ex_unit : name_ok (S_ "Environment") (S_ "Gravity") /\ number_text (S_ "9.81") /\ ~ no_digit (S_ "[m/s2]") /\ rx 0 (S_ "9.81 [m/s2]") = [S_ "9.81"; S_ "2"].
Proof.
  split; [apply name_okb; reflexivity|]. split; [exists [], (S_ "9.81"), []; split; [reflexivity|]; split; [now left|]; split; [right; right; exists (S_ "9"), (S_ "81"); split; [reflexivity|]; split; [apply digitsb; reflexivity|]; split; [apply digitsb; reflexivity|discriminate]|now left]|].
  split; [|vm_compute; reflexivity]. intro H. unfold no_digit in H. rewrite Forall_forall in H. apply (H "2"%char); cbn; auto 20.
Qed.

Print Assumptions C103_read.
Print Assumptions C103_again_refuted.
Print Assumptions C103_matrix_refuted.
Print Assumptions C103_blade_refuted.
Print Assumptions C103_text_refuted.
Print Assumptions C103_unit_refuted.
Print Assumptions C103_other_file.
Print Assumptions C103_frames.
