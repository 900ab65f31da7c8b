(** Property C98: the column names of the data frame of a HAWC2 result file. *)
From Coq Require Import Lia.
From Verif Require Import Py PyFacts TextFacts ListFacts Registry_Model H2io_Model H2io_Proofs H2dat_Model H2dat_Props.
Local Open Scope nat_scope.

(** ** Specification *)
Definition all_digits (s : str) : Prop := s <> [] /\ forallb is_digit s = true.
Definition no_digit_first (r : str) : Prop := forall c t, r = c :: t -> is_digit c = false.
(** The description has the keyword nowhere, or once, followed by blanks and the value *)
Definition field (key : str) (is_value : str -> str -> Prop) (desc : str) (v : option str) : Prop :=
  match v with
  | None => nowhere key desc
  | Some x => exists a b r, desc = a ++ key ++ b ++ x ++ r /\ forallb is_space b = true /\ is_value x r /\ nowhere key a /\ nowhere key (b ++ x ++ r)
  end.
(** A whole number; a number with a point; a number with a point and the unit; the name of a body and a blank *)
Definition whole (x r : str) : Prop := all_digits x /\ no_digit_first r.
Definition point (x r : str) : Prop := exists i d, x = i ++ S_ "." ++ d /\ all_digits i /\ all_digits d /\ no_digit_first r.
Definition metres (x r : str) : Prop := exists r', r = S_ "[m]" ++ r' /\ point x r.
Definition body_char (c : ascii) : Prop := In c (list_ascii_of_string "-abcdefghijklmnopqrstuvwxyzABCDEFGHIJKLMNOPQRSTUVWXYZ0123456789_.").
Definition body (x r : str) : Prop := Forall body_char x /\ exists r', r = S_ " " ++ r'.
(** The name without its blanks *)
Definition unblanked (n : str) : str := filter (fun c => negb (chr_eqb c " "%char)) n.
Definition no_space (s : str) : bool := forallb (fun c => negb (is_space c)) s.
(** A text is abbreviated where it occurs; it occurs at most once *)
Definition abbreviated (long short q w : str) : Prop :=
  (nowhere long q /\ w = q) \/ exists x y, q = x ++ long ++ y /\ nowhere long (x ++ removelast long) /\ nowhere long y /\ w = x ++ short ++ y.
(** The name in the frame: without blanks, and with the four abbreviations *)
Definition shown (name : str) (bdy : option str) (w : str) : Prop :=
  no_space (unblanked name) = true /\
  exists q1 q2 q3, abbreviated (S_ "coo:global") (S_ "g") (unblanked name) q1 /\ abbreviated (S_ "Statepos") [] q1 q2 /\ abbreviated (S_ "axisangle") (S_ "rot_") q2 q3 /\
    match bdy with None => w = q3 | Some b => abbreviated (S_ "coo:" ++ b) (S_ "b") q3 w end.
(** The node of an element: [e] and the position 0 along it is node [e], position 1 is node [e+1] *)
Definition node_text (zrel_text : Z -> str -> str) (e : N) (v : zval) (z : str) : str :=
  match v with Z0 => str_of_N e | Z1 => str_of_N (e + 1) | Zother => zrel_text (Z.of_N e) z end.
Definition opt (o : option str) : str := match o with Some s => s | None => [] end.

(** ** Occurrences *)
Lemma nowhere_cons sub c s : nowhere sub (c :: s) -> nowhere sub s.
Proof. intros H a b E. apply (H (c :: a) b). rewrite E. reflexivity. Qed.
Lemma nowhere_start sub s : nowhere sub s -> startswith s sub = false.
Proof. intro H. apply not_true_is_false. intro G. apply startswith_iff in G. destruct G as [t G]. exact (H [] t G). Qed.
Lemma replace_nowhere pat rep s : nowhere pat s -> replace_ pat rep s = s.
Proof.
  unfold replace_. induction s as [|c s IH]; intro H; [reflexivity|]. cbn [repl]. rewrite (nowhere_start _ _ H). rewrite IH; [reflexivity|]. exact (nowhere_cons _ _ _ H).
Qed.
Lemma repl_skip pat rep a s : repl pat rep (List.length a) (a ++ s) = repl pat rep 0 s.
Proof. induction a as [|c a IH]; [reflexivity|]. exact IH. Qed.
Lemma startswith_cut s t p : List.length p <= List.length s -> startswith (s ++ t) p = startswith s p.
Proof.
  revert s. induction p as [|c p IH]; intros s H; [destruct s, t; reflexivity|]. destruct s as [|d s]; [cbn in H; lia|]. cbn [app startswith]. rewrite IH by (cbn in H; lia). reflexivity.
Qed.
(** The first occurrence is the only one *)
Lemma replace_once pat rep x y : pat <> [] -> nowhere pat (x ++ removelast pat) -> nowhere pat y -> replace_ pat rep (x ++ pat ++ y) = x ++ rep ++ y.
Proof.
  intros Hp Hx Hy. unfold replace_. induction x as [|c x IH].
  - destruct pat as [|p pat]; [contradiction|]. cbn [app repl]. change (p :: pat ++ y) with ((p :: pat) ++ y). rewrite startswith_app. cbn [List.length]. rewrite Nat.sub_succ, Nat.sub_0_r, repl_skip. f_equal. apply (replace_nowhere _ _ _ Hy).
  - cbn [app repl]. replace (startswith (c :: x ++ pat ++ y) pat) with false; [rewrite IH by exact (nowhere_cons _ _ _ Hx); reflexivity|]. symmetry.
    destruct (exists_last Hp) as (p0 & z & Ez). assert (R : removelast pat = p0) by (rewrite Ez; apply removelast_last). rewrite R in *.
    replace (c :: x ++ pat ++ y) with (((c :: x) ++ p0) ++ (z :: y)) by (rewrite Ez; cbn [app]; now rewrite <- !app_assoc).
    rewrite startswith_cut; [now apply nowhere_start|]. rewrite Ez, !app_length. cbn [List.length]. lia.
Qed.
Lemma replace_blank n : replace_ (S_ " ") [] n = unblanked n.
Proof.
  unfold replace_. induction n as [|c n IH]; [reflexivity|]. cbn [unblanked filter]. change (repl (S_ " ") [] 0 (c :: n)) with (if chr_eqb c " "%char && true then repl (S_ " ") [] 0 n else c :: repl (S_ " ") [] 0 n).
  rewrite IH. fold (unblanked n). destruct (chr_eqb c " "%char); reflexivity.
Qed.

Lemma findall_nowhere lit m k s : nowhere lit s -> findall lit m k s = [].
Proof.
  revert k. induction s as [|c s IH]; intros k H; [reflexivity|]. cbn [findall]. destruct k; [rewrite (nowhere_start _ _ H)|]; apply IH; exact (nowhere_cons _ _ _ H).
Qed.
Lemma findall_skip lit m a s : findall lit m (List.length a) (a ++ s) = findall lit m 0 s.
Proof. induction a as [|c a IH]; [reflexivity|]. exact IH. Qed.
(** The last character of the keyword is nowhere else in it, so occurrences do not overlap *)
Lemma findall_first lit0 z m a r : ~ In z lit0 -> nowhere (lit0 ++ [z]) a ->
  findall (lit0 ++ [z]) m 0 (a ++ (lit0 ++ [z]) ++ r) = findall (lit0 ++ [z]) m 0 ((lit0 ++ [z]) ++ r).
Proof.
  intros Hz. induction a as [|c a IH]; intro H; [reflexivity|]. change ((c :: a) ++ (lit0 ++ [z]) ++ r) with (c :: (a ++ (lit0 ++ [z]) ++ r)). cbn [findall].
  replace (startswith (c :: a ++ (lit0 ++ [z]) ++ r) (lit0 ++ [z])) with false; [apply IH; exact (nowhere_cons _ _ _ H)|]. symmetry. apply not_true_is_false. intro G. apply startswith_iff in G. destruct G as [t G].
  change (c :: a ++ (lit0 ++ [z]) ++ r) with ((c :: a) ++ (lit0 ++ [z]) ++ r) in G.
  destruct (le_lt_dec (List.length (lit0 ++ [z])) (List.length (c :: a))) as [L|L].
  - assert (G1 := f_equal (firstn (List.length (lit0 ++ [z]))) G). rewrite firstn_app in G1. rewrite (firstn_app _ (lit0 ++ [z]) t), firstn_all, Nat.sub_diag in G1. replace (List.length (lit0 ++ [z]) - List.length (c :: a)) with 0 in G1 by lia. cbn [firstn] in G1. rewrite !app_nil_r in G1.
    apply (H [] (skipn (List.length (lit0 ++ [z])) (c :: a))). cbn [app]. rewrite <- G1 at 1. symmetry. apply firstn_skipn.
  - (* the last character of the occurrence falls inside the keyword *)
    apply Hz. assert (G1 := f_equal (fun l => nth_error l (List.length lit0)) G). cbv beta in G1. rewrite <- (app_assoc lit0 [z] t) in G1. rewrite (nth_error_app2 lit0) in G1 by lia. rewrite Nat.sub_diag in G1. cbn [app nth_error] in G1.
    rewrite app_length in L. cbn [List.length] in L. assert (N := f_equal (@nth_error _ ((c :: a) ++ (lit0 ++ [z]) ++ r)) (eq_refl (List.length lit0))).
    change (c :: a ++ (lit0 ++ [z]) ++ r) with ((c :: a) ++ (lit0 ++ [z]) ++ r) in G1. rewrite nth_error_app2 in G1 by (cbn [List.length]; lia). rewrite <- app_assoc in G1. rewrite nth_error_app1 in G1 by (cbn [List.length]; lia). apply nth_error_In in G1. exact G1.
Qed.
Lemma findall_here lit m r g n s : lit <> [] -> m r = Some (g, n) -> n <= List.length r -> s = lit ++ r -> nowhere lit r -> findall lit m 0 s = [g].
Proof.
  intros Hl Hm Hn -> Hr. destruct lit as [|c lit]; [contradiction|]. cbn [app findall]. change (c :: lit ++ r) with ((c :: lit) ++ r). rewrite startswith_app. rewrite skipn_app, skipn_all, Nat.sub_diag. cbn [app skipn]. rewrite Hm. f_equal.
  cbn [List.length]. replace (S (List.length lit) + n - 1) with (List.length (lit ++ firstn n r)) by (rewrite app_length, firstn_length; lia). rewrite <- (firstn_skipn n r) at 2. rewrite app_assoc, findall_skip. apply findall_nowhere.
  intros a b E. apply (Hr (firstn n r ++ a) b). rewrite <- app_assoc, <- E. symmetry. apply firstn_skipn.
Qed.

(** ** Values *)
Lemma take_all p x r : forallb p x = true -> (forall c t, r = c :: t -> p c = false) -> take p (x ++ r) = x.
Proof.
  induction x as [|c x IH]; intros H Hr; cbn [app take].
  - destruct r as [|c t]; [reflexivity|]. cbn [take]. now rewrite (Hr c t eq_refl).
  - cbn [forallb] in H. apply andb_true_iff in H. destruct H as [H1 H2]. rewrite H1, IH by assumption. reflexivity.
Qed.
Lemma skipn_exact {A} (a b : list A) : skipn (List.length a) (a ++ b) = b.
Proof. rewrite skipn_app, skipn_all, Nat.sub_diag. reflexivity. Qed.
Lemma digits_first x r : all_digits x -> forall c t, x ++ r = c :: t -> is_space c = false.
Proof. intros [H1 H2] c t E. destruct x as [|d x]; [contradiction|]. cbn [app] in E. injection E as -> _. cbn [forallb] in H2. apply andb_true_iff in H2. now apply digit_not_space. Qed.
Lemma m_int_whole b x r : forallb is_space b = true -> whole x r -> m_int (b ++ x ++ r) = Some (x, List.length b + List.length x).
Proof.
  intros Hb [Hx Hr]. unfold m_int. rewrite (take_all is_space b (x ++ r) Hb (digits_first x r Hx)), skipn_exact. rewrite (take_all is_digit x r (proj2 Hx) Hr). destruct x; [now destruct Hx|reflexivity].
Qed.
Lemma m_frac_point b x r : forallb is_space b = true -> point x r -> m_frac (b ++ x ++ r) = Some (x, List.length b + List.length x).
Proof.
  intros Hb (i & d & -> & Hi & Hd & Hr). unfold m_frac. rewrite <- !app_assoc. rewrite (take_all is_space b _ Hb (digits_first i _ Hi)), skipn_exact.
  rewrite (take_all is_digit i (S_ "." ++ d ++ r) (proj2 Hi)) by (cbn; intros c t E; injection E as <- _; reflexivity). destruct (List.length i) as [|j] eqn:Ei; [destruct i; [now destruct Hi|discriminate]|]. cbn [m_frac_at]. rewrite <- Ei, skipn_exact. cbn [S_ list_ascii_of_string app chr_eqb]. change (chr_eqb "."%char nl) with false. cbv iota.
  rewrite (take_all is_digit d r (proj2 Hd) Hr). destruct d as [|d0 d]; [now destruct Hd|]. rewrite firstn_app, firstn_all, Nat.sub_diag. cbn [firstn]. rewrite app_nil_r. reflexivity.
Qed.
Lemma m_fracm_point b x r : forallb is_space b = true -> metres x r -> exists n, m_fracm (b ++ x ++ r) = Some (x, n) /\ n <= List.length (b ++ x ++ r).
Proof.
  intros Hb (r' & Er & i & d & -> & Hi & Hd & Hr). eexists. split.
  - unfold m_fracm. rewrite <- !app_assoc. rewrite (take_all is_space b _ Hb (digits_first i _ Hi)), skipn_exact.
    rewrite (take_all is_digit i (S_ "." ++ d ++ r) (proj2 Hi)) by (cbn; intros c t E; injection E as <- _; reflexivity). destruct (List.length i) as [|j] eqn:Ei; [destruct i; [now destruct Hi|discriminate]|]. cbn [m_fracm_at]. rewrite <- Ei, skipn_exact. cbn [S_ list_ascii_of_string app chr_eqb]. change (chr_eqb "."%char nl) with false. cbv iota.
    rewrite (take_all is_digit d r (proj2 Hd) Hr). destruct d as [|d0 d]; [now destruct Hd|]. rewrite (skipn_exact (d0 :: d) r). rewrite Er at 1. rewrite startswith_app. rewrite firstn_app, firstn_all, Nat.sub_diag. cbn [firstn]. rewrite app_nil_r. reflexivity.
  - rewrite Er, !app_length. cbn [S_ list_ascii_of_string List.length]. lia.
Qed.
Lemma body_char_word c : body_char c -> word_char c = true.
Proof. unfold body_char. intro H. refine (proj1 (forallb_forall word_char _) _ c H). vm_compute. reflexivity. Qed.
Lemma m_word_body x r : body x r -> m_word (x ++ r) = Some (x, S (List.length x)).
Proof.
  intros (H & r' & ->). unfold m_word. rewrite take_all; [|apply forallb_forall; rewrite Forall_forall in H; intros c Hc; apply body_char_word; now apply H|cbn; intros c t E; injection E as <- _; reflexivity]. rewrite skipn_exact. reflexivity.
Qed.

Lemma one_field lit0 z m is_value desc v : ~ In z lit0 -> field (lit0 ++ [z]) is_value desc v ->
  (forall b x r, forallb is_space b = true -> is_value x r -> exists n, m (b ++ x ++ r) = Some (x, n) /\ n <= List.length (b ++ x ++ r)) -> one (findall (lit0 ++ [z]) m 0 desc) = v.
Proof.
  intros Hz Hf Hm. destruct v as [x|]; cbn [field] in Hf; [|now rewrite findall_nowhere].
  destruct Hf as (a & b & r & -> & Hb & Hx & Ha & Hr). destruct (Hm b x r Hb Hx) as (n & E & L). rewrite findall_first by assumption. rewrite (findall_here _ m (b ++ x ++ r) x n); try assumption; [reflexivity|destruct lit0; discriminate|reflexivity].
Qed.
Ltac notin := let G := fresh in intro G; vm_compute in G; repeat (destruct G as [G|G]; [discriminate|]); exact G.
Lemma one_int key desc v : In key [S_ "E-nr:"; S_ "nodenr:"] -> field key whole desc v -> one (findall key m_int 0 desc) = v.
Proof.
  intros H Hf. assert (exists l z, key = l ++ [z] /\ ~ In z l) as (l & z & -> & Hz). { destruct H as [<-|[<-|[]]]; [exists (S_ "E-nr"), ":"%char|exists (S_ "nodenr"), ":"%char]; (split; [reflexivity|notin]). }
  apply (one_field l z m_int whole); try assumption. intros b x r Hb Hx. exists (List.length b + List.length x). split; [now apply m_int_whole|rewrite !app_length; lia].
Qed.
Lemma one_point key desc v : In key [S_ "Z-rel:"; S_ "s/S="] -> field key point desc v -> one (findall key m_frac 0 desc) = v.
Proof.
  intros H Hf. assert (exists l z, key = l ++ [z] /\ ~ In z l) as (l & z & -> & Hz). { destruct H as [<-|[<-|[]]]; [exists (S_ "Z-rel"), ":"%char|exists (S_ "s/S"), "="%char]; (split; [reflexivity|notin]). }
  apply (one_field l z m_frac point); try assumption. intros b x r Hb Hx. exists (List.length b + List.length x). split; [now apply m_frac_point|rewrite !app_length; lia].
Qed.
Lemma one_metres desc v : field (S_ "s=") metres desc v -> one (findall (S_ "s=") m_fracm 0 desc) = v.
Proof.
  intros Hf. change (S_ "s=") with (S_ "s" ++ ["="%char]) in *. apply (one_field _ _ m_fracm metres); [notin|exact Hf|]. intros b x r Hb Hx. now apply m_fracm_point.
Qed.
(** The name of the body follows at once.  A name that is not followed by a blank is no name. *)
Definition unended (x r : str) : Prop := Forall body_char x /\ forall c r', r = c :: r' -> ~ body_char c /\ c <> " "%char.
Definition body_field (desc : str) (v : option str) : Prop :=
  match v with
  | None => nowhere (S_ "Mbdy:") desc \/ exists a x r, desc = a ++ S_ "Mbdy:" ++ x ++ r /\ unended x r /\ nowhere (S_ "Mbdy:") a /\ nowhere (S_ "Mbdy:") (S_ "bdy:" ++ x ++ r)
  | Some x => exists a r, desc = a ++ S_ "Mbdy:" ++ x ++ r /\ body x r /\ nowhere (S_ "Mbdy:") a /\ nowhere (S_ "Mbdy:") (x ++ r)
  end.
Lemma word_char_body c : word_char c = true -> body_char c.
Proof.
  intro H. assert (E : word_char c = mem_chr c (S_ "-abcdefghijklmnopqrstuvwxyzABCDEFGHIJKLMNOPQRSTUVWXYZ0123456789_.")).
  { apply eqb_prop. apply (char_sweep (fun c => eqb (word_char c) (mem_chr c (S_ "-abcdefghijklmnopqrstuvwxyzABCDEFGHIJKLMNOPQRSTUVWXYZ0123456789_.")))). vm_compute. reflexivity. }
  rewrite E in H. now apply mem_chr_iff in H.
Qed.
Lemma m_word_unended x r : unended x r -> m_word (x ++ r) = None.
Proof.
  intros (H & Hr). unfold m_word. rewrite take_all; [|apply forallb_forall; rewrite Forall_forall in H; intros c Hc; apply body_char_word; now apply H|].
  - rewrite skipn_exact. destruct r as [|c r']; [reflexivity|]. destruct (Hr c r' eq_refl) as [_ N]. replace (chr_eqb c sp) with false; [reflexivity|]. symmetry. now apply chr_eqb_neq.
  - intros c t E. destruct (Hr c t E) as [N _]. apply not_true_is_false. intro G. apply N. now apply word_char_body.
Qed.
Lemma one_body desc v : body_field desc v -> one (findall (S_ "Mbdy:") m_word 0 desc) = v.
Proof.
  intro Hf. destruct v as [x|]; cbn [body_field] in Hf.
  2:{ destruct Hf as [Hf|(a & x & r & -> & Hx & Ha & Hr)]; [now rewrite findall_nowhere|]. change (S_ "Mbdy:") with (S_ "Mbdy" ++ [":"%char]) in *. rewrite findall_first by (exact Ha || notin).
      change ((S_ "Mbdy" ++ [":"%char]) ++ x ++ r) with ("M"%char :: (S_ "bdy:" ++ x ++ r)) at 1. cbn [findall]. change ("M"%char :: (S_ "bdy:" ++ x ++ r)) with ((S_ "Mbdy" ++ [":"%char]) ++ x ++ r). rewrite startswith_app, skipn_exact, (m_word_unended x r Hx), findall_nowhere by exact Hr. reflexivity. }
  destruct Hf as (a & r & -> & Hx & Ha & Hr). change (S_ "Mbdy:") with (S_ "Mbdy" ++ [":"%char]) in *. rewrite findall_first by (exact Ha || notin).
  rewrite (findall_here _ m_word (x ++ r) x (S (List.length x))); try assumption; [reflexivity|discriminate|now apply m_word_body| |reflexivity]. destruct Hx as (_ & r' & ->). rewrite !app_length. cbn [S_ list_ascii_of_string List.length]. lia.
Qed.

(** ** Names *)
Lemma abbreviated_replace long short q w : abbreviated long short q w -> long <> [] -> replace_ long short q = w.
Proof. intros [[H ->]|(x & y & -> & H1 & H2 & ->)] Hl; [now apply replace_nowhere|now apply replace_once]. Qed.
Lemma abbreviated_no_space long short q w : abbreviated long short q w -> no_space short = true -> no_space q = true -> no_space w = true.
Proof. unfold no_space. intros [[_ ->]|(x & y & -> & _ & _ & ->)] Hs H; [exact H|]. rewrite !forallb_app in *. rewrite !andb_true_iff in *. tauto. Qed.
Lemma no_space_strip q : no_space q = true -> strip q = q.
Proof. intro H. apply strip_noedge, no_space_no_edge, H. Qed.
Lemma shown_name name b w : shown name b w ->
  match b with Some b => strip (replace_ (S_ "coo:" ++ b) (S_ "b") (short_name name)) | None => short_name name end = w.
Proof.
  intros (H0 & q1 & q2 & q3 & A1 & A2 & A3 & A4). assert (H1 := abbreviated_no_space _ _ _ _ A1 eq_refl H0). assert (H2 := abbreviated_no_space _ _ _ _ A2 eq_refl H1). assert (H3 := abbreviated_no_space _ _ _ _ A3 eq_refl H2).
  assert (E : short_name name = q3). { unfold short_name. rewrite replace_blank, (abbreviated_replace _ _ _ _ A1 ltac:(discriminate)), (no_space_strip q1 H1), (abbreviated_replace _ _ _ _ A2 ltac:(discriminate)), (no_space_strip q2 H2), (abbreviated_replace _ _ _ _ A3 ltac:(discriminate)). now apply no_space_strip. }
  rewrite E. destruct b as [b|]; [|congruence]. rewrite (abbreviated_replace _ _ _ _ A4 ltac:(discriminate)). apply no_space_strip. exact (abbreviated_no_space _ _ _ _ A4 eq_refl H3).
Qed.
Lemma str_of_Z_N n : str_of_Z (Z.of_N n) = str_of_N n.
Proof. destruct n; reflexivity. Qed.
Lemma int_N n : int_ (str_of_N n) = Ok (Z.of_N n).
Proof. rewrite <- str_of_Z_N. apply int_str_of_Z. Qed.

Section Names.
Variable zrel_value : str -> res zval.
Variable zrel_text : Z -> str -> str.
Lemma column_name_label name desc (e : option N) z k b s sS w vz :
  field (S_ "E-nr:") whole desc (option_map str_of_N e) -> field (S_ "Z-rel:") point desc z -> field (S_ "nodenr:") whole desc k -> body_field desc b -> field (S_ "s=") metres desc s -> field (S_ "s/S=") point desc sS ->
  shown name b w -> (forall t, z = Some t -> zrel_value t = Ok vz) ->
  column_name zrel_value zrel_text name desc = Ok (opt b
    ++ match e, z with Some e, Some t => S_ "N" ++ node_text zrel_text e vz t | _, _ => [] end
    ++ match s, sS with Some _, Some x => S_ "r" ++ x | _, _ => [] end
    ++ match k with Some k => S_ "N" ++ k | None => [] end ++ w).
Proof.
  intros He Hz Hk Hb Hs HS Hw Hv. unfold column_name. rewrite (one_int (S_ "E-nr:") desc _ ltac:(cbn; auto) He), (one_point (S_ "Z-rel:") desc _ ltac:(cbn; auto) Hz), (one_int (S_ "nodenr:") desc _ ltac:(cbn; auto) Hk), (one_body _ _ Hb), (one_metres _ _ Hs), (one_point (S_ "s/S=") desc _ ltac:(cbn; auto) HS).
  rewrite (shown_name name b w Hw). change (match b with Some b0 => b0 | None => [] end) with (opt b). destruct e as [e|], z as [t|]; cbn [option_map bind].
  - rewrite int_N. cbn [bind]. rewrite (Hv t eq_refl). cbn [bind]. destruct vz; cbn [node_text]; rewrite ?str_of_Z_N; [| |]; try (replace (Z.of_N e + 1)%Z with (Z.of_N (e + 1)) by lia; rewrite str_of_Z_N); destruct s, sS, k; cbn [app]; now rewrite <- ?app_assoc.
  - destruct s, sS, k; cbn [app]; now rewrite <- ?app_assoc.
  - destruct s, sS, k; cbn [app]; now rewrite <- ?app_assoc.
  - destruct s, sS, k; cbn [app]; now rewrite <- ?app_assoc.
Qed.
Lemma column_names_nth names descrs r i n d : column_names zrel_value zrel_text names descrs = (r, None) -> nth_error names i = Some n -> nth_error descrs i = Some d ->
  exists x, column_name zrel_value zrel_text n d = Ok x /\ nth_error r i = Some x.
Proof.
  revert names r i. induction descrs as [|d0 descrs IH]; intros names r i E Hn Hd; [destruct i; discriminate|]. destruct names as [|n0 names]; [destruct i; discriminate|]. cbn [column_names] in E.
  destruct (column_name zrel_value zrel_text n0 d0) as [x|x] eqn:E0; [|discriminate]. destruct (column_names zrel_value zrel_text names descrs) as [r' e] eqn:E1. apply pair_equal_spec in E. destruct E as [<- ->].
  destruct i; cbn [nth_error] in *; [injection Hn as ->; injection Hd as ->; exists x; auto|]. exact (IH names r' i E1 Hn Hd).
Qed.
Lemma zip2_nth ns us i n u : nth_error ns i = Some n -> nth_error us i = Some u -> nth_error (zip2 ns us) i = Some (n ++ S_ "_[" ++ no_brackets u ++ S_ "]").
Proof. revert us i. induction ns as [|n0 ns IH]; intros us i Hn Hu; [destruct i; discriminate|]. destruct us as [|u0 us]; [destruct i; discriminate|]. destruct i; cbn [nth_error zip2] in *; [congruence|now apply IH]. Qed.
(** The unit without its brackets *)
Lemma no_brackets_spec u : no_brackets u = filter (fun c => negb (mem_chr c (S_ "()[]"))) u.
Proof. unfold no_brackets. apply filter_ext. intro c. cbn [S_ list_ascii_of_string mem_chr existsb]. cbv [mem_chr existsb]. now rewrite ?orb_false_r, <- ?orb_assoc. Qed.

(** ** C98 *)
(** Every column is named after its own channel: body, node of the element, radius, node, then the name; and the unit.  The values are the data *)
Theorem C98_labels : forall V (o : dat V) cols rows i name unit desc (e : option N) z k b s sS w vz,
  snd (toDataFrame zrel_value zrel_text o) = Ok (cols, rows) ->
  nth_error (d_names o) i = Some name -> nth_error (d_units o) i = Some unit -> nth_error (d_descr o) i = Some desc ->
  field (S_ "E-nr:") whole desc (option_map str_of_N e) -> field (S_ "Z-rel:") point desc z -> field (S_ "nodenr:") whole desc k -> body_field desc b -> field (S_ "s=") metres desc s -> field (S_ "s/S=") point desc sS ->
  shown name b w -> (forall t, z = Some t -> zrel_value t = Ok vz) ->
  nth_error cols i = Some (opt b
    ++ match e, z with Some e, Some t => S_ "N" ++ node_text zrel_text e vz t | _, _ => [] end
    ++ match s, sS with Some _, Some x => S_ "r" ++ x | _, _ => [] end
    ++ match k with Some k => S_ "N" ++ k | None => [] end
    ++ w ++ S_ "_[" ++ filter (fun c => negb (mem_chr c (S_ "()[]"))) unit ++ S_ "]") /\ rows = d_data o.
Proof.
  intros V o cols rows i name unit desc e z k b s sS w vz E Hn Hu Hd He Hz Hk Hb Hs HS Hw Hv. unfold toDataFrame in E. destruct (column_names _ _ _ _) as [r [x|]] eqn:Er; cbn [snd] in E; [discriminate|].
  destruct (forallb _ _); [|discriminate]. apply Ok_inj, pair_equal_spec in E. destruct E as [<- <-]. split; [|reflexivity]. destruct (column_names_nth _ _ _ i name desc Er Hn Hd) as (x & Ex & Hx).
  rewrite (column_name_label name desc e z k b s sS w vz) in Ex by assumption. apply Ok_inj in Ex. subst x. rewrite (zip2_nth _ _ i _ unit Hx Hu). rewrite no_brackets_spec, <- !app_assoc. reflexivity.
Qed.
(** A column name depends on nothing but the name, the unit and the description of its channel *)
Theorem C98_own_channel : forall V W (o : dat V) (o' : dat W) cols rows cols' rows' i j,
  snd (toDataFrame zrel_value zrel_text o) = Ok (cols, rows) -> snd (toDataFrame zrel_value zrel_text o') = Ok (cols', rows') ->
  i < List.length (d_descr o) -> j < List.length (d_descr o') ->
  nth_error (d_names o) i = nth_error (d_names o') j -> nth_error (d_units o) i = nth_error (d_units o') j -> nth_error (d_descr o) i = nth_error (d_descr o') j -> nth_error (d_units o) i <> None -> nth_error cols i = nth_error cols' j.
Proof.
  intros V W o o' cols rows cols' rows' i j E E' Hi Hj Hn Hu Hd Hu'. unfold toDataFrame in *. destruct (column_names _ _ (d_names o) _) as [r [x|]] eqn:Er; cbn [snd] in E; [discriminate|]. destruct (column_names _ _ (d_names o') _) as [r' [x|]] eqn:Er'; cbn [snd] in E'; [discriminate|].
  destruct (forallb _ (d_data o)); [|discriminate]. destruct (forallb _ (d_data o')); [|discriminate]. apply Ok_inj, pair_equal_spec in E, E'. destruct E as [<- <-], E' as [<- <-].
  destruct (nth_error (d_descr o) i) as [d|] eqn:Ed; [|apply nth_error_None in Ed; lia]. destruct (nth_error (d_units o) i) as [u|] eqn:Eu; [|contradiction].
  destruct (nth_error (d_names o) i) as [n|] eqn:En.
  - destruct (column_names_nth _ _ _ i n d Er En Ed) as (x & Ex & Hx). destruct (column_names_nth _ _ _ j n d Er' (eq_sym Hn) (eq_sym Hd)) as (x' & Ex' & Hx'). rewrite (zip2_nth _ _ i x u Hx Eu), (zip2_nth _ _ j x' u Hx' (eq_sym Hu)). congruence.
  - exfalso. clear -Er En Ed. revert r i Er En Ed. generalize (d_names o). induction (d_descr o) as [|d0 ds IH]; intros ns r i Er En Ed; [destruct i; discriminate|]. destruct ns as [|n0 ns]; [discriminate|]. cbn [column_names] in Er.
    destruct (column_name _ _ n0 d0); [|discriminate]. destruct (column_names _ _ ns ds) as [r' e'] eqn:E'. apply pair_equal_spec in Er. destruct Er as [_ ->]. destruct i; [discriminate|]. exact (IH ns r' i E' En Ed).
Qed.

(** ** When there is a frame *)
Lemma findall_sub lit m (P : str -> Prop) k s : (forall t g n, m t = Some (g, n) -> P g) -> Forall P (findall lit m k s).
Proof.
  intro H. revert k. induction s as [|c s IH]; intro k; [constructor|]. cbn [findall]. destruct k; [|apply IH]. destruct (startswith (c :: s) lit); [|apply IH]. destruct (m (skipn (List.length lit) (c :: s))) as [[g n]|] eqn:E; [|apply IH]. constructor; [exact (H _ _ _ E)|apply IH].
Qed.
Lemma take_forallb p s : forallb p (take p s) = true.
Proof. induction s as [|c s IH]; [reflexivity|]. cbn [take]. destruct (p c) eqn:E; [|reflexivity]. cbn [forallb]. now rewrite E. Qed.
Lemma m_int_digits t g n : m_int t = Some (g, n) -> all_digits g.
Proof. unfold m_int. destruct (take is_digit _) as [|c l] eqn:E; [discriminate|]. intro H. injection H as <- _. split; [discriminate|]. rewrite <- E. apply take_forallb. Qed.
Lemma uint_cons_digit c d : is_digit c = true -> exists d', uint_cons c d = Some d'.
Proof.
  intro H. assert (G : forall c', implb (is_digit c') (match uint_cons c' d with Some _ => true | None => false end) = true) by (apply char_sweep; vm_compute; reflexivity).
  specialize (G c). rewrite H in G. cbn [implb] in G. destruct (uint_cons c d) as [d'|]; [now exists d'|discriminate].
Qed.
Lemma uint_digits s : forallb is_digit s = true -> exists d, uint_of_str s = Some d.
Proof.
  induction s as [|c s IH]; intro H; [eexists; reflexivity|]. cbn [forallb] in H. apply andb_true_iff in H. destruct H as [H1 H2]. destruct (IH H2) as [d E]. cbn [uint_of_str]. rewrite E. now apply uint_cons_digit.
Qed.
Lemma int_digits s : all_digits s -> exists z, int_ s = Ok z.
Proof.
  intros [H1 H2]. assert (St : strip s = s) by (apply no_space_strip; apply digits_no_space; exact H2). unfold int_. rewrite St. destruct (uint_digits s H2) as [d E].
  destruct s as [|c s]; [contradiction|]. cbn [forallb] in H2. apply andb_true_iff in H2. destruct H2 as [H2 _].
  replace (chr_eqb c (ch 45)) with false by (symmetry; apply chr_eqb_neq; intros ->; discriminate). replace (chr_eqb c (ch 43)) with false by (symmetry; apply chr_eqb_neq; intros ->; discriminate).
  unfold N_of_str. rewrite E. eexists. reflexivity.
Qed.
Lemma column_name_ok n d : (forall t, exists v, zrel_value t = Ok v) -> exists x, column_name zrel_value zrel_text n d = Ok x.
Proof.
  intro Hz. unfold column_name. destruct (one (findall (S_ "Z-rel:") m_frac 0 d)) as [z|]; [|eexists; reflexivity]. destruct (one (findall (S_ "E-nr:") m_int 0 d)) as [e|] eqn:Ee; [|eexists; reflexivity].
  assert (He : all_digits e). { assert (F := findall_sub (S_ "E-nr:") m_int all_digits 0 d m_int_digits). destruct (findall (S_ "E-nr:") m_int 0 d) as [|x [|]]; try discriminate. injection Ee as ->. now apply Forall_inv in F. }
  destruct (int_digits e He) as [ie ->]. destruct (Hz z) as [v ->]. cbn [bind]. eexists. reflexivity.
Qed.
Lemma column_names_ok names descrs : (forall t, exists v, zrel_value t = Ok v) -> List.length descrs <= List.length names -> exists r, column_names zrel_value zrel_text names descrs = (r, None) /\ List.length r = List.length names.
Proof.
  intro Hz. revert names. induction descrs as [|d ds IH]; intros names L; [exists names; split; [destruct names|]; reflexivity|]. destruct names as [|n ns]; [inversion L|]. cbn [column_names]. destruct (column_name_ok n d Hz) as [x ->]. destruct (IH ns) as (r & -> & Lr); [exact (le_S_n _ _ L)|]. exists (x :: r). split; [reflexivity|]. cbn [List.length]. now rewrite Lr.
Qed.
Lemma zip2_length ns us : List.length (zip2 ns us) = Nat.min (List.length ns) (List.length us).
Proof. revert us. induction ns as [|n ns IH]; intros [|u us]; cbn; auto. Qed.
(** There is a frame when every row has as many values as there are channels *)
Theorem C98_frame : forall V (o : dat V) n, (forall t, exists v, zrel_value t = Ok v) ->
  List.length (d_names o) = n -> List.length (d_units o) = n -> List.length (d_descr o) = n -> Forall (fun r => List.length r = n) (d_data o) ->
  exists cols, snd (toDataFrame zrel_value zrel_text o) = Ok (cols, d_data o) /\ List.length cols = n.
Proof.
  intros V o n Hz H1 H2 H3 H4. unfold toDataFrame. destruct (column_names_ok (d_names o) (d_descr o) Hz) as (r & -> & L); [lia|]. cbn [snd]. exists (zip2 r (d_units o)). assert (LL : List.length (zip2 r (d_units o)) = n) by (rewrite zip2_length; lia).
  split; [|exact LL]. rewrite LL. replace (forallb (fun r0 => Nat.eqb (List.length r0) n) (d_data o)) with true; [reflexivity|]. symmetry. apply forallb_forall. rewrite Forall_forall in H4. intros x Hx. apply Nat.eqb_eq. now apply H4.
Qed.
Theorem C98_number_of_columns : forall V (o : dat V) n, (forall t, exists v, zrel_value t = Ok v) ->
  List.length (d_names o) = n -> List.length (d_units o) = n -> List.length (d_descr o) = n -> Exists (fun r => List.length r <> n) (d_data o) -> snd (toDataFrame zrel_value zrel_text o) = Err ValueError.
Proof.
  intros V o n Hz H1 H2 H3 H4. unfold toDataFrame. destruct (column_names_ok (d_names o) (d_descr o) Hz) as (r & -> & L); [lia|]. cbn [snd]. assert (LL : List.length (zip2 r (d_units o)) = n) by (rewrite zip2_length; lia). rewrite LL.
  replace (forallb (fun r0 => Nat.eqb (List.length r0) n) (d_data o)) with false; [reflexivity|]. symmetry. apply not_true_is_false. intro G. rewrite forallb_forall in G. apply Exists_exists in H4. destruct H4 as (x & Hx & Hn). apply Hn. apply Nat.eqb_eq. now apply G.
Qed.
(** A channel without description: IndexError or not, the units, descriptions and values of the object stay; the names do not *)
Theorem C98_object : forall V (o : dat V), let o' := fst (toDataFrame zrel_value zrel_text o) in
  d_units o' = d_units o /\ d_descr o' = d_descr o /\ d_data o' = d_data o /\ d_bhawc o' = d_bhawc o /\ List.length (d_names o') = List.length (d_names o).
Proof.
  intros V o. unfold toDataFrame. destruct (column_names zrel_value zrel_text (d_names o) (d_descr o)) as [r e] eqn:E. cbn [fst d_units d_descr d_data d_bhawc d_names]. repeat split. revert r e E. generalize (d_names o). induction (d_descr o) as [|d ds IH]; intros ns r e E; [assert (E1 : column_names zrel_value zrel_text ns [] = (ns, None)) by (destruct ns; reflexivity); rewrite E1 in E; apply pair_equal_spec in E; destruct E as [<- _]; reflexivity|]. destruct ns as [|n ns]; [apply pair_equal_spec in E; destruct E as [<- _]; reflexivity|]. cbn [column_names] in E.
  destruct (column_name zrel_value zrel_text n d); [|apply pair_equal_spec in E; destruct E as [<- _]; reflexivity]. destruct (column_names zrel_value zrel_text ns ds) as [r' e'] eqn:E'. apply pair_equal_spec in E. destruct E as [<- _]. cbn. f_equal. exact (IH ns r' e' E').
Qed.
(** Asking for the frame twice gives other names: what the description says of the channel is put in front again *)
Theorem C98_second_call_refuted : forall V (o : dat V) cols rows cols2 rows2 i name unit desc k b w,
  snd (toDataFrame zrel_value zrel_text o) = Ok (cols, rows) -> snd (toDataFrame zrel_value zrel_text (fst (toDataFrame zrel_value zrel_text o))) = Ok (cols2, rows2) ->
  nth_error (d_names o) i = Some name -> nth_error (d_units o) i = Some unit -> nth_error (d_descr o) i = Some desc ->
  field (S_ "E-nr:") whole desc None -> field (S_ "Z-rel:") point desc None -> field (S_ "nodenr:") whole desc (Some k) -> body_field desc (Some b) -> field (S_ "s=") metres desc None -> field (S_ "s/S=") point desc None ->
  shown name (Some b) w -> shown (b ++ S_ "N" ++ k ++ w) (Some b) (b ++ S_ "N" ++ k ++ w) ->
  let label x := x ++ S_ "_[" ++ filter (fun c => negb (mem_chr c (S_ "()[]"))) unit ++ S_ "]" in
  nth_error cols i = Some (label (b ++ S_ "N" ++ k ++ w)) /\ nth_error cols2 i = Some (label (b ++ S_ "N" ++ k ++ b ++ S_ "N" ++ k ++ w)) /\ nth_error cols i <> nth_error cols2 i.
Proof.
  intros V o cols rows cols2 rows2 i name unit desc k b w E E2 Hn Hu Hd He Hz Hk Hb Hs HS Hw Hw2 label.
  assert (A : nth_error cols i = Some (label (b ++ S_ "N" ++ k ++ w))).
  { destruct (C98_labels V o cols rows i name unit desc None None (Some k) (Some b) None None w Z0 E Hn Hu Hd He Hz Hk Hb Hs HS Hw) as [A _]; [discriminate|]. rewrite A. cbn [opt]. unfold label. cbn [app]. now rewrite <- !app_assoc. }
  assert (N2 : nth_error (d_names (fst (toDataFrame zrel_value zrel_text o))) i = Some (b ++ S_ "N" ++ k ++ w)).
  { unfold toDataFrame in *. destruct (column_names zrel_value zrel_text (d_names o) (d_descr o)) as [r [x|]] eqn:Er; cbn [snd] in E; [discriminate|]. cbn [fst d_names]. destruct (column_names_nth _ _ _ i name desc Er Hn Hd) as (x & Ex & Hx).
    rewrite (column_name_label name desc None None (Some k) (Some b) None None w Z0) in Ex by (assumption || discriminate). apply Ok_inj in Ex. rewrite Hx, <- Ex. cbn [opt]. cbn [app]. now rewrite <- ?app_assoc. }
  destruct (C98_object V o) as (O1 & O2 & _).
  assert (B : nth_error cols2 i = Some (label (b ++ S_ "N" ++ k ++ b ++ S_ "N" ++ k ++ w))).
  { destruct (C98_labels V _ cols2 rows2 i _ unit desc None None (Some k) (Some b) None None (b ++ S_ "N" ++ k ++ w) Z0 E2 N2) as [B _]; try assumption; try discriminate; [now rewrite O1|now rewrite O2|]. rewrite B. cbn [opt]. unfold label. cbn [app]. now rewrite <- !app_assoc. }
  split; [exact A|]. split; [exact B|]. rewrite A, B. intro G. apply (f_equal opt) in G. cbn [opt] in G. unfold label in G. apply (f_equal (@List.length _)) in G. rewrite !app_length in G. change (List.length (S_ "N")) with 1 in G. lia.
Qed.
End Names.

(** ** The hypotheses hold of concrete channels *)
Lemma nowhere_contains sub s : contains s sub = false -> nowhere sub s.
Proof. intros H a b E. assert (G : contains s sub = true) by (apply contains_iff; now exists a, b). congruence. Qed.
Ltac nw := apply nowhere_contains; vm_compute; reflexivity.
Lemma body_forall x : forallb (fun c => mem_chr c (S_ "-abcdefghijklmnopqrstuvwxyzABCDEFGHIJKLMNOPQRSTUVWXYZ0123456789_.")) x = true -> Forall body_char x.
Proof. intro H. rewrite forallb_forall in H. apply Forall_forall. intros c Hc. apply mem_chr_iff. now apply H. Qed.
Definition ex_desc : str := S_ "MomentMx Mbdy:tower nodenr:   1 coo: tower".
Definition ex_desc2 : str := S_ "Aero E-nr:  4 Z-rel: 1.00 s=  12.50[m] s/S=  0.25".
Lemma ex_node : field (S_ "nodenr:") whole ex_desc (Some (S_ "1")).
Proof. exists (S_ "MomentMx Mbdy:tower "), (S_ "   "), (S_ " coo: tower"). repeat split; try discriminate; try nw. intros c t E. cbn in E. injection E as <- _. reflexivity. Qed.
Lemma ex_body : body_field ex_desc (Some (S_ "tower")).
Proof. exists (S_ "MomentMx "), (S_ " nodenr:   1 coo: tower"). split; [reflexivity|]. split; [split; [apply body_forall; reflexivity|exists (S_ "nodenr:   1 coo: tower"); reflexivity]|]. split; nw. Qed.
Lemma ex_unended : body_field (S_ "MomentMx Mbdy:tower,top") None.
Proof. right. exists (S_ "MomentMx "), (S_ "tower"), (S_ ",top"). split; [reflexivity|]. split; [split; [apply body_forall; reflexivity|intros c r' E; injection E as <- <-; split; [notin|discriminate]]|]. split; nw. Qed.
Lemma ex_shown : shown (S_ "Mx coo: tower") (Some (S_ "tower")) (S_ "Mxb").
Proof.
  split; [reflexivity|]. exists (S_ "Mxcoo:tower"), (S_ "Mxcoo:tower"), (S_ "Mxcoo:tower"). repeat split; try (left; split; [nw|reflexivity]). right. exists (S_ "Mx"), []. repeat split; nw.
Qed.
Lemma ex_shown2 : shown (S_ "towerN1Mxb") (Some (S_ "tower")) (S_ "towerN1Mxb").
Proof. split; [reflexivity|]. exists (S_ "towerN1Mxb"), (S_ "towerN1Mxb"), (S_ "towerN1Mxb"). repeat split; left; (split; [nw|reflexivity]). Qed.
Lemma ex_elem : field (S_ "E-nr:") whole ex_desc2 (option_map str_of_N (Some 4%N)).
Proof. exists (S_ "Aero "), (S_ "  "), (S_ " Z-rel: 1.00 s=  12.50[m] s/S=  0.25"). repeat split; try discriminate; try nw. intros c t E. cbn in E. injection E as <- _. reflexivity. Qed.
Lemma ex_zrel : field (S_ "Z-rel:") point ex_desc2 (Some (S_ "1.00")).
Proof. exists (S_ "Aero E-nr:  4 "), (S_ " "), (S_ " s=  12.50[m] s/S=  0.25"). split; [reflexivity|]. split; [reflexivity|]. split; [exists (S_ "1"), (S_ "00"); repeat split; try discriminate; intros c t E; cbn in E; injection E as <- _; reflexivity|]. split; nw. Qed.
Lemma ex_s : field (S_ "s=") metres ex_desc2 (Some (S_ "12.50")).
Proof.
  exists (S_ "Aero E-nr:  4 Z-rel: 1.00 "), (S_ "  "), (S_ "[m] s/S=  0.25"). split; [reflexivity|]. split; [reflexivity|]. split; [exists (S_ " s/S=  0.25"); split; [reflexivity|]; exists (S_ "12"), (S_ "50"); repeat split; try discriminate; intros c t E; cbn in E; injection E as <- _; reflexivity|]. split; nw.
Qed.
Lemma ex_sS : field (S_ "s/S=") point ex_desc2 (Some (S_ "0.25")).
Proof. exists (S_ "Aero E-nr:  4 Z-rel: 1.00 s=  12.50[m] "), (S_ "  "), []. split; [reflexivity|]. split; [reflexivity|]. split; [exists (S_ "0"), (S_ "25"); repeat split; try discriminate; intros c t E; discriminate|]. split; nw. Qed.
Definition ex_zval (t : str) : res zval := Ok (if str_eqb t (S_ "0.00") then Z0 else if str_eqb t (S_ "1.00") then Z1 else Zother).
Definition ex_obj : dat N := mk_dat [S_ "Mx coo: tower"; S_ "Cl"] [S_ "[kNm]"; S_ "-"] [ex_desc; ex_desc2] [[5;0]; [6;1]]%N false.
Example C98_labels_case : snd (toDataFrame ex_zval (fun _ z => z) ex_obj) = Ok ([S_ "towerN1Mxb_[kNm]"; S_ "N5r0.25Cl_[-]"], [[5;0]; [6;1]]%N).
Proof. vm_compute. reflexivity. Qed.
Example C98_labels_element : nth_error [S_ "towerN1Mxb_[kNm]"; S_ "N5r0.25Cl_[-]"] 1 = Some (S_ "N5r0.25Cl_[-]").
Proof.
  refine (proj1 (C98_labels ex_zval (fun _ z => z) N ex_obj _ _ 1 (S_ "Cl") (S_ "-") ex_desc2 (Some 4%N) (Some (S_ "1.00")) None None (Some (S_ "12.50")) (Some (S_ "0.25")) (S_ "Cl") Z1 C98_labels_case eq_refl eq_refl eq_refl ex_elem ex_zrel _ _ ex_s ex_sS _ _)); try nw.
  - left. nw.
  - split; [reflexivity|]. exists (S_ "Cl"), (S_ "Cl"), (S_ "Cl"). repeat split; left; (split; [nw|reflexivity]).
  - intros t E. injection E as <-. reflexivity.
Qed.
Example C98_second_call_case : exists cols2 rows2, snd (toDataFrame ex_zval (fun _ z => z) (fst (toDataFrame ex_zval (fun _ z => z) ex_obj))) = Ok (cols2, rows2) /\ nth_error cols2 0 = Some (S_ "towerN1towerN1Mxb_[kNm]").
Proof.
  eexists. eexists. split; [vm_compute; reflexivity|]. refine (proj1 (proj2 (C98_second_call_refuted ex_zval (fun _ z => z) N ex_obj _ _ _ _ 0 (S_ "Mx coo: tower") (S_ "[kNm]") ex_desc (S_ "1") (S_ "tower") (S_ "Mxb") C98_labels_case _ eq_refl eq_refl eq_refl _ _ ex_node ex_body _ _ ex_shown ex_shown2))); try nw. vm_compute. reflexivity.
Qed.

Print Assumptions C98_labels.
Print Assumptions C98_own_channel.
Print Assumptions C98_frame.
Print Assumptions C98_number_of_columns.
Print Assumptions C98_object.
Print Assumptions C98_second_call_refuted.
