(** C42, C67 and C68: Tecplot files. *)
From Verif Require Import Py PyFacts TextFacts FS TurbSim_Model TurbSim_Proofs Dict Tecplot_Model Tecplot_Proofs.
Local Open Scope nat_scope.
Local Notation get := Dict.get.

(** ** What a table is *)
Section Spec.
Context {V : Type}.
(** A title or none, the names of the variables and the rows of the table. *)
Definition table (title : option str) (vs : list str) (m : list (list V)) : @dict (tv V) :=
  match title with Some t => [(S_ "title", Text t)] | None => [] end ++ [(S_ "variables", Vars vs); (S_ "data", Data m)].
(** Two characters that may follow each other in a name *)
Definition adjacent_ok (x y : ascii) : Prop :=
  ~ (x = ch 32 /\ y = ch 32) /\ ~ (x = ch 95 /\ y = ch 95) /\ (y = ch 91 \/ y = ch 40 -> x = ch 95).
(** Names that the reader leaves as they are: printable, no quote, comma or equal sign, no blank in front, no two blanks
    or two underscores in a row, a bracket only after an underscore. *)
Definition good_name (v : str) : Prop :=
  (forall c, In c v -> 32 <= ord c /\ c <> ch 34 /\ c <> ch 44 /\ c <> ch 61) /\
  (forall a x y b, ch 34 :: v = a ++ x :: y :: b -> adjacent_ok x y) /\
  (forall r, v <> ch 32 :: r).
(** What is assumed of python's float(): letter case does not matter, and a number starts with a digit, a sign, a dot or
    the letter of inf and nan. *)
Definition float_like (num : str -> option V) : Prop :=
  (forall w, num (lower w) = num w) /\
  (forall w v, is_token w = true -> num w = Some v -> exists c r, w = c :: r /\ In (lower_c c) (S_ "0123456789+-.in")).
(** The text of a row is one line that holds the numbers of the row. *)
Definition readable_row (num : str -> option V) (row_text : list V -> str) (r : list V) : Prop :=
  ~ In nl (row_text r) /\ ~ In (ch 35) (row_text r) /\ map num (split_ws (row_text r)) = map Some r.
(** The lines of a file *)
Definition text_lines (b : bytes) : list str := split_chr nl (map ascii_of_N b).
End Spec.

(** ** Lemmas *)
Lemma rstrip_keep a c b : is_space c = false -> rstrip (a ++ c :: b) = a ++ rstrip (c :: b).
Proof.
  intro C. destruct (rev (lstrip (rev (c :: b)))) eqn:E.
  - exfalso. destruct (rstrip_decomp (c :: b)) as (w & W & D). unfold rstrip in D. rewrite E in D. cbn [app] in D. rewrite <- D in W. cbn in W. rewrite C in W. discriminate.
  - destruct (rstrip_decomp (c :: b)) as (w & W & D). set (r := rstrip (c :: b)) in *.
    assert (N : r <> []) by (unfold r, rstrip; rewrite E; discriminate).
    rewrite D. rewrite app_assoc, rstrip_app_blank by exact W.
    destruct (exists_last N) as (r' & x & R). rewrite R, app_assoc. apply rstrip_last.
    assert (I : rstrip r = r) by (unfold r; apply rstrip_idem). rewrite R in I. unfold rstrip in I. rewrite rev_app_distr in I. cbn [rev app lstrip] in I.
    destruct (is_space x) eqn:X; [|reflexivity]. exfalso. assert (LL : forall s, List.length (lstrip s) <= List.length s) by (intro s; induction s as [|y s IH]; cbn; [lia|destruct (is_space y); cbn; lia]).
    apply (f_equal (@List.length ascii)) in I. rewrite rev_length, app_length in I. cbn in I. specialize (LL (rev r')). rewrite rev_length in LL. lia.
Qed.
Lemma strip_keep a c b : is_space c = false -> a <> [] -> is_space (hd c a) = false -> strip (a ++ c :: b) = a ++ rstrip (c :: b).
Proof. intros C A H. unfold strip. destruct a as [|x a]; [congruence|]. cbn [hd] in H. cbn [app]. rewrite lstrip_head by exact H. apply (rstrip_keep (x :: a)). exact C. Qed.
Lemma strip_head c b : is_space c = false -> strip (c :: b) = rstrip (c :: b).
Proof. intro C. unfold strip. rewrite lstrip_head by exact C. reflexivity. Qed.
Lemma title_text t : strip (skipn 5 (strip (S_ "TITLE = " ++ t))) = strip (S_ "= " ++ t).
Proof.
  change (S_ "TITLE = " ++ t) with (S_ "TITLE " ++ ch 61 :: sp :: t). rewrite strip_keep by (reflexivity || discriminate).
  change (skipn 5 (S_ "TITLE " ++ rstrip (ch 61 :: sp :: t))) with ([sp] ++ rstrip (ch 61 :: sp :: t)).
  change (S_ "= " ++ t) with (ch 61 :: sp :: t). rewrite (strip_head (ch 61)) by reflexivity.
  pose proof (strip_pad [sp] (rstrip (ch 61 :: sp :: t)) [] eq_refl eq_refl) as P. rewrite app_nil_r in P. rewrite P.
  rewrite <- strip_head by reflexivity. apply strip_idem.
Qed.
Lemma title_longer t : strip (S_ "= " ++ t) <> t.
Proof.
  intro E. assert (I : rstrip t = t).
  { rewrite <- E at 1. change (S_ "= " ++ t) with (ch 61 :: sp :: t) in *. rewrite strip_head in * by reflexivity. rewrite rstrip_idem. exact E. }
  destruct t as [|c t]; [discriminate E|]. destruct (forallb is_space (c :: t)) eqn:B.
  - rewrite rstrip_blank in I by exact B. discriminate.
  - change (S_ "= " ++ c :: t) with ([ch 61] ++ [sp] ++ c :: t) in E.
    assert (R : rstrip ([ch 61; sp] ++ c :: t) = [ch 61; sp] ++ c :: t).
    { destruct (exists_last (l := c :: t) ltac:(discriminate)) as (r & x & D). rewrite D, app_assoc. apply rstrip_last. rewrite D in I.
      destruct (is_space x) eqn:X; [|reflexivity]. exfalso. rewrite rstrip_app_blank in I by (cbn; rewrite X; reflexivity).
      destruct (rstrip_decomp r) as (w & _ & Dw). rewrite I in Dw. apply (f_equal (@List.length ascii)) in Dw. rewrite !app_length in Dw. cbn in Dw. lia. }
    change ([ch 61] ++ [sp] ++ c :: t) with (ch 61 :: (sp :: c :: t)) in E. rewrite strip_head in E by reflexivity.
    change (ch 61 :: sp :: c :: t) with ([ch 61; sp] ++ c :: t) in E. rewrite R in E. apply (f_equal (@List.length ascii)) in E. rewrite app_length in E. cbn in E. lia.
Qed.
Lemma ascii_bytes s : map ascii_of_N (map N_of_ascii s) = s.
Proof. rewrite map_map. rewrite <- (map_id s) at 2. apply map_ext. intro a. apply ascii_N_embedding. Qed.

Section Props.
Context {V : Type}.
Variable num : str -> option V.
Variable row_text : list V -> str.
Variable aux_text : @dict (aux V) -> str.
Notation scan := (scan num).

Lemma process_other (d d' : @dict (tv V)) m k k' : process num d m k = Ok d' -> k' <> k -> get d' k' = get d k'.
Proof.
  unfold process. intros H N. destruct (str_eqb k (S_ "title")); [apply Ok_inj in H; subst; apply get_put_other; exact N|].
  destruct (str_eqb k (S_ "variables")); [apply Ok_inj in H; subst; apply get_put_other; exact N|].
  destruct (str_eqb k (S_ "datasetauxdata") || str_eqb k (S_ "zone")); [|apply Ok_inj in H; subst; apply get_put_other; exact N].
  unfold aux_entry in H. destruct (split_chr (ch 61) _) as [|a [|b l]]; try discriminate.
  destruct (get d k) as [[ | | |]|]; try discriminate; apply Ok_inj in H; subst; apply get_put_other; exact N.
Qed.
Lemma scan_keeps_title ls : forall d m cur, cur <> S_ "title" -> Forall (fun l => startswith (lower (strip l)) (S_ "title") = false) ls ->
  get (fst (scan d m cur ls)) (S_ "title") = get d (S_ "title").
Proof.
  induction ls as [|l ls IH]; intros d m cur C H; [reflexivity|]. inversion H as [|? ? H1 H2]; subst. cbn [Tecplot_Model.scan].
  destruct (lower (strip l)) as [|c lo] eqn:E; [reflexivity|]. rewrite <- E in *. destruct (chr_eqb c (ch 35)); [apply IH; assumption|].
  assert (P : forall d', (if nonempty m then process num d m cur else Ok d) = Ok d' -> get d' (S_ "title") = get d (S_ "title")).
  { intros d' K. destruct (nonempty m); [|congruence]. apply (process_other _ _ _ _ _ K). congruence. }
  assert (F : forall k l', filter (startswith (lower (strip l))) keywords = k :: l' -> k <> S_ "title").
  { intros k l' K. assert (I : In k (filter (startswith (lower (strip l))) keywords)) by (rewrite K; now left). apply filter_In in I. intros ->. rewrite H1 in I. destruct I; discriminate. }
  assert (G : forall w, get (fst (if is_number num w then match (if nonempty m then process num d m cur else Ok d) with Err e => (d, Err e) | Ok d' => match load num (l :: ls) with Err e => (d', Err e) | Ok m' => match get d' (S_ "variables") with Some (Vars vs) => if Nat.eqb (List.length (hd [] m')) (List.length vs) then (put d' (S_ "data") (Data m'), Ok tt) else (d', Err BrokenFormatError) | Some _ => (d', Err Unmodelled) | None => (d', Err KeyError) end end end else scan d (m ++ [sp] ++ strip l) cur ls)) (S_ "title") = get d (S_ "title")).
  { intro w. destruct (is_number num w); [|apply IH; assumption]. destruct (if nonempty m then process num d m cur else Ok d) as [d'|e] eqn:K; [|reflexivity].
    destruct (load num (l :: ls)) as [m'|e]; [|apply P; reflexivity]. destruct (get d' (S_ "variables")) as [[ | | |]|]; try (apply P; reflexivity).
    destruct (Nat.eqb _ _); [|apply P; reflexivity]. cbn [fst]. rewrite get_put_other by discriminate. apply P. reflexivity. }
  destruct (filter (startswith (lower (strip l))) keywords) as [|k [|k' l']] eqn:K.
  - destruct (negb (nonempty cur)); [reflexivity|]. destruct (negb _ && _); [reflexivity|]. destruct (split_ws (lower (strip l))); [reflexivity|]. apply G.
  - destruct (if nonempty m then process num d m cur else Ok d) as [d'|e] eqn:Q; [|reflexivity]. rewrite IH; [apply P; reflexivity|exact (F _ _ eq_refl)|exact H2].
  - destruct (negb (nonempty cur)); [reflexivity|]. destruct (negb _ && _); [reflexivity|]. destruct (split_ws (lower (strip l))); [reflexivity|]. apply G.
Qed.

(** The beginning of a line decides the section. *)
Lemma lower_strip_prefix p s : p <> [] -> forallb (fun c => negb (is_space c)) p = true -> exists r, strip (p ++ s) = p ++ r.
Proof.
  intros N P. destruct (exists_last N) as (p' & x & D). rewrite D in *. rewrite forallb_app in P. apply andb_inv in P. destruct P as [P1 P2].
  cbn in P2. rewrite andb_true_r in P2. apply negb_true_iff in P2. rewrite <- app_assoc. cbn [app].
  assert (R : exists r, rstrip (x :: s) = x :: r).
  { destruct (rstrip_decomp (x :: s)) as (w & W & Dx). destruct (rstrip (x :: s)) as [|z r] eqn:E.
    + cbn [app] in Dx. rewrite <- Dx in W. cbn in W. rewrite P2 in W. discriminate.
    + injection Dx as Dz Dr. subst z. exists r. reflexivity. }
  destruct R as (r & R). exists r. destruct p' as [|y p'].
  - cbn [app]. rewrite strip_head by exact P2. exact R.
  - cbn [forallb] in P1. apply andb_inv in P1. destruct P1 as [P0 P1]. apply negb_true_iff in P0.
    rewrite (strip_keep (y :: p') x s P2 ltac:(discriminate) P0). rewrite R, <- app_assoc. reflexivity.
Qed.
Lemma lines_line l rest : ~ In nl l -> lines_of (l ++ nl :: rest) = l :: lines_of rest.
Proof.
  intro H. unfold lines_of, split_chr. apply split_on_app_sep; [|apply chr_eqb_refl]. apply forallb_forall. intros x Hx. apply negb_true_iff, chr_eqb_neq. intros ->. exact (H Hx).
Qed.
Lemma scan_title d m cur t ls : scan d m cur ((S_ "TITLE = " ++ t) :: ls) =
  match (if nonempty m then process num d m cur else Ok d) with Err e => (d, Err e) | Ok d' => scan d' (strip (S_ "TITLE = " ++ t)) (S_ "title") ls end.
Proof.
  destruct (lower_strip_prefix (S_ "TITLE") (S_ " = " ++ t) ltac:(discriminate) eq_refl) as (r & R).
  change (S_ "TITLE" ++ S_ " = " ++ t) with (S_ "TITLE = " ++ t) in R.
  cbn [Tecplot_Model.scan]. rewrite R, lower_app. change (lower (S_ "TITLE")) with (S_ "title"). reflexivity.
Qed.
Lemma scan_vars d m cur t ls : scan d m cur ((S_ "VARIABLES = " ++ t) :: ls) =
  match (if nonempty m then process num d m cur else Ok d) with Err e => (d, Err e) | Ok d' => scan d' (strip (S_ "VARIABLES = " ++ t)) (S_ "variables") ls end.
Proof.
  destruct (lower_strip_prefix (S_ "VARIABLES") (S_ " = " ++ t) ltac:(discriminate) eq_refl) as (r & R).
  change (S_ "VARIABLES" ++ S_ " = " ++ t) with (S_ "VARIABLES = " ++ t) in R.
  cbn [Tecplot_Model.scan]. rewrite R, lower_app. change (lower (S_ "VARIABLES")) with (S_ "variables"). reflexivity.
Qed.
Lemma strip_title_nonempty t : nonempty (strip (S_ "TITLE = " ++ t)) = true.
Proof.
  destruct (lower_strip_prefix (S_ "TITLE") (S_ " = " ++ t) ltac:(discriminate) eq_refl) as (r & R).
  change (S_ "TITLE" ++ S_ " = " ++ t) with (S_ "TITLE = " ++ t) in R. rewrite R. reflexivity.
Qed.
Lemma process_title (d : @dict (tv V)) t : process num d (strip (S_ "TITLE = " ++ t)) (S_ "title") = Ok (put d (S_ "title") (Text (strip (S_ "= " ++ t)))).
Proof.
  unfold process. change (List.length (S_ "title")) with 5. rewrite title_text. reflexivity.
Qed.
(** A title and the variables *)
Lemma scan_title_vars d t x ls : ~ In nl t ->
  scan d [] [] ((S_ "TITLE = " ++ t) :: (S_ "VARIABLES = " ++ x) :: ls) =
  scan (put d (S_ "title") (Text (strip (S_ "= " ++ t)))) (strip (S_ "VARIABLES = " ++ x)) (S_ "variables") ls.
Proof. intro H. rewrite scan_title. cbn [nonempty]. rewrite scan_vars, strip_title_nonempty, process_title. reflexivity. Qed.

(** ** C42: the title is stable under writing and reading.  It is not: a title never comes back, it gains the equal sign of
    the line.  This holds whatever else the file has, unless another line of it starts with the word title. *)
Theorem C42_title_never_comes_back_refuted f o name t f' o1 b o2 r :
  name <> [] -> get (t_dict o) (S_ "title") = Some (Text t) -> ~ In nl t ->
  tec_write row_text aux_text f o (Some name) = (f', o1, Ok tt) -> f' name = Reg b ->
  Forall (fun l => startswith (lower (strip l)) (S_ "title") = false) (tl (text_lines b)) ->
  tec_new num f' (Some name) = (o2, r) ->
  get (t_dict o2) (S_ "title") = Some (Text (strip (S_ "= " ++ t))) /\ strip (S_ "= " ++ t) <> t.
Proof.
  intros N T NT W B F R. split; [|apply title_longer]. destruct name as [|n0 name]; [congruence|].
  unfold tec_write in W. cbn [t_name t_dict] in W. destruct (write_file f (n0 :: name) _) as [f1 w] eqn:E. injection W as -> <- ->.
  apply write_file_inv in E. destruct E as (bs & E & C & _). rewrite C in B. injection B as <-.
  unfold write_text in E. rewrite T in E. match type of E with context [flat_map ?g ?l ++ ?rr] => generalize dependent (flat_map g l ++ rr); intros REST E end. cbn [value_text] in E. cbn [bind] in E.
  destruct bs as [|b0 bs]; [discriminate E|]. cbn [app map] in E. apply cons_inj in E. destruct E as [E0 E]. apply Ok_inj in E0.
  unfold tec_new, tec_read in R. cbn [t_name t_dict] in R. rewrite C in R.
  assert (HV : exists x rest, map ascii_of_N (concat (b0 :: bs)) = (S_ "TITLE = " ++ t) ++ nl :: (S_ "VARIABLES = " ++ x) ++ rest).
  { destruct (get (t_dict o) (S_ "variables")) as [[ |vs| |]|]; try (cbn in E; destruct bs; discriminate E).
    cbn [app map bind] in E. destruct bs as [|b1 bs]; [discriminate E|]. cbn [map] in E. apply cons_inj in E. destruct E as [E1 _]. apply Ok_inj in E1.
    exists (join (S_ ",") (map (fun v => [quote2] ++ v ++ [quote2]) vs) ++ [nl]), (map ascii_of_N (concat bs)).
    cbn [concat]. rewrite !map_app. subst b0 b1. rewrite !ascii_bytes. unfold variables_line. rewrite <- !app_assoc. reflexivity. }
  destruct HV as (x & rest & HV). unfold text_lines in F.
  change (split_chr nl) with lines_of in F. rewrite HV in F. rewrite lines_line in F.
  2:{ intro K. apply in_app_iff in K. destruct K as [K|K]; [|tauto]. vm_compute in K. repeat (destruct K as [K|K]; [discriminate K|]). destruct K. }
  cbn [tl] in F.
  assert (EX : exists x' ls, lines_of ((S_ "VARIABLES = " ++ x) ++ rest) = (S_ "VARIABLES = " ++ x') :: ls).
  { unfold lines_of, split_chr. rewrite <- app_assoc. destruct (split_on (fun y => chr_eqb y nl) (x ++ rest)) as [|w ws] eqn:SW; [exfalso; exact (split_on_nonnil _ _ SW)|].
    exists w, ws. change (S_ "VARIABLES = " ++ w) with (S_ "VARIABLES = " ++ w). clear -SW. generalize dependent (x ++ rest). intros z SW.
    assert (G : forall p, forallb (fun c => negb (chr_eqb c nl)) p = true -> split_on (fun y => chr_eqb y nl) (p ++ z) = (p ++ w) :: ws).
    { induction p as [|c p IH]; intro K; [exact SW|]. cbn [forallb] in K. apply andb_inv in K. destruct K as [K1 K2]. apply negb_true_iff in K1. cbn [app split_on]. rewrite K1, IH by exact K2. reflexivity. }
    apply G. reflexivity. }
  destruct EX as (x' & ls & EX). rewrite EX in F. pose proof (Forall_inv_tail F) as F2.
  assert (Q : exists q0 qs, concat (b0 :: bs) = q0 :: qs).
  { destruct (concat (b0 :: bs)) as [|q0 qs]; [discriminate HV|]. exists q0, qs. reflexivity. }
  destruct Q as (q0 & qs & Q). rewrite Q in R. rewrite <- Q in R.
  unfold read_tecplot in R. rewrite HV, lines_line, EX in R.
  2:{ intro K. apply in_app_iff in K. destruct K as [K|K]; [|tauto]. vm_compute in K. repeat (destruct K as [K|K]; [discriminate K|]). destruct K. }
  rewrite scan_title_vars in R by exact NT.
  destruct (scan _ _ _ ls) as [d2 r2] eqn:SC. injection R as <- _. cbn [t_dict].
  assert (D : d2 = fst (scan (put [] (S_ "title") (Text (strip (S_ "= " ++ t)))) (strip (S_ "VARIABLES = " ++ x')) (S_ "variables") ls)) by (rewrite SC; reflexivity).
  rewrite D. rewrite scan_keeps_title; [apply get_put_same|discriminate|exact F2].
Qed.

(** ** Reading a table *)
Lemma split_on_lower s : split_on is_space (lower s) = map lower (split_on is_space s).
Proof.
  induction s as [|c s IH]; [reflexivity|]. change (lower (c :: s)) with (lower_c c :: lower s). cbn [split_on].
  assert (E : is_space (lower_c c) = is_space c).
  { revert c. assert (G : forall c, Bool.eqb (is_space (lower_c c)) (is_space c) = true) by (apply char_sweep; vm_compute; reflexivity). intro c. apply eqb_prop. apply G. }
  rewrite E, IH. destruct (is_space c); [reflexivity|]. destruct (split_on is_space s); reflexivity.
Qed.
Lemma split_ws_lower s : split_ws (lower s) = map lower (split_ws s).
Proof.
  unfold split_ws. rewrite split_on_lower. generalize (split_on is_space s). intro l. induction l as [|w l IH]; [reflexivity|].
  cbn [map filter]. rewrite IH. destruct w; reflexivity.
Qed.
Lemma first_word s w ws : split_ws s = w :: ws -> exists c t r, strip s = c :: t /\ w = c :: r.
Proof.
  intro H. rewrite <- split_ws_strip in H. destruct (strip s) as [|c t] eqn:E; [discriminate H|].
  assert (C : is_space c = false).
  { pose proof (strip_no_edge s) as N. rewrite E in N. unfold no_edge_space in N. apply andb_inv in N. destruct N as [N _]. apply negb_true_iff. exact N. }
  destruct (split_ws_prefix [c] t) as (u & us & K); [unfold is_token; cbn; rewrite C; reflexivity|]. cbn [app] in K. rewrite K in H. injection H as <- _.
  exists c, t, u. split; reflexivity.
Qed.
Lemma before_comment_none l : ~ In (ch 35) l -> before_comment l = l.
Proof.
  intro H. unfold before_comment, split_chr. rewrite split_on_none; [reflexivity|]. apply forallb_forall. intros x Hx. apply negb_true_iff, chr_eqb_neq. intros ->. exact (H Hx).
Qed.
Lemma numbers_map ws r : map num ws = map Some r -> numbers num ws = Some r.
Proof.
  revert r. induction ws as [|w ws IH]; intros [|x r] H; try discriminate H; [reflexivity|]. cbn [map] in H. apply cons_inj in H. destruct H as [H1 H2].
  cbn [numbers]. rewrite H1, (IH r H2). reflexivity.
Qed.
(** The shape that numpy gives to the table *)
Definition load_shape (m : list (list V)) : res (list (list V)) :=
  match m with
  | [] => Err IndexError
  | r :: m' => if forallb (fun x => Nat.eqb (List.length x) (List.length r)) m' then if Nat.eqb (List.length m) 1 || Nat.eqb (List.length r) 1 then Err IndexError else Ok m else Err ValueError
  end.
Lemma load_rows m : Forall (fun r => readable_row num row_text r /\ r <> []) m -> load num (map row_text m ++ [[]]) = load_shape m.
Proof.
  intro H. unfold load. rewrite map_app. cbn [map]. change (split_ws (before_comment [])) with (@nil str). rewrite filter_app. cbn [filter nonempty]. rewrite app_nil_r.
  assert (E : all_rows num (filter nonempty (map (fun l => split_ws (before_comment l)) (map row_text m))) = Some m).
  { induction H as [|r m ((H1 & H2 & H3) & H4) H IH]; [reflexivity|]. cbn [map filter]. rewrite before_comment_none by exact H2.
    destruct (split_ws (row_text r)) as [|w ws] eqn:W; [destruct r; [congruence|discriminate H3]|]. cbn [nonempty]. cbn [all_rows].
    rewrite (numbers_map _ _ H3), IH. reflexivity. }
  rewrite E. reflexivity.
Qed.
Lemma scan_numbers d m cur r0 ls : float_like num -> readable_row num row_text r0 -> r0 <> [] -> cur = S_ "title" \/ cur = S_ "variables" -> nonempty m = true ->
  scan d m cur (row_text r0 :: ls) =
  match process num d m cur with
  | Err e => (d, Err e)
  | Ok d' => match load num (row_text r0 :: ls) with
             | Err e => (d', Err e)
             | Ok mm => match get d' (S_ "variables") with
                        | Some (Vars vs) => if Nat.eqb (List.length (hd [] mm)) (List.length vs) then (put d' (S_ "data") (Data mm), Ok tt) else (d', Err BrokenFormatError)
                        | Some _ => (d', Err Unmodelled)
                        | None => (d', Err KeyError)
                        end
             end
  end.
Proof.
  intros [FL1 FL2] (R1 & R2 & R3) N C M. destruct r0 as [|v0 r0]; [congruence|].
  destruct (split_ws (row_text (v0 :: r0))) as [|w ws] eqn:W; [discriminate R3|].
  assert (R4 : num w = Some v0) by (cbn [map] in R3; apply cons_inj in R3; apply R3). clear R3.
  assert (TW : is_token w = true).
  { pose proof (split_ws_tokens (row_text (v0 :: r0))) as T. rewrite W in T. cbn [forallb] in T. apply andb_inv in T. apply T. }
  destruct (first_word _ _ _ W) as (c & t & u & ES & EW). destruct (FL2 w v0 TW R4) as (c' & u' & EW' & HC). rewrite EW in EW'. injection EW' as <- _.
  cbn [Tecplot_Model.scan]. rewrite ES. change (lower (c :: t)) with (lower_c c :: lower t).
  assert (K : chr_eqb (lower_c c) (ch 35) = false /\ filter (startswith (lower_c c :: lower t)) keywords = []).
  { clear -HC. generalize dependent (lower_c c). intros z HC. vm_compute in HC. repeat (destruct HC as [HC|HC]; [subst z; split; reflexivity|]). destruct HC. }
  destruct K as [K1 K2]. rewrite K1, K2.
  assert (C1 : negb (nonempty cur) = false) by (destruct C as [->| ->]; reflexivity).
  assert (C2 : negb (str_eqb cur (S_ "title") || str_eqb cur (S_ "variables")) = false) by (destruct C as [->| ->]; reflexivity).
  rewrite C1, C2. cbn [andb]. change (lower_c c :: lower t) with (lower (c :: t)). rewrite <- ES, split_ws_lower, split_ws_strip, W. cbn [map].
  assert (NW : is_number num (lower w) = true) by (unfold is_number; rewrite FL1, R4; reflexivity).
  rewrite NW, M. reflexivity.
Qed.
Lemma good_plain v : good_name v -> plain_name v.
Proof.
  intros (G1 & G2 & G3). unfold plain_name. do 3 (split; [intro K; apply G1 in K; unfold q2, quote2 in *; tauto|]). split.
  - clear G1 G3. change (ch 34) with q2 in G2. revert G2. generalize q2. induction v as [|c v IH]; intros p G; [reflexivity|]. cbn [adj]. rewrite (IH c).
    + destruct (G [] p c v eq_refl) as (A1 & A2 & A3). unfold Rname. rewrite andb_true_r. apply andb_true_intro. split; [apply andb_true_intro; split; apply negb_true_iff|].
      * destruct (chr_eqb p sp) eqn:E1; [|reflexivity]. destruct (chr_eqb c sp) eqn:E2; [|reflexivity]. apply chr_eqb_eq in E1, E2. elim A1. split; assumption.
      * destruct (chr_eqb p und) eqn:E1; [|reflexivity]. destruct (chr_eqb c und) eqn:E2; [|reflexivity]. apply chr_eqb_eq in E1, E2. elim A2. split; assumption.
      * destruct (br c) eqn:B; [|reflexivity]. cbn [negb orb]. apply chr_eqb_eq. apply A3. unfold br in B. apply orb_prop in B. destruct B as [B|B]; apply chr_eqb_eq in B; [left|right]; exact B.
    + intros a x y b E. apply (G (p :: a) x y b). rewrite E. reflexivity.
  - destruct v as [|c v]; [reflexivity|]. cbn [startswith]. rewrite andb_true_r. apply chr_eqb_neq. intros ->. exact (G3 v eq_refl).
Qed.
Lemma vars_line_strip vs : vs <> [] -> strip (S_ "VARIABLES = " ++ join (S_ ",") (map quoted vs)) = S_ "VARIABLES = " ++ join (S_ ",") (map quoted vs).
Proof.
  intro N. assert (EJ : exists s, join (S_ ",") (map quoted vs) = s ++ [q2]).
  { induction vs as [|v vs IH]; [congruence|]. destruct vs as [|v' vs']; [exists (q2 :: v); reflexivity|].
    destruct IH as (s & E); [discriminate|]. cbn [map] in *. rewrite join_cons by discriminate. rewrite E. exists (quoted v ++ S_ "," ++ s). rewrite <- !app_assoc. reflexivity. }
  destruct EJ as (s & ->). apply strip_noedge. unfold no_edge_space. rewrite app_assoc, rev_app_distr. reflexivity.
Qed.
Lemma process_vars (d : @dict (tv V)) vs : vs <> [] -> Forall good_name vs ->
  process num d (strip (S_ "VARIABLES = " ++ join (S_ ",") (map quoted vs))) (S_ "variables") = Ok (put d (S_ "variables") (Vars vs)).
Proof.
  intros N G. rewrite vars_line_strip by exact N. unfold process. change (str_eqb (S_ "variables") (S_ "title")) with false. change (str_eqb (S_ "variables") (S_ "variables")) with true.
  cbv iota. change (List.length (S_ "variables")) with 9.
  change (skipn 9 (S_ "VARIABLES = " ++ join (S_ ",") (map quoted vs))) with ([sp] ++ S_ "= " ++ join (S_ ",") (map quoted vs)).
  do 3 f_equal. replace (strip ([sp] ++ S_ "= " ++ join (S_ ",") (map quoted vs))) with (S_ "= " ++ join (S_ ",") (map quoted vs)).
  - apply split_variables_quoted; [exact N|]. eapply Forall_impl; [|exact G]. intros v. apply good_plain.
  - pose proof (vars_line_strip vs N) as E. change (S_ "VARIABLES = " ++ join (S_ ",") (map quoted vs)) with (S_ "VARIABLES " ++ ch 61 :: ([sp] ++ join (S_ ",") (map quoted vs))) in E.
    rewrite strip_keep in E by (reflexivity || discriminate). apply app_inv_head in E.
    pose proof (strip_pad [sp] (S_ "= " ++ join (S_ ",") (map quoted vs)) [] eq_refl eq_refl) as P. rewrite app_nil_r in P. rewrite P.
    change (S_ "= " ++ join (S_ ",") (map quoted vs)) with (ch 61 :: ([sp] ++ join (S_ ",") (map quoted vs))). rewrite strip_head by reflexivity. symmetry. exact E.
Qed.
(** The text of a table, and what is read from it on top of a dictionary *)
Definition table_text (title : option str) (vs : list str) (m : list (list V)) : str :=
  match title with Some t => S_ "TITLE = " ++ t ++ [nl] | None => [] end ++ S_ "VARIABLES = " ++ join (S_ ",") (map quoted vs) ++ [nl] ++ flat_map (fun r => row_text r ++ [nl]) m.
Definition put_title (d : @dict (tv V)) (title : option str) : @dict (tv V) := match title with Some t => put d (S_ "title") (Text (strip (S_ "= " ++ t))) | None => d end.
Lemma lines_rows m : Forall (fun r => ~ In nl (row_text r)) m -> lines_of (flat_map (fun r => row_text r ++ [nl]) m) = map row_text m ++ [[]].
Proof. intro H. induction H as [|r m H1 H2 IH]; [reflexivity|]. cbn [flat_map map app]. rewrite <- app_assoc. cbn [app]. rewrite lines_line by exact H1. rewrite IH. reflexivity. Qed.
Lemma not_in_names vs : Forall good_name vs -> ~ In nl (S_ "VARIABLES = " ++ join (S_ ",") (map quoted vs)).
Proof.
  intros G K. apply in_app_iff in K. destruct K as [K|K]; [vm_compute in K; repeat (destruct K as [K|K]; [discriminate K|]); destruct K|].
  revert K. apply not_in_join; [intros [K|[]]; discriminate|]. apply quoted_absent; [discriminate|]. eapply Forall_impl; [|exact G]. intros v (G1 & _) K. apply G1 in K. destruct K as [K _]. vm_compute in K. lia.
Qed.
Lemma read_table d title vs m : float_like num -> vs <> [] -> Forall good_name vs -> (forall t, title = Some t -> ~ In nl t) -> m <> [] ->
  Forall (fun r => readable_row num row_text r /\ r <> []) m ->
  read_tecplot num d (table_text title vs m) =
  let d' := put (put_title d title) (S_ "variables") (Vars vs) in
  match load_shape m with
  | Err e => (d', Err e)
  | Ok mm => if Nat.eqb (List.length (hd [] mm)) (List.length vs) then (put d' (S_ "data") (Data mm), Ok tt) else (d', Err BrokenFormatError)
  end.
Proof.
  intros FL NV G HT NM HR. unfold read_tecplot, table_text.
  assert (EL : lines_of (S_ "VARIABLES = " ++ join (S_ ",") (map quoted vs) ++ [nl] ++ flat_map (fun r => row_text r ++ [nl]) m) = (S_ "VARIABLES = " ++ join (S_ ",") (map quoted vs)) :: map row_text m ++ [[]]).
  { rewrite app_assoc. cbn [app]. rewrite lines_line by (apply not_in_names; exact G). f_equal. apply lines_rows. eapply Forall_impl; [|exact HR]. intros r K. apply K. }
  assert (NE : nonempty (strip (S_ "VARIABLES = " ++ join (S_ ",") (map quoted vs))) = true) by (rewrite vars_line_strip by exact NV; reflexivity).
  assert (MAIN : forall d1, scan d1 (strip (S_ "VARIABLES = " ++ join (S_ ",") (map quoted vs))) (S_ "variables") (map row_text m ++ [[]]) =
    let d' := put d1 (S_ "variables") (Vars vs) in match load_shape m with Err e => (d', Err e) | Ok mm => if Nat.eqb (List.length (hd [] mm)) (List.length vs) then (put d' (S_ "data") (Data mm), Ok tt) else (d', Err BrokenFormatError) end).
  { intro d1. destruct m as [|r0 m']; [congruence|]. pose proof (load_rows _ HR) as LR. inversion HR as [|? ? [H1 H2] H3]; subst. cbn [map app] in *.
    rewrite scan_numbers; [|exact FL|exact H1|exact H2|right; reflexivity|exact NE]. rewrite process_vars by assumption. rewrite LR. cbv zeta.
    destruct (load_shape (r0 :: m')); [|reflexivity]. rewrite get_put_same. reflexivity. }
  destruct title as [t|].
  - replace ((S_ "TITLE = " ++ t ++ [nl]) ++ S_ "VARIABLES = " ++ join (S_ ",") (map quoted vs) ++ [nl] ++ flat_map (fun r => row_text r ++ [nl]) m) with ((S_ "TITLE = " ++ t) ++ nl :: S_ "VARIABLES = " ++ join (S_ ",") (map quoted vs) ++ [nl] ++ flat_map (fun r => row_text r ++ [nl]) m) by (rewrite <- !app_assoc; reflexivity).
    rewrite lines_line. 2:{ intro K. apply in_app_iff in K. destruct K as [K|K]; [vm_compute in K; repeat (destruct K as [K|K]; [discriminate K|]); destruct K|]. exact (HT t eq_refl K). }
    rewrite EL, scan_title_vars by (apply HT; reflexivity). apply MAIN.
  - rewrite app_nil_l, EL, scan_vars. cbn [nonempty]. apply MAIN.
Qed.

(** ** Writing a table *)
Lemma write_table o f name title vs m : t_dict o = table title vs m -> name <> [] -> f name <> Dir ->
  exists f', tec_write row_text aux_text f o (Some name) = (f', mk_tec (Some name) (t_dict o), Ok tt) /\ f' name = Reg (map N_of_ascii (table_text title vs m)) /\ (forall q, q <> name -> f' q = f q).
Proof.
  intros D N FD. destruct name as [|n0 name]; [congruence|]. unfold tec_write. cbn [t_name t_dict]. rewrite D.
  set (ps := match title with Some t => [S_ "TITLE = " ++ t ++ [nl]] | None => [] end ++ [S_ "VARIABLES = " ++ join (S_ ",") (map quoted vs) ++ [nl]] ++ map (fun r => row_text r ++ [nl]) m).
  assert (E : map (fun p => s <- p ;; Ok (map N_of_ascii s)) (write_text row_text aux_text (table title vs m)) = map Ok (map (map N_of_ascii) ps)).
  { assert (G1 : get (table title vs m) (S_ "title") = option_map Text title) by (destruct title; reflexivity).
    assert (G2 : get (table title vs m) (S_ "variables") = Some (Vars vs)) by (destruct title; reflexivity).
    assert (G3 : get (table title vs m) (S_ "data") = Some (Data m)) by (destruct title; reflexivity).
    unfold write_text. rewrite G1, G2, G3.
    assert (G4 : flat_map (fun k => match get (table title vs m) k with Some v => [t <- value_text aux_text v ;; Ok (k ++ S_ " = " ++ t ++ [nl])] | None => [] end) (skipn 2 keywords) = []) by (destruct title; reflexivity).
    rewrite G4, app_nil_l. unfold ps. rewrite !map_app. f_equal; [destruct title; reflexivity|]. f_equal. rewrite !map_map. reflexivity. }
  rewrite E. destruct (write_file_ok f (n0 :: name) (map (map N_of_ascii) ps) FD) as (f' & A & B & C). rewrite A. exists f'. split; [reflexivity|]. split; [|exact C].
  rewrite B. f_equal. rewrite <- concat_map. f_equal. unfold ps, table_text. rewrite !concat_app, <- flat_map_concat_map. cbn [concat]. rewrite app_nil_r, <- !app_assoc.
  destruct title; cbn [concat]; rewrite ?app_nil_r, <- ?app_assoc; reflexivity.
Qed.
Lemma table_text_nonempty title vs m : exists c s, table_text title vs m = c :: s.
Proof. destruct title; eexists _, _; reflexivity. Qed.
Lemma tec_read_text f o name b : name <> [] -> f name = Reg (map N_of_ascii b) -> b <> [] ->
  tec_read num f o (Some name) = (mk_tec (Some name) (fst (read_tecplot num (t_dict o) b)), match snd (read_tecplot num (t_dict o) b) with Ok tt => Ok tt | Err e => Err (wrong e) end).
Proof.
  intros N F B. destruct name as [|n0 name]; [congruence|]. destruct b as [|c b]; [congruence|]. unfold tec_read. cbn [t_name t_dict]. rewrite F. cbn [map].
  change (ascii_of_N (N_of_ascii c) :: map ascii_of_N (map N_of_ascii b)) with (map ascii_of_N (map N_of_ascii (c :: b))). rewrite ascii_bytes.
  destruct (read_tecplot num (t_dict o) (c :: b)). reflexivity.
Qed.
Lemma shape_ok (m : list (list V)) n : 2 <= n -> 2 <= List.length m -> Forall (fun r => List.length r = n) m -> load_shape m = Ok m /\ List.length (hd [] m) = n.
Proof.
  intros N M H. destruct m as [|r [|r2 m]]; cbn [List.length] in M; try lia. inversion H as [|? ? H1 H2]; subst. split; [|reflexivity].
  unfold load_shape. replace (forallb (fun x => Nat.eqb (List.length x) (List.length r)) (r2 :: m)) with true.
  - destruct (Nat.eqb_spec (List.length (r :: r2 :: m)) 1) as [E|E]; [cbn in E; lia|]. destruct (Nat.eqb_spec (List.length r) 1) as [E1|E1]; [lia|]. reflexivity.
  - symmetry. apply forallb_forall. intros x Hx. apply Nat.eqb_eq. rewrite Forall_forall in H2. apply H2. exact Hx.
Qed.

(** ** C67: a table with at least two variables and two rows is written and read back, with its title changed as C42 says. *)
Theorem C67_table_round_trip o f name title vs m :
  float_like num -> name <> [] -> f name <> Dir ->
  t_dict o = table title vs m -> (forall t, title = Some t -> ~ In nl t) ->
  2 <= List.length vs -> Forall good_name vs ->
  2 <= List.length m -> Forall (fun r => List.length r = List.length vs /\ readable_row num row_text r) m ->
  exists f', tec_write row_text aux_text f o (Some name) = (f', mk_tec (Some name) (t_dict o), Ok tt) /\
             f' name = Reg (map N_of_ascii (table_text title vs m)) /\ (forall q, q <> name -> f' q = f q) /\
             tec_new num f' (Some name) = (mk_tec (Some name) (table (option_map (fun t => strip (S_ "= " ++ t)) title) vs m), Ok tt).
Proof.
  intros FL N FD D HT LV G LM HR. destruct (write_table o f name title vs m D N FD) as (f' & W & B & O). exists f'. split; [exact W|]. split; [exact B|]. split; [exact O|].
  destruct (table_text_nonempty title vs m) as (c & s & TT).
  assert (R : tec_new num f' (Some name) = tec_read num f' (mk_tec None []) (Some name)) by (destruct name; [congruence|reflexivity]).
  rewrite R, (tec_read_text _ _ _ (table_text title vs m)); [|exact N|exact B|rewrite TT; discriminate].
  cbn [t_dict]. rewrite read_table.
  - cbv zeta. destruct (shape_ok m (List.length vs) LV LM) as [S1 S2]; [eapply Forall_impl; [|exact HR]; intros r K; apply K|]. rewrite S1, S2, Nat.eqb_refl.
    cbn [fst snd]. destruct title; reflexivity.
  - exact FL.
  - intros ->. cbn in LV. lia.
  - exact G.
  - exact HT.
  - intros ->. cbn in LM. lia.
  - eapply Forall_impl; [|exact HR]. intros r [K1 K2]. split; [exact K2|]. intros ->. cbn in K1. lia.
Qed.
(** Without rows, the variables of the file are lost without a word: the last section of a file is only kept when numbers
    follow. *)
Theorem C67_no_rows_lost_refuted o f name title vs :
  name <> [] -> f name <> Dir -> t_dict o = table title vs [] -> (forall t, title = Some t -> ~ In nl t) -> vs <> [] -> Forall good_name vs ->
  exists f', tec_write row_text aux_text f o (Some name) = (f', mk_tec (Some name) (t_dict o), Ok tt) /\
             exists o2, tec_new num f' (Some name) = (o2, Ok tt) /\ get (t_dict o2) (S_ "variables") = None.
Proof.
  intros N FD D HT NV G. destruct (write_table o f name title vs [] D N FD) as (f' & W & B & O). exists f'. split; [exact W|].
  destruct (table_text_nonempty title vs []) as (c & s & TT).
  assert (R : tec_new num f' (Some name) = tec_read num f' (mk_tec None []) (Some name)) by (destruct name; [congruence|reflexivity]).
  rewrite R, (tec_read_text _ _ _ (table_text title vs [])); [|exact N|exact B|rewrite TT; discriminate]. cbn [t_dict].
  assert (E : read_tecplot num [] (table_text title vs []) = (put_title [] title, Ok tt)).
  { unfold read_tecplot, table_text. cbn [flat_map]. rewrite app_nil_r.
    assert (EL : lines_of (S_ "VARIABLES = " ++ join (S_ ",") (map quoted vs) ++ [nl]) = [S_ "VARIABLES = " ++ join (S_ ",") (map quoted vs); []]).
    { rewrite app_assoc. rewrite lines_line by (apply not_in_names; exact G). reflexivity. }
    destruct title as [t|].
    - replace ((S_ "TITLE = " ++ t ++ [nl]) ++ S_ "VARIABLES = " ++ join (S_ ",") (map quoted vs) ++ [nl]) with ((S_ "TITLE = " ++ t) ++ nl :: S_ "VARIABLES = " ++ join (S_ ",") (map quoted vs) ++ [nl]) by (rewrite <- !app_assoc; reflexivity).
      rewrite lines_line. 2:{ intro K. apply in_app_iff in K. destruct K as [K|K]; [vm_compute in K; repeat (destruct K as [K|K]; [discriminate K|]); destruct K|]. exact (HT t eq_refl K). }
      rewrite EL, scan_title_vars by (apply HT; reflexivity). reflexivity.
    - rewrite app_nil_l, EL, scan_vars. reflexivity. }
  rewrite E. eexists. split; [reflexivity|]. destruct title; reflexivity.
Qed.
(** A table with one row or one column is written, but cannot be read. *)
Theorem C67_single_row_or_column_unreadable_refuted o f name title vs m :
  float_like num -> name <> [] -> f name <> Dir -> t_dict o = table title vs m -> (forall t, title = Some t -> ~ In nl t) ->
  vs <> [] -> Forall good_name vs -> m <> [] -> Forall (fun r => List.length r = List.length vs /\ readable_row num row_text r) m ->
  List.length m = 1 \/ List.length vs = 1 ->
  exists f', tec_write row_text aux_text f o (Some name) = (f', mk_tec (Some name) (t_dict o), Ok tt) /\
             snd (tec_new num f' (Some name)) = Err WrongFormatError.
Proof.
  intros FL N FD D HT NV G NM HR L. destruct (write_table o f name title vs m D N FD) as (f' & W & B & O). exists f'. split; [exact W|].
  destruct (table_text_nonempty title vs m) as (c & s & TT).
  assert (R : tec_new num f' (Some name) = tec_read num f' (mk_tec None []) (Some name)) by (destruct name; [congruence|reflexivity]).
  rewrite R, (tec_read_text _ _ _ (table_text title vs m)); [|exact N|exact B|rewrite TT; discriminate].
  cbn [t_dict snd]. rewrite read_table; try assumption.
  - cbv zeta. assert (S1 : load_shape m = Err IndexError).
    { destruct m as [|r m']; [congruence|]. unfold load_shape. inversion HR as [|? ? [K1 _] H2]; subst.
      replace (forallb (fun x => Nat.eqb (List.length x) (List.length r)) m') with true.
      - rewrite K1. assert (Z : Nat.eqb (List.length (r :: m')) 1 || Nat.eqb (List.length vs) 1 = true) by (destruct L as [L|L]; rewrite L; [reflexivity|apply orb_true_r]). rewrite Z. reflexivity.
      - symmetry. apply forallb_forall. intros x Hx. apply Nat.eqb_eq. rewrite Forall_forall in H2. rewrite K1. apply H2. exact Hx. }
    rewrite S1. reflexivity.
  - eapply Forall_impl; [|exact HR]. intros r [K1 K2]. split; [exact K2|]. intros ->. cbn in K1. destruct vs; [congruence|discriminate].
Qed.

(** ** C42, repeated: after [k] rounds of writing and reading the title starts with [k] equal signs. *)
Fixpoint rounds (k : nat) (f : fs) (o : tec V) (name : str) : fs * tec V * res unit :=
  match k with
  | O => (f, o, Ok tt)
  | S k' => match tec_write row_text aux_text f o (Some name) with
            | (f', _, Err e) => (f', o, Err e)
            | (f', _, Ok tt) => match tec_new num f' (Some name) with (o', Err e) => (f', o', Err e) | (o', Ok tt) => rounds k' f' o' name end
            end
  end.
Fixpoint equal_signs (k : nat) (t : str) : str := match k with O => t | S k' => S_ "= " ++ equal_signs k' t end.
Theorem C42_every_round_adds_an_equal_sign_refuted k o f name t vs m :
  float_like num -> name <> [] -> f name <> Dir ->
  t_dict o = table (Some t) vs m -> ~ In nl t -> t <> [] -> no_edge_space t = true ->
  2 <= List.length vs -> Forall good_name vs ->
  2 <= List.length m -> Forall (fun r => List.length r = List.length vs /\ readable_row num row_text r) m ->
  exists f' o', rounds k f o name = (f', o', Ok tt) /\ t_dict o' = table (Some (equal_signs k t)) vs m.
Proof.
  intros FL N FD D NT NE TE LV G LM HR. revert o f t FD D NT NE TE. induction k as [|k IH]; intros o f t FD D NT NE TE.
  - exists f, o. split; [reflexivity|exact D].
  - assert (TS : strip (S_ "= " ++ t) = S_ "= " ++ t).
    { apply strip_noedge. unfold no_edge_space in *. apply andb_inv in TE. destruct TE as [_ TE]. rewrite rev_app_distr. destruct (rev t) as [|x r] eqn:E; [apply (f_equal (@rev ascii)) in E; rewrite rev_involutive in E; cbn in E; congruence|]. exact TE. }
    destruct (C67_table_round_trip o f name (Some t) vs m FL N FD D) as (f1 & W & B & O & R); try assumption; [intros t' E; injection E as <-; exact NT|].
    destruct (IH (mk_tec (Some name) (table (Some (S_ "= " ++ t)) vs m)) f1 (S_ "= " ++ t)) as (f' & o' & E1 & E2).
    + rewrite B. discriminate.
    + reflexivity.
    + intro K. apply in_app_iff in K. destruct K as [K|K]; [|tauto]. vm_compute in K. destruct K as [K|[K|[]]]; discriminate K.
    + discriminate.
    + rewrite <- TS. apply strip_no_edge.
    + exists f', o'. split.
      * cbn [rounds]. rewrite W, R. cbn [option_map]. rewrite TS. exact E1.
      * rewrite E2. f_equal. f_equal. clear. induction k as [|k IH]; [reflexivity|]. cbn [equal_signs] in *. rewrite IH. reflexivity.
Qed.

(** ** C68: reading again *)
(** read() without a name never works on an object that has one: the name given, not the name kept, is opened.  The object
    stays as it is. *)
Theorem C68_read_again_never_works_refuted f o name b : t_name o = Some name -> name <> [] -> f name = Reg b -> b <> [] ->
  tec_read num f o None = (o, Err WrongFormatError).
Proof. intros H N F B. unfold tec_read. rewrite H. destruct name; [congruence|]. rewrite F. destruct b; [congruence|reflexivity]. Qed.
(** What the object held before stays when the new file has no such section: the title of the last file is that of an
    earlier one. *)
Theorem C68_title_of_earlier_file_refuted f o name b o' r : name <> [] -> f name = Reg b ->
  Forall (fun l => startswith (lower (strip l)) (S_ "title") = false) (text_lines b) ->
  tec_read num f o (Some name) = (o', r) -> get (t_dict o') (S_ "title") = get (t_dict o) (S_ "title").
Proof.
  intros N F H R. destruct name as [|n0 name]; [congruence|]. unfold tec_read in R. cbn [t_name t_dict] in R. rewrite F in R.
  destruct b as [|b0 b]; [injection R as <- _; reflexivity|]. destruct (read_tecplot num (t_dict o) (map ascii_of_N (b0 :: b))) as [d2 r2] eqn:E. injection R as <- _. cbn [t_dict].
  unfold read_tecplot in E. change d2 with (fst (d2, r2)). rewrite <- E. apply scan_keeps_title; [discriminate|exact H].
Qed.
(** The table of a file replaces the one the object had, and no other key changes. *)
Theorem C68_table_replaced_partial f o name title vs m :
  float_like num -> name <> [] -> f name = Reg (map N_of_ascii (table_text title vs m)) -> (forall t, title = Some t -> ~ In nl t) ->
  2 <= List.length vs -> Forall good_name vs -> 2 <= List.length m -> Forall (fun r => List.length r = List.length vs /\ readable_row num row_text r) m ->
  exists o', tec_read num f o (Some name) = (o', Ok tt) /\ t_name o' = Some name /\
    get (t_dict o') (S_ "variables") = Some (Vars vs) /\ get (t_dict o') (S_ "data") = Some (Data m) /\
    get (t_dict o') (S_ "title") = match title with Some t => Some (Text (strip (S_ "= " ++ t))) | None => get (t_dict o) (S_ "title") end /\
    (forall k, k <> S_ "variables" -> k <> S_ "data" -> k <> S_ "title" -> get (t_dict o') k = get (t_dict o) k).
Proof.
  intros FL N F HT LV G LM HR. destruct (table_text_nonempty title vs m) as (c & s & TT).
  rewrite (tec_read_text _ _ _ (table_text title vs m)); [|exact N|exact F|rewrite TT; discriminate].
  rewrite read_table.
  - cbv zeta. destruct (shape_ok m (List.length vs) LV LM) as [S1 S2]; [eapply Forall_impl; [|exact HR]; intros r K; apply K|]. rewrite S1, S2, Nat.eqb_refl.
    eexists. split; [reflexivity|]. cbn [t_name t_dict fst]. split; [reflexivity|]. split; [rewrite get_put_other by discriminate; apply get_put_same|].
    split; [apply get_put_same|]. split.
    + rewrite !get_put_other by discriminate. destruct title; [apply get_put_same|reflexivity].
    + intros k K1 K2 K3. rewrite !get_put_other by assumption. destruct title; [apply get_put_other; exact K3|reflexivity].
  - exact FL.
  - intros ->. cbn in LV. lia.
  - exact G.
  - exact HT.
  - intros ->. cbn in LM. lia.
  - eapply Forall_impl; [|exact HR]. intros r [K1 K2]. split; [exact K2|]. intros ->. cbn in K1. lia.
Qed.
(** An empty file is reported and the object keeps what it had; so is a file that is not there. *)
Theorem C68_empty_or_missing_file_reported f o name : name <> [] ->
  (f name = Reg [] -> tec_read num f o (Some name) = (mk_tec (Some name) (t_dict o), Err EmptyFileError)) /\
  (f name = Missing -> tec_read num f o (Some name) = (mk_tec (Some name) (t_dict o), Err OSError2)).
Proof. intro N. destruct name; [congruence|]. split; intro F; unfold tec_read; cbn [t_name t_dict]; rewrite F; reflexivity. Qed.
(** Without any name nothing is written, and this is reported. *)
Theorem C67_no_name_nothing_written f o : t_name o = None -> tec_write row_text aux_text f o None = (f, o, Err PlainException).
Proof. intro H. unfold tec_write. rewrite H. reflexivity. Qed.
End Props.

(** ** A concrete table: digits as numbers *)
Definition num_digit (w : str) : option nat := match w with [c] => if is_digit c then Some (ord c - 48) else None | _ => None end.
Definition row_digits (r : list nat) : str := join (S_ "  ") (map (fun n => [ch (n + 48)]) r).
Definition no_aux (_ : @dict (aux nat)) : str := [].
Lemma digit_float_like : float_like num_digit.
Proof.
  split.
  - intro w. destruct w as [|c [|c' w]]; try reflexivity. cbn [lower map num_digit]. revert c.
    assert (G : forall c, Bool.eqb (is_digit (lower_c c)) (is_digit c) && (negb (is_digit c) || chr_eqb (lower_c c) c) = true) by (apply char_sweep; vm_compute; reflexivity).
    intro c. specialize (G c). apply andb_inv in G. destruct G as [G1 G2]. apply eqb_prop in G1. rewrite G1. destruct (is_digit c); [|reflexivity].
    cbn [negb orb] in G2. apply chr_eqb_eq in G2. rewrite G2. reflexivity.
  - intros w v _ H. destruct w as [|c [|c' w]]; try discriminate H. cbn [num_digit] in H. exists c, []. split; [reflexivity|].
    revert c H. assert (G : forall c, negb (is_digit c) || mem_chr (lower_c c) (S_ "0123456789+-.in") = true) by (apply char_sweep; vm_compute; reflexivity).
    intros c H. specialize (G c). destruct (is_digit c); [|discriminate H]. cbn [negb orb] in G. apply mem_chr_iff. exact G.
Qed.
Lemma good_by_computation v :
  forallb (fun c => (32 <=? ord c) && negb (chr_eqb c (ch 34)) && negb (chr_eqb c (ch 44)) && negb (chr_eqb c (ch 61))) v = true ->
  adj Rname (ch 34) v = true -> startswith v [ch 32] = false -> good_name v.
Proof.
  intros H1 H2 H3. split; [|split].
  - intros c Hc. rewrite forallb_forall in H1. specialize (H1 c Hc). apply andb_inv in H1. destruct H1 as [H1 K3]. apply andb_inv in H1. destruct H1 as [H1 K2]. apply andb_inv in H1. destruct H1 as [K0 K1].
    apply Nat.leb_le in K0. apply negb_true_iff in K1, K2, K3. apply chr_eqb_neq in K1, K2, K3. tauto.
  - clear H1 H3. revert H2. generalize (ch 34). induction v as [|c v IH]; intros p H2 a x y b E.
    + destruct a as [|a0 [|a1 a]]; discriminate E.
    + cbn [adj] in H2. apply andb_inv in H2. destruct H2 as [K H2]. destruct a as [|a0 a].
      * injection E as -> -> _. unfold Rname in K. apply andb_inv in K. destruct K as [K K3]. apply andb_inv in K. destruct K as [K1 K2]. apply negb_true_iff in K1, K2. split; [|split].
        -- intros [-> ->]. discriminate K1.
        -- intros [-> ->]. discriminate K2.
        -- intro B. assert (BB : br y = true) by (unfold br; destruct B as [-> | ->]; reflexivity). rewrite BB in K3. apply chr_eqb_eq in K3. exact K3.
      * injection E as _ E. exact (IH c H2 a x y b E).
  - intros r ->. cbn in H3. discriminate H3.
Qed.
Definition ex_names : list str := [S_ "x_[m]"; S_ "CoordinateY"; S_ "Vel mean_(m/s)"].
Definition ex_rows : list (list nat) := [[1; 2; 3]; [4; 5; 6]].
Lemma ex_good : Forall good_name ex_names.
Proof. repeat (apply Forall_cons; [apply good_by_computation; reflexivity|]). apply Forall_nil. Qed.
Lemma ex_readable : Forall (fun r => List.length r = List.length ex_names /\ readable_row num_digit row_digits r) ex_rows.
Proof.
  repeat (apply Forall_cons; [split; [reflexivity|]; split; [|split; [|reflexivity]]; intro K; vm_compute in K; repeat (destruct K as [K|K]; [discriminate K|]); exact K|]).
  apply Forall_nil.
Qed.
Definition ex_fs : fs := fun _ => Missing.
(** The hypotheses of C67 and C42 are met, and the text is as expected. *)
Example C67_example : exists f', tec_write row_digits no_aux ex_fs (mk_tec None (table (Some (S_ "My title")) ex_names ex_rows)) (Some (S_ "f.dat")) = (f', mk_tec (Some (S_ "f.dat")) (table (Some (S_ "My title")) ex_names ex_rows), Ok tt) /\
  text_lines (match f' (S_ "f.dat") with Reg b => b | _ => [] end) = [S_ "TITLE = My title"; S_ "VARIABLES = " ++ [ch 34] ++ S_ "x_[m]" ++ [ch 34; ch 44; ch 34] ++ S_ "CoordinateY" ++ [ch 34; ch 44; ch 34] ++ S_ "Vel mean_(m/s)" ++ [ch 34]; S_ "1  2  3"; S_ "4  5  6"; []] /\
  tec_new num_digit f' (Some (S_ "f.dat")) = (mk_tec (Some (S_ "f.dat")) (table (Some (S_ "= My title")) ex_names ex_rows), Ok tt).
Proof. eexists. split; [reflexivity|]. split; vm_compute; reflexivity. Qed.
Example C67_hypotheses_met : exists f', tec_write row_digits no_aux ex_fs (mk_tec None (table (Some (S_ "My title")) ex_names ex_rows)) (Some (S_ "f.dat")) = (f', mk_tec (Some (S_ "f.dat")) (table (Some (S_ "My title")) ex_names ex_rows), Ok tt).
Proof.
  destruct (C67_table_round_trip num_digit row_digits no_aux (mk_tec None (table (Some (S_ "My title")) ex_names ex_rows)) ex_fs (S_ "f.dat") (Some (S_ "My title")) ex_names ex_rows) as (f' & W & _).
  - exact digit_float_like.
  - discriminate.
  - discriminate.
  - reflexivity.
  - intros t E K. injection E as <-. vm_compute in K. repeat (destruct K as [K|K]; [discriminate K|]). exact K.
  - cbn. lia.
  - exact ex_good.
  - cbn. lia.
  - exact ex_readable.
  - exists f'. exact W.
Qed.
(** Three rounds *)
Example C42_example : exists f' o', rounds num_digit row_digits no_aux 3 ex_fs (mk_tec None (table (Some (S_ "T")) ex_names ex_rows)) (S_ "f.dat") = (f', o', Ok tt) /\ get (t_dict o') (S_ "title") = Some (Text (S_ "= = = T")).
Proof. eexists _, _. split; [vm_compute; reflexivity|reflexivity]. Qed.
(** A name with a bracket that no underscore precedes comes back changed. *)
Theorem C67_bracket_name_changed_refuted : exists f', tec_write row_digits no_aux ex_fs (mk_tec None (table None [S_ "a"; S_ "v[m/s]"] [[1; 2]; [3; 4]])) (Some (S_ "f.dat")) = (f', mk_tec (Some (S_ "f.dat")) (table None [S_ "a"; S_ "v[m/s]"] [[1; 2]; [3; 4]]), Ok tt) /\
  tec_new num_digit f' (Some (S_ "f.dat")) = (mk_tec (Some (S_ "f.dat")) (table None [S_ "a"; S_ "v_[m/s]"] [[1; 2]; [3; 4]]), Ok tt).
Proof. eexists. split; [reflexivity|]. vm_compute. reflexivity. Qed.
(** The entries of a zone do not survive: they come back as one text under an empty name. *)
Theorem C67_zone_lost_refuted : exists f' o o2, get (t_dict o) (S_ "zone") = Some (Aux [(S_ "T", AuxText (S_ "outer"))]) /\
  tec_write row_digits (fun _ => S_ "{'T': 'outer'}") ex_fs o (Some (S_ "f.dat")) = (f', mk_tec (Some (S_ "f.dat")) (t_dict o), Ok tt) /\
  tec_new num_digit f' (Some (S_ "f.dat")) = (o2, Ok tt) /\ get (t_dict o2) (S_ "zone") = Some (Aux [([], AuxText (S_ "{'T': 'outer'}"))]) /\
  get (t_dict o2) (S_ "variables") = Some (Vars ex_names) /\ get (t_dict o2) (S_ "data") = Some (Data ex_rows).
Proof.
  eexists _, (mk_tec None (put (table None ex_names ex_rows) (S_ "zone") (Aux [(S_ "T", AuxText (S_ "outer"))]))), _.
  split; [reflexivity|]. split; [reflexivity|]. split; [vm_compute; reflexivity|]. repeat split; reflexivity.
Qed.
Example C68_example : exists f', tec_write row_digits no_aux ex_fs (mk_tec None (table None ex_names ex_rows)) (Some (S_ "f.dat")) = (f', mk_tec (Some (S_ "f.dat")) (table None ex_names ex_rows), Ok tt) /\
  (let o := mk_tec (Some (S_ "g.dat")) (table (Some (S_ "Old")) ex_names ex_rows) in
   get (t_dict (fst (tec_read num_digit f' o (Some (S_ "f.dat"))))) (S_ "title") = Some (Text (S_ "Old"))) /\
  snd (tec_read num_digit f' (mk_tec (Some (S_ "f.dat")) []) None) = Err WrongFormatError.
Proof. eexists. split; [reflexivity|]. split; vm_compute; reflexivity. Qed.

Print Assumptions C42_title_never_comes_back_refuted.
Print Assumptions C42_every_round_adds_an_equal_sign_refuted.
Print Assumptions C67_table_round_trip.
Print Assumptions C67_no_rows_lost_refuted.
Print Assumptions C67_single_row_or_column_unreadable_refuted.
Print Assumptions C67_bracket_name_changed_refuted.
Print Assumptions C68_read_again_never_works_refuted.
Print Assumptions C68_title_of_earlier_file_refuted.
Print Assumptions C68_table_replaced_partial.
Print Assumptions C68_empty_or_missing_file_reported.
Print Assumptions C67_no_name_nothing_written.
Print Assumptions C67_zone_lost_refuted.
