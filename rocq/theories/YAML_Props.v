(** C46: the YAML subset. *)
From Verif Require Import Py PyFacts TextFacts ListFacts Dict YAML_Model.
From Coq Require Import ZifyBool ZifyNat.
Local Open Scope nat_scope.

(** ** Documents *)
(** Blanks; an optional comment *)
Definition blank (s : str) : Prop := forallb is_space s = true.
Definition note (s : str) : Prop := s = [] \/ exists t, s = "#"%char :: t.
Definition without (cs : list ascii) (s : str) : Prop := Forall (fun c => ~ In c s) cs.
(** A line of a list: indentation, elements, comment *)
Record row := mk_row { r_in : str; r_gap : str; r_cells : list str; r_end : str; r_note : str }.
Definition row_line (r : row) : str := r_in r ++ "-"%char :: r_gap r ++ "["%char :: join [","%char] (r_cells r) ++ "]"%char :: r_end r ++ r_note r.
(** A line without content; a key with a value; a key with a list *)
Inductive block := Empty (l c : str) | Pair (pre key val c : str) | Rows (pre key gap c : str) (rs : list row).
Definition block_lines (b : block) : list str :=
  match b with
  | Empty l c => [l ++ c]
  | Pair pre key val c => [pre ++ key ++ ":"%char :: val ++ c]
  | Rows pre key gap c rs => (pre ++ key ++ ":"%char :: gap ++ c) :: map row_line rs
  end.
Definition good_key (k : str) : Prop := without ["#"%char; ":"%char] k /\ exists c t, k = c :: t /\ is_space c = false /\ c <> "-"%char.
Definition good_cell (s : str) : Prop := without [","%char; "["%char; "]"%char; "#"%char] s /\ strip s <> [].
Definition good_row (r : row) : Prop := blank (r_in r) /\ blank (r_gap r) /\ blank (r_end r) /\ note (r_note r) /\ r_cells r <> [] /\ Forall good_cell (r_cells r).
Definition good_block (b : block) : Prop :=
  match b with
  | Empty l c => blank l /\ note c
  | Pair pre key val c => blank pre /\ good_key key /\ without ["#"%char; ":"%char] val /\ strip val <> [] /\ note c
  | Rows pre key gap c rs => blank pre /\ good_key key /\ blank gap /\ note c /\ rs <> [] /\ Forall good_row rs
  end.

Section Spec.
Context {V : Type}.
Variable flt : str -> option V.
Definition int64 (s : str) : option Z := match int_ s with Ok z => if ((- 9223372036854775808 <=? z) && (z <=? 9223372036854775807))%Z then Some z else None | Err _ => None end.
(** What a list means: numbers of [n] columns, whole ones if the first row has whole numbers only *)
Definition ints (rs : list row) (n : nat) (m : list (list Z)) : Prop := Forall2 (fun r zs => map (fun s => int64 (strip s)) (r_cells r) = map Some zs /\ List.length zs = n) rs m.
Definition floats (rs : list row) (n : nat) (m : list (list V)) : Prop :=
  Forall2 (fun r vs => map (fun s => flt (strip s)) (r_cells r) = map Some vs /\ List.length vs = n) rs m /\
  match rs with r :: _ => Exists (fun s => int64 (strip s) = None) (r_cells r) | [] => False end.
Definition value_of (s : str) : yval V := match int_ (strip s) with Ok z => Int z | Err _ => match flt (strip s) with Some v => Flt v | None => Txt (strip s) end end.
Inductive says : block -> option (str * yval V) -> Prop :=
| says_empty l c : says (Empty l c) None
| says_pair pre key val c : says (Pair pre key val c) (Some (key, value_of val))
| says_ints pre key gap c rs n m : ints rs n m -> says (Rows pre key gap c rs) (Some (key, MatI n m))
| says_floats pre key gap c rs n m : floats rs n m -> says (Rows pre key gap c rs) (Some (key, MatF n m)).
(** The keys and values in order, put into the dictionary *)
Fixpoint put_all (d : @dict (yval V)) (es : list (option (str * yval V))) : @dict (yval V) :=
  match es with [] => d | Some (k, v) :: es' => put_all (put d k v) es' | None :: es' => put_all d es' end.
End Spec.

(** ** Lemmas *)
Lemma absent_b c s : ~ In c s -> forallb (fun x => negb (chr_eqb x c)) s = true.
Proof. intro H. apply forallb_forall. intros x Hx. apply negb_true_iff, chr_eqb_neq. intros ->. exact (H Hx). Qed.
Lemma cut_note a n : ~ In "#"%char a -> note n -> cleanComment (a ++ n) = strip a.
Proof.
  intros H [->|(t & ->)]; unfold cleanComment, split_chr.
  - rewrite app_nil_r, split_on_none; [reflexivity|]. apply (absent_b "#"%char). exact H.
  - rewrite split_on_app_sep; [reflexivity|apply (absent_b "#"%char); exact H|reflexivity].
Qed.
Lemma blank_absent c s : blank s -> is_space c = false -> ~ In c s.
Proof. intros B E C. unfold blank in B. rewrite forallb_forall in B. rewrite (B c C) in E. discriminate E. Qed.
Lemma strip_lead a s : blank a -> strip (a ++ s) = strip s.
Proof. intro B. pose proof (strip_pad a s [] B eq_refl) as P. rewrite app_nil_r in P. exact P. Qed.
Lemma strip_trail s b : blank b -> strip (s ++ b) = strip s.
Proof. intro B. exact (strip_pad [] s b eq_refl B). Qed.
Lemma rstrip_cons c s : is_space c = false -> exists t, rstrip (c :: s) = c :: t.
Proof.
  intro H. destruct (rstrip_decomp (c :: s)) as (w & W & D). destruct (rstrip (c :: s)) as [|z r] eqn:E.
  - cbn [app] in D. rewrite <- D in W. cbn in W. rewrite H in W. discriminate W.
  - injection D as <- _. exists r. reflexivity.
Qed.
Lemma rstrip_keep' a c s : is_space c = false -> rstrip (a ++ c :: s) = a ++ rstrip (c :: s).
Proof.
  intro H. destruct (rstrip_decomp (c :: s)) as (w & W & D). rewrite D at 1. rewrite app_assoc, rstrip_app_blank by exact W.
  destruct (rstrip_cons c s H) as (t & E). rewrite E in *.
  assert (L : exists t' x, c :: t = t' ++ [x] /\ is_space x = false).
  { pose proof (rstrip_idem (c :: s)) as I. rewrite E in I. destruct (@exists_last _ (c :: t) ltac:(discriminate)) as (t' & x & L). exists t', x. split; [exact L|].
    destruct (is_space x) eqn:X; [|reflexivity]. exfalso. rewrite L in I. rewrite rstrip_app_blank in I by (cbn; rewrite X; reflexivity).
    destruct (rstrip_decomp t') as (w' & _ & D'). rewrite I in D'. apply (f_equal (@List.length _)) in D'. rewrite !app_length in D'. cbn in D'. lia. }
  destruct L as (t' & x & L & X). rewrite L, app_assoc. apply rstrip_last. exact X.
Qed.
Lemma strip_start c s : is_space c = false -> strip (c :: s) = rstrip (c :: s).
Proof. intro H. unfold strip. rewrite lstrip_head by exact H. reflexivity. Qed.
Lemma strip_rstrip s : strip (rstrip s) = strip s.
Proof. destruct (rstrip_decomp s) as (w & W & D). rewrite D at 2. rewrite strip_trail by exact W. reflexivity. Qed.
(** The text of a line with a key *)
Lemma key_line pre k v c : blank pre -> good_key k -> ~ In "#"%char v -> note c -> cleanComment (pre ++ k ++ ":"%char :: v ++ c) = k ++ ":"%char :: rstrip v.
Proof.
  intros B (W & a & t & -> & SA & _) NV NC. inversion W as [|? ? W1 _]; subst.
  replace (pre ++ (a :: t) ++ ":"%char :: v ++ c) with ((pre ++ (a :: t) ++ ":"%char :: v) ++ c) by (rewrite <- !app_assoc; reflexivity).
  rewrite cut_note; [|intro C; apply in_app_or in C; destruct C as [C|C]; [revert C; apply blank_absent; [exact B|reflexivity]|]; apply in_app_or in C; destruct C as [C|[C|C]]; [exact (W1 C)|discriminate C|exact (NV C)]|exact NC].
  rewrite strip_lead by exact B. cbn [app]. rewrite strip_start by exact SA. change (a :: t ++ ":"%char :: v) with ((a :: t) ++ ":"%char :: v).
  rewrite rstrip_keep' by reflexivity. change (":"%char :: v) with ([":"%char] ++ v). cbn [app]. f_equal. f_equal.
  destruct (rstrip_decomp v) as (w & Wb & D). rewrite D at 1. change (":"%char :: rstrip v ++ w) with ((":"%char :: rstrip v) ++ w). rewrite rstrip_app_blank by exact Wb.
  destruct (rstrip v) as [|x y] eqn:E; [reflexivity|].
  assert (L : exists t' z, x :: y = t' ++ [z]) by (destruct (@exists_last _ (x :: y) ltac:(discriminate)) as (t' & z & L); exists t', z; exact L). destruct L as (t' & z & L).
  rewrite L. change (":"%char :: t' ++ [z]) with ((":"%char :: t') ++ [z]). apply rstrip_last.
  destruct (is_space z) eqn:Z; [|reflexivity]. exfalso. pose proof (rstrip_idem v) as I. rewrite E, L in I. rewrite rstrip_app_blank in I by (cbn; rewrite Z; reflexivity).
  destruct (rstrip_decomp t') as (w' & _ & D'). rewrite I in D'. apply (f_equal (@List.length _)) in D'. rewrite !app_length in D'. cbn in D'. lia.
Qed.
Lemma split_key k v : ~ In ":"%char k -> ~ In ":"%char v -> split_chr (ch 58) (k ++ ":"%char :: v) = [k; v].
Proof.
  intros H1 H2. unfold split_chr. rewrite split_on_app_sep; [|apply (absent_b ":"%char); exact H1|reflexivity]. rewrite split_on_none; [reflexivity|apply (absent_b ":"%char); exact H2].
Qed.
Lemma in_rstrip c s : In c (rstrip s) -> In c s.
Proof. intro H. destruct (rstrip_decomp s) as (w & _ & D). rewrite D. apply in_or_app. left. exact H. Qed.
Lemma replace_absent c s : ~ In c s -> replace_chr c [] s = s.
Proof.
  intro H. unfold replace_chr. induction s as [|x s IH]; [reflexivity|]. cbn [flat_map]. destruct (chr_eqb x c) eqn:E; [apply chr_eqb_eq in E; elim H; left; exact E|].
  cbn [app]. f_equal. apply IH. intro C. apply H. right. exact C.
Qed.
Lemma replace_app c a b : replace_chr c [] (a ++ b) = replace_chr c [] a ++ replace_chr c [] b.
Proof. unfold replace_chr. apply flat_map_app. Qed.
Lemma in_join_cells x ws : In x (join [","%char] ws) -> x = ","%char \/ exists w, In w ws /\ In x w.
Proof.
  induction ws as [|w ws IH]; intro H; [destruct H|]. destruct ws as [|w' ws]; [right; exists w; split; [now left|exact H]|]. rewrite join_cons in H by discriminate.
  apply in_app_or in H. destruct H as [H|H]; [right; exists w; split; [now left|exact H]|]. apply in_app_or in H. destruct H as [[H|[]]|H]; [left; congruence|].
  destruct (IH H) as [H'|(v & H1 & H2)]; [left; exact H'|right; exists v; split; [now right|exact H2]].
Qed.
Lemma cells_absent x ws : Forall good_cell ws -> In x ["["%char; "]"%char; "#"%char] -> ~ In x (join [","%char] ws).
Proof.
  intros F Hx C. apply in_join_cells in C. destruct C as [->|(w & Hw & C)]; [repeat (destruct Hx as [Hx|Hx]; [discriminate Hx|]); destruct Hx|].
  rewrite Forall_forall in F. destruct (F w Hw) as [W _]. unfold without in W. rewrite Forall_forall in W. apply (W x); [right; exact Hx|exact C].
Qed.
(** The elements of a line of a list *)
Lemma row_pieces r : good_row r -> exists c0 cs, r_cells r = c0 :: cs /\ pieces (row_line r) = (r_gap r ++ c0) :: cs.
Proof.
  intros (B1 & B2 & B3 & N & NC & F). destruct (r_cells r) as [|c0 cs] eqn:E; [congruence|]. exists c0, cs. split; [reflexivity|]. unfold pieces, row_line. rewrite E.
  replace (r_in r ++ "-"%char :: r_gap r ++ "["%char :: join [","%char] (c0 :: cs) ++ "]"%char :: r_end r ++ r_note r)
    with ((r_in r ++ ("-"%char :: r_gap r ++ "["%char :: join [","%char] (c0 :: cs) ++ ["]"%char]) ++ r_end r) ++ r_note r)
    by (repeat (rewrite <- ?app_assoc; cbn [app]); rewrite <- ?app_assoc; cbn [app]; rewrite <- ?app_assoc; reflexivity).
  assert (NH : ~ In "#"%char ("-"%char :: r_gap r ++ "["%char :: join [","%char] (c0 :: cs) ++ ["]"%char])).
  { intros [C|C]; [discriminate C|]. apply in_app_or in C. destruct C as [C|[C|C]]; [revert C; apply blank_absent; [exact B2|reflexivity]|discriminate C|].
    apply in_app_or in C. destruct C as [C|[C|[]]]; [|discriminate C]. revert C. apply cells_absent; [exact F|cbn; tauto]. }
  rewrite cut_note; [|intro C; apply in_app_or in C; destruct C as [C|C]; [revert C; apply blank_absent; [exact B1|reflexivity]|]; apply in_app_or in C; destruct C as [C|C]; [exact (NH C)|revert C; apply blank_absent; [exact B3|reflexivity]]|exact N].
  rewrite strip_pad by assumption.
  rewrite strip_noedge.
  2:{ unfold no_edge_space. change (is_space "-"%char) with false. cbn [negb andb]. rewrite app_comm_cons, app_comm_cons, app_assoc, rev_app_distr. reflexivity. }
  cbn [skipn]. rewrite replace_app. rewrite (replace_absent (ch 93) (r_gap r)) by (apply blank_absent; [exact B2|reflexivity]).
  change ("["%char :: join [","%char] (c0 :: cs) ++ ["]"%char]) with (["["%char] ++ join [","%char] (c0 :: cs) ++ ["]"%char]). rewrite !replace_app.
  rewrite (replace_absent (ch 93) (join [","%char] (c0 :: cs))) by (apply cells_absent; [exact F|cbn; tauto]).
  change (replace_chr (ch 93) [] ["["%char]) with ["["%char]. change (replace_chr (ch 93) [] ["]"%char]) with (@nil ascii).
  rewrite (replace_absent (ch 91) (r_gap r)) by (apply blank_absent; [exact B2|reflexivity]).
  rewrite (replace_absent (ch 91) (join [","%char] (c0 :: cs))) by (apply cells_absent; [exact F|cbn; tauto]).
  change (replace_chr (ch 91) [] ["["%char]) with (@nil ascii). change (replace_chr (ch 91) [] []) with (@nil ascii). rewrite app_nil_r. cbn [app].
  assert (J : r_gap r ++ join [","%char] (c0 :: cs) = join [","%char] ((r_gap r ++ c0) :: cs)) by (rewrite !join_flat, app_assoc; reflexivity). rewrite J.
  apply split_chr_join; [discriminate|]. apply forallb_forall. intros w Hw. apply negb_true_iff, not_true_is_false. intro M. apply mem_chr_iff in M.
  rewrite Forall_forall in F. assert (NW : forall x, In x (c0 :: cs) -> ~ In (ch 44) x) by (intros x Hx; destruct (F x Hx) as [W _]; inversion W; assumption).
  destruct Hw as [<-|Hw]; [|exact (NW w (or_intror Hw) M)]. apply in_app_or in M. destruct M as [M|M]; [revert M; apply blank_absent; [exact B2|reflexivity]|exact (NW c0 (or_introl eq_refl) M)].
Qed.
Lemma row_elements r : good_row r -> map strip (filter nonempty (pieces (row_line r))) = map strip (r_cells r) /\ filter nonempty (map strip (pieces (row_line r))) = map strip (r_cells r).
Proof.
  intro G. destruct (row_pieces r G) as (c0 & cs & E & P). destruct G as (_ & B & _ & _ & _ & F). rewrite P, E in *. apply Forall_cons_iff in F. destruct F as [[_ F0] F].
  assert (S0 : strip (r_gap r ++ c0) = strip c0) by (apply strip_lead; exact B).
  assert (T : map strip (filter nonempty cs) = map strip cs /\ filter nonempty (map strip cs) = map strip cs).
  { clear -F. induction F as [|x l [_ F1] F2 [IH1 IH2]]; [split; reflexivity|]. split; cbn [map filter].
    - destruct x as [|a x]; [elim F1; reflexivity|]. cbn [nonempty map]. rewrite IH1. reflexivity.
    - destruct (strip x) as [|a y]; [congruence|]. cbn [nonempty]. rewrite IH2. reflexivity. }
  destruct T as [T1 T2]. split; cbn [map filter].
  - destruct (r_gap r ++ c0) as [|a x] eqn:Q; [cbn in S0; congruence|]. cbn [nonempty map]. rewrite S0, T1. reflexivity.
  - rewrite S0. destruct (strip c0) as [|a x] eqn:Q; [congruence|]. cbn [nonempty]. rewrite T2. reflexivity.
Qed.
Lemma to_int64_spec s : to_int64 s = match int64 s with Some z => Ok z | None => match int_ s with Ok _ => Err OverflowError | Err e => Err e end end.
Proof.
  unfold to_int64, int64. destruct (int_ s) as [z|e]; [|reflexivity]. change (2 ^ 63)%Z with 9223372036854775808%Z.
  destruct (Z.leb_spec (-9223372036854775808) z), (Z.ltb_spec z 9223372036854775808), (Z.leb_spec z 9223372036854775807); try lia; cbn [andb]; try reflexivity; destruct (Z.leb_spec (- (9223372036854775808)) z); try lia; reflexivity.
Qed.
Lemma astype_ok {A} (conv : str -> res A) (g : str -> option A) l zs : (forall s z, g s = Some z -> conv s = Ok z) -> map g l = map Some zs -> astype conv l = Ok zs.
Proof.
  intro H. revert zs. induction l as [|s l IH]; intros [|z zs] E; try discriminate E; [reflexivity|]. cbn [map] in E. injection E as E1 E2. cbn [astype]. rewrite (H s z E1). cbn [bind]. rewrite (IH zs E2). reflexivity.
Qed.
Lemma astype_fails {A} (conv : str -> res A) l : Exists (fun s => exists e, conv s = Err e) l -> exists e, astype conv l = Err e.
Proof.
  intro H. induction H as [s l (e & H)|s l H IH]; cbn [astype]; [rewrite H; exists e; reflexivity|]. destruct (conv s); cbn [bind]; [|eexists; reflexivity]. destruct IH as (e & ->). exists e. reflexivity.
Qed.
Lemma row_line_dash r ls : good_row r -> dashes (row_line r :: ls) = S (dashes ls).
Proof.
  intros (B & _). cbn [dashes]. unfold row_line. rewrite strip_lead by exact B. rewrite strip_start by reflexivity. match goal with |- context [rstrip (?c :: ?s)] => destruct (rstrip_cons c s eq_refl) as (t & E) end. rewrite E. reflexivity.
Qed.
Definition no_dash (ls : list str) : Prop := match ls with l :: _ => match strip l with c :: _ => c <> "-"%char | [] => True end | [] => True end.
Lemma dashes_rows rs ls : Forall good_row rs -> no_dash ls -> dashes (map row_line rs ++ ls) = List.length rs.
Proof.
  intros F N. induction F as [|r rs F1 F2 IH]; cbn [map app List.length].
  - destruct ls as [|l ls]; [reflexivity|]. cbn [dashes no_dash] in *. destruct (strip l) as [|c t]; [reflexivity|]. destruct (chr_eqb c (ch 45)) eqn:E; [apply chr_eqb_eq in E; elim N; exact E|reflexivity].
  - rewrite row_line_dash by exact F1. rewrite IH. reflexivity.
Qed.
Lemma head_line bs : Forall good_block bs -> no_dash (flat_map block_lines bs).
Proof.
  intro F. destruct bs as [|b bs]; [exact I|]. apply Forall_cons_iff in F. destruct F as [G _]. unfold no_dash.
  destruct b as [l c|pre key val c|pre key gap c rs]; cbn [flat_map block_lines app].
  - destruct G as (B & N). rewrite strip_lead by exact B. destruct N as [->|(t & ->)]; [exact I|]. rewrite strip_start by reflexivity. destruct (rstrip_cons "#"%char t eq_refl) as (u & ->). discriminate.
  - destruct G as (B & (_ & a & t & -> & SA & NA) & _). rewrite strip_lead by exact B. cbn [app]. rewrite strip_start by exact SA. match goal with |- context [rstrip (?c :: ?s)] => destruct (rstrip_cons c s SA) as (u & ->) end. exact NA.
  - destruct G as (B & (_ & a & t & -> & SA & NA) & _). rewrite strip_lead by exact B. cbn [app]. rewrite strip_start by exact SA. match goal with |- context [rstrip (?c :: ?s)] => destruct (rstrip_cons c s SA) as (u & ->) end. exact NA.
Qed.

Section Props.
Context {V : Type}.
Variable flt : str -> option V.
Notation run := (run flt).
Lemma run_skip (d : @dict (yval V)) (a b : list str) : run d (List.length a) (a ++ b) = run d 0 b.
Proof. induction a as [|x a IH]; [reflexivity|]. cbn [List.length app YAML_Model.run]. exact IH. Qed.
Lemma fill_ok {A} (conv : str -> res A) (g : str -> option A) n rs (m : list (list A)) : (forall s z, g s = Some z -> conv s = Ok z) -> Forall good_row rs ->
  Forall2 (fun r zs => map (fun s => g (strip s)) (r_cells r) = map Some zs /\ List.length zs = n) rs m -> fill conv n (map row_line rs) = Ok m.
Proof.
  intros H F E. induction E as [|r zs rs m (E1 & E2) E3 IH]; [reflexivity|]. apply Forall_cons_iff in F. destruct F as [F1 F]. cbn [map fill]. destruct (row_elements r F1) as [R _]. rewrite R.
  rewrite <- map_map in E1. rewrite (astype_ok conv g _ zs H E1). cbn [bind]. unfold assign_row. rewrite E2, Nat.eqb_refl. cbn [bind]. rewrite (IH F). reflexivity.
Qed.
Lemma list_ok rs rest k e : Forall good_row rs -> rs <> [] -> no_dash rest -> (exists pre gap c, says flt (Rows pre k gap c rs) (Some (k, e))) ->
  readDashList flt (map row_line rs ++ rest) = Ok (e, List.length rs).
Proof.
  intros F N ND (pre & gap & c & H). unfold readDashList. destruct rs as [|r rs]; [congruence|]. cbn [map app]. change (row_line r :: map row_line rs ++ rest) with (map row_line (r :: rs) ++ rest).
  rewrite dashes_rows by assumption.
  assert (FN : firstn (List.length (r :: rs)) (map row_line (r :: rs) ++ rest) = map row_line (r :: rs)) by (rewrite firstn_app, map_length, Nat.sub_diag, firstn_O, app_nil_r; rewrite <- (map_length row_line (r :: rs)) at 1; apply firstn_all).
  rewrite FN. pose proof F as F'. apply Forall_cons_iff in F'. destruct F' as [F1 _]. destruct (row_elements r F1) as [_ R]. rewrite R. destruct F1 as (_ & _ & _ & _ & NC & _).
  inversion H as [| |? ? ? ? ? n m E|? ? ? ? ? n m E]; subst.
  - assert (P : forall s z, int64 s = Some z -> to_int64 s = Ok z) by (intros s z Q; rewrite to_int64_spec, Q; reflexivity).
    pose proof E as E'. inversion E' as [|? zs ? ? (E1 & E2) _]; subst. pose proof E1 as E1'. rewrite <- map_map in E1. rewrite (astype_ok to_int64 int64 _ zs P E1).
    assert (L : List.length (map strip (r_cells r)) = List.length zs) by (apply (f_equal (@List.length _)) in E1; rewrite !map_length in E1; rewrite map_length; exact E1).
    rewrite L. destruct (Nat.eqb_spec (List.length zs) 0) as [Z|Z]; [rewrite map_length in L; destruct (r_cells r); [congruence|cbn in L; lia]|].
    rewrite (fill_ok to_int64 int64 (List.length zs) (r :: rs) _ P F E). reflexivity.
  - destruct E as (E & X). assert (P : forall s v, flt s = Some v -> to_float flt s = Ok v) by (intros s v Q; unfold to_float; rewrite Q; reflexivity).
    destruct (astype_fails to_int64 (map strip (r_cells r))) as (e & AE).
    { apply Exists_exists in X. destruct X as (s & Hs & X). apply Exists_exists. exists (strip s). split; [apply in_map; exact Hs|]. rewrite to_int64_spec, X. destruct (int_ (strip s)); eexists; reflexivity. }
    rewrite AE. pose proof E as E'. inversion E' as [|? vs ? ? (E1 & E2) _]; subst. pose proof E1 as E1'. rewrite <- map_map in E1. rewrite (astype_ok (to_float flt) flt _ vs P E1).
    assert (L : List.length (map strip (r_cells r)) = List.length vs) by (apply (f_equal (@List.length _)) in E1; rewrite !map_length in E1; rewrite map_length; exact E1).
    rewrite L. destruct (Nat.eqb_spec (List.length vs) 0) as [Z|Z]; [rewrite map_length in L; destruct (r_cells r); [congruence|cbn in L; lia]|].
    rewrite (fill_ok (to_float flt) flt (List.length vs) (r :: rs) _ P F E). reflexivity.
Qed.
Lemma scalar_strip v : (forall s, flt (strip s) = flt s) -> scalar flt v = value_of flt v.
Proof.
  intro H. unfold scalar, value_of. assert (E : int_ (strip v) = int_ v) by (unfold int_; rewrite strip_idem; reflexivity). rewrite E, H. reflexivity.
Qed.
Lemma run_block (d : @dict (yval V)) b e rest : (forall s, flt (strip s) = flt s) -> good_block b -> says flt b e -> no_dash rest ->
  run d 0 (block_lines b ++ rest) = run (put_all d [e]) 0 rest.
Proof.
  intros FS G S ND. destruct b as [l c|pre key val c|pre key gap c rs]; cbn [block_lines app].
  - destruct G as (B & N). inversion S; subst. cbn [YAML_Model.run put_all].
    rewrite cut_note by (exact N || (apply blank_absent; [exact B|reflexivity])). rewrite strip_blank by exact B. reflexivity.
  - destruct G as (B & K & W & NE & N). inversion S; subst. cbn [YAML_Model.run]. inversion W as [|? ? W1 W2]; subst. inversion W2 as [|? ? W3 _]; subst.
    rewrite key_line by assumption. replace (nonempty (key ++ ":"%char :: rstrip val)) with true by (destruct key; reflexivity). cbn [negb].
    destruct K as (K & _). inversion K as [|? ? _ K2]; subst. inversion K2 as [|? ? K3 _]; subst. rewrite split_key; [|exact K3|intro C; apply W3; apply in_rstrip; exact C].
    rewrite strip_rstrip. destruct (strip val) as [|x y] eqn:E; [congruence|]. cbn [nonempty negb put_all].
    assert (SV : scalar flt (rstrip val) = value_of flt val) by (rewrite scalar_strip by exact FS; unfold value_of; rewrite strip_rstrip; reflexivity). rewrite SV. reflexivity.
  - destruct G as (B & K & BG & N & NR & F). cbn [YAML_Model.run]. rewrite key_line; [|exact B|exact K|apply blank_absent; [exact BG|reflexivity]|exact N].
    replace (nonempty (key ++ ":"%char :: rstrip gap)) with true by (destruct key; reflexivity). cbn [negb].
    destruct K as (K & _). inversion K as [|? ? _ K2]; subst. inversion K2 as [|? ? K3 _]; subst. rewrite rstrip_blank by exact BG. rewrite split_key; [|exact K3|intros []]. change (strip []) with (@nil ascii). cbn [nonempty negb].
    assert (EE : exists v, e = Some (key, v)) by (inversion S; subst; eexists; reflexivity). destruct EE as (v & ->).
    rewrite (list_ok rs rest key v F NR ND) by (exists pre, gap, c; exact S). cbn [put_all]. rewrite <- (map_length row_line rs). apply run_skip.
Qed.

(** ** C46: a document of the subset gives its keys and values in order. *)
Theorem C46_document d bs es : (forall s, flt (strip s) = flt s) -> Forall good_block bs -> Forall2 (says flt) bs es ->
  forallb no_linebreak (flat_map block_lines bs) = true ->
  yaml_read flt d (flat_map (fun l => l ++ [nl]) (flat_map block_lines bs)) = (put_all d es, Ok tt).
Proof.
  intros FS F S NL. unfold yaml_read. rewrite splitlines_unlines by exact NL. clear NL. revert d. induction S as [|b e bs es S1 S2 IH]; intro d; [reflexivity|].
  apply Forall_cons_iff in F. destruct F as [F1 F]. cbn [flat_map]. rewrite (run_block d b e _ FS F1 S1 (head_line bs F)). rewrite (IH F). destruct e as [[k v]|]; reflexivity.
Qed.
(** Without repeated keys the dictionary is the list of the keys and values. *)
Theorem C46_keys_in_order bs (es : list (option (str * yval V))) kvs : (forall s, flt (strip s) = flt s) -> Forall good_block bs -> Forall2 (says flt) bs es ->
  forallb no_linebreak (flat_map block_lines bs) = true -> kvs = flat_map (fun e => match e with Some p => [p] | None => [] end) es -> NoDup (map fst kvs) ->
  yaml_read flt [] (flat_map (fun l => l ++ [nl]) (flat_map block_lines bs)) = (kvs, Ok tt).
Proof.
  intros FS F S NL E ND. rewrite (C46_document [] bs es FS F S NL). f_equal. subst kvs. clear -ND.
  assert (G : forall es (d : @dict (yval V)), put_all d es = update d (flat_map (fun e => match e with Some p => [p] | None => [] end) es)).
  { clear. induction es as [|[[k v]|] es IH]; intro d; [reflexivity| |]; cbn [put_all flat_map app]; rewrite IH; reflexivity. }
  rewrite G. rewrite update_new; [reflexivity|exact ND].
Qed.
(** A line that has no colon or more than one is refused, with an IndexError; what comes before stays. *)
Theorem C46_colons_refuted d bs es l rest : (forall s, flt (strip s) = flt s) -> Forall good_block bs -> Forall2 (says flt) bs es ->
  strip l <> [] -> ~ In "#"%char l -> List.length (filter (chr_eqb ":"%char) l) <> 1 -> no_dash [l] ->
  forallb no_linebreak (flat_map block_lines bs ++ l :: rest) = true ->
  yaml_read flt d (flat_map (fun l => l ++ [nl]) (flat_map block_lines bs ++ l :: rest)) = (put_all d es, Err IndexError).
Proof.
  intros FS F S NE NH CC ND NL. unfold yaml_read. rewrite splitlines_unlines by exact NL. clear NL. revert d. induction S as [|b e bs es S1 S2 IH]; intro d.
  - cbn [flat_map app YAML_Model.run put_all]. replace (cleanComment l) with (strip l) by (symmetry; rewrite <- (app_nil_r l) at 1; apply cut_note; [exact NH|left; reflexivity]).
    destruct (strip l) as [|x y] eqn:E; [congruence|]. cbn [nonempty negb]. rewrite <- E.
    assert (LEN : forall s, List.length (split_chr (ch 58) s) = S (List.length (filter (chr_eqb ":"%char) s))).
    { intro s. unfold split_chr. induction s as [|a s IHs]; [reflexivity|]. cbn [split_on filter]. change (ch 58) with ":"%char in *. destruct (chr_eqb a ":"%char) eqn:A.
      - apply chr_eqb_eq in A. subst a. rewrite chr_eqb_refl. cbn [List.length]. rewrite IHs. reflexivity.
      - replace (chr_eqb ":"%char a) with false by (symmetry; apply chr_eqb_neq; apply chr_eqb_neq in A; congruence). destruct (split_on (fun x0 => chr_eqb x0 ":"%char) s) as [|w ws]; [discriminate IHs|exact IHs]. }
    assert (CS : filter (chr_eqb ":"%char) (strip l) = filter (chr_eqb ":"%char) l).
    { destruct (lstrip_decomp l) as (b1 & B1 & D1). destruct (rstrip_decomp (lstrip l)) as (b2 & B2 & D2). fold (strip l) in D2. assert (D : l = b1 ++ strip l ++ b2) by (rewrite D1 at 1; f_equal; exact D2). clear D1 D2. generalize dependent (strip l). intros t _ D. rewrite D, !filter_app.
      assert (Z : forall b, forallb is_space b = true -> filter (chr_eqb ":"%char) b = []).
      { clear. intros b B. induction b as [|a b IH]; [reflexivity|]. cbn [forallb] in B. apply andb_inv in B. destruct B as [B1 B2]. cbn [filter]. destruct (chr_eqb ":"%char a) eqn:A; [apply chr_eqb_eq in A; subst a; discriminate B1|apply IH; exact B2]. }
      rewrite (Z b1 B1), (Z b2 B2), app_nil_r. reflexivity. }
    pose proof (LEN (strip l)) as L. rewrite CS in L. destruct (split_chr (ch 58) (strip l)) as [|k [|v [|w ws]]]; try reflexivity. cbn [List.length] in L. lia.
  - apply Forall_cons_iff in F. destruct F as [F1 F]. cbn [flat_map]. rewrite <- app_assoc. rewrite (run_block d b e _ FS F1 S1).
    + rewrite (IH F). destruct e as [[k v]|]; reflexivity.
    + destruct bs as [|b' bs']; [exact ND|]. pose proof (head_line (b' :: bs') F) as H. cbn [flat_map] in *. destruct b'; exact H.
Qed.
(** A key without value at the end of the file: an UnboundLocalError instead of an empty list *)
Theorem C46_last_key_without_value_refuted d bs es pre key gap c : (forall s, flt (strip s) = flt s) -> Forall good_block bs -> Forall2 (says flt) bs es ->
  blank pre -> good_key key -> blank gap -> note c -> forallb no_linebreak (flat_map block_lines (bs ++ [Rows pre key gap c []])) = true ->
  yaml_read flt d (flat_map (fun l => l ++ [nl]) (flat_map block_lines (bs ++ [Rows pre key gap c []]))) = (put_all d es, Err UnboundLocalError).
Proof.
  intros FS F S B K BG N NL. unfold yaml_read. rewrite splitlines_unlines by exact NL. clear NL. rewrite flat_map_app. cbn [flat_map block_lines map app].
  assert (ND : no_dash [pre ++ key ++ ":"%char :: gap ++ c]).
  { destruct K as (_ & a & t & -> & SA & NA). unfold no_dash. rewrite strip_lead by exact B. cbn [app]. rewrite strip_start by exact SA. match goal with |- context [rstrip (?c :: ?s)] => destruct (rstrip_cons c s SA) as (u & ->) end. exact NA. }
  revert d. induction S as [|b e bs es S1 S2 IH]; intro d.
  - cbn [flat_map app YAML_Model.run put_all]. rewrite key_line; [|exact B|exact K|apply blank_absent; [exact BG|reflexivity]|exact N].
    replace (nonempty (key ++ ":"%char :: rstrip gap)) with true by (destruct key; reflexivity). cbn [negb].
    destruct K as (K & _). inversion K as [|? ? _ K2]; subst. inversion K2 as [|? ? K3 _]; subst. rewrite rstrip_blank by exact BG. rewrite split_key; [reflexivity|exact K3|intros []].
  - apply Forall_cons_iff in F. destruct F as [F1 F]. cbn [flat_map]. rewrite <- app_assoc. rewrite (run_block d b e _ FS F1 S1).
    + rewrite (IH F). destruct e as [[k v]|]; reflexivity.
    + destruct bs as [|b' bs']; [exact ND|]. pose proof (head_line (b' :: bs') F) as H. cbn [flat_map] in *. destruct b'; exact H.
Qed.
End Props.

(** ** Lists that are not read as they are written, with digits and "d.d" as numbers *)
Definition flt_ex (s : str) : option nat := match strip s with [a; b; c] => if is_digit a && chr_eqb b "."%char && is_digit c then Some (10 * (ord a - 48) + (ord c - 48)) else None | [a] => if is_digit a then Some (10 * (ord a - 48)) else None | _ => None end.
Definition doc (ls : list str) : str := flat_map (fun l => l ++ [nl]) ls.
(** A row with one number among rows with more is repeated over all columns, without a word. *)
Theorem C46_short_row_repeated_refuted : yaml_read flt_ex [] (doc [S_ "M:"; S_ "- [1,2,3]"; S_ "- [4]"]) = ([(S_ "M", MatI 3 [[1; 2; 3]; [4; 4; 4]]%Z)], Ok tt).
Proof. reflexivity. Qed.
(** Whole numbers in the first row and others below: an error, and the key is missing. *)
Theorem C46_mixed_rows_refuted : yaml_read flt_ex [] (doc [S_ "M:"; S_ "- [1,2]"; S_ "- [0.5,2]"]) = ([], Err ValueError) /\
  yaml_read flt_ex [] (doc [S_ "M:"; S_ "- [0.5,2]"; S_ "- [1,2]"]) = ([(S_ "M", MatF 2 [[5; 20]; [10; 20]])], Ok tt).
Proof. split; reflexivity. Qed.
(** A key without list followed by another key: an error *)
Theorem C46_empty_list_refuted : yaml_read flt_ex [] (doc [S_ "M:"; S_ "n: 1"]) = ([], Err PlainException) /\ yaml_read flt_ex [] (doc [S_ "M:"; S_ ""; S_ "n: 1"]) = ([(S_ "M", MatI 0 []); (S_ "n", Int 1)], Ok tt).
Proof. split; reflexivity. Qed.
(** A comma after the last element: an error when a blank follows it *)
Theorem C46_trailing_comma_refuted : yaml_read flt_ex [] (doc [S_ "M:"; S_ "- [1,2, ]"]) = ([], Err ValueError) /\ yaml_read flt_ex [] (doc [S_ "M:"; S_ "- [1,2,]"]) = ([(S_ "M", MatI 2 [[1; 2]]%Z)], Ok tt).
Proof. split; reflexivity. Qed.
(** A number sign inside a value starts a comment. *)
Theorem C46_number_sign_refuted : yaml_read flt_ex [] (doc [S_ "name: case#3"]) = ([(S_ "name", Txt (S_ "case"))], Ok tt).
Proof. reflexivity. Qed.

(** ** The hypotheses are met *)
Definition ex_blocks : list block :=
  [Empty [] (S_ "# summary"); Pair [] (S_ "n") (S_ " 2 ") (S_ "# count"); Pair (S_ "  ") (S_ "title") (S_ " two words") [];
   Rows [] (S_ "M") (S_ " ") [] [mk_row (S_ " ") (S_ " ") [S_ "1"; S_ " 2"] [] []; mk_row (S_ " ") (S_ " ") [S_ "3"; S_ " 4"] (S_ " ") (S_ "# last")];
   Empty [] []; Rows [] (S_ "F") [] [] [mk_row [] (S_ " ") [S_ "0.5"] [] []]].
Definition ex_entries : list (option (str * yval nat)) :=
  [None; Some (S_ "n", Int 2); Some (S_ "title", Txt (S_ "two words")); Some (S_ "M", MatI 2 [[1; 2]; [3; 4]]%Z); None; Some (S_ "F", MatF 1 [[5]])].
Lemma not_in_b x l : forallb (fun y => negb (chr_eqb x y)) l = true -> ~ In x l.
Proof. intros H C. rewrite forallb_forall in H. specialize (H _ C). rewrite chr_eqb_refl in H. discriminate H. Qed.
Ltac absent := repeat (apply Forall_cons; [apply not_in_b; reflexivity|]); apply Forall_nil.
Ltac notes := first [left; reflexivity | right; eexists; reflexivity].
Ltac key := split; [absent|eexists _, _; split; [reflexivity|split; [reflexivity|discriminate]]].
Ltac rowok := split; [reflexivity|split; [reflexivity|split; [reflexivity|split; [notes|split; [discriminate|repeat (apply Forall_cons; [split; [absent|vm_compute; discriminate]|]); apply Forall_nil]]]]].
Example C46_blocks_good : Forall good_block ex_blocks /\ Forall2 (says flt_ex) ex_blocks ex_entries /\ forallb no_linebreak (flat_map block_lines ex_blocks) = true /\ (forall s, flt_ex (strip s) = flt_ex s).
Proof.
  split; [|split; [|split]].
  - apply Forall_cons; [split; [reflexivity|notes]|]. apply Forall_cons; [split; [reflexivity|split; [key|split; [absent|split; [vm_compute; discriminate|notes]]]]|].
    apply Forall_cons; [split; [reflexivity|split; [key|split; [absent|split; [vm_compute; discriminate|notes]]]]|].
    apply Forall_cons; [split; [reflexivity|split; [key|split; [reflexivity|split; [notes|split; [discriminate|repeat (apply Forall_cons; [rowok|]); apply Forall_nil]]]]]|].
    apply Forall_cons; [split; [reflexivity|notes]|].
    apply Forall_cons; [split; [reflexivity|split; [key|split; [reflexivity|split; [notes|split; [discriminate|repeat (apply Forall_cons; [rowok|]); apply Forall_nil]]]]]|]. apply Forall_nil.
  - constructor; [constructor|]. constructor; [apply (says_pair flt_ex [] (S_ "n") (S_ " 2 "))|]. constructor; [apply (says_pair flt_ex _ (S_ "title") (S_ " two words"))|].
    constructor; [apply says_ints; repeat constructor|]. constructor; [constructor|]. constructor; [apply says_floats; split; [repeat constructor|apply Exists_cons_hd; reflexivity]|]. constructor.
  - reflexivity.
  - intro s. unfold flt_ex. rewrite strip_idem. reflexivity.
Qed.
Print Assumptions C46_document.
Print Assumptions C46_keys_in_order.
Print Assumptions C46_colons_refuted.
Print Assumptions C46_last_key_without_value_refuted.
Print Assumptions C46_short_row_repeated_refuted.
Print Assumptions C46_mixed_rows_refuted.
Print Assumptions C46_empty_list_refuted.
Print Assumptions C46_trailing_comma_refuted.
Print Assumptions C46_number_sign_refuted.
