(** C108: workbooks: every sheet with a value gives a table, without the empty rows and columns; what is written is read back. *)
From Coq Require Import Sorted.
From Verif Require Import Py PyFacts ListFacts Dict Excel_Model.
Local Open Scope nat_scope.

(** * Specification *)
Section Spec.
Context {V : Type}.
Variable missing : V -> bool.
(** The value of a cell: none when it is empty, absent or counted as missing *)
Definition value (cells : list (list (option V))) (i j : nat) : option V :=
  match nth_error cells i with
  | Some r => match nth_error r j with Some (Some v) => if missing v then None else Some v | _ => None end
  | None => None
  end.
Definition rectangle (w : nat) (cells : list (list (option V))) : Prop := Forall (fun r => List.length r = w) cells.
(** [t] is the sheet without its empty rows and columns: the rows [is] and the columns [js] that have a value, in their order *)
Definition reduced (cells : list (list (option V))) (t : list (list (option V))) : Prop :=
  exists is js, StronglySorted lt is /\ StronglySorted lt js /\ (forall i, In i is <-> exists j, value cells i j <> None) /\ (forall j, In j js <-> exists i, value cells i j <> None) /\
    t = map (fun i => map (fun j => value cells i j) js) is.
End Spec.

(** * Lemmas *)
Section Proofs.
Context {V : Type}.
Variable missing : V -> bool.
Notation cell := (option V).
Notation clean := (fun c : cell => match c with Some v => if missing v then None else Some v | None => None end).
Lemma value_parse cells i j : value missing cells i j = nth j (nth i (parse missing cells) []) None.
Proof.
  unfold value, parse. destruct (nth_error cells i) as [r|] eqn:E.
  - erewrite (nth_error_nth (map _ cells)) by (rewrite nth_error_map, E; reflexivity). destruct (nth_error r j) as [c|] eqn:F.
    + erewrite (nth_error_nth (map _ r)) by (rewrite nth_error_map, F; reflexivity). destruct c; reflexivity.
    + rewrite nth_overflow; [reflexivity|]. rewrite map_length. now apply nth_error_None.
  - rewrite (nth_overflow (map _ cells)); [now destruct j|]. rewrite map_length. now apply nth_error_None.
Qed.
Definition used (r : list cell) : bool := negb (forallb is_empty r).
Lemma used_iff r : used r = true <-> exists j, nth j r None <> None.
Proof.
  unfold used. rewrite negb_true_iff. split.
  - intro H. induction r as [|c r IH]; [discriminate|]. cbn [forallb] in H. destruct c as [v|]; [exists 0; discriminate|]. destruct (IH H) as (j & Hj). now exists (S j).
  - intros (j & Hj). revert j Hj. induction r as [|c r IH]; intros [|j] Hj; cbn [nth forallb] in *; try contradiction; [destruct c; [reflexivity|contradiction]|]. rewrite (IH j Hj). apply andb_false_r.
Qed.
Lemma filter_all {A} (f : A -> bool) l : forallb f l = true -> filter f l = l.
Proof. induction l as [|x l IH]; [reflexivity|]. cbn [forallb filter]. intro H. apply andb_true_iff in H. destruct H as [H1 H2]. rewrite H1. now rewrite IH. Qed.
Lemma seq_sorted n : forall a, StronglySorted lt (seq a n).
Proof. induction n as [|n IH]; intro a; constructor; [apply IH|]. apply Forall_forall. intros x Hx. apply in_seq in Hx. lia. Qed.
Lemma filter_sorted (f : nat -> bool) l : StronglySorted lt l -> StronglySorted lt (filter f l).
Proof. induction 1 as [|x l H IH F]; cbn [filter]; [constructor|]. destruct (f x); [|exact IH]. constructor; [exact IH|]. apply Forall_forall. intros y Hy. apply filter_In in Hy. rewrite Forall_forall in F. now apply F. Qed.
Lemma filter_index {A} (f : A -> bool) d m : filter f m = map (fun i => nth i m d) (filter (fun i => f (nth i m d)) (seq 0 (List.length m))).
Proof.
  induction m as [|x m IH]; [reflexivity|]. cbn [List.length seq filter]. rewrite <- seq_shift.
  assert (E : filter (fun i => f (nth i (x :: m) d)) (map S (seq 0 (List.length m))) = map S (filter (fun i => f (nth i m d)) (seq 0 (List.length m)))).
  { clear. generalize (seq 0 (List.length m)). induction l as [|i l IH]; [reflexivity|]. cbn [map filter]. change (nth (S i) (x :: m) d) with (nth i m d). destruct (f (nth i m d)); cbn [map]; now rewrite IH. }
  rewrite E. change (nth 0 (x :: m) d) with x. destruct (f x); cbn [map]; rewrite map_map; cbn [nth]; now rewrite <- IH.
Qed.
Lemma used_column m j : column_used (drop_rows m) j = true <-> exists i, nth j (nth i m []) (@None V) <> None.
Proof.
  unfold column_used. rewrite existsb_exists. split.
  - intros (r & Hr & Hj). apply filter_In in Hr. destruct Hr as [Hr _]. apply (In_nth _ _ []) in Hr. destruct Hr as (i & _ & E). exists i. rewrite E. destruct (nth j r None); [discriminate|discriminate Hj].
  - intros (i & Hi). assert (L : i < List.length m). { destruct (Nat.lt_ge_cases i (List.length m)); [assumption|]. rewrite (nth_overflow m) in Hi by assumption. now destruct j. }
    exists (nth i m []). split; [|destruct (nth j _ None); [reflexivity|contradiction]]. apply filter_In. split; [now apply nth_In|]. apply used_iff. now exists j.
Qed.
Lemma parse_rect w cells : rectangle w cells -> rectangle w (parse missing cells).
Proof. intro H. unfold parse. induction H as [|r l E _ IH]; constructor; [now rewrite map_length|exact IH]. Qed.
Theorem reduce_ok w cells : rectangle w cells -> reduced missing cells (drop_columns (drop_rows (parse missing cells))).
Proof.
  intro R. apply parse_rect in R. set (m := parse missing cells) in *. assert (Vm : forall i j, value missing cells i j = nth j (nth i m []) None) by (intros; apply value_parse). clearbody m.
  assert (Wm : drop_rows m <> [] -> width (drop_rows m) = w). { intro N. unfold width. destruct (drop_rows m) as [|r l] eqn:E; [contradiction|]. assert (I : In r (drop_rows m)) by (rewrite E; now left). apply filter_In in I. destruct I as [I _]. unfold rectangle in R. rewrite Forall_forall in R. now apply R. }
  exists (filter (fun i => used (nth i m [])) (seq 0 (List.length m))), (filter (column_used (drop_rows m)) (seq 0 (width (drop_rows m)))). split; [apply filter_sorted, seq_sorted|]. split; [apply filter_sorted, seq_sorted|].
  split; [|split].
  - intro i. rewrite filter_In, in_seq, used_iff. split; [intros [_ (j & Hj)]; exists j; now rewrite Vm|]. intros (j & Hj). rewrite Vm in Hj. split; [|now exists j]. split; [lia|]. destruct (Nat.lt_ge_cases i (List.length m)); [assumption|]. rewrite (nth_overflow m) in Hj by assumption. now destruct j.
  - intro j. rewrite filter_In, in_seq, used_column. split; [intros [_ (i & Hi)]; exists i; now rewrite Vm|]. intros (i & Hi). rewrite Vm in Hi. split; [|now exists i]. split; [lia|].
    assert (L : i < List.length m). { destruct (Nat.lt_ge_cases i (List.length m)); [assumption|]. rewrite (nth_overflow m) in Hi by assumption. now destruct j. } assert (N : drop_rows m <> []). { intro E. assert (I : In (nth i m []) (drop_rows m)); [|now rewrite E in I]. apply filter_In. split; [now apply nth_In|]. apply used_iff. now exists j. }
    rewrite (Wm N). destruct (Nat.lt_ge_cases j w) as [|G]; [assumption|]. unfold rectangle in R. rewrite Forall_forall in R. rewrite nth_overflow in Hi; [contradiction|]. rewrite (R (nth i m [])); [exact G|now apply nth_In].
  - unfold drop_columns. cbv zeta. generalize (filter (column_used (drop_rows m)) (seq 0 (width (drop_rows m)))) as keep. intro keep. unfold drop_rows. change (fun r : list cell => negb (forallb is_empty r)) with used. rewrite (filter_index used [] m), map_map. apply map_ext. intro i. apply map_ext. intro j. now rewrite Vm.
Qed.
(** * Property C108 *)
(** A sheet with a value gives its table: header and rows are those of the sheet without its empty rows and columns. *)
Theorem C108_table w name cells rest data : rectangle w cells -> (exists i j, value missing cells i j <> None) ->
  exists h m, reduced missing cells (h :: m) /\ read missing (mk_sheet name cells :: rest) data = read missing rest (put data name (mk_frame h m)).
Proof.
  intros R (i & j & Hv). pose proof (reduce_ok w cells R) as Red. destruct Red as (is & js & S1 & S2 & I & J & E). assert (Ni : In i is) by (apply I; now exists j). destruct is as [|i0 is]; [destruct Ni|]. cbn [map] in E.
  eexists _, _. split; [exists (i0 :: is), js; split; [exact S1|]; split; [exact S2|]; split; [exact I|]; split; [exact J|]; reflexivity|]. cbn [read]. unfold table. cbn [s_cells s_name]. rewrite E. reflexivity.
Qed.
(** A sheet without a value gives nothing. *)
Theorem C108_empty_sheet w name cells rest data : rectangle w cells -> (forall i j, value missing cells i j = None) -> read missing (mk_sheet name cells :: rest) data = read missing rest data.
Proof.
  intros R H. pose proof (reduce_ok w cells R) as (is & js & _ & _ & I & _ & E). cbn [read]. unfold table. cbn [s_cells]. rewrite E. destruct is as [|i is]; [reflexivity|]. destruct (proj1 (I i)) as (j & Hj); [now left|]. now elim Hj.
Qed.
(** Writing, then reading: the tables under their names, in their order; only rows without any value are lost. *)
Definition clean_value (c : cell) : Prop := forall v, c = Some v -> missing v = false.
Definition good (d : frame V) : Prop := columns d <> [] /\ Forall (fun c => exists v, c = Some v /\ missing v = false) (columns d) /\ rectangle (List.length (columns d)) (rows d) /\ Forall (Forall clean_value) (rows d).
Definition without_empty_rows (d : frame V) : frame V := mk_frame (columns d) (filter (fun r => existsb (fun c => match c with Some _ => true | None => false end) r) (rows d)).
Lemma existsb_used r : existsb (fun c : cell => match c with Some _ => true | None => false end) r = used r.
Proof. unfold used. induction r as [|c r IH]; [reflexivity|]. cbn [existsb forallb]. rewrite IH. destruct c; reflexivity. Qed.
Lemma clean_id r : Forall clean_value r -> map clean r = r.
Proof. induction 1 as [|c r H _ IH]; [reflexivity|]. cbn [map]. rewrite IH. destruct c as [v|]; [|reflexivity]. now rewrite (H v eq_refl). Qed.
Lemma nth_seq {A} (d : A) l : map (fun j => nth j l d) (seq 0 (List.length l)) = l.
Proof. induction l as [|x l IH]; [reflexivity|]. cbn [List.length seq map nth]. rewrite <- seq_shift, map_map. cbn [nth]. now rewrite IH. Qed.
Lemma table_good k d : good d -> table missing (s_cells (to_excel k d)) = Some (without_empty_rows d).
Proof.
  intros (N & C & R & K). unfold to_excel, table. cbn [s_cells]. destruct (columns d) as [|c0 cs] eqn:E; [contradiction|]. cbn [nonempty]. rewrite <- E in *. clear E c0 cs. unfold parse. cbn [map].
  assert (C' : Forall clean_value (columns d)). { eapply Forall_impl; [|exact C]. cbv beta. intros c (v & -> & M) v' Ev. injection Ev as <-. exact M. } rewrite (clean_id _ C').
  assert (P : map (map clean) (rows d) = rows d). { clear - K. induction K as [|r l H _ IH]; [reflexivity|]. cbn [map]. now rewrite IH, (clean_id _ H). } rewrite P.
  assert (U : used (columns d) = true). { apply used_iff. destruct (columns d) as [|c cs]; [contradiction|]. inversion C as [|? ? (v & -> & _) _]; subst. exists 0. discriminate. }
  unfold drop_rows. cbn [filter]. change (negb (forallb is_empty (columns d))) with (used (columns d)). rewrite U. unfold drop_columns. cbv zeta. cbn [width].
  assert (F : filter (column_used (columns d :: filter (fun r => negb (forallb is_empty r)) (rows d))) (seq 0 (List.length (columns d))) = seq 0 (List.length (columns d))).
  { apply filter_all. apply forallb_forall. intros j Hj. apply in_seq in Hj. unfold column_used. cbn [existsb]. destruct (nth_error (columns d) j) as [c|] eqn:E; [|apply nth_error_None in E; lia]. rewrite (nth_error_nth _ _ None E). rewrite Forall_forall in C. destruct (C c (nth_error_In _ _ E)) as (v & -> & _). reflexivity. }
  rewrite F. cbn [map]. rewrite nth_seq. unfold without_empty_rows. do 2 f_equal. clear F. transitivity (map (fun r : list cell => r) (filter (fun r => negb (forallb is_empty r)) (rows d))).
  - apply map_ext_in. intros r Hr. apply filter_In in Hr. destruct Hr as [Hr _]. unfold rectangle in R. rewrite Forall_forall in R. rewrite <- (R r Hr). apply nth_seq.
  - rewrite map_id. apply filter_ext. intro r. now rewrite existsb_used.
Qed.
Theorem C108_round_trip (data : @dict (frame V)) : NoDup (map fst data) -> Forall (fun e => good (snd e)) data -> read missing (write data) [] = map (fun e => (fst e, without_empty_rows (snd e))) data.
Proof.
  intros N G. assert (A : forall l acc, NoDup (map fst acc ++ map fst l) -> Forall (fun e => good (snd e)) l -> read missing (write l) acc = acc ++ map (fun e => (fst e, without_empty_rows (snd e))) l); [|now apply (A data [])].
  clear. induction l as [|[k d] l IH]; intros acc N G; [cbn; now rewrite app_nil_r|]. inversion G as [|? ? G1 G2]; subst. cbn [write map fst snd read]. rewrite (table_good k d G1). change (s_name (to_excel k d)) with k. cbn [map fst] in N. pose proof (NoDup_remove_2 _ _ _ N) as Nk.
  rewrite put_new by (intro C; apply Nk; apply in_or_app; now left). fold (@write V l). rewrite IH; [now rewrite <- app_assoc| |exact G2]. rewrite map_app. cbn [map fst]. now rewrite <- app_assoc.
Qed.
Corollary C108_exact (data : @dict (frame V)) : NoDup (map fst data) -> Forall (fun e => good (snd e)) data -> Forall (fun e => Forall (fun r => exists v, In (Some v) r) (rows (snd e))) data -> read missing (write data) [] = data.
Proof.
  intros N G R. rewrite C108_round_trip by assumption. clear N G. induction R as [|[k d] l H _ IH]; [reflexivity|]. cbn [map fst snd]. rewrite IH. do 2 f_equal. unfold without_empty_rows. destruct d as [cs rs]. cbn [columns rows snd] in *. f_equal. apply filter_all. apply forallb_forall. intros r Hr. rewrite Forall_forall in H. destruct (H r Hr) as (v & Hv). apply existsb_exists. now exists (Some v).
Qed.
(** The names that are read are names of sheets. *)
Theorem C108_names book : forall k, In k (map fst (read missing book [])) -> In k (map s_name book).
Proof.
  assert (A : forall b acc k, In k (map fst (read missing b acc)) -> In k (map fst acc) \/ In k (map s_name b)); [|intros k H; destruct (A book [] k H) as [[]|H']; exact H'].
  induction b as [|s b IH]; intros acc k H; [now left|]. cbn [read] in H. destruct (IH _ _ H) as [H'|H']; [|right; now right]. destruct (table missing (s_cells s)); [|now left]. rewrite put_keys in H'. destruct (has acc (s_name s)); [now left|]. apply in_app_or in H'. destruct H' as [H'|[<-|[]]]; [now left|right; now left].
Qed.
(** A table without columns is lost, whatever its name. *)
Theorem C108_no_columns_refuted k (rs : list (list cell)) : read missing (write [(k, mk_frame [] rs)]) [] = [].
Proof. reflexivity. Qed.
(** A row without a value is lost. *)
Theorem C108_empty_row_refuted k (c : V) : missing c = false -> read missing (write [(k, mk_frame [Some c] [[None]])]) [] = [(k, mk_frame [Some c] [])].
Proof. intro H. unfold write, to_excel. cbn [map read fst snd columns rows nonempty s_cells s_name]. unfold table, parse. cbn [map]. rewrite H. reflexivity. Qed.
(** A value that pandas counts as missing is lost: as a cell, and with its column when it is its name and the column is empty. *)
Theorem C108_missing_refuted k (c na : V) : missing c = false -> missing na = true ->
  read missing (write [(k, mk_frame [Some c; Some c] [[Some na; Some c]])]) [] = [(k, mk_frame [Some c; Some c] [[None; Some c]])] /\ read missing (write [(k, mk_frame [Some c; Some na] [[Some c; None]])]) [] = [(k, mk_frame [Some c] [[Some c]])].
Proof. intros H N. split; unfold write, to_excel; cbn [map read fst snd columns rows nonempty s_cells s_name]; unfold table, parse; cbn [map]; rewrite H, N; reflexivity. Qed.
End Proofs.

(** * Examples *)
Definition t (s : string) : option str := Some (S_ s).
Definition na (s : str) : bool := str_eqb s (S_ "NA").
Definition ex : @dict (frame str) := [(S_ "one", mk_frame [t "a"; t "b"] [[t "1"; None]; [None; None]; [t "2"; t "3"]]); (S_ "two", mk_frame [t "c"] [])].
Example ex_good : NoDup (map fst ex) /\ Forall (fun e => good na (snd e)) ex.
Proof.
  split; [repeat constructor; cbn; intuition discriminate|]. assert (K : forall c : option str, match c with Some v => negb (na v) | None => true end = true -> clean_value na c) by (intros c H v ->; now apply negb_true_iff).
  constructor; [|constructor; [|constructor]]; (split; [discriminate|]); (split; [repeat constructor; eexists; split; reflexivity|]); (split; [repeat constructor|]); repeat (constructor; try (apply K; reflexivity)).
Qed.
Example ex_round : read na (write ex) [] = [(S_ "one", mk_frame [t "a"; t "b"] [[t "1"; None]; [t "2"; t "3"]]); (S_ "two", mk_frame [t "c"] [])].
Proof. reflexivity. Qed.
Definition ex_sheet : list (list (option str)) := [[None; None; None]; [t "a"; None; t "b"]; [None; None; None]; [t "1"; t "NA"; t "2"]].
Example ex_table : rectangle 3 ex_sheet /\ value na ex_sheet 1 0 <> None /\ read na [mk_sheet (S_ "s") ex_sheet; mk_sheet (S_ "e") [[None]]] [] = [(S_ "s", mk_frame [t "a"; t "b"] [[t "1"; t "2"]])].
Proof. split; [repeat constructor|]. split; [discriminate|reflexivity]. Qed.

Print Assumptions C108_table.
Print Assumptions C108_empty_sheet.
Print Assumptions C108_round_trip.
Print Assumptions C108_exact.
Print Assumptions C108_names.
Print Assumptions C108_no_columns_refuted.
Print Assumptions C108_empty_row_refuted.
Print Assumptions C108_missing_refuted.
