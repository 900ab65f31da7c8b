(** C106: output files of BModes: every mode with its frequency and its table; the tables under their numbers. *)
From Verif Require Import Py PyFacts TextFacts ListFacts H2dat_Model H2dat_Props H2datNames_Props H2datBhawc_Props BModes_Model.
Local Open Scope nat_scope.

(** * Specification *)
Section Spec.
Context {V : Type}.
Variable num : str -> option V.
Definition mark : str := S_ "freq = ".
(** A line that announces no mode: the mark is not in it, or is at its very start *)
Definition quiet (l : str) : Prop := nowhere mark l \/ exists t, l = mark ++ t.
(** A line that gives a frequency: some text, the mark, and a number in the next twelve characters *)
Definition announces (l : str) (v : V) : Prop := exists a t z, l = a ++ mark ++ t ++ z /\ a <> [] /\ nowhere mark (a ++ S_ "freq =") /\ num t = Some v /\ (List.length t = 12 \/ (List.length t < 12 /\ z = [])).
Definition stops (l : str) : Prop := forallb is_space l = true \/ exists t, l = S_ "===" ++ t.
Definition row_line (n : nat) (l : str) (r : list V) : Prop := ~ stops l /\ Forall2 (fun w v => num w = Some v) (split_ws l) r /\ List.length r = n.
(** The lines of a mode: other lines, the frequency, three lines, the rows, and a line that ends them; at the end of the file this line may be missing. *)
Record mode := mk_mode { freq : V; width : nat; shape : list (list V) }.
Definition mode_lines (last : bool) (m : mode) (ls : list str) : Prop :=
  exists before l x1 x2 x3 rows stop, ls = before ++ l :: x1 :: x2 :: x3 :: rows ++ stop /\ Forall quiet before /\ announces l (freq m) /\ Forall2 (row_line (width m)) rows (shape m) /\
    ((exists e, stop = [e] /\ stops e) \/ (last = true /\ stop = [])).
Inductive modes_lines : list mode -> list str -> Prop :=
| end_of_file ls : Forall quiet ls -> modes_lines [] ls
| one_mode m ls ms rest : mode_lines false m ls -> modes_lines ms rest -> modes_lines (m :: ms) (ls ++ rest)
| last_mode m ls : mode_lines true m ls -> modes_lines [m] ls.
Definition from_bmodes (l : str) : Prop := exists a b, l = a ++ S_ "BModes" ++ b.
End Spec.
Arguments mode : clear implicits.

(** * Lemmas *)
Lemma F2_len {A B} (P : A -> B -> Prop) l l' : Forall2 P l l' -> List.length l = List.length l'.
Proof. induction 1; cbn [List.length]; congruence. Qed.
Lemma find_nowhere sub s : sub <> [] -> nowhere sub s -> find_str sub s = None.
Proof. intros Hs. induction s as [|c s IH]; intro H; cbn [find_str]; rewrite (nowhere_start _ _ H); [reflexivity|]. now rewrite (IH (nowhere_cons _ _ _ H)). Qed.
Lemma stops_iff l : ends_rows l = true <-> stops l.
Proof.
  unfold ends_rows, stops. rewrite orb_true_iff, startswith_iff. split; (intros [H|H]; [left|right; exact H]).
  - apply Nat.eqb_eq, length_zero_iff_nil in H. unfold strip in H. destruct (rstrip_decomp (lstrip l)) as (b & Hb & E). rewrite H in E. cbn [app] in E. destruct (lstrip_decomp l) as (b' & Hb' & E'). rewrite E', forallb_app, Hb', E, Hb. reflexivity.
  - rewrite (strip_blank l H). reflexivity.
Qed.

Section Proofs.
Context {V : Type}.
Variable num : str -> option V.
Lemma quiet_step l o rest : quiet l -> scan num Look o (l :: rest) = scan num Look o rest.
Proof.
  intros [H|(t & ->)]; cbn [scan]; [now rewrite (find_nowhere (S_ "freq = ") l) by (discriminate || exact H)|]. reflexivity.
Qed.
Lemma quiet_lines ls o rest : Forall quiet ls -> scan num Look o (ls ++ rest) = scan num Look o rest.
Proof. induction 1 as [|l ls H _ IH]; [reflexivity|]. cbn [app]. now rewrite quiet_step. Qed.
Lemma found_step l v o rest : announces num l v -> scan num Look o (l :: rest) = scan num (Skip 3) (mk_bmodes (frequencies o ++ [v]) (mode_shapes o)) rest.
Proof.
  intros (a & t & z & -> & Ha & Hn & Ht & L). cbn [scan]. change (S_ "freq = ") with mark. rewrite (find_str_here mark a (t ++ z)) by (exact Hn || discriminate). destruct a as [|c a]; [contradiction|]. cbn [List.length].
  replace (skipn (S (List.length a) + 7) ((c :: a) ++ mark ++ t ++ z)) with (t ++ z). 2:{ rewrite app_assoc. replace (S (List.length a) + 7) with (List.length ((c :: a) ++ mark)) by (rewrite app_length; reflexivity). now rewrite skipn_exact. }
  replace (firstn 12 (t ++ z)) with t; [now rewrite Ht|]. destruct L as [L|[L ->]]; [rewrite <- L, firstn_app, firstn_all, Nat.sub_diag; cbn [firstn]; now rewrite app_nil_r|rewrite app_nil_r, firstn_all2 by lia; reflexivity].
Qed.
Lemma floats_ok ws r : Forall2 (fun w v => num w = Some v) ws r -> floats num ws = Ok r.
Proof. induction 1 as [|w v ws r H _ IH]; [reflexivity|]. cbn [floats]. rewrite H, IH. reflexivity. Qed.
Lemma rows_step n rows shape acc o rest : Forall2 (row_line num n) rows shape -> scan num (Rows acc) o (rows ++ rest) = scan num (Rows (acc ++ map split_ws rows)) o rest.
Proof.
  intro H. revert acc. induction H as [|l r rows shape Hl _ IH]; intro acc; [cbn [app map]; now rewrite app_nil_r|]. cbn [app scan]. destruct Hl as (Hs & _). destruct (ends_rows l) eqn:E; [apply stops_iff in E; contradiction|].
  rewrite IH. cbn [map]. now rewrite <- app_assoc.
Qed.
Lemma array_ok n rows shape : Forall2 (row_line num n) rows shape -> as_array num (map split_ws rows) = Ok shape.
Proof.
  intro H. assert (F : all_floats num (map split_ws rows) = Ok shape).
  { induction H as [|l r rows shape (_ & Hl & _) _ IH]; [reflexivity|]. cbn [map all_floats]. rewrite (floats_ok _ _ Hl). cbn [bind]. rewrite IH. reflexivity. }
  assert (L : Forall (fun l => List.length (split_ws l) = n) rows). { clear F. induction H as [|l r rows shape (_ & Hl & E) _ IH]; constructor; [|exact IH]. apply F2_len in Hl. congruence. }
  destruct rows as [|l rows]; [cbn in F |- *; exact F|]. cbn [map as_array]. change (split_ws l :: map split_ws rows) with (map split_ws (l :: rows)). replace (forallb _ _) with true; [exact F|]. symmetry. inversion L as [|? ? L1 L2]; subst.
  apply forallb_forall. intros x Hx. apply in_map_iff in Hx. destruct Hx as (y & <- & Hy). rewrite Forall_forall in L2. apply Nat.eqb_eq. now apply L2.
Qed.
Definition add (o : bmodes V) (m : mode V) : bmodes V := mk_bmodes (frequencies o ++ [freq m]) (mode_shapes o ++ [shape m]).
Lemma mode_step last m ls rest o : mode_lines num last m ls -> (last = true -> rest = []) -> scan num Look o (ls ++ rest) = scan num Look (add o m) rest.
Proof.
  intros (before & l & x1 & x2 & x3 & rows & stop & -> & Hb & Hl & Hr & He) Hlast. rewrite <- app_assoc, quiet_lines by exact Hb. cbn [app]. rewrite (found_step _ _ _ _ Hl). cbn [scan]. rewrite <- app_assoc, (rows_step _ _ _ _ _ _ Hr). cbn [app].
  destruct He as [(e & -> & He)|(Hq & ->)]; cbn [app scan].
  - apply stops_iff in He. rewrite He, (array_ok _ _ _ Hr). reflexivity.
  - rewrite (Hlast Hq). cbn [scan]. rewrite (array_ok _ _ _ Hr). reflexivity.
Qed.
Lemma modes_step ms ls o : modes_lines num ms ls -> scan num Look o ls = Ok (mk_bmodes (frequencies o ++ map freq ms) (mode_shapes o ++ map shape ms)).
Proof.
  intro H. revert o. induction H as [ls H|m ls ms rest H _ IH|m ls H]; intro o.
  - rewrite <- (app_nil_r ls), quiet_lines by exact H. cbn [scan map]. rewrite !app_nil_r. now destruct o.
  - rewrite (mode_step false m ls rest o H) by discriminate. rewrite IH. unfold add. cbn [frequencies mode_shapes map]. now rewrite <- !app_assoc.
  - rewrite <- (app_nil_r ls), (mode_step true m ls [] o H) by reflexivity. reflexivity.
Qed.
(** Every mode of the file, in order: its frequency and its table. *)
Theorem C106_read first ls ms : from_bmodes first -> modes_lines num ms ls -> read num (first :: ls) = Ok (mk_bmodes (map freq ms) (map shape ms)).
Proof. intros Hf H. unfold read. apply contains_iff in Hf. rewrite Hf. now rewrite (modes_step ms ls _ H). Qed.
(** The tables: under their numbers, with six names. *)
Theorem C106_frames (o : bmodes V) : Forall (fun m => m <> [] /\ Forall (fun r => List.length r = 6) m) (mode_shapes o) -> exists fs, toDataFrame o = Ok fs /\ List.length fs = List.length (mode_shapes o) /\
  forall i m, nth_error (mode_shapes o) i = Some m -> nth_error fs i = Some (S_ "Mode_" ++ str_of_N (N.of_nat (S i)), (map S_ ["span_loc"; "s-s disp"; "s-s slope"; "f-a disp"; "f-a slope"; "twist"]%string, m)).
Proof.
  intro H. unfold toDataFrame. assert (G : forall k, exists fs, frames k (mode_shapes o) = Ok fs /\ List.length fs = List.length (mode_shapes o) /\ forall i m, nth_error (mode_shapes o) i = Some m -> nth_error fs i = Some (S_ "Mode_" ++ str_of_N (N.of_nat (k + S i)), (names, m))); [|exact (G 0)].
  induction H as [|m ms [Hm Hw] _ IH]; intro k; [exists []; split; [reflexivity|]; split; [reflexivity|]; intros [|i] m E; discriminate|]. destruct (IH (S k)) as (fs & E & L & P). cbn [frames]. destruct m as [|r m]; [contradiction|]. inversion Hw as [|? ? Hr _]; subst. unfold frame. rewrite Hr, Nat.eqb_refl. cbn [bind]. rewrite E. cbn [bind].
  eexists. split; [reflexivity|]. split; [cbn [List.length]; now f_equal|]. intros [|i] m' Em; cbn [nth_error] in Em |- *; [injection Em as <-; reflexivity|]. rewrite (P i m' Em). do 4 f_equal. lia.
Qed.
(** A table with another number of columns, or without rows, makes the whole conversion fail. *)
Theorem C106_frames_refused (o : bmodes V) m : In m (mode_shapes o) -> (forall r t, m = r :: t -> List.length r <> 6) -> toDataFrame o = Err ValueError.
Proof.
  intros Hin Hw. unfold toDataFrame. assert (G : forall k, frames k (mode_shapes o) = Err ValueError); [|exact (G 0)]. revert Hin. induction (mode_shapes o) as [|x ms IH]; intros Hin k; [destruct Hin|]; destruct Hin as [H|H]; cbn [frames].
  - subst x. destruct m as [|r m]; [reflexivity|]. unfold frame. destruct (Nat.eqb_spec (List.length r) 6) as [E|E]; [elim (Hw r m eq_refl E)|reflexivity].
  - destruct (frame x) as [f|e] eqn:E; cbn [bind]; [rewrite (IH H (S k)); reflexivity|]. unfold frame in E. destruct x as [|r x]; [congruence|]. destruct (Nat.eqb (List.length r) 6); [discriminate|congruence].
Qed.
(** Whatever the file: when it is read there are as many tables as frequencies, and every table is rectangular. *)
Definition rectangular (m : list (list V)) : Prop := exists n, Forall (fun r => List.length r = n) m.
Lemma floats_length ws r : floats num ws = Ok r -> List.length r = List.length ws.
Proof. revert r. induction ws as [|w ws IH]; intros r H; cbn [floats] in H; [injection H as <-; reflexivity|]. destruct (num w); [|discriminate]. destruct (floats num ws) as [vs|]; [|discriminate]. cbn [bind] in H. injection H as <-. cbn [List.length]. f_equal. now apply IH. Qed.
Lemma all_rect n data m : Forall (fun x => List.length x = n) data -> all_floats num data = Ok m -> Forall (fun r => List.length r = n) m.
Proof.
  intro F. revert m. induction F as [|x l Hx _ IH]; intros m H; cbn [all_floats] in H; [injection H as <-; constructor|]. destruct (floats num x) as [v|] eqn:E; [|discriminate]. cbn [bind] in H. destruct (all_floats num l) as [vs|]; [|discriminate]. cbn [bind] in H. injection H as <-.
  constructor; [apply floats_length in E; congruence|now apply IH].
Qed.
Lemma array_rect data m : as_array num data = Ok m -> rectangular m.
Proof.
  destruct data as [|r rs]; intro H; [injection H as <-; exists 0; constructor|]. cbn [as_array] in H. destruct (forallb _ _) eqn:E; [|discriminate]. exists (List.length r). refine (all_rect _ _ _ _ H).
  constructor; [reflexivity|]. apply Forall_forall. intros x Hx. rewrite forallb_forall in E. now apply Nat.eqb_eq, E.
Qed.
Definition consistent (st : state) (o : bmodes V) : Prop := List.length (frequencies o) = List.length (mode_shapes o) + (match st with Look => 0 | _ => 1 end) /\ Forall rectangular (mode_shapes o).
Lemma rect_nil : rectangular []. Proof. exists 0. constructor. Qed.
Lemma scan_consistent lines : forall st o r, consistent st o -> scan num st o lines = Ok r -> consistent Look r.
Proof.
  induction lines as [|l lines IH]; intros st o r [C1 C2] H; cbn [scan] in H.
  - destruct st as [|k|data]; [injection H as <-; split; assumption| |].
    + injection H as <-. split; cbn [frequencies mode_shapes]; [rewrite app_length; cbn [List.length]; lia|apply Forall_app; split; [exact C2|constructor; [apply rect_nil|constructor]]].
    + destruct (as_array num data) as [m|] eqn:E; [|discriminate]. cbn [bind] in H. injection H as <-. split; cbn [frequencies mode_shapes]; [rewrite app_length; cbn [List.length]; lia|apply Forall_app; split; [exact C2|constructor; [exact (array_rect _ _ E)|constructor]]].
  - destruct st as [|k|data].
    + destruct (find_str (S_ "freq = ") l) as [[|i]|]; [exact (IH Look o r (conj C1 C2) H)| |exact (IH Look o r (conj C1 C2) H)]. destruct (num _) as [v|]; [|discriminate].
      refine (IH (Skip 3) _ r _ H). split; cbn [frequencies mode_shapes]; [rewrite app_length; cbn [List.length]; lia|exact C2].
    + destruct k as [|[|k]]; [refine (IH (Rows []) o r _ H)|refine (IH (Rows []) o r _ H)|refine (IH (Skip (S k)) o r _ H)]; split; assumption.
    + destruct (ends_rows l).
      * destruct (as_array num data) as [m|] eqn:E; [|discriminate]. cbn [bind] in H. refine (IH Look _ r _ H). split; cbn [frequencies mode_shapes]; [rewrite app_length; cbn [List.length]; lia|apply Forall_app; split; [exact C2|constructor; [exact (array_rect _ _ E)|constructor]]].
      * refine (IH (Rows _) o r _ H). split; assumption.
Qed.
Theorem C106_success file o : read num file = Ok o -> (exists first rest, file = first :: rest /\ from_bmodes first) /\ List.length (frequencies o) = List.length (mode_shapes o) /\ Forall rectangular (mode_shapes o).
Proof.
  intro H. unfold read in H. destruct file as [|first rest]; [discriminate|]. destruct (contains first (S_ "BModes")) eqn:E; [|discriminate]. split; [exists first, rest; split; [reflexivity|now apply contains_iff]|].
  destruct (scan_consistent rest Look (mk_bmodes [] []) o) as [A B]; [split; [reflexivity|constructor]|exact H|]. split; [lia|exact B].
Qed.
(** Another program's file is refused.  An empty file gives an error of the reader itself, not the announced one. *)
Theorem C106_other_file first rest : ~ from_bmodes first -> read num (first :: rest) = Err WrongFormatError.
Proof. intro H. unfold read. destruct (contains first (S_ "BModes")) eqn:E; [apply contains_iff in E; contradiction|reflexivity]. Qed.
Theorem C106_empty_refuted : read num [] = Err NameError /\ read num [] <> Err EmptyFileError.
Proof. split; [reflexivity|discriminate]. Qed.
(** A frequency at the start of its line is not seen: the mode is lost without an error. *)
Theorem C106_margin_refuted first t lines : from_bmodes first -> Forall quiet lines -> read num (first :: (mark ++ t) :: lines) = Ok (mk_bmodes [] []).
Proof. intros Hf H. refine (C106_read first _ [] Hf _). constructor. constructor; [right; exists t; reflexivity|exact H]. Qed.
(** A frequency whose next twelve characters are more than the number is refused, however the number is written. *)
Theorem C106_width_refuted first a t z rest : from_bmodes first -> a <> [] -> nowhere mark (a ++ S_ "freq =") -> num (firstn 12 (t ++ z)) = None -> read num (first :: (a ++ mark ++ t ++ z) :: rest) = Err ValueError.
Proof.
  intros Hf Ha Hn Ht. unfold read. apply contains_iff in Hf. rewrite Hf. cbn [scan]. change (S_ "freq = ") with mark. rewrite (find_str_here mark a (t ++ z)) by (exact Hn || discriminate). destruct a as [|c a]; [contradiction|]. cbn [List.length].
  replace (skipn (S (List.length a) + 7) ((c :: a) ++ mark ++ t ++ z)) with (t ++ z); [now rewrite Ht|]. rewrite app_assoc. replace (S (List.length a) + 7) with (List.length ((c :: a) ++ mark)) by (rewrite app_length; reflexivity). now rewrite skipn_exact.
Qed.
End Proofs.

(** * Examples *)
Definition toy (w : str) : option N := match strip w with [c] => if is_digit c then Some (N.of_nat (ord c - 48)) else None | s => if str_eqb s (S_ "0.230788E+00") then Some 23%N else None end.
Definition ex_file : list str := map S_ ["Results generated by BModes (v1)"; "Tower"; "========"; ""; "freq = 1"; " -------- Mode No.   1  (freq = 0.230788E+00 Hz)"; ""; "span_loc"; ""; " 0 1 2 3 4 5"; " 1 1 2 3 4 5"; ""; "";
  " -- (freq = 0.230788E+00 Hz)"; ""; "span_loc"; ""; " 0 1 2 3 4 5"]%string.
Definition ex_modes : list (mode N) := [mk_mode 23%N 6 [[0; 1; 2; 3; 4; 5]; [1; 1; 2; 3; 4; 5]]%N; mk_mode 23%N 6 [[0; 1; 2; 3; 4; 5]]%N].
Lemma not_stop l c t : l = sp :: c :: t -> is_space c = false -> ~ stops l.
Proof. intros -> H [B|(x & E)]; [cbn [forallb] in B; rewrite H in B; now rewrite andb_false_r in B|discriminate]. Qed.
Lemma F2_map {A B} (f : A -> option B) ws vs : map f ws = map Some vs -> Forall2 (fun w v => f w = Some v) ws vs.
Proof. revert vs. induction ws as [|w ws IH]; intros [|v vs] M; try discriminate; constructor; [now injection M|apply IH; now injection M]. Qed.
Example ex_ok : modes_lines toy ex_modes (tl ex_file).
Proof.
  assert (Q : forall l, contains l mark = false -> quiet l) by (intros l H; left; now apply nowhere_contains).
  assert (R : forall l r c t, l = sp :: c :: t -> is_space c = false -> map toy (split_ws l) = map Some r -> List.length r = 6 -> row_line toy 6 l r).
  { intros l r c t E Hc M L. split; [now apply (not_stop l c t)|]. split; [now apply F2_map|exact L]. }
  change (tl ex_file) with (firstn 11 (tl ex_file) ++ skipn 11 (tl ex_file)). apply one_mode.
  - exists (map S_ ["Tower"; "========"; ""; "freq = 1"]%string), (S_ " -------- Mode No.   1  (freq = 0.230788E+00 Hz)"), [], (S_ "span_loc"), [], [S_ " 0 1 2 3 4 5"; S_ " 1 1 2 3 4 5"], [[]]. split; [reflexivity|].
    split; [constructor; [apply Q; reflexivity|constructor; [apply Q; reflexivity|constructor; [apply Q; reflexivity|constructor; [right; exists (S_ "1"); reflexivity|constructor]]]]|].
    split; [exists (S_ " -------- Mode No.   1  ("), (S_ "0.230788E+00"), (S_ " Hz)"); split; [reflexivity|]; split; [discriminate|]; split; [now apply nowhere_contains|]; split; [reflexivity|left; reflexivity]|].
    split; [constructor; [eapply R; reflexivity|constructor; [eapply R; reflexivity|constructor]]|]. left. exists []. split; [reflexivity|left; reflexivity].
  - change (skipn 11 (tl ex_file)) with (([] : str) :: skipn 12 (tl ex_file)). apply last_mode.
    exists [[]], (S_ " -- (freq = 0.230788E+00 Hz)"), [], (S_ "span_loc"), [], [S_ " 0 1 2 3 4 5"], []. split; [reflexivity|]. split; [constructor; [apply Q; reflexivity|constructor]|].
    split; [exists (S_ " -- ("), (S_ "0.230788E+00"), (S_ " Hz)"); split; [reflexivity|]; split; [discriminate|]; split; [now apply nowhere_contains|]; split; [reflexivity|left; reflexivity]|].
    split; [constructor; [eapply R; reflexivity|constructor]|]. right. split; reflexivity.
Qed.
Example ex_read : read toy ex_file = Ok (mk_bmodes [23; 23]%N [[[0; 1; 2; 3; 4; 5]; [1; 1; 2; 3; 4; 5]]; [[0; 1; 2; 3; 4; 5]]]%N) /\ exists fs, toDataFrame (mk_bmodes [23; 23]%N [[[0; 1; 2; 3; 4; 5]; [1; 1; 2; 3; 4; 5]]; [[0; 1; 2; 3; 4; 5]]]%N) = Ok fs /\ map fst fs = [S_ "Mode_1"; S_ "Mode_2"].
Proof. split; [vm_compute; reflexivity|]. eexists. split; [vm_compute; reflexivity|reflexivity]. Qed.
(** A frequency written with fewer digits *)
Example ex_width : toy (firstn 12 (S_ "0.2 Hz)")) = None /\ read toy [S_ "BModes"; S_ " (freq = 0.2 Hz)"] = Err ValueError.
Proof. split; vm_compute; reflexivity. Qed.

Print Assumptions C106_read.
Print Assumptions C106_frames.
Print Assumptions C106_frames_refused.
Print Assumptions C106_success.
Print Assumptions C106_other_file.
Print Assumptions C106_empty_refuted.
Print Assumptions C106_margin_refuted.
Print Assumptions C106_width_refuted.
