(** Properties C90-C93 and C96: HAWC2 st files, reading, writing, access and modification. *)
From Coq Require Import QArith Lqa Lia Sorted.
From Verif Require Import Py PyFacts TextFacts ListFacts AEPC_Model AEPC_Proofs AEPC_Interp St_Model.
Local Open Scope nat_scope.

(** ** Specification *)
Definition no_chr (c : ascii) (s : str) : Prop := ~ In c s.
Definition one_line_text (s : str) : Prop := no_chr "#" s /\ no_chr "$" s /\ no_chr nl s.
(** What stands before a comment *)
Fixpoint data_part (s : str) : str := match s with c :: t => if chr_eqb c ";" then [] else c :: data_part t | [] => [] end.
(** The line of a row and its numbers *)
Definition row_means {V} (num : str -> option V) (l : str) (r : list V) : Prop := Forall2 (fun w v => num w = Some v) (split_ws (data_part l)) r.
(** A set: its number, the line after the dollar sign, the lines of its rows, what follows the rows, its data *)
Record set_txt V := mk_set { s_nr : Z; s_line : str; s_rows : list str; s_more : list str; s_data : array V }.
Record main_txt V := mk_main { m_nr : Z; m_head : str; m_sets : list (set_txt V) }.
Arguments mk_set {V}. Arguments s_nr {V}. Arguments s_line {V}. Arguments s_rows {V}. Arguments s_more {V}. Arguments s_data {V}.
Arguments mk_main {V}. Arguments m_nr {V}. Arguments m_head {V}. Arguments m_sets {V}.
Definition set_text {V} (s : set_txt V) : str := S_ "$" ++ join [nl] (s_line s :: s_rows s ++ s_more s).
Definition main_text {V} (m : main_txt V) : str := S_ "#" ++ m_head m ++ flat_map set_text (m_sets m).
Definition file_text {V} (pre : str) (ms : list (main_txt V)) : str := pre ++ flat_map main_text ms.
(** The numbers that open a set, and its rows, all with k numbers *)
Definition good_line (l : str) (nr rows : Z) : Prop := exists a b t, split_ws l = a :: b :: t /\ int_ a = Ok nr /\ int_ b = Ok rows.
Definition good_set {V} (num : str -> option V) (k : nat) (s : set_txt V) : Prop :=
  good_line (s_line s) (s_nr s) (Z.of_nat (List.length (s_rows s))) /\ Forall one_line_text (s_line s :: s_rows s ++ s_more s) /\
  Forall2 (row_means num) (s_rows s) (s_data s) /\ Forall (fun r => List.length r = k) (s_data s).
Definition good_head (h : str) (nr : Z) : Prop :=
  no_chr "#" h /\ no_chr "$" h /\ exists w x c t, h = w ++ c :: t /\ is_space c = true /\ split_ws w = [x] /\ int_ x = Ok nr.
Definition good_main {V} (num : str -> option V) (m : main_txt V) : Prop :=
  good_head (m_head m) (m_nr m) /\ Forall (fun s => exists k, good_set num k s) (m_sets m) /\ NoDup (map s_nr (m_sets m)).
Definition data_of {V} (ms : list (main_txt V)) : list (Z * list (Z * array V)) := map (fun m => (m_nr m, map (fun s => (s_nr s, s_data s)) (m_sets m))) ms.
Definition names19 : list str := map S_ ["r"; "m"; "x_cg"; "y_cg"; "ri_x"; "ri_y"; "x_sh"; "y_sh"; "E"; "G"; "I_x"; "I_y"; "I_p"; "k_x"; "k_y"; "A"; "pitch"; "x_e"; "y_e"]%string.
Definition names30 : list str := map S_ ["r"; "m"; "x_cg"; "y_cg"; "ri_x"; "ri_y"; "pitch"; "x_e"; "y_e"; "K_11"; "K_12"; "K_13"; "K_14"; "K_15"; "K_16"; "K_22";
  "K_23"; "K_24"; "K_25"; "K_26"; "K_33"; "K_34"; "K_35"; "K_36"; "K_44"; "K_45"; "K_46"; "K_55"; "K_56"; "K_66"]%string.
Definition kind (k : nat) (names : list str) : Prop := k = 19 /\ names = names19 \/ k = 30 /\ names = names30.

(** ** Lemmas *)
Lemma no_chr_split c s : no_chr c s -> negb (mem_chr c s) = true.
Proof. intro H. destruct (mem_chr c s) eqn:E; [|reflexivity]. apply mem_chr_iff in E. contradiction. Qed.
Lemma no_chr_app c a b : no_chr c (a ++ b) <-> no_chr c a /\ no_chr c b.
Proof. unfold no_chr. rewrite in_app_iff. tauto. Qed.
Lemma split_chr_list c w ws : Forall (no_chr c) (w :: ws) -> split_chr c (w ++ flat_map (fun x => c :: x) ws) = w :: ws.
Proof.
  intro H. replace (w ++ flat_map (fun x => c :: x) ws) with (join [c] (w :: ws)) by (rewrite join_flat; reflexivity).
  apply split_chr_join; [discriminate|]. apply forallb_forall. intros x Hx. apply no_chr_split. rewrite Forall_forall in H. now apply H.
Qed.
Lemma no_chr_join c sep ws : no_chr c sep -> Forall (no_chr c) ws -> no_chr c (join sep ws).
Proof.
  intros Hs H. induction ws as [|w ws IH]; [easy|]. inversion H as [|? ? H1 H2]; subst. destruct ws as [|w' ws]; [exact H1|].
  rewrite join_cons by discriminate. rewrite !no_chr_app. split; [exact H1|]. split; [exact Hs|now apply IH].
Qed.
Lemma split_semi l : hd [] (split_chr (ch 59) l) = data_part l.
Proof.
  induction l as [|c l IH]; [reflexivity|]. unfold split_chr in *. cbn [split_on data_part]. change (ch 59) with (";"%char) in *.
  destruct (chr_eqb c ";"); [reflexivity|]. destruct (split_on _ l) as [|w ws]; cbn [hd] in *; now rewrite IH.
Qed.
Lemma kind_stc k names : kind k names -> (k = List.length stc /\ names = stc \/ k <> List.length stc /\ k = List.length fpm /\ names = fpm).
Proof. intros [[-> ->]|[-> ->]]; [left; split; vm_compute; reflexivity|right; split; [vm_compute; discriminate|split; vm_compute; reflexivity]]. Qed.

Section Text.
Context {V : Type}.
Variable num : str -> option V.

Lemma words_seq (lines : list str) : forall rows pre, words (pre ++ rows ++ lines) (seq (List.length pre) (List.length rows)) = Ok (map (fun l => split_ws (data_part l)) rows).
Proof.
  induction rows as [|r rows IH]; intro pre; [reflexivity|]. cbn [List.length seq words map]. cbn [app]. rewrite nth_error_app2, Nat.sub_diag by lia. cbn [nth_error].
  specialize (IH (pre ++ [r])). rewrite app_length, Nat.add_1_r, <- app_assoc in IH. cbn [app] in IH. rewrite IH. cbn [bind]. now rewrite split_semi.
Qed.
Lemma floats_ok ws (r : list V) : Forall2 (fun w v => num w = Some v) ws r -> floats num ws = Some r /\ List.length ws = List.length r.
Proof. induction 1 as [|w v ws r H _ [IH L]]; [split; reflexivity|]. cbn [floats List.length]. rewrite H, IH, L. split; reflexivity. Qed.
Lemma to_array_ok k rows (m : array V) : Forall2 (row_means num) rows m -> Forall (fun r => List.length r = k) m ->
  to_array num (map (fun l => split_ws (data_part l)) rows) = Ok m.
Proof.
  intros H Hk. assert (L : Forall (fun l => List.length l = k) (map (fun l => split_ws (data_part l)) rows) /\ rows_of num (map (fun l => split_ws (data_part l)) rows) = Some m).
  { induction H as [|l r rows m H _ IH]; [split; [constructor|reflexivity]|]. inversion Hk as [|? ? Hr Hk']; subst. destruct (IH Hk') as [I1 I2]. destruct (floats_ok _ _ H) as [E1 E2].
    cbn [map]. split; [constructor; [now rewrite E2|exact I1]|]. cbn [rows_of]. now rewrite E1, I2. }
  destruct L as [L1 L2]. unfold to_array. rewrite L2. replace (forallb _ _) with true; [reflexivity|]. symmetry. apply forallb_forall. intros l Hl. apply Nat.eqb_eq.
  rewrite Forall_forall in L1. rewrite (L1 l Hl). symmetry. destruct (map _ rows) as [|l' ls] eqn:E; [destruct Hl|]. apply L1. now left.
Qed.
Lemma two_ints_ok l nr rows : good_line l nr rows -> two_ints l = Ok (nr, rows).
Proof. intros (a & b & t & E & Ha & Hb). unfold two_ints. rewrite E, Ha. cbn [bind]. now rewrite Hb. Qed.
Definition set_lines (s : set_txt V) : list str := s_line s :: s_rows s ++ s_more s.
Lemma split_set s : Forall one_line_text (set_lines s) -> split_chr nl (join [nl] (set_lines s)) = set_lines s.
Proof.
  intro H. apply split_chr_join; [discriminate|]. apply forallb_forall. intros x Hx. apply no_chr_split. rewrite Forall_forall in H. apply (H x Hx).
Qed.
Lemma read_set_ok d k s : good_set num k s -> zmem d (s_nr s) = false ->
  read_set num d (join [nl] (set_lines s)) = Ok (zset d (s_nr s) (s_data s), map (fun l => split_ws (data_part l)) (s_rows s)).
Proof.
  intros (Hl & H1 & H2 & H3) Hd. unfold read_set. rewrite split_set by exact H1. unfold set_lines at 1. cbn [hd]. rewrite (two_ints_ok _ _ _ Hl). cbn [bind]. rewrite Hd.
  rewrite Nat2Z.id. unfold set_lines. change (s_line s :: s_rows s ++ s_more s) with ([s_line s] ++ s_rows s ++ s_more s). change 1 with (List.length [s_line s]) at 1. rewrite words_seq. cbn [bind].
  rewrite (to_array_ok k (s_rows s) (s_data s) H2 H3). reflexivity.
Qed.
Lemma zmem_false {A} (d : list (Z * A)) k : ~ In k (map fst d) -> zmem d k = false.
Proof.
  induction d as [|[k' v] d IH]; intro H; [reflexivity|]. unfold zmem in *. cbn [zget]. cbn [map fst In] in H. destruct (Z.eqb_spec k' k) as [->|N]; [exfalso; apply H; now left|].
  apply IH. tauto.
Qed.
Lemma zset_new {A} (d : list (Z * A)) k v : ~ In k (map fst d) -> zset d k v = d ++ [(k, v)].
Proof.
  induction d as [|[k' v'] d IH]; intro H; [reflexivity|]. cbn [zset app]. cbn [map fst In] in H. destruct (Z.eqb_spec k' k) as [->|N]; [exfalso; apply H; now left|]. rewrite IH by tauto. reflexivity.
Qed.
Definition pair_of (s : set_txt V) : Z * array V := (s_nr s, s_data s).
Definition row_words (s : set_txt V) : list (list str) := map (fun l => split_ws (data_part l)) (s_rows s).
Definition last_of (last : option (list (list str))) (ss : list (set_txt V)) : option (list (list str)) := fold_left (fun _ s => Some (row_words s)) ss last.
Lemma read_sets_ok ss : forall d last, Forall (fun s => exists k, good_set num k s) ss -> NoDup (map fst d ++ map s_nr ss) ->
  read_sets num d last (map (fun s => join [nl] (set_lines s)) ss) = Ok (d ++ map pair_of ss, last_of last ss).
Proof.
  induction ss as [|s ss IH]; intros d last H Hn; [cbn; now rewrite app_nil_r|]. inversion H as [|? ? [k Hs] Hss]; subst. cbn [map read_sets].
  assert (Hnew : ~ In (s_nr s) (map fst d)). { cbn [map] in Hn. apply NoDup_remove_2 in Hn. intro G. apply Hn. apply in_or_app. now left. }
  rewrite (read_set_ok d k s Hs) by now apply zmem_false. cbn [bind]. rewrite zset_new by exact Hnew. rewrite IH.
  - cbn [map last_of fold_left]. rewrite <- app_assoc. reflexivity.
  - exact Hss.
  - rewrite map_app. cbn [map fst]. rewrite <- app_assoc. exact Hn.
Qed.
Lemma flat_set_text ss : flat_map set_text ss = flat_map (fun x => "$"%char :: x) (map (fun s => join [nl] (set_lines s)) ss).
Proof. induction ss as [|s ss IH]; [reflexivity|]. cbn [flat_map map]. rewrite IH. reflexivity. Qed.
Lemma set_no_chr k c s : good_set num k s -> c = "#"%char \/ c = "$"%char -> no_chr c (join [nl] (set_lines s)).
Proof.
  intros (_ & H & _) Hc. apply no_chr_join.
  - intros [G|[]]. destruct Hc as [->| ->]; discriminate.
  - eapply Forall_impl; [|exact H]. intros l (H1 & H2 & H3). destruct Hc as [->| ->]; assumption.
Qed.
Definition main_tail (m : main_txt V) : str := m_head m ++ flat_map set_text (m_sets m).
Lemma main_tail_hash m : good_main num m -> no_chr "#" (main_tail m).
Proof.
  intros ((H1 & _) & H2 & _). unfold main_tail. rewrite no_chr_app. split; [exact H1|]. rewrite flat_set_text. induction H2 as [|s ss [k Hs] _ IH]; [easy|]. cbn [map flat_map].
  rewrite no_chr_app. split; [|exact IH]. intros [G|G]; [discriminate|]. exact (set_no_chr k "#" s Hs (or_introl eq_refl) G).
Qed.
Lemma head_word h nr t : good_head h nr -> exists x ws, split_ws (h ++ t) = x :: ws /\ int_ x = Ok nr.
Proof.
  intros (_ & _ & w & x & c & r & -> & Hc & Hw & Hx). exists x, (split_ws (r ++ t)). split; [|exact Hx]. rewrite <- app_assoc. cbn [app]. rewrite split_ws_app by exact Hc. rewrite Hw. reflexivity.
Qed.
Lemma read_main_ok M last m : good_main num m ->
  read_main num M last (main_tail m) = Ok (zset M (m_nr m) (map pair_of (m_sets m)), last_of last (m_sets m)).
Proof.
  intros (Hh & Hs & Hn). unfold read_main. rewrite split_ws_strip. destruct (head_word _ _ (flat_map set_text (m_sets m)) Hh) as (x & ws & E & Hx). unfold main_tail. rewrite E, Hx. cbn [bind].
  rewrite flat_set_text. change (ch 36) with ("$"%char). rewrite split_chr_list.
  - cbn [tl]. rewrite read_sets_ok; [reflexivity|exact Hs|exact Hn].
  - constructor; [apply Hh|]. clear - Hs. induction Hs as [|s ss [k H] _ IH]; [constructor|]. cbn [map]. constructor; [|exact IH]. eapply set_no_chr; [exact H|now right].
Qed.
Definition all_sets (ms : list (main_txt V)) : list (set_txt V) := flat_map m_sets ms.
Fixpoint overwrite (M : list (Z * list (Z * array V))) (ms : list (main_txt V)) : list (Z * list (Z * array V)) :=
  match ms with [] => M | m :: ms' => overwrite (zset M (m_nr m) (map pair_of (m_sets m))) ms' end.
Lemma read_mains_ok ms : forall M last, Forall (good_main num) ms ->
  read_mains num M last (map main_tail ms) = Ok (overwrite M ms, last_of last (all_sets ms)).
Proof.
  induction ms as [|m ms IH]; intros M last H; [reflexivity|]. inversion H as [|? ? Hm Hms]; subst. cbn [map read_mains]. rewrite read_main_ok by exact Hm. cbn [bind]. rewrite IH by exact Hms.
  unfold all_sets. cbn [flat_map overwrite]. unfold last_of. now rewrite fold_left_app.
Qed.
Lemma overwrite_new ms : forall M, NoDup (map fst M ++ map m_nr ms) -> overwrite M ms = M ++ data_of ms.
Proof.
  induction ms as [|m ms IH]; intros M H; [cbn; now rewrite app_nil_r|]. cbn [overwrite]. assert (Hnew : ~ In (m_nr m) (map fst M)). { cbn [map] in H. apply NoDup_remove_2 in H. intro G. apply H. apply in_or_app. now left. }
  rewrite zset_new by exact Hnew. rewrite IH; [unfold data_of; cbn [map]; rewrite <- app_assoc; reflexivity|]. rewrite map_app. cbn [map fst]. rewrite <- app_assoc. exact H.
Qed.
Lemma last_of_last ss s : last_of None (ss ++ [s]) = Some (row_words s).
Proof. unfold last_of. rewrite fold_left_app. reflexivity. Qed.
Lemma flat_main_text ms : flat_map main_text ms = flat_map (fun x => "#"%char :: x) (map main_tail ms).
Proof. induction ms as [|m ms IH]; [reflexivity|]. cbn [flat_map map]. rewrite IH. reflexivity. Qed.
Lemma read_text pre ms : no_chr "#" pre -> Forall (good_main num) ms ->
  read_mains num [] None (tl (split_chr (ch 35) (file_text pre ms))) = Ok (overwrite [] ms, last_of None (all_sets ms)).
Proof.
  intros Hp H. unfold file_text. rewrite flat_main_text. change (ch 35) with ("#"%char). rewrite split_chr_list.
  - cbn [tl]. now apply read_mains_ok.
  - constructor; [exact Hp|]. induction H as [|m ms Hm _ IH]; [constructor|]. cbn [map]. constructor; [now apply main_tail_hash|exact IH].
Qed.
Lemma read_st_any pre ms ss s k names : no_chr "#" pre -> Forall (good_main num) ms -> all_sets ms = ss ++ [s] -> good_set num k s -> s_data s <> [] -> kind k names ->
  read_st num (file_text pre ms) = Ok (mk_st (overwrite [] ms) (Some names)).
Proof.
  intros Hp H Es Hs Hd Hk. unfold read_st. rewrite read_text by assumption. cbn [bind]. rewrite Es, last_of_last. unfold row_words.
  destruct Hs as (_ & _ & H2 & H3). destruct (s_data s) as [|r m]; [contradiction|]. destruct (s_rows s) as [|l rows]; inversion H2 as [|? ? ? ? Hr Hrs]; subst. inversion H3 as [|? ? Hl ?]; subst. cbn [map].
  destruct (floats_ok _ _ Hr) as [_ ->].
  destruct (kind_stc _ _ Hk) as [[E ->]|(N & E & ->)]; [now rewrite E, Nat.eqb_refl|]. apply Nat.eqb_neq in N. now rewrite N, E, Nat.eqb_refl.
Qed.

(** ** C91: what is read *)
(** Main sets, sets and rows of the file, in their order; the last set decides on the kind of file *)
Theorem C91_reads : forall pre ms ss s k names, no_chr "#" pre -> Forall (good_main num) ms -> NoDup (map m_nr ms) ->
  flat_map m_sets ms = ss ++ [s] -> good_set num k s -> s_data s <> [] -> kind k names ->
  read_st num (file_text pre ms) = Ok (mk_st (data_of ms) (Some names)).
Proof. intros pre ms ss s k names Hp H Hn Es Hs Hd Hk. rewrite (read_st_any pre ms ss s k names) by assumption. rewrite overwrite_new by exact Hn. reflexivity. Qed.
(** A main set number that is used twice: the first main set is lost without an error *)
Theorem C91_duplicate_main_refuted : forall pre m1 m2 ss s k names, no_chr "#" pre -> good_main num m1 -> good_main num m2 -> m_nr m1 = m_nr m2 ->
  m_sets m2 = ss ++ [s] -> good_set num k s -> s_data s <> [] -> kind k names ->
  read_st num (file_text pre [m1; m2]) = Ok (mk_st (data_of [m2]) (Some names)).
Proof.
  intros pre m1 m2 ss s k names Hp H1 H2 En Es Hs Hd Hk. rewrite (read_st_any pre [m1; m2] (m_sets m1 ++ ss) s k names); auto.
  - cbn [overwrite zset]. rewrite <- En, Z.eqb_refl. unfold data_of. cbn [map]. rewrite En. reflexivity.
  - unfold all_sets. cbn [flat_map]. rewrite app_nil_r, Es, app_assoc. reflexivity.
Qed.
(** Another number of columns in the last set refuses the file *)
Theorem C91_columns : forall pre ms ss s k, no_chr "#" pre -> Forall (good_main num) ms ->
  flat_map m_sets ms = ss ++ [s] -> good_set num k s -> s_data s <> [] -> k <> 19 -> k <> 30 -> read_st num (file_text pre ms) = Err TypeError.
Proof.
  intros pre ms ss s k Hp H Es Hs Hd N1 N2. unfold read_st. rewrite read_text by assumption. cbn [bind]. unfold all_sets. rewrite Es, last_of_last. unfold row_words.
  destruct Hs as (_ & _ & H2 & H3). destruct (s_data s) as [|r m]; [contradiction|]. destruct (s_rows s) as [|l rows]; inversion H2 as [|? ? ? ? Hr Hrs]; subst. inversion H3 as [|? ? Hl ?]; subst. cbn [map].
  destruct (floats_ok _ _ Hr) as [_ ->]. apply Nat.eqb_neq in N1, N2. change (List.length stc) with 19. change (List.length fpm) with 30. now rewrite N1, N2.
Qed.
(** A last set without rows, or no set at all: unrelated errors *)
Theorem C91_empty_last_set_refuted : forall pre ms ss s k, no_chr "#" pre -> Forall (good_main num) ms ->
  flat_map m_sets ms = ss ++ [s] -> good_set num k s -> s_data s = [] -> read_st num (file_text pre ms) = Err IndexError.
Proof.
  intros pre ms ss s k Hp H Es (_ & _ & H2 & _) Hd. unfold read_st. rewrite read_text by assumption. cbn [bind]. unfold all_sets. rewrite Es, last_of_last. unfold row_words.
  rewrite Hd in H2. inversion H2. reflexivity.
Qed.
Theorem C91_no_set_refuted : forall pre ms, no_chr "#" pre -> Forall (good_main num) ms -> flat_map m_sets ms = [] -> read_st num (file_text pre ms) = Err UnboundLocalError.
Proof. intros pre ms Hp H E. unfold read_st. rewrite read_text by assumption. cbn [bind]. unfold all_sets. rewrite E. reflexivity. Qed.

(** A file whose first faulty set is [s]: what follows it does not matter *)
Definition faulty (pre : str) (ms : list (main_txt V)) (head : str) (nr : Z) (ss : list (set_txt V)) (s : set_txt V) (ss' : list (set_txt V)) (rest : str) : str :=
  file_text pre ms ++ main_text (mk_main nr head (ss ++ s :: ss')) ++ rest.
Definition ends (rest : str) : Prop := rest = [] \/ exists t, rest = "#"%char :: t.
Lemma split_chr_head c w t : no_chr c w -> split_chr c (w ++ c :: t) = w :: split_chr c t.
Proof. intro H. unfold split_chr. rewrite split_on_app_sep; [reflexivity| |apply chr_eqb_refl]. apply forallb_forall. intros x Hx. destruct (chr_eqb_spec x c) as [->|N]; [contradiction|reflexivity]. Qed.
Lemma split_chr_mid c w ws t : Forall (no_chr c) (w :: ws) -> t = [] \/ (exists t', t = c :: t') -> exists more, split_chr c (w ++ flat_map (fun x => c :: x) ws ++ t) = w :: ws ++ more.
Proof.
  intros H Ht. revert w H. induction ws as [|x ws IH]; intros w H; inversion H as [|? ? Hw Hws]; subst.
  - cbn [flat_map app]. destruct Ht as [->|[t' ->]].
    + exists []. rewrite app_nil_r. assert (G := split_chr_list c w [] H). cbn [flat_map] in G. rewrite app_nil_r in G. exact G.
    + exists (split_chr c t'). now rewrite split_chr_head.
  - cbn [flat_map]. rewrite <- app_assoc. cbn [app]. rewrite split_chr_head by exact Hw. destruct (IH x Hws) as [more E]. exists more. rewrite E. reflexivity.
Qed.
Lemma read_mains_app M last a b : read_mains num M last (a ++ b) = ('(M', last') <- read_mains num M last a ;; read_mains num M' last' b).
Proof. revert M last. induction a as [|x a IH]; intros M last; [reflexivity|]. cbn [app read_mains]. destruct (read_main num M last x) as [[M' last']|e]; cbn [bind]; [apply IH|reflexivity]. Qed.
Lemma read_sets_app d last a b : read_sets num d last (a ++ b) = ('(d', last') <- read_sets num d last a ;; read_sets num d' last' b).
Proof. revert d last. induction a as [|x a IH]; intros d last; [reflexivity|]. cbn [app read_sets]. destruct (read_set num d x) as [[d' l]|e]; cbn [bind]; [apply IH|reflexivity]. Qed.
Lemma faulty_fails pre ms head nr ss s ss' rest e : no_chr "#" pre -> Forall (good_main num) ms -> good_head head nr -> Forall (fun s => exists k, good_set num k s) ss -> NoDup (map s_nr ss) ->
  Forall one_line_text (set_lines s) -> Forall (fun s => Forall one_line_text (set_lines s)) ss' -> ends rest ->
  read_set num (map pair_of ss) (join [nl] (set_lines s)) = Err e -> read_st num (faulty pre ms head nr ss s ss' rest) = Err e.
Proof.
  intros Hp H Hh Hss Hn Hs Hss' He Hf. unfold faulty, file_text. rewrite <- app_assoc. rewrite flat_main_text.
  set (m := mk_main nr head (ss ++ s :: ss')).
  assert (Hc : forall c, c = "#"%char \/ c = "$"%char -> Forall (no_chr c) (map (fun s => join [nl] (set_lines s)) (ss ++ s :: ss'))).
  { intros c Hc. rewrite map_app. apply Forall_app. split.
    - clear - Hss Hc. induction Hss as [|x ss [k Hx] _ IH]; [constructor|]. cbn [map]. constructor; [|exact IH]. eapply set_no_chr; [exact Hx|exact Hc].
    - assert (P : forall x, Forall one_line_text (set_lines x) -> no_chr c (join [nl] (set_lines x))).
      { intros x Hx. apply no_chr_join; [intros [G|[]]; destruct Hc as [->| ->]; discriminate|]. eapply Forall_impl; [|exact Hx]. intros l (H1 & H2 & H3). destruct Hc as [->| ->]; assumption. }
      cbn [map]. constructor; [now apply P|]. rewrite Forall_map. eapply Forall_impl; [|exact Hss']. intros x Hx. now apply P. }
  assert (Hm : no_chr "#" (main_tail m)).
  { unfold main_tail, m. cbn [m_head m_sets]. rewrite no_chr_app. split; [apply Hh|]. rewrite flat_set_text. specialize (Hc "#"%char (or_introl eq_refl)). induction Hc as [|x l Hx _ IH]; [easy|]. cbn [flat_map].
    rewrite no_chr_app. split; [|exact IH]. intros [G|G]; [discriminate|contradiction]. }
  assert (E : pre ++ flat_map (fun x => "#"%char :: x) (map main_tail ms) ++ main_text m ++ rest = pre ++ flat_map (fun x => "#"%char :: x) (map main_tail (ms ++ [m])) ++ rest).
  { rewrite map_app, flat_map_app. cbn [map flat_map]. rewrite app_nil_r, <- app_assoc. reflexivity. }
  rewrite E. clear E. unfold read_st. change (ch 35) with ("#"%char).
  destruct (split_chr_mid "#" pre (map main_tail (ms ++ [m])) rest) as [more Em].
  { constructor; [exact Hp|]. rewrite map_app. apply Forall_app. split; [|constructor; [exact Hm|constructor]]. clear - H. induction H as [|x ms Hx _ IH]; [constructor|]. cbn [map]. constructor; [now apply main_tail_hash|exact IH]. }
  { exact He. }
  rewrite Em. cbn [tl]. rewrite map_app, <- app_assoc, read_mains_app, read_mains_ok by exact H. cbn [bind map app read_mains].
  assert (R : forall M last, read_main num M last (main_tail m) = Err e); [|now rewrite R].
  intros M last. unfold read_main. rewrite split_ws_strip. destruct (head_word _ _ (flat_map set_text (m_sets m)) Hh) as (x & ws & Ex & Hx). unfold main_tail. change (m_head m) with head. rewrite Ex, Hx. cbn [bind].
  rewrite flat_set_text. change (ch 36) with ("$"%char). rewrite split_chr_list by (constructor; [apply Hh|apply Hc; now right]). cbn [tl].
  change (m_sets m) with (ss ++ s :: ss'). rewrite map_app, read_sets_app, read_sets_ok by assumption. cbn [bind map read_sets app]. now rewrite Hf.
Qed.
Lemma split_one s : Forall one_line_text (set_lines s) -> split_chr nl (join [nl] (set_lines s)) = set_lines s.
Proof. apply split_set. Qed.
(** A set number that is used twice in a main set *)
Theorem C91_duplicate_set : forall pre ms head nr ss s ss' rest rows, no_chr "#" pre -> Forall (good_main num) ms -> good_head head nr -> Forall (fun s => exists k, good_set num k s) ss -> NoDup (map s_nr ss) ->
  Forall one_line_text (s_line s :: s_rows s ++ s_more s) -> Forall (fun s => Forall one_line_text (s_line s :: s_rows s ++ s_more s)) ss' -> ends rest ->
  good_line (s_line s) (s_nr s) rows -> In (s_nr s) (map s_nr ss) -> read_st num (faulty pre ms head nr ss s ss' rest) = Err AssertionError.
Proof.
  intros pre ms head nr ss s ss' rest rows Hp H Hh Hss Hn Hs Hss' He Hl Hi. apply faulty_fails; auto. unfold read_set. rewrite split_one by exact Hs. cbn [set_lines hd]. rewrite (two_ints_ok _ _ _ Hl). cbn [bind].
  assert (E : zmem (map pair_of ss) (s_nr s) = true).
  { unfold zmem. destruct (zget (map pair_of ss) (s_nr s)) eqn:G; [reflexivity|]. exfalso. apply (proj1 (zget_None _ _)) in G. apply G. unfold keys. rewrite map_map. exact Hi. }
  now rewrite E.
Qed.
(** Fewer lines than the number of rows *)
Theorem C91_missing_rows : forall pre ms head nr ss s ss' rest rows, no_chr "#" pre -> Forall (good_main num) ms -> good_head head nr -> Forall (fun s => exists k, good_set num k s) ss -> NoDup (map s_nr ss) ->
  Forall one_line_text (s_line s :: s_rows s ++ s_more s) -> Forall (fun s => Forall one_line_text (s_line s :: s_rows s ++ s_more s)) ss' -> ends rest ->
  good_line (s_line s) (s_nr s) rows -> ~ In (s_nr s) (map s_nr ss) -> (Z.of_nat (List.length (s_rows s ++ s_more s)) < rows)%Z -> read_st num (faulty pre ms head nr ss s ss' rest) = Err IndexError.
Proof.
  intros pre ms head nr ss s ss' rest rows Hp H Hh Hss Hn Hs Hss' He Hl Hi Hr. apply faulty_fails; auto. unfold read_set. rewrite split_one by exact Hs. unfold set_lines at 1. cbn [hd]. rewrite (two_ints_ok _ _ _ Hl). cbn [bind].
  rewrite zmem_false by (rewrite map_map; exact Hi).
  assert (W : forall lines idx i, In i idx -> List.length lines <= i -> words lines idx = Err IndexError).
  { intros lines idx i. induction idx as [|j idx IH]; intros Hi' Hl'; [destruct Hi'|]. cbn [words]. destruct (nth_error lines j) eqn:En; [|reflexivity]. destruct Hi' as [->|Hi'].
    - apply nth_error_None in Hl'. congruence.
    - rewrite IH by assumption. reflexivity. }
  rewrite (W _ _ (List.length (set_lines s))); [reflexivity| |lia]. apply in_seq. unfold set_lines. cbn [List.length]. lia.
Qed.
(** Rows that are not numbers, or not all of the same length *)
Lemma floats_back ws r : floats num ws = Some r -> Forall2 (fun w v => num w = Some v) ws r.
Proof.
  revert r. induction ws as [|w ws IH]; intros r E; cbn [floats] in E; [injection E as <-; constructor|]. destruct (num w) as [v|] eqn:En; [|discriminate]. destruct (floats num ws) as [vs|]; [|discriminate]. injection E as <-. constructor; [exact En|now apply IH].
Qed.
Theorem C91_rows : forall pre ms head nr ss s ss' rest, no_chr "#" pre -> Forall (good_main num) ms -> good_head head nr -> Forall (fun s => exists k, good_set num k s) ss -> NoDup (map s_nr ss) ->
  Forall one_line_text (s_line s :: s_rows s ++ s_more s) -> Forall (fun s => Forall one_line_text (s_line s :: s_rows s ++ s_more s)) ss' -> ends rest ->
  good_line (s_line s) (s_nr s) (Z.of_nat (List.length (s_rows s))) -> ~ In (s_nr s) (map s_nr ss) ->
  ~ (exists k m, Forall2 (row_means num) (s_rows s) m /\ Forall (fun r => List.length r = k) m) -> read_st num (faulty pre ms head nr ss s ss' rest) = Err ValueError.
Proof.
  intros pre ms head nr ss s ss' rest Hp H Hh Hss Hn Hs Hss' He Hl Hi Hr. apply faulty_fails; auto. unfold read_set. rewrite split_one by exact Hs. unfold set_lines at 1. cbn [hd]. rewrite (two_ints_ok _ _ _ Hl). cbn [bind].
  rewrite zmem_false by (rewrite map_map; exact Hi).
  rewrite Nat2Z.id. unfold set_lines. change (s_line s :: s_rows s ++ s_more s) with ([s_line s] ++ s_rows s ++ s_more s). change 1 with (List.length [s_line s]) at 1. rewrite words_seq. cbn [bind].
  replace (to_array num (map (fun l => split_ws (data_part l)) (s_rows s))) with (@Err (array V) ValueError); [reflexivity|]. symmetry.
  unfold to_array. destruct (forallb _ _) eqn:Ef; [|reflexivity]. destruct (rows_of num _) as [m|] eqn:Em; [|reflexivity]. exfalso. apply Hr.
  set (k := List.length (hd [] (map (fun l => split_ws (data_part l)) (s_rows s)))) in Ef. clearbody k. exists k, m. clear - Ef Em. revert m Em. induction (s_rows s) as [|l rows IH]; intros m Em; cbn [map rows_of] in Em.
  - injection Em as <-. split; constructor.
  - cbn [map forallb] in Ef. apply andb_inv in Ef. destruct Ef as [E1 E2]. destruct (floats num (split_ws (data_part l))) as [r|] eqn:Efl; [|discriminate]. destruct (rows_of num _) as [m'|]; [|discriminate]. injection Em as <-.
    destruct (IH E2 m' eq_refl) as [I1 I2]. apply floats_back in Efl. split; constructor; auto. apply Nat.eqb_eq in E1. rewrite <- E1. symmetry. apply (floats_ok _ _ Efl).
Qed.

(** ** C90: writing and reading *)
Variable fmt : V -> str.
Variable one : V.
(** The text of a number starts with a blank, and python reads it as [rnd] of the number *)
Definition separate (rnd : V -> V) (v : V) : Prop :=
  exists k w, fmt v = repeat sp (S k) ++ w /\ is_token w = true /\ no_chr ";" w /\ no_chr "#" w /\ no_chr "$" w /\ num w = Some (rnd v).
(** Every main set has sets, every set has rows, every row has k numbers *)
Definition complete (rnd : V -> V) (k : nat) (o : st V) : Prop :=
  main o <> [] /\ NoDup (map fst (main o)) /\
  Forall (fun m => snd m <> [] /\ NoDup (map fst (snd m)) /\ Forall (fun s => snd s <> [] /\ Forall (fun r => List.length r = k /\ Forall (separate rnd) r) (snd s)) (snd m)) (main o).
Definition map_st (rnd : V -> V) (o : st V) : st V :=
  mk_st (map (fun m => (fst m, map (fun s => (fst s, map (map rnd) (snd s))) (snd m))) (main o)) (cols o).

Lemma separate_words rnd r : Forall (separate rnd) r -> row_means num (List.concat (map fmt r)) (map rnd r) /\ one_line_text (List.concat (map fmt r)) /\ no_chr ";" (List.concat (map fmt r)) /\
  (r = [] \/ exists t, List.concat (map fmt r) = sp :: t).
Proof.
  unfold row_means. assert (D : forall s, no_chr ";" s -> data_part s = s).
  { induction s as [|c s IH]; intro G; [reflexivity|]. cbn [data_part]. destruct (chr_eqb_spec c ";") as [->|N]; [exfalso; apply G; now left|]. rewrite IH; [reflexivity|]. intro F. apply G. now right. }
  assert (SP : forall c n, c <> sp -> no_chr c (repeat sp n)). { intros c n Hc G. apply repeat_spec in G. contradiction. }
  induction 1 as [|v r (k & w & E & T & N1 & N2 & N3 & Hv) _ (I1 & (I2 & I3 & I4) & I5 & I6)].
  - cbn. split; [constructor|]. split; [repeat split; intros []|]. split; [intros []|now left].
  - cbn [map List.concat].
    assert (NL : no_chr nl w) by (apply token_not_in; [exact T|reflexivity]).
    assert (A : no_chr ";" (fmt v) /\ no_chr "#" (fmt v) /\ no_chr "$" (fmt v) /\ no_chr nl (fmt v)).
    { rewrite E. repeat split; apply no_chr_app; (split; [apply SP; discriminate|assumption]). }
    destruct A as (A1 & A2 & A3 & A4).
    assert (B : no_chr ";" (fmt v ++ List.concat (map fmt r))) by (apply no_chr_app; now split).
    split; [|split; [repeat split; apply no_chr_app; now split|split; [exact B|]]].
    + rewrite D in * by assumption. assert (W : split_ws (fmt v ++ List.concat (map fmt r)) = w :: split_ws (List.concat (map fmt r))).
      { rewrite E, <- app_assoc. rewrite split_ws_lpad by (apply forallb_forall; intros c Hc; apply repeat_spec in Hc; subst c; reflexivity).
        destruct I6 as [->|[t Et]].
        - cbn. rewrite app_nil_r. now apply split_ws_token.
        - rewrite Et. rewrite split_ws_app by reflexivity. rewrite split_ws_token by exact T. rewrite split_ws_blank_cons by reflexivity. reflexivity. }
      rewrite W. constructor; [exact Hv|exact I1].
    + right. rewrite E. cbn [repeat app]. eexists. reflexivity.
Qed.

(** The lines above a set *)
Definition heads (names : list str) : str * str := (repeat "="%char (List.length (fmt one) * List.length names), flat_map (center (List.length (fmt one))) names).
Definition set_of (rnd : V -> V) (more : list str) (s : Z * array V) : set_txt V :=
  mk_set (fst s) (str_of_Z (fst s) ++ [sp] ++ str_of_N (N.of_nat (List.length (snd s)))) (map (fun r => List.concat (map fmt r)) (snd s)) more (map (map rnd) (snd s)).
Fixpoint sets_of (rnd : V -> V) (h : str * str) (ss : list (Z * array V)) : list (set_txt V) :=
  match ss with
  | [] => []
  | [s] => [set_of rnd [[]] s]
  | s :: ss' => set_of rnd [fst h; snd h; fst h; []] s :: sets_of rnd h ss'
  end.
Definition head_text (h : str * str) : str := (fst h ++ [nl]) ++ (snd h ++ [nl]) ++ fst h ++ [nl].
Lemma join_rows line rows more : rows <> [] -> more <> [] -> join [nl] (line :: rows ++ more) = line ++ [nl] ++ join [nl] rows ++ [nl] ++ join [nl] more.
Proof. intros H1 H2. rewrite join_cons by (destruct rows; [contradiction|discriminate]). rewrite join_app by assumption. reflexivity. Qed.
Lemma set_str_text rnd more s : snd s <> [] -> set_str fmt [] s ++ join [nl] more = set_text (set_of rnd more s) \/ more = [].
Proof.
  intro Hs. destruct more as [|x more]; [now right|left]. unfold set_str, set_text, set_of. cbn [s_line s_rows s_more]. rewrite join_rows by first [discriminate|intro G; apply map_eq_nil in G; contradiction].
  unfold to_str. rewrite <- !app_assoc. reflexivity.
Qed.
Lemma sets_text rnd h ss : ss <> [] -> Forall (fun s => snd s <> []) ss -> flat_map (set_str fmt (head_text h)) ss = head_text h ++ flat_map set_text (sets_of rnd h ss).
Proof.
  intros Hne H. destruct ss as [|s ss]; [contradiction|]. clear Hne. revert s H. induction ss as [|s' ss IH]; intros s H; inversion H as [|? ? Hs Hss]; subst.
  - cbn [flat_map sets_of]. rewrite !app_nil_r. unfold set_str at 1. f_equal. destruct (set_str_text rnd [[]] s Hs) as [E|E]; [|discriminate]. rewrite <- E. cbn [join]. rewrite app_nil_r. reflexivity.
  - cbn [flat_map]. specialize (IH s' Hss). cbn [flat_map] in IH. rewrite IH. change (sets_of rnd h (s :: s' :: ss)) with (set_of rnd [fst h; snd h; fst h; []] s :: sets_of rnd h (s' :: ss)). cbn [flat_map].
    destruct (set_str_text rnd [fst h; snd h; fst h; []] s Hs) as [E|E]; [|discriminate]. rewrite <- E. rewrite !app_assoc. f_equal. unfold set_str, head_text. cbn [join fst snd]. rewrite ?app_nil_r, <- !app_assoc. reflexivity.
Qed.
Definition main_of (rnd : V -> V) (h : str * str) (m : Z * list (Z * array V)) : main_txt V :=
  mk_main (fst m) (str_of_Z (fst m) ++ S_ " ; set number" ++ [nl] ++ head_text h) (sets_of rnd h (snd m)).
Definition first_line (n : nat) : str := str_of_N (N.of_nat n) ++ S_ " ; number of sets, Nset".
Lemma save_text rnd o k names : complete rnd k o -> cols o = Some names ->
  save fmt one o = Ok (o, file_text (first_line (List.length (main o)) ++ [nl]) (map (main_of rnd (heads names)) (main o))).
Proof.
  intros (_ & _ & H) Hc. unfold save, default_cols. rewrite Hc. cbn [bind]. f_equal. f_equal; [destruct o; cbn in *; now rewrite Hc|].
  cbv zeta. match goal with |- context [flat_map (main_str fmt ?x)] => change x with (head_text (heads names)) end.
  unfold file_text, first_line. rewrite <- !app_assoc. do 3 f_equal.
  induction H as [|m ms (H1 & H2 & H3) _ IH]; [reflexivity|]. cbn [flat_map map]. rewrite IH. f_equal. unfold main_str, main_text, main_of. cbn [m_head m_sets]. rewrite (sets_text rnd); [|exact H1|].
  - rewrite <- !app_assoc. reflexivity.
  - eapply Forall_impl; [|exact H3]. intros s G. apply G.
Qed.
Lemma chars_no c s : no_chr c s <-> mem_chr c s = false.
Proof. unfold no_chr. rewrite <- mem_chr_iff. destruct (mem_chr c s); split; intro H; try reflexivity; try discriminate. exfalso. now apply H. Qed.
Lemma token_no c s : is_token s = true -> is_space c = true -> no_chr c s.
Proof. apply token_not_in. Qed.
Lemma digits_no c s : forallb is_digit s = true -> is_digit c = false -> no_chr c s.
Proof. intros H Hc G. rewrite forallb_forall in H. specialize (H c G). congruence. Qed.
Lemma str_of_N_no c n : is_digit c = false -> no_chr c (str_of_N n).
Proof. intro H. apply digits_no; [apply str_of_N_digits|exact H]. Qed.
Lemma str_of_Z_no c z : is_digit c = false -> c <> "-"%char -> no_chr c (str_of_Z z).
Proof. intros H Hc. destruct z as [|p|p]; cbn [str_of_Z]; try (apply str_of_N_no; exact H). intros [G|G]; [apply Hc; now rewrite <- G|]. exact (str_of_N_no c _ H G). Qed.
Lemma rep_no c x n : c <> x -> no_chr c (repeat x n).
Proof. intros H G. apply repeat_spec in G. contradiction. Qed.
Lemma heads_no k names c : kind k names -> c = "#"%char \/ c = "$"%char \/ c = nl -> no_chr c (fst (heads names)) /\ no_chr c (snd (heads names)).
Proof.
  intros Hk Hc. unfold heads. cbn [fst snd]. split; [apply rep_no; decompose [or] Hc; subst; discriminate|].
  assert (G : Forall (no_chr c) names). { destruct Hk as [[_ ->]|[_ ->]]; decompose [or] Hc; subst c; apply Forall_forall; intros x Hx; apply chars_no; revert x Hx; apply Forall_forall; vm_compute; repeat constructor. }
  clear Hk. induction G as [|x names Hx _ IH]; [easy|]. cbn [flat_map]. apply no_chr_app. split; [|exact IH]. unfold center. rewrite !no_chr_app. repeat split; try exact Hx; apply rep_no; decompose [or] Hc; subst; discriminate.
Qed.
Lemma head_text_no k names c : kind k names -> c = "#"%char \/ c = "$"%char -> no_chr c (head_text (heads names)).
Proof.
  intros Hk Hc. destruct (heads_no k names c Hk) as [H1 H2]; [tauto|]. unfold head_text. rewrite !no_chr_app. assert (N : no_chr c [nl]) by (intros [G|[]]; destruct Hc; subst; discriminate). tauto.
Qed.
Lemma set_of_good rnd k s more : (forall x c, In x more -> c = "#"%char \/ c = "$"%char \/ c = nl -> no_chr c x) -> snd s <> [] -> Forall (fun r => List.length r = k /\ Forall (separate rnd) r) (snd s) ->
  good_set num k (set_of rnd more s).
Proof.
  intros Hm Hs Hr. unfold good_set, set_of. cbn [s_line s_nr s_rows s_more s_data]. split; [|split; [|split]].
  - exists (str_of_Z (fst s)), (str_of_N (N.of_nat (List.length (snd s)))), []. split; [|split; [apply int_str_of_Z|]].
    + cbn [app]. rewrite split_ws_app by reflexivity. rewrite split_ws_token by apply str_of_Z_token. rewrite split_ws_token by apply str_of_N_token. reflexivity.
    + rewrite map_length. assert (G := H2io_Proofs.int_str_of_N (N.of_nat (List.length (snd s)))). rewrite nat_N_Z in G. exact G.
  - constructor.
    + assert (P : forall c, is_digit c = false -> c <> "-"%char -> c <> sp -> no_chr c (str_of_Z (fst s) ++ [sp] ++ str_of_N (N.of_nat (List.length (snd s))))).
      { intros c H1 H2 H3. rewrite !no_chr_app. split; [now apply str_of_Z_no|]. split; [intros [G|[]]; congruence|now apply str_of_N_no]. }
      repeat split; apply P; try reflexivity; discriminate.
    + apply Forall_app. split.
      * rewrite Forall_map. eapply Forall_impl; [|exact Hr]. intros r [_ G]. apply (separate_words rnd r G).
      * apply Forall_forall. intros x Hx. repeat split; apply Hm; auto.
  - clear Hs. destruct s as [n l]. cbn [fst snd] in *. induction Hr as [|r rows [_ G] _ IH]; [constructor|]. cbn [map]. constructor; [apply (separate_words rnd r G)|exact IH].
  - rewrite Forall_map. eapply Forall_impl; [|exact Hr]. intros r [G _]. now rewrite map_length.
Qed.
Lemma sets_of_good rnd k names ss : kind k names -> Forall (fun s => snd s <> [] /\ Forall (fun r => List.length r = k /\ Forall (separate rnd) r) (snd s)) ss ->
  Forall (good_set num k) (sets_of rnd (heads names) ss) /\ map pair_of (sets_of rnd (heads names) ss) = map (fun s => (fst s, map (map rnd) (snd s))) ss.
Proof.
  intros Hk H. induction ss as [|s ss IH]; [split; [constructor|reflexivity]|]. inversion H as [|? ? [Hs Hr] Hss]; subst. destruct (IH Hss) as [I1 I2].
  assert (M1 : good_set num k (set_of rnd [[]] s)). { apply set_of_good; auto. intros x c [<-|[]] _ G. destruct G. }
  assert (M2 : good_set num k (set_of rnd [fst (heads names); snd (heads names); fst (heads names); []] s)).
  { apply set_of_good; auto. intros x c Hx Hc. destruct (heads_no k names c Hk Hc) as [G1 G2]. destruct Hx as [<-|[<-|[<-|[<-|[]]]]]; try assumption. intro G. destruct G. }
  destruct ss as [|s' ss]; [split; [constructor; [exact M1|constructor]|reflexivity]|].
  change (sets_of rnd (heads names) (s :: s' :: ss)) with (set_of rnd [fst (heads names); snd (heads names); fst (heads names); []] s :: sets_of rnd (heads names) (s' :: ss)).
  split; [constructor; [exact M2|exact I1]|]. cbn [map] in *. rewrite I2. reflexivity.
Qed.
Lemma main_of_good rnd k names m : kind k names -> NoDup (map fst (snd m)) -> Forall (fun s => snd s <> [] /\ Forall (fun r => List.length r = k /\ Forall (separate rnd) r) (snd s)) (snd m) ->
  good_main num (main_of rnd (heads names) m).
Proof.
  intros Hk Hn H. destruct (sets_of_good rnd k names (snd m) Hk H) as [G1 G2]. unfold good_main, main_of. cbn [m_head m_nr m_sets]. split; [|split].
  - split; [|split].
    + rewrite !no_chr_app. split; [apply str_of_Z_no; [reflexivity|discriminate]|]. split; [apply chars_no; reflexivity|]. split; [apply chars_no; reflexivity|]. apply (head_text_no k); [exact Hk|tauto].
    + rewrite !no_chr_app. split; [apply str_of_Z_no; [reflexivity|discriminate]|]. split; [apply chars_no; reflexivity|]. split; [apply chars_no; reflexivity|]. apply (head_text_no k); [exact Hk|tauto].
    + exists (str_of_Z (fst m)), (str_of_Z (fst m)), sp, (S_ "; set number" ++ [nl] ++ head_text (heads names)). split; [reflexivity|]. split; [reflexivity|]. split; [apply split_ws_token, str_of_Z_token|apply int_str_of_Z].
  - eapply Forall_impl; [|exact G1]. intros s Gs. now exists k.
  - assert (E : map s_nr (sets_of rnd (heads names) (snd m)) = map fst (snd m)); [|refine (eq_ind_r (@NoDup Z) Hn E)].
    transitivity (map fst (map pair_of (sets_of rnd (heads names) (snd m)))); [now rewrite map_map|]. rewrite G2, map_map. reflexivity.
Qed.
Lemma last_exists {A} (l : list A) : l <> [] -> exists l' x, l = l' ++ [x].
Proof. intro H. destruct (exists_last H) as (l' & x & E). eauto. Qed.
Lemma split_line s t : no_chr nl s -> split_chr nl (s ++ [nl] ++ t) = s :: split_chr nl t.
Proof. intro H. cbn [app]. apply split_chr_head. exact H. Qed.
Lemma first_line_no n c : c = "#"%char \/ c = nl -> no_chr c (first_line n).
Proof. intro H. unfold first_line. rewrite no_chr_app. split; [apply str_of_N_no; destruct H; subst; reflexivity|]. apply chars_no. destruct H; subst; reflexivity. Qed.
Lemma saved_looks rnd k names o : complete rnd k o -> kind k names ->
  looks_like (file_text (first_line (List.length (main o)) ++ [nl]) (map (main_of rnd (heads names)) (main o))) = true.
Proof.
  intros (Hne & _ & H) Hk. destruct (main o) as [|m ms] eqn:Em; [contradiction|]. clear Hne. inversion H as [|? ? (H1 & H2 & H3) _]; subst. unfold looks_like, file_text.
  destruct (heads_no k names nl Hk) as [N1 N2]; [tauto|].
  rewrite <- app_assoc, split_line by (apply first_line_no; tauto). cbn [map flat_map].
  assert (M : main_text (main_of rnd (heads names) m) = S_ "#" ++ (str_of_Z (fst m) ++ S_ " ; set number" ++ [nl] ++ head_text (heads names)) ++ flat_map set_text (sets_of rnd (heads names) (snd m))) by reflexivity.
  rewrite M. clear M.
  destruct (snd m) as [|s ss] eqn:Es; [contradiction|].
  assert (E : exists rest, flat_map set_text (sets_of rnd (heads names) (s :: ss)) = S_ "$" ++ s_line (set_of rnd [] s) ++ [nl] ++ rest).
  { assert (G : forall more, more <> [] -> exists rest, set_text (set_of rnd more s) = S_ "$" ++ s_line (set_of rnd [] s) ++ [nl] ++ rest).
    { intros more Hm. unfold set_text, set_of. cbn [s_line s_rows s_more]. rewrite join_cons; [eexists; reflexivity|]. intro F. apply app_eq_nil in F. destruct F; contradiction. }
    destruct ss as [|s' ss]; cbn [sets_of flat_map].
    - destruct (G [[]]) as [rest ->]; [discriminate|]. eexists. rewrite <- !app_assoc. reflexivity.
    - match goal with |- context [set_of rnd ?x s] => destruct (G x) as [rest ->]; [discriminate|] end. eexists. rewrite <- !app_assoc. reflexivity. }
  destruct E as [rest E]. unfold array in *. rewrite E. clear E. unfold head_text. rewrite <- !app_assoc.
  match goal with |- context [split_chr nl ?t] => assert (E : exists r, split_chr nl t = (S_ "#" ++ str_of_Z (fst m) ++ S_ " ; set number") :: fst (heads names) :: snd (heads names) :: fst (heads names) :: (S_ "$" ++ s_line (set_of rnd [] s)) :: r) end.
  { rewrite (app_assoc (str_of_Z (fst m))), (app_assoc (S_ "#")).
    rewrite split_line; [|rewrite !no_chr_app; split; [apply chars_no; reflexivity|split; [apply str_of_Z_no; [reflexivity|discriminate]|apply chars_no; reflexivity]]].
    rewrite split_line by exact N1. rewrite split_line by exact N2. rewrite split_line by exact N1. rewrite (app_assoc (S_ "$")). rewrite split_line; [eexists; reflexivity|].
    unfold set_of. cbn [s_line]. rewrite !no_chr_app. split; [apply chars_no; reflexivity|]. split; [apply str_of_Z_no; [reflexivity|discriminate]|]. split; [apply chars_no; reflexivity|apply str_of_N_no; reflexivity]. }
  destruct E as [r ->].
  match goal with |- context [firstn 13 (?a :: ?b :: ?c :: ?d :: ?e :: ?f :: r)] => change (firstn 13 (a :: b :: c :: d :: e :: f :: r)) with (a :: b :: c :: d :: e :: f :: firstn 7 r) end.
  apply andb_true_iff. split; apply existsb_exists.
  - exists (S_ "#" ++ str_of_Z (fst m) ++ S_ " ; set number"). split; [right; now left|]. apply startswith_iff. eexists. reflexivity.
  - exists (S_ "$" ++ s_line (set_of rnd [] s)). split; [do 5 right; now left|]. apply startswith_iff. eexists. reflexivity.
Qed.
(** Writing an object and reading the file gives the object back, up to the precision of the numbers; writing does not change it *)
Theorem C90_round_trip : forall rnd o k names, kind k names -> cols o = Some names -> complete rnd k o ->
  exists txt, save fmt one o = Ok (o, txt) /\ read num txt = Ok (map_st rnd o).
Proof.
  intros rnd o k names Hk Hc H. eexists. split; [apply (save_text rnd o k names H Hc)|]. unfold read. rewrite (saved_looks rnd k names o H Hk). destruct H as (Hne & Hn & H).
  assert (Hg : Forall (good_main num) (map (main_of rnd (heads names)) (main o))).
  { rewrite Forall_map. eapply Forall_impl; [|exact H]. intros m (H1 & H2 & H3). now apply (main_of_good rnd k). }
  destruct (last_exists (main o) Hne) as (ms & m & Em).
  assert (Hm : In m (main o)) by (rewrite Em; apply in_or_app; right; now left). rewrite Forall_forall in H. destruct (H m Hm) as (Hs1 & Hs2 & Hs3).
  destruct (sets_of_good rnd k names (snd m) Hk Hs3) as [G1 G2].
  assert (Hsn : sets_of rnd (heads names) (snd m) <> []) by (intro E; rewrite E in G2; apply Hs1; symmetry in G2; apply map_eq_nil in G2; exact G2).
  destruct (last_exists _ Hsn) as (ss & s & Es).
  assert (Gs : good_set num k s) by (rewrite Es in G1; rewrite Forall_forall in G1; apply G1, in_or_app; right; now left).
  rewrite (C91_reads _ _ (flat_map m_sets (map (main_of rnd (heads names)) ms) ++ ss) s k names).
  - unfold map_st. rewrite Hc. do 2 f_equal. unfold data_of. rewrite map_map. apply map_ext_in. intros m' Hm'. unfold main_of. cbn [m_nr m_sets]. f_equal.
    destruct (H m' Hm') as (_ & _ & H3). apply (sets_of_good rnd k names (snd m') Hk H3).
  - rewrite no_chr_app. split; [apply first_line_no; tauto|apply chars_no; reflexivity].
  - exact Hg.
  - rewrite map_map. exact Hn.
  - rewrite Em, map_app, flat_map_app. cbn [map flat_map]. rewrite app_nil_r. unfold main_of at 2. cbn [m_sets]. rewrite Es, app_assoc. reflexivity.
  - exact Gs.
  - assert (P : In (pair_of s) (map pair_of (sets_of rnd (heads names) (snd m)))) by (apply in_map; rewrite Es; apply in_or_app; right; now left). rewrite G2 in P. apply in_map_iff in P. destruct P as (x & Ex & Hx).
    unfold pair_of in Ex. injection Ex as _ <-. rewrite Forall_forall in Hs3. destruct (Hs3 x Hx) as [P _]. intro E. apply map_eq_nil in E. contradiction.
  - exact Hk.
Qed.
(** Writing again what was read gives the same file *)
Theorem C90_stable : forall rnd o k names, kind k names -> cols o = Some names -> complete rnd k o -> (forall v, fmt (rnd v) = fmt v) ->
  exists txt o', save fmt one o = Ok (o, txt) /\ read num txt = Ok o' /\ save fmt one o' = Ok (o', txt).
Proof.
  intros rnd o k names Hk Hc H Hf. destruct (C90_round_trip rnd o k names Hk Hc H) as (txt & E1 & E2). exists txt, (map_st rnd o). split; [exact E1|]. split; [exact E2|].
  unfold save, default_cols in *. change (cols (map_st rnd o)) with (cols o). rewrite Hc in *. cbn [bind] in *. cbv zeta in *. apply Ok_inj in E1. apply pair_equal_spec in E1. destruct E1 as [_ <-].
  f_equal. f_equal; [unfold map_st; cbn [main]; now rewrite Hc|]. unfold map_st. cbn [main]. rewrite map_length. do 3 f_equal.
  generalize ((repeat (ch 61) (List.length (fmt one) * List.length names) ++ [nl]) ++ (flat_map (center (List.length (fmt one))) names ++ [nl]) ++ repeat (ch 61) (List.length (fmt one) * List.length names) ++ [nl]). intro hd.
  rewrite flat_map_concat_map, map_map, <- flat_map_concat_map. apply flat_map_ext. intro m. unfold main_str. cbn [fst snd]. do 4 f_equal.
  rewrite flat_map_concat_map, map_map, <- flat_map_concat_map. apply flat_map_ext. intro s. unfold set_str. cbn [fst snd]. rewrite map_length.
  refine (f_equal (fun t => hd ++ S_ "$" ++ str_of_Z (fst s) ++ [sp] ++ str_of_N (N.of_nat (List.length (snd s))) ++ [nl] ++ t ++ [nl]) _). symmetry. unfold to_str. rewrite map_map. f_equal. apply map_ext. intro r. rewrite map_map. f_equal. apply map_ext. intro v. symmetry. apply Hf.
Qed.
(** An object that was not read from a file takes its columns from set 1 of main set 1, and cannot be written without it *)
Theorem C90_new_object : forall o d a k names, cols o = None -> zget (main o) 1 = Some d -> zget d 1 = Some a -> width a = Ok k -> kind k names ->
  save fmt one o = save fmt one (mk_st (main o) (Some names)).
Proof.
  intros o d a k names Hc Hd Ha Hw Hk. unfold save, default_cols. rewrite Hc. cbn [cols main]. unfold zfind. rewrite Hd. cbn [bind]. rewrite Ha. cbn [bind]. rewrite Hw. cbn [bind].
  destruct Hk as [[-> ->]|[-> ->]]; reflexivity.
Qed.
Theorem C90_new_object_refuted : forall o, cols o = None -> ~ In 1%Z (map fst (main o)) -> save fmt one o = Err KeyError.
Proof. intros o Hc H. unfold save, default_cols. rewrite Hc. unfold zfind. replace (zget (main o) 1) with (@None (list (Z * array V))); [reflexivity|]. symmetry. apply zget_None. exact H. Qed.
(** A file in which no line among the first thirteen begins with a number sign, or none with a dollar sign, is refused; any other goes to the reading of the sets *)
Theorem C91_recognised : forall ls, ls <> [] -> Forall (no_chr nl) ls ->
  (forall l, In l (firstn 13 ls) -> nth_error l 0 <> Some "#"%char) \/ (forall l, In l (firstn 13 ls) -> nth_error l 0 <> Some "$"%char) ->
  read num (join [nl] ls) = Err WrongFormatError.
Proof.
  intros ls Hne Hls H. unfold read. replace (looks_like (join [nl] ls)) with false; [reflexivity|]. symmetry. unfold looks_like. rewrite split_chr_join; [|exact Hne|].
  2:{ apply forallb_forall. intros x Hx. apply no_chr_split. rewrite Forall_forall in Hls. now apply Hls. }
  assert (P : forall c, (forall l, In l (firstn 13 ls) -> nth_error l 0 <> Some c) -> existsb (fun l => startswith l [c]) (firstn 13 ls) = false).
  { intros c Hc. destruct (existsb _ _) eqn:E; [|reflexivity]. exfalso. apply existsb_exists in E. destruct E as (l & Hl & E). apply startswith_iff in E. destruct E as [t ->]. exact (Hc _ Hl eq_refl). }
  destruct H as [H|H]; [change (S_ "#") with ["#"%char]; rewrite (P _ H); reflexivity|]. change (S_ "$") with ["$"%char]. rewrite (P _ H). apply andb_false_r.
Qed.
Theorem C91_accepted : forall ls a b, Forall (no_chr nl) ls -> In ("#"%char :: a) (firstn 13 ls) -> In ("$"%char :: b) (firstn 13 ls) ->
  read num (join [nl] ls) = read_st num (join [nl] ls).
Proof.
  intros ls a b Hls Ha Hb. unfold read. replace (looks_like (join [nl] ls)) with true; [reflexivity|]. symmetry. unfold looks_like.
  assert (Hne : ls <> []) by (intros ->; destruct Ha). rewrite split_chr_join; [|exact Hne|].
  2:{ apply forallb_forall. intros x Hx. apply no_chr_split. rewrite Forall_forall in Hls. now apply Hls. }
  apply andb_true_iff. split; apply existsb_exists; [exists ("#"%char :: a)|exists ("$"%char :: b)]; (split; [assumption|]); apply startswith_iff; eexists; reflexivity.
Qed.
End Text.

(** ** Witnesses and examples *)
Definition znum (s : str) : option Z := match int_ s with Ok z => Some z | Err _ => None end.
Definition zfmt (z : Z) : str := let s := str_of_Z z in repeat sp (15 - List.length s) ++ s.
Definition row19 (z : Z) : list Z := z :: map Z.of_nat (seq 1 18).
Definition row30 (z : Z) : list Z := z :: map Z.of_nat (seq 1 29).
Definition ex_st : st Z := mk_st [(1%Z, [(1%Z, [row19 0; row19 10]); (2%Z, [row19 0])]); (4%Z, [(3%Z, [row19 (-5)])])] (Some names19).
Lemma zseparate z : Nat.ltb (List.length (str_of_Z z)) 15 = true -> separate znum zfmt (fun z => z) z.
Proof.
  intro H. apply Nat.ltb_lt in H. exists (15 - List.length (str_of_Z z) - 1), (str_of_Z z). split; [unfold zfmt; f_equal; f_equal; lia|]. split; [apply str_of_Z_token|].
  split; [apply str_of_Z_no; [reflexivity|discriminate]|]. split; [apply str_of_Z_no; [reflexivity|discriminate]|]. split; [apply str_of_Z_no; [reflexivity|discriminate]|]. unfold znum. now rewrite int_str_of_Z.
Qed.
Lemma zrow r : forallb (fun z => Nat.ltb (List.length (str_of_Z z)) 15) r = true -> Forall (separate znum zfmt (fun z => z)) r.
Proof. intro H. apply Forall_forall. intros z Hz. apply zseparate. rewrite forallb_forall in H. now apply H. Qed.
Ltac zset_ok := split; [discriminate|]; repeat (apply Forall_cons; [split; [reflexivity|apply zrow; reflexivity]|]); apply Forall_nil.
Ltac nodup := repeat (apply NoDup_cons; [let H := fresh in cbn; intro H; repeat (destruct H as [H|H]; [discriminate|]); exact H|]); apply NoDup_nil.
Example complete_example : complete znum zfmt (fun z => z) 19 ex_st.
Proof.
  split; [discriminate|]. split; [nodup|].
  repeat (apply Forall_cons; [split; [discriminate|]; split; [nodup|]; repeat (apply Forall_cons; [zset_ok|]); apply Forall_nil|]). apply Forall_nil.
Qed.
Example round_example : exists txt, save zfmt 1%Z ex_st = Ok (ex_st, txt) /\ read znum txt = Ok ex_st.
Proof. destruct (C90_round_trip znum zfmt 1%Z (fun z => z) ex_st 19 names19) as (txt & E1 & E2); [left; split; reflexivity|reflexivity|exact complete_example|]. exists txt. split; [exact E1|]. rewrite E2. reflexivity. Qed.
(** Numbers that fill their fifteen characters, like -1.0000000e-100, are written without a blank between them: the file cannot be read.
    Here the number 0 stands for 1.0, any other for -1e-100 *)
Definition gfmt (z : Z) : str := if Z.eqb z 0 then S_ "  1.0000000e+00" else S_ "-1.0000000e-100".
Definition gnum (s : str) : option Z := if str_eqb s (S_ "1.0000000e+00") then Some 0%Z else if str_eqb s (S_ "-1.0000000e-100") then Some 1%Z else None.
Theorem C90_glued_refuted : (forall z, z = 0%Z \/ z = 1%Z -> gnum (strip (gfmt z)) = Some z) /\
  exists txt, save gfmt 0%Z (mk_st [(1%Z, [(1%Z, [1%Z :: 1%Z :: repeat 0%Z 17])])] (Some names19)) = Ok (mk_st [(1%Z, [(1%Z, [1%Z :: 1%Z :: repeat 0%Z 17])])] (Some names19), txt) /\ read gnum txt = Err ValueError.
Proof. split; [intros z [->| ->]; reflexivity|]. eexists. split; [reflexivity|]. vm_compute. reflexivity. Qed.
(** Only the last set decides on the number of columns *)
Definition txt_of (ls : list string) : str := join [nl] (map S_ ls).
Definition numbers (n : nat) : str := flat_map (fun i => sp :: str_of_N (N.of_nat i)) (seq 1 n).
Theorem C91_column_check_refuted : exists o, read znum (txt_of ["#1 ; a"; "$1 1"; " 7 8"; "$2 1"]%string ++ [nl] ++ numbers 19 ++ [nl]) = Ok o /\ cols o = Some names19 /\ main o = [(1%Z, [(1%Z, [[7; 8]%Z]); (2%Z, [map Z.of_nat (seq 1 19)])])].
Proof. eexists. split; [vm_compute; reflexivity|]. split; reflexivity. Qed.
(** A comment with a number sign or a dollar sign starts a set that does not exist *)
Theorem C91_comment_refuted : read znum (txt_of ["#1 ; a"; "$1 1"]%string ++ [nl] ++ numbers 19 ++ S_ " ; blade # two" ++ [nl]) = Err ValueError /\
  read znum (txt_of ["#1 ; a"; "$1 1"]%string ++ [nl] ++ numbers 19 ++ S_ " ; costs $ two" ++ [nl]) = Err ValueError.
Proof. split; vm_compute; reflexivity. Qed.
Example comment_example : exists o, read znum (txt_of ["2 ; number of sets"; "#1 ; a"; "=====";"$1 1"]%string ++ [nl] ++ numbers 19 ++ S_ " ; blade two" ++ [nl] ++ txt_of ["#3 text"; "$4 1 more"]%string ++ [nl] ++ numbers 30 ++ [nl]) = Ok o /\ cols o = Some names30 /\
  main o = [(1%Z, [(1%Z, [map Z.of_nat (seq 1 19)])]); (3%Z, [(4%Z, [map Z.of_nat (seq 1 30)])])].
Proof. eexists. split; [vm_compute; reflexivity|]. split; reflexivity. Qed.
Example recognised_example : read znum (txt_of ["no st file"; "at all"]%string) = Err WrongFormatError.
Proof. apply C91_recognised; [discriminate|repeat constructor; intro H; vm_compute in H; repeat (destruct H as [H|H]; [discriminate|]); exact H|]. left. intros l Hl. vm_compute in Hl. destruct Hl as [<-|[<-|[]]]; discriminate. Qed.

Print Assumptions C90_round_trip.
Print Assumptions C90_stable.
Print Assumptions C90_new_object.
Print Assumptions C90_new_object_refuted.
Print Assumptions C90_glued_refuted.
Print Assumptions C91_reads.
Print Assumptions C91_duplicate_main_refuted.
Print Assumptions C91_columns.
Print Assumptions C91_duplicate_set.
Print Assumptions C91_missing_rows.
Print Assumptions C91_rows.
Print Assumptions C91_recognised.
Print Assumptions C91_accepted.
Print Assumptions C91_column_check_refuted.
Print Assumptions C91_comment_refuted.
