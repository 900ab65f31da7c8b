(** Whole-file round trip for VTK meshes, binary and text. *)
From Verif Require Import Py PyFacts TextFacts ListFacts Bytes Dict VTK_Model VTK_Spec VTK_Cells VTK_Translate.
From Coq Require Import ZifyBool ZifyNat ZifyN QArith.
Local Open Scope nat_scope.

(** ** Lines *)
Definition asciis (s : str) : bool := forallb (fun c => ord c <? 128) s.
Lemma readline_app l r : mem_chr nl l = false -> readline (l ++ nl :: r) = (l ++ [nl], r).
Proof.
  induction l as [|c l IH]; intro H; cbn [app readline]; [rewrite chr_eqb_refl; reflexivity|].
  cbn [mem_chr existsb] in H. apply orb_false_iff in H as [H1 H2]. destruct (chr_eqb c nl) eqn:E.
  - apply chr_eqb_eq in E. subst c. rewrite chr_eqb_refl in H1. discriminate.
  - rewrite (IH H2). reflexivity.
Qed.
Lemma token_no_nl w : is_token w = true -> mem_chr nl w = false.
Proof. intro H. apply not_true_is_false. intro C. apply mem_chr_iff in C. exact (token_not_in nl w H eq_refl C). Qed.
Lemma mem_app c a b : mem_chr c (a ++ b) = mem_chr c a || mem_chr c b.
Proof. unfold mem_chr. apply existsb_app. Qed.
Lemma join_no_nl ws : forallb is_token ws = true -> mem_chr nl (join [sp] ws) = false.
Proof.
  induction ws as [|w ws IH]; intro H; [reflexivity|]. cbn [forallb] in H. apply andb_true_iff in H as [H1 H2].
  destruct ws as [|w' ws]; [apply token_no_nl; exact H1|]. rewrite join_cons by discriminate. rewrite !mem_app, (token_no_nl w H1), (IH H2). reflexivity.
Qed.
Lemma asciis_app a b : asciis (a ++ b) = asciis a && asciis b.
Proof. apply forallb_app. Qed.
Lemma asciis_join ws : forallb asciis ws = true -> asciis (join [sp] ws) = true.
Proof.
  induction ws as [|w ws IH]; intro H; [reflexivity|]. cbn [forallb] in H. apply andb_true_iff in H as [H1 H2].
  destruct ws as [|w' ws]; [exact H1|]. rewrite join_cons by discriminate. rewrite !asciis_app, H1, (IH H2). reflexivity.
Qed.
Definition plain_word (w : str) : bool := is_token w && asciis w.
Lemma plain_words ws : forallb plain_word ws = true -> forallb is_token ws = true /\ forallb asciis ws = true.
Proof. induction ws as [|w ws IH]; intro H; [split; reflexivity|]. cbn [forallb] in *. apply andb_true_iff in H as [H1 H2]. apply andb_true_iff in H1 as [A B]. destruct (IH H2) as [C D]. rewrite A, B, C, D. split; reflexivity. Qed.
Lemma readline_line ws r : forallb plain_word ws = true -> readline (line ws ++ r) = (line ws, r).
Proof. intro H. unfold line. rewrite <- app_assoc. apply readline_app, join_no_nl, plain_words, H. Qed.
Lemma decode_line ws : forallb plain_word ws = true -> decode (line ws) = Ok (line ws).
Proof. intro H. unfold decode. change (forallb _ (line ws)) with (asciis (line ws)). unfold line. rewrite asciis_app, asciis_join by apply plain_words, H. reflexivity. Qed.
Lemma split_line ws : forallb plain_word ws = true -> split_ws (line ws) = ws.
Proof. intro H. unfold line. rewrite split_ws_rpad by reflexivity. apply split_ws_words, plain_words, H. Qed.
Lemma line_cons ws : ws <> [] -> forallb plain_word ws = true -> exists c t, line ws = c :: t /\ is_space c = false.
Proof.
  intros Hn H. destruct ws as [|w ws]; [contradiction|]. cbn [forallb] in H. apply andb_true_iff in H as [H _]. apply andb_true_iff in H as [H _].
  destruct (token_cons w H) as [c [t [E Hc]]]. unfold line. rewrite join_flat, E. exists c. eexists. split; [reflexivity | exact Hc].
Qed.
Lemma lstrip_line ws r : ws <> [] -> forallb plain_word ws = true -> lstrip (line ws ++ r) = line ws ++ r.
Proof. intros Hn H. destruct (line_cons ws Hn H) as [c [t [E Hc]]]. rewrite E. apply lstrip_head. exact Hc. Qed.

Lemma digits_ascii s : forallb is_digit s = true -> asciis s = true.
Proof. unfold asciis. induction s as [|c s IH]; intro H; [reflexivity|]. cbn [forallb] in *. apply andb_true_iff in H as [H1 H2]. rewrite (IH H2), andb_true_r. revert H1. unfold is_digit. lia. Qed.
Lemma nat_str_plain n : plain_word (nat_str n) = true.
Proof. unfold plain_word, nat_str. rewrite str_of_N_token. apply digits_ascii, str_of_N_digits. Qed.
Lemma nat_str_Z n : nat_str n = str_of_Z (Z.of_nat n).
Proof. unfold nat_str, str_of_Z. destruct (Z.of_nat n) eqn:E; [| |lia]; f_equal; lia. Qed.
Lemma int_nat_str n : int_ (nat_str n) = Ok (Z.of_nat n).
Proof. rewrite nat_str_Z. apply int_str_of_Z. Qed.

(** ** Binary and text data *)
Lemma take_items_concat sz l r : 0 < sz -> Forall (fun x => List.length x = sz) l -> take_items sz (List.length l) (concat l ++ r) = (l, r).
Proof.
  intros Hs H. induction H as [|x l Hx Hl IH]; [reflexivity|]. cbn [List.length take_items concat]. rewrite <- app_assoc.
  replace (List.length (x ++ concat l ++ r) <? sz) with false by (rewrite app_length; lia).
  rewrite skipn_app, <- Hx, Nat.sub_diag, skipn_all. cbn [app skipn]. rewrite Hx, IH. rewrite firstn_app, <- Hx, Nat.sub_diag, firstn_all. cbn [firstn]. rewrite app_nil_r. reflexivity.
Qed.
Lemma word_token w c t : is_token w = true -> is_space c = true -> word_ (w ++ c :: t) = (w, c :: t).
Proof.
  intros H Hc. apply tokenE in H as [_ H]. induction w as [|x w IH]; cbn [app word_]; [rewrite Hc; reflexivity|].
  cbn [forallb] in H. apply andb_true_iff in H as [H1 H2]. apply negb_true_iff in H1. rewrite H1, (IH H2). reflexivity.
Qed.
Section Scan.
  Context {A : Type} (parse : str -> option A).
  Lemma scan_lstrip n s : scan_items parse (S n) (lstrip s) = scan_items parse (S n) s.
  Proof. cbn [scan_items]. rewrite lstrip_idem. reflexivity. Qed.
  Lemma scan_word n w c t a : is_token w = true -> is_space c = true -> parse w = Some a ->
    scan_items parse (S n) (w ++ c :: t) = let '(l, r) := scan_items parse n (lstrip t) in (a :: l, r).
  Proof.
    intros H Hc Hp. cbn [scan_items]. destruct (token_cons w H) as [x [w' [E Hx]]].
    rewrite (lstrip_noedge (w ++ c :: t)) by (rewrite E; cbn; rewrite Hx; reflexivity). rewrite (word_token w c t H Hc), Hp.
    replace (lstrip (c :: t)) with (lstrip t); [reflexivity|]. cbn [lstrip]. rewrite Hc. reflexivity.
  Qed.
  (** words ended by a blank, then the rest *)
  Lemma scan_words (sep : ascii) ws vs c n t : is_space sep = true -> is_space c = true -> ws <> [] ->
    Forall2 (fun w v => is_token w = true /\ parse w = Some v) ws vs ->
    scan_items parse (List.length ws + n) (join [sep] ws ++ c :: t) = let '(l, r) := scan_items parse n (lstrip t) in (vs ++ l, r).
  Proof.
    intros Hs Hc Hne F. induction F as [|w v ws vs [F1 F2] F IH]; [contradiction|]. cbn [List.length Nat.add].
    destruct ws as [|w' ws].
    - inversion F; subst. cbn [join List.length Nat.add]. rewrite (scan_word _ w c t v F1 Hc F2). destruct (scan_items parse n (lstrip t)). reflexivity.
    - rewrite join_cons by discriminate. rewrite <- !app_assoc. change ([sep] ++ join [sep] (w' :: ws) ++ c :: t) with (sep :: (join [sep] (w' :: ws) ++ c :: t)). rewrite (scan_word _ w sep _ v F1 Hs F2).
      cbn [List.length Nat.add]. rewrite scan_lstrip. cbn [List.length Nat.add] in IH. rewrite (IH ltac:(discriminate)).
      destruct (scan_items parse n (lstrip t)). reflexivity.
  Qed.
End Scan.

Section Items.
  Variable show : dtype -> str -> str.
  Variable scan : dtype -> str -> option str.
  Variable binary : bool.
  Notation storable := (storable show scan binary).
  Notation fromfile := (fromfile scan (negb binary)).
  Notation tofile := (tofile show binary).

  Lemma size_pos d : 0 < size d.
  Proof. destruct d; cbn; lia. Qed.
  Lemma fromfile_tofile d l r : Forall (storable d) l -> (binary = false -> l <> []) -> lstrip r = r ->
    exists r', fromfile d (List.length l) (tofile d l ++ nl :: r) = (l, r') /\ eat_newline (negb binary) r' = Ok r.
  Proof.
    intros H Hne Hr. unfold VTK_Model.fromfile, VTK_Model.tofile, VTK_Spec.storable in *. destruct binary; cbn [negb].
    - exists (nl :: r). split; [apply take_items_concat; [apply size_pos | exact H]|]. unfold eat_newline. cbn [readline]. rewrite chr_eqb_refl. reflexivity.
    - exists r. split; [|reflexivity]. pose proof (Hne eq_refl) as Hl.
      pose proof (scan_words (scan d) sp (map (show d) l) l nl 0 r eq_refl eq_refl) as W. rewrite map_length, Nat.add_0_r in W. rewrite W.
      + cbn [scan_items]. rewrite app_nil_r, Hr. reflexivity.
      + intro C. apply map_eq_nil in C. contradiction.
      + clear -H. induction H as [|x l Hx Hl IH]; cbn [map]; constructor; assumption.
  Qed.

End Items.

(** Integers *)
Section Ints.
  Variable binary : bool.
  Lemma i4_length z : List.length (i4 z) = 4.
  Proof. unfold i4. rewrite rev_length, map_length. apply le_length. Qed.
  Lemma i4_of_i4 z : in_sint 4 z = true -> i4_of (i4 z) = z.
  Proof.
    intro H. unfold i4_of, i4. rewrite rev_involutive, map_map. rewrite <- (sint_le 4 z ltac:(lia) H) at 2. f_equal.
    rewrite <- (map_id (le 4 z)) at 2. apply map_ext_in. intros b Hb. unfold chr_of_N. apply N_ascii_embedding.
    pose proof (le_is_bytes 4 z) as L. unfold is_bytes in L. rewrite forallb_forall in L. specialize (L b Hb). lia.
  Qed.
  Lemma wrap4_id z : in_sint 4 z = true -> wrap4 z = z.
  Proof. intro H. unfold wrap4. apply sint_le; [lia | exact H]. Qed.
  Lemma int_word_Z z : int_word (str_of_Z z) = Some z.
  Proof. unfold int_word. rewrite int_str_of_Z. reflexivity. Qed.
  Lemma ints_scan ls n r : scan_items int_word (List.length (concat ls) + n) (lstrip (concat (map ints_text ls) ++ r)) =
    let '(l, r') := scan_items int_word n (lstrip r) in (concat ls ++ l, r').
  Proof.
    induction ls as [|l ls IH]; cbn [concat map app List.length Nat.add]; [destruct (scan_items int_word n (lstrip r)); reflexivity|].
    unfold ints_text at 1. rewrite <- !app_assoc. change ([nl] ++ ?x) with (nl :: x). destruct l as [|z l].
    - cbn [map join app List.length Nat.add]. replace (lstrip (nl :: (concat (map ints_text ls) ++ r))) with (lstrip (concat (map ints_text ls) ++ r)) by reflexivity. exact IH.
    - rewrite app_length, <- Nat.add_assoc.
      replace (List.length (z :: l)) with (List.length (map str_of_Z (z :: l))) by apply map_length.
      rewrite (lstrip_noedge (join _ _ ++ _)).
      2:{ cbn [map]. rewrite join_flat. pose proof (str_of_Z_token z) as T. destruct (token_cons _ T) as [c [t [E Hc]]]. rewrite E. cbn. rewrite Hc. reflexivity. }
      rewrite (scan_words int_word nl (map str_of_Z (z :: l)) (z :: l) nl _ _ eq_refl eq_refl).
      + rewrite IH. destruct (scan_items int_word n (lstrip r)). rewrite app_assoc. reflexivity.
      + discriminate.
      + generalize (z :: l). clear. intro l. induction l as [|z l IH]; cbn [map]; constructor; [split; [apply str_of_Z_token | apply int_word_Z] | exact IH].
  Qed.
  Lemma ints_scan_all ls r : concat ls <> [] -> lstrip r = r ->
    scan_items int_word (List.length (concat ls)) (concat (map ints_text ls) ++ r) = (concat ls, r).
  Proof.
    intros Hne Hr. pose proof (ints_scan ls 0 r) as H. rewrite Nat.add_0_r in H. cbn [scan_items] in H. rewrite app_nil_r, Hr in H.
    destruct (List.length (concat ls)) eqn:E; [apply length_zero_iff_nil in E; contradiction|]. rewrite scan_lstrip in H. exact H.
  Qed.
  Lemma binary_ints ls : concat (map (fun l => concat (map i4 l)) ls) = concat (map i4 (concat ls)).
  Proof. induction ls as [|l ls IH]; [reflexivity|]. cbn [map concat]. rewrite IH, map_app, concat_app. reflexivity. Qed.
  Lemma read_cells_ok ls r : concat ls <> [] -> Forall (fun z => in_sint 4 z = true) (concat ls) -> lstrip r = r ->
    read_cells (negb binary) (List.length (concat ls)) (write_ints binary ls ++ r) = Ok (concat ls, r).
  Proof.
    intros Hne H Hr. unfold read_cells, write_ints. destruct binary; cbn [negb].
    - rewrite <- app_assoc, binary_ints.
      rewrite <- (map_length i4 (concat ls)). rewrite take_items_concat; [|lia|apply Forall_map, Forall_forall; intros; apply i4_length].
      cbn [app]. unfold eat_newline. cbn [readline]. rewrite chr_eqb_refl. cbn [bind decode]. change (decode [nl]) with (@Ok str [nl]). cbn [bind]. rewrite str_eqb_refl. cbn [bind]. f_equal. f_equal.
      rewrite map_map. rewrite <- (map_id (concat ls)) at 2. apply map_ext_in. intros z Hz. apply i4_of_i4. rewrite Forall_forall in H. apply H. exact Hz.
    - rewrite (ints_scan_all ls r Hne Hr). cbn [eat_newline bind]. f_equal. f_equal. rewrite <- (map_id (concat ls)) at 2. apply map_ext_in. intros z Hz. apply wrap4_id. rewrite Forall_forall in H. apply H. exact Hz.
  Qed.
  Lemma read_types_ok ls r : concat ls <> [] -> Forall (fun z => in_sint 4 z = true) (concat ls) -> lstrip r = r ->
    read_cell_types (negb binary) (List.length (concat ls)) (write_ints binary ls ++ r) = Ok (concat ls, r).
  Proof.
    intros Hne H Hr. unfold read_cell_types, write_ints. destruct binary; cbn [negb].
    - rewrite <- app_assoc, binary_ints.
      rewrite <- (map_length i4 (concat ls)). rewrite take_items_concat; [|lia|apply Forall_map, Forall_forall; intros; apply i4_length].
      cbn [app readline]. rewrite chr_eqb_refl. change (decode [nl]) with (@Ok str [nl]). cbn [bind]. change (strip [nl]) with (@nil ascii). cbn match. f_equal. f_equal.
      rewrite map_map. rewrite <- (map_id (concat ls)) at 2. apply map_ext_in. intros z Hz. apply i4_of_i4. rewrite Forall_forall in H. apply H. exact Hz.
    - rewrite (ints_scan_all ls r Hne Hr). reflexivity.
  Qed.

  (** The cell data never look like a version 5.1 header. *)
  Lemma readline_stop s r : exists t, s ++ [nl] = fst (readline (s ++ nl :: r)) ++ t.
  Proof. induction s as [|c s IH]; cbn [app readline]; [rewrite chr_eqb_refl; exists []; reflexivity|]. destruct (chr_eqb c nl); [exists (s ++ [nl]); reflexivity|]. destruct IH as [t IH]. destruct (readline (s ++ nl :: r)) as [l r']. cbn [fst] in *. exists t. cbn [app]. f_equal. exact IH. Qed.
  Lemma i4_high z : node_ok z -> exists c t, i4 z = c :: t /\ ord c < 64.
  Proof.
    intros [H1 H2]. unfold i4. cbn [le map rev app]. do 2 eexists. split; [reflexivity|]. unfold chr_of_N, ord. 
    rewrite <- N_nat_ascii || idtac. unfold nat_of_ascii. 
    assert (E : (z / 256 / 256 / 256 < 64)%Z).
    { rewrite !Z.div_div by lia. apply Z.div_lt_upper_bound; [lia|]. change (2 ^ 30)%Z with 1073741824%Z in H2. lia. }
    assert (E0 : (0 <= z / 256 / 256 / 256)%Z) by (repeat apply Z.div_pos; lia).
    rewrite Z.mod_small by lia. rewrite N_ascii_embedding by lia. lia.
  Qed.
  Lemma high_bytes zs : Forall node_ok zs -> forall k c, nth_error (concat (map i4 zs) ++ [nl]) (4 * k) = Some c -> ord c < 64.
  Proof.
    induction 1 as [|z zs Hz Hzs IH]; intros k c E.
    - destruct k as [|k]; [cbn in E; injection E as <-; cbn; lia|]. cbn [map concat app] in E. rewrite (proj2 (nth_error_None [nl] (4 * S k))) in E by (cbn; lia). discriminate.
    - cbn [map concat] in E. rewrite <- app_assoc in E. destruct k as [|k].
      + destruct (i4_high z Hz) as [x [t [Ex Hx]]]. rewrite Ex in E. cbn in E. injection E as <-. exact Hx.
      + rewrite nth_error_app2 in E by (rewrite i4_length; lia). rewrite i4_length in E. replace (4 * S k - 4) with (4 * k) in E by lia. exact (IH k c E).
  Qed.
  Lemma no_offsets ls r : ls <> [] -> Forall node_ok (concat ls) -> has_offsets (fst (readline (write_ints binary ls ++ r))) = false.
  Proof.
    intros Hls H. apply not_true_is_false. intro C. unfold has_offsets in C. apply contains_iff in C. destruct C as [a [b C]].
    unfold write_ints in C. destruct binary.
    - rewrite <- app_assoc, binary_ints in C. cbn [app] in C.
      destruct (readline_stop (concat (map i4 (concat ls))) r) as [t Et]. rewrite C in Et.
      set (k := (List.length a + 3) / 4). assert (Hk : List.length a <= 4 * k < List.length a + 4).
      { unfold k. pose proof (Nat.div_mod (List.length a + 3) 4 ltac:(lia)). pose proof (Nat.mod_upper_bound (List.length a + 3) 4 ltac:(lia)). lia. }
      clearbody k.
      assert (N : nth_error (concat (map i4 (concat ls)) ++ [nl]) (4 * k) = nth_error (S_ "OFFSETS") (4 * k - List.length a)).
      { rewrite Et, <- !app_assoc, nth_error_app2 by lia. apply nth_error_app1. change (List.length (S_ "OFFSETS")) with 7. lia. }
      assert (D : 4 * k - List.length a = 0 \/ 4 * k - List.length a = 1 \/ 4 * k - List.length a = 2 \/ 4 * k - List.length a = 3) by lia.
      destruct D as [D|[D|[D|D]]]; rewrite D in N; cbn in N; pose proof (high_bytes (concat ls) H k _ N) as B; apply Nat.ltb_lt in B; vm_compute in B; discriminate B.
    - assert (P : forall c, In c (concat (map ints_text ls)) -> is_digit c || chr_eqb c nl = true).
      { intros c Hc. apply in_concat in Hc. destruct Hc as [x [Hx Hc]]. apply in_map_iff in Hx. destruct Hx as [l [<- Hl]].
        unfold ints_text in Hc. apply in_app_or in Hc. destruct Hc as [Hc|[<-|[]]]; [|reflexivity].
        assert (J : forall ws, (forall w, In w ws -> forallb is_digit w = true) -> In c (join [nl] ws) -> is_digit c || chr_eqb c nl = true).
        { clear. induction ws as [|w ws IH]; intros Hw Hc; [contradiction|]. destruct ws as [|w' ws].
          - pose proof (Hw w (or_introl eq_refl)) as D. rewrite forallb_forall in D. rewrite (D c Hc). reflexivity.
          - rewrite join_cons in Hc by discriminate. apply in_app_or in Hc. destruct Hc as [Hc|[<-|Hc]].
            + pose proof (Hw w (or_introl eq_refl)) as D. rewrite forallb_forall in D. rewrite (D c Hc). reflexivity.
            + rewrite chr_eqb_refl. apply orb_true_r.
            + apply IH; [intros x Hx; apply Hw; right; exact Hx | exact Hc]. }
        apply (J (map str_of_Z l)); [|exact Hc]. intros w Hw. apply in_map_iff in Hw. destruct Hw as [z [<- Hz]].
        rewrite Forall_forall in H. specialize (H z (proj2 (in_concat ls z) (ex_intro _ l (conj Hl Hz)))). destruct H as [H _].
        unfold str_of_Z. destruct z; [apply str_of_N_digits | apply str_of_N_digits | lia]. }
      destruct (exists_last Hls) as [ls' [l El]]. assert (X : concat (map ints_text ls) = (concat (map ints_text ls') ++ join [nl] (map str_of_Z l)) ++ [nl]).
      { rewrite El, map_app, concat_app. cbn [map concat]. unfold ints_text at 2. rewrite app_nil_r, app_assoc. reflexivity. }
      rewrite X, <- app_assoc in C. cbn [app] in C. match type of C with fst (readline (?s ++ _)) = _ => destruct (readline_stop s r) as [t Et] end.
      rewrite <- X, C in Et. assert (I : In "O"%char (concat (map ints_text ls))).
      { rewrite Et. apply in_or_app. left. apply in_or_app. right. apply in_or_app. left. left. reflexivity. }
      apply P in I. discriminate I.
  Qed.

End Ints.

(** ** Fields *)
Section File.
  Variable show : dtype -> str -> str.
  Variable scan : dtype -> str -> option str.
  Variable binary : bool.
  Notation fromfile := (fromfile scan (negb binary)).
  Notation tofile := (tofile show binary).
  Lemma type_name_ok d : d <> OtherType -> exists t, type_name d = Ok t /\ plain_word t = true /\ dtype_of (lower t) = Ok d.
  Proof. intro H. destruct d; try contradiction; (eexists; split; [reflexivity|]; split; vm_compute; reflexivity). Qed.
  Definition dims (a : array) : nat * nat := match a_shape a with [] => (0, 0) | [n] => (n, 1) | n :: k :: _ => (n, k) end.
  Lemma good_dims a : good_array show scan binary a -> snd (dims a) * fst (dims a) = List.length (a_items a) /\
    (if Z.eqb (Z.of_nat (snd (dims a))) 1 then Ok (mk_array (a_dt a) [List.length (a_items a)] (a_items a))
     else if Nat.eqb (List.length (a_items a)) (fst (dims a) * snd (dims a)) then Ok (mk_array (a_dt a) [fst (dims a); snd (dims a)] (a_items a)) else Err ValueError)
    = Ok (squeeze a).
  Proof.
    intros [_ [_ [_ H]]]. unfold dims, squeeze. destruct a as [d sh it]. cbn [a_dt a_shape a_items] in *.
    destruct sh as [|n [|k [|]]]; try contradiction; cbn [fst snd].
    - split; [lia|]. cbn. rewrite H. reflexivity.
    - split; [lia|]. replace (List.length it =? n * k) with true by (symmetry; apply Nat.eqb_eq; exact H).
      destruct k as [|[|k]].
      + reflexivity.
      + cbn. rewrite H, Nat.mul_1_r. reflexivity.
      + replace (Z.eqb (Z.of_nat (S (S k))) 1) with false by lia. reflexivity.
  Qed.
  Definition good_field (e : str * array) : Prop := good_name (fst e) /\ good_array show scan binary (snd e).
  Lemma good_name_plain s : good_name s -> plain_word s = true /\ mem_chr sp s = false /\ str_eqb s (S_ "METADATA") = false.
  Proof.
    intros [H1 [H2 H3]]. split; [unfold plain_word; rewrite H1; exact H2|]. split.
    - apply not_true_is_false. intro C. apply mem_chr_iff in C. exact (token_not_in sp s H1 eq_refl C).
    - apply str_eqb_neq. exact H3.
  Qed.
  Lemma write_field_ok e : good_field e -> exists t, type_name (a_dt (snd e)) = Ok t /\ plain_word t = true /\ dtype_of (lower t) = Ok (a_dt (snd e)) /\
    forallb plain_word [fst e; nat_str (snd (dims (snd e))); nat_str (fst (dims (snd e))); t] = true /\
    write_field show binary e = Ok (line [fst e; nat_str (snd (dims (snd e))); nat_str (fst (dims (snd e))); t] ++ tofile (a_dt (snd e)) (a_items (snd e)) ++ [nl]).
  Proof.
    intros [N G]. destruct (good_name_plain _ N) as [N1 [N2 _]]. destruct (type_name_ok _ (proj1 G)) as [t [T1 [T2 T3]]]. exists t.
    repeat (split; [assumption|]). split; [cbn [forallb]; rewrite N1, !nat_str_plain, T2; reflexivity|].
    destruct e as [name a]. cbn [fst snd] in *. unfold write_field. rewrite N2, T1. cbn [bind]. fold (dims a). destruct (dims a). reflexivity.
  Qed.
  Lemma fields_ok fs : Forall good_field fs ->
    exists ts, mapR (write_field show binary) fs = Ok ts /\
      forall r, lstrip r = r -> lstrip (concat ts ++ r) = concat ts ++ r /\
        forall acc, NoDup (map fst acc ++ map fst fs) ->
        read_fields scan (negb binary) (List.length fs) (concat ts ++ r) acc = Ok (acc ++ map (fun e => (fst e, squeeze (snd e))) fs, r).
  Proof.
    induction 1 as [|e fs He Hfs IH].
    - exists []. split; [reflexivity|]. intros r Hr. split; [exact Hr|]. intros acc _. cbn [map List.length concat app read_fields]. rewrite app_nil_r. reflexivity.
    - destruct IH as [ts [I1 I2]]. destruct (write_field_ok e He) as [t [T1 [T2 [T3 [P W]]]]].
      eexists. split; [cbn [mapR]; rewrite W; cbn [bind]; rewrite I1; reflexivity|]. intros r Hr. cbn [concat]. rewrite <- !app_assoc. split.
      + apply lstrip_line; [discriminate | exact P].
      + destruct (I2 r Hr) as [I3 I4]. intros acc ND. cbn [List.length read_fields]. rewrite readline_line, decode_line by exact P. cbn [bind]. rewrite split_line by exact P.
        rewrite (proj2 (proj2 (good_name_plain _ (proj1 He)))). cbn [bind]. rewrite !int_nat_str. cbn [bind]. rewrite T3. cbn [bind]. rewrite !Nat2Z.id.
        destruct (good_dims _ (proj2 He)) as [D1 D2]. rewrite D1. destruct (proj2 He) as [_ [G2 [G3 _]]].
        destruct (fromfile_tofile show scan binary _ _ (concat ts ++ r) G2 G3 I3) as [r' [F1 F2]]. change ([nl] ++ ?x) with (nl :: x). rewrite F1, F2. cbn [bind].
        rewrite D2. cbn [bind]. assert (K : ~ In (fst e) (map fst acc)).
        { cbn [map] in ND. apply NoDup_remove_2 in ND. intro C. apply ND. apply in_or_app. left. exact C. }
        rewrite put_new by exact K. rewrite I4.
        * cbn [map]. rewrite <- app_assoc. reflexivity.
        * rewrite map_app, <- app_assoc. exact ND.
  Qed.
End File.

(** ** Cells of the blocks as stored *)
Definition code_of (b : block) : Z := match code_of_type (type_key (b_type b)) with Ok c => c | Err _ => 0%Z end.
Definition stored_of (b : block) : list stored :=
  map (fun r => (code_of b, pick r (meshio_to_vtk_order (b_type b) (Z.of_nat (b_cols b))))) (b_rows b).
Lemma fixed_types : forall c n k, In (c, n) cell_types -> (0 <= c)%Z -> nth_error numnodes_table (Z.to_nat c) = Some (Z.of_nat k) ->
  str_eqb (firstn 7 n) (S_ "polygon") = false /\ (str_eqb n (S_ "wedge") = true <-> c = 13%Z) /\ c <> 7%Z /\ (c = 13%Z -> k = 6).
Proof.
  intros c n k H Hc Hn. assert (A : c <> 7%Z). { intro E. subst c. cbn in Hn. injection Hn as Hn. lia. }
  assert (K : forallb (fun p => (Z.eqb (fst p) 7 || negb (str_eqb (firstn 7 (snd p)) (S_ "polygon"))) && Bool.eqb (str_eqb (snd p) (S_ "wedge")) (Z.eqb (fst p) 13)) cell_types = true) by (vm_compute; reflexivity).
  rewrite forallb_forall in K. specialize (K _ H). cbn [fst snd] in K. apply andb_true_iff in K as [K1 K2]. replace (Z.eqb c 7) with false in K1 by lia. cbn [orb] in K1. apply negb_true_iff in K1.
  apply eqb_prop in K2. split; [exact K1|]. split; [rewrite K2; lia|]. split; [exact A|]. intro E. subst c. cbn in Hn. injection Hn as Hn. lia.
Qed.
Lemma polygon_key n : type_key (S_ "polygon" ++ n) = S_ "polygon".
Proof. reflexivity. Qed.
Lemma polygon_not_wedge n : str_eqb (S_ "polygon" ++ n) (S_ "wedge") = false.
Proof. reflexivity. Qed.
Lemma pick_id r k : List.length r = k -> pick r (arange (Z.of_nat k)) = r.
Proof. intros <-. apply pick_arange. Qed.
Lemma block_code b : good_block b -> code_of_type (type_key (b_type b)) = Ok (code_of b) /\ (exists n, type_of_code (code_of b) = Ok n) /\
  (str_eqb (b_type b) (S_ "wedge") = true <-> code_of b = 13%Z) /\ (code_of b = 13%Z -> b_cols b = 6) /\
  ((fixed_block b /\ code_of b <> 7%Z /\ type_of_code (code_of b) = Ok (b_type b)) \/ (polygon_block b /\ code_of b = 7%Z)).
Proof.
  intros [F|P].
  - pose proof F as [c [H1 [H2 [H3 [H4 _]]]]]. destruct (fixed_types _ _ _ H1 H2 H3) as [A [B [C D]]]. destruct (code_name _ _ H1) as [N1 N2].
    assert (E : code_of_type (type_key (b_type b)) = Ok c) by (unfold type_key; rewrite A; exact N2). assert (E2 : code_of b = c) by (unfold code_of; rewrite E; reflexivity).
    rewrite E2. split; [exact E|]. split; [eexists; exact N1|]. split; [exact B|]. split; [exact D|]. left. repeat split; assumption.
  - pose proof P as [P1 P2]. assert (E : code_of_type (type_key (b_type b)) = Ok 7%Z) by (rewrite P1, polygon_key; reflexivity). assert (E2 : code_of b = 7%Z) by (unfold code_of; rewrite E; reflexivity).
    rewrite E2. split; [exact E|]. split; [eexists; reflexivity|]. split; [rewrite P1, polygon_not_wedge; split; [discriminate | lia]|]. split; [lia|]. right. split; [exact P | reflexivity].
Qed.
Lemma good_rect b : good_block b -> rectangular b.
Proof. intros [[c [_ [_ [_ [_ H]]]]]|[_ H]]; exact H. Qed.
Lemma order_len b : good_block b -> List.length (meshio_to_vtk_order (b_type b) (Z.of_nat (b_cols b))) = b_cols b.
Proof.
  intro G. destruct (block_code b G) as [_ [_ [W [W6 _]]]]. unfold meshio_to_vtk_order. destruct (str_eqb (b_type b) (S_ "wedge")).
  - rewrite (W6 (proj1 W eq_refl)). reflexivity.
  - rewrite arange_length. lia.
Qed.
Lemma order_in b : good_block b -> Forall (fun i => 0 <= i < Z.of_nat (b_cols b))%Z (meshio_to_vtk_order (b_type b) (Z.of_nat (b_cols b))).
Proof.
  intro G. destruct (block_code b G) as [_ [_ [W [W6 _]]]]. unfold meshio_to_vtk_order. destruct (str_eqb (b_type b) (S_ "wedge")).
  - rewrite (W6 (proj1 W eq_refl)). apply wedge_range.
  - apply arange_range.
Qed.
Lemma stored_len b c : good_block b -> In c (stored_of b) -> fst c = code_of b /\ List.length (snd c) = b_cols b.
Proof. intros G H. unfold stored_of in H. apply in_map_iff in H. destruct H as [r [<- _]]. cbn [fst snd]. rewrite pick_length, order_len by exact G. split; reflexivity. Qed.
Lemma stored_mesh b : good_block b -> map (fun c => (full_name c, to_mesh c)) (stored_of b) = map (pair (b_type b)) (b_rows b).
Proof.
  intro G. unfold stored_of. rewrite map_map. apply map_ext_in. intros r Hr. pose proof (good_rect b G) as R. unfold rectangular in R. rewrite Forall_forall in R. specialize (R r Hr).
  destruct (block_code b G) as [_ [_ [W [W6 K]]]]. f_equal.
  - unfold full_name, nm. cbn [fst snd]. rewrite pick_length, order_len by exact G. destruct K as [[F [N7 T]]|[[P _] E7]].
    + rewrite T. destruct (str_eqb (b_type b) (S_ "polygon")) eqn:E; [|reflexivity]. apply str_eqb_eq in E. exfalso. apply N7. unfold code_of. rewrite E. reflexivity.
    + rewrite E7. change (type_of_code 7) with (@Ok str (S_ "polygon")). cbv iota. rewrite str_eqb_refl. rewrite P. f_equal. rewrite <- nat_str_Z. reflexivity.
  - unfold to_mesh, order_of. cbn [fst snd]. rewrite pick_length, order_len by exact G. unfold vtk_to_meshio_order, meshio_to_vtk_order.
    destruct (Z.eqb_spec (code_of b) 13) as [E|E].
    + rewrite (proj2 W E). apply pick_wedge. rewrite R. exact (W6 E).
    + destruct (str_eqb (b_type b) (S_ "wedge")) eqn:Ew; [elim E; apply W; reflexivity|]. rewrite (pick_id r _ R). apply pick_id. exact R.
Qed.
Lemma block_ints_ok b : good_block b -> block_ints b = Ok (flat (stored_of b)).
Proof.
  intro G. unfold block_ints. pose proof (good_rect b G) as R. unfold rectangular in R. rewrite Forall_forall in R.
  rewrite (mapR_ok _ (fun r => Z.of_nat (b_cols b) :: pick r (meshio_to_vtk_order (b_type b) (Z.of_nat (b_cols b))))).
  - cbn [bind]. f_equal. unfold flat, stored_of. rewrite flat_map_concat_map, map_map. f_equal. apply map_ext. intro r. cbn [fst snd]. rewrite pick_length, order_len by exact G. reflexivity.
  - intros r Hr. rewrite mapR_at; [reflexivity|]. rewrite (R r Hr). apply order_in. exact G.
Qed.
Lemma block_types_ok b : good_block b -> block_types b = Ok (map fst (stored_of b)).
Proof. intro G. unfold block_types. rewrite (proj1 (block_code b G)). cbn [bind]. f_equal. unfold stored_of. rewrite map_map. reflexivity. Qed.
Lemma stored_known b : good_block b -> Forall known_cell (stored_of b).
Proof.
  intro G. apply Forall_forall. intros c Hc. destruct (stored_len b c G Hc) as [E1 E2]. destruct (block_code b G) as [_ [N [_ [W6 _]]]]. split; [rewrite E1; exact N|].
  intro E. rewrite E2. apply W6. congruence.
Qed.
Lemma fixed_code b c : fixed_block b -> In c (stored_of b) -> fst c <> 7%Z /\ at_ numnodes_table (fst c) = Ok (Z.of_nat (List.length (snd c))) /\ 0 < List.length (snd c).
Proof.
  intros F Hc. pose proof (or_introl F : good_block b) as G. destruct (stored_len b c G Hc) as [E1 E2]. rewrite E1, E2.
  pose proof F as [k [H1 [H2 [H3 [H4 _]]]]]. destruct (fixed_types _ _ _ H1 H2 H3) as [A [_ [B _]]]. destruct (code_name _ _ H1) as [_ N2].
  assert (E : code_of b = k) by (unfold code_of, type_key; rewrite A, N2; reflexivity). rewrite E. split; [exact B|]. split; [|exact H4].
  replace k with (Z.of_nat (Z.to_nat k)) by lia. apply at_ok. exact H3.
Qed.
Lemma stored_fixed b : fixed_block b -> Forall fixed_cell (stored_of b).
Proof.
  intro F. apply Forall_forall. intros c Hc. pose proof (or_introl F : good_block b) as G. destruct (fixed_code b c F Hc) as [_ K]. split; [|exact K].
  destruct (stored_len b c G Hc) as [E1 _]. rewrite E1. exact (proj1 (proj2 (block_code b G))).
Qed.
Lemma str_of_Z_inj a b : str_of_Z a = str_of_Z b -> a = b.
Proof. intro H. pose proof (int_str_of_Z a) as A. rewrite H, int_str_of_Z in A. injection A as A. congruence. Qed.
Lemma same_name bs : Forall good_block bs -> forall c d, In c (flat_map stored_of bs) -> In d (flat_map stored_of bs) -> full_name c = full_name d -> List.length (to_mesh c) = List.length (to_mesh d).
Proof.
  intros G c d Hc Hd E. apply in_flat_map in Hc, Hd. destruct Hc as [b [Hb Hc]], Hd as [b' [Hb' Hd]]. rewrite Forall_forall in G. pose proof (G b Hb) as Gb. pose proof (G b' Hb') as Gb'.
  assert (L : forall b c, good_block b -> In c (stored_of b) -> List.length (to_mesh c) = b_cols b /\ full_name c = b_type b).
  { clear. intros b c G H. assert (I : In (full_name c, to_mesh c) (map (pair (b_type b)) (b_rows b))) by (rewrite <- (stored_mesh b G); apply (in_map (fun c => (full_name c, to_mesh c))); exact H).
    apply in_map_iff in I. destruct I as [r [I1 I2]]. injection I1 as I1 I3. pose proof (good_rect b G) as R. unfold rectangular in R. rewrite Forall_forall in R. rewrite <- I3. split; [apply R; exact I2 | congruence]. }
  destruct (L b c Gb Hc) as [L1 L2]. destruct (L b' d Gb' Hd) as [L3 L4]. rewrite L1, L3. rewrite L2, L4 in E.
  destruct Gb as [[k [H1 [H2 [H3 _]]]]|[P1 _]], Gb' as [[k' [H1' [H2' [H3' _]]]]|[P1' _]].
  - rewrite E in H1. destruct (code_name _ _ H1) as [N1 _]. destruct (code_name _ _ H1') as [N1' _]. pose proof (codes_injective _ _ _ N1 N1') as Ek. subst k'. rewrite H3 in H3'. injection H3' as H3'. lia.
  - destruct (fixed_types _ _ _ H1 H2 H3) as [A _]. rewrite E, P1' in A. discriminate A.
  - destruct (fixed_types _ _ _ H1' H2' H3') as [A _]. rewrite <- E, P1 in A. discriminate A.
  - rewrite P1, P1' in E. apply app_inv_head in E. change (nat_str (b_cols b) = nat_str (b_cols b')) in E. rewrite !nat_str_Z in E. apply str_of_Z_inj in E. lia.
Qed.
Lemma nodes_stored b : good_block b -> node_ok (Z.of_nat (b_cols b)) -> Forall (Forall node_ok) (b_rows b) -> Forall node_ok (flat (stored_of b)).
Proof.
  intros G N H. unfold flat. apply Forall_flat_map. apply Forall_forall. intros c Hc. destruct (stored_len b c G Hc) as [_ E]. rewrite E. constructor; [exact N|].
  unfold stored_of in Hc. apply in_map_iff in Hc. destruct Hc as [r [<- Hr]]. cbn [snd]. unfold pick. apply Forall_map. apply Forall_forall. intros i Hi.
  pose proof (order_in b G) as O. rewrite Forall_forall in O. specialize (O i Hi). rewrite Forall_forall in H. specialize (H r Hr). pose proof (good_rect b G) as R. unfold rectangular in R. rewrite Forall_forall in R. specialize (R r Hr).
  rewrite Forall_forall in H. apply H. apply nth_In. lia.
Qed.
