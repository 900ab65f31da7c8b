(** Property C97: writing and reading HAWC2 result files, with the names of the files. *)
From Coq Require Import Lia.
From Verif Require Import Py PyFacts TextFacts ListFacts Registry_Model H2io_Model H2io_Proofs H2io_Props H2dat_Model.
Local Open Scope nat_scope.

(** ** Specification *)
(** The last part of a path is not made of points only *)
Definition proper (stem : str) : Prop := exists a b, stem = a ++ b /\ (a = [] \/ exists a', a = a' ++ ["/"%char]) /\ ~ In "/"%char b /\ exists c, In c b /\ c <> "."%char.
(** The text is nowhere in the other *)
Definition nowhere (sub s : str) : Prop := forall a b, s <> a ++ sub ++ b.
(** A number is blanks and a word that means it *)
Definition number_ok {V} (num : str -> option V) (fmt16 : V -> str) (rnd : V -> V) (v : V) : Prop :=
  exists n w, fmt16 v = repeat sp n ++ w /\ is_token w = true /\ ~ In "#"%char w /\ num w = Some (rnd v).
(** The channels fit the columns of the .sel file, and there is a name, a unit and a description for each of them *)
Definition channels_fit {V} (o : dat V) (n : nat) : Prop :=
  0 < n /\ List.length (d_names o) = n /\ List.length (d_units o) = n /\ List.length (d_descr o) = n /\
  forallb label_fits (d_names o) = true /\ forallb unit_fits (d_units o) = true /\ forallb descr_fits (d_descr o) = true /\
  (N.of_nat n < 10 ^ 11)%N /\ (N.of_nat (List.length (d_data o)) < 10 ^ 11)%N.
(** The rows, and the last time *)
Definition data_fit {V} (num : str -> option V) (fmt16 fmt3 : V -> str) (rnd : V -> V) (o : dat V) (n : nat) : Prop :=
  Forall (fun r => List.length r = n /\ Forall (number_ok num fmt16 rnd) r) (d_data o) /\
  exists rows t row, d_data o = rows ++ [t :: row] /\ is_token (fmt3 t) = true /\ zero_text (fmt3 t) = false /\ List.length (fmt3 t) < 16.

(** ** Names of files *)
Lemma rsplit1_none c s : ~ In c s -> rsplit1 c s = None.
Proof. induction s as [|x s IH]; intro H; [reflexivity|]. cbn [rsplit1]. rewrite IH by (intro G; apply H; now right). replace (chr_eqb x c) with false; [reflexivity|]. symmetry. apply chr_eqb_neq. intros ->. apply H. now left. Qed.
Lemma rsplit1_some c a b : ~ In c b -> rsplit1 c (a ++ c :: b) = Some (a, b).
Proof. intro H. induction a as [|x a IH]; cbn [app rsplit1]; [rewrite rsplit1_none by exact H; now rewrite chr_eqb_refl|now rewrite IH]. Qed.
Lemma basename_proper a b : (a = [] \/ exists a', a = a' ++ ["/"%char]) -> ~ In "/"%char b -> basename (a ++ b) = b.
Proof.
  intros Ha Hb. unfold basename. change slash with "/"%char. destruct Ha as [->|[a' ->]]; [cbn [app]; now rewrite rsplit1_none|]. rewrite <- app_assoc. cbn [app]. now rewrite rsplit1_some.
Qed.
Lemma ext_proper stem e : proper stem -> ~ In "."%char e -> ~ In "/"%char e -> splitext_ext (stem ++ "."%char :: e) = "."%char :: e.
Proof.
  intros (a & b & -> & Ha & Hb & c & Hc & Hn) H1 H2. unfold splitext_ext. rewrite <- app_assoc. rewrite basename_proper; [|exact Ha|rewrite in_app_iff; intros [G|[G|G]]; [contradiction|discriminate|contradiction]].
  change dot with "."%char. rewrite rsplit1_some by exact H1. replace (forallb (fun c0 => chr_eqb c0 ".") b) with false; [reflexivity|]. symmetry. apply not_true_is_false. intro G. rewrite forallb_forall in G. apply Hn. apply chr_eqb_eq. now apply G.
Qed.
Lemma basename_one_line stem e : proper stem -> ~ In "/"%char e -> one_line (stem ++ e) = true -> one_line (basename (stem ++ e)) = true.
Proof.
  intros (a & b & -> & Ha & Hb & _) H2 H. rewrite <- app_assoc in *. rewrite basename_proper; [|exact Ha|rewrite in_app_iff; tauto]. unfold one_line in *. rewrite forallb_app in H. now apply andb_true_iff in H.
Qed.
Lemma firstn_app_sub {A} (a b : list A) : firstn (List.length (a ++ b) - List.length b) (a ++ b) = a.
Proof. rewrite app_length, Nat.add_sub, firstn_app, Nat.sub_diag, firstn_all. cbn [firstn]. apply app_nil_r. Qed.
Lemma repl_sel stem : nowhere (S_ ".sel") stem -> replace_ (S_ ".sel") (S_ ".dat") (stem ++ S_ ".sel") = stem ++ S_ ".dat".
Proof.
  unfold replace_. induction stem as [|c s IH]; intro H; [reflexivity|]. cbn [app repl].
  assert (Hs : nowhere (S_ ".sel") s) by (intros a b E; apply (H (c :: a) b); rewrite E; reflexivity).
  replace (startswith (c :: s ++ S_ ".sel") (S_ ".sel")) with false; [rewrite IH by exact Hs; reflexivity|]. symmetry. apply not_true_is_false. intro G. apply startswith_iff in G. destruct G as [t G].
  destruct s as [|c1 s]; [discriminate|]. destruct s as [|c2 s]; [discriminate|]. destruct s as [|c3 s]; [discriminate|]. cbn [app S_ list_ascii_of_string] in G. injection G as -> -> -> -> _.
  exact (H [] s eq_refl).
Qed.
Lemma endswith_iff s p : endswith s p = true <-> exists t, s = t ++ p.
Proof.
  unfold endswith. rewrite startswith_iff. split; intros [t E].
  - exists (rev t). rewrite <- (rev_involutive s), E, rev_app_distr, rev_involutive. reflexivity.
  - exists (rev t). rewrite E, rev_app_distr. reflexivity.
Qed.
Lemma ends_other stem e e' : List.length e = List.length e' -> lower e <> e' -> endswith (lower (stem ++ e)) e' = false.
Proof.
  intros L H. apply not_true_is_false. intro G. apply endswith_iff in G. destruct G as [t G]. rewrite lower_app in G. apply H.
  assert (LL : List.length (lower e) = List.length e') by now rewrite lower_length. clear -G LL. revert t G. induction (lower stem) as [|x l IH]; intros t G.
  - cbn [app] in G. destruct t; [exact G|]. apply (f_equal (@List.length _)) in G. cbn [app List.length] in G. rewrite app_length in G. lia.
  - destruct t as [|y t]; [apply (f_equal (@List.length _)) in G; cbn [app List.length] in G; rewrite app_length in G; lia|]. cbn [app] in G. injection G as _ G. now apply (IH t).
Qed.
Lemma ends_same stem e e' : lower e = e' -> endswith (lower (stem ++ e)) e' = true.
Proof. intros <-. apply endswith_iff. exists (lower stem). apply lower_app. Qed.
Lemma str_neq_ext a b c : b <> c -> str_eqb (a ++ b) (a ++ c) = false.
Proof. intro H. apply str_eqb_neq. intro E. apply app_inv_head in E. contradiction. Qed.

Lemma ext_of stem e : proper stem -> In e [S_ ".dat"; S_ ".DAT"; S_ ".sel"; S_ ".SEL"] -> splitext_ext (stem ++ e) = e.
Proof.
  intros Hp H. assert (exists e', e = "."%char :: e' /\ ~ In "."%char e' /\ ~ In "/"%char e') as (e' & -> & H1 & H2).
  { destruct H as [<-|[<-|[<-|[<-|[]]]]]; [exists (S_ "dat")|exists (S_ "DAT")|exists (S_ "sel")|exists (S_ "SEL")]; (split; [reflexivity|]); split; intro G; vm_compute in G; repeat (destruct G as [G|G]; [discriminate|]); exact G. }
  now apply ext_proper.
Qed.
Lemma dat_names stem e : proper stem -> (e = S_ ".dat" \/ e = S_ ".DAT") -> datfilename (stem ++ e) = stem ++ e /\ selfilename (stem ++ e) = stem ++ S_ ".sel".
Proof.
  intros Hp He. assert (D : datfilename (stem ++ e) = stem ++ e).
  { unfold datfilename. rewrite ext_of; [|exact Hp|destruct He as [-> | ->]; cbn; auto]. destruct He as [-> | ->]; reflexivity. }
  split; [exact D|]. unfold selfilename. rewrite D. destruct He as [-> | ->]; [change 4 with (List.length (S_ ".dat"))|change 4 with (List.length (S_ ".DAT"))]; rewrite firstn_app_sub; reflexivity.
Qed.
Lemma sel_names stem : proper stem -> nowhere (S_ ".sel") stem -> datfilename (stem ++ S_ ".sel") = stem ++ S_ ".dat" /\ selfilename (stem ++ S_ ".sel") = stem ++ S_ ".sel".
Proof.
  intros Hp Hn. assert (D : datfilename (stem ++ S_ ".sel") = stem ++ S_ ".dat").
  { unfold datfilename. rewrite ext_of; [|exact Hp|cbn; auto]. apply (repl_sel stem Hn). }
  split; [exact D|]. unfold selfilename. rewrite D. change 4 with (List.length (S_ ".dat")). rewrite firstn_app_sub. reflexivity.
Qed.
Lemma SEL_names stem : proper stem -> nowhere (S_ ".sel") (stem ++ S_ ".SEL") -> datfilename (stem ++ S_ ".SEL") = stem ++ S_ ".SEL" /\ selfilename (stem ++ S_ ".SEL") = stem ++ S_ ".sel".
Proof.
  intros Hp Hn. assert (D : datfilename (stem ++ S_ ".SEL") = stem ++ S_ ".SEL").
  { unfold datfilename. rewrite ext_of; [|exact Hp|cbn; auto]. change (str_eqb (lower (S_ ".SEL")) (S_ ".dat")) with false. cbv iota. change (str_eqb (lower (S_ ".SEL")) (S_ ".sel")) with true. cbv iota. change (lower (S_ ".SEL")) with (S_ ".sel").
    unfold replace_. revert Hn. generalize (stem ++ S_ ".SEL"). intro s. induction s as [|c s IH]; intro H; [reflexivity|]. cbn [repl].
    replace (startswith (c :: s) (S_ ".sel")) with false; [rewrite IH; [reflexivity|]; intros a b E; apply (H (c :: a) b); rewrite E; reflexivity|].
    symmetry. apply not_true_is_false. intro G. apply startswith_iff in G. destruct G as [t G]. exact (H [] t G). }
  split; [exact D|]. unfold selfilename. rewrite D. change 4 with (List.length (S_ ".SEL")). rewrite firstn_app_sub. reflexivity.
Qed.

(** ** The data *)
Section Dat.
Context {V : Type}.
Variables (num : str -> option V) (fmt16 fmt3 : V -> str) (is_zero : V -> bool) (rnd : V -> V).
Lemma row_text r : r <> [] -> Forall (number_ok num fmt16 rnd) r ->
  ~ In nl (join [sp] (map fmt16 r)) /\ load_row num (List.length r) (split_ws (no_comment (join [sp] (map fmt16 r)))) = Ok (map rnd r) /\ nonempty (split_ws (no_comment (join [sp] (map fmt16 r)))) = true.
Proof.
  intros Hne H. assert (W : exists ws, split_ws (join [sp] (map fmt16 r)) = ws /\ Forall2 (fun w v => num w = Some (rnd v)) ws r /\ ~ In nl (join [sp] (map fmt16 r)) /\ ~ In "#"%char (join [sp] (map fmt16 r))).
  { clear Hne. induction H as [|v r (n & w & E & Hw & Hc & Hv) _ IH]; [exists []; repeat split; [constructor|easy|easy]|]. destruct IH as (ws & I1 & I2 & I3 & I4). exists (w :: ws). cbn [map].
    assert (B : forall c, ~ In c w -> c <> sp -> ~ In c (repeat sp n ++ w)). { intros c H1 H2 G. apply in_app_iff in G. destruct G as [G|G]; [apply repeat_spec in G; contradiction|contradiction]. }
    assert (S0 : split_ws (repeat sp n ++ w) = [w]) by (rewrite split_ws_lpad; [now apply split_ws_token|apply forallb_forall; intros x Hx; apply repeat_spec in Hx; subst; reflexivity]).
    assert (N1 : ~ In nl w) by (apply token_not_in; [exact Hw|reflexivity]).
    destruct r as [|v' r].
    - cbn [map join]. rewrite E, S0. inversion I2; subst. repeat split; [repeat constructor; exact Hv|apply B; [exact N1|discriminate]|apply B; [exact Hc|discriminate]].
    - rewrite join_cons by (cbn [map]; discriminate). rewrite E. cbn [app]. rewrite split_ws_app by reflexivity. rewrite S0, I1. repeat split; [constructor; assumption| |].
      + rewrite in_app_iff. intros [G|[G|G]]; [revert G; apply B; [exact N1|discriminate]|discriminate|contradiction].
      + rewrite in_app_iff. intros [G|[G|G]]; [revert G; apply B; [exact Hc|discriminate]|discriminate|contradiction]. }
  destruct W as (ws & E & HF & H1 & H2). split; [exact H1|].
  assert (NC : no_comment (join [sp] (map fmt16 r)) = join [sp] (map fmt16 r)). { unfold no_comment, split_chr. rewrite split_on_none; [reflexivity|]. apply forallb_forall. intros x Hx. apply negb_true_iff. apply chr_eqb_neq. intros ->. contradiction. }
  rewrite NC, E. assert (L : List.length ws = List.length r) by (clear -HF; induction HF; cbn; congruence). split.
  - unfold load_row. rewrite L, Nat.ltb_irrefl, <- L, firstn_all. replace (numbers num ws) with (Some (map rnd r)); [reflexivity|]. clear -HF. induction HF as [|w v ws r Hv _ IH]; [reflexivity|]. cbn [numbers map]. rewrite Hv, <- IH. reflexivity.
  - destruct ws; [destruct r; [contradiction|discriminate]|reflexivity].
Qed.
Lemma load_text n rows : 0 < n -> Forall (fun r => List.length r = n /\ Forall (number_ok num fmt16 rnd) r) rows -> loadtxt num n (dat_text fmt16 rows) = Ok (map (map rnd) rows).
Proof.
  intros Hn H. unfold loadtxt. induction H as [|r rows [Hr1 Hr2] _ IH]; [reflexivity|]. cbn [dat_text flat_map]. destruct (row_text r) as (H1 & H2 & H3); [intros ->; cbn in Hr1; lia|exact Hr2|].
  rewrite <- app_assoc. unfold split_chr in *. cbn [app]. rewrite split_on_app_sep; [|apply forallb_forall; intros x Hx; apply negb_true_iff, chr_eqb_neq; intros ->; contradiction|apply chr_eqb_refl].
  cbn [map filter]. rewrite H3. cbn [mapM]. rewrite Hr1 in H2. rewrite H2. cbn [bind]. fold (dat_text fmt16 rows). rewrite IH. reflexivity.
Qed.
Lemma rev_last {A} (l : list A) x : rev (l ++ [x]) = x :: rev l.
Proof. rewrite rev_app_distr. reflexivity. Qed.

(** The pair of files and what reading their .sel and .dat gives *)
Lemma write_eq f filename (o : dat V) rows t row : d_data o = rows ++ [t :: row] -> write fmt16 fmt3 f filename o =
  Ok (put (put f (datfilename filename) (dat_text fmt16 (d_data o))) (selfilename filename)
    (if d_bhawc o then bsel_text (fmt3 t) (N.of_nat (List.length (d_data o))) (N.of_nat (List.length (hd [] (d_data o)))) (d_names o) (d_units o) (d_descr o)
     else sel_text (basename (datfilename filename)) (fmt3 t) (N.of_nat (List.length (d_data o))) (N.of_nat (List.length (hd [] (d_data o)))) (d_names o) (d_units o) (d_descr o))).
Proof. intro E. unfold write. rewrite E at 1. rewrite rev_last. reflexivity. Qed.
Lemma put_same f p t : put f p t p = Some t.
Proof. unfold put. now rewrite str_eqb_refl. Qed.
Lemma put_other f p t q : q <> p -> put f p t q = f q.
Proof. intro H. unfold put. apply str_eqb_neq in H. now rewrite H. Qed.
Definition with_data (o : dat V) : dat V := mk_dat (d_names o) (d_units o) (d_descr o) (map (map rnd) (d_data o)) false.
Lemma hd_width n (o : dat V) : data_fit num fmt16 fmt3 rnd o n -> List.length (hd [] (d_data o)) = n.
Proof.
  intros (H & rows & t & row & E & _). destruct (d_data o) as [|r l]; [destruct rows; discriminate|]. apply Forall_inv in H. exact (proj1 H).
Qed.
Lemma read_pair f stem (o : dat V) n base : one_line base = true -> channels_fit o n -> data_fit num fmt16 fmt3 rnd o n -> (exists t rows row, d_data o = rows ++ [t :: row] /\
    f (stem ++ S_ ".sel") = Some (sel_text base (fmt3 t) (N.of_nat (List.length (d_data o))) (N.of_nat n) (d_names o) (d_units o) (d_descr o))) ->
  f (stem ++ S_ ".dat") = Some (dat_text fmt16 (d_data o)) ->
  ('(s, b) <- read_sel num is_zero f stem ;; if s_binary s then Err Unmodelled else d <- ReadAscii num f stem s ;; Ok (mk_dat (s_names s) (s_units s) (s_descrs s) d b)) = Ok (with_data o).
Proof.
  intros Hb (C0 & C1 & C2 & C3 & C4 & C5 & C6 & C7 & C8) (D1 & rows & t & row & D2 & D3 & D4 & D5) (t' & rows' & row' & D2' & Hs) Hd.
  assert (t' = t). { rewrite D2 in D2'. apply app_inj_tail in D2'. destruct D2' as [_ E]. congruence. } subst t'.
  unfold read_sel. rewrite Hs. replace (N.of_nat n) with (count (d_names o)) by (unfold count; now rewrite C1). rewrite C54_sel_round_trip_partial; try assumption; [|unfold count; rewrite C1; exact C7|congruence|congruence].
  cbn [bind s_binary]. unfold ReadAscii. cbn [s_NrCh s_NrSc]. rewrite C1. replace (Z.of_nat n <=? 0)%Z with false by (symmetry; apply Z.leb_gt; lia). rewrite nat_N_Z. replace (Z.of_nat (List.length (d_data o)) <? 0)%Z with false by (symmetry; apply Z.ltb_ge; lia). cbn [orb].
  rewrite Hd, !Nat2Z.id, (load_text n) by assumption. cbn [bind]. rewrite map_length, Nat.eqb_refl. reflexivity.
Qed.

(** ** C97 *)
(** What is written under a name ending in .dat or .sel is read back under that name, when no other .sel file is in the way; no other file changes *)
Theorem C97_round_trip_partial : forall f stem filename (o : dat V) n,
  proper stem -> one_line stem = true -> d_bhawc o = false -> channels_fit o n -> data_fit num fmt16 fmt3 rnd o n ->
  (filename = stem ++ S_ ".dat" /\ f (stem ++ S_ ".dat.sel") = None) \/ (filename = stem ++ S_ ".sel" /\ nowhere (S_ ".sel") stem) ->
  exists f', write fmt16 fmt3 f filename o = Ok f' /\ read num is_zero f' filename = Ok (with_data o) /\
    (forall p, p <> stem ++ S_ ".dat" -> p <> stem ++ S_ ".sel" -> f' p = f p).
Proof.
  intros f stem filename o n Hp H1 Hb Hc Hd Hf. assert (W := hd_width n o Hd). assert (Hd' := Hd). destruct Hd' as (_ & rows & t & row & D2 & _).
  assert (N : datfilename filename = stem ++ S_ ".dat" /\ selfilename filename = stem ++ S_ ".sel").
  { destruct Hf as [[-> _]|[-> Hn]]; [apply dat_names; [exact Hp|now left]|now apply sel_names]. }
  destruct N as [N1 N2]. rewrite (write_eq f filename o rows t row D2), N1, N2, Hb, W.
  assert (Hbase : one_line (basename (stem ++ S_ ".dat")) = true).
  { apply basename_one_line; [exact Hp|intro G; vm_compute in G; repeat (destruct G as [G|G]; [discriminate|]); exact G|]. unfold one_line in *. rewrite forallb_app, H1. reflexivity. }
  set (dt := dat_text fmt16 (d_data o)). set (sl := sel_text _ _ _ _ _ _ _). eexists. split; [reflexivity|]. set (f' := put (put f (stem ++ S_ ".dat") dt) (stem ++ S_ ".sel") sl).
  assert (F1 : f' (stem ++ S_ ".sel") = Some sl) by apply put_same.
  assert (F2 : f' (stem ++ S_ ".dat") = Some dt). { unfold f'. rewrite put_other; [apply put_same|]. intro E. apply app_inv_head in E. discriminate. }
  assert (F3 : forall p, p <> stem ++ S_ ".dat" -> p <> stem ++ S_ ".sel" -> f' p = f p). { intros p P1 P2. unfold f'. rewrite !put_other by assumption. reflexivity. }
  split; [|exact F3].
  assert (B : sel_base f' filename = Ok stem).
  { unfold sel_base. destruct Hf as [[-> Hn]|[-> Hn]].
    - rewrite ends_other by (reflexivity || discriminate). unfold isfile. rewrite <- app_assoc. change (S_ ".dat" ++ S_ ".sel") with (S_ ".dat.sel"). rewrite F3, Hn; try (intro E; apply app_inv_head in E; discriminate).
      rewrite ends_same by reflexivity. rewrite ext_of by (exact Hp || (cbn; auto)).
      rewrite firstn_app_sub, F1. reflexivity.
    - rewrite ends_same by reflexivity. change 4 with (List.length (S_ ".sel")). rewrite firstn_app_sub. reflexivity. }
  assert (R : read_ num is_zero f' filename = Ok (with_data o)).
  { unfold read_. rewrite B. cbn [bind]. apply (read_pair f' stem o n (basename (stem ++ S_ ".dat"))); try assumption. exists t, rows, row. split; [exact D2|exact F1]. }
  unfold read. rewrite R. destruct Hf as [[-> _]|[-> _]].
  - rewrite F2. unfold dt, dat_text. rewrite D2. rewrite flat_map_app. destruct (flat_map _ rows ++ _) eqn:E; [|reflexivity]. apply app_eq_nil in E. destruct E as [_ E]. cbn [flat_map] in E. rewrite app_nil_r in E. apply app_eq_nil in E. destruct E. discriminate.
  - rewrite F1. reflexivity.
Qed.
(** A .sel file that carries the whole name of the .dat file is preferred: the file that was written cannot be read *)
Theorem C97_shadowed_refuted : forall f stem (o : dat V) n other, proper stem -> data_fit num fmt16 fmt3 rnd o n ->
  f (stem ++ S_ ".dat.sel") = Some other -> f (stem ++ S_ ".dat.dat") = None ->
  exists f', write fmt16 fmt3 f (stem ++ S_ ".dat") o = Ok f' /\ forall o', read num is_zero f' (stem ++ S_ ".dat") <> Ok o'.
Proof.
  intros f stem o n other Hp (_ & rows & t & row & D2 & _) H1 H2. destruct (dat_names stem (S_ ".dat") Hp (or_introl eq_refl)) as [N1 N2]. rewrite (write_eq f _ o rows t row D2), N1, N2. eexists. split; [reflexivity|].
  match goal with |- forall o', read _ _ ?g _ <> _ => set (f' := g) end.
  assert (F3 : forall e, e <> S_ ".dat" -> e <> S_ ".sel" -> f' (stem ++ e) = f (stem ++ e)). { intros e P1 P2. unfold f'. rewrite !put_other; [reflexivity| |]; intro E; apply app_inv_head in E; contradiction. }
  intros o' R. unfold read in R. destruct (f' (stem ++ S_ ".dat")) as [[|]|]; try discriminate. unfold read_, sel_base in R. rewrite ends_other in R by (reflexivity || discriminate). unfold isfile at 1 in R. rewrite <- app_assoc in R. change (S_ ".dat" ++ S_ ".sel") with (S_ ".dat.sel") in R.
  rewrite F3, H1 in R by discriminate. cbn [bind] in R. destruct (read_sel num is_zero f' (stem ++ S_ ".dat")) as [[s b]|e]; [|destruct e; discriminate]. cbn [bind] in R. destruct (s_binary s); [discriminate|]. unfold ReadAscii in R.
  destruct ((s_NrCh s <=? 0)%Z || (s_NrSc s <? 0)%Z); [discriminate|]. rewrite <- app_assoc in R. change (S_ ".dat" ++ S_ ".dat") with (S_ ".dat.dat") in R. rewrite F3, H2 in R by discriminate. discriminate.
Qed.
(** Upper case: the data of X.DAT are looked for in X.dat; X.SEL receives the data *)
Theorem C97_upper_case_refuted : forall f stem (o : dat V) n filename, proper stem -> one_line stem = true -> d_bhawc o = false -> channels_fit o n -> data_fit num fmt16 fmt3 rnd o n -> f (stem ++ S_ ".dat") = None ->
  (filename = stem ++ S_ ".DAT" /\ f (stem ++ S_ ".DAT.sel") = None) \/ (filename = stem ++ S_ ".SEL" /\ nowhere (S_ ".sel") filename) ->
  exists f', write fmt16 fmt3 f filename o = Ok f' /\ f' filename = Some (dat_text fmt16 (d_data o)) /\ read num is_zero f' filename = Err OSError2.
Proof.
  intros f stem o n filename Hp H1 Hb Hc Hd H0 Hf. assert (W := hd_width n o Hd). assert (Hd' := Hd). destruct Hd' as (_ & rows & t & row & D2 & D3 & D4 & D5).
  assert (N : exists e, filename = stem ++ e /\ (e = S_ ".DAT" \/ e = S_ ".SEL") /\ datfilename filename = stem ++ e /\ selfilename filename = stem ++ S_ ".sel").
  { destruct Hf as [[-> _]|[-> Hn]]; eexists; (split; [reflexivity|]); (split; [auto|]); [apply dat_names; [exact Hp|now right]|now apply SEL_names]. }
  destruct N as (e & Ef & He & N1 & N2). rewrite (write_eq f filename o rows t row D2), N1, N2, Hb, W.
  assert (Hbase : one_line (basename (stem ++ e)) = true).
  { apply basename_one_line; [exact Hp|destruct He as [-> | ->]; intro G; vm_compute in G; repeat (destruct G as [G|G]; [discriminate|]); exact G|]. unfold one_line in *. rewrite forallb_app, H1. destruct He as [-> | ->]; reflexivity. }
  set (dt := dat_text fmt16 (d_data o)). set (sl := sel_text _ _ _ _ _ _ _). eexists. split; [reflexivity|]. set (f' := put (put f (stem ++ e) dt) (stem ++ S_ ".sel") sl).
  assert (F1 : f' (stem ++ S_ ".sel") = Some sl) by apply put_same.
  assert (F2 : f' (stem ++ e) = Some dt). { unfold f'. rewrite put_other; [apply put_same|]. intro E. apply app_inv_head in E. destruct He as [-> | ->]; discriminate. }
  assert (F3 : forall e', e' <> e -> e' <> S_ ".sel" -> f' (stem ++ e') = f (stem ++ e')). { intros e' P1 P2. unfold f'. rewrite !put_other; [reflexivity| |]; intro E; apply app_inv_head in E; contradiction. }
  rewrite Ef. split; [exact F2|].
  assert (B : sel_base f' (stem ++ e) = Ok stem).
  { unfold sel_base. destruct He as [-> | ->].
    - rewrite ends_other by (reflexivity || discriminate). unfold isfile. rewrite <- app_assoc. change (S_ ".DAT" ++ S_ ".sel") with (S_ ".DAT.sel"). rewrite F3 by discriminate.
      assert (Hn : f (stem ++ S_ ".DAT.sel") = None) by (destruct Hf as [[_ G]|[G _]]; [exact G|rewrite Ef in G; apply app_inv_head in G; discriminate]). rewrite Hn.
      rewrite ends_same by reflexivity. rewrite ext_of by (exact Hp || (cbn; auto)).
      rewrite firstn_app_sub, F1. reflexivity.
    - rewrite ends_same by reflexivity. change 4 with (List.length (S_ ".SEL")). rewrite firstn_app_sub. reflexivity. }
  destruct Hc as (C0 & C1 & C2 & C3 & C4 & C5 & C6 & C7 & C8).
  assert (R : read_ num is_zero f' (stem ++ e) = Err OSError2).
  { unfold read_. rewrite B. cbn [bind]. unfold read_sel. rewrite F1. unfold sl. replace (N.of_nat n) with (count (d_names o)) by (unfold count; now rewrite C1).
    rewrite C54_sel_round_trip_partial; try assumption; [|unfold count; rewrite C1; exact C7|congruence|congruence]. cbn [bind s_binary]. unfold ReadAscii. cbn [s_NrCh s_NrSc]. rewrite C1. replace (Z.of_nat n <=? 0)%Z with false by (symmetry; apply Z.leb_gt; lia).
    rewrite nat_N_Z. replace (Z.of_nat (List.length (d_data o)) <? 0)%Z with false by (symmetry; apply Z.ltb_ge; lia). cbn [orb]. rewrite F3, H0; [reflexivity| |discriminate]. destruct He as [-> | ->]; discriminate. }
  unfold read. rewrite R, F2. unfold dt, dat_text. rewrite D2, flat_map_app. destruct (flat_map _ rows ++ _) eqn:E; [|reflexivity]. apply app_eq_nil in E. destruct E as [_ E]. cbn [flat_map] in E. rewrite app_nil_r in E. apply app_eq_nil in E. destruct E. discriminate.
Qed.
(** Another extension, or none: the files carry two extensions, and the name that was given is not a file *)
Theorem C97_other_extension_refuted : forall f filename (o : dat V), lower (splitext_ext filename) <> S_ ".dat" -> lower (splitext_ext filename) <> S_ ".sel" -> proper filename -> f filename = None ->
  write fmt16 fmt3 f filename o = write fmt16 fmt3 f (filename ++ S_ ".dat") o /\ forall f', write fmt16 fmt3 f filename o = Ok f' -> read num is_zero f' filename = Err OSError2.
Proof.
  intros f filename o H1 H2 Hp H0. destruct (dat_names filename (S_ ".dat") Hp (or_introl eq_refl)) as [N1 N2].
  assert (D : datfilename filename = filename ++ S_ ".dat"). { unfold datfilename. rewrite (proj2 (str_eqb_neq _ _) H1), (proj2 (str_eqb_neq _ _) H2). reflexivity. }
  assert (E : write fmt16 fmt3 f filename o = write fmt16 fmt3 f (filename ++ S_ ".dat") o). { unfold write, selfilename. rewrite D, N1. reflexivity. }
  split; [exact E|]. intros f' W. rewrite E in W. unfold write in W. destruct (rev (d_data o)) as [|[|t row] rows]; try discriminate. apply Ok_inj in W. subst f'. unfold read. rewrite N1, N2.
  rewrite !put_other, H0; [reflexivity| |]; intro G; apply (f_equal (@List.length _)) in G; rewrite app_length in G; cbn in G; lia.
Qed.
Theorem C97_nothing_written : forall f filename (o : dat V), d_data o = [] \/ (exists rows, d_data o = rows ++ [[]]) -> write fmt16 fmt3 f filename o = Err IndexError.
Proof. intros f filename o [H|[rows H]]; unfold write; rewrite H; [reflexivity|]. rewrite rev_last. reflexivity. Qed.
End Dat.

(** ** The hypotheses hold of concrete files: two channels, three rows; a number [k] is written as [k.0], with blanks in front *)
Definition ex_fmt (n : N) : str := repeat sp 3 ++ str_of_N n ++ S_ ".0".
Definition ex_fmt3 (n : N) : str := str_of_N n ++ S_ ".000".
Definition ex_num (s : str) : option N := if endswith s (S_ ".0") then N_of_str (firstn (List.length s - 2) s) else None.
Definition ex_dat : dat N := mk_dat [S_ "Time"; S_ "Mx coo: tower"] [S_ "s"; S_ "kNm"] [S_ "Time"; S_ "MomentMx Mbdy:tower nodenr:   1 coo: tower"] [[0;5];[1;6];[2;7]]%N false.
Lemma ex_number n : number_ok ex_num ex_fmt id n.
Proof.
  exists 3%nat, (str_of_N n ++ S_ ".0"). split; [reflexivity|]. split; [apply andb_true_iff; split; [destruct (str_of_N n); reflexivity|]; rewrite forallb_app; apply andb_true_iff; split; [apply digits_no_space, str_of_N_digits|reflexivity]|]. split.
  - rewrite in_app_iff. intros [G|G]; [|vm_compute in G; repeat (destruct G as [G|G]; [discriminate|]); exact G]. assert (D := str_of_N_digits n). rewrite forallb_forall in D. apply D in G. discriminate.
  - unfold ex_num. replace (endswith _ _) with true; [|symmetry; apply endswith_iff; eexists; reflexivity]. change 2%nat with (List.length (S_ ".0")). rewrite firstn_app_sub. apply N_of_str_of_N.
Qed.
Definition ex_stem : str := S_ "results/case.1/run".
Lemma ex_proper : proper ex_stem.
Proof.
  exists (S_ "results/case.1/"), (S_ "run"). repeat split; [right; exists (S_ "results/case.1"); reflexivity|intro G; vm_compute in G; repeat (destruct G as [G|G]; [discriminate|]); exact G|exists "r"%char; split; [cbn; auto|discriminate]].
Qed.
Lemma ex_channels : channels_fit ex_dat 2.
Proof. repeat split; vm_compute; try reflexivity; lia. Qed.
Lemma ex_data : data_fit ex_num ex_fmt ex_fmt3 id ex_dat 2.
Proof.
  split; [repeat constructor; apply ex_number|]. exists [[0;5];[1;6]]%N, 2%N, [7%N]. repeat split; vm_compute; lia.
Qed.
Example C97_round_trip_case : exists f', write ex_fmt ex_fmt3 (fun _ => None) (ex_stem ++ S_ ".dat") ex_dat = Ok f' /\ read ex_num (N.eqb 0) f' (ex_stem ++ S_ ".dat") = Ok ex_dat.
Proof.
  destruct (C97_round_trip_partial ex_num ex_fmt ex_fmt3 (N.eqb 0) id (fun _ => None) ex_stem (ex_stem ++ S_ ".dat") ex_dat 2 ex_proper eq_refl eq_refl ex_channels ex_data (or_introl (conj eq_refl eq_refl))) as (f' & H1 & H2 & _).
  exists f'. split; [exact H1|exact H2].
Qed.
Example C97_shadowed_case : exists f', write ex_fmt ex_fmt3 (put (fun _ => None) (ex_stem ++ S_ ".dat.sel") (S_ "old")) (ex_stem ++ S_ ".dat") ex_dat = Ok f' /\ forall o', read ex_num (N.eqb 0) f' (ex_stem ++ S_ ".dat") <> Ok o'.
Proof. exact (C97_shadowed_refuted ex_num ex_fmt ex_fmt3 (N.eqb 0) id _ ex_stem ex_dat 2 (S_ "old") ex_proper ex_data eq_refl eq_refl). Qed.
Example C97_upper_case_case : exists f', write ex_fmt ex_fmt3 (fun _ => None) (ex_stem ++ S_ ".DAT") ex_dat = Ok f' /\ read ex_num (N.eqb 0) f' (ex_stem ++ S_ ".DAT") = Err OSError2.
Proof.
  destruct (C97_upper_case_refuted ex_num ex_fmt ex_fmt3 (N.eqb 0) id (fun _ => None) ex_stem ex_dat 2 (ex_stem ++ S_ ".DAT") ex_proper eq_refl eq_refl ex_channels ex_data eq_refl (or_introl (conj eq_refl eq_refl))) as (f' & H1 & _ & H2). now exists f'.
Qed.
Example C97_other_extension_case : exists f', write ex_fmt ex_fmt3 (fun _ => None) (S_ "run.txt") ex_dat = Ok f' /\ f' (S_ "run.txt.dat") <> None /\ read ex_num (N.eqb 0) f' (S_ "run.txt") = Err OSError2.
Proof. eexists. split; [reflexivity|]. split; [vm_compute; discriminate|vm_compute; reflexivity]. Qed.
(** A directory whose name contains .sel: the data go to another directory, the pair is not read back *)
Theorem C97_directory_refuted : exists f', write ex_fmt ex_fmt3 (fun _ => None) (S_ "a.sel/run.sel") ex_dat = Ok f' /\ f' (S_ "a.dat/run.dat") <> None /\ f' (S_ "a.sel/run.sel") = None /\ read ex_num (N.eqb 0) f' (S_ "a.sel/run.sel") = Err OSError2.
Proof. eexists. split; [reflexivity|]. split; [vm_compute; discriminate|]. split; vm_compute; reflexivity. Qed.

Print Assumptions C97_round_trip_partial.
Print Assumptions C97_shadowed_refuted.
Print Assumptions C97_upper_case_refuted.
Print Assumptions C97_other_extension_refuted.
Print Assumptions C97_nothing_written.
Print Assumptions C97_directory_refuted.
