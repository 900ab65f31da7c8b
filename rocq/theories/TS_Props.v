(** Theorems about weio/turbsim_ts_file.py (C49, C74). *)
From Verif Require Import Py PyFacts TextFacts FS TurbSim_Model TurbSim_Proofs TS_Model.
From Coq Require Import Lia.
Local Open Scope nat_scope.

(** ** Texts and lines *)
Lemma nl_split l rest : ~ In nl l -> split_chr nl (l ++ nl :: rest) = l :: split_chr nl rest.
Proof.
  intro H. unfold split_chr. apply split_on_app_sep; [|apply chr_eqb_refl]. apply forallb_forall. intros x Hx. apply negb_true_iff, chr_eqb_neq. intros ->. exact (H Hx).
Qed.
Lemma split_chr_ne c s : split_chr c s <> [].
Proof. unfold split_chr. induction s as [|x s IH]; [discriminate|]. cbn [split_on]. destruct (chr_eqb x c); [discriminate|]. destruct (split_on _ s); discriminate. Qed.
Lemma drop_cons l ls : ls <> [] -> drop_last_empty (l :: ls) = l :: drop_last_empty ls.
Proof. intro H. destruct ls; [contradiction|]. destruct l; reflexivity. Qed.
Lemma file_lines_line l rest : ~ In nl l -> file_lines (l ++ nl :: rest) = l :: file_lines rest.
Proof. intro H. unfold file_lines. rewrite nl_split by exact H. apply drop_cons. apply split_chr_ne. Qed.
Lemma file_lines_flat ls rest : Forall (fun l => ~ In nl l) ls -> file_lines (flat_map (fun l => l ++ [nl]) ls ++ rest) = ls ++ file_lines rest.
Proof.
  intro H. induction H as [|l ls H1 H2 IH]; [reflexivity|]. cbn [flat_map]. rewrite <- !app_assoc. cbn [app]. rewrite file_lines_line by exact H1. rewrite IH. reflexivity.
Qed.
Lemma drop_keep ls : Forall (fun l => l <> []) ls -> drop_last_empty ls = ls.
Proof.
  intro H. induction H as [|l ls H1 H2 IH]; [reflexivity|]. destruct ls as [|l' ls']; [destruct l; [contradiction|reflexivity]|]. rewrite drop_cons by discriminate. rewrite IH. reflexivity.
Qed.
Lemma file_lines_join ls : Forall (fun l => l <> [] /\ ~ In nl l) ls -> file_lines (join [nl] ls) = ls.
Proof.
  intro H. destruct ls as [|l0 ls0] eqn:E; [reflexivity|]. rewrite <- E in *. unfold file_lines. rewrite split_chr_join; [| congruence |].
  - apply drop_keep. eapply Forall_impl; [|exact H]. intros a K. apply K.
  - apply forallb_forall. intros w Hw. apply negb_true_iff. destruct (mem_chr nl w) eqn:M; [|reflexivity]. apply mem_chr_iff in M. rewrite Forall_forall in H. destruct (proj2 (H w Hw) M).
Qed.
Lemma join_tail ls : ls <> [] -> join [nl] ls ++ [nl] = flat_map (fun l => l ++ [nl]) ls.
Proof.
  intro H. induction ls as [|l ls IH]; [contradiction|]. destruct ls as [|l' ls']; [cbn; now rewrite app_nil_r|]. rewrite join_cons by discriminate. cbn [flat_map] in *. rewrite <- IH by discriminate. rewrite <- !app_assoc. reflexivity.
Qed.
Lemma startswith_iff s p : startswith s p = true <-> exists b, s = p ++ b.
Proof.
  revert s. induction p as [|y p IH]; intro s; cbn [startswith].
  - split; [intros _; exists s; reflexivity|reflexivity].
  - destruct s as [|x s]; [split; [discriminate|intros [b E]; discriminate E]|]. rewrite andb_true_iff, chr_eqb_eq, IH. split.
    + intros [-> [b ->]]. exists b. reflexivity.
    + intros [b E]. cbn in E. injection E as -> ->. split; [reflexivity|]. exists b. reflexivity.
Qed.
Lemma contains_iff s t : contains s t = true <-> exists a b, s = a ++ t ++ b.
Proof.
  induction s as [|x s IH]; cbn [contains]; rewrite orb_true_iff, startswith_iff.
  - split; [intros [[b E]|K]; [exists [], b; exact E|discriminate K]|]. intros (a & b & E). left. destruct a; [exists b; exact E|discriminate E].
  - rewrite IH. split.
    + intros [[b E]|(a & b & E)]; [exists [], b; exact E|]. exists (x :: a), b. cbn. now rewrite E.
    + intros (a & b & E). destruct a as [|y a]; [left; exists b; exact E|]. right. cbn in E. injection E as -> ->. exists a, b. reflexivity.
Qed.
Lemma blank_repeat n : forallb is_space (repeat sp n) = true.
Proof. induction n; [reflexivity|exact IHn]. Qed.
Lemma nl_blank n : ~ In nl (repeat sp n).
Proof. intro H. apply repeat_spec in H. discriminate H. Qed.

(** ** Specification *)
(** The text does not contain the word nComp, in any case *)
Definition no_keyword (l : str) : Prop := ~ exists a b, lower l = a ++ S_ "ncomp" ++ b.
(** A line of header as it is after a reading: one line, without blanks at its ends, without the keyword *)
Definition header_line (l : str) : Prop := strip l = l /\ ~ In nl l /\ no_keyword l.

Section S.
Context {V : Type}.
Variable num : str -> option V.
Variable e16 : V -> str.
(** The number that is read back from the text written for a number *)
Variable rnd : V -> V.
(** The text of a number in 16 characters starts with a blank, and is read as the rounded number *)
Definition separated (v : V) : Prop := exists k w, e16 v = repeat sp (S k) ++ w /\ is_token w = true /\ num w = Some (rnd v).
Definition rounded (o : ts V) : ts V := mk_ts (t_header o) (t_ncomp o) (t_id o) (map (map rnd) (t_points o)) (map (map rnd) (t_data o)).

Lemma row_words r : Forall separated r -> exists ws, split_ws (List.concat (map e16 r)) = ws /\ floats num ws = Ok (map rnd r) /\ List.length ws = List.length r.
Proof.
  intro H. eexists. split; [reflexivity|]. revert H. induction r as [|v r IH]; intro H; [split; reflexivity|]. pose proof (Forall_inv H) as (k & w & E1 & E2 & E3). specialize (IH (Forall_inv_tail H)).
  cbn [map List.concat]. rewrite E1, <- app_assoc, split_ws_lpad by apply blank_repeat.
  assert (G : split_ws (w ++ List.concat (map e16 r)) = w :: split_ws (List.concat (map e16 r))).
  { destruct r as [|v' r']; [cbn; rewrite app_nil_r; apply split_ws_token; exact E2|]. destruct (Forall_inv (Forall_inv_tail H)) as (k' & w' & F1 & _ & _). cbn [map List.concat]. rewrite F1. cbn [repeat app]. rewrite split_ws_app by reflexivity. rewrite (split_ws_token w E2). cbn [app]. f_equal; symmetry; apply split_ws_blank_cons; reflexivity. }
  rewrite G. destruct IH as [IH1 IH2]. cbn [floats List.length map]. rewrite E3, IH1. cbn [bind]. split; [reflexivity|]. now rewrite IH2.
Qed.
Lemma row_no_nl r : Forall separated r -> ~ In nl (List.concat (map e16 r)).
Proof.
  intros H K. apply in_concat in K. destruct K as (x & K1 & K2). apply in_map_iff in K1. destruct K1 as (v & <- & K1). rewrite Forall_forall in H. destruct (H v K1) as (k & w & E1 & E2 & _). rewrite E1 in K2. apply in_app_or in K2. destruct K2 as [K2|K2]; [exact (nl_blank _ K2)|]. exact (token_not_in nl w E2 eq_refl K2).
Qed.
Lemma row_text_strip r : Forall separated r -> r <> [] -> nonempty (strip (List.concat (map e16 r))) = true.
Proof.
  intros H N. destruct (row_words r H) as (ws & E1 & _ & E3). destruct (strip (List.concat (map e16 r))) eqn:E; [|reflexivity]. rewrite <- split_ws_strip, E in E1. cbn in E1. subst ws. destruct r; [contradiction|discriminate E3].
Qed.
Lemma row_text_ne r : Forall separated r -> r <> [] -> List.concat (map e16 r) <> [].
Proof. intros H N K. pose proof (row_text_strip r H N) as G. rewrite K in G. discriminate G. Qed.

Lemma last_any {A} (a : A) l : forall x y, List.last (a :: l) x = List.last (a :: l) y.
Proof. revert a. induction l as [|b l IH]; intros a x y; [reflexivity|]. exact (IH b x y). Qed.
Lemma header_loop_skip hs : forall i acc last ls, Forall (fun l => contains (lower l) (S_ "ncomp") = false) hs -> i + List.length hs <= 11 ->
  header_loop i acc last (hs ++ ls) = header_loop (i + List.length hs) (acc ++ map strip hs) (List.last hs last) ls.
Proof.
  induction hs as [|h hs IH]; intros i acc last ls H L; cbn [app List.length map]; [cbn [List.last]; now rewrite Nat.add_0_r, app_nil_r|].
  cbn [List.length] in L. cbn [header_loop]. replace (Nat.ltb 10 i) with false by (symmetry; apply Nat.ltb_ge; lia). rewrite (Forall_inv H).
  rewrite (IH (S i) (acc ++ [strip h]) h ls (Forall_inv_tail H)) by lia. rewrite <- app_assoc. cbn [app]. replace (S i + List.length hs) with (i + S (List.length hs)) by lia.
  f_equal. destruct hs as [|a l]; [reflexivity|]. change (List.last (h :: a :: l) last) with (List.last (a :: l) last). apply last_any.
Qed.
Lemma no_keyword_false l : no_keyword l -> contains (lower l) (S_ "ncomp") = false.
Proof. intro H. destruct (contains (lower l) (S_ "ncomp")) eqn:E; [|reflexivity]. apply contains_iff in E. contradiction. Qed.
Lemma header_loop_long hs : forall i acc last ls, Forall (fun l => contains (lower l) (S_ "ncomp") = false) hs -> i <= 11 -> i + List.length hs > 11 -> header_loop i acc last (hs ++ ls) = Err BrokenFormatError.
Proof.
  induction hs as [|h hs IH]; intros i acc last ls H L1 L2; cbn [List.length] in L2; [lia|]. cbn [app header_loop]. destruct (Nat.ltb 10 i) eqn:E; [reflexivity|]. apply Nat.ltb_ge in E. rewrite (Forall_inv H). apply IH; [exact (Forall_inv_tail H)|lia|lia].
Qed.

(** The text of a line value, label, description *)
Definition vld_line (val : Z) (lab descr : str) : str := pad13 (str_of_Z val) ++ [sp] ++ pad13 lab ++ S_ " - " ++ descr.
Lemma pad13_no_nl s : ~ In nl s -> ~ In nl (pad13 s).
Proof. intros H K. unfold pad13 in K. apply in_app_or in K. destruct K as [K|K]; [exact (H K)|exact (nl_blank _ K)]. Qed.
Lemma vld_no_nl val lab descr : ~ In nl lab -> ~ In nl descr -> ~ In nl (vld_line val lab descr).
Proof.
  intros H1 H2 K. unfold vld_line in K. apply in_app_or in K. destruct K as [K|K]; [exact (pad13_no_nl _ (token_not_in nl _ (str_of_Z_token val) eq_refl) K)|].
  apply in_app_or in K. destruct K as [K|K]; [cbn in K; destruct K as [K|[]]; discriminate K|]. apply in_app_or in K. destruct K as [K|K]; [exact (pad13_no_nl _ H1 K)|].
  apply in_app_or in K. destruct K as [K|K]; [cbn in K; repeat (destruct K as [K|K]; [discriminate K|]); destruct K|exact (H2 K)].
Qed.
Lemma vld_int val lab descr : first_int (vld_line val lab descr) = Ok val.
Proof.
  unfold first_int, vld_line, pad13. rewrite <- !app_assoc. set (rest := [sp] ++ _).
  assert (E : exists t, repeat sp (13 - List.length (str_of_Z val)) ++ rest = sp :: t).
  { destruct (13 - List.length (str_of_Z val)); eexists; reflexivity. }
  destruct E as [t E]. rewrite E, split_ws_app by reflexivity. rewrite (split_ws_token _ (str_of_Z_token val)). cbn [app]. apply int_str_of_Z.
Qed.
Lemma vld_eq val lab descr : vld val lab descr = vld_line val lab descr ++ [nl].
Proof. unfold vld, vld_line. rewrite <- !app_assoc. reflexivity. Qed.
Lemma vld_keyword val lab descr : contains (lower lab) (S_ "ncomp") = true -> contains (lower (vld_line val lab descr)) (S_ "ncomp") = true.
Proof.
  intro H. apply contains_iff in H. destruct H as (a & b & H). apply contains_iff. unfold vld_line, pad13, lower in *. rewrite !map_app, H.
  match goal with |- exists x y, ?p ++ ?q ++ ((a ++ ?t ++ b) ++ ?r) ++ ?s = _ => exists (p ++ q ++ a), (b ++ r ++ s) end. now rewrite <- !app_assoc.
Qed.
Lemma center_no_nl s : ~ In nl s -> ~ In nl (center16 s).
Proof. intros H K. unfold center16 in K. apply in_app_or in K. destruct K as [K|K]; [exact (nl_blank _ K)|]. apply in_app_or in K. destruct K as [K|K]; [exact (H K)|exact (nl_blank _ K)]. Qed.
Lemma flat_center_no_nl l : Forall (fun s => ~ In nl s) l -> ~ In nl (flat_map center16 l).
Proof. intros H K. apply in_flat_map in K. destruct K as (x & K1 & K2). rewrite Forall_forall in H. exact (center_no_nl x (H x K1) K2). Qed.

(** The columns: a component is one of u, v, w *)
Lemma mapM_ok {A B} (g : A -> res B) (P : B -> Prop) l : (forall x, In x l -> exists y, g x = Ok y /\ P y) -> exists ys, mapM g l = Ok ys /\ Forall P ys.
Proof.
  induction l as [|x l IH]; intro H; [exists []; split; [reflexivity|constructor]|]. destruct (H x (or_introl eq_refl)) as (y & E & P1). destruct IH as (ys & E2 & P2); [intros z Hz; apply H; right; exact Hz|].
  exists (y :: ys). cbn [mapM]. rewrite E. cbn [bind]. rewrite E2. split; [reflexivity|constructor; assumption].
Qed.
Lemma columns_ok (o : ts V) : (t_ncomp o <= 3)%Z -> exists cs, columns o = Ok cs /\ Forall (fun s => ~ In nl s) cs.
Proof.
  intro H. unfold columns. edestruct (mapM_ok (fun p : nat * nat => c <- comp (fst p) ;; Ok (S_ "Point" ++ str_of_N (N.of_nat (S (snd p))) ++ c)) (fun s => ~ In nl s)) as (cs & E & P);
    [|rewrite E; cbn [bind]; eexists; split; [reflexivity|constructor; [cbn; intro K; repeat (destruct K as [K|K]; [discriminate K|]); destruct K|exact P]]].
  intros [ic ip] K. apply in_prod_iff in K. destruct K as [K _]. apply in_seq in K. cbn [fst snd].
  assert (L : ic < 3) by lia.
  assert (C : exists c, comp ic = Ok [c] /\ c <> nl).
  { destruct ic as [|[|[|ic]]]; [..|lia]; eexists; (split; [reflexivity|discriminate]). }
  destruct C as (c & E & NC). rewrite E. cbn [bind]. eexists. split; [reflexivity|]. intro K1. apply in_app_or in K1. destruct K1 as [K1|K1]; [cbn in K1; repeat (destruct K1 as [K1|K1]; [discriminate K1|]); destruct K1|].
  apply in_app_or in K1. destruct K1 as [K1|[K1|[]]]; [|contradiction]. pose proof (str_of_Z_token (Z.of_nat (S ip))) as T. apply (token_not_in nl _ T eq_refl). cbn [Z.of_nat str_of_Z]. exact K1.
Qed.
Lemma units_no_nl (o : ts V) : Forall (fun s => ~ In nl s) (units o).
Proof.
  unfold units. constructor; [cbn; intro K; repeat (destruct K as [K|K]; [discriminate K|]); destruct K|]. apply Forall_forall. intros x Hx. apply repeat_spec in Hx. subst x. cbn. intro K; repeat (destruct K as [K|K]; [discriminate K|]); destruct K.
Qed.

Lemma read_points_ok ps rest : Forall (fun r => List.length r = 2 /\ Forall separated r) ps ->
  read_points num (List.length ps) (map (fun r => List.concat (map e16 r)) ps ++ rest) = Ok (map (map rnd) ps, rest).
Proof.
  intro H. induction H as [|r ps [L S1] H2 IH]; [reflexivity|]. cbn [List.length map app read_points readline].
  destruct (row_words r S1) as (ws & E1 & E2 & E3). unfold point_row. rewrite E1, E2. cbn [bind].
  destruct r as [|x [|y [|z r]]]; try discriminate L. cbn [map bind]. rewrite IH. reflexivity.
Qed.
Lemma takewhile_ok ls : Forall (fun l => nonempty (strip l) = true) ls -> takewhile_text ls = ls.
Proof. intro H. induction H as [|l ls H1 H2 IH]; [reflexivity|]. cbn. rewrite H1, IH. reflexivity. Qed.
Lemma rows_ok d : Forall (fun r => Forall separated r) d -> rows num (map (fun r => List.concat (map e16 r)) d) = Ok (map (map rnd) d).
Proof. intro H. induction H as [|r d H1 H2 IH]; [reflexivity|]. cbn [map rows]. destruct (row_words r H1) as (ws & E1 & E2 & E3). rewrite E1, E2. cbn [bind]. rewrite IH. reflexivity. Qed.
Lemma matrix_ok n d : Forall (fun r => List.length r = n /\ Forall separated r) d -> matrix num (map (fun r => List.concat (map e16 r)) d) = Ok (map (map rnd) d).
Proof.
  intro H. destruct d as [|r0 d]; [reflexivity|]. cbn [map matrix].
  assert (L : forall r, List.length r = n /\ Forall separated r -> List.length (split_ws (List.concat (map e16 r))) = n).
  { intros r [L S1]. destruct (row_words r S1) as (ws & E1 & _ & E3). rewrite E1. congruence. }
  replace (forallb _ _) with true.
  - apply (rows_ok (r0 :: d)). eapply Forall_impl; [|exact H]. intros a K. apply K.
  - symmetry. apply forallb_forall. intros x Hx. apply in_map_iff in Hx. destruct Hx as (r & <- & Hr). apply Nat.eqb_eq. rewrite Forall_forall in H. rewrite (L r (H r (or_intror Hr))), (L r0 (H r0 (or_introl eq_refl))). reflexivity.
Qed.

(** The lines of the text that is written, when the header has at least one line *)
Definition fixed_lines (o : ts V) (cs : list str) : list str :=
  [vld_line (t_ncomp o) (S_ "nComp") (S_ "Number of velocity components in the file");
   vld_line (Z.of_nat (List.length (t_points o))) (S_ "nPoints") (S_ "Number of time series points contained in this file(-)");
   vld_line (t_id o) (S_ "RefPtID") (S_ "Index of the reference point (1-nPoints)");
   center16 (S_ "Pointyi") ++ center16 (S_ "Pointzi") ++ [sp] ++ S_ "! nPoints listed in order of increasing height";
   center16 (S_ "(m)") ++ center16 (S_ "(m)")].
Definition table_lines (o : ts V) (cs : list str) : list str :=
  [S_ "--------Time Series-------------------------------------------------------------"; flat_map center16 cs; flat_map center16 (units o)].
Lemma flat_points ps : flat_map (point_line e16) ps = flat_map (fun l => l ++ [nl]) (map (fun r => List.concat (map e16 r)) ps).
Proof. induction ps as [|p ps IH]; [reflexivity|]. cbn [flat_map map]. rewrite IH. reflexivity. Qed.
Lemma toString_flat (o : ts V) cs : columns o = Ok cs -> t_header o <> [] ->
  toString e16 o = Ok (flat_map (fun l => l ++ [nl]) (t_header o ++ fixed_lines o cs ++ map (fun r => List.concat (map e16 r)) (t_points o) ++ table_lines o cs) ++ join [nl] (map (fun r => List.concat (map e16 r)) (t_data o))).
Proof.
  intros E H. unfold toString. rewrite E. cbn [bind]. f_equal. rewrite !vld_eq, flat_points. rewrite (app_assoc (join [nl] (t_header o))), (join_tail _ H). rewrite !flat_map_app. unfold fixed_lines, table_lines.
  cbn [flat_map]. rewrite <- !app_assoc. cbn [app]. reflexivity.
Qed.
Lemma lit_no_nl (s : str) : mem_chr nl s = false -> ~ In nl s.
Proof. intros H K. apply mem_chr_iff in K. congruence. Qed.

Record writable (o : ts V) : Prop := {
  w_ncomp : (t_ncomp o <= 3)%Z;
  w_lines : Forall header_line (t_header o);
  w_points : Forall (fun r => List.length r = 2 /\ Forall separated r) (t_points o);
  w_data : exists n, Forall (fun r => List.length r = S n /\ Forall separated r) (t_data o) }.

Lemma written_lines o cs : writable o -> columns o = Ok cs -> Forall (fun s => ~ In nl s) cs -> t_header o <> [] ->
  exists text, toString e16 o = Ok text /\
    file_lines text = t_header o ++ fixed_lines o cs ++ map (fun r => List.concat (map e16 r)) (t_points o) ++ table_lines o cs ++ map (fun r => List.concat (map e16 r)) (t_data o).
Proof.
  intros W E C N. eexists. split; [apply toString_flat; [exact E|exact N]|]. destruct (w_data o W) as [n D].
  rewrite file_lines_flat.
  - rewrite file_lines_join; [now rewrite <- !app_assoc|]. apply Forall_forall. intros x Hx. apply in_map_iff in Hx. destruct Hx as (r & <- & Hr). rewrite Forall_forall in D. destruct (D r Hr) as [L S1]. split; [apply row_text_ne; [exact S1|intros ->; discriminate L]|apply row_no_nl; exact S1].
  - apply Forall_app. split; [eapply Forall_impl; [|exact (w_lines o W)]; intros a K; apply K|]. apply Forall_app. split; [|apply Forall_app; split].
    + unfold fixed_lines. repeat (apply Forall_cons; [try (apply vld_no_nl); apply lit_no_nl; reflexivity|]). apply Forall_nil.
    + apply Forall_forall. intros x Hx. apply in_map_iff in Hx. destruct Hx as (r & <- & Hr). pose proof (w_points o W) as P. rewrite Forall_forall in P. apply row_no_nl, (P r Hr).
    + unfold table_lines. apply Forall_cons; [apply lit_no_nl; reflexivity|]. apply Forall_cons; [apply flat_center_no_nl; exact C|]. apply Forall_cons; [apply flat_center_no_nl, units_no_nl|apply Forall_nil].
Qed.

(** ** C49: a file that is written is read back.  The header has between one and ten lines. *)
Theorem C49_round_trip_partial : forall o, writable o -> 1 <= List.length (t_header o) <= 10 ->
  exists text, toString e16 o = Ok text /\ ts_read num text = Ok (rounded o).
Proof.
  intros o W [N1 N2]. destruct (columns_ok o (w_ncomp o W)) as (cs & E & C).
  assert (N : t_header o <> []) by (intro K; rewrite K in N1; cbn in N1; lia).
  destruct (written_lines o cs W E C N) as (text & T & L). exists text. split; [exact T|].
  unfold ts_read. rewrite L. rewrite header_loop_skip; [| eapply Forall_impl; [|exact (w_lines o W)]; intros a K; apply no_keyword_false, K |cbn; lia].
  cbn [Nat.add fixed_lines app header_loop]. replace (Nat.ltb 10 (List.length (t_header o))) with false by (symmetry; apply Nat.ltb_ge; lia).
  rewrite (vld_keyword _ (S_ "nComp") _ eq_refl). cbn [bind]. rewrite vld_int. cbn [bind readline]. rewrite vld_int. cbn [bind readline]. rewrite vld_int. cbn [bind readline snd].
  replace (Z.of_nat (List.length (t_points o)) <? 0)%Z with false by (symmetry; apply Z.ltb_ge; lia). rewrite Nat2Z.id.
  rewrite read_points_ok by exact (w_points o W). cbn [bind table_lines app readline snd]. destruct (w_data o W) as [n D].
  rewrite takewhile_ok.
  - rewrite (matrix_ok (S n)) by exact D. cbn [bind]. unfold rounded. f_equal. f_equal. clear - W. pose proof (w_lines o W) as H. induction H as [|h hs H1 H2 IH]; [reflexivity|]. cbn [map]. rewrite IH. f_equal. apply H1.
  - apply Forall_forall. intros x Hx. apply in_map_iff in Hx. destruct Hx as (r & <- & Hr). rewrite Forall_forall in D. destruct (D r Hr) as [L1 S1]. apply row_text_strip; [exact S1|intros ->; discriminate L1].
Qed.
(** With more than ten lines of header, the text that is written is refused *)
Theorem C49_long_header_unreadable : forall o, writable o -> List.length (t_header o) > 10 ->
  exists text, toString e16 o = Ok text /\ ts_read num text = Err BrokenFormatError.
Proof.
  intros o W L0. destruct (columns_ok o (w_ncomp o W)) as (cs & E & C).
  assert (N : t_header o <> []) by (intro K; rewrite K in L0; cbn in L0; lia).
  destruct (written_lines o cs W E C N) as (text & T & L). exists text. split; [exact T|].
  unfold ts_read. rewrite L.
  assert (F : Forall (fun l => contains (lower l) (S_ "ncomp") = false) (t_header o)) by (eapply Forall_impl; [|exact (w_lines o W)]; intros a K; apply no_keyword_false, K).
  destruct (Nat.eq_dec (List.length (t_header o)) 11) as [G|G].
  - rewrite header_loop_skip by (try exact F; cbn; lia). rewrite G. reflexivity.
  - rewrite header_loop_long by (try exact F; lia). reflexivity.
Qed.
(** Without header an empty line is written first: the file is read back with one empty line of header *)
Theorem C49_empty_header_gains_line : forall o, writable o -> t_header o = [] ->
  exists text, toString e16 o = Ok text /\ ts_read num text = Ok (mk_ts [[]] (t_ncomp o) (t_id o) (map (map rnd) (t_points o)) (map (map rnd) (t_data o))).
Proof.
  intros o W H. set (o' := mk_ts [[]] (t_ncomp o) (t_id o) (t_points o) (t_data o)).
  assert (W' : writable o').
  { constructor; [exact (w_ncomp o W)| |exact (w_points o W)|exact (w_data o W)]. repeat constructor; [intros []|]. intros (a & b & K). apply (f_equal (@List.length _)) in K. rewrite !app_length in K. cbn in K. lia. }
  destruct (C49_round_trip_partial o' W') as (text & T & R); [cbn; lia|]. exists text. split; [|exact R]. rewrite <- T. unfold toString, columns. cbn [o' t_ncomp t_points t_header t_id t_data]. rewrite H. reflexivity.
Qed.
(** The object written after a reading of its own file gives the same text, when the text of a number is that of the number
    that is read from it *)
Theorem C49_text_stable : forall o, (forall v, e16 (rnd v) = e16 v) -> toString e16 (rounded o) = toString e16 o.
Proof.
  intros o H.
  assert (L : List.length (t_points (rounded o)) = List.length (t_points o)) by (cbn; now rewrite map_length).
  assert (C : forall d, map (fun r => List.concat (map e16 r)) (map (map rnd) d) = map (fun r => List.concat (map e16 r)) d).
  { intro d. rewrite map_map. apply map_ext. intro r. rewrite map_map. f_equal. apply map_ext. exact H. }
  unfold toString. replace (columns (rounded o)) with (columns o) by (unfold columns; now rewrite L). rewrite L.
  replace (units (rounded o)) with (units o) by (unfold units; now rewrite L). rewrite !flat_points. cbn [rounded t_points t_data t_header t_ncomp t_id]. rewrite !C. reflexivity.
Qed.
(** Through a file: the other files are not touched *)
Theorem C49_file_round_trip_partial : forall f p o, f p <> Dir -> writable o -> 1 <= List.length (t_header o) <= 10 ->
  exists f' text, ts_write e16 f p o = (f', Ok tt) /\ f' p = Reg (map N_of_ascii text) /\ (forall q, q <> p -> f' q = f q) /\ ts_read num text = Ok (rounded o).
Proof.
  intros f p o D W L. destruct (C49_round_trip_partial o W L) as (text & T & R). destruct (write_file_ok f p [map N_of_ascii text] D) as (f' & E1 & E2 & E3).
  exists f', text. unfold ts_write. rewrite T. cbn [map] in E1. rewrite E1. cbn [List.concat] in E2. rewrite app_nil_r in E2. repeat split; assumption.
Qed.
End S.

(** ** Examples *)
Section Ex.
(** Numbers as texts: the format pads to 16 characters on the left *)
Let fmt (v : str) : str := repeat sp (16 - List.length v) ++ v.
Definition ex_ts : ts str := mk_ts [S_ "--- Wind ---"; S_ "made by hand"] 2 1
  [[S_ "0.00000000e+00"; S_ "9.00000000e+01"]; [S_ "1.50000000e+01"; S_ "9.00000000e+01"]]
  [[S_ "0.00000000e+00"; S_ "1.10000000e+01"; S_ "1.20000000e+01"; S_ "0.10000000e+00"; S_ "0.20000000e+00"];
   [S_ "5.00000000e-01"; S_ "1.11000000e+01"; S_ "1.21000000e+01"; S_ "0.30000000e+00"; S_ "0.40000000e+00"]].
Example C49_example : writable (fun w => Some w) fmt (fun v => v) ex_ts /\
  exists text, toString fmt ex_ts = Ok text /\ ts_read (fun w => Some w) text = Ok ex_ts.
Proof.
  split.
  - constructor.
    + cbn. lia.
    + repeat (apply Forall_cons; [split; [reflexivity|split; [apply lit_no_nl; reflexivity|]]; intro K; apply contains_iff in K; vm_compute in K; discriminate K|]). apply Forall_nil.
    + repeat (apply Forall_cons; [split; [reflexivity|repeat (apply Forall_cons; [eexists 1, _; split; [reflexivity|split; reflexivity]|]); apply Forall_nil]|]). apply Forall_nil.
    + exists 4. repeat (apply Forall_cons; [split; [reflexivity|repeat (apply Forall_cons; [eexists 1, _; split; [reflexivity|split; reflexivity]|]); apply Forall_nil]|]). apply Forall_nil.
  - eexists. split; [vm_compute; reflexivity|vm_compute; reflexivity].
Qed.
(** A negative number with an exponent of three digits fills the 16 characters: it is glued to the number before it *)
Definition glued_ts : ts str := mk_ts [S_ "h"] 1 1 [[S_ "0.00000000e+00"; S_ "9.00000000e+01"]] [[S_ "0.00000000e+00"; S_ "-1.00000000e-120"]].
Definition python_like (w : str) : option str := if Nat.leb (List.length (split_chr (ch 46) w)) 2 then Some w else None.
Theorem C49_round_trip_refuted : forallb (fun r => forallb (fun v => match python_like v with Some _ => true | None => false end) r) (t_data glued_ts) = true /\
  exists text, toString fmt glued_ts = Ok text /\ ts_read python_like text = Err ValueError.
Proof. split; [reflexivity|]. eexists. split; vm_compute; reflexivity. Qed.
End Ex.

(** ** C74: the labels of the table of the time series.  They do not depend on the labels of the file: the files of TurbSim list
    the three components of a point before those of the next point, the table names all the u first. *)
Theorem C74_labels_by_component : forall V (o : ts V) cs, columns o = Ok cs -> forall ic ip, ic < Z.to_nat (t_ncomp o) -> ip < List.length (t_points o) ->
  exists c, nth_error [S_ "u"; S_ "v"; S_ "w"] ic = Some c /\ nth_error cs (1 + ic * List.length (t_points o) + ip) = Some (S_ "Point" ++ str_of_N (N.of_nat (1 + ip)) ++ c).
Proof.
  intros V o cs H ic ip H1 H2. unfold columns in H. set (np := List.length (t_points o)) in *. set (nc := Z.to_nat (t_ncomp o)) in *.
  set (g := fun p : nat * nat => c <- comp (fst p) ;; Ok (S_ "Point" ++ str_of_N (N.of_nat (S (snd p))) ++ c)) in H.
  assert (M : forall l ys, mapM g l = Ok ys -> forall k x, nth_error l k = Some x -> exists y, nth_error ys k = Some y /\ g x = Ok y).
  { induction l as [|x l IH]; intros ys E k z K; [destruct k; discriminate K|]. cbn [mapM] in E. destruct (g x) as [y|] eqn:G; [|discriminate E]. cbn [bind] in E. destruct (mapM g l) as [ys'|]; [|discriminate E]. cbn [bind] in E. apply Ok_inj in E. subst ys. destruct k; cbn in K |- *; [injection K as <-; exists y; split; [reflexivity|exact G]|]. apply (IH ys' eq_refl k z K). }
  destruct (mapM g _) as [ys|] eqn:E; [|discriminate H]. cbn [bind] in H. apply Ok_inj in H. subst cs.
  assert (N : nth_error (list_prod (seq 0 nc) (seq 0 np)) (ic * np + ip) = Some (ic, ip)).
  { clear - H1 H2. change (nth_error (list_prod (seq 0 nc) (seq 0 np)) (ic * np + ip) = Some (0 + ic, ip)). generalize 0 at 1 3 as a. revert ic H1. induction nc as [|n IH]; intros ic H1 a; [lia|]. cbn [seq list_prod]. destruct ic as [|ic].
    - rewrite nth_error_app1 by (rewrite map_length, seq_length; cbn; lia). cbn [Nat.mul Nat.add]. rewrite nth_error_map. rewrite (nth_error_nth' _ 0) by (rewrite seq_length; lia). rewrite seq_nth by lia. rewrite Nat.add_0_r. reflexivity.
    - rewrite nth_error_app2 by (rewrite map_length, seq_length; cbn; lia). rewrite map_length, seq_length. replace (S ic * np + ip - np) with (ic * np + ip) by (cbn; lia). rewrite (IH ic ltac:(lia) (S a)). f_equal. f_equal. lia. }
  destruct (M _ _ E _ _ N) as (y & Y1 & Y2). unfold g in Y2. cbn [fst snd] in Y2. unfold comp in Y2. destruct (nth_error [S_ "u"; S_ "v"; S_ "w"] ic) as [c|] eqn:K; [|discriminate Y2]. cbn [bind] in Y2. apply Ok_inj in Y2. subst y.
  exists c. split; [reflexivity|]. exact Y1.
Qed.
(** The first line of names in a file where the points come first *)
Definition point_major : str := join [nl] [S_ "Wind"; S_ "2 nComp"; S_ "2 nPoints"; S_ "1 RefPtID"; S_ "Pointyi Pointzi"; S_ "(m) (m)"; S_ "0 90"; S_ "15 90"; S_ "--------"; S_ "Time Point01u Point01v Point02u Point02v"; S_ "(s) (m/s) (m/s) (m/s) (m/s)"; S_ "0.0 11.0 0.1 12.0 0.2"].
Theorem C74_labels_of_the_file_refuted : exists o, ts_read (fun w => Some w) point_major = Ok o /\
  exists labels, series_table o = Ok (labels, [[S_ "0.0"; S_ "11.0"; S_ "0.1"; S_ "12.0"; S_ "0.2"]]) /\
  labels = [S_ "Time_[s]"; S_ "Point1u_[m/s]"; S_ "Point2u_[m/s]"; S_ "Point1v_[m/s]"; S_ "Point2v_[m/s]"].
Proof. eexists. split; [vm_compute; reflexivity|]. eexists. split; vm_compute; reflexivity. Qed.
(** With one point the two orders agree: the labels are those of the components *)
Theorem C74_one_point_partial : forall V (o : ts V), (0 <= t_ncomp o <= 3)%Z -> List.length (t_points o) = 1 ->
  columns o = Ok (S_ "Time" :: firstn (Z.to_nat (t_ncomp o)) [S_ "Point1u"; S_ "Point1v"; S_ "Point1w"]).
Proof. intros V o H L. unfold columns. rewrite L. assert (K : t_ncomp o = 0%Z \/ t_ncomp o = 1%Z \/ t_ncomp o = 2%Z \/ t_ncomp o = 3%Z) by lia. destruct K as [K|[K|[K|K]]]; rewrite K; reflexivity. Qed.

(** The table contains the rows of the file, and there is a label for time and one for each component of each point; a file
    whose rows have another number of columns is refused. *)
Theorem C74_table_rows : forall V (o : ts V), (0 <= t_ncomp o <= 3)%Z ->
  let n := 1 + List.length (t_points o) * Z.to_nat (t_ncomp o) in
  (forall labels rows, series_table o = Ok (labels, rows) -> rows = t_data o /\ List.length labels = n) /\
  (forall r rest, t_data o = r :: rest -> List.length r <> n -> series_table o = Err ValueError) /\
  (Forall (fun r => List.length r = n) (t_data o) -> exists labels, series_table o = Ok (labels, t_data o)).
Proof.
  intros V o H n.
  assert (C : exists cs, columns o = Ok cs /\ List.length cs = n).
  { unfold columns. match goal with |- context [mapM ?g ?l] => assert (M : forall l', (forall p, In p l' -> fst p < 3) -> exists ys, mapM g l' = Ok ys /\ List.length ys = List.length l') end.
    { induction l' as [|q l' IH]; intro B; [exists []; split; reflexivity|]. destruct (IH (fun p I => B p (or_intror I))) as (ys & E & L). cbn [mapM]. rewrite E. pose proof (B q (or_introl eq_refl)) as B1. unfold comp. destruct (nth_error [S_ "u"; S_ "v"; S_ "w"] (fst q)) as [c|] eqn:N; [|apply nth_error_None in N; cbn in N; lia]. cbn [bind]. eexists. split; [reflexivity|]. cbn [List.length]. congruence. }
    destruct (M (list_prod (seq 0 (Z.to_nat (t_ncomp o))) (seq 0 (List.length (t_points o))))) as (ys & -> & L).
    { intros [a b] I. apply in_prod_iff in I. destruct I as [I _]. apply in_seq in I. cbn [fst]. lia. }
    cbn [bind]. eexists. split; [reflexivity|]. cbn [List.length]. rewrite L, prod_length, !seq_length. unfold n. lia. }
  destruct C as (cs & E & L). unfold series_table. rewrite E. cbn [bind].
  match goal with |- context [map ?g ?l] => assert (LL : List.length (map g l) = n) by (rewrite map_length, combine_length, L; unfold units; cbn [List.length]; rewrite repeat_length; unfold n; lia); set (labels := map g l) in * end.
  split; [|split].
  - intros lb rows Q. destruct (t_data o) as [|r rest]; [apply Ok_inj in Q; apply pair_equal_spec in Q; destruct Q as [<- <-]; auto|]. destruct (Nat.eqb _ _); [|discriminate Q]. apply Ok_inj in Q. apply pair_equal_spec in Q. destruct Q as [<- <-]. auto.
  - intros r rest -> N. destruct (Nat.eqb_spec (List.length r) (List.length labels)); [lia|reflexivity].
  - intro F. exists labels. destruct F as [|r rest F1 F2]; [reflexivity|]. rewrite LL. cbn beta in F1. rewrite F1, Nat.eqb_refl. reflexivity.
Qed.

Print Assumptions C74_table_rows.
Print Assumptions C49_round_trip_partial.
Print Assumptions C49_long_header_unreadable.
Print Assumptions C49_empty_header_gains_line.
Print Assumptions C49_text_stable.
Print Assumptions C49_file_round_trip_partial.
Print Assumptions C49_round_trip_refuted.
Print Assumptions C74_labels_by_component.
Print Assumptions C74_labels_of_the_file_refuted.
Print Assumptions C74_one_point_partial.
