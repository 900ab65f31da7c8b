(** Theorems about weio/flex_profile_file.py (C48, C75, C76). *)
From Verif Require Import Py PyFacts TextFacts FS TurbSim_Model TurbSim_Proofs TS_Model TS_Props Profile_Model.
From Coq Require Import Lia.
Local Open Scope nat_scope.

(** ** Integers in texts *)
Lemma uint_chars s : forall d, uint_of_str s = Some d -> forallb is_digit s = true.
Proof.
  induction s as [|c s IH]; intros d H; [reflexivity|]. cbn [uint_of_str] in H. cbn [forallb]. rewrite andb_true_iff.
  destruct (uint_of_str s) as [d'|] eqn:E.
  - split; [|exact (IH d' eq_refl)]. unfold is_digit. clear - H. destruct c as [[] [] [] [] [] [] [] []]; (reflexivity || discriminate H).
  - discriminate H.
Qed.
(** A text with a character that is neither a digit, a sign nor a blank is not an integer *)
Lemma int_chars s z : int_ s = Ok z -> forall c, In c (strip s) -> is_digit c = true \/ c = ch 45 \/ c = ch 43.
Proof.
  assert (G : forall t n, N_of_str t = Some n -> forall c, In c t -> is_digit c = true).
  { intros t n H c Hc. unfold N_of_str in H. destruct t as [|x t]; [discriminate H|]. destruct (uint_of_str (x :: t)) eqn:E; [|discriminate H]. apply uint_chars in E. rewrite forallb_forall in E. exact (E c Hc). }
  unfold int_. destruct (strip s) as [|c t] eqn:E; [discriminate|]. intros H x Hx.
  destruct (chr_eqb c (ch 45)) eqn:E1.
  - apply chr_eqb_eq in E1. destruct (N_of_str t) eqn:E2; [|discriminate H]. destruct Hx as [<-|Hx]; [right; left; exact E1|left; exact (G _ _ E2 x Hx)].
  - destruct (chr_eqb c (ch 43)) eqn:E3.
    + apply chr_eqb_eq in E3. destruct (N_of_str t) eqn:E2; [|discriminate H]. destruct Hx as [<-|Hx]; [right; right; exact E3|left; exact (G _ _ E2 x Hx)].
    + destruct (N_of_str (c :: t)) eqn:E2; [|discriminate H]. left. exact (G _ _ E2 x Hx).
Qed.
Lemma in_lstrip s : forall c, is_space c = false -> In c s -> In c (lstrip s).
Proof. induction s as [|x s IH]; intros c H K; [destruct K|]. cbn [lstrip]. destruct (is_space x) eqn:E; [|exact K]. destruct K as [->|K]; [congruence|exact (IH c H K)]. Qed.
Lemma in_strip s c : is_space c = false -> In c s -> In c (strip s).
Proof.
  intros H K. unfold strip. assert (R : forall t, In c t -> In c (rstrip t)).
  { intros t T. destruct (rstrip_decomp t) as (b & B2 & B1). rewrite B1 in T. apply in_app_or in T. destruct T as [T|T]; [exact T|]. rewrite forallb_forall in B2. specialize (B2 c T). congruence. }
  apply R. apply in_lstrip; assumption.
Qed.

(** ** Specification *)
Section S.
Context {V : Type}.
Variable num : str -> option V.
Variable sfl : V -> str.
Variable e15 : V -> str.

(** The words of a line are these numbers *)
Definition numbers (l : str) (vs : list V) : Prop := Forall2 (fun w v => num w = Some v) (split_ws l) vs.
(** The lines of one polar: its title, then one line for each row *)
Definition polar_lines (row : str -> list V -> Prop) (h : str) (p : list (list V)) (ls : list str) : Prop :=
  exists l0 rest, ls = l0 :: rest /\ strip l0 = h /\ Forall2 row rest p.
(** A line may begin with the words PROFILE SET, in any case; they are not part of the title *)
Definition set_title (l0 h : str) : Prop :=
  (exists k, strip l0 = k ++ h /\ lower k = S_ "profile set") \/ (strip l0 = h /\ ~ exists k t, strip l0 = k ++ t /\ lower k = S_ "profile set").
(** The lines of one set: title, number of thicknesses, thicknesses, number of angles, polars *)
Definition set_lines (row : str -> list V -> Prop) (s : pset V) (ls : list str) : Prop :=
  exists l0 l1 l2 l3 nAlpha blocks, ls = l0 :: l1 :: l2 :: l3 :: List.concat blocks /\
    set_title l0 (p_header s) /\
    int_ l1 = Ok (Z.of_nat (List.length (p_thick s))) /\ numbers l2 (p_thick s) /\ int_ l3 = Ok (Z.of_nat nAlpha) /\
    List.length (p_heads s) = List.length (p_thick s) /\ List.length (p_polars s) = List.length (p_thick s) /\
    Forall2 (fun hp b => polar_lines row (fst hp) (snd hp) b /\ List.length (snd hp) = nAlpha) (combine (p_heads s) (p_polars s)) blocks.
(** A row is a line of four numbers *)
Definition four (l : str) (vs : list V) : Prop := numbers l vs /\ List.length vs = 4.
(** A row that is accepted: four numbers, or one number that is used four times *)
Definition four_or_one (l : str) (vs : list V) : Prop := four l vs \/ exists v, numbers l [v] /\ vs = [v; v; v; v].

Lemma floats_iff ws vs : floats num ws = Ok vs <-> Forall2 (fun w v => num w = Some v) ws vs.
Proof.
  revert vs. induction ws as [|w ws IH]; intro vs; cbn [floats].
  - split; [intro H; apply Ok_inj in H; subst; constructor|intro H; inversion H; reflexivity].
  - destruct (num w) as [v|] eqn:E; [|split; [discriminate|intro H; inversion H; congruence]]. destruct (floats num ws) as [us|] eqn:F; cbn [bind].
    + split; [intro H; apply Ok_inj in H; subst vs; constructor; [exact E|apply IH; reflexivity]|]. intro H. inversion H as [|a b c d H1 H2]; subst. apply IH in H2. apply Ok_inj in H2. subst. congruence.
    + split; [discriminate|]. intro H. inversion H as [|a b c d H1 H2]; subst. apply IH in H2. discriminate H2.
Qed.
Lemma polar_row_iff l vs : polar_row num l = Ok vs <-> four_or_one l vs.
Proof.
  unfold polar_row, floats_or, four_or_one, four, numbers. split.
  - destruct (floats num (split_ws l)) as [us|] eqn:E; [|discriminate]. apply floats_iff in E. destruct us as [|a [|b [|c [|d [|e us]]]]]; try discriminate; intro H; apply Ok_inj in H; subst vs.
    + right. exists a. split; [exact E|reflexivity].
    + left. split; [exact E|reflexivity].
  - intros [[H L]|(v & H & ->)]; apply floats_iff in H; rewrite H; [|reflexivity]. destruct vs as [|a [|b [|c [|d [|e us]]]]]; try discriminate L. reflexivity.
Qed.
Lemma lower_app a b : lower (a ++ b) = lower a ++ lower b.
Proof. apply map_app. Qed.
Lemma keyword_iff s : startswith (lower s) (S_ "profile set") = true <-> exists k t, s = k ++ t /\ lower k = S_ "profile set".
Proof.
  rewrite startswith_iff. split.
  - intros [b E]. exists (firstn 11 s), (skipn 11 s). split; [symmetry; apply firstn_skipn|]. unfold lower in *. rewrite <- firstn_map, E. reflexivity.
  - intros (k & t & -> & E). rewrite lower_app, E. eexists. reflexivity.
Qed.
Lemma cut_keyword_iff l0 h : cut_keyword (strip l0) = h <-> set_title l0 h.
Proof.
  unfold cut_keyword, set_title. destruct (startswith (lower (strip l0)) (S_ "profile set")) eqn:E.
  - pose proof (proj1 (keyword_iff _) E) as (k & t & K1 & K2).
    assert (L : forall a, lower a = S_ "profile set" -> List.length a = 11) by (intros a A; unfold lower in A; apply (f_equal (@List.length _)) in A; rewrite map_length in A; exact A).
    split.
    + intros <-. left. exists k. split; [|exact K2]. rewrite K1. f_equal. rewrite <- (L k K2), skipn_app, skipn_all, Nat.sub_diag. reflexivity.
    + intros [(k' & A & B)|[_ N]]; [|exfalso; apply N; exists k, t; split; assumption]. rewrite A, <- (L k' B), skipn_app, skipn_all, Nat.sub_diag. reflexivity.
  - assert (N : ~ exists k t, strip l0 = k ++ t /\ lower k = S_ "profile set") by (intro K; apply keyword_iff in K; congruence). split.
    + intros <-. right. split; [reflexivity|exact N].
    + intros [(k & A & B)|[A _]]; [exfalso; apply N; exists k, h; split; assumption|exact A].
Qed.
Lemma int_strip l : int_ (strip l) = int_ l.
Proof. unfold int_. rewrite strip_idem. reflexivity. Qed.

Lemma polar_rows_sound n : forall ls xs r, polar_rows num n ls = Ok (xs, r) -> exists rest, ls = rest ++ r /\ Forall2 four_or_one rest xs /\ List.length xs = n.
Proof.
  induction n as [|n IH]; intros ls xs r H; cbn [polar_rows] in H.
  - apply Ok_inj in H. apply pair_equal_spec in H. destruct H as [<- <-]. exists []. repeat split. constructor.
  - destruct ls as [|l ls]; cbn [readline] in H; [cbn in H; discriminate H|]. destruct (polar_row num l) as [x|] eqn:E; [|discriminate H]. cbn [bind] in H. destruct (polar_rows num n ls) as [[ys r']|] eqn:F; [|discriminate H]. cbn [bind] in H. apply Ok_inj in H. apply pair_equal_spec in H. destruct H as [<- <-].
    destruct (IH _ _ _ F) as (rest & -> & H1 & H2). exists (l :: rest). split; [reflexivity|]. split; [constructor; [apply polar_row_iff; exact E|exact H1]|cbn; now rewrite H2].
Qed.
Lemma polar_rows_complete rest xs r : Forall2 four_or_one rest xs -> polar_rows num (List.length xs) (rest ++ r) = Ok (xs, r).
Proof. intro H. induction H as [|l x rest xs H1 H2 IH]; [reflexivity|]. cbn [List.length app polar_rows readline]. apply polar_row_iff in H1. rewrite H1. cbn [bind]. rewrite IH. reflexivity. Qed.

Lemma read_polars_complete nAlpha hps blocks r : Forall2 (fun hp b => polar_lines four_or_one (fst hp) (snd hp) b /\ List.length (snd hp) = nAlpha) hps blocks ->
  read_polars num (Z.of_nat nAlpha) (List.length hps) (List.concat blocks ++ r) = Ok (map snd hps, map fst hps, r).
Proof.
  intro H. induction H as [|[h p] b hps blocks [(l0 & rest & -> & A & B) L] H2 IH]; [reflexivity|]. cbn [List.length List.concat map fst snd app read_polars readline] in *.
  replace (Z.of_nat nAlpha <? 0)%Z with false by (symmetry; apply Z.ltb_ge; lia). rewrite Nat2Z.id, <- app_assoc. rewrite <- L at 1. rewrite (polar_rows_complete _ _ _ B). cbn [bind]. rewrite IH. cbn [bind]. rewrite A. reflexivity.
Qed.
Lemma read_polars_sound nAlpha n : forall ls ps hs r, read_polars num nAlpha n ls = Ok (ps, hs, r) -> n <> 0 -> Forall (fun p => p <> []) ps ->
  exists blocks, ls = List.concat blocks ++ r /\ List.length ps = n /\ List.length hs = n /\ (0 <= nAlpha)%Z /\
    Forall2 (fun hp b => polar_lines four_or_one (fst hp) (snd hp) b /\ List.length (snd hp) = Z.to_nat nAlpha) (combine hs ps) blocks.
Proof.
  induction n as [|n IH]; intros ls ps hs r H N0 NE; [contradiction|]. cbn [read_polars] in H.
  destruct (readline ls) as [h ls1] eqn:RL. destruct (nAlpha <? 0)%Z eqn:NA; [discriminate H|]. apply Z.ltb_ge in NA.
  destruct (polar_rows num (Z.to_nat nAlpha) ls1) as [[p r1]|] eqn:E; [|discriminate H]. cbn [bind] in H.
  destruct (read_polars num nAlpha n r1) as [[[ps' hs'] r2]|] eqn:F; [|discriminate H]. cbn [bind] in H. apply Ok_inj in H. apply pair_equal_spec in H. destruct H as [H <-]. apply pair_equal_spec in H. destruct H as [<- <-].
  apply Forall_cons_iff in NE. destruct NE as [NE1 NE2].
  destruct (polar_rows_sound _ _ _ _ E) as (rest & R1 & R2 & R3).
  assert (LS : ls = h :: ls1).
  { destruct ls as [|l ls]; cbn [readline] in RL; injection RL as <- <-; [|reflexivity]. exfalso. destruct rest; [|discriminate R1]. inversion R2; subst; contradiction. }
  assert (PB : polar_lines four_or_one (strip h) p (h :: rest)) by (exists h, rest; repeat split; exact R2).
  destruct n as [|n'].
  - cbn [read_polars] in F. apply Ok_inj in F. apply pair_equal_spec in F. destruct F as [F <-]. apply pair_equal_spec in F. destruct F as [<- <-].
    exists [h :: rest]. cbn [List.concat app combine List.length]. rewrite app_nil_r. split; [rewrite LS, R1; reflexivity|]. repeat split; try exact NA. constructor; [split; [exact PB|exact R3]|constructor].
  - destruct (IH _ _ _ _ F ltac:(discriminate) NE2) as (blocks & B1 & B2 & B3 & _ & B4). exists ((h :: rest) :: blocks). cbn [List.concat combine List.length app]. split; [rewrite LS, R1, B1, <- app_assoc; reflexivity|].
    rewrite B2, B3. repeat split; try exact NA. constructor; [split; [exact PB|exact R3]|exact B4].
Qed.

(** The last lines of a file, that are not a set: fewer than four, or the title of a set without thicknesses *)
Definition no_more (ls : list str) : Prop :=
  List.length ls < 4 \/ exists l0 l1 l2 l3 r n, ls = l0 :: l1 :: l2 :: l3 :: r /\ int_ l1 = Ok 0%Z /\ split_ws l2 = [] /\ int_ l3 = Ok n.
Lemma header_complete allow s ls r : set_lines four_or_one s ls -> exists nAlpha rest, read_header num allow (ls ++ r) = Ok (Some (Z.of_nat nAlpha, p_thick s, p_header s, rest ++ r)) /\ read_polars num (Z.of_nat nAlpha) (List.length (p_thick s)) (rest ++ r) = Ok (p_polars s, p_heads s, r).
Proof.
  intros (l0 & l1 & l2 & l3 & nAlpha & blocks & -> & T & I1 & N2 & I3 & L1 & L2 & F). exists nAlpha, (List.concat blocks). split.
  - cbn [app read_header]. unfold int_or, floats_or. rewrite !int_strip, I1. rewrite split_ws_strip. apply floats_iff in N2. rewrite N2, I3. rewrite Z.eqb_refl. cbn [negb]. apply cut_keyword_iff in T. rewrite T. reflexivity.
  - pose proof (read_polars_complete _ _ _ r F) as K. rewrite combine_length, L1, L2, Nat.min_id in K. rewrite K. f_equal. f_equal. f_equal.
    + assert (Q : forall (a : list str) (b : list (list (list V))), List.length a = List.length b -> map snd (combine a b) = b) by (induction a as [|x a IHa]; intros [|y b] E; try discriminate E; [reflexivity|]; cbn; f_equal; apply IHa; injection E as E; exact E). apply Q. congruence.
    + assert (Q : forall (a : list str) (b : list (list (list V))), List.length a = List.length b -> map fst (combine a b) = a) by (induction a as [|x a IHa]; intros [|y b] E; try discriminate E; [reflexivity|]; cbn; f_equal; apply IHa; injection E as E; exact E). apply Q. congruence.
Qed.
Lemma no_more_read first ls fuel : no_more ls -> (first = true -> 4 <= List.length ls) -> read_sets num (S fuel) first ls = Ok [].
Proof.
  intros [H|(l0 & l1 & l2 & l3 & r & n & -> & I1 & E2 & I3)] F; cbn [read_sets].
  - assert (first = false) by (destruct first; [specialize (F eq_refl); lia|reflexivity]). subst first. destruct ls as [|a [|b [|c [|d ls]]]]; try reflexivity. cbn in H. lia.
  - cbn [read_header]. unfold int_or, floats_or. rewrite !int_strip, I1, split_ws_strip, E2, I3. reflexivity.
Qed.
Lemma read_sets_complete sets : forall lss rest fuel first, Forall2 (set_lines four_or_one) sets lss -> Forall (fun s => p_thick s <> []) sets -> no_more rest -> (sets = [] -> first = true -> 4 <= List.length rest) ->
  List.length (List.concat lss ++ rest) < fuel -> read_sets num fuel first (List.concat lss ++ rest) = Ok sets.
Proof.
  induction sets as [|s sets IH]; intros lss rest fuel first F NE NM FI L; inversion F as [|a b c d F1 F2]; subst.
  - cbn [List.concat app] in *. destruct fuel as [|fuel]; [lia|]. apply no_more_read; [exact NM|exact (FI eq_refl)].
  - apply Forall_cons_iff in NE. destruct NE as [NE1 NE2]. destruct fuel as [|fuel]; [lia|]. cbn [List.concat] in *. rewrite <- app_assoc in *. cbn [read_sets].
    destruct (header_complete (negb first) s b (List.concat d ++ rest) F1) as (nAlpha & r & K1 & K2). rewrite K1. cbn [bind].
    destruct (p_thick s) as [|t0 ts] eqn:T; [contradiction|]. cbn [nonempty negb]. rewrite K2. cbn [bind].
    rewrite (IH d rest fuel false F2 NE2 NM); [cbn [bind]; rewrite <- T; destruct s; reflexivity|discriminate|].
    assert (4 <= List.length b) by (destruct F1 as (? & ? & ? & ? & ? & ? & -> & _); cbn; lia). rewrite !app_length in L. rewrite app_length. lia.
Qed.
Lemma read_sets_sound fuel : forall first ls sets, read_sets num fuel first ls = Ok sets -> Forall (fun s => Forall (fun p => p <> []) (p_polars s)) sets ->
  exists lss rest, ls = List.concat lss ++ rest /\ Forall2 (set_lines four_or_one) sets lss /\ Forall (fun s => p_thick s <> []) sets /\ no_more rest /\ (sets = [] -> first = true -> 4 <= List.length rest).
Proof.
  induction fuel as [|fuel IH]; intros first ls sets H NE; [discriminate H|]. cbn [read_sets] in H.
  destruct ls as [|l0 [|l1 [|l2 [|l3 r]]]].
  1-4: cbn [read_header] in H; destruct first; cbn [negb] in H; [discriminate H|]; cbn [bind] in H; apply Ok_inj in H; subst sets; eexists [], _; (split; [reflexivity|]); (split; [apply Forall2_nil|]); (split; [apply Forall_nil|]); (split; [left; cbn; lia|discriminate]).
  cbn [read_header] in H. unfold int_or, floats_or in H. rewrite !int_strip, split_ws_strip in H. destruct (int_ l1) as [nT|] eqn:I1; [|discriminate H]. destruct (floats num (split_ws l2)) as [th|] eqn:F2; [|discriminate H].
  destruct (Z.of_nat (List.length th) =? nT)%Z eqn:EQ; [|discriminate H]. apply Z.eqb_eq in EQ. subst nT. cbn [negb] in H. destruct (int_ l3) as [nA|] eqn:I3; [|discriminate H]. cbn [bind] in H.
  destruct th as [|t0 th0] eqn:TH; cbn [nonempty negb] in H.
  - apply Ok_inj in H. subst sets. exists [], (l0 :: l1 :: l2 :: l3 :: r). split; [reflexivity|]. split; [apply Forall2_nil|]. split; [apply Forall_nil|]. split; [|cbn; lia]. right. exists l0, l1, l2, l3, r, nA. apply floats_iff in F2. inversion F2. repeat split; assumption.
  - rewrite <- TH in *. destruct (read_polars num nA (List.length th) r) as [[[ps hs] r']|] eqn:RP; [|discriminate H]. cbn [bind] in H. destruct (read_sets num fuel false r') as [sets'|] eqn:RS; [|discriminate H]. cbn [bind] in H. apply Ok_inj in H. subst sets.
    apply Forall_cons_iff in NE. destruct NE as [NE1 NE2]. cbn [p_polars] in NE1.
    destruct (read_polars_sound _ _ _ _ _ _ RP ltac:(rewrite TH; discriminate) NE1) as (blocks & B1 & B2 & B3 & B4 & B5). destruct (IH _ _ _ RS NE2) as (lss & rest & E1 & E2 & E3 & E4 & _).
    exists ((l0 :: l1 :: l2 :: l3 :: List.concat blocks) :: lss), rest. split; [cbn [List.concat app]; rewrite B1, E1, <- app_assoc; reflexivity|]. split; [|split; [constructor; [cbn; rewrite TH; discriminate|exact E3]|split; [exact E4|discriminate]]].
    constructor; [|exact E2]. exists l0, l1, l2, l3, (Z.to_nat nA), blocks. cbn [p_header p_thick p_heads p_polars]. rewrite Z2Nat.id by exact B4. split; [reflexivity|]. split; [apply cut_keyword_iff; reflexivity|]. repeat split; try assumption. apply floats_iff. exact F2.
Qed.

(** ** C75: a profile file is read completely.  Each set has its title, its thicknesses and for each of them its polar. *)
Theorem C75_reads_every_set : forall text sets lss rest,
  file_lines text = List.concat lss ++ rest -> Forall2 (set_lines four) sets lss -> sets <> [] -> Forall (fun s => p_thick s <> []) sets -> List.length rest < 4 ->
  profile_read num text = Ok sets.
Proof.
  intros text sets lss rest E F N NE R. unfold profile_read. rewrite E. apply read_sets_complete; [|exact NE|left; exact R|intro K; contradiction|lia].
  clear - F. induction F as [|s b sets lss F1 F2 IH]; constructor; [|exact IH]. destruct F1 as (l0 & l1 & l2 & l3 & nAlpha & blocks & A1 & A2 & A3 & A4 & A5 & A6 & A7 & A8). exists l0, l1, l2, l3, nAlpha, blocks. repeat split; try assumption.
  clear - A8. induction A8 as [|hp b hps bs [(m0 & rest & X1 & X2 & X3) X4] H2 IH]; constructor; [|exact IH]. split; [|exact X4]. exists m0, rest. repeat split; try assumption. clear - X3. induction X3; constructor; [left; assumption|assumption].
Qed.
(** Conversely: what is read without an error is in the file.  The lines after the last set are fewer than four, or start with a
    set without thicknesses; a row of one number is repeated. *)
Theorem C75_reads_only_what_is_there_partial : forall text sets, profile_read num text = Ok sets -> Forall (fun s => Forall (fun p => p <> []) (p_polars s)) sets ->
  exists lss rest, file_lines text = List.concat lss ++ rest /\ Forall2 (set_lines four_or_one) sets lss /\ Forall (fun s => p_thick s <> []) sets /\ no_more rest.
Proof. intros text sets H NE. destruct (read_sets_sound _ _ _ _ H NE) as (lss & rest & A & B & C & D & _). exists lss, rest. repeat split; assumption. Qed.
Lemma read_header_err b ls e : read_header num b ls = Err e -> e = WrongFormatError.
Proof.
  destruct ls as [|l0 [|l1 [|l2 [|l3 r]]]]; cbn [read_header]; try (destruct b; intro H; congruence). unfold int_or, floats_or. destruct (int_ (strip l1)); [|congruence]. destruct (floats num _); [|congruence]. destruct (negb _); [congruence|]. destruct (int_ (strip l3)); congruence.
Qed.
Lemma polar_rows_err n : forall ls e, polar_rows num n ls = Err e -> e = BrokenFormatError.
Proof.
  induction n as [|n IH]; intros ls e H; cbn [polar_rows] in H; [discriminate H|]. destruct (readline ls) as [l r]. destruct (polar_row num l) as [x|e'] eqn:E; cbn [bind] in H.
  - destruct (polar_rows num n r) as [[xs r']|e''] eqn:F; cbn [bind] in H; [discriminate H|]. injection H as <-. exact (IH _ _ F).
  - injection H as <-. unfold polar_row, floats_or in E. destruct (floats num _) as [[|a [|b [|c [|d [|f g]]]]]|]; congruence.
Qed.
Lemma read_polars_err nA n : forall ls e, read_polars num nA n ls = Err e -> e = BrokenFormatError \/ (e = ValueError /\ (nA < 0)%Z).
Proof.
  induction n as [|n IH]; intros ls e H; cbn [read_polars] in H; [discriminate H|]. destruct (readline ls) as [l r]. destruct (nA <? 0)%Z eqn:E; [injection H as <-; right; split; [reflexivity|apply Z.ltb_lt; exact E]|].
  destruct (polar_rows num (Z.to_nat nA) r) as [[p r1]|e'] eqn:F; cbn [bind] in H; [|injection H as <-; left; exact (polar_rows_err _ _ _ F)]. destruct (read_polars num nA n r1) as [[[ps hs] r2]|e''] eqn:G; cbn [bind] in H; [discriminate H|]. injection H as <-. exact (IH _ _ G).
Qed.
Lemma readline_le ls l r : readline ls = (l, r) -> List.length r <= List.length ls.
Proof. destruct ls; intro H; injection H as <- <-; cbn; lia. Qed.
Lemma polar_rows_le n : forall ls xs r, polar_rows num n ls = Ok (xs, r) -> List.length r <= List.length ls.
Proof. intros ls xs r H. destruct (polar_rows_sound _ _ _ _ H) as (rest & -> & _). rewrite app_length. lia. Qed.
Lemma read_polars_le nA n : forall ls ps hs r, read_polars num nA n ls = Ok (ps, hs, r) -> List.length r <= List.length ls.
Proof.
  induction n as [|n IH]; intros ls ps hs r H; cbn [read_polars] in H; [apply Ok_inj in H; apply pair_equal_spec in H; destruct H as [_ <-]; lia|]. destruct (readline ls) as [l r0] eqn:RL. apply readline_le in RL. destruct (nA <? 0)%Z; [discriminate H|].
  destruct (polar_rows num (Z.to_nat nA) r0) as [[p r1]|] eqn:F; cbn [bind] in H; [|discriminate H]. apply polar_rows_le in F. destruct (read_polars num nA n r1) as [[[ps' hs'] r2]|] eqn:G; cbn [bind] in H; [|discriminate H]. apply Ok_inj in H. apply pair_equal_spec in H. destruct H as [_ <-]. apply IH in G. lia.
Qed.
(** A file that is not read is reported by the two exceptions of the package, except for a negative number of angles; the
    reading always ends *)
Theorem C75_failures_partial : forall text e, profile_read num text = Err e -> e = WrongFormatError \/ e = BrokenFormatError \/ e = ValueError.
Proof.
  intros text e. unfold profile_read. generalize (file_lines text) as ls. intro ls.
  assert (G : forall fuel first ls e, List.length ls < fuel -> read_sets num fuel first ls = Err e -> e = WrongFormatError \/ e = BrokenFormatError \/ e = ValueError).
  { clear. induction fuel as [|fuel IH]; intros first ls e L H; [lia|]. cbn [read_sets] in H. destruct (read_header num (negb first) ls) as [[[[[nA th] h] r]|]|e'] eqn:E; cbn [bind] in H; [|discriminate H|injection H as <-; left; exact (read_header_err _ _ _ E)].
    destruct (negb (nonempty th)); [discriminate H|].
    assert (LR : List.length r < List.length ls).
    { destruct ls as [|l0 [|l1 [|l2 [|l3 r0]]]]; cbn [read_header] in E; try (destruct (negb first); congruence). unfold int_or, floats_or in E. destruct (int_ (strip l1)); [|congruence]. destruct (floats num _); [|congruence]. destruct (negb _); [congruence|]. destruct (int_ (strip l3)); [|congruence]. apply Ok_inj, Some_inj in E. apply pair_equal_spec in E. destruct E as [_ <-]. cbn. lia. }
    destruct (read_polars num nA _ r) as [[[ps hs] r']|e'] eqn:F; cbn [bind] in H.
    - apply read_polars_le in F. destruct (read_sets num fuel false r') as [s|e''] eqn:K; cbn [bind] in H; [discriminate H|]. injection H as <-. apply (IH false r' e''); [lia|exact K].
    - injection H as <-. destruct (read_polars_err _ _ _ _ F) as [->|[-> _]]; [right; left; reflexivity|right; right; reflexivity]. }
  apply G. lia.
Qed.

(** ** C48: a profile file cannot be written, and the file that was there is emptied *)
Theorem C48_write_never_works : forall f p (l : list (pset V)), f p <> Dir ->
  exists f', profile_write f p l = (f', Err TypeError) /\ f' p = Reg [] /\ forall q, q <> p -> f' q = f q.
Proof.
  intros f p l D. unfold profile_write, write_file. assert (E : fs_open_w f p = Ok (fs_put f p [])) by (unfold fs_open_w; destruct (f p); congruence). rewrite E. exists (fs_put f p []). split; [reflexivity|]. unfold fs_put. split; [now rewrite str_eqb_refl|]. intros q Q. destruct (str_eqb q p) eqn:K; [apply str_eqb_eq in K; contradiction|reflexivity].
Qed.
(** A text of a number that is not the text of an integer: it has a point, an exponent, or is nan or inf *)
Definition float_text (s : str) : Prop := In (ch 46) s \/ In (ch 101) s \/ In (ch 110) s.
(** The text that the object makes for the file is not readable either: the number of thicknesses is missing *)
Theorem C48_text_unreadable : forall l text s l', l = s :: l' -> (forall t, In t (p_thick s) -> ~ In nl (sfl t) /\ float_text (sfl t)) -> p_thick s <> [] -> ~ In nl (p_header s) ->
  profile_text sfl e15 l = Ok text -> profile_read num text = Err WrongFormatError.
Proof.
  intros l text s l' -> FT NE NH H. unfold profile_text in H. cbn [nonempty] in H. cbn [sets_text] in H. destruct (set_text sfl e15 (S_ "PROFILE SET ") s) as [a|] eqn:A; [|discriminate H]. cbn [bind] in H. destruct (sets_text sfl e15 (S_ "PROFILE SET ") l') as [b|]; [|discriminate H]. cbn [bind] in H. apply Ok_inj in H. subst text.
  unfold set_text in A. destruct (p_polars s) as [|p0 ps]; [discriminate A|]. apply Ok_inj in A. subst a. set (tail := flat_map _ _).
  set (l0 := S_ "PROFILE SET " ++ p_header s). set (l1 := join [sp] (map sfl (p_thick s))).
  assert (TX : (S_ "PROFILE SET " ++ p_header s ++ [nl] ++ l1 ++ [nl] ++ str_of_N (N.of_nat (List.length p0)) ++ [nl] ++ tail) ++ b = l0 ++ nl :: (l1 ++ nl :: (str_of_N (N.of_nat (List.length p0)) ++ nl :: (tail ++ b)))) by (unfold l0; rewrite <- !app_assoc; reflexivity).
  rewrite TX. clear TX.
  assert (J : forall c, In c l1 -> c = sp \/ exists t, In t (p_thick s) /\ In c (sfl t)).
  { unfold l1. clear. induction (p_thick s) as [|t ts IH]; intros c C; [destruct C|]. destruct ts as [|t' ts']; [right; exists t; split; [left; reflexivity|exact C]|]. rewrite map_cons, join_cons in C by discriminate. apply in_app_or in C. destruct C as [C|C]; [right; exists t; split; [left; reflexivity|exact C]|]. apply in_app_or in C. destruct C as [[C|[]]|C]; [left; symmetry; exact C|]. destruct (IH c C) as [K|(u & K1 & K2)]; [left; exact K|right; exists u; split; [right; exact K1|exact K2]]. }
  unfold profile_read.
  assert (N0 : ~ In nl l0) by (intro K; unfold l0 in K; apply in_app_or in K; destruct K as [K|K]; [cbn in K; repeat (destruct K as [K|K]; [discriminate K|]); destruct K|exact (NH K)]).
  assert (N1 : ~ In nl l1) by (intro K; destruct (J nl K) as [K1|(t & K1 & K2)]; [discriminate K1|exact (proj1 (FT t K1) K2)]).
  rewrite file_lines_line by exact N0. rewrite file_lines_line by exact N1. set (ls := file_lines _). cbn [List.length read_sets].
  assert (W : read_header num (negb true) (l0 :: l1 :: ls) = Err WrongFormatError).
  { destruct ls as [|l2 [|l3 r]]; [reflexivity|reflexivity|]. cbn [read_header]. unfold int_or. destruct (int_ (strip l1)) as [z|] eqn:I; [|reflexivity]. exfalso.
    destruct (p_thick s) as [|t ts] eqn:T; [contradiction|]. destruct (FT t (or_introl eq_refl)) as [_ FX].
    assert (S1 : forall c, In c (sfl t) -> In c l1).
    { intros c C. unfold l1. destruct ts as [|t' ts']; [exact C|]. rewrite map_cons, join_cons by discriminate. apply in_or_app. left. exact C. }
    assert (D : forall c, In c (sfl t) -> is_space c = false -> is_digit c = true \/ c = ch 45 \/ c = ch 43).
    { intros c C1 C2. rewrite int_strip in I. apply (int_chars l1 z I). apply in_strip; [exact C2|exact (S1 c C1)]. }
    destruct FX as [K|[K|K]]; destruct (D _ K eq_refl) as [X|[X|X]]; discriminate X. }
  rewrite W. reflexivity.
Qed.

(** ** C76: every polar is in the tables *)
(** The name of a table: number of the set from 1, and text of the thickness *)
Definition expected_name (i : nat) (t : V) : str := S_ "pc_set_" ++ str_of_N (N.of_nat i) ++ S_ "_t_" ++ sfl t.
Definition expected_tables (l : list (pset V)) : list (str * list (list V)) :=
  List.concat (map (fun q => combine (map (expected_name (fst q)) (p_thick (snd q))) (p_polars (snd q))) (combine (seq 1 (List.length l)) l)).
Lemma name_inj i j t u : expected_name i t = expected_name j u -> i = j /\ sfl t = sfl u.
Proof.
  unfold expected_name. intro H. apply app_inv_head in H.
  assert (G : forall a b x y, forallb is_digit a = true -> forallb is_digit b = true -> a ++ S_ "_t_" ++ x = b ++ S_ "_t_" ++ y -> a = b /\ x = y).
  { clear. induction a as [|c a IH]; intros [|d b] x y A B E.
    - split; [reflexivity|]. exact (app_inv_head (S_ "_t_") _ _ E).
    - exfalso. cbn in E. injection E as <- _. discriminate B.
    - exfalso. cbn in E. injection E as -> _. discriminate A.
    - cbn in E. injection E as <- E. cbn [forallb] in A, B. apply andb_inv in A. apply andb_inv in B. destruct (IH b x y (proj2 A) (proj2 B) E) as [-> ->]. split; reflexivity. }
  destruct (G _ _ _ _ (str_of_N_digits _) (str_of_N_digits _) H) as [E1 E2]. split; [|exact E2]. pose proof (N_of_str_of_N (N.of_nat i)) as A. rewrite E1, N_of_str_of_N in A. injection A as A. lia.
Qed.
Lemma dict_put_new {A} (d : list (str * A)) k v : ~ In k (map fst d) -> dict_put d k v = d ++ [(k, v)].
Proof.
  induction d as [|[k' v'] d IH]; intro H; [reflexivity|]. cbn [dict_put map fst In] in *. destruct (str_eqb k' k) eqn:E; [apply str_eqb_eq in E; exfalso; apply H; left; exact E|]. rewrite IH by (intro K; apply H; right; exact K). reflexivity.
Qed.
Lemma put_set_ok i (s : pset V) d : NoDup (map sfl (p_thick s)) -> (forall t, In t (p_thick s) -> ~ In (expected_name (S i) t) (map fst d)) ->
  put_set sfl d i s = d ++ combine (map (expected_name (S i)) (p_thick s)) (p_polars s).
Proof.
  unfold put_set. generalize (p_polars s) as ps. generalize (p_thick s) as ts. intros ts. revert d. induction ts as [|t ts IH]; intros d ps ND F; [cbn; now rewrite app_nil_r|]. destruct ps as [|p ps]; [cbn; now rewrite app_nil_r|].
  cbn [combine fold_left map fst snd]. change (table_name sfl i t) with (expected_name (S i) t). rewrite dict_put_new by (apply F; left; reflexivity). cbn [map] in ND. inversion ND as [|x y N1 N2]; subst.
  rewrite IH; [rewrite <- app_assoc; reflexivity|exact N2|]. intros u U K. rewrite map_app in K. apply in_app_or in K. destruct K as [K|[K|[]]]; [apply (F u (or_intror U) K)|]. cbn [fst] in K. apply name_inj in K. apply N1. rewrite (proj2 K). apply in_map. exact U.
Qed.
Theorem C76_every_polar_has_a_table : forall l : list (pset V), Forall (fun s => NoDup (map sfl (p_thick s))) l -> profile_tables sfl l = expected_tables l.
Proof.
  intros l H. unfold profile_tables, expected_tables.
  assert (G : forall l i d, Forall (fun s => NoDup (map sfl (p_thick s))) l -> (forall j t, i < j -> ~ In (expected_name j t) (map fst d)) ->
    put_sets sfl d i l = d ++ List.concat (map (fun q => combine (map (expected_name (fst q)) (p_thick (snd q))) (p_polars (snd q))) (combine (seq (S i) (List.length l)) l))).
  { clear l H. induction l as [|s l IH]; intros i d H F; [cbn; now rewrite app_nil_r|]. cbn [put_sets List.length seq combine map List.concat fst snd]. pose proof (Forall_inv H) as H1. apply Forall_inv_tail in H. rewrite put_set_ok; [|exact H1|intros t _; apply F; lia].
    rewrite IH; [rewrite <- app_assoc; reflexivity|exact H|]. intros j t L K. rewrite map_app in K. apply in_app_or in K. destruct K as [K|K]; [apply (F j t ltac:(lia) K)|].
    apply in_map_iff in K. destruct K as ([k v] & K1 & K2). cbn [fst] in K1. subst k. apply in_combine_l in K2. apply in_map_iff in K2. destruct K2 as (u & K2 & _). apply name_inj in K2. lia. }
  apply (G l 0 [] H). intros j t _ [].
Qed.
End S.

(** ** Examples *)
Definition ex_profile : str := join [nl] [S_ "Profile SET 1: blade"; S_ "2"; S_ "18.0 21.0"; S_ "2"; S_ "first"; S_ "-10.0 0.1 0.2 0.3"; S_ "10.0 0.4 0.5 0.6"; S_ "second"; S_ "-10.0 1.1 1.2 1.3"; S_ "10.0 1.4 1.5 1.6"; S_ "other"; S_ "1"; S_ "30.0"; S_ "1"; S_ "third"; S_ "0.0 2.1 2.2 2.3"; []].
Definition ex_sets : list (pset str) := [
  mk_pset (S_ " 1: blade") [S_ "18.0"; S_ "21.0"] [[[S_ "-10.0"; S_ "0.1"; S_ "0.2"; S_ "0.3"]; [S_ "10.0"; S_ "0.4"; S_ "0.5"; S_ "0.6"]]; [[S_ "-10.0"; S_ "1.1"; S_ "1.2"; S_ "1.3"]; [S_ "10.0"; S_ "1.4"; S_ "1.5"; S_ "1.6"]]] [S_ "first"; S_ "second"];
  mk_pset (S_ "other") [S_ "30.0"] [[[S_ "0.0"; S_ "2.1"; S_ "2.2"; S_ "2.3"]]] [S_ "third"]].
Example C75_example : profile_read (fun w => Some w) ex_profile = Ok ex_sets.
Proof. vm_compute. reflexivity. Qed.
(** The hypotheses of C75_reads_every_set hold for it *)
Example C75_example_hypotheses : exists lss rest, file_lines ex_profile = List.concat lss ++ rest /\ Forall2 (set_lines (fun w => Some w) (four (fun w => Some w))) ex_sets lss /\ List.length rest < 4.
Proof.
  exists [[S_ "Profile SET 1: blade"; S_ "2"; S_ "18.0 21.0"; S_ "2"; S_ "first"; S_ "-10.0 0.1 0.2 0.3"; S_ "10.0 0.4 0.5 0.6"; S_ "second"; S_ "-10.0 1.1 1.2 1.3"; S_ "10.0 1.4 1.5 1.6"]; [S_ "other"; S_ "1"; S_ "30.0"; S_ "1"; S_ "third"; S_ "0.0 2.1 2.2 2.3"]], [].
  split; [vm_compute; reflexivity|]. split; [|cbn; lia]. apply Forall2_cons; [|apply Forall2_cons; [|apply Forall2_nil]].
  - do 4 eexists. exists 2, [[S_ "first"; S_ "-10.0 0.1 0.2 0.3"; S_ "10.0 0.4 0.5 0.6"]; [S_ "second"; S_ "-10.0 1.1 1.2 1.3"; S_ "10.0 1.4 1.5 1.6"]]. split; [reflexivity|]. split; [left; exists (S_ "Profile SET"); split; reflexivity|]. split; [reflexivity|]. split; [repeat constructor|]. repeat (split; [reflexivity|]).
    repeat (apply Forall2_cons; [split; [do 2 eexists; split; [reflexivity|split; [reflexivity|repeat (apply Forall2_cons; [split; [repeat constructor|reflexivity]|]); apply Forall2_nil]]|reflexivity]|]). apply Forall2_nil.
  - do 4 eexists. exists 1, [[S_ "third"; S_ "0.0 2.1 2.2 2.3"]]. split; [reflexivity|]. split; [right; split; [reflexivity|]; intro K; apply keyword_iff in K; vm_compute in K; discriminate K|]. split; [reflexivity|]. split; [repeat constructor|]. repeat (split; [reflexivity|]).
    repeat (apply Forall2_cons; [split; [do 2 eexists; split; [reflexivity|split; [reflexivity|repeat (apply Forall2_cons; [split; [repeat constructor|reflexivity]|]); apply Forall2_nil]]|reflexivity]|]). apply Forall2_nil.
Qed.
Example C48_example : float_text (S_ "18.0") /\ exists text, profile_text (fun v => v) (fun v => v) ex_sets = Ok text /\ profile_read (fun w => Some w) text = Err WrongFormatError.
Proof. split; [left; cbn; tauto|]. eexists. split; vm_compute; reflexivity. Qed.
(** A set without thicknesses ends the reading: the sets after it are lost without a message *)
Theorem C75_sets_after_an_empty_one_are_lost_refuted : exists before after, file_lines after = file_lines before ++ file_lines ex_profile /\
  profile_read (fun w => Some w) before = Ok [] /\ profile_read (fun w => Some w) after = Ok [].
Proof. exists (join [nl] [S_ "none"; S_ "0"; []; S_ "2"]), (join [nl] [S_ "none"; S_ "0"; []; S_ "2"] ++ [nl] ++ ex_profile). repeat split; vm_compute; reflexivity. Qed.
(** A row of one number is accepted *)
Theorem C75_short_row_refuted : exists text s, profile_read (fun w => Some w) text = Ok [s] /\ In (S_ "5.0") (file_lines text) /\ p_polars s = [[[S_ "5.0"; S_ "5.0"; S_ "5.0"; S_ "5.0"]]].
Proof. exists (join [nl] [S_ "a"; S_ "1"; S_ "18.0"; S_ "1"; S_ "first"; S_ "5.0"]). eexists. split; [vm_compute; reflexivity|]. split; [vm_compute; tauto|reflexivity]. Qed.
(** Two polars for the same thickness: only the last one is in the tables *)
Theorem C76_equal_thicknesses_refuted : exists (l : list (pset str)) p1 p2, map p_polars l = [[p1; p2]] /\ p1 <> p2 /\ profile_tables (fun v => v) l = [(S_ "pc_set_1_t_18.0", p2)].
Proof. exists [mk_pset (S_ "a") [S_ "18.0"; S_ "18.0"] [[[S_ "1"]]; [[S_ "2"]]] [S_ "x"; S_ "y"]], [[S_ "1"]], [[S_ "2"]]. repeat split. discriminate. Qed.
Example C76_example : Forall (fun s => NoDup (map (fun v => v) (p_thick s))) ex_sets /\ map fst (profile_tables (fun v => v) ex_sets) = [S_ "pc_set_1_t_18.0"; S_ "pc_set_1_t_21.0"; S_ "pc_set_2_t_30.0"].
Proof. split; [|vm_compute; reflexivity]. repeat constructor; cbn; intuition discriminate. Qed.

Print Assumptions C48_write_never_works.
Print Assumptions C48_text_unreadable.
Print Assumptions C75_reads_every_set.
Print Assumptions C75_reads_only_what_is_there_partial.
Print Assumptions C75_failures_partial.
Print Assumptions C75_sets_after_an_empty_one_are_lost_refuted.
Print Assumptions C75_short_row_refuted.
Print Assumptions C76_every_polar_has_a_table.
Print Assumptions C76_equal_thicknesses_refuted.
