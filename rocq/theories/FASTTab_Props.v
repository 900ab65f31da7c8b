(** Properties C85-C89: the tables of FAST input files. *)
From Verif Require Import Py PyFacts TextFacts ListFacts FASTIn_Model FASTTab_Model FASTTab_Proofs.
From Coq Require Import Lia.
Local Open Scope nat_scope.

(** ** Specification *)
(** The lines of a file that has this text at some place, up to the end of its last line *)
Definition lines_of (text : str) : list str := splitlines (text ++ [nl]).
(** A column name: one word, without the characters that end the names on their line *)
Definition good_name (s : str) : Prop := is_token s = true /\ (forall c, In c s -> ~ In c (S_ "[(!#")).
(** A unit, without its parentheses: words separated by single blanks *)
Definition good_unit (u : str) : Prop := (exists ws, forallb is_token ws = true /\ u = join [sp] ws) /\ (forall c, In c u -> ~ In c (S_ "()!#")).
(** A number is written as blanks and then some of the characters [chars], at least one digit, which read as [rnd v] *)
Definition writes {V} (num : str -> option V) (chars : string) (fmt : V -> str) (rnd : V -> V) (v : V) : Prop :=
  exists k w, fmt v = repeat sp k ++ w /\ existsb is_digit w = true /\ (forall c, In c w -> In c (S_ chars)) /\ num w = Some (rnd v).
(** All rows have [n] numbers *)
Definition rect {A} (n : nat) (rows : list (list A)) : Prop := Forall (fun r => List.length r = n) rows.

(** ** Lemmas *)
Lemma mapM_map {A B C} (g : B -> res C) (f : A -> B) (h : A -> C) l : (forall x, In x l -> g (f x) = Ok (h x)) -> mapM g (map f l) = Ok (map h l).
Proof.
  induction l as [|x l IH]; intro H; [reflexivity|]. cbn [map mapM]. rewrite (H x (or_introl eq_refl)). cbn [bind].
  rewrite IH; [reflexivity|]. intros y Hy. apply H. now right.
Qed.
Lemma mapM_length {A B} (g : A -> res B) l m : mapM g l = Ok m -> List.length m = List.length l.
Proof.
  revert m. induction l as [|x l IH]; intros m H; cbn [mapM] in H; [apply Ok_inj in H; now subst|].
  destruct (g x) as [y|]; [|discriminate]. cbn [bind] in H. destruct (mapM g l) as [ys|]; [|discriminate]. cbn [bind] in H. apply Ok_inj in H. subst m.
  cbn. f_equal. now apply IH.
Qed.
Lemma digits_facts c : In c (S_ "0123456789+-.e") -> is_space c = false /\ lower_c c = c /\ ~ In c (S_ "!#tfnp").
Proof.
  intro H. assert (G : forall x, (negb (existsb (chr_eqb x) (S_ "0123456789+-.e")) || (negb (is_space x) && chr_eqb (lower_c x) x && negb (existsb (chr_eqb x) (S_ "!#tfnp")))) = true)
    by (apply char_sweep; vm_compute; reflexivity).
  specialize (G c). assert (E : existsb (chr_eqb c) (S_ "0123456789+-.e") = true) by (apply existsb_exists; exists c; split; [exact H|apply chr_eqb_refl]).
  rewrite E in G. cbn [negb orb] in G. apply andb_inv in G. destruct G as [G G3]. apply andb_inv in G. destruct G as [G1 G2].
  split; [now apply negb_true_iff|]. split; [now apply chr_eqb_eq|]. apply negb_true_iff in G3. intro Hc.
  assert (T : existsb (chr_eqb c) (S_ "!#tfnp") = true) by (apply existsb_exists; exists c; split; [exact Hc|apply chr_eqb_refl]). congruence.
Qed.
Lemma lower_same s : (forall c, In c s -> lower_c c = c) -> lower s = s.
Proof. induction s as [|c s IH]; intro H; [reflexivity|]. cbn. rewrite (H c (or_introl eq_refl)). f_equal. apply IH. intros; apply H; now right. Qed.
Lemma lower_join sep ws : lower (join sep ws) = join (lower sep) (map lower ws).
Proof.
  induction ws as [|w ws IH]; [reflexivity|]. destruct ws as [|w' ws]; [reflexivity|]. cbn [map] in *. rewrite !join_cons by discriminate. rewrite !lower_app, IH. reflexivity.
Qed.
Lemma good_name_normal l : Forall good_name l -> Forall normal l.
Proof. apply Forall_impl. intros s [H _]. now apply token_normal. Qed.
Lemma good_name_free l : Forall good_name l -> Forall (free "[(!#") l.
Proof. apply Forall_impl. intros s [_ H]. exact H. Qed.
Lemma free_join1 bad l : ~ In sp (S_ bad) -> Forall (free bad) l -> free bad (join [sp] l).
Proof. intros H. apply free_join. now apply free_one. Qed.
Lemma tokens_forallb l : Forall good_name l -> forallb is_token l = true.
Proof. intro H. rewrite forallb_forall. rewrite Forall_forall in H. intros s Hs. apply (H s Hs). Qed.
Lemma name_words l : Forall good_name l -> flat_map split_ws l = l.
Proof. induction 1 as [|s l [H _] _ IH]; [reflexivity|]. cbn [flat_map]. now rewrite split_ws_token, IH. Qed.
Lemma names_read L l : Forall good_name l -> split_ws L = l -> header_names L = l.
Proof.
  intros H HL. unfold header_names. rewrite cleanLine_words, HL.
  assert (F : free "[(!#" (join [sp] l)) by (apply free_join1; [cbn; intros [E|[E|[E|[E|[]]]]]; discriminate|now apply good_name_free]).
  rewrite (cut_none "["), (cut_none "("), (cut_none "!"), (cut_none "#"); try (apply (free_not_in _ _ _ F); cbn; tauto).
  unfold bang. destruct (startswith (join [sp] l) (S_ "!")) eqn:E.
  - apply startswith_iff in E. destruct E as [t E]. exfalso. apply (F (ch 33)); [rewrite E; now left|cbn; tauto].
  - apply split_ws_words. now apply tokens_forallb.
Qed.
Lemma names_read_com l : Forall good_name l -> l <> [] -> header_names (S_ "! " ++ heading l) = l.
Proof.
  intros H Hl. unfold header_names. rewrite cleanLine_com by (try exact Hl; now apply good_name_normal).
  assert (F : free "[(!#" (join [sp] l)) by (apply free_join1; [cbn; intros [E|[E|[E|[E|[]]]]]; discriminate|now apply good_name_free]).
  assert (F' : free "[(#" (S_ "! " ++ join [sp] l)).
  { apply free_app. split; [intros c [<-|[<-|[]]]; cbn; intros [E|[E|[E|[]]]]; discriminate|]. intros c Hc G. apply (F c Hc). cbn in *. tauto. }
  rewrite (cut_none "["), (cut_none "("); try (apply (free_not_in _ _ _ F'); cbn; tauto).
  change (S_ "! " ++ join [sp] l) with ("!"%char :: sp :: join [sp] l) at 1. rewrite cut_first.
  change ("!"%char :: sp :: join [sp] l) with (S_ "! " ++ join [sp] l). rewrite (cut_none "#") by (apply (free_not_in _ _ _ F'); cbn; tauto).
  change (bang (S_ "! " ++ join [sp] l)) with (strip (sp :: join [sp] l)). rewrite split_ws_strip.
  rewrite split_ws_blank_cons by reflexivity. apply split_ws_words. now apply tokens_forallb.
Qed.
Lemma unit_join us : Forall good_unit us -> Forall (free "()") us /\ Forall (free "!#") us /\ Forall normal (map paren us) /\ Forall (fun u => strip u = u) us.
Proof.
  intro H. repeat split.
  - revert H. apply Forall_impl. intros u [_ G] c Hc E. apply (G c Hc). cbn in *. tauto.
  - revert H. apply Forall_impl. intros u [_ G] c Hc E. apply (G c Hc). cbn in *. tauto.
  - rewrite Forall_map. revert H. apply Forall_impl. intros u [(ws & Hw & ->) _]. split; [discriminate|].
    assert (P : forall ws, forallb is_token ws = true -> exists vs, forallb is_token vs = true /\ vs <> [] /\ join [sp] ws ++ S_ ")" = join [sp] vs).
    { clear. induction ws as [|w ws IH]; intro H.
      - exists [S_ ")"]. split; [reflexivity|]. split; [discriminate|reflexivity].
      - cbn [forallb] in H. apply andb_inv in H. destruct H as [H1 H2]. destruct (IH H2) as (vs & Hv & Hn & E).
        destruct ws as [|w' ws].
        + exists [w ++ S_ ")"]. split; [cbn [forallb]; rewrite token_app; [reflexivity|exact H1|reflexivity]|]. split; [discriminate|reflexivity].
        + exists (w :: vs). split; [cbn [forallb]; now rewrite H1, Hv|]. split; [discriminate|]. rewrite (join_cons _ w (w' :: ws)) by discriminate. rewrite (join_cons _ w vs) by exact Hn. rewrite <- E, <- !app_assoc. reflexivity. }
    destruct (P ws Hw) as (vs & Hv & Hn & E). unfold paren. rewrite E. destruct vs as [|v vs]; [contradiction|].
    cbn [forallb] in Hv. apply andb_inv in Hv. destruct Hv as [Hv1 Hv2].
    assert (J : S_ "(" ++ join [sp] (v :: vs) = join [sp] ((S_ "(" ++ v) :: vs)) by (rewrite !join_flat; now rewrite app_assoc).
    rewrite J, split_ws_words; [reflexivity|]. cbn [forallb]. rewrite Hv2, token_app; [reflexivity|reflexivity|exact Hv1].
  - revert H. apply Forall_impl. intros u [(ws & Hw & ->) _]. apply strip_noedge, join_words_noedge, Hw.
Qed.
Lemma units_detected us n : Forall good_unit us -> us <> [] -> n <= List.length us ->
  map (fun u => S_ "(" ++ strip u ++ S_ ")") (detectUnits (join [sp] (map paren us)) n) = map paren us.
Proof.
  intros H Hn Hl. destruct (unit_join us H) as (F1 & F2 & N & St). rewrite (detect_parens us n F1 Hn Hl). destruct us as [|u us]; [contradiction|].
  inversion St as [|? ? S1 S2]; subst. cbn [map]. rewrite S1. f_equal. rewrite map_map. apply map_ext_in. intros x Hx. rewrite Forall_forall in S2.
  change (sp :: x) with ([sp] ++ x). replace ([sp] ++ x) with ([sp] ++ x ++ []) by now rewrite app_nil_r.
  rewrite <- (S2 x Hx) at 1. unfold paren. f_equal. f_equal.
  rewrite <- (S2 x Hx) at 2. unfold strip at 1. rewrite lstrip_app_nonblank by reflexivity. rewrite app_nil_r. fold (strip (strip x)). apply strip_idem.
Qed.
Lemma units_read L us n : Forall good_unit us -> us <> [] -> n <= List.length us -> split_ws L = flat_map split_ws (map paren us) -> header_units L n = map paren us.
Proof.
  intros H Hn Hl HL. destruct (unit_join us H) as (F1 & F2 & N & St). unfold header_units. rewrite cleanLine_words, HL, join_normal by exact N.
  assert (F : free "!#" (join [sp] (map paren us))).
  { apply free_join1; [cbn; intros [E|[E|[]]]; discriminate|]. rewrite Forall_map. revert F2. apply Forall_impl. intros u Hu. unfold paren.
    apply free_app. split; [intros c [<-|[]]; cbn; intros [E|[E|[]]]; discriminate|]. apply free_app. split; [exact Hu|intros c [<-|[]]; cbn; intros [E|[E|[]]]; discriminate]. }
  rewrite (cut_none "!"), (cut_none "#"); try (apply (free_not_in _ _ _ F); cbn; tauto).
  unfold bang. destruct (startswith (join [sp] (map paren us)) (S_ "!")) eqn:E.
  - apply startswith_iff in E. destruct E as [t E]. exfalso. apply (F (ch 33)); [rewrite E; now left|cbn; tauto].
  - now apply units_detected.
Qed.
Lemma units_read_com us n : Forall good_unit us -> us <> [] -> n <= List.length us -> header_units (S_ "! " ++ heading (map paren us)) n = map paren us.
Proof.
  intros H Hn Hl. destruct (unit_join us H) as (F1 & F2 & N & St). unfold header_units.
  rewrite cleanLine_com; [|exact N|destruct us; [contradiction|discriminate]].
  assert (F : free "!#" (join [sp] (map paren us))).
  { apply free_join1; [cbn; intros [E|[E|[]]]; discriminate|]. rewrite Forall_map. revert F2. apply Forall_impl. intros u Hu. unfold paren.
    apply free_app. split; [intros c [<-|[]]; cbn; intros [E|[E|[]]]; discriminate|]. apply free_app. split; [exact Hu|intros c [<-|[]]; cbn; intros [E|[E|[]]]; discriminate]. }
  change (S_ "! " ++ join [sp] (map paren us)) with ("!"%char :: sp :: join [sp] (map paren us)) at 1. rewrite cut_first.
  rewrite (cut_none "#") by (intros [E|[E|E]]; try discriminate; apply (F _ E); cbn; tauto).
  change (bang ("!"%char :: sp :: join [sp] (map paren us))) with (strip (sp :: join [sp] (map paren us))).
  replace (strip (sp :: join [sp] (map paren us))) with (join [sp] (map paren us)); [now apply units_detected|].
  change (sp :: join [sp] (map paren us)) with ([sp] ++ join [sp] (map paren us)). unfold strip. rewrite lstrip_app_nonblank by reflexivity. symmetry.
  fold (strip (join [sp] (map paren us))). apply strip_noedge. rewrite <- join_normal by exact N. apply join_words_noedge, tokens_words.
Qed.

Section Tables.
Context {V : Type}.
Variable num : str -> option V.
Variable zero : V.
Notation digits := "0123456789+-.e"%string.

Lemma row_line_words fmt rnd r : Forall (writes num digits fmt rnd) r ->
  let ws := row_words (lower (join [tab] (map fmt r))) in
  List.length ws = List.length r /\ mapM (fun w => float_ num (logical w)) ws = Ok (map rnd r) /\ oneline (join [tab] (map fmt r)).
Proof.
  intro H.
  assert (P : exists ws, map fmt r = map (fun p => repeat sp (fst p) ++ snd p) ws /\ Forall2 (fun v p => existsb is_digit (snd p) = true /\ (forall c, In c (snd p) -> In c (S_ digits)) /\ num (snd p) = Some (rnd v)) r ws).
  { clear - H. induction H as [|v r (k & w & E & H1 & H2 & H3) _ (ws & I1 & I2)]; [exists []; split; constructor|].
    exists ((k, w) :: ws). split; [cbn [map fst snd]; now rewrite E, I1|]. constructor; [|exact I2]. cbn [snd]. auto. }
  destruct P as (ps & E & F). cbv zeta. rewrite E.
  assert (D : forall p, In p ps -> forall c, In c (snd p) -> In c (S_ digits)).
  { clear - F. induction F as [|v p r ps (H1 & H2 & H3) F IH]; [intros p []|]. intros q [<-|Hq]; [exact H2|now apply IH]. }
  assert (L : lower (join [tab] (map (fun p => repeat sp (fst p) ++ snd p) ps)) = join [tab] (map (fun p => repeat sp (fst p) ++ snd p) ps)).
  { rewrite lower_join. change (lower [tab]) with [tab]. f_equal. rewrite map_map. apply map_ext_in. intros p Hp. rewrite lower_app. f_equal.
    - apply lower_same. intros c Hc. apply repeat_spec in Hc. subst c. reflexivity.
    - apply lower_same. intros c Hc. apply (digits_facts c (D p Hp c Hc)). }
  rewrite L. unfold row_words.
  assert (Fr : free "!#" (join [tab] (map (fun p => repeat sp (fst p) ++ snd p) ps))).
  { apply free_join; [apply free_one; cbn; intros [G|[G|[]]]; discriminate|]. rewrite Forall_map, Forall_forall. intros p Hp. apply free_app. split.
    - intros c Hc. apply repeat_spec in Hc. subst c. cbn; intros [G|[G|[]]]; discriminate.
    - intros c Hc G. apply (proj2 (proj2 (digits_facts c (D p Hp c Hc)))). cbn in *. tauto. }
  rewrite (cut_none "!"), (cut_none "#"); try (apply (free_not_in _ _ _ Fr); cbn; tauto).
  rewrite split_ws_join_any by reflexivity.
  assert (W : flat_map split_ws (map (fun p => repeat sp (fst p) ++ snd p) ps) = map snd ps).
  { clear - F D. revert D. induction F as [|v p r ps (H1 & H2 & H3) F IH]; intro D; [reflexivity|]. cbn [map flat_map]. rewrite IH by (intros q Hq; apply D; now right).
    rewrite split_ws_lpad by apply spaces. rewrite split_ws_token; [reflexivity|]. apply tokenE. split; [intro E0; rewrite E0 in H1; discriminate|]. rewrite forallb_forall. intros c Hc.
    rewrite (proj1 (digits_facts c (H2 c Hc))). reflexivity. }
  rewrite W. split; [|split].
  - rewrite map_length. clear - F. induction F as [|? ? ? ? ? ? IH]; [reflexivity|]. cbn. now rewrite IH.
  - clear - F. induction F as [|v p r ps (H1 & H2 & H3) F IH]; [reflexivity|]. cbn [map mapM]. rewrite logical_plain.
    + unfold float_ at 1. rewrite H3. cbn [bind]. rewrite IH. reflexivity.
    + intros c Hc G. apply (proj2 (proj2 (digits_facts c (H2 c Hc)))). cbn in *. tauto.
  - apply oneline_join; [reflexivity|]. rewrite Forall_map, Forall_forall. intros p Hp. apply oneline_app. split; [apply oneline_spaces|].
    unfold oneline, no_linebreak. rewrite forallb_forall. intros c Hc. rewrite linebreak_space; [reflexivity|]. apply (digits_facts c (D p Hp c Hc)).
Qed.
Lemma num_row_ok fmt rnd h r : Forall (writes num digits fmt rnd) r -> List.length r = h_cols h ->
  num_row num h (row_words (lower (join [tab] (map fmt r)))) = Ok (map rnd r).
Proof.
  intros H L. destruct (row_line_words fmt rnd r H) as (E1 & E2 & _). cbv zeta in *. unfold num_row. rewrite E1, L, Nat.eqb_refl. cbn [bind].
  rewrite <- L, <- E1, firstn_all, E2. cbn [bind]. rewrite map_length, E1, Nat.ltb_irrefl. reflexivity.
Qed.
Lemma num_rows_ok fmt rnd h rows : Forall (Forall (writes num digits fmt rnd)) rows -> rect (h_cols h) rows ->
  num_rows num h (map (fun r => join [tab] (map fmt r)) rows) = Ok (h, map (map rnd) rows).
Proof.
  intros H L. destruct rows as [|r rows]; [reflexivity|]. unfold num_rows. cbn [map].
  assert (Lr : List.length r = h_cols h) by (inversion L; assumption). assert (Hr : Forall (writes num digits fmt rnd) r) by (inversion H; assumption).
  destruct (row_line_words fmt rnd r Hr) as (E1 & _). cbv zeta in E1. unfold num_first. rewrite E1, Lr, Nat.eqb_refl. cbn [bind].
  change (join [tab] (map fmt r) :: map (fun r0 => join [tab] (map fmt r0)) rows) with (map (fun r0 => join [tab] (map fmt r0)) (r :: rows)).
  rewrite (mapM_map _ _ (map rnd)); [reflexivity|]. intros x Hx. unfold rect in L. rewrite Forall_forall in H, L. apply num_row_ok; [exact (H x Hx)|exact (L x Hx)].
Qed.
Lemma parse_core fmt rnd names us rows L1 L2 : header_names L1 = names -> header_units L2 (List.length names) = map paren us ->
  Forall (free "()") us -> List.length us = List.length names -> Forall (Forall (writes num digits fmt rnd)) rows -> rect (List.length names) rows ->
  parse_table num zero true (L1 :: L2 :: map (fun r => join [tab] (map fmt r)) rows) (List.length rows) 2 0 =
  Ok (Nums (map (map rnd) rows), Some names, Some (map paren us)).
Proof.
  intros E1 E2 F Lu Hw Hr. unfold parse_table. cbn [List.length]. rewrite map_length.
  replace (Nat.eqb (S (S (List.length rows))) (List.length rows + 2 + 0)) with true by (symmetry; apply Nat.eqb_eq; lia). cbn [negb].
  rewrite E1, E2. cbn [bind plus skipn]. rewrite (num_rows_ok fmt rnd); [|exact Hw|exact Hr]. cbn [bind]. unfold finish. cbn [h_cols h_names h_units option_map].
  rewrite firstn_all, <- Lu. replace (List.length us) with (List.length (map paren us)) by apply map_length. rewrite firstn_all. f_equal. f_equal.
  f_equal. rewrite map_map. apply map_ext_in. intros u Hu. apply no_paren_paren. rewrite Forall_forall in F. now apply F.
Qed.

(** ** C85: tables survive writing and reading *)
(** Numerical tables with a line of names and a line of units (any number of rows) *)
Theorem C85_num_table : forall fmt rnd names units rows,
  names <> [] -> Forall good_name names -> List.length units = List.length names -> Forall good_unit units ->
  rect (List.length names) rows -> Forall (Forall (writes num digits fmt rnd)) rows ->
  let written := num_table_str fmt (Some names) (Some (map (fun u => S_ "(" ++ u ++ S_ ")") units)) rows in
  parse_table num zero true (lines_of written) (List.length rows) 2 0 =
    Ok (Nums (map (map rnd) rows), Some names, Some (map (fun u => S_ "(" ++ u ++ S_ ")") units)).
Proof.
  intros fmt rnd names us rows Hn Gn Lu Gu Hr Hw written. change (fun u => S_ "(" ++ u ++ S_ ")") with paren in *.
  assert (Hus : us <> []) by (intros ->; destruct names; [contradiction|discriminate]).
  destruct (unit_join us Gu) as (F1 & F2 & N & St).
  assert (E : written ++ [nl] = unlines (heading names :: heading (map paren us) :: map (fun r => join [tab] (map fmt r)) rows)).
  { unfold written, num_table_str. destruct rows as [|r rows].
    - cbn [map unlines flat_map]. rewrite <- !app_assoc. reflexivity.
    - change (unlines (heading names :: heading (map paren us) :: map (fun r0 => join [tab] (map fmt r0)) (r :: rows))) with
        ((heading names ++ [nl]) ++ (heading (map paren us) ++ [nl]) ++ unlines (map (fun r0 => join [tab] (map fmt r0)) (r :: rows))).
      rewrite <- unlines_join by discriminate. unfold rows_str. rewrite <- !app_assoc. reflexivity. }
  unfold lines_of. rewrite E, splitlines_un.
  - apply parse_core; auto; [apply names_read; [exact Gn|rewrite heading_words; apply name_words, Gn]|]. apply units_read; auto; [lia|apply heading_words].
  - constructor; [apply oneline_heading; now apply good_name_normal|]. constructor; [apply oneline_heading, N|].
    rewrite Forall_map. revert Hw. apply Forall_impl. intros r H. apply (row_line_words fmt rnd r H).
Qed.
(** Tables whose header lines are comments (airfoil coefficients) *)
Theorem C85_commented_table : forall fmt rnd names units rows,
  names <> [] -> Forall good_name names -> List.length units = List.length names -> Forall good_unit units ->
  rows <> [] -> rect (List.length names) rows -> Forall (Forall (writes num digits fmt rnd)) rows ->
  let written := com_table_str fmt names (map (fun u => S_ "(" ++ u ++ S_ ")") units) rows in
  parse_table num zero true (lines_of written) (List.length rows) 2 0 =
    Ok (Nums (map (map rnd) rows), Some names, Some (map (fun u => S_ "(" ++ u ++ S_ ")") units)).
Proof.
  intros fmt rnd names us rows Hn Gn Lu Gu Hrows Hr Hw written. change (fun u => S_ "(" ++ u ++ S_ ")") with paren in *.
  assert (Hus : us <> []) by (intros ->; destruct names; [contradiction|discriminate]).
  destruct (unit_join us Gu) as (F1 & F2 & N & St).
  assert (E : written ++ [nl] = unlines ((S_ "! " ++ heading names) :: (S_ "! " ++ heading (map paren us)) :: map (fun r => join [tab] (map fmt r)) rows)).
  { unfold written, com_table_str. destruct rows as [|r rows]; [contradiction|].
    change (unlines ((S_ "! " ++ heading names) :: (S_ "! " ++ heading (map paren us)) :: map (fun r0 => join [tab] (map fmt r0)) (r :: rows))) with
        (((S_ "! " ++ heading names) ++ [nl]) ++ ((S_ "! " ++ heading (map paren us)) ++ [nl]) ++ unlines (map (fun r0 => join [tab] (map fmt r0)) (r :: rows))).
    rewrite <- unlines_join by discriminate. unfold rows_str. rewrite <- !app_assoc. reflexivity. }
  unfold lines_of. rewrite E, splitlines_un.
  - apply parse_core; auto; [now apply names_read_com|]. apply units_read_com; auto. lia.
  - constructor; [apply oneline_app; split; [reflexivity|]; apply oneline_heading; now apply good_name_normal|].
    constructor; [apply oneline_app; split; [reflexivity|]; apply oneline_heading, N|].
    rewrite Forall_map. revert Hw. apply Forall_impl. intros r H. apply (row_line_words fmt rnd r H).
Qed.

(** Tables with names only *)
Theorem C85_num_table_no_units : forall fmt rnd names rows,
  names <> [] -> Forall good_name names -> rect (List.length names) rows -> Forall (Forall (writes num digits fmt rnd)) rows ->
  let written := num_table_str fmt (Some names) None rows in
  parse_table num zero true (lines_of written) (List.length rows) 1 0 = Ok (Nums (map (map rnd) rows), Some names, None).
Proof.
  intros fmt rnd names rows Hn Gn Hr Hw written.
  assert (E : written ++ [nl] = unlines (heading names :: map (fun r => join [tab] (map fmt r)) rows)).
  { unfold written, num_table_str. rewrite app_nil_r. destruct rows as [|r rows].
    - cbn [map unlines flat_map]. rewrite app_nil_r. reflexivity.
    - change (unlines (heading names :: map (fun r0 => join [tab] (map fmt r0)) (r :: rows))) with
        ((heading names ++ [nl]) ++ unlines (map (fun r0 => join [tab] (map fmt r0)) (r :: rows))).
      rewrite <- unlines_join by discriminate. unfold rows_str. rewrite <- !app_assoc. reflexivity. }
  unfold lines_of. rewrite E, splitlines_un.
  - unfold parse_table. cbn [List.length]. rewrite map_length.
    replace (Nat.eqb (S (List.length rows)) (List.length rows + 1 + 0)) with true by (symmetry; apply Nat.eqb_eq; lia). cbn [negb].
    rewrite (names_read _ names Gn) by (rewrite heading_words; apply name_words, Gn). cbn [bind plus skipn].
    rewrite (num_rows_ok fmt rnd) by assumption. cbn [bind]. unfold finish. cbn [h_cols h_names h_units option_map]. now rewrite firstn_all.
  - constructor; [apply oneline_heading; now apply good_name_normal|].
    rewrite Forall_map. revert Hw. apply Forall_impl. intros r H. apply (row_line_words fmt rnd r H).
Qed.
(** Matrices without header (Guyan damping), after the line that announces them *)
Theorem C85_matrix : forall fmt rnd label c rows,
  rows <> [] -> 0 < c -> rect c rows -> Forall (Forall (writes num digits fmt rnd)) rows ->
  let written := num_table_str fmt None None rows in
  parse_table num zero true (label :: lines_of written) (List.length rows) 0 1 = Ok (Nums (map (map rnd) rows), None, None).
Proof.
  intros fmt rnd label c rows Hn Hc Hr Hw written.
  assert (E : written ++ [nl] = unlines (map (fun r => join [tab] (map fmt r)) rows)).
  { unfold written, num_table_str. destruct rows as [|r rows]; [contradiction|]. cbn [app]. unfold rows_str. apply unlines_join. discriminate. }
  unfold lines_of. rewrite E, splitlines_un by (rewrite Forall_map; revert Hw; apply Forall_impl; intros r H; apply (row_line_words fmt rnd r H)).
  destruct rows as [|r rows]; [contradiction|]. inversion Hr as [|? ? Lr _]; subst. inversion Hw as [|? ? Wr _]; subst.
  unfold parse_table. cbn [List.length]. rewrite map_length.
  replace (Nat.eqb (S (List.length (r :: rows))) (S (List.length rows) + 0 + 1)) with true by (symmetry; apply Nat.eqb_eq; cbn [List.length]; lia). cbn [negb map nth_error].
  destruct (row_line_words fmt rnd r Wr) as (L1 & _ & _). cbv zeta in L1.
  assert (D : existsb is_digit (cleanAfterChar "!" (join [tab] (map fmt r))) = true).
  { assert (Fr : free "!" (join [tab] (map fmt r))).
    { apply free_join; [apply free_one; cbn; intros [G|[]]; discriminate|]. rewrite Forall_map. revert Wr. apply Forall_impl. intros v (k & w & -> & _ & Hd & _). apply free_app. split.
      - intros x Hx. apply repeat_spec in Hx. subst x. cbn; intros [G|[]]; discriminate.
      - intros x Hx G. apply (proj2 (proj2 (digits_facts x (Hd x Hx)))). cbn in *. tauto. }
    rewrite cut_none by (apply (free_not_in _ _ _ Fr); now left). destruct r as [|v r]; [cbn in Hc; lia|]. inversion Wr as [|? ? (k & w & Ev & Hd & _) _]; subst.
    cbn [map]. rewrite join_flat, Ev, !existsb_app, Hd, orb_true_r. reflexivity. }
  rewrite D. cbn [bind plus skipn].
  change (join [tab] (map fmt r) :: map (fun r0 => join [tab] (map fmt r0)) rows) with (map (fun r0 => join [tab] (map fmt r0)) (r :: rows)).
  rewrite (num_rows_ok fmt rnd); [reflexivity|exact Hw|]. cbn [h_cols]. rewrite L1. exact Hr.
Qed.

(** *** Tables of texts and numbers *)
Definition good_cell (w : str) : Prop := is_token w = true /\ (forall c, In c w -> ~ In c (S_ "!#")).
Definition good_row (r : list str) : Prop := Forall good_cell r /\ match r with w :: _ => startswith w (S_ "---") = false | [] => True end.
Lemma startswith_token w t : is_token w = true -> startswith w (S_ "---") = false -> startswith (w ++ tab :: t) (S_ "---") = false.
Proof.
  intros _ H. destruct (startswith (w ++ tab :: t) (S_ "---")) eqn:E; [|reflexivity].
  destruct w as [|a [|b [|c w]]]; cbn in H, E; congruence.
Qed.
Lemma mix_row_words r : good_row r -> mix_words (join [tab] r) = Ok r /\ oneline (join [tab] r).
Proof.
  intros [H Hd].
  assert (Fr : free "!#" (join [tab] r)).
  { apply free_join; [apply free_one; cbn; intros [G|[G|[]]]; discriminate|]. revert H. apply Forall_impl. intros w [_ G]. exact G. }
  unfold mix_words, row_words. rewrite (cut_none "!"), (cut_none "#"); try (apply (free_not_in _ _ _ Fr); cbn; tauto). split.
  - replace (startswith (join [tab] r) (S_ "---")) with false.
    + rewrite split_ws_join; [reflexivity|reflexivity|discriminate|]. rewrite forallb_forall. rewrite Forall_forall in H. intros w Hw. apply (H w Hw).
    + symmetry. destruct r as [|w [|w' r]]; [reflexivity|exact Hd|]. rewrite join_cons by discriminate. inversion H as [|? ? [T _] _]; subst. now apply startswith_token.
  - apply oneline_join; [reflexivity|]. revert H. apply Forall_impl. intros w [T _]. now apply oneline_token.
Qed.
Lemma mix_rows_ok h rows : Forall good_row rows -> rect (h_cols h) rows -> mix_rows h (map (join [tab]) rows) = Ok (h, map (map Word) rows).
Proof.
  intros H L. destruct rows as [|r rows]; [reflexivity|]. unfold mix_rows. cbn [map]. inversion H as [|? ? Hr _]; subst. inversion L as [|? ? Lr _]; subst.
  rewrite (proj1 (mix_row_words r Hr)). cbn [bind]. unfold mix_first. rewrite Lr, Nat.eqb_refl. cbn [bind].
  change (join [tab] r :: map (join [tab]) rows) with (map (join [tab]) (r :: rows)).
  rewrite (mapM_map _ _ (map Word)); [reflexivity|]. intros x Hx. unfold rect in L. rewrite Forall_forall in H, L. unfold mix_row.
  rewrite (proj1 (mix_row_words x (H x Hx))). cbn [bind]. rewrite (L x Hx), Nat.eqb_refl. cbn [bind]. rewrite <- (L x Hx), firstn_all, Nat.sub_diag. cbn [repeat]. now rewrite app_nil_r.
Qed.
Lemma parse_mix names us rows : names <> [] -> Forall good_name names -> List.length us = List.length names -> Forall good_unit us ->
  rows <> [] -> rect (List.length names) rows -> Forall good_row rows ->
  parse_table num zero false (lines_of (heading names ++ [nl] ++ heading (map paren us) ++ [nl] ++ join [nl] (map (join [tab]) rows))) (List.length rows) 2 0 =
    Ok (settle num zero (map (map Word) rows), Some names, Some (map paren us)).
Proof.
  intros Hn Gn Lu Gu Hrows Hr Hw.
  assert (Hus : us <> []) by (intros ->; destruct names; [contradiction|discriminate]). destruct (unit_join us Gu) as (F1 & F2 & N & St).
  assert (E : (heading names ++ [nl] ++ heading (map paren us) ++ [nl] ++ join [nl] (map (join [tab]) rows)) ++ [nl] = unlines (heading names :: heading (map paren us) :: map (join [tab]) rows)).
  { destruct rows as [|r rows]; [contradiction|]. change (unlines (heading names :: heading (map paren us) :: map (join [tab]) (r :: rows))) with
      ((heading names ++ [nl]) ++ (heading (map paren us) ++ [nl]) ++ unlines (map (join [tab]) (r :: rows))).
    rewrite <- unlines_join by discriminate. rewrite <- !app_assoc. reflexivity. }
  unfold lines_of. rewrite E, splitlines_un.
  - unfold parse_table. cbn [List.length]. rewrite map_length.
    replace (Nat.eqb (S (S (List.length rows))) (List.length rows + 2 + 0)) with true by (symmetry; apply Nat.eqb_eq; lia). cbn [negb].
    rewrite (names_read _ names Gn) by (rewrite heading_words; apply name_words, Gn). rewrite (units_read _ us) by (try apply heading_words; auto; lia).
    cbn [bind plus skipn]. rewrite mix_rows_ok by assumption. cbn [bind]. unfold finish. cbn [h_cols h_names h_units option_map].
    rewrite firstn_all, <- Lu. replace (List.length us) with (List.length (map paren us)) by apply map_length. rewrite firstn_all. f_equal. f_equal. f_equal.
    rewrite map_map. apply map_ext_in. intros u Hu. apply no_paren_paren. rewrite Forall_forall in F1. now apply F1.
  - constructor; [apply oneline_heading; now apply good_name_normal|]. constructor; [apply oneline_heading, N|].
    rewrite Forall_map. revert Hw. apply Forall_impl. intros r H. apply (mix_row_words r H).
Qed.
Lemma all_some_none {A} (l : list (option A)) : In None l -> all_some l = None.
Proof. induction l as [|[x|] l IH]; [intros []| |reflexivity]. intros [E|H]; [discriminate|]. cbn. now rewrite IH. Qed.
Lemma all_some_map {A B} (f : A -> option B) (g : A -> B) l : (forall x, In x l -> f x = Some (g x)) -> all_some (map f l) = Some (map g l).
Proof. induction l as [|x l IH]; intro H; [reflexivity|]. cbn [map all_some]. rewrite (H x (or_introl eq_refl)), IH by (intros; apply H; now right). reflexivity. Qed.
(** A table where some cell is not a number keeps all its texts *)
Theorem C85_mixed_table : forall (fstr : V -> str) names units rows r0 w0,
  names <> [] -> Forall good_name names -> List.length units = List.length names -> Forall good_unit units ->
  rect (List.length names) rows -> Forall good_row rows -> In r0 rows -> In w0 r0 -> num w0 = None ->
  let written := mix_table_str fstr names (Some (map (fun u => S_ "(" ++ u ++ S_ ")") units)) (Cells (map (map Word) rows)) in
  parse_table num zero false (lines_of written) (List.length rows) 2 0 =
    Ok (Cells (map (map Word) rows), Some names, Some (map (fun u => S_ "(" ++ u ++ S_ ")") units)).
Proof.
  intros fstr names us rows r0 w0 Hn Gn Lu Gu Hr Hw I1 I2 Hnum written. change (fun u => S_ "(" ++ u ++ S_ ")") with paren in *.
  assert (Hrows : rows <> []) by (intros ->; destruct I1).
  assert (E : written = heading names ++ [nl] ++ heading (map paren us) ++ [nl] ++ join [nl] (map (join [tab]) rows)).
  { unfold written, mix_table_str, rows_str. destruct rows as [|r rows]; [contradiction|]. cbn [map]. rewrite <- !app_assoc. cbn [app]. rewrite !map_map. unfold cell_str. rewrite map_id.
    f_equal. f_equal. f_equal. f_equal. f_equal. f_equal. apply map_ext. intro x. f_equal. rewrite map_map. apply map_id. }
  rewrite E, parse_mix by assumption. unfold settle. rewrite all_some_none; [reflexivity|]. rewrite map_map. apply in_map_iff. exists r0. split; [|exact I1].
  rewrite map_map. apply all_some_none, in_map_iff. exists w0. split; [exact Hnum|exact I2].
Qed.
(** A table of the same kind with numbers only *)
Theorem C85_mixed_numbers : forall (fstr : V -> str) rnd names units rows,
  names <> [] -> Forall good_name names -> List.length units = List.length names -> Forall good_unit units ->
  rows <> [] -> rect (List.length names) rows -> Forall (Forall (fun v => good_cell (fstr v) /\ num (fstr v) = Some (rnd v))) rows ->
  Forall (fun r => match r with v :: _ => startswith (fstr v) (S_ "---") = false | [] => True end) rows ->
  let written := mix_table_str fstr names (Some (map (fun u => S_ "(" ++ u ++ S_ ")") units)) (Nums rows) in
  parse_table num zero false (lines_of written) (List.length rows) 2 0 =
    Ok (Nums (map (map rnd) rows), Some names, Some (map (fun u => S_ "(" ++ u ++ S_ ")") units)).
Proof.
  intros fstr rnd names us rows Hn Gn Lu Gu Hrows Hr Hw Hd written. change (fun u => S_ "(" ++ u ++ S_ ")") with paren in *.
  assert (E : written = heading names ++ [nl] ++ heading (map paren us) ++ [nl] ++ join [nl] (map (join [tab]) (map (map fstr) rows))).
  { unfold written, mix_table_str, rows_str. destruct rows as [|r rows]; [contradiction|]. rewrite <- !app_assoc. cbn [app]. rewrite map_map. reflexivity. }
  rewrite E. replace (List.length rows) with (List.length (map (map fstr) rows)) by apply map_length. rewrite parse_mix; auto.
  - unfold settle. rewrite !map_map. rewrite (all_some_map _ (map rnd)); [reflexivity|]. intros r Hi. rewrite !map_map. apply all_some_map. intros v Hv.
    rewrite Forall_forall in Hw. specialize (Hw r Hi). rewrite Forall_forall in Hw. apply (Hw v Hv).
  - destruct rows; [contradiction|discriminate].
  - unfold rect in *. rewrite Forall_map. revert Hr. apply Forall_impl. intros r Hl. now rewrite map_length.
  - rewrite Forall_map. rewrite Forall_forall in *. intros r Hi. specialize (Hw r Hi). specialize (Hd r Hi). split.
    + rewrite Forall_map. revert Hw. apply Forall_impl. intros v [G _]. exact G.
    + destruct r; exact Hd.
Qed.

(** *** Airfoil coordinates do not survive *)
(** The table of coordinates is written with two header lines but read with one: the file cannot be read back *)
Theorem C85_airfoil_coordinates_refuted : forall (fmt : V -> str) names units rows,
  num (S_ "!") = None -> names <> [] -> Forall good_name names -> List.length units = List.length names -> Forall good_unit units -> rows <> [] ->
  let written := com_table_str fmt names (map (fun u => S_ "(" ++ u ++ S_ ")") units) rows in
  Forall (fun v => no_linebreak (fmt v) = true) (List.concat rows) ->
  parse_table num zero true (firstn (S (List.length rows)) (lines_of written)) (List.length rows) 1 0 = Err BrokenFormatError.
Proof.
  intros fmt names us rows Hb Hn Gn Lu Gu Hrows written Ho. change (fun u => S_ "(" ++ u ++ S_ ")") with paren in *.
  assert (Hus : us <> []) by (intros ->; destruct names; [contradiction|discriminate]). destruct (unit_join us Gu) as (F1 & F2 & N & St).
  assert (E : written ++ [nl] = unlines ((S_ "! " ++ heading names) :: (S_ "! " ++ heading (map paren us)) :: map (fun r => join [tab] (map fmt r)) rows)).
  { unfold written, com_table_str. destruct rows as [|r rows]; [contradiction|].
    change (unlines ((S_ "! " ++ heading names) :: (S_ "! " ++ heading (map paren us)) :: map (fun r0 => join [tab] (map fmt r0)) (r :: rows))) with
        (((S_ "! " ++ heading names) ++ [nl]) ++ ((S_ "! " ++ heading (map paren us)) ++ [nl]) ++ unlines (map (fun r0 => join [tab] (map fmt r0)) (r :: rows))).
    rewrite <- unlines_join by discriminate. unfold rows_str. rewrite <- !app_assoc. reflexivity. }
  unfold lines_of. rewrite E, splitlines_un.
  - destruct rows as [|r rows]; [contradiction|]. cbn [List.length firstn map].
    set (rest := firstn (List.length rows) (join [tab] (map fmt r) :: map (fun r0 => join [tab] (map fmt r0)) rows)).
    assert (Lr : List.length rest = List.length rows) by (unfold rest; rewrite firstn_length; cbn [List.length]; rewrite map_length; lia).
    unfold parse_table. cbn [List.length]. rewrite Lr.
    replace (Nat.eqb (S (S (List.length rows))) (S (List.length rows) + 1 + 0)) with true by (symmetry; apply Nat.eqb_eq; lia). cbn [negb].
    rewrite names_read_com by assumption. cbn [bind plus skipn]. unfold num_rows, num_first. cbn [h_cols h_names h_units].
    assert (W : exists ws, row_words (lower (S_ "! " ++ heading (map paren us))) = S_ "!" :: ws).
    { unfold row_words. rewrite lower_app. change (lower (S_ "! ")) with (S_ "! "). change (S_ "! " ++ lower (heading (map paren us))) with ("!"%char :: sp :: lower (heading (map paren us))). rewrite cut_first.
      unfold cleanAfterChar. destruct (find_str _ _) as [[|n]|].
      - eexists. change ("!"%char :: sp :: lower (heading (map paren us))) with (S_ "!" ++ sp :: lower (heading (map paren us))). rewrite split_ws_app by reflexivity. reflexivity.
      - destruct n as [|n]; [exists []; reflexivity|]. eexists. cbn [firstn]. change ("!"%char :: sp :: firstn n (lower (heading (map paren us)))) with (S_ "!" ++ sp :: firstn n (lower (heading (map paren us)))). rewrite split_ws_app by reflexivity. reflexivity.
      - eexists. change ("!"%char :: sp :: lower (heading (map paren us))) with (S_ "!" ++ sp :: lower (heading (map paren us))). rewrite split_ws_app by reflexivity. reflexivity. }
    destruct W as [ws W]. rewrite W.
    assert (G : forall h, 0 < h_cols h -> num_row num h (S_ "!" :: ws) = broken).
    { intros h Hh. unfold num_row. destruct (h_cols h) as [|c] eqn:Ec; [lia|].
      destruct (if Nat.eqb (List.length (S_ "!" :: ws)) (S c) then Ok true else last_is (h_names h) "nodecnt") as [b|e] eqn:Eb.
      - cbn [bind firstn mapM]. change (logical (S_ "!")) with (S_ "!"). unfold float_ at 1. rewrite Hb. reflexivity.
      - cbn [bind]. destruct (Nat.eqb _ _); [discriminate|]. unfold last_is in Eb. destruct (rev (h_names h)); [now injection Eb as <-|discriminate]. }
    destruct (Nat.eqb (List.length (S_ "!" :: ws)) (List.length names)) eqn:Ec.
    + cbn [bind mapM]. rewrite W, G; [reflexivity|]. cbn [h_cols]. destruct names; [contradiction|cbn; lia].
    + unfold last_is at 1. destruct (rev names) eqn:Er; [exfalso; apply Hn; rewrite <- (rev_involutive names), Er; reflexivity|]. cbn [bind].
      destruct (str_eqb _ _); cbn [bind more h_units]; [reflexivity|]. cbn [mapM h_names h_units]. rewrite W, G; [reflexivity|]. cbn [h_cols List.length]. lia.
  - constructor; [apply oneline_app; split; [reflexivity|]; apply oneline_heading; now apply good_name_normal|].
    constructor; [apply oneline_app; split; [reflexivity|]; apply oneline_heading, N|].
    rewrite Forall_map. apply Forall_forall. intros r Hi. apply oneline_join; [reflexivity|]. rewrite Forall_map, Forall_forall. intros v Hv.
    rewrite Forall_forall in Ho. apply Ho. apply in_concat. exists r. auto.
Qed.
(** Nor does the reference point: it is written with a comma after its first number *)
Theorem C85_reference_point_refuted : forall (fstr : V -> str) x y,
  is_token (fstr x) = true -> (forall c, In c (fstr x) -> ~ In c (S_ "!")) -> num (fstr x ++ S_ ",") = None ->
  ref_point num (ref_point_str fstr (x, y)) = Err WrongFormatError.
Proof.
  intros fstr x y Ht Hf Hc. unfold ref_point, ref_point_str. cbn [fst snd join].
  assert (E : exists ws, split_ws ((fstr x ++ S_ ", " ++ fstr y) ++ [sp] ++ S_ "AirfoilRefPoint" ++ [sp]) = (fstr x ++ S_ ",") :: ws).
  { replace ((fstr x ++ S_ ", " ++ fstr y) ++ [sp] ++ S_ "AirfoilRefPoint" ++ [sp]) with ((fstr x ++ S_ ",") ++ sp :: (fstr y ++ [sp] ++ S_ "AirfoilRefPoint" ++ [sp])) by (rewrite <- !app_assoc; reflexivity).
    rewrite split_ws_app by reflexivity. rewrite split_ws_token by (apply token_app; [exact Ht|reflexivity]). eexists. reflexivity. }
  destruct E as [ws E]. rewrite cleanLine_words, E.
  assert (P : exists vs, split_ws (cleanAfterChar "!" (join [sp] ((fstr x ++ S_ ",") :: ws))) = (fstr x ++ S_ ",") :: vs).
  { assert (Tk : is_token (fstr x ++ S_ ",") = true) by (apply token_app; [exact Ht|reflexivity]).
    assert (Fw : ~ In "!"%char (fstr x ++ S_ ",")) by (intro G; apply in_app_or in G; destruct G as [G|[G|[]]]; [apply (Hf _ G); now left|discriminate]).
    destruct ws as [|w ws]; [cbn [join]; rewrite cut_none by exact Fw; exists []; apply split_ws_token, Tk|].
    rewrite join_cons by discriminate. generalize (join [sp] (w :: ws)). intro t. change ([sp] ++ t) with (sp :: t).
    unfold cleanAfterChar. change (S_ "!") with ["!"%char].
    assert (Q : forall a, ~ In "!"%char a -> find_str (a ++ sp :: t) ["!"%char] = option_map (fun n => List.length a + 1 + n) (find_str t ["!"%char])).
    { clear. induction a as [|c a IH]; intro H.
      - cbn [app find_str startswith List.length]. change (chr_eqb sp "!") with false. cbn [andb]. destruct (find_str t ["!"%char]); reflexivity.
      - cbn [app find_str startswith]. destruct (chr_eqb_spec c "!") as [->|N]; [exfalso; apply H; now left|]. cbn [andb]. rewrite IH by (intro; apply H; now right).
        destruct (find_str t ["!"%char]); reflexivity. }
    rewrite Q by exact Fw. destruct (find_str t ["!"%char]) as [n|]; cbn [option_map].
    - destruct (List.length (fstr x ++ S_ ",") + 1 + n) eqn:En; [lia|]. rewrite <- En.
      replace (List.length (fstr x ++ S_ ",") + 1 + n) with (List.length (fstr x ++ S_ ",") + (1 + n)) by lia. rewrite firstn_app_2. cbn [app firstn plus].
      rewrite split_ws_app by reflexivity. rewrite split_ws_token by exact Tk. eexists. reflexivity.
    - cbn [app]. rewrite split_ws_app by reflexivity. rewrite split_ws_token by exact Tk. eexists. reflexivity. }
  destruct P as [vs P]. rewrite P. destruct vs as [|b vs]; [reflexivity|]. now rewrite Hc.
Qed.
End Tables.
Print Assumptions C85_num_table.
Print Assumptions C85_commented_table.
Print Assumptions C85_matrix.
Print Assumptions C85_mixed_table.
Print Assumptions C85_mixed_numbers.
Print Assumptions C85_airfoil_coordinates_refuted.
Print Assumptions C85_reference_point_refuted.
