(** C103: FLEX documentation files: numbers with an incomplete power of ten, tables of lines of different lengths, tables without lines. *)
From Verif Require Import Py PyFacts TextFacts ListFacts H2dat_Model H2dat_Props H2datNames_Props Dict FlexDoc_Model FlexDoc_Props.
Local Open Scope nat_scope.

Lemma mant_alone m e u : mantissa_text m -> In e (S_ "Ee") -> m_mant (m ++ e :: u) = Some (List.length m).
Proof.
  intros Hm He. assert (E1 : is_digit e = false /\ chr_eqb e (ch 46) = false) by (cbn in He; destruct He as [<-|[<-|[]]]; split; reflexivity). destruct E1 as [E1 E2].
  assert (T0 : take is_digit (e :: u) = []) by (cbn [take]; now rewrite E1).
  assert (N : forall c t, e :: u = c :: t -> is_digit c = false) by (intros c t E; injection E as <- _; exact E1).
  destruct Hm as [[Hm Hn]|[(a & -> & Ha & Hn)|(a & b & -> & Ha & Hb & Hn)]]; unfold m_mant.
  - rewrite (take_digits m (e :: u) Hm N), skipn_exact. destruct m as [|x m]; [contradiction|]. cbn [List.length Nat.leb]. rewrite E2. reflexivity.
  - rewrite <- app_assoc. rewrite (take_digits a (S_ "." ++ e :: u) Ha); [|intros c t E; injection E as <- _; reflexivity]. rewrite skipn_exact. change (S_ "." ++ e :: u) with ("."%char :: e :: u). cbv zeta iota. change (chr_eqb "."%char (ch 46)) with true. cbv iota.
    rewrite T0. destruct a as [|x a]; [contradiction|]. cbn [List.length Nat.leb]. rewrite app_length. reflexivity.
  - rewrite <- !app_assoc. rewrite (take_digits a (S_ "." ++ b ++ e :: u) Ha); [|intros c t E; injection E as <- _; reflexivity]. rewrite skipn_exact. change (S_ "." ++ b ++ e :: u) with ("."%char :: b ++ e :: u). cbv zeta iota. change (chr_eqb "."%char (ch 46)) with true. cbv iota.
    rewrite (take_digits b (e :: u) Hb N). destruct b as [|x b]; [contradiction|]. cbn [List.length Nat.leb]. rewrite !app_length. cbn [List.length]. f_equal. change (List.length (S_ ".")) with 1. lia.
Qed.
Lemma exp_alone e u : no_digit u -> m_exp (e :: u) = 0.
Proof.
  intro H. unfold m_exp. destruct (mem_chr e (S_ "Ee")); [|reflexivity]. cbv zeta. replace (take is_digit (skipn (m_sign u) u)) with (@nil ascii); [reflexivity|]. symmetry. apply no_digit_take. unfold m_sign. destruct u as [|c u]; [exact H|].
  destruct (mem_chr c (S_ "-+")); cbn [skipn]; [exact (no_digit_tl _ _ H)|exact H].
Qed.
Lemma rx_alone g m e u : sign_text g -> mantissa_text m -> In e (S_ "Ee") -> no_digit u -> rx 0 (g ++ m ++ e :: u) = [g ++ m].
Proof.
  intros Hg Hm He Hu. destruct (mant_first m Hm) as (c & t & Em & Ec).
  assert (G : m_sign (g ++ m ++ e :: u) = List.length g) by (destruct Hg as [->|[->| ->]]; [|reflexivity|reflexivity]; rewrite Em; cbn [app m_sign]; rewrite Ec; reflexivity).
  assert (X : m_num (g ++ m ++ e :: u) = Some (List.length (g ++ m))).
  { unfold m_num. rewrite G, skipn_exact, (mant_alone m e u Hm He). rewrite <- app_length. rewrite app_assoc, skipn_exact, (exp_alone e u Hu). f_equal. lia. }
  rewrite (rx_hit _ _ X). 2:{ rewrite Em, app_length. cbn [List.length]. lia. }
  rewrite app_assoc, skipn_exact. rewrite firstn_app, firstn_all, Nat.sub_diag. cbn [firstn]. rewrite app_nil_r. f_equal. apply rx_none. constructor; [|exact Hu].
  cbn in He. destruct He as [<-|[<-|[]]]; cbn; intuition discriminate.
Qed.

Section Doc.
Context {V : Type}.
Variable num : str -> option V.
Variable idx : nat -> V.
(** A power of ten without digits is not part of a number: the number is what comes before it. *)
Theorem C103_half_power k s g m e u v : name_ok k s -> ~ In (k, s) tables -> ~ In (k, s) matrices -> k <> S_ "Program" -> (k, s) <> (S_ "Global", S_ "Mode1_Shape") ->
  sign_text g -> mantissa_text m -> In e (S_ "Ee") -> no_digit u -> is_token (g ++ m ++ e :: u) = true -> num (g ++ m) = Some v ->
  exists d, read num idx [] [S_ "#Program"; written k s ++ S_ " " ++ g ++ m ++ e :: u] = Ok d /\ under d k s = Some (Scal v).
Proof.
  intros Hn Ht Hm Hk Hg2 Hg Hmm He Hu Tw Hv. set (w := g ++ m ++ e :: u) in *.
  unfold read. cbn [hd tl]. change (strip (S_ "#Program")) with (S_ "#Program"). change (startswith (S_ "#Program") (S_ "#Program")) with true. cbv iota. cbn [app].
  change (loop num idx (S (List.length [written k s ++ S_ " " ++ w; S_ "#Program"])) [written k s ++ S_ " " ++ w; S_ "#Program"] []) with (L num idx [written k s ++ S_ " " ++ w; S_ "#Program"] []).
  rewrite (L_regular num idx k s _ _ [] Hn); [|right; eexists sp, _; split; reflexivity|exact Ht|exact Hm]. change (S_ " " ++ w) with (sp :: w). rewrite split_ws_blank_cons by reflexivity. rewrite (split_ws_token w Tw). cbn [join].
  assert (RV : regular num w = Scal v) by (unfold regular, w; rewrite (rx_alone g m e u Hg Hmm He Hu); cbn [floats]; rewrite Hv; reflexivity). rewrite RV.
  assert (H0 : holds ([] : doc (V := V)) []) by (split; [intros k' s' v' []|split; [intros k' s' v' U; discriminate U|intros k' s' []]]).
  destruct (set_ok [] [] k s (Scal v) H0) as (d1 & -> & H1 & _); [split; [constructor; [intros []|constructor]|]; intros k' s' [E|[]] [E'|[]]; congruence|]. cbn [bind].
  destruct program_ok as (P1 & P2 & P3). change (S_ "#Program") with (written (S_ "Program") [] ++ []). rewrite (L_regular num idx (S_ "Program") [] [] [] (adjust d1) P1 (or_introl eq_refl) P2 P3).
  apply holds_adjust in H1. destruct (set_ok (adjust d1) [(k, s, Scal v)] (S_ "Program") [] (regular num (join (S_ " ") (split_ws []))) H1) as (d2 & -> & (A & _) & _).
  { cbn [map fst]. split; [constructor; [|constructor; [intros []|constructor]]|]; [intros [E|[]]; congruence|]. intros k' s' [E|[E|[]]] [E'|[E'|[]]]; congruence. }
  cbn [bind]. exists (adjust d2). split; [reflexivity|]. rewrite under_adjust. destruct (A k s (Scal v) (or_intror (or_introl eq_refl))) as (v' & U' & E). rewrite U'. cbn [option_map]. f_equal. rewrite E. unfold norm. destruct (_ && _); reflexivity.
Qed.
(** Lines of different lengths are an error, in a table and in a matrix (after the first line of it, which is lost). *)
Theorem C103_ragged k s t h ls rows rest : name_ok k s -> after t -> Forall data_line ls -> edge rest -> (exists r r', In r rows /\ In r' rows /\ List.length r <> List.length r') ->
  (In (k, s) tables /\ Forall2 (fun l r => Forall2 (cell num idx) (split_ws l) r) ls rows) \/ (In (k, s) matrices /\ Forall2 (fun l r => Forall2 (fun w v => num w = Some v) (split_ws l) r) ls rows) ->
  read num idx [] (S_ "#Program" :: (written k s ++ t) :: h :: ls ++ rest) = Err ValueError.
Proof.
  intros Hn Ha Hl He (r & r' & Hr & Hr' & D) HT. destruct (name_line k s t Hn) as (N1 & N2 & N3).
  assert (NP : np_array rows = Err ValueError).
  { unfold np_array. destruct (forallb _ rows) eqn:Q; [|reflexivity]. rewrite forallb_forall in Q. pose proof (Q _ Hr) as Q1. pose proof (Q _ Hr') as Q2. apply Nat.eqb_eq in Q1, Q2. lia. }
  assert (He' : edge (rest ++ [S_ "#Program"])) by (destruct rest; [right; exists (S_ "Program"); reflexivity|exact He]).
  unfold read. cbn [hd tl]. change (strip (S_ "#Program")) with (S_ "#Program"). change (startswith (S_ "#Program") (S_ "#Program")) with true. cbv iota. cbn [app loop List.length]. rewrite <- app_assoc.
  rewrite (nonempty_nil _ N1), N2, N3. cbn [negb]. cbv zeta. rewrite (split_after _ _ (written_token k s Hn) Ha). cbn [hd]. rewrite (array_lines_ok ls _ Hl He'). destruct HT as [[Ht F]|[Ht F]].
  - rewrite (tables_listed k s Ht). rewrite (rows_ok (num3 num idx) ls rows). 2:{ clear -F. induction F as [|l r ls rows H Hr IH]; constructor; [|exact IH]. clear -H. induction H; constructor; [now apply cell_num3|assumption]. }
    cbn [bind]. rewrite NP. reflexivity.
  - destruct (matrices_listed k s Ht) as [-> ->]. rewrite (rows_ok num ls rows F). cbn [bind]. rewrite NP. reflexivity.
Qed.
(** A table without lines is an error too. *)
Theorem C103_no_lines k s t h rest : name_ok k s -> after t -> edge rest -> In (k, s) tables -> read num idx [] (S_ "#Program" :: (written k s ++ t) :: h :: rest) = Err IndexError.
Proof.
  intros Hn Ha He Ht. destruct (name_line k s t Hn) as (N1 & N2 & N3). assert (He' : edge (rest ++ [S_ "#Program"])) by (destruct rest; [right; exists (S_ "Program"); reflexivity|exact He]).
  unfold read. cbn [hd tl]. change (strip (S_ "#Program")) with (S_ "#Program"). change (startswith (S_ "#Program") (S_ "#Program")) with true. cbv iota. cbn [app loop List.length].
  rewrite (nonempty_nil _ N1), N2, N3. cbn [negb]. cbv zeta. rewrite (split_after _ _ (written_token k s Hn) Ha). cbn [hd]. rewrite (tables_listed k s Ht). pose proof (array_lines_ok [] _ (Forall_nil _) He') as Q. cbn [app] in Q. rewrite Q. reflexivity.
Qed.
End Doc.

Definition one_digit (w : str) : option nat := match w with [c] => if is_digit c then Some (ord c - 48) else None | _ => None end.
Lemma ex_name k s : is_token k = true -> mem_chr "_"%char k = false -> mem_chr "#"%char k = false -> is_token s = true -> mem_chr "#"%char s = false -> name_ok k s.
Proof.
  intros A B C D E. split; [exact A|]. split; [intro M; apply mem_chr_iff in M; congruence|]. split; [intro M; apply mem_chr_iff in M; congruence|]. split; [now right|]. intro M. apply mem_chr_iff in M. congruence.
Qed.
Example C103_half_power_example : exists d, read one_digit (fun n => n) [] (map S_ ["#Program"; "#Blade_Length 5Emm"]%string) = Ok d /\ under d (S_ "Blade") (S_ "Length") = Some (Scal 5).
Proof.
  apply (C103_half_power one_digit (fun n => n) (S_ "Blade") (S_ "Length") [] (S_ "5") "E"%char (S_ "mm") 5); try reflexivity; try discriminate.
  - now apply ex_name.
  - intro H. apply (in_map snd) in H. revert H. vm_compute. intuition discriminate.
  - intro H. apply (in_map snd) in H. revert H. vm_compute. intuition discriminate.
  - now left.
  - left. split; [|discriminate]. repeat constructor; cbn; tauto.
  - cbn. tauto.
  - repeat constructor; cbn; intuition discriminate.
Qed.
Example C103_ragged_example : read one_digit (fun n => n) [] (map S_ ["#Program"; "#Tower_SectionData"; "a b"; "1 2"; "Fnd"; "#End"]%string) = Err ValueError.
Proof.
  apply (C103_ragged one_digit (fun n => n) (S_ "Tower") (S_ "SectionData") [] (S_ "a b") [S_ "1 2"; S_ "Fnd"] [[1; 2]; [0]] [S_ "#End"]).
  - now apply ex_name.
  - now left.
  - constructor; [|constructor; [|constructor]]; (eexists _, _; split; [reflexivity|discriminate]).
  - right. exists (S_ "End"). reflexivity.
  - exists [1; 2], [0]. split; [now left|]. split; [right; now left|discriminate].
  - left. split; [|constructor; [|constructor; [|constructor]]].
    + vm_compute. tauto.
    + constructor; [right; right; right; repeat split; discriminate|constructor; [right; right; right; repeat split; discriminate|constructor]].
    + constructor; [left; split; reflexivity|constructor].
Qed.
Example C103_no_lines_example : read one_digit (fun n => n) [] (map S_ ["#Program"; "#Tower_SectionData"; "a b"]%string) = Err IndexError.
Proof. apply (C103_no_lines one_digit (fun n => n) (S_ "Tower") (S_ "SectionData") [] (S_ "a b") []); [now apply ex_name|now left|exact Logic.I|vm_compute; tauto]. Qed.

Print Assumptions C103_half_power.
Print Assumptions C103_ragged.
Print Assumptions C103_no_lines.
