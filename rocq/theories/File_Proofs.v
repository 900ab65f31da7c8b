From Verif Require Import Py PyFacts FS File_Model.

(** ** ascii_comp *)
Lemma bar_not_space : is_space bar = false. Proof. reflexivity. Qed.
Lemma tab_space : is_space tab = true. Proof. reflexivity. Qed.

(** Replacing tabs by spaces does not change the words of a line. *)
Lemma split_on_map p g s : (forall c, p (g c) = p c) -> (forall c, p c = false -> g c = c) ->
  split_on p (map g s) = split_on p s.
Proof.
  intros H1 H2. induction s as [|c s IH]; cbn [map split_on]; [reflexivity|].
  rewrite H1, IH. destruct (p c) eqn:E; [reflexivity|]. rewrite (H2 c E). reflexivity.
Qed.
Lemma replace_chr_map a b s : replace_chr a [b] s = map (fun c => if chr_eqb c a then b else c) s.
Proof. unfold replace_chr. induction s as [|c s IH]; cbn; [reflexivity|]. rewrite IH. destruct (chr_eqb c a); reflexivity. Qed.
Lemma untab_words l : split_ws (replace_chr tab [sp] l) = split_ws l.
Proof.
  rewrite replace_chr_map. unfold split_ws. f_equal. apply split_on_map.
  - intro c. destruct (chr_eqb c tab) eqn:E; [|reflexivity]. apply chr_eqb_eq in E. subst. reflexivity.
  - intros c H. destruct (chr_eqb c tab) eqn:E; [|reflexivity]. apply chr_eqb_eq in E. subst. discriminate H.
Qed.

(** Words of [a ++ bar :: b] when [a] does not end with a blank and [b] does not start with one: we state it
    through the joined form. *)
Definition words (l : str) : str := join [sp] (split_ws l).

Lemma words_nonblank_head c s : is_space c = false -> exists w ws, split_ws (c :: s) = (c :: w) :: ws /\
  split_ws s = match s with
               | [] => ws
               | d :: _ => if is_space d then ws else w :: ws
               end.
Proof.
  intro Hc. unfold split_ws. cbn [split_on]. rewrite Hc.
  destruct (split_on is_space s) as [|w ws] eqn:E; [exfalso; eapply split_on_nonnil; exact E|].
  cbn [filter nonempty]. exists w, (filter nonempty ws). split; [reflexivity|].
  destruct s as [|d s].
  - cbn in E. injection E as <- <-. reflexivity.
  - cbn [split_on] in E. destruct (is_space d).
    + injection E as <- <-. reflexivity.
    + destruct (split_on is_space s) as [|v vs]; injection E as <- <-; reflexivity.
Qed.

Lemma words_cons_blank c s : is_space c = true -> words (c :: s) = words s.
Proof. intro H. unfold words. rewrite split_ws_blank_cons by exact H. reflexivity. Qed.

Lemma words_cons_nonblank c s : is_space c = false ->
  words (c :: s) = match s with
                   | [] => [c]
                   | d :: _ => if is_space d then c :: match split_ws s with [] => [] | _ => sp :: words s end
                               else c :: words s
                   end.
Proof.
  intro Hc. unfold words. destruct (words_nonblank_head c s Hc) as [w [ws [H1 H2]]]. rewrite H1.
  destruct s as [|d s].
  - cbn in H2. subst ws. cbn in H1. rewrite Hc in H1. cbn in H1. injection H1 as <-. reflexivity.
  - destruct (is_space d) eqn:Ed.
    + rewrite H2. assert (Hw : w = []).
      { unfold split_ws in H1. cbn [split_on] in H1. rewrite Hc, Ed in H1. cbn [filter nonempty] in H1.
        injection H1 as <- _. reflexivity. }
      subst w. destruct ws; reflexivity.
    + rewrite H2. cbn [join]. destruct ws; reflexivity.
Qed.

(** Key lemma: bars glued to non-blank neighbours pass through the words function. *)
Definition ends_ok (a : str) : Prop := a = [] \/ exists x c, a = x ++ [c] /\ is_space c = false.
Lemma ends_ok_tl c a : ends_ok (c :: a) -> a <> [] -> ends_ok a.
Proof.
  intros [H|[x [d [H Hd]]]] Hne; [discriminate|]. destruct x as [|y x].
  - cbn in H. injection H as -> ->. contradiction.
  - cbn in H. injection H as -> ->. right. exists x, d. split; [reflexivity | exact Hd].
Qed.
Lemma words_app_bar a b : ends_ok a ->
  match b with [] => True | c :: _ => is_space c = false end ->
  words (a ++ bar :: b) = words a ++ bar :: words b.
Proof.
  intros Ha Hb. induction a as [|c a IH].
  - cbn [app]. rewrite words_cons_nonblank by reflexivity. destruct b as [|d b]; [reflexivity|]. rewrite Hb. reflexivity.
  - destruct a as [|d a].
    + destruct Ha as [H|[x [e [H He]]]]; [discriminate|].
      destruct x as [|? x]; [|destruct x; discriminate]. cbn in H. injection H as ->.
      cbn [app]. rewrite words_cons_nonblank by exact He. cbn [is_space].
      change (is_space bar) with false. cbn iota.
      rewrite words_cons_nonblank by reflexivity.
      rewrite (words_cons_nonblank e []) by exact He. destruct b as [|d b]; [reflexivity|]. rewrite Hb. reflexivity.
    + assert (IH' : words ((d :: a) ++ bar :: b) = words (d :: a) ++ bar :: words b).
      { apply IH. eapply ends_ok_tl; [exact Ha | discriminate]. }
      destruct (is_space c) eqn:Ec.
      * cbn [app]. rewrite (words_cons_blank c (d :: a)), (words_cons_blank c (d :: a ++ bar :: b)) by exact Ec. exact IH'.
      * change ((c :: d :: a) ++ bar :: b) with (c :: ((d :: a) ++ bar :: b)).
        rewrite (words_cons_nonblank c ((d :: a) ++ bar :: b)), (words_cons_nonblank c (d :: a)) by exact Ec. cbn [app] in *.
        destruct (is_space d) eqn:Ed.
        -- assert (Hne : split_ws (d :: a) <> []).
           { intro H. assert (He : ends_ok (d :: a)) by (eapply ends_ok_tl; [exact Ha | discriminate]).
             destruct He as [He|[x [e [He Hee]]]]; [discriminate|].
             rewrite He in H. clear - H Hee.
             induction x as [|y x IH].
             - cbn in H. unfold split_ws in H. cbn in H. rewrite Hee in H. discriminate.
             - cbn [app] in H. destruct (is_space y) eqn:Ey.
               + rewrite split_ws_blank_cons in H by exact Ey. apply IH. exact H.
               + destruct (words_nonblank_head y (x ++ [e]) Ey) as [w [ws [H1 _]]]. rewrite H1 in H. discriminate. }
           assert (Hne2 : split_ws (d :: a ++ bar :: b) <> []).
           { intro H. assert (Hw : words (d :: a ++ bar :: b) = []) by (unfold words; rewrite H; reflexivity).
             rewrite Hw in IH'. symmetry in IH'. apply app_eq_nil in IH'. destruct IH' as [_ Hx]. discriminate Hx. }
           destruct (split_ws (d :: a)); [contradiction|]. destruct (split_ws (d :: a ++ bar :: b)); [contradiction|].
           rewrite IH'. reflexivity.
        -- rewrite IH'. reflexivity.
Qed.

Lemma strip_ends_ok l : ends_ok (strip l).
Proof.
  pose proof (strip_no_edge l) as H. unfold no_edge_space in H. apply andb_prop in H. destruct H as [_ H].
  destruct (rev (strip l)) as [|c t] eqn:E.
  - left. apply (f_equal (@rev ascii)) in E. rewrite rev_involutive in E. exact E.
  - right. exists (rev t), c. apply (f_equal (@rev ascii)) in E. rewrite rev_involutive in E. cbn in E.
    split; [exact E | apply negb_true_iff; exact H].
Qed.
Lemma strip_head_ok l : match strip l with [] => True | c :: _ => is_space c = false end.
Proof.
  pose proof (strip_no_edge l) as H. unfold no_edge_space in H. apply andb_prop in H. destruct H as [H _].
  destruct (strip l); [exact I | apply negb_true_iff; exact H].
Qed.

Lemma words_join ls : words (join [bar] (map strip ls)) = join [bar] (map words ls).
Proof.
  assert (Hs : forall l, words (strip l) = words l) by (intro l; unfold words; rewrite split_ws_strip; reflexivity).
  induction ls as [|l ls IH]; [reflexivity|]. destruct ls as [|l2 ls].
  - cbn. apply Hs.
  - change (join [bar] (map strip (l :: l2 :: ls))) with (strip l ++ bar :: join [bar] (map strip (l2 :: ls))).
    change (join [bar] (map words (l :: l2 :: ls))) with (words l ++ bar :: join [bar] (map words (l2 :: ls))).
    rewrite words_app_bar; [rewrite IH, Hs; reflexivity | apply strip_ends_ok |].
    cbn [map join]. pose proof (strip_head_ok l2) as H2.
    destruct (map strip ls) as [|m ms].
    + exact H2.
    + destruct (strip l2); [reflexivity | exact H2].
Qed.

Lemma canon_spec content :
  canon content = join [bar] (map (fun l => join [sp] (split_ws l)) (splitlines (universal_newlines content))).
Proof.
  unfold canon. rewrite <- (map_map (replace_chr tab [sp]) strip).
  fold (words (join [bar] (map strip (map (replace_chr tab [sp]) (splitlines (universal_newlines content)))))).
  rewrite words_join, map_map. f_equal. apply map_ext. intro l. unfold words. rewrite untab_words. reflexivity.
Qed.

Definition file_words (content : str) : list (list str) :=
  map split_ws (splitlines (universal_newlines content)).

Lemma same_words_same c1 c2 : file_words c1 = file_words c2 -> ascii_comp c1 c2 = true.
Proof.
  unfold file_words. intro H. unfold ascii_comp. rewrite !canon_spec. apply str_eqb_eq. f_equal.
  rewrite <- !(map_map split_ws (join [sp])). rewrite H. reflexivity.
Qed.

Lemma no_bar_words l : mem_chr bar l = false -> mem_chr bar (join [sp] (split_ws l)) = false.
Proof.
  intro H. destruct (mem_chr bar (join [sp] (split_ws l))) eqn:E; [|reflexivity].
  exfalso. apply mem_chr_iff in E.
  assert (Hin : forall ws, In bar (join [sp] ws) -> exists w, In w ws /\ In bar w).
  { clear. induction ws as [|w ws IH]; [intros []|]. destruct ws as [|w2 ws].
    - cbn. intro H. exists w. split; [left; reflexivity | exact H].
    - cbn [join]. intro H. apply in_app_or in H. destruct H as [H|H].
      + exists w. split; [left; reflexivity | exact H].
      + cbn in H. destruct H as [H|H]; [discriminate H|]. destruct (IH H) as [v [Hv1 Hv2]].
        exists v. split; [right; exact Hv1 | exact Hv2]. }
  destruct (Hin _ E) as [w [Hw1 Hw2]]. unfold split_ws in Hw1. apply filter_In in Hw1. destruct Hw1 as [Hw1 _].
  assert (G : forall s w c, In w (split_on is_space s) -> In c w -> In c s).
  { clear. induction s as [|x s IH]; cbn; intros w c Hw Hc.
    - destruct Hw as [<-|[]]. destruct Hc.
    - destruct (is_space x).
      + destruct Hw as [<-|Hw]; [destruct Hc|]. right. eapply IH; eassumption.
      + destruct (split_on is_space s) as [|v vs].
        * destruct Hw as [<-|[]]. destruct Hc as [<-|[]]. left. reflexivity.
        * destruct Hw as [<-|Hw].
          -- destruct Hc as [<-|Hc]; [left; reflexivity|]. right. apply (IH v c); [left; reflexivity | exact Hc].
          -- right. apply (IH w c); [right; exact Hw | exact Hc]. }
  assert (In bar l) by (eapply G; eassumption).
  assert (mem_chr bar l = true) by (apply mem_chr_iff; assumption). congruence.
Qed.

Lemma join_words_inj l1 l2 : join [sp] (split_ws l1) = join [sp] (split_ws l2) -> split_ws l1 = split_ws l2.
Proof.
  intro H. rewrite <- (split_ws_join [sp] (split_ws l1)), <- (split_ws_join [sp] (split_ws l2));
    try reflexivity; try discriminate; try apply split_ws_tokens. rewrite H. reflexivity.
Qed.

Definition blank_only (c : list (list str)) : bool := match c with [] => true | [[]] => true | _ => false end.
Lemma canon_nil_blank ls : join [bar] (map (fun l => join [sp] (split_ws l)) ls) = [] -> blank_only (map split_ws ls) = true.
Proof.
  destruct ls as [|l ls]; [reflexivity|]. destruct ls as [|l2 ls].
  - cbn. intro H. destruct (split_ws l) as [|w ws] eqn:E; [reflexivity|]. exfalso.
    pose proof (split_ws_tokens l) as Ht. rewrite E in Ht. cbn in Ht. apply andb_prop in Ht. destruct Ht as [Ht _].
    cbn in H. destruct ws; destruct w; try discriminate.
  - intro H. exfalso. cbn [map join] in H. apply app_eq_nil in H. destruct H as [_ H]. discriminate.
Qed.

Lemma ascii_comp_iff c1 c2 :
  forallb (fun l => negb (mem_chr bar l)) (splitlines (universal_newlines c1)) = true ->
  forallb (fun l => negb (mem_chr bar l)) (splitlines (universal_newlines c2)) = true ->
  (ascii_comp c1 c2 = true <->
   file_words c1 = file_words c2 \/ (blank_only (file_words c1) = true /\ blank_only (file_words c2) = true)).
Proof.
  intros H1 H2. unfold file_words. unfold ascii_comp. rewrite !canon_spec, str_eqb_eq.
  set (f := fun l => join [sp] (split_ws l)).
  assert (Hb : forall ls, forallb (fun l => negb (mem_chr bar l)) ls = true ->
    forallb (fun w => negb (mem_chr bar w)) (map f ls) = true).
  { intros ls H. rewrite forallb_forall in *. intros x Hx. apply in_map_iff in Hx. destruct Hx as [l [<- Hl]].
    apply H in Hl. apply negb_true_iff in Hl. apply negb_true_iff. apply no_bar_words. exact Hl. }
  apply Hb in H1. apply Hb in H2.
  set (ls1 := splitlines (universal_newlines c1)) in *. set (ls2 := splitlines (universal_newlines c2)) in *.
  split.
  - intro E. destruct ls1 as [|a ls1'] eqn:E1.
    { right. split; [reflexivity|]. symmetry in E. apply (canon_nil_blank ls2). exact E. }
    destruct ls2 as [|b ls2'] eqn:E2.
    { right. split; [apply (canon_nil_blank (a :: ls1')); exact E | reflexivity]. }
    left. assert (Em : map f (a :: ls1') = map f (b :: ls2')).
    { rewrite <- (split_chr_join bar (map f (a :: ls1'))), <- (split_chr_join bar (map f (b :: ls2')));
        try assumption; try discriminate. rewrite E. reflexivity. }
    clear - Em. revert Em. generalize (a :: ls1') (b :: ls2'). induction l as [|x l IH]; intros [|y m] Em; try discriminate; [reflexivity|].
    cbn [map] in *. injection Em as Ex Em. f_equal; [apply join_words_inj; exact Ex | apply IH; exact Em].
  - intros [E|[E1 E2]].
    + rewrite <- !(map_map split_ws (join [sp])). rewrite E. reflexivity.
    + assert (G : forall ls, blank_only (map split_ws ls) = true -> join [bar] (map f ls) = []).
      { clear. intros [|l [|l2 ls]] H; [reflexivity| |cbn in H; destruct (split_ws l); discriminate].
        cbn in *. subst f. cbn. destruct (split_ws l); [reflexivity|discriminate]. }
      rewrite (G _ E1), (G _ E2). reflexivity.
Qed.

(** ** File protocol *)
Section P.
  Variable data kwargs : Type.
  Variable child_read : fs -> str -> kwargs -> data -> data * res unit.
  Variable child_write : fs -> str -> data -> fs * data * res unit.

  (** The name a call works on: the argument if given and non-empty, else the remembered one. *)
  Definition effective_name (o : file_obj data) (arg : option str) : option str :=
    match arg with Some (c :: s) => Some (c :: s) | _ => o_filename o end.

  Lemma remember_eff o arg : remember data o arg = FileObj (effective_name o arg) (o_data o).
  Proof. unfold remember, effective_name, truthy. destruct o, arg as [[|c s]|]; reflexivity. Qed.

  Lemma read_guards f o arg kw :
    match effective_name o arg with
    | None | Some [] => File_read data kwargs child_read f o arg kw
                        = (FileObj (effective_name o arg) (o_data o), Err PlainException)
    | Some name =>
        match f name with
        | Missing | Dir => File_read data kwargs child_read f o arg kw = (FileObj (Some name) (o_data o), Err OSError2)
        | Reg [] => File_read data kwargs child_read f o arg kw = (FileObj (Some name) (o_data o), Err EmptyFileError)
        | Reg (_ :: _) => File_read data kwargs child_read f o arg kw
                          = (FileObj (Some name) (fst (child_read f name kw (o_data o))),
                             snd (child_read f name kw (o_data o)))
        end
    end.
  Proof.
    unfold File_read. rewrite remember_eff. cbn [o_filename o_data].
    destruct (effective_name o arg) as [[|c s]|]; [reflexivity| |reflexivity].
    cbn [truthy negb]. destruct (f (c :: s)) as [| |[|b bs]]; try reflexivity.
    destruct (child_read f (c :: s) kw (o_data o)); reflexivity.
  Qed.

  Lemma write_guards f o arg :
    match effective_name o arg with
    | None | Some [] => File_write data child_write f o arg
                        = (f, FileObj (effective_name o arg) (o_data o), Err PlainException)
    | Some name => File_write data child_write f o arg
                   = (let '(f', d, r) := child_write f name (o_data o) in (f', FileObj (Some name) d, r))
    end.
  Proof.
    unfold File_write. rewrite remember_eff. cbn [o_filename o_data].
    destruct (effective_name o arg) as [[|c s]|]; reflexivity.
  Qed.

  (** Histories of reads and writes. *)
  Inductive fop := ORead (arg : option str) (kw : kwargs) | OWrite (arg : option str).
  Definition fop_arg (op : fop) := match op with ORead a _ => a | OWrite a => a end.
  Definition fstep (s : fs * file_obj data) (op : fop) : fs * file_obj data :=
    match op with
    | ORead a kw => (fst s, fst (File_read data kwargs child_read (fst s) (snd s) a kw))
    | OWrite a => let '(f', o', _) := File_write data child_write (fst s) (snd s) a in (f', o')
    end.
  Definition last_name (ops : list fop) (n0 : option str) : option str :=
    fold_left (fun n op => match fop_arg op with Some (c :: s) => Some (c :: s) | _ => n end) ops n0.
  Lemma fstep_name s op : o_filename (snd (fstep s op)) = effective_name (snd s) (fop_arg op).
  Proof.
    destruct op as [a kw|a]; cbn [fstep fop_arg snd].
    - pose proof (read_guards (fst s) (snd s) a kw) as H.
      destruct (effective_name (snd s) a) as [[|c n]|]; [rewrite H; reflexivity| |rewrite H; reflexivity].
      destruct (fst s (c :: n)) as [| |[|b bs]]; rewrite H; reflexivity.
    - pose proof (write_guards (fst s) (snd s) a) as H.
      destruct (effective_name (snd s) a) as [[|c n]|]; rewrite H; try reflexivity.
      destruct (child_write (fst s) (c :: n) (o_data (snd s))) as [[f' d] r]. reflexivity.
  Qed.
  Lemma name_history ops s :
    o_filename (snd (fold_left fstep ops s)) = last_name ops (o_filename (snd s)).
  Proof.
    revert s. induction ops as [|op ops IH]; intro s; [reflexivity|].
    cbn [fold_left]. unfold last_name in *. cbn [fold_left]. rewrite IH, fstep_name. reflexivity.
  Qed.
End P.
