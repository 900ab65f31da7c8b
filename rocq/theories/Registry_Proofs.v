From Verif Require Import Py PyFacts Registry_Model Registry_Spec.
From Coq Require Import Permutation Sorted ZifyBool.

(** ** Stable sort *)
Lemma insert_prio_perm x l : Permutation (x :: l) (insert_prio x l).
Proof.
  induction l as [|y l IH]; cbn; [reflexivity|].
  destruct (fst x <=? fst y)%Z; [reflexivity|].
  rewrite perm_swap. apply perm_skip. exact IH.
Qed.
Lemma sort_prio_perm l : Permutation l (sort_prio l).
Proof.
  induction l as [|x l IH]; cbn; [constructor|].
  rewrite <- insert_prio_perm. apply perm_skip. exact IH.
Qed.
Definition leP (x y : Z * fmt) := (fst x <= fst y)%Z.
Lemma insert_prio_sorted x l : StronglySorted leP l -> StronglySorted leP (insert_prio x l).
Proof.
  unfold leP. induction l as [|y l IH]; cbn; intro H; [repeat constructor|].
  destruct (Z.leb_spec (fst x) (fst y)) as [Hle|Hgt].
  - constructor; [exact H|]. inversion H as [|? ? H1 H2]; subst. constructor; [exact Hle|].
    eapply Forall_impl; [|exact H2]. cbn. intros. lia.
  - inversion H as [|? ? H1 H2]; subst. constructor; [apply IH; exact H1|].
    rewrite Forall_forall. intros z Hz.
    apply (Permutation_in z (Permutation_sym (insert_prio_perm x l))) in Hz.
    destruct Hz as [<-|Hz]; [lia|]. rewrite Forall_forall in H2. apply H2. exact Hz.
Qed.
Lemma sort_prio_sorted l : StronglySorted leP (sort_prio l).
Proof. induction l as [|x l IH]; cbn; [constructor|]. apply insert_prio_sorted. exact IH. Qed.
Lemma insert_prio_filter x l p : StronglySorted leP l ->
  filter (fun z => (fst z =? p)%Z) (insert_prio x l) = filter (fun z => (fst z =? p)%Z) (x :: l).
Proof.
  intro Hs. induction l as [|y l IH]; [reflexivity|].
  cbn [insert_prio]. destruct (Z.leb_spec (fst x) (fst y)) as [Hle|Hgt]; [reflexivity|].
  inversion Hs as [|? ? H1 H2]; subst. cbn [filter]. rewrite (IH H1). cbn [filter].
  destruct (Z.eqb_spec (fst x) p) as [Ex|Ex], (Z.eqb_spec (fst y) p) as [Ey|Ey]; try reflexivity. lia.
Qed.
Lemma sort_prio_filter l p :
  filter (fun z => (fst z =? p)%Z) (sort_prio l) = filter (fun z => (fst z =? p)%Z) l.
Proof.
  induction l as [|x l IH]; cbn [sort_prio]; [reflexivity|].
  rewrite insert_prio_filter by apply sort_prio_sorted. cbn [filter]. rewrite IH. reflexivity.
Qed.
Lemma sort_prio_stable l : StablySorted l (sort_prio l).
Proof.
  split; [apply sort_prio_perm|]. split; [apply sort_prio_sorted | intro; apply sort_prio_filter].
Qed.

(** The stable sort is unique. *)
Lemma stable_unique l1 l2 : StronglySorted leP l1 -> StronglySorted leP l2 ->
  (forall p, filter (fun z => (fst z =? p)%Z) l1 = filter (fun z => (fst z =? p)%Z) l2) -> l1 = l2.
Proof.
  revert l2. induction l1 as [|x l1 IH]; intros l2 H1 H2 Hf.
  - destruct l2 as [|y l2]; [reflexivity|]. specialize (Hf (fst y)). cbn in Hf. rewrite Z.eqb_refl in Hf. discriminate.
  - destruct l2 as [|y l2].
    + specialize (Hf (fst x)). cbn in Hf. rewrite Z.eqb_refl in Hf. discriminate.
    + inversion H1 as [|? ? H1a H1b]; subst. inversion H2 as [|? ? H2a H2b]; subst.
      assert (Hxy : fst x = fst y).
      { assert (Hx : In x (y :: l2)).
        { pose proof (Hf (fst x)) as H. cbn [filter] in H. rewrite Z.eqb_refl in H.
          assert (In x (filter (fun z => (fst z =? fst x)%Z) (y :: l2))).
          { cbn [filter]. rewrite <- H. left. reflexivity. }
          apply filter_In in H0. apply H0. }
        assert (Hy : In y (x :: l1)).
        { pose proof (Hf (fst y)) as H. cbn [filter] in H. rewrite Z.eqb_refl in H.
          assert (In y (filter (fun z => (fst z =? fst y)%Z) (x :: l1))).
          { cbn [filter]. rewrite H. left. reflexivity. }
          apply filter_In in H0. apply H0. }
        unfold leP in *. rewrite Forall_forall in H1b, H2b.
        destruct Hx as [->|Hx]; [reflexivity|]. destruct Hy as [->|Hy]; [reflexivity|].
        apply H2b in Hx. apply H1b in Hy. lia. }
      assert (x = y).
      { pose proof (Hf (fst x)) as H. cbn [filter] in H. rewrite Z.eqb_refl, <- Hxy, Z.eqb_refl in H.
        injection H as H _. exact H. }
      subst y. f_equal. apply IH; [exact H1a | exact H2a |].
      intro p. pose proof (Hf p) as H. cbn [filter] in H. destruct (fst x =? p)%Z; [injection H as H|]; exact H.
Qed.

Lemma stably_sorted_unique l l1 l2 : StablySorted l l1 -> StablySorted l l2 -> l1 = l2.
Proof.
  intros [_ [Ha Hb]] [_ [Hc Hd]]. apply stable_unique; [exact Ha | exact Hc |].
  intro p. rewrite Hb, Hd. reflexivity.
Qed.

(** ** User classes *)
Lemma pick_class_find ms :
  pick_class ms = match find wanted ms with Some (MClass _ ff p) => Some (ff, p) | _ => None end.
Proof.
  induction ms as [|m ms IH]; cbn [pick_class find]; [reflexivity|].
  destruct m as [n ff p|]; cbn [wanted].
  - change (is_file_class n) with (negb (str_eqb (lower n) (S_ "file")) && contains (lower n) (S_ "file")
      && negb (contains (lower n) (S_ "error"))).
    destruct (negb (str_eqb (lower n) (S_ "file")) && contains (lower n) (S_ "file")
      && negb (contains (lower n) (S_ "error"))); [reflexivity | exact IH].
  - exact IH.
Qed.
Lemma find_wanted_class ms x : find wanted ms = Some x -> exists n ff p, x = MClass n ff p.
Proof.
  intro H. apply find_some in H. destruct H as [_ H]. destruct x as [n ff p|]; [|discriminate].
  exists n, ff, p. reflexivity.
Qed.

Lemma user_ok_ignore files : exists cs n1, userFileClasses true files = Ok (cs, n1).
Proof.
  induction files as [|f fs [cs [n1 IH]]]; cbn [userFileClasses].
  - exists [], 0. reflexivity.
  - rewrite IH. cbn [bind]. destruct (str_eqb (u_path f) (S_ "__init__.py")); [eauto|].
    destruct (u_load f) as [ms|]; [destruct (pick_class ms)|]; eauto.
Qed.
Lemma register_ok_ignore cs : exists l n, registerUser true cs = Ok (l, n).
Proof.
  induction cs as [|[ff p] cs [l [n IH]]]; cbn [registerUser].
  - exists [], 0. reflexivity.
  - rewrite IH. cbn [bind]. destruct ff; eauto.
Qed.

Lemma user_contrib ign files cs n1 us n2 :
  userFileClasses ign files = Ok (cs, n1) -> registerUser ign cs = Ok (us, n2) ->
  us = flat_map contribution files /\ n1 + n2 = List.length (filter faulty files).
Proof.
  revert cs n1 us n2. induction files as [|f fs IH]; intros cs n1 us n2 Hu Hr.
  - cbn in Hu. injection Hu as <- <-. cbn in Hr. injection Hr as <- <-. split; reflexivity.
  - cbn [userFileClasses] in Hu. cbn [flat_map filter]. unfold faulty at 1. unfold contribution at 1 3.
    fold (skipped f) in Hu.
    destruct (skipped f); cbn [negb andb]; [apply (IH _ _ _ _ Hu Hr)|].
    destruct (u_load f) as [ms|].
    + rewrite pick_class_find in Hu. destruct (find wanted ms) as [x|] eqn:Ef.
      * apply find_wanted_class in Ef. destruct Ef as [n [ff [p ->]]].
        destruct (userFileClasses ign fs) as [[cs' n']|e]; [|discriminate].
        cbn [bind] in Hu. injection Hu as <- <-. cbn [registerUser] in Hr.
        destruct ff as [ff|].
        -- destruct (registerUser ign cs') as [[l n'']|e] eqn:Er; [|discriminate].
           cbn [bind] in Hr. injection Hr as <- <-.
           destruct (IH _ _ _ _ eq_refl Er) as [H1 H2]. split; [cbn; rewrite H1; reflexivity | exact H2].
        -- destruct ign; [|discriminate].
           destruct (registerUser true cs') as [[l n'']|e] eqn:Er; [|discriminate].
           cbn [bind] in Hr. injection Hr as <- <-.
           destruct (IH _ _ _ _ eq_refl Er) as [H1 H2]. split; [exact H1 | cbn; lia].
      * destruct ign; [|discriminate].
        destruct (userFileClasses true fs) as [[cs' n']|e]; [|discriminate].
        cbn [bind] in Hu. injection Hu as <- <-.
        destruct (IH _ _ _ _ eq_refl Hr) as [H1 H2]. split; [exact H1 | cbn; lia].
    + destruct ign; [|discriminate].
      destruct (userFileClasses true fs) as [[cs' n']|e]; [|discriminate].
      cbn [bind] in Hu. injection Hu as <- <-.
      destruct (IH _ _ _ _ eq_refl Hr) as [H1 H2]. split; [exact H1 | cbn; lia].
Qed.

Lemma build_formats_spec ign files l n : buildFormats ign files = Ok (l, n) ->
  StablySorted (lib_formats ++ flat_map contribution files) l
  /\ n = List.length (filter faulty files).
Proof.
  unfold buildFormats. intro H.
  destruct (userFileClasses ign files) as [[cs n1]|e] eqn:Eu; [|discriminate]. cbn [bind] in H.
  destruct (registerUser ign cs) as [[us n2]|e] eqn:Er; [|discriminate]. cbn [bind] in H.
  assert (Hl : l = sort_prio (lib_formats ++ us)).
  { apply (f_equal (fun r => match r with Ok p => fst p | Err _ => [] end)) in H. cbn [fst] in H. symmetry. exact H. }
  assert (Hn : n = n1 + n2).
  { apply (f_equal (fun r => match r with Ok p => snd p | Err _ => 0 end)) in H. cbn [snd] in H. symmetry. exact H. }
  subst l n. destruct (user_contrib _ _ _ _ _ _ Eu Er) as [-> H2].
  split; [apply sort_prio_stable | exact H2].
Qed.

Lemma build_formats_strict_fails files :
  (exists e, buildFormats false files = Err e) <-> existsb faulty files = true.
Proof.
  unfold buildFormats.
  assert (G : match (' (cs, n1) <- userFileClasses false files;; registerUser false cs) with
              | Ok _ => existsb faulty files = false
              | Err _ => existsb faulty files = true end).
  { induction files as [|f fs IH]; [reflexivity|].
    cbn [userFileClasses existsb]. unfold faulty at 1 3. fold (skipped f).
    unfold contribution. destruct (skipped f); cbn [negb andb orb]; [exact IH|].
    destruct (u_load f) as [ms|]; [|reflexivity].
    rewrite pick_class_find. destruct (find wanted ms) as [x|] eqn:Ef; [|reflexivity].
    apply find_wanted_class in Ef. destruct Ef as [n [ff [p ->]]].
    destruct (userFileClasses false fs) as [[cs' n']|e]; cbn [bind] in *.
    - cbn [registerUser]. destruct ff as [ff|]; [|reflexivity].
      destruct (registerUser false cs') as [[l n'']|e]; cbn [bind orb]; exact IH.
    - destruct ff; cbn [orb]; [exact IH|reflexivity]. }
  destruct (userFileClasses false files) as [[cs n1]|e]; cbn [bind] in *.
  - destruct (registerUser false cs) as [[us n2]|e]; cbn [bind].
    + split; [intros [e H]; discriminate | intro H; congruence].
    + split; [intros _; exact G | intros _; eauto].
  - split; [intros _; exact G | intros _; eauto].
Qed.

Lemma build_formats_ignore_ok files : exists l n, buildFormats true files = Ok (l, n).
Proof.
  unfold buildFormats. destruct (user_ok_ignore files) as [cs [n1 ->]]. cbn [bind].
  destruct (register_ok_ignore cs) as [us [n2 ->]]. cbn [bind]. eauto.
Qed.

(** Default-priority user formats come after the CSV and Excel readers and before all others. *)
Fixpoint sorted_b (l : list Z) : bool :=
  match l with [] => true | x :: l' => forallb (Z.leb x) l' && sorted_b l' end.
Lemma sorted_b_ok l : sorted_b (map fst l) = true -> StronglySorted leP l.
Proof.
  induction l as [|x l IH]; cbn [map sorted_b]; intro H; [constructor|].
  apply andb_prop in H. destruct H as [H1 H2]. constructor; [apply IH; exact H2|].
  rewrite Forall_forall. intros y Hy. rewrite forallb_forall in H1. unfold leP. apply Z.leb_le.
  apply H1. apply in_map. exact Hy.
Qed.
Lemma sorted_b_lib : sorted_b (map fst lib_formats) = true.
Proof. vm_compute. reflexivity. Qed.

Definition lib_head := firstn 2 lib_formats.
Definition lib_tail := skipn 2 lib_formats.
Lemma lib_split : lib_formats = lib_head ++ lib_tail.
Proof. unfold lib_head, lib_tail. symmetry. apply firstn_skipn. Qed.
Lemma lib_head_le : forallb (fun x => (fst x <=? 2)%Z && negb (fst x =? 2)%Z) lib_head = true.
Proof. vm_compute. reflexivity. Qed.
Lemma lib_tail_ge : forallb (fun x => (2 <=? fst x)%Z && negb (fst x =? 2)%Z) lib_tail = true.
Proof. vm_compute. reflexivity. Qed.
Lemma lib_head_sorted : sorted_b (map fst lib_head) = true.
Proof. vm_compute. reflexivity. Qed.
Lemma lib_tail_sorted : sorted_b (map fst lib_tail) = true.
Proof. vm_compute. reflexivity. Qed.

Lemma ss_app l1 l2 : StronglySorted leP l1 -> StronglySorted leP l2 ->
  (forall x y, In x l1 -> In y l2 -> leP x y) -> StronglySorted leP (l1 ++ l2).
Proof.
  intros H1 H2 H. induction l1 as [|x l1 IH]; [exact H2|]. inversion H1 as [|? ? Ha Hb]; subst.
  cbn [app]. constructor.
  - apply IH; [exact Ha|]. intros a b Ha' Hb'. apply H; [right; exact Ha' | exact Hb'].
  - apply Forall_app. split; [exact Hb|]. rewrite Forall_forall. intros y Hy. apply H; [left; reflexivity | exact Hy].
Qed.

Lemma user_default_position us : Forall (fun x => fst x = 2%Z) us ->
  sort_prio (lib_formats ++ us) = firstn 2 lib_formats ++ us ++ skipn 2 lib_formats.
Proof.
  intro Hu. fold lib_head lib_tail. rewrite lib_split.
  pose proof lib_head_le as HA. pose proof lib_tail_ge as HB.
  pose proof (sorted_b_ok _ lib_head_sorted) as SA. pose proof (sorted_b_ok _ lib_tail_sorted) as SB.
  generalize dependent lib_head. generalize dependent lib_tail. intros B HB SB A HA SA.
  rewrite forallb_forall in HA, HB. rewrite Forall_forall in Hu.
  apply (stably_sorted_unique ((A ++ B) ++ us)); [apply sort_prio_stable|].
  split; [|split].
  - rewrite <- app_assoc. apply Permutation_app_head. apply Permutation_app_comm.
  - change (fun x y : Z * fmt => (fst x <= fst y)%Z) with leP.
    apply ss_app; [exact SA | apply ss_app; [| exact SB |] |].
    + clear - Hu. induction us as [|x us IH]; constructor.
      * apply IH. intros y Hy. apply Hu. right. exact Hy.
      * rewrite Forall_forall. intros y Hy. unfold leP. rewrite (Hu x (or_introl eq_refl)), (Hu y (or_intror Hy)). lia.
    + intros x y Hx Hy. specialize (Hu x Hx). specialize (HB y Hy). unfold leP. lia.
    + intros x y Hx Hy. specialize (HA x Hx). unfold leP. apply in_app_or in Hy. destruct Hy as [Hy|Hy].
      * specialize (Hu y Hy). lia.
      * specialize (HB y Hy). lia.
  - intro p. rewrite !filter_app, <- app_assoc. f_equal.
    destruct (Z.eqb_spec p 2) as [->|Hp].
    + assert (E : filter (fun x : Z * fmt => (fst x =? 2)%Z) B = []).
      { clear - HB. induction B as [|x B IH]; [reflexivity|]. cbn [filter].
        pose proof (HB x (or_introl eq_refl)) as Hx. destruct (fst x =? 2)%Z; [lia|].
        apply IH. intros y Hy. apply HB. right. exact Hy. }
      rewrite E, app_nil_r. reflexivity.
    + assert (E : filter (fun x : Z * fmt => (fst x =? p)%Z) us = []).
      { clear - Hu Hp. induction us as [|x us IH]; [reflexivity|]. cbn [filter].
        pose proof (Hu x (or_introl eq_refl)) as Hx. rewrite Hx. destruct (Z.eqb_spec 2 p); [lia|].
        apply IH. intros y Hy. apply Hu. right. exact Hy. }
      rewrite E, app_nil_r. reflexivity.
Qed.

(** ** Detection *)
Section D.
  Variable obj kwargs : Type.
  Variable no_kwargs : kwargs.
  Variable construct : nat -> str -> kwargs -> res obj.
  Variable isinst : obj -> nat -> bool.
  Notation detect := (detect_loop obj kwargs construct).

  Lemma detect_ok_iff fs ext fn kw f o :
    snd (detect fs ext fn kw) = Ok (f, o) <->
    exists pre post, fs = pre ++ f :: post /\ extMatch ext f = true /\
      construct (f_cls f) fn kw = Ok o /\
      forall g, In g pre -> extMatch ext g = true -> construct (f_cls g) fn kw = Err WrongFormatError.
  Proof.
    split.
    - induction fs as [|g fs IH]; cbn [detect_loop]; intro H; [discriminate|].
      destruct (extMatch ext g) eqn:Eg.
      + unfold isRightFormat in H. destruct (construct (f_cls g) fn kw) as [o'|e] eqn:Ec.
        * cbn in H. injection H as -> ->. exists [], fs. repeat split; try assumption. intros ? [].
        * assert (He : e = WrongFormatError \/ snd (@nil fmt, @Err (fmt*obj) e) = Ok (f, o)).
          { destruct e; auto. }
          destruct He as [->|He]; [|discriminate He].
          destruct (detect fs ext fn kw) as [tr r] eqn:Ed. cbn [snd] in *.
          destruct (IH H) as [pre [post [H1 [H2 [H3 H4]]]]].
          exists (g :: pre), post. repeat split; try assumption.
          -- cbn. congruence.
          -- intros x [<-|Hx] Hm; [exact Ec | apply H4; assumption].
      + destruct (IH H) as [pre [post [H1 [H2 [H3 H4]]]]].
        exists (g :: pre), post. repeat split; try assumption.
        * cbn. congruence.
        * intros x [<-|Hx] Hm; [congruence | apply H4; assumption].
    - intros [pre [post [-> [H2 [H3 H4]]]]].
      induction pre as [|g pre IH]; cbn [app detect_loop].
      + rewrite H2. unfold isRightFormat. rewrite H3. reflexivity.
      + assert (IH' : snd (detect (pre ++ f :: post) ext fn kw) = Ok (f, o)).
        { apply IH. intros x Hx. apply H4. right. exact Hx. }
        destruct (extMatch ext g) eqn:Eg; [|exact IH'].
        unfold isRightFormat. rewrite (H4 g (or_introl eq_refl) Eg).
        destruct (detect (pre ++ f :: post) ext fn kw) as [tr r]. exact IH'.
  Qed.

  Lemma detect_err_iff fs ext fn kw e : e <> FormatNotDetectedError ->
    (snd (detect fs ext fn kw) = Err e <->
    exists pre f post, fs = pre ++ f :: post /\ extMatch ext f = true /\
      construct (f_cls f) fn kw = Err e /\ e <> WrongFormatError /\
      forall g, In g pre -> extMatch ext g = true -> construct (f_cls g) fn kw = Err WrongFormatError).
  Proof.
    intro Hne. split.
    - induction fs as [|g fs IH]; cbn [detect_loop]; intro H; [injection H as <-; contradiction|].
      destruct (extMatch ext g) eqn:Eg.
      + unfold isRightFormat in H. destruct (construct (f_cls g) fn kw) as [o'|e'] eqn:Ec; [discriminate H|].
        assert (He : e' = WrongFormatError \/ e' = e /\ e' <> WrongFormatError).
        { destruct e'; auto; right; split; cbn in H; congruence. }
        destruct He as [->|[-> He]].
        * destruct (detect fs ext fn kw) as [tr r] eqn:Ed. cbn [snd] in *.
          destruct (IH H) as [pre [f [post [H1 [H2 [H3 [H4 H5]]]]]]].
          exists (g :: pre), f, post. repeat split; try assumption.
          -- cbn. congruence.
          -- intros x [<-|Hx] Hm; [exact Ec | apply H5; assumption].
        * exists [], g, fs. repeat split; try assumption. intros ? [].
      + destruct (IH H) as [pre [f [post [H1 [H2 [H3 [H4 H5]]]]]]].
        exists (g :: pre), f, post. repeat split; try assumption.
        * cbn. congruence.
        * intros x [<-|Hx] Hm; [congruence | apply H5; assumption].
    - intros [pre [f [post [-> [H2 [H3 [H4 H5]]]]]]].
      induction pre as [|g pre IH]; cbn [app detect_loop].
      + rewrite H2. unfold isRightFormat. rewrite H3. destruct e; try reflexivity. contradiction.
      + assert (IH' : snd (detect (pre ++ f :: post) ext fn kw) = Err e).
        { apply IH. intros x Hx. apply H5. right. exact Hx. }
        destruct (extMatch ext g) eqn:Eg; [|exact IH'].
        unfold isRightFormat. rewrite (H5 g (or_introl eq_refl) Eg).
        destruct (detect (pre ++ f :: post) ext fn kw) as [tr r]. exact IH'.
  Qed.

  (** The attempts are exactly the matching formats up to and including the first one that does not raise
      WrongFormatError. *)
  Lemma detect_trace fs ext fn kw :
    exists rest, filter (extMatch ext) fs = fst (detect fs ext fn kw) ++ rest /\
      (snd (detect fs ext fn kw) = Err FormatNotDetectedError -> rest = [] \/
         exists f, In f fs /\ construct (f_cls f) fn kw = Err FormatNotDetectedError).
  Proof.
    induction fs as [|g fs IH]; cbn [detect_loop filter].
    - exists []. split; [reflexivity | intro; left; reflexivity].
    - destruct IH as [rest [H1 H2]]. destruct (extMatch ext g) eqn:Eg.
      + unfold isRightFormat. destruct (construct (f_cls g) fn kw) as [o|e] eqn:Ec.
        * exists (filter (extMatch ext) fs). split; [reflexivity | discriminate].
        * destruct (exn_eqb e WrongFormatError) eqn:Ee.
          -- apply exn_eqb_eq in Ee. subst e.
             destruct (detect fs ext fn kw) as [tr r] eqn:Ed. cbn [fst snd] in *.
             exists rest. split; [cbn; congruence|]. intro Hr. destruct (H2 Hr) as [->|[f [Hf1 Hf2]]]; [left; reflexivity|].
             right. exists f. split; [right; exact Hf1 | exact Hf2].
          -- exists (filter (extMatch ext) fs).
             assert (Hd : (match e with WrongFormatError => Ok None | _ => Err e end : res (option obj)) = Err e).
             { destruct e; try reflexivity. discriminate Ee. }
             rewrite Hd. split; [reflexivity|]. cbn. intro H. right. injection H as ->.
             exists g. split; [left; reflexivity | exact Ec].
      + exists rest. split; [exact H1|]. intro Hr. destruct (H2 Hr) as [->|[f [Hf1 Hf2]]]; [left; reflexivity|].
        right. exists f. split; [right; exact Hf1 | exact Hf2].
  Qed.

  Lemma detect_none_iff fs ext fn kw :
    (forall f, In f fs -> construct (f_cls f) fn kw <> Err FormatNotDetectedError) ->
    (snd (detect fs ext fn kw) = Err FormatNotDetectedError <->
     forall f, In f fs -> extMatch ext f = true -> construct (f_cls f) fn kw = Err WrongFormatError).
  Proof.
    induction fs as [|g fs IH]; cbn [detect_loop]; intro Hn.
    - split; [intros _ f [] | reflexivity].
    - assert (IH' := IH (fun f Hf => Hn f (or_intror Hf))). destruct (extMatch ext g) eqn:Eg.
      + unfold isRightFormat. pose proof (Hn g (or_introl eq_refl)) as Hg.
        destruct (construct (f_cls g) fn kw) as [o|e] eqn:Ec.
        * split; [discriminate|]. intro H. specialize (H g (or_introl eq_refl) Eg). congruence.
        * destruct (exn_eqb e WrongFormatError) eqn:Ee.
          -- apply exn_eqb_eq in Ee. subst e.
             destruct (detect fs ext fn kw) as [tr r] eqn:Ed. cbn [snd] in *. rewrite IH'. split.
             ++ intros H f [<-|Hf] Hm; [exact Ec | apply H; assumption].
             ++ intros H f Hf Hm. apply H; [right; exact Hf | exact Hm].
          -- assert (Hd : (match e with WrongFormatError => Ok None | _ => Err e end : res (option obj)) = Err e).
             { destruct e; try reflexivity. discriminate Ee. }
             rewrite Hd. cbn [snd]. split.
             ++ intro H. injection H as ->. contradiction.
             ++ intro H. specialize (H g (or_introl eq_refl) Eg). rewrite Ec in H. injection H as ->. discriminate Ee.
      + rewrite IH'. split.
        * intros H f [<-|Hf] Hm; [congruence | apply H; assumption].
        * intros H f Hf Hm. apply H; [right; exact Hf | exact Hm].
  Qed.

  Lemma detect_no_wrongformat fs ext fn kw : snd (detect fs ext fn kw) <> Err WrongFormatError.
  Proof.
    intro H. apply detect_err_iff in H; [|discriminate].
    destruct H as [pre [f [post [_ [_ [_ [H _]]]]]]]. contradiction.
  Qed.

  Lemma read_detect fs fn kw :
    (forall c o, construct c fn kw = Ok o -> isinst o c = true) ->
    read obj kwargs no_kwargs construct isinst fs fn None kw =
      (match snd (detectFormat obj kwargs construct fs fn kw) with Ok (_, o) => Ok o | Err e => Err e end).
  Proof.
    intro Hi. unfold read. destruct (snd (detectFormat obj kwargs construct fs fn kw)) as [[f o]|e] eqn:Ed; [|reflexivity].
    cbn [bind]. unfold detectFormat in Ed. apply detect_ok_iff in Ed.
    destruct Ed as [pre [post [_ [_ [H _]]]]]. rewrite (Hi _ _ H). reflexivity.
  Qed.
End D.

(** ** Extension matching *)
Lemma mp_dots_inv ats s : MatchesPrefix (Dots :: ats) s ->
  exists n t, s = repeat dot n ++ t /\ MatchesPrefix ats t.
Proof. intro H. inversion H as [| |n a t H1 H2 H3]; subst. exists n, t. split; [reflexivity | assumption]. Qed.

Lemma re_match_iff ats s : re_match ats s = true <-> MatchesPrefix ats s.
Proof.
  revert s. induction ats as [|[c|] ats IH]; intro s.
  - cbn. split; [intros _; constructor | reflexivity].
  - cbn [re_match]. destruct s as [|x s].
    + split; [discriminate | intro H; inversion H].
    + rewrite andb_true_iff, chr_eqb_eq, IH. split.
      * intros [-> H]. constructor. exact H.
      * intro H. inversion H; subst. split; [reflexivity | assumption].
  - cbn [re_match]. induction s as [|x s IHs].
    + rewrite orb_false_r, IH. split.
      * intro H. apply (mp_dots 0). exact H.
      * intro H. apply mp_dots_inv in H. destruct H as [n [t [H1 H2]]]. symmetry in H1.
        apply app_eq_nil in H1. destruct H1 as [_ ->]. exact H2.
    + rewrite orb_true_iff, andb_true_iff, IH, chr_eqb_eq, IHs. split.
      * intros [H|[-> H]]; [apply (mp_dots 0); exact H|].
        apply mp_dots_inv in H. destruct H as [n [t [-> H2]]]. apply (mp_dots (S n)). exact H2.
      * intro H. apply mp_dots_inv in H. destruct H as [[|n] [t [H1 H2]]].
        -- cbn in H1. left. congruence.
        -- cbn in H1. injection H1 as -> ->. right. split; [reflexivity|]. constructor. exact H2.
Qed.

Lemma re_match_trailing_star w ext : mem_chr star w = false ->
  re_match (rewrite_pattern (w ++ [star])) ext = startswith ext w.
Proof.
  revert ext. induction w as [|c w IH]; intros ext H.
  - destruct ext; reflexivity.
  - unfold mem_chr in H. cbn [existsb] in H. apply orb_false_iff in H. destruct H as [H1 H2].
    unfold rewrite_pattern. cbn [app map].
    assert (Hc : chr_eqb c (ch 42) = false).
    { apply chr_eqb_neq. apply chr_eqb_neq in H1. unfold star in H1. congruence. }
    rewrite Hc. cbn [re_match startswith]. destruct ext as [|x ext]; [reflexivity|].
    f_equal. apply IH. exact H2.
Qed.

Lemma ext_match_literals ext f : existsb (mem_chr star) (f_exts f) = false ->
  extMatch ext f = true <-> In ext (f_exts f).
Proof.
  intro H. unfold extMatch. destruct (existsb (str_eqb ext) (f_exts f)) eqn:E.
  - split; [intros _|reflexivity]. apply existsb_exists in E. destruct E as [x [Hx Ex]].
    apply str_eqb_eq in Ex. congruence.
  - assert (Hf : filter (mem_chr star) (f_exts f) = []).
    { clear E. induction (f_exts f) as [|p l IH]; [reflexivity|]. cbn in *. apply orb_false_iff in H.
      destruct H as [H1 H2]. rewrite H1. apply IH. exact H2. }
    rewrite Hf. cbn. split; [discriminate|]. intro Hin.
    assert (existsb (str_eqb ext) (f_exts f) = true).
    { apply existsb_exists. exists ext. split; [exact Hin | apply str_eqb_refl]. }
    congruence.
Qed.

Lemma ext_match_iff ext f : extMatch ext f = true <->
  In ext (f_exts f) \/
  exists p, In p (f_exts f) /\ In star p /\ MatchesPrefix (rewrite_pattern p) ext.
Proof.
  unfold extMatch. destruct (existsb (str_eqb ext) (f_exts f)) eqn:E.
  - split; [intros _; left|reflexivity]. apply existsb_exists in E. destruct E as [x [Hx Ex]].
    apply str_eqb_eq in Ex. congruence.
  - rewrite existsb_exists. split.
    + intros [p [Hp Hm]]. apply filter_In in Hp. destruct Hp as [Hp1 Hp2]. right. exists p.
      split; [exact Hp1|]. split; [apply mem_chr_iff; exact Hp2 | apply re_match_iff; exact Hm].
    + intros [Hin|[p [H1 [H2 H3]]]].
      * assert (existsb (str_eqb ext) (f_exts f) = true); [|congruence].
        apply existsb_exists. exists ext. split; [exact Hin | apply str_eqb_refl].
      * exists p. split; [apply filter_In; split; [exact H1 | apply mem_chr_iff; exact H2] | apply re_match_iff; exact H3].
Qed.

Lemma rsplit1_spec c s : match rsplit1 c s with
  | Some (a, b) => s = a ++ c :: b /\ ~ In c b
  | None => ~ In c s end.
Proof.
  induction s as [|x s IH]; cbn [rsplit1]; [intros []|].
  destruct (rsplit1 c s) as [[a b]|].
  - destruct IH as [-> H]. split; [reflexivity | exact H].
  - destruct (chr_eqb x c) eqn:E.
    + apply chr_eqb_eq in E. subst x. split; [reflexivity | exact IH].
    + apply chr_eqb_neq in E. intros [H|H]; [congruence | contradiction].
Qed.
Lemma rsplit1_app c a b : ~ In c b -> rsplit1 c (a ++ c :: b) = Some (a, b).
Proof.
  intro Hb. induction a as [|x a IH]; cbn [app rsplit1].
  - assert (rsplit1 c b = None) as ->.
    { pose proof (rsplit1_spec c b) as H. destruct (rsplit1 c b) as [[a' b']|]; [|reflexivity].
      destruct H as [-> _]. exfalso. apply Hb. apply in_or_app. right. left. reflexivity. }
    rewrite chr_eqb_refl. reflexivity.
  - rewrite IH. reflexivity.
Qed.
Lemma rsplit1_none c s : ~ In c s -> rsplit1 c s = None.
Proof.
  intro Hs. pose proof (rsplit1_spec c s) as H. destruct (rsplit1 c s) as [[a b]|]; [|reflexivity].
  destruct H as [-> _]. exfalso. apply Hs. apply in_or_app. right. left. reflexivity.
Qed.

(** The extension of [dir/name.ext] is [.ext] in lower case. *)
Lemma file_ext_spec dir name ext :
  ~ In slash name -> existsb (fun c => negb (chr_eqb c dot)) name = true ->
  ~ In slash ext -> ~ In dot ext ->
  file_ext (dir ++ slash :: name ++ dot :: ext) = lower (dot :: ext)
  /\ file_ext (name ++ dot :: ext) = lower (dot :: ext).
Proof.
  intros Hn Hd He1 He2.
  assert (Lin : forall c s, lower_c c = c -> (forall x, lower_c x = c -> x = c) -> ~ In c s -> ~ In c (lower s)).
  { intros c s _ H Hs Hin. unfold lower in Hin. apply in_map_iff in Hin. destruct Hin as [x [Hx1 Hx2]].
    apply H in Hx1. congruence. }
  assert (Hsl : forall x, lower_c x = slash -> x = slash).
  { intros x Hx. assert (G : forall x, negb (chr_eqb (lower_c x) slash) || chr_eqb x slash = true)
      by (apply char_sweep; vm_compute; reflexivity).
    specialize (G x). rewrite Hx, chr_eqb_refl in G. cbn [negb orb] in G. apply chr_eqb_eq. exact G. }
  assert (Hdt : forall x, lower_c x = dot -> x = dot).
  { intros x Hx. assert (G : forall x, negb (chr_eqb (lower_c x) dot) || chr_eqb x dot = true)
      by (apply char_sweep; vm_compute; reflexivity).
    specialize (G x). rewrite Hx, chr_eqb_refl in G. cbn [negb orb] in G. apply chr_eqb_eq. exact G. }
  assert (Hln : ~ In slash (lower name)) by (apply Lin; [reflexivity | exact Hsl | exact Hn]).
  assert (Hle1 : ~ In slash (lower ext)) by (apply Lin; [reflexivity | exact Hsl | exact He1]).
  assert (Hle2 : ~ In dot (lower ext)) by (apply Lin; [reflexivity | exact Hdt | exact He2]).
  assert (Hb : ~ In slash (lower (name ++ dot :: ext))).
  { rewrite lower_app. intro H. apply in_app_or in H. destruct H as [H|H]; [contradiction|].
    cbn in H. destruct H as [H|H]; [discriminate H | contradiction]. }
  assert (Hx : match rsplit1 dot (lower (name ++ dot :: ext)) with
     | Some (r, e) => if forallb (fun c => chr_eqb c dot) r then [] else dot :: e
     | None => [] end = lower (dot :: ext)).
  { rewrite lower_app. change (lower (dot :: ext)) with (dot :: lower ext).
    rewrite rsplit1_app by exact Hle2.
    destruct (forallb (fun c => chr_eqb c dot) (lower name)) eqn:E; [|reflexivity].
    exfalso. rewrite forallb_forall in E. apply existsb_exists in Hd. destruct Hd as [c [Hc1 Hc2]].
    specialize (E (lower_c c)). rewrite negb_true_iff in Hc2. apply chr_eqb_neq in Hc2. apply Hc2.
    apply Hdt. apply chr_eqb_eq. apply E. apply in_map. exact Hc1. }
  unfold file_ext, splitext_ext, basename. split.
  - replace (lower (dir ++ slash :: name ++ dot :: ext)) with (lower dir ++ slash :: lower (name ++ dot :: ext))
      by (symmetry; exact (lower_app dir (slash :: name ++ dot :: ext))).
    rewrite rsplit1_app by exact Hb. exact Hx.
  - rewrite (rsplit1_none slash) by exact Hb. exact Hx.
Qed.

Lemma lower_fix_app a b : lower (a ++ b) = a ++ b -> lower b = b.
Proof. induction a as [|x a IH]; cbn [app lower map]; intro H; [exact H|]. injection H as _ H. apply IH. exact H. Qed.

(** Every extension computed by the detector is empty or a dot followed by lower-case text. *)
Lemma file_ext_shape fn : file_ext fn = [] \/
  exists e, file_ext fn = dot :: e /\ lower e = e.
Proof.
  unfold file_ext, splitext_ext, basename.
  assert (Hlow : forall s, lower s = s -> match rsplit1 slash s with Some (_, b) => lower b = b | None => True end).
  { intros s Hs. pose proof (rsplit1_spec slash s) as H. destruct (rsplit1 slash s) as [[a b]|]; [|exact I].
    destruct H as [-> _]. apply lower_fix_app in Hs. injection Hs as Hs. exact Hs. }
  pose proof (Hlow (lower fn) (lower_idem fn)) as H1.
  set (b := match rsplit1 slash (lower fn) with Some (_, b) => b | None => lower fn end).
  assert (Hb : lower b = b).
  { subst b. destruct (rsplit1 slash (lower fn)) as [[a b]|]; [exact H1 | apply lower_idem]. }
  pose proof (rsplit1_spec dot b) as H2. destruct (rsplit1 dot b) as [[r e]|]; [|left; reflexivity].
  destruct (forallb (fun c => chr_eqb c dot) r); [left; reflexivity|]. right. exists e. split; [reflexivity|].
  destruct H2 as [H2 _]. rewrite H2 in Hb. apply lower_fix_app in Hb. injection Hb as Hb. exact Hb.
Qed.

Lemma dead_extension e : (lower e <> e \/ (e <> [] /\ startswith e [dot] = false)) -> forall fn, file_ext fn <> e.
Proof.
  intros H fn E. destruct (file_ext_shape fn) as [H0|[x [Hx1 Hx2]]].
  - rewrite H0 in E. subst e. destruct H as [H|[H _]]; [apply H; reflexivity | congruence].
  - rewrite Hx1 in E. subst e. destruct H as [H|[_ H]].
    + apply H. change (lower (dot :: x)) with (dot :: lower x). rewrite Hx2. reflexivity.
    + cbn [startswith] in H. rewrite chr_eqb_refl in H. discriminate.
Qed.

(** ** The cache *)
Lemma calls_after_first fs ops : calls (Some fs) ops = (Some fs, map (fun _ => Ok (RList fs)) ops).
Proof.
  induction ops as [|[ign files] ops IH]; cbn [calls map]; [reflexivity|].
  cbn [fileFormats]. rewrite IH. reflexivity.
Qed.
Lemma calls_strict_repeat st ign files n :
  ign = false ->
  exists r, snd (calls st (repeat (ign, files) n)) = repeat r n.
Proof.
  intros ->. destruct st as [fs|].
  - exists (Ok (RList fs)). rewrite calls_after_first. cbn [snd]. induction n as [|n IH]; cbn; congruence.
  - destruct (buildFormats false files) as [[l m]|e] eqn:E.
    + exists (Ok (RList (map snd l))). destruct n as [|n]; [reflexivity|].
      cbn [repeat calls fileFormats]. rewrite E, calls_after_first. cbn [snd]. f_equal.
      induction n as [|n IH]; cbn; congruence.
    + exists (Err e). induction n as [|n IH]; [reflexivity|].
      cbn [repeat calls fileFormats]. rewrite E.
      destruct (calls None (repeat (false, files) n)) as [c rs]. cbn [snd] in *. congruence.
Qed.
