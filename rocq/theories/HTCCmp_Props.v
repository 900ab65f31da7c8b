(** Properties C142 (comparing HTC files) and C143 (finding an item of an HTC file). *)
From Verif Require Import Py PyFacts FASTOut_Model HTC_Model HTCSim_Model.
From Verif Require Import HTCCmp_Model.
From Verif Require Import HTC_Props.
From Coq Require Import Permutation Lia.
Local Open Scope nat_scope.

(** ** Specification *)

(** A key that names one item: no "." and no "/" in it. *)
Definition simple (k : str) : Prop := ~ In (ch 46) k /\ ~ In (ch 47) k.
(** Trees as the library builds them: the keys of a section differ from each other, and are simple. *)
Inductive tree : node -> Prop :=
| tree_line nm vs c : tree (Line nm vs c)
| tree_sec k nm bc ec cont ss :
    NoDup (map fst cont) -> Forall (fun p => simple (fst p)) cont -> Forall (fun p => tree (snd p)) cont -> tree (Sec k nm bc ec cont ss).
Definition trees (c : list (str * node)) : Prop :=
  NoDup (map fst c) /\ Forall (fun p => simple (fst p)) c /\ Forall (fun p => tree (snd p)) c.

(** The first sensors of the other section have the names and values of all the sensors of this one. *)
Definition first_sensors (ss ss' : list sensor) : Prop :=
  exists pre suf, ss' = pre ++ suf /\ Forall2 (fun a b => s_sensor a = s_sensor b /\ s_values a = s_values b) ss pre.
Definition sensors_match (k k' : kind) (ss ss' : list sensor) : Prop :=
  match k with Plain => True | _ => k' <> Plain /\ first_sensors ss ss' end.
(** What compare regards as no difference. *)
Inductive alike : node -> node -> Prop :=
| alike_line nm nm' vs c c' : alike (Line nm vs c) (Line nm' vs c')
| alike_sec k k' nm nm' bc bc' ec ec' cont cont' ss ss' :
    (forall key, In key (map fst cont) <-> In key (map fst cont')) ->
    (forall key n n', In (key, n) cont -> In (key, n') cont' -> alike n n') ->
    sensors_match k k' ss ss' ->
    alike (Sec k nm bc ec cont ss) (Sec k' nm' bc' ec' cont' ss').
(** Every line of the item after a sign. *)
Definition signed (sign : string) (t : str) : str := join [nl] (map (fun l => S_ sign ++ [sp] ++ l) (split_chr nl (strip t))) ++ [nl].
(** What is reported for one item of the first file. *)
Definition item_report (c' : list (str * node)) (p : str * node) (part : str) : Prop :=
  (exists n', In (fst p, n') c' /\ node_cmp (snd p) n' = Ok part) \/
  (~ In (fst p) (map fst c') /\ exists t, node_str 0 (snd p) = Ok t /\ part = signed "-" t ++ [nl]).
(** What is reported for an item that only the other file has. *)
Definition extra_report (p : str * node) (part : str) : Prop := exists t, node_str 0 (snd p) = Ok t /\ part = signed "+" t ++ [nl].
(** The items of [c'] whose key is not in [c], in their order. *)
Inductive only_in (c : list (str * node)) : list (str * node) -> list (str * node) -> Prop :=
| only_nil : only_in c [] []
| only_skip p l r : In (fst p) (map fst c) -> only_in c l r -> only_in c (p :: l) r
| only_keep p l r : ~ In (fst p) (map fst c) -> only_in c l r -> only_in c (p :: l) (p :: r).
Definition alike_all (c c' : list (str * node)) : Prop :=
  (forall key, In key (map fst c) <-> In key (map fst c')) /\ (forall key n n', In (key, n) c -> In (key, n') c' -> alike n n').

(** ** Proofs *)

Lemma bind_ok {A B} (r : res A) (f : A -> res B) b : bind r f = Ok b -> exists a, r = Ok a /\ f a = Ok b.
Proof. destruct r as [a|e]; cbn [bind]; [eauto|discriminate]. Qed.

Lemma simple_key k : simple k -> path_key k = false.
Proof.
  intros [H1 H2]. unfold path_key. apply Bool.not_true_iff_false. intro H. apply existsb_exists in H as (c & Hc & E).
  unfold undot in Hc. apply in_map_iff in Hc as (x & Hx & Hin). apply chr_eqb_eq in E. rewrite E in Hx.
  destruct (chr_eqb x dot) eqn:Ed; [apply chr_eqb_eq in Ed; subst x; apply H1; exact Hin|].
  apply H2. change (ch 47) with fslash. rewrite <- Hx. exact Hin.
Qed.
Lemma dget_nodup (c : dict_) k n : NoDup (map fst c) -> In (k, n) c -> dget c k = Some n.
Proof.
  unfold dget. induction c as [|[x m] c IH]; [intros _ []|]. cbn [map fst find snd]. intros Hn [E|Hin].
  - injection E as -> ->. rewrite str_eqb_refl. reflexivity.
  - inversion Hn as [|? ? Hx Hn']; subst. destruct (str_eqb x k) eqn:E.
    + apply str_eqb_eq in E. subst x. exfalso. apply Hx. apply in_map_iff. exists (k, n). auto.
    + apply IH; auto.
Qed.
Lemma mem_true k ks : mem k ks = true <-> In k ks.
Proof.
  unfold mem. split.
  - intro H. apply existsb_exists in H as (x & Hx & E). apply str_eqb_eq in E. subst x. exact Hx.
  - intro H. apply existsb_exists. exists k. split; [exact H|apply str_eqb_refl].
Qed.
Lemma mem_false k ks : mem k ks = false <-> ~ In k ks.
Proof. rewrite <- mem_true. destruct (mem k ks); split; intro H; try discriminate; auto. exfalso. apply H. reflexivity. Qed.
Lemma remove1_in k ks : NoDup ks -> forall x, In x (remove1 k ks) <-> In x ks /\ x <> k.
Proof.
  induction ks as [|y ks IH]; intros Hn x; [cbn; tauto|]. inversion Hn as [|? ? Hy Hn']; subst. cbn [remove1].
  destruct (str_eqb k y) eqn:E.
  - apply str_eqb_eq in E. subst y. cbn [In]. split; [intro H; split; [auto|intro; subst; auto]|intros [[H|H] Hx]; [congruence|exact H]].
  - cbn [In]. rewrite IH by exact Hn'. split; [intros [H|[H1 H2]]; [subst; split; [auto|intro; subst; rewrite str_eqb_refl in E; discriminate]|tauto]|tauto].
Qed.
Lemma remove1_nodup k ks : NoDup ks -> NoDup (remove1 k ks).
Proof.
  induction ks as [|y ks IH]; intro Hn; [constructor|]. inversion Hn as [|? ? Hy Hn']; subst. cbn [remove1].
  destruct (str_eqb k y); [exact Hn'|]. constructor; [|apply IH; exact Hn']. intro H. apply remove1_in in H as [H _]; [auto|exact Hn'].
Qed.
Lemma diff_not_nil sign t : diff_lines sign t <> [].
Proof. unfold diff_lines. destruct (join _ _); discriminate. Qed.
Lemma block_not_nil sign t : block sign t <> [].
Proof. unfold block. intro H. apply app_eq_nil in H as [_ H]. discriminate. Qed.
Lemma ok_inj {A} (a b : A) : Ok a = Ok b -> b = a.
Proof. intro H. injection H as H. auto. Qed.
Lemma plus_all_nil oc ks : plus_all oc ks = Ok [] -> ks = [].
Proof.
  destruct ks as [|k ks]; [auto|]. cbn [plus_all]. intro H. apply bind_ok in H as (s & Hs & H). apply bind_ok in H as (r & Hr & H).
  apply ok_inj in H. symmetry in H. apply app_eq_nil in H as [-> _]. unfold plus in Hs. apply bind_ok in Hs as (n & Hn & Hs).
  apply bind_ok in Hs as (t & Ht & Hs). apply ok_inj in Hs. symmetry in Hs. apply block_not_nil in Hs. destruct Hs.
Qed.
Lemma strs_eqb_eq a b : strs_eqb a b = true <-> a = b.
Proof.
  split.
  - unfold strs_eqb. intro H. apply andb_prop in H as [Hl H]. apply Nat.eqb_eq in Hl. revert b Hl H.
    induction a as [|x a IH]; intros [|y b] Hl H; try discriminate; auto. cbn [combine forallb fst snd] in H. apply andb_prop in H as [H1 H2].
    apply str_eqb_eq in H1. f_equal; [exact H1|apply IH; [injection Hl; auto|exact H2]].
  - intros <-. unfold strs_eqb. rewrite Nat.eqb_refl. cbn [andb]. induction a as [|x a IH]; [reflexivity|].
    cbn [combine forallb fst snd]. rewrite str_eqb_refl. exact IH.
Qed.
Lemma changed_not_nil a b : changed a b <> Ok [].
Proof.
  unfold changed. intro H. apply bind_ok in H as (s & Hs & H). apply bind_ok in H as (r & Hr & H). apply ok_inj in H. symmetry in H.
  apply app_eq_nil in H as [H _]. apply diff_not_nil in H. exact H.
Qed.
Lemma sensor_compare_nil a b : sensor_compare a b = [] <-> s_sensor a = s_sensor b /\ s_values a = s_values b.
Proof.
  unfold sensor_compare. destruct (str_eqb (s_sensor a) (s_sensor b)) eqn:E1; cbn [negb orb].
  - apply str_eqb_eq in E1. destruct (strs_eqb (s_values a) (s_values b)) eqn:E2; cbn [negb].
    + apply strs_eqb_eq in E2. tauto.
    + split; [intro H; apply app_eq_nil in H as [H _]; apply diff_not_nil in H; destruct H|].
      intros [_ H]. apply strs_eqb_eq in H. congruence.
  - split; [intro H; apply app_eq_nil in H as [H _]; apply diff_not_nil in H; destruct H|].
    intros [H _]. rewrite H, str_eqb_refl in E1. discriminate.
Qed.
Lemma sensors_compare_nil ss ss' : sensors_compare ss ss' = [] <-> first_sensors ss ss'.
Proof.
  unfold sensors_compare. rewrite skipn_all. cbn [map concat]. rewrite app_nil_r. unfold first_sensors. revert ss'.
  induction ss as [|s ss IH]; intro ss'.
  - cbn. destruct (skipn _ _) eqn:E; [|apply (f_equal (@List.length _)) in E; rewrite skipn_nil in E; discriminate].
    cbn. split; [intros _; exists [], ss'; auto|auto].
  - destruct ss' as [|t ss'].
    + cbn [combine map concat List.length skipn app]. split.
      * intro H. apply app_eq_nil in H as [H _]. apply diff_not_nil in H. destruct H.
      * intros (pre & suf & E & H). destruct pre; [inversion H|discriminate].
    + cbn [combine map concat List.length skipn app fst snd]. split.
      * intro H. rewrite <- app_assoc in H. apply app_eq_nil in H as [H1 H2]. apply sensor_compare_nil in H1.
        apply IH in H2 as (pre & suf & -> & H2). exists (t :: pre), suf. split; [reflexivity|constructor; assumption].
      * intros (pre & suf & E & H). destruct pre as [|t' pre]; [inversion H|]. inversion H as [|? ? ? ? H1 H2]; subst. injection E as -> ->.
        apply sensor_compare_nil in H1. rewrite H1. cbn [app]. apply IH. exists pre, suf. auto.
Qed.

(** A tree is smaller than the section that holds it. *)
Section NodeInd.
  Variable P : node -> Prop.
  Hypothesis Hline : forall nm vs c, P (Line nm vs c).
  Hypothesis Hsec : forall k nm bc ec cont ss, Forall (fun p => P (snd p)) cont -> P (Sec k nm bc ec cont ss).
  Fixpoint node_ind2 (n : node) : P n :=
    match n with
    | Line nm vs c => Hline nm vs c
    | Sec k nm bc ec cont ss =>
        Hsec k nm bc ec cont ss
          ((fix go (l : list (str * node)) : Forall (fun p => P (snd p)) l :=
              match l with [] => Forall_nil _ | p :: l' => Forall_cons p (node_ind2 (snd p)) (go l') end) cont)
    end.
End NodeInd.

(** the loop, without order *)
Lemma loop_nil oc cmp (R : node -> node -> Prop) : NoDup (map fst oc) -> Forall (fun p => simple (fst p)) oc ->
  forall l, NoDup (map fst l) -> Forall (fun p => simple (fst p)) l ->
  (forall k n n', In (k, n) l -> In (k, n') oc -> (cmp n n' = Ok [] <-> R n n')) ->
  forall ok, NoDup ok -> (forall k, In k ok -> In k (map fst oc)) ->
  (cmp_loop oc false cmp l ok = Ok [] <->
   (forall k, In k (map fst l) <-> In k ok) /\ (forall k n n', In (k, n) l -> In (k, n') oc -> R n n')).
Proof.
  intros Hoc Hso. induction l as [|[k n] l IH]; intros Hl Hs HR ok Hok Hsub.
  - cbn [cmp_loop map]. split.
    + intro H. apply plus_all_nil in H. subst ok. split; [intro k; cbn; tauto|intros k n n' []].
    + intros [H _]. destruct ok as [|k ok]; [reflexivity|]. exfalso. apply (H k). left. reflexivity.
  - cbn [map fst] in Hl. inversion Hl as [|? ? Hk Hl']; subst. inversion Hs as [|? ? Hk' Hs']; subst. cbn [fst] in Hk'.
    assert (HR' : forall k0 n0 n', In (k0, n0) l -> In (k0, n') oc -> (cmp n0 n' = Ok [] <-> R n0 n')) by (intros; apply (HR k0); [right|]; assumption).
    cbn [cmp_loop]. rewrite (simple_key _ Hk'). destruct (mem k ok) eqn:Em.
    + apply mem_true in Em. pose proof (Hsub _ Em) as Hin. apply in_map_iff in Hin as ((k1 & b) & E & Hin). cbn [fst] in E. subst k1.
      cbn [bind]. unfold other. rewrite (simple_key _ Hk'). unfold attr. rewrite (dget_nodup _ _ _ Hoc Hin). cbn [bind].
      specialize (IH Hl' Hs' HR' (remove1 k ok) (remove1_nodup k ok Hok)).
      assert (Hsub' : forall k0, In k0 (remove1 k ok) -> In k0 (map fst oc)) by (intros k0 H; apply remove1_in in H as [H _]; auto).
      specialize (IH Hsub').
      assert (Huniq : forall n', In (k, n') oc -> n' = b).
      { intros n' H. apply (dget_nodup _ _ _ Hoc) in H. apply (dget_nodup _ _ _ Hoc) in Hin. congruence. }
      split.
      * intro H. apply bind_ok in H as (d & Hd & H). apply bind_ok in H as (r & Hr & H). apply ok_inj in H. cbn [app] in H.
        symmetry in H. apply app_eq_nil in H as [-> ->]. apply IH in Hr as [H1 H2]. split.
        -- intro x. cbn [map fst In]. rewrite H1, remove1_in by exact Hok. split; [intros [<-|[H _]]; auto|].
           intro H. destruct (list_eq_dec ascii_dec k x) as [->|Hne]; [auto|right; split; auto].
        -- intros x m n' [E|Hm] Hn'; [injection E as <- <-|apply (H2 x); assumption].
           rewrite (Huniq _ Hn'). apply (HR k); [left; reflexivity|exact Hin|exact Hd].
      * intros [H1 H2]. assert (Hd : cmp n b = Ok []) by (apply (HR k); [left; reflexivity|exact Hin|]; apply (H2 k); [left; reflexivity|exact Hin]).
        rewrite Hd. cbn [bind]. assert (Hr : cmp_loop oc false cmp l (remove1 k ok) = Ok []); [|rewrite Hr; reflexivity].
        apply IH. split; [|intros x m n' Hm; apply (H2 x); right; exact Hm].
        intro x. rewrite remove1_in by exact Hok. rewrite <- (H1 x). cbn [map fst In]. split.
        -- intro H. split; [right; exact H|intros ->; auto].
        -- intros [[->|H] Hne]; [destruct Hne; reflexivity|exact H].
    + apply mem_false in Em. split.
      * intro H. apply bind_ok in H as (t & Ht & H). apply bind_ok in H as (r & Hr & H). apply ok_inj in H. symmetry in H.
        apply app_eq_nil in H as [H _]. apply block_not_nil in H. destruct H.
      * intros [H1 _]. exfalso. apply Em. apply H1. left. reflexivity.
Qed.

Lemma node_cmp_nil : forall a, tree a -> forall b, tree b -> (node_cmp a b = Ok [] <-> alike a b).
Proof.
  induction a as [nm vs c|k nm bc ec cont ss IH] using node_ind2; intros Ha b Hb.
  - destruct b as [nm' vs' c'|k' nm' bc' ec' cont' ss']; cbn [node_cmp].
    + destruct (strs_eqb vs vs') eqn:E.
      * apply strs_eqb_eq in E. subst vs'. split; [intros _; constructor|reflexivity].
      * split; [intro H; apply changed_not_nil in H; destruct H|]. intro H. inversion H; subst. rewrite (proj2 (strs_eqb_eq vs' vs') eq_refl) in E. discriminate.
    + split; [|intro H; inversion H]. destruct (dmem _ _); [intro H; apply changed_not_nil in H; destruct H|discriminate].
  - destruct b as [nm' vs' c'|k' nm' bc' ec' cont' ss']; [cbn [node_cmp]; split; [discriminate|intro H; inversion H]|].
    inversion Ha as [|? ? ? ? ? ? Hn Hs Ht]; subst. inversion Hb as [|? ? ? ? ? ? Hn' Hs' Ht']; subst.
    cbn [node_cmp].
    assert (HR : forall key n n', In (key, n) cont -> In (key, n') cont' -> (node_cmp n n' = Ok [] <-> alike n n')).
    { intros key n n' H1 H2. apply (proj1 (Forall_forall _ _) IH (key, n) H1); [exact (proj1 (Forall_forall _ _) Ht _ H1)|exact (proj1 (Forall_forall _ _) Ht' _ H2)]. }
    pose proof (loop_nil cont' node_cmp alike Hn' Hs' cont Hn Hs HR (map fst cont') Hn' (fun _ H => H)) as L.
    assert (M : (exists s, cmp_loop cont' false node_cmp cont (map fst cont') = Ok s /\ s = [] /\ sensors_match k k' ss ss') <->
                alike (Sec k nm bc ec cont ss) (Sec k' nm' bc' ec' cont' ss')).
    { split.
      - intros (s & E & -> & Hm). apply L in E as [H1 H2]. constructor; assumption.
      - intro H. inversion H; subst. exists []. split; [apply L; split; assumption|split; [reflexivity|assumption]]. }
    rewrite <- M. split.
    + intro H. apply bind_ok in H as (s & E & H). exists s. split; [exact E|]. destruct k as [| |ty ti].
      * apply ok_inj in H. split; [symmetry; exact H|exact Logic.I].
      * apply bind_ok in H as (so & Hso & H). apply ok_inj in H. symmetry in H. apply app_eq_nil in H as [-> H]. split; [reflexivity|].
        apply sensors_compare_nil in H. destruct k'; cbn [their_sensors] in Hso; [destruct (dmem _ _); discriminate| |]; apply ok_inj in Hso; subst so; (split; [discriminate|exact H]).
      * apply bind_ok in H as (so & Hso & H). apply ok_inj in H. symmetry in H. apply app_eq_nil in H as [-> H]. split; [reflexivity|].
        apply sensors_compare_nil in H. destruct k'; cbn [their_sensors] in Hso; [destruct (dmem _ _); discriminate| |]; apply ok_inj in Hso; subst so; (split; [discriminate|exact H]).
    + intros (s & E & -> & Hm). rewrite E. cbn [bind]. destruct k as [| |ty ti]; [reflexivity| |];
        destruct Hm as [Hk Hm]; apply sensors_compare_nil in Hm; (destruct k'; [congruence| |]); cbn [their_sensors bind app]; rewrite Hm; reflexivity.
Qed.

(** ** C142: comparing HTC files *)

(** The report is empty exactly when both files have the same keys at every level, the lines have the same values, and the sensors of each output of the
    first file are the first sensors of the other (whatever the comments, names and order). *)
Theorem C142_empty_report_partial : forall c c', trees c -> trees c' -> (cont_cmp false c c' = Ok [] <-> alike_all c c').
Proof.
  intros c c' (Hn & Hs & Ht) (Hn' & Hs' & Ht'). unfold cont_cmp, alike_all. apply loop_nil; auto.
  intros k n n' H1 H2. apply node_cmp_nil; [exact (proj1 (Forall_forall _ _) Ht _ H1)|exact (proj1 (Forall_forall _ _) Ht' _ H2)].
Qed.
Print Assumptions C142_empty_report_partial.

Lemma nodup_same (c : dict_) k n n' : NoDup (map fst c) -> In (k, n) c -> In (k, n') c -> n = n'.
Proof. intros Hn H1 H2. apply (dget_nodup _ _ _ Hn) in H1. apply (dget_nodup _ _ _ Hn) in H2. congruence. Qed.
Lemma first_sensors_refl ss : first_sensors ss ss.
Proof. exists ss, []. split; [rewrite app_nil_r; reflexivity|]. induction ss; constructor; auto. Qed.
Lemma alike_refl : forall a, tree a -> alike a a.
Proof.
  induction a as [nm vs c|k nm bc ec cont ss IH] using node_ind2; intro Ha; [constructor|].
  inversion Ha as [|? ? ? ? ? ? Hn Hs Ht]; subst. constructor; [tauto| |].
  - intros key n n' H1 H2. rewrite <- (nodup_same _ _ _ _ Hn H1 H2). apply (proj1 (Forall_forall _ _) IH (key, n) H1). exact (proj1 (Forall_forall _ _) Ht _ H1).
  - destruct k; cbn; auto; split; try discriminate; apply first_sensors_refl.
Qed.
(** A file compared with itself, or with a file that differs in the order of its items only, gives an empty report. *)
Theorem C142_same_file : forall c c', trees c -> Permutation c c' -> cont_cmp false c c' = Ok [].
Proof.
  intros c c' Hc Hp. assert (Hc' : trees c').
  { destruct Hc as (Hn & Hs & Ht). repeat split.
    - eapply Permutation_NoDup; [apply Permutation_map; exact Hp|exact Hn].
    - eapply Permutation_Forall; eassumption.
    - eapply Permutation_Forall; eassumption. }
  apply C142_empty_report_partial; [exact Hc|exact Hc'|]. split.
  - intro key. split; intro H; (eapply Permutation_in; [|exact H]); apply Permutation_map; [|apply Permutation_sym]; exact Hp.
  - intros key n n' H1 H2. destruct Hc as (Hn & Hs & Ht). apply (Permutation_in _ (Permutation_sym Hp)) in H2.
    rewrite <- (nodup_same _ _ _ _ Hn H1 H2). apply alike_refl. exact (proj1 (Forall_forall _ _) Ht _ H1).
Qed.
Print Assumptions C142_same_file.

(** The keys of the other file that are left after the loop. *)
Fixpoint left_over (c ks : list str) : list str := match c with [] => ks | k :: c' => left_over c' (remove1 k ks) end.
Lemma left_over_in c : forall ks, NoDup ks -> forall x, In x (left_over c ks) <-> In x ks /\ ~ In x c.
Proof.
  induction c as [|k c IH]; intros ks Hn x; cbn [left_over In]; [tauto|]. rewrite IH by (apply remove1_nodup; exact Hn).
  rewrite remove1_in by exact Hn. intuition congruence.
Qed.
Lemma remove1_not k ks : ~ In k ks -> remove1 k ks = ks.
Proof.
  induction ks as [|x ks IH]; intro H; [reflexivity|]. cbn [remove1]. destruct (str_eqb k x) eqn:E.
  - apply str_eqb_eq in E. subst x. exfalso. apply H. left. reflexivity.
  - f_equal. apply IH. intro H'. apply H. right. exact H'.
Qed.
Lemma left_over_cons c : forall x ks, NoDup (x :: ks) ->
  left_over c (x :: ks) = if mem x c then left_over c ks else x :: left_over c ks.
Proof.
  induction c as [|k c IH]; intros x ks Hn; [reflexivity|]. cbn [left_over remove1]. unfold mem. cbn [existsb].
  rewrite (str_eqb_sym x k). inversion Hn as [|? ? Hx Hn']; subst. destruct (str_eqb k x) eqn:E; cbn [orb].
  - apply str_eqb_eq in E. subst x. rewrite remove1_not by exact Hx. reflexivity.
  - fold (mem x c). apply IH. constructor; [|apply remove1_nodup; exact Hn']. intro H. apply remove1_in in H as [H _]; auto.
Qed.
Lemma left_over_only c : forall l, NoDup (map fst l) -> exists r, only_in c l r /\ left_over (map fst c) (map fst l) = map fst r /\ (forall p, In p r -> In p l).
Proof.
  induction l as [|p l IH]; intro Hn.
  - exists []. repeat split; [constructor| |auto]. cbn [map]. induction (map fst c) as [|k ks IH]; [reflexivity|exact IH].
  - cbn [map] in *. inversion Hn as [|? ? Hx Hn']; subst. destruct (IH Hn') as (r & H1 & H2 & H3). rewrite left_over_cons by exact Hn.
    destruct (mem (fst p) (map fst c)) eqn:E.
    + apply mem_true in E. exists r. repeat split; [constructor; assumption|exact H2|intros q Hq; right; auto].
    + apply mem_false in E. exists (p :: r). repeat split; [constructor; assumption|cbn [map]; rewrite H2; reflexivity|].
      intros q [->|Hq]; [left; reflexivity|right; auto].
Qed.
Lemma plus_all_parts oc : NoDup (map fst oc) -> forall r text, (forall p, In p r -> In p oc) -> plus_all oc (map fst r) = Ok text ->
  exists parts, Forall2 extra_report r parts /\ text = concat parts.
Proof.
  intro Hn. induction r as [|p r IH]; intros text Hr H; cbn [map plus_all] in H.
  - apply ok_inj in H. subst text. exists []. split; [constructor|reflexivity].
  - apply bind_ok in H as (s & Hs & H). apply bind_ok in H as (t & Ht & H). apply ok_inj in H. subst text.
    destruct (IH t (fun q Hq => Hr q (or_intror Hq)) Ht) as (parts & H1 & ->). exists (s :: parts). split; [|reflexivity]. constructor; [|exact H1].
    unfold plus, other in Hs. apply bind_ok in Hs as (n & Hn' & Hs). destruct (path_key (fst p)); [discriminate|].
    unfold attr in Hn'. destruct p as [k m]. cbn [fst] in Hn'. rewrite (dget_nodup _ _ m Hn) in Hn' by (apply Hr; left; reflexivity).
    apply ok_inj in Hn'. subst n. apply bind_ok in Hs as (u & Hu & Hs). apply ok_inj in Hs. subst s. exists u. split; [exact Hu|reflexivity].
Qed.
Lemma loop_parts c' : NoDup (map fst c') -> forall l, NoDup (map fst l) -> forall ok text, NoDup ok ->
  (forall k, In k ok -> In k (map fst c')) -> (forall k, In k (map fst l) -> In k (map fst c') -> In k ok) ->
  cmp_loop c' false node_cmp l ok = Ok text ->
  exists parts t, Forall2 (item_report c') l parts /\ plus_all c' (left_over (map fst l) ok) = Ok t /\ text = concat parts ++ t.
Proof.
  intro Hc. induction l as [|[k n] l IH]; intros Hl ok text Hok Hsub Hin H; cbn [cmp_loop] in H.
  - exists [], text. repeat split; [constructor|exact H].
  - cbn [map fst] in Hl. inversion Hl as [|? ? Hk Hl']; subst. destruct (path_key k) eqn:Ep; [discriminate|].
    cbn [map fst left_over]. destruct (mem k ok) eqn:Em.
    + cbn [bind] in H. unfold other in H. rewrite Ep in H. apply bind_ok in H as (b & Hb & H). apply bind_ok in H as (d & Hd & H).
      apply bind_ok in H as (r & Hr & H). apply ok_inj in H. cbn [app] in H. subst text. apply mem_true in Em.
      apply IH in Hr; [|exact Hl'|apply remove1_nodup; exact Hok| |].
      * destruct Hr as (parts & t & H1 & H2 & ->). exists (d :: parts), t. split; [|split; [exact H2|cbn [concat]; rewrite app_assoc; reflexivity]].
        constructor; [|exact H1]. left. pose proof (Hsub _ Em) as Hx. apply in_map_iff in Hx as ((k1 & b') & E & Hx). cbn [fst] in E. subst k1.
        unfold attr in Hb. rewrite (dget_nodup _ _ _ Hc Hx) in Hb. apply ok_inj in Hb. subst b. exists b'. split; [exact Hx|exact Hd].
      * intros x Hx. apply remove1_in in Hx as [Hx _]; auto.
      * intros x Hx Hx'. apply remove1_in; [exact Hok|]. split; [apply Hin; [right; exact Hx|exact Hx']|intros ->; auto].
    + apply mem_false in Em. apply bind_ok in H as (t0 & Ht0 & H). apply bind_ok in H as (r & Hr & H). apply ok_inj in H. subst text.
      rewrite remove1_not by exact Em. apply IH in Hr; [|exact Hl'|exact Hok|exact Hsub|intros x Hx; apply Hin; right; exact Hx].
      destruct Hr as (parts & t & H1 & H2 & ->). exists (block (S_ "-") t0 :: parts), t. split; [|split; [exact H2|cbn [concat]; rewrite app_assoc; reflexivity]].
      constructor; [|exact H1]. right. split; [intro Hx; apply Em, Hin; [left; reflexivity|exact Hx]|]. exists t0. split; [exact Ht0|reflexivity].
Qed.
(** The report lists, in the order of the first file, the differences of each item both files have and the text of each item that only the first has, and then the
    text of each item only the other has. *)
Theorem C142_report : forall c c' text, NoDup (map fst c) -> NoDup (map fst c') -> cont_cmp false c c' = Ok text ->
  exists parts only extra, Forall2 (item_report c') c parts /\ only_in c c' only /\ Forall2 extra_report only extra /\ text = concat parts ++ concat extra.
Proof.
  intros c c' text Hc Hc' H. apply loop_parts in H; [|exact Hc'|exact Hc|exact Hc'|auto|auto]. destruct H as (parts & t & H1 & H2 & ->).
  destruct (left_over_only c c' Hc') as (r & O1 & O2 & O3). rewrite O2 in H2. apply plus_all_parts in H2 as (ex & E1 & ->); [|exact Hc'|exact O3].
  exists parts, r, ex. auto.
Qed.
Print Assumptions C142_report.
(** Sections are compared like files; an output section adds its sensors: those at the same place that differ in name or values, and those the other lacks. *)
Definition sensor_report (p : sensor * sensor) : str :=
  if (if list_eq_dec ascii_dec (s_sensor (fst p)) (s_sensor (snd p)) then true else false) &&
     (if list_eq_dec (list_eq_dec ascii_dec) (s_values (fst p)) (s_values (snd p)) then true else false)
  then [] else signed "+" (sensor_str 0 (fst p)) ++ signed "-" (sensor_str 0 (snd p)) ++ [nl].
Theorem C142_sections : forall k k' nm nm' bc bc' ec ec' c c' ss ss' text,
  node_cmp (Sec k nm bc ec c ss) (Sec k' nm' bc' ec' c' ss') = Ok text ->
  exists inner, cont_cmp false c c' = Ok inner /\
  text = match k with
         | Plain => inner
         | _ => inner ++ concat (map sensor_report (combine ss ss')) ++ concat (map (fun s => signed "-" (sensor_str 0 s)) (skipn (List.length ss') ss))
         end.
Proof.
  intros k k' nm nm' bc bc' ec ec' c c' ss ss' text H. cbn [node_cmp] in H. apply bind_ok in H as (s & Hs & H). exists s. split; [exact Hs|].
  assert (E : forall p, sensor_compare (fst p) (snd p) = sensor_report p).
  { intro p. unfold sensor_compare, sensor_report. destruct (str_eqb (s_sensor (fst p)) (s_sensor (snd p))) eqn:E1.
    - apply str_eqb_eq in E1. destruct (list_eq_dec _ (s_sensor (fst p)) (s_sensor (snd p))); [|contradiction]. cbn [negb orb andb].
      destruct (strs_eqb (s_values (fst p)) (s_values (snd p))) eqn:E2; cbn [negb].
      + apply strs_eqb_eq in E2. destruct (list_eq_dec _ (s_values (fst p)) (s_values (snd p))); [reflexivity|contradiction].
      + destruct (list_eq_dec _ (s_values (fst p)) (s_values (snd p))) as [Ee|]; [apply strs_eqb_eq in Ee; congruence|reflexivity].
    - apply str_eqb_neq in E1. destruct (list_eq_dec _ (s_sensor (fst p)) (s_sensor (snd p))); [contradiction|reflexivity]. }
  destruct k as [| |ty ti]; [apply ok_inj in H; exact H| |];
    apply bind_ok in H as (so & Hso & H); apply ok_inj in H; subst text; f_equal;
    (destruct k'; cbn [their_sensors] in Hso; [destruct (dmem _ _); discriminate| |]; apply ok_inj in Hso; subst so;
     unfold sensors_compare; rewrite skipn_all; cbn [map concat]; rewrite app_nil_r; f_equal; f_equal; apply map_ext; exact E).
Qed.
Print Assumptions C142_sections.
(** Two lines with different values appear with + for the first file and - for the other: the opposite of the signs of an item that only one of them has. *)
Theorem C142_signs_refuted : forall k nm vs c nm' vs' c', simple k -> vs <> vs' ->
  let l := Line nm vs c in let l' := Line nm' vs' c' in
  cont_cmp false [(k, l)] [(k, l')] = Ok (signed "+" (line_str 0 nm vs c) ++ signed "-" (line_str 0 nm' vs' c') ++ [nl]) /\
  cont_cmp false [(k, l)] [] = Ok (signed "-" (line_str 0 nm vs c) ++ [nl]) /\
  cont_cmp false [] [(k, l)] = Ok (signed "+" (line_str 0 nm vs c) ++ [nl]).
Proof.
  intros k nm vs c nm' vs' c' Hk Hv l l'. apply simple_key in Hk. unfold cont_cmp, l, l'. repeat split.
  - cbn [map fst cmp_loop]. rewrite Hk. unfold mem at 1. cbn [existsb remove1]. rewrite str_eqb_refl. cbn [orb bind]. unfold other. rewrite Hk.
    unfold attr, dget. cbn [find fst snd]. rewrite str_eqb_refl. cbn [bind node_cmp snd]. destruct (strs_eqb vs vs') eqn:E; [apply strs_eqb_eq in E; contradiction|].
    unfold changed. cbn [node_str bind plus_all app]. rewrite app_nil_r. reflexivity.
  - cbn [map fst cmp_loop]. rewrite Hk. cbn [mem existsb node_str bind plus_all]. rewrite app_nil_r. reflexivity.
  - cbn [map fst cmp_loop plus_all]. unfold plus, other. rewrite Hk. unfold attr, dget. cbn [find fst snd]. rewrite str_eqb_refl. cbn [bind node_str snd].
    rewrite app_nil_r. reflexivity.
Qed.
Print Assumptions C142_signs_refuted.
(** Not reported: the names, comments and kind of a section, the sensors of an output compared with a plain section, the order of the items; the comments of a
    line. *)
Theorem C142_blind_refuted : forall k' nm nm' bc bc' ec ec' c c' ss ss', trees c -> Permutation c c' ->
  node_cmp (Sec Plain nm bc ec c ss) (Sec k' nm' bc' ec' c' ss') = Ok [].
Proof.
  intros k' nm nm' bc bc' ec ec' c c' ss ss' Hc Hp. pose proof (C142_same_file c c' Hc Hp) as H. unfold cont_cmp in H. cbn [node_cmp]. rewrite H. reflexivity.
Qed.
Print Assumptions C142_blind_refuted.
(** Sensors that only the other file has are not reported, although those that only the first has are. *)
Theorem C142_sensors_refuted : forall nm bc ec c ss extra, trees c -> extra <> [] ->
  node_cmp (Sec Output nm bc ec c ss) (Sec Output nm bc ec c (ss ++ extra)) = Ok [] /\
  node_cmp (Sec Output nm bc ec c (ss ++ extra)) (Sec Output nm bc ec c ss) <> Ok [].
Proof.
  intros nm bc ec c ss extra (Hn & Hs & Ht) He.
  assert (T : forall s, tree (Sec Output nm bc ec c s)) by (intro; constructor; assumption).
  assert (A : forall key n n', In (key, n) c -> In (key, n') c -> alike n n').
  { intros key n n' H1 H2. rewrite <- (nodup_same _ _ _ _ Hn H1 H2). apply alike_refl. exact (proj1 (Forall_forall _ _) Ht _ H1). }
  split.
  - apply node_cmp_nil; auto. constructor; [tauto|exact A|]. split; [discriminate|]. exists ss, extra. split; [reflexivity|].
    clear. induction ss; constructor; auto.
  - intro H. apply node_cmp_nil in H; auto. inversion H as [|? ? ? ? ? ? ? ? ? ? ? ? _ _ M]; subst. destruct M as [_ (pre & suf & E & F)].
    assert (L : List.length (ss ++ extra) = List.length pre) by (clear - F; induction F; cbn; congruence).
    apply (f_equal (@List.length _)) in E. rewrite app_length in *. destruct extra; [contradiction|]. cbn [List.length] in *. lia.
Qed.
Print Assumptions C142_sensors_refuted.
(** A key that is a line in one file and a section in the other stops the comparison. *)
Theorem C142_mixed_refuted : forall nm vs c k nm' bc ec cont ss, ~ In (S_ "values") (map fst cont) ->
  node_cmp (Line nm vs c) (Sec k nm' bc ec cont ss) = Err KeyError /\ node_cmp (Sec k nm' bc ec cont ss) (Line nm vs c) = Err AttributeError.
Proof.
  intros nm vs c k nm' bc ec cont ss H. split; [|reflexivity]. cbn [node_cmp]. destruct (dmem cont (S_ "values")) eqn:E; [|reflexivity].
  exfalso. apply H. unfold dmem in E. apply existsb_exists in E as (p & Hp & E). apply str_eqb_eq in E. rewrite <- E. apply in_map. exact Hp.
Qed.
Print Assumptions C142_mixed_refuted.
(** An output compared with a plain section of that name stops it too. *)
Theorem C142_plain_output_refuted : forall k nm nm' bc bc' ec ec' cont cont' ss ss' text, k <> Plain ->
  node_cmp (Sec k nm bc ec cont ss) (Sec Plain nm' bc' ec' cont' ss') <> Ok text.
Proof.
  intros k nm nm' bc bc' ec ec' cont cont' ss ss' text Hk H. cbn [node_cmp] in H. apply bind_ok in H as (s & _ & H).
  destruct k; [contradiction| |]; cbn [their_sensors] in H; destruct (dmem _ _); discriminate.
Qed.
Print Assumptions C142_plain_output_refuted.

Lemma loop_order_nil oc : NoDup (map fst oc) -> Forall (fun p => simple (fst p)) oc -> Forall (fun p => tree (snd p)) oc ->
  forall l, Forall (fun p => simple (fst p)) l -> Forall (fun p => tree (snd p)) l ->
  forall r, (forall p, In p r -> In p oc) ->
  (cmp_loop oc true node_cmp l (map fst r) = Ok [] <-> Forall2 (fun p q => fst p = fst q /\ alike (snd p) (snd q)) l r).
Proof.
  intros Hoc Hso Hto. induction l as [|[k n] l IH]; intros Hs Ht r Hr.
  - cbn [cmp_loop]. split; [intro H; apply plus_all_nil in H; destruct r; [constructor|discriminate]|intro H; inversion H; reflexivity].
  - inversion Hs as [|? ? Hk Hs']; subst. inversion Ht as [|? ? Hn Ht']; subst. cbn [fst snd] in *. cbn [cmp_loop]. rewrite (simple_key _ Hk).
    destruct r as [|[k' n'] r].
    { cbn [map mem existsb]. split; [|intro H; inversion H]. intro H. apply bind_ok in H as (t & _ & H). apply bind_ok in H as (u & _ & H).
      apply ok_inj in H. symmetry in H. apply app_eq_nil in H as [H _]. apply block_not_nil in H. destruct H. }
    assert (Hin : In (k', n') oc) by (apply Hr; left; reflexivity).
    cbn [map fst pop_until]. unfold mem. cbn [existsb]. destruct (str_eqb k k') eqn:E.
    + apply str_eqb_eq in E. subst k'. cbn [orb bind]. unfold other. rewrite (simple_key _ Hk). unfold attr. rewrite (dget_nodup _ _ _ Hoc Hin). cbn [bind].
      specialize (IH Hs' Ht' r (fun p Hp => Hr p (or_intror Hp))). assert (Ht'' : tree n') by exact (proj1 (Forall_forall _ _) Hto _ Hin). split.
      * intro H. apply bind_ok in H as (d & Hd & H). apply bind_ok in H as (u & Hu & H). apply ok_inj in H. symmetry in H. cbn [app] in H.
        apply app_eq_nil in H as [-> ->]. constructor; [split; [reflexivity|apply node_cmp_nil; assumption]|apply IH; exact Hu].
      * intro H. inversion H as [|? ? ? ? [_ H1] H2]; subst. cbn [snd] in H1. apply node_cmp_nil in H1; [|assumption|assumption]. rewrite H1. cbn [bind].
        apply IH in H2. rewrite H2. reflexivity.
    + cbn [orb]. split; [|intro H; inversion H as [|? ? ? ? [H1 _] _]; subst; cbn [fst] in H1; subst k'; rewrite str_eqb_refl in E; discriminate].
      destruct (existsb (str_eqb k) (map fst r)); intro H.
      * apply bind_ok in H as ([s ok1] & Hs1 & H). apply bind_ok in Hs1 as (s0 & Hs0 & Hs1). apply bind_ok in Hs1 as ([s1 ok2] & Hs2 & Hs1). apply ok_inj in Hs1.
        injection Hs1 as -> ->. apply bind_ok in H as (b & _ & H). apply bind_ok in H as (d & _ & H). apply bind_ok in H as (u & _ & H). apply ok_inj in H.
        symmetry in H. apply app_eq_nil in H as [H _]. apply app_eq_nil in H as [H _]. unfold plus in Hs0. apply bind_ok in Hs0 as (m & _ & Hs0).
        apply bind_ok in Hs0 as (t & _ & Hs0). apply ok_inj in Hs0. subst s0. apply block_not_nil in H. destruct H.
      * apply bind_ok in H as (t & _ & H). apply bind_ok in H as (u & _ & H). apply ok_inj in H. symmetry in H. apply app_eq_nil in H as [H _].
        apply block_not_nil in H. destruct H.
Qed.
(** With compare_order the report is empty exactly when both have the same keys in the same order; inside subsections the order still does not count. *)
Theorem C142_order_partial : forall c c', trees c -> trees c' ->
  (cont_cmp true c c' = Ok [] <-> Forall2 (fun p q => fst p = fst q /\ alike (snd p) (snd q)) c c').
Proof. intros c c' (Hn & Hs & Ht) (Hn' & Hs' & Ht'). apply loop_order_nil; auto. Qed.
Print Assumptions C142_order_partial.

(** ** C143: finding an item of an HTC file *)

(** Following the keys from a file or section down to an item. *)
Inductive reach : list (str * node) -> list str -> node -> Prop :=
| reach_one c k n : In (k, n) c -> reach c [k] n
| reach_more c k kd nm bc ec c1 ss ks n : In (k, Sec kd nm bc ec c1 ss) c -> reach c1 ks n -> reach c (k :: ks) n.

Lemma dget_in (c : dict_) k n : dget c k = Some n -> In (k, n) c.
Proof.
  unfold dget. destruct (find _ c) as [[x m]|] eqn:E; [|discriminate]. intro H. injection H as <-. apply find_some in E as [H E]. cbn [fst snd] in *.
  apply str_eqb_eq in E. subst x. exact H.
Qed.
Lemma dget_none (c : dict_) k : dget c k = None <-> ~ In k (map fst c).
Proof.
  unfold dget. destruct (find _ c) as [[x m]|] eqn:E.
  - split; [discriminate|]. intro H. apply find_some in E as [H1 H2]. cbn [fst] in H2. apply str_eqb_eq in H2. subst x. exfalso. apply H.
    apply in_map_iff. exists (k, m). auto.
  - split; [|auto]. intros _ H. apply in_map_iff in H as ((x & m) & E1 & H). cbn [fst] in E1. subst x. apply (find_none _ _ E) in H. cbn [fst] in H.
    rewrite str_eqb_refl in H. discriminate.
Qed.
(** A simple key finds its item and nothing else; an absent one raises KeyError, and get gives the default. *)
Theorem C143_key : forall c k, NoDup (map fst c) -> simple k ->
  (forall n, getitem c k = Ok n <-> In (k, n) c) /\ (forall n, get c k = Ok (Some n) <-> In (k, n) c) /\
  (~ In k (map fst c) -> getitem c k = Err KeyError /\ get c k = Ok None).
Proof.
  intros c k Hn Hk. assert (G : forall n, getitem c k = Ok n <-> In (k, n) c).
  { intro n. unfold getitem. rewrite (simple_key _ Hk). unfold attr. split.
    - destruct (dget c k) eqn:E; [|discriminate]. intro H. apply ok_inj in H. subst n0. apply dget_in. exact E.
    - intro H. rewrite (dget_nodup _ _ _ Hn H). reflexivity. }
  split; [exact G|]. split.
  - intro n. rewrite <- G. unfold get. destruct (getitem c k) as [m|e]; [split; intro H; [injection H as ->|apply ok_inj in H; subst m]; reflexivity|].
    split; [|discriminate]. destruct e; discriminate.
  - intro H. apply dget_none in H. unfold get, getitem. rewrite (simple_key _ Hk). unfold attr. rewrite H. auto.
Qed.
Print Assumptions C143_key.

Lemma undot_simple k : simple k -> undot k = k.
Proof.
  intros [H _]. unfold undot. induction k as [|x k IH]; [reflexivity|]. cbn [map]. rewrite IH by (intro; apply H; right; assumption).
  destruct (chr_eqb x dot) eqn:E; [|reflexivity]. apply chr_eqb_eq in E. exfalso. apply H. left. exact E.
Qed.
Lemma undot_join c ks : c = dot \/ c = fslash -> Forall simple ks -> undot (join [c] ks) = join [fslash] ks.
Proof.
  intros Hc. induction ks as [|k ks IH]; intro H; [reflexivity|]. inversion H as [|? ? Hk Hks]; subst. destruct ks as [|k' ks].
  - cbn [join]. apply undot_simple. exact Hk.
  - change (join [c] (k :: k' :: ks)) with (k ++ [c] ++ join [c] (k' :: ks)). change (join [fslash] (k :: k' :: ks)) with (k ++ [fslash] ++ join [fslash] (k' :: ks)).
    unfold undot in *. rewrite !map_app. f_equal; [apply undot_simple; exact Hk|]. f_equal; [destruct Hc as [->| ->]; reflexivity|apply IH; exact Hks].
Qed.
(** Keys joined by "." or "/" find the item reached by following them one after the other. *)
Theorem C143_path : forall c sep k0 k1 ks n, trees c -> sep = "."%char \/ sep = "/"%char -> Forall simple (k0 :: k1 :: ks) ->
  (getitem c (join [sep] (k0 :: k1 :: ks)) = Ok n <-> reach c (k0 :: k1 :: ks) n).
Proof.
  intros c sep k0 k1 ks n Hc Hsep Hs. unfold getitem. assert (U := undot_join sep (k0 :: k1 :: ks) Hsep Hs).
  assert (P : path_key (join [sep] (k0 :: k1 :: ks)) = true).
  { unfold path_key. rewrite U. apply existsb_exists. exists fslash. split; [|apply chr_eqb_refl].
    change (join [fslash] (k0 :: k1 :: ks)) with (k0 ++ [fslash] ++ join [fslash] (k1 :: ks)). apply in_or_app. right. left. reflexivity. }
  rewrite P, U. rewrite split_chr_join; [|discriminate|].
  2:{ apply forallb_forall. intros w Hw. apply (proj1 (Forall_forall _ _) Hs) in Hw as [_ Hw]. apply negb_true_iff. apply Bool.not_true_iff_false. intro E.
      apply mem_chr_iff in E. apply Hw. exact E. }
  clear P U Hsep. cbn [bind].
  assert (W : forall ks m n, tree m -> ks <> [] -> (walk m ks = Ok n <-> exists kd nm bc ec c1 ss, m = Sec kd nm bc ec c1 ss /\ reach c1 ks n)).
  { clear. induction ks as [|k ks IH]; intros m n Hm Hne; [contradiction|]. cbn [walk]. destruct m as [nm vs cm|kd nm bc ec c1 ss].
    - cbn [step bind]. split; [discriminate|]. intros (? & ? & ? & ? & ? & ? & E & _). discriminate.
    - inversion Hm as [|? ? ? ? ? ? Hn Hs Ht]; subst. cbn [step]. unfold attr. split.
      + intro H. apply bind_ok in H as (x & Hx & H). destruct (dget c1 k) eqn:E; [|discriminate]. apply ok_inj in Hx. subst x. apply dget_in in E.
        exists kd, nm, bc, ec, c1, ss. split; [reflexivity|]. destruct ks as [|k' ks].
        * cbn [walk] in H. apply ok_inj in H. subst n. constructor. exact E.
        * apply IH in H as (kd' & nm' & bc' & ec' & c2 & ss' & -> & H); [|exact (proj1 (Forall_forall _ _) Ht _ E)|discriminate].
          eapply reach_more; eassumption.
      + intros (kd' & nm' & bc' & ec' & c2 & ss' & E & H). injection E as <- <- <- <- <- <-. inversion H as [? ? ? Hin|? ? kd2 nm2 bc2 ec2 c3 ss3 ? ? Hin Hr]; subst.
        * rewrite (dget_nodup _ _ _ Hn Hin). reflexivity.
        * rewrite (dget_nodup _ _ _ Hn Hin). cbn [bind]. apply IH; [exact (proj1 (Forall_forall _ _) Ht _ Hin)|inversion Hr; discriminate|].
          exists kd2, nm2, bc2, ec2, c3, ss3. split; [reflexivity|exact Hr]. }
  destruct Hc as (Hn & _ & Ht). unfold attr. split.
  - intro H. apply bind_ok in H as (m & Hm & H). destruct (dget c k0) as [m0|] eqn:E; [|discriminate]. apply ok_inj in Hm. subst m.
    apply dget_in in E. apply W in H as (kd & nm & bc & ec & c1 & ss & -> & H); [|exact (proj1 (Forall_forall _ _) Ht _ E)|discriminate].
    eapply reach_more; eassumption.
  - intro H. inversion H as [|? ? kd nm bc ec c1 ss ? ? Hin Hr]; subst. rewrite (dget_nodup _ _ _ Hn Hin). cbn [bind].
    apply W; [exact (proj1 (Forall_forall _ _) Ht _ Hin)|discriminate|]. exists kd, nm, bc, ec, c1, ss. split; [reflexivity|exact Hr].
Qed.
Print Assumptions C143_path.
(** A line whose name has a "." or "/" is stored under that name but cannot be found by it: its name is read as a path. *)
Theorem C143_dotted_refuted : forall c a b n, simple a -> In (a ++ S_ "." ++ b, n) c -> ~ In a (map fst c) ->
  getitem c (a ++ S_ "." ++ b) = Err KeyError /\ get c (a ++ S_ "." ++ b) = Ok None.
Proof.
  intros c a b n Ha _ Hin. assert (G : getitem c (a ++ S_ "." ++ b) = Err KeyError).
  { unfold getitem. assert (U : undot (a ++ S_ "." ++ b) = a ++ fslash :: undot b) by (unfold undot; rewrite map_app; f_equal; apply undot_simple; exact Ha).
    assert (P : path_key (a ++ S_ "." ++ b) = true).
    { unfold path_key. rewrite U. apply existsb_exists. exists fslash. split; [apply in_or_app; right; left; reflexivity|apply chr_eqb_refl]. }
    rewrite P, U. unfold split_chr. rewrite split_on_app_sep; [| |apply chr_eqb_refl].
    - apply dget_none in Hin. unfold attr. rewrite Hin. reflexivity.
    - apply forallb_forall. intros x Hx. apply negb_true_iff. apply chr_eqb_neq. intros ->. apply (proj2 Ha). exact Hx. }
  split; [exact G|]. unfold get. rewrite G. reflexivity.
Qed.
Print Assumptions C143_dotted_refuted.
Example dotted_file : exists h n, load (fun _ => None) (fun s => Ok s) (S_ "ver.1 2;" ++ [nl] ++ S_ "exit;") = Ok h /\ In (S_ "ver.1", n) (h_contents h) /\
  getitem (h_contents h) (S_ "ver.1") = Err KeyError.
Proof. eexists. eexists. split; [vm_compute; reflexivity|]. split; [left; reflexivity|vm_compute; reflexivity]. Qed.

(** The item has a line [field] whose first value is [v]. *)
Definition holds (field v : str) (s : node) : Prop := exists k nm bc ec c ss nm' vs cm, s = Sec k nm bc ec c ss /\ In (field, Line nm' (v :: vs) cm) c.
(** [field] of the item, if it has one, is a line with values. *)
Definition readable (field : str) (s : node) : Prop :=
  forall k nm bc ec c ss n, s = Sec k nm bc ec c ss -> In (field, n) c -> exists nm' v vs cm, n = Line nm' (v :: vs) cm.
(** The one item with the property. *)
Definition the_item (c : list (str * node)) (P : node -> Prop) (s : node) : Prop :=
  exists k, In (k, s) c /\ P s /\ forall k' s', In (k', s') c -> P s' -> k' = k.

Lemma perm_filter {A} (f : A -> bool) l l' : Permutation l l' -> Permutation (filter f l) (filter f l').
Proof.
  intro H. induction H as [|x l l' H IH|x y l|l l' l'' H1 IH1 H2 IH2]; cbn [filter].
  - constructor.
  - destruct (f x); [constructor|]; exact IH.
  - destruct (f x), (f y); try apply Permutation_refl. apply perm_swap.
  - eapply Permutation_trans; eassumption.
Qed.
Lemma filter_res_ok {A} (f : A -> res bool) (g : A -> bool) l : (forall x, In x l -> f x = Ok (g x)) -> filter_res f l = Ok (filter g l).
Proof.
  induction l as [|x l IH]; intro H; [reflexivity|]. cbn [filter_res filter]. rewrite (H x) by (left; reflexivity). cbn [bind].
  rewrite IH by (intros y Hy; apply H; right; exact Hy). reflexivity.
Qed.
Lemma map_snd_filter {A B} (g : B -> bool) (l : list (A * B)) : filter g (map snd l) = map snd (filter (fun p => g (snd p)) l).
Proof. induction l as [|p l IH]; [reflexivity|]. cbn [map filter]. destruct (g (snd p)); cbn [map]; rewrite IH; reflexivity. Qed.
Lemma single_filter (c : dict_) (g : node -> bool) (P : node -> Prop) s : NoDup (map fst c) -> (forall k n, In (k, n) c -> (g n = true <-> P n)) ->
  (filter g (map snd (iter_order node_name c)) = [s] <-> the_item c P s).
Proof.
  intros Hn Hg. rewrite map_snd_filter. set (h := fun p : str * node => g (snd p)).
  assert (Hp : Permutation (filter h (iter_order node_name c)) (filter h c)) by (apply perm_filter, Permutation_sym, C31_iteration).
  assert (In_ : forall p, In p (filter h c) <-> In p c /\ P (snd p)).
  { intros [k n]. rewrite filter_In. unfold h. cbn [snd]. split; intros [H1 H2]; (split; [exact H1|]); apply (Hg k n H1); exact H2. }
  split.
  - intro H. destruct (filter h (iter_order node_name c)) as [|[k m] [|]] eqn:E; try discriminate. cbn [map snd] in H. injection H as ->.
    apply Permutation_length_1_inv in Hp. exists k. assert (Hs : In (k, s) (filter h c)) by (rewrite Hp; left; reflexivity). apply In_ in Hs as [H1 H2].
    split; [exact H1|]. split; [exact H2|]. intros k' s' H3 H4. assert (Hs' : In (k', s') (filter h c)) by (apply In_; auto). rewrite Hp in Hs'.
    destruct Hs' as [Hs'|[]]. injection Hs' as <- _. reflexivity.
  - intros (k & H1 & H2 & H3). assert (E : filter h c = [(k, s)]).
    { assert (Nd : NoDup (filter h c)) by (apply NoDup_filter; eapply NoDup_map_inv; exact Hn).
      assert (Hs : In (k, s) (filter h c)) by (apply In_; auto).
      assert (All : forall p, In p (filter h c) -> p = (k, s)).
      { intros [k' s'] H. apply In_ in H as [H4 H5]. pose proof (H3 k' s' H4 H5) as ->. f_equal. apply (nodup_same c k); assumption. }
      destruct (filter h c) as [|p [|q l]]; [destruct Hs|rewrite (All p) by (left; reflexivity); reflexivity|].
      rewrite (All p), (All q) in Nd by (cbn; auto). inversion Nd as [|? ? X]. exfalso. apply X. left. reflexivity. }
    rewrite E in Hp. apply Permutation_sym, Permutation_length_1_inv in Hp. rewrite Hp. reflexivity.
Qed.
Lemma has_value_ok field name s : tree s -> simple field -> readable field s -> exists b, has_value field name s = Ok b /\ (b = true <-> holds field name s).
Proof.
  intros Ht Hf Hr. destruct s as [nm vs c|k nm bc ec c ss]; cbn [has_value].
  - exists false. split; [reflexivity|]. split; [discriminate|]. intros (? & ? & ? & ? & ? & ? & ? & ? & ? & E & _). discriminate.
  - inversion Ht as [|? ? ? ? ? ? Hn Hs Ht']; subst. destruct (dget c field) as [n|] eqn:E.
    + apply dget_in in E. destruct (Hr _ _ _ _ _ _ _ eq_refl E) as (nm' & v & vs & cm & ->). rewrite (simple_key _ Hf). cbn [first_value bind].
      exists (str_eqb v name). split; [reflexivity|]. split.
      * intro H. apply str_eqb_eq in H. subst v. exists k, nm, bc, ec, c, ss, nm', vs, cm. auto.
      * intros (? & ? & ? & ? & ? & ? & nm2 & vs2 & cm2 & E2 & H). injection E2 as <- <- <- <- <- <-. pose proof (nodup_same _ _ _ _ Hn E H) as X. injection X as _ -> _ _.
        apply str_eqb_refl.
    + exists false. split; [reflexivity|]. split; [discriminate|]. intros (? & ? & ? & ? & ? & ? & nm2 & vs2 & cm2 & E2 & H). injection E2 as <- <- <- <- <- <-.
      apply dget_none in E. exfalso. apply E. apply in_map_iff. eexists. split; [|exact H]. reflexivity.
Qed.
Lemma find_general (c : dict_) (f : node -> res bool) (P : node -> Prop) (e : exn) :
  NoDup (map fst c) -> (forall k n, In (k, n) c -> exists b, f n = Ok b /\ (b = true <-> P n)) ->
  let r := (lst <- filter_res f (map snd (iter_order node_name c)) ;; match lst with [s] => Ok s | _ => Err e end) in
  (forall s, r = Ok s <-> the_item c P s) /\ ((forall s, ~ the_item c P s) -> r = Err e).
Proof.
  intros Hn Hf r.
  assert (Hi : forall x, In x (map snd (iter_order node_name c)) <-> exists k, In (k, x) c).
  { intro x. pose proof (proj1 (C31_iteration c)) as Hp. split.
    - intro H. apply in_map_iff in H as ((k & y) & E & H). cbn [snd] in E. subst y. exists k. apply (Permutation_in _ (Permutation_sym Hp)). exact H.
    - intros (k & H). apply in_map_iff. exists (k, x). split; [reflexivity|]. apply (Permutation_in _ Hp). exact H. }
  set (g := fun n => match f n with Ok b => b | Err _ => false end).
  assert (F : filter_res f (map snd (iter_order node_name c)) = Ok (filter g (map snd (iter_order node_name c)))).
  { apply filter_res_ok. intros x Hx. apply Hi in Hx as (k & Hx). destruct (Hf _ _ Hx) as (b & Hb & _). unfold g. rewrite Hb. reflexivity. }
  assert (G : forall s, filter g (map snd (iter_order node_name c)) = [s] <-> the_item c P s).
  { intro s. apply single_filter; [exact Hn|]. intros k n H. destruct (Hf _ _ H) as (b & Hb & Hp). unfold g. rewrite Hb. exact Hp. }
  unfold r. rewrite F. cbn [bind]. set (l := filter g (map snd (iter_order node_name c))) in *. split.
  - intro s. rewrite <- G. destruct l as [|x [|y l']]; (split; [try discriminate; intro H|try discriminate; intro H]).
    + apply ok_inj in H. subst x. reflexivity.
    + injection H as ->. reflexivity.
  - intro H. destruct l as [|x [|y l']]; [reflexivity| |reflexivity]. exfalso. apply (H x). apply G. reflexivity.
Qed.
(** Looking a subsection up by the first value of one of its lines gives the one subsection with that value, and ValueError when there is none or there are
    several. *)
Theorem C143_section : forall c field name, trees c -> simple field -> Forall (fun p => readable field (snd p)) c ->
  (forall s, get_section c field name = Ok s <-> the_item c (holds field name) s) /\
  ((forall s, ~ the_item c (holds field name) s) -> get_section c field name = Err ValueError).
Proof.
  intros c field name (Hn & _ & Ht) Hf Hr. apply find_general; [exact Hn|]. intros k n H. apply has_value_ok; [exact (proj1 (Forall_forall _ _) Ht _ H)|exact Hf|].
  exact (proj1 (Forall_forall _ _) Hr _ H).
Qed.
Print Assumptions C143_section.
(** [main_body(name='shaft')] gives the one item of the same name with that value. *)
Theorem C143_call : forall c me field v, trees c -> simple field -> Forall (fun p => node_name (snd p) = me -> readable field (snd p)) c ->
  (forall s, call_field c me field v = Ok s <-> the_item c (fun n => node_name n = me /\ holds field v n) s) /\
  ((forall s, ~ the_item c (fun n => node_name n = me /\ holds field v n) s) -> call_field c me field v = Err AssertionError).
Proof.
  intros c me field v (Hn & _ & Ht) Hf Hr. apply find_general; [exact Hn|]. intros k n H. destruct (str_eqb (node_name n) me) eqn:E.
  - apply str_eqb_eq in E. destruct (has_value_ok field v n) as (b & Hb & Hp); [exact (proj1 (Forall_forall _ _) Ht _ H)|exact Hf| |].
    + apply (proj1 (Forall_forall _ _) Hr _ H). exact E.
    + exists b. split; [exact Hb|]. rewrite Hp. tauto.
  - apply str_eqb_neq in E. exists false. split; [reflexivity|]. split; [discriminate|]. intros [X _]. contradiction.
Qed.
Print Assumptions C143_call.
(** The item is a line with this value at each of these places. *)
Definition has_all (kw : list (nat * str)) (n : node) : Prop := exists nm vs c, n = Line nm vs c /\ forall i v, In (i, v) kw -> nth_error vs i = Some v.
(** The item is a line that is long enough. *)
Definition long_line (kw : list (nat * str)) (n : node) : Prop := exists nm vs c, n = Line nm vs c /\ forall i v, In (i, v) kw -> i < List.length vs.
Lemma all_values_ok vs kw : (forall i v, In (i, v) kw -> i < List.length vs) ->
  exists b, all_values vs kw = Ok b /\ (b = true <-> forall i v, In (i, v) kw -> nth_error vs i = Some v).
Proof.
  induction kw as [|[i v] kw IH]; intro H.
  - exists true. split; [reflexivity|]. split; [intros _ i v []|reflexivity].
  - cbn [all_values]. destruct IH as (b & Hb & Hp); [intros j w Hj; apply (H j w); right; exact Hj|].
    destruct (nth_error vs i) as [x|] eqn:E; [|apply nth_error_None in E; specialize (H i v (or_introl eq_refl)); lia].
    rewrite Hb. cbn [bind]. exists (str_eqb x v && b). split; [reflexivity|]. rewrite Bool.andb_true_iff, Hp, str_eqb_eq. split.
    + intros [-> H2] j w [Hj|Hj]; [injection Hj as <- <-; exact E|auto].
    + intro H2. split; [|intros j w Hj; apply H2; right; exact Hj]. specialize (H2 i v (or_introl eq_refl)). congruence.
Qed.
(** [sec(v0=3)] gives the one line of the same name with these values. *)
Theorem C143_line : forall c me kw, NoDup (map fst c) -> Forall (fun p => node_name (snd p) = me -> long_line kw (snd p)) c ->
  (forall s, call_values c me kw = Ok s <-> the_item c (fun n => node_name n = me /\ has_all kw n) s) /\
  ((forall s, ~ the_item c (fun n => node_name n = me /\ has_all kw n) s) -> call_values c me kw = Err AssertionError).
Proof.
  intros c me kw Hn Hr. apply find_general; [exact Hn|]. intros k n H. destruct (str_eqb (node_name n) me) eqn:E.
  - apply str_eqb_eq in E. assert (L : long_line kw n) by exact (proj1 (Forall_forall _ _) Hr _ H E). destruct L as (nm & vs & cm & -> & Hl).
    destruct (all_values_ok vs kw Hl) as (b & Hb & Hp).
    exists b. split; [exact Hb|]. rewrite Hp. split.
    + intro H2. split; [exact E|]. exists nm, vs, cm. auto.
    + intros [_ (? & ? & ? & E2 & H2)]. injection E2 as <- <- <-. exact H2.
  - apply str_eqb_neq in E. exists false. split; [reflexivity|]. split; [discriminate|]. intros [X _]. contradiction.
Qed.
Print Assumptions C143_line.
(** get_element with a position finds the one line with that value there, when all the items of the section are lines that are long enough. *)
Theorem C143_element_partial : forall c i v, NoDup (map fst c) -> Forall (fun p => long_line [(i, v)] (snd p)) c ->
  (forall s, get_element_at c i v = Ok s <-> the_item c (has_all [(i, v)]) s) /\
  ((forall s, ~ the_item c (has_all [(i, v)]) s) -> get_element_at c i v = Err ValueError).
Proof.
  intros c i v Hn Hr. apply find_general; [exact Hn|]. intros k n H. assert (L : long_line [(i, v)] n) by exact (proj1 (Forall_forall _ _) Hr _ H). destruct L as (nm & vs & cm & -> & Hl).
  destruct (all_values_ok vs [(i, v)] Hl) as (b & Hb & Hp). exists b. split; [exact Hb|]. rewrite Hp. split.
  - intro H2. exists nm, vs, cm. auto.
  - intros (? & ? & ? & E2 & H2). injection E2 as <- <- <-. exact H2.
Qed.
Print Assumptions C143_element_partial.
(** get_element with a key never finds anything. *)
Lemma filter_res_all {A} (f : A -> res bool) l r : filter_res f l = Ok r -> forall x, In x l -> exists b, f x = Ok b.
Proof.
  revert r. induction l as [|y l IH]; intros r H x; [intros []|]. cbn [filter_res] in H. apply bind_ok in H as (b & Hb & H). apply bind_ok in H as (q & Hq & H).
  intros [->|Hx]; [eauto|eapply IH; eassumption].
Qed.
Theorem C143_element_key_refuted : forall c key n, get_element_key c key <> Ok n.
Proof.
  intros c key n. unfold get_element_key. intro H. apply bind_ok in H as (l & Hl & H). assert (E : l = []); [|subst l; discriminate].
  clear H. revert l Hl. induction (map snd (iter_order node_name c)) as [|x xs IH]; intros l Hl; cbn [filter_res] in Hl; [apply ok_inj in Hl; exact Hl|].
  apply bind_ok in Hl as (b & Hb & Hl). apply bind_ok in Hl as (q & Hq & Hl). apply ok_inj in Hl. subst l. rewrite (IH q Hq).
  assert (b = false); [|subst b; reflexivity]. destruct x as [nm vs cm|k nm bc ec cont ss]; cbn [named] in Hb; [apply ok_inj in Hb; exact Hb|].
  destruct (dget cont key); [|apply ok_inj in Hb; exact Hb]. destruct (path_key key); [discriminate|]. destruct (first_value n0); discriminate.
Qed.
Print Assumptions C143_element_key_refuted.
(** One subsection whose field has no value, or one short line, makes every lookup fail. *)
Theorem C143_one_empty_refuted : forall c field name k kd nm bc ec sc ss nm' cm, In (k, Sec kd nm bc ec sc ss) c ->
  NoDup (map fst sc) -> In (field, Line nm' [] cm) sc -> forall s, get_section c field name <> Ok s.
Proof.
  intros c field name k kd nm bc ec sc ss nm' cm Hin Hn Hf s H. unfold get_section in H. apply bind_ok in H as (l & Hl & _).
  assert (Hi : In (Sec kd nm bc ec sc ss) (map snd (iter_order node_name c))).
  { apply in_map_iff. exists (k, Sec kd nm bc ec sc ss). split; [reflexivity|]. apply (Permutation_in _ (proj1 (C31_iteration c))). exact Hin. }
  destruct (filter_res_all _ _ _ Hl _ Hi) as (b & Hb). cbn [has_value] in Hb. rewrite (dget_nodup _ _ _ Hn Hf) in Hb. destruct (path_key field); discriminate.
Qed.
Print Assumptions C143_one_empty_refuted.
(** A subsection among the items makes get_element with a position fail. *)
Theorem C143_element_section_refuted : forall c i v k kd nm bc ec sc ss, In (k, Sec kd nm bc ec sc ss) c -> forall s, get_element_at c i v <> Ok s.
Proof.
  intros c i v k kd nm bc ec sc ss Hin s H. unfold get_element_at in H. apply bind_ok in H as (l & Hl & _).
  assert (Hi : In (Sec kd nm bc ec sc ss) (map snd (iter_order node_name c))).
  { apply in_map_iff. exists (k, Sec kd nm bc ec sc ss). split; [reflexivity|]. apply (Permutation_in _ (proj1 (C31_iteration c))). exact Hin. }
  destruct (filter_res_all _ _ _ Hl _ Hi) as (b & Hb). cbn [value_at] in Hb. destruct (dmem sc (S_ "values")); discriminate.
Qed.
Print Assumptions C143_element_section_refuted.

(** ** Concrete cases *)
Definition ex_body (nm : string) : node := Sec Plain (S_ "main_body") [] [] [(S_ "name", Line (S_ "name") [S_ nm] [])] [].
Definition ex_out (vs : list str) : node := Sec Output (S_ "output") [] [] [(S_ "time", Line (S_ "time") vs [])] [mk_sensor (S_ "general") (S_ "time") [] []].
Definition ex_file (nm2 : string) (vs : list str) : list (str * node) :=
  [(S_ "main_body", ex_body "shaft"); (S_ "main_body__2", ex_body nm2); (S_ "output", ex_out vs)].
Ltac nd := repeat (constructor; [cbn; intuition discriminate|]); constructor.
Example ex_trees : trees (ex_file "tower" [S_ "0"; S_ "10"]).
Proof.
  assert (sk : forall s, (if existsb (fun c => chr_eqb c (ch 46) || chr_eqb c (ch 47)) s then false else true) = true -> simple s).
  { intros s H. destruct (existsb _ s) eqn:E; [discriminate|]. split; intro X;
      (assert (Y : existsb (fun c => chr_eqb c (ch 46) || chr_eqb c (ch 47)) s = true) by (apply existsb_exists; eexists; split; [exact X|reflexivity])); congruence. }
  repeat split.
  - nd.
  - repeat constructor; cbn [fst]; apply sk; vm_compute; reflexivity.
  - repeat constructor; cbn [fst]; try (apply sk; vm_compute; reflexivity); cbn; auto.
Qed.
Example ex_same : cont_cmp false (ex_file "tower" [S_ "0"; S_ "10"]) (ex_file "tower" [S_ "0"; S_ "10"]) = Ok [].
Proof. vm_compute. reflexivity. Qed.
Example ex_differs : cont_cmp false (ex_file "tower" [S_ "0"; S_ "10"]) (ex_file "tower" [S_ "0"; S_ "20"]) =
  Ok (S_ "+ time" ++ [tab] ++ S_ "0 10;" ++ [nl] ++ S_ "- time" ++ [tab] ++ S_ "0 20;" ++ [nl; nl]).
Proof. vm_compute. reflexivity. Qed.
Example ex_find : call_field (ex_file "tower" []) (S_ "main_body") (S_ "name") (S_ "tower") = Ok (ex_body "tower") /\
  getitem (ex_file "tower" []) (S_ "main_body__2/name") = Ok (Line (S_ "name") [S_ "tower"] []) /\
  get_section (ex_file "tower" []) (S_ "name") (S_ "shaft") = Ok (ex_body "shaft") /\
  get_section (ex_file "shaft" []) (S_ "name") (S_ "shaft") = Err ValueError /\
  call_values [(S_ "sec", Line (S_ "sec") [S_ "1"; S_ "0"] []); (S_ "sec__2", Line (S_ "sec") [S_ "2"; S_ "5"] [])] (S_ "sec") [(0, S_ "2")] =
    Ok (Line (S_ "sec") [S_ "2"; S_ "5"] []).
Proof. repeat split; vm_compute; reflexivity. Qed.
