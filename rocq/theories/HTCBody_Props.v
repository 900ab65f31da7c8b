(** Properties C144 (sections of a body of an HTC file) and C145 (bodies of an HTC file and their data frames). *)
From Verif Require Import Py PyFacts FASTOut_Model HTC_Model HTCSim_Model.
From Verif Require Deck_Model HTCSim_Props HTC_Names HTC_Spec.
From Verif Require Import HTCCmp_Model HTCCmp_Props HTCBody_Model.
From Coq Require Import QArith Permutation Sorted Lia.
Local Open Scope nat_scope.

(** ** Specification *)

(** The keys that start with a word. *)
Definition starting (w : string) (ks : list str) : list str := filter (fun k => if list_eq_dec ascii_dec (firstn (String.length w) k) (S_ w) then true else false) ks.
(** The lines of the sections hold these rows, in file order: five numbers each. *)
Definition sections (toQ : str -> option Q) (c2 : list (str * node)) (rows : list (list Q)) : Prop :=
  Forall2 (fun k r => exists nm vs cm, In (k, Line nm vs cm) c2 /\ Forall2 (fun v q => toQ v = Some q) vs r /\ List.length r = 5) (starting "sec" (map fst c2)) rows.
(** The contents are those of a dictionary with simple keys. *)
Definition plain_dict (c : list (str * node)) : Prop := NoDup (map fst c) /\ Forall (fun p => simple (fst p)) c.
(** The body has these sections of the half chord. *)
Definition has_c2 (b : node) (c2 : list (str * node)) : Prop :=
  exists k nm bc ec cont ss k2 nm2 bc2 ec2 ss2, b = Sec k nm bc ec cont ss /\ NoDup (map fst cont) /\ In (S_ "c2_def", Sec k2 nm2 bc2 ec2 c2 ss2) cont.
Definition nsec_text (c2 : list (str * node)) (v : str) : Prop := exists nm vs cm, In (S_ "nsec", Line nm (v :: vs) cm) c2.
Definition first (r : list Q) : Q := match r with x :: _ => x | [] => 0%Q end.
(** numpy.argsort: the positions in an order that sorts the numbers. *)
Definition sorts (argsort : list Q -> list nat) : Prop :=
  forall l, Permutation (argsort l) (seq 0 (List.length l)) /\ StronglySorted Qle (map (fun i => nth i l 0%Q) (argsort l)).
Definition in_order (rows : list (list Q)) : Prop := StronglySorted (fun a b => Qle (first a) (first b)) rows.
Definition increasing (rows : list (list Q)) : Prop := StronglySorted (fun a b => Qlt (first a) (first b)) rows.
(** Numbers are printed so that they can be read back. *)
Definition faithful (toQ : str -> option Q) (ofQ : Q -> str) (ofZ : Z -> str) : Prop :=
  (forall q, toQ (ofQ q) = Some q) /\ (forall z, toQ (ofZ z) = Some (inject_Z z)).

(** ** Proofs *)

Lemma starting_eq w d : starting w (map fst d) = keys_with (S_ w) d.
Proof.
  unfold starting, keys_with, keys. apply filter_ext. intro k. destruct (list_eq_dec _ _ _) as [e|n].
  - symmetry. apply startswith_iff. exists (skipn (String.length w) k). rewrite <- e at 1. symmetry. apply firstn_skipn.
  - symmetry. apply Bool.not_true_iff_false. intro H. apply startswith_iff in H as (t & ->). apply n.
    assert (L : List.length (S_ w) = String.length w) by (clear; unfold S_; induction w; cbn; congruence).
    rewrite <- L. rewrite firstn_app, firstn_all, Nat.sub_diag. cbn [firstn]. apply app_nil_r.
Qed.
Lemma getitem_in (c : dict_) k n : plain_dict c -> In (k, n) c -> getitem c k = Ok n.
Proof. intros [Hn Hs] H. apply C143_key; [exact Hn|exact (proj1 (Forall_forall _ _) Hs _ H)|exact H]. Qed.
Lemma map_res_ok {A B} (f : A -> res B) l r : Forall2 (fun a b => f a = Ok b) l r -> map_res f l = Ok r.
Proof. intro H. induction H as [|a b l r H1 H2 IH]; [reflexivity|]. cbn [map_res]. rewrite H1. cbn [bind]. rewrite IH. reflexivity. Qed.
Lemma F2_len {A B} (P : A -> B -> Prop) l r : Forall2 P l r -> List.length l = List.length r.
Proof. intro H. induction H; cbn; congruence. Qed.
Lemma rows5_ok rows : Forall (fun r => List.length r = 5) rows -> rows5 (concat rows) = Ok rows.
Proof.
  intro H. induction H as [|r rows Hr H IH]; [reflexivity|]. do 6 (destruct r as [|? r]; try discriminate). cbn [concat app rows5]. rewrite IH. reflexivity.
Qed.
Lemma first_hd (r : list Q) : first r = hd 0%Q r.
Proof. destruct r; reflexivity. Qed.

Lemma sorted_unique l1 : forall l2, in_order l1 -> increasing l2 -> Permutation l1 l2 -> l1 = l2.
Proof.
  induction l1 as [|y l1 IH]; intros l2 H1 H2 Hp; [apply Permutation_nil in Hp; auto|].
  destruct l2 as [|x l2]; [apply Permutation_sym, Permutation_nil in Hp; discriminate|].
  inversion H1 as [|? ? S1 F1]; subst. inversion H2 as [|? ? S2 F2]; subst.
  assert (E : y = x).
  { assert (Hx : In x (y :: l1)) by (apply (Permutation_in _ (Permutation_sym Hp)); left; reflexivity).
    assert (Hy : In y (x :: l2)) by (apply (Permutation_in _ Hp); left; reflexivity).
    destruct Hx as [Hx|Hx]; [exact Hx|]. destruct Hy as [Hy|Hy]; [symmetry; exact Hy|].
    exfalso. apply (Qlt_not_le (first x) (first y)); [exact (proj1 (Forall_forall _ _) F2 _ Hy)|exact (proj1 (Forall_forall _ _) F1 _ Hx)]. }
  subst y. f_equal. apply IH; [exact S1|exact S2|]. eapply Permutation_cons_inv. exact Hp.
Qed.
Lemma ddel_keys (c : dict_) k : map fst (ddel c k) = filter (fun x => negb (str_eqb x k)) (map fst c).
Proof. unfold ddel. induction c as [|p c IH]; [reflexivity|]. cbn [filter map]. destruct (str_eqb (fst p) k); cbn [negb map]; [exact IH|rewrite IH; reflexivity]. Qed.
Lemma filter_id {A} (f : A -> bool) l : (forall x, In x l -> f x = true) -> filter f l = l.
Proof. induction l as [|x l IH]; intro H; [reflexivity|]. cbn [filter]. rewrite (H x) by (left; reflexivity). f_equal. apply IH. intros y Hy. apply H. right. exact Hy. Qed.
Lemma ddel_absent (c : dict_) k : ~ In k (map fst c) -> ddel c k = c.
Proof.
  intro H. unfold ddel. apply filter_id. intros p Hp. apply negb_true_iff. apply str_eqb_neq. intros <-. apply H. apply in_map. exact Hp.
Qed.
Lemma filter_filter {A} (f g : A -> bool) l : filter f (filter g l) = filter (fun x => g x && f x) l.
Proof. induction l as [|x l IH]; [reflexivity|]. cbn [filter]. destruct (g x); cbn [filter andb]; [destruct (f x)|]; rewrite IH; reflexivity. Qed.
Lemma del_keys_ok ks : forall c : dict_, ~ In (S_ "k") (map fst c) ->
  map fst (del_keys c ks) = filter (fun x => negb (mem x ks)) (map fst c) /\ (forall p, In p (del_keys c ks) <-> In p c /\ ~ In (fst p) ks).
Proof.
  induction ks as [|k ks IH]; intros c Hk; cbn [del_keys].
  - split; [symmetry; apply filter_id; reflexivity|]. intro p. cbn. tauto.
  - rewrite (ddel_absent c) by exact Hk. destruct (IH (ddel c k)) as [H1 H2].
    { rewrite ddel_keys. intro H. apply filter_In in H as [H _]. contradiction. }
    split.
    + rewrite H1, ddel_keys, filter_filter. apply filter_ext. intro x. unfold mem. cbn [existsb]. destruct (str_eqb x k); reflexivity.
    + intro p. rewrite H2. unfold ddel. rewrite filter_In. rewrite negb_true_iff, str_eqb_neq. cbn [In]. intuition congruence.
Qed.
Lemma set_key_line (c2 : dict_) nm v vs cm u : NoDup (map fst c2) -> In (S_ "nsec", Line nm (v :: vs) cm) c2 ->
  map fst (set_key c2 (S_ "nsec") u) = map fst c2 /\ (forall k, dget (set_key c2 (S_ "nsec") u) k = if str_eqb (S_ "nsec") k then Some (Line nm u cm) else dget c2 k).
Proof.
  intros Hn Hin. unfold set_key. rewrite (dget_nodup _ _ _ Hn Hin). cbn [set_values]. split.
  - apply HTCSim_Props.keys_dset. rewrite (dget_nodup _ _ _ Hn Hin). discriminate.
  - intro k. rewrite HTCSim_Props.dget_dset. reflexivity.
Qed.
Lemma nsec_not_sec c2 : ~ In (S_ "nsec") (sec_keys c2).
Proof. unfold sec_keys, keys_with. intro H. apply filter_In in H as [_ H]. vm_compute in H. discriminate. Qed.
Lemma plain_keys (c c' : dict_) : map fst c' = map fst c -> plain_dict c -> plain_dict c'.
Proof.
  intros E [Hn Hs]. split; [rewrite E; exact Hn|]. apply Forall_forall. intros p Hp. assert (H : In (fst p) (map fst c)) by (rewrite <- E; apply in_map; exact Hp).
  apply in_map_iff in H as (q & <- & Hq). exact (proj1 (Forall_forall _ _) Hs _ Hq).
Qed.
Lemma mem_firstn k n (ks : list str) : NoDup ks -> In k (firstn n ks) -> ~ In k (skipn n ks).
Proof.
  intros Hn H1 H2. rewrite <- (firstn_skipn n ks) in Hn. apply in_split in H1 as (a & b & E). rewrite E in Hn. rewrite <- app_assoc in Hn. cbn [app] in Hn.
  apply NoDup_remove_2 in Hn. apply Hn. apply in_or_app. right. apply in_or_app. right. exact H2.
Qed.
Lemma filter_split n (ks l : list str) (f : str -> bool) : NoDup l -> filter f l = ks -> filter f (filter (fun x => negb (mem x (skipn n ks))) l) = firstn n ks.
Proof.
  intros Hn <-. revert n. induction l as [|x l IH]; intro n.
  - cbn [filter]. rewrite firstn_nil. reflexivity.
  - inversion Hn as [|? ? Hx Hn']; subst. specialize (IH Hn'). cbn [filter]. destruct (f x) eqn:Ef.
    + destruct n as [|n].
      * cbn [skipn firstn]. assert (E : forall m, (forall y, In y m -> In y (x :: filter f l) \/ f y = false) -> filter f (filter (fun y => negb (mem y (x :: filter f l))) m) = []).
        { induction m as [|y m IHm]; intro H; [reflexivity|]. cbn [filter]. destruct (mem y (x :: filter f l)) eqn:Em; cbn [negb]; [apply IHm; intros z Hz; apply H; right; exact Hz|].
          cbn [filter]. destruct (H y (or_introl eq_refl)) as [Hy|Hy]; [apply mem_true in Hy; congruence|]. rewrite Hy. apply IHm. intros z Hz. apply H. right. exact Hz. }
        apply (E (x :: l)). intros y Hy. destruct (f y) eqn:Efy; [left|right; reflexivity]. destruct Hy as [<-|Hy]; [left; reflexivity|right; apply filter_In; auto].
      * cbn [skipn firstn]. assert (Em : mem x (skipn n (filter f l)) = false).
        { apply mem_false. intro H. assert (In x (filter f l)) as H' by (rewrite <- (firstn_skipn n (filter f l)); apply in_or_app; right; exact H).
          apply filter_In in H' as [H' _]. contradiction. }
        rewrite Em. cbn [negb filter]. rewrite Ef. f_equal. apply IH.
    + destruct (mem x (skipn n (filter f l))) eqn:Em; cbn [negb filter]; [|rewrite Ef]; apply IH.
Qed.

Lemma rows5_rest : forall l, (forall m, List.length l <> 5 * m) -> rows5 l = Err ValueError.
Proof.
  intro l. remember (List.length l) as n eqn:E. revert l E. induction n as [n IH] using lt_wf_ind. intros l -> H.
  destruct l as [|a [|b [|c [|d [|e l]]]]]; try reflexivity; [destruct (H 0); reflexivity|]. cbn [rows5].
  rewrite (IH (List.length l)); [reflexivity|cbn; lia|reflexivity|]. intros m Hm. apply (H (S m)). cbn [List.length]. lia.
Qed.
Section P.
  Variable toQ : str -> option Q.
  Variable ofQ : Q -> str.
  Variable ofZ : Z -> str.
  Variable argsort : list Q -> list nat.
  Hypothesis Hsort : sorts argsort.

  Lemma sort_rows_ok rows : Permutation (sort_rows argsort rows) rows /\ in_order (sort_rows argsort rows).
  Proof using Hsort.
    unfold sort_rows. set (l := map (fun r => hd 0%Q r) rows). destruct (Hsort l) as [Hp Hs].
    assert (L : List.length l = List.length rows) by apply map_length. split.
    - eapply Permutation_trans; [apply Permutation_map; exact Hp|]. rewrite L. clear. 
      assert (E : map (fun i => nth i rows []) (seq 0 (List.length rows)) = rows); [|rewrite E; apply Permutation_refl].
      apply nth_ext with (d := []) (d' := []); [rewrite map_length, seq_length; reflexivity|]. intros i Hi. rewrite map_length, seq_length in Hi.
      rewrite nth_indep with (d' := (fun i => nth i rows []) 0) by (rewrite map_length, seq_length; exact Hi). rewrite (map_nth (fun i => nth i rows [])), seq_nth by exact Hi. reflexivity.
    - unfold in_order. revert Hs. assert (Hb : Forall (fun i => i < List.length rows) (argsort l)).
      { apply Forall_forall. intros i Hi. apply (Permutation_in _ Hp) in Hi. apply in_seq in Hi. lia. }
      assert (X : forall i, i < List.length rows -> nth i l 0%Q = first (nth i rows [])).
      { intros i Hi. rewrite first_hd. unfold l. rewrite nth_indep with (d' := (fun r => hd 0%Q r) []) by (rewrite map_length; exact Hi).
        apply (map_nth (fun r => hd 0%Q r)). }
      generalize (argsort l) Hb. clear Hp Hb Hsort L. intros is Hb Hs. induction Hb as [|i is Hi Hb IH]; cbn [map] in *; [constructor|].
      inversion Hs as [|? ? H1 H2]; subst. constructor; [apply IH; exact H1|]. apply Forall_forall. intros r Hr. apply in_map_iff in Hr as (j & <- & Hj).
      rewrite <- !X; [|exact (proj1 (Forall_forall _ _) Hb _ Hj)|exact Hi]. apply (proj1 (Forall_forall _ _) H2). apply in_map_iff. exists j. auto.
  Qed.

  Lemma body_c2_ok b c2 v ls rows : has_c2 b c2 -> NoDup (map fst c2) -> nsec_text c2 v ->
    map_res (fun k => n <- getitem c2 k ;; values_of n) (sec_keys c2) = Ok ls ->
    Forall2 (fun l r => Forall2 (fun v q => toQ v = Some q) l r) ls rows -> Forall (fun r => List.length r = 5) rows ->
    body_c2 toQ argsort b = Ok (sort_rows argsort rows).
  Proof using.
    intros (k & nm & bc & ec & cont & ss & k2 & nm2 & bc2 & ec2 & ss2 & -> & Hn & Hin) Hn2 (nmn & vs & cm & Hv) Hls Hrows H5.
    unfold body_c2, c2_contents. cbn [sub]. unfold attr. rewrite (dget_nodup _ _ _ Hn Hin). cbn [bind sub contents_of]. unfold attr.
    rewrite (dget_nodup _ _ _ Hn2 Hv). cbn [bind item nth_error]. rewrite Hls. cbn [bind]. unfold table.
    assert (Hl : Forall (fun l => List.length l = 5) ls).
    { clear - Hrows H5. revert H5. induction Hrows as [|l r ls rows H1 H2 IH]; intro H; constructor; inversion H; subst; [rewrite (F2_len _ _ _ H1); assumption|auto]. }
    assert (Hsl : same_length ls = true).
    { destruct Hl as [|l ls Hl1 Hl2]; [reflexivity|]. cbn [same_length]. apply forallb_forall. intros x Hx. apply Nat.eqb_eq. rewrite (proj1 (Forall_forall _ _) Hl2 _ Hx). auto. }
    rewrite Hsl. rewrite (map_res_ok _ _ (concat rows)).
    - cbn [bind]. rewrite rows5_ok by exact H5. reflexivity.
    - clear - Hrows. induction Hrows as [|l r ls rows H1 H2 IH]; [constructor|]. cbn [concat]. apply Forall2_app; [|exact IH].
      clear - H1. induction H1 as [|v q l r H H1 IH]; constructor; [unfold number; rewrite H; reflexivity|exact IH].
  Qed.
  Lemma sections_read c2 rows : plain_dict c2 -> sections toQ c2 rows ->
    exists ls, map_res (fun k => n <- getitem c2 k ;; values_of n) (sec_keys c2) = Ok ls /\
      Forall2 (fun l r => Forall2 (fun v q => toQ v = Some q) l r) ls rows /\ Forall (fun r => List.length r = 5) rows.
  Proof using.
    intros Hc H. unfold sections in H. rewrite starting_eq in H. fold (sec_keys c2) in H. induction H as [|k r ks rows H1 H2 IH].
    - exists []. repeat split; constructor.
    - destruct IH as (ls & E & F & G). destruct H1 as (nm & vs & cm & Hin & Hv & Hl). exists (vs :: ls). cbn [map_res].
      rewrite (getitem_in _ _ _ Hc Hin). cbn [bind values_of]. rewrite E. repeat split; constructor; auto.
  Qed.

  (** ** C144: sections of a body *)
  (** The table of a body has one row for each section line, with its five numbers, ordered by the section numbers, whatever the order in the file. *)
  Theorem C144_read : forall b c2 v rows, has_c2 b c2 -> plain_dict c2 -> nsec_text c2 v -> sections toQ c2 rows ->
    exists val, body_c2 toQ argsort b = Ok val /\ Permutation val rows /\ in_order val /\ (increasing rows -> val = rows).
  Proof using Hsort.
    intros b c2 v rows Hb Hc Hv Hs. destruct (sections_read c2 rows Hc Hs) as (ls & E & F & G).
    exists (sort_rows argsort rows). split; [eapply body_c2_ok; eauto; apply Hc|]. destruct (sort_rows_ok rows) as [H1 H2].
    split; [exact H1|]. split; [exact H2|]. intro H. apply sorted_unique; assumption.
  Qed.
  (** The number of sections that the file declares is not compared with the sections it has. *)
  Theorem C144_declared_refuted : forall b c2 v rows, has_c2 b c2 -> plain_dict c2 -> nsec_text c2 v -> sections toQ c2 rows ->
    forall q, toQ v = Some q -> ~ (q == inject_Z (Z.of_nat (List.length rows)))%Q -> exists val, body_c2 toQ argsort b = Ok val /\ List.length val = List.length rows.
  Proof using Hsort.
    intros b c2 v rows Hb Hc Hv Hs q _ _. destruct (C144_read b c2 v rows Hb Hc Hv Hs) as (val & H & P & _). exists val. split; [exact H|].
    apply Permutation_length. exact P.
  Qed.
  (** A body without c2_def, or without a value of nsec, is refused. *)
  Theorem C144_absent : forall k nm bc ec cont ss, ~ In (S_ "c2_def") (map fst cont) -> body_c2 toQ argsort (Sec k nm bc ec cont ss) = Err PlainException.
  Proof using.
    intros k nm bc ec cont ss H. apply dget_none in H. unfold body_c2. cbn [sub]. unfold attr. rewrite H. reflexivity.
  Qed.

  (** What the loop of setBodyC2 does. *)
  Lemma set_rows_ok ks : forall c2 i val, NoDup ks -> plain_dict c2 ->
    (forall k, In k ks -> exists nm w ws cm, In (k, Line nm (w :: ws) cm) c2) ->
    (forall j, j < List.length ks -> exists x xs, nth_error val (i + j) = Some (x :: xs)) ->
    exists c2', set_rows ofQ ofZ c2 i ks val = (c2', Ok tt) /\ map fst c2' = map fst c2 /\
      (forall k, ~ In k ks -> dget c2' k = dget c2 k) /\
      (forall j k, nth_error ks j = Some k -> exists nm vs cm x xs, In (k, Line nm vs cm) c2 /\ nth_error val (i + j) = Some (x :: xs) /\
         dget c2' k = Some (Line nm (ofZ (trunc x) :: map ofQ xs) cm)).
  Proof using toQ ofQ ofZ.
    induction ks as [|k ks IH]; intros c2 i val Hn Hc Hl Hv.
    - exists c2. cbn [set_rows]. repeat split; auto. intros [|j] k H; discriminate.
    - inversion Hn as [|? ? Hk Hn']; subst. destruct (Hl k (or_introl eq_refl)) as (nm & w & ws & cm & Hin).
      destruct (Hv 0 ltac:(cbn; lia)) as (x & xs & Hx). rewrite Nat.add_0_r in Hx. cbn [set_rows]. rewrite (getitem_in _ _ _ Hc Hin). cbn [bind]. rewrite Hx.
      cbn [set_row]. set (n' := Line nm (ofZ (trunc x) :: map ofQ xs) cm). pose proof (dget_nodup _ _ _ (proj1 Hc) Hin) as Hd.
      assert (Hkeys : map fst (dset c2 k n') = map fst c2) by (apply HTCSim_Props.keys_dset; congruence).
      assert (Hc' : plain_dict (dset c2 k n')).
      { split; [rewrite Hkeys; apply Hc|]. apply Forall_forall. intros p Hp. destruct Hc as [_ Hs]. rewrite Forall_forall in Hs.
        assert (In (fst p) (map fst c2)) as H by (rewrite <- Hkeys; apply in_map; exact Hp). apply in_map_iff in H as (q & E & Hq). rewrite <- E. apply Hs. exact Hq. }
      destruct (IH (dset c2 k n') (S i) val Hn' Hc') as (c2' & E & K & O & V).
      + intros k0 Hk0. destruct (Hl k0 (or_intror Hk0)) as (nm0 & w0 & ws0 & cm0 & H0). exists nm0, w0, ws0, cm0. apply dget_in.
        rewrite HTCSim_Props.dget_dset. destruct (str_eqb k k0) eqn:Ek; [apply str_eqb_eq in Ek; subst k0; contradiction|]. apply dget_nodup; [apply Hc|exact H0].
      + intros j Hj. specialize (Hv (S j)). rewrite Nat.add_succ_r in Hv. apply Hv. cbn. lia.
      + exists c2'. split; [exact E|]. split; [rewrite K; exact Hkeys|]. split.
        * intros k0 H0. rewrite O by (intro; apply H0; right; assumption). rewrite HTCSim_Props.dget_dset.
          destruct (str_eqb k k0) eqn:Ek; [apply str_eqb_eq in Ek; subst k0; exfalso; apply H0; left; reflexivity|reflexivity].
        * intros [|j] k0 H0.
          -- injection H0 as <-. rewrite Nat.add_0_r. exists nm, (w :: ws), cm, x, xs. split; [exact Hin|]. split; [exact Hx|]. rewrite O by exact Hk.
             rewrite HTCSim_Props.dget_dset, str_eqb_refl. reflexivity.
          -- cbn [nth_error] in H0. destruct (V j k0 H0) as (nm0 & vs0 & cm0 & x0 & xs0 & I0 & X0 & D0). exists nm0, vs0, cm0, x0, xs0.
             split; [|split; [rewrite Nat.add_succ_r; exact X0|exact D0]]. apply dget_in. apply (dget_nodup _ _ _ (proj1 Hc')) in I0.
             rewrite HTCSim_Props.dget_dset in I0. destruct (str_eqb k k0) eqn:Ek; [|exact I0]. apply str_eqb_eq in Ek. subst k0. exfalso. apply Hk. eapply nth_error_In. exact H0.
  Qed.

  (** Setting a table with as many rows as sections, or fewer, succeeds: the first sections, in file order, get the rows (the number as an integer), the other
      sections are removed, nsec is the number of rows, and nothing else changes. *)
  Theorem C144_set : forall c2 v q rows val, plain_dict c2 -> ~ In (S_ "k") (map fst c2) -> nsec_text c2 v -> sections toQ c2 rows ->
    toQ v = Some q -> (q == inject_Z (Z.of_nat (List.length rows)))%Q -> List.length val <= List.length rows -> Forall (fun r => r <> []) val ->
    exists c2', set_c2 toQ ofQ ofZ c2 val = (c2', Ok tt) /\
      starting "sec" (map fst c2') = firstn (List.length val) (starting "sec" (map fst c2)) /\
      (exists nm vs cm, In (S_ "nsec", Line nm vs cm) c2 /\ In (S_ "nsec", Line nm [ofZ (Z.of_nat (List.length val))] cm) c2') /\
      (forall k n, ~ In k (starting "sec" (map fst c2)) -> k <> S_ "nsec" -> (In (k, n) c2' <-> In (k, n) c2)) /\
      (forall i k x xs, nth_error (starting "sec" (map fst c2)) i = Some k -> nth_error val i = Some (x :: xs) ->
         exists nm vs cm, In (k, Line nm vs cm) c2 /\ In (k, Line nm (ofZ (trunc x) :: map ofQ xs) cm) c2') /\
      plain_dict c2'.
  Proof using.
    intros c2 v q rows val Hc Hk (nmn & vsn & cmn & Hnsec) Hs Hq Hqe Hlen Hne.
    unfold sections in Hs. rewrite !starting_eq in *. fold (sec_keys c2) in *. set (ks := sec_keys c2) in *.
    pose proof (F2_len _ _ _ Hs) as Lks. set (n := List.length val) in *.
    destruct (set_key_line c2 nmn v vsn cmn [ofZ (Z.of_nat n)] (proj1 Hc) Hnsec) as [K1 D1]. set (c2a := set_key c2 (S_ "nsec") [ofZ (Z.of_nat n)]) in *.
    assert (Hca : plain_dict c2a) by (eapply plain_keys; eassumption).
    assert (Hks : NoDup ks) by (apply NoDup_filter; apply Hc).
    assert (Hkin : forall k, In k ks -> k <> S_ "nsec") by (intros k H ->; exact (nsec_not_sec c2 H)).
    assert (Hline : forall k, In k ks -> exists nm w ws cm, In (k, Line nm (w :: ws) cm) c2).
    { intros k H. apply In_nth_error in H as (i & H). assert (Hi : i < List.length ks) by (apply nth_error_Some; congruence).
      assert (exists r, nth_error rows i = Some r) as (r & Hr) by (destruct (nth_error rows i) eqn:E; [eauto|apply nth_error_None in E; lia]).
      assert (X : forall (l1 : list str) (l2 : list (list Q)) j, Forall2 (fun k r => exists nm vs cm, In (k, Line nm vs cm) c2 /\ Forall2 (fun v q => toQ v = Some q) vs r /\ List.length r = 5) l1 l2 ->
                forall k r, nth_error l1 j = Some k -> nth_error l2 j = Some r -> exists nm vs cm, In (k, Line nm vs cm) c2 /\ Forall2 (fun v q => toQ v = Some q) vs r /\ List.length r = 5).
      { clear. intros l1 l2 j F. revert j. induction F as [|a b l1 l2 F1 F2 IH]; intros [|j] k r E1 E2; try discriminate; cbn in E1, E2; [injection E1 as <-; injection E2 as <-; exact F1|eauto]. }
      destruct (X _ _ _ Hs _ _ H Hr) as (nm & vs & cm & H1 & H2 & H3). apply F2_len in H2. destruct vs as [|w ws]; [cbn in H2; lia|]. exists nm, w, ws, cm. exact H1. }
    assert (Hline' : forall k, In k ks -> forall nm w ws cm, In (k, Line nm (w :: ws) cm) c2 -> In (k, Line nm (w :: ws) cm) c2a).
    { intros k H nm w ws cm Hi. apply dget_in. rewrite D1. destruct (str_eqb (S_ "nsec") k) eqn:E; [apply str_eqb_eq in E; exfalso; apply (Hkin k H); auto|].
      apply dget_nodup; [apply Hc|exact Hi]. }
    (* the contents before the loop and the keys it runs over *)
    assert (Step : exists c2b, plain_dict c2b /\ set_c2 toQ ofQ ofZ c2 val = set_rows ofQ ofZ c2b 0 (firstn n ks) val /\
      sec_keys c2b = firstn n ks /\ (forall p, In p c2b <-> In p c2a /\ ~ In (fst p) (skipn n ks))).
    { unfold set_c2. unfold attr. rewrite (dget_nodup _ _ _ (proj1 Hc) Hnsec). cbn [bind item nth_error]. rewrite Hq. fold n. fold c2a. fold ks.
      assert (Hka : sec_keys c2a = ks) by (unfold ks, sec_keys, keys_with, keys; rewrite K1; reflexivity).
      destruct (Qeq_bool q (inject_Z (Z.of_nat n))) eqn:E.
      - apply Qeq_bool_eq in E. rewrite E in Hqe. apply (proj1 (inject_Z_injective _ _)) in Hqe. assert (En : n = List.length ks) by lia.
        exists c2a. assert (Ef : firstn n ks = ks) by (rewrite En; apply firstn_all). assert (Es : skipn n ks = []) by (rewrite En; apply skipn_all).
        rewrite Ef, Es. repeat split; auto; try apply Hca. intros [H _]. exact H.
      - assert (Hlt : Qle_bool q (inject_Z (Z.of_nat n)) = false).
        { apply Bool.not_true_iff_false. intro H. apply Qle_bool_iff in H. rewrite Hqe in H. rewrite <- Zle_Qle in H.
          assert (n = List.length rows) by lia. apply Qeq_bool_neq in E. apply E. rewrite Hqe. rewrite H0. reflexivity. }
        rewrite Hlt. destruct (del_keys_ok (skipn n ks) c2a) as [DK DI]; [rewrite K1; exact Hk|].
        exists (del_keys c2a (skipn n ks)). split; [|split; [reflexivity|split; [|exact DI]]].
        + split; [rewrite DK; apply NoDup_filter; apply Hca|]. apply Forall_forall. intros p Hp. apply DI in Hp as [Hp _]. exact (proj1 (Forall_forall _ _) (proj2 Hca) _ Hp).
        + unfold sec_keys, keys_with, keys. rewrite DK. apply filter_split; [apply Hca|exact Hka]. }
    destruct Step as (c2b & Hcb & Eset & Kb & Ib).
    assert (Hlf : List.length (firstn n ks) = n) by (rewrite firstn_length; lia).
    destruct (set_rows_ok (firstn n ks) c2b 0 val) as (c2' & E & K & O & V).
    - rewrite <- Kb. apply NoDup_filter. apply Hcb.
    - exact Hcb.
    - intros k Hin. assert (Hin' : In k ks) by (rewrite <- (firstn_skipn n ks); apply in_or_app; left; exact Hin).
      destruct (Hline k Hin') as (nm & w & ws & cm & Hi). exists nm, w, ws, cm. apply Ib. split; [apply Hline'; assumption|]. cbn [fst]. apply mem_firstn; assumption.
    - intros j Hj. rewrite Hlf in Hj. cbn [Nat.add]. destruct (nth_error val j) as [r|] eqn:Er; [|apply nth_error_None in Er; unfold n in Hj; lia].
      pose proof (proj1 (Forall_forall _ _) Hne r (nth_error_In _ _ Er)) as Hr. destruct r as [|x xs]; [contradiction|]. exists x, xs. reflexivity.
    - rewrite Eset. exists c2'. assert (Hc' : plain_dict c2') by (eapply plain_keys; eassumption).
      assert (Kf : keys_with (S_ "sec") c2' = firstn n ks) by (rewrite <- Kb; unfold sec_keys, keys_with, keys; rewrite K; reflexivity).
      split; [exact E|]. split; [rewrite starting_eq; exact Kf|].
      assert (Nf : ~ In (S_ "nsec") (firstn n ks)) by (intro H; apply (Hkin (S_ "nsec")); [rewrite <- (firstn_skipn n ks); apply in_or_app; left; exact H|reflexivity]).
      assert (Ns : ~ In (S_ "nsec") (skipn n ks)) by (intro H; apply (Hkin (S_ "nsec")); [rewrite <- (firstn_skipn n ks); apply in_or_app; right; exact H|reflexivity]).
      split; [|split; [|split; [|exact Hc']]].
      + exists nmn, (v :: vsn), cmn. split; [exact Hnsec|]. apply dget_in. rewrite O by exact Nf. apply dget_nodup; [apply Hcb|]. apply Ib. split; [|exact Ns].
        apply dget_in. rewrite D1, str_eqb_refl. reflexivity.
      + intros k m Hnk Hkn. assert (Nk : ~ In k (firstn n ks)) by (intro H; apply Hnk; rewrite <- (firstn_skipn n ks); apply in_or_app; left; exact H).
        assert (Nk' : ~ In k (skipn n ks)) by (intro H; apply Hnk; rewrite <- (firstn_skipn n ks); apply in_or_app; right; exact H).
        assert (Dk : dget c2' k = dget c2 k).
        { rewrite O by exact Nk. destruct (dget c2 k) as [m'|] eqn:Em.
          - apply dget_nodup; [apply Hcb|]. apply Ib. split; [|exact Nk']. apply dget_in. rewrite D1. destruct (str_eqb (S_ "nsec") k) eqn:Ek; [apply str_eqb_eq in Ek; congruence|exact Em].
          - apply dget_none. apply dget_none in Em. intro H. apply Em. apply in_map_iff in H as (p & Ep & Hp). apply Ib in Hp as [Hp _]. rewrite <- K1, <- Ep. apply in_map. exact Hp. }
        split; intro H; apply dget_in; [rewrite <- Dk|rewrite Dk]; apply dget_nodup; auto; [apply Hc'|apply Hc].
      + intros i k x xs Hi Hx. assert (Hin : i < n) by (unfold n; apply nth_error_Some; congruence).
        assert (Hf : nth_error (firstn n ks) i = Some k).
        { rewrite <- Hi. rewrite <- (firstn_skipn n ks) at 2. symmetry. apply nth_error_app1. rewrite Hlf. exact Hin. }
        destruct (V i k Hf) as (nm & vs & cm & x' & xs' & I1 & X1 & D2). cbn [Nat.add] in X1. assert (X : x' :: xs' = x :: xs) by congruence. injection X as -> ->.
        exists nm, vs, cm. split; [|apply dget_in; exact D2]. apply Ib in I1 as [I1 _]. apply (dget_nodup _ _ _ (proj1 Hca)) in I1. rewrite D1 in I1.
        assert (Hkk : In k ks) by (eapply nth_error_In; exact Hi).
        destruct (str_eqb (S_ "nsec") k) eqn:Ek; [apply str_eqb_eq in Ek; exfalso; apply (Hkin k Hkk); auto|apply dget_in; exact I1].
  Qed.
  (** What was set is what is read: rows of five numbers with increasing integer section numbers. *)
  Theorem C144_set_get : forall b c2 v q rows val, has_c2 b c2 -> plain_dict c2 -> ~ In (S_ "k") (map fst c2) -> nsec_text c2 v -> sections toQ c2 rows ->
    toQ v = Some q -> (q == inject_Z (Z.of_nat (List.length rows)))%Q -> List.length val <= List.length rows ->
    faithful toQ ofQ ofZ -> Forall (fun r => List.length r = 5 /\ exists z, first r = inject_Z z) val -> increasing val ->
    exists b', set_body_c2 toQ ofQ ofZ b val = (b', Ok tt) /\ body_c2 toQ argsort b' = Ok val.
  Proof using Hsort.
    intros b c2 v q rows val Hb Hc Hk Hv Hs Hq Hqe Hlen [F1 F2] Hval Hinc.
    destruct (C144_set c2 v q rows val Hc Hk Hv Hs Hq Hqe Hlen) as (c2' & E & K & (nmn & vsn & cmn & _ & N) & _ & V & Hc').
    { eapply Forall_impl; [|exact Hval]. intros r [H _] ->. discriminate. }
    destruct Hb as (k & nm & bc & ec & cont & ss & k2 & nm2 & bc2 & ec2 & ss2 & -> & Hn & Hin). cbn [set_body_c2]. rewrite (dget_nodup _ _ _ Hn Hin), E.
    eexists. split; [reflexivity|].
    destruct (C144_read (Sec k nm bc ec (dset cont (S_ "c2_def") (Sec k2 nm2 bc2 ec2 c2' ss2)) ss) c2' (ofZ (Z.of_nat (List.length val))) val) as (val' & R & _ & _ & I).
    - exists k, nm, bc, ec, (dset cont (S_ "c2_def") (Sec k2 nm2 bc2 ec2 c2' ss2)), ss, k2, nm2, bc2, ec2, ss2. split; [reflexivity|]. split.
      + rewrite HTCSim_Props.keys_dset; [exact Hn|]. rewrite (dget_nodup _ _ _ Hn Hin). discriminate.
      + apply dget_in. rewrite HTCSim_Props.dget_dset, str_eqb_refl. reflexivity.
    - exact Hc'.
    - exists nmn, [], cmn. exact N.
    - unfold sections. rewrite K. pose proof (F2_len _ _ _ Hs) as Lks. set (ks := starting "sec" (map fst c2)) in *.
      assert (X : forall i k r, nth_error ks i = Some k -> nth_error val i = Some r ->
        exists nm vs cm, In (k, Line nm vs cm) c2' /\ Forall2 (fun v q => toQ v = Some q) vs r /\ List.length r = 5).
      { intros i k0 r Hi Hr. pose proof (proj1 (Forall_forall _ _) Hval r (nth_error_In _ _ Hr)) as [L5 (z & Hz)]. destruct r as [|x xs]; [discriminate|].
        destruct (V i k0 x xs Hi Hr) as (nm0 & vs0 & cm0 & _ & I0). exists nm0, (ofZ (trunc x) :: map ofQ xs), cm0. split; [exact I0|]. split; [|exact L5].
        constructor; [|clear - F1; induction xs; constructor; auto]. cbn [first] in Hz. subst x. rewrite F2. f_equal. unfold trunc, inject_Z. cbn [Qnum Qden]. rewrite Z.quot_1_r. reflexivity. }
      clearbody ks. clear - X Hlen Lks. revert X. assert (Hl : List.length val <= List.length ks) by lia. clear Lks Hlen. revert ks Hl.
      induction val as [|r val IH]; intros ks Hl X; [constructor|]. destruct ks as [|k ks]; [cbn in Hl; lia|]. cbn [List.length firstn]. constructor; [apply (X 0); reflexivity|].
      apply IH; [cbn in Hl; lia|]. intros i k0 r0 H1 H2. apply (X (S i)); assumption.
    - rewrite R. f_equal. apply I. exact Hinc.
  Qed.
  (** Setting the table of a body to itself does not change it. *)
  Theorem C144_get_set : forall b c2 v q rows val, has_c2 b c2 -> plain_dict c2 -> ~ In (S_ "k") (map fst c2) -> nsec_text c2 v -> sections toQ c2 rows ->
    toQ v = Some q -> (q == inject_Z (Z.of_nat (List.length rows)))%Q -> faithful toQ ofQ ofZ ->
    Forall (fun r => exists z, first r = inject_Z z) rows -> NoDup (map first rows) ->
    body_c2 toQ argsort b = Ok val -> exists b', set_body_c2 toQ ofQ ofZ b val = (b', Ok tt) /\ body_c2 toQ argsort b' = Ok val.
  Proof using Hsort.
    intros b c2 v q rows val Hb Hc Hk Hv Hs Hq Hqe Hf Hz Hnd Hval.
    destruct (C144_read b c2 v rows Hb Hc Hv Hs) as (val' & R & P & O & _). assert (val' = val) by congruence. subst val'.
    assert (L5 : Forall (fun r => List.length r = 5) rows) by (destruct (sections_read c2 rows Hc Hs) as (_ & _ & _ & G); exact G).
    assert (Hz' : Forall (fun r => exists z, first r = inject_Z z) val) by (eapply Permutation_Forall; [apply Permutation_sym; exact P|exact Hz]).
    assert (Hnd' : NoDup (map first val)) by (eapply Permutation_NoDup; [apply Permutation_map, Permutation_sym; exact P|exact Hnd]).
    apply (C144_set_get b c2 v q rows val); auto.
    - rewrite (Permutation_length P). apply le_n.
    - apply Forall_forall. intros r Hr. split; [apply (proj1 (Forall_forall _ _) L5); apply (Permutation_in _ P); exact Hr|exact (proj1 (Forall_forall _ _) Hz' _ Hr)].
    - clear - O Hz' Hnd'. unfold increasing, in_order in *. induction O as [|r val O IH F]; [constructor|]. cbn [map] in Hnd'. inversion Hnd' as [|? ? Hx Hn']; subst.
      inversion Hz' as [|? ? (z & Ez) Hz'']; subst. constructor; [apply IH; assumption|]. apply Forall_forall. intros s Hs.
      pose proof (proj1 (Forall_forall _ _) F s Hs) as Hle. destruct (proj1 (Forall_forall _ _) Hz'' s Hs) as (y & Ey). rewrite Ez, Ey in *.
      rewrite <- Zle_Qle in Hle. rewrite <- Zlt_Qlt. assert (z <> y); [|lia]. intros ->. apply Hx. rewrite <- Ey. apply in_map. exact Hs.
  Qed.

  (** More rows than nsec says are refused, but nsec is changed all the same: the file then declares sections it does not have. *)
  Theorem C144_more_refuted : forall c2 v q rows val, plain_dict c2 -> nsec_text c2 v -> sections toQ c2 rows -> toQ v = Some q ->
    (q < inject_Z (Z.of_nat (List.length val)))%Q ->
    exists c2', set_c2 toQ ofQ ofZ c2 val = (c2', Err NotImplementedError) /\ nsec_text c2' (ofZ (Z.of_nat (List.length val))) /\ sections toQ c2' rows.
  Proof using.
    intros c2 v q rows val Hc (nmn & vsn & cmn & Hnsec) Hs Hq Hlt. unfold set_c2, attr. rewrite (dget_nodup _ _ _ (proj1 Hc) Hnsec). cbn [bind item nth_error]. rewrite Hq.
    destruct (Qeq_bool q _) eqn:E; [apply Qeq_bool_eq in E; rewrite E in Hlt; destruct (Qlt_irrefl _ Hlt)|].
    rewrite (proj2 (Qle_bool_iff _ _) (Qlt_le_weak _ _ Hlt)). eexists. split; [reflexivity|].
    destruct (set_key_line c2 nmn v vsn cmn [ofZ (Z.of_nat (List.length val))] (proj1 Hc) Hnsec) as [K1 D1]. split.
    - exists nmn, [], cmn. apply dget_in. rewrite D1, str_eqb_refl. reflexivity.
    - unfold sections in *. rewrite K1. assert (Hin : forall k, In k (starting "sec" (map fst c2)) -> k <> S_ "nsec").
      { intros k H ->. rewrite starting_eq in H. exact (nsec_not_sec c2 H). }
      induction Hs as [|k r ks rows H1 H2 IH]; constructor.
      + destruct H1 as (nm & vs & cm & I1 & I2). exists nm, vs, cm. split; [|exact I2]. apply dget_in. rewrite D1.
        destruct (str_eqb (S_ "nsec") k) eqn:Ek; [apply str_eqb_eq in Ek; exfalso; apply (Hin k); [left; reflexivity|auto]|]. apply dget_nodup; [apply Hc|exact I1].
      + apply IH. intros k0 H0. apply Hin. right. exact H0.
  Qed.
  Lemma rows5_total m : forall l : list Q, List.length l = 5 * m -> exists rows', rows5 l = Ok rows' /\ concat rows' = l /\ Forall (fun r => List.length r = 5) rows' /\ List.length rows' = m.
  Proof using.
    clear. induction m as [|m IH]; intros l Hl.
    - destruct l; [|discriminate]. exists []. repeat split. constructor.
    - do 5 (destruct l as [|? l]; [cbn in Hl; lia|]). destruct (IH l) as (rows' & E & C & F & L); [cbn in Hl; lia|]. cbn [rows5]. rewrite E. eexists. split; [reflexivity|].
      cbn [concat app]. rewrite C. repeat split; [constructor; [reflexivity|exact F]|cbn; rewrite L; reflexivity].
  Qed.
  (** Section lines that all have the same wrong number of values are not refused when the total can be cut in fives: the rows then mix the sections. *)
  Theorem C144_mixed_refuted : forall b c2 v w m rows, has_c2 b c2 -> plain_dict c2 -> nsec_text c2 v ->
    Forall2 (fun k r => exists nm vs cm, In (k, Line nm vs cm) c2 /\ Forall2 (fun v q => toQ v = Some q) vs r /\ List.length r = w) (starting "sec" (map fst c2)) rows ->
    List.length rows * w = 5 * m ->
    exists val rows', body_c2 toQ argsort b = Ok val /\ List.length val = m /\ Permutation val rows' /\ concat rows' = concat rows.
  Proof using Hsort.
    intros b c2 v w m rows (k & nm & bc & ec & cont & ss & k2 & nm2 & bc2 & ec2 & ss2 & -> & Hn & Hin) Hc (nmn & vs & cm & Hv) Hs Hm.
    assert (R : exists ls, map_res (fun k => n <- getitem c2 k ;; values_of n) (sec_keys c2) = Ok ls /\
      Forall2 (fun l r => Forall2 (fun v q => toQ v = Some q) l r) ls rows /\ Forall (fun l => List.length l = w) ls /\ List.length (concat rows) = List.length rows * w).
    { rewrite starting_eq in Hs. fold (sec_keys c2) in Hs. clear Hm. induction Hs as [|k0 r ks rows H1 H2 IH].
      - exists []. repeat split; constructor.
      - destruct IH as (ls & E & F & G & L). destruct H1 as (nm0 & vs0 & cm0 & Hin0 & Hv0 & Hl0). exists (vs0 :: ls). cbn [map_res].
        rewrite (getitem_in _ _ _ Hc Hin0). cbn [bind values_of]. rewrite E. repeat split; try constructor; auto; [rewrite (F2_len _ _ _ Hv0); exact Hl0|].
        cbn [concat List.length]. rewrite app_length, L, Hl0. cbn. lia. }
    destruct R as (ls & E & F & G & L). rewrite Hm in L. destruct (rows5_total m (concat rows) L) as (rows' & E5 & C5 & F5 & L5).
    exists (sort_rows argsort rows'), rows'. destruct (sort_rows_ok rows') as [P1 _]. repeat split; [|rewrite (Permutation_length P1); exact L5|exact P1|exact C5].
    unfold body_c2, c2_contents. cbn [sub]. unfold attr. rewrite (dget_nodup _ _ _ Hn Hin). cbn [bind sub contents_of]. unfold attr.
    rewrite (dget_nodup _ _ _ (proj1 Hc) Hv). cbn [bind item nth_error]. rewrite E. cbn [bind]. unfold table.
    assert (Hsl : same_length ls = true).
    { destruct G as [|l ls Hl1 Hl2]; [reflexivity|]. cbn [same_length]. apply forallb_forall. intros x Hx. apply Nat.eqb_eq. rewrite (proj1 (Forall_forall _ _) Hl2 _ Hx). auto. }
    rewrite Hsl. rewrite (map_res_ok _ _ (concat rows)).
    - cbn [bind]. rewrite E5. reflexivity.
    - clear - F. induction F as [|l r ls rows H1 H2 IH]; [constructor|]. cbn [concat]. apply Forall2_app; [|exact IH].
      clear - H1. induction H1 as [|v q l r H H1 IH]; constructor; [unfold number; rewrite H; reflexivity|exact IH].
  Qed.
  (** Section lines of one length whose numbers cannot be cut into rows of five are refused. *)
  Theorem C144_rest : forall b c2 v w rows, has_c2 b c2 -> plain_dict c2 -> nsec_text c2 v ->
    Forall2 (fun k r => exists nm vs cm, In (k, Line nm vs cm) c2 /\ Forall2 (fun v q => toQ v = Some q) vs r /\ List.length r = w) (starting "sec" (map fst c2)) rows ->
    (forall m, List.length rows * w <> 5 * m) -> body_c2 toQ argsort b = Err ValueError.
  Proof using.
    intros b c2 v w rows (k & nm & bc & ec & cont & ss & k2 & nm2 & bc2 & ec2 & ss2 & -> & Hn & Hin) Hc (nmn & vs & cm & Hv) Hs Hm.
    assert (R : exists ls, map_res (fun k => n <- getitem c2 k ;; values_of n) (sec_keys c2) = Ok ls /\
      Forall2 (fun l r => Forall2 (fun v q => toQ v = Some q) l r) ls rows /\ Forall (fun l => List.length l = w) ls /\ List.length (concat rows) = List.length rows * w).
    { rewrite starting_eq in Hs. fold (sec_keys c2) in Hs. clear Hm. induction Hs as [|k0 r ks rows H1 H2 IH].
      - exists []. repeat split; constructor.
      - destruct IH as (ls & E & F & G & L). destruct H1 as (nm0 & vs0 & cm0 & Hin0 & Hv0 & Hl0). exists (vs0 :: ls). cbn [map_res].
        rewrite (getitem_in _ _ _ Hc Hin0). cbn [bind values_of]. rewrite E. repeat split; try constructor; auto; [rewrite (F2_len _ _ _ Hv0); exact Hl0|].
        cbn [concat List.length]. rewrite app_length, L, Hl0. cbn. lia. }
    destruct R as (ls & E & F & G & L). rewrite <- L in Hm.
    unfold body_c2, c2_contents. cbn [sub]. unfold attr. rewrite (dget_nodup _ _ _ Hn Hin). cbn [bind sub contents_of]. unfold attr.
    rewrite (dget_nodup _ _ _ (proj1 Hc) Hv). cbn [bind item nth_error]. rewrite E. cbn [bind]. unfold table.
    destruct (same_length ls); [|reflexivity]. rewrite (map_res_ok _ _ (concat rows)).
    - cbn [bind]. rewrite (rows5_rest _ Hm). reflexivity.
    - clear - F. induction F as [|l r ls rows H1 H2 IH]; [constructor|]. cbn [concat]. apply Forall2_app; [|exact IH].
      clear - H1. induction H1 as [|v q l r H H1 IH]; constructor; [unfold number; rewrite H; reflexivity|exact IH].
  Qed.
  (** A value of a section line that is not a number, such as a formula, makes the whole table unreadable. *)
  Theorem C144_text_refuted : forall b c2 k nm vs cm v, has_c2 b c2 -> plain_dict c2 -> In k (starting "sec" (map fst c2)) -> In (k, Line nm vs cm) c2 ->
    In v vs -> toQ v = None -> forall val, body_c2 toQ argsort b <> Ok val.
  Proof using.
    intros b c2 k nm vs cm v (kb & nmb & bc & ec & cont & ss & k2 & nm2 & bc2 & ec2 & ss2 & -> & Hn & Hin) Hc Hk Hl Hv Ht val H.
    unfold body_c2, c2_contents in H. cbn [sub] in H. unfold attr in H. rewrite (dget_nodup _ _ _ Hn Hin) in H. cbn [bind sub contents_of] in H. unfold attr in H.
    destruct (match dget c2 (S_ "nsec") with Some n => Ok n | None => Err KeyError end) as [n|e]; cbn [bind] in H; [|discriminate].
    destruct (item n 0); [|discriminate]. apply bind_ok in H as (ls & Hls & H). apply bind_ok in H as (rows & Hr & _).
    rewrite starting_eq in Hk. fold (sec_keys c2) in Hk. assert (I : In vs ls).
    { clear - Hls Hk Hl Hc. revert ls Hls Hk. induction (sec_keys c2) as [|x xs IH]; intros ls Hls Hk; [destruct Hk|]. cbn [map_res] in Hls.
      apply bind_ok in Hls as (y & Hy & Hls). apply bind_ok in Hls as (ys & Hys & Hls). apply ok_inj in Hls. subst ls. destruct Hk as [->|Hk]; [|right; apply IH; auto].
      left. rewrite (getitem_in _ _ _ Hc Hl) in Hy. cbn [bind values_of] in Hy. apply ok_inj in Hy. exact Hy. }
    unfold table in Hr. destruct (same_length ls); [|discriminate]. apply bind_ok in Hr as (qs & Hq & _).
    assert (J : In v (concat ls)) by (apply in_concat; exists vs; auto). clear - Hq J Ht. revert qs Hq. induction (concat ls) as [|x xs IH]; intros qs Hq; [destruct J|].
    cbn [map_res] in Hq. apply bind_ok in Hq as (y & Hy & Hq). apply bind_ok in Hq as (ys & Hys & Hq). destruct J as [->|J]; [|eapply IH; eauto].
    unfold number in Hy. rewrite Ht in Hy. discriminate.
  Qed.
End P.
Print Assumptions C144_mixed_refuted.
Print Assumptions C144_rest.
Print Assumptions C144_text_refuted.
(** When fewer rows than sections are set, an item of the section that happens to be named k is deleted too. *)
Theorem C144_k_refuted : forall c k ks, ~ In (S_ "k") (map fst (del_keys c (k :: ks))).
Proof.
  intros c k ks. cbn [del_keys]. assert (H : ~ In (S_ "k") (map fst (ddel (ddel c (S_ "k")) k))).
  { rewrite !ddel_keys. intro H. apply filter_In in H as [H _]. apply filter_In in H as [_ H]. rewrite str_eqb_refl in H. discriminate. }
  revert H. generalize (ddel (ddel c (S_ "k")) k). clear. induction ks as [|k ks IH]; intros c H; cbn [del_keys]; [exact H|]. apply IH.
  rewrite !ddel_keys. intro H'. apply filter_In in H' as [H' _]. apply filter_In in H' as [H' _]. contradiction.
Qed.
Print Assumptions C144_read.
Print Assumptions C144_declared_refuted.
Print Assumptions C144_absent.
Print Assumptions C144_set.
Print Assumptions C144_set_get.
Print Assumptions C144_get_set.
Print Assumptions C144_more_refuted.
Print Assumptions C144_k_refuted.

(** ** C145: bodies and their data frames *)

(** The body has this name. *)
Definition named (b : node) (v : str) : Prop :=
  exists k nm bc ec cont ss nm' vs cm, b = Sec k nm bc ec cont ss /\ NoDup (map fst cont) /\ In (S_ "name", Line nm' (v :: vs) cm) cont.
(** The main bodies of the structure of a file, with their names, in file order. *)
Definition bodies_of (d : list (str * node)) (bs : list (str * node)) : Prop :=
  exists k nm bc ec sc ss, NoDup (map fst d) /\ In (S_ "new_htc_structure", Sec k nm bc ec sc ss) d /\ plain_dict sc /\
    Forall2 (fun key p => In (key, snd p) sc /\ named (snd p) (fst p)) (starting "main_body" (map fst sc)) bs.

Lemma named_ok b v : named b v -> body_name b = Ok v.
Proof.
  intros (k & nm & bc & ec & cont & ss & nm' & vs & cm & -> & Hn & Hin). unfold body_name. cbn [sub]. unfold attr. rewrite (dget_nodup _ _ _ Hn Hin). reflexivity.
Qed.
Definition collect (acc bs : list (str * node)) : list (str * node) := fold_left (fun a p => dset a (fst p) (snd p)) bs acc.
Lemma body_dict_ok d bs : bodies_of d bs -> body_dict d = Ok (collect [] bs).
Proof.
  intros (k & nm & bc & ec & sc & ss & Hn & Hin & Hc & H). unfold body_dict, structure, attr. rewrite (dget_nodup _ _ _ Hn Hin). cbn [bind contents_of].
  rewrite starting_eq in H. fold (body_keys sc) in H. generalize (@nil (str * node)) at 1 2. induction H as [|key [v b] ks bs [H1 H2] H IH]; intro acc; [reflexivity|].
  cbn [fst snd] in *. rewrite (getitem_in _ _ _ Hc H1). cbn [bind]. rewrite (named_ok _ _ H2). cbn [bind]. apply IH.
Qed.
Lemma collect_get bs : forall acc k, dget (collect acc bs) k = match dget (rev bs) k with Some b => Some b | None => dget acc k end.
Proof.
  induction bs as [|[v b] bs IH]; intros acc k; [reflexivity|]. unfold collect. cbn [fold_left fst snd]. fold (collect (dset acc v b) bs). rewrite IH. cbn [rev].
  rewrite HTCSim_Props.dget_dset. assert (A : forall (l : list (str * node)) x, dget (l ++ [x]) k = match dget l k with Some n => Some n | None => dget [x] k end).
  { clear. intros l x. unfold dget. induction l as [|p l IH]; [reflexivity|]. cbn [app find]. destruct (str_eqb (fst p) k); [reflexivity|exact IH]. }
  rewrite A. destruct (dget (rev bs) k); [reflexivity|]. replace (dget [(v, b)] k) with (if str_eqb v k then Some b else None) by (unfold dget; cbn [find fst snd]; destruct (str_eqb v k); reflexivity).
  destruct (str_eqb v k); reflexivity.
Qed.
Lemma last_one (bs : list (str * node)) name b : dget (rev bs) name = Some b <-> exists pre post, bs = pre ++ (name, b) :: post /\ ~ In name (map fst post).
Proof.
  induction bs as [|[v c] bs IH] using rev_ind.
  - cbn. split; [discriminate|]. intros (pre & post & E & _). destruct pre; discriminate.
  - rewrite rev_unit. unfold dget. cbn [find fst]. fold (dget (rev bs) name). destruct (str_eqb v name) eqn:E.
    + apply str_eqb_eq in E. subst v. cbn [snd]. split.
      * intro H. injection H as ->. exists bs, []. split; [reflexivity|intros []].
      * intros (pre & post & Eq & Hn). destruct post as [|p post] using rev_ind.
        -- apply app_inj_tail in Eq as [_ Eq]. congruence.
        -- clear IHpost. rewrite app_comm_cons, app_assoc in Eq. apply app_inj_tail in Eq as [_ <-]. exfalso. apply Hn. rewrite map_app. apply in_or_app. right. left. reflexivity.
    + apply str_eqb_neq in E. unfold dget in IH. rewrite IH. split.
      * intros (pre & post & -> & Hn). exists pre, (post ++ [(v, c)]). split; [rewrite <- app_assoc; reflexivity|]. rewrite map_app. intro H. apply in_app_or in H as [H|[H|[]]]; auto.
      * intros (pre & post & Eq & Hn). destruct post as [|p post] using rev_ind.
        -- apply app_inj_tail in Eq as [_ Eq]. congruence.
        -- clear IHpost. rewrite app_comm_cons, app_assoc in Eq. apply app_inj_tail in Eq as [-> <-]. exists pre, post. split; [reflexivity|].
           intro H. apply Hn. rewrite map_app. apply in_or_app. left. exact H.
Qed.
Lemma dget_rev_none (bs : list (str * node)) name : ~ In name (map fst bs) -> dget (rev bs) name = None.
Proof. intro H. apply dget_none. rewrite map_rev. intro H'. apply in_rev in H'. contradiction. Qed.
Lemma collect_nodup bs : forall acc : dict_, NoDup (map fst acc) -> NoDup (map fst (collect acc bs)).
Proof.
  induction bs as [|p bs IH]; intros acc H; [exact H|]. unfold collect. cbn [fold_left]. apply IH. destruct (dget acc (fst p)) as [x|] eqn:E.
  - rewrite HTCSim_Props.keys_dset by congruence. exact H.
  - apply dget_none in E. rewrite HTC_Names.dset_new by exact E. rewrite map_app. apply (Permutation_NoDup (Permutation_cons_append _ _)). constructor; assumption.
Qed.
(** A body is found by its name (of bodies with the same name, the last); an unknown name is refused; bodyNames lists every name once. *)
Theorem C145_by_name : forall d bs, bodies_of d bs ->
  (forall name b, body_by_name d name = Ok b <-> exists pre post, bs = pre ++ (name, b) :: post /\ ~ In name (map fst post)) /\
  (forall name, ~ In name (map fst bs) -> body_by_name d name = Err PlainException) /\
  (exists ns, body_names d = Ok ns /\ NoDup ns /\ forall n, In n ns <-> In n (map fst bs)).
Proof.
  intros d bs H. unfold body_by_name, body_names. rewrite (body_dict_ok _ _ H). cbn [bind]. split; [|split].
  - intros name b. rewrite collect_get, <- last_one. destruct (dget (rev bs) name) as [x|]; cbn [dget find]; (split; intro E; [try (apply ok_inj in E; subst; reflexivity); discriminate|]).
    + injection E as ->. reflexivity.
    + discriminate.
  - intros name Hn. rewrite collect_get, dget_rev_none by exact Hn. reflexivity.
  - exists (keys (collect [] bs)). split; [reflexivity|]. split; [apply collect_nodup; constructor|]. intro n. unfold keys.
    assert (X : forall c : dict_, In n (map fst c) <-> dget c n <> None).
    { intro c. split; [intros Hi E; apply dget_none in E; contradiction|]. intro Hd. destruct (in_dec (list_eq_dec ascii_dec) n (map fst c)) as [Hi|Hi]; [exact Hi|]. apply dget_none in Hi. contradiction. }
    rewrite X, collect_get. destruct (dget (rev bs) n) as [x|] eqn:E.
    + split; [|discriminate]. intros _. apply last_one in E as (pre & post & -> & _). rewrite map_app. apply in_or_app. right. left. reflexivity.
    + split; [intro F; destruct (F eq_refl)|]. intro Hi. exfalso. apply dget_none in E. apply E. rewrite map_rev. apply -> in_rev. exact Hi.
Qed.
Print Assumptions C145_by_name.
(** With different names, every body is found by its name and the names are listed in file order. *)
Theorem C145_different : forall d bs, bodies_of d bs -> NoDup (map fst bs) ->
  (forall name b, In (name, b) bs -> body_by_name d name = Ok b) /\ body_names d = Ok (map fst bs).
Proof.
  intros d bs H Hn. destruct (C145_by_name d bs H) as (B & _ & _). split.
  - intros name b Hin. apply B. apply in_split in Hin as (pre & post & ->). exists pre, post. split; [reflexivity|]. intro Hi. rewrite map_app in Hn. cbn [map fst] in Hn.
    apply NoDup_remove_2 in Hn. apply Hn. apply in_or_app. right. exact Hi.
  - unfold body_names. rewrite (body_dict_ok _ _ H). cbn [bind]. f_equal. unfold keys.
    assert (X : forall acc : dict_, NoDup (map fst acc ++ map fst bs) -> map fst (collect acc bs) = map fst acc ++ map fst bs); [|apply (X []); exact Hn].
    clear. induction bs as [|p bs IH]; intros acc Hn; [cbn; rewrite app_nil_r; reflexivity|]. unfold collect. cbn [fold_left]. fold (collect (dset acc (fst p) (snd p)) bs).
    assert (Hk : ~ In (fst p) (map fst acc)) by (cbn [map] in Hn; apply NoDup_remove_2 in Hn; intro; apply Hn; apply in_or_app; left; assumption).
    rewrite IH; rewrite HTC_Names.dset_new by exact Hk; rewrite map_app; cbn [map fst]; rewrite <- app_assoc; [reflexivity|exact Hn].
Qed.
Print Assumptions C145_different.
(** Of two bodies with the same name the first cannot be reached. *)
Theorem C145_hidden_refuted : forall d pre mid post name b b', bodies_of d (pre ++ (name, b) :: mid ++ (name, b') :: post) -> ~ In name (map fst post) -> b <> b' ->
  body_by_name d name = Ok b' /\ exists ns, body_names d = Ok ns /\ List.length ns < List.length (pre ++ (name, b) :: mid ++ (name, b') :: post).
Proof.
  intros d pre mid post name b b' H Hn Hb. destruct (C145_by_name _ _ H) as (B & _ & (ns & E & Nd & I)). split.
  - apply B. exists (pre ++ (name, b) :: mid), post. split; [rewrite <- app_assoc; reflexivity|exact Hn].
  - exists ns. split; [exact E|]. set (l := pre ++ mid ++ (name, b') :: post).
    assert (L : List.length ns <= List.length (map fst l)).
    { apply NoDup_incl_length; [exact Nd|]. intros n Hi. apply I in Hi. unfold l. rewrite !map_app in *. cbn [map fst] in *. rewrite map_app in Hi. cbn [map fst] in Hi.
      apply in_app_or in Hi as [Hi|[<-|Hi]]; apply in_or_app; [left; exact Hi| |right; exact Hi]. right. apply in_or_app. right. left. reflexivity. }
    unfold l in L. rewrite map_length in L. rewrite !app_length in *. cbn [List.length]. rewrite app_length. cbn [List.length] in *. lia.
Qed.
Print Assumptions C145_hidden_refuted.

Section Frames.
  Variable toQ : str -> option Q.
  Variable argsort : list Q -> list nat.
  Hypothesis Hsort : sorts argsort.
  Variable T : Type.
  Variable st_file : str -> option (res (list (str * T))).
  Variable simdir : str.

  (** Columns z, x, y and twist of a section. *)
  Definition zxyt (r : list Q) : list Q := match r with [_; x; y; z; t] => [z; x; y; t] | _ => [] end.
  (** The set of the structural file that a body uses. *)
  Definition set_used (tc : list (str * node)) (s : str) : Prop :=
    (~ In (S_ "set") (map fst tc) /\ s = S_ "1_1") \/ exists nm m i vs cm, In (S_ "set", Line nm (m :: i :: vs) cm) tc /\ s = m ++ S_ "_" ++ i.
  Inductive st_part (name : str) : list (str * node) -> list (str * frame T) -> Prop :=
  | no_st cont : ~ In (S_ "timoschenko_input") (map fst cont) -> st_part name cont []
  | missing_st cont k nm bc ec tc ss nm' fn vs cm : In (S_ "timoschenko_input", Sec k nm bc ec tc ss) cont -> In (S_ "filename", Line nm' (fn :: vs) cm) tc ->
      st_file (Deck_Model.path_join simdir fn) = None -> st_part name cont []
  | with_st cont k nm bc ec tc ss nm' fn vs cm sets s t : In (S_ "timoschenko_input", Sec k nm bc ec tc ss) cont -> In (S_ "filename", Line nm' (fn :: vs) cm) tc ->
      st_file (Deck_Model.path_join simdir fn) = Some (Ok sets) -> set_used tc s -> In (s, t) sets -> st_part name cont [(name ++ S_ "_st", StFrame T t)].
  (** The frames of a body: none when its sections cannot be read. *)
  Definition body_frames (p : str * node) (l : list (str * frame T)) : Prop :=
    (exists e, body_c2 toQ argsort (snd p) = Err e /\ l = []) \/
    (exists val tail k nm bc ec cont ss, body_c2 toQ argsort (snd p) = Ok val /\ snd p = Sec k nm bc ec cont ss /\ st_part (fst p) cont tail /\
       l = (fst p ++ S_ "_c2", C2Frame T (map S_ ["z_[m]"; "x_[m]"; "y_[m]"; "twist_[deg]"]%string) (map zxyt val)) :: tail).

  Lemma body_c2_rows b val : body_c2 toQ argsort b = Ok val -> Forall (fun r => List.length r = 5) val.
  Proof using Hsort.
    unfold body_c2. destruct (bind _ _); [|discriminate]. intro H. apply bind_ok in H as (c2 & _ & H). apply bind_ok in H as (ls & _ & H). apply bind_ok in H as (rows & Hr & H).
    apply ok_inj in H. subst val. eapply Permutation_Forall; [apply Permutation_sym; apply sort_rows_ok; exact Hsort|].
    unfold table in Hr. destruct (same_length ls); [|discriminate]. apply bind_ok in Hr as (qs & _ & Hr). clear - Hr. revert qs Hr.
    induction rows as [|r rows IH]; intros qs Hr; [constructor|]. do 5 (destruct qs as [|? qs]; [discriminate|]). cbn [rows5] in Hr.
    apply bind_ok in Hr as (rs & Hrs & Hr). apply ok_inj in Hr. injection Hr as -> ->. constructor; [reflexivity|eapply IH; exact Hrs].
  Qed.
  Lemma zxyt_pick val : Forall (fun r => List.length r = 5) val -> map pick val = map zxyt val.
  Proof using. intro H. apply map_ext_in. intros r Hr. pose proof (proj1 (Forall_forall _ _) H r Hr) as L. do 6 (destruct r as [|? r]; try discriminate). reflexivity. Qed.
  Lemma dget_in_any {V} (c : list (str * V)) k n : dget c k = Some n -> In (k, n) c.
  Proof using.
    unfold dget. destruct (find _ c) as [[x m]|] eqn:E; [|discriminate]. intro H. injection H as <-. apply find_some in E as [H E]. cbn [fst snd] in *.
    apply str_eqb_eq in E. subst x. exact H.
  Qed.
  Lemma dmem_false (c : dict_) k : dmem c k = false -> ~ In k (map fst c).
  Proof using. intros H Hi. apply in_map_iff in Hi as (p & E & Hp). assert (X : dmem c k = true) by (apply existsb_exists; exists p; split; [exact Hp|rewrite E; apply str_eqb_refl]). congruence. Qed.
  (** The data frames of a file are those of its bodies, in file order. *)
  Theorem C145_frames : forall d bs dfs, bodies_of d bs -> NoDup (map fst bs) -> to_data_frame toQ argsort T st_file simdir d = Ok dfs ->
    exists ls, Forall2 body_frames bs ls /\ dfs = concat ls.
  Proof using Hsort.
    intros d bs dfs (k & nm & bc & ec & sc & ss & Hn & Hin & Hc & H) Hd E. unfold to_data_frame, structure, attr in E. rewrite (dget_nodup _ _ _ Hn Hin) in E.
    cbn [bind contents_of] in E. rewrite starting_eq in H. fold (body_keys sc) in H.
    assert (G : forall (bs0 : list (str * node)) acc0, NoDup (map fst bs0 ++ map fst bs) -> (forall x, In x (map fst acc0) -> exists n, In n (map fst bs0) /\ (x = n ++ S_ "_c2" \/ x = n ++ S_ "_st")) ->
      add_bodies toQ argsort T st_file simdir acc0 sc (body_keys sc) = Ok dfs -> exists ls, Forall2 body_frames bs ls /\ dfs = acc0 ++ concat ls).
    2:{ apply (G [] []); [exact Hd|intros x []|exact E]. }
    clear E Hd. induction H as [|key [v b] ks bs [H1 H2] H IH]; intros bs0 acc0 Hd Hk E; cbn [add_bodies] in E.
    - apply ok_inj in E. subst dfs. exists []. split; [constructor|rewrite app_nil_r; reflexivity].
    - cbn [fst snd] in *. rewrite (getitem_in _ _ _ Hc H1) in E. cbn [bind] in E. apply bind_ok in E as (acc1 & Ea & E).
      assert (B : exists l, body_frames (v, b) l /\ acc1 = acc0 ++ l /\ forall x, In x (map fst l) -> x = v ++ S_ "_c2" \/ x = v ++ S_ "_st").
      { unfold add_body in Ea. destruct (body_c2 toQ argsort b) as [val|e] eqn:Eb.
        2:{ apply ok_inj in Ea. subst acc1. exists []. split; [left; exists e; auto|]. split; [rewrite app_nil_r; reflexivity|intros x []]. }
        rewrite (named_ok _ _ H2) in Ea. cbn [bind] in Ea. apply bind_ok in Ea as (nm0 & Et & Ea). unfold text in Et. destruct (toQ v); [discriminate|]. apply ok_inj in Et. subst nm0.
        assert (Fresh : forall sfx, (sfx = S_ "_c2" \/ sfx = S_ "_st") -> ~ In (v ++ sfx) (map fst acc0)).
        { intros sfx Hs Hi. destruct (Hk _ Hi) as (n & Hn0 & Hx). assert (n = v).
          { assert (L : List.length sfx = 3) by (destruct Hs; subst sfx; reflexivity).
            destruct Hx as [Hx|Hx]; apply (f_equal (@rev ascii)) in Hx; rewrite !rev_app_distr in Hx; destruct Hs; subst sfx; cbn in Hx; injection Hx; intros; apply (f_equal (@rev ascii)) in H0; rewrite !rev_involutive in H0; congruence. }
          subst n. cbn [map fst] in Hd. apply NoDup_remove_2 in Hd. apply Hd. apply in_or_app. left. exact Hn0. }
        assert (Val : map pick val = map zxyt val) by (apply zxyt_pick; eapply body_c2_rows; exact Eb).
        assert (D1 : forall f : frame T, dset acc0 (v ++ S_ "_c2") f = acc0 ++ [(v ++ S_ "_c2", f)]) by (intro f; apply HTC_Names.dset_new; apply Fresh; left; reflexivity).
        rewrite D1 in Ea. destruct H2 as (kb & nmb & bcb & ecb & cont & ssb & nmn & vsn & cmn & -> & Hnb & Hnm). cbn [has sub] in Ea.
        destruct (dmem cont (S_ "timoschenko_input")) eqn:Edm.
        - apply bind_ok in Ea as (tim & Etim & Ea). unfold attr in Etim. destruct (dget cont (S_ "timoschenko_input")) as [tim'|] eqn:Et; [|discriminate]. apply ok_inj in Etim. subst tim'.
          apply dget_in in Et. apply bind_ok in Ea as (o & Eo & Ea). apply ok_inj in Ea. unfold st_frame in Eo. apply bind_ok in Eo as (f & Ef & Eo). apply bind_ok in Eo as (fv & Efv & Eo).
          apply bind_ok in Eo as (fn & Efn & Eo). unfold text in Efn. destruct (toQ fv); [discriminate|]. apply ok_inj in Efn. subst fn.
          destruct tim as [tn tv tcm|kt nmt bct ect tc sst]; [discriminate|]. cbn [sub] in Ef. unfold attr in Ef. destruct (dget tc (S_ "filename")) as [f'|] eqn:Eff; [|discriminate].
          apply ok_inj in Ef. subst f'. apply dget_in in Eff. destruct f as [fnm [|fw fws] fcm|]; [discriminate| |discriminate]. cbn [item nth_error] in Efv. apply ok_inj in Efv. subst fv.
          destruct (st_file (Deck_Model.path_join simdir fw)) as [r|] eqn:Es.
          + apply bind_ok in Eo as (sets & -> & Eo). apply bind_ok in Eo as (s & Ess & Eo). destruct (dget sets s) as [t|] eqn:Eg; [|discriminate]. apply ok_inj in Eo. subst o.
            apply dget_in_any in Eg. subst acc1. exists [(v ++ S_ "_c2", C2Frame T c2_columns (map pick val)); (v ++ S_ "_st", StFrame T t)]. split; [|split].
            * right. exists val, [(v ++ S_ "_st", StFrame T t)], kb, nmb, bcb, ecb, cont, ssb. cbn [fst snd]. split; [exact Eb|]. split; [reflexivity|]. split; [|rewrite Val; reflexivity].
              eapply with_st; [exact Et|exact Eff|exact Es| |exact Eg]. unfold set_name_of in Ess. cbn [has sub] in Ess. destruct (dmem tc (S_ "set")) eqn:Ed.
              -- right. unfold attr in Ess. destruct (dget tc (S_ "set")) as [x|] eqn:Ex; [|discriminate]. apply dget_in in Ex. cbn [bind] in Ess.
                 destruct x as [xn [|m [|i vs]] xc|]; try discriminate. cbn [item nth_error bind] in Ess. apply ok_inj in Ess. exists xn, m, i, vs, xc. split; [exact Ex|exact Ess].
              -- left. apply ok_inj in Ess. split; [apply dmem_false; exact Ed|exact Ess].
            * rewrite HTC_Names.dset_new; [rewrite <- app_assoc; reflexivity|]. intro Hi. unfold HTC_Spec.keys in Hi. rewrite map_app in Hi. apply in_app_or in Hi as [Hi|[Hi|[]]].
              -- apply (Fresh (S_ "_st")); [right; reflexivity|exact Hi].
              -- cbn [fst] in Hi. apply app_inv_head in Hi. discriminate.
            * intros x [<-|[<-|[]]]; cbn [fst]; auto.
          + apply ok_inj in Eo. subst o acc1. eexists. split; [|split; [reflexivity|intros x [<-|[]]; cbn [fst]; auto]].
            right. exists val, [], kb, nmb, bcb, ecb, cont, ssb. cbn [fst snd]. split; [exact Eb|]. split; [reflexivity|]. split; [|rewrite Val; reflexivity].
            eapply missing_st; [exact Et|exact Eff|exact Es].
        - apply ok_inj in Ea. subst acc1. eexists. split; [|split; [reflexivity|intros x [<-|[]]; cbn [fst]; auto]].
          right. exists val, [], kb, nmb, bcb, ecb, cont, ssb. cbn [fst snd]. split; [exact Eb|]. split; [reflexivity|]. split; [|rewrite Val; reflexivity].
          apply no_st. apply dmem_false. exact Edm. }
      destruct B as (l & Bl & -> & Kl). destruct (IH (bs0 ++ [(v, b)]) (acc0 ++ l)) as (ls & Fl & ->).
      + rewrite map_app. cbn [map fst]. rewrite <- app_assoc. exact Hd.
      + intros x Hx. rewrite map_app in *. apply in_app_or in Hx as [Hx|Hx].
        * destruct (Hk x Hx) as (n & Hn0 & Hx0). exists n. split; [apply in_or_app; left; exact Hn0|exact Hx0].
        * exists v. split; [apply in_or_app; right; left; reflexivity|apply Kl; exact Hx].
      + exact E.
      + exists (l :: ls). split; [constructor; assumption|cbn [concat]; rewrite app_assoc; reflexivity].
  Qed.
  (** One body that refers to a set its structural file does not have makes the conversion of the whole file fail. *)
  Theorem C145_set_absent : forall d bs v b val k nm bc ec cont ss kt nmt bct ect tc sst nm' fn vs cm sets s, bodies_of d bs -> In (v, b) bs ->
    body_c2 toQ argsort b = Ok val -> b = Sec k nm bc ec cont ss -> NoDup (map fst cont) -> In (S_ "timoschenko_input", Sec kt nmt bct ect tc sst) cont -> NoDup (map fst tc) ->
    In (S_ "filename", Line nm' (fn :: vs) cm) tc -> st_file (Deck_Model.path_join simdir fn) = Some (Ok sets) -> set_used tc s -> ~ In s (map fst sets) ->
    exists e, to_data_frame toQ argsort T st_file simdir d = Err e.
  Proof using.
    intros d bs v b val k nm bc ec cont ss kt nmt bct ect tc sst nm' fn vs cm sets s (k0 & nm0 & bc0 & ec0 & sc & ss0 & Hn & Hin & Hc & H) Hb Ec Eb Hnc Ht Hnt Hf Est Hu Hs.
    unfold to_data_frame, structure, attr. rewrite (dget_nodup _ _ _ Hn Hin). cbn [bind contents_of]. rewrite starting_eq in H. fold (body_keys sc) in H.
    assert (Bad : forall acc, exists e, add_body toQ argsort T st_file simdir acc b = Err e).
    { intro acc. unfold add_body. rewrite Ec. destruct (body_name b) as [w|e]; [|eexists; reflexivity]. cbn [bind]. destruct (text toQ w) as [w'|e]; [|eexists; reflexivity]. cbn [bind].
      subst b. cbn [has sub]. rewrite HTCSim_Props.dmem_dget. rewrite (dget_nodup _ _ _ Hnc Ht). unfold attr. rewrite (dget_nodup _ _ _ Hnc Ht). cbn [bind].
      unfold st_frame. cbn [sub]. unfold attr. rewrite (dget_nodup _ _ _ Hnt Hf). cbn [bind item nth_error]. destruct (text toQ fn) as [fn'|e] eqn:Et; [|eexists; reflexivity]. cbn [bind].
      unfold text in Et. destruct (toQ fn); [discriminate|]. apply ok_inj in Et. subst fn'. rewrite Est. cbn [bind].
      assert (Sn : set_name_of (Sec kt nmt bct ect tc sst) = Ok s).
      { unfold set_name_of. cbn [has sub]. rewrite HTCSim_Props.dmem_dget. destruct Hu as [[Hu ->]|(xn & m & i & ws & xc & Hu & ->)].
        - apply dget_none in Hu. rewrite Hu. reflexivity.
        - rewrite (dget_nodup _ _ _ Hnt Hu). unfold attr. rewrite (dget_nodup _ _ _ Hnt Hu). reflexivity. }
      rewrite Sn. cbn [bind]. assert (Dn : dget sets s = None).
      { destruct (dget sets s) as [t|] eqn:Eg; [|reflexivity]. apply dget_in_any in Eg. exfalso. apply Hs. apply in_map_iff. exists (s, t). auto. }
      rewrite Dn. eexists. reflexivity. }
    generalize (@nil (str * frame T)). induction H as [|key [w c] ks bs [H1 H2] H IH]; intro acc; [destruct Hb|]. cbn [add_bodies fst snd] in *.
    rewrite (getitem_in _ _ _ Hc H1). cbn [bind]. destruct Hb as [Hb|Hb].
    - injection Hb as -> ->. destruct (Bad acc) as (e & ->). eexists. reflexivity.
    - destruct (add_body toQ argsort T st_file simdir acc c) as [acc1|e]; [|eexists; reflexivity]. cbn [bind]. apply IH. exact Hb.
  Qed.
  (** A body whose name is a number makes it fail too. *)
  Theorem C145_number_refuted : forall d bs v b val q, bodies_of d bs -> In (v, b) bs -> body_c2 toQ argsort b = Ok val -> toQ v = Some q ->
    exists e, to_data_frame toQ argsort T st_file simdir d = Err e.
  Proof using.
    intros d bs v b val q (k0 & nm0 & bc0 & ec0 & sc & ss0 & Hn & Hin & Hc & H) Hb Ec Eq.
    unfold to_data_frame, structure, attr. rewrite (dget_nodup _ _ _ Hn Hin). cbn [bind contents_of]. rewrite starting_eq in H. fold (body_keys sc) in H.
    generalize (@nil (str * frame T)). induction H as [|key [w c] ks bs [H1 H2] H IH]; intro acc; [destruct Hb|]. cbn [add_bodies fst snd] in *.
    rewrite (getitem_in _ _ _ Hc H1). cbn [bind]. destruct Hb as [Hb|Hb].
    - injection Hb as -> ->. unfold add_body. rewrite Ec, (named_ok _ _ H2). cbn [bind]. unfold text. rewrite Eq. eexists. reflexivity.
    - destruct (add_body toQ argsort T st_file simdir acc c) as [acc1|e]; [|eexists; reflexivity]. cbn [bind]. apply IH. exact Hb.
  Qed.
End Frames.
Print Assumptions C145_frames.
Print Assumptions C145_set_absent.
Print Assumptions C145_number_refuted.

(** ** Concrete cases *)
Fixpoint ins (l : list Q) (i : nat) (is : list nat) : list nat :=
  match is with [] => [i] | j :: is' => if Qle_bool (nth i l 0%Q) (nth j l 0%Q) then i :: is else j :: ins l i is' end.
Definition ex_argsort (l : list Q) : list nat := fold_right (ins l) [] (seq 0 (List.length l)).
Lemma ins_perm l i is : Permutation (ins l i is) (i :: is).
Proof.
  induction is as [|j is IH]; [apply Permutation_refl|]. cbn [ins]. destruct (Qle_bool _ _); [apply Permutation_refl|].
  eapply Permutation_trans; [apply perm_skip; exact IH|apply perm_swap].
Qed.
Lemma ins_sorted l i is : StronglySorted Qle (map (fun i => nth i l 0%Q) is) -> StronglySorted Qle (map (fun i => nth i l 0%Q) (ins l i is)).
Proof.
  induction is as [|j is IH]; intro H; [repeat constructor|]. cbn [ins]. cbn [map] in H. inversion H as [|? ? H1 H2]; subst. destruct (Qle_bool _ _) eqn:E.
  - apply Qle_bool_iff in E. cbn [map]. constructor; [exact H|]. constructor; [exact E|]. eapply Forall_impl; [|exact H2]. intros a Ha. eapply Qle_trans; eassumption.
  - cbn [map]. constructor; [apply IH; exact H1|]. apply Forall_forall. intros x Hx. apply in_map_iff in Hx as (k & <- & Hk). apply (Permutation_in _ (ins_perm l i is)) in Hk as [<-|Hk].
    + apply Qlt_le_weak, Qnot_le_lt. intro F. apply Qle_bool_iff in F. congruence.
    + apply (proj1 (Forall_forall _ _) H2). apply in_map_iff. exists k. auto.
Qed.
Example ex_sorts : sorts ex_argsort.
Proof.
  intro l. unfold ex_argsort. generalize (seq 0 (List.length l)). induction l0 as [|i is [P S]]; cbn [fold_right]; [split; constructor|]. split.
  - eapply Permutation_trans; [apply ins_perm|]. constructor. exact P.
  - apply ins_sorted. exact S.
Qed.
(** Fractions in unary. *)
Fixpoint ones (n : nat) : str := match n with O => [] | S n' => "1"%char :: ones n' end.
Definition ex_ofQ (q : Q) : str := (if Z.ltb (Qnum q) 0 then "-"%char else "+"%char) :: ones (Z.abs_nat (Qnum q)) ++ "/"%char :: ones (Pos.to_nat (Qden q)).
Fixpoint count (s : str) : nat * str := match s with "1"%char :: s' => let '(n, r) := count s' in (S n, r) | _ => (0, s) end.
Definition ex_toQ (s : str) : option Q :=
  match s with
  | c :: s' =>
      let '(n, r) := count s' in
      match r with
      | "/"%char :: r' => let z := if chr_eqb c "-"%char then Z.opp (Z.of_nat n) else Z.of_nat n in if chr_eqb c "-"%char || chr_eqb c "+"%char then Some (z # Pos.of_nat (fst (count r')))%Q else None
      | _ => None
      end
  | [] => None
  end.
Lemma count_ones n s : match s with "1"%char :: _ => False | _ => True end -> count (ones n ++ s) = (n, s).
Proof.
  intro H. induction n as [|n IH].
  - cbn [ones app]. destruct s as [|[[] [] [] [] [] [] [] []] s]; try reflexivity. destruct H.
  - cbn [ones app count]. rewrite IH. reflexivity.
Qed.
Example ex_faithful : faithful ex_toQ ex_ofQ (fun z => ex_ofQ (inject_Z z)).
Proof.
  assert (F : forall q, ex_toQ (ex_ofQ q) = Some q).
  { intros [n d]. unfold ex_ofQ, ex_toQ. cbn [Qnum Qden]. rewrite count_ones by exact Logic.I.
    assert (C : count (ones (Pos.to_nat d)) = (Pos.to_nat d, [])) by (rewrite <- (app_nil_r (ones _)); apply count_ones; exact Logic.I). rewrite C. cbn [fst]. rewrite Pos2Nat.id.
    destruct (Z.ltb n 0) eqn:E; cbn; [apply Z.ltb_lt in E|apply Z.ltb_ge in E]; do 2 f_equal; lia. }
  split; [exact F|]. intro z. apply F.
Qed.
Definition ex_row (a b c d e : Z) : list Q := map inject_Z [a; b; c; d; e].
Definition ex_sec (r : list Q) : node := Line (S_ "sec") (map ex_ofQ r) [].
Definition ex_c2 : list (str * node) :=
  [(S_ "nsec", Line (S_ "nsec") [ex_ofQ 2] []); (S_ "sec", ex_sec (ex_row 2 0 0 5 1)); (S_ "sec__2", ex_sec (ex_row 1 0 0 0 3))].
Definition ex_tower (nm : string) : node :=
  Sec Plain (S_ "main_body") [] [] [(S_ "name", Line (S_ "name") [S_ nm] []); (S_ "c2_def", Sec Plain (S_ "c2_def") [] [] ex_c2 [])] [].
Definition ex_htc : list (str * node) :=
  [(S_ "new_htc_structure", Sec Plain (S_ "new_htc_structure") [] [] [(S_ "main_body", ex_tower "tower"); (S_ "main_body__2", ex_tower "blade")] [])].
(** The hypotheses of the theorems hold for a body with two sections in reverse order. *)
Example ex_has : has_c2 (ex_tower "tower") ex_c2 /\ plain_dict ex_c2 /\ nsec_text ex_c2 (ex_ofQ 2) /\ sections ex_toQ ex_c2 [ex_row 2 0 0 5 1; ex_row 1 0 0 0 3] /\
  ~ In (S_ "k") (map fst ex_c2) /\ increasing [ex_row 1 0 0 0 3; ex_row 2 0 0 5 1].
Proof.
  split; [|split; [|split; [|split; [|split]]]].
  - do 11 eexists. split; [reflexivity|]. split; [nd|right; left; reflexivity].
  - split; [nd|]. repeat constructor; cbn; intuition discriminate.
  - do 3 eexists. left. reflexivity.
  - unfold sections. vm_compute starting. constructor; [|constructor; [|constructor]].
    + do 3 eexists. split; [right; left; reflexivity|]. split; [|reflexivity]. repeat constructor.
    + do 3 eexists. split; [right; right; left; reflexivity|]. split; [|reflexivity]. repeat constructor.
  - cbn. intuition discriminate.
  - repeat constructor.
Qed.
Example ex_read : body_c2 ex_toQ ex_argsort (ex_tower "tower") = Ok [ex_row 1 0 0 0 3; ex_row 2 0 0 5 1].
Proof. vm_compute. reflexivity. Qed.
Example ex_fewer : exists b', set_body_c2 ex_toQ ex_ofQ (fun z => ex_ofQ (inject_Z z)) (ex_tower "tower") [ex_row 1 1 1 1 1] = (b', Ok tt) /\
  body_c2 ex_toQ ex_argsort b' = Ok [ex_row 1 1 1 1 1].
Proof. eexists. split; vm_compute; reflexivity. Qed.
Example ex_too_many : snd (set_body_c2 ex_toQ ex_ofQ (fun z => ex_ofQ (inject_Z z)) (ex_tower "tower") [ex_row 1 1 1 1 1; ex_row 2 1 1 1 1; ex_row 3 1 1 1 1]) = Err NotImplementedError.
Proof. vm_compute. reflexivity. Qed.
Example ex_bodies : bodies_of ex_htc [(S_ "tower", ex_tower "tower"); (S_ "blade", ex_tower "blade")].
Proof.
  do 6 eexists. split; [nd|]. split; [left; reflexivity|]. split; [split; [nd|repeat constructor; cbn; intuition discriminate]|]. vm_compute starting.
  constructor; [|constructor; [|constructor]]; cbn [fst snd].
  - split; [left; reflexivity|]. do 9 eexists. split; [reflexivity|]. split; [nd|left; reflexivity].
  - split; [right; left; reflexivity|]. do 9 eexists. split; [reflexivity|]. split; [nd|left; reflexivity].
Qed.
Example ex_frames : exists dfs, to_data_frame ex_toQ ex_argsort unit (fun _ => None) [] ex_htc = Ok dfs /\ map fst dfs = [S_ "tower_c2"; S_ "blade_c2"].
Proof. eexists. split; vm_compute; reflexivity. Qed.
