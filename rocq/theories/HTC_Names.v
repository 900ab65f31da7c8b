(** Names given to repeated objects in a section (for HTC_Props.v). *)
From Verif Require Import Py PyFacts TextFacts HTC_Model HTC_Spec.
From Coq Require Import Lia FinFun.
Local Open Scope nat_scope.

Lemma dmem_iff {V} (d : list (str * V)) k : dmem d k = true <-> In k (keys d).
Proof.
  unfold dmem, keys. rewrite existsb_exists, in_map_iff. split.
  - intros [p [H1 H2]]. exists p. split; [apply str_eqb_eq; exact H2 | exact H1].
  - intros [p [H1 H2]]. exists p. split; [exact H2 | apply str_eqb_eq; exact H1].
Qed.
Lemma dmem_false {V} (d : list (str * V)) k : dmem d k = false <-> ~ In k (keys d).
Proof. rewrite <- dmem_iff. destruct (dmem d k); split; intro H; congruence. Qed.
Lemma dset_new {V} (d : list (str * V)) k v : ~ In k (keys d) -> dset d k v = d ++ [(k, v)].
Proof.
  induction d as [|[k0 v0] d IH]; intro H; [reflexivity|]. cbn [dset fst].
  destruct (str_eqb k0 k) eqn:E.
  - apply str_eqb_eq in E. exfalso. apply H. left. exact E.
  - cbn [app]. f_equal. apply IH. intro C. apply H. right. exact C.
Qed.
Lemma dget_dset_same {V} (d : list (str * V)) k v : dget (dset d k v) k = Some v.
Proof.
  unfold dget. induction d as [|[k0 v0] d IH]; cbn [dset find fst].
  - rewrite str_eqb_refl. reflexivity.
  - destruct (str_eqb k0 k) eqn:E; cbn [find fst].
    + rewrite str_eqb_refl. reflexivity.
    + rewrite E. exact IH.
Qed.
Lemma dget_dset_other {V} (d : list (str * V)) k v k2 : k2 <> k -> dget (dset d k v) k2 = dget d k2.
Proof.
  intro H. unfold dget. induction d as [|[k0 v0] d IH]; cbn [dset find fst].
  - destruct (str_eqb k k2) eqn:E; [|reflexivity]. apply str_eqb_eq in E. congruence.
  - destruct (str_eqb k0 k) eqn:E; cbn [find fst].
    + apply str_eqb_eq in E. subst k0. destruct (str_eqb k k2) eqn:E2; [|reflexivity].
      apply str_eqb_eq in E2. congruence.
    + destruct (str_eqb k0 k2); [reflexivity | exact IH].
Qed.
Lemma dget_None {V} (d : list (str * V)) k : ~ In k (keys d) -> dget d k = None.
Proof.
  intro H. unfold dget. destruct (find _ d) as [p|] eqn:E; [|reflexivity].
  apply find_some in E. destruct E as [H1 H2]. apply str_eqb_eq in H2. exfalso. apply H.
  unfold keys. apply in_map_iff. exists p. split; assumption.
Qed.
Lemma dget_In {V} (d : list (str * V)) k v : dget d k = Some v -> In k (keys d).
Proof.
  intro H. destruct (in_dec str_eq_dec k (keys d)) as [I|I]; [exact I|]. rewrite dget_None in H by exact I. discriminate.
Qed.
Lemma dget_ddel_other {V} (d : list (str * V)) k k2 : k2 <> k -> dget (ddel d k) k2 = dget d k2.
Proof.
  intro H. unfold dget, ddel. induction d as [|[k0 v0] d IH]; [reflexivity|]. cbn [filter fst find].
  destruct (str_eqb k0 k) eqn:E; cbn [negb].
  - apply str_eqb_eq in E. subst k0. destruct (str_eqb k k2) eqn:E2; [apply str_eqb_eq in E2; congruence | exact IH].
  - cbn [find fst]. destruct (str_eqb k0 k2); [reflexivity | exact IH].
Qed.

(** ** The search for a free ending always succeeds *)
Lemma ending_inj n m : ending n = ending m -> n = m.
Proof.
  intro H. unfold ending in H. apply app_inv_head in H. pose proof (N_of_str_of_N n) as A. rewrite H, N_of_str_of_N in A.
  congruence.
Qed.
Lemma free_spec {V} (d : list (str * V)) nm fuel : forall n r, free_ending fuel d nm n = Some r ->
  (n <= r)%N /\ ~ In (nm ++ ending r) (keys d) /\ forall m, (n <= m < r)%N -> In (nm ++ ending m) (keys d).
Proof.
  induction fuel as [|f IH]; intros n r H; cbn [free_ending] in H; destruct (dmem d (nm ++ ending n)) eqn:E; try discriminate.
  - injection H as <-. split; [lia|]. split; [apply dmem_false; exact E | intros m Hm; lia].
  - destruct (IH _ _ H) as [H1 [H2 H3]]. split; [lia|]. split; [exact H2|]. intros m Hm.
    destruct (N.eq_dec m n) as [->|Hne]; [apply dmem_iff; exact E | apply H3; lia].
  - injection H as <-. split; [lia|]. split; [apply dmem_false; exact E | intros m Hm; lia].
Qed.
Lemma free_None {V} (d : list (str * V)) nm fuel : forall n, free_ending fuel d nm n = None ->
  forall i, i <= fuel -> In (nm ++ ending (n + N.of_nat i)) (keys d).
Proof.
  induction fuel as [|f IH]; intros n H i Hi; cbn [free_ending] in H; destruct (dmem d (nm ++ ending n)) eqn:E; try discriminate.
  - replace i with 0 by lia. rewrite N.add_0_r. apply dmem_iff. exact E.
  - destruct i as [|i]; [rewrite N.add_0_r; apply dmem_iff; exact E|].
    replace (n + N.of_nat (S i))%N with (n + 1 + N.of_nat i)%N by lia. apply IH; [exact H | lia].
Qed.
Lemma free_enough {V} (d : list (str * V)) nm n : free_ending (S (List.length d)) d nm n <> None.
Proof.
  intro H. pose proof (free_None d nm _ n H) as K.
  assert (L : List.length (map (fun i => nm ++ ending (n + N.of_nat i)) (seq 0 (S (List.length d)))) <= List.length (keys d)).
  { apply NoDup_incl_length.
    - apply Injective_map_NoDup; [|apply seq_NoDup]. intros i j Hij. apply app_inv_head in Hij.
      apply ending_inj in Hij. lia.
    - intros x Hx. apply in_map_iff in Hx. destruct Hx as [i [<- Hi]]. apply in_seq in Hi. apply K. lia. }
  rewrite map_length, seq_length in L. unfold keys in L. rewrite map_length in L. lia.
Qed.

(** Adding an object always succeeds and appends it under a key that was not used. *)
Lemma add_spec d n : exists k, ~ In k (keys d) /\ add_contents d n = Ok (d ++ [(k, n)]) /\
  (k = node_name n \/ exists m, (2 <= m)%N /\ k = node_name n ++ ending m /\ In (node_name n) (keys d) /\
                               forall j, (2 <= j < m)%N -> In (node_name n ++ ending j) (keys d)).
Proof.
  unfold add_contents, new_key. destruct (dmem d (node_name n)) eqn:E.
  - destruct (free_ending _ d (node_name n) 2) as [m|] eqn:F; [|exfalso; revert F; apply free_enough].
    apply free_spec in F. destruct F as [F1 [F2 F3]]. cbn [option_map].
    exists (node_name n ++ ending m). split; [exact F2|]. split; [rewrite dset_new by exact F2; reflexivity|].
    right. exists m. split; [exact F1|]. split; [reflexivity|]. split; [apply dmem_iff; exact E | exact F3].
  - apply dmem_false in E. exists (node_name n). split; [exact E|].
    split; [rewrite dset_new by exact E; reflexivity | left; reflexivity].
Qed.
Lemma add_all_spec l : forall d, exists ks, List.length ks = List.length l /\ add_all d l = Ok (d ++ combine ks l) /\
  (NoDup (keys d) -> NoDup (keys d ++ ks)).
Proof.
  induction l as [|n l IH]; intro d.
  - exists []. split; [reflexivity|]. cbn. rewrite !app_nil_r. split; [reflexivity | trivial].
  - destruct (add_spec d n) as [k [H1 [H2 _]]]. cbn [add_all]. rewrite H2. cbn [bind].
    destruct (IH (d ++ [(k, n)])) as [ks [L [E ND]]]. exists (k :: ks). split; [cbn; congruence|].
    split; [rewrite E; cbn [combine]; rewrite <- app_assoc; reflexivity|].
    intro H. assert (ND2 : NoDup (keys (d ++ [(k, n)]))).
    { unfold keys. rewrite map_app. cbn [map fst]. rewrite <- (rev_involutive (map fst d ++ [k])). apply NoDup_rev.
      rewrite rev_app_distr. cbn. constructor; [rewrite <- in_rev; exact H1 | apply NoDup_rev; exact H]. }
    specialize (ND ND2). unfold keys in ND. rewrite map_app in ND. cbn [map fst] in ND. rewrite <- app_assoc in ND. exact ND.
Qed.

(** ** Exact names *)
Lemma digits_suffix a b d e : forallb is_digit d = true -> forallb is_digit e = true ->
  a ++ ch 95 :: d = b ++ ch 95 :: e -> a = b /\ d = e.
Proof.
  intros Hd He H. apply (f_equal (@rev ascii)) in H. rewrite !rev_app_distr in H. cbn [rev] in H.
  rewrite <- !app_assoc in H. cbn [app] in H.
  assert (G : forall x y u v, forallb is_digit x = true -> forallb is_digit y = true -> x ++ ch 95 :: u = y ++ ch 95 :: v -> x = y /\ u = v).
  { clear. induction x as [|c x IH]; intros [|c' y] u v Hx Hy E; cbn [app] in E.
    - injection E as ->. split; reflexivity.
    - injection E as <- _. cbn in Hy. discriminate.
    - injection E as -> _. cbn in Hx. discriminate.
    - injection E as -> E. cbn in Hx, Hy. apply andb_inv in Hx. apply andb_inv in Hy.
      destruct (IH y u v) as [-> ->]; [apply Hx | apply Hy | exact E |]. split; reflexivity. }
  apply G in H; [|rewrite forallb_rev; assumption|rewrite forallb_rev; assumption].
  destruct H as [H1 H2]. split; [|rewrite <- (rev_involutive d), H1, rev_involutive; reflexivity].
  rewrite <- (rev_involutive a), H2, rev_involutive. reflexivity.
Qed.
Lemma ending_split a n : a ++ ending n = (a ++ [ch 95]) ++ ch 95 :: str_of_N n.
Proof. unfold ending, uu. rewrite <- app_assoc. reflexivity. Qed.
Lemma key_ending_inj a b n m : a ++ ending n = b ++ ending m -> a = b /\ n = m.
Proof.
  rewrite !ending_split. intro H. apply digits_suffix in H; try apply str_of_N_digits. destruct H as [H1 H2].
  apply app_inv_tail in H1. split; [exact H1|]. pose proof (N_of_str_of_N n) as A. rewrite H2, N_of_str_of_N in A. congruence.
Qed.
Lemma name_not_ending a b n : no_uu a -> a <> b ++ ending n.
Proof.
  intros H E. unfold no_uu in H. apply not_true_iff_false in H. apply H. apply contains_iff. exists b, (str_of_N n). exact E.
Qed.
Lemma key_for_inj a b i j : no_uu a -> no_uu b -> key_for a i = key_for b j -> a = b /\ i = j.
Proof.
  intros Ha Hb H. destruct i as [|i], j as [|j]; cbn [key_for] in H.
  - split; [exact H | reflexivity].
  - exfalso. exact (name_not_ending a b _ Ha H).
  - exfalso. symmetry in H. exact (name_not_ending b a _ Hb H).
  - apply key_ending_inj in H. destruct H as [H1 H2]. split; [exact H1 | lia].
Qed.
Lemma key_for_S a i : key_for a (S i) = a ++ ending (N.of_nat (S (S i))).
Proof. reflexivity. Qed.

(** The keys of numbered objects: the key of the i-th occurrence is there exactly for i below the number of occurrences. *)
Lemma occurrences_app a x y : occurrences a (x ++ y) = occurrences a x + occurrences a y.
Proof. unfold occurrences. rewrite filter_app, app_length. reflexivity. Qed.
Lemma number_keys l : forall seen, Forall (fun n => no_uu (node_name n)) l -> forall a i, no_uu a ->
  (In (key_for a i) (keys (number seen l)) <-> occurrences a seen <= i < occurrences a seen + occurrences a l).
Proof.
  induction l as [|n l IH]; intros seen Hl a i Ha.
  - cbn. unfold occurrences. cbn. lia.
  - apply Forall_cons_iff in Hl. destruct Hl as [H1 H2]. cbn [number keys map fst In].
    change (n :: l) with ([n] ++ l). rewrite occurrences_app. specialize (IH (seen ++ [n]) H2 a i Ha). rewrite occurrences_app in IH.
    unfold keys in IH. rewrite IH. destruct (str_eq_dec (node_name n) a) as [E|E].
    + assert (O1 : occurrences a [n] = 1) by (unfold occurrences; cbn; rewrite (proj2 (str_eqb_eq _ _) E); reflexivity).
      rewrite O1. rewrite E. split.
      * intros [K|K]; [|lia]. apply key_for_inj in K; try assumption. lia.
      * intro K. destruct (Nat.eq_dec i (occurrences a seen)) as [->|Hne]; [left; reflexivity | right; lia].
    + assert (O0 : occurrences a [n] = 0) by (unfold occurrences; cbn; rewrite (proj2 (str_eqb_neq _ _) E); reflexivity).
      rewrite O0. split.
      * intros [K|K]; [|lia]. apply key_for_inj in K; try assumption. destruct K as [K _]. contradiction.
      * intro K. right. lia.
Qed.
Lemma number_app l1 l2 : forall seen, number seen (l1 ++ l2) = number seen l1 ++ number (seen ++ l1) l2.
Proof.
  induction l1 as [|n l1 IH]; intro seen; cbn [app number]; [rewrite app_nil_r; reflexivity|].
  rewrite IH, <- app_assoc. reflexivity.
Qed.
Lemma add_number l n : Forall (fun n => no_uu (node_name n)) (l ++ [n]) -> add_contents (number [] l) n = Ok (number [] (l ++ [n])).
Proof.
  intro H. apply Forall_app in H. destruct H as [Hl Hn]. apply Forall_cons_iff in Hn. destruct Hn as [Hn _].
  destruct (add_spec (number [] l) n) as [k [K1 [K2 K3]]]. rewrite K2. rewrite number_app. cbn [number app]. repeat f_equal.
  assert (N0 : forall i, In (key_for (node_name n) i) (keys (number [] l)) <-> i < occurrences (node_name n) l).
  { intro i. rewrite (number_keys l [] Hl (node_name n) i Hn). change (occurrences (node_name n) []) with 0. lia. }
  set (c := occurrences (node_name n) l) in *.
  destruct K3 as [->|[m [M1 [-> [M3 M4]]]]].
  - destruct c as [|c']; [reflexivity|]. exfalso. apply K1. apply (N0 0). lia.
  - assert (Hm : node_name n ++ ending m = key_for (node_name n) (N.to_nat m - 1)).
    { destruct (N.to_nat m - 1) as [|j] eqn:E; [lia|]. rewrite key_for_S. do 2 f_equal. lia. }
    rewrite Hm in K1 |- *. f_equal.
    pose proof (proj1 (N0 0) M3) as A. rewrite N0 in K1.
    destruct (Nat.eq_dec c (N.to_nat m - 1)) as [D|D]; [symmetry; exact D|].
    exfalso. assert (H : (2 <= N.of_nat (S c) < m)%N) by lia.
    specialize (M4 _ H). destruct c as [|c']; [lia|].
    rewrite <- key_for_S in M4. apply N0 in M4. lia.
Qed.
Lemma add_all_number l : forall seen, Forall (fun n => no_uu (node_name n)) (seen ++ l) ->
  add_all (number [] seen) l = Ok (number [] (seen ++ l)).
Proof.
  induction l as [|n l IH]; intros seen H.
  - rewrite app_nil_r. reflexivity.
  - cbn [add_all]. replace (seen ++ n :: l) with ((seen ++ [n]) ++ l) in * by (rewrite <- app_assoc; reflexivity).
    rewrite add_number by (apply Forall_app in H; apply H). cbn [bind]. apply IH. exact H.
Qed.

(** ** Edits *)
Definition touches (k : str) (e : edit) : bool :=
  match e with SetAttr k' _ => str_eqb k' k | DelAttr k' => str_eqb k' k | _ => false end.
Lemma dget_app {V} (d e : list (str * V)) k v : dget d k = Some v -> dget (d ++ e) k = Some v.
Proof.
  unfold dget. induction d as [|p d IH]; cbn [find app]; intro H; [discriminate|].
  destruct (str_eqb (fst p) k); [exact H | apply IH; exact H].
Qed.
Lemma edit_frame fs res d e d' : apply_edit fs res d e = Ok d' -> forall k n, touches k e = false -> dget d k = Some n ->
  dget d' k = Some n.
Proof.
  intros H k n Ht Hk. destruct e as [nm vs c|nm dup|n0|k' v|k']; cbn [apply_edit touches] in *.
  - destruct (add_spec d (mk_line nm vs c)) as [k0 [_ [E _]]]. rewrite E in H. apply Ok_inj in H. subst d'. apply dget_app. exact Hk.
  - destruct (dmem d nm && negb dup); [apply Ok_inj in H; subst d'; exact Hk|].
    destruct (new_section fs nm) as [s|] eqn:F; [|discriminate]. cbn [bind] in H.
    destruct (add_spec d s) as [k0 [_ [E _]]]. rewrite E in H. apply Ok_inj in H. subst d'. apply dget_app. exact Hk.
  - destruct (add_spec d n0) as [k0 [_ [E _]]]. rewrite E in H. apply Ok_inj in H. subst d'. apply dget_app. exact Hk.
  - apply str_eqb_neq in Ht. destruct (res k'); [apply Ok_inj in H; subst d'; exact Hk|].
    destruct (dget d k'); apply Ok_inj in H; subst d'; rewrite dget_dset_other; congruence.
  - apply str_eqb_neq in Ht. apply Ok_inj in H. subst d'. rewrite dget_ddel_other; congruence.
Qed.
Lemma edits_frame fs res es : forall d d', apply_edits fs res d es = Ok d' -> forall k n, existsb (touches k) es = false ->
  dget d k = Some n -> dget d' k = Some n.
Proof.
  induction es as [|e es IH]; intros d d' H k n Ht Hk; cbn [apply_edits existsb] in *.
  - apply Ok_inj in H. subst d'. exact Hk.
  - destruct (apply_edit fs res d e) as [d1|] eqn:E; [|discriminate]. cbn [bind] in H. apply orb_false_iff in Ht.
    destruct Ht as [T1 T2]. eapply IH; [exact H | exact T2 |]. eapply edit_frame; eassumption.
Qed.
