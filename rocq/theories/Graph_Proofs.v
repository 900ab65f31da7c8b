(** Facts about graphs: heaps, lookups, and what every successful call preserves. *)
From Verif Require Import Py PyFacts Dict ListFacts Graph_Model Graph_Spec.
From Coq Require Import QArith Permutation.
Local Open Scope nat_scope.

Lemma set_nth_length {A} (l : list A) i x : List.length (set_nth l i x) = List.length l.
Proof. revert i. induction l as [|y l IH]; intros [|i]; cbn; auto. Qed.
Lemma nth_set_nth_same {A} (l : list A) i x d : i < List.length l -> nth i (set_nth l i x) d = x.
Proof. revert i. induction l as [|y l IH]; intros [|i] H; cbn in *; try lia; auto. apply IH. lia. Qed.
Lemma nth_set_nth_other {A} (l : list A) i j x d : j <> i -> nth j (set_nth l i x) d = nth j l d.
Proof. revert i j. induction l as [|y l IH]; intros [|i] [|j] H; cbn; auto; try lia. Qed.
Lemma mapR_inv {A B} (f : A -> res B) l l' : mapR f l = Ok l' -> Forall2 (fun x y => f x = Ok y) l l'.
Proof.
  revert l'. induction l as [|x l IH]; intros l' H; cbn in H; [injection H as <-; constructor|].
  destruct (f x) as [y|] eqn:E; [|discriminate]. cbn in H. destruct (mapR f l) as [ys|]; [|discriminate]. injection H as <-. constructor; [exact E | apply IH; reflexivity].
Qed.
Lemma mapR_intro {A B} (f : A -> res B) l l' : Forall2 (fun x y => f x = Ok y) l l' -> mapR f l = Ok l'.
Proof. induction 1 as [|x y l l' H _ IH]; cbn; [reflexivity|]. rewrite H. cbn. rewrite IH. reflexivity. Qed.
Lemma F2_imp {A B} (P Q : A -> B -> Prop) l l' : (forall x y, In x l -> In y l' -> P x y -> Q x y) -> Forall2 P l l' -> Forall2 Q l l'.
Proof.
  intros H F. induction F as [|x y l l' Hxy F IH]; constructor; [apply H; [left|left|]; auto|]. apply IH. intros; apply H; [right|right|]; auto.
Qed.
Lemma F2_len {A B} (P : A -> B -> Prop) l l' : Forall2 P l l' -> List.length l = List.length l'.
Proof. induction 1; cbn; auto. Qed.
Lemma in_firstn {A} n (l : list A) x : In x (firstn n l) -> In x l.
Proof. intro H. rewrite <- (firstn_skipn n l). apply in_or_app. left. exact H. Qed.
Lemma NoDup_app_l {A} (l l' : list A) : NoDup (l ++ l') -> NoDup l.
Proof. induction l as [|x l IH]; cbn; intro H; [constructor|]. inversion H as [|? ? H1 H2]; subst. constructor; [|apply IH; exact H2]. intro C. apply H1. apply in_or_app. left. exact C. Qed.
Lemma Forall2_in_r {A B} (P : A -> B -> Prop) l l' y : Forall2 P l l' -> In y l' -> exists x, In x l /\ P x y.
Proof. induction 1 as [|x z l l' H F IH]; intro Hy; [contradiction|]. destruct Hy as [<-|Hy]; [exists x; split; [left; reflexivity | exact H]|]. destruct (IH Hy) as [w [W1 W2]]. exists w. split; [right; exact W1 | exact W2]. Qed.
Lemma Forall2_map_both {A B C D} (P : C -> D -> Prop) (f : A -> C) (h : B -> D) l l' : Forall2 (fun x y => P (f x) (h y)) l l' -> Forall2 P (map f l) (map h l').
Proof. induction 1; cbn; constructor; assumption. Qed.

Section Proofs.
Context {V : Type}.
Variable interp : V -> V -> Q -> option V.
Variable veqb : V -> V -> bool.
Variable argsort : list Q -> list nat.
Notation node := (@node V). Notation graph := (@graph V). Notation elem := (@elem V).
Implicit Types (g : graph) (e : elem).

(** The nodes of an element in the list of elements are nodes of the graph, with the IDs the element lists. *)
Definition linked (g : graph) (e : elem) : Prop := Forall2 (fun id b => In b (gNodes g) /\ nID (node_at g b) = id) (enodeIDs e) (enodes e).
Definition Inv (g : graph) : Prop :=
  Forall (fun a => a < List.length (nheap g)) (gNodes g) /\
  Forall (fun a => a < List.length (eheap g) /\ linked g (elem_at g a)) (gElements g).
(** The stored connectivity is right for the first elements. *)
Definition Cache (g : graph) : Prop :=
  List.length (c_conn g) <= List.length (gElements g) /\
  Forall2 (fun a idx => map (nth_error (gNodes g)) idx = map Some (enodes (elem_at g a))) (firstn (List.length (c_conn g)) (gElements g)) (c_conn g).
Definition ids (g : graph) : list Z := map (fun a => nID (node_at g a)) (gNodes g).

Lemma get_node_in g id a : get_node g id = Ok a -> In a (gNodes g) /\ nID (node_at g a) = id.
Proof. unfold get_node. destruct (find _ _) eqn:E; [|discriminate]. intro H. injection H as <-. apply find_some in E. destruct E as [E1 E2]. apply Z.eqb_eq in E2. auto. Qed.
Lemma get_elem_in g id a : get_elem g id = Ok a -> In a (gElements g) /\ eID (elem_at g a) = id.
Proof. unfold get_elem. destruct (find _ _) eqn:E; [|discriminate]. intro H. injection H as <-. apply find_some in E. destruct E as [E1 E2]. apply Z.eqb_eq in E2. auto. Qed.
Lemma find_unique {A} (f : A -> Z) l a : NoDup (map f l) -> In a l -> find (fun x => Z.eqb (f x) (f a)) l = Some a.
Proof.
  induction l as [|b l IH]; intros N H; [contradiction|]. cbn [find]. cbn [map] in N. inversion N as [|? ? N1 N2]; subst.
  destruct (Z.eqb_spec (f b) (f a)) as [E|E].
  - f_equal. destruct H as [->|H]; [reflexivity|]. exfalso. apply N1. rewrite E. apply in_map. exact H.
  - destruct H as [->|H]; [congruence|]. apply IH; assumption.
Qed.
Lemma get_node_unique g a : NoDup (ids g) -> In a (gNodes g) -> get_node g (nID (node_at g a)) = Ok a.
Proof. intros N H. unfold get_node. rewrite (find_unique (fun a => nID (node_at g a)) (gNodes g) a N H). reflexivity. Qed.
Lemma get_elem_unique g a : NoDup (map (fun a => eID (elem_at g a)) (gElements g)) -> In a (gElements g) -> get_elem g (eID (elem_at g a)) = Ok a.
Proof. intros N H. unfold get_elem. rewrite (find_unique (fun a => eID (elem_at g a)) (gElements g) a N H). reflexivity. Qed.

(** *** Growth of the node lists *)
Definition grows (g g' : graph) : Prop := (exists nn, nheap g' = nheap g ++ nn) /\ (exists l, gNodes g' = gNodes g ++ l).
Lemma grows_refl g : grows g g.
Proof. split; exists []; symmetry; apply app_nil_r. Qed.
Lemma grows_trans g1 g2 g3 : grows g1 g2 -> grows g2 g3 -> grows g1 g3.
Proof. intros [[a A] [b B]] [[c C] [d D]]. split; [exists (a ++ c) | exists (b ++ d)]; [rewrite C, A | rewrite D, B]; symmetry; apply app_assoc. Qed.
Lemma grows_node g g' a : grows g g' -> a < List.length (nheap g) -> node_at g' a = node_at g a.
Proof. intros [[nn H] _] L. unfold node_at. rewrite H. apply app_nth1. exact L. Qed.
Lemma grows_in g g' a : grows g g' -> In a (gNodes g) -> In a (gNodes g').
Proof. intros [_ [l H]] L. rewrite H. apply in_or_app. left. exact L. Qed.
Lemma grows_linked g g' e : grows g g' -> Forall (fun a => a < List.length (nheap g)) (gNodes g) -> linked g e -> linked g' e.
Proof.
  intros G F L. unfold linked in *. eapply F2_imp; [|exact L]. cbn. intros id b _ _ [H1 H2]. split; [exact (grows_in _ _ _ G H1)|].
  rewrite (grows_node _ _ _ G); [exact H2|]. rewrite Forall_forall in F. apply F. exact H1.
Qed.

Lemma add_node_grows g n : grows g (add_node g n).
Proof. split; [exists [n] | exists [List.length (nheap g)]]; reflexivity. Qed.
Lemma add_node_bound g n : Forall (fun a => a < List.length (nheap g)) (gNodes g) -> Forall (fun a => a < List.length (nheap (add_node g n))) (gNodes (add_node g n)).
Proof.
  intro F. cbn. rewrite app_length. cbn. apply Forall_app. split; [|constructor; [lia|constructor]].
  eapply Forall_impl; [|exact F]. cbn. intros. lia.
Qed.
Lemma add_node_inv g n : Inv g -> Inv (add_node g n).
Proof.
  intros [A B]. split; [apply add_node_bound; exact A|]. eapply Forall_impl; [|exact B]. cbn beta. intros a [H1 H2]. split; [exact H1|].
  apply (grows_linked g _ _ (add_node_grows g n) A). exact H2.
Qed.
Lemma positions_grow g g' idx (l : list nat) : grows g g' -> map (nth_error (gNodes g)) idx = map Some l -> map (nth_error (gNodes g')) idx = map Some l.
Proof.
  intros [_ [k G]] H. rewrite G. clear G. revert l H. induction idx as [|i idx IH]; intros [|b l] H; try discriminate; [reflexivity|]. cbn in *. injection H as H1 H2.
  f_equal; [|apply IH; exact H2]. rewrite nth_error_app1; [exact H1|]. apply nth_error_Some. rewrite H1. discriminate.
Qed.
Lemma add_node_cache g n : Cache g -> Cache (add_node g n).
Proof.
  intros [A B]. split; [exact A|]. eapply F2_imp; [|exact B]. intros a idx _ _ H. apply (positions_grow g _ _ _ (add_node_grows g n)). exact H.
Qed.

(** *** Changing one element object *)
Lemma elem_at_set_same g a e : a < List.length (eheap g) -> elem_at (set_elem g a e) a = e.
Proof. apply nth_set_nth_same. Qed.
Lemma elem_at_set_other g a b e : b <> a -> elem_at (set_elem g a e) b = elem_at g b.
Proof. apply nth_set_nth_other. Qed.
Lemma set_elem_inv g a e : Inv g -> linked g e -> Inv (set_elem g a e).
Proof.
  intros [A B] H. split; [exact A|]. eapply Forall_impl; [|exact B]. cbn beta. intros b [H1 H2]. split; [cbn; rewrite set_nth_length; exact H1|].
  destruct (Nat.eq_dec b a) as [->|N]; [rewrite elem_at_set_same by exact H1; exact H | rewrite elem_at_set_other by exact N; exact H2].
Qed.
Lemma set_elem_cache g a e : Cache g -> (a < List.length (eheap g) -> enodes e = enodes (elem_at g a)) -> Cache (set_elem g a e).
Proof.
  intros [A B] H. split; [exact A|]. eapply F2_imp; [|exact B]. cbn beta. intros b idx _ _ E.
  destruct (Nat.eq_dec b a) as [->|N]; [|rewrite elem_at_set_other by exact N; exact E].
  destruct (Nat.lt_ge_cases a (List.length (eheap g))) as [L|L].
  - rewrite elem_at_set_same, (H L) by exact L. exact E.
  - unfold elem_at in *. cbn. rewrite nth_overflow in * by (rewrite ?set_nth_length; exact L). exact E.
Qed.
(** A new element object, not yet in the list *)
Lemma alloc_elem_at g e b : b < List.length (eheap g) -> elem_at (with_elems g (eheap g ++ [e]) (gElements g)) b = elem_at g b.
Proof. intro H. unfold elem_at. cbn. apply app_nth1. exact H. Qed.
Lemma alloc_inv g e : Inv g -> Inv (with_elems g (eheap g ++ [e]) (gElements g)).
Proof.
  intros [A B]. split; [exact A|]. eapply Forall_impl; [|exact B]. cbn beta. intros b [H1 H2]. split; [cbn; rewrite app_length; lia|].
  rewrite alloc_elem_at by exact H1. exact H2.
Qed.
Lemma alloc_cache g e : Inv g -> Cache g -> Cache (with_elems g (eheap g ++ [e]) (gElements g)).
Proof.
  intros [_ I] [A B]. split; [exact A|]. eapply F2_imp; [|exact B]. cbn beta. intros b idx Hb _ E. rewrite alloc_elem_at; [exact E|].
  rewrite Forall_forall in I. apply I. exact (in_firstn _ _ _ Hb).
Qed.
Lemma append_elem_cache g a : Cache g -> Cache (with_elems g (eheap g) (gElements g ++ [a])).
Proof.
  intros [A B]. split; [cbn; rewrite app_length; lia|]. cbn. rewrite firstn_app. replace (List.length (c_conn g) - List.length (gElements g)) with 0 by lia.
  rewrite app_nil_r. exact B.
Qed.

(** *** addElement *)
Lemma mapR_get_node g l ns : mapR (get_node g) l = Ok ns -> Forall2 (fun id b => In b (gNodes g) /\ nID (node_at g b) = id) l ns.
Proof. intro H. apply mapR_inv in H. eapply F2_imp; [|exact H]. cbn beta. intros id b _ _ E. apply get_node_in. exact E. Qed.
Definition resolved (e : elem) (ns : list nat) (ps : option (list (@prop V))) : elem := mk_elem (eID e) (enodeIDs e) ns (epropset e) (epropIDs e) (edata e) ps.
(** What a successful addElement leaves: the element with its nodes found, at the end of the list *)
Lemma add_element_at_ok g a g' : add_element_at g a = (g', Ok tt) -> a < List.length (eheap g) ->
  exists ns ps, mapR (get_node g) (enodeIDs (elem_at g a)) = Ok ns /\
    nheap g' = nheap g /\ gNodes g' = gNodes g /\ gElements g' = gElements g ++ [a] /\ List.length (eheap g') = List.length (eheap g) /\
    propsets g' = propsets g /\ modes g' = modes g /\ motions g' = motions g /\
    c_conn g' = c_conn g /\ elem_at g' a = resolved (elem_at g a) ns ps /\ forall b, b <> a -> elem_at g' b = elem_at g b.
Proof.
  intros H L. unfold add_element_at in H. destruct (mapR (get_node g) (enodeIDs (elem_at g a))) as [ns|] eqn:E; [|discriminate].
  exists ns. destruct (epropIDs (elem_at g a)) as [[b l]|] eqn:P.
  - destruct (get_props _ _ _) as [ps|] eqn:Q; [|discriminate]. injection H as <-. exists (Some ps). cbn. rewrite !set_nth_length. repeat (split; [reflexivity|]).
    split; [|intros b' N; rewrite <- (nth_set_nth_other (eheap g) a b' (resolved (elem_at g a) ns (enodeProps (elem_at g a))) null_elem N) at 1; unfold elem_at; cbn].
    + unfold elem_at at 1. cbn. rewrite nth_set_nth_same by (rewrite set_nth_length; exact L). unfold resolved. rewrite P. reflexivity.
    + rewrite !nth_set_nth_other by exact N. reflexivity.
  - injection H as <-. exists (enodeProps (elem_at g a)). cbn. rewrite set_nth_length. repeat (split; [reflexivity|]).
    split; [unfold elem_at at 1; cbn; rewrite nth_set_nth_same by exact L; unfold resolved; rewrite P; reflexivity|].
    intros b N. unfold elem_at at 1. cbn. rewrite nth_set_nth_other by exact N. reflexivity.
Qed.
Lemma node_at_eq g g' b : nheap g' = nheap g -> node_at g' b = node_at g b.
Proof. intro H. unfold node_at. rewrite H. reflexivity. Qed.
Lemma linked_eq g g' e : nheap g' = nheap g -> gNodes g' = gNodes g -> linked g e -> linked g' e.
Proof. intros H1 H2 H. eapply F2_imp; [|exact H]. cbn beta. intros id b _ _ E. rewrite (node_at_eq g g' b H1), H2. exact E. Qed.
Lemma add_element_at_inv g a g' : add_element_at g a = (g', Ok tt) -> a < List.length (eheap g) -> Inv g -> Inv g' /\ gNodes g' = gNodes g /\ nheap g' = nheap g /\ List.length (eheap g') = List.length (eheap g).
Proof.
  intros H L [A B]. destruct (add_element_at_ok g a g' H L) as [ns [ps [H1 [H2 [H3 [H4 [H5 [_ [_ [_ [_ [H6 H7]]]]]]]]]]]].
  split; [|auto]. split; [rewrite H2, H3; exact A|]. rewrite H4, H5.
  assert (G : forall b, b < List.length (eheap g) -> b = a \/ linked g (elem_at g b) -> b < List.length (eheap g) /\ linked g' (elem_at g' b)).
  { intros b Hb Hl. split; [exact Hb|]. apply (linked_eq g g' _ H2 H3). destruct (Nat.eq_dec b a) as [->|N].
    - rewrite H6. unfold linked, resolved. cbn. apply mapR_get_node. exact H1.
    - rewrite (H7 b N). destruct Hl as [C|Hl]; [contradiction | exact Hl]. }
  apply Forall_app. split; [|constructor; [apply G; auto | constructor]]. eapply Forall_impl; [|exact B]. cbn beta. intros b [Hb Hl]. apply G; auto.
Qed.
Lemma add_element_inv g e g' : add_element g e = (g', Ok tt) -> Inv g -> Inv g' /\ gNodes g' = gNodes g /\ nheap g' = nheap g.
Proof.
  intros H I. unfold add_element, new_elem in H.
  assert (G : add_element_at (with_elems g (eheap g ++ [e]) (gElements g)) (List.length (eheap g)) = (g', Ok tt)) by (destruct (epropIDs e); [destruct (epropset e)|]; try discriminate; exact H).
  destruct (add_element_at_inv _ _ _ G) as [R1 [R2 [R3 _]]]; [cbn; rewrite app_length; cbn; lia | apply alloc_inv; exact I | auto].
Qed.
Lemma add_element_cache g e g' : add_element g e = (g', Ok tt) -> Inv g -> Cache g -> Cache g' /\ c_conn g' = c_conn g.
Proof.
  intros H I C. unfold add_element, new_elem in H. set (g1 := with_elems g (eheap g ++ [e]) (gElements g)) in *.
  assert (G : add_element_at g1 (List.length (eheap g)) = (g', Ok tt)) by (destruct (epropIDs e); [destruct (epropset e)|]; try discriminate; exact H).
  destruct (add_element_at_ok g1 _ g' G) as [ns [ps [_ [_ [H3 [H4 [_ [_ [_ [_ [H8 [_ H7]]]]]]]]]]]]; [cbn; rewrite app_length; cbn; lia|].
  split; [|exact H8]. destruct (append_elem_cache g1 (List.length (eheap g)) (alloc_cache g e I C)) as [C1 C2]. unfold Cache. rewrite H8, H4, H3.
  split; [exact C1|]. eapply F2_imp; [|exact C2]. cbn beta. intros b idx Hb _ E. change (gNodes (with_elems g1 (eheap g1) (gElements g1 ++ [List.length (eheap g)]))) with (gNodes g1) in E. rewrite E. f_equal.
  change (elem_at (with_elems g1 (eheap g1) (gElements g1 ++ [List.length (eheap g)])) b) with (elem_at g1 b). rewrite H7; [reflexivity|].
  cbn in Hb. rewrite firstn_app in Hb. destruct C as [C0 _]. replace (List.length (c_conn g) - List.length (gElements g)) with 0 in Hb by lia. rewrite app_nil_r in Hb.
  destruct I as [_ I]. rewrite Forall_forall in I. specialize (I b (in_firstn _ _ _ Hb)). lia.
Qed.
End Proofs.
