(** What every successful call preserves (C37): elements refer to nodes of the graph, and the stored connectivity is
    right for the elements that existed when it was computed. *)
From Verif Require Import Py PyFacts Dict ListFacts Graph_Model Graph_Spec Graph_Proofs.
From Coq Require Import QArith Permutation.
Local Open Scope nat_scope.

Section Conn.
Context {V : Type}.
Variable interp : V -> V -> Q -> option V.
Variable veqb : V -> V -> bool.
Variable argsort : list Q -> list nat.
Notation node := (@node V). Notation graph := (@graph V). Notation elem := (@elem V).
Implicit Types (g : graph) (e : elem).

(** *** Dividing one element *)
Lemma sub_nodes_inv n1 n2 n keys is : forall g id g' l, sub_nodes interp g n1 n2 n keys id is = (g', Ok l) -> Inv g ->
  Inv g' /\ grows g g' /\ eheap g' = eheap g /\ gElements g' = gElements g /\ Forall (fun a => In a (gNodes g')) l.
Proof.
  induction is as [|i is IH]; intros g id g' l H I; cbn [sub_nodes] in H.
  - injection H as <- <-. split; [exact I|]. split; [apply grows_refl|]. repeat split. constructor.
  - destruct (clash _ _); [discriminate|]. destruct (sub_nodes _ _ _ _ _ _ _ is) as [g1 [l1|]] eqn:E; [|discriminate]. cbn in H. injection H as <- <-.
    apply IH in E; [|apply add_node_inv; exact I]. destruct E as [I1 [G1 [E1 [E2 E3]]]]. split; [exact I1|].
    split; [apply (grows_trans _ _ _ (add_node_grows _ _) G1)|]. split; [rewrite E1; reflexivity|]. split; [rewrite E2; reflexivity|].
    constructor; [|exact E3]. apply (grows_in _ _ _ G1). cbn. apply in_or_app. right. left. reflexivity.
Qed.
Lemma sub_elems_inv ea ends : forall g id g' l, sub_elems g ea id ends = (g', Ok l) -> Inv g ->
  Inv g' /\ nheap g' = nheap g /\ gNodes g' = gNodes g /\ gElements g' = gElements g /\ List.length (eheap g) <= List.length (eheap g') /\ Forall (fun a => a < List.length (eheap g')) l.
Proof.
  induction ends as [|[a b] ends IH]; intros g id g' l H I; cbn [sub_elems] in H.
  - injection H as <- <-. repeat (split; [first [exact I | reflexivity | lia]|]). constructor.
  - destruct (shared_props _) as [[ps pi]|]; [|discriminate]. destruct (clash _ _); [discriminate|]. destruct (clash _ _); [discriminate|].
    destruct (new_elem _ _) as [[g1 na]|] eqn:E; [|discriminate]. unfold new_elem in E.
    assert (G : exists e, g1 = with_elems g (eheap g ++ [e]) (gElements g) /\ na = List.length (eheap g)).
    { destruct (epropIDs _) in E; [destruct (epropset _) in E|]; try discriminate; injection E as <- <-; eexists; split; reflexivity. }
    destruct G as [e [-> ->]]. destruct (sub_elems _ ea (id + 1) ends) as [g2 [l2|]] eqn:E2; [|discriminate]. cbn in H. injection H as <- <-.
    apply IH in E2; [|apply alloc_inv; exact I]. destruct E2 as [A1 [A2 [A3 [A4 [A5 A6]]]]]. cbn in A5. rewrite app_length in A5. cbn in A5.
    split; [exact A1|]. split; [rewrite A2; reflexivity|]. split; [rewrite A3; reflexivity|]. split; [rewrite A4; reflexivity|]. split; [lia|].
    constructor; [lia | exact A6].
Qed.
Lemma divide_element_inv g id n m keys g' l : divide_element interp g id n m keys = (g', Ok l) -> Inv g ->
  Inv g' /\ grows g g' /\ gElements g' = gElements g /\ List.length (eheap g) <= List.length (eheap g') /\ Forall (fun a => a < List.length (eheap g')) l.
Proof.
  intros H I. unfold divide_element in H. destruct (Nat.ltb _ _); [discriminate|]. destruct (Nat.ltb _ _); [discriminate|].
  destruct (max_id _); [|discriminate]. destruct (get_elem g id) as [ea|] eqn:GE; [|discriminate].
  assert (T : forall l0, (g, Ok l0) = (g', Ok l) -> l0 = [] -> Inv g' /\ grows g g' /\ gElements g' = gElements g /\ List.length (eheap g) <= List.length (eheap g') /\ Forall (fun a => a < List.length (eheap g')) l).
  { intros l0 E ->. injection E as <- <-. split; [exact I|]. split; [apply grows_refl|]. split; [reflexivity|]. split; [lia | constructor]. }
  destruct (enodes (elem_at g ea)) as [|a1 [|a2 [|a3 ns]]] eqn:EN; try (apply (T _ H); reflexivity). clear T.
  destruct (sub_nodes _ _ _ _ _ _ _ _) as [g1 [mid|]] eqn:SN; [|discriminate].
  apply sub_nodes_inv in SN; [|exact I]. destruct SN as [I1 [G1 [E1 [E2 E3]]]].
  apply get_elem_in in GE. destruct GE as [GE _]. pose proof I as [B1 B2]. rewrite Forall_forall in B2. destruct (B2 ea GE) as [L LK].
  unfold linked in LK. rewrite EN in LK.
  assert (In1 : In a1 (gNodes g) /\ In a2 (gNodes g)).
  { inversion LK as [|? ? ? ? X1 Y1]; subst. inversion Y1 as [|? ? ? ? X2 Y2]; subst. split; [apply X1 | apply X2]. }
  match type of H with sub_elems (set_elem g1 ea ?e) _ _ _ = _ => assert (K : Inv (set_elem g1 ea e)) end.
  { apply set_elem_inv; [exact I1|]. unfold linked. cbn [enodeIDs enodes].
    assert (S2 : forall a, In a (firstn 2 (a1 :: mid ++ [a2])) -> In a (gNodes g1)).
    { intros b Hb. rename Hb into Ha. apply in_firstn in Ha. destruct Ha as [<-|Ha]; [apply (grows_in _ _ _ G1); apply In1|]. apply in_app_or in Ha.
      destruct Ha as [Ha|[<-|[]]]; [rewrite Forall_forall in E3; apply E3; exact Ha | apply (grows_in _ _ _ G1); apply In1]. }
    revert S2. generalize (firstn 2 (a1 :: mid ++ [a2])). intros two S2. induction two as [|b two IH]; cbn; constructor; [split; [apply S2; left; reflexivity | reflexivity]|].
    apply IH. intros c Hc. apply S2. right. exact Hc. }
  apply sub_elems_inv in H; [|exact K]. cbn in H. rewrite set_nth_length in H. destruct H as [R1 [R2 [R3 [R4 [R5 R6]]]]]. split; [exact R1|].
  split; [|split; [rewrite R4; exact E2|]; split; [rewrite <- E1; exact R5 | exact R6]].
  destruct G1 as [[nn G1] [ll G2]]. split; [exists nn; rewrite R2; exact G1 | exists ll; rewrite R3; exact G2].
Qed.
Lemma divide_loop_inv n xk xl ins keys todo : forall g m g' l, divide_loop interp veqb g todo n m xk xl ins keys = (g', Ok l) -> Inv g ->
  Inv g' /\ grows g g' /\ gElements g' = gElements g /\ List.length (eheap g) <= List.length (eheap g') /\ Forall (fun a => a < List.length (eheap g')) l.
Proof.
  induction todo as [|a todo IH]; intros g m g' l H I; cbn [divide_loop] in H.
  - injection H as <- <-. split; [exact I|]. split; [apply grows_refl|]. split; [reflexivity|]. split; [lia | constructor].
  - destruct (if ins then _ else _) as [front|] eqn:F; [|discriminate]. destruct (selected _ _ _ _ _) as [sel|]; [|discriminate].
    destruct (if sel then _ else _) as [g1 [new|]] eqn:D; [|discriminate].
    assert (D1 : Inv g1 /\ grows g g1 /\ gElements g1 = gElements g /\ List.length (eheap g) <= List.length (eheap g1) /\ Forall (fun a => a < List.length (eheap g1)) new).
    { destruct sel; [apply divide_element_inv in D; assumption|]. injection D as <- <-. split; [exact I|]. split; [apply grows_refl|]. split; [reflexivity|]. split; [lia | constructor]. }
    destruct D1 as [I1 [G1 [E1 [L1 N1]]]].
    destruct (divide_loop _ _ _ _ _ _ _ _ _ _) as [g2 [l2|]] eqn:R; [|discriminate]. cbn in H. injection H as <- <-. apply IH in R; [|exact I1].
    destruct R as [I2 [G2 [E2 [L2 N2]]]]. split; [exact I2|]. split; [apply (grows_trans _ _ _ G1 G2)|]. split; [congruence|]. split; [lia|].
    apply Forall_app. split; [|apply Forall_app; split; [eapply Forall_impl; [|exact N1]; cbn; intros; lia | exact N2]].
    destruct ins; [|injection F as <-; constructor]. destruct (get_elem g _) as [x|] eqn:GE; [|discriminate]. cbn in F. injection F as <-.
    constructor; [|constructor]. apply get_elem_in in GE. destruct I as [_ I]. rewrite Forall_forall in I. specialize (I x (proj1 GE)). lia.
Qed.
Lemma add_all_inv l : forall g g', add_all g l = (g', Ok tt) -> Inv g -> Forall (fun a => a < List.length (eheap g)) l -> Inv g' /\ gNodes g' = gNodes g /\ nheap g' = nheap g.
Proof.
  induction l as [|a l IH]; intros g g' H I F; cbn [add_all] in H; [injection H as <-; auto|]. inversion F as [|? ? F1 F2]; subst.
  destruct (add_element_at g a) as [g1 [[]|]] eqn:E; [|discriminate]. apply add_element_at_inv in E; [|exact F1 | exact I]. destruct E as [I1 [E1 [E2 E3]]].
  apply IH in H; [|exact I1 | rewrite E3; exact F2]. destruct H as [H1 [H2 H3]]. split; [exact H1|]. split; congruence.
Qed.
Lemma conn_changed_inv g : Inv g -> Inv (conn_changed g).
Proof. intro I. exact I. Qed.
Lemma divide_elements_inv g n xk xl m keys g' : divide_elements interp veqb g n xk xl m keys = (g', Ok tt) -> Inv g -> Inv g' /\ grows g g' /\ c_conn g' = [].
Proof.
  intros H I. unfold divide_elements in H. destruct (max_id _); [|discriminate]. destruct (max_id _); [|discriminate]. destruct (Z.leb _ _); [discriminate|].
  destruct (divide_loop _ _ _ _ _ _ _ _ _ _) as [g1 [new|]] eqn:D; [|discriminate]. apply divide_loop_inv in D; [|exact I].
  destruct D as [I1 [G1 [E1 [L1 N1]]]].
  assert (K : exists g2, add_all g2 new = (g', Ok tt) -> True) by (exists g; trivial). clear K.
  assert (K : forall g2, Inv g2 -> nheap g2 = nheap g1 -> gNodes g2 = gNodes g1 -> eheap g2 = eheap g1 ->
    (match add_all g2 new with (g3, Err x) => (g3, Err x) | (g3, Ok _) => (conn_changed g3, Ok tt) end) = (g', Ok tt) -> Inv g' /\ grows g g' /\ c_conn g' = []).
  { intros g2 I2 K1 K2 K3 R. destruct (add_all g2 new) as [g3 [[]|]] eqn:A; [|discriminate]. injection R as <-.
    apply add_all_inv in A; [|exact I2 | rewrite K3; exact N1]. destruct A as [A1 [A2 A3]]. split; [exact A1|]. split; [|reflexivity].
    destruct G1 as [[nn G1] [ll G2]]. split; [exists nn | exists ll]; cbn; congruence. }
  destruct (str_eqb m (S_ "append")); [|destruct (str_eqb m (S_ "insert")); [|discriminate]].
  - apply (K g1 I1); auto.
  - apply (K (with_elems g1 (eheap g1) [])); auto. destruct I1 as [I1 _]. split; [exact I1 | constructor].
Qed.

(** *** Sorting *)
Definition is_argsort : Prop := forall vs, Permutation (argsort vs) (seq 0 (List.length vs)).
Lemma mapR_nth (l : list nat) idx l' : mapR (fun i => match nth_error l i with Some a => Ok a | None => Err IndexError end) idx = Ok l' -> map (nth_error l) idx = map Some l'.
Proof.
  intro H. apply mapR_inv in H. induction H as [|i a idx l' H F IH]; [reflexivity|]. cbn. f_equal; [|exact IH]. destruct (nth_error l i); [congruence | discriminate].
Qed.
Lemma map_nth_error_seq {A} (l : list A) : map (nth_error l) (seq 0 (List.length l)) = map Some l.
Proof. apply list_ext; [rewrite !map_length, seq_length; reflexivity|]. intros i Hi. rewrite map_length, seq_length in Hi. rewrite map_seq_nth_error, nth_error_map by exact Hi. destruct (nth_error l i) eqn:E; [reflexivity|]. apply nth_error_None in E. lia. Qed.
Lemma perm_some {A} (l l' : list A) : Permutation (map Some l) (map Some l') -> Permutation l l'.
Proof.
  intro H. apply (Permutation_map (fun o => match o with Some x => [x] | None => [] end)) in H. rewrite !map_map in H.
  assert (E : forall k : list A, concat (map (fun x => [x]) k) = k) by (induction k as [|x k IH]; cbn; [|rewrite IH]; reflexivity).
  rewrite <- (E l), <- (E l'). clear E. revert H. generalize (map (fun x : A => [x]) l) (map (fun x : A => [x]) l'). induction 1; cbn.
  - constructor.
  - apply Permutation_app_head. assumption.
  - rewrite !app_assoc. apply Permutation_app_tail. apply Permutation_app_comm.
  - etransitivity; eassumption.
Qed.
Lemma sort_values_length g key vs : sort_values g key = Ok vs -> List.length vs = List.length (gNodes g).
Proof.
  unfold sort_values. repeat (destruct (str_eqb _ _); [intro H; injection H as <-; apply map_length|]). destruct (gNodes g); [|discriminate]. intro H. injection H as <-. reflexivity.
Qed.
Lemma sort_nodes_ok g key g' : is_argsort -> sort_nodes argsort g key = (g', Ok tt) ->
  exists l, Permutation (gNodes g) l /\ g' = conn_changed (with_nodes g (nheap g) l).
Proof.
  intros S H. unfold sort_nodes in H. destruct (Nat.ltb _ _); [discriminate|]. destruct (Nat.ltb _ _); [discriminate|].
  destruct (sort_values g key) as [vs|] eqn:E; [|discriminate]. destruct (mapR _ _) as [l|] eqn:M; [|discriminate]. injection H as <-. exists l. split; [|reflexivity].
  apply mapR_nth in M. apply perm_some. rewrite <- M, <- map_nth_error_seq. apply Permutation_map. symmetry. rewrite <- (sort_values_length g key vs E). apply S.
Qed.
Lemma sort_nodes_inv g key g' : is_argsort -> sort_nodes argsort g key = (g', Ok tt) -> Inv g -> Inv g' /\ Permutation (gNodes g) (gNodes g') /\ nheap g' = nheap g /\ c_conn g' = [].
Proof.
  intros S H [A B]. destruct (sort_nodes_ok g key g' S H) as [l [P ->]]. split; [|auto]. split.
  - cbn. apply (Permutation_Forall P). exact A.
  - eapply Forall_impl; [|exact B]. cbn beta. intros a [H1 H2]. split; [exact H1|]. eapply F2_imp; [|exact H2]. cbn beta. intros id b _ _ [K1 K2]. split; [|exact K2].
    cbn. apply (Permutation_in _ P). exact K1.
Qed.

(** *** Node data *)
Lemma set_data_nID g a d b : nID (node_at (set_data g a d) b) = nID (node_at g b).
Proof.
  unfold set_data, set_node, node_at. cbn. destruct (Nat.eq_dec b a) as [->|N]; [|rewrite nth_set_nth_other by exact N; reflexivity].
  destruct (Nat.lt_ge_cases a (List.length (nheap g))) as [L|L]; [rewrite nth_set_nth_same by exact L; reflexivity|].
  rewrite !nth_overflow by (rewrite ?set_nth_length; exact L). reflexivity.
Qed.
Lemma set_data_inv g a d : Inv g -> Inv (set_data g a d).
Proof.
  intros [A B]. split; [cbn; rewrite set_nth_length; exact A|]. eapply Forall_impl; [|exact B]. cbn beta. intros b [H1 H2]. split; [exact H1|].
  eapply F2_imp; [|exact H2]. cbn beta. intros id c _ _ [K1 K2]. split; [exact K1 | rewrite set_data_nID; exact K2].
Qed.

(** *** updateConnectivity finds the nodes the elements already have *)
Lemma in_at g a b : NoDup (ids g) -> In a (gNodes g) -> In b (gNodes g) -> nID (node_at g a) = nID (node_at g b) -> a = b.
Proof.
  intros N Ha Hb E. assert (Ok a = Ok b); [|congruence]. rewrite <- (get_node_unique g a N Ha), <- (get_node_unique g b N Hb), E. reflexivity.
Qed.
Lemma linked_mapR g e : NoDup (ids g) -> linked g e -> mapR (get_node g) (enodeIDs e) = Ok (enodes e).
Proof. intros N H. apply mapR_intro. eapply F2_imp; [|exact H]. cbn beta. intros id b _ _ [H1 <-]. apply get_node_unique; assumption. Qed.
Lemma set_elem_self_inv g a e : Inv g -> In a (gElements g) -> enodeIDs e = enodeIDs (elem_at g a) -> enodes e = enodes (elem_at g a) -> Inv (set_elem g a e).
Proof.
  intros I H E1 E2. apply set_elem_inv; [exact I|]. destruct I as [_ I]. rewrite Forall_forall in I. destruct (I a H) as [_ L]. unfold linked in *. rewrite E1, E2. exact L.
Qed.
Definition same_shape (g g' : graph) : Prop := nheap g' = nheap g /\ gNodes g' = gNodes g /\ gElements g' = gElements g /\ c_conn g' = c_conn g.
Lemma update_nodes_inv l : forall g g', update_nodes g l = (g', Ok tt) -> NoDup (ids g) -> incl l (gElements g) -> Inv g -> Cache g -> Inv g' /\ Cache g' /\ same_shape g g'.
Proof.
  induction l as [|a l IH]; intros g g' H N J I C; cbn [update_nodes] in H; [injection H as <-; repeat split; try apply I; apply C|].
  destruct (mapR _ _) as [ns|] eqn:M; [|discriminate].
  assert (La : linked g (elem_at g a)) by (destruct I as [_ I]; rewrite Forall_forall in I; apply I; apply J; left; reflexivity).
  rewrite (linked_mapR g _ N La) in M. injection M as <-.
  apply IH in H; [|exact N | intros x Hx; apply J; right; exact Hx | apply set_elem_self_inv; [exact I | apply J; left; reflexivity | reflexivity | reflexivity] | apply set_elem_cache; [exact C | reflexivity]].
  destruct H as [H1 [H2 [S1 [S2 [S3 S4]]]]]. split; [exact H1|]. split; [exact H2|]. split; [exact S1|]. split; [exact S2|]. split; [exact S3 | exact S4].
Qed.
Lemma update_props_inv l : forall g g', update_props g l = (g', Ok tt) -> incl l (gElements g) -> Inv g -> Cache g -> Inv g' /\ Cache g' /\ same_shape g g'.
Proof.
  induction l as [|a l IH]; intros g g' H J I C; cbn [update_props] in H; [injection H as <-; repeat split; try apply I; apply C|].
  destruct (epropIDs (elem_at g a)) as [[b il]|]; [|discriminate]. destruct (get_props _ _ _); [|discriminate].
  apply IH in H; [|intros x Hx; apply J; right; exact Hx | apply set_elem_self_inv; [exact I | apply J; left; reflexivity | reflexivity | reflexivity] | apply set_elem_cache; [exact C | reflexivity]].
  destruct H as [H1 [H2 [S1 [S2 [S3 S4]]]]]. split; [exact H1|]. split; [exact H2|]. split; [exact S1|]. split; [exact S2|]. split; [exact S3 | exact S4].
Qed.

(** *** The query *)
Lemma index_of_nth l a i : index_of l a = Ok i -> nth_error l i = Some a.
Proof.
  revert i. induction l as [|b l IH]; intros i H; cbn in H; [discriminate|]. destruct (Nat.eqb_spec b a) as [->|N]; [injection H as <-; reflexivity|].
  destruct (index_of l a) as [j|]; [|discriminate]. cbn in H. injection H as <-. cbn. apply IH. reflexivity.
Qed.
Lemma index_of_in l a : In a l -> exists i, index_of l a = Ok i.
Proof.
  induction l as [|b l IH]; intro H; [contradiction|]. cbn. destruct (Nat.eqb_spec b a) as [->|N]; [eexists; reflexivity|]. destruct H as [H|H]; [contradiction|].
  destruct (IH H) as [i ->]. eexists. reflexivity.
Qed.
Lemma index_row g e : linked g e -> exists r, mapR (index_of (gNodes g)) (enodes e) = Ok r /\ map (nth_error (gNodes g)) r = map Some (enodes e).
Proof.
  unfold linked. generalize (enodeIDs e) (enodes e). intros il ns H. induction H as [|id b il ns [H1 H2] F [r [IH1 IH2]]]; [exists []; auto|].
  destruct (index_of_in _ _ H1) as [i E]. exists (i :: r). cbn. rewrite E. cbn. rewrite IH1. split; [reflexivity|]. rewrite IH2. rewrite (index_of_nth _ _ _ E). reflexivity.
Qed.
Lemma connectivity_ok g : Inv g -> Cache g -> exists g' c, connectivity g = (g', Ok c) /\ c_conn g' = c /\ Inv g' /\ Cache g' /\ same_shape (with_caches g None [] [] c) (with_caches g' None [] [] c) /\
  (c_conn g = [] -> List.length c = List.length (gElements g)) /\ (c_conn g <> [] -> c = c_conn g).
Proof.
  intros I C. unfold connectivity. destruct (c_conn g) as [|r c] eqn:E.
  - assert (H : exists c, mapR (fun a => mapR (index_of (gNodes g)) (enodes (elem_at g a))) (gElements g) = Ok c /\
       Forall2 (fun a idx => map (nth_error (gNodes g)) idx = map Some (enodes (elem_at g a))) (gElements g) c).
    { destruct I as [_ I]. induction I as [|a l [H1 H2] F [c [IH1 IH2]]]; [exists []; split; [reflexivity | constructor]|].
      destruct (index_row g _ H2) as [r [R1 R2]]. exists (r :: c). cbn. rewrite R1. cbn. rewrite IH1. split; [reflexivity|]. constructor; assumption. }
    destruct H as [c [H1 H2]]. rewrite H1. do 2 eexists. split; [reflexivity|]. split; [reflexivity|]. split; [exact I|].
    pose proof (F2_len _ _ _ H2) as L. split; [|split; [repeat split|]; split; [intros _; symmetry; exact L | contradiction]].
    unfold Cache. cbn. rewrite <- L, firstn_all. split; [lia | exact H2].
  - exists g, (r :: c). split; [reflexivity|]. split; [exact E|]. split; [exact I|]. split; [exact C|]. split; [repeat split|]. split; [discriminate | reflexivity].
Qed.

(** *** All calls *)
Lemma update_nodes_nodes l : forall g g', update_nodes g l = (g', Ok tt) -> nheap g' = nheap g /\ gNodes g' = gNodes g.
Proof.
  induction l as [|a l IH]; intros g g' H; cbn [update_nodes] in H; [injection H as <-; auto|]. destruct (mapR _ _); [|discriminate]. apply IH in H. exact H.
Qed.
Lemma update_props_nodes l : forall g g', update_props g l = (g', Ok tt) -> nheap g' = nheap g /\ gNodes g' = gNodes g.
Proof.
  induction l as [|a l IH]; intros g g' H; cbn [update_props] in H; [injection H as <-; auto|]. destruct (epropIDs _) as [[? ?]|]; [|discriminate].
  destruct (get_props _ _ _); [|discriminate]. apply IH in H. exact H.
Qed.
Lemma ids_eq g g' : nheap g' = nheap g -> gNodes g' = gNodes g -> ids g' = ids g.
Proof. intros H1 H2. unfold ids. rewrite H2. apply map_ext. intro a. rewrite (node_at_eq g g' a H1). reflexivity. Qed.
Lemma grows_ids g g' : Inv g -> grows g g' -> NoDup (ids g') -> NoDup (ids g).
Proof.
  intros I G N. pose proof G as [_ [l G2]]. unfold ids in *. rewrite G2, map_app in N. apply NoDup_app_l in N.
  rewrite (map_ext_in _ (fun a => nID (node_at g' a))); [exact N|]. intros a Ha. f_equal. symmetry. apply (grows_node g g' a G).
  destruct I as [I _]. rewrite Forall_forall in I. apply I. exact Ha.
Qed.
Lemma cache_nil g : c_conn g = [] -> Cache g.
Proof. intro H. unfold Cache. rewrite H. split; [apply Nat.le_0_l | constructor]. Qed.
(** What a call does to the stored connectivity *)
Definition resets (c : @call V) : bool := match c with Sort _ | Divide _ _ _ _ _ => true | _ => false end.
Definition adds (c : @call V) : bool := match c with AddElement _ => true | _ => false end.
Definition asks (c : @call V) : bool := match c with Connectivity => true | _ => false end.
Lemma perform_cache g c g' : is_argsort -> perform interp veqb argsort g c = (g', Ok tt) -> Inv g -> Cache g -> NoDup (ids g') ->
  NoDup (ids g) /\ Inv g' /\ Cache g' /\
  (if resets c then c_conn g' = []
   else (if asks c then c_conn g = [] -> List.length (c_conn g') = List.length (gElements g') else c_conn g' = c_conn g) /\
        (adds c = false -> gElements g' = gElements g) /\ (c_conn g <> [] -> c_conn g' = c_conn g)).
Proof.
  intros S H I C N. destruct c; cbn [perform] in H; cbn [resets asks adds].
  - injection H as <-. split; [apply (grows_ids g _ I (add_node_grows g n) N)|]. split; [apply add_node_inv; exact I|]. split; [apply add_node_cache; exact C|]. repeat split.
  - destruct (add_element_inv _ _ _ H I) as [R1 [R2 R3]]. destruct (add_element_cache _ _ _ H I C) as [R4 R5]. rewrite <- (ids_eq g g' R3 R2).
    split; [exact N|]. split; [exact R1|]. split; [exact R4|]. repeat split; [exact R5 | discriminate | intros _; exact R5].
  - injection H as <-. split; [exact N|]. split; [exact I|]. split; [exact C|]. repeat split.
  - unfold add_prop in H. destruct (Dict.get _ _); [|discriminate]. injection H as <-. split; [exact N|]. split; [exact I|]. split; [exact C|]. repeat split.
  - unfold set_nodal_data in H. destruct (get_node _ _) as [a|]; [|discriminate]. injection H as <-. split; [|split; [apply set_data_inv; exact I|]; split; [exact C | repeat split]].
    unfold ids in *. cbn [gNodes set_data set_node with_nodes] in N. erewrite map_ext; [exact N|]. intro b. cbn beta. symmetry. apply set_data_nID.
  - destruct (sort_nodes_inv _ _ _ S H I) as [R1 [R2 [R3 R4]]]. split; [|split; [exact R1|]; split; [apply cache_nil; exact R4 | exact R4]].
    unfold ids in *. eapply Permutation_NoDup; [|exact N]. symmetry. rewrite (map_ext (fun a => nID (node_at g' a)) (fun a => nID (node_at g a))); [apply Permutation_map; exact R2|].
    intro a. rewrite (node_at_eq g g' a R3). reflexivity.
  - destruct (divide_elements_inv _ _ _ _ _ _ _ H I) as [R1 [R2 R3]]. split; [apply (grows_ids g g' I R2 N)|]. split; [exact R1|]. split; [apply cache_nil; exact R3 | exact R3].
  - unfold update_connectivity in H. destruct (update_nodes g (gElements g)) as [g1 [[]|]] eqn:U; [|discriminate].
    destruct (update_nodes_nodes _ _ _ U) as [U1 U2]. destruct (update_props_nodes _ _ _ H) as [P1 P2].
    assert (N0 : NoDup (ids g)) by (rewrite <- (ids_eq g g1 U1 U2), <- (ids_eq g1 g' P1 P2); exact N).
    destruct (update_nodes_inv _ _ _ U N0 (incl_refl _) I C) as [I1 [C1 [_ [_ [S1 S2]]]]]. destruct (update_props_inv _ _ _ H (incl_refl _) I1 C1) as [I2 [C2 [_ [_ [S3 S4]]]]].
    split; [exact N0|]. split; [exact I2|]. split; [exact C2|]. repeat split; [congruence | intros _; congruence | intros _; congruence].
  - injection H as <-. split; [exact N|]. split; [exact I|]. split; [exact C|]. repeat split.
  - destruct (connectivity_ok g I C) as [g1 [c [E [E1 [I1 [C1 [[S1 [S2 [S3 _]]] [L1 L2]]]]]]]]. cbn in S1, S2, S3. unfold drop_answer in H. rewrite E in H. cbn in H. injection H as <-.
    rewrite <- (ids_eq g g1 S1 S2). split; [exact N|]. split; [exact I1|]. split; [exact C1|]. rewrite E1, S3. repeat split; [exact L1 | exact L2].
  - unfold drop_answer, n2eid in H. destruct (c_n2eid g) as [[|]|]; cbn in H; try discriminate; injection H as <-; (split; [exact N|]; split; [exact I|]; split; [exact C|]; repeat split).
  - unfold drop_answer, n2e in H. destruct (c_n2e g); cbn in H; injection H as <-; (split; [exact N|]; split; [exact I|]; split; [exact C|]; repeat split).
  - unfold drop_answer, e2n in H. destruct (c_e2n g); cbn in H; injection H as <-; (split; [exact N|]; split; [exact I|]; split; [exact C|]; repeat split).
Qed.
Lemma update_nodes_inv0 l : forall g g', update_nodes g l = (g', Ok tt) -> Inv g -> Inv g'.
Proof.
  induction l as [|a l IH]; intros g g' H I; cbn [update_nodes] in H; [injection H as <-; exact I|]. destruct (mapR _ _) as [ns|] eqn:M; [|discriminate].
  apply IH in H; [exact H|]. apply set_elem_inv; [exact I|]. apply mapR_get_node. exact M.
Qed.
Lemma update_props_inv0 l : forall g g', update_props g l = (g', Ok tt) -> incl l (gElements g) -> Inv g -> Inv g'.
Proof.
  induction l as [|a l IH]; intros g g' H J I; cbn [update_props] in H; [injection H as <-; exact I|].
  destruct (epropIDs (elem_at g a)) as [[b il]|]; [|discriminate]. destruct (get_props _ _ _); [|discriminate].
  apply IH in H; [exact H | intros x Hx; apply J; right; exact Hx|]. apply set_elem_self_inv; [exact I | apply J; left; reflexivity | reflexivity | reflexivity].
Qed.
Lemma perform_inv g c g' : is_argsort -> perform interp veqb argsort g c = (g', Ok tt) -> Inv g -> Inv g' /\ (NoDup (ids g') -> NoDup (ids g)).
Proof.
  intros S H I. destruct c; cbn [perform] in H.
  - injection H as <-. split; [apply add_node_inv; exact I | apply (grows_ids g _ I (add_node_grows g n))].
  - destruct (add_element_inv _ _ _ H I) as [R1 [R2 R3]]. split; [exact R1|]. rewrite (ids_eq g g' R3 R2). auto.
  - injection H as <-. split; [exact I | auto].
  - unfold add_prop in H. destruct (Dict.get _ _); [|discriminate]. injection H as <-. split; [exact I | auto].
  - unfold set_nodal_data in H. destruct (get_node _ _) as [a|]; [|discriminate]. injection H as <-. split; [apply set_data_inv; exact I|]. intro N.
    unfold ids in *. cbn [gNodes set_data set_node with_nodes] in N. erewrite map_ext; [exact N|]. intro b. cbn beta. symmetry. apply set_data_nID.
  - destruct (sort_nodes_inv _ _ _ S H I) as [R1 [R2 [R3 R4]]]. split; [exact R1|]. intro N.
    unfold ids in *. eapply Permutation_NoDup; [|exact N]. symmetry. rewrite (map_ext (fun a => nID (node_at g' a)) (fun a => nID (node_at g a))); [apply Permutation_map; exact R2|].
    intro a. rewrite (node_at_eq g g' a R3). reflexivity.
  - destruct (divide_elements_inv _ _ _ _ _ _ _ H I) as [R1 [R2 R3]]. split; [exact R1 | apply (grows_ids g g' I R2)].
  - unfold update_connectivity in H. destruct (update_nodes g (gElements g)) as [g1 [[]|]] eqn:U; [|discriminate].
    destruct (update_nodes_nodes _ _ _ U) as [U1 U2]. destruct (update_props_nodes _ _ _ H) as [P1 P2].
    split; [|rewrite (ids_eq g1 g' P1 P2), (ids_eq g g1 U1 U2); auto]. apply (update_props_inv0 _ _ _ H (incl_refl _)). apply (update_nodes_inv0 _ _ _ U I).
  - injection H as <-. split; [exact I | auto].
  - unfold drop_answer, connectivity in H. destruct (c_conn g); [destruct (mapR _ _)|]; cbn in H; try discriminate; injection H as <-; (split; [exact I | auto]).
  - unfold drop_answer, n2eid in H. destruct (c_n2eid g) as [[|]|]; cbn in H; try discriminate; injection H as <-; (split; [exact I | auto]).
  - unfold drop_answer, n2e in H. destruct (c_n2e g); cbn in H; injection H as <-; (split; [exact I | auto]).
  - unfold drop_answer, e2n in H. destruct (c_e2n g); cbn in H; injection H as <-; (split; [exact I | auto]).
Qed.
Lemma run_cons g c cs g' : run interp veqb argsort g (c :: cs) = Ok g' -> exists g1, perform interp veqb argsort g c = (g1, Ok tt) /\ run interp veqb argsort g1 cs = Ok g'.
Proof. cbn. destruct (perform _ _ _ g c) as [g1 [[]|]]; [|discriminate]. intro H. exists g1. auto. Qed.
Lemma run_inv cs : is_argsort -> forall g g', run interp veqb argsort g cs = Ok g' -> Inv g -> Inv g' /\ (NoDup (ids g') -> NoDup (ids g)).
Proof.
  intro S. induction cs as [|c cs IH]; intros g g' H I; [injection H as <-; auto|]. destruct (run_cons g c cs g' H) as [g1 [P R]].
  destruct (perform_inv g c g1 S P I) as [I1 N1]. destruct (IH g1 g' R I1) as [I2 N2]. split; [exact I2 | auto].
Qed.
Lemma empty_inv : Inv (@empty_graph V).
Proof. split; constructor. Qed.
Lemma empty_cache : Cache (@empty_graph V).
Proof. apply cache_nil. reflexivity. Qed.
Lemma run_cache cs : is_argsort -> forall g g', run interp veqb argsort g cs = Ok g' -> Inv g -> Cache g -> NoDup (ids g') -> Cache g'.
Proof.
  intro S. induction cs as [|c cs IH]; intros g g' H I C N; [injection H as <-; auto|]. destruct (run_cons g c cs g' H) as [g1 [P R]].
  destruct (perform_inv g c g1 S P I) as [I1 N1]. destruct (run_inv cs S g1 g' R I1) as [_ N2]. destruct (perform_cache g c g1 S P I C (N2 N)) as [_ [_ [C1 _]]].
  apply (IH g1 g' R I1 C1 N).
Qed.
(** The stored connectivity is missing or complete in histories without late elements *)
Lemma run_complete cs : is_argsort -> forall g g' asked, run interp veqb argsort g cs = Ok g' -> Inv g -> Cache g -> NoDup (ids g') ->
  no_late_element asked cs = true -> (c_conn g = [] \/ asked = true /\ List.length (c_conn g) = List.length (gElements g)) ->
  c_conn g' = [] \/ List.length (c_conn g') = List.length (gElements g').
Proof.
  intro S. induction cs as [|c cs IH]; intros g g' asked H I C N L Q; [injection H as <-; destruct Q as [Q|[_ Q]]; auto|].
  destruct (run_cons g c cs g' H) as [g1 [P R]].
  destruct (perform_inv g c g1 S P I) as [I1 N1]. destruct (run_inv cs S g1 g' R I1) as [_ N2]. destruct (perform_cache g c g1 S P I C (N2 N)) as [_ [_ [C1 K]]].
  assert (same : forall b, resets c = false -> adds c = false -> asks c = false -> no_late_element b cs = true -> b = asked -> c_conn g' = [] \/ List.length (c_conn g') = List.length (gElements g')).
  { intros b E1 E2 E3 Lb ->. rewrite E1, E3 in K. destruct K as [K1 [K2 _]]. apply (IH g1 g' asked R I1 C1 N Lb). rewrite K1, (K2 E2). exact Q. }
  destruct c; cbn [no_late_element] in L; try (apply (same asked eq_refl eq_refl eq_refl L eq_refl)); clear same; cbn [resets asks adds] in K.
  - apply andb_prop in L. destruct L as [L1 L2]. destruct asked; [discriminate|]. destruct Q as [Q|[Q _]]; [|discriminate].
    apply (IH g1 g' false R I1 C1 N L2). left. destruct K as [K1 _]. congruence.
  - apply (IH g1 g' false R I1 C1 N L). left. exact K.
  - apply (IH g1 g' false R I1 C1 N L). left. exact K.
  - apply (IH g1 g' true R I1 C1 N L). right. split; [reflexivity|]. destruct K as [K1 [K2 K3]]. destruct Q as [Q|[_ Q]]; [apply K1; exact Q|].
    destruct (c_conn g) as [|r k] eqn:E; [apply K1; reflexivity|]. rewrite K3, (K2 eq_refl) by discriminate. exact Q.
Qed.
End Conn.
