(** Division of elements (C36): what divideElements leaves. *)
From Verif Require Import Py PyFacts Dict ListFacts Graph_Model Graph_Spec Graph_Proofs Graph_Conn.
From Coq Require Import QArith Permutation Qfield.
Local Open Scope nat_scope.

Lemma max_id_ge l m : max_id l = Ok m -> forall x, In x l -> (x <= m)%Z.
Proof.
  destruct l as [|y l]; [discriminate|]. cbn. intro H. injection H as <-.
  assert (G : forall l y, (y <= fold_left Z.max l y)%Z /\ forall x, In x l -> (x <= fold_left Z.max l y)%Z).
  { clear. induction l as [|z l IH]; intro y; cbn; [split; [lia | contradiction]|]. destruct (IH (Z.max y z)) as [A B]. split; [lia|]. intros x [<-|H]; [lia | apply B; exact H]. }
  destruct (G l y) as [A B]. intros x [<-|H]; [exact A | apply B; exact H].
Qed.
Lemma max_id_some {A} (f : A -> Z) l : l <> [] -> exists m, max_id (map f l) = Ok m.
Proof. destruct l as [|y l]; [congruence|]. intros _. eexists. reflexivity. Qed.

Local Notation get := Dict.get.
Section Divide.
Context {V : Type}.
Variable interp : V -> V -> Q -> option V.
Variable veqb : V -> V -> bool.
Notation node := (@node V). Notation graph := (@graph V). Notation elem := (@elem V).
Implicit Types (g : graph) (e : elem).

Definition mid_node (n1 n2 : node) (n : Z) (keys : list str) (id : Z) (i : nat) : node :=
  let fact := (inject_Z (Z.of_nat i) / inject_Z n)%Q in
  mk_node (id + Z.of_nat i) (nx n1 * (1 - fact) + nx n2 * fact)%Q (ny n1 * (1 - fact) + ny n2 * fact)%Q (nz n1 * (1 - fact) + nz n2 * fact)%Q (sub_data interp n1 n2 fact keys).
(** Keys of the data the new nodes get *)
Definition clean_node (n1 : node) (keys : list str) : Prop := forall k, In k (map fst (ndata n1)) -> ~ In k keys -> ~ In k node_reserved.
Definition clean_elem (d : @dict V) : Prop := forall k, In k (map fst d) -> ~ In k (elem_reserved ++ [S_ "nodes"; S_ "properties"]).
Lemma mem_str_in k l : mem_str k l = true <-> In k l.
Proof. unfold mem_str. rewrite existsb_exists. split; [intros [x [H1 H2]]; apply str_eqb_eq in H2; subst; exact H1 | intro H; exists k; split; [exact H | apply str_eqb_refl]]. Qed.
Lemma clash_false (d : @dict V) rs : (forall k, In k (map fst d) -> ~ In k rs) -> clash rs d = false.
Proof.
  intro H. unfold clash. destruct (existsb _ d) eqn:E; [|reflexivity]. exfalso. apply existsb_exists in E. destruct E as [[k v] [E1 E2]]. apply mem_str_in in E2. apply (H k); [|exact E2].
  apply in_map_iff. exists (k, v). auto.
Qed.
Lemma sub_data_clean n1 n2 f keys : clean_node n1 keys -> clash node_reserved (sub_data interp n1 n2 f keys) = false.
Proof.
  intro H. apply clash_false. intros k Hk. unfold sub_data in Hk. rewrite map_map in Hk. cbn in Hk. apply in_map_iff in Hk. destruct Hk as [[k' v] [<- Hk]].
  apply filter_In in Hk. cbn in *. destruct Hk as [Hk1 Hk2]. apply H; [apply in_map_iff; exists (k', v); auto|]. rewrite <- mem_str_in. destruct (mem_str k' keys); [discriminate | congruence].
Qed.
Lemma sub_nodes_exact n1 n2 n keys id : clean_node n1 keys -> forall k s g,
  sub_nodes interp g n1 n2 n keys (id + Z.of_nat s) (seq (S s) k) =
    (with_nodes g (nheap g ++ map (mid_node n1 n2 n keys id) (seq (S s) k)) (gNodes g ++ seq (List.length (nheap g)) k), Ok (seq (List.length (nheap g)) k)).
Proof.
  intros C. induction k as [|k IH]; intros s g; cbn [sub_nodes seq].
  - cbn. rewrite !app_nil_r. destruct g; reflexivity.
  - rewrite sub_data_clean by exact C. replace (id + Z.of_nat s + 1)%Z with (id + Z.of_nat (S s))%Z by lia.
    match goal with |- context [add_node g ?x] => change x with (mid_node n1 n2 n keys id (S s)) end.
    rewrite (IH (S s) (add_node g (mid_node n1 n2 n keys id (S s)))). cbn. rewrite app_length, <- !app_assoc. cbn. rewrite Nat.add_comm. cbn. reflexivity.
Qed.

Fixpoint new_elems (g : graph) (e : elem) (id : Z) (ends : list (nat * nat)) : list elem :=
  match ends with
  | [] => []
  | (a, b) :: ends' => mk_elem (id + 1) [nID (node_at g a); nID (node_at g b)] [] (epropset e) (epropIDs e) (edata e) None :: new_elems g e (id + 1) ends'
  end.
Lemma new_elems_length g e ends : forall id, List.length (new_elems g e id ends) = List.length ends.
Proof. induction ends as [|[a b] ends IH]; intro id; cbn; auto. Qed.
Lemma new_elems_ids g e ends : forall id, map eID (new_elems g e id ends) = map (fun j => id + 1 + Z.of_nat j)%Z (seq 0 (List.length ends)).
Proof.
  induction ends as [|[a b] ends IH]; intro id; cbn; [reflexivity|]. f_equal; [lia|]. rewrite IH, <- seq_shift, map_map. apply map_ext. intro j. lia.
Qed.
Lemma new_elems_nth g e ends : forall id i a b, nth_error ends i = Some (a, b) ->
  nth_error (new_elems g e id ends) i = Some (mk_elem (id + 1 + Z.of_nat i) [nID (node_at g a); nID (node_at g b)] [] (epropset e) (epropIDs e) (edata e) None).
Proof.
  induction ends as [|[a0 b0] ends IH]; intros id i a b H; [destruct i; discriminate|]. destruct i as [|i]; cbn in *; [injection H as <- <-; f_equal; f_equal; lia|].
  rewrite (IH (id + 1)%Z i a b H). f_equal. f_equal. lia.
Qed.
Lemma new_elems_nodes g g' e ends id : nheap g' = nheap g -> new_elems g' e id ends = new_elems g e id ends.
Proof. intro H. revert id. induction ends as [|[a b] ends IH]; intro id; cbn; [reflexivity|]. rewrite IH, !(node_at_eq g g' _ H). reflexivity. Qed.
(** The element can be divided in more than one: same properties at both ends, no clash of names *)
Definition divisible (e : elem) : Prop := shared_props e = Ok (epropset e, epropIDs e) /\ epropset e <> None /\ clean_elem (edata e).
Lemma sub_elems_exact ea e ends : forall g id, (ends = [] \/ divisible e) -> ea < List.length (eheap g) -> elem_at g ea = e ->
  sub_elems g ea id ends = (with_elems g (eheap g ++ new_elems g e id ends) (gElements g), Ok (seq (List.length (eheap g)) (List.length ends))).
Proof.
  induction ends as [|[a b] ends IH]; intros g id D L E; cbn [sub_elems].
  - cbn. rewrite app_nil_r. destruct g; reflexivity.
  - destruct D as [D|D]; [discriminate|]. pose proof D as [D1 [D2 D3]]. rewrite E, D1.
    rewrite (clash_false (edata e) elem_reserved) by (intros k Hk C; apply (D3 k Hk); apply in_or_app; left; exact C).
    rewrite (clash_false (edata e) [S_ "nodes"; S_ "properties"]) by (intros k Hk C; apply (D3 k Hk); apply in_or_app; right; exact C).
    unfold new_elem. cbn [epropIDs epropset]. destruct (epropset e) as [ps|] eqn:P; [|congruence].
    set (x := mk_elem (id + 1) _ [] (Some ps) (epropIDs e) (edata e) None).
    set (g1 := with_elems g (eheap g ++ [x]) (gElements g)).
    assert (N : (match epropIDs e with Some _ => Ok (g1, List.length (eheap g)) | None => Ok (g1, List.length (eheap g)) end) = Ok (g1, List.length (eheap g))) by (destruct (epropIDs e); reflexivity).
    rewrite N, (IH g1 (id + 1)%Z).
    + cbn. rewrite app_length, <- app_assoc. cbn. rewrite Nat.add_comm. cbn. rewrite P, (new_elems_nodes g g1) by reflexivity. reflexivity.
    + right. exact D.
    + cbn. rewrite app_length. cbn. lia.
    + rewrite <- E. apply alloc_elem_at. exact L.
Qed.

(** *** One element *)
Definition path (n1 n2 : node) (mid : list node) : list node := n1 :: mid ++ [n2].
(** The pieces: [c] are the elements of the chain, as objects of [g2] *)
Definition piece (n : Z) (keys : list str) (g2 : graph) (e : elem) (n1 n2 : node) (c : list nat) (mid : list node) : Prop :=
  Z.of_nat (List.length mid) = (n - 1)%Z /\ Z.of_nat (List.length c) = n /\
  (forall i p, nth_error mid i = Some p -> lies_between interp keys n1 n2 (Z.of_nat i + 1) n p) /\
  (forall i p q, nth_error (path n1 n2 mid) i = Some p -> nth_error (path n1 n2 mid) (S i) = Some q ->
     exists b, nth_error c i = Some b /\ enodeIDs (elem_at g2 b) = [nID p; nID q] /\
       epropset (elem_at g2 b) = epropset e /\ epropIDs (elem_at g2 b) = epropIDs e /\ edata (elem_at g2 b) = edata e /\ (i = 0 -> eID (elem_at g2 b) = eID e)).
Lemma piece_later n keys g1 g2 e n1 n2 c mid : piece n keys g1 e n1 n2 c mid -> (forall b, In b c -> elem_at g2 b = elem_at g1 b) -> piece n keys g2 e n1 n2 c mid.
Proof.
  intros [H1 [H2 [H3 H4]]] S. split; [exact H1|]. split; [exact H2|]. split; [exact H3|]. intros i p q Hp Hq. destruct (H4 i p q Hp Hq) as [b [B1 B2]]. exists b. split; [exact B1|].
  rewrite (S b); [exact B2|]. eapply nth_error_In. exact B1.
Qed.
Lemma get_map_filter (d : @dict V) (P : str -> bool) (f : str -> V -> V) k :
  get (map (fun x => (fst x, f (fst x) (snd x))) (filter (fun x => P (fst x)) d)) k = if P k then option_map (f k) (get d k) else None.
Proof.
  unfold get. induction d as [|[k0 v0] d IH]; cbn; [destruct (P k); reflexivity|].
  destruct (P k0) eqn:P0; cbn; destruct (str_eqb k0 k) eqn:E.
  - apply str_eqb_eq in E. subst. rewrite P0. reflexivity.
  - exact IH.
  - apply str_eqb_eq in E. subst. rewrite P0 in *. exact IH.
  - exact IH.
Qed.
Lemma mid_lies_between n1 n2 n keys id i : lies_between interp keys n1 n2 (Z.of_nat i) n (mid_node n1 n2 n keys id i).
Proof.
  unfold mid_node. set (f := (inject_Z (Z.of_nat i) / inject_Z n)%Q). unfold lies_between. cbn [nx ny nz ndata]. fold f.
  split; [ring|]. split; [ring|]. split; [ring|]. intro k. unfold sub_data. rewrite (get_map_filter (ndata n1) (fun k => negb (mem_str k keys)) (sub_value interp n2 f)).
  split; [intro H; apply mem_str_in in H; rewrite H; reflexivity|]. split; [intro H; rewrite H; destruct (negb _); reflexivity|].
  intros v Hk Hv. rewrite Hv. destruct (mem_str k keys) eqn:M; [apply mem_str_in in M; contradiction|]. cbn. unfold sub_value. split.
  - intros w u Hw Hu. rewrite Hw, Hu. reflexivity.
  - intros [Hw|[w [Hw Hu]]]; rewrite Hw; [reflexivity|]. rewrite Hu. reflexivity.
Qed.
Lemma nth_error_combine {A B} (l : list A) (l' : list B) i a b : nth_error l i = Some a -> nth_error l' i = Some b -> nth_error (combine l l') i = Some (a, b).
Proof. revert l' i. induction l as [|x l IH]; intros [|y l'] [|i] H1 H2; cbn in *; try discriminate; [congruence | apply IH; assumption]. Qed.
Lemma map_node_at_seq g h : nheap g = h -> forall pre suf, h = pre ++ suf -> map (node_at g) (seq (List.length pre) (List.length suf)) = suf.
Proof.
  intros <- pre suf E. unfold node_at. rewrite E. apply list_ext; [rewrite map_length, seq_length; reflexivity|]. intros i Hi. rewrite map_length, seq_length in Hi.
  rewrite nth_error_map. rewrite (nth_error_nth' _ 0) by (rewrite seq_length; exact Hi). rewrite seq_nth by exact Hi. cbn. rewrite app_nth2_plus.
  symmetry. apply nth_error_nth'. exact Hi.
Qed.

Lemma new_ids_fresh g m n1 n2 n keys k : max_id (ids g) = Ok m -> NoDup (ids g) -> NoDup (ids g ++ map nID (map (mid_node n1 n2 n keys m) (seq 1 k))).
Proof.
  intros M N. pose proof (max_id_ge _ _ M) as G. rewrite map_map. cbn [nID mid_node].
  assert (D : NoDup (map (fun i => m + Z.of_nat i)%Z (seq 1 k))).
  { apply FinFun.Injective_map_NoDup; [intros x y E; lia | apply seq_NoDup]. }
  assert (J : forall x, In x (map (fun i => m + Z.of_nat i)%Z (seq 1 k)) -> (m < x)%Z).
  { intros x H. apply in_map_iff in H. destruct H as [i [<- H]]. apply in_seq in H. lia. }
  revert N G. generalize (ids g). intro l. induction l as [|y l IH]; intros N G; [exact D|]. cbn. inversion N as [|? ? N1 N2]; subst. constructor.
  - intro C. apply in_app_or in C. destruct C as [C|C]; [contradiction|]. specialize (J y C). specialize (G y (or_introl eq_refl)). lia.
  - apply IH; [exact N2 | intros x Hx; apply G; right; exact Hx].
Qed.
Lemma ids_nodes g : ids g = map nID (nodes_of g).
Proof. unfold ids, nodes_of. rewrite map_map. reflexivity. Qed.
Lemma nodes_of_app g g' nn : Forall (fun a => a < List.length (nheap g)) (gNodes g) -> nheap g' = nheap g ++ nn -> gNodes g' = gNodes g ++ seq (List.length (nheap g)) (List.length nn) -> nodes_of g' = nodes_of g ++ nn.
Proof.
  intros B H1 H2. unfold nodes_of. rewrite H2, map_app. f_equal; [|apply (map_node_at_seq g' _ H1 _ _ eq_refl)].
  apply map_ext_in. intros a Ha. unfold node_at. rewrite H1. apply app_nth1. rewrite Forall_forall in B. apply B. exact Ha.
Qed.

(** A two-node element [a] of the graph divided in [n] *)
Lemma divide_element_exact g a a1 a2 n m keys : Inv g -> NoDup (ids g) -> NoDup (map (fun a => eID (elem_at g a)) (gElements g)) ->
  modes g = 0 -> motions g = 0 -> In a (gElements g) -> enodes (elem_at g a) = [a1; a2] -> (1 <= n)%Z ->
  clean_node (node_at g a1) keys -> (n = 1%Z \/ divisible (elem_at g a)) ->
  exists g1 new mid, divide_element interp g (eID (elem_at g a)) n m keys = (g1, Ok new) /\
    piece n keys g1 (elem_at g a) (node_at g a1) (node_at g a2) (a :: new) mid /\
    nheap g1 = nheap g ++ mid /\ gNodes g1 = gNodes g ++ seq (List.length (nheap g)) (List.length mid) /\ NoDup (ids g1) /\
    new = seq (List.length (eheap g)) (List.length new) /\ List.length (eheap g1) = List.length (eheap g) + List.length new /\
    map (fun b => eID (elem_at g1 b)) new = map (fun j => m + 1 + Z.of_nat j)%Z (seq 0 (List.length new)) /\
    (forall b, b < List.length (eheap g) -> b <> a -> elem_at g1 b = elem_at g b) /\
    gElements g1 = gElements g /\ propsets g1 = propsets g /\ modes g1 = 0 /\ motions g1 = 0 /\ eID (elem_at g1 a) = eID (elem_at g a).
Proof.
  intros I N NE M1 M2 Ha E2 Hn C D. unfold divide_element. rewrite M1, M2. cbn [Nat.ltb Nat.leb].
  pose proof I as [B1 B2]. rewrite Forall_forall in B2. destruct (B2 a Ha) as [La Lk]. unfold linked in Lk. rewrite E2 in Lk.
  inversion Lk as [|id1 ? ids1 ? [X1 X1'] Y1]; subst. inversion Y1 as [|id2 ? ids2 ? [X2 X2'] Y2]; subst. inversion Y2; subst.
  destruct (max_id_some (fun a => nID (node_at g a)) (gNodes g)) as [mx MX]; [intro Z0; rewrite Z0 in X1; contradiction|]. rewrite MX.
  rewrite (get_elem_unique g a NE Ha), E2. unfold range1. set (k := Z.to_nat n - 1).
  pose proof (sub_nodes_exact (node_at g a1) (node_at g a2) n keys mx C k 0 g) as SN. rewrite Z.add_0_r in SN. rewrite SN. clear SN.
  set (mid := map (mid_node (node_at g a1) (node_at g a2) n keys mx) (seq 1 k)).
  set (L := List.length (nheap g)). set (g1 := with_nodes g (nheap g ++ mid) (gNodes g ++ seq L k)).
  set (subs := a1 :: seq L k ++ [a2]).
  assert (Lmid : List.length mid = k) by (unfold mid; rewrite map_length, seq_length; reflexivity).
  assert (G1 : grows g g1) by (split; eexists; reflexivity).
  rewrite Forall_forall in B1.
  assert (SP : map (node_at g1) subs = path (node_at g a1) (node_at g a2) mid).
  { unfold subs, path. cbn [map]. rewrite map_app. cbn [map]. rewrite !(grows_node g g1 _ G1) by (apply B1; assumption). do 2 f_equal.
    rewrite <- Lmid. apply (map_node_at_seq g1 _ eq_refl). reflexivity. }
  set (e := elem_at g a) in *. set (e1 := mk_elem (eID e) (map (fun b => nID (node_at g1 b)) (firstn 2 subs)) (firstn 2 subs) (epropset e) (epropIDs e) (edata e) (enodeProps e)).
  set (g2 := set_elem g1 a e1). set (ends := tl (combine subs (tl subs))).
  assert (Lends : List.length ends = k).
  { unfold ends, subs. cbn [tl]. destruct (seq L k ++ [a2]) as [|y ys] eqn:Ey; [destruct (seq L k); discriminate|]. change (tl (combine (a1 :: y :: ys) (y :: ys))) with (combine (y :: ys) ys). rewrite combine_length.
    assert (List.length (y :: ys) = S k) by (rewrite <- Ey, app_length, seq_length; cbn; lia). cbn [List.length] in *. lia. }
  assert (Lh2 : List.length (eheap g2) = List.length (eheap g)) by (cbn; rewrite set_nth_length; reflexivity).
  assert (Ea2 : elem_at g2 a = e1) by (apply elem_at_set_same; exact La).
  rewrite (sub_elems_exact a e1 ends g2 m).
  2:{ destruct D as [->|D]; [left; apply length_zero_iff_nil; rewrite Lends; reflexivity | right; exact D]. }
  2:{ rewrite Lh2. exact La. }
  2:{ exact Ea2. }
  set (g3 := with_elems g2 (eheap g2 ++ new_elems g2 e1 m ends) (gElements g2)).
  exists g3, (seq (List.length (eheap g2)) (List.length ends)), mid. rewrite seq_length, Lends, Lh2.
  assert (O : forall b, b < List.length (eheap g) -> elem_at g3 b = elem_at g2 b) by (intros b Hb; unfold elem_at; cbn; apply app_nth1; rewrite set_nth_length; exact Hb).
  assert (NW : forall i, i < k -> elem_at g3 (List.length (eheap g) + i) = nth i (new_elems g2 e1 m ends) null_elem).
  { intros i Hi. unfold elem_at. change (eheap g3) with (eheap g2 ++ new_elems g2 e1 m ends). rewrite <- Lh2. apply app_nth2_plus. }
  split; [reflexivity|]. split; [|split; [reflexivity|]; split; [rewrite Lmid; reflexivity|]; split].
  - (* the chain *)
    split; [rewrite Lmid; unfold k; lia|]. split; [cbn [List.length]; rewrite seq_length; unfold k; lia|]. split.
    + intros i p Hp. unfold mid in Hp. assert (Hi : i < k) by (rewrite <- Lmid; apply nth_error_Some; unfold mid; rewrite Hp; discriminate).
      rewrite nth_error_map in Hp. rewrite (nth_error_nth' _ 0) in Hp by (rewrite seq_length; exact Hi). rewrite seq_nth in Hp by exact Hi. cbn [option_map] in Hp. injection Hp as <-.
      replace (Z.of_nat i + 1)%Z with (Z.of_nat (1 + i)) by lia. apply mid_lies_between.
    + intros i p q Hp Hq. rewrite <- SP in Hp, Hq. rewrite nth_error_map in Hp, Hq.
      destruct (nth_error subs i) as [b1|] eqn:S1; [|discriminate]. destruct (nth_error subs (S i)) as [b2|] eqn:S2; [|discriminate]. cbn in Hp, Hq. injection Hp as <-. injection Hq as <-.
      destruct i as [|i].
      * exists a. split; [reflexivity|]. rewrite (O a La), Ea2. cbn [enodeIDs epropset epropIDs edata eID e1].
        split; [|repeat split]. unfold subs in *. cbn [nth_error] in S1. injection S1 as <-. cbn [firstn map]. f_equal.
        cbn [nth_error] in S2. destruct (seq L k ++ [a2]); [discriminate|]. cbn in S2. injection S2 as ->. reflexivity.
      * assert (K : nth_error ends i = Some (b1, b2)).
        { unfold ends. rewrite <- (nth_error_skipn 1 (combine subs (tl subs)) i) || idtac. assert (X : nth_error (combine subs (tl subs)) (S i) = Some (b1, b2)).
          { apply nth_error_combine; [exact S1|]. unfold subs in *. cbn [tl]. cbn [nth_error] in S2. exact S2. }
          destruct (combine subs (tl subs)); [discriminate | exact X]. }
        assert (Hi : i < k) by (rewrite <- Lends; apply nth_error_Some; rewrite K; discriminate).
        exists (List.length (eheap g) + i). split; [cbn [nth_error]; rewrite (nth_error_nth' _ 0) by (rewrite seq_length; exact Hi); rewrite seq_nth by exact Hi; reflexivity|].
        rewrite (NW i Hi). rewrite (nth_error_nth _ _ _ (new_elems_nth g2 e1 ends m i b1 b2 K)). cbn [enodeIDs epropset epropIDs edata eID e1]. repeat split. discriminate.
  - (* unique node IDs *)
    rewrite ids_nodes. rewrite (nodes_of_app g g3 mid); [|apply Forall_forall; exact B1 | reflexivity | rewrite Lmid; reflexivity].
    rewrite map_app, <- ids_nodes. apply new_ids_fresh; [exact MX | exact N].
  - split; [reflexivity|]. split; [cbn; rewrite app_length, set_nth_length, new_elems_length, Lends; reflexivity|]. split.
    + transitivity (map eID (new_elems g2 e1 m ends)); [|rewrite new_elems_ids, Lends; reflexivity].
      apply list_ext; [rewrite !map_length, seq_length, new_elems_length; auto|]. intros i Hi. rewrite map_length, seq_length in Hi.
      rewrite !nth_error_map. rewrite (nth_error_nth' _ 0) by (rewrite seq_length; exact Hi). rewrite seq_nth by exact Hi. cbn [option_map]. rewrite (NW i Hi).
      rewrite (nth_error_nth' _ null_elem) by (rewrite new_elems_length, Lends; exact Hi). reflexivity.
    + split; [|split; [reflexivity|]; split; [reflexivity|]; split; [exact M1|]; split; [exact M2|]; rewrite (O a La), Ea2; reflexivity].
      intros b Hb Nb. rewrite (O b Hb). unfold g2. rewrite elem_at_set_other by exact Nb. reflexivity.
Qed.

(** *** All elements *)
(** What the loop needs of one element: the exclusion key is there, and the element can be divided if it has to *)
Definition ready (g : graph) (n : Z) (xk : str) (xl : list V) (keys : list str) (a : nat) : Prop :=
  exists sel, selected veqb g a xk xl = Ok sel /\
    (sel = true -> forall a1 a2, enodes (elem_at g a) = [a1; a2] -> clean_node (node_at g a1) keys /\ (n = 1%Z \/ divisible (elem_at g a))).
Definition chosen (g : graph) (xk : str) (xl : list V) (a : nat) : Prop := selected veqb g a xk xl = Ok true /\ List.length (enodes (elem_at g a)) = 2.
Definition outcome (g g2 : graph) (n : Z) (xk : str) (xl : list V) (keys : list str) (a : nat) (r : list nat * list node) : Prop :=
  hd_error (fst r) = Some a /\ eID (elem_at g2 a) = eID (elem_at g a) /\
  ((chosen g xk xl a /\ exists a1 a2, enodes (elem_at g a) = [a1; a2] /\ piece n keys g2 (elem_at g a) (node_at g a1) (node_at g a2) (fst r) (snd r)) \/
   (~ chosen g xk xl a /\ fst r = [a] /\ snd r = [] /\ elem_at g2 a = elem_at g a)).
Definition new_nodes (rs : list (list nat * list node)) : list node := concat (map snd rs).
Definition new_objs (rs : list (list nat * list node)) : list nat := concat (map (fun r => tl (fst r)) rs).

Lemma divide_element_other g a n m keys : Inv g -> NoDup (map (fun a => eID (elem_at g a)) (gElements g)) -> modes g = 0 -> motions g = 0 -> In a (gElements g) -> gNodes g <> [] ->
  List.length (enodes (elem_at g a)) <> 2 -> divide_element interp g (eID (elem_at g a)) n m keys = (g, Ok []).
Proof.
  intros I N M1 M2 Ha H0 H. unfold divide_element. rewrite M1, M2. cbn [Nat.ltb Nat.leb]. destruct (max_id_some (fun a => nID (node_at g a)) _ H0) as [mx ->]. rewrite (get_elem_unique g a N Ha).
  destruct (enodes (elem_at g a)) as [|x [|y [|z l]]]; try reflexivity. cbn in H. lia.
Qed.
Lemma seq_app_at s a b k : a = s + k -> seq s k ++ seq a b = seq s (k + b).
Proof. intros ->. rewrite seq_app. reflexivity. Qed.
Lemma shift_ids m k k' : map (fun j => m + Z.of_nat k + 1 + Z.of_nat j)%Z (seq 0 k') = map (fun j => m + 1 + Z.of_nat j)%Z (seq (0 + k) k').
Proof.
  apply list_ext; [rewrite !map_length, !seq_length; reflexivity|]. intros i Hi. rewrite map_length, seq_length in Hi.
  rewrite !nth_error_map, !(nth_error_nth' _ 0) by (rewrite seq_length; exact Hi). rewrite !seq_nth by exact Hi. cbn [option_map]. f_equal. lia.
Qed.
Lemma tl_hd {A} (l : list A) a : hd_error l = Some a -> l = a :: tl l.
Proof. destruct l; [discriminate|]. cbn. congruence. Qed.
Lemma ready_later g g1 n xk xl keys a : grows g g1 -> Inv g -> In a (gElements g) -> elem_at g1 a = elem_at g a -> ready g n xk xl keys a -> ready g1 n xk xl keys a.
Proof.
  intros G I Ha E [sel [R1 R2]]. exists sel. unfold selected in *. rewrite E. split; [exact R1|]. intros S a1 a2 E2. destruct (R2 S a1 a2 E2) as [K1 K2]. split; [|exact K2].
  rewrite (grows_node g g1 a1 G); [exact K1|]. destruct I as [I1 I2]. rewrite Forall_forall in I1, I2. apply I1. destruct (I2 a Ha) as [_ L]. unfold linked in L. rewrite E2 in L.
  inversion L as [|? ? ? ? [X _] _]; subst. exact X.
Qed.
Lemma linked_in g a b : Inv g -> In a (gElements g) -> In b (enodes (elem_at g a)) -> b < List.length (nheap g) /\ In b (gNodes g).
Proof.
  intros [I1 I2] Ha Hb. rewrite Forall_forall in I1, I2. destruct (I2 a Ha) as [_ L]. unfold linked in L.
  assert (K : In b (gNodes g)); [|split; [apply I1; exact K | exact K]]. induction L as [|? ? ? ? [X _] _ IH]; [contradiction|]. destruct Hb as [<-|Hb]; [exact X | apply IH; exact Hb].
Qed.

Lemma divide_loop_exact n xk xl ins keys : (1 <= n)%Z -> forall todo g m, Inv g -> NoDup (ids g) -> NoDup (map (fun a => eID (elem_at g a)) (gElements g)) ->
  modes g = 0 -> motions g = 0 -> gNodes g <> [] -> incl todo (gElements g) -> NoDup todo -> Forall (ready g n xk xl keys) todo ->
  exists g2 rs, divide_loop interp veqb g todo n m xk xl ins keys = (g2, Ok (concat (map (fun r => if ins : bool then fst r else tl (fst r)) rs))) /\
    Forall2 (outcome g g2 n xk xl keys) todo rs /\
    nheap g2 = nheap g ++ new_nodes rs /\ gNodes g2 = gNodes g ++ seq (List.length (nheap g)) (List.length (new_nodes rs)) /\ NoDup (ids g2) /\
    new_objs rs = seq (List.length (eheap g)) (List.length (new_objs rs)) /\ List.length (eheap g2) = List.length (eheap g) + List.length (new_objs rs) /\
    map (fun b => eID (elem_at g2 b)) (new_objs rs) = map (fun j => m + 1 + Z.of_nat j)%Z (seq 0 (List.length (new_objs rs))) /\
    (forall b, b < List.length (eheap g) -> ~ In b todo -> elem_at g2 b = elem_at g b) /\
    gElements g2 = gElements g /\ propsets g2 = propsets g /\ modes g2 = 0 /\ motions g2 = 0 /\ Inv g2.
Proof.
  intros Hn. induction todo as [|a todo IH]; intros g m I N NE M1 M2 H0 J D R.
  - exists g, []. cbn. rewrite !app_nil_r. split; [reflexivity|]. split; [constructor|]. split; [reflexivity|]. split; [reflexivity|]. split; [exact N|]. split; [reflexivity|]. split; [lia|]. split; [reflexivity|]. split; [auto|]. split; [reflexivity|]. split; [reflexivity|]. split; [exact M1|]. split; [exact M2 | exact I].
  - inversion D as [|? ? Da D']; subst. inversion R as [|? ? Ra R']; subst. assert (Ha : In a (gElements g)) by (apply J; left; reflexivity).
    destruct Ra as [sel [SE RD]]. cbn [divide_loop]. rewrite (get_elem_unique g a NE Ha), SE. cbn [bind].
    (* the division of this element *)
    assert (K : exists g1 r, (if sel then divide_element interp g (eID (elem_at g a)) n m keys else (g, Ok [])) = (g1, Ok (tl (fst r))) /\
      outcome g g1 n xk xl keys a r /\ nheap g1 = nheap g ++ snd r /\ gNodes g1 = gNodes g ++ seq (List.length (nheap g)) (List.length (snd r)) /\ NoDup (ids g1) /\
      tl (fst r) = seq (List.length (eheap g)) (List.length (tl (fst r))) /\ List.length (eheap g1) = List.length (eheap g) + List.length (tl (fst r)) /\
      map (fun b => eID (elem_at g1 b)) (tl (fst r)) = map (fun j => m + 1 + Z.of_nat j)%Z (seq 0 (List.length (tl (fst r)))) /\
      (forall b, b < List.length (eheap g) -> b <> a -> elem_at g1 b = elem_at g b) /\
      gElements g1 = gElements g /\ propsets g1 = propsets g /\ modes g1 = 0 /\ motions g1 = 0 /\ Inv g1).
    { assert (T : ~ chosen g xk xl a -> exists g1 r, (g, Ok []) = (g1, Ok (tl (fst r))) /\
        outcome g g1 n xk xl keys a r /\ nheap g1 = nheap g ++ snd r /\ gNodes g1 = gNodes g ++ seq (List.length (nheap g)) (List.length (snd r)) /\ NoDup (ids g1) /\
        tl (fst r) = seq (List.length (eheap g)) (List.length (tl (fst r))) /\ List.length (eheap g1) = List.length (eheap g) + List.length (tl (fst r)) /\
        map (fun b => eID (elem_at g1 b)) (tl (fst r)) = map (fun j => m + 1 + Z.of_nat j)%Z (seq 0 (List.length (tl (fst r)))) /\
        (forall b, b < List.length (eheap g) -> b <> a -> elem_at g1 b = elem_at g b) /\
        gElements g1 = gElements g /\ propsets g1 = propsets g /\ modes g1 = 0 /\ motions g1 = 0 /\ Inv g1).
      { intro NC. exists g, ([a], []). cbn. rewrite !app_nil_r. split; [reflexivity|]. split; [split; [reflexivity|]; split; [reflexivity|]; right; repeat split; exact NC|].
        split; [reflexivity|]. split; [reflexivity|]. split; [exact N|]. split; [reflexivity|]. split; [lia|]. split; [reflexivity|]. split; [auto|]. split; [reflexivity|]. split; [reflexivity|]. split; [exact M1|]. split; [exact M2 | exact I]. }
      destruct sel; [|apply T; intros [C _]; congruence].
      destruct (Nat.eq_dec (List.length (enodes (elem_at g a))) 2) as [L2|L2].
      2:{ rewrite (divide_element_other g a n m keys I NE M1 M2 Ha H0 L2). apply T. intros [_ C]. contradiction. }
      clear T. destruct (enodes (elem_at g a)) as [|a1 [|a2 [|a3 l]]] eqn:E2; try discriminate L2. destruct (RD eq_refl a1 a2 eq_refl) as [C1 C2].
      destruct (divide_element_exact g a a1 a2 n m keys I N NE M1 M2 Ha E2 Hn C1 C2) as [g1 [new [mid [P1 [P2 [P3 [P4 [P5 [P6 [P7 [P8 [P9 [P10 [P11 [P12 [P13 P14]]]]]]]]]]]]]]]].
      exists g1, (a :: new, mid). cbn [fst snd tl]. split; [exact P1|]. split; [|repeat (split; [assumption|]); apply (divide_element_inv interp _ _ _ _ _ _ _ P1 I)].
      split; [reflexivity|]. split; [exact P14|]. left. split; [split; [exact SE | rewrite E2; reflexivity]|]. exists a1, a2. split; [exact E2 | exact P2]. }
    destruct K as [g1 [r [K1 [K2 [K3 [K4 [K5 [K6 [K7 [K8 [K9 [K10 [K11 [K12 [K13 I1]]]]]]]]]]]]]]]. rewrite K1. clear K1.
    assert (G1 : grows g g1) by (split; eexists; eassumption).
    assert (bound : forall b, In b (gElements g) -> b < List.length (eheap g)) by (intros b Hb; destruct I as [_ I2]; rewrite Forall_forall in I2; apply (I2 b Hb)).
    assert (EI : forall b, In b (gElements g) -> eID (elem_at g1 b) = eID (elem_at g b)).
    { intros b Hb. destruct (Nat.eq_dec b a) as [->|Nb]; [apply K2 | rewrite (K9 b (bound b Hb) Nb); reflexivity]. }
    assert (same : forall b, In b todo -> elem_at g1 b = elem_at g b).
    { intros b Hb. apply K9; [apply bound; apply J; right; exact Hb | intros ->; contradiction]. }
    destruct (IH g1 (m + Z.of_nat (List.length (tl (fst r))))%Z) as [g2 [rs [Q1 [Q2 [Q3 [Q4 [Q5 [Q6 [Q7 [Q8 [Q9 [Q10 [Q11 [Q12 [Q13 Q14]]]]]]]]]]]]]]].
    + exact I1.
    + exact K5.
    + rewrite K10. erewrite map_ext_in; [exact NE|]. intros b Hb. apply EI. exact Hb.
    + exact K12.
    + exact K13.
    + rewrite K4. destruct (gNodes g); [congruence | discriminate].
    + rewrite K10. intros b Hb. apply J. right. exact Hb.
    + exact D'.
    + apply Forall_forall. intros b Hb. rewrite Forall_forall in R'. apply (ready_later g g1); [exact G1 | exact I | apply J; right; exact Hb | apply same; exact Hb | apply R'; exact Hb].
    + rewrite Q1. exists g2, (r :: rs). cbn [map concat bind]. unfold new_nodes, new_objs in *. cbn [map concat].
      pose proof K2 as [KH _]. split; [destruct ins; cbn [app]; [|reflexivity]; do 3 f_equal; rewrite (tl_hd _ _ KH) at 2; reflexivity|].
      split; [|split; [rewrite Q3, K3, app_assoc; reflexivity|]; split; [|split; [exact Q5|]; split; [|split; [|split; [|split]]]]].
      * constructor.
        -- destruct K2 as [O1 [O2 O3]].
           assert (later : forall b, In b (fst r) -> elem_at g2 b = elem_at g1 b).
           { intros b Hb. apply Q9.
             - rewrite K7. rewrite (tl_hd _ _ KH) in Hb. destruct Hb as [<-|Hb]; [specialize (bound a Ha); lia|]. rewrite K6 in Hb. apply in_seq in Hb. lia.
             - intro C. rewrite (tl_hd _ _ KH) in Hb. destruct Hb as [<-|Hb]; [contradiction|]. rewrite K6 in Hb. apply in_seq in Hb. specialize (bound b (J b (or_intror C))). lia. }
           assert (la : elem_at g2 a = elem_at g1 a) by (apply later; rewrite (tl_hd _ _ KH); left; reflexivity).
           split; [exact O1|]. split; [rewrite la; exact O2|]. destruct O3 as [[O3 [a1 [a2 [O4 O5]]]]|[O3 [O4 [O5 O6]]]].
           ++ left. split; [exact O3|]. exists a1, a2. split; [exact O4|]. apply (piece_later n keys g1 g2); [exact O5 | exact later].
           ++ right. rewrite la. auto.
        -- eapply F2_imp; [|exact Q2]. intros b rb Hb _ [O1 [O2 O3]]. pose proof (same b Hb) as Sb. split; [exact O1|]. split; [rewrite O2, Sb; reflexivity|].
           assert (CH : chosen g1 xk xl b <-> chosen g xk xl b) by (unfold chosen, selected; rewrite Sb; reflexivity).
           rewrite CH, Sb in O3. destruct O3 as [[O3 [a1 [a2 [O4 O5]]]]|O3]; [left|right; exact O3]. split; [exact O3|]. exists a1, a2. split; [exact O4|].
           assert (Hbg : In b (gElements g)) by (apply J; right; exact Hb).
           rewrite !(grows_node g g1 _ G1) in O5 by (apply (linked_in g b); [exact I | exact Hbg | rewrite O4; cbn; auto]). exact O5.
      * rewrite Q4, K4, <- app_assoc, app_length. f_equal. apply seq_app_at. rewrite K3, app_length. reflexivity.
      * rewrite app_length. rewrite <- (seq_app_at _ (List.length (eheap g) + List.length (tl (fst r)))) by reflexivity. rewrite <- K6. f_equal. rewrite <- K7. exact Q6.
      * rewrite app_length. lia.
      * rewrite map_app, app_length, seq_app, map_app. f_equal.
        -- rewrite <- K8. apply map_ext_in. intros b Hb. rewrite Q9; [reflexivity | rewrite K6 in Hb; apply in_seq in Hb; lia|]. intro C. rewrite K6 in Hb. apply in_seq in Hb. specialize (bound b (J b (or_intror C))). lia.
        -- rewrite Q8. apply shift_ids.
      * intros b Hb Nb. rewrite Q9; [apply K9; [exact Hb | intros ->; apply Nb; left; reflexivity] | lia | intro C; apply Nb; right; exact C].
      * split; [rewrite Q10; exact K10|]. split; [rewrite Q11; exact K11|]. split; [exact Q12|]. split; [exact Q13 | exact Q14].
Qed.

(** *** Adding the pieces *)
Definition known (g : graph) (e : elem) : Prop := match epropIDs e with None => True | Some (_, l) => exists ps, get_props g (epropset e) l = Ok ps end.
Definition alike (e e' : elem) : Prop := eID e' = eID e /\ enodeIDs e' = enodeIDs e /\ epropset e' = epropset e /\ epropIDs e' = epropIDs e /\ edata e' = edata e.
Lemma alike_trans e1 e2 e3 : alike e1 e2 -> alike e2 e3 -> alike e1 e3.
Proof. unfold alike. intuition congruence. Qed.
Lemma get_node_exists g id : In id (ids g) -> exists a, get_node g id = Ok a.
Proof.
  intro H. unfold get_node. destruct (find _ _) eqn:E; [eexists; reflexivity|]. unfold ids in H. apply in_map_iff in H. destruct H as [a [<- Ha]].
  pose proof (find_none _ _ E a Ha) as X. cbn in X. rewrite Z.eqb_refl in X. discriminate.
Qed.
Lemma mapR_get_node_exists g l : incl l (ids g) -> exists ns, mapR (get_node g) l = Ok ns.
Proof.
  induction l as [|id l IH]; intro H; [eexists; reflexivity|]. destruct (get_node_exists g id (H id (or_introl eq_refl))) as [a Ea]. destruct IH as [ns En]; [intros x Hx; apply H; right; exact Hx|].
  exists (a :: ns). cbn. rewrite Ea. cbn. rewrite En. reflexivity.
Qed.
Lemma add_element_at_fine g a : a < List.length (eheap g) -> incl (enodeIDs (elem_at g a)) (ids g) -> known g (elem_at g a) -> exists g', add_element_at g a = (g', Ok tt).
Proof.
  intros L H K. unfold add_element_at. destruct (mapR_get_node_exists g _ H) as [ns ->]. unfold known in K. destruct (epropIDs (elem_at g a)) as [[b l]|]; [|eexists; reflexivity].
  destruct K as [ps K]. match goal with |- context [get_props ?g1 _ _] => change (get_props g1 (epropset (elem_at g a)) l) with (get_props g (epropset (elem_at g a)) l) end. rewrite K. eexists. reflexivity.
Qed.
Lemma add_all_fine l : forall g, Forall (fun a => a < List.length (eheap g) /\ incl (enodeIDs (elem_at g a)) (ids g) /\ known g (elem_at g a)) l ->
  exists g', add_all g l = (g', Ok tt) /\ nheap g' = nheap g /\ gNodes g' = gNodes g /\ propsets g' = propsets g /\ modes g' = modes g /\ motions g' = motions g /\
    gElements g' = gElements g ++ l /\ forall b, alike (elem_at g b) (elem_at g' b).
Proof.
  induction l as [|a l IH]; intros g F; [exists g; cbn; rewrite app_nil_r; repeat split|]. inversion F as [|? ? [F1 [F2 F3]] F4]; subst.
  destruct (add_element_at_fine g a F1 F2 F3) as [g1 E]. destruct (add_element_at_ok g a g1 E F1) as [ns [ps [_ [H2 [H3 [H4 [H5 [H6 [H7 [H8 [_ [H9 H10]]]]]]]]]]]].
  assert (A : forall b, alike (elem_at g b) (elem_at g1 b)).
  { intro b. destruct (Nat.eq_dec b a) as [->|N]; [rewrite H9 | rewrite (H10 b N)]; repeat split. }
  destruct (IH g1) as [g' [R1 [R2 [R3 [R4 [R5 [R6 [R7 R8]]]]]]]].
  - eapply Forall_impl; [|exact F4]. cbn beta. intros b [B1 [B2 B3]]. destruct (A b) as [_ [A2 [A3 [A4 _]]]]. split; [rewrite H5; exact B1|]. split; [rewrite A2, (ids_eq g g1 H2 H3); exact B2|].
    unfold known in *. rewrite A3, A4. destruct (epropIDs (elem_at g b)) as [[? il]|]; [|exact I]. unfold get_props, get_prop in *. rewrite H6. exact B3.
  - exists g'. cbn [add_all]. rewrite E. split; [exact R1|]. split; [congruence|]. split; [congruence|]. split; [congruence|]. split; [congruence|]. split; [congruence|].
    split; [rewrite R7, H4, <- app_assoc; reflexivity|]. intro b. eapply alike_trans; [apply A | apply R8].
Qed.

(** The nodes of an element are those with its node IDs *)
Lemma linked_ends g e ps : NoDup (ids g) -> linked g e -> enodeIDs e = map nID ps -> incl ps (nodes_of g) -> map (node_at g) (enodes e) = ps.
Proof.
  intros N L E J. unfold linked in L. rewrite E in L. clear E. revert L. generalize (enodes e). intros ns L. revert ps J L. induction ns as [|b ns IH]; intros [|p ps] J L; inversion L as [|? ? ? ? [X1 X2] Y]; subst; [reflexivity|].
  cbn. f_equal; [|apply IH; [intros x Hx; apply J; right; exact Hx | exact Y]].
  assert (Hp : In p (nodes_of g)) by (apply J; left; reflexivity). unfold nodes_of in Hp. apply in_map_iff in Hp. destruct Hp as [b' [<- Hb']].
  f_equal. apply (in_at g b b' N X1 Hb'). exact X2.
Qed.
Lemma view_alike g g' b e : elem_at g b = e -> alike e (elem_at g' b) -> map (node_at g') (enodes (elem_at g' b)) = map (node_at g) (enodes e) -> view g' b = view g b.
Proof. intros <- [A1 [A2 [A3 [A4 A5]]]] E. unfold view. rewrite A1, A2, A3, A4, A5, E. reflexivity. Qed.
End Divide.
