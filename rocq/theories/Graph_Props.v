(** Properties C36, C37, C61 and C62 (graphs). *)
From Verif Require Import Py PyFacts Dict ListFacts Graph_Model Graph_Spec Graph_Proofs Graph_Conn Graph_Divide.
From Coq Require Import QArith Permutation Sorted Lia.
Local Open Scope nat_scope.
Local Notation get := Dict.get.

Section Props.
Context {V : Type}.
Variable interp : V -> V -> Q -> option V.
Variable veqb : V -> V -> bool.
Variable argsort : list Q -> list nat.
Notation node := (@node V). Notation graph := (@graph V). Notation elem := (@elem V). Notation eview := (@eview V).
Implicit Types (g : graph).
Notation run := (run interp veqb argsort).

Lemma spec_is_argsort : argsort_spec argsort -> is_argsort argsort.
Proof. intros H vs. apply H. Qed.
Lemma reach_inv cs g : argsort_spec argsort -> run empty_graph cs = Ok g -> Inv g.
Proof. intros S H. apply (run_inv interp veqb argsort cs (spec_is_argsort S) _ _ H). apply empty_inv. Qed.
Lemma reach_cache cs g : argsort_spec argsort -> run empty_graph cs = Ok g -> NoDup (map nID (nodes_of g)) -> Cache g.
Proof. intros S H N. apply (run_cache interp veqb argsort cs (spec_is_argsort S) _ _ H); [apply empty_inv | apply empty_cache | rewrite ids_nodes; exact N]. Qed.

(** ** C36 *)
(** Keys of node data copied to the new nodes, and of element data copied to the new elements, that would clash with
    the parameters of the constructors *)
Definition plain_keys (keys : list str) (e : eview) : Prop :=
  (forall first last k, vends e = [first; last] -> In k (map fst (ndata first)) -> ~ In k keys -> ~ In k [S_ "self"; S_ "ID"; S_ "x"; S_ "y"; S_ "z"]) /\
  (forall k, In k (map fst (vdata e)) -> ~ In k [S_ "self"; S_ "ID"; S_ "nodeIDs"; S_ "propset"; S_ "propIDs"; S_ "nodes"; S_ "properties"]).

Lemma view_known g a : props_known g (view g a) -> known g (elem_at g a).
Proof.
  unfold props_known, known, view. cbn. destruct (epropIDs (elem_at g a)) as [[b l]|]; [|trivial]. intros [s [ps [H1 [H2 H3]]]]. rewrite H1.
  assert (G : forall l, (forall i, In i l -> In i (map pID ps)) -> exists qs, get_props g (Some s) l = Ok qs); [|apply G; exact H3]. clear -H2.
  induction l as [|i l IH]; intro H; [eexists; reflexivity|]. destruct IH as [qs IH]; [intros x Hx; apply H; right; exact Hx|]. unfold get_props in *. cbn.
  assert (E : exists p, get_prop g s i = Ok p).
  { unfold get_prop. rewrite H2. destruct (find _ ps) eqn:F; [eexists; reflexivity|]. exfalso. specialize (H i (or_introl eq_refl)). apply in_map_iff in H. destruct H as [p [<- Hp]].
    pose proof (find_none _ _ F p Hp) as X. cbn in X. rewrite Z.eqb_refl in X. discriminate. }
  destruct E as [p ->]. cbn. rewrite IH. eexists. reflexivity.
Qed.
Lemma view_divisible g keys a : same_props (view g a) -> props_known g (view g a) -> plain_keys keys (view g a) -> divisible (elem_at g a).
Proof.
  intros [x [l [H1 H2]]] K [_ P]. cbn in *. unfold props_known in K. cbn in K. rewrite H1 in K. destruct K as [s [ps [K _]]].
  split; [|split; [congruence|]].
  - unfold shared_props. rewrite H1. assert (F : forallb (fun y => Z.eqb y x) (x :: l) = true); [|rewrite F; reflexivity]. apply forallb_forall. intros y [<-|Hy]; [apply Z.eqb_refl|]. rewrite (H2 y Hy). apply Z.eqb_refl.
  - intros k Hk. exact (P k Hk).
Qed.
Lemma chosen_iff g xk xl a : chosen veqb g xk xl a <-> to_divide veqb xk xl (view g a).
Proof.
  unfold chosen, to_divide, two_nodes, selected. cbn. rewrite map_length. split.
  - intros [H1 H2]. split; [exact H2|]. destruct xk as [|c xk]; [left; reflexivity|]. right. destruct (get (edata (elem_at g a)) (c :: xk)) as [v|]; [|discriminate]. exists v. split; [reflexivity|].
    injection H1 as H1. destruct (existsb (veqb v) xl); [discriminate | reflexivity].
  - intros [H1 H2]. split; [|exact H1]. destruct H2 as [->|[v [H2 H3]]]; [reflexivity|]. destruct xk as [|c xk]; [reflexivity|]. rewrite H2, H3. reflexivity.
Qed.

Theorem C36_divide : forall cs g n xkey xlist method keys, argsort_spec argsort -> run empty_graph cs = Ok g ->
  NoDup (map nID (nodes_of g)) -> NoDup (map vID (elements_of g)) -> nodes_of g <> [] -> elements_of g <> [] -> modes g = 0 -> motions g = 0 ->
  (1 <= n)%Z -> method = S_ "append" \/ method = S_ "insert" ->
  Forall (props_known g) (elements_of g) ->
  (xkey = [] \/ Forall (fun e => get (vdata e) xkey <> None) (elements_of g)) ->
  Forall (fun e => to_divide veqb xkey xlist e -> plain_keys keys e /\ (n = 1%Z \/ same_props e)) (elements_of g) ->
  exists g' rs, divide_elements interp veqb g n xkey xlist method keys = (g', Ok tt) /\
    Forall2 (replaced_by interp (to_divide veqb xkey xlist) n keys) (elements_of g) rs /\
    nodes_of g' = nodes_of g ++ concat (map snd rs) /\
    (method = S_ "insert" -> elements_of g' = concat (map fst rs)) /\
    (method = S_ "append" -> elements_of g' = concat (map (fun r => firstn 1 (fst r)) rs) ++ concat (map (fun r => skipn 1 (fst r)) rs)) /\
    NoDup (map nID (nodes_of g')) /\ NoDup (map vID (elements_of g')) /\ propsets g' = propsets g.
Proof.
  intros cs g n xk xl method keys S R N NE H0 HE M1 M2 Hn Hm PK XK RD.
  pose proof (reach_inv cs g S R) as I. rewrite <- ids_nodes in N.
  assert (NE' : NoDup (map (fun a => eID (elem_at g a)) (gElements g))) by (unfold elements_of in NE; rewrite map_map in NE; exact NE).
  assert (H0' : gNodes g <> []) by (intro E; apply H0; unfold nodes_of; rewrite E; reflexivity).
  assert (HE' : gElements g <> []) by (intro E; apply HE; unfold elements_of; rewrite E; reflexivity).
  assert (NG : NoDup (gElements g)) by (apply (NoDup_map_inv (fun a => eID (elem_at g a))); exact NE').
  unfold elements_of in PK, XK, RD. rewrite Forall_map in PK, RD.
  assert (RY : Forall (ready veqb g n xk xl keys) (gElements g)).
  { apply Forall_forall. intros a Ha. rewrite Forall_forall in PK, RD. specialize (PK a Ha). specialize (RD a Ha).
    assert (E : exists sel, selected veqb g a xk xl = Ok sel).
    { unfold selected. destruct xk as [|c xk]; [eexists; reflexivity|]. destruct XK as [XK|XK]; [discriminate|]. rewrite Forall_map, Forall_forall in XK. specialize (XK a Ha). cbn in XK.
      destruct (get (edata (elem_at g a)) (c :: xk)); [eexists; reflexivity | congruence]. }
    destruct E as [sel E]. exists sel. split; [exact E|]. intros -> a1 a2 E2.
    destruct RD as [P1 P2]; [apply chosen_iff; split; [exact E | rewrite E2; reflexivity]|]. split.
    - destruct P1 as [P1 _]. intros k Hk1 Hk2. apply (P1 (node_at g a1) (node_at g a2) k); [cbn; rewrite E2; reflexivity | exact Hk1 | exact Hk2].
    - destruct P2 as [P2|P2]; [left; exact P2 | right; apply (view_divisible g keys a P2 PK P1)]. }
  unfold divide_elements. destruct (max_id_some (fun a => nID (node_at g a)) _ H0') as [mx ->]. destruct (max_id_some (fun a => eID (elem_at g a)) _ HE') as [me ME]. rewrite ME.
  replace (Z.leb n 0) with false by (symmetry; apply Z.leb_gt; lia).
  set (ins := str_eqb method (S_ "insert")).
  assert (IA : method = S_ "append" -> ins = false) by (unfold ins; intros ->; reflexivity).
  assert (II : method = S_ "insert" -> ins = true) by (unfold ins; intros ->; reflexivity). clearbody ins.
  destruct (divide_loop_exact interp veqb n xk xl ins keys Hn (gElements g) g me I N NE' M1 M2 H0' (incl_refl _) NG RY) as
    [g1 [rs [Q1 [Q2 [Q3 [Q4 [Q5 [Q6 [Q7 [Q8 [Q9 [Q10 [Q11 [Q12 [Q13 Q14]]]]]]]]]]]]]]].
  rewrite Q1. clear Q1. pose proof I as [IB IE]. rewrite Forall_forall in IE.
  assert (G1 : grows g g1) by (split; eexists; eassumption).
  assert (ND : nodes_of g1 = nodes_of g ++ new_nodes rs) by (apply nodes_of_app; assumption).
  (* the objects of the chains *)
  set (objs := concat (map fst rs)).
  assert (OB : forall b, In b objs -> b < List.length (eheap g1) /\ incl (enodeIDs (elem_at g1 b)) (ids g1) /\ known g1 (elem_at g1 b)).
  { intros b Hb. unfold objs in Hb. apply in_concat in Hb. destruct Hb as [c [Hc Hb]]. apply in_map_iff in Hc. destruct Hc as [r [<- Hr]].
    destruct (Forall2_in_r _ _ _ _ Q2 Hr) as [a [Ha [O1 [O2 O3]]]].
    assert (Lb : b < List.length (eheap g1)).
    { rewrite (tl_hd _ _ O1) in Hb. destruct Hb as [<-|Hb]; [specialize (IE a Ha); lia|]. assert (X : In b (new_objs rs)) by (unfold new_objs; apply in_concat; exists (tl (fst r)); split; [apply in_map_iff; exists r; auto | exact Hb]).
      rewrite Q6 in X. apply in_seq in X. lia. }
    split; [exact Lb|]. rewrite Forall_forall in PK. specialize (PK a Ha). apply view_known in PK.
    assert (PK1 : forall e', epropset e' = epropset (elem_at g a) -> epropIDs e' = epropIDs (elem_at g a) -> known g1 e').
    { intros e' E1 E2. unfold known in *. rewrite E1, E2. destruct (epropIDs (elem_at g a)) as [[? il]|]; [|exact Logic.I]. unfold get_props, get_prop in *. rewrite Q11. exact PK. }
    destruct O3 as [[O3 [a1 [a2 [O4 O5]]]]|[O3 [O4 [O5 O6]]]].
    - destruct O5 as [P1 [P2 [P3 P4]]]. apply In_nth_error in Hb. destruct Hb as [i Hi].
      assert (Li : i < List.length (fst r)) by (apply nth_error_Some; rewrite Hi; discriminate).
      assert (LP : List.length (path (node_at g a1) (node_at g a2) (snd r)) = Datatypes.S (List.length (fst r))) by (unfold path; cbn; rewrite app_length; cbn; lia).
      destruct (nth_error (path (node_at g a1) (node_at g a2) (snd r)) i) as [p|] eqn:E1; [|apply nth_error_None in E1; lia].
      destruct (nth_error (path (node_at g a1) (node_at g a2) (snd r)) (Datatypes.S i)) as [q|] eqn:E2; [|apply nth_error_None in E2; lia].
      destruct (P4 i p q E1 E2) as [b' [B1 [B2 [B3 [B4 _]]]]]. assert (b' = b) by congruence. subst b'. split; [|apply PK1; assumption].
      assert (PI : forall x, In x (path (node_at g a1) (node_at g a2) (snd r)) -> In (nID x) (ids g1)).
      { intros x Hx. rewrite ids_nodes, ND. apply in_map. apply in_or_app. unfold path in Hx. 
        assert (X : forall y, In y [a1; a2] -> In (node_at g y) (nodes_of g)) by (intros y Hy; unfold nodes_of; apply in_map; apply (linked_in g a y I Ha); rewrite O4; exact Hy).
        destruct Hx as [<-|Hx]; [left; apply X; cbn; auto|]. apply in_app_or in Hx. destruct Hx as [Hx|[<-|[]]]; [right | left; apply X; cbn; auto].
        unfold new_nodes. apply in_concat. exists (snd r). split; [apply in_map; exact Hr | exact Hx]. }
      rewrite B2. intros x [<-|[<-|[]]]; apply PI; eapply nth_error_In; eassumption.
    - rewrite O4 in Hb. destruct Hb as [<-|[]]. rewrite O6. split; [|apply PK1; reflexivity].
      destruct (IE a Ha) as [_ Lk]. intros x Hx. unfold linked in Lk. clear -Lk Hx G1 IB.
      assert (In x (ids g)). { revert Lk Hx. generalize (enodes (elem_at g a)). induction (enodeIDs (elem_at g a)) as [|y l IH]; intros ns Lk Hx; [contradiction|]. inversion Lk as [|? b ? ? [X1 X2] Y]; subst.
        destruct Hx as [<-|Hx]; [unfold ids; apply in_map_iff; exists b; auto | apply (IH _ Y Hx)]. }
      unfold ids in *. apply in_map_iff in H. destruct H as [b [<- Hb]]. apply in_map_iff. exists b. split; [|apply (grows_in g g1 b G1 Hb)]. f_equal. apply (grows_node g g1 b G1). rewrite Forall_forall in IB. apply IB. exact Hb. }
  (* both methods give a graph with the same nodes whose elements are these objects *)
  assert (FIN : forall g3 els, nheap g3 = nheap g1 -> gNodes g3 = gNodes g1 -> propsets g3 = propsets g1 -> gElements g3 = els -> Inv g3 -> incl els objs -> incl objs els ->
     (forall b, alike (elem_at g1 b) (elem_at g3 b)) ->
     NoDup (map vID (elements_of (conn_changed g3))) ->
     Forall2 (replaced_by interp (to_divide veqb xk xl) n keys) (elements_of g) (map (fun r => (map (view g3) (fst r), snd r)) rs) /\
     nodes_of (conn_changed g3) = nodes_of g ++ concat (map snd (map (fun r => (map (view g3) (fst r), snd r)) rs)) /\ NoDup (map nID (nodes_of (conn_changed g3)))).
  { intros g3 els E1 E2 E3 E4 I3 J1 J2 AL _. 
    assert (IDS : ids g3 = ids g1) by (apply ids_eq; assumption).
    assert (ND3 : nodes_of g3 = nodes_of g1) by (unfold nodes_of; rewrite E2; apply map_ext; intro b; apply node_at_eq; exact E1).
    assert (N3 : NoDup (ids g3)) by (rewrite IDS; exact Q5).
    split; [|split; [change (nodes_of (conn_changed g3)) with (nodes_of g3); rewrite ND3, ND; unfold new_nodes; rewrite map_map; reflexivity | change (nodes_of (conn_changed g3)) with (nodes_of g3); rewrite <- ids_nodes; exact N3]].
    unfold elements_of. apply Forall2_map_both. eapply F2_imp; [|exact Q2]. intros a r Ha Hr [O1 [O2 O3]]. unfold replaced_by. cbn [fst snd].
    assert (LK : forall b, In b (fst r) -> linked g3 (elem_at g3 b)).
    { intros b Hb. destruct I3 as [_ I3]. rewrite Forall_forall in I3. apply I3. rewrite E4. apply J2. unfold objs. apply in_concat. exists (fst r). split; [apply in_map; exact Hr | exact Hb]. }
    destruct O3 as [[O3 [a1 [a2 [O4 [P1 [P2 [P3 P4]]]]]]]|[O3 [O4 [O5 O6]]]].
    - left. split; [apply chosen_iff; exact O3|]. exists (node_at g a1), (node_at g a2). split; [cbn; rewrite O4; reflexivity|]. split; [exact P1|]. split; [rewrite map_length; exact P2|]. split; [exact P3|].
      intros i p q Hp Hq. destruct (P4 i p q Hp Hq) as [b [B1 [B2 [B3 [B4 [B5 B6]]]]]]. exists (view g3 b). split; [rewrite nth_error_map, B1; reflexivity|].
      destruct (AL b) as [A1 [A2 [A3 [A4 A5]]]]. cbn. rewrite A1, A2, A3, A4, A5. split; [|split; [exact B2|]; split; [exact B3|]; split; [exact B4|]; split; [exact B5 | exact B6]].
      assert (Hb : In b (fst r)) by (eapply nth_error_In; exact B1).
      apply linked_ends; [exact N3 | apply LK; exact Hb | rewrite A2, B2; reflexivity|].
      assert (PI : incl (path (node_at g a1) (node_at g a2) (snd r)) (nodes_of g3)).
      { rewrite ND3, ND. intros x Hx. apply in_or_app. unfold path in Hx.
        assert (X : forall y, In y [a1; a2] -> In (node_at g y) (nodes_of g)) by (intros y Hy; unfold nodes_of; apply in_map; apply (linked_in g a y I Ha); rewrite O4; exact Hy).
        destruct Hx as [<-|Hx]; [left; apply X; cbn; auto|]. apply in_app_or in Hx. destruct Hx as [Hx|[<-|[]]]; [right | left; apply X; cbn; auto].
        unfold new_nodes. apply in_concat. exists (snd r). split; [apply in_map; exact Hr | exact Hx]. }
      intros x [<-|[<-|[]]]; apply PI; eapply nth_error_In; eassumption.
    - right. split; [intro C; apply O3; apply chosen_iff; exact C|]. split; [|exact O5]. rewrite O4. cbn [map]. f_equal.
      assert (AL' : alike (elem_at g a) (elem_at g3 a)) by (rewrite <- O6; apply AL).
      apply (view_alike g g3 a (elem_at g a) eq_refl AL').
      apply linked_ends; [exact N3 | apply LK; rewrite O4; left; reflexivity | |].
      + destruct AL' as [_ [-> _]]. destruct (IE a Ha) as [_ Lk]. unfold linked in Lk. clear -Lk. revert Lk. generalize (enodes (elem_at g a)). induction (enodeIDs (elem_at g a)) as [|y l IH]; intros ns Lk; inversion Lk as [|? b ? ? [X1 X2] Y]; subst; [reflexivity|]. cbn. f_equal. apply IH. exact Y.
      + rewrite ND3, ND. intros x Hx. apply in_or_app. left. apply in_map_iff in Hx. destruct Hx as [b [<- Hb]]. unfold nodes_of. apply in_map. apply (linked_in g a b I Ha Hb). }
  (* element IDs *)
  assert (HDS : map (fun r => nth 0 (fst r) 0) rs = gElements g).
  { clear -Q2. induction Q2 as [|a r l rs [O1 _] F IH]; [reflexivity|]. cbn. f_equal; [|exact IH]. destruct (fst r); [discriminate|]. cbn in *. congruence. }
  assert (OLD : map (fun b => eID (elem_at g1 b)) (gElements g) = map (fun b => eID (elem_at g b)) (gElements g)).
  { clear -Q2. revert Q2. assert (X : forall l (rs : list (list nat * list node)), Forall2 (outcome interp veqb g g1 n xk xl keys) l rs -> map (fun b => eID (elem_at g1 b)) l = map (fun b => eID (elem_at g b)) l); [|apply X].
    induction 1 as [|a r l rs' [_ [O2 _]] F IH]; [reflexivity|]. cbn. rewrite O2, IH. reflexivity. }
  assert (NEW : NoDup (map (fun b => eID (elem_at g1 b)) (gElements g ++ new_objs rs))).
  { rewrite map_app, OLD, Q8. pose proof (max_id_ge _ _ ME) as MG. revert NE' MG. generalize (map (fun b => eID (elem_at g b)) (gElements g)). intros l NL MG.
    induction l as [|y l IH]; [cbn; apply FinFun.Injective_map_NoDup; [intros u v E; lia | apply seq_NoDup]|]. inversion NL as [|? ? NL1 NL2]; subst. cbn. constructor.
    - intro C. apply in_app_or in C. destruct C as [C|C]; [contradiction|]. apply in_map_iff in C. destruct C as [j [C _]]. specialize (MG y (or_introl eq_refl)). lia.
    - apply IH; [exact NL2 | intros x Hx; apply MG; right; exact Hx]. }
  assert (PERM : Permutation (gElements g ++ new_objs rs) objs).
  { rewrite <- HDS. unfold new_objs, objs. clear -Q2. induction Q2 as [|a r l rs [O1 _] F IH]; [reflexivity|]. cbn [map concat]. rewrite (tl_hd _ _ O1). cbn [nth tl app]. constructor.
    rewrite <- IH. rewrite !app_assoc. apply Permutation_app_tail. apply Permutation_app_comm. }
  assert (SPLIT : forall g3 : graph, concat (map (fun r => firstn 1 (fst r)) (map (fun r => (map (view g3) (fst r), snd r)) rs)) = map (view g3) (gElements g) /\
                             concat (map (fun r => skipn 1 (fst r)) (map (fun r => (map (view g3) (fst r), snd r)) rs)) = map (view g3) (new_objs rs) /\
                             concat (map fst (map (fun r => (map (view g3) (fst r), snd r)) rs)) = map (view g3) objs).
  { intro g3. unfold new_objs, objs. rewrite !map_map. cbn [fst]. rewrite !concat_map, !map_map. split; [|split; [f_equal; apply map_ext; intro r; destruct (fst r); reflexivity | reflexivity]].
    rewrite <- HDS. rewrite map_map. clear -Q2. induction Q2 as [|a r l rs [O1 _] F IH]; [reflexivity|]. cbn [map concat]. rewrite IH. rewrite (tl_hd _ _ O1). reflexivity. }
  assert (KEY : forall g2 els, nheap g2 = nheap g1 -> gNodes g2 = gNodes g1 -> propsets g2 = propsets g1 -> eheap g2 = eheap g1 -> Inv g2 -> incl els objs -> incl objs (gElements g2 ++ els) -> incl (gElements g2) objs ->
     NoDup (map (fun b => eID (elem_at g1 b)) (gElements g2 ++ els)) ->
     exists g3, add_all g2 els = (g3, Ok tt) /\ 
       Forall2 (replaced_by interp (to_divide veqb xk xl) n keys) (elements_of g) (map (fun r => (map (view g3) (fst r), snd r)) rs) /\
       nodes_of (conn_changed g3) = nodes_of g ++ concat (map snd (map (fun r => (map (view g3) (fst r), snd r)) rs)) /\ NoDup (map nID (nodes_of (conn_changed g3))) /\
       NoDup (map vID (elements_of (conn_changed g3))) /\ propsets g3 = propsets g /\ elements_of (conn_changed g3) = map (view g3) (gElements g2 ++ els)).
  { intros g2 els E1 E2 E3 E4 I2 J1 J2 J3 NN.
    assert (EA : forall b, elem_at g2 b = elem_at g1 b) by (intro b; unfold elem_at; rewrite E4; reflexivity).
    destruct (add_all_fine els g2) as [g3 [A1 [A2 [A3 [A4 [A5 [A6 [A7 A8]]]]]]]].
    { apply Forall_forall. intros b Hb. destruct (OB b (J1 b Hb)) as [B1 [B2 B3]]. rewrite E4, EA, (ids_eq g1 g2 E1 E2). split; [exact B1|]. split; [exact B2|].
      unfold known in *. destruct (epropIDs (elem_at g1 b)) as [[? il]|]; [|exact Logic.I]. unfold get_props, get_prop in *. rewrite E3. exact B3. }
    assert (I3 : Inv g3).
    { apply (add_all_inv els g2 g3 A1 I2). rewrite E4. apply Forall_forall. intros b Hb. apply (OB b (J1 b Hb)). }
    assert (AL : forall b, alike (elem_at g1 b) (elem_at g3 b)) by (intro b; rewrite <- EA; apply A8).
    assert (EV : elements_of (conn_changed g3) = map (view g3) (gElements g2 ++ els)) by (unfold elements_of; cbn [gElements conn_changed with_caches]; rewrite A7; reflexivity).
    assert (NV : NoDup (map vID (elements_of (conn_changed g3)))).
    { rewrite EV, map_map. erewrite map_ext; [exact NN|]. intro b. cbn. apply AL. }
    exists g3. split; [exact A1|]. destruct (FIN g3 (gElements g2 ++ els)) as [F1 [F2 F3]]; try congruence; try assumption.
    { intros x Hx. apply in_app_or in Hx. destruct Hx as [Hx|Hx]; [apply J3 | apply J1]; exact Hx. }
    split; [exact F1|]. split; [exact F2|]. split; [exact F3|]. split; [exact NV|]. split; [congruence | exact EV]. }
  destruct Hm as [->| ->].
  - change (str_eqb (S_ "append") (S_ "append")) with true. rewrite (IA eq_refl). cbn iota.
    destruct (KEY g1 (new_objs rs)) as [g3 [K1 [K2 [K3 [K4 [K5 [K6 K7]]]]]]]; try reflexivity; try exact Q14.
    + intros x Hx. apply (Permutation_in _ PERM). apply in_or_app. right. exact Hx.
    + rewrite Q10. intros x Hx. apply (Permutation_in _ (Permutation_sym PERM)). exact Hx.
    + rewrite Q10. intros x Hx. apply (Permutation_in _ PERM). apply in_or_app. left. exact Hx.
    + rewrite Q10. exact NEW.
    + unfold new_objs in K1. rewrite K1. exists (conn_changed g3). eexists. split; [reflexivity|]. split; [exact K2|]. split; [exact K3|].
      split; [discriminate|]. split; [intros _; destruct (SPLIT g3) as [-> [-> _]]; rewrite K7, Q10, map_app; reflexivity|]. split; [exact K4|]. split; [exact K5 | exact K6].
  - change (str_eqb (S_ "insert") (S_ "append")) with false. rewrite (II eq_refl). cbn iota.
    destruct (KEY (with_elems g1 (eheap g1) []) objs) as [g3 [K1 [K2 [K3 [K4 [K5 [K6 K7]]]]]]]; try reflexivity.
    + destruct Q14 as [Q14 _]. split; [exact Q14 | constructor].
    + apply incl_refl.
    + cbn. apply incl_refl.
    + cbn. intros x [].
    + cbn [gElements with_elems app]. eapply Permutation_NoDup; [|exact NEW]. apply Permutation_map. exact PERM.
    + unfold objs in K1. change (map (fun r : list nat * list node => fst r) rs) with (map fst rs). rewrite K1. exists (conn_changed g3). eexists. split; [reflexivity|]. split; [exact K2|]. split; [exact K3|].
      split; [intros _; destruct (SPLIT g3) as [_ [_ ->]]; rewrite K7; reflexivity|]. split; [discriminate|]. split; [exact K4|]. split; [exact K5 | exact K6].
Qed.

(** An element without properties cannot be divided in two or more: the call raises, and leaves the nodes added and
    the element cut short at the first of them, with nothing linking it to its former second node. *)
Theorem C36_without_properties_refuted : forall cs g n method keys e es first last, argsort_spec argsort -> run empty_graph cs = Ok g ->
  NoDup (map nID (nodes_of g)) -> NoDup (map vID (elements_of g)) -> modes g = 0 -> motions g = 0 -> (2 <= n)%Z ->
  elements_of g = e :: es -> vends e = [first; last] -> vpropIDs e = None -> plain_keys keys e ->
  exists g' mid e', divide_elements interp veqb g n [] [] method keys = (g', Err UnboundLocalError) /\
    nodes_of g' = nodes_of g ++ mid /\ Z.of_nat (List.length mid) = (n - 1)%Z /\ (forall p, hd_error mid = Some p -> vends e' = [first; p]) /\ vID e' = vID e /\
    List.length (elements_of g') = List.length (elements_of g) /\ hd_error (elements_of g') = Some e'.
Proof.
  intros cs g n method keys e es first last S R N NE M1 M2 Hn EE E2 EP PKK.
  pose proof (reach_inv cs g S R) as I. rewrite <- ids_nodes in N. pose proof I as [IB IE].
  assert (NE' : NoDup (map (fun a => eID (elem_at g a)) (gElements g))) by (unfold elements_of in NE; rewrite map_map in NE; exact NE).
  unfold elements_of in EE. destruct (gElements g) as [|a els] eqn:GE; [discriminate|]. cbn [map] in EE. injection EE as Ee Ees.
  rewrite Forall_forall in IE. destruct (IE a (or_introl eq_refl)) as [La Lk]. rewrite <- Ee in E2, EP, PKK. cbn in E2, EP.
  destruct (enodes (elem_at g a)) as [|a1 [|a2 [|a3 l]]] eqn:EN; try discriminate E2. cbn in E2. injection E2 as F1 F2.
  unfold linked in Lk. rewrite EN in Lk. inversion Lk as [|? ? ? ? [X1 _] Y1]; subst. inversion Y1 as [|? ? ? ? [X2 _] _]; subst.
  assert (H0 : gNodes g <> []) by (intro Z0; rewrite Z0 in X1; contradiction).
  unfold divide_elements. rewrite GE. destruct (max_id_some (fun b => nID (node_at g b)) _ H0) as [mx MX]. rewrite MX. cbn [map max_id].
  replace (Z.leb n 0) with false by (symmetry; apply Z.leb_gt; lia). cbn [divide_loop]. set (id := eID (elem_at g a)).
  assert (GA : get_elem g id = Ok a) by (apply get_elem_unique; [rewrite GE; exact NE' | rewrite GE; left; reflexivity]).
  assert (CN : clean_node (node_at g a1) keys).
  { destruct PKK as [P1 _]. intros k Hk1 Hk2. apply (P1 (node_at g a1) (node_at g a2) k); [cbn; rewrite EN; reflexivity | exact Hk1 | exact Hk2]. }
  set (k := Z.to_nat n - 1). set (mid := map (mid_node interp (node_at g a1) (node_at g a2) n keys mx) (seq 1 k)).
  set (L := List.length (nheap g)). set (g1 := with_nodes g (nheap g ++ mid) (gNodes g ++ seq L k)).
  set (two := firstn 2 (a1 :: seq L k ++ [a2])).
  set (e1 := mk_elem id (map (fun b => nID (node_at g1 b)) two) two (epropset (elem_at g a)) (epropIDs (elem_at g a)) (edata (elem_at g a)) (enodeProps (elem_at g a))).
  set (g2 := set_elem g1 a e1).
  assert (DV : forall m, divide_element interp g id n m keys = (g2, Err UnboundLocalError)).
  { intro m. unfold divide_element. rewrite M1, M2. cbn [Nat.ltb Nat.leb]. rewrite MX, GA, EN. unfold range1. fold k.
    pose proof (sub_nodes_exact interp (node_at g a1) (node_at g a2) n keys mx CN k 0 g) as SN. rewrite Z.add_0_r in SN. rewrite SN. fold mid L g1 two. fold id e1 g2.
    assert (Hk : exists k', k = Datatypes.S k') by (exists (k - 1); unfold k; lia). destruct Hk as [k' Hk]. rewrite Hk. cbn [seq app combine tl].
    destruct (seq (Datatypes.S L) k' ++ [a2]) as [|y ys] eqn:Ey; [destruct (seq (Datatypes.S L) k'); discriminate|]. cbn [combine tl sub_elems].
    unfold g2 at 1. rewrite elem_at_set_same by exact La. unfold shared_props. cbn [epropIDs e1]. rewrite EP. reflexivity. }
  assert (Lmid : List.length mid = k) by (unfold mid; rewrite map_length, seq_length; reflexivity).
  exists g2, mid, (view g2 a). split.
  { assert (FR : exists front, (if str_eqb method (S_ "insert") then x <- get_elem g id ;; Ok [x] else Ok []) = Ok front) by (rewrite GA; destruct (str_eqb method (S_ "insert")); eexists; reflexivity).
    destruct FR as [front ->]. cbn [selected]. rewrite DV. reflexivity. }
  split; [apply nodes_of_app; [exact IB | reflexivity | rewrite Lmid; reflexivity]|]. split; [rewrite Lmid; unfold k; lia|].
  assert (Ea : elem_at g2 a = e1) by (apply elem_at_set_same; exact La).
  split.
  { intros p Hp. unfold view. cbn [vends]. rewrite Ea. cbn [enodes e1]. unfold two.
    assert (Hk : exists k', k = Datatypes.S k') by (exists (k - 1); unfold k; lia). destruct Hk as [k' Hk]. rewrite Hk. cbn [seq app firstn map]. f_equal.
    - unfold node_at. cbn. apply app_nth1. rewrite Forall_forall in IB. apply IB. exact X1.
    - f_equal. unfold node_at. cbn. rewrite app_nth2_plus with (n := 0) || (rewrite app_nth2 by (fold L; lia)). fold L. rewrite ?Nat.sub_diag. destruct mid; [discriminate|]. cbn in Hp. injection Hp as ->. reflexivity. }
  split; [unfold view; cbn [vID]; rewrite Ea; reflexivity|]. unfold elements_of. cbn [gElements g2 set_elem with_elems g1 with_nodes]. rewrite GE. split; [rewrite !map_length; reflexivity | reflexivity].
Qed.
(** Refused calls leave the graph as it was. *)
Theorem C36_refused : forall g n xkey xlist method keys, nodes_of g <> [] -> elements_of g <> [] ->
  ((n <= 0)%Z -> divide_elements interp veqb g n xkey xlist method keys = (g, Err PlainException)) /\
  ((0 < modes g \/ 0 < motions g) -> (1 <= n)%Z -> xkey = [] -> divide_elements interp veqb g n xkey xlist method keys = (g, Err PlainException)).
Proof.
  intros g n xk xl method keys H0 HE.
  assert (H0' : gNodes g <> []) by (intro E; apply H0; unfold nodes_of; rewrite E; reflexivity).
  assert (HE' : gElements g <> []) by (intro E; apply HE; unfold elements_of; rewrite E; reflexivity).
  unfold divide_elements. destruct (max_id_some (fun a => nID (node_at g a)) _ H0') as [mx ->]. destruct (max_id_some (fun a => eID (elem_at g a)) _ HE') as [me ->]. split.
  - intro Hn. apply Z.leb_le in Hn. rewrite Hn. reflexivity.
  - intros M Hn ->. replace (Z.leb n 0) with false by (symmetry; apply Z.leb_gt; lia). destruct (gElements g) as [|a els] eqn:GE; [congruence|]. cbn [divide_loop selected].
    assert (FR : exists x, get_elem g (eID (elem_at g a)) = Ok x) by (unfold get_elem; rewrite GE; cbn [find]; rewrite Z.eqb_refl; eexists; reflexivity). destruct FR as [x ->]. cbn [bind].
    assert (DV : forall m, divide_element interp g (eID (elem_at g a)) n m keys = (g, Err PlainException)).
    { intro m. unfold divide_element. destruct (Nat.ltb_spec 0 (modes g)); [reflexivity|]. destruct (Nat.ltb_spec 0 (motions g)); [reflexivity | lia]. }
    destruct (str_eqb method (S_ "insert")); rewrite DV; reflexivity.
Qed.

(** ** C37 *)
Lemma cache_positions g a idx : map (nth_error (gNodes g)) idx = map Some (enodes (elem_at g a)) -> positions (nodes_of g) (vends (view g a)) idx.
Proof.
  unfold positions, nodes_of, view. cbn. generalize (enodes (elem_at g a)). intros ns. revert ns. induction idx as [|i idx IH]; intros [|b ns] H; try discriminate; [reflexivity|]. cbn in *. injection H as H1 H2.
  f_equal; [|apply IH; exact H2]. rewrite nth_error_map, H1. reflexivity.
Qed.
Lemma asked g : Inv g -> Cache g -> exists g' c, connectivity g = (g', Ok c) /\ c_conn g' = c /\ nodes_of g' = nodes_of g /\ elements_of g' = elements_of g /\
  Forall2 (fun e idx => positions (nodes_of g) (vends e) idx) (firstn (List.length c) (elements_of g)) c /\
  (c_conn g = [] -> List.length c = List.length (elements_of g)) /\ (c_conn g <> [] -> c = c_conn g).
Proof.
  intros I C. destruct (connectivity_ok g I C) as [g' [c [E [E1 [I1 [[_ C2] [[S1 [S2 [S3 _]]] [L1 L2]]]]]]]]. cbn in S1, S2, S3. exists g', c. split; [exact E|]. split; [exact E1|].
  assert (EH : eheap g' = eheap g).
  { unfold connectivity in E. destruct (c_conn g); [destruct (mapR _ _); [|discriminate]|]; injection E as <- _; reflexivity. }
  assert (ND : nodes_of g' = nodes_of g) by (unfold nodes_of; rewrite S2; apply map_ext; intro b; apply node_at_eq; exact S1).
  assert (VW : forall b, view g' b = view g b) by (intro b; unfold view, elem_at; rewrite EH; f_equal; apply map_ext; intro x; apply node_at_eq; exact S1).
  assert (EL : elements_of g' = elements_of g) by (unfold elements_of; rewrite S3; apply map_ext; exact VW).
  split; [exact ND|]. split; [exact EL|]. split; [|split; [unfold elements_of; rewrite map_length; exact L1 | exact L2]].
  rewrite <- ND, <- EL. unfold elements_of. rewrite firstn_map. rewrite E1 in C2. rewrite <- (map_id c) at 2. apply Forall2_map_both. eapply F2_imp; [|exact C2]. intros a idx _ _ H. apply cache_positions. exact H.
Qed.
Theorem C37_connectivity_partial : forall cs g, argsort_spec argsort -> run empty_graph cs = Ok g -> NoDup (map nID (nodes_of g)) -> no_late_element false cs = true ->
  exists g' c, connectivity g = (g', Ok c) /\ connects g c /\ nodes_of g' = nodes_of g /\ elements_of g' = elements_of g.
Proof.
  intros cs g S R N L. pose proof (reach_inv cs g S R) as I. pose proof (reach_cache cs g S R N) as C. destruct (asked g I C) as [g' [c [E [E1 [ND [EL [F [L1 L2]]]]]]]].
  exists g', c. split; [exact E|]. split; [|auto]. unfold connects.
  destruct (run_complete interp veqb argsort cs (spec_is_argsort S) empty_graph g false R empty_inv empty_cache) as [Q|Q].
  - rewrite ids_nodes. exact N.
  - exact L.
  - left. reflexivity.
  - rewrite (L1 Q), firstn_all in F. exact F.
  - destruct (c_conn g) as [|r k] eqn:CC.
    + rewrite (L1 eq_refl), firstn_all in F. exact F.
    + assert (Ec : c = r :: k) by (apply L2; discriminate). rewrite Ec in F |- *. rewrite firstn_all2 in F by (rewrite Q; unfold elements_of; rewrite map_length; lia). exact F.
Qed.
(** In any history the answer is right for the elements it covers, which are the first ones. *)
Theorem C37_earlier_elements : forall cs g, argsort_spec argsort -> run empty_graph cs = Ok g -> NoDup (map nID (nodes_of g)) ->
  exists g' c, connectivity g = (g', Ok c) /\ Forall2 (fun e idx => positions (nodes_of g) (vends e) idx) (firstn (List.length c) (elements_of g)) c.
Proof.
  intros cs g S R N. destruct (asked g (reach_inv cs g S R) (reach_cache cs g S R N)) as [g' [c [E [_ [_ [_ [F _]]]]]]]. exists g', c. auto.
Qed.
(** An element added after connectivity was asked for is missing from every later answer. *)
Theorem C37_late_element_refuted : forall cs g e g1 g2, argsort_spec argsort -> run empty_graph cs = Ok g -> NoDup (map nID (nodes_of g)) -> elements_of g <> [] ->
  fst (connectivity g) = g1 -> add_element g1 e = (g2, Ok tt) ->
  exists c, connectivity g2 = (g2, Ok c) /\ ~ connects g2 c /\ List.length c < List.length (elements_of g2).
Proof.
  intros cs g e g1 g2 S R N HE E1 A. pose proof (reach_inv cs g S R) as I. pose proof (reach_cache cs g S R N) as C.
  destruct (connectivity_ok g I C) as [g1' [c [E [Ec [I1 [C1 [[_ [_ [S3 _]]] [L1 L2]]]]]]]]. rewrite E in E1. cbn in E1. subst g1'. cbn in S3.
  assert (Hc : c <> []).
  { destruct (c_conn g) as [|r k]; [|rewrite L2; discriminate]. intros ->. specialize (L1 eq_refl). cbn in L1. apply HE. unfold elements_of. destruct (gElements g); [reflexivity | discriminate]. }
  destruct (add_element_cache g1 e g2 A I1 C1) as [_ K]. rewrite Ec in K.
  assert (LE : List.length (gElements g2) = Datatypes.S (List.length (gElements g1))).
  { unfold add_element, new_elem in A.
    assert (G : add_element_at (with_elems g1 (eheap g1 ++ [e]) (gElements g1)) (List.length (eheap g1)) = (g2, Ok tt)) by (destruct (epropIDs e); [destruct (epropset e)|]; try discriminate; exact A).
    destruct (add_element_at_ok _ _ _ G) as [ns [ps [_ [_ [_ [H4 _]]]]]]; [cbn; rewrite app_length; cbn; lia|]. rewrite H4. cbn. rewrite app_length. cbn. lia. }
  destruct C1 as [C1 _]. rewrite Ec in C1.
  exists c. split; [unfold connectivity; rewrite K; destruct c; [congruence | reflexivity]|].
  assert (LT : List.length c < List.length (elements_of g2)) by (unfold elements_of; rewrite map_length; lia). split; [|exact LT].
  intro X. apply F2_len in X. lia.
Qed.

(** ** C61 *)
Lemma sort_values_key g key f : sort_key key = Some f -> sort_values g key = Ok (map f (nodes_of g)).
Proof.
  unfold sort_key, sort_values, nodes_of. rewrite map_map. repeat (destruct (str_eqb key _); [intro H; injection H as <-; reflexivity|]). discriminate.
Qed.
Theorem C61_sort : forall cs g key f, argsort_spec argsort -> run empty_graph cs = Ok g -> modes g = 0 -> motions g = 0 -> sort_key key = Some f ->
  exists g', sort_nodes argsort g key = (g', Ok tt) /\ Permutation (nodes_of g) (nodes_of g') /\ Sorted Qle (map f (nodes_of g')) /\
    elements_of g' = elements_of g /\ propsets g' = propsets g /\ modes g' = 0 /\ motions g' = 0 /\
    exists g2 c, connectivity g' = (g2, Ok c) /\ connects g' c.
Proof.
  intros cs g key f S R M1 M2 K. pose proof (reach_inv cs g S R) as I. unfold sort_nodes. rewrite M1, M2, (sort_values_key g key f K). cbn [Nat.ltb Nat.leb].
  set (vs := map f (nodes_of g)). destruct (S vs) as [P SO].
  assert (LV : List.length vs = List.length (gNodes g)) by (unfold vs, nodes_of; rewrite !map_length; reflexivity).
  assert (X : exists l, mapR (fun i => match nth_error (gNodes g) i with Some a => Ok a | None => Err IndexError end) (argsort vs) = Ok l).
  { assert (B : forall i, In i (argsort vs) -> i < List.length (gNodes g)) by (intros i Hi; apply (Permutation_in _ P) in Hi; apply in_seq in Hi; lia).
    revert B. generalize (argsort vs). induction l as [|i l IH]; intro B; [eexists; reflexivity|]. destruct IH as [l' IH]; [intros j Hj; apply B; right; exact Hj|].
    cbn. destruct (nth_error (gNodes g) i) as [a|] eqn:E; [cbn; rewrite IH; eexists; reflexivity|]. apply nth_error_None in E. specialize (B i (or_introl eq_refl)). lia. }
  destruct X as [l X]. rewrite X. pose proof (mapR_nth _ _ _ X) as Y.
  assert (PL : Permutation (gNodes g) l).
  { apply perm_some. rewrite <- Y, <- map_nth_error_seq. apply Permutation_map. symmetry. rewrite <- LV. exact P. }
  eexists. split; [reflexivity|]. split; [unfold nodes_of; cbn [gNodes nheap conn_changed with_caches with_nodes]; change (node_at (conn_changed (with_nodes g (nheap g) l))) with (node_at g); apply Permutation_map; exact PL|].
  split.
  { assert (E : map f (nodes_of (conn_changed (with_nodes g (nheap g) l))) = map (fun i => nth i vs 0%Q) (argsort vs)); [|rewrite E; exact SO].
    unfold nodes_of. cbn [gNodes conn_changed with_caches with_nodes]. change (node_at (conn_changed (with_nodes g (nheap g) l))) with (node_at g).
    unfold vs, nodes_of in *. clear -Y. revert Y. generalize (argsort (map f (map (node_at g) (gNodes g)))). intro idx. revert l. induction idx as [|i idx IH]; intros [|a l] Y; try discriminate; [reflexivity|].
    cbn in *. injection Y as Y1 Y2. f_equal; [|apply IH; exact Y2]. symmetry. apply nth_error_nth. rewrite !nth_error_map, Y1. reflexivity. }
  split; [reflexivity|]. split; [reflexivity|]. split; [exact M1|]. split; [exact M2|].
  set (g' := conn_changed (with_nodes g (nheap g) l)).
  assert (SR : sort_nodes argsort g key = (g', Ok tt)) by (unfold sort_nodes; rewrite M1, M2, (sort_values_key g key f K); cbn [Nat.ltb Nat.leb]; fold vs; rewrite X; reflexivity).
  destruct (sort_nodes_inv argsort g key g' (spec_is_argsort S) SR I) as [I' _]. destruct (asked g' I' (cache_nil g' eq_refl)) as [g2 [c [E [_ [_ [_ [F [L1 _]]]]]]]].
  exists g2, c. split; [exact E|]. unfold connects. rewrite (L1 eq_refl), firstn_all in F. exact F.
Qed.
Theorem C61_refused : forall g key,
  ((0 < modes g \/ 0 < motions g) -> sort_nodes argsort g key = (g, Err PlainException)) /\
  (modes g = 0 -> motions g = 0 -> nodes_of g <> [] -> @sort_key V key = None -> sort_nodes argsort g key = (g, Err TypeError)).
Proof.
  intros g key. unfold sort_nodes. split.
  - intros M. destruct (Nat.ltb_spec 0 (modes g)); [reflexivity|]. destruct (Nat.ltb_spec 0 (motions g)); [reflexivity | lia].
  - intros -> -> H0 K. cbn [Nat.ltb Nat.leb]. unfold sort_key in K. unfold sort_values. repeat (destruct (str_eqb key _); [discriminate|]). destruct (gNodes g) eqn:E; [|reflexivity].
    exfalso. apply H0. unfold nodes_of. rewrite E. reflexivity.
Qed.

(** ** C62 *)
Definition touches (n : node) (e : eview) : bool := existsb (Z.eqb (nID n)) (vnodeIDs e).
Lemma zput_new {A} (d : list (Z * A)) k v : ~ In k (map fst d) -> zput d k v = d ++ [(k, v)].
Proof.
  induction d as [|[k0 v0] d IH]; intro H; [reflexivity|]. cbn in *. destruct (Z.eqb_spec k0 k) as [->|N]; [exfalso; apply H; left; reflexivity|]. rewrite IH; [reflexivity|]. intro C. apply H. right. exact C.
Qed.
Lemma zdict_map {A B} (key : B -> Z) (val : B -> A) l : NoDup (map key l) -> zdict key val l = map (fun x => (key x, val x)) l.
Proof.
  unfold zdict. assert (G : forall l d, NoDup (map fst d ++ map key l) -> fold_left (fun d x => zput d (key x) (val x)) l d = d ++ map (fun x => (key x, val x)) l).
  { clear. induction l as [|x l IH]; intros d H; cbn; [symmetry; apply app_nil_r|]. cbn in H. rewrite zput_new.
    - rewrite IH, <- app_assoc; [reflexivity|]. rewrite map_app, <- app_assoc. exact H.
    - intro C. apply NoDup_remove_2 in H. apply H. apply in_or_app. left. exact C. }
  intro N. apply (G l []). exact N.
Qed.
Lemma filter_views g n : map (view g) (touching g (nID n)) = filter (touches n) (elements_of g).
Proof. unfold touching, elements_of, touches. induction (gElements g) as [|a l IH]; [reflexivity|]. cbn. destruct (existsb _ _); cbn; rewrite IH; reflexivity. Qed.
(** Right after nodes were sorted or elements divided, all three tables are right. *)
Theorem C62_after_change_partial : forall cs c g, argsort_spec argsort -> run empty_graph (cs ++ [c]) = Ok g -> resets c = true ->
  NoDup (map nID (nodes_of g)) -> NoDup (map vID (elements_of g)) ->
  (exists g' t, n2eid g = (g', Ok t) /\ table_of nID (fun n l => l = map vID (filter (touches n) (elements_of g))) (nodes_of g) t) /\
  (exists g' t, n2e g = (g', Ok t) /\ table_of nID (fun n l => map (view g) l = filter (touches n) (elements_of g)) (nodes_of g) t) /\
  (exists g' t, e2n g = (g', Ok t) /\ table_of vID (fun e l => l = map nID (vends e)) (elements_of g) t).
Proof.
  intros cs c g S R RC N NE.
  assert (C4 : c_n2eid g = Some [] /\ c_n2e g = [] /\ c_e2n g = []).
  { assert (X : exists g0, perform interp veqb argsort g0 c = (g, Ok tt)).
    { revert R. generalize (@empty_graph V). induction cs as [|c0 cs IH]; intros g0 R; cbn [app] in R; destruct (run_cons interp veqb argsort _ _ _ _ R) as [g1 [P1 R1]]; [cbn in R1; injection R1 as ->; exists g0; exact P1 | apply (IH g1 R1)]. }
    destruct X as [g0 X]. destruct c; try discriminate RC; cbn [perform] in X.
    - destruct (sort_nodes_ok argsort g0 key g (spec_is_argsort S) X) as [l [_ ->]]. auto.
    - unfold divide_elements in X. destruct (max_id _); [|discriminate]. destruct (max_id _); [|discriminate]. destruct (Z.leb _ _); [discriminate|]. destruct (divide_loop _ _ _ _ _ _ _ _ _ _) as [g1 [new|]]; [|discriminate].
      destruct (str_eqb method (S_ "append")); [|destruct (str_eqb method (S_ "insert")); [|discriminate]]; (destruct (add_all _ _) as [g3 [[]|]]; [|discriminate]; injection X as <-; auto). }
  destruct C4 as [C1 [C2 C3]]. unfold n2eid, n2e, e2n. rewrite C1, C2, C3.
  assert (N' : NoDup (map (fun a => nID (node_at g a)) (gNodes g))) by (rewrite <- ids_nodes in N; exact N).
  assert (NE' : NoDup (map (fun a => eID (elem_at g a)) (gElements g))) by (unfold elements_of in NE; rewrite map_map in NE; exact NE).
  split; [|split]; do 2 eexists; (split; [reflexivity|]); rewrite zdict_map by assumption; unfold table_of.
  - unfold nodes_of. apply Forall2_map_both. cbn. induction (gNodes g) as [|a l IH]; constructor; [|apply IH]; [|inversion N'; assumption].
    split; [reflexivity|]. rewrite <- filter_views, map_map. reflexivity.
  - unfold nodes_of. apply Forall2_map_both. cbn. induction (gNodes g) as [|a l IH]; constructor; [|apply IH]; [|inversion N'; assumption].
    split; [reflexivity|]. apply filter_views.
  - unfold elements_of. apply Forall2_map_both. cbn. induction (gElements g) as [|a l IH]; constructor; [|apply IH]; [|inversion NE'; assumption].
    split; [reflexivity|]. rewrite map_map. reflexivity.
Qed.
(** As long as no nodes were sorted and no elements divided, nodeIDs2ElementIDs raises. *)
Lemma n2eid_missing g c g' : resets c = false -> c_n2eid g = None -> perform interp veqb argsort g c = (g', Ok tt) -> c_n2eid g' = None.
Proof.
  intros RC H X. destruct c; try discriminate RC; cbn [perform] in X; try (injection X as <-; exact H).
  - unfold add_element, new_elem in X.
    assert (G : forall g1 a, c_n2eid g1 = None -> add_element_at g1 a = (g', Ok tt) -> c_n2eid g' = None).
    { intros g1 a K Y. unfold add_element_at in Y. destruct (mapR _ _); [|discriminate]. destruct (epropIDs (elem_at g1 a)) as [[? ?]|]; [destruct (get_props _ _ _); [|discriminate]|]; injection Y as <-; exact K. }
    destruct (epropIDs e); [destruct (epropset e)|]; try discriminate; eapply G; try exact X; exact H.
  - unfold add_prop in X. destruct (get _ _); [|discriminate]. injection X as <-. exact H.
  - unfold set_nodal_data in X. destruct (get_node _ _); [|discriminate]. injection X as <-. exact H.
  - unfold update_connectivity in X. destruct (update_nodes g (gElements g)) as [g1 [[]|]] eqn:U; [|discriminate].
    assert (K1 : forall l g g1, c_n2eid g = None -> update_nodes g l = (g1, Ok tt) -> c_n2eid g1 = None).
    { clear. induction l as [|a l IH]; intros g g1 H U; cbn [update_nodes] in U; [injection U as <-; exact H|]. destruct (mapR _ _); [|discriminate]. apply IH in U; [exact U | exact H]. }
    assert (K2 : forall l g g1, c_n2eid g = None -> update_props g l = (g1, Ok tt) -> c_n2eid g1 = None).
    { clear. induction l as [|a l IH]; intros g g1 H U; cbn [update_props] in U; [injection U as <-; exact H|]. destruct (epropIDs _) as [[? ?]|]; [|discriminate]. destruct (get_props _ _ _); [|discriminate]. apply IH in U; [exact U | exact H]. }
    apply (K2 _ _ _ (K1 _ _ _ H U) X).
  - unfold drop_answer, connectivity in X. destruct (c_conn g); [destruct (mapR _ _)|]; cbn in X; try discriminate; injection X as <-; exact H.
  - unfold drop_answer, n2eid in X. rewrite H in X. discriminate.
  - unfold drop_answer, n2e in X. destruct (c_n2e g); injection X as <-; exact H.
  - unfold drop_answer, e2n in X. destruct (c_e2n g); injection X as <-; exact H.
Qed.
Theorem C62_fresh_graph_refuted : forall cs g, run empty_graph cs = Ok g -> forallb (fun c => negb (resets c)) cs = true -> n2eid g = (g, Err AttributeError).
Proof.
  intros cs g R F. assert (X : c_n2eid g = None); [|unfold n2eid; rewrite X; reflexivity].
  assert (G : c_n2eid (@empty_graph V) = None) by reflexivity. revert F R G. generalize (@empty_graph V). induction cs as [|c cs IH]; intros g0 F R G; [cbn in R; injection R as <-; exact G|].
  cbn in F. apply andb_prop in F. destruct F as [F1 F2]. destruct (run_cons interp veqb argsort _ _ _ _ R) as [g1 [P1 R1]]. apply (IH g1 F2 R1). apply (n2eid_missing g0 c g1); [destruct (resets c); [discriminate | reflexivity] | exact G | exact P1].
Qed.
(** Elements added after a query are missing from the tables. *)
Theorem C62_late_element_refuted : forall g e g1 g2 t, elements_of g <> [] -> e2n g = (g1, Ok t) -> add_element g1 e = (g2, Ok tt) -> e2n g2 = (g2, Ok t).
Proof.
  intros g e g1 g2 t HE Q A. assert (C : c_e2n g1 = t /\ t <> []).
  { unfold e2n in Q. destruct (c_e2n g) as [|x d] eqn:E; injection Q as <- <-; [|split; [exact E | discriminate]]. split; [reflexivity|]. unfold elements_of in HE. destruct (gElements g) as [|a l]; [exfalso; apply HE; reflexivity|]. intro Z0.
    assert (L : forall l d, List.length d <= List.length (fold_left (fun d x => zput d (eID (elem_at g x)) (map (fun b => nID (node_at g b)) (enodes (elem_at g x)))) l d)).
    { clear. induction l as [|x l IH]; intro d; cbn; [lia|]. etransitivity; [|apply IH]. generalize (eID (elem_at g x)) (map (fun b => nID (node_at g b)) (enodes (elem_at g x))). intros k v. induction d as [|[k0 v0] d IHd]; cbn; [lia|]. destruct (Z.eqb k0 k); cbn; lia. }
    unfold zdict in Z0. cbn [fold_left zput] in Z0. match type of Z0 with fold_left _ l ?d = [] => specialize (L l d) end. rewrite Z0 in L. cbn in L. lia. }
  destruct C as [C1 C2]. assert (C3 : c_e2n g2 = t).
  { rewrite <- C1. unfold add_element, new_elem in A.
    assert (G : forall g0 a, add_element_at g0 a = (g2, Ok tt) -> c_e2n g2 = c_e2n g0).
    { intros g0 a Y. unfold add_element_at in Y. destruct (mapR _ _); [|discriminate]. destruct (epropIDs (elem_at g0 a)) as [[? ?]|]; [destruct (get_props _ _ _); [|discriminate]|]; injection Y as <-; reflexivity. }
    destruct (epropIDs e); [destruct (epropset e)|]; try discriminate; apply G in A; exact A. }
  unfold e2n. rewrite C3. destruct t; [congruence | reflexivity].
Qed.
(** ** C63: data set on a node *)
Lemma get_update {W} (e : @dict W) : forall d k, NoDup (map fst e) -> get (update d e) k = match get e k with Some v => Some v | None => get d k end.
Proof.
  induction e as [|[k0 v0] e IH]; intros d k N; [reflexivity|]. inversion N as [|? ? N1 N2]; subst. change (update d ((k0, v0) :: e)) with (update (put d k0 v0) e). rewrite (IH _ k N2).
  assert (G0 : get ((k0, v0) :: e) k = if str_eqb k0 k then Some v0 else get e k) by (unfold get; cbn [find fst]; destruct (str_eqb k0 k); reflexivity). rewrite G0. destruct (str_eqb k0 k) eqn:E.
  - apply str_eqb_eq in E. subst k0. rewrite get_put_same. destruct (get e k) as [v|] eqn:G; [|reflexivity]. apply get_some_in in G. exfalso. apply N1. apply in_map_iff. exists (k, v). auto.
  - rewrite get_put_other; [reflexivity|]. intro C. subst k0. rewrite str_eqb_refl in E. discriminate.
Qed.
Theorem C63_set_data : forall cs g id d n, argsort_spec argsort -> run empty_graph cs = Ok g -> NoDup (map nID (nodes_of g)) -> NoDup (map fst d) ->
  In n (nodes_of g) -> nID n = id ->
  exists g' n', set_nodal_data g id d = (g', Ok tt) /\
    nID n' = id /\ nx n' = nx n /\ ny n' = ny n /\ nz n' = nz n /\
    (forall k, get (ndata n') k = match get d k with Some v => Some v | None => get (ndata n) k end) /\
    let replace m := if Z.eqb (nID m) id then n' else m in
    nodes_of g' = map replace (nodes_of g) /\
    elements_of g' = map (fun e => mk_view (vID e) (vnodeIDs e) (map replace (vends e)) (vpropset e) (vpropIDs e) (vdata e)) (elements_of g) /\
    propsets g' = propsets g /\ modes g' = modes g /\ motions g' = motions g.
Proof.
  intros cs g id d n S R N ND Hn En. pose proof (reach_inv cs g S R) as [I1 I2]. unfold nodes_of in N, Hn. rewrite map_map in N. apply in_map_iff in Hn. destruct Hn as [a [Ea Ha]].
  pose proof (find_unique (fun a => nID (node_at g a)) (gNodes g) a N Ha) as F. cbn beta in F. rewrite Ea, En in F.
  unfold set_nodal_data, get_node. rewrite F. eexists. exists (mk_node (nID n) (nx n) (ny n) (nz n) (update (ndata n) d)).
  split; [reflexivity|]. split; [exact En|]. split; [reflexivity|]. split; [reflexivity|]. split; [reflexivity|]. split; [intro k; apply get_update; exact ND|]. cbn zeta.
  assert (La : a < List.length (nheap g)) by (rewrite Forall_forall in I1; apply I1; exact Ha).
  assert (X : forall b, In b (gNodes g) -> node_at (set_data g a d) b = if Z.eqb (nID (node_at g b)) id then mk_node (nID n) (nx n) (ny n) (nz n) (update (ndata n) d) else node_at g b).
  { intros b Hb. unfold set_data, set_node, node_at at 1. cbn [nheap with_nodes]. destruct (Nat.eq_dec b a) as [->|D].
    - rewrite nth_set_nth_same by exact La. rewrite Ea, En, Z.eqb_refl. reflexivity.
    - rewrite nth_set_nth_other by exact D. fold (node_at g b). destruct (Z.eqb_spec (nID (node_at g b)) id) as [E|E]; [|reflexivity]. exfalso. apply D.
      pose proof (find_unique (fun a => nID (node_at g a)) (gNodes g) b N Hb) as F2. cbn beta in F2. rewrite E, F in F2. congruence. }
  split; [|split; [|split; [reflexivity | split; reflexivity]]].
  - unfold nodes_of. cbn [gNodes set_data set_node with_nodes]. rewrite map_map. apply map_ext_in. exact X.
  - unfold elements_of. cbn [gElements set_data set_node with_nodes]. rewrite map_map. apply map_ext_in. intros e He. rewrite Forall_forall in I2. destruct (I2 e He) as [_ L].
    unfold view. change (elem_at (set_data g a d) e) with (elem_at g e). cbn [vID vnodeIDs vends vpropset vpropIDs vdata]. f_equal. rewrite map_map. apply map_ext_in. intros b Hb. apply X.
    unfold linked in L. destruct (Forall2_in_r _ _ _ _ L Hb) as [? [_ [Q1 _]]]. exact Q1.
Qed.
Theorem C63_unknown_node : forall g id d, ~ In id (map nID (nodes_of g)) -> set_nodal_data g id d = (g, Err KeyError).
Proof.
  intros g id d H. unfold set_nodal_data, get_node. destruct (find _ _) as [a|] eqn:F; [|reflexivity]. exfalso. apply H. apply find_some in F. destruct F as [F1 F2]. apply Z.eqb_eq in F2.
  unfold nodes_of. rewrite map_map. apply in_map_iff. exists a. split; [exact F2 | exact F1].
Qed.
End Props.
Print Assumptions C36_divide.
Print Assumptions C36_without_properties_refuted.
Print Assumptions C36_refused.
Print Assumptions C37_connectivity_partial.
Print Assumptions C37_earlier_elements.
Print Assumptions C37_late_element_refuted.
Print Assumptions C61_sort.
Print Assumptions C61_refused.
Print Assumptions C62_after_change_partial.
Print Assumptions C62_fresh_graph_refuted.
Print Assumptions C62_late_element_refuted.
Print Assumptions C63_set_data.
Print Assumptions C63_unknown_node.

(** ** Concrete cases *)
(** An argsort: insertion sort on the positions. *)
Fixpoint insert_at (vs : list Q) (i : nat) (l : list nat) : list nat :=
  match l with [] => [i] | j :: l' => if Qle_bool (nth i vs 0%Q) (nth j vs 0%Q) then i :: l else j :: insert_at vs i l' end.
Definition simple_argsort (vs : list Q) : list nat := fold_right (insert_at vs) [] (seq 0 (List.length vs)).
Lemma insert_at_perm vs i l : Permutation (insert_at vs i l) (i :: l).
Proof. induction l as [|j l IH]; cbn; [reflexivity|]. destruct (Qle_bool _ _); [reflexivity|]. rewrite IH. apply perm_swap. Qed.
Lemma insert_at_sorted vs i l : Sorted Qle (map (fun i => nth i vs 0%Q) l) -> Sorted Qle (map (fun i => nth i vs 0%Q) (insert_at vs i l)).
Proof.
  induction l as [|j l IH]; cbn; intro H; [repeat constructor|]. destruct (Qle_bool _ _) eqn:E.
  - cbn. constructor; [exact H|]. constructor. apply Qle_bool_iff. exact E.
  - inversion H as [|? ? H1 H2]; subst. cbn. constructor; [apply IH; exact H1|].
    assert (J : (nth j vs 0 <= nth i vs 0)%Q) by (apply Qlt_le_weak; apply Qnot_le_lt; intro C; apply Qle_bool_iff in C; congruence).
    destruct l as [|k l]; cbn; [constructor; exact J|]. cbn in H2. inversion H2; subst. destruct (Qle_bool (nth i vs 0%Q) (nth k vs 0%Q)); cbn; constructor; assumption.
Qed.
Lemma simple_argsort_spec : argsort_spec simple_argsort.
Proof.
  intro vs. unfold simple_argsort. induction (seq 0 (List.length vs)) as [|i l [IH1 IH2]]; cbn; [split; [reflexivity | constructor]|]. split.
  - rewrite insert_at_perm. constructor. exact IH1.
  - apply insert_at_sorted. exact IH2.
Qed.
Definition q_interp (v w f : Q) : option Q := Some (Qred (v * (1 - f) + w * f)).
Definition demo_calls : list (@call Q) :=
  [AddNode (mk_node 1 0 0 0 [(S_ "D", 4%Q)]); AddNode (mk_node 7 3 0 0 [(S_ "D", 1%Q)]); AddNode (mk_node 5 3 6 0 []);
   AddPropSet (S_ "Beam"); AddProp (S_ "Beam") (mk_prop 2 []);
   AddElement (mk_elem 4 [1; 7]%Z [] (Some (S_ "Beam")) (Some (true, [2; 2]%Z)) [] None);
   AddElement (mk_elem 9 [7; 5]%Z [] (Some (S_ "Beam")) (Some (true, [2; 2]%Z)) [] None)].
Definition demo : @graph Q := match run q_interp Qeq_bool simple_argsort empty_graph demo_calls with Ok g => g | Err _ => empty_graph end.
Example C36_demo_hypotheses :
  run q_interp Qeq_bool simple_argsort empty_graph demo_calls = Ok demo /\ map nID (nodes_of demo) = [1; 7; 5]%Z /\ map vID (elements_of demo) = [4; 9]%Z /\
  Forall (props_known demo) (elements_of demo) /\ Forall same_props (elements_of demo) /\ Forall (plain_keys []) (elements_of demo).
Proof.
  split; [vm_compute; reflexivity|]. split; [vm_compute; reflexivity|]. split; [vm_compute; reflexivity|]. split; [|split].
  - repeat constructor; (exists (S_ "Beam"), [mk_prop 2 []]; split; [vm_compute; reflexivity|]; split; [vm_compute; reflexivity|]; cbn; intros i [<-|[<-|[]]]; auto).
  - repeat constructor; (exists 2%Z, [2%Z]; split; [vm_compute; reflexivity|]; cbn; intros y [<-|[]]; reflexivity).
  - repeat constructor; try (vm_compute; intros; contradiction);
    (intros first last k E; vm_compute in E; injection E as <- <-; cbn; intros [<-|[]] _ [C|[C|[C|[C|[C|[]]]]]]; discriminate C).
Qed.
Example C36_demo_divided :
  let (g, r) := divide_elements q_interp Qeq_bool demo 3 [] [] (S_ "insert") [] in
  r = Ok tt /\ map nID (nodes_of g) = [1; 7; 5; 8; 9; 10; 11]%Z /\
  map (fun e => (vID e, vnodeIDs e)) (elements_of g) = [(4, [1; 8]); (10, [8; 9]); (11, [9; 7]); (9, [7; 10]); (12, [10; 11]); (13, [11; 5])]%Z /\
  map (fun n => (Qred (nx n), Qred (ny n))) (nodes_of g) = [(0, 0); (3, 0); (3, 6); (1, 0); (2, 0); (3, 2); (3, 4)]%Q /\
  option_map ndata (nth_error (nodes_of g) 3) = Some [(S_ "D", 3)]%Q.
Proof. vm_compute. repeat split; reflexivity. Qed.
Example C36_demo_append :
  let (g, r) := divide_elements q_interp Qeq_bool demo 2 [] [] (S_ "append") [S_ "D"] in
  r = Ok tt /\ map (fun e => (vID e, vnodeIDs e)) (elements_of g) = [(4, [1; 8]); (9, [7; 9]); (10, [8; 7]); (11, [9; 5])]%Z /\
  option_map ndata (nth_error (nodes_of g) 3) = Some [].
Proof. vm_compute. repeat split; reflexivity. Qed.
Example C37_demo : no_late_element false (demo_calls ++ [Connectivity; Sort (S_ "y"); AddNode (mk_node 8 0 0 1 []); Connectivity]) = true /\
  snd (connectivity demo) = Ok [[0; 1]; [1; 2]] /\
  no_late_element false (demo_calls ++ [Connectivity; AddElement (mk_elem 5 [1; 5]%Z [] None None [] None)]) = false.
Proof. vm_compute. repeat split; reflexivity. Qed.
(** A division that raises after connectivity was asked for leaves a wrong table behind: the elements were cut, the
    table is from before. *)
Theorem C37_failed_division_refuted : exists (g g1 g2 : @graph Q) c, connectivity g = (g1, Ok c) /\ connects g c /\
  divide_elements q_interp Qeq_bool g1 2 [] [] (S_ "append") [] = (g2, Err UnboundLocalError) /\ snd (connectivity g2) = Ok c /\ ~ connects g2 c.
Proof.
  set (g := match run q_interp Qeq_bool simple_argsort empty_graph [AddNode (mk_node 1 0 0 0 []); AddNode (mk_node 2 4 0 0 []); AddElement (mk_elem 1 [1; 2]%Z [] None None [] None)] with Ok g => g | Err _ => empty_graph end).
  exists g, (fst (connectivity g)), (fst (divide_elements q_interp Qeq_bool (fst (connectivity g)) 2 [] [] (S_ "append") [])), [[0; 1]].
  split; [vm_compute; reflexivity|]. split; [vm_compute; repeat constructor|]. split; [vm_compute; reflexivity|]. split; [vm_compute; reflexivity|].
  intro H. vm_compute in H. inversion H as [|? ? ? ? X _]; subst. discriminate X.
Qed.
Example C61_demo : sort_key (S_ "ID") = Some (fun n : @node Q => inject_Z (nID n)) /\
  map nID (nodes_of (fst (sort_nodes simple_argsort demo (S_ "ID")))) = [1; 5; 7]%Z /\ snd (connectivity (fst (sort_nodes simple_argsort demo (S_ "ID")))) = Ok [[0; 2]; [2; 1]].
Proof. vm_compute. repeat split; reflexivity. Qed.
Example C62_demo : snd (n2eid (fst (sort_nodes simple_argsort demo (S_ "x")))) = Ok [(1, [4]); (7, [4; 9]); (5, [9])]%Z /\ snd (n2eid demo) = Err AttributeError.
Proof. vm_compute. repeat split; reflexivity. Qed.
Example C63_demo : run q_interp Qeq_bool simple_argsort empty_graph demo_calls = Ok demo /\ In 7%Z (map nID (nodes_of demo)) /\
  let (g, r) := set_nodal_data demo 7 [(S_ "D", 9%Q); (S_ "t", 2%Q)] in
  r = Ok tt /\ map ndata (nodes_of g) = [[(S_ "D", 4%Q)]; [(S_ "D", 9%Q); (S_ "t", 2%Q)]; []].
Proof. vm_compute. intuition. Qed.
