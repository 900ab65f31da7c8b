(** Properties C116 and C117: graphs of SubDyn summaries; tables and JSON of graphs. *)
From Verif Require Import Py PyFacts ListFacts Graph_Model Graph_Spec Graph_Proofs Graph_Conn Graph_Divide Graph_Props.
From Verif Require Import ToGraph_Model ToGraph_Props.
From Verif Require Import Dict.
From Coq Require Import QArith Lia Permutation.
Local Open Scope nat_scope.
Local Notation get := Dict.get.

(** ** What the tables of a summary say *)
Record snode := mk_snode { n_id : Z; n_x : Q; n_y : Q; n_z : Q; n_type : Z; n_more : list Q }.
Record selem := mk_selem { e_id : Z; e_a : Z; e_b : Z; e_p : Q; e_q : Q; e_type : Z; e_length : Q; e_area : Q; e_rho : Q; e_E : Q; e_G : Q; e_more : list Q }.
Definition snode_row (n : snode) : list Q := [inject_Z (n_id n); n_x n; n_y n; n_z n; inject_Z (n_type n)] ++ n_more n.
Definition selem_row (e : selem) : list Q :=
  [inject_Z (e_id e); inject_Z (e_a e); inject_Z (e_b e); e_p e; e_q e; inject_Z (e_type e); e_length e; e_area e; e_rho e; e_E e; e_G e] ++ e_more e.
Definition dof_row (p : Q * Z) : list Q := [fst p; inject_Z (snd p)].
(** Rows of nine columns are rounded to single precision *)
Definition shown (f32 : Q -> Q) (n : snode) (q : Q) : Q := if List.length (n_more n) =? 4 then f32 q else q.
Definition node_of_snode (f32 : Q -> Q) (dofs : list (Q * Z)) (s : snode) (n : @Graph_Model.node gval) : Prop :=
  n = mk_node (n_id s) (shown f32 s (n_x s)) (shown f32 s (n_y s)) (shown f32 s (n_z s))
        [(S_ "Type", GInt (n_type s)); (S_ "DOFs", GSeq (map (fun p => GNum (fst p)) (filter (fun p => Z.eqb (snd p) (n_id s)) dofs)))].
Definition elem_of_selem (root : Q -> Q) (g : @Graph_Model.graph gval) (s : selem) (e : @eview gval) : Prop :=
  vID e = e_id s /\ vnodeIDs e = [e_a s; e_b s] /\
  (exists a b, vends e = [a; b] /\ In a (nodes_of g) /\ In b (nodes_of g) /\ nID a = e_a s /\ nID b = e_b s) /\
  vpropset e = None /\ vpropIDs e = None /\
  get (vdata e) (S_ "Type") = Some (GInt (e_type s)) /\ get (vdata e) (S_ "Area") = Some (GNum (e_area s)) /\ get (vdata e) (S_ "rho") = Some (GNum (e_rho s)) /\
  get (vdata e) (S_ "D") = Some (GNum (root (e_area s) * 4)) /\ get (vdata e) (S_ "object") = Some (GText (S_ "cylinder")).
Record ssound (f32 : Q -> Q) nodes elems : Prop := {
  ss_nodes : NoDup (map n_id nodes); ss_exact : forall n, In n nodes -> f32 (inject_Z (n_id n)) = inject_Z (n_id n) /\ f32 (inject_Z (n_type n)) = inject_Z (n_type n);
  ss_ends : forall e, In e elems -> In (e_a e) (map n_id nodes) /\ In (e_b e) (map n_id nodes); ss_types : forall e, In e elems -> (0 <= e_type e <= 4)%Z }.

(** ** Proofs *)
Local Notation node := (@Graph_Model.node gval). Local Notation graph := (@Graph_Model.graph gval). Local Notation elem := (@Graph_Model.elem gval).
Section Summary.
Context (f32 root : Q -> Q).
Lemma filter_dofs id (dofs : list (Q * Z)) :
  filter (fun p => Qeq_bool (fst p) (inject_Z id)) (map (fun p => (inject_Z (snd p), fst p)) dofs) = map (fun p => (inject_Z (snd p), fst p)) (filter (fun p => Z.eqb (snd p) id) dofs).
Proof.
  induction dofs as [|[d z] l IH]; [reflexivity|]. cbn [map filter fst snd]. destruct (Z.eqb_spec z id) as [->|NE].
  - replace (Qeq_bool (inject_Z id) (inject_Z id)) with true by (symmetry; apply Qeq_bool_iff; reflexivity). cbn [map fst snd]. f_equal. exact IH.
  - replace (Qeq_bool (inject_Z z) (inject_Z id)) with false; [exact IH|]. symmetry. apply not_true_iff_false. intro C. apply Qeq_bool_iff in C. unfold Qeq in C. cbn in C. lia.
Qed.
Lemma sum_node_ok dofs s : f32 (inject_Z (n_id s)) = inject_Z (n_id s) -> f32 (inject_Z (n_type s)) = inject_Z (n_type s) -> exists n, sum_node f32 (map dof_row dofs) (snode_row s) = Ok n /\ node_of_snode f32 dofs s n.
Proof.
  intros X1 X2. eexists. split; [|reflexivity].
  assert (D : mapM (fun r : list Q => n <- at_ r 1 ;; d <- at_ r 0 ;; Ok (n, d)) (map dof_row dofs) = Ok (map (fun p => (inject_Z (snd p), fst p)) dofs)).
  { apply mapM_all. clear. induction dofs as [|p l IH]; constructor; [reflexivity|exact IH]. }
  unfold sum_node. assert (L : (List.length (snode_row s) =? 9) = (List.length (n_more s) =? 4)) by (unfold snode_row; rewrite app_length; cbn [List.length]; destruct (Nat.eqb_spec (5 + List.length (n_more s)) 9), (Nat.eqb_spec (List.length (n_more s)) 4); lia || reflexivity).
  rewrite L. unfold shown. destruct (List.length (n_more s) =? 4).
  - unfold snode_row. cbn [map app at_ nth_error bind]. rewrite D. cbn [bind]. rewrite X1, X2, !int_q_Z, filter_dofs, map_map. reflexivity.
  - unfold snode_row. cbn [map app at_ nth_error bind]. rewrite D. cbn [bind]. rewrite !int_q_Z, filter_dofs, map_map. reflexivity.
Qed.
Lemma add_sum_nodes_St dofs ss : (forall s, In s ss -> f32 (inject_Z (n_id s)) = inject_Z (n_id s) /\ f32 (inject_Z (n_type s)) = inject_Z (n_type s)) -> forall g ns es ps, St g ns es ps ->
  exists g' ns', add_sum_nodes f32 g (map dof_row dofs) (map snode_row ss) = Ok g' /\ St g' (ns ++ ns') es ps /\ Forall2 (node_of_snode f32 dofs) ss ns'.
Proof.
  induction ss as [|s ss IH]; intros X g ns es ps H; [exists g, []; rewrite app_nil_r; auto|]. cbn [map add_sum_nodes].
  destruct (sum_node_ok dofs s) as [n [E P]]; [apply X; left; reflexivity | apply X; left; reflexivity|]. rewrite E. cbn [bind].
  destruct (IH (fun x Hx => X x (or_intror Hx)) _ _ _ _ (add_node_St g ns es ps n H)) as [g' [ns' [E' [S' F']]]]. exists g', (n :: ns'). split; [exact E'|]. split; [rewrite <- app_assoc in S'; exact S'|]. constructor; assumption.
Qed.
Lemma add_plain_St (g : graph) ns es ps e : St g ns es ps -> incl (enodeIDs e) (map nID ns) -> epropset e = None -> epropIDs e = None -> exists g' nds x, add_element g e = (g', Ok tt) /\ St g' ns (es ++ [resolved e nds x]) ps.
Proof.
  intros H HI HS HP. pose proof H as [H1 [H2 [H3 [H4 [H5 [H6 H7]]]]]].
  assert (ID : ids g = map nID ns) by (rewrite ids_nodes, (St_nodes _ _ _ _ H); reflexivity).
  destruct (mapR_get_node_exists g (enodeIDs e)) as [nds En]; [rewrite ID; exact HI|].
  assert (E : exists g', add_element g e = (g', Ok tt) /\ nheap g' = ns /\ gNodes g' = gNodes g /\ eheap g' = es ++ [resolved e nds (enodeProps e)] /\ gElements g' = gElements g ++ [List.length es] /\
              propsets g' = ps /\ modes g' = 0 /\ motions g' = 0 /\ c_conn g' = []).
  { unfold add_element, new_elem. rewrite HS, HP. unfold add_element_at. rewrite H3.
    replace (elem_at (with_elems g (es ++ [e]) (gElements g)) (List.length es)) with e by (unfold elem_at; cbn; rewrite app_nth2, Nat.sub_diag by lia; reflexivity).
    change (mapR (get_node (with_elems g (es ++ [e]) (gElements g))) (enodeIDs e)) with (mapR (get_node g) (enodeIDs e)). rewrite En, HP.
    eexists. split; [reflexivity|]. cbn. rewrite set_nth_last. destruct H7 as [H7 [H8 H9]]. unfold resolved. rewrite HP, HS. repeat split; assumption. }
  destruct E as [g' [E [E1 [E2 [E3 [E4 [E5 E6]]]]]]]. exists g', nds, (enodeProps e). split; [exact E|]. split; [exact E1|]. split; [rewrite E2; exact H2|]. split; [exact E3|].
  split; [rewrite E4, H4, app_length; cbn; rewrite seq_app; reflexivity|]. split; [exact E5|]. split; [exact (proj1 (add_element_inv g e g' E H6))|exact E6].
Qed.
Definition selem_elem (s : selem) (color : gval) : elem :=
  mk_elem (e_id s) [e_a s; e_b s] [] None None
    [(S_ "Type", GInt (e_type s)); (S_ "Area", GNum (e_area s)); (S_ "rho", GNum (e_rho s)); (S_ "E", GNum (e_area s)); (S_ "G", GNum (e_rho s)); (S_ "D", GNum (root (e_area s) * 4));
     (S_ "object", GText (S_ "cylinder")); (S_ "color", color)] None.
Lemma selem_ok s : (0 <= e_type s <= 4)%Z -> exists c, sum_elem root (selem_row s) = Ok (selem_elem s c).
Proof.
  intro T. unfold sum_elem, selem_row. cbn [app at_ nth_error bind]. rewrite !int_q_Z. assert (X : exists c, py_at COLORS (e_type s) = Ok c).
  { assert (C : (e_type s = 0 \/ e_type s = 1 \/ e_type s = 2 \/ e_type s = 3 \/ e_type s = 4)%Z) by lia. destruct C as [->|[->|[->|[->| ->]]]]; eexists; reflexivity. }
  destruct X as [c ->]. exists c. reflexivity.
Qed.
Lemma add_sum_elems_St nodes ss : (forall e, In e ss -> In (e_a e) (map n_id nodes) /\ In (e_b e) (map n_id nodes)) -> (forall e, In e ss -> (0 <= e_type e <= 4)%Z) -> forall g ns es ps, St g ns es ps -> map nID ns = map n_id nodes ->
  exists g' es', add_sum_elems root g (map selem_row ss) = Ok g' /\ St g' ns (es ++ es') ps /\ Forall2 (fun s e => exists c, alike (selem_elem s c) e) ss es'.
Proof.
  induction ss as [|s ss IH]; intros A B g ns es ps H N; [exists g, []; rewrite app_nil_r; auto|]. cbn [map add_sum_elems]. destruct (selem_ok s (B s (or_introl eq_refl))) as [c ->]. cbn [bind].
  destruct (add_plain_St g ns es ps (selem_elem s c) H) as [g1 [nds [x [E S1]]]]; [|reflexivity|reflexivity|].
  - rewrite N. intros y [<-|[<-|[]]]; apply A; left; reflexivity.
  - rewrite E. destruct (IH (fun y Hy => A y (or_intror Hy)) (fun y Hy => B y (or_intror Hy)) _ _ _ _ S1 N) as [g' [es' [E' [S' F']]]]. exists g', (resolved (selem_elem s c) nds x :: es'). split; [exact E'|].
    split; [rewrite <- app_assoc in S'; exact S'|]. constructor; [exists c; repeat split|exact F'].
Qed.
Lemma iter_modes k (g : graph) : nheap (Nat.iter k add_mode g) = nheap g /\ gNodes (Nat.iter k add_mode g) = gNodes g /\ eheap (Nat.iter k add_mode g) = eheap g /\ gElements (Nat.iter k add_mode g) = gElements g /\
  modes (Nat.iter k add_mode g) = k + modes g.
Proof. induction k as [|k [I1 [I2 [I3 [I4 I5]]]]]; [repeat split|]. change (Nat.iter (S k) add_mode g) with (add_mode (Nat.iter k add_mode g)). cbn [add_mode with_dyn nheap gNodes eheap gElements modes]. rewrite I1, I2, I3, I4, I5. repeat split. Qed.
Lemma summary_all dofs nodes elems gy cb : ssound f32 nodes elems -> exists g ns es, summary_graph f32 root (map dof_row dofs) (map snode_row nodes) (map selem_row elems) (Ok (gy, cb)) = Ok g /\
  nodes_of g = ns /\ Forall2 (node_of_snode f32 dofs) nodes ns /\ modes g = gy + cb /\
  elements_of g = map (view_of g) es /\ (forall e, In e es -> linked g e) /\ Forall2 (fun s e => exists c, alike (selem_elem s c) e) elems es.
Proof.
  intros [S1 S2 S3 S4]. unfold summary_graph. destruct (add_sum_nodes_St dofs nodes S2 _ _ _ _ St_empty) as [g1 [ns [E1 [T1 F1]]]]. rewrite E1. cbn [bind]. cbn [app] in T1.
  assert (N : map nID ns = map n_id nodes). { clear -F1. induction F1 as [|s n ss ns H F IH]; [reflexivity|]. cbn. rewrite IH, H. reflexivity. }
  destruct (add_sum_elems_St nodes elems S3 S4 _ _ _ _ T1 N) as [g2 [es [E2 [T2 F2]]]]. rewrite E2. cbn [bind app] in *.
  destruct (iter_modes (gy + cb) g2) as [I1 [I2 [I3 [I4 I5]]]]. exists (Nat.iter (gy + cb) add_mode g2), ns, es. split; [reflexivity|].
  assert (NA : forall a, node_at (Nat.iter (gy + cb) add_mode g2) a = node_at g2 a) by (intro a; unfold node_at; rewrite I1; reflexivity).
  split; [unfold nodes_of; rewrite I2; rewrite <- (St_nodes _ _ _ _ T2); apply map_ext; exact NA|]. split; [exact F1|]. split; [rewrite I5; destruct T2 as [_ [_ [_ [_ [_ [_ [-> _]]]]]]]; lia|].
  split; [|split; [|exact F2]].
  - transitivity (elements_of g2).
    + unfold elements_of. rewrite I4. apply map_ext. intro a. unfold view, elem_at. rewrite I3. f_equal. apply map_ext. exact NA.
    + rewrite (St_elements _ _ _ _ T2). apply map_ext. intro e. unfold view_of. f_equal. apply map_ext. intro a. symmetry. apply NA.
  - intros e He. pose proof (St_linked _ _ _ _ e T2 He) as L. unfold linked in *. rewrite I2. eapply F2_imp; [|exact L]. cbn beta. intros id b _ _ [P1 P2]. rewrite NA. auto.
Qed.
End Summary.

(** ** C116 *)
Theorem C116_summary_graph_partial : forall f32 root dofs nodes elems gy cb, ssound f32 nodes elems ->
  exists g, summary_graph f32 root (map dof_row dofs) (map snode_row nodes) (map selem_row elems) (Ok (gy, cb)) = Ok g /\
    Forall2 (node_of_snode f32 dofs) nodes (nodes_of g) /\ Forall2 (elem_of_selem root g) elems (elements_of g) /\ modes g = gy + cb.
Proof.
  intros f32 root dofs nodes elems gy cb S0. destruct (summary_all f32 root dofs nodes elems gy cb S0) as [g [ns [es [E [E1 [F1 [M [E2 [LK F2]]]]]]]]]. exists g. split; [exact E|]. split; [rewrite E1; exact F1|]. split; [|exact M].
  rewrite E2. clear -F2 LK. induction F2 as [|s e ss es [c H] F IH]; constructor; [|apply IH; intros x Hx; apply LK; right; exact Hx].
  destruct H as [H1 [H2 [H3 [H4 H5]]]]. cbn in H1, H2, H3, H4, H5. unfold elem_of_selem, view_of. cbn [vID vnodeIDs vends vpropset vpropIDs vdata]. rewrite H1, H2, H3, H4, H5.
  split; [reflexivity|]. split; [reflexivity|]. split; [apply linked_two; [apply LK; left; reflexivity | exact H2]|]. repeat split.
Qed.
(** The elastic moduli are not those of the summary: they are the area and the density *)
Theorem C116_moduli_refuted : forall f32 root dofs nodes elems gy cb, ssound f32 nodes elems ->
  exists g, summary_graph f32 root (map dof_row dofs) (map snode_row nodes) (map selem_row elems) (Ok (gy, cb)) = Ok g /\
    Forall2 (fun s e => get (vdata e) (S_ "E") = Some (GNum (e_area s)) /\ get (vdata e) (S_ "G") = Some (GNum (e_rho s))) elems (elements_of g).
Proof.
  intros f32 root dofs nodes elems gy cb S0. destruct (summary_all f32 root dofs nodes elems gy cb S0) as [g [ns [es [E [E1 [F1 [M [E2 [LK F2]]]]]]]]]. exists g. split; [exact E|].
  rewrite E2. clear -F2. induction F2 as [|s e ss es [c H] F IH]; constructor; [|exact IH]. destruct H as [_ [_ [_ [_ H5]]]]. cbn in H5. cbn. rewrite H5. split; reflexivity.
Qed.
(** A disc of the diameter D has four times the area: D is twice the diameter of the section *)
Theorem C116_diameter_refuted : forall f32 root pi dofs nodes elems gy cb, ssound f32 nodes elems -> (forall e, In e elems -> (pi * (root (e_area e)) ^ 2 == e_area e)%Q) ->
  exists g, summary_graph f32 root (map dof_row dofs) (map snode_row nodes) (map selem_row elems) (Ok (gy, cb)) = Ok g /\
    Forall2 (fun s e => exists D, get (vdata e) (S_ "D") = Some (GNum D) /\ (pi * (D / 2) ^ 2 == 4 * e_area s)%Q) elems (elements_of g).
Proof.
  intros f32 root pi dofs nodes elems gy cb S0 R. destruct (summary_all f32 root dofs nodes elems gy cb S0) as [g [ns [es [E [E1 [F1 [M [E2 [LK F2]]]]]]]]]. exists g. split; [exact E|].
  rewrite E2. clear -F2 R. induction F2 as [|s e ss es [c H] F IH]; constructor; [|apply IH; intros x Hx; apply R; right; exact Hx]. destruct H as [_ [_ [_ [_ H5]]]]. cbn in H5. cbn [view_of vdata]. rewrite H5. eexists. split; [reflexivity|].
  rewrite <- (R s (or_introl eq_refl)) at 2. field.
Qed.
Print Assumptions C116_summary_graph_partial.
Print Assumptions C116_moduli_refuted.
Print Assumptions C116_diameter_refuted.
(** Example: a summary with two nodes, an element of area 3 (root 1 for pi = 3) *)
Example sum_example : ssound (fun q => q) [mk_snode 1 0 0 0 1 []; mk_snode 2 0 0 10 1 []] [mk_selem 7 1 2 1 1 1 10 3 7850 210 80 []] /\
  (3 * (1 : Q) ^ 2 == e_area (mk_selem 7 1 2 1 1 1 10 3 7850 210 80 []))%Q.
Proof.
  split; [split; cbn|reflexivity].
  - repeat constructor; cbn; intuition discriminate.
  - auto.
  - intros e [<-|[]]. cbn. auto.
  - intros e [<-|[]]. cbn. lia.
Qed.

(** ** C117: the table of the nodes *)
Lemma set_nth_zeros l m (q : Q) : set_nth (l ++ zeros (S m)) (List.length l) q = l ++ q :: zeros m.
Proof. induction l as [|x l IH]; [reflexivity|]. cbn. f_equal. exact IH. Qed.
Section Frame.
Context {V : Type} (number : V -> option Q).
Local Notation nodeV := (@Graph_Model.node V).
(** What stands in the column [k] for a node: the number of its data, and zero if there is none *)
Definition nodal_number (k : str) (x : nodeV) : Q := match get (ndata x) k with Some v => match number v with Some q => q | None => 0%Q end | None => 0%Q end.
Definition plain_keys (x : nodeV) : Prop := NoDup (map fst (ndata x)) /\ forall k, In k (map fst (ndata x)) -> ~ In k (map S_ ["ID"; "x"; "y"; "z"]%string).
Definition known_key (k : str) (ns : list nodeV) : Prop := exists x, In x ns /\ In k (map fst (ndata x)).

Lemma get_put_at d k i v k' : get (put_at d k i v) k' = if str_eqb k k' then option_map (fun l => set_nth l i v) (get d k) else get d k'.
Proof.
  unfold put_at. destruct (get d k) as [l|] eqn:E; destruct (str_eqb k k') eqn:K; try (apply str_eqb_eq in K; subst k').
  - apply get_put_same.
  - apply get_put_other. intro C. subst k'. rewrite str_eqb_refl in K. discriminate.
  - exact E.
  - reflexivity.
Qed.
Lemma not_key_get {W} (d : @dict W) k : ~ In k (map fst d) -> get d k = None.
Proof.
  intro H. pose proof (has_get d k) as G. destruct (get d k); [|reflexivity]. exfalso. apply H. apply has_in. exact G.
Qed.
Lemma key_get {W} (d : @dict W) k : In k (map fst d) -> exists v, get d k = Some v.
Proof. intro H. apply has_in in H. rewrite has_get in H. destruct (get d k); [eexists; reflexivity|discriminate]. Qed.
Lemma fold_values n i es : NoDup (map fst es) -> ~ In (S_ "ID") (map fst es) -> forall d k,
  get (fold_left (put_value number n i) es d) k =
  match get es k with
  | Some v => let l := match get d k with Some l => l | None => zeros n end in Some (match number v with Some q => set_nth l i q | None => l end)
  | None => get d k
  end.
Proof.
  induction es as [|[k0 v0] es IH]; intros N NI d k; [reflexivity|]. inversion N as [|? ? N1 N2]; subst. cbn [fold_left map fst] in *.
  rewrite IH; [|exact N2|intro C; apply NI; right; exact C].
  assert (G0 : get ((k0, v0) :: es) k = if str_eqb k0 k then Some v0 else get es k) by (unfold get; cbn [find fst]; destruct (str_eqb k0 k); reflexivity). rewrite G0. clear G0.
  assert (PV : get (put_value number n i d (k0, v0)) k = if str_eqb k0 k then Some (let l := match get d k with Some l => l | None => zeros n end in match number v0 with Some q => set_nth l i q | None => l end) else get d k).
  { unfold put_value. cbn [fst snd]. assert (NK : str_eqb k0 (S_ "ID") = false) by (apply not_true_iff_false; intro C; apply str_eqb_eq in C; apply NI; left; exact C). rewrite NK.
    rewrite has_get. destruct (str_eqb k0 k) eqn:K.
    - apply str_eqb_eq in K. subst k0. destruct (get d k) as [l|] eqn:G.
      + destruct (number v0); [rewrite get_put_at, str_eqb_refl, G; reflexivity | exact G].
      + destruct (number v0); [rewrite get_put_at, str_eqb_refl, get_put_same; reflexivity | apply get_put_same].
    - assert (NE : k <> k0) by (intro C; subst k0; rewrite str_eqb_refl in K; discriminate). destruct (get d k0); destruct (number v0); rewrite ?get_put_at, ?K, ?get_put_other by exact NE; reflexivity. }
  rewrite PV. destruct (str_eqb k0 k) eqn:K; [|reflexivity]. apply str_eqb_eq in K. subst k0. rewrite (not_key_get es k N1). reflexivity.
Qed.
Definition columns (n : nat) (pre : list nodeV) (d : @dict (list Q)) : Prop :=
  let col f := Some (map f pre ++ zeros (n - List.length pre)) in
  get d (S_ "ID") = col (fun x => inject_Z (nID x)) /\ get d (S_ "x") = col nx /\ get d (S_ "y") = col ny /\ get d (S_ "z") = col nz /\
  forall k, ~ In k (map S_ ["ID"; "x"; "y"; "z"]%string) -> (known_key k pre -> get d k = col (nodal_number k)) /\ (~ known_key k pre -> get d k = None).
Lemma known_dec k (ns : list nodeV) : known_key k ns \/ ~ known_key k ns.
Proof.
  destruct (existsb (fun x : nodeV => has (ndata x) k) ns) eqn:E.
  - left. apply existsb_exists in E. destruct E as [x [I H]]. exists x. split; [exact I|]. apply has_in. exact H.
  - right. intros [x [I H]]. apply has_in in H. assert (C : existsb (fun x : nodeV => has (ndata x) k) ns = true) by (apply existsb_exists; exists x; auto). congruence.
Qed.
Lemma unknown_zero k (ns : list nodeV) : ~ known_key k ns -> map (nodal_number k) ns = zeros (List.length ns).
Proof.
  induction ns as [|x ns IH]; intro H; [reflexivity|]. cbn. f_equal; [|apply IH; intros [y [I J]]; apply H; exists y; split; [right; exact I|exact J]].
  unfold nodal_number. rewrite not_key_get; [reflexivity|]. intro C. apply H. exists x. split; [left; reflexivity|exact C].
Qed.
Lemma zeros_app a b : zeros a ++ zeros b = zeros (a + b).
Proof. unfold zeros. symmetry. apply repeat_app. Qed.
Lemma put_node_columns n pre x d : List.length pre < n -> plain_keys x -> (pre = [] -> d = []) -> (pre <> [] -> columns n pre d) -> columns n (pre ++ [x]) (put_node number n (List.length pre) d x).
Proof.
  intros L [N NK] D0 D1. set (i := List.length pre) in *.
  assert (C : columns n pre (if i =? 0 then first_columns n else d)).
  { destruct pre as [|y pre]; [|apply D1; discriminate]. cbn [i List.length Nat.eqb]. unfold columns. cbn [map app List.length]. rewrite Nat.sub_0_r. split; [reflexivity|]. split; [reflexivity|]. split; [reflexivity|]. split; [reflexivity|].
    intros k Hk. split; [intros [z [[] _]]|]. intros _. apply not_key_get. exact Hk. }
  clear D0 D1. set (d0 := if i =? 0 then first_columns n else d) in *. unfold put_node. fold d0. cbv zeta.
  destruct C as [C1 [C2 [C3 [C4 C5]]]]. cbn [In map] in NK.
  assert (NI : ~ In (S_ "ID") (map fst (ndata x))) by (intro H; apply (NK _ H); left; reflexivity).
  assert (NX : ~ In (S_ "x") (map fst (ndata x))) by (intro H; apply (NK _ H); right; left; reflexivity).
  assert (NY : ~ In (S_ "y") (map fst (ndata x))) by (intro H; apply (NK _ H); right; right; left; reflexivity).
  assert (NZ : ~ In (S_ "z") (map fst (ndata x))) by (intro H; apply (NK _ H); right; right; right; left; reflexivity).
  assert (ST : forall (f : nodeV -> Q), set_nth (map f pre ++ zeros (n - i)) i (f x) = map f (pre ++ [x]) ++ zeros (n - List.length (pre ++ [x]))).
  { intro f. rewrite map_app, app_length. cbn [map List.length]. replace (n - i) with (S (n - (List.length pre + 1))) by (unfold i; lia). replace i with (List.length (map f pre)) by apply map_length. rewrite set_nth_zeros, <- app_assoc. reflexivity. }
  assert (ST0 : forall (f : nodeV -> Q), set_nth (map f pre ++ zeros (n - i)) i 0%Q = map f pre ++ zeros (n - i)).
  { intro f. replace (n - i) with (S (n - i - 1)) by (unfold i; lia). replace i with (List.length (map f pre)) at 2 by apply map_length. rewrite set_nth_zeros. reflexivity. }
  unfold columns. rewrite !fold_values by assumption. rewrite (not_key_get _ _ NI), (not_key_get _ _ NX), (not_key_get _ _ NY), (not_key_get _ _ NZ). rewrite !get_put_at.
  repeat match goal with |- context [str_eqb (S_ ?a) (S_ ?b)] => let v := eval vm_compute in (str_eqb (S_ a) (S_ b)) in change (str_eqb (S_ a) (S_ b)) with v end. cbv iota.
  rewrite C1, C2, C3, C4. cbn [option_map]. split; [f_equal; apply (ST (fun x => inject_Z (nID x)))|]. split; [f_equal; apply (ST nx)|]. split; [f_equal; apply (ST ny)|]. split; [f_equal; apply (ST nz)|].
  intros k Hk. rewrite fold_values by assumption. rewrite !get_put_at.
  destruct (C5 k Hk) as [K1 K2].
  replace (str_eqb (S_ "z") k) with false by (symmetry; apply not_true_iff_false; intro E; apply str_eqb_eq in E; apply Hk; cbn [map In]; auto).
  replace (str_eqb (S_ "y") k) with false by (symmetry; apply not_true_iff_false; intro E; apply str_eqb_eq in E; apply Hk; cbn [map In]; auto).
  replace (str_eqb (S_ "x") k) with false by (symmetry; apply not_true_iff_false; intro E; apply str_eqb_eq in E; apply Hk; cbn [map In]; auto).
  replace (str_eqb (S_ "ID") k) with false by (symmetry; apply not_true_iff_false; intro E; apply str_eqb_eq in E; apply Hk; cbn [map In]; auto).
  assert (KN : known_key k (pre ++ [x]) <-> known_key k pre \/ In k (map fst (ndata x))).
  { split; [intros [y [I J]]; apply in_app_or in I; destruct I as [I|[<-|[]]]; [left; exists y; auto | right; exact J] | intros [[y [I J]]|J]; [exists y | exists x]; (split; [apply in_or_app|assumption]); [left; exact I | right; left; reflexivity]]. }
  assert (XK : forall v, get (ndata x) k = Some v -> match number v with Some q => set_nth (map (nodal_number k) pre ++ zeros (n - i)) i q | None => map (nodal_number k) pre ++ zeros (n - i) end = map (nodal_number k) (pre ++ [x]) ++ zeros (n - List.length (pre ++ [x]))).
  { intros v G. rewrite <- (ST (nodal_number k)). replace (nodal_number k x) with (match number v with Some q => q | None => 0%Q end) by (unfold nodal_number; rewrite G; reflexivity). destruct (number v) as [q|]; [reflexivity|]. symmetry. apply ST0. }
  split.
  - intro K. rewrite KN in K. destruct (get (ndata x) k) as [v|] eqn:G.
    + cbv zeta. f_equal. destruct (known_dec k pre) as [P|P].
      * rewrite (K1 P). apply XK. reflexivity.
      * rewrite (K2 P). rewrite <- (XK v eq_refl). rewrite (unknown_zero k pre P), zeros_app. replace (List.length pre + (n - i)) with n by (unfold i; lia). reflexivity.
    + destruct K as [K|K]; [|apply key_get in K; destruct K; congruence]. rewrite (K1 K). f_equal. rewrite <- (ST (nodal_number k)). replace (nodal_number k x) with 0%Q by (unfold nodal_number; rewrite G; reflexivity). symmetry. apply ST0.
  - intro K. rewrite KN in K. rewrite not_key_get by (intro C; apply K; right; exact C). apply K2. intro C. apply K. left. exact C.
Qed.
Lemma put_nodes_columns n rest : forall pre d, n = List.length (pre ++ rest) -> Forall plain_keys rest -> (pre = [] -> d = []) -> (pre <> [] -> columns n pre d) -> pre ++ rest <> [] -> columns n (pre ++ rest) (put_nodes number n (List.length pre) d rest).
Proof.
  induction rest as [|x rest IH]; intros pre d E F D0 D1 NE; [rewrite app_nil_r in *; apply D1; exact NE|]. inversion F as [|? ? Fx Fr]; subst. cbn [put_nodes].
  assert (C : columns (List.length (pre ++ x :: rest)) (pre ++ [x]) (put_node number (List.length (pre ++ x :: rest)) (List.length pre) d x)) by (apply put_node_columns; [rewrite app_length; cbn; lia|exact Fx|exact D0|exact D1]).
  specialize (IH (pre ++ [x]) (put_node number (List.length (pre ++ x :: rest)) (List.length pre) d x)). rewrite <- app_assoc in IH. cbn [app] in IH. rewrite (app_length pre [x]) in IH. cbn [List.length] in IH. rewrite Nat.add_1_r in IH.
  apply IH; [reflexivity|exact Fr|intro X; destruct pre; discriminate|intros _; exact C|exact NE].
Qed.
(** One row per node, in order; a column for each key that some node has, with zeros where a node has no number *)
Theorem C117_nodal_frame : forall g : @Graph_Model.graph V, nodes_of g <> [] -> Forall plain_keys (nodes_of g) ->
  get (nodal_frame number g) (S_ "ID") = Some (map (fun x => inject_Z (nID x)) (nodes_of g)) /\ get (nodal_frame number g) (S_ "x") = Some (map nx (nodes_of g)) /\
  get (nodal_frame number g) (S_ "y") = Some (map ny (nodes_of g)) /\ get (nodal_frame number g) (S_ "z") = Some (map nz (nodes_of g)) /\
  forall k, ~ In k (map S_ ["ID"; "x"; "y"; "z"]%string) ->
    (known_key k (nodes_of g) -> get (nodal_frame number g) k = Some (map (nodal_number k) (nodes_of g))) /\ (~ known_key k (nodes_of g) -> get (nodal_frame number g) k = None).
Proof.
  intros g NE F. unfold nodal_frame. fold (nodes_of g). cbv zeta. pose proof (put_nodes_columns (List.length (nodes_of g)) (nodes_of g) [] [] eq_refl F (fun _ => eq_refl) (fun H => False_ind _ (H eq_refl)) NE) as C.
  cbn [app List.length] in C. unfold columns in C. rewrite Nat.sub_diag in C. unfold zeros in C. cbn [repeat] in C. destruct C as [C1 [C2 [C3 [C4 C5]]]]. rewrite app_nil_r in C1, C2, C3, C4. repeat (split; [assumption|]).
  intros k Hk. destruct (C5 k Hk) as [K1 K2]. rewrite app_nil_r in K1. auto.
Qed.
End Frame.
Print Assumptions C117_nodal_frame.
(** Data that are missing at a node, or that are no number, look like zero: two graphs that differ have the same table *)
Theorem C117_missing_data_refuted : exists g g' : @Graph_Model.graph Q, map (fun n => get (ndata n) (S_ "D")) (nodes_of g) <> map (fun n => get (ndata n) (S_ "D")) (nodes_of g') /\
  nodal_frame Some g = nodal_frame Some g'.
Proof.
  exists (add_node (add_node empty_graph (mk_node 1 0 0 0 [(S_ "D", 5%Q)])) (mk_node 2 0 0 1 [])), (add_node (add_node empty_graph (mk_node 1 0 0 0 [(S_ "D", 5%Q)])) (mk_node 2 0 0 1 [(S_ "D", 0%Q)])).
  split; [vm_compute; discriminate | vm_compute; reflexivity].
Qed.
Print Assumptions C117_missing_data_refuted.
Example frame_example : exists g : @Graph_Model.graph Q, nodes_of g <> [] /\ Forall plain_keys (nodes_of g) /\ known_key (S_ "D") (nodes_of g) /\ get (nodal_frame Some g) (S_ "D") = Some [5; 0]%Q.
Proof.
  exists (add_node (add_node empty_graph (mk_node 1 0 0 0 [(S_ "D", 5%Q)])) (mk_node 2 0 0 1 [])). split; [discriminate|]. split; [|split; [|vm_compute; reflexivity]].
  - constructor; [|constructor; [|constructor]]; split; cbn -[S_].
    + constructor; [intros []|constructor].
    + intros k [<-|[]] C. vm_compute in C. intuition discriminate.
    + constructor.
    + intros k [].
  - eexists. split; [left; reflexivity|]. left. reflexivity.
Qed.

(** ** C117: JSON *)
Section Json.
Context {V : Type} (one : V) (is_cylinder : V -> bool) (interp : V -> V -> Q -> option V) (veqb : V -> V -> bool) (argsort : list Q -> list nat).
Local Notation graphV := (@Graph_Model.graph V).
Definition round (e : @eview V) : Prop := forall v, get (vdata e) (S_ "shape") = Some v -> is_cylinder v = true.
Definition value_or (d : @dict V) (k : string) (w v : V) : Prop := get d (S_ k) = Some v \/ (get d (S_ k) = None /\ v = w).
Definition lowest (zs : list Q) (z : Q) : Prop := In z zs /\ forall z', In z' zs -> (z <= z')%Q.
Lemma qmin_lowest zs : forall z, lowest (z :: zs) (fold_left qmin zs z).
Proof.
  induction zs as [|a zs IH]; intro z.
  - split; [left; reflexivity|]. intros z' [<-|[]]. apply Qle_refl.
  - cbn [fold_left]. destruct (IH (qmin z a)) as [I L]. assert (M : (qmin z a <= z)%Q /\ (qmin z a <= a)%Q /\ (qmin z a = z \/ qmin z a = a)).
    { unfold qmin. destruct (Qle_bool z a) eqn:E; [apply Qle_bool_iff in E; repeat split; auto; apply Qle_refl|]. repeat split; auto; [|apply Qle_refl]. apply Qlt_le_weak. apply Qnot_le_lt. intro C. apply Qle_bool_iff in C. congruence. }
    destruct M as [M1 [M2 M3]]. split.
    + destruct I as [I|I]; [rewrite <- I; destruct M3 as [->| ->]; [left|right; left]; reflexivity | right; right; exact I].
    + intros z' [<-|[<-|H]]; [eapply Qle_trans; [apply (L (qmin z a)); left; reflexivity|exact M1] | eapply Qle_trans; [apply (L (qmin z a)); left; reflexivity|exact M2] | apply L; right; exact H].
Qed.
Lemma nodes_same (g g' : graphV) : nodes_of g' = nodes_of g -> map (fun a => nz (node_at g' a)) (gNodes g') = map nz (nodes_of g).
Proof. intro H. rewrite <- H. unfold nodes_of. rewrite map_map. reflexivity. Qed.
Theorem C117_json : forall cs (g : graphV), argsort_spec argsort -> run interp veqb argsort empty_graph cs = Ok g -> NoDup (map nID (nodes_of g)) -> no_late_element false cs = true ->
  nodes_of g <> [] -> Forall round (elements_of g) ->
  exists g' j, to_json one is_cylinder g = (g', Ok j) /\ nodes_of g' = nodes_of g /\ elements_of g' = elements_of g /\
    connects g (j_conn j) /\ j_nodes j = map (fun n => (nx n, ny n, nz n)) (nodes_of g) /\
    Forall2 (fun e p => value_or (vdata e) "Type" one (fst p) /\ value_or (vdata e) "D" one (snd p)) (elements_of g) (j_elems j) /\
    lowest (map nz (nodes_of g)) (j_ground j).
Proof.
  intros cs g AS R N NL NE RO. destruct (C37_connectivity_partial interp veqb argsort cs g AS R N NL) as [g' [c [E [CO [N' E']]]]].
  unfold to_json. rewrite E. cbn [bind].
  assert (M : exists ps, mapM (fun a => elem_json one is_cylinder (elem_at g' a)) (gElements g') = Ok ps /\
     Forall2 (fun e p => value_or (vdata e) "Type" one (fst p) /\ value_or (vdata e) "D" one (snd p)) (elements_of g') ps).
  { rewrite <- E' in RO. unfold elements_of in *. clear -RO. induction (gElements g') as [|a l IH]; [exists []; split; [reflexivity|constructor]|]. inversion RO as [|? ? R1 R2]; subst.
    destruct (IH R2) as [ps [P1 P2]]. cbn [mapM map]. unfold elem_json at 1. unfold round in R1. cbn [view vdata] in R1.
    replace (match get (edata (elem_at g' a)) (S_ "shape") with Some v => is_cylinder v | None => true end) with true by (symmetry; destruct (get (edata (elem_at g' a)) (S_ "shape")) as [v|]; [apply R1; reflexivity|reflexivity]).
    cbn [bind]. rewrite P1. cbn [bind]. eexists. split; [reflexivity|]. constructor; [|exact P2]. cbn [fst snd view vdata]. unfold value_or, or_one.
    split; [destruct (get (edata (elem_at g' a)) (S_ "Type")) | destruct (get (edata (elem_at g' a)) (S_ "D"))]; auto. }
  assert (PT : points g' = map (fun n => (nx n, ny n, nz n)) (nodes_of g)) by (rewrite <- N'; unfold points, nodes_of; rewrite map_map; reflexivity).
  destruct M as [ps [M1 M2]]. rewrite M1. cbn [bind]. rewrite (nodes_same g g' N'). destruct (nodes_of g) as [|n0 ns] eqn:NO; [congruence|]. cbn [map].
  exists g', (mk_json c (points g') ps (fold_left qmin (map nz ns) (nz n0))). split; [reflexivity|]. split; [exact N'|]. split; [exact E'|]. cbn [j_conn j_nodes j_elems j_ground].
  split; [exact CO|]. split; [exact PT|]. split; [rewrite E' in M2; exact M2|]. apply qmin_lowest.
Qed.
(** Without a node, an exception *)
Theorem C117_json_empty : forall g : graphV, gNodes g = [] -> gElements g = [] -> c_conn g = [] -> snd (to_json one is_cylinder g) = Err ValueError.
Proof. intros g H1 H2 H3. unfold to_json, connectivity. rewrite H3, H2. cbn. rewrite H2, H1. reflexivity. Qed.
End Json.
Print Assumptions C117_json.
Print Assumptions C117_json_empty.
(** The diameter of a SubDyn beam is in its properties: in the JSON every member has the diameter one *)
Theorem C117_subdyn_diameter_refuted : forall flt sd beams cables rigids joints members masses ifaces bases g j one is_cyl,
  subdyn_file sd beams cables rigids joints members masses ifaces bases -> sound beams cables rigids joints members masses ifaces bases ->
  to_graph flt sd = Ok g -> snd (to_json one is_cyl g) = Ok j -> Forall (fun p => snd p = one) (j_elems j).
Proof.
  intros flt sd beams cables rigids joints members masses ifaces bases g j one is_cyl F S0 E J.
  destruct (C114_subdyn_graph flt sd _ _ _ _ _ _ _ _ F S0) as [g0 [E0 [_ [EL _]]]]. rewrite E in E0. injection E0 as <-.
  assert (ND : forall a, In a (gElements g) -> get (edata (elem_at g a)) (S_ "D") = None).
  { intros a Ha. assert (Hv : In (view g a) (elements_of g)) by (apply in_map; exact Ha). destruct (Forall2_in_r _ _ _ _ EL Hv) as [m [_ [_ [_ [_ [_ [_ [K _]]]]]]]].
    apply not_key_get. cbn [view vdata] in K. rewrite K. cbn [map]. intro C. vm_compute in C. intuition discriminate. }
  unfold to_json in J. destruct (connectivity g) as [g' [c|]] eqn:C; [|discriminate]. cbn [snd bind] in J.
  assert (X : gElements g' = gElements g /\ forall a, elem_at g' a = elem_at g a).
  { unfold connectivity in C. destruct (c_conn g); [destruct (mapR _ (gElements g)); [|discriminate]|]; injection C as <- _; split; reflexivity. }
  destruct X as [X1 X2]. rewrite X1 in J. destruct (mapM _ (gElements g)) as [ps|] eqn:M; [|discriminate]. cbn [bind] in J. destruct (map _ (gNodes g')); [discriminate|]. injection J as <-. cbn [j_elems].
  clear -M ND X2. revert ps M. induction (gElements g) as [|a l IH]; intros ps M; [injection M as <-; constructor|]. cbn [mapM] in M. unfold elem_json at 1 in M. rewrite X2 in M.
  destruct (match get (edata (elem_at g a)) (S_ "shape") with Some v => is_cyl v | None => true end); [|discriminate]. cbn [bind] in M. rewrite (ND a (or_introl eq_refl)) in M.
  destruct (mapM _ l) as [ps'|] eqn:M'; [|discriminate]. cbn [bind] in M. injection M as <-. constructor; [reflexivity|]. apply IH; [intros b Hb; apply ND; right; exact Hb|reflexivity].
Qed.
Print Assumptions C117_subdyn_diameter_refuted.
Example json_example : exists j, snd (to_json (GInt 1) (fun _ => true) (match to_graph (fun _ => None) ex_sd with Ok g => g | Err _ => empty_graph end)) = Ok j /\
  j_conn j = [[0; 1]; [2; 1]] /\ (j_ground j == -20)%Q.
Proof. eexists. split; [vm_compute; reflexivity|]. split; reflexivity. Qed.
