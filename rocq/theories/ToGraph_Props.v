(** Properties C114 to C116: graphs of SubDyn and HydroDyn files, and what is written of a graph. *)
From Verif Require Import Py PyFacts ListFacts Graph_Model Graph_Spec Graph_Proofs Graph_Conn Graph_Divide Graph_Props.
From Verif Require Import ToGraph_Model.
From Verif Require Import Dict.
From Coq Require Import QArith Lia Permutation.
Local Open Scope nat_scope.
Local Notation get := Dict.get.
Local Notation node := (@Graph_Model.node gval). Local Notation graph := (@Graph_Model.graph gval). Local Notation elem := (@Graph_Model.elem gval).
Local Notation prop := (@Graph_Model.prop gval).

(** ** What the tables of a SubDyn file say *)
Record joint := mk_joint { j_id : Z; j_x : Q; j_y : Q; j_z : Q; j_type : option Q }.
Record material := mk_mat { a_id : Z; a_values : list Q }.
Record member_ := mk_member { m_id : Z; m_a : Z; m_b : Z; m_pa : Z; m_pb : Z; m_kind : option Z }.
Record mass := mk_mass { c_joint : Z; c_m : Q; c_xx : Q; c_yy : Q; c_zz : Q; c_xy : Q; c_xz : Q; c_yz : Q; c_x : Q; c_y : Q; c_z : Q }.
Record iface := mk_iface { i_joint : Z; i_cells : list cell }.
Record base := mk_base { b_joint : Z; b_flags : list Z; b_more : list cell }.
(** A cell with a whole number: as a number or as a text *)
Definition says (c : cell) (z : Z) : Prop := c = CN (inject_Z z) \/ c = CT (str_of_Z z).
Definition opt {A} (o : option A) : list A := match o with Some x => [x] | None => [] end.
Definition joint_row (j : joint) : list cell := CN (inject_Z (j_id j)) :: map CN ([j_x j; j_y j; j_z j] ++ opt (j_type j)).
Definition material_row (a : material) : list cell := CN (inject_Z (a_id a)) :: map CN (a_values a).
Definition member_row (m : member_) (r : list cell) : Prop := Forall2 says r ([m_id m; m_a m; m_b m; m_pa m; m_pb m] ++ opt (m_kind m)).
Definition mass_row (c : mass) : list cell := CN (inject_Z (c_joint c)) :: map CN [c_m c; c_xx c; c_yy c; c_zz c; c_xy c; c_xz c; c_yz c; c_x c; c_y c; c_z c].
Definition iface_row (i : iface) (r : list cell) : Prop := exists c, r = c :: i_cells i /\ says c (i_joint i).
Definition base_row (b : base) (r : list cell) : Prop :=
  exists c fs, r = c :: fs ++ b_more b /\ says c (b_joint b) /\ List.length fs = 6 /\ Forall2 says fs (b_flags b).
Definition as_is (c : cell) : gval := match c with CN q => GNum q | CT s => GText s end.
(** Beams have six columns, cables four or five, rigid links two *)
Definition kind_of (m : member_) : Z := match m_kind m with Some k => k | None => 1%Z end.
Definition kind_name (k : Z) : str := if (k =? 1)%Z then S_ "Beam" else if (k =? 2)%Z then S_ "Cable" else S_ "Rigid".
Definition names_values (ks : list string) (vs : list gval) : @dict gval := combine (map S_ ks) vs.
Definition beam_data (a : material) : @dict gval := names_values ["E"; "G"; "rho"; "D"; "t"]%string (map GNum (a_values a)).
Definition cable_data (a : material) : @dict gval := names_values ["EA"; "rho"; "T0"; "Chan"]%string (map GNum (firstn 4 (a_values a)) ++ [GInt (-1)]).
Definition rigid_data (a : material) : @dict gval := names_values ["rho"]%string (map GNum (a_values a)).
Definition given (d : data) (k : string) (t : table) : Prop := get d (S_ k) = Some t.
Definition perhaps (d : data) (k : string) (t : option table) : Prop := get d (S_ k) = t.

(** A rigid body of mass [m] at the place (x,y,z) with the inertia J about its own centre, seen from the joint: the matrix is symmetric
    and gives twice the kinetic energy of the body for every velocity v and rotation w of the joint *)
Definition dot (u v : list Q) : Q := fold_right Qplus 0%Q (map (fun p => fst p * snd p)%Q (combine u v)).
Definition form (M : list (list Q)) (u : list Q) : Q := dot u (map (fun r => dot r u) M).
Definition rigid_body (c : mass) (M : list (list Q)) : Prop :=
  List.length M = 6 /\ Forall (fun r => List.length r = 6) M /\ (forall i j : nat, i < 6 -> j < 6 -> (nth j (nth i M []) 0 == nth i (nth j M []) 0)%Q) /\
  forall vx vy vz wx wy wz : Q,
    (form M [vx; vy; vz; wx; wy; wz] ==
     c_m c * ((vx + (wy * c_z c - wz * c_y c)) ^ 2 + (vy + (wz * c_x c - wx * c_z c)) ^ 2 + (vz + (wx * c_y c - wy * c_x c)) ^ 2) +
     (c_xx c * wx ^ 2 + c_yy c * wy ^ 2 + c_zz c * wz ^ 2 + 2 * c_xy c * wx * wy + 2 * c_xz c * wx * wz + 2 * c_yz c * wy * wz))%Q.
(** The last entry of a table that is about the joint *)
Definition last_for {A} (key : A -> Z) (id : Z) (l : list A) : option A := find (fun x => Z.eqb (key x) id) (rev l).
Definition node_of_joint (masses : list mass) (ifaces : list iface) (bases : list base) (j : joint) (n : node) : Prop :=
  nID n = j_id j /\ nx n = j_x j /\ ny n = j_y j /\ nz n = j_z j /\
  get (ndata n) (S_ "Type") = Some (match j_type j with Some t => GNum t | None => GInt 1 end) /\
  match last_for c_joint (j_id j) masses with
  | Some c => exists M, get (ndata n) (S_ "addedMassMatrix") = Some (GMat M) /\ rigid_body c M
  | None => get (ndata n) (S_ "addedMassMatrix") = None
  end /\
  get (ndata n) (S_ "IBC") = option_map (fun i => GSeq (map as_is (i_cells i))) (last_for i_joint (j_id j) ifaces) /\
  get (ndata n) (S_ "RBC") = option_map (fun b => GSeq (map GInt (b_flags b) ++ map as_is (b_more b))) (last_for b_joint (j_id j) bases) /\
  forall k, ~ In k (map S_ ["Type"; "addedMassMatrix"; "IBC"; "RBC"]%string) -> get (ndata n) k = None.
Definition elem_of_member (g : graph) (m : member_) (e : @eview gval) : Prop :=
  vID e = m_id m /\ vnodeIDs e = [m_a m; m_b m] /\
  (exists a b, vends e = [a; b] /\ In a (nodes_of g) /\ In b (nodes_of g) /\ nID a = m_a m /\ nID b = m_b m) /\
  vpropset e = Some (kind_name (kind_of m)) /\ vpropIDs e = Some (true, [m_pa m; m_pb m]) /\
  map fst (vdata e) = map S_ ["Type"; "object"; "color"]%string /\ get (vdata e) (S_ "Type") = Some (GText (kind_name (kind_of m))) /\
  get (vdata e) (S_ "object") = Some (GText (S_ "cylinder")).

(** ** Proofs *)
Lemma mapM_all {A B} (f : A -> res B) l l' : Forall2 (fun x y => f x = Ok y) l l' -> mapM f l = Ok l'.
Proof. induction 1 as [|x y l l' H F IH]; [reflexivity|]. cbn. rewrite H. cbn. rewrite IH. reflexivity. Qed.
Lemma int_q_Z z : int_q (inject_Z z) = z.
Proof. unfold int_q. cbn. apply Z.quot_1_r. Qed.
Lemma says_int c z : says c z -> int_c c = Ok z.
Proof. intros [->| ->]; cbn; [rewrite int_q_Z; reflexivity | apply int_str_of_Z]. Qed.
Lemma says_all l zs : Forall2 says l zs -> mapM int_c l = Ok zs.
Proof. intro H. apply mapM_all. eapply F2_imp; [|exact H]. cbn beta. intros x y _ _. apply says_int. Qed.

(** The graphs that are made: the lists of nodes and elements are the heaps *)
Definition St (g : graph) (ns : list node) (es : list elem) (ps : @dict (list prop)) : Prop :=
  nheap g = ns /\ gNodes g = seq 0 (List.length ns) /\ eheap g = es /\ gElements g = seq 0 (List.length es) /\ propsets g = ps /\ Inv g /\
  modes g = 0 /\ motions g = 0 /\ c_conn g = [].
Lemma St_nodes g ns es ps : St g ns es ps -> nodes_of g = ns.
Proof. intros [H1 [H2 _]]. unfold nodes_of. rewrite H2. apply (map_node_at_seq g ns H1 [] ns eq_refl). Qed.
Lemma St_empty : St empty_graph [] [] [].
Proof. repeat (split; [reflexivity|]). split; [apply empty_inv|]. repeat split. Qed.
Lemma St_props g ns es ps s ps' : St g ns es ps -> St (with_props g (put ps s ps')) ns es (put ps s ps').
Proof. intros [H1 [H2 [H3 [H4 [H5 [[A B] H7]]]]]]. repeat (split; [first [assumption | reflexivity]|]). split; [split; [exact A|exact B]|exact H7]. Qed.
Lemma put_put {W} (d : @dict W) k v w : put (put d k v) k w = put d k w.
Proof.
  induction d as [|e d IH]; cbn; [rewrite str_eqb_refl; reflexivity|]. destruct (str_eqb (fst e) k) eqn:E; cbn; [rewrite str_eqb_refl; reflexivity|]. rewrite E. f_equal. exact IH.
Qed.
Lemma add_each_St mk rows ps' : forall i qs g ns es ps s, St g ns es (put ps s qs) ->
  (forall k, nth_error (map (fun p => Ok (A := prop) p) ps') k = match nth_error rows k with Some P => Some (mk (i + k) P) | None => None end) ->
  exists g', add_each g s mk i rows = Ok g' /\ St g' ns es (put ps s (qs ++ ps')).
Proof.
  revert rows. induction ps' as [|p ps' IH]; intros rows i qs g ns es ps s H R.
  - destruct rows as [|P rows]; [|specialize (R 0); discriminate]. exists g. rewrite app_nil_r. auto.
  - destruct rows as [|P rows]; [specialize (R 0); discriminate|]. cbn. pose proof (R 0) as R0. cbn in R0. rewrite Nat.add_0_r in R0. injection R0 as R0. rewrite <- R0. cbn.
    unfold add_prop. destruct H as [H1 [H2 [H3 [H4 [H5 H6]]]]]. rewrite H5, get_put_same, put_put.
    destruct (IH rows (S i) (qs ++ [p]) (with_props g (put ps s (qs ++ [p]))) ns es ps s) as [g' [E S']].
    + rewrite <- (put_put ps s qs (qs ++ [p])). apply (St_props g ns es). repeat (split; [assumption|]). exact H6.
    + intro k. specialize (R (S k)). cbn in R. rewrite R. replace (S i + k) with (i + S k) by lia. reflexivity.
    + exists g'. split; [exact E|]. rewrite <- app_assoc in S'. exact S'.
Qed.
(** A table of properties, and its absence *)
Lemma add_set_St sd key set mk g ns es ps ps' rows : St g ns es ps -> given sd key rows ->
  (forall k, nth_error (map (fun p => Ok (A := prop) p) ps') k = match nth_error rows k with Some P => Some (mk k P) | None => None end) ->
  exists g', add_set sd key set mk g = Ok g' /\ St g' ns es (put ps (S_ set) ps').
Proof.
  intros H G R. unfold add_set. unfold given in G. rewrite G.
  destruct (add_each_St mk rows ps' 0 [] (add_propset g (S_ set)) ns es ps (S_ set)) as [g' E]; [|exact R|exists g'; exact E].
  unfold add_propset. destruct H as [H1 [H2 [H3 [H4 [H5 H6]]]]]. rewrite H5. apply (St_props g ns es ps). repeat (split; [assumption|]). exact H6.
Qed.
Lemma rows_props {A} (mk : nat -> list cell -> res prop) (row : A -> list cell) (p : A -> prop) l : (forall i a, In a l -> mk i (row a) = Ok (p a)) ->
  forall k, nth_error (map (fun p => Ok (A := prop) p) (map p l)) k = match nth_error (map row l) k with Some P => Some (mk k P) | None => None end.
Proof.
  intros H k. rewrite map_map, !nth_error_map. destruct (nth_error l k) as [a|] eqn:E; [|reflexivity]. cbn. rewrite (H k a); [reflexivity|]. apply (nth_error_In _ _ E).
Qed.

Lemma beam_ok i a : List.length (a_values a) = 5 -> beam_prop i (material_row a) = Ok (mk_prop (a_id a) (beam_data a)).
Proof.
  intro L. unfold beam_data, names_values. unfold material_row. destruct (a_values a) as [|q1 [|q2 [|q3 [|q4 [|q5 [|]]]]]]; try discriminate. unfold beam_prop, named_prop. cbn -[S_]. rewrite int_q_Z. reflexivity.
Qed.
Lemma cable_ok i a : List.length (a_values a) = 3 \/ List.length (a_values a) = 4 -> cable_prop i (material_row a) = Ok (mk_prop (a_id a) (cable_data a)).
Proof.
  intro L. unfold cable_data, names_values. unfold material_row. destruct (a_values a) as [|q1 [|q2 [|q3 [|q4 [|]]]]]; cbn in L; try lia; unfold cable_prop; cbn -[S_]; rewrite int_q_Z; reflexivity.
Qed.
Lemma rigid_ok i a : List.length (a_values a) = 1 -> rigid_prop i (material_row a) = Ok (mk_prop (a_id a) (rigid_data a)).
Proof.
  intro L. unfold rigid_data, names_values. unfold material_row. destruct (a_values a) as [|q1 [|]]; try discriminate. unfold rigid_prop, named_prop. cbn -[S_]. rewrite int_q_Z. reflexivity.
Qed.

(** *** Joints *)
Definition first_data (j : joint) : @dict gval := [(S_ "Type", match j_type j with Some t => GNum t | None => GInt 1 end)].
Definition first_node (j : joint) : node := mk_node (j_id j) (j_x j) (j_y j) (j_z j) (first_data j).
Lemma joint_ok j : joint_node (joint_row j) = Ok (first_node j).
Proof. unfold joint_node, joint_row, first_node, first_data. destruct (j_type j); cbn -[S_]; rewrite int_q_Z; reflexivity. Qed.
Lemma add_node_St g ns es ps n : St g ns es ps -> St (add_node g n) (ns ++ [n]) es ps.
Proof.
  intros [H1 [H2 [H3 [H4 [H5 [H6 H7]]]]]]. split; [cbn; rewrite H1; reflexivity|]. split; [cbn; rewrite H1, H2, app_length; cbn; rewrite seq_app; reflexivity|].
  repeat (split; [assumption|]). split; [apply add_node_inv; exact H6 | exact H7].
Qed.
Lemma add_nodes_St js : forall g ns es ps, St g ns es ps -> exists g', add_nodes g (map joint_row js) = Ok g' /\ St g' (ns ++ map first_node js) es ps.
Proof.
  induction js as [|j js IH]; intros g ns es ps H; [exists g; rewrite app_nil_r; auto|]. cbn [map add_nodes]. rewrite joint_ok. cbn [bind].
  destruct (IH (add_node g (first_node j)) (ns ++ [first_node j]) es ps (add_node_St g ns es ps _ H)) as [g' [E S']]. exists g'. split; [exact E|]. rewrite <- app_assoc in S'. exact S'.
Qed.

(** *** Members *)
Lemma set_nth_last {A} (l : list A) x y : set_nth (l ++ [x]) (List.length l) y = l ++ [y].
Proof. induction l as [|z l IH]; [reflexivity|]. cbn. f_equal. exact IH. Qed.
Lemma add_element_St g ns es ps e set l : St g ns es ps -> incl (enodeIDs e) (map nID ns) -> epropset e = Some set -> epropIDs e = Some (true, l) ->
  (exists qs, get ps set = Some qs /\ forall i, In i l -> In i (map pID qs)) ->
  exists g' nds qs, add_element g e = (g', Ok tt) /\ St g' ns (es ++ [resolved e nds (Some qs)]) ps.
Proof.
  intros H HI HS HP [qs [K1 K2]]. pose proof H as [H1 [H2 [H3 [H4 [H5 [H6 H7]]]]]].
  assert (ID : ids g = map nID ns) by (rewrite ids_nodes, (St_nodes _ _ _ _ H); reflexivity).
  destruct (mapR_get_node_exists g (enodeIDs e)) as [nds En]; [rewrite ID; exact HI|].
  assert (PR : exists rs, get_props g (Some set) l = Ok rs).
  { clear HP. induction l as [|i l IH]; [eexists; reflexivity|]. destruct IH as [rs IH]; [intros x Hx; apply K2; right; exact Hx|]. unfold get_props in *. cbn.
    assert (E : exists p, get_prop g set i = Ok p).
    { unfold get_prop. rewrite H5, K1. destruct (find _ qs) eqn:F; [eexists; reflexivity|]. exfalso. specialize (K2 i (or_introl eq_refl)). apply in_map_iff in K2. destruct K2 as [p [<- Hp]].
      pose proof (find_none _ _ F p Hp) as X. cbn in X. rewrite Z.eqb_refl in X. discriminate. }
    destruct E as [p ->]. cbn. rewrite IH. eexists. reflexivity. }
  destruct PR as [rs PR].
  assert (E : exists g', add_element g e = (g', Ok tt) /\ nheap g' = ns /\ gNodes g' = gNodes g /\ eheap g' = es ++ [resolved e nds (Some rs)] /\ gElements g' = gElements g ++ [List.length es] /\
              propsets g' = ps /\ modes g' = 0 /\ motions g' = 0 /\ c_conn g' = []).
  { unfold add_element, new_elem. rewrite HS, HP. unfold add_element_at. rewrite H3.
    replace (elem_at (with_elems g (es ++ [e]) (gElements g)) (List.length es)) with e by (unfold elem_at; cbn; rewrite app_nth2, Nat.sub_diag by lia; reflexivity).
    change (mapR (get_node (with_elems g (es ++ [e]) (gElements g))) (enodeIDs e)) with (mapR (get_node g) (enodeIDs e)). rewrite En, HP, HS.
    match goal with |- context [get_props ?g1 (Some set) l] => change (get_props g1 (Some set) l) with (get_props g (Some set) l) end. rewrite PR.
    eexists. split; [reflexivity|]. cbn. rewrite !set_nth_last. destruct H7 as [H7 [H8 H9]]. unfold resolved. rewrite HP, HS. repeat split; assumption. }
  destruct E as [g' [E [E1 [E2 [E3 [E4 [E5 E6]]]]]]]. exists g', nds, rs. split; [exact E|]. split; [exact E1|]. split; [rewrite E2; exact H2|]. split; [exact E3|].
  split; [rewrite E4, H4, app_length; cbn; rewrite seq_app; reflexivity|]. split; [exact E5|]. split; [exact (proj1 (add_element_inv g e g' E H6))|exact E6].
Qed.
Definition member_elem (m : member_) : elem :=
  mk_elem (m_id m) [m_a m; m_b m] [] (Some (kind_name (kind_of m))) (Some (true, [m_pa m; m_pb m]))
    [(S_ "Type", GText (kind_name (kind_of m))); (S_ "object", GText (S_ "cylinder"));
     (S_ "color", if (kind_of m =? 1)%Z then GColor (753#1000) (561#1000) (5#100) else if (kind_of m =? 2)%Z then GColor (541#1000) (753#1000) (5#100) else GColor (753#1000) (5#100) (204#1000))] None.
Lemma member_ok m : (1 <= kind_of m <= 3)%Z -> member ([m_id m; m_a m; m_b m; m_pa m; m_pb m] ++ opt (m_kind m)) = Ok (member_elem m).
Proof.
  intro K. unfold member, member_elem. unfold kind_of in *. destruct (m_kind m) as [k|]; [|reflexivity]. cbn [opt app].
  assert (C : (k = 1 \/ k = 2 \/ k = 3)%Z) by lia. destruct C as [->|[->| ->]]; reflexivity.
Qed.
Definition member_fits (js : list joint) (ps : @dict (list prop)) (m : member_) : Prop :=
  In (m_a m) (map j_id js) /\ In (m_b m) (map j_id js) /\ (1 <= kind_of m <= 3)%Z /\
  exists qs, get ps (kind_name (kind_of m)) = Some qs /\ In (m_pa m) (map pID qs) /\ In (m_pb m) (map pID qs).
Lemma add_members_St js ms : forall g ns es ps, St g ns es ps -> map nID ns = map j_id js -> Forall (member_fits js ps) ms ->
  exists g' es', add_members g (map (fun m => [m_id m; m_a m; m_b m; m_pa m; m_pb m] ++ opt (m_kind m)) ms) = Ok g' /\ St g' ns (es ++ es') ps /\ Forall2 (fun m e => alike (member_elem m) e) ms es'.
Proof.
  induction ms as [|m ms IH]; intros g ns es ps H N F; [exists g, []; rewrite app_nil_r; auto|]. inversion F as [|? ? [F1 [F2 [F3 [qs [F4 [F5 F6]]]]]] F']; subst.
  cbn [map add_members]. rewrite member_ok by exact F3. cbn [bind].
  destruct (add_element_St g ns es ps (member_elem m) (kind_name (kind_of m)) [m_pa m; m_pb m] H) as [g1 [nds [rs [E S1]]]]; [|reflexivity|reflexivity| |].
  - rewrite N. intros x [<-|[<-|[]]]; assumption.
  - exists qs. split; [exact F4|]. intros x [<-|[<-|[]]]; assumption.
  - rewrite E. destruct (IH g1 ns _ ps S1 N F') as [g' [es' [E' [S' F2']]]]. exists g', (resolved (member_elem m) nds (Some rs) :: es'). split; [exact E'|]. split; [rewrite <- app_assoc in S'; exact S'|].
    constructor; [repeat split|exact F2'].
Qed.

(** *** Data of nodes *)
Definition upd (u : Z * @dict gval) (n : node) : node := if Z.eqb (nID n) (fst u) then mk_node (nID n) (nx n) (ny n) (nz n) (update (ndata n) (snd u)) else n.
Definition upds (us : list (Z * @dict gval)) (n : node) : node := fold_left (fun n u => upd u n) us n.
Lemma set_nth_map (f : node -> node) id : forall (ns : list node) a, NoDup (map nID ns) -> a < List.length ns -> nID (nth a ns null_node) = id ->
  set_nth ns a (f (nth a ns null_node)) = map (fun n => if Z.eqb (nID n) id then f n else n) ns.
Proof.
  induction ns as [|n ns IH]; intros a N L E; [cbn in L; lia|]. inversion N as [|? ? N1 N2]; subst. destruct a as [|a]; cbn.
  - rewrite Z.eqb_refl. f_equal. cbn in N1. symmetry. rewrite <- (map_id ns) at 2. apply map_ext_in. intros x Hx. destruct (Z.eqb_spec (nID x) (nID n)) as [C|]; [|reflexivity]. exfalso. apply N1. rewrite <- C. apply in_map. exact Hx.
  - cbn in L. rewrite IH; [|exact N2|lia|reflexivity]. f_equal. cbn in N1. destruct (Z.eqb_spec (nID n) (nID (nth a ns null_node))) as [C|]; [|reflexivity]. exfalso. apply N1. rewrite C. apply in_map. apply nth_In. lia.
Qed.
Lemma set_data_St g ns es ps a id d : St g ns es ps -> NoDup (map nID ns) -> In a (gNodes g) -> nID (node_at g a) = id -> St (set_data g a d) (map (upd (id, d)) ns) es ps.
Proof.
  intros H N I1 I2. pose proof H as [H1 [H2 [H3 [H4 [H5 [H6 H7]]]]]]. rewrite H2 in I1. apply in_seq in I1. unfold node_at in I2. rewrite H1 in I2.
  split; [|split; [|repeat (split; [assumption|]); split; [apply set_data_inv; exact H6 | exact H7]]].
  - unfold set_data, set_node, node_at. cbn [nheap with_nodes]. rewrite H1.
    rewrite (set_nth_map (fun n => mk_node (nID n) (nx n) (ny n) (nz n) (update (ndata n) d)) id ns a N); [reflexivity|lia|exact I2].
  - cbn. rewrite H2, map_length. reflexivity.
Qed.
Lemma upd_id u n : nID (upd u n) = nID n.
Proof. unfold upd. destruct (Z.eqb _ _); reflexivity. Qed.
Lemma upd_ids u ns : map nID (map (upd u) ns) = map nID ns.
Proof. rewrite map_map. apply map_ext. intro n. apply upd_id. Qed.
Lemma St_get g ns es ps id : St g ns es ps -> In id (map nID ns) -> exists a, get_node g id = Ok a.
Proof. intros H I. apply get_node_exists. rewrite ids_nodes, (St_nodes _ _ _ _ H). exact I. Qed.

Definition mass_mat (c : mass) : list (list Q) := mass_matrix (c_m c) (c_xx c) (c_yy c) (c_zz c) (c_xy c) (c_xz c) (c_yz c) (c_x c) (c_y c) (c_z c).
Definition mass_upd (c : mass) : Z * @dict gval := (c_joint c, [(S_ "addedMassMatrix", GMat (mass_mat c))]).
Definition iface_upd (i : iface) : Z * @dict gval := (i_joint i, [(S_ "IBC", GSeq (map as_is (i_cells i)))]).
Definition base_upd (b : base) : Z * @dict gval := (b_joint b, [(S_ "RBC", GSeq (map GInt (b_flags b) ++ map as_is (b_more b)))]).
Lemma add_masses_St cs : forall g ns es ps, St g ns es ps -> NoDup (map nID ns) -> incl (map c_joint cs) (map nID ns) ->
  exists g', add_masses g (map mass_row cs) = Ok g' /\ St g' (map (upds (map mass_upd cs)) ns) es ps.
Proof.
  induction cs as [|c cs IH]; intros g ns es ps H N I; [exists g; split; [reflexivity|]; cbn; rewrite map_id; exact H|].
  destruct (St_get g ns es ps (c_joint c) H) as [a Ea]; [apply I; left; reflexivity|].
  cbn [map add_masses]. unfold mass_row at 1. cbn [at_ nth_error bind]. unfold node_of_cell. rewrite int_q_Z. replace (Qeq_bool (inject_Z (c_joint c)) (inject_Z (c_joint c))) with true by (symmetry; apply Qeq_bool_iff; reflexivity).
  rewrite Ea. cbn [bind]. change (mass_of (mass_row c)) with (Ok (GMat (mass_mat c))). cbn [bind]. destruct (get_node_in g _ a Ea) as [A1 A2].
  destruct (IH (set_data g a [(S_ "addedMassMatrix", GMat (mass_mat c))]) (map (upd (mass_upd c)) ns) es ps) as [g' [E S']].
  - apply set_data_St; assumption.
  - rewrite upd_ids. exact N.
  - rewrite upd_ids. intros x Hx. apply I. right. exact Hx.
  - exists g'. split; [exact E|]. rewrite map_map in S'. exact S'.
Qed.
Lemma add_nodal_St key f us rows : forall g ns es ps, St g ns es ps -> NoDup (map nID ns) -> incl (map fst us) (map nID ns) ->
  Forall2 (fun u r => exists c v, at_ r 0 = Ok c /\ int_c c = Ok (fst u) /\ f r = Ok v /\ snd u = [(S_ key, v)]) us rows ->
  exists g', add_nodal g key f rows = Ok g' /\ St g' (map (upds us) ns) es ps.
Proof.
  intros g ns es ps H N I F. revert g ns es ps H N I. induction F as [|u r us rows [c [v [F1 [F2 [F3 F4]]]]] F IH]; intros g ns es ps H N I; [exists g; split; [reflexivity|]; cbn; rewrite map_id; exact H|].
  destruct (St_get g ns es ps (fst u) H) as [a Ea]; [apply I; left; reflexivity|]. destruct (get_node_in g _ a Ea) as [A1 A2].
  cbn [add_nodal]. rewrite F1. cbn [bind]. rewrite F2. cbn [bind]. rewrite F3. cbn [bind]. unfold set_nodal_data. rewrite Ea. rewrite <- F4.
  destruct (IH (set_data g a (snd u)) (map (upd u) ns) es ps) as [g' [E S']].
  - destruct u as [id kv]. apply set_data_St; assumption.
  - rewrite upd_ids. exact N.
  - rewrite upd_ids. intros x Hx. apply I. right. exact Hx.
  - exists g'. split; [exact E|]. rewrite map_map in S'. exact S'.
Qed.
Lemma upds_app us us' n : upds (us ++ us') n = upds us' (upds us n).
Proof. unfold upds. apply fold_left_app. Qed.
Lemma upds_cons u us n : upds (u :: us) n = upds us (upd u n).
Proof. reflexivity. Qed.
Lemma upds_fixed us : forall n, nID (upds us n) = nID n /\ nx (upds us n) = nx n /\ ny (upds us n) = ny n /\ nz (upds us n) = nz n.
Proof. induction us as [|u us IH]; intro n; [repeat split|]. rewrite upds_cons. destruct (IH (upd u n)) as [H1 [H2 [H3 H4]]]. rewrite H1, H2, H3, H4. unfold upd. destruct (Z.eqb _ _); repeat split. Qed.
Lemma upds_ids us ns : map nID (map (upds us) ns) = map nID ns.
Proof. rewrite map_map. apply map_ext. intro n. apply upds_fixed. Qed.
(** Entries about one key *)
Lemma upds_get {A} (key : A -> Z) K (val : A -> gval) l n k :
  get (ndata (upds (map (fun x => (key x, [(K, val x)])) l) n)) k =
  if str_eqb K k then match last_for key (nID n) l with Some x => Some (val x) | None => get (ndata n) k end else get (ndata n) k.
Proof.
  unfold last_for. induction l as [|x l IH] using rev_ind; [cbn; destruct (str_eqb K k); reflexivity|]. rewrite map_app, upds_app, rev_app_distr. cbn [map app find rev].
  set (n1 := upds _ n) in *. unfold upds. cbn [fold_left]. unfold upd. cbn [fst snd]. destruct (upds_fixed (map (fun x => (key x, [(K, val x)])) l) n) as [I _]. fold n1 in I. rewrite I.
  rewrite (Z.eqb_sym (key x) (nID n)). destruct (Z.eqb (nID n) (key x)) eqn:E; [|exact IH].
  cbn [ndata]. rewrite get_update by (constructor; [intros []|constructor]). unfold get at 1. cbn [find fst]. destruct (str_eqb K k); [reflexivity|exact IH].
Qed.

(** *** The graph *)
Definition sets_of (beams : list material) (cables rigids : option (list material)) : @dict (list prop) :=
  let p d a := mk_prop (a_id a) (d a) in
  [(S_ "Beam", map (p beam_data) beams)] ++ opt (option_map (fun l => (S_ "Cable", map (p cable_data) l)) cables) ++ opt (option_map (fun l => (S_ "Rigid", map (p rigid_data) l)) rigids).
Definition wide (ws : list nat) (l : list material) : Prop := Forall (fun a => In (List.length (a_values a)) ws) l.
Definition materials (beams : list material) (cables rigids : option (list material)) (k : Z) : list material :=
  if (k =? 1)%Z then beams else concat (opt (if (k =? 2)%Z then cables else rigids)).
(** The tables of a file say these things *)
Record subdyn_file (sd : data) beams cables rigids joints members masses ifaces bases : Prop := {
  f_beams : given sd "BeamProp" (map material_row beams); f_beams5 : wide [5] beams;
  f_cables : perhaps sd "CableProp" (option_map (map material_row) cables); f_cables34 : wide [3; 4] (concat (opt cables));
  f_rigids : perhaps sd "RigidProp" (option_map (map material_row) rigids); f_rigids1 : wide [1] (concat (opt rigids));
  f_joints : given sd "Joints" (map joint_row joints);
  f_members : exists rows, given sd "Members" rows /\ Forall2 member_row members rows;
  f_masses : given sd "ConcentratedMasses" (map mass_row masses);
  f_ifaces : exists rows, given sd "InterfaceJoints" rows /\ Forall2 iface_row ifaces rows;
  f_bases : exists rows, given sd "BaseJoints" rows /\ Forall2 base_row bases rows }.
Record sound beams cables rigids joints members masses ifaces bases : Prop := {
  s_joints : NoDup (map j_id joints);
  s_ends : forall m, In m members -> In (m_a m) (map j_id joints) /\ In (m_b m) (map j_id joints);
  s_kinds : forall m, In m members -> (1 <= kind_of m <= 3)%Z;
  s_props : forall m, In m members -> In (m_pa m) (map a_id (materials beams cables rigids (kind_of m))) /\ In (m_pb m) (map a_id (materials beams cables rigids (kind_of m)));
  s_masses : incl (map c_joint masses) (map j_id joints);
  s_ifaces : incl (map i_joint ifaces) (map j_id joints);
  s_bases : incl (map b_joint bases) (map j_id joints) }.

Lemma put_new {W} (d : @dict W) k v : get d k = None -> put d k v = d ++ [(k, v)].
Proof.
  induction d as [|e d IH]; intro H; [reflexivity|]. unfold get in *. cbn in H |- *. destruct (str_eqb (fst e) k) eqn:E; [discriminate|]. f_equal. apply IH. exact H.
Qed.
Lemma maybe_set_St sd key set mk p rows g ns es ps : St g ns es ps -> perhaps sd key (option_map (map material_row) rows) -> get ps (S_ set) = None ->
  (forall i a, In a (concat (opt rows)) -> mk i (material_row a) = Ok (p a)) ->
  exists g', add_set sd key set mk g = Ok g' /\ St g' ns es (ps ++ opt (option_map (fun l => (S_ set, map p l)) rows)).
Proof.
  intros H G N M. destruct rows as [l|].
  - destruct (add_set_St sd key set mk g ns es ps (map p l) (map material_row l) H G) as [g' [E S']].
    + apply rows_props. intros i a Ha. apply M. cbn. rewrite app_nil_r. exact Ha.
    + exists g'. split; [exact E|]. cbn. rewrite <- put_new by exact N. exact S'.
  - exists g. unfold add_set. unfold perhaps in G. rewrite G. cbn. rewrite app_nil_r. auto.
Qed.
Lemma rigid_body_mass c : rigid_body c (mass_mat c).
Proof.
  unfold rigid_body, mass_mat, mass_matrix. split; [reflexivity|]. split; [repeat constructor|]. split.
  - intros i j Hi Hj. do 6 (destruct i as [|i]; [do 6 (destruct j as [|j]; [cbn [nth]; reflexivity|]); lia|]). lia.
  - intros. unfold form, dot. cbn [map combine fold_right fst snd]. ring.
Qed.
Definition whole_rows (ms : list member_) : list (list Z) := map (fun m => [m_id m; m_a m; m_b m; m_pa m; m_pb m] ++ opt (m_kind m)) ms.
Lemma whole_members ms rows : Forall2 member_row ms rows -> mapM (mapM int_c) rows = Ok (whole_rows ms).
Proof. induction 1 as [|m r ms rows H F IH]; [reflexivity|]. cbn [mapM whole_rows map]. rewrite (says_all _ _ H). cbn [bind]. fold (whole_rows ms). rewrite IH. reflexivity. Qed.
Section Sub.
Context (flt : str -> option Q) (sd : data) (beams : list material) (cables rigids : option (list material)) (joints : list joint) (members : list member_) (masses : list mass) (ifaces : list iface) (bases : list base).
Hypothesis F : subdyn_file sd beams cables rigids joints members masses ifaces bases.
Lemma front : exists g, (g <- add_set sd "BeamProp" "Beam" beam_prop empty_graph ;; g <- add_set sd "CableProp" "Cable" cable_prop g ;; g <- add_set sd "RigidProp" "Rigid" rigid_prop g ;;
    js <- item sd "Joints" ;; add_nodes g js) = Ok g /\ St g (map first_node joints) [] (sets_of beams cables rigids).
Proof.
  destruct F. pose (p (d : material -> @dict gval) a := mk_prop (a_id a) (d a)).
  destruct (maybe_set_St sd "BeamProp" "Beam" beam_prop (p beam_data) (Some beams) empty_graph [] [] [] St_empty f_beams0 eq_refl) as [g1 [E1 S1]].
  { intros i a Ha. apply beam_ok. unfold wide in f_beams6. rewrite Forall_forall in f_beams6. cbn in Ha. rewrite app_nil_r in Ha. destruct (f_beams6 a Ha) as [<-|[]]. reflexivity. }
  destruct (maybe_set_St sd "CableProp" "Cable" cable_prop (p cable_data) cables g1 [] [] _ S1 f_cables0 eq_refl) as [g2 [E2 S2]].
  { intros i a Ha. apply cable_ok. unfold wide in f_cables35. rewrite Forall_forall in f_cables35. destruct (f_cables35 a Ha) as [<-|[<-|[]]]; auto. }
  destruct (maybe_set_St sd "RigidProp" "Rigid" rigid_prop (p rigid_data) rigids g2 [] [] _ S2 f_rigids0) as [g3 [E3 S3]]; [destruct cables; reflexivity| |].
  { intros i a Ha. apply rigid_ok. unfold wide in f_rigids2. rewrite Forall_forall in f_rigids2. destruct (f_rigids2 a Ha) as [<-|[]]. reflexivity. }
  destruct (add_nodes_St joints g3 [] [] _ S3) as [g4 [E4 S4]]. exists g4. rewrite E1. cbn [bind]. rewrite E2. cbn [bind]. rewrite E3. cbn [bind].
  unfold item. unfold given in f_joints0. rewrite f_joints0. cbn [bind]. split; [exact E4|]. cbn [app] in S4. unfold sets_of. cbv zeta. rewrite app_assoc. exact S4.
Qed.
Lemma first_ids : map nID (map first_node joints) = map j_id joints.
Proof. rewrite map_map. reflexivity. Qed.
Lemma is_subdyn : to_graph flt sd = subdyn_graph sd.
Proof. destruct F. unfold to_graph, has_key. rewrite has_get. unfold given in f_beams0. rewrite f_beams0. reflexivity. Qed.
End Sub.

Definition view_of (g : graph) (e : elem) : @eview gval := mk_view (eID e) (enodeIDs e) (map (node_at g) (enodes e)) (epropset e) (epropIDs e) (edata e).
Lemma map_nth_seq {A B} (f : A -> B) d (l : list A) : forall pre, map (fun i => f (nth i (pre ++ l) d)) (seq (List.length pre) (List.length l)) = map f l.
Proof.
  induction l as [|x l IH]; intro pre; [reflexivity|]. cbn [List.length seq map]. f_equal; [rewrite app_nth2, Nat.sub_diag by lia; reflexivity|].
  specialize (IH (pre ++ [x])). rewrite <- app_assoc, app_length in IH. cbn [app List.length] in IH. rewrite Nat.add_1_r in IH. exact IH.
Qed.
Lemma St_elements g ns es ps : St g ns es ps -> elements_of g = map (view_of g) es.
Proof.
  intros [H1 [H2 [H3 [H4 _]]]]. unfold elements_of. rewrite H4. unfold view. transitivity (map (fun i => view_of g (nth i ([] ++ es) null_elem)) (seq (List.length (@nil elem)) (List.length es))); [|apply map_nth_seq].
  apply map_ext. intro i. unfold elem_at. rewrite H3. reflexivity.
Qed.
Lemma St_linked g ns es ps e : St g ns es ps -> In e es -> linked g e.
Proof.
  intros [H1 [H2 [H3 [H4 [H5 [[_ I] _]]]]]] He. destruct (In_nth es e null_elem He) as [i [L E]]. rewrite Forall_forall in I. destruct (I i) as [_ X]; [rewrite H4; apply in_seq; lia|].
  unfold elem_at in X. rewrite H3, E in X. exact X.
Qed.
Lemma linked_two (g : graph) (e : elem) a b : linked g e -> enodeIDs e = [a; b] -> exists na nb : node, map (node_at g) (enodes e) = [na; nb] /\ In na (nodes_of g) /\ In nb (nodes_of g) /\ nID na = a /\ nID nb = b.
Proof.
  intros L E. unfold linked in L. rewrite E in L. inversion L as [|? x ? l [A1 A2] L1]; subst. inversion L1 as [|? y ? l1 [B1 B2] L2]; subst. inversion L2; subst.
  exists (node_at g x), (node_at g y). repeat split; try (unfold nodes_of; apply in_map; assumption).
Qed.
Lemma materials_sets beams cables rigids k i : (1 <= k <= 3)%Z -> In i (map a_id (materials beams cables rigids k)) ->
  exists qs, get (sets_of beams cables rigids) (kind_name k) = Some qs /\ forall j, In j (map a_id (materials beams cables rigids k)) -> In j (map pID qs).
Proof.
  intros K. assert (C : (k = 1 \/ k = 2 \/ k = 3)%Z) by lia.
  destruct C as [->|[->| ->]]; [| destruct cables as [l|] | destruct rigids as [l|]]; unfold materials; cbn -[S_]; intro H; try contradiction.
  - exists (map (fun a => mk_prop (a_id a) (beam_data a)) beams). split; [reflexivity|]. intros j Hj. rewrite map_map. exact Hj.
  - exists (map (fun a => mk_prop (a_id a) (cable_data a)) l). split; [reflexivity|]. intros j Hj. rewrite app_nil_r in Hj. rewrite map_map. exact Hj.
  - exists (map (fun a => mk_prop (a_id a) (rigid_data a)) l). split; [destruct cables; reflexivity|]. intros j Hj. rewrite app_nil_r in Hj. rewrite map_map. exact Hj.
Qed.
Lemma sound_fits beams cables rigids joints members masses ifaces bases : sound beams cables rigids joints members masses ifaces bases -> Forall (member_fits joints (sets_of beams cables rigids)) members.
Proof.
  intros [S1 S2 S3 S4 S5 S6 S7]. apply Forall_forall. intros m Hm. destruct (S2 m Hm) as [A B]. destruct (S4 m Hm) as [C D]. split; [exact A|]. split; [exact B|]. split; [apply S3; exact Hm|].
  destruct (materials_sets beams cables rigids (kind_of m) (m_pa m) (S3 m Hm) C) as [qs [E G]]. exists qs. auto.
Qed.
Lemma ndata_mass masses ifaces bases j k : let n := upds (map base_upd bases) (upds (map iface_upd ifaces) (upds (map mass_upd masses) (first_node j))) in
  get (ndata n) k =
  if str_eqb (S_ "RBC") k then option_map (fun b => GSeq (map GInt (b_flags b) ++ map as_is (b_more b))) (last_for b_joint (j_id j) bases)
  else if str_eqb (S_ "IBC") k then option_map (fun i => GSeq (map as_is (i_cells i))) (last_for i_joint (j_id j) ifaces)
  else if str_eqb (S_ "addedMassMatrix") k then option_map (fun c => GMat (mass_mat c)) (last_for c_joint (j_id j) masses)
  else get (first_data j) k.
Proof.
  cbv zeta. unfold base_upd, iface_upd, mass_upd. rewrite !upds_get.
  repeat match goal with |- context [nID (upds ?us ?n)] => rewrite (proj1 (upds_fixed us n)) end. cbn [nID ndata first_node].
  destruct (str_eqb (S_ "RBC") k) eqn:E1.
  - apply str_eqb_eq in E1. subst k. destruct (last_for b_joint (j_id j) bases); reflexivity.
  - destruct (str_eqb (S_ "IBC") k) eqn:E2.
    + apply str_eqb_eq in E2. subst k. destruct (last_for i_joint (j_id j) ifaces); reflexivity.
    + destruct (str_eqb (S_ "addedMassMatrix") k) eqn:E3; [|reflexivity]. apply str_eqb_eq in E3. subst k. destruct (last_for c_joint (j_id j) masses); reflexivity.
Qed.

(** ** C114: every consistent SubDyn file has a graph, with a node per joint and an element per member *)
Theorem C114_subdyn_graph : forall flt sd beams cables rigids joints members masses ifaces bases,
  subdyn_file sd beams cables rigids joints members masses ifaces bases -> sound beams cables rigids joints members masses ifaces bases ->
  exists g, to_graph flt sd = Ok g /\
    Forall2 (node_of_joint masses ifaces bases) joints (nodes_of g) /\ Forall2 (elem_of_member g) members (elements_of g) /\ propsets g = sets_of beams cables rigids /\
    modes g = 0 /\ motions g = 0.
Proof.
  intros flt sd beams cables rigids joints members masses ifaces bases F S0. rewrite (is_subdyn flt sd _ _ _ _ _ _ _ _ F). pose proof (sound_fits _ _ _ _ _ _ _ _ S0) as FIT. destruct S0 as [N _ _ _ SM SI SB].
  destruct (front sd _ _ _ _ _ _ _ _ F) as [g0 [E0 S0]]. destruct F as [_ _ _ _ _ _ _ [mr [FM1 FM2]] FC [ir [FI1 FI2]] [br [FB1 FB2]]].
  destruct (add_members_St joints members g0 _ [] _ S0 (first_ids joints) FIT) as [g1 [es [E1 [S1 AL]]]]. cbn [app] in S1.
  destruct (add_masses_St masses g1 _ _ _ S1) as [g2 [E2 S2]]; [rewrite first_ids; exact N | rewrite first_ids; exact SM |].
  destruct (add_nodal_St "IBC" ibc (map iface_upd ifaces) ir g2 _ _ _ S2) as [g3 [E3 S3]]; [rewrite upds_ids, first_ids; exact N | rewrite upds_ids, first_ids, map_map; exact SI | |].
  { clear -FI2. induction FI2 as [|i r l rows [c [-> H]] _ IH]; constructor; [|exact IH]. exists c, (GSeq (map as_is (i_cells i))). repeat split. apply says_int. exact H. }
  destruct (add_nodal_St "RBC" rbc (map base_upd bases) br g3 _ _ _ S3) as [g4 [E4 S4]]; [rewrite !upds_ids, first_ids; exact N | rewrite !upds_ids, first_ids, map_map; exact SB | |].
  { clear -FB2. induction FB2 as [|b r l rows [c [fs [-> [H [L K]]]]] _ IH]; constructor; [|exact IH]. exists c, (GSeq (map GInt (b_flags b) ++ map as_is (b_more b))). split; [reflexivity|]. split; [apply says_int; exact H|]. split; [|reflexivity].
    unfold rbc. cbn [tl]. rewrite firstn_app, skipn_app, L, Nat.sub_diag, firstn_O, app_nil_r, firstn_all2, skipn_all2 by lia. cbn [app skipn].
    rewrite (mapM_all _ fs (map GInt (b_flags b))); [reflexivity|]. clear -K. induction K as [|x z fs zs H K IH]; constructor; [|exact IH]. rewrite (says_int _ _ H). reflexivity. }
  exists g4. split.
  { unfold subdyn_graph. transitivity (g <- Ok g0 ;; ms <- item sd "Members" ;; ms <- mapM (mapM int_c) ms ;; g <- add_members g ms ;;
      cs <- item sd "ConcentratedMasses" ;; g <- add_masses g cs ;; is <- item sd "InterfaceJoints" ;; g <- add_nodal g "IBC" ibc is ;; bs <- item sd "BaseJoints" ;; add_nodal g "RBC" rbc bs).
    - rewrite <- E0. destruct (add_set sd "BeamProp" "Beam" beam_prop empty_graph) as [x|]; [|reflexivity]. cbn [bind]. destruct (add_set sd "CableProp" "Cable" cable_prop x) as [x1|]; [|reflexivity]. cbn [bind].
      destruct (add_set sd "RigidProp" "Rigid" rigid_prop x1) as [x2|]; [|reflexivity]. cbn [bind]. destruct (item sd "Joints") as [js|]; reflexivity.
    - cbn [bind]. unfold item. unfold given in *. rewrite FM1. cbn [bind]. rewrite (whole_members _ _ FM2). cbn [bind]. unfold whole_rows. rewrite E1. cbn [bind]. rewrite FC. cbn [bind]. rewrite E2. cbn [bind].
      rewrite FI1. cbn [bind]. rewrite E3. cbn [bind]. rewrite FB1. cbn [bind]. exact E4. }
  split; [|split; [|destruct S4 as [_ [_ [_ [_ [H5 [_ [H7 [H8 _]]]]]]]]; auto]].
  - rewrite (St_nodes _ _ _ _ S4). rewrite !map_map. clear. induction joints as [|j js IH]; constructor; [|exact IH].
    destruct (upds_fixed (map mass_upd masses) (first_node j)) as [A1 [A2 [A3 A4]]]. destruct (upds_fixed (map iface_upd ifaces) (upds (map mass_upd masses) (first_node j))) as [B1 [B2 [B3 B4]]].
    destruct (upds_fixed (map base_upd bases) (upds (map iface_upd ifaces) (upds (map mass_upd masses) (first_node j)))) as [C1 [C2 [C3 C4]]].
    split; [rewrite C1, B1, A1; reflexivity|]. split; [rewrite C2, B2, A2; reflexivity|]. split; [rewrite C3, B3, A3; reflexivity|]. split; [rewrite C4, B4, A4; reflexivity|].
    split; [rewrite ndata_mass; reflexivity|].
    split; [rewrite ndata_mass; destruct (last_for c_joint (j_id j) masses) as [c|]; [exists (mass_mat c); split; [reflexivity|apply rigid_body_mass] | reflexivity]|].
    split; [rewrite ndata_mass; reflexivity|]. split; [rewrite ndata_mass; reflexivity|].
    intros k Hk. rewrite ndata_mass. cbn [map In] in Hk.
    destruct (str_eqb (S_ "RBC") k) eqn:X1; [apply str_eqb_eq in X1; exfalso; apply Hk; auto|]. destruct (str_eqb (S_ "IBC") k) eqn:X2; [apply str_eqb_eq in X2; exfalso; apply Hk; auto|].
    destruct (str_eqb (S_ "addedMassMatrix") k) eqn:X3; [apply str_eqb_eq in X3; exfalso; apply Hk; auto|]. unfold first_data, get. cbn [find fst].
    destruct (str_eqb (S_ "Type") k) eqn:X4; [apply str_eqb_eq in X4; exfalso; apply Hk; auto|reflexivity].
  - rewrite (St_elements _ _ _ _ S4). assert (LK : forall e, In e es -> linked g4 e) by (intros e He; apply (St_linked _ _ _ _ e S4 He)).
    clear -AL LK. induction AL as [|m e ms es H AL IH]; constructor; [|apply IH; intros x Hx; apply LK; right; exact Hx].
    destruct H as [H1 [H2 [H3 [H4 H5]]]]. cbn in H1, H2, H3, H4, H5. unfold elem_of_member, view_of. cbn [vID vnodeIDs vends vpropset vpropIDs vdata]. rewrite H1, H2, H3, H4, H5.
    split; [reflexivity|]. split; [reflexivity|]. split; [apply linked_two; [apply LK; left; reflexivity | exact H2]|]. repeat split.
Qed.
Print Assumptions C114_subdyn_graph.

(** A member whose end is not a joint, or whose property is not in the table of its kind: the exception of a missing key *)
Lemma get_node_error g id : get_node (V := gval) g id = Err KeyError \/ exists a, get_node g id = Ok a.
Proof. unfold get_node. destruct (find _ _); [right; eexists; reflexivity | left; reflexivity]. Qed.
Lemma mapR_key {A B} (f : A -> res B) l : (forall x, f x = Err KeyError \/ exists y, f x = Ok y) -> mapR f l = Err KeyError \/ exists ys, mapR f l = Ok ys.
Proof.
  intro H. induction l as [|x l IH]; [right; eexists; reflexivity|]. cbn. destruct (H x) as [->|[y ->]]; [left; reflexivity|]. cbn. destruct IH as [->|[ys ->]]; [left; reflexivity|right; eexists; reflexivity].
Qed.
Lemma mapR_in {A B} (f : A -> res B) l ys x : mapR f l = Ok ys -> In x l -> exists y, f x = Ok y.
Proof.
  revert ys. induction l as [|z l IH]; intros ys H I; [destruct I|]. cbn in H. destruct (f z) as [y|] eqn:E; [|discriminate]. cbn in H. destruct (mapR f l) as [ys'|] eqn:E'; [|discriminate].
  destruct I as [<-|I]; [exists y; exact E | apply (IH ys' eq_refl I)].
Qed.
Lemma add_element_bad g ns es ps e set l : St g ns es ps -> epropset e = Some set -> epropIDs e = Some (true, l) ->
  ~ (incl (enodeIDs e) (map nID ns) /\ exists qs, get ps set = Some qs /\ forall i, In i l -> In i (map pID qs)) -> l <> [] ->
  exists g', add_element g e = (g', Err KeyError).
Proof.
  intros H HS HP HN HL. pose proof H as [H1 [H2 [H3 [H4 [H5 [H6 H7]]]]]].
  assert (ID : ids g = map nID ns) by (rewrite ids_nodes, (St_nodes _ _ _ _ H); reflexivity).
  unfold add_element, new_elem. rewrite HS, HP. unfold add_element_at. rewrite H3.
  replace (elem_at (with_elems g (es ++ [e]) (gElements g)) (List.length es)) with e by (unfold elem_at; cbn; rewrite app_nth2, Nat.sub_diag by lia; reflexivity).
  change (mapR (get_node (with_elems g (es ++ [e]) (gElements g))) (enodeIDs e)) with (mapR (get_node g) (enodeIDs e)).
  destruct (mapR_key (get_node g) (enodeIDs e) (get_node_error g)) as [->|[nds En]]; [eexists; reflexivity|]. rewrite En, HP, HS.
  match goal with |- context [get_props ?g1 (Some set) l] => change (get_props g1 (Some set) l) with (get_props g (Some set) l) end. unfold get_props.
  assert (KE : forall i, get_prop g set i = Err KeyError \/ exists y, get_prop g set i = Ok y).
  { intro i. unfold get_prop. destruct (get (propsets g) set); [|left; reflexivity]. destruct (find _ _); [right; eexists; reflexivity|left; reflexivity]. }
  destruct (mapR_key (fun i => get_prop g set i) l KE) as [Er|[rs Er]]; rewrite Er; [eexists; reflexivity|].
  exfalso. apply HN. split.
  - intros id Hid. destruct (mapR_in _ _ _ _ En Hid) as [a Ea]. destruct (get_node_in g id a Ea) as [A1 A2]. rewrite <- ID. unfold ids. apply in_map_iff. exists a. split; [exact A2|exact A1].
  - destruct l as [|i0 l]; [congruence|]. destruct (mapR_in _ _ _ i0 Er (or_introl eq_refl)) as [p0 E0]. unfold get_prop in E0. rewrite H5 in E0. destruct (get ps set) as [qs|] eqn:Q0; [|discriminate]. exists qs. split; [reflexivity|].
      intros i Hi. destruct (mapR_in _ _ _ i Er Hi) as [p E]. unfold get_prop in E. rewrite H5, Q0 in E. destruct (find (fun p => Z.eqb (pID p) i) qs) as [q|] eqn:Fq; [|discriminate]. apply find_some in Fq. destruct Fq as [F1 F2]. apply Z.eqb_eq in F2.
      apply in_map_iff. exists q. split; [exact F2|exact F1].
Qed.
Lemma sets_materials beams cables rigids k : (1 <= k <= 3)%Z -> get (sets_of beams cables rigids) (kind_name k) = None \/
  exists qs, get (sets_of beams cables rigids) (kind_name k) = Some qs /\ map pID qs = map a_id (materials beams cables rigids k).
Proof.
  intros K. assert (C : (k = 1 \/ k = 2 \/ k = 3)%Z) by lia.
  destruct C as [->|[->| ->]]; [| destruct cables as [l|] | destruct rigids as [l|]].
  - right. exists (map (fun a => mk_prop (a_id a) (beam_data a)) beams). split; [reflexivity|]. rewrite map_map. reflexivity.
  - right. exists (map (fun a => mk_prop (a_id a) (cable_data a)) l). split; [reflexivity|]. unfold materials. cbn. rewrite app_nil_r, map_map. reflexivity.
  - left. destruct rigids; reflexivity.
  - right. exists (map (fun a => mk_prop (a_id a) (rigid_data a)) l). split; [destruct cables; reflexivity|]. unfold materials. cbn. rewrite app_nil_r, map_map. reflexivity.
  - left. destruct cables; reflexivity.
Qed.
Definition dangling beams cables rigids joints (m : member_) : Prop :=
  ~ In (m_a m) (map j_id joints) \/ ~ In (m_b m) (map j_id joints) \/
  ~ In (m_pa m) (map a_id (materials beams cables rigids (kind_of m))) \/ ~ In (m_pb m) (map a_id (materials beams cables rigids (kind_of m))).
Theorem C114_dangling_member : forall flt sd beams cables rigids joints members masses ifaces bases m,
  subdyn_file sd beams cables rigids joints members masses ifaces bases -> (forall m, In m members -> (1 <= kind_of m <= 3)%Z) ->
  In m members -> dangling beams cables rigids joints m -> to_graph flt sd = Err KeyError.
Proof.
  intros flt sd beams cables rigids joints members masses ifaces bases m F K Hm D. rewrite (is_subdyn flt sd _ _ _ _ _ _ _ _ F).
  destruct (front sd _ _ _ _ _ _ _ _ F) as [g0 [E0 S0]]. destruct F as [_ _ _ _ _ _ _ [mr [FM1 FM2]] _ _ _].
  unfold subdyn_graph. transitivity (g <- Ok g0 ;; ms <- item sd "Members" ;; ms <- mapM (mapM int_c) ms ;; g <- add_members g ms ;;
      cs <- item sd "ConcentratedMasses" ;; g <- add_masses g cs ;; is <- item sd "InterfaceJoints" ;; g <- add_nodal g "IBC" ibc is ;; bs <- item sd "BaseJoints" ;; add_nodal g "RBC" rbc bs).
  - rewrite <- E0. destruct (add_set sd "BeamProp" "Beam" beam_prop empty_graph) as [x|]; [|reflexivity]. cbn [bind]. destruct (add_set sd "CableProp" "Cable" cable_prop x) as [x1|]; [|reflexivity]. cbn [bind].
    destruct (add_set sd "RigidProp" "Rigid" rigid_prop x1) as [x2|]; [|reflexivity]. cbn [bind]. destruct (item sd "Joints") as [js|]; reflexivity.
  - cbn [bind]. unfold item at 1. unfold given in *. rewrite FM1. cbn [bind]. rewrite (whole_members _ _ FM2). cbn [bind].
    assert (X : add_members g0 (whole_rows members) = Err KeyError); [|rewrite X; reflexivity].
    clear FM2 E0. revert S0. generalize (@nil elem) as es. generalize g0. clear g0. induction members as [|m0 ms IH]; intros g es S0; [destruct Hm|]. unfold whole_rows in *. cbn [map add_members].
    rewrite member_ok by (apply K; left; reflexivity). cbn [bind].
    pose proof (K m0 (or_introl eq_refl)) as K0.
    destruct (In_dec Z.eq_dec (m_a m0) (map j_id joints)) as [A|A]; [destruct (In_dec Z.eq_dec (m_b m0) (map j_id joints)) as [B|B];
      [destruct (In_dec Z.eq_dec (m_pa m0) (map a_id (materials beams cables rigids (kind_of m0)))) as [C|C];
        [destruct (In_dec Z.eq_dec (m_pb m0) (map a_id (materials beams cables rigids (kind_of m0)))) as [C'|C']|]|]|].
    { destruct (materials_sets beams cables rigids (kind_of m0) (m_pa m0) K0 C) as [qs [Q1 Q2]].
      destruct (add_element_St g _ es _ (member_elem m0) (kind_name (kind_of m0)) [m_pa m0; m_pb m0] S0) as [g1 [nds [rs [E S1]]]]; [|reflexivity|reflexivity| |].
      - rewrite first_ids. intros x [<-|[<-|[]]]; assumption.
      - exists qs. split; [exact Q1|]. intros x [<-|[<-|[]]]; apply Q2; assumption.
      - rewrite E. destruct Hm as [->|Hm]; [exfalso; destruct D as [D|[D|[D|D]]]; contradiction|]. apply (IH (fun x Hx => K x (or_intror Hx)) Hm g1 _ S1). }
    all: destruct (add_element_bad g _ es _ (member_elem m0) (kind_name (kind_of m0)) [m_pa m0; m_pb m0] S0) as [g1 E]; [reflexivity|reflexivity| |discriminate|rewrite E; reflexivity].
    all: rewrite first_ids; intros [X1 [qs [X2 X3]]]; cbn [member_elem enodeIDs] in X1;
         destruct (sets_materials beams cables rigids (kind_of m0) K0) as [Y|[qs' [Y1 Y2]]]; [congruence|]; rewrite X2 in Y1; injection Y1 as <-; rewrite Y2 in X3.
    + apply C'. apply X3. right. left. reflexivity.
    + apply C. apply X3. left. reflexivity.
    + apply B. apply X1. right. left. reflexivity.
    + apply A. apply X1. left. reflexivity.
Qed.
Print Assumptions C114_dangling_member.

(** ** Examples: a file that meets the hypotheses, with members of two kinds written in two ways *)
Definition ex_beams := [mk_mat 1 [210; 81; 7850; 5; 1#10]%Q; mk_mat 2 [210; 81; 7850; 3; 1#20]%Q].
Definition ex_cables := Some [mk_mat 7 [100; 50; 10]%Q].
Definition ex_joints := [mk_joint 10 0 0 (-20) None; mk_joint 11 0 0 10 None; mk_joint 5 20 0 (-20) None].
Definition ex_members := [mk_member 1 10 11 1 2 None; mk_member 2 5 11 7 7 (Some 2%Z)].
Definition ex_masses := [mk_mass 11 100 1 2 3 0 0 0 0 0 4].
Definition ex_sd : data :=
  [(S_ "BeamProp", map material_row ex_beams); (S_ "CableProp", map material_row [mk_mat 7 [100; 50; 10]%Q]); (S_ "Joints", map joint_row ex_joints);
   (S_ "Members", [map (fun z => CN (inject_Z z)) [1; 10; 11; 1; 2]%Z; map (fun z => CT (str_of_Z z)) [2; 5; 11; 7; 7; 2]%Z]);
   (S_ "ConcentratedMasses", map mass_row ex_masses); (S_ "InterfaceJoints", [map (fun z => CN (inject_Z z)) [11; 1; 1; 1; 1; 1; 1]%Z]);
   (S_ "BaseJoints", [map (fun z => CT (str_of_Z z)) [10; 1; 1; 1; 0; 0; 1]%Z ++ [CT (S_ "soil.dat")]])].
Definition ex_ifaces := [mk_iface 11 (map (fun z => CN (inject_Z z)) [1; 1; 1; 1; 1; 1]%Z)].
Definition ex_bases := [mk_base 10 [1; 1; 1; 0; 0; 1]%Z [CT (S_ "soil.dat")]].
Example ex_file : subdyn_file ex_sd ex_beams ex_cables None ex_joints ex_members ex_masses ex_ifaces ex_bases.
Proof.
  split; try reflexivity.
  - repeat constructor.
  - repeat constructor.
  - repeat constructor.
  - eexists. split; [reflexivity|]. constructor; [|constructor; [|constructor]].
    + repeat (constructor; [left; reflexivity|]). constructor.
    + repeat (constructor; [right; reflexivity|]). constructor.
  - eexists. split; [reflexivity|]. constructor; [|constructor]. eexists. split; [reflexivity|]. left. reflexivity.
  - eexists. split; [reflexivity|]. constructor; [|constructor]. exists (CT (str_of_Z 10)), (map (fun z => CT (str_of_Z z)) [1; 1; 1; 0; 0; 1]%Z). split; [reflexivity|]. split; [right; reflexivity|]. split; [reflexivity|].
    repeat (constructor; [right; reflexivity|]). constructor.
Qed.
Example ex_sound : sound ex_beams ex_cables None ex_joints ex_members ex_masses ex_ifaces ex_bases.
Proof.
  split; cbn.
  - repeat constructor; cbn; intuition discriminate.
  - intros m [<-|[<-|[]]]; cbn; auto.
  - intros m [<-|[<-|[]]]; cbn; lia.
  - intros m [<-|[<-|[]]]; cbn; auto.
  - intros x [<-|[]]; cbn; auto.
  - intros x [<-|[]]; cbn; auto.
  - intros x [<-|[]]; cbn; auto.
Qed.
Example ex_graph : exists g, to_graph (fun _ => None) ex_sd = Ok g /\ map nID (nodes_of g) = [10; 11; 5]%Z /\ map vnodeIDs (elements_of g) = [[10; 11]; [5; 11]]%Z.
Proof. eexists. split; [vm_compute; reflexivity|]. split; vm_compute; reflexivity. Qed.
(** One end of a member is a joint that does not exist *)
Example ex_dangling : exists m, In m [mk_member 1 10 12 1 2 None] /\ dangling ex_beams ex_cables None ex_joints m.
Proof. eexists. split; [left; reflexivity|]. right. left. cbn. intuition discriminate. Qed.

(** A member of kind 0 is taken for a rigid link, where the kinds are 1, 2 and 3 *)
Theorem C114_unknown_kind_refuted : exists flt sd g e, get sd (S_ "Members") = Some [map (fun z => CN (inject_Z z)) [1; 10; 11; 4; 4; 0]%Z] /\ to_graph flt sd = Ok g /\
  elements_of g = [e] /\ get (vdata e) (S_ "Type") = Some (GText (S_ "Rigid")).
Proof.
  exists (fun _ => None), [(S_ "BeamProp", map material_row ex_beams); (S_ "RigidProp", map material_row [mk_mat 4 [7850]%Q]); (S_ "Joints", map joint_row ex_joints);
    (S_ "Members", [map (fun z => CN (inject_Z z)) [1; 10; 11; 4; 4; 0]%Z]); (S_ "ConcentratedMasses", []); (S_ "InterfaceJoints", []); (S_ "BaseJoints", [])].
  eexists. eexists. split; [reflexivity|]. split; [vm_compute; reflexivity|]. split; vm_compute; reflexivity.
Qed.
(** Two masses at one joint: the matrix is that of the last one, not their sum *)
Theorem C114_two_masses_refuted : exists flt sd g n M, get sd (S_ "ConcentratedMasses") = Some (map mass_row [mk_mass 11 100 0 0 0 0 0 0 0 0 0; mk_mass 11 30 0 0 0 0 0 0 0 0 0]) /\
  to_graph flt sd = Ok g /\ In n (nodes_of g) /\ nID n = 11%Z /\ get (ndata n) (S_ "addedMassMatrix") = Some (GMat M) /\ (form M [1; 0; 0; 0; 0; 0] == 30)%Q.
Proof.
  exists (fun _ => None), [(S_ "BeamProp", map material_row ex_beams); (S_ "Joints", map joint_row ex_joints); (S_ "Members", []);
    (S_ "ConcentratedMasses", map mass_row [mk_mass 11 100 0 0 0 0 0 0 0 0 0; mk_mass 11 30 0 0 0 0 0 0 0 0 0]); (S_ "InterfaceJoints", []); (S_ "BaseJoints", [])].
  eexists. eexists. eexists. split; [reflexivity|]. split; [vm_compute; reflexivity|]. split; [right; left; reflexivity|]. split; [reflexivity|]. split; [reflexivity|]. reflexivity.
Qed.
Print Assumptions C114_unknown_kind_refuted.
Print Assumptions C114_two_masses_refuted.
