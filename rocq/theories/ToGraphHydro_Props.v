(** Property C115: graphs of HydroDyn files. *)
From Verif Require Import Py PyFacts ListFacts Graph_Model Graph_Spec Graph_Proofs Graph_Conn Graph_Divide Graph_Props.
From Verif Require Import ToGraph_Model ToGraph_Props.
From Verif Require Import Dict.
From Coq Require Import QArith Lia Permutation.
Local Open Scope nat_scope.
Local Notation get := Dict.get.
Local Notation node := (@Graph_Model.node gval). Local Notation graph := (@Graph_Model.graph gval). Local Notation elem := (@Graph_Model.elem gval).
Local Notation prop := (@Graph_Model.prop gval).

(** ** What the tables of a HydroDyn file say *)
Record hjoint := mk_hjoint { h_id : Z; h_x : Q; h_y : Q; h_z : Q; h_ax : Z; h_more : list cell }.
Record hmember := mk_hmember { k_id : Z; k_a : Z; k_b : Z; k_pa : Z; k_pb : Z; k_div : Q; k_mod : Z; k_pot : str; k_more : list cell }.
Definition hjoint_row (j : hjoint) : list cell := CN (inject_Z (h_id j)) :: map CN [h_x j; h_y j; h_z j; inject_Z (h_ax j)] ++ h_more j.
Definition tells (flt : str -> option Q) (c : cell) (q : Q) : Prop := c = CN q \/ exists s, c = CT s /\ flt s = Some q.
Definition hmember_row (flt : str -> option Q) (m : hmember) (r : list cell) : Prop :=
  exists cs d c, r = cs ++ [d; c; CT (k_pot m)] ++ k_more m /\ Forall2 says cs [k_id m; k_a m; k_b m; k_pa m; k_pb m] /\ tells flt d (k_div m) /\ says c (k_mod m).
Definition coef_names (n : nat) : list string :=
  if n =? 12 then ["Cd"; "CdMG"; "Ca"; "CaMG"; "Cp"; "CpMG"; "AxCd"; "AxCdMG"; "AxCa"; "AxCaMG"; "AxCp"; "AxCpMG"]%string
  else ["Cd"; "CdMG"; "Ca"; "CaMG"; "Cp"; "CpMG"; "AxCa"; "AxCaMG"; "AxCp"; "AxCpMG"]%string.
Definition coefs (r : list Q) : @dict gval := names_values (coef_names (List.length r)) (map GNum r).
Definition axials (a : material) : @dict gval := names_values ["JAxCd"; "JAxCa"; "JAxCp"]%string (map GNum (a_values a)).
Definition sections (a : material) : @dict gval := names_values ["D"; "t"]%string (map GNum (a_values a)).
Definition mod_name (k : Z) : str := if (k =? 1)%Z then S_ "SimpleCoefs" else if (k =? 2)%Z then S_ "DepthCoefs" else S_ "MemberCoefs".
Definition starts_with_t (s : str) : Prop := exists r, s = "t"%char :: r \/ s = "T"%char :: r.
Definition no_rows (d : data) (k : string) : Prop := get d (S_ k) = None \/ get d (S_ k) = Some [].
(** The tables of a file *)
Record hydrodyn_file (flt : str -> option Q) (hd : data) secs axs simple joints members : Prop := {
  h_none : get hd (S_ "BeamProp") = None;
  h_secs : given hd "SectionProp" (map material_row secs); h_secs2 : wide [2] secs;
  h_axs : given hd "AxCoefs" (map material_row axs); h_axs3 : wide [3] axs;
  h_simple : given hd "SmplProp" (map (map CN) simple); h_simple12 : Forall (fun r => In (List.length r) [10; 12]) simple;
  h_depth : no_rows hd "DpthProp"; h_member : no_rows hd "MemberProp"; h_fill : no_rows hd "FillGroups"; h_growth : no_rows hd "MGProp";
  h_joints : given hd "Joints" (map hjoint_row joints);
  h_members : exists rows, given hd "Members" rows /\ Forall2 (hmember_row flt) members rows }.
Record hsound secs axs (simple : list (list Q)) joints members : Prop := {
  hs_joints : NoDup (map h_id joints);
  hs_ax : forall j, In j joints -> In (h_ax j) (map a_id axs);
  hs_ends : forall m, In m members -> In (k_a m) (map h_id joints) /\ In (k_b m) (map h_id joints);
  hs_props : forall m, In m members -> In (k_pa m) (map a_id secs) /\ In (k_pb m) (map a_id secs);
  hs_kinds : forall m, In m members -> (1 <= k_mod m <= 3)%Z;
  hs_simple : forall m, In m members -> k_mod m = 1%Z -> simple <> [];
  hs_pot : forall m, In m members -> k_pot m <> [] }.
(** A node has the coefficients of its joint, and those of the first simple row if a member of the simple kind ends there *)
Definition node_of_hjoint (axs : list material) (simple : list (list Q)) (members : list hmember) (j : hjoint) (n : node) : Prop :=
  nID n = h_id j /\ nx n = h_x j /\ ny n = h_y j /\ nz n = h_z j /\
  (exists a, find (fun a => Z.eqb (a_id a) (h_ax j)) axs = Some a /\
     forall k, get (ndata n) k =
       match get (coefs (hd [] simple)) k with
       | Some v => if existsb (fun m => Z.eqb (k_mod m) 1 && (Z.eqb (k_a m) (h_id j) || Z.eqb (k_b m) (h_id j))) members then Some v else get (axials a) k
       | None => get (axials a) k
       end).
Definition elem_of_hmember (g : graph) (m : hmember) (e : @eview gval) : Prop :=
  vID e = k_id m /\ vnodeIDs e = [k_a m; k_b m] /\
  (exists a b, vends e = [a; b] /\ In a (nodes_of g) /\ In b (nodes_of g) /\ nID a = k_a m /\ nID b = k_b m) /\
  vpropset e = Some (S_ "Section") /\ vpropIDs e = Some (true, [k_pa m; k_pb m]) /\
  map fst (vdata e) = map S_ ["CoefMod"; "DivSize"; "Pot"; "object"; "color"]%string /\
  get (vdata e) (S_ "CoefMod") = Some (GText (mod_name (k_mod m))) /\ get (vdata e) (S_ "DivSize") = Some (GNum (k_div m)) /\
  (exists b, get (vdata e) (S_ "Pot") = Some (GBool b) /\ (b = true <-> starts_with_t (k_pot m)) /\ get (vdata e) (S_ "color") = Some (GSeq [if b then GColor (753#1000) (5#100) (204#1000) else GColor (753#1000) (561#1000) (5#100)])) /\ get (vdata e) (S_ "object") = Some (GText (S_ "cylinder")).

(** ** Proofs *)
Lemma section_ok i a : List.length (a_values a) = 2 -> section_prop i (material_row a) = Ok (mk_prop (a_id a) (sections a)).
Proof.
  intro L. unfold sections, names_values. unfold material_row. destruct (a_values a) as [|q1 [|q2 [|]]]; try discriminate. unfold section_prop, named_prop. cbn -[S_]. rewrite int_q_Z. reflexivity.
Qed.
Lemma axial_ok i a : List.length (a_values a) = 3 -> axial_prop i (material_row a) = Ok (mk_prop (a_id a) (axials a)).
Proof.
  intro L. unfold axials, names_values. unfold material_row. destruct (a_values a) as [|q1 [|q2 [|q3 [|]]]]; try discriminate. unfold axial_prop, named_prop. cbn -[S_]. rewrite int_q_Z. reflexivity.
Qed.
Lemma simple_ok i (r : list Q) : In (List.length r) [10; 12] -> simple_prop i (map CN r) = Ok (mk_prop (Z.of_nat (i + 1)) (coefs r)).
Proof.
  intro L. unfold simple_prop. rewrite map_length. unfold coefs. destruct L as [L|[L|[]]].
  - rewrite <- L. do 10 (destruct r as [|? r]; [discriminate|]). destruct r; [|discriminate]. reflexivity.
  - rewrite <- L. do 12 (destruct r as [|? r]; [discriminate|]). destruct r; [|discriminate]. reflexivity.
Qed.
Lemma rows_numbered (mk : nat -> list cell -> res prop) (l : list (list Q)) (p : nat -> list Q -> prop) : (forall i r, In r l -> mk i (map CN r) = Ok (p i r)) ->
  forall k, nth_error (map (fun p => Ok (A := prop) p) (map (fun x => p (fst x) (snd x)) (combine (seq 0 (List.length l)) l))) k = match nth_error (map (map CN) l) k with Some P => Some (mk k P) | None => None end.
Proof.
  intros H k. rewrite map_map, !nth_error_map. destruct (nth_error l k) as [r|] eqn:E.
  - rewrite (nth_error_combine (seq 0 (List.length l)) l k k r); [|rewrite (nth_error_nth' _ 0) by (rewrite seq_length; apply nth_error_Some; congruence); f_equal; rewrite seq_nth; [reflexivity | apply nth_error_Some; congruence] | exact E].
    cbn. rewrite (H k r); [reflexivity|]. apply (nth_error_In _ _ E).
  - replace (nth_error (combine (seq 0 (List.length l)) l) k) with (@None (nat * list Q)); [reflexivity|]. symmetry. apply nth_error_None. rewrite combine_length, seq_length. apply nth_error_None in E. lia.
Qed.
Definition hsets (secs axs : list material) (simple : list (list Q)) : @dict (list prop) :=
  [(S_ "Section", map (fun a => mk_prop (a_id a) (sections a)) secs); (S_ "AxCoefs", map (fun a => mk_prop (a_id a) (axials a)) axs);
   (S_ "SimpleCoefs", map (fun x => mk_prop (Z.of_nat (fst x + 1)) (coefs (snd x))) (combine (seq 0 (List.length simple)) simple))].
Lemma no_ID_axials a : prop_data (mk_prop (a_id a) (axials a)) = axials a.
Proof. unfold prop_data, axials, names_values. cbn [pdata]. destruct (a_values a) as [|q1 [|q2 [|q3 l]]]; reflexivity. Qed.
Lemma no_ID_coefs z r : prop_data (mk_prop z (coefs r)) = coefs r.
Proof.
  unfold prop_data, coefs, names_values. cbn [pdata]. unfold coef_names. destruct (List.length r =? 12).
  - do 12 (destruct r as [|? r]; [reflexivity|]). reflexivity.
  - do 10 (destruct r as [|? r]; [reflexivity|]). reflexivity.
Qed.
Definition hnode (axs : list material) (j : hjoint) : node := mk_node (h_id j) (h_x j) (h_y j) (h_z j) (match find (fun a => Z.eqb (a_id a) (h_ax j)) axs with Some a => axials a | None => [] end).
Lemma hjoint_ok j : hydro_node (hjoint_row j) = Ok (mk_node (h_id j) (h_x j) (h_y j) (h_z j) []).
Proof. unfold hydro_node, hjoint_row. cbn. rewrite int_q_Z. reflexivity. Qed.
Lemma update_nil (d : @dict gval) : NoDup (map fst d) -> update [] d = d.
Proof. intro N. rewrite update_new; [reflexivity|exact N]. Qed.
Lemma nodup_combine {W} (ks : list str) (vs : list W) : NoDup ks -> NoDup (map fst (combine ks vs)).
Proof.
  intro N. revert vs. induction N as [|k ks H N IH]; intros [|v vs]; try constructor.
  - cbn. intro C. apply H. apply in_map_iff in C. destruct C as [[k' v'] [E I]]. cbn in E. subst k'. apply in_combine_l in I. exact I.
  - apply IH.
Qed.
Lemma names_distinct (l : list str) : (fix nd l := match l with [] => true | x :: r => negb (existsb (str_eqb x) r) && nd r end) l = true -> NoDup l.
Proof.
  induction l as [|x r IH]; [constructor|]. intro H. apply andb_prop in H. destruct H as [H1 H2]. constructor; [|apply IH; exact H2]. intro C. apply negb_true_iff in H1.
  assert (X : existsb (str_eqb x) r = true) by (apply existsb_exists; exists x; split; [exact C|apply str_eqb_refl]). congruence.
Qed.
Lemma axials_distinct a : NoDup (map fst (axials a)).
Proof. apply nodup_combine. apply names_distinct. reflexivity. Qed.
Lemma coefs_distinct r : NoDup (map fst (coefs r)).
Proof. apply nodup_combine. apply names_distinct. unfold coef_names. destruct (_ =? 12); reflexivity. Qed.

Lemma add_hydro_nodes_St secs axs simple js : forall g ns es, St g ns es (hsets secs axs simple) -> (forall j, In j js -> In (h_ax j) (map a_id axs)) ->
  exists g', add_hydro_nodes g (map hjoint_row js) = Ok g' /\ St g' (ns ++ map (hnode axs) js) es (hsets secs axs simple).
Proof.
  induction js as [|j js IH]; intros g ns es H AX; [exists g; rewrite app_nil_r; auto|]. cbn [map add_hydro_nodes]. rewrite hjoint_ok. cbn [bind].
  change (at_ (hjoint_row j) 4) with (Ok (CN (inject_Z (h_ax j)))). cbn [bind]. unfold prop_of_cell. rewrite int_q_Z.
  replace (Qeq_bool (inject_Z (h_ax j)) (inject_Z (h_ax j))) with true by (symmetry; apply Qeq_bool_iff; reflexivity).
  pose proof H as [H1 [H2 [H3 [H4 [H5 H6]]]]].
  assert (X : exists a, find (fun a => Z.eqb (a_id a) (h_ax j)) axs = Some a /\
     get_prop (add_node g (mk_node (h_id j) (h_x j) (h_y j) (h_z j) [])) (S_ "AxCoefs") (h_ax j) = Ok (mk_prop (a_id a) (axials a))).
  { specialize (AX j (or_introl eq_refl)). destruct (find (fun a => Z.eqb (a_id a) (h_ax j)) axs) as [a|] eqn:Fa.
    - exists a. split; [reflexivity|]. unfold get_prop. change (propsets (add_node g _)) with (propsets g). rewrite H5. change (get (hsets secs axs simple) (S_ "AxCoefs")) with (Some (map (fun a => mk_prop (a_id a) (axials a)) axs)).
      assert (Y : find (fun p : prop => Z.eqb (pID p) (h_ax j)) (map (fun a => mk_prop (a_id a) (axials a)) axs) = Some (mk_prop (a_id a) (axials a))); [|cbv iota; rewrite Y; reflexivity].
      clear -Fa. induction axs as [|a0 axs IH]; [discriminate|]. cbn [map find pID] in *. destruct (Z.eqb (a_id a0) (h_ax j)); [injection Fa as <-; reflexivity|]. apply IH. exact Fa.
    - exfalso. apply in_map_iff in AX. destruct AX as [a [Ea Ia]]. pose proof (find_none _ _ Fa a Ia) as Y. cbn in Y. rewrite Ea, Z.eqb_refl in Y. discriminate. }
  destruct X as [a [Fa Ga]]. cbv zeta. rewrite Ga. cbn [bind]. rewrite no_ID_axials.
  pose proof (add_node_St g ns es _ (mk_node (h_id j) (h_x j) (h_y j) (h_z j) []) H) as SN.
  assert (SD : St (set_data (add_node g (mk_node (h_id j) (h_x j) (h_y j) (h_z j) [])) (List.length (nheap g)) (axials a)) (ns ++ [hnode axs j]) es (hsets secs axs simple)).
  { destruct SN as [N1 [N2 [N3 [N4 [N5 [N6 N7]]]]]]. split; [|split; [|repeat (split; [assumption|]); split; [apply set_data_inv; exact N6|exact N7]]].
    - unfold set_data, set_node, node_at. cbn [nheap with_nodes]. rewrite N1, H1, app_nth2, Nat.sub_diag by lia. cbn [nth nID nx ny nz ndata]. rewrite set_nth_last. unfold hnode. rewrite Fa, update_nil by apply axials_distinct. reflexivity.
    - rewrite !app_length in *. exact N2. }
  destruct (IH _ _ _ SD (fun x Hx => AX x (or_intror Hx))) as [g' [E S']]. exists g'. split; [exact E|]. rewrite <- app_assoc in S'. exact S'.
Qed.

Section Members.
Context (flt : str -> option Q).
Definition pot_b (s : str) : bool := match lower s with x :: _ => chr_eqb x "t"%char | [] => false end.
Definition hmember_elem (m : hmember) : elem :=
  mk_elem (k_id m) [k_a m; k_b m] [] (Some (S_ "Section")) (Some (true, [k_pa m; k_pb m]))
    [(S_ "CoefMod", GText (mod_name (k_mod m))); (S_ "DivSize", GNum (k_div m)); (S_ "Pot", GBool (pot_b (k_pot m))); (S_ "object", GText (S_ "cylinder")); (S_ "color", pot_color (pot_b (k_pot m)))] None.
Lemma tells_float c q : tells flt c q -> float_c flt c = Ok q.
Proof. intros [->|[s [-> H]]]; cbn; [reflexivity|rewrite H; reflexivity]. Qed.
Lemma lower_cons (s : str) : s <> [] -> exists x l, lower s = x :: l.
Proof. destruct s as [|c s]; [congruence|]. intros _. eexists. eexists. reflexivity. Qed.
Lemma hmember_ok m r : hmember_row flt m r -> (1 <= k_mod m <= 3)%Z -> k_pot m <> [] -> hydro_member flt r = Ok (k_mod m, hmember_elem m).
Proof.
  intros [cs [d [c [-> [F [T Sc]]]]]] K P. unfold hydro_member. assert (L : List.length cs = 5) by (rewrite (F2_len _ _ _ F); reflexivity).
  rewrite firstn_app, L, Nat.sub_diag, firstn_O, app_nil_r, firstn_all2 by lia. rewrite (says_all _ _ F). cbn [bind].
  assert (N : forall i, at_ (cs ++ [d; c; CT (k_pot m)] ++ k_more m) (5 + i) = at_ ([d; c; CT (k_pot m)] ++ k_more m) i).
  { intro i. unfold at_. rewrite nth_error_app2 by lia. rewrite L. replace (5 + i - 5) with i by lia. reflexivity. }
  pose proof (N 0) as N0. pose proof (N 1) as N1. pose proof (N 2) as N2. cbn [Nat.add] in N0, N1, N2. rewrite N0, N1, N2. cbn [at_ nth_error app bind]. rewrite (says_int _ _ Sc). cbn [bind].
  destruct (lower_cons _ P) as [x [l El]]. unfold pot_of. rewrite El. cbn [bind].
  assert (C : (k_mod m = 1 \/ k_mod m = 2 \/ k_mod m = 3)%Z) by lia.
  assert (Z0 : py_at COEFS (k_mod m - 1) = Ok (mod_name (k_mod m))) by (destruct C as [->|[->| ->]]; reflexivity).
  rewrite Z0. cbn [bind]. rewrite (tells_float _ _ T). cbn [bind]. unfold hmember_elem, pot_b. rewrite El. reflexivity.
Qed.
Definition simple_upds (d : @dict gval) (ms : list hmember) : list (Z * @dict gval) := flat_map (fun m => if Z.eqb (k_mod m) 1 then [(k_a m, d); (k_b m, d)] else []) ms.
Lemma get_simple_1 secs axs r simple g : propsets g = hsets secs axs (r :: simple) -> get_prop g (S_ "SimpleCoefs") 1 = Ok (mk_prop 1 (coefs r)).
Proof. intro H. unfold get_prop. rewrite H. reflexivity. Qed.
Lemma add_hydro_members_St secs axs simple ids0 ms rows : Forall2 (hmember_row flt) ms rows -> NoDup ids0 ->
  (forall m, In m ms -> In (k_a m) ids0 /\ In (k_b m) ids0) -> (forall m, In m ms -> In (k_pa m) (map a_id secs) /\ In (k_pb m) (map a_id secs)) ->
  (forall m, In m ms -> (1 <= k_mod m <= 3)%Z) -> (forall m, In m ms -> k_mod m = 1%Z -> simple <> []) -> (forall m, In m ms -> k_pot m <> []) ->
  forall g ns es, St g ns es (hsets secs axs simple) -> map nID ns = ids0 ->
  exists g' es', add_hydro_members flt g rows = Ok g' /\ St g' (map (upds (simple_upds (coefs (hd [] simple)) ms)) ns) (es ++ es') (hsets secs axs simple) /\ Forall2 (fun m e => alike (hmember_elem m) e) ms es'.
Proof.
  intros FR N0. induction FR as [|m r ms rows R FR IH]; intros A1 A2 A3 A4 A5 g ns es H NI; [exists g, []; cbn; rewrite app_nil_r, map_id; auto|].
  pose proof (fun x Hx => A1 x (or_intror Hx)) as B1. pose proof (fun x Hx => A2 x (or_intror Hx)) as B2. pose proof (fun x Hx => A3 x (or_intror Hx)) as B3. pose proof (fun x Hx => A4 x (or_intror Hx)) as B4. pose proof (fun x Hx => A5 x (or_intror Hx)) as B5.
  specialize (IH B1 B2 B3 B4 B5). clear B1 B2 B3 B4 B5. assert (I : In m (m :: ms)) by (left; reflexivity). specialize (A1 m I). specialize (A2 m I). specialize (A3 m I). specialize (A4 m I). specialize (A5 m I).
  cbn [add_hydro_members]. rewrite (hmember_ok m r R A3 A5). cbn [bind].
  destruct (add_element_St g ns es _ (hmember_elem m) (S_ "Section") [k_pa m; k_pb m] H) as [g1 [nds [rs [E S1]]]]; [|reflexivity|reflexivity| |].
  - rewrite NI. intros x [<-|[<-|[]]]; apply A1.
  - exists (map (fun a => mk_prop (a_id a) (sections a)) secs). split; [reflexivity|]. rewrite map_map. intros x [<-|[<-|[]]]; apply A2.
  - rewrite E. cbn [simple_upds flat_map]. destruct (Z.eqb (k_mod m) 1) eqn:K.
    + apply Z.eqb_eq in K. specialize (A4 K). destruct simple as [|r0 simple]; [congruence|]. cbn [hd] in *.
      assert (LK : linked g1 (resolved (hmember_elem m) nds (Some rs))) by (apply (St_linked _ _ _ _ _ S1); apply in_or_app; right; left; reflexivity).
      assert (EN : exists na nb, nds = [na; nb] /\ In na (gNodes g1) /\ In nb (gNodes g1) /\ nID (node_at g1 na) = k_a m /\ nID (node_at g1 nb) = k_b m).
      { unfold linked in LK. cbn in LK. inversion LK as [|? x ? l [L1 L2] L3]; subst. inversion L3 as [|? y ? l1 [L4 L5] L6]; subst. inversion L6; subst. exists x, y. repeat split; assumption. }
      destruct EN as [na [nb [-> [M1 [M2 [M3 M4]]]]]].
      unfold set_element_nodal_prop. replace (elem_at g1 (List.length (eheap g))) with (resolved (hmember_elem m) [na; nb] (Some rs))
        by (unfold elem_at; destruct S1 as [_ [_ [-> _]]]; destruct H as [_ [_ [-> _]]]; rewrite app_nth2, Nat.sub_diag by lia; reflexivity).
      cbn [resolved enodes combine set_nodal_props].
      rewrite (get_simple_1 secs axs r0 simple g1) by apply S1. rewrite no_ID_coefs.
      pose proof (set_data_St g1 ns _ _ na (k_a m) (coefs r0) S1 ltac:(rewrite NI; exact N0) M1 M3) as S2.
      rewrite (get_simple_1 secs axs r0 simple) by apply S2. rewrite no_ID_coefs.
      assert (S3 : St (set_data (set_data g1 na (coefs r0)) nb (coefs r0)) (map (upd (k_b m, coefs r0)) (map (upd (k_a m, coefs r0)) ns)) (es ++ [resolved (hmember_elem m) [na; nb] (Some rs)]) (hsets secs axs (r0 :: simple))).
      { apply set_data_St; [exact S2|rewrite upd_ids, NI; exact N0|exact M2|rewrite set_data_nID; exact M4]. }
      destruct (IH _ _ _ S3) as [g' [es' [E' [S' F2']]]]; [rewrite !upd_ids; exact NI|].
      exists g', (resolved (hmember_elem m) [na; nb] (Some rs) :: es'). split; [exact E'|]. split; [|constructor; [repeat split|exact F2']].
      rewrite <- app_assoc in S'. rewrite !map_map in S'. exact S'.
    + destruct (IH _ _ _ S1 NI) as [g' [es' [E' [S' F2']]]]. exists g', (resolved (hmember_elem m) nds (Some rs) :: es'). split; [exact E'|]. split; [|constructor; [repeat split|exact F2']].
      rewrite <- app_assoc in S'. exact S'.
Qed.
End Members.
Lemma upds_same d ms : NoDup (map fst d) -> forall n k, get (ndata (upds (simple_upds d ms) n)) k =
  match get d k with Some v => if existsb (fun m => Z.eqb (k_mod m) 1 && (Z.eqb (k_a m) (nID n) || Z.eqb (k_b m) (nID n))) ms then Some v else get (ndata n) k | None => get (ndata n) k end.
Proof.
  intros N n k. induction ms as [|m ms IH] using rev_ind; [cbn; destruct (get d k); reflexivity|]. unfold simple_upds in *. rewrite flat_map_app, upds_app, existsb_app. cbn [flat_map app existsb]. rewrite app_nil_r, orb_false_r.
  set (n1 := upds _ n) in *. assert (I : nID n1 = nID n) by apply upds_fixed. destruct (Z.eqb (k_mod m) 1); cbn [andb]; [|rewrite orb_false_r; exact IH].
  rewrite !upds_cons. unfold upd. cbn [fst snd upds fold_left]. rewrite !I, (Z.eqb_sym (k_a m)), (Z.eqb_sym (k_b m)).
  destruct (Z.eqb (nID n) (k_a m)) eqn:EA, (Z.eqb (nID n) (k_b m)) eqn:EB; cbn [nID ndata orb]; rewrite ?I, ?EB; cbn [ndata]; rewrite ?get_update by exact N; rewrite ?IH; rewrite ?orb_true_r, ?orb_false_r; destruct (get d k); reflexivity.
Qed.
Lemma lower_t c : chr_eqb (hd "000"%char (lower [c])) "t"%char = true <-> c = "t"%char \/ c = "T"%char.
Proof.
  split.
  - intro H. destruct c as [[] [] [] [] [] [] [] []]; vm_compute in H; try discriminate; [left|right]; reflexivity || (right; reflexivity).
  - intros [->| ->]; reflexivity.
Qed.
Lemma pot_spec s : s <> [] -> (pot_b s = true <-> starts_with_t s).
Proof.
  destruct s as [|c s]; [congruence|]. intros _. unfold pot_b, starts_with_t. pose proof (lower_t c) as L.
  change (lower (c :: s)) with (hd "000"%char (lower [c]) :: lower s). cbv beta iota. rewrite L. split.
  - intros [->| ->]; exists s; [left|right]; reflexivity.
  - intros [r [E|E]]; injection E as -> _; [left|right]; reflexivity.
Qed.

(** ** C115 *)
Theorem C115_hydrodyn_graph : forall flt hd secs axs simple joints members,
  hydrodyn_file flt hd secs axs simple joints members -> hsound secs axs simple joints members ->
  exists g, to_graph flt hd = Ok g /\ Forall2 (node_of_hjoint axs simple members) joints (nodes_of g) /\ Forall2 (elem_of_hmember g) members (elements_of g) /\
    get (propsets g) (S_ "Section") = Some (map (fun a => mk_prop (a_id a) (sections a)) secs) /\
    get (propsets g) (S_ "AxCoefs") = Some (map (fun a => mk_prop (a_id a) (axials a)) axs) /\
    (exists ps, get (propsets g) (S_ "SimpleCoefs") = Some ps /\ map pdata ps = map coefs simple /\ map pID ps = map Z.of_nat (seq 1 (List.length simple))) /\ modes g = 0 /\ motions g = 0.
Proof.
  intros flt d secs axs simple joints members F [N AX EN PR KI SI PO].
  destruct F as [F0 F1 F1' F2 F2' F3 F3' FD FM FF FG FJ [rows [FR1 FR2]]]. unfold given in *.
  assert (X : to_graph flt d = hydrodyn_graph flt d) by (unfold to_graph, has_key; rewrite !has_get, F0, F3; reflexivity). rewrite X. clear X.
  destruct (add_set_St d "SectionProp" "Section" section_prop empty_graph [] [] [] (map (fun a => mk_prop (a_id a) (sections a)) secs) (map material_row secs) St_empty F1) as [g1 [E1 S1]].
  { apply rows_props. intros i a Ha. apply section_ok. unfold wide in F1'. rewrite Forall_forall in F1'. destruct (F1' a Ha) as [<-|[]]. reflexivity. }
  destruct (add_set_St d "AxCoefs" "AxCoefs" axial_prop g1 [] [] _ (map (fun a => mk_prop (a_id a) (axials a)) axs) (map material_row axs) S1 F2) as [g2 [E2 S2]].
  { apply rows_props. intros i a Ha. apply axial_ok. unfold wide in F2'. rewrite Forall_forall in F2'. destruct (F2' a Ha) as [<-|[]]. reflexivity. }
  destruct (add_set_St d "SmplProp" "SimpleCoefs" simple_prop g2 [] [] _ (map (fun x => mk_prop (Z.of_nat (fst x + 1)) (coefs (snd x))) (combine (seq 0 (List.length simple)) simple)) (map (map CN) simple) S2 F3) as [g3 [E3 S3]].
  { apply (rows_numbered simple_prop simple (fun i r => mk_prop (Z.of_nat (i + 1)) (coefs r))). intros i r Hr. apply simple_ok. rewrite Forall_forall in F3'. apply F3'. exact Hr. }
  match type of S3 with St _ _ _ ?ps => change ps with (hsets secs axs simple) in S3 end.
  destruct (add_hydro_nodes_St secs axs simple joints g3 [] [] S3 AX) as [g4 [E4 S4]]. cbn [app] in S4.
  assert (NI : map nID (map (hnode axs) joints) = map h_id joints) by (rewrite map_map; reflexivity).
  destruct (add_hydro_members_St flt secs axs simple (map h_id joints) members rows FR2 N EN PR KI SI PO g4 _ [] S4 NI) as [g5 [es [E5 [S5 AL]]]]. cbn [app] in S5.
  exists g5. split.
  { unfold hydrodyn_graph. rewrite E1. cbn [bind]. rewrite E2. cbn [bind]. rewrite E3. cbn [bind].
    assert (M : forall key w, no_rows d key -> misc_rows d key w = Ok tt) by (intros key w [H|H]; unfold misc_rows; rewrite H; reflexivity). rewrite !M by assumption. cbn [bind].
    assert (FI : fill_rows d = Ok tt) by (unfold fill_rows; destruct FF as [H|H]; rewrite H; reflexivity). rewrite FI. cbn [bind].
    unfold item. rewrite FJ. cbn [bind]. rewrite E4. cbn [bind]. rewrite FR1. cbn [bind]. exact E5. }
  split; [|split; [|destruct S5 as [_ [_ [_ [_ [H5 [_ [H7 [H8 _]]]]]]]]; rewrite H5; split; [reflexivity|]; split; [reflexivity|]; split; [|auto]]].
  - rewrite (St_nodes _ _ _ _ S5). clear -AX. assert (ALL : forall js, incl js joints -> Forall2 (node_of_hjoint axs simple members) js (map (upds (simple_upds (coefs (hd [] simple)) members)) (map (hnode axs) js))); [|apply ALL; apply incl_refl].
    induction js as [|j js IH]; intro I; constructor; [|apply IH; intros x Hx; apply I; right; exact Hx].
    destruct (upds_fixed (simple_upds (coefs (hd [] simple)) members) (hnode axs j)) as [A1 [A2 [A3 A4]]]. split; [exact A1|]. split; [exact A2|]. split; [exact A3|]. split; [exact A4|].
    destruct (find (fun a => Z.eqb (a_id a) (h_ax j)) axs) as [a|] eqn:Fa.
    + exists a. split; [reflexivity|]. intro k. rewrite upds_same by apply coefs_distinct. unfold hnode. rewrite Fa. reflexivity.
    + exfalso. specialize (AX j (I j (or_introl eq_refl))). apply in_map_iff in AX. destruct AX as [a [Ea Ia]]. pose proof (find_none _ _ Fa a Ia) as Y. cbn in Y. rewrite Ea, Z.eqb_refl in Y. discriminate.
  - rewrite (St_elements _ _ _ _ S5). assert (LK : forall e, In e es -> linked g5 e) by (intros e He; apply (St_linked _ _ _ _ e S5 He)).
    clear -AL LK PO. induction AL as [|m e ms es H AL IH]; constructor; [|apply IH; [intros x Hx; apply PO; right; exact Hx | intros x Hx; apply LK; right; exact Hx]].
    destruct H as [H1 [H2 [H3 [H4 H5]]]]. cbn in H1, H2, H3, H4, H5. unfold elem_of_hmember, view_of. cbn [vID vnodeIDs vends vpropset vpropIDs vdata]. rewrite H1, H2, H3, H4, H5.
    split; [reflexivity|]. split; [reflexivity|]. split; [apply linked_two; [apply LK; left; reflexivity | exact H2]|]. split; [reflexivity|]. split; [reflexivity|]. split; [reflexivity|]. split; [reflexivity|]. split; [reflexivity|].
    split; [|reflexivity]. exists (pot_b (k_pot m)). split; [reflexivity|]. split; [apply pot_spec; apply PO; left; reflexivity|reflexivity].
  - exists (map (fun x => mk_prop (Z.of_nat (fst x + 1)) (coefs (snd x))) (combine (seq 0 (List.length simple)) simple)). split; [reflexivity|]. split; rewrite map_map; cbn [pdata pID].
    + rewrite <- (map_map snd coefs). f_equal. clear. generalize 0. induction simple as [|r l IH]; intro n; [reflexivity|]. cbn. f_equal. apply IH.
    + transitivity (map (fun i => Z.of_nat (i + 1)) (map fst (combine (seq 0 (List.length simple)) simple))); [rewrite map_map; reflexivity|].
      replace (map fst (combine (seq 0 (List.length simple)) simple)) with (seq 0 (List.length simple)); [|clear; generalize 0; induction simple as [|r l IH]; intro n; [reflexivity|]; cbn; f_equal; apply IH].
      rewrite <- seq_shift, map_map. apply map_ext. intro i. f_equal. lia.
Qed.
(** Any row of depth dependent, member based, filling or marine growth data: no graph *)
Theorem C115_other_tables_refuted : forall flt (hd : data) k row rows g, In k ["DpthProp"; "MemberProp"; "FillGroups"; "MGProp"]%string ->
  get hd (S_ "BeamProp") = None -> get hd (S_ k) = Some (row :: rows) -> to_graph flt hd <> Ok g.
Proof.
  intros flt d k row rows g K B G E. unfold to_graph, has_key in E. rewrite !has_get, B in E. destruct (get d (S_ "SmplProp")); [|destruct (get d (S_ "DOF2Nodes")); discriminate].
  unfold hydrodyn_graph in E. destruct (add_set d "SectionProp" "Section" section_prop empty_graph) as [g1|]; [|discriminate]. cbn [bind] in E. destruct (add_set d "AxCoefs" "AxCoefs" axial_prop g1) as [g2|]; [|discriminate]. cbn [bind] in E.
  destruct (add_set d "SmplProp" "SimpleCoefs" simple_prop g2) as [g3|]; [|discriminate]. cbn [bind] in E.
  assert (M : forall w, exists x, misc_rows d k w = Err x) by (intro w; unfold misc_rows; rewrite G; destruct (_ <? w); eexists; reflexivity).
  destruct K as [<-|[<-|[<-|[<-|[]]]]].
  - destruct (M 13) as [x Ex]. rewrite Ex in E. discriminate.
  - destruct (misc_rows d "DpthProp" 13); [|discriminate]. cbn [bind] in E. destruct (M 24) as [x Ex]. rewrite Ex in E. discriminate.
  - destruct (misc_rows d "DpthProp" 13); [|discriminate]. cbn [bind] in E. destruct (misc_rows d "MemberProp" 24); [|discriminate]. cbn [bind] in E. unfold fill_rows in E. rewrite G in E. discriminate.
  - destruct (misc_rows d "DpthProp" 13); [|discriminate]. cbn [bind] in E. destruct (misc_rows d "MemberProp" 24); [|discriminate]. cbn [bind] in E. destruct (fill_rows d); [|discriminate]. cbn [bind] in E.
    destruct (M 3) as [x Ex]. rewrite Ex in E. discriminate.
Qed.
(** Simple coefficients of a width other than 10 and 12 *)
Theorem C115_simple_width : forall flt (hd : data) rows g row, get hd (S_ "BeamProp") = None -> given hd "SmplProp" rows -> In row rows -> ~ In (List.length row) [10; 12] -> to_graph flt hd <> Ok g.
Proof.
  intros flt d rows g row B G I W E. unfold to_graph, has_key in E. unfold given in G. rewrite !has_get, B, G in E.
  unfold hydrodyn_graph in E. destruct (add_set d "SectionProp" "Section" section_prop empty_graph) as [g1|]; [|discriminate]. cbn [bind] in E. destruct (add_set d "AxCoefs" "AxCoefs" axial_prop g1) as [g2|]; [|discriminate]. cbn [bind] in E.
  unfold add_set in E. rewrite G in E.
  assert (X : forall l i g0 x, In row l -> add_each g0 (S_ "SimpleCoefs") simple_prop i l <> Ok x).
  { induction l as [|P l IH]; intros i g0 x I0 E0; [destruct I0|]. cbn [add_each] in E0. destruct (simple_prop i P) as [p|] eqn:EP; [|discriminate]. cbn [bind] in E0. destruct (add_prop g0 (S_ "SimpleCoefs") p) as [g' [u|]]; [|discriminate].
    destruct I0 as [->|I0]; [|apply (IH _ _ _ I0 E0)]. unfold simple_prop in EP. destruct (List.length row =? 12) eqn:L1; [apply Nat.eqb_eq in L1; apply W; right; left; auto|]. destruct (List.length row =? 10) eqn:L2; [apply Nat.eqb_eq in L2; apply W; left; auto|]. discriminate. }
  destruct (add_each (add_propset g2 (S_ "SimpleCoefs")) (S_ "SimpleCoefs") simple_prop 0 rows) eqn:EA; [apply (X _ _ _ _ I EA)|discriminate].
Qed.
Print Assumptions C115_hydrodyn_graph.
Print Assumptions C115_other_tables_refuted.
Print Assumptions C115_simple_width.

(** ** Example: a file that meets the hypotheses *)
Definition hex_secs := [mk_mat 1 [5; 1#10]%Q; mk_mat 2 [3; 1#20]%Q].
Definition hex_axs := [mk_mat 1 [1; 2; 3]%Q; mk_mat 2 [4; 5; 6]%Q].
Definition hex_simple := [[1; 2; 3; 4; 5; 6; 7; 8; 9; 10]%Q].
Definition hex_joints := [mk_hjoint 10 0 0 (-20) 1 [CN 0]; mk_hjoint 11 0 0 10 2 [CN 0]; mk_hjoint 5 20 0 (-20) 1 [CN 0]].
Definition hex_members := [mk_hmember 1 10 11 1 2 (1#2) 1 (S_ "TRUE") []; mk_hmember 2 5 11 1 1 1 2 (S_ "false") []].
Definition hex_hd : data :=
  [(S_ "SectionProp", map material_row hex_secs); (S_ "AxCoefs", map material_row hex_axs); (S_ "SmplProp", map (map CN) hex_simple); (S_ "DpthProp", []); (S_ "Joints", map hjoint_row hex_joints);
   (S_ "Members", [map (fun z => CT (str_of_Z z)) [1; 10; 11; 1; 2]%Z ++ [CT (S_ "0.5"); CT (S_ "1"); CT (S_ "TRUE")]; map (fun z => CT (str_of_Z z)) [2; 5; 11; 1; 1]%Z ++ [CN 1; CT (S_ "2"); CT (S_ "false")]])].
Definition hex_flt (s : str) : option Q := if str_eqb s (S_ "0.5") then Some (1#2)%Q else None.
Example hex_file : hydrodyn_file hex_flt hex_hd hex_secs hex_axs hex_simple hex_joints hex_members.
Proof.
  split; try reflexivity; try (left; reflexivity); try (right; reflexivity).
  - repeat constructor.
  - repeat constructor.
  - repeat constructor.
  - eexists. split; [reflexivity|]. constructor; [|constructor; [|constructor]].
    + exists (map (fun z => CT (str_of_Z z)) [1; 10; 11; 1; 2]%Z), (CT (S_ "0.5")), (CT (S_ "1")). split; [reflexivity|]. split; [repeat (constructor; [right; reflexivity|]); constructor|]. split; [right; exists (S_ "0.5"); split; reflexivity | right; reflexivity].
    + exists (map (fun z => CT (str_of_Z z)) [2; 5; 11; 1; 1]%Z), (CN 1), (CT (S_ "2")). split; [reflexivity|]. split; [repeat (constructor; [right; reflexivity|]); constructor|]. split; [left; reflexivity | right; reflexivity].
Qed.
Example hex_sound : hsound hex_secs hex_axs hex_simple hex_joints hex_members.
Proof.
  split; cbn.
  - repeat constructor; cbn; intuition discriminate.
  - intros j [<-|[<-|[<-|[]]]]; cbn; auto.
  - intros m [<-|[<-|[]]]; cbn; auto.
  - intros m [<-|[<-|[]]]; cbn; auto.
  - intros m [<-|[<-|[]]]; cbn; lia.
  - discriminate.
  - intros m [<-|[<-|[]]]; discriminate.
Qed.
Example hex_graph : exists g, to_graph hex_flt hex_hd = Ok g /\ map (fun n => get (ndata n) (S_ "Cd")) (nodes_of g) = [Some (GNum 1); Some (GNum 1); None].
Proof. eexists. split; [vm_compute; reflexivity|]. vm_compute. reflexivity. Qed.
