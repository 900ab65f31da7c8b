(** C114, C115, C117: masses, tables of HydroDyn and nodal data that graphs do not take. *)
From Verif Require Import Py PyFacts ListFacts Graph_Model Graph_Spec Graph_Proofs Graph_Props ToGraph_Model ToGraph_Props ToGraphHydro_Props ToGraphOut_Props.
From Verif Require Import Dict.
From Coq Require Import QArith Qround.
Local Open Scope nat_scope.

(** C114: in a SubDyn file that gives a graph, every concentrated mass has 11 columns, and its first one is a whole number. *)
Theorem C114_mass_rows flt sd beams rows g row : given sd "BeamProp" beams -> given sd "ConcentratedMasses" rows -> to_graph flt sd = Ok g -> In row rows ->
  List.length row = 11 /\ exists q z, hd_error row = Some (CN q) /\ (q == inject_Z z)%Q.
Proof.
  intros B C E I. unfold given in *. unfold to_graph, has_key in E. rewrite has_get, B in E. unfold subdyn_graph in E.
  destruct (add_set sd "BeamProp" "Beam" beam_prop empty_graph) as [g1|]; [|discriminate]. cbn [bind] in E. destruct (add_set sd "CableProp" "Cable" cable_prop g1) as [g2|]; [|discriminate]. cbn [bind] in E.
  destruct (add_set sd "RigidProp" "Rigid" rigid_prop g2) as [g3|]; [|discriminate]. cbn [bind] in E. destruct (item sd "Joints") as [js|]; [|discriminate]. cbn [bind] in E. destruct (add_nodes g3 js) as [g4|]; [|discriminate]. cbn [bind] in E.
  destruct (item sd "Members") as [ms|]; [|discriminate]. cbn [bind] in E. destruct (mapM (mapM int_c) ms) as [mz|]; [|discriminate]. cbn [bind] in E. destruct (add_members g4 mz) as [g5|]; [|discriminate]. cbn [bind] in E.
  unfold item at 1 in E. rewrite C in E. cbn [bind] in E. destruct (add_masses g5 rows) as [g6|] eqn:EM; [|discriminate]. clear E B C. revert g5 g6 EM. induction rows as [|r rows IH]; intros g5 g6 EM; [contradiction|]. cbn [add_masses] in EM.
  destruct (at_ r 0) as [c|] eqn:E0; [|discriminate]. cbn [bind] in EM. destruct (node_of_cell g5 c) as [a|] eqn:EN; [|discriminate]. cbn [bind] in EM. destruct (mass_of r) as [M|] eqn:EMM; [|discriminate]. cbn [bind] in EM.
  destruct I as [->|I]; [|exact (IH I _ _ EM)]. clear IH EM. unfold mass_of in EMM. destruct (Nat.eqb_spec (List.length row) 11) as [L|L]; [|discriminate]. split; [exact L|].
  unfold at_ in E0. destruct row as [|c0 row]; [discriminate|]. cbn [nth_error] in E0. injection E0 as ->. unfold node_of_cell in EN. destruct c as [q|s]; [|discriminate]. destruct (Qeq_bool q (inject_Z (int_q q))) eqn:EQ; [|discriminate]. apply Qeq_bool_iff in EQ. exists q, (int_q q). now split.
Qed.
(** C115: the first row of one of the tables that cannot be used: an IndexError when it is too narrow, a plain Exception otherwise. *)
Theorem C115_table_error flt (hd : data) k w row rows : In (k, w) [("DpthProp", 13); ("MemberProp", 24); ("MGProp", 3)]%string -> (forall k', In k' ["BeamProp"; "SectionProp"; "AxCoefs"; "FillGroups"]%string -> get hd (S_ k') = None) ->
  get hd (S_ "SmplProp") = Some [] -> get hd (S_ k) = Some (row :: rows) -> (forall k', In k' ["DpthProp"; "MemberProp"; "MGProp"]%string -> k' <> k -> get hd (S_ k') = None) ->
  to_graph flt hd = Err (if List.length row <? w then IndexError else PlainException).
Proof.
  intros K N SP G O. unfold to_graph, has_key. rewrite !has_get, (N "BeamProp"%string), SP by (cbn; tauto). unfold hydrodyn_graph, add_set. rewrite (N "SectionProp"%string) by (cbn; tauto). cbn [bind]. rewrite (N "AxCoefs"%string) by (cbn; tauto). cbn [bind]. rewrite SP. cbn [add_each bind].
  unfold misc_rows, fill_rows. rewrite (N "FillGroups"%string) by (cbn; tauto).
  destruct K as [E|[E|[E|[]]]]; injection E as <- <-.
  - rewrite G. destruct (_ <? _); reflexivity.
  - rewrite (O "DpthProp"%string), G by (cbn; tauto || discriminate). cbn [bind]. destruct (_ <? _); reflexivity.
  - rewrite (O "DpthProp"%string), (O "MemberProp"%string), G by (cbn; tauto || discriminate). cbn [bind]. destruct (_ <? _); reflexivity.
Qed.
(** C117, refuted for data called ID: they replace the number of the node, without their fraction. *)
Theorem C117_id_data_refuted {V} (number : V -> option Q) (g : @Graph_Model.graph V) x v q : nodes_of g = [x] -> ndata x = [(S_ "ID", v)] -> number v = Some q -> (0 <= q)%Q ->
  get (nodal_frame number g) (S_ "ID") = Some [inject_Z (Qfloor q)].
Proof.
  intros E D H P. unfold nodal_frame. fold (nodes_of g). rewrite E. cbn [List.length put_nodes]. unfold put_node. rewrite D. cbn [fold_left Nat.eqb]. unfold put_value. cbn [fst snd]. rewrite H.
  assert (F : int_q q = Qfloor q). { unfold int_q. destruct q as [a b]. cbn. apply Z.quot_div_nonneg; [|lia]. unfold Qle in P. cbn in P. lia. }
  rewrite F. reflexivity.
Qed.

(** ** Examples *)
Example ex_mass : exists g, to_graph (fun _ => None) ex_sd = Ok g /\ given ex_sd "ConcentratedMasses" (map mass_row ex_masses).
Proof. eexists. split; [vm_compute; reflexivity|reflexivity]. Qed.
Example ex_narrow : to_graph (fun _ => None) [(S_ "SmplProp", []); (S_ "MGProp", [[CN 1; CN 2]])] = Err IndexError.
Proof. apply (C115_table_error (fun _ => None) [(S_ "SmplProp", []); (S_ "MGProp", [[CN 1; CN 2]])] "MGProp" 3 [CN 1; CN 2] []); [cbn; tauto| |reflexivity|reflexivity|]; cbn [In]; intuition (subst; try reflexivity; congruence). Qed.
Example ex_id : get (nodal_frame Some (@add_node Q empty_graph (mk_node 5 0 0 0 [(S_ "ID", 7 # 2)]))) (S_ "ID") = Some [3%Q].
Proof. apply (C117_id_data_refuted Some _ (mk_node 5 0 0 0 [(S_ "ID", 7 # 2)]) (7 # 2) (7 # 2)); try reflexivity. discriminate. Qed.

(** C117: the lines of a graph join the first and the last node of each element, in the order of the elements. *)
Definition element_ends {V} (g : @Graph_Model.graph V) (a : nat) (p q : Q * Q * Q) : Prop :=
  exists m n mid, (enodes (elem_at g a) = m :: mid ++ [n] \/ (enodes (elem_at g a) = [m] /\ n = m)) /\
    p = (nx (node_at g m), ny (node_at g m), nz (node_at g m)) /\ q = (nx (node_at g n), ny (node_at g n), nz (node_at g n)).
Theorem C117_lines {V} (g : @Graph_Model.graph V) : (forall a, In a (gElements g) -> enodes (elem_at g a) <> []) ->
  exists l, to_lines g = Ok l /\ Forall2 (fun a pq => element_ends g a (fst pq) (snd pq)) (gElements g) l.
Proof.
  intro H. unfold to_lines. induction (gElements g) as [|a es IH]; [exists []; split; [reflexivity|constructor]|].
  destruct IH as (l & E & F); [intros b B; apply H; right; exact B|]. cbn [mapR]. pose proof (H a (or_introl eq_refl)) as N.
  destruct (enodes (elem_at g a)) as [|m ns] eqn:A; [contradiction|]. cbn [bind]. rewrite E. cbn [bind]. eexists. split; [reflexivity|]. constructor; [|exact F]. cbn [fst snd].
  destruct (exists_last (l := m :: ns)) as (pre & n & P); [discriminate|]. exists m, (last ns m).
  destruct pre as [|m' mid]; cbn [app] in P; injection P as Q1 Q2.
  - exists []. split; [right; subst ns; split; [exact A|reflexivity]|]. split; reflexivity.
  - exists mid. split; [left; subst ns; rewrite last_last; exact A|]. split; reflexivity.
Qed.
(** An element without nodes has no line: an IndexError for the whole graph. *)
Theorem C117_lines_empty {V} (g : @Graph_Model.graph V) a : In a (gElements g) -> enodes (elem_at g a) = [] -> to_lines g = Err IndexError.
Proof.
  intros I A. unfold to_lines. induction (gElements g) as [|b es IH]; [destruct I|]. cbn [mapR]. destruct I as [->|I]; [rewrite A; reflexivity|].
  destruct (enodes (elem_at g b)); [reflexivity|]. cbn [bind]. rewrite (IH I). reflexivity.
Qed.
(** The points are the positions of the nodes in order. *)
Theorem C117_points {V} (g : @Graph_Model.graph V) : Forall2 (fun a p => p = (nx (node_at g a), ny (node_at g a), nz (node_at g a))) (gNodes g) (points g).
Proof. unfold points. induction (gNodes g) as [|a l IH]; cbn [map]; constructor; [reflexivity|exact IH]. Qed.
Print Assumptions C117_lines.
Print Assumptions C117_lines_empty.
Print Assumptions C117_points.
Print Assumptions C114_mass_rows.
Print Assumptions C115_table_error.
Print Assumptions C117_id_data_refuted.
(** The graph of the examples of C36 has elements, all with nodes. *)
Example C117_lines_nonvacuous : gElements demo <> [] /\ (forall a, In a (gElements demo) -> enodes (elem_at demo a) <> []).
Proof.
  split; [vm_compute; discriminate|]. assert (H : forallb (fun a => match enodes (elem_at demo a) with [] => false | _ => true end) (gElements demo) = true) by (vm_compute; reflexivity).
  intros a A E. rewrite forallb_forall in H. specialize (H a A). rewrite E in H. discriminate H.
Qed.
