(** What a user sees of a graph, and what C36, C37 and C61 say about it. *)
From Verif Require Import Py PyFacts Dict Graph_Model.
From Coq Require Import QArith Permutation Sorted.
Local Open Scope nat_scope.

Section Spec.
Context {V : Type}.
Notation node := (@node V). Notation graph := (@graph V). Notation elem := (@elem V).

(** An element as seen by the user: its fields, with the Node objects behind [e.nodes] read. *)
Record eview := mk_view { vID : Z; vnodeIDs : list Z; vends : list node; vpropset : option str; vpropIDs : option (bool * list Z); vdata : @dict V }.
Definition view (g : graph) (a : nat) : eview :=
  let e := elem_at g a in mk_view (eID e) (enodeIDs e) (map (node_at g) (enodes e)) (epropset e) (epropIDs e) (edata e).
(** [g.Nodes] and [g.Elements] *)
Definition nodes_of (g : graph) : list node := map (node_at g) (gNodes g).
Definition elements_of (g : graph) : list eview := map (view g) (gElements g).

(** The properties an element refers to exist. *)
Definition props_known (g : graph) (e : eview) : Prop :=
  match vpropIDs e with
  | None => True
  | Some (_, ids) => exists s ps, vpropset e = Some s /\ get (propsets g) s = Some ps /\ forall i, In i ids -> In i (map pID ps)
  end.
(** Its properties are the same at both ends, given as a numpy array. *)
Definition same_props (e : eview) : Prop := exists x l, vpropIDs e = Some (true, x :: l) /\ forall y, In y l -> y = x.

(** ** C36 *)
(** [p] lies at [i]/[n] of the way from [a] to [b], and carries the data of [a] interpolated to [b] except for
    the excluded keys; what cannot be interpolated is copied from [a]. *)
Definition lies_between (interp : V -> V -> Q -> option V) (keys : list str) (a b : node) (i n : Z) (p : node) : Prop :=
  (nx p == nx a + (inject_Z i / inject_Z n) * (nx b - nx a))%Q /\
  (ny p == ny a + (inject_Z i / inject_Z n) * (ny b - ny a))%Q /\
  (nz p == nz a + (inject_Z i / inject_Z n) * (nz b - nz a))%Q /\
  forall k, (In k keys -> get (ndata p) k = None) /\
            (get (ndata a) k = None -> get (ndata p) k = None) /\
            forall v, ~ In k keys -> get (ndata a) k = Some v ->
              (forall w u, get (ndata b) k = Some w -> interp v w (inject_Z i / inject_Z n)%Q = Some u -> get (ndata p) k = Some u) /\
              (get (ndata b) k = None \/ (exists w, get (ndata b) k = Some w /\ interp v w (inject_Z i / inject_Z n)%Q = None) -> get (ndata p) k = Some v).
(** The chain [c] replacing the element [e]: [n] elements through [mid], the first with the ID of [e]. *)
Definition chain_through (interp : V -> V -> Q -> option V) (n : Z) (keys : list str) (e : eview) (c : list eview) (mid : list node) : Prop :=
  exists first last, vends e = [first; last] /\
    Z.of_nat (List.length mid) = (n - 1)%Z /\ Z.of_nat (List.length c) = n /\
    (forall i p, nth_error mid i = Some p -> lies_between interp keys first last (Z.of_nat i + 1) n p) /\
    (forall i p q, nth_error (first :: mid ++ [last]) i = Some p -> nth_error (first :: mid ++ [last]) (S i) = Some q ->
       exists s, nth_error c i = Some s /\ vends s = [p; q] /\ vnodeIDs s = [nID p; nID q] /\
         vpropset s = vpropset e /\ vpropIDs s = vpropIDs e /\ vdata s = vdata e /\ (i = 0 -> vID s = vID e)).
Definition replaced_by (interp : V -> V -> Q -> option V) (divided : eview -> Prop) (n : Z) (keys : list str)
    (e : eview) (r : list eview * list node) : Prop :=
  (divided e /\ chain_through interp n keys e (fst r) (snd r)) \/ (~ divided e /\ fst r = [e] /\ snd r = []).
(** Elements with two nodes that the exclusion key and list do not rule out. *)
Definition two_nodes (e : eview) : Prop := List.length (vends e) = 2.
Definition to_divide (veqb : V -> V -> bool) (xkey : str) (xlist : list V) (e : eview) : Prop :=
  two_nodes e /\ (xkey = [] \/ exists v, get (vdata e) xkey = Some v /\ existsb (veqb v) xlist = false).

(** ** C37 *)
(** [c] lists, element by element, the positions in [g.Nodes] of the nodes of that element. *)
Definition positions (ns : list node) (ends : list node) (idx : list nat) : Prop := map (nth_error ns) idx = map Some ends.
Definition connects (g : graph) (c : list (list nat)) : Prop := Forall2 (fun e idx => positions (nodes_of g) (vends e) idx) (elements_of g) c.
(** Histories in which no element is added after connectivity was asked for, unless the nodes are sorted or the
    elements divided in between.  [asked] says whether it was already asked for. *)
Fixpoint no_late_element (asked : bool) (cs : list (@call V)) : bool :=
  match cs with
  | [] => true
  | AddElement _ :: cs' => negb asked && no_late_element asked cs'
  | Connectivity :: cs' => no_late_element true cs'
  | Sort _ :: cs' | Divide _ _ _ _ _ :: cs' => no_late_element false cs'
  | _ :: cs' => no_late_element asked cs'
  end.

(** ** C61 *)
(** numpy.argsort: positions of the values in increasing order, ties in any order *)
Definition argsort_spec (argsort : list Q -> list nat) : Prop :=
  forall vs, Permutation (argsort vs) (seq 0 (List.length vs)) /\ Sorted Qle (map (fun i => nth i vs 0%Q) (argsort vs)).
Definition sort_key (key : str) : option (node -> Q) :=
  if str_eqb key (S_ "x") then Some nx else if str_eqb key (S_ "y") then Some ny else if str_eqb key (S_ "z") then Some nz
  else if str_eqb key (S_ "ID") then Some (fun n => inject_Z (nID n)) else None.

(** ** C62 *)
(** The table has one entry per item, in order, under the ID of the item *)
Definition table_of {A B} (key : A -> Z) (val : A -> B -> Prop) (items : list A) (t : list (Z * B)) : Prop :=
  Forall2 (fun x e => fst e = key x /\ val x (snd e)) items t.
End Spec.
