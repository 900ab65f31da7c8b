(** The geometrical graph of weio/tools/graph.py: nodes with a position and data, elements linking them.

    Python objects are addresses into two heaps, one for Node objects and one for Element objects, since elements
    refer to nodes and the lists of the graph refer to both.  An address is the position of the object in its heap.
    Every operation returns the graph it leaves behind together with its result or exception, because several of
    them raise after having changed the graph.

    Simplifications: coordinates are exact rationals instead of doubles; values stored in [data] are an arbitrary
    type [V], the expression v*(1-fact)+w*fact on them is an arbitrary partial function [interp] (None: it raises)
    and their equality is an arbitrary function [veqb]; numpy.argsort is an arbitrary function [argsort]; elements
    are filled through addElement, so they always have their list of nodes; [Modes] and [Motions] are counts;
    element and misc property sets are not modelled. *)
From Verif Require Import Py PyFacts Dict.
From Coq Require Import QArith.
Local Open Scope nat_scope.

Section Graph.
Context {V : Type}.
Variable interp : V -> V -> Q -> option V.
Variable veqb : V -> V -> bool.
Variable argsort : list Q -> list nat.

(** Node.__init__ (graph.py:42-48) *)
Record node := mk_node { nID : Z; nx : Q; ny : Q; nz : Q; ndata : @dict V }.
(** NodeProperty (graph.py:64-88) *)
Record prop := mk_prop { pID : Z; pdata : @dict V }.
(** Property.data: all entries but 'ID' (graph.py:75-77) *)
Definition prop_data (p : prop) : @dict V := filter (fun e => negb (str_eqb (fst e) (S_ "ID"))) (pdata p).
(** Element.__init__ (graph.py:101-114).  [epropIDs]: None, or the sequence and whether it is a numpy array. *)
Record elem := mk_elem { eID : Z; enodeIDs : list Z; enodes : list nat; epropset : option str;
                         epropIDs : option (bool * list Z); edata : @dict V; enodeProps : option (list prop) }.

(** GraphModel.__init__ (graph.py:160-174).  The table of [nodeIDs2ElementIDs] is not created by the constructor
    (the line that should do it creates [_nodeIDs2Elements] twice): None is the missing attribute. *)
Record graph := mk_graph {
  nheap : list node; gNodes : list nat;
  eheap : list elem; gElements : list nat;
  propsets : @dict (list prop);
  modes : nat; motions : nat;
  c_n2eid : option (list (Z * list Z)); c_n2e : list (Z * list nat); c_e2n : list (Z * list Z); c_conn : list (list nat) }.
Definition empty_graph : graph := mk_graph [] [] [] [] [] 0 0 None [] [] [].

(** Reading an object through its address.  The defaults are never read: addresses come from allocations. *)
Definition null_node : node := mk_node 0 0 0 0 [].
Definition null_elem : elem := mk_elem 0 [] [] None None [] None.
Definition node_at (g : graph) (a : nat) : node := nth a (nheap g) null_node.
Definition elem_at (g : graph) (a : nat) : elem := nth a (eheap g) null_elem.

Fixpoint set_nth {A} (l : list A) (i : nat) (x : A) : list A :=
  match l, i with
  | [], _ => []
  | _ :: l', O => x :: l'
  | y :: l', S i' => y :: set_nth l' i' x
  end.
Definition with_nodes g h l := mk_graph h l (eheap g) (gElements g) (propsets g) (modes g) (motions g) (c_n2eid g) (c_n2e g) (c_e2n g) (c_conn g).
Definition with_elems g h l := mk_graph (nheap g) (gNodes g) h l (propsets g) (modes g) (motions g) (c_n2eid g) (c_n2e g) (c_e2n g) (c_conn g).
Definition with_props g p := mk_graph (nheap g) (gNodes g) (eheap g) (gElements g) p (modes g) (motions g) (c_n2eid g) (c_n2e g) (c_e2n g) (c_conn g).
Definition with_dyn g a b := mk_graph (nheap g) (gNodes g) (eheap g) (gElements g) (propsets g) a b (c_n2eid g) (c_n2e g) (c_e2n g) (c_conn g).
Definition with_caches g a b c d := mk_graph (nheap g) (gNodes g) (eheap g) (gElements g) (propsets g) (modes g) (motions g) a b c d.
Definition set_node g a n := with_nodes g (set_nth (nheap g) a n) (gNodes g).
Definition set_elem g a e := with_elems g (set_nth (eheap g) a e) (gElements g).

(** addNode (graph.py:176-177) of a new Node object *)
Definition add_node (g : graph) (n : node) : graph := with_nodes g (nheap g ++ [n]) (gNodes g ++ [List.length (nheap g)]).

(** getNode / getElement (graph.py:188-198): the first object of the list with that ID *)
Definition get_node (g : graph) (id : Z) : res nat :=
  match find (fun a => Z.eqb (nID (node_at g a)) id) (gNodes g) with Some a => Ok a | None => Err KeyError end.
Definition get_elem (g : graph) (id : Z) : res nat :=
  match find (fun a => Z.eqb (eID (elem_at g a)) id) (gElements g) with Some a => Ok a | None => Err KeyError end.
(** getNodeProperty (graph.py:200-204) *)
Definition get_prop (g : graph) (set : str) (id : Z) : res prop :=
  match get (propsets g) set with
  | None => Err KeyError
  | Some ps => match find (fun p => Z.eqb (pID p) id) ps with Some p => Ok p | None => Err KeyError end
  end.
Fixpoint mapR {A B} (f : A -> res B) (l : list A) : res (list B) :=
  match l with [] => Ok [] | x :: l' => y <- f x ;; ys <- mapR f l' ;; Ok (y :: ys) end.
(** [self.getNodeProperty(elem.propset, i) for i in elem.propIDs]; a propset of None is not a key of the dictionary *)
Definition get_props (g : graph) (set : option str) (ids : list Z) : res (list prop) :=
  mapR (fun i => match set with Some s => get_prop g s i | None => Err KeyError end) ids.

(** addElement (graph.py:179-186), on an element object already allocated at [a] *)
Definition add_element_at (g : graph) (a : nat) : graph * res unit :=
  let e := elem_at g a in
  match mapR (get_node g) (enodeIDs e) with
  | Err x => (g, Err x)
  | Ok ns =>
    let e1 := mk_elem (eID e) (enodeIDs e) ns (epropset e) (epropIDs e) (edata e) (enodeProps e) in
    let g1 := set_elem g a e1 in
    match epropIDs e with
    | None => (with_elems g1 (eheap g1) (gElements g1 ++ [a]), Ok tt)
    | Some (_, ids) =>
      match get_props g1 (epropset e) ids with
      | Err x => (g1, Err x)
      | Ok ps =>
        let g2 := set_elem g1 a (mk_elem (eID e) (enodeIDs e) ns (epropset e) (epropIDs e) (edata e) (Some ps)) in
        (with_elems g2 (eheap g2) (gElements g2 ++ [a]), Ok tt)
      end
    end
  end.
(** Allocation of an Element object; the constructor checks of graph.py:115-118 *)
Definition new_elem (g : graph) (e : elem) : res (graph * nat) :=
  match epropIDs e, epropset e with
  | Some _, None => Err PlainException
  | _, _ => Ok (with_elems g (eheap g ++ [e]) (gElements g), List.length (eheap g))
  end.
(** addElement(Element(ID, nodeIDs, propset=, propIDs=, data...)) *)
Definition add_element (g : graph) (e : elem) : graph * res unit :=
  match new_elem g e with
  | Err x => (g, Err x)
  | Ok (g1, a) => add_element_at g1 a
  end.

(** addNodePropertySet, addNodeProperty (graph.py:264-265, 276-280) *)
Definition add_propset (g : graph) (s : str) : graph := with_props g (put (propsets g) s []).
Definition add_prop (g : graph) (s : str) (p : prop) : graph * res unit :=
  match get (propsets g) s with
  | None => (g, Err KeyError)
  | Some ps => (with_props g (put (propsets g) s (ps ++ [p])), Ok tt)
  end.
(** Node.setData, setNodalData, setNodeNodalProp, setElementNodalProp (graph.py:50-55, 295-309) *)
Definition set_data (g : graph) (a : nat) (d : @dict V) : graph :=
  let n := node_at g a in set_node g a (mk_node (nID n) (nx n) (ny n) (nz n) (update (ndata n) d)).
Definition set_nodal_data (g : graph) (id : Z) (d : @dict V) : graph * res unit :=
  match get_node g id with Err x => (g, Err x) | Ok a => (set_data g a d, Ok tt) end.
Fixpoint set_nodal_props (g : graph) (set : str) (l : list (nat * Z)) : graph * res unit :=
  match l with
  | [] => (g, Ok tt)
  | (a, i) :: l' => match get_prop g set i with Err x => (g, Err x) | Ok p => set_nodal_props (set_data g a (prop_data p)) set l' end
  end.
Definition set_element_nodal_prop (g : graph) (a : nat) (set : str) (ids : list Z) : graph * res unit :=
  set_nodal_props g set (combine (enodes (elem_at g a)) ids).

(** nodeIDs2ElementIDs, nodeIDs2Elements, elementIDs2NodeIDs (graph.py:219-247).  Dictionaries keyed by integers:
    assigning an existing key keeps its place. *)
Fixpoint zput {A} (d : list (Z * A)) (k : Z) (v : A) : list (Z * A) :=
  match d with [] => [(k, v)] | e :: d' => if Z.eqb (fst e) k then (k, v) :: d' else e :: zput d' k v end.
Definition zdict {A B} (key : B -> Z) (val : B -> A) (l : list B) : list (Z * A) := fold_left (fun d x => zput d (key x) (val x)) l [].
Definition touching (g : graph) (id : Z) : list nat := filter (fun a => existsb (Z.eqb id) (enodeIDs (elem_at g a))) (gElements g).
Definition n2eid (g : graph) : graph * res (list (Z * list Z)) :=
  match c_n2eid g with
  | None => (g, Err AttributeError)
  | Some [] => let t := zdict (fun a => nID (node_at g a)) (fun a => map (fun b => eID (elem_at g b)) (touching g (nID (node_at g a)))) (gNodes g) in
               (with_caches g (Some t) (c_n2e g) (c_e2n g) (c_conn g), Ok t)
  | Some t => (g, Ok t)
  end.
Definition n2e (g : graph) : graph * res (list (Z * list nat)) :=
  match c_n2e g with
  | [] => let t := zdict (fun a => nID (node_at g a)) (fun a => touching g (nID (node_at g a))) (gNodes g) in
          (with_caches g (c_n2eid g) t (c_e2n g) (c_conn g), Ok t)
  | t => (g, Ok t)
  end.
Definition e2n (g : graph) : graph * res (list (Z * list Z)) :=
  match c_e2n g with
  | [] => let t := zdict (fun a => eID (elem_at g a)) (fun a => map (fun b => nID (node_at g b)) (enodes (elem_at g a))) (gElements g) in
          (with_caches g (c_n2eid g) (c_n2e g) t (c_conn g), Ok t)
  | t => (g, Ok t)
  end.
(** [l.index(x)]: Node defines no equality, so it is the identity of the objects *)
Fixpoint index_of (l : list nat) (a : nat) : res nat :=
  match l with [] => Err ValueError | b :: l' => if Nat.eqb b a then Ok 0 else i <- index_of l' a ;; Ok (S i) end.
(** connectivity (graph.py:250-257) *)
Definition connectivity (g : graph) : graph * res (list (list nat)) :=
  match c_conn g with
  | [] => match mapR (fun a => mapR (index_of (gNodes g)) (enodes (elem_at g a))) (gElements g) with
          | Err x => (g, Err x)
          | Ok c => (with_caches g (c_n2eid g) (c_n2e g) (c_e2n g) c, Ok c)
          end
  | c => (g, Ok c)
  end.
(** connecticityHasChanged (graph.py:386-390) *)
Definition conn_changed (g : graph) : graph := with_caches g (Some []) [] [] [].

(** points, toLines (graph.py:354-372): positions of the nodes, and of the first and last node of every element *)
Definition pos (n : node) : Q * Q * Q := (nx n, ny n, nz n).
Definition points (g : graph) : list (Q * Q * Q) := map (fun a => pos (node_at g a)) (gNodes g).
Definition to_lines (g : graph) : res (list ((Q * Q * Q) * (Q * Q * Q))) :=
  mapR (fun a => match enodes (elem_at g a) with
                 | [] => Err IndexError
                 | n1 :: l => Ok (pos (node_at g n1), pos (node_at g (last l n1)))
                 end) (gElements g).

(** sortNodesBy (graph.py:455-481).  A Node cannot be subscripted: any other key raises TypeError. *)
Definition sort_values (g : graph) (key : str) : res (list Q) :=
  let vals f := Ok (map (fun a => f (node_at g a)) (gNodes g)) in
  if str_eqb key (S_ "x") then vals nx else if str_eqb key (S_ "y") then vals ny else if str_eqb key (S_ "z") then vals nz
  else if str_eqb key (S_ "ID") then vals (fun n => inject_Z (nID n))
  else match gNodes g with [] => Ok [] | _ => Err TypeError end.
Definition sort_nodes (g : graph) (key : str) : graph * res unit :=
  if Nat.ltb 0 (modes g) then (g, Err PlainException) else if Nat.ltb 0 (motions g) then (g, Err PlainException) else
  match sort_values g key with
  | Err x => (g, Err x)
  | Ok vs => match mapR (fun i => match nth_error (gNodes g) i with Some a => Ok a | None => Err IndexError end) (argsort vs) with
             | Err x => (g, Err x)
             | Ok l => (conn_changed (with_nodes g (nheap g) l), Ok tt)
             end
  end.

(** [np.max] of a list of IDs (graph.py:410, 500-501) *)
Definition max_id (l : list Z) : res Z := match l with [] => Err ValueError | x :: l' => Ok (fold_left Z.max l' x) end.
Definition mem_str (k : str) (l : list str) : bool := existsb (str_eqb k) l.
(** Keyword arguments of Node(ID, x, y, z, data...) that clash with its parameters raise TypeError; the same for
    Element(ID, nodeIDs, propset=, propIDs=, data...); data called 'nodes' or 'properties' is not modelled. *)
Definition node_reserved : list str := [S_ "self"; S_ "ID"; S_ "x"; S_ "y"; S_ "z"].
Definition elem_reserved : list str := [S_ "self"; S_ "ID"; S_ "nodeIDs"; S_ "propset"; S_ "propIDs"].
Definition clash (reserved : list str) (d : @dict V) : bool := existsb (fun e => mem_str (fst e) reserved) d.

(** The data of a node created between two nodes (graph.py:422-428): a key missing in the second node, or values that
    cannot be interpolated, give the value of the first node.  (The keys of a dictionary are distinct.) *)
Definition sub_value (n2 : node) (fact : Q) (k : str) (v : V) : V :=
  match get (ndata n2) k with
  | None => v
  | Some w => match interp v w fact with Some u => u | None => v end
  end.
Definition sub_data (n1 n2 : node) (fact : Q) (keys : list str) : @dict V :=
  map (fun e => (fst e, sub_value n2 fact (fst e) (snd e))) (filter (fun e => negb (mem_str (fst e) keys)) (ndata n1)).
(** The loop creating the intermediate nodes (graph.py:416-431): [id] is maxNodeId, [is] the remaining range(1,n) *)
Fixpoint sub_nodes (g : graph) (n1 n2 : node) (n : Z) (keys : list str) (id : Z) (is : list nat) : graph * res (list nat) :=
  match is with
  | [] => (g, Ok [])
  | i :: is' =>
    let fact := (inject_Z (Z.of_nat i) / inject_Z n)%Q in
    let d := sub_data n1 n2 fact keys in
    if clash node_reserved d then (g, Err TypeError) else
    let ni := mk_node (id + 1) (nx n1 * (1 - fact) + nx n2 * fact)%Q (ny n1 * (1 - fact) + ny n2 * fact)%Q (nz n1 * (1 - fact) + nz n2 * fact)%Q d in
    let a := List.length (nheap g) in
    let (g', r) := sub_nodes (add_node g ni) n1 n2 n keys (id + 1) is' in
    (g', l <- r ;; Ok (a :: l))
  end.
(** The properties of the created elements (graph.py:438-445): without propIDs the names are unbound; [all] of the
    comparison of a list with a number raises TypeError; a numpy array is compared entry by entry. *)
Definition shared_props (e : elem) : res (option str * option (bool * list Z)) :=
  match epropIDs e with
  | None => Err UnboundLocalError
  | Some (_, []) => Err IndexError
  | Some (false, _ :: _) => Err TypeError
  | Some (true, x :: l) => if forallb (fun y => Z.eqb y x) (x :: l) then Ok (epropset e, epropIDs e) else Err NotImplementedError
  end.
(** The loop creating the elements (graph.py:435-447): [id] is maxElemId, [ends] the remaining pairs of nodes *)
Fixpoint sub_elems (g : graph) (ea : nat) (id : Z) (ends : list (nat * nat)) : graph * res (list nat) :=
  match ends with
  | [] => (g, Ok [])
  | (a, b) :: ends' =>
    let e := elem_at g ea in
    match shared_props e with
    | Err x => (g, Err x)
    | Ok (ps, pi) =>
      if clash elem_reserved (edata e) then (g, Err TypeError) else
      if clash [S_ "nodes"; S_ "properties"] (edata e) then (g, Err Unmodelled) else
      match new_elem g (mk_elem (id + 1) [nID (node_at g a); nID (node_at g b)] [] ps pi (edata e) None) with
      | Err x => (g, Err x)
      | Ok (g1, na) => let (g', r) := sub_elems g1 ea (id + 1) ends' in (g', l <- r ;; Ok (na :: l))
      end
    end
  end.
Definition range1 (n : Z) : list nat := seq 1 (Z.to_nat n - 1).
(** _divideElement (graph.py:402-452) *)
Definition divide_element (g : graph) (id : Z) (n : Z) (maxElem : Z) (keys : list str) : graph * res (list nat) :=
  if Nat.ltb 0 (modes g) then (g, Err PlainException) else if Nat.ltb 0 (motions g) then (g, Err PlainException) else
  match max_id (map (fun a => nID (node_at g a)) (gNodes g)) with
  | Err x => (g, Err x)
  | Ok maxNode =>
    match get_elem g id with
    | Err x => (g, Err x)
    | Ok ea =>
      let e := elem_at g ea in
      match enodes e with
      | [a1; a2] =>
        match sub_nodes g (node_at g a1) (node_at g a2) n keys maxNode (range1 n) with
        | (g1, Err x) => (g1, Err x)
        | (g1, Ok mid) =>
          let subs := a1 :: mid ++ [a2] in
          let two := firstn 2 subs in
          let g2 := set_elem g1 ea (mk_elem (eID e) (map (fun a => nID (node_at g1 a)) two) two (epropset e) (epropIDs e) (edata e) (enodeProps e)) in
          sub_elems g2 ea maxElem (tl (combine subs (tl subs)))
        end
      | _ => (g, Ok [])
      end
    end
  end.
(** divideElements (graph.py:483-530): the loop over the elements, then the additions *)
Definition selected (g : graph) (a : nat) (xkey : str) (xlist : list V) : res bool :=
  match xkey with
  | [] => Ok true
  | _ => match get (edata (elem_at g a)) xkey with None => Err KeyError | Some v => Ok (negb (existsb (veqb v) xlist)) end
  end.
Fixpoint divide_loop (g : graph) (todo : list nat) (n : Z) (maxElem : Z) (xkey : str) (xlist : list V) (insert : bool) (keys : list str)
  : graph * res (list nat) :=
  match todo with
  | [] => (g, Ok [])
  | a :: todo' =>
    let id := eID (elem_at g a) in
    match (if insert then x <- get_elem g id ;; Ok [x] else Ok []) with
    | Err x => (g, Err x)
    | Ok front =>
      match selected g a xkey xlist with
      | Err x => (g, Err x)
      | Ok sel =>
        match (if sel then divide_element g id n maxElem keys else (g, Ok [])) with
        | (g1, Err x) => (g1, Err x)
        | (g1, Ok new) =>
          let (g2, r) := divide_loop g1 todo' n (maxElem + Z.of_nat (List.length new)) xkey xlist insert keys in
          (g2, l <- r ;; Ok (front ++ new ++ l))
        end
      end
    end
  end.
Fixpoint add_all (g : graph) (l : list nat) : graph * res unit :=
  match l with
  | [] => (g, Ok tt)
  | a :: l' => match add_element_at g a with (g1, Err x) => (g1, Err x) | (g1, Ok _) => add_all g1 l' end
  end.
Definition divide_elements (g : graph) (n : Z) (xkey : str) (xlist : list V) (method : str) (keys : list str) : graph * res unit :=
  match max_id (map (fun a => nID (node_at g a)) (gNodes g)), max_id (map (fun a => eID (elem_at g a)) (gElements g)) with
  | Err x, _ => (g, Err x)
  | _, Err x => (g, Err x)
  | Ok _, Ok maxElem =>
    if Z.leb n 0 then (g, Err PlainException) else
    match divide_loop g (gElements g) n maxElem xkey xlist (str_eqb method (S_ "insert")) keys with
    | (g1, Err x) => (g1, Err x)
    | (g1, Ok new) =>
      match (if str_eqb method (S_ "append") then Ok g1
             else if str_eqb method (S_ "insert") then Ok (with_elems g1 (eheap g1) [])
             else Err NotImplementedError) with
      | Err x => (g1, Err x)
      | Ok g2 => match add_all g2 new with
                 | (g3, Err x) => (g3, Err x)
                 | (g3, Ok _) => (conn_changed g3, Ok tt)
                 end
      end
    end
  end.

(** updateConnectivity (graph.py:392-397): iterating over propIDs of None raises TypeError *)
Fixpoint update_nodes (g : graph) (l : list nat) : graph * res unit :=
  match l with
  | [] => (g, Ok tt)
  | a :: l' => let e := elem_at g a in
    match mapR (get_node g) (enodeIDs e) with
    | Err x => (g, Err x)
    | Ok ns => update_nodes (set_elem g a (mk_elem (eID e) (enodeIDs e) ns (epropset e) (epropIDs e) (edata e) (enodeProps e))) l'
    end
  end.
Fixpoint update_props (g : graph) (l : list nat) : graph * res unit :=
  match l with
  | [] => (g, Ok tt)
  | a :: l' => let e := elem_at g a in
    match epropIDs e with
    | None => (g, Err TypeError)
    | Some (_, ids) =>
      match get_props g (epropset e) ids with
      | Err x => (g, Err x)
      | Ok ps => update_props (set_elem g a (mk_elem (eID e) (enodeIDs e) (enodes e) (epropset e) (epropIDs e) (edata e) (Some ps))) l'
      end
    end
  end.
Definition update_connectivity (g : graph) : graph * res unit :=
  match update_nodes g (gElements g) with (g1, Err x) => (g1, Err x) | (g1, Ok _) => update_props g1 (gElements g1) end.

(** addMode (graph.py:535-539) *)
Definition add_mode (g : graph) : graph := with_dyn g (S (modes g)) (motions g).

(** Calls a user can make, and a history of calls; each call of a history succeeds. *)
Inductive call :=
| AddNode (n : node) | AddElement (e : elem) | AddPropSet (s : str) | AddProp (s : str) (p : prop)
| SetNodalData (id : Z) (d : @dict V) | Sort (key : str)
| Divide (n : Z) (xkey : str) (xlist : list V) (method : str) (keys : list str)
| UpdateConnectivity | AddMode
| Connectivity | NodeIDs2ElementIDs | NodeIDs2Elements | ElementIDs2NodeIDs.
Definition drop_answer {A} (r : graph * res A) : graph * res unit := (fst r, _ <- snd r ;; Ok tt).
Definition perform (g : graph) (c : call) : graph * res unit :=
  match c with
  | AddNode n => (add_node g n, Ok tt)
  | AddElement e => add_element g e
  | AddPropSet s => (add_propset g s, Ok tt)
  | AddProp s p => add_prop g s p
  | SetNodalData id d => set_nodal_data g id d
  | Sort key => sort_nodes g key
  | Divide n xkey xlist method keys => divide_elements g n xkey xlist method keys
  | UpdateConnectivity => update_connectivity g
  | AddMode => (add_mode g, Ok tt)
  | Connectivity => drop_answer (connectivity g)
  | NodeIDs2ElementIDs => drop_answer (n2eid g)
  | NodeIDs2Elements => drop_answer (n2e g)
  | ElementIDs2NodeIDs => drop_answer (e2n g)
  end.
Fixpoint run (g : graph) (cs : list call) : res graph :=
  match cs with
  | [] => Ok g
  | c :: cs' => match perform g c with (g1, Ok _) => run g1 cs' | (_, Err x) => Err x end
  end.
(** The same, going on after a call that raised *)
Definition run_on (g : graph) (cs : list call) : graph := fold_left (fun g c => fst (perform g c)) cs g.
End Graph.
