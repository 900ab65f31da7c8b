(** Model of weio/fast_input_file_graph.py: the graphs of SubDyn files, HydroDyn files and SubDyn summaries, made with the operations
    of tools/graph.py (Graph_Model), and of the two outputs of a graph, [nodalDataFrame] and [toJSON] (graph.py:546-617).
    SIMPLIFICATIONS: the data of the file are a dictionary of tables; a cell of a table is a number (an exact rational) or a text;
    coordinates and masses given as texts are not modelled; the answer is the graph or the exception, since the graph that is being
    made is not returned when an exception is raised; sets of miscellaneous properties are left out: they are always empty. *)
From Verif Require Import Py Graph_Model.
From Verif Require Import Dict.
From Coq Require Import QArith.
Local Open Scope nat_scope.

Inductive cell := CN (q : Q) | CT (s : str).
Definition table := list (list cell).
Definition data := @dict table.
(** Values stored in nodes, properties and elements *)
Inductive gval := GNum (q : Q) | GInt (z : Z) | GText (s : str) | GBool (b : bool) | GColor (r g b : Q) | GSeq (l : list gval) | GMat (rows : list (list Q)).
Definition val_of (c : cell) : gval := match c with CN q => GNum q | CT s => GText s end.
(** int(x): a number is truncated, a text is parsed *)
Definition int_q (q : Q) : Z := Z.quot (Qnum q) (Zpos (Qden q)).
Definition int_c (c : cell) : res Z := match c with CN q => Ok (int_q q) | CT s => int_ s end.
Definition num_c (c : cell) : res Q := match c with CN q => Ok q | CT _ => Err Unmodelled end.
(** r[i], and l[z] where negative positions count from the end *)
Definition at_ {A} (r : list A) (i : nat) : res A := match nth_error r i with Some x => Ok x | None => Err IndexError end.
Definition py_at {A} (l : list A) (z : Z) : res A :=
  let z := if (z <? 0)%Z then (z + Z.of_nat (List.length l))%Z else z in
  if (z <? 0)%Z then Err IndexError else at_ l (Z.to_nat z).
Fixpoint mapM {A B} (f : A -> res B) (l : list A) : res (list B) := match l with [] => Ok [] | x :: l' => y <- f x ;; ys <- mapM f l' ;; Ok (y :: ys) end.
(** Data taken from the cells of a row, by name *)
Definition fields (ks : list (string * nat)) (P : list cell) : res (@dict gval) := mapM (fun k => c <- at_ P (snd k) ;; Ok (S_ (fst k), val_of c)) ks.
Definition item (sd : data) (k : string) : res table := match get sd (S_ k) with Some t => Ok t | None => Err KeyError end.

Local Notation graph := (@Graph_Model.graph gval).
Local Notation prop := (@Graph_Model.prop gval).
(** The loops that add the properties of a table *)
Fixpoint add_each (g : graph) (set : str) (mk : nat -> list cell -> res prop) (i : nat) (rows : table) : res graph :=
  match rows with
  | [] => Ok g
  | P :: rows' => p <- mk i P ;; match add_prop g set p with (g', Ok _) => add_each g' set mk (S i) rows' | (_, Err e) => Err e end
  end.
Definition add_set (sd : data) (key set : string) (mk : nat -> list cell -> res prop) (g : graph) : res graph :=
  match get sd (S_ key) with None => Ok g | Some rows => add_each (add_propset g (S_ set)) (S_ set) mk 0 rows end.
(** NodeProperty(ID=P[0], ...) *)
Definition named_prop (ks : list (string * nat)) (_ : nat) (P : list cell) : res prop := c <- at_ P 0 ;; d <- fields ks P ;; z <- int_c c ;; Ok (mk_prop z d).

(** ** SubDyn (fast_input_file_graph.py:29-121) *)
Definition beam_prop := named_prop [("E", 1); ("G", 2); ("rho", 3); ("D", 4); ("t", 5)]%string.
Definition cable_prop (i : nat) (P : list cell) : res prop :=
  c <- at_ P 0 ;; d <- fields [("EA", 1); ("rho", 2); ("T0", 3)]%string P ;; z <- int_c c ;;
  Ok (mk_prop z (d ++ [(S_ "Chan", match nth_error P 4 with Some c => val_of c | None => GInt (-1) end)])).
Definition rigid_prop := named_prop [("rho", 1)]%string.
(** Node(ID=N[0], x=N[1], y=N[2], z=N[3], Type=Type) (lines 62-66) *)
Definition joint_node (N : list cell) : res (@Graph_Model.node gval) :=
  c <- at_ N 0 ;; cx <- at_ N 1 ;; cy <- at_ N 2 ;; cz <- at_ N 3 ;; id <- int_c c ;; x <- num_c cx ;; y <- num_c cy ;; z <- num_c cz ;;
  Ok (mk_node id x y z [(S_ "Type", match nth_error N 4 with Some t => val_of t | None => GInt 1 end)]).
Fixpoint add_nodes (g : graph) (rows : table) : res graph := match rows with [] => Ok g | N :: rows' => n <- joint_node N ;; add_nodes (add_node g n) rows' end.
(** type2Color (lines 33-39) *)
Definition COLORS : list gval :=
  [GColor (1#10) (1#10) (1#10); GColor (753#1000) (561#1000) (5#100); GColor (541#1000) (753#1000) (5#100); GColor (753#1000) (5#100) (204#1000); GColor (918#1000) (702#1000) (125#1000)].
Definition SETS : list str := map S_ ["Beam"; "Cable"; "Rigid"]%string.
Definition slice {A} (l : list A) (a b : nat) : list A := firstn (b - a) (skipn a l).
(** A member (lines 71-78): all its cells are integers first *)
Definition member (E : list Z) : res (@Graph_Model.elem gval) :=
  t <- (if List.length E =? 5 then Ok 1%Z else at_ E 5) ;;
  id <- at_ E 0 ;; set <- py_at SETS (t - 1) ;; color <- py_at COLORS t ;;
  Ok (mk_elem id (slice E 1 3) [] (Some set) (Some (true, slice E 3 5)) [(S_ "Type", GText set); (S_ "object", GText (S_ "cylinder")); (S_ "color", color)] None).
Fixpoint add_members (g : graph) (rows : list (list Z)) : res graph :=
  match rows with
  | [] => Ok g
  | E :: rows' => e <- member E ;; match add_element g e with (g', Ok _) => add_members g' rows' | (_, Err x) => Err x end
  end.
(** getNode with the number or text of a cell: only a whole number is the ID of a node *)
Definition node_of_cell (g : graph) (c : cell) : res nat :=
  match c with CN q => if Qeq_bool q (inject_Z (int_q q)) then get_node g (int_q q) else Err KeyError | CT _ => Err KeyError end.
(** The mass matrix (lines 97-102) of the numbers of a row of 11 *)
Definition mass_matrix (m jxx jyy jzz jxy jxz jyz x y z : Q) : list (list Q) :=
  [[m; 0; 0; 0; z * m; - y * m]; [0; m; 0; - z * m; 0; x * m]; [0; 0; m; y * m; - x * m; 0];
   [0; - z * m; y * m; jxx + m * (y ^ 2 + z ^ 2); jxy - m * x * y; jxz - m * x * z];
   [z * m; 0; - x * m; jxy - m * x * y; jyy + m * (x ^ 2 + z ^ 2); jyz - m * y * z];
   [- y * m; x * m; 0; jxz - m * x * z; jyz - m * y * z; jzz + m * (x ^ 2 + y ^ 2)]]%Q.
Definition mass_of (CM : list cell) : res gval :=
  if List.length CM =? 11 then
    vs <- mapM num_c (skipn 1 CM) ;;
    match vs with [m; jxx; jyy; jzz; jxy; jxz; jyz; x; y; z] => Ok (GMat (mass_matrix m jxx jyy jzz jxy jxz jyz x y z)) | _ => Err Unmodelled end
  else Err NotImplementedError.
Fixpoint add_masses (g : graph) (rows : table) : res graph :=
  match rows with
  | [] => Ok g
  | CM :: rows' => c <- at_ CM 0 ;; a <- node_of_cell g c ;; M <- mass_of CM ;; add_masses (set_data g a [(S_ "addedMassMatrix", M)]) rows'
  end.
(** Boundary conditions (lines 105-111): at the interface the cells as they are, at the base the first six as integers *)
Definition ibc (N : list cell) : res gval := Ok (GSeq (map val_of (tl N))).
Definition rbc (N : list cell) : res gval := vs <- mapM (fun c => z <- int_c c ;; Ok (GInt z)) (firstn 6 (tl N)) ;; Ok (GSeq (vs ++ map val_of (skipn 6 (tl N)))).
Fixpoint add_nodal (g : graph) (key : string) (f : list cell -> res gval) (rows : table) : res graph :=
  match rows with
  | [] => Ok g
  | N :: rows' => c <- at_ N 0 ;; id <- int_c c ;; v <- f N ;; match set_nodal_data g id [(S_ key, v)] with (g', Ok _) => add_nodal g' key f rows' | (_, Err e) => Err e end
  end.
Definition subdyn_graph (sd : data) : res graph :=
  g <- add_set sd "BeamProp" "Beam" beam_prop empty_graph ;;
  g <- add_set sd "CableProp" "Cable" cable_prop g ;;
  g <- add_set sd "RigidProp" "Rigid" rigid_prop g ;;
  js <- item sd "Joints" ;; g <- add_nodes g js ;;
  ms <- item sd "Members" ;; ms <- mapM (mapM int_c) ms ;; g <- add_members g ms ;;
  cs <- item sd "ConcentratedMasses" ;; g <- add_masses g cs ;;
  is <- item sd "InterfaceJoints" ;; g <- add_nodal g "IBC" ibc is ;;
  bs <- item sd "BaseJoints" ;; add_nodal g "RBC" rbc bs.

(** ** HydroDyn (fast_input_file_graph.py:130-231) *)
Section Hydro.
(** float(text) *)
Variable flt : str -> option Q.
Definition float_c (c : cell) : res Q := match c with CN q => Ok q | CT s => match flt s with Some q => Ok q | None => Err ValueError end end.
Definition section_prop := named_prop [("D", 1); ("t", 2)]%string.
Definition axial_prop := named_prop [("JAxCd", 1); ("JAxCa", 2); ("JAxCp", 3)]%string.
Definition simple_prop (i : nat) (P : list cell) : res prop :=
  if List.length P =? 12 then
    d <- fields [("Cd", 0); ("CdMG", 1); ("Ca", 2); ("CaMG", 3); ("Cp", 4); ("CpMG", 5); ("AxCd", 6); ("AxCdMG", 7); ("AxCa", 8); ("AxCaMG", 9); ("AxCp", 10); ("AxCpMG", 11)]%string P ;;
    Ok (mk_prop (Z.of_nat (i + 1)) d)
  else if List.length P =? 10 then
    d <- fields [("Cd", 0); ("CdMG", 1); ("Ca", 2); ("CaMG", 3); ("Cp", 4); ("CpMG", 5); ("AxCa", 6); ("AxCaMG", 7); ("AxCp", 8); ("AxCpMG", 9)]%string P ;;
    Ok (mk_prop (Z.of_nat (i + 1)) d)
  else Err NotImplementedError.
(** The tables of depths, members and marine growth (lines 171-183, 193-200): the properties are made, which needs [w] columns; they are
    not of the class that addMiscProperty (graph.py:288-292) wants *)
Definition misc_rows (hd : data) (key : string) (w : nat) : res unit :=
  match get hd (S_ key) with
  | Some (P :: _) => if List.length P <? w then Err IndexError else Err PlainException
  | _ => Ok tt
  end.
(** Filled members (lines 185-191) *)
Definition fill_rows (hd : data) : res unit := match get hd (S_ "FillGroups") with Some (_ :: _) => Err NotImplementedError | _ => Ok tt end.
Definition prop_of_cell (g : graph) (set : str) (c : cell) : res prop :=
  match c with CN q => if Qeq_bool q (inject_Z (int_q q)) then get_prop g set (int_q q) else Err KeyError | CT _ => Err KeyError end.
(** Node(ID=N[0], x=N[1], y=N[2], z=N[3]) and its coefficients (lines 204-207) *)
Definition hydro_node (N : list cell) : res (@Graph_Model.node gval) :=
  c <- at_ N 0 ;; cx <- at_ N 1 ;; cy <- at_ N 2 ;; cz <- at_ N 3 ;; id <- int_c c ;; x <- num_c cx ;; y <- num_c cy ;; z <- num_c cz ;; Ok (mk_node id x y z []).
Fixpoint add_hydro_nodes (g : graph) (rows : table) : res graph :=
  match rows with
  | [] => Ok g
  | N :: rows' =>
      n <- hydro_node N ;; c <- at_ N 4 ;;
      let a := List.length (nheap g) in
      let g1 := add_node g n in
      p <- prop_of_cell g1 (S_ "AxCoefs") c ;; add_hydro_nodes (set_data g1 a (prop_data p)) rows'
  end.
(** A member (lines 210-221) and its coefficients (lines 224-228) *)
Definition COEFS : list str := map S_ ["SimpleCoefs"; "DepthCoefs"; "MemberCoefs"]%string.
Definition pot_of (c : cell) : res bool := match c with CT s => match lower s with x :: _ => Ok (chr_eqb x "t"%char) | [] => Err IndexError end | CN _ => Err AttributeError end.
Definition pot_color (b : bool) : gval := GSeq [if b then GColor (753#1000) (5#100) (204#1000) else GColor (753#1000) (561#1000) (5#100)].
Definition hydro_member (E : list cell) : res (Z * @Graph_Model.elem gval) :=
  EE <- mapM int_c (firstn 5 E) ;;
  c6 <- at_ E 6 ;; t <- int_c c6 ;; c7 <- at_ E 7 ;; pot <- pot_of c7 ;;
  id <- at_ EE 0 ;; coef <- py_at COEFS (t - 1) ;; c5 <- at_ E 5 ;; div <- float_c c5 ;;
  Ok (t, mk_elem id (slice EE 1 3) [] (Some (S_ "Section")) (Some (true, slice EE 3 5))
           [(S_ "CoefMod", GText coef); (S_ "DivSize", GNum div); (S_ "Pot", GBool pot); (S_ "object", GText (S_ "cylinder")); (S_ "color", pot_color pot)] None).
Fixpoint add_hydro_members (g : graph) (rows : table) : res graph :=
  match rows with
  | [] => Ok g
  | E :: rows' =>
      '(t, e) <- hydro_member E ;;
      match add_element g e with
      | (_, Err x) => Err x
      | (g1, Ok _) =>
          if (t =? 1)%Z then match set_element_nodal_prop g1 (List.length (eheap g)) (S_ "SimpleCoefs") [1; 1]%Z with (g2, Ok _) => add_hydro_members g2 rows' | (_, Err x) => Err x end
          else add_hydro_members g1 rows'
      end
  end.
Definition hydrodyn_graph (hd : data) : res graph :=
  g <- add_set hd "SectionProp" "Section" section_prop empty_graph ;;
  g <- add_set hd "AxCoefs" "AxCoefs" axial_prop g ;;
  g <- add_set hd "SmplProp" "SimpleCoefs" simple_prop g ;;
  _ <- misc_rows hd "DpthProp" 13 ;; _ <- misc_rows hd "MemberProp" 24 ;; _ <- fill_rows hd ;; _ <- misc_rows hd "MGProp" 3 ;;
  js <- item hd "Joints" ;; g <- add_hydro_nodes g js ;;
  ms <- item hd "Members" ;; add_hydro_members g ms.

(** ** Summaries of SubDyn (fast_input_file_graph.py:238-286).  [f32]: rounding to single precision; [root]: the square root of a number divided by pi,
    for the diameter; [nmodes]: the numbers of Guyan and Craig-Bampton modes, or the exception of [getModes]. *)
Variables (f32 root : Q -> Q).
Definition sum_node (dofs : list (list Q)) (N : list Q) : res (@Graph_Model.node gval) :=
  let N := if List.length N =? 9 then map f32 N else N in
  id <- at_ N 0 ;; x <- at_ N 1 ;; y <- at_ N 2 ;; z <- at_ N 3 ;; t <- at_ N 4 ;;
  ds <- mapM (fun r => n <- at_ r 1 ;; d <- at_ r 0 ;; Ok (n, d)) dofs ;;
  Ok (mk_node (int_q id) x y z [(S_ "Type", GInt (int_q t)); (S_ "DOFs", GSeq (map (fun p => GNum (snd p)) (filter (fun p => Qeq_bool (fst p) (inject_Z (int_q id))) ds)))]).
Fixpoint add_sum_nodes (g : graph) (dofs : list (list Q)) (rows : list (list Q)) : res graph :=
  match rows with [] => Ok g | N :: rows' => n <- sum_node dofs N ;; add_sum_nodes (add_node g n) dofs rows' end.
Definition sum_elem (E : list Q) : res (@Graph_Model.elem gval) :=
  n1 <- at_ E 1 ;; n2 <- at_ E 2 ;; area <- at_ E 7 ;; id <- at_ E 0 ;; t <- at_ E 5 ;; rho <- at_ E 8 ;; color <- py_at COLORS (int_q t) ;;
  Ok (mk_elem (int_q id) [int_q n1; int_q n2] [] None None
        [(S_ "Type", GInt (int_q t)); (S_ "Area", GNum area); (S_ "rho", GNum rho); (S_ "E", GNum area); (S_ "G", GNum rho); (S_ "D", GNum (root area * 4));
         (S_ "object", GText (S_ "cylinder")); (S_ "color", color)] None).
Fixpoint add_sum_elems (g : graph) (rows : list (list Q)) : res graph :=
  match rows with
  | [] => Ok g
  | E :: rows' => e <- sum_elem E ;; match add_element g e with (g', Ok _) => add_sum_elems g' rows' | (_, Err x) => Err x end
  end.
Definition summary_graph (dofs nodes elems : list (list Q)) (nmodes : res (nat * nat)) : res graph :=
  g <- add_sum_nodes empty_graph dofs nodes ;; g <- add_sum_elems g elems ;; '(gy, cb) <- nmodes ;; Ok (Nat.iter (gy + cb) add_mode g).

(** ** fastToGraph (fast_input_file_graph.py:15-25) on input files *)
Definition has_key (d : data) (k : string) : bool := has d (S_ k).
Definition to_graph (d : data) : res graph :=
  if has_key d "BeamProp" then subdyn_graph d else if has_key d "SmplProp" then hydrodyn_graph d
  else if has_key d "DOF2Nodes" then Err Unmodelled else Err NotImplementedError.
End Hydro.

(** ** The outputs of a graph *)
Section Outputs.
Context {V : Type}.
(** The number that the assignment data[k][i]=v makes of a value (None: it raises) *)
Variable number : V -> option Q.
Local Notation gr := (@Graph_Model.graph V).
(** The columns after the node [i] of [n] (graph.py:549-569).  Data called ID are stored as integers. *)
Definition zeros (n : nat) : list Q := repeat 0%Q n.
Definition put_at (d : @dict (list Q)) (k : str) (i : nat) (v : Q) : @dict (list Q) := match get d k with Some l => put d k (set_nth l i v) | None => d end.
Definition first_columns (n : nat) : @dict (list Q) := [(S_ "ID", zeros n); (S_ "x", zeros n); (S_ "y", zeros n); (S_ "z", zeros n)].
Definition put_value (n i : nat) (d : @dict (list Q)) (e : str * V) : @dict (list Q) :=
  let d := if has d (fst e) then d else put d (fst e) (zeros n) in
  match number (snd e) with
  | Some v => put_at d (fst e) i (if str_eqb (fst e) (S_ "ID") then inject_Z (int_q v) else v)
  | None => d
  end.
Definition put_node (n i : nat) (d : @dict (list Q)) (x : @Graph_Model.node V) : @dict (list Q) :=
  let d := if i =? 0 then first_columns n else d in
  let d := put_at (put_at (put_at (put_at d (S_ "ID") i (inject_Z (nID x))) (S_ "x") i (nx x)) (S_ "y") i (ny x)) (S_ "z") i (nz x) in
  fold_left (put_value n i) (ndata x) d.
Fixpoint put_nodes (n i : nat) (d : @dict (list Q)) (xs : list (@Graph_Model.node V)) : @dict (list Q) :=
  match xs with [] => d | x :: xs' => put_nodes n (S i) (put_node n i d x) xs' end.
(** nodalDataFrame without sorting: the columns in order *)
Definition nodal_frame (g : gr) : @dict (list Q) := let ns := map (node_at g) (gNodes g) in put_nodes (List.length ns) 0 [] ns.

(** toJSON (graph.py:580-617): the connectivity, the positions, for each element its type and diameter, and the ground level.  An
    element has no attribute D. *)
Variables (one : V) (is_cylinder : V -> bool).
Record json := mk_json { j_conn : list (list nat); j_nodes : list (Q * Q * Q); j_elems : list (V * V); j_ground : Q }.
Definition or_one (o : option V) : V := match o with Some v => v | None => one end.
Definition elem_json (e : @Graph_Model.elem V) : res (V * V) :=
  let shape := match get (edata e) (S_ "shape") with Some v => is_cylinder v | None => true end in
  if shape then Ok (or_one (get (edata e) (S_ "Type")), or_one (get (edata e) (S_ "D"))) else Err NotImplementedError.
Definition qmin (a b : Q) : Q := if Qle_bool a b then a else b.
Definition to_json (g : gr) : gr * res json :=
  let (g', c) := connectivity g in
  (g', c <- c ;;
       es <- mapM (fun a => elem_json (elem_at g' a)) (gElements g') ;;
       match map (fun a => nz (node_at g' a)) (gNodes g') with
       | [] => Err ValueError
       | z :: zs => Ok (mk_json c (points g') es (fold_left qmin zs z))
       end).
End Outputs.
