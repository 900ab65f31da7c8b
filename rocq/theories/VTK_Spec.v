(** Specification of the VTK properties. *)
From Verif Require Import Py PyFacts Bytes Dict VTK_Model.
Local Open Scope Z_scope.

(** ** Structured grids *)
(** VTK numbers the points of a grid of nx by ny by nz points with x running fastest. *)
Definition point_index (nx ny i j l : Z) : Z := i + nx * (j + ny * l).
(** The corners of a cell in VTK order, for a grid that extends in the given directions: line, quad, hexahedron. *)
Definition corners (x y z : bool) : list (Z * Z * Z) :=
  match x, y, z with
  | true, true, true => [(0,0,0); (1,0,0); (1,1,0); (0,1,0); (0,0,1); (1,0,1); (1,1,1); (0,1,1)]
  | true, true, false => [(0,0,0); (1,0,0); (1,1,0); (0,1,0)]
  | true, false, true => [(0,0,0); (1,0,0); (1,0,1); (0,0,1)]
  | false, true, true => [(0,0,0); (0,1,0); (0,1,1); (0,0,1)]
  | true, false, false => [(0,0,0); (1,0,0)]
  | false, true, false => [(0,0,0); (0,1,0)]
  | false, false, true => [(0,0,0); (0,0,1)]
  | false, false, false => [(0,0,0)]
  end.
Definition extends (d : Z) : bool := 1 <? d.
(** Number of cells in a direction. *)
Definition cells_in (d : Z) : Z := if extends d then d - 1 else 1.
(** The nodes of cell (i,j,l). *)
Definition cell_nodes (nx ny nz i j l : Z) : list Z :=
  map (fun p => let '(a, b, c) := p in point_index nx ny (i + a) (j + b) (l + c)) (corners (extends nx) (extends ny) (extends nz)).
Definition cell_kind (nx ny nz : Z) : str :=
  match List.length (corners (extends nx) (extends ny) (extends nz)) with 2%nat => S_ "line" | 4%nat => S_ "quad" | 8%nat => S_ "hexahedron" | _ => [] end.

(** ** Cell blocks *)
(** All cells of a list of blocks, in order, with their type. *)
Definition cells_of (bs : list block) : list (str * list Z) := flat_map (fun b => map (pair (b_type b)) (b_rows b)) bs.
(** Blocks as the reader makes them: none is empty and neighbours have different types. *)
Fixpoint maximal (bs : list block) : Prop :=
  match bs with
  | [] => True
  | b :: t => b_rows b <> [] /\ match t with [] => True | b' :: _ => b_type b <> b_type b' end /\ maximal t
  end.
Definition rectangular (b : block) : Prop := Forall (fun r => List.length r = b_cols b) (b_rows b).
(** A block of a type with a fixed number of nodes. *)
Definition fixed_block (b : block) : Prop :=
  exists code, In (code, b_type b) cell_types /\ 0 <= code /\ nth_error numnodes_table (Z.to_nat code) = Some (Z.of_nat (b_cols b)) /\
  (0 < b_cols b)%nat /\ rectangular b.
(** A block of polygons of n nodes is called polygonN. *)
Definition polygon_block (b : block) : Prop := b_type b = S_ "polygon" ++ str_of_N (N.of_nat (b_cols b)) /\ rectangular b.
Definition good_block (b : block) : Prop := fixed_block b \/ polygon_block b.

(** ** Whole files *)
(** Elements that can be stored: of the size of their type in binary mode; in text mode their text is one word and
    numpy reads it back. *)
Definition storable (show : dtype -> str -> str) (scan : dtype -> str -> option str) (binary : bool) (d : dtype) (x : str) : Prop :=
  if binary then List.length x = size d
  else is_token (show d x) = true /\ scan d (show d x) = Some x.
(** A 1-d or 2-d array of storable elements of a type VTK knows; in text mode it has at least one element. *)
Definition good_array show scan (binary : bool) (a : array) : Prop :=
  a_dt a <> OtherType /\ Forall (storable show scan binary (a_dt a)) (a_items a) /\
  (binary = false -> a_items a <> []) /\
  match a_shape a with
  | [n] => List.length (a_items a) = n
  | [n; k] => List.length (a_items a) = (n * k)%nat
  | _ => False
  end.
(** Names of fields: one ASCII word other than METADATA. *)
Definition good_name (s : str) : Prop := is_token s = true /\ forallb (fun c => Nat.ltb (ord c) 128) s = true /\ s <> S_ "METADATA".
(** A mesh that can be written: points in 2 or 3 dimensions; blocks of cells with a fixed number of nodes or polygons,
    with at least one cell, and node numbers below 2^30; one array per block for every cell field. *)
Definition node_ok (z : Z) : Prop := 0 <= z < 2 ^ 30.
(** One value (a number, or a row of [k] numbers when [tail = [k]]) for each cell of a block. *)
Definition cell_values (b : block) (d : dtype) (tail : list nat) (a : array) : Prop :=
  a_dt a = d /\ a_shape a = List.length (b_rows b) :: tail /\
  List.length (a_items a) = (List.length (b_rows b) * fold_right Nat.mul 1 tail)%nat.
Definition good_mesh show scan (binary : bool) (points : array) (cells : list block) (pd : dict array) (cd : dict (list array)) : Prop :=
  (exists n k, a_shape points = [n; k] /\ (0 < n)%nat /\ (k = 2 \/ k = 3)%nat) /\ good_array show scan binary (pad2 points) /\
  Forall good_block cells /\ Forall (fun b => node_ok (Z.of_nat (b_cols b)) /\ Forall (Forall node_ok) (b_rows b)) cells /\ cells_of cells <> [] /\
  NoDup (map fst pd) /\ Forall (fun e => good_name (fst e) /\ good_array show scan binary (pad2 (snd e))) pd /\
  NoDup (map fst cd) /\
  Forall (fun e => good_name (fst e) /\
     exists d tail, d <> OtherType /\ (tail = [] \/ exists k, tail = [k] /\ (binary = false -> k <> 0%nat)) /\
       Forall2 (fun b a => cell_values b d tail a /\ Forall (storable show scan binary d) (a_items a)) cells (map pad2 (snd e))) cd.
(** 1-component fields come back as 1-d arrays. *)
Definition squeeze (a : array) : array := match a_shape a with [n; 1%nat] => mk_array (a_dt a) [n] (a_items a) | _ => a end.
Definition squeeze_tail (tail : list nat) : list nat := match tail with [1%nat] => [] | _ => tail end.
(** A cell field before writing and after reading: the same values for the same cells in the same order, cut into the
    blocks of cells; 2-component values have been given a third component. *)
Definition same_cell_data (cells cells' : list block) (e e' : str * list array) : Prop :=
  fst e' = fst e /\
  exists d tail, Forall2 (fun b a => cell_values b d tail a) cells (map pad2 (snd e)) /\
                 Forall2 (fun b a => cell_values b d (squeeze_tail tail) a) cells' (snd e') /\
                 flat_map a_items (snd e') = flat_map a_items (map pad2 (snd e)).
(** Fields after writing and reading. *)
Definition as_read (a : array) : array := squeeze (pad2 a).

(** A file of structured points with one vector field, as FAST.Farm writes them. *)
Definition structured_text show (binary : bool) (nx ny nz : nat) (origin spacing : list str) (name : str) (items : list str) : str :=
  S_ "# vtk DataFile Version 3.0" ++ [nl] ++ S_ "title" ++ [nl] ++ (if binary then S_ "BINARY" else S_ "ASCII") ++ [nl]
  ++ line [S_ "DATASET"; S_ "STRUCTURED_POINTS"] ++ line [S_ "DIMENSIONS"; nat_str nx; nat_str ny; nat_str nz]
  ++ line (S_ "ORIGIN" :: origin) ++ line (S_ "SPACING" :: spacing)
  ++ line [S_ "POINT_DATA"; nat_str (nx * ny * nz)] ++ line [S_ "VECTORS"; name; S_ "float"]
  ++ tofile show binary F32 items ++ [nl].
