(** Model of weio/vtk_file.py: legacy VTK files, binary and ASCII.

    A file is its list of bytes (one-byte characters).  An array is its dtype, its shape and its elements in C order;
    an element is its big-endian byte string, so that values are exact bit patterns.
    SIMPLIFICATION: lines of text are ASCII ([decode]); arrays of the same dtype with another byte order are the same
    array. *)
From Verif Require Import Py PyFacts FS Bytes Dict.
From Coq Require Import QArith.
Local Open Scope nat_scope.

(** ** Types of data: vtk_file.py:600-621 *)
Inductive dtype := Bit | U8 | I8 | U16 | I16 | U32 | I32 | U64 | I64 | F32 | F64
| OtherType.         (* any numpy dtype without a VTK name: float16, complex, str, object, ... *)
Definition size (d : dtype) : nat :=
  match d with Bit | U8 | I8 => 1 | U16 | I16 => 2 | U32 | I32 | F32 => 4 | U64 | I64 | F64 => 8 | OtherType => 16 end.
(** vtk_to_numpy_dtype_name, lines 602-617 *)
Definition vtk_types : list (str * dtype) :=
  [(S_ "bit", Bit); (S_ "unsigned_char", U8); (S_ "char", I8); (S_ "unsigned_short", U16); (S_ "short", I16);
   (S_ "unsigned_int", U32); (S_ "int", I32); (S_ "unsigned_long", U64); (S_ "long", I64); (S_ "float", F32);
   (S_ "double", F64); (S_ "vtktypeint32", I32); (S_ "vtktypeint64", I64); (S_ "vtkidtype", I32)].
Definition dtype_of (name : str) : res dtype := match get vtk_types name with Some d => Ok d | None => Err KeyError end.
(** numpy_to_vtk_dtype, lines 619-621 *)
Definition type_name (d : dtype) : res str :=
  match d with
  | Bit => Ok (S_ "bit") | U8 => Ok (S_ "unsigned_char") | I8 => Ok (S_ "char") | U16 => Ok (S_ "unsigned_short")
  | I16 => Ok (S_ "short") | U32 => Ok (S_ "unsigned_int") | I32 => Ok (S_ "int") | U64 => Ok (S_ "unsigned_long")
  | I64 => Ok (S_ "long") | F32 => Ok (S_ "float") | F64 => Ok (S_ "double") | OtherType => Err KeyError
  end.

Record array := mk_array { a_dt : dtype; a_shape : list nat; a_items : list str }.
(** Rows of a 2-d array, or the elements of a 1-d array. *)
Definition rows (k : nat) (l : list str) : list (list str) :=
  map (fun i => firstn k (skipn (k * i) l)) (seq 0 (List.length l / k)).

(** ** Cells *)
(** vtk_to_meshio_type, lines 487-544 *)
Definition cell_types : list (Z * str) :=
  [(0, S_ "empty"); (1, S_ "vertex"); (3, S_ "line"); (5, S_ "triangle"); (7, S_ "polygon"); (8, S_ "pixel"); (9, S_ "quad");
   (10, S_ "tetra"); (12, S_ "hexahedron"); (13, S_ "wedge"); (14, S_ "pyramid"); (15, S_ "penta_prism"); (16, S_ "hexa_prism");
   (21, S_ "line3"); (22, S_ "triangle6"); (23, S_ "quad8"); (24, S_ "tetra10"); (25, S_ "hexahedron20"); (26, S_ "wedge15");
   (27, S_ "pyramid13"); (28, S_ "quad9"); (29, S_ "hexahedron27"); (30, S_ "quad6"); (31, S_ "wedge12"); (32, S_ "wedge18");
   (33, S_ "hexahedron24"); (34, S_ "triangle7"); (35, S_ "line4"); (42, S_ "polyhedron");
   (68, S_ "VTK_LAGRANGE_CURVE"); (69, S_ "VTK_LAGRANGE_TRIANGLE"); (70, S_ "VTK_LAGRANGE_QUADRILATERAL");
   (71, S_ "VTK_LAGRANGE_TETRAHEDRON"); (72, S_ "VTK_LAGRANGE_HEXAHEDRON"); (73, S_ "VTK_LAGRANGE_WEDGE");
   (74, S_ "VTK_LAGRANGE_PYRAMID"); (75, S_ "VTK_BEZIER_CURVE"); (76, S_ "VTK_BEZIER_TRIANGLE");
   (77, S_ "VTK_BEZIER_QUADRILATERAL"); (78, S_ "VTK_BEZIER_TETRAHEDRON"); (79, S_ "VTK_BEZIER_HEXAHEDRON");
   (80, S_ "VTK_BEZIER_WEDGE"); (81, S_ "VTK_BEZIER_PYRAMID")]%Z.
(** vtk_to_meshio_type[t]: KeyError *)
Definition type_of_code (t : Z) : res str :=
  match find (fun e => Z.eqb (fst e) t) cell_types with Some e => Ok (snd e) | None => Err KeyError end.
(** meshio_to_vtk_type[name], line 545 *)
Definition code_of_type (name : str) : res Z :=
  match find (fun e => str_eqb (snd e) name) cell_types with Some e => Ok (fst e) | None => Err KeyError end.
(** vtk_type_to_numnodes, lines 558-596: -1 where the number of nodes is not fixed. *)
Definition numnodes_table : list Z :=
  [0; 1; -1; 2; -1; 3; -1; -1; -1; 4; 4; -1; 8; 6; 5; 10; 12; -1; -1; -1; -1; 3; 6; 8; 10; 20; 15; 13; 9; 27; 6; 12; 18; 24; 7; 4]%Z.
(** numpy indexing a[i] with a python integer: negative indices count from the end; IndexError outside. *)
Definition at_ {A} (l : list A) (i : Z) : res A :=
  let n := Z.of_nat (List.length l) in
  let j := if (i <? 0)%Z then (i + n)%Z else i in
  if (j <? 0)%Z then Err IndexError
  else match nth_error l (Z.to_nat j) with Some a => Ok a | None => Err IndexError end.
Definition mapR {A B} (f : A -> res B) : list A -> res (list B) :=
  fix go l := match l with [] => Ok [] | x :: l' => y <- f x ;; ys <- go l' ;; Ok (y :: ys) end.
(** _vtk_to_meshio_order, lines 466-476, and _meshio_to_vtk_order, lines 478-482 *)
Definition arange (n : Z) : list Z := map Z.of_nat (seq 0 (Z.to_nat n)).
Definition wedge_order : list Z := [0; 2; 1; 3; 5; 4]%Z.
Definition vtk_to_meshio_order (t n : Z) : list Z := if Z.eqb t 13 then wedge_order else arange n.
Definition meshio_to_vtk_order (t : str) (n : Z) : list Z := if str_eqb t (S_ "wedge") then wedge_order else arange n.

(** CellBlock(type, data), lines 551-553: data is a 2-d integer array; its number of columns is kept for blocks
    without cells. *)
Record block := mk_block { b_type : str; b_cols : nat; b_rows : list (list Z) }.

(** _generate_cells, lines 869-910: the flat cell array and the cell types. *)
Definition generate_cells (dim : list Z) : res (list Z * list Z) :=
  let ele := map (fun d => d - 1)%Z (filter (fun d => 1 <? d)%Z dim) in
  let n := fold_left Z.mul ele 1%Z in
  let es := arange n in
  match ele with
  | [_] => Ok (flat_map (fun e => let c1 := e in [2; c1; c1 + 1]%Z) es, map (fun _ => 3%Z) es)
  | [e0; _] =>
      Ok (flat_map (fun e =>
            let c1 := (e + e / e0)%Z in
            let c3 := (c1 + 2 + e0)%Z in
            [4; c1; c1 + 1; c3; c3 - 1]%Z) es, map (fun _ => 9%Z) es)
  | e0 :: e1 :: _ =>
      Ok (flat_map (fun e =>
            let c1 := (e + (e0 + e1 + 1) * (e / (e0 * e1)) + (e mod (e0 * e1)) / e0)%Z in
            let c3 := (c1 + 2 + e0)%Z in
            let c5 := (c1 + (1 + e0) * (1 + e1))%Z in
            let c7 := (c5 + 2 + e0)%Z in
            [8; c1; c1 + 1; c3; c3 - 1; c5; c5 + 1; c7; c7 - 1]%Z) es, map (fun _ => 12%Z) es)
  | [] => Err IndexError       (* ele_dim[0] of an empty list, line 897 *)
  end.
(** _generate_points, lines 912-923: points in Fortran order. *)
Definition generate_points {A} (ax ay az : list A) : list (list A) :=
  flat_map (fun z => flat_map (fun y => map (fun x => [x; y; z]) ax) ay) az.

(** translate_cells, lines 1081-1160 *)
Inductive rawcells :=
| Flat (data : list Z)                       (* counts and node numbers *)
| Offsets (offsets conn : list Z).           (* version 5.1 *)
(** b: the positions where the type changes, lines 1139-1141 *)
Fixpoint changes (i : nat) (types : list Z) : list nat :=
  match types with
  | a :: ((b :: _) as t) => if Z.eqb a b then changes (S i) t else S i :: changes (S i) t
  | _ => []
  end.
Fixpoint pairs {A} (l : list A) : list (A * A) :=
  match l with a :: ((b :: _) as t) => (a, b) :: pairs t | _ => [] end.
Definition slice {A} (s e : nat) (l : list A) : list A := firstn (e - s) (skipn s l).
(** d[start:end] on the first axis of an array *)
Definition row_size (a : array) : nat := fold_right Nat.mul 1 (tl (a_shape a)).
Definition slice_rows (s e : nat) (a : array) : array :=
  let l := slice (s * row_size a) (e * row_size a) (a_items a) in
  mk_array (a_dt a) (match a_shape a with [] => [] | n :: sh => (Nat.min e n - s) :: sh end) l.
(** numpy.cumsum(numnodes + 1) - (numnodes + 1) *)
Fixpoint offsets_from (o : Z) (ns : list Z) : list Z := match ns with [] => [] | n :: ns' => o :: offsets_from (o + n + 1)%Z ns' end.
Fixpoint diffs (l : list Z) : list Z := match l with a :: ((b :: _) as t) => (b - a)%Z :: diffs t | _ => [] end.
Definition zlist_eqb (a b : list Z) : bool := Nat.eqb (List.length a) (List.length b) && forallb (fun p => Z.eqb (fst p) (snd p)) (combine a b).
(** cell_data[name].append(d[start:end]) for all names, lines 1149-1152 *)
Definition add_cell_data (raw : dict array) (s e : nat) (cd : dict (list array)) : dict (list array) :=
  fold_left (fun acc p => put acc (fst p) (match get acc (fst p) with Some l => l ++ [slice_rows s e (snd p)] | None => [slice_rows s e (snd p)] end)) raw cd.
(** The polygon branch, lines 1092-1121: one pass over the cells. *)
Fixpoint poly_offsets (data : list Z) (o : Z) (k : nat) : res (list Z) :=
  match k with
  | O => Ok []
  | S k' => n <- at_ data o ;; os <- poly_offsets data (o + n + 1)%Z k' ;; Ok (o :: os)
  end.
(** cells[-1].data.append(cell) or a new block; blocks are kept newest first. *)
Definition add_cell (acc : list (str * list (list Z))) (t : str) (c : list Z) : list (str * list (list Z)) :=
  match acc with
  | (t', cs) :: acc' => if str_eqb t' t then (t', cs ++ [c]) :: acc' else (t, [c]) :: acc
  | [] => [(t, [c])]
  end.
(** numpy.array(c.data): rows of different lengths are a ValueError (numpy 1.24 and later). *)
Definition to_block (p : str * list (list Z)) : res block :=
  match snd p with
  | [] => Ok (mk_block (fst p) 0 [])
  | c :: cs => if forallb (fun r => Nat.eqb (List.length r) (List.length c)) cs then Ok (mk_block (fst p) (List.length c) (c :: cs)) else Err ValueError
  end.
Definition poly_cells (data types : list Z) : res (list block) :=
  offs <- poly_offsets data 0 (List.length types) ;;
  acc <- fold_left (fun (r : res (list (str * list (list Z)))) (p : Z * Z) =>
           acc <- r ;;
           let '(o, t) := p in
           n <- at_ data o ;;
           cell <- mapR (fun i => at_ data (o + 1 + i)%Z) (vtk_to_meshio_order t n) ;;
           name <- type_of_code t ;;
           Ok (add_cell acc (if str_eqb name (S_ "polygon") then name ++ str_of_Z n else name) cell))
         (combine offs types) (Ok []) ;;
  mapR to_block (rev acc).
Definition translate_cells (data : rawcells) (types : list Z) (raw : dict array) : res (list block * dict (list array)) :=
  if existsb (Z.eqb 7) types then
    match data with
    | Flat d => bs <- poly_cells d types ;; Ok (bs, [])
    | Offsets _ _ => Err Unmodelled
    end
  else
    numnodes <- mapR (at_ numnodes_table) types ;;
    if negb (forallb (fun n => 0 <? n)%Z numnodes) then Err BrokenFormatError
    else
      '(offs, conn, idx0) <-
        match data with
        | Offsets o c => if zlist_eqb numnodes (diffs o) then Ok (o, c, 0%Z) else Err BrokenFormatError
        | Flat d =>
            let offs := offsets_from 0 numnodes in
            ns <- mapR (at_ d) offs ;;
            if zlist_eqb numnodes ns then Ok (offs, d, 1%Z) else Err BrokenFormatError
        end ;;
      fold_left (fun (r : res (list block * dict (list array))) (se : nat * nat) =>
          '(bs, cd) <- r ;;
          let '(s, e) := se in
          t <- match nth_error types s with Some t => Ok t | None => Err IndexError end ;;
          name <- type_of_code t ;;
          n <- match nth_error numnodes s with Some n => Ok n | None => Err IndexError end ;;
          let order := vtk_to_meshio_order t n in
          cells <- mapR (fun o => mapR (fun i => at_ conn (o + (idx0 + i))%Z) order) (slice s e offs) ;;
          Ok (bs ++ [mk_block name (List.length order) cells], add_cell_data raw s e cd))
        (pairs (0 :: changes 0 types ++ [List.length types])) (Ok ([], [])).

(** ** Reading *)
(** f.readline() *)
Fixpoint readline (s : str) : str * str :=
  match s with
  | [] => ([], [])
  | c :: s' => if chr_eqb c nl then ([c], s') else let '(l, r) := readline s' in (c :: l, r)
  end.
(** .decode("utf-8") of a line *)
Definition decode (l : str) : res str := if forallb (fun c => ord c <? 128) l then Ok l else Err UnicodeDecodeError.
(** numpy.fromfile(f, count, dtype) of items of [sz] bytes: fewer items at the end of the file. *)
Fixpoint take_items (sz count : nat) (s : str) : list str * str :=
  match count with
  | O => ([], s)
  | S c => if List.length s <? sz then ([], []) else let '(l, r) := take_items sz c (skipn sz s) in (firstn sz s :: l, r)
  end.
(** numpy.fromfile(f, count, dtype, sep=" "): blanks are skipped before and after each number; reading stops at a word
    that is not a number.  SIMPLIFICATION: a number extends to the next blank. *)
Fixpoint word_ (s : str) : str * str :=
  match s with
  | [] => ([], [])
  | c :: s' => if is_space c then ([], s) else let '(w, r) := word_ s' in (c :: w, r)
  end.
Fixpoint scan_items {A} (parse : str -> option A) (count : nat) (s : str) : list A * str :=
  match count with
  | O => ([], s)
  | S c =>
      let '(w, r) := word_ (lstrip s) in
      match parse w with
      | Some a => let '(l, r') := scan_items parse c (lstrip r) in (a :: l, r')
      | None => ([], lstrip s)
      end
  end.
(** big-endian int32 *)
Definition chr_of_N (n : N) : ascii := ascii_of_N n.
Definition i4 (z : Z) : str := rev (map chr_of_N (le 4 z)).
Definition i4_of (s : str) : Z := sint 4 (map N_of_ascii (rev s)).
Definition wrap4 (z : Z) : Z := sint 4 (le 4 z).
Definition int_word (w : str) : option Z := match int_ w with Ok z => Some z | Err _ => None end.

Inductive dstype := Unstructured | StructuredPoints | StructuredGrid | Rectilinear.
Definition dstypes : list (str * dstype) :=
  [(S_ "UNSTRUCTURED_GRID", Unstructured); (S_ "STRUCTURED_POINTS", StructuredPoints); (S_ "STRUCTURED_GRID", StructuredGrid); (S_ "RECTILINEAR_GRID", Rectilinear)].
(** The dictionary info.dataset (lines 626-648): type, DIMENSIONS, the three-number entries and the coordinates. *)
Record dataset := mk_dataset {
  ds_type : option dstype; ds_dim : option (list Z); ds_vec : dict (list Q); ds_coords : dict array }.
Inductive active := ANone | ADataset | APoints | ACells | ACellTypes | APointData | ACellData.
(** The attributes of VTKFile, lines 58-83. *)
Record vtk := mk_vtk {
  v_ascii : bool; v_active : active; v_num : nat; v_ds : dataset;
  v_points : option array; v_c : option rawcells; v_ct : option (list Z);
  v_pd : dict array; v_cdraw : dict array; v_fd : dict array;
  v_cells : list block; v_cd : dict (list array);
  v_grid : list (list str);                       (* xp_grid, yp_grid, zp_grid *)
  v_pdgrid : dict (list (list (list (list str)))) }.  (* point_data_grid[k][i][j][l] = components *)
Definition new_vtk : vtk :=
  mk_vtk false ANone 0 (mk_dataset None None [] []) None None None [] [] [] [] [] [] [].

Section Read.
  (** numpy text to value (for items of a type), python float() of a word, and the float64 of an exact number. *)
  Variable scan : dtype -> str -> option str.
  Variable float_ : str -> res Q.
  Variable f64 : Q -> str.

  Definition fromfile (ascii_ : bool) (d : dtype) (count : nat) (s : str) : list str * str :=
    if ascii_ then scan_items (scan d) count s else take_items (size d) count s.
  (** int(split[k]) as a count.  SIMPLIFICATION: negative counts read nothing (numpy reads the whole file). *)
  Definition word_at (split : list str) (k : nat) : res str := match nth_error split k with Some w => Ok w | None => Err IndexError end.
  Definition count_at (split : list str) (k : nat) : res nat := w <- word_at split k ;; z <- int_ w ;; Ok (Z.to_nat z).
  (** the newline after binary data, e.g. lines 945-947 *)
  Definition eat_newline (ascii_ : bool) (s : str) : res str :=
    if ascii_ then Ok s
    else let '(l, r) := readline s in l' <- decode l ;; if str_eqb l' [nl] then Ok r else Err BrokenFormatError.
  (** _read_points lines 937-949 *)
  Definition read_points (ascii_ : bool) (d : dtype) (n : nat) (s : str) : res (array * str) :=
    let '(l, r) := fromfile ascii_ d (n * 3) s in
    r' <- eat_newline ascii_ r ;;
    if Nat.eqb (List.length l) (n * 3) then Ok (mk_array d [n; 3] l, r') else Err ValueError.
  (** _read_coords lines 925-935 *)
  Definition read_coords (ascii_ : bool) (d : dtype) (n : nat) (s : str) : res (array * str) :=
    let '(l, r) := fromfile ascii_ d n s in
    r' <- eat_newline ascii_ r ;; Ok (mk_array d [List.length l] l, r').
  (** _read_cells lines 952-961, dtype int32 *)
  Definition read_cells (ascii_ : bool) (n : nat) (s : str) : res (list Z * str) :=
    let '(l, r) := if ascii_ then let '(l, r) := scan_items int_word n s in (map wrap4 l, r)
                   else let '(l, r) := take_items 4 n s in (map i4_of l, r) in
    r' <- eat_newline ascii_ r ;; Ok (l, r').
  (** _read_cell_types lines 964-974: the text version has 64-bit integers; the newline may be missing *)
  Definition read_cell_types (ascii_ : bool) (n : nat) (s : str) : res (list Z * str) :=
    if ascii_ then Ok (scan_items int_word n s)
    else
      let '(l, r) := take_items 4 n s in
      let '(line, r') := readline r in
      line' <- decode line ;;
      match strip line' with [] => Ok (map i4_of l, r') | _ => Err BrokenFormatError end.
  (** data.reshape(-1, k1, ..., km) *)
  Definition reshape_rows (d : dtype) (sh : list nat) (l : list str) : res array :=
    let k := fold_right Nat.mul 1 sh in
    if Nat.eqb (List.length l mod k) 0 then Ok (mk_array d (List.length l / k :: sh) l) else Err ValueError.
  (** _read_scalar_field lines 977-1007 *)
  Definition read_scalars (ascii_ : bool) (num : nat) (split : list str) (s : str) : res (dict array * str) :=
    name <- word_at split 1 ;;
    ty <- word_at split 2 ;;
    k <- match nth_error split 3 with None => Ok 1%Z | Some w => int_ w end ;;
    if negb ((0 <? k)%Z && (k <? 5)%Z) then Err BrokenFormatError
    else
      d <- dtype_of (lower ty) ;;
      let '(line, s1) := readline s in
      line' <- decode line ;;
      match split_ws line' with
      | [lt; _] =>
          if negb (str_eqb (upper lt) (S_ "LOOKUP_TABLE")) then Err BrokenFormatError
          else
            let '(l, r) := fromfile ascii_ d (num * Z.to_nat k) s1 in
            r' <- eat_newline ascii_ r ;;
            a <- reshape_rows d [Z.to_nat k] l ;; Ok ([(name, a)], r')
      | _ => Err ValueError
      end.
  (** _read_field lines 1010-1031 *)
  Definition read_field (ascii_ : bool) (num : nat) (split : list str) (sh : list nat) (s : str) : res (dict array * str) :=
    name <- word_at split 1 ;;
    ty <- word_at split 2 ;;
    d <- dtype_of (lower ty) ;;
    let '(l, r) := fromfile ascii_ d (fold_right Nat.mul 1 sh * num) s in
    r' <- eat_newline ascii_ r ;;
    a <- reshape_rows d sh l ;; Ok ([(name, a)], r').
  (** _skip_meta lines 1071-1078 *)
  Fixpoint skip_meta (fuel : nat) (s : str) : res str :=
    match fuel with
    | O => Err OutOfFuel
    | S f => let '(line, r) := readline s in
             line' <- decode line ;;
             match strip line' with [] => Ok r | _ => skip_meta f r end
    end.
  (** _read_fields lines 1034-1068 *)
  Fixpoint read_fields (ascii_ : bool) (num : nat) (s : str) (data : dict array) : res (dict array * str) :=
    match num with
    | O => Ok (data, s)
    | S num' =>
        let '(line, s1) := readline s in
        line' <- decode line ;;
        '(words, s2) <- match split_ws line' with
                        | [] => Err IndexError
                        | w :: ws =>
                            if str_eqb w (S_ "METADATA") then
                              s2 <- skip_meta (S (List.length s1)) s1 ;;
                              let '(l2, s3) := readline s2 in
                              l2' <- decode l2 ;; Ok (split_ws l2', s3)
                            else Ok (w :: ws, s1)
                        end ;;
        match words with
        | [name; w0; w1; ty] =>
            sh0 <- int_ w0 ;;
            sh1 <- int_ w1 ;;
            d <- dtype_of (lower ty) ;;
            let k := Z.to_nat sh0 in
            let n := Z.to_nat sh1 in
            let '(l, r) := fromfile ascii_ d (k * n) s2 in
            r' <- eat_newline ascii_ r ;;
            a <- (if Z.eqb sh0 1 then Ok (mk_array d [List.length l] l)
                  else if Nat.eqb (List.length l) (n * k) then Ok (mk_array d [n; k] l) else Err ValueError) ;;
            read_fields ascii_ num' r' (put data name a)
        | _ => Err ValueError
        end
    end.

  Definition set_ds (v : vtk) (ds : dataset) (a : active) : vtk :=
    mk_vtk (v_ascii v) a (v_num v) ds (v_points v) (v_c v) (v_ct v) (v_pd v) (v_cdraw v) (v_fd v) (v_cells v) (v_cd v) (v_grid v) (v_pdgrid v).
  Definition set_mode (v : vtk) (m : bool) : vtk :=
    mk_vtk m (v_active v) (v_num v) (v_ds v) (v_points v) (v_c v) (v_ct v) (v_pd v) (v_cdraw v) (v_fd v) (v_cells v) (v_cd v) (v_grid v) (v_pdgrid v).
  Definition set_points (v : vtk) (p : option array) (a : active) : vtk :=
    mk_vtk (v_ascii v) a (v_num v) (v_ds v) p (v_c v) (v_ct v) (v_pd v) (v_cdraw v) (v_fd v) (v_cells v) (v_cd v) (v_grid v) (v_pdgrid v).
  Definition set_c (v : vtk) (n : nat) (c : rawcells) : vtk :=
    mk_vtk (v_ascii v) ACells n (v_ds v) (v_points v) (Some c) (v_ct v) (v_pd v) (v_cdraw v) (v_fd v) (v_cells v) (v_cd v) (v_grid v) (v_pdgrid v).
  Definition set_ct (v : vtk) (n : nat) (ct : list Z) : vtk :=
    mk_vtk (v_ascii v) ACellTypes n (v_ds v) (v_points v) (v_c v) (Some ct) (v_pd v) (v_cdraw v) (v_fd v) (v_cells v) (v_cd v) (v_grid v) (v_pdgrid v).
  Definition set_num (v : vtk) (a : active) (n : nat) : vtk :=
    mk_vtk (v_ascii v) a n (v_ds v) (v_points v) (v_c v) (v_ct v) (v_pd v) (v_cdraw v) (v_fd v) (v_cells v) (v_cd v) (v_grid v) (v_pdgrid v).
  (** d.update(...), d being chosen by the active section, lines 784-791.
      SIMPLIFICATION: arrays read while DATASET is active go to the coordinates dictionary. *)
  Definition update_data (v : vtk) (e : dict array) : vtk :=
    match v_active v with
    | APointData => mk_vtk (v_ascii v) (v_active v) (v_num v) (v_ds v) (v_points v) (v_c v) (v_ct v) (update (v_pd v) e) (v_cdraw v) (v_fd v) (v_cells v) (v_cd v) (v_grid v) (v_pdgrid v)
    | ACellData => mk_vtk (v_ascii v) (v_active v) (v_num v) (v_ds v) (v_points v) (v_c v) (v_ct v) (v_pd v) (update (v_cdraw v) e) (v_fd v) (v_cells v) (v_cd v) (v_grid v) (v_pdgrid v)
    | ADataset => set_ds v (mk_dataset (ds_type (v_ds v)) (ds_dim (v_ds v)) (ds_vec (v_ds v)) (update (ds_coords (v_ds v)) e)) ADataset
    | _ => mk_vtk (v_ascii v) (v_active v) (v_num v) (v_ds v) (v_points v) (v_c v) (v_ct v) (v_pd v) (v_cdraw v) (update (v_fd v) e) (v_cells v) (v_cd v) (v_grid v) (v_pdgrid v)
    end.
  (** "OFFSETS" in line, lines 732-738.  SIMPLIFICATION: also when the line is not valid UTF-8 (python then takes ""). *)
  Definition has_offsets (line : str) : bool := contains line (S_ "OFFSETS").

  (** _read_section, lines 709-781; LOOKUP_TABLE and COLOR_SCALARS are not modelled *)
  Definition sections : list str :=
    [S_ "METADATA"; S_ "DATASET"; S_ "POINTS"; S_ "CELLS"; S_ "CELL_TYPES"; S_ "POINT_DATA"; S_ "CELL_DATA"; S_ "LOOKUP_TABLE"; S_ "COLOR_SCALARS"].
  Definition read_section (v : vtk) (sec : str) (split : list str) (s : str) : res (vtk * str) :=
    if str_eqb sec (S_ "METADATA") then s' <- skip_meta (S (List.length s)) s ;; Ok (v, s')
    else if str_eqb sec (S_ "DATASET") then
      w <- word_at split 1 ;;
      match get dstypes (upper w) with
      | Some t => Ok (set_ds v (mk_dataset (Some t) (ds_dim (v_ds v)) (ds_vec (v_ds v)) (ds_coords (v_ds v))) ADataset, s)
      | None => Err BrokenFormatError
      end
    else if str_eqb sec (S_ "POINTS") then
      n <- count_at split 1 ;;
      ty <- word_at split 2 ;;
      d <- dtype_of (lower ty) ;;
      '(p, s') <- read_points (v_ascii v) d n s ;; Ok (set_points v (Some p) APoints, s')
    else if str_eqb sec (S_ "CELLS") then
      let '(line, s1) := readline s in
      if has_offsets line then
        no <- count_at split 1 ;;
        ni <- count_at split 2 ;;
        w <- word_at (split_ws line) 1 ;;
        d <- dtype_of w ;;
        match d with
        | I32 =>
            '(o, s2) <- read_cells (v_ascii v) no s1 ;;
            let '(line2, s3) := readline s2 in
            line2' <- decode line2 ;;
            if negb (contains line2' (S_ "CONNECTIVITY")) then Err AssertionError
            else
              w2 <- word_at (split_ws line2') 1 ;;
              d2 <- dtype_of w2 ;;
              match d2 with
              | I32 => '(c, s4) <- read_cells (v_ascii v) ni s3 ;; Ok (set_c v ni (Offsets o c), s4)
              | _ => Err Unmodelled
              end
        | _ => Err Unmodelled          (* 64-bit offsets *)
        end
      else
        n <- count_at split 2 ;;
        '(c, s') <- read_cells (v_ascii v) n s ;; Ok (set_c v n (Flat c), s')
    else if str_eqb sec (S_ "CELL_TYPES") then
      n <- count_at split 1 ;;
      '(ct, s') <- read_cell_types (v_ascii v) n s ;; Ok (set_ct v n ct, s')
    else if str_eqb sec (S_ "POINT_DATA") then n <- count_at split 1 ;; Ok (set_num v APointData n, s)
    else if str_eqb sec (S_ "CELL_DATA") then n <- count_at split 1 ;; Ok (set_num v ACellData n, s)
    else Err Unmodelled.

  (** vtk_dataset_infos, lines 633-648 *)
  Definition infos (t : dstype) : list str :=
    match t with
    | Unstructured => []
    | StructuredPoints => [S_ "DIMENSIONS"; S_ "ORIGIN"; S_ "SPACING"; S_ "ASPECT_RATIO"]
    | StructuredGrid => [S_ "DIMENSIONS"]
    | Rectilinear => [S_ "DIMENSIONS"; S_ "X_COORDINATES"; S_ "Y_COORDINATES"; S_ "Z_COORDINATES"]
    end.
  (** _read_subsection, lines 784-827.  SIMPLIFICATION: dimensions, origin and coordinates are stored in the dataset
      even when another section is active (python stores them in that section, and _check_mesh then fails). *)
  Definition read_subsection (v : vtk) (sec : str) (split : list str) (s : str) : res (vtk * str) :=
    t <- match ds_type (v_ds v) with Some t => Ok t | None => Err KeyError end ;;
    if existsb (str_eqb sec) (infos t) then
      match v_active v with
      | ADataset =>
          if endswith sec (S_ "_COORDINATES") then
            n <- count_at split 1 ;;
            ty <- word_at split 2 ;;
            d <- dtype_of (lower ty) ;;
            '(a, s') <- read_coords (v_ascii v) d n s ;;
            Ok (set_ds v (mk_dataset (ds_type (v_ds v)) (ds_dim (v_ds v)) (ds_vec (v_ds v)) (put (ds_coords (v_ds v)) sec a)) ADataset, s')
          else if str_eqb sec (S_ "DIMENSIONS") then
            dim <- mapR int_ (tl split) ;;
            if Nat.eqb (List.length dim) 3
            then Ok (set_ds v (mk_dataset (ds_type (v_ds v)) (Some dim) (ds_vec (v_ds v)) (ds_coords (v_ds v))) ADataset, s)
            else Err BrokenFormatError
          else
            x <- mapR float_ (tl split) ;;
            if Nat.eqb (List.length x) 3
            then Ok (set_ds v (mk_dataset (ds_type (v_ds v)) (ds_dim (v_ds v)) (put (ds_vec (v_ds v)) sec x) (ds_coords (v_ds v))) ADataset, s)
            else Err BrokenFormatError
      | _ => Err Unmodelled
      end
    else if str_eqb sec (S_ "SCALARS") then '(e, s') <- read_scalars (v_ascii v) (v_num v) split s ;; Ok (update_data v e, s')
    else if str_eqb sec (S_ "VECTORS") then '(e, s') <- read_field (v_ascii v) (v_num v) split [3] s ;; Ok (update_data v e, s')
    else if str_eqb sec (S_ "TENSORS") then '(e, s') <- read_field (v_ascii v) (v_num v) split [3; 3] s ;; Ok (update_data v e, s')
    else if str_eqb sec (S_ "FIELD") then
      n <- count_at split 2 ;; '(e, s') <- read_fields (v_ascii v) n s [] ;; Ok (update_data v e, s')
    else Err WrongFormatError.

  (** The loop over the lines, lines 110-126 *)
  Fixpoint read_loop (fuel : nat) (v : vtk) (s : str) : res vtk :=
    match fuel with
    | O => Err OutOfFuel
    | S f =>
        let '(line, r) := readline s in
        line' <- decode line ;;
        match line' with
        | [] => Ok v
        | _ =>
            match split_ws line' with
            | [] => read_loop f v r
            | w :: ws =>
                let sec := upper w in
                '(v', s') <- (if existsb (str_eqb sec) sections then read_section v sec (w :: ws) r else read_subsection v sec (w :: ws) r) ;;
                read_loop f v' s'
            end
        end
    end.

  (** _check_mesh, lines 830-866; linspace(o, o + (d-1.0)*h, d) in exact arithmetic is o + i*h *)
  Definition axis (o h : Q) (d : Z) : list str := map (fun i => f64 (o + inject_Z i * h)%Q) (arange d).
  Definition generate (v : vtk) (dt : dtype) (ax ay az : list str) : res vtk :=
    dim <- match ds_dim (v_ds v) with Some d => Ok d | None => Err KeyError end ;;
    '(c, ct) <- generate_cells dim ;;
    let pts := generate_points ax ay az in
    Ok (mk_vtk (v_ascii v) (v_active v) (v_num v) (v_ds v) (Some (mk_array dt [List.length pts; 3] (concat pts))) (Some (Flat c)) (Some ct)
               (v_pd v) (v_cdraw v) (v_fd v) (v_cells v) (v_cd v) [ax; ay; az] (v_pdgrid v)).
  Definition check_mesh (v : vtk) : res vtk :=
    match ds_type (v_ds v) with
    | None => Err KeyError
    | Some Unstructured => match v_c v, v_ct v with Some _, Some _ => Ok v | _, _ => Err BrokenFormatError end
    | Some StructuredPoints =>
        match ds_dim (v_ds v), get (ds_vec (v_ds v)) (S_ "ORIGIN"),
              match get (ds_vec (v_ds v)) (S_ "SPACING") with Some h => Some h | None => get (ds_vec (v_ds v)) (S_ "ASPECT_RATIO") end with
        | Some [dx; dy; dz], Some [ox; oy; oz], Some [hx; hy; hz] => generate v F64 (axis ox hx dx) (axis oy hy dy) (axis oz hz dz)
        | _, _, _ => Err KeyError
        end
    | Some Rectilinear =>
        match get (ds_coords (v_ds v)) (S_ "X_COORDINATES"), get (ds_coords (v_ds v)) (S_ "Y_COORDINATES"), get (ds_coords (v_ds v)) (S_ "Z_COORDINATES") with
        | Some x, Some y, Some z => generate v (a_dt x) (a_items x) (a_items y) (a_items z)
        | _, _, _ => Err KeyError
        end
    | Some StructuredGrid =>
        dim <- match ds_dim (v_ds v) with Some d => Ok d | None => Err KeyError end ;;
        '(c, ct) <- generate_cells dim ;;
        Ok (mk_vtk (v_ascii v) (v_active v) (v_num v) (v_ds v) (v_points v) (Some (Flat c)) (Some ct)
                   (v_pd v) (v_cdraw v) (v_fd v) (v_cells v) (v_cd v) (v_grid v) (v_pdgrid v))
    end.
  (** PD.reshape(nx, ny, nz, PD.shape[1], order='F'), lines 135-140: 1-d data is an IndexError, a wrong number of
      values a ValueError. *)
  Definition grid_of (nx ny nz : nat) (a : array) : res (list (list (list (list str)))) :=
    match a_shape a with
    | [_] | [] => Err IndexError
    | n :: k :: _ =>
        if Nat.eqb (nx * ny * nz * k) (List.length (a_items a)) then
          match a_shape a with
          | [_; _] =>
              Ok (map (fun i => map (fun j => map (fun l => map (fun c => nth ((i + nx * (j + ny * l)) * k + c) (a_items a) []) (seq 0 k)) (seq 0 nz)) (seq 0 ny)) (seq 0 nx))
          | _ => Err Unmodelled
          end
        else Err ValueError
    end.
  Definition finish (v0 : vtk) : res vtk :=
    v <- check_mesh v0 ;;
    '(c, ct) <- match v_c v, v_ct v with Some c, Some ct => Ok (c, ct) | _, _ => Err TypeError end ;;
    '(cells, cd) <- translate_cells c ct (v_cdraw v) ;;
    g <- match ds_type (v_ds v), v_grid v with
         | Some StructuredPoints, [gx; gy; gz] => mapR (fun p => g <- grid_of (List.length gx) (List.length gy) (List.length gz) (snd p) ;; Ok (fst p, g)) (v_pd v)
         | _, _ => Ok (v_pdgrid v)
         end ;;
    Ok (mk_vtk (v_ascii v) (v_active v) (v_num v) (v_ds v) (v_points v) (v_c v) (v_ct v) (v_pd v) (v_cdraw v) (v_fd v) cells cd (v_grid v) g).
  (** VTKFile.read, lines 89-140, into an object that may have been read before: nothing is reset. *)
  Definition read (v : vtk) (s : str) : res vtk :=
    match s with
    | [] => Err EmptyFileError
    | _ =>
        let '(_, s1) := readline s in
        let '(_, s2) := readline s1 in
        let '(l3, s3) := readline s2 in
        l3' <- decode l3 ;;
        let m := upper (strip l3') in
        if str_eqb m (S_ "ASCII") || str_eqb m (S_ "BINARY") then
          v' <- read_loop (S (List.length s3)) (set_mode v (str_eqb m (S_ "ASCII"))) s3 ;; finish v'
        else Err BrokenFormatError
    end.
End Read.

(** ** Writing *)
Section Write.
  (** numpy's text form of one element *)
  Variable show : dtype -> str -> str.

  Definition tofile (binary : bool) (d : dtype) (l : list str) : str :=
    if binary then concat l else join [sp] (map (show d) l).
  (** np.pad(array, ((0,0),(0,1)), "constant"): a zero at the end of every row *)
  Definition pad (k : nat) (a : array) : array :=
    mk_array (a_dt a) (match a_shape a with n :: _ => [n; S k] | [] => [] end)
      (flat_map (fun r => r ++ [repeat (ch 0) (size (a_dt a))]) (rows k (a_items a))).
  Definition pad2 (a : array) : array := match a_shape a with [_; 2] => pad 2 a | _ => a end.
  Definition line (ws : list str) : str := join [sp] ws ++ [nl].
  Definition nat_str (n : nat) : str := str_of_N (N.of_nat n).
  (** _write_points, lines 1203-1222 *)
  Definition write_points (binary : bool) (p : array) : res str :=
    t <- type_name (a_dt p) ;;
    Ok (line [S_ "POINTS"; nat_str (match a_shape p with n :: _ => n | [] => 0 end); t] ++ tofile binary (a_dt p) (a_items p) ++ [nl]).
  (** _write_cells, lines 1225-1274 *)
  Definition block_ints (b : block) : res (list Z) :=
    rs <- mapR (fun r => c <- mapR (at_ r) (meshio_to_vtk_order (b_type b) (Z.of_nat (b_cols b))) ;; Ok (Z.of_nat (b_cols b) :: c)) (b_rows b) ;;
    Ok (concat rs).
  Definition type_key (t : str) : str := if str_eqb (firstn 7 t) (S_ "polygon") then firstn 7 t else t.
  Definition block_types (b : block) : res (list Z) := c <- code_of_type (type_key (b_type b)) ;; Ok (map (fun _ => c) (b_rows b)).
  Definition ints_text (l : list Z) : str := join [nl] (map str_of_Z l) ++ [nl].
  Definition write_ints (binary : bool) (ls : list (list Z)) : str :=
    if binary then concat (map (fun l => concat (map i4 l)) ls) ++ [nl] else concat (map ints_text ls).
  Definition num_cells (bs : list block) : nat := list_sum (map (fun b => List.length (b_rows b)) bs).
  Definition write_cells (binary : bool) (bs : list block) : res str :=
    ds <- mapR block_ints bs ;;
    ts <- mapR block_types bs ;;
    Ok (line [S_ "CELLS"; nat_str (num_cells bs); nat_str (list_sum (map (fun b => List.length (b_rows b) * b_cols b) bs) + num_cells bs)]
        ++ write_ints binary ds
        ++ line [S_ "CELL_TYPES"; nat_str (num_cells bs)] ++ write_ints binary ts).
  (** _write_field_data, lines 1277-1313 *)
  Definition write_field (binary : bool) (p : str * array) : res str :=
    let '(name, a) := p in
    if mem_chr sp name then Err BrokenFormatError
    else
      t <- type_name (a_dt a) ;;
      let '(n, k) := match a_shape a with [] => (0, 0) | [n] => (n, 1) | n :: k :: _ => (n, k) end in
      Ok (line [name; nat_str k; nat_str n; t] ++ tofile binary (a_dt a) (a_items a) ++ [nl]).
  Definition write_fields (binary : bool) (d : dict array) : res str :=
    fs <- mapR (write_field binary) d ;;
    Ok (line [S_ "FIELD"; S_ "FieldData"; nat_str (List.length d)] ++ concat fs).
  (** numpy.concatenate(values), lines 1280-1281: ValueError for an empty list or different row shapes.
      SIMPLIFICATION: the arrays of one list have the same dtype. *)
  Definition concatenate (l : list array) : res array :=
    match l with
    | [] => Err ValueError
    | a :: l' =>
        if forallb (fun b => Nat.eqb (List.length (tl (a_shape b))) (List.length (tl (a_shape a)))
                             && forallb (fun p => Nat.eqb (fst p) (snd p)) (combine (tl (a_shape b)) (tl (a_shape a)))) l'
        then Ok (mk_array (a_dt a) (list_sum (map (fun b => hd 0 (a_shape b)) l) :: tl (a_shape a)) (flat_map a_items l))
        else Err ValueError
    end.
  (** VTKFile.write, lines 143-193: the bytes written, and the object afterwards (2-component data has been padded in
      place).  An exception of this function after line 170 leaves a truncated file (see the writers model). *)
  Definition written (binary : bool) (v : vtk) : res (str * vtk) :=
    p <- match v_points v with Some p => Ok p | None => Err AttributeError end ;;
    let pts := pad2 p in
    let pd := map (fun e => (fst e, pad2 (snd e))) (v_pd v) in
    let cd := map (fun e => (fst e, map pad2 (snd e))) (v_cd v) in
    let v' := mk_vtk (v_ascii v) (v_active v) (v_num v) (v_ds v) (v_points v) (v_c v) (v_ct v) pd (v_cdraw v) (v_fd v) (v_cells v) cd (v_grid v) (v_pdgrid v) in
    tp <- write_points binary pts ;;
    tc <- write_cells binary (v_cells v) ;;
    tpd <- (if nonempty pd then t <- write_fields binary pd ;; Ok (line [S_ "POINT_DATA"; nat_str (match a_shape p with n :: _ => n | [] => 0 end)] ++ t) else Ok []) ;;
    tcd <- (if nonempty cd then
              arrays <- mapR (fun e => a <- concatenate (snd e) ;; Ok (fst e, a)) cd ;;
              t <- write_fields binary arrays ;; Ok (line [S_ "CELL_DATA"; nat_str (num_cells (v_cells v))] ++ t) else Ok []) ;;
    Ok (S_ "# vtk DataFile Version 4.2" ++ [nl] ++ S_ "written " ++ [nl] ++ (if binary then S_ "BINARY" else S_ "ASCII") ++ [nl]
        ++ S_ "DATASET UNSTRUCTURED_GRID" ++ [nl] ++ tp ++ tc ++ tpd ++ tcd, v').
End Write.
