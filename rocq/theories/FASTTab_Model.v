(** Model of the tables of FAST input files (weio/fast_input_file.py): parseFASTNumTable, parseFASTFilTable, readBeamDynProps,
    the table branches of toString and of _toDataFrame.
    SIMPLIFICATIONS: a double is a value of type [V], read by [num] (python's float); finite numbers only are written; warnings
    printed on the screen are not modelled; the separator that detectUnits uses internally is assumed not to occur in a line
    of units; a mixed table that is entirely numerical becomes a numerical one, as in the code. *)
From Verif Require Import Py FASTIn_Model.
From Verif Require Tecplot_Model.
Local Open Scope nat_scope.

Section Tab.
Context {V : Type}.
Variable num : str -> option V.
Variable zero : V.

(** cleanAfterChar (fast_input_file.py:982-988): nothing is removed when the character comes first *)
Definition cleanAfterChar (c : string) (l : str) : str := match find_str l (S_ c) with Some (S n) => firstn (S n) l | _ => l end.
(** Column names (fast_input_file.py:1179-1188) *)
Definition bang (s : str) : str := if startswith s (S_ "!") then strip (skipn 1 s) else s.
Definition header_names (l : str) : list str :=
  split_ws (bang (cleanAfterChar "#" (cleanAfterChar "!" (cleanAfterChar "(" (cleanAfterChar "[" (cleanLine l)))))).
(** detectUnits (fast_input_file.py:1134-1150) *)
Definition count (c : string) (s : str) : nat := List.length (filter (fun x => str_eqb [x] (S_ c)) s).
Definition between (o c : nat) (s : str) : list str := removelast (split_chr (ch c) (replace_chr (ch o) [] s)).
Definition detectUnits (s : str) (n : nat) : list str :=
  if Nat.eqb (count "(" s) (count ")" s) && Nat.leb n (count "(" s) then between 40 41 s
  else if Nat.eqb (count "[" s) (count "]" s) && Nat.leb n (count "[" s) then between 91 93 s
  else split_ws s.
(** Units (fast_input_file.py:1189-1199) *)
Definition header_units (l : str) (n : nat) : list str :=
  map (fun u => S_ "(" ++ strip u ++ S_ ")") (detectUnits (bang (cleanAfterChar "#" (cleanAfterChar "!" (cleanLine l)))) n).
(** The words of a row (fast_input_file.py:1212-1214, 1241-1244) *)
Definition row_words (l : str) : list str := split_ws (cleanAfterChar "#" (cleanAfterChar "!" l)).
Definition logical (w : str) : str :=
  let rep (a b : string) := Tecplot_Model.replace_ (S_ a) (S_ b) in
  rep "print"%string "1"%string (rep "noprint"%string "0"%string (rep "false"%string "0"%string (rep "true"%string "1"%string w))).
(** Inside the try block every exception becomes a BrokenFormatError (fast_input_file.py:1270-1271) *)
Definition broken {A} : res A := Err BrokenFormatError.
Definition float_ (w : str) : res V := match num w with Some v => Ok v | None => broken end.
Fixpoint mapM {A B} (g : A -> res B) (l : list A) : res (list B) := match l with [] => Ok [] | x :: l' => y <- g x ;; ys <- mapM g l' ;; Ok (y :: ys) end.

(** Names, units (None: there is no line of units) and number of columns *)
Record heads := mk_heads { h_names : list str; h_units : option (list str); h_cols : nat }.
Definition last_is (names : list str) (k : string) : res bool := match rev names with [] => broken | n :: _ => Ok (str_eqb (lower n) (S_ k)) end.
Definition more (n : nat) (h : heads) : res heads :=
  match h_units h with
  | Some u => Ok (mk_heads (h_names h ++ repeat (S_ "Col") n) (Some (u ++ repeat (S_ "Col") n)) (h_cols h))
  | None => broken
  end.
(** The first row decides on the number of columns (fast_input_file.py:1215-1229) *)
Definition num_first (h : heads) (v : list str) : res heads :=
  if Nat.eqb (List.length v) (h_cols h) then Ok h else
  b <- last_is (h_names h) "nodecnt" ;;
  h' <- (if b then more (List.length v - h_cols h) h else Ok h) ;;
  Ok (mk_heads (h_names h') (h_units h') (List.length v)).
(** A row (fast_input_file.py:1230-1235); for rows after the first a different number of words needs a last name *)
Definition num_row (h : heads) (v : list str) : res (list V) :=
  _ <- (if Nat.eqb (List.length v) (h_cols h) then Ok true else last_is (h_names h) "nodecnt") ;;
  xs <- mapM (fun w => float_ (logical w)) (firstn (h_cols h) v) ;;
  if Nat.ltb (List.length xs) (h_cols h) then broken else Ok xs.
Definition num_rows (h : heads) (ls : list str) : res (heads * list (list V)) :=
  match ls with
  | [] => Ok (h, [])
  | l :: _ => h' <- num_first h (row_words (lower l)) ;; rows <- mapM (fun l => num_row h' (row_words (lower l))) ls ;; Ok (h', rows)
  end.
(** Mixed tables (fast_input_file.py:1236-1258): cells that are missing stay zero *)
Inductive cell := Word (s : str) | Zero.
Definition mix_words (l : str) : res (list str) := if startswith (cleanAfterChar "#" (cleanAfterChar "!" l)) (S_ "---") then broken else Ok (row_words l).
Definition mix_first (h : heads) (v : list str) : res heads :=
  if Nat.eqb (List.length v) (h_cols h) then Ok h else
  _ <- last_is (h_names h) "cosmid" ;;
  h' <- (if Nat.ltb (h_cols h) (List.length v) then more (List.length v - h_cols h) h else Ok h) ;;
  Ok (mk_heads (h_names h') (h_units h') (List.length v)).
Definition mix_row (h : heads) (l : str) : res (list cell) :=
  v <- mix_words l ;;
  _ <- (if Nat.eqb (List.length v) (h_cols h) then Ok true else last_is (h_names h) "cosmid") ;;
  Ok (map Word (firstn (h_cols h) v) ++ repeat Zero (h_cols h - List.length v)).
Definition mix_rows (h : heads) (ls : list str) : res (heads * list (list cell)) :=
  match ls with
  | [] => Ok (h, [])
  | l :: _ => v <- mix_words l ;; h' <- mix_first h v ;; rows <- mapM (mix_row h') ls ;; Ok (h', rows)
  end.
(** The values of a table: numbers, or texts *)
Inductive values := Nums (rows : list (list V)) | Cells (rows : list (list cell)).
Definition cell_num (c : cell) : option V := match c with Word w => num w | Zero => Some zero end.
Fixpoint all_some {A} (l : list (option A)) : option (list A) := match l with [] => Some [] | Some x :: l' => option_map (cons x) (all_some l') | None :: _ => None end.
Definition settle (rows : list (list cell)) : values := match all_some (map (fun r => all_some (map cell_num r)) rows) with Some m => Nums m | None => Cells rows end.
(** The labels that are returned (fast_input_file.py:1262-1268) *)
Definition no_paren (u : str) : str := S_ "(" ++ replace_chr (ch 41) [] (replace_chr (ch 40) [] u) ++ S_ ")".
Definition finish (nHeaders : nat) (h : heads) (v : values) : values * option (list str) * option (list str) :=
  (v, match nHeaders with O => None | _ => Some (firstn (h_cols h) (h_names h)) end, option_map (fun u => map no_paren (firstn (h_cols h) u)) (h_units h)).
(** parseFASTNumTable (fast_input_file.py:1153-1272).  Without header lines the names are C0, C1, ... for the numbers of the
    first row: only their presence matters, and there is one as soon as the row has a digit; an exception there finds the line
    number undefined (UnboundLocalError). *)
Definition parse_table (numeric : bool) (lines : list str) (n : nat) (nHeaders nOffset : nat) : res (values * option (list str) * option (list str)) :=
  if negb (Nat.eqb (List.length lines) (n + nHeaders + nOffset)) then broken else
  h <- match nHeaders with
       | O => match nth_error lines nOffset with
              | None => Err UnboundLocalError
              | Some l => if numeric then Ok (if existsb is_digit (cleanAfterChar "!" l) then mk_heads [S_ "C0"] None (List.length (row_words (lower l))) else mk_heads [] None 0) else Err UnboundLocalError
              end
       | 1 => match lines with l :: _ => let ns := header_names l in Ok (mk_heads ns None (List.length ns)) | [] => broken end
       | _ => match lines with l :: u :: _ => let ns := header_names l in Ok (mk_heads ns (Some (header_units u (List.length ns))) (List.length ns)) | _ => broken end
       end ;;
  let body := skipn (nHeaders + nOffset) lines in
  if numeric then '(h', rows) <- num_rows h body ;; Ok (finish nHeaders h' (Nums rows))
  else '(h', rows) <- mix_rows h body ;; Ok (finish nHeaders h' (settle rows)).

(** parseFASTFilTable (fast_input_file.py:1275-1289): the first word of each line *)
Definition parse_files (lines : list str) (n : nat) : res (list str) :=
  if negb (Nat.eqb (List.length lines) n) then Err PlainException else
  mapM (fun l => match split_ws l with w :: _ => Ok (strip w) | [] => Err PlainException end) lines.

(** Writing a list of files (fast_input_file.py:713-716), for a list that is not empty *)
Definition files_str (label descr : str) (first : str) (others : list str) : str := first ++ [sp] ++ label ++ [sp] ++ descr ++ [nl] ++ join [nl] others.

(** ** Writing (fast_input_file.py:690-730).  [fnum] formats a number with 15.0f or 15.8e, [fexp] with 15.8e, [fstr] is str *)
Variables fnum fexp fstr : V -> str.
Definition pad15 (s : str) : str := s ++ repeat sp (15 - List.length s).
Definition heading (l : list str) : str := join [sp] (map pad15 l).
Definition rows_str {A} (f : A -> str) (rows : list (list A)) : str := join [nl] (map (fun r => join [tab] (map f r)) rows).
Definition num_table_str (names units : option (list str)) (rows : list (list V)) : str :=
  let head := match names with Some ns => heading ns ++ match units with Some us => nl :: heading us | None => [] end | None => [] end in
  match rows with [] => head | _ => head ++ match names with Some _ => [nl] | None => [] end ++ rows_str fnum rows end.
Definition cell_str (c : cell) : str := match c with Word w => w | Zero => S_ "0.0" end.
Definition mix_table_str (names : list str) (units : option (list str)) (v : values) : str :=
  let head := heading names ++ match units with Some us => nl :: heading us | None => [] end in
  match v with
  | Nums [] => head | Cells [] => head
  | Nums rows => head ++ [nl] ++ rows_str fstr rows
  | Cells rows => head ++ [nl] ++ rows_str cell_str rows
  end.
Definition com_table_str (names units : list str) (rows : list (list V)) : str :=
  S_ "! " ++ heading names ++ [nl] ++ S_ "! " ++ heading units ++ [nl] ++ rows_str fexp rows.

(** The reference point of an airfoil: reading (fast_input_file.py:487-492) and writing (fast_input_file.py:684-687) *)
Definition ref_point (l : str) : res (V * V) :=
  match split_ws (cleanAfterChar "!" (cleanLine l)) with
  | a :: b :: _ => match num a, num b with Some x, Some y => Ok (x, y) | _, _ => Err WrongFormatError end
  | _ => Err WrongFormatError
  end.
Definition ref_point_str (p : V * V) : str := join (S_ ", ") [fstr (fst p); fstr (snd p)] ++ [sp] ++ S_ "AirfoilRefPoint" ++ [sp].

(** ** BeamDyn sections (fast_input_file.py:665-677, 719-729 and 896-917) *)
Variables fspan fmat : V -> str.
Record section := mk_section { s_span : V; s_K : list (list V); s_M : list (list V) }.
Definition mat_str (m : list (list V)) : str := join [nl] (map (fun r => S_ "   " ++ join [sp] (map fmat r)) m).
Definition section_str (s : section) : str := fspan (s_span s) ++ [nl] ++ mat_str (s_K s) ++ [nl; nl] ++ mat_str (s_M s) ++ [nl; nl].
Definition beamdyn_str (l : list section) : str := flat_map section_str l.
(** A 6 by 6 matrix from the words of six lines; fewer lines at the end of the file give fewer words *)
Fixpoint chunks6 {A} (n : nat) (l : list A) : list (list A) := match n with O => [] | S n' => firstn 6 l :: chunks6 n' (skipn 6 l) end.
Definition mat6 (ls : list str) : res (list (list V)) :=
  match all_some (map num (split_ws (join [sp] (firstn 6 ls)))) with
  | Some vs => if Nat.eqb (List.length vs) 36 then Ok (chunks6 6 vs) else Err WrongFormatError
  | None => Err WrongFormatError
  end.
Definition float_line (l : str) : option V := num (strip l).
Fixpoint beamdyn_read (n : nat) (ls : list str) : res (list section) :=
  match n with
  | O => Ok []
  | S n' => match ls with
            | [] => Err WrongFormatError
            | l :: r => match float_line l with
                        | None => Err WrongFormatError
                        | Some x => K <- mat6 r ;; M <- mat6 (skipn 7 r) ;; rest <- beamdyn_read n' (skipn 14 r) ;; Ok (mk_section x K M :: rest)
                        end
            end
  end.
(** The table of the sections (fast_input_file.py:805-823): columns in the order of IOrg *)
Definition beamdyn_cols : list str :=
  let ij c := map (fun p => S_ c ++ str_of_N (N.of_nat (S (fst p))) ++ str_of_N (N.of_nat (S (snd p)))) (list_prod (seq 0 6) (seq 0 6)) in
  S_ "Span" :: ij "K"%string ++ ij "M"%string.
Definition IMain : list nat := [0] ++ map (fun i => i * 6 + i + 1) (seq 0 6) ++ map (fun i => i * 6 + i + 37) (seq 0 6).
Definition IOrg : list nat := IMain ++ filter (fun i => negb (existsb (Nat.eqb i) IMain)) (seq 0 73).
Definition take {A} (l : list A) (I : list nat) : list A := flat_map (fun i => match nth_error l i with Some x => [x] | None => [] end) I.
Definition beamdyn_table (l : list section) : list str * list (list V) :=
  (take beamdyn_cols IOrg, map (fun s => take (s_span s :: List.concat (s_K s) ++ List.concat (s_M s)) IOrg) l).

(** ** Column labels of the table of a numerical table (fast_input_file.py:761-766) *)
Definition brackets (u : str) : str := replace_chr (ch 41) [ch 93] (replace_chr (ch 40) [ch 91] u).
Definition table_columns (names : list str) (units : option (list str)) : list str :=
  match units with None => names | Some us => map (fun p => fst p ++ S_ "_" ++ brackets (snd p)) (combine names us) end.
(** [pd.DataFrame(data=Val,columns=Cols)]: the numbers of columns have to agree; an empty table has the width of its names
    (fast_input_file.py:1208) *)
Definition width (names : list str) (rows : list (list V)) : nat := match rows with [] => List.length names | r :: _ => List.length r end.
Definition frame (names : list str) (units : option (list str)) (rows : list (list V)) : res (list str * list (list V)) :=
  let cols := table_columns names units in
  if Nat.eqb (width names rows) (List.length cols) then Ok (cols, rows) else Err ValueError.
End Tab.
Arguments values : clear implicits.
Arguments section : clear implicits.
