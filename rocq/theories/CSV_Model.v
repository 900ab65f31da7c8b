(** Model of weio/csv_file.py: the choice of header, separator, column names and rows of a CSV file, and its writing; and of
    the constructor of weio/fast_wind_file.py.
    SIMPLIFICATIONS: a text file is the list of its lines (no carriage returns); the encoding is not modelled; separators are
    one character or runs of blanks; a number is a value of type [V], read by [num] (python's float) and written by [cell];
    pandas' parser: names of missing values (NA, NaN...) and booleans are not recognised, quotes are not modelled. *)
From Verif Require Import Py.
From Coq Require Import ZifyBool.
Local Open Scope nat_scope.

Section CSV.
Context {V : Type}.
Variable num : str -> option V.
Variable cell : V -> str.

(** self.sep: None, a text, or the text r'\s+' (runs of blanks) *)
Inductive separator := Blanks | Text (s : str).
(** A cell of the table: a number, a text or NaN *)
Inductive value := Num (v : V) | Str (s : str) | Nan.
Record csv := mk_csv {
  c_sep : option separator; c_names : list str; c_char : option str; c_lines : list nat; c_nline : option Z; c_detect : bool;
  c_header : list str; c_data : option (list str * list (list value)) }.

(** The constructor (csv_file.py:36-59), before reading.  Comment lines are not negative. *)
Definition csv_new (sep : option separator) (names : list str) (char : option str) (lines : list nat) (nline : option Z) (detect : bool) (header : list str) : res csv :=
  if nonempty lines && match char with Some _ => true | None => false end then Err PlainException else
  if nonempty names && match nline with Some _ => true | None => false end then Err PlainException else
  Ok (mk_csv sep names char lines nline detect header None).

(** readline (csv_file.py:76-82): the line without blanks around, None after the end of the file or for a negative number *)
Definition readline (file : list str) (i : Z) : option str := if (i <? 0)%Z then None else option_map strip (nth_error file (Z.to_nat i)).
(** split (csv_file.py:83-89) *)
Definition split_ (sep : option separator) (s : option str) : res (list str) :=
  match s with
  | None => Ok []
  | Some s => match sep with
              | None => Ok (split_ws (strip s))
              | Some Blanks => Ok (split_ws (strip s))
              | Some (Text [c]) => Ok (map strip (split_chr c (strip s)))
              | Some (Text _) => Err Unmodelled
              end
  end.
Definition strIsFloat (s : str) : bool := match num s with Some _ => true | None => false end.
Definition nFloat (l : list str) : nat := List.length (filter strIsFloat l).
(** csv_file.py:97-98 *)
Definition safe_sep (sep : option separator) : option separator := match sep with Some (Text []) | Some (Text [" "%char]) => Some Blanks | s => s end.
Definition is_alpha_c (c : ascii) : bool := ((65 <=? ord c) && (ord c <=? 90)) || ((97 <=? ord c) && (ord c <=? 122)).
Definition isalpha (s : str) : bool := nonempty s && forallb is_alpha_c s.
(** csv_file.py:102-112 *)
Definition not_csv (file : list str) : bool :=
  match readline file 0 with
  | Some l => match split_ws l with w0 :: w1 :: _ => match int_ w0 with Ok _ => isalpha w1 | Err _ => false end | _ => false end
  | None => false
  end.
(** Lines at the start of the file that begin with a character, at most 100 (csv_file.py:124-132 and 141-148) *)
Fixpoint leading (c : ascii) (fuel : nat) (file : list str) : list str :=
  match fuel, file with
  | S n, l :: rest => match strip l with x :: s => if chr_eqb x c then (x :: s) :: leading c n rest else [] | [] => [] end
  | _, _ => []
  end.
Definition hundred : nat := 100.
Definition COMMENT_CHAR : list ascii := [ch 35; ch 33; ch 59].
(** The header, the comment character and the comment lines (csv_file.py:117-148).  Reading a comment line after the end of
    the file gives an empty text. *)
Definition read_header (o : csv) (file : list str) : res (list str * option str * list nat) :=
  match c_lines o with
  | _ :: _ => Ok (map (fun i => strip (nth i file [])) (filter (fun i => existsb (Nat.eqb i) (c_lines o)) (seq 0 (S (list_max (c_lines o))))), c_char o, c_lines o)
  | [] =>
    match c_char o with
    | Some [] => match file with
                 | l :: _ => match strip l with [] => Ok ([], c_char o, []) | _ => Err IndexError end
                 | [] => Ok ([], c_char o, [])
                 end
    | Some (c :: _) => let h := leading c hundred file in Ok (h, c_char o, seq 0 (List.length h))
    | None => match readline file 0 with
              | Some (c :: _) => if existsb (chr_eqb c) COMMENT_CHAR then Ok (leading c hundred file, Some [c], []) else Ok ([], None, [])
              | _ => Ok ([], None, [])
              end
    end
  end.
(** [s.find(c) > 0] *)
Definition found_after_start (c : ascii) (s : str) : bool := match find_chr c s with Some (S _) => true | _ => false end.
(** The separator (csv_file.py:153-172): from the second line after the header *)
Definition detect_sep (sep : option separator) (file : list str) (iStart : nat) : option separator :=
  match sep with
  | Some _ => sep
  | None => match nth_error file iStart, nth_error file (iStart + 1) with
            | Some _, Some l => let l := strip l in
                         if found_after_start (ch 44) l then Some (Text [ch 44])
                         else if found_after_start (ch 59) l then Some (Text [ch 59])
                         else if found_after_start tab l then Some (Text [tab])
                         else Some Blanks
            | _, _ => None
            end
  end.
Definition count_chr (c : ascii) (s : str) : nat := List.length (filter (chr_eqb c) s).
(** The first line of the header with as many words as the first line of data (csv_file.py:213-227) *)
Fixpoint header_names (sep : option separator) (char : option str) (n limit : nat) (header : list str) : res (option (list str)) :=
  match header with
  | [] => Ok None
  | l :: rest => let l := match char with Some c => skipn (List.length c) l | None => l end in
                 cols <- split_ sep (Some l) ;;
                 if Nat.eqb (List.length cols) n && (nFloat cols + 1 <=? limit) then Ok (Some cols) else header_names sep char n limit rest
  end.
(** Column names (csv_file.py:174-227): the names, the line of the names and the first line of the table *)
Definition column_names (o : csv) (file : list str) (header : list str) (char : option str) (sep : option separator) (iStart : nat) : res (list str * option Z * nat) :=
  match c_nline o with
  | Some k =>
    if (k <? 0)%Z then
      match readline file (Z.of_nat iStart + k) with
      | None => Err AttributeError
      | Some line =>
        let line := match char with Some c => if startswith line c then strip (skipn (List.length c) line) else line | None => line end in
        names <- split_ sep (Some line) ;; Ok (names, Some k, iStart)
      end
    else names <- split_ sep (readline file k) ;; Ok (names, Some k, Nat.max iStart (Z.to_nat (k + 1)))
  | None =>
    if nonempty (c_names o) then Ok (c_names o, None, iStart)
    else if negb (c_detect o) then Ok (c_names o, None, iStart)
    else
      names <- split_ sep (readline file (Z.of_nat iStart)) ;;
      if (nFloat names =? 0) || ((2 <? List.length names) && (2 * nFloat names <=? List.length names)) then
        match readline file (Z.of_nat (iStart + 1)) with
        | None => Err AttributeError
        | Some first =>
          cols <- split_ sep (Some first) ;;
          if (List.length names <? 2 * (count_chr (ch 40) first + count_chr (ch 91) first)) then
            Ok (if Nat.eqb (List.length cols) (List.length names) then map (fun p => strip (fst p) ++ S_ "_" ++ strip (snd p)) (combine names cols) else names,
                Some (Z.of_nat iStart), iStart + 2)
          else Ok (names, Some (Z.of_nat iStart), iStart + 1)
        end
      else if nonempty header then
        match sep with
        | None => Ok (c_names o, None, iStart)
        | Some _ => first <- split_ sep (readline file (Z.of_nat iStart)) ;;
                    r <- header_names sep char (List.length first) (List.length names) header ;;
                    Ok (match r with Some cols => cols | None => c_names o end, None, iStart)
        end
      else Ok (c_names o, None, iStart)
  end.
(** The rows to skip (csv_file.py:229-234) *)
Definition skiprows (iStart : nat) (nline : option Z) (lines : list nat) (i : nat) : bool :=
  (i <? iStart) || match nline with Some k => (Z.of_nat i =? k)%Z | None => false end || existsb (Nat.eqb i) lines.
Definition kept (skip : nat -> bool) (file : list str) : list str := map snd (filter (fun p => negb (skip (fst p))) (combine (seq 0 (List.length file)) file)).

(** pandas.read_csv(sep, header=None, comment) on the rows that are not skipped: the rest of a line after the comment
    character and blank lines are ignored; the first row gives the number of columns, short rows are filled with NaN, a
    longer row is a parser error.  A column with a cell that is no number is a column of texts. *)
Definition cut_comment (char : option str) (l : str) : res str :=
  match char with
  | None => Ok l
  | Some [c] => Ok (match split_chr c l with w :: _ => w | [] => [] end)
  | Some _ => Err ValueError
  end.
Fixpoint mapM {A B} (g : A -> res B) (l : list A) : res (list B) := match l with [] => Ok [] | x :: l' => y <- g x ;; ys <- mapM g l' ;; Ok (y :: ys) end.
Definition row_cells (sep : separator) (l : str) : res (list str) := match sep with Blanks => Ok (split_ws l) | Text [c] => Ok (split_chr c l) | Text _ => Err Unmodelled end.
Definition numeric_cell (s : str) : bool := negb (nonempty (strip s)) || strIsFloat (strip s).
Definition numeric_column (cells : list (list str)) (j : nat) : bool := forallb (fun r => numeric_cell (nth j r [])) cells.
Definition value_of (numeric : bool) (s : str) : value :=
  if negb (nonempty (strip s)) then Nan else if numeric then match num (strip s) with Some v => Num v | None => Nan end else Str s.
Definition parse_table (sep : option separator) (char : option str) (rows : list str) : res (list (list value)) :=
  match sep with
  | None => Err Unmodelled
  | Some s =>
    ls <- mapM (cut_comment char) rows ;;
    cells <- mapM (row_cells s) (filter (fun l => nonempty (strip l)) ls) ;;
    match cells with
    | [] => Err ValueError   (* EmptyDataError is a ValueError *)
    | r0 :: _ => if existsb (fun r => List.length r0 <? List.length r) cells then Err WrongFormatError
                 else Ok (map (fun r => map (fun j => value_of (numeric_column cells j) (nth j r [])) (seq 0 (List.length r0))) cells)
    end
  end.

(** CSVFile._read (csv_file.py:61-251) *)
Definition csv_read (o : csv) (file : list str) : res csv :=
  let sep := safe_sep (c_sep o) in
  if not_csv file then Err WrongFormatError else
  '(header, char, lines) <- read_header o file ;;
  let iStart := List.length header in
  let sep := detect_sep sep file iStart in
  '(names, nline, iStart') <- column_names o file header char sep iStart ;;
  let sep := match sep with Some (Text [c]) => if chr_eqb c tab then Some Blanks else sep | _ => sep end in
  data <- parse_table sep char (kept (skiprows iStart' nline lines) file) ;;
  let n := List.length (hd [] data) in
  let names := if Nat.eqb (List.length names) 0 || negb (Nat.eqb (List.length names) n) then map (fun i => S_ "C" ++ str_of_N (N.of_nat i)) (seq 0 n) else names in
  Ok (mk_csv sep names char lines nline (c_detect o) header (Some (map strip names, data))).

(** CSVFile._write (csv_file.py:255-275): the lines of the file.  A missing value is written as an empty cell.
    SIMPLIFICATION: cells and names need no quotes. *)
Definition csv_lines (o : csv) : res (list str) :=
  let sep := match c_sep o with Some Blanks | Some (Text []) => Some (Text [tab]) | s => s end in
  match sep with
  | Some (Text [c]) =>
    match c_data o with
    | None => Err AttributeError   (* self.data is an empty list *)
    | Some (cols, rows) =>
      let body := map (fun r => join [c] (map (fun x => match x with Num v => cell v | Str t => t | Nan => [] end) r)) rows in
      if nonempty (c_header o) then Ok (c_header o ++ body) else Ok (join [c] cols :: body)
    end
  | _ => Err TypeError
  end.

(** FASTWndFile.__init__ (fast_wind_file.py:28-40) *)
Definition wnd_names : list str := [S_ "Time_[s]"; S_ "WindSpeed_[m/s]"; S_ "WindDir_[deg]"; S_ "VertSpeed_[m/s]"; S_ "HorizShear_[-]"; S_ "VertShear_[-]"; S_ "LinVShear_[-]"; S_ "GustSpeed_[m/s]"].
Definition wnd_header : list str :=
  [S_ "!Wind file."; S_ "!Time  Wind     Wind" ++ [tab] ++ S_ "Vert.       Horiz.      Vert.       LinV        Gust";
   S_ "!      Speed    Dir    Speed       Shear" ++ [tab; tab] ++ S_ "Shear       Shear       Speed"].
Definition wnd_new : res csv := csv_new (Some (Text [sp])) wnd_names (Some (S_ "!")) [] None true wnd_header.
End CSV.
Arguments csv : clear implicits.
Arguments value : clear implicits.
