(** Model of the text files of weio/fast_output_file.py (.out, .elev).
    SIMPLIFICATIONS: a double is a value of type [V], read by [num] (numpy's conversion of a word) and written by [t4] (the format
    10.4f) and [e3] (10.3e); encodings and carriage returns are not modelled; a line of the description is kept without its end
    of line; the constructor and the guards of File.read are in File_Model. *)
From Verif Require Import Py FS TurbSim_Model TS_Model Profile_Model FASTOut_Model Tecplot_Model AEPC_Model.
Local Open Scope nat_scope.

Section Ascii.
Context {V : Type}.
Variable num : str -> option V.
Variables t4 e3 : V -> str.

(** A numpy array of dimension 2, 1 or 0 *)
Inductive arr := Mat (rows : list (list V)) | Vec (l : list V) | Scal (v : V).
Record out := mk_out { o_descr : list str; o_names : list str; o_units : option (list str); o_arr : arr }.

(** The text before the first occurrence of a word *)
Fixpoint upto (s w : str) : str := if startswith s w then [] else match s with [] => [] | c :: s' => c :: upto s' w end.
(** np.loadtxt (fast_output_file.py:190): comments, lines without words, words to numbers, same number in every row, and
    dimensions of size one removed *)
Definition loadtxt (ls : list str) : res arr :=
  let words := filter (fun ws => match ws with [] => false | _ => true end) (map (fun l => split_ws (upto l (S_ "This"))) ls) in
  rows <- mapM (floats num) words ;;
  match rows with
  | [] => Ok (Vec [])
  | r0 :: rest =>
      if forallb (fun r => Nat.eqb (List.length r) (List.length r0)) rest then
        match r0, rest with
        | [v], [] => Ok (Scal v)
        | _, [] => Ok (Vec r0)
        | [_], _ => Ok (Vec (List.concat rows))
        | _, _ => Ok (Mat rows)
        end
      else Err ValueError
  end.
(** The header loop of load_ascii_output (fast_output_file.py:175-185) *)
Definition is_time (l : str) : bool := match split_ws (lower (l ++ S_ " dummy")) with w :: _ => str_eqb w (S_ "time") | [] => false end.
Fixpoint find_time (header : list str) (ls : list str) : res (list str * str * list str) :=
  match ls with
  | [] => Err PlainException
  | l :: r => if is_time l then Ok (header, l, r) else find_time (header ++ [l]) r
  end.
(** load_ascii_output (fast_output_file.py:168-191) *)
Definition load_ascii (text : str) : res out :=
  '(header, l, r) <- find_time [] (file_lines text) ;;
  let '(u, r') := readline r in
  a <- loadtxt r' ;;
  Ok (mk_out header (split_ws l) (Some (map inner (split_ws u))) a).
(** re.sub of brackets (fast_output_file.py:103) *)
Definition no_brackets (u : str) : str := filter (fun c => negb (mem_chr c [ch 40; ch 41; ch 91; ch 93])) u.
(** _read (fast_output_file.py:79-103) for the extensions .out and .elev *)
Definition ascii_read (text : str) : res out :=
  match load_ascii text with
  | Err e => Err (if match e with MemoryError => true | _ => false end then BrokenReaderError else WrongFormatError)
  | Ok o =>
      match o_arr o with
      | Scal _ => Err IndexError
      | Mat [] | Vec [] => Err EmptyFileError
      | _ => Ok (mk_out (o_descr o) (o_names o) (match o_units o with Some us => Some (map no_brackets us) | None => None end) (o_arr o))
      end
  end.

(** _write (fast_output_file.py:114-119), the text part *)
Definition row_text (y : list V) : res str := match y with [] => Err IndexError | t :: xs => Ok (join [tab] (t4 t :: map e3 xs)) end.
Definition data_text (a : arr) : res str :=
  match a with
  | Mat rows => ts <- mapM row_text rows ;; Ok (join [nl] ts)
  | Vec [] => Ok []
  | Vec _ => Err IndexError
  | Scal _ => Err TypeError
  end.
Definition names_text (names : list str) : str := join [tab] (map (rjust 10) names) ++ [nl].
Definition units_text (units : option (list str)) : res str := match units with None => Err TypeError | Some us => Ok (join [tab] (map (fun u => rjust 10 (ch 40 :: u ++ [ch 41])) us) ++ [nl]) end.
Definition enc (s : res str) : res bytes := match s with Ok t => Ok (map N_of_ascii t) | Err e => Err e end.
Definition ascii_write (f : fs) (p : str) (o : out) : fs * res unit :=
  write_file f p [Ok (map N_of_ascii (names_text (o_names o))); enc (units_text (o_units o)); enc (data_text (o_arr o))].
(** The text of a file that is written without an error *)
Definition ascii_text (o : out) : res str := u <- units_text (o_units o) ;; d <- data_text (o_arr o) ;; Ok (names_text (o_names o) ++ u ++ d).

(** _toDataFrame (fast_output_file.py:121-132): labels and rows *)
Definition out_labels (o : out) : list str :=
  match o_units o with
  | Some us => map (fun q => fst q ++ S_ "_[" ++ replace_ (S_ "sec") (S_ "s") (snd q) ++ S_ "]") (combine (o_names o) us)
  | None => o_names o
  end.
Definition out_table (o : out) : res (list str * list (list V)) :=
  let cols := out_labels o in
  match o_arr o with
  | Mat rows => if forallb (fun r => Nat.eqb (List.length r) (List.length cols)) rows then Ok (cols, rows) else Err ValueError
  | Vec l => if Nat.eqb (List.length cols) 1 then Ok (cols, map (fun v => [v]) l) else Err ValueError
  | Scal _ => Err ValueError
  end.
End Ascii.
Arguments out : clear implicits.
Arguments arr : clear implicits.
