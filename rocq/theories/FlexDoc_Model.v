(** Model of weio/flex_doc_file.py: FLEX documentation files.
    SIMPLIFICATIONS: the file is the list of its lines, without line breaks; a double is a value of type [V] read by [num] (python's
    float), [idx] makes a double from a whole number; a table whose rows have different lengths cannot be made into an array (numpy 1.24 and
    later: ValueError); messages are not printed. *)
From Verif Require Import Py H2dat_Model Dict.
Local Open Scope nat_scope.

Section Doc.
Context {V : Type}.
Variable num : str -> option V.
Variable idx : nat -> V.

(** A value: a number, an array of one dimension, an array of two dimensions, a text, a data frame *)
Inductive value := Scal (v : V) | Arr (vs : list V) | Mat (rows : list (list V)) | Txt (s : str) | Frame (cols : list str) (rows : list (list V)).
(** An entry of the object: a value or a dictionary of values *)
Inductive entry := One (v : value) | Many (d : @dict value).
Definition doc := @dict entry.

(** The names of arrays (flex_doc_file.py:29-76).  There is no comma after the first name of the second list, so that its first two names
    are one text. *)
Definition ArraysHeader : list str :=
  map (fun n => S_ "#Blade_ShapeFunction_DOF" ++ str_of_N n ++ S_ "_Shape") [1; 2; 3; 4; 5; 6; 7; 8; 9; 10]%N ++ [S_ "#Tower_SectionData"] ++
  map (fun n => S_ "#Tower_ShapeFunction_DOF" ++ str_of_N n ++ S_ "_Shape") [1; 2; 3; 4; 5; 6; 7; 8]%N ++
  [S_ "#Foundation_SectionData"; S_ "#Foundation_ShapeFunction_DOF1_Shape"; S_ "#Foundation_ShapeFunction_DOF2_Shape"; S_ "#Global_Mode1_Shape"].
Definition ArraysNoHeader : list str :=
  [S_ "#Blade_IsolatedMassMatrix#Blade_IsolatedStiffnessMatrix"; S_ "#Blade_IsolatedDampingMatrix";
   S_ "#Foundation_IsolatedMassMatrix"; S_ "#Foundation_IsolatedStiffnessMatrix"; S_ "#Foundation_IsolatedStiffnessMatrixCorrection"; S_ "#Foundation_IsolatedDampingMatrix";
   S_ "#Tower_MassMatrix"; S_ "#Tower_IsolatedMassMatrix"; S_ "#Tower_IsolatedStiffnessMatrix"; S_ "#Tower_IsolatedStiffnessMatrixCorrection"; S_ "#Tower_IsolatedDampingMatrix";
   S_ "#EVA_MassMatrix"; S_ "#EVA_StiffnessMatrix"; S_ "#EVA_DampingMatrix"; S_ "#EVA_Eigenvectors"; S_ "#EVA_Eigenfrequencies"; S_ "#EVA_Eigenvalues"; S_ "#EVA_Damping"; S_ "#EVA_LogDec"].
Definition listed (w : str) (l : list str) : bool := existsb (str_eqb w) l.

(** The regular expression of flex_doc_file.py:78: the number of characters of a match at the start of the text *)
Definition m_sign (s : str) : nat := match s with c :: _ => if mem_chr c (S_ "-+") then 1 else 0 | [] => 0 end.
Definition m_mant (s : str) : option nat :=
  let a := List.length (take is_digit s) in
  let r := skipn a s in
  match r with
  | c :: r' => let b := List.length (take is_digit r') in
               if chr_eqb c (ch 46) then (if 1 <=? b then Some (a + 1 + b) else if 1 <=? a then Some (a + 1) else None)
               else if 1 <=? a then Some a else None
  | [] => if 1 <=? a then Some a else None
  end.
Definition m_exp (s : str) : nat :=
  match s with
  | c :: s' => if mem_chr c (S_ "Ee") then let g := m_sign s' in match List.length (take is_digit (skipn g s')) with O => 0 | d => 1 + g + d end else 0
  | [] => 0
  end.
Definition m_num (s : str) : option nat :=
  let g := m_sign s in
  match m_mant (skipn g s) with Some m => Some (g + m + m_exp (skipn (g + m) s)) | None => None end.
(** rx.findall *)
Fixpoint rx (skip : nat) (s : str) : list str :=
  match s with
  | [] => []
  | _ :: s' => match skip with
               | S k => rx k s'
               | O => match m_num s with Some n => firstn n s :: rx (n - 1) s' | None => rx 0 s' end
               end
  end.
Fixpoint floats (ws : list str) : option (list V) := match ws with [] => Some [] | w :: ws' => match num w, floats ws' with Some x, Some xs => Some (x :: xs) | _, _ => None end end.
(** The value of an ordinary line (flex_doc_file.py:144-151) *)
Definition regular (values : str) : value := match floats (rx 0 values) with Some [v] => Scal v | Some vs => Arr vs | None => Txt values end.

(** The lines of an array (flex_doc_file.py:95-97, 130-132) and the rest *)
Fixpoint array_lines (lines : list str) : list str * list str :=
  match lines with
  | (c :: l) :: rest => if chr_eqb c (ch 35) then ([], lines) else let (a, b) := array_lines rest in ((c :: l) :: a, b)
  | _ => ([], lines)
  end.
(** float(v) if v not in ['Fnd','Twr','COG'] else the index (line 96) *)
Definition words3 : list str := [S_ "Fnd"; S_ "Twr"; S_ "COG"].
Fixpoint index_of (w : str) (l : list str) (i : nat) : option nat := match l with [] => None | x :: l' => if str_eqb w x then Some i else index_of w l' (S i) end.
Definition num3 (w : str) : option V := match index_of w words3 0 with Some i => Some (idx i) | None => num w end.
Fixpoint row_of (f : str -> option V) (ws : list str) : option (list V) := match ws with [] => Some [] | w :: ws' => match f w, row_of f ws' with Some x, Some xs => Some (x :: xs) | _, _ => None end end.
Fixpoint rows_of (f : str -> option V) (ls : list str) : res (list (list V)) :=
  match ls with [] => Ok [] | l :: ls' => match row_of f (split_ws l) with Some r => rs <- rows_of f ls' ;; Ok (r :: rs) | None => Err ValueError end end.
Definition np_array (rows : list (list V)) : res (list (list V)) := if forallb (fun r => Nat.eqb (List.length r) (List.length (hd [] rows))) rows then Ok rows else Err ValueError.

(** The names of the columns (flex_doc_file.py:100-117) *)
Definition strip_count (header : str) : str := match split_ws header with w :: ws => match int_ w with Ok _ => join (S_ " ") ws | Err _ => header end | [] => header end.
Definition bracket_name (v : str) : str := replace_ (S_ "__") (S_ "_") (replace_ (S_ "__") (S_ "_") (replace_ (S_ "[") (S_ "_[") (replace_ (S_ " ") (S_ "_") (strip v)))) ++ S_ "]".
Definition header_cols (header : str) : list str :=
  let h := strip_count header in
  match find_chr (ch 91) h with
  | Some (S _) => let h := replace_ (S_ "n ") (S_ "n_[-] ") (replace_ (S_ "rough") (S_ "rough_[-]") h) in map bracket_name (removelast (split_chr (ch 93) h))
  | _ => split_ws h
  end.
Definition default_cols (n : nat) : list str := map (fun j => S_ "C" ++ str_of_N (N.of_nat j)) (seq 0 n).
(** M.shape[1] does not exist without rows. *)
Definition make_frame (header : str) (M : list (list V)) : res value :=
  match M with
  | [] => Err IndexError
  | r :: _ => let n := List.length r in let cols := header_cols header in Ok (Frame (if Nat.eqb (List.length cols) n then cols else default_cols n) M)
  end.

(** self[key][subkey] = v (flex_doc_file.py:119-125, 136-141, 163-165); a number or an array does not take a text as index. *)
Definition store (d : doc) (key sub : str) (v : value) : res doc :=
  match get d key with
  | None => Ok (put d key (Many [(sub, v)]))
  | Some (Many e) => Ok (put d key (Many (put e sub v)))
  | Some (One (Arr _)) | Some (One (Mat _)) => Err IndexError
  | Some (One (Scal _)) | Some (One (Txt _)) => Err TypeError
  | Some (One (Frame c rows)) => Err Unmodelled
  end.
(** The first part of the name without the mark, and the others joined *)
Definition keys_of (w : str) : str * str := match split_chr (ch 95) w with k :: ks => (skipn 1 k, join (S_ "_") ks) | [] => ([], []) end.
(** An ordinary line (flex_doc_file.py:143-165) *)
Definition store_regular (d : doc) (sp : list str) : res doc :=
  let (key, sub) := keys_of (hd [] sp) in
  let dat := regular (join (S_ " ") (tl sp)) in
  if nonempty (strip key) then
    if nonempty sub then store d key sub dat
    else if has d key then Err PlainException else Ok (put d key (One dat))
  else Ok d.
(** The adjustment of the global mode (flex_doc_file.py:168-175), which ignores all errors *)
Definition mode1_cols : list str := [S_ "H_[m]"; S_ "U_FA_[-]"; S_ "U_SS_[]"].
Definition drop_cols (c : str) (cols : list str) (r : list V) : list V := map snd (filter (fun p => negb (str_eqb (fst p) c)) (combine cols r)).
Definition adjust (d : doc) : doc :=
  match get d (S_ "Global") with
  | Some (Many e) =>
    match get e (S_ "Mode1_Shape") with
    | Some (Frame cols rows) =>
      let c0 := S_ "C0" in
      if listed c0 cols && Nat.eqb (List.length (filter (fun c => negb (str_eqb c c0)) cols)) 3
      then put d (S_ "Global") (Many (put e (S_ "Mode1_Shape") (Frame mode1_cols (map (drop_cols c0 cols) rows))))
      else d
    | _ => d
    end
  | _ => d
  end.
(** The loop (flex_doc_file.py:81-175); every step uses up a line. *)
Fixpoint loop (fuel : nat) (lines : list str) (d : doc) : res doc :=
  match fuel with
  | O => Err OutOfFuel
  | S n =>
    match lines with
    | [] => Ok d
    | l :: rest =>
      if negb (nonempty (strip l)) then loop n rest d
      else if startswith l (S_ "###") then loop n rest d
      else if startswith l (S_ "#") then
        let sp := split_ws l in
        let w := hd [] sp in
        if listed w ArraysHeader then
          match rest with
          | [] => Err IndexError
          | header :: rest' =>
            let (a, rest'') := array_lines rest' in
            rows <- rows_of num3 a ;; M <- np_array rows ;; f <- make_frame header M ;;
            d' <- store d (fst (keys_of w)) (snd (keys_of w)) f ;; loop n rest'' d'
          end
        else if listed w ArraysNoHeader then
          match rest with
          | [] => Err IndexError
          | _ :: rest' =>
            let (a, rest'') := array_lines rest' in
            rows <- rows_of num a ;; M <- np_array rows ;;
            d' <- store d (fst (keys_of w)) (snd (keys_of w)) (match M with [] => Arr [] | _ => Mat M end) ;; loop n rest'' d'
          end
        else d' <- store_regular d sp ;; loop n rest (adjust d')
      else loop n rest (adjust d)
    end
  end.
(** FLEXDocFile._read (flex_doc_file.py:22-27 and the loop): the first line is put at the end *)
Definition read (d : doc) (file : list str) : res doc :=
  let line1 := strip (hd [] file) in
  if startswith line1 (S_ "#Program") then let lines := tl file ++ [line1] in loop (S (List.length lines)) lines d else Err WrongFormatError.

(** _toDataFrame (flex_doc_file.py:192-205) *)
Definition toDataFrame (d : doc) : @dict (list str * list (list V)) :=
  fold_left (fun acc e => match snd e with
                          | One (Frame c r) => put acc (fst e) (c, r)
                          | One _ => acc
                          | Many m => fold_left (fun acc e2 => match snd e2 with Frame c r => put acc (fst e ++ S_ "_" ++ fst e2) (c, r) | _ => acc end) m acc
                          end) d [].
End Doc.
