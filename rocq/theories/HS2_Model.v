(** Model of HAWCStab2 files: weio/hawcstab2_ind_file.py, weio/hawcstab2_pwr_file.py and weio/hawcstab2_cmb_file.py.
    SIMPLIFICATIONS: lines end with a newline character; a double is a value of type [V] read by [num] (python's float); an array is the
    list of its rows.  np.loadtxt: a table of one row or one column has one dimension only, an empty table too (numpy.squeeze). *)
From Verif Require Import Py CSV_Model H2dat_Model.
Local Open Scope nat_scope.

Section Text.
Context {V : Type}.
Variable num : str -> option V.

(** np.loadtxt(filename, skiprows=1): comments are cut at '#', blank lines ignored, the rows must have the same number of words *)
Definition table_rows (txt : str) : list (list str) := filter nonempty (map (fun l => split_ws (hd [] (split_chr (ch 35) l))) (tl (split_chr nl txt))).
Fixpoint floats (ws : list str) : option (list V) := match ws with [] => Some [] | w :: ws' => match num w, floats ws' with Some x, Some xs => Some (x :: xs) | _, _ => None end end.
Definition loadtxt1 (txt : str) : res (list (list V)) :=
  let rows := table_rows txt in
  if forallb (fun r => Nat.eqb (List.length r) (List.length (hd [] rows))) rows
  then mapM (fun r => match floats r with Some x => Ok x | None => Err ValueError end) rows
  else Err ValueError.
(** [data.shape[1]]: there is no second dimension for fewer than two rows or two columns *)
Definition shape1 (rows : list (list V)) : res nat :=
  let n := List.length (hd [] rows) in if (List.length rows <? 2) || (n <? 2) then Err IndexError else Ok n.
(** The rest of _read in both classes (hawcstab2_ind_file.py:49-57, hawcstab2_pwr_file.py:43-49): BrokenFormatError is not imported there,
    so raising it is a NameError *)
Definition table (txt : str) (ncols : nat) : res (list (list V)) :=
  match loadtxt1 txt with
  | Err _ => Err NameError
  | Ok rows => n <- shape1 rows ;; if Nat.eqb n ncols then Ok rows else Err NameError
  end.
(** The header line (hawcstab2_ind_file.py:32-35): [e] is not defined where the error is raised, so it is a NameError *)
Definition header_line (txt : str) : res str :=
  match strip (hd [] (split_chr nl txt)) with
  | c :: h => if chr_eqb c (ch 35) then Ok (strip h) else Err NameError
  | [] => Err NameError
  end.
(** The pieces before a closing bracket (hawcstab2_ind_file.py:38, hawcstab2_pwr_file.py:36) *)
Definition num_and_cols (header : str) : list str := map (fun s => strip s ++ S_ "]") (removelast (split_chr (ch 93) header)).

(** ** Induction files *)
(** hawcstab2_ind_file.py:39-40 *)
Definition ind_col (col : str) : str :=
  let col := replace_ (S_ " ") (S_ "_") (strip (skipn 2 col)) in
  replace_ (S_ "__") (S_ "_") (replace_ (S_ "[") (S_ "_[") col).
Definition ind_cols (header : str) : list str := map ind_col (num_and_cols (S_ "00" ++ header)).
(** hawcstab2_ind_file.py:42-46 *)
Definition ind_type (n : nat) : res str := if Nat.eqb n 38 then Ok (S_ "ind") else if Nat.eqb n 14 then Ok (S_ "fext") else if Nat.eqb n 18 then Ok (S_ "defl") else Err WrongFormatError.
(** [filename.lower().split('_')[-1].rstrip('.ind').lstrip('u')] (hawcstab2_ind_file.py:60): rstrip and lstrip take sets of characters *)
Fixpoint lstrip_set (set s : str) : str := match s with c :: s' => if mem_chr c set then lstrip_set set s' else s | [] => [] end.
Definition rstrip_set (set s : str) : str := rev (lstrip_set set (rev s)).
Definition wsp_text (filename : str) : str := lstrip_set (S_ "u") (rstrip_set (S_ ".ind") (last (split_chr (ch 95) (lower filename)) [])).
Record ind := mk_ind { i_type : str; i_names : list str; i_data : list (list V); i_wsp : V }.
(** HAWCStab2IndFile._read (hawcstab2_ind_file.py:30-60); [milli] divides by 1000 *)
Variable milli : V -> V.
Definition read_ind (filename txt : str) : res ind :=
  h <- header_line txt ;;
  let cols := ind_cols h in
  t <- ind_type (List.length cols) ;;
  d <- table txt (List.length cols) ;;
  match num (wsp_text filename) with Some v => Ok (mk_ind t cols d (milli v)) | None => Err ValueError end.
(** _toDataFrame (hawcstab2_ind_file.py:62-66): the columns, the values and the name of the columns; [fmt] is the format 06.3f *)
Variable fmt : V -> str.
Definition ind_frame (o : ind) : list str * list (list V) * str := (i_names o, i_data o, i_type o ++ S_ " - ws=" ++ fmt (i_wsp o)).

(** ** Power files *)
(** [' '.join(col.split(' ')[1:])] and hawcstab2_pwr_file.py:37 *)
Definition pwr_col (col : str) : str := replace_ (S_ " ") (S_ "_") (strip (join [sp] (tl (split_chr sp col)))).
Definition pwr_cols (header : str) : list str := map pwr_col (num_and_cols (S_ "0 " ++ header)).
(** HAWCStab2PwrFile._read (hawcstab2_pwr_file.py:28-49); its data frame is the pair itself *)
Definition read_pwr (txt : str) : res (list str * list (list V)) :=
  h <- header_line txt ;;
  let cols := pwr_cols h in
  if Nat.eqb (List.length cols) 15 then d <- table txt (List.length cols) ;; Ok (cols, d) else Err WrongFormatError.

(** ** Campbell files (hawcstab2_cmb_file.py:19-36) *)
Definition numbered (c : string) (n : nat) : list str := map (fun i => S_ c ++ str_of_N (N.of_nat (S i))) (seq 0 n).
(** [nCols/nModes in [2,3]]: a true division *)
Definition ratio_is (nCols nModes k : Z) : bool := (nCols =? k * nModes)%Z.
Definition cmb_cols (nModes : Z) (nCols : nat) : res (list str) :=
  let n := Z.to_nat nModes in
  if (nModes =? 0)%Z then Err ZeroDivisionError else
  let r k := ratio_is (Z.of_nat nCols) nModes k in
  Ok (S_ "Wind_[m/s]" :: numbered "F" n ++ (if r 2%Z || r 3%Z then numbered "D" n else []) ++ (if r 3%Z then numbered "R" n else [])).
Definition read_cmb (file : list str) : res (list str * list (list (value V))) :=
  o <- csv_new None [] None [0] None false [] ;;
  f <- csv_read num o file ;;
  match c_header f, c_data f with
  | h :: _, Some (_, rows) =>
      match rev (split_ws h) with
      | [] => Err IndexError
      | w :: _ => n <- int_ w ;;
                  let ncol := List.length (hd [] rows) in
                  cols <- cmb_cols n (ncol - 1) ;;
                  if Nat.eqb (List.length cols) ncol then Ok (cols, rows) else Err ValueError
      end
  | _, _ => Err IndexError
  end.
End Text.
