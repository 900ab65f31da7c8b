(** Model of weio/turbsim_ts_file.py.
    SIMPLIFICATIONS: a double is a value of type [V], read by [num] (python's float) and written by [e16] (the format 16.8e);
    after an exception the object is not described; encodings and the translation of carriage returns are not modelled; the constructor and the guards of File.read
    are in File_Model. *)
From Verif Require Import Py FS TurbSim_Model.
Local Open Scope nat_scope.

Section TS.
Context {V : Type}.
Variable num : str -> option V.
Variable e16 : V -> str.

Record ts := mk_ts { t_header : list str; t_ncomp : Z; t_id : Z; t_points : list (list V); t_data : list (list V) }.

(** The lines of a text file, as the iteration gives them (without the newline) *)
Fixpoint drop_last_empty (ls : list str) : list str := match ls with [] => [] | [[]] => [] | l :: ls' => l :: drop_last_empty ls' end.
Definition file_lines (text : str) : list str := drop_last_empty (split_chr nl text).
(** [f.readline()]: an empty text at the end of the file *)
Definition readline (ls : list str) : str * list str := match ls with l :: r => (l, r) | [] => ([], []) end.
(** Does a text contain another one *)
Fixpoint contains (s t : str) : bool := startswith s t || match s with [] => false | _ :: s' => contains s' t end.
Definition first_int (l : str) : res Z := match split_ws l with w :: _ => int_ w | [] => Err IndexError end.
(** The loop of turbsim_ts_file.py:27-33: the header, the line where it stops (the last one if there is no nComp), and the
    lines after it *)
Fixpoint header_loop (i : nat) (acc : list str) (last : str) (ls : list str) : res (list str * str * list str) :=
  match ls with
  | [] => Ok (acc, last, [])
  | l :: r => if Nat.ltb 10 i then Err BrokenFormatError else
              if contains (lower l) (S_ "ncomp") then Ok (acc, l, r) else header_loop (S i) (acc ++ [strip l]) l r
  end.
Fixpoint floats (ws : list str) : res (list V) := match ws with [] => Ok [] | w :: ws' => match num w with Some v => vs <- floats ws' ;; Ok (v :: vs) | None => Err ValueError end end.
(** [self['Points'][i,:] = ...]: two numbers, or one that is repeated *)
Definition point_row (l : str) : res (list V) := vs <- floats (split_ws l) ;; match vs with [x; y] => Ok [x; y] | [x] => Ok [x; x] | _ => Err ValueError end.
Fixpoint read_points (n : nat) (ls : list str) : res (list (list V) * list str) :=
  match n with
  | O => Ok ([], ls)
  | S n' => let '(l, r) := readline ls in p <- point_row l ;; '(ps, r') <- read_points n' r ;; Ok (p :: ps, r')
  end.
Fixpoint takewhile_text (ls : list str) : list str := match ls with l :: r => if nonempty (strip l) then l :: takewhile_text r else [] | [] => [] end.
Fixpoint rows (ls : list str) : res (list (list V)) := match ls with [] => Ok [] | l :: r => x <- floats (split_ws l) ;; xs <- rows r ;; Ok (x :: xs) end.
(** A matrix needs rows of the same length *)
Definition matrix (ls : list str) : res (list (list V)) :=
  match ls with
  | [] => Ok []
  | l :: r => if forallb (fun x => Nat.eqb (List.length (split_ws x)) (List.length (split_ws l))) r then rows ls else Err ValueError
  end.
(** _read (turbsim_ts_file.py:21-50) *)
Definition ts_read (text : str) : res ts :=
  '(header, line, r0) <- header_loop 0 [] [] (file_lines text) ;;
  nComp <- first_int line ;;
  let '(l1, r1) := readline r0 in nPoints <- first_int l1 ;;
  let '(l2, r2) := readline r1 in id <- first_int l2 ;;
  let r4 := snd (readline (snd (readline r2))) in
  if (nPoints <? 0)%Z then Err ValueError else
  '(points, r5) <- read_points (Z.to_nat nPoints) r4 ;;
  let r8 := snd (readline (snd (readline (snd (readline r5))))) in
  data <- matrix (takewhile_text r8) ;;
  Ok (mk_ts header nComp id points data).

(** columns (turbsim_ts_file.py:52-54) and units (56-58) *)
Definition comp (ic : nat) : res str := match nth_error [S_ "u"; S_ "v"; S_ "w"] ic with Some c => Ok c | None => Err IndexError end.
Fixpoint mapM {A B} (g : A -> res B) (l : list A) : res (list B) := match l with [] => Ok [] | x :: l' => y <- g x ;; ys <- mapM g l' ;; Ok (y :: ys) end.
Definition columns (o : ts) : res (list str) :=
  cs <- mapM (fun p => c <- comp (fst p) ;; Ok (S_ "Point" ++ str_of_N (N.of_nat (S (snd p))) ++ c)) (list_prod (seq 0 (Z.to_nat (t_ncomp o))) (seq 0 (List.length (t_points o)))) ;;
  Ok (S_ "Time" :: cs).
Definition units (o : ts) : list str := S_ "(s)" :: repeat (S_ "(m/s)") (List.length (t_points o) * Z.to_nat (t_ncomp o)).
(** The formats 13s and ^16s *)
Definition pad13 (s : str) : str := s ++ repeat sp (13 - List.length s).
Definition center16 (s : str) : str := let n := 16 - List.length s in repeat sp (n / 2) ++ s ++ repeat sp (n - n / 2).
(** toStringVLD (turbsim_ts_file.py:62-69), with a description that neither starts nor ends with a blank or a dash *)
Definition vld (val : Z) (lab descr : str) : str := pad13 (str_of_Z val) ++ [sp] ++ pad13 lab ++ S_ " - " ++ descr ++ [nl].
Definition point_line (r : list V) : str := List.concat (map e16 r) ++ [nl].
(** toString (turbsim_ts_file.py:60-85) *)
Definition toString (o : ts) : res str :=
  cols <- columns o ;;
  Ok (join [nl] (t_header o) ++ [nl]
      ++ vld (t_ncomp o) (S_ "nComp") (S_ "Number of velocity components in the file")
      ++ vld (Z.of_nat (List.length (t_points o))) (S_ "nPoints") (S_ "Number of time series points contained in this file(-)")
      ++ vld (t_id o) (S_ "RefPtID") (S_ "Index of the reference point (1-nPoints)")
      ++ center16 (S_ "Pointyi") ++ center16 (S_ "Pointzi") ++ [sp] ++ S_ "! nPoints listed in order of increasing height" ++ [nl]
      ++ center16 (S_ "(m)") ++ center16 (S_ "(m)") ++ [nl]
      ++ flat_map point_line (t_points o)
      ++ S_ "--------Time Series-------------------------------------------------------------" ++ [nl]
      ++ flat_map center16 cols ++ [nl]
      ++ flat_map center16 (units o) ++ [nl]
      ++ join [nl] (map (fun r => List.concat (map e16 r)) (t_data o))).
(** _write (turbsim_ts_file.py:87-89): the file is opened first *)
Definition ts_write (f : fs) (p : str) (o : ts) : fs * res unit := write_file f p [match toString o with Ok s => Ok (map N_of_ascii s) | Err e => Err e end].
(** _toDataFrame (turbsim_ts_file.py:93-99), the table of the time series: labels and rows.  A different number of columns
    is a ValueError. *)
Definition brackets (u : str) : str := replace_chr (ch 41) [ch 93] (replace_chr (ch 40) [ch 91] u).
Definition series_table (o : ts) : res (list str * list (list V)) :=
  cols <- columns o ;;
  let labels := map (fun p => replace_chr sp [ch 95] (fst p) ++ [ch 95] ++ brackets (snd p)) (combine cols (units o)) in
  match t_data o with
  | [] => Ok (labels, [])
  | r :: _ => if Nat.eqb (List.length r) (List.length labels) then Ok (labels, t_data o) else Err ValueError
  end.
End TS.
Arguments ts : clear implicits.
