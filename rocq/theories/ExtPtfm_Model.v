(** Model of the superelement files of ExtPtfm (weio/fast_input_file.py:1654-1815): detection, reader, checks, writer, data frame.
    SIMPLIFICATIONS: the lines of the file are given; numbers are of a type [V], with [num] for the conversion of a text (None: it
    is not a number), [ofz] for whole numbers, [steps T dt] for int(T/dt) (None: it raises), and [fmt] and [fexp] for the formats of
    a number; a value is a whole number, a number or a matrix; opening the file for writing succeeds or raises. *)
From Verif Require Import Py FASTIn_Model.
From Verif Require Import Dict.
Local Open Scope nat_scope.

Section Ext.
Context {V : Type}.
Variable num : str -> option V.
Variable ofz : Z -> V.
Variable steps : V -> V -> option Z.

Inductive evalue := EInt (z : Z) | ENum (v : V) | EMat (rows : list (list V)).
Definition data := @dict evalue.
(** [readmat] (fast_input_file.py:1659-1664); a line of one number fills the row *)
Fixpoint floats (ws : list str) : res (list V) :=
  match ws with [] => Ok [] | w :: ws' => match num w with Some v => vs <- floats ws' ;; Ok (v :: vs) | None => Err ValueError end end.
Definition row_of (m : nat) (l : str) : res (list V) :=
  vs <- floats (split_ws l) ;;
  if List.length vs =? m then Ok vs else match vs with [v] => Ok (repeat v m) | _ => Err ValueError end.
Fixpoint rows_of (n m : nat) (lines : list str) : res (list (list V)) :=
  match n with
  | O => Ok []
  | S n' => match lines with [] => Err IndexError | l :: lines' => r <- row_of m l ;; rs <- rows_of n' m lines' ;; Ok (r :: rs) end
  end.
(** [np.zeros((n,m))] refuses negative sizes *)
Definition readmat (n m : Z) (lines : list str) : res (list (list V)) :=
  if (n <? 0)%Z || (m <? 0)%Z then Err ValueError else rows_of (Z.to_nat n) (Z.to_nat m) lines.
(** [l.split(':')[1]] *)
Definition field (l : str) : res str := match split_chr (ch 58) l with _ :: s :: _ => Ok s | _ => Err IndexError end.

(** The state of the loop: the data and nDOFCommon (fast_input_file.py:1675) *)
Definition state := (data * Z)%type.
(** A matrix (fast_input_file.py:1680-1700): the state and the number of lines to skip *)
Definition matrix (key : string) (st : state) (rest : list str) : state * res nat :=
  let '(d, common) := st in
  match rest with
  | [] => (st, Err IndexError)
  | h :: rows =>
      match s <- field h ;; int_ s with
      | Err e => (st, Err e)
      | Ok n => if (n <? -1)%Z || negb (n =? common)%Z then (st, Err BrokenFormatError)
                else match readmat n n rows with
                     | Err e => (st, Err e)
                     | Ok M => ((put d (S_ key) (EMat M), common), Ok (1 + Z.to_nat n))
                     end
      end
  end.
(** [int(self['T']/self['dt'])+1] (fast_input_file.py:1702-1705) *)
Definition number (d : data) (k : string) : option V :=
  match get d (S_ k) with Some (EInt z) => Some (ofz z) | Some (ENum v) => Some v | _ => None end.
Definition samples (d : data) : option Z :=
  match number d "T", number d "dt" with Some t, Some dt => option_map (fun z => (z + 1)%Z) (steps t dt) | _, _ => None end.
Definition loading (st : state) (rest : list str) : state * res nat :=
  let '(d, common) := st in
  match samples d with
  | None => (st, Err BrokenFormatError)
  | Some nt => match readmat nt (common + 1) (tl rest) with
               | Err e => (st, Err e)
               | Ok M => ((put d (S_ "Loading") (EMat M), common), Ok (1 + Z.to_nat nt))
               end
  end.
Definition set_num (key : string) (st : state) (l : str) : state * res nat :=
  let '(d, common) := st in
  match field l with
  | Err e => (st, Err e)
  | Ok s => match num s with None => (st, Err ValueError) | Some v => ((put d (S_ key) (ENum v), common), Ok 0) end
  end.
(** One turn of the loop (fast_input_file.py:1678-1722) *)
Definition turn (st : state) (l0 : str) (rest : list str) : state * res nat :=
  let l := lower l0 in
  if startswith l (S_ "!mass") then matrix "MassMatrix" st rest
  else if startswith l (S_ "!stiffness") then matrix "StiffnessMatrix" st rest
  else if startswith l (S_ "!damping") then matrix "DampingMatrix" st rest
  else if startswith l (S_ "!loading") then loading st rest
  else match l with
       | [] => (st, Ok 0)
       | c :: _ =>
           if chr_eqb c (ch 33) then
             if startswith l (S_ "!dimension") then
               match s <- field l ;; int_ s with Err e => (st, Err e) | Ok n => ((put (fst st) (S_ "nDOF") (EInt n), n), Ok 0) end
             else if startswith l (S_ "!time increment") then set_num "dt" st l
             else if startswith l (S_ "!total simulation time") then set_num "T" st l
             else (st, Ok 0)
           else if nonempty (strip l) then (st, Err BrokenFormatError) else (st, Ok 0)
       end.
Fixpoint eloop (skip : nat) (st : state) (lines : list str) {struct lines} : data * res unit :=
  match lines with
  | [] => (fst st, Ok tt)
  | l :: rest =>
      match skip with
      | S k => eloop k st rest
      | O => match turn st l rest with (st', Err e) => (fst st', Err e) | (st', Ok k) => eloop k st' rest end
      end
  end.
(** [detectAndReadExtPtfmSE] (fast_input_file.py:1657-1730): the data it leaves, and whether the file has the format *)
Definition read_ext (d : data) (lines : list str) : data * res bool :=
  if first_char_error lines then (d, Err IndexError)
  else if extptfm lines then match eloop 0 (d, (-1)%Z) (skipn 2 lines) with (d', Ok _) => (d', Ok true) | (d', Err e) => (d', Err e) end
  else (d, Ok false).
(** [ExtPtfmFile._read] (fast_input_file.py:1751-1754): the answer is ignored, and the data are not reset *)
Definition read_class (d : data) (lines : list str) : data * res unit :=
  match read_ext d lines with (d', Ok _) => (d', Ok tt) | (d', Err e) => (d', Err e) end.

(** [toString] (fast_input_file.py:1756-1780) *)
Variables fmt fexp : V -> str.
Definition item_ (d : data) (k : string) : res evalue := match get d (S_ k) with Some v => Ok v | None => Err KeyError end.
Definition shown (d : data) (k : string) : res str :=
  v <- item_ d k ;; match v with EInt z => Ok (str_of_Z z) | ENum v => Ok (fmt v) | EMat _ => Err Unmodelled end.
Definition mat_text (d : data) (k : string) : res str :=
  v <- item_ d k ;; match v with EMat rows => Ok (join [nl] (map (fun r => concat (map fexp r)) rows)) | _ => Err TypeError end.
Definition to_text (d : data) : res str :=
  n <- shown d "nDOF" ;; dt <- shown d "dt" ;; t <- shown d "T" ;;
  m <- mat_text d "MassMatrix" ;; k <- mat_text d "StiffnessMatrix" ;; c <- mat_text d "DampingMatrix" ;; l <- mat_text d "Loading" ;;
  Ok (S_ "!Comment" ++ [nl] ++ S_ "!Comment Flex 5 Format" ++ [nl] ++ S_ "!Dimension: " ++ n ++ [nl]
      ++ S_ "!Time increment in simulation: " ++ dt ++ [nl] ++ S_ "!Total simulation time in file: " ++ t ++ [nl]
      ++ [nl] ++ S_ "!Mass Matrix" ++ [nl] ++ S_ "!Dimension: " ++ n ++ [nl] ++ m
      ++ [nl] ++ [nl] ++ S_ "!Stiffness Matrix" ++ [nl] ++ S_ "!Dimension: " ++ n ++ [nl] ++ k
      ++ [nl] ++ [nl] ++ S_ "!Damping Matrix" ++ [nl] ++ S_ "!Dimension: " ++ n ++ [nl] ++ c
      ++ [nl] ++ [nl] ++ S_ "!Loading and Wave Elevation" ++ [nl] ++ S_ "!Dimension: 1 time column -  " ++ n ++ S_ " force columns" ++ [nl] ++ l).
(** The checks before writing (fast_input_file.py:1782-1791) *)
Definition shape (rows : list (list V)) : nat * nat := (List.length rows, match rows with r :: _ => List.length r | [] => 0 end).
Definition check_rows (d : data) (k : string) : res unit :=
  v <- item_ d k ;;
  match v with
  | EMat rows => n <- item_ d "nDOF" ;; match n with EInt z => if (Z.of_nat (fst (shape rows)) =? z)%Z then Ok tt else Err AssertionError | _ => Err Unmodelled end
  | _ => Err AttributeError
  end.
Definition check_square (d : data) (k : string) : res unit :=
  v <- item_ d k ;; match v with EMat rows => if fst (shape rows) =? snd (shape rows) then Ok tt else Err AssertionError | _ => Err AttributeError end.
Definition checks (d : data) : res unit :=
  _ <- check_rows d "MassMatrix" ;; _ <- check_rows d "StiffnessMatrix" ;; _ <- check_rows d "DampingMatrix" ;;
  _ <- check_square d "MassMatrix" ;; _ <- check_square d "StiffnessMatrix" ;; check_square d "DampingMatrix".
(** [_write] (fast_input_file.py:748-751): the content of the file afterwards ([None]: as it was) and the result *)
Definition write_ext (can_open : bool) (d : data) : option str * res unit :=
  match checks d with
  | Err e => (None, Err e)
  | Ok _ => if can_open then match to_text d with Ok t => (Some t, Ok tt) | Err e => (Some [], Err e) end else (None, Err OSError2)
  end.
(** The prototype (fast_input_file.py:1739-1748) *)
Definition prototype : data :=
  [(S_ "nDOF", EInt 0); (S_ "dt", EInt 1); (S_ "T", EInt 0); (S_ "MassMatrix", EMat []); (S_ "StiffnessMatrix", EMat []); (S_ "DampingMatrix", EMat []); (S_ "Loading", EMat [])].
(** [_toDataFrame] (fast_input_file.py:1793-1800): the names of the columns *)
Definition FORCES : list string := ["Time_[s]"; "InpF_Fx_[N]"; "InpF_Fy_[N]"; "InpF_Fz_[N]"; "InpF_Mx_[Nm]"; "InpF_My_[Nm]"; "InpF_Mz_[Nm]"]%string.
Definition pad3 (s : str) : str := repeat (ch 48) (3 - List.length s) ++ s.
Definition load_columns (n : nat) : list str :=
  firstn (n + 1) (map S_ FORCES ++ map (fun i => S_ "CBF_" ++ pad3 (str_of_N (N.of_nat (i + 1))) ++ S_ "_[-]") (seq 0 n)).
Definition load_frame (d : data) : res (list str * list (list V)) :=
  n <- item_ d "nDOF" ;; l <- item_ d "Loading" ;;
  match n, l with
  | EInt z, EMat rows =>
      if (z <? 0)%Z then Err Unmodelled
      else let cols := load_columns (Z.to_nat z) in
           match rows with
           | [] => Err Unmodelled
           | r :: _ => if List.length r =? List.length cols then Ok (cols, rows) else Err ValueError
           end
  | _, _ => Err Unmodelled
  end.
End Ext.
Arguments evalue : clear implicits.
Arguments data : clear implicits.
