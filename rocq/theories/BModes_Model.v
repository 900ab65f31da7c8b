(** Model of weio/bmodes_out_file.py: output files of BModes.
    SIMPLIFICATIONS: the file is the list of its lines, without line breaks; a double is a value of type [V] read by [num] (python's float,
    which ignores blanks around the number). *)
From Verif Require Import Py H2dat_Model.
Local Open Scope nat_scope.

Section BModes.
Context {V : Type}.
Variable num : str -> option V.

Record bmodes := mk_bmodes { frequencies : list V; mode_shapes : list (list (list V)) }.
Fixpoint floats (ws : list str) : res (list V) := match ws with [] => Ok [] | w :: ws' => match num w with Some v => vs <- floats ws' ;; Ok (v :: vs) | None => Err ValueError end end.
Fixpoint all_floats (rows : list (list str)) : res (list (list V)) := match rows with [] => Ok [] | r :: rs => x <- floats r ;; xs <- all_floats rs ;; Ok (x :: xs) end.
(** np.asarray(data).astype(float) (bmodes_out_file.py:97): rows of different lengths are no array *)
Definition as_array (data : list (list str)) : res (list (list V)) :=
  match data with
  | [] => Ok []
  | r :: rs => if forallb (fun x => Nat.eqb (List.length x) (List.length r)) rs then all_floats data else Err ValueError
  end.
(** The two loops of _read (bmodes_out_file.py:80-97) as one pass over the lines: looking for a frequency, skipping the three lines after
    it ([Skip k]: k lines to go), collecting the rows of the mode.  At the end of the file readline gives an empty text: the mode that is
    being read ends. *)
Inductive state := Look | Skip (k : nat) | Rows (data : list (list str)).
Definition ends_rows (l : str) : bool := Nat.eqb (List.length (strip l)) 0 || startswith l (S_ "===").
Fixpoint scan (st : state) (o : bmodes) (lines : list str) : res bmodes :=
  match lines with
  | [] => match st with
          | Look => Ok o
          | Skip _ => Ok (mk_bmodes (frequencies o) (mode_shapes o ++ [[]]))
          | Rows data => m <- as_array data ;; Ok (mk_bmodes (frequencies o) (mode_shapes o ++ [m]))
          end
  | l :: rest =>
    match st with
    | Look => match find_str (S_ "freq = ") l with
              | Some (S i) => match num (firstn 12 (skipn (S i + 7) l)) with
                              | Some v => scan (Skip 3) (mk_bmodes (frequencies o ++ [v]) (mode_shapes o)) rest
                              | None => Err ValueError
                              end
              | _ => scan Look o rest
              end
    | Skip (S (S k)) => scan (Skip (S k)) o rest
    | Skip _ => scan (Rows []) o rest
    | Rows data => if ends_rows l then m <- as_array data ;; scan Look (mk_bmodes (frequencies o) (mode_shapes o ++ [m])) rest
                   else scan (Rows (data ++ [split_ws l])) o rest
    end
  end.
(** read and _read (bmodes_out_file.py:48-97).  The exception for empty files is not imported in this module (line 9). *)
Definition read (file : list str) : res bmodes :=
  match file with
  | [] => Err NameError
  | first :: rest => if contains first (S_ "BModes") then scan Look (mk_bmodes [] []) rest else Err WrongFormatError
  end.
(** toDataFrame (bmodes_out_file.py:106-112): a table without six columns does not fit the names *)
Definition names : list str := map S_ ["span_loc"; "s-s disp"; "s-s slope"; "f-a disp"; "f-a slope"; "twist"]%string.
Definition frame (m : list (list V)) : res (list str * list (list V)) := match m with r :: _ => if Nat.eqb (List.length r) 6 then Ok (names, m) else Err ValueError | [] => Err ValueError end.
Fixpoint frames (i : nat) (ms : list (list (list V))) : res (list (str * (list str * list (list V)))) :=
  match ms with [] => Ok [] | m :: ms' => f <- frame m ;; fs <- frames (S i) ms' ;; Ok ((S_ "Mode_" ++ str_of_N (N.of_nat (i + 1)), f) :: fs) end.
Definition toDataFrame (o : bmodes) := frames 0 (mode_shapes o).
End BModes.
Arguments bmodes : clear implicits.
