(** Model of weio/rosco_performance_file.py: tables of rotor performance.
    SIMPLIFICATIONS: a double is a value of type [V], read by [num] (python's float) and written by [g4] (the format 0.4), [f6]
    (0:.6f) and [f2] (.2f); encodings and carriage returns are not modelled. *)
From Verif Require Import Py FS TurbSim_Model TS_Model.
Local Open Scope nat_scope.

Section Rosco.
Context {V : Type}.
Variable num : str -> option V.
Variables g4 f6 f2 : V -> str.

(** The local variables of load_from_txt; None: not yet assigned (pitch, TSR, WS start as python's None) *)
Record loc := mk_loc { v_pitch : option (list V); v_tsr : option (list V); v_ws : option (list V); v_cp : option (list (list V)); v_ct : option (list (list V)); v_cq : option (list (list V)) }.
Definition loc0 : loc := mk_loc None None None None None None.
(** A row of a table (rosco_performance_file.py:157): as many numbers as pitch angles, or one that is repeated *)
Definition table_row (n : nat) (l : str) : res (list V) :=
  vs <- floats num (split_ws l) ;; if Nat.eqb (List.length vs) n then Ok vs else match vs with [v] => Ok (repeat v n) | _ => Err ValueError end.
Fixpoint table_rows (k n : nat) (ls : list str) : res (list (list V) * list str) :=
  match k with
  | O => Ok ([], ls)
  | S k' => let '(l, r) := readline ls in x <- table_row n l ;; '(xs, r') <- table_rows k' n r ;; Ok (x :: xs, r')
  end.
(** A table (rosco_performance_file.py:154-157): one line is skipped; len(None) is a TypeError *)
Definition table (v : loc) (ls : list str) : res (list (list V) * list str) :=
  match v_tsr v, v_pitch v with
  | Some tsr, Some pitch => table_rows (List.length tsr) (List.length pitch) (snd (readline ls))
  | _, _ => Err TypeError
  end.
(** One turn of the loop (rosco_performance_file.py:139-171), for a line and the lines after it *)
Definition step (v : loc) (line : str) (ls : list str) : res (loc * list str) :=
  let vector := floats num (split_ws (fst (readline ls))) in
  let after := snd (readline ls) in
  if contains line (S_ "Pitch angle") then x <- vector ;; Ok (mk_loc (Some x) (v_tsr v) (v_ws v) (v_cp v) (v_ct v) (v_cq v), after) else
  if contains line (S_ "TSR") then x <- vector ;; Ok (mk_loc (v_pitch v) (Some x) (v_ws v) (v_cp v) (v_ct v) (v_cq v), after) else
  if contains line (S_ "Wind speed") then x <- vector ;; Ok (mk_loc (v_pitch v) (v_tsr v) (Some x) (v_cp v) (v_ct v) (v_cq v), after) else
  if contains line (S_ "Power") then '(x, r) <- table v ls ;; Ok (mk_loc (v_pitch v) (v_tsr v) (v_ws v) (Some x) (v_ct v) (v_cq v), r) else
  if contains line (S_ "Thrust") then '(x, r) <- table v ls ;; Ok (mk_loc (v_pitch v) (v_tsr v) (v_ws v) (v_cp v) (Some x) (v_cq v), r) else
  if contains line (S_ "Torque") then '(x, r) <- table v ls ;; Ok (mk_loc (v_pitch v) (v_tsr v) (v_ws v) (v_cp v) (v_ct v) (Some x), r) else
  Ok (v, ls).
(** The loop.  [fuel]: every turn consumes a line. *)
Fixpoint loop (fuel iline : nat) (v : loc) (ls : list str) : res loc :=
  match ls with
  | [] => Ok v
  | line :: r =>
      match fuel with
      | O => Err OutOfFuel
      | S fuel' =>
          '(v', r') <- step v line r ;;
          if match v_pitch v' with None => Nat.ltb 10 iline | Some _ => false end then Err WrongFormatError else loop fuel' (S iline) v' r'
      end
  end.
(** What the object contains after _read (rosco_performance_file.py:72-82) *)
Record rosco := mk_rosco { r_pitch : option (list V); r_tsr : option (list V); r_ws : option (list V); r_cp : list (list V); r_ct : list (list V); r_cq : list (list V) }.
(** load_from_txt (rosco_performance_file.py:120-173): a table that is missing is an undefined variable *)
Definition rosco_load (text : str) : res rosco :=
  let ls := file_lines text in
  v <- loop (List.length ls) 0 loc0 ls ;;
  match v_cp v, v_ct v, v_cq v with
  | Some cp, Some ct, Some cq => Ok (mk_rosco (v_pitch v) (v_tsr v) (v_ws v) cp ct cq)
  | _, _, _ => Err UnboundLocalError
  end.
(** read (rosco_performance_file.py:47-61) of a file that is there: EmptyFileError is not imported by this module *)
Definition rosco_read (f : fs) (p : str) (text_of : bytes -> str) : res rosco :=
  match f p with
  | Missing | Dir => Err OSError2
  | Reg [] => Err NameError
  | Reg b => rosco_load (text_of b)
  end.

(** toDataFrame (rosco_performance_file.py:88-95): names of the columns and rows of one of the tables *)
Definition rosco_columns (pitch : list V) : list str := S_ "TSR_[-]" :: map (fun p => S_ "Pitch_" ++ f2 p ++ S_ "_[deg]") pitch.
Definition stack (tsr : list V) (m : list (list V)) : res (list (list V)) :=
  if Nat.eqb (List.length tsr) (List.length m) then Ok (map (fun q => fst q :: snd q) (combine tsr m)) else Err ValueError.
Definition rosco_tables (o : rosco) : res (list str * list (str * list (list V))) :=
  match r_pitch o, r_tsr o with
  | Some pitch, Some tsr =>
      cp <- stack tsr (r_cp o) ;; ct <- stack tsr (r_ct o) ;; cq <- stack tsr (r_cq o) ;;
      Ok (rosco_columns pitch, [(S_ "CP", cp); (S_ "CT", ct); (S_ "CQ", cq)])
  | _, _ => Err TypeError
  end.

(** write_rotor_performance (rosco_performance_file.py:176-229): the file is opened, the first line is written, and the second
    line needs the name [now], which is not defined *)
Definition first_header : str := S_ "# ----- Rotor performance tables for the  wind turbine ----- " ++ [nl].
Definition rosco_write (f : fs) (p : str) (o : rosco) : fs * res unit := write_file f p [Ok (map N_of_ascii first_header); Err NameError].
End Rosco.
Arguments rosco : clear implicits.
Arguments loc : clear implicits.
