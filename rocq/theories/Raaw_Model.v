(** Model of weio/raawmat_file.py: RAAW measurement files.  scipy.io.loadmat is a parameter: it gives the cells of the entry DataCell, of which
    the name, the sampling period, the date and the samples are used.  Numbers are exact rationals (numpy.arange in floating point is not
    modelled), dates are milliseconds, and the reading of a date from its text (pandas.to_datetime) is a parameter.
    Signals of one sample (which numpy.squeeze turns into a number) are not modelled. *)
From Verif Require Import Py FS File_Model.
From Coq Require Import QArith.
Local Open Scope nat_scope.

Record signal := mk_signal { g_name : str; g_period : Q; g_date : list Z; g_samples : list Q }.
Record frame := mk_frame { f_index : list Z; f_cols : list (str * list (option Q)) }.
(** periods=30000 and periods=600 (raawmat_file.py:62-63) *)
Definition n50 : nat := N.to_nat 30000.
Definition n1 : nat := N.to_nat 600.
(** np.arange(600, step) (raawmat_file.py:32-33) *)
Definition clock (n : nat) (step : Q) : list Q := map (fun i => inject_Z (Z.of_nat i) * step)%Q (seq 0 n).
(** The loop (raawmat_file.py:40-50) *)
Fixpoint sort_signals (l : list signal) (a50 a1 : list (str * list Q)) : list (str * list Q) * list (str * list Q) :=
  match l with
  | [] => (a50, a1)
  | s :: l' =>
      if Qeq_bool (g_period s) (2 # 100) then sort_signals l' (a50 ++ [(g_name s, g_samples s)]) a1
      else if Qeq_bool (g_period s) 1 then sort_signals l' a50 (a1 ++ [(g_name s, g_samples s)])
      else sort_signals l' a50 a1
  end.
(** pd.DataFrame(list of arrays).T: as many rows as the longest, the others completed with NaN *)
Definition longest (l : list (str * list Q)) : nat := fold_right (fun c n => Nat.max (List.length (snd c)) n) 0 l.
Definition complete (n : nat) (x : list Q) : list (option Q) := map Some x ++ repeat None (n - List.length x).
(** The data frame and its index (raawmat_file.py:99-105) *)
Definition the_frame (cols : list (str * list Q)) (index : list Z) : res frame :=
  let n := longest cols in
  if List.length index =? n then Ok (mk_frame index (map (fun c => (fst c, complete n (snd c))) cols)) else Err ValueError.
(** The text of the date (raawmat_file.py:58-59): numpy.array2string of integers without blanks and brackets *)
Definition date_text (d : list Z) : str := join (S_ ",") (map str_of_Z d).
(** pd.date_range (raawmat_file.py:62-63) *)
Definition date_range (t0 step : Z) (n : nat) : list Z := map (fun i => (t0 + Z.of_nat i * step)%Z) (seq 0 n).
Section Mat.
Variable to_datetime : str -> res Z.
(** matfile(path, output='pandas') without a list of channels (raawmat_file.py:7-113) *)
Definition matfile (l : list signal) : res (list (str * frame)) :=
  if existsb (fun s => List.length (g_samples s) =? 1) l then Err Unmodelled else
  let '(c50, c1) := sort_signals l [(S_ "time", clock n50 (2 # 100))] [(S_ "time", clock n1 1)] in
  match rev l with
  | [] => Err UnboundLocalError
  | last :: _ =>
      t0 <- to_datetime (date_text (g_date last)) ;;
      d50 <- the_frame c50 (date_range t0 20 n50) ;;
      d1 <- the_frame c1 (date_range t0 1000 n1) ;;
      Ok [(S_ "data50hz", d50); (S_ "data1hz", d1)]
  end.

(** ** The class (raawmat_file.py:123-185) *)
Variable loadmat : list N -> res (list signal).
Record raaw := mk_raaw { r_filename : option str; r_data : option (list (str * frame)) }.
Definition remember_name (o : raaw) (arg : option str) : raaw := if truthy arg then mk_raaw arg (r_data o) else o.
(** EmptyFileError is not imported: its use raises NameError *)
Definition raaw_read (f : fs) (o : raaw) (arg : option str) : raaw * res unit :=
  let o := remember_name o arg in
  match r_filename o with
  | None | Some [] => (o, Err PlainException)
  | Some name =>
      match f name with
      | Missing | Dir => (o, Err OSError2)
      | Reg [] => (o, Err NameError)
      | Reg b => match (l <- loadmat b ;; matfile l) with Ok d => (mk_raaw (r_filename o) (Some d), Ok tt) | Err e => (o, Err e) end
      end
  end.
Definition raaw_write (f : fs) (o : raaw) (arg : option str) : fs * raaw * res unit :=
  let o := remember_name o arg in
  match r_filename o with None | Some [] => (f, o, Err PlainException) | Some _ => (f, o, Err NotImplementedError) end.
Definition raaw_frames (o : raaw) : res (list (str * frame)) := match r_data o with Some d => Ok d | None => Err KeyError end.
End Mat.
