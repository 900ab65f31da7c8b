(** Model of weio/flex_wavekin_file.py: FLEX files of wave kinematics.
    SIMPLIFICATIONS: those of CSV_Model (the table) and FlexDoc_Model (the regular expression of the numbers, which is the same);
    a double is a value of type [V]; the product and the constant -1 are arguments, and so is the text with one decimal. *)
From Verif Require Import Py CSV_Model FlexDoc_Model.
Local Open Scope nat_scope.

Section WaveKin.
Context {V : Type}.
Variable num : str -> option V.
Variables (mul : V -> V -> V) (minus1 : V) (fmt1 : V -> str).

Record wavekin := mk_wk {
  w_header : list str; w_crest : V; w_vel : V; w_acc : V; w_depth : V; w_Hs : V; w_Tp : V; w_spec : V;
  w_rel : list V; w_displ : list V; w_cols : list str; w_data : list (list (CSV_Model.value V)) }.

Definition as_broken {A} (r : option A) : res A := match r with Some a => Ok a | None => Err BrokenFormatError end.
(** float(extract_floats(header[i])[0]) (flex_wavekin_file.py:43-45) *)
Definition first_number (l : str) : option V := match rx 0 l with w :: _ => num w | [] => None end.
(** int(extract_floats(header[i])[0]) (lines 55-56): int of a text *)
Definition first_int (l : str) : option Z := match rx 0 l with w :: _ => match int_ w with Ok z => Some z | Err _ => None end | [] => None end.
(** The labels (flex_wavekin_file.py:75-80) *)
Definition u_label (depth z x : V) : str := S_ "u_z=" ++ fmt1 (mul (mul z depth) minus1) ++ S_ "_x=" ++ fmt1 x ++ S_ "_[m/s]".
Definition a_label (depth z x : V) : str := S_ "a_z=" ++ fmt1 (mul z depth) ++ S_ "_x=" ++ fmt1 x ++ S_ "_[m/s^2]".
Definition labels (depth : V) (rel displ : list V) : list str :=
  [S_ "Time_[s]"; S_ "WaveElev_[m]"] ++ flat_map (fun x => map (fun z => u_label depth z x) rel ++ map (fun z => a_label depth z x) rel) displ.
(** CSVFile(filename, sep=' ', commentLines=list(np.arange(11)), detectColumnNames=False) (line 36), which also reads the file *)
Definition csv_of (file : list str) : res (csv V) := o <- csv_new (Some (Text [sp])) [] None (seq 0 11) None false [] ;; csv_read num o file.
(** FLEXWaveKinFile._read (flex_wavekin_file.py:26-84).  After CSVFile the header has 11 lines. *)
Definition read (file : list str) : res wavekin :=
  match csv_of file with
  | Err _ => Err WrongFormatError
  | Ok c =>
    let h i := nth i (c_header c) [] in
    match c_data c with
    | None => Err WrongFormatError
    | Some (_, data) =>
      crest <- as_broken (first_number (h 2)) ;;
      vel <- as_broken (first_number (h 3)) ;;
      acc <- as_broken (first_number (h 4)) ;;
      dat <- as_broken (FlexDoc_Model.floats num (rx 0 (h 5))) ;;
      match dat with
      | depth :: hs :: tp :: spec :: _ =>
        nd <- as_broken (first_int (h 6)) ;;
        nr <- as_broken (first_int (h 8)) ;;
        displ <- as_broken (FlexDoc_Model.floats num (rx 0 (h 7))) ;;
        rel <- as_broken (FlexDoc_Model.floats num (rx 0 (h 9))) ;;
        if negb (Z.of_nat (List.length displ) =? nd)%Z then Err BrokenFormatError else
        if negb (Z.of_nat (List.length rel) =? nr)%Z then Err BrokenFormatError else
        let cols := labels depth rel displ in
        if negb (Nat.eqb (List.length cols) (List.length (hd [] data))) then Err BrokenFormatError else
        Ok (mk_wk (firstn 2 (c_header c)) crest vel acc depth hs tp spec rel displ cols data)
      | _ => Err BrokenFormatError
      end
    end
  end.
End WaveKin.
Arguments wavekin : clear implicits.
