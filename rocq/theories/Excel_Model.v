(** Model of weio/excel_file.py: workbooks, read and written through pandas.
    SIMPLIFICATIONS: the workbook is what the spreadsheet libraries give and take: its sheets in order, each with a name and a rectangle
    of cells.  A cell is a value of type [V]; an empty cell is [None].  Formats, types of columns, dates and the limits of the
    spreadsheet libraries on the names of sheets are not modelled; [frame] is a table of pandas, whose missing values are [None].
    [missing v]: pandas takes the value for a missing one on reading (texts such as NA or nan). *)
From Verif Require Import Py Dict.
Local Open Scope nat_scope.

Section Excel.
Context {V : Type}.
Variable missing : V -> bool.
Notation cell := (option V).

Record sheet := mk_sheet { s_name : str; s_cells : list (list cell) }.
(** The names of the columns of a table may be missing too *)
Record frame := mk_frame { columns : list cell; rows : list (list cell) }.
Definition is_empty (c : cell) : bool := match c with None => true | Some _ => false end.
(** xls.parse(sheet_name, header=None) (excel_file.py:35) *)
Definition parse (cells : list (list cell)) : list (list cell) := map (map (fun c => match c with Some v => if missing v then None else Some v | None => None end)) cells.
(** df.dropna(how='all', axis=0) (excel_file.py:38) *)
Definition drop_rows (m : list (list cell)) : list (list cell) := filter (fun r => negb (forallb is_empty r)) m.
(** df.dropna(how='all', axis=1) (excel_file.py:39): the columns with a value are kept *)
Definition column_used (m : list (list cell)) (j : nat) : bool := existsb (fun r => negb (is_empty (nth j r None))) m.
Definition width (m : list (list cell)) : nat := match m with [] => 0 | r :: _ => List.length r end.
Definition drop_columns (m : list (list cell)) : list (list cell) := let keep := filter (column_used m) (seq 0 (width m)) in map (fun r => map (fun j => nth j r None) keep) m.
(** The first row is the header (excel_file.py:41-43); a sheet without rows gives no table *)
Definition table (cells : list (list cell)) : option frame := match drop_columns (drop_rows (parse cells)) with [] => None | h :: m => Some (mk_frame h m) end.
(** The loop over the sheets (excel_file.py:33-45); self.data is a dictionary *)
Fixpoint read (book : list sheet) (data : @dict frame) : @dict frame :=
  match book with
  | [] => data
  | s :: book' => read book' (match table (s_cells s) with Some d => put data (s_name s) d | None => data end)
  end.
(** df.to_excel(writer, sheet_name=k, index=False) (excel_file.py:54-56): the names of the columns, then the rows; a missing value is an
    empty cell.  A table without columns gives an empty sheet. *)
Definition to_excel (k : str) (d : frame) : sheet := mk_sheet k (if nonempty (columns d) then columns d :: rows d else []).
Definition write (data : @dict frame) : list sheet := map (fun e => to_excel (fst e) (snd e)) data.
End Excel.
Arguments sheet : clear implicits. Arguments frame : clear implicits.
