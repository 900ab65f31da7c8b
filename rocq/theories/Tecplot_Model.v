(** Model of weio/tecplot_file.py: reading and writing Tecplot ASCII files.
    SIMPLIFICATIONS: the text of a file has no carriage returns and only ASCII characters; numbers are values of a type [V];
    float() on a word, the text of a row (np.array2string) and the text of a dictionary (str) are function arguments. *)
From Verif Require Import Py FS TurbSim_Model Dict.
Local Open Scope nat_scope.
Local Notation get := Dict.get.

Section Tecplot.
Context {V : Type}.
Variable num : str -> option V.              (* float(w); None: ValueError *)
Variable row_text : list V -> str.           (* np.array2string(row, ...)[1:-1] *)

Inductive aux := AuxNum (v : V) | AuxText (s : str).
(** A value of the TecplotFile dictionary *)
Inductive tv := Text (s : str) | Vars (l : list str) | Aux (d : @dict aux) | Data (m : list (list V)).
Notation tdict := (@dict tv).
Variable aux_text : @dict aux -> str.        (* '{}'.format(d) *)

(** tecplot_file.py:24 *)
Definition keywords : list str := [S_ "title"; S_ "variables"; S_ "zone"; S_ "text"; S_ "geometry"; S_ "datasetauxdata"; S_ "customlabels"; S_ "varauxdata"].
(** [s.replace(pat, rep)] for a non-empty pattern; [skip] characters belong to an occurrence already replaced *)
Fixpoint repl (pat rep : str) (skip : nat) (s : str) : str :=
  match s with
  | [] => []
  | c :: s' => match skip with
               | S k => repl pat rep k s'
               | O => if startswith s pat then rep ++ repl pat rep (List.length pat - 1) s' else c :: repl pat rep 0 s'
               end
  end.
Definition replace_ (pat rep s : str) : str := repl pat rep 0 s.
Definition quote2 : ascii := ch 34.

(** is_number (tecplot_file.py:28-41); unicode numerals are not modelled. *)
Definition is_number (s : str) : bool := match num s with Some _ => true | None => false end.
(** The names of the variables (tecplot_file.py:49-60) *)
Definition split_variables (line : str) : list str :=
  let line := strip (replace_chr (ch 61) [] line) in
  let line := strip (replace_chr (ch 44) [sp] line) in
  let line := strip (replace_ [sp; sp] [sp] line) in
  let line := strip (replace_chr (ch 91) (S_ "_[") line) in
  let line := strip (replace_chr (ch 40) (S_ "_(") line) in
  let line := strip (replace_ (S_ "__") (S_ "_") line) in
  if startswith line [quote2] then split_chr (ch 44) (replace_chr quote2 [] (replace_ [quote2; sp; quote2] (S_ ",") line))
  else split_ws line.
(** An entry of a zone or of auxiliary data (tecplot_file.py:62-81) *)
Definition aux_entry (d : tdict) (section line : str) : res tdict :=
  match split_chr (ch 61) line with
  | key :: v :: _ =>
    let value := strip (replace_chr quote2 [] v) in
    let val := match num value with Some x => AuxNum x | None => AuxText value end in
    match get d section with
    | None => Ok (put d section (Aux (put [] key val)))
    | Some (Aux a) => Ok (put d section (Aux (put a key val)))
    | Some _ => Err TypeError
    end
  | _ => Err IndexError
  end.
(** _process_merged_line (tecplot_file.py:44-86).  On an error the empty dictionary that was put for a new zone is not
    modelled. *)
Definition process (d : tdict) (merged section : str) : res tdict :=
  let line := strip (skipn (List.length section) merged) in
  if str_eqb section (S_ "title") then Ok (put d section (Text line))
  else if str_eqb section (S_ "variables") then Ok (put d section (Vars (split_variables line)))
  else if str_eqb section (S_ "datasetauxdata") || str_eqb section (S_ "zone") then aux_entry d section line
  else Ok (put d section (Text line)).

(** [np.loadtxt] on the lines of the table: comments and blank lines are skipped, the rows have the same length; an
    array with one row or one column has one dimension only, so that M.shape[1] raises. *)
Definition before_comment (l : str) : str := match split_chr (ch 35) l with w :: _ => w | [] => [] end.
Fixpoint numbers (ws : list str) : option (list V) := match ws with [] => Some [] | w :: ws' => match num w, numbers ws' with Some x, Some xs => Some (x :: xs) | _, _ => None end end.
Fixpoint all_rows (ls : list (list str)) : option (list (list V)) := match ls with [] => Some [] | l :: ls' => match numbers l, all_rows ls' with Some x, Some xs => Some (x :: xs) | _, _ => None end end.
Definition load (lines : list str) : res (list (list V)) :=
  match all_rows (filter nonempty (map (fun l => split_ws (before_comment l)) lines)) with
  | None => Err ValueError
  | Some m => match m with
              | [] => Err IndexError
              | r :: m' => if forallb (fun x => Nat.eqb (List.length x) (List.length r)) m' then
                             if Nat.eqb (List.length m) 1 || Nat.eqb (List.length r) 1 then Err IndexError else Ok m
                           else Err ValueError
              end
  end.

(** read_tecplot (tecplot_file.py:88-145); [rest]: the lines not read yet.  The dictionary is changed in place, also when
    an exception is raised. *)
Fixpoint scan (d : tdict) (merged cur : str) (rest : list str) : tdict * res unit :=
  match rest with
  | [] => (d, Ok tt)
  | l0 :: rest' =>
    let line := strip l0 in
    match lower line with
    | [] => (d, Ok tt)
    | c :: _ =>
      if chr_eqb c (ch 35) then scan d merged cur rest' else
      match filter (startswith (lower line)) keywords with
      | [k] =>
        match (if nonempty merged then process d merged cur else Ok d) with
        | Err e => (d, Err e)
        | Ok d' => scan d' line k rest'
        end
      | _ =>
        if negb (nonempty cur) then (d, Err WrongFormatError) else
        if negb (str_eqb cur (S_ "title") || str_eqb cur (S_ "variables")) && negb (has d (S_ "variables")) then (d, Err WrongFormatError) else
        match split_ws (lower line) with
        | [] => (d, Err IndexError)
        | w :: _ =>
          if is_number w then
            match (if nonempty merged then process d merged cur else Ok d) with
            | Err e => (d, Err e)
            | Ok d' =>
              match load rest with
              | Err e => (d', Err e)
              | Ok m => match get d' (S_ "variables") with
                        | Some (Vars vs) => if Nat.eqb (List.length (hd [] m)) (List.length vs) then (put d' (S_ "data") (Data m), Ok tt) else (d', Err BrokenFormatError)
                        | Some _ => (d', Err Unmodelled)
                        | None => (d', Err KeyError)
                        end
              end
            end
          else scan d (merged ++ [sp] ++ line) cur rest'
        end
      end
    end
  end.
Definition lines_of (text : str) : list str := split_chr nl text.
Definition read_tecplot (d : tdict) (text : str) : tdict * res unit := scan d [] [] (lines_of text).

(** ** The object *)
Record tec := mk_tec { t_name : option str; t_dict : tdict }.
Definition wrong (e : exn) : exn := match e with BrokenFormatError => BrokenFormatError | Unmodelled => Unmodelled | _ => WrongFormatError end.
(** TecplotFile.read (tecplot_file.py:163-183).  The argument, not the remembered name, is passed to read_tecplot: without
    argument open(None) raises a TypeError, reported as WrongFormatError. *)
Definition tec_read (f : str -> entry) (o : tec) (filename : option str) : tec * res unit :=
  let o := match filename with Some ((_ :: _) as n) => mk_tec (Some n) (t_dict o) | _ => o end in
  match t_name o with
  | None | Some [] => (o, Err PlainException)
  | Some n =>
    match f n with
    | Reg [] => (o, Err EmptyFileError)
    | Reg b => match filename with
               | Some (_ :: _) => let (d, r) := read_tecplot (t_dict o) (map ascii_of_N b) in
                                  (mk_tec (t_name o) d, match r with Ok tt => Ok tt | Err e => Err (wrong e) end)
               | _ => (o, Err WrongFormatError)
               end
    | _ => (o, Err OSError2)
    end
  end.
(** The constructor (tecplot_file.py:158-161) *)
Definition tec_new (f : str -> entry) (filename : option str) : tec * res unit :=
  match filename with Some (_ :: _) => tec_read f (mk_tec None []) filename | _ => (mk_tec None [], Ok tt) end.

(** TecplotFile.write (tecplot_file.py:185-203): the pieces of text written, in order *)
Definition value_text (v : tv) : res str := match v with Text s => Ok s | Aux d => Ok (aux_text d) | _ => Err Unmodelled end.
Definition variables_line (vs : list str) : str := S_ "VARIABLES = " ++ join (S_ ",") (map (fun v => [quote2] ++ v ++ [quote2]) vs) ++ [nl].
Definition write_text (d : tdict) : list (res str) :=
  match get d (S_ "title") with Some v => [t <- value_text v ;; Ok (S_ "TITLE = " ++ t ++ [nl])] | None => [] end ++
  match get d (S_ "variables") with Some (Vars vs) => [Ok (variables_line vs)] | Some _ => [Err Unmodelled] | None => [Err KeyError] end ++
  flat_map (fun k => match get d k with Some v => [t <- value_text v ;; Ok (k ++ S_ " = " ++ t ++ [nl])] | None => [] end) (skipn 2 keywords) ++
  match get d (S_ "data") with Some (Data m) => map (fun r => Ok (row_text r ++ [nl])) m | Some _ => [Err Unmodelled] | None => [] end.
Definition tec_write (f : fs) (o : tec) (filename : option str) : fs * tec * res unit :=
  let o := match filename with Some ((_ :: _) as n) => mk_tec (Some n) (t_dict o) | _ => o end in
  match t_name o with
  | None | Some [] => (f, o, Err PlainException)
  | Some n => let (f', r) := write_file f n (map (fun p => s <- p ;; Ok (map N_of_ascii s)) (write_text (t_dict o))) in (f', o, r)
  end.
End Tecplot.
Arguments tv : clear implicits.
Arguments aux : clear implicits.
Arguments tec : clear implicits.
