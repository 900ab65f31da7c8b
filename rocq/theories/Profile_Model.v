(** Model of weio/flex_profile_file.py: FLEX profile files.
    SIMPLIFICATIONS: a double is a value of type [V], read by [num] (python's float), written by [sfl] (python's str) and by
    [e15] (the format 15.7e); encodings and carriage returns are not modelled; the constructor and the guards of File.read are
    in File_Model. *)
From Verif Require Import Py FS TurbSim_Model TS_Model.
Local Open Scope nat_scope.

Section Profile.
Context {V : Type}.
Variable num : str -> option V.
Variable sfl : V -> str.
Variable e15 : V -> str.

(** ProfileSet (flex_profile_file.py:14-19) *)
Record pset := mk_pset { p_header : str; p_thick : list V; p_polars : list (list (list V)); p_heads : list str }.

(** ** Reading *)
Definition floats_or {A} (ws : list str) (k : list V -> res A) (e : exn) : res A := match floats num ws with Ok v => k v | Err _ => Err e end.
Definition int_or {A} (l : str) (k : Z -> res A) (e : exn) : res A := match int_ l with Ok z => k z | Err _ => Err e end.
(** header[0].lower().find of the keyword is 0 (flex_profile_file.py:86-90) *)
Definition cut_keyword (h : str) : str := if startswith (lower h) (S_ "profile set") then skipn 11 h else h.
(** read_header (flex_profile_file.py:55-91): None: fewer than four lines are left and this is allowed (then all the lines are
    consumed); else the number of angles, the thicknesses, the header and the lines after it *)
Definition read_header (allow_empty : bool) (ls : list str) : res (option (Z * list V * str * list str)) :=
  match ls with
  | l0 :: l1 :: l2 :: l3 :: r =>
      int_or (strip l1) (fun nThickness =>
      floats_or (split_ws (strip l2)) (fun thickness =>
      if negb (Z.of_nat (List.length thickness) =? nThickness)%Z then Err WrongFormatError else
      int_or (strip l3) (fun nAlpha => Ok (Some (nAlpha, thickness, cut_keyword (strip l0), r))) WrongFormatError)
      WrongFormatError) WrongFormatError
  | _ => if allow_empty then Ok None else Err WrongFormatError
  end.
(** A row of a polar (flex_profile_file.py:101): four numbers, or one that is repeated; else an error that line 103 changes *)
Definition polar_row (l : str) : res (list V) :=
  floats_or (split_ws l) (fun vs => match vs with [a; b; c; d] => Ok [a; b; c; d] | [a] => Ok [a; a; a; a] | _ => Err BrokenFormatError end) BrokenFormatError.
Fixpoint polar_rows (n : nat) (ls : list str) : res (list (list V) * list str) :=
  match n with
  | O => Ok ([], ls)
  | S n' => let '(l, r) := readline ls in x <- polar_row l ;; '(xs, r') <- polar_rows n' r ;; Ok (x :: xs, r')
  end.
(** read_polars (flex_profile_file.py:93-105): one polar for each thickness; a negative number of angles is refused by np.zeros *)
Fixpoint read_polars (nAlpha : Z) (n : nat) (ls : list str) : res (list (list (list V)) * list str * list str) :=
  match n with
  | O => Ok ([], [], ls)
  | S n' => let '(h, r) := readline ls in
            if (nAlpha <? 0)%Z then Err ValueError else
            '(p, r1) <- polar_rows (Z.to_nat nAlpha) r ;;
            '(ps, hs, r2) <- read_polars nAlpha n' r1 ;; Ok (p :: ps, strip h :: hs, r2)
  end.
(** The loop of _read (flex_profile_file.py:108-115) *)
Fixpoint read_sets (fuel : nat) (first : bool) (ls : list str) : res (list pset) :=
  match fuel with
  | O => Err OutOfFuel
  | S fuel' =>
      h <- read_header (negb first) ls ;;
      match h with
      | None => Ok []
      | Some (nAlpha, thickness, header, r) =>
          if negb (nonempty thickness) then Ok [] else
          '(polars, heads, r') <- read_polars nAlpha (List.length thickness) r ;;
          sets <- read_sets fuel' false r' ;; Ok (mk_pset header thickness polars heads :: sets)
      end
  end.
(** _read (flex_profile_file.py:51-115): every turn of the loop consumes four lines at least *)
Definition profile_read (text : str) : res (list pset) := let ls := file_lines text in read_sets (S (List.length ls)) true ls.

(** ** Writing *)
Fixpoint zip_polars (heads : list str) (thick : list V) (polars : list (list (list V))) : list (str * list (list V)) :=
  match heads, thick, polars with h :: hs, _ :: ts, p :: ps => (h, p) :: zip_polars hs ts ps | _, _, _ => [] end.
(** ProfileSet.toString (flex_profile_file.py:21-29) *)
Definition set_text (prefix : str) (s : pset) : res str :=
  match p_polars s with
  | [] => Err IndexError
  | p0 :: _ => Ok (prefix ++ p_header s ++ [nl] ++ join [sp] (map sfl (p_thick s)) ++ [nl] ++ str_of_N (N.of_nat (List.length p0)) ++ [nl]
                   ++ flat_map (fun q => fst q ++ [nl] ++ join [nl] (map (fun r => join [sp] (map e15 r)) (snd q))) (zip_polars (p_heads s) (p_thick s) (p_polars s)))
  end.
Fixpoint sets_text (prefix : str) (l : list pset) : res str := match l with [] => Ok [] | s :: l' => a <- set_text prefix s ;; b <- sets_text prefix l' ;; Ok (a ++ b) end.
(** FLEXProfileFile.toString (flex_profile_file.py:117-125) *)
Definition profile_text (l : list pset) : res str := sets_text (if nonempty l then S_ "PROFILE SET " else []) l.
(** _write (flex_profile_file.py:127-129): the file is opened, then the method itself, not its result, is given to f.write *)
Definition profile_write (f : fs) (p : str) (l : list pset) : fs * res unit := write_file f p [Err TypeError].

(** ** Tables (flex_profile_file.py:139-146) *)
Definition table_name (iset : nat) (t : V) : str := S_ "pc_set_" ++ str_of_N (N.of_nat (S iset)) ++ S_ "_t_" ++ sfl t.
Fixpoint dict_put {A} (d : list (str * A)) (k : str) (v : A) : list (str * A) :=
  match d with [] => [(k, v)] | (k', v') :: d' => if str_eqb k' k then (k', v) :: d' else (k', v') :: dict_put d' k v end.
Definition put_set (d : list (str * list (list V))) (iset : nat) (s : pset) : list (str * list (list V)) :=
  fold_left (fun d tp => dict_put d (table_name iset (fst tp)) (snd tp)) (combine (p_thick s) (p_polars s)) d.
Fixpoint put_sets (d : list (str * list (list V))) (iset : nat) (l : list pset) : list (str * list (list V)) :=
  match l with [] => d | s :: l' => put_sets (put_set d iset s) (S iset) l' end.
Definition profile_tables (l : list pset) : list (str * list (list V)) := put_sets [] 0 l.
End Profile.
Arguments pset : clear implicits.
