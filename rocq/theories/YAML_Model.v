(** Model of weio/mini_yaml.py.
    SIMPLIFICATIONS: a double is a value of type [V], read by [flt] (python's float, also used by numpy to convert texts);
    the undecodable bytes of the file are not modelled. *)
From Verif Require Import Py Dict.
Local Open Scope nat_scope.

Section YAML.
Context {V : Type}.
Variable flt : str -> option V.

(** A value of the dictionary: a number, a text, or a matrix with its number of columns *)
Inductive yval := Int (z : Z) | Flt (v : V) | Txt (s : str) | MatI (cols : nat) (rows : list (list Z)) | MatF (cols : nat) (rows : list (list V)).
Notation ydict := (@dict yval).

(** cleanComment (mini_yaml.py:27-29) *)
Definition cleanComment (l : str) : str := strip (match split_chr (ch 35) l with w :: _ => w | [] => [] end).
(** [np.array(texts).astype(int)]: python's int, then a 64 bit integer *)
Definition to_int64 (s : str) : res Z :=
  match int_ s with
  | Ok z => if ((- 2 ^ 63 <=? z) && (z <? 2 ^ 63))%Z then Ok z else Err OverflowError
  | Err e => Err e
  end.
Definition to_float (s : str) : res V := match flt s with Some v => Ok v | None => Err ValueError end.
Fixpoint astype {A} (conv : str -> res A) (l : list str) : res (list A) :=
  match l with [] => Ok [] | s :: l' => x <- conv s ;; xs <- astype conv l' ;; Ok (x :: xs) end.
(** [cleanComment(line)[1:].replace(']','').replace('[','').split(',')] (mini_yaml.py:46 and 61) *)
Definition pieces (l : str) : list str := split_chr (ch 44) (replace_chr (ch 91) [] (replace_chr (ch 93) [] (skipn 1 (cleanComment l)))).
(** [M[i,:] = row]: a row with a single element is repeated *)
Definition assign_row {A} (cols : nat) (row : list A) : res (list A) :=
  if Nat.eqb (List.length row) cols then Ok row else match row with [x] => Ok (repeat x cols) | _ => Err ValueError end.
Fixpoint fill {A} (conv : str -> res A) (cols : nat) (ls : list str) : res (list (list A)) :=
  match ls with
  | [] => Ok []
  | l :: ls' => row <- astype conv (map strip (filter nonempty (pieces l))) ;;
                r <- assign_row cols row ;; rs <- fill conv cols ls' ;; Ok (r :: rs)
  end.
(** The number of lines that start with a dash (mini_yaml.py:33-44) *)
Fixpoint dashes (ls : list str) : nat :=
  match ls with
  | l :: ls' => match strip l with c :: _ => if chr_eqb c (ch 45) then S (dashes ls') else 0 | [] => 0 end
  | [] => 0
  end.
(** readDashList (mini_yaml.py:31-65), on the lines from iStart: the matrix and the number of lines used.  Without any line,
    iEnd is not set. *)
Definition readDashList (ls : list str) : res (yval * nat) :=
  match ls with
  | [] => Err UnboundLocalError
  | l0 :: _ =>
    let n := dashes ls in
    let first := filter nonempty (map strip (pieces l0)) in
    let cols := List.length first in
    match astype to_int64 first with
    | Ok _ => rows <- (if Nat.eqb cols 0 then Ok (repeat [] n) else fill to_int64 cols (firstn n ls)) ;; Ok (MatI cols rows, n)
    | Err _ =>
      match astype to_float first with
      | Ok _ => rows <- (if Nat.eqb cols 0 then Ok (repeat [] n) else fill to_float cols (firstn n ls)) ;; Ok (MatF cols rows, n)
      | Err _ => Err PlainException
      end
    end
  end.
(** mini_yaml.py:78-84 *)
Definition scalar (val : str) : yval := match int_ val with Ok z => Int z | Err _ => match flt val with Some v => Flt v | None => Txt (strip val) end end.
(** The loop over the lines (mini_yaml.py:67-88); the first [skip] lines are already used by a list.  The dictionary keeps what
    was read before an exception.  The message of the last exception cannot be formatted: two fields, one argument. *)
Fixpoint run (d : ydict) (skip : nat) (ls : list str) : ydict * res unit :=
  match ls with
  | [] => (d, Ok tt)
  | l0 :: rest =>
    match skip with
    | S k => run d k rest
    | O =>
      let l := cleanComment l0 in
      if negb (nonempty l) then run d 0 rest else
      match split_chr (ch 58) l with
      | [key; val] =>
        if negb (nonempty (strip val)) then
          match readDashList rest with
          | Err e => (d, Err e)
          | Ok (m, n) => run (put d key m) n rest
          end
        else run (put d key (scalar val)) 0 rest
      | _ => (d, Err IndexError)
      end
    end
  end.
(** yaml_read (mini_yaml.py:6-89) on the text of the file; [d]: dictIn *)
Definition yaml_read (d : ydict) (text : str) : ydict * res unit := run d 0 (splitlines text).
End YAML.
Arguments yval : clear implicits.
