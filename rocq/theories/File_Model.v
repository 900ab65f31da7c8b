(** Model of weio/file.py: the File base class protocol, isBinary and ascii_comp. *)
From Verif Require Import Py FS.

(** ** File(dict): file.py:20-45 *)
Section Base.
  Variable data kwargs : Type.
  (** The subclass reader [self._read(kwargs)]: reads the file system, updates the data, may raise. *)
  Variable child_read : fs -> str -> kwargs -> data -> data * res unit.
  (** The subclass writer [self._write()]: may change the file system and the object, and may raise. *)
  Variable child_write : fs -> str -> data -> fs * data * res unit.

  Record file_obj := FileObj { o_filename : option str; o_data : data }.

  (** Python truth value of an optional string: [if filename:] *)
  Definition truthy (x : option str) : bool :=
    match x with Some (_ :: _) => true | _ => false end.

  (** file.py:28-29, 40-41 *)
  Definition remember (o : file_obj) (arg : option str) : file_obj :=
    if truthy arg then FileObj arg (o_data o) else o.

  (** file.py:27-37 *)
  Definition File_read (f : fs) (o : file_obj) (arg : option str) (kw : kwargs) : file_obj * res unit :=
    let o1 := remember o arg in
    if negb (truthy (o_filename o1)) then (o1, Err PlainException)
    else match o_filename o1 with
         | None => (o1, Err PlainException)   (* unreachable: not truthy *)
         | Some name =>
             match f name with
             | Missing | Dir => (o1, Err OSError2)
             | Reg [] => (o1, Err EmptyFileError)
             | Reg _ =>
                 let (d, r) := child_read f name kw (o_data o1) in
                 (FileObj (o_filename o1) d, r)
             end
         end.

  (** file.py:39-45 *)
  Definition File_write (f : fs) (o : file_obj) (arg : option str) : fs * file_obj * res unit :=
    let o1 := remember o arg in
    if negb (truthy (o_filename o1)) then (f, o1, Err PlainException)
    else match o_filename o1 with
         | None => (f, o1, Err PlainException)  (* unreachable *)
         | Some name =>
             let '(f', d, r) := child_write f name (o_data o1) in
             (f', FileObj (o_filename o1) d, r)
         end.

  (** file.py:21-25: the object is only returned when the read succeeds. *)
  Definition File_init (f : fs) (d0 : data) (arg : option str) (kw : kwargs) : res file_obj :=
    if truthy arg then
      let (o, r) := File_read f (FileObj None d0) arg kw in
      match r with Ok _ => Ok o | Err e => Err e end
    else Ok (FileObj None d0).
End Base.
Arguments FileObj {data} _ _.
Arguments o_filename {data} _.
Arguments o_data {data} _.

(** ** isBinary: file.py:157-170 *)

(** [f.readline()] in text mode with universal newlines: characters up to the first newline. *)
Fixpoint first_line (s : str) : str :=
  match s with
  | [] => []
  | c :: s' => if Nat.eqb (ord c) 10 || Nat.eqb (ord c) 13 then [nl] else c :: first_line s'
  end.
(** The test of line 166. *)
Definition weird (c : ascii) : bool := (ord c <? 10) || ((14 <? ord c) && (ord c <? 31)).
(** SIMPLIFICATION: the bytes are taken as characters (single-byte encoding), so the UnicodeDecodeError
    branch of line 169 is not reachable. *)
Definition isBinary (content : str) : bool := existsb weird (first_line content).

(** ** ascii_comp: file.py:172-191 *)

(** Text-mode reading: \r\n and \r become \n. *)
Fixpoint universal_newlines (s : str) : str :=
  match s with
  | [] => []
  | c :: s' =>
      if Nat.eqb (ord c) 13 then
        match s' with
        | d :: s'' => if Nat.eqb (ord d) 10 then nl :: universal_newlines s''
                      else nl :: universal_newlines s'
        | [] => [nl]
        end
      else c :: universal_newlines s'
  end.

(** Lines 177-179 (and 182-184): the canonical text that is compared. *)
Definition bar := ch 124.
Definition canon (content : str) : str :=
  let lines := splitlines (universal_newlines content) in
  let joined := join [bar] (map (fun l => strip (replace_chr tab [sp] l)) lines) in
  join [sp] (split_ws joined).

Definition ascii_comp (c1 c2 : str) : bool := str_eqb (canon c1) (canon c2).
