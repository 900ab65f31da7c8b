(** Model of the comments of FAST input files (weio/fast_input_file.py:121-127, 191-193, 281-295, 1379-1380, 1475-1476, 1633-1652) and of
    ElastoDyn blades that are opened by their own class (fast_input_file.py:1303-1348).
    SIMPLIFICATIONS: a comment is a text; replacing the value of a table by a comment is not modelled; the writers and the data frame of a blade opened by its
    own class are modelled up to the first entry that they cannot use. *)
From Verif Require Import Py FASTIn_Model FASTTab_Model FASTFile_Model FASTSpec_Model.
Local Open Scope nat_scope.

Section Com.
Context {V : Type}.
Local Notation ent := (FASTFile_Model.entry V).

(** self.data[i]['value'], when it is a text *)
Definition text_of (e : ent) : option str := match e with Item d => match it_value d with VStr s => Some s | _ => None end | _ => None end.
(** The lines of the comment ([_IComment]: fast_input_file.py:291-295, 1379-1380, 1475-1476, 1643-1652) *)
Fixpoint polar_lines (es : list ent) (l : list nat) : res (list nat) :=
  match l with
  | [] => Ok []
  | i :: l' =>
      match nth_error es i with
      | None => Err IndexError
      | Some e =>
          match text_of e with
          | None => Err AttributeError
          | Some s => r <- polar_lines es l' ;; Ok (if startswith s (S_ "!") && negb (startswith s (S_ "! ---")) then i :: r else r)
          end
      end
  end.
Definition comment_lines (k : kind) (es : list ent) : res (list nat) :=
  match k with Base => Ok [] | ADBlade | EDBlade => Ok [1] | ADPolar => polar_lines es [1; 2; 3] end.

(** [keys()] (fast_input_file.py:191-193): the lines of the comment are looked for again at each entry that is not a comment *)
Fixpoint keys_from (i : nat) (lines : res (list nat)) (es : list ent) : res (list str) :=
  match es with
  | [] => Ok []
  | e :: es' =>
      if comment_of e then keys_from (S i) lines es'
      else js <- lines ;; r <- keys_from (S i) lines es' ;; Ok (if existsb (Nat.eqb i) js then r else label_of e :: r)
  end.
Definition keys_in (k : kind) (es : list ent) : res (list str) := keys_from 0 (comment_lines k es) es.

(** The comment (fast_input_file.py:281-283, 1633-1635): for a polar it is the property of the class, which is no text *)
Inductive got := Text (s : str) | Property.
Fixpoint values_at (es : list ent) (l : list nat) : res (list (option str)) :=
  match l with
  | [] => Ok []
  | i :: l' => match nth_error es i with None => Err IndexError | Some e => r <- values_at es l' ;; Ok (text_of e :: r) end
  end.
Fixpoint texts (l : list (option str)) : res (list str) :=
  match l with [] => Ok [] | None :: _ => Err TypeError | Some s :: l' => r <- texts l' ;; Ok (s :: r) end.
Definition get_comment (k : kind) (es : list ent) : res got :=
  match k with
  | ADPolar => Ok Property
  | _ => js <- comment_lines k es ;; vs <- values_at es js ;; ts <- texts vs ;; Ok (Text (join [nl] ts))
  end.
(** Setting it (fast_input_file.py:285-289, 1637-1641): the data afterwards, and how it ended *)
Fixpoint set_at (es : list ent) (i : nat) (s : str) : res (list ent) :=
  match es, i with
  | [], _ => Err IndexError
  | Item d :: es', O => Ok (Item (set_value (VStr s) d) :: es')
  | _ :: _, O => Err Unmodelled
  | e :: es', S i' => r <- set_at es' i' s ;; Ok (e :: r)
  end.
Fixpoint set_lines (es : list ent) (l : list nat) (ss : list str) : list ent * res unit :=
  match l, ss with
  | i :: l', s :: ss' => match set_at es i s with Ok es' => set_lines es' l' ss' | Err e => (es, Err e) end
  | _, _ => (es, Ok tt)
  end.
Definition set_comment (k : kind) (es : list ent) (c : str) : list ent * res unit :=
  let ss := split_chr nl c in
  match comment_lines k es with
  | Err e => (es, Err e)
  | Ok js => set_lines es js (match k with ADPolar => map (fun s => S_ "! " ++ s) ss | _ => ss end)
  end.
(** Setting it through [FASTInputFile] (fast_input_file.py:125-127): the comment is called as a function *)
Definition front_set (es : list ent) (c : str) : list ent * res unit :=
  match get_comment (fixed_format es) es with Ok _ => (es, Err TypeError) | Err e => (es, Err e) end.
Definition front_get (es : list ent) : res got := get_comment (fixed_format es) es.

(** ** [EDBladeFile(filename)] (fast_input_file.py:1309-1348): the second entry is replaced by the second line of the file *)
Inductive cell := Entry (e : ent) | Raw (s : str).
Definition ed_open (es : list ent) (lines : list str) : res (list cell) :=
  match nth_error lines 1, map Entry es with
  | None, _ => Err IndexError
  | Some s, a :: _ :: l => Ok (a :: Raw s :: l)
  | _, _ => Err IndexError
  end.
(** d['label'], d['isComment'], d['tabType']: a text has no fields *)
Definition fields (c : cell) : res ent := match c with Entry e => Ok e | Raw _ => Err TypeError end.
Fixpoint raw_keys (i : nat) (cs : list cell) : res (list str) :=
  match cs with
  | [] => Ok []
  | c :: cs' => e <- fields c ;; r <- raw_keys (S i) cs' ;; Ok (if comment_of e || (i =? 1) then r else label_of e :: r)
  end.
(** [getID] (fast_input_file.py:195-200, 215-221) *)
Fixpoint raw_get (cs : list cell) (k : str) : res ent :=
  match cs with
  | [] => Err KeyError
  | c :: cs' => e <- fields c ;; if str_eqb (lower (label_of e)) (lower k) then Ok e else raw_get cs' k
  end.
(** [self[key]=item] (fast_input_file.py:202-213, 236-239): all the entries are looked at first *)
Definition raw_set (cs : list cell) (k : str) (v : val) : list cell * res unit :=
  match mapM fields cs with
  | Err e => (cs, Err e)
  | Ok es => (map (fun e => match e with Item d => Entry (if str_eqb (lower (label_of e)) (lower k) then Item (set_value v d) else e) | _ => Entry e end) es, Ok tt)
  end.
(** [toString] and [write] (fast_input_file.py:680-751, 1350-1352): the file is not opened before the number of stations is counted;
    [print]: the text of an entry; [count]: what the checks do with the entry of the table *)
Definition raw_string (print : ent -> res str) (cs : list cell) : res str := ls <- mapM (fun c => e <- fields c ;; print e) cs ;; Ok (join [nl] ls).
Definition raw_write (print : ent -> res str) (count : ent -> res unit) (cs : list cell) : option str * res unit :=
  match (e <- raw_get cs (S_ "BldProp") ;; count e) with
  | Err e => (None, Err e)
  | Ok _ => match raw_string print cs with Ok s => (Some s, Ok tt) | Err e => (Some [], Err e) end
  end.
(** The comment of that object *)
Definition raw_comment (cs : list cell) : res str :=
  match nth_error cs 1 with None => Err IndexError | Some c => e <- fields c ;; match text_of e with Some s => Ok s | None => Err TypeError end end.
End Com.
