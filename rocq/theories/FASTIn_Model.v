(** Model of the generic FAST/OpenFAST input file (weio/fast_input_file.py):
    the dictionary interface, the line parser, the OutList reader, the main reading
    loop without its table branches, and the text writer.
    SIMPLIFICATIONS.
    - A python float is carried as the text [repr] prints for it.  The function
      [R : str -> str] stands for [t => repr(float(t))]; it is an argument of the
      definitions and theorems quantify over it.
    - Values are immutable here: aliasing of list values is not modelled.
    - The branches of [_read] that read tables, ExtPtfm and AD14 airfoil files are
      not modelled: the reader answers [None] ("not modelled") on them. *)
From Verif Require Import Py.

(** ** Items (fast_input_file.py:990-991, [getDict]) *)

Inductive val : Type :=
| VInt (z : Z) | VFloat (t : str) | VBool (b : bool) | VStr (s : str) | VList (l : list val).

Inductive tabtype : Type := NOT_A_TAB | TAB_FIL.   (* fast_input_file.py:24-33 *)

Record item : Type := mkItem
  { it_value : val; it_label : str; it_comment : bool; it_descr : str; it_tab : tabtype }.

Definition set_value (v : val) (d : item) : item :=
  mkItem v (it_label d) (it_comment d) (it_descr d) (it_tab d).

(** The object: its data and its file name (fast_input_file.py:160-189). *)
Record ffile : Type := mkF { f_data : list item; f_name : option str }.

(** ** Dictionary interface (fast_input_file.py:191-248) *)

(** [keys], lines 191-193; the base class has no [_IComment] lines (292-295). *)
Definition keys (f : ffile) : list str :=
  map it_label (filter (fun d => negb (it_comment d)) (f_data f)).

Definition key_match (k : str) (d : item) : bool := str_eqb (lower (it_label d)) (lower k).

(** [getIDSafe], lines 215-221, returning the item itself. *)
Definition find_item (f : ffile) (k : str) : option item := find (key_match k) (f_data f).

(** [__getitem__] and [getID], lines 241-243 and 195-200: the message of the KeyError
    concatenates the file name, which is a TypeError when there is none. *)
Definition getitem (f : ffile) (k : str) : res val :=
  match find_item f k with
  | Some d => Ok (it_value d)
  | None => match f_name f with Some _ => Err KeyError | None => Err TypeError end
  end.

(** [__setitem__] and [getIDs], lines 236-239 and 202-213: every matching item is
    updated; [len(I)<0] never holds, so nothing is ever raised. *)
Definition setitem (f : ffile) (k : str) (v : val) : res ffile :=
  Ok (mkF (map (fun d => if key_match k d then set_value v d else d) (f_data f)) (f_name f)).

(** [addKeyVal], lines 249-260: the first match is updated (its label becomes the
    spelling given), otherwise an item is appended. *)
Fixpoint update_first (k : str) (v : val) (ds : option str) (l : list item) : list item :=
  match l with
  | [] => []
  | d :: l' =>
      if key_match k d
      then mkItem v k (it_comment d) (match ds with Some t => t | None => it_descr d end) (it_tab d) :: l'
      else d :: update_first k v ds l'
  end.
Definition addKeyVal (f : ffile) (k : str) (v : val) (ds : option str) : ffile :=
  match find_item f k with
  | Some _ => mkF (update_first k v ds (f_data f)) (f_name f)
  | None => mkF (f_data f ++ [mkItem v k false (match ds with Some t => t | None => [] end) NOT_A_TAB])
                (f_name f)
  end.

(** ** Iteration (fast_input_file.py:222-233): state [(iCurrent, iMax)]. *)
Definition iter_ (f : ffile) : Z * Z := ((-1)%Z, (Z.of_nat (List.length (f_data f)) - 1)%Z).
Definition next (f : ffile) (st : Z * Z) : res item * (Z * Z) :=
  let '(iCurrent, iMax) := st in
  if (iCurrent >? iMax)%Z then (Err StopIteration, st)
  else let i := (iCurrent + 1)%Z in
       (match nth_error (f_data f) (Z.to_nat i) with
        | Some d => Ok d
        | None => Err IndexError
        end, (i, iMax)).

(** [for item in f]: items seen, and how the loop ended.  [fuel] bounds the number of
    calls to [__next__]. *)
Fixpoint for_loop (fuel : nat) (f : ffile) (st : Z * Z) : list item * res unit :=
  match fuel with
  | 0 => ([], Err OutOfFuel)
  | S n => match next f st with
           | (Ok d, st') => let '(ds, r) := for_loop n f st' in (d :: ds, r)
           | (Err StopIteration, _) => ([], Ok tt)
           | (Err e, _) => ([], Err e)
           end
  end.

(** ** Scanning helpers (fast_input_file.py:950-1002) *)

Definition comma : ascii := ch 44.
Definition quote : ascii := ch 34.
Definition dash : ascii := ch 45.
Definition underscore : ascii := ch 95.

(** CPython's [float(s)] grammar: surrounding blanks, sign, inf/infinity/nan or a decimal
    number with optional fraction and exponent, single underscores between digits. *)
Definition digitpart (s : str) : bool :=
  forallb (fun p => nonempty p && forallb is_digit p) (split_chr underscore s).
Definition unsign (s : str) : str :=
  match s with
  | c :: t => if chr_eqb c dash || chr_eqb c (ch 43) then t else s
  | [] => []
  end.
Definition mantissa (s : str) : bool :=
  match split_chr (ch 46) s with
  | [a] => digitpart a
  | [a; b] => (negb (nonempty a) || digitpart a) && (negb (nonempty b) || digitpart b)
              && (nonempty a || nonempty b)
  | _ => false
  end.
Definition is_e (c : ascii) : bool := chr_eqb c (ch 101) || chr_eqb c (ch 69).
(** [strIsFloat], lines 950-956. *)
Definition strIsFloat (s : str) : bool :=
  let t := unsign (strip s) in
  existsb (str_eqb (lower t)) [S_ "inf"; S_ "infinity"; S_ "nan"] ||
  match split_on is_e t with
  | [m] => mantissa m
  | [m; x] => mantissa m && digitpart (unsign x)
  | _ => false
  end.
(** [strIsBool] and [strToBool], lines 958-959 and 967-968. *)
Definition strIsBool (s : str) : bool :=
  existsb (str_eqb (lower s)) [S_ "true"; S_ "false"; S_ "t"; S_ "f"].
Definition strToBool (s : str) : bool := existsb (str_eqb (lower s)) [S_ "true"; S_ "t"].
(** [strIsInt], lines 961-965 (callers never pass the empty text: it would be an
    IndexError; see [parse_line]). *)
Definition isdigit (s : str) : bool := nonempty s && forallb is_digit s.
Definition strIsInt (s : str) : bool := isdigit (unsign s).
Definition to_int (s : str) : Z := match int_ s with Ok z => z | Err _ => 0%Z end.

(** [cleanLine], lines 975-980. *)
Definition cleanLine (l : str) : str := strip (join [sp] (split_ws (replace_chr tab [sp] l))).

(** [_merge_value], lines 993-999: a leading double quote is glued to the following
    words until a word ends with one; running out of words is an IndexError. *)
Definition ends_quote (s : str) : bool :=
  match rev s with c :: _ => chr_eqb c quote | [] => false end.
Fixpoint merge_words (m : str) (rest : list str) : res (str * list str) :=
  if ends_quote m then Ok (m, rest)
  else match rest with
       | [] => Err IndexError
       | s :: r => merge_words (m ++ sp :: s) r
       end.
Definition merge_value (splits : list str) : res (str * list str) :=
  match splits with
  | [] => Err IndexError
  | [] :: _ => Err IndexError
  | (c :: w) :: r => if chr_eqb c quote then merge_words (c :: w) r else Ok (c :: w, r)
  end.

(** ** [parseFASTInputLine] (fast_input_file.py:1004-1106) *)

(** [re.sub(',+', ',', s)], line 1027. *)
Fixpoint collapse (s : str) : str :=
  match s with
  | [] => []
  | c :: t => if chr_eqb c comma
              then match t with
                   | d :: _ => if chr_eqb d comma then collapse t else c :: collapse t
                   | [] => [c]
                   end
              else c :: collapse t
  end.
(** Lines 1026-1028. *)
Definition csplits (line : str) : list str :=
  split_chr comma (collapse (replace_chr sp [comma] line)).

(** One list element, lines 1034-1041. *)
Definition list_val (R : str -> str) (s : str) : val :=
  if strIsInt s then VInt (to_int s)
  else if strIsFloat s then VFloat (R s)
  else VBool (strToBool s).

(** The loop of lines 1033-1046: the values, and the pieces they were read from. *)
Fixpoint scan_list (R : str -> str) (cs : list str) : res (list val * list str) :=
  match cs with
  | [] => Err WrongFormatError
  | s :: r => if strIsFloat s || strIsBool s
              then '(vs, ps) <- scan_list R r ;; Ok (list_val R s :: vs, s :: ps)
              else Ok ([], [])
  end.

(** [s.find(sub)] *)
Fixpoint find_str (s sub : str) : option nat :=
  if startswith s sub then Some 0
  else match s with
       | [] => None
       | _ :: t => match find_str t sub with Some n => Some (S n) | None => None end
       end.
(** Lines 1053-1056: [ipos=-1] when the piece is not found. *)
Definition eat1 (line p : str) : str :=
  match find_str line p with
  | Some n => skipn (n + List.length p) line
  | None => skipn (List.length p - 1) line
  end.
Definition eat (line : str) (ps : list str) : str := fold_left eat1 ps line.

(** Lines 1064-1077: a value read as one token. *)
Definition scalar (R : str -> str) (allow : bool) (s : str) (rest : list str) : val :=
  if strIsInt s then
    match rest with
    | s1 :: _ => if allow && strIsInt s1 then VStr (s ++ sp :: s1) else VInt (to_int s)
    | [] => VInt (to_int s)
    end
  else if strIsFloat s then VFloat (R s)
  else if strIsBool s then VBool (strToBool s)
  else VStr s.

(** Lines 1080-1093: the label is the first word that is not a number, skipping pairs
    that start with a "!xxx:" word; an empty word would be an IndexError. *)
Definition bang_colon (s : str) : bool :=
  match s, rev s with
  | c :: _, d :: _ => chr_eqb c (ch 33) && chr_eqb d (ch 58)
  | _, _ => false
  end.
Fixpoint find_label (ws : list str) : res (option (str * list str)) :=
  match ws with
  | [] => Ok None
  | s :: r =>
      if negb (nonempty s) then Err IndexError
      else if bang_colon s then match r with [] => Ok None | _ :: r' => find_label r' end
      else if strIsFloat s then find_label r
      else Ok (Some (s, r))
  end.

Definition comment_item (raw : str) : item := mkItem (VStr raw) [] true [] NOT_A_TAB.

Definition comment_start (line : str) : bool :=
  existsb (startswith line) [S_ "#"; S_ "!"; S_ "--"; S_ "=="].

(** Lines 1014-1018: "END of xxx" lines are flagged as comments but parsed on. *)
Definition end_of (line : str) : bool :=
  startswith (lower line) (S_ "end") &&
  match split_ws line with
  | _ :: w1 :: _ :: _ => str_eqb w1 (S_ "of")
  | _ => false
  end.

(** Lines 1022-1046 *)
Definition detect_list (R : str -> str) (line : str) : res (list val * list str) :=
  match find_chr comma line with
  | Some n => if (0 <? n) && (n <? 30) then scan_list R (csplits line) else Ok ([], [])
  | None => Ok ([], [])
  end.

(** Lines 1013-1101 *)
Definition parse_body (R : str -> str) (allow : bool) (raw line : str) : res item :=
  '(vs, ps) <- detect_list R line ;;
  '(v, ws) <- (if 2 <=? List.length vs then Ok (VList vs, split_ws (eat line ps))
               else '(s, rest) <- merge_value (split_chr sp line) ;;
                    Ok (scalar R allow s rest, rest)) ;;
  lab <- find_label ws ;;
  match lab with
  | None => Ok (comment_item raw)
  | Some (l, ds) =>
      Ok (if end_of line
          then mkItem v (strip l) true (join [sp] ds) NOT_A_TAB
          else mkItem v (strip l) false (join [sp] ds) NOT_A_TAB)
  end.

(** Lines 1004-1106: any exception other than WrongFormatError becomes a plain one. *)
Definition parse_line (R : str -> str) (allow : bool) (raw : str) : res item :=
  let line := cleanLine raw in
  if comment_start line || negb (nonempty line) then Ok (comment_item raw)
  else match parse_body R allow raw line with
       | Ok d => Ok d
       | Err WrongFormatError => Err WrongFormatError
       | Err _ => Err PlainException
       end.

(** ** [parseFASTOutList] (fast_input_file.py:1108-1121).  [n] is [i - iStart]. *)
Definition is_END (l : str) : bool := startswith (upper l) (S_ "END").
Fixpoint outlist_loop (n : nat) (ls : list str) : res (list str) :=
  match ls with
  | [] => Ok []
  | l :: r => if is_END l then Ok []
              else if 200 <? S n then Err PlainException
              else o <- outlist_loop (S n) r ;; Ok (l :: o)
  end.
Definition parseFASTOutList (ls : list str) (iStart : nat) : res (list str * nat) :=
  o <- outlist_loop 0 (skipn iStart ls) ;; Ok (o, iStart + List.length o).

(** ** [toString] (fast_input_file.py:653-734), items without numeric tables *)

Definition str_val0 (v : val) : str :=
  match v with
  | VInt z => str_of_Z z
  | VFloat t => t
  | VBool true => S_ "True"
  | VBool false => S_ "False"
  | VStr s => s
  | VList _ => []          (* nested lists: not modelled *)
  end.
(** ['{:13s}'.format(s)] *)
Definition pad13 (s : str) : str := s ++ repeat sp (13 - List.length s).

(** [s.strip('-')] *)
Fixpoint lstrip_dash (s : str) : str :=
  match s with
  | [] => []
  | c :: t => if chr_eqb c dash then lstrip_dash t else s
  end.
Definition strip_dash (s : str) : str := rev (lstrip_dash (rev (lstrip_dash s))).
Definition descr_core (d : str) : str := strip (strip_dash (strip d)).

(** [toStringVLD], lines 657-664, followed by [.strip()]. *)
Definition toStringVLD (v : val) (lab descr : str) : str :=
  strip (pad13 (str_val0 v) ++ [sp] ++ pad13 lab ++ S_ " - " ++ descr_core descr ++ [nl]).

(** Lines 683-733 *)
Definition item_str (d : item) : str :=
  if it_comment d then str_val0 (it_value d)
  else match it_tab d, it_value d with
       | NOT_A_TAB, VList l =>
           join (S_ ", ") (map str_val0 l) ++ [sp] ++ it_label d ++ [sp] ++ it_descr d
       | NOT_A_TAB, v => toStringVLD v (it_label d) (it_descr d)
       | TAB_FIL, VList (x :: l) =>
           str_val0 x ++ [sp] ++ it_label d ++ [sp] ++ it_descr d ++ [nl] ++ join [nl] (map str_val0 l)
       | TAB_FIL, _ => []   (* d['value'][0] of something else: not modelled *)
       end.
Definition toString (f : ffile) : str := join [nl] (map item_str (f_data f)).

(** ** The reading loop (fast_input_file.py:369-650) *)

(** [s.find(sub) > 0] *)
Definition found_after0 (s sub : str) : bool := contains s sub && negb (startswith s sub).

(** Lines 389-391 *)
Definition outlist_line (l : str) : bool :=
  found_after0 (upper l) (S_ "ADDITIONAL OUTPUTS") ||
  found_after0 (upper l) (S_ "MESH-BASED OUTPUTS") ||
  found_after0 (upper l) (S_ "OUTPUT CHANNELS").
(** Line 422 *)
Definition ssoutlist_line (l : str) : bool :=
  found_after0 (upper l) (S_ "SSOUTLIST") || found_after0 (upper l) (S_ "SDOUTLIST").
(** Lines 437 and 452: sections that are not modelled. *)
Definition section_line (l : str) : bool :=
  found_after0 (upper l) (S_ "ADDITIONAL STIFFNESS") ||
  found_after0 (upper l) (S_ "DISTRIBUTED PROPERTIES").

(** Words that start a table when they are the value (lines 313-324), in lower case. *)
Definition val_tables : list str := map S_
  ["htfract"; "twrelev"; "blfract"; "genspd_tlu"; "blspn"; "wndspeed"; "hvcoefid"; "axcoefid";
   "jointid"; "dpth"; "fillnumm"; "mgdpth"; "simplcd"; "rnodes"; "kp_xr"; "mu1"; "twrhtfr";
   "twrre"; "wt_x"; "rjointid"; "ijointid"; "cosmid"; "cmjointid"]%string.
(** Labels that start a table (lines 329-352), in lower case. *)
Definition lab_tables : list str := map S_
  ["numalf"; "f_x"; "membercd1"; "mjointid1"; "noutloc"; "noutcnt"; "propd"; "diam"; "type";
   "linetype"; "guyandampsize"; "younge"; "ea"; "matdens"; "gridname"; "foilnm"; "afnames"]%string.

(** A parsed line that the reader treats specially (lines 463-601). *)
Definition special_item (d : item) : bool :=
  let lab := lower (it_label d) in
  existsb (str_eqb lab) (map S_ ["numcoords"; "re"]%string) ||
  existsb (str_eqb lab) lab_tables ||
  match it_value d with VStr s => existsb (str_eqb (lower s)) val_tables | _ => false end.

(** [hasSpecialChars], lines 970-973. *)
Definition label_char (c : ascii) : bool :=
  let n := ord c in
  ((97 <=? n) && (n <=? 122)) || ((65 <=? n) && (n <=? 90)) || ((48 <=? n) && (n <=? 57)) ||
  (n =? 95) || (n =? 40) || (n =? 41) || (n =? 45) || (n =? 34) || (n =? 39).
Definition hasSpecialChars (s : str) : bool := negb (forallb label_char s).

(** The regular expressions of lines 393-398: leading non-word characters and the first
    word; what follows it and the non-word characters after it. *)
Definition is_word (c : ascii) : bool :=
  let n := ord c in
  ((97 <=? n) && (n <=? 122)) || ((65 <=? n) && (n <=? 90)) || ((48 <=? n) && (n <=? 57)) || (n =? 95).
Fixpoint take_while (p : ascii -> bool) (s : str) : str :=
  match s with c :: t => if p c then c :: take_while p t else [] | [] => [] end.
Fixpoint drop_while (p : ascii -> bool) (s : str) : str :=
  match s with c :: t => if p c then drop_while p t else s | [] => [] end.
Definition firstword (l : str) : str :=
  strip (take_while (fun c => negb (is_word c)) l ++
         take_while is_word (drop_while (fun c => negb (is_word c)) l)).
Definition remainer (l : str) : str :=
  drop_while (fun c => negb (is_word c))
    (drop_while is_word (drop_while (fun c => negb (is_word c)) l)).

(** Lines 419-420 and 434-435 *)
Definition END_LINE : str :=
  S_ "END of input file (the word ""END"" must appear in the first 3 columns of this last OutList line)".
Definition DASH_LINE : str := repeat dash 87.

Record rstate : Type := mkR
  { r_items : list item; r_comments : nat; r_wrong : nat; r_allow : bool; r_nodal : bool }.

(** The counters of lines 615-635, for a file of [nl_] lines; [i] is already incremented.
    [len*0.35] and [len*0.10] are compared exactly (SIMPLIFICATION: not in doubles). *)
Definition check_item (nl_ i : nat) (d : item) (st : rstate) : res rstate :=
  let items := r_items st ++ [d] in
  let nC := if it_comment d then S (r_comments st) else r_comments st in
  let sc := negb (it_comment d) && hasSpecialChars (it_label d) in
  if sc && (3 <? i) then Err WrongFormatError else
  let nW := r_wrong st + (if sc then 1 else 0)
            + (if negb (it_comment d) && negb (nonempty (it_label d)) then 1 else 0) in
  if 35 * nl_ <? 100 * nC then Err WrongFormatError else
  if nl_ <? 10 * nW then Err WrongFormatError else
  Ok (mkR items nC nW (r_allow st) (r_nodal st)).

Definition push (d : item) (st : rstate) : rstate :=
  mkR (r_items st ++ [d]) (r_comments st) (r_wrong st) (r_allow st) (r_nodal st).

(** One standard line (lines 458-635), [None] on the branches that are not modelled. *)
Definition read_standard (R : str -> str) (lines : list str) (i : nat) (st : rstate)
  : option (res rstate) :=
  match nth_error lines i with
  | None => Some (Err IndexError)
  | Some line =>
      match parse_line R (r_allow st) line with
      | Err e => Some (Err e)
      | Ok d =>
          if special_item d then None
          else
            let st' := mkR (r_items st) (r_comments st) (r_wrong st)
                         (r_allow st || str_eqb (lower (it_label d)) (S_ "kp_total")) (r_nodal st) in
            Some (check_item (List.length lines) (S i) d st')
      end
  end.

(** The while loop (lines 385-637). [fuel] bounds the number of turns. *)
Fixpoint read_loop (R : str -> str) (fuel : nat) (lines : list str) (i : nat) (st : rstate)
  : option (res (list item)) :=
  match nth_error lines i with
  | None => Some (Ok (r_items st))
  | Some line =>
    match fuel with
    | 0 => Some (Err OutOfFuel)
    | S fuel' =>
      let standard i st :=
        match read_standard R lines i st with
        | None => None
        | Some (Err e) => Some (Err e)
        | Some (Ok st') => read_loop R fuel' lines (S i) st'
        end in
      if outlist_line line then
        if negb (existsb is_word line) then Some (Err NotImplementedError) else
        match parseFASTOutList lines (S i) with
        | Err e => Some (Err e)
        | Ok (o, i') =>
            let lab := if r_nodal st then firstword line ++ S_ "_Nodal" else firstword line in
            let d := mkItem (VList (VStr [] :: map VStr o)) lab false (remainer line) TAB_FIL in
            let st := push d st in
            match nth_error lines i' with
            | None => Some (Ok (r_items st))
            | Some _ =>
                match nth_error lines (i' + 2) with
                | Some l2 =>
                    if found_after0 (lower l2) (S_ "bldnd_bladesout") ||
                       found_after0 (lower l2) (S_ "bldnd_bloutnd")
                    then standard i' (mkR (r_items st) (r_comments st) (r_wrong st) (r_allow st) true)
                    else Some (e1 <- parse_line R false END_LINE ;;
                               e2 <- parse_line R false DASH_LINE ;;
                               Ok (r_items st ++ [e1; e2]))
                | None => Some (e1 <- parse_line R false END_LINE ;;
                                e2 <- parse_line R false DASH_LINE ;;
                                Ok (r_items st ++ [e1; e2]))
                end
            end
        end
      else if ssoutlist_line line then
        Some (d <- parse_line R false line ;;
              '(o, _) <- parseFASTOutList lines (S i) ;;
              e1 <- parse_line R false END_LINE ;;
              e2 <- parse_line R false DASH_LINE ;;
              Ok (r_items st ++ [d] ++ map comment_item o ++ [e1; e2]))
      else if section_line line then None
      else standard i st
    end
  end.

(** Lines 840-858 and 1660-1680: files handed to other readers (not modelled).  Line 1673
    indexes the first character of the first two lines. *)
Definition extptfm (lines : list str) : bool :=
  match lines with
  | l0 :: l1 :: l2 :: _ =>
      (10 <=? List.length lines) && startswith l0 (S_ "!") && startswith l1 (S_ "!")
      && contains (lower l1) (S_ "flex") && contains (lower l2) (S_ "!dimension")
  | _ => false
  end.
Definition first_char_error (lines : list str) : bool :=
  match lines with
  | [] :: _ => 10 <=? List.length lines
  | l0 :: [] :: _ => (10 <=? List.length lines) && startswith l0 (S_ "!")
  | _ => false
  end.
Definition ad14 (lines : list str) : bool :=
  match nth_error lines 2, nth_error lines 3, nth_error lines 12, nth_error lines 13 with
  | Some l2, Some l3, Some l12, Some l13 =>
      match split_ws l2 with
      | w :: _ =>
          strIsInt w &&
          (let n := to_int w in
           (n <? Z.of_nat (List.length (split_ws l3)))%Z &&
           (n <? Z.of_nat (List.length (split_ws l12)))%Z &&
           (n <? Z.of_nat (List.length (split_ws l13)))%Z)
           (* the key words themselves are not examined: more files than necessary
              are left out of the model *)
      | [] => false
      end
  | _, _, _, _ => false
  end.

(** [_read] (lines 309-650) on the lines of the file. *)
Definition read_lines (R : str -> str) (lines : list str) : option (res (list item)) :=
  if first_char_error lines then Some (Err IndexError)
  else if extptfm lines || ad14 lines then None
  else read_loop R (S (List.length lines)) lines 0 (mkR [] 0 0 false false).

(** [_read] on the text of the file. *)
Definition read_text (R : str -> str) (text : str) : option (res (list item)) :=
  read_lines R (splitlines text).
