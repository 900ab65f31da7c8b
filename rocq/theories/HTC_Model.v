(** Model of weio/wetb/hawc2/htc_contents.py and of load/__str__ of weio/wetb/hawc2/htc_file.py.
    SIMPLIFICATIONS: a value is represented by the text [str(value)]; the numeric conversion of one word is an
    argument [num] ([None]: float() raises ValueError, so the word stays a string; [Some r]: the text of the
    resulting number, or the exception int(float('inf')) raises); text is one-byte characters; the
    continue_in_file mechanism is modelled in HTCPath_Model; parent links and jinja templates are not modelled. *)
From Verif Require Import Py FASTOut_Model.
Local Open Scope nat_scope.

Definition semi : ascii := ch 59.
Definition backslash : ascii := ch 92.

(** ** Objects *)

(** HTCSensor, htc_contents.py:430-439. *)
Record sensor := mk_sensor { s_type : str; s_sensor : str; s_values : list str; s_comments : str }.
(** HTCSection / HTCOutputSection / HTCOutputAtTimeSection (type and time). *)
Inductive kind := Plain | Output | AtTime (typ time : str).
(** HTCLine or a section: name, begin and end comments, contents (an ordered dict), sensors. *)
Inductive node :=
| Line (name : str) (values : list str) (comments : str)
| Sec (k : kind) (name begin_comments end_comments : str) (contents : list (str * node)) (sensors : list sensor).
Definition node_name (n : node) : str := match n with Line nm _ _ => nm | Sec _ nm _ _ _ _ => nm end.

(** [s.strip(' \t')] *)
Definition is_blank (c : ascii) : bool := chr_eqb c sp || chr_eqb c tab.
Fixpoint lstrip_bt (s : str) : str :=
  match s with [] => [] | c :: s' => if is_blank c then lstrip_bt s' else s end.
Definition strip_bt (s : str) : str := rev (lstrip_bt (rev (lstrip_bt s))).
(** [name[:name.index('__')]] when it occurs, htc_contents.py:300-302. *)
Definition uu : str := S_ "__".
Fixpoint cut_uu (s : str) : str :=
  match s with
  | [] => []
  | c :: s' => if startswith s uu then [] else c :: cut_uu s'
  end.
(** HTCLine.__init__, htc_contents.py:299-305. *)
Definition mk_line (name : str) (values : list str) (comments : str) : node :=
  Line (cut_uu name) values (strip_bt comments).
(** HTCSensor.__init__, htc_contents.py:435-439. *)
Definition mk_sens (t s : str) (values : list str) (comments : str) : sensor := mk_sensor t s values (strip_bt comments).

(** ** _add_contents: htc_contents.py:129-137 *)
Definition dget {V} (d : list (str * V)) (k : str) : option V :=
  match find (fun p => str_eqb (fst p) k) d with Some p => Some (snd p) | None => None end.
Definition dmem {V} (d : list (str * V)) (k : str) : bool := existsb (fun p => str_eqb (fst p) k) d.
Definition ending (n : N) : str := uu ++ str_of_N n.
(** The while loop of lines 134-135 ([fuel] is proved sufficient). *)
Fixpoint free_ending {V} (fuel : nat) (d : list (str * V)) (name : str) (n : N) : option N :=
  if dmem d (name ++ ending n) then match fuel with O => None | S f => free_ending f d name (n + 1) end else Some n.
Definition new_key {V} (d : list (str * V)) (name : str) : option str :=
  if dmem d name then option_map (fun n => name ++ ending n) (free_ending (S (List.length d)) d name 2) else Some name.
(** [self.contents[key] = value] of an OrderedDict: an existing key keeps its place and gets the new value. *)
Fixpoint dset {V} (d : list (str * V)) (k : str) (v : V) : list (str * V) :=
  match d with
  | [] => [(k, v)]
  | p :: d' => if str_eqb (fst p) k then (k, v) :: d' else p :: dset d' k v
  end.
Definition add_contents (d : list (str * node)) (n : node) : res (list (str * node)) :=
  match new_key d (node_name n) with Some k => Ok (dset d k n) | None => Err OutOfFuel end.
(** Adding several objects one after the other. *)
Fixpoint add_all (d : list (str * node)) (l : list node) : res (list (str * node)) :=
  match l with [] => Ok d | n :: l' => d' <- add_contents d n ;; add_all d' l' end.

(** ** Printing *)

Definition is_nil {A} (l : list A) : bool := match l with [] => true | _ => false end.
Definition indent (level : nat) : str := concat (repeat (S_ "  ") level).
(** [('', '\t' + x)[b]] *)
Definition opt (b : bool) (x : str) : str := if b then tab :: x else [].
(** [s.replace('\t\n', '\n')] *)
Fixpoint untab (s : str) : str :=
  match s with
  | [] => []
  | c :: s' => if chr_eqb c tab && match s' with d :: _ => chr_eqb d nl | [] => false end then untab s' else c :: untab s'
  end.
Definition some_text (s : str) : bool := negb (is_nil (strip s)).
(** HTCLine.__str__, htc_contents.py:310-318. *)
Definition line_str (level : nat) (name : str) (values : list str) (comments : str) : str :=
  if is_nil name then []
  else indent level ++ name ++ opt (negb (is_nil values)) (join [sp] values) ++ [semi] ++ opt (some_text comments) comments ++ [nl].
(** HTCSensor.__str__, htc_contents.py:463-468. *)
Definition sensor_str (level : nat) (s : sensor) : str :=
  indent level ++ s_type s ++ [sp] ++ s_sensor s ++ opt (negb (is_nil (s_values s))) (join [sp] (s_values s)) ++ [semi]
    ++ opt (some_text (s_comments s)) (s_comments s) ++ [nl].
(** __iter__, htc_contents.py:95-99: main bodies first. *)
Definition main_body : str := S_ "main_body".
Definition is_mb {V} (name_of : V -> str) (p : str * V) : bool := str_eqb (name_of (snd p)) main_body.
Definition iter_order {V} (name_of : V -> str) (d : list (str * V)) : list (str * V) :=
  filter (is_mb name_of) d ++ filter (fun p => negb (is_mb name_of p)) d.
(** The __str__ methods of the three kinds of sections: htc_contents.py:253-259, 388-395, 420-427.  Line 422 indexes
    a pair with the length of the stripped comment: IndexError when it is more than 1. *)
Definition begin_str (k : kind) (level : nat) (name bc : str) : res str :=
  let head := indent level ++ S_ "begin " ++ name in
  match k with
  | Plain => Ok (head ++ [semi] ++ untab (opt (some_text bc) bc) ++ [nl])
  | Output => Ok (head ++ [semi] ++ opt (some_text bc) bc ++ [nl])
  | AtTime typ time =>
      if Nat.leb (List.length (strip bc)) 1
      then Ok (head ++ [sp] ++ typ ++ [sp] ++ time ++ [semi] ++ opt (some_text bc) bc ++ [nl])
      else Err IndexError
  end.
Definition end_str (k : kind) (level : nat) (name ec : str) : str :=
  indent level ++ S_ "end " ++ name ++ [semi]
    ++ (match k with Plain => untab (opt (some_text ec) ec) | _ => opt (some_text ec) ec end) ++ [nl].
Definition sensors_of (k : kind) (ss : list sensor) : list sensor := match k with Plain => [] | _ => ss end.

(** Insertion of [x] in the list of already printed items, keeping main bodies first. *)
Definition reorder (ps : list (bool * str)) : str :=
  concat (map snd (filter fst ps) ++ map snd (filter (fun p => negb (fst p)) ps)).
Fixpoint node_str (level : nat) (n : node) : res str :=
  match n with
  | Line nm vs c => Ok (line_str level nm vs c)
  | Sec k nm bc ec cont ss =>
      b <- begin_str k level nm bc ;;
      ps <- (fix go (l : list (str * node)) : res (list (bool * str)) :=
               match l with
               | [] => Ok []
               | p :: l' => t <- node_str (S level) (snd p) ;; ts <- go l' ;; Ok ((is_mb node_name p, t) :: ts)
               end) cont ;;
      Ok (b ++ reorder ps ++ concat (map (sensor_str (S level)) (sensors_of k ss)) ++ end_str k level nm ec)
  end.
Fixpoint nodes_str (level : nat) (l : list (str * node)) : res (list (bool * str)) :=
  match l with
  | [] => Ok []
  | p :: l' => t <- node_str level (snd p) ;; ts <- nodes_str level l' ;; Ok ((is_mb node_name p, t) :: ts)
  end.
(** HTCFile.__str__, htc_file.py:223-225 (top level items are printed at level 1). *)
Record htc := mk_htc { initial_comments : list str; h_contents : list (str * node) }.
Definition htc_str (h : htc) : res str :=
  ps <- nodes_str 1 (h_contents h) ;;
  Ok (concat (initial_comments h) ++ reorder ps ++ S_ "exit;").

(** ** Parsing *)

(** The while loop of parse_next_line, htc_contents.py:25-26. *)
Fixpoint more_comments (lines : list str) (acc : str) : str * list str :=
  match lines with
  | l :: ls => if startswith (lstrip l) [semi] then more_comments ls (acc ++ [nl] ++ rstrip l) else (acc, lines)
  | [] => (acc, [])
  end.
(** parse_next_line, htc_contents.py:21-27: (line, comments, remaining lines). *)
Definition parse_next (l : str) (ls : list str) : str * str * list str :=
  let ps := split_chr semi l in
  let '(c, rest) := more_comments ls (rstrip (join [semi] (tl ps))) in
  (strip (hd [] ps), c, rest).

Section Num.
  Variable num : str -> option (res str).
  (** fmt_value, htc_contents.py:30-36, and the local fmt of HTCSensor.from_lines, lines 453-459. *)
  Definition fmt_value (v : str) : res str :=
    match num v with Some r => r | None => Ok (replace_chr backslash (S_ "/") v) end.
  Definition fmt_sensor (v : str) : res str := match num v with Some r => r | None => Ok v end.

  (** HTCLine.from_lines, htc_contents.py:332-343. *)
  Definition line_from (l : str) (ls : list str) : res (node * list str) :=
    let '(line, c, rest) := parse_next l ls in
    match split_ws line with
    | [] => Ok (mk_line line [] c, rest)
    | nm :: vs => vs' <- map_res fmt_value vs ;; Ok (mk_line nm vs' c, rest)
    end.
  (** HTCSensor.from_lines, htc_contents.py:441-461. *)
  Definition sensor_from (l : str) (ls : list str) : res (sensor * list str) :=
    let '(line, c, rest) := parse_next l ls in
    match split_ws line with
    | t :: s :: vs => vs' <- map_res fmt_sensor vs ;; Ok (mk_sens t s vs' c, rest)
    | _ => Ok (mk_sens [] [] [] c, rest)
    end.
  Definition line_names : list str := [S_ "filename"; S_ "data_format"; S_ "buffer"; S_ "time"].

  (** The header of a section, htc_contents.py:228-235, with the constructors of lines 197-202 and 413-418.
      [float_str] is str(float(x)). *)
  Variable float_str : str -> res str.
  Definition output_at_time : str := S_ "output_at_time".
  Definition header (line : str) : res (kind * str) :=
    let name := lower (skipn 6 line) in
    if str_eqb name (S_ "output") then Ok (Output, strip name)
    else if startswith name output_at_time then
      match split_ws name with
      | [nm; typ; time] => t <- float_str time ;; Ok (AtTime typ t, nm)
      | _ => Err ValueError
      end
    else Ok (Plain, strip name).

  (** HTCSection.from_lines, htc_contents.py:226-248 (the while loop), after the header has been read.
      [fuel] is proved sufficient whenever it exceeds the number of lines. *)
  Fixpoint sec_loop (fuel : nat) (k : kind) (nm bc : str) (cont : list (str * node)) (ss : list sensor) (lines : list str)
    : res (node * list str) :=
    match fuel with
    | O => Err OutOfFuel
    | S f =>
        match lines with
        | [] => Err PlainException                               (* has not end *)
        | l0 :: ls0 =>
            match (if is_nil (strip l0) then ls0 else lines) with
            | [] => Err IndexError
            | l :: ls =>
                if startswith (lower l) (S_ "begin") then
                  let '(line, bc', rest) := parse_next l ls in
                  '(k', nm') <- header line ;;
                  '(sub, rest') <- sec_loop f k' nm' (strip_bt bc') [] [] rest ;;
                  cont' <- add_contents cont sub ;;
                  sec_loop f k nm bc cont' ss rest'
                else if startswith (lower l) (S_ "end") then
                  let '(_, ec, rest) := parse_next l ls in
                  Ok (Sec k nm bc ec cont ss, rest)
                else
                  match k with
                  | Plain =>
                      '(n, rest) <- line_from l ls ;; cont' <- add_contents cont n ;; sec_loop f k nm bc cont' ss rest
                  | _ =>                                         (* line_from_line, lines 374-380 *)
                      match split_ws l with
                      | [] => Err IndexError
                      | w :: _ =>
                          if existsb (str_eqb w) line_names then
                            '(n, rest) <- line_from l ls ;; cont' <- add_contents cont n ;; sec_loop f k nm bc cont' ss rest
                          else
                            '(s, rest) <- sensor_from l ls ;; sec_loop f k nm bc cont (ss ++ [s]) rest
                      end
                  end
            end
        end
    end.
  Definition sec_from (fuel : nat) (l : str) (ls : list str) : res (node * list str) :=
    let '(line, bc, rest) := parse_next l ls in
    '(k, nm) <- header line ;; sec_loop fuel k nm (strip_bt bc) [] [] rest.

  (** The loop of load, htc_file.py:175-184. *)
  Fixpoint load_loop (fuel : nat) (h : htc) (lines : list str) : res htc :=
    match fuel with
    | O => Err OutOfFuel
    | S f =>
        match lines with
        | [] => Ok h
        | l :: ls =>
            if startswith l [semi] then
              load_loop f (mk_htc (initial_comments h ++ [strip l ++ [nl]]) (h_contents h)) ls
            else if startswith (lower l) (S_ "begin") then
              '(n, rest) <- sec_from f l ls ;; c <- add_contents (h_contents h) n ;;
              load_loop f (mk_htc (initial_comments h) c) rest
            else
              '(n, rest) <- line_from l ls ;;
              if str_eqb (node_name n) (S_ "exit") then Ok h
              else c <- add_contents (h_contents h) n ;; load_loop f (mk_htc (initial_comments h) c) rest
        end
    end.
  (** load of a file with this text: htc_file.py:163-194 without byte-order mark and templates. *)
  Definition load (text : str) : res htc :=
    let lines := map strip (split_chr nl (filter (fun c => negb (chr_eqb c (ch 13))) text)) in
    load_loop (S (List.length lines)) (mk_htc [] []) lines.
End Num.

(** ** copy: htc_contents.py:288-292, 353-354 *)
Fixpoint copy (n : node) : node :=
  match n with
  | Line nm vs c => mk_line nm vs c
  | Sec _ nm bc ec cont _ =>
      Sec Plain (strip nm) (strip_bt bc) (strip_bt ec)
        ((fix go (l : list (str * node)) : list (str * node) :=
            match l with [] => [] | p :: l' => (fst p, copy (snd p)) :: go l' end) cont) []
  end.

(** ** compare of output sections: the part about sensors, htc_contents.py:397-406, 473-479 *)
Definition strs_eqb (a b : list str) : bool :=
  Nat.eqb (List.length a) (List.length b) && forallb (fun p => str_eqb (fst p) (snd p)) (combine a b).
Definition diff_lines (sign : str) (text : str) : str :=
  join [nl] (map (fun l => sign ++ [sp] ++ l) (split_chr nl (strip text))) ++ [nl].
Definition sensor_compare (a b : sensor) : str :=
  if negb (str_eqb (s_sensor a) (s_sensor b)) || negb (strs_eqb (s_values a) (s_values b))
  then diff_lines (S_ "+") (sensor_str 0 a) ++ diff_lines (S_ "-") (sensor_str 0 b) ++ [nl] else [].
Definition sensors_compare (self other : list sensor) : str :=
  concat (map (fun p => sensor_compare (fst p) (snd p)) (combine self other))
  ++ concat (map (fun s => diff_lines (S_ "-") (sensor_str 0 s)) (skipn (List.length other) self))
  ++ concat (map (fun s => diff_lines (S_ "-") (sensor_str 0 s)) (skipn (List.length self) self)).

(** ** Editing the contents of a section *)

(** add_section with a name only, htc_contents.py:139-156 (members are not modelled); [float_str] is used by
    HTCOutputAtTimeSection. *)
Definition new_section (float_str : str -> res str) (name : str) : res node :=
  if str_eqb name (S_ "output") then Ok (Sec Output (strip name) [] [] [] [])
  else if startswith name output_at_time then
    match split_ws name with
    | [nm; typ; time] => t <- float_str time ;; Ok (Sec (AtTime typ t) nm [] [] [] [])
    | _ => Err ValueError
    end
  else Ok (Sec Plain (strip name) [] [] [] []).
(** [del section.k], htc_contents.py:90-93. *)
Definition ddel {V} (d : list (str * V)) (k : str) : list (str * V) := filter (fun p => negb (str_eqb (fst p) k)) d.
Inductive edit :=
| AddLine (name : str) (values : list str) (comments : str)       (* section.add_line, lines 212-215 *)
| AddSection (name : str) (allow_duplicate : bool)                (* section.add_section *)
| AddCopy (n : node)                                              (* section._add_contents(n) *)
| SetAttr (k : str) (values : list str)                           (* section.k = [values], lines 72-88 *)
| DelAttr (k : str).                                              (* del section.k *)
Section Edit.
  Variable float_str : str -> res str.
  (** [k in dir(section)]: the attributes and methods of the class, which are never stored in the file. *)
  Variable reserved : str -> bool.
  (** [self.contents[k].values = v], line 84: a line gets the values; in a section, 'values' is itself an unknown
      attribute, so a line named values is set inside that section (SIMPLIFICATION: a subsection named values inside
      it is replaced instead of being searched further). *)
  Definition set_values (n : node) (v : list str) : node :=
    match n with
    | Line nm _ c => Line nm v c
    | Sec k nm bc ec cont ss =>
        Sec k nm bc ec
          (dset cont (S_ "values")
             (match dget cont (S_ "values") with
              | Some (Line nm' _ c') => Line nm' v c'
              | _ => mk_line (S_ "values") v []
              end)) ss
    end.
  Definition apply_edit (d : list (str * node)) (e : edit) : res (list (str * node)) :=
    match e with
    | AddLine nm vs c => add_contents d (mk_line nm vs c)
    | AddSection nm dup =>
        if dmem d nm && negb dup then Ok d else n <- new_section float_str nm ;; add_contents d n
    | AddCopy n => add_contents d n
    | SetAttr k v =>
        if reserved k then Ok d
        else match dget d k with
             | Some n => Ok (dset d k (set_values n v))
             | None => Ok (dset d k (mk_line k v []))
             end
    | DelAttr k => Ok (ddel d k)
    end.
  Fixpoint apply_edits (d : list (str * node)) (es : list edit) : res (list (str * node)) :=
    match es with [] => Ok d | e :: es' => d' <- apply_edit d e ;; apply_edits d' es' end.
End Edit.
