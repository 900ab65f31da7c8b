(** Model of comparing HTC files and of finding an item of an HTC file (weio/wetb/hawc2/htc_contents.py:45-56, 106-126, 169-193, 261-286, 320-324, 345-351,
    397-406; weio/wetb/hawc2/htc_file.py:501-504).
    SIMPLIFICATIONS: as in HTC_Model a value is its text, so two values are equal when their texts are (1 and 1.0 are both read as the number 1); the file names
    that compare also accepts are not opened; parent links are not modelled: the parent is an argument; in compare, an item whose key contains "." or "/" is
    unmodelled (see [getitem] for what such a key finds). *)
From Verif Require Import Py FASTOut_Model HTC_Model HTCSim_Model.
Local Open Scope nat_scope.

(** ** section[key], htc_contents.py:45-56, 320-324 *)
Definition dot : ascii := ch 46.
Definition fslash : ascii := ch 47.
(** [key.replace('.', '/')] *)
Definition undot (key : str) : str := map (fun c => if chr_eqb c dot then fslash else c) key.
(** ["/" in key.replace(".", "/")] *)
Definition path_key (key : str) : bool := existsb (fun c => chr_eqb c fslash) (undot key).
(** [val[k]] for a word [k] without "/": the contents of a section (KeyError); the values of a line are not indexed by words: the exception handler of line
    324 fails itself on [key + 1] (TypeError) *)
Definition step (n : node) (k : str) : res node :=
  match n with Sec _ _ _ _ cont _ => attr cont k | Line _ _ _ => Err TypeError end.
Fixpoint walk (n : node) (ks : list str) : res node :=
  match ks with [] => Ok n | k :: ks' => m <- step n k ;; walk m ks' end.
(** [section[key]] of a section or file with these contents *)
Definition getitem (cont : dict_) (key : str) : res node :=
  if path_key key then match split_chr fslash (undot key) with k0 :: ks => n <- attr cont k0 ;; walk n ks | [] => Err Unmodelled end
  else attr cont key.
(** get, htc_contents.py:106-110 (None is the default) *)
Definition get (cont : dict_) (key : str) : res (option node) :=
  match getitem cont key with Ok n => Ok (Some n) | Err KeyError => Ok None | Err e => Err e end.

(** ** compare *)

(** the text of one block of the report: every line of the item after the sign *)
Definition block (sign t : str) : str := diff_lines sign t ++ [nl].
Section Cmp.
  (** the contents of the other section *)
  Variable oc : dict_.
  (** [other[key]] *)
  Definition other (k : str) : res node := if path_key k then Err Unmodelled else attr oc k.
  (** [str(other[key])] with the sign + *)
  Definition plus (k : str) : res str := n <- other k ;; t <- node_str 0 n ;; Ok (block (S_ "+") t).
  Fixpoint plus_all (ks : list str) : res str :=
    match ks with [] => Ok [] | k :: ks' => s <- plus k ;; r <- plus_all ks' ;; Ok (s ++ r) end.
  Definition mem (k : str) (ks : list str) : bool := existsb (str_eqb k) ks.
  (** [other_keys.pop(other_keys.index(k))] *)
  Fixpoint remove1 (k : str) (ks : list str) : list str :=
    match ks with [] => [] | x :: ks' => if str_eqb k x then ks' else x :: remove1 k ks' end.
  (** lines 179-182 with compare_order: the keys before [k] are popped and reported *)
  Fixpoint pop_until (k : str) (ks : list str) : res (str * list str) :=
    match ks with
    | [] => Err IndexError
    | x :: ks' => if str_eqb k x then Ok ([], ks') else s <- plus x ;; '(s', ks1) <- pop_until k ks' ;; Ok (s ++ s', ks1)
    end.
  Variable order : bool.
  Variable cmp : node -> node -> res str.
  (** the loop of lines 173-192: [l] are the items left in self, [ok] the keys left in other *)
  Fixpoint cmp_loop (l : dict_) (ok : list str) {struct l} : res str :=
    match l with
    | [] => plus_all ok
    | (k, n) :: l' =>
        if path_key k then Err Unmodelled
        else if mem k ok then
          '(s, ok1) <- (if order then pop_until k ok else Ok ([], remove1 k ok)) ;;
          b <- other k ;; d <- cmp n b ;; r <- cmp_loop l' ok1 ;; Ok (s ++ d ++ r)
        else t <- node_str 0 n ;; r <- cmp_loop l' ok ;; Ok (block (S_ "-") t ++ r)
    end.
End Cmp.
(** HTCLine.compare, htc_contents.py:345-351: a difference shows self with + and other with - *)
Definition changed (a b : node) : res str :=
  ta <- node_str 0 a ;; tb <- node_str 0 b ;; Ok (diff_lines (S_ "+") ta ++ diff_lines (S_ "-") tb ++ [nl]).
(** [other.sensors] of a section without sensors is searched in its contents, htc_contents.py:58-69 *)
Definition their_sensors (k : kind) (cont : dict_) (ss : list sensor) : res (list sensor) :=
  match k with
  | Plain => if dmem cont (S_ "sensors") then Err Unmodelled else Err KeyError
  | _ => Ok ss
  end.
(** [self.compare(other)] of two items: lines, sections and output sections (lines 397-406) *)
Fixpoint node_cmp (a b : node) {struct a} : res str :=
  match a with
  | Line _ vs _ =>
      match b with
      | Line _ vs' _ => if strs_eqb vs vs' then Ok [] else changed a b
      | Sec _ _ _ _ cont' _ => if dmem cont' (S_ "values") then changed a b else Err KeyError
      end
  | Sec k _ _ _ cont ss =>
      match b with
      | Line _ _ _ => Err AttributeError
      | Sec k' _ _ _ cont' ss' =>
          s <- cmp_loop cont' false node_cmp cont (map fst cont') ;;
          match k with
          | Plain => Ok s
          | _ => so <- their_sensors k' cont' ss' ;; Ok (s ++ sensors_compare ss so)
          end
      end
  end.
(** HTCFile.compare, htc_file.py:501-504, and [section.compare(other, compare_order)] of plain sections *)
Definition cont_cmp (order : bool) (c c' : dict_) : res str := cmp_loop c' order node_cmp c (map fst c').

(** ** Finding an item by the value of one of its lines *)

(** [s[field][0]], htc_contents.py:320-324; a section has no values (KeyError, unless it has an item named values) *)
Definition first_value (n : node) : res str :=
  match n with
  | Line _ (v :: _) _ => Ok v
  | Line _ [] _ => Err IndexError
  | Sec _ _ _ _ cont _ => if dmem cont (S_ "values") then Err Unmodelled else Err KeyError
  end.
(** [field in s and s[field][0] == name] (SIMPLIFICATION: a field with "." or "/" is unmodelled) *)
Definition has_value (field name : str) (s : node) : res bool :=
  match s with
  | Line _ _ _ => Ok false
  | Sec _ _ _ _ cont _ =>
      match dget cont field with
      | None => Ok false
      | Some l => if path_key field then Err Unmodelled else v <- first_value l ;; Ok (str_eqb v name)
      end
  end.
Fixpoint filter_res {A} (f : A -> res bool) (l : list A) : res (list A) :=
  match l with [] => Ok [] | x :: l' => b <- f x ;; r <- filter_res f l' ;; Ok (if b then x :: r else r) end.
(** get_section, htc_contents.py:264-271, over __iter__ (main bodies first) *)
Definition get_section (cont : dict_) (field name : str) : res node :=
  lst <- filter_res (has_value field name) (map snd (iter_order node_name cont)) ;;
  match lst with [s] => Ok s | _ => Err ValueError end.
(** [item(field=v)], htc_contents.py:112-123, for an item with this name in a section with these contents and a field that does not start with "v" *)
Definition call_field (cont : dict_) (me field v : str) : res node :=
  lst <- filter_res (fun s => if str_eqb (node_name s) me then has_value field v s else Ok false) (map snd (iter_order node_name cont)) ;;
  match lst with [s] => Ok s | _ => Err AssertionError end.
(** [item(v0=v, v1=w ...)] of lines: all the given positions have these values (SIMPLIFICATION: sections of that name are unmodelled) *)
Fixpoint all_values (vs : list str) (kw : list (nat * str)) : res bool :=
  match kw with
  | [] => Ok true
  | (i, v) :: kw' => match nth_error vs i with None => Err IndexError | Some x => b <- all_values vs kw' ;; Ok (str_eqb x v && b) end
  end.
Definition call_values (cont : dict_) (me : str) (kw : list (nat * str)) : res node :=
  lst <- filter_res (fun s => if str_eqb (node_name s) me then match s with Line _ vs _ => all_values vs kw | Sec _ _ _ _ _ _ => Err Unmodelled end else Ok false)
           (map snd (iter_order node_name cont)) ;;
  match lst with [s] => Ok s | _ => Err AssertionError end.
(** [get_element(i, v)] with a position, htc_contents.py:273-286: every item must be a line; [s.values] of a section is searched in its contents *)
Definition value_at (i : nat) (v : str) (s : node) : res bool :=
  match s with
  | Line _ vs _ => all_values vs [(i, v)]
  | Sec _ _ _ _ cont _ => if dmem cont (S_ "values") then Err Unmodelled else Err KeyError
  end.
Definition get_element_at (cont : dict_) (i : nat) (v : str) : res node :=
  lst <- filter_res (value_at i v) (map snd (iter_order node_name cont)) ;;
  match lst with [s] => Ok s | _ => Err ValueError end.
(** [get_element(key, v)] with a word, line 278: the name [name] is not defined, so the first item that has this key raises NameError *)
Definition named (key : str) (s : node) : res bool :=
  match s with
  | Line _ _ _ => Ok false
  | Sec _ _ _ _ cont _ =>
      match dget cont key with
      | None => Ok false
      | Some l => if path_key key then Err Unmodelled else _ <- first_value l ;; Err NameError
      end
  end.
Definition get_element_key (cont : dict_) (key : str) : res node :=
  lst <- filter_res (named key) (map snd (iter_order node_name cont)) ;;
  match lst with [s] => Ok s | _ => Err ValueError end.
