(** Model of add_section of weio/wetb/hawc2/htc_contents.py with its section, members and keyword arguments.
    SIMPLIFICATIONS: as in HTC_Model; the object that is passed is represented by its tree, so parent links and sharing
    are in HTCObj_Model and not here; an existing name with a dot or a slash, which __getitem__ takes for a path
    (lines 46-53), and a line passed where a section is expected are not modelled. *)
From Verif Require Import Py HTC_Model.
Local Open Scope nat_scope.

(** The value of one member: an HTC object, a text or number, a list or tuple, or something that is neither (None). *)
Inductive value := Obj (n : node) | One (v : str) | Many (vs : list str) | Other.

(** section[k] = v: HTCSection.__setitem__, htc_contents.py:217-224, with add_line, lines 212-215, and
    list(values) of HTCLine.__init__, line 303. *)
Definition set_item (d : list (str * node)) (k : str) (v : value) : res (list (str * node)) :=
  match v with
  | Obj n => Ok (dset d k n)
  | One v => add_contents d (mk_line k [v] [])
  | Many vs => add_contents d (mk_line k vs [])
  | Other => Err TypeError
  end.
(** The for loop of lines 154-155: what has been set when it ends, and the exception that ended it. *)
Fixpoint set_items (d : list (str * node)) (l : list (str * value)) : list (str * node) * option exn :=
  match l with
  | [] => (d, None)
  | (k, v) :: l' => match set_item d k v with Ok d' => set_items d' l' | Err e => (d, Some e) end
  end.
(** kwargs.update(members), line 153. *)
Definition update (kwargs members : list (str * value)) : list (str * value) :=
  fold_left (fun d p => dset d (fst p) (snd p)) members kwargs.

Definition path_like (s : str) : bool := existsb (fun c => chr_eqb c (ch 46) || chr_eqb c (ch 47)) s.

(** What is passed first: a name (with or without a section= argument), or a section. *)
Inductive subject := Name (nm : str) (section : option node) | Section_ (n : node).
(** Lines 140-142. *)
Definition subject_name (s : subject) : str := match s with Name nm _ => nm | Section_ n => node_name n end.
Definition subject_section (s : subject) : option node := match s with Name _ o => o | Section_ n => Some n end.

Section Add.
  (** float() of the time of an output_at_time section, as the text of the number *)
  Variable float_str : str -> res str.
  (** The section that is added, lines 145-150. *)
  Definition chosen (s : subject) : res node :=
    let nm := subject_name s in
    if str_eqb nm (S_ "output") || startswith nm output_at_time then new_section float_str nm
    else match subject_section s with None => new_section float_str nm | Some n => Ok n end.
  (** add_section, htc_contents.py:139-156: the contents of the parent afterwards, and what is returned or raised. *)
  Definition add_section (d : list (str * node)) (s : subject) (members : list (str * value)) (allow_duplicate : bool)
      (kwargs : list (str * value)) : list (str * node) * res node :=
    let nm := subject_name s in
    match dget d nm, allow_duplicate with
    | Some n, false => if path_like nm then (d, Err Unmodelled) else (d, Ok n)
    | _, _ =>
        match chosen s with
        | Err e => (d, Err e)
        | Ok (Line _ _ _) => (d, Err Unmodelled)
        | Ok (Sec k name bc ec cont ss) =>
            let '(cont', e) := set_items cont (update kwargs members) in
            let new := Sec k name bc ec cont' ss in
            match add_contents d new with
            | Err e' => (d, Err e')
            | Ok d' => (d', match e with None => Ok new | Some e => Err e end)
            end
        end
    end.
End Add.
