(** Model of the objects of an HTC file and of their parents (weio/wetb/hawc2/htc_contents.py:45-57, 129-137, 157-168, 286-331, 353-354, 364-387, 470-471).
    In the other models of HTC files the contents are a tree; here they are objects with an identity, so that an object may be in two places and [==], which
    is not redefined, is the identity.
    SIMPLIFICATIONS: a heap gives the object with a number, None when there is none; values and texts of lines are texts; sensors are only added to output
    sections; indices of values are not negative; [fuel] of location is the depth of the recursion that Python allows; [basename] is os.path.basename. *)
From Verif Require Import Py HTC_Model HTCCmp_Model.
Local Open Scope nat_scope.

Inductive okind := File (filename : option str) | Section_ | Output_ | Line_ (values : list str) | Sensor_.
Record obj := mk_obj { o_kind : okind; o_name : str; o_cont : list (str * nat); o_sens : list nat; o_parent : option nat }.
Definition heap := nat -> option obj.
Definition upd (h : heap) (i : nat) (o : obj) : heap := fun j => if j =? i then Some o else h j.
Definition with_cont (o : obj) (c : list (str * nat)) : obj := mk_obj (o_kind o) (o_name o) c (o_sens o) (o_parent o).
Definition with_sens (o : obj) (l : list nat) : obj := mk_obj (o_kind o) (o_name o) (o_cont o) l (o_parent o).
Definition with_parent (o : obj) (p : option nat) : obj := mk_obj (o_kind o) (o_name o) (o_cont o) (o_sens o) p.
(** [contents.parent = self] *)
Definition set_parent (h : heap) (c p : nat) : heap := match h c with Some o => upd h c (with_parent o (Some p)) | None => h end.

(** [_add_contents], lines 129-137 and 382-386 *)
Definition add (h : heap) (p c : nat) : res heap :=
  match h p, h c with
  | Some op, Some oc =>
      match o_kind op, o_kind oc with
      | Line_ _, _ | Sensor_, _ => Err NotImplementedError
      | Output_, Sensor_ => Ok (set_parent (upd h p (with_sens op (o_sens op ++ [c]))) c p)
      | _, Sensor_ => Err Unmodelled
      | _, _ => match new_key (o_cont op) (o_name oc) with Some k => Ok (set_parent (upd h p (with_cont op (dset (o_cont op) k c))) c p) | None => Err Unmodelled end
      end
  | _, _ => Err Unmodelled
  end.
(** [sensors.remove(self)] *)
Fixpoint remove_first (s : nat) (l : list nat) : option (list nat) :=
  match l with [] => None | x :: l' => if x =? s then Some l' else option_map (cons x) (remove_first s l') end.
(** [delete], lines 157-160 and 470-471 *)
Definition delete (h : heap) (s : nat) : res heap :=
  match h s with
  | None => Err Unmodelled
  | Some o =>
      match o_parent o with
      | None => Err AttributeError
      | Some p =>
          match h p with
          | None => Err Unmodelled
          | Some op =>
              match o_kind o with
              | Sensor_ => match remove_first s (o_sens op) with Some l => Ok (upd h p (with_sens op l)) | None => Err ValueError end
              | _ => Ok (upd h p (with_cont op (filter (fun e => negb (snd e =? s)) (o_cont op))))
              end
          end
      end
  end.
(** [object[key]] for a text without dots and slashes, lines 45-55 and 320-324 *)
Definition step_ (h : heap) (i : nat) (k : str) : res nat :=
  match h i with
  | None => Err Unmodelled
  | Some o =>
      match o_kind o with
      | Line_ _ | Sensor_ => Err TypeError
      | _ => match dget (o_cont o) k with Some c => Ok c | None => Err KeyError end
      end
  end.
Fixpoint walk_ (h : heap) (i : nat) (ks : list str) : res nat := match ks with [] => Ok i | k :: ks' => j <- step_ h i k ;; walk_ h j ks' end.
(** [object[key]] *)
Definition getitem_ (h : heap) (i : nat) (key : str) : res nat := if path_key key then walk_ h i (split_chr fslash (undot key)) else step_ h i key.
(** the keys under which the parent holds the object: [k for k in self.parent.keys() if self.parent[k] == self] *)
Fixpoint held_under (h : heap) (p s : nat) (ks : list str) : res (list str) :=
  match ks with [] => Ok [] | k :: ks' => c <- getitem_ h p k ;; r <- held_under h p s ks' ;; Ok (if c =? s then k :: r else r) end.
Section Location.
  Variable basename : str -> str.
  (** [location], lines 162-167 *)
  Fixpoint location (fuel : nat) (h : heap) (s : nat) : res str :=
    match fuel with
    | 0 => Err RecursionError
    | S f =>
        match h s with
        | None => Err Unmodelled
        | Some o =>
            match o_parent o with
            | None =>
                match o_kind o with
                | File (Some n) => Ok (basename n)
                | File None | Line_ _ | Sensor_ => Err TypeError
                | _ => if dmem (o_cont o) (S_ "filename") then Err TypeError else Err KeyError
                end
            | Some p =>
                match h p with
                | None => Err Unmodelled
                | Some op => ks <- held_under h p s (map fst (o_cont op)) ;; match ks with [] => Err IndexError | k :: _ => l <- location f h p ;; Ok (l ++ S_ "/" ++ k) end
                end
            end
        end
    end.
  (** [line[i]], lines 320-324: the message of the exception has the location *)
  Definition value_at (fuel : nat) (h : heap) (s i : nat) : res str :=
    match h s with
    | Some o =>
        match o_kind o with
        | Line_ vs => match nth_error vs i with Some v => Ok v | None => _ <- location fuel h s ;; Err IndexError end
        | _ => Err Unmodelled
        end
    | None => Err Unmodelled
    end.
End Location.
(** ** copy, lines 288-292 and 353-354: the copies are new objects; [fst] of a state is the number of the next one *)
Definition state := (nat * heap)%type.
Definition new_obj (st : state) (o : obj) : state * nat := ((S (fst st), upd (snd st) (fst st) o), fst st).
Fixpoint copy_members (cp : state -> nat -> res (state * nat)) (st : state) (l : list (str * nat)) : res (state * list (str * nat)) :=
  match l with
  | [] => Ok (st, [])
  | e :: l' => r <- cp st (snd e) ;; q <- copy_members cp (fst r) l' ;; Ok (fst q, (fst e, snd r) :: snd q)
  end.
Fixpoint copy_ (fuel : nat) (st : state) (s : nat) : res (state * nat) :=
  match fuel with
  | 0 => Err RecursionError
  | S f =>
      match snd st s with
      | None => Err Unmodelled
      | Some o =>
          match o_kind o with
          | Line_ vs => Ok (new_obj st (mk_obj (Line_ vs) (o_name o) [] [] None))
          | Section_ | Output_ => q <- copy_members (copy_ f) st (o_cont o) ;; Ok (new_obj (fst q) (mk_obj Section_ (o_name o) (snd q) [] None))
          | _ => Err Unmodelled
          end
      end
  end.
