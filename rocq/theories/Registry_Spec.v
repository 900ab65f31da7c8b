(** Independent vocabulary for the registry properties. *)
From Verif Require Import Py Registry_Model.
From Coq Require Import Permutation Sorted.

(** [l'] is [l] stably sorted by priority: same formats, non-decreasing priority, and the formats of any
    given priority appear in the same order. *)
Definition StablySorted (l l' : list (Z * fmt)) : Prop :=
  Permutation l l' /\
  StronglySorted (fun x y => (fst x <= fst y)%Z) l' /\
  forall p : Z, filter (fun x => (fst x =? p)%Z) l' = filter (fun x => (fst x =? p)%Z) l.

(** A user file is skipped only when its path is literally __init__.py. *)
Definition skipped (m : umodule) : bool := str_eqb (u_path m) (S_ "__init__.py").

Definition wanted (x : member) : bool :=
  match x with
  | MClass n _ _ =>
      negb (str_eqb (lower n) (S_ "file")) && contains (lower n) (S_ "file")
      && negb (contains (lower n) (S_ "error"))
  | MOther => false
  end.

(** What one user file contributes to the registry: the first class whose name contains file (not
    exactly file, and without error), provided it describes itself; priority 2 by default. *)
Definition contribution (m : umodule) : list (Z * fmt) :=
  if skipped m then [] else
  match u_load m with
  | Some ms => match find wanted ms with
               | Some (MClass _ (Some f) p) => [(match p with Some z => z | None => 2%Z end, f)]
               | _ => []
               end
  | None => []
  end.
Definition faulty (m : umodule) : bool :=
  negb (skipped m) && match contribution m with [] => true | _ => false end.

(** Prefix matching of the atoms of a rewritten pattern. *)
Inductive MatchesPrefix : list atom -> str -> Prop :=
| mp_nil s : MatchesPrefix [] s
| mp_lit c ats s : MatchesPrefix ats s -> MatchesPrefix (Lit c :: ats) (c :: s)
| mp_dots n ats s : MatchesPrefix ats s -> MatchesPrefix (Dots :: ats) (repeat dot n ++ s).

(** A sequence of calls to fileFormats in one python session. *)
Fixpoint calls (st : cache) (ops : list (bool * list umodule)) : cache * list (res retval) :=
  match ops with
  | [] => (st, [])
  | (ign, files) :: ops' =>
      let (st1, r) := fileFormats st ign files in
      let (st2, rs) := calls st1 ops' in (st2, r :: rs)
  end.
