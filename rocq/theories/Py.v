(** Python primitives shared by all models: exceptions as values, and the string
    operations of CPython restricted to one-byte characters.
    SIMPLIFICATION (all files): text is a list of 8-bit characters; non-ASCII case
    folding and Unicode white space are not modelled. *)
From Coq Require Export Ascii String.
From Coq Require Export Arith NArith ZArith Bool Lia List.
From Coq Require Decimal DecimalN.
Export ListNotations.
Open Scope list_scope.
Open Scope nat_scope.

(** ** Exceptions and results *)

(** The exception classes that weio raises or lets through
    (weio/file.py:3-13, weio/__init__.py:7-11, and CPython builtins). *)
Inductive exn : Type :=
| WrongFormatError | EmptyFileError | BrokenFormatError | BrokenReaderError
| FormatNotDetectedError | UserFormatImportError
| OSError2            (* OSError(2, 'File not found') / FileNotFoundError *)
| PlainException      (* raise Exception('...') *)
| ValueError | IndexError | KeyError | TypeError | AttributeError | NameError
| UnboundLocalError | StructError | AssertionError | NotImplementedError
| ZeroDivisionError | EOFError | MemoryError | StopIteration | RecursionError
| UnicodeDecodeError | OverflowError | ModuleNotFoundError
| OutOfFuel           (* not a python exception: the model ran out of fuel *)
| Unmodelled.         (* not a python exception: a branch of the code that is not modelled *)

Inductive res (A : Type) : Type := Ok (a : A) | Err (e : exn).
Arguments Ok {A} a.
Arguments Err {A} e.

Definition bind {A B} (r : res A) (f : A -> res B) : res B :=
  match r with Ok a => f a | Err e => Err e end.
Notation "x <- r ;; k" := (bind r (fun x => k)) (at level 61, r at next level, right associativity).
Notation "' p <- r ;; k" := (bind r (fun x => match x with p => k end))
  (at level 61, p pattern, r at next level, right associativity).

Definition exn_eqb (a b : exn) : bool :=
  match a, b with
  | WrongFormatError, WrongFormatError | EmptyFileError, EmptyFileError
  | BrokenFormatError, BrokenFormatError | BrokenReaderError, BrokenReaderError
  | FormatNotDetectedError, FormatNotDetectedError
  | UserFormatImportError, UserFormatImportError | OSError2, OSError2
  | PlainException, PlainException | ValueError, ValueError | IndexError, IndexError
  | KeyError, KeyError | TypeError, TypeError | AttributeError, AttributeError
  | NameError, NameError | UnboundLocalError, UnboundLocalError
  | StructError, StructError | AssertionError, AssertionError
  | NotImplementedError, NotImplementedError | ZeroDivisionError, ZeroDivisionError
  | EOFError, EOFError | MemoryError, MemoryError | StopIteration, StopIteration
  | RecursionError, RecursionError
  | UnicodeDecodeError, UnicodeDecodeError | OverflowError, OverflowError
  | ModuleNotFoundError, ModuleNotFoundError
  | OutOfFuel, OutOfFuel | Unmodelled, Unmodelled => true
  | _, _ => false
  end.

(** ** Strings *)

Notation str := (list ascii).
(** Python string literal. *)
Definition S_ (x : string) : str := list_ascii_of_string x.
Arguments S_ x%string_scope.

Definition ch (n : nat) : ascii := ascii_of_nat n.
Definition ord (c : ascii) : nat := nat_of_ascii c.

Definition chr_eqb (a b : ascii) : bool := Ascii.eqb a b.

Fixpoint str_eqb (a b : str) : bool :=
  match a, b with
  | [], [] => true
  | x :: a', y :: b' => chr_eqb x y && str_eqb a' b'
  | _, _ => false
  end.

(** [str.isspace] on one-byte characters of ASCII: \t \n \v \f \r, FS GS RS US, space. *)
Definition is_space (c : ascii) : bool :=
  let n := ord c in
  ((9 <=? n) && (n <=? 13)) || ((28 <=? n) && (n <=? 32)).

Fixpoint lstrip (s : str) : str :=
  match s with
  | [] => []
  | c :: s' => if is_space c then lstrip s' else s
  end.
Definition rstrip (s : str) : str := rev (lstrip (rev s)).
Definition strip (s : str) : str := rstrip (lstrip s).

(** [str.lower] / [str.upper], ASCII letters. *)
Definition lower_c (c : ascii) : ascii :=
  let n := ord c in if (65 <=? n) && (n <=? 90) then ch (n + 32) else c.
Definition upper_c (c : ascii) : ascii :=
  let n := ord c in if (97 <=? n) && (n <=? 122) then ch (n - 32) else c.
Definition lower (s : str) : str := map lower_c s.
Definition upper (s : str) : str := map upper_c s.

Fixpoint startswith (s p : str) {struct p} : bool :=
  match p, s with
  | [], _ => true
  | y :: p', x :: s' => chr_eqb x y && startswith s' p'
  | _ :: _, [] => false
  end.
Definition endswith (s p : str) : bool := startswith (rev s) (rev p).

(** [sub in s] *)
Fixpoint contains (s sub : str) : bool :=
  startswith s sub ||
  match s with
  | [] => false
  | _ :: s' => contains s' sub
  end.

Definition mem_chr (c : ascii) (s : str) : bool := existsb (chr_eqb c) s.

(** [s.find(c)] for one character; [None] stands for -1. *)
Fixpoint find_chr (c : ascii) (s : str) : option nat :=
  match s with
  | [] => None
  | x :: s' => if chr_eqb x c then Some 0
               else match find_chr c s' with Some n => Some (S n) | None => None end
  end.

(** [s.replace(a, b)] for a one-character [a]. *)
Definition replace_chr (a : ascii) (b : str) (s : str) : str :=
  flat_map (fun c => if chr_eqb c a then b else [c]) s.

(** [s.split(c)] for a one-character separator: always at least one piece. *)
Fixpoint split_on (p : ascii -> bool) (s : str) : list str :=
  match s with
  | [] => [[]]
  | c :: s' =>
      if p c then [] :: split_on p s'
      else match split_on p s' with
           | [] => [[c]]
           | w :: ws => (c :: w) :: ws
           end
  end.
Definition split_chr (c : ascii) (s : str) : list str := split_on (fun x => chr_eqb x c) s.

Definition nonempty {A} (l : list A) : bool := match l with [] => false | _ => true end.

(** [s.split()]: maximal runs of non-blank characters. *)
Definition split_ws (s : str) : list str := filter nonempty (split_on is_space s).

(** [sep.join(l)] *)
Fixpoint join (sep : str) (l : list str) : str :=
  match l with
  | [] => []
  | [w] => w
  | w :: ws => w ++ sep ++ join sep ws
  end.

(** [str.splitlines()] on ASCII line boundaries: \n, \r, \r\n, \v, \f, \x1c, \x1d, \x1e. *)
Definition is_linebreak (c : ascii) : bool :=
  let n := ord c in ((10 <=? n) && (n <=? 13)) || ((28 <=? n) && (n <=? 30)).

Fixpoint splitlines_aux (acc : str) (s : str) : list str :=
  match s with
  | [] => match acc with [] => [] | _ => [rev acc] end
  | c :: s' =>
      if Nat.eqb (ord c) 13 then
        match s' with
        | d :: s'' => if Nat.eqb (ord d) 10 then rev acc :: splitlines_aux [] s''
                      else rev acc :: splitlines_aux [] s'
        | [] => [rev acc]
        end
      else if is_linebreak c then rev acc :: splitlines_aux [] s'
      else splitlines_aux (c :: acc) s'
  end.
Definition splitlines (s : str) : list str := splitlines_aux [] s.

Definition nl : ascii := ch 10.
Definition sp : ascii := ch 32.
Definition tab : ascii := ch 9.

(** ** Decimal integers *)

Definition is_digit (c : ascii) : bool := let n := ord c in (48 <=? n) && (n <=? 57).

Fixpoint str_of_uint (d : Decimal.uint) : str :=
  match d with
  | Decimal.Nil => []
  | Decimal.D0 d => ch 48 :: str_of_uint d
  | Decimal.D1 d => ch 49 :: str_of_uint d
  | Decimal.D2 d => ch 50 :: str_of_uint d
  | Decimal.D3 d => ch 51 :: str_of_uint d
  | Decimal.D4 d => ch 52 :: str_of_uint d
  | Decimal.D5 d => ch 53 :: str_of_uint d
  | Decimal.D6 d => ch 54 :: str_of_uint d
  | Decimal.D7 d => ch 55 :: str_of_uint d
  | Decimal.D8 d => ch 56 :: str_of_uint d
  | Decimal.D9 d => ch 57 :: str_of_uint d
  end.

Definition uint_cons (c : ascii) (d : Decimal.uint) : option Decimal.uint :=
  match ord c with
  | 48 => Some (Decimal.D0 d) | 49 => Some (Decimal.D1 d) | 50 => Some (Decimal.D2 d)
  | 51 => Some (Decimal.D3 d) | 52 => Some (Decimal.D4 d) | 53 => Some (Decimal.D5 d)
  | 54 => Some (Decimal.D6 d) | 55 => Some (Decimal.D7 d) | 56 => Some (Decimal.D8 d)
  | 57 => Some (Decimal.D9 d)
  | _ => None
  end.

Fixpoint uint_of_str (s : str) : option Decimal.uint :=
  match s with
  | [] => Some Decimal.Nil
  | c :: s' => match uint_of_str s' with
               | Some d => uint_cons c d
               | None => None
               end
  end.

(** [str(n)] for a natural number. *)
Definition str_of_N (n : N) : str := str_of_uint (N.to_uint n).
(** [str(z)] *)
Definition str_of_Z (z : Z) : str :=
  match z with
  | Zneg p => ch 45 :: str_of_N (Npos p)
  | _ => str_of_N (Z.to_N z)
  end.

(** [int(s)] for a non-empty run of digits. *)
Definition N_of_str (s : str) : option N :=
  match s with
  | [] => None
  | _ => match uint_of_str s with Some d => Some (N.of_uint d) | None => None end
  end.

(** [int(s)]: surrounding blanks, optional sign, digits.
    SIMPLIFICATION: digit separators '_' (PEP 515) are not accepted. *)
Definition int_ (s : str) : res Z :=
  match strip s with
  | c :: t =>
      if chr_eqb c (ch 45) then
        match N_of_str t with Some n => Ok (- Z.of_N n)%Z | None => Err ValueError end
      else if chr_eqb c (ch 43) then
        match N_of_str t with Some n => Ok (Z.of_N n) | None => Err ValueError end
      else match N_of_str (c :: t) with Some n => Ok (Z.of_N n) | None => Err ValueError end
  | [] => Err ValueError
  end.
