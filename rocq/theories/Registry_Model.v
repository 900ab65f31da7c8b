(** Model of weio/__init__.py (format registry, detection, read) and weio/file_formats.py. *)
From Verif Require Import Py.

(** ** os.path.splitext (posixpath / genericpath._splitext, called at __init__.py:215) *)

(** Index-free formulation: the base name is what follows the last '/'; its extension starts at its last
    '.' unless everything before that '.' in the base name is dots only. *)
Fixpoint rsplit1 (c : ascii) (s : str) : option (str * str) :=
  match s with
  | [] => None
  | x :: s' => match rsplit1 c s' with
               | Some (a, b) => Some (x :: a, b)
               | None => if chr_eqb x c then Some ([], s') else None
               end
  end.
Definition slash := ch 47.
Definition dot := ch 46.
Definition basename (s : str) : str :=
  match rsplit1 slash s with Some (_, b) => b | None => s end.
Definition splitext_ext (s : str) : str :=
  let b := basename s in
  match rsplit1 dot b with
  | Some (r, e) => if forallb (fun c => chr_eqb c dot) r then [] else dot :: e
  | None => []
  end.

(** ** Formats: file_formats.py:16-24 *)
Record fmt := Fmt { f_cls : nat;          (* the constructor (identity of the class) *)
                    f_name : str;          (* class name; the text of formatName() is not modelled *)
                    f_exts : list str }.

(** The library formats in registration order with their priorities: __init__.py:63-95, with the
    [defaultExtensions()] of each class.  The class identity is the registration number. *)
Definition lib_formats : list (Z * fmt) :=
 [ (0,  Fmt 0  (S_ "CSVFile")               [S_ ".csv"; S_ ".txt"]);
   (0,  Fmt 1  (S_ "ExcelFile")             [S_ ".xls"; S_ ".xlsx"]);
   (10, Fmt 2  (S_ "TecplotFile")           [S_ ".dat"]);
   (10, Fmt 3  (S_ "BladedFile")            [S_ ".%*"; S_ ".$*"]);
   (20, Fmt 4  (S_ "FASTInputFile")         [S_ ".dat"; S_ ".fst"; S_ ".txt"; S_ ".fstf"]);
   (20, Fmt 5  (S_ "FASTOutputFile")        [S_ ".out"; S_ ".outb"; S_ ".elm"; S_ ".elev"]);
   (20, Fmt 6  (S_ "FASTWndFile")           [S_ ".wnd"]);
   (20, Fmt 7  (S_ "FASTLinearizationFile") [S_ ".lin"]);
   (20, Fmt 8  (S_ "FASTSummaryFile")       [S_ ".sum"; S_ ".yaml"]);
   (20, Fmt 9  (S_ "TurbSimTSFile")         [S_ ".txt"]);
   (20, Fmt 10 (S_ "TurbSimFile")           [S_ ".bts"]);
   (30, Fmt 11 (S_ "HAWC2DatFile")          [S_ ".dat"; S_ ".sel"]);
   (30, Fmt 12 (S_ "HAWC2HTCFile")          [S_ ".htc"]);
   (30, Fmt 13 (S_ "HAWC2StFile")           [S_ ".st"; S_ ".dat"]);
   (30, Fmt 14 (S_ "HAWC2PCFile")           [S_ ".dat"; S_ ".pc"; S_ ".txt"]);
   (30, Fmt 15 (S_ "HAWC2AEFile")           [S_ ".dat"; S_ ".ae"; S_ ".txt"]);
   (30, Fmt 16 (S_ "HAWCStab2PwrFile")      [S_ ".pwr"; S_ ".txt"]);
   (30, Fmt 17 (S_ "HAWCStab2IndFile")      [S_ ".ind"; S_ ".txt"]);
   (30, Fmt 18 (S_ "HAWCStab2CmbFile")      [S_ ".cmb"]);
   (30, Fmt 19 (S_ "MannBoxFile")           [S_ ".u"; S_ ".v"; S_ ".w"; S_ ".bin"]);
   (40, Fmt 20 (S_ "FLEXBladeFile")         [S_ ".bld"; S_ ".bla"; S_ ".00X"]);
   (40, Fmt 21 (S_ "FLEXProfileFile")       [S_ ".pro"; S_ ".00X"]);
   (40, Fmt 22 (S_ "FLEXOutFile")           [S_ ".res"; S_ ".int"]);
   (40, Fmt 23 (S_ "FLEXWaveKinFile")       [S_ ".wko"]);
   (40, Fmt 24 (S_ "FLEXDocFile")           [S_ ".out"; S_ "doc"]);
   (50, Fmt 25 (S_ "BModesOutFile")         [S_ ".out"]);
   (50, Fmt 26 (S_ "ROSCOPerformanceFile")  [S_ ".txt"]);
   (60, Fmt 27 (S_ "NetCDFFile")            [S_ ".nc"]);
   (60, Fmt 28 (S_ "VTKFile")               [S_ ".vtk"; S_ ".vtp"]);
   (60, Fmt 29 (S_ "TDMSFile")              [S_ ".tdms"]);
   (60, Fmt 30 (S_ "ParquetFile")           [S_ ".parquet"]);
   (70, Fmt 31 (S_ "CactusFile")            [S_ ".in"]);
   (70, Fmt 32 (S_ "RAAWMatFile")           [S_ ".mat"]) ]%Z.

(** ** User classes: __init__.py:127-179 *)

(** A member of a python module as [inspect.getmembers] lists it: a class (its [__name__], what
    [FileFormat(cls)] gives, what [cls.priority()] gives) or something else. *)
Inductive member :=
| MClass (name : str) (ff : option fmt) (prio : option Z)
| MOther.

(** A user python file: its path as returned by glob and the result of loading it. *)
Record umodule := UModule { u_path : str; u_load : option (list member) }.

(** The class selection test of __init__.py:163-164. *)
Definition is_file_class (name : str) : bool :=
  let n := lower name in
  negb (str_eqb n (S_ "file")) && contains n (S_ "file") && negb (contains n (S_ "error")).

(** First class of the module that satisfies the test: loop of __init__.py:160-172 (with [break]). *)
Fixpoint pick_class (ms : list member) : option (option fmt * option Z) :=
  match ms with
  | [] => None
  | MClass n ff p :: ms' => if is_file_class n then Some (ff, p) else pick_class ms'
  | MOther :: ms' => pick_class ms'
  end.

(** Loop of __init__.py:145-178.  [ignore] is ignoreErrors.  The result is the list of selected classes
    and the number of recorded error messages (texts of messages are not modelled). *)
Fixpoint userFileClasses (ignore : bool) (files : list umodule)
  : res (list (option fmt * option Z) * nat) :=
  match files with
  | [] => Ok ([], 0)
  | f :: fs =>
      if str_eqb (u_path f) (S_ "__init__.py") then userFileClasses ignore fs
      else match u_load f with
           | None => if ignore then
                       '(cs, n) <- userFileClasses ignore fs ;; Ok (cs, S n)
                     else Err UserFormatImportError
           | Some ms =>
               match pick_class ms with
               | Some c => '(cs, n) <- userFileClasses ignore fs ;; Ok (c :: cs, n)
               | None => if ignore then
                           '(cs, n) <- userFileClasses ignore fs ;; Ok (cs, S n)
                         else Err UserFormatImportError
               end
           end
  end.

(** Registration of the user classes: __init__.py:99-114 (default priority 2).  [ff = None] stands for
    an exception raised by [FileFormat(cls)], [prio = None] for one raised by [cls.priority()]. *)
Fixpoint registerUser (ignore : bool) (cs : list (option fmt * option Z))
  : res (list (Z * fmt) * nat) :=
  match cs with
  | [] => Ok ([], 0)
  | (ff, p) :: cs' =>
      match ff with
      | None => if ignore then
                  '(l, n) <- registerUser ignore cs' ;; Ok (l, S n)
                else Err UserFormatImportError
      | Some f =>
          '(l, n) <- registerUser ignore cs' ;;
          Ok ((match p with Some z => z | None => 2%Z end, f) :: l, n)
      end
  end.

(** [np.argsort(priorities, kind='stable')] followed by indexing: __init__.py:117.  numpy's stable sort is
    modelled by insertion sort on the keys. *)
Fixpoint insert_prio (x : Z * fmt) (l : list (Z * fmt)) : list (Z * fmt) :=
  match l with
  | [] => [x]
  | y :: l' => if (fst x <=? fst y)%Z then x :: y :: l' else y :: insert_prio x l'
  end.
Fixpoint sort_prio (l : list (Z * fmt)) : list (Z * fmt) :=
  match l with [] => [] | x :: l' => insert_prio x (sort_prio l') end.

(** The registry built by a first call: __init__.py:58-117; result: sorted formats, number of errors. *)
Definition buildFormats (ignore : bool) (files : list umodule) : res (list (Z * fmt) * nat) :=
  '(cs, n1) <- userFileClasses ignore files ;;
  '(us, n2) <- registerUser ignore cs ;;
  Ok (sort_prio (lib_formats ++ us), n1 + n2).

(** ** The module-level cache: __init__.py:14,21-23,119-123 *)
Inductive retval :=
| RList (fs : list fmt)                 (* return formats *)
| RPair (fs : list fmt) (nerr : nat).   (* return formats, errors *)

Definition cache := option (list fmt).   (* _FORMATS *)

(** One call [fileFormats(userpath, ignoreErrors)]; [files] is the content of [userpath] at that time. *)
Definition fileFormats (st : cache) (ignore : bool) (files : list umodule) : cache * res retval :=
  match st with
  | Some fs => (st, Ok (RList fs))
  | None =>
      match buildFormats ignore files with
      | Ok (l, n) =>
          let fs := map snd l in
          (Some fs, Ok (if ignore then RPair fs n else RList fs))
      | Err e => (None, Err e)
      end
  end.

(** ** Extension matching: __init__.py:215-229 *)

(** The regular expression obtained by the three [replace] calls of line 224, as a list of atoms.
    SIMPLIFICATION: a character of the pattern other than '.', '$', '*' is taken literally; this is what
    [re] does unless it is one of the metacharacters listed in [plain_pattern]. *)
Inductive atom := Lit (c : ascii) | Dots.      (* [Dots] is the atom [.]* *)
Definition rewrite_pattern (p : str) : list atom :=
  map (fun c => if chr_eqb c (ch 42) then Dots else Lit c) p.
Definition plain_pattern (p : str) : bool :=
  forallb (fun c => negb (mem_chr c (S_ "\^+?{}[]|()"))) p.

(** [re.match(pat, ext) is not None]: the pattern matches a prefix of [ext]. *)
Fixpoint re_match (ats : list atom) (s : str) {struct ats} : bool :=
  match ats with
  | [] => true
  | Lit c :: ats' => match s with x :: s' => chr_eqb x c && re_match ats' s' | [] => false end
  | Dots :: ats' =>
      (fix loop (s : str) : bool :=
         re_match ats' s ||
         match s with x :: s' => chr_eqb x dot && loop s' | [] => false end) s
  end.

Definition star := ch 42.
Definition extMatch (ext : str) (f : fmt) : bool :=
  if existsb (str_eqb ext) (f_exts f) then true
  else existsb (fun p => re_match (rewrite_pattern p) ext) (filter (mem_chr star) (f_exts f)).

Definition file_ext (filename : str) : str := splitext_ext (lower filename).   (* line 215 *)

(** ** detectFormat and read *)
Section Detect.
  Variable obj kwargs : Type.
  Variable no_kwargs : kwargs.
  (** [fileformat.constructor(filename=filename, **kwargs)]: any behaviour. *)
  Variable construct : nat -> str -> kwargs -> res obj.
  (** [isinstance(F, fileformat.constructor)] *)
  Variable isinst : obj -> nat -> bool.

  (** file_formats.py:3-14 *)
  Definition isRightFormat (f : fmt) (filename : str) (kw : kwargs) : res (option obj) :=
    match construct (f_cls f) filename kw with
    | Ok o => Ok (Some o)
    | Err WrongFormatError => Ok None
    | Err e => Err e
    end.

  (** __init__.py:204-240.  The first component is the list of formats whose constructor was called, in
      order (the observable attempts on the file). *)
  Fixpoint detect_loop (fs : list fmt) (ext filename : str) (kw : kwargs) : list fmt * res (fmt * obj) :=
    match fs with
    | [] => ([], Err FormatNotDetectedError)
    | f :: fs' =>
        if extMatch ext f then
          match isRightFormat f filename kw with
          | Err e => ([f], Err e)
          | Ok (Some o) => ([f], Ok (f, o))
          | Ok None => let (tr, r) := detect_loop fs' ext filename kw in (f :: tr, r)
          end
        else detect_loop fs' ext filename kw
    end.
  Definition detectFormat (fs : list fmt) (filename : str) (kw : kwargs) :=
    detect_loop fs (file_ext filename) filename kw.

  (** __init__.py:242-250; the keyword arguments are not passed on at line 249. *)
  Definition read (fs : list fmt) (filename : str) (fileformat : option fmt) (kw : kwargs) : res obj :=
    match fileformat with
    | None =>
        '(f, o) <- snd (detectFormat fs filename kw) ;;
        if isinst o (f_cls f) then Ok o else construct (f_cls f) filename no_kwargs
    | Some f => construct (f_cls f) filename no_kwargs
    end.
End Detect.
