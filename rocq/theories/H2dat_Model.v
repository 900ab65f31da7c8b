(** Model of weio/hawc2_dat_file.py: HAWC2 and BHawC result files with ASCII data, and the reading of the .sel and .dat
    files in weio/wetb/hawc2/Hawc2io.py.  Continues H2io_Model.v.
    SIMPLIFICATIONS: the file system is a map from names to texts, without directories; a double is a value of type [V] read by
    [num] (python's float); the last time is not zero when it is no number; binary data, FLEX and hdf5 files are not modelled here
    ([Err Unmodelled]); the attributes of [info] exist. *)
From Verif Require Import Py Registry_Model H2io_Model.
Local Open Scope nat_scope.

Section Dat.
Context {V : Type}.
Variable num : str -> option V.
Variable fmt16 : V -> str.        (* '%16.8e' % v *)
Variable fmt3 : V -> str.         (* '{:.3f}'.format(v) *)
Variable is_zero : V -> bool.     (* v == 0 *)

Definition files := str -> option str.
Definition put (f : files) (p : str) (t : str) : files := fun q => if str_eqb q p then Some t else f q.
Definition isfile (f : files) (p : str) : bool := match f p with Some _ => true | None => false end.
Record dat := mk_dat { d_names : list str; d_units : list str; d_descr : list str; d_data : list (list V); d_bhawc : bool }.

(** [s.replace(pat, rep)] *)
Fixpoint repl (pat rep : str) (skip : nat) (s : str) : str :=
  match s with
  | [] => []
  | c :: s' => match skip with
               | S k => repl pat rep k s'
               | O => if startswith s pat then rep ++ repl pat rep (List.length pat - 1) s' else c :: repl pat rep 0 s'
               end
  end.
Definition replace_ (pat rep s : str) : str := repl pat rep 0 s.
(** [s.split(sep)] *)
Fixpoint split_go (sep acc : str) (skip : nat) (s : str) : list str :=
  match s with
  | [] => [acc]
  | c :: s' => match skip with
               | S k => split_go sep acc k s'
               | O => if startswith s sep then acc :: split_go sep [] (List.length sep - 1) s' else split_go sep (acc ++ [c]) 0 s'
               end
  end.
Definition split_str (sep s : str) : list str := split_go sep [] 0 s.
(** [s.find(sub)] *)
Fixpoint find_str (sub s : str) : option nat :=
  if startswith s sub then Some 0 else match s with [] => None | _ :: s' => option_map S (find_str sub s') end.

(** ** Writing (hawc2_dat_file.py:98-151) *)
(** The names of the two files (lines 99-107) *)
Definition datfilename (filename : str) : str :=
  let ext := lower (splitext_ext filename) in
  if str_eqb ext (S_ ".dat") then filename
  else if str_eqb ext (S_ ".sel") then replace_ ext (S_ ".dat") filename
  else filename ++ S_ ".dat".
Definition selfilename (filename : str) : str :=
  let d := datfilename filename in firstn (List.length d - 4) d ++ S_ ".sel".
(** np.savetxt (line 112) *)
Definition dat_text (rows : list (list V)) : str := flat_map (fun row => join [sp] (map fmt16 row) ++ [nl]) rows.
(** The .sel file of BHawC (lines 115-127), lines without their line feed *)
Fixpoint bsel_channels (k : N) (names units descrs : list str) : list str :=
  match names, units, descrs with
  | n :: names', u :: units', d :: descrs' =>
      (pad 19 (str_of_N k) ++ [tab] ++ pad 25 (firstn 26 d) ++ [tab] ++ pad 25 (firstn 26 n) ++ [tab] ++ pad 25 (S_ "[" ++ no_brackets u ++ S_ "]"))
        :: bsel_channels (k + 1) names' units' descrs'
  | _, _, _ => []
  end.
Definition bsel_lines (time : str) (nscans nchan : N) (names units descrs : list str) : list str :=
  [ S_ "BHawC channel reference file (sel):";
    S_ "+===================== (Name) =================== (Time stamp) ========= (Path) ==========================================================+";
    S_ "Original BHAWC file    : NA.dat                    2001.01.01  00:00:00  C:\";
    S_ "Channel reference file : NA.sel                    2001.01.01  00:00:00  C:\";
    S_ "Result file            : NA.dat                    2001.01.01  00:00:00  C:\";
    S_ "+=========================================================================================================================================+";
    S_ "Scans             " ++ [tab] ++ S_ "Channels                      " ++ [tab] ++ S_ "Time [sec]                " ++ [tab] ++ S_ "Coordinate convention: Siemens";
    pad 19 (str_of_N nscans) ++ [tab] ++ pad 25 (str_of_N nchan) ++ [tab] ++ pad 25 time;
    [];
    pad 19 (S_ "Channel") ++ [tab] ++ pad 25 (S_ "Variable descriptions") ++ [tab] ++ pad 25 (S_ "Labels") ++ [tab] ++ pad 25 (S_ "Units") ]
  ++ bsel_channels 1 names units descrs.
Definition bsel_text (time : str) (nscans nchan : N) (names units descrs : list str) : str :=
  concat (map add_nl (bsel_lines time nscans nchan names units descrs)).
(** _write: the files afterwards.  Data without rows or without columns are an IndexError (lines 108-110) *)
Definition write (f : files) (filename : str) (o : dat) : res files :=
  match rev (d_data o) with
  | (t :: _) :: _ =>
      let dfn := datfilename filename in
      let nScans := N.of_nat (List.length (d_data o)) in
      let nChannels := N.of_nat (List.length (hd [] (d_data o))) in
      let sel := if d_bhawc o then bsel_text (fmt3 t) nScans nChannels (d_names o) (d_units o) (d_descr o)
                 else sel_text (basename dfn) (fmt3 t) nScans nChannels (d_names o) (d_units o) (d_descr o) in
      Ok (put (put f dfn (dat_text (d_data o))) (selfilename filename) sel)
  | _ => Err IndexError
  end.

(** ** Reading *)
(** The last line in a range that contains a word (Hawc2io.py:84-88, 98-102); 0 when there is none *)
Fixpoint last_line (ls : list str) (word : str) (found : nat) (idx : list nat) : res nat :=
  match idx with
  | [] => Ok found
  | i :: idx' => match nth_error ls i with
                 | None => Err IndexError
                 | Some l => last_line ls word (if contains (lower l) word then S i else found) idx'
                 end
  end.
(** The non-empty pieces (Hawc2io.py:122, 125) *)
Definition pieces (l : list str) : list str := filter nonempty (map strip l).
Fixpoint by_blanks (l : str) (n : list nat) (sp_ : list str) : list str :=
  match n with
  | [] => sp_
  | k :: n' => let s := pieces (split_str (repeat sp k) l) in if Nat.eqb (List.length s) 2 then s else by_blanks l n' s
  end.
(** One line of channel information (Hawc2io.py:108-133): name, unit, description *)
Definition channel (l : str) : res (str * str * str) :=
  let line := strip l in
  match split_ws line with
  | [] => Err IndexError
  | w :: ws =>
      let line := skipn (List.length w + 1) line in
      let unit := last ws w in
      let line := match find_str unit line with Some i => firstn i line | None => removelast line end in
      let s := pieces (split_chr tab line) in
      let s := if Nat.eqb (List.length s) 2 then s else by_blanks line (seq 2 13) s in
      match s with
      | [a; b] => Ok (b, unit, a)
      | _ => Err PlainException
      end
  end.
Fixpoint channels (ls : list str) : res (list (str * str * str)) :=
  match ls with
  | [] => Ok []
  | l :: ls' => if nonempty (strip l) then c <- channel l ;; cs <- channels ls' ;; Ok (c :: cs) else channels ls'
  end.
Definition guard (b : bool) (e : exn) : res unit := if b then Ok tt else Err e.
(** The branch of _ReadSelFile for BHawC (Hawc2io.py:82-139) *)
Definition ReadSelB (text : str) : res sel :=
  let ls := readlines [] text in
  i <- last_line ls (S_ "scans") 0 (seq 5 5) ;;
  _ <- guard (negb (Nat.eqb i 0)) PlainException ;;
  l <- nth_line ls i ;;
  let temp := split_ws l in
  t0 <- nth_line temp 0 ;; nsc <- int_ t0 ;;
  t1 <- nth_line temp 1 ;; nch <- int_ t1 ;;
  t2 <- nth_line temp 2 ;;
  _ <- match num t2 with None => Err ValueError | Some v => guard (negb (is_zero v)) ZeroDivisionError end ;;
  _ <- guard (0 <=? nsc)%Z Unmodelled ;;
  j <- last_line ls (S_ "channel") 0 (seq 5 8) ;;
  _ <- guard (negb (Nat.eqb j 0)) PlainException ;;
  cs <- channels (firstn (Z.to_nat (nch + 1)) (skipn j ls)) ;;
  Ok (mk_sel nsc nch t2 false (map (fun c => fst (fst c)) cs) (map (fun c => snd (fst c)) cs) (map snd cs)).

(** np.loadtxt(file, usecols=range(nch)) (Hawc2io.py:260): comments, blank lines, the first words of every row *)
Definition no_comment (l : str) : str := hd [] (split_chr (ch 35) l).
Fixpoint numbers (ws : list str) : option (list V) :=
  match ws with [] => Some [] | w :: ws' => match num w, numbers ws' with Some x, Some xs => Some (x :: xs) | _, _ => None end end.
Definition load_row (nch : nat) (ws : list str) : res (list V) :=
  if Nat.ltb (List.length ws) nch then Err ValueError else match numbers (firstn nch ws) with Some r => Ok r | None => Err ValueError end.
Fixpoint mapM {A B} (g : A -> res B) (l : list A) : res (list B) := match l with [] => Ok [] | x :: l' => y <- g x ;; ys <- mapM g l' ;; Ok (y :: ys) end.
Definition loadtxt (nch : nat) (t : str) : res (list (list V)) := mapM (load_row nch) (filter nonempty (map (fun l => split_ws (no_comment l)) (split_chr nl t))).
(** ReadAscii (Hawc2io.py:255-261): the rows must be as many as announced *)
Definition ReadAscii (f : files) (base : str) (s : sel) : res (list (list V)) :=
  if (s_NrCh s <=? 0)%Z || (s_NrSc s <? 0)%Z then Err Unmodelled else
  match f (base ++ S_ ".dat") with
  | None => Err OSError2
  | Some t => rows <- loadtxt (Z.to_nat (s_NrCh s)) t ;; _ <- guard (Nat.eqb (List.length rows) (Z.to_nat (s_NrSc s))) ValueError ;; Ok rows
  end.
(** The file that is looked for (Hawc2io.py:213-219, and 78-80); other kinds of files are not modelled *)
Definition sel_base (f : files) (filename : str) : res str :=
  if endswith (lower filename) (S_ ".sel") then Ok (firstn (List.length filename - 4) filename)
  else if isfile f (filename ++ S_ ".sel") then Ok filename
  else
    let root := firstn (List.length filename - List.length (splitext_ext filename)) filename in
    if endswith (lower filename) (S_ ".dat") && isfile f (root ++ S_ ".sel") then Ok root
    else if existsb (endswith (lower filename)) [S_ ".int"; S_ ".res"; S_ ".hdf5"] || existsb (fun e => isfile f (filename ++ e)) [S_ ".int"; S_ ".res"; S_ ".hdf5"] then Err Unmodelled
    else Err PlainException.
Definition read_sel (f : files) (base : str) : res (sel * bool) :=
  match f (base ++ S_ ".sel") with
  | None => Err OSError2
  | Some t => match ReadSel t with Some r => s <- r ;; Ok (s, false) | None => s <- ReadSelB t ;; Ok (s, true) end
  end.
Definition read_ (f : files) (filename : str) : res dat :=
  base <- sel_base f filename ;;
  '(s, b) <- read_sel f base ;;
  if s_binary s then Err Unmodelled else
  d <- ReadAscii f base s ;;
  Ok (mk_dat (s_names s) (s_units s) (s_descrs s) d b).
(** read (file.py:27-37) and _read (hawc2_dat_file.py:36-52): every exception but a missing file becomes a WrongFormatError; bHawc is
    only ever set, never cleared, so a new object is meant here *)
Definition read (f : files) (filename : str) : res dat :=
  match f filename with
  | None => Err OSError2
  | Some [] => Err EmptyFileError
  | Some _ => match read_ f filename with
              | Err OSError2 => Err OSError2
              | Err Unmodelled => Err Unmodelled
              | Err _ => Err WrongFormatError
              | Ok o => Ok o
              end
  end.
End Dat.
Arguments dat : clear implicits.

(** ** toDataFrame (hawc2_dat_file.py:57-96) *)
(** [re.findall(pattern, s)] for a pattern that begins with a literal text: [m] matches what follows it, giving the group and what remains.
    [skip] characters belong to a match already found *)
Fixpoint findall (lit : str) (m : str -> option (str * nat)) (skip : nat) (s : str) : list str :=
  match s with
  | [] => []
  | _ :: s' => match skip with
               | S k => findall lit m k s'
               | O => if startswith s lit then
                        match m (skipn (List.length lit) s) with
                        | Some (g, n) => g :: findall lit m (List.length lit + n - 1) s'
                        | None => findall lit m 0 s'
                        end
                      else findall lit m 0 s'
               end
  end.
Fixpoint take (p : ascii -> bool) (s : str) : str := match s with c :: s' => if p c then c :: take p s' else [] | [] => [] end.
(** [\s*(\d+)]: the group and the number of characters consumed *)
Definition m_int (s : str) : option (str * nat) :=
  let b := take is_space s in
  match take is_digit (skipn (List.length b) s) with [] => None | g => Some (g, List.length b + List.length g) end.
(** [(\d+.\d+)]: the longest run of digits that still leaves a character and a digit *)
Fixpoint m_frac_at (s : str) (i : nat) : option str :=
  match i with
  | O => None
  | S j => match skipn i s with
           | c :: rest => if chr_eqb c nl then m_frac_at s j else
                          match take is_digit rest with [] => m_frac_at s j | g => Some (firstn i s ++ c :: g) end
           | [] => m_frac_at s j
           end
  end.
(** [\s*(\d+.\d+)] followed by a literal text; digits that follow the point are given back one by one *)
Definition m_frac (s : str) : option (str * nat) :=
  let b := take is_space s in
  let s' := skipn (List.length b) s in
  match m_frac_at s' (List.length (take is_digit s')) with Some g => Some (g, List.length b + List.length g) | None => None end.
(** [\s*(\d+.\d+)\[m\]]: the literal must follow the digits; fewer digits cannot be followed by it, but a shorter first run can *)
Fixpoint m_fracm_at (s : str) (i : nat) : option str :=
  match i with
  | O => None
  | S j => match skipn i s with
           | c :: rest => if chr_eqb c nl then m_fracm_at s j else
                          match take is_digit rest with
                          | [] => m_fracm_at s j
                          | g => if startswith (skipn (List.length g) rest) (S_ "[m]") then Some (firstn i s ++ c :: g) else m_fracm_at s j
                          end
           | [] => m_fracm_at s j
           end
  end.
Definition m_fracm (s : str) : option (str * nat) :=
  let b := take is_space s in
  let s' := skipn (List.length b) s in
  match m_fracm_at s' (List.length (take is_digit s')) with Some g => Some (g, List.length b + List.length g + 3) | None => None end.
(** Letters, digits, dash, underscore, point, as many as there are, then a blank (line 67) *)
Definition word_char (c : ascii) : bool :=
  let n := ord c in ((65 <=? n) && (n <=? 90)) || ((97 <=? n) && (n <=? 122)) || is_digit c || chr_eqb c (ch 45) || chr_eqb c (ch 95) || chr_eqb c (ch 46).
Definition m_word (s : str) : option (str * nat) :=
  let g := take word_char s in
  match skipn (List.length g) s with c :: _ => if chr_eqb c sp then Some (g, S (List.length g)) else None | [] => None end.

(** The number of a node (lines 79-87): [zrel num] gives float(zrel[0]) with its comparisons; [nodenum] is str(ielem+fzrel) *)
Inductive zval := Z0 | Z1 | Zother.
Section Names.
Variable zrel_value : str -> res zval.          (* float(zrel[0]) compared with 0 and 1 *)
Variable zrel_text : Z -> str -> str.           (* str(ielem+fzrel) *)
Definition one (l : list str) : option str := match l with [x] => Some x | _ => None end.
Definition short_name (n : str) : str :=
  let n := replace_ (S_ " ") [] n in
  let n := strip (replace_ (S_ "coo:global") (S_ "g") n) in
  let n := strip (replace_ (S_ "Statepos") [] n) in
  strip (replace_ (S_ "axisangle") (S_ "rot_") n).
Definition column_name (n desc : str) : res str :=
  let elem := one (findall (S_ "E-nr:") m_int 0 desc) in
  let zrel := one (findall (S_ "Z-rel:") m_frac 0 desc) in
  let node := one (findall (S_ "nodenr:") m_int 0 desc) in
  let mbdy := one (findall (S_ "Mbdy:") m_word 0 desc) in
  let s := one (findall (S_ "s=") m_fracm 0 desc) in
  let sS := one (findall (S_ "s/S=") m_frac 0 desc) in
  let n := short_name n in
  let n := match mbdy with Some b => strip (replace_ (S_ "coo:" ++ b) (S_ "b") n) | None => n end in
  let pref := match mbdy with Some b => b | None => [] end in
  pref <- match zrel, elem with
          | Some z, Some e =>
              ielem <- int_ e ;; v <- zrel_value z ;;
              Ok (pref ++ match v with Z0 => S_ "N" ++ str_of_Z ielem | Z1 => S_ "N" ++ str_of_Z (ielem + 1) | Zother => S_ "N" ++ zrel_text ielem z end)
          | _, _ => Ok pref
          end ;;
  let pref := match s, sS with Some _, Some x => pref ++ S_ "r" ++ x | _, _ => pref end in
  let pref := match node with Some k => pref ++ S_ "N" ++ k | None => pref end in
  Ok (pref ++ n).
(** The loop of lines 62-90: the names of the object are replaced one after the other, so an error leaves the first ones changed *)
Fixpoint column_names (names descrs : list str) : list str * option exn :=
  match descrs, names with
  | [], _ => (names, None)
  | _ :: _, [] => ([], Some IndexError)
  | d :: descrs', n :: names' =>
      match column_name n d with
      | Err e => (names, Some e)
      | Ok n' => let '(r, e) := column_names names' descrs' in (n' :: r, e)
      end
  end.
Fixpoint zip2 (ns us : list str) : list str := match ns, us with n :: ns', u :: us' => (n ++ S_ "_[" ++ no_brackets u ++ S_ "]") :: zip2 ns' us' | _, _ => [] end.
(** The object afterwards, and the data frame.  pandas refuses a number of names other than the number of columns *)
Definition toDataFrame {V} (o : dat V) : dat V * res (list str * list (list V)) :=
  let '(names, e) := column_names (d_names o) (d_descr o) in
  let o' := mk_dat names (d_units o) (d_descr o) (d_data o) (d_bhawc o) in
  (o', match e with
       | Some x => Err x
       | None => let cols := zip2 names (d_units o) in
                 if forallb (fun r => Nat.eqb (List.length r) (List.length cols)) (d_data o) then Ok (cols, d_data o) else Err ValueError
       end).
End Names.
