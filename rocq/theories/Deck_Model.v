(** Model of weio/fast_input_deck.py: reading and writing a set of FAST input files.
    SIMPLIFICATIONS: [parse] stands for the reading of one input file (its bytes to its items), [text] for its toString;
    a module object is a [ffile] of FASTIn_Model, the objects of the deck are distinct;
    a float is never compared with a number ([Unmodelled]); the attributes kept for backward compatibility, the printed messages
    and the texts of the exceptions are not modelled. *)
From Verif Require Import Py FS Registry_Model Dict FASTIn_Model TurbSim_Model.
Local Open Scope Z_scope.

(** ** os.path (posixpath) *)
Definition is_slash (c : ascii) : bool := chr_eqb c slash.
Fixpoint rstrip_slash (s : str) : str :=
  match s with
  | [] => []
  | c :: s' => match rstrip_slash s' with [] => if is_slash c then [] else [c] | t => c :: t end
  end.
(** [os.path.dirname] *)
Definition dirname (p : str) : str :=
  match rsplit1 slash p with
  | None => []
  | Some (h, _) => let head := h ++ [slash] in if forallb is_slash head then head else rstrip_slash head
  end.
(** [os.path.join(a, b)] *)
Definition ends_slash (a : str) : bool := match rev a with c :: _ => is_slash c | [] => false end.
Definition path_join (a b : str) : str :=
  match b with
  | c :: _ => if is_slash c then b else if negb (nonempty a) || ends_slash a then a ++ b else a ++ slash :: b
  | [] => if negb (nonempty a) || ends_slash a then a ++ b else a ++ slash :: b
  end.
(** The text without its double quotes (line 312 and others) *)
Definition unquote (s : str) : str := replace_chr quote [] s.

(** ** The deck (fast_input_deck.py:52-79) *)
Inductive modk := Fst | ElastoDyn | ElastoDynBlade | ElastoDynTower | InflowWind | AeroDyn14 | AeroDyn15 | AeroDynBlade
  | ServoDyn | HydroDyn | MoorDyn | SubDyn | MAP | BeamDyn | BeamDynBlade.
Definition modk_eqb (a b : modk) : bool :=
  match a, b with
  | Fst, Fst | ElastoDyn, ElastoDyn | ElastoDynBlade, ElastoDynBlade | ElastoDynTower, ElastoDynTower | InflowWind, InflowWind
  | AeroDyn14, AeroDyn14 | AeroDyn15, AeroDyn15 | AeroDynBlade, AeroDynBlade | ServoDyn, ServoDyn | HydroDyn, HydroDyn
  | MoorDyn, MoorDyn | SubDyn, SubDyn | MAP, MAP | BeamDyn, BeamDyn | BeamDynBlade, BeamDynBlade => true
  | _, _ => false
  end.
Record deck := mk_deck
  { d_file : str; d_readlist : list str; d_mods : modk -> option ffile; d_af : list (option ffile); d_ac : list (option ffile);
    d_inputs : list (str * str) }.
Definition set_mod (d : deck) (m : modk) (x : option ffile) : deck :=
  mk_deck (d_file d) (d_readlist d) (fun k => if modk_eqb k m then x else d_mods d k) (d_af d) (d_ac d) (d_inputs d).
Definition set_file (d : deck) (n : str) : deck := mk_deck n (d_readlist d) (d_mods d) (d_af d) (d_ac d) (d_inputs d).
Definition set_readlist (d : deck) (l : list str) : deck := mk_deck (d_file d) l (d_mods d) (d_af d) (d_ac d) (d_inputs d).
Definition set_af (d : deck) (l : list (option ffile)) : deck := mk_deck (d_file d) (d_readlist d) (d_mods d) l (d_ac d) (d_inputs d).
Definition set_ac (d : deck) (l : list (option ffile)) : deck := mk_deck (d_file d) (d_readlist d) (d_mods d) (d_af d) l (d_inputs d).
Definition set_inputs (d : deck) (l : list (str * str)) : deck := mk_deck (d_file d) (d_readlist d) (d_mods d) (d_af d) (d_ac d) l.

(** Computations on a state, with exceptions *)
Definition st (S A : Type) := S -> S * res A.
Definition ret {S A} (a : A) : st S A := fun s => (s, Ok a).
Definition raise {S A} (e : exn) : st S A := fun s => (s, Err e).
Definition lift {S A} (r : res A) : st S A := fun s => (s, r).
Definition seq_ {S A B} (x : st S A) (k : A -> st S B) : st S B := fun s => let (s', r) := x s in match r with Ok a => k a s' | Err e => (s', Err e) end.
Notation "x <~ r ;; k" := (seq_ r (fun x => k)) (at level 61, r at next level, right associativity).
Notation "r ;~ k" := (seq_ r (fun _ => k)) (at level 61, right associativity).
Definition when {S} (b : bool) (x : st S unit) : st S unit := if b then x else ret tt.

(** [v>0] and [v==n] of python values *)
Definition gt0 (v : val) : res bool :=
  match v with VInt z => Ok (0 <? z) | VBool b => Ok b | VStr _ | VList _ => Err TypeError | VFloat _ => Err Unmodelled end.
Definition eqn (n : Z) (v : val) : res bool :=
  match v with VInt z => Ok (z =? n) | VBool b => Ok ((if b then 1 else 0) =? n) | VStr _ | VList _ => Ok false | VFloat _ => Err Unmodelled end.
(** A value that is used as text; [e] is the exception when it is none *)
Definition as_str (e : exn) (v : val) : res str := match v with VStr s => Ok s | _ => Err e end.
(** [self.fst_vt[m][k]]: None is a TypeError *)
Definition mget (d : deck) (m : modk) (k : str) : res val := match d_mods d m with Some f => getitem f k | None => Err TypeError end.

Section Deck.
Variable parse : bytes -> res (list item).
Variable text : list item -> res str.

(** ** Writing (fast_input_deck.py:341-426) *)
Definition ws := (fs * deck)%type.
Definition w_get (m : modk) (k : str) : st ws val := fun s => (s, mget (snd s) m k).
(** [self.fst_vt[m][k] = v] *)
Definition w_set (m : modk) (k : str) (v : val) : st ws unit := fun s =>
  match d_mods (snd s) m with
  | None => (s, Err TypeError)
  | Some f => match setitem f k v with Ok f' => ((fst s, set_mod (snd s) m (Some f')), Ok tt) | Err e => (s, Err e) end
  end.
(** [self.fst_vt[m].write(p)] (fast_input_file.py:736-751): the name is remembered, then the file is opened, then its text is made *)
Definition w_write (m : modk) (p : str) : st ws unit := fun s =>
  match d_mods (snd s) m with
  | None => (s, Err AttributeError)
  | Some o => let o' := match p with [] => o | _ => mkF (f_data o) (Some p) end in
      match f_name o' with
      | None | Some [] => (s, Err PlainException)
      | Some n => let (f', r) := write_file (fst s) n [t <- text (f_data o) ;; Ok (map N_of_ascii t)] in ((f', set_mod (snd s) m (Some o')), r)
      end
  end.
Definition is_key (m : modk) (k : str) : st ws bool := fun s => (s, match d_mods (snd s) m with Some f => Ok (existsb (str_eqb k) (keys f)) | None => Err AttributeError end).
Definition none_ : str := S_ "none".
(** a quoted base name *)
Definition refer (p : str) : val := VStr (quote :: basename p ++ [quote]).
Definition switch (k : str) (c : val -> res bool) : st ws bool := v <~ w_get Fst k ;; lift (c v).
Definition deck_write (filename : option str) (prefix suffix : str) (directory : option str) : st ws unit := fun s0 =>
  let name := match filename with Some n => n | None => d_file (snd s0) end in
  let dir := match directory with Some x => x | None => dirname name end in
  let path (tag : str) (b : bool) := if b then path_join dir (prefix ++ tag ++ suffix ++ S_ ".dat") else none_ in
  ( bED <~ switch (S_ "CompElast") gt0 ;;
    bIW <~ switch (S_ "CompInflow") gt0 ;;
    bBD <~ switch (S_ "CompElast") (eqn 2) ;;
    bAD <~ switch (S_ "CompAero") gt0 ;;
    bHD <~ switch (S_ "CompHydro") gt0 ;;
    bSD <~ switch (S_ "CompSub") gt0 ;;
    bMD <~ switch (S_ "CompMooring") gt0 ;;
    bSv <~ switch (S_ "CompServo") gt0 ;;
    bIce <~ switch (S_ "CompIce") gt0 ;;
    b1 <~ switch (S_ "CompElast") gt0 ;;
    b2 <~ switch (S_ "CompElast") gt0 ;;
    b3 <~ switch (S_ "CompElast") gt0 ;;
    let pED := path (S_ "ED") bED in let pIW := path (S_ "IW") bIW in let pBD := path (S_ "BD") bBD in let pAD := path (S_ "AD") bAD in
    let pHD := path (S_ "HD") bHD in let pSD := path (S_ "SD") bSD in let pMD := path (S_ "MD") bMD in let pSv := path (S_ "SvD") bSv in
    let pIce := path (S_ "Ice") bIce in
    let pbld := path (S_ "ED_bld") b1 in let ptwr := path (S_ "ED_twr") b2 in let pBDb := path (S_ "BD_bld") b3 in
    w_set Fst (S_ "EDFile") (refer pED) ;~
    w_set Fst (S_ "BDBldFile(1)") (refer pBD) ;~
    w_set Fst (S_ "BDBldFile(2)") (refer pBD) ;~
    w_set Fst (S_ "BDBldFile(3)") (refer pBD) ;~
    w_set Fst (S_ "InflowFile") (refer pIW) ;~
    w_set Fst (S_ "AeroFile") (refer pAD) ;~
    w_set Fst (S_ "ServoFile") (refer pAD) ;~
    w_set Fst (S_ "HydroFile") (refer pHD) ;~
    w_set Fst (S_ "SubFile") (refer pSD) ;~
    w_set Fst (S_ "MooringFile") (refer pMD) ;~
    w_set Fst (S_ "IceFile") (refer pIce) ;~
    w_write Fst name ;~
    e0 <~ switch (S_ "CompElast") gt0 ;;
    when e0 (w_set ElastoDyn (S_ "TwrFile") (refer ptwr) ;~ w_write ElastoDynTower ptwr) ;~
    e1 <~ switch (S_ "CompElast") (eqn 1) ;;
    (if e1 : bool then
       old <~ is_key ElastoDyn (S_ "BldFile1") ;;
       (if old : bool then w_set ElastoDyn (S_ "BldFile1") (refer pbld) ;~ w_set ElastoDyn (S_ "BldFile2") (refer pbld) ;~ w_set ElastoDyn (S_ "BldFile3") (refer pbld)
        else w_set ElastoDyn (S_ "BldFile(1)") (refer pbld) ;~ w_set ElastoDyn (S_ "BldFile(2)") (refer pbld) ;~ w_set ElastoDyn (S_ "BldFile(3)") (refer pbld)) ;~
       w_write ElastoDynBlade pbld
     else
       e2 <~ switch (S_ "CompElast") (eqn 2) ;;
       when e2 (w_set BeamDyn (S_ "BldFile") (refer pBDb) ;~ w_write BeamDynBlade pBDb ;~ w_write BeamDyn pBD)) ;~
    w_write ElastoDyn pED ;~
    i0 <~ switch (S_ "CompInflow") gt0 ;; when i0 (w_write InflowWind pIW) ;~
    a0 <~ switch (S_ "CompAero") gt0 ;; when a0 (w_write AeroDyn15 pAD) ;~
    s0' <~ switch (S_ "CompServo") gt0 ;; when s0' (w_write ServoDyn pSv) ;~
    h1 <~ switch (S_ "CompHydro") (eqn 1) ;; when h1 (w_write HydroDyn pHD) ;~
    u1 <~ switch (S_ "CompSub") (eqn 1) ;;
    (if u1 : bool then w_write SubDyn pSD else u2 <~ switch (S_ "CompSub") (eqn 2) ;; when u2 (raise NotImplementedError)) ;~
    m1 <~ switch (S_ "CompMooring") (eqn 1) ;; when m1 (w_write MAP pMD) ;~
    m2 <~ switch (S_ "CompMooring") (eqn 2) ;; when m2 (w_write MoorDyn pMD) ) (fst s0, set_file (snd s0) name).

(** ** Reading (fast_input_deck.py:25-84, 87-142, 207-337) *)
Definition all_modules : list str := map S_ ["Fst";"ED";"AD";"BD";"BDbld";"EDtwr";"EDbld";"ADbld";"AF";"AC";"IW";"HD";"SrvD";"SD";"MD"]%string.
Definition has_ (k : str) (l : list str) : bool := existsb (str_eqb k) l.
(** lines 42-47, for a list *)
Definition make_readlist (l : list str) : list str := if has_ (S_ "all") l then all_modules else S_ "Fst" :: l.
(** lines 94-99 *)
Definition ad_readlist (l : list str) : list str := if has_ (S_ "all") l then all_modules else l.
Definition unused_names : list str := map S_ ["unused";"nan";"na";"none"]%string.
Definition unused (rel : str) : bool := has_ (lower (basename rel)) unused_names.
Definition rd A := st deck A.
(** A file that can be read; a missing file or a directory is a FileNotFoundError *)
Definition open_module (f : fs) (p : str) : res ffile := match f p with Reg b => l <- parse b ;; Ok (mkF l (Some p)) | _ => Err OSError2 end.
(** _read (lines 310-337) of a text *)
Definition read_rel (f : fs) (rel0 key : str) : rd (option ffile) := fun d =>
  let rel := unquote rel0 in
  if negb (has_ key (d_readlist d)) then (d, Ok None) else
  if unused rel then (d, Ok None) else
  let full := path_join (dirname (d_file d)) rel in
  match open_module f full with
  | Ok o => (set_inputs d (put (d_inputs d) key full), Ok (Some o))
  | Err OSError2 => (d, Ok None)
  | Err e => (d, Err e)
  end.
(** _read of a value: only texts have replace *)
Definition read_val (f : fs) (v : val) (key : str) : rd (option ffile) := match v with VStr s => read_rel f s key | _ => raise AttributeError end.
Definition r_get (m : modk) (k : str) : rd val := fun d => (d, mget d m k).
Definition r_put (m : modk) (x : option ffile) : rd unit := fun d => (set_mod d m x, Ok tt).
Definition try_ {A} (r : res A) (a : A) : A := match r with Ok x => x | Err _ => a end.
(** ED_twr_relpath and ED_bld_relpath (lines 167-183) *)
Definition twr_rel (d : deck) : str := try_
  (e <- mget d Fst (S_ "EDFile") ;; s <- as_str TypeError e ;; t <- mget d ElastoDyn (S_ "TwrFile") ;; u <- as_str AttributeError t ;;
   Ok (path_join (unquote (dirname s)) (unquote u))) none_.
Definition bld_rel (d : deck) : str := try_
  (match d_mods d ElastoDyn with None => Err AttributeError | Some o =>
     e <- mget d Fst (S_ "EDFile") ;; s <- as_str AttributeError e ;;
     t <- getitem o (if has_ (S_ "BldFile(1)") (keys o) then S_ "BldFile(1)" else S_ "BldFile1") ;; u <- as_str AttributeError t ;;
     Ok (path_join (dirname (unquote s)) (unquote u)) end) none_.
(** One polar (lines 121-137).  An empty NumCoords text is an IndexError. *)
Definition one_polar (f : fs) (baseDir : str) (name : val) : rd unit :=
  match name with
  | VStr s =>
      let af := unquote (path_join baseDir s) in
      polar <~ (fun d => match read_rel f af (S_ "AF") d with (d', Ok x) => (d', Ok x) | (d', Err _) => (d', Ok None) end) ;;
      (fun d => (set_af d (d_af d ++ [polar]), Ok tt)) ;~
      match polar with
      | None => ret tt
      | Some p => v <~ lift (getitem p (S_ "NumCoords")) ;;
          match v with
          | VStr c => match unquote c with
              | [] => raise IndexError
              | a :: r => if chr_eqb a (ch 64) then
                    x <~ read_rel f (path_join (dirname af) r) (S_ "AC") ;; (fun d => (set_ac d (d_ac d ++ [x]), Ok tt))
                  else ret tt
              end
          | _ => ret tt
          end
      end
  | _ => raise TypeError
  end.
Fixpoint each {A} (g : A -> rd unit) (l : list A) : rd unit := match l with [] => ret tt | x :: r => g x ;~ each g r end.
(** readAD without a file name (lines 87-142); [rl] is its readlist *)
Definition readAD (f : fs) (rl : option (list str)) (key : modk) : rd unit := fun d0 =>
  let bkp := d_readlist d0 in
  ( (fun d => (match rl with Some l => set_readlist d (ad_readlist l) | None => d end, Ok tt)) ;~
    v <~ r_get Fst (S_ "AeroFile") ;;
    s <~ lift (as_str TypeError v) ;;
    let baseDir := dirname s in
    x <~ read_rel f s (S_ "AD") ;;
    r_put key x ;~
    match x with
    | None => ret tt
    | Some o =>
        b <~ lift (getitem o (S_ "ADBlFile(1)")) ;;
        bs <~ lift (as_str TypeError b) ;;
        bld <~ read_rel f (path_join baseDir bs) (S_ "ADbld") ;;
        r_put AeroDynBlade bld ;~
        (fun d => (set_af d [], Ok tt)) ;~
        names <~ r_get AeroDyn15 (S_ "AFNames") ;;
        match names with VList l => each (one_polar f baseDir) l | VStr _ => raise Unmodelled | _ => raise TypeError end
    end ;~
    (fun d => (match rl with Some _ => set_readlist d bkp | None => d end, Ok tt)) ) d0.
Definition r_switch (k : str) (c : val -> res bool) : rd bool := v <~ r_get Fst k ;; lift (c v).
(** [if switch: self.fst_vt[m] = self._read(self.fst_vt['Fst'][file], key)] *)
Definition r_file (f : fs) (m : modk) (file key : str) : rd unit := v <~ r_get Fst file ;; x <~ read_val f v key ;; r_put m x.
Definition r_module (f : fs) (sw : str) (c : val -> res bool) (m : modk) (file key : str) : rd unit := b <~ r_switch sw c ;; when b (r_file f m file key).
(** read (lines 220-304) *)
Definition deck_read (f : fs) (filename : option str) : rd unit :=
  (fun d => (match filename with Some n => set_file d n | None => d end, Ok tt)) ;~
  (fun d => match read_rel f (basename (d_file d)) (S_ "Fst") d with
            | (d', Ok x) => (set_mod d' Fst x, match x with None => Err PlainException | Some _ => Ok tt end)
            | (d', Err e) => (d', Err e) end) ;~
  ks <~ (fun d => (d, match d_mods d Fst with Some o => Ok (keys o) | None => Err AttributeError end)) ;;
  (if has_ (S_ "NumTurbines") ks then
     r_module f (S_ "CompInflow") gt0 InflowWind (S_ "InflowFile") (S_ "IW") ;~ readAD f None AeroDyn15
   else if has_ (S_ "InterpOrder") ks then
     when (has_ (S_ "EDFile") ks)
       (r_file f ElastoDyn (S_ "EDFile") (S_ "ED") ;~
        ed <~ (fun d => (d, Ok (d_mods d ElastoDyn))) ;;
        match ed with
        | None => ret tt
        | Some _ => twr <~ (fun d => (d, Ok (twr_rel d))) ;; bld <~ (fun d => (d, Ok (bld_rel d))) ;;
            x <~ read_rel f twr (S_ "EDtwr") ;; r_put ElastoDynTower x ;~
            y <~ read_rel f bld (S_ "EDbld") ;; r_put ElastoDynBlade y
        end) ;~
     r_module f (S_ "CompInflow") gt0 InflowWind (S_ "InflowFile") (S_ "IW") ;~
     a <~ r_switch (S_ "CompAero") gt0 ;;
     when a (a1 <~ r_switch (S_ "CompAero") (eqn 1) ;; rl <~ (fun d => (d, Ok (d_readlist d))) ;; readAD f (Some rl) (if a1 : bool then AeroDyn14 else AeroDyn15)) ;~
     r_module f (S_ "CompServo") gt0 ServoDyn (S_ "ServoFile") (S_ "SrvD") ;~
     r_module f (S_ "CompHydro") (eqn 1) HydroDyn (S_ "HydroFile") (S_ "HD") ;~
     r_module f (S_ "CompSub") (eqn 1) SubDyn (S_ "SubFile") (S_ "HD") ;~
     r_module f (S_ "CompMooring") (eqn 1) MAP (S_ "MooringFile") (S_ "MD") ;~
     r_module f (S_ "CompMooring") (eqn 2) MoorDyn (S_ "MooringFile") (S_ "MD") ;~
     e2 <~ r_switch (S_ "CompElast") (eqn 2) ;;
     when e2 (r_file f BeamDyn (S_ "BDBldFile(1)") (S_ "BD") ;~
        bd <~ (fun d => (d, Ok (d_mods d BeamDyn))) ;;
        match bd with
        | None => ret tt
        | Some o => v <~ r_get Fst (S_ "BDBldFile(1)") ;; s <~ lift (as_str TypeError v) ;; w <~ lift (getitem o (S_ "BldFile")) ;; t <~ lift (as_str TypeError w) ;;
            x <~ read_rel f (path_join (dirname s) t) (S_ "BDbld") ;; r_put BeamDynBlade x
        end)
   else ret tt).
(** The constructor (lines 25-84) *)
Definition empty_deck (path : str) (l : list str) : deck := mk_deck path (make_readlist l) (fun _ => None) [] [] [].
Definition deck_init (f : fs) (path : str) (l : list str) : deck * res unit := match path with [] => (empty_deck path l, Ok tt) | _ => deck_read f None (empty_deck path l) end.
End Deck.
