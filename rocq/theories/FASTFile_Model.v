(** Model of the reading loop of FAST input files with its table branches (weio/fast_input_file.py, [_read], lines 309-650), of
    the reader of AeroDyn 14 airfoil files (lines 840-895) and of [toString] on whole files (lines 653-734).  The lines themselves
    are parsed by FASTIn_Model, the blocks of tables by FASTTab_Model.
    SIMPLIFICATIONS: those of the two models above; the counters of the safety checks are compared exactly; [None] is the answer
    for what is not modelled, namely ExtPtfm files, a logical or a table used as a number of lines, and a line flagged as a
    comment whose words announce a table. *)
From Verif Require Import Py FASTIn_Model FASTTab_Model.
Local Open Scope nat_scope.

(** The number of lines of a table: the value of a key, or a constant (fast_input_file.py:317, 342) *)
Inductive dimvar := Key (k : str) | Const (n : nat).
(** Kinds of tables (fast_input_file.py:24-33) *)
Inductive tkind := NumHeader | MixHeader | NumCom | NumPlain.
(** The parallel lists of fast_input_file.py:313-352, one record per position *)
Record trow := mk_trow { t_word : str; t_dim : dimvar; t_name : str; t_heads : nat; t_offset : nat; t_numeric : bool }.
Fixpoint zip6 (a : list str) (b : list dimvar) (c : list str) (d e : list nat) (f : list bool) : list trow :=
  match a, b, c, d, e, f with
  | w :: a, k :: b, v :: c, h :: d, o :: e, t :: f => mk_trow w k v h o t :: zip6 a b c d e f
  | _, _, _, _, _, _ => []
  end.
Definition K (s : string) : dimvar := Key (S_ s).
(** Tables detected by the value (fast_input_file.py:313-324) *)
Definition VAL_DETECT : list str := map S_ (["HtFract"; "TwrElev"; "BlFract"; "Genspd_TLU"; "BlSpn"; "WndSpeed"; "HvCoefID"; "AxCoefID"; "JointID"; "Dpth"; "FillNumM"; "MGDpth"; "SimplCd"; "RNodes"; "kp_xr"; "mu1"; "TwrHtFr"; "TwrRe"; "WT_X"]%string ++ ["RJointID"; "IJointID"; "COSMID"; "CMJointID"]%string).
Definition VAL_DIM : list dimvar :=
  [K "NTwInpSt"; K "NumTwrNds"; K "NBlInpSt"; K "DLL_NumTrq"; K "NumBlNds"; K "NumCases"; K "NHvCoef"; K "NAxCoef"; K "NJoints"; K "NCoefDpth"; K "NFillGroups"; K "NMGDepths"; Const 1; K "BldNodes"; K "kp_total"; Const 1; K "NTwrHt"; K "NTwrRe"; K "NumTurbines"] ++
  [K "NReact"; K "NInterf"; K "NCOSMs"; K "NCmass"].
Definition VAL_NAME : list str := map S_ (["TowProp"; "TowProp"; "BldProp"; "DLLProp"; "BldAeroNodes"; "Cases"; "HvCoefs"; "AxCoefs"; "Joints"; "DpthProp"; "FillGroups"; "MGProp"; "SmplProp"; "BldAeroNodes"; "MemberGeom"; "DampingCoeffs"; "TowerProp"; "TowerRe"; "WindTurbines"]%string ++ ["BaseJoints"; "InterfaceJoints"; "MemberCosineMatrix"; "ConcentratedMasses"]%string).
Definition VAL_HEADS : list nat := [2; 2; 2; 2; 2; 2; 2; 2; 2; 2; 2; 2; 2; 1; 2; 2; 1; 1; 2] ++ [2; 2; 2; 2].
Definition VAL_TYPE : list bool := [true; true; true; true; true; true; true; true; true; true; true; true; true; false; true; true; true; true; false] ++ [false; true; true; true].
Definition val_rows : list trow := zip6 VAL_DETECT VAL_DIM VAL_NAME VAL_HEADS (repeat 0 23) VAL_TYPE.
(** Tables detected by the label (fast_input_file.py:328-352) *)
Definition LAB_DETECT : list str := map S_ (["NumAlf"; "F_X"; "MemberCd1"; "MJointID1"; "NOutLoc"; "NOutCnt"; "PropD"; "Diam"; "Type"; "LineType"]%string ++ ["GuyanDampSize"; "YoungE"; "YoungE"; "EA"; "MatDens"]%string ++ ["GridName"]%string).
Definition LAB_DIM : list dimvar :=
  [K "NumAlf"; K "NKInpSt"; K "NCoefMembers"; K "NMembers"; K "NMOutputs"; K "NMOutputs"; K "NPropSets"; K "NTypes"; K "NConnects"; K "NLines"] ++
  [Const 6; K "NPropSets"; K "NXPropSets"; K "NCablePropSets"; K "NRigidPropSets"] ++ [K "nGridOut"].
Definition LAB_NAME : list str := map S_ (["AFCoeff"; "TMDspProp"; "MemberProp"; "Members"; "MemberOuts"; "MemberOuts"; "SectionProp"; "LineTypes"; "ConnectionProp"; "LineProp"]%string ++ ["GuyanDampMatrix"; "BeamProp"; "BeamPropX"; "CableProp"; "RigidProp"]%string ++ ["GridOutputs"]%string).
Definition LAB_HEADS : list nat := [2; 2; 2; 2; 2; 2; 2; 2; 2; 2] ++ [0; 2; 2; 2; 2] ++ [0].
Definition LAB_OFFSET : list nat := [0; 0; 0; 0; 0; 0; 0; 0; 0; 0] ++ [1; 0; 0; 0; 0] ++ [2].
Definition LAB_TYPE : list bool := [true; true; true; false; true; true; true; false; false; false] ++ [true; true; true; true; true] ++ [false].
Definition lab_rows : list trow := zip6 LAB_DETECT LAB_DIM LAB_NAME LAB_HEADS LAB_OFFSET LAB_TYPE.
(** Lists of files (fast_input_file.py:354-356): the label, the key of the number of files *)
Definition file_rows : list (str * str) := [(S_ "FoilNm", S_ "NumFoil"); (S_ "AFNames", S_ "NumAFfiles")].

(** [list.index] on the lower case words, and [del] (fast_input_file.py:516, 534-539) *)
Fixpoint pick (w : str) (l : list trow) : option (trow * list trow) :=
  match l with
  | [] => None
  | r :: l' => if str_eqb (lower (t_word r)) w then Some (r, l') else option_map (fun p => (fst p, r :: snd p)) (pick w l')
  end.

Section File.
Context {V : Type}.
Variable num : str -> option V.
Variable zero : V.
Variable R : str -> str.

(** The entries of the file: ordinary lines and lists of files, tables, the sections of BeamDyn, the reference point of an airfoil *)
Inductive entry :=
| Item (d : item)
| Tab (label descr : str) (kind : tkind) (dim : dimvar) (v : values V) (names units : option (list str))
| Beam (l : list (section V))
| Ref (p : V * V).
Definition label_of (e : entry) : str :=
  match e with Item d => it_label d | Tab l _ _ _ _ _ _ => l | Beam _ => S_ "BeamProperties" | Ref _ => S_ "AirfoilRefPoint" end.
Definition comment_of (e : entry) : bool := match e with Item d => it_comment d | _ => false end.
(** [self[k]] (fast_input_file.py:195-200, 241-243): the first entry whose label is [k] in any case *)
Definition find_entry (es : list entry) (k : str) : option entry := find (fun e => str_eqb (lower (label_of e)) (lower k)) es.
(** A number of lines: other values cannot be added to a line number (TypeError); None: not modelled *)
Definition count_of (es : list entry) (k : str) : option (res Z) :=
  match find_entry es k with
  | None => Some (Err KeyError)
  | Some (Item d) => match it_value d with VInt z => Some (Ok z) | VBool _ => None | _ => Some (Err TypeError) end
  | Some _ => None
  end.
Definition dim_of (es : list entry) (off : str) (k : dimvar) : option (res Z) :=
  match k with Const n => Some (Ok (Z.of_nat n)) | Key k => count_of es (k ++ off) end.

(** State of the loop (fast_input_file.py:376-384) *)
Record fstate := mk_fs { s_items : list entry; s_comments : nat; s_wrong : nat; s_allow : bool; s_nodal : bool;
                         s_off : str; s_itab : nat; s_vals : list trow; s_labs : list trow }.
Definition fpush (es : list entry) (st : fstate) : fstate :=
  mk_fs (s_items st ++ es) (s_comments st) (s_wrong st) (s_allow st) (s_nodal st) (s_off st) (s_itab st) (s_vals st) (s_labs st).
(** The safety checks after an entry (fast_input_file.py:613-635); [i] is already incremented *)
Definition fcheck (nl_ i : nat) (e : entry) (st : fstate) : res fstate :=
  let nC := if comment_of e then S (s_comments st) else s_comments st in
  let sc := negb (comment_of e) && hasSpecialChars (label_of e) in
  if sc && (3 <? i) then Err WrongFormatError else
  let nW := s_wrong st + (if sc then 1 else 0) + (if negb (comment_of e) && negb (nonempty (label_of e)) then 1 else 0) in
  if 35 * nl_ <? 100 * nC then Err WrongFormatError else
  if nl_ <? 10 * nW then Err WrongFormatError else
  Ok (mk_fs (s_items st ++ [e]) nC nW (s_allow st) (s_nodal st) (s_off st) (s_itab st) (s_vals st) (s_labs st)).

(** What happens after a line: the loop goes on at a line, or ends with the entries *)
Inductive outcome := Go (i : nat) (st : fstate) | Stop (es : list entry).
Definition relabel (l : str) (d : item) : item := mkItem (it_value d) l (it_comment d) (it_descr d) (it_tab d).
Definition set_labs (l : list trow) (st : fstate) : fstate :=
  mk_fs (s_items st) (s_comments st) (s_wrong st) (s_allow st) (s_nodal st) (s_off st) (s_itab st) (s_vals st) l.
Definition set_vals (l : list trow) (st : fstate) : fstate :=
  mk_fs (s_items st) (s_comments st) (s_wrong st) (s_allow st) (s_nodal st) (s_off st) (s_itab st) l (s_labs st).
Definition set_allow (st : fstate) : fstate :=
  mk_fs (s_items st) (s_comments st) (s_wrong st) true (s_nodal st) (s_off st) (s_itab st) (s_vals st) (s_labs st).
Definition set_off (o : str) (n : nat) (st : fstate) : fstate :=
  mk_fs (s_items st) (s_comments st) (s_wrong st) (s_allow st) (s_nodal st) o n (s_vals st) (s_labs st).
(** [check_item] and the next line *)
Definition go (lines : list str) (i : nat) (e : entry) (st : fstate) : res outcome :=
  st' <- fcheck (List.length lines) i e st ;; Ok (Go i st').

(** A table whose first line is [i] (fast_input_file.py:532, 579): a negative number of lines is refused by parseFASTNumTable,
    by its check of the number of lines or by the missing header *)
Definition block (lines : list str) (i : nat) (r : trow) (n : Z) : res (values V * option (list str) * option (list str)) :=
  if (n <? 0)%Z then broken
  else parse_table num zero (t_numeric r) (firstn (Z.to_nat n + t_heads r + t_offset r) (skipn i lines)) (Z.to_nat n) (t_heads r) (t_offset r).
Definition kind_of (numeric : bool) : tkind := if numeric then NumHeader else MixHeader.

(** Airfoil coordinates after NumCoords (fast_input_file.py:480-505): three lines, the reference point, two lines, the table
    with one point less, and the end of the loop *)
Definition line_at (lines : list str) (i : nat) : res str := match nth_error lines i with Some l => Ok l | None => Err IndexError end.
Definition parse_at (lines : list str) (i : nat) : res entry := l <- line_at lines i ;; d <- parse_line R false l ;; Ok (Item d).
(** [self['NumCoords']] is the first entry with that label *)
Definition coords (lines : list str) (i : nat) (d : item) (st : fstate) : option (res outcome) :=
  let st1 := fpush [Item d] st in
  match (e1 <- parse_at lines (i + 1) ;; e2 <- parse_at lines (i + 2) ;; e3 <- parse_at lines (i + 3) ;;
         l <- line_at lines (i + 4) ;; p <- ref_point num l ;;
         e5 <- parse_at lines (i + 5) ;; e6 <- parse_at lines (i + 6) ;; Ok (fpush [e1; e2; e3; Ref p; e5; e6] st1)) with
  | Err e => Some (Err e)
  | Ok st2 =>
      match count_of (s_items st2) (S_ "NumCoords") with
      | None => None
      | Some r => Some (n <- r ;;
                        if (n <? 1)%Z then broken else
                        '(v, ns, _) <- parse_table num zero true (firstn (Z.to_nat n) (skipn (i + 7) lines)) (Z.to_nat n - 1) 1 0 ;;
                        Ok (Stop (s_items st2 ++ [Tab (S_ "AirfoilCoord") [] NumCom (K "NumCoords") v ns (Some [S_ "(-)"; S_ "(-)"])])))
      end
  end.

(** The tables (fast_input_file.py:513-610) *)
Definition tables (lines : list str) (i : nat) (labelRaw : str) (d : item) (st : fstate) : option (res outcome) :=
  let by_value := match it_value d with VStr s => pick (lower s) (s_vals st) | _ => None end in
  match by_value with
  | Some (r, rest) =>
      if it_comment d then None else
      match dim_of (s_items st) [] (t_dim r) with
      | None => None
      | Some rn => Some (n <- rn ;;
                         '(v, ns, us) <- block lines i r n ;;
                         go lines (i + Z.to_nat n + t_heads r) (Tab (t_name r ++ s_off st) (it_descr d) (kind_of (t_numeric r)) (t_dim r) v ns us) (set_vals rest st))
      end
  | None =>
      match pick labelRaw (s_labs st) with
      | Some (r, rest) =>
          if it_comment d then None else
          let alf := str_eqb labelRaw (S_ "numalf") in
          let i0 := if alf then S i else i in
          let st0 := if alf then fpush [Item d] st else st in
          let descr := if alf then [] else it_descr d in
          let st1 := if 0 <? t_offset r
                     then fpush [Item (mkItem (if alf then VStr [] else it_value d) (it_label d ++ s_off st) false descr NOT_A_TAB)] st0 else st0 in
          match dim_of (s_items st1) (s_off st) (t_dim r) with
          | None => None
          | Some rn => Some (n <- rn ;;
                             '(v, ns, us) <- block lines i0 r n ;;
                             go lines (S (i0 + Z.to_nat n + 1 - t_offset r))
                                (Tab (t_name r ++ s_off st) descr (if str_eqb (lower (t_name r)) (S_ "afcoeff") then NumCom else kind_of (t_numeric r)) (t_dim r) v ns us)
                                (if alf then st1 else set_labs rest st1))
          end
      | None =>
          match find (fun p => str_eqb (lower (fst p)) (lower (it_label d))) file_rows with
          | Some (name, k) =>
              if it_comment d then None else
              match count_of (s_items st) k with
              | None => None
              | Some rn => Some (n <- rn ;;
                                 fs <- (if (n <? 0)%Z then Err PlainException else parse_files (firstn (Z.to_nat n) (skipn i lines)) (Z.to_nat n)) ;;
                                 go lines (i + Z.to_nat n) (Item (mkItem (VList (map VStr fs)) (name ++ s_off st) false (it_descr d) TAB_FIL)) st)
              end
          | None => Some (go lines (S i) (Item d) st)
          end
      end
  end.

(** A standard line (fast_input_file.py:458-635) *)
Definition standard (lines : list str) (i : nat) (st : fstate) : option (res outcome) :=
  match (l <- line_at lines i ;; parse_line R (s_allow st) l) with
  | Err e => Some (Err e)
  | Ok d0 =>
      let labelRaw := lower (it_label d0) in
      let d := relabel (it_label d0 ++ s_off st) d0 in
      if str_eqb labelRaw (S_ "kp_total") then tables lines i labelRaw d (set_allow st)
      else if str_eqb labelRaw (S_ "numcoords") then
        match it_value d with
        | VStr _ => tables lines i labelRaw d st
        | VInt z => if (z <=? 0)%Z then tables lines i labelRaw d st else coords lines i d st
        | _ => Some (Err WrongFormatError)
        end
      else if str_eqb labelRaw (S_ "re") then
        match find_entry (s_items st) (S_ "NumTabs") with
        | None => Some (Err KeyError)
        | Some (Item t) =>
            let later (many : bool) :=
              let off := if many then S_ "_" ++ str_of_N (N.of_nat (S (s_itab st))) else s_off st in
              tables lines i labelRaw (relabel (labelRaw ++ off) d) (set_off off (S (s_itab st)) st) in
            match it_value t with
            | VInt z => later (1 <? z)%Z
            | VBool _ => later false
            | VFloat _ => None
            | _ => Some (Err TypeError)
            end
        | Some _ => None
        end
      else tables lines i labelRaw d st
  end.

(** Nineteen lines of additional stiffness (fast_input_file.py:437-451) *)
Definition stiff_line (l : str) : bool := found_after0 (upper l) (S_ "ADDITIONAL STIFFNESS").
(** The sections of BeamDyn (fast_input_file.py:452-456) *)
Definition dist_line (l : str) : bool := found_after0 (upper l) (S_ "DISTRIBUTED PROPERTIES").
Definition the_end (es : list entry) : res outcome :=
  e1 <- parse_line R false END_LINE ;; e2 <- parse_line R false DASH_LINE ;; Ok (Stop (es ++ [Item e1; Item e2])).

(** One turn of the loop at line [i] (fast_input_file.py:386-635) *)
Definition turn (lines : list str) (i : nat) (line : str) (st : fstate) : option (res outcome) :=
  if outlist_line line then
    if negb (existsb is_word line) then Some (Err NotImplementedError) else
    match parseFASTOutList lines (S i) with
    | Err e => Some (Err e)
    | Ok (o, i') =>
        let lab := if s_nodal st then firstword line ++ S_ "_Nodal" else firstword line in
        let st := fpush [Item (mkItem (VList (VStr [] :: map VStr o)) lab false (remainer line) TAB_FIL)] st in
        match nth_error lines i' with
        | None => Some (Ok (Stop (s_items st)))
        | Some _ =>
            match nth_error lines (i' + 2) with
            | Some l2 =>
                if found_after0 (lower l2) (S_ "bldnd_bladesout") || found_after0 (lower l2) (S_ "bldnd_bloutnd")
                then standard lines i' (mk_fs (s_items st) (s_comments st) (s_wrong st) (s_allow st) true (s_off st) (s_itab st) (s_vals st) (s_labs st))
                else Some (the_end (s_items st))
            | None => Some (the_end (s_items st))
            end
        end
    end
  else if ssoutlist_line line then
    Some (d <- parse_line R false line ;; '(o, _) <- parseFASTOutList lines (S i) ;;
          the_end (s_items st ++ [Item d] ++ map (fun l => Item (comment_item l)) o))
  else if stiff_line line then
    match parse_line R false line with
    | Err e => Some (Err e)
    | Ok d =>
        let kd := firstn 19 (skipn (S i) lines) in
        if List.length kd <? 19 then Some (Err IndexError) else
        let st := fpush [Item d; Item (mkItem (VList (map VStr kd)) (S_ "KDAdd") false [] TAB_FIL)] st in
        if List.length lines <=? i + 20 then Some (Ok (Stop (s_items st))) else standard lines (i + 20) st
    end
  else if dist_line line then
    match parse_line R false line with
    | Err e => Some (Err e)
    | Ok d =>
        let es := s_items st ++ [Item d] in
        match count_of es (S_ "station_total") with
        | None => None
        | Some rn => Some (n <- rn ;;
                           if (n <? 0)%Z then Err ValueError else
                           l <- beamdyn_read num (Z.to_nat n) (skipn (S i) lines) ;; Ok (Stop (es ++ [Beam l])))
        end
    end
  else standard lines i st.

(** The while loop (fast_input_file.py:385-637); [fuel] bounds the number of turns *)
Fixpoint loop (fuel : nat) (lines : list str) (i : nat) (st : fstate) : option (res (list entry)) :=
  match nth_error lines i with
  | None => Some (Ok (s_items st))
  | Some line =>
      match fuel with
      | 0 => Some (Err OutOfFuel)
      | S fuel' => match turn lines i line st with
                   | None => None
                   | Some (Err e) => Some (Err e)
                   | Some (Ok (Stop es)) => Some (Ok es)
                   | Some (Ok (Go i' st')) => loop fuel' lines i' st'
                   end
      end
  end.

(** ** AeroDyn 14 airfoil files (fast_input_file.py:840-895) *)
(** The number of tables and their names, when the file is of that kind; None: not modelled (a negative number of tables) *)
Definition ad14_file (lines : list str) : option (option (nat * list str)) :=
  match nth_error lines 2, nth_error lines 3, nth_error lines 12, nth_error lines 13 with
  | Some l2, Some l3, Some l12, Some l13 =>
      match split_ws l2 with
      | w :: _ =>
          if negb (strIsInt w) then Some None else
          if (to_int w <? 0)%Z then None else
          let n := Z.to_nat (to_int w) in
          if List.length (split_ws l3) <=? n then Some None else
          match nth_error (split_ws l12) n, nth_error (split_ws l13) n with
          | Some a, Some b => if str_eqb (lower a) (S_ "angle") && str_eqb (lower b) (S_ "minimum")
                              then Some (Some (n, if n =? 1 then [[]] else firstn n (split_ws l3))) else Some None
          | _, _ => Some None
          end
      | [] => Some None
      end
  | _, _, _, _ => Some None
  end.
(** One of the lines 3 to 14: the value is the first word, everything else is the label (fast_input_file.py:863-870) *)
Definition ad14_line (l : str) : res entry :=
  match split_ws l with
  | [] => Err IndexError
  | w :: r => if strIsFloat w then Ok (Item (mkItem (VFloat (R w)) (join [sp] r) false (join [sp] r) NOT_A_TAB)) else Err ValueError
  end.
Fixpoint nonblank_run (ls : list str) : list str := match ls with [] => [] | l :: r => if nonempty (strip l) then l :: nonblank_run r else [] end.
Definition ad14_row (l : str) : res (list V) := mapM (fun w => match num w with Some v => Ok v | None => Err ValueError end) (split_ws l).
Definition ad14_rows (ls : list str) : res (nat * list (list V)) :=
  rows <- mapM ad14_row ls ;;
  match rows with
  | [] => Err IndexError
  | r :: _ => if forallb (fun x => List.length x =? List.length r) rows then Ok (List.length r, rows) else Err ValueError
  end.
Definition ad14_names (n width : nat) (ids : list str) : list str * option (list str) :=
  let named (ks : list string) := S_ "Alpha" :: flat_map (fun l => map (fun k => S_ k ++ l) ks) ids in
  let units := S_ "(deg)" :: repeat (S_ "(-)") (width - 1) in
  if width =? 1 + n * 3 then (named ["Cl"; "Cd"; "Cm"]%string, Some units)
  else if width =? 1 + n * 2 then (named ["Cl"; "Cd"]%string, Some units)
  else (map (fun j => S_ "col" ++ str_of_N (N.of_nat j)) (seq 0 width), None).
Definition ad14_read (n : nat) (ids : list str) (lines : list str) : res (list entry) :=
  heads <- mapM ad14_line (firstn 12 (skipn 2 lines)) ;;
  let body := nonblank_run (skipn 14 lines) in
  '(w, rows) <- ad14_rows body ;;
  let '(ns, us) := ad14_names n w ids in
  Ok (map (fun l => Item (mkItem (VStr l) [] true [] NOT_A_TAB)) (firstn 2 lines) ++ heads ++ [Tab (S_ "Polar") [] NumPlain (Const (List.length body)) (Nums rows) (Some ns) us]).

(** [_read] (fast_input_file.py:309-650) *)
Definition start : fstate := mk_fs [] 0 0 false false [] 0 val_rows lab_rows.
Definition read_file (fuel : nat) (text : str) : option (res (list entry)) :=
  let lines := splitlines text in
  if first_char_error lines then Some (Err IndexError)
  else if extptfm lines then None
  else match ad14_file lines with
       | None => None
       | Some (Some (n, ids)) => Some (ad14_read n ids lines)
       | Some None => loop fuel lines 0 start
       end.

(** ** [toString] on whole files (fast_input_file.py:653-734) *)
Variables fnum fexp fstr fspan fmat : V -> str.
Definition entry_str (e : entry) : res str :=
  match e with
  | Item d => match it_comment d, it_tab d, it_value d with
              | false, TAB_FIL, VList [] => Err IndexError
              | _, _, _ => Ok (item_str d)
              end
  | Tab _ _ NumHeader _ (Nums rows) ns us => Ok (num_table_str fnum ns us rows)
  | Tab _ _ MixHeader _ v (Some ns) us => Ok (mix_table_str fstr ns us v)
  | Tab _ _ NumCom _ (Nums rows) (Some ns) (Some us) => Ok (com_table_str fexp ns us rows)
  | Tab _ _ NumPlain _ _ _ _ => Err PlainException
  | Tab _ _ NumHeader _ (Cells _) _ _ => Err Unmodelled
  | Tab _ _ NumCom _ (Cells _) _ _ => Err Unmodelled
  | Tab _ _ MixHeader _ _ None _ => Err TypeError
  | Tab _ _ NumCom _ _ None _ => Err TypeError
  | Tab _ _ NumCom _ _ _ None => Err TypeError
  | Beam l => Ok (beamdyn_str fspan fmat l)
  | Ref p => Ok (ref_point_str fstr p)
  end.
Definition to_string (es : list entry) : res str := ls <- mapM entry_str es ;; Ok (join [nl] ls).
(** [_write] (fast_input_file.py:745-752): the file is opened for writing first; the text of the file afterwards, and the result *)
Definition write_file (es : list entry) : str * res unit :=
  match to_string es with Ok t => (t, Ok tt) | Err e => ([], Err e) end.
End File.
Arguments entry : clear implicits.
Arguments outcome : clear implicits.
Arguments fstate : clear implicits.
