(** Model of the dedicated FAST input files (weio/fast_input_file.py): the choice of the class (lines 75-90), the checks before
    writing and the writers of blades and polars (lines 1303-1655), and the mode shapes that are added to the data frames of towers
    and blades (lines 762-795, 1356-1377).
    SIMPLIFICATIONS: values are those of FASTFile_Model; warnings that are printed are left out; opening the file for writing
    succeeds or raises an OSError (here with the number 2), which is an argument; [None] is the answer for what is not modelled: a table under the name of a number,
    a number of tables that is not an integer, and ExtPtfm files. *)
From Verif Require Import Py FASTIn_Model FASTTab_Model FASTFile_Model.
From Coq Require Import QArith.
Local Open Scope nat_scope.

Section Spec.
Context {V : Type}.
Local Notation ent := (FASTFile_Model.entry V).

(** [keys()] (fast_input_file.py:191-193) without [_IComment], as the base class has it *)
Definition keys_of (es : list ent) : list str := map label_of (filter (fun e => negb (comment_of e)) es).
Definition has_label (k : string) (l : list str) : bool := existsb (str_eqb (S_ k)) l.
(** The dedicated classes (fast_input_file.py:75-90) for data that do not come from an ExtPtfm file *)
Inductive kind := ADBlade | EDBlade | ADPolar | Base.
Definition fixed_format (es : list ent) : kind :=
  let k := keys_of es in
  if has_label "NumBlNds" k then ADBlade
  else if has_label "NBlInpSt" k then EDBlade
  else if has_label "NumCoords" k && has_label "InterpOrd" k then ADPolar
  else Base.

(** [self[key]=n] (fast_input_file.py:236-239): all the entries of that label; None: a table has that label *)
Definition is_label (k : str) (e : ent) : bool := str_eqb (lower (label_of e)) (lower k).
Fixpoint set_number (k : str) (n : Z) (es : list ent) : option (list ent) :=
  match es with
  | [] => Some []
  | e :: es' =>
      match set_number k n es' with
      | None => None
      | Some r => if is_label k e then match e with Item d => Some (Item (set_value (VInt n) d) :: r) | _ => None end else Some (e :: r)
      end
  end.
(** [self[key].shape] (fast_input_file.py:1348, 1414, 1562): numbers of rows and columns; other values have no shape *)
Definition shape_of (k : str) (es : list ent) : res (nat * nat) :=
  match find_entry es k with
  | None => Err KeyError
  | Some (Tab _ _ _ _ (Nums rows) (Some ns) _) => Ok (List.length rows, match rows with r :: _ => List.length r | [] => List.length ns end)
  | Some (Tab _ _ _ _ (Nums rows) None _) => Ok (List.length rows, match rows with r :: _ => List.length r | [] => 0 end)
  | Some (Tab _ _ _ _ (Cells rows) _ _) => Ok (List.length rows, match rows with r :: _ => List.length r | [] => 0 end)
  | Some _ => Err AttributeError
  end.
(** A value that can be summed (fast_input_file.py:1351) *)
Definition number_of (k : str) (es : list ent) : res unit :=
  match find_entry es k with
  | None => Err KeyError
  | Some (Item d) => match it_value d with VInt _ | VFloat _ | VBool _ => Ok tt | _ => Err TypeError end
  | Some _ => Err Unmodelled
  end.
Fixpoint all_numbers (ks : list str) (es : list ent) : res unit :=
  match ks with [] => Ok tt | k :: ks' => _ <- number_of k es ;; all_numbers ks' es end.
(** ['BldFl1Sh(2)'] to ['BldEdgSh(6)'] (fast_input_file.py:1350-1351): the sum of a mode is made after its five values are found *)
Definition coeff (s : string) (i : nat) : str := S_ s ++ S_ "(" ++ str_of_N (N.of_nat i) ++ S_ ")".
Definition ED_SHAPES : list string := ["BldFl1Sh"; "BldFl2Sh"; "BldEdgSh"]%string.
Fixpoint present (ks : list str) (es : list ent) : res unit :=
  match ks with [] => Ok tt | k :: ks' => match find_entry es k with None => Err KeyError | Some _ => present ks' es end end.
Definition shape_check (es : list ent) (s : string) : res unit :=
  let ks := map (coeff s) [2; 3; 4; 5; 6] in _ <- present ks es ;; all_numbers ks es.
Fixpoint each {A} (f : A -> res unit) (l : list A) : res unit := match l with [] => Ok tt | x :: l' => _ <- f x ;; each f l' end.

(** The checks before writing: the data afterwards and the result (fast_input_file.py:1346-1354, 1412-1421, 1558-1567) *)
Definition checked := option (list ent * res unit).
Definition set_rows (key tab : str) (es : list ent) (k : list ent -> nat * nat -> res unit) : checked :=
  match shape_of tab es with
  | Err e => Some (es, Err e)
  | Ok (n, m) => match set_number key (Z.of_nat n) es with None => None | Some es' => Some (es', k es' (n, m)) end
  end.
Definition check_ED (es : list ent) : checked := set_rows (S_ "NBlInpSt") (S_ "BldProp") es (fun es' _ => each (shape_check es') ED_SHAPES).
(** [np.gradient] needs two nodes (ValueError), and there is a fourth column (IndexError); columns 0 and 1 are used before the gradients *)
Definition check_AD (es : list ent) : checked :=
  set_rows (S_ "NumBlNds") (S_ "BldAeroNodes") es
    (fun _ '(n, m) => if m <? 1 then Err IndexError else if n <? 2 then Err ValueError else if m <? 4 then Err IndexError else Ok tt).
(** The numbers of tables that are modelled: integers, True and False *)
Definition tabs_of (es : list ent) : option (res Z) :=
  match find_entry es (S_ "NumTabs") with
  | None => Some (Err KeyError)
  | Some (Item d) => match it_value d with VInt z => Some (Ok z) | VBool b => Some (Ok (if b then 1 else 0)%Z) | _ => None end
  | Some _ => None
  end.
Definition offset (i : nat) : str := S_ "_" ++ str_of_N (N.of_nat i).
Fixpoint check_tabs (l : list nat) (es : list ent) : checked :=
  match l with
  | [] => Some (es, Ok tt)
  | i :: l' => match set_rows (S_ "NumAlf" ++ offset i) (S_ "AFCoeff" ++ offset i) es (fun _ _ => Ok tt) with
               | Some (es', Ok _) => check_tabs l' es'
               | r => r
               end
  end.
Definition check_polar (es : list ent) : checked :=
  match tabs_of es with
  | None => None
  | Some (Err e) => Some (es, Err e)
  | Some (Ok z) => if (z =? 1)%Z then set_rows (S_ "NumAlf") (S_ "AFCoeff") es (fun _ _ => Ok tt) else check_tabs (seq 1 (Z.to_nat z)) es
  end.

(** The labels of the format (fast_input_file.py:1575) *)
Definition LABS : list string := ["Re"; "Ctrl"; "UserProp"; "alpha0"; "alpha1"; "alpha2"; "eta_e"; "C_nalpha"; "T_f0"; "T_V0"; "T_p"; "T_VL"; "b1"; "b2"; "b5"; "A1"; "A2"; "A5"; "S1"; "S2"; "S3"; "S4"; "Cn1"; "Cn2"; "St_sh"; "Cd0"; "Cm0"; "k0"; "k1"; "k2"; "k3"; "k1_hat"; "x_cp_bar"; "UACutout"; "filtCutOff"; "InclUAdata"; "NumAlf"; "AFCoeff"]%string.
Definition put_label (l : str) (e : ent) : ent :=
  match e with
  | Item d => Item (relabel l d)
  | Tab _ ds k dm v ns us => Tab l ds k dm v ns us
  | e => e
  end.
(** [getIDSafe] (fast_input_file.py:215-221) *)
Fixpoint index_of (k : str) (es : list ent) : option nat :=
  match es with [] => None | e :: es' => if is_label k e then Some 0 else option_map S (index_of k es') end.
Fixpoint update {A} (i : nat) (f : A -> A) (l : list A) : list A := match l, i with [], _ => [] | x :: l', O => f x :: l' | x :: l', S i' => x :: update i' f l' end.
(** One label (fast_input_file.py:1582-1584): only if its position is positive *)
Definition strip1 (es : list ent) (p : str * str) : list ent :=
  match index_of (fst p) es with Some (S i) => update (S i) (put_label (snd p)) es | _ => es end.
Definition targets (n : nat) : list (str * str) := flat_map (fun i => map (fun l => (S_ l ++ offset i, S_ l)) LABS) (seq 1 n).
Definition strip_labels (n : nat) (es : list ent) : list ent := fold_left strip1 (targets n) es.
(** The labels are put back (fast_input_file.py:1589-1590) *)
Fixpoint restore (labels : list str) (es : list ent) : list ent := match labels, es with l :: ls, e :: es' => put_label l e :: restore ls es' | _, _ => es end.

Variables fnum fexp fstr fspan fmat : V -> str.
(** What a write leaves: the data of the object, the content of the file ([None]: as it was), and the result *)
Record written_ := mk_written { w_data : list ent; w_file : option str; w_result : res unit }.
(** [open(...,'w')] and [f.write(self.toString())]; [can_open] says whether the file can be opened *)
Definition put_file (can_open : bool) (es : list ent) (after : list ent -> list ent) : written_ :=
  if can_open then
    match to_string fnum fexp fstr fspan fmat es with
    | Ok t => mk_written (after es) (Some t) (Ok tt)
    | Err e => mk_written es (Some []) (Err e)
    end
  else mk_written es None (Err OSError2).
Definition checked_write (can_open : bool) (c : checked) : option written_ :=
  match c with
  | None => None
  | Some (es, Err e) => Some (mk_written es None (Err e))
  | Some (es, Ok _) => Some (put_file can_open es (fun x => x))
  end.
(** [ADPolarFile._write] (fast_input_file.py:1570-1590) *)
Definition write_polar (can_open : bool) (es : list ent) : option written_ :=
  match tabs_of es with
  | None => None
  | Some (Err e) => Some (mk_written es None (Err e))
  | Some (Ok z) =>
      if (z =? 1)%Z then checked_write can_open (check_polar es)
      else match check_polar es with
           | None => None
           | Some (es, Err e) => Some (mk_written es None (Err e))
           | Some (es, Ok _) => Some (put_file can_open (strip_labels (Z.to_nat z) es) (restore (map label_of es)))
           end
  end.
(** [FASTInputFile.write] *)
Definition write_fixed (can_open : bool) (es : list ent) : option written_ :=
  match fixed_format es with
  | ADBlade => checked_write can_open (check_AD es)
  | EDBlade => checked_write can_open (check_ED es)
  | ADPolar => write_polar can_open es
  | Base => checked_write can_open (Some (es, Ok tt))
  end.
End Spec.
Arguments written_ : clear implicits.

(** ** Mode shapes (fast_input_file.py:762-795, 1356-1377), on exact numbers *)
Local Open Scope Q_scope.
Section Shapes.
(** The number in a cell of the dictionary *)
Variable value : val -> option Q.
Definition get_number (es : list (FASTFile_Model.entry Q)) (k : str) : res Q :=
  match find_entry es k with
  | None => Err KeyError
  | Some (Item d) => match value (it_value d) with Some q => Ok q | None => Err Unmodelled end
  | Some _ => Err Unmodelled
  end.
(** [x**2 * self['s(2)'] + ... + x**6 * self['s(6)']] *)
Definition mode (es : list (FASTFile_Model.entry Q)) (s : string) : res (Q -> Q) :=
  c2 <- get_number es (coeff s 2) ;; c3 <- get_number es (coeff s 3) ;; c4 <- get_number es (coeff s 4) ;;
  c5 <- get_number es (coeff s 5) ;; c6 <- get_number es (coeff s 6) ;;
  Ok (fun x => x ^ 2 * c2 + x ^ 3 * c3 + x ^ 4 * c4 + x ^ 5 * c5 + x ^ 6 * c6).
Definition modes (es : list (FASTFile_Model.entry Q)) (ss : list string) : res (list (Q -> Q)) := mapM (mode es) ss.
Definition TOWER : list string := ["TwFAM1Sh"; "TwFAM2Sh"; "TwSSM1Sh"; "TwSSM2Sh"]%string.
Definition TOWER_COLS : list str := map S_ ["ShapeForeAft1_[-]"; "ShapeForeAft2_[-]"; "ShapeSideSide1_[-]"; "ShapeSideSide2_[-]"]%string.
Definition ED_COLS : list str := map S_ ["ShapeFlap1_[-]"; "ShapeFlap2_[-]"; "ShapeEdge1_[-]"]%string.
(** [x=Val[:,0]] (fast_input_file.py:766); a row without a column is not modelled *)
Definition first_cell (r : list Q) : res Q := match r with x :: _ => Ok x | [] => Err IndexError end.
(** [self.getIDSafe(key)>0] *)
Definition after_first (k : str) (es : list (FASTFile_Model.entry Q)) : bool := match index_of k es with Some (S _) => true | _ => false end.
Definition add_modes (fs : list (Q -> Q)) (x : Q) (r : list Q) : list Q := r ++ map (fun f => f x) fs.
(** The frame of a numerical table in the base class (fast_input_file.py:751-800) *)
Definition base_frame (es : list (FASTFile_Model.entry Q)) (names : list str) (units : option (list str)) (rows : list (list Q)) : res (list str * list (list Q)) :=
  if after_first (S_ "TwFAM1Sh(2)") es then
    xs <- mapM first_cell rows ;;
    fs <- modes es TOWER ;;
    let rows' := map (fun p => add_modes fs (fst p) (snd p)) (combine xs rows) in
    let cols := table_columns names units ++ TOWER_COLS in
    if Nat.eqb (match rows' with r :: _ => List.length r | [] => List.length names + 4 end) (List.length cols) then Ok (cols, rows') else Err ValueError
  else frame names units rows.
(** The frame of an ElastoDyn blade (fast_input_file.py:1356-1377): [x] is the column called BlFract_[-] *)
Definition position (k : str) (l : list str) : option nat := (fix go l i := match l with [] => None | x :: l' => if str_eqb x k then Some i else go l' (S i) end) l O.
Definition cell_at (i : nat) (r : list Q) : res Q := match nth_error r i with Some x => Ok x | None => Err IndexError end.
Definition blade_frame (es : list (FASTFile_Model.entry Q)) (names : list str) (units : option (list str)) (rows : list (list Q)) : res (list str * list (list Q)) :=
  '(cols, rows) <- base_frame es names units rows ;;
  match position (S_ "BlFract_[-]") cols with
  | None => Err KeyError
  | Some i => xs <- mapM (cell_at i) rows ;; fs <- modes es ED_SHAPES ;;
              Ok (cols ++ ED_COLS, map (fun p => add_modes fs (fst p) (snd p)) (combine xs rows))
  end.
End Shapes.
