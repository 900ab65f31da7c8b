(** Model of weio/fast_summary_file.py: SubDyn summary files, their mode shapes, JSON form and table.
    SIMPLIFICATIONS: doubles are exact rationals; a one-dimensional array is a matrix with one column; numpy.argsort is an
    arbitrary function [argsort]; the area to diameter formula (sqrt and pi) is an arbitrary function [diam]; the angular
    frequency of a mode is represented by the frequency it is computed from; writing the JSON file is not modelled. *)
From Verif Require Import Py Dict YAML_Model.
From Coq Require Import QArith Qabs Qreduction.
Local Open Scope nat_scope.

Section SubDyn.
Variable flt : str -> option Q.
Variable argsort : list (option Q) -> list nat.
Context {D : Type}.
Variable diam : Q -> D.
Notation obj := (@dict (yval Q)).
Notation mat := (nat * list (list Q))%type.

Fixpoint mapM {A B} (g : A -> res B) (l : list A) : res (list B) := match l with [] => Ok [] | x :: l' => y <- g x ;; ys <- mapM g l' ;; Ok (y :: ys) end.
(** [self[k]] *)
Definition item (d : obj) (k : str) : res (yval Q) := match get d k with Some v => Ok v | None => Err KeyError end.
Definition num (v : yval Q) : res mat :=
  match v with MatI c rows => Ok (c, map (map inject_Z) rows) | MatF c rows => Ok (c, rows) | _ => Err Unmodelled end.
Definition field (d : obj) (k : str) : res mat := v <- item d k ;; num v.
(** [M[:,j]] *)
Definition col {A} (c : nat) (rows : list (list A)) (j : nat) : res (list A) :=
  if Nat.ltb j c then mapM (fun r => match nth_error r j with Some x => Ok x | None => Err Unmodelled end) rows else Err IndexError.
(** [M.ravel()] *)
Definition ravel (m : mat) : list Q := List.concat (snd m).
Definition column (l : list Q) : yval Q := MatF 1 (map (fun x => [x]) l).
(** [M[:,j] -= 1], on rows *)
Fixpoint dec_at {A} (dec : A -> A) (j : nat) (r : list A) : list A := match r, j with [], _ => [] | x :: r', O => dec x :: r' | x :: r', S j' => x :: dec_at dec j' r' end.
Definition dec_col (v : yval Q) (j : nat) : res (yval Q) :=
  match v with
  | MatI c rows => if Nat.ltb j c then Ok (MatI c (map (dec_at Z.pred j) rows)) else Err IndexError
  | MatF c rows => if Nat.ltb j c then Ok (MatF c (map (dec_at (fun x => Qred (x - 1)) j) rows)) else Err IndexError
  | _ => Err Unmodelled
  end.
(** [M -= 1] *)
Definition dec_all (v : yval Q) : res (yval Q) :=
  match v with
  | MatI c rows => Ok (MatI c (map (map Z.pred) rows))
  | MatF c rows => Ok (MatF c (map (map (fun x => Qred (x - 1))) rows))
  | _ => Err Unmodelled
  end.
(** A sequence of statements on the dictionary; an exception keeps what was done. *)
Fixpoint steps (fs : list (obj -> res obj)) (d : obj) : obj * res unit :=
  match fs with [] => (d, Ok tt) | g :: fs' => match g d with Ok d' => steps fs' d' | Err e => (d, Err e) end end.
Definition change (k : str) (g : yval Q -> res (yval Q)) (d : obj) : res obj := v <- item d k ;; v' <- g v ;; Ok (put d k v').
(** fast_summary_file.py:104-105: a matrix with three columns gets the numbers of its lines in front *)
Definition number_lines (v : yval Q) : res (yval Q) :=
  match v with
  | MatI c rows => if Nat.eqb c 3 then Ok (MatI 4 (map (fun p => Z.of_nat (S (fst p)) :: snd p) (combine (seq 0 (List.length rows)) rows))) else Ok (MatI c rows)
  | _ => Err Unmodelled
  end.
(** readSubDynSum (fast_summary_file.py:97-115), after yaml_read *)
Definition coordinate (j : nat) (k : str) (d : obj) : res obj := m <- field d (S_ "Nodes") ;; x <- col (fst m) (snd m) j ;; Ok (put d k (column x)).
Definition treatment : list (obj -> res obj) :=
  [change (S_ "DOF2Nodes") number_lines;
   change (S_ "DOF2Nodes") (fun v => dec_col v 0);
   change (S_ "DOF___L") dec_all; change (S_ "DOF___B") dec_all; change (S_ "DOF___F") dec_all;
   change (S_ "CB_frequencies") (fun v => m <- num v ;; Ok (column (ravel m)));
   coordinate 1 (S_ "X"); coordinate 2 (S_ "Y"); coordinate 3 (S_ "Z")].
Definition readSubDynSum (d : obj) (text : str) : obj * res unit :=
  match yaml_read flt d text with (d', Ok _) => steps treatment d' | (d', Err e) => (d', Err e) end.
(** Does a text contain another one *)
Fixpoint contains (s t : str) : bool := startswith s t || match s with [] => false | _ :: s' => contains s' t end.
(** read (fast_summary_file.py:49-67): [content] is None when there is no such file.  The first five lines are looked at. *)
Definition read_summary (d : obj) (content : option str) : obj * res unit :=
  match content with
  | None => (d, Err OSError2)
  | Some [] => (d, Err EmptyFileError)
  | Some text =>
    if existsb (fun l => contains (lower (strip l)) (S_ "subdyn")) (firstn 5 (split_chr nl text))
    then readSubDynSum (put d (S_ "module") (Txt (S_ "SubDyn"))) text
    else (d, Err NotImplementedError)
  end.

(** *** NodesDisp (fast_summary_file.py:118-153) *)
(** [l[i]], negative from the end *)
Definition pyget {A} (l : list A) (i : Z) : res A :=
  let k := if (i <? 0)%Z then (Z.of_nat (List.length l) + i)%Z else i in
  if (k <? 0)%Z then Err IndexError else match nth_error l (Z.to_nat k) with Some x => Ok x | None => Err IndexError end.
Definition at_ {A} (r : list A) (j : nat) : res A := match nth_error r j with Some x => Ok x | None => Err IndexError end.
(** [np.sort(np.unique(l))] *)
Fixpoint insert (x : Z) (l : list Z) : list Z :=
  match l with [] => [x] | y :: l' => if (x <? y)%Z then x :: l else if (x =? y)%Z then l else y :: insert x l' end.
Definition sort_unique (l : list Z) : list Z := fold_right insert [] l.
Fixpoint index_of (x : Z) (l : list Z) : nat := match l with [] => 0 | y :: l' => if (y =? x)%Z then 0 else S (index_of x l') end.
Definition upd2 {A} (g : nat -> nat -> A) (i j : nat) (v : A) : nat -> nat -> A := fun a b => if Nat.eqb a i && Nat.eqb b j then v else g a b.
Definition upd3 {A} (g : nat -> nat -> nat -> A) (i j k : nat) (v : A) : nat -> nat -> nat -> A := fun a b c => if Nat.eqb a i && Nat.eqb b j && Nat.eqb c k then v else g a b c.
(** The index on an axis of three *)
Definition axis3 (i : Z) : res nat := let k := if (i <? 0)%Z then (3 + i)%Z else i in if ((k <? 0) || (3 <=? k))%Z then Err IndexError else Ok (Z.to_nat k).
Record shapes := mk_shapes { sh_disp : nat -> nat -> nat -> option Q; sh_pos : nat -> nat -> option Q }.
Fixpoint set_row (disp : nat -> nat -> nat -> option Q) (ii jj k : nat) (us : list Q) : nat -> nat -> nat -> option Q :=
  match us with [] => disp | u :: us' => set_row (upd3 disp ii jj k (Some u)) ii jj (S k) us' end.
Fixpoint scatter (d2n : list (list Z)) (X Y Z_ : list Q) (INodes : list Z) (n : nat) (U : list (list Q)) (i : nat) (IDOF : list Z) (s : shapes) : res shapes :=
  match IDOF with
  | [] => Ok s
  | iDOF :: rest =>
    row <- pyget d2n iDOF ;; iNode <- at_ row 1 ;; _ <- at_ row 2 ;; nodeDOF <- at_ row 3 ;;
    let ii := index_of iNode INodes in
    s' <- (if (nodeDOF <=? 3)%Z then
             x <- pyget X (iNode - 1) ;; y <- pyget Y (iNode - 1) ;; z <- pyget Z_ (iNode - 1) ;;
             let pos := upd2 (upd2 (upd2 (sh_pos s) ii 0 (Some x)) ii 1 (Some y)) ii 2 (Some z) in
             if Nat.eqb n 0 then Ok (mk_shapes (sh_disp s) pos) else
             jj <- axis3 (nodeDOF - 1) ;; us <- at_ U i ;;
             Ok (mk_shapes (set_row (sh_disp s) ii jj 0 us) pos)
           else Ok s) ;;
    scatter d2n X Y Z_ INodes n U (S i) rest s'
  end.
(** Arrays as lists: node, dimension, shape *)
Notation disp_t := (list (list (list (option Q)))).
Notation pos_t := (list (list (option Q))).
Definition table3 (a c : nat) (g : nat -> nat -> nat -> option Q) : disp_t := map (fun i => map (fun j => map (g i j) (seq 0 c)) (seq 0 3)) (seq 0 a).
Definition table2 (a : nat) (g : nat -> nat -> option Q) : pos_t := map (fun i => map (g i) (seq 0 3)) (seq 0 a).
(** [np.nanmax(np.abs(l))]: None is NaN (nothing but NaN); a zero-size array raises ValueError *)
Definition qmax (a b : Q) : Q := if Qle_bool a b then b else a.
Definition nanmax_abs (l : list (option Q)) : option Q :=
  fold_right (fun x m => match x, m with Some v, Some w => Some (qmax (Qabs v) w) | Some v, None => Some (Qabs v) | None, m => m end) None l.
Definition shape_values (disp : disp_t) (k : nat) : list (option Q) := flat_map (fun nd => map (fun v => nth k v None) nd) disp.
Definition scale_shape (maxDisp : Q) (disp : disp_t) (k : nat) : res disp_t :=
  match shape_values disp k with
  | [] => Err ValueError
  | vs => match nanmax_abs vs with
          | Some mD => if negb (Qle_bool mD (1 # 100000)) then
                         Ok (map (map (fun v => map (fun p => if Nat.eqb (fst p) k then option_map (fun x => x * (maxDisp / mD)) (snd p) else snd p)%Q (combine (seq 0 (List.length v)) v))) disp)
                       else Ok disp
          | None => Ok disp
          end
  end.
Fixpoint scale (maxDisp : Q) (disp : disp_t) (ks : list nat) : res disp_t := match ks with [] => Ok disp | k :: ks' => d <- scale_shape maxDisp disp k ;; scale maxDisp d ks' end.
Definition take {A} (l : list A) (I : list nat) : res (list A) := mapM (fun i => at_ l i) I.
Definition NodesDisp (d : obj) (IDOF : list Z) (U : mat) (maxDisp : option Q) (sortDim : option nat) : res (disp_t * pos_t * list Z) :=
  v <- item d (S_ "DOF2Nodes") ;;
  match v with
  | MatI c d2n =>
    inodes <- mapM (fun i => row <- pyget d2n i ;; at_ row 1) IDOF ;;
    let INodes := sort_unique inodes in
    let n := fst U in let a := List.length INodes in
    X <- field d (S_ "X") ;; Y <- field d (S_ "Y") ;; Z_ <- field d (S_ "Z") ;;
    s <- scatter d2n (ravel X) (ravel Y) (ravel Z_) INodes n (snd U) 0 IDOF (mk_shapes (fun _ _ _ => None) (fun _ _ => None)) ;;
    let pos := table2 a (sh_pos s) in
    disp <- match maxDisp with Some m => scale m (table3 a n (sh_disp s)) (seq 0 n) | None => Ok (table3 a n (sh_disp s)) end ;;
    match sortDim with
    | None => Ok (disp, pos, INodes)
    | Some j => let I := argsort (map (fun p => nth j p None) pos) in
                INodes' <- take INodes I ;; disp' <- take disp I ;; pos' <- take pos I ;; Ok (disp', pos', INodes')
    end
  | _ => Err Unmodelled
  end.

(** *** getModes (fast_summary_file.py:155-181): [self_] is the object that was read last, [data] the one of the call *)
Definition qmin (a b : Q) : Q := if Qle_bool a b then a else b.
Definition extent (m : mat) : res Q := match ravel m with [] => Err ValueError | x :: l => Ok (fold_left qmax l x - fold_left qmin l x)%Q end.
Definition default_max (self_ : obj) : res Q :=
  X <- field self_ (S_ "X") ;; dx <- extent X ;; Y <- field self_ (S_ "Y") ;; dy <- extent Y ;; Z_ <- field self_ (S_ "Z") ;; dz <- extent Z_ ;;
  Ok (qmax (qmax dx dy) dz * (1 # 10))%Q.
(** [np.zeros((n,c))], [np.eye(n)] and [np.vstack] *)
Definition zeros (n c : nat) : mat := (c, repeat (repeat 0%Q c) n).
Definition eye (n : nat) : mat := (n, map (fun i => map (fun j => if Nat.eqb i j then 1%Q else 0%Q) (seq 0 n)) (seq 0 n)).
Definition vstack3 (a b c : mat) : res mat := if Nat.eqb (fst a) (fst b) && Nat.eqb (fst b) (fst c) then Ok (fst a, snd a ++ snd b ++ snd c) else Err ValueError.
(** [.astype(int)]: towards zero *)
Definition trunc (q : Q) : Z := Z.quot (Qnum q) (Z.pos (Qden q)).
Definition getModes (self_ data : obj) (maxDisp : option Q) (sortDim : option nat) : res (disp_t * pos_t * list Z * (disp_t * pos_t * list Z)) :=
  m <- match maxDisp with Some m => Ok m | None => default_max self_ end ;;
  B <- field data (S_ "DOF___B") ;; F <- field data (S_ "DOF___F") ;; L <- field data (S_ "DOF___L") ;;
  let nB := List.length (ravel B) in let nF := List.length (ravel F) in
  let K := map trunc (ravel B ++ ravel L ++ ravel F) in
  PhiM <- field data (S_ "PhiM") ;;
  Phi_CB <- vstack3 (zeros nB (fst PhiM)) PhiM (zeros nF (fst PhiM)) ;;
  cb <- NodesDisp data K Phi_CB (Some m) sortDim ;;
  PhiR <- field data (S_ "PhiR") ;;
  Phi_G <- vstack3 (eye nB) PhiR (zeros nF (fst PhiR)) ;;
  gy <- NodesDisp data K Phi_G (Some m) sortDim ;;
  Ok (gy, cb).

(** *** toJSON (fast_summary_file.py:184-225) *)
Record mode := mk_mode { m_name : str; m_freq : option Q; m_displ : list (list (option Q)) }.
Record json := mk_json { j_conn : list (list Z); j_nodes : list (list Q); j_props : list (Z * D); j_modes : list mode; j_ground : Q }.
Definition shape (disp : disp_t) (k : nat) : res (list (list (option Q))) := mapM (fun nd => mapM (fun v => at_ v k) nd) disp.
(** The number of shapes, [disp.shape[2]]; the number is known without any node *)
Definition modes (pre : str) (freq : nat -> res (option Q)) (disp : disp_t) (n : nat) : res (list mode) :=
  mapM (fun k => f <- freq k ;; s <- shape disp k ;; Ok (mk_mode (pre ++ str_of_N (N.of_nat (S k))) f s)) (seq 0 n).
Definition pick {A} (c : nat) (rows : list (list A)) (js : list nat) : res (list (list A)) :=
  if forallb (fun j => Nat.ltb j c) js then mapM (fun r => mapM (fun j => at_ r j) js) rows else Err IndexError.
Definition to_json (self_ data : obj) : obj * res json :=
  match getModes self_ data None (Some 2) with
  | Err e => (self_, Err e)
  | Ok (gy, cb) =>
    let '(self1, r) := steps [fun d => _ <- item d (S_ "Nodes") ;; Ok d;
                             change (S_ "Elements") (fun v => dec_col v 0); change (S_ "Elements") (fun v => dec_col v 1); change (S_ "Elements") (fun v => dec_col v 2)] self_ in
    (self1,
     _ <- r ;;
     nodes <- field self1 (S_ "Nodes") ;; elements <- field self1 (S_ "Elements") ;;
     freq <- field data (S_ "CB_frequencies") ;;
     conn <- pick (fst elements) (snd elements) [1; 2] ;;
     xyz <- pick (fst nodes) (snd nodes) [1; 2; 3] ;;
     props <- mapM (fun e => t <- at_ e 5 ;; a <- at_ e 7 ;; Ok (trunc t, diam a)) (snd elements) ;;
     nB <- field data (S_ "PhiR") ;; nM <- field data (S_ "PhiM") ;;
     g <- modes (S_ "GY") (fun _ => Ok None) (fst (fst gy)) (fst nB) ;;
     c <- modes (S_ "CB") (fun k => f <- at_ (ravel freq) k ;; Ok (Some f)) (fst (fst cb)) (fst nM) ;;
     Z_ <- field data (S_ "Z") ;;
     ground <- match ravel Z_ with [] => Err ValueError | z :: l => Ok (fold_left qmin l z) end ;;
     Ok (mk_json (map (map trunc) conn) xyz props (g ++ c) ground))
  end.

(** *** toDataFrame (fast_summary_file.py:228-258): the columns of the table, with their values *)
Definition zero_nan (disp : disp_t) : disp_t := map (map (map (fun v => match v with Some x => Some x | None => Some 0%Q end))) disp.
Definition dims : list (nat * str) := [(0, S_ "x_[m]"); (1, S_ "y_[m]"); (2, S_ "z_[m]")].
Definition plus (a b : option Q) : option Q := match a, b with Some x, Some y => Some (x + y)%Q | _, _ => None end.
Definition column_of (disp : disp_t) (j k : nat) : list (option Q) := map (fun nd => nth k (nth j nd []) None) disp.
Definition is_zero (v : option Q) : bool := match v with Some x => Qeq_bool x 0 | None => false end.
(** The columns of one kind of modes: positions plus displacements, and displacements; shapes that are zero are left out *)
Definition mode_columns (pos : pos_t) (disp0 : disp_t) (n : nat) (pre kind : str) (total : bool) : list (str * list (option Q)) :=
  let disp := zero_nan disp0 in
  flat_map (fun k => flat_map (fun jd => let c := column_of disp (fst jd) k in
                                 if forallb is_zero c then [] else
                                 [(pre ++ kind ++ str_of_N (N.of_nat (S k)) ++ snd jd, if total then map (fun p => plus (nth (fst jd) (fst p) None) (snd p)) (combine pos c) else c)]) dims) (seq 0 n).
Definition to_table (self_ data : obj) : res (list (str * list (option Q))) :=
  '(gy, cb) <- getModes self_ data None (Some 2) ;;
  PhiR <- field data (S_ "PhiR") ;; PhiM <- field data (S_ "PhiM") ;;
  let '(dispG, posG, _) := gy in let '(dispC, posC, _) := cb in
  let pcol j := map (fun p => nth j p None) posG in
  Ok ([(S_ "z_[m]", pcol 2); (S_ "x_[m]", pcol 0); (S_ "y_[m]", pcol 1)]
      ++ mode_columns posG dispG (fst PhiR) (S_ "Guyan") (S_ "Mode") true ++ mode_columns posC dispC (fst PhiM) (S_ "CB") (S_ "Mode") true
      ++ mode_columns posG dispG (fst PhiR) (S_ "Guyan") (S_ "Disp") false ++ mode_columns posC dispC (fst PhiM) (S_ "CB") (S_ "Disp") false).

(** *** Several summary objects.  The methods are attributes of the class, set at each reading; they keep the object that was
    read (fast_summary_file.py:260-264). *)
Record world := mk_world { w_objs : nat -> obj; w_last : option nat }.
Definition set_obj (w : nat -> obj) (o : nat) (d : obj) : nat -> obj := fun i => if Nat.eqb i o then d else w i.
Definition w_read (w : world) (o : nat) (content : option str) : world * res unit :=
  let '(d, r) := read_summary (w_objs w o) content in
  (mk_world (set_obj (w_objs w) o d) (match r with Ok _ => Some o | Err _ => w_last w end), r).
Definition w_json (w : world) (o : nat) : world * res json :=
  match w_last w with
  | None => (w, Err AttributeError)
  | Some s => let '(d, r) := to_json (w_objs w s) (w_objs w o) in (mk_world (set_obj (w_objs w) s d) (Some s), r)
  end.
(** Before any reading, toDataFrame is the one of the class (fast_summary_file.py:69-75): it raises an exception. *)
Definition w_table (w : world) (o : nat) : res (list (str * list (option Q))) :=
  match w_last w with None => Err PlainException | Some s => to_table (w_objs w s) (w_objs w o) end.
End SubDyn.
Arguments json : clear implicits.
